(* C79: what the file given with --modify sets. *)
From Coq Require Import ZArith List Bool Ascii String Lia ZifyBool.
From Verif Require Import ModifyModel ModifySpec ModifyProofs.
Import ListNotations.
Open Scope string_scope.
Open Scope list_scope.
Open Scope Z_scope.
Ltac Zify.zify_post_hook ::= idtac.

Section C79.
  (* any type of the quota, any conversion %le *)
  Variable D : Type.
  Variable scan_le : list ascii -> option D.
  Notation st := (settings D).
  Notation modify_ := (modify D scan_le).

  Definition get (k : setting) (s : st) : Z :=
    match k with S_num_step => num_step D s | S_checkpt => checkpt_interval D s | S_hydro => hydro_interval D s | S_field => field_interval D s | S_particle => particle_interval D s end.
  (* the line names the quota: white space, then something %le reads as d *)
  Definition says_quota (d : D) (line : list ascii) : Prop :=
    exists ws rest, line = list_ascii_of_string "quota" ++ ws ++ rest /\ Forall white ws /\ match rest with [] => True | c :: _ => ~ white c end /\ scan_le rest = Some d.
  (* what one line does to the settings *)
  Definition effect (line : list ascii) (s s' : st) : Prop :=
    (exists k v, says (name_of k) v line /\ in_int v /\ get k s' = value_of k v /\ (forall j, j <> k -> get j s' = get j s) /\ quota D s' = quota D s) \/
    (exists d, says_quota d line /\ quota D s' = d /\ forall j, get j s' = get j s) \/
    ((forall k v, ~ says (name_of k) v line) /\ (forall d, ~ says_quota d line) /\ s' = s).
  Inductive effects : list (list ascii) -> st -> st -> Prop :=
    | effects_nil : forall s, effects [] s s
    | effects_cons : forall l ls s s' s'', effect l s s' -> effects ls s' s'' -> effects (l :: ls) s s''.

  Lemma get_ext : forall s s' : st, quota D s = quota D s' -> (forall k, get k s = get k s') -> s = s'.
  Proof.
    intros [q a b c d e] [q' a' b' c' d' e'] Q G. cbn in Q. pose proof (G S_num_step). pose proof (G S_checkpt). pose proof (G S_hydro). pose proof (G S_field). pose proof (G S_particle). cbn in *. congruence.
  Qed.
  Lemma quota_spec : forall line s, (exists d, says_quota d line /\ test_quota D scan_le line s = mk_settings D d (num_step D s) (checkpt_interval D s) (hydro_interval D s) (field_interval D s) (particle_interval D s)) \/
    ((forall d, ~ says_quota d line) /\ test_quota D scan_le line s = s).
  Proof.
    intros line s. unfold test_quota. destruct (skip_literal _ line) as [l|] eqn:E.
    - apply skip_literal_inv in E. subst line. rewrite skip_space_twice. destruct (skip_space_inv l) as (ws & El & W & R). destruct (scan_le (skip_space l)) as [d|] eqn:SC.
      + left. exists d. split; [|reflexivity]. exists ws, (skip_space l). split; [rewrite <- El; reflexivity|auto].
      + right. split; [|reflexivity]. intros d (ws' & rest & E' & W' & R' & S'). apply app_inv_head in E'. rewrite E', skip_space_app in SC by assumption. congruence.
    - right. split; [|reflexivity]. intros d (ws' & rest & -> & _). rewrite skip_literal_app in E. discriminate.
  Qed.
  Lemma says_quota_unique : forall d d' line, says_quota d line -> says_quota d' line -> d = d'.
  Proof.
    intros d d' line (ws & rest & -> & W & R & S) (ws' & rest' & E & W' & R' & S'). apply app_inv_head in E.
    assert (rest = rest') by (rewrite <- (skip_space_app ws rest W R), E; apply skip_space_app; assumption). congruence.
  Qed.

  Lemma names : forall k, exists c n, list_ascii_of_string (name_of k) = c :: n /\ c <> "q"%char /\ forall j, j <> k -> exists b m, list_ascii_of_string (name_of j) = b :: m /\ b <> c.
  Proof. intros []; cbn [name_of list_ascii_of_string]; eexists _, _; split; try reflexivity; split; try discriminate; intros [] N; try contradiction; cbn [name_of list_ascii_of_string]; eexists _, _; split; try reflexivity; discriminate. Qed.
  Lemma says_alone : forall k v line, says (name_of k) v line -> (forall d, ~ says_quota d line) /\ (forall j, j <> k -> itest (name_of j) line = No_match) /\ (forall j w, says (name_of j) w line -> j = k /\ w = v).
  Proof.
    intros k v line H. destruct (names k) as (c & n & Ec & Nq & O). destruct (starts _ _ _ _ _ Ec H) as [r ->].
    assert (O' : forall j, j <> k -> itest (name_of j) (c :: r) = No_match).
    { intros j N. destruct (O j N) as (b & m & Eb & Nb). apply (itest_other _ _ _ _ _ Eb Nb). }
    split; [|split; [exact O'|]].
    - intros d (ws & rest & E & _). cbn [list_ascii_of_string app] in E. injection E as E _. contradiction.
    - intros j w Hj. assert (DE : {j = k} + {j <> k}) by decide equality. destruct DE as [->|N].
      + split; [reflexivity|]. symmetry. apply (says_unique _ _ _ _ H Hj).
      + pose proof (says_itest _ _ _ Hj) as I. rewrite (O' j N) in I. destruct (in_intb w); discriminate.
  Qed.

  Definition put (k : setting) : Z -> st -> st :=
    match k with S_num_step => put_num_step D | S_checkpt => put_checkpt D | S_hydro => put_hydro D | S_field => put_field D | S_particle => put_particle D end.
  Lemma get_put : forall k v s, get k (put k v s) = v /\ (forall j, j <> k -> get j (put k v s) = get j s) /\ quota D (put k v s) = quota D s.
  Proof. intros [] v s; (split; [reflexivity|split; [|reflexivity]]); intros [] N; try contradiction; reflexivity. Qed.
  Lemma at_least_max : forall v, at_least_0 v = Z.max 0 v.
  Proof. intro v. unfold at_least_0. destruct (v <? 0) eqn:E; lia. Qed.

  (* one line: the outcome in terms of what it says *)
  Lemma line_says : forall k v line s, says (name_of k) v line -> modify_line D scan_le (Some s) line = if in_intb v then Some (put k (value_of k v) s) else None.
  Proof.
    intros k v line s H. destruct (says_alone k v line H) as (NQ & O & _). pose proof (says_itest _ _ _ H) as I.
    assert (Q : test_quota D scan_le line s = s). { destruct (quota_spec line s) as [(d & Hd & _)|[_ E]]; [destruct (NQ d Hd)|exact E]. }
    unfold modify_line. cbn [option_map]. rewrite Q.
    destruct k; unfold name_of in I; cbn [put value_of]; rewrite <- ?at_least_max;
      [pose proof (O S_checkpt ltac:(discriminate)) as O1; pose proof (O S_hydro ltac:(discriminate)) as O2; pose proof (O S_field ltac:(discriminate)) as O3; pose proof (O S_particle ltac:(discriminate)) as O4
      |pose proof (O S_num_step ltac:(discriminate)) as O1; pose proof (O S_hydro ltac:(discriminate)) as O2; pose proof (O S_field ltac:(discriminate)) as O3; pose proof (O S_particle ltac:(discriminate)) as O4
      |pose proof (O S_num_step ltac:(discriminate)) as O1; pose proof (O S_checkpt ltac:(discriminate)) as O2; pose proof (O S_field ltac:(discriminate)) as O3; pose proof (O S_particle ltac:(discriminate)) as O4
      |pose proof (O S_num_step ltac:(discriminate)) as O1; pose proof (O S_checkpt ltac:(discriminate)) as O2; pose proof (O S_hydro ltac:(discriminate)) as O3; pose proof (O S_particle ltac:(discriminate)) as O4
      |pose proof (O S_num_step ltac:(discriminate)) as O1; pose proof (O S_checkpt ltac:(discriminate)) as O2; pose proof (O S_hydro ltac:(discriminate)) as O3; pose proof (O S_field ltac:(discriminate)) as O4];
      unfold name_of in O1, O2, O3, O4; unfold test_int; rewrite ?O1, ?O2, ?O3, ?O4, I; destruct (in_intb v); rewrite ?O1, ?O2, ?O3, ?O4; reflexivity.
  Qed.
  Lemma line_silent : forall line s, (forall k v, ~ says (name_of k) v line) -> modify_line D scan_le (Some s) line = Some (test_quota D scan_le line s).
  Proof.
    intros line s H.
    assert (N : forall k, itest (name_of k) line = No_match).
    { intro k. destruct (itest (name_of k) line) eqn:E; [reflexivity| |]; (destruct (itest_says (name_of k) line) as [w Hw]; [congruence|destruct (H k w Hw)]). }
    unfold modify_line. cbn [option_map]. unfold test_int.
    pose proof (N S_num_step) as N1. pose proof (N S_checkpt) as N2. pose proof (N S_hydro) as N3. pose proof (N S_field) as N4. pose proof (N S_particle) as N5. unfold name_of in N1, N2, N3, N4, N5.
    rewrite N1, N2, N3, N4, N5. reflexivity.
  Qed.
  Lemma says_or_not : forall line, (exists k v, says (name_of k) v line) \/ (forall k v, ~ says (name_of k) v line).
  Proof.
    intro line. assert (E : forall k, (exists v, says (name_of k) v line) \/ (forall v, ~ says (name_of k) v line)).
    { intro k. destruct (itest (name_of k) line) eqn:I; [right|left; apply itest_says; congruence|left; apply itest_says; congruence].
      intros v H. rewrite (says_itest _ _ _ H) in I. destruct (in_intb v); discriminate. }
    destruct (E S_num_step) as [[v H]|N1]; [left; eauto|]. destruct (E S_checkpt) as [[v H]|N2]; [left; eauto|]. destruct (E S_hydro) as [[v H]|N3]; [left; eauto|].
    destruct (E S_field) as [[v H]|N4]; [left; eauto|]. destruct (E S_particle) as [[v H]|N5]; [left; eauto|]. right. intros []; assumption.
  Qed.
  Lemma in_intb_in : forall v, in_intb v = true <-> in_int v.
  Proof. intro v. unfold in_intb, in_int. lia. Qed.
  Lemma line_effect : forall line s s', modify_line D scan_le (Some s) line = Some s' <-> effect line s s'.
  Proof.
    intros line s s'. destruct (says_or_not line) as [(k & v & H)|N].
    - destruct (says_alone k v line H) as (NQ & _ & U). rewrite (line_says k v line s H). destruct (in_intb v) eqn:B.
      + split.
        * intro E. injection E as <-. left. exists k, v. destruct (get_put k (value_of k v) s) as (G1 & G2 & G3). split; [exact H|]. split; [apply in_intb_in, B|]. auto.
        * intros [(k' & v' & H' & _ & G1 & G2 & G3)|[(d & Hd & _)|(N & _)]]; [|destruct (NQ d Hd)|destruct (N k v H)].
          destruct (U k' v' H') as [-> ->]. f_equal. destruct (get_put k (value_of k v) s) as (P1 & P2 & P3). apply get_ext; [congruence|]. intro j.
          assert (DE : {j = k} + {j <> k}) by decide equality. destruct DE as [->|Nj]; [congruence|]. rewrite (P2 j Nj), (G2 j Nj). reflexivity.
      + split; [discriminate|]. intros [(k' & v' & H' & B' & _)|[(d & Hd & _)|(N & _)]]; [|destruct (NQ d Hd)|destruct (N k v H)].
        destruct (U k' v' H') as [-> ->]. apply in_intb_in in B'. congruence.
    - rewrite (line_silent line s N). destruct (quota_spec line s) as [(d & Hd & E)|[NQ E]]; rewrite E.
      + split.
        * intro E'. injection E' as <-. right. left. exists d. split; [exact Hd|]. split; [reflexivity|]. intros []; reflexivity.
        * intros [(k & v & H & _)|[(d' & Hd' & Q & G)|(_ & NQ & _)]]; [destruct (N k v H)| |destruct (NQ d Hd)]. f_equal. apply get_ext.
          -- cbn [quota]. rewrite Q. apply (says_quota_unique d d' line Hd Hd').
          -- intro j. rewrite G. destruct j; reflexivity.
      + split.
        * intro E'. injection E' as <-. right. right. auto.
        * intros [(k & v & H & _)|[(d' & Hd' & _)|(_ & _ & ->)]]; [destruct (N k v H)|destruct (NQ d' Hd')|reflexivity].
  Qed.
  Lemma fold_undefined : forall ls, fold_left (modify_line D scan_le) ls None = None.
  Proof. induction ls as [|l ls IH]; [reflexivity|exact IH]. Qed.
  Lemma fold_effects : forall ls s s', fold_left (modify_line D scan_le) ls (Some s) = Some s' <-> effects ls s s'.
  Proof.
    induction ls as [|l ls IH]; intros s s'; cbn [fold_left].
    - split; [intro E; injection E as <-; constructor|intro H; inversion H; reflexivity].
    - destruct (modify_line D scan_le (Some s) l) as [m|] eqn:E.
      + rewrite IH. split; [intro H; apply (effects_cons l ls s m s'); [apply line_effect, E|exact H]|].
        intro H. inversion H as [|? ? ? m' ? H1 H2]; subst. apply line_effect in H1. rewrite E in H1. injection H1 as ->. exact H2.
      + rewrite fold_undefined. split; [discriminate|]. intro H. inversion H as [|? ? ? m' ? H1 H2]; subst. apply line_effect in H1. rewrite E in H1. discriminate.
  Qed.

  (* A file whose lines have at most 126 characters with their newline: the settings after it are those that its lines say one after the
     other, each line one setting at most.  An interval below 0 becomes 0. *)
Theorem C79_file : forall lines s s', (forall l, In l lines -> text_line l /\ (List.length l <= 126)%nat) ->
    (modify_ (List.concat lines) s = Some s' <-> effects lines s s').
  Proof. intros lines s s' H. unfold modify. rewrite (fgets_lines lines H). apply fold_effects. Qed.

  (* Such a file is undefined if and only if a line gives one of the five a number that int cannot hold. *)
Theorem C79_defined : forall lines s, (forall l, In l lines -> text_line l /\ (List.length l <= 126)%nat) ->
    (modify_ (List.concat lines) s = None <-> exists l k v, In l lines /\ says (name_of k) v l /\ ~ in_int v).
  Proof.
    intros lines s H. unfold modify. rewrite (fgets_lines lines H). clear H. revert s. induction lines as [|l ls IH]; intro s; cbn [fold_left].
    - split; [discriminate|intros (l & _ & _ & [] & _)].
    - destruct (says_or_not l) as [(k & v & Hs)|N].
      + rewrite (line_says k v l s Hs). destruct (in_intb v) eqn:B.
        * rewrite IH. split; [intros (l' & k' & v' & I & R); exists l', k', v'; split; [right; exact I|exact R]|].
          intros (l' & k' & v' & [<-|I] & Hs' & R); [|exists l', k', v'; auto]. exfalso. destruct (says_alone k v l Hs) as (_ & _ & U). destruct (U k' v' Hs') as [-> ->]. apply R, in_intb_in, B.
        * rewrite fold_undefined. split; [|reflexivity]. intros _. exists l, k, v. split; [left; reflexivity|]. split; [exact Hs|]. intro I. apply in_intb_in in I. congruence.
      + rewrite (line_silent l s N). rewrite IH. split; [intros (l' & k' & v' & I & R); exists l', k', v'; split; [right; exact I|exact R]|].
        intros (l' & k' & v' & [<-|I] & Hs' & R); [destruct (N k' v' Hs')|exists l', k', v'; auto].
  Qed.

  (* Any file, of lines of any length: the four intervals stay at 0 or above *)
Theorem C79_intervals : forall file s s', modify_ file s = Some s' -> (forall k, k <> S_num_step -> 0 <= get k s) -> forall k, k <> S_num_step -> 0 <= get k s'.
  Proof.
    intros file s s' E H. unfold modify in E. apply fold_effects in E. induction E as [s|l ls s m s' E1 E2 IH]; [exact H|]. apply IH. intros k N.
    destruct E1 as [(k' & v & _ & _ & G1 & G2 & _)|[(d & _ & _ & G)|(_ & _ & ->)]]; [|rewrite G; apply H, N|apply H, N].
    assert (DE : {k = k'} + {k <> k'}) by decide equality. destruct DE as [->|Nk]; [|rewrite (G2 k Nk); apply H, N].
    rewrite G1. destruct k'; cbn [value_of]; try lia. contradiction.
  Qed.

  (* The file is read in pieces of at most 126 characters that make it up, and each is a line of its own. *)
Theorem C79_pieces : forall file s s', modify_ file s = Some s' ->
    exists ls, List.concat ls = file /\ Forall (fun l => (List.length l <= 126)%nat /\ l <> []) ls /\ effects ls s s'.
  Proof.
    intros file s s' E. exists (fgets_all file). destruct (chunks_ok file 126 [] ltac:(lia) eq_refl) as [C1 C2]. split; [exact C1|]. split; [exact C2|]. apply fold_effects, E.
  Qed.

  (* The comment of the function names the field num_steps; a line with that name is ignored, whatever follows. *)
Theorem C79_comment_name_refuted : exists name, name = "num_steps" /\ forall rest s, (List.length rest <= 116)%nat -> ~ In "010"%char rest ->
    modify_ (list_ascii_of_string name ++ rest ++ ["010"%char]) s = Some s.
  Proof.
    exists "num_steps". split; [reflexivity|]. intros rest s L NI. set (l := _ ++ rest ++ _).
    assert (T : text_line l /\ (List.length l <= 126)%nat).
    { split; [|unfold l; rewrite !app_length; cbn [List.length list_ascii_of_string]; lia]. exists (list_ascii_of_string "num_steps" ++ rest). split; [unfold l; rewrite app_assoc; reflexivity|].
      intro I. apply in_app_or in I. destruct I as [I|I]; [|contradiction]. cbn in I. repeat (destruct I as [I|I]; [discriminate|]). contradiction. }
    replace l with (List.concat [l]) by (cbn [List.concat]; apply app_nil_r). unfold modify. rewrite fgets_lines by (intros x [<-|[]]; exact T). reflexivity.
  Qed.

  (* A line of more than 126 characters goes on in a second piece, which is read as a line: a remark of 126 dashes followed by a setting sets it. *)
Theorem C79_long_line_refuted : exists line, text_line line /\ (forall k v, ~ says (name_of k) v line) /\ (forall d, ~ says_quota d line) /\
    forall s, exists s', modify_ line s = Some s' /\ num_step D s' = 5.
  Proof.
    exists (repeat "-"%char 126 ++ list_ascii_of_string "num_step 5" ++ ["010"%char]). split; [|split; [|split]].
    - exists (repeat "-"%char 126 ++ list_ascii_of_string "num_step 5"). split; [rewrite <- app_assoc; reflexivity|]. intro I. apply in_app_or in I. destruct I as [I|I]; [apply repeat_spec in I; discriminate|].
      cbn in I. repeat (destruct I as [I|I]; [discriminate|]). contradiction.
    - intros k v (ws & sg & ds & rest & E & _). destruct k; discriminate E.
    - intros d (ws & rest & E & _). discriminate E.
    - intro s. eexists. split; reflexivity.
  Qed.
End C79.
Print Assumptions C79_file.
Print Assumptions C79_defined.
Print Assumptions C79_intervals.
Print Assumptions C79_pieces.
Print Assumptions C79_comment_name_refuted.
Print Assumptions C79_long_line_refuted.

(* two lines, the second with a negative interval and a remark; a third that is indented, hence ignored *)
Example modify_example : let nl := String "010" "" in
  modify Z (fun _ => Some 7) (list_ascii_of_string ("num_step 1200" ++ nl ++ "field_interval  -3 off" ++ nl ++ " num_step 9" ++ nl ++ "quota 2.5" ++ nl)%string) (mk_settings Z 1 2 3 4 5 6) =
  Some (mk_settings Z 7 1200 3 4 0 6).
Proof. reflexivity. Qed.
Example overflow_example : modify Z (fun _ => None) (list_ascii_of_string "num_step 2147483648") (mk_settings Z 1 2 3 4 5 6) = None /\
  modify Z (fun _ => None) (list_ascii_of_string "num_step 2147483647") (mk_settings Z 1 2 3 4 5 6) = Some (mk_settings Z 1 2147483647 3 4 5 6).
Proof. split; reflexivity. Qed.
Example says_example : says "num_step" (-42) (list_ascii_of_string "num_step -42 x").
Proof. exists [" "%char], ["-"%char], (list_ascii_of_string "42"), (list_ascii_of_string " x"). split; [reflexivity|]. split; [constructor; [unfold white; cbn; lia|constructor]|]. split; [discriminate|].
  split; [repeat (constructor; [unfold digit; cbn; lia|]); constructor|]. split; [unfold digit; cbn; lia|]. right. split; reflexivity. Qed.
