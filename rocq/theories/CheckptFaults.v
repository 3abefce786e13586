(* Proofs about damaged and truncated checkpoint files. *)
From Coq Require Import ZArith List Bool Lia ZifyBool.
From Verif Require Import CheckptModel CheckptSpec CheckptProofs.
Import ListNotations.
Open Scope Z_scope.
Ltac Zify.zify_post_hook ::= idtac.
Opaque le.

(* ---- one framing word replaced ---- *)
Inductive broken : list chunk -> list chunk -> Prop :=
| broken_here w w' legal b : ~ In w' legal -> is_word w' -> broken (Mark w legal :: b) (Mark w' legal :: b)
| broken_later c a b : broken a b -> broken (c :: a) (c :: b).

Lemma broken_app a : forall b x, broken (a ++ b) x ->
  (exists a', broken a a' /\ x = a' ++ b) \/ (exists b', broken b b' /\ x = a ++ b').
Proof.
  induction a as [|c a IH]; intros b x H; cbn [app] in *; [right; exists x; split; [exact H|reflexivity]|].
  inversion H; subst.
  - left. eexists. split; [apply broken_here; eassumption|reflexivity].
  - destruct (IH _ _ H3) as [(a' & K & ->)|(b' & K & ->)].
    + left. exists (c :: a'). split; [apply broken_later; exact K|reflexivity].
    + right. exists b'. split; [exact K|reflexivity].
Qed.
Lemma broken_split a w w' legal b : ~ In w' legal -> is_word w' -> broken (a ++ Mark w legal :: b) (a ++ Mark w' legal :: b).
Proof. intros H W. induction a as [|c a IH]; cbn [app]; constructor; assumption. Qed.
Lemma broken_plain b r x : broken (Plain b :: r) x -> exists r', broken r r' /\ x = Plain b :: r'.
Proof. intros H. inversion H; subst. eexists. split; [eassumption|reflexivity]. Qed.
Lemma broken_cons w legal l x : broken (Mark w legal :: l) x ->
  (exists w', ~ In w' legal /\ is_word w' /\ x = Mark w' legal :: l) \/ (exists l', broken l l' /\ x = Mark w legal :: l').
Proof. intros H. inversion H; subst; [left; eexists; split; [eassumption|split; [eassumption|reflexivity]]|right; eexists; split; [eassumption|reflexivity]]. Qed.
Lemma broken_nil x : ~ broken [] x. Proof. intros H. inversion H. Qed.
Lemma broken_plains es : forall x, ~ broken (map Plain es) x.
Proof. induction es as [|e es IH]; intros x H; cbn [map] in H; [exact (broken_nil x H)|]. apply broken_plain in H. destruct H as (r & K & _). exact (IH r K). Qed.
Lemma flat_cons c l : flat (c :: l) = bytes_of c ++ flat l. Proof. reflexivity. Qed.

Section Broken.
Variable junk : nat -> Z.
Variable yr : symbols.
Variable shape : Z -> list kind.
Variable alloc : nat -> Z.
Variable yw : symbols.
Variable old : list node.

Ltac start := rewrite ?flat_cons; cbn [bytes_of]; rewrite <- ?app_assoc.
Lemma broken_str s x r j : wf_str s -> broken (put_str s) x -> get_str junk (flat x ++ r, j) = Fail.
Proof.
  intros H B. destruct s as [b|]; unfold put_str in B.
  - inversion B; subst.
    + start. unfold get_str. rewrite get_word_exact by assumption. cbn [In] in *.
      replace (w' =? M_nostr) with false by lia. replace (w' =? M_str) with false by lia. reflexivity.
    + exfalso. apply broken_plain in H3. destruct H3 as (r' & K & _). exact (broken_plains [b] r' K).
  - inversion B; subst.
    + start. unfold get_str. rewrite get_word_exact by assumption. cbn [In] in *.
      replace (w' =? M_nostr) with false by lia. replace (w' =? M_str) with false by lia. reflexivity.
    + exfalso. exact (broken_nil _ H3).
Qed.
Lemma broken_ptr p cs x r j : put_ptr old p = Some cs -> broken cs x -> get_fptr junk (flat x ++ r, j) = Fail.
Proof.
  unfold put_ptr. intros E B.
  assert (X : exists w t, cs = Mark w [M_noptr; M_ptr] :: map Plain t).
  { destruct (p =? 0); [injection E as <-; eexists; exists []; reflexivity|].
    destruct (find_obj old p); [|discriminate]. injection E as <-. eexists. exists [le 8 (n_id n)]. reflexivity. }
  destruct X as (w & t & ->). inversion B; subst.
  - start. unfold get_fptr. rewrite get_word_exact by assumption. cbn [In] in *.
    replace (w' =? M_noptr) with false by lia. replace (w' =? M_ptr) with false by lia. reflexivity.
  - exfalso. exact (broken_plains _ _ H2).
Qed.
Lemma broken_sym a x r j : wf_sym yw yr a -> broken (put_sym yw a) x -> get_sym junk yr (flat x ++ r, j) = Fail.
Proof.
  intros H B.
  assert (X : forall w' l, ~ In w' [M_nosym; M_namesym; M_addrsym] -> is_word w' -> get_sym junk yr (flat (Mark w' l :: x) ++ r, j) = Fail).
  { intros w' l N W. start. unfold get_sym. rewrite get_word_exact by assumption. cbn [In] in *.
    replace (w' =? M_nosym) with false by lia. replace (w' =? M_namesym) with false by lia. replace (w' =? M_addrsym) with false by lia. reflexivity. }
  unfold put_sym in B. fold (by_name yw a) in B. cbv zeta in B. destruct (a =? 0) eqn:E0; [|destruct (by_name yw a) eqn:En].
  - inversion B as [? w' ? ? N W|? ? ? K]; subst; [|exfalso; exact (broken_nil _ K)].
    start. unfold get_sym. rewrite get_word_exact by assumption. cbn [In] in *.
    replace (w' =? M_nosym) with false by lia. replace (w' =? M_namesym) with false by lia. replace (w' =? M_addrsym) with false by lia. reflexivity.
  - destruct H as [H|[Hw Hn]]; [lia|]. destruct (Hn En) as (A & F & C). inversion B as [? w' ? ? N W|? ? ? K]; subst.
    + start. unfold get_sym. rewrite get_word_exact by assumption. cbn [In] in *.
      replace (w' =? M_nosym) with false by lia. replace (w' =? M_namesym) with false by lia. replace (w' =? M_addrsym) with false by lia. reflexivity.
    + start. unfold get_sym. rewrite get_word_exact by (unfold is_word, M_namesym; lia).
      change (M_namesym =? M_nosym) with false. change (M_namesym =? M_namesym) with true. cbn match.
      apply broken_app in K. destruct K as [(a' & K & ->)|(a' & K & ->)]; rewrite flat_app, <- app_assoc.
      * rewrite (broken_str _ _ _ _ A K). reflexivity.
      * rewrite get_str_ok by exact A. rewrite (broken_str _ _ _ _ F K). reflexivity.
  - inversion B as [? w' ? ? N W|? ? ? K]; subst.
    + start. unfold get_sym. rewrite get_word_exact by assumption. cbn [In] in *.
      replace (w' =? M_nosym) with false by lia. replace (w' =? M_namesym) with false by lia. replace (w' =? M_addrsym) with false by lia. reflexivity.
    + exfalso. exact (broken_plains [_] _ K).
Qed.
Lemma broken_data sz str max align es cs x r j : put_data sz str max align es = Some cs -> broken cs x -> get_data junk (flat x ++ r, j) = Fail.
Proof.
  unfold put_data. cbv zeta. intros E B. destruct ((max <? Z.of_nat (length es)) || (str <? sz)); [discriminate|]. injection E as <-.
  inversion B; subst.
  - start. unfold get_data. rewrite get_word_exact by assumption. cbn [In] in *.
    replace (w' =? M_data) with false by lia. reflexivity.
  - exfalso. do 5 (apply broken_plain in H2; destruct H2 as (? & H2 & _)). exact (broken_plains _ _ H2).
Qed.
Lemma broken_val reg seen v cs x r j : wf_val yw yr old seen v -> put_val yw old v = Some cs -> broken cs x ->
  get_val junk yr reg (kind_of v) (flat x ++ r, j) = Fail.
Proof.
  intros Hv Hp B. destruct v as [b|sz str max align es|s|p|p|a]; cbn [put_val kind_of get_val wf_val] in *.
  - injection Hp as <-. exfalso. exact (broken_plains [b] _ B).
  - exact (broken_data _ _ _ _ _ _ _ _ _ Hp B).
  - injection Hp as <-. rewrite (broken_str _ _ _ _ Hv B). reflexivity.
  - unfold get_ptr. rewrite (broken_ptr _ _ _ _ _ Hp B). reflexivity.
  - rewrite (broken_ptr _ _ _ _ _ Hp B). reflexivity.
  - injection Hp as <-. rewrite (broken_sym _ _ _ _ Hv B). reflexivity.
Qed.
Hypothesis old_ids : forall n, In n old -> is_word (n_id n) /\ n_id n <> 0 /\ n_obj n <> 0.
Lemma broken_vals reg seen vs : gives alloc old reg seen -> Forall (wf_val yw yr old seen) vs -> forall cs x r j, put_vals yw old vs = Some cs ->
  broken cs x -> get_vals junk yr reg (map kind_of vs) (flat x ++ r, j) = Fail.
Proof.
  intros Hg. induction 1 as [|v vs Hv Hvs IH]; intros cs x r j E B; cbn [put_vals map get_vals] in *.
  - injection E as <-. exfalso. exact (broken_nil _ B).
  - destruct (put_val yw old v) as [a|] eqn:Ea; [|discriminate]. destruct (put_vals yw old vs) as [b|] eqn:Eb; [|discriminate].
    injection E as <-. apply broken_app in B. destruct B as [(a' & K & ->)|(b' & K & ->)]; rewrite flat_app, <- app_assoc.
    + rewrite (broken_val reg seen v a a' _ _ Hv Ea K). reflexivity.
    + rewrite (get_val_ok junk yr shape alloc yw old old_ids reg seen v a _ _ Hg Hv Ea). rewrite (IH b b' r j eq_refl K). reflexivity.
Qed.
Lemma broken_node reg seen o c x r j : gives alloc old (reg ++ [mkn (n_obj (node_of o)) (newsym yw yr (n_ck (node_of o))) (newsym yw yr (n_rs (node_of o))) (newsym yw yr (n_an (node_of o))) (n_id (node_of o))]) seen ->
  wf_object yw yr shape old seen o -> put_node yw old (node_of o) (snd (fst o)) (snd o) = Some (Mark M_node [M_node; M_end] :: c) -> broken c x ->
  get_node junk yr shape alloc reg (flat x ++ r, j) = Fail.
Proof.
  intros Hg Hw E B. destruct o as [[n link] vs]. unfold node_of in *. cbn [fst snd] in *. unfold wf_object in Hw.
  destruct Hw as ((W1 & W0 & W2 & W3 & W4 & W5 & I0 & W6 & S1 & S2 & S3 & C0 & R0) & Sh & Hv). unfold put_node in E.
  replace (n_ck n =? 0) with false in E by lia. destruct (put_vals yw old vs) as [cv|] eqn:Ec; [|discriminate]. injection E as <-.
  apply broken_plain in B. destruct B as (x' & B & ->). start. unfold get_node. rewrite !get_word_exact by assumption.
  apply broken_app in B. destruct B as [(a' & K & ->)|(y1 & K & ->)]; rewrite !flat_app, <- !app_assoc.
  { rewrite (broken_sym _ _ _ _ S1 K). reflexivity. }
  rewrite get_sym_ok by exact S1.
  apply broken_app in K. destruct K as [(a' & K & ->)|(y2 & K & ->)]; rewrite !flat_app, <- !app_assoc.
  { rewrite (broken_sym _ _ _ _ S2 K). reflexivity. }
  rewrite get_sym_ok by exact S2.
  apply broken_app in K. destruct K as [(a' & K & ->)|(y3 & K & ->)]; rewrite !flat_app, <- !app_assoc.
  { rewrite (broken_sym _ _ _ _ S3 K). reflexivity. }
  rewrite get_sym_ok by exact S3. replace (newsym yw yr (n_rs n) =? 0) with false by lia. rewrite Sh.
  rewrite (broken_vals _ seen vs Hg Hv cv y3 r j Ec K). reflexivity.
Qed.
Hypothesis alloc_ok : forall k, alloc k <> 0.
Hypothesis old_objs : NoDup (map n_obj old).
Hypothesis old_idsd : NoDup (map n_id old).
Lemma broken_nodes b : forall a, old = map node_of (a ++ b) ->
  (forall k o, nth_error b k = Some o -> wf_object yw yr shape old (firstn (length a + k) old) o) ->
  forall cs x r j, put_nodes yw old b = Some cs -> broken (cs ++ [Mark M_end [M_node; M_end]]) x ->
    get_nodes junk yr shape alloc (S (length b)) (map fst (restored_from yr alloc yw old 0 a)) (flat x ++ r, j) = Fail.
Proof.
  assert (X : forall f reg w' l t r j, ~ In w' [M_node; M_end] -> is_word w' -> get_nodes junk yr shape alloc (S f) reg (flat (Mark w' l :: t) ++ r, j) = Fail).
  { intros f reg w' l t r j N W. start. cbn [get_nodes]. rewrite get_word_exact by assumption. cbn [In] in *.
    replace (w' =? M_end) with false by lia. replace (w' =? M_node) with false by lia. reflexivity. }
  induction b as [|o b IH]; intros a E H cs x r j Ecs B.
  - cbn [put_nodes] in Ecs. injection Ecs as <-. cbn [app] in B. inversion B; subst; [apply X; assumption|]. exfalso. exact (broken_nil _ H3).
  - pose proof (H O o eq_refl) as Hw. rewrite Nat.add_0_r in Hw.
    assert (Fn : firstn (length a) old = map node_of a).
    { rewrite E, map_app, <- (map_length node_of a). rewrite firstn_app, firstn_all, Nat.sub_diag, firstn_O, app_nil_r. reflexivity. }
    rewrite Fn in Hw.
    assert (E' : old = map node_of ((a ++ [o]) ++ b)) by (rewrite E, <- app_assoc; reflexivity).
    assert (H' : forall k o', nth_error b k = Some o' -> wf_object yw yr shape old (firstn (length (a ++ [o]) + k) old) o').
    { intros k o' Ho'. rewrite app_length. cbn [length]. replace (length a + 1 + k)%nat with (length a + S k)%nat by lia. apply H. exact Ho'. }
    specialize (IH (a ++ [o]) E' H').
    destruct o as [[n link] vs]. cbn [put_nodes] in Ecs.
    destruct (put_node yw old n link vs) as [c|] eqn:Ep; [|discriminate]. destruct (put_nodes yw old b) as [cb|] eqn:Eb; [|discriminate].
    injection Ecs as <-. rewrite <- app_assoc in B.
    pose proof (gives_done yr alloc yw old old_ids alloc_ok old_objs old_idsd) as G.
    destruct (get_node_ok junk yr shape alloc yw old old_ids (map fst (restored_from yr alloc yw old 0 a)) (map node_of a) ((n, link), vs) c
      (flat x ++ r) j) as (c' & -> & _).
    { rewrite !map_length, restored_from_length. reflexivity. }
    { exact (G _ a _ E). }
    { exact Hw. }
    { exact Ep. }
    cbn [app] in B. apply broken_cons in B. destruct B as [(w' & N & W & ->)|(l' & B' & ->)].
    + apply X; assumption.
    + apply broken_app in B'. start. cbn [length]. set (f := S (length b)) in *. cbn [get_nodes]. rewrite get_word_exact by (unfold is_word, M_node; lia).
      change (M_node =? M_end) with false. change (M_node =? M_node) with true. cbn [negb].
      destruct B' as [(a' & K & ->)|(b' & K & ->)]; rewrite flat_app, <- app_assoc.
      * rewrite (broken_node _ (map node_of a) ((n, link), vs) c' a' _ _ (G _ a _ E) Hw Ep K). reflexivity.
      * destruct (get_node_ok junk yr shape alloc yw old old_ids (map fst (restored_from yr alloc yw old 0 a)) (map node_of a) ((n, link), vs) (Mark M_node [M_node; M_end] :: c')
          (flat b' ++ r) j) as (c2 & Ec2 & Gn).
        { rewrite !map_length, restored_from_length. reflexivity. }
        { exact (G _ a _ E). }
        { exact Hw. }
        { exact Ep. }
        injection Ec2 as <-. rewrite Gn, map_length.
        replace (map fst (restored_from yr alloc yw old 0 a) ++ [fst (restored_object yw yr alloc old (length a) (n, link, vs))])
          with (map fst (restored_from yr alloc yw old 0 (a ++ [(n, link, vs)]))) by (rewrite restored_from_app, map_app; reflexivity).
        match goal with |- match ?t with _ => _ end = _ => replace t with (@Fail (list (node * list val))) by (symmetry; exact (IH cb b' r j eq_refl K)) end. reflexivity.
Qed.
End Broken.

(* ---- a reader that got by without bytes from beyond the end depends only on what it consumed ---- *)
Definition clean {A} (P : (nat -> Z) -> cursor -> res A) : Prop :=
  forall junk f j a r j', P junk (f, j) = Ok a (r, j') ->
    (j <= j')%nat /\ (j' = j -> exists u, f = u ++ r /\ forall junk2 r2 j2, P junk2 (u ++ r2, j2) = Ok a (r2, j2)).
Definition cleanp {A} (W : (nat -> Z) -> cursor -> A * cursor) : Prop :=
  forall junk f j a r j', W junk (f, j) = (a, (r, j')) ->
    (j <= j')%nat /\ (j' = j -> exists u, f = u ++ r /\ forall junk2 r2 j2, W junk2 (u ++ r2, j2) = (a, (r2, j2))).

Lemma clean_ret {A} (a : A) : clean (fun _ s => Ok a s).
Proof.
  intros junk f j x r j' E. injection E as <- <- <-. split; [lia|]. intros _. exists []. split; [reflexivity|]. intros. reflexivity.
Qed.
Lemma clean_fail {A} : clean (fun _ _ => @Fail A). Proof. intros junk f j x r j' E. discriminate E. Qed.
Lemma clean_undef {A} : clean (fun _ _ => @Undef A). Proof. intros junk f j x r j' E. discriminate E. Qed.
Lemma clean_loop {A} : clean (fun _ _ => @Looping A). Proof. intros junk f j x r j' E. discriminate E. Qed.
Lemma clean_if {A} (b : bool) (P Q : (nat -> Z) -> cursor -> res A) : clean P -> clean Q -> clean (fun junk s => if b then P junk s else Q junk s).
Proof. intros HP HQ. destruct b; [exact HP|exact HQ]. Qed.
Lemma clean_bindp {A B} (W : (nat -> Z) -> cursor -> A * cursor) (Q : A -> (nat -> Z) -> cursor -> res B) :
  cleanp W -> (forall a, clean (Q a)) -> clean (fun junk s => let '(a, s') := W junk s in Q a junk s').
Proof.
  intros HW HQ junk f j b r j' E. destruct (W junk (f, j)) as [a [f1 j1]] eqn:E1. cbn match in E.
  destruct (HW _ _ _ _ _ _ E1) as [L1 C1]. destruct (HQ a _ _ _ _ _ _ E) as [L2 C2]. split; [lia|]. intros ->.
  destruct (C1 ltac:(lia)) as (u1 & -> & G1). destruct (C2 ltac:(lia)) as (u2 & -> & G2).
  exists (u1 ++ u2). split; [apply app_assoc|]. intros junk2 r2 j2. rewrite <- app_assoc, G1. apply G2.
Qed.
Lemma clean_bind {A B} (P : (nat -> Z) -> cursor -> res A) (Q : A -> (nat -> Z) -> cursor -> res B) :
  clean P -> (forall a, clean (Q a)) -> clean (fun junk s => match P junk s with Ok a s' => Q a junk s' | Fail => Fail | Undef => Undef | Looping => Looping end).
Proof.
  intros HP HQ junk f j b r j' E. destruct (P junk (f, j)) as [a [f1 j1]| | |] eqn:E1; try discriminate E.
  destruct (HP _ _ _ _ _ _ E1) as [L1 C1]. destruct (HQ a _ _ _ _ _ _ E) as [L2 C2]. split; [lia|]. intros ->.
  destruct (C1 ltac:(lia)) as (u1 & -> & G1). destruct (C2 ltac:(lia)) as (u2 & -> & G2).
  exists (u1 ++ u2). split; [apply app_assoc|]. intros junk2 r2 j2. rewrite <- app_assoc, G1. apply G2.
Qed.
Lemma cleanp_ret {A} (a : A) : cleanp (fun _ s => (a, s)).
Proof.
  intros junk f j x r j' E. injection E as <- <- <-. split; [lia|]. intros _. exists []. split; [reflexivity|]. intros. reflexivity.
Qed.
Lemma cleanp_bind {A B} (W : (nat -> Z) -> cursor -> A * cursor) (Q : A -> (nat -> Z) -> cursor -> B * cursor) :
  cleanp W -> (forall a, cleanp (Q a)) -> cleanp (fun junk s => let '(a, s') := W junk s in Q a junk s').
Proof.
  intros HW HQ junk f j b r j' E. destruct (W junk (f, j)) as [a [f1 j1]] eqn:E1. cbn match in E.
  destruct (HW _ _ _ _ _ _ E1) as [L1 C1]. destruct (HQ a _ _ _ _ _ _ E) as [L2 C2]. split; [lia|]. intros ->.
  destruct (C1 ltac:(lia)) as (u1 & -> & G1). destruct (C2 ltac:(lia)) as (u2 & -> & G2).
  exists (u1 ++ u2). split; [apply app_assoc|]. intros junk2 r2 j2. rewrite <- app_assoc, G1. apply G2.
Qed.
Lemma cleanp_byte : cleanp (fun junk s => match fst s with [] => (junk (snd s), ([], S (snd s))) | x :: r => (x, (r, snd s)) end).
Proof.
  intros junk f j a r j' E. cbn [fst snd] in E. destruct f as [|x f].
  - injection E as <- <- <-. split; [lia|]. intros K. lia.
  - injection E as <- <- <-. split; [lia|]. intros _. exists [x]. split; [reflexivity|]. intros. reflexivity.
Qed.
Lemma cleanp_take n : cleanp (fun junk => take junk n).
Proof.
  induction n as [|n IH]; [exact (cleanp_ret [])|].
  refine (cleanp_bind _ (fun b junk s => let '(bs, s2) := take junk n s in (b :: bs, s2)) cleanp_byte _). intros b.
  refine (cleanp_bind _ (fun bs junk s => (b :: bs, s)) IH _). intros bs. apply cleanp_ret.
Qed.
Lemma cleanp_word : cleanp get_word.
Proof. refine (cleanp_bind _ (fun b junk s => (unle b, s)) (cleanp_take 8) _). intros b. apply cleanp_ret. Qed.
Lemma cleanp_elts n sz : cleanp (fun junk => take_elts junk n sz).
Proof.
  induction n as [|n IH]; [exact (cleanp_ret [])|].
  refine (cleanp_bind _ (fun b junk s => let '(bs, s2) := take_elts junk n sz s in (b :: bs, s2)) (cleanp_take sz) _). intros b.
  refine (cleanp_bind _ (fun bs junk s => (b :: bs, s)) IH _). intros bs. apply cleanp_ret.
Qed.
Ltac clean_word := eapply (clean_bindp get_word); [exact cleanp_word|intros ?w].
Lemma clean_data : clean get_data.
Proof.
  unfold get_data. clean_word. apply clean_if; [apply clean_fail|]. do 5 clean_word.
  apply clean_if; [apply clean_fail|]. apply clean_if; [apply clean_fail|]. cbv zeta.
  apply clean_if; [apply clean_ret|]. apply clean_if; [apply clean_fail|]. apply clean_if; [apply clean_undef|].
  eapply (clean_bindp (fun junk => take_elts junk _ _)); [apply cleanp_elts|intros es; apply clean_ret].
Qed.
Lemma clean_str : clean get_str.
Proof.
  unfold get_str. clean_word. apply clean_if; [apply clean_ret|]. apply clean_if; [apply clean_fail|]. clean_word.
  apply clean_if; [apply clean_fail|]. eapply (clean_bindp (fun junk => take junk _)); [apply cleanp_take|intros b].
  apply clean_if; [apply clean_fail|apply clean_ret].
Qed.
Lemma clean_fptr : clean get_fptr.
Proof.
  unfold get_fptr. clean_word. apply clean_if; [apply clean_ret|]. apply clean_if; [apply clean_fail|]. clean_word.
  apply clean_if; [apply clean_fail|apply clean_ret].
Qed.
Lemma clean_ptr reg : clean (fun junk => get_ptr junk reg).
Proof.
  unfold get_ptr. eapply (clean_bind get_fptr); [exact clean_fptr|]. intros i. destruct (reanimate_fptr reg i); [apply clean_ret|apply clean_fail].
Qed.
Section Clean.
Variable yr : symbols.
Variable shape : Z -> list kind.
Variable alloc : nat -> Z.
Lemma clean_sym : clean (fun junk => get_sym junk yr).
Proof.
  unfold get_sym. clean_word. apply clean_if; [apply clean_ret|]. apply clean_if.
  - eapply (clean_bind get_str); [exact clean_str|intros name]. eapply (clean_bind get_str); [exact clean_str|intros file].
    cbv zeta. apply clean_if; [apply clean_fail|apply clean_ret].
  - apply clean_if; [|apply clean_fail]. clean_word. apply clean_ret.
Qed.
Lemma clean_val reg k : clean (fun junk => get_val junk yr reg k).
Proof.
  destruct k as [n| | | | |]; cbn [get_val].
  - eapply (clean_bindp (fun junk => take junk _)); [apply cleanp_take|intros b; apply clean_ret].
  - exact clean_data.
  - eapply (clean_bind get_str); [exact clean_str|intros v; apply clean_ret].
  - eapply (clean_bind (fun junk => get_ptr junk reg)); [apply clean_ptr|intros v; apply clean_ret].
  - eapply (clean_bind get_fptr); [exact clean_fptr|intros v; apply clean_ret].
  - eapply (clean_bind (fun junk => get_sym junk yr)); [exact clean_sym|intros v; apply clean_ret].
Qed.
Lemma clean_vals reg ks : clean (fun junk => get_vals junk yr reg ks).
Proof.
  induction ks as [|k ks IH]; cbn [get_vals]; [apply clean_ret|].
  eapply (clean_bind (fun junk => get_val junk yr reg k)); [apply clean_val|intros v].
  eapply (clean_bind (fun junk => get_vals junk yr reg ks)); [exact IH|intros vs; apply clean_ret].
Qed.
Lemma clean_node reg : clean (fun junk => get_node junk yr shape alloc reg).
Proof.
  unfold get_node. do 6 clean_word. do 3 (eapply (clean_bind (fun junk => get_sym junk yr)); [exact clean_sym|intros ?a]).
  apply clean_if; [apply clean_ret|]. eapply (clean_bind (fun junk => get_vals junk yr _ _)); [apply clean_vals|intros vs; apply clean_ret].
Qed.
Lemma clean_nodes fuel : forall reg, clean (fun junk => get_nodes junk yr shape alloc fuel reg).
Proof.
  induction fuel as [|f IH]; intros reg; cbn [get_nodes]; [apply clean_loop|]. clean_word.
  apply clean_if; [apply clean_ret|]. apply clean_if; [apply clean_fail|].
  eapply (clean_bind (fun junk => get_node junk yr shape alloc reg)); [apply clean_node|intros o].
  eapply (clean_bind (fun junk => get_nodes junk yr shape alloc f _)); [apply IH|intros os; apply clean_ret].
Qed.
Definition restore_at (fuel : nat) (junk : nat -> Z) (s : cursor) : res (Z * list (node * list val)) :=
  let '(next, s) := get_word junk s in
  match get_nodes junk yr shape alloc fuel [] s with
  | Ok os s => Ok (next, os) s | Fail => Fail | Undef => Undef | Looping => Looping end.
Lemma clean_restore fuel : clean (restore_at fuel).
Proof.
  unfold restore_at. clean_word. eapply (clean_bind (fun junk => get_nodes junk yr shape alloc fuel [])); [apply clean_nodes|intros os; apply clean_ret].
Qed.
(* more fuel does not change a result *)
Lemma more_fuel junk fuel : forall reg s os s', get_nodes junk yr shape alloc fuel reg s = Ok os s' ->
  forall fuel', (fuel <= fuel')%nat -> get_nodes junk yr shape alloc fuel' reg s = Ok os s'.
Proof.
  induction fuel as [|f IH]; intros reg s os s' E [|f'] L; cbn [get_nodes] in *; try discriminate E; [lia|].
  destruct (get_word junk s) as [h s1]. destruct (h =? M_end); [exact E|]. destruct (negb (h =? M_node)); [exact E|].
  destruct (get_node junk yr shape alloc reg s1) as [o s2| | |]; try discriminate E.
  destruct (get_nodes junk yr shape alloc f (reg ++ [fst o]) s2) as [os2 s3| | |] eqn:E2; try discriminate E.
  rewrite (IH _ _ _ _ E2 f' ltac:(lia)). exact E.
Qed.
Lemma more_fuel_restore junk fuel s x s' : restore_at fuel junk s = Ok x s' -> forall fuel', (fuel <= fuel')%nat -> restore_at fuel' junk s = Ok x s'.
Proof.
  unfold restore_at. intros E fuel' L. destruct (get_word junk s) as [next s1].
  destruct (get_nodes junk yr shape alloc fuel [] s1) as [os s2| | |] eqn:E1; try discriminate E. rewrite (more_fuel _ _ _ _ _ _ E1 _ L). exact E.
Qed.
Lemma restore_is junk fuel file : restore junk yr shape alloc fuel file = restore_at fuel junk (file, O).
Proof. reflexivity. Qed.
(* a file that is read to its end: no proper prefix is read without bytes from beyond its end *)
Lemma truncated junk junk' fuel fuel' p q x y r j : q <> [] ->
  restore junk yr shape alloc fuel (p ++ q) = Ok x ([], O) -> restore junk' yr shape alloc fuel' p = Ok y (r, j) -> (0 < j)%nat.
Proof.
  intros Hq E E'. rewrite restore_is in *. destruct (clean_restore fuel' junk' p O y r j E') as [L C].
  destruct (Nat.eq_dec j 0) as [->|N]; [exfalso|lia]. destruct (C eq_refl) as (u & -> & G). clear C.
  specialize (G junk (r ++ q) O). rewrite <- app_assoc in E.
  pose proof (more_fuel_restore junk fuel _ _ _ E (fuel + fuel')%nat ltac:(lia)) as A.
  pose proof (more_fuel_restore junk fuel' _ _ _ G (fuel + fuel')%nat ltac:(lia)) as B.
  rewrite A in B. injection B as _ B. destruct r; [|discriminate B]. cbn [app] in B. congruence.
Qed.
End Clean.

(* ---- a plain pointer to an object registered later ---- *)
Section Later.
Variable junk : nat -> Z.
Variable yr : symbols.
Variable shape : Z -> list kind.
Variable alloc : nat -> Z.
Variable yw : symbols.
Variable old : list node.
Hypothesis old_ids : forall n, In n old -> is_word (n_id n) /\ n_id n <> 0 /\ n_obj n <> 0.
Hypothesis alloc_ok : forall k, alloc k <> 0.
Hypothesis old_objs : NoDup (map n_obj old).
Hypothesis old_idsd : NoDup (map n_id old).
Notation regs a := (map fst (restored_from yr alloc yw old 0 a)).

Lemma nodes_prefix b : forall a t, old = map node_of (a ++ b ++ t) ->
  (forall k o, nth_error b k = Some o -> wf_object yw yr shape old (firstn (length a + k) old) o) ->
  forall cs, put_nodes yw old (b ++ t) = Some cs -> exists ct, put_nodes yw old t = Some ct /\ forall f r j,
    get_nodes junk yr shape alloc (length b + f) (regs a) (flat cs ++ r, j) =
    match get_nodes junk yr shape alloc f (regs (a ++ b)) (flat ct ++ r, j) with
    | Ok os s => Ok (restored_from yr alloc yw old (length a) b ++ os) s | Fail => Fail | Undef => Undef | Looping => Looping end.
Proof.
  induction b as [|o b IH]; intros a t E H cs Ecs.
  - exists cs. split; [exact Ecs|]. intros f r j. rewrite app_nil_r. cbn [length Nat.add restored_from app].
    destruct (get_nodes junk yr shape alloc f (regs a) (flat cs ++ r, j)); reflexivity.
  - pose proof (H O o eq_refl) as Hw. rewrite Nat.add_0_r in Hw.
    assert (Fn : firstn (length a) old = map node_of a).
    { rewrite E, map_app, <- (map_length node_of a). rewrite firstn_app, firstn_all, Nat.sub_diag, firstn_O, app_nil_r. reflexivity. }
    rewrite Fn in Hw.
    assert (E' : old = map node_of ((a ++ [o]) ++ b ++ t)) by (rewrite E, <- app_assoc; reflexivity).
    assert (H' : forall k o', nth_error b k = Some o' -> wf_object yw yr shape old (firstn (length (a ++ [o]) + k) old) o').
    { intros k o' Ho'. rewrite app_length. cbn [length]. replace (length a + 1 + k)%nat with (length a + S k)%nat by lia. apply H. exact Ho'. }
    destruct o as [[n link] vs]. cbn [put_nodes app] in Ecs.
    destruct (put_node yw old n link vs) as [c|] eqn:Ep; [|discriminate]. destruct (put_nodes yw old (b ++ t)) as [cb|] eqn:Eb; [|discriminate].
    injection Ecs as <-. destruct (IH (a ++ [(n, link, vs)]) t E' H' cb Eb) as (ct & Et & G). exists ct. split; [exact Et|]. intros f r j.
    destruct (get_node_ok junk yr shape alloc yw old old_ids (regs a) (map node_of a) ((n, link), vs) c (flat cb ++ r) j) as (c' & -> & Gn).
    { rewrite !map_length, restored_from_length. reflexivity. }
    { exact (gives_done yr alloc yw old old_ids alloc_ok old_objs old_idsd _ a _ E). }
    { exact Hw. }
    { exact Ep. }
    rewrite flat_app, flat_cons. cbn [bytes_of]. rewrite <- !app_assoc. cbn [length Nat.add get_nodes].
    rewrite get_word_exact by (unfold is_word, M_node; lia).
    change (M_node =? M_end) with false. change (M_node =? M_node) with true. cbn [negb]. rewrite Gn, map_length.
    replace (regs a ++ [fst (restored_object yw yr alloc old (length a) (n, link, vs))])
      with (regs (a ++ [(n, link, vs)])) by (rewrite restored_from_app, map_app; reflexivity).
    pose proof (G f r j) as X. match type of X with ?L = _ => match goal with |- match ?T with _ => _ end = _ => change T with L end end. rewrite X.
    rewrite <- app_assoc. cbn [app restored_from]. rewrite app_length. cbn [length]. rewrite Nat.add_1_r.
    unfold object in *. match goal with |- _ = match ?T with _ => _ end => destruct T end; reflexivity.
Qed.
Lemma vals_later reg seen p v2 v1 : gives alloc old reg seen -> Forall (wf_val yw yr old seen) v1 -> p <> 0 ->
  reanimate_fptr reg (id_of old p) = None -> forall cs r j, put_vals yw old (v1 ++ VPtr p :: v2) = Some cs ->
  get_vals junk yr reg (map kind_of (v1 ++ VPtr p :: v2)) (flat cs ++ r, j) = Fail.
Proof.
  intros Hg H P0 Hn. induction H as [|v vs Hv Hvs IH]; intros cs r j E; cbn [put_vals map get_vals app] in *.
  - destruct (put_val yw old (VPtr p)) as [a|] eqn:Ea; [|discriminate]. destruct (put_vals yw old v2) as [b|] eqn:Eb; [|discriminate].
    injection E as <-. rewrite flat_app, <- app_assoc. cbn [kind_of get_val]. unfold get_ptr. cbn [put_val] in Ea.
    destruct (put_ptr_flat shape old old_ids p a Ea) as [[-> ->]|(N & -> & W & Z0)]; [contradiction|].
    rewrite <- app_assoc, get_fptr_ok by assumption. rewrite Hn. reflexivity.
  - destruct (put_val yw old v) as [a|] eqn:Ea; [|discriminate]. destruct (put_vals yw old (vs ++ VPtr p :: v2)) as [b|] eqn:Eb; [|discriminate].
    injection E as <-. rewrite flat_app, <- app_assoc.
    rewrite (get_val_ok junk yr shape alloc yw old old_ids reg seen v a _ _ Hg Hv Ea). rewrite (IH b r j eq_refl). reflexivity.
Qed.
Lemma ids_restored a : forall k, map n_id (map fst (restored_from yr alloc yw old k a)) = map n_id (map node_of a).
Proof. induction a as [|o a IH]; intros k; cbn [restored_from map]; [reflexivity|]. rewrite fst_restored, IH. reflexivity. Qed.

Lemma later_fails a n link v1 p v2 t cs : old = map node_of (a ++ (n, link, v1 ++ VPtr p :: v2) :: t) ->
  (forall k o, nth_error a k = Some o -> wf_object yw yr shape old (firstn k old) o) ->
  wf_node yw yr n link -> shape (newsym yw yr (n_rs n)) = map kind_of (v1 ++ VPtr p :: v2) -> Forall (wf_val yw yr old (map node_of a)) v1 ->
  In p (map n_obj (map node_of t)) -> put_nodes yw old (a ++ (n, link, v1 ++ VPtr p :: v2) :: t) = Some cs ->
  forall f r j, get_nodes junk yr shape alloc (length a + S f) [] (flat cs ++ r, j) = Fail.
Proof.
  intros E Ha Hn Sh Hv1 Hp Ecs f r j.
  destruct (nodes_prefix a [] ((n, link, v1 ++ VPtr p :: v2) :: t) E Ha cs Ecs) as (ct & Et & G).
  specialize (G (S f) r j). cbn [restored_from map app] in G. match type of G with ?L = _ => match goal with |- ?T = _ => change T with L end end. rewrite G. clear G Ecs.
  cbn [put_nodes] in Et. destruct (put_node yw old n link (v1 ++ VPtr p :: v2)) as [c|] eqn:Ep; [|discriminate].
  destruct (put_nodes yw old t) as [cb|]; [|discriminate]. injection Et as <-.
  destruct Hn as (W1 & W0 & W2 & W3 & W4 & W5 & I0 & W6 & S1 & S2 & S3 & C0 & R0). unfold put_node in Ep.
  replace (n_ck n =? 0) with false in Ep by lia. destruct (put_vals yw old (v1 ++ VPtr p :: v2)) as [cv|] eqn:Ec; [|discriminate]. injection Ep as <-.
  rewrite flat_app, !flat_cons. cbn [bytes_of]. rewrite !flat_app, <- !app_assoc. cbn [get_nodes].
  rewrite get_word_exact by (unfold is_word, M_node; lia).
  change (M_node =? M_end) with false. change (M_node =? M_node) with true. cbn [negb]. unfold get_node.
  rewrite !get_word_exact by assumption. rewrite !get_sym_ok by assumption. replace (newsym yw yr (n_rs n) =? 0) with false by lia. rewrite Sh.
  apply in_map_iff in Hp. destruct Hp as (m & Em & Im). assert (Io : In m old).
  { rewrite E, map_app. apply in_or_app. right. right. exact Im. }
  destruct (old_ids m Io) as (_ & M0 & P0).
  rewrite (vals_later _ (map node_of a) p v2 v1); [reflexivity| | | | |exact Ec].
  - exact (gives_done yr alloc yw old old_ids alloc_ok old_objs old_idsd _ a _ E).
  - exact Hv1.
  - rewrite <- Em. exact P0.
  - unfold id_of. rewrite <- Em, (find_obj_in old m old_objs Io). unfold reanimate_fptr. replace (n_id m =? 0) with false by lia.
    match goal with |- match ?t with _ => _ end = None => assert (Q : t = None); [|rewrite Q; reflexivity] end.
    apply find_id_none. rewrite map_app, ids_restored. cbn [map n_id].
    pose proof old_idsd as D. rewrite E, map_app, map_app in D. cbn [map] in D. change (node_of (n, link, v1 ++ VPtr p :: v2)) with n in D.
    intros I. apply in_split in Im. destruct Im as (t1 & t2 & Et). unfold object in *. rewrite Et, (map_app n_id t1 (m :: t2)) in D. change (map n_id (m :: t2)) with (n_id m :: map n_id t2) in D.
    match type of D with NoDup (?A ++ ?x :: ?B ++ ?y :: ?C) => change (NoDup (A ++ ([x] ++ (B ++ y :: C)))) in D end.
    rewrite !app_assoc in D. apply NoDup_remove_2 in D. apply D. apply in_or_app. left. apply in_or_app. left. exact I.
Qed.
End Later.
