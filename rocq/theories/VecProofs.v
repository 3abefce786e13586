(* What the straight-line programs of VecModel.v do, from a symbolic run. *)
From Coq Require Import ZArith List String Bool Lia Permutation.
From Verif Require Import VecModel.
Import ListNotations.
Open Scope string_scope. Open Scope list_scope.
Ltac Zify.zify_post_hook ::= idtac.

(* ---- the accesses of a program, in order ---- *)
Definition access : Type := nat * string * list nat.
Fixpoint reads_e (e : vexp) : list access :=
  match e with
  | R _ | Zero _ | Set1 _ _ _ => []
  | Ld n p => [(n, p, seq 0 n)]
  | Ldu n p => [(1, p, seq 0 n)]
  | Ld4 p k => [(1, p, [k; 4 + k; 8 + k; 12 + k])]
  | LdL e p | LdH e p => reads_e e ++ [(1, p, [0; 1])]
  | Setr l => map (fun po => (1, fst po, [snd po])) l
  | Ext e _ | PermX _ e => reads_e e
  | Ulo e f | Uhi e f | Mlh e f | Mhl e f | Shuf e f _ | SetM e f | P2f e f _ | ShF e f _ | PermX2 e _ f
  | Trn1 e f | Trn2 e f | Trn1d e f | Trn2d e f | Uzp1 e f | Uzp2 e f => reads_e e ++ reads_e f
  end.
Definition reads_t (t : stmt) : list access :=
  match t with
  | Set_ _ e | St _ _ e | Stu _ e | StL _ e | StH _ e => reads_e e
  | LIn _ _ _ p o => [(1, p, [o])]
  | Cp _ _ p o => [(1, p, [o])]
  | _ => []
  end.
Definition writes_t (t : stmt) : list access :=
  match t with
  | St n p _ => [(n, p, seq 0 n)]
  | Stu p _ => [(1, p, seq 0 4)]
  | St4 p _ _ _ _ => [(1, p, seq 0 16)]
  | StL p _ | StH p _ => [(1, p, [0; 1])]
  | LOut p o _ _ | Cp p o _ _ | Clr p o => [(1, p, [o])]
  | _ => []
  end.
Definition uses (l : list stmt) : list access := flat_map (fun t => reads_t t ++ writes_t t) l.
Definition reads (l : list stmt) : list access := flat_map reads_t l.
(* no load after a store *)
Fixpoint ordered (l : list stmt) : bool :=
  match l with
  | [] => true
  | t :: l => match writes_t t with [] => ordered l | _ => match reads l with [] => true | _ => false end end
  end.

Section Proofs.
Variable word : Type.
Variable zero : word.
Notation cell := (cell word). Notation mem := (mem word).

(* ---- evaluation with given words ---- *)
Definition sld (rd : string -> nat -> cell) (al : nat) (p : string) (l : list nat) : outcome (reg word) :=
  Ok (map (rd p) l).

Lemma eval_ld (ld ld' : nat -> string -> list nat -> outcome (reg word)) s e :
  (forall x, In x (reads_e e) -> ld (fst (fst x)) (snd (fst x)) (snd x) = ld' (fst (fst x)) (snd (fst x)) (snd x)) ->
  eval word zero ld s e = eval word zero ld' s e.
Proof.
  revert s. induction e; intros s H; cbn [eval reads_e] in *;
    try reflexivity;
    try (apply (H _ (or_introl eq_refl)));
    try (rewrite (IHe s) by (intros x Hx; apply H; rewrite ?in_app_iff; tauto);
         try reflexivity; f_equal; apply (H (1, _, _)); apply in_or_app; right; left; reflexivity);
    try (rewrite (IHe1 s), (IHe2 s) by (intros x Hx; apply H; rewrite ?in_app_iff; tauto); reflexivity).
  induction l as [|po l IH]; [reflexivity|]. cbn [fold_right].
  rewrite IH by (intros x Hx; apply H; right; exact Hx).
  pose proof (H (1, fst po, [snd po]) (or_introl eq_refl)) as G. cbn [fst snd] in G. rewrite G. reflexivity.
Qed.

Lemma eval_ok ld s e : (forall x, In x (reads_e e) -> exists r, ld (fst (fst x)) (snd (fst x)) (snd x) = Ok r) <->
  exists r, eval word zero ld s e = Ok r.
Proof.
  assert (Hb : forall f (x y : outcome (reg word)), (exists r, bin word f x y = Ok r) <-> (exists r, x = Ok r) /\ (exists r, y = Ok r)).
  { intros f [r| |] [r'| |]; cbn [bin bind]; (split; [intros [? E]|intros [[? E] [? E']]]); try discriminate E; try discriminate E'; eauto. }
  assert (Hu : forall f (x : outcome (reg word)), (exists r, un word f x = Ok r) <-> (exists r, x = Ok r)).
  { intros f [r| |]; cbn; split; intros [? ?]; try discriminate; eauto. }
  assert (Ha : forall (P : access -> Prop) l l', (forall x, In x (l ++ l') -> P x) <-> (forall x, In x l -> P x) /\ (forall x, In x l' -> P x)).
  { intros P l l'. split; [intros H; split; intros x Hx; apply H, in_or_app; tauto|].
    intros [H1 H2] x Hx. apply in_app_iff in Hx. destruct Hx; auto. }
  assert (H1 : forall (P : access -> Prop) y, (forall x, In x [y] -> P x) <-> P y).
  { intros P y. split; [intros H; apply H; left; reflexivity|intros H x [<-|[]]; exact H]. }
  assert (H0 : forall (P : access -> Prop) (Q : Prop), Q -> (forall x, In x [] -> P x) <-> Q).
  { intros P Q q. split; [intros _; exact q|intros _ x []]. }
  induction e; cbn [eval reads_e]; rewrite ?Hb, ?Hu, ?Ha, ?H1; cbn [fst snd];
    try reflexivity; try (apply H0; eauto; fail); try (rewrite ?IHe1, ?IHe2, ?IHe; reflexivity).
  induction l as [|po l IH]; cbn [map fold_right]; [apply H0; eauto|].
  rewrite Hb, <- IH. clear IH. split.
  - intros H. split; [apply (H _ (or_introl eq_refl))|intros x Hx; apply H; right; exact Hx].
  - intros [G1 G2] x [<-|Hx]; [exact G1|exact (G2 x Hx)].
Qed.

Lemma exec1_ld (ld ld' : nat -> string -> list nat -> outcome (reg word)) s t :
  (forall x, In x (reads_t t) -> ld (fst (fst x)) (snd (fst x)) (snd x) = ld' (fst (fst x)) (snd (fst x)) (snd x)) ->
  exec1 word zero ld s t = exec1 word zero ld' s t.
Proof.
  intros H. destruct t; cbn [exec1 reads_t] in *; try reflexivity;
    try (rewrite (eval_ld ld ld' s e H); reflexivity);
    pose proof (H _ (or_introl eq_refl)) as G; cbn [fst snd] in G; rewrite G; reflexivity.
Qed.

(* The pointer, alignment and offsets of the stores of a statement. *)
Definition keys (w : list (nat * string * list (nat * cell))) : list access :=
  map (fun x => (fst (fst x), snd (fst x), map fst (snd x))) w.

Lemma keys_exec1 ld s t s' w : exec1 word zero ld s t = Ok (s', w) -> keys w = writes_t t.
Proof.
  assert (Hm : forall (r : reg word) l, map fst (map (fun i => (i, lane r i)) l) = l).
  { intros r l. induction l as [|i l IH]; [reflexivity|]. cbn. rewrite IH. reflexivity. }
  destruct t; cbn [exec1 writes_t]; intros H;
    try (destruct (eval word zero ld s e) as [r| |]; cbn [bind] in H; try discriminate; injection H as <- <-;
         cbn [keys map fst snd]; rewrite ?Hm; reflexivity);
    try (injection H as <- <-; reflexivity).
  - destruct (ld 1 p [o]) as [r| |]; cbn [bind] in H; try discriminate. injection H as <- <-. reflexivity.
  - destruct (ld 1 p' [o']) as [r| |]; cbn [bind] in H; try discriminate. injection H as <- <-. reflexivity.
  - destruct (String.eqb x y && Nat.eqb i j); injection H as <- <-; reflexivity.
Qed.

Lemma exec1_ok ld s t : (forall x, In x (reads_t t) -> exists r, ld (fst (fst x)) (snd (fst x)) (snd x) = Ok r) <->
  exists r, exec1 word zero ld s t = Ok r.
Proof.
  assert (Hb : forall T (x : outcome (reg word)) (f : reg word -> T), (exists r, bind x (fun r => Ok (f r)) = Ok r) <-> exists r, x = Ok r).
  { intros T [r| |] f; cbn; split; intros [? ?]; try discriminate; eauto. }
  destruct t; cbn [exec1 reads_t]; rewrite ?Hb, <- ?eval_ok; try reflexivity;
    try (split; [intros _; eexists; reflexivity|intros _ ? []]).
  - split; [intros H; apply (H _ (or_introl eq_refl))|intros H y [<-|[]]; exact H].
  - split; [intros H; apply (H _ (or_introl eq_refl))|intros H y [<-|[]]; exact H].
  - split; [intros _; destruct (String.eqb x y && Nat.eqb i j); eauto|intros _ ? []].
Qed.

(* ---- memory ---- *)
Variable a : string -> Z.
(* an access is defined *)
Definition okacc (m : mem) (x : access) : Prop :=
  aligned a (fst (fst x)) (snd (fst x)) = true /\
  Forall (fun o => m (a (snd (fst x)) + Z.of_nat o)%Z <> None) (snd x).

Lemma load_ok m x : (exists r, load word a m (fst (fst x)) (snd (fst x)) (snd x) = Ok r) <-> okacc m x.
Proof.
  destruct x as [[al p] l]. unfold okacc, load. cbn [fst snd].
  destruct (aligned a al p); [|split; [intros [r H]; discriminate H|intros [H _]; discriminate H]].
  transitivity (Forall (fun o => m (a p + Z.of_nat o)%Z <> None) l); [|tauto].
  induction l as [|o l IH]; cbn [loads].
  - split; [intros _; constructor|eauto].
  - rewrite Forall_cons_iff, <- IH. destruct (m (a p + Z.of_nat o)%Z) as [c|].
    + destruct (loads word m (a p) l) as [r| |]; cbn [bind].
      * split; [intros _; split; [discriminate|eauto]|eauto].
      * split; [intros [r H]; discriminate H|intros [_ [r H]]; discriminate H].
      * split; [intros [r H]; discriminate H|intros [_ [r H]]; discriminate H].
    + split; [intros [r H]; discriminate H|intros [H _]; congruence].
Qed.

Lemma load_words m rd al p l r : load word a m al p l = Ok r ->
  (forall o, In o l -> m (a p + Z.of_nat o)%Z = Some (rd o)) -> r = map rd l.
Proof.
  unfold load. destruct (aligned a al p); [|discriminate]. revert r.
  induction l as [|o l IH]; intros r H Hr; cbn [loads] in H; [injection H as <-; reflexivity|].
  rewrite (Hr o (or_introl eq_refl)) in H.
  destruct (loads word m (a p) l) as [r'| |]; cbn [bind] in H; try discriminate. injection H as <-.
  cbn [map]. f_equal. apply IH; [reflexivity|]. intros o' Ho'. apply Hr. right. exact Ho'.
Qed.

(* the stores of a program as single words *)
Definition flat (w : list (nat * string * list (nat * cell))) : list (string * nat * cell) :=
  flat_map (fun x => map (fun oc => (snd (fst x), fst oc, snd oc)) (snd x)) w.
Fixpoint final (m : mem) (l : list (string * nat * cell)) : mem :=
  match l with
  | [] => m
  | (p, o, c) :: l => final (put word m (a p + Z.of_nat o) c) l
  end.
Lemma final_app m l l' : final m (l ++ l') = final (final m l) l'.
Proof. revert m. induction l as [|[[p o] c] l IH]; intros m; [reflexivity|]. cbn. apply IH. Qed.
Lemma final_acc m l z : m z <> None -> final m l z <> None.
Proof.
  revert m. induction l as [|[[p o] c] l IH]; intros m H; [exact H|]. cbn. apply IH. unfold put.
  destruct (Z.eqb z (a p + Z.of_nat o)); [discriminate|exact H].
Qed.
Lemma final_acc' m l z : (forall x, In x l -> m (a (fst (fst x)) + Z.of_nat (snd (fst x)))%Z <> None) ->
  final m l z <> None -> m z <> None.
Proof.
  revert m. induction l as [|[[p o] c] l IH]; intros m Hl H; [exact H|]. cbn in H.
  assert (Hp : m (a p + Z.of_nat o)%Z <> None) by (apply (Hl (p, o, c)); left; reflexivity).
  apply IH in H.
  - unfold put in H. destruct (Z.eqb_spec z (a p + Z.of_nat o)); [subst z; exact Hp|exact H].
  - intros x Hx. unfold put. destruct (Z.eqb (a (fst (fst x)) + Z.of_nat (snd (fst x))) (a p + Z.of_nat o)); [discriminate|].
    apply Hl. right. exact Hx.
Qed.

Lemma puts_final m p l : Forall (fun o => m (a p + Z.of_nat o)%Z <> None) (map fst l) ->
  puts word m (a p) l = Ok (final m (map (fun oc => (p, fst oc, snd oc)) l)).
Proof.
  revert m. induction l as [|[o c] l IH]; intros m H; [reflexivity|].
  cbn [map fst snd] in H. apply Forall_cons_iff in H. destruct H as [H1 H2]. cbn [puts map final fst snd].
  destruct (m (a p + Z.of_nat o)%Z); [|congruence]. apply IH.
  eapply Forall_impl; [|exact H2]. intros o' Ho'. unfold put. destruct (Z.eqb _ _); [discriminate|exact Ho'].
Qed.
Lemma puts_ok m p l m' : puts word m (a p) l = Ok m' -> Forall (fun o => m (a p + Z.of_nat o)%Z <> None) (map fst l).
Proof.
  revert m. induction l as [|[o c] l IH]; intros m H; [constructor|]. cbn [puts] in H. cbn [map fst].
  destruct (m (a p + Z.of_nat o)%Z) eqn:E; [|discriminate]. constructor; [rewrite E; discriminate|].
  apply IH in H. eapply Forall_impl; [|exact H]. intros o' Ho'. unfold put in Ho'.
  destruct (Z.eqb_spec (a p + Z.of_nat o') (a p + Z.of_nat o)) as [->|]; [rewrite E; discriminate|exact Ho'].
Qed.

Lemma stores_final m w : Forall (okacc m) (keys w) -> stores_all word a m w = Ok (final m (flat w)).
Proof.
  revert m. induction w as [|[[al p] l] w IH]; intros m H; [reflexivity|].
  cbn [keys map fst snd] in H. apply Forall_cons_iff in H. destruct H as [[H1 H2] H3]. cbn [fst snd] in *.
  cbn [stores_all]. unfold store. rewrite H1, (puts_final m p l H2). cbn [bind flat flat_map fst snd].
  rewrite final_app. apply IH. eapply Forall_impl; [|exact H3]. intros x [G1 G2]. split; [exact G1|].
  eapply Forall_impl; [|exact G2]. intros o Ho. apply final_acc. exact Ho.
Qed.
Lemma stores_ok m w m' : stores_all word a m w = Ok m' -> Forall (okacc m) (keys w).
Proof.
  revert m. induction w as [|[[al p] l] w IH]; intros m H; [constructor|].
  cbn [stores_all] in H. unfold store in H. cbn [keys map fst snd].
  destruct (aligned a al p) eqn:E; [|discriminate].
  destruct (puts word m (a p) l) as [m1| |] eqn:Ep; cbn [bind] in H; try discriminate.
  pose proof (puts_ok _ _ _ _ Ep) as Hp. rewrite (puts_final m p l Hp) in Ep. injection Ep as <-.
  constructor; [split; assumption|]. apply IH in H. eapply Forall_impl; [|exact H].
  intros x [G1 G2]. split; [exact G1|]. eapply Forall_impl; [|exact G2]. intros o Ho.
  eapply final_acc'; [|exact Ho]. intros y Hy. apply in_map_iff in Hy. destruct Hy as ((o', c) & <- & Hy).
  cbn [fst snd]. rewrite Forall_forall in Hp. apply Hp. apply in_map_iff. exists (o', c). split; [reflexivity|exact Hy].
Qed.

Lemma in_flat_key w x : In x (flat w) -> exists y, In y (keys w) /\ snd (fst y) = fst (fst x) /\ In (snd (fst x)) (snd y).
Proof.
  intros H. apply in_flat_map in H. destruct H as (y & Hy & Hx). apply in_map_iff in Hx. destruct Hx as ((o, c) & <- & Ho).
  exists (fst (fst y), snd (fst y), map fst (snd y)). cbn [fst snd]. split; [|split; [reflexivity|]].
  - apply in_map_iff. exists y. split; [reflexivity|exact Hy].
  - apply in_map_iff. exists (o, c). split; [reflexivity|exact Ho].
Qed.
Lemma okacc_final m w x : Forall (okacc m) (keys w) -> okacc (final m (flat w)) x <-> okacc m x.
Proof.
  intros H. split; intros [H1 H2]; (split; [exact H1|]); eapply Forall_impl; try exact H2.
  - intros o Ho. eapply final_acc'; [|exact Ho]. intros y Hy. apply in_flat_key in Hy. destruct Hy as (k & Hk & <- & Hi).
    rewrite Forall_forall in H. destruct (H k Hk) as [_ G]. rewrite Forall_forall in G. exact (G _ Hi).
  - intros o Ho. apply final_acc. exact Ho.
Qed.

(* A program is defined exactly if its accesses are. *)
Lemma run_ok l : forall s m, (exists r, run word zero a l s m = Ok r) <-> Forall (okacc m) (uses l).
Proof.
  induction l as [|t l IH]; intros s m; cbn [run].
  - split; [constructor|eauto].
  - unfold uses. cbn [flat_map]. rewrite Forall_app, Forall_app.
    assert (Hr : Forall (okacc m) (reads_t t) <-> exists r, exec1 word zero (load word a m) s t = Ok r).
    { rewrite <- exec1_ok, Forall_forall. split; intros H x Hx; apply load_ok; [|apply load_ok]; auto.
      apply load_ok. auto. }
    rewrite Hr. destruct (exec1 word zero (load word a m) s t) as [[s' w]| |] eqn:E; cbn [bind].
    + rewrite <- (keys_exec1 _ _ _ _ _ E).
      destruct (stores_all word a m w) as [m'| |] eqn:Es; cbn [bind].
      * pose proof (stores_ok _ _ _ Es) as Hk. rewrite (stores_final m w Hk) in Es. injection Es as <-.
        rewrite IH. fold (uses l). rewrite !Forall_forall. split.
        -- intros H. split; [split; [eauto|rewrite <- Forall_forall; exact Hk]|]. intros x Hx.
           apply (okacc_final m w x Hk). exact (H x Hx).
        -- intros [_ H] x Hx. apply (okacc_final m w x Hk). exact (H x Hx).
      * split; [intros [r H]; discriminate H|]. intros [[_ H] _]. rewrite (stores_final m w H) in Es. discriminate Es.
      * split; [intros [r H]; discriminate H|]. intros [[_ H] _]. rewrite (stores_final m w H) in Es. discriminate Es.
    + split; [intros [r H]; discriminate H|intros [[[r H] _] _]; discriminate H].
    + split; [intros [r H]; discriminate H|intros [[[r H] _] _]; discriminate H].
Qed.

(* ---- symbolic run ---- *)
Fixpoint srun (rd : string -> nat -> cell) (l : list stmt) (s : env word) : outcome (env word * list (string * nat * cell)) :=
  match l with
  | [] => Ok (s, [])
  | t :: l => bind (exec1 word zero (sld rd) s t) (fun '(s, w) =>
      bind (srun rd l s) (fun '(s, w') => Ok (s, (flat w ++ w')%list)))
  end.

Definition holds (m : mem) (rd : string -> nat -> cell) (x : access) : Prop :=
  forall o, In o (snd x) -> m (a (snd (fst x)) + Z.of_nat o)%Z = Some (rd (snd (fst x)) o).

Lemma run_noread rd l : forall s m, reads l = [] -> Forall (okacc m) (uses l) ->
  forall s' w, srun rd l s = Ok (s', w) -> run word zero a l s m = Ok (s', final m w).
Proof.
  induction l as [|t l IH]; intros s m Hr Hu s' w H; cbn [srun run] in *.
  - injection H as <- <-. reflexivity.
  - cbn [reads flat_map] in Hr. apply app_eq_nil in Hr. destruct Hr as [Hr1 Hr2].
    unfold uses in Hu. cbn [flat_map] in Hu. apply Forall_app in Hu. destruct Hu as [Hu1 Hu2].
    apply Forall_app in Hu1. destruct Hu1 as [_ Hw].
    rewrite (exec1_ld (load word a m) (sld rd) s t) by (rewrite Hr1; intros x []).
    destruct (exec1 word zero (sld rd) s t) as [[s1 w1]| |] eqn:E; cbn [bind] in *; try discriminate.
    destruct (srun rd l s1) as [[s2 w2]| |] eqn:E2; cbn [bind] in H; try discriminate. injection H as <- <-.
    rewrite <- (keys_exec1 _ _ _ _ _ E) in Hw. rewrite (stores_final m w1 Hw). cbn [bind].
    rewrite final_app. apply IH; [exact Hr2| |exact E2].
    rewrite Forall_forall in *. intros x Hx. apply okacc_final; [rewrite Forall_forall; exact Hw|exact (Hu2 x Hx)].
Qed.

Lemma run_sym rd l : forall s m, ordered l = true -> Forall (okacc m) (uses l) -> Forall (holds m rd) (reads l) ->
  forall s' w, srun rd l s = Ok (s', w) -> run word zero a l s m = Ok (s', final m w).
Proof.
  induction l as [|t l IH]; intros s m Ho Hu Hh s' w H.
  - injection H as <- <-. reflexivity.
  - unfold uses in Hu. cbn [flat_map] in Hu. apply Forall_app in Hu. destruct Hu as [Hu1 Hu2].
    apply Forall_app in Hu1. destruct Hu1 as [Hrd Hw].
    unfold reads in Hh. cbn [flat_map] in Hh. apply Forall_app in Hh. destruct Hh as [Hh1 Hh2].
    cbn [srun run ordered] in *.
    rewrite (exec1_ld (load word a m) (sld rd) s t).
    2:{ intros x Hx. rewrite Forall_forall in Hrd, Hh1. destruct (proj2 (load_ok m x) (Hrd x Hx)) as [r Hr]. rewrite Hr.
        unfold sld. f_equal. eapply load_words; [exact Hr|]. exact (Hh1 x Hx). }
    destruct (exec1 word zero (sld rd) s t) as [[s1 w1]| |] eqn:E; cbn [bind] in *; try discriminate.
    destruct (srun rd l s1) as [[s2 w2]| |] eqn:E2; cbn [bind] in H; try discriminate. injection H as <- <-.
    pose proof (keys_exec1 _ _ _ _ _ E) as Hk.
    rewrite <- Hk in Hw. rewrite (stores_final m w1 Hw). cbn [bind]. rewrite final_app.
    destruct (writes_t t) eqn:Et.
    + destruct w1; [|discriminate Hk]. apply IH; assumption.
    + destruct (reads l) eqn:El; [|discriminate Ho]. apply (run_noread rd); [exact El| |exact E2].
      rewrite Forall_forall in *. intros x Hx. apply okacc_final; [rewrite Forall_forall; exact Hw|exact (Hu2 x Hx)].
Qed.

(* ---- the memory after single stores to distinct places ---- *)
Lemma final_other m l z : (forall x, In x l -> z <> a (fst (fst x)) + Z.of_nat (snd (fst x)))%Z -> final m l z = m z.
Proof.
  revert m. induction l as [|[[p o] c] l IH]; intros m H; [reflexivity|]. cbn [final]. rewrite IH.
  - unfold put. destruct (Z.eqb_spec z (a p + Z.of_nat o)) as [E|]; [|reflexivity].
    exfalso. exact (H (p, o, c) (or_introl eq_refl) E).
  - intros x Hx. apply H. right. exact Hx.
Qed.
Lemma final_at m l p o c :
  (forall x y, In x l -> In y l -> (a (fst (fst x)) + Z.of_nat (snd (fst x)) = a (fst (fst y)) + Z.of_nat (snd (fst y)))%Z -> fst x = fst y) ->
  NoDup (map fst l) -> In (p, o, c) l -> final m l (a p + Z.of_nat o)%Z = Some c.
Proof.
  revert m. induction l as [|[[q k] d] l IH]; intros m Hd Hn Hi; [destruct Hi|].
  cbn [map fst] in Hn. apply NoDup_cons_iff in Hn. destruct Hn as [Hn1 Hn2]. cbn [final]. destruct Hi as [E|Hi].
  - injection E as -> -> ->. rewrite final_other.
    + unfold put. rewrite Z.eqb_refl. reflexivity.
    + intros x Hx E. apply Hn1. pose proof (Hd (p, o, c) x (or_introl eq_refl) (or_intror Hx) E) as G. cbn [fst] in G.
      rewrite G. apply in_map. exact Hx.
  - apply IH; [|exact Hn2|exact Hi]. intros x y Hx Hy. apply Hd; right; assumption.
Qed.
End Proofs.
