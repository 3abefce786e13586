From Coq Require Import ZArith List Bool Lia Permutation.
From Verif Require Import SortModel SweepModel.
Import ListNotations.
Open Scope Z_scope.

Section Sweep.
Variables (loc val op : Type).
Variable loc_eqb : loc -> loc -> bool.
Variable exec : op -> (loc -> val) -> list (loc * val).
Variable host : op -> bool.
Variables (W R : op -> list loc).
Hypothesis loc_eqb_spec : forall a b, reflect (a = b) (loc_eqb a b).
Hypothesis exec_dom : forall o m, map fst (exec o m) = W o.
Hypothesis exec_ext : forall o m m', (forall l, In l (R o) -> m l = m' l) -> exec o m = exec o m'.

Notation stores := (stores loc val loc_eqb).
Notation racy := (racy loc val op loc_eqb exec host).

Lemma stores_notin ws m l : ~ In l (map fst ws) -> stores ws m l = m l.
Proof.
  revert m. induction ws as [|[l' v] ws IH]; intros m H; [reflexivity|].
  cbn [map fst In] in H. cbn [SweepModel.stores fold_left]. unfold SweepModel.stores in IH.
  rewrite IH by tauto. unfold store. cbn [fst snd]. destruct (loc_eqb_spec l l'); [|reflexivity].
  subst. tauto.
Qed.

(* The last store to a location decides, independently of the memory before. *)
Lemma stores_in ws m m' l : In l (map fst ws) -> stores ws m l = stores ws m' l.
Proof.
  revert m m'. induction ws as [|[l' v] ws IH]; intros m m' H; [destruct H|].
  cbn [map fst In] in H. cbn [SweepModel.stores fold_left].
  change (stores ws (store loc val loc_eqb m l' v) l = stores ws (store loc val loc_eqb m' l' v) l).
  destruct (in_dec (fun a b => reflect_dec _ _ (loc_eqb_spec a b)) l (map fst ws)) as [Hi|Hi].
  - apply IH. exact Hi.
  - rewrite !stores_notin by exact Hi. unfold store. destruct (loc_eqb_spec l l'); [reflexivity|].
    destruct H; [congruence|contradiction].
Qed.

Definition indep (o o' : op) : Prop :=
  forall l, In l (W o') -> ~ In l (W o) /\ ~ In l (R o).

Inductive pairwise : list op -> Prop :=
| pw_nil : pairwise []
| pw_cons : forall o ops, (forall o', In o' ops -> indep o o' /\ indep o' o) ->
    pairwise ops -> pairwise (o :: ops).

Lemma pairwise_perm l l' : Permutation l l' -> pairwise l -> pairwise l'.
Proof.
  intros HP. induction HP; intros H; auto.
  - inversion_clear H. constructor; auto. intros o' Ho'. apply H0. eapply Permutation_in; [|exact Ho'].
    symmetry. exact HP.
  - inversion_clear H. inversion_clear H1. constructor.
    + intros o' [->|Ho']; [|auto]. destruct (H0 x); [left; reflexivity|]. auto.
    + constructor; auto. intros o' Ho'. apply H0. right. exact Ho'.
Qed.

Lemma pairwise_app_l l l' : pairwise (l ++ l') -> pairwise l.
Proof.
  induction l as [|o l IH]; intros H; [constructor|]. inversion_clear H. constructor; auto.
  intros o' Ho'. apply H0. apply in_or_app. auto.
Qed.

Lemma pairwise_app_r l l' : pairwise (l ++ l') -> pairwise l'.
Proof. induction l as [|o l IH]; intros H; auto. inversion_clear H. auto. Qed.

Lemma pairwise_app_cross l l' a b : pairwise (l ++ l') -> In a l -> In b l' -> indep a b /\ indep b a.
Proof.
  induction l as [|o l IH]; intros H Ha Hb; [destruct Ha|]. inversion_clear H.
  destruct Ha as [->|Ha]; [apply H0; apply in_or_app; auto|auto].
Qed.

(* Expected outcome of executing [ops] whose operands are those of memory B. *)
Definition outcome (B : loc -> val) (ops : list op) (m r : loc -> val) : Prop :=
  (forall o l, In o ops -> In l (W o) -> r l = stores (exec o B) B l) /\
  (forall l, (forall o, In o ops -> ~ In l (W o)) -> r l = m l).

Lemma racy_spec B hs hh m ops r hs' :
  racy hs hh m ops r hs' -> pairwise ops ->
  (forall o l, In o ops -> In l (R o) -> m l = B l) ->
  (forall o l m', In o ops -> In l (R o) -> In m' (if host o then hh else hs) -> m' l = B l) ->
  outcome B ops m r /\
  (forall m' l, In m' hs' -> (forall o, In o ops -> ~ In l (W o)) -> In m' hs \/ m' l = m l).
Proof.
  intros Hr. induction Hr as [hs hh m|hs hh m o ops s r hs' Hs Hr IH]; intros Hpw Hm Hh.
  - split; [split|].
    + intros o l [].
    + reflexivity.
    + intros m' l H _. auto.
  - inversion_clear Hpw as [|? ? Hind Hpw'].
    assert (Hex : exec o s = exec o B).
    { apply exec_ext. intros l Hl. destruct (Hs l) as (m' & Hin & ->). destruct Hin as [<-|Hin].
      - apply (Hm o); [left; reflexivity|exact Hl].
      - apply (Hh o l m'); [left; reflexivity|exact Hl|exact Hin]. }
    rewrite Hex in *.
    assert (Hun : forall l, ~ In l (W o) -> stores (exec o B) m l = m l).
    { intros l Hl. apply stores_notin. rewrite exec_dom. exact Hl. }
    destruct IH as [[Hw Hn] Hhist].
    + exact Hpw'.
    + intros o' l Ho' Hl. rewrite Hun.
      * apply (Hm o'); [right; exact Ho'|exact Hl].
      * intros Hc. destruct (Hind o' Ho') as [_ H']. destruct (H' l Hc) as [_ H'']. contradiction.
    + intros o' l m' Ho' Hl Hin.
      destruct (host o') eqn:Eh; (destruct Hin as [<-|Hin];
        [apply (Hm o'); [right; exact Ho'|exact Hl]
        |apply (Hh o' l m'); [right; exact Ho'|exact Hl|rewrite Eh; exact Hin]]).
    + split; [split|].
      * intros o' l [<-|Ho'] Hl.
        -- rewrite Hn.
           ++ apply stores_in. rewrite exec_dom. exact Hl.
           ++ intros o' Ho' Hc. destruct (Hind o' Ho') as [H' _]. destruct (H' l Hc). contradiction.
        -- apply Hw; assumption.
      * intros l Hl. rewrite Hn by (intros o' Ho'; apply Hl; right; exact Ho').
        apply Hun. apply Hl. left. reflexivity.
      * intros m' l Hin Hl.
        destruct (Hhist m' l Hin) as [[<-|H]|H]; [intros o' Ho'; apply Hl; right; exact Ho'| | |]; auto.
        right. rewrite H. apply Hun. apply Hl. left. reflexivity.
Qed.

Lemma phase_spec ops m r :
  phase_run loc val op loc_eqb exec host ops m r -> pairwise ops -> outcome m ops m r.
Proof.
  intros (ops' & hs' & HP & Hr) Hpw.
  destruct (racy_spec m _ _ _ _ _ _ Hr) as [[Hw Hn] _].
  - eapply pairwise_perm; eassumption.
  - reflexivity.
  - intros o l m' _ _ H. destruct (host o); destruct H.
  - split.
    + intros o l Ho. apply Hw. eapply Permutation_in; eassumption.
    + intros l Hl. apply Hn. intros o Ho. apply Hl. eapply Permutation_in; [symmetry|]; eassumption.
Qed.

(* Ghost operations G read nothing; pipeline operations Q do not read what G
   writes.  B is the memory with the ghost values in place. *)
Lemma split_spec Q G H m B r :
  split_run loc val op loc_eqb exec host Q G H m r ->
  pairwise (Q ++ G) -> pairwise (Q ++ H) ->
  (forall g, In g G -> R g = []) ->
  (forall q, In q Q -> host q = false) -> (forall h, In h H -> host h = true) ->
  outcome m G m B ->
  outcome B (Q ++ H) B r.
Proof.
  intros (Q1 & Q2 & L1 & L2 & m1 & hs1 & hs2 & PQ & P1 & R1 & P2 & R2) PG PH HG HhQ HhH [HBg HBn].
  assert (HBq : forall q l, In q Q -> In l (R q) -> m l = B l).
  { intros q l Hq Hl. symmetry. apply HBn. intros g Hg Hw.
    destruct (pairwise_app_cross _ _ q g PG Hq Hg) as [H1 _]. destruct (H1 l Hw). contradiction. }
  assert (HQ1 : forall q, In q Q1 -> In q Q).
  { intros q Hq. eapply Permutation_in; [symmetry; exact PQ|]. apply in_or_app. auto. }
  assert (HQ2 : forall q, In q Q2 -> In q Q).
  { intros q Hq. eapply Permutation_in; [symmetry; exact PQ|]. apply in_or_app. auto. }
  assert (PQG : pairwise (Q1 ++ Q2 ++ G)).
  { rewrite app_assoc. eapply pairwise_perm; [|exact PG]. apply Permutation_app; [exact PQ|reflexivity]. }
  assert (PQH : pairwise (Q1 ++ Q2 ++ H)).
  { rewrite app_assoc. eapply pairwise_perm; [|exact PH]. apply Permutation_app; [exact PQ|reflexivity]. }
  assert (HQQ : forall a b, In a Q1 -> In b Q2 -> indep a b /\ indep b a).
  { intros a b Ha Hb. apply (pairwise_app_cross _ _ a b PQG Ha). apply in_or_app. auto. }
  assert (HQH : forall a b, In a Q1 -> In b H -> indep a b /\ indep b a).
  { intros a b Ha Hb. apply (pairwise_app_cross _ _ a b PQH Ha). apply in_or_app. auto. }
  assert (HQ2G : forall a b, In a Q2 -> In b G -> indep a b /\ indep b a).
  { intros a b Ha Hb. apply (pairwise_app_cross _ _ a b (pairwise_app_r _ _ PQG) Ha). exact Hb. }
  (* phase 1 *)
  destruct (racy_spec B _ _ _ _ _ _ R1) as [[Hw1 Hn1] Hh1].
  - eapply pairwise_perm; [symmetry; exact P1|].
    assert (HH : pairwise ((Q1 ++ G) ++ Q2)).
    { eapply pairwise_perm; [|exact PQG]. rewrite <- app_assoc. apply Permutation_app_head.
      apply Permutation_app_comm. }
    eapply pairwise_app_l. exact HH.
  - intros o l Ho Hl. apply (Permutation_in _ P1) in Ho. apply in_app_or in Ho. destruct Ho as [Ho|Ho].
    + apply (HBq o); auto.
    + rewrite HG in Hl by exact Ho. destruct Hl.
  - intros o l m' _ _ Hin. destruct (host o); destruct Hin.
  - assert (Hm1 : forall l, (forall q, In q Q1 -> ~ In l (W q)) -> m1 l = B l).
    { intros l Hq.
      destruct (in_dec (fun a b => reflect_dec _ _ (loc_eqb_spec a b)) l (flat_map W G)) as [Hi|Hi].
      - apply in_flat_map in Hi. destruct Hi as (g & Hg & Hl).
        rewrite (Hw1 g l) by first [exact Hl|eapply Permutation_in; [symmetry; exact P1|apply in_or_app; auto]].
        rewrite (HBg g l Hg Hl). rewrite (exec_ext g B m); [apply stores_in; rewrite exec_dom; exact Hl|].
        intros l' Hl'. rewrite HG in Hl' by exact Hg. destruct Hl'.
      - assert (HiG : forall g, In g G -> ~ In l (W g)).
        { intros g Hg Hl. apply Hi. apply in_flat_map. eauto. }
        rewrite Hn1; [symmetry; apply HBn; exact HiG|].
        intros o Ho. apply (Permutation_in _ P1) in Ho. apply in_app_or in Ho. destruct Ho as [Ho|Ho]; auto. }
    assert (Hind : forall o, In o (Q2 ++ H) -> forall q l, In q Q1 -> In l (W q) -> ~ In l (W o) /\ ~ In l (R o)).
    { intros o Ho q l Hq Hl. apply in_app_or in Ho. destruct Ho as [Ho|Ho].
      - destruct (HQQ q o Hq Ho) as [_ H']. exact (H' l Hl).
      - destruct (HQH q o Hq Ho) as [_ H']. exact (H' l Hl). }
    destruct (racy_spec B _ _ _ _ _ _ R2) as [[Hw2 Hn2] _].
    + eapply pairwise_perm; [symmetry; exact P2|]. eapply pairwise_app_r. exact PQH.
    + intros o l Ho Hl. apply (Permutation_in _ P2) in Ho. apply Hm1. intros q Hq Hw.
      destruct (Hind o Ho q l Hq Hw). contradiction.
    + intros o l m' Ho Hl Hin. apply (Permutation_in _ P2) in Ho. apply in_app_or in Ho.
      destruct Ho as [Ho|Ho].
      * rewrite (HhQ o (HQ2 o Ho)) in Hin.
        destruct (Hh1 m' l Hin) as [Hc|Hc].
        -- intros o' Ho' Hw. apply (Permutation_in _ P1) in Ho'. apply in_app_or in Ho'. destruct Ho' as [Ho'|Ho'].
           ++ destruct (Hind o ltac:(apply in_or_app; auto) o' l Ho' Hw). contradiction.
           ++ destruct (HQ2G o o' Ho Ho') as [H' _]. destruct (H' l Hw). contradiction.
        -- destruct Hc.
        -- rewrite Hc. apply (HBq o); auto.
      * rewrite (HhH o Ho) in Hin. destruct Hin.
    + split.
      * intros o l Ho Hl. apply in_app_or in Ho. destruct Ho as [Ho|Ho].
        -- apply (Permutation_in _ PQ) in Ho. apply in_app_or in Ho. destruct Ho as [Ho|Ho].
           ++ rewrite Hn2.
              ** apply Hw1; [|exact Hl]. eapply Permutation_in; [symmetry; exact P1|apply in_or_app; auto].
              ** intros o' Ho'. apply (Permutation_in _ P2) in Ho'. apply (Hind o' Ho' o l Ho Hl).
           ++ apply Hw2; [|exact Hl]. eapply Permutation_in; [symmetry; exact P2|apply in_or_app; auto].
        -- apply Hw2; [|exact Hl]. eapply Permutation_in; [symmetry; exact P2|apply in_or_app; auto].
      * intros l Hl. rewrite Hn2.
        -- apply Hm1. intros q Hq. apply Hl. apply in_or_app. auto.
        -- intros o Ho. apply Hl. apply (Permutation_in _ P2) in Ho. apply in_app_or in Ho.
           apply in_or_app. destruct Ho; auto.
Qed.

(* In-order execution is one of the runs. *)
Lemma racy_run_ops hs hh m ops : exists hs', racy hs hh m ops (run_ops loc val op loc_eqb exec ops m) hs'.
Proof.
  revert hs hh m. induction ops as [|o ops IH]; intros hs hh m.
  - exists hs. constructor.
  - destruct (IH (m :: hs) (m :: hh) (stores (exec o m) m)) as (hs' & H). exists hs'.
    econstructor; [|exact H]. intros l. exists m. split; [left; reflexivity|reflexivity].
Qed.

Lemma phase_run_ops m ops : phase_run loc val op loc_eqb exec host ops m (run_ops loc val op loc_eqb exec ops m).
Proof.
  destruct (racy_run_ops [] [] m ops) as (hs' & H). exists ops, hs'. split; [reflexivity|exact H].
Qed.

Lemma split_run_ops Q G H m :
  split_run loc val op loc_eqb exec host Q G H m
    (run_ops loc val op loc_eqb exec (Q ++ G ++ H) m).
Proof.
  destruct (racy_run_ops [] [] m (Q ++ G)) as (hs1 & H1).
  destruct (racy_run_ops hs1 [] (run_ops loc val op loc_eqb exec (Q ++ G) m) H) as (hs2 & H2).
  exists Q, [], (Q ++ G), H. eexists _, _, _. rewrite app_nil_r.
  split; [reflexivity|]. split; [reflexivity|]. split; [exact H1|]. split; [reflexivity|].
  rewrite app_assoc. unfold run_ops in *. rewrite (fold_left_app _ (Q ++ G) H). exact H2.
Qed.
End Sweep.
