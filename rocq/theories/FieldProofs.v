From Coq Require Import ZArith List Bool Lia ZifyBool Permutation.
From Verif Require Import DistributeModel VoxelModel VoxelProofs SortModel SortProofs SweepModel SweepProofs FieldModel.
Import ListNotations.
Open Scope Z_scope.
Ltac Zify.zify_post_hook ::= idtac.

Lemma comp_eqb_spec a b : reflect (a = b) (comp_eqb a b).
Proof. destruct a, b; cbn; constructor; congruence. Qed.

Lemma floc_eqb_spec a b : reflect (a = b) (floc_eqb a b).
Proof.
  destruct a as [c v], b as [c' v']. unfold floc_eqb. cbn [fst snd].
  destruct (comp_eqb_spec c c'), (Z.eqb_spec v v'); cbn; constructor; congruence.
Qed.

Lemma floc_eqb_refl l : floc_eqb l l = true.
Proof. destruct (floc_eqb_spec l l); congruence. Qed.

(* ---- footprints ---- *)
Section Foot.
Variable V : Type.
Variable A : arith V.
Variable mt : mats V.
Variable k : coefs V.

Definition fW (o : fop V) : list floc :=
  match o with
  | UPDATE_CBX f0 _ _ | MARDER_CBX f0 _ => [(Cbx, f0)]
  | UPDATE_CBY f0 _ _ | MARDER_CBY f0 _ => [(Cby, f0)]
  | UPDATE_CBZ f0 _ _ | MARDER_CBZ f0 _ => [(Cbz, f0)]
  | UPDATE_EX f0 _ _ => [(Tcax, f0); (Ex, f0)]
  | UPDATE_EY f0 _ _ => [(Tcay, f0); (Ey, f0)]
  | UPDATE_EZ f0 _ _ => [(Tcaz, f0); (Ez, f0)]
  | CURL_EX f0 _ _ => [(Tcax, f0)]
  | CURL_EY f0 _ _ => [(Tcay, f0)]
  | CURL_EZ f0 _ _ => [(Tcaz, f0)]
  | UPDATE_DERR_E f0 _ _ _ => [(DivE, f0)]
  | UPDATE_RHOB f0 _ _ _ => [(Rhob, f0)]
  | UPDATE_DERR_B f0 _ _ _ => [(DivB, f0)]
  | MARDER_EX f0 _ => [(Ex, f0)]
  | MARDER_EY f0 _ => [(Ey, f0)]
  | MARDER_EZ f0 _ => [(Ez, f0)]
  | GHOST c v _ => [(c, v)]
  end.

Definition fR (o : fop V) : list floc :=
  match o with
  | UPDATE_CBX f0 fy fz => [(Cbx, f0); (Ez, fy); (Ez, f0); (Ey, fz); (Ey, f0)]
  | UPDATE_CBY f0 fz fx => [(Cby, f0); (Ex, fz); (Ex, f0); (Ez, fx); (Ez, f0)]
  | UPDATE_CBZ f0 fx fy => [(Cbz, f0); (Ey, fx); (Ey, f0); (Ex, fy); (Ex, f0)]
  | UPDATE_EX f0 fy fz => [(Tcax, f0); (Ex, f0); (Jfx, f0); (Cbz, f0); (Cbz, fy); (Cby, f0); (Cby, fz)]
  | UPDATE_EY f0 fz fx => [(Tcay, f0); (Ey, f0); (Jfy, f0); (Cbx, f0); (Cbx, fz); (Cbz, f0); (Cbz, fx)]
  | UPDATE_EZ f0 fx fy => [(Tcaz, f0); (Ez, f0); (Jfz, f0); (Cby, f0); (Cby, fx); (Cbx, f0); (Cbx, fy)]
  | CURL_EX f0 fy fz => [(Cbz, f0); (Cbz, fy); (Cby, f0); (Cby, fz)]
  | CURL_EY f0 fz fx => [(Cbx, f0); (Cbx, fz); (Cbz, f0); (Cbz, fx)]
  | CURL_EZ f0 fx fy => [(Cby, f0); (Cby, fx); (Cbx, f0); (Cbx, fy)]
  | UPDATE_DERR_E f0 fx fy fz =>
      [(Ex, f0); (Ex, fx); (Ey, f0); (Ey, fy); (Ez, f0); (Ez, fz); (Rhof, f0); (Rhob, f0)]
  | UPDATE_RHOB f0 fx fy fz =>
      [(Ex, f0); (Ex, fx); (Ey, f0); (Ey, fy); (Ez, f0); (Ez, fz); (Rhof, f0)]
  | UPDATE_DERR_B f0 fx fy fz => [(Cbx, f0); (Cbx, fx); (Cby, f0); (Cby, fy); (Cbz, f0); (Cbz, fz)]
  | MARDER_CBX f0 fx => [(Cbx, f0); (DivB, f0); (DivB, fx)]
  | MARDER_CBY f0 fy => [(Cby, f0); (DivB, f0); (DivB, fy)]
  | MARDER_CBZ f0 fz => [(Cbz, f0); (DivB, f0); (DivB, fz)]
  | MARDER_EX f0 fx => [(Ex, f0); (DivE, f0); (DivE, fx)]
  | MARDER_EY f0 fy => [(Ey, f0); (DivE, f0); (DivE, fy)]
  | MARDER_EZ f0 fz => [(Ez, f0); (DivE, f0); (DivE, fz)]
  | GHOST _ _ _ => []
  end.

Definition tW (o : top V) : list floc := fW (snd o).
Definition tR (o : top V) : list floc := fR (snd o).

Lemma texec_dom o m : map fst (texec V A mt k o m) = tW o.
Proof. destruct o as [b o]. destruct o; reflexivity. Qed.

Lemma texec_ext o m m' : (forall l, In l (tR o) -> m l = m' l) -> texec V A mt k o m = texec V A mt k o m'.
Proof.
  intros H. destruct o as [b o]. unfold texec, tR in *. cbn [snd] in *.
  destruct o; unfold fexec, curl_x, curl_y, curl_z, div_eps_e;
    repeat match goal with |- context [m (?c, ?v)] => rewrite (H (c, v)) by (cbn; tauto) end; reflexivity.
Qed.

(* ---- points ---- *)
Variables (nx ny nz : Z).
Hypothesis Hx : 1 <= nx.
Hypothesis Hy : 1 <= ny.
Hypothesis Hz : 1 <= nz.

Notation vox := (voxel nx ny nz).

Definition pt : Type := nat * Z * Z * Z.
Record piece : Type := mk_piece { pk : nat; px0 : Z; px1 : Z; py0 : Z; py1 : Z; pz0 : Z; pz1 : Z }.

Definition piece_pts (b : piece) : list pt :=
  for_ (pz0 b) (pz1 b) (fun z => for_ (py0 b) (py1 b) (fun y => for_ (px0 b) (px1 b) (fun x =>
    [(pk b, x, y, z)]))).

Definition pts (bs : list piece) : list pt := flat_map piece_pts bs.

Lemma in_for {T} a b (body : Z -> list T) t : In t (for_ a b body) <-> exists i, a <= i <= b /\ In t (body i).
Proof.
  unfold for_. rewrite in_flat_map. split.
  - intros (i & Hi & Ht). apply in_zrange in Hi. exists i. split; [lia|exact Ht].
  - intros (i & Hi & Ht). exists i. split; [apply in_zrange; lia|exact Ht].
Qed.

Lemma nodup_app {T} (l l' : list T) : NoDup l -> NoDup l' -> (forall x, In x l -> ~ In x l') -> NoDup (l ++ l').
Proof.
  intros H H' Hd. induction H as [|a l Ha Hl IH]; [exact H'|]. cbn [app]. constructor.
  - intros Hc. apply in_app_or in Hc. destruct Hc as [Hc|Hc]; [contradiction|].
    apply (Hd a); [left; reflexivity|exact Hc].
  - apply IH. intros x Hx'. apply Hd. right. exact Hx'.
Qed.

Lemma nodup_for {T} a b (body : Z -> list T) :
  (forall i, a <= i <= b -> NoDup (body i)) ->
  (forall i j t, a <= i <= b -> a <= j <= b -> In t (body i) -> In t (body j) -> i = j) ->
  NoDup (for_ a b body).
Proof.
  intros H1 H2. unfold for_.
  assert (Hall : forall i, In i (zrange a (b + 1)) -> a <= i <= b).
  { intros i Hi. apply in_zrange in Hi. lia. }
  assert (Hnd : NoDup (zrange a (b + 1))) by apply NoDup_zrange.
  revert Hall Hnd. generalize (zrange a (b + 1)). intros l. induction l as [|i l IH]; intros Hall Hnd.
  - constructor.
  - cbn [flat_map]. inversion_clear Hnd. apply nodup_app.
    + apply H1. apply Hall. left. reflexivity.
    + apply IH; [|assumption]. intros j Hj. apply Hall. right. exact Hj.
    + intros t Ht Hc. apply in_flat_map in Hc. destruct Hc as (j & Hj & Htj).
      assert (i = j) by (apply (H2 i j t); try assumption; apply Hall; [left; reflexivity|right; exact Hj]).
      subst. contradiction.
Qed.

Lemma in_piece b q : In q (piece_pts b) <->
  exists x y z, q = (pk b, x, y, z) /\ px0 b <= x <= px1 b /\ py0 b <= y <= py1 b /\ pz0 b <= z <= pz1 b.
Proof.
  unfold piece_pts. rewrite in_for. split.
  - intros (z & Hz' & H). apply in_for in H. destruct H as (y & Hy' & H). apply in_for in H.
    destruct H as (x & Hx' & H). destruct H as [<-|[]]. exists x, y, z. auto.
  - intros (x & y & z & -> & Hx' & Hy' & Hz'). exists z. split; [exact Hz'|]. apply in_for. exists y.
    split; [exact Hy'|]. apply in_for. exists x. split; [exact Hx'|]. left. reflexivity.
Qed.

Lemma nodup_piece b : NoDup (piece_pts b).
Proof.
  unfold piece_pts. apply nodup_for.
  - intros z _. apply nodup_for.
    + intros y _. apply nodup_for.
      * intros x _. constructor; [intros []|constructor].
      * intros i j t _ _ [<-|[]] [H|[]]. congruence.
    + intros i j t _ _ H1 H2. apply in_for in H1, H2. destruct H1 as (x & _ & [<-|[]]).
      destruct H2 as (x' & _ & [H|[]]). congruence.
  - intros i j t _ _ H1 H2. apply in_for in H1, H2. destruct H1 as (y & _ & H1), H2 as (y' & _ & H2).
    apply in_for in H1, H2. destruct H1 as (x & _ & [<-|[]]). destruct H2 as (x' & _ & [H|[]]). congruence.
Qed.

Definition disj (a b : piece) : Prop :=
  pk a <> pk b \/ px1 a < px0 b \/ px1 b < px0 a \/ py1 a < py0 b \/ py1 b < py0 a \/
  pz1 a < pz0 b \/ pz1 b < pz0 a.

Lemma nodup_pts bs : ForallOrdPairs disj bs -> NoDup (pts bs).
Proof.
  intros H. induction H as [|b bs Hb Hbs IH]; [constructor|].
  cbn [pts flat_map]. apply nodup_app; [apply nodup_piece|exact IH|].
  intros q Hq Hc. apply in_flat_map in Hc. destruct Hc as (b' & Hb' & Hq').
  rewrite Forall_forall in Hb. specialize (Hb b' Hb'). apply in_piece in Hq, Hq'.
  destruct Hq as (x & y & z & -> & H1 & H2 & H3). destruct Hq' as (x' & y' & z' & He & H4 & H5 & H6).
  injection He as Ek -> -> ->. unfold disj in Hb. lia.
Qed.

(* ---- independence ---- *)
Section Fam.
Variable fam : nat -> Z -> Z -> Z -> fop V.
Variables (wc fc : nat -> list comp).
Variable nfam : nat.
Definition op_at (q : pt) : fop V := let '(i, x, y, z) := q in fam i x y z.

Hypothesis fam_W : forall i x y z, fW (fam i x y z) = map (fun c => (c, vox x y z)) (wc i).
Hypothesis fam_R : forall i x y z l, In l (fR (fam i x y z)) ->
  In l (fW (fam i x y z)) \/ In (fst l) (fc i).
Hypothesis wc_disj : forall i j c, (i < nfam)%nat -> (j < nfam)%nat -> In c (wc i) -> In c (wc j) -> i = j.
Hypothesis fc_disj : forall i j c, In c (fc i) -> In c (wc j) -> False.

Definition pt_ok (q : pt) : Prop := let '(i, x, y, z) := q in
  (i < nfam)%nat /\ 0 <= x <= nx + 1 /\ 0 <= y <= ny + 1 /\ 0 <= z <= nz + 1.

Lemma fam_indep b b' q q' : pt_ok q -> pt_ok q' -> q <> q' ->
  indep floc (top V) tW tR (b, op_at q) (b', op_at q').
Proof.
  intros Hq Hq' Hne l Hl. destruct q as [[[i x] y] z], q' as [[[j x'] y'] z'].
  unfold tW, tR in *. cbn [snd op_at] in *. rewrite fam_W in Hl. apply in_map_iff in Hl.
  destruct Hl as (c & <- & Hc).
  assert (HW : ~ In (c, vox x' y' z') (fW (fam i x y z))).
  { rewrite fam_W. intros H. apply in_map_iff in H. destruct H as (c' & He & Hc').
    injection He as -> Hv. cbn in Hq, Hq'. assert (i = j) by (eapply wc_disj; try eassumption; apply Hq || apply Hq'). subst j. assert ((x, y, z) = (x', y', z')).
    { apply (voxel_inj nx ny nz); try assumption; unfold in_mesh; lia. }
    congruence. }
  split; [exact HW|]. intros H. apply fam_R in H. destruct H as [H|H]; [contradiction|].
  cbn [fst] in H. eapply fc_disj; eassumption.
Qed.

Lemma fam_pairwise b qs : NoDup qs -> Forall pt_ok qs ->
  pairwise floc (top V) tW tR (map (pair b) (map op_at qs)).
Proof.
  intros Hnd Hok. induction Hnd as [|q qs Hq Hnd IH]; [constructor|].
  inversion_clear Hok. cbn [map]. constructor; [|auto].
  intros o' Ho'. apply in_map_iff in Ho'. destruct Ho' as (o & <- & Ho). apply in_map_iff in Ho.
  destruct Ho as (q' & <- & Hq'). rewrite Forall_forall in H0.
  assert (q <> q') by congruence. split; apply fam_indep; auto.
Qed.

Lemma fam_pairwise_app qs hs : NoDup (qs ++ hs) -> Forall pt_ok (qs ++ hs) ->
  pairwise floc (top V) tW tR (map (pair false) (map op_at qs) ++ map (pair true) (map op_at hs)).
Proof.
  induction qs as [|q qs IH]; cbn [app]; intros Hnd Hok.
  - apply fam_pairwise; assumption.
  - inversion_clear Hnd. inversion_clear Hok. cbn [map app]. constructor; [|auto].
    rewrite Forall_forall in H2.
    intros o' Ho'. apply in_app_or in Ho'.
    destruct Ho' as [Ho'|Ho']; apply in_map_iff in Ho'; destruct Ho' as (o & <- & Ho);
      apply in_map_iff in Ho; destruct Ho as (q' & <- & Hq');
      (assert (Hin : In q' (qs ++ hs)) by (apply in_or_app; auto));
      (assert (q <> q') by congruence); split; apply fam_indep; auto.
Qed.

Lemma wc_in_W b q c : In c (wc (let '(i, _, _, _) := q in i)) ->
  In (c, let '(_, x, y, z) := q in vox x y z) (tW (b, op_at q)).
Proof.
  destruct q as [[[i x] y] z]. intros H. unfold tW. cbn [snd op_at]. rewrite fam_W.
  apply in_map_iff. exists c. auto.
Qed.

(* Result of a sweep over a set of points, read off point by point. *)
Definition fam_result (qs : list pt) (B r : floc -> V) : Prop :=
  (forall i x y z c, In (i, x, y, z) qs -> In c (wc i) ->
     r (c, vox x y z) = stores floc V floc_eqb (fexec V A mt k (fam i x y z) B) B (c, vox x y z)) /\
  (forall c v, (forall i x y z, In (i, x, y, z) qs -> In c (wc i) -> v <> vox x y z) -> r (c, v) = B (c, v)).

Lemma outcome_result (ops : list (top V)) qs B r :
  (forall b o, In (b, o) ops -> exists q, In q qs /\ o = op_at q) ->
  (forall q, In q qs -> exists b, In (b, op_at q) ops) ->
  outcome floc V (top V) floc_eqb (texec V A mt k) tW B ops B r -> fam_result qs B r.
Proof.
  intros H1 H2 [Hw Hn]. split.
  - intros i x y z c Hq Hc. destruct (H2 _ Hq) as (b & Hb).
    apply (Hw (b, op_at (i, x, y, z)) (c, vox x y z) Hb). apply (wc_in_W b (i, x, y, z) c Hc).
  - intros c v Hv. apply Hn. intros [b o] Ho Hc. destruct (H1 b o Ho) as (q & Hq & ->).
    destruct q as [[[i x] y] z]. unfold tW in Hc. cbn [snd op_at] in Hc. rewrite fam_W in Hc.
    apply in_map_iff in Hc. destruct Hc as (c' & He & Hc'). injection He as -> <-.
    apply (Hv i x y z Hq Hc'). reflexivity.
Qed.

Lemma free_result ops bs m r :
  Permutation ops (map op_at (pts bs)) -> ForallOrdPairs disj bs -> Forall pt_ok (pts bs) ->
  free_run V A mt k ops m r -> fam_result (pts bs) m r.
Proof.
  intros HP Hd Hok Hr.
  apply (outcome_result (pipe_ops V ops)).
  - intros b o Ho. apply in_map_iff in Ho. destruct Ho as (o' & He & Ho). injection He as _ <-.
    apply (Permutation_in _ HP) in Ho. apply in_map_iff in Ho. destruct Ho as (q & <- & Hq). eauto.
  - intros q Hq. exists false. apply in_map. apply (Permutation_in _ (Permutation_sym HP)).
    apply in_map. exact Hq.
  - eapply phase_spec.
    + exact floc_eqb_spec.
    + exact texec_dom.
    + exact texec_ext.
    + exact Hr.
    + eapply pairwise_perm; [|apply (fam_pairwise false (pts bs))].
      * unfold pipe_ops. apply Permutation_map. symmetry. exact HP.
      * apply nodup_pts. exact Hd.
      * exact Hok.
Qed.

Lemma ghost_W G o : In o (host_ops V (ghost_ops G)) -> exists c v x, o = (true, GHOST c v x) /\ In ((c, v), x) G.
Proof.
  intros H. apply in_map_iff in H. destruct H as (o' & <- & H). apply in_map_iff in H.
  destruct H as ([[c v] x] & <- & H). exists c, v, x. auto.
Qed.

Lemma ghost_pairwise G : NoDup (map fst G) ->
  pairwise floc (top V) tW tR (host_ops V (ghost_ops G)).
Proof.
  induction G as [|[[c v] x] G IH]; intros Hnd; [constructor|].
  cbn [map fst] in Hnd. inversion_clear Hnd. cbn. constructor; [|apply IH; assumption].
  intros o' Ho'. apply ghost_W in Ho'. destruct Ho' as (c' & v' & x' & -> & Hin).
  assert (Hne : (c, v) <> (c', v')).
  { intros He. apply H. rewrite He. apply in_map_iff. exists ((c', v'), x'). auto. }
  unfold indep, tW, tR. cbn [snd fW fR]. split; intros l [<-|[]]; (split; [intros [Hc|[]]; congruence|intros []]).
Qed.

Lemma pairwise_app_intro l l' :
  pairwise floc (top V) tW tR l -> pairwise floc (top V) tW tR l' ->
  (forall a b, In a l -> In b l' -> indep _ _ tW tR a b /\ indep _ _ tW tR b a) ->
  pairwise floc (top V) tW tR (l ++ l').
Proof.
  intros H H' Hc. induction H as [|o l Ho Hl IH]; [exact H'|]. cbn [app]. constructor.
  - intros o' Ho'. apply in_app_or in Ho'. destruct Ho' as [Ho'|Ho']; [auto|].
    apply Hc; [left; reflexivity|exact Ho'].
  - apply IH. intros a b Ha Hb. apply Hc; [right; exact Ha|exact Hb].
Qed.

(* Stores of distinct ghost values. *)
Lemma ghost_stores G m c v x : NoDup (map fst G) -> In ((c, v), x) G ->
  stores floc V floc_eqb G m (c, v) = x.
Proof.
  revert m. induction G as [|[l y] G IH]; intros m Hnd Hin; [destruct Hin|].
  cbn [map fst] in Hnd. inversion_clear Hnd.
  change (stores floc V floc_eqb ((l, y) :: G) m) with (stores floc V floc_eqb G (store floc V floc_eqb m l y)).
  destruct Hin as [He|Hin].
  - injection He as -> ->. rewrite (stores_notin _ _ _ floc_eqb_spec) by assumption.
    unfold store. rewrite floc_eqb_refl. reflexivity.
  - apply IH; assumption.
Qed.

Lemma ghost_result Q G H qs hs (ok : comp -> Z -> Prop) m r :
  Permutation Q (map op_at (pts qs)) -> Permutation H (map op_at (pts hs)) ->
  ForallOrdPairs disj (qs ++ hs) -> Forall pt_ok (pts (qs ++ hs)) ->
  ghost_list ok G ->
  (forall c v, ok c v -> forall i, ~ In c (wc i)) ->
  (forall i x y z c v, In (i, x, y, z) (pts qs) -> ok c v -> ~ In (c, v) (fR (fam i x y z))) ->
  ghost_run V A mt k Q G H m r ->
  fam_result (pts (qs ++ hs)) (stores floc V floc_eqb G m) r.
Proof.
  intros HQ HH Hd Hok [HGnd HGok] Hwc Hrd Hr.
  pose proof (nodup_pts _ Hd) as Hnd. unfold pts in *. rewrite flat_map_app in Hnd, Hok |- *.
  set (PQ := flat_map piece_pts qs) in *. set (PH := flat_map piece_pts hs) in *.
  assert (HpQ : forall o, In o (pipe_ops V Q) -> exists q, In q PQ /\ o = (false, op_at q)).
  { intros o Ho. apply in_map_iff in Ho. destruct Ho as (o' & <- & Ho).
    apply (Permutation_in _ HQ) in Ho. apply in_map_iff in Ho. destruct Ho as (q & <- & Hq). eauto. }
  assert (HpH : forall o, In o (host_ops V H) -> exists q, In q PH /\ o = (true, op_at q)).
  { intros o Ho. apply in_map_iff in Ho. destruct Ho as (o' & <- & Ho).
    apply (Permutation_in _ HH) in Ho. apply in_map_iff in Ho. destruct Ho as (q & <- & Hq). eauto. }
  apply (outcome_result (pipe_ops V Q ++ host_ops V H)).
  - intros b o Ho. apply in_app_or in Ho. destruct Ho as [Ho|Ho].
    + destruct (HpQ _ Ho) as (q & Hq & He). exists q. split; [apply in_or_app; auto|congruence].
    + destruct (HpH _ Ho) as (q & Hq & He). exists q. split; [apply in_or_app; auto|congruence].
  - intros q Hq. apply in_app_or in Hq. destruct Hq as [Hq|Hq].
    + exists false. apply in_or_app. left. apply in_map. apply (Permutation_in _ (Permutation_sym HQ)).
      apply in_map. exact Hq.
    + exists true. apply in_or_app. right. apply in_map. apply (Permutation_in _ (Permutation_sym HH)).
      apply in_map. exact Hq.
  - eapply (split_spec floc V (top V) floc_eqb (texec V A mt k) fst tW tR floc_eqb_spec texec_dom texec_ext
             _ (host_ops V (ghost_ops G))).
    + exact Hr.
    + apply pairwise_app_intro.
      * eapply pairwise_perm; [|apply (fam_pairwise false PQ)].
        -- apply Permutation_map. symmetry. exact HQ.
        -- clear -Hnd. induction PQ as [|q l IH]; [constructor|]. cbn [app] in Hnd. inversion_clear Hnd.
           constructor; [|auto]. intros Hc. apply H. apply in_or_app. auto.
        -- apply Forall_app in Hok. apply Hok.
      * apply ghost_pairwise. exact HGnd.
      * intros a b Ha Hb. destruct (HpQ a Ha) as (q & Hq & ->). destruct (ghost_W G b Hb) as (c & v & x & -> & Hin).
        destruct q as [[[i x'] y'] z']. pose proof (HGok c v x Hin) as Hokcv.
        assert (HnW : ~ In (c, v) (fW (fam i x' y' z'))).
        { rewrite fam_W. intros Hc. apply in_map_iff in Hc. destruct Hc as (c' & He & Hc').
          injection He as -> _. exact (Hwc c v Hokcv i Hc'). }
        assert (HnR : ~ In (c, v) (fR (fam i x' y' z'))) by (apply (Hrd i x' y' z' c v Hq Hokcv)).
        unfold indep, tW, tR. cbn [snd op_at]. change (fW (GHOST c v x)) with [(c, v)].
        change (fR (GHOST c v x)) with (@nil floc). split.
        -- intros l [<-|[]]. split; assumption.
        -- intros l Hl. split; [|intros []]. intros [<-|[]]. contradiction.
    + eapply pairwise_perm; [|apply (fam_pairwise_app PQ PH Hnd Hok)].
      apply Permutation_app; apply Permutation_map; symmetry; assumption.
    + intros g Hg. destruct (ghost_W G g Hg) as (c & v & x & -> & _). reflexivity.
    + intros q Hq. destruct (HpQ q Hq) as (q' & _ & ->). reflexivity.
    + intros h Hh. destruct (HpH h Hh) as (q' & _ & ->). reflexivity.
    + split.
      * intros o l Ho Hl. destruct (ghost_W G o Ho) as (c & v & x & -> & Hin). destruct Hl as [<-|[]].
        rewrite (ghost_stores G m c v x HGnd Hin). unfold texec. cbn. unfold store.
        rewrite floc_eqb_refl. reflexivity.
      * intros l Hl. apply (stores_notin _ _ _ floc_eqb_spec). intros Hc. apply in_map_iff in Hc.
        destruct Hc as ([[c v] x] & <- & Hin). apply (Hl (true, GHOST c v x)).
        -- apply in_map_iff. exists (GHOST c v x). split; [reflexivity|]. apply in_map_iff.
           exists ((c, v), x). auto.
        -- left. reflexivity.
Qed.
End Fam.

(* ---- the pipelined part ---- *)
Lemma flat_map_single {S T} (f : S -> T) (l : list S) : flat_map (fun s => [f s]) l = map f l.
Proof. induction l as [|a l IH]; [reflexivity|]. cbn [flat_map map app]. rewrite IH. reflexivity. Qed.

Lemma flat_map_cons_perm {S T} (f : S -> T) (g : S -> list T) (l : list S) :
  Permutation (flat_map (fun s => f s :: g s) l) (map f l ++ flat_map g l).
Proof.
  induction l as [|a l IH]; [constructor|]. cbn [flat_map map app].
  constructor. rewrite IH. rewrite !app_assoc. apply Permutation_app_tail. apply Permutation_app_comm.
Qed.

Definition visits_of (contract : bool) (P lo : Z) : list vstate :=
  flat_map (fun p => job_walk contract (next_stencil nx ny nz lo nx lo ny) nx ny nz lo nx lo ny lo nz 16 p P)
    (ranks P).

Lemma visits_perm contract P lo i : lo = 1 \/ lo = 2 -> nx * ny * nz < 2 ^ 31 -> 1 <= P < 2 ^ 31 ->
  Permutation (map (fun s : vstate => let '(v, x, y, z) := s in (v, (i, x, y, z))) (visits_of contract P lo))
    (map (fun q : pt => let '(i, x, y, z) := q in (vox x y z, q)) (piece_pts (mk_piece i lo nx lo ny lo nz))).
Proof.
  intros Hlo Hn HP.
  destruct (stencil_cover contract nx ny nz lo nx lo ny lo nz 16 P) as [Hnd Hin]; try lia.
  { assert (0 <= nx - lo + 1 <= nx) by lia. assert (0 <= ny - lo + 1 <= ny) by lia.
    assert (0 <= nz - lo + 1 <= nz) by lia.
    assert ((nx - lo + 1) * (ny - lo + 1) <= nx * ny) by (apply Z.mul_le_mono_nonneg; lia).
    assert (0 <= (nx - lo + 1) * (ny - lo + 1)) by (apply Z.mul_nonneg_nonneg; lia).
    assert ((nx - lo + 1) * (ny - lo + 1) * (nz - lo + 1) <= nx * ny * nz) by (apply Z.mul_le_mono_nonneg; lia).
    lia. }
  apply NoDup_Permutation.
  - apply (FinFun.Injective_map_NoDup); [|exact Hnd].
    intros [[[v x] y] z] [[[v' x'] y'] z'] He. congruence.
  - apply (FinFun.Injective_map_NoDup); [|apply nodup_piece].
    intros [[[v x] y] z] [[[v' x'] y'] z'] He. congruence.
  - intros [v q]. rewrite !in_map_iff. split.
    + intros ([[[v' x] y] z] & He & Hs). injection He as <- <-. apply Hin in Hs.
      destruct Hs as (h1 & h2 & h3 & ->). exists (i, x, y, z). split; [reflexivity|].
      apply in_piece. exists x, y, z. auto.
    + intros ([[[j x] y] z] & He & Hq). injection He as <- <-. apply in_piece in Hq.
      destruct Hq as (x' & y' & z' & He & h1 & h2 & h3). injection He as -> -> -> ->.
      exists (vox x' y' z', x', y', z'). split; [reflexivity|]. apply Hin. cbn in h1, h2, h3. auto.
Qed.

Lemma visits_map {T} contract P lo i (g : Z -> T) (h : pt -> T) :
  lo = 1 \/ lo = 2 -> nx * ny * nz < 2 ^ 31 -> 1 <= P < 2 ^ 31 ->
  (forall x y z, h (i, x, y, z) = g (vox x y z)) ->
  Permutation (map (fun s : vstate => let '(v, _, _, _) := s in g v) (visits_of contract P lo))
    (map h (piece_pts (mk_piece i lo nx lo ny lo nz))).
Proof.
  intros Hlo Hn HP Hgh. pose proof (visits_perm contract P lo i Hlo Hn HP) as H.
  apply (Permutation_map (fun vq => g (fst vq))) in H. rewrite !map_map in H.
  rewrite (map_ext _ (fun s : vstate => let '(v, _, _, _) := s in g v)) in H
    by (intros [[[v x] y] z]; reflexivity).
  rewrite (map_ext_in _ h) in H; [exact H|].
  intros [[[j x] y] z] Hq. apply in_piece in Hq. destruct Hq as (x' & y' & z' & He & _).
  injection He as -> -> -> ->. cbn [fst]. symmetry. apply Hgh.
Qed.

Lemma pipelines_flat contract P lo body :
  pipelines V nx ny nz contract P lo body =
  flat_map (fun s : vstate => let '(v, _, _, _) := s in body v) (visits_of contract P lo).
Proof.
  unfold pipelines, visits_of. induction (ranks P) as [|p l IH]; [reflexivity|].
  cbn [flat_map]. rewrite flat_map_app, IH. reflexivity.
Qed.

Lemma pipelines1 contract P lo g h i :
  lo = 1 \/ lo = 2 -> nx * ny * nz < 2 ^ 31 -> 1 <= P < 2 ^ 31 ->
  (forall x y z, h (i, x, y, z) = g (vox x y z)) ->
  Permutation (pipelines V nx ny nz contract P lo (fun v => [g v]))
    (map h (piece_pts (mk_piece i lo nx lo ny lo nz))).
Proof.
  intros. rewrite pipelines_flat.
  rewrite (flat_map_ext _ (fun s : vstate => [let '(v, _, _, _) := s in g v])) by (intros [[[v x] y] z]; reflexivity).
  rewrite flat_map_single. apply visits_map; assumption.
Qed.

Lemma pipelines3 contract P lo g1 g2 g3 h i1 i2 i3 :
  lo = 1 \/ lo = 2 -> nx * ny * nz < 2 ^ 31 -> 1 <= P < 2 ^ 31 ->
  (forall x y z, h (i1, x, y, z) = g1 (vox x y z)) ->
  (forall x y z, h (i2, x, y, z) = g2 (vox x y z)) ->
  (forall x y z, h (i3, x, y, z) = g3 (vox x y z)) ->
  Permutation (pipelines V nx ny nz contract P lo (fun v => [g1 v; g2 v; g3 v]))
    (map h (piece_pts (mk_piece i1 lo nx lo ny lo nz)) ++
     map h (piece_pts (mk_piece i2 lo nx lo ny lo nz)) ++
     map h (piece_pts (mk_piece i3 lo nx lo ny lo nz))).
Proof.
  intros. rewrite pipelines_flat.
  rewrite (flat_map_ext _ (fun s : vstate => (let '(v, _, _, _) := s in g1 v) ::
     (let '(v, _, _, _) := s in g2 v) :: [let '(v, _, _, _) := s in g3 v])) by (intros [[[v x] y] z]; reflexivity).
  rewrite flat_map_cons_perm. apply Permutation_app; [apply visits_map; assumption|].
  rewrite flat_map_cons_perm. apply Permutation_app; [apply visits_map; assumption|].
  rewrite flat_map_single. apply visits_map; assumption.
Qed.

(* ---- host loops are pieces ---- *)
Lemma for_ext {T} a b (f g : Z -> list T) : (forall i, a <= i <= b -> f i = g i) -> for_ a b f = for_ a b g.
Proof.
  intros H. unfold for_. apply flat_map_ext_in. intros i Hi. apply in_zrange in Hi. apply H. lia.
Qed.

Lemma for_one {T} a (f : Z -> list T) : for_ a a f = f a.
Proof. unfold for_. rewrite zrange_cons, zrange_nil by lia. cbn. apply app_nil_r. Qed.

Lemma map_for {S T} a b (f : Z -> list S) (h : S -> T) : map h (for_ a b f) = for_ a b (fun i => map h (f i)).
Proof.
  unfold for_. induction (zrange a (b + 1)) as [|i l IH]; [reflexivity|].
  cbn [flat_map]. rewrite map_app, IH. reflexivity.
Qed.

Lemma map_piece {T} (h : pt -> T) b : map h (piece_pts b) =
  for_ (pz0 b) (pz1 b) (fun z => for_ (py0 b) (py1 b) (fun y => for_ (px0 b) (px1 b) (fun x => [h (pk b, x, y, z)]))).
Proof.
  unfold piece_pts. rewrite map_for. apply for_ext. intros z _. rewrite map_for. apply for_ext. intros y _.
  rewrite map_for. apply for_ext. intros x _. reflexivity.
Qed.

Lemma for_app_perm {T} a b (f g : Z -> list T) :
  Permutation (for_ a b (fun i => f i ++ g i)) (for_ a b f ++ for_ a b g).
Proof.
  unfold for_. induction (zrange a (b + 1)) as [|i l IH]; [constructor|].
  cbn [flat_map]. rewrite IH. rewrite <- !app_assoc. apply Permutation_app_head.
  rewrite !app_assoc. apply Permutation_app_tail. apply Permutation_app_comm.
Qed.

Lemma for_perm {T} a b (f g : Z -> list T) : (forall i, Permutation (f i) (g i)) ->
  Permutation (for_ a b f) (for_ a b g).
Proof.
  intros H. unfold for_. induction (zrange a (b + 1)) as [|i l IH]; [constructor|].
  cbn [flat_map]. apply Permutation_app; auto.
Qed.

Fixpoint pin (i : nat) (x y z : Z) (bs : list piece) : Prop :=
  match bs with
  | [] => False
  | b :: bs => (i = pk b /\ px0 b <= x <= px1 b /\ py0 b <= y <= py1 b /\ pz0 b <= z <= pz1 b) \/ pin i x y z bs
  end.

Lemma in_pts i x y z bs : In (i, x, y, z) (pts bs) <-> pin i x y z bs.
Proof.
  induction bs as [|b bs IH]; [reflexivity|].
  cbn [pts flat_map pin]. rewrite in_app_iff. unfold pts in IH. rewrite IH, in_piece. split.
  - intros [(x' & y' & z' & He & H1 & H2 & H3)|H]; [left|right; exact H].
    injection He as -> -> -> ->. auto.
  - intros [(-> & H1 & H2 & H3)|H]; [left|right; exact H]. exists x, y, z. auto.
Qed.

Lemma pts_ok n bs : (forall i x y z, pin i x y z bs ->
  (i < n)%nat /\ 0 <= x <= nx + 1 /\ 0 <= y <= ny + 1 /\ 0 <= z <= nz + 1) -> Forall (pt_ok n) (pts bs).
Proof.
  intros H. apply Forall_forall. intros [[[i x] y] z] Hq. apply in_pts in Hq. exact (H _ _ _ _ Hq).
Qed.

End Foot.
