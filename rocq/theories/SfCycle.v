(* One cycle of the accumulators: clear, deposit, reduce, unload; and the interpolators. *)
Require Import Reals Lra.
Require Import Verif.ParticleModel Verif.ParticleSpec.
From Coq Require Import ZArith List Bool Lia ZifyBool Permutation.
From Verif Require Import DistributeModel DistributeProofs VoxelModel VoxelProofs SortModel SortProofs SweepModel SweepProofs FieldModel SfModel SfProofs.
Import ListNotations.
Open Scope Z_scope.
Ltac Zify.zify_post_hook ::= idtac.

Definition interior (nx ny nz x y z : Z) : Prop := 1 <= x <= nx /\ 1 <= y <= ny /\ 1 <= z <= nz.
(* float k of the accumulator of voxel v in copy c *)
Definition slot (nf stride c v k : Z) : Z := nf * (c * stride + v) + k.

Section Mesh.
Variables nx ny nz nf np : Z.
Hypothesis Hx : 1 <= nx. Hypothesis Hy : 1 <= ny. Hypothesis Hz : 1 <= nz.
Hypothesis Hnf : 1 <= nf. Hypothesis Hnp : 1 <= np.
Hypothesis Hsize : acc_stride nx ny nz * nf < 2 ^ 31.

Lemma nv_pos : 27 <= nv_of nx ny nz.
Proof.
  unfold nv_of. assert (9 <= (nx + 2) * (ny + 2)) by nia. set (q := (nx + 2) * (ny + 2)) in *.
  replace ((nz + 2) * (ny + 2) * (nx + 2)) with (q * (nz + 2)) by (unfold q; ring) || replace ((nx + 2) * (ny + 2) * (nz + 2)) with (q * (nz + 2)) by (unfold q; ring). clearbody q. nia.
Qed.
Lemma stride_bounds : nv_of nx ny nz <= acc_stride nx ny nz <= nv_of nx ny nz + 1.
Proof. apply ceil2_bounds. pose proof nv_pos. lia. Qed.
Lemma interior_le x y z : interior nx ny nz x y z -> voxel nx ny nz 1 1 1 <= voxel nx ny nz x y z <= voxel nx ny nz nx ny nz.
Proof.
  intros (Ix & Iy & Iz). unfold voxel.
  assert ((ny + 2) * 1 <= (ny + 2) * z <= (ny + 2) * nz) by nia.
  assert ((nx + 2) * (1 + (ny + 2) * 1) <= (nx + 2) * (y + (ny + 2) * z) <= (nx + 2) * (ny + (ny + 2) * nz)) by nia. lia.
Qed.
Lemma last_le : voxel nx ny nz nx ny nz + 2 <= nv_of nx ny nz.
Proof. unfold voxel, nv_of. nia. Qed.
Lemma i0_bounds : 0 <= acc_i0 nx ny nz <= voxel nx ny nz 1 1 1.
Proof.
  unfold acc_i0. assert (0 <= voxel nx ny nz 1 1 1) by (unfold voxel; nia). rewrite Z.quot_div_nonneg by lia.
  pose proof (Z.div_mod (voxel nx ny nz 1 1 1) 2 ltac:(lia)). pose proof (Z.mod_pos_bound (voxel nx ny nz 1 1 1) 2 ltac:(lia)). lia.
Qed.
Lemma na_bounds : voxel nx ny nz nx ny nz - acc_i0 nx ny nz + 1 <= acc_na nx ny nz <= voxel nx ny nz nx ny nz - acc_i0 nx ny nz + 2.
Proof.
  pose proof i0_bounds as B. pose proof (interior_le nx ny nz ltac:(unfold interior; lia)). unfold acc_na. set (u := voxel nx ny nz nx ny nz - acc_i0 nx ny nz + 1) in *.
  assert (0 <= u) by lia. rewrite Z.quot_div_nonneg by lia. pose proof (Z.div_mod (u + 1) 2 ltac:(lia)). pose proof (Z.mod_pos_bound (u + 1) 2 ltac:(lia)). lia.
Qed.
Lemma acc_range : 0 <= acc_i0 nx ny nz /\ 0 <= acc_na nx ny nz /\ acc_i0 nx ny nz + acc_na nx ny nz <= acc_stride nx ny nz /\
  forall x y z, interior nx ny nz x y z -> acc_i0 nx ny nz <= voxel nx ny nz x y z < acc_i0 nx ny nz + acc_na nx ny nz.
Proof.
  pose proof i0_bounds. pose proof na_bounds. pose proof last_le. pose proof stride_bounds.
  pose proof (interior_le nx ny nz ltac:(unfold interior; lia)).
  split; [lia|]. split; [lia|]. split; [lia|]. intros x y z I. pose proof (interior_le x y z I). lia.
Qed.
Definition acc_g : rargs := mk_rargs (acc_i0 nx ny nz * nf) (acc_na nx ny nz * nf) (np + 1) (acc_stride nx ny nz * nf) 256.
Lemma acc_args_ok : acc_args nx ny nz nf np = Some acc_g /\ args_ok acc_g.
Proof.
  destruct acc_range as (R0 & R1 & R2 & _).
  assert (A : acc_na nx ny nz * nf <= acc_stride nx ny nz * nf) by nia. assert (B : 0 <= acc_na nx ny nz * nf) by nia.
  split.
  - unfold acc_args, acc_g. set (a := acc_na nx ny nz * nf) in *. set (s := acc_stride nx ny nz * nf) in *. clearbody a s.
    replace (int_ok a && int_ok s) with true; [reflexivity|]. symmetry. unfold int_ok. lia.
  - constructor; cbn [acc_g ra_n ra_s_array ra_n_array ra_n_block]; lia.
Qed.
(* slots inside the cleared range, as elements *)
Lemma slot_element c v k : 0 <= c <= np -> 0 <= k < nf -> acc_i0 nx ny nz <= v < acc_i0 nx ny nz + acc_na nx ny nz ->
  element acc_g c (nf * (v - acc_i0 nx ny nz) + k) (slot nf (acc_stride nx ny nz) c v k).
Proof.
  intros Hc Hk Hv. unfold element, slot. cbn [acc_g ra_n ra_s_array ra_n_array ra_a]. split; [lia|]. split; [nia|ring].
Qed.
Lemma element_slot c k l : element acc_g c k l -> exists v k', acc_i0 nx ny nz <= v < acc_i0 nx ny nz + acc_na nx ny nz /\ 0 <= k' < nf /\
  l = slot nf (acc_stride nx ny nz) c v k'.
Proof.
  unfold element, slot. cbn [acc_g ra_n ra_s_array ra_n_array ra_a]. intros (Hc & Hk & ->). exists (acc_i0 nx ny nz + k / nf), (k mod nf).
  pose proof (Z.div_mod k nf ltac:(lia)) as E. pose proof (Z.mod_pos_bound k nf ltac:(lia)). assert (0 <= k / nf) by (apply Z.div_pos; lia).
  assert (k / nf < acc_na nx ny nz) by (apply Z.div_lt_upper_bound; lia). split; [lia|]. split; [lia|].
  set (q := k / nf) in *. set (w := k mod nf) in *. clearbody q w. subst k. ring.
Qed.
Lemma slot_inj c v k c' v' k' : 0 <= v < acc_stride nx ny nz -> 0 <= v' < acc_stride nx ny nz -> 0 <= k < nf -> 0 <= k' < nf ->
  slot nf (acc_stride nx ny nz) c v k = slot nf (acc_stride nx ny nz) c' v' k' -> c = c' /\ v = v' /\ k = k'.
Proof.
  unfold slot. intros Hv Hv' Hk Hk' E. set (s := acc_stride nx ny nz) in *. clearbody s. set (a := c * s + v) in *. set (a' := c' * s + v') in *.
  assert (a = a') as Ea by (clearbody a a'; nia). assert (k = k') by (clearbody a a'; nia).
  assert (c = c') by (unfold a, a' in Ea; nia). subst c' k'. unfold a, a' in Ea. split; [reflexivity|]. split; [lia|reflexivity].
Qed.
End Mesh.

(* ---- one deposit of a streak: copy, cell, component, amount ---- *)
Record dep : Type := mk_dep { d_copy : Z; d_x : Z; d_y : Z; d_z : Z; d_k : Z; d_t : R }.
Definition sumif (p : dep -> bool) (ds : list dep) : R := fold_right Rplus 0%R (map (fun d => if p d then d_t d else 0%R) ds).
Lemma sumif_ext p q ds : (forall d, In d ds -> p d = q d) -> sumif p ds = sumif q ds.
Proof. intros H. unfold sumif. f_equal. apply map_ext_in. intros d I. rewrite (H d I). reflexivity. Qed.
Lemma sumif_false ds : sumif (fun _ => false) ds = 0%R.
Proof. unfold sumif. induction ds as [|d ds IH]; cbn [map fold_right]; [reflexivity|]. rewrite IH. lra. Qed.
Lemma sumif_add p q r ds : (forall d, In d ds -> (p d = true -> q d = false) /\ r d = p d || q d) -> (sumif p ds + sumif q ds)%R = sumif r ds.
Proof.
  unfold sumif. induction ds as [|d ds IH]; intros H; cbn [map fold_right]; [lra|]. rewrite <- IH by (intros x Ix; apply H; right; exact Ix).
  destruct (H d ltac:(left; reflexivity)) as [A B]. rewrite B. destruct (p d); [rewrite A by reflexivity; cbn [orb]; lra|cbn [orb]; destruct (q d); lra].
Qed.
Lemma summed_R l v : summed Rnum l v -> v = fold_right Rplus 0%R l.
Proof.
  intros H. induction H as [v|a b x y H1 E1 H2 E2]; [cbn [fold_right]; lra|]. rewrite fold_right_app. change (n_add Rnum x y) with (x + y)%R. rewrite E1, E2.
  generalize (fold_right Rplus 0%R b) as s. intros s. clear. induction a as [|z a IH]; cbn [fold_right]; [lra|]. rewrite <- IH. lra.
Qed.

Section Cycle.
Variables nx ny nz nf np : Z.
Hypothesis Hx : 1 <= nx. Hypothesis Hy : 1 <= ny. Hypothesis Hz : 1 <= nz.
Hypothesis Hnf : 1 <= nf. Hypothesis Hnp : 1 <= np.
Hypothesis Hsize : acc_stride nx ny nz * nf < 2 ^ 31.
Variable contract : bool.
Variable P : Z.
Hypothesis HP : 1 <= P < 2 ^ 31.
Local Notation S := (acc_stride nx ny nz).
Local Notation vox := (voxel nx ny nz).
Local Notation g := (acc_g nx ny nz nf np).

Definition apply_dep {V} (K : num V) (m : Z -> V) (c x y z k : Z) (t : V) : Z -> V := deposit K S nf m (c, vox x y z, k, t).
Definition dep_ok (d : dep) : Prop := 0 <= d_copy d <= np /\ interior nx ny nz (d_x d) (d_y d) (d_z d) /\ 0 <= d_k d < nf.
Definition deposits (ds : list dep) (m : Z -> R) : Z -> R :=
  fold_left (fun m d => deposit Rnum S nf m (d_copy d, vox (d_x d) (d_y d) (d_z d), d_k d, d_t d)) ds m.
Definition ghost_zero (m : Z -> R) : Prop := forall c x y z k, 0 <= c <= np -> in_mesh nx ny nz x y z -> ~ interior nx ny nz x y z -> 0 <= k < nf ->
  m (slot nf S c (vox x y z) k) = 0%R.
Definition at_slot (c x y z k : Z) (d : dep) : bool :=
  (d_copy d =? c) && ((d_x d =? x) && (d_y d =? y) && (d_z d =? z) && (d_k d =? k)).
Definition at_cell (x y z k : Z) (d : dep) : bool := (d_x d =? x) && (d_y d =? y) && (d_z d =? z) && (d_k d =? k).

Lemma interior_mesh x y z : interior nx ny nz x y z -> in_mesh nx ny nz x y z.
Proof. unfold interior, in_mesh. lia. Qed.
Lemma vox_bounds x y z : in_mesh nx ny nz x y z -> 0 <= vox x y z < S.
Proof. intros I. pose proof (voxel_range nx ny nz x y z Hx Hy Hz I). pose proof (stride_bounds nx ny nz Hx Hy Hz). lia. Qed.
Lemma deposits_slot ds : forall m c x y z k, Forall dep_ok ds -> in_mesh nx ny nz x y z -> 0 <= k < nf ->
  deposits ds m (slot nf S c (vox x y z) k) = (m (slot nf S c (vox x y z) k) + sumif (at_slot c x y z k) ds)%R.
Proof.
  induction ds as [|d ds IH]; intros m c x y z k F I Hk; [unfold sumif, deposits; cbn [map fold_left fold_right]; lra|].
  apply Forall_cons_iff in F. destruct F as [(Hc & Id & Hkd) F]. unfold deposits. cbn [fold_left]. fold (deposits ds).
  rewrite IH by assumption. unfold sumif. cbn [map fold_right]. fold (sumif (at_slot c x y z k) ds).
  unfold deposit at 1, store. change (nf * (d_copy d * S + vox (d_x d) (d_y d) (d_z d)) + d_k d) with (slot nf S (d_copy d) (vox (d_x d) (d_y d) (d_z d)) (d_k d)).
  destruct (Z.eqb_spec (slot nf S c (vox x y z) k) (slot nf S (d_copy d) (vox (d_x d) (d_y d) (d_z d)) (d_k d))) as [E|E].
  - rewrite <- E. apply slot_inj in E; [|exact Hnf|apply vox_bounds; exact I|apply vox_bounds, interior_mesh; exact Id|lia|lia].
    destruct E as (-> & Ev & ->). apply voxel_inj in Ev; [|lia|lia|exact I|apply interior_mesh; exact Id]. injection Ev as -> -> ->.
    unfold at_slot. rewrite !Z.eqb_refl. cbn [andb]. change (n_add Rnum) with Rplus. lra.
  - replace (at_slot c x y z k d) with false; [lra|]. symmetry. apply not_true_iff_false. unfold at_slot. intros C. apply E. f_equal; [lia|f_equal; lia|lia].
Qed.

Lemma cleared m0 m1 : ghost_zero m0 -> clear_run Rnum contract P g m0 m1 -> forall c x y z k, 0 <= c <= np -> in_mesh nx ny nz x y z -> 0 <= k < nf ->
  m1 (slot nf S c (vox x y z) k) = 0%R.
Proof.
  intros G H c x y z k Hc I Hk. destruct (acc_args_ok nx ny nz nf np Hx Hy Hz Hnf Hnp Hsize) as [_ A].
  destruct (clear_ok Rnum contract P HP g m0 m1 A H) as [C U]. destruct (acc_range nx ny nz Hx Hy Hz) as (R0 & R1 & R2 & R3).
  destruct ((acc_i0 nx ny nz <=? vox x y z) && (vox x y z <? acc_i0 nx ny nz + acc_na nx ny nz)) eqn:E.
  - apply (C c (nf * (vox x y z - acc_i0 nx ny nz) + k)). apply slot_element; lia.
  - rewrite U.
    + apply G; try assumption. intros J. specialize (R3 x y z J). lia.
    + intros c' k' El. assert (Hc' := El). destruct Hc' as (Hc' & _). apply element_slot in El; [|lia..]. destruct El as (v' & k'' & Hv & Hk'' & El).
      apply slot_inj in El; [|exact Hnf|apply vox_bounds; exact I|lia|lia|lia]. destruct El as (_ & <- & _). lia.
Qed.

Lemma sum_copies ds p : Forall dep_ok ds -> forall n, fold_right Rplus 0%R (map (fun c => sumif (fun d => (d_copy d =? c) && p d) ds) (zrange 0 n)) =
  sumif (fun d => (d_copy d <? n) && p d) ds.
Proof.
  intros F n. destruct (Z.le_gt_cases n 0) as [L|L].
  - rewrite zrange_nil by lia. cbn [map fold_right]. rewrite (sumif_ext _ (fun _ => false)); [symmetry; apply sumif_false|].
    intros d I. rewrite Forall_forall in F. destruct (F d I) as (Hc & _). lia.
  - assert (0 <= n) by lia. clear L. revert n H. apply natlike_ind.
    + rewrite zrange_nil by lia. cbn [map fold_right]. rewrite (sumif_ext _ (fun _ => false)); [symmetry; apply sumif_false|].
      intros d I. rewrite Forall_forall in F. destruct (F d I) as (Hc & _). lia.
    + intros n Hn IH. rewrite (zrange_app 0 n (Z.succ n)) by lia. rewrite (zrange_cons n), (zrange_nil (n + 1)) by lia. rewrite map_app, fold_right_app.
      cbn [map fold_right]. rewrite <- (sumif_add (fun d => (d_copy d <? n) && p d) (fun d => (d_copy d =? n) && p d) (fun d => (d_copy d <? Z.succ n) && p d)).
      * rewrite <- IH. generalize (sumif (fun d => (d_copy d =? n) && p d) ds) as s. intros s.
        generalize (map (fun c => sumif (fun d => (d_copy d =? c) && p d) ds) (zrange 0 n)) as l. induction l as [|a l IHl]; cbn [fold_right]; [lra|]. rewrite IHl. lra.
      * intros d _. destruct (p d); lia.
Qed.

Theorem cycle_ok m0 m1 ds m3 : ghost_zero m0 -> clear_run Rnum contract P g m0 m1 -> Forall dep_ok ds -> reduce_fits g ->
  reduce_run Rnum contract P g (deposits ds m1) m3 ->
  (forall x y z k, in_mesh nx ny nz x y z -> 0 <= k < nf -> m3 (slot nf S 0 (vox x y z) k) = sumif (at_cell x y z k) ds) /\ ghost_zero m3.
Proof.
  intros G0 H1 F Fit H3. destruct (acc_args_ok nx ny nz nf np Hx Hy Hz Hnf Hnp Hsize) as [_ A].
  destruct (reduce_ok Rnum contract P HP g (deposits ds m1) m3 A Fit ltac:(cbn [acc_g ra_n_array]; lia) H3) as [Rw Rn].
  destruct (acc_range nx ny nz Hx Hy Hz) as (R0 & R1 & R2 & R3). cbn [acc_g ra_n ra_s_array ra_n_array ra_a] in Rw, Rn.
  assert (M2 : forall c x y z k, 0 <= c <= np -> in_mesh nx ny nz x y z -> 0 <= k < nf ->
    deposits ds m1 (slot nf S c (vox x y z) k) = sumif (at_slot c x y z k) ds).
  { intros c x y z k Hc I Hk. rewrite deposits_slot by assumption. rewrite (cleared m0 m1 G0 H1) by assumption. lra. }
  assert (Gh : forall x y z (q : dep -> bool), ~ interior nx ny nz x y z -> (forall d, q d = true -> d_x d = x /\ d_y d = y /\ d_z d = z) -> sumif q ds = 0%R).
  { intros x y z q N Q. rewrite (sumif_ext _ (fun _ => false)); [apply sumif_false|]. intros d I. apply not_true_iff_false. intros C. apply N.
    rewrite Forall_forall in F. destruct (F d I) as (_ & Id & _). destruct (Q d C) as (<- & <- & <-). exact Id. }
  assert (Main : forall x y z k, in_mesh nx ny nz x y z -> 0 <= k < nf -> m3 (slot nf S 0 (vox x y z) k) = sumif (at_cell x y z k) ds).
  { intros x y z k I Hk.
    destruct ((acc_i0 nx ny nz <=? vox x y z) && (vox x y z <? acc_i0 nx ny nz + acc_na nx ny nz)) eqn:E.
    - assert (Es : slot nf S 0 (vox x y z) k = acc_i0 nx ny nz * nf + (nf * (vox x y z - acc_i0 nx ny nz) + k)) by (unfold slot; ring).
      specialize (Rw (nf * (vox x y z - acc_i0 nx ny nz) + k) ltac:(nia)). rewrite <- Es in Rw. apply summed_R in Rw. rewrite Rw.
      replace (map (fun c => deposits ds m1 (acc_i0 nx ny nz * nf + c * (S * nf) + (nf * (vox x y z - acc_i0 nx ny nz) + k))) (zrange 0 (np + 1)))
        with (map (fun c => sumif (fun d => (d_copy d =? c) && at_cell x y z k d) ds) (zrange 0 (np + 1))).
      + rewrite sum_copies by exact F. apply sumif_ext. intros d Id. rewrite Forall_forall in F. destruct (F d Id) as (Hc & _). replace (d_copy d <? np + 1) with true by lia. reflexivity.
      + apply map_ext_in. intros c Ic. apply in_zrange in Ic. symmetry.
        replace (acc_i0 nx ny nz * nf + c * (S * nf) + (nf * (vox x y z - acc_i0 nx ny nz) + k)) with (slot nf S c (vox x y z) k) by (unfold slot; ring).
        apply M2; [lia|exact I|exact Hk].
    - assert (N : ~ interior nx ny nz x y z) by (intros J; specialize (R3 x y z J); lia).
      rewrite Rn; [|unfold slot; nia]. rewrite M2 by (assumption || lia).
      rewrite (Gh x y z (at_slot 0 x y z k) N) by (unfold at_slot; intros d Q; lia).
      rewrite (Gh x y z (at_cell x y z k) N) by (unfold at_cell; intros d Q; lia). reflexivity. }
  split; [exact Main|]. intros c x y z k Hc I N Hk. destruct (Z.eq_dec c 0) as [->|Nc].
  - rewrite Main by assumption. apply (Gh x y z); [exact N|]. unfold at_cell. intros d Q. lia.
  - rewrite Rn.
    + rewrite M2 by assumption. apply (Gh x y z); [exact N|]. unfold at_slot. intros d Q. lia.
    + pose proof (vox_bounds x y z I). unfold slot. assert (S <= c * S) by nia. assert (nf * S <= nf * (c * S + vox x y z)) by nia. nia.
Qed.
End Cycle.

(* ---- unload and load ---- *)
Lemma pw_nodup (loc op : Type) (W R : op -> list loc) l : (forall a b, In a l -> In b l -> a <> b -> indep loc op W R a b) -> NoDup l -> pairwise loc op W R l.
Proof.
  intros H N. induction N as [|a l Hi Hn IH]; [constructor|]. constructor.
  - intros b Hb. assert (a <> b) by (intros ->; contradiction). split; apply H; try (left; reflexivity); try (right; exact Hb); congruence.
  - apply IH. intros x y Hx Hy. apply H; right; assumption.
Qed.
Lemma voxels_box nx ny nz l x0 x1 y0 y1 z0 z1 : 1 <= nx -> 1 <= ny -> 1 <= nz -> box_covered l nx ny nz x0 x1 y0 y1 z0 z1 ->
  0 <= x0 -> x1 <= nx + 1 -> 0 <= y0 -> y1 <= ny + 1 -> 0 <= z0 -> z1 <= nz + 1 ->
  NoDup (voxels_of l) /\ forall v, In v (voxels_of l) <-> exists x y z, x0 <= x <= x1 /\ y0 <= y <= y1 /\ z0 <= z <= z1 /\ v = voxel nx ny nz x y z.
Proof.
  intros Hx Hy Hz [N C] a1 a2 a3 a4 a5 a6. split.
  - unfold voxels_of. assert (J : forall s t, In s l -> In t l -> fst (fst (fst s)) = fst (fst (fst t)) -> s = t).
    { intros [[[v x] y] z] [[[v' x'] y'] z'] Is It E. cbn [fst] in E. subst v'. apply C in Is, It. destruct Is as (i1 & i2 & i3 & i4). destruct It as (j1 & j2 & j3 & j4).
      assert (E : (x, y, z) = (x', y', z')) by (apply (voxel_inj nx ny nz); unfold in_mesh; try lia). injection E as -> -> ->. reflexivity. }
    clear C. induction N as [|s l Hs N IH]; cbn [map]; [constructor|]. constructor.
    + intros I. apply in_map_iff in I. destruct I as (t & E & It). apply Hs. rewrite <- (J t s); [exact It|right; exact It|left; reflexivity|exact E].
    + apply IH. intros s' t' Is It. apply J; right; assumption.
  - intros v. unfold voxels_of. rewrite in_map_iff. split.
    + intros ([[[v' x] y] z] & E & I). cbn [fst] in E. subst v'. apply C in I. exists x, y, z. tauto.
    + intros (x & y & z & I). exists (v, x, y, z). split; [reflexivity|]. apply C. tauto.
Qed.

Section Unload.
Context {V : Type} (K : num V).
Variables nx ny nz : Z.
Hypothesis Hx : 1 <= nx. Hypothesis Hy : 1 <= ny. Hypothesis Hz : 1 <= nz.
Hypothesis Hsize : (nx + 1) * (ny + 1) * (nz + 1) < 2 ^ 31.
Variable contract : bool.
Variable P : Z.
Hypothesis HP : 1 <= P < 2 ^ 31.
Local Notation vox := (voxel nx ny nz).

Lemma floc_spec (a b : floc) : reflect (a = b) (floc_eqb a b).
Proof.
  destruct a as [c v], b as [c' v']. unfold floc_eqb. cbn [fst snd]. destruct (Z.eqb_spec v v') as [->|N].
  - destruct c, c'; cbn; constructor; congruence.
  - rewrite andb_false_r. constructor. congruence.
Qed.
Lemma unload_ok c acc F F' : unload_run K contract P nx ny nz c acc F F' ->
  (forall x y z, 1 <= x <= nx + 1 -> 1 <= y <= ny + 1 -> 1 <= z <= nz + 1 ->
     F' (Jfx, vox x y z) = n_add K (F (Jfx, vox x y z)) (vx (unload K (sy_of nx) (sz_of nx ny) c acc (vox x y z))) /\
     F' (Jfy, vox x y z) = n_add K (F (Jfy, vox x y z)) (vy (unload K (sy_of nx) (sz_of nx ny) c acc (vox x y z))) /\
     F' (Jfz, vox x y z) = n_add K (F (Jfz, vox x y z)) (vz (unload K (sy_of nx) (sz_of nx ny) c acc (vox x y z)))) /\
  (forall q v, (~ In q [Jfx; Jfy; Jfz] \/ forall x y z, 1 <= x <= nx + 1 -> 1 <= y <= ny + 1 -> 1 <= z <= nz + 1 -> v <> vox x y z) -> F' (q, v) = F (q, v)).
Proof.
  intros H. set (W := fun v : Z => [(Jfx, v); (Jfy, v); (Jfz, v)]).
  destruct (voxels_box nx ny nz _ 1 (nx + 1) 1 (ny + 1) 1 (nz + 1) Hx Hy Hz
    (stencil_cover contract nx ny nz 1 (nx + 1) 1 (ny + 1) 1 (nz + 1) 1 P ltac:(lia) ltac:(lia) ltac:(lia)
      ltac:(replace (nx + 1 - 1 + 1) with (nx + 1) by lia; replace (ny + 1 - 1 + 1) with (ny + 1) by lia; replace (nz + 1 - 1 + 1) with (nz + 1) by lia; exact Hsize) ltac:(lia) HP)
    ltac:(lia) ltac:(lia) ltac:(lia) ltac:(lia) ltac:(lia) ltac:(lia)) as [N C].
  pose proof (phase_spec floc V Z floc_eqb (unload_exec K nx ny c acc) (fun _ => false) W W floc_spec (fun _ _ => eq_refl)) as S.
  assert (Ext : forall o m m', (forall l, In l (W o) -> m l = m' l) -> unload_exec K nx ny c acc o m = unload_exec K nx ny c acc o m').
  { intros o m m' E. unfold unload_exec. cbv zeta. rewrite !E by (unfold W; cbn [In]; tauto). reflexivity. }
  specialize (S Ext _ F F' H). destruct S as [Sw Sn].
  { apply pw_nodup; [|exact N]. intros a b Ia Ib Nab l Il. split; intros J; apply Nab; unfold W in *; cbn [In] in *;
      repeat match goal with H : _ \/ _ |- _ => destruct H | H : False |- _ => destruct H end; congruence. }
  split.
  - intros x y z Ix Iy Iz. assert (I : In (vox x y z) (voxels_of (flat_map (fun p => job_walk contract (next_stencil nx ny nz 1 (nx + 1) 1 (ny + 1)) nx ny nz 1 (nx + 1) 1 (ny + 1) 1 (nz + 1) 1 p P) (ranks P)))).
    { apply C. exists x, y, z. tauto. }
    assert (Fq : forall q, In q [Jfx; Jfy; Jfz] -> F' (q, vox x y z) = stores floc V floc_eqb (unload_exec K nx ny c acc (vox x y z) F) F (q, vox x y z)).
    { intros q Iq. apply Sw; [exact I|]. unfold W. cbn [In] in *. intuition congruence. }
    rewrite !Fq by (cbn [In]; tauto). unfold unload_exec, stores, store. cbn [fold_left fst snd]. unfold floc_eqb. cbn [fst snd comp_eqb]. rewrite !Z.eqb_refl.
    cbn [andb]. repeat split; reflexivity.
  - intros q v Hq. apply Sn. intros o Io Il. apply C in Io. destruct Io as (x & y & z & Ix & Iy & Iz & ->). unfold W in Il. cbn [In] in *.
    destruct Hq as [Hq|Hq].
    + apply Hq. intuition congruence.
    + apply (Hq x y z Ix Iy Iz). intuition congruence.
Qed.

Lemma load_ok F m m' : load_run K contract P nx ny nz F m m' ->
  (forall x y z, interior nx ny nz x y z -> m' (vox x y z) = interpolator_at K nx ny F (vox x y z)) /\
  (forall v, (forall x y z, interior nx ny nz x y z -> v <> vox x y z) -> m' v = m v).
Proof.
  intros H. assert (Hs : nx * ny * nz < 2 ^ 31).
  { assert (nx * ny <= (nx + 1) * (ny + 1)) by nia. set (a := nx * ny) in *. set (b := (nx + 1) * (ny + 1)) in *. assert (0 <= a) by (unfold a; nia). clearbody a b. nia. }
  destruct (voxels_box nx ny nz _ 1 nx 1 ny 1 nz Hx Hy Hz
    (stencil_cover contract nx ny nz 1 nx 1 ny 1 nz 1 P ltac:(lia) ltac:(lia) ltac:(lia)
      ltac:(replace (nx - 1 + 1) with nx by lia; replace (ny - 1 + 1) with ny by lia; replace (nz - 1 + 1) with nz by lia; exact Hs) ltac:(lia) HP)
    ltac:(lia) ltac:(lia) ltac:(lia) ltac:(lia) ltac:(lia) ltac:(lia)) as [N C].
  pose proof (phase_spec Z (@interp V) Z Z.eqb (load_exec K nx ny F) (fun _ => false) (fun v => [v]) (fun _ => []) Z.eqb_spec (fun _ _ => eq_refl) (fun _ _ _ _ => eq_refl) _ m m' H) as S.
  destruct S as [Sw Sn].
  { apply pw_nodup; [|exact N]. intros a b Ia Ib Nab l Il. cbn [In] in *. split; [intros [J|[]]|tauto]. apply Nab. destruct Il as [Il|[]]. congruence. }
  split.
  - intros x y z (Ix & Iy & Iz). rewrite (Sw (vox x y z) (vox x y z)); [|apply C; exists x, y, z; tauto|left; reflexivity].
    unfold load_exec, stores, store. cbn [fold_left fst snd]. rewrite Z.eqb_refl. reflexivity.
  - intros v Hv. apply Sn. intros o Io [Il|[]]. subst o. apply C in Io. destruct Io as (x & y & z & Ix & Iy & Iz & E). apply (Hv x y z); [unfold interior; tauto|exact E].
Qed.
End Unload.

(* ---- interpolation ---- *)
(* the value at position a in [-1,1] on the straight line from w0 at -1 to w1 at 1 *)
Definition mix (a w0 w1 : R) : R := ((1 - a) / 2 * w0 + (1 + a) / 2 * w1)%R.
Lemma mix_ends w0 w1 : mix (-1) w0 w1 = w0 /\ mix 1 w0 w1 = w1.
Proof. unfold mix. split; lra. Qed.
Lemma mix_bounds (a w0 w1 lo hi : R) : (-1 <= a <= 1)%R -> (lo <= w0 <= hi)%R -> (lo <= w1 <= hi)%R -> (lo <= mix a w0 w1 <= hi)%R.
Proof.
  intros A H0 H1. unfold mix. split.
  - assert ((1 - a) / 2 * lo <= (1 - a) / 2 * w0)%R by (apply Rmult_le_compat_l; lra). assert ((1 + a) / 2 * lo <= (1 + a) / 2 * w1)%R by (apply Rmult_le_compat_l; lra). lra.
  - assert ((1 - a) / 2 * w0 <= (1 - a) / 2 * hi)%R by (apply Rmult_le_compat_l; lra). assert ((1 + a) / 2 * w1 <= (1 + a) / 2 * hi)%R by (apply Rmult_le_compat_l; lra). lra.
Qed.
Lemma quad_R (h w0 w1 w2 w3 a b : R) : h = (/ 2)%R ->
  (1 * ((h * h * ((w3 + w0) + (w1 + w2)) + a * (h * h * ((w3 - w0) + (w1 - w2)))) +
        b * (h * h * ((w3 - w0) - (w1 - w2)) + a * (h * h * ((w3 + w0) - (w1 + w2))))))%R
   = mix b (mix a w0 w1) (mix a w2 w3).
Proof. intros ->. unfold mix. field. Qed.
Lemma line_R (h w0 w1 a : R) : h = (/ 2)%R -> (h * (w1 + w0) + a * (h * (w1 - w0)))%R = mix a w0 w1.
Proof. intros ->. unfold mix. field. Qed.
Lemma interpolated nx ny nz F x y z d : let f := interpolator_at Rnum nx ny F (voxel nx ny nz x y z) in
  let at_ c i j k := F (c, voxel nx ny nz (x + i) (y + j) (z + k)) in
  half_e Rnum 1%R f d =
    mkv (mix (vz d) (mix (vy d) (at_ Ex 0 0 0) (at_ Ex 0 1 0)) (mix (vy d) (at_ Ex 0 0 1) (at_ Ex 0 1 1)))
        (mix (vx d) (mix (vz d) (at_ Ey 0 0 0) (at_ Ey 0 0 1)) (mix (vz d) (at_ Ey 1 0 0) (at_ Ey 1 0 1)))
        (mix (vy d) (mix (vx d) (at_ Ez 0 0 0) (at_ Ez 1 0 0)) (mix (vx d) (at_ Ez 0 1 0) (at_ Ez 1 1 0))) /\
  mag_b Rnum f d = mkv (mix (vx d) (at_ Cbx 0 0 0) (at_ Cbx 1 0 0)) (mix (vy d) (at_ Cby 0 0 0) (at_ Cby 0 1 0)) (mix (vz d) (at_ Cbz 0 0 0) (at_ Cbz 0 0 1)).
Proof.
  cbv zeta. destruct d as [d1 d2 d3]. unfold half_e, mag_b, interpolator_at. cbv zeta.
  cbn [vx vy vz i_ex i_dexdy i_dexdz i_d2exdydz i_ey i_deydz i_deydx i_d2eydzdx i_ez i_dezdx i_dezdy i_d2ezdxdy i_cbx i_dcbxdx i_cby i_dcbydy i_cbz i_dcbzdz].
  assert (V : forall i j k, voxel nx ny nz (x + i) (y + j) (z + k) = voxel nx ny nz x y z + i + j * sy_of nx + k * sz_of nx ny) by (intros; unfold voxel, sz_of, sy_of; ring).
  rewrite !V. rewrite !Z.mul_0_l, !Z.add_0_r, !Z.mul_1_l.
  unfold fourth. change (n_add Rnum) with Rplus. change (n_sub Rnum) with Rminus. change (n_mul Rnum) with Rmult.
  rewrite !quad_R, !line_R by (cbn; lra). split; reflexivity.
Qed.

(* ---- where a deposit lies, in half cells: the centre of cell (x,y,z) is (2x+1,2y+1,2z+1) and component k sits at
   the offset given in sf_interface.h:115-117 ---- *)
Definition offsets : list (Z * Z * Z) :=
  [(0,-1,-1); (0,1,-1); (0,-1,1); (0,1,1);  (-1,0,-1); (-1,0,1); (1,0,-1); (1,0,1);  (-1,-1,0); (1,-1,0); (-1,1,0); (1,1,0)].
Definition lies_at (axis px py pz : Z) (d : dep) : bool :=
  (4 * axis <=? d_k d) && (d_k d <? 4 * axis + 4) &&
  let '(ox, oy, oz) := nth (Z.to_nat (d_k d)) offsets (0, 0, 0) in
  (2 * d_x d + 1 + ox =? px) && (2 * d_y d + 1 + oy =? py) && (2 * d_z d + 1 + oz =? pz).
Lemma four_sum k0 p0 p1 p2 p3 axis px py pz ds : k0 = 4 * axis ->
  (forall d, d_k d = k0 -> lies_at axis px py pz d = p0 d) -> (forall d, d_k d = k0 + 1 -> lies_at axis px py pz d = p1 d) ->
  (forall d, d_k d = k0 + 2 -> lies_at axis px py pz d = p2 d) -> (forall d, d_k d = k0 + 3 -> lies_at axis px py pz d = p3 d) ->
  (forall d, p0 d = true -> d_k d = k0) -> (forall d, p1 d = true -> d_k d = k0 + 1) -> (forall d, p2 d = true -> d_k d = k0 + 2) -> (forall d, p3 d = true -> d_k d = k0 + 3) ->
  (sumif p0 ds + sumif p1 ds + sumif p2 ds + sumif p3 ds)%R = sumif (lies_at axis px py pz) ds.
Proof.
  intros Ek A0 A1 A2 A3 B0 B1 B2 B3.
  rewrite (sumif_add p0 p1 (fun d => p0 d || p1 d)).
  2:{ intros d _. split; [|reflexivity]. intros H. apply B0 in H. apply not_true_iff_false. intros C. apply B1 in C. lia. }
  rewrite (sumif_add (fun d => p0 d || p1 d) p2 (fun d => p0 d || p1 d || p2 d)).
  2:{ intros d _. split; [|reflexivity]. intros H. apply orb_true_iff in H. apply not_true_iff_false. intros C. apply B2 in C. destruct H as [H|H]; [apply B0 in H|apply B1 in H]; lia. }
  rewrite (sumif_add (fun d => p0 d || p1 d || p2 d) p3 (fun d => p0 d || p1 d || p2 d || p3 d)).
  2:{ intros d _. split; [|reflexivity]. intros H. apply orb_true_iff in H. apply not_true_iff_false. intros C. apply B3 in C. destruct H as [H|H].
      - apply orb_true_iff in H. destruct H as [H|H]; [apply B0 in H|apply B1 in H]; lia.
      - apply B2 in H. lia. }
  apply sumif_ext. intros d _. specialize (A0 d). specialize (A1 d). specialize (A2 d). specialize (A3 d). specialize (B0 d). specialize (B1 d). specialize (B2 d). specialize (B3 d).
  destruct (p0 d) eqn:E0; [rewrite A0 by auto; reflexivity|]. destruct (p1 d) eqn:E1; [rewrite A1 by auto; reflexivity|].
  destruct (p2 d) eqn:E2; [rewrite A2 by auto; reflexivity|]. destruct (p3 d) eqn:E3; [rewrite A3 by auto; reflexivity|]. cbn [orb].
  symmetry. apply not_true_iff_false. intros C. assert (R : 4 * axis <= d_k d < 4 * axis + 4) by (unfold lies_at in C; lia).
  assert (Q : d_k d = k0 \/ d_k d = k0 + 1 \/ d_k d = k0 + 2 \/ d_k d = k0 + 3) by lia. destruct Q as [Q|[Q|[Q|Q]]].
  - rewrite A0 in C by exact Q. discriminate.
  - rewrite A1 in C by exact Q. discriminate.
  - rewrite A2 in C by exact Q. discriminate.
  - rewrite A3 in C by exact Q. discriminate.
Qed.
Lemma unload_geometry nx ny nz c ds acc : (forall x y z k, in_mesh nx ny nz x y z -> 0 <= k < 12 -> acc (voxel nx ny nz x y z) (Z.to_nat k) = sumif (at_cell x y z k) ds) ->
  forall x y z, 1 <= x <= nx + 1 -> 1 <= y <= ny + 1 -> 1 <= z <= nz + 1 ->
  unload Rnum (sy_of nx) (sz_of nx ny) c acc (voxel nx ny nz x y z) =
    mkv (vx c * sumif (lies_at 0 (2 * x + 1) (2 * y) (2 * z)) ds)%R (vy c * sumif (lies_at 1 (2 * x) (2 * y + 1) (2 * z)) ds)%R
        (vz c * sumif (lies_at 2 (2 * x) (2 * y) (2 * z + 1)) ds)%R.
Proof.
  intros H x y z Ix Iy Iz. unfold unload. change (n_add Rnum) with Rplus. change (n_mul Rnum) with Rmult.
  assert (V : forall i j k q, 0 <= i <= 1 -> 0 <= j <= 1 -> 0 <= k <= 1 -> 0 <= q < 12 -> forall v, v = voxel nx ny nz x y z - i - j * sy_of nx - k * sz_of nx ny ->
     acc v (Z.to_nat q) = sumif (at_cell (x - i) (y - j) (z - k) q) ds).
  { intros i j k q Hi Hj Hk Hq v ->. rewrite <- H; [|unfold in_mesh; lia|lia]. f_equal. unfold voxel, sz_of, sy_of. ring. }
  rewrite (V 0 0 0 0), (V 0 1 0 1), (V 0 0 1 2), (V 0 1 1 3), (V 0 0 0 4), (V 0 0 1 5), (V 1 0 0 6), (V 1 0 1 7), (V 0 0 0 8), (V 1 0 0 9), (V 0 1 0 10), (V 1 1 0 11) by (lia || ring).
  f_equal; f_equal; (eapply four_sum; [reflexivity|..]); unfold at_cell; intros d E; try lia; unfold lies_at; rewrite E;
    match goal with |- context [nth ?n offsets ?o] => let v := eval vm_compute in (nth n offsets o) in change (nth n offsets o) with v end; cbv iota beta; lia.
Qed.
