(* C45, C46: accumulators and interpolators.  See SfModel.v for the model, SfCycle.v for slot, dep, lies_at, mix. *)
From Coq Require Import Reals Lra ZArith QArith List Bool Lia ZifyBool.
Require Import Verif.ParticleModel Verif.ParticleSpec.
From Verif Require Import DistributeModel DistributeProofs VoxelModel VoxelProofs SortModel SweepModel SweepProofs FieldModel SfModel SfProofs SfCycle.
Import ListNotations.
Open Scope Z_scope.

(* A mesh, nf floats per accumulator, np pipeline copies; the int products of the argument block fit. *)
Definition mesh_ok (nx ny nz nf np : Z) : Prop :=
  1 <= nx /\ 1 <= ny /\ 1 <= nz /\ 1 <= nf /\ 1 <= np /\ acc_stride nx ny nz * nf < 2 ^ 31.

(* Clearing, for every interleaving of the jobs: the floats of all interior cells are zero in every copy, and every
   float is either zero or unchanged; nothing outside the np+1 copies changes. *)
Theorem C45_clear : forall V (K : num V) contract P nx ny nz nf np g m r,
  mesh_ok nx ny nz nf np -> 1 <= P < 2 ^ 31 -> acc_args nx ny nz nf np = Some g -> clear_run K contract P g m r ->
  (forall c x y z k, 0 <= c <= np -> interior nx ny nz x y z -> 0 <= k < nf ->
     r (slot nf (acc_stride nx ny nz) c (voxel nx ny nz x y z) k) = n_zero K) /\
  (forall l, r l = n_zero K \/ r l = m l) /\
  (forall l, ~ (0 <= l < (np + 1) * acc_stride nx ny nz * nf) -> r l = m l).
Proof.
  intros V K contract P nx ny nz nf np g m r (Hx & Hy & Hz & Hnf & Hnp & Hs) HP E H.
  destruct (acc_args_ok nx ny nz nf np Hx Hy Hz Hnf Hnp Hs) as [E' A]. rewrite E in E'. injection E' as ->.
  destruct (clear_ok K contract P HP _ m r A H) as [C U]. destruct (acc_range nx ny nz Hx Hy Hz) as (R0 & R1 & R2 & R3).
  assert (Dec : forall l, (exists c k, element (acc_g nx ny nz nf np) c k l) \/ (forall c k, ~ element (acc_g nx ny nz nf np) c k l)).
  { intros l. pose proof (stride_bounds nx ny nz Hx Hy Hz). pose proof (nv_pos nx ny nz Hx Hy Hz).
    set (q := l - acc_i0 nx ny nz * nf). set (s := acc_stride nx ny nz * nf). assert (0 < s) by (unfold s; nia).
    destruct ((0 <=? q / s) && (q / s <? np + 1) && (q mod s <? acc_na nx ny nz * nf)) eqn:B.
    - left. exists (q / s), (q mod s). unfold element. cbn [acc_g ra_n ra_s_array ra_n_array ra_a]. fold s.
      pose proof (Z.div_mod q s ltac:(lia)). pose proof (Z.mod_pos_bound q s ltac:(lia)). split; [lia|]. split; [lia|]. unfold q in *. lia.
    - right. intros c k El. unfold element in El. cbn [acc_g ra_n ra_s_array ra_n_array ra_a] in El. fold s in El. destruct El as (Hc & Hk & El).
      assert (acc_na nx ny nz * nf <= s) by (unfold s; nia).
      assert (q / s = c) by (symmetry; apply (Z.div_unique q s c k); unfold q; lia).
      assert (q mod s = k) by (symmetry; apply (Z.mod_unique q s c k); unfold q; lia). lia. }
  split; [|split].
  - intros c x y z k Hc I Hk. apply (C c (nf * (voxel nx ny nz x y z - acc_i0 nx ny nz) + k)). specialize (R3 x y z I). apply slot_element; lia.
  - intros l. destruct (Dec l) as [(c & k & El)|N]; [left; apply (C c k l El)|right; apply U, N].
  - intros l Hl. destruct (Dec l) as [(c & k & El)|N]; [exfalso|apply U, N].
    unfold element in El. cbn [acc_g ra_n ra_s_array ra_n_array ra_a] in El. destruct El as (Hc & Hk & ->). apply Hl.
    set (s := acc_stride nx ny nz) in *. assert (B : (acc_i0 nx ny nz + acc_na nx ny nz) * nf <= s * nf) by nia. split; [nia|].
    assert (c * (s * nf) <= np * (s * nf)) by nia. replace ((np + 1) * s * nf) with (np * (s * nf) + s * nf) by ring. nia.
Qed.
Print Assumptions C45_clear.

(* Reducing: no int overflow in any job; every float of the host copy in the reduced range becomes a sum in which its
   own old value and the value of every other copy occur exactly once (the grouping is that of the additions executed);
   everything else is unchanged.  The range contains every interior cell. *)
Theorem C45_reduce : forall V (K : num V) contract P nx ny nz nf np g,
  mesh_ok nx ny nz nf np -> 1 <= P < 2 ^ 31 -> acc_args nx ny nz nf np = Some g ->
  (np - 1) * (acc_stride nx ny nz * nf) + acc_na nx ny nz * nf <= 2 ^ 31 ->
  (forall p m, 0 <= p <= P -> reduce_job K contract P g p m <> None) /\
  (forall m r, reduce_run K contract P g m r ->
    (forall x y z k, interior nx ny nz x y z -> 0 <= k < nf ->
       summed K (map (fun c => m (slot nf (acc_stride nx ny nz) c (voxel nx ny nz x y z) k)) (zrange 0 (np + 1)))
                (r (slot nf (acc_stride nx ny nz) 0 (voxel nx ny nz x y z) k))) /\
    (forall l, ~ (0 <= l < acc_stride nx ny nz * nf) -> r l = m l)).
Proof.
  intros V K contract P nx ny nz nf np g (Hx & Hy & Hz & Hnf & Hnp & Hs) HP E Fit.
  destruct (acc_args_ok nx ny nz nf np Hx Hy Hz Hnf Hnp Hs) as [E' A]. rewrite E in E'. injection E' as ->.
  destruct (acc_range nx ny nz Hx Hy Hz) as (R0 & R1 & R2 & R3).
  assert (Fit' : reduce_fits (acc_g nx ny nz nf np)) by (unfold reduce_fits; cbn [acc_g ra_n ra_s_array ra_n_array ra_a]; replace (np + 1 - 2) with (np - 1) by lia; exact Fit).
  split.
  - intros p m Hp. destruct (distribute contract (ra_n (acc_g nx ny nz nf np)) 1 p P) as [i n] eqn:D.
    destruct (reduce_job_val K contract P HP _ p m A Fit' ltac:(cbn [acc_g ra_n_array]; lia) Hp i n D) as (f & -> & _). discriminate.
  - intros m r H. destruct (reduce_ok K contract P HP _ m r A Fit' ltac:(cbn [acc_g ra_n_array]; lia) H) as [W U]. cbn [acc_g ra_n ra_s_array ra_n_array ra_a] in W, U.
    split.
    + intros x y z k I Hk. specialize (R3 x y z I). specialize (W (nf * (voxel nx ny nz x y z - acc_i0 nx ny nz) + k) ltac:(nia)).
      replace (slot nf (acc_stride nx ny nz) 0 (voxel nx ny nz x y z) k) with (acc_i0 nx ny nz * nf + (nf * (voxel nx ny nz x y z - acc_i0 nx ny nz) + k)) by (unfold slot; ring).
      erewrite map_ext; [exact W|]. intros c. cbv beta. f_equal. unfold slot. ring.
    + intros l Hl. apply U. intros C. apply Hl. assert ((acc_i0 nx ny nz + acc_na nx ny nz) * nf <= acc_stride nx ny nz * nf) by nia. nia.
Qed.
Print Assumptions C45_reduce.

(* Over the reals such a sum is the sum. *)
Theorem C45_summed_is_sum : forall l v, summed Rnum l v -> v = fold_right Rplus 0%R l.
Proof. exact summed_R. Qed.
Print Assumptions C45_summed_is_sum.

(* The index k + (r+r0)*sr is an int: on a 254^3 mesh with 12 pipelines the argument block is fine but every pipeline
   that has work evaluates an int expression that overflows. *)
Theorem C45_reduce_overflow_refuted : exists nx ny nz nf np g,
  mesh_ok nx ny nz nf np /\ acc_args nx ny nz nf np = Some g /\
  forall V (K : num V) contract P p m, 1 <= P < 2 ^ 31 -> 0 <= p <= P -> 0 < snd (distribute contract (ra_n g) 1 p P) ->
    reduce_job K contract P g p m = None.
Proof.
  exists 254, 254, 254, 12, 12. eexists. assert (M : mesh_ok 254 254 254 12 12) by (unfold mesh_ok; repeat split; try lia; reflexivity).
  split; [exact M|]. destruct M as (Hx & Hy & Hz & Hnf & Hnp & Hs).
  destruct (acc_args_ok 254 254 254 12 12 Hx Hy Hz Hnf Hnp Hs) as [E A]. split; [exact E|].
  intros V K contract P p m HP Hp Hw. apply reduce_job_overflow; [exact A|cbn [acc_g ra_n_array]; lia|vm_compute; discriminate|exact Hp|exact Hw].
Qed.
Print Assumptions C45_reduce_overflow_refuted.

(* Unloading: exactly the three current components of the voxels 1..n+1 change, each by the value of its own voxel. *)
Theorem C45_unload : forall V (K : num V) contract P nx ny nz c acc F F',
  1 <= nx -> 1 <= ny -> 1 <= nz -> (nx + 1) * (ny + 1) * (nz + 1) < 2 ^ 31 -> 1 <= P < 2 ^ 31 ->
  unload_run K contract P nx ny nz c acc F F' ->
  let a x y z k := acc (voxel nx ny nz x y z) k in
  (forall x y z, 1 <= x <= nx + 1 -> 1 <= y <= ny + 1 -> 1 <= z <= nz + 1 ->
     F' (Jfx, voxel nx ny nz x y z) = n_add K (F (Jfx, voxel nx ny nz x y z))
       (n_mul K (vx c) (n_add K (n_add K (n_add K (a x y z 0%nat) (a x (y - 1) z 1%nat)) (a x y (z - 1) 2%nat)) (a x (y - 1) (z - 1) 3%nat))) /\
     F' (Jfy, voxel nx ny nz x y z) = n_add K (F (Jfy, voxel nx ny nz x y z))
       (n_mul K (vy c) (n_add K (n_add K (n_add K (a x y z 4%nat) (a x y (z - 1) 5%nat)) (a (x - 1) y z 6%nat)) (a (x - 1) y (z - 1) 7%nat))) /\
     F' (Jfz, voxel nx ny nz x y z) = n_add K (F (Jfz, voxel nx ny nz x y z))
       (n_mul K (vz c) (n_add K (n_add K (n_add K (a x y z 8%nat) (a (x - 1) y z 9%nat)) (a x (y - 1) z 10%nat)) (a (x - 1) (y - 1) z 11%nat)))) /\
  (forall q v, (~ In q [Jfx; Jfy; Jfz] \/
                forall x y z, 1 <= x <= nx + 1 -> 1 <= y <= ny + 1 -> 1 <= z <= nz + 1 -> v <> voxel nx ny nz x y z) -> F' (q, v) = F (q, v)).
Proof.
  intros V K contract P nx ny nz c acc F F' Hx Hy Hz Hs HP H a. destruct (unload_ok K nx ny nz Hx Hy Hz Hs contract P HP c acc F F' H) as [A B].
  split; [|exact B]. intros x y z Ix Iy Iz. destruct (A x y z Ix Iy Iz) as (-> & -> & ->). unfold unload, a. cbn [vx vy vz].
  assert (V1 : forall i j k v, v = voxel nx ny nz x y z - i - j * sy_of nx - k * sz_of nx ny -> v = voxel nx ny nz (x - i) (y - j) (z - k)) by (intros i j k v ->; unfold voxel, sz_of, sy_of; ring).
  rewrite (V1 0 1 1 (voxel nx ny nz x y z - sy_of nx - sz_of nx ny)), (V1 1 0 1 (voxel nx ny nz x y z - 1 - sz_of nx ny)), (V1 1 1 0 (voxel nx ny nz x y z - 1 - sy_of nx)),
    (V1 0 1 0 (voxel nx ny nz x y z - sy_of nx)), (V1 0 0 1 (voxel nx ny nz x y z - sz_of nx ny)), (V1 1 0 0 (voxel nx ny nz x y z - 1)) by ring.
  rewrite !Z.sub_0_r. repeat split; reflexivity.
Qed.
Print Assumptions C45_unload.

(* The whole cycle over the reals, in the geometry of the mesh: starting from an array whose ghost cells are zero (as
   new_accumulator_array leaves it), clear, any deposits in interior cells by any pipelines, reduce, unload: every current
   component receives the coefficient times the sum of exactly those deposits that lie on its edge - positions in half cells,
   component k of a cell at the offset documented in sf_interface.h:115-117 - whichever copy they were made in; and the ghost
   cells are zero again, so the next cycle starts from the same condition. *)
Theorem C45_current : forall contract P nx ny nz nf np g c m0 m1 ds m3 F F',
  mesh_ok nx ny nz nf np -> 12 <= nf -> 1 <= P < 2 ^ 31 -> acc_args nx ny nz nf np = Some g ->
  (np - 1) * (acc_stride nx ny nz * nf) + acc_na nx ny nz * nf <= 2 ^ 31 ->
  ghost_zero nx ny nz nf np m0 ->
  clear_run Rnum contract P g m0 m1 ->
  Forall (dep_ok nx ny nz nf np) ds ->
  reduce_run Rnum contract P g (deposits nx ny nz nf ds m1) m3 ->
  unload_run Rnum contract P nx ny nz c (fun v k => m3 (slot nf (acc_stride nx ny nz) 0 v (Z.of_nat k))) F F' ->
  ghost_zero nx ny nz nf np m3 /\
  forall x y z, 1 <= x <= nx + 1 -> 1 <= y <= ny + 1 -> 1 <= z <= nz + 1 ->
    F' (Jfx, voxel nx ny nz x y z) = (F (Jfx, voxel nx ny nz x y z) + vx c * sumif (lies_at 0 (2 * x + 1) (2 * y) (2 * z)) ds)%R /\
    F' (Jfy, voxel nx ny nz x y z) = (F (Jfy, voxel nx ny nz x y z) + vy c * sumif (lies_at 1 (2 * x) (2 * y + 1) (2 * z)) ds)%R /\
    F' (Jfz, voxel nx ny nz x y z) = (F (Jfz, voxel nx ny nz x y z) + vz c * sumif (lies_at 2 (2 * x) (2 * y) (2 * z + 1)) ds)%R.
Proof.
  intros contract P nx ny nz nf np g c m0 m1 ds m3 F F' (Hx & Hy & Hz & Hnf & Hnp & Hs) H12 HP E Fit G0 H1 D H3 H4.
  destruct (acc_args_ok nx ny nz nf np Hx Hy Hz Hnf Hnp Hs) as [E' A]. rewrite E in E'. injection E' as ->.
  assert (Fit' : reduce_fits (acc_g nx ny nz nf np)) by (unfold reduce_fits; cbn [acc_g ra_n ra_s_array ra_n_array ra_a]; replace (np + 1 - 2) with (np - 1) by lia; exact Fit).
  destruct (cycle_ok nx ny nz nf np Hx Hy Hz Hnf Hnp Hs contract P HP m0 m1 ds m3 G0 H1 D Fit' H3) as [M G3]. split; [exact G3|].
  assert (Hbox : (nx + 1) * (ny + 1) * (nz + 1) < 2 ^ 31).
  { pose proof (stride_bounds nx ny nz Hx Hy Hz). assert (nv_of nx ny nz < 2 ^ 31) by nia. unfold nv_of in *.
    assert ((nx + 1) * (ny + 1) <= (nx + 2) * (ny + 2)) by nia. set (a := (nx + 1) * (ny + 1)) in *. assert (0 <= a) by (unfold a; nia).
    assert (a * (nz + 1) <= (nx + 2) * (ny + 2) * (nz + 2)) by nia. lia. }
  destruct (unload_ok Rnum nx ny nz Hx Hy Hz Hbox contract P HP c _ F F' H4) as [U _]. intros x y z Ix Iy Iz. destruct (U x y z Ix Iy Iz) as (-> & -> & ->).
  rewrite (unload_geometry nx ny nz c ds); [cbn [vx vy vz]; repeat split; reflexivity| |exact Ix|exact Iy|exact Iz].
  intros x' y' z' k I Hk. cbv beta. rewrite Z2Nat.id by lia. apply M; [exact I|lia].
Qed.
Print Assumptions C45_current.

(* The hydro moments use the same two pipelines on all voxels: clearing zeroes all of every copy, reducing sums each float
   over all copies. *)
Theorem C45_hydro : forall V (K : num V) contract P nx ny nz nf np g,
  1 <= nx -> 1 <= ny -> 1 <= nz -> 1 <= nf -> 1 <= np -> 1 <= P < 2 ^ 31 -> hydro_args nx ny nz nf np = Some g ->
  (np - 1) * (acc_stride nx ny nz * nf) + nv_of nx ny nz * nf <= 2 ^ 31 ->
  (forall m r, clear_run K contract P g m r ->
     forall c v k, 0 <= c <= np -> 0 <= v < nv_of nx ny nz -> 0 <= k < nf -> r (slot nf (acc_stride nx ny nz) c v k) = n_zero K) /\
  (forall p m, 0 <= p <= P -> reduce_job K contract P g p m <> None) /\
  (forall m r, reduce_run K contract P g m r ->
     (forall v k, 0 <= v < nv_of nx ny nz -> 0 <= k < nf ->
       summed K (map (fun c => m (slot nf (acc_stride nx ny nz) c v k)) (zrange 0 (np + 1))) (r (slot nf (acc_stride nx ny nz) 0 v k))) /\
     (forall l, ~ (0 <= l < nv_of nx ny nz * nf) -> r l = m l)).
Proof.
  intros V K contract P nx ny nz nf np g Hx Hy Hz Hnf Hnp HP E Fit. unfold hydro_args in E.
  pose proof (stride_bounds nx ny nz Hx Hy Hz) as Sb. pose proof (nv_pos nx ny nz Hx Hy Hz) as Np.
  destruct (int_ok (nv_of nx ny nz * nf) && int_ok (acc_stride nx ny nz * nf)) eqn:I; [|discriminate]. injection E as <-.
  set (nv := nv_of nx ny nz) in *. set (s := acc_stride nx ny nz) in *. clearbody nv s.
  assert (A1 : 0 <= nv * nf) by nia. assert (A2 : nv * nf <= s * nf) by nia. unfold int_ok in I. apply andb_true_iff in I. destruct I as [I1 I2].
  assert (A : args_ok (mk_rargs 0 (nv * nf) (np + 1) (s * nf) 1)) by (constructor; cbn [ra_n ra_s_array ra_n_array ra_n_block]; set (q := nv * nf) in *; clearbody q; lia).
  assert (F : reduce_fits (mk_rargs 0 (nv * nf) (np + 1) (s * nf) 1)) by (unfold reduce_fits; cbn [ra_n ra_s_array ra_n_array]; replace (np + 1 - 2) with (np - 1) by lia; exact Fit).
  split; [|split].
  - intros m r H c v k Hc Hv Hk. destruct (clear_ok K contract P HP _ m r A H) as [C _]. apply (C c (nf * v + k)). unfold element, slot.
    cbn [ra_n ra_s_array ra_n_array ra_a]. split; [lia|]. split; [nia|ring].
  - intros p m Hp. destruct (distribute contract (ra_n (mk_rargs 0 (nv * nf) (np + 1) (s * nf) 1)) 1 p P) as [i n] eqn:D.
    destruct (reduce_job_val K contract P HP _ p m A F ltac:(cbn [ra_n_array]; lia) Hp i n D) as (f & -> & _). discriminate.
  - intros m r H. destruct (reduce_ok K contract P HP _ m r A F ltac:(cbn [ra_n_array]; lia) H) as [W U]. cbn [ra_n ra_s_array ra_n_array ra_a] in W, U.
    split; [|exact U]. intros v k Hv Hk. specialize (W (nf * v + k) ltac:(nia)).
    replace (slot nf s 0 v k) with (0 + (nf * v + k)) by (unfold slot; ring). erewrite map_ext; [exact W|]. intros c. cbv beta. f_equal. unfold slot. ring.
Qed.
Print Assumptions C45_hydro.

(* Every phase has executions, so the theorems above are not vacuous. *)
Theorem C45_runs_exist : forall V (K : num V) contract P nx ny nz g c acc m F,
  (exists r, clear_run K contract P g m r) /\ (exists r, reduce_run K contract P g m r) /\ (exists F', unload_run K contract P nx ny nz c acc F F').
Proof. intros. repeat split; eexists; apply phase_run_ops. Qed.
Print Assumptions C45_runs_exist.

Definition eg_g : rargs := acc_g 1 1 2 12 11.
(* 1 x 1 x 2 mesh, 11 pipeline copies plus the host's: the float jz2 of cell (1,1,1), executed by 3 pipelines and the host *)
Example C45_reduce_example :
  acc_args 1 1 2 12 11 = Some eg_g /\
  run_ops Z Q Z Z.eqb (reduce_exec Qnum false 3 eg_g) (ranks 3) (fun l => inject_Z (l * l)) (slot 12 (acc_stride 1 1 2) 0 (voxel 1 1 2 1 1 1) 10)
    == inject_Z (fold_right Z.add 0 (map (fun c => let l := slot 12 (acc_stride 1 1 2) c (voxel 1 1 2 1 1 1) 10 in l * l) (zrange 0 12))).
Proof. vm_compute. split; reflexivity. Qed.
Example C45_clear_example :
  let r := run_ops Z Q Z Z.eqb (clear_job Qnum false 3 eg_g) (ranks 3) (fun l => inject_Z (l + 1)) in
  r (slot 12 36 11 (voxel 1 1 2 1 1 2) 11) = 0%Q /\ r (slot 12 36 11 (voxel 1 1 2 2 2 2) 11) = inject_Z (slot 12 36 11 (voxel 1 1 2 2 2 2) 11 + 1).
Proof. vm_compute. split; reflexivity. Qed.
(* jx3 of cell (1,1,1) and jx0 of cell (1,2,2) lie on the same x edge *)
Example C45_edge_example :
  sumif (lies_at 0 3 4 4) [mk_dep 2 1 1 1 3 5%R; mk_dep 0 1 2 2 0 7%R; mk_dep 1 1 2 2 1 11%R] = 12%R.
Proof.
  unfold sumif. cbn [map fold_right d_t]. change (lies_at 0 3 4 4 (mk_dep 2 1 1 1 3 5%R)) with true. change (lies_at 0 3 4 4 (mk_dep 0 1 2 2 0 7%R)) with true.
  change (lies_at 0 3 4 4 (mk_dep 1 1 2 2 1 11%R)) with false. cbv iota. lra.
Qed.

(* ---- C46 ---- *)
(* Loading stores the coefficients of every interior voxel, computed from the unchanged fields, and nothing else. *)
Theorem C46_load : forall V (K : num V) contract P nx ny nz F m m',
  1 <= nx -> 1 <= ny -> 1 <= nz -> (nx + 1) * (ny + 1) * (nz + 1) < 2 ^ 31 -> 1 <= P < 2 ^ 31 ->
  load_run K contract P nx ny nz F m m' ->
  (forall x y z, interior nx ny nz x y z -> m' (voxel nx ny nz x y z) = interpolator_at K nx ny F (voxel nx ny nz x y z)) /\
  (forall v, (forall x y z, interior nx ny nz x y z -> v <> voxel nx ny nz x y z) -> m' v = m v).
Proof. intros V K contract P nx ny nz F m m' Hx Hy Hz Hs HP H. exact (load_ok K nx ny nz Hx Hy Hz Hs contract P HP F m m' H). Qed.
Print Assumptions C46_load.

(* The field the particles see (qdt_2mc = 1) is the multilinear blend of the values stored on the edges (E) and faces (B). *)
Theorem C46_multilinear : forall contract P nx ny nz F m m' x y z d,
  1 <= nx -> 1 <= ny -> 1 <= nz -> (nx + 1) * (ny + 1) * (nz + 1) < 2 ^ 31 -> 1 <= P < 2 ^ 31 ->
  load_run Rnum contract P nx ny nz F m m' -> interior nx ny nz x y z ->
  let at_ c i j k := F (c, voxel nx ny nz (x + i) (y + j) (z + k)) in
  let f := m' (voxel nx ny nz x y z) in
  half_e Rnum 1%R f d =
    mkv (mix (vz d) (mix (vy d) (at_ Ex 0 0 0) (at_ Ex 0 1 0)) (mix (vy d) (at_ Ex 0 0 1) (at_ Ex 0 1 1)))
        (mix (vx d) (mix (vz d) (at_ Ey 0 0 0) (at_ Ey 0 0 1)) (mix (vz d) (at_ Ey 1 0 0) (at_ Ey 1 0 1)))
        (mix (vy d) (mix (vx d) (at_ Ez 0 0 0) (at_ Ez 1 0 0)) (mix (vx d) (at_ Ez 0 1 0) (at_ Ez 1 1 0))) /\
  mag_b Rnum f d = mkv (mix (vx d) (at_ Cbx 0 0 0) (at_ Cbx 1 0 0)) (mix (vy d) (at_ Cby 0 0 0) (at_ Cby 0 1 0)) (mix (vz d) (at_ Cbz 0 0 0) (at_ Cbz 0 0 1)).
Proof.
  intros contract P nx ny nz F m m' x y z d Hx Hy Hz Hs HP H I at_ f.
  destruct (load_ok Rnum nx ny nz Hx Hy Hz Hs contract P HP F m m' H) as [L _]. unfold f. rewrite (L x y z I). apply interpolated.
Qed.
Print Assumptions C46_multilinear.

(* On each of the four edges of the cell the electric field is the value stored there, on each of the two faces the magnetic
   field is the value stored there.  i, j in {0,1} select the edge or face. *)
Theorem C46_edges_faces : forall contract P nx ny nz F m m' x y z d i j,
  1 <= nx -> 1 <= ny -> 1 <= nz -> (nx + 1) * (ny + 1) * (nz + 1) < 2 ^ 31 -> 1 <= P < 2 ^ 31 ->
  load_run Rnum contract P nx ny nz F m m' -> interior nx ny nz x y z -> 0 <= i <= 1 -> 0 <= j <= 1 ->
  let f := m' (voxel nx ny nz x y z) in let pos q := (2 * IZR q - 1)%R in
  (vy d = pos i -> vz d = pos j -> vx (half_e Rnum 1%R f d) = F (Ex, voxel nx ny nz x (y + i) (z + j))) /\
  (vz d = pos i -> vx d = pos j -> vy (half_e Rnum 1%R f d) = F (Ey, voxel nx ny nz (x + j) y (z + i))) /\
  (vx d = pos i -> vy d = pos j -> vz (half_e Rnum 1%R f d) = F (Ez, voxel nx ny nz (x + i) (y + j) z)) /\
  (vx d = pos i -> vx (mag_b Rnum f d) = F (Cbx, voxel nx ny nz (x + i) y z)) /\
  (vy d = pos i -> vy (mag_b Rnum f d) = F (Cby, voxel nx ny nz x (y + i) z)) /\
  (vz d = pos i -> vz (mag_b Rnum f d) = F (Cbz, voxel nx ny nz x y (z + i))).
Proof.
  intros contract P nx ny nz F m m' x y z d i j Hx Hy Hz Hs HP H I Hi Hj f pos.
  destruct (C46_multilinear contract P nx ny nz F m m' x y z d Hx Hy Hz Hs HP H I) as [E B]. fold f in E, B. rewrite E, B. cbn [vx vy vz]. rewrite !Z.add_0_r.
  assert (Mx : forall q a w0 w1, 0 <= q <= 1 -> a = pos q -> mix a w0 w1 = if q =? 0 then w0 else w1).
  { intros q a w0 w1 Hq ->. unfold pos, mix. assert (Q : q = 0 \/ q = 1) by lia. destruct Q as [Q|Q]; subst q; cbn [Z.eqb]; lra. }
  repeat split.
  - intros Ea Eb. rewrite (Mx j _ _ _ Hj Eb), !(Mx i _ _ _ Hi Ea). assert (Qi : i = 0 \/ i = 1) by lia. assert (Qj : j = 0 \/ j = 1) by lia.
    destruct Qi as [Qi|Qi], Qj as [Qj|Qj]; subst i j; cbn [Z.eqb]; rewrite ?Z.add_0_r; reflexivity.
  - intros Ea Eb. rewrite (Mx j _ _ _ Hj Eb), !(Mx i _ _ _ Hi Ea). assert (Qi : i = 0 \/ i = 1) by lia. assert (Qj : j = 0 \/ j = 1) by lia.
    destruct Qi as [Qi|Qi], Qj as [Qj|Qj]; subst i j; cbn [Z.eqb]; rewrite ?Z.add_0_r; reflexivity.
  - intros Ea Eb. rewrite (Mx j _ _ _ Hj Eb), !(Mx i _ _ _ Hi Ea). assert (Qi : i = 0 \/ i = 1) by lia. assert (Qj : j = 0 \/ j = 1) by lia.
    destruct Qi as [Qi|Qi], Qj as [Qj|Qj]; subst i j; cbn [Z.eqb]; rewrite ?Z.add_0_r; reflexivity.
  - intros Ea. rewrite (Mx i _ _ _ Hi Ea). assert (Qi : i = 0 \/ i = 1) by lia. destruct Qi as [Qi|Qi]; subst i; cbn [Z.eqb]; rewrite ?Z.add_0_r; reflexivity.
  - intros Ea. rewrite (Mx i _ _ _ Hi Ea). assert (Qi : i = 0 \/ i = 1) by lia. destruct Qi as [Qi|Qi]; subst i; cbn [Z.eqb]; rewrite ?Z.add_0_r; reflexivity.
  - intros Ea. rewrite (Mx i _ _ _ Hi Ea). assert (Qi : i = 0 \/ i = 1) by lia. destruct Qi as [Qi|Qi]; subst i; cbn [Z.eqb]; rewrite ?Z.add_0_r; reflexivity.
Qed.
Print Assumptions C46_edges_faces.

(* Inside the cell no component leaves the range of the stored values around it. *)
Theorem C46_no_overshoot : forall contract P nx ny nz F m m' x y z d lo hi,
  1 <= nx -> 1 <= ny -> 1 <= nz -> (nx + 1) * (ny + 1) * (nz + 1) < 2 ^ 31 -> 1 <= P < 2 ^ 31 ->
  load_run Rnum contract P nx ny nz F m m' -> interior nx ny nz x y z ->
  (-1 <= vx d <= 1)%R -> (-1 <= vy d <= 1)%R -> (-1 <= vz d <= 1)%R ->
  let f := m' (voxel nx ny nz x y z) in
  let all c := forall i j k, 0 <= i <= 1 -> 0 <= j <= 1 -> 0 <= k <= 1 -> (lo <= F (c, voxel nx ny nz (x + i) (y + j) (z + k)) <= hi)%R in
  (all Ex -> lo <= vx (half_e Rnum 1%R f d) <= hi)%R /\ (all Ey -> lo <= vy (half_e Rnum 1%R f d) <= hi)%R /\ (all Ez -> lo <= vz (half_e Rnum 1%R f d) <= hi)%R /\
  (all Cbx -> lo <= vx (mag_b Rnum f d) <= hi)%R /\ (all Cby -> lo <= vy (mag_b Rnum f d) <= hi)%R /\ (all Cbz -> lo <= vz (mag_b Rnum f d) <= hi)%R.
Proof.
  intros contract P nx ny nz F m m' x y z d lo hi Hx Hy Hz Hs HP H I Dx Dy Dz f all.
  destruct (C46_multilinear contract P nx ny nz F m m' x y z d Hx Hy Hz Hs HP H I) as [E B]. fold f in E, B. rewrite E, B. cbn [vx vy vz].
  refine (conj _ (conj _ (conj _ (conj _ (conj _ _))))); intros A; repeat apply mix_bounds; try assumption; apply A; lia.
Qed.
Print Assumptions C46_no_overshoot.

(* a field, a cell, and the exact value at (1/2, 1, -1): the edge (1,2,1) *)
Example C46_example :
  let F (l : floc) := (inject_Z (snd l * snd l) + (1 # 3))%Q in
  let f := interpolator_at Qnum 3 3 F (voxel 3 3 3 1 1 1) in
  vx (half_e Qnum 1%Q f (mkv (1 # 2) 1 (-1))%Q) == F (Ex, voxel 3 3 3 1 2 1) /\
  vz (mag_b Qnum f (mkv 0 0 1)%Q) == F (Cbz, voxel 3 3 3 1 1 2) /\
  ~ vx (half_e Qnum 1%Q f (mkv (1 # 2) 0 0)%Q) == F (Ex, voxel 3 3 3 1 2 1).
Proof. vm_compute. repeat split; discriminate || reflexivity. Qed.
