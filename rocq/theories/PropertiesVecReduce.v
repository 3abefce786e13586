(* C73: the vector kernels of reduce_array leave, float for float, what the scalar kernel leaves. *)
Require Import Reals Lra.
From Coq Require Import ZArith QArith List Bool Lia ZifyBool.
Require Import Verif.ParticleModel.
From Verif Require Import DistributeModel VoxelModel SortModel SweepModel SweepProofs FieldModel SfModel SfProofs SfCycle PropertiesSf VecReduceModel VecReduceProofs.
Import ListNotations.
Open Scope Z_scope.
Ltac Zify.zify_post_hook ::= idtac.

(* In general, for every argument block whose start and stride are whole vectors, whose reduced range lies in the first
   copy and whose offsets fit into an int: every job is defined; and if the number of floats is a whole number of vectors,
   every execution of the vector build (any number of pipelines P, any interleaving) leaves in every location exactly the
   value that every execution of the scalar build with any number of pipelines P' leaves. *)
Theorem C73_same_as_scalar : forall V (K : num V) contract contract' P P' W g,
  1 <= P < 2 ^ 31 -> 1 <= P' < 2 ^ 31 -> 1 <= W ->
  0 <= ra_n g < 2 ^ 31 -> 1 <= ra_n_array g -> 1 <= ra_n_block g -> 0 <= ra_a g -> ra_a g + ra_n g <= ra_s_array g ->
  (ra_n_array g - 2) * ra_s_array g + ra_n g <= 2 ^ 31 ->
  (W | ra_a g) -> (W | ra_s_array g) ->
  (forall p m, 0 <= p <= P -> vexec_job K contract P W g p m <> None) /\
  ((W | ra_n g) -> forall m r r', vreduce_run K contract P W g m r -> reduce_run K contract' P' g m r' -> forall l, r l = r' l).
Proof.
  intros V K contract contract' P P' W g HP HP' HW Hn Ha Hb H0 H1 F Da Ds.
  assert (G : args_ok g) by (constructor; lia).
  assert (A : vargs_ok W g) by (constructor; assumption).
  split; [intros p m Hp; apply vexec_defined; assumption|].
  intros Dn m r r' H H' l. destruct (vector_run K contract P HP W HW g m r A H) as [X Y].
  destruct (scalar_run K contract' P' HP' g m r' G F Ha H') as [X' Y'].
  assert (E : W * (ra_n g / W) = ra_n g) by (symmetry; apply Z.div_exact; [lia|]; apply Z.mod_divide; [lia|exact Dn]).
  rewrite E in X, Y. destruct (Z_le_gt_dec (ra_a g) l) as [L|L]; [destruct (Z_lt_ge_dec l (ra_a g + ra_n g)) as [L'|L']|].
  - replace l with (ra_a g + (l - ra_a g)) by lia. rewrite X, X' by lia. reflexivity.
  - rewrite Y, Y' by lia. reflexivity.
  - rewrite Y, Y' by lia. reflexivity.
Qed.
Print Assumptions C73_same_as_scalar.

Lemma even_acc nx ny nz : 1 <= nx -> 1 <= ny -> 1 <= nz ->
  (2 | acc_i0 nx ny nz) /\ (2 | acc_na nx ny nz) /\ (2 | acc_stride nx ny nz).
Proof.
  intros Hx Hy Hz. split; [|split].
  - unfold acc_i0. apply Z.divide_factor_r.
  - unfold acc_na. apply Z.divide_factor_r.
  - unfold acc_stride. rewrite ceil2_spec; [apply Z.divide_factor_r|]. pose proof (nv_pos nx ny nz Hx Hy Hz). lia.
Qed.
Lemma floats_div W u : In W [4; 8; 16] -> (2 | u) -> (W | u * acc_floats W).
Proof.
  intros I (t & ->). cbn [In] in I. destruct I as [<-|[<-|[<-|[]]]]; unfold acc_floats; cbn [Z.ltb Z.compare Pos.compare Pos.compare_cont].
  - exists (t * 6). ring.
  - exists (t * 4). ring.
  - exists (t * 2). ring.
Qed.

(* The accumulators of each vector build: every job of every pipeline and of the caller is defined (aligned accesses
   inside the array, no int overflow), and the result is the same float for float as that of the scalar kernel with any
   number of pipelines: each float of an interior cell is a sum containing the value of every copy once, and nothing
   beyond the caller's copy changes. *)
Theorem C73_accumulators : forall V (K : num V) contract contract' P P' W nx ny nz np g,
  In W [4; 8; 16] -> let nf := acc_floats W in mesh_ok nx ny nz nf np -> 1 <= P < 2 ^ 31 -> 1 <= P' < 2 ^ 31 ->
  acc_args nx ny nz nf np = Some g ->
  (np - 1) * (acc_stride nx ny nz * nf) + acc_na nx ny nz * nf <= 2 ^ 31 ->
  (forall p m, 0 <= p <= P -> vexec_job K contract P W g p m <> None) /\
  (forall m r, vreduce_run K contract P W g m r ->
    (forall r', reduce_run K contract' P' g m r' -> forall l, r l = r' l) /\
    (forall x y z k, interior nx ny nz x y z -> 0 <= k < nf ->
       summed K (map (fun c => m (slot nf (acc_stride nx ny nz) c (voxel nx ny nz x y z) k)) (zrange 0 (np + 1)))
                (r (slot nf (acc_stride nx ny nz) 0 (voxel nx ny nz x y z) k))) /\
    (forall l, ~ (0 <= l < acc_stride nx ny nz * nf) -> r l = m l)).
Proof.
  intros V K contract contract' P P' W nx ny nz np g IW nf M HP HP' E Fit. pose proof M as (Hx & Hy & Hz & Hnf & Hnp & Hs).
  destruct (acc_args_ok nx ny nz nf np Hx Hy Hz Hnf Hnp Hs) as [E' [An As Aa Ab]]. pose proof E as E0. rewrite E in E'. injection E' as ->.
  destruct (acc_range nx ny nz Hx Hy Hz) as (R0 & R1 & R2 & _). destruct (even_acc nx ny nz Hx Hy Hz) as (D0 & D1 & D2).
  assert (HW : 1 <= W) by (cbn [In] in IW; lia).
  destruct (C73_same_as_scalar V K contract contract' P P' W (acc_g nx ny nz nf np) HP HP' HW) as [A B]; cbn [acc_g ra_n ra_a ra_s_array ra_n_array ra_n_block] in *.
  { exact An. } { lia. } { lia. } { nia. } { nia. } { replace (np + 1 - 2) with (np - 1) by lia. exact Fit. }
  { apply floats_div; assumption. } { apply floats_div; assumption. }
  split; [exact A|]. intros m r H. specialize (B (floats_div W _ IW D1) m r).
  split; [intros r' H' l; exact (B r' H H' l)|].
  destruct (C45_reduce V K contract P nx ny nz nf np _ M HP E0 Fit) as [_ C].
  destruct (C45_runs_exist V K contract P nx ny nz (acc_g nx ny nz nf np) (mkv (n_zero K) (n_zero K) (n_zero K)) (fun _ _ => n_zero K) m (fun _ => n_zero K)) as (_ & (r0 & Hr0) & _).
  destruct (C m r0 Hr0) as [C1 C2].
  destruct (C73_same_as_scalar V K contract contract P P W (acc_g nx ny nz nf np) HP HP HW) as [_ B']; cbn [acc_g ra_n ra_a ra_s_array ra_n_array ra_n_block] in *.
  { exact An. } { lia. } { lia. } { nia. } { nia. } { replace (np + 1 - 2) with (np - 1) by lia. exact Fit. }
  { apply floats_div; assumption. } { apply floats_div; assumption. }
  specialize (B' (floats_div W _ IW D1) m r r0 H Hr0). split.
  - intros x y z k I Hk. rewrite B'. apply C1; assumption.
  - intros l Hl. rewrite B'. apply C2, Hl.
Qed.
Print Assumptions C73_accumulators.

(* The hydro moments. *)
Theorem C73_hydro : forall V (K : num V) contract contract' P P' W nx ny nz np g,
  In W [4; 8; 16] -> let nf := hydro_floats in 1 <= nx -> 1 <= ny -> 1 <= nz -> 1 <= np -> 1 <= P < 2 ^ 31 -> 1 <= P' < 2 ^ 31 ->
  hydro_args nx ny nz nf np = Some g ->
  (np - 1) * (acc_stride nx ny nz * nf) + nv_of nx ny nz * nf <= 2 ^ 31 ->
  (forall p m, 0 <= p <= P -> vexec_job K contract P W g p m <> None) /\
  (forall m r, vreduce_run K contract P W g m r ->
    (forall r', reduce_run K contract' P' g m r' -> forall l, r l = r' l) /\
    (forall v k, 0 <= v < nv_of nx ny nz -> 0 <= k < nf ->
       summed K (map (fun c => m (slot nf (acc_stride nx ny nz) c v k)) (zrange 0 (np + 1))) (r (slot nf (acc_stride nx ny nz) 0 v k))) /\
    (forall l, ~ (0 <= l < nv_of nx ny nz * nf) -> r l = m l)).
Proof.
  intros V K contract contract' P P' W nx ny nz np g IW nf Hx Hy Hz Hnp HP HP' E Fit.
  assert (HW : 1 <= W) by (cbn [In] in IW; lia).
  assert (D16 : forall u, (W | u * nf)).
  { intros u. apply Z.divide_mul_r. cbn [In] in IW. unfold nf, hydro_floats. destruct IW as [<-|[<-|[<-|[]]]]; [exists 4|exists 2|exists 1]; reflexivity. }
  destruct (C45_hydro V K contract P nx ny nz nf np g Hx Hy Hz ltac:(unfold nf, hydro_floats; lia) Hnp HP E Fit) as (_ & _ & C).
  pose proof E as E0. unfold hydro_args in E0.
  pose proof (stride_bounds nx ny nz Hx Hy Hz) as Sb. pose proof (nv_pos nx ny nz Hx Hy Hz) as Np.
  destruct (int_ok (nv_of nx ny nz * nf) && int_ok (acc_stride nx ny nz * nf)) eqn:I; [|discriminate]. injection E0 as <-.
  assert (I' : 0 <= nv_of nx ny nz * nf < 2 ^ 31) by (unfold int_ok, nf, hydro_floats in *; lia).
  assert (S : forall c' Q, 1 <= Q < 2 ^ 31 -> (forall p m, 0 <= p <= P -> vexec_job K contract P W (mk_rargs 0 (nv_of nx ny nz * nf) (np + 1) (acc_stride nx ny nz * nf) 1) p m <> None) /\
    forall m r r', vreduce_run K contract P W (mk_rargs 0 (nv_of nx ny nz * nf) (np + 1) (acc_stride nx ny nz * nf) 1) m r ->
      reduce_run K c' Q (mk_rargs 0 (nv_of nx ny nz * nf) (np + 1) (acc_stride nx ny nz * nf) 1) m r' -> forall l, r l = r' l).
  { intros c' Q HQ. destruct (C73_same_as_scalar V K contract c' P Q W (mk_rargs 0 (nv_of nx ny nz * nf) (np + 1) (acc_stride nx ny nz * nf) 1) HP HQ HW) as [A B];
      cbn [ra_n ra_a ra_s_array ra_n_array ra_n_block].
    { exact I'. } { lia. } { lia. } { lia. } { unfold nf, hydro_floats. lia. } { replace (np + 1 - 2) with (np - 1) by lia. exact Fit. }
    { apply Z.divide_0_r. } { apply D16. }
    split; [exact A|]. apply B. apply D16. }
  destruct (S contract' P' HP') as [A B]. split; [exact A|]. intros m r H. split; [intros r' H'; exact (B m r r' H H')|].
  destruct (C45_runs_exist V K contract P nx ny nz (mk_rargs 0 (nv_of nx ny nz * nf) (np + 1) (acc_stride nx ny nz * nf) 1) (mkv (n_zero K) (n_zero K) (n_zero K)) (fun _ _ => n_zero K) m (fun _ => n_zero K)) as (_ & (r0 & Hr0) & _).
  destruct (C m r0 Hr0) as [C1 C2]. destruct (S contract P HP) as [_ B']. specialize (B' m r r0 H Hr0).
  split; [intros v k Hv Hk; rewrite B'; apply C1; assumption|intros l Hl; rewrite B'; apply C2, Hl].
Qed.
Print Assumptions C73_hydro.

(* Executions exist. *)
Theorem C73_runs_exist : forall V (K : num V) contract P W g m, exists r, vreduce_run K contract P W g m r.
Proof. intros. eexists. apply phase_run_ops. Qed.
Print Assumptions C73_runs_exist.

(* The caller does not clean up the stragglers: it runs the scalar kernel with block size 1, whose share for rank P is
   empty.  For an argument block of n floats the last n mod W floats keep their own value in every execution. *)
Theorem C73_stragglers : forall V (K : num V) contract P W g,
  1 <= P < 2 ^ 31 -> 1 <= W ->
  0 <= ra_n g < 2 ^ 31 -> 1 <= ra_n_array g -> 1 <= ra_n_block g -> 0 <= ra_a g -> ra_a g + ra_n g <= ra_s_array g ->
  (ra_n_array g - 2) * ra_s_array g + ra_n g <= 2 ^ 31 ->
  (W | ra_a g) -> (W | ra_s_array g) ->
  forall m r, vreduce_run K contract P W g m r ->
  forall k, ra_n g - ra_n g mod W <= k < ra_n g -> r (ra_a g + k) = m (ra_a g + k).
Proof.
  intros V K contract P W g HP HW Hn Ha Hb H0 H1 F Da Ds m r H k Hk.
  assert (G : args_ok g) by (constructor; lia). assert (A : vargs_ok W g) by (constructor; assumption).
  destruct (vector_run K contract P HP W HW g m r A H) as [_ Y]. apply Y. pose proof (Z.div_mod (ra_n g) W ltac:(lia)). lia.
Qed.
Print Assumptions C73_stragglers.
(* 6 floats, 2 copies, 4 lanes: float 5 of every execution is 1 although the scalar kernel leaves 1 + 1. *)
Theorem C73_stragglers_refuted : exists W g k, (W | ra_a g) /\ (W | ra_s_array g) /\ 0 <= k < ra_n g /\
  forall contract P m r r', 1 <= P < 2 ^ 31 -> (forall l, m l = 1%R) ->
    vreduce_run Rnum contract P W g m r -> reduce_run Rnum contract P g m r' ->
    r (ra_a g + k) = 1%R /\ r' (ra_a g + k) = 2%R.
Proof.
  exists 4, (mk_rargs 0 6 2 8 1), 5. cbn [ra_a ra_s_array ra_n]. split; [exists 0; reflexivity|]. split; [exists 2; reflexivity|]. split; [lia|].
  intros contract P m r r' HP Hm H H'. split.
  - assert (S := C73_stragglers R Rnum contract P 4 (mk_rargs 0 6 2 8 1) HP). cbn [ra_a ra_s_array ra_n ra_n_array ra_n_block] in S.
    rewrite (S ltac:(lia) ltac:(lia) ltac:(lia) ltac:(lia) ltac:(lia) ltac:(lia) ltac:(lia) ltac:(exists 0; reflexivity) ltac:(exists 2; reflexivity) m r H 5); [apply Hm|].
    change (6 mod 4) with 2. lia.
  - assert (G : args_ok (mk_rargs 0 6 2 8 1)) by (constructor; cbn; lia).
    destruct (scalar_run Rnum contract P HP _ m r' G ltac:(unfold reduce_fits; cbn; lia) ltac:(cbn; lia) H') as [X _].
    specialize (X 5 ltac:(cbn; lia)). cbn [ra_a] in X. rewrite X. unfold redsum. cbn [ra_a ra_s_array ra_n_array]. change (Z.to_nat (2 - 1)) with 1%nat.
    cbn [redval Nat.min O_op]. rewrite !Hm. cbn. lra.
Qed.
Print Assumptions C73_stragglers_refuted.

(* The padding of accumulator_t is needed: with 12 floats per accumulator the 16-lane kernel would access unaligned
   memory on a 3 x 2 x 1 mesh (its i0 = 26 is even, which suffices for 4 and 8 lanes only). *)
Theorem C73_unpadded_refuted : exists nx ny nz np g, mesh_ok nx ny nz 12 np /\ acc_args nx ny nz 12 np = Some g /\
  forall V (K : num V) m, vexec_job K false 1 16 g 0 m = None.
Proof.
  exists 3, 2, 1, 1. eexists. assert (M : mesh_ok 3 2 1 12 1) by (unfold mesh_ok; repeat split; try lia; reflexivity).
  split; [exact M|]. split; [reflexivity|]. intros V K m. vm_compute. reflexivity.
Qed.
Print Assumptions C73_unpadded_refuted.

(* 1 x 1 x 2 mesh, 11 copies plus the caller's, 3 pipelines and 4 lanes: a float of cell (1,1,1), and one
   before the reduced range *)
Example C73_accumulators_example :
  let r := run_ops Z Q Z Z.eqb (vreduce_exec Qnum false 3 4 (acc_g 1 1 2 12 11)) (ranks 3) (fun l => inject_Z (l * l)) in
  Qeq (r (slot 12 (acc_stride 1 1 2) 0 (voxel 1 1 2 1 1 1) 10))
    (inject_Z (fold_right Z.add 0 (map (fun c => let l := slot 12 (acc_stride 1 1 2) c (voxel 1 1 2 1 1 1) 10 in l * l) (zrange 0 12)))) /\
  r 3 = inject_Z 9.
Proof. vm_compute. split; reflexivity. Qed.
(* 20 floats from location 8, 3 copies 32 apart, 8 lanes: two vectors are reduced, the last 4 floats (24..27) are not *)
Example C73_stragglers_example :
  let r := run_ops Z Q Z Z.eqb (vreduce_exec Qnum false 2 8 (mk_rargs 8 20 3 32 1)) (ranks 2) (fun l => inject_Z l) in
  map r [7; 8; 23; 24; 27; 28] = map inject_Z [7; 8 + 40 + 72; 23 + 55 + 87; 24; 27; 28].
Proof. vm_compute. reflexivity. Qed.
