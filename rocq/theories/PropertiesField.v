(* C08, C09, C10, C47, C48, C49: field solver. *)
From Coq Require Import ZArith List Bool Reals Lra Lia Permutation SpecFloat.
From Flocq Require Import BinarySingleNaN.
From Verif Require Import FloatModel VoxelModel SweepModel FieldModel FieldSpec FieldSweeps FieldBoundaryModel
  FieldPhysics FieldPhysics2 FieldRms FieldCoefs FieldFinal.
Import ListNotations.
Open Scope Z_scope.

(* ---- C08 ---- *)

(* Advancing B by any fraction of a step and applying the local boundary conditions
   leaves div B of a cell as it was, unless the cell has a face on a
   symmetric_fields boundary. *)
Theorem C08_div_b_preserved :
  forall nx ny nz (contract : bool) P, 1 <= nx -> 1 <= ny -> 1 <= nz -> nx * ny * nz < 2 ^ 31 -> 1 <= P < 2 ^ 31 ->
  forall g bc ws mt frac m r1 r x y z,
  advance_b_run R RA mt (advance_b_coefs g frac) nx ny nz contract P m r1 ->
  adjust_norm_b R 0%R nx ny nz bc ws r1 = Some r ->
  1 <= x <= nx -> 1 <= y <= ny -> 1 <= z <= nz ->
  (x = 1 -> bc XM <> symmetric_fields) -> (x = nx -> bc XP <> symmetric_fields) ->
  (y = 1 -> bc YM <> symmetric_fields) -> (y = ny -> bc YP <> symmetric_fields) ->
  (z = 1 -> bc ZM <> symmetric_fields) -> (z = nz -> bc ZP <> symmetric_fields) ->
  div_b R nx ny nz RA (div_coefs g) r x y z = div_b R nx ny nz RA (div_coefs g) m x y z.
Proof. exact div_b_preserved. Qed.
Print Assumptions C08_div_b_preserved.

(* The exception is real: on a 2x2x1 mesh with a symmetric -x boundary, one step
   takes div B of cell 1,1,1 from 0 to -1/2. *)
Theorem C08_symmetric_boundary_refuted : forall mt contract P, 1 <= P < 2 ^ 31 ->
  exists g bc m r1 r,
  advance_b_run R RA mt (advance_b_coefs g 1) 2 2 1 contract P m r1 /\
  adjust_norm_b R 0%R 2 2 1 bc 1 r1 = Some r /\
  div_b R 2 2 1 RA (div_coefs g) m 1 1 1 = 0%R /\
  div_b R 2 2 1 RA (div_coefs g) r 1 1 1 = (-1/2)%R.
Proof.
  intros mt contract P HP. destruct (sym_breaks mt contract P HP) as (r1 & r & H).
  exists sym_grid, sym_bc, sym_mem, r1, r. tauto.
Qed.
Print Assumptions C08_symmetric_boundary_refuted.

(* The hypotheses of C08_div_b_preserved can be met with any field: 3x2x1 mesh,
   a periodic x, a metal -y and an absorbing +y boundary. *)
Example C08_example : forall g mt m,
  exists r1 r, advance_b_run R RA mt (advance_b_coefs g (1/2)) 3 2 1 true 4 m r1 /\
    adjust_norm_b R 0%R 3 2 1 (fun s => match s with YM => -1 | YP => -4 | _ => 0 end) 1 r1 = Some r.
Proof.
  intros g mt m. eexists. eexists. split; [apply free_exists|reflexivity].
Qed.

(* ---- C09 ---- *)
(* For every arithmetic (so also for IEEE single precision), every mesh, every number
   of pipelines, every order of the work and every admissible set of ghost values: the
   sweep computes what FieldSpec says, and changes nothing else. *)
Theorem C09_advance_b : forall V A mt k nx ny nz (contract : bool) P,
  1 <= nx -> 1 <= ny -> 1 <= nz -> nx * ny * nz < 2 ^ 31 -> 1 <= P < 2 ^ 31 -> forall m r,
  advance_b_run V A mt k nx ny nz contract P m r -> faraday V nx ny nz A k m r.
Proof. exact advance_b_spec. Qed.
Print Assumptions C09_advance_b.

Theorem C09_advance_e : forall V A mt k nx ny nz (contract : bool) P,
  1 <= nx -> 1 <= ny -> 1 <= nz -> nx * ny * nz < 2 ^ 31 -> 1 <= P < 2 ^ 31 -> forall G m r,
  ghost_list (ghost_tang_b nx ny nz) G -> advance_e_run V A mt k nx ny nz contract P G m r ->
  exists B, with_ghosts G m B /\ ampere V nx ny nz A mt k B r.
Proof. exact advance_e_spec. Qed.
Print Assumptions C09_advance_e.

Theorem C09_compute_curl_b : forall V A mt k nx ny nz (contract : bool) P,
  1 <= nx -> 1 <= ny -> 1 <= nz -> nx * ny * nz < 2 ^ 31 -> 1 <= P < 2 ^ 31 -> forall G m r,
  ghost_list (ghost_tang_b nx ny nz) G -> curl_b_run V A mt k nx ny nz contract P G m r ->
  exists B, with_ghosts G m B /\ curl_only V nx ny nz A mt k B r.
Proof. exact curl_b_spec. Qed.
Print Assumptions C09_compute_curl_b.

Theorem C09_compute_div_e_err : forall V A mt k nx ny nz (contract : bool) P,
  1 <= nx -> 1 <= ny -> 1 <= nz -> nx * ny * nz < 2 ^ 31 -> 1 <= P < 2 ^ 31 -> forall G m r,
  ghost_list (ghost_norm_e nx ny nz) G -> div_e_err_run V A mt k nx ny nz contract P G m r ->
  exists B, with_ghosts G m B /\ gauss_e V nx ny nz A mt k B r.
Proof. exact div_e_err_spec. Qed.
Print Assumptions C09_compute_div_e_err.

Theorem C09_compute_rhob : forall V A mt k nx ny nz (contract : bool) P,
  1 <= nx -> 1 <= ny -> 1 <= nz -> nx * ny * nz < 2 ^ 31 -> 1 <= P < 2 ^ 31 -> forall G m r,
  ghost_list (ghost_norm_e nx ny nz) G -> rhob_run V A mt k nx ny nz contract P G m r ->
  exists B, with_ghosts G m B /\ bound_charge V nx ny nz A mt k B r.
Proof. exact rhob_spec. Qed.
Print Assumptions C09_compute_rhob.

Theorem C09_clean_div_e : forall V A mt k nx ny nz (contract : bool) P,
  1 <= nx -> 1 <= ny -> 1 <= nz -> nx * ny * nz < 2 ^ 31 -> 1 <= P < 2 ^ 31 -> forall m r,
  clean_div_e_run V A mt k nx ny nz contract P m r -> marder_e V nx ny nz A mt k m r.
Proof. exact clean_div_e_spec. Qed.
Print Assumptions C09_clean_div_e.

Theorem C09_compute_div_b_err : forall V A mt k nx ny nz (contract : bool) P,
  1 <= nx -> 1 <= ny -> 1 <= nz -> nx * ny * nz < 2 ^ 31 -> 1 <= P < 2 ^ 31 -> forall m r,
  div_b_err_run V A mt k nx ny nz contract P m r -> gauss_b V nx ny nz A k m r.
Proof. exact div_b_err_spec. Qed.
Print Assumptions C09_compute_div_b_err.

Theorem C09_clean_div_b : forall V A mt k nx ny nz (contract : bool) P,
  1 <= nx -> 1 <= ny -> 1 <= nz -> nx * ny * nz < 2 ^ 31 -> 1 <= P < 2 ^ 31 -> forall G m r,
  ghost_list (ghost_div_b nx ny nz) G -> clean_div_b_run V A mt k nx ny nz contract P G m r ->
  exists B, with_ghosts G m B /\ marder_b V nx ny nz A k B r.
Proof. exact clean_div_b_spec. Qed.
Print Assumptions C09_clean_div_b.

(* No location is stored to twice. *)
Theorem C09_no_location_twice : forall V A mt k nx ny nz (contract : bool) P,
  1 <= nx -> 1 <= ny -> 1 <= nz -> nx * ny * nz < 2 ^ 31 -> 1 <= P < 2 ^ 31 -> forall F,
  let once ops := NoDup (touched V A mt k ops F) in
  once (advance_b_pipes V nx ny nz contract P ++ advance_b_host V nx ny nz) /\
  once (clean_e_pipes V nx ny nz contract P ++ clean_e_leftover V nx ny nz) /\
  once (div_b_pipes V nx ny nz contract P) /\
  once ((advance_e_pipes V nx ny nz contract P UPDATE_EX UPDATE_EY UPDATE_EZ ++
         advance_e_leftover V nx ny nz UPDATE_EX UPDATE_EY UPDATE_EZ) ++
        advance_e_exterior V nx ny nz UPDATE_EX UPDATE_EY UPDATE_EZ) /\
  once ((advance_e_pipes V nx ny nz contract P CURL_EX CURL_EY CURL_EZ ++
         advance_e_leftover V nx ny nz CURL_EX CURL_EY CURL_EZ) ++
        advance_e_exterior V nx ny nz CURL_EX CURL_EY CURL_EZ) /\
  once (div_e_pipes V nx ny nz contract P UPDATE_DERR_E ++ div_e_exterior V nx ny nz UPDATE_DERR_E) /\
  once (div_e_pipes V nx ny nz contract P UPDATE_RHOB ++ div_e_exterior V nx ny nz UPDATE_RHOB) /\
  once ((clean_b_pipes V nx ny nz contract P ++ clean_b_leftover V nx ny nz) ++ clean_b_exterior V nx ny nz).
Proof.
  intros V A mt k nx ny nz contract P Hx Hy Hz Hn HP F once.
  repeat split; [apply advance_b_once|apply clean_div_e_once|apply div_b_err_once|apply advance_e_once|
    apply curl_b_once|apply div_e_err_once|apply rhob_once|apply clean_div_b_once]; assumption.
Qed.
Print Assumptions C09_no_location_twice.

(* The result depends neither on the number of pipelines nor on the schedule. *)
Theorem C09_deterministic : forall V nx ny nz A mt k (c1 c2 : bool) P1 P2,
  1 <= nx -> 1 <= ny -> 1 <= nz -> nx * ny * nz < 2 ^ 31 -> 1 <= P1 < 2 ^ 31 -> 1 <= P2 < 2 ^ 31 ->
  forall G m,
  let same (run : bool -> Z -> (floc -> V) -> Prop) :=
    forall r r', run c1 P1 r -> run c2 P2 r' -> forall l, r l = r' l in
  same (fun c P => advance_b_run V A mt k nx ny nz c P m) /\
  same (fun c P => clean_div_e_run V A mt k nx ny nz c P m) /\
  same (fun c P => div_b_err_run V A mt k nx ny nz c P m) /\
  (ghost_list (ghost_tang_b nx ny nz) G -> same (fun c P => advance_e_run V A mt k nx ny nz c P G m)) /\
  (ghost_list (ghost_tang_b nx ny nz) G -> same (fun c P => curl_b_run V A mt k nx ny nz c P G m)) /\
  (ghost_list (ghost_norm_e nx ny nz) G -> same (fun c P => div_e_err_run V A mt k nx ny nz c P G m)) /\
  (ghost_list (ghost_norm_e nx ny nz) G -> same (fun c P => rhob_run V A mt k nx ny nz c P G m)) /\
  (ghost_list (ghost_div_b nx ny nz) G -> same (fun c P => clean_div_b_run V A mt k nx ny nz c P G m)).
Proof.
  intros V nx ny nz A mt k c1 c2 P1 P2 Hx Hy Hz Hn HP1 HP2 G m same; unfold same; cbv beta.
  split; [|split; [|split; [|split; [|split; [|split; [|split]]]]]].
  - intros r r'. apply (advance_b_det V nx ny nz A mt k c1 c2 P1 P2); assumption.
  - intros r r'. apply (clean_div_e_det V nx ny nz A mt k c1 c2 P1 P2); assumption.
  - intros r r'. apply (div_b_err_det V nx ny nz A mt k c1 c2 P1 P2); assumption.
  - intros HG r r'. apply (advance_e_det V nx ny nz A mt k c1 c2 P1 P2); assumption.
  - intros HG r r'. apply (curl_b_det V nx ny nz A mt k c1 c2 P1 P2); assumption.
  - intros HG r r'. apply (div_e_err_det V nx ny nz A mt k c1 c2 P1 P2); assumption.
  - intros HG r r'. apply (rhob_det V nx ny nz A mt k c1 c2 P1 P2); assumption.
  - intros HG r r'. apply (clean_div_b_det V nx ny nz A mt k c1 c2 P1 P2); assumption.
Qed.
Print Assumptions C09_deterministic.

(* Runs exist from every memory. *)
Theorem C09_runs_exist : forall V A mt k nx ny nz (contract : bool) P G m,
  (exists r, advance_b_run V A mt k nx ny nz contract P m r) /\
  (exists r, clean_div_e_run V A mt k nx ny nz contract P m r) /\
  (exists r, div_b_err_run V A mt k nx ny nz contract P m r) /\
  (exists r, advance_e_run V A mt k nx ny nz contract P G m r) /\
  (exists r, curl_b_run V A mt k nx ny nz contract P G m r) /\
  (exists r, div_e_err_run V A mt k nx ny nz contract P G m r) /\
  (exists r, rhob_run V A mt k nx ny nz contract P G m r) /\
  (exists r, clean_div_b_run V A mt k nx ny nz contract P G m r).
Proof. exact runs_exist. Qed.
Print Assumptions C09_runs_exist.

(* A run over the integers on a 2x3x2 mesh with three pipelines. *)
Definition ZA : arith Z := mk_arith Z Z.add Z.sub Z.mul.
Definition Zmats : mats Z :=
  mk_mats Z (fun _ => 0) (fun _ => 0) (fun _ => 0) (fun _ => 0) (fun _ => 0) (fun _ => 0) (fun _ => 0)
    (fun _ => mk_mcoef Z 1 1 1 1 1 1 1 1 1 1 1 1 1).
Definition Zfield (l : floc) : Z :=
  match fst l with Ex => 3 * snd l | Ey => snd l * snd l | Ez => 7 - snd l | Cbx => 5 | Cby => 2 * snd l | _ => 1 end.
Example C09_example : exists r,
  advance_b_run Z ZA Zmats (mk_coefs Z 2 3 5 1 0) 2 3 2 false 3 Zfield r /\
  r (Cbz, voxel 2 3 2 1 2 3) = -241 /\ r (Cbz, voxel 2 3 2 3 2 3) = 1.
Proof. eexists. split; [apply free_exists|]. split; vm_compute; reflexivity. Qed.
(* Ghost values that meet ghost_list. *)
Example C09_ghost_example : ghost_list (ghost_tang_b 2 3 2) [((Cby, voxel 2 3 2 0 1 1), 4%Z); ((Cbx, voxel 2 3 2 1 1 0), 9)].
Proof.
  split.
  - repeat (constructor; [cbn; intuition discriminate|]). constructor.
  - intros c v x [H|[H|[]]]; injection H as <- <- <-.
    + left. split; [|tauto]. exists 0, 1, 1. cbn. repeat split; try reflexivity; try (intro; discriminate). tauto.
    + right; right. split; [|tauto]. exists 1, 1, 0. cbn. repeat split; try reflexivity; try (intro; discriminate). tauto.
Qed.

(* ---- C10 ---- *)
(* One advance of E in lossless materials changes div D at every interior node by
   minus dt/eps0 times the divergence of the current, and minus the radiation damping
   coefficient times the divergence of the old tca field. *)
Theorem C10_gauss_step : forall nx ny nz (contract : bool) P,
  1 <= nx -> 1 <= ny -> 1 <= nz -> nx * ny * nz < 2 ^ 31 -> 1 <= P < 2 ^ 31 ->
  forall g bc ws mt dmp G m r1 r x y z,
  lossless g mt -> ghost_list (ghost_tang_b nx ny nz) G ->
  advance_e_run R RA mt (advance_e_coefs g dmp) nx ny nz contract P G m r1 ->
  adjust_tang_e R 0%R nx ny nz bc ws r1 = Some r ->
  1 < x <= nx -> 1 < y <= ny -> 1 < z <= nz ->
  (div_d R nx ny nz RA mt (div_coefs g) r x y z =
   div_d R nx ny nz RA mt (div_coefs g) m x y z
   - dt g / eps0 g * div_node nx ny nz (div_coefs g) m Jfx Jfy Jfz x y z
   - dmp * div_node nx ny nz (div_coefs g) m Tcax Tcay Tcaz x y z)%R /\
  (div_node nx ny nz (div_coefs g) r Tcax Tcay Tcaz x y z =
   - dmp * div_node nx ny nz (div_coefs g) m Tcax Tcay Tcaz x y z)%R.
Proof. exact gauss_step. Qed.
Print Assumptions C10_gauss_step.

(* If the free charge obeys the discrete continuity equation with that current, the
   divergence error computed before the advance is the one computed after it. *)
Theorem C10_gauss_error_carried : forall nx ny nz (contract : bool) P,
  1 <= nx -> 1 <= ny -> 1 <= nz -> nx * ny * nz < 2 ^ 31 -> 1 <= P < 2 ^ 31 ->
  forall g bc ws mt dmp G0 G G1 m d0 d0' r1 r m1 d1 d1' x y z,
  lossless g mt ->
  ghost_list (ghost_norm_e nx ny nz) G0 -> ghost_list (ghost_tang_b nx ny nz) G ->
  ghost_list (ghost_norm_e nx ny nz) G1 ->
  div_e_err_run R RA mt (div_coefs g) nx ny nz contract P G0 m d0 ->
  adjust_div_e R 0%R nx ny nz bc ws d0 = Some d0' ->
  advance_e_run R RA mt (advance_e_coefs g dmp) nx ny nz contract P G m r1 ->
  adjust_tang_e R 0%R nx ny nz bc ws r1 = Some r ->
  (forall c v, c = Ex \/ c = Ey \/ c = Ez \/ c = Rhob -> m1 (c, v) = r (c, v)) ->
  (m1 (Rhof, voxel nx ny nz x y z) - m (Rhof, voxel nx ny nz x y z) =
     - dt g * div_node nx ny nz (div_coefs g) m Jfx Jfy Jfz x y z)%R ->
  div_node nx ny nz (div_coefs g) m Tcax Tcay Tcaz x y z = 0%R ->
  div_e_err_run R RA mt (div_coefs g) nx ny nz contract P G1 m1 d1 ->
  adjust_div_e R 0%R nx ny nz bc ws d1 = Some d1' ->
  eps0 g <> 0%R ->
  1 < x <= nx -> 1 < y <= ny -> 1 < z <= nz ->
  d1' (DivE, voxel nx ny nz x y z) = d0' (DivE, voxel nx ny nz x y z).
Proof. exact gauss_error_carried. Qed.
Print Assumptions C10_gauss_error_carried.

(* A vacuum material is lossless. *)
Example C10_lossless_example :
  lossless (mk_rgrid 4 4 4 2 2 2 1 (1/8) 1)
    (mk_mats R (fun _ => 0) (fun _ => 0) (fun _ => 0) (fun _ => 0) (fun _ => 0) (fun _ => 0) (fun _ => 0)
       (fun _ => mat_coef (mk_rgrid 4 4 4 2 2 2 1 (1/8) 1) (mk_material 1 1 1 1 1 1 0 0 0))).
Proof.
  exists (fun _ => mk_material 1 1 1 1 1 1 0 0 0). intros i. cbn. repeat split; lra.
Qed.

(* ---- C47 ---- *)
(* Every node contributes once, with weight (in eighths) halved per mesh face; the
   weights add up to the number of cells. *)
Theorem C47_rms_div_e_weights : forall nx ny nz (contract : bool) P,
  1 <= nx -> 1 <= ny -> 1 <= nz -> nx * ny * nz < 2 ^ 31 -> 1 <= P < 2 ^ 31 ->
  NoDup (map snd (rms_e_terms nx ny nz contract P)) /\
  (forall v w, In (w, v) (rms_e_terms nx ny nz contract P) <->
     exists x y z, 1 <= x <= nx + 1 /\ 1 <= y <= ny + 1 /\ 1 <= z <= nz + 1 /\
       v = voxel nx ny nz x y z /\ w = node_weight nx ny nz x y z) /\
  fold_right Z.add 0 (map fst (rms_e_terms nx ny nz contract P)) = 8 * (nx * ny * nz).
Proof.
  intros nx ny nz contract P Hx Hy Hz Hn HP. repeat split.
  - apply rms_e_nodup; assumption.
  - apply rms_e_once; assumption.
  - apply rms_e_once; assumption.
  - apply rms_e_total; assumption.
Qed.
Print Assumptions C47_rms_div_e_weights.

(* The sum (in exact arithmetic) does not depend on the number of pipelines. *)
Theorem C47_rms_sum_deterministic : forall nx ny nz (c1 c2 : bool) P1 P2 d,
  1 <= nx -> 1 <= ny -> 1 <= nz -> nx * ny * nz < 2 ^ 31 -> 1 <= P1 < 2 ^ 31 -> 1 <= P2 < 2 ^ 31 ->
  rms_sum (rms_e_terms nx ny nz c1 P1) d = rms_sum (rms_e_terms nx ny nz c2 P2) d.
Proof.
  intros nx ny nz c1 c2 P1 P2 d Hx Hy Hz Hn HP1 HP2. apply rms_sum_perm.
  etransitivity; [symmetry; apply terms_perm; assumption|apply terms_perm; assumption].
Qed.
Print Assumptions C47_rms_sum_deterministic.

(* The magnetic one counts every cell once with full weight. *)
Theorem C47_rms_div_b_weights : forall nx ny nz (contract : bool) P,
  1 <= nx -> 1 <= ny -> 1 <= nz -> nx * ny * nz < 2 ^ 31 -> 1 <= P < 2 ^ 31 ->
  NoDup (map snd (rms_b_terms nx ny nz contract P)) /\
  (forall v w, In (w, v) (rms_b_terms nx ny nz contract P) <->
     w = 8 /\ exists x y z, 1 <= x <= nx /\ 1 <= y <= ny /\ 1 <= z <= nz /\ v = voxel nx ny nz x y z).
Proof.
  intros nx ny nz contract P Hx Hy Hz Hn HP. split; [apply rms_b_nodup; assumption|].
  intros v w. apply rms_b_once; assumption.
Qed.
Print Assumptions C47_rms_div_b_weights.

Example C47_example : length (rms_e_terms 2 1 3 false 2) = 24%nat /\
  fold_right Z.add 0 (map fst (rms_e_terms 2 1 3 false 2)) = 48 /\ In (4, voxel 2 1 3 2 1 2) (rms_e_terms 2 1 3 false 2).
Proof. vm_compute. repeat split; tauto. Qed.

(* ---- C48 ---- *)
(* One cleaning pass changes div B of a cell by a discrete Laplacian of the error
   field ... *)
Theorem C48_diffusion_step : forall nx ny nz (contract : bool) P,
  1 <= nx -> 1 <= ny -> 1 <= nz -> nx * ny * nz < 2 ^ 31 -> 1 <= P < 2 ^ 31 ->
  forall g bc ws mt G m r1 r x y z,
  ghost_list (ghost_div_b nx ny nz) G ->
  clean_div_b_run R RA mt (marder_coefs g) nx ny nz contract P G m r1 ->
  adjust_norm_b R 0%R nx ny nz bc ws r1 = Some r ->
  1 <= x <= nx -> 1 <= y <= ny -> 1 <= z <= nz ->
  (x = 1 -> bc XM <> symmetric_fields) -> (x = nx -> bc XP <> symmetric_fields) ->
  (y = 1 -> bc YM <> symmetric_fields) -> (y = ny -> bc YP <> symmetric_fields) ->
  (z = 1 -> bc ZM <> symmetric_fields) -> (z = nz -> bc ZP <> symmetric_fields) ->
  exists B, with_ghosts G m B /\
  (div_b R nx ny nz RA (div_coefs g) r x y z = div_b R nx ny nz RA (div_coefs g) m x y z +
    lap (px (div_coefs g) * px (marder_coefs g)) (py (div_coefs g) * py (marder_coefs g))
        (pz (div_coefs g) * pz (marder_coefs g)) (at_ R nx ny nz B DivB) x y z)%R.
Proof. exact marder_step. Qed.
Print Assumptions C48_diffusion_step.

(* ... with nonnegative coefficients that add up to 0.3888889 < 1/2 ... *)
Theorem C48_stable_coefficients : forall g,
  rdx g <> 0%R -> rdy g <> 0%R -> rdz g <> 0%R -> 1 < gnx g \/ 1 < gny g \/ 1 < gnz g ->
  let kd := div_coefs g in let km := marder_coefs g in
  (0 <= px kd * px km /\ 0 <= py kd * py km /\ 0 <= pz kd * pz km /\
   px kd * px km + py kd * py km + pz kd * pz km = 3888889 / 10000000)%R.
Proof. exact marder_weights. Qed.
Print Assumptions C48_stable_coefficients.

(* ... so that the pass never raises the largest error. *)
Theorem C48_error_does_not_grow : forall nx ny nz (contract : bool) P,
  1 <= nx -> 1 <= ny -> 1 <= nz -> nx * ny * nz < 2 ^ 31 -> 1 <= P < 2 ^ 31 ->
  forall g bc ws mt G m r1 r M x y z,
  rdx g <> 0%R -> rdy g <> 0%R -> rdz g <> 0%R -> 1 < gnx g \/ 1 < gny g \/ 1 < gnz g ->
  ghost_list (ghost_div_b nx ny nz) G ->
  (* div_b_err is the error of m, ghosts included bounded by M *)
  (forall x y z, 1 <= x <= nx -> 1 <= y <= ny -> 1 <= z <= nz ->
     m (DivB, voxel nx ny nz x y z) = div_b R nx ny nz RA (div_coefs g) m x y z) ->
  (forall l w, In (l, w) G -> (Rabs w <= M)%R) ->
  (forall x y z, 1 <= x <= nx /\ 1 <= y <= ny /\ 0 <= z <= nz + 1 \/
                 1 <= x <= nx /\ 0 <= y <= ny + 1 /\ 1 <= z <= nz \/
                 0 <= x <= nx + 1 /\ 1 <= y <= ny /\ 1 <= z <= nz ->
     (Rabs (m (DivB, voxel nx ny nz x y z)) <= M)%R) ->
  clean_div_b_run R RA mt (marder_coefs g) nx ny nz contract P G m r1 ->
  adjust_norm_b R 0%R nx ny nz bc ws r1 = Some r ->
  1 <= x <= nx -> 1 <= y <= ny -> 1 <= z <= nz ->
  (x = 1 -> bc XM <> symmetric_fields) -> (x = nx -> bc XP <> symmetric_fields) ->
  (y = 1 -> bc YM <> symmetric_fields) -> (y = ny -> bc YP <> symmetric_fields) ->
  (z = 1 -> bc ZM <> symmetric_fields) -> (z = nz -> bc ZP <> symmetric_fields) ->
  (Rabs (div_b R nx ny nz RA (div_coefs g) r x y z) <= M)%R.
Proof. exact marder_contracts. Qed.
Print Assumptions C48_error_does_not_grow.

(* A field without error is left as it is. *)
Theorem C48_clean_field_unchanged : forall nx ny nz (contract : bool) P,
  1 <= nx -> 1 <= ny -> 1 <= nz -> nx * ny * nz < 2 ^ 31 -> 1 <= P < 2 ^ 31 ->
  forall g bc ws mt G m r1 r x y z c,
  ghost_list (ghost_div_b nx ny nz) G ->
  clean_div_b_run R RA mt (marder_coefs g) nx ny nz contract P G m r1 ->
  adjust_norm_b R 0%R nx ny nz bc ws r1 = Some r ->
  (forall l v, In (l, v) G -> v = 0%R) -> (forall v, m (DivB, v) = 0%R) ->
  bc XM <> symmetric_fields -> bc XP <> symmetric_fields -> bc YM <> symmetric_fields ->
  bc YP <> symmetric_fields -> bc ZM <> symmetric_fields -> bc ZP <> symmetric_fields ->
  c = Cbx \/ c = Cby \/ c = Cbz ->
  0 <= x <= nx + 1 -> 0 <= y <= ny + 1 -> 0 <= z <= nz + 1 ->
  r (c, voxel nx ny nz x y z) = m (c, voxel nx ny nz x y z).
Proof. exact marder_fixed. Qed.
Print Assumptions C48_clean_field_unchanged.

(* On a mesh of a single cell the single precision coefficients are NaN, and so is
   every field value the pass writes. *)
Theorem C48_single_cell_refuted : forall rx ry rz c : b32, is_finite_strict c = true ->
  let '(px, py, pz) := marder_coefs_f 1 1 1 rx ry rz c in
  is_nan px = true /\ is_nan py = true /\ is_nan pz = true /\
  (forall b d : b32, is_nan (f_add b (f_mul px d)) = true).
Proof. exact marder_nan. Qed.
Print Assumptions C48_single_cell_refuted.

Example C48_example :
  (let '(px, py, pz) := marder_coefs_f 2 1 1 (f_of_Z 1) (f_of_Z 1) (f_of_Z 1) (f_div (f_of_Z 7) (f_of_Z 18)) in
   (B2SF px, B2SF py, B2SF pz)) =
  (B2SF (f_div (f_of_Z 7) (f_of_Z 18)), S754_zero false, S754_zero false) /\
  alphadt (mk_rgrid 2 1 1 1 1 1 1 1 1) = (3888889 / 10000000)%R.
Proof.
  split; [vm_compute; reflexivity|]. unfold alphadt, if_thick. cbn. field.
Qed.

(* ---- C49 ---- *)
Theorem C49_bounds : forall g sigma eps,
  (0 <= sigma)%R -> (0 < eps)%R -> (0 < eps0 g)%R -> (0 <= dt g)%R ->
  (0 < decay_of (mat_a g sigma eps) <= 1 /\ 0 < drive_of (mat_a g sigma eps) eps <= 1 / eps)%R.
Proof.
  intros g sigma eps Hs He He0 Hdt. pose proof (mat_a_nonneg g sigma eps Hs He He0 Hdt) as Ha.
  split; [apply decay_bounds; exact Ha|]. destruct (drive_bounds _ _ Ha He) as [[H1 H2] _].
  split; [|exact H2]. apply Rlt_le_trans with (2 := H1). apply Rdiv_lt_0_compat; [lra|].
  apply Rmult_lt_0_compat; lra.
Qed.
Print Assumptions C49_bounds.

(* decay E0 + drive S is the value after dt of the solution of
   eps dE/dt = S/dt - (sigma/eps0) E, E(0) = E0, for every such solution ... *)
Theorem C49_exact_relaxation : forall g sigma eps S y E0,
  (0 < dt g)%R -> (eps <> 0)%R -> (eps0 g <> 0)%R -> y 0%R = E0 ->
  (forall t, (0 <= t <= dt g)%R ->
     derivable_pt_lim y t (S / (dt g * eps) - sigma / (eps * eps0 g) * y t)%R) ->
  (y (dt g) = decay_of (mat_a g sigma eps) * E0 + drive_of (mat_a g sigma eps) eps * S)%R.
Proof. exact relaxation. Qed.
Print Assumptions C49_exact_relaxation.

(* ... and there is one. *)
Theorem C49_relaxation_exists : forall g sigma eps S E0,
  (0 < dt g)%R -> (eps <> 0)%R -> (eps0 g <> 0)%R ->
  exists y, y 0%R = E0 /\ forall t,
    derivable_pt_lim y t (S / (dt g * eps) - sigma / (eps * eps0 g) * y t)%R.
Proof. exact relaxation_exists. Qed.
Print Assumptions C49_relaxation_exists.

(* The whole update of E with materials ml: each component ends at the value after dt of the solution of
     eps_x dE_x/dt = c (curl (cB/mu))_x - J_x/eps0 - (sigma_x/eps0) E_x
   with mu, eps and sigma of the materials of the faces and the edge, along every axis (with damping dmp the curl is (1+dmp) times the new one less dmp times the stored old one). *)
Theorem C49_ampere : forall nx ny nz (contract : bool) P g mt (ml : Z -> material) dmp G m r,
  1 <= nx -> 1 <= ny -> 1 <= nz -> nx * ny * nz < 2 ^ 31 -> 1 <= P < 2 ^ 31 -> (0 < dt g)%R -> (eps0 g <> 0)%R ->
  (forall i, mtab mt i = mat_coef g (ml i)) -> (forall i, m_epsx (ml i) <> 0%R /\ m_epsy (ml i) <> 0%R /\ m_epsz (ml i) <> 0%R) ->
  ghost_list (ghost_tang_b nx ny nz) G -> advance_e_run R RA mt (advance_e_coefs g dmp) nx ny nz contract P G m r ->
  exists B, with_ghosts G m B /\
  let v x y z := voxel nx ny nz x y z in
  let hx x y z := (B (Cbx, v x y z) / m_mux (ml (fmatx mt (v x y z))))%R in
  let hy x y z := (B (Cby, v x y z) / m_muy (ml (fmaty mt (v x y z))))%R in
  let hz x y z := (B (Cbz, v x y z) / m_muz (ml (fmatz mt (v x y z))))%R in
  let kx := ((1 + dmp) * cvac g * dt g * if_thick (gnx g) (rdx g))%R in
  let ky := ((1 + dmp) * cvac g * dt g * if_thick (gny g) (rdy g))%R in
  let kz := ((1 + dmp) * cvac g * dt g * if_thick (gnz g) (rdz g))%R in
  forall x y z Y,
  let solves e tc j s eps S0 := 
    Y 0%R = B (e, v x y z) /\ forall t, (0 <= t <= dt g)%R ->
      derivable_pt_lim Y t ((S0 - dmp * B (tc, v x y z) - dt g / eps0 g * B (j, v x y z)) / (dt g * eps) - s / (eps * eps0 g) * Y t)%R in
  (1 <= x <= nx -> 1 <= y <= ny + 1 -> 1 <= z <= nz + 1 ->
     let i := ml (ematx mt (v x y z)) in
     solves Ex Tcax Jfx (m_sigmax i) (m_epsx i) (ky * (hz x y z - hz x (y - 1)%Z z) - kz * (hy x y z - hy x y (z - 1)%Z))%R -> r (Ex, v x y z) = Y (dt g)) /\
  (1 <= x <= nx + 1 -> 1 <= y <= ny -> 1 <= z <= nz + 1 ->
     let i := ml (ematy mt (v x y z)) in
     solves Ey Tcay Jfy (m_sigmay i) (m_epsy i) (kz * (hx x y z - hx x y (z - 1)%Z) - kx * (hz x y z - hz (x - 1)%Z y z))%R -> r (Ey, v x y z) = Y (dt g)) /\
  (1 <= x <= nx + 1 -> 1 <= y <= ny + 1 -> 1 <= z <= nz ->
     let i := ml (ematz mt (v x y z)) in
     solves Ez Tcaz Jfz (m_sigmaz i) (m_epsz i) (kx * (hy x y z - hy (x - 1)%Z y z) - ky * (hx x y z - hx x (y - 1)%Z z))%R -> r (Ez, v x y z) = Y (dt g)).
Proof.
  intros nx ny nz contract P g mt ml dmp G m r Hx Hy Hz Hn HP Hdt He0 Hml Heps HG Hr.
  apply (advance_e_spec R RA mt _ nx ny nz contract P Hx Hy Hz Hn HP) in Hr; [|exact HG].
  destruct Hr as (B & HB & _ & _ & _ & _ & [Hex _] & [Hey _] & [Hez _]). exists B. split; [exact HB|]. cbv zeta. intros x y z Y.
  split; [|split]; intros X1 Y1 Z1 (E0 & D).
  - rewrite (C49_exact_relaxation g (m_sigmax (ml (ematx mt (voxel nx ny nz x y z)))) (m_epsx (ml (ematx mt (voxel nx ny nz x y z)))) _ Y _ Hdt (proj1 (Heps _)) He0 E0 D), Hex by lia.
    unfold new_e, new_tca, FieldSpec.at_, mat, curl_h_x, FieldSpec.hz, FieldSpec.hy, FieldSpec.at_, mat. rewrite !Hml. unfold mat_coef, advance_e_coefs. cbn [RA a_add a_sub a_mul decayx drivex rmuy rmuz px py pz cj damp].
    rewrite !if_thick_scale. unfold Rdiv. ring.
  - rewrite (C49_exact_relaxation g (m_sigmay (ml (ematy mt (voxel nx ny nz x y z)))) (m_epsy (ml (ematy mt (voxel nx ny nz x y z)))) _ Y _ Hdt (proj1 (proj2 (Heps _))) He0 E0 D), Hey by lia.
    unfold new_e, new_tca, FieldSpec.at_, mat, curl_h_y, FieldSpec.hz, FieldSpec.hx, FieldSpec.at_, mat. rewrite !Hml. unfold mat_coef, advance_e_coefs. cbn [RA a_add a_sub a_mul decayy drivey rmux rmuz px py pz cj damp].
    rewrite !if_thick_scale. unfold Rdiv. ring.
  - rewrite (C49_exact_relaxation g (m_sigmaz (ml (ematz mt (voxel nx ny nz x y z)))) (m_epsz (ml (ematz mt (voxel nx ny nz x y z)))) _ Y _ Hdt (proj2 (proj2 (Heps _))) He0 E0 D), Hez by lia.
    unfold new_e, new_tca, FieldSpec.at_, mat, curl_h_z, FieldSpec.hx, FieldSpec.hy, FieldSpec.at_, mat. rewrite !Hml. unfold mat_coef, advance_e_coefs. cbn [RA a_add a_sub a_mul decayz drivez rmux rmuy px py pz cj damp].
    rewrite !if_thick_scale. unfold Rdiv. ring.
Qed.
Print Assumptions C49_ampere.

Theorem C49_limits : forall eps d, (0 < eps)%R -> (0 < d)%R ->
  (exists h, (0 < h)%R /\ forall a, (0 <= a < h)%R -> (Rabs (drive_of a eps - 1 / eps) < d)%R) /\
  (exists h, (0 < h)%R /\ forall a, (h < a)%R -> (Rabs (drive_of a eps) < d)%R /\ (0 < decay_of a < d)%R).
Proof. intros eps d He Hd. split; [apply drive_limit_zero|apply drive_limit_inf]; assumption. Qed.
Print Assumptions C49_limits.

(* With a single material (id 0), runs of the vacuum kernels are runs of the general
   kernels. *)
Theorem C49_vacuum_same : forall mt k, single mt -> forall nx ny nz (contract : bool) P G m r,
  (vac_advance_e_run k (mtab mt 0) nx ny nz contract P G m r <-> advance_e_run R RA mt k nx ny nz contract P G m r) /\
  (vac_curl_b_run k (mtab mt 0) nx ny nz contract P G m r <-> curl_b_run R RA mt k nx ny nz contract P G m r) /\
  (vac_div_e_err_run k (mtab mt 0) nx ny nz contract P G m r <-> div_e_err_run R RA mt k nx ny nz contract P G m r) /\
  (vac_rhob_run k (mtab mt 0) nx ny nz contract P G m r <-> rhob_run R RA mt k nx ny nz contract P G m r) /\
  (vac_clean_div_e_run k (mtab mt 0) nx ny nz contract P m r <-> clean_div_e_run R RA mt k nx ny nz contract P m r).
Proof.
  intros mt k Hs nx ny nz contract P G m r.
  split; [apply vac_advance_e; exact Hs|]. split; [apply vac_curl_b; exact Hs|].
  split; [apply vac_div_e_err; exact Hs|]. split; [apply vac_rhob; exact Hs|apply vac_clean_div_e; exact Hs].
Qed.
Print Assumptions C49_vacuum_same.

Example C49_example : decay_of (mat_a (mk_rgrid 1 1 1 1 1 1 1 (1/2) 1) 4 2) = exp (-1) /\
  single (mk_mats R (fun _ => 0) (fun _ => 0) (fun _ => 0) (fun _ => 0) (fun _ => 0) (fun _ => 0) (fun _ => 0)
       (fun _ => mat_coef (mk_rgrid 1 1 1 1 1 1 1 (1/2) 1) (mk_material 2 2 2 1 1 1 4 4 4))).
Proof.
  split; [unfold decay_of, mat_a; cbn; f_equal; field|]. intros v. cbn. tauto.
Qed.
