(* C78: the time step a deck takes from courant_length, and the stability of the field update with it. *)
From Coq Require Import Reals ZArith List Bool Lia ZifyBool Lra.
From Flocq Require Import Core IEEE754.BinarySingleNaN.
From Verif Require Import FloatModel FloatProofs ConvProofs InjectModel InjectProofs.
From Verif Require Import SortModel SortProofs DistributeModel VoxelModel GridModel SweepModel FieldModel FieldBoundaryModel
  RemoteModel RemoteSpec RemoteProofs DecompSpec RemoteSum DecompSteps PropertiesDecomp LocalModel LocalSpec WallSpec WallProofs PropertiesWall
  ParticleSpec EnergyModel EnergySpec YeeCalculus EnergySums EnergyProofs PropertiesEnergy.
From Verif Require Import CourantModel CourantSpec CourantProofs.
Import ListNotations.
Open Scope Z_scope.
Ltac Zify.zify_post_hook ::= idtac.

(* courant_length is 1/sqrt(sum of (n/l)^2 over the axes with more than one cell), to 40 units of 2^-53. *)
Theorem C78_courant_length : forall gx gy gz lx ly lz Lx Ly Lz, axis_ok gx lx Lx -> axis_ok gy ly Ly -> axis_ok gz lz Lz -> 1 < gx \/ 1 < gy \/ 1 < gz ->
  exists r, fin64 (courant_length lx ly lz (d_of_Z gx) (d_of_Z gy) (d_of_Z gz)) r /\
    ((1 - 40 * bpow radix2 (-53)) * sqrt (/ total2 gx gy gz Lx Ly Lz) <= r <= (1 + 40 * bpow radix2 (-53)) * sqrt (/ total2 gx gy gz Lx Ly Lz))%R.
Proof. exact length_ok. Qed.
Print Assumptions C78_courant_length.

(* A deck that takes the fraction cfl <= 1 - 2^-19 of it divided by c as its time step: whatever the roundings of c, of the step, of
   the inverse cell sizes and of the products to float, the coefficients of advance_e have a sum of squares less than 1, and
   those of the half advances of B are exactly half of them.  nx, ny, nz are the cells of the rank, at most those of
   the box. *)
Theorem C78_coefficients : forall gx gy gz lx ly lz Lx Ly Lz cfl f c C nx ny nz damp half,
  axis_ok gx lx Lx -> axis_ok gy ly Ly -> axis_ok gz lz Lz -> 1 < gx \/ 1 < gy \/ 1 < gz ->
  fin64 cfl f -> (bpow radix2 (-10) <= f <= 1 - bpow radix2 (-19))%R -> fin64 c C -> (bpow radix2 (-40) <= C <= bpow radix2 40)%R ->
  1 <= nx <= gx -> 1 <= ny <= gy -> 1 <= nz <= gz -> fin32 damp 0 -> fin32 half (/ 2) ->
  let cvac := units_cvac c in let dt := timestep cfl (courant_length lx ly lz (d_of_Z gx) (d_of_Z gy) (d_of_Z gz)) c in
  exists p q s,
    fin32 (e_coef nx damp cvac dt (inverse_cell gx lx)) p /\ fin32 (e_coef ny damp cvac dt (inverse_cell gy ly)) q /\ fin32 (e_coef nz damp cvac dt (inverse_cell gz lz)) s /\
    fin32 (b_coef nx half cvac dt (inverse_cell gx lx)) (p / 2) /\ fin32 (b_coef ny half cvac dt (inverse_cell gy ly)) (q / 2) /\ fin32 (b_coef nz half cvac dt (inverse_cell gz lz)) (s / 2) /\
    (0 <= p /\ 0 <= q /\ 0 <= s /\ p * p + q * q + s * s < 1)%R.
Proof.
  intros gx gy gz lx ly lz Lx Ly Lz cfl f c C nx ny nz damp half AX AY AZ G Ff Bf Fc BC NX NY NZ FD FH cvac dt.
  destruct (length_ok _ _ _ _ _ _ _ _ _ AX AY AZ G) as (r & Fr & Nr). pose proof (total2_bounds _ _ _ _ _ _ _ _ _ AX AY AZ G) as TB.
  set (Y := sqrt (/ total2 gx gy gz Lx Ly Lz)) in *.
  assert (BY : (bpow radix2 (-41) <= Y <= bpow radix2 40)%R).
  { unfold Y. rewrite <- (sqrt_square (bpow radix2 (-41))), <- (sqrt_square (bpow radix2 40)) by apply bpow_ge_0. rewrite <- !bpow_plus.
    pose proof (pow_inv _ _ _ TB) as TI. split; apply sqrt_le_1_alt; apply TI. }
  assert (B19 : (bpow radix2 (-19) = 32 * bpow radix2 (-24))%R) by (change (-19) with (5 + -24); rewrite bpow_plus; reflexivity).
  pose proof (bpow_gt_0 radix2 (-19)) as P19. pose proof (bpow_gt_0 radix2 (-10)) as P10. pose proof (bpow_gt_0 radix2 (-80)) as P80.
  assert (Bf1 : (bpow radix2 (-10) <= f <= 1)%R) by lra.
  destruct (coef_ok cfl _ c f r C Y Ff Bf1 Fr Nr BY Fc BC gx lx Lx nx damp half AX NX FD FH) as (p & P1 & P2 & P3).
  destruct (coef_ok cfl _ c f r C Y Ff Bf1 Fr Nr BY Fc BC gy ly Ly ny damp half AY NY FD FH) as (q & Q1 & Q2 & Q3).
  destruct (coef_ok cfl _ c f r C Y Ff Bf1 Fr Nr BY Fc BC gz lz Lz nz damp half AZ NZ FD FH) as (s & S1 & S2 & S3).
  exists p, q, s. do 6 (split; [assumption|]). split; [apply P3|]. split; [apply Q3|]. split; [apply S3|].
  apply (coefs_below gx gy gz Lx Ly Lz f p q s); try assumption; try lra; [apply (share2_bound gx lx Lx AX)|apply (share2_bound gy ly Ly AY)|apply (share2_bound gz lz Lz AZ)].
Qed.
Print Assumptions C78_coefficients.

(* With C64: in vacuum (material constants between 1 and 1) and without currents the energy of the fields stays below a fixed multiple of
   its value at the start, for any mesh and any number of steps.  The update is in exact arithmetic, its coefficients are
   the floats of the code. *)
Theorem C78_stable : forall gx gy gz lx ly lz Lx Ly Lz cfl f c C nx ny nz damp half,
  axis_ok gx lx Lx -> axis_ok gy ly Ly -> axis_ok gz lz Lz -> 1 < gx \/ 1 < gy \/ 1 < gz ->
  fin64 cfl f -> (bpow radix2 (-10) <= f <= 1 - bpow radix2 (-19))%R -> fin64 c C -> (bpow radix2 (-40) <= C <= bpow radix2 40)%R ->
  1 <= nx <= gx -> 1 <= ny <= gy -> 1 <= nz <= gz -> fin32 damp 0 -> fin32 half (/ 2) ->
  let cvac := units_cvac c in let dt := timestep cfl (courant_length lx ly lz (d_of_Z gx) (d_of_Z gy) (d_of_Z gz)) c in
  let v (x : b32) : R := B2R32 x in
  let ke j := mk_coefs R (v (e_coef nx damp cvac dt (inverse_cell gx lx))) (v (e_coef ny damp cvac dt (inverse_cell gy ly))) (v (e_coef nz damp cvac dt (inverse_cell gz lz))) j (v damp) in
  let kb j d := mk_coefs R (v (b_coef nx half cvac dt (inverse_cell gx lx))) (v (b_coef ny half cvac dt (inverse_cell gy ly))) (v (b_coef nz half cvac dt (inverse_cell gz lz))) j d in
  exists K, (0 < K)%R /\ forall M gm r n F j j' d, mesh_ok M -> mats_repeat_on M gm -> mirrored M gm -> lossless M gm -> within M gm 1 1 ->
    (forall c, mesh_repeats M (F c)) -> meets_walls M F -> (forall a g, in_mesh_at M (e_ a) g = true -> F (jf a) g = 0%R) ->
    (energy M gm (fold_left (g_step RA (ghost_consts r) M gm) (field_steps (kb j' d) (ke j) n) F) <= K * energy M gm F)%R.
Proof.
  intros gx gy gz lx ly lz Lx Ly Lz cfl f c C nx ny nz damp half AX AY AZ G Ff Bf Fc BC NX NY NZ FD FH cvac dt v ke kb.
  destruct (C78_coefficients gx gy gz lx ly lz Lx Ly Lz cfl f c C nx ny nz damp half AX AY AZ G Ff Bf Fc BC NX NY NZ FD FH) as (p & q & s & [_ E1] & [_ E2] & [_ E3] & [_ E4] & [_ E5] & [_ E6] & _ & _ & _ & D).
  exists (/ (1 - (p * p + q * q + s * s)))%R. split; [apply Rinv_0_lt_compat; lra|]. intros M gm r n F j j' d H1 H2 H3 H4 H5 H6 H7 H8.
  assert (CO : courant2 (ke j) 1 1 = (p * p + q * q + s * s)%R).
  { unfold courant2, ke, v. cbn [px py pz]. fold cvac dt in E1, E2, E3. rewrite E1, E2, E3. field. }
  rewrite Rmult_comm. change (energy M gm F * / (1 - (p * p + q * q + s * s)))%R with (energy M gm F / (1 - (p * p + q * q + s * s)))%R. rewrite <- CO.
  apply C64_stable; try assumption; [|lra]. split.
  - intros []; unfold coef, ke, kb, v; cbn [px py pz]; fold cvac dt in E1, E2, E3, E4, E5, E6; congruence.
  - unfold ke, v. cbn [FieldModel.damp]. exact (proj2 FD).
Qed.
Print Assumptions C78_stable.

(* With the whole Courant length the roundings can put the coefficient above 1: 2 cells over 29, c = 11; and then the fields of that
   mesh pass every bound (C64_courant_needed). *)
Theorem C78_whole_length_refuted : exists lx c p,
  axis_ok 2 lx 29 /\ fin64 c 11 /\
  fin32 (e_coef 2 (f_of_Z 0) (units_cvac c) (timestep (d_of_Z 1) (courant_length lx (d_of_Z 1) (d_of_Z 1) (d_of_Z 2) (d_of_Z 1) (d_of_Z 1)) c) (inverse_cell 2 lx)) p /\ (1 < p)%R /\
  forall r, exists F, energy M2 gma F = 2%R /\ (forall a g, F (jf a) g = 0%R) /\
    forall B, exists n, (B < energy M2 gma (fold_left (g_step RA (ghost_consts r) M2 gma) (field_steps (kx (p / 2)) (kx p) n) F))%R.
Proof.
  exists (d_of_Z 29), (d_of_Z 11), (IZR 8388609 * bpow radix2 (-23))%R.
  assert (P : (1 < IZR 8388609 * bpow radix2 (-23))%R) by (cbn; lra).
  split; [|split; [apply (fin64_Z 11); lia|split; [|split; [exact P|]]]].
  - split; [apply (fin64_Z 29); lia|]. split; [lra|]. split; [lia|]. split.
    + apply Rle_trans with (bpow radix2 (-10)); [apply bpow_le; lia|]. cbn. lra.
    + apply Rle_trans with (bpow radix2 0); [cbn; lra|apply bpow_le; lia].
  - set (x := e_coef _ _ _ _ _). assert (E : B2SF x = SpecFloat.S754_finite false 8388609 (-23)) by (vm_compute; reflexivity).
    destruct x as [sg|sg| |sg m e Hb]; try discriminate E. cbn [B2SF] in E. injection E as -> -> ->. split; reflexivity.
  - intro r. destruct (C64_courant_needed _ r P) as (F & _ & _ & _ & _ & _ & _ & _ & _ & _ & J & E & H). exists F. split; [exact E|]. split; [exact J|exact H].
Qed.
Print Assumptions C78_whole_length_refuted.

(* A mesh of a single cell has no Courant length: the function divides by zero. *)
Theorem C78_single_cell_refuted : exists l, courant_length l l l (d_of_Z 1) (d_of_Z 1) (d_of_Z 1) = B754_infinity false.
Proof. exists (d_of_Z 1). apply B2SF_inj. vm_compute. reflexivity. Qed.
Print Assumptions C78_single_cell_refuted.

(* 4 cells over 1: 1/4; 3 x 4 cells over 3 x 4: 1/sqrt 2; an axis of one cell does not count *)
Example courant_example : courant_length (d_of_Z 1) (d_of_Z 1) (d_of_Z 1) (d_of_Z 4) (d_of_Z 1) (d_of_Z 1) = d_div (d_of_Z 1) (d_of_Z 4) /\
  courant_length (d_of_Z 3) (d_of_Z 4) (d_of_Z 7) (d_of_Z 3) (d_of_Z 4) (d_of_Z 1) = d_sqrt (d_div (d_of_Z 1) (d_of_Z 2)).
Proof. split; apply B2SF_inj; vm_compute; reflexivity. Qed.
(* 98% of it, c = 1: dt = 0.245, coefficient 0.98 in single precision *)
Example coef_example : let dt := timestep (d_div (d_of_Z 98) (d_of_Z 100)) (d_div (d_of_Z 1) (d_of_Z 4)) (d_of_Z 1) in
  e_coef 4 (f_of_Z 0) (units_cvac (d_of_Z 1)) dt (inverse_cell 4 (d_of_Z 1)) = ParticleModel.d2f (d_div (d_of_Z 98) (d_of_Z 100)) /\
  e_coef 1 (f_of_Z 0) (units_cvac (d_of_Z 1)) dt (inverse_cell 4 (d_of_Z 1)) = f_of_Z 0.
Proof. split; apply B2SF_inj; vm_compute; reflexivity. Qed.
