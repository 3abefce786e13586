(* C63: the momentum update of advance_p and of center_p is the Boris scheme. *)
From Coq Require Import Reals Lra Ratan ZArith List Bool.
Import ListNotations.
From Verif Require Import ParticleModel ParticleSpec ParticleProofs ParticleProofs2 KernelProofs PushProofs.
Open Scope R_scope.

(* The interpolated fields at position d of a cell with interpolator f (C46), the relativistic factor of the momentum u, and the half-angle tangent per unit field of the rotation:
   tan to fifth order of a = q |B| / gamma. *)
Definition e_at (f : interp (V := R)) (d : vec R) : vec R :=
  mkv (i_ex f + vy d * i_dexdy f + vz d * i_dexdz f + vy d * vz d * i_d2exdydz f)
      (i_ey f + vz d * i_deydz f + vx d * i_deydx f + vz d * vx d * i_d2eydzdx f)
      (i_ez f + vx d * i_dezdx f + vy d * i_dezdy f + vx d * vy d * i_d2ezdxdy f).
Definition b_at (f : interp (V := R)) (d : vec R) : vec R := mkv (i_cbx f + vx d * i_dcbxdx f) (i_cby f + vy d * i_dcbydy f) (i_cbz f + vz d * i_dcbzdz f).
Definition dot (a b : vec R) : R := vx a * vx b + vy a * vy b + vz a * vz b.
Definition times (a b : vec R) : vec R := mkv (vy a * vz b - vz a * vy b) (vz a * vx b - vx a * vz b) (vx a * vy b - vy a * vx b).
Definition plus (a b : vec R) : vec R := mkv (vx a + vx b) (vy a + vy b) (vz a + vz b).
Definition scaled (k : R) (a : vec R) : vec R := mkv (k * vx a) (k * vy a) (k * vz a).
Definition gam (u : vec R) : R := sqrt (1 + dot u u).
Definition half_tan (q : R) (B u : vec R) : R := let a := q / gam u in let x := a * a * dot B B in a * (1 + x / 3 + 2 * (x * x) / 15).

Lemma plus_is a b : vadd Rnum a b = plus a b. Proof. reflexivity. Qed.
Lemma norm_is u : norm2 Rnum u = dot u u. Proof. unfold norm2, dot. cbn [n_add n_mul Rnum]. ring. Qed.
Lemma e_is q f d : half_e Rnum q f d = scaled q (e_at f d).
Proof. unfold half_e, scaled, e_at. cbn [n_add n_mul Rnum vx vy vz]. f_equal; ring. Qed.
Lemma b_is f d : mag_b Rnum f d = b_at f d. Proof. reflexivity. Qed.
Lemma tan_is c cb u : boris_t c cb u = half_tan c cb u.
Proof. unfold boris_t, half_tan, gam. rewrite !norm_is. cbv zeta. field. pose proof (norm2_nonneg u) as N. rewrite norm_is in N. apply Rgt_not_eq. apply sqrt_lt_R0. lra. Qed.
Lemma boris_equation c cb u : let u' := boris Rnum c cb u in u' = plus u (scaled (half_tan c cb u) (times (plus u u') cb)) /\ dot u' u' = dot u u.
Proof.
  cbv zeta. split; [|rewrite <- !norm_is; apply boris_norm]. rewrite boris_rot, tan_is. pose proof (rot_equation (half_tan c cb u) cb u) as E. cbv zeta in E. rewrite plus_is in E. destruct E as (E1 & E2 & E3).
  set (u' := rot (half_tan c cb u) cb u) in *. unfold plus, scaled, times, cross in *. cbn [vx vy vz] in *. destruct u' as [x y z]. cbn [vx vy vz] in *. f_equal; lra.
Qed.

(* advance_p: kick by half the electric impulse, rotate about the magnetic field, kick again.  Between the kicks the momentum changes by half_tan times (before + after) x B, so its
   size stays: the magnetic field does no work. *)
Theorem C63_push : forall q f p, let E := e_at f (pd p) in let B := b_at f (pd p) in
  exists before after, before = plus (pu p) (scaled q E) /\ push_u Rnum q f p = plus after (scaled q E) /\
    after = plus before (scaled (half_tan q B before) (times (plus before after) B)) /\ dot after after = dot before before.
Proof.
  intros q f p E B. exists (plus (pu p) (scaled q E)), (boris Rnum q B (plus (pu p) (scaled q E))). split; [reflexivity|]. split.
  - unfold push_u. cbv zeta. rewrite e_is, b_is, !plus_is. reflexivity.
  - apply boris_equation.
Qed.
Print Assumptions C63_push.
(* center_p: one kick and the rotation with half the coefficient; everything else of the particle stays. *)
Theorem C63_centre : forall q f p, let E := e_at f (pd p) in let B := b_at f (pd p) in
  exists before after, before = plus (pu p) (scaled q E) /\ center_one Rnum q f p = mkp (pd p) (pi p) after (pw p) /\
    after = plus before (scaled (half_tan (q / 2) B before) (times (plus before after) B)) /\ dot after after = dot before before.
Proof.
  intros q f p E B. exists (plus (pu p) (scaled q E)), (boris Rnum (q / 2) B (plus (pu p) (scaled q E))). split; [reflexivity|]. split.
  - unfold center_one. cbv zeta. rewrite e_is, b_is, plus_is. cbn [n_half n_mul Rnum]. replace (/ 2 * q) with (q / 2) by field. reflexivity.
  - apply boris_equation.
Qed.
Print Assumptions C63_centre.
(* Without magnetic field the momentum changes by the electric impulse. *)
Theorem C63_no_magnetic_field : forall q f p, b_at f (pd p) = mkv 0 0 0 -> push_u Rnum q f p = plus (pu p) (scaled (2 * q) (e_at f (pd p))).
Proof.
  intros q f p H. destruct (C63_push q f p) as (b & a & -> & E2 & E3 & _). rewrite E2, E3, H. unfold plus, scaled, times. cbn [vx vy vz]. f_equal; ring.
Qed.
Print Assumptions C63_no_magnetic_field.
(* The update is reversible: with the opposite time step it leads back from where it led to. *)
Theorem C63_reversible : forall q f p, push_u Rnum (- q) f (mkp (pd p) (pi p) (push_u Rnum q f p) (pw p)) = pu p.
Proof.
  intros q f p. unfold push_u. cbv zeta. cbn [pd pu]. rewrite !e_is, !b_is, !plus_is.
  assert (C : forall a k e, plus (plus a (scaled k e)) (scaled (- k) e) = a) by (intros [x y z] k [e1 e2 e3]; unfold plus, scaled; cbn [vx vy vz]; f_equal; ring).
  rewrite C, boris_inv. apply C.
Qed.
Print Assumptions C63_reversible.

(* The angle.  A momentum at right angles to the field is turned by 2 atan (|B| half_tan); in time the exact angle would be 2 a with a = |q| |B| / gamma.  For a up to 1/2 the
   difference is at most 3/7 a^7. *)
Lemma atan_lip x y : x <= y -> 0 <= atan y - atan x <= y - x.
Proof.
  intros H. destruct (Req_dec x y) as [-> |N]; [lra|].
  destruct (MVT_cor2 atan (fun z => / (1 + z ^ 2)) x y ltac:(lra)) as (c & E & Hc). { intros z _. apply derivable_pt_lim_atan. }
  rewrite E. assert (1 <= 1 + c ^ 2) by (pose proof (pow2_ge_0 c); lra). assert (0 < / (1 + c ^ 2) <= 1) by (split; [apply Rinv_0_lt_compat; lra|rewrite <- Rinv_1; apply Rinv_le_contravar; lra]).
  split; [apply Rmult_le_pos; lra|]. rewrite <- (Rmult_1_l (y - x)) at 2. apply Rmult_le_compat_r; lra.
Qed.
Theorem C63_angle : forall q B u u', u' = plus u (scaled (half_tan q B u) (times (plus u u') B)) -> dot u B = 0 ->
  let tau := sqrt (dot B B) * Rabs (half_tan q B u) in let a := Rabs q * sqrt (dot B B) / gam u in
  dot u' B = 0 /\ dot u u' = dot u u * cos (2 * atan tau) /\ (a <= 1 / 2 -> 0 <= 2 * a - 2 * atan tau <= 3 / 7 * a ^ 7).
Proof.
  intros q B u u' H P tau a. set (t := half_tan q B u) in *.
  assert (BB : 0 <= dot B B) by (unfold dot; nra).
  assert (T2 : tau * tau = t * t * dot B B).
  { transitivity ((sqrt (dot B B) * sqrt (dot B B)) * (Rabs t * Rabs t)); [unfold tau; ring|]. rewrite (sqrt_sqrt _ BB). pose proof (Rsqr_abs t) as Q. unfold Rsqr in Q. rewrite <- Q. ring. }
  assert (HX : vx u' = vx u + t * (vx (times (plus u u') B))) by (rewrite H at 1; reflexivity).
  assert (HY : vy u' = vy u + t * (vy (times (plus u u') B))) by (rewrite H at 1; reflexivity).
  assert (HZ : vz u' = vz u + t * (vz (times (plus u u') B))) by (rewrite H at 1; reflexivity).
  unfold times, plus in HX, HY, HZ. cbn [vx vy vz] in HX, HY, HZ. 
  assert (PB : dot u' B = 0).
  { transitivity (dot u B); [|exact P]. unfold dot. etransitivity; [apply f_equal2; [apply f_equal2|]; apply f_equal2; [exact HX|reflexivity|exact HY|reflexivity|exact HZ|reflexivity]|]. ring. }
  split; [exact PB|]. split.
  - assert (E : dot u u' * (1 + t * t * dot B B) = dot u u * (1 - t * t * dot B B)). 
    { set (sx := vx u + vx u') in *. set (sy := vy u + vy u') in *. set (sz := vz u + vz u') in *.
      assert (SB : sx * vx B + sy * vy B + sz * vz B = 0) by (unfold sx, sy, sz; unfold dot in P, PB; lra).
      assert (U1 : vx u = (sx - t * (sy * vz B - sz * vy B)) / 2) by (unfold sx in *; lra). assert (V1 : vx u' = (sx + t * (sy * vz B - sz * vy B)) / 2) by (unfold sx in *; lra).
      assert (U2 : vy u = (sy - t * (sz * vx B - sx * vz B)) / 2) by (unfold sy in *; lra). assert (V2 : vy u' = (sy + t * (sz * vx B - sx * vz B)) / 2) by (unfold sy in *; lra).
      assert (U3 : vz u = (sz - t * (sx * vy B - sy * vx B)) / 2) by (unfold sz in *; lra). assert (V3 : vz u' = (sz + t * (sx * vy B - sy * vx B)) / 2) by (unfold sz in *; lra).
      clearbody sx sy sz. unfold dot. rewrite U1, U2, U3, V1, V2, V3. apply Rminus_diag_uniq.
      match goal with |- ?l = 0 => replace l with (t * t * (sx * vx B + sy * vy B + sz * vz B) * (sx * vx B + sy * vy B + sz * vz B) / 2) by field end. rewrite SB. field. }
    rewrite <- T2 in E. assert (D : 0 < 1 + tau * tau) by nra. rewrite cos_2a_cos, cos_atan.
    assert (Q : 1 / sqrt (1 + tau²) * (1 / sqrt (1 + tau²)) = / (1 + tau * tau)).
    { unfold Rsqr. assert (N : sqrt (1 + tau * tau) <> 0) by (apply Rgt_not_eq, sqrt_lt_R0; exact D). rewrite <- (sqrt_sqrt (1 + tau * tau)) at 3 by lra. field. exact N. }
    match goal with |- _ = _ * (?l - 1) => replace l with (2 * (1 / sqrt (1 + tau²) * (1 / sqrt (1 + tau²)))) by ring end. rewrite Q.
    apply (Rmult_eq_reg_r (1 + tau * tau)); [|lra]. rewrite E. field. lra.
  - intros Ha. assert (G : 0 < gam u) by (apply sqrt_lt_R0; unfold dot; nra). assert (S := sqrt_pos (dot B B)).
    assert (A0 : 0 <= a) by (apply Rmult_le_pos; [apply Rmult_le_pos; [apply Rabs_pos|exact S]|left; apply Rinv_0_lt_compat; exact G]).
    assert (TT : tau = poly (1 / 3) (2 / 15) 0 a).
    { unfold tau, t, half_tan. set (v := q / gam u). set (x := v * v * dot B B). 
      assert (X : x = a * a). { unfold x, a, v. rewrite <- (sqrt_sqrt (dot B B) BB) at 1. assert (Q := Rsqr_abs q). unfold Rsqr in Q. transitivity ((q * q) * (sqrt (dot B B) * sqrt (dot B B)) / (gam u * gam u)); [field; lra|]. rewrite Q. field. lra. }
      assert (X0 : 0 <= x) by (rewrite X; nra). rewrite Rabs_mult, (Rabs_right (1 + _ + _)) by nra. unfold v. unfold Rdiv at 1. rewrite Rabs_mult, (Rabs_right (/ gam u)) by (left; apply Rinv_0_lt_compat; exact G).
      rewrite X. unfold poly. transitivity (a * (1 + a * a / 3 + 2 * (a * a * (a * a)) / 15)); [unfold a; field; lra|field]. }
    rewrite TT. clearbody a. pose proof (tan_low a) as L. pose proof (tan_up3 a) as U. assert (W := pi_big). 
    rewrite <- (atan_tan a) at 1 3 by lra.
    destruct (atan_lip _ _ (L ltac:(lra))) as (M1 & M2). specialize (U ltac:(lra)). unfold poly in *. lra.
Qed.
Print Assumptions C63_angle.

(* What advance_p does with the new momentum u: the offset moves by twice cdt u / gamma(u).  A particle that stays in its cell is left there with this momentum. *)
Theorem C63_displacement : forall (c u : vec R), displacement Rnum c u = mkv (vx c * vx u / gam u) (vy c * vy u / gam u) (vz c * vz u / gam u).
Proof.
  intros c u. unfold displacement, vmap2. cbv zeta. rewrite norm_is. cbn [n_mul n_div n_sqrt n_add n_one Rnum]. fold (gam u).
  assert (G : gam u <> 0) by (apply Rgt_not_eq, sqrt_lt_R0; unfold dot; nra). unfold gam in *. f_equal; field; exact G.
Qed.
Print Assumptions C63_displacement.
Theorem C63_advance : forall fuel g q c qsp f p, let u := push_u Rnum q f p in
  let new := plus (pd p) (scaled (2 / gam u) (mkv (vx c * vx u) (vy c * vy u) (vz c * vz u))) in
  -1 <= vx new <= 1 -> -1 <= vy new <= 1 -> -1 <= vz new <= 1 ->
  exists a, advance_one Rnum fuel g q c qsp f p = MDone false (mkp new (pi p) u (pw p)) (mkv 0 0 0) [(pi p, a)].
Proof.
  intros fuel g q c qsp f p u new H1 H2 H3. unfold advance_one. cbv zeta. fold u. rewrite C63_displacement.
  assert (G : gam u <> 0) by (apply Rgt_not_eq, sqrt_lt_R0; unfold dot; nra).
  match goal with |- context [inbnds _ ?w] => replace w with new end.
  2: { unfold new, vadd, vmap2, plus, scaled. cbn [vx vy vz n_add Rnum]. f_equal; field; exact G. }
  replace (inbnds Rnum new) with true; [eexists; reflexivity|].
  symmetry. unfold inbnds. cbn [n_le n_one n_opp Rnum]. rewrite !andb_true_iff. repeat split; unfold Rleb'; match goal with |- context [Rle_dec ?a ?b] => destruct (Rle_dec a b) as [?|N]; [reflexivity|exfalso; apply N; lra] end.
Qed.
Print Assumptions C63_advance.
(* q = 5/4, a field of strength 1 along z and the momentum (3/4, 0, 0): gamma is 5/4 and a is 1, the half-angle tangent is 22/15. *)
Example C63_example : forall f d i w, e_at f d = mkv 0 0 0 -> b_at f d = mkv 0 0 1 ->
  push_u Rnum (5 / 4) f (mkp d i (mkv (3 / 4) 0 0) w) = mkv (- 777 / 2836) (- 495 / 709) 0.
Proof.
  intros f d i w HE HB. destruct (C63_push (5 / 4) f (mkp d i (mkv (3 / 4) 0 0) w)) as (b & a & Eb & Ea & Eq & _). cbn [pd pu] in *. rewrite HE in *. rewrite HB in Eq. rewrite Ea.
  assert (Eb' : b = mkv (3 / 4) 0 0) by (rewrite Eb; unfold plus, scaled; cbn [vx vy vz]; f_equal; ring). subst b. rewrite Eb' in Eq. clear Ea Eb'.
  assert (G : gam (mkv (3 / 4) 0 0) = 5 / 4) by (unfold gam, dot; cbn [vx vy vz]; rewrite <- (sqrt_square (5 / 4)) by lra; f_equal; lra).
  assert (T : half_tan (5 / 4) (mkv 0 0 1) (mkv (3 / 4) 0 0) = 22 / 15) by (unfold half_tan; rewrite G; unfold dot; cbn [vx vy vz]; cbv zeta; field).
  rewrite T in Eq. unfold plus, scaled, times in *. cbn [vx vy vz] in *. destruct a as [x y z]. cbn [vx vy vz] in *. inversion Eq as [[X Y Z]]. f_equal; lra.
Qed.
