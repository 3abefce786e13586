From Coq Require Import Reals Lra ZArith List Bool Lia.
From Flocq Require Import Core Plus_error IEEE754.BinarySingleNaN.
From Verif Require Import FloatModel FloatProofs ConvProofs VoxelModel DistributeModel ParticleModel GridModel InjectModel.
Import ListNotations.
Open Scope Z_scope.

Local Instance p64' : Prec_gt_0 53 := prec_gt_0_64.
Local Instance p32' : Prec_gt_0 24 := prec_gt_0_32.

(* ---- rounding is monotone and keeps representable values ---- *)
Notation F64 := (generic_format radix2 (FLT_exp (-1074) 53)).
Notation F32 := (generic_format radix2 (FLT_exp (-149) 24)).

Lemma RN64_le x y : (x <= y)%R -> (RN64 x <= RN64 y)%R.
Proof. intros H. unfold RN64. apply round_le; [apply FLT_exp_valid; exact p64'|apply valid_rnd_N|exact H]. Qed.
Lemma RN32_le x y : (x <= y)%R -> (RN32 x <= RN32 y)%R.
Proof. intros H. unfold RN32. apply round_le; [apply FLT_exp_valid; exact p32'|apply valid_rnd_N|exact H]. Qed.
Lemma RN64_id x : F64 x -> RN64 x = x.
Proof. intros H. unfold RN64. apply round_generic; [apply valid_rnd_N|exact H]. Qed.
Lemma RN32_id x : F32 x -> RN32 x = x.
Proof. intros H. unfold RN32. apply round_generic; [apply valid_rnd_N|exact H]. Qed.
Lemma RN64_Z m : Z.abs m <= 2 ^ 53 -> RN64 (IZR m) = IZR m.
Proof.
  intros H. pose proof (RN64_exact m 0 ltac:(lia) H) as E. cbn [bpow] in E. now rewrite Rmult_1_r in E.
Qed.
Lemma RN32_Z m : Z.abs m <= 2 ^ 24 -> RN32 (IZR m) = IZR m.
Proof.
  intros H. pose proof (RN32_exact m 0 ltac:(lia) H) as E. cbn [bpow] in E. now rewrite Rmult_1_r in E.
Qed.
Lemma fin64_F x a : fin64 x a -> F64 a.
Proof. intros [_ E]. rewrite <- E. exact (generic_format_B2R 53 1024 x). Qed.
Lemma fin32_F x a : fin32 x a -> F32 a.
Proof. intros [_ E]. rewrite <- E. exact (generic_format_B2R 24 128 x). Qed.
Lemma fin32_lt x a : fin32 x a -> (Rabs a < bpow radix2 128)%R.
Proof. intros [_ E]. rewrite <- E. exact (abs_B2R_lt_emax 24 128 x). Qed.
Lemma fin64_lt x a : fin64 x a -> (Rabs a < bpow radix2 1024)%R.
Proof. intros [_ E]. rewrite <- E. exact (abs_B2R_lt_emax 53 1024 x). Qed.
Lemma F32_F64 a : F32 a -> F64 a.
Proof.
  intros H. apply FLT_format_generic in H; [|exact p32']. destruct H as [f E N X].
  apply generic_format_FLT. exists f; [exact E| |].
  - apply Z.lt_trans with (1 := N). now vm_compute.
  - lia.
Qed.

(* ---- conversions between the formats ---- *)
Lemma f2d_ok x a : fin32 x a -> fin64 (f2d x) a.
Proof.
  intros H. pose proof (F32_F64 a (fin32_F x a H)) as G. pose proof (fin32_lt x a H) as L. destruct H as [F E].
  destruct x as [s|s| |s m e B]; try discriminate.
  - split; [reflexivity|]. exact E.
  - assert (Q : F2R (Float radix2 (if s then Z.neg m else Z.pos m) e) = a) by (rewrite <- E; destruct s; reflexivity).
    pose proof (binary_normalize_correct 53 1024 prec_gt_0_64 prec_lt_emax_64 mode_NE (if s then Z.neg m else Z.pos m) e s) as C.
    cbv zeta in C. rewrite Q in C. change (round radix2 (SpecFloat.fexp 53 1024) (round_mode mode_NE) a) with (RN64 a) in C.
    rewrite no_ovf64 in C.
    + destruct C as (C1 & C2 & _). rewrite RN64_id in C1 by exact G. split; [exact C2|exact C1].
    + left. apply Rlt_trans with (1 := L). apply bpow_lt. lia.
Qed.
Lemma d2f_ok x a : fin64 x a -> (Rabs a <= bpow radix2 127)%R -> fin32 (d2f x) (RN32 a).
Proof.
  intros [F E] L.
  destruct x as [s|s| |s m e B]; try discriminate.
  - split; [reflexivity|]. cbn in E. rewrite <- E. symmetry. apply (RN32_Z 0). now vm_compute.
  - assert (Q : F2R (Float radix2 (if s then Z.neg m else Z.pos m) e) = a) by (rewrite <- E; destruct s; reflexivity).
    pose proof (binary_normalize_correct 24 128 prec_gt_0_32 prec_lt_emax_32 mode_NE (if s then Z.neg m else Z.pos m) e s) as C.
    cbv zeta in C. rewrite Q in C. change (round radix2 (SpecFloat.fexp 24 128) (round_mode mode_NE) a) with (RN32 a) in C.
    rewrite no_ovf32 in C by exact L.
    destruct C as (C1 & C2 & _). split; [exact C2|exact C1].
Qed.

(* ---- comparisons ---- *)
Lemma d_lt_ok x y a b : fin64 x a -> fin64 y b -> d_lt x y = true <-> (a < b)%R.
Proof.
  intros [F1 E1] [F2 E2]. unfold d_lt. rewrite (Bcompare_correct 53 1024 x y F1 F2), E1, E2.
  destruct (Rcompare_spec a b); split; intros; try reflexivity; try discriminate; lra.
Qed.
Lemma d_eq_ok x y a b : fin64 x a -> fin64 y b -> d_eq x y = true <-> a = b.
Proof.
  intros [F1 E1] [F2 E2]. unfold d_eq. rewrite (Bcompare_correct 53 1024 x y F1 F2), E1, E2.
  destruct (Rcompare_spec a b); split; intros; try reflexivity; try discriminate; lra.
Qed.
Lemma outside_ok e joined x r lo hi : fin64 x r -> fin32 (e_lo e) lo -> fin32 (e_hi e) hi ->
  outside e joined x = false <-> (lo <= r <= hi)%R /\ (joined = true -> r <> hi).
Proof.
  intros X L H. apply f2d_ok in L, H. unfold outside.
  pose proof (d_lt_ok _ _ _ _ X L) as C1. pose proof (d_lt_ok _ _ _ _ H X) as C2. pose proof (d_eq_ok _ _ _ _ X H) as C3.
  destruct (d_lt x (f2d (e_lo e))); [|destruct (d_lt (f2d (e_hi e)) x); [|destruct (d_eq x (f2d (e_hi e)))]]; cbn [orb andb].
  - split; [discriminate|]. intros [? _]. assert (r < lo)%R by (now apply C1). lra.
  - split; [discriminate|]. intros [? _]. assert (hi < r)%R by (now apply C2). lra.
  - assert (r = hi) by (now apply C3). assert (~ (r < lo)%R) by (rewrite <- C1; discriminate).
    destruct joined; split; try discriminate.
    + intros [_ Q]. exfalso. now apply Q.
    + intros _. split; [lra|discriminate].
    + reflexivity.
  - assert (r <> hi) by (rewrite <- C3; discriminate). assert (~ (r < lo)%R) by (rewrite <- C1; discriminate).
    assert (~ (hi < r)%R) by (rewrite <- C2; discriminate). split; [intros _|reflexivity]. split; [lra|auto].
Qed.

(* ---- the cell of a position ---- *)
Lemma bpow_ge1 k : 0 <= k -> (1 <= bpow radix2 k)%R.
Proof. intros. change 1%R with (bpow radix2 0). apply bpow_le. lia. Qed.
Lemma int_lt_bpow n : 0 <= n <= 2147483647 -> (IZR n <= bpow radix2 31)%R.
Proof. intros. rewrite pow_R by lia. apply IZR_le. change (2 ^ 31) with 2147483648. lia. Qed.

(* rounding errors *)
Lemma RN64_err x e : -1021 <= e -> (Rabs x <= bpow radix2 e)%R -> (Rabs (RN64 x - x) <= bpow radix2 (e - 53))%R.
Proof.
  intros He H. unfold RN64.
  apply Rle_trans with (/ 2 * ulp radix2 (FLT_exp (-1074) 53) x)%R; [apply error_le_half_ulp; typeclasses eauto|].
  apply Rle_trans with (/ 2 * ulp radix2 (FLT_exp (-1074) 53) (bpow radix2 e))%R.
  { apply Rmult_le_compat_l; [lra|]. apply ulp_le; [typeclasses eauto|typeclasses eauto|].
    rewrite (Rabs_pos_eq (bpow radix2 e)) by apply bpow_ge_0. exact H. }
  rewrite ulp_bpow. unfold FLT_exp. rewrite Z.max_l by lia.
  replace (e + 1 - 53) with (1 + (e - 53)) by lia. rewrite bpow_plus. change (bpow radix2 1) with 2%R. lra.
Qed.
Lemma RN32_err x e : -125 <= e -> (Rabs x <= bpow radix2 e)%R -> (Rabs (RN32 x - x) <= bpow radix2 (e - 24))%R.
Proof.
  intros He H. unfold RN32.
  apply Rle_trans with (/ 2 * ulp radix2 (FLT_exp (-149) 24) x)%R; [apply error_le_half_ulp; typeclasses eauto|].
  apply Rle_trans with (/ 2 * ulp radix2 (FLT_exp (-149) 24) (bpow radix2 e))%R.
  { apply Rmult_le_compat_l; [lra|]. apply ulp_le; [typeclasses eauto|typeclasses eauto|].
    rewrite (Rabs_pos_eq (bpow radix2 e)) by apply bpow_ge_0. exact H. }
  rewrite ulp_bpow. unfold FLT_exp. rewrite Z.max_l by lia.
  replace (e + 1 - 24) with (1 + (e - 24)) by lia. rewrite bpow_plus. change (bpow radix2 1) with 2%R. lra.
Qed.
Lemma RN64_rel x y : (bpow radix2 (-1022) <= y)%R -> (Rabs x <= y)%R -> (Rabs (RN64 x - x) <= y * bpow radix2 (-53))%R.
Proof.
  intros Hy H. unfold RN64. pose proof (bpow_gt_0 radix2 (-1022)) as P.
  apply Rle_trans with (/ 2 * ulp radix2 (FLT_exp (-1074) 53) x)%R; [apply error_le_half_ulp; typeclasses eauto|].
  apply Rle_trans with (/ 2 * ulp radix2 (FLT_exp (-1074) 53) y)%R.
  { apply Rmult_le_compat_l; [lra|]. apply ulp_le; [typeclasses eauto|typeclasses eauto|].
    rewrite (Rabs_pos_eq y) by lra. exact H. }
  pose proof (ulp_FLT_le radix2 (-1074) 53 y) as U.
  assert (L : (ulp radix2 (FLT_exp (-1074) 53) y <= y * bpow radix2 (-52))%R).
  { rewrite <- (Rabs_pos_eq y) at 2 by lra. apply U. rewrite (Rabs_pos_eq y) by lra. exact Hy. }
  assert (E : (bpow radix2 (-52) = 2 * bpow radix2 (-53))%R) by (change (-52) with (1 + -53) at 1; rewrite bpow_plus; reflexivity).
  rewrite E in L. lra.
Qed.
Lemma F32_int a : F32 a -> exists z, a = (IZR z * bpow radix2 (-149))%R.
Proof.
  intros H. apply FLT_format_generic in H; [|exact p32']. destruct H as [[m e] E _ X]. cbn in X.
  exists (m * 2 ^ (e + 149)). rewrite mult_IZR, <- pow_R by lia. rewrite Rmult_assoc, <- bpow_plus.
  replace (e + 149 + -149) with e by lia. exact E.
Qed.
Lemma F32_gap a b : F32 a -> F32 b -> (a < b)%R -> (bpow radix2 (-149) <= b - a)%R.
Proof.
  intros Ha Hb H. destruct (F32_int _ Ha) as [x Ex], (F32_int _ Hb) as [y Ey].
  pose proof (bpow_gt_0 radix2 (-149)) as P.
  assert (x < y) by (apply lt_IZR; apply Rmult_lt_reg_r with (bpow radix2 (-149)); [exact P|now rewrite <- Ex, <- Ey]).
  assert (IZR x + 1 <= IZR y)%R by (rewrite <- plus_IZR; apply IZR_le; lia).
  rewrite Ex, Ey, <- Rmult_minus_distr_r. rewrite <- (Rmult_1_l (bpow radix2 (-149))) at 1.
  apply Rmult_le_compat_r; lra.
Qed.
(* quotient of the two rounded differences *)
Lemma ratio_err W a b t u : (0 < W)%R -> (0 <= t <= 1)%R -> (0 <= u <= / 1000)%R ->
  (Rabs (a - t * W) <= W * u)%R -> (Rabs (b - W) <= W * u)%R -> (Rabs (a / b - t) <= 3 * u)%R.
Proof.
  intros HW Ht Hu Ha Hb. apply Rabs_le_inv in Ha, Hb.
  assert (Wu : (W * u <= W * / 1000)%R) by (apply Rmult_le_compat_l; lra).
  assert (P : (0 < b)%R) by lra.
  replace (a / b - t)%R with ((a - t * b) / b)%R by (field; lra).
  unfold Rdiv. rewrite Rabs_mult, (Rabs_pos_eq (/ b)) by (left; now apply Rinv_0_lt_compat).
  apply Rmult_le_reg_r with b; [exact P|]. rewrite Rmult_assoc, Rinv_l, Rmult_1_r by lra.
  assert (T : (Rabs (t * (b - W)) <= W * u)%R).
  { rewrite Rabs_mult, (Rabs_pos_eq t) by lra. rewrite <- (Rmult_1_l (W * u)). apply Rmult_le_compat; try apply Rabs_pos; try lra.
    apply Rabs_le; lra. }
  apply Rabs_le_inv in T.
  assert (Q : (Rabs (a - t * b) <= 2 * (W * u))%R) by (apply Rabs_le; replace (a - t * b)%R with ((a - t * W) - t * (b - W))%R by ring; lra).
  apply Rle_trans with (1 := Q).
  assert (3 * u * b >= 3 * u * (W * (999 / 1000)))%R by (apply Rle_ge, Rmult_le_compat_l; lra).
  assert (0 <= W * u)%R by (apply Rmult_le_pos; lra). lra.
Qed.

Lemma place_ok e x r lo hi : fin64 x r -> fin32 (e_lo e) lo -> fin32 (e_hi e) hi ->
  (lo < hi)%R -> (lo <= r <= hi)%R -> 1 <= e_n e <= 2147483647 ->
  exists ix dx d, place e x = Ok (ix, dx) /\ 1 <= ix <= e_n e /\ fin32 dx d /\ (-1 <= d <= 1)%R /\
    (r = lo -> ix = 1 /\ d = (-1)%R) /\ (r = hi -> ix = e_n e /\ d = 1%R) /\
    (Rabs (IZR (ix - 1) + (d + 1) / 2 - IZR (e_n e) * ((r - lo) / (hi - lo))) <=
       IZR (e_n e) * bpow radix2 (-50) + bpow radix2 (-24))%R.
Proof.
  intros X L H Hlt Hr Hn. set (n := e_n e) in *.
  pose proof (fin32_lt _ _ L) as BL. pose proof (fin32_lt _ _ H) as BH.
  pose proof (fin32_F _ _ L) as FL. pose proof (fin32_F _ _ H) as FH. apply F32_F64 in FL, FH.
  assert (GAP : (bpow radix2 (-149) <= hi - lo)%R) by (apply F32_gap; [exact (fin32_F _ _ L)|exact (fin32_F _ _ H)|exact Hlt]).
  apply f2d_ok in L, H.
  assert (B129 : (bpow radix2 129 = 2 * bpow radix2 128)%R) by (change 129 with (1 + 128) at 1; rewrite bpow_plus; reflexivity).
  assert (B1023 : (bpow radix2 129 <= bpow radix2 1023)%R) by (apply bpow_le; lia).
  assert (B1 : (bpow radix2 31 <= bpow radix2 1023)%R) by (apply bpow_le; lia).
  assert (B31 : (2 <= bpow radix2 31)%R) by (change 2%R with (bpow radix2 1); apply bpow_le; lia).
  apply Rabs_def2 in BL, BH.
  (* the two differences *)
  assert (D1 : fin64 (d_sub x (f2d (e_lo e))) (RN64 (r - lo))) by (apply d_sub_ok; auto; apply Rabs_le; lra).
  assert (D2 : fin64 (d_sub (f2d (e_hi e)) (f2d (e_lo e))) (RN64 (hi - lo))) by (apply d_sub_ok; auto; apply Rabs_le; lra).
  set (a := RN64 (r - lo)) in *. set (b := RN64 (hi - lo)) in *.
  assert (Z0 : RN64 0 = 0%R) by (apply (RN64_Z 0); now vm_compute).
  assert (Z1 : RN64 1 = 1%R) by (apply (RN64_Z 1); now vm_compute).
  assert (Z2 : RN64 2 = 2%R) by (apply (RN64_Z 2); now vm_compute).
  assert (A0 : (0 <= a)%R) by (rewrite <- Z0; apply RN64_le; lra).
  assert (AB : (a <= b)%R) by (apply RN64_le; lra).
  assert (Bp : (0 < b)%R).
  { assert (b <> 0%R); [|lra]. unfold b, RN64. change (hi - lo)%R with (hi + - lo)%R.
    apply round_plus_neq_0; [typeclasses eauto|typeclasses eauto|typeclasses eauto|exact FH|now apply generic_format_opp|lra]. }
  (* the ratio *)
  assert (R0 : (0 <= a / b)%R) by (apply Rmult_le_pos; [exact A0|left; now apply Rinv_0_lt_compat]).
  assert (R1 : (a / b <= 1)%R) by (apply Rmult_le_reg_r with b; [exact Bp|]; unfold Rdiv; rewrite Rmult_assoc, Rinv_l by lra; lra).
  assert (D3 : fin64 (d_div (d_sub x (f2d (e_lo e))) (d_sub (f2d (e_hi e)) (f2d (e_lo e)))) (RN64 (a / b))).
  { apply d_div_ok; auto; [lra|]. apply Rabs_le; lra. }
  set (q := RN64 (a / b)) in *.
  assert (Q0 : (0 <= q)%R) by (rewrite <- Z0; now apply RN64_le).
  assert (Q1 : (q <= 1)%R) by (rewrite <- Z1; now apply RN64_le).
  assert (NR : (IZR n <= bpow radix2 31)%R) by (apply int_lt_bpow; lia).
  assert (N1 : (1 <= IZR n)%R) by (apply (IZR_le 1); lia).
  assert (NQ : (0 <= IZR n * q <= IZR n)%R) by (split; [apply Rmult_le_pos; lra|rewrite <- (Rmult_1_r (IZR n)) at 2; apply Rmult_le_compat_l; lra]).
  assert (D4 : fin64 (d_mul (d_of_Z n) (d_div (d_sub x (f2d (e_lo e))) (d_sub (f2d (e_hi e)) (f2d (e_lo e))))) (RN64 (IZR n * q))).
  { apply d_mul_ok; auto. - apply fin64_Z. change (2 ^ 53) with 9007199254740992. lia. - apply Rabs_le; lra. }
  set (c := RN64 (IZR n * q)) in *.
  assert (C0 : (0 <= c)%R) by (rewrite <- Z0; apply RN64_le; lra).
  assert (C1 : (c <= IZR n)%R).
  { rewrite <- (RN64_Z n) by (change (2 ^ 53) with 9007199254740992; lia). apply RN64_le. lra. }
  unfold place. fold n. destruct D4 as [F4 E4]. rewrite F4. cbn [negb].
  set (xx := d_mul (d_of_Z n) _) in *.
  rewrite (d_trunc_ok xx c E4). rewrite Ztrunc_floor by exact C0.
  pose proof (Zfloor_lb c) as G1. pose proof (Zfloor_ub c) as G2.
  set (k := Zfloor c) in *.
  assert (K0 : 0 <= k) by (unfold k; apply (Zfloor_lub 0); exact C0).
  assert (K1 : k <= n) by (apply le_IZR; lra).
  rewrite (proj2 (Z.ltb_ge k (-2147483648))) by lia. rewrite (proj2 (Z.ltb_ge 2147483647 k)) by lia. cbn [orb].
  (* the fraction *)
  assert (D5 : fin64 (d_sub xx (d_of_Z k)) (RN64 (c - IZR k))).
  { apply d_sub_ok; [split; assumption|apply fin64_Z; change (2 ^ 53) with 9007199254740992; lia|]. apply Rabs_le; lra. }
  set (f := RN64 (c - IZR k)) in *.
  assert (F0 : (0 <= f)%R) by (rewrite <- Z0; apply RN64_le; lra).
  assert (F1 : (f <= 1)%R) by (rewrite <- Z1; apply RN64_le; lra).
  assert (D6 : fin64 (d_add (d_sub xx (d_of_Z k)) (d_sub xx (d_of_Z k))) (RN64 (f + f))) by (apply d_add_ok; auto; apply Rabs_le; lra).
  set (f2 := RN64 (f + f)) in *.
  assert (F20 : (0 <= f2)%R) by (rewrite <- Z0; apply RN64_le; lra).
  assert (F21 : (f2 <= 2)%R) by (rewrite <- Z2; apply RN64_le; lra).
  assert (D7 : fin64 (d_sub (d_add (d_sub xx (d_of_Z k)) (d_sub xx (d_of_Z k))) (d_of_Z 1)) (RN64 (f2 - 1))).
  { apply d_sub_ok; auto; [apply (fin64_Z 1); now vm_compute|]. apply Rabs_le; lra. }
  assert (Y1 : RN64 (-1) = (-1)%R) by (apply (RN64_Z (-1)); now vm_compute).
  set (v := RN64 (f2 - 1)) in *.
  assert (V0 : (-1 <= v)%R) by (rewrite <- Y1; apply RN64_le; lra).
  assert (V1 : (v <= 1)%R) by (rewrite <- Z1; apply RN64_le; lra).
  (* final coordinate *)
  assert (exists vd, fin64 (if k =? n then d_of_Z 1 else d_sub (d_add (d_sub xx (d_of_Z k)) (d_sub xx (d_of_Z k))) (d_of_Z 1)) vd /\
     (-1 <= vd <= 1)%R /\ (k <> n -> vd = v) /\ (k = n -> vd = 1%R)) as (vd & D8 & V2 & V3 & V4).
  { destruct (k =? n) eqn:Ek.
    - exists 1%R. split; [apply (fin64_Z 1); now vm_compute|]. split; [lra|]. split; [lia|reflexivity].
    - exists v. split; [exact D7|]. split; [lra|]. split; [reflexivity|lia]. }
  set (w := if k =? n then d_of_Z 1 else _) in *.
  assert (B127 : (1 <= bpow radix2 127)%R) by (apply bpow_ge1; lia).
  exists ((if k =? n then n - 1 else k) + 1), (d2f w), (RN32 vd).
  assert (W1 : RN32 1 = 1%R) by (apply (RN32_Z 1); now vm_compute).
  assert (W2 : RN32 (-1) = (-1)%R) by (apply (RN32_Z (-1)); now vm_compute).
  split; [reflexivity|]. split; [destruct (Z.eqb_spec k n); lia|].
  split; [apply d2f_ok; [exact D8|apply Rabs_le; lra]|].
  split; [split; [rewrite <- W2|rewrite <- W1]; apply RN32_le; lra|].
  split; [|split]; [intros Er|intros Er|].
  - assert (Ea : a = 0%R) by (unfold a; rewrite Er; replace (lo - lo)%R with 0%R by lra; exact Z0).
    assert (Eq : q = 0%R) by (unfold q; rewrite Ea; replace (0 / b)%R with 0%R by (unfold Rdiv; lra); exact Z0).
    assert (Ec : c = 0%R) by (unfold c; rewrite Eq; replace (IZR n * 0)%R with 0%R by lra; exact Z0).
    assert (Ek : k = 0) by (unfold k; rewrite Ec; apply (Zfloor_IZR 0)).
    assert (Nk : k <> n) by lia.
    split; [destruct (Z.eqb_spec k n); lia|]. rewrite (V3 Nk).
    assert (Ef : f = 0%R) by (unfold f; rewrite Ec, Ek; replace (0 - 0)%R with 0%R by lra; exact Z0).
    assert (Ef2 : f2 = 0%R) by (unfold f2; rewrite Ef; replace (0 + 0)%R with 0%R by lra; exact Z0).
    assert (Ev : v = (-1)%R) by (unfold v; rewrite Ef2; replace (0 - 1)%R with (-1)%R by lra; exact Y1).
    rewrite Ev. exact W2.
  - assert (Ea : a = b) by (unfold a, b; now rewrite Er).
    assert (Eq : q = 1%R) by (unfold q; rewrite Ea; replace (b / b)%R with 1%R by (field; lra); exact Z1).
    assert (Ec : c = IZR n) by (unfold c; rewrite Eq, Rmult_1_r; apply RN64_Z; change (2 ^ 53) with 9007199254740992; lia).
    assert (Ek : k = n) by (unfold k; rewrite Ec; apply Zfloor_IZR).
    split; [rewrite Ek, Z.eqb_refl; lia|]. rewrite (V4 Ek). exact W1.
  - assert (TINY : (bpow radix2 (-1022) <= hi - lo)%R) by (apply Rle_trans with (2 := GAP), bpow_le; lia).
    set (W := (hi - lo)%R) in *. set (u := bpow radix2 (-53)).
    assert (U : (0 <= u <= / 1000)%R).
    { split; [apply bpow_ge_0|]. unfold u. rewrite bpow_m53. apply Rinv_le; lra. }
    assert (WP : (0 < W)%R) by (pose proof (bpow_gt_0 radix2 (-149)); lra).
    set (t := ((r - lo) / W)%R).
    assert (TW : (t * W = r - lo)%R) by (unfold t; field; lra).
    assert (T01 : (0 <= t <= 1)%R).
    { split; apply Rmult_le_reg_r with W; try exact WP; rewrite TW; unfold W; lra. }
    assert (Ea : (Rabs (a - t * W) <= W * u)%R) by (rewrite TW; apply RN64_rel; [exact TINY|apply Rabs_le; unfold W; lra]).
    assert (Eb : (Rabs (b - W) <= W * u)%R) by (apply RN64_rel; [exact TINY|apply Rabs_le; unfold W; lra]).
    pose proof (ratio_err W a b t u WP T01 U Ea Eb) as Er.
    assert (Eq : (Rabs (q - a / b) <= u)%R) by (apply (RN64_err (a / b) 0); [lia|]; change (bpow radix2 0) with 1%R; apply Rabs_le; lra).
    assert (Ec : (Rabs (c - IZR n * q) <= IZR n * u)%R).
    { apply RN64_rel; [|apply Rabs_le; lra]. apply Rle_trans with 1%R; [|lra]. change 1%R with (bpow radix2 0). apply bpow_le. lia. }
    assert (Ef : (Rabs (f - (c - IZR k)) <= u)%R) by (apply (RN64_err (c - IZR k) 0); [lia|]; change (bpow radix2 0) with 1%R; apply Rabs_le; lra).
    assert (U2 : (bpow radix2 (1 - 53) = 2 * u)%R) by (unfold u; replace (1 - 53) with (1 + -53) by lia; rewrite bpow_plus; reflexivity).
    assert (Ef2 : (Rabs (f2 - (f + f)) <= 2 * u)%R) by (rewrite <- U2; apply (RN64_err (f + f) 1); [lia|]; change (bpow radix2 1) with 2%R; apply Rabs_le; lra).
    assert (Ev : (Rabs (v - (f2 - 1)) <= u)%R) by (apply (RN64_err (f2 - 1) 0); [lia|]; change (bpow radix2 0) with 1%R; apply Rabs_le; lra).
    assert (Ed : (Rabs (RN32 vd - vd) <= bpow radix2 (-24))%R) by (apply (RN32_err vd 0); [lia|]; change (bpow radix2 0) with 1%R; apply Rabs_le; lra).
    assert (U50 : (bpow radix2 (-50) = 8 * u)%R) by (unfold u; replace (-50) with (3 + -53) by lia; rewrite bpow_plus; reflexivity).
    rewrite U50. clearbody t u a b q c f f2 v W.
    apply Rabs_le_inv in Er, Eq, Ec, Ef, Ef2, Ev, Ed.
    assert (NT : (Rabs (IZR n * q - IZR n * t) <= IZR n * (4 * u))%R).
    { rewrite <- Rmult_minus_distr_l, Rabs_mult, (Rabs_pos_eq (IZR n)) by lra. apply Rmult_le_compat_l; [lra|]. apply Rabs_le; lra. }
    apply Rabs_le_inv in NT.
    assert (NU : (u <= IZR n * u)%R) by (rewrite <- (Rmult_1_l u) at 1; apply Rmult_le_compat_r; lra).
    replace (IZR n * (8 * u))%R with (8 * (IZR n * u))%R by ring.
    replace (IZR n * (4 * u))%R with (4 * (IZR n * u))%R in NT by ring.
    apply Rabs_le. destruct (Z.eqb_spec k n) as [Ek|Ek].
    + rewrite (V4 Ek) in *. replace (n - 1 + 1 - 1) with (n - 1) by lia. rewrite minus_IZR.
      assert (IZR k = IZR n) by (now rewrite Ek). lra.
    + rewrite (V3 Ek) in *. replace (k + 1 - 1) with k by lia. lra.
Qed.

(* ---- edges of the domains of a box ---- *)
Lemma edge_frac gp p : 1 <= gp <= 2147483647 -> 0 <= p <= gp ->
  fin64 (d_div (d_of_Z p) (d_of_Z gp)) (RN64 (IZR p / IZR gp)) /\ (0 <= RN64 (IZR p / IZR gp) <= 1)%R.
Proof.
  intros Hg Hp.
  assert (G1 : (1 <= IZR gp)%R) by (apply (IZR_le 1); lia).
  assert (P0 : (0 <= IZR p)%R) by (apply (IZR_le 0); lia).
  assert (PG : (IZR p <= IZR gp)%R) by (apply IZR_le; lia).
  assert (R0 : (0 <= IZR p / IZR gp)%R) by (apply Rmult_le_pos; [exact P0|left; apply Rinv_0_lt_compat; lra]).
  assert (R1 : (IZR p / IZR gp <= 1)%R) by (apply Rmult_le_reg_r with (IZR gp); [lra|]; unfold Rdiv; rewrite Rmult_assoc, Rinv_l by lra; lra).
  assert (Z0 : RN64 0 = 0%R) by (apply (RN64_Z 0); now vm_compute).
  assert (Z1 : RN64 1 = 1%R) by (apply (RN64_Z 1); now vm_compute).
  split.
  - apply d_div_ok; [apply fin64_Z; change (2 ^ 53) with 9007199254740992; lia|apply fin64_Z; change (2 ^ 53) with 9007199254740992; lia|lra|].
    apply Rabs_le. pose proof (bpow_ge1 1023 ltac:(lia)). lra.
  - split; [rewrite <- Z0|rewrite <- Z1]; now apply RN64_le.
Qed.

Lemma edge_val g0 g1 a b gp p : 1 <= gp <= 2147483647 -> 0 <= p <= gp ->
  fin64 g0 a -> fin64 g1 b -> (Rabs a <= bpow radix2 126)%R -> (Rabs b <= bpow radix2 126)%R ->
  let f := RN64 (IZR p / IZR gp) in
  fin32 (edge g0 g1 gp p) (RN32 (RN64 (RN64 (a * RN64 (1 - f)) + RN64 (b * f)))).
Proof.
  intros Hg Hp A B La Lb f. destruct (edge_frac gp p Hg Hp) as (F & F01). fold f in F, F01.
  assert (Z0 : RN64 0 = 0%R) by (apply (RN64_Z 0); now vm_compute).
  assert (Z1 : RN64 1 = 1%R) by (apply (RN64_Z 1); now vm_compute).
  pose proof (bpow_ge1 1023 ltac:(lia)) as B1.
  assert (E127 : (bpow radix2 127 = 2 * bpow radix2 126)%R) by (change 127 with (1 + 126) at 1; rewrite bpow_plus; reflexivity).
  assert (B2 : (bpow radix2 127 <= bpow radix2 1023)%R) by (apply bpow_le; lia).
  pose proof (bpow_ge1 126 ltac:(lia)) as B3.
  assert (C : fin64 (d_sub (d_of_Z 1) (d_div (d_of_Z p) (d_of_Z gp))) (RN64 (1 - f))).
  { apply d_sub_ok; [apply (fin64_Z 1); now vm_compute|exact F|apply Rabs_le; lra]. }
  set (h := RN64 (1 - f)) in *.
  assert (H01 : (0 <= h <= 1)%R) by (split; [rewrite <- Z0|rewrite <- Z1]; apply RN64_le; lra).
  assert (M : forall s t, (Rabs s <= bpow radix2 126)%R -> (0 <= t <= 1)%R -> (Rabs (s * t) <= bpow radix2 126)%R).
  { intros s t Hs Ht. rewrite Rabs_mult, (Rabs_pos_eq t) by lra. rewrite <- (Rmult_1_r (bpow radix2 126)).
    apply Rmult_le_compat; try lra. apply Rabs_pos. }
  assert (P1 : fin64 (d_mul g0 (d_sub (d_of_Z 1) (d_div (d_of_Z p) (d_of_Z gp)))) (RN64 (a * h))).
  { apply d_mul_ok; auto. pose proof (M a h La H01). lra. }
  assert (P2 : fin64 (d_mul g1 (d_div (d_of_Z p) (d_of_Z gp))) (RN64 (b * f))).
  { apply d_mul_ok; auto. pose proof (M b f Lb F01). lra. }
  pose proof (RN64_small (a * h) 126 ltac:(lia) (M a h La H01)) as S1.
  pose proof (RN64_small (b * f) 126 ltac:(lia) (M b f Lb F01)) as S2.
  assert (S : (Rabs (RN64 (a * h) + RN64 (b * f)) <= bpow radix2 127)%R).
  { eapply Rle_trans; [apply Rabs_triang|]. lra. }
  apply d2f_ok; [apply d_add_ok; auto; lra|]. apply RN64_small; [lia|exact S].
Qed.

Lemma edge_first g0 g1 a b gp : 1 <= gp <= 2147483647 ->
  fin64 g0 a -> fin64 g1 b -> (Rabs a <= bpow radix2 126)%R -> (Rabs b <= bpow radix2 126)%R ->
  fin32 (edge g0 g1 gp 0) (RN32 a).
Proof.
  intros Hg A B La Lb. pose proof (edge_val g0 g1 a b gp 0 Hg ltac:(lia) A B La Lb) as E. cbv zeta in E.
  assert (Z0 : RN64 0 = 0%R) by (apply (RN64_Z 0); now vm_compute).
  assert (Z1 : RN64 1 = 1%R) by (apply (RN64_Z 1); now vm_compute).
  replace (0 / IZR gp)%R with 0%R in E by (unfold Rdiv; ring). rewrite Z0, Rminus_0_r, Z1, Rmult_1_r, Rmult_0_r, Z0, Rplus_0_r in E.
  now rewrite !(RN64_id a (fin64_F _ _ A)) in E.
Qed.
Lemma edge_last g0 g1 a b gp : 1 <= gp <= 2147483647 ->
  fin64 g0 a -> fin64 g1 b -> (Rabs a <= bpow radix2 126)%R -> (Rabs b <= bpow radix2 126)%R ->
  fin32 (edge g0 g1 gp gp) (RN32 b).
Proof.
  intros Hg A B La Lb. pose proof (edge_val g0 g1 a b gp gp Hg ltac:(lia) A B La Lb) as E. cbv zeta in E.
  assert (Z0 : RN64 0 = 0%R) by (apply (RN64_Z 0); now vm_compute).
  assert (Z1 : RN64 1 = 1%R) by (apply (RN64_Z 1); now vm_compute).
  assert (G1 : (1 <= IZR gp)%R) by (apply (IZR_le 1); lia).
  replace (IZR gp / IZR gp)%R with 1%R in E by (field; lra).
  rewrite Z1 in E. replace (1 - 1)%R with 0%R in E by ring. rewrite Z0, Rmult_1_r, Rmult_0_r, Z0, Rplus_0_l in E.
  now rewrite !(RN64_id b (fin64_F _ _ B)) in E.
Qed.

(* ---- one axis: which domains accept a coordinate ---- *)
Definition takes (er : Z -> R) (joined : Z -> bool) (p : Z) (r : R) : Prop :=
  (er p <= r <= er (p + 1)%Z)%R /\ (joined p = true -> r <> er (p + 1)%Z).

Lemma takes_some (er : Z -> R) joined gp r : 1 <= gp -> (er 0%Z <= r < er gp)%R -> exists p, 0 <= p < gp /\ takes er joined p r.
Proof.
  intros Hg. rewrite <- (Z2Nat.id gp) by lia. assert (Hn : (1 <= Z.to_nat gp)%nat) by lia.
  generalize dependent (Z.to_nat gp). intros n Hn [H0 H1].
  assert (Q : exists p, 0 <= p < Z.of_nat n /\ (er p <= r < er (p + 1)%Z)%R).
  { clear Hg. induction n as [|n IH]; [lia|].
    destruct (Rlt_le_dec r (er (Z.of_nat n))) as [Hlt|Hge].
    - destruct n as [|n].
      + cbn in Hlt. lra.
      + destruct IH as (p & Hp & T); [lia|exact Hlt|]. exists p. split; [lia|exact T].
    - exists (Z.of_nat n). split; [lia|]. rewrite Nat2Z.inj_succ in H1. split; [exact Hge|exact H1]. }
  destruct Q as (p & Hp & T). exists p. split; [exact Hp|]. split; [lra|]. intros _. lra.
Qed.

Lemma edges_le (er : Z -> R) gp : (forall p, 0 <= p < gp -> (er p <= er (p + 1)%Z)%R) ->
  forall p q, 0 <= p <= q -> q <= gp -> (er p <= er q)%R.
Proof.
  intros M p q Hp Hq. replace q with (p + Z.of_nat (Z.to_nat (q - p))) in * by lia.
  assert (HH : p + Z.of_nat (Z.to_nat (q - p)) <= gp) by lia. clear Hq.
  induction (Z.to_nat (q - p)) as [|n IH]; [rewrite Z.add_0_r; lra|].
  rewrite Nat2Z.inj_succ in HH |- *. apply Rle_trans with (er (p + Z.of_nat n)); [apply IH; lia|].
  replace (p + Z.succ (Z.of_nat n)) with (p + Z.of_nat n + 1) by lia. apply M. lia.
Qed.

Lemma takes_once (er : Z -> R) joined gp r p q : (forall k, 0 <= k < gp -> (er k <= er (k + 1)%Z)%R) ->
  (forall k, 0 <= k < gp - 1 -> joined k = true) ->
  0 <= p < gp -> 0 <= q < gp -> takes er joined p r -> takes er joined q r -> p = q.
Proof.
  intros M J Hp Hq.
  assert (W : forall p q, 0 <= p < gp -> 0 <= q < gp -> p < q -> takes er joined p r -> takes er joined q r -> False).
  { clear p q Hp Hq. intros p q Hp Hq L [[_ A] B] [[C _] _].
    pose proof (edges_le er gp M (p + 1) q ltac:(lia) ltac:(lia)). apply B; [apply J; lia|]. lra. }
  intros T U. destruct (Z.lt_trichotomy p q) as [L|[L|L]]; [exfalso; eapply (W p q); eauto|exact L|exfalso; eapply (W q p); eauto].
Qed.

Lemma takes_iff (er : Z -> R) joined gp r : 1 <= gp -> (forall k, 0 <= k < gp -> (er k <= er (k + 1)%Z)%R) ->
  (forall k, 0 <= k < gp - 1 -> joined k = true) ->
  (exists p, 0 <= p < gp /\ takes er joined p r) <->
  (er 0%Z <= r)%R /\ ((r < er gp)%R \/ (r = er gp /\ joined (gp - 1) = false)).
Proof.
  intros Hg M J. split.
  - intros (p & Hp & [[A B] C]).
    pose proof (edges_le er gp M 0 p ltac:(lia) ltac:(lia)). pose proof (edges_le er gp M (p + 1) gp ltac:(lia) ltac:(lia)).
    split; [lra|]. destruct (Rlt_le_dec r (er gp)) as [L|L]; [now left|right].
    assert (E : r = er gp) by lra. split; [exact E|].
    destruct (joined (gp - 1)) eqn:Ej; [|reflexivity]. exfalso. apply C; [|lra].
    destruct (Z.eq_dec p (gp - 1)) as [->|N]; [exact Ej|apply J; lia].
  - intros [A [B|[B C]]].
    + apply takes_some; [exact Hg|lra].
    + exists (gp - 1). split; [lia|]. replace (gp - 1 + 1) with gp by lia.
      pose proof (edges_le er gp M (gp - 1) gp ltac:(lia) ltac:(lia)). split; [replace (gp - 1 + 1) with gp by lia; lra|congruence].
Qed.
