(* Each executable operation rounds the exact real result once, as long as that
   result is not near the overflow threshold. *)
From Coq Require Import ZArith Reals Lia Lra.
From Flocq Require Import Core BinarySingleNaN.
From Verif Require Import FloatModel.
Open Scope Z_scope.

Definition RN64 (x : R) : R := round radix2 (FLT_exp (-1074) 53) ZnearestE x.
Definition RN32 (x : R) : R := round radix2 (FLT_exp (-149) 24) ZnearestE x.

Notation B2R64 x := (@B2R 53 1024 x).
Notation B2R32 x := (@B2R 24 128 x).

Local Instance p64 : Prec_gt_0 53 := prec_gt_0_64.
Local Instance p32 : Prec_gt_0 24 := prec_gt_0_32.

Lemma RN64_small x k : (-1074 <= k < 1024)%Z -> (Rabs x <= bpow radix2 k)%R ->
  (Rabs (RN64 x) <= bpow radix2 k)%R.
Proof.
  intros Hk Hx. unfold RN64. apply abs_round_le_generic.
  - apply FLT_exp_valid. exact p64.
  - apply valid_rnd_N.
  - apply generic_format_bpow. unfold FLT_exp. lia.
  - exact Hx.
Qed.

Lemma RN32_small x k : (-149 <= k < 128)%Z -> (Rabs x <= bpow radix2 k)%R ->
  (Rabs (RN32 x) <= bpow radix2 k)%R.
Proof.
  intros Hk Hx. unfold RN32. apply abs_round_le_generic.
  - apply FLT_exp_valid. exact p32.
  - apply valid_rnd_N.
  - apply generic_format_bpow. unfold FLT_exp. lia.
  - exact Hx.
Qed.

Definition fin64 (x : b64) (r : R) : Prop := is_finite x = true /\ B2R64 x = r.
Definition fin32 (x : b32) (r : R) : Prop := is_finite x = true /\ B2R32 x = r.

Lemma no_ovf64 x : (Rabs x <= bpow radix2 1023)%R ->
  Rlt_bool (Rabs (RN64 x)) (bpow radix2 1024) = true.
Proof.
  intros H. apply Rlt_bool_true.
  apply Rle_lt_trans with (bpow radix2 1023).
  - apply RN64_small; [lia|exact H].
  - apply bpow_lt. lia.
Qed.

Lemma no_ovf32 x : (Rabs x <= bpow radix2 127)%R ->
  Rlt_bool (Rabs (RN32 x)) (bpow radix2 128) = true.
Proof.
  intros H. apply Rlt_bool_true.
  apply Rle_lt_trans with (bpow radix2 127).
  - apply RN32_small; [lia|exact H].
  - apply bpow_lt. lia.
Qed.

Lemma d_add_ok x y a b : fin64 x a -> fin64 y b -> (Rabs (a + b) <= bpow radix2 1023)%R ->
  fin64 (d_add x y) (RN64 (a + b)).
Proof.
  intros [Hx <-] [Hy <-] Hb.
  pose proof (Bplus_correct 53 1024 prec_gt_0_64 prec_lt_emax_64 mode_NE x y Hx Hy) as H.
  change (round radix2 (SpecFloat.fexp 53 1024) (round_mode mode_NE)) with RN64 in H.
  rewrite no_ovf64 in H by exact Hb. destruct H as (H1 & H2 & _). split; assumption.
Qed.

Lemma d_sub_ok x y a b : fin64 x a -> fin64 y b -> (Rabs (a - b) <= bpow radix2 1023)%R ->
  fin64 (d_sub x y) (RN64 (a - b)).
Proof.
  intros [Hx <-] [Hy <-] Hb.
  pose proof (Bminus_correct 53 1024 prec_gt_0_64 prec_lt_emax_64 mode_NE x y Hx Hy) as H.
  change (round radix2 (SpecFloat.fexp 53 1024) (round_mode mode_NE)) with RN64 in H.
  rewrite no_ovf64 in H by exact Hb. destruct H as (H1 & H2 & _). split; assumption.
Qed.

Lemma d_mul_ok x y a b : fin64 x a -> fin64 y b -> (Rabs (a * b) <= bpow radix2 1023)%R ->
  fin64 (d_mul x y) (RN64 (a * b)).
Proof.
  intros [Hx <-] [Hy <-] Hb.
  pose proof (Bmult_correct 53 1024 prec_gt_0_64 prec_lt_emax_64 mode_NE x y) as H.
  change (round radix2 (SpecFloat.fexp 53 1024) (round_mode mode_NE)) with RN64 in H.
  rewrite no_ovf64 in H by exact Hb. destruct H as (H1 & H2 & _).
  rewrite Hx, Hy in H2. split; assumption.
Qed.

Lemma d_div_ok x y a b : fin64 x a -> fin64 y b -> b <> 0%R -> (Rabs (a / b) <= bpow radix2 1023)%R ->
  fin64 (d_div x y) (RN64 (a / b)).
Proof.
  intros [Hx <-] [Hy <-] H0 Hb.
  pose proof (Bdiv_correct 53 1024 prec_gt_0_64 prec_lt_emax_64 mode_NE x y H0) as H.
  change (round radix2 (SpecFloat.fexp 53 1024) (round_mode mode_NE)) with RN64 in H.
  rewrite no_ovf64 in H by exact Hb. destruct H as (H1 & H2 & _).
  rewrite Hx in H2. split; assumption.
Qed.

Lemma d_fma_ok x y z a b c : fin64 x a -> fin64 y b -> fin64 z c ->
  (Rabs (a * b + c) <= bpow radix2 1023)%R ->
  fin64 (d_fma x y z) (RN64 (a * b + c)).
Proof.
  intros [Hx <-] [Hy <-] [Hz <-] Hb.
  pose proof (Bfma_correct 53 1024 prec_gt_0_64 prec_lt_emax_64 mode_NE x y z Hx Hy Hz) as H.
  cbv zeta in H.
  change (round radix2 (SpecFloat.fexp 53 1024) (round_mode mode_NE)) with RN64 in H.
  rewrite no_ovf64 in H by exact Hb. destruct H as (H1 & H2 & _). split; assumption.
Qed.

Lemma d_of_Z_ok z : (Rabs (IZR z) <= bpow radix2 1023)%R -> fin64 (d_of_Z z) (RN64 (IZR z)).
Proof.
  intros Hb.
  pose proof (binary_normalize_correct 53 1024 prec_gt_0_64 prec_lt_emax_64 mode_NE z 0 false) as H.
  cbv zeta in H.
  replace (F2R (Float radix2 z 0)) with (IZR z) in H by (unfold F2R; cbn; ring).
  change (round radix2 (SpecFloat.fexp 53 1024) (round_mode mode_NE)) with RN64 in H.
  rewrite no_ovf64 in H by exact Hb. destruct H as (H1 & H2 & _). split; assumption.
Qed.

Lemma d_trunc_ok x r : B2R64 x = r -> d_trunc x = Ztrunc r.
Proof.
  intros <-. apply eq_IZR. unfold d_trunc. rewrite Btrunc_correct by exact prec_lt_emax_64.
  unfold round, scaled_mantissa, cexp, FIX_exp, F2R. cbn. rewrite !Rmult_1_r. reflexivity.
Qed.

Lemma f_add_ok x y a b : fin32 x a -> fin32 y b -> (Rabs (a + b) <= bpow radix2 127)%R ->
  fin32 (f_add x y) (RN32 (a + b)).
Proof.
  intros [Hx <-] [Hy <-] Hb.
  pose proof (Bplus_correct 24 128 prec_gt_0_32 prec_lt_emax_32 mode_NE x y Hx Hy) as H.
  change (round radix2 (SpecFloat.fexp 24 128) (round_mode mode_NE)) with RN32 in H.
  rewrite no_ovf32 in H by exact Hb. destruct H as (H1 & H2 & _). split; assumption.
Qed.

Lemma f_sub_ok x y a b : fin32 x a -> fin32 y b -> (Rabs (a - b) <= bpow radix2 127)%R ->
  fin32 (f_sub x y) (RN32 (a - b)).
Proof.
  intros [Hx <-] [Hy <-] Hb.
  pose proof (Bminus_correct 24 128 prec_gt_0_32 prec_lt_emax_32 mode_NE x y Hx Hy) as H.
  change (round radix2 (SpecFloat.fexp 24 128) (round_mode mode_NE)) with RN32 in H.
  rewrite no_ovf32 in H by exact Hb. destruct H as (H1 & H2 & _). split; assumption.
Qed.

Lemma f_mul_ok x y a b : fin32 x a -> fin32 y b -> (Rabs (a * b) <= bpow radix2 127)%R ->
  fin32 (f_mul x y) (RN32 (a * b)).
Proof.
  intros [Hx <-] [Hy <-] Hb.
  pose proof (Bmult_correct 24 128 prec_gt_0_32 prec_lt_emax_32 mode_NE x y) as H.
  change (round radix2 (SpecFloat.fexp 24 128) (round_mode mode_NE)) with RN32 in H.
  rewrite no_ovf32 in H by exact Hb. destruct H as (H1 & H2 & _).
  rewrite Hx, Hy in H2. split; assumption.
Qed.

Lemma f_of_Z_ok z : (Rabs (IZR z) <= bpow radix2 127)%R -> fin32 (f_of_Z z) (RN32 (IZR z)).
Proof.
  intros Hb.
  pose proof (binary_normalize_correct 24 128 prec_gt_0_32 prec_lt_emax_32 mode_NE z 0 false) as H.
  cbv zeta in H.
  replace (F2R (Float radix2 z 0)) with (IZR z) in H by (unfold F2R; cbn; ring).
  change (round radix2 (SpecFloat.fexp 24 128) (round_mode mode_NE)) with RN32 in H.
  rewrite no_ovf32 in H by exact Hb. destruct H as (H1 & H2 & _). split; assumption.
Qed.

Lemma f_trunc_ok x r : B2R32 x = r -> f_trunc x = Ztrunc r.
Proof.
  intros <-. apply eq_IZR. unfold f_trunc. rewrite Btrunc_correct by exact prec_lt_emax_32.
  unfold round, scaled_mantissa, cexp, FIX_exp, F2R. cbn. rewrite !Rmult_1_r. reflexivity.
Qed.
