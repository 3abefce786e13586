(* The momentum update as an equation, and the accuracy of its rotation angle. *)
From Coq Require Import Reals Lra Ratan.
From Verif Require Import ParticleModel ParticleSpec ParticleProofs ParticleProofs2 KernelProofs.
Open Scope R_scope.

Lemma rot_equation t cb u : let u' := rot t cb u in let s := vadd Rnum u u' in
  vx u' - vx u = t * vx (cross s cb) /\ vy u' - vy u = t * vy (cross s cb) /\ vz u' - vz u = t * vz (cross s cb).
Proof.
  pose proof (rot_den cb t) as D. destruct cb as [b1 b2 b3], u as [u1 u2 u3]. unfold rot, norm2, cross, vadd, vmap2 in *. opR. cbv zeta in *. cbn [vx vy vz] in *.
  repeat split; field; exact D.
Qed.

(* ---- tan on [0, 1/2] ---- *)
Lemma pi_big : 1 / 2 < PI / 4.
Proof. pose proof PI2_1. lra. Qed.
Lemma tan_der x : 0 <= x <= 1 / 2 -> derivable_pt_lim tan x (1 + tan x * tan x).
Proof.
  intros H. pose proof pi_big. pose proof PI_RGT_0. assert (P : - PI / 2 < x < PI / 2) by lra.
  replace (1 + tan x * tan x) with (derive_pt tan x (derivable_pt_tan x P)) by (rewrite derive_pt_tan; ring).
  exact (proj2_sig (derivable_pt_tan x P)).
Qed.
Lemma tan_range x : 0 <= x <= 1 / 2 -> 0 <= tan x <= 1.
Proof.
  intros H. pose proof pi_big as P. split.
  - destruct (Req_dec x 0) as [-> |N]; [rewrite tan_0; lra|]. rewrite <- tan_0. left. apply tan_increasing_1; lra.
  - rewrite <- tan_PI4. left. apply tan_increasing_1; lra.
Qed.
Definition poly (a b c x : R) : R := x + a * x ^ 3 + b * x ^ 5 + c * x ^ 7.
Lemma poly_der a b c x : derivable_pt_lim (poly a b c) x (1 + 3 * a * x ^ 2 + 5 * b * x ^ 4 + 7 * c * x ^ 6).
Proof.
  replace (1 + 3 * a * x ^ 2 + 5 * b * x ^ 4 + 7 * c * x ^ 6) with (1 + a * (INR 3 * x ^ 2) + b * (INR 5 * x ^ 4) + c * (INR 7 * x ^ 6)) by (cbn [INR]; ring).
  apply (derivable_pt_lim_plus (fun x => x + a * x ^ 3 + b * x ^ 5) (fun x => c * x ^ 7)); [apply (derivable_pt_lim_plus (fun x => x + a * x ^ 3) (fun x => b * x ^ 5)); [apply (derivable_pt_lim_plus (fun x => x) (fun x => a * x ^ 3)); [apply derivable_pt_lim_id|]|]|].
  - apply (derivable_pt_lim_scal (fun x => x ^ 3) a). apply (derivable_pt_lim_pow x 3).
  - apply (derivable_pt_lim_scal (fun x => x ^ 5) b). apply (derivable_pt_lim_pow x 5).
  - apply (derivable_pt_lim_scal (fun x => x ^ 7) c). apply (derivable_pt_lim_pow x 7).
Qed.
Lemma compare f g f' g' x : 0 <= x -> f 0 = g 0 -> (forall y, 0 <= y <= x -> derivable_pt_lim f y (f' y)) -> (forall y, 0 <= y <= x -> derivable_pt_lim g y (g' y)) ->
  (forall y, 0 <= y <= x -> f' y <= g' y) -> f x <= g x.
Proof.
  intros Hx E Df Dg H. destruct (Req_dec x 0) as [-> |N]; [lra|].
  destruct (MVT_cor2 (fun y => g y - f y) (fun y => g' y - f' y) 0 x ltac:(lra)) as (c & Ec & Hc).
  - intros y Hy. apply (derivable_pt_lim_minus g f); [apply Dg|apply Df]; lra.
  - specialize (H c ltac:(lra)). assert (0 <= (g' c - f' c) * (x - 0)) by (apply Rmult_le_pos; lra). lra.
Qed.
Lemma poly_0 a b c : poly a b c 0 = tan 0.
Proof. rewrite tan_0. unfold poly. ring. Qed.
Lemma above a b c x : 0 <= x <= 1 / 2 -> (forall y, 0 <= y <= x -> tan y * tan y <= 3 * a * y ^ 2 + 5 * b * y ^ 4 + 7 * c * y ^ 6) -> tan x <= poly a b c x.
Proof.
  intros Hx H. apply (compare tan (poly a b c) (fun y => 1 + tan y * tan y) (fun x => 1 + 3 * a * x ^ 2 + 5 * b * x ^ 4 + 7 * c * x ^ 6)); [lra|symmetry; apply poly_0| | |].
  - intros y Hy. apply tan_der. lra.
  - intros y _. apply poly_der.
  - intros y Hy. specialize (H y Hy). lra.
Qed.
Lemma below a b c x : 0 <= x <= 1 / 2 -> (forall y, 0 <= y <= x -> 3 * a * y ^ 2 + 5 * b * y ^ 4 + 7 * c * y ^ 6 <= tan y * tan y) -> poly a b c x <= tan x.
Proof.
  intros Hx H. apply (compare (poly a b c) tan (fun x => 1 + 3 * a * x ^ 2 + 5 * b * x ^ 4 + 7 * c * x ^ 6) (fun y => 1 + tan y * tan y)); [lra|apply poly_0| | |].
  - intros y _. apply poly_der.
  - intros y Hy. apply tan_der. lra.
  - intros y Hy. specialize (H y Hy). lra.
Qed.
Lemma sq_le a b : 0 <= a <= b -> a * a <= b * b.
Proof. intros H. nra. Qed.
Lemma tan_2x x : 0 <= x <= 1 / 2 -> tan x <= 2 * x.
Proof.
  intros Hx. apply (compare tan (fun x => 2 * x) (fun y => 1 + tan y * tan y) (fun _ => 2 * 1)); [lra|rewrite tan_0; ring| | |].
  - intros y Hy. apply tan_der. lra.
  - intros y _. apply (derivable_pt_lim_scal (fun x => x) 2). apply derivable_pt_lim_id.
  - intros y Hy. pose proof (tan_range y ltac:(lra)). nra.
Qed.
Lemma tan_up1 x : 0 <= x <= 1 / 2 -> tan x <= poly (4 / 3) 0 0 x.
Proof.
  intros Hx. apply above; [exact Hx|]. intros y Hy. pose proof (tan_range y ltac:(lra)) as T. pose proof (tan_2x y ltac:(lra)) as U. pose proof (sq_le _ _ (conj (proj1 T) U)). nra.
Qed.
Lemma tan_up2 x : 0 <= x <= 1 / 2 -> tan x <= poly (1 / 3) (28 / 45) 0 x.
Proof.
  intros Hx. apply above; [exact Hx|]. intros y Hy. pose proof (tan_range y ltac:(lra)) as T. pose proof (tan_up1 y ltac:(lra)) as U. pose proof (sq_le _ _ (conj (proj1 T) U)) as S. unfold poly in S.
  assert (Q : y ^ 6 <= 1 / 4 * y ^ 4).
  { replace (y ^ 6) with (y ^ 2 * y ^ 4) by ring. apply Rmult_le_compat_r; [apply pow_le; lra|]. nra. }
  replace ((y + 4 / 3 * y ^ 3 + 0 * y ^ 5 + 0 * y ^ 7) * (y + 4 / 3 * y ^ 3 + 0 * y ^ 5 + 0 * y ^ 7)) with (y ^ 2 + 8 / 3 * y ^ 4 + 16 / 9 * y ^ 6) in S by field. lra.
Qed.
Lemma tan_up3 x : 0 <= x <= 1 / 2 -> tan x <= poly (1 / 3) (2 / 15) (3 / 14) x.
Proof.
  intros Hx. apply above; [exact Hx|]. intros y Hy. pose proof (tan_range y ltac:(lra)) as T. pose proof (tan_up2 y ltac:(lra)) as U. pose proof (sq_le _ _ (conj (proj1 T) U)) as S. unfold poly in S.
  assert (Q1 : y ^ 8 <= 1 / 4 * y ^ 6). { replace (y ^ 8) with (y ^ 2 * y ^ 6) by ring. apply Rmult_le_compat_r; [apply pow_le; lra|]. nra. }
  assert (Q2 : y ^ 10 <= 1 / 16 * y ^ 6). { replace (y ^ 10) with (y ^ 2 * y ^ 8) by ring. apply Rle_trans with (1 / 4 * y ^ 8); [|lra]. apply Rmult_le_compat_r; [apply pow_le; lra|]. nra. }
  replace ((y + 1 / 3 * y ^ 3 + 28 / 45 * y ^ 5 + 0 * y ^ 7) * (y + 1 / 3 * y ^ 3 + 28 / 45 * y ^ 5 + 0 * y ^ 7)) with (y ^ 2 + 2 / 3 * y ^ 4 + 61 / 45 * y ^ 6 + 56 / 135 * y ^ 8 + 784 / 2025 * y ^ 10) in S by field.
  assert (0 <= y ^ 6) by (apply pow_le; lra). lra.
Qed.
Lemma tan_low x : 0 <= x <= 1 / 2 -> poly (1 / 3) (2 / 15) 0 x <= tan x.
Proof.
  assert (L1 : forall x, 0 <= x <= 1 / 2 -> poly 0 0 0 x <= tan x).
  { intros y Hy. apply below; [exact Hy|]. intros z Hz. pose proof (tan_range z ltac:(lra)). nra. }
  assert (L2 : forall x, 0 <= x <= 1 / 2 -> poly (1 / 3) 0 0 x <= tan x).
  { intros y Hy. apply below; [exact Hy|]. intros z Hz. pose proof (L1 z ltac:(lra)) as U. unfold poly in U. pose proof (sq_le z (tan z) ltac:(lra)). lra. }
  intros Hx. apply below; [exact Hx|]. intros y Hy. pose proof (L2 y ltac:(lra)) as U. assert (0 <= poly (1 / 3) 0 0 y) as V. { unfold poly. assert (0 <= y ^ 3) by (apply pow_le; lra). lra. }
  pose proof (sq_le _ _ (conj V U)) as S. unfold poly in S. assert (0 <= y ^ 6) by (apply pow_le; lra).
  replace ((y + 1 / 3 * y ^ 3 + 0 * y ^ 5 + 0 * y ^ 7) * (y + 1 / 3 * y ^ 3 + 0 * y ^ 5 + 0 * y ^ 7)) with (y ^ 2 + 2 / 3 * y ^ 4 + 1 / 9 * y ^ 6) in S by field. lra.
Qed.
