From Coq Require Import Reals Lra ZArith List Bool Lia.
From Flocq Require Import Core Relative IEEE754.BinarySingleNaN.
From Verif Require Import FloatModel FloatProofs ConvProofs DistributeModel InjectModel InjectProofs ProfileModel.
Import ListNotations.
Open Scope Z_scope.

(* a time in seconds: zero, or between 2^-60 and c 2^60 *)
Definition clock (c : Z) (x : b64) (a : R) : Prop := fin64 x a /\ (a = 0 \/ bpow radix2 (-60) <= a)%R /\ (a <= IZR c * bpow radix2 60)%R.
Lemma clock_0 : forall c, 0 <= c -> clock c (d_of_Z 0) 0.
Proof.
  intros c C. split; [apply (fin64_Z 0); lia|]. split; [left; reflexivity|]. apply Rmult_le_pos; [apply IZR_le; lia|apply bpow_ge_0].
Qed.
Lemma clock_nonneg : forall c x a, clock c x a -> (0 <= a)%R.
Proof. intros c x a (_ & [->|H] & _); [lra|]. pose proof (bpow_gt_0 radix2 (-60)). lra. Qed.
Lemma RN64_scaled : forall c, 0 <= c <= 2 ^ 53 -> RN64 (IZR c * bpow radix2 60) = (IZR c * bpow radix2 60)%R.
Proof. intros c C. apply RN64_exact; lia. Qed.
Lemma RN64_bpow : forall k, -1000 <= k <= 1000 -> RN64 (bpow radix2 k) = bpow radix2 k.
Proof. intros k K. rewrite <- (Rmult_1_l (bpow radix2 k)). apply (RN64_exact 1); lia. Qed.
Lemma clock_add : forall c d x y a b, 0 <= c -> 0 <= d -> c + d <= 2 ^ 53 -> clock c x a -> clock d y b ->
  exists r, clock (c + d) (d_add x y) r /\ (a <= r)%R /\ (b <= r)%R /\ (r = 0 -> a = 0 /\ b = 0)%R.
Proof.
  intros c d x y a b C D CD X Y. pose proof (clock_nonneg _ _ _ X) as PA. pose proof (clock_nonneg _ _ _ Y) as PB.
  destruct X as (FX & LX & UX), Y as (FY & LY & UY).
  assert (S : (a + b <= IZR (c + d) * bpow radix2 60)%R) by (rewrite plus_IZR; lra).
  assert (O : (Rabs (a + b) <= bpow radix2 1023)%R).
  { rewrite Rabs_pos_eq by lra. apply Rle_trans with (1 := S). apply Rle_trans with (bpow radix2 53 * bpow radix2 60)%R; [apply Rmult_le_compat_r; [apply bpow_ge_0|]; change (bpow radix2 53) with (IZR (2 ^ 53)); apply IZR_le; lia|].
    rewrite <- bpow_plus. apply bpow_le. lia. }
  exists (RN64 (a + b)). pose proof (fin64_F _ _ FX) as GA. pose proof (fin64_F _ _ FY) as GB.
  assert (RA : (a <= RN64 (a + b))%R) by (rewrite <- (RN64_id a GA) at 1; apply RN64_le; lra).
  assert (RB : (b <= RN64 (a + b))%R) by (rewrite <- (RN64_id b GB) at 1; apply RN64_le; lra).
  pose proof (bpow_gt_0 radix2 (-60)) as P60.
  split; [split; [apply d_add_ok; assumption|split]|].
  - destruct LX as [->|LX]; [|right; lra]. destruct LY as [->|LY]; [|right; lra]. left. rewrite Rplus_0_r. apply (RN64_Z 0). lia.
  - rewrite <- (RN64_scaled (c + d)) by lia. apply RN64_le, S.
  - split; [exact RA|]. split; [exact RB|]. intro Z. rewrite Z in RA, RB. split; lra.
Qed.

(* sums of the first loop *)
Definition timer_ok (p : timer) : Prop := (exists a, clock 1 (t p) a) /\ (exists a, clock 1 (t_total p) a) /\ - 2 ^ 31 <= n_total p + n p < 2 ^ 31.
Lemma int_add_ok : forall a b, - 2 ^ 31 <= a + b < 2 ^ 31 -> int_add a b = Some (a + b).
Proof. intros a b H. unfold int_add. replace ((- 2 ^ 31 <=? a + b) && (a + b <? 2 ^ 31)) with true; [reflexivity|]. symmetry. apply andb_true_iff. split; [apply Z.leb_le|apply Z.ltb_lt]; lia. Qed.
Lemma add_up_ok : forall ps c d s s' a a', Forall timer_ok ps -> 0 <= c -> 0 <= d -> c + Z.of_nat (length ps) <= 2 ^ 52 -> d + 2 * Z.of_nat (length ps) <= 2 ^ 52 -> clock c s a -> clock d s' a' ->
  exists qs S S' A A', add_up ps s s' = Some (qs, S, S') /\ clock (2 ^ 52) S A /\ clock (2 ^ 52) S' A' /\ (a <= A)%R /\ (a' <= A')%R /\
    Forall2 (fun p q => t q = t p /\ t_total q = d_add (t_total p) (t p) /\ n q = n p /\ n_total q = n_total p + n p) ps qs /\
    Forall (fun q => (exists x, clock 1 (t q) x /\ (x <= A)%R) /\ (exists x, clock 2 (t_total q) x /\ (x <= A')%R)) qs.
Proof.
  induction ps as [|p ps IH]; intros c d s s' a a' F C D LC LD KS KS'.
  - exists [], s, s', a, a'. cbn [length] in *. split; [reflexivity|].
    assert (W : forall e x y, clock e x y -> 0 <= e <= 2 ^ 52 -> clock (2 ^ 52) x y).
    { intros e x y (H1 & H2 & H3) E. split; [exact H1|]. split; [exact H2|]. apply Rle_trans with (1 := H3). apply Rmult_le_compat_r; [apply bpow_ge_0|apply IZR_le; lia]. }
    split; [apply (W c); [exact KS|lia]|]. split; [apply (W d); [exact KS'|lia]|]. split; [lra|]. split; [lra|]. split; constructor.
  - apply Forall_cons_iff in F. destruct F as [((x & KX) & (y & KY) & KN) F']. cbn [length] in LC, LD. rewrite Nat2Z.inj_succ in LC, LD.
    destruct (clock_add 1 1 _ _ _ _ ltac:(lia) ltac:(lia) ltac:(lia) KY KX) as (tt & KT & _).
    destruct (clock_add c 1 _ _ _ _ C ltac:(lia) ltac:(lia) KS KX) as (r & KR & R1 & R2 & _).
    destruct (clock_add d 2 _ _ _ _ D ltac:(lia) ltac:(lia) KS' KT) as (r' & KR' & R1' & R2' & _).
    destruct (IH (c + 1) (d + 2) _ _ _ _ F' ltac:(lia) ltac:(lia) ltac:(lia) ltac:(lia) KR KR') as (qs & S & S' & A & A' & E & KA & KA' & G & G' & F2 & FC).
    exists (mk_timer (t p) (d_add (t_total p) (t p)) (n p) (n_total p + n p) :: qs), S, S', A, A'.
    cbn [add_up]. rewrite int_add_ok by exact KN. rewrite E. split; [reflexivity|]. split; [exact KA|]. split; [exact KA'|]. split; [lra|]. split; [lra|].
    split; [constructor; [cbn; auto|exact F2]|]. constructor; [|exact FC]. cbn [t t_total]. split; [exists x; split; [exact KX|lra]|exists tt; split; [exact KT|lra]].
Qed.

(* a percentage *)
Lemma percent_ok : forall x s a b e, clock e x a -> clock (2 ^ 52) s b -> (a <= b)%R -> (b <> 0)%R ->
  exists k, percent x s = Some k /\ 0 <= k <= 100 /\ (Rabs (IZR k - 100 * a / b) <= / 2 + / 1000000)%R.
Proof.
  intros x s a b e KX KS AB NB. pose proof (clock_nonneg _ _ _ KX) as PA. destruct KX as (FX & LX & UX), KS as (FS & LS & US).
  destruct LS as [LS|LS]; [contradiction|]. pose proof (bpow_gt_0 radix2 (-60)) as P60. assert (PB : (0 < b)%R) by lra.
  set (u := bpow radix2 (-53)). assert (Hu : (0 < u <= / 1000000000)%R) by (unfold u; cbn; lra).
  assert (B112 : (b <= bpow radix2 112)%R) by (apply Rle_trans with (1 := US); change (IZR (2 ^ 52)) with (bpow radix2 52); rewrite <- bpow_plus; apply bpow_le; lia).
  assert (B120 : (bpow radix2 112 * 256 = bpow radix2 120)%R) by (change 256%R with (bpow radix2 8); rewrite <- bpow_plus; reflexivity).
  assert (O1 : (Rabs (100 * a) <= bpow radix2 1023)%R) by (rewrite Rabs_pos_eq by lra; apply Rle_trans with (bpow radix2 120); [lra|apply bpow_le; lia]).
  pose proof (d_mul_ok _ _ _ _ (fin64_Z 100 ltac:(lia)) FX O1) as F1.
  set (m := RN64 (100 * a)) in *.
  assert (M1 : (Rabs (m - 100 * a) <= 100 * a * u)%R).
  { destruct LX as [->|LX]; [unfold m; rewrite Rmult_0_r; replace (RN64 0) with 0%R by (symmetry; apply (RN64_Z 0); lia); rewrite Rminus_0_r, Rabs_R0; lra|].
    apply RN64_rel; [|rewrite Rabs_pos_eq by lra; lra]. apply Rle_trans with (bpow radix2 (-60)); [apply bpow_le; lia|lra]. }
  apply Rabs_le_inv in M1. set (q := (a / b)%R). assert (Q : (0 <= q <= 1)%R).
  { unfold q. split; [apply Rmult_le_pos; [lra|left; apply Rinv_0_lt_compat; lra]|]. apply (Rmult_le_reg_r b); [lra|]. unfold Rdiv. rewrite Rmult_assoc, Rinv_l by lra. lra. }
  assert (EM : (m / b = 100 * q + (m - 100 * a) / b)%R) by (unfold q; field; lra).
  assert (ED : (Rabs ((m - 100 * a) / b) <= 100 * u)%R).
  { unfold Rdiv. rewrite Rabs_mult, (Rabs_pos_eq (/ b)) by (left; apply Rinv_0_lt_compat; lra). apply (Rmult_le_reg_r b); [lra|]. rewrite Rmult_assoc, Rinv_l by lra. rewrite Rmult_1_r.
    apply Rle_trans with (100 * a * u)%R; [apply Rabs_le; lra|]. replace (100 * u * b)%R with (100 * b * u)%R by ring. apply Rmult_le_compat_r; lra. }
  apply Rabs_le_inv in ED.
  assert (PM : (0 <= m)%R). { unfold m. replace 0%R with (RN64 0) by (apply (RN64_Z 0); lia). apply RN64_le. lra. }
  assert (PQ : (0 <= m / b)%R) by (apply Rmult_le_pos; [exact PM|left; apply Rinv_0_lt_compat; lra]).
  assert (O2 : (Rabs (m / b) <= bpow radix2 1023)%R) by (rewrite Rabs_pos_eq by exact PQ; apply Rle_trans with (bpow radix2 8); [change (bpow radix2 8) with 256%R; lra|apply bpow_le; lia]).
  pose proof (d_div_ok _ _ _ _ F1 FS NB O2) as F2. set (v := RN64 (m / b)) in *.
  assert (V1 : (Rabs (v - m / b) <= bpow radix2 (8 - 53))%R) by (apply RN64_err; [lia|]; rewrite Rabs_pos_eq by exact PQ; change (bpow radix2 8) with 256%R; lra).
  apply Rabs_le_inv in V1. assert (V45 : (bpow radix2 (8 - 53) <= / 1000000000)%R) by (cbn; lra).
  assert (PV : (0 <= v)%R). { unfold v. replace 0%R with (RN64 0) by (apply (RN64_Z 0); lia). apply RN64_le. exact PQ. }
  assert (HH : bpow radix2 (-1) = (/ 2)%R) by reflexivity.
  assert (O3 : (Rabs (v + bpow radix2 (-1)) <= bpow radix2 8)%R) by (rewrite HH, Rabs_pos_eq by lra; change (bpow radix2 8) with 256%R; lra).
  pose proof (d_add_ok _ _ _ _ F2 half64 (Rle_trans _ _ _ O3 (bpow_le radix2 8 1023 ltac:(lia)))) as F3.
  set (w := RN64 (v + bpow radix2 (-1))) in *.
  assert (W1 : (Rabs (w - (v + bpow radix2 (-1))) <= bpow radix2 (8 - 53))%R) by (apply RN64_err; [lia|exact O3]).
  apply Rabs_le_inv in W1. rewrite HH in W1. destruct F3 as [FF FV].
  exists (Ztrunc w). unfold percent, to_int. fold d_half in FF, FV. rewrite FF. rewrite (d_trunc_ok _ w FV).
  assert (PW : (0 <= w)%R) by lra. rewrite (Ztrunc_floor w PW). pose proof (Zfloor_lb w) as L1. pose proof (Zfloor_ub w) as L2.
  assert (K0 : 0 <= Zfloor w) by (apply Zfloor_lub; exact PW). assert (K1 : Zfloor w < 101) by (apply lt_IZR; lra).
  replace ((- 2 ^ 31 <=? Zfloor w) && (Zfloor w <? 2 ^ 31)) with true by (symmetry; apply andb_true_iff; split; [apply Z.leb_le|apply Z.ltb_lt]; lia).
  split; [reflexivity|]. split; [lia|]. replace (100 * a / b)%R with (100 * q)%R by (unfold q; field; lra). apply Rabs_le. lra.
Qed.
