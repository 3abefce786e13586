From Coq Require Import ZArith Reals Lia Lra Psatz ZifyBool.
From Flocq Require Import Core Relative.
From Verif Require Import FloatModel FloatProofs DistributeModel.

Open Scope Z_scope.

#[local] Instance prec64 : Prec_gt_0 53.
Proof. unfold Prec_gt_0. lia. Qed.

Lemma RN64_le x y : (x <= y)%R -> (RN64 x <= RN64 y)%R.
Proof. intros H. unfold RN64. apply round_le; [apply FLT_exp_valid, prec64 | apply valid_rnd_N | exact H]. Qed.

(* numbers m/4 with |m| < 2^53 are representable *)
Lemma RN64_quarter m : Z.abs m < 2 ^ 53 -> RN64 (IZR m / 4) = (IZR m / 4)%R.
Proof.
  intros H. unfold RN64. apply round_generic; [apply valid_rnd_N|].
  apply generic_format_FLT.
  exists (Float radix2 m (-2)).
  - unfold F2R; simpl. lra.
  - simpl. exact H.
  - simpl. lia.
Qed.

Lemma RN64_int n : Z.abs n < 2 ^ 51 -> RN64 (IZR n) = IZR n.
Proof.
  intros H. replace (IZR n) with (IZR (4 * n) / 4)%R by (rewrite mult_IZR; lra).
  apply RN64_quarter. lia.
Qed.

Lemma RN64_0 : RN64 0 = 0%R.
Proof. apply (RN64_int 0). reflexivity. Qed.

Lemma RN64_nonneg x : (0 <= x)%R -> (0 <= RN64 x)%R.
Proof. intros H. rewrite <- RN64_0. apply RN64_le, H. Qed.

Lemma RN64_rel x : (x = 0 \/ bpow radix2 (-1000) <= Rabs x)%R ->
  (Rabs (RN64 x - x) <= / 2 * bpow radix2 (-52) * Rabs x)%R.
Proof.
  intros [-> | H].
  - rewrite RN64_0. rewrite Rminus_0_r, Rabs_R0. lra.
  - unfold RN64. apply (relative_error_N_FLT radix2 (-1074) 53 prec64).
    apply Rle_trans with (2 := H). apply bpow_le. lia.
Qed.

Lemma bpow52 : bpow radix2 (-52) = (/ 4503599627370496)%R.
Proof. reflexivity. Qed.

Lemma bpow1000_small (x : R) : (/ 4294967296 <= x)%R -> (bpow radix2 (-1000) <= x)%R.
Proof.
  intros H. apply Rle_trans with (2 := H).
  replace (/ 4294967296)%R with (bpow radix2 (-32)) by reflexivity.
  apply bpow_le. lia.
Qed.

Section Split.
Variables (q P : Z).
Hypothesis Hq : 0 <= q < 2 ^ 31.
Hypothesis HP : 1 <= P < 2 ^ 31.

Definition tt : R := RN64 (RN64 (IZR q) / RN64 (IZR P)).

Lemma tt_eq : tt = RN64 (IZR q / IZR P).
Proof. unfold tt. rewrite !RN64_int by lia. reflexivity. Qed.

Lemma IZRP : (1 <= IZR P)%R.
Proof. apply IZR_le. lia. Qed.

Lemma IZRP' : (IZR P < 2147483648)%R.
Proof. apply IZR_lt. lia. Qed.

Lemma IZRq : (0 <= IZR q < 2147483648)%R.
Proof. split; [apply IZR_le | apply IZR_lt]; lia. Qed.

Lemma quot_lower : q <> 0 -> (/ 2147483648 <= IZR q / IZR P)%R.
Proof.
  intros Hn. pose proof IZRP. pose proof IZRP'.
  assert (1 <= IZR q)%R by (apply IZR_le; lia).
  apply Rle_trans with (/ IZR P)%R.
  - apply Rinv_le; lra.
  - unfold Rdiv. rewrite <- (Rmult_1_l (/ IZR P)) at 1.
    apply Rmult_le_compat_r; [|assumption].
    left. apply Rinv_0_lt_compat. lra.
Qed.

Lemma quot_nonneg : (0 <= IZR q / IZR P)%R.
Proof.
  pose proof IZRP. pose proof IZRq.
  apply Rmult_le_pos; [lra|]. left. apply Rinv_0_lt_compat. lra.
Qed.

Lemma tt_nonneg : (0 <= tt)%R.
Proof. rewrite tt_eq. apply RN64_nonneg, quot_nonneg. Qed.

Lemma tt_err : (Rabs (tt - IZR q / IZR P) <= / 9007199254740992 * (IZR q / IZR P))%R.
Proof.
  rewrite tt_eq.
  pose proof quot_nonneg as Hnn.
  assert (HH : (Rabs (RN64 (IZR q / IZR P) - IZR q / IZR P)
                <= / 2 * bpow radix2 (-52) * Rabs (IZR q / IZR P))%R).
  { apply RN64_rel.
    destruct (Z.eq_dec q 0) as [->|Hn].
    - left. unfold Rdiv. apply Rmult_0_l.
    - right. rewrite Rabs_pos_eq by exact Hnn. apply bpow1000_small.
      pose proof (quot_lower Hn). lra. }
  rewrite (Rabs_pos_eq (IZR q / IZR P)) in HH by exact Hnn.
  rewrite bpow52 in HH. lra.
Qed.

(* t*p as a real is close to q*p/P *)
Lemma tp_err p : 0 <= p <= P ->
  (Rabs (tt * IZR p - IZR q * IZR p / IZR P) <= / 4194304)%R.
Proof.
  intros Hp. pose proof tt_err as He. pose proof IZRP as H1. pose proof IZRq as H2.
  assert (Hp0 : (0 <= IZR p)%R) by (apply IZR_le; lia).
  assert (HpP : (IZR p <= IZR P)%R) by (apply IZR_le; lia).
  replace (tt * IZR p - IZR q * IZR p / IZR P)%R
     with ((tt - IZR q / IZR P) * IZR p)%R by (field; lra).
  rewrite Rabs_mult. rewrite (Rabs_pos_eq (IZR p)) by exact Hp0.
  apply Rle_trans with (/ 9007199254740992 * (IZR q / IZR P) * IZR P)%R.
  - apply Rmult_le_compat; try assumption. apply Rabs_pos.
  - replace (/ 9007199254740992 * (IZR q / IZR P) * IZR P)%R
      with (/ 9007199254740992 * IZR q)%R by (field; lra). lra.
Qed.

Lemma qp_bound p : 0 <= p <= P -> (0 <= IZR q * IZR p / IZR P <= IZR q)%R.
Proof.
  intros Hp. pose proof IZRP as H1. pose proof IZRq as H2.
  assert (Hp0 : (0 <= IZR p)%R) by (apply IZR_le; lia).
  assert (HpP : (IZR p <= IZR P)%R) by (apply IZR_le; lia).
  split.
  - apply Rmult_le_pos; [apply Rmult_le_pos; lra|]. left. apply Rinv_0_lt_compat. lra.
  - apply (Rmult_le_reg_r (IZR P)); [lra|]. unfold Rdiv. rewrite Rmult_assoc.
    rewrite Rinv_l by lra. nra.
Qed.

(* the value before truncation *)
Definition pre (c : bool) (p : Z) : R :=
  if c then RN64 (tt * RN64 (IZR p) + / 2)
  else RN64 (RN64 (tt * RN64 (IZR p)) + / 2).

Lemma small_bound x : (Rabs x <= 4503599627370496)%R -> (Rabs x <= bpow radix2 1023)%R.
Proof.
  intros H. apply Rle_trans with (bpow radix2 52); [exact H|]. apply bpow_le. lia.
Qed.

Lemma of_int_ok n : 0 <= n < 2 ^ 31 -> fin64 (d_of_Z n) (IZR n).
Proof.
  intros Hn. rewrite <- (RN64_int n) at 1 by lia. apply d_of_Z_ok. apply small_bound.
  rewrite <- abs_IZR. apply IZR_le. lia.
Qed.

Lemma half_ok : fin64 d_half (/ 2)%R.
Proof. split; [reflexivity|]. cbv. lra. Qed.

Lemma tt_ok : fin64 (d_div (d_of_Z q) (d_of_Z P)) tt.
Proof.
  pose proof IZRP as H1. pose proof IZRq as H2. pose proof (qp_bound 1 ltac:(lia)) as H3.
  rewrite Rmult_1_r in H3.
  rewrite tt_eq. apply d_div_ok; [apply of_int_ok; lia|apply of_int_ok; lia|lra|].
  apply small_bound. rewrite Rabs_pos_eq; lra.
Qed.

Lemma split_pre c p : 0 <= p <= P -> split_point c q P p = Ztrunc (pre c p).
Proof.
  intros Hp. unfold split_point, pre.
  pose proof (tp_err p Hp) as H1. pose proof (qp_bound p Hp) as H2. pose proof IZRq as H3.
  pose proof tt_ok as Ht. pose proof (of_int_ok p ltac:(lia)) as Hpz. pose proof half_ok as Hh.
  rewrite (RN64_int p) by lia.
  apply Rabs_le_inv in H1.
  assert (Hb : (Rabs (tt * IZR p) <= bpow radix2 52)%R)
    by (apply Rabs_le; change (bpow radix2 52) with 4503599627370496%R; lra).
  assert (Hb' : (Rabs (RN64 (tt * IZR p)) <= bpow radix2 32)%R).
  { apply RN64_small; [lia|]. apply Rabs_le; change (bpow radix2 32) with 4294967296%R. lra. }
  destruct c; apply d_trunc_ok.
  - apply d_fma_ok; try assumption. apply small_bound. apply Rabs_le. lra.
  - apply d_add_ok; try assumption.
    + apply d_mul_ok; try assumption. apply small_bound. exact Hb.
    + apply small_bound. change (bpow radix2 32) with 4294967296%R in Hb'.
      apply Rabs_le. apply Rabs_le_inv in Hb'. lra.
Qed.

Lemma pre_nonneg c p : 0 <= p <= P -> (0 <= pre c p)%R.
Proof.
  intros Hp. pose proof tt_nonneg.
  assert (Hp0 : (0 <= IZR p)%R) by (apply IZR_le; lia).
  unfold pre. rewrite (RN64_int p) by lia.
  assert (0 <= tt * IZR p)%R by (apply Rmult_le_pos; assumption).
  destruct c; apply RN64_nonneg; [lra|].
  assert (0 <= RN64 (tt * IZR p))%R by (apply RN64_nonneg; assumption). lra.
Qed.

Lemma pre_mono c p p' : 0 <= p -> p <= p' -> p' <= P -> (pre c p <= pre c p')%R.
Proof.
  intros Hp Hpp Hp'. pose proof tt_nonneg.
  assert (HpP : (IZR p <= IZR p')%R) by (apply IZR_le; lia).
  unfold pre. rewrite !RN64_int by lia.
  assert (tt * IZR p <= tt * IZR p')%R by (apply Rmult_le_compat_l; assumption).
  destruct c; apply RN64_le; [lra|].
  assert (RN64 (tt * IZR p) <= RN64 (tt * IZR p'))%R by (apply RN64_le; assumption). lra.
Qed.

(* product rounded (or not) is within 2^-20 of the ideal *)
Lemma RN64_abs_err x : (0 <= x <= 4294967296)%R ->
  (Rabs (RN64 x - x) <= / 1048576)%R.
Proof.
  intros Hx.
  destruct (Req_dec x 0) as [->|Hx0].
  - rewrite RN64_0, Rminus_0_r, Rabs_R0. lra.
  - destruct (Rle_dec (bpow radix2 (-1000)) x) as [Hb|Hb].
    + assert (Hr : (Rabs (RN64 x - x) <= / 2 * bpow radix2 (-52) * Rabs x)%R).
      { apply RN64_rel. right. rewrite Rabs_pos_eq by lra. exact Hb. }
      rewrite bpow52 in Hr. rewrite (Rabs_pos_eq x) in Hr by lra. lra.
    + assert (Hx1 : (x <= / 4194304)%R).
      { apply Rle_trans with (bpow radix2 (-1000)); [lra|]. apply bpow1000_small. lra. }
      assert (H0 : (0 <= RN64 x)%R) by (apply RN64_nonneg; lra).
      assert (H1 : (RN64 x <= / 4)%R).
      { replace (/4)%R with (IZR 1 / 4)%R by lra. rewrite <- (RN64_quarter 1) by reflexivity.
        apply RN64_le. lra. }
      (* use monotonicity with 2^-22 *)
      assert (H2 : (RN64 x <= / 4194304)%R).
      { replace (/ 4194304)%R with (RN64 (/ 4194304)).
        - apply RN64_le. exact Hx1.
        - unfold RN64. apply round_generic; [apply valid_rnd_N|].
          replace (/ 4194304)%R with (bpow radix2 (-22)) by reflexivity.
          apply generic_format_bpow. unfold FLT_exp. lia. }
      apply Rabs_le. lra.
Qed.

Lemma pre_lower c p m : 0 <= p <= P -> 0 <= m <= 2 ^ 34 ->
  (IZR m + / 524288 <= IZR q * IZR p / IZR P + / 2)%R -> (IZR m <= pre c p)%R.
Proof.
  intros Hp Hm Hle.
  pose proof (tp_err p Hp) as He. apply Rabs_le_inv in He.
  pose proof (qp_bound p Hp) as Hb. pose proof IZRq as Hq'.
  pose proof tt_nonneg.
  assert (Hp0 : (0 <= IZR p)%R) by (apply IZR_le; lia).
  assert (Ht0 : (0 <= tt * IZR p)%R) by (apply Rmult_le_pos; assumption).
  rewrite <- (RN64_int m) by lia.
  unfold pre. rewrite (RN64_int p) by lia.
  destruct c; apply RN64_le; [lra|].
  assert (Hr : (Rabs (RN64 (tt * IZR p) - tt * IZR p) <= / 1048576)%R)
    by (apply RN64_abs_err; lra).
  apply Rabs_le_inv in Hr. lra.
Qed.

Lemma pre_upper c p m : 0 <= p <= P -> 0 <= m <= 2 ^ 34 ->
  (IZR q * IZR p / IZR P + / 2 + / 524288 <= IZR m / 4)%R -> (pre c p <= IZR m / 4)%R.
Proof.
  intros Hp Hm Hle.
  pose proof (tp_err p Hp) as He. apply Rabs_le_inv in He.
  pose proof (qp_bound p Hp) as Hb. pose proof IZRq as Hq'.
  pose proof tt_nonneg.
  assert (Hp0 : (0 <= IZR p)%R) by (apply IZR_le; lia).
  assert (Ht0 : (0 <= tt * IZR p)%R) by (apply Rmult_le_pos; assumption).
  rewrite <- (RN64_quarter m) by lia.
  unfold pre. rewrite (RN64_int p) by lia.
  destruct c; apply RN64_le; [lra|].
  assert (Hr : (Rabs (RN64 (tt * IZR p) - tt * IZR p) <= / 1048576)%R)
    by (apply RN64_abs_err; lra).
  apply Rabs_le_inv in Hr. lra.
Qed.

Lemma split_0 c : split_point c q P 0 = 0.
Proof.
  rewrite split_pre by lia.
  rewrite Ztrunc_floor by (apply pre_nonneg; lia).
  apply Zfloor_imp. change (IZR (0 + 1)) with 1%R.
  pose proof (pre_nonneg c 0 ltac:(lia)).
  assert (pre c 0 <= IZR 3 / 4)%R.
  { apply pre_upper; [lia|lia|].
    assert (Hz : (IZR q * IZR 0 / IZR P = 0)%R)
      by (unfold Rdiv; rewrite Rmult_0_r, Rmult_0_l; reflexivity).
    lra. }
  lra.
Qed.

Lemma split_P c : split_point c q P P = q.
Proof.
  pose proof IZRP as H1.
  rewrite split_pre by lia.
  rewrite Ztrunc_floor by (apply pre_nonneg; lia).
  assert (Heq : (IZR q * IZR P / IZR P = IZR q)%R) by (field; lra).
  apply Zfloor_imp. split.
  - apply pre_lower; [lia|lia|]. rewrite Heq. lra.
  - assert (pre c P <= IZR (4 * q + 3) / 4)%R.
    { apply pre_upper; [lia|lia|]. rewrite Heq, plus_IZR, mult_IZR. lra. }
    rewrite plus_IZR, mult_IZR in H. rewrite plus_IZR. lra.
Qed.

Lemma split_mono c p p' : 0 <= p -> p <= p' -> p' <= P ->
  split_point c q P p <= split_point c q P p'.
Proof.
  intros H1 H2 H3. rewrite !split_pre by lia. apply Ztrunc_le. apply pre_mono; assumption.
Qed.

(* balance: each split point is within one block of the ideal p*q/P *)
Lemma split_near c p : 0 <= p <= P ->
  (IZR q * IZR p / IZR P - 1 <= IZR (split_point c q P p) <= IZR q * IZR p / IZR P + 3/4)%R.
Proof.
  intros Hp. rewrite split_pre by lia.
  rewrite Ztrunc_floor by (apply pre_nonneg; exact Hp).
  pose proof (tp_err p Hp) as He. apply Rabs_le_inv in He.
  pose proof (qp_bound p Hp) as Hb. pose proof IZRq as Hq'.
  pose proof tt_nonneg.
  assert (Hp0 : (0 <= IZR p)%R) by (apply IZR_le; lia).
  assert (Ht0 : (0 <= tt * IZR p)%R) by (apply Rmult_le_pos; assumption).
  assert (Hpre : (Rabs (pre c p - (IZR q * IZR p / IZR P + /2)) <= / 262144)%R).
  { unfold pre. rewrite (RN64_int p) by lia.
    destruct c.
    - assert (Hr : (Rabs (RN64 (tt * IZR p + /2) - (tt * IZR p + /2)) <= / 1048576)%R)
        by (apply RN64_abs_err; lra).
      apply Rabs_le_inv in Hr. apply Rabs_le. lra.
    - assert (Hr : (Rabs (RN64 (tt * IZR p) - tt * IZR p) <= / 1048576)%R)
        by (apply RN64_abs_err; lra).
      apply Rabs_le_inv in Hr.
      assert (H0' : (0 <= RN64 (tt * IZR p))%R) by (apply RN64_nonneg; assumption).
      assert (Hr2 : (Rabs (RN64 (RN64 (tt * IZR p) + /2) - (RN64 (tt * IZR p) + /2)) <= / 1048576)%R)
        by (apply RN64_abs_err; lra).
      apply Rabs_le_inv in Hr2. apply Rabs_le. lra. }
  apply Rabs_le_inv in Hpre.
  pose proof (Zfloor_lb (pre c p)). pose proof (Zfloor_ub (pre c p)). lra.
Qed.

End Split.

(* A monotone integer sequence s 0 = 0 <= ... <= s P partitions [0, s P). *)
Lemma mono_partition (s : Z -> Z) (P : Z) : 1 <= P ->
  s 0 = 0 ->
  (forall p p', 0 <= p -> p <= p' -> p' <= P -> s p <= s p') ->
  forall k, 0 <= k < s P -> exists p, (0 <= p < P /\ s p <= k < s (p + 1)) /\
     forall p', 0 <= p' < P -> s p' <= k < s (p' + 1) -> p' = p.
Proof.
  intros HP H0 Hm k Hk.
  assert (Hex : exists p, 0 <= p < P /\ s p <= k < s (p + 1)).
  { assert (Hgen : forall n, 0 <= n -> n <= P -> k < s n ->
              exists p, 0 <= p < n /\ s p <= k < s (p + 1)).
    { intros n Hn. pattern n. apply natlike_ind; [| |exact Hn].
      - intros _ Hlt. lia.
      - intros m Hm0 IH HmP Hlt.
        destruct (Z_lt_le_dec k (s m)) as [Hlt'|Hge].
        + destruct (IH ltac:(lia) Hlt') as (p & Hp & Hs). exists p. split; [lia|exact Hs].
        + exists m. split; [lia|]. rewrite Z.add_1_r. lia. }
    destruct (Hgen P ltac:(lia) ltac:(lia) ltac:(lia)) as (p & Hp & Hs).
    exists p. split; [lia|exact Hs]. }
  destruct Hex as (p & Hp & Hs). exists p. split; [split; assumption|].
  intros p' Hp' Hs'.
  destruct (Z_lt_le_dec p' p) as [Hlt|Hge].
  - pose proof (Hm (p' + 1) p ltac:(lia) ltac:(lia) ltac:(lia)). lia.
  - destruct (Z.eq_dec p' p) as [->|Hne]; [reflexivity|].
    pose proof (Hm (p + 1) p' ltac:(lia) ltac:(lia) ltac:(lia)). lia.
Qed.

Lemma distribute_ok (c : bool) (N b P : Z) :
  0 <= N < 2 ^ 31 -> 1 <= b -> 1 <= P < 2 ^ 31 ->
  (forall p, 0 <= p <= P ->
     let '(i, n) := distribute c N b p P in
     0 <= i /\ 0 <= n /\ i + n <= N /\ (b | i) /\
     (p < P -> (b | n)) /\ (p = P -> n = N mod b /\ i = N - N mod b)) /\
  (forall k, 0 <= k < N -> exists p, (0 <= p <= P /\
       (let '(i, n) := distribute c N b p P in i <= k < i + n)) /\
     (forall p', 0 <= p' <= P ->
       (let '(i, n) := distribute c N b p' P in i <= k < i + n) -> p' = p)) /\
  (forall p, 0 <= p < P ->
     fst (distribute c N b (p + 1) P) =
     fst (distribute c N b p P) + snd (distribute c N b p P)).
Proof.
  intros HN Hb HP.
  assert (Hquot : Z.quot N b = N / b) by (apply Z.quot_div_nonneg; lia).
  assert (Hrem : Z.rem N b = N mod b) by (apply Z.rem_mod_nonneg; lia).
  set (q := N / b).
  pose proof (Z.div_mod N b ltac:(lia)) as Hdm. fold q in Hdm.
  pose proof (Z.mod_pos_bound N b ltac:(lia)) as Hmb.
  assert (Hq0 : 0 <= q) by (apply Z.div_pos; lia).
  assert (Hq : 0 <= q < 2 ^ 31).
  { split; [exact Hq0|]. apply Z.le_lt_trans with N; [|lia].
    apply Z.div_le_upper_bound; [lia|]. nia. }
  set (s := split_point c q P).
  assert (H0 : s 0 = 0) by (apply split_0; assumption).
  assert (HsP : s P = q) by (apply split_P; assumption).
  assert (Hmono : forall p p', 0 <= p -> p <= p' -> p' <= P -> s p <= s p')
    by (intros; apply split_mono; assumption).
  assert (Hd : forall p, distribute c N b p P =
     (b * s p, if Z.eqb p P then N mod b else b * s (p + 1) - b * s p)).
  { intros p. unfold distribute. rewrite Hquot, Hrem. reflexivity. }
  assert (Hbd : forall p, 0 <= p <= P -> 0 <= s p <= q).
  { intros p Hp. rewrite <- H0, <- HsP. split; apply Hmono; lia. }
  split; [|split].
  - intros p Hp. rewrite Hd. pose proof (Hbd p Hp) as Hsp.
    destruct (Z.eqb_spec p P) as [->|Hne].
    + rewrite HsP. split; [nia|]. split; [lia|]. split; [lia|].
      split; [apply Z.divide_factor_l|]. split; [lia|]. intros _. lia.
    + pose proof (Hbd (p + 1) ltac:(lia)) as Hsp1.
      pose proof (Hmono p (p + 1) ltac:(lia) ltac:(lia) ltac:(lia)) as Hle.
      split; [nia|]. split; [nia|]. split; [nia|].
      split; [apply Z.divide_factor_l|].
      split; [|lia]. intros _. rewrite <- Z.mul_sub_distr_l. apply Z.divide_factor_l.
  - intros k Hk.
    destruct (Z_lt_le_dec k (b * q)) as [Hlt|Hge].
    + destruct (mono_partition (fun p => b * s p) P ltac:(lia)) with (k := k)
        as (p & (Hp & Hs) & Hu).
      * cbv beta. rewrite H0. lia.
      * intros p p' Hp Hpp Hp'. cbv beta. pose proof (Hmono p p' Hp Hpp Hp'). nia.
      * cbv beta. rewrite HsP. lia.
      * exists p. split.
        -- split; [lia|]. rewrite Hd. destruct (Z.eqb_spec p P); lia.
        -- intros p' Hp'. rewrite Hd. destruct (Z.eqb_spec p' P) as [->|Hne].
           ++ rewrite HsP. lia.
           ++ intros Hr. apply Hu; lia.
    + exists P. split.
      * split; [lia|]. rewrite Hd, Z.eqb_refl, HsP. lia.
      * intros p' Hp'. rewrite Hd. destruct (Z.eqb_spec p' P) as [->|Hne]; [reflexivity|].
        pose proof (Hbd (p' + 1) ltac:(lia)). intros Hr. nia.
  - intros p Hp. rewrite !Hd. cbn [fst snd].
    destruct (Z.eqb_spec p P); lia.
Qed.

Lemma distribute_balance (c : bool) (N b P p : Z) :
  0 <= N < 2 ^ 31 -> 1 <= b -> 1 <= P < 2 ^ 31 -> 0 <= p < P ->
  b * (N / b / P - 1) <= snd (distribute c N b p P) <= b * (N / b / P + 2).
Proof.
  intros HN Hb HP Hp.
  assert (Hquot : Z.quot N b = N / b) by (apply Z.quot_div_nonneg; lia).
  unfold distribute. rewrite Hquot. cbn [snd].
  destruct (Z.eqb_spec p P); [lia|].
  set (q := N / b).
  assert (Hq0 : 0 <= q) by (apply Z.div_pos; lia).
  assert (Hq : 0 <= q < 2 ^ 31).
  { split; [exact Hq0|]. apply Z.le_lt_trans with N; [|lia].
    apply Z.div_le_upper_bound; [lia|]. nia. }
  pose proof (split_near q P Hq HP c p ltac:(lia)) as H1.
  pose proof (split_near q P Hq HP c (p + 1) ltac:(lia)) as H2.
  set (a := split_point c q P p) in *. set (a' := split_point c q P (p + 1)) in *.
  assert (HPr : (1 <= IZR P)%R) by (apply IZR_le; lia).
  assert (Hid : (IZR q * IZR (p + 1) / IZR P = IZR q * IZR p / IZR P + IZR q / IZR P)%R)
    by (rewrite plus_IZR; field; lra).
  rewrite Hid in H2.
  assert (Hlo : (IZR (q / P) <= IZR q / IZR P)%R).
  { apply (Rmult_le_reg_r (IZR P)); [lra|]. unfold Rdiv. rewrite Rmult_assoc, Rinv_l by lra.
    rewrite Rmult_1_r. rewrite <- mult_IZR. apply IZR_le.
    pose proof (Z.mul_div_le q P ltac:(lia)). lia. }
  assert (Hhi : (IZR q / IZR P < IZR (q / P) + 1)%R).
  { apply (Rmult_lt_reg_r (IZR P)); [lra|]. unfold Rdiv. rewrite Rmult_assoc, Rinv_l by lra.
    rewrite Rmult_1_r. rewrite <- (plus_IZR _ 1), <- mult_IZR. apply IZR_lt.
    pose proof (Z.mul_succ_div_gt q P ltac:(lia)). lia. }
  assert (Hl : q / P - 2 < a' - a).
  { apply lt_IZR. rewrite !minus_IZR. lra. }
  assert (Hu : a' - a < q / P + 3).
  { apply lt_IZR. rewrite minus_IZR, plus_IZR. lra. }
  rewrite <- Z.mul_sub_distr_l. split; apply Z.mul_le_mono_nonneg_l; lia.
Qed.

Lemma collision_range_ok (c : bool) (np P : Z) :
  0 <= np < 2 ^ 31 -> 1 <= P < 2 ^ 31 ->
  (forall r, 0 <= r < P -> let '(i, i1) := collision_range c np P r in
      0 <= i /\ i <= i1 /\ i1 <= np) /\
  (forall k, 0 <= k < np -> exists r, (0 <= r < P /\
      (let '(i, i1) := collision_range c np P r in i <= k < i1)) /\
      (forall r', 0 <= r' < P ->
      (let '(i, i1) := collision_range c np P r' in i <= k < i1) -> r' = r)).
Proof.
  intros HN HP.
  assert (H0 : split_point c np P 0 = 0) by (apply split_0; lia).
  assert (HsP : split_point c np P P = np) by (apply split_P; lia).
  assert (Hmono : forall p p', 0 <= p -> p <= p' -> p' <= P ->
      split_point c np P p <= split_point c np P p')
    by (intros; apply split_mono; lia).
  unfold collision_range. split.
  - intros r Hr.
    pose proof (Hmono 0 r ltac:(lia) ltac:(lia) ltac:(lia)).
    pose proof (Hmono r (r + 1) ltac:(lia) ltac:(lia) ltac:(lia)).
    pose proof (Hmono (r + 1) P ltac:(lia) ltac:(lia) ltac:(lia)). lia.
  - intros k Hk.
    destruct (mono_partition (split_point c np P) P ltac:(lia) H0 Hmono k ltac:(lia))
      as (p & (Hp & Hs) & Hu).
    exists p. split; [split; [lia|exact Hs]|]. intros r' Hr' Hs'. apply Hu; assumption.
Qed.
