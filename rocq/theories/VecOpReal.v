(* The operators of the vector classes on reals: what the comparisons of floats
   mean and how accurate one step of Newton's method is. *)
From Coq Require Import ZArith List String Bool Lia Reals Lra.
From Flocq Require IEEE754.BinarySingleNaN.
From Flocq Require Import Core IEEE754.Binary IEEE754.Bits.
From Verif Require Import VecOpModel VecOpTable VecOpSpec.
Import ListNotations.
Ltac Zify.zify_post_hook ::= idtac.
Open Scope R_scope.

Lemma compare_real : forall a b, finite a = true -> finite b = true ->
  (flt a b = true <-> real a < real b) /\ (feq a b = true <-> real a = real b).
Proof.
  intros a b A B. unfold flt, feq, real, b32_compare.
  rewrite (Bcompare_correct 24 128 (b32_of_bits a) (b32_of_bits b) A B).
  destruct (Rcompare_spec (B2R 24 128 (b32_of_bits a)) (B2R 24 128 (b32_of_bits b))); split; split; intros; try lra;
    try discriminate; reflexivity.
Qed.

Lemma compare_nan : forall a b, nan a || nan b = true -> flt a b = false /\ feq a b = false.
Proof.
  intros a b H. unfold nan in H. unfold flt, feq, b32_compare.
  destruct (b32_of_bits a), (b32_of_bits b); try discriminate H; split; reflexivity.
Qed.

Lemma ab_mul : forall x y a b, Rabs x <= a -> Rabs y <= b -> Rabs (x * y) <= a * b.
Proof.
  intros x y a b X Y. rewrite Rabs_mult. apply Rmult_le_compat; try apply Rabs_pos; assumption.
Qed.
Lemma ab_add : forall x y a b, Rabs x <= a -> Rabs y <= b -> Rabs (x + y) <= a + b.
Proof. intros x y a b X Y. eapply Rle_trans; [apply Rabs_triang|lra]. Qed.
Lemma ab_opp : forall x a, Rabs x <= a -> Rabs (- x) <= a.
Proof. intros x a X. rewrite Rabs_Ropp. exact X. Qed.

Ltac bd := repeat first [eassumption | apply ab_add | apply ab_opp | apply ab_mul | (rewrite Rabs_pos_eq by lra; apply Rle_refl)].

Notation u := (/ 16777216).

(* products of roundings *)
Lemma two : forall d e, Rabs d <= u -> Rabs e <= u -> Rabs (d + e + d * e) <= 201 / 100 * u.
Proof. intros d e D E. eapply Rle_trans; [bd|].
 lra. Qed.
Lemma three : forall d e f, Rabs d <= u -> Rabs e <= u -> Rabs f <= u ->
  Rabs (d + e + d * e + f + (d + e + d * e) * f) <= 302 / 100 * u.
Proof.
  intros d e f D E G. pose proof (two d e D E). eapply Rle_trans; [apply ab_add; [apply ab_add|apply ab_mul]; eassumption|lra].
Qed.

Lemma rcp_gen : forall e D d db, Rabs e <= est -> Rabs D <= db -> db <= 201 / 100 * u -> Rabs d <= u ->
  Rabs ((2 * (1 + e) - (1 + e) * (1 + e) * (1 + D)) * (1 + d) - 1) <= 11 / 2 * u.
Proof.
  intros e D d db He HD Hdb Hd.
  assert (HD' : Rabs D <= 201 / 100 * u) by lra.
  replace ((2 * (1 + e) - (1 + e) * (1 + e) * (1 + D)) * (1 + d) - 1)
    with (- (e * e) + (- (D + 2 * e * D + e * e * D)) + d + (- (e * e) + - (D + 2 * e * D + e * e * D)) * d) by ring.
  eapply Rle_trans; [bd|]. unfold est. lra.
Qed.

Lemma rsqrt_gen : forall e D d4 d5, Rabs e <= est -> Rabs D <= 302 / 100 * u -> Rabs d4 <= u -> Rabs d5 <= u ->
  Rabs (((1 + e) + 1 / 2 * (((1 + e) - (1 + e) * (1 + e) * (1 + e) * (1 + D)) * (1 + d4))) * (1 + d5) - 1) <= 6 * u.
Proof.
  intros e D d4 d5 He HD H4 H5.
  set (cube := (1 + e) * (1 + e) * (1 + e)).
  assert (Hc : Rabs cube <= (1 + est) * (1 + est) * (1 + est)) by (unfold cube; bd).
  set (T := - (2 * e) + - (3 * (e * e)) + - (e * (e * e)) + - (cube * D)).
  assert (HT : Rabs T <= 2 * est + 3 * (est * est) + est * (est * est) + (1 + est) * (1 + est) * (1 + est) * (302 / 100 * u))
    by (unfold T; bd).
  set (V := - (3 / 2 * (e * e)) + - (1 / 2 * (e * (e * e))) + - (1 / 2 * (cube * D)) + 1 / 2 * (T * d4)).
  assert (HV : Rabs V <= 49 / 10 * u).
  { unfold V. eapply Rle_trans; [bd; exact HT|]. unfold est. lra. }
  match goal with |- Rabs ?x <= _ => replace x with (V + d5 + V * d5) by (unfold V, T, cube; field) end.
  eapply Rle_trans; [bd|]. lra.
Qed.

Lemma rcp_acc : forall F fma a b, rcp_ops F fma a b ->
  Rabs (real (newton_rcp F fma a b) * real a - 1) <= 11 / 2 * u.
Proof.
  intros F fma a b (Ha & (e & He & Hb) & Hs & (d1 & H1 & E1) & H). unfold newton_rcp. destruct fma.
  - destruct H as (d2 & H2 & E2). rewrite E2, Hs, E1, Hb.
    match goal with |- Rabs ?x <= _ => replace x with ((2 * (1 + e) - (1 + e) * (1 + e) * (1 + d1)) * (1 + d2) - 1) by (field; exact Ha) end.
    apply rcp_gen with u; try assumption; lra.
  - destruct H as ((d2 & H2 & E2) & (d3 & H3 & E3)). rewrite E3, E2, Hs, E1, Hb.
    match goal with |- Rabs ?x <= _ => replace x with ((2 * (1 + e) - (1 + e) * (1 + e) * (1 + (d1 + d2 + d1 * d2))) * (1 + d3) - 1) by (field; exact Ha) end.
    apply rcp_gen with (201 / 100 * u); try assumption; [apply two; assumption|lra].
Qed.

Lemma rsqrt_acc : forall F fma a b, rsqrt_ops F fma a b ->
  Rabs (real (newton_rsqrt F fma a b) * sqrt (real a) - 1) <= 6 * u.
Proof.
  intros F fma a b (Ha & (e & He & Hb) & H).
  assert (S : 0 < sqrt (real a)) by (apply sqrt_lt_R0; exact Ha).
  assert (Q : real a = sqrt (real a) * sqrt (real a)) by (symmetry; apply sqrt_sqrt; lra).
  cbv zeta in H. destruct H as ((d1 & H1 & E1) & (d2 & H2 & E2) & H). unfold newton_rsqrt. destruct fma.
  - destruct H as ((d4 & H4 & E4) & (d5 & H5 & E5)). rewrite E5, E4, E2, E1, Hb, Q.
    rewrite <- Q. set (s := sqrt (real a)) in *. rewrite Q.
    match goal with |- Rabs ?x <= _ => replace x with (((1 + e) + 1 / 2 * (((1 + e) - (1 + e) * (1 + e) * (1 + e) * (1 + (d1 + d2 + d1 * d2))) * (1 + d4))) * (1 + d5) - 1)
      by (field; lra) end.
    apply rsqrt_gen; try assumption. eapply Rle_trans; [apply two; assumption|lra].
  - destruct H as ((d3 & H3 & E3) & (d4 & H4 & E4) & Eh & (d5 & H5 & E5)). rewrite E5, Eh, E4, E3, E2, E1, Hb.
    set (s := sqrt (real a)) in *. rewrite Q.
    match goal with |- Rabs ?x <= _ => replace x with (((1 + e) + 1 / 2 * (((1 + e) - (1 + e) * (1 + e) * (1 + e) * (1 + (d1 + d2 + d1 * d2 + d3 + (d1 + d2 + d1 * d2) * d3))) * (1 + d4))) * (1 + d5) - 1)
      by (field; lra) end.
    apply rsqrt_gen; try assumption. apply three; assumption.
Qed.
