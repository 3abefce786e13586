From Coq Require Import Reals Lra ZArith Bool Lia.
From Flocq Require Import Core Relative IEEE754.BinarySingleNaN.
From Verif Require Import FloatModel FloatProofs ConvProofs DistributeModel RngModel InjectModel InjectProofs HelperModel.
Open Scope Z_scope.

Local Instance p64h : Prec_gt_0 53 := prec_gt_0_64.
Local Instance v64h : Valid_exp (FLT_exp (-1074) 53) := FLT_exp_valid (-1074) 53.
Local Instance m64h : Monotone_exp (FLT_exp (-1074) 53) := FLT_exp_monotone (-1074) 53.
Notation fexp64 := (FLT_exp (-1074) 53).
Notation U := (bpow radix2 (-53)).
Notation ETA := (bpow radix2 (-1075)).

Lemma RN64_any x : (Rabs (RN64 x - x) <= Rabs x * U + ETA)%R.
Proof.
  destruct (error_N_FLT radix2 (-1074) 53 ltac:(lia) (fun x => negb (Z.even x)) x) as (e & n & E & N & _ & H).
  unfold RN64. rewrite H. replace (x * (1 + e) + n - x)%R with (x * e + n)%R by ring.
  apply Rle_trans with (1 := Rabs_triang _ _). rewrite Rabs_mult. apply Rplus_le_compat.
  - apply Rmult_le_compat_l; [apply Rabs_pos|]. assert (E' : (Rabs e <= / 2 * bpow radix2 (-52))%R) by exact E.
    assert (E2 : (bpow radix2 (-52) = 2 * U)%R) by (change (-52) with (1 + -53); rewrite bpow_plus; reflexivity).
    rewrite E2 in E'. lra.
  - apply Rle_trans with (1 := N). assert (E2 : (bpow radix2 (-1074) = 2 * ETA)%R) by (change (-1074) with (1 + -1075); rewrite bpow_plus; reflexivity).
    rewrite E2. lra.
Qed.

Lemma half_gap b t : F64 b -> b <> 0%R -> (0 < t < 1)%R -> (Rabs (RN64 (b * t) - b * t) <= (succ radix2 fexp64 b - b) / 2)%R.
Proof.
  intros F N T. assert (E : (Rabs (RN64 (b * t) - b * t) <= / 2 * ulp radix2 fexp64 (b * t))%R) by (apply error_le_half_ulp; exact v64h).
  apply Rle_trans with (1 := E). enough ((ulp radix2 fexp64 (b * t) <= succ radix2 fexp64 b - b)%R) by lra. clear E.
  assert (L : (Rabs (b * t) <= Rabs b)%R).
  { rewrite Rabs_mult, (Rabs_pos_eq t) by lra. pose proof (Rabs_pos b). nra. }
  destruct (Rlt_le_dec 0 b) as [P|P].
  - rewrite succ_eq_pos by lra. ring_simplify. apply ulp_le; [exact v64h|exact m64h|exact L].
  - replace b with (- - b)%R at 2 by ring. rewrite succ_opp. set (B := (- b)%R) in *. assert (BP : (0 < B)%R) by (unfold B; lra).
    replace (b * t)%R with (- (B * t))%R by (unfold B; ring). rewrite ulp_opp.
    rewrite pred_eq_pos by lra. unfold pred_pos. replace b with (- B)%R by (unfold B; ring).
    destruct (Req_bool_spec B (bpow radix2 (mag radix2 B - 1))) as [Q|Q].
    + ring_simplify. 
      assert (BT : (B * t <> 0)%R) by nra. rewrite ulp_neq_0 by exact BT. apply bpow_le. unfold cexp. apply m64h.
      apply mag_le_bpow; [exact BT|]. rewrite Rabs_pos_eq by nra. rewrite <- Q. nra.
    + ring_simplify. apply ulp_le; [exact v64h|exact m64h|]. rewrite !Rabs_pos_eq by nra. nra.
Qed.

Lemma small_eta : (ETA < bpow radix2 (-1000) * U / 2)%R.
Proof.
  assert (E : (bpow radix2 (-1000) * U = bpow radix2 (-1053))%R) by (rewrite <- bpow_plus; reflexivity). rewrite E.
  assert (E2 : (bpow radix2 (-1053) = 4 * bpow radix2 (-1055))%R) by (change (-1053) with (2 + -1055); rewrite bpow_plus; reflexivity).
  rewrite E2. pose proof (bpow_lt radix2 (-1075) (-1055) ltac:(lia)). pose proof (bpow_gt_0 radix2 (-1055)). lra.
Qed.
Lemma U_pos : (0 < U < 1)%R.
Proof. split; [apply bpow_gt_0|]. change 1%R with (bpow radix2 0). apply bpow_lt. lia. Qed.
Lemma U2 : bpow radix2 (-52) = (2 * U)%R.
Proof. change (-52) with (1 + -53). rewrite bpow_plus. reflexivity. Qed.
Lemma U52 : (bpow radix2 52 * U * 2 = 1)%R.
Proof. rewrite <- bpow_plus. change (52 + -53) with (-1). change (bpow radix2 (-1)) with (/ 2)%R. lra. Qed.
Lemma RN64_opp x : RN64 (- x) = (- RN64 x)%R.
Proof. apply round_NE_opp. Qed.

Lemma upper a b t : F64 b -> (0 < t)%R -> (t <= 1 - U)%R -> (Rabs a * (2 * U) <= b - a)%R -> (bpow radix2 (-1000) <= b - a)%R ->
  (RN64 (RN64 (a * (1 - t)) + RN64 (b * t)) <= b)%R.
Proof.
  intros F T0 T1 G G2. pose proof U_pos as UP. pose proof (bpow_gt_0 radix2 (-1000)) as P1000.
  destruct (Req_dec b 0) as [B0|B0].
  - subst b. rewrite Rmult_0_l, (RN64_Z 0) by lia. rewrite Rplus_0_r.
    apply Rle_trans with (RN64 0); [apply RN64_le|rewrite (RN64_Z 0) by lia; lra].
    rewrite <- (RN64_Z 0) by lia. apply RN64_le. nra.
  - unfold RN64 at 1. apply round_N_le_midp; [exact v64h|exact F|].
    pose proof (half_gap b t F B0 ltac:(lra)) as HB. pose proof (RN64_any (a * (1 - t))) as HA.
    apply Rabs_le_inv in HB. apply Rabs_le_inv in HA. rewrite Rabs_mult, (Rabs_pos_eq (1 - t)) in HA by lra.
    set (q := RN64 (b * t)) in *. set (p := RN64 (a * (1 - t))) in *. set (S := succ radix2 fexp64 b) in *.
    set (s := (1 - t)%R) in *. assert (S1 : (U <= s)%R) by (unfold s; lra).
    assert (AS : (Rabs a * s * U <= (b - a) * s / 2)%R) by nra.
    assert (ES : (ETA < (b - a) * s / 2)%R).
    { apply Rlt_le_trans with (1 := small_eta). apply Rmult_le_compat_r; [lra|]. apply Rmult_le_compat; lra. }
    assert (EQ : (a * s + b * t = b - (b - a) * s)%R) by (unfold s; ring).
    lra.
Qed.
Lemma lower a b t : F64 a -> (U <= t)%R -> (t < 1)%R -> (Rabs b * (2 * U) <= b - a)%R -> (bpow radix2 (-1000) <= b - a)%R ->
  (a <= RN64 (RN64 (a * (1 - t)) + RN64 (b * t)))%R.
Proof.
  intros F T0 T1 G G2.
  pose proof (upper (- b) (- a) (1 - t) (generic_format_opp _ _ _ F) ltac:(lra) ltac:(lra)) as H.
  rewrite Rabs_Ropp in H. specialize (H ltac:(lra) ltac:(lra)).
  replace (- b * (1 - (1 - t)))%R with (- (b * t))%R in H by ring. replace (- a * (1 - t))%R with (- (a * (1 - t)))%R in H by ring.
  rewrite !RN64_opp in H. replace (- RN64 (b * t) + - RN64 (a * (1 - t)))%R with (- (RN64 (a * (1 - t)) + RN64 (b * t)))%R in H by ring.
  rewrite RN64_opp in H. lra.
Qed.

Lemma accuracy a b t M : (0 < t < 1)%R -> (Rabs a <= M)%R -> (Rabs b <= M)%R ->
  (Rabs (RN64 (RN64 (a * (1 - t)) + RN64 (b * t)) - (a * (1 - t) + b * t)) <= 3 * M * U + 4 * ETA)%R.
Proof.
  intros T A B. pose proof U_pos as UP. pose proof (bpow_gt_0 radix2 (-1075)) as EP. pose proof (Rabs_pos a). 
  assert (U8 : (U <= / 8)%R) by (change (/ 8)%R with (bpow radix2 (-3)); apply bpow_le; lia).
  pose proof (RN64_any (a * (1 - t))) as HA. pose proof (RN64_any (b * t)) as HB.
  set (p := RN64 (a * (1 - t))) in *. set (q := RN64 (b * t)) in *. pose proof (RN64_any (p + q)) as HC. set (r := RN64 (p + q)) in *.
  rewrite Rabs_mult, (Rabs_pos_eq (1 - t)) in HA by lra. rewrite Rabs_mult, (Rabs_pos_eq t) in HB by lra.
  assert (A1 : (Rabs a * (1 - t) <= M * (1 - t))%R) by nra. assert (B1 : (Rabs b * t <= M * t)%R) by nra.
  assert (EX : (Rabs (a * (1 - t) + b * t) <= M)%R).
  { apply Rle_trans with (1 := Rabs_triang _ _). rewrite !Rabs_mult, (Rabs_pos_eq (1 - t)), (Rabs_pos_eq t) by lra. nra. }
  assert (PQ : (Rabs (p + q - (a * (1 - t) + b * t)) <= M * U + 2 * ETA)%R).
  { replace (p + q - (a * (1 - t) + b * t))%R with ((p - a * (1 - t)) + (q - b * t))%R by ring.
    apply Rle_trans with (1 := Rabs_triang _ _). nra. }
  assert (PA : (Rabs (p + q) <= M + M * U + 2 * ETA)%R).
  { replace (p + q)%R with ((a * (1 - t) + b * t) + (p + q - (a * (1 - t) + b * t)))%R by ring.
    apply Rle_trans with (1 := Rabs_triang _ _). lra. }
  replace (r - (a * (1 - t) + b * t))%R with ((r - (p + q)) + (p + q - (a * (1 - t) + b * t)))%R by ring.
  apply Rle_trans with (1 := Rabs_triang _ _).
  assert (Rabs (p + q) * U <= (M + M * U + 2 * ETA) * U)%R by (apply Rmult_le_compat_r; lra).
  assert (M * U * U <= M * U * / 8)%R by (apply Rmult_le_compat_l; nra).
  assert (2 * ETA * U <= 2 * ETA * / 8)%R by (apply Rmult_le_compat_l; lra).
  nra.
Qed.

(* ---- the double computation ---- *)
Definition tof (u : Z) : R := (IZR (2 * (u / 2 ^ 12) + 1) * U)%R.
Lemma word_bound u : 0 <= u < 2 ^ 64 -> 1 <= 2 * (u / 2 ^ 12) + 1 <= 2 ^ 53 - 1.
Proof.
  intro H. assert (0 <= u / 2 ^ 12 < 2 ^ 52); [|lia]. split; [apply Z.div_pos; lia|].
  apply Z.div_lt_upper_bound; [lia|]. change (2 ^ 12 * 2 ^ 52) with (2 ^ 64). lia.
Qed.
Lemma one_U : (1 = IZR (2 ^ 53) * U)%R.
Proof. change (2 ^ 53) with (Zpower radix2 53). rewrite IZR_Zpower by lia. rewrite <- bpow_plus. reflexivity. Qed.
Lemma tof_bound u : 0 <= u < 2 ^ 64 -> (U <= tof u <= 1 - U)%R.
Proof.
  intro H. pose proof (word_bound u H) as W. unfold tof. pose proof U_pos.
  destruct W as [W1 W2]. apply IZR_le in W1, W2. rewrite minus_IZR in W2. pose proof one_U. split; [nra|].
  set (k := IZR (2 * (u / 2 ^ 12) + 1)) in *. nra.
Qed.
Lemma uniform_R u low high a b : 0 <= u < 2 ^ 64 -> fin64 low a -> fin64 high b -> (Rabs a <= bpow radix2 1000)%R -> (Rabs b <= bpow radix2 1000)%R ->
  fin64 (uniform u low high) (RN64 (RN64 (a * (1 - tof u)) + RN64 (b * tof u))).
Proof.
  intros H A B LA LB. pose proof (tof_bound u H) as T. pose proof U_pos as UP.
  assert (D : fin64 (conv_drand u) (tof u)).
  { pose proof (drand_ok u H) as D. unfold tof. replace (IZR (2 * (u / 2 ^ 12) + 1) * U)%R with (IZR (2 * (u / 2 ^ 12) + 1) / 9007199254740992)%R; [exact D|].
    unfold Rdiv. rewrite <- bpow_m53. reflexivity. }
  assert (O : fin64 (d_of_Z 1) 1) by (apply (fin64_Z 1); lia).
  assert (S : fin64 (d_sub (d_of_Z 1) (conv_drand u)) (1 - tof u)).
  { replace (1 - tof u)%R with (RN64 (1 - tof u)).
    - apply d_sub_ok; [exact O|exact D|]. apply Rle_trans with 1%R; [rewrite Rabs_pos_eq by lra; lra|apply bpow_ge1; lia].
    - pose proof (word_bound u H) as W. unfold tof. rewrite one_U. rewrite <- Rmult_minus_distr_r, <- minus_IZR.
      apply RN64_exact; lia. }
  assert (B1 : forall x y, (Rabs x <= bpow radix2 1000)%R -> (0 <= y <= 1)%R -> (Rabs (x * y) <= bpow radix2 1000)%R).
  { intros x y X Y. rewrite Rabs_mult, (Rabs_pos_eq y) by lra. pose proof (Rabs_pos x). nra. }
  pose proof (B1 a (1 - tof u) LA ltac:(lra))%R as X1. pose proof (B1 b (tof u) LB ltac:(lra)) as X2.
  pose proof (RN64_small _ 1000 ltac:(lia) X1) as Y1. pose proof (RN64_small _ 1000 ltac:(lia) X2) as Y2.
  assert (L : (bpow radix2 1000 <= bpow radix2 1023)%R) by (apply bpow_le; lia).
  unfold uniform, uniform_of. apply d_add_ok; [apply d_mul_ok; [exact A|exact S|lra]|apply d_mul_ok; [exact B|exact D|lra]|].
  apply Rle_trans with (1 := Rabs_triang _ _). apply Rle_trans with (bpow radix2 1000 + bpow radix2 1000)%R; [lra|].
  apply Rle_trans with (bpow radix2 1001); [|apply bpow_le; lia]. change 1001 with (1 + 1000). rewrite bpow_plus. change (bpow radix2 1) with 2%R. lra.
Qed.

Lemma open_zero b t : (bpow radix2 (-900) <= b)%R -> (U <= t <= 1 - U)%R ->
  (0 < RN64 (RN64 (0 * (1 - t)) + RN64 (b * t)) < b)%R.
Proof.
  intros B T. pose proof U_pos as UP. pose proof (bpow_gt_0 radix2 (-900)) as P.
  rewrite Rmult_0_l, (RN64_Z 0), Rplus_0_l by lia.
  rewrite (RN64_id (RN64 (b * t))) by (apply generic_format_round; [exact v64h|apply valid_rnd_N]).
  assert (BT : (bpow radix2 (-1022) <= b * t)%R).
  { apply Rle_trans with (bpow radix2 (-900) * U)%R; [rewrite <- bpow_plus; apply bpow_le; lia|]. apply Rmult_le_compat; lra. }
  pose proof (bpow_gt_0 radix2 (-1022)) as P2.
  pose proof (RN64_rel (b * t) (b * t) BT ltac:(rewrite Rabs_pos_eq by lra; lra)) as E. apply Rabs_le_inv in E.
  assert ((b * t * (1 + U) <= b * (1 - U) * (1 + U))%R) by (apply Rmult_le_compat_r; [lra|]; apply Rmult_le_compat_l; lra).
  assert (0 < b * U * U)%R by (apply Rmult_lt_0_compat; [apply Rmult_lt_0_compat; lra|lra]).
  assert (b * t * U < b * t)%R by nra. split; nra.
Qed.

(* ---- sizes of a species ---- *)
Lemma to_size_Z x n : fin64 x (IZR n) -> 0 <= n < 2 ^ 64 -> to_size x = Some n.
Proof.
  intros [F E] H. unfold to_size. rewrite F. rewrite (d_trunc_ok x (IZR n) E), Ztrunc_IZR.
  replace ((0 <=? n) && (n <? 2 ^ 64)) with true by (symmetry; apply andb_true_iff; split; [apply Z.leb_le|apply Z.ltb_lt]; lia). reflexivity.
Qed.
Lemma size_to_int_small n : 0 <= n < 2 ^ 31 -> size_to_int n = n.
Proof.
  intro H. unfold size_to_int. rewrite Z.mod_small by lia. cbv zeta. replace (n <? 2 ^ 31) with true; [reflexivity|]. symmetry. apply Z.ltb_lt. lia.
Qed.
Lemma species_sizes_small n m : 0 <= n < 2 ^ 31 -> 0 <= m < 2 ^ 31 ->
  species_sizes n m = mk_sizes (Z.max 1 n) (Z.max 1 m) (Z.max 1 n) (Z.max 1 m).
Proof.
  intros N M. unfold species_sizes.
  replace (if n <? 1 then 1 else n) with (Z.max 1 n) by (destruct (Z.ltb_spec n 1); lia).
  replace (if m <? 1 then 1 else m) with (Z.max 1 m) by (destruct (Z.ltb_spec m 1); lia).
  rewrite !size_to_int_small by lia. reflexivity.
Qed.
Lemma lt_false x y a b : fin64 x a -> fin64 y b -> (b <= a)%R -> d_lt x y = false.
Proof.
  intros X Y L. destruct (d_lt x y) eqn:E; [|reflexivity]. apply (proj1 (d_lt_ok _ _ _ _ X Y)) in E. lra.
Qed.
Lemma given_nm np nm n m : fin64 np (IZR n) -> fin64 nm (IZR m) -> 0 <= n < 2 ^ 31 -> 0 <= m < 2 ^ 31 ->
  define_species np nm = Some (mk_sizes (Z.max 1 n) (Z.max 1 m) (Z.max 1 n) (Z.max 1 m)).
Proof.
  intros A B N M. unfold define_species, default_nm.
  rewrite (lt_false nm (d_of_Z 0) (IZR m) 0 B (fin64_Z 0 ltac:(lia))) by (apply IZR_le; lia).
  rewrite (to_size_Z _ _ A), (to_size_Z _ _ B) by lia. rewrite species_sizes_small by assumption. reflexivity.
Qed.
Lemma quotient n : 0 <= n < 2 ^ 31 -> (IZR (2 * n / 25) <= RN64 (IZR (2 * n) / 25) < IZR (2 * n / 25) + 1)%R.
Proof.
  intro N. assert (Q : 0 <= 2 * n / 25 < 2 ^ 32).
  { split; [apply Z.div_pos; lia|]. apply Z.div_lt_upper_bound; lia. }
  pose proof (Z.div_mod (2 * n) 25 ltac:(lia)) as D. pose proof (Z.mod_pos_bound (2 * n) 25 ltac:(lia)) as R1.
  set (q := 2 * n / 25) in *. set (r := (2 * n) mod 25) in *.
  assert (X : (IZR (2 * n) / 25 = IZR q + IZR r / 25)%R).
  { rewrite D, plus_IZR, mult_IZR. field. }
  assert (RB : (0 <= IZR r <= 24)%R) by (split; apply IZR_le; lia).
  split.
  - rewrite <- (RN64_Z q) at 1 by lia. apply RN64_le. rewrite X. lra.
  - pose proof (RN64_any (IZR (2 * n) / 25)) as E. apply Rabs_le_inv in E.
    assert (XB : (0 <= IZR (2 * n) / 25 <= bpow radix2 32)%R).
    { rewrite pow_R by lia. assert (0 <= IZR (2 * n) <= IZR (2 ^ 32))%R by (split; apply IZR_le; lia). lra. }
    rewrite Rabs_pos_eq in E by lra. pose proof U_pos.
    assert (S : (bpow radix2 32 * U = bpow radix2 (-21))%R) by (rewrite <- bpow_plus; reflexivity).
    assert (S1 : (bpow radix2 (-21) <= / 1024)%R) by (change (/ 1024)%R with (bpow radix2 (-10)); apply bpow_le; lia).
    assert (S2 : (ETA <= / 1024)%R) by (change (/ 1024)%R with (bpow radix2 (-10)); apply bpow_le; lia).
    assert (IZR (2 * n) / 25 * U <= bpow radix2 32 * U)%R by (apply Rmult_le_compat_r; lra). lra.
Qed.
Lemma derived_nm np nm n c : fin64 np (IZR n) -> fin64 nm c -> (c < 0)%R -> 0 <= n < 2 ^ 31 ->
  define_species np nm = Some (mk_sizes (Z.max 1 n) (Z.max 4368 (2 * n / 25)) (Z.max 1 n) (Z.max 4368 (2 * n / 25))).
Proof.
  intros A B C N. unfold define_species. rewrite (to_size_Z _ _ A) by lia.
  assert (DN : to_size (default_nm np nm) = Some (Z.max 4368 (2 * n / 25))).
  { unfold default_nm. assert (L : d_lt nm (d_of_Z 0) = true) by (apply (proj2 (d_lt_ok _ _ _ _ B (fin64_Z 0 ltac:(lia)))); exact C).
    rewrite L. cbv zeta. change (16 * (MAX_PIPELINE + 1)) with 4368.
    assert (M2 : fin64 (d_mul (d_of_Z 2) np) (IZR (2 * n))).
    { rewrite <- (RN64_Z (2 * n)) by lia. rewrite mult_IZR. apply d_mul_ok; [apply (fin64_Z 2); lia|exact A|].
      rewrite <- mult_IZR. rewrite <- abs_IZR. apply Rle_trans with (bpow radix2 32); [rewrite pow_R by lia; apply IZR_le; lia|apply bpow_le; lia]. }
    assert (X : (0 <= IZR (2 * n) / 25 <= bpow radix2 32)%R).
    { rewrite pow_R by lia. assert (0 <= IZR (2 * n) <= IZR (2 ^ 32))%R by (split; apply IZR_le; lia). lra. }
    assert (DV : fin64 (d_div (d_mul (d_of_Z 2) np) (d_of_Z 25)) (RN64 (IZR (2 * n) / 25))).
    { apply d_div_ok; [exact M2|apply (fin64_Z 25); lia|lra|]. rewrite Rabs_pos_eq by lra.
      apply Rle_trans with (bpow radix2 32); [lra|apply bpow_le; lia]. }
    pose proof (quotient n N) as Q.
    assert (QB : 0 <= 2 * n / 25 < 2 ^ 32) by (split; [apply Z.div_pos; lia|apply Z.div_lt_upper_bound; lia]).
    destruct (d_lt _ (d_of_Z 4368)) eqn:E.
    - apply (proj1 (d_lt_ok _ _ _ _ DV (fin64_Z 4368 ltac:(lia)))) in E.
      assert (2 * n / 25 < 4368) by (apply lt_IZR; lra). rewrite Z.max_l by lia. apply to_size_Z; [apply fin64_Z; lia|lia].
    - assert (G : (4368 <= RN64 (IZR (2 * n) / 25))%R).
      { destruct (Rlt_le_dec (RN64 (IZR (2 * n) / 25)) 4368) as [G|G]; [|exact G].
        apply (proj2 (d_lt_ok _ _ _ _ DV (fin64_Z 4368 ltac:(lia)))) in G. congruence. }
      assert (4367 < 2 * n / 25) by (apply lt_IZR; lra). rewrite Z.max_r by lia.
      destruct DV as [F V]. unfold to_size. rewrite F, (d_trunc_ok _ _ V).
      replace (Ztrunc (RN64 (IZR (2 * n) / 25))) with (2 * n / 25).
      + replace ((0 <=? 2 * n / 25) && (2 * n / 25 <? 2 ^ 64)) with true; [reflexivity|].
        symmetry. apply andb_true_iff. split; [apply Z.leb_le|apply Z.ltb_lt]; lia.
      + rewrite Ztrunc_floor by lra. symmetry. apply Zfloor_imp. rewrite plus_IZR. exact Q. }
  rewrite DN. rewrite species_sizes_small.
  - replace (Z.max 1 (Z.max 4368 (2 * n / 25))) with (Z.max 4368 (2 * n / 25)) by lia. reflexivity.
  - exact N.
  - assert (2 * n / 25 < 2 ^ 31) by (apply Z.div_lt_upper_bound; lia). lia.
Qed.
