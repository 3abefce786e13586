(* Proofs about the Courant length and the coefficients that follow from it. *)
From Coq Require Import Reals Lra ZArith Bool Lia Psatz.
From Flocq Require Import Core IEEE754.BinarySingleNaN.
From Verif Require Import FloatModel FloatProofs InjectModel InjectProofs ConvProofs.
Require Import Verif.ParticleModel.
From Verif Require Import CourantModel CourantSpec.
Open Scope Z_scope.

Notation U := (bpow radix2 (-53)).
Notation V := (bpow radix2 (-24)).
Definition near (a x y : R) : Prop := ((1 - a) * y <= x <= (1 + a) * y)%R.

Lemma U_small : (0 < U <= / 1000000)%R.
Proof. split; [apply bpow_gt_0|]. apply Rle_trans with (bpow radix2 (-20)); [apply bpow_le; lia|]. cbn. lra. Qed.
Lemma UV : (64 * U <= V)%R.
Proof. change V with (bpow radix2 (29 + -53)). rewrite bpow_plus. pose proof U_small. change (bpow radix2 29) with 536870912%R. lra. Qed.
Lemma V_small : (0 < V <= / 1000000)%R.
Proof. split; [apply bpow_gt_0|]. apply Rle_trans with (bpow radix2 (-20)); [apply bpow_le; lia|]. cbn. lra. Qed.

Lemma near_refl y : near 0 y y.
Proof. unfold near. lra. Qed.
Lemma near_weak a b x y : (0 <= y)%R -> (a <= b)%R -> near a x y -> near b x y.
Proof. unfold near. intros Y L [A B]. split; nra. Qed.
Lemma near_mul a b x y x' y' : (0 <= a <= / 8)%R -> (0 <= b <= / 8)%R -> (0 <= y)%R -> (0 <= y')%R -> near a x y -> near b x' y' -> near (a + 2 * b) (x * x') (y * y').
Proof.
  unfold near. intros A B Y Y' [X1 X2] [Z1 Z2].
  assert (P : (0 <= y * y')%R) by (apply Rmult_le_pos; assumption).
  assert (Q1 : (0 <= (1 - a) * y)%R) by (apply Rmult_le_pos; lra). assert (Q2 : (0 <= (1 - b) * y')%R) by (apply Rmult_le_pos; lra).
  split.
  - apply Rle_trans with (((1 - a) * y) * ((1 - b) * y'))%R; [|apply Rmult_le_compat; assumption].
    replace (((1 - a) * y) * ((1 - b) * y'))%R with (((1 - a) * (1 - b)) * (y * y'))%R by ring. apply Rmult_le_compat_r; [exact P|]. nra.
  - apply Rle_trans with (((1 + a) * y) * ((1 + b) * y'))%R; [apply Rmult_le_compat; lra|].
    replace (((1 + a) * y) * ((1 + b) * y'))%R with (((1 + a) * (1 + b)) * (y * y'))%R by ring. apply Rmult_le_compat_r; [exact P|]. nra.
Qed.
Lemma near_add a x y x' y' : near a x y -> near a x' y' -> near a (x + x') (y + y').
Proof. unfold near. intros [A B] [C D]. split; lra. Qed.
Lemma near_inv a x y : (0 <= a <= / 8)%R -> (0 < y)%R -> near a x y -> near (2 * a) (/ x) (/ y).
Proof.
  unfold near. intros A Y [X1 X2]. assert (XP : (0 < x)%R) by (apply Rlt_le_trans with (2 := X1); apply Rmult_lt_0_compat; lra).
  assert (I : (0 < / y)%R) by (apply Rinv_0_lt_compat, Y). assert (J : (0 < / x)%R) by (apply Rinv_0_lt_compat, XP).
  split.
  - apply (Rmult_le_reg_r (x * y)); [apply Rmult_lt_0_compat; assumption|].
    replace ((1 - 2 * a) * / y * (x * y))%R with ((1 - 2 * a) * x)%R by (field; lra). replace (/ x * (x * y))%R with y by (field; lra).
    apply Rle_trans with ((1 - 2 * a) * ((1 + a) * y))%R; [apply Rmult_le_compat_l; lra|]. nra.
  - apply (Rmult_le_reg_r (x * y)); [apply Rmult_lt_0_compat; assumption|].
    replace ((1 + 2 * a) * / y * (x * y))%R with ((1 + 2 * a) * x)%R by (field; lra). replace (/ x * (x * y))%R with y by (field; lra).
    apply Rle_trans with ((1 + 2 * a) * ((1 - a) * y))%R; [|apply Rmult_le_compat_l; lra].
    replace ((1 + 2 * a) * ((1 - a) * y))%R with (((1 + 2 * a) * (1 - a)) * y)%R by ring. rewrite <- (Rmult_1_l y) at 1. apply Rmult_le_compat_r; [lra|]. nra.
Qed.
Lemma near_sqrt a x y : (0 <= a <= / 8)%R -> (0 <= y)%R -> near a x y -> near a (sqrt x) (sqrt y).
Proof.
  unfold near. intros A Y [X1 X2]. pose proof (sqrt_pos y) as SP.
  split.
  - apply Rle_trans with (sqrt ((1 - a) * (1 - a) * y)).
    + rewrite sqrt_mult_alt by nra. rewrite sqrt_square by lra. lra.
    + apply sqrt_le_1_alt. apply Rle_trans with (2 := X1). apply Rmult_le_compat_r; [exact Y|]. nra.
  - apply Rle_trans with (sqrt ((1 + a) * (1 + a) * y)).
    + apply sqrt_le_1_alt. apply Rle_trans with (1 := X2). apply Rmult_le_compat_r; [exact Y|]. nra.
    + rewrite sqrt_mult_alt by nra. rewrite sqrt_square by lra. lra.
Qed.

Lemma RN32_rel x y : (bpow radix2 (-126) <= y)%R -> (Rabs x <= y)%R -> (Rabs (RN32 x - x) <= y * V)%R.
Proof.
  intros Hy H. unfold RN32. pose proof (bpow_gt_0 radix2 (-126)) as P.
  apply Rle_trans with (/ 2 * ulp radix2 (FLT_exp (-149) 24) x)%R; [apply error_le_half_ulp; apply FLT_exp_valid; reflexivity|].
  apply Rle_trans with (/ 2 * ulp radix2 (FLT_exp (-149) 24) y)%R.
  { apply Rmult_le_compat_l; [lra|]. apply ulp_le; [apply FLT_exp_valid; reflexivity|apply FLT_exp_monotone|].
    rewrite (Rabs_pos_eq y) by lra. exact H. }
  pose proof (ulp_FLT_le radix2 (-149) 24 y) as L0.
  assert (L : (ulp radix2 (FLT_exp (-149) 24) y <= y * bpow radix2 (-23))%R).
  { rewrite <- (Rabs_pos_eq y) at 2 by lra. apply L0. rewrite (Rabs_pos_eq y) by lra. exact Hy. }
  assert (E : (bpow radix2 (-23) = 2 * V)%R) by (change (-23) with (1 + -24) at 1; rewrite bpow_plus; reflexivity).
  rewrite E in L. lra.
Qed.
(* one rounding of a number near y, y well inside the range *)
Lemma op64 a x y p q : (0 <= a <= / 8)%R -> (bpow radix2 p <= y <= bpow radix2 q)%R -> -1000 <= p -> q <= 1000 -> near a x y ->
  near (a + 2 * U) (RN64 x) y /\ (Rabs x <= bpow radix2 1023)%R.
Proof.
  intros A Y P Q [X1 X2]. pose proof (bpow_gt_0 radix2 p) as BP. pose proof U_small as US.
  assert (XL : (bpow radix2 (-1022) <= x)%R).
  { apply Rle_trans with (bpow radix2 (p - 1)); [apply bpow_le; lia|]. unfold Z.sub. rewrite bpow_plus. change (bpow radix2 (-(1))) with (/ 2)%R. nra. }
  assert (XU : (x <= bpow radix2 1023)%R).
  { apply Rle_trans with (bpow radix2 (q + 1)); [|apply bpow_le; lia]. rewrite bpow_plus. change (bpow radix2 1) with 2%R. nra. }
  pose proof (bpow_gt_0 radix2 (-1022)) as B2. rewrite Rabs_pos_eq by lra. split; [|exact XU].
  pose proof (RN64_rel x x XL ltac:(rewrite Rabs_pos_eq by lra; lra)) as E. apply Rabs_le_inv in E.
  assert (x * U <= 9 / 8 * y * U)%R by (apply Rmult_le_compat_r; nra).
  split; nra.
Qed.
Lemma op32 a x y p q : (0 <= a <= / 8)%R -> (bpow radix2 p <= y <= bpow radix2 q)%R -> -120 <= p -> q <= 120 -> near a x y ->
  near (a + 2 * V) (RN32 x) y /\ (Rabs x <= bpow radix2 127)%R.
Proof.
  intros A Y P Q [X1 X2]. pose proof (bpow_gt_0 radix2 p) as BP. pose proof V_small as US.
  assert (XL : (bpow radix2 (-126) <= x)%R).
  { apply Rle_trans with (bpow radix2 (p - 1)); [apply bpow_le; lia|]. unfold Z.sub. rewrite bpow_plus. change (bpow radix2 (-(1))) with (/ 2)%R. nra. }
  assert (XU : (x <= bpow radix2 127)%R).
  { apply Rle_trans with (bpow radix2 (q + 1)); [|apply bpow_le; lia]. rewrite bpow_plus. change (bpow radix2 1) with 2%R. nra. }
  pose proof (bpow_gt_0 radix2 (-126)) as B2. rewrite Rabs_pos_eq by lra. split; [|exact XU].
  pose proof (RN32_rel x x XL ltac:(rewrite Rabs_pos_eq by lra; lra)) as E. apply Rabs_le_inv in E.
  assert (x * V <= 9 / 8 * y * V)%R by (apply Rmult_le_compat_r; nra).
  split; nra.
Qed.
Lemma d_sqrt_ok x a : fin64 x a -> (0 <= a)%R -> fin64 (d_sqrt x) (RN64 (sqrt a)).
Proof.
  intros [F E] A. pose proof (Bsqrt_correct 53 1024 prec_gt_0_64 prec_lt_emax_64 mode_NE x) as (H1 & H2 & _).
  change (B2R x) with (B2R64 x) in H1. rewrite E in H1. split; [|exact H1]. unfold d_sqrt. rewrite H2.
  destruct x as [sg|sg| |sg m ex Hb]; try discriminate; [reflexivity|]. destruct sg; [|reflexivity].
  exfalso. assert (B2R64 (B754_finite true m ex Hb) < 0)%R by (apply F2R_lt_0; reflexivity). lra.
Qed.

(* ---- courant_length ---- *)
Lemma pow_mul a b c d x y : (bpow radix2 a <= x <= bpow radix2 b)%R -> (bpow radix2 c <= y <= bpow radix2 d)%R ->
  (bpow radix2 (a + c) <= x * y <= bpow radix2 (b + d))%R.
Proof.
  intros X Y. pose proof (bpow_gt_0 radix2 a). pose proof (bpow_gt_0 radix2 c). rewrite !bpow_plus. split; apply Rmult_le_compat; lra.
Qed.
Lemma pow_inv a b x : (bpow radix2 a <= x <= bpow radix2 b)%R -> (bpow radix2 (- b) <= / x <= bpow radix2 (- a))%R.
Proof.
  intro X. pose proof (bpow_gt_0 radix2 a). rewrite !bpow_opp. split; apply Rinv_le; lra.
Qed.
Lemma ratio gn l L : axis_ok gn l L -> fin64 (d_div (d_of_Z gn) l) (RN64 (IZR gn / L)) /\ near (2 * U) (RN64 (IZR gn / L)) (IZR gn / L).
Proof.
  intros (F & LP & G & B). pose proof U_small as US. destruct (op64 0 (IZR gn / L) (IZR gn / L) (-40) 40 ltac:(lra) B ltac:(lia) ltac:(lia) (near_refl _)) as [N O].
  split; [apply d_div_ok; [apply fin64_Z; lia|exact F|lra|exact O]|]. rewrite Rplus_0_l in N. exact N.
Qed.
Lemma term_ok gn l L w x S a : axis_ok gn l L -> fin64 w x -> near a x S -> (8 * U <= a <= / 16)%R -> (0 <= S <= bpow radix2 85)%R ->
  exists x', fin64 (courant_term (d_of_Z gn) l w) x' /\ near (a + 2 * U) x' (S + share2 gn L).
Proof.
  intros AX F N A SB. pose proof U_small as US. destruct (ratio gn l L AX) as [FR NR]. destruct AX as (FL & LP & G & B).
  unfold courant_term, share2. destruct (Z.ltb_spec 1 gn) as [G1|G1].
  - assert (LT : d_lt (d_of_Z 1) (d_of_Z gn) = true).
    { apply (proj2 (d_lt_ok _ _ _ _ (fin64_Z 1 ltac:(lia)) (fin64_Z gn ltac:(lia)))). apply IZR_lt. lia. }
    rewrite LT. set (q := (IZR gn / L)%R) in *. assert (QP : (0 < q)%R) by (pose proof (bpow_gt_0 radix2 (-40)); lra).
    pose proof (near_mul (2 * U) (2 * U) _ q _ q ltac:(lra) ltac:(lra) ltac:(lra) ltac:(lra) NR NR) as NM.
    pose proof (pow_mul _ _ _ _ _ _ B B) as BB. fold q in BB. change (-40 + -40) with (-80) in BB. change (40 + 40) with 80 in BB.
    destruct (op64 (2 * U + 2 * (2 * U)) (RN64 q * RN64 q) (q * q) (-80) 80 ltac:(lra) BB ltac:(lia) ltac:(lia) NM) as [N2 O2].
    pose proof (d_mul_ok _ _ _ _ FR FR O2) as F2.
    assert (NA : near a (RN64 (RN64 q * RN64 q)) (q * q)) by (apply (near_weak (2 * U + 2 * (2 * U) + 2 * U)); [nra|lra|exact N2]).
    pose proof (near_add a _ _ _ _ N NA) as N3. pose proof (bpow_gt_0 radix2 (-80)) as BP.
    assert (BS : (bpow radix2 (-80) <= S + q * q <= bpow radix2 86)%R).
    { split; [lra|]. apply Rle_trans with (bpow radix2 85 + bpow radix2 85)%R.
      - assert (bpow radix2 80 <= bpow radix2 85)%R by (apply bpow_le; lia). lra.
      - change (bpow radix2 86) with (bpow radix2 (1 + 85)). rewrite (bpow_plus radix2 1 85). change (bpow radix2 1) with 2%R. lra. }
    destruct (op64 a _ _ (-80) 86 ltac:(lra) BS ltac:(lia) ltac:(lia) N3) as [N4 O4].
    eexists. split; [apply d_add_ok; [exact F|exact F2|exact O4]|exact N4].
  - assert (gn = 1) by lia. subst gn. assert (LT : d_lt (d_of_Z 1) (d_of_Z 1) = false) by reflexivity. rewrite LT.
    exists x. split; [exact F|]. rewrite Rplus_0_r. apply (near_weak a); [lra|lra|exact N].
Qed.
Lemma share2_bound gn l L : axis_ok gn l L -> (0 <= share2 gn L <= bpow radix2 80)%R.
Proof.
  intros (_ & _ & _ & B). unfold share2. destruct (1 <? gn); [|split; [lra|apply bpow_ge_0]].
  pose proof (pow_mul _ _ _ _ _ _ B B) as BB. pose proof (bpow_gt_0 radix2 (-40 + -40)). change (40 + 40) with 80 in BB. lra.
Qed.
Lemma share2_low gn l L : axis_ok gn l L -> 1 < gn -> (bpow radix2 (-80) <= share2 gn L)%R.
Proof.
  intros (_ & _ & _ & B) G. unfold share2. replace (1 <? gn) with true by lia. pose proof (pow_mul _ _ _ _ _ _ B B) as BB. apply BB.
Qed.
Lemma total2_bounds gx gy gz lx ly lz Lx Ly Lz : axis_ok gx lx Lx -> axis_ok gy ly Ly -> axis_ok gz lz Lz -> 1 < gx \/ 1 < gy \/ 1 < gz ->
  (bpow radix2 (-80) <= total2 gx gy gz Lx Ly Lz <= bpow radix2 82)%R.
Proof.
  intros AX AY AZ G. pose proof (share2_bound _ _ _ AX) as BX. pose proof (share2_bound _ _ _ AY) as BY. pose proof (share2_bound _ _ _ AZ) as BZ. unfold total2. split.
  - destruct G as [G|[G|G]]; [pose proof (share2_low _ _ _ AX G)|pose proof (share2_low _ _ _ AY G)|pose proof (share2_low _ _ _ AZ G)]; lra.
  - change (bpow radix2 82) with (bpow radix2 (2 + 80)). rewrite bpow_plus. change (bpow radix2 2) with 4%R. lra.
Qed.
Lemma length_ok gx gy gz lx ly lz Lx Ly Lz : axis_ok gx lx Lx -> axis_ok gy ly Ly -> axis_ok gz lz Lz -> 1 < gx \/ 1 < gy \/ 1 < gz ->
  exists r, fin64 (courant_length lx ly lz (d_of_Z gx) (d_of_Z gy) (d_of_Z gz)) r /\ near (40 * U) r (sqrt (/ total2 gx gy gz Lx Ly Lz)).
Proof.
  intros AX AY AZ G. pose proof U_small as US. pose proof (total2_bounds _ _ _ _ _ _ _ _ _ AX AY AZ G) as TB.
  pose proof (share2_bound _ _ _ AX) as BX. pose proof (share2_bound _ _ _ AY) as BY. pose proof (share2_bound _ _ _ AZ) as BZ.
  assert (P85 : (2 * bpow radix2 80 <= bpow radix2 85)%R).
  { change (bpow radix2 85) with (bpow radix2 (5 + 80)). rewrite (bpow_plus radix2 5 80). change (bpow radix2 5) with 32%R. pose proof (bpow_gt_0 radix2 80). lra. }
  pose proof (bpow_gt_0 radix2 80) as P80.
  destruct (term_ok gx lx Lx (d_of_Z 0) 0 0 (8 * U) AX (fin64_Z 0 ltac:(lia)) ltac:(unfold near; lra) ltac:(lra) ltac:(lra)) as (x1 & F1 & N1).
  destruct (term_ok gy ly Ly _ x1 (0 + share2 gx Lx)%R (8 * U + 2 * U)%R AY F1 N1 ltac:(lra) ltac:(lra)) as (x2 & F2 & N2).
  destruct (term_ok gz lz Lz _ x2 (0 + share2 gx Lx + share2 gy Ly)%R (8 * U + 2 * U + 2 * U)%R AZ F2 N2 ltac:(lra) ltac:(lra)) as (x3 & F3 & N3).
  fold (total2 gx gy gz Lx Ly Lz) in N3. set (T := total2 gx gy gz Lx Ly Lz) in *. pose proof (bpow_gt_0 radix2 (-80)) as P.
  pose proof (near_inv (8 * U + 2 * U + 2 * U + 2 * U) x3 T ltac:(lra) ltac:(lra) N3) as NI. pose proof (pow_inv _ _ _ TB) as TI. change (- -80) with 80 in TI. change (- (82)) with (-82) in TI.
  destruct (op64 (2 * (8 * U + 2 * U + 2 * U + 2 * U)) (/ x3) (/ T) (-82) 80 ltac:(lra) TI ltac:(lia) ltac:(lia) NI) as [N4 O4].
  assert (X3 : (x3 <> 0)%R) by (destruct N3 as [N3 _]; nra).
  assert (F4 : fin64 (d_div (d_of_Z 1) (courant_term (d_of_Z gz) lz (courant_term (d_of_Z gy) ly (courant_term (d_of_Z gx) lx (d_of_Z 0))))) (RN64 (/ x3))).
  { replace (/ x3)%R with (1 / x3)%R by (field; exact X3). apply d_div_ok; [apply (fin64_Z 1); lia|exact F3|exact X3|]. replace (1 / x3)%R with (/ x3)%R by (field; exact X3). exact O4. }
  assert (TP : (0 < / T)%R) by (pose proof (bpow_gt_0 radix2 (-82)); lra).
  assert (R0 : (0 <= RN64 (/ x3))%R) by (destruct N4 as [N4 _]; nra).
  pose proof (near_sqrt (2 * (8 * U + 2 * U + 2 * U + 2 * U) + 2 * U) (RN64 (/ x3)) (/ T)%R ltac:(lra) ltac:(lra) N4) as NS.
  assert (SB : (bpow radix2 (-41) <= sqrt (/ T) <= bpow radix2 40)%R).
  { rewrite <- (sqrt_square (bpow radix2 (-41))), <- (sqrt_square (bpow radix2 40)) by apply bpow_ge_0. rewrite <- !bpow_plus. split; apply sqrt_le_1_alt; apply TI. }
  destruct (op64 (2 * (8 * U + 2 * U + 2 * U + 2 * U) + 2 * U) (sqrt (RN64 (/ x3))) (sqrt (/ T)) (-41) 40 ltac:(lra) SB ltac:(lia) ltac:(lia) NS) as [N5 _].
  eexists. split; [apply d_sqrt_ok; [exact F4|exact R0]|]. apply (near_weak _ (40 * U)) in N5; [exact N5|apply sqrt_pos|lra].
Qed.

(* ---- the coefficients of the field advance ---- *)
Lemma half32 x : (bpow radix2 (-120) <= x)%R -> RN32 (x / 2) = (RN32 x / 2)%R.
Proof.
  intro X. pose proof (bpow_gt_0 radix2 (-120)) as P.
  assert (B : (bpow radix2 (-126) <= x / 2)%R).
  { apply Rle_trans with (bpow radix2 (-1 + -120)); [apply bpow_le; lia|]. rewrite bpow_plus. change (bpow radix2 (-1)) with (/ 2)%R. lra. }
  unfold RN32. rewrite (round_FLT_FLX radix2 (-149) 24 ZnearestE x), (round_FLT_FLX radix2 (-149) 24 ZnearestE (x / 2)).
  - unfold round, scaled_mantissa, cexp. assert (M : mag radix2 (x / 2) = (mag radix2 x + -1)%Z :> Z).
    { replace (x / 2)%R with (x * bpow radix2 (-1))%R by (change (bpow radix2 (-1)) with (/ 2)%R; reflexivity). apply mag_mult_bpow. lra. }
    rewrite M. unfold FLX_exp. unfold F2R. cbn [Defs.Fnum Defs.Fexp].
    replace (x / 2 * bpow radix2 (- (mag radix2 x + -1 - 24)))%R with (x * bpow radix2 (- (mag radix2 x - 24)))%R.
    + replace (mag radix2 x + -1 - 24) with (-1 + (mag radix2 x - 24)) by lia. rewrite (bpow_plus radix2 (-1) (mag radix2 x - 24)). change (bpow radix2 (-1)) with (/ 2)%R. field.
    + replace (- (mag radix2 x + -1 - 24)) with (1 + - (mag radix2 x - 24)) by lia. rewrite (bpow_plus radix2 1 (- (mag radix2 x - 24))). change (bpow radix2 1) with 2%R. field.
  - change (-149 + 24 - 1) with (-126). rewrite Rabs_pos_eq by lra. exact B.
  - change (-149 + 24 - 1) with (-126). rewrite Rabs_pos_eq by lra. lra.
Qed.
Lemma low_near a x y p : (0 <= a <= / 8)%R -> (bpow radix2 p <= y)%R -> near a x y -> (bpow radix2 (p - 1) <= x)%R.
Proof.
  intros A Y [X _]. pose proof (bpow_gt_0 radix2 p). unfold Z.sub. rewrite bpow_plus. change (bpow radix2 (-(1))) with (/ 2)%R. nra.
Qed.

Section Deck.
Variables (cfl len c : b64) (f r C Y : R).
Hypothesis Ff : fin64 cfl f.
Hypothesis Bf : (bpow radix2 (-10) <= f <= 1)%R.
Hypothesis Fr : fin64 len r.
Hypothesis Nr : near (40 * U) r Y.
Hypothesis BY : (bpow radix2 (-41) <= Y <= bpow radix2 40)%R.
Hypothesis Fc : fin64 c C.
Hypothesis BC : (bpow radix2 (-40) <= C <= bpow radix2 40)%R.

Lemma BfY : (bpow radix2 (-51) <= f * Y <= bpow radix2 40)%R.
Proof. change (-51) with (-10 + -41). change 40 with (0 + 40) at 1. apply pow_mul; [exact Bf|exact BY]. Qed.
Lemma cv_ok : exists v, fin32 (units_cvac c) v /\ near (2 * V) v C.
Proof.
  pose proof V_small. destruct (op32 0 C C (-40) 40 ltac:(lra) BC ltac:(lia) ltac:(lia) (near_refl _)) as [N O]. rewrite Rplus_0_l in N.
  eexists. split; [apply d2f_ok; [exact Fc|exact O]|exact N].
Qed.
Lemma dt_ok : exists t, fin32 (timestep cfl len c) t /\ near (84 * U + 2 * V) t (f * Y / C).
Proof.
  pose proof U_small as US. pose proof V_small as VS. pose proof (bpow_gt_0 radix2 (-10)) as P1. pose proof (bpow_gt_0 radix2 (-41)) as P2. pose proof (bpow_gt_0 radix2 (-40)) as P3.
  pose proof (near_mul 0 (40 * U) f f r Y ltac:(lra) ltac:(lra) ltac:(lra) ltac:(lra) (near_refl f) Nr) as N1.
  destruct (op64 (0 + 2 * (40 * U)) (f * r) (f * Y) (-51) 40 ltac:(lra) BfY ltac:(lia) ltac:(lia) N1) as [N2 O2].
  pose proof (d_mul_ok _ _ _ _ Ff Fr O2) as F2. pose proof (pow_inv _ _ _ BC) as BI. pose proof (pow_mul _ _ _ _ _ _ BfY BI) as BB.
  change (-51 + - (40)) with (-91) in BB. change (40 + - -40) with 80 in BB.
  pose proof BfY as BF0. pose proof (bpow_gt_0 radix2 (-51)) as P4. pose proof (bpow_gt_0 radix2 (- (40))) as P5.
  pose proof (near_mul (0 + 2 * (40 * U) + 2 * U) 0 (RN64 (f * r)) (f * Y) (/ C) (/ C) ltac:(lra) ltac:(lra) ltac:(lra) ltac:(lra) N2 (near_refl _)) as N3.
  destruct (op64 (0 + 2 * (40 * U) + 2 * U + 2 * 0) _ _ (-91) 80 ltac:(lra) BB ltac:(lia) ltac:(lia) N3) as [N4 O4].
  pose proof (d_div_ok _ _ _ _ F2 Fc ltac:(lra) O4) as F4.
  destruct (op32 (0 + 2 * (40 * U) + 2 * U + 2 * 0 + 2 * U) _ _ (-91) 80 ltac:(lra) BB ltac:(lia) ltac:(lia) N4) as [N5 O5].
  eexists. split; [apply d2f_ok; [exact F4|exact O5]|]. apply (near_weak (0 + 2 * (40 * U) + 2 * U + 2 * 0 + 2 * U + 2 * V)); [|lra|exact N5]. apply Rlt_le, Rlt_le_trans with (2 := proj1 BB). apply bpow_gt_0.
Qed.
Lemma rd_ok gn l L : axis_ok gn l L -> exists d, fin32 (inverse_cell gn l) d /\ near (2 * U + 2 * V) d (IZR gn / L).
Proof.
  intro AX. pose proof U_small as US. pose proof V_small as VS. destruct (ratio gn l L AX) as [FR NR]. destruct AX as (_ & _ & _ & B).
  destruct (op32 (2 * U) _ _ (-40) 40 ltac:(lra) B ltac:(lia) ltac:(lia) NR) as [N O]. eexists. split; [apply d2f_ok; [exact FR|exact O]|exact N].
Qed.
Lemma coef_ok gn l L nl damp half : axis_ok gn l L -> 1 <= nl <= gn -> fin32 damp 0 -> fin32 half (/ 2) ->
  exists p, fin32 (e_coef nl damp (units_cvac c) (timestep cfl len c) (inverse_cell gn l)) p /\
    fin32 (b_coef nl half (units_cvac c) (timestep cfl len c) (inverse_cell gn l)) (p / 2) /\
    (0 <= p <= (1 + 17 * V) * (f * Y) * sqrt (share2 gn L))%R.
Proof.
  intros AX NL FD FH. pose proof U_small as US. pose proof V_small as VS. pose proof UV as UV0.
  destruct cv_ok as (v & Fv & Nv). destruct dt_ok as (t & Ft & Nt). destruct (rd_ok gn l L AX) as (d & Fd & Nd).
  pose proof BfY as BF0. pose proof (bpow_gt_0 radix2 (-51)) as P4. pose proof (bpow_gt_0 radix2 (-40)) as P3.
  unfold e_coef, b_coef. destruct (Z.ltb_spec 1 nl) as [G|G].
  2:{ exists 0%R. split; [apply (fin32_Z 0); lia|]. split; [replace (0 / 2)%R with (IZR 0) by lra; apply (fin32_Z 0); lia|].
      split; [lra|]. apply Rmult_le_pos; [|apply sqrt_pos]. apply Rmult_le_pos; lra. }
  unfold share2. replace (1 <? gn) with true by lia. set (q := (IZR gn / L)%R) in *. destruct AX as (_ & _ & _ & B). fold q in B.
  rewrite sqrt_square by lra.
  assert (TP : (0 <= f * Y / C)%R) by (apply Rmult_le_pos; [lra|apply Rlt_le, Rinv_0_lt_compat; lra]).
  pose proof (near_mul (2 * V) (84 * U + 2 * V) v C t (f * Y / C) ltac:(lra) ltac:(lra) ltac:(lra) TP Nv Nt) as N1.
  replace (C * (f * Y / C))%R with (f * Y)%R in N1 by (field; lra).
  destruct (op32 (2 * V + 2 * (84 * U + 2 * V)) (v * t) (f * Y) (-51) 40 ltac:(lra) BF0 ltac:(lia) ltac:(lia) N1) as [N2 O2].
  pose proof (near_mul (2 * V + 2 * (84 * U + 2 * V) + 2 * V) (2 * U + 2 * V) (RN32 (v * t)) (f * Y) d q ltac:(lra) ltac:(lra) ltac:(lra) ltac:(lra) N2 Nd) as N3.
  pose proof (pow_mul _ _ _ _ _ _ BF0 B) as BB. change (-51 + -40) with (-91) in BB. change (40 + 40) with 80 in BB.
  destruct (op32 (2 * V + 2 * (84 * U + 2 * V) + 2 * V + 2 * (2 * U + 2 * V)) _ _ (-91) 80 ltac:(lra) BB ltac:(lia) ltac:(lia) N3) as [N4 O4].
  assert (LV : (bpow radix2 (-41) <= v)%R) by (apply (low_near (2 * V) v C (-40)); [lra|apply BC|exact Nv]).
  assert (L1 : (bpow radix2 (-52) <= v * t)%R) by (apply (low_near (2 * V + 2 * (84 * U + 2 * V)) _ (f * Y) (-51)); [lra|apply BF0|exact N1]).
  assert (L2 : (bpow radix2 (-92) <= RN32 (v * t) * d)%R) by (apply (low_near (2 * V + 2 * (84 * U + 2 * V) + 2 * V + 2 * (2 * U + 2 * V)) _ (f * Y * q) (-91)); [lra|apply BB|exact N3]).
  assert (L3 : (bpow radix2 (-92) <= RN32 (RN32 (v * t) * d))%R) by (apply (low_near (2 * V + 2 * (84 * U + 2 * V) + 2 * V + 2 * (2 * U + 2 * V) + 2 * V) _ (f * Y * q) (-91)); [lra|apply BB|exact N4]).
  pose proof (bpow_gt_0 radix2 (-92)) as P92. pose proof (bpow_gt_0 radix2 (-52)) as P52. pose proof (bpow_gt_0 radix2 (-41)) as P41.
  assert (LO : forall a b, b <= a -> (bpow radix2 b <= bpow radix2 a)%R) by (intros; apply bpow_le; assumption).
  pose proof (LO (-41) (-120) ltac:(lia)). pose proof (LO (-52) (-120) ltac:(lia)). pose proof (LO (-92) (-120) ltac:(lia)).
  assert (VU : (v <= bpow radix2 127)%R).
  { destruct Nv as [_ Nv]. apply Rle_trans with (bpow radix2 41); [|apply bpow_le; lia]. change 41 with (1 + 40). rewrite bpow_plus. change (bpow radix2 1) with 2%R. nra. }
  exists (RN32 (RN32 (v * t) * d)). split; [|split].
  - pose proof (f_add_ok _ _ _ _ (fin32_Z 1 ltac:(lia)) FD) as FA. rewrite Rplus_0_r in FA. rewrite (RN32_Z 1) in FA by lia.
    specialize (FA ltac:(rewrite Rabs_R1; apply Rle_trans with (bpow radix2 0); [cbn; lra|apply bpow_le; lia])).
    pose proof (f_mul_ok _ _ _ _ FA Fv) as FM. rewrite Rmult_1_l in FM. rewrite (RN32_id v) in FM by exact (fin32_F _ _ Fv).
    specialize (FM ltac:(rewrite Rabs_pos_eq by lra; exact VU)).
    apply f_mul_ok; [|exact Fd|exact O4]. apply f_mul_ok; [exact FM|exact Ft|exact O2].
  - assert (HA1 : fin32 (f_mul half (units_cvac c)) (v / 2)).
    { rewrite <- (RN32_id v) by exact (fin32_F _ _ Fv). rewrite <- half32 by lra. replace (v / 2)%R with (/ 2 * v)%R by lra.
      apply f_mul_ok; [exact FH|exact Fv|]. rewrite Rabs_pos_eq by lra. lra. }
    assert (HA2 : fin32 (f_mul (f_mul half (units_cvac c)) (timestep cfl len c)) (RN32 (v * t) / 2)).
    { rewrite <- half32 by lra. replace (v * t / 2)%R with (v / 2 * t)%R by lra. apply f_mul_ok; [exact HA1|exact Ft|].
      replace (v / 2 * t)%R with (v * t / 2)%R by lra. rewrite Rabs_pos_eq in O2 by lra. rewrite Rabs_pos_eq by lra. lra. }
    rewrite <- half32 by lra. replace (RN32 (v * t) * d / 2)%R with (RN32 (v * t) / 2 * d)%R by lra. apply f_mul_ok; [exact HA2|exact Fd|].
    replace (RN32 (v * t) / 2 * d)%R with (RN32 (v * t) * d / 2)%R by lra. rewrite Rabs_pos_eq in O4 by lra. rewrite Rabs_pos_eq by lra. lra.
  - split; [lra|]. destruct N4 as [_ N4]. apply Rle_trans with (1 := N4). replace ((1 + 17 * V) * (f * Y) * q)%R with ((1 + 17 * V) * (f * Y * q))%R by ring. apply Rmult_le_compat_r; [apply Rmult_le_pos; lra|]. lra.
Qed.
End Deck.

Lemma coefs_below gx gy gz Lx Ly Lz f a b c : (0 < total2 gx gy gz Lx Ly Lz)%R -> (0 <= share2 gx Lx)%R -> (0 <= share2 gy Ly)%R -> (0 <= share2 gz Lz)%R ->
  (0 <= f <= 1 - 32 * V)%R -> let K := ((1 + 17 * V) * (f * sqrt (/ total2 gx gy gz Lx Ly Lz)))%R in
  (0 <= a <= K * sqrt (share2 gx Lx))%R -> (0 <= b <= K * sqrt (share2 gy Ly))%R -> (0 <= c <= K * sqrt (share2 gz Lz))%R ->
  (a * a + b * b + c * c < 1)%R.
Proof.
  intros T X Y Z F K A B C. pose proof V_small as VS. set (t := total2 gx gy gz Lx Ly Lz) in *.
  assert (KS : (K * K * t = ((1 + 17 * V) * f) * ((1 + 17 * V) * f))%R).
  { unfold K. replace ((1 + 17 * V) * (f * sqrt (/ t)) * ((1 + 17 * V) * (f * sqrt (/ t))) * t)%R with ((1 + 17 * V) * f * ((1 + 17 * V) * f) * (sqrt (/ t) * sqrt (/ t) * t))%R by ring.
    rewrite sqrt_sqrt by (apply Rlt_le, Rinv_0_lt_compat, T). field. lra. }
  assert (S : forall x s, (0 <= s)%R -> (0 <= x <= K * sqrt s)%R -> (x * x <= K * K * s)%R).
  { intros x s S0 [H1 H2]. apply Rle_trans with ((K * sqrt s) * (K * sqrt s))%R; [apply Rmult_le_compat; assumption|].
    replace (K * sqrt s * (K * sqrt s))%R with (K * K * (sqrt s * sqrt s))%R by ring. rewrite sqrt_sqrt by exact S0. lra. }
  pose proof (S _ _ X A) as SA. pose proof (S _ _ Y B) as SB. pose proof (S _ _ Z C) as SC.
  apply Rle_lt_trans with (K * K * t)%R; [unfold t, total2; lra|]. rewrite KS.
  assert (G : (0 <= (1 + 17 * V) * f < 1)%R).
  { split; [apply Rmult_le_pos; lra|]. apply Rle_lt_trans with ((1 + 17 * V) * (1 - 32 * V))%R; [apply Rmult_le_compat_l; lra|]. nra. }
  nra.
Qed.
