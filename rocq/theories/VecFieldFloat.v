(* Single precision arithmetic in the vector and the scalar formulas. *)
From Coq Require Import ZArith List Bool Lia Reals Lra.
From Flocq Require Import Core BinarySingleNaN.
From Verif Require Import FloatModel FloatProofs FieldModel.
Open Scope Z_scope.
Ltac Zify.zify_post_hook ::= idtac.

Definition A32 : arith b32 := mk_arith b32 f_add f_sub f_mul.

Lemma f_add_comm x y : f_add x y = f_add y x.
Proof.
  destruct x as [sx|sx| |sx mx ex Hx]; destruct y as [sy|sy| |sy my ey Hy]; try reflexivity.
  - cbn. destruct sx, sy; reflexivity.
  - cbn. destruct sx, sy; reflexivity.
  - unfold f_add, Bplus. rewrite (Z.min_comm ey ex). unfold Fplus_naive. rewrite Z.add_comm. reflexivity.
Qed.

Lemma f_mul_comm x y : f_mul x y = f_mul y x.
Proof.
  destruct x as [sx|sx| |sx mx ex Hx]; destruct y as [sy|sy| |sy my ey Hy]; try reflexivity;
    try (cbn; rewrite xorb_comm; reflexivity).
  apply B2SF_inj. unfold f_mul, Bmult. rewrite !B2SF_SF2B.
  rewrite xorb_comm, Pos.mul_comm, Z.add_comm. reflexivity.
Qed.

Notation RN := (round radix2 (SpecFloat.fexp 24 128) (round_mode mode_NE)).
Lemma RN_opp x : RN (- x) = (- RN x)%R.
Proof. cbn [round_mode]. apply round_NE_opp. Qed.

Lemma f_sub_opp x y : is_finite x = true -> is_finite y = true -> B2R x <> B2R y ->
  f_sub y x = Bopp (f_sub x y).
Proof.
  intros Fx Fy Hne.
  pose proof (Bminus_correct 24 128 prec_gt_0_32 prec_lt_emax_32 mode_NE x y Fx Fy) as C.
  pose proof (Bminus_correct 24 128 prec_gt_0_32 prec_lt_emax_32 mode_NE y x Fy Fx) as D.
  replace (B2R y - B2R x)%R with (- (B2R x - B2R y))%R in D by ring.
  rewrite RN_opp, Rabs_Ropp in D. fold (f_sub x y) in C. fold (f_sub y x) in D.
  destruct (Rlt_bool (Rabs (RN (B2R x - B2R y))) (bpow radix2 128)).
  - destruct C as (C1 & C2 & C3). destruct D as (D1 & D2 & D3).
    apply B2R_Bsign_inj; [exact D2|rewrite is_finite_Bopp; exact C2|rewrite B2R_Bopp, C1; exact D1|].
    rewrite Bsign_Bopp by (destruct (f_sub x y); cbn in C2 |- *; congruence). rewrite C3, D3.
    destruct (Rcompare_spec (B2R x - B2R y) 0); destruct (Rcompare_spec (- (B2R x - B2R y)) 0); try lra; reflexivity.
  - destruct C as (C1 & C2). destruct D as (D1 & D2).
    assert (E : B2SF (Bopp (f_sub x y)) = SpecFloat.SFopp (B2SF (f_sub x y))) by (destruct (f_sub x y); reflexivity).
    apply B2SF_inj. rewrite E, D1, C1, C2. destruct (Bsign y); reflexivity.
Qed.

Lemma f_sub_zero x y : is_finite x = true -> is_finite y = true -> B2R x = B2R y ->
  exists s, f_sub x y = B754_zero s.
Proof.
  intros Fx Fy E.
  pose proof (Bminus_correct 24 128 prec_gt_0_32 prec_lt_emax_32 mode_NE x y Fx Fy) as C.
  fold (f_sub x y) in C. rewrite E, Rminus_diag_eq, round_0, Rabs_R0 in C by (reflexivity || apply valid_rnd_round_mode).
  rewrite Rlt_bool_true in C by (apply bpow_gt_0). destruct C as (C1 & C2 & _).
  destruct (f_sub x y) as [s|s| |s m e He]; cbn in C1, C2; try discriminate C2; [exists s; reflexivity|].
  exfalso. apply eq_0_F2R in C1. destruct s; discriminate C1.
Qed.

Lemma f_sub_as_add a d : f_sub a d = f_add a (Bopp d).
Proof. destruct a, d; reflexivity. Qed.

(* fnms of the vector kernel against the difference of the scalar one. *)
Lemma f_sub_swap a x y : a <> B754_zero true -> f_sub a (f_sub x y) = f_add a (f_sub y x).
Proof.
  intros Ha.
  destruct (is_finite x) eqn:Fx; destruct (is_finite y) eqn:Fy.
  - destruct (Req_dec (B2R x) (B2R y)) as [E|E].
    + destruct (f_sub_zero x y Fx Fy E) as (s & ->). destruct (f_sub_zero y x Fy Fx (eq_sym E)) as (t & ->).
      destruct a as [sa|sa| |sa m e He]; try reflexivity. destruct sa; [congruence|]. destruct s, t; reflexivity.
    + rewrite (f_sub_opp x y Fx Fy E). apply f_sub_as_add.
  - rewrite f_sub_as_add. f_equal. destruct x; try discriminate Fx; destruct y as [|[]| |]; try discriminate Fy; reflexivity.
  - rewrite f_sub_as_add. f_equal. destruct x as [|[]| |]; try discriminate Fx; destruct y as [|[]| |]; try discriminate Fy; reflexivity.
  - rewrite f_sub_as_add. f_equal. destruct x as [|[]| |]; try discriminate Fx; destruct y as [|[]| |]; try discriminate Fy; reflexivity.
Qed.
