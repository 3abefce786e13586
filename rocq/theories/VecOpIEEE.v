(* IEEE single precision as an fpu, and what the operators do with it. *)
From Coq Require Import ZArith List String Bool Lia Reals Lra.
From Flocq Require IEEE754.BinarySingleNaN.
From Flocq Require Import Core Relative IEEE754.Binary IEEE754.Bits.
From Verif Require Import VecOpModel VecOpTable VecOpSpec VecOpWords.
Import ListNotations.
Ltac Zify.zify_post_hook ::= idtac.
Open Scope Z_scope.

(* the operations rounded in the mode m; the estimates, which Intel and ARM
   only bound, taken as good as they can be *)
Definition ieee32 (m : BinarySingleNaN.mode) : fpu :=
  let i := b32_of_bits in let o := bits_of_b32 in
  {| f_add := fun a b => o (b32_plus m (i a) (i b));
     f_sub := fun a b => o (b32_minus m (i a) (i b));
     f_mul := fun a b => o (b32_mult m (i a) (i b));
     f_div := fun a b => o (b32_div m (i a) (i b));
     f_sqrt := fun a => o (b32_sqrt m (i a));
     f_rsqrte := fun a => o (b32_sqrt m (b32_div m (i f1) (i a)));
     f_rcpe := fun a => o (b32_div m (i f1) (i a));
     f_fmadd := fun a b c => o (b32_fma m (i a) (i b) (i c));
     f_fmsub := fun a b c => o (b32_fma m (i a) (i b) (b32_opp (i c)));
     f_fnmadd := fun a b c => o (b32_fma m (b32_opp (i a)) (i b) (i c));
     f_fun := fun _ a => a; f_fun2 := fun _ a _ => a |}.

Lemma ieee32_sub : forall m, sub_from_zero (ieee32 m).
Proof.
  intros m a A N M. cbn [ieee32 f_sub].
  assert (R : bits_of_b32 (b32_of_bits a) = a) by (apply bits_of_binary_float_of_bits; exact A).
  pose proof (sign_word a A) as S. unfold nan in M.
  change (b32_of_bits 0) with (B754_zero 24 128 false).
  unfold word in A.
  destruct (b32_of_bits a) as [s|s|s p q|s p e q]; cbn [is_nan] in M; try discriminate.
  - destruct s.
    + rewrite <- R. reflexivity.
    + exfalso. apply N. symmetry. exact R.
  - rewrite <- R. destruct s; reflexivity.
  - assert (X : b32_minus m (B754_zero 24 128 false) (B754_finite 24 128 s p e q) = B754_finite 24 128 (negb s) p e q).
    { apply B2FF_inj. reflexivity. }
    rewrite X. cbn [Bsign] in S.
    assert (G : bits_of_b32 (B754_finite 24 128 true p e q) = bits_of_b32 (B754_finite 24 128 false p e q) + 2 ^ 31).
    { unfold bits_of_b32, bits_of_binary_float, join_bits. rewrite !Z.shiftl_mul_pow2 by lia.
      destruct (0 <=? Z.pos p - 2 ^ 23); lia. }
    destruct s; cbn [negb].
    + rewrite G in R. rewrite <- R.
      set (z := bits_of_b32 (B754_finite 24 128 false p e q)) in *.
      replace (z + 2 ^ 31 + 2 ^ 31) with (z + 1 * 2 ^ 32) by lia. rewrite Z.mod_add by lia.
      symmetry. apply Z.mod_small. lia.
    + rewrite G, R. symmetry. apply Z.mod_small. lia.
Qed.

Lemma plus_opp : forall m (x y : binary32), is_nan 24 128 x = false -> is_nan 24 128 y = false ->
  b32_plus m x (b32_opp y) = b32_minus m x y.
Proof.
  intros m x y X Y. destruct x as [sx|sx|sx px qx|sx mx ex Hx], y as [sy|sy|sy py qy|sy my ey Hy];
    try discriminate; apply B2FF_inj; reflexivity.
Qed.

Lemma flip_opp : forall a, word a -> nan a = false ->
  b32_of_bits ((a + 2 ^ 31) mod 2 ^ 32) = b32_opp (b32_of_bits a).
Proof.
  intros a A M. destruct (Z.eq_dec a 0) as [->|N]; [apply B2FF_inj; reflexivity|].
  pose proof (ieee32_sub BinarySingleNaN.mode_NE a A N M) as S. cbn [ieee32 f_sub] in S. rewrite <- S.
  unfold b32_of_bits at 1, bits_of_b32. rewrite binary_float_of_bits_of_binary_float.
  unfold nan in M. change (b32_of_bits 0) with (B754_zero 24 128 false).
  destruct (b32_of_bits a) as [s|s|s p q|s p e q] eqn:E; try discriminate; apply B2FF_inj; try reflexivity.
  destruct s; [reflexivity|]. exfalso. apply N.
  assert (R : bits_of_b32 (b32_of_bits a) = a) by (apply bits_of_binary_float_of_bits; exact A).
  rewrite E in R. symmetry. exact R.
Qed.

Lemma ieee32_flip : forall m a, word a -> nan a = false ->
  f_add (ieee32 m) f1 ((a + 2 ^ 31) mod 2 ^ 32) = f_sub (ieee32 m) f1 a.
Proof.
  intros m a A M. cbn [ieee32 f_add f_sub]. rewrite (flip_opp a A M). f_equal.
  apply plus_opp; [reflexivity|exact M].
Qed.

(* rounding to nearest: what the accuracy theorems ask of an operation, if it
   neither under- nor overflows *)
Lemma round_rel : forall x, (bpow radix2 (-126) <= Rabs x)%R ->
  exists d, (Rabs d <= / 16777216)%R /\
    Generic_fmt.round radix2 (FLT_exp (3 - 128 - 24) 24) ZnearestE x = (x * (1 + d))%R.
Proof.
  intros x H.
  destruct (relative_error_N_FLT_ex radix2 (3 - 128 - 24) 24 ltac:(lia) (fun t => negb (Z.even t)) x) as (d & D & E).
  - exact H.
  - exists d. split; [|exact E]. eapply Rle_trans; [exact D|].
    change (bpow radix2 (- (24) + 1)) with (/ IZR (Z.pow_pos 2 23))%R.
    replace (Z.pow_pos 2 23) with 8388608 by reflexivity. lra.
Qed.

Lemma ieee32_mul_rounded : forall a b, finite a = true -> finite b = true ->
  (bpow radix2 (-126) <= Rabs (real a * real b))%R -> (Rabs (real a * real b) < bpow radix2 127)%R ->
  rounded (f_mul (ieee32 BinarySingleNaN.mode_NE) a b) (real a * real b).
Proof.
  intros a b A B L U. destruct (round_rel _ L) as (d & D & E). exists d. split; [exact D|]. rewrite <- E.
  unfold real, ieee32, f_mul. cbn beta iota zeta. unfold bits_of_b32, b32_of_bits at 1.
  rewrite binary_float_of_bits_of_binary_float.
  pose proof (Bmult_correct 24 128 eq_refl eq_refl binop_nan_pl32 BinarySingleNaN.mode_NE (b32_of_bits a) (b32_of_bits b)) as C.
  rewrite Rlt_bool_true in C; [destruct C as [C _]; etransitivity; [exact C|reflexivity]|].
  apply Rle_lt_trans with (bpow radix2 127); [|apply bpow_lt; lia].
  apply abs_round_le_generic;
    [apply BinarySingleNaN.fexp_correct; reflexivity | apply valid_rnd_N
    | apply generic_format_bpow; cbn; lia | apply Rlt_le; exact U].
Qed.
