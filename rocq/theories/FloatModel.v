(* Executable IEEE-754 arithmetic (Flocq), round to nearest even: the C types
   float and double of the target platforms. *)
From Coq Require Import ZArith.
From Flocq Require Import Core BinarySingleNaN.
Open Scope Z_scope.

Definition b64 : Type := binary_float 53 1024.
Definition b32 : Type := binary_float 24 128.

Definition prec_gt_0_64 : Prec_gt_0 53 := eq_refl.
Definition prec_lt_emax_64 : Prec_lt_emax 53 1024 := eq_refl.
Definition prec_gt_0_32 : Prec_gt_0 24 := eq_refl.
Definition prec_lt_emax_32 : Prec_lt_emax 24 128 := eq_refl.

(* double: + - * / fma, conversion from and truncation to an integer *)
Definition d_add (x y : b64) : b64 := Bplus (prec_gt_0_ := prec_gt_0_64) (prec_lt_emax_ := prec_lt_emax_64) mode_NE x y.
Definition d_sub (x y : b64) : b64 := Bminus (prec_gt_0_ := prec_gt_0_64) (prec_lt_emax_ := prec_lt_emax_64) mode_NE x y.
Definition d_mul (x y : b64) : b64 := Bmult (prec_gt_0_ := prec_gt_0_64) (prec_lt_emax_ := prec_lt_emax_64) mode_NE x y.
Definition d_div (x y : b64) : b64 := Bdiv (prec_gt_0_ := prec_gt_0_64) (prec_lt_emax_ := prec_lt_emax_64) mode_NE x y.
Definition d_fma (x y z : b64) : b64 := Bfma (prec_gt_0_ := prec_gt_0_64) (prec_lt_emax_ := prec_lt_emax_64) mode_NE x y z.
Definition d_of_Z (z : Z) : b64 := binary_normalize 53 1024 prec_gt_0_64 prec_lt_emax_64 mode_NE z 0 false.
Definition d_trunc (x : b64) : Z := Btrunc x.

(* float *)
Definition f_add (x y : b32) : b32 := Bplus (prec_gt_0_ := prec_gt_0_32) (prec_lt_emax_ := prec_lt_emax_32) mode_NE x y.
Definition f_sub (x y : b32) : b32 := Bminus (prec_gt_0_ := prec_gt_0_32) (prec_lt_emax_ := prec_lt_emax_32) mode_NE x y.
Definition f_mul (x y : b32) : b32 := Bmult (prec_gt_0_ := prec_gt_0_32) (prec_lt_emax_ := prec_lt_emax_32) mode_NE x y.
Definition f_div (x y : b32) : b32 := Bdiv (prec_gt_0_ := prec_gt_0_32) (prec_lt_emax_ := prec_lt_emax_32) mode_NE x y.
Definition f_fma (x y z : b32) : b32 := Bfma (prec_gt_0_ := prec_gt_0_32) (prec_lt_emax_ := prec_lt_emax_32) mode_NE x y z.
Definition f_of_Z (z : Z) : b32 := binary_normalize 24 128 prec_gt_0_32 prec_lt_emax_32 mode_NE z 0 false.
Definition f_trunc (x : b32) : Z := Btrunc x.
