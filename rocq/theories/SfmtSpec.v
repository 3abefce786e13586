(* The SIMD-oriented fast Mersenne twister (Saito and Matsumoto) with exponent 11213, as a recursion on 128-bit numbers; no words, no arrays. *)
From Coq Require Import ZArith.
Open Scope Z_scope.

(* the same operation on each of the four 32-bit lanes of a 128-bit number *)
Definition lanes (f : Z -> Z) (x : Z) : Z :=
  f (x mod 2 ^ 32) + 2 ^ 32 * f (x / 2 ^ 32 mod 2 ^ 32) + 2 ^ 64 * f (x / 2 ^ 64 mod 2 ^ 32) + 2 ^ 96 * f (x / 2 ^ 96 mod 2 ^ 32).
Definition mask : Z := 0x7fffdbfddfdfbfffffffffefeffff7fb.
(* from X(i), X(i+68), X(i+86), X(i+87) to X(i+88): shifts of the whole number by 3 bytes, lane shifts by 7 and 14 bits *)
Definition recursion (xi xm x2 x1 : Z) : Z :=
  Z.lxor xi (Z.lxor (Z.lxor (xi * 2 ^ 24 mod 2 ^ 128) (Z.land (lanes (fun x => x / 2 ^ 7) xm) mask))
                    (Z.lxor (x2 / 2 ^ 24) (lanes (fun x => x * 2 ^ 14 mod 2 ^ 32) x1))).
(* vector v of an array of 32-bit words, little endian *)
Definition vec (s : Z -> Z) (v : Z) : Z := s (4 * v) + 2 ^ 32 * s (4 * v + 1) + 2 ^ 64 * s (4 * v + 2) + 2 ^ 96 * s (4 * v + 3).
Definition words_ok (s : Z -> Z) : Prop := forall i, 0 <= i < 352 -> 0 <= s i < 2 ^ 32.
(* the old state followed by the new one *)
Definition stream (s s' : Z -> Z) (j : Z) : Z := if j <? 88 then vec s j else vec s' (j - 88).
