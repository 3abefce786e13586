(* What the Courant length is, without the code. *)
From Coq Require Import Reals ZArith Bool.
From Flocq Require Import Core.
From Verif Require Import FloatModel FloatProofs InjectProofs.
Open Scope Z_scope.

(* an axis of the box: gn cells over the length l, a double of value L; the inverse cell size is between 2^-40 and 2^40, so that no
   product of the update leaves the range of float *)
Definition axis_ok (gn : Z) (l : b64) (L : R) : Prop :=
  fin64 l L /\ (0 < L)%R /\ 1 <= gn < 2 ^ 31 /\ (bpow radix2 (-40) <= IZR gn / L <= bpow radix2 40)%R.
(* the square of the inverse cell size of an axis that has more than one cell *)
Definition share2 (gn : Z) (L : R) : R := if 1 <? gn then (IZR gn / L * (IZR gn / L))%R else 0%R.
(* the sum for the three axes; the Courant length is one over its square root *)
Definition total2 (gx gy gz : Z) (Lx Ly Lz : R) : R := (0 + share2 gx Lx + share2 gy Ly + share2 gz Lz)%R.
