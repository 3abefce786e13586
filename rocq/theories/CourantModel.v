(* Model of the time step a deck works out: courant_length, define_timestep and define_units in /repo/src/vpic/vpic.h, the inverse cell
   sizes of /repo/src/grid/partition.cc and the coefficients the field advance takes from them. *)
From Coq Require Import ZArith Bool.
From Flocq Require Import IEEE754.BinarySingleNaN.
From Verif Require Import FloatModel InjectModel ParticleModel.
Open Scope Z_scope.

(* vpic.h:664: sqrt of a double, correctly rounded as IEEE 754 asks *)
Definition d_sqrt (x : b64) : b64 := Bsqrt (prec_gt_0_ := prec_gt_0_64) (prec_lt_emax_ := prec_lt_emax_64) mode_NE x.
(* vpic.h:661: one of the three lines of courant_length, without contraction into fma *)
Definition courant_term (n l w1 : b64) : b64 :=
  if d_lt (d_of_Z 1) n then let w0 := d_div n l in d_add w1 (d_mul w0 w0) else w1.
(* vpic.h:658-665 *)
Definition courant_length (lx ly lz nx ny nz : b64) : b64 :=
  d_sqrt (d_div (d_of_Z 1) (courant_term nz lz (courant_term ny ly (courant_term nx lx (d_of_Z 0))))).

(* vpic.h:338-342, 345-349: grid->cvac and grid->dt are floats.  The deck asks for the fraction cfl of the Courant length, as in
   sample/cygnus:84: define_timestep( cfl*courant_length(...)/c ) *)
Definition units_cvac (c : b64) : b32 := d2f c.
Definition timestep (cfl len c : b64) : b32 := d2f (d_div (d_mul cfl len) c).
(* partition.cc:65-67: g->rdx from the cells gn and the length l = gx1-gx0 of the whole box *)
Definition inverse_cell (gn : Z) (l : b64) : b32 := d2f (d_div (d_of_Z gn) l).
(* advance_e_pipeline.h:24-26: px = (nx>1) ? (1+damp)*g->cvac*g->dt*g->rdx : 0, nx cells of the rank *)
Definition e_coef (nx : Z) (damp cvac dt rdx : b32) : b32 :=
  if 1 <? nx then f_mul (f_mul (f_mul (f_add (f_of_Z 1) damp) cvac) dt) rdx else f_of_Z 0.
(* advance_b_pipeline.h:26-28: px = (nx>1) ? frac*g->cvac*g->dt*g->rdx : 0 *)
Definition b_coef (nx : Z) (frac cvac dt rdx : b32) : b32 :=
  if 1 <? nx then f_mul (f_mul (f_mul frac cvac) dt) rdx else f_of_Z 0.
