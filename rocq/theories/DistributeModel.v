(* Model of the work-splitting macros.  IEEE-754 binary64 arithmetic is
   Flocq's executable one. *)
From Coq Require Import ZArith.
From Verif Require Import FloatModel.

Open Scope Z_scope.

(* 0.5 *)
Definition d_half : b64 := d_div (d_of_Z 1) (d_of_Z 2).

(* The expression  (int)( _t*(double)_p + 0.5 )  of
   /repo/src/util/util_base.h:194-195 and /repo/src/grid/grid.h:322-323,
   where _t = (double)(_N/_b)/(double)_P.
   [contract] tells whether the compiler contracts the multiply and the add into
   a fused multiply-add (one rounding) as GCC does by default on FMA targets;
   C leaves this to the implementation.  (int) truncates towards zero. *)
Definition split_point (contract : bool) (q P p : Z) : Z :=
  let t := d_div (d_of_Z q) (d_of_Z P) in
  if contract
  then d_trunc (d_fma t (d_of_Z p) d_half)
  else d_trunc (d_add (d_mul t (d_of_Z p)) d_half).

(* DISTRIBUTE( N, b, p, P, i, n ), /repo/src/util/util_base.h:191-197.
   Returns (i,n).  C division and modulo truncate (Z.quot / Z.rem). *)
Definition distribute (contract : bool) (N b p P : Z) : Z * Z :=
  let q := Z.quot N b in
  let i := b * split_point contract q P p in
  let n := if Z.eqb p P then Z.rem N b
           else b * split_point contract q P (p + 1) - i in
  (i, n).

(* The split used by the unary and Langevin collision pipelines,
   /repo/src/collision/pipeline/unary_pipeline.cc:33-36 and
   /repo/src/collision/pipeline/langevin_pipeline.cc:26-29:
   n_target = (double)np/(double)n_pipeline;
   i  = (int)( 0.5 + n_target*(double) pipeline_rank    );
   i1 = (int)( 0.5 + n_target*(double)(pipeline_rank+1) );
   (addition commutes under rounding, so this is split_point with b = 1). *)
Definition collision_range (contract : bool) (np n_pipeline rank : Z) : Z * Z :=
  (split_point contract np n_pipeline rank,
   split_point contract np n_pipeline (rank + 1)).

(* DISTRIBUTE_VOXELS, /repo/src/grid/grid.h:318-333.  Returns (x,y,z,nv). *)
Definition distribute_voxels (contract : bool)
    (x0 x1 y0 y1 z0 z1 b p P : Z) : Z * Z * Z * Z :=
  let nx := x1 - x0 + 1 in
  let ny := y1 - y0 + 1 in
  let nv0 := nx * ny * (z1 - z0 + 1) in
  let q := Z.quot nv0 b in
  let x := b * split_point contract q P p in
  let nv1 := if p <? P then b * split_point contract q P (p + 1) else nv0 in
  let nv := nv1 - x in
  let y := if Z.eqb nx 0 then 0 else Z.quot x nx in
  let z := if Z.eqb ny 0 then 0 else Z.quot y ny in
  let x := x - y * nx in
  let y := y - z * ny in
  (x + x0, y + y0, z + z0, nv).
