(* Voxel indexing and voxel traversal. *)
From Coq Require Import ZArith List Bool.
From Verif Require Import DistributeModel.
Import ListNotations.
Open Scope Z_scope.

(* VOXEL(x,y,z, nx,ny,nz), /repo/src/grid/grid.h:136. *)
Definition voxel (nx ny nz x y z : Z) : Z := x + (nx + 2) * (y + (ny + 2) * z).

(* Strides g->sy, g->sz, /repo/src/grid/ops.cc:45-47 (size_grid). *)
Definition sy_of (nx : Z) : Z := nx + 2.
Definition sz_of (nx ny : Z) : Z := (ny + 2) * sy_of nx.

(* Decoding of a voxel index in accumulate_rhob,
   /repo/src/species_advance/standard/rho_p.cc:157-163. *)
Definition decode_rhob (nx ny : Z) (v : Z) : Z * Z * Z :=
  let sy := sy_of nx in let sz := sz_of nx ny in
  let x := v in let z := Z.quot x sz in
  let x := x - sz * z in let y := Z.quot x sy in
  let x := x - sy * y in
  (x, y, z).

(* Decoding of a voxel index in link_boundary, /repo/src/boundary/link.cc:56-58. *)
Definition decode_link (nx ny : Z) (i : Z) : Z * Z * Z :=
  let iz := Z.quot i ((nx + 2) * (ny + 2)) in
  let iy := Z.quot (i - iz * (nx + 2) * (ny + 2)) (nx + 2) in
  let ix := i - (nx + 2) * (iy + (ny + 2) * iz) in
  (ix, iy, iz).

(* Number of voxels including ghosts, g->nv, /repo/src/grid/ops.cc:48. *)
Definition nv_of (nx ny nz : Z) : Z := (nx + 2) * (ny + 2) * (nz + 2).

(* Walk state: linear index and coordinates. *)
Definition vstate : Type := Z * Z * Z * Z.

(* NEXT_VOXEL(v,x,y,z, xl,xh, yl,yh, zl,zh, nx,ny,nz), /repo/src/grid/grid.h:154-162. *)
Definition next_voxel (nx ny : Z) (xl xh yl yh : Z) (s : vstate) : vstate :=
  let '(v, x, y, z) := s in
  let v := v + 1 in let x := x + 1 in
  let v := if x >? xh then v + (nx - xh + xl + 1) else v in
  let y := if x >? xh then y + 1 else y in
  let x := if x >? xh then xl else x in
  let v := if y >? yh then v + (ny - yh + yl + 1) * (nx + 2) else v in
  let z := if y >? yh then z + 1 else z in
  let y := if y >? yh then yl else y in
  (v, x, y, z).

(* NEXT_STENCIL of the field kernels (identical text in all of them except for
   the lower corner), e.g.
   /repo/src/field_advance/standard/pipeline/advance_b_pipeline.h:42-49 (corner 1)
   /repo/src/field_advance/standard/pipeline/advance_e_pipeline.h:41-48 (corner 2).
   f0++ advances the linear index, INIT_STENCIL recomputes it from x,y,z. *)
Definition next_stencil (nx ny nz : Z) (xl xh yl yh : Z) (s : vstate) : vstate :=
  let '(v, x, y, z) := s in
  let v := v + 1 in let x := x + 1 in
  if x >? xh then
    let y := y + 1 in let x := xl in
    let z := if y >? yh then z + 1 else z in
    let y := if y >? yh then yl else y in
    (voxel nx ny nz x y z, x, y, z)
  else (v, x, y, z).

(* for( ; n_voxel; n_voxel-- ) { body; NEXT_...; }: the states on which the body
   runs (advance_b_pipeline.cc:34-38 and all other kernels). *)
Fixpoint walk (next : vstate -> vstate) (n : nat) (s : vstate) : list vstate :=
  match n with
  | O => []
  | S n => s :: walk next n (next s)
  end.

(* The voxels processed by job p of P (p = P is the host straggler job):
   DISTRIBUTE_VOXELS, INIT_STENCIL, then the loop above. *)
Definition job_walk (contract : bool) (next : vstate -> vstate) (nx ny nz : Z)
    (x0 x1 y0 y1 z0 z1 b p P : Z) : list vstate :=
  let '(x, y, z, n) := distribute_voxels contract x0 x1 y0 y1 z0 z1 b p P in
  walk next (Z.to_nat n) (voxel nx ny nz x y z, x, y, z).

(* Job ranks 0..P. *)
Definition ranks (P : Z) : list Z := map Z.of_nat (seq 0 (Z.to_nat (P + 1))).
