(* The field energy sums.

   /repo/src/field_advance/standard/pipeline/energy_f_pipeline.{h,cc} and vacuum_energy_f_pipeline.{h,cc}, which energy_f.cc:11-22 and vacuum_energy_f.cc call.
   Exact arithmetic: the single precision products and the double precision sums are those of real numbers. *)
From Coq Require Import Reals ZArith List Bool.
From Verif Require Import DistributeModel VoxelModel SortModel SweepModel FieldModel RemoteModel ParticleSpec.
Import ListNotations.
Open Scope Z_scope.

Section Rank.
(* one rank: sizes, material ids and coefficients, field array *)
Variables (nx ny nz : Z).
Variable mt : mats R.
Variable F : mem R.
(* fx, fy, fz from f0: the pointers are set together (INIT_STENCIL, energy_f_pipeline.h:32-39) and advanced together (NEXT_STENCIL, :41-47), so each keeps its distance
   from f0 within a row; VOXEL, /repo/src/grid/grid.h:47-49, is linear *)
Definition sy : Z := nx + 2.
Definition sz : Z := (nx + 2) * (ny + 2).
(* m[f->ematx].epsx*f->ex*f->ex and the like; 0 for members that have no energy *)
Definition sq (c : comp) (v : Z) : R :=
  match c with
  | Ex => epsx (mtab mt (ematx mt v)) * F (Ex, v) * F (Ex, v)
  | Ey => epsy (mtab mt (ematy mt v)) * F (Ey, v) * F (Ey, v)
  | Ez => epsz (mtab mt (ematz mt v)) * F (Ez, v) * F (Ez, v)
  | Cbx => rmux (mtab mt (fmatx mt v)) * F (Cbx, v) * F (Cbx, v)
  | Cby => rmuy (mtab mt (fmaty mt v)) * F (Cby, v) * F (Cby, v)
  | Cbz => rmuz (mtab mt (fmatz mt v)) * F (Cbz, v) * F (Cbz, v)
  | _ => 0
  end%R.
(* REDUCE_EN, energy_f_pipeline.h:49-67: what is added to en_ex, en_ey, en_ez, en_bx, en_by, en_bz *)
Definition reduce_en (c : comp) (v : Z) : R :=
  match c with
  | Ex => 0.25 * (sq Ex v + sq Ex (v + sy) + sq Ex (v + sz) + sq Ex (v + sy + sz))
  | Ey => 0.25 * (sq Ey v + sq Ey (v + sz) + sq Ey (v + 1) + sq Ey (v + sz + 1))
  | Ez => 0.25 * (sq Ez v + sq Ez (v + 1) + sq Ez (v + sy) + sq Ez (v + 1 + sy))
  | Cbx => 0.5 * (sq Cbx v + sq Cbx (v + 1))
  | Cby => 0.5 * (sq Cby v + sq Cby (v + sy))
  | Cbz => 0.5 * (sq Cbz v + sq Cbz (v + sz))
  | _ => 0
  end%R.
(* vacuum_energy_f_pipeline.h:24-29,57-75: one material, m[0], whatever the ids *)
Definition vsq (c : comp) (v : Z) : R := (F (c, v) * F (c, v))%R.
Definition vacuum_reduce_en (c : comp) (v : Z) : R :=
  let m := mtab mt 0 in
  match c with
  | Ex => 0.25 * epsx m * (vsq Ex v + vsq Ex (v + sy) + vsq Ex (v + sz) + vsq Ex (v + sy + sz))
  | Ey => 0.25 * epsy m * (vsq Ey v + vsq Ey (v + sz) + vsq Ey (v + 1) + vsq Ey (v + sz + 1))
  | Ez => 0.25 * epsz m * (vsq Ez v + vsq Ez (v + 1) + vsq Ez (v + sy) + vsq Ez (v + 1 + sy))
  | Cbx => 0.5 * rmux m * (vsq Cbx v + vsq Cbx (v + 1))
  | Cby => 0.5 * rmuy m * (vsq Cby v + vsq Cby (v + sy))
  | Cbz => 0.5 * rmuz m * (vsq Cbz v + vsq Cbz (v + sz))
  | _ => 0
  end%R.

Variable reduce : comp -> Z -> R.
Variable contract : bool.
Variable P : Z.                 (* n_pipeline *)
(* energy_f_pipeline_scalar, energy_f_pipeline.cc:12-38: pipeline p's en[p], one member of it *)
Definition pipe_en (c : comp) (p : Z) : R :=
  fold_left (fun s (u : vstate) => (s + reduce c (fst (fst (fst u))))%R)
    (job_walk contract (next_stencil nx ny nz 1 nx 1 ny) nx ny nz 1 nx 1 ny 1 nz 16 p P) 0%R.
(* energy_f_pipeline, energy_f_pipeline.cc:70-90: en[0] += en[p] for p = 1..N_PIPELINE (the host is pipeline N_PIPELINE), then times v0 = 0.5 eps0 dV *)
Definition rank_en (eps0 dV : R) (c : comp) : R :=
  let v0 := (0.5 * eps0 * dV)%R in
  (fold_left (fun s p => s + pipe_en c p) (zrange 1 (P + 1)) (pipe_en c 0) * v0)%R.
End Rank.

(* mp_allsum_d, energy_f_pipeline.cc:94: the sum over the ranks; every rank gets it *)
Definition world_en (ws : Z) (en : Z -> R) : R := sumR (map en (zrange 0 ws)).
