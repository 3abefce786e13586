(* The field update sweeps of the standard field solver.

   Only the scalar pipelines are modelled here; VecFieldModel.v has the V4/V8/V16 ones.  Values are
   of an arbitrary type V with arbitrary arithmetic, so the results on which
   values are combined where hold for single precision as well as for exact
   arithmetic; with V = R the formulas are read as exact arithmetic. *)
From Coq Require Import ZArith List Bool Permutation.
From Verif Require Import DistributeModel VoxelModel SortModel SweepModel.
Import ListNotations.
Open Scope Z_scope.

(* Float members of field_t, /repo/src/field_advance/field_advance.h:152-160. *)
Inductive comp : Type :=
| Ex | Ey | Ez | DivE | Cbx | Cby | Cbz | DivB
| Tcax | Tcay | Tcaz | Rhob | Jfx | Jfy | Jfz | Rhof.

Definition comp_eqb (a b : comp) : bool :=
  match a, b with
  | Ex, Ex | Ey, Ey | Ez, Ez | DivE, DivE | Cbx, Cbx | Cby, Cby | Cbz, Cbz | DivB, DivB
  | Tcax, Tcax | Tcay, Tcay | Tcaz, Tcaz | Rhob, Rhob
  | Jfx, Jfx | Jfy, Jfy | Jfz, Jfz | Rhof, Rhof => true
  | _, _ => false
  end.

(* A location is a member of one element of the field array. *)
Definition floc : Type := comp * Z.
Definition floc_eqb (a b : floc) : bool := comp_eqb (fst a) (fst b) && (snd a =? snd b).

(* Arithmetic of the value type. *)
Record arith (V : Type) : Type := mk_arith {
  a_add : V -> V -> V; a_sub : V -> V -> V; a_mul : V -> V -> V
}.
Arguments a_add {V}. Arguments a_sub {V}. Arguments a_mul {V}.

(* material_coefficient_t, /repo/src/field_advance/standard/sfa_private.h:14-23. *)
Record mcoef (V : Type) : Type := mk_mcoef {
  decayx : V; drivex : V; decayy : V; drivey : V; decayz : V; drivez : V;
  rmux : V; rmuy : V; rmuz : V; nonconductive : V; epsx : V; epsy : V; epsz : V
}.
Arguments decayx {V}. Arguments drivex {V}. Arguments decayy {V}. Arguments drivey {V}.
Arguments decayz {V}. Arguments drivez {V}. Arguments rmux {V}. Arguments rmuy {V}.
Arguments rmuz {V}. Arguments nonconductive {V}. Arguments epsx {V}. Arguments epsy {V}.
Arguments epsz {V}.

(* Material ids of field_t (ematx..fmatz, field_advance.h:158-159), as a function
   of the voxel, and the table m[] indexed by material id. *)
Record mats (V : Type) : Type := mk_mats {
  ematx : Z -> Z; ematy : Z -> Z; ematz : Z -> Z; nmat : Z -> Z;
  fmatx : Z -> Z; fmaty : Z -> Z; fmatz : Z -> Z; mtab : Z -> mcoef V
}.
Arguments ematx {V}. Arguments ematy {V}. Arguments ematz {V}. Arguments nmat {V}.
Arguments fmatx {V}. Arguments fmaty {V}. Arguments fmatz {V}. Arguments mtab {V}.

(* The constants px,py,pz,cj,damp of DECLARE_STENCIL. *)
Record coefs (V : Type) : Type := mk_coefs { px : V; py : V; pz : V; cj : V; damp : V }.
Arguments px {V}. Arguments py {V}. Arguments pz {V}. Arguments cj {V}. Arguments damp {V}.

(* One application of a kernel macro.  The arguments are the array indices that the
   pointers f0, fx, fy, fz point to (only those the macro uses). *)
Inductive fop (V : Type) : Type :=
| UPDATE_CBX (f0 fy fz : Z) | UPDATE_CBY (f0 fz fx : Z) | UPDATE_CBZ (f0 fx fy : Z)
| UPDATE_EX (f0 fy fz : Z) | UPDATE_EY (f0 fz fx : Z) | UPDATE_EZ (f0 fx fy : Z)
| CURL_EX (f0 fy fz : Z) | CURL_EY (f0 fz fx : Z) | CURL_EZ (f0 fx fy : Z)
| UPDATE_DERR_E (f0 fx fy fz : Z) | UPDATE_RHOB (f0 fx fy fz : Z)
| UPDATE_DERR_B (f0 fx fy fz : Z)
| MARDER_CBX (f0 fx : Z) | MARDER_CBY (f0 fy : Z) | MARDER_CBZ (f0 fz : Z)
| MARDER_EX (f0 fx : Z) | MARDER_EY (f0 fy : Z) | MARDER_EZ (f0 fz : Z)
| GHOST (c : comp) (v : Z) (x : V). (* store of a received or mirrored ghost value *)
Arguments UPDATE_CBX {V}. Arguments UPDATE_CBY {V}. Arguments UPDATE_CBZ {V}.
Arguments UPDATE_EX {V}. Arguments UPDATE_EY {V}. Arguments UPDATE_EZ {V}.
Arguments CURL_EX {V}. Arguments CURL_EY {V}. Arguments CURL_EZ {V}.
Arguments UPDATE_DERR_E {V}. Arguments UPDATE_RHOB {V}. Arguments UPDATE_DERR_B {V}.
Arguments MARDER_CBX {V}. Arguments MARDER_CBY {V}. Arguments MARDER_CBZ {V}.
Arguments MARDER_EX {V}. Arguments MARDER_EY {V}. Arguments MARDER_EZ {V}.
Arguments GHOST {V}.

Section Kernels.
Variable V : Type.
Variable A : arith V.
Variable mt : mats V.
Variable k : coefs V.

Local Notation "a +! b" := (a_add A a b) (at level 50, left associativity).
Local Notation "a -! b" := (a_sub A a b) (at level 50, left associativity).
Local Notation "a *! b" := (a_mul A a b) (at level 40, left associativity).

Definition M (f : Z -> Z) (v : Z) : mcoef V := mtab mt (f v).

(* Curl terms shared by UPDATE_E* of advance_e_pipeline.h:51-76 and of
   compute_curl_b_pipeline.h:49-65. *)
Definition curl_x (F : floc -> V) (f0 fy fz : Z) : V :=
  py k *! (F (Cbz, f0) *! rmuz (M (fmatz mt) f0) -! F (Cbz, fy) *! rmuz (M (fmatz mt) fy)) -!
  pz k *! (F (Cby, f0) *! rmuy (M (fmaty mt) f0) -! F (Cby, fz) *! rmuy (M (fmaty mt) fz)).
Definition curl_y (F : floc -> V) (f0 fz fx : Z) : V :=
  pz k *! (F (Cbx, f0) *! rmux (M (fmatx mt) f0) -! F (Cbx, fz) *! rmux (M (fmatx mt) fz)) -!
  px k *! (F (Cbz, f0) *! rmuz (M (fmatz mt) f0) -! F (Cbz, fx) *! rmuz (M (fmatz mt) fx)).
Definition curl_z (F : floc -> V) (f0 fx fy : Z) : V :=
  px k *! (F (Cby, f0) *! rmuy (M (fmaty mt) f0) -! F (Cby, fx) *! rmuy (M (fmaty mt) fx)) -!
  py k *! (F (Cbx, f0) *! rmux (M (fmatx mt) f0) -! F (Cbx, fy) *! rmux (M (fmatx mt) fy)).

(* px*(epsx*ex - epsx*ex) + py*(..) + pz*(..), compute_div_e_err_pipeline.h:49-51,
   compute_rhob_pipeline.h:48-50. *)
Definition div_eps_e (F : floc -> V) (f0 fx fy fz : Z) : V :=
  px k *! (epsx (M (ematx mt) f0) *! F (Ex, f0) -! epsx (M (ematx mt) fx) *! F (Ex, fx)) +!
  py k *! (epsy (M (ematy mt) f0) *! F (Ey, f0) -! epsy (M (ematy mt) fy) *! F (Ey, fy)) +!
  pz k *! (epsz (M (ematz mt) f0) *! F (Ez, f0) -! epsz (M (ematz mt) fz) *! F (Ez, fz)).

(* The kernel macros, with the stores in program order.
   UPDATE_CB*: advance_b_pipeline.h:57-59;   UPDATE_E*: advance_e_pipeline.h:50-76
   CURL_E*: UPDATE_E* of compute_curl_b_pipeline.h:49-65
   UPDATE_DERR_E: compute_div_e_err_pipeline.h:48-52
   UPDATE_RHOB: UPDATE_DERR_E of compute_rhob_pipeline.h:47-51
   UPDATE_DERR_B: compute_div_b_err_pipeline.cc:45-47
   MARDER_CB*: clean_div_b_pipeline.h:18-20; MARDER_E*: clean_div_e_pipeline.h:51-56
   (all under /repo/src/field_advance/standard/pipeline). *)
Definition fexec (o : fop V) (F : floc -> V) : list (floc * V) :=
  match o with
  | UPDATE_CBX f0 fy fz =>
      [((Cbx, f0), F (Cbx, f0) -! (py k *! (F (Ez, fy) -! F (Ez, f0)) -!
                                   pz k *! (F (Ey, fz) -! F (Ey, f0))))]
  | UPDATE_CBY f0 fz fx =>
      [((Cby, f0), F (Cby, f0) -! (pz k *! (F (Ex, fz) -! F (Ex, f0)) -!
                                   px k *! (F (Ez, fx) -! F (Ez, f0))))]
  | UPDATE_CBZ f0 fx fy =>
      [((Cbz, f0), F (Cbz, f0) -! (px k *! (F (Ey, fx) -! F (Ey, f0)) -!
                                   py k *! (F (Ex, fy) -! F (Ex, f0))))]
  | UPDATE_EX f0 fy fz =>
      let tca := curl_x F f0 fy fz -! damp k *! F (Tcax, f0) in
      [((Tcax, f0), tca);
       ((Ex, f0), decayx (M (ematx mt) f0) *! F (Ex, f0) +!
                  drivex (M (ematx mt) f0) *! (tca -! cj k *! F (Jfx, f0)))]
  | UPDATE_EY f0 fz fx =>
      let tca := curl_y F f0 fz fx -! damp k *! F (Tcay, f0) in
      [((Tcay, f0), tca);
       ((Ey, f0), decayy (M (ematy mt) f0) *! F (Ey, f0) +!
                  drivey (M (ematy mt) f0) *! (tca -! cj k *! F (Jfy, f0)))]
  | UPDATE_EZ f0 fx fy =>
      let tca := curl_z F f0 fx fy -! damp k *! F (Tcaz, f0) in
      [((Tcaz, f0), tca);
       ((Ez, f0), decayz (M (ematz mt) f0) *! F (Ez, f0) +!
                  drivez (M (ematz mt) f0) *! (tca -! cj k *! F (Jfz, f0)))]
  | CURL_EX f0 fy fz => [((Tcax, f0), curl_x F f0 fy fz)]
  | CURL_EY f0 fz fx => [((Tcay, f0), curl_y F f0 fz fx)]
  | CURL_EZ f0 fx fy => [((Tcaz, f0), curl_z F f0 fx fy)]
  | UPDATE_DERR_E f0 fx fy fz =>
      [((DivE, f0), nonconductive (M (nmat mt) f0) *!
          (div_eps_e F f0 fx fy fz -! cj k *! (F (Rhof, f0) +! F (Rhob, f0))))]
  | UPDATE_RHOB f0 fx fy fz =>
      [((Rhob, f0), nonconductive (M (nmat mt) f0) *!
          (div_eps_e F f0 fx fy fz -! F (Rhof, f0)))]
  | UPDATE_DERR_B f0 fx fy fz =>
      [((DivB, f0), px k *! (F (Cbx, fx) -! F (Cbx, f0)) +!
                    py k *! (F (Cby, fy) -! F (Cby, f0)) +!
                    pz k *! (F (Cbz, fz) -! F (Cbz, f0)))]
  | MARDER_CBX f0 fx => [((Cbx, f0), F (Cbx, f0) +! px k *! (F (DivB, f0) -! F (DivB, fx)))]
  | MARDER_CBY f0 fy => [((Cby, f0), F (Cby, f0) +! py k *! (F (DivB, f0) -! F (DivB, fy)))]
  | MARDER_CBZ f0 fz => [((Cbz, f0), F (Cbz, f0) +! pz k *! (F (DivB, f0) -! F (DivB, fz)))]
  | MARDER_EX f0 fx => [((Ex, f0), F (Ex, f0) +!
      drivex (M (ematx mt) f0) *! px k *! (F (DivE, fx) -! F (DivE, f0)))]
  | MARDER_EY f0 fy => [((Ey, f0), F (Ey, f0) +!
      drivey (M (ematy mt) f0) *! py k *! (F (DivE, fy) -! F (DivE, f0)))]
  | MARDER_EZ f0 fz => [((Ez, f0), F (Ez, f0) +!
      drivez (M (ematz mt) f0) *! pz k *! (F (DivE, fz) -! F (DivE, f0)))]
  | GHOST c v x => [((c, v), x)]
  end.
End Kernels.

Section Sweeps.
Variable V : Type.
Variables (nx ny nz : Z).
(* n_pipeline and the floating point contraction flag of DISTRIBUTE_VOXELS *)
Variables (contract : bool) (P : Z).

Local Notation "'f(' x , y , z )" := (voxel nx ny nz x y z) (at level 0).

(* for( i=a; i<=b; i++ ) body *)
Definition for_ {T} (a b : Z) (body : Z -> list T) : list T := flat_map body (zrange a (b + 1)).

(* The voxel loop of a scalar pipeline, all pipelines and the host straggler job.
   The pointers f0,fx,fy,fz are set together by INIT_STENCIL and incremented
   together, so fx,fy,fz stay at the fixed distances 1, sy, sz from f0. *)
Definition pipelines (lo : Z) (body : Z -> list (fop V)) : list (fop V) :=
  flat_map (fun p =>
    flat_map (fun s => let '(v, _, _, _) := s in body v)
      (job_walk contract (next_stencil nx ny nz lo nx lo ny) nx ny nz lo nx lo ny lo nz 16 p P))
    (ranks P).

Let sy := nx + 2.
Let sz := (ny + 2) * (nx + 2).

(* advance_b, /repo/src/field_advance/standard/pipeline/advance_b_pipeline.cc:28-41 *)
Definition advance_b_pipes : list (fop V) :=
  pipelines 1 (fun v => [UPDATE_CBX v (v + sy) (v + sz);
                         UPDATE_CBY v (v + sz) (v + 1);
                         UPDATE_CBZ v (v + 1) (v + sy)]).
(* advance_b_pipeline.cc:76-120 *)
Definition advance_b_host : list (fop V) :=
  for_ 1 nz (fun z => for_ 1 ny (fun y =>
    [UPDATE_CBX (f(nx+1, y, z)) (f(nx+1, y+1, z)) (f(nx+1, y, z+1))])) ++
  for_ 1 nz (fun z =>
    let f0 := f(1, ny+1, z) in let fx := f(2, ny+1, z) in let fz := f(1, ny+1, z+1) in
    for_ 1 nx (fun x => let i := x - 1 in [UPDATE_CBY (f0 + i) (fz + i) (fx + i)])) ++
  for_ 1 ny (fun y =>
    let f0 := f(1, y, nz+1) in let fx := f(2, y, nz+1) in let fy := f(1, y+1, nz+1) in
    for_ 1 nx (fun x => let i := x - 1 in [UPDATE_CBZ (f0 + i) (fx + i) (fy + i)])).

(* advance_e, advance_e_pipeline.cc:28-40, generic in the kernel so that it also
   is the text of compute_curl_b_pipeline.cc and the vacuum variants. *)
Section E.
Variables (UEX UEY UEZ : Z -> Z -> Z -> fop V).

Definition advance_e_pipes : list (fop V) :=
  pipelines 2 (fun v => [UEX v (v - sy) (v - sz); UEY v (v - sz) (v - 1); UEZ v (v - 1) (v - sy)]).

(* left over interior, advance_e_pipeline.cc:93-137 *)
Definition advance_e_leftover : list (fop V) :=
  for_ 2 nz (fun z => for_ 2 ny (fun y => [UEX (f(1, y, z)) (f(1, y-1, z)) (f(1, y, z-1))])) ++
  for_ 2 nz (fun z =>
    let f0 := f(2, 1, z) in let fx := f(1, 1, z) in let fz := f(2, 1, z-1) in
    for_ 2 nx (fun x => let i := x - 2 in [UEY (f0 + i) (fz + i) (fx + i)])) ++
  for_ 2 ny (fun y =>
    let f0 := f(2, y, 1) in let fx := f(1, y, 1) in let fy := f(2, y-1, 1) in
    for_ 2 nx (fun x => let i := x - 2 in [UEZ (f0 + i) (fx + i) (fy + i)])).

(* exterior, advance_e_pipeline.cc:152-329 *)
Definition advance_e_exterior : list (fop V) :=
  (* ex *)
  for_ 1 (ny+1) (fun y =>
    let f0 := f(1, y, 1) in let fy := f(1, y-1, 1) in let fz := f(1, y, 0) in
    for_ 1 nx (fun x => let i := x - 1 in [UEX (f0 + i) (fy + i) (fz + i)])) ++
  for_ 1 (ny+1) (fun y =>
    let f0 := f(1, y, nz+1) in let fy := f(1, y-1, nz+1) in let fz := f(1, y, nz) in
    for_ 1 nx (fun x => let i := x - 1 in [UEX (f0 + i) (fy + i) (fz + i)])) ++
  for_ 2 nz (fun z =>
    let f0 := f(1, 1, z) in let fy := f(1, 0, z) in let fz := f(1, 1, z-1) in
    for_ 1 nx (fun x => let i := x - 1 in [UEX (f0 + i) (fy + i) (fz + i)])) ++
  for_ 2 nz (fun z =>
    let f0 := f(1, ny+1, z) in let fy := f(1, ny, z) in let fz := f(1, ny+1, z-1) in
    for_ 1 nx (fun x => let i := x - 1 in [UEX (f0 + i) (fy + i) (fz + i)])) ++
  (* ey *)
  for_ 1 (nz+1) (fun z => for_ 1 ny (fun y => [UEY (f(1, y, z)) (f(1, y, z-1)) (f(0, y, z))])) ++
  for_ 1 (nz+1) (fun z => for_ 1 ny (fun y => [UEY (f(nx+1, y, z)) (f(nx+1, y, z-1)) (f(nx, y, z))])) ++
  for_ 1 ny (fun y =>
    let f0 := f(2, y, 1) in let fx := f(1, y, 1) in let fz := f(2, y, 0) in
    for_ 2 nx (fun x => let i := x - 2 in [UEY (f0 + i) (fz + i) (fx + i)])) ++
  for_ 1 ny (fun y =>
    let f0 := f(2, y, nz+1) in let fx := f(1, y, nz+1) in let fz := f(2, y, nz) in
    for_ 2 nx (fun x => let i := x - 2 in [UEY (f0 + i) (fz + i) (fx + i)])) ++
  (* ez *)
  for_ 1 nz (fun z =>
    let f0 := f(1, 1, z) in let fx := f(0, 1, z) in let fy := f(1, 0, z) in
    for_ 1 (nx+1) (fun x => let i := x - 1 in [UEZ (f0 + i) (fx + i) (fy + i)])) ++
  for_ 1 nz (fun z =>
    let f0 := f(1, ny+1, z) in let fx := f(0, ny+1, z) in let fy := f(1, ny, z) in
    for_ 1 (nx+1) (fun x => let i := x - 1 in [UEZ (f0 + i) (fx + i) (fy + i)])) ++
  for_ 1 nz (fun z => for_ 2 ny (fun y => [UEZ (f(1, y, z)) (f(0, y, z)) (f(1, y-1, z))])) ++
  for_ 1 nz (fun z => for_ 2 ny (fun y => [UEZ (f(nx+1, y, z)) (f(nx, y, z)) (f(nx+1, y-1, z))])).
End E.

(* compute_div_e_err_pipeline.cc:20-29 (and compute_rhob_pipeline.cc:21-30), generic
   in the kernel. *)
Section DivESweep.
Variable UD : Z -> Z -> Z -> Z -> fop V.

Definition div_e_pipes : list (fop V) :=
  pipelines 2 (fun v => [UD v (v - 1) (v - sy) (v - sz)]).

(* compute_div_e_err_pipeline.cc:74-164 *)
Definition div_e_exterior : list (fop V) :=
  for_ 1 (ny+1) (fun y =>
    let f0 := f(1, y, 1) in let fx := f(0, y, 1) in let fy := f(1, y-1, 1) in let fz := f(1, y, 0) in
    for_ 1 (nx+1) (fun x => let i := x - 1 in [UD (f0 + i) (fx + i) (fy + i) (fz + i)])) ++
  for_ 1 (ny+1) (fun y =>
    let f0 := f(1, y, nz+1) in let fx := f(0, y, nz+1) in let fy := f(1, y-1, nz+1) in let fz := f(1, y, nz) in
    for_ 1 (nx+1) (fun x => let i := x - 1 in [UD (f0 + i) (fx + i) (fy + i) (fz + i)])) ++
  for_ 2 nz (fun z =>
    let f0 := f(1, 1, z) in let fx := f(0, 1, z) in let fy := f(1, 0, z) in let fz := f(1, 1, z-1) in
    for_ 1 (nx+1) (fun x => let i := x - 1 in [UD (f0 + i) (fx + i) (fy + i) (fz + i)])) ++
  for_ 2 nz (fun z =>
    let f0 := f(1, ny+1, z) in let fx := f(0, ny+1, z) in let fy := f(1, ny, z) in let fz := f(1, ny+1, z-1) in
    for_ 1 (nx+1) (fun x => let i := x - 1 in [UD (f0 + i) (fx + i) (fy + i) (fz + i)])) ++
  for_ 2 nz (fun z => for_ 2 ny (fun y =>
    [UD (f(1, y, z)) (f(0, y, z)) (f(1, y-1, z)) (f(1, y, z-1));
     UD (f(nx+1, y, z)) (f(nx, y, z)) (f(nx+1, y-1, z)) (f(nx+1, y, z-1))])).
End DivESweep.

(* compute_div_b_err_pipeline.cc:32-54 *)
Definition div_b_pipes : list (fop V) :=
  pipelines 1 (fun v => [UPDATE_DERR_B v (v + 1) (v + sy) (v + sz)]).

(* clean_div_b_pipeline.cc:49-77 *)
Definition clean_b_pipes : list (fop V) :=
  pipelines 2 (fun v => [MARDER_CBX v (v - 1); MARDER_CBY v (v - sy); MARDER_CBZ v (v - sz)]).
(* clean_div_b_pipeline.cc:153-232 *)
Definition clean_b_leftover : list (fop V) :=
  for_ 1 ny (fun y =>
    let f0 := f(2, y, 1) in let fx := f(1, y, 1) in
    for_ 2 nx (fun x => let i := x - 2 in [MARDER_CBX (f0 + i) (fx + i)])) ++
  for_ 2 nz (fun z =>
    let f0 := f(2, 1, z) in let fx := f(1, 1, z) in
    for_ 2 nx (fun x => let i := x - 2 in [MARDER_CBX (f0 + i) (fx + i)])) ++
  for_ 1 nz (fun z => for_ 2 ny (fun y => [MARDER_CBY (f(1, y, z)) (f(1, y-1, z))])) ++
  for_ 2 ny (fun y =>
    let f0 := f(2, y, 1) in let fy := f(2, y-1, 1) in
    for_ 2 nx (fun x => let i := x - 2 in [MARDER_CBY (f0 + i) (fy + i)])) ++
  for_ 2 nz (fun z =>
    let f0 := f(1, 1, z) in let fz := f(1, 1, z-1) in
    for_ 1 nx (fun x => let i := x - 1 in [MARDER_CBZ (f0 + i) (fz + i)])) ++
  for_ 2 nz (fun z => for_ 2 ny (fun y => [MARDER_CBZ (f(1, y, z)) (f(1, y, z-1))])).
(* clean_div_b_pipeline.cc:241-323 *)
Definition clean_b_exterior : list (fop V) :=
  for_ 1 nz (fun z => for_ 1 ny (fun y => [MARDER_CBX (f(1, y, z)) (f(0, y, z))])) ++
  for_ 1 nz (fun z => for_ 1 ny (fun y => [MARDER_CBX (f(nx+1, y, z)) (f(nx, y, z))])) ++
  for_ 1 nz (fun z =>
    let f0 := f(1, 1, z) in let fy := f(1, 0, z) in
    for_ 1 nx (fun x => let i := x - 1 in [MARDER_CBY (f0 + i) (fy + i)])) ++
  for_ 1 nz (fun z =>
    let f0 := f(1, ny+1, z) in let fy := f(1, ny, z) in
    for_ 1 nx (fun x => let i := x - 1 in [MARDER_CBY (f0 + i) (fy + i)])) ++
  for_ 1 ny (fun y =>
    let f0 := f(1, y, 1) in let fz := f(1, y, 0) in
    for_ 1 nx (fun x => let i := x - 1 in [MARDER_CBZ (f0 + i) (fz + i)])) ++
  for_ 1 ny (fun y =>
    let f0 := f(1, y, nz+1) in let fz := f(1, y, nz) in
    for_ 1 nx (fun x => let i := x - 1 in [MARDER_CBZ (f0 + i) (fz + i)])).

(* clean_div_e_pipeline.cc:18-26 *)
Definition clean_e_pipes : list (fop V) :=
  pipelines 1 (fun v => [MARDER_EX v (v + 1); MARDER_EY v (v + sy); MARDER_EZ v (v + sz)]).
(* clean_div_e_pipeline.cc:60-108 *)
Definition clean_e_leftover : list (fop V) :=
  for_ 1 (ny+1) (fun y =>
    let f0 := f(1, y, nz+1) in let fx := f(2, y, nz+1) in
    for_ 1 nx (fun x => let i := x - 1 in [MARDER_EX (f0 + i) (fx + i)])) ++
  for_ 1 nz (fun z =>
    let f0 := f(1, ny+1, z) in let fx := f(2, ny+1, z) in
    for_ 1 nx (fun x => let i := x - 1 in [MARDER_EX (f0 + i) (fx + i)])) ++
  for_ 1 (nz+1) (fun z => for_ 1 ny (fun y => [MARDER_EY (f(nx+1, y, z)) (f(nx+1, y+1, z))])) ++
  for_ 1 ny (fun y =>
    let f0 := f(1, y, nz+1) in let fy := f(1, y+1, nz+1) in
    for_ 1 nx (fun x => let i := x - 1 in [MARDER_EY (f0 + i) (fy + i)])) ++
  for_ 1 nz (fun z =>
    let f0 := f(1, ny+1, z) in let fz := f(1, ny+1, z+1) in
    for_ 1 (nx+1) (fun x => let i := x - 1 in [MARDER_EZ (f0 + i) (fz + i)])) ++
  for_ 1 nz (fun z => for_ 1 ny (fun y => [MARDER_EZ (f(nx+1, y, z)) (f(nx+1, y, z+1))])).
End Sweeps.

(* Which voxel index belongs to the ghost layer across an x, y or z face. *)
Definition on_ghost (nx ny nz : Z) (d : Z) (v : Z) : Prop :=
  exists x y z, 0 <= x <= nx + 1 /\ 0 <= y <= ny + 1 /\ 0 <= z <= nz + 1 /\ v = voxel nx ny nz x y z /\
    ((d = 0 /\ (x = 0 \/ x = nx + 1)) \/ (d = 1 /\ (y = 0 \/ y = ny + 1)) \/ (d = 2 /\ (z = 0 \/ z = nz + 1))).

(* Locations written by end_remote_ghost_tang_b, remote.cc:98-134: tangential B on
   the ghost side of each face. *)
Definition ghost_tang_b (nx ny nz : Z) (c : comp) (v : Z) : Prop :=
  (on_ghost nx ny nz 0 v /\ (c = Cby \/ c = Cbz)) \/
  (on_ghost nx ny nz 1 v /\ (c = Cbz \/ c = Cbx)) \/
  (on_ghost nx ny nz 2 v /\ (c = Cbx \/ c = Cby)).
(* end_remote_ghost_norm_e, remote.cc:172-206. *)
Definition ghost_norm_e (nx ny nz : Z) (c : comp) (v : Z) : Prop :=
  (on_ghost nx ny nz 0 v /\ c = Ex) \/ (on_ghost nx ny nz 1 v /\ c = Ey) \/ (on_ghost nx ny nz 2 v /\ c = Ez).
(* end_remote_ghost_div_b, remote.cc:244-279. *)
Definition ghost_div_b (nx ny nz : Z) (c : comp) (v : Z) : Prop :=
  c = DivB /\ exists d, (d = 0 \/ d = 1 \/ d = 2) /\ on_ghost nx ny nz d v.

(* The ghost stores G are to distinct locations allowed by [ok]. *)
Definition ghost_list {V} (ok : comp -> Z -> Prop) (G : list (floc * V)) : Prop :=
  NoDup (map fst G) /\ forall c v x, In ((c, v), x) G -> ok c v.
Definition ghost_ops {V} (G : list (floc * V)) : list (fop V) :=
  map (fun w => GHOST (fst (fst w)) (snd (fst w)) (snd w)) G.

Section Runs.
Variable V : Type.
Variable A : arith V.
Variable mt : mats V.
Variable k : coefs V.
Variables (nx ny nz : Z) (contract : bool) (P : Z).

(* Operations are tagged with whether the host runs them after its ghost update. *)
Definition top : Type := bool * fop V.
Definition texec (o : top) (F : floc -> V) : list (floc * V) := fexec V A mt k (snd o) F.
Definition pipe_ops (l : list (fop V)) : list top := map (pair false) l.
Definition host_ops (l : list (fop V)) : list top := map (pair true) l.

(* Every possible outcome of a sweep without ghosts, and of a sweep in which the
   host waits for ghost values G before its part H.  WAIT_PIPELINES in the middle
   of advance_e and compute_curl_b only removes behaviours, so split_run (the host
   works on H as soon as its ghosts are in place) is used for these as well.
   The final local_adjust_* calls are modelled separately (FieldBoundaryModel). *)
Definition free_run (ops : list (fop V)) (m r : floc -> V) : Prop :=
  phase_run floc V top floc_eqb texec fst (pipe_ops ops) m r.
Definition ghost_run (Q : list (fop V)) (G : list (floc * V)) (H : list (fop V)) (m r : floc -> V) : Prop :=
  split_run floc V top floc_eqb texec fst (pipe_ops Q) (host_ops (ghost_ops G)) (host_ops H) m r.

(* The locations stored to by a list of operations, one entry per store. *)
Definition touched (ops : list (fop V)) (F : floc -> V) : list floc :=
  flat_map (fun o => map fst (fexec V A mt k o F)) ops.

Definition advance_b_run : (floc -> V) -> (floc -> V) -> Prop :=
  free_run (advance_b_pipes V nx ny nz contract P ++ advance_b_host V nx ny nz).
Definition clean_div_e_run : (floc -> V) -> (floc -> V) -> Prop :=
  free_run (clean_e_pipes V nx ny nz contract P ++ clean_e_leftover V nx ny nz).
Definition div_b_err_run : (floc -> V) -> (floc -> V) -> Prop :=
  free_run (div_b_pipes V nx ny nz contract P).

Definition advance_e_run (G : list (floc * V)) : (floc -> V) -> (floc -> V) -> Prop :=
  ghost_run (advance_e_pipes V nx ny nz contract P UPDATE_EX UPDATE_EY UPDATE_EZ ++
             advance_e_leftover V nx ny nz UPDATE_EX UPDATE_EY UPDATE_EZ) G
            (advance_e_exterior V nx ny nz UPDATE_EX UPDATE_EY UPDATE_EZ).
Definition curl_b_run (G : list (floc * V)) : (floc -> V) -> (floc -> V) -> Prop :=
  ghost_run (advance_e_pipes V nx ny nz contract P CURL_EX CURL_EY CURL_EZ ++
             advance_e_leftover V nx ny nz CURL_EX CURL_EY CURL_EZ) G
            (advance_e_exterior V nx ny nz CURL_EX CURL_EY CURL_EZ).
Definition div_e_err_run (G : list (floc * V)) : (floc -> V) -> (floc -> V) -> Prop :=
  ghost_run (div_e_pipes V nx ny nz contract P UPDATE_DERR_E) G
            (div_e_exterior V nx ny nz UPDATE_DERR_E).
Definition rhob_run (G : list (floc * V)) : (floc -> V) -> (floc -> V) -> Prop :=
  ghost_run (div_e_pipes V nx ny nz contract P UPDATE_RHOB) G
            (div_e_exterior V nx ny nz UPDATE_RHOB).
Definition clean_div_b_run (G : list (floc * V)) : (floc -> V) -> (floc -> V) -> Prop :=
  ghost_run (clean_b_pipes V nx ny nz contract P ++ clean_b_leftover V nx ny nz) G
            (clean_b_exterior V nx ny nz).
End Runs.
