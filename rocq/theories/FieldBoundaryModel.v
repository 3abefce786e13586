(* Local boundary adjustments, coefficient set-up, vacuum kernels and rms weights of
   the standard field solver.

   The coefficients are modelled over the reals: every single precision constant is
   replaced by the real number its expression denotes in exact arithmetic. *)
From Coq Require Import ZArith List Bool Reals.
From Flocq Require Import BinarySingleNaN.
From Verif Require Import FloatModel DistributeModel VoxelModel SortModel SweepModel FieldModel.
Import ListNotations.
Open Scope Z_scope.

(* The six faces in the order in which the macros of local.cc are applied
   (/repo/src/field_advance/standard/local.cc:258-263 and likewise elsewhere). *)
Inductive face : Type := XM | YM | ZM | XP | YP | ZP.
Definition faces : list face := [XM; YM; ZM; XP; YP; ZP].

(* Boundary condition codes, /repo/src/grid/grid.h:21-26. *)
Definition anti_symmetric_fields : Z := -1.
Definition symmetric_fields : Z := -2.
Definition pmc_fields : Z := -3.
Definition absorb_fields : Z := -4.

Section Adjust.
Variable V : Type.
Variable zero : V.
Variables (nx ny nz : Z).
(* g->bc of the six faces and world_size *)
Variable bc : face -> Z.
Variable ws : Z.

Local Notation "'f(' x , y , z )" := (voxel nx ny nz x y z) (at level 0).

(* XYZ_LOOP, local.cc:25-28 *)
Definition xyz_loop {T} (xl xh yl yh zl zh : Z) (body : Z -> Z -> Z -> list T) : list T :=
  for_ zl zh (fun z => for_ yl yh (fun y => for_ xl xh (fun x => body x y z))).

(* x_FACE_LOOP etc. and x_NODE_LOOP etc. of the plane of a face, local.cc:38-44, with
   face = (i+j+k)<0 ? 1 : nX+1 *)
Definition face_loop {T} (s : face) (body : Z -> Z -> Z -> list T) : list T :=
  match s with
  | XM => xyz_loop 1 1 1 ny 1 nz body | XP => xyz_loop (nx+1) (nx+1) 1 ny 1 nz body
  | YM => xyz_loop 1 nx 1 1 1 nz body | YP => xyz_loop 1 nx (ny+1) (ny+1) 1 nz body
  | ZM => xyz_loop 1 nx 1 ny 1 1 body | ZP => xyz_loop 1 nx 1 ny (nz+1) (nz+1) body
  end.
Definition node_loop {T} (s : face) (body : Z -> Z -> Z -> list T) : list T :=
  match s with
  | XM => xyz_loop 1 1 1 (ny+1) 1 (nz+1) body | XP => xyz_loop (nx+1) (nx+1) 1 (ny+1) 1 (nz+1) body
  | YM => xyz_loop 1 (nx+1) 1 1 1 (nz+1) body | YP => xyz_loop 1 (nx+1) (ny+1) (ny+1) 1 (nz+1) body
  | ZM => xyz_loop 1 (nx+1) 1 (ny+1) 1 1 body | ZP => xyz_loop 1 (nx+1) 1 (ny+1) (nz+1) (nz+1) body
  end.
(* Y##Z##_EDGE_LOOP (edges along Y) and Z##Y##_EDGE_LOOP (edges along Z), local.cc:30-36 *)
Definition yz_edge_loop {T} (s : face) (body : Z -> Z -> Z -> list T) : list T :=
  match s with
  | XM => xyz_loop 1 1 1 ny 1 (nz+1) body | XP => xyz_loop (nx+1) (nx+1) 1 ny 1 (nz+1) body
  | YM => xyz_loop 1 (nx+1) 1 1 1 nz body | YP => xyz_loop 1 (nx+1) (ny+1) (ny+1) 1 nz body
  | ZM => xyz_loop 1 nx 1 (ny+1) 1 1 body | ZP => xyz_loop 1 nx 1 (ny+1) (nz+1) (nz+1) body
  end.
Definition zy_edge_loop {T} (s : face) (body : Z -> Z -> Z -> list T) : list T :=
  match s with
  | XM => xyz_loop 1 1 1 (ny+1) 1 nz body | XP => xyz_loop (nx+1) (nx+1) 1 (ny+1) 1 nz body
  | YM => xyz_loop 1 nx 1 1 1 (nz+1) body | YP => xyz_loop 1 nx (ny+1) (ny+1) 1 (nz+1) body
  | ZM => xyz_loop 1 (nx+1) 1 ny 1 1 body | ZP => xyz_loop 1 (nx+1) 1 ny (nz+1) (nz+1) body
  end.

(* The members cb##X, e##Y, tca##Y, e##Z, tca##Z of a face (X,Y,Z cyclic). *)
Definition cbn_ (s : face) : comp := match s with XM | XP => Cbx | YM | YP => Cby | ZM | ZP => Cbz end.
Definition e_Y (s : face) : comp := match s with XM | XP => Ey | YM | YP => Ez | ZM | ZP => Ex end.
Definition e_Z (s : face) : comp := match s with XM | XP => Ez | YM | YP => Ex | ZM | ZP => Ey end.
Definition tca_Y (s : face) : comp := match s with XM | XP => Tcay | YM | YP => Tcaz | ZM | ZP => Tcax end.
Definition tca_Z (s : face) : comp := match s with XM | XP => Tcaz | YM | YP => Tcax | ZM | ZP => Tcay end.

(* Store zero to all listed locations. *)
Definition zap (ls : list floc) (F : floc -> V) : floc -> V :=
  stores floc V floc_eqb (map (fun l => (l, zero)) ls) F.

(* The switch of one face: [acts] are the conditions that zero, [skips] those that do
   nothing, any other code is an ERROR (None). *)
Definition adjust_face (acts skips : list Z) (locs : face -> list floc) (s : face) (F : floc -> V)
    : option (floc -> V) :=
  let b := bc s in
  if (0 <=? b) && (b <? ws) then Some F
  else if existsb (Z.eqb b) acts then Some (zap (locs s) F)
  else if existsb (Z.eqb b) skips then Some F
  else None.

Fixpoint adjust_all acts skips locs (ss : list face) (F : floc -> V) : option (floc -> V) :=
  match ss with
  | [] => Some F
  | s :: ss => match adjust_face acts skips locs s F with
               | Some F' => adjust_all acts skips locs ss F'
               | None => None
               end
  end.

(* local_adjust_norm_b, local.cc:266-296 *)
Definition adjust_norm_b : (floc -> V) -> option (floc -> V) :=
  adjust_all [symmetric_fields] [anti_symmetric_fields; pmc_fields; absorb_fields]
    (fun s => face_loop s (fun x y z => [(cbn_ s, f(x,y,z))])) faces.

(* local_adjust_tang_e, local.cc:224-264 *)
Definition adjust_tang_e : (floc -> V) -> option (floc -> V) :=
  adjust_all [anti_symmetric_fields] [symmetric_fields; pmc_fields; absorb_fields]
    (fun s => yz_edge_loop s (fun x y z => [(e_Y s, f(x,y,z)); (tca_Y s, f(x,y,z))]) ++
              zy_edge_loop s (fun x y z => [(e_Z s, f(x,y,z)); (tca_Z s, f(x,y,z))])) faces.

(* local_adjust_div_e, local.cc:298-328 *)
Definition adjust_div_e : (floc -> V) -> option (floc -> V) :=
  adjust_all [anti_symmetric_fields; absorb_fields] [symmetric_fields; pmc_fields]
    (fun s => node_loop s (fun x y z => [(DivE, f(x,y,z))])) faces.
End Adjust.

(* ---- coefficients, exact arithmetic ---- *)
Section Coefs.
Open Scope R_scope.

Definition RA : arith R := mk_arith R Rplus Rminus Rmult.

(* Members of grid_t used here, /repo/src/grid/grid.h:76-92. *)
Record rgrid : Type := mk_rgrid { gnx : Z; gny : Z; gnz : Z; rdx : R; rdy : R; rdz : R; cvac : R; dt : R; eps0 : R }.

(* (n>1) ? a : 0 *)
Definition if_thick (n : Z) (a : R) : R := if (1 <? n)%Z then a else 0.

(* advance_b_pipeline.h:26-28 *)
Definition advance_b_coefs (g : rgrid) (frac : R) : coefs R :=
  mk_coefs R (if_thick (gnx g) (frac * cvac g * dt g * rdx g)) (if_thick (gny g) (frac * cvac g * dt g * rdy g))
    (if_thick (gnz g) (frac * cvac g * dt g * rdz g)) 0 0.
(* advance_e_pipeline.h:23-27 *)
Definition advance_e_coefs (g : rgrid) (dmp : R) : coefs R :=
  mk_coefs R (if_thick (gnx g) ((1 + dmp) * cvac g * dt g * rdx g)) (if_thick (gny g) ((1 + dmp) * cvac g * dt g * rdy g))
    (if_thick (gnz g) ((1 + dmp) * cvac g * dt g * rdz g)) (dt g / eps0 g) dmp.
(* compute_div_e_err_pipeline.h:23-26, compute_div_b_err_pipeline.cc:26-28 *)
Definition div_coefs (g : rgrid) : coefs R :=
  mk_coefs R (if_thick (gnx g) (rdx g)) (if_thick (gny g) (rdy g)) (if_thick (gnz g) (rdz g)) (1 / eps0 g) 0.
(* compute_rhob_pipeline.h:23-25 *)
Definition rhob_coefs (g : rgrid) : coefs R :=
  mk_coefs R (if_thick (gnx g) (eps0 g * rdx g)) (if_thick (gny g) (eps0 g * rdy g))
    (if_thick (gnz g) (eps0 g * rdz g)) 0 0.
(* clean_div_b_pipeline.cc:109-117, clean_div_e_pipeline.h:23-29: alphadt = 0.3888889/(..) *)
Definition alphadt (g : rgrid) : R :=
  3888889 / 10000000 / (if_thick (gnx g) (rdx g) * if_thick (gnx g) (rdx g) +
    if_thick (gny g) (rdy g) * if_thick (gny g) (rdy g) + if_thick (gnz g) (rdz g) * if_thick (gnz g) (rdz g)).
Definition marder_coefs (g : rgrid) : coefs R :=
  mk_coefs R (if_thick (gnx g) (rdx g) * alphadt g) (if_thick (gny g) (rdy g) * alphadt g)
    (if_thick (gnz g) (rdz g) * alphadt g) 0 0.

(* The same in single precision (clean_div_b_pipeline.cc:109-117): px,py,pz after the
   three "*= alphadt".  The quotient of the double constant 0.3888889 and the float sum
   is taken in double and rounded to float; here it is one float division by a
   given constant c, which has the same infinities. *)
Definition marder_coefs_f (nx ny nz : Z) (rx ry rz c : b32) : b32 * b32 * b32 :=
  let px := if (1 <? nx)%Z then rx else B754_zero false in
  let py := if (1 <? ny)%Z then ry else B754_zero false in
  let pz := if (1 <? nz)%Z then rz else B754_zero false in
  let alphadt := f_div c (f_add (f_add (f_mul px px) (f_mul py py)) (f_mul pz pz)) in
  (f_mul px alphadt, f_mul py alphadt, f_mul pz alphadt).

(* material_t, /repo/src/material/material.h:10-20, without name and links. *)
Record material : Type := mk_material {
  m_epsx : R; m_epsy : R; m_epsz : R; m_mux : R; m_muy : R; m_muz : R;
  m_sigmax : R; m_sigmay : R; m_sigmaz : R }.

(* create_sfa_params, /repo/src/field_advance/standard/sfa.cc:114-145.  decay==0 cannot
   happen in exact arithmetic (it is single precision underflow). *)
Definition mat_a (g : rgrid) (sigma eps : R) : R := sigma * dt g / (eps * eps0 g).
Definition decay_of (a : R) : R := exp (- a).
Definition drive_of (a eps : R) : R :=
  if Req_EM_T a 0 then 1 / eps
  else if Req_EM_T (decay_of a) 0 then 0
  else 2 * exp (- (1 / 2) * a) * sinh (1 / 2 * a) / (a * eps).
Definition mat_coef (g : rgrid) (m : material) : mcoef R :=
  let ax := mat_a g (m_sigmax m) (m_epsx m) in
  let ay := mat_a g (m_sigmay m) (m_epsy m) in
  let az := mat_a g (m_sigmaz m) (m_epsz m) in
  mk_mcoef R (decay_of ax) (drive_of ax (m_epsx m)) (decay_of ay) (drive_of ay (m_epsy m))
    (decay_of az) (drive_of az (m_epsz m)) (1 / m_mux m) (1 / m_muy m) (1 / m_muz m)
    (if Req_EM_T ax 0 then if Req_EM_T ay 0 then if Req_EM_T az 0 then 1 else 0 else 0 else 0)
    (m_epsx m) (m_epsy m) (m_epsz m).

(* ---- vacuum kernels ---- *)
(* Kernels of the vacuum_* files, which are used when there is one material.  Their
   sweeps have the same loops as the general ones (advance_e_pipes etc.).  [k] holds
   the coefficients of the corresponding general kernel, [m] the only material.
   vacuum_advance_e_pipeline.h:24-34,58-74; vacuum_compute_curl_b_pipeline.h:24-29,53-62;
   vacuum_compute_div_e_err_pipeline.h:24-28,52-56; vacuum_compute_rhob_pipeline.h:24-27,51-54;
   vacuum_clean_div_e_pipeline.h:24-30,53-55.  The magnetic kernels have no vacuum
   variant. *)
Section Vacuum.
Variable k : coefs R.
Variable m : mcoef R.
Local Notation px_muz := (px k * rmuz m). Local Notation px_muy := (px k * rmuy m).
Local Notation py_mux := (py k * rmux m). Local Notation py_muz := (py k * rmuz m).
Local Notation pz_muy := (pz k * rmuy m). Local Notation pz_mux := (pz k * rmux m).

Definition vac_curl_x (F : floc -> R) (f0 fy fz : Z) : R :=
  py_muz * (F (Cbz, f0) - F (Cbz, fy)) - pz_muy * (F (Cby, f0) - F (Cby, fz)).
Definition vac_curl_y (F : floc -> R) (f0 fz fx : Z) : R :=
  pz_mux * (F (Cbx, f0) - F (Cbx, fz)) - px_muz * (F (Cbz, f0) - F (Cbz, fx)).
Definition vac_curl_z (F : floc -> R) (f0 fx fy : Z) : R :=
  px_muy * (F (Cby, f0) - F (Cby, fx)) - py_mux * (F (Cbx, f0) - F (Cbx, fy)).
Definition vac_div (F : floc -> R) (f0 fx fy fz : Z) : R :=
  px k * epsx m * (F (Ex, f0) - F (Ex, fx)) + py k * epsy m * (F (Ey, f0) - F (Ey, fy)) +
  pz k * epsz m * (F (Ez, f0) - F (Ez, fz)).

Definition vac_fexec (o : fop R) (F : floc -> R) : list (floc * R) :=
  match o with
  | UPDATE_EX f0 fy fz =>
      let tca := vac_curl_x F f0 fy fz - damp k * F (Tcax, f0) in
      [((Tcax, f0), tca); ((Ex, f0), decayx m * F (Ex, f0) + drivex m * (tca - cj k * F (Jfx, f0)))]
  | UPDATE_EY f0 fz fx =>
      let tca := vac_curl_y F f0 fz fx - damp k * F (Tcay, f0) in
      [((Tcay, f0), tca); ((Ey, f0), decayy m * F (Ey, f0) + drivey m * (tca - cj k * F (Jfy, f0)))]
  | UPDATE_EZ f0 fx fy =>
      let tca := vac_curl_z F f0 fx fy - damp k * F (Tcaz, f0) in
      [((Tcaz, f0), tca); ((Ez, f0), decayz m * F (Ez, f0) + drivez m * (tca - cj k * F (Jfz, f0)))]
  | CURL_EX f0 fy fz => [((Tcax, f0), vac_curl_x F f0 fy fz)]
  | CURL_EY f0 fz fx => [((Tcay, f0), vac_curl_y F f0 fz fx)]
  | CURL_EZ f0 fx fy => [((Tcaz, f0), vac_curl_z F f0 fx fy)]
  | UPDATE_DERR_E f0 fx fy fz =>
      [((DivE, f0), nonconductive m * (vac_div F f0 fx fy fz - cj k * (F (Rhof, f0) + F (Rhob, f0))))]
  | UPDATE_RHOB f0 fx fy fz =>
      [((Rhob, f0), nonconductive m * (vac_div F f0 fx fy fz - F (Rhof, f0)))]
  | MARDER_EX f0 fx => [((Ex, f0), F (Ex, f0) + px k * drivex m * (F (DivE, fx) - F (DivE, f0)))]
  | MARDER_EY f0 fy => [((Ey, f0), F (Ey, f0) + py k * drivey m * (F (DivE, fy) - F (DivE, f0)))]
  | MARDER_EZ f0 fz => [((Ez, f0), F (Ez, f0) + pz k * drivez m * (F (DivE, fz) - F (DivE, f0)))]
  | _ => []
  end.
Definition has_vacuum (o : fop R) : bool :=
  match o with
  | UPDATE_CBX _ _ _ | UPDATE_CBY _ _ _ | UPDATE_CBZ _ _ _ | UPDATE_DERR_B _ _ _ _
  | MARDER_CBX _ _ | MARDER_CBY _ _ | MARDER_CBZ _ _ | GHOST _ _ _ => false
  | _ => true
  end.

(* The sweeps with the vacuum kernels: same loops, same ghost exchange
   (vacuum_advance_e_pipeline.cc, vacuum_compute_curl_b_pipeline.cc,
   vacuum_compute_div_e_err_pipeline.cc, vacuum_compute_rhob_pipeline.cc,
   vacuum_clean_div_e_pipeline.cc). *)
Definition vac_texec (o : top R) (F : floc -> R) : list (floc * R) :=
  match snd o with
  | GHOST c v x => [((c, v), x)]
  | o' => vac_fexec o' F
  end.
Definition vac_free_run (ops : list (fop R)) (m r : floc -> R) : Prop :=
  phase_run floc R (top R) floc_eqb vac_texec fst (pipe_ops R ops) m r.
Definition vac_ghost_run (Q : list (fop R)) (G : list (floc * R)) (H : list (fop R)) (m r : floc -> R) : Prop :=
  split_run floc R (top R) floc_eqb vac_texec fst (pipe_ops R Q) (host_ops R (ghost_ops G)) (host_ops R H) m r.
Variables (nx ny nz : Z) (contract : bool) (P : Z).
Definition vac_clean_div_e_run : (floc -> R) -> (floc -> R) -> Prop :=
  vac_free_run (clean_e_pipes R nx ny nz contract P ++ clean_e_leftover R nx ny nz).
Definition vac_advance_e_run (G : list (floc * R)) : (floc -> R) -> (floc -> R) -> Prop :=
  vac_ghost_run (advance_e_pipes R nx ny nz contract P UPDATE_EX UPDATE_EY UPDATE_EZ ++
             advance_e_leftover R nx ny nz UPDATE_EX UPDATE_EY UPDATE_EZ) G
            (advance_e_exterior R nx ny nz UPDATE_EX UPDATE_EY UPDATE_EZ).
Definition vac_curl_b_run (G : list (floc * R)) : (floc -> R) -> (floc -> R) -> Prop :=
  vac_ghost_run (advance_e_pipes R nx ny nz contract P CURL_EX CURL_EY CURL_EZ ++
             advance_e_leftover R nx ny nz CURL_EX CURL_EY CURL_EZ) G
            (advance_e_exterior R nx ny nz CURL_EX CURL_EY CURL_EZ).
Definition vac_div_e_err_run (G : list (floc * R)) : (floc -> R) -> (floc -> R) -> Prop :=
  vac_ghost_run (div_e_pipes R nx ny nz contract P UPDATE_DERR_E) G
            (div_e_exterior R nx ny nz UPDATE_DERR_E).
Definition vac_rhob_run (G : list (floc * R)) : (floc -> R) -> (floc -> R) -> Prop :=
  vac_ghost_run (div_e_pipes R nx ny nz contract P UPDATE_RHOB) G
            (div_e_exterior R nx ny nz UPDATE_RHOB).
End Vacuum.
End Coefs.

(* ---- rms of the electric divergence error ---- *)
Section Rms.
Variables (nx ny nz : Z) (contract : bool) (P : Z).
Local Notation "'f(' x , y , z )" := (voxel nx ny nz x y z) (at level 0).

(* compute_rms_div_e_err, /repo/src/field_advance/standard/pipeline/compute_rms_div_e_err_pipeline.cc.
   The terms of the sum as (eight times the weight, voxel): interior, lines 27-50,
   and exterior, lines 97-161. *)
Definition rms_pipes (lo : Z) : list (Z * Z) :=
  flat_map (fun p => map (fun s => let '(v, _, _, _) := s in (8, v))
    (job_walk contract (next_stencil nx ny nz lo nx lo ny) nx ny nz lo nx lo ny lo nz 16 p P)) (ranks P).
Definition rms_host : list (Z * Z) :=
  for_ 2 ny (fun y => for_ 2 nz (fun z => [(4, f(1,y,z)); (4, f(nx+1,y,z))])) ++
  for_ 2 nz (fun z => for_ 2 nx (fun x => [(4, f(x,1,z)); (4, f(x,ny+1,z))])) ++
  for_ 2 nx (fun x => for_ 2 ny (fun y => [(4, f(x,y,1)); (4, f(x,y,nz+1))])) ++
  for_ 2 nx (fun x => [(2, f(x,1,1)); (2, f(x,ny+1,1)); (2, f(x,1,nz+1)); (2, f(x,ny+1,nz+1))]) ++
  for_ 2 ny (fun y => [(2, f(1,y,1)); (2, f(1,y,nz+1)); (2, f(nx+1,y,1)); (2, f(nx+1,y,nz+1))]) ++
  for_ 2 nz (fun z => [(2, f(1,1,z)); (2, f(nx+1,1,z)); (2, f(1,ny+1,z)); (2, f(nx+1,ny+1,z))]) ++
  [(1, f(1,1,1)); (1, f(nx+1,1,1)); (1, f(1,ny+1,1)); (1, f(nx+1,ny+1,1));
   (1, f(1,1,nz+1)); (1, f(nx+1,1,nz+1)); (1, f(1,ny+1,nz+1)); (1, f(nx+1,ny+1,nz+1))].
Definition rms_e_terms : list (Z * Z) := rms_pipes 2 ++ rms_host.
(* compute_rms_div_b_err, compute_rms_div_b_err_pipeline.cc:30-50: all cells, weight one *)
Definition rms_b_terms : list (Z * Z) := rms_pipes 1.

(* err of this rank in exact arithmetic, before the reduction over ranks *)
Definition rms_sum (terms : list (Z * Z)) (d : Z -> R) : R :=
  fold_right (fun t s => (IZR (fst t) / 8 * d (snd t) * d (snd t) + s)%R) 0%R terms.
End Rms.
