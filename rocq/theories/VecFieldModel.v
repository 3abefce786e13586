(* The field sweeps with 4-, 8- and 16-wide vector kernels.

   The files advance_b_pipeline_v{4,8,16}.cc, advance_e_pipeline_v*.cc,
   compute_curl_b_pipeline_v*.cc, clean_div_b_pipeline_v*.cc,
   vacuum_advance_e_pipeline_v*.cc and vacuum_compute_curl_b_pipeline_v*.cc
   (under /repo/src/field_advance/standard/pipeline) are the same text for the three
   widths but for the number of lanes, so the width W is a parameter.  Line numbers
   below are those of the V4 files.  A load by lane (load_Wxk_tr) gives lane l
   the members of voxel l, a store by lane (store_Wxk_tr) puts them back; that the
   vector classes do this is not part of this file.  fma and its kin are taken as a
   product and a sum, as in the portable and SSE classes (AVX2 and AVX-512 round once). *)
From Coq Require Import ZArith List Bool Permutation Reals.
From Verif Require Import DistributeModel VoxelModel SortModel SweepModel FieldModel FieldBoundaryModel.
Import ListNotations.
Open Scope Z_scope.

(* ---- execution with blocks of lanes ---- *)
Section VSweep.
Variables (loc val op lane : Type).
Variable loc_eqb : loc -> loc -> bool.
Variable exec : op -> (loc -> val) -> list (loc * val).
Variable host : op -> bool.
(* The store instructions of a vector kernel: the stores that each makes for one lane,
   as a function of the memory from which that lane was loaded. *)
Variable puts : list (lane -> (loc -> val) -> list (loc * val)).

(* A scalar operation, or a pass of a vector loop over some lanes. *)
Inductive vop : Type := Scal (o : op) | Block (ls : list lane).

(* All lanes are loaded before the first store; each store instruction then stores the
   lanes in order. *)
Definition block_stores (qs : list (lane * (loc -> val))) : list (loc * val) :=
  flat_map (fun put => flat_map (fun q => put (fst q) (snd q)) qs) puts.

(* As racy (SweepModel.v): the value read is that of any earlier moment of the phase,
   for every lane and location independently.  Blocks are executed by pipelines only. *)
Inductive vracy : list (loc -> val) -> list (loc -> val) -> (loc -> val) -> list vop ->
    (loc -> val) -> list (loc -> val) -> Prop :=
| vracy_nil : forall hs hh m, vracy hs hh m [] m hs
| vracy_scal : forall hs hh m o ops s r hs',
    (forall l, exists m', In m' (m :: if host o then hh else hs) /\ s l = m' l) ->
    vracy (m :: hs) (m :: hh) (stores loc val loc_eqb (exec o s) m) ops r hs' ->
    vracy hs hh m (Scal o :: ops) r hs'
| vracy_block : forall hs hh m qs ops r hs',
    (forall q l, In q qs -> exists m', In m' (m :: hs) /\ snd q l = m' l) ->
    vracy (m :: hs) (m :: hh) (stores loc val loc_eqb (block_stores qs) m) ops r hs' ->
    vracy hs hh m (Block (map fst qs) :: ops) r hs'.

Definition vphase_run (ops : list vop) (m r : loc -> val) : Prop :=
  exists ops' hs', Permutation ops ops' /\ vracy [] [] m ops' r hs'.

Definition vsplit_run (Q G H : list vop) (m r : loc -> val) : Prop :=
  exists Q1 Q2 L1 L2 m1 hs1 hs2,
    Permutation Q (Q1 ++ Q2) /\
    Permutation L1 (Q1 ++ G) /\ vracy [] [] m L1 m1 hs1 /\
    Permutation L2 (Q2 ++ H) /\ vracy hs1 [] m1 L2 r hs2.
End VSweep.
Arguments Scal {op lane}. Arguments Block {op lane}.

(* for( ; n_voxel > W-1; n_voxel -= W ) { W times: take the stencil, NEXT_STENCIL(); ... }:
   the lanes of the successive passes.  Voxels left over at the end are not processed
   (advance_b_pipeline_v4.cc:46-53). *)
Fixpoint passes {T} (n W : nat) (l : list T) : list (list T) :=
  match n with
  | O => []
  | S n => firstn W l :: passes n W (skipn W l)
  end.
Definition blocks {T} (W : nat) (l : list T) : list (list T) := passes (Nat.div (length l) W) W l.

Section VSweeps.
Variable V : Type.
Variables (nx ny nz : Z) (contract : bool) (P : Z).
Variable W : nat.

(* EXEC_PIPELINES with vector acceleration, /repo/src/util/pipelines/pipelines_exec_pth.h:20-52:
   the vector kernel on the pipelines, the scalar kernel for the stragglers on the host. *)
Definition vpipelines (lo : Z) (body : Z -> list (fop V)) : list (vop (top V) Z) :=
  flat_map (fun p =>
    let vs := map (fun s : vstate => let '(v, _, _, _) := s in v)
      (job_walk contract (next_stencil nx ny nz lo nx lo ny) nx ny nz lo nx lo ny lo nz 16 p P) in
    if p <? P then map Block (blocks W vs)
    else map Scal (pipe_ops V (flat_map body vs)))
    (ranks P).

Definition vscal (l : list (top V)) : list (vop (top V) Z) := map Scal l.
End VSweeps.

Section VKernels.
Variable V : Type.
Variable A : arith V.
Variable mt : mats V.
Variable k : coefs V.
Variables (nx ny : Z).
Let sy := nx + 2.
Let sz := (ny + 2) * (nx + 2).

Local Notation "a +! b" := (a_add A a b) (at level 50, left associativity).
Local Notation "a -! b" := (a_sub A a b) (at level 50, left associativity).
Local Notation "a *! b" := (a_mul A a b) (at level 40, left associativity).

(* fma, fms, fnms of /repo/src/util/v4/v4_portable.h:1152-1186 (v8, v16 alike).  The
   versions for particular processors may round only once; that is not modelled. *)
Definition v_fma (a b c : V) : V := a *! b +! c.
Definition v_fms (a b c : V) : V := a *! b -! c.
Definition v_fnms (a b c : V) : V := c -! a *! b.

(* advance_b_pipeline_v4.cc:50-76 *)
Definition vb_puts : list (Z -> (floc -> V) -> list (floc * V)) :=
  [fun f0 F =>
    let fx := f0 + 1 in let fy := f0 + sy in let fz := f0 + sz in
    [((Cbx, f0), F (Cbx, f0) +! v_fnms (py k) (F (Ez, fy) -! F (Ez, f0)) (pz k *! (F (Ey, fz) -! F (Ey, f0))));
     ((Cby, f0), F (Cby, f0) +! v_fnms (pz k) (F (Ex, fz) -! F (Ex, f0)) (px k *! (F (Ez, fx) -! F (Ez, f0))));
     ((Cbz, f0), F (Cbz, f0) +! v_fnms (px k) (F (Ey, fx) -! F (Ey, f0)) (py k *! (F (Ex, fy) -! F (Ex, f0))))]].

Local Notation rmu c fm v := (c (M V mt fm v)).

(* f0_cb?_rmu? and the curl, advance_e_pipeline_v4.cc:118-138,
   compute_curl_b_pipeline_v4.cc:93-108 *)
Definition vcurl_x (F : floc -> V) (f0 fy fz : Z) : V :=
  v_fms (py k) (v_fnms (F (Cbz, fy)) (rmu rmuz (fmatz mt) fy) (F (Cbz, f0) *! rmu rmuz (fmatz mt) f0))
        (pz k *! v_fnms (F (Cby, fz)) (rmu rmuy (fmaty mt) fz) (F (Cby, f0) *! rmu rmuy (fmaty mt) f0)).
Definition vcurl_y (F : floc -> V) (f0 fz fx : Z) : V :=
  v_fms (pz k) (v_fnms (F (Cbx, fz)) (rmu rmux (fmatx mt) fz) (F (Cbx, f0) *! rmu rmux (fmatx mt) f0))
        (px k *! v_fnms (F (Cbz, fx)) (rmu rmuz (fmatz mt) fx) (F (Cbz, f0) *! rmu rmuz (fmatz mt) f0)).
Definition vcurl_z (F : floc -> V) (f0 fx fy : Z) : V :=
  v_fms (px k) (v_fnms (F (Cby, fx)) (rmu rmuy (fmaty mt) fx) (F (Cby, f0) *! rmu rmuy (fmaty mt) f0))
        (py k *! v_fnms (F (Cbx, fy)) (rmu rmux (fmatx mt) fy) (F (Cbx, f0) *! rmu rmux (fmatx mt) f0)).

(* advance_e_pipeline_v4.cc:62-156.  div_e_err and rhob are loaded (save0, save1) and
   stored again unchanged. *)
Definition v_tca (curl : V) (F : floc -> V) (tc : comp) (f0 : Z) : V := v_fnms (damp k) (F (tc, f0)) curl.
Definition v_e (decay drive : V) (tca : V) (F : floc -> V) (e j : comp) (f0 : Z) : V :=
  v_fma decay (F (e, f0)) (drive *! v_fnms (cj k) (F (j, f0)) tca).
Definition ve_puts : list (Z -> (floc -> V) -> list (floc * V)) :=
  let tcax F f0 := v_tca (vcurl_x F f0 (f0 - sy) (f0 - sz)) F Tcax f0 in
  let tcay F f0 := v_tca (vcurl_y F f0 (f0 - sz) (f0 - 1)) F Tcay f0 in
  let tcaz F f0 := v_tca (vcurl_z F f0 (f0 - 1) (f0 - sy)) F Tcaz f0 in
  [fun f0 F =>
    [((Ex, f0), v_e (decayx (M V mt (ematx mt) f0)) (drivex (M V mt (ematx mt) f0)) (tcax F f0) F Ex Jfx f0);
     ((Ey, f0), v_e (decayy (M V mt (ematy mt) f0)) (drivey (M V mt (ematy mt) f0)) (tcay F f0) F Ey Jfy f0);
     ((Ez, f0), v_e (decayz (M V mt (ematz mt) f0)) (drivez (M V mt (ematz mt) f0)) (tcaz F f0) F Ez Jfz f0);
     ((DivE, f0), F (DivE, f0))];
   fun f0 F =>
    [((Tcax, f0), tcax F f0); ((Tcay, f0), tcay F f0); ((Tcaz, f0), tcaz F f0); ((Rhob, f0), F (Rhob, f0))]].

(* compute_curl_b_pipeline_v4.cc:55-118; rhob is stored again unchanged. *)
Definition vcurl_puts : list (Z -> (floc -> V) -> list (floc * V)) :=
  [fun f0 F =>
    [((Tcax, f0), vcurl_x F f0 (f0 - sy) (f0 - sz)); ((Tcay, f0), vcurl_y F f0 (f0 - sz) (f0 - 1));
     ((Tcaz, f0), vcurl_z F f0 (f0 - 1) (f0 - sy)); ((Rhob, f0), F (Rhob, f0))]].

(* clean_div_b_pipeline_v4.cc:66-109; div_b_err is stored again unchanged. *)
Definition vclean_puts : list (Z -> (floc -> V) -> list (floc * V)) :=
  [fun f0 F =>
    [((Cbx, f0), v_fma (F (DivB, f0) -! F (DivB, f0 - 1)) (px k) (F (Cbx, f0)));
     ((Cby, f0), v_fma (F (DivB, f0) -! F (DivB, f0 - sy)) (py k) (F (Cby, f0)));
     ((Cbz, f0), v_fma (F (DivB, f0) -! F (DivB, f0 - sz)) (pz k) (F (Cbz, f0)));
     ((DivB, f0), F (DivB, f0))]].
End VKernels.

(* vacuum_advance_e_pipeline_v4.cc:21-124, vacuum_compute_curl_b_pipeline_v4.cc:21-90:
   the coefficients of material 0 are multiplied into px, py, pz beforehand. *)
Section VVacuum.
Variable k : coefs R.
Variable m : mcoef R.
Variables (nx ny : Z).
Let sy := nx + 2.
Let sz := (ny + 2) * (nx + 2).
Local Notation px_muz := (px k * rmuz m)%R. Local Notation px_muy := (px k * rmuy m)%R.
Local Notation py_mux := (py k * rmux m)%R. Local Notation py_muz := (py k * rmuz m)%R.
Local Notation pz_muy := (pz k * rmuy m)%R. Local Notation pz_mux := (pz k * rmux m)%R.
Local Notation fms := (v_fms R RA).

Definition vvcurl_x (F : floc -> R) (f0 fy fz : Z) : R :=
  fms py_muz (F (Cbz, f0) - F (Cbz, fy))%R (pz_muy * (F (Cby, f0) - F (Cby, fz)))%R.
Definition vvcurl_y (F : floc -> R) (f0 fz fx : Z) : R :=
  fms pz_mux (F (Cbx, f0) - F (Cbx, fz))%R (px_muz * (F (Cbz, f0) - F (Cbz, fx)))%R.
Definition vvcurl_z (F : floc -> R) (f0 fx fy : Z) : R :=
  fms px_muy (F (Cby, f0) - F (Cby, fx))%R (py_mux * (F (Cbx, f0) - F (Cbx, fy)))%R.
Definition vve_puts : list (Z -> (floc -> R) -> list (floc * R)) :=
  let tcax F f0 := v_tca R RA k (vvcurl_x F f0 (f0 - sy) (f0 - sz)) F Tcax f0 in
  let tcay F f0 := v_tca R RA k (vvcurl_y F f0 (f0 - sz) (f0 - 1)) F Tcay f0 in
  let tcaz F f0 := v_tca R RA k (vvcurl_z F f0 (f0 - 1) (f0 - sy)) F Tcaz f0 in
  [fun f0 F =>
    [((Ex, f0), v_e R RA k (decayx m) (drivex m) (tcax F f0) F Ex Jfx f0);
     ((Ey, f0), v_e R RA k (decayy m) (drivey m) (tcay F f0) F Ey Jfy f0);
     ((Ez, f0), v_e R RA k (decayz m) (drivez m) (tcaz F f0) F Ez Jfz f0);
     ((DivE, f0), F (DivE, f0))];
   fun f0 F =>
    [((Tcax, f0), tcax F f0); ((Tcay, f0), tcay F f0); ((Tcaz, f0), tcaz F f0); ((Rhob, f0), F (Rhob, f0))]].
Definition vvcurl_puts : list (Z -> (floc -> R) -> list (floc * R)) :=
  [fun f0 F =>
    [((Tcax, f0), vvcurl_x F f0 (f0 - sy) (f0 - sz)); ((Tcay, f0), vvcurl_y F f0 (f0 - sz) (f0 - 1));
     ((Tcaz, f0), vvcurl_z F f0 (f0 - 1) (f0 - sy)); ((Rhob, f0), F (Rhob, f0))]].
End VVacuum.

(* ---- the sweeps ---- *)
Section VRuns.
Variable V : Type.
Variable A : arith V.
Variable mt : mats V.
Variable k : coefs V.
Variables (nx ny nz : Z) (contract : bool) (P : Z).
Variable W : nat.
Let sy := nx + 2.
Let sz := (ny + 2) * (nx + 2).

(* The scalar statements for one voxel, as in advance_b_pipes, advance_e_pipes and
   clean_b_pipes (FieldModel.v). *)
Definition b_body (v : Z) : list (fop V) :=
  [UPDATE_CBX v (v + sy) (v + sz); UPDATE_CBY v (v + sz) (v + 1); UPDATE_CBZ v (v + 1) (v + sy)].
Definition e_body (UEX UEY UEZ : Z -> Z -> Z -> fop V) (v : Z) : list (fop V) :=
  [UEX v (v - sy) (v - sz); UEY v (v - sz) (v - 1); UEZ v (v - 1) (v - sy)].
Definition clean_body (v : Z) : list (fop V) :=
  [MARDER_CBX v (v - 1); MARDER_CBY v (v - sy); MARDER_CBZ v (v - sz)].

Definition vadvance_b_run (m r : floc -> V) : Prop :=
  vphase_run floc V (top V) Z floc_eqb (texec V A mt k) fst (vb_puts V A k nx ny)
    (vpipelines V nx ny nz contract P W 1 b_body ++ vscal V (pipe_ops V (advance_b_host V nx ny nz))) m r.

Definition vghost_run (exec : top V -> (floc -> V) -> list (floc * V))
    (puts : list (Z -> (floc -> V) -> list (floc * V))) (Q : list (vop (top V) Z))
    (leftover exterior : list (fop V)) (G : list (floc * V)) (m r : floc -> V) : Prop :=
  vsplit_run floc V (top V) Z floc_eqb exec fst puts (Q ++ vscal V (pipe_ops V leftover))
    (vscal V (host_ops V (ghost_ops G))) (vscal V (host_ops V exterior)) m r.

Definition vadvance_e_run (G : list (floc * V)) : (floc -> V) -> (floc -> V) -> Prop :=
  vghost_run (texec V A mt k) (ve_puts V A mt k nx ny)
    (vpipelines V nx ny nz contract P W 2 (e_body UPDATE_EX UPDATE_EY UPDATE_EZ))
    (advance_e_leftover V nx ny nz UPDATE_EX UPDATE_EY UPDATE_EZ)
    (advance_e_exterior V nx ny nz UPDATE_EX UPDATE_EY UPDATE_EZ) G.
Definition vcurl_b_run (G : list (floc * V)) : (floc -> V) -> (floc -> V) -> Prop :=
  vghost_run (texec V A mt k) (vcurl_puts V A mt k nx ny)
    (vpipelines V nx ny nz contract P W 2 (e_body CURL_EX CURL_EY CURL_EZ))
    (advance_e_leftover V nx ny nz CURL_EX CURL_EY CURL_EZ)
    (advance_e_exterior V nx ny nz CURL_EX CURL_EY CURL_EZ) G.
Definition vclean_div_b_run (G : list (floc * V)) : (floc -> V) -> (floc -> V) -> Prop :=
  vghost_run (texec V A mt k) (vclean_puts V A k nx ny)
    (vpipelines V nx ny nz contract P W 2 clean_body)
    (clean_b_leftover V nx ny nz) (clean_b_exterior V nx ny nz) G.
End VRuns.

Section VVacRuns.
Variable k : coefs R.
Variable m : mcoef R.
Variables (nx ny nz : Z) (contract : bool) (P : Z).
Variable W : nat.
Definition vvac_advance_e_run (G : list (floc * R)) : (floc -> R) -> (floc -> R) -> Prop :=
  vghost_run R (vac_texec k m) (vve_puts k m nx ny)
    (vpipelines R nx ny nz contract P W 2 (e_body R nx ny UPDATE_EX UPDATE_EY UPDATE_EZ))
    (advance_e_leftover R nx ny nz UPDATE_EX UPDATE_EY UPDATE_EZ)
    (advance_e_exterior R nx ny nz UPDATE_EX UPDATE_EY UPDATE_EZ) G.
Definition vvac_curl_b_run (G : list (floc * R)) : (floc -> R) -> (floc -> R) -> Prop :=
  vghost_run R (vac_texec k m) (vvcurl_puts k m nx ny)
    (vpipelines R nx ny nz contract P W 2 (e_body R nx ny CURL_EX CURL_EY CURL_EZ))
    (advance_e_leftover R nx ny nz CURL_EX CURL_EY CURL_EZ)
    (advance_e_exterior R nx ny nz CURL_EX CURL_EY CURL_EZ) G.
End VVacRuns.
