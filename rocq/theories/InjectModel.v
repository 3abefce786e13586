(* Model of the particle sources: vpic_simulation::inject_particle and the Child-Langmuir emitter. *)
From Coq Require Import ZArith List Bool.
From Flocq Require Import IEEE754.BinarySingleNaN.
From Verif Require Import FloatModel VoxelModel DistributeModel ParticleModel GridModel.
Import ListNotations.
Open Scope Z_scope.

(* double comparisons: false when an operand is NaN *)
Definition d_lt (x y : b64) : bool := match Bcompare x y with Some Lt => true | _ => false end.
Definition d_eq (x y : b64) : bool := match Bcompare x y with Some Eq => true | _ => false end.

(* One axis of the local domain: cell count and the lower and upper edges, which grid_t holds as
   float (grid.h:80-84). *)
Record extent : Type := mk_extent { e_n : Z; e_lo : b32; e_hi : b32 }.

(* misc.cc:35 (36, 37 for y, z): return without injecting.  [joined] is
   grid->bc[ high face of the axis ] >= 0. *)
Definition outside (e : extent) (joined : bool) (x : b64) : bool :=
  let x0 := f2d (e_lo e) in let x1 := f2d (e_hi e) in
  d_lt x x0 || d_lt x1 x || (d_eq x x1 && joined).

(* misc.cc:50-56 and 75: cell index along the axis and coordinate inside the cell, all in double
   without contraction into fma, the coordinate finally rounded to float.  UB: the conversion to
   int of a NaN, an infinity or a value outside int. *)
Definition place (e : extent) (x : b64) : res (Z * b32) :=
  let x0 := f2d (e_lo e) in let x1 := f2d (e_hi e) in
  let n := e_n e in
  let x := d_mul (d_of_Z n) (d_div (d_sub x x0) (d_sub x1 x0)) in
  if negb (is_finite x) then UB else
  let ix := d_trunc x in
  if (ix <? -2147483648) || (2147483647 <? ix) then UB else
  let x := d_sub x (d_of_Z ix) in
  let x := d_sub (d_add x x) (d_of_Z 1) in
  let x := if ix =? n then d_of_Z 1 else x in
  let ix := if ix =? n then n - 1 else ix in
  Ok (ix + 1, d2f x).

(* The local domain of a rank: extents of the three axes, and bc >= 0 on the three high faces. *)
Record domain : Type := mk_domain {
  d_x : extent; d_y : extent; d_z : extent; d_jx : bool; d_jy : bool; d_jz : bool }.
Definition accepts (d : domain) (x y z : b64) : bool :=
  negb (outside (d_x d) (d_jx d) x) && negb (outside (d_y d) (d_jy d) y) && negb (outside (d_z d) (d_jz d) z).

(* The species' arrays: particles, movers (remaining displacement, particle index), capacities. *)
Record store_of (M : Type) : Type := mk_store {
  s_p : list (part b32); s_max_np : Z; s_pm : list (M * Z); s_max_nm : Z }.
Arguments mk_store {M}. Arguments s_p {M}. Arguments s_max_np {M}. Arguments s_pm {M}. Arguments s_max_nm {M}.

(* inject_particle, misc.cc:12-97, for an existing accumulator and species.  ux, uy, uz and w are
   given already rounded to float (misc.cc:79-82; [wneg]: w < 0 held).  [aged]: the displacement
   computed at misc.cc:90-93, None for age == 0.  [move] stands for move_p: whether the mover is
   still in use, the particle, the mover's remaining displacement.  The stores to sp->pm[sp->nm]
   at misc.cc:91-94 happen whether or not the warning was printed, so a full mover list is UB.
   The charge left behind (misc.cc:84) and move_p's currents are not recorded. *)
Definition inject {M : Type} (move : part b32 -> M -> bool * part b32 * M)
    (d : domain) (s : store_of M) (x y z : b64) (u : vec b32) (w : b32) (wneg : bool) (aged : option M)
    : res (store_of M) :=
  if wneg then Err else
  if negb (accepts d x y z) then Ok s else
  if s_max_np s <=? Z.of_nat (length (s_p s)) then Err else
  bind (place (d_x d) x) (fun cx => bind (place (d_y d) y) (fun cy => bind (place (d_z d) z) (fun cz =>
  let p := mkp (mkv (snd cx) (snd cy) (snd cz))
               (voxel (e_n (d_x d)) (e_n (d_y d)) (e_n (d_z d)) (fst cx) (fst cy) (fst cz)) u w in
  match aged with
  | None => Ok (mk_store (s_p s ++ [p]) (s_max_np s) (s_pm s) (s_max_nm s))
  | Some m =>
      if s_max_nm s <=? Z.of_nat (length (s_pm s)) then UB else
      let '(busy, p', m') := move p m in
      Ok (mk_store (s_p s ++ [p']) (s_max_np s)
            (s_pm s ++ if busy then [(m', Z.of_nat (length (s_p s)))] else []) (s_max_nm s))
  end))).

(* Edge number p of gp along one axis, partition.cc:72-78: computed in double, stored as float. *)
Definition edge (g0 g1 : b64) (gp p : Z) : b32 :=
  let f := d_div (d_of_Z p) (d_of_Z gp) in
  d2f (d_add (d_mul g0 (d_sub (d_of_Z 1) f)) (d_mul g1 f)).

(* Global box: corners, and the number of domains along each axis. *)
Record box : Type := mk_box { b_lo : vec b64; b_hi : vec b64; b_gp : Z * Z * Z; b_n : Z * Z * Z }.
(* Domain (px,py,pz) of the box, with the high face codes of the rank's grid. *)
Definition axis_extent (g0 g1 : b64) (gp n p : Z) : extent := mk_extent n (edge g0 g1 gp p) (edge g0 g1 gp (p + 1)).
Definition box_domain (b : box) (g : grid) (p : Z * Z * Z) : domain :=
  let '(gpx, gpy, gpz) := b_gp b in let '(nx, ny, nz) := b_n b in let '(px, py, pz) := p in
  mk_domain (axis_extent (vx (b_lo b)) (vx (b_hi b)) gpx nx px)
            (axis_extent (vy (b_lo b)) (vy (b_hi b)) gpy ny py)
            (axis_extent (vz (b_lo b)) (vz (b_hi b)) gpz nz pz)
            (0 <=? g_bc g (bcode 1 0 0)) (0 <=? g_bc g (bcode 0 1 0)) (0 <=? g_bc g (bcode 0 0 1)).

(* ---- Child-Langmuir emitter ---- *)

(* Random numbers used for one emitted particle, child_langmuir.cc:90-95 and 107 in program order:
   momentum along and across the face normal (already built from frande / frandn), position on the
   face, and the number drawn for the age. *)
Record draw (V : Type) : Type := mk_draw { d_u : vec V; d_ya : V; d_za : V; d_age : V }.
Arguments mk_draw {V}. Arguments d_u {V}. Arguments d_ya {V}. Arguments d_za {V}. Arguments d_age {V}.

(* What an emission from a face appends and counts. *)
Record emission (V : Type) : Type := mk_em {
  em_w : V;                      (* the float variable w *)
  em_np : Z; em_nm : Z;          (* sp->np, sp->nm *)
  em_weights : list V;           (* p[np].w of the particles stored, in order *)
  em_rhob : list V;              (* weights handed to accumulate_rhob, line 101 *)
  em_ages : list V;              (* the values of w used at lines 110-112 *)
  em_np_skip : Z; em_nm_skip : Z }.
Arguments mk_em {V}. Arguments em_w {V}. Arguments em_np {V}. Arguments em_nm {V}. Arguments em_weights {V}.
Arguments em_rhob {V}. Arguments em_ages {V}. Arguments em_np_skip {V}. Arguments em_nm_skip {V}.

Section Emit.
Context {V : Type} (K : num V).
Variables (max_np max_nm : Z) (cdt : V).

(* child_langmuir.cc:107-108 *)
Definition age_of (r : draw V) : V :=
  let u := d_u r in
  n_div K (n_mul K (d_age r) cdt)
    (n_sqrt K (n_add K (n_add K (n_mul K (vx u) (vx u)) (n_mul K (vy u) (vy u)))
                       (n_add K (n_mul K (vz u) (vz u)) (n_one K)))).

(* One turn of the loop, child_langmuir.cc:89-116.  [busy]: move_p's result for this particle. *)
Definition emit_one (e : emission V) (rb : draw V * bool) : emission V :=
  let '(r, busy) := rb in
  if max_np <=? em_np e then
    mk_em (em_w e) (em_np e) (em_nm e) (em_weights e) (em_rhob e) (em_ages e) (em_np_skip e + 1) (em_nm_skip e) else
  let ws := em_weights e ++ [em_w e] in
  let rs := em_rhob e ++ [em_w e] in
  if max_nm <=? em_nm e then
    mk_em (em_w e) (em_np e + 1) (em_nm e) ws rs (em_ages e) (em_np_skip e) (em_nm_skip e + 1) else
  let w := age_of r in
  mk_em w (em_np e + 1) (if busy then em_nm e + 1 else em_nm e) ws rs (em_ages e ++ [w]) (em_np_skip e) (em_nm_skip e).

(* child_langmuir.cc:82-118: field component [e] into the domain (the sign [dir] applied), charge
   [q], threshold and normalisation.  Nothing is emitted when q*e does not exceed the threshold.
   fabsf is written with the comparison; [draws] has np_emit_per_face entries. *)
Definition n_abs (x : V) : V := if n_lt K x (n_zero K) then n_opp K x else x.
Definition face_weight (norm e : V) : V :=
  n_mul K norm (n_sqrt K (n_abs (n_mul K (n_mul K e e) e))).
Definition emit_face (pos : bool) (q thresh norm e : V) (np nm : Z) (draws : list (draw V * bool)) : emission V :=
  let qe := n_mul K (if pos then q else n_opp K q) e in
  if n_lt K thresh qe then
    fold_left emit_one draws (mk_em (face_weight norm e) np nm [] [] [] 0 0)
  else mk_em e np nm [] [] [] 0 0.
End Emit.
