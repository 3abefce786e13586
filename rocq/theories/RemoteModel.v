(* Field exchanges between ranks.

   /repo/src/field_advance/standard/remote.cc through the port interface of /repo/src/grid/grid_comm.cc.
   Values are of an arbitrary type V with arbitrary arithmetic (RArith below), so what is combined with what, and that
   copies agree, holds for single precision too; with V = R the formulas are exact arithmetic.
   Message sizes are computed without overflow: the code needs the messages to be smaller than 2^31 bytes. *)
From Coq Require Import ZArith List Bool.
From Verif Require Import SortModel VoxelModel GridModel FieldModel.
Import ListNotations.
Open Scope Z_scope.

(* The first of the macro arguments X,Y,Z of remote.cc; Y and Z follow cyclically (remote.cc:70-75). *)
Inductive axis : Type := AX | AY | AZ.
Definition next (a : axis) : axis := match a with AX => AY | AY => AZ | AZ => AX end.
Definition axis_eqb (a b : axis) : bool := match a, b with AX, AX | AY, AY | AZ, AZ => true | _, _ => false end.
Definition cell : Type := Z * Z * Z.
Definition at_ (a : axis) (c : cell) : Z := let '(x, y, z) := c in match a with AX => x | AY => y | AZ => z end.
Definition put (a : axis) (v : Z) (c : cell) : cell :=
  let '(x, y, z) := c in match a with AX => (v, y, z) | AY => (x, v, z) | AZ => (x, y, v) end.
(* BOUNDARY(i,j,k) for (i,j,k) the multiple s of a unit vector *)
Definition port (a : axis) (s : Z) : Z := match a with AX => bcode s 0 0 | AY => bcode 0 s 0 | AZ => bcode 0 0 s end.

(* Members of field_t named by macro pasting: cb##X etc. *)
Definition cb (a : axis) : comp := match a with AX => Cbx | AY => Cby | AZ => Cbz end.
Definition e_ (a : axis) : comp := match a with AX => Ex | AY => Ey | AZ => Ez end.
Definition tca (a : axis) : comp := match a with AX => Tcax | AY => Tcay | AZ => Tcaz end.
Definition jf (a : axis) : comp := match a with AX => Jfx | AY => Jfy | AZ => Jfz end.

(* The loops over a plane, remote.cc:18-45, n = (nx,ny,nz): X##_FACE_LOOP, Y##Z##_EDGE_LOOP, Z##Y##_EDGE_LOOP, X##_NODE_LOOP *)
Inductive region : Type := Face | YZedge | ZYedge | Node.
Definition plane (n : cell) (a : axis) (g : region) (f : Z) : list cell :=
  let '(nx, ny, nz) := n in
  match a, g with
  | AX, Face => cells f f 1 ny 1 nz                      (* x_FACE_LOOP *)
  | AY, Face => cells 1 nx f f 1 nz                      (* y_FACE_LOOP *)
  | AZ, Face => cells 1 nx 1 ny f f                      (* z_FACE_LOOP *)
  | AX, YZedge => cells f f 1 ny 1 (nz + 1)              (* yz_EDGE_LOOP *)
  | AY, YZedge => cells 1 (nx + 1) f f 1 nz              (* zx_EDGE_LOOP *)
  | AZ, YZedge => cells 1 nx 1 (ny + 1) f f              (* xy_EDGE_LOOP *)
  | AX, ZYedge => cells f f 1 (ny + 1) 1 nz              (* zy_EDGE_LOOP *)
  | AY, ZYedge => cells 1 nx f f 1 (nz + 1)              (* xz_EDGE_LOOP *)
  | AZ, ZYedge => cells 1 (nx + 1) 1 ny f f              (* yx_EDGE_LOOP *)
  | AX, Node => cells f f 1 (ny + 1) 1 (nz + 1)          (* x_NODE_LOOP *)
  | AY, Node => cells 1 (nx + 1) f f 1 (nz + 1)          (* y_NODE_LOOP *)
  | AZ, Node => cells 1 (nx + 1) 1 (ny + 1) f f          (* z_NODE_LOOP *)
  end.

(* The six exchanges. *)
Inductive exch : Type := GhostTangB | GhostNormE | GhostDivB | SyncTangENormB | SyncJf | SyncRho.
(* The loops of a message for face axis a, each with the members it goes through, in order: remote.cc:82-85, 157, 229,
   324-335, 446-447, 565-568 and, for the receiver, 112-116, 185, 257, 346-371, 463-471, 585-589.  The sender's and the
   receiver's macros are separate text. *)
Definition send_items (e : exch) (a : axis) : list (region * list comp) :=
  let Y := next a in let Z := next (next a) in
  match e with
  | GhostTangB => [(ZYedge, [cb Y]); (YZedge, [cb Z])]
  | GhostNormE => [(Node, [e_ a])]
  | GhostDivB => [(Face, [DivB])]
  | SyncTangENormB => [(Face, [cb a]); (YZedge, [e_ Y; tca Y]); (ZYedge, [e_ Z; tca Z])]
  | SyncJf => [(YZedge, [jf Y]); (ZYedge, [jf Z])]
  | SyncRho => [(Node, [Rhof; Rhob])]
  end.
Definition recv_items (e : exch) (a : axis) : list (region * list comp) :=
  let Y := next a in let Z := next (next a) in
  match e with
  | GhostTangB => [(ZYedge, [cb Y]); (YZedge, [cb Z])]
  | GhostNormE => [(Node, [e_ a])]
  | GhostDivB => [(Face, [DivB])]
  | SyncTangENormB => [(Face, [cb a]); (YZedge, [e_ Y; tca Y]); (ZYedge, [e_ Z; tca Z])]
  | SyncJf => [(YZedge, [jf Y]); (ZYedge, [jf Z])]
  | SyncRho => [(Node, [Rhof; Rhob])]
  end.
(* whether g->d##X goes first *)
Definition has_head (e : exch) : bool := match e with SyncTangENormB => false | _ => true end.
(* the plane sent to and filled from direction s, with nX cells: "face = (i+j+k)<0 ? .. : .." *)
Definition ghosted (e : exch) : bool := match e with GhostTangB | GhostNormE | GhostDivB => true | _ => false end.
Definition send_plane (e : exch) (s nX : Z) : Z := if s <? 0 then 1 else if ghosted e then nX else nX + 1.
Definition recv_plane (e : exch) (s nX : Z) : Z := if s <? 0 then nX + 1 else if ghosted e then 0 else 1.
(* message size in floats, as passed to begin_recv_port and begin_send_port: remote.cc:69, 78; 144, 153; 216, 225;
   316-317, 320-321; 433-434, 437-438; 554, 557 *)
Definition msg_floats (e : exch) (n : cell) (a : axis) : Z :=
  let nY := at_ (next a) n in let nZ := at_ (next (next a)) n in
  match e with
  | GhostTangB => 1 + nY * (nZ + 1) + nZ * (nY + 1)
  | GhostNormE => 1 + (nY + 1) * (nZ + 1)
  | GhostDivB => 1 + nY * nZ
  | SyncTangENormB => 2 * nY * (nZ + 1) + 2 * nZ * (nY + 1) + nY * nZ
  | SyncJf => nY * (nZ + 1) + nZ * (nY + 1) + 1
  | SyncRho => 1 + 2 * (nY + 1) * (nZ + 1)
  end.

(* ---------- order of the calls ---------- *)
(* begin_recv_port, begin_send_port (preceded by size_send_port), end_recv_port, end_send_port with arguments (i,j,k) = s times the unit vector of a *)
Inductive cop : Type := BRecv (a : axis) (s : Z) | BSend (a : axis) (s : Z) | ERecv (a : axis) (s : Z) | ESend (a : axis) (s : Z).
Definition six : list (axis * Z) := [(AX, -1); (AY, -1); (AZ, -1); (AX, 1); (AY, 1); (AZ, 1)].
Definition each (o : axis -> Z -> cop) (ds : list (axis * Z)) : list cop := map (fun d => o (fst d) (snd d)) ds.
Definition two (a : axis) : list (axis * Z) := [(a, -1); (a, 1)].
(* the begin_ and end_ routine of a ghost exchange, remote.cc:68-133, 143-205, 215-278, and the synchronisations, 378-408, 478-504, 596-622.
   The x-faces of synchronize_tang_e_norm_b are done in another order than the rest. *)
Definition sends_first (a : axis) : list cop := each BSend (two a) ++ each BRecv (two a) ++ each ERecv (two a) ++ each ESend (two a).
Definition calls_of (e : exch) : list cop :=
  match e with
  | GhostTangB | GhostNormE | GhostDivB => each BRecv six ++ each BSend six ++ each ERecv six ++ each ESend six
  | SyncTangENormB => (each BRecv (two AX) ++ each BSend (two AX) ++ each ESend (two AX) ++ each ERecv (two AX)) ++ sends_first AY ++ sends_first AZ
  | SyncJf | SyncRho => sends_first AX ++ sends_first AY ++ sends_first AZ
  end.
(* Which receives are unpacked between which sends: all packing of a phase comes before its unpacking. *)
Definition phases (e : exch) : list (list (axis * Z)) := if ghosted e then [six] else [two AX; two AY; two AZ].

Section Values.
Variable V : Type.
(* Arithmetic of the value type.  r_avg w1 w2 is 0.5*(w1+w2) formed in double and rounded to float (remote.cc:350); r_dbl_div a b is (2.*a)/b
   formed in double and rounded to float (remote.cc:110). *)
Record rarith : Type := mk_rarith { r_add : V -> V -> V; r_sub : V -> V -> V; r_mul : V -> V -> V; r_div : V -> V -> V;
  r_avg : V -> V -> V; r_dbl_div : V -> V -> V; r_zero : V }.
Variable A : rarith.

(* What the exchange uses of grid_t: nx,ny,nz, dx,dy,dz, bc[27]. *)
Record cgrid : Type := mk_cgrid { c_n : cell; c_d : axis -> V; c_bc : Z -> Z }.
Variable ws : Z.                                         (* world_size *)
Variable G : Z -> cgrid.                                 (* the grids of the ranks *)

Definition peer (r p : Z) : option Z := let b := c_bc (G r) p in if (b <? 0) || (ws <=? b) then None else Some b.

Definition mem : Type := floc -> V.
Definition addr : Type := comp * cell.
Definition locv (n : cell) (l : addr) : floc := (fst l, vox3 n (snd l)).
Definition addrs (n : cell) (a : axis) (f : Z) (items : list (region * list comp)) : list addr :=
  flat_map (fun it => flat_map (fun c => map (fun k => (k, c)) (snd it)) (plane n a (fst it) f)) items.

(* The message rank r sends in direction s of axis a (BEGIN_SEND): destination, tag, size, contents. *)
Record msg : Type := mk_msg { m_src : Z; m_dst : Z; m_tag : Z; m_size : Z; m_data : list V }.
Definition pack (e : exch) (r : Z) (F : mem) (a : axis) (s : Z) : list V :=
  let g := G r in
  (if has_head e then [c_d g a] else []) ++
  map (fun l => F (locv (c_n g) l)) (addrs (c_n g) a (send_plane e s (at_ a (c_n g))) (send_items e a)).
Definition send (e : exch) (r : Z) (F : mem) (a : axis) (s : Z) : option msg :=
  match peer r (port a s) with
  | None => None
  | Some d => Some (mk_msg r d (port a s) (msg_floats e (c_n (G r)) a) (pack e r F a s))
  end.

(* What is stored for a received value w: remote.cc:109-115, 182-186, 254-259; 350-370; 457-471; 578-588.  dr is the remote g->d##X, F the
   receiver's field array.  *)
Definition combine_ (e : exch) (g : cgrid) (a : axis) (s : Z) (dr : V) (l : addr) (w : V) (F : mem) : V :=
  let dl := c_d g a in
  let old := F (locv (c_n g) l) in
  match e with
  | GhostTangB | GhostNormE | GhostDivB =>
      let rw := r_dbl_div A dl (r_add A dr dl) in
      let lw := r_div A (r_sub A dr dl) (r_add A dr dl) in
      let c := snd l in
      r_add A (r_mul A rw w) (r_mul A lw (F (locv (c_n g) (fst l, put a (at_ a c + s) c))))
  | SyncTangENormB => r_avg A w old
  | SyncJf =>
      let sum := r_add A dr dl in
      let rw := r_div A dr sum in let lw := r_div A dl sum in
      r_add A (r_mul A (r_add A lw lw) old) (r_mul A (r_add A rw rw) w)
  | SyncRho =>
      let sum := r_add A dr dl in
      let hrw := r_div A dr sum in let hlw := r_div A dl sum in
      match fst l with
      | Rhof => r_add A (r_mul A (r_add A hlw hlw) old) (r_mul A (r_add A hrw hrw) w)
      | _ => r_add A (r_mul A hlw old) (r_mul A hrw w)
      end
  end.
(* The loops of END_RECV.  None: the loop reads past the received data, or leaves some of it. *)
Fixpoint unpack (f : addr -> V -> mem -> V) (n : cell) (ls : list addr) (ws : list V) (F : mem) : option mem :=
  match ls, ws with
  | [], [] => Some F
  | l :: ls, w :: ws => unpack f n ls ws (fun k => if floc_eqb k (locv n l) then f l w F else F k)
  | _, _ => None
  end.
(* END_RECV for direction s of axis a on rank r, given the messages under way: the one from the peer at the port (-i,-j,-k) whose tag is
   (i,j,k).  None if there is none (end_recv_port never returns), or its size is not that of the receive ("Sizes do not match"). *)
Definition receive (e : exch) (r : Z) (ms : list msg) (F : mem) (a : axis) (s : Z) : option mem :=
  let g := G r in
  match peer r (port a (- s)) with
  | None => Some F
  | Some src =>
      match find (fun m => (m_src m =? src) && (m_dst m =? r) && (m_tag m =? port a s)) ms with
      | None => None
      | Some m =>
          if negb (m_size m =? msg_floats e (c_n g) a) then None else
          let ls := addrs (c_n g) a (recv_plane e s (at_ a (c_n g))) (recv_items e a) in
          if has_head e then match m_data m with
            | dr :: data => unpack (combine_ e g a s dr) (c_n g) ls data F
            | [] => None end
          else unpack (combine_ e g a s (r_zero A)) (c_n g) ls (m_data m) F
      end
  end.
Fixpoint receive_all (e : exch) (r : Z) (ms : list msg) (ds : list (axis * Z)) (F : mem) : option mem :=
  match ds with
  | [] => Some F
  | d :: ds => match receive e r ms F (fst d) (snd d) with Some F' => receive_all e r ms ds F' | None => None end
  end.

(* One phase: every rank sends from its own array, then receives.  W gives the field arrays of all ranks before, W' after. *)
Definition opt_list {T} (o : option T) : list T := match o with Some x => [x] | None => [] end.
Definition messages (e : exch) (ds : list (axis * Z)) (W : Z -> mem) : list msg :=
  flat_map (fun r => flat_map (fun d => opt_list (send e r (W r) (fst d) (snd d))) ds) (zrange 0 ws).
Definition phase (e : exch) (ds : list (axis * Z)) (W W' : Z -> mem) : Prop :=
  forall r, 0 <= r < ws -> receive_all e r (messages e ds W) ds (W r) = Some (W' r).
Inductive run_phases (e : exch) : list (list (axis * Z)) -> (Z -> mem) -> (Z -> mem) -> Prop :=
| rp_nil : forall W W', (forall r, 0 <= r < ws -> W' r = W r) -> run_phases e [] W W'
| rp_cons : forall ds dss W W1 W', phase e ds W W1 -> run_phases e dss W1 W' -> run_phases e (ds :: dss) W W'.

(* local_adjust_jf, local_adjust_rhof, local_adjust_rhob, local.cc:335-444: what one face does to a value *)
Inductive action : Type := Zero | Twice | Keep.
Definition adjust_action (what : comp) (b : Z) : option action :=
  match b with
  | -1 => Some Zero                                       (* anti_symmetric_fields *)
  | -2 | -3 | -4 => Some (match what with Rhob => Keep | _ => Twice end)
  | _ => None                                             (* ERROR *)
  end.
Definition act (x : action) (v : V) : V := match x with Zero => r_zero A | Twice => r_add A v v | Keep => v end.
Definition adjust_items (what : comp) (a : axis) : list (region * list comp) :=
  match what with
  | Rhof => [(Node, [Rhof])] | Rhob => [(Node, [Rhob])]
  | _ => [(YZedge, [jf (next a)]); (ZYedge, [jf (next (next a))])] end.
Definition adjust_dir (what : comp) (g : cgrid) (d : axis * Z) (F : mem) : option mem :=
  let (a, s) := d in
  let b := c_bc g (port a s) in
  if (b <? 0) || (ws <=? b) then
    match adjust_action what b with
    | None => None
    | Some x => Some (fold_left (fun F l => fun k => if floc_eqb k (locv (c_n g) l) then act x (F k) else F k)
        (addrs (c_n g) a (if s <? 0 then 1 else at_ a (c_n g) + 1) (adjust_items what a)) F)
    end
  else Some F.
Fixpoint adjust (what : comp) (g : cgrid) (ds : list (axis * Z)) (F : mem) : option mem :=
  match ds with [] => Some F | d :: ds => match adjust_dir what g d F with Some F' => adjust what g ds F' | None => None end end.
Definition adjust_jf (g : cgrid) : mem -> option mem := adjust Jfx g six.
Definition adjust_rhof (g : cgrid) : mem -> option mem := adjust Rhof g six.
Definition adjust_rhob (g : cgrid) : mem -> option mem := adjust Rhob g six.
End Values.
