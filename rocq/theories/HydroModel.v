(* The hydro moments: accumulate_hydro_p and synchronize_hydro_array.

   /repo/src/species_advance/standard/pipeline/hydro_p_pipeline.cc (scalar pipeline) and /repo/src/sf_interface/hydro_array.cc.
   Clearing and reducing the copies of the pipelines is in SfModel.v (C45).  Message sizes are computed without overflow. *)
From Coq Require Import ZArith List Bool.
From Verif Require Import SortModel DistributeModel VoxelModel GridModel FieldModel ParticleModel RemoteModel.
Import ListNotations.
Open Scope Z_scope.
Local Notation axis := RemoteModel.axis.
Local Notation AT := RemoteModel.at_.

(* members of hydro_t, sf_interface.h:185-192 (the padding aside) *)
Inductive hyd : Type := Hjx | Hjy | Hjz | Hrho | Hpx | Hpy | Hpz | Hke | Htxx | Htyy | Htzz | Htyz | Htzx | Htxy.
Definition hyd_eqb (a b : hyd) : bool :=
  match a, b with
  | Hjx, Hjx | Hjy, Hjy | Hjz, Hjz | Hrho, Hrho | Hpx, Hpx | Hpy, Hpy | Hpz, Hpz | Hke, Hke
  | Htxx, Htxx | Htyy, Htyy | Htzz, Htzz | Htyz, Htyz | Htzx, Htzx | Htxy, Htxy => true
  | _, _ => false end.

Section Particle.
Context {V : Type} (K : num V).
Variable two_fifths : V.                                (* 0.4f *)
Local Notation "x + y" := (n_add K x y).
Local Notation "x - y" := (n_sub K x y).
Local Notation "x * y" := (n_mul K x y).
Local Notation "x / y" := (n_div K x y).
Local Notation one := (n_one K).

(* sp->q, args->msp, g->cvac, args->qdt_2mc, g->r8V: hydro_p_pipeline.cc:31-36 *)
Record hcoef : Type := mk_hcoef { h_q : V; h_m : V; h_c : V; h_qdt : V; h_r8V : V }.
(* Momentum at the time of the positions, velocity, and ke_mc = c (gamma-1): hydro_p_pipeline.cc:91-147. *)
Definition hydro_state (h : hcoef) (f : interp) (p : part V) : vec V * vec V * V :=
  let qdt_4mc2 := h_qdt h / (n_two K * h_c h) in
  let u := vadd K (pu p) (half_e K (h_qdt h) f (pd p)) in
  let cb := mag_b K f (pd p) in
  let ke := (vx u * vx u + vy u * vy u) + vz u * vz u in
  let g := n_sqrt K (one + ke) in
  let ke := ke * (h_c h / (g + one)) in
  let g := h_c h / g in
  let w0 := qdt_4mc2 * g in
  let w1 := (vx cb * vx cb + vy cb * vy cb) + vz cb * vz cb in
  let w2 := (w0 * w0) * w1 in
  let w3 := w0 * (one + (n_third K * w2) * (one + two_fifths * w2)) in
  let w4 := w3 / (one + (w1 * w3) * w3) in
  let w4 := w4 + w4 in
  let w0 := vx u + w3 * (vy u * vz cb - vz u * vy cb) in
  let w1 := vy u + w3 * (vz u * vx cb - vx u * vz cb) in
  let w2 := vz u + w3 * (vx u * vy cb - vy u * vx cb) in
  let u := mkv (vx u + w4 * (w1 * vz cb - w2 * vy cb))
               (vy u + w4 * (w2 * vx cb - w0 * vz cb))
               (vz u + w4 * (w0 * vy cb - w1 * vx cb)) in
  (u, mkv (vx u * g) (vy u * g) (vz u * g), ke).
(* The trilinear coefficients w0..w7 in the order of their use, hydro_p_pipeline.cc:153-172. *)
Definition hydro_weights (r8V w : V) (d : vec V) : list V :=
  let w0 := r8V * w in
  let dx := vx d * w0 in
  let w1 := w0 + dx in
  let w0 := w0 - dx in
  let w3 := one + vy d in
  let w2 := w0 * w3 in
  let w3 := w3 * w1 in
  let dy := one - vy d in
  let w0 := w0 * dy in
  let w1 := w1 * dy in
  let w7 := one + vz d in
  let w4 := w0 * w7 in let w5 := w1 * w7 in let w6 := w2 * w7 in let w7 := w7 * w3 in
  let dz := one - vz d in
  [w0 * dz; w1 * dz; w2 * dz; w3 * dz; w4; w5; w6; w7].
(* ACCUM_HYDRO( wn ), hydro_p_pipeline.cc:178-197: what is added to each member *)
Definition accum (h : hcoef) (s : vec V * vec V * V) (wn : V) (m : hyd) : V :=
  let '(u, v, ke) := s in
  let t := h_q h * wn in
  let t' := (h_c h * h_m h) * wn in
  let dx := t' * vx u in let dy := t' * vy u in let dz := t' * vz u in
  match m with
  | Hjx => t * vx v | Hjy => t * vy v | Hjz => t * vz v | Hrho => t
  | Hpx => dx | Hpy => dy | Hpz => dz | Hke => t' * ke
  | Htxx => dx * vx v | Htyy => dy * vy v | Htzz => dz * vz v
  | Htyz => dy * vz v | Htzx => dz * vx v | Htxy => dx * vy v
  end.
(* The voxels of the eight accumulations: stride_10, stride_21, stride_43, hydro_p_pipeline.cc:62-69, 199-206. *)
Definition hydro_voxels (nx ny nz i : Z) : list Z :=
  let s10 := (voxel nx ny nz 1 0 0 - voxel nx ny nz 0 0 0)%Z in
  let s21 := (voxel nx ny nz 0 1 0 - voxel nx ny nz 1 0 0)%Z in
  let s43 := (voxel nx ny nz 0 0 1 - voxel nx ny nz 1 1 0)%Z in
  let i1 := (i + s10)%Z in let i2 := (i1 + s21)%Z in let i3 := (i2 + s10)%Z in let i4 := (i3 + s43)%Z in
  let i5 := (i4 + s10)%Z in let i6 := (i5 + s21)%Z in let i7 := (i6 + s10)%Z in
  [i; i1; i2; i3; i4; i5; i6; i7].
(* one particle: additions to the hydro array, in program order *)
Definition hydro_one (nx ny nz : Z) (h : hcoef) (f : Z -> interp) (p : part V) : list (Z * (hyd -> V)) :=
  map (fun x => (fst x, accum h (hydro_state h (f (pi p)) p) (snd x))) (combine (hydro_voxels nx ny nz (pi p)) (hydro_weights (h_r8V h) (pw p) (pd p))).
Definition hmem : Type := hyd * Z -> V.
Definition hydro_add (H : hmem) (x : Z * (hyd -> V)) : hmem := fun k => if snd k =? fst x then H k + snd x (fst k) else H k.
(* The particle loop of pipeline rank of P (rank P: the host) on its own copy H of the array, hydro_p_pipeline.cc:51-53, 71-209. *)
Definition hydro_seg (contract : bool) (P rank : Z) (nx ny nz : Z) (h : hcoef) (f : Z -> interp) (ps : list (part V)) (H : hmem) : hmem :=
  let '(n0, n) := distribute contract (Z.of_nat (length ps)) 16 rank P in
  fold_left (fun H k => match nth_error ps (Z.to_nat k) with Some p => fold_left hydro_add (hydro_one nx ny nz h f p) H | None => H end) (zrange n0 (n0 + n)) H.
(* accumulate_hydro_p of one species after the other, dump.cc:240-242 (dump_hydro does it for one species) *)
Definition hydro_copy (contract : bool) (P : Z) (nx ny nz : Z) (f : Z -> interp) (ss : list (hcoef * list (part V))) (rank : Z) : hmem :=
  fold_left (fun H s => hydro_seg contract P rank nx ny nz (fst s) f (snd s) H) ss (fun _ => n_zero K).
End Particle.

Section Exchange.
Context {V : Type} (A : rarith V).
Variable ws : Z.
Variable G : Z -> cgrid V.
Notation hmem := (hyd * Z -> V).

(* ADJUST_HYDRO, hydro_array.cc:164-190, for direction s of axis a; *= 2 adds the value to itself. *)
Definition hydro_adjust_dir (g : cgrid V) (H : hmem) (d : axis * Z) : hmem :=
  let (a, s) := d in
  let b := c_bc V g (port a s) in
  if (b <? 0) || (ws <=? b) then
    fold_left (fun H c => fun k => if snd k =? vox3 (c_n V g) c then r_add V A (H k) (H k) else H k)
      (plane (c_n V g) a Node (if s <? 0 then 1 else AT a (c_n V g) + 1)) H
  else H.
(* in the order of hydro_array.cc:192-197 *)
Definition hydro_adjust (g : cgrid V) (H : hmem) : hmem := fold_left (hydro_adjust_dir g) six H.

(* The members as the sender packs them (hydro_array.cc:216-229) and as the receiver takes them (251-264): separate text. *)
Definition sent_members : list hyd := [Hjx; Hjy; Hjz; Hrho; Hpx; Hpy; Hpz; Hke; Htxx; Htyy; Htzz; Htyz; Htzx; Htxy].
Definition read_members : list hyd := [Hjx; Hjy; Hjz; Hrho; Hpx; Hpy; Hpz; Hke; Htxx; Htyy; Htzz; Htyz; Htzx; Htxy].
(* message size in floats, hydro_array.cc:201-202, 207 *)
Definition hydro_floats (n : cell) (a : axis) : Z := 1 + 14 * (AT (next a) n + 1) * (AT (next (next a)) n + 1).
(* BEGIN_SEND, hydro_array.cc:204-233 *)
Definition hydro_pack (r : Z) (H : hmem) (a : axis) (s : Z) : list V :=
  let g := G r in
  c_d V g a :: flat_map (fun c => map (fun m => H (m, vox3 (c_n V g) c)) sent_members) (plane (c_n V g) a Node (if s <? 0 then 1 else AT a (c_n V g) + 1)).
Definition hydro_send (r : Z) (H : hmem) (a : axis) (s : Z) : option (msg V) :=
  match peer V ws G r (port a s) with
  | None => None
  | Some d => Some (mk_msg V r d (port a s) (hydro_floats (c_n V (G r)) a) (hydro_pack r H a s))
  end.
(* END_RECV, hydro_array.cc:235-267: the weights and the loop.  None: the loop reads past the received data, or leaves some of it. *)
Definition hydro_combine (dl dr old w : V) : V :=
  let sum := r_add V A dr dl in
  let rw := r_div V A dr sum in
  let lw := r_div V A dl sum in
  let lw := r_add V A lw lw in
  let rw := r_add V A rw rw in
  r_add V A (r_mul V A lw old) (r_mul V A rw w).
Fixpoint hydro_unpack (f : V -> V -> V) (n : cell) (ls : list (hyd * cell)) (ds : list V) (H : hmem) : option hmem :=
  match ls, ds with
  | [], [] => Some H
  | (m, c) :: ls, w :: ds => hydro_unpack f n ls ds (fun k => if hyd_eqb (fst k) m && (snd k =? vox3 n c) then f (H k) w else H k)
  | _, _ => None
  end.
Definition hydro_receive (r : Z) (ms : list (msg V)) (H : hmem) (a : axis) (s : Z) : option hmem :=
  let g := G r in
  match peer V ws G r (port a (- s)) with
  | None => Some H
  | Some src =>
      match find (fun m => (m_src V m =? src) && (m_dst V m =? r) && (m_tag V m =? port a s)) ms with
      | None => None
      | Some m =>
          if negb (m_size V m =? hydro_floats (c_n V g) a) then None else
          match m_data V m with
          | dr :: data => hydro_unpack (hydro_combine (c_d V g a) dr) (c_n V g)
              (flat_map (fun c => map (fun m => (m, c)) read_members) (plane (c_n V g) a Node (if s <? 0 then AT a (c_n V g) + 1 else 1))) data H
          | [] => None end
      end
  end.
Fixpoint hydro_receive_all (r : Z) (ms : list (msg V)) (ds : list (axis * Z)) (H : hmem) : option hmem :=
  match ds with
  | [] => Some H
  | d :: ds => match hydro_receive r ms H (fst d) (snd d) with Some H' => hydro_receive_all r ms ds H' | None => None end
  end.
Definition hydro_messages (ds : list (axis * Z)) (HW : Z -> hmem) : list (msg V) :=
  flat_map (fun r => flat_map (fun d => opt_list (hydro_send r (HW r) (fst d) (snd d))) ds) (zrange 0 ws).
Definition hydro_phase (ds : list (axis * Z)) (HW HW' : Z -> hmem) : Prop :=
  forall r, 0 <= r < ws -> hydro_receive_all r (hydro_messages ds HW) ds (HW r) = Some (HW' r).
(* the exchange, hydro_array.cc:271-306: x-faces, y-faces, z-faces *)
Inductive hydro_phases : list (list (axis * Z)) -> (Z -> hmem) -> (Z -> hmem) -> Prop :=
| hp_nil : forall W W', (forall r, 0 <= r < ws -> W' r = W r) -> hydro_phases [] W W'
| hp_cons : forall ds dss W W1 W', hydro_phase ds W W1 -> hydro_phases dss W1 W' -> hydro_phases (ds :: dss) W W'.
Definition hydro_exchange : (Z -> hmem) -> (Z -> hmem) -> Prop := hydro_phases [two AX; two AY; two AZ].
(* synchronize_hydro_array on all ranks, after the reduction of the pipelines' copies *)
Definition synchronize_hydro (W W' : Z -> hmem) : Prop := hydro_exchange (fun r => hydro_adjust (G r) (W r)) W'.
End Exchange.
