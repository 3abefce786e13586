(* Model of the mover bookkeeping: the per-pipeline mover segments and their compaction in
   advance_p, the back-filling removal of particles in advance.cc and boundary_p.cc, the kinetic
   energy sum, and boundary_p itself. *)
Require Import ZArith List Bool Reals.
Require Import Verif.FloatModel Verif.VoxelModel Verif.DistributeModel Verif.SortModel Verif.ParticleModel.
Import ListNotations.
Open Scope Z_scope.

(* ---------- energy_p ---------- *)

(* energy_p_pipeline_scalar for one rank (energy_p_pipeline.cc:16-68): the sum, in order, of the
   energies e n of the particles n0 <= n < n0+n1 given by DISTRIBUTE(np,16,...); and
   energy_p_pipeline (75-116): the sum over the ranks 0..N_PIPELINE.  [plus] is the double
   addition; the all-reduce over nodes and the factor cvac^2 are left out here. *)
Definition energy_seg {D} (zero : D) (plus : D -> D -> D) (c : bool) (np P : Z) (e : Z -> D) (rank : Z) : D :=
  let '(n0, n) := distribute c np 16 rank P in
  fold_left (fun en k => plus en (e k)) (zrange n0 (n0 + n)) zero.
Definition energy_p {D} (zero : D) (plus : D -> D -> D) (c : bool) (np P : Z) (e : Z -> D) : D :=
  fold_left (fun local rank => plus local (energy_seg zero plus c np P e rank)) (zrange 0 (P + 1)) zero.

(* ---------- mover segments of advance_p ---------- *)

Section Segments.
Context {M : Type}.

(* advance_p_pipeline.cc:55-74: offset and capacity of the movers reserved for a rank; the host
   (rank = P) gets what is left. *)
Definition seg_base (c : bool) (np max_nm P rank : Z) : Z :=
  let m := max_nm - Z.land np 15 in
  let m := if m <? 0 then 0 else m in
  fst (distribute c m 8 rank P).
Definition seg_cap (c : bool) (np max_nm P rank : Z) : Z :=
  let m := max_nm - Z.land np 15 in
  let m := if m <? 0 then 0 else m in
  if rank =? P then max_nm - seg_base c np max_nm P rank else snd (distribute c m 8 rank P).

(* The particle loop of one rank as far as movers are concerned (advance_p_pipeline.cc:221-238).
   hit k = Some m: move_p returned 1 for particle k and local_pm is m.  Result: the movers stored at
   pm[0], pm[1], ... and the particles that were ignored. *)
Fixpoint seg_loop (hit : Z -> option M) (cap : Z) (ks : list Z) (nm : list M) (ign : list Z)
  : list M * list Z :=
  match ks with
  | [] => (nm, ign)
  | k :: ks => match hit k with
    | None => seg_loop hit cap ks nm ign
    | Some m => if Z.of_nat (length nm) <? cap then seg_loop hit cap ks (nm ++ [m]) ign
                else seg_loop hit cap ks nm (ign ++ [k])
    end
  end.
Definition seg_run (hit : Z -> option M) (c : bool) (np max_nm P rank : Z) : list M * list Z :=
  let '(n0, n) := distribute c np 16 rank P in
  seg_loop hit (seg_cap c np max_nm P rank) (zrange n0 (n0 + n)) [] [].

(* The stores a rank makes into the shared mover array: (index, value), in order. *)
Definition seg_writes (hit : Z -> option M) (c : bool) (np max_nm P rank : Z) : list (Z * M) :=
  let base := seg_base c np max_nm P rank in
  let l := fst (seg_run hit c np max_nm P rank) in
  combine (map (fun k => base + Z.of_nat k) (seq 0 (length l))) l.

(* Memory: a mover array as a partial function of the index (None: never written). *)
Definition mmem : Type := Z -> option M.
Definition mstore (mem : mmem) (w : Z * M) : mmem := fun n => if n =? fst w then Some (snd w) else mem n.
Definition mstores (mem : mmem) (ws : list (Z * M)) : mmem := fold_left mstore ws mem.

(* MOVE(d,s,n), util_base.h:278 (memmove). *)
Definition mmove (mem : mmem) (d s n : Z) : mmem :=
  fun k => if (d <=? k) && (k <? d + n) then mem (k - d + s) else mem k.

(* The compaction loop, advance_p_pipeline.cc:310-339. *)
Fixpoint compact (bases lens : Z -> Z) (ranks : list Z) (mem : mmem) (nm : Z) : mmem * Z :=
  match ranks with
  | [] => (mem, nm)
  | r :: rs => let mem := if nm =? bases r then mem else mmove mem nm (bases r) (lens r) in
               compact bases lens rs mem (nm + lens r)
  end.
(* [ws] is the order in which the ranks' stores reached memory. *)
Definition advance_movers (hit : Z -> option M) (c : bool) (np max_nm P : Z) (mem : mmem)
           (ws : list (Z * M)) : mmem * Z :=
  compact (seg_base c np max_nm P)
          (fun r => Z.of_nat (length (fst (seg_run hit c np max_nm P r))))
          (zrange 0 (P + 1)) (mstores mem ws) 0.
End Segments.

(* ---------- removal by back-filling ---------- *)

(* [remove_at ps i]: p0[i] = p0[np-1]; np-- (advance.cc:97-98, boundary_p.cc:354-371) on the list of
   the first np particles; also the particle that was at i.  None: i is not an index of the list. *)
Definition put {A} (l : list A) (i : nat) (x : A) : list A := firstn i l ++ x :: skipn (S i) l.
Definition remove_at {A} (ps : list A) (i : Z) : option (A * list A) :=
  if i <? 0 then None else
  match nth_error ps (Z.to_nat i), nth_error ps (length ps - 1) with
  | Some x, Some y => Some (x, firstn (length ps - 1) (put ps (Z.to_nat i) y))
  | _, _ => None
  end.

(* The removal loop of advance.cc:89-99: movers from last to first.  Result: what was removed, in
   that order, and the remaining particles. *)
Fixpoint remove_loop {A} (ps : list A) (idx_rev : list Z) (gone : list A) : option (list A * list A) :=
  match idx_rev with
  | [] => Some (gone, ps)
  | i :: is => match remove_at ps i with
               | None => None
               | Some (x, ps) => remove_loop ps is (gone ++ [x])
               end
  end.
Definition remove_movers {A} (ps : list A) (idx : list Z) : option (list A * list A) :=
  remove_loop ps (rev idx) [].

Section Boundary.
Context {V : Type} (K : num V).

(* advance.cc:78-101: the leftover removal with the charge deposition: p0[i].i >>= 3 and
   accumulate_rhob for each removed particle. *)
Definition unshift (p : part V) : part V := mkp (pd p) (Z.shiftr (pi p) 3) (pu p) (pw p).
Definition drop_leftovers (nx ny nz : Z) (q r8V : V) (ps : list (part V)) (idx : list Z)
  : option (list (Z * V) * list (part V)) :=
  match remove_movers ps idx with
  | None => None
  | Some (gone, ps) => Some (flat_map (fun p => rhob_adds K nx ny nz q r8V (unshift p)) gone, ps)
  end.

(* ---------- boundary_p ---------- *)

(* particle_mover_t and particle_injector_t, species_advance_aos.h:37-52. *)
Record mover : Type := mk_mover { m_disp : vec V; m_i : Z }.
Record injector : Type := mk_inj { ij_p : part V; ij_disp : vec V; ij_sp : Z }.

(* The part of a species boundary_p works on: charge, particles (the first np), movers (the first
   nm).  The id is the position in the list of species. *)
Record spec : Type := mk_spec { s_q : V; s_p : list (part V); s_pm : list mover }.

(* What boundary_p reads of the grid besides the mesh of move_p: for the six faces the rank on the
   other side (g->bc), the start of each rank's voxel range (g->range, ending with range[world_size])
   and the rank itself. *)
Record bgrid : Type := mk_bgrid {
  b_mesh : mesh; b_bc : list Z; b_range : list Z; b_rank : Z; b_size : Z; b_nb : Z }.

Definition nthz (l : list Z) (i : Z) : Z := nth (Z.to_nat i) l 0.
(* shared[face], boundary_p.cc:140-142. *)
Definition shared (b : bgrid) (f : Z) : bool :=
  (0 <=? nthz (b_bc b) f) && (nthz (b_bc b) f <? b_size b) && negb (nthz (b_bc b) f =? b_rank b).
Definition face_ax (f : Z) : axis := match f with 0 | 3 => AX | 1 | 4 => AY | _ => AZ end.  (* 64 *)
Definition face_dir (f : Z) : V := if f <? 3 then n_one K else n_opp K (n_one K).            (* 67 *)
Definition absorb_particles : Z := -2.        (* grid.h:30 *)

(* What happens to one mover, boundary_p.cc:259-352. *)
Inductive fate : Type :=
| Absorbed (p : part V)
| Sent (face : Z) (i : injector)
| Custom (k : Z) (p : part V) (m : mover) (face : Z)
| Dropped (p : part V).

(* boundary_p.cc:259-352 for the particle p (found at p0[pm->i]) of species sp; None: an access
   outside the neighbour table, or a send through a face that is not shared (pi_send[face] and
   range[face] are then uninitialized). *)
Definition dispatch (b : bgrid) (sp : Z) (p : part V) (m : mover) : option fate :=
  let face := Z.land (pi p) 7 in
  let voxel := Z.shiftr (pi p) 3 in
  let p := mkp (pd p) voxel (pu p) (pw p) in
  match nbr_at (b_mesh b) voxel face with
  | None => None
  | Some nn =>
    if nn =? absorb_particles then Some (Absorbed p)
    else if ((0 <=? nn) && (nn <? mrangel (b_mesh b))) ||
            ((mrangeh (b_mesh b) <? nn) && (nn <=? nthz (b_range b) (b_size b))) then
      if (face <? 6) && shared b face then
        Some (Sent face (mk_inj (mkp (vset (pd p) (face_ax face) (face_dir face))
                                     (nn - nthz (b_range b) (nthz (b_bc b) face)) (pu p) (pw p))
                                (m_disp m) sp))
      else None
    else
      let k := - nn - 3 in
      if (0 <=? k) && (k <? b_nb b) then Some (Custom k p m face) else Some (Dropped p)
  end.

(* The mover loop of one species, boundary_p.cc:235-372 (movers in reverse order). *)
Fixpoint pack_loop (b : bgrid) (sp : Z) (ps : list (part V)) (ms : list mover) (out : list fate)
  : option (list fate * list (part V)) :=
  match ms with
  | [] => Some (out, ps)
  | m :: ms =>
    match remove_at ps (m_i m) with
    | None => None
    | Some (p, ps) => match dispatch b sp p m with
                      | None => None
                      | Some f => pack_loop b sp ps ms (out ++ [f])
                      end
    end
  end.
(* All species, boundary_p.cc:233-376: the fates in program order and the species with the movers
   emptied. *)
Fixpoint pack_species (b : bgrid) (sp : Z) (ss : list spec) : option (list fate * list spec) :=
  match ss with
  | [] => Some ([], [])
  | s :: ss =>
    match pack_loop b sp (s_p s) (rev (s_pm s)) [] with
    | None => None
    | Some (out, ps) => match pack_species b (sp + 1) ss with
                        | None => None
                        | Some (out', ss') => Some (out ++ out', mk_spec (s_q s) ps [] :: ss')
                        end
    end
  end.

(* pi_send[face][0..n_send[face]), and the local injectors ci[0..n_ci): what the handlers produce
   ([pbc k sp p m face], at most one injector per call). *)
Definition sends (f : Z) (l : list fate) : list injector :=
  flat_map (fun x => match x with Sent g i => if f =? g then [i] else [] | _ => [] end) l.
Definition locals (pbc : Z -> part V -> mover -> Z -> list injector) (l : list fate) : list injector :=
  flat_map (fun x => match x with Custom k p m f => pbc k p m f | _ => [] end) l.

(* The bound charge added for the absorbed particles, boundary_p.cc:268-276. *)
Definition absorbed_adds (nx ny nz : Z) (q r8V : V) (l : list fate) : list (Z * V) :=
  flat_map (fun x => match x with Absorbed p => rhob_adds K nx ny nz q r8V p | _ => [] end) l.

(* One injection, boundary_p.cc:645-709 (dynamic resizing enabled). *)
Definition inject_one (fuel : nat) (g : mesh) (ss : list spec) (ij : injector)
  : option (list spec * list (streak V)) :=
  if ij_sp ij <? 0 then None else
  match nth_error ss (Z.to_nat (ij_sp ij)) with
  | None => None
  | Some s =>
    match move_p K fuel g (s_q s) (ij_p ij) (ij_disp ij) with
    | MDone inuse p disp log =>
        let m := mk_mover disp (Z.of_nat (length (s_p s))) in
        let s := mk_spec (s_q s) (s_p s ++ [p]) (if inuse then s_pm s ++ [m] else s_pm s) in
        Some (put ss (Z.to_nat (ij_sp ij)) s, log)
    | _ => None
    end
  end.
Fixpoint inject_all (fuel : nat) (g : mesh) (ss : list spec) (l : list injector)
  : option (list spec * list (streak V)) :=
  match l with
  | [] => Some (ss, [])
  | ij :: l => match inject_one fuel g ss ij with
               | None => None
               | Some (ss, log) => match inject_all fuel g ss l with
                                   | None => None
                                   | Some (ss, log') => Some (ss, log ++ log')
                                   end
               end
  end.
(* The order of injection, boundary_p.cc:592-645: the local injectors first, then what came in
   through faces 0..5; each buffer from its last entry to its first.  [recv f] is the buffer received
   on face f. *)
Definition injection_order (b : bgrid) (local : list injector) (recv : Z -> list injector) : list injector :=
  rev local ++ flat_map (fun f => if shared b f then rev (recv f) else []) [0; 1; 2; 3; 4; 5].

(* BOUNDARY(i,j,k), grid.h:16, and the port tables f2b, f2rb, boundary_p.cc:47-61. *)
Definition boundary_code (i j k : Z) : Z := 13 + i + 3 * j + 9 * k.
Definition f2b (f : Z) : Z := match f with
  | 0 => boundary_code (-1) 0 0 | 1 => boundary_code 0 (-1) 0 | 2 => boundary_code 0 0 (-1)
  | 3 => boundary_code 1 0 0 | 4 => boundary_code 0 1 0 | _ => boundary_code 0 0 1 end.
Definition f2rb (f : Z) : Z := match f with
  | 0 => boundary_code 1 0 0 | 1 => boundary_code 0 1 0 | 2 => boundary_code 0 0 1
  | 3 => boundary_code (-1) 0 0 | 4 => boundary_code 0 (-1) 0 | _ => boundary_code 0 0 (-1) end.

(* The message a rank r receives on face f (boundary_p.cc:415-425, 592-605): it expects a message
   from rank bc[f] with tag f2rb[f]; rank s sends, for each of its shared faces f', a message to
   bc_s[f'] with tag f2b[f'] (396-411, 428-443).  [B s] is rank s's grid and [out s] its fates.
   The message layer is taken to deliver a message to the receive with the same source, destination
   and tag. *)
Definition received (B : Z -> bgrid) (out : Z -> list fate) (r f : Z) : list injector :=
  let s := nthz (b_bc (B r)) f in
  flat_map (fun f' => if shared (B s) f' && (nthz (b_bc (B s)) f' =? r) && (f2b f' =? f2rb f)
                      then sends f' (out s) else []) [0; 1; 2; 3; 4; 5].

(* The new capacities, boundary_p.cc:447-551; the factor arithmetic is double truncated to int. *)
Definition MIN_NP : Z := 128.
Definition grow (n : Z) : Z := d_trunc (d_add (d_of_Z n) (d_mul (d_div (d_of_Z 5) (d_of_Z 16)) (d_of_Z n))).
Definition shrink (n : Z) : Z := d_trunc (d_add (d_of_Z n) (d_mul (d_div (d_of_Z 1) (d_of_Z 8)) (d_of_Z n))).
Definition new_max_np (np max_np max_inj : Z) : Z :=
  let n := np + max_inj in
  if max_np <? n then grow n
  else if (MIN_NP <? max_np) && (n <? Z.shiftr max_np 1) then Z.max (shrink n) MIN_NP
  else max_np.
Definition new_max_nm (nm max_nm max_inj : Z) : Z :=
  let n := nm + max_inj in if max_nm <? n then grow n else max_nm.

End Boundary.
