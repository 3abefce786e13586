(* The charge of all particles of all ranks, paired with a function on the nodes of the whole mesh, and what it means for the ranks' neighbour
   tables to belong to one mesh. *)
From Coq Require Import Reals ZArith List Bool Sorting.Sorted.
From Verif Require Import GridModel SortModel ParticleModel ParticleSpec MoverModel FieldModel RemoteModel RemoteSpec DecompSpec.
Import ListNotations.
Open Scope Z_scope.
Local Notation AT := RemoteModel.at_.
Local Notation axis := RemoteModel.axis.

(* the entry (x, y, z) of the voxel number v = x + (nx+2) (y + (ny+2) z) *)
Definition entry_of (n : cell) (v : Z) : cell :=
  let '(nx, ny, nz) := n in (v mod (nx + 2), (v / (nx + 2)) mod (ny + 2), v / ((nx + 2) * (ny + 2))).
(* the axis of a particle face number: 0,3 x; 1,4 y; 2,5 z *)
Definition axis_of (f : Z) : axis := if f mod 3 =? 0 then RemoteModel.AX else if f mod 3 =? 1 then RemoteModel.AY else RemoteModel.AZ.
Definition side_of (f : Z) : Z := if f <? 3 then -1 else 1.

Section World.
Variable L : layout R.
(* rank r sits at position pos r of the layout *)
Variable pos : Z -> cell.
Variable ws : Z.

(* entry q of the rank at p is a cell of the rank *)
Definition real_cell (p q : cell) : Prop := forall a, 1 <= AT a q <= l_n L a (AT a p).
(* cell q' of the rank at p' is the cell next to cell q of the rank at p, in direction t along axis a *)
Definition next_cell (a : axis) (t : Z) (p q p' q' : cell) : Prop :=
  forall b, let d := place L b p' q' - (place L b p q + (if axis_eqb a b then t else 0)) in
    if l_per L b then (total L b | d) else d = 0.

(* The neighbour tables, voxel ranges and face partners of the ranks belong to one mesh: the global numbers of rank r are first r, ..., first (r+1) - 1;
   a table entry that is not a boundary condition belongs to a cell of the rank and is the number of the next cell, wherever that is; if it is
   on another rank, the face's partner is that rank. *)
Definition wired (first : Z -> Z) (B : Z -> bgrid) : Prop :=
  (forall r, 0 <= r < ws -> inside L (pos r)) /\
  0 <= first 0 /\
  (forall r, 0 <= r < ws -> first (r + 1) = first r + (let '(nx, ny, nz) := size_at L (pos r) in (nx + 2) * (ny + 2) * (nz + 2))) /\
  (forall r, 0 <= r < ws -> b_rank (B r) = r /\ b_size (B r) = ws /\ mrangel (b_mesh (B r)) = first r /\ mrangeh (b_mesh (B r)) = first (r + 1) - 1 /\
     forall s, 0 <= s <= ws -> nthz (b_range (B r)) s = first s) /\
  (forall r v f n, 0 <= r < ws -> 0 <= f < 6 -> nbr_at (b_mesh (B r)) v f = Some n -> 0 <= n ->
     exists q r' q', v = vox3 (size_at L (pos r)) q /\ real_cell (pos r) q /\
       0 <= r' < ws /\ n = first r' + vox3 (size_at L (pos r')) q' /\ real_cell (pos r') q' /\
       next_cell (axis_of f) (side_of f) (pos r) q (pos r') q' /\
       (r' <> r -> nthz (b_bc (B r)) f = r')).

(* A function of the nodes of the whole mesh: node (x, y, z) is the low corner of the cell at place (x, y, z). *)
Variable Phi : cell -> R.
(* ... seen from rank r, by voxel number *)
Definition seen (r v : Z) : R := Phi (gplace L (pos r) (entry_of (size_at L (pos r)) v)).
Definition stride_y (r : Z) : Z := let '(nx, _, _) := size_at L (pos r) in nx + 2.
Definition stride_z (r : Z) : Z := let '(nx, ny, _) := size_at L (pos r) in (nx + 2) * (ny + 2).

(* Charge q * w of a particle of rank r, shared among the corners of its cell, paired with Phi.  With Phi = 1 at one node this is the charge the
   particle brings to the node; with Phi = 1 everywhere it is the charge of the particle. *)
Definition particle_charge (r : Z) (q : R) (inuse : bool) (p : part R) : R :=
  charge (stride_y r) (stride_z r) (seen r) (q * pw p) (voxel_of inuse (pi p)) (pd p).
(* The same for the charge moved along mesh edges by a list of streaks. *)
Definition moved_charge (r : Z) (log : list (streak R)) : R := flows (stride_y r) (stride_z r) (seen r) log.
Definition species_charge (r : Z) (s : spec (V := R)) : R :=
  sumR (map (fun i => match nth_error (s_p s) i with
                      | Some p => particle_charge r (s_q s) (existsb (Z.eqb (Z.of_nat i)) (map m_i (s_pm s))) p
                      | None => 0%R end) (seq 0 (length (s_p s)))).
Definition rank_charge (r : Z) (ss : list (spec (V := R))) : R := sumR (map (species_charge r) ss).
Definition over_ranks (f : Z -> R) : R := sumR (map f (zrange 0 ws)).
Definition world_charge (SS : Z -> list (spec (V := R))) : R := over_ranks (fun r => rank_charge r (SS r)).

(* the charge of the particles on the mover lists that stopped at a face with a boundary condition (a negative entry of the table g): these are
   absorbed or given to a handler *)
Definition lost_charge (r : Z) (g : mesh) (ss : list (spec (V := R))) : R :=
  sumR (map (fun s => sumR (map (fun m => match nth_error (s_p s) (Z.to_nat (m_i m)) with
                                          | Some p => match nbr_at g (pi p / 8) (pi p mod 8) with
                                                      | Some n => if n <? 0 then particle_charge r (s_q s) true p else 0%R
                                                      | None => 0%R end
                                          | None => 0%R end) (s_pm s))) ss).
(* the charge of the particles on the mover lists *)
Definition listed_charge (r : Z) (ss : list (spec (V := R))) : R :=
  sumR (map (fun s => sumR (map (fun m => match nth_error (s_p s) (Z.to_nat (m_i m)) with Some p => particle_charge r (s_q s) true p | None => 0%R end) (s_pm s))) ss).
(* the charge of injectors, given the charges Q of the species *)
Definition injector_charge (Q : list R) (r : Z) (ij : injector (V := R)) : R := particle_charge r (nth (Z.to_nat (ij_sp ij)) Q 0%R) false (ij_p ij).

(* A particle on a mover list: stopped on a face of its cell whose table entry leads out of the rank; 8*voxel+face is stored as its voxel. *)
Definition stopped (g : mesh) (p : part R) : Prop :=
  exists v f n, pi p = 8 * v + f /\ 0 <= f < 6 /\ nbr_at g v f = Some n /\ n <> reflect_particles /\ ~ (mrangel g <= n <= mrangeh g) /\
    vget (pd p) (face_axis f) = (if face_high f then 1 else -1)%R.
(* Species between the calls: mover lists in increasing order of particle, their particles stopped at faces. *)
Definition species_ok (g : mesh) (s : spec (V := R)) : Prop :=
  StronglySorted Z.lt (map m_i (s_pm s)) /\
  (forall m, In m (s_pm s) -> 0 <= m_i m < Z.of_nat (length (s_p s)) /\ forall p, nth_error (s_p s) (Z.to_nat (m_i m)) = Some p -> stopped g p).
Definition ranks_ok (B : Z -> bgrid) (Q : list R) (SS : Z -> list (spec (V := R))) : Prop :=
  forall r, 0 <= r < ws -> map s_q (SS r) = Q /\ Forall (species_ok (b_mesh (B r))) (SS r).
End World.

(* The charge of all particles. *)
Definition total_charge (ws : Z) (SS : Z -> list (spec (V := R))) : R :=
  over_ranks ws (fun r => sumR (map (fun s => sumR (map (fun p => s_q s * pw p)%R (s_p s))) (SS r))).
(* the tables hold only neighbours and reflecting walls *)
Definition closed (ws : Z) (B : Z -> bgrid) : Prop :=
  forall r v f n, 0 <= r < ws -> 0 <= f < 6 -> nbr_at (b_mesh (B r)) v f = Some n -> n = reflect_particles \/ 0 <= n.

(* n rounds of boundary_p after the advance: [rounds ... SS gain flow SS'] - from the species SS to SS', where gain is the net charge of what the
   custom handlers injected less what stopped at boundary conditions, and flow the charge moved along mesh edges.  loc r: what the handlers called on rank r inject there; without calls nothing (boundary_p.cc:319-346).  *)
Inductive rounds (L : layout R) (pos : Z -> cell) (ws : Z) (Phi : cell -> R) (B : Z -> bgrid) (Q : list R) (fuel : nat)
  : nat -> (Z -> list (spec (V := R))) -> R -> (Z -> list (streak R)) -> (Z -> list (spec (V := R))) -> Prop :=
| rounds_0 SS SS' lg : (forall r, 0 <= r < ws -> SS' r = SS r /\ lg r = []) -> rounds L pos ws Phi B Q fuel 0 SS 0%R lg SS'
| rounds_S n SS SS1 SS2 SS3 out loc lg1 lg2 lg gain :
    (forall r, 0 <= r < ws -> pack_species Rnum (B r) 0 (SS r) = Some (out r, SS1 r) /\
       inject_all Rnum fuel (b_mesh (B r)) (SS1 r) (injection_order (B r) (loc r) (received B out r)) = Some (SS2 r, lg1 r) /\
       ((forall h p m f, ~ In (Custom h p m f) (out r)) -> loc r = [])) ->
    rounds L pos ws Phi B Q fuel n SS2 gain lg2 SS3 ->
    (forall r, 0 <= r < ws -> lg r = lg1 r ++ lg2 r) ->
    rounds L pos ws Phi B Q fuel (S n) SS
      (gain + over_ranks ws (fun r => sumR (map (injector_charge L pos Phi Q r) (loc r))) - over_ranks ws (fun r => lost_charge L pos Phi r (b_mesh (B r)) (SS r)))%R lg SS3.
