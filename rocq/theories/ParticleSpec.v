(* What the particle properties are about, stated without the model's helper functions: trilinear
   charge sharing, flow of charge along mesh edges, continuity, and well-formed neighbour tables. *)
Require Import ZArith List Bool Reals Lra.
Require Import Verif.ParticleModel.
Import ListNotations.
Open Scope R_scope.

(* Linear shape factor of one coordinate: the share of a particle at x in [-1,1] that belongs to
   the upper (true) or lower (false) end of the cell. *)
Definition share (up : bool) (x : R) : R := if up then (1 + x) / 2 else (1 - x) / 2.

(* The node (i.e. the voxel number under which the node is stored) at a corner of cell v. *)
Definition node (sy sz v : Z) (bx by' bz : bool) : Z :=
  (v + Z.b2z bx + sy * Z.b2z by' + sz * Z.b2z bz)%Z.

Definition sum_bool (f : bool -> R) : R := f false + f true.

(* Charge q at position d of cell v, paired with a test function phi on the nodes.  With
   phi = (1 at node n, 0 elsewhere) this is the charge assigned to node n. *)
Definition charge (sy sz : Z) (phi : Z -> R) (q : R) (v : Z) (d : vec R) : R :=
  sum_bool (fun bx => sum_bool (fun by' => sum_bool (fun bz =>
    phi (node sy sz v bx by' bz) * (q * share bx (vx d) * share by' (vy d) * share bz (vz d))))).

(* An accumulator entry holds, as sf_interface.h:106-119 says, 4 times the charge that moved along
   each of the twelve edges of the cell: jx[k] along x at (y,z) corner number k = (0,0),(1,0),(0,1),
   (1,1); jy[k] along y at (z,x) corner k; jz[k] along z at (x,y) corner k.  The gain of a test
   function phi by such a flow: charge moved from the edge's low node to its high node. *)
Definition bit0 (k : nat) : bool := Nat.testbit k 0.
Definition bit1 (k : nat) : bool := Nat.testbit k 1.
Definition flow (sy sz : Z) (phi : Z -> R) (s : streak R) : R :=
  let '(v, j) := s in
  let J k := nth k j 0 in
  (sum_bool (fun b1 => sum_bool (fun b2 =>
     let k := (Nat.b2n b1 + 2 * Nat.b2n b2)%nat in
     J k * (phi (node sy sz v true b1 b2) - phi (node sy sz v false b1 b2)) +
     J (4 + k)%nat * (phi (node sy sz v b2 true b1) - phi (node sy sz v b2 false b1)) +
     J (8 + k)%nat * (phi (node sy sz v b1 b2 true) - phi (node sy sz v b1 b2 false)))))
  / 4.

Definition sumR (l : list R) : R := fold_right Rplus 0 l.
Definition flows (sy sz : Z) (phi : Z -> R) (log : list (streak R)) : R :=
  sumR (map (flow sy sz phi) log).

(* Faces: 0,1,2 are the low x,y,z faces, 3,4,5 the high ones. *)
Definition face_axis (f : Z) : axis := if (f mod 3 =? 0)%Z then AX else if (f mod 3 =? 1)%Z then AY else AZ.
Definition face_high (f : Z) : bool := (3 <=? f)%Z.

(* The corner of a cell whose coordinate along axis a is [up] and whose other two are b1, b2. *)
Definition corner_on (sy sz v : Z) (a : axis) (up b1 b2 : bool) : Z :=
  match a with AX => node sy sz v up b1 b2 | AY => node sy sz v b1 up b2 | AZ => node sy sz v b1 b2 up end.

(* [glued]: whenever the neighbour table of g lets a particle pass from voxel v through a face into
   voxel v', the test function does not distinguish the four corners of that face seen from v from
   the four corners of the opposite face of v'.  True for every phi when v' is the adjoining voxel
   of the array; for a face that wraps around (periodic) it says phi is periodic. *)
Definition passes (g : mesh) (v face v' : Z) : Prop :=
  exists n, nbr_at g v face = Some n /\ n <> reflect_particles /\ (mrangel g <= n <= mrangeh g)%Z /\
            v' = (n - mrangel g)%Z.
Definition glued (sy sz : Z) (phi : Z -> R) (g : mesh) : Prop :=
  forall v f v', (0 <= f < 6)%Z -> passes g v f v' ->
  forall b1 b2, phi (corner_on sy sz v (face_axis f) (face_high f) b1 b2) =
                phi (corner_on sy sz v' (face_axis f) (negb (face_high f)) b1 b2).

(* Every passable face leads to the voxel next door: no wrap-around inside the rank. *)
Definition stride (sy sz : Z) (a : axis) : Z := match a with AX => 1%Z | AY => sy | AZ => sz end.
Definition adjoining (sy sz : Z) (g : mesh) : Prop :=
  forall v f v', (0 <= f < 6)%Z -> passes g v f v' ->
  v' = (v + (if face_high f then 1 else -1) * stride sy sz (face_axis f))%Z.

(* The voxel a particle is in after move_p: the code stores 8*voxel+face when the mover is still
   in use. *)
Definition voxel_of (inuse : bool) (i : Z) : Z := if inuse then (i / 8)%Z else i.

Definition in_cell (d : vec R) : Prop := Rabs (vx d) <= 1 /\ Rabs (vy d) <= 1 /\ Rabs (vz d) <= 1.

(* A neighbour table that can be used for the cells [real]: it has an entry for each of their six
   faces, and an entry that lets particles pass leads to a real cell; and the voxel numbers fit the
   encoding 8*i+face in an int. *)
Definition table_ok (g : mesh) (real : Z -> Prop) : Prop :=
  forall v, real v -> (0 <= v /\ 8 * v + 7 <= 2147483647)%Z /\
  forall f, (0 <= f < 6)%Z -> exists n, nbr_at g v f = Some n /\
    (n = reflect_particles \/ n < mrangel g \/ mrangeh g < n \/ real (n - mrangel g))%Z.

(* Signed total of the four x (y, z) currents of a streak: 4 q times the distance travelled. *)
Definition total_j (a : axis) (s : streak R) : R :=
  let o := match a with AX => 0%nat | AY => 4%nat | AZ => 8%nat end in
  nth o (snd s) 0 + nth (o + 1) (snd s) 0 + nth (o + 2) (snd s) 0 + nth (o + 3) (snd s) 0.

(* Test function picking out node n. *)
Definition ind (n m : Z) : R := if (n =? m)%Z then 1 else 0.

(* Backward-difference divergence, at node n, of currents stored on the edges leaving the node
   upwards; rd are the inverse cell sizes. *)
Definition divj (sy sz : Z) (rd : vec R) (J : Z -> vec R) (n : Z) : R :=
  vx rd * (vx (J n) - vx (J (n - 1)%Z)) + vy rd * (vy (J n) - vy (J (n - sy)%Z)) +
  vz rd * (vz (J n) - vz (J (n - sz)%Z)).
(* cx, cy, cz of unload_accumulator_pipeline.cc:137-139. *)
Definition unload_coef (rd : vec R) (dt : R) : vec R :=
  mkv (/ 4 * vy rd * vz rd / dt) (/ 4 * vz rd * vx rd / dt) (/ 4 * vx rd * vy rd / dt).
