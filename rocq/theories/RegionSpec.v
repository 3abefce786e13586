(* What the comments of /repo/deck/wrapper.h:71-114 and the location table of field_advance.h:44-62 say about the region
   macros, stated without the code. *)
From Coq Require Import ZArith List Bool.
From Verif Require Import VoxelModel RegionModel.
Import ListNotations.
Open Scope Z_scope.

(* field_advance.h:48-62: along which axes a member sits half a cell above the node of its voxel *)
Definition staggered (f : member) : bool * bool * bool :=
  match f with
  | NODE => (false, false, false)
  | EX => (true, false, false) | EY => (false, true, false) | EZ => (false, false, true)
  | FX => (false, true, true) | FY => (true, false, true) | FZ => (true, true, false)
  | CELL => (true, true, true)
  end.

Section spec.
Context {T : Type} (X Y Z_ : Z -> T) (rgn : T -> T -> T -> bool).

(* node i of an axis is at X (2*(i-1)), half a cell further is X (2*(i-1)+1); the centre of cell i is the latter *)
Definition along (A : Z -> T) (half : bool) (i : Z) : T := A (2 * (i - 1) + if half then 1 else 0).
Definition at_place {V} (g : T -> T -> T -> V) (f : member) (i j k : Z) : V :=
  let '(hx, hy, hz) := staggered f in g (along X hx i) (along Y hy j) (along Z_ hz k).
(* where set_region_field evaluates instead: along an axis where the member sits at a node, the next node *)
Definition at_shifted {V} (g : T -> T -> T -> V) (f : member) (i j k : Z) : V :=
  let '(hx, hy, hz) := staggered f in
  g (along X hx (if hx then i else i + 1)) (along Y hy (if hy then j else j + 1)) (along Z_ hz (if hz then k else k + 1)).
Definition cell_inside (c : Z * Z * Z) : bool :=
  let '(i, j, k) := c in rgn (along X true i) (along Y true j) (along Z_ true k).

(* the cells that touch a face, an edge or a node: along an axis where it sits at a node, the cells on both sides *)
Definition sides (half : bool) (i : Z) : list Z := if half then [i] else [i - 1; i].
Definition associated (f : member) (i j k : Z) : list (Z * Z * Z) :=
  let '(hx, hy, hz) := staggered f in
  flat_map (fun a => flat_map (fun b => map (fun c => (a, b, c)) (sides hz k)) (sides hy j)) (sides hx i).
(* wrapper.h:100-114: touched by the region, and interior to it *)
Definition touched (f : member) (i j k : Z) : bool := existsb cell_inside (associated f i j k).
Definition interior (f : member) (i j k : Z) : bool := forallb cell_inside (associated f i j k).

(* the six faces of a cell, numbered as the entries of neighbor, grid.h:116-125: towards lower x, y, z, then towards higher *)
Definition face_dir (f : Z) : Z * Z * Z :=
  if f =? 0 then (-1, 0, 0) else if f =? 1 then (0, -1, 0) else if f =? 2 then (0, 0, -1)
  else if f =? 3 then (1, 0, 0) else if f =? 4 then (0, 1, 0) else (0, 0, 1).
Definition beyond (f i j k : Z) : Z * Z * Z := let '(a, b, c) := face_dir f in (i + a, j + b, k + c).

(* cells of the local domain *)
Definition in_domain (nx ny nz i j k : Z) : Prop := 1 <= i <= nx /\ 1 <= j <= ny /\ 1 <= k <= nz.
(* BOUNDARY(i,j,k) of the direction of a face, or 13 for the body of a cell *)
Definition dir_code (d : Z * Z * Z) : Z := let '(a, b, c) := d in 13 + a + 3 * b + 9 * c.
End spec.
