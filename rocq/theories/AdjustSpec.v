(* What the walls do to the currents and charges the particles have left on them, stated place by place. *)
From Coq Require Import ZArith List Bool.
From Verif Require Import GridModel FieldModel RemoteModel RemoteSpec.
Import ListNotations.
Open Scope Z_scope.

(* The three quantities adjusted: the current of the particles, their charge, the bound charge. *)
Inductive source : Type := Current | FreeCharge | BoundCh.
(* whether component c at a wall across axis a belongs to it: of the current only the components along the wall *)
Definition belongs (k : source) (c : comp) (a : axis) : bool :=
  match k, c with
  | Current, (Jfx | Jfy | Jfz) => node_on c a
  | FreeCharge, Rhof | BoundCh, Rhob => true
  | _, _ => false
  end.

Section Walls.
Context {V : Type}.
Variable ws : Z.
Variable g : cgrid V.
(* a face of the box that leads to no rank *)
Definition is_wall (d : axis * Z) : bool := let b := c_bc V g (port (fst d) (snd d)) in (b <? 0) || (ws <=? b).
Definition wall_code (d : axis * Z) : Z := c_bc V g (port (fst d) (snd d)).
(* place q of component c is one the rank holds, and lies in the plane of that face *)
Definition held_at (c : comp) (q : cell) : bool :=
  forallb (fun b => (1 <=? at_ b q) && (at_ b q <=? at_ b (c_n V g) + (if node_on c b then 1 else 0))) [AX; AY; AZ].
Definition in_plane_of (d : axis * Z) (q : cell) : bool := at_ (fst d) q =? (if snd d <? 0 then 1 else at_ (fst d) (c_n V g) + 1).
(* the walls through place q of component c that adjust it *)
Definition walls_through (k : source) (c : comp) (q : cell) : list (axis * Z) :=
  filter (fun d => is_wall d && belongs k c (fst d) && held_at c q && in_plane_of d q)
    [(AX, -1); (AX, 1); (AY, -1); (AY, 1); (AZ, -1); (AZ, 1)].
(* conductor: opposite image charges, the value vanishes; other walls: the value is doubled once per wall, bound charge stays *)
Definition wall_value (zero : V) (add : V -> V -> V) (k : source) (ds : list (axis * Z)) (v : V) : V :=
  if existsb (fun d => wall_code d =? -1) ds then zero
  else match k with BoundCh => v | _ => Nat.iter (length ds) (fun v => add v v) v end.
(* the codes of the four kinds of walls *)
Definition walls_known : Prop := forall a s, s = -1 \/ s = 1 -> is_wall (a, s) = true -> -4 <= wall_code (a, s) <= -1.
End Walls.
