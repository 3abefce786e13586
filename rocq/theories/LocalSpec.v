(* The field just beyond a wall, stated on mesh positions for any reading of the field: of one rank's array or of the whole mesh. *)
From Coq Require Import ZArith List Bool.
From Verif Require Import FieldModel RemoteModel RemoteSpec DecompSpec LocalModel.
Import ListNotations.
Open Scope Z_scope.

(* The members that have an entry beyond a wall across axis a for each of the routines. *)
Definition beyond_comp (e : exch) (a : axis) (c : comp) : bool :=
  match e with
  | GhostTangB => match c, a with Cbx, (AY | AZ) | Cby, (AX | AZ) | Cbz, (AX | AY) => true | _, _ => false end
  | GhostNormE => match c, a with (Ex | Tcax), AX | (Ey | Tcay), AY | (Ez | Tcaz), AZ => true | _, _ => false end
  | GhostDivB => match c with DivB => true | _ => false end
  | _ => false
  end.
(* q is an entry beyond face t of axis a of a mesh of n cells *)
Definition beyond (e : exch) (n : cell) (a : axis) (t : Z) (c : comp) (q : cell) : Prop :=
  beyond_comp e a c = true /\ at_ a q = (if t =? -1 then 0 else at_ a n + 1) /\
  forall b, b <> a -> 1 <= at_ b q <= at_ b n + (if node_on c b then 1 else 0).

Section Values.
Context {V : Type}.
Variable A : arith V.
Variable K : lconst V.
Local Notation "a +! b" := (a_add A a b) (at level 50, left associativity).
Local Notation "a -! b" := (a_sub A a b) (at level 50, left associativity).
Local Notation "a *! b" := (a_mul A a b) (at level 40, left associativity).
(* c dt times the difference quotient of member c along axis b, from position h to the next *)
Definition rise (R : comp -> cell -> V) (c : comp) (b : axis) (h : cell) : V := lc_cdt K b *! (R c (up b h) -! R c h).
(* the same along the axis of a wall on side t, as minus the falling difference at the upper wall *)
Definition across (R : comp -> cell -> V) (c : comp) (b : axis) (t : Z) (h : cell) : V :=
  if t =? -1 then rise R c b h else lc_neg K (lc_cdt K b *! (R c h -! R c (up b h))).
(* What the member should be at q beyond face t of axis a with boundary condition b; h is the position inside the wall.
   -1 conducting: the mirror value (0 for the derivative at the wall); -2 symmetric and -3 magnetic wall: its negative (0 at the wall);
   -4 absorbing: a one way wave for B, a straight line for E, 0 for the error of div B. *)
Definition wall_value (e : exch) (b : Z) (a : axis) (t : Z) (R : comp -> cell -> V) (c : comp) (q : cell) : V :=
  let h := put a (at_ a q - t) q in
  if b =? -1 then R c h
  else if (b =? -2) || (b =? -3) then lc_neg K (R c h)
  else match e with
  | GhostTangB =>
      let w := lc_decay K a *! R c q +! lc_drive K a *! R c h in
      match a, c with
      | AX, Cby => w -! across R Ez AX t h +! rise R Ex AZ h
      | AX, _ => w +! across R Ey AX t h -! rise R Ex AY h
      | AY, Cbz => w -! across R Ex AY t h +! rise R Ey AX h
      | AY, _ => w +! across R Ez AY t h -! rise R Ey AZ h
      | AZ, Cbx => w -! across R Ey AZ t h +! rise R Ez AY h
      | AZ, _ => w +! across R Ex AZ t h -! rise R Ez AX h
      end
  | GhostNormE => lc_two K *! R c h -! R c (put a (at_ a q - 2 * t) q)
  | _ => lc_zero K
  end.
End Values.
