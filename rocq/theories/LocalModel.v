(* Ghost values at faces without a neighbour.

   /repo/src/field_advance/standard/local.cc:46-215: local_ghost_tang_b, local_ghost_norm_e, local_ghost_div_b.  Values are of an arbitrary type V;
   the constants the routines work out from the grid are given ([lconst]) and worked out over the reals in [ghost_consts].  The loops run point by point
   on the array, each point seeing what the points before it stored. *)
From Coq Require Import ZArith List Bool Reals.
From Verif Require Import SortModel VoxelModel GridModel FieldModel FieldBoundaryModel RemoteModel.
Import ListNotations.
Open Scope Z_scope.

Section Local.
Variable V : Type.
Variable A : arith V.
(* unary minus, the integer 2 and 0 converted to float, cdt_d##X (local.cc:54-56), decay and drive of an absorbing face of axis X (local.cc:83-85) *)
Record lconst : Type := mk_lconst { lc_neg : V -> V; lc_two : V; lc_zero : V; lc_cdt : axis -> V; lc_decay : axis -> V; lc_drive : axis -> V }.
Variable K : lconst.
Variable ws : Z.                                          (* world_size *)
Variable g : cgrid V.
Local Notation "a +! b" := (a_add A a b) (at level 50, left associativity).
Local Notation "a -! b" := (a_sub A a b) (at level 50, left associativity).
Local Notation "a *! b" := (a_mul A a b) (at level 40, left associativity).

(* f(x,y,z).c *)
Definition rd (F : mem V) (c : comp) (q : cell) : V := F (locv (c_n V g) (c, q)).
(* f(x-i,y-j,z-k) for (i,j,k) = t times the unit vector of a is [step a (-t)] *)
Definition step (a : axis) (s : Z) (q : cell) : cell := put a (at_ a q + s) q.
Definition ghost_at (a : axis) (t : Z) : Z := if t <? 0 then 0 else at_ a (c_n V g) + 1.
Definition face_at (a : axis) (t : Z) : Z := if t <? 0 then 1 else at_ a (c_n V g) + 1.

(* One statement: the member stored to and the value, from the array and the loop indices. *)
Definition stmt : Type := comp * (mem V -> cell -> V).
Definition mirror (a : axis) (t : Z) (c : comp) : stmt := (c, fun F q => rd F c (step a (- t) q)).
Definition flipped (a : axis) (t : Z) (c : comp) : stmt := (c, fun F q => lc_neg K (rd F c (step a (- t) q))).
(* local.cc:86-96 and 97-107 *)
Definition absorb_Y (a : axis) (t : Z) : stmt :=
  let Y := next a in let Z_ := next (next a) in
  (cb Y, fun F q =>
    let fg := rd F (cb Y) q in
    let fh := rd F (cb Y) (step a (- t) q) in
    let qf := put a (face_at a t) q in
    let t1 := lc_cdt K a *! (rd F (e_ Z_) (step a (- t) qf) -! rd F (e_ Z_) qf) in
    let t1 := if t <? 0 then t1 else lc_neg K t1 in
    let t2 := rd F (e_ a) (step a (- t) (step Z_ 1 q)) in
    let t2 := lc_cdt K Z_ *! (t2 -! rd F (e_ a) (step a (- t) q)) in
    lc_decay K a *! fg +! lc_drive K a *! fh -! t1 +! t2).
Definition absorb_Z (a : axis) (t : Z) : stmt :=
  let Y := next a in let Z_ := next (next a) in
  (cb Z_, fun F q =>
    let fg := rd F (cb Z_) q in
    let fh := rd F (cb Z_) (step a (- t) q) in
    let qf := put a (face_at a t) q in
    let t1 := lc_cdt K a *! (rd F (e_ Y) (step a (- t) qf) -! rd F (e_ Y) qf) in
    let t1 := if t <? 0 then t1 else lc_neg K t1 in
    let t2 := rd F (e_ a) (step a (- t) (step Y 1 q)) in
    let t2 := lc_cdt K Y *! (t2 -! rd F (e_ a) (step a (- t) q)) in
    lc_decay K a *! fg +! lc_drive K a *! fh +! t1 -! t2).
(* local.cc:157-163 *)
Definition extrapolated (a : axis) (t : Z) (c : comp) : stmt :=
  (c, fun F q => lc_two K *! rd F c (step a (- t) q) -! rd F c (step a (- t * 2) q)).

(* The switch of a face: the loops with the statements of their bodies; None is "Bad boundary condition encountered", and also given for the exchanges
   that have no such routine.  local.cc:67-114, 135-171, 187-207 *)
Definition wall_loops (e : exch) (a : axis) (t b : Z) : option (list (region * list stmt)) :=
  let Y := next a in let Z_ := next (next a) in
  match e, b with
  | GhostTangB, -1 => Some [(ZYedge, [mirror a t (cb Y)]); (YZedge, [mirror a t (cb Z_)])]
  | GhostTangB, (-2 | -3) => Some [(ZYedge, [flipped a t (cb Y)]); (YZedge, [flipped a t (cb Z_)])]
  | GhostTangB, -4 => Some [(ZYedge, [absorb_Y a t]); (YZedge, [absorb_Z a t])]
  | GhostNormE, -1 => Some [(Node, [mirror a t (e_ a); mirror a t (tca a)])]
  | GhostNormE, (-2 | -3) => Some [(Node, [flipped a t (e_ a); flipped a t (tca a)])]
  | GhostNormE, -4 => Some [(Node, [extrapolated a t (e_ a); extrapolated a t (tca a)])]
  | GhostDivB, -1 => Some [(Face, [mirror a t DivB])]
  | GhostDivB, (-2 | -3) => Some [(Face, [flipped a t DivB])]
  | GhostDivB, -4 => Some [(Face, [(DivB, fun _ _ => lc_zero K)])]
  | _, _ => None
  end.
Definition do_stmt (q : cell) (F : mem V) (s : stmt) : mem V := fun k => if floc_eqb k (locv (c_n V g) (fst s, q)) then snd s F q else F k.
Definition do_loop (a : axis) (t : Z) (F : mem V) (it : region * list stmt) : mem V :=
  fold_left (fun F q => fold_left (do_stmt q) (snd it) F) (plane (c_n V g) a (fst it) (ghost_at a t)) F.
Definition local_face (e : exch) (d : axis * Z) (F : mem V) : option (mem V) :=
  let (a, t) := d in
  let b := c_bc V g (port a t) in
  if (b <? 0) || (ws <=? b) then
    match wall_loops e a t b with None => None | Some its => Some (fold_left (do_loop a t) its F) end
  else Some F.
Fixpoint local_faces (e : exch) (ds : list (axis * Z)) (F : mem V) : option (mem V) :=
  match ds with [] => Some F | d :: ds => match local_face e d F with Some F' => local_faces e ds F' | None => None end end.
(* the order of the faces: local.cc:116-121, 173-178, 209-214 *)
Definition local_ghost (e : exch) : mem V -> option (mem V) := local_faces e six.
End Local.
Arguments lc_neg {V}. Arguments lc_two {V}. Arguments lc_zero {V}. Arguments lc_cdt {V}. Arguments lc_decay {V}. Arguments lc_drive {V}.

(* The constants, local.cc:54-65 and 83-85, in exact arithmetic. *)
Open Scope R_scope.
Definition higend (r : rgrid) : R := if (1 <? gnx r)%Z || (1 <? gny r)%Z || (1 <? gnz r)%Z then 1.03527618 else 1.
Definition cdt_d (r : rgrid) (a : axis) : R := cvac r * dt r * (match a with AX => rdx r | AY => rdy r | AZ => rdz r end).
Definition ghost_consts (r : rgrid) : lconst R :=
  mk_lconst R Ropp 2 0 (cdt_d r)
    (fun a => let drive := cdt_d r a * higend r in (1 - drive) / (1 + drive))
    (fun a => let drive := cdt_d r a * higend r in 2 * drive / (1 + drive)).
