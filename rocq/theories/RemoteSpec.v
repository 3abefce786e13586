(* Boxes of ranks and the copies of a grid location on them, stated without the exchange code. *)
From Coq Require Import ZArith List Bool.
From Verif Require Import GridModel FieldModel RemoteModel.
Import ListNotations.
Open Scope Z_scope.

(* A box of l_p AX x l_p AY x l_p AZ ranks.  Along axis a the ranks in layer i have l_n a i cells of size l_d a i, so sizes may vary from layer to
   layer; l_per a says whether the two ends are joined. *)
Record layout (V : Type) : Type := mk_layout { l_p : axis -> Z; l_per : axis -> bool; l_n : axis -> Z -> Z; l_d : axis -> Z -> V }.
Arguments l_p {V}. Arguments l_per {V}. Arguments l_n {V}. Arguments l_d {V}.

Section Layout.
Context {V : Type}.
Variable L : layout V.
Definition layout_ok : Prop := (forall a, 1 <= l_p L a) /\ (forall a i, 0 <= i < l_p L a -> 1 <= l_n L a i).
Definition inside (p : cell) : Prop := forall a, 0 <= at_ a p < l_p L a.
(* the layer next to layer i in direction s = -1 or 1 *)
Definition beside (a : axis) (i s : Z) : option Z :=
  let j := i + s in
  if (0 <=? j) && (j <? l_p L a) then Some j else if l_per L a then Some (j mod l_p L a) else None.
Definition size_at (p : cell) : cell := (l_n L AX (at_ AX p), l_n L AY (at_ AY p), l_n L AZ (at_ AZ p)).

(* Ranks 0..ws-1 with grids G form the box when the position p has the rank num p: sizes as in the layout, every face joined to the rank
   beside it or else with a boundary condition. *)
Definition box (num : cell -> Z) (ws : Z) (G : Z -> cgrid V) : Prop :=
  (forall p, inside p -> 0 <= num p < ws) /\
  (forall p q, inside p -> inside q -> num p = num q -> p = q) /\
  (forall r, 0 <= r < ws -> exists p, inside p /\ num p = r) /\
  (forall p, inside p -> c_n V (G (num p)) = size_at p) /\
  (forall p a, inside p -> c_d V (G (num p)) a = l_d L a (at_ a p)) /\
  (forall p a s, inside p -> s = -1 \/ s = 1 ->
     match beside a (at_ a p) s with
     | Some j => c_bc V (G (num p)) (port a s) = num (put a j p)
     | None => c_bc V (G (num p)) (port a s) < 0 \/ ws <= c_bc V (G (num p)) (port a s)
     end).

(* Whether the component sits on the planes between cells of the axis: E, J and curl B components on the edges along their own axis, B on faces, charge on nodes. *)
Definition node_on (c : comp) (a : axis) : bool :=
  match c, a with
  | (Ex | Jfx | Tcax), AX | (Ey | Jfy | Tcay), AY | (Ez | Jfz | Tcaz), AZ => false
  | Cbx, (AY | AZ) | Cby, (AX | AZ) | Cbz, (AX | AY) => false
  | DivB, _ => false
  | _, _ => true
  end.
(* the entries of component c that the rank at p holds, ghosts aside *)
Definition holds (c : comp) (p q : cell) : Prop := forall a, 1 <= at_ a q <= l_n L a (at_ a p) + (if node_on c a then 1 else 0).
(* number of cells of the axis before layer i, and altogether *)
Fixpoint before (n : Z -> Z) (i : nat) : Z := match i with O => 0 | S k => before n k + n (Z.of_nat k) end.
Definition place (a : axis) (p q : cell) : Z := before (l_n L a) (Z.to_nat (at_ a p)) + at_ a q.
Definition total (a : axis) : Z := before (l_n L a) (Z.to_nat (l_p L a)).
(* Entry q of the rank at p and entry q' of the rank at p' lie in the same place. *)
Definition same_place (l l' : cell * cell) : Prop :=
  forall a, if l_per L a then (total a | place a (fst l') (snd l') - place a (fst l) (snd l)) else place a (fst l') (snd l') = place a (fst l) (snd l).
(* cs lists the copies of l, once each *)
Definition copies_of (c : comp) (l : cell * cell) (cs : list (cell * cell)) : Prop :=
  NoDup cs /\ forall l', In l' cs <-> inside (fst l') /\ holds c (fst l') (snd l') /\ same_place l l'.

End Layout.

(* Ranks joined face to face: if face (a,s) of rank r leads to rank d, the opposite face of d leads back to r, and the two have the same number of
   cells along the other axes.  A rank may be joined to itself, and two ranks may share several faces. *)
Definition joined {V} (ws : Z) (G : Z -> cgrid V) : Prop :=
  forall r a s, 0 <= r < ws -> s = -1 \/ s = 1 -> 0 <= c_bc V (G r) (port a s) < ws ->
    c_bc V (G (c_bc V (G r) (port a s))) (26 - port a s) = r /\
    (forall b, b <> a -> at_ b (c_n V (G r)) = at_ b (c_n V (G (c_bc V (G r) (port a s))))).

(* The components a ghost exchange takes across the faces of axis a: the tangential magnetic field, the normal electric field, the error of div B.
   All of them sit at the middles of the cells along a. *)
Definition ghost_comp (e : exch) (a : axis) (c : comp) : bool :=
  match e, a, c with
  | GhostTangB, AX, (Cby | Cbz) | GhostTangB, AY, (Cbx | Cbz) | GhostTangB, AZ, (Cbx | Cby) => true
  | GhostNormE, AX, Ex | GhostNormE, AY, Ey | GhostNormE, AZ, Ez => true
  | GhostDivB, _, DivB => true
  | _, _, _ => false
  end.
