(* The charge densities of the whole mesh: what accumulate_rho_p and accumulate_rhob leave in the arrays of the ranks, to be compared with the charge at the nodes. *)
From Coq Require Import Reals ZArith List Bool.
From Verif Require Import GridModel SortModel ParticleModel ParticleSpec MoverModel FieldModel RemoteModel RemoteSpec DecompSpec ChargeModel ChargeSpec CurrentSpec.
Import ListNotations.
Open Scope Z_scope.
Local Notation AT := RemoteModel.at_.
Local Notation axis := RemoteModel.axis.

Section World.
Variable L : layout R.
Variable pos : Z -> cell.
Variable ws : Z.

(* The inverse of 8 cell volumes, r8V, as partition.cc:68 computes it from the inverse cell sizes. *)
Definition inv_8V (rd : vec R) : R := (vx rd * vy rd * vz rd * (1 / 8))%R.
(* The density rank r makes of its species: clear_rhof, then accumulate_rho_p species by species (advance.cc:144-145, rho_p.cc:22-113). *)
Definition own_rhof (rd : vec R) (r : Z) (ss : list (spec (V := R))) (v : Z) : R :=
  apply_adds Rnum (flat_map (fun s => accumulate_rho_p Rnum (stride_y L pos r) (stride_z L pos r) (s_q s) (inv_8V rd) (s_p s)) ss) (fun _ => 0%R) v.
Definition is_rhof (c : comp) : bool := match c with Rhof => true | _ => false end.
Definition is_rhob (c : comp) : bool := match c with Rhob => true | _ => false end.
(* the arrays W1 are W with rhof made anew from the species *)
Definition accumulated (rd : vec R) (SS : Z -> list (spec (V := R))) (W W1 : Z -> mem R) : Prop :=
  forall r c q, 0 <= r < ws -> holds L c (pos r) q ->
    let v := vox3 (size_at L (pos r)) q in
    W1 r (c, v) = if is_rhof c then own_rhof rd r (SS r) v else W r (c, v).
(* the arrays W1 are W with additions to rhob *)
Definition deposited (adds : Z -> list (Z * R)) (W W1 : Z -> mem R) : Prop :=
  forall r c q, 0 <= r < ws -> holds L c (pos r) q ->
    let v := vox3 (size_at L (pos r)) q in
    W1 r (c, v) = if is_rhob c then apply_adds Rnum (adds r) (fun u => W r (Rhob, u)) v else W r (c, v).

(* Node g lies on a wall of axis a: an end of an axis whose ends are not joined.  Cells have half their volume there. *)
Definition on_wall (a : axis) (g : cell) : bool := negb (l_per L a) && ((AT a g =? 1) || (AT a g =? total L a + 1)).
Definition halves (g : cell) : R :=
  ((if on_wall RemoteModel.AX g then 2 else 1) * (if on_wall RemoteModel.AY g then 2 else 1) * (if on_wall RemoteModel.AZ g then 2 else 1))%R.
End World.
