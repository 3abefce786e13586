(* The currents of the whole mesh and the charge at its nodes. *)
From Coq Require Import Reals ZArith List Bool.
From Verif Require Import GridModel SortModel ParticleModel ParticleSpec MoverModel FieldModel RemoteModel RemoteSpec DecompSpec ChargeSpec.
Import ListNotations.
Open Scope Z_scope.
Local Notation AT := RemoteModel.at_.
Local Notation axis := RemoteModel.axis.

Section World.
Variable L : layout R.
Variable pos : Z -> cell.
Variable ws : Z.

(* two places of the mesh are the same node, given which axes have their ends joined *)
Definition same_along (a : axis) (g g' : cell) : bool :=
  if l_per L a then (AT a g' - AT a g) mod total L a =? 0 else AT a g' =? AT a g.
(* 1 at node g, 0 at the other nodes *)
Definition at_node (g g' : cell) : R :=
  if same_along RemoteModel.AX g g' && same_along RemoteModel.AY g g' && same_along RemoteModel.AZ g g' then 1%R else 0%R.

(* voxel v is a cell of rank r *)
Definition in_rank (r v : Z) : Prop := exists q, real_cell L (pos r) q /\ v = vox3 (size_at L (pos r)) q.
(* every particle of the species is in a cell of rank r; for those on the mover list the voxel is stored with the face *)
Definition placed (r : Z) (s : spec (V := R)) : Prop :=
  forall i p, nth_error (s_p s) i = Some p -> in_rank r (voxel_of (existsb (Z.eqb (Z.of_nat i)) (map m_i (s_pm s))) (pi p)).

(* The current components that rank r makes of streaks lg: accumulators that start from 0, unloaded into cleared field arrays.  rd: inverse cell sizes. *)
Definition own_current (rd : vec R) (dt : R) (lg : Z -> list (streak R)) (r v : Z) : vec R :=
  unload Rnum (stride_y L pos r) (stride_z L pos r) (unload_coef rd dt) (acc_streaks Rnum (lg r) (fun _ _ => 0%R)) v.
Definition is_current (c : comp) : bool := match c with Jfx | Jfy | Jfz => true | _ => false end.
(* the current along an axis *)
Definition current_along (a : axis) : comp := match a with RemoteModel.AX => Jfx | RemoteModel.AY => Jfy | RemoteModel.AZ => Jfz end.
Definition component (c : comp) (j : vec R) : R := match c with Jfx => vx j | Jfy => vy j | _ => vz j end.
(* the arrays W1 are W with the currents of the streaks *)
Definition unloaded (rd : vec R) (dt : R) (lg : Z -> list (streak R)) (W W1 : Z -> mem R) : Prop :=
  forall r c q, 0 <= r < ws -> holds L c (pos r) q ->
    let v := vox3 (size_at L (pos r)) q in
    W1 r (c, v) = if is_current c then component c (own_current rd dt lg r v) else W r (c, v).
(* backward difference divergence, at node g, of the currents of a field of the whole mesh *)
Definition div_current (rd : vec R) (F : gfield R) (g : cell) : R :=
  (vx rd * (F Jfx g - F Jfx (dn RemoteModel.AX g)) + vy rd * (F Jfy g - F Jfy (dn RemoteModel.AY g)) + vz rd * (F Jfz g - F Jfz (dn RemoteModel.AZ g)))%R.
(* all cells of the box have the sizes 1/rd *)
Definition equal_cells (rd : vec R) : Prop :=
  forall i, ((0 <= i < l_p L RemoteModel.AX)%Z -> l_d L RemoteModel.AX i * vx rd = 1)%R /\ ((0 <= i < l_p L RemoteModel.AY)%Z -> l_d L RemoteModel.AY i * vy rd = 1)%R /\
            ((0 <= i < l_p L RemoteModel.AZ)%Z -> l_d L RemoteModel.AZ i * vz rd = 1)%R.
End World.
