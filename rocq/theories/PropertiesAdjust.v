(* C57: what the walls do to the current and charge that the particles have left on them. *)
From Coq Require Import ZArith List Bool Lia.
From Verif Require Import VoxelModel GridModel FieldModel RemoteModel RemoteSpec AdjustSpec AdjustProofs.
Import ListNotations.
Open Scope Z_scope.

(* g: the rank's grid, F: its field array, F': the array after the routine.  Every entry of the mesh, of every component: 0 if one of the walls through it is a conductor,
   else doubled once for each wall through it; components across the wall, other components, entries off the walls and faces joined to a rank are left alone.
   r_add 0 0 = 0 is the only law of arithmetic used, so this holds for floats. *)
Theorem C57_currents : forall V (A : rarith V) ws (g : cgrid V) F F', (forall b, 1 <= at_ b (c_n V g)) -> r_add V A (r_zero V A) (r_zero V A) = r_zero V A ->
  adjust_jf V A ws g F = Some F' -> forall c q, (forall b, 0 <= at_ b q <= at_ b (c_n V g) + 1) ->
  F' (c, vox3 (c_n V g) q) = wall_value g (r_zero V A) (r_add V A) Current (walls_through ws g Current c q) (F (c, vox3 (c_n V g) q)).
Proof. intros V A ws g F F' Pn Z0 E. apply (adjust_spec A ws g Pn Z0 Current F), E. Qed.
Print Assumptions C57_currents.
Theorem C57_charges : forall V (A : rarith V) ws (g : cgrid V) F F', (forall b, 1 <= at_ b (c_n V g)) -> r_add V A (r_zero V A) (r_zero V A) = r_zero V A ->
  adjust_rhof V A ws g F = Some F' -> forall c q, (forall b, 0 <= at_ b q <= at_ b (c_n V g) + 1) ->
  F' (c, vox3 (c_n V g) q) = wall_value g (r_zero V A) (r_add V A) FreeCharge (walls_through ws g FreeCharge c q) (F (c, vox3 (c_n V g) q)).
Proof. intros V A ws g F F' Pn Z0 E. apply (adjust_spec A ws g Pn Z0 FreeCharge F), E. Qed.
Print Assumptions C57_charges.
(* the bound charge: 0 on conductors, otherwise untouched *)
Theorem C57_bound_charges : forall V (A : rarith V) ws (g : cgrid V) F F', (forall b, 1 <= at_ b (c_n V g)) -> r_add V A (r_zero V A) (r_zero V A) = r_zero V A ->
  adjust_rhob V A ws g F = Some F' -> forall c q, (forall b, 0 <= at_ b q <= at_ b (c_n V g) + 1) ->
  F' (c, vox3 (c_n V g) q) = wall_value g (r_zero V A) (r_add V A) BoundCh (walls_through ws g BoundCh c q) (F (c, vox3 (c_n V g) q)).
Proof. intros V A ws g F F' Pn Z0 E. apply (adjust_spec A ws g Pn Z0 BoundCh F), E. Qed.
Print Assumptions C57_bound_charges.
(* The routines do not stop the program exactly when every wall of the rank is of one of the four kinds -4 .. -1. *)
Theorem C57_defined : forall V (A : rarith V) ws (g : cgrid V) F, (forall b, 1 <= at_ b (c_n V g)) -> r_add V A (r_zero V A) (r_zero V A) = r_zero V A ->
  (walls_known ws g <-> exists F', adjust_jf V A ws g F = Some F') /\ (walls_known ws g <-> exists F', adjust_rhof V A ws g F = Some F') /\
  (walls_known ws g <-> exists F', adjust_rhob V A ws g F = Some F').
Proof.
  intros V A ws g F Pn Z0. split; [|split]; [apply (adjust_spec A ws g Pn Z0 Current F)|apply (adjust_spec A ws g Pn Z0 FreeCharge F)|apply (adjust_spec A ws g Pn Z0 BoundCh F)].
Qed.
Print Assumptions C57_defined.

(* One rank of 2 x 3 x 4 cells: conductor below x, symmetric wall above x, absorbing walls at both ends of y, z joined to itself.  Every entry is 5. *)
Definition zA : rarith Z := mk_rarith Z Z.add Z.sub Z.mul Z.div (fun a b => (a + b) / 2) (fun a b => 2 * a / b) 0.
Definition ex_g : cgrid Z := mk_cgrid Z (2, 3, 4) (fun _ => 1) (fun p => if p =? port AX (-1) then -1 else if p =? port AX 1 then -2 else if p =? port AY (-1) then -4 else if p =? port AY 1 then -4 else 0).
Definition look (o : option (mem Z)) (c : comp) (q : cell) : Z := match o with Some F => F (c, vox3 (2, 3, 4) q) | None => -1 end.
Example C57_example : let J := adjust_jf Z zA 1 ex_g (fun _ => 5) in let R := adjust_rhof Z zA 1 ex_g (fun _ => 5) in let B := adjust_rhob Z zA 1 ex_g (fun _ => 5) in
  map (look J Jfy) [(1, 1, 1); (2, 1, 1); (3, 1, 1); (3, 3, 5); (3, 4, 5)] = [0; 5; 10; 10; 5] /\
  map (look J Jfx) [(1, 1, 1); (2, 4, 1); (1, 2, 1); (3, 1, 1)] = [10; 10; 5; 5] /\
  map (look J Jfz) [(1, 1, 1); (3, 4, 1); (3, 2, 4); (3, 2, 5); (2, 2, 1)] = [0; 20; 10; 5; 5] /\
  map (look R Rhof) [(1, 1, 1); (3, 1, 1); (3, 2, 1); (2, 2, 1)] = [0; 20; 10; 5] /\
  map (look B Rhob) [(1, 1, 1); (3, 1, 1); (3, 2, 1); (2, 2, 1)] = [0; 5; 5; 5] /\
  walls_through 1 ex_g Current Jfz (3, 4, 1) = [(AX, 1); (AY, 1)].
Proof. vm_compute. repeat split. Qed.
(* an unknown wall code stops the program *)
Example C57_unknown_wall : adjust_jf Z zA 1 (mk_cgrid Z (2, 3, 4) (fun _ => 1) (fun p => if p =? port AY 1 then -5 else 0)) (fun _ => 5) = None.
Proof. vm_compute. reflexivity. Qed.
