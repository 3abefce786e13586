(* The field update on one undivided mesh with walls. *)
From Coq Require Import ZArith List Bool.
From Verif Require Import VoxelModel GridModel FieldModel RemoteModel RemoteSpec DecompSpec LocalModel LocalSpec.
Import ListNotations.
Open Scope Z_scope.

(* The whole mesh: cells along each axis, which axes have their ends joined, and the boundary condition on face t of the others. *)
Record gmesh : Type := mk_gmesh { gm_n : axis -> Z; gm_per : axis -> bool; gm_bc : axis -> Z -> Z }.
(* the place beyond face t of axis a, and of the plane of the face itself *)
Definition past (M : gmesh) (a : axis) (t : Z) : Z := if t =? -1 then 0 else gm_n M a + 1.
Definition rim (M : gmesh) (a : axis) (t : Z) : Z := if t =? -1 then 1 else gm_n M a + 1.
Definition all_faces : list (axis * Z) := [(AX, -1); (AX, 1); (AY, -1); (AY, 1); (AZ, -1); (AZ, 1)].

Section Steps.
Context {V : Type}.
Variable A : arith V.
Variable K : lconst V.
Variable M : gmesh.
(* the field with the values beyond the walls brought up to date *)
Definition g_ghosts (e : exch) (F : gfield V) : gfield V := fun c g =>
  match find (fun d => negb (gm_per M (fst d)) && beyond_comp e (fst d) c && (at_ (fst d) g =? past M (fst d) (snd d))) all_faces with
  | Some (a, t) => wall_value A K e (gm_bc M a t) a t F c g
  | None => F c g
  end.
(* whether c has a value of its own at g, not beyond a wall *)
Definition in_mesh_at (c : comp) (g : cell) : bool :=
  forallb (fun a => gm_per M a || ((1 <=? at_ a g) && (at_ a g <=? gm_n M a + (if node_on c a then 1 else 0)))) [AX; AY; AZ].
Definition g_within (F' F : gfield V) : gfield V := fun c g => if in_mesh_at c g then F' c g else F c g.
(* which members a boundary condition b keeps 0 on a face across axis a, after each sweep: the normal B on a symmetry plane, the tangential E and curl B on a
   conductor, the error of Gauss's law on a conductor and an absorbing wall, the bound charge on a conductor *)
Definition kept_zero (s : sweep V) (a : axis) (c : comp) (b : Z) : bool :=
  match s with
  | AdvanceB _ | CleanB _ => match c, a with Cbx, AX | Cby, AY | Cbz, AZ => b =? -2 | _, _ => false end
  | AdvanceE _ | CleanE _ => match c, a with (Ex | Tcax), (AY | AZ) | (Ey | Tcay), (AX | AZ) | (Ez | Tcaz), (AX | AY) => b =? -1 | _, _ => false end
  | DivEErr _ => match c with DivE => (b =? -1) || (b =? -4) | _ => false end
  | BoundCharge _ => match c with Rhob => b =? -1 | _ => false end
  | DivBErr _ => false
  end.
Definition g_adjust (s : sweep V) (F : gfield V) : gfield V := fun c g =>
  if existsb (fun d => negb (gm_per M (fst d)) && (at_ (fst d) g =? rim M (fst d) (snd d)) && kept_zero s (fst d) c (gm_bc M (fst d) (snd d))) all_faces then lc_zero K else F c g.
Definition ghosts_needed (s : sweep V) : option exch :=
  match s with AdvanceE _ => Some GhostTangB | DivEErr _ | BoundCharge _ => Some GhostNormE | CleanB _ => Some GhostDivB | _ => None end.
(* one sweep, with the walls *)
Definition g_step (gm : gmats V) (F : gfield V) (s : sweep V) : gfield V :=
  let F1 := match ghosts_needed s with Some e => g_ghosts e F | None => F end in
  g_within (g_adjust s (g_sweep A gm F1 s)) F1.
End Steps.

(* The ranks' arrays hold the tangential B of F beyond the walls. *)
Definition holds_walls {V} (L : layout V) (num : cell -> Z) (F : gfield V) (W : Z -> mem V) : Prop :=
  forall p a t c q, inside L p -> t = -1 \/ t = 1 -> beside L a (at_ a p) t = None -> beyond GhostTangB (size_at L p) a t c q ->
  W (num p) (c, vox3 (size_at L p) q) = F c (gplace L p q).
(* The box L is a division of the mesh M, and its walls have the boundary conditions of M. *)
Definition divides {V} (L : layout V) (num : cell -> Z) (G : Z -> cgrid V) (M : gmesh) : Prop :=
  (forall a, total L a = gm_n M a /\ l_per L a = gm_per M a) /\
  (forall p a t, inside L p -> t = -1 \/ t = 1 -> beside L a (at_ a p) t = None -> c_bc V (G (num p)) (port a t) = gm_bc M a t) /\
  (forall a t, gm_per M a = false -> t = -1 \/ t = 1 -> -4 <= gm_bc M a t <= -1).
