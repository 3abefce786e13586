(* The field energy of the whole mesh, and what the update of the fields should do to it. *)
From Coq Require Import Reals ZArith List Bool.
From Verif Require Import SortModel FieldModel RemoteModel RemoteSpec DecompSpec LocalModel LocalSpec WallSpec ParticleSpec.
Import ListNotations.
Open Scope Z_scope.

Section Mesh.
Variable M : gmesh.
(* The places of component c along axis a, and the part of a cell that each has: one plane for each cell, and on axes whose ends are not joined one more if c lies on the
   planes between cells, the first and the last then have half a cell. *)
Definition stations (c : comp) (a : axis) : list Z := zrange 1 (gm_n M a + (if node_on c a && negb (gm_per M a) then 1 else 0) + 1).
Definition share (c : comp) (a : axis) (i : Z) : R :=
  if node_on c a && negb (gm_per M a) && ((i =? 1) || (i =? gm_n M a + 1)) then (1 / 2)%R else 1%R.
(* the sum of f over the places of c, each with its part of a cell *)
Definition total_over (c : comp) (f : cell -> R) : R :=
  sumR (map (fun x => share c AX x * sumR (map (fun y => share c AY y * sumR (map (fun z => share c AZ z * f (x, y, z)) (stations c AZ))) (stations c AY))) (stations c AX))%R.

Variable gm : gmats R.
(* relative permittivity, relative inverse permeability *)
Definition eps_at (a : axis) (g : cell) : R := match a with AX => gmat R gm epsx g_ematx g | AY => gmat R gm epsy g_ematy g | AZ => gmat R gm epsz g_ematz g end.
Definition rmu_at (a : axis) (g : cell) : R := match a with AX => gmat R gm rmux g_fmatx g | AY => gmat R gm rmuy g_fmaty g | AZ => gmat R gm rmuz g_fmatz g end.
(* twice the energy of one component of E or cB, in units of eps0 times the volume of a cell *)
Definition e_energy (F : gfield R) (a : axis) : R := total_over (e_ a) (fun g => eps_at a g * (F (e_ a) g * F (e_ a) g))%R.
Definition b_energy (F : gfield R) (a : axis) : R := total_over (cb a) (fun g => rmu_at a g * (F (cb a) g * F (cb a) g))%R.
Definition xyz (f : axis -> R) : R := (f AX + f AY + f AZ)%R.
Definition energy (F : gfield R) : R := (xyz (e_energy F) + xyz (b_energy F))%R.

(* c dt/2 curl E on the faces, with k = c dt over the cell size; on symmetry planes (-2), where the normal B is kept 0, it counts as 0 *)
Definition coef (k : coefs R) (a : axis) : R := match a with AX => px k | AY => py k | AZ => pz k end.
Definition pinned (a : axis) (g : cell) : bool :=
  negb (gm_per M a) && (((at_ a g =? 1) && (gm_bc M a (-1) =? -2)) || ((at_ a g =? gm_n M a + 1) && (gm_bc M a 1 =? -2))).
Definition half_turn (k : coefs R) (F : gfield R) (a : axis) (g : cell) : R :=
  let b := next a in let c := next b in
  if pinned a g then 0%R else ((coef k b * (F (e_ c) (up b g) - F (e_ c) g) - coef k c * (F (e_ b) (up c g) - F (e_ b) g)) / 2)%R.
(* The quadratic form the update keeps: the energy of E, and the product of cB half a step earlier, cB + c dt/2 curl E, and half a step later, cB - c dt/2 curl E. *)
Definition kept (k : coefs R) (F : gfield R) : R :=
  (xyz (e_energy F) + xyz (fun a => total_over (cb a) (fun g => rmu_at a g * ((F (cb a) g + half_turn k F a g) * (F (cb a) g - half_turn k F a g)))))%R.
(* the work the electric fields E before and E' after a step do on the currents: the sum of J.(E+E') *)
Definition work (F F' : gfield R) : R := xyz (fun a => total_over (e_ a) (fun g => F (jf a) g * (F (e_ a) g + F' (e_ a) g)))%R.

(* ---- what is asked of the mesh, the materials and the fields ---- *)
Definition mesh_ok : Prop := (forall a, 1 <= gm_n M a) /\ forall a t, gm_per M a = false -> t = -1 \/ t = 1 -> gm_bc M a t = -1 \/ gm_bc M a t = -2 \/ gm_bc M a t = -3.
(* repeats along joined axes *)
Definition mesh_repeats {T} (f : cell -> T) : Prop := forall a g, gm_per M a = true -> f (put a (at_ a g + gm_n M a) g) = f g.
Definition mats_repeat_on : Prop := mesh_repeats (g_ematx gm) /\ mesh_repeats (g_ematy gm) /\ mesh_repeats (g_ematz gm) /\ mesh_repeats (g_nmat gm) /\
  mesh_repeats (g_fmatx gm) /\ mesh_repeats (g_fmaty gm) /\ mesh_repeats (g_fmatz gm).
(* no conductivity: decay 1, drive 1/eps (C49) *)
Definition decay_at (a : axis) (g : cell) : R := match a with AX => gmat R gm decayx g_ematx g | AY => gmat R gm decayy g_ematy g | AZ => gmat R gm decayz g_ematz g end.
Definition drive_at (a : axis) (g : cell) : R := match a with AX => gmat R gm drivex g_ematx g | AY => gmat R gm drivey g_ematy g | AZ => gmat R gm drivez g_ematz g end.
Definition lossless : Prop := forall a g, in_mesh_at M (e_ a) g = true -> decay_at a g = 1%R /\ (drive_at a g * eps_at a g = 1)%R.
(* beyond a symmetry plane (-2) or magnetic wall (-3) the inverse permeability of the tangential B is that inside *)
Definition mirrored : Prop := forall a b t g, a <> b -> gm_per M b = false -> t = -1 \/ t = 1 -> gm_bc M b t <> -1 ->
  at_ b g = past M b t -> rmu_at a g = rmu_at a (put b (at_ b g - t) g).
(* tangential E 0 on conducting walls (-1), normal B 0 on symmetry planes (-2) *)
Definition meets_walls (F : gfield R) : Prop := forall a t, gm_per M a = false -> t = -1 \/ t = 1 ->
  (gm_bc M a t = -1 -> forall b g, b <> a -> in_mesh_at M (e_ b) g = true -> at_ a g = rim M a t -> F (e_ b) g = 0%R) /\
  (gm_bc M a t = -2 -> forall g, in_mesh_at M (cb a) g = true -> at_ a g = rim M a t -> F (cb a) g = 0%R).
(* the two half steps of B are half of the step of E, which has no damping *)
Definition halved (kb ke : coefs R) : Prop := (forall a, coef kb a = coef ke a / 2)%R /\ damp ke = 0%R.
(* n time steps of the fields, each as in /repo/src/vpic/advance.cc:123-137: advance_b with frac 0.5, advance_e, advance_b with frac 0.5 *)
Definition field_steps (kb ke : coefs R) (n : nat) : list (sweep R) := concat (repeat [AdvanceB kb; AdvanceE ke; AdvanceB kb] n).
End Mesh.
