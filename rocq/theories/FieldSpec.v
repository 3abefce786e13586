(* What the field sweeps are meant to compute, stated on mesh coordinates without
   reference to the loops, pipelines or pointers of the model. *)
From Coq Require Import ZArith List Bool Reals.
From Verif Require Import VoxelModel FieldModel.
Import ListNotations.
Open Scope Z_scope.

Section Spec.
Variable V : Type.
Variables (nx ny nz : Z).
Notation vox := (voxel nx ny nz).

(* Member c of field f at mesh point x,y,z. *)
Definition at_ (f : floc -> V) (c : comp) (x y z : Z) : V := f (c, vox x y z).

(* Going from memory B to memory r, member c changed to [new] on the box
   1..xh, 1..yh, 1..zh and nowhere else. *)
Definition updated (B r : floc -> V) (c : comp) (xh yh zh : Z) (new : Z -> Z -> Z -> V) : Prop :=
  (forall x y z, 1 <= x <= xh -> 1 <= y <= yh -> 1 <= z <= zh -> r (c, vox x y z) = new x y z) /\
  (forall v, (forall x y z, 1 <= x <= xh -> 1 <= y <= yh -> 1 <= z <= zh -> v <> vox x y z) ->
     r (c, v) = B (c, v)).

(* All members but those listed are the same in both memories. *)
Definition only (cs : list comp) (B r : floc -> V) : Prop :=
  forall c v, ~ In c cs -> r (c, v) = B (c, v).

(* Member c of the x-, y-, z-face, x-, y-, z-edge, node and cell meshes. *)
Definition on_xface B r c := updated B r c (nx + 1) ny nz.
Definition on_yface B r c := updated B r c nx (ny + 1) nz.
Definition on_zface B r c := updated B r c nx ny (nz + 1).
Definition on_xedge B r c := updated B r c nx (ny + 1) (nz + 1).
Definition on_yedge B r c := updated B r c (nx + 1) ny (nz + 1).
Definition on_zedge B r c := updated B r c (nx + 1) (ny + 1) nz.
Definition on_node B r c := updated B r c (nx + 1) (ny + 1) (nz + 1).
Definition on_cell B r c := updated B r c nx ny nz.

Variable A : arith V.
Variable mt : mats V.
Variable k : coefs V.

Local Notation "a +! b" := (a_add A a b) (at level 50, left associativity).
Local Notation "a -! b" := (a_sub A a b) (at level 50, left associativity).
Local Notation "a *! b" := (a_mul A a b) (at level 40, left associativity).

(* Coefficient c of the material that id-array f assigns to point x,y,z. *)
Definition mat {T} (c : mcoef V -> T) (f : mats V -> Z -> Z) (x y z : Z) : T := c (mtab mt (f mt (vox x y z))).

(* Magnetic intensity components. *)
Definition hx F x y z := at_ F Cbx x y z *! mat rmux fmatx x y z.
Definition hy F x y z := at_ F Cby x y z *! mat rmuy fmaty x y z.
Definition hz F x y z := at_ F Cbz x y z *! mat rmuz fmatz x y z.
(* Electric displacement components. *)
Definition dx_ F x y z := mat epsx ematx x y z *! at_ F Ex x y z.
Definition dy_ F x y z := mat epsy ematy x y z *! at_ F Ey x y z.
Definition dz_ F x y z := mat epsz ematz x y z *! at_ F Ez x y z.

(* Discrete curl of h on edges and div of d on nodes, backward differences. *)
Definition curl_h_x F x y z := py k *! (hz F x y z -! hz F x (y-1) z) -! pz k *! (hy F x y z -! hy F x y (z-1)).
Definition curl_h_y F x y z := pz k *! (hx F x y z -! hx F x y (z-1)) -! px k *! (hz F x y z -! hz F (x-1) y z).
Definition curl_h_z F x y z := px k *! (hy F x y z -! hy F (x-1) y z) -! py k *! (hx F x y z -! hx F x (y-1) z).
Definition div_d F x y z :=
  px k *! (dx_ F x y z -! dx_ F (x-1) y z) +! py k *! (dy_ F x y z -! dy_ F x (y-1) z) +!
  pz k *! (dz_ F x y z -! dz_ F x y (z-1)).
(* Discrete curl of E on faces and div of B in cells, forward differences. *)
Definition curl_e_x F x y z :=
  py k *! (at_ F Ez x (y+1) z -! at_ F Ez x y z) -! pz k *! (at_ F Ey x y (z+1) -! at_ F Ey x y z).
Definition curl_e_y F x y z :=
  pz k *! (at_ F Ex x y (z+1) -! at_ F Ex x y z) -! px k *! (at_ F Ez (x+1) y z -! at_ F Ez x y z).
Definition curl_e_z F x y z :=
  px k *! (at_ F Ey (x+1) y z -! at_ F Ey x y z) -! py k *! (at_ F Ex x (y+1) z -! at_ F Ex x y z).
Definition div_b F x y z :=
  px k *! (at_ F Cbx (x+1) y z -! at_ F Cbx x y z) +! py k *! (at_ F Cby x (y+1) z -! at_ F Cby x y z) +!
  pz k *! (at_ F Cbz x y (z+1) -! at_ F Cbz x y z).

(* Faraday: cB <- cB - curl E on all faces. *)
Definition faraday (B r : floc -> V) : Prop :=
  only [Cbx; Cby; Cbz] B r /\
  on_xface B r Cbx (fun x y z => at_ B Cbx x y z -! curl_e_x B x y z) /\
  on_yface B r Cby (fun x y z => at_ B Cby x y z -! curl_e_y B x y z) /\
  on_zface B r Cbz (fun x y z => at_ B Cbz x y z -! curl_e_z B x y z).

(* Ampere: tca <- curl H - damp tca, E <- decay E + drive (tca - cj J) on all edges. *)
Definition new_tca F (tc : comp) curl x y z := curl F x y z -! damp k *! at_ F tc x y z.
Definition new_e F (e tc j : comp) curl (dec drv : mcoef V -> V) (em : mats V -> Z -> Z) x y z :=
  mat dec em x y z *! at_ F e x y z +! mat drv em x y z *! (new_tca F tc curl x y z -! cj k *! at_ F j x y z).
Definition ampere (B r : floc -> V) : Prop :=
  only [Ex; Ey; Ez; Tcax; Tcay; Tcaz] B r /\
  on_xedge B r Tcax (new_tca B Tcax curl_h_x) /\
  on_yedge B r Tcay (new_tca B Tcay curl_h_y) /\
  on_zedge B r Tcaz (new_tca B Tcaz curl_h_z) /\
  on_xedge B r Ex (new_e B Ex Tcax Jfx curl_h_x decayx drivex ematx) /\
  on_yedge B r Ey (new_e B Ey Tcay Jfy curl_h_y decayy drivey ematy) /\
  on_zedge B r Ez (new_e B Ez Tcaz Jfz curl_h_z decayz drivez ematz).

(* tca <- curl H *)
Definition curl_only (B r : floc -> V) : Prop :=
  only [Tcax; Tcay; Tcaz] B r /\
  on_xedge B r Tcax (curl_h_x B) /\ on_yedge B r Tcay (curl_h_y B) /\ on_zedge B r Tcaz (curl_h_z B).

(* div_e_err <- nonconductive (div D - cj (rhof + rhob)) on all nodes *)
Definition gauss_e (B r : floc -> V) : Prop :=
  only [DivE] B r /\
  on_node B r DivE (fun x y z => mat nonconductive nmat x y z *!
    (div_d B x y z -! cj k *! (at_ B Rhof x y z +! at_ B Rhob x y z))).
(* rhob <- nonconductive (div D - rhof) on all nodes *)
Definition bound_charge (B r : floc -> V) : Prop :=
  only [Rhob] B r /\
  on_node B r Rhob (fun x y z => mat nonconductive nmat x y z *! (div_d B x y z -! at_ B Rhof x y z)).
(* div_b_err <- div B in all cells *)
Definition gauss_b (B r : floc -> V) : Prop := only [DivB] B r /\ on_cell B r DivB (div_b B).

(* cB <- cB + p grad div_b_err on all faces *)
Definition marder_b (B r : floc -> V) : Prop :=
  only [Cbx; Cby; Cbz] B r /\
  on_xface B r Cbx (fun x y z => at_ B Cbx x y z +! px k *! (at_ B DivB x y z -! at_ B DivB (x-1) y z)) /\
  on_yface B r Cby (fun x y z => at_ B Cby x y z +! py k *! (at_ B DivB x y z -! at_ B DivB x (y-1) z)) /\
  on_zface B r Cbz (fun x y z => at_ B Cbz x y z +! pz k *! (at_ B DivB x y z -! at_ B DivB x y (z-1))).
(* E <- E + drive p grad div_e_err on all edges *)
Definition marder_e (B r : floc -> V) : Prop :=
  only [Ex; Ey; Ez] B r /\
  on_xedge B r Ex (fun x y z => at_ B Ex x y z +!
    mat drivex ematx x y z *! px k *! (at_ B DivE (x+1) y z -! at_ B DivE x y z)) /\
  on_yedge B r Ey (fun x y z => at_ B Ey x y z +!
    mat drivey ematy x y z *! py k *! (at_ B DivE x (y+1) z -! at_ B DivE x y z)) /\
  on_zedge B r Ez (fun x y z => at_ B Ez x y z +!
    mat drivez ematz x y z *! pz k *! (at_ B DivE x y (z+1) -! at_ B DivE x y z)).
End Spec.

(* Memory m with the ghost values G in place: B agrees with every ghost value and
   with m elsewhere. *)
Definition with_ghosts {V} (G : list (floc * V)) (m B : floc -> V) : Prop :=
  (forall l x, In (l, x) G -> B l = x) /\ (forall l, ~ In l (map fst G) -> B l = m l).

(* Divergence at a node of an edge centred vector (backward differences), for reals. *)
Section Node.
Open Scope R_scope.
Variables (nx ny nz : Z).
Definition div_node (k : coefs R) (F : floc -> R) (cx cy cz : comp) (x y z : Z) : R :=
  px k * (at_ R nx ny nz F cx x y z - at_ R nx ny nz F cx (x-1) y z) +
  py k * (at_ R nx ny nz F cy x y z - at_ R nx ny nz F cy x (y-1) z) +
  pz k * (at_ R nx ny nz F cz x y z - at_ R nx ny nz F cz x y (z-1)).
(* Discrete Laplacian of a cell quantity with coefficients a, b, c. *)
Definition lap (a b c : R) (D : Z -> Z -> Z -> R) (x y z : Z) : R :=
  a * (D (x+1)%Z y z - 2 * D x y z + D (x-1)%Z y z) + b * (D x (y+1)%Z z - 2 * D x y z + D x (y-1)%Z z) +
  c * (D x y (z+1)%Z - 2 * D x y z + D x y (z-1)%Z).
End Node.

(* Eight times the weight of a node in a trapezoidal average over the mesh: halved for
   every mesh face the node lies on. *)
Definition half_if_end (n i : Z) : Z := if (i =? 1) || (i =? n + 1) then 1 else 2.
Definition node_weight (nx ny nz x y z : Z) : Z := half_if_end nx x * half_if_end ny y * half_if_end nz z.
