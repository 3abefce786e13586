(* The field update on one undivided mesh, without ranks, arrays or ghosts, and what it means for the field arrays of the ranks of a box to hold
   such a field. *)
From Coq Require Import ZArith List Bool.
From Verif Require Import VoxelModel GridModel FieldModel RemoteModel RemoteSpec.
Import ListNotations.
Open Scope Z_scope.

(* Members of the field at the places of the whole mesh, counted from 1 in each direction (place 0 and the one after the last: beyond a wall). *)
Definition gfield (V : Type) : Type := comp -> cell -> V.
(* material ids of the whole mesh, and their table *)
Record gmats (V : Type) : Type := mk_gmats { g_ematx : cell -> Z; g_ematy : cell -> Z; g_ematz : cell -> Z; g_nmat : cell -> Z;
  g_fmatx : cell -> Z; g_fmaty : cell -> Z; g_fmatz : cell -> Z; g_mtab : Z -> mcoef V }.
Arguments g_ematx {V}. Arguments g_ematy {V}. Arguments g_ematz {V}. Arguments g_nmat {V}.
Arguments g_fmatx {V}. Arguments g_fmaty {V}. Arguments g_fmatz {V}. Arguments g_mtab {V}.

(* one place further or back along an axis *)
Definition up (a : axis) (g : cell) : cell := put a (at_ a g + 1) g.
Definition dn (a : axis) (g : cell) : cell := put a (at_ a g - 1) g.

Section Global.
Variable V : Type.
Variable A : arith V.
Variable gm : gmats V.
Variable k : coefs V.
Local Notation "a +! b" := (a_add A a b) (at level 50, left associativity).
Local Notation "a -! b" := (a_sub A a b) (at level 50, left associativity).
Local Notation "a *! b" := (a_mul A a b) (at level 40, left associativity).
Definition gmat (c : mcoef V -> V) (f : gmats V -> cell -> Z) (g : cell) : V := c (g_mtab gm (f gm g)).

Section F.
Variable F : gfield V.
Definition g_hx g := F Cbx g *! gmat rmux g_fmatx g.
Definition g_hy g := F Cby g *! gmat rmuy g_fmaty g.
Definition g_hz g := F Cbz g *! gmat rmuz g_fmatz g.
Definition g_dx g := gmat epsx g_ematx g *! F Ex g.
Definition g_dy g := gmat epsy g_ematy g *! F Ey g.
Definition g_dz g := gmat epsz g_ematz g *! F Ez g.
Definition g_curl_x g := py k *! (g_hz g -! g_hz (dn AY g)) -! pz k *! (g_hy g -! g_hy (dn AZ g)).
Definition g_curl_y g := pz k *! (g_hx g -! g_hx (dn AZ g)) -! px k *! (g_hz g -! g_hz (dn AX g)).
Definition g_curl_z g := px k *! (g_hy g -! g_hy (dn AX g)) -! py k *! (g_hx g -! g_hx (dn AY g)).
Definition g_div_d g := px k *! (g_dx g -! g_dx (dn AX g)) +! py k *! (g_dy g -! g_dy (dn AY g)) +! pz k *! (g_dz g -! g_dz (dn AZ g)).
Definition g_div_b g := px k *! (F Cbx (up AX g) -! F Cbx g) +! py k *! (F Cby (up AY g) -! F Cby g) +! pz k *! (F Cbz (up AZ g) -! F Cbz g).
Definition g_tca (t : comp) (curl : cell -> V) g := curl g -! damp k *! F t g.
Definition g_e (e t j : comp) (curl : cell -> V) (dec drv : mcoef V -> V) (em : gmats V -> cell -> Z) g :=
  gmat dec em g *! F e g +! gmat drv em g *! (g_tca t curl g -! cj k *! F j g).

(* E <- decay E + drive (curl H - damp tca - cj J), tca <- curl H - damp tca *)
Definition g_advance_e : gfield V := fun c g =>
  match c with
  | Tcax => g_tca Tcax g_curl_x g | Tcay => g_tca Tcay g_curl_y g | Tcaz => g_tca Tcaz g_curl_z g
  | Ex => g_e Ex Tcax Jfx g_curl_x decayx drivex g_ematx g
  | Ey => g_e Ey Tcay Jfy g_curl_y decayy drivey g_ematy g
  | Ez => g_e Ez Tcaz Jfz g_curl_z decayz drivez g_ematz g
  | _ => F c g
  end.
(* cB <- cB - curl E *)
Definition g_advance_b : gfield V := fun c g =>
  match c with
  | Cbx => F Cbx g -! (py k *! (F Ez (up AY g) -! F Ez g) -! pz k *! (F Ey (up AZ g) -! F Ey g))
  | Cby => F Cby g -! (pz k *! (F Ex (up AZ g) -! F Ex g) -! px k *! (F Ez (up AX g) -! F Ez g))
  | Cbz => F Cbz g -! (px k *! (F Ey (up AX g) -! F Ey g) -! py k *! (F Ex (up AY g) -! F Ex g))
  | _ => F c g
  end.
(* the errors of Gauss's law and of div B = 0, the bound charge, and the two cleaning passes *)
Definition g_div_e_err : gfield V := fun c g =>
  match c with DivE => gmat nonconductive g_nmat g *! (g_div_d g -! cj k *! (F Rhof g +! F Rhob g)) | _ => F c g end.
Definition g_rhob : gfield V := fun c g =>
  match c with Rhob => gmat nonconductive g_nmat g *! (g_div_d g -! F Rhof g) | _ => F c g end.
Definition g_div_b_err : gfield V := fun c g => match c with DivB => g_div_b g | _ => F c g end.
Definition g_clean_b : gfield V := fun c g =>
  match c with
  | Cbx => F Cbx g +! px k *! (F DivB g -! F DivB (dn AX g))
  | Cby => F Cby g +! py k *! (F DivB g -! F DivB (dn AY g))
  | Cbz => F Cbz g +! pz k *! (F DivB g -! F DivB (dn AZ g))
  | _ => F c g
  end.
Definition g_clean_e : gfield V := fun c g =>
  match c with
  | Ex => F Ex g +! gmat drivex g_ematx g *! px k *! (F DivE (up AX g) -! F DivE g)
  | Ey => F Ey g +! gmat drivey g_ematy g *! py k *! (F DivE (up AY g) -! F DivE g)
  | Ez => F Ez g +! gmat drivez g_ematz g *! pz k *! (F DivE (up AZ g) -! F DivE g)
  | _ => F c g
  end.
End F.
End Global.

Section Held.
Context {V : Type}.
Variable L : layout V.
(* the place of entry q of the rank at p *)
Definition gplace (p q : cell) : cell := (place L AX p q, place L AY p q, place L AZ p q).
(* a function of the place that repeats along the axes whose ends are joined *)
Definition repeats {T} (f : cell -> T) : Prop := forall a g, l_per L a = true -> f (put a (at_ a g + total L a) g) = f g.
(* the ranks' arrays hold the field F; p' rank numbers are num p' *)
Definition holds_field (num : cell -> Z) (F : gfield V) (W : Z -> mem V) : Prop :=
  forall c p q, inside L p -> holds L c p q -> W (num p) (c, vox3 (size_at L p) q) = F c (gplace p q).
Definition field_repeats (F : gfield V) : Prop := forall c, repeats (F c).
(* the material ids of the rank at p are those of the whole mesh, ghosts included *)
Definition same_mats (gm : gmats V) (p : cell) (mt : mats V) : Prop :=
  (forall i, mtab mt i = g_mtab gm i) /\
  forall q, (forall a, 0 <= at_ a q <= l_n L a (at_ a p) + 1) ->
    let v := vox3 (size_at L p) q in let g := gplace p q in
    ematx mt v = g_ematx gm g /\ ematy mt v = g_ematy gm g /\ ematz mt v = g_ematz gm g /\ nmat mt v = g_nmat gm g /\
    fmatx mt v = g_fmatx gm g /\ fmaty mt v = g_fmaty gm g /\ fmatz mt v = g_fmatz gm g.
Definition mats_repeat (gm : gmats V) : Prop :=
  repeats (g_ematx gm) /\ repeats (g_ematy gm) /\ repeats (g_ematz gm) /\ repeats (g_nmat gm) /\ repeats (g_fmatx gm) /\ repeats (g_fmaty gm) /\ repeats (g_fmatz gm).
(* Entry q of component c on the rank at p is the ghost entry that exchange e fills across face t of axis a: one plane outside the cells of the
   rank, within the entries the rank holds along the other axes. *)
Definition ghost_entry (e : exch) (p : cell) (a : axis) (t : Z) (c : comp) (q : cell) : Prop :=
  ghost_comp e a c = true /\ at_ a q = (if t =? -1 then 0 else l_n L a (at_ a p) + 1) /\
  forall b, b <> a -> 1 <= at_ b q <= l_n L b (at_ b p) + (if node_on c b then 1 else 0).
(* The ghost values that the rank at p puts in place are those exchange e of the arrays W leaves in W1, and at walls those of F. *)
Definition ghosts_from (num : cell -> Z) (F : gfield V) (e : exch) (W1 : Z -> mem V) (p : cell) (Gh : list (floc * V)) : Prop :=
  forall a t c q, t = -1 \/ t = 1 -> ghost_entry e p a t c q ->
    match beside L a (at_ a p) t with
    | Some _ => In ((c, vox3 (size_at L p) q), W1 (num p) (c, vox3 (size_at L p) q)) Gh
    | None => In ((c, vox3 (size_at L p) q), F c (gplace p q)) Gh
    end.
End Held.

(* The sweeps of the field solver, each with the constants px, py, pz, cj, damp it uses, on the undivided mesh. *)
Inductive sweep (V : Type) : Type :=
| AdvanceB (k : coefs V) | AdvanceE (k : coefs V) | DivEErr (k : coefs V) | BoundCharge (k : coefs V) | DivBErr (k : coefs V) | CleanB (k : coefs V) | CleanE (k : coefs V).
Arguments AdvanceB {V}. Arguments AdvanceE {V}. Arguments DivEErr {V}. Arguments BoundCharge {V}. Arguments DivBErr {V}. Arguments CleanB {V}. Arguments CleanE {V}.
Definition g_sweep {V} (A : arith V) (gm : gmats V) (F : gfield V) (s : sweep V) : gfield V :=
  match s with
  | AdvanceB k => g_advance_b V A k F | AdvanceE k => g_advance_e V A gm k F | DivEErr k => g_div_e_err V A gm k F | BoundCharge k => g_rhob V A gm k F
  | DivBErr k => g_div_b_err V A k F | CleanB k => g_clean_b V A k F | CleanE k => g_clean_e V A gm k F
  end.
