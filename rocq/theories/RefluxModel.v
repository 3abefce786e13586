(* Model of the refluxing particle boundary condition, /repo/src/boundary/maxwellian_reflux.cc: a particle that
   reaches the wall is replaced by one drawn from a thermal bath behind it.  The arithmetic is the parameter [num]
   of ParticleModel; the three random numbers of a call (one frande, two frandn) are arguments. *)
From Coq Require Import ZArith List Bool Reals.
From Flocq Require Import Core BinarySingleNaN.
Require Import Verif.FloatModel Verif.ParticleModel Verif.MoverModel.
Import ListNotations.
Open Scope Z_scope.

(* maxwellian_reflux_t, lines 46-51: the two arrays; their length is what was allocated.  The pointers sp_list and
   rng are left out. *)
Record bath (V : Type) : Type := mk_bath { ut_para : list V; ut_perp : list V }.
Arguments mk_bath {V}. Arguments ut_para {V}. Arguments ut_perp {V}.

(* What interact reads of the grid: the cell sizes dx, dy, dz and their stored reciprocals rdx, rdy, rdz. *)
Record cells (V : Type) : Type := mk_cells { c_d : vec V; c_rd : vec V }.
Arguments mk_cells {V}. Arguments c_d {V}. Arguments c_rd {V}.

(* perm, lines 79-84: which of u[0], u[1], u[2] becomes ux, uy, uz; rows -x, -y, -z, +x, +y, +z *)
Definition perm_row (face : Z) : option (nat * nat * nat) :=
  match face with
  | 0 => Some (0, 1, 2)%nat | 1 => Some (2, 0, 1)%nat | 2 => Some (1, 2, 0)%nat
  | 3 => Some (0, 1, 2)%nat | 4 => Some (2, 0, 1)%nat | 5 => Some (1, 2, 0)%nat
  | _ => None
  end.

Inductive rout (A : Type) : Type := ROk (a : A) | RErr | RUB.   (* RErr: ERROR; RUB: access outside an array *)
Arguments ROk {A}. Arguments RErr {A}. Arguments RUB {A}.

Definition zget {A} (l : list A) (i : Z) : option A := if i <? 0 then None else nth_error l (Z.to_nat i).

Section Reflux.
Context {V : Type} (K : num V).
Variables (root2 tiny : V).          (* the floats M_SQRT2 (line 54, rounded by the initialiser) and FLT_MIN *)
Local Notation "x + y" := (n_add K x y).
Local Notation "x * y" := (n_mul K x y).
Local Notation "x / y" := (n_div K x y).

(* maxwellian_reflux, lines 211-229, with n species in the list: ERROR without a species, otherwise two
   arrays of n zeros.  MALLOC is taken to succeed. *)
Definition new_bath (n : Z) : rout (bath V) :=
  if n <=? 0 then RErr else ROk (mk_bath (repeat (n_zero K) (Z.to_nat n)) (repeat (n_zero K) (Z.to_nat n))).

(* set_reflux_temp, lines 232-241, for the species with this id *)
Definition set_temp (b : bath V) (id : Z) (para perp : V) : rout (bath V) :=
  if n_lt K para (n_zero K) || n_lt K perp (n_zero K) then RErr else
  match zget (ut_para b) id, zget (ut_perp b) id with
  | Some _, Some _ => ROk (mk_bath (put (ut_para b) (Z.to_nat id) para) (put (ut_perp b) (Z.to_nat id) perp))
  | _, _ => RUB
  end.

(* scale, lines 85-86 *)
Definition scale (face : Z) : V := if face <? 3 then root2 else n_opp K root2.
(* lines 121-126: the new momentum; [e]: frande, [n1], [n2]: the two frandn in the order of the calls *)
Definition bath_u (para perp : V) (face : Z) (e n1 n2 : V) : option (vec V) :=
  match perm_row face with
  | None => None
  | Some (i, j, k) =>
      let u := [(para * scale face) * n_sqrt K e; perp * n1; perp * n2] in
      match nth_error u i, nth_error u j, nth_error u k with
      | Some a, Some b, Some c => Some (mkv a b c)
      | _, _, _ => None
      end
  end.
(* ux*ux + uy*uy + uz*uz, lines 151 and 153 *)
Definition sqr (u : vec V) : V := (vx u * vx u + vy u * vy u) + vz u * vz u.
(* lines 148-153 *)
Definition ratio (c : cells V) (u u' disp : vec V) : V :=
  let d := vmap2 (n_mul K) (c_d c) disp in
  let r := sqr u in
  n_sqrt K (((n_one K + r) * sqr d) / ((n_one K + sqr u') * (tiny + r))).
(* interact_maxwellian_reflux, lines 58-178: the injector written at *pi.  The sp->id is [sp]; p->i has been
   shifted by the caller (boundary_p.cc:264-265). *)
Definition interact (b : bath V) (c : cells V) (sp : Z) (p : part V) (disp : vec V) (face : Z) (e n1 n2 : V)
  : rout (injector (V := V)) :=
  match zget (ut_para b) sp, zget (ut_perp b) sp with
  | Some para, Some perp =>
      match bath_u para perp face e n1 n2 with
      | None => RUB
      | Some u =>
          let r := ratio c (pu p) u disp in
          ROk (mk_inj (mkp (pd p) (pi p) u (pw p)) (vmap2 (n_mul K) (vmap (fun w => w * r) u) (c_rd c)) sp)
      end
  | _, _ => RUB
  end.
End Reflux.

(* The constants: in exact arithmetic and as floats.  1.4142135623730950488... converted to double and then to
   float is 11863283 * 2^-23; FLT_MIN is 2^-126. *)
Definition R_root2 : R := sqrt 2.
Definition R_tiny : R := (/ 2 ^ 126)%R.
Definition f_ldexp (m e : Z) : b32 := binary_normalize 24 128 prec_gt_0_32 prec_lt_emax_32 mode_NE m e false.
Definition F_root2 : b32 := f_ldexp 11863283 (-23).
Definition F_tiny : b32 := f_ldexp 1 (-126).

(* How the arrays come to be used: species are appended, the handler is created, temperatures are set, particles
   hit the wall.  [h_n]: species defined so far (their ids are 0 .. h_n-1, species_advance.cc:104). *)
Inductive hevent (V : Type) : Type := HSpecies | HCreate | HSet (id : Z) (para perp : V) | HHit (id : Z).
Arguments HSpecies {V}. Arguments HCreate {V}. Arguments HSet {V}. Arguments HHit {V}.
Record hstate (V : Type) : Type := mk_hs { h_n : Z; h_bath : option (bath V) }.
Arguments mk_hs {V}. Arguments h_n {V}. Arguments h_bath {V}.
Definition bath_step {V} (K : num V) (s : hstate V) (ev : hevent V) : rout (hstate V) :=
  match ev with
  | HSpecies => ROk (mk_hs (h_n s + 1) (h_bath s))
  | HCreate => match new_bath K (h_n s) with ROk b => ROk (mk_hs (h_n s) (Some b)) | RErr => RErr | RUB => RUB end
  | HSet id para perp =>
      match h_bath s with
      | None => RErr                                            (* pbc is NULL *)
      | Some b => match set_temp K b id para perp with
                  | ROk b => ROk (mk_hs (h_n s) (Some b)) | RErr => RErr | RUB => RUB end
      end
  | HHit id =>                                                  (* lines 69-71 *)
      match h_bath s with
      | None => ROk s                                           (* no wall uses the handler *)
      | Some b => match zget (ut_para b) id, zget (ut_perp b) id with Some _, Some _ => ROk s | _, _ => RUB end
      end
  end.
Fixpoint bath_run {V} (K : num V) (s : hstate V) (l : list (hevent V)) : rout (hstate V) :=
  match l with
  | [] => ROk s
  | ev :: l => match bath_step K s ev with ROk s => bath_run K s l | RErr => RErr | RUB => RUB end
  end.
