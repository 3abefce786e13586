(* What the claims about the vector particle kernels say, without the model's helpers. *)
From Coq Require Import ZArith List Bool Reals.
From Flocq Require Import IEEE754.BinarySingleNaN.
From Verif Require Import FloatModel ParticleModel VecPartModel.
Import ListNotations.
Open Scope R_scope.

(* 1.0e-37f of move_p.cc:38 *)
Definition tiny : R := / 10 ^ 37.
(* copysign, the shifted denominator, rsqrt and rcp without rounding: x + x absorbs the shift unless x is zero (C67_shift_absorbed is this fact in
   binary32); rsqrt and rcp are only ever applied to numbers of at least one. *)
Definition exact_ops (X : vops R) : Prop :=
  (forall x, 0 < x -> o_sgn X x = 1) /\ (forall x, x < 0 -> o_sgn X x = -1) /\ (o_sgn X 0 = 1 \/ o_sgn X 0 = -1) /\
  (forall x, x <> 0 -> o_den X x = 2 * x) /\ o_den X 0 = o_sgn X 0 * tiny /\
  (forall x, 1 <= x -> o_rsqrt X x = 1 / sqrt x) /\ (forall x, 1 <= x -> o_rcp X x = 1 / x).
(* Every direction in which the particle is to move by zero finds it off the faces of its voxel. *)
Definition off_faces (r dr : vec R) : Prop := forall a, vget dr a <> 0 \/ Rabs (vget r a) <= 1 - tiny.

(* Same end of two runs of move_p: for a mover no longer in use its displacement does not count. *)
Definition same_move (a b : mres (V := R)) : Prop :=
  match a, b with
  | MDone s p d l, MDone s' p' d' l' => s = s' /\ p = p' /\ l = l' /\ (s = true -> d = d')
  | MUB, MUB | MFuel, MFuel => True
  | _, _ => False
  end.

(* the number of words of accumulator_t (12; with 8 or 16 lanes 16) and of hydro_t, sf_interface.h:28-53, 115-123, 185-192 *)
Definition acc_words (k : nat) : nat := match k with 2%nat => 12 | _ => 16 end%nat.
(* an increment within element v of an array of elements of w words *)
Definition inside {V} (w : nat) (x : incr V) : Prop := let '(v, o, l) := x in (o + length l <= w)%nat.

(* ---------- binary32 ---------- *)

(* Within the voxel, moving by at most two, and by at least 2^-99 in the directions in which the position is on a face. *)
Definition f_m99 : b32 := binary_normalize 24 128 prec_gt_0_32 prec_lt_emax_32 mode_NE 1 (-99) false.
Definition calm (r d : b32) : bool :=
  (f_le (Bopp (f_of_Z 1)) r && f_le r (f_of_Z 1) && f_le (Babs d) (f_of_Z 2) &&
   (f_lt (Bopp (f_of_Z 1)) r && f_lt r (f_of_Z 1) || f_le f_m99 (Babs d)))%bool.
Definition calm3 (r d : vec b32) : bool := (calm (vx r) (vx d) && calm (vy r) (vy d) && calm (vz r) (vz d))%bool.
(* calm at the start of every pass of the scalar loop, move_p.cc:233-375 *)
Fixpoint calm_run (fuel : nat) (g : mesh) (r : vec b32) (i : Z) (disp : vec b32) : bool :=
  match fuel with
  | O => true
  | S fuel => (calm3 r disp &&
    let dir := vmap (fun d => if f_lt (f_of_Z 0) d then f_of_Z 1 else Bopp (f_of_Z 1)) disp in
    let '(v3, ax) := pick Fnum (face_dist Fnum dir r disp) in
    let s := vmap (fun d => f_mul d (f_mul v3 (n_half Fnum))) disp in
    let d := vmap2 f_add r (vmap2 f_add s s) in
    let disp := vmap2 f_sub disp s in
    match ax with
    | None => true
    | Some a =>
      match nbr_at g i (if f_lt (f_of_Z 0) (vget dir a) then axis_code a + 3 else axis_code a) with
      | None => true
      | Some n =>
        if (n =? reflect_particles)%Z then calm_run fuel g (vset d a (vget dir a)) i (vset disp a (Bopp (vget disp a)))
        else if ((n <? mrangel g) || (mrangeh g <? n))%Z then true
        else calm_run fuel g (vset d a (Bopp (vget dir a))) (n - mrangel g) disp
      end
    end)%bool
  end.
(* The same particle, voxel, momentum and outcome, streaks in the same voxels, the same remaining displacement if the mover is still in use. *)
Definition same_path (a b : mres (V := b32)) : Prop :=
  match a, b with
  | MDone s p d l, MDone s' p' d' l' => s = s' /\ p = p' /\ map fst l = map fst l' /\ (s = true -> d = d')
  | MUB, MUB | MFuel, MFuel => True
  | _, _ => False
  end.
