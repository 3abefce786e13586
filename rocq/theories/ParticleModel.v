(* Model of the particle kernels: move_p, the scalar advance_p / center_p / uncenter_p /
   energy_p pipelines and the charge deposition.  The arithmetic is a parameter ([num]), so the
   same text of the model is instantiated with the real numbers (for the conservation laws, which
   are statements about exact arithmetic), with the rationals (to run examples) and with IEEE
   binary32 (to run the code's own arithmetic). *)
Require Import ZArith List Bool Reals QArith.
From Flocq Require Import IEEE754.BinarySingleNaN.
Require Import Verif.FloatModel Verif.VoxelModel Verif.DistributeModel.
Import ListNotations.
Open Scope Z_scope.

(* The C float operations used by the particle kernels.  [n_big] is the literal 3.4e38f of
   move_p.cc:249-251, [n_third] and [n_215] the floats 1.0/3.0 and 2.0/15.0 of
   advance_p_pipeline.cc:41-42, and [n_mul3] the product of a float with the DOUBLE 1.0/3.0 that is
   then rounded to float (move_p.cc:277).  sqrtf is [n_sqrt]. *)
Record num (V : Type) : Type := mk_num {
  n_zero : V; n_one : V; n_two : V; n_half : V; n_big : V; n_third : V; n_215 : V;
  n_add : V -> V -> V; n_sub : V -> V -> V; n_mul : V -> V -> V; n_div : V -> V -> V;
  n_opp : V -> V; n_sqrt : V -> V; n_mul3 : V -> V;
  n_lt : V -> V -> bool; n_le : V -> V -> bool; n_eq : V -> V -> bool }.
Arguments n_zero {V}. Arguments n_one {V}. Arguments n_two {V}. Arguments n_half {V}.
Arguments n_big {V}. Arguments n_third {V}. Arguments n_215 {V}.
Arguments n_add {V}. Arguments n_sub {V}. Arguments n_mul {V}. Arguments n_div {V}.
Arguments n_opp {V}. Arguments n_sqrt {V}. Arguments n_mul3 {V}.
Arguments n_lt {V}. Arguments n_le {V}. Arguments n_eq {V}.

(* Exact arithmetic. *)
Definition Rltb (x y : R) : bool := if Rlt_dec x y then true else false.
Definition Rleb' (x y : R) : bool := if Rle_dec x y then true else false.
Definition Reqb' (x y : R) : bool := if Req_EM_T x y then true else false.
Definition Rnum : num R :=
  mk_num R 0%R 1%R 2%R (/ 2)%R (34 * 10 ^ 37)%R (1 / 3)%R (2 / 15)%R
         Rplus Rminus Rmult Rdiv Ropp sqrt (fun x => (x * (1 / 3))%R) Rltb Rleb' Reqb'.

(* The same over the rationals, in lowest terms, without a square root (move_p uses none). *)
Definition Qnum : num Q :=
  mk_num Q 0%Q 1%Q 2%Q (1 # 2)%Q (inject_Z (34 * 10 ^ 37)) (1 # 3)%Q (2 # 15)%Q
         (fun x y => Qred (x + y)%Q) (fun x y => Qred (x - y)%Q) (fun x y => Qred (x * y)%Q)
         (fun x y => Qred (x / y)%Q) (fun x => Qred (- x)%Q) (fun x => x)
         (fun x => Qred (x * (1 # 3))%Q)
         (fun x y => match Qcompare x y with Lt => true | _ => false end)
         Qle_bool Qeq_bool.

(* IEEE binary32, round to nearest even; sqrtf correctly rounded; comparisons false on NaN. *)
Definition f_lt (x y : b32) : bool := match Bcompare x y with Some Lt => true | _ => false end.
Definition f_le (x y : b32) : bool :=
  match Bcompare x y with Some Lt => true | Some Eq => true | _ => false end.
Definition f_eq (x y : b32) : bool := match Bcompare x y with Some Eq => true | _ => false end.
Definition f_sqrt (x : b32) : b32 :=
  Bsqrt (prec_gt_0_ := prec_gt_0_32) (prec_lt_emax_ := prec_lt_emax_32) mode_NE x.
Definition f2d (x : b32) : b64 := match x with
  | B754_zero s => B754_zero s | B754_infinity s => B754_infinity s | B754_nan => B754_nan
  | B754_finite s m e _ => binary_normalize 53 1024 prec_gt_0_64 prec_lt_emax_64 mode_NE
                             (if s then Z.neg m else Z.pos m) e s end.
Definition d2f (x : b64) : b32 := match x with
  | B754_zero s => B754_zero s | B754_infinity s => B754_infinity s | B754_nan => B754_nan
  | B754_finite s m e _ => binary_normalize 24 128 prec_gt_0_32 prec_lt_emax_32 mode_NE
                             (if s then Z.neg m else Z.pos m) e s end.
Definition d_third : b64 := d_div (d_of_Z 1) (d_of_Z 3).
Definition Fnum : num b32 :=
  mk_num b32 (f_of_Z 0) (f_of_Z 1) (f_of_Z 2) (f_div (f_of_Z 1) (f_of_Z 2))
         (f_of_Z (34 * 10 ^ 37)) (d2f d_third) (d2f (d_div (d_of_Z 2) (d_of_Z 15)))
         f_add f_sub f_mul f_div Bopp f_sqrt (fun x => d2f (d_mul (f2d x) d_third))
         f_lt f_le f_eq.

(* The three components selected by ( &( p->dx ) )[axis]. *)
Inductive axis : Set := AX | AY | AZ.
Definition axis_code (a : axis) : Z := match a with AX => 0 | AY => 1 | AZ => 2 end.

Record vec (V : Type) : Type := mkv { vx : V; vy : V; vz : V }.
Arguments mkv {V}. Arguments vx {V}. Arguments vy {V}. Arguments vz {V}.
Definition vget {V} (v : vec V) (a : axis) : V := match a with AX => vx v | AY => vy v | AZ => vz v end.
Definition vset {V} (v : vec V) (a : axis) (t : V) : vec V :=
  match a with AX => mkv t (vy v) (vz v) | AY => mkv (vx v) t (vz v) | AZ => mkv (vx v) (vy v) t end.
Definition vmap {V W} (f : V -> W) (v : vec V) : vec W := mkv (f (vx v)) (f (vy v)) (f (vz v)).
Definition vmap2 {U V W} (f : U -> V -> W) (u : vec U) (v : vec V) : vec W :=
  mkv (f (vx u) (vx v)) (f (vy u) (vy v)) (f (vz u) (vz v)).

(* particle_t, species_advance_aos.h:21-32, without the two optional debugging fields; the
   particle's index in the array is left out. *)
Record part (V : Type) : Type := mkp { pd : vec V; pi : Z; pu : vec V; pw : V }.
Arguments mkp {V}. Arguments pd {V}. Arguments pi {V}. Arguments pu {V}. Arguments pw {V}.

(* What move_p reads from the grid: the neighbour table (grid.h:116-121) as the list of its 6*nv
   entries, and this rank's range of global voxel numbers. *)
Record mesh : Type := mk_mesh { mnbr : list Z; mrangel : Z; mrangeh : Z }.
Definition reflect_particles : Z := -1.       (* grid.h:29 *)

Definition int_ok (n : Z) : bool := (-2147483648 <=? n) && (n <=? 2147483647).

Definition nbr_at (g : mesh) (i face : Z) : option Z :=
  if (0 <=? 6 * i + face) then nth_error (mnbr g) (Z.to_nat (6 * i + face)) else None.

(* One accumulated streak: the voxel whose accumulator is updated and the twelve numbers added to
   jx[0..3], jy[0..3], jz[0..3] (accumulator_t, sf_interface.h:115-119). *)
Definition streak (V : Type) : Type := (Z * list V)%type.

Section Kernels.
Context {V : Type} (K : num V).
Local Notation "x + y" := (n_add K x y).
Local Notation "x - y" := (n_sub K x y).
Local Notation "x * y" := (n_mul K x y).
Local Notation "x / y" := (n_div K x y).
Local Notation one := (n_one K).

(* accumulate_j(X,Y,Z), move_p.cc:281-299, and the identical ACCUMULATE_J of
   advance_p_pipeline.cc:186-204: the four numbers added, in the order a[0]..a[3]; the operations
   are those of the code, in the code's order. *)
Definition accumulate_j (q v5 sx my mz : V) : list V :=
  let v4 := q * sx in
  let v1 := v4 * my in
  let v0 := v4 - v1 in
  let v1 := v1 + v4 in
  let v4 := one + mz in
  let v2 := v0 * v4 in
  let v3 := v1 * v4 in
  let v4 := one - mz in
  let v0 := v0 * v4 in
  let v1 := v1 * v4 in
  [v0 + v5; v1 - v5; v2 - v5; v3 + v5].

(* The three invocations, move_p.cc:301-303 / advance_p_pipeline.cc:206-208. *)
Definition accumulate_streak (q v5 : V) (mid s : vec V) : list V :=
  accumulate_j q v5 (vx s) (vy mid) (vz mid) ++
  accumulate_j q v5 (vy s) (vz mid) (vx mid) ++
  accumulate_j q v5 (vz s) (vx mid) (vy mid).

(* s_dir, move_p.cc:243-245. *)
Definition s_dir (disp : vec V) : vec V :=
  vmap (fun d => if n_lt K (n_zero K) d then one else n_opp K one) disp.

(* v0,v1,v2, move_p.cc:249-251. *)
Definition face_dist (dir mid disp : vec V) (a : axis) : V :=
  if n_eq K (vget disp a) (n_zero K) then n_big K
  else (vget dir a - vget mid a) / vget disp a.

(* v3 and axis, move_p.cc:259-262; None is axis==3. *)
Definition pick (v : axis -> V) : V * option axis :=
  let c := (n_two K, @None axis) in
  let c := if n_lt K (v AX) (fst c) then (v AX, Some AX) else c in
  let c := if n_lt K (v AY) (fst c) then (v AY, Some AY) else c in
  if n_lt K (v AZ) (fst c) then (v AZ, Some AZ) else c.

(* How move_p ends: [MDone status p disp log] - status true is "return 1, mover still in use" -
   with the particle, the remaining displacement and the streaks accumulated (oldest first);
   [MUB]: an access outside the neighbour table or an int overflow; [MFuel]: the loop did not
   finish within the given number of passes. *)
Inductive mres : Type :=
| MDone (inuse : bool) (p : part V) (disp : vec V) (log : list (streak V))
| MUB
| MFuel.

(* The for(;;) of move_p, move_p.cc:233-375 (scalar branch).  Simplifications: the accumulator
   array is represented by the list of the additions made to it; a streak is added to the voxel
   p->i without a bounds check (the theorem shows p->i stays a real voxel). *)
Fixpoint move_loop (fuel : nat) (g : mesh) (q : V) (p : part V) (disp : vec V)
         (log : list (streak V)) : mres :=
  match fuel with
  | O => MFuel
  | S fuel =>
    let dir := s_dir disp in
    let '(v3, ax) := pick (face_dist dir (pd p) disp) in
    let v3 := v3 * n_half K in
    let s := vmap (fun d => d * v3) disp in
    let mid := vmap2 (n_add K) (pd p) s in
    let v5 := n_mul3 K (((q * vx s) * vy s) * vz s) in
    let log := log ++ [(pi p, accumulate_streak q v5 mid s)] in
    let disp := vmap2 (n_sub K) disp s in
    let d := vmap2 (n_add K) (pd p) (vmap2 (n_add K) s s) in
    match ax with
    | None => MDone false (mkp d (pi p) (pu p) (pw p)) disp log
    | Some a =>
      let v0 := vget dir a in
      let d := vset d a v0 in
      let face := if n_lt K (n_zero K) v0 then Z.add (axis_code a) 3 else axis_code a in
      if negb (int_ok (Z.mul 6 (pi p))) then MUB else
      match nbr_at g (pi p) face with
      | None => MUB
      | Some n =>
        if n =? reflect_particles then
          move_loop fuel g q (mkp d (pi p) (vset (pu p) a (n_opp K (vget (pu p) a))) (pw p))
                    (vset disp a (n_opp K (vget disp a))) log
        else if (n <? mrangel g) || (mrangeh g <? n) then
          if negb (int_ok (Z.mul 8 (pi p))) || negb (int_ok (Z.add (Z.mul 8 (pi p)) face)) then MUB
          else MDone true (mkp d (Z.add (Z.mul 8 (pi p)) face) (pu p) (pw p)) disp log
        else move_loop fuel g q (mkp (vset d a (n_opp K v0)) (Z.sub n (mrangel g)) (pu p) (pw p)) disp log
      end
    end
  end.

(* move_p, move_p.cc:216-378; the species charge is qsp. *)
Definition move_p (fuel : nat) (g : mesh) (qsp : V) (p : part V) (disp : vec V) : mres :=
  move_loop fuel g (qsp * pw p) p disp [].

(* interpolator_t, sf_interface.h:62-69 (the fields used by the scalar kernels). *)
Record interp : Type := mk_interp {
  i_ex : V; i_dexdy : V; i_dexdz : V; i_d2exdydz : V;
  i_ey : V; i_deydz : V; i_deydx : V; i_d2eydzdx : V;
  i_ez : V; i_dezdx : V; i_dezdy : V; i_d2ezdxdy : V;
  i_cbx : V; i_dcbxdx : V; i_cby : V; i_dcbydy : V; i_cbz : V; i_dcbzdz : V }.

(* hax, hay, haz and cbx, cby, cbz: advance_p_pipeline.cc:98-109, center_p_pipeline.cc:57-68,
   uncenter_p_pipeline.cc:57-68 (same expressions). *)
Definition half_e (qdt_2mc : V) (f : interp) (d : vec V) : vec V :=
  mkv (qdt_2mc * ((i_ex f + vy d * i_dexdy f) + vz d * (i_dexdz f + vy d * i_d2exdydz f)))
      (qdt_2mc * ((i_ey f + vz d * i_deydz f) + vx d * (i_deydx f + vz d * i_d2eydzdx f)))
      (qdt_2mc * ((i_ez f + vx d * i_dezdx f) + vy d * (i_dezdy f + vx d * i_d2ezdxdy f))).
Definition mag_b (f : interp) (d : vec V) : vec V :=
  mkv (i_cbx f + vx d * i_dcbxdx f) (i_cby f + vy d * i_dcbydy f) (i_cbz f + vz d * i_dcbzdz f).

Definition vadd : vec V -> vec V -> vec V := vmap2 (n_add K).
Definition norm2 (u : vec V) : V := vx u * vx u + (vy u * vy u + vz u * vz u).

(* The Boris rotation, advance_p_pipeline.cc:120-135, center_p_pipeline.cc:78-92,
   uncenter_p_pipeline.cc:74-88; [c] is the coefficient in front of the field (qdt_2mc in the
   advance, qdt_4mc in the two half rotations). *)
Definition boris (c : V) (cb u : vec V) : vec V :=
  let v0 := c / n_sqrt K (one + norm2 u) in
  let v1 := norm2 cb in
  let v2 := (v0 * v0) * v1 in
  let v3 := v0 * (one + v2 * (n_third K + v2 * n_215 K)) in
  let v4 := v3 / (one + v1 * (v3 * v3)) in
  let v4 := v4 + v4 in
  let w0 := vx u + v3 * (vy u * vz cb - vz u * vy cb) in
  let w1 := vy u + v3 * (vz u * vx cb - vx u * vz cb) in
  let w2 := vz u + v3 * (vx u * vy cb - vy u * vx cb) in
  mkv (vx u + v4 * (w1 * vz cb - w2 * vy cb))
      (vy u + v4 * (w2 * vx cb - w0 * vz cb))
      (vz u + v4 * (w0 * vy cb - w1 * vx cb)).

(* The momentum update of advance_p_pipeline.cc:111-143. *)
Definition push_u (qdt_2mc : V) (f : interp) (p : part V) : vec V :=
  let h := half_e qdt_2mc f (pd p) in
  vadd (boris qdt_2mc (mag_b f (pd p)) (vadd (pu p) h)) h.

(* One pass of the particle loops of center_p (center_p_pipeline.cc:48-97) and uncenter_p
   (uncenter_p_pipeline.cc:48-97).  Both receive the same args->qdt_2mc. *)
Definition center_one (qdt_2mc : V) (f : interp) (p : part V) : part V :=
  let h := half_e qdt_2mc f (pd p) in
  mkp (pd p) (pi p) (boris (n_half K * qdt_2mc) (mag_b f (pd p)) (vadd (pu p) h)) (pw p).
Definition uncenter_one (qdt_2mc : V) (f : interp) (p : part V) : part V :=
  let h := half_e (n_opp K qdt_2mc) f (pd p) in
  mkp (pd p) (pi p)
      (vadd (boris (n_opp K (n_half K) * qdt_2mc) (mag_b f (pd p)) (pu p)) h) (pw p).

(* One pass of the particle loop of energy_p, energy_p_pipeline.cc:44-65. *)
Definition energy_one (qdt_2mc msp : V) (f : interp) (p : part V) : V :=
  let e := half_e qdt_2mc f (pd p) in
  let v := vadd (pu p) e in
  let v0 := (vx v * vx v + vy v * vy v) + vz v * vz v in
  (msp * pw p) * (v0 / (one + n_sqrt K (one + v0))).

(* The displacement, advance_p_pipeline.cc:145-154. *)
Definition displacement (cdt : vec V) (u : vec V) : vec V :=
  let v0 := one / n_sqrt K (one + norm2 u) in
  vmap2 (fun c x => (x * c) * v0) cdt u.

(* The test of advance_p_pipeline.cc:165-166. *)
Definition inbnds (v : vec V) : bool :=
  n_le K (vx v) one && n_le K (vy v) one && n_le K (vz v) one &&
  n_le K (n_opp K (vx v)) one && n_le K (n_opp K (vy v)) one && n_le K (n_opp K (vz v)) one.

(* One pass of the particle loop of advance_p, advance_p_pipeline.cc:89-226, up to the decision
   what to do with the mover. *)
Definition advance_one (fuel : nat) (g : mesh) (qdt_2mc : V) (cdt : vec V) (qsp : V) (f : interp)
           (p : part V) : mres :=
  let u := push_u qdt_2mc f p in
  let s := displacement cdt u in
  let mid := vadd (pd p) s in
  let new := vadd mid s in
  if inbnds new then
    let q := pw p * qsp in
    let v5 := (((q * vx s) * vy s) * vz s) * n_third K in
    MDone false (mkp new (pi p) u (pw p)) (mkv (n_zero K) (n_zero K) (n_zero K))
          [(pi p, accumulate_streak q v5 mid s)]
  else move_p fuel g qsp (mkp (pd p) (pi p) u (pw p)) s.

(* The trilinear weights w0..w7 of accumulate_rho_p (rho_p.cc:58-76) and accumulate_rhob
   (rho_p.cc:135-149): FMA(x,y,z)=z+x*y, FNMS(x,y,z)=z-x*y.  [w7] is the scaled charge. *)
Definition weights (w7 : V) (d : vec V) : list V :=
  let fma x y z := z + x * y in
  let fnms x y z := z - x * y in
  let w0 := vx d in let w1 := vy d in let dz := vz d in
  let w6 := fnms w0 w7 w7 in let w7 := fma w0 w7 w7 in
  let w4 := fnms w1 w6 w6 in let w5 := fnms w1 w7 w7 in
  let w6 := fma w1 w6 w6 in let w7 := fma w1 w7 w7 in
  [fnms dz w4 w4; fnms dz w5 w5; fnms dz w6 w6; fnms dz w7 w7;
   fma dz w4 w4; fma dz w5 w5; fma dz w6 w6; fma dz w7 w7].

(* The eight voxels updated, rho_p.cc:82-85 and 169-172. *)
Definition corners (sy sz v : Z) : list Z :=
  [v; v + 1; v + sy; v + sy + 1; v + sz; v + sz + 1; v + sz + sy; v + sz + sy + 1]%Z.

(* The doublings of accumulate_rhob, rho_p.cc:157-165, from the voxel decode x,y,z. *)
Definition double_if (b : bool) (sel : nat -> bool) (w : list V) : list V :=
  if b then map (fun '(k, t) => if sel k then t + t else t) (combine (seq 0 8) w) else w.
Definition rhob_weights (nx ny nz : Z) (v : Z) (w : list V) : list V :=
  let '(x, y, z) := decode_rhob nx ny v in
  let bit k := fun n : nat => Nat.testbit n k in
  let w := double_if (z =? 1) (fun n => negb (bit 2%nat n)) w in
  let w := double_if (z =? nz) (bit 2%nat) w in
  let w := double_if (y =? 1) (fun n => negb (bit 1%nat n)) w in
  let w := double_if (y =? ny) (bit 1%nat) w in
  let w := double_if (x =? 1) (fun n => negb (bit 0%nat n)) w in
  double_if (x =? nx) (bit 0%nat) w.

(* f[..] += w: the list of additions done to a density array, in program order. *)
Definition rho_adds (sy sz : Z) (qsp r8V : V) (p : part V) : list (Z * V) :=
  combine (corners sy sz (pi p)) (weights (pw p * (qsp * r8V)) (pd p)).
Definition rhob_adds (nx ny nz : Z) (qsp r8V : V) (p : part V) : list (Z * V) :=
  combine (corners (sy_of nx) (sz_of nx ny) (pi p))
          (rhob_weights nx ny nz (pi p) (weights ((qsp * r8V) * pw p) (pd p))).
(* accumulate_rho_p, rho_p.cc:22-113, for the whole list. *)
Definition accumulate_rho_p (sy sz : Z) (qsp r8V : V) (ps : list (part V)) : list (Z * V) :=
  flat_map (rho_adds sy sz qsp r8V) ps.

(* Applying a list of additions to an array. *)
Definition apply_adds (l : list (Z * V)) (rho : Z -> V) : Z -> V :=
  fold_left (fun r '(v, t) => fun n => if n =? v then r n + t else r n) l rho.

(* Applying the streaks to an accumulator array: component k of voxel v. *)
Definition acc_streaks (l : list (streak V)) (a : Z -> nat -> V) : Z -> nat -> V :=
  fold_left (fun r '(v, j) => fun n k => if n =? v then r n k + nth k j (n_zero K) else r n k) l a.

(* unload_accumulator, unload_accumulator_pipeline.cc:51-80: the value added to jfx, jfy, jfz at
   voxel n (jx[k], jy[k], jz[k] are components k, 4+k, 8+k). *)
Definition unload (sy sz : Z) (c : vec V) (a : Z -> nat -> V) (n : Z) : vec V :=
  mkv (vx c * (((a n 0%nat + a (n - sy)%Z 1%nat) + a (n - sz)%Z 2%nat) + a (n - sy - sz)%Z 3%nat))
      (vy c * (((a n 4%nat + a (n - sz)%Z 5%nat) + a (n - 1)%Z 6%nat) + a (n - 1 - sz)%Z 7%nat))
      (vz c * (((a n 8%nat + a (n - 1)%Z 9%nat) + a (n - sy)%Z 10%nat) + a (n - 1 - sy)%Z 11%nat)).

End Kernels.
Arguments MDone {V}. Arguments MUB {V}. Arguments MFuel {V}.
