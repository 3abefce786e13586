(* The vector kernels of the particle loops: move_p with V4_ACCELERATION and the v4, v8 and v16 variants of advance_p, center_p, uncenter_p,
   energy_p and accumulate_hydro_p.

   /repo/src/species_advance/standard/move_p.cc:24-211 and /repo/src/species_advance/standard/pipeline/*_pipeline_v4.cc, *_v8.cc, *_v16.cc,
   move_outbnd_v4.inc.  A lane is one particle: the code reads lane l of every vector from particle l of the block and from that particle's
   interpolator, and all operations between the load and the increments act on each lane alone, so the three widths have the same text up to the
   number of lanes and the names of the temporaries.  What the loads, stores and transposes do to memory is C66.
   fma( a, b, c ) is a*b+c and fms( a, b, c ) is a*b-c (two roundings where the class has no fused instruction; one where it has: not distinguished,
   the theorems here are about exact arithmetic).  Not modelled: the fourth, unused lane of r, dr, u in move_p. *)
From Coq Require Import ZArith List Bool.
From Flocq Require Import IEEE754.BinarySingleNaN.
From Verif Require Import FloatModel VoxelModel SortModel DistributeModel ParticleModel MoverModel HydroModel.
Import ListNotations.
Open Scope Z_scope.

(* The operations of the vector classes that are not in [num]: copysign( one, x ), the denominator ( x + x ) + copysign( tiny, x ) of
   move_p.cc:91-93, rsqrt and rcp. *)
Record vops (V : Type) : Type := mk_vops { o_sgn : V -> V; o_den : V -> V; o_rsqrt : V -> V; o_rcp : V -> V }.
Arguments o_sgn {V}. Arguments o_den {V}. Arguments o_rsqrt {V}. Arguments o_rcp {V}. Arguments mk_vops {V}.

(* An increment_4x1, increment_8x1 or increment_16x1: array element, first word in it, the words added. *)
Definition incr (V : Type) : Type := (Z * nat * list V)%type.

(* The blocks of a list: W elements each, n of them. *)
Fixpoint blocks {A} (W n : nat) (l : list A) : list (list A) :=
  match n with O => [] | S n => firstn W l :: blocks W n (skipn W l) end.
(* DISTRIBUTE( np, 16, ... ); p += n0; nq >>= k; for( ; nq; nq--, p += 2^k ):  advance_p_pipeline_v4.cc:53-57, 87, _v8.cc:55-59, _v16.cc:76-80 and the
   same lines of the other kernels.  The blocks that pipeline rank works on. *)
Definition vblocks {A} (k : nat) (contract : bool) (P rank : Z) (ps : list A) : list (list A) :=
  let '(n0, n) := distribute contract (Z.of_nat (length ps)) 16 rank P in
  blocks (2 ^ k) (Z.to_nat (Z.shiftr n (Z.of_nat k))) (skipn (Z.to_nat n0) ps).

Section Lanes.
Context {V : Type} (K : num V) (X : vops V).
Local Notation "x + y" := (n_add K x y).
Local Notation "x - y" := (n_sub K x y).
Local Notation "x * y" := (n_mul K x y).
Local Notation "x / y" := (n_div K x y).
Local Notation one := (n_one K).
Local Notation zero := (n_zero K).
Definition fma (a b c : V) : V := a * b + c.
Definition fms (a b c : V) : V := a * b - c.

(* ---------- move_p ---------- *)

(* v0..v3 after the last addition, before the transpose, as the rows it leaves in the first three vectors: move_p.cc:127-151.  [sdr], [mid] = v5. *)
Definition vstreak (q q3 : V) (mid sdr : vec V) : list V :=
  let v4 := vmap (fun s => q * s) sdr in
  let m1 := mkv (vy mid) (vz mid) (vx mid) in                                   (* shuffle<1,2,0,3> *)
  let v1 := vmap2 (n_mul K) v4 m1 in
  let v0 := vmap2 (n_sub K) v4 v1 in
  let v1 := vmap2 (n_add K) v1 v4 in
  let v5 := mkv (vz mid) (vx mid) (vy mid) in                                   (* shuffle<2,0,1,3> *)
  let v4 := vmap (fun z => one + z) v5 in
  let v2 := vmap2 (n_mul K) v0 v4 in
  let v3 := vmap2 (n_mul K) v1 v4 in
  let v4 := vmap (fun z => one - z) v5 in
  let v0 := vmap2 (n_mul K) v0 v4 in
  let v1 := vmap2 (n_mul K) v1 v4 in
  let c := ((q3 * vx sdr) * vy sdr) * vz sdr in
  let v0 := vmap (fun x => x + c) v0 in
  let v1 := vmap (fun x => x - c) v1 in
  let v2 := vmap (fun x => x - c) v2 in
  let v3 := vmap (fun x => x + c) v3 in
  [vx v0; vx v1; vx v2; vx v3; vy v0; vy v1; vy v2; vy v3; vz v0; vz v1; vz v2; vz v3].
(* f0 and type, move_p.cc:94-98; None is type 3. *)
Definition vpick (f : axis -> V) : V * option axis :=
  let c := (one, @None axis) in
  let c := if n_lt K (f AX) (fst c) then (f AX, Some AX) else c in
  let c := if n_lt K (f AY) (fst c) then (f AY, Some AY) else c in
  if n_lt K (f AZ) (fst c) then (f AZ, Some AZ) else c.

(* The for(;;), move_p.cc:59-208.  p holds r (its position), voxel (its pi) and u; disp0 is what the mover holds in memory: it is stored only on
   the way out through a face (line 199).  Same outcomes as in ParticleModel.v. *)
Fixpoint vmove_loop (fuel : nat) (g : mesh) (q q3 : V) (disp0 : vec V) (p : part V) (dr : vec V) (log : list (streak V)) : mres :=
  match fuel with
  | O => MFuel
  | S fuel =>
    let sgn := vmap (o_sgn X) dr in
    let fr a := (vget sgn a - vget (pd p) a) / o_den X (vget dr a) in
    let '(s, type) := vpick fr in
    let sdr := vmap (fun d => s * d) dr in
    let mid := vmap2 (n_add K) (pd p) sdr in
    let dr := vmap2 (n_sub K) dr sdr in
    let r := vmap2 (n_add K) (pd p) (vmap2 (n_add K) sdr sdr) in
    let log := log ++ [(pi p, vstreak q q3 mid sdr)] in
    match type with
    | None => MDone false (mkp r (pi p) (pu p) (pw p)) disp0 log
    | Some a =>
      let r := vset r a (vget sgn a) in
      let face := if n_lt K zero (vget sgn a) then Z.add (axis_code a) 3 else axis_code a in
      if negb (int_ok (Z.mul 6 (pi p))) then MUB else
      match nbr_at g (pi p) face with
      | None => MUB
      | Some n =>
        if n =? reflect_particles then
          vmove_loop fuel g q q3 disp0 (mkp r (pi p) (vset (pu p) a (n_opp K (vget (pu p) a))) (pw p)) (vset dr a (n_opp K (vget dr a))) log
        else if (n <? mrangel g) || (mrangeh g <? n) then
          if negb (int_ok (Z.mul 8 (pi p))) || negb (int_ok (Z.add (Z.mul 8 (pi p)) face)) then MUB
          else MDone true (mkp r (Z.add (Z.mul 8 (pi p)) face) (pu p) (pw p)) dr log
        else vmove_loop fuel g q q3 disp0 (mkp (vset r a (n_opp K (vget r a))) (Z.sub n (mrangel g)) (pu p) (pw p)) dr log
      end
    end
  end.
(* move_p.cc:48-57: q = qsp*w, q3 = (1.f/3.f)*q *)
Definition vmove_p (fuel : nat) (g : mesh) (qsp : V) (p : part V) (disp : vec V) : mres :=
  let q := qsp * pw p in
  vmove_loop fuel g q (n_third K * q) disp p disp [].

(* ---------- one lane of advance_p ---------- *)

(* hax, hay, haz without their coefficient: advance_p_pipeline_v4.cc:112, 120, 128; center_p_pipeline_v4.cc:69, 77, 85 (with the factors swapped). *)
Definition lane_e (f : interp (V := V)) (d : vec V) : vec V :=
  mkv (fma (fma (i_d2exdydz f) (vy d) (i_dexdz f)) (vz d) (fma (i_dexdy f) (vy d) (i_ex f)))
      (fma (fma (i_d2eydzdx f) (vz d) (i_deydx f)) (vx d) (fma (i_deydz f) (vz d) (i_ey f)))
      (fma (fma (i_d2ezdxdy f) (vx d) (i_dezdy f)) (vy d) (fma (i_dezdx f) (vx d) (i_ez f))).
Definition lane_e' (f : interp (V := V)) (d : vec V) : vec V :=
  mkv (fma (fma (vy d) (i_d2exdydz f) (i_dexdz f)) (vz d) (fma (vy d) (i_dexdy f) (i_ex f)))
      (fma (fma (vz d) (i_d2eydzdx f) (i_deydx f)) (vx d) (fma (vz d) (i_deydz f) (i_ey f)))
      (fma (fma (vx d) (i_d2ezdxdy f) (i_dezdy f)) (vy d) (fma (vx d) (i_dezdx f) (i_ez f))).
(* cbx, cby, cbz: advance_p_pipeline_v4.cc:136-146 *)
Definition lane_b (f : interp (V := V)) (d : vec V) : vec V :=
  mkv (fma (i_dcbxdx f) (vx d) (i_cbx f)) (fma (i_dcbydy f) (vy d) (i_cby f)) (fma (i_dcbzdz f) (vz d) (i_cbz f)).
Definition lane_norm2 (u : vec V) : V := fma (vx u) (vx u) (fma (vy u) (vy u) (vz u * vz u)).
(* The rotation from v00 on, advance_p_pipeline_v4.cc:167-179; [v03]'s polynomial is passed because center_p and uncenter_p write its products the
   other way round (center_p_pipeline_v4.cc:116). *)
Definition lane_poly (v02 : V) : V := fma (fma (n_215 K) v02 (n_third K)) v02 one.
Definition lane_poly' (v02 : V) : V := fma v02 (fma v02 (n_215 K) (n_third K)) one.
Definition lane_rotate (poly : V -> V) (v00 : V) (cb u : vec V) : vec V :=
  let v01 := lane_norm2 cb in
  let v02 := (v00 * v00) * v01 in
  let v03 := v00 * poly v02 in
  let v04 := v03 * o_rcp X (fma (v03 * v03) v01 one) in
  let v04 := v04 + v04 in
  let w0 := fma (fms (vy u) (vz cb) (vz u * vy cb)) v03 (vx u) in
  let w1 := fma (fms (vz u) (vx cb) (vx u * vz cb)) v03 (vy u) in
  let w2 := fma (fms (vx u) (vy cb) (vy u * vx cb)) v03 (vz u) in
  mkv (fma (fms w1 (vz cb) (w2 * vy cb)) v04 (vx u))
      (fma (fms w2 (vx cb) (w0 * vz cb)) v04 (vy u))
      (fma (fms w0 (vy cb) (w1 * vx cb)) v04 (vz u)).
(* advance_p_pipeline_v4.cc:162-183 *)
Definition lane_push (qdt_2mc : V) (f : interp (V := V)) (p : part V) : vec V :=
  let h := vmap (fun e => qdt_2mc * e) (lane_e f (pd p)) in
  let u := vmap2 (n_add K) (pu p) h in
  vmap2 (n_add K) (lane_rotate lane_poly (qdt_2mc * o_rsqrt X (one + lane_norm2 u)) (lane_b f (pd p)) u) h.
(* ux, uy, uz as the displacement, advance_p_pipeline_v4.cc:194-202 *)
Definition lane_disp (cdt u : vec V) : vec V :=
  let v00 := o_rsqrt X (one + lane_norm2 u) in
  vmap2 (fun c x => (x * c) * v00) cdt u.
(* outbnd, advance_p_pipeline_v4.cc:215-217 *)
Definition lane_out (v : vec V) : bool :=
  (((((n_lt K one (vx v) || n_lt K (vx v) (n_opp K one)) || n_lt K one (vy v)) || n_lt K (vy v) (n_opp K one)) || n_lt K one (vz v))
   || n_lt K (vz v) (n_opp K one)).
(* ACCUMULATE_J, advance_p_pipeline_v4.cc:253-268: v00..v03 of one lane *)
Definition lane_j (q v05 ux dy dz : V) : list V :=
  let v04 := q * ux in
  let v01 := v04 * dy in
  let v00 := v04 - v01 in
  let v01 := v01 + v04 in
  let v04 := one + dz in
  let v02 := v00 * v04 in
  let v03 := v01 * v04 in
  let v04 := one - dz in
  let v00 := v00 * v04 in
  let v01 := v01 * v04 in
  [v00 + v05; v01 - v05; v02 - v05; v03 + v05].

(* What one lane leaves: the stored particle, whether it is out of bounds, its displacement and its row of the accumulator: the twelve words of
   jx, jy, jz and (v8: line 321-325, v16: 346-349) four zeros for the padding. *)
Record lane : Type := mk_lane { l_p : part V; l_out : bool; l_disp : vec V; l_row : list V }.
(* advance_p_pipeline_v4.cc:95-277 *)
Definition adv_lane (qdt_2mc : V) (cdt : vec V) (qsp : V) (f : interp (V := V)) (p : part V) : lane :=
  let u := lane_push qdt_2mc f p in
  let s := lane_disp cdt u in
  let mid := vmap2 (n_add K) (pd p) s in
  let new := vmap2 (n_add K) mid s in
  let out := lane_out new in
  let q := if out then zero else pw p * qsp in                                  (* czero *)
  let v05 := (((q * vx s) * vy s) * vz s) * n_third K in
  mk_lane (mkp (if out then pd p else new) (pi p) u (pw p)) out s
    (lane_j q v05 (vx s) (vy mid) (vz mid) ++ lane_j q v05 (vy s) (vz mid) (vx mid) ++ lane_j q v05 (vz s) (vx mid) (vy mid)
     ++ [zero; zero; zero; zero]).

(* The increments of a block: for each (first word, number of words) of [gs], lane by lane.  For advance_p: v4, words 0-3, 4-7, 8-11
   (advance_p_pipeline_v4.cc:269-277); v8, words 0-7 and 8-15 (_v8.cc:303-338); v16, all sixteen (_v16.cc:352-374).  [ls]: (element, row). *)
Definition groups_j (k : nat) : list (nat * nat) :=
  match k with 2%nat => [(0, 4); (4, 4); (8, 4)]%nat | 3%nat => [(0, 8); (8, 8)]%nat | _ => [(0, 16)]%nat end.
Definition vincs (gs : list (nat * nat)) (ls : list (Z * list V)) : list (incr V) :=
  flat_map (fun g => map (fun l => (fst l, fst g, firstn (snd g) (skipn (fst g) (snd l)))) ls) gs.
(* Applying them to an array of elements of 16 words. *)
Definition apply_incr (a : Z -> nat -> V) (x : incr V) : Z -> nat -> V :=
  let '(v, o, w) := x in
  fun n k => if (n =? v) && (Nat.leb o k && Nat.ltb k (o + length w)) then a n k + nth (k - o) w zero else a n k.
Definition apply_incrs (l : list (incr V)) (a : Z -> nat -> V) : Z -> nat -> V := fold_left apply_incr l a.
(* A streak of move_p: three increments, move_p.cc:155-157. *)
Definition streak_incrs (s : streak V) : list (incr V) := vincs (groups_j 2) [s].

(* MOVE_OUTBND, move_outbnd_v4.inc:6-30, for the lanes of a block in turn, the first one being particle i: the particles, the stored movers, the
   streaks.  [kept j]: there was room for particle j's mover.  None: move_p does not end well. *)
Fixpoint move_outbnd (fuel : nat) (g : mesh) (q : V) (kept : Z -> bool) (i : Z) (ls : list lane)
  : option (list (part V) * list (mover (V := V)) * list (streak V)) :=
  match ls with
  | [] => Some ([], [], [])
  | l :: ls =>
    match (if l_out l then vmove_p fuel g q (l_p l) (l_disp l) else MDone false (l_p l) (l_disp l) []) with
    | MDone st p' d lg =>
      match move_outbnd fuel g q kept (i + 1)%Z ls with
      | Some (ps', pm, lg') =>
        if st then
          if kept i then Some (p' :: ps', mk_mover d i :: pm, lg ++ lg')
          else Some (mkp (pd p') (Z.shiftr (pi p') 3) (pu p') (pw p') :: ps', pm, lg ++ lg')
        else Some (p' :: ps', pm, lg ++ lg')
      | None => None
      end
    | _ => None
    end
  end.
(* One pass of the block loop and the loop: the block's increments come before those of its out-of-bounds lanes. *)
Definition vadvance_block (k fuel : nat) (g : mesh) (qdt_2mc : V) (cdt : vec V) (q : V) (fs : Z -> interp (V := V)) (kept : Z -> bool) (i : Z)
    (ps : list (part V)) : option (list (part V) * list (mover (V := V)) * list (incr V)) :=
  let ls := map (fun p => adv_lane qdt_2mc cdt q (fs (pi p)) p) ps in
  match move_outbnd fuel g q kept i ls with
  | Some (ps', pm, lg) => Some (ps', pm, vincs (groups_j k) (map (fun l => (pi (l_p l), l_row l)) ls) ++ flat_map streak_incrs lg)
  | None => None
  end.
Fixpoint vadvance_blocks (k fuel : nat) (g : mesh) (qdt_2mc : V) (cdt : vec V) (q : V) (fs : Z -> interp (V := V)) (kept : Z -> bool) (i : Z)
    (bs : list (list (part V))) : option (list (part V) * list (mover (V := V)) * list (incr V)) :=
  match bs with
  | [] => Some ([], [], [])
  | b :: bs =>
    match vadvance_block k fuel g qdt_2mc cdt q fs kept i b with
    | Some (ps', pm, inc) =>
      match vadvance_blocks k fuel g qdt_2mc cdt q fs kept (i + Z.of_nat (length b))%Z bs with
      | Some (ps'', pm', inc') => Some (ps' ++ ps'', pm ++ pm', inc ++ inc')
      | None => None
      end
    | None => None
    end
  end.

(* ---------- one lane of center_p, uncenter_p, energy_p, hydro_p ---------- *)

(* center_p_pipeline_v4.cc:49-133, qdt_4mc = 0.5*qdt_2mc (line 23) *)
Definition center_lane (qdt_2mc : V) (f : interp (V := V)) (p : part V) : part V :=
  let h := vmap (fun e => qdt_2mc * e) (lane_e' f (pd p)) in
  let u := vmap2 (n_add K) (pu p) h in
  mkp (pd p) (pi p) (lane_rotate lane_poly' ((n_half K * qdt_2mc) * o_rsqrt X (one + lane_norm2 u)) (lane_b f (pd p)) u) (pw p).
(* uncenter_p_pipeline_v4.cc:23-24, 49-133: the negated coefficients; the half advance comes after the rotation *)
Definition uncenter_lane (qdt_2mc : V) (f : interp (V := V)) (p : part V) : part V :=
  let h := vmap (fun e => n_opp K qdt_2mc * e) (lane_e' f (pd p)) in
  let u := pu p in
  mkp (pd p) (pi p)
      (vmap2 (n_add K) (lane_rotate lane_poly' ((n_opp K (n_half K) * qdt_2mc) * o_rsqrt X (one + lane_norm2 u)) (lane_b f (pd p)) u) h) (pw p).
(* energy_p_pipeline_v4.cc:72-107 *)
Definition energy_lane (qdt_2mc msp : V) (f : interp (V := V)) (p : part V) : V :=
  let e := lane_e' f (pd p) in
  let v := vmap2 (fun e u => fma e qdt_2mc u) e (pu p) in
  let v00 := lane_norm2 v in
  (msp * pw p) * (v00 / (one + n_sqrt K (one + v00))).
(* en00, en01, ... += ( double ) v00(0), ... and their sum, energy_p_pipeline_v4.cc:110-121: [dbl] is the conversion to double *)
Definition venergy {D} (zero : D) (plus : D -> D -> D) (dbl : V -> D) (W : nat) (qdt_2mc msp : V) (fs : Z -> interp (V := V)) (bs : list (list (part V))) : D :=
  let en := fold_left (fun en b => map (fun x => plus (fst x) (dbl (energy_lane qdt_2mc msp (fs (pi (snd x))) (snd x)))) (combine en b)) bs (repeat zero W) in
  match en with [] => zero | e :: en => fold_left plus en e end.

(* hydro_p_pipeline_v4.cc:118-167: momentum, velocity and c (gamma-1); qdt_4mc2 of line 23 *)
Definition hydro_lane (h : hcoef (V := V)) (f : interp (V := V)) (p : part V) : vec V * vec V * V :=
  let qdt_4mc2 := h_qdt h / (n_two K * h_c h) in
  let u := vmap2 (n_add K) (pu p) (vmap (fun e => h_qdt h * e) (lane_e f (pd p))) in
  let ke := lane_norm2 u in
  let g := n_sqrt K (one + ke) in
  let ke := (h_c h * ke) * o_rcp X (one + g) in
  let g := h_c h * o_rcp X g in
  let u := lane_rotate lane_poly (qdt_4mc2 * g) (lane_b f (pd p)) u in
  (u, mkv (vx u * g) (vy u * g) (vz u * g), ke).
(* w0..w7, hydro_p_pipeline_v4.cc:173-192 *)
Definition hydro_lane_weights (r8V w : V) (d : vec V) : list V :=
  let w0 := r8V * w in
  let dx := vx d * w0 in
  let w1 := w0 + dx in
  let w0 := w0 - dx in
  let w3 := one + vy d in
  let w2 := w0 * w3 in
  let w3 := w3 * w1 in
  let dy := one - vy d in
  let w0 := w0 * dy in
  let w1 := w1 * dy in
  let w7 := one + vz d in
  let w4 := w0 * w7 in let w5 := w1 * w7 in let w6 := w2 * w7 in let w7 := w7 * w3 in
  let dz := one - vz d in
  [w0 * dz; w1 * dz; w2 * dz; w3 * dz; w4; w5; w6; w7].
(* ACCUM_HYDRO, hydro_p_pipeline_v4.cc:206-235: the sixteen words of one lane; mspc = msp*cvac (line 24) *)
Definition hydro_row (h : hcoef (V := V)) (s : vec V * vec V * V) (w : V) : list V :=
  let '(u, v, ke) := s in
  let t := h_q h * w in
  let t' := (h_m h * h_c h) * w in
  let dx := t' * vx u in let dy := t' * vy u in let dz := t' * vz u in
  [t * vx v; t * vy v; t * vz v; t;
   dx; dy; dz; t' * ke;
   dx * vx v; dy * vy v; dz * vz v; dy * vz v;
   dz * vx v; dx * vy v; zero; zero].
Definition groups_h (k : nat) : list (nat * nat) :=
  match k with 2%nat => [(0, 4); (4, 4); (8, 4); (12, 4)]%nat | 3%nat => [(0, 8); (8, 8)]%nat | _ => [(0, 16)]%nat end.
(* The strides of hydro_p_pipeline_v4.cc:41-43 (g->sx, sy, sz: grid.h) and the eight voxels of lines 237-244 *)
Definition vhydro_voxels (nx ny i : Z) : list Z :=
  let sx := 1 in let sy := sy_of nx in let sz := sz_of nx ny in
  let s10 := sx in let s21 := Z.sub sy sx in let s43 := Z.sub (Z.sub sz sy) sx in
  let i1 := Z.add i s10 in let i2 := Z.add i1 s21 in let i3 := Z.add i2 s10 in let i4 := Z.add i3 s43 in
  let i5 := Z.add i4 s10 in let i6 := Z.add i5 s21 in let i7 := Z.add i6 s10 in
  [i; i1; i2; i3; i4; i5; i6; i7].
(* corner c of every lane of the block *)
Definition vhydro_block (k : nat) (nx ny : Z) (h : hcoef (V := V)) (fs : Z -> interp (V := V)) (b : list (part V)) : list (incr V) :=
  flat_map (fun c => vincs (groups_h k) (map (fun p => (nth c (vhydro_voxels nx ny (pi p)) 0,
      hydro_row h (hydro_lane h (fs (pi p)) p) (nth c (hydro_lane_weights (h_r8V h) (pw p) (pd p)) zero))) b)) (seq 0 8).
Definition vhydro (k : nat) (nx ny : Z) (h : hcoef (V := V)) (fs : Z -> interp (V := V)) (bs : list (list (part V))) : list (incr V) :=
  flat_map (vhydro_block k nx ny h fs) bs.
(* the member in word k of hydro_t, sf_interface.h:185-192 *)
Definition hyd_word (m : hyd) : nat :=
  match m with Hjx => 0 | Hjy => 1 | Hjz => 2 | Hrho => 3 | Hpx => 4 | Hpy => 5 | Hpz => 6 | Hke => 7
             | Htxx => 8 | Htyy => 9 | Htzz => 10 | Htyz => 11 | Htzx => 12 | Htxy => 13 end%nat.
End Lanes.

(* The operations in IEEE binary32.  tiny is the float nearest to 10^-37, move_p.cc:38.  copysign looks at the sign bit, so the sign of a zero
   counts; rsqrt and rcp as the portable classes have them (v4_portable.h:1116-1126, 1139-1149): sqrt( 1/a ), 1/a.  Simplification: every NaN has
   sign bit 0. *)
Definition f_tiny : b32 := binary_normalize 24 128 prec_gt_0_32 prec_lt_emax_32 mode_NE 8920298 (-146) false.
Definition f_copysign (x y : b32) : b32 :=
  let m := Babs x in if Bsign y then Bopp m else m.
Definition Fops : vops b32 :=
  mk_vops (fun x => f_copysign (f_of_Z 1) x) (fun x => f_add (f_add x x) (f_copysign f_tiny x))
          (fun x => f_sqrt (f_div (f_of_Z 1) x)) (fun x => f_div (f_of_Z 1) x).

(* The estimate refined by one Newton step, as the SSE, AVX, AVX2 and AVX-512 classes do: v4_sse.h:1174-1193, 1219-1234, v8_avx.h:1514-1529, 1582-1592,
   v16_avx512.h:2742-2756, 2775-2789.  [b] is the estimate of the instruction. *)
Definition newton_rsqrt {V} (K : num V) (a b : V) : V := n_add K b (n_mul K (n_half K) (n_sub K b (n_mul K a (n_mul K b (n_mul K b b))))).
Definition newton_rcp {V} (K : num V) (a b : V) : V := n_sub K (n_add K b b) (n_mul K a (n_mul K b b)).
