(* Model of the collision operators (/repo/src/collision). *)
From Coq Require Import ZArith List Bool Reals.
From Verif Require Import SortModel VoxelModel DistributeModel ParticleModel.
Import ListNotations.
Open Scope Z_scope.

(* ---- momentum transfer of one collision ---- *)
Section Kernel.
Context {V : Type} (K : num V).
(* FLT_MIN, the guard in the normalisation of the transverse vector *)
Variable tiny : V.
Notation "x +. y" := (n_add K x y) (at level 50, left associativity).
Notation "x -. y" := (n_sub K x y) (at level 50, left associativity).
Notation "x *. y" := (n_mul K x y) (at level 40, left associativity).

(* The CMOV chain choosing d0,d1,d2: hard_sphere.cc:256-258, large_angle_coulomb.cc:100-102,
   takizuka_abe_pipeline.cc:29-31. *)
Definition least (u : vec V) : axis * axis * axis :=
  let t1 := vx u *. vx u in
  let t0 := vy u *. vy u in
  let '(d, t1) := if n_lt K t0 t1 then ((AY, AZ, AX), t0) else ((AX, AY, AZ), t1) in
  let t0 := vz u *. vz u in
  if n_lt K t0 t1 then (AZ, AX, AY) else d.

(* The transverse vector tx,ty,tz: hard_sphere.cc:261-272, large_angle_coulomb.cc:105-116,
   takizuka_abe_pipeline.cc:34-45. *)
Definition transverse (u : vec V) : vec V :=
  let '(d0, d1, d2) := least u in
  let t1 := vget u d1 in let t2 := vget u d2 in
  let t0 := n_div K (n_one K) (n_sqrt K (t1 *. t1 +. t2 *. t2 +. tiny)) in
  vset (vset (vset u d0 (n_zero K)) d1 (t0 *. t2)) d2 (n_opp K t0 *. t1).

(* ur^2 as accumulated at hard_sphere.cc:256-258 *)
Definition square (u : vec V) : V := vx u *. vx u +. vy u *. vy u +. vz u *. vz u.
(* hard_sphere.cc:279-281 = large_angle_coulomb.cc:125-127 *)
Definition blend (t0 t1 t2 : V) (u t : vec V) : vec V :=
  mkv (t0 *. vx u -. t1 *. vx t -. t2 *. (vy u *. vz t -. vz u *. vy t))
      (t0 *. vy u -. t1 *. vy t -. t2 *. (vz u *. vx t -. vx u *. vz t))
      (t0 *. vz u -. t1 *. vz t -. t2 *. (vx u *. vy t -. vy u *. vx t)).

(* hard_sphere.cc:242-282 after the rejection loop, which leaves the point (bcs,bsn) of the unit
   disk: bcs*bcs + bsn*bsn < 1. *)
Definition hard_sphere_transfer (bcs bsn : V) (u : vec V) : vec V :=
  let b2 := bcs *. bcs +. bsn *. bsn in
  let ur := n_sqrt K (square u) in
  let t := transverse u in
  let t0 := n_one K -. b2 in
  let t2 := n_sqrt K t0 in
  let t1 := t2 *. bcs *. ur in
  let t2 := t2 *. bsn in
  blend t0 t1 t2 u t.

(* large_angle_coulomb.cc:85-128; cc: the constant of line 276 *)
Definition coulomb_transfer (cc bcs bsn : V) (u : vec V) : vec V :=
  let b2 := bcs *. bcs +. bsn *. bsn in
  let ur2 := square u in
  let ur := n_sqrt K ur2 in
  let t := transverse u in
  let t1 := cc *. ur2 in
  let t0 := n_div K (n_one K) (n_one K +. t1 *. t1 *. b2) in
  let t2 := t0 *. t1 in
  let t1 := t2 *. bcs *. ur in
  let t2 := t2 *. bsn in
  blend t0 t1 t2 u t.

Definition vsub3 (a b : vec V) : vec V := mkv (vx a -. vx b) (vy a -. vy b) (vz a -. vz b).
Definition vadd3 (a b : vec V) : vec V := mkv (vx a +. vx b) (vy a +. vy b) (vz a +. vz b).
Definition vscale (s : V) (a : vec V) : vec V := mkv (s *. vx a) (s *. vy a) (s *. vz a).

(* hard_sphere_collision, hard_sphere.cc:315-344 (large_angle_coulomb_collision,
   large_angle_coulomb.cc:162-192, is the same text): the momenta of the pair after a transfer,
   [wi], [wj] = twomu_mi, twomu_mj and the bits of [type]. *)
Definition collide (transfer : vec V -> vec V) (wi wj : V) (type : Z) (ui uj : vec V) : vec V * vec V :=
  let a := transfer (vsub3 ui uj) in
  (if Z.testbit type 0 then vsub3 ui (vscale wi a) else ui,
   if Z.testbit type 1 then vadd3 uj (vscale wj a) else uj).
(* twomu_mi, twomu_mj: hard_sphere.cc:422-423, large_angle_coulomb.cc:278-279 *)
Definition twomu_mi (mi mj : V) : V := n_div K (n_two K *. mj) (mi +. mj).
Definition twomu_mj (mi mj : V) : V := n_div K (n_two K *. mi) (mi +. mj).

(* The unary versions, hard_sphere.cc:287-312 and large_angle_coulomb.cc:133-159: drift [ud],
   thermal momentum [ut], normal draws [g]; the fluid particle itself is not stored. *)
Definition collide_fluid (transfer : vec V -> vec V) (wi : V) (ud : vec V) (ut : V) (g : vec V) (ui : vec V) : vec V :=
  let u := vsub3 ui ud in
  let u := if n_eq K ut (n_zero K) then u else vsub3 u (vscale ut g) in
  vsub3 ui (vscale wi (transfer u)).

(* takizuka_abe_collision, takizuka_abe_pipeline.cc:14-78.  [gauss]: the value of frandn; [cs],[sn]:
   cos and sin of the drawn angle (the code takes them in double and rounds the products); [r]: the
   draw of line 65.  2*M_PI*frand_c0 itself is not modelled. *)
Definition ta_deflection (std gauss : V) (u : vec V) : V :=      (* dd, lines 47-51 *)
  let t2 := n_div K (n_one K) (n_sqrt K (square u)) in
  let t1 := std *. n_sqrt K t2 *. t2 in
  let t1 := if n_lt K (n_one K) t1 then n_one K else t1 in
  t1 *. gauss.
Definition ta_change (dd cs sn : V) (u : vec V) : vec V :=       (* stack, lines 53-62 *)
  let ur := n_sqrt K (square u) in
  let t := transverse u in
  let t0 := n_div K (n_two K *. dd) (n_one K +. dd *. dd) in
  let t2 := t0 *. sn in
  let t1 := t0 *. ur *. cs in
  let t0 := t0 *. n_opp K dd in
  mkv (t0 *. vx u +. t1 *. vx t +. t2 *. (vy u *. vz t -. vz u *. vy t))
      (t0 *. vy u +. t1 *. vy t +. t2 *. (vz u *. vx t -. vx u *. vz t))
      (t0 *. vz u +. t1 *. vz t +. t2 *. (vx u *. vy t -. vy u *. vx t)).
Definition ta_collide (mu_i mu_j std gauss cs sn r : V) (ui uj : vec V) (wi wj : V) : vec V * vec V :=
  let u := vsub3 ui uj in
  let s := ta_change (ta_deflection std gauss u) cs sn u in
  let t1 := if n_lt K wj wi && n_lt K wj (wi *. r) then n_zero K else mu_i in
  let t2 := if n_lt K wi wj && n_lt K wi (wj *. r) then n_zero K else mu_j in
  (vadd3 ui (vscale t1 s), vsub3 uj (vscale t2 s)).
(* mu_i, mu_j: takizuka_abe_pipeline.cc:99-100 *)
Definition ta_mu_i (mi mj : V) : V := n_div K mj (mi +. mj).
Definition ta_mu_j (mi mj : V) : V := n_div K mi (mi +. mj).
End Kernel.

(* ---- Takizuka-Abe: who collides with whom in one voxel ---- *)

(* takizuka_abe_pipeline.cc:129-134 for particles k0 .. k1-1 of array [p]: Fisher-Yates with words
   from the generator.  Starved: the words run out in the rejection loop; Overflow: the int addition
   i + (int)(u/rn) overflows.  The conversion of rn to unsigned is exact (k1 - i >= 2). *)
Inductive drawn (A : Type) : Type := Got (a : A) (rest : list Z) | Starved | Overflow.
Arguments Got {A}. Arguments Starved {A}. Arguments Overflow {A}.
Definition int_ok (x : Z) : bool := (-2147483648 <=? x) && (x <=? 2147483647).
Definition swap {A} (p : Z -> A) (i j : Z) : Z -> A :=
  fun x => if x =? i then p j else if x =? j then p i else p x.
Fixpoint draw_below (rn i k1 : Z) (words : list Z) : drawn Z :=
  match words with
  | [] => Starved
  | u :: ws => let j := i + u / rn in
               if negb (int_ok j) then Overflow else
               if j <? k1 then Got j ws else draw_below rn i k1 ws
  end.
Fixpoint shuffle_from {A} (n : nat) (i k1 : Z) (p : Z -> A) (words : list Z) : drawn (Z -> A) :=
  match n with
  | O => Got p words
  | S n' => match draw_below (4294967295 / (k1 - i)) i k1 words with
            | Got j ws => shuffle_from n' (i + 1) k1 (swap p i j) ws
            | Starved => Starved
            | Overflow => Overflow
            end
  end.
Definition shuffle_voxel {A} (k0 nk : Z) (p : Z -> A) (words : list Z) : drawn (Z -> A) :=
  shuffle_from (Z.to_nat (nk - 1)) k0 (k0 + nk) p words.

(* for( j=0 ; j < reps ; ++j, ++k ) (k,l) *)
Fixpoint one_against (reps : nat) (k l : Z) : list (Z * Z) :=
  match reps with O => [] | S r => (k, l) :: one_against r (k + 1) l end.
(* for( i ; n times ; ++i, ++l ) for( j ; reps times ; ++j, ++k ) (k,l) *)
Fixpoint many_against (n reps : nat) (k l : Z) : list (Z * Z) :=
  match n with O => [] | S n' => one_against reps k l ++ many_against n' reps (k + Z.of_nat reps) (l + 1) end.
(* lines 180-193: more k than l; each l in turn takes ii+1 or ii of the k *)
Definition pairs_more (k0 nk l0 nl : Z) : list (Z * Z) :=
  let ii := nk / nl in let rn := nk - ii * nl in
  many_against (Z.to_nat rn) (Z.to_nat (ii + 1)) k0 l0 ++
  many_against (Z.to_nat (nl - rn)) (Z.to_nat ii) (k0 + rn * (ii + 1)) (l0 + rn).
(* lines 178-212: (index in spi, index in spj) in program order *)
Definition pairs_inter (k0 nk l0 nl : Z) : list (Z * Z) :=
  if nl <? nk then pairs_more k0 nk l0 nl
  else map (fun q => (snd q, fst q)) (pairs_more l0 nl k0 nk).
(* one voxel, lines 120-212: k0,nk and l0,nl from the partitions; [same]: spi==spj *)
Definition voxel_pairs (same : bool) (k0 nk l0 nl : Z) : list (Z * Z) :=
  if nk =? 0 then [] else
  if same then
    let odd := negb (nk mod 2 =? 0) && (3 <=? nk) in
    let triple := if odd then [(k0, k0 + 1); (k0, k0 + 2); (k0 + 1, k0 + 2)] else [] in
    let nk := if odd then nk - 3 else nk in
    let k0 := if odd then k0 + 3 else k0 in
    let h := nk / 2 in
    triple ++ (if h =? 0 then [] else pairs_inter k0 h (k0 + h) h)
  else if nl =? 0 then [] else pairs_inter k0 nk l0 nl.

(* ---- voxel striping and candidate pairs ---- *)

(* for( v=rank; v<v1; v+=n_pipeline ): binary_pipeline.cc:48-51, takizuka_abe_pipeline.cc:109-111;
   the pipeline number n_pipeline itself (the host) returns at once (line 20, line 84). *)
Fixpoint stripe_loop (fuel : nat) (v v1 P : Z) : list Z :=
  match fuel with O => [] | S f => if v <? v1 then v :: stripe_loop f (v + P) v1 P else [] end.
Definition stripe (nx ny nz P rank : Z) : list Z :=
  if rank =? P then [] else
  let v1 := voxel nx ny nz nx ny nz + 1 in
  stripe_loop (Z.to_nat v1) (voxel nx ny nz 0 0 0 + rank) v1 P.

(* binary_pipeline.cc:63, 120: rk is unsigned in the division.  Index inside the voxel, before k0
   is added; None if the words run out. *)
Fixpoint candidate (nk : Z) (words : list Z) : option (Z * list Z) :=
  match words with
  | [] => None
  | u :: ws => let k := u / (4294967295 / nk) in if k =? nk then candidate nk ws else Some (k, ws)
  end.
(* np, binary_pipeline.cc:83 and 100, in int: None on overflow *)
Definition pair_count (same : bool) (nk nl : Z) : option Z :=
  if same then (if int_ok (nk * (nk + 1)) then Some (Z.shiftr (nk * (nk + 1)) 1) else None)
  else (if int_ok (nk * nl) then Some (nk * nl) else None).

Section Thin.
Context {V : Type} (K : num V).
(* binary_pipeline.cc:131-152 for a candidate pair of weights wk, wl: probability [pr], draws r1 for
   line 140 and r2 for line 151.  None: no collision; otherwise the argument [type]. *)
Definition pr_coll (wk wl pr_norm rate : V) : V :=
  n_mul K (n_mul K (if n_lt K wl wk then wk else wl) pr_norm) rate.
Definition thin (wk wl pr r1 r2 : V) : option Z :=
  if n_le K pr r1 then None else
  let w_max := if n_lt K wl wk then wk else wl in
  let w_min := if n_lt K wl wk then wl else wk in
  let type := if n_eq K wl w_min then 2 else 1 in
  Some (if n_eq K w_max w_min || n_lt K (n_mul K w_max r2) w_min then 3 else type).
(* unary_pipeline.cc:58: does the particle collide *)
Definition thin_unary (pr r : V) : bool := n_lt K r pr.
End Thin.

(* Particles visited by a unary model (unary_pipeline.cc:35-47) and by the thermostat
   (langevin_pipeline.cc:28-31), pipeline by pipeline. *)
Definition visited (c : bool) (np P : Z) : list Z :=
  flat_map (fun r => let '(i, i1) := collision_range c np P r in zrange i i1) (zrange 0 P).

(* ---- Langevin thermostat, langevin_pipeline.cc:97-106 and 33-35, exact arithmetic ---- *)
Open Scope R_scope.
Definition lang_nudt (nu dt : R) (interval : Z) : R := nu * IZR interval * dt.
Definition lang_decay (nudt : R) : R := exp (- nudt).
Definition lang_drive (nudt kT m c : R) : R := sqrt ((- (exp (- 2 * nudt) - 1) * kT) / (m * c)).
Definition lang_step (decay drive u g : R) : R := decay * u + drive * g.
