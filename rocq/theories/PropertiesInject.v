(* C22 - C24: injected and emitted particles. *)
Require Import Reals Lra.
From Flocq Require Import Core IEEE754.BinarySingleNaN.
Require Import ZArith List Bool Lia ZifyBool.
Require Import Verif.FloatModel Verif.FloatProofs Verif.ConvProofs Verif.ParticleModel.
Require Import Verif.SortModel Verif.VoxelModel Verif.VoxelProofs Verif.GridModel Verif.GridProofs Verif.PartitionProofs.
Require Import Verif.InjectModel Verif.InjectProofs.
Import ListNotations.
Open Scope Z_scope.
Ltac Zify.zify_post_hook ::= idtac.

(* ---- C22 ---- *)

(* One axis of a usable domain: at least one cell, finite edges in order. *)
Definition extent_ok (e : extent) : Prop :=
  1 <= e_n e <= 2147483647 /\ is_finite (e_lo e) = true /\ is_finite (e_hi e) = true /\
  (B2R32 (e_lo e) < B2R32 (e_hi e))%R.
(* Position of coordinate d of cell number i (1 for the first), in cell widths from the low edge. *)
Definition cells_in (i : Z) (d : R) : R := (IZR (i - 1) + (d + 1) / 2)%R.
(* A position r of an axis and the cell and coordinate given to it: coordinate in [-1,1], and the
   position found again up to n*2^-50 + 2^-24 cell widths. *)
Definition well_placed (e : extent) (r : R) (i : Z) (d : R) : Prop :=
  1 <= i <= e_n e /\ (-1 <= d <= 1)%R /\
  (Rabs (cells_in i d - IZR (e_n e) * ((r - B2R32 (e_lo e)) / (B2R32 (e_hi e) - B2R32 (e_lo e)))) <=
     IZR (e_n e) * bpow radix2 (-50) + bpow radix2 (-24))%R /\
  (r = B2R32 (e_lo e) -> i = 1 /\ d = (-1)%R) /\ (r = B2R32 (e_hi e) -> i = e_n e /\ d = 1%R).

(* Every finite position the domain accepts is placed in one of its cells; the particle is
   appended, nothing else changes. *)
Theorem C22_lands_in_a_cell : forall M (move : part b32 -> M -> bool * part b32 * M) d (s : store_of M) x y z u w,
  extent_ok (d_x d) -> extent_ok (d_y d) -> extent_ok (d_z d) ->
  is_finite x = true -> is_finite y = true -> is_finite z = true ->
  accepts d x y z = true -> Z.of_nat (length (s_p s)) < s_max_np s ->
  exists ix iy iz dx dy dz,
    inject move d s x y z u w false None =
      Ok (mk_store (s_p s ++ [ParticleModel.mkp (mkv dx dy dz)
                                  (ix + (e_n (d_x d) + 2) * (iy + (e_n (d_y d) + 2) * iz)) u w])
                   (s_max_np s) (s_pm s) (s_max_nm s)) /\
    is_finite dx = true /\ is_finite dy = true /\ is_finite dz = true /\
    well_placed (d_x d) (B2R64 x) ix (B2R32 dx) /\ well_placed (d_y d) (B2R64 y) iy (B2R32 dy) /\
    well_placed (d_z d) (B2R64 z) iz (B2R32 dz).
Proof.
  intros M move d s x y z u w Ex Ey Ez Fx Fy Fz A Hn.
  assert (P : forall e j r, extent_ok e -> is_finite r = true -> outside e j r = false ->
    exists i t, place e r = Ok (i, t) /\ is_finite t = true /\ well_placed e (B2R64 r) i (B2R32 t)).
  { intros e j r (N & F1 & F2 & L) F O.
    apply (outside_ok e j r (B2R64 r) (B2R32 (e_lo e)) (B2R32 (e_hi e))) in O; [|split; auto|split; auto|split; auto].
    destruct O as (O & _).
    destruct (place_ok e r (B2R64 r) (B2R32 (e_lo e)) (B2R32 (e_hi e))) as (i & t & v & E & I & (Ft & Et) & V & Q1 & Q2 & Q3);
      [split; auto|split; auto|split; auto|exact L|exact O|exact N|].
    exists i, t. split; [exact E|]. split; [exact Ft|]. rewrite Et. repeat split; auto; try lia; try apply V; try apply Q1; try apply Q2; auto. }
  assert (NN : accepts d x y z = true) by exact A. unfold accepts in A. apply andb_true_iff in A. destruct A as [A Az]. apply andb_true_iff in A. destruct A as [Ax Ay].
  apply negb_true_iff in Ax, Ay, Az.
  destruct (P _ _ _ Ex Fx Ax) as (ix & dx & Px & Qx & Wx).
  destruct (P _ _ _ Ey Fy Ay) as (iy & dy & Py & Qy & Wy).
  destruct (P _ _ _ Ez Fz Az) as (iz & dz & Pz & Qz & Wz).
  exists ix, iy, iz, dx, dy, dz. unfold inject. rewrite NN. cbn [negb].
  rewrite (proj2 (Z.leb_gt _ _)) by exact Hn. rewrite Px, Py, Pz. cbn [bind fst snd].
  split; [reflexivity|]. repeat (split; [assumption|]). exact Wz.
Qed.
Print Assumptions C22_lands_in_a_cell.

(* The voxel of such a cell is inside the array and belongs to no ghost layer. *)
Theorem C22_voxel_is_interior : forall nx ny nz ix iy iz,
  1 <= ix <= nx -> 1 <= iy <= ny -> 1 <= iz <= nz ->
  let v := ix + (nx + 2) * (iy + (ny + 2) * iz) in
  0 <= v < (nx + 2) * (ny + 2) * (nz + 2) /\
  forall x y z, 0 <= x <= nx + 1 -> 0 <= y <= ny + 1 -> 0 <= z <= nz + 1 ->
    x + (nx + 2) * (y + (ny + 2) * z) = v -> 1 <= x <= nx /\ 1 <= y <= ny /\ 1 <= z <= nz.
Proof.
  intros nx ny nz ix iy iz Hx Hy Hz v. split.
  - apply (voxel_range nx ny nz ix iy iz); try lia; unfold in_mesh; lia.
  - intros x y z Bx By Bz E.
    assert (Q : (x, y, z) = (ix, iy, iz)) by (apply (voxel_inj nx ny nz); unfold in_mesh; try lia; exact E).
    injection Q as -> -> ->. lia.
Qed.
Print Assumptions C22_voxel_is_interior.

(* A position the domain does not accept changes nothing; what is accepted, in real numbers. *)
Theorem C22_acceptance : forall M (move : part b32 -> M -> bool * part b32 * M) d (s : store_of M) x y z u w aged,
  extent_ok (d_x d) -> extent_ok (d_y d) -> extent_ok (d_z d) ->
  is_finite x = true -> is_finite y = true -> is_finite z = true ->
  let inside e (joined : bool) r :=
    (B2R32 (e_lo e) <= r <= B2R32 (e_hi e))%R /\ (joined = true -> r <> B2R32 (e_hi e)) in
  (accepts d x y z = true <->
     inside (d_x d) (d_jx d) (B2R64 x) /\ inside (d_y d) (d_jy d) (B2R64 y) /\ inside (d_z d) (d_jz d) (B2R64 z)) /\
  (accepts d x y z = false -> inject move d s x y z u w false aged = Ok s).
Proof.
  intros M move d s x y z u w aged (_ & X1 & X2 & _) (_ & Y1 & Y2 & _) (_ & Z1 & Z2 & _) Fx Fy Fz inside. split.
  - unfold accepts. rewrite !andb_true_iff, !negb_true_iff.
    rewrite (outside_ok (d_x d) (d_jx d) x (B2R64 x) (B2R32 (e_lo (d_x d))) (B2R32 (e_hi (d_x d)))) by (split; auto).
    rewrite (outside_ok (d_y d) (d_jy d) y (B2R64 y) (B2R32 (e_lo (d_y d))) (B2R32 (e_hi (d_y d)))) by (split; auto).
    rewrite (outside_ok (d_z d) (d_jz d) z (B2R64 z) (B2R32 (e_lo (d_z d))) (B2R32 (e_hi (d_z d)))) by (split; auto).
    unfold inside. tauto.
  - intros A. unfold inject. rewrite A. reflexivity.
Qed.
Print Assumptions C22_acceptance.

(* Neighbouring domains share their edge, and the outer edges are the box corners rounded to
   float. *)
Theorem C22_edges : forall g0 g1 gp n, 1 <= gp <= 2147483647 -> is_finite g0 = true -> is_finite g1 = true ->
  (Rabs (B2R64 g0) <= bpow radix2 126)%R -> (Rabs (B2R64 g1) <= bpow radix2 126)%R ->
  (forall p, e_hi (axis_extent g0 g1 gp n p) = e_lo (axis_extent g0 g1 gp n (p + 1))) /\
  (forall p, 0 <= p <= gp -> is_finite (edge g0 g1 gp p) = true) /\
  B2R32 (edge g0 g1 gp 0) = RN32 (B2R64 g0) /\ B2R32 (edge g0 g1 gp gp) = RN32 (B2R64 g1).
Proof.
  intros g0 g1 gp n Hg F0 F1 B0 B1. split; [reflexivity|].
  assert (A : fin64 g0 (B2R64 g0)) by (split; auto). assert (B : fin64 g1 (B2R64 g1)) by (split; auto).
  split; [|split].
  - intros p Hp. apply (edge_val g0 g1 _ _ gp p Hg Hp A B B0 B1).
  - apply (edge_first g0 g1 _ _ gp Hg A B B0 B1).
  - apply (edge_last g0 g1 _ _ gp Hg A B B0 B1).
Qed.
Print Assumptions C22_edges.

Definition edge_R (g0 g1 : b64) (gp p : Z) : R := B2R32 (edge g0 g1 gp p).
(* Rounding did not put the edges out of order (it can when the domains are narrower than the
   float spacing). *)
Definition edges_in_order (g0 g1 : b64) (gp : Z) : Prop := forall p, 0 <= p < gp -> (edge_R g0 g1 gp p <= edge_R g0 g1 gp (p + 1)%Z)%R.
Definition corner_ok (g0 g1 : b64) : Prop :=
  is_finite g0 = true /\ is_finite g1 = true /\
  (Rabs (B2R64 g0) <= bpow radix2 126)%R /\ (Rabs (B2R64 g1) <= bpow radix2 126)%R.
(* In the box along one axis; the upper wall belongs to the box only if it is a real wall. *)
Definition in_box (g0 g1 : b64) (gp : Z) (wall : bool) (r : R) : Prop :=
  (edge_R g0 g1 gp 0 <= r)%R /\ ((r < edge_R g0 g1 gp gp)%R \/ (r = edge_R g0 g1 gp gp /\ wall = true)).

(* Over all ranks of a partitioned box (periodic, or with walls along every axis of more than one
   cell), a position in the box is accepted by exactly one rank and any other position by none. *)
Theorem C22_one_rank : forall (lo hi : vec b64) gpx gpy gpz lx ly lz (walls : bool) fbc pbc (G : Z -> grid) x y z,
  1 <= gpx <= 2147483647 -> 1 <= gpy <= 2147483647 -> 1 <= gpz <= 2147483647 -> 1 <= lx -> 1 <= ly -> 1 <= lz ->
  let nv := (lx + 2) * (ly + 2) * (lz + 2) in let size := gpx * gpy * gpz in
  6 * nv <= 2147483647 -> -4 <= fbc <= -1 -> pbc < 0 ->
  (forall r, 0 <= r < size ->
     (if walls then partition_walls fbc pbc r size (repeat nv (Z.to_nat size)) (lx * gpx) (ly * gpy) (lz * gpz) gpx gpy gpz
      else partition_periodic r size (repeat nv (Z.to_nat size)) (lx * gpx) (ly * gpy) (lz * gpz) gpx gpy gpz) = Ok (G r)) ->
  corner_ok (vx lo) (vx hi) -> corner_ok (vy lo) (vy hi) -> corner_ok (vz lo) (vz hi) ->
  edges_in_order (vx lo) (vx hi) gpx -> edges_in_order (vy lo) (vy hi) gpy -> edges_in_order (vz lo) (vz hi) gpz ->
  is_finite x = true -> is_finite y = true -> is_finite z = true ->
  let b := mk_box lo hi (gpx, gpy, gpz) (lx, ly, lz) in
  let dom px py pz := box_domain b (G (px + gpx * (py + gpy * pz))) (px, py, pz) in
  let inside := in_box (vx lo) (vx hi) gpx (walls && (1 <? lx * gpx)) (B2R64 x) /\
                in_box (vy lo) (vy hi) gpy (walls && (1 <? ly * gpy)) (B2R64 y) /\
                in_box (vz lo) (vz hi) gpz (walls && (1 <? lz * gpz)) (B2R64 z) in
  (inside -> exists px py pz, 0 <= px < gpx /\ 0 <= py < gpy /\ 0 <= pz < gpz /\
     accepts (dom px py pz) x y z = true /\
     forall qx qy qz, 0 <= qx < gpx -> 0 <= qy < gpy -> 0 <= qz < gpz ->
       accepts (dom qx qy qz) x y z = true -> qx = px /\ qy = py /\ qz = pz) /\
  (~ inside -> forall px py pz, 0 <= px < gpx -> 0 <= py < gpy -> 0 <= pz < gpz -> accepts (dom px py pz) x y z = false).
Proof.
  intros lo hi gpx gpy gpz lx ly lz walls fbc pbc G x y z P1 P2 P3 L1 L2 L3 nv size HN Hf Hp HG
    (CX1 & CX2 & CX3 & CX4) (CY1 & CY2 & CY3 & CY4) (CZ1 & CZ2 & CZ3 & CZ4) OX OY OZ Fx Fy Fz b dom inside.
  set (gp := (gpx, gpy, gpz)). set (n := (lx, ly, lz)).
  assert (HN6 : 6 * nv_of lx ly lz <= 2147483647) by exact HN.
  set (gn := if walls then (lx * gpx, ly * gpy, lz * gpz) else (1, 1, 1)).
  assert (HO : forall p, below gp p -> open_grid gp gn n fbc pbc p (G (rank3 gp p))).
  { intros p Bp. pose proof (HG _ (rank3_range gp p Bp)) as HGp. unfold gn. destruct walls.
    - destruct (partition_walls_spec fbc pbc (lx * gpx) (ly * gpy) (lz * gpz) gpx gpy gpz lx ly lz p Hf Hp ltac:(lia) ltac:(lia) ltac:(lia) L1 L2 L3 eq_refl eq_refl eq_refl HN6 Bp) as (g & E & T).
      fold gp in E. change (nv_of lx ly lz) with nv in E. change (gpx * gpy * gpz) with size in E.
      rewrite HGp in E. injection E as <-. exact T.
    - apply torus_open.
      destruct (partition_periodic_spec (lx * gpx) (ly * gpy) (lz * gpz) gpx gpy gpz lx ly lz p ltac:(lia) ltac:(lia) ltac:(lia) L1 L2 L3 eq_refl eq_refl eq_refl HN6 Bp) as (g & E & T).
      fold gp in E. change (nv_of lx ly lz) with nv in E. change (gpx * gpy * gpz) with size in E.
      rewrite HGp in E. injection E as <-. exact T. }
  assert (PG : pos3 gp) by (cbn; lia).
  assert (J : forall px py pz f, 0 <= px < gpx -> 0 <= py < gpy -> 0 <= pz < gpz -> 0 <= f < 6 ->
    (0 <=? g_bc (G (px + gpx * (py + gpy * pz))) (face_code f)) = negb (at_wall gp gn (px, py, pz) f)).
  { intros px py pz f Hx Hy Hz Hff. assert (Bp : below gp (px, py, pz)) by (cbn; lia).
    destruct (HO _ Bp) as (_ & _ & _ & _ & C & _). change (px + gpx * (py + gpy * pz)) with (rank3 gp (px, py, pz)).
    rewrite (C f Hff). destruct (at_wall gp gn (px, py, pz) f); cbn [negb]; [lia|].
    pose proof (rank3_range gp (mod3 gp (step f (px, py, pz)))) as RR. apply Z.leb_le. apply RR. apply (index_to_rank_spec gpx gpy gpz (step f (px, py, pz))); lia. }
  assert (Wx : forall px py pz, 0 <= px < gpx -> 0 <= py < gpy -> 0 <= pz < gpz ->
    (0 <=? g_bc (G (px + gpx * (py + gpy * pz))) (bcode 1 0 0)) = negb ((px =? gpx - 1) && (walls && (1 <? lx * gpx)))).
  { intros px py pz Hx Hy Hz. change (bcode 1 0 0) with (face_code 3). rewrite J by (auto; lia).
    unfold at_wall, gn. cbn [Z.modulo Z.div_eucl]. destruct walls; reflexivity. }
  assert (Wy : forall px py pz, 0 <= px < gpx -> 0 <= py < gpy -> 0 <= pz < gpz ->
    (0 <=? g_bc (G (px + gpx * (py + gpy * pz))) (bcode 0 1 0)) = negb ((py =? gpy - 1) && (walls && (1 <? ly * gpy)))).
  { intros px py pz Hx Hy Hz. change (bcode 0 1 0) with (face_code 4). rewrite J by (auto; lia).
    unfold at_wall, gn. destruct walls; reflexivity. }
  assert (Wz : forall px py pz, 0 <= px < gpx -> 0 <= py < gpy -> 0 <= pz < gpz ->
    (0 <=? g_bc (G (px + gpx * (py + gpy * pz))) (bcode 0 0 1)) = negb ((pz =? gpz - 1) && (walls && (1 <? lz * gpz)))).
  { intros px py pz Hx Hy Hz. change (bcode 0 0 1) with (face_code 5). rewrite J by (auto; lia).
    unfold at_wall, gn. destruct walls; reflexivity. }
  (* one axis *)
  set (jn := fun (w : bool) g p => negb ((p =? g - 1) && w)).
  assert (Ax : forall g0 g1 g nn w p r, 1 <= g <= 2147483647 -> 0 <= p < g ->
     is_finite g0 = true -> is_finite g1 = true -> (Rabs (B2R64 g0) <= bpow radix2 126)%R -> (Rabs (B2R64 g1) <= bpow radix2 126)%R ->
     is_finite r = true ->
     negb (outside (axis_extent g0 g1 g nn p) (jn w g p) r) = true <-> takes (edge_R g0 g1 g) (jn w g) p (B2R64 r)).
  { intros g0 g1 g nn w p r Hg Hpp F0 F1 B0 B1 Fr. rewrite negb_true_iff.
    apply outside_ok; [split; auto| |]; unfold axis_extent; cbn [e_lo e_hi].
    - split; [|reflexivity]. apply (edge_val g0 g1 (B2R64 g0) (B2R64 g1) g p); auto; try lia; split; auto.
    - split; [|reflexivity]. apply (edge_val g0 g1 (B2R64 g0) (B2R64 g1) g (p + 1)); auto; try lia; split; auto. }
  set (TX := takes (edge_R (vx lo) (vx hi) gpx) (jn (walls && (1 <? lx * gpx)) gpx)).
  set (TY := takes (edge_R (vy lo) (vy hi) gpy) (jn (walls && (1 <? ly * gpy)) gpy)).
  set (TZ := takes (edge_R (vz lo) (vz hi) gpz) (jn (walls && (1 <? lz * gpz)) gpz)).
  assert (ACC : forall px py pz, 0 <= px < gpx -> 0 <= py < gpy -> 0 <= pz < gpz ->
     accepts (dom px py pz) x y z = true <-> TX px (B2R64 x) /\ TY py (B2R64 y) /\ TZ pz (B2R64 z)).
  { intros px py pz Hx Hy Hz. unfold accepts, dom, box_domain, b. cbn [b_lo b_hi b_gp b_n d_x d_y d_z d_jx d_jy d_jz].
    rewrite Wx, Wy, Wz by assumption. rewrite !andb_true_iff.
    fold (jn (walls && (1 <? lx * gpx)) gpx px). fold (jn (walls && (1 <? ly * gpy)) gpy py). fold (jn (walls && (1 <? lz * gpz)) gpz pz).
    rewrite !Ax by assumption. fold TX TY TZ. tauto. }
  assert (JN : forall w g k, 0 <= k < g - 1 -> jn w g k = true) by (intros; unfold jn; rewrite (proj2 (Z.eqb_neq _ _)) by lia; reflexivity).
  assert (JL : forall w g, jn w g (g - 1) = negb w) by (intros; unfold jn; now rewrite Z.eqb_refl).
  assert (IB : forall g0 g1 g w r, 1 <= g -> edges_in_order g0 g1 g ->
     (exists p, 0 <= p < g /\ takes (edge_R g0 g1 g) (jn w g) p r) <-> in_box g0 g1 g w r).
  { intros g0 g1 g w r Hg O. rewrite (takes_iff (edge_R g0 g1 g) (jn w g) g r Hg O (JN w g)). rewrite JL. unfold in_box.
    destruct w; cbn [negb]; intuition congruence. }
  split.
  - intros (I1 & I2 & I3).
    apply IB in I1; [|lia|exact OX]. apply IB in I2; [|lia|exact OY]. apply IB in I3; [|lia|exact OZ].
    destruct I1 as (px & Hx & T1), I2 as (py & Hy & T2), I3 as (pz & Hz & T3).
    exists px, py, pz. do 3 (split; [assumption|]). split; [apply ACC; auto|].
    intros qx qy qz Qx Qy Qz A. apply ACC in A; auto. destruct A as (A1 & A2 & A3).
    split; [exact (takes_once _ _ _ _ _ _ OX (JN _ _) Qx Hx A1 T1)|].
    split; [exact (takes_once _ _ _ _ _ _ OY (JN _ _) Qy Hy A2 T2)|exact (takes_once _ _ _ _ _ _ OZ (JN _ _) Qz Hz A3 T3)].
  - intros NI px py pz Hx Hy Hz. destruct (accepts (dom px py pz) x y z) eqn:E; [|reflexivity]. exfalso. apply NI.
    apply ACC in E; auto. destruct E as (A1 & A2 & A3). unfold inside.
    split; [apply IB; [lia|exact OX|exists px; auto]|]. split; [apply IB; [lia|exact OY|exists py; auto]|apply IB; [lia|exact OZ|exists pz; auto]].
Qed.
Print Assumptions C22_one_rank.

(* A NaN coordinate passes the tests of lines 35-37 on every rank and is then converted to int. *)
Theorem C22_nan_refuted : exists d (s : store_of unit) x y z u w,
  extent_ok (d_x d) /\ extent_ok (d_y d) /\ extent_ok (d_z d) /\
  inject (fun p m => (false, p, m)) d s x y z u w false None = UB.
Proof.
  pose (e := mk_extent 4 (f_of_Z 0) (f_of_Z 1)).
  assert (E : extent_ok e).
  { assert (E0 : B2R32 (f_of_Z 0) = 0%R) by (apply (fin32_Z 0); now vm_compute).
    assert (E1 : B2R32 (f_of_Z 1) = 1%R) by (apply (fin32_Z 1); now vm_compute).
    split; [cbn; lia|]. split; [now vm_compute|]. split; [now vm_compute|]. unfold e, e_lo, e_hi. rewrite E0, E1. lra. }
  exists (mk_domain e e e true true true), (mk_store [] 10 [] 10), B754_nan, (d_of_Z 0), (d_of_Z 0),
    (mkv (f_of_Z 0) (f_of_Z 0) (f_of_Z 0)), (f_of_Z 1).
  do 3 (split; [exact E|]). vm_compute. reflexivity.
Qed.
Print Assumptions C22_nan_refuted.

(* Narrow domains: the edges 2^24 + 0, 0.5, 1, 1.5, 2 become 2^24 + 0, 0, 0, 2, 2 as floats: in
   order, with three domains of no width. *)
Example C22_narrow :
  map (fun p => B2SF (edge (d_of_Z 16777216) (d_of_Z 16777218) 4 p)) (zrange 0 5) =
  [SpecFloat.S754_finite false 8388608 1; SpecFloat.S754_finite false 8388608 1; SpecFloat.S754_finite false 8388608 1;
   SpecFloat.S754_finite false 8388609 1; SpecFloat.S754_finite false 8388609 1].
Proof. vm_compute. reflexivity. Qed.

(* Position 0.8 of a domain [0,1] of 4 cells: cell 4, coordinate (4*0.8 - 3)*2 - 1 = -0.6. *)
Example C22_ex :
  match place (mk_extent 4 (f_of_Z 0) (f_of_Z 1)) (d_div (d_of_Z 4) (d_of_Z 5)) with
  | Ok (i, d) => (i, B2SF d) = (4, SpecFloat.S754_finite true 10066330 (-24))
  | _ => False end.
Proof. vm_compute. reflexivity. Qed.
(* The upper wall at 1: cell 4, coordinate 1; accepted only where bc < 0. *)
Example C22_ex_wall :
  let e := mk_extent 4 (f_of_Z 0) (f_of_Z 1) in
  match place e (d_of_Z 1) with Ok (i, d) => (i, B2SF d) = (4, SpecFloat.S754_finite false 8388608 (-23)) | _ => False end /\
  outside e true (d_of_Z 1) = true /\ outside e false (d_of_Z 1) = false.
Proof. vm_compute. repeat split; reflexivity. Qed.

(* ---- C23 ---- *)

(* Aging needs a free mover: when the position is accepted and placed, injection of an aged particle
   stays inside the mover array exactly when nm < max_nm; the code's test of line 87 only prints. *)
Theorem C23_capacity : forall M (move : part b32 -> M -> bool * part b32 * M) d (s : store_of M) x y z u w m,
  extent_ok (d_x d) -> extent_ok (d_y d) -> extent_ok (d_z d) ->
  is_finite x = true -> is_finite y = true -> is_finite z = true ->
  accepts d x y z = true -> Z.of_nat (length (s_p s)) < s_max_np s ->
  (inject move d s x y z u w false (Some m) <> UB <-> Z.of_nat (length (s_pm s)) < s_max_nm s).
Proof.
  intros M move d s x y z u w m Ex Ey Ez Fx Fy Fz A Hn.
  destruct (C22_lands_in_a_cell M move d s x y z u w Ex Ey Ez Fx Fy Fz A Hn) as (ix & iy & iz & dx & dy & dz & E & _).
  unfold inject in *. rewrite A in *. cbn [negb] in *. rewrite (proj2 (Z.leb_gt _ _)) in * by exact Hn.
  destruct (place (d_x d) x); try discriminate. destruct (place (d_y d) y); try discriminate. destruct (place (d_z d) z); try discriminate.
  cbn [bind] in *. destruct (Z.leb_spec (s_max_nm s) (Z.of_nat (length (s_pm s)))) as [L|L].
  - split; [congruence|lia].
  - split; [lia|intros _]. destruct (move _ m) as [[? ?] ?]. discriminate.
Qed.
Print Assumptions C23_capacity.

(* With the capacities respected before, they are respected after every call that returns, and the
   lists only grow: at most one particle and one mover, the mover naming the new particle. *)
Theorem C23_within_bounds : forall M (move : part b32 -> M -> bool * part b32 * M) d (s s' : store_of M) x y z u w wneg aged,
  Z.of_nat (length (s_p s)) <= s_max_np s -> Z.of_nat (length (s_pm s)) <= s_max_nm s ->
  inject move d s x y z u w wneg aged = Ok s' ->
  s_max_np s' = s_max_np s /\ s_max_nm s' = s_max_nm s /\
  Z.of_nat (length (s_p s')) <= s_max_np s' /\ Z.of_nat (length (s_pm s')) <= s_max_nm s' /\
  (s' = s \/ (exists p, s_p s' = s_p s ++ [p]) /\
             (s_pm s' = s_pm s \/ exists m, s_pm s' = s_pm s ++ [(m, Z.of_nat (length (s_p s)))])).
Proof.
  intros M move d s s' x y z u w wneg aged H1 H2. unfold inject.
  destruct wneg; [discriminate|]. destruct (accepts d x y z); cbn [negb].
  2: { intros [= <-]. do 4 (split; [auto|]). now left. }
  destruct (Z.leb_spec (s_max_np s) (Z.of_nat (length (s_p s)))) as [L|L]; [discriminate|].
  destruct (place (d_x d) x); try discriminate. destruct (place (d_y d) y); try discriminate. destruct (place (d_z d) z); try discriminate.
  cbn [bind]. destruct aged as [m|].
  - destruct (Z.leb_spec (s_max_nm s) (Z.of_nat (length (s_pm s)))) as [L'|L']; [discriminate|].
    destruct (move _ m) as [[busy p'] m'] eqn:Em. intros [= <-]. cbn [s_p s_max_np s_pm s_max_nm].
    rewrite !app_length. cbn [length]. do 2 (split; [reflexivity|]). split; [lia|].
    split; [destruct busy; cbn [length]; lia|]. right. split; [eauto|]. destruct busy; [right; eauto|left; apply app_nil_r].
  - intros [= <-]. cbn [s_p s_max_np s_pm s_max_nm]. rewrite !app_length. cbn [length].
    do 2 (split; [reflexivity|]). split; [lia|]. split; [lia|]. right. split; [eauto|now left].
Qed.
Print Assumptions C23_within_bounds.

(* A full particle array stops with ERROR. *)
Theorem C23_no_room : forall M (move : part b32 -> M -> bool * part b32 * M) d (s : store_of M) x y z u w aged,
  accepts d x y z = true -> s_max_np s <= Z.of_nat (length (s_p s)) -> inject move d s x y z u w false aged = Err.
Proof. intros. unfold inject. rewrite H. cbn [negb]. now rewrite (proj2 (Z.leb_le _ _)) by assumption. Qed.
Print Assumptions C23_no_room.

Definition unit_extent := mk_extent 4 (f_of_Z 0) (f_of_Z 1).
Definition unit_domain := mk_domain unit_extent unit_extent unit_extent true true true.
(* "Never writes beyond the mover list" is false: one mover slot, already used. *)
Theorem C23_full_list_refuted : exists d (s : store_of (vec b32)) x y z u w m,
  Z.of_nat (length (s_p s)) < s_max_np s /\ Z.of_nat (length (s_pm s)) <= s_max_nm s /\
  inject (fun p m => (true, p, m)) d s x y z u w false (Some m) = UB.
Proof.
  pose (o := f_of_Z 0). pose (v := mkv o o o). pose (h := d_div (d_of_Z 1) (d_of_Z 2)).
  exists unit_domain, (mk_store [] 10 [(v, 0)] 1), h, h, h, v, (f_of_Z 1), v.
  split; [now vm_compute|]. split; [vm_compute; congruence|]. vm_compute. reflexivity.
Qed.
Print Assumptions C23_full_list_refuted.
Example C23_ex :
  let o := f_of_Z 0 in let v := mkv o o o in let h := d_div (d_of_Z 1) (d_of_Z 2) in
  match inject (fun p m => (true, p, m)) unit_domain (mk_store [ParticleModel.mkp v 43 v o] 10 [(v, 0)] 2) h h h v (f_of_Z 1) false (Some v) with
  | Ok s => (map ParticleModel.pi (s_p s), map snd (s_pm s)) = ([43; 3 + 6 * (3 + 6 * 3)], [0; 1])
  | _ => False end.
Proof. vm_compute. reflexivity. Qed.

(* ---- C24 ---- *)

(* Weights of the particles emitted from one face: the first carries the weight of the face, and
   each later one carries the age drawn for the last particle that was aged, if any was. *)
Fixpoint weights_from {V} (w : V) (room : Z) (free : Z) (turns : list (V * bool)) : list V :=
  match turns with
  | [] => []
  | (age, busy) :: l =>
      if room <=? 0 then [] else
      w :: (if free <=? 0 then weights_from w (room - 1) free l
            else weights_from age (room - 1) (if busy then free - 1 else free) l)
  end.

Lemma emit_full {V} (K : num V) max_np max_nm cdt l e : max_np <= em_np e ->
  em_weights (fold_left (emit_one K max_np max_nm cdt) l e) = em_weights e /\
  em_rhob (fold_left (emit_one K max_np max_nm cdt) l e) = em_rhob e.
Proof.
  revert e. induction l as [|[r bz] l IH]; intros e H; [auto|]. cbn [fold_left emit_one].
  rewrite (proj2 (Z.leb_le _ _)) by exact H. match goal with |- context [fold_left _ l ?e'] => destruct (IH e' H) as (-> & ->) end. auto.
Qed.

Lemma emit_weights {V} (K : num V) max_np max_nm cdt l e :
  em_weights (fold_left (emit_one K max_np max_nm cdt) l e) =
    em_weights e ++ weights_from (em_w e) (max_np - em_np e) (max_nm - em_nm e) (map (fun rb => (age_of K cdt (fst rb), snd rb)) l) /\
  (em_rhob e = em_weights e -> em_rhob (fold_left (emit_one K max_np max_nm cdt) l e) =
     em_weights (fold_left (emit_one K max_np max_nm cdt) l e)).
Proof.
  revert e. induction l as [|[r bz] l IH]; intros e; [split; [now rewrite app_nil_r|auto]|].
  cbn [map fst snd weights_from].
  destruct (Z.leb_spec (max_np - em_np e) 0) as [L|L].
  - assert (L' : max_np <= em_np e) by lia. destruct (emit_full K max_np max_nm cdt ((r, bz) :: l) e L') as (-> & ->).
    split; [now rewrite app_nil_r|auto].
  - cbn [fold_left emit_one]. rewrite (proj2 (Z.leb_gt max_np (em_np e))) by lia.
    destruct (Z.leb_spec max_nm (em_nm e)) as [M|M].
    + rewrite (proj2 (Z.leb_le (max_nm - em_nm e) 0)) by lia.
      match goal with |- context [fold_left _ l ?e'] => destruct (IH e') as (I1 & I2) end.
      cbn [em_w em_np em_nm em_weights em_rhob] in I1, I2. split; [|intros E; apply I2; now rewrite E].
      rewrite I1, <- app_assoc. cbn [app]. now replace (max_np - (em_np e + 1)) with (max_np - em_np e - 1) by lia.
    + rewrite (proj2 (Z.leb_gt (max_nm - em_nm e) 0)) by lia.
      match goal with |- context [fold_left _ l ?e'] => destruct (IH e') as (I1 & I2) end.
      cbn [em_w em_np em_nm em_weights em_rhob] in I1, I2. split; [|intros E; apply I2; now rewrite E].
      rewrite I1, <- app_assoc. cbn [app]. replace (max_np - (em_np e + 1)) with (max_np - em_np e - 1) by lia.
      destruct bz; [replace (max_nm - (em_nm e + 1)) with (max_nm - em_nm e - 1) by lia|]; reflexivity.
Qed.

(* For any arithmetic: a face that can emit emits with these weights, and leaves the same charge
   behind on the face; a face below the threshold emits nothing. *)
Theorem C24_weights : forall V (K : num V) max_np max_nm cdt pos q thresh norm e np nm draws,
  let out := emit_face K max_np max_nm cdt pos q thresh norm e np nm draws in
  em_rhob out = em_weights out /\
  em_weights out =
    (if n_lt K thresh (n_mul K (if pos then q else n_opp K q) e)
     then weights_from (face_weight K norm e) (max_np - np) (max_nm - nm) (map (fun rb => (age_of K cdt (fst rb), snd rb)) draws)
     else []).
Proof.
  intros V K max_np max_nm cdt pos q thresh norm e np nm draws out. unfold out, emit_face.
  destruct (n_lt K thresh _); [|auto].
  destruct (emit_weights K max_np max_nm cdt draws (mk_em (face_weight K norm e) np nm [] [] [] 0 0)) as (A & B).
  split; [apply B; reflexivity|]. exact A.
Qed.
Print Assumptions C24_weights.

(* The first particle is right; all are right when there is no free mover; otherwise the second one
   carries the age of the first. *)
Theorem C24_first_right : forall V (w : V) room free turns, 1 <= room -> turns <> [] ->
  hd_error (weights_from w room free turns) = Some w.
Proof. intros V w room free [|[a b] l] H N; [congruence|]. cbn. now rewrite (proj2 (Z.leb_gt _ _)) by lia. Qed.
Print Assumptions C24_first_right.

Theorem C24_right_without_movers : forall V (w : V) turns room free, free <= 0 ->
  Z.of_nat (length turns) <= room -> weights_from w room free turns = repeat w (length turns).
Proof.
  intros V w turns. induction turns as [|[a b] l IH]; intros room free Hf Hr; [reflexivity|].
  cbn [weights_from length repeat] in *. rewrite (proj2 (Z.leb_gt _ _)) by lia. rewrite (proj2 (Z.leb_le _ _)) by lia.
  f_equal. apply IH; lia.
Qed.
Print Assumptions C24_right_without_movers.

Theorem C24_later_wrong : forall V (w : V) a b a' b' l room free, 2 <= room -> 1 <= free ->
  nth_error (weights_from w room free ((a, b) :: (a', b') :: l)) 1 = Some a.
Proof.
  intros V w a b a' b' l room free H1 H2. cbn [weights_from]. rewrite (proj2 (Z.leb_gt room 0)) by lia.
  rewrite (proj2 (Z.leb_gt free 0)) by lia. rewrite (proj2 (Z.leb_gt (room - 1) 0)) by lia. reflexivity.
Qed.
Print Assumptions C24_later_wrong.

(* Total weight left per face, over the reals, with free movers for all: the weight once plus the
   ages of all but the last particle - not n*weight. *)
Theorem C24_total : forall (w : R) turns room free,
  Z.of_nat (length turns) <= room -> Z.of_nat (length turns) <= free -> turns <> [] ->
  fold_right Rplus 0%R (weights_from w room free turns) = (w + fold_right Rplus 0 (map fst (removelast turns)))%R.
Proof.
  intros w turns. revert w. induction turns as [|[a b] l IH]; intros w room free Hr Hf N; [congruence|].
  cbn [length] in Hr, Hf. cbn [weights_from]. rewrite (proj2 (Z.leb_gt room 0)) by lia. rewrite (proj2 (Z.leb_gt free 0)) by lia.
  destruct l as [|c l]; [cbn; reflexivity|].
  change (removelast ((a, b) :: c :: l)) with ((a, b) :: removelast (c :: l)). cbn [fold_right map fst].
  rewrite IH; [reflexivity|cbn [length] in *; lia|destruct b; cbn [length] in *; lia|discriminate].
Qed.
Print Assumptions C24_total.

(* "Every emitted particle carries the weight of the face" is false: charge 1, field 4, norm 1/8,
   weight sqrt(64)/8 = 1 in binary32, two particles at rest of age 1/2: weights 1 and 1/2. *)
Definition at_rest : draw b32 := mk_draw (mkv (f_of_Z 0) (f_of_Z 0) (f_of_Z 0)) (f_of_Z 0) (f_of_Z 0) (f_div (f_of_Z 1) (f_of_Z 2)).
Theorem C24_weights_refuted : exists max_np max_nm cdt q thresh norm e draws,
  let out := emit_face Fnum max_np max_nm cdt true q thresh norm e 0 0 draws in
  length (em_weights out) = 2%nat /\
  exists w', In w' (em_weights out) /\ n_eq Fnum w' (face_weight Fnum norm e) = false.
Proof.
  exists 10, 10, (f_of_Z 1), (f_of_Z 1), (f_of_Z 0), (f_div (f_of_Z 1) (f_of_Z 8)), (f_of_Z 4), [(at_rest, false); (at_rest, false)].
  cbv zeta. match goal with |- _ = _ /\ ex (fun w' => In w' ?l /\ _) => assert (L : length l = 2%nat) by (vm_compute; reflexivity);
    split; [exact L|]; exists (nth 1 l (f_of_Z 0)); split; [apply nth_In; rewrite L; lia|vm_compute; reflexivity] end.
Qed.
Print Assumptions C24_weights_refuted.
Example C24_ex :
  let out := emit_face Fnum 10 1 (f_of_Z 1) true (f_of_Z 1) (f_of_Z 0) (f_div (f_of_Z 1) (f_of_Z 8)) (f_of_Z 4) 7 0
               [(at_rest, true); (at_rest, true); (at_rest, true); (at_rest, true)] in
  (map B2SF (em_weights out), em_np out, em_nm out, em_np_skip out, em_nm_skip out) =
  ([SpecFloat.S754_finite false 8388608 (-23); SpecFloat.S754_finite false 8388608 (-24); SpecFloat.S754_finite false 8388608 (-24)], 10, 1, 1, 2).
Proof. vm_compute. reflexivity. Qed.
