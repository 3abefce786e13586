(* C11 - C18: particles. *)
Require Import Reals Lra QArith.
Require Import ZArith List Bool Lia ZifyBool Permutation Sorting.Sorted.
Require SpecFloat.
From Flocq Require Import IEEE754.BinarySingleNaN.
Require Import Verif.FloatModel Verif.VoxelModel Verif.DistributeModel Verif.SortModel.
Require Import Verif.ParticleModel Verif.ParticleSpec Verif.ParticleProofs Verif.ParticleProofs2 Verif.ParticleProofs3.
Require Import Verif.KernelProofs Verif.MoverModel Verif.MoverProofs Verif.RemoveProofs Verif.BoundaryProofs Verif.AdvanceProofs.
Import ListNotations.
Open Scope Z_scope.

(* A small mesh for the examples: two cells in a row, voxels 17 and 18 of a 2x1x1 mesh (36 voxels,
   sy=4, sz=12).  17 and 18 are x-neighbours; the high x face of 18 absorbs (-2); the z faces are
   periodic (each cell is its own z neighbour); all else reflects. *)
Definition ex_table : list Z :=
  let t := repeat (-1) 216 in
  let t := put t (6 * 17 + 3) 18 in let t := put t (6 * 18 + 0) 17 in
  let t := put t (6 * 18 + 3) (-2) in
  let t := put t (6 * 17 + 2) 17 in let t := put t (6 * 17 + 5) 17 in
  let t := put t (6 * 18 + 2) 18 in put t (6 * 18 + 5) 18.
Definition ex_mesh : mesh := mk_mesh ex_table 0 35.
(* The same with the z faces reflecting. *)
Definition ex_mesh_open : mesh :=
  mk_mesh (put (put (put (put ex_table (6 * 17 + 2) (-1)) (6 * 17 + 5) (-1)) (6 * 18 + 2) (-1)) (6 * 18 + 5) (-1)) 0 35.
Definition ex_real (v : Z) : Prop := v = 17 \/ v = 18.

(* ---- C11 ---- *)

(* Continuity against every test function phi that the neighbour table respects (glued): the change
   of the particle's charge assignment equals the charge moved along the edges. *)
Theorem C11_move_continuity : forall fuel g qsp sy sz phi p disp st p' disp' log,
  glued sy sz phi g ->
  move_p Rnum fuel g qsp p disp = MDone st p' disp' log ->
  (charge sy sz phi (qsp * pw p) (voxel_of st (pi p')) (pd p') -
   charge sy sz phi (qsp * pw p) (pi p) (pd p) = flows sy sz phi log)%R.
Proof.
  intros fuel g qsp sy sz phi p disp st p' disp' log G E. unfold move_p in E.
  pose proof (move_continuity fuel g _ sy sz phi G _ _ _ _ _ _ _ E) as H. unfold flows at 2 in H. cbn [map sumR fold_right] in H.
  cbn [n_mul Rnum] in H. lra.
Qed.
Print Assumptions C11_move_continuity.

(* Node by node, with the code's own charge deposition (rho_p), current deposition (accumulator)
   and accumulator unload: rho' - rho = - dt * (div J' - div J) at every node n, for a table in
   which particles only pass between adjoining voxels. *)
Theorem C11_node_continuity : forall fuel g qsp sy sz p disp st p' disp' log rd dt a rho n,
  adjoining sy sz g -> dt <> 0%R ->
  move_p Rnum fuel g qsp p disp = MDone st p' disp' log ->
  let r8V := (vx rd * vy rd * vz rd / 8)%R in
  let before := apply_adds Rnum (rho_adds Rnum sy sz qsp r8V p) rho n in
  let after := apply_adds Rnum (rho_adds Rnum sy sz qsp r8V (mkp (pd p') (voxel_of st (pi p')) (pu p') (pw p'))) rho n in
  let J0 := unload Rnum sy sz (unload_coef rd dt) a in
  let J1 := unload Rnum sy sz (unload_coef rd dt) (acc_streaks Rnum log a) in
  pw p' = pw p ->
  (after - before = - dt * (divj sy sz rd J1 n - divj sy sz rd J0 n))%R.
Proof.
  intros fuel g qsp sy sz p disp st p' disp' log rd dt a rho n A Hdt E. cbv zeta. intros W.
  rewrite !apply_adds_sum, !rho_adds_charge. cbn [pw pi pd]. rewrite W.
  pose proof (C11_move_continuity fuel g qsp sy sz (ind n) p disp st p' disp' log (adjoining_glued _ _ _ _ A) E) as C.
  pose proof (divj_streaks sy sz rd dt a log n Hdt) as D. rewrite <- C in D.
  set (c1 := charge sy sz (ind n) (qsp * pw p) (voxel_of st (pi p')) (pd p')) in *.
  set (c0 := charge sy sz (ind n) (qsp * pw p) (pi p) (pd p)) in *.
  set (j1 := divj sy sz rd (unload Rnum sy sz (unload_coef rd dt) (acc_streaks Rnum log a)) n) in *.
  set (j0 := divj sy sz rd (unload Rnum sy sz (unload_coef rd dt) a) n) in *.
  clearbody c1 c0 j1 j0.
  replace (- dt * (j1 - j0))%R with (- (dt * j1) + dt * j0)%R by ring. rewrite D. field.
Qed.
Print Assumptions C11_node_continuity.

(* The whole advance of one particle (in-cell branch included) is move_p applied to the pushed
   particle, so the two theorems above apply to it. *)
Theorem C11_advance_is_move : forall k g qdt_2mc cdt qsp f p,
  let u := push_u Rnum qdt_2mc f p in
  advance_one Rnum (S k) g qdt_2mc cdt qsp f p =
  move_p Rnum (S k) g qsp (mkp (pd p) (pi p) u (pw p)) (displacement Rnum cdt u).
Proof. exact advance_is_move. Qed.
Print Assumptions C11_advance_is_move.

(* A particle that crosses from 17 to 18, reflects off a y wall and stops at the absorbing face,
   computed with rationals: its final state, and continuity at every one of the 36 nodes. *)
Definition ex_p : part Q := mkp (mkv (1#2) (1#4) (-1#2))%Q 17 (mkv 1 2 3)%Q (3#1)%Q.
Definition ex_run : mres := move_p Qnum 10 ex_mesh_open (2#1)%Q ex_p (mkv 2 1 (1#8))%Q.
Example C11_example_move : match ex_run with
  | MDone st p d log => st = true /\ p = mkp (mkv 1 (1#2) (-11#32))%Q (8 * 18 + 3) (mkv 1 (-2#1) 3)%Q (3#1)%Q /\
      d = mkv (3#4) (-3#8) (3#64)%Q /\ map fst log = [17; 18; 18]
  | _ => False end.
Proof. vm_compute. repeat split. Qed.
Example C11_example_node : match ex_run with
  | MDone st p d log =>
      let dep q := fun n => apply_adds Qnum (rho_adds Qnum 4 12 (2#1)%Q (1#8)%Q q) (fun _ => 0%Q) n in
      let J := unload Qnum 4 12 (mkv (1#4) (1#4) (1#4))%Q (acc_streaks Qnum log (fun _ _ => 0%Q)) in
      forallb (fun n => Qeq_bool (dep (mkp (pd p) 18 (pu p) (pw p)) n - dep ex_p n)%Q
                 (- ((vx (J n) - vx (J (n - 1)%Z)) + (vy (J n) - vy (J (n - 4)%Z)) + (vz (J n) - vz (J (n - 12)%Z))))%Q)
              (zrange 0 36) = true
  | _ => False end.
Proof. vm_compute. reflexivity. Qed.

(* ---- C12 ---- *)

(* In exact arithmetic, whenever move_p ends: the particle is in [-1,1]^3; if the move is complete
   its voxel is a real cell and nothing of the displacement is left, otherwise it sits exactly on a
   face f of a real cell v that the table closes, with index 8v+f; |travelled| + |left| = |asked| on
   each axis (an accumulator entry is 4 q times the distance, hence the factors); momentum and
   displacement components only change sign, together; without reflecting faces the displacement
   adds up with its sign. *)
Theorem C12_move_stays_in_cell : forall fuel g real qsp p disp st p' disp' log,
  table_ok g real -> in_cell (pd p) -> real (pi p) ->
  move_p Rnum fuel g qsp p disp = MDone st p' disp' log ->
  in_cell (pd p') /\
  (if st then exists v f n, real v /\ 0 <= f < 6 /\ pi p' = 8 * v + f /\ nbr_at g v f = Some n /\
                n <> reflect_particles /\ (n < mrangel g \/ mrangeh g < n) /\
                vget (pd p') (face_axis f) = (if face_high f then 1 else -1)%R
   else real (pi p') /\ disp' = mkv 0%R 0%R 0%R) /\
  (forall a, let q := (qsp * pw p)%R in
     (sumR (map (fun e => Rabs (total_j a e)) log) + 4 * Rabs q * Rabs (vget disp' a) = 4 * Rabs q * Rabs (vget disp a))%R) /\
  pw p' = pw p /\
  (forall a, exists sg : R, (sg = 1 \/ sg = -1)%R /\ vget (pu p') a = (sg * vget (pu p) a)%R /\
     (0 <= sg * vget disp' a * vget disp a)%R) /\
  ((forall v f, nbr_at g v f <> Some reflect_particles) ->
     pu p' = pu p /\
     forall a, (sumR (map (total_j a) log) + 4 * (qsp * pw p) * vget disp' a = 4 * (qsp * pw p) * vget disp a)%R).
Proof.
  intros fuel g real qsp p disp st p' disp' log T I R E. unfold move_p in E.
  destruct (move_post fuel g real _ T p disp [] st p' disp' log (proj1 (in_cell_iff _) I) R E) as (H1 & H2 & H3 & H4 & H5 & H6).
  split; [apply in_cell_iff, H1|]. split; [exact H2|]. split.
  { intros a. specialize (H3 a). cbv zeta. unfold trav in H3. cbn [map sumR fold_right n_mul Rnum] in H3. lra. }
  split; [exact H4|]. split; [exact H5|]. intros N. destruct (H6 N) as (H7 & H8). split; [exact H7|].
  intros a. specialize (H8 a). unfold strav in H8. cbn [map sumR fold_right n_mul Rnum] in H8. lra.
Qed.
Print Assumptions C12_move_stays_in_cell.

(* It does end, after at most 3(k+1)+1 streaks, when no component of the displacement exceeds k. *)
Theorem C12_move_ends : forall fuel g real qsp k p disp,
  table_ok g real -> in_cell (pd p) -> real (pi p) ->
  (forall a, Rabs (vget disp a) <= INR k)%R -> (3 * S k < fuel)%nat ->
  exists st p' disp' log, move_p Rnum fuel g qsp p disp = MDone st p' disp' log.
Proof.
  intros fuel g real qsp k p disp T I R D F. unfold move_p.
  apply (move_total fuel g real _ T (fun _ => S k)); [apply in_cell_iff, I|exact R|apply pot_bound; [apply in_cell_iff, I|exact D]|lia].
Qed.
Print Assumptions C12_move_ends.

(* The code's decoding of the stored index (boundary_p.cc:262-264: face = i & 7; voxel = i >> 3). *)
Theorem C12_index_decodes : forall v f, 0 <= v -> 0 <= f < 6 ->
  Z.shiftr (8 * v + f) 3 = v /\ Z.land (8 * v + f) 7 = f /\ voxel_of true (8 * v + f) = v.
Proof.
  intros v f Hv Hf. rewrite Z.shiftr_div_pow2 by lia. change 7 with (Z.ones 3). rewrite Z.land_ones by lia.
  unfold voxel_of. change (2 ^ 3) with 8. Z.to_euclidean_division_equations. lia.
Qed.
Print Assumptions C12_index_decodes.

(* With the code's binary32 arithmetic "stays in [-1,1]" fails: a particle that starts inside voxel
   18 and stops at its closed x face is left with dy = 1 + 2^-23. *)
Definition f_at (m e : Z) : b32 := binary_normalize 24 128 prec_gt_0_32 prec_lt_emax_32 mode_NE m e false.
Theorem C12_float_in_cell_refuted : exists p disp,
  f_le (vx (pd p)) (f_of_Z 1) = true /\ f_le (vy (pd p)) (f_of_Z 1) = true /\ f_le (vz (pd p)) (f_of_Z 1) = true /\
  f_le (f_of_Z (-1)) (vx (pd p)) = true /\ f_le (f_of_Z (-1)) (vy (pd p)) = true /\ f_le (f_of_Z (-1)) (vz (pd p)) = true /\
  pi p = 18 /\
  match move_p Fnum 10 ex_mesh (f_of_Z 1) p disp with
  | MDone true p' _ _ => f_lt (f_of_Z 1) (vy (pd p')) = true /\
                         B2SF (vy (pd p')) = SpecFloat.S754_finite false 8388609 (-23)
  | _ => False
  end.
Proof.
  exists (mkp (mkv (f_at 0x15dafe2 (-28)) (f_at 0x15dafe2 (-28)) (f_of_Z 0)) 18
              (mkv (f_of_Z 0) (f_of_Z 0) (f_of_Z 0)) (f_of_Z 1)).
  exists (mkv (f_at 0x1aac468 (-25)) (f_at 0x1aac468 (-25)) (f_of_Z 0)).
  vm_compute. repeat split.
Qed.
Print Assumptions C12_float_in_cell_refuted.

Example C12_example : table_ok ex_mesh ex_real.
Proof.
  intros v [-> | ->]; (split; [lia|]); intros f Hf;
  assert (C : f = 0 \/ f = 1 \/ f = 2 \/ f = 3 \/ f = 4 \/ f = 5) by lia;
  destruct C as [-> |[-> |[-> |[-> |[-> | ->]]]]]; (eexists; split; [vm_compute; reflexivity|]);
  unfold ex_real, reflect_particles; cbn; lia.
Qed.

(* ---- C13 ---- *)

Theorem C13_deposition : forall sy sz qsp r8V p,
  length (rho_adds Rnum sy sz qsp r8V p) = 8%nat /\
  sumR (map snd (rho_adds Rnum sy sz qsp r8V p)) = (8 * r8V * (qsp * pw p))%R /\
  (forall bx by' bz, nth_error (rho_adds Rnum sy sz qsp r8V p) (Nat.b2n bx + 2 * Nat.b2n by' + 4 * Nat.b2n bz) =
     Some (node sy sz (pi p) bx by' bz,
           (8 * r8V * (qsp * pw p) * (share bx (vx (pd p)) * share by' (vy (pd p)) * share bz (vz (pd p))))%R)) /\
  (in_cell (pd p) -> forall bx by' bz, (0 <= share bx (vx (pd p)) * share by' (vy (pd p)) * share bz (vz (pd p)))%R).
Proof.
  intros. split; [apply rho_adds_len|]. split; [apply rho_adds_total|]. split; [intros; apply rho_adds_nth|].
  intros I bx by' bz. apply (corner_share_nonneg (pd p)), I.
Qed.
Print Assumptions C13_deposition.

(* The eight nodes of an interior cell are distinct voxels of the array. *)
Theorem C13_nodes : forall nx ny nz x y z, 1 <= x <= nx -> 1 <= y <= ny -> 1 <= z <= nz ->
  let v := voxel nx ny nz x y z in let nd := node (sy_of nx) (sz_of nx ny) v in
  (forall bx by' bz, nd bx by' bz = voxel nx ny nz (x + Z.b2z bx) (y + Z.b2z by') (z + Z.b2z bz) /\
                     0 <= nd bx by' bz < nv_of nx ny nz) /\
  (forall bx by' bz cx cy cz, nd bx by' bz = nd cx cy cz -> (bx, by', bz) = (cx, cy, cz)).
Proof.
  intros nx ny nz x y z Hx Hy Hz. cbv zeta. split.
  - intros. split; [apply node_voxel|apply node_range; assumption].
  - intros bx by' bz cx cy cz E. apply (node_inj nx ny nz x y z bx by' bz cx cy cz Hx Hy Hz E).
Qed.
Print Assumptions C13_nodes.

(* accumulate_rhob: the weight of node (i,j,k) is multiplied by 2 for i on plane 1 or nx+1, by 2
   for j on plane 1 or ny+1, by 2 for k on plane 1 or nz+1, and by nothing else. *)
Theorem C13_bound_charge : forall nx ny nz qsp r8V p x y z bx by' bz,
  1 <= x <= nx -> 1 <= y <= ny -> 1 <= z <= nz -> pi p = voxel nx ny nz x y z ->
  let on n i := if (i =? 1) || (i =? n + 1) then 2%R else 1%R in
  nth_error (rhob_adds Rnum nx ny nz qsp r8V p) (Nat.b2n bx + 2 * Nat.b2n by' + 4 * Nat.b2n bz) =
  Some (voxel nx ny nz (x + Z.b2z bx) (y + Z.b2z by') (z + Z.b2z bz),
        (on nx (x + Z.b2z bx)%Z * on ny (y + Z.b2z by')%Z * on nz (z + Z.b2z bz)%Z *
         (8 * r8V * (qsp * pw p) * (share bx (vx (pd p)) * share by' (vy (pd p)) * share bz (vz (pd p)))))%R).
Proof.
  intros nx ny nz qsp r8V p x y z bx by' bz Hx Hy Hz E. cbv zeta.
  pose proof (rhob_adds_nth nx ny nz qsp r8V p x y z bx by' bz Hx Hy Hz E) as H.
  unfold corner_no in H. rewrite H, E, node_voxel. f_equal. f_equal. unfold corner_share. f_equal.
  assert (P : forall n i, plane n i = if (i =? 1) || (i =? n + 1) then 2%R else 1%R).
  { intros n i. unfold plane. destruct (i =? 1); [reflexivity|]. destruct (i =? n + 1); reflexivity. }
  rewrite !P. reflexivity.
Qed.
Print Assumptions C13_bound_charge.

(* The corner cell of a 2x1x1 mesh: rho puts 1/8 of the charge (6 at unit volume) on each node of a
   centred particle; rhob doubles once per boundary plane. *)
Example C13_example :
  map snd (rho_adds Qnum 4 12 2%Q (1#8) (mkp (mkv 0 0 0)%Q 17 (mkv 0 0 0)%Q 3%Q)) = repeat (3#4) 8 /\
  rhob_adds Qnum 2 1 1 2%Q (1#8) (mkp (mkv 0 0 0)%Q 17 (mkv 0 0 0)%Q 3%Q) =
    [(17, (6#1)%Q); (18, (3#1)%Q); (21, (6#1)%Q); (22, (3#1)%Q); (29, (6#1)%Q); (30, (3#1)%Q); (33, (6#1)%Q); (34, (3#1)%Q)].
Proof. vm_compute. split; reflexivity. Qed.

(* ---- C14 ---- *)

Theorem C14_rotation_preserves_momentum : forall qdt_2mc f p,
  i_ex f = 0%R -> i_dexdy f = 0%R -> i_dexdz f = 0%R -> i_d2exdydz f = 0%R ->
  i_ey f = 0%R -> i_deydz f = 0%R -> i_deydx f = 0%R -> i_d2eydzdx f = 0%R ->
  i_ez f = 0%R -> i_dezdx f = 0%R -> i_dezdy f = 0%R -> i_d2ezdxdy f = 0%R ->
  let u := pu p in let u' := push_u Rnum qdt_2mc f p in
  (vx u' * vx u' + vy u' * vy u' + vz u' * vz u' = vx u * vx u + vy u * vy u + vz u * vz u)%R.
Proof.
  intros. cbv zeta.
  assert (HN : norm2 Rnum (push_u Rnum qdt_2mc f p) = norm2 Rnum (pu p)) by (apply push_no_e; unfold no_e; tauto).
  change (norm2 Rnum u' = norm2 Rnum u) in HN. clearbody u' u. unfold norm2 in HN. cbn [n_add n_mul Rnum] in HN. lra.
Qed.
Print Assumptions C14_rotation_preserves_momentum.

(* The rotation alone, with any field and coefficient. *)
Theorem C14_boris_norm : forall c cb u, norm2 Rnum (boris Rnum c cb u) = norm2 Rnum u.
Proof. exact boris_norm. Qed.
Print Assumptions C14_boris_norm.

Theorem C14_centring_reversible : forall qdt_2mc (F : Z -> interp) ps,
  let center := map (fun p => center_one Rnum qdt_2mc (F (pi p)) p) in
  let uncenter := map (fun p => uncenter_one Rnum qdt_2mc (F (pi p)) p) in
  center (uncenter ps) = ps /\ uncenter (center ps) = ps.
Proof.
  intros q F ps. cbv zeta. rewrite !map_map. split; rewrite <- (map_id ps) at 2; apply map_ext; intros p.
  - apply center_uncenter.
  - apply uncenter_center.
Qed.
Print Assumptions C14_centring_reversible.

(* With |cb| = 1 and v3 = 3/4 (so the rotation's tangent is 3/4): (1,0,0) goes to (7/25,-24/25,0). *)
Example C14_example : (rot (3 / 4) (mkv 0 0 1) (mkv 1 0 0) = mkv (7 / 25) (- (24 / 25)) 0)%R.
Proof. unfold rot, norm2, cross. cbn [vx vy vz n_add n_mul Rnum]. f_equal; field. Qed.

(* ---- C15 ---- *)

Theorem C15_kinetic_energy : forall c P qdt_2mc m (F : Z -> interp) (ps : list (part R)) dflt,
  Z.of_nat (length ps) < 2 ^ 31 -> 1 <= P < 2 ^ 31 ->
  let part_at k := nth (Z.to_nat k) ps dflt in
  energy_p 0%R Rplus c (Z.of_nat (length ps)) P
    (fun k => energy_one Rnum qdt_2mc m (F (pi (part_at k))) (part_at k)) =
  sumR (map (fun p => let h := half_e Rnum qdt_2mc (F (pi p)) (pd p) in
                      let ux := (vx (pu p) + vx h)%R in let uy := (vy (pu p) + vy h)%R in let uz := (vz (pu p) + vz h)%R in
                      (m * pw p * (sqrt (1 + (ux * ux + uy * uy + uz * uz)) - 1))%R) ps).
Proof.
  intros c P q m F ps dflt Hn HP. cbv zeta. rewrite energy_total by lia.
  f_equal. transitivity (map (fun p => energy_one Rnum q m (F (pi p)) p) ps).
  - rewrite <- (map_map (fun k => nth (Z.to_nat k) ps dflt) (fun p => energy_one Rnum q m (F (pi p)) p)). f_equal.
    apply nth_ext with (d := nth 0 ps dflt) (d' := dflt).
    + rewrite map_length. unfold zrange. rewrite map_length, seq_length. lia.
    + intros n Hln. rewrite map_length in Hln. unfold zrange in *. rewrite map_length, seq_length in Hln.
      rewrite map_map. rewrite nth_indep with (d' := (fun k => nth (Z.to_nat (0 + Z.of_nat k)) ps dflt) 0%nat) by (rewrite map_length, seq_length; lia).
      rewrite (map_nth (fun k => nth (Z.to_nat (0 + Z.of_nat k)) ps dflt)). rewrite seq_nth by lia. f_equal. lia.
  - apply map_ext. intros p. rewrite energy_identity. unfold norm2, vadd, vmap2. cbn [vx vy vz n_add n_mul Rnum].
    f_equal. f_equal. f_equal. ring.
Qed.
Print Assumptions C15_kinetic_energy.

Theorem C15_nonnegative : forall c P qdt_2mc m (F : Z -> interp) (ps : list (part R)) dflt,
  Z.of_nat (length ps) < 2 ^ 31 -> 1 <= P < 2 ^ 31 -> (0 <= m)%R -> Forall (fun p => (0 <= pw p)%R) ps ->
  let part_at k := nth (Z.to_nat k) ps dflt in
  (0 <= energy_p 0%R Rplus c (Z.of_nat (length ps)) P
    (fun k => energy_one Rnum qdt_2mc m (F (pi (part_at k))) (part_at k)))%R.
Proof.
  intros c P q m F ps dflt Hn HP Hm HW. cbv zeta. pose proof (C15_kinetic_energy c P q m F ps dflt Hn HP) as E.
  cbv zeta in E. eapply Rle_trans; [|right; symmetry; exact E]. clear E. induction HW as [|p ps Hp HW IH]; cbn [map sumR fold_right]; [lra|].
  assert (H1 : (0 <= m * pw p * (sqrt (1 + norm2 Rnum (vadd Rnum (pu p) (half_e Rnum q (F (pi p)) (pd p)))) - 1))%R).
  { rewrite <- energy_identity. apply energy_nonneg; assumption. }
  refine (Rplus_le_le_0_compat _ _ _ (IH _)); [|cbn [length] in Hn; lia].
  eapply Rle_trans; [exact H1|]. right. unfold norm2, vadd, vmap2. cbn [vx vy vz n_add n_mul Rnum].
  f_equal. f_equal. f_equal. ring.
Qed.
Print Assumptions C15_nonnegative.

(* 37 particles with energies 0,1,...,36 on three pipelines and the host. *)
Example C15_example : energy_p 0 Z.add false 37 3 (fun k => k) = 666 /\
  energy_seg 0 Z.add false 37 3 (fun k => k) 0 = 120 /\ energy_seg 0 Z.add false 37 3 (fun k => k) 3 = 170.
Proof. vm_compute. repeat split. Qed.
