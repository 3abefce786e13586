From Coq Require Import ZArith List Bool Lia ZifyBool Permutation.
From Verif Require Import DistributeModel DistributeProofs VoxelModel.
Import ListNotations.
Open Scope Z_scope.

Ltac Zify.zify_post_hook ::= Z.div_mod_to_equations.

(* ---- indexing ---- *)

Definition in_mesh (nx ny nz x y z : Z) : Prop :=
  0 <= x <= nx + 1 /\ 0 <= y <= ny + 1 /\ 0 <= z <= nz + 1.

Lemma voxel_range nx ny nz x y z : 1 <= nx -> 1 <= ny -> 1 <= nz ->
  in_mesh nx ny nz x y z -> 0 <= voxel nx ny nz x y z < nv_of nx ny nz.
Proof. unfold in_mesh, voxel, nv_of. intros. nia. Qed.

Lemma decode_rhob_voxel nx ny nz x y z : 1 <= nx -> 1 <= ny ->
  in_mesh nx ny nz x y z -> decode_rhob nx ny (voxel nx ny nz x y z) = (x, y, z).
Proof.
  unfold in_mesh, voxel, decode_rhob, sz_of, sy_of. intros Hnx Hny (Hx & Hy & Hz).
  assert (Hq1 : Z.quot (x + (nx + 2) * (y + (ny + 2) * z)) ((ny + 2) * (nx + 2)) = z).
  { rewrite Z.quot_div_nonneg by nia.
    symmetry. apply (Z.div_unique _ _ _ (x + (nx + 2) * y)); [left; nia|ring]. }
  rewrite Hq1.
  replace (x + (nx + 2) * (y + (ny + 2) * z) - (ny + 2) * (nx + 2) * z)
    with (x + (nx + 2) * y) by ring.
  assert (Hq2 : Z.quot (x + (nx + 2) * y) (nx + 2) = y).
  { rewrite Z.quot_div_nonneg by nia.
    symmetry. apply (Z.div_unique _ _ _ x); [left; lia|ring]. }
  rewrite Hq2. f_equal. f_equal. ring.
Qed.

Lemma decode_link_voxel nx ny nz x y z : 1 <= nx -> 1 <= ny ->
  in_mesh nx ny nz x y z -> decode_link nx ny (voxel nx ny nz x y z) = (x, y, z).
Proof.
  unfold in_mesh, voxel, decode_link. intros Hnx Hny (Hx & Hy & Hz).
  assert (Hq1 : Z.quot (x + (nx + 2) * (y + (ny + 2) * z)) ((nx + 2) * (ny + 2)) = z).
  { rewrite Z.quot_div_nonneg by nia.
    symmetry. apply (Z.div_unique _ _ _ (x + (nx + 2) * y)); [left; nia|ring]. }
  rewrite Hq1.
  replace (x + (nx + 2) * (y + (ny + 2) * z) - z * (nx + 2) * (ny + 2))
    with (x + (nx + 2) * y) by ring.
  assert (Hq2 : Z.quot (x + (nx + 2) * y) (nx + 2) = y).
  { rewrite Z.quot_div_nonneg by nia.
    symmetry. apply (Z.div_unique _ _ _ x); [left; lia|ring]. }
  rewrite Hq2. f_equal. f_equal. ring.
Qed.

Lemma voxel_inj nx ny nz x y z x' y' z' : 1 <= nx -> 1 <= ny ->
  in_mesh nx ny nz x y z -> in_mesh nx ny nz x' y' z' ->
  voxel nx ny nz x y z = voxel nx ny nz x' y' z' -> (x, y, z) = (x', y', z').
Proof.
  intros Hnx Hny H H' He.
  rewrite <- (decode_rhob_voxel nx ny nz x y z Hnx Hny H), He.
  apply decode_rhob_voxel; assumption.
Qed.

Lemma voxel_surj nx ny nz v : 1 <= nx -> 1 <= ny -> 1 <= nz ->
  0 <= v < nv_of nx ny nz ->
  exists x y z, in_mesh nx ny nz x y z /\ voxel nx ny nz x y z = v.
Proof.
  unfold nv_of, in_mesh, voxel. intros Hnx Hny Hnz Hv.
  exists (v mod (nx + 2)), ((v / (nx + 2)) mod (ny + 2)), (v / (nx + 2) / (ny + 2)).
  pose proof (Z.div_mod v (nx + 2) ltac:(lia)) as H1.
  pose proof (Z.mod_pos_bound v (nx + 2) ltac:(lia)) as H2.
  pose proof (Z.div_mod (v / (nx + 2)) (ny + 2) ltac:(lia)) as H3.
  pose proof (Z.mod_pos_bound (v / (nx + 2)) (ny + 2) ltac:(lia)) as H4.
  assert (H5 : 0 <= v / (nx + 2)) by (apply Z.div_pos; lia).
  assert (H6 : 0 <= v / (nx + 2) / (ny + 2)) by (apply Z.div_pos; lia).
  set (a := v / (nx + 2)) in *. set (c := a / (ny + 2)) in *.
  set (r := v mod (nx + 2)) in *. set (t := a mod (ny + 2)) in *.
  split; [|nia].
  repeat split; try lia.
  destruct (Z_le_gt_dec c (nz + 1)) as [|Hgt]; [assumption|exfalso].
  assert ((nx + 2) * (ny + 2) * c <= v) by nia.
  assert ((nx + 2) * (ny + 2) * (nz + 2) <= (nx + 2) * (ny + 2) * c)
    by (apply Z.mul_le_mono_nonneg_l; nia).
  lia.
Qed.

(* ---- traversal ---- *)

Section Box.
Variables (nx ny nz x0 x1 y0 y1 z0 z1 : Z).
Let wx := x1 - x0 + 1.
Let wy := y1 - y0 + 1.
Let wz := z1 - z0 + 1.

(* k-th voxel of the box in Fortran order *)
Definition coord (k : Z) : vstate :=
  let x := x0 + k mod wx in
  let y := y0 + (k / wx) mod wy in
  let z := z0 + k / wx / wy in
  (voxel nx ny nz x y z, x, y, z).

Hypothesis Hwx : 1 <= wx.
Hypothesis Hwy : 1 <= wy.

Lemma mod_succ k n : 1 <= n ->
  (k mod n + 1 < n -> (k + 1) mod n = k mod n + 1 /\ (k + 1) / n = k / n) /\
  (k mod n + 1 = n -> (k + 1) mod n = 0 /\ (k + 1) / n = k / n + 1).
Proof.
  intros Hn. pose proof (Z.div_mod k n ltac:(lia)) as H1.
  pose proof (Z.mod_pos_bound k n ltac:(lia)) as H2.
  split; intros H.
  - split.
    + symmetry. apply (Z.mod_unique _ _ (k / n)); [left; lia|lia].
    + symmetry. apply (Z.div_unique _ _ _ (k mod n + 1)); [left; lia|lia].
  - split.
    + symmetry. apply (Z.mod_unique _ _ (k / n + 1)); [left; lia|nia].
    + symmetry. apply (Z.div_unique _ _ _ 0); [left; lia|nia].
Qed.

Lemma next_coord_xyz k :
  (k mod wx + 1 < wx /\
   (k + 1) mod wx = k mod wx + 1 /\ ((k + 1) / wx) mod wy = (k / wx) mod wy /\
   (k + 1) / wx / wy = k / wx / wy) \/
  (k mod wx + 1 = wx /\ (k / wx) mod wy + 1 < wy /\
   (k + 1) mod wx = 0 /\ ((k + 1) / wx) mod wy = (k / wx) mod wy + 1 /\
   (k + 1) / wx / wy = k / wx / wy) \/
  (k mod wx + 1 = wx /\ (k / wx) mod wy + 1 = wy /\
   (k + 1) mod wx = 0 /\ ((k + 1) / wx) mod wy = 0 /\
   (k + 1) / wx / wy = k / wx / wy + 1).
Proof.
  pose proof (Z.mod_pos_bound k wx ltac:(lia)) as H2.
  pose proof (Z.mod_pos_bound (k / wx) wy ltac:(lia)) as H3.
  destruct (mod_succ k wx Hwx) as [Ha Hb].
  destruct (Z_lt_le_dec (k mod wx + 1) wx) as [Hlt|Hge].
  - left. destruct (Ha Hlt) as [-> ->]. repeat split; lia.
  - right. assert (Heq : k mod wx + 1 = wx) by lia. destruct (Hb Heq) as [-> ->].
    destruct (mod_succ (k / wx) wy Hwy) as [Hc Hd].
    destruct (Z_lt_le_dec ((k / wx) mod wy + 1) wy) as [Hlt'|Hge'].
    + left. destruct (Hc Hlt') as [-> ->]. repeat split; lia.
    + right. assert (Heq' : (k / wx) mod wy + 1 = wy) by lia.
      destruct (Hd Heq') as [-> ->]. repeat split; lia.
Qed.

Lemma next_stencil_coord k :
  next_stencil nx ny nz x0 x1 y0 y1 (coord k) = coord (k + 1).
Proof.
  unfold coord, next_stencil.
  destruct (next_coord_xyz k) as [(H & -> & -> & ->)|[(H & H' & -> & -> & ->)|(H & H' & -> & -> & ->)]].
  - replace (x0 + k mod wx + 1 >? x1) with false by (unfold wx in *; lia).
    replace (x0 + (k mod wx + 1)) with (x0 + k mod wx + 1) by ring.
    f_equal. f_equal. f_equal. unfold voxel. ring.
  - replace (x0 + k mod wx + 1 >? x1) with true by (unfold wx in *; lia).
    replace (y0 + (k / wx) mod wy + 1 >? y1) with false by (unfold wx, wy in *; lia).
    rewrite !Z.add_assoc, Z.add_0_r. reflexivity.
  - replace (x0 + k mod wx + 1 >? x1) with true by (unfold wx in *; lia).
    replace (y0 + (k / wx) mod wy + 1 >? y1) with true by (unfold wx, wy in *; lia).
    rewrite !Z.add_assoc, !Z.add_0_r. reflexivity.
Qed.

Lemma next_voxel_coord k :
  next_voxel nx ny x0 x1 y0 y1 (coord k) = coord (k + 1).
Proof.
  unfold coord, next_voxel.
  destruct (next_coord_xyz k) as [(H & -> & -> & ->)|[(H & H' & -> & -> & ->)|(H & H' & -> & -> & ->)]].
  - replace (x0 + k mod wx + 1 >? x1) with false by (unfold wx in *; lia).
    replace (y0 + (k / wx) mod wy >? y1) with false.
    2:{ pose proof (Z.mod_pos_bound (k / wx) wy ltac:(lia)). unfold wy in *. lia. }
    replace (x0 + (k mod wx + 1)) with (x0 + k mod wx + 1) by ring.
    f_equal. f_equal. f_equal. unfold voxel. ring.
  - replace (x0 + k mod wx + 1 >? x1) with true by (unfold wx in *; lia).
    replace (y0 + (k / wx) mod wy + 1 >? y1) with false by (unfold wx, wy in *; lia).
    rewrite !Z.add_assoc, Z.add_0_r. f_equal. f_equal. f_equal.
    assert (Hk : k mod wx = x1 - x0) by (unfold wx in *; lia).
    rewrite Hk. unfold voxel. ring.
  - replace (x0 + k mod wx + 1 >? x1) with true by (unfold wx in *; lia).
    replace (y0 + (k / wx) mod wy + 1 >? y1) with true by (unfold wx, wy in *; lia).
    rewrite !Z.add_assoc, !Z.add_0_r. f_equal. f_equal. f_equal.
    assert (Hk : k mod wx = x1 - x0) by (unfold wx in *; lia).
    assert (Hk' : (k / wx) mod wy = y1 - y0) by (unfold wy in *; lia).
    rewrite Hk, Hk'. unfold voxel. ring.
Qed.

Lemma walk_coord next n k :
  (forall j, next (coord j) = coord (j + 1)) ->
  walk next n (coord k) = map (fun i => coord (k + Z.of_nat i)) (seq 0 n).
Proof.
  intros Hnext. revert k. induction n as [|n IH]; intros k; [reflexivity|].
  cbn [walk]. rewrite Hnext, IH. cbn [seq map]. rewrite Z.add_0_r. f_equal.
  rewrite <- seq_shift, map_map. apply map_ext. intros i. f_equal. lia.
Qed.

Lemma coord_inj k k' : coord k = coord k' -> k = k'.
Proof.
  unfold coord. intros H. injection H as _ Hx Hy Hz.
  pose proof (Z.div_mod k wx ltac:(lia)). pose proof (Z.div_mod k' wx ltac:(lia)).
  pose proof (Z.div_mod (k / wx) wy ltac:(lia)). pose proof (Z.div_mod (k' / wx) wy ltac:(lia)).
  assert (k / wx = k' / wx) by nia. nia.
Qed.

Hypothesis Hwz : 1 <= wz.

Lemma coord_in k : 0 <= k < wx * wy * wz ->
  let '(v, x, y, z) := coord k in
  x0 <= x <= x1 /\ y0 <= y <= y1 /\ z0 <= z <= z1 /\ v = voxel nx ny nz x y z.
Proof.
  intros Hk. unfold coord.
  pose proof (Z.mod_pos_bound k wx ltac:(lia)) as H2.
  pose proof (Z.mod_pos_bound (k / wx) wy ltac:(lia)) as H3.
  assert (H5 : 0 <= k / wx) by (apply Z.div_pos; lia).
  assert (H6 : 0 <= k / wx / wy) by (apply Z.div_pos; lia).
  assert (H7 : k / wx / wy < wz).
  { apply Z.div_lt_upper_bound; [lia|]. apply Z.div_lt_upper_bound; [lia|]. lia. }
  unfold wx, wy, wz in *. repeat split; lia.
Qed.

Lemma coord_onto x y z : x0 <= x <= x1 -> y0 <= y <= y1 -> z0 <= z <= z1 ->
  exists k, 0 <= k < wx * wy * wz /\ coord k = (voxel nx ny nz x y z, x, y, z).
Proof.
  intros Hx Hy Hz. exists ((x - x0) + wx * ((y - y0) + wy * (z - z0))).
  assert (Hb : 0 <= x - x0 < wx) by (unfold wx; lia).
  assert (Hc : 0 <= y - y0 < wy) by (unfold wy; lia).
  assert (Hd : 0 <= z - z0 < wz) by (unfold wz; lia).
  split.
  { assert (He : 0 <= (y - y0) + wy * (z - z0) <= wy * wz - 1).
    { assert (wy * (z - z0) <= wy * (wz - 1)) by (apply Z.mul_le_mono_nonneg_l; lia).
      assert (0 <= wy * (z - z0)) by (apply Z.mul_nonneg_nonneg; lia). lia. }
    assert (wx * ((y - y0) + wy * (z - z0)) <= wx * (wy * wz - 1))
      by (apply Z.mul_le_mono_nonneg_l; lia).
    assert (0 <= wx * ((y - y0) + wy * (z - z0))) by (apply Z.mul_nonneg_nonneg; lia).
    rewrite <- Z.mul_assoc. lia. }
  unfold coord.
  set (k := (x - x0) + wx * ((y - y0) + wy * (z - z0))).
  assert (H1 : k mod wx = x - x0).
  { symmetry. apply (Z.mod_unique _ _ ((y - y0) + wy * (z - z0))); [left; lia|unfold k; ring]. }
  assert (H2 : k / wx = (y - y0) + wy * (z - z0)).
  { symmetry. apply (Z.div_unique _ _ _ (x - x0)); [left; lia|unfold k; ring]. }
  assert (H3 : (k / wx) mod wy = y - y0).
  { rewrite H2. symmetry. apply (Z.mod_unique _ _ (z - z0)); [left; lia|ring]. }
  assert (H4 : k / wx / wy = z - z0).
  { rewrite H2. symmetry. apply (Z.div_unique _ _ _ (y - y0)); [left; lia|ring]. }
  rewrite H1, H3, H4. replace (x0 + (x - x0)) with x by ring.
  replace (y0 + (y - y0)) with y by ring. replace (z0 + (z - z0)) with z by ring. reflexivity.
Qed.
End Box.

Lemma seq_shift_by u w : seq u w = map (fun k => (u + k)%nat) (seq 0 w).
Proof.
  revert u. induction w as [|w IH]; intros u; [reflexivity|].
  cbn [seq map]. rewrite Nat.add_0_r. f_equal. rewrite IH, <- (seq_shift w 0), map_map.
  apply map_ext. intros k. lia.
Qed.

(* concatenating consecutive segments *)
Lemma segments_concat {A} (f : Z -> A) (i : Z -> Z) (n : Z -> Z) (m : nat) :
  (forall p, 0 <= p < Z.of_nat m -> i (p + 1) = i p + n p) ->
  (forall p, 0 <= p <= Z.of_nat m -> 0 <= n p) -> i 0 = 0 ->
  flat_map (fun p => map (fun k => f (i p + Z.of_nat k)) (seq 0 (Z.to_nat (n p))))
           (map Z.of_nat (seq 0 (S m))) =
  map (fun k => f (Z.of_nat k)) (seq 0 (Z.to_nat (i (Z.of_nat m) + n (Z.of_nat m)))).
Proof.
  intros Hi Hn H0.
  assert (Hip : forall p, 0 <= p <= Z.of_nat m -> 0 <= i p).
  { assert (Hq : forall p, 0 <= p -> p <= Z.of_nat m -> 0 <= i p).
    { apply (natlike_ind (fun p => p <= Z.of_nat m -> 0 <= i p)); [intros; lia|].
      intros q Hq IH Hp. unfold Z.succ. rewrite Hi by lia.
      specialize (IH ltac:(lia)). specialize (Hn q ltac:(lia)). lia. }
    intros p Hp. apply Hq; lia. }
  induction m as [|m IH].
  - cbn [seq map flat_map Z.of_nat]. rewrite app_nil_r, H0, Z.add_0_l. apply map_ext. intros k. reflexivity.
  - rewrite seq_S, map_app, flat_map_app. rewrite IH; [| | |].
    + cbn [map flat_map]. rewrite app_nil_r.
      replace (Z.of_nat (0 + S m)) with (Z.of_nat m + 1) by lia.
      replace (Z.of_nat (S m)) with (Z.of_nat m + 1) by lia.
      rewrite Hi by lia.
      pose proof (Hn (Z.of_nat m) ltac:(lia)) as Hn1.
      pose proof (Hn (Z.of_nat m + 1) ltac:(lia)) as Hn2.
      pose proof (Hip (Z.of_nat m) ltac:(lia)) as Hp1.
      set (a := i (Z.of_nat m) + n (Z.of_nat m)) in *.
      set (c := n (Z.of_nat m + 1)) in *.
      rewrite (Z2Nat.inj_add a c) by lia.
      rewrite seq_app, map_app. f_equal.
      rewrite (seq_shift_by (0 + Z.to_nat a)).
      rewrite map_map. apply map_ext. intros k. f_equal. lia.
    + intros p Hp. apply Hi. lia.
    + intros p Hp. apply Hn. lia.
    + intros p Hp. apply Hip. lia.
Qed.

Lemma flat_map_nil_all {A B} (f : A -> list B) l : (forall x, In x l -> f x = []) -> flat_map f l = [].
Proof.
  induction l as [|a l IH]; intros H; [reflexivity|]. cbn [flat_map].
  rewrite (H a), IH; [reflexivity| |left; reflexivity].
  intros x Hx. apply H. right. exact Hx.
Qed.

Definition job_start (c : bool) (b P N p : Z) : Z := b * split_point c (Z.quot N b) P p.
Definition job_count (c : bool) (b P N p : Z) : Z :=
  (if p <? P then b * split_point c (Z.quot N b) P (p + 1) else N) - job_start c b P N p.


Lemma job_seg_ok c b P N : 0 <= N < 2 ^ 31 -> 1 <= b -> 1 <= P < 2 ^ 31 ->
  job_start c b P N 0 = 0 /\
  (forall p, 0 <= p < P -> job_start c b P N (p + 1) = job_start c b P N p + job_count c b P N p) /\
  (forall p, 0 <= p <= P -> 0 <= job_start c b P N p /\ 0 <= job_count c b P N p) /\
  job_start c b P N P + job_count c b P N P = N.
Proof.
  intros HN Hb HP.
  assert (Hq : Z.quot N b = N / b) by (apply Z.quot_div_nonneg; lia).
  assert (Hq0 : 0 <= N / b) by (apply Z.div_pos; lia).
  assert (Hqb : b * (N / b) <= N) by (apply Z.mul_div_le; lia).
  assert (Hq1 : N / b < 2 ^ 31) by nia.
  unfold job_count, job_start. rewrite Hq.
  pose proof (split_0 (N / b) P ltac:(lia) ltac:(lia) c) as S0.
  pose proof (split_P (N / b) P ltac:(lia) ltac:(lia) c) as SP.
  pose proof (split_mono (N / b) P ltac:(lia) ltac:(lia) c) as SM.
  split; [rewrite S0; ring|]. split.
  { intros p Hp. replace (p <? P) with true by lia. ring. }
  split; [|ring_simplify; replace (P <? P) with false by lia; lia].
  intros p Hp. pose proof (SM 0 p ltac:(lia) ltac:(lia) ltac:(lia)) as Hm. rewrite S0 in Hm.
  split; [apply Z.mul_nonneg_nonneg; lia|].
  destruct (Z.ltb_spec p P).
  - pose proof (SM p (p + 1) ltac:(lia) ltac:(lia) ltac:(lia)).
    assert (b * split_point c (N / b) P p <= b * split_point c (N / b) P (p + 1))
      by (apply Z.mul_le_mono_nonneg_l; lia). lia.
  - replace p with P by lia. rewrite SP. lia.
Qed.

Lemma jobs_walk (c : bool) next nx ny nz x0 x1 y0 y1 z0 z1 b P :
  x0 <= x1 -> y0 <= y1 -> z0 <= z1 ->
  (x1 - x0 + 1) * (y1 - y0 + 1) * (z1 - z0 + 1) < 2 ^ 31 -> 1 <= b -> 1 <= P < 2 ^ 31 ->
  (forall k, next (coord nx ny nz x0 x1 y0 y1 z0 k) = coord nx ny nz x0 x1 y0 y1 z0 (k + 1)) ->
  flat_map (fun p => job_walk c next nx ny nz x0 x1 y0 y1 z0 z1 b p P) (ranks P) =
  map (fun k => coord nx ny nz x0 x1 y0 y1 z0 (Z.of_nat k))
      (seq 0 (Z.to_nat ((x1 - x0 + 1) * (y1 - y0 + 1) * (z1 - z0 + 1)))).
Proof.
  intros Hx Hy Hz HN Hb HP Hnext.
  set (N := (x1 - x0 + 1) * (y1 - y0 + 1) * (z1 - z0 + 1)) in *.
  assert (HN0 : 0 <= N) by (unfold N; repeat apply Z.mul_nonneg_nonneg; lia).
  destruct (job_seg_ok c b P N (conj HN0 HN) Hb HP) as (S0 & SS & SB & SE).
  unfold ranks. replace (Z.to_nat (P + 1)) with (S (Z.to_nat P)) by lia.
  pose proof (segments_concat (coord nx ny nz x0 x1 y0 y1 z0) (job_start c b P N)
    (job_count c b P N) (Z.to_nat P)) as SC.
  rewrite Z2Nat.id in SC by lia. rewrite SE in SC.
  rewrite <- SC; [clear SC| |intros p Hp; apply SB; lia|exact S0].
  2:{ intros p Hp. apply SS. lia. }
  rewrite !flat_map_concat_map. f_equal. apply map_ext_in. intros p Hp.
  apply in_map_iff in Hp. destruct Hp as (pn & <- & Hp). apply in_seq in Hp.
  set (p := Z.of_nat pn).
  assert (Hp' : 0 <= p <= P) by (unfold p; lia).
  destruct (SB p Hp') as [Hs0 Hc0].
  unfold job_walk, distribute_voxels. fold N.
  fold (job_start c b P N p). fold (job_count c b P N p).
  replace (x1 - x0 + 1 =? 0) with false by lia.
  replace (y1 - y0 + 1 =? 0) with false by lia.
  set (s := job_start c b P N p) in *.
  assert (Hq1 : Z.quot s (x1 - x0 + 1) = s / (x1 - x0 + 1)) by (apply Z.quot_div_nonneg; lia).
  assert (Hs1 : 0 <= s / (x1 - x0 + 1)) by (apply Z.div_pos; lia).
  rewrite Hq1.
  assert (Hq2 : Z.quot (s / (x1 - x0 + 1)) (y1 - y0 + 1) = s / (x1 - x0 + 1) / (y1 - y0 + 1))
    by (apply Z.quot_div_nonneg; lia).
  rewrite Hq2.
  replace (s - s / (x1 - x0 + 1) * (x1 - x0 + 1)) with (s mod (x1 - x0 + 1))
    by (rewrite Z.mod_eq by lia; ring).
  replace (s / (x1 - x0 + 1) - s / (x1 - x0 + 1) / (y1 - y0 + 1) * (y1 - y0 + 1))
    with ((s / (x1 - x0 + 1)) mod (y1 - y0 + 1)) by (rewrite Z.mod_eq by lia; ring).
  rewrite <- walk_coord with (next := next); [|auto..].

  unfold coord. rewrite !(Z.add_comm x0), !(Z.add_comm y0), !(Z.add_comm z0). reflexivity.
Qed.

Lemma jobs_walk_empty (c : bool) next nx ny nz x0 x1 y0 y1 z0 z1 b P :
  (x1 - x0 + 1) * (y1 - y0 + 1) * (z1 - z0 + 1) = 0 -> 1 <= b -> 1 <= P < 2 ^ 31 ->
  flat_map (fun p => job_walk c next nx ny nz x0 x1 y0 y1 z0 z1 b p P) (ranks P) = [].
Proof.
  intros H0 Hb HP.
  destruct (job_seg_ok c b P 0 ltac:(lia) Hb HP) as (S0 & SS & SB & SE).
  assert (Hall : forall p, 0 <= p <= P -> job_count c b P 0 p = 0).
  { assert (Hs : forall p, 0 <= p <= P -> job_start c b P 0 p = 0).
    { intros p Hp. unfold job_start. rewrite Z.quot_0_l by lia.
      pose proof (split_mono 0 P ltac:(lia) ltac:(lia) c 0 p ltac:(lia) ltac:(lia) ltac:(lia)) as M1.
      pose proof (split_mono 0 P ltac:(lia) ltac:(lia) c p P ltac:(lia) ltac:(lia) ltac:(lia)) as M2.
      rewrite split_0 in M1 by lia. rewrite split_P in M2 by lia.
      replace (split_point c 0 P p) with 0 by lia. ring. }
    intros p Hp. destruct (Z.eq_dec p P) as [->|Hne].
    - rewrite (Hs P ltac:(lia)) in SE. lia.
    - pose proof (SS p ltac:(lia)) as E. rewrite !Hs in E by lia. lia. }
  apply flat_map_nil_all. intros p Hp.
  apply in_map_iff in Hp. destruct Hp as (pn & <- & Hp). apply in_seq in Hp.
  unfold job_walk, distribute_voxels. rewrite H0.
  set (p := Z.of_nat pn).
  fold (job_start c b P 0 p). fold (job_count c b P 0 p). rewrite Hall by (unfold p; lia).
  reflexivity.
Qed.

(* The property: each voxel of the box exactly once, with consistent linear index. *)
Definition box_covered (l : list vstate) nx ny nz x0 x1 y0 y1 z0 z1 : Prop :=
  NoDup l /\
  (forall v x y z, In (v, x, y, z) l <->
     (x0 <= x <= x1 /\ y0 <= y <= y1 /\ z0 <= z <= z1 /\ v = voxel nx ny nz x y z)).

Lemma jobs_cover (c : bool) next nx ny nz x0 x1 y0 y1 z0 z1 b P :
  x0 - 1 <= x1 -> y0 - 1 <= y1 -> z0 - 1 <= z1 ->
  (x1 - x0 + 1) * (y1 - y0 + 1) * (z1 - z0 + 1) < 2 ^ 31 -> 1 <= b -> 1 <= P < 2 ^ 31 ->
  (x0 <= x1 -> y0 <= y1 ->
   forall k, next (coord nx ny nz x0 x1 y0 y1 z0 k) = coord nx ny nz x0 x1 y0 y1 z0 (k + 1)) ->
  box_covered (flat_map (fun p => job_walk c next nx ny nz x0 x1 y0 y1 z0 z1 b p P) (ranks P))
    nx ny nz x0 x1 y0 y1 z0 z1.
Proof.
  intros Hx Hy Hz HN Hb HP Hnext.
  destruct (Z_le_gt_dec x0 x1) as [Hx'|Hx'];
  [destruct (Z_le_gt_dec y0 y1) as [Hy'|Hy'];
   [destruct (Z_le_gt_dec z0 z1) as [Hz'|Hz']|]|].
  - rewrite jobs_walk by auto. split.
    + apply FinFun.Injective_map_NoDup; [|apply seq_NoDup].
      intros a a' Ha. apply coord_inj in Ha; [lia|exact z1|lia|lia].
    + intros v x y z. split.
      * intros H. apply in_map_iff in H. destruct H as (k & Hk & Hin). apply in_seq in Hin.
        assert (Hc : let '(v, x, y, z) := coord nx ny nz x0 x1 y0 y1 z0 (Z.of_nat k) in
          x0 <= x <= x1 /\ y0 <= y <= y1 /\ z0 <= z <= z1 /\ v = voxel nx ny nz x y z)
          by (apply coord_in; lia).
        rewrite Hk in Hc. exact Hc.
      * intros (H1 & H2 & H3 & ->).
        assert (Ho : exists k, 0 <= k < (x1 - x0 + 1) * (y1 - y0 + 1) * (z1 - z0 + 1) /\
          coord nx ny nz x0 x1 y0 y1 z0 k = (voxel nx ny nz x y z, x, y, z))
          by (apply coord_onto; lia).
        destruct Ho as (k & Hk & Hc).
        apply in_map_iff. exists (Z.to_nat k). rewrite Z2Nat.id by lia. split; [exact Hc|].
        apply in_seq. lia.
  - rewrite jobs_walk_empty by (try replace (z1 - z0 + 1) with 0 by lia; lia).
    split; [constructor|]. intros v x y z. split; [intros []|lia].
  - rewrite jobs_walk_empty by (try replace (y1 - y0 + 1) with 0 by lia; lia).
    split; [constructor|]. intros v x y z. split; [intros []|lia].
  - rewrite jobs_walk_empty by (try replace (x1 - x0 + 1) with 0 by lia; lia).
    split; [constructor|]. intros v x y z. split; [intros []|lia].
Qed.

Lemma stencil_cover c nx ny nz x0 x1 y0 y1 z0 z1 b P :
  x0 - 1 <= x1 -> y0 - 1 <= y1 -> z0 - 1 <= z1 ->
  (x1 - x0 + 1) * (y1 - y0 + 1) * (z1 - z0 + 1) < 2 ^ 31 -> 1 <= b -> 1 <= P < 2 ^ 31 ->
  box_covered (flat_map (fun p => job_walk c (next_stencil nx ny nz x0 x1 y0 y1)
                                    nx ny nz x0 x1 y0 y1 z0 z1 b p P) (ranks P))
    nx ny nz x0 x1 y0 y1 z0 z1.
Proof.
  intros. apply jobs_cover; try assumption. intros. apply next_stencil_coord; (exact z1 || lia).
Qed.

Lemma next_voxel_cover c nx ny nz x0 x1 y0 y1 z0 z1 b P :
  x0 - 1 <= x1 -> y0 - 1 <= y1 -> z0 - 1 <= z1 ->
  (x1 - x0 + 1) * (y1 - y0 + 1) * (z1 - z0 + 1) < 2 ^ 31 -> 1 <= b -> 1 <= P < 2 ^ 31 ->
  box_covered (flat_map (fun p => job_walk c (next_voxel nx ny x0 x1 y0 y1)
                                    nx ny nz x0 x1 y0 y1 z0 z1 b p P) (ranks P))
    nx ny nz x0 x1 y0 y1 z0 z1.
Proof.
  intros. apply jobs_cover; try assumption. intros. apply next_voxel_coord; (exact z1 || lia).
Qed.
