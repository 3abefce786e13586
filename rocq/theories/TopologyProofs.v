(* The partitioned box as seen by the particle mover and the boundary exchange. *)
Require Import Reals.
Require Import ZArith List Bool Lia ZifyBool Permutation.
Require Import Verif.ParticleModel Verif.ParticleSpec Verif.MoverModel Verif.BoundaryProofs.
Require Import Verif.SortModel Verif.SortProofs Verif.VoxelModel Verif.VoxelProofs.
Require Import Verif.GridModel Verif.GridProofs Verif.PartitionProofs.
Import ListNotations.
Open Scope Z_scope.
Ltac Zify.zify_post_hook ::= idtac.

Definition mesh_of (g : grid) : mesh :=
  mk_mesh (map (fun k => match g_nbr g k with Some v => v | None => 0 end) (zrange 0 (6 * nv3 (dims g)))) (g_rangel g) (g_rangeh g).
Definition bgrid_of (nb : Z) (g : grid) : bgrid :=
  mk_bgrid (mesh_of g) (map (fun f => g_bc g (face_code f)) faces6) (g_range g) (g_rank g) (g_size g) nb.

Lemma nth_error_zrange lo hi k : 0 <= k < hi - lo -> nth_error (zrange lo hi) (Z.to_nat k) = Some (lo + k).
Proof.
  intros H. unfold zrange. rewrite nth_error_map.
  rewrite (nth_error_nth' _ 0%nat) by (rewrite seq_length; lia). rewrite seq_nth by lia. cbn. f_equal. lia.
Qed.
Lemma nbr_at_mesh g v f : 0 <= v < nv3 (dims g) -> 0 <= f < 6 ->
  nbr_at (mesh_of g) v f = Some (match g_nbr g (6 * v + f) with Some x => x | None => 0 end).
Proof.
  intros Hv Hf. unfold nbr_at, mesh_of. cbn [mnbr]. replace (0 <=? 6 * v + f) with true by lia.
  rewrite nth_error_map, nth_error_zrange by lia. reflexivity.
Qed.
Lemma nbr_at_inv g v f nn : 0 <= f < 6 -> nbr_at (mesh_of g) v f = Some nn -> 0 <= v < nv3 (dims g).
Proof.
  intros Hf. unfold nbr_at, mesh_of. cbn [mnbr]. destruct (Z.leb_spec 0 (6 * v + f)); [|discriminate].
  intros E. assert (L : (Z.to_nat (6 * v + f) < length (zrange 0 (6 * nv3 (dims g))))%nat).
  { rewrite <- (map_length (fun k => match g_nbr g k with Some v => v | None => 0 end)). apply nth_error_Some. congruence. }
  unfold zrange in L. rewrite map_length, seq_length in L. lia.
Qed.
Lemma nthz_bc nb g f : 0 <= f < 6 -> nthz (b_bc (bgrid_of nb g)) f = g_bc g (face_code f).
Proof. intros Hf. six_cases f Hf; reflexivity. Qed.
Lemma vox3_surj n v : pos3 n -> 0 <= v < nv3 n -> exists c, in3 n c /\ vox3 n c = v.
Proof.
  destruct n as [[nx ny] nz]. intros (H1 & H2 & H3) Hv. destruct (voxel_surj nx ny nz v H1 H2 H3 Hv) as (x & y & z & A & B).
  exists (x, y, z). auto.
Qed.
Lemma across_interior n f c : pos3 n -> 0 <= f < 6 -> on_face n f c = true -> interior n (across n n f c) = true.
Proof.
  destruct n as [[nx ny] nz], c as [[x y] z]. intros (H1 & H2 & H3) Hf. six_cases f Hf; cbn; lia.
Qed.

Section Box.
Variables (gp gn n : Z * Z * Z) (fbc pbc nb : Z) (G : Z -> grid).
Hypothesis Hn : pos3 n.
Hypothesis Hgp : pos3 gp.
Hypothesis Hfbc : fbc < 0.
Hypothesis Hpbc : pbc < 0.
Hypothesis HG : forall p, below gp p -> open_grid gp gn n fbc pbc p (G (rank3 gp p)).

Lemma rank_onto r : 0 <= r < prod3 gp -> exists p, below gp p /\ rank3 gp p = r.
Proof.
  intros Hr. destruct gp as [[gx gy] gz]. destruct Hgp as (H1 & H2 & H3).
  destruct (rank_to_index_onto gx gy gz r H1 H2 H3 Hr) as (A & B). eexists. split; eassumption.
Qed.
Lemma mod3_below p : below gp (mod3 gp p).
Proof.
  destruct gp as [[gx gy] gz], p as [[x y] z]. destruct Hgp as (H1 & H2 & H3). cbn.
  pose proof (Z.mod_pos_bound x gx ltac:(lia)). pose proof (Z.mod_pos_bound y gy ltac:(lia)). pose proof (Z.mod_pos_bound z gz ltac:(lia)). lia.
Qed.

Lemma box_reciprocal : reciprocal (prod3 gp) (fun r => bgrid_of nb (G r)).
Proof.
  intros r f Hr Hf. destruct (rank_onto r Hr) as (p & Hp & <-). destruct (HG p Hp) as (G1 & G2 & G3 & G4 & G5 & _).
  split; [exact G1|]. split; [exact G2|]. unfold shared. cbv beta. rewrite nthz_bc by exact Hf. rewrite (G5 f Hf).
  cbn [bgrid_of b_size b_rank]. rewrite G1, G2. intros Hs.
  destruct (at_wall gp gn p f) eqn:W; [lia|].
  assert (Ho : 0 <= opp f < 6) by (unfold opp; apply Z.mod_pos_bound; lia).
  rewrite nthz_bc by exact Ho. pose proof (mod3_below (step f p)) as Hp'.
  destruct (HG _ Hp') as (_ & _ & _ & _ & G5' & _). rewrite (G5' _ Ho). change (opp f) with (opp3 f).
  rewrite at_wall_back, W by assumption. rewrite mod3_back by assumption. reflexivity.
Qed.

Lemma entry_cases p c f : below gp p -> interior n c = true -> 0 <= f < 6 ->
  exists e, g_nbr (G (rank3 gp p)) (6 * vox3 n c + f) = Some e /\
   (e = pbc /\ at_wall gp gn p f = true \/
    (exists c', interior n c' = true /\ e = rank3 gp p * nv3 n + vox3 n c') \/
    (at_wall gp gn p f = false /\ exists c', interior n c' = true /\ e = rank3 gp (mod3 gp (step f p)) * nv3 n + vox3 n c')).
Proof.
  intros Hp Hc Hf. destruct (HG p Hp) as (_ & _ & _ & _ & _ & G6 & _). rewrite (G6 c f Hc Hf). eexists. split; [reflexivity|].
  unfold torus_entry. pose proof (on_face_step n f c Hn Hf Hc) as S. destruct (interior n (step f c)) eqn:I.
  - rewrite S, andb_false_r. right. left. exists (step f c). auto.
  - rewrite S, andb_true_r. cbn [negb]. destruct (at_wall gp gn p f) eqn:W; [left; auto|]. right. right. split; [reflexivity|].
    exists (across n n f c). split; [apply across_interior; assumption|reflexivity].
Qed.

Lemma range_of p : below gp p -> g_rangel (G (rank3 gp p)) = rank3 gp p * nv3 n /\
  g_rangeh (G (rank3 gp p)) = rank3 gp p * nv3 n + nv3 n - 1 /\ dims (G (rank3 gp p)) = n.
Proof.
  intros Hp. destruct (HG p Hp) as (G1 & _ & G3 & G4 & _). pose proof (rank3_range gp p Hp).
  unfold g_rangel, g_rangeh. rewrite G1, !G4 by lia. split; [reflexivity|]. split; [ring|exact G3].
Qed.

Definition real_voxel (v : Z) : Prop := exists c, interior n c = true /\ v = vox3 n c.

Lemma box_table_ok p : below gp p -> 8 * nv3 n <= 2147483648 -> table_ok (mesh_of (G (rank3 gp p))) real_voxel.
Proof.
  intros Hp HN v (c & Hc & ->). pose proof (vox3_range n c Hn (interior_in _ _ Hc)) as HV. destruct (range_of p Hp) as (R1 & R2 & R3).
  split; [lia|]. intros f Hf. rewrite nbr_at_mesh by (rewrite ?R3; assumption).
  destruct (entry_cases p c f Hp Hc Hf) as (e & -> & C). exists e. split; [reflexivity|]. unfold mesh_of. cbn [mrangel mrangeh]. rewrite R1, R2.
  pose proof (rank3_range gp p Hp) as HR. assert (0 <= rank3 gp p * nv3 n) by nia.
  destruct C as [(-> & _)|[(c' & Hc' & ->)|(_ & c' & Hc' & ->)]].
  - right. left. lia.
  - right. right. right. exists c'. split; [exact Hc'|ring].
  - pose proof (vox3_range n c' Hn (interior_in _ _ Hc')) as HV'. set (r' := rank3 gp (mod3 gp (step f p))) in *.
    destruct (Z.lt_trichotomy r' (rank3 gp p)) as [L|[E|L]].
    + right. left. nia.
    + right. right. right. exists c'. split; [exact Hc'|]. rewrite E. ring.
    + right. right. left. nia.
Qed.

Lemma box_sends_to_owner p v f nn : below gp p -> let b := bgrid_of nb (G (rank3 gp p)) in 0 <= f < 6 ->
  shared b f = true -> nbr_at (b_mesh b) v f = Some nn -> 0 <= nn ->
  ~ (mrangel (b_mesh b) <= nn <= mrangeh (b_mesh b)) ->
  let s := nthz (b_bc b) f in nthz (b_range b) s <= nn < nthz (b_range b) (s + 1).
Proof.
  intros Hp b Hf Hs En H0 HR. cbv zeta. destruct (HG p Hp) as (G1 & G2 & G3 & G4 & G5 & _ & G7).
  destruct (range_of p Hp) as (R1 & R2 & R3).
  unfold b in *. cbn [bgrid_of b_mesh b_range] in *. unfold mesh_of in HR. cbn [mrangel mrangeh] in HR. rewrite R1, R2 in HR.
  pose proof (nbr_at_inv _ _ _ _ Hf En) as Hv. rewrite R3 in Hv. rewrite nbr_at_mesh in En by (rewrite ?R3; assumption).
  destruct (vox3_surj n v Hn Hv) as (c & Hc & <-).
  destruct (interior n c) eqn:I; [|rewrite (G7 c f Hc I Hf) in En; injection En as <-; lia].
  destruct (entry_cases p c f Hp I Hf) as (e & Ee & C). rewrite Ee in En. injection En as ->.
  rewrite nthz_bc in * by exact Hf. rewrite (G5 f Hf) in *.
  destruct C as [(-> & _)|[(c' & Hc' & ->)|(W & c' & Hc' & ->)]]; [lia| |].
  - pose proof (vox3_range n c' Hn (interior_in _ _ Hc')). lia.
  - rewrite W. pose proof (vox3_range n c' Hn (interior_in _ _ Hc')) as HV.
    pose proof (rank3_range gp _ (mod3_below (step f p))) as HB. set (r' := rank3 gp (mod3 gp (step f p))) in *.
    change (nthz (g_range (G (rank3 gp p))) r') with (rangez (G (rank3 gp p)) r').
    change (nthz (g_range (G (rank3 gp p))) (r' + 1)) with (rangez (G (rank3 gp p)) (r' + 1)). rewrite !G4 by lia. lia.
Qed.
End Box.
