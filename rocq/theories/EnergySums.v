(* The energy sums: of the pipelines of a rank, of the ranks of a box, over the mesh. *)
From Coq Require Import Reals ZArith List Bool Lia ZifyBool Lra Permutation.
From Verif Require Import SortModel SortProofs DistributeModel VoxelModel VoxelProofs GridModel GridProofs SweepModel SweepProofs FieldModel FieldProofs FieldBoundaryModel
  RemoteModel RemoteSpec RemoteProofs DecompSpec DecompProofs LocalModel LocalSpec WallSpec WallProofs ParticleSpec ParticleProofs ChargeProofs CurrentProofs YeeCalculus EnergyModel EnergySpec.
Import ListNotations.
Open Scope Z_scope.
Ltac Zify.zify_post_hook ::= idtac.
Local Notation axis := RemoteModel.axis.
Local Notation AX := RemoteModel.AX.
Local Notation AY := RemoteModel.AY.
Local Notation AZ := RemoteModel.AZ.
Local Notation AT := RemoteModel.at_.
Local Notation sumR := ParticleSpec.sumR.
Local Notation put := RemoteModel.put.

(* ---- weights of half a cell at the ends ---- *)
Lemma I1_trap n (f : Z -> R) : 1 <= n -> I1 true n f = (sumR (map f (zrange 1 (n + 1))) + (f (n + 1)%Z - f 1%Z) / 2)%R.
Proof.
  intros Hn. pose proof (I1_tele n f Hn) as T. unfold I1 in *. rewrite <- T. clear T. generalize (zrange 1 (n + 1)). intros l. induction l as [|x l IH]; cbn [map]; [cbn; lra|].
  rewrite !sumR_cons. rewrite IH. lra.
Qed.
Lemma ends_I1 (k per : bool) n (f : Z -> R) : 1 <= n -> (per = true -> f (n + 1) = f 1) ->
  sumR (map (fun i => ((if k && negb per && ((i =? 1) || (i =? n + 1)) then 1 / 2 else 1) * f i)%R) (zrange 1 (n + (if k && negb per then 1 else 0) + 1))) = I1 k n f.
Proof.
  intros Hn Hp. destruct k; cbn [andb].
  - rewrite (I1_trap n f Hn). destruct per; cbn [negb].
    + rewrite (Hp eq_refl). replace (n + 0 + 1) with (n + 1) by lia. replace (sumR (map f (zrange 1 (n + 1))) + (f 1%Z - f 1%Z) / 2)%R with (sumR (map f (zrange 1 (n + 1)))) by lra.
      apply sum_ext. intros i _. cbn [andb]. lra.
    + rewrite (zrange_app 1 (n + 1)) by lia. rewrite (zrange_cons (n + 1)), (zrange_nil (n + 1 + 1)) by lia. rewrite map_app, ParticleProofs.sumR_app.
      rewrite (zrange_cons 1 (n + 1)) by lia. cbn [map andb]. rewrite !sumR_cons. replace (n + 1 =? n + 1) with true by lia. replace (1 =? 1) with true by lia. rewrite orb_true_r. cbn [orb].
      rewrite (sum_ext _ f (zrange (1 + 1) (n + 1))).
      * cbn [ParticleSpec.sumR fold_right]. lra.
      * intros i Hi. apply in_zrange in Hi. replace (i =? 1) with false by lia. replace (i =? n + 1) with false by lia. cbn [orb]. lra.
  - replace (n + 0 + 1) with (n + 1) by lia. unfold I1. apply sum_ext. intros i _. lra.
Qed.

Lemma total_S3 M c f : (forall a, 1 <= gm_n M a) -> mesh_repeats M f -> total_over M c f = S3 (gm_n M) (node_on c) f.
Proof.
  intros Hn Hf. unfold total_over, S3.
  assert (Q : forall x y, sumR (map (fun z => (share M c AZ z * f (x, y, z))%R) (stations M c AZ)) = I1 (node_on c AZ) (gm_n M AZ) (fun z => f (x, y, z))).
  { intros x y. apply (ends_I1 (node_on c AZ) (gm_per M AZ) (gm_n M AZ) (fun z => f (x, y, z))); [apply Hn|]. intros Hp. rewrite Z.add_comm. exact (Hf AZ (x, y, 1) Hp). }
  assert (Q2 : forall x, sumR (map (fun y => (share M c AY y * sumR (map (fun z => share M c AZ z * f (x, y, z)) (stations M c AZ)))%R) (stations M c AY)) =
     I1 (node_on c AY) (gm_n M AY) (fun y => I1 (node_on c AZ) (gm_n M AZ) (fun z => f (x, y, z)))).
  { intros x. rewrite <- (ends_I1 (node_on c AY) (gm_per M AY) (gm_n M AY) (fun y => I1 (node_on c AZ) (gm_n M AZ) (fun z => f (x, y, z)))).
    - unfold stations at 1. apply sum_ext. intros y _. rewrite Q. reflexivity.
    - apply Hn.
    - intros Hp. apply I1_ext. intros z _. rewrite Z.add_comm. exact (Hf AY (x, 1, z) Hp). }
  rewrite <- (ends_I1 (node_on c AX) (gm_per M AX) (gm_n M AX)).
  - unfold stations at 1. apply sum_ext. intros x _. rewrite Q2. reflexivity.
  - apply Hn.
  - intros Hp. apply I1_ext. intros y _. apply I1_ext. intros z _. rewrite Z.add_comm. exact (Hf AX (1, y, z) Hp).
Qed.

(* ---- means over the corners of a cell ---- *)
Definition mean1 (k : axis -> bool) (a : axis) (f : cell -> R) (g : cell) : R := if k a then ((f g + f (up a g)) / 2)%R else f g.
Definition mean (k : axis -> bool) (f : cell -> R) : cell -> R := mean1 k AX (mean1 k AY (mean1 k AZ f)).
Lemma S3_mean1 N k k' a f : (forall b, k' b = off a k b) -> S3 N k f = S3 N k' (mean1 k a f).
Proof.
  intros H. rewrite (S3_kind N k' (off a k)) by exact H. unfold mean1. destruct (k a) eqn:E; [apply S3_half; exact E|].
  apply S3_kind. intros b. unfold off. destruct a, b; cbn; congruence.
Qed.
Lemma S3_mean N k f : S3 N k f = S3 N (fun _ => false) (mean k f).
Proof.
  rewrite (S3_mean1 N k (off AZ k) AZ) by reflexivity. rewrite (S3_mean1 N (off AZ k) (off AY (off AZ k)) AY) by reflexivity.
  rewrite (S3_mean1 N (off AY (off AZ k)) (fun _ => false) AX) by (intros []; reflexivity). reflexivity.
Qed.
Definition cells_of (N : axis -> Z) (f : cell -> R) : R := sumR (map (fun x => sumR (map (fun y => sumR (map (fun z => f (x, y, z)) (zrange 1 (N AZ + 1)))) (zrange 1 (N AY + 1)))) (zrange 1 (N AX + 1))).
Lemma S3_cells N f : S3 N (fun _ => false) f = cells_of N f. Proof. reflexivity. Qed.

(* ---- one rank ---- *)
Lemma fold_sum {T} (f : T -> R) l s : fold_left (fun s u => (s + f u)%R) l s = (s + sumR (map f l))%R.
Proof. revert s. induction l as [|x l IH]; intros s; cbn [fold_left map]; [cbn; lra|]. rewrite IH, sumR_cons. lra. Qed.
Lemma ranks_zrange P : 0 <= P -> ranks P = zrange 0 (P + 1).
Proof. intros H. unfold ranks, zrange. replace (P + 1 - 0) with (P + 1) by lia. apply map_ext. intros i. lia. Qed.
Section Rank.
Variables (nx ny nz : Z) (mt : mats R) (F : mem R) (contract : bool) (P : Z).
Hypothesis Hx : 1 <= nx.
Hypothesis Hy : 1 <= ny.
Hypothesis Hz : 1 <= nz.
Hypothesis Hn : nx * ny * nz < 2 ^ 31.
Hypothesis HP : 1 <= P < 2 ^ 31.
Local Notation vox := (voxel nx ny nz).
Local Notation n3 := (nx, ny, nz).
Definition n_of (a : axis) : Z := AT a n3.
Lemma rank_cells reduce eps0 dV c : rank_en nx ny nz reduce contract P eps0 dV c = (0.5 * eps0 * dV * cells_of n_of (fun q => reduce c (vox3 n3 q)))%R.
Proof.
  unfold rank_en. rewrite (fold_sum (fun p => pipe_en nx ny nz reduce contract P c p)).
  assert (E : (pipe_en nx ny nz reduce contract P c 0 + sumR (map (fun p => pipe_en nx ny nz reduce contract P c p) (zrange 1 (P + 1))))%R = sumR (map (fun p => pipe_en nx ny nz reduce contract P c p) (ranks P))).
  { rewrite ranks_zrange by lia. rewrite (zrange_cons 0) by lia. cbn [map]. rewrite sumR_cons. reflexivity. }
  rewrite E. clear E.
  assert (E : sumR (map (fun p => pipe_en nx ny nz reduce contract P c p) (ranks P)) = sumR (map (fun s : vstate => let '(v, _, _, _) := s in reduce c v) (visits_of nx ny nz contract P 1))).
  { unfold visits_of. rewrite sum_flat. apply sum_ext. intros p _. unfold pipe_en. rewrite fold_sum. rewrite Rplus_0_l. apply sum_ext. intros [[[v x] y] z] _. reflexivity. }
  rewrite E. clear E.
  rewrite (sum_perm _ _ (visits_map nx ny nz Hx Hy Hz contract P 1 0%nat (reduce c) (fun q : pt => let '(_, x, y, z) := q in reduce c (vox x y z)) (or_introl eq_refl) Hn HP (fun _ _ _ => eq_refl))).
  rewrite (Rmult_comm _ (0.5 * eps0 * dV)). f_equal. unfold piece_pts, for_. cbn [px0 px1 py0 py1 pz0 pz1 pk].
  rewrite sum_flat. etransitivity.
  { apply sum_ext. intros z _. rewrite sum_flat. etransitivity; [apply sum_ext; intros y _; rewrite sum_flat; apply sum_ext; intros x _; cbn [map ParticleSpec.sumR fold_right]; apply Rplus_0_r|].
    rewrite sum_swap. reflexivity. }
  rewrite sum_swap. unfold cells_of. apply sum_ext. intros x _. rewrite sum_swap. reflexivity.
Qed.
Lemma vox_up a q : vox3 n3 (up a q) = vox3 n3 q + match a with RemoteModel.AX => 1 | RemoteModel.AY => sy nx | RemoteModel.AZ => sz nx ny end.
Proof. destruct q as [[x y] z], a; unfold up, sy, sz, vox3; cbn [put RemoteModel.at_]; unfold voxel; ring. Qed.
Lemma rank_S3 eps0 dV a : forall c, c = e_ a \/ c = cb a ->
  rank_en nx ny nz (reduce_en nx ny mt F) contract P eps0 dV c = (0.5 * eps0 * dV * S3 n_of (node_on c) (fun q => sq mt F c (vox3 n3 q)))%R.
Proof.
  intros c Hc. rewrite rank_cells. f_equal. rewrite S3_mean, S3_cells. unfold cells_of. apply sum_ext. intros x _. apply sum_ext. intros y _. apply sum_ext. intros z _.
  destruct Hc as [-> | ->], a; cbv beta iota delta [mean mean1 node_on e_ cb reduce_en]; rewrite ?vox_up; generalize (vox3 n3 (x, y, z)) (sy nx) (sz nx ny); intros v s1 s2;
    rewrite ?(Z.add_comm (v + s2) s1), ?(Z.add_comm (v + s2) 1), ?(Z.add_comm (v + s1) 1);
    replace (s1 + (v + s2)) with (v + s1 + s2) by ring; replace (1 + (v + s2)) with (v + 1 + s2) by ring; replace (1 + (v + s1)) with (v + 1 + s1) by ring; lra.
Qed.
End Rank.

(* ---- all ranks ---- *)
Lemma layers_sum (n : Z -> Z) (m : nat) (f : Z -> R) : (forall i, 0 <= i < Z.of_nat m -> 1 <= n i) ->
  sumR (map (fun i => sumR (map (fun x => f (before n (Z.to_nat i) + x)) (zrange 1 (n i + 1)))) (zrange 0 (Z.of_nat m))) = sumR (map f (zrange 1 (before n m + 1))).
Proof.
  induction m as [|m IH]; intros Hn; [reflexivity|].
  assert (B : 0 <= before n m).
  { assert (Q : forall k, (k <= m)%nat -> 0 <= before n k); [|apply Q; lia]. induction k as [|k IHk]; intros Hk; cbn [before]; [lia|]. pose proof (Hn (Z.of_nat k) ltac:(lia)). specialize (IHk ltac:(lia)). lia. }
  replace (Z.of_nat (S m)) with (Z.of_nat m + 1) by lia. rewrite (zrange_app 0 (Z.of_nat m)) by lia. rewrite map_app, ParticleProofs.sumR_app, IH by (intros; apply Hn; lia).
  rewrite (zrange_cons (Z.of_nat m)), (zrange_nil (Z.of_nat m + 1)) by lia. cbn [map]. rewrite sumR_cons. rewrite Nat2Z.id. cbn [before].
  pose proof (Hn (Z.of_nat m) ltac:(lia)) as Hm.
  rewrite (zrange_app 1 (before n m + 1) (before n m + n (Z.of_nat m) + 1)) by lia. rewrite map_app, ParticleProofs.sumR_app. f_equal.
  replace (zrange (before n m + 1) (before n m + n (Z.of_nat m) + 1)) with (map (fun x => before n m + x) (zrange 1 (n (Z.of_nat m) + 1))).
  - rewrite map_map. cbn. apply Rplus_0_r.
  - unfold zrange. rewrite map_map. replace (before n m + n (Z.of_nat m) + 1 - (before n m + 1)) with (n (Z.of_nat m) + 1 - 1) by lia. apply map_ext. intros i. lia.
Qed.
Section World.
Variable L : layout R.
Variable num : cell -> Z.
Variable ws : Z.
Variable G : Z -> cgrid R.
Hypothesis OK : layout_ok L.
Hypothesis HB : box L num ws G.
Definition positions : list cell := flat_map (fun i => flat_map (fun j => map (fun k => (i, j, k)) (zrange 0 (l_p L AZ))) (zrange 0 (l_p L AY))) (zrange 0 (l_p L AX)).
Lemma in_positions p : In p positions <-> inside L p.
Proof.
  unfold positions. split.
  - intros H. apply in_flat_map in H. destruct H as (i & Hi & H). apply in_flat_map in H. destruct H as (j & Hj & H). apply in_map_iff in H. destruct H as (k & <- & Hk). apply in_zrange in Hi, Hj, Hk.
    intros []; cbn; lia.
  - destruct p as [[i j] k]. intros H. pose proof (H AX). pose proof (H AY). pose proof (H AZ). cbn in *. apply in_flat_map. exists i. split; [apply in_zrange; lia|]. apply in_flat_map. exists j. split; [apply in_zrange; lia|].
    apply in_map_iff. exists k. split; [reflexivity|apply in_zrange; lia].
Qed.
Lemma nodup_positions : NoDup positions.
Proof.
  unfold positions. apply (RemoteProofs.nodup_flat (fun q : cell => fst (fst q))); [| |apply NoDup_zrange].
  - intros x q Hq. apply in_flat_map in Hq. destruct Hq as (y & _ & Hq). apply in_map_iff in Hq. destruct Hq as (z & <- & _). reflexivity.
  - intros x _. apply (RemoteProofs.nodup_flat (fun q : cell => snd (fst q))); [| |apply NoDup_zrange].
    + intros y q Hq. apply in_map_iff in Hq. destruct Hq as (z & <- & _). reflexivity.
    + intros y _. apply FinFun.Injective_map_NoDup; [|apply NoDup_zrange]. intros z z' E. injection E as E. exact E.
Qed.
Lemma sum_positions (f : cell -> R) : sumR (map f positions) = sumR (map (fun i => sumR (map (fun j => sumR (map (fun k => f (i, j, k)) (zrange 0 (l_p L AZ)))) (zrange 0 (l_p L AY)))) (zrange 0 (l_p L AX))).
Proof. unfold positions. rewrite sum_flat. apply sum_ext. intros i _. rewrite sum_flat. apply sum_ext. intros j _. rewrite map_map. reflexivity. Qed.
Lemma world_positions (en : Z -> R) : world_en ws en = sumR (map (fun p => en (num p)) positions).
Proof.
  unfold world_en. rewrite <- (map_map num en). apply sum_mapperm. destruct HB as (B1 & B2 & B3 & _).
  apply NoDup_Permutation; [apply NoDup_zrange| |].
  - assert (Q : forall l, NoDup l -> (forall p, In p l -> inside L p) -> NoDup (map num l)); [|apply Q; [apply nodup_positions|intros p Hp; apply in_positions; exact Hp]].
    induction l as [|p l IH]; intros N I; [constructor|]. inversion N as [|? ? N1 N2]; subst. cbn [map]. constructor; [|apply IH; [exact N2|intros q Hq; apply I; right; exact Hq]].
    intros H. apply in_map_iff in H. destruct H as (q & E & Hq). apply N1. rewrite <- (B2 q p); [exact Hq|apply I; right; exact Hq|apply I; left; reflexivity|exact E].
  - intros r. rewrite in_zrange, in_map_iff. split.
    + intros Hr. destruct (B3 r ltac:(lia)) as (p & Hp & E). exists p. split; [exact E|apply in_positions; exact Hp].
    + intros (p & <- & Hp). apply in_positions in Hp. pose proof (B1 p Hp). lia.
Qed.
(* the cells of all ranks are the cells of the mesh *)
Lemma world_cells (f : cell -> R) : sumR (map (fun p => cells_of (fun a => l_n L a (AT a p)) (fun q => f (gplace L p q))) positions) = cells_of (total L) f.
Proof.
  destruct OK as [O1 O2]. rewrite sum_positions. unfold cells_of. cbv beta. cbn [RemoteModel.at_].
  assert (Q : forall a (h : Z -> R), sumR (map (fun i => sumR (map (fun x => h (before (l_n L a) (Z.to_nat i) + x)) (zrange 1 (l_n L a i + 1)))) (zrange 0 (l_p L a))) = sumR (map h (zrange 1 (total L a + 1)))).
  { intros a h. pose proof (O1 a). pose proof (layers_sum (l_n L a) (Z.to_nat (l_p L a)) h) as S. rewrite Z2Nat.id in S by lia. apply S. intros i Hi. apply O2. exact Hi. }
  etransitivity; [|apply Q]. apply sum_ext. intros i _.
  etransitivity; [apply sum_ext; intros j _; apply sum_swap|]. rewrite sum_swap. apply sum_ext. intros x _.
  etransitivity; [|apply Q]. apply sum_ext. intros j _. rewrite sum_swap. apply sum_ext. intros y _. rewrite <- Q. apply sum_ext. intros k _. apply sum_ext. intros z _. reflexivity.
Qed.

Variable M : gmesh.
Variable gm : gmats R.
Variable mt : cell -> mats R.
Variable F : gfield R.
Variable W : Z -> mem R.
Hypothesis HM : forall a, total L a = gm_n M a /\ l_per L a = gm_per M a.
Hypothesis Hm : forall p, inside L p -> same_mats L gm p (mt p).
Hypothesis Hr : mats_repeat L gm.
Hypothesis Fr : field_repeats L F.
Hypothesis Hh : holds_field L num F W.
Definition density (c : comp) (g : cell) : R :=
  match c with
  | Ex => eps_at gm AX g * (F c g * F c g) | Ey => eps_at gm AY g * (F c g * F c g) | Ez => eps_at gm AZ g * (F c g * F c g)
  | Cbx => rmu_at gm AX g * (F c g * F c g) | Cby => rmu_at gm AY g * (F c g * F c g) | Cbz => rmu_at gm AZ g * (F c g * F c g)
  | _ => 0
  end%R.
Lemma mesh_n a : 1 <= gm_n M a.
Proof. destruct (HM a) as [<- _]. destruct OK as [O1 O2]. pose proof (O1 a). unfold total. replace (Z.to_nat (l_p L a)) with (S (Z.to_nat (l_p L a - 1))) by lia. cbn [before]. rewrite Z2Nat.id by lia. pose proof (O2 a (l_p L a - 1) ltac:(lia)).
  assert (Q : forall k, Z.of_nat k <= l_p L a -> 0 <= before (l_n L a) k); [|specialize (Q (Z.to_nat (l_p L a - 1)) ltac:(lia)); lia].
  induction k as [|k IH]; intros Hk; cbn [before]; [lia|]. pose proof (O2 a (Z.of_nat k) ltac:(lia)). specialize (IH ltac:(lia)). lia. Qed.
Lemma density_repeats c : mesh_repeats M (density c).
Proof.
  intros a g Ha. destruct (HM a) as [E1 E2]. rewrite <- E1. rewrite <- E2 in Ha. destruct Hr as (R1 & R2 & R3 & _ & R4 & R5 & R6).
  destruct c; cbn [density]; try reflexivity; unfold eps_at, rmu_at, gmat; rewrite ?(R1 a g Ha), ?(R2 a g Ha), ?(R3 a g Ha), ?(R4 a g Ha), ?(R5 a g Ha), ?(R6 a g Ha), (Fr _ a g Ha); reflexivity.
Qed.
Lemma sq_held c p q : inside L p -> holds L c p q -> sq (mt p) (W (num p)) c (vox3 (size_at L p) q) = density c (gplace L p q).
Proof.
  intros Hp Hq. destruct (Hm p Hp) as [T1 T2]. specialize (T2 q).
  assert (B : forall a, 0 <= AT a q <= l_n L a (AT a p) + 1) by (intros a; specialize (Hq a); destruct (node_on c a); lia).
  destruct (T2 B) as (E1 & E2 & E3 & _ & E4 & E5 & E6).
  destruct c; cbn [sq density]; try reflexivity; rewrite !(Hh _ p q Hp Hq), ?E1, ?E2, ?E3, ?E4, ?E5, ?E6, T1; unfold eps_at, rmu_at, gmat; ring.
Qed.
Lemma world_total (en : Z -> R) contract P eps0 dV a c : c = e_ a \/ c = cb a ->
  (forall p, inside L p -> AT AX (size_at L p) * AT AY (size_at L p) * AT AZ (size_at L p) < 2 ^ 31 /\ 1 <= P p < 2 ^ 31) ->
  (forall p, inside L p -> let '(nx, ny, nz) := size_at L p in en (num p) = rank_en nx ny nz (reduce_en nx ny (mt p) (W (num p))) (contract p) (P p) eps0 dV c) ->
  world_en ws en = (0.5 * eps0 * dV * total_over M c (density c))%R.
Proof.
  intros Hc Hf He. rewrite world_positions.
  rewrite (total_S3 M c (density c) mesh_n (density_repeats c)), S3_mean, S3_cells.
  transitivity (sumR (map (fun p => (0.5 * eps0 * dV * cells_of (fun a => l_n L a (AT a p)) (fun q => mean (node_on c) (density c) (gplace L p q)))%R) positions)).
  - apply sum_ext. intros p Hp. apply in_positions in Hp. destruct (Hf p Hp) as [F1 F2]. specialize (He p Hp). cbv beta iota delta [size_at] in He. cbv beta iota delta [size_at RemoteModel.at_] in F1.
    destruct OK as [_ O2]. pose proof (O2 AX _ (Hp AX)) as N1. pose proof (O2 AY _ (Hp AY)) as N2. pose proof (O2 AZ _ (Hp AZ)) as N3.
    rewrite He. rewrite (rank_S3 _ _ _ (mt p) (W (num p)) (contract p) (P p) N1 N2 N3 F1 F2 eps0 dV a c Hc). f_equal.
    transitivity (S3 (fun a => l_n L a (AT a p)) (node_on c) (fun q => density c (gplace L p q))).
    + change (n_of (l_n L AX (AT AX p)) (l_n L AY (AT AY p)) (l_n L AZ (AT AZ p))) with (fun a => AT a (size_at L p)).
      transitivity (S3 (fun a => l_n L a (AT a p)) (node_on c) (fun q => sq (mt p) (W (num p)) c (vox3 (size_at L p) q))); [reflexivity|].
      apply S3_ext. intros q Hq. apply sq_held; [exact Hp|exact Hq].
    + rewrite S3_mean, S3_cells. unfold cells_of. apply sum_ext. intros x _. apply sum_ext. intros y _. apply sum_ext. intros z _.
      unfold mean, mean1. rewrite <- !gplace_up. destruct (node_on c AX), (node_on c AY), (node_on c AZ); rewrite <- ?gplace_up; reflexivity.
  - rewrite sum_scale. f_equal. rewrite (world_cells (mean (node_on c) (density c))). unfold cells_of. rewrite !(fun a => proj1 (HM a)). reflexivity.
Qed.
End World.
