From Coq Require Import ZArith List Bool Lia ZifyBool Permutation Sorting.Sorted.
From Verif Require Import VoxelModel VoxelProofs SortModel SortProofs SortPipelineProofs SortLegacyProofs.
Import ListNotations.
Open Scope Z_scope.

Ltac Zify.zify_post_hook ::= idtac.

Lemma voxel_corner nx ny nz : 1 <= nx -> 1 <= ny -> 1 <= nz ->
  0 <= voxel nx ny nz 1 1 1 <= voxel nx ny nz nx ny nz /\
  voxel nx ny nz nx ny nz + 1 < nv_of nx ny nz.
Proof. intros. unfold voxel, nv_of. split; [split|]; nia. Qed.

Lemma len_section {A} (m : Z -> A) n : 0 <= n -> Z.of_nat (length (section m 0 n)) = n.
Proof. intros H. rewrite length_section. lia. Qed.

Lemma section_keys (p : Z -> particle) np (Q : Z -> Prop) :
  (forall k, 0 <= k < np -> Q (key (p k))) -> forall q, In q (section p 0 np) -> Q (key q).
Proof. intros H q Hq. apply in_section_inv in Hq. destruct Hq as (k & Hk & ->). auto. Qed.

Lemma below_part vl l v vmax : (forall q, In q l -> vl <= key q <= vmax) ->
  part_of vl l v = Z.of_nat (length (filter (fun q => key q <? v) l)).
Proof.
  intros Hk. unfold part_of. destruct (Z_le_gt_dec vl v) as [Hle|Hgt].
  - rewrite <- length_filter_range by lia. do 2 f_equal. apply filter_ext_in.
    intros q Hq. specialize (Hk q Hq). lia.
  - rewrite psum_nil by lia. rewrite filter_none; [reflexivity|].
    intros q Hq. specialize (Hk q Hq). lia.
Qed.

Lemma length_filter_perm {A} (f : A -> bool) l l' : Permutation l l' ->
  length (filter f l) = length (filter f l').
Proof.
  intros H. induction H; cbn [filter]; auto.
  - destruct (f x); cbn [length]; lia.
  - destruct (f x), (f y); reflexivity.
  - lia.
Qed.

Lemma section_eq_nth {A} (m m' : Z -> A) n : section m 0 n = section m' 0 n ->
  forall k, 0 <= k < n -> m k = m' k.
Proof.
  intros H k Hk. unfold section in H.
  assert (E : forall (m : Z -> A), nth_error (map m (zrange 0 n)) (Z.to_nat k) = Some (m k)).
  { intros m0. rewrite nth_error_map. unfold zrange. rewrite nth_error_map.
    rewrite (nth_error_nth' _ 0%nat) by (rewrite seq_length; lia). rewrite seq_nth by lia.
    cbn [option_map]. do 2 f_equal. lia. }
  pose proof (E m) as E1. rewrite H, E in E1. congruence.
Qed.

Lemma sorted_nth (m : Z -> particle) n :
  StronglySorted (fun a b => key a <= key b) (section m 0 n) ->
  forall j k, 0 <= j <= k -> k < n -> key (m j) <= key (m k).
Proof.
  intros H j k Hjk Hk. destruct (Z.eq_dec j k) as [->|Hne]; [lia|].
  rewrite (section_app m 0 j n) in H by lia. rewrite (section_app m j (j + 1) n) in H by lia.
  rewrite section_one in H. cbn [app] in H.
  revert H. generalize (section m 0 j). intros a. induction a as [|x a IH]; cbn [app]; intros H.
  - inversion_clear H as [|? ? _ HF]. rewrite Forall_forall in HF. apply HF. apply in_section. lia.
  - inversion_clear H. auto.
Qed.

Section S.
Variables (c : bool) (nx ny nz np P : Z).
Variables (p : Z -> particle).
Hypothesis Hx : 1 <= nx.
Hypothesis Hy : 1 <= ny.
Hypothesis Hz : 1 <= nz.
Hypothesis Hn : 0 <= np < 2 ^ 31.
Hypothesis HP : 1 <= P <= 256.
Hypothesis Hk : forall k, 0 <= k < np -> voxel nx ny nz 1 1 1 <= key (p k) <= voxel nx ny nz nx ny nz.

Let vl := voxel nx ny nz 1 1 1.
Let vh := voxel nx ny nz nx ny nz.
Let nv := nv_of nx ny nz.

Lemma run_spec aux0 nx0 pt p' pt' :
  sort_pipeline_run c np vl vh nv P p aux0 nx0 pt p' pt' ->
  section p' 0 np = vsorted vl vh (section p 0 np) /\
  (forall v, 0 <= v < nv -> pt' v = part_of vl (section p 0 np) v) /\
  (forall v, ~ 0 <= v < nv -> pt' v = pt v).
Proof.
  pose proof (voxel_corner nx ny nz Hx Hy Hz) as [H1 H2]. fold vl vh in H1. fold vh nv in H2.
  apply sort_run_spec; try lia; try assumption.
  - apply (section_keys p np (fun v => vl <= v <= vh)). exact Hk.
  - apply len_section. lia.
  - reflexivity.
Qed.
End S.

Lemma sort_correct (c : bool) nx ny nz np P p aux0 nx0 partition p' partition' :
  1 <= nx -> 1 <= ny -> 1 <= nz -> 0 <= np < 2 ^ 31 -> 1 <= P <= 256 ->
  (forall k, 0 <= k < np -> voxel nx ny nz 1 1 1 <= key (p k) <= voxel nx ny nz nx ny nz) ->
  sort_pipeline_run c np (voxel nx ny nz 1 1 1) (voxel nx ny nz nx ny nz) (nv_of nx ny nz) P
    p aux0 nx0 partition p' partition' ->
  Permutation (section p 0 np) (section p' 0 np) /\
  (forall j k, 0 <= j <= k -> k < np -> key (p' j) <= key (p' k)) /\
  (forall v, filter (fun q => key q =? v) (section p' 0 np) =
             filter (fun q => key q =? v) (section p 0 np)) /\
  (forall v k, 0 <= v -> v + 1 < nv_of nx ny nz ->
     (partition' v <= k < partition' (v + 1) <-> 0 <= k < np /\ key (p' k) = v)).
Proof.
  intros Hx Hy Hz Hn HP Hk Hrun.
  destruct (run_spec c nx ny nz np P p Hx Hy Hz Hn HP Hk _ _ _ _ _ Hrun) as (Hs & Hpt & _).
  pose proof (voxel_corner nx ny nz Hx Hy Hz) as [H1 H2].
  pose proof (section_keys p np (fun v => voxel nx ny nz 1 1 1 <= v <= voxel nx ny nz nx ny nz) Hk) as Hks; cbn beta in Hks.
  split; [|split; [|split]].
  - rewrite Hs. apply perm_vsorted. exact Hks.
  - apply sorted_nth. rewrite Hs. apply sorted_vsorted.
  - intros v. rewrite Hs. apply (stable_vsorted _ _ _ v Hks).
  - intros v k Hv Hv'. rewrite !Hpt by lia.
    apply (vsorted_block p' np (section p 0 np) _ (voxel nx ny nz nx ny nz)); try assumption; try lia.
    apply len_section. lia.
Qed.

Lemma sort_deterministic (c1 c2 : bool) nx ny nz np P1 P2 p aux1 aux2 nx1 nx2 pt1 pt2 p1 p2 pt1' pt2' :
  1 <= nx -> 1 <= ny -> 1 <= nz -> 0 <= np < 2 ^ 31 -> 1 <= P1 <= 256 -> 1 <= P2 <= 256 ->
  (forall k, 0 <= k < np -> voxel nx ny nz 1 1 1 <= key (p k) <= voxel nx ny nz nx ny nz) ->
  sort_pipeline_run c1 np (voxel nx ny nz 1 1 1) (voxel nx ny nz nx ny nz) (nv_of nx ny nz) P1
    p aux1 nx1 pt1 p1 pt1' ->
  sort_pipeline_run c2 np (voxel nx ny nz 1 1 1) (voxel nx ny nz nx ny nz) (nv_of nx ny nz) P2
    p aux2 nx2 pt2 p2 pt2' ->
  (forall k, 0 <= k < np -> p1 k = p2 k) /\
  (forall v, 0 <= v < nv_of nx ny nz -> pt1' v = pt2' v).
Proof.
  intros Hx Hy Hz Hn HP1 HP2 Hk R1 R2.
  destruct (run_spec c1 nx ny nz np P1 p Hx Hy Hz Hn HP1 Hk _ _ _ _ _ R1) as (Hs1 & Hpt1 & _).
  destruct (run_spec c2 nx ny nz np P2 p Hx Hy Hz Hn HP2 Hk _ _ _ _ _ R2) as (Hs2 & Hpt2 & _).
  split.
  - apply section_eq_nth. congruence.
  - intros v Hv. rewrite Hpt1, Hpt2 by exact Hv. reflexivity.
Qed.

Lemma subsort_private vl vh P src cp0 next s v :
  1 <= P -> vl <= vh -> 0 <= s < P ->
  (forall q, In q (section src (cp0 s) (cp0 (s + 1))) -> P2V s P vl vh <= key q < P2V (s + 1) P vl vh) ->
  ~ P2V s P vl vh <= v < P2V (s + 1) P vl vh ->
  fst (fst (subsort vl vh P src cp0 next s)) v = next v.
Proof.
  intros HP Hv Hs Hq Hn.
  destruct (subsort_spec vl vh P src cp0 next s) as (nx' & w & -> & _ & H).
  - apply P2V_mono; lia.
  - exact Hq.
  - apply H. exact Hn.
Qed.

Lemma exec_is_run c np vl vh nv P p partition :
  sort_pipeline_run c np vl vh nv P p (fun _ => mkp 0 0) (fun _ _ => 0) partition
    (fst (sort_pipeline_exec c np vl vh nv P p partition))
    (snd (sort_pipeline_exec c np vl vh nv P p partition)).
Proof.
  unfold sort_pipeline_run, sort_pipeline_exec. destruct (P =? 1); cbn [negb].
  - destruct (subsort vl vh 1 p _ _ 0) as [[nx' pw] fw]. cbn [fst snd]. auto.
  - eexists _, _, _, _. cbv zeta. split; [reflexivity|]. split; [reflexivity|].
    split; [reflexivity|]. split; [reflexivity|]. auto.
Qed.

Lemma legacy_correct (out_of_place : bool) np nc step p new_p partition fuel :
  1 <= nc -> 1 <= np -> (forall k, 0 <= k < np -> 0 <= key (p k) < nc) ->
  1 + nc + 2 * np <= Z.of_nat fuel ->
  exists p' partition',
    legacy_sort out_of_place fuel np nc step p new_p partition = Some (p', partition', step) /\
    Permutation (section p 0 np) (section p' 0 np) /\
    (forall j k, 0 <= j <= k -> k < np -> key (p' j) <= key (p' k)) /\
    (forall v k, 0 <= v < nc -> (partition' v <= k < partition' (v + 1) <-> 0 <= k < np /\ key (p' k) = v)).
Proof.
  intros Hnc Hnp Hk Hf.
  pose proof (section_keys p np (fun v => 0 <= v < nc) Hk) as Hks; cbn beta in Hks.
  pose proof (len_section p np ltac:(lia)) as Hlen.
  destruct out_of_place.
  - destruct (legacy_out_of_place_spec np nc (section p 0 np) Hlen Hks p partition step new_p fuel
      eq_refl ltac:(lia)) as (p' & pt' & He & Hs & Hpt).
    exists p', pt'. split; [exact He|].
    assert (Hks' : forall q, In q (section p 0 np) -> 0 <= key q <= nc - 1).
    { intros q Hq. specialize (Hks q Hq). lia. }
    split; [|split].
    + rewrite Hs. apply perm_vsorted. exact Hks'.
    + apply sorted_nth. rewrite Hs. apply sorted_vsorted.
    + intros v k Hv. rewrite !Hpt by lia.
      apply (vsorted_block p' np (section p 0 np) 0 (nc - 1)); try assumption; lia.
  - destruct (legacy_in_place_spec np nc (section p 0 np) Hnc Hlen Hks p partition step new_p fuel
      eq_refl ltac:(lia) Hf) as (p' & pt' & He & Hs & Hpt).
    exists p', pt'. split; [exact He|]. split; [|split].
    + symmetry. apply Hs.
    + apply (final_sorted np nc (section p 0 np)); assumption.
    + intros v k Hv. rewrite !Hpt by lia. apply (final_blocks np nc (section p 0 np)); assumption.
Qed.

Lemma legacy_stable np nc step p new_p partition fuel :
  1 <= nc -> 1 <= np -> (forall k, 0 <= k < np -> 0 <= key (p k) < nc) ->
  exists p' partition',
    legacy_sort true fuel np nc step p new_p partition = Some (p', partition', step) /\
    forall v, filter (fun q => key q =? v) (section p' 0 np) =
              filter (fun q => key q =? v) (section p 0 np).
Proof.
  intros Hnc Hnp Hk.
  pose proof (section_keys p np (fun v => 0 <= v < nc) Hk) as Hks; cbn beta in Hks.
  pose proof (len_section p np ltac:(lia)) as Hlen.
  destruct (legacy_out_of_place_spec np nc (section p 0 np) Hlen Hks p partition step new_p fuel
      eq_refl ltac:(lia)) as (p' & pt' & He & Hs & Hpt).
  exists p', pt'. split; [exact He|]. intros v. rewrite Hs. apply stable_vsorted.
  intros q Hq. specialize (Hks q Hq). lia.
Qed.

Lemma pipeline_fresh (c : bool) nx ny nz np P p aux0 nx0 partition p' partition' :
  1 <= nx -> 1 <= ny -> 1 <= nz -> 0 <= np < 2 ^ 31 -> 1 <= P <= 256 ->
  (forall k, 0 <= k < np -> voxel nx ny nz 1 1 1 <= key (p k) <= voxel nx ny nz nx ny nz) ->
  sort_pipeline_run c np (voxel nx ny nz 1 1 1) (voxel nx ny nz nx ny nz) (nv_of nx ny nz) P
    p aux0 nx0 partition p' partition' ->
  (forall v, 0 <= v < nv_of nx ny nz ->
     partition' v = Z.of_nat (length (filter (fun q => key q <? v) (section p' 0 np)))) /\
  partition' (nv_of nx ny nz) = partition (nv_of nx ny nz).
Proof.
  intros Hx Hy Hz Hn HP Hk Hrun.
  destruct (run_spec c nx ny nz np P p Hx Hy Hz Hn HP Hk _ _ _ _ _ Hrun) as (Hs & Hpt & Hpt').
  pose proof (section_keys p np (fun v => voxel nx ny nz 1 1 1 <= v <= voxel nx ny nz nx ny nz) Hk) as Hks; cbn beta in Hks.
  split; [|apply Hpt'; lia].
  intros v Hv. rewrite Hpt by exact Hv. rewrite (below_part _ _ _ _ Hks). rewrite Hs. f_equal.
  apply length_filter_perm. apply perm_vsorted. exact Hks.
Qed.

Lemma legacy_fresh (out_of_place : bool) np nc step p new_p partition fuel :
  1 <= nc -> 1 <= np -> (forall k, 0 <= k < np -> 0 <= key (p k) < nc) ->
  1 + nc + 2 * np <= Z.of_nat fuel ->
  exists p' partition',
    legacy_sort out_of_place fuel np nc step p new_p partition = Some (p', partition', step) /\
    forall v, 0 <= v <= nc ->
      partition' v = Z.of_nat (length (filter (fun q => key q <? v) (section p' 0 np))).
Proof.
  intros Hnc Hnp Hk Hf.
  pose proof (section_keys p np (fun v => 0 <= v < nc) Hk) as Hks; cbn beta in Hks.
  pose proof (len_section p np ltac:(lia)) as Hlen.
  assert (Hks' : forall q, In q (section p 0 np) -> 0 <= key q <= nc - 1).
  { intros q Hq. specialize (Hks q Hq). lia. }
  destruct out_of_place.
  - destruct (legacy_out_of_place_spec np nc (section p 0 np) Hlen Hks p partition step new_p fuel
      eq_refl ltac:(lia)) as (p' & pt' & He & Hs & Hpt).
    exists p', pt'. split; [exact He|]. intros v Hv. rewrite Hpt by exact Hv.
    rewrite (below_part _ _ _ _ Hks'), Hs. f_equal. apply length_filter_perm. apply perm_vsorted. exact Hks'.
  - destruct (legacy_in_place_spec np nc (section p 0 np) Hnc Hlen Hks p partition step new_p fuel
      eq_refl ltac:(lia) Hf) as (p' & pt' & He & Hs & Hpt).
    exists p', pt'. split; [exact He|]. intros v Hv. rewrite Hpt by exact Hv.
    rewrite (below_part _ _ _ _ Hks'). f_equal. apply length_filter_perm. symmetry. apply Hs.
Qed.

Lemma pipeline_last_entry :
  exists np vl vh nv P p partition p' partition',
    sort_pipeline_run true np vl vh nv P p (fun _ => mkp 0 0) (fun _ _ => 0) partition p' partition' /\
    vl = voxel 2 1 1 1 1 1 /\ vh = voxel 2 1 1 2 1 1 /\ nv = nv_of 2 1 1 /\
    partition' nv <> np.
Proof.
  exists 1, 17, 18, 36, 2, (fun _ => mkp 17 0), (fun _ => 99).
  eexists _, _. split; [apply exec_is_run|]. repeat split. vm_compute. discriminate.
Qed.

Lemma legacy_empty_stale :
  exists out_of_place fuel nc step p new_p partition,
    legacy_sort out_of_place fuel 0 nc step p new_p partition = Some (p, partition, step) /\
    exists v, 0 <= v < nc /\ partition v <> partition (v + 1).
Proof.
  exists true, 100%nat, 36, 7, (fun _ => mkp 0 0), (fun _ => mkp 0 0), (fun v => if v <=? 17 then 0 else 5).
  split; [reflexivity|]. exists 17. split; [lia|]. vm_compute. discriminate.
Qed.
