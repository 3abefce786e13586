(* C05, C06, C07: particle sorting. *)
From Coq Require Import ZArith List Lia Permutation Sorting.Sorted.
From Verif Require Import VoxelModel VoxelProofs SortModel SortProofs SortPipelineProofs SortLegacyProofs SortFinal.
Import ListNotations.
Open Scope Z_scope.

(* ---- C05 ---- *)

(* Any run of the parallel sort (any thread count, any order of the threads'
   stores, any scratch contents, any old partition contents). *)
Theorem C05_sort_correct :
  forall (c : bool) nx ny nz np P p aux0 nx0 partition p' partition',
  1 <= nx -> 1 <= ny -> 1 <= nz -> 0 <= np < 2 ^ 31 -> 1 <= P <= 256 ->
  (forall k, 0 <= k < np -> voxel nx ny nz 1 1 1 <= key (p k) <= voxel nx ny nz nx ny nz) ->
  sort_pipeline_run c np (voxel nx ny nz 1 1 1) (voxel nx ny nz nx ny nz) (nv_of nx ny nz) P
    p aux0 nx0 partition p' partition' ->
  (* a permutation *)
  Permutation (section p 0 np) (section p' 0 np) /\
  (* in ascending voxel order *)
  (forall j k, 0 <= j <= k -> k < np -> key (p' j) <= key (p' k)) /\
  (* input order kept inside each voxel *)
  (forall v, filter (fun q => key q =? v) (section p' 0 np) =
             filter (fun q => key q =? v) (section p 0 np)) /\
  (* the partition delimits exactly the particles of each voxel *)
  (forall v k, 0 <= v -> v + 1 < nv_of nx ny nz ->
     (partition' v <= k < partition' (v + 1) <-> 0 <= k < np /\ key (p' k) = v)).
Proof. exact sort_correct. Qed.
Print Assumptions C05_sort_correct.

(* The result does not depend on the number of threads, on the schedule or on
   leftover memory contents. *)
Theorem C05_sort_deterministic :
  forall (c1 c2 : bool) nx ny nz np P1 P2 p aux1 aux2 nx1 nx2 pt1 pt2 p1 p2 pt1' pt2',
  1 <= nx -> 1 <= ny -> 1 <= nz -> 0 <= np < 2 ^ 31 -> 1 <= P1 <= 256 -> 1 <= P2 <= 256 ->
  (forall k, 0 <= k < np -> voxel nx ny nz 1 1 1 <= key (p k) <= voxel nx ny nz nx ny nz) ->
  sort_pipeline_run c1 np (voxel nx ny nz 1 1 1) (voxel nx ny nz nx ny nz) (nv_of nx ny nz) P1
    p aux1 nx1 pt1 p1 pt1' ->
  sort_pipeline_run c2 np (voxel nx ny nz 1 1 1) (voxel nx ny nz nx ny nz) (nv_of nx ny nz) P2
    p aux2 nx2 pt2 p2 pt2' ->
  (forall k, 0 <= k < np -> p1 k = p2 k) /\
  (forall v, 0 <= v < nv_of nx ny nz -> pt1' v = pt2' v).
Proof. exact sort_deterministic. Qed.
Print Assumptions C05_sort_deterministic.

(* Concurrent subsorts write disjoint parts of the shared scratch array. *)
Theorem C05_subsort_scratch_private :
  forall vl vh P src cp0 next s v,
  1 <= P -> vl <= vh -> 0 <= s < P ->
  (forall q, In q (section src (cp0 s) (cp0 (s + 1))) -> P2V s P vl vh <= key q < P2V (s + 1) P vl vh) ->
  ~ P2V s P vl vh <= v < P2V (s + 1) P vl vh ->
  fst (fst (subsort vl vh P src cp0 next s)) v = next v.
Proof. exact subsort_private. Qed.
Print Assumptions C05_subsort_scratch_private.

(* Every terminating schedule is covered: the in-order run is one of them. *)
Theorem C05_runs_exist : forall c np vl vh nv P p partition,
  sort_pipeline_run c np vl vh nv P p (fun _ => mkp 0 0) (fun _ _ => 0) partition
    (fst (sort_pipeline_exec c np vl vh nv P p partition))
    (snd (sort_pipeline_exec c np vl vh nv P p partition)).
Proof. exact exec_is_run. Qed.
Print Assumptions C05_runs_exist.

Definition ex_particles (k : Z) : particle :=
  nth (Z.to_nat k) [mkp 18 0; mkp 17 1; mkp 18 2; mkp 17 3; mkp 18 4] (mkp 0 (-1)).

(* 2x1x1 mesh (36 voxels), 5 particles, 1 and 3 threads, same outcome. *)
Example C05_example :
  map (fun P => let '(p', pt) := sort_pipeline_exec true 5 17 18 36 P ex_particles (fun _ => 99) in
       (section p' 0 5, map pt [0; 16; 17; 18; 19; 35; 36])) [1; 3] =
  [([mkp 17 1; mkp 17 3; mkp 18 0; mkp 18 2; mkp 18 4], [0; 0; 0; 2; 5; 5; 99]);
   ([mkp 17 1; mkp 17 3; mkp 18 0; mkp 18 2; mkp 18 4], [0; 0; 0; 2; 5; 5; 99])] /\
  voxel 2 1 1 1 1 1 = 17 /\ voxel 2 1 1 2 1 1 = 18 /\ nv_of 2 1 1 = 36.
Proof. vm_compute. auto. Qed.

(* ---- C06 ---- *)

(* nc = number of voxels; fuel bounds the number of loop trips; None = did not terminate. *)
Theorem C06_legacy_sort_correct :
  forall (out_of_place : bool) np nc step p new_p partition fuel,
  1 <= nc -> 1 <= np -> (forall k, 0 <= k < np -> 0 <= key (p k) < nc) ->
  1 + nc + 2 * np <= Z.of_nat fuel ->
  exists p' partition',
    legacy_sort out_of_place fuel np nc step p new_p partition = Some (p', partition', step) /\
    Permutation (section p 0 np) (section p' 0 np) /\
    (forall j k, 0 <= j <= k -> k < np -> key (p' j) <= key (p' k)) /\
    (forall v k, 0 <= v < nc -> (partition' v <= k < partition' (v + 1) <-> 0 <= k < np /\ key (p' k) = v)).
Proof. exact legacy_correct. Qed.
Print Assumptions C06_legacy_sort_correct.

(* The out-of-place variant also keeps the input order inside each voxel. *)
Theorem C06_legacy_out_of_place_stable :
  forall np nc step p new_p partition fuel,
  1 <= nc -> 1 <= np -> (forall k, 0 <= k < np -> 0 <= key (p k) < nc) ->
  exists p' partition',
    legacy_sort true fuel np nc step p new_p partition = Some (p', partition', step) /\
    forall v, filter (fun q => key q =? v) (section p' 0 np) =
              filter (fun q => key q =? v) (section p 0 np).
Proof. exact legacy_stable. Qed.
Print Assumptions C06_legacy_out_of_place_stable.

Example C06_example :
  match legacy_sort false 100 5 36 7 ex_particles ex_particles (fun _ => 99) with
  | Some (p', pt, st) => (map key (section p' 0 5), map pt [0; 17; 18; 19; 36; 37], st)
  | None => ([], [], 0)
  end = ([17; 17; 18; 18; 18], [0; 0; 2; 5; 5; 99], 7).
Proof. vm_compute. reflexivity. Qed.

(* ---- C07 ---- *)

(* After the parallel sort the partition describes the current particles, even
   for an empty species, whatever it contained before. *)
Theorem C07_pipeline_partition_fresh :
  forall (c : bool) nx ny nz np P p aux0 nx0 partition p' partition',
  1 <= nx -> 1 <= ny -> 1 <= nz -> 0 <= np < 2 ^ 31 -> 1 <= P <= 256 ->
  (forall k, 0 <= k < np -> voxel nx ny nz 1 1 1 <= key (p k) <= voxel nx ny nz nx ny nz) ->
  sort_pipeline_run c np (voxel nx ny nz 1 1 1) (voxel nx ny nz nx ny nz) (nv_of nx ny nz) P
    p aux0 nx0 partition p' partition' ->
  (forall v, 0 <= v < nv_of nx ny nz ->
     partition' v = Z.of_nat (length (filter (fun q => key q <? v) (section p' 0 np)))) /\
  (* ... but the entry past the last voxel keeps its old content *)
  partition' (nv_of nx ny nz) = partition (nv_of nx ny nz).
Proof. exact pipeline_fresh. Qed.
Print Assumptions C07_pipeline_partition_fresh.

(* So the last entry need not be the particle count. *)
Theorem C07_pipeline_last_entry_refuted :
  exists np vl vh nv P p partition p' partition',
    sort_pipeline_run true np vl vh nv P p (fun _ => mkp 0 0) (fun _ _ => 0) partition p' partition' /\
    vl = voxel 2 1 1 1 1 1 /\ vh = voxel 2 1 1 2 1 1 /\ nv = nv_of 2 1 1 /\
    partition' nv <> np.
Proof. exact pipeline_last_entry. Qed.
Print Assumptions C07_pipeline_last_entry_refuted.

(* The legacy sort reports an empty species as sorted at the current step and
   leaves whatever partition was there. *)
Theorem C07_legacy_empty_stale_refuted :
  exists out_of_place fuel nc step p new_p partition,
    legacy_sort out_of_place fuel 0 nc step p new_p partition = Some (p, partition, step) /\
    exists v, 0 <= v < nc /\ partition v <> partition (v + 1).
Proof. exact legacy_empty_stale. Qed.
Print Assumptions C07_legacy_empty_stale_refuted.

(* For a non-empty species the legacy partition is fresh (all entries). *)
Theorem C07_legacy_partition_fresh :
  forall (out_of_place : bool) np nc step p new_p partition fuel,
  1 <= nc -> 1 <= np -> (forall k, 0 <= k < np -> 0 <= key (p k) < nc) ->
  1 + nc + 2 * np <= Z.of_nat fuel ->
  exists p' partition',
    legacy_sort out_of_place fuel np nc step p new_p partition = Some (p', partition', step) /\
    forall v, 0 <= v <= nc ->
      partition' v = Z.of_nat (length (filter (fun q => key q <? v) (section p' 0 np))).
Proof. exact legacy_fresh. Qed.
Print Assumptions C07_legacy_partition_fresh.

Example C07_example :
  let '(p', pt) := sort_pipeline_exec true 0 17 18 36 2 ex_particles (fun v => 3 * v) in
  map pt [0; 17; 18; 35; 36] = [0; 0; 0; 0; 108].
Proof. vm_compute. reflexivity. Qed.
