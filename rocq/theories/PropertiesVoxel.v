(* C01, C02, C03: voxel numbering and work splitting. *)
From Coq Require Import ZArith List Lia.
From Verif Require Import DistributeModel DistributeProofs VoxelModel VoxelProofs.
Import ListNotations.
Open Scope Z_scope.

(* ---- C01 ---- *)

Theorem C01_voxel_in_range : forall nx ny nz x y z,
  1 <= nx -> 1 <= ny -> 1 <= nz ->
  0 <= x <= nx + 1 -> 0 <= y <= ny + 1 -> 0 <= z <= nz + 1 ->
  0 <= voxel nx ny nz x y z < (nx + 2) * (ny + 2) * (nz + 2).
Proof. intros. apply voxel_range; unfold in_mesh; auto. Qed.
Print Assumptions C01_voxel_in_range.

Theorem C01_voxel_injective : forall nx ny nz x y z x' y' z',
  1 <= nx -> 1 <= ny ->
  0 <= x <= nx + 1 -> 0 <= y <= ny + 1 -> 0 <= z <= nz + 1 ->
  0 <= x' <= nx + 1 -> 0 <= y' <= ny + 1 -> 0 <= z' <= nz + 1 ->
  voxel nx ny nz x y z = voxel nx ny nz x' y' z' -> (x, y, z) = (x', y', z').
Proof. intros. apply (voxel_inj nx ny nz); unfold in_mesh; auto. Qed.
Print Assumptions C01_voxel_injective.

Theorem C01_voxel_onto : forall nx ny nz v,
  1 <= nx -> 1 <= ny -> 1 <= nz ->
  0 <= v < (nx + 2) * (ny + 2) * (nz + 2) ->
  exists x y z, (0 <= x <= nx + 1 /\ 0 <= y <= ny + 1 /\ 0 <= z <= nz + 1) /\
                voxel nx ny nz x y z = v.
Proof. exact voxel_surj. Qed.
Print Assumptions C01_voxel_onto.

Theorem C01_voxel_decode : forall nx ny nz x y z,
  1 <= nx -> 1 <= ny ->
  0 <= x <= nx + 1 -> 0 <= y <= ny + 1 -> 0 <= z <= nz + 1 ->
  decode_rhob nx ny (voxel nx ny nz x y z) = (x, y, z) /\
  decode_link nx ny (voxel nx ny nz x y z) = (x, y, z).
Proof.
  intros. split; [apply decode_rhob_voxel|apply decode_link_voxel]; unfold in_mesh; auto.
Qed.
Print Assumptions C01_voxel_decode.

Example C01_example :
  voxel 3 4 5 2 1 6 = 187 /\ decode_rhob 3 4 187 = (2, 1, 6) /\ decode_link 3 4 187 = (2, 1, 6) /\
  voxel 3 4 5 4 5 6 = 5 * 6 * 7 - 1.
Proof. vm_compute. auto. Qed.

(* ---- C02 ---- *)

(* c = true: a*b+0.5 contracted to a fused multiply-add by the compiler; c = false: not. *)
Theorem C02_distribute_exact_cover : forall (c : bool) (N b P : Z),
  0 <= N < 2 ^ 31 -> 1 <= b -> 1 <= P < 2 ^ 31 ->
  (forall p, 0 <= p <= P ->
     let '(i, n) := distribute c N b p P in
     0 <= i /\ 0 <= n /\ i + n <= N /\ (b | i) /\
     (p < P -> (b | n)) /\ (p = P -> n = N mod b /\ i = N - N mod b)) /\
  (forall k, 0 <= k < N -> exists p, (0 <= p <= P /\
       (let '(i, n) := distribute c N b p P in i <= k < i + n)) /\
     (forall p', 0 <= p' <= P ->
       (let '(i, n) := distribute c N b p' P in i <= k < i + n) -> p' = p)) /\
  (forall p, 0 <= p < P ->
     fst (distribute c N b (p + 1) P) =
     fst (distribute c N b p P) + snd (distribute c N b p P)).
Proof. exact distribute_ok. Qed.
Print Assumptions C02_distribute_exact_cover.

Theorem C02_distribute_balanced : forall (c : bool) (N b P p : Z),
  0 <= N < 2 ^ 31 -> 1 <= b -> 1 <= P < 2 ^ 31 -> 0 <= p < P ->
  b * (N / b / P - 1) <= snd (distribute c N b p P) <= b * (N / b / P + 2).
Proof. exact distribute_balance. Qed.
Print Assumptions C02_distribute_balanced.

Theorem C02_collision_ranges_exact_cover : forall (c : bool) (np P : Z),
  0 <= np < 2 ^ 31 -> 1 <= P < 2 ^ 31 ->
  (forall r, 0 <= r < P -> let '(i, i1) := collision_range c np P r in
      0 <= i /\ i <= i1 /\ i1 <= np) /\
  (forall k, 0 <= k < np -> exists r, (0 <= r < P /\
      (let '(i, i1) := collision_range c np P r in i <= k < i1)) /\
      (forall r', 0 <= r' < P ->
      (let '(i, i1) := collision_range c np P r' in i <= k < i1) -> r' = r)).
Proof. exact collision_range_ok. Qed.
Print Assumptions C02_collision_ranges_exact_cover.

Example C02_example :
  map (fun p => distribute true 1003 16 p 4) [0; 1; 2; 3; 4] =
    [(0, 256); (256, 240); (496, 256); (752, 240); (992, 11)] /\
  map (fun p => distribute false 1003 16 p 4) [0; 1; 2; 3; 4] =
    [(0, 256); (256, 240); (496, 256); (752, 240); (992, 11)] /\
  map (collision_range true 10 3) [0; 1; 2] = [(0, 3); (3, 7); (7, 10)].
Proof. vm_compute. auto. Qed.

(* ---- C03 ---- *)

Theorem C03_stencil_walk_covers_box : forall c nx ny nz x0 x1 y0 y1 z0 z1 b P,
  x0 - 1 <= x1 -> y0 - 1 <= y1 -> z0 - 1 <= z1 ->
  (x1 - x0 + 1) * (y1 - y0 + 1) * (z1 - z0 + 1) < 2 ^ 31 -> 1 <= b -> 1 <= P < 2 ^ 31 ->
  let visits := flat_map (fun p => job_walk c (next_stencil nx ny nz x0 x1 y0 y1)
                                    nx ny nz x0 x1 y0 y1 z0 z1 b p P) (ranks P) in
  NoDup visits /\
  (forall v x y z, In (v, x, y, z) visits <->
     (x0 <= x <= x1 /\ y0 <= y <= y1 /\ z0 <= z <= z1 /\ v = x + (nx + 2) * (y + (ny + 2) * z))).
Proof. exact stencil_cover. Qed.
Print Assumptions C03_stencil_walk_covers_box.

Theorem C03_next_voxel_walk_covers_box : forall c nx ny nz x0 x1 y0 y1 z0 z1 b P,
  x0 - 1 <= x1 -> y0 - 1 <= y1 -> z0 - 1 <= z1 ->
  (x1 - x0 + 1) * (y1 - y0 + 1) * (z1 - z0 + 1) < 2 ^ 31 -> 1 <= b -> 1 <= P < 2 ^ 31 ->
  let visits := flat_map (fun p => job_walk c (next_voxel nx ny x0 x1 y0 y1)
                                    nx ny nz x0 x1 y0 y1 z0 z1 b p P) (ranks P) in
  NoDup visits /\
  (forall v x y z, In (v, x, y, z) visits <->
     (x0 <= x <= x1 /\ y0 <= y <= y1 /\ z0 <= z <= z1 /\ v = x + (nx + 2) * (y + (ny + 2) * z))).
Proof. exact next_voxel_cover. Qed.
Print Assumptions C03_next_voxel_walk_covers_box.

Example C03_jobs_example :
  map (fun p => map (fun '(v, x, y, z) => (x, y, z))
    (job_walk true (next_stencil 3 3 2 2 3 2 3) 3 3 2 2 3 2 3 2 2 1 p 2)) (ranks 2) =
    [[(2, 2, 2); (3, 2, 2)]; [(2, 3, 2); (3, 3, 2)]; []].
Proof. vm_compute. auto. Qed.

(* A 3x2x2 box walked from its second voxel. *)
Example C03_walk_example :
  walk (next_stencil 3 2 2 1 3 1 2) 4 (voxel 3 2 2 2 1 1, 2, 1, 1) =
    [(27, 2, 1, 1); (28, 3, 1, 1); (31, 1, 2, 1); (32, 2, 2, 1)] /\
  walk (next_voxel 3 2 1 3 1 2) 4 (voxel 3 2 2 3 2 1, 3, 2, 1) =
    [(33, 3, 2, 1); (46, 1, 1, 2); (47, 2, 1, 2); (48, 3, 1, 2)].
Proof. vm_compute. auto. Qed.
