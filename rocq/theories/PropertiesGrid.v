(* C19 - C21: neighbour tables, joined domains, box partitions. *)
Require Import Reals.
Require Import ZArith List Bool Lia ZifyBool Permutation.
Require Import Verif.ParticleModel Verif.ParticleSpec Verif.MoverModel Verif.BoundaryProofs.
Require Import Verif.SortModel Verif.SortProofs Verif.VoxelModel Verif.VoxelProofs.
Require Import Verif.GridModel Verif.GridProofs Verif.PartitionProofs Verif.TopologyProofs.
Import ListNotations.
Open Scope Z_scope.
Ltac Zify.zify_post_hook ::= idtac.

(* ---- C19 ---- *)

(* nvs: the voxel counts of all ranks.  For a mesh with 6*nv within int, size_grid succeeds (all its
   stores are inside the array) and the six entries of an interior cell are its six adjacent cells
   (numbered from range[rank]) or -1 at the edge of the mesh; all entries of ghost cells are -1. *)
Theorem C19_neighbours : forall rank size nvs nx ny nz, 1 <= nx -> 1 <= ny -> 1 <= nz ->
  6 * ((nx + 2) * (ny + 2) * (nz + 2)) <= 2147483647 ->
  exists g, size_grid rank size nvs nx ny nz = Ok g /\
  let v x y z := x + (nx + 2) * (y + (ny + 2) * z) in
  let at_ x y z f := g_nbr g (6 * v x y z + f) in
  let first := nth (Z.to_nat rank) (g_range g) 0 in
  (forall x y z, 1 <= x <= nx -> 1 <= y <= ny -> 1 <= z <= nz ->
     at_ x y z 0 = Some (if x =? 1 then -1 else first + v (x - 1) y z) /\
     at_ x y z 1 = Some (if y =? 1 then -1 else first + v x (y - 1) z) /\
     at_ x y z 2 = Some (if z =? 1 then -1 else first + v x y (z - 1)) /\
     at_ x y z 3 = Some (if x =? nx then -1 else first + v (x + 1) y z) /\
     at_ x y z 4 = Some (if y =? ny then -1 else first + v x (y + 1) z) /\
     at_ x y z 5 = Some (if z =? nz then -1 else first + v x y (z + 1))) /\
  (forall x y z f, 0 <= x <= nx + 1 -> 0 <= y <= ny + 1 -> 0 <= z <= nz + 1 -> 0 <= f < 6 ->
     ~ (1 <= x <= nx /\ 1 <= y <= ny /\ 1 <= z <= nz) -> at_ x y z f = Some (-1)).
Proof.
  intros rank size nvs nx ny nz H1 H2 H3 HN.
  destruct (size_grid_spec rank size nvs nx ny nz H1 H2 H3 HN) as (t & E & T). eexists. split; [exact E|]. cbv zeta. cbn [g_nbr g_range].
  set (first := nth _ _ _) in *. split.
  - intros x y z Hx Hy Hz.
    assert (M : in3 (nx, ny, nz) (x, y, z)) by (cbn; unfold in_mesh; lia).
    assert (I : interior (nx, ny, nz) (x, y, z) = true) by (cbn; lia).
    assert (A : forall f, 0 <= f < 6 -> t (6 * (x + (nx + 2) * (y + (ny + 2) * z)) + f) =
       Some (if interior (nx, ny, nz) (step f (x, y, z)) then first + vox3 (nx, ny, nz) (step f (x, y, z)) else -1)).
    { intros f Hf. specialize (T (x, y, z) f M Hf). unfold size_entry in T. rewrite I in T. exact T. }
    rewrite !A by lia. unfold step, interior, vox3, voxel.
    repeat split; f_equal;
    match goal with |- (if ?b then _ else _) = (if ?c then _ else _) => replace b with (negb c) by lia; destruct c; reflexivity end.
  - intros x y z f Hx Hy Hz Hf Hg. specialize (T (x, y, z) f ltac:(cbn; unfold in_mesh; lia) Hf). unfold size_entry in T.
    replace (interior (nx, ny, nz) (x, y, z)) with false in T by (cbn; lia). exact T.
Qed.
Print Assumptions C19_neighbours.

(* Stepping through any face into a cell and back through the opposite face returns. *)
Theorem C19_symmetric : forall rank size nvs nx ny nz g, 1 <= nx -> 1 <= ny -> 1 <= nz ->
  6 * ((nx + 2) * (ny + 2) * (nz + 2)) <= 2147483647 -> size_grid rank size nvs nx ny nz = Ok g ->
  let v x y z := x + (nx + 2) * (y + (ny + 2) * z) in
  let first := nth (Z.to_nat rank) (g_range g) 0 in
  0 <= first ->
  forall x y z f n, 1 <= x <= nx -> 1 <= y <= ny -> 1 <= z <= nz -> 0 <= f < 6 ->
  g_nbr g (6 * v x y z + f) = Some n -> n <> -1 ->
  exists x' y' z', 1 <= x' <= nx /\ 1 <= y' <= ny /\ 1 <= z' <= nz /\ n = first + v x' y' z' /\
    g_nbr g (6 * v x' y' z' + (f + 3) mod 6) = Some (first + v x y z).
Proof.
  intros rank size nvs nx ny nz g H1 H2 H3 HN E. cbv zeta. intros H0 x y z f n Hx Hy Hz Hf Hn Hr.
  destruct (C19_neighbours rank size nvs nx ny nz H1 H2 H3 HN) as (g' & E' & A & _). rewrite E in E'. injection E' as <-.
  cbv zeta in A. destruct (A x y z Hx Hy Hz) as (A0 & A1 & A2 & A3 & A4 & A5).
  assert (K : exists x' y' z', (x', y', z') = step f (x, y, z) /\ 1 <= x' <= nx /\ 1 <= y' <= ny /\ 1 <= z' <= nz /\
     n = nth (Z.to_nat rank) (g_range g) 0 + (x' + (nx + 2) * (y' + (ny + 2) * z'))).
  { six_cases f Hf; cbn [step]; do 3 eexists; (split; [reflexivity|]);
    rewrite ?A0, ?A1, ?A2, ?A3, ?A4, ?A5 in Hn; injection Hn as Hn;
    match type of Hn with (if ?b then _ else _) = _ => destruct b eqn:B end; try lia; repeat split; try lia; symmetry; exact Hn. }
  destruct K as (x' & y' & z' & S & Hx' & Hy' & Hz' & En). exists x', y', z'. repeat (split; [assumption|]).
  destruct (A x' y' z' Hx' Hy' Hz') as (B0 & B1 & B2 & B3 & B4 & B5).
  six_cases f Hf; cbn [step] in S; injection S as -> -> ->;
  match goal with |- context [?k mod 6] => let u := eval vm_compute in (k mod 6) in change (k mod 6) with u end;
  rewrite ?B0, ?B1, ?B2, ?B3, ?B4, ?B5;
  match goal with |- Some (if ?b then _ else _) = _ => replace b with false by lia end; f_equal; f_equal;
  repeat match goal with |- context [?a - 1 + 1] => replace (a - 1 + 1) with a by ring | |- context [?a + 1 - 1] => replace (a + 1 - 1) with a by ring end; reflexivity.
Qed.
Print Assumptions C19_symmetric.

(* The global numbers range[r] .. range[r+1]-1 of different ranks do not overlap, and each rank has
   as many as it reported. *)
Theorem C19_ids_disjoint : forall rank size nvs nx ny nz g, size_grid rank size nvs nx ny nz = Ok g ->
  (forall n, In n nvs -> 0 <= n) ->
  let start r := nth r (g_range g) 0 in
  (forall r, (r < length nvs)%nat -> start (S r) - start r = nth r nvs 0) /\
  (forall r s, (r < s < length nvs)%nat -> start (S r) <= start s) /\
  (nvs <> [] -> start 0%nat = 0).
Proof.
  intros rank size nvs nx ny nz g E HN. cbv zeta.
  assert (R : g_range g = offsets 0 (nvs ++ [0])).
  { unfold size_grid in E. destruct ((nx <? 1) || (ny <? 1) || (nz <? 1)); [discriminate|]. cbv zeta in E.
    destruct (2147483647 <? 6 * nv_of nx ny nz); [discriminate|].
    destruct (stores _ _ _); try discriminate. injection E as <-. reflexivity. }
  rewrite R. split; [|split].
  - intros r Hr. rewrite offsets_nth by (rewrite app_length; cbn; lia). rewrite app_nth1 by exact Hr. lia.
  - intros r s Hr. apply offsets_mono; [|lia|rewrite app_length; cbn; lia].
    intros n Hin. apply in_app_or in Hin. destruct Hin as [Hin|[<-|[]]]; [apply HN, Hin|lia].
  - destruct nvs; [contradiction|reflexivity].
Qed.
Print Assumptions C19_ids_disjoint.

(* Bad sizes are reported. *)
Theorem C19_bad_size : forall rank size nvs nx ny nz, nx < 1 \/ ny < 1 \/ nz < 1 -> size_grid rank size nvs nx ny nz = Err.
Proof. intros. unfold size_grid. replace ((nx <? 1) || (ny <? 1) || (nz <? 1)) with true by lia. reflexivity. Qed.
Print Assumptions C19_bad_size.

(* 3x2x1 mesh on rank 1 of 2; cell (2,1,1) *)
Example C19_example : match size_grid 1 2 [50; 60] 3 2 1 with
  | Ok g => g_range g = [0; 50; 110] /\
            map (fun f => g_nbr g (6 * (2 + 5 * (1 + 4 * 1)) + f)) [0; 1; 2; 3; 4; 5] =
            [Some (50 + 26); Some (-1); Some (-1); Some (50 + 28); Some (50 + 32); Some (-1)]
  | _ => False end.
Proof. vm_compute. split; reflexivity. Qed.

(* ---- C20 ---- *)

(* cell (x,y,z) touches face f of a mesh with n cells *)
Definition touches (n c : Z * Z * Z) (f : Z) : Prop :=
  let '(nx, ny, nz) := n in let '(x, y, z) := c in
  1 <= x <= nx /\ 1 <= y <= ny /\ 1 <= z <= nz /\
  match f with 0 => x = 1 | 1 => y = 1 | 2 => z = 1 | 3 => x = nx | 4 => y = ny | _ => z = nz end.
(* two meshes whose faces f (and opposite) have the same size *)
Definition matching (n n' : Z * Z * Z) (f : Z) : Prop :=
  let '(nx, ny, nz) := n in let '(nx', ny', nz') := n' in
  match f with 0 | 3 => ny = ny' /\ nz = nz' | 1 | 4 => nx = nx' /\ nz = nz' | _ => nx = nx' /\ ny = ny' end.
Definition voxel_no (n c : Z * Z * Z) : Z :=
  let '(nx, ny, nz) := n in let '(x, y, z) := c in x + (nx + 2) * (y + (ny + 2) * z).

Lemma on_face_touches n f c : pos3 n -> 0 <= f < 6 -> (on_face n f c = true <-> touches n c f).
Proof.
  destruct n as [[nx ny] nz], c as [[x y] z]. intros (H1 & H2 & H3) Hf. six_cases f Hf; cbn; lia.
Qed.
Lemma remote_dims_matching n n' f : pos3 n -> pos3 n' -> 0 <= f < 6 -> matching n n' f ->
  (let '(_, lY, lZ) := cyc (f mod 3) n in Z.rem (nv3 n') ((lY + 2) * (lZ + 2)) = 0) /\ remote_dims n f (nv3 n') = n'.
Proof.
  intros Hn Hn' Hf HM. pose proof (remote_dims_same n' f Hn' Hf) as (A & B). unfold remote_dims in *.
  assert (E : forall lX lY lZ rX rY rZ, cyc (f mod 3) n = (lX, lY, lZ) -> cyc (f mod 3) n' = (rX, rY, rZ) -> lY = rY /\ lZ = rZ).
  { destruct n as [[nx ny] nz], n' as [[nx' ny'] nz']. intros lX lY lZ rX rY rZ E1 E2.
    six_cases f Hf; cbn in E1, E2, HM; injection E1 as <- <- <-; injection E2 as <- <- <-; lia. }
  destruct (cyc (f mod 3) n) as [[lX lY] lZ] eqn:C1, (cyc (f mod 3) n') as [[rX rY] rZ] eqn:C2.
  destruct (E _ _ _ _ _ _ eq_refl eq_refl) as (-> & ->). split; assumption.
Qed.

(* Ranks ra, rb with meshes na, nb hold the same range table, which gives each its own number of
   voxels.  Joining face f of ra's grid to rb and the opposite face of rb's grid to ra succeeds, and
   from every cell on that face one comes, across it, to a cell on the opposite face of the other
   mesh and from there back to the same cell. *)
Theorem C20_there_and_back : forall ga gb f ra rb,
  let na := (g_nx ga, g_ny ga, g_nz ga) in let nb := (g_nx gb, g_ny gb, g_nz gb) in
  let range r := nth (Z.to_nat r) (g_range ga) 0 in
  1 <= g_nx ga -> 1 <= g_ny ga -> 1 <= g_nz ga -> 1 <= g_nx gb -> 1 <= g_ny gb -> 1 <= g_nz gb ->
  g_range gb = g_range ga -> 0 <= f < 6 -> 0 <= ra < g_size gb -> 0 <= rb < g_size ga ->
  range (ra + 1) - range ra = (g_nx ga + 2) * (g_ny ga + 2) * (g_nz ga + 2) ->
  range (rb + 1) - range rb = (g_nx gb + 2) * (g_ny gb + 2) * (g_nz gb + 2) ->
  matching na nb f ->
  exists ga' gb', join_grid ga (face_code f) rb = Ok ga' /\ join_grid gb (face_code ((f + 3) mod 6)) ra = Ok gb' /\
  forall c, touches na c f -> exists c', touches nb c' ((f + 3) mod 6) /\
    g_nbr ga' (6 * voxel_no na c + f) = Some (range rb + voxel_no nb c') /\
    g_nbr gb' (6 * voxel_no nb c' + (f + 3) mod 6) = Some (range ra + voxel_no na c).
Proof.
  intros ga gb f ra rb na nb range A1 A2 A3 B1 B2 B3 ER Hf Hra Hrb Na Nb HM.
  assert (Pa : pos3 na) by (cbn; lia). assert (Pb : pos3 nb) by (cbn; lia).
  set (f' := (f + 3) mod 6). assert (Hf' : 0 <= f' < 6) by (subst f'; apply Z.mod_pos_bound; lia).
  assert (HM' : matching nb na f') by (subst na nb f'; six_cases f Hf; cbn in *; lia).
  assert (EB : forall r, rangez gb r = range r) by (intros r; unfold rangez, range; rewrite ER; reflexivity).
  pose proof (join_spec ga f rb Pa Hf Hrb) as J. cbv zeta in J. change (dims ga) with na in J.
  change (rangez ga) with range in J. rewrite Nb in J.
  change ((g_nx gb + 2) * (g_ny gb + 2) * (g_nz gb + 2)) with (nv3 nb) in J.
  destruct (remote_dims_matching na nb f Pa Pb Hf HM) as (D1 & D2). rewrite D2 in J.
  pose proof (join_spec gb f' ra Pb Hf' Hra) as J'. cbv zeta in J'. change (dims gb) with nb in J'.
  rewrite !EB in J'. rewrite Na in J'. change ((g_nx ga + 2) * (g_ny ga + 2) * (g_nz ga + 2)) with (nv3 na) in J'.
  destruct (remote_dims_matching nb na f' Pb Pa Hf' HM') as (D1' & D2'). rewrite D2' in J'.
  destruct (cyc (f mod 3) na) as [[? lY] lZ]. destruct (cyc (f' mod 3) nb) as [[? lY'] lZ'].
  destruct J as (_ & J). destruct (J D1) as (ga' & E1 & _ & _ & N1 & _).
  destruct J' as (_ & J'). destruct (J' D1') as (gb' & E2 & _ & _ & N2 & _).
  exists ga', gb'. split; [exact E1|]. split; [exact E2|]. intros c Hc. apply (on_face_touches na f c Pa Hf) in Hc.
  assert (Hc' : touches nb (across na nb f c) f' /\ across nb na f' (across na nb f c) = c).
  { pose proof (proj1 (on_face_touches na f c Pa Hf) Hc) as T. subst na nb f'. clear - T Hf HM A1 A2 A3 B1 B2 B3. destruct c as [[x y] z].
    six_cases f Hf; cbn in T, HM |- *; (split; [lia|]); do 2 (f_equal; try lia). }
  destruct Hc' as (T & Back). exists (across na nb f c). split; [exact T|].
  change (voxel_no na) with (vox3 na). change (voxel_no nb) with (vox3 nb). split.
  - rewrite N1 by (try assumption; apply interior_in, (on_face_interior _ _ _ Pa Hc)). rewrite Hc, Z.eqb_refl. reflexivity.
  - apply (on_face_touches nb f' _ Pb Hf') in T.
    rewrite N2 by (try assumption; apply interior_in, (on_face_interior _ _ _ Pb T)). rewrite T, Z.eqb_refl, Back. reflexivity.
Qed.
Print Assumptions C20_there_and_back.

(* Only the entries of that face change, and only that boundary code. *)
Theorem C20_nothing_else : forall g f r g', 1 <= g_nx g -> 1 <= g_ny g -> 1 <= g_nz g -> 0 <= f < 6 -> 0 <= r < g_size g ->
  join_grid g (face_code f) r = Ok g' ->
  (forall k, g_nbr g' k <> g_nbr g k -> exists c, touches (g_nx g, g_ny g, g_nz g) c f /\ k = 6 * voxel_no (g_nx g, g_ny g, g_nz g) c + f) /\
  (forall b, g_bc g' b = if b =? face_code f then r else g_bc g b) /\
  g_nx g' = g_nx g /\ g_ny g' = g_ny g /\ g_nz g' = g_nz g /\ g_range g' = g_range g /\ g_rank g' = g_rank g.
Proof.
  intros g f r g' H1 H2 H3 Hf Hr E. assert (P : pos3 (dims g)) by (cbn; lia).
  pose proof (join_spec g f r P Hf Hr) as J. cbv zeta in J. destruct (cyc (f mod 3) (dims g)) as [[? lY] lZ].
  destruct J as (J1 & J2).
  destruct (Z.eq_dec (Z.rem (rangez g (r + 1) - rangez g r) ((lY + 2) * (lZ + 2))) 0) as [D|D]; [|rewrite (J1 D) in E; discriminate].
  destruct (J2 D) as (g2 & E2 & (S1 & S2 & S3 & S4) & B & _ & N). rewrite E in E2. injection E2 as <-.
  unfold dims in S3. injection S3 as S5 S6 S7. split; [|tauto].
  intros k Hk. destruct (N k Hk) as (c & Hc & ->). exists c. split; [apply on_face_touches; assumption|reflexivity].
Qed.
Print Assumptions C20_nothing_else.

(* The mismatch the code reports: the remote voxel count is not a multiple of the local face. *)
Theorem C20_mismatch_error : forall g f r, 1 <= g_nx g -> 1 <= g_ny g -> 1 <= g_nz g -> 0 <= f < 6 -> 0 <= r < g_size g ->
  let face := match f with 0 | 3 => (g_ny g + 2) * (g_nz g + 2) | 1 | 4 => (g_nx g + 2) * (g_nz g + 2) | _ => (g_nx g + 2) * (g_ny g + 2) end in
  let count := nth (Z.to_nat (r + 1)) (g_range g) 0 - nth (Z.to_nat r) (g_range g) 0 in
  (join_grid g (face_code f) r = Err <-> Z.rem count face <> 0).
Proof.
  intros g f r H1 H2 H3 Hf Hr. cbv zeta. assert (P : pos3 (dims g)) by (cbn; lia).
  pose proof (join_spec g f r P Hf Hr) as J. cbv zeta in J. unfold rangez in J.
  set (count := nth _ _ _ - nth _ _ _) in *. clearbody count.
  six_cases f Hf; cbn [cyc dims] in J; unfold dims in J;
  match type of J with context [?k mod 3] => let u := eval vm_compute in (k mod 3) in change (k mod 3) with u in J end; cbn [cyc] in J;
  destruct J as (J1 & J2); rewrite ?(Z.mul_comm (g_nx g + 2) (g_nz g + 2));
  (split; [intros E D; destruct (J2 D) as (g' & E' & _); rewrite E in E'; discriminate|exact J1]).
Qed.
Print Assumptions C20_mismatch_error.

(* ... which does not catch every mismatch: a 1x1x4 grid is joined through its x face to a rank whose
   mesh is 1x4x1. *)
Theorem C20_mismatch_undetected_refuted : exists g gb,
  size_grid 0 2 [54; 54] 1 1 4 = Ok g /\ size_grid 1 2 [54; 54] 1 4 1 = Ok gb /\
  ~ matching (1, 1, 4) (1, 4, 1) 0 /\ exists g', join_grid g (face_code 0) 1 = Ok g'.
Proof.
  destruct (size_grid_spec 0 2 [54; 54] 1 1 4 ltac:(lia) ltac:(lia) ltac:(lia) ltac:(vm_compute; discriminate)) as (t & E & _).
  destruct (size_grid_spec 1 2 [54; 54] 1 4 1 ltac:(lia) ltac:(lia) ltac:(lia) ltac:(vm_compute; discriminate)) as (t' & E' & _).
  eexists. eexists. split; [exact E|]. split; [exact E'|]. split; [cbn; lia|].
  match goal with |- exists g', join_grid ?g _ _ = _ =>
    destruct (join_grid g (face_code 0) 1) as [g'| |] eqn:J; [exists g'; reflexivity| |] end; exfalso.
  - apply (C20_mismatch_error _ 0 1) in J; cbn; try lia. apply J. reflexivity.
  - match type of J with join_grid ?g _ _ = _ => pose proof (join_spec g 0 1 ltac:(cbn; lia) ltac:(lia) ltac:(cbn; lia)) as S' end.
    cbv zeta in S'. destruct S' as (_ & S'). destruct (S' eq_refl) as (? & S2 & _). congruence.
Qed.
Print Assumptions C20_mismatch_undetected_refuted.

Example C20_example :
  match size_grid 0 2 [60; 72] 3 2 1, size_grid 1 2 [60; 72] 4 2 1 with
  | Ok ga, Ok gb => match join_grid ga (face_code 3) 1, join_grid gb (face_code 0) 0 with
    | Ok ga, Ok gb => g_nbr ga (6 * (3 + 5 * (2 + 4 * 1)) + 3) = Some (60 + (1 + 6 * (2 + 4 * 1))) /\
                      g_nbr gb (6 * (1 + 6 * (2 + 4 * 1)) + 0) = Some (3 + 5 * (2 + 4 * 1))
    | _, _ => False end
  | _, _ => False end.
Proof. vm_compute. split; reflexivity. Qed.

(* ---- C21 ---- *)

(* RANK_TO_INDEX and INDEX_TO_RANK are inverse bijections between ranks and domain coordinates. *)
Theorem C21_ranks : forall gpx gpy gpz, 1 <= gpx -> 1 <= gpy -> 1 <= gpz ->
  (forall r, 0 <= r < gpx * gpy * gpz ->
     let '(px, py, pz) := rank_to_index gpx gpy r in
     0 <= px < gpx /\ 0 <= py < gpy /\ 0 <= pz < gpz /\ index_to_rank gpx gpy gpz (px, py, pz) = r) /\
  (forall px py pz, 0 <= px < gpx -> 0 <= py < gpy -> 0 <= pz < gpz ->
     0 <= index_to_rank gpx gpy gpz (px, py, pz) < gpx * gpy * gpz /\
     rank_to_index gpx gpy (index_to_rank gpx gpy gpz (px, py, pz)) = (px, py, pz)) /\
  (forall ix iy iz, index_to_rank gpx gpy gpz (ix, iy, iz) = ix mod gpx + gpx * (iy mod gpy + gpy * (iz mod gpz))).
Proof.
  intros gpx gpy gpz H1 H2 H3.
  assert (M : forall p, below (gpx, gpy, gpz) p -> index_to_rank gpx gpy gpz p = rank3 (gpx, gpy, gpz) p).
  { intros [[x y] z] (A & B & C). destruct (index_to_rank_spec gpx gpy gpz (x, y, z) H1 H2 H3) as (-> & _). cbn [mod3].
    rewrite !Z.mod_small by lia. reflexivity. }
  split; [|split].
  - intros r Hr. destruct (rank_to_index_onto gpx gpy gpz r H1 H2 H3 Hr) as (A & B).
    destruct (rank_to_index gpx gpy r) as [[px py] pz]. pose proof (M _ A) as E. destruct A as (A1 & A2 & A3).
    repeat (split; [assumption|]). congruence.
  - intros px py pz Hx Hy Hz. assert (Bl : below (gpx, gpy, gpz) (px, py, pz)) by (cbn; lia).
    rewrite (M _ Bl). split; [apply (rank3_range (gpx, gpy, gpz)), Bl|apply rank_to_index_spec, Bl].
  - intros ix iy iz. destruct (index_to_rank_spec gpx gpy gpz (ix, iy, iz) H1 H2 H3) as (-> & _). reflexivity.
Qed.
Print Assumptions C21_ranks.

(* The domains tile the global mesh: along each axis every global cell number is lx*px+(x-1) for
   exactly one domain coordinate px and local cell x. *)
Theorem C21_tiling : forall lx gpx X, 1 <= lx -> 0 <= X < lx * gpx ->
  exists! px_x : Z * Z, let '(px, x) := px_x in 0 <= px < gpx /\ 1 <= x <= lx /\ X = lx * px + (x - 1).
Proof.
  intros lx gpx X Hl HX. exists (X / lx, X mod lx + 1). pose proof (Z.div_mod X lx ltac:(lia)). pose proof (Z.mod_pos_bound X lx ltac:(lia)).
  split.
  - assert (X / lx < gpx) by (apply Z.div_lt_upper_bound; lia). assert (0 <= X / lx) by (apply Z.div_pos; lia). lia.
  - intros [px x] (A & B & C). assert (px = X / lx) by (apply (Z.div_unique _ _ _ (x - 1)); [left; lia|lia]). subst px. f_equal. lia.
Qed.
Print Assumptions C21_tiling.

(* Global number of the global cell (X,Y,Z) (0-based) of a box of gpx*gpy*gpz domains of lx*ly*lz
   cells: its domain's rank times the voxels per domain plus its local voxel number. *)
Definition cell_id (gp n G : Z * Z * Z) : Z :=
  let '(gpx, gpy, gpz) := gp in let '(lx, ly, lz) := n in let '(X, Y, W) := G in
  (X / lx + gpx * (Y / ly + gpy * (W / lz))) * ((lx + 2) * (ly + 2) * (lz + 2)) +
  ((X mod lx + 1) + (lx + 2) * ((Y mod ly + 1) + (ly + 2) * (W mod lz + 1))).
Definition owner (gp n G : Z * Z * Z) : Z :=
  let '(gpx, gpy, gpz) := gp in let '(lx, ly, lz) := n in let '(X, Y, W) := G in X / lx + gpx * (Y / ly + gpy * (W / lz)).
Definition local_voxel (n G : Z * Z * Z) : Z :=
  let '(lx, ly, lz) := n in let '(X, Y, W) := G in (X mod lx + 1) + (lx + 2) * ((Y mod ly + 1) + (ly + 2) * (W mod lz + 1)).
(* one step through face f on the torus of gnx*gny*gnz cells *)
Definition torus_step (gn : Z * Z * Z) (f : Z) (G : Z * Z * Z) : Z * Z * Z :=
  let '(gnx, gny, gnz) := gn in let '(X, Y, W) := G in match f with
  | 0 => ((X - 1) mod gnx, Y, W) | 1 => (X, (Y - 1) mod gny, W) | 2 => (X, Y, (W - 1) mod gnz)
  | 3 => ((X + 1) mod gnx, Y, W) | 4 => (X, (Y + 1) mod gny, W) | _ => (X, Y, (W + 1) mod gnz) end.

Lemma torus_step_eq gn f G : below gn G -> 0 <= f < 6 -> mod3 gn (step f G) = torus_step gn f G.
Proof.
  destruct gn as [[gx gy] gz], G as [[X Y] W]. intros (A & B & C) Hf.
  six_cases f Hf; cbn [step mod3 torus_step]; rewrite ?(Z.mod_small X), ?(Z.mod_small Y), ?(Z.mod_small W) by lia; reflexivity.
Qed.

(* Periodic box: every rank's partition succeeds, and the entry of a global cell for a face, found
   in the table of the cell's owner, is the number of the next global cell around the torus. *)
Theorem C21_periodic_walk : forall gpx gpy gpz lx ly lz X Y W f,
  1 <= gpx -> 1 <= gpy -> 1 <= gpz -> 1 <= lx -> 1 <= ly -> 1 <= lz ->
  let gp := (gpx, gpy, gpz) in let n := (lx, ly, lz) in let gn := (lx * gpx, ly * gpy, lz * gpz) in
  6 * ((lx + 2) * (ly + 2) * (lz + 2)) <= 2147483647 ->
  0 <= X < lx * gpx -> 0 <= Y < ly * gpy -> 0 <= W < lz * gpz -> 0 <= f < 6 ->
  exists g, partition_periodic (owner gp n (X, Y, W)) (gpx * gpy * gpz)
      (repeat ((lx + 2) * (ly + 2) * (lz + 2)) (Z.to_nat (gpx * gpy * gpz))) (lx * gpx) (ly * gpy) (lz * gpz) gpx gpy gpz = Ok g /\
    g_nbr g (6 * local_voxel n (X, Y, W) + f) = Some (cell_id gp n (torus_step gn f (X, Y, W))).
Proof.
  intros gpx gpy gpz lx ly lz X Y W f P1 P2 P3 L1 L2 L3 gp n gn HN HX HY HW Hf.
  assert (Bl : below (mul3 n gp) (X, Y, W)) by (cbn; lia). assert (Pn : pos3 n) by (cbn; lia). assert (Pg : pos3 gp) by (cbn; lia).
  destruct (partition_periodic_spec (lx * gpx) (ly * gpy) (lz * gpz) gpx gpy gpz lx ly lz (dom3 n (X, Y, W)) P1 P2 P3 L1 L2 L3
    eq_refl eq_refl eq_refl HN (dom3_below n gp _ Pn Bl)) as (g & E & _ & _ & _ & _ & _ & T & _).
  exists g. split; [exact E|].
  change (local_voxel n (X, Y, W)) with (vox3 n (loc3 n (X, Y, W))). fold gp n in T. rewrite T by (assumption || apply loc3_interior, Pn).
  rewrite torus_global by assumption. change gn with (mul3 n gp). rewrite torus_step_eq by assumption.
  destruct (torus_step (mul3 n gp) f (X, Y, W)) as [[X' Y'] W']. reflexivity.
Qed.
Print Assumptions C21_periodic_walk.

(* Is face f of global cell (X,Y,Z) on the outside of a box that is more than one cell wide? *)
Definition outer (gn : Z * Z * Z) (f : Z) (G : Z * Z * Z) : bool :=
  let '(gnx, gny, gnz) := gn in let '(X, Y, W) := G in match f with
  | 0 => (X =? 0) && (1 <? gnx) | 1 => (Y =? 0) && (1 <? gny) | 2 => (W =? 0) && (1 <? gnz)
  | 3 => (X =? gnx - 1) && (1 <? gnx) | 4 => (Y =? gny - 1) && (1 <? gny) | _ => (W =? gnz - 1) && (1 <? gnz) end.

Lemma low1 l g X : 1 <= l -> 0 <= X < l * g -> ((X / l =? 0) && (X mod l + 1 =? 1)) = (X =? 0).
Proof. intros Hl HX. pose proof (Z.div_mod X l ltac:(lia)). pose proof (Z.mod_pos_bound X l ltac:(lia)).
  destruct (Z.eqb_spec (X / l) 0) as [E|E]; cbn [andb]; [rewrite E in *; lia|]. destruct (Z.eqb_spec X 0) as [->|]; [|reflexivity].
  rewrite Z.div_0_l in E by lia. lia.
Qed.
Lemma high1 l g X : 1 <= l -> 0 <= X < l * g -> ((X / l =? g - 1) && (X mod l + 1 =? l)) = (X =? l * g - 1).
Proof. intros Hl HX. pose proof (Z.div_mod X l ltac:(lia)). pose proof (Z.mod_pos_bound X l ltac:(lia)).
  destruct (Z.eqb_spec X (l * g - 1)) as [E|E].
  - assert (g - 1 = X / l) by (apply (Z.div_unique _ _ _ (l - 1)); [left; lia|rewrite E; ring]). rewrite <- H1 in *. lia.
  - destruct (Z.eqb_spec (X / l) (g - 1)) as [F|F]; [|reflexivity]. rewrite F in *. cbn [andb]. lia.
Qed.
Lemma outer_eq gp n G f : pos3 n -> pos3 gp -> below (mul3 n gp) G -> 0 <= f < 6 ->
  at_wall gp (mul3 n gp) (dom3 n G) f && on_face n f (loc3 n G) = outer (mul3 n gp) f G.
Proof.
  intros Hn Hg HB Hf. pose proof (loc3_interior n G Hn) as HI.
  destruct n as [[lx ly] lz], gp as [[gpx gpy] gpz], G as [[X Y] W].
  cbn [pos3 mul3 below] in *. destruct Hn as (H1 & H2 & H3), Hg as (G1 & G2 & G3), HB as (B1 & B2 & B3).
  cbn [interior loc3] in HI. repeat rewrite andb_true_iff in HI. destruct HI as (((((I1 & I2) & I3) & I4) & I5) & I6).
  pose proof (low1 lx gpx X H1 B1) as E0. pose proof (low1 ly gpy Y H2 B2) as E1. pose proof (low1 lz gpz W H3 B3) as E2.
  pose proof (high1 lx gpx X H1 B1) as E3. pose proof (high1 ly gpy Y H2 B2) as E4. pose proof (high1 lz gpz W H3 B3) as E5.
  unfold at_wall, on_face. cbn [dom3 loc3].
  assert (T : forall a b c d, a && b = d -> a && c && (b && true && true && true && true) = d && c) by (intros [] [] [] []; cbn; congruence).
  six_cases f Hf; repeat match goal with |- context [?k mod 3] => let v := eval vm_compute in (k mod 3) in change (k mod 3) with v end;
  cbn [cyc]; repeat match goal with |- context [?k <? 3] => let v := eval vm_compute in (k <? 3) in change (k <? 3) with v end; cbv iota; cbn [outer];
  rewrite ?I1, ?I2, ?I3, ?I4, ?I5, ?I6; apply T; assumption.
Qed.

(* Metal and absorbing boxes: the same, except that the outer faces (of axes with more than one
   cell) carry the particle boundary code: reflect for metal, the given code for absorbing. *)
Theorem C21_open_walk : forall gpx gpy gpz lx ly lz X Y W f pbc,
  1 <= gpx -> 1 <= gpy -> 1 <= gpz -> 1 <= lx -> 1 <= ly -> 1 <= lz -> pbc < 0 ->
  let gp := (gpx, gpy, gpz) in let n := (lx, ly, lz) in let gn := (lx * gpx, ly * gpy, lz * gpz) in
  6 * ((lx + 2) * (ly + 2) * (lz + 2)) <= 2147483647 ->
  0 <= X < lx * gpx -> 0 <= Y < ly * gpy -> 0 <= W < lz * gpz -> 0 <= f < 6 ->
  let nvs := repeat ((lx + 2) * (ly + 2) * (lz + 2)) (Z.to_nat (gpx * gpy * gpz)) in
  let r := owner gp n (X, Y, W) in
  (exists g, partition_metal r (gpx * gpy * gpz) nvs (lx * gpx) (ly * gpy) (lz * gpz) gpx gpy gpz = Ok g /\
    g_nbr g (6 * local_voxel n (X, Y, W) + f) = Some (if outer gn f (X, Y, W) then -1 else cell_id gp n (torus_step gn f (X, Y, W)))) /\
  (exists g, partition_absorbing r (gpx * gpy * gpz) nvs (lx * gpx) (ly * gpy) (lz * gpz) gpx gpy gpz pbc = Ok g /\
    g_nbr g (6 * local_voxel n (X, Y, W) + f) = Some (if outer gn f (X, Y, W) then pbc else cell_id gp n (torus_step gn f (X, Y, W)))).
Proof.
  intros gpx gpy gpz lx ly lz X Y W f pbc P1 P2 P3 L1 L2 L3 Hpb gp n gn HN HX HY HW Hf nvs r.
  assert (Bl : below (mul3 n gp) (X, Y, W)) by (cbn; lia). assert (Pn : pos3 n) by (cbn; lia). assert (Pg : pos3 gp) by (cbn; lia).
  assert (A : forall fbc pbc, -4 <= fbc <= -1 -> pbc < 0 -> exists g, partition_walls fbc pbc r (gpx * gpy * gpz) nvs (lx * gpx) (ly * gpy) (lz * gpz) gpx gpy gpz = Ok g /\
    g_nbr g (6 * local_voxel n (X, Y, W) + f) = Some (if outer gn f (X, Y, W) then pbc else cell_id gp n (torus_step gn f (X, Y, W)))).
  { intros fb pb Hfb Hpb'.
    destruct (partition_walls_spec fb pb (lx * gpx) (ly * gpy) (lz * gpz) gpx gpy gpz lx ly lz (dom3 n (X, Y, W)) Hfb Hpb' P1 P2 P3 L1 L2 L3
      eq_refl eq_refl eq_refl HN (dom3_below n gp _ Pn Bl)) as (g & E & _ & _ & _ & _ & _ & T & _).
    exists g. split; [exact E|].
    change (local_voxel n (X, Y, W)) with (vox3 n (loc3 n (X, Y, W))). fold gp n in T. rewrite T by (assumption || apply loc3_interior, Pn).
    change (lx * gpx, ly * gpy, lz * gpz) with (mul3 n gp). rewrite outer_eq, torus_global by assumption.
    change gn with (mul3 n gp). rewrite torus_step_eq by assumption.
    destruct (torus_step (mul3 n gp) f (X, Y, W)) as [[X' Y'] W']. reflexivity. }
  split; apply A; unfold pec_code, reflect_code, absorb_field_code; lia.
Qed.
Print Assumptions C21_open_walk.

(* The faces of the ranks: the rank at (x, y, z) of the gpx x gpy x gpz ranks is joined to the next rank around the torus, except that in metal and absorbing boxes the
   outermost faces of axes with more than one cell carry the code of the field boundary condition: -1 (conductor), -4 (absorbing), grid.h:22-26. *)
Definition outermost (gp gn p : Z * Z * Z) (f : Z) : bool :=
  let '(gx, gy, gz) := gp in let '(nx, ny, nz) := gn in let '(x, y, z) := p in
  match f with
  | 0 => (x =? 0) && (1 <? nx) | 1 => (y =? 0) && (1 <? ny) | 2 => (z =? 0) && (1 <? nz)
  | 3 => (x =? gx - 1) && (1 <? nx) | 4 => (y =? gy - 1) && (1 <? ny) | _ => (z =? gz - 1) && (1 <? nz) end.
Theorem C21_faces : forall gpx gpy gpz lx ly lz x y z f pbc,
  1 <= gpx -> 1 <= gpy -> 1 <= gpz -> 1 <= lx -> 1 <= ly -> 1 <= lz -> pbc < 0 ->
  let gp := (gpx, gpy, gpz) in let gn := (lx * gpx, ly * gpy, lz * gpz) in
  6 * ((lx + 2) * (ly + 2) * (lz + 2)) <= 2147483647 ->
  0 <= x < gpx -> 0 <= y < gpy -> 0 <= z < gpz -> 0 <= f < 6 ->
  let nvs := repeat ((lx + 2) * (ly + 2) * (lz + 2)) (Z.to_nat (gpx * gpy * gpz)) in
  let rank_at x y z := x mod gpx + gpx * (y mod gpy + gpy * (z mod gpz)) in
  let r := rank_at x y z in
  let next := match f with 0 => rank_at (x - 1) y z | 1 => rank_at x (y - 1) z | 2 => rank_at x y (z - 1)
                         | 3 => rank_at (x + 1) y z | 4 => rank_at x (y + 1) z | _ => rank_at x y (z + 1) end in
  (exists g, partition_periodic r (gpx * gpy * gpz) nvs (lx * gpx) (ly * gpy) (lz * gpz) gpx gpy gpz = Ok g /\ g_bc g (face_code f) = next) /\
  (exists g, partition_metal r (gpx * gpy * gpz) nvs (lx * gpx) (ly * gpy) (lz * gpz) gpx gpy gpz = Ok g /\
    g_bc g (face_code f) = if outermost gp gn (x, y, z) f then -1 else next) /\
  (exists g, partition_absorbing r (gpx * gpy * gpz) nvs (lx * gpx) (ly * gpy) (lz * gpz) gpx gpy gpz pbc = Ok g /\
    g_bc g (face_code f) = if outermost gp gn (x, y, z) f then -4 else next).
Proof.
  intros gpx gpy gpz lx ly lz x y z f pbc P1 P2 P3 L1 L2 L3 Hpb gp gn HN Hx Hy Hz Hf nvs rank_at r next.
  assert (Bp : below gp (x, y, z)) by (cbn; lia).
  assert (Er : r = rank3 gp (x, y, z)) by (unfold r, rank_at; rewrite !Z.mod_small by lia; reflexivity).
  assert (En : next = rank3 gp (mod3 gp (step f (x, y, z)))) by (unfold next, rank_at; six_cases f Hf; reflexivity).
  assert (W : at_wall gp gn (x, y, z) f = outermost gp gn (x, y, z) f) by (unfold at_wall, gp, gn; six_cases f Hf; reflexivity).
  rewrite Er, En, <- W. split; [|split].
  - destruct (partition_periodic_spec (lx * gpx) (ly * gpy) (lz * gpz) gpx gpy gpz lx ly lz (x, y, z) P1 P2 P3 L1 L2 L3 eq_refl eq_refl eq_refl HN Bp) as (g & E & T).
    exists g. split; [exact E|]. apply T, Hf.
  - destruct (partition_walls_spec (-1) (-1) (lx * gpx) (ly * gpy) (lz * gpz) gpx gpy gpz lx ly lz (x, y, z) ltac:(lia) ltac:(lia) P1 P2 P3 L1 L2 L3 eq_refl eq_refl eq_refl HN Bp) as (g & E & T).
    exists g. split; [exact E|]. apply T, Hf.
  - destruct (partition_walls_spec (-4) pbc (lx * gpx) (ly * gpy) (lz * gpz) gpx gpy gpz lx ly lz (x, y, z) ltac:(lia) Hpb P1 P2 P3 L1 L2 L3 eq_refl eq_refl eq_refl HN Bp) as (g & E & T).
    exists g. split; [exact E|]. apply T, Hf.
Qed.
Print Assumptions C21_faces.

(* What the exchange of C18 needs from the topology holds in these boxes: partners agree about their
   shared faces, every table can be used by the particle mover (up to 2^28 voxels per rank), and
   behind a shared face lie voxels of the partner. *)
Theorem C21_topology_agrees : forall gpx gpy gpz lx ly lz fbc pbc nb (G : Z -> grid),
  1 <= gpx -> 1 <= gpy -> 1 <= gpz -> 1 <= lx -> 1 <= ly -> 1 <= lz ->
  let nv := (lx + 2) * (ly + 2) * (lz + 2) in let size := gpx * gpy * gpz in
  8 * nv <= 2147483648 -> -4 <= fbc <= -1 -> pbc < 0 ->
  (forall r, 0 <= r < size -> partition_periodic r size (repeat nv (Z.to_nat size)) (lx * gpx) (ly * gpy) (lz * gpz) gpx gpy gpz = Ok (G r)) \/
  (forall r, 0 <= r < size -> partition_walls fbc pbc r size (repeat nv (Z.to_nat size)) (lx * gpx) (ly * gpy) (lz * gpz) gpx gpy gpz = Ok (G r)) ->
  reciprocal size (fun r => bgrid_of nb (G r)) /\
  (forall r, 0 <= r < size ->
     let b := bgrid_of nb (G r) in
     table_ok (b_mesh b) (fun v => exists x y z, 1 <= x <= lx /\ 1 <= y <= ly /\ 1 <= z <= lz /\ v = x + (lx + 2) * (y + (ly + 2) * z)) /\
     (forall v f nn, 0 <= f < 6 -> shared b f = true -> nbr_at (b_mesh b) v f = Some nn -> 0 <= nn ->
        ~ (mrangel (b_mesh b) <= nn <= mrangeh (b_mesh b)) ->
        let s := nthz (b_bc b) f in nthz (b_range b) s <= nn < nthz (b_range b) (s + 1))).
Proof.
  intros gpx gpy gpz lx ly lz fbc pbc nb G P1 P2 P3 L1 L2 L3 nv size HN Hf Hp HG.
  set (gp := (gpx, gpy, gpz)). set (n := (lx, ly, lz)).
  assert (Pn : pos3 n) by (cbn; lia). assert (Pg : pos3 gp) by (cbn; lia).
  assert (HN6 : 6 * nv_of lx ly lz <= 2147483647) by (change (nv_of lx ly lz) with nv; lia).
  assert (exists gn, forall p, below gp p -> open_grid gp gn n fbc pbc p (G (rank3 gp p))) as (gn & HO).
  { destruct HG as [HG|HG].
    - exists (1, 1, 1). intros p Bp. apply torus_open.
      destruct (partition_periodic_spec (lx * gpx) (ly * gpy) (lz * gpz) gpx gpy gpz lx ly lz p P1 P2 P3 L1 L2 L3 eq_refl eq_refl eq_refl HN6 Bp) as (g & E & T).
      fold gp in E. change (nv_of lx ly lz) with nv in E. change (gpx * gpy * gpz) with size in E.
      rewrite (HG _ (rank3_range gp p Bp)) in E. injection E as <-. exact T.
    - exists (lx * gpx, ly * gpy, lz * gpz). intros p Bp.
      destruct (partition_walls_spec fbc pbc (lx * gpx) (ly * gpy) (lz * gpz) gpx gpy gpz lx ly lz p Hf Hp P1 P2 P3 L1 L2 L3 eq_refl eq_refl eq_refl HN6 Bp) as (g & E & T).
      fold gp in E. change (nv_of lx ly lz) with nv in E. change (gpx * gpy * gpz) with size in E.
      rewrite (HG _ (rank3_range gp p Bp)) in E. injection E as <-. exact T. }
  assert (Hfb : fbc < 0) by lia.
  split; [exact (box_reciprocal gp gn n fbc pbc nb G Pg Hfb HO)|].
  intros r Hr. destruct (rank_onto gp gn n fbc pbc G Pg HO r Hr) as (p & Bp & <-). cbv zeta. split.
  - intros v (x & y & z & Hx & Hy & Hz & ->).
    assert (R : real_voxel n (x + (lx + 2) * (y + (ly + 2) * z))) by (exists (x, y, z); split; [cbn; lia|reflexivity]).
    destruct (box_table_ok gp gn n fbc pbc G Pn Hp HO p Bp HN _ R) as (A & B). split; [exact A|].
    intros f Hf'. destruct (B f Hf') as (e & E & C). exists e. split; [exact E|].
    destruct C as [C|[C|[C|([[x' y'] z'] & I & C)]]]; [auto|auto|auto|]. right. right. right.
    exists x', y', z'. cbn in I. repeat (split; [lia|]). exact C.
  - intros v f nn Hf'. exact (box_sends_to_owner gp gn n fbc pbc nb G Pn Pg Hp HO p v f nn Bp Hf').
Qed.
Print Assumptions C21_topology_agrees.

(* Decompositions that do not fit are reported. *)
Theorem C21_bad_args : forall rank size nvs gnx gny gnz gpx gpy gpz,
  gpx < 1 \/ gpy < 1 \/ gpz < 1 \/ gpx * gpy * gpz <> size \/ gnx < 1 \/ gny < 1 \/ gnz < 1 \/
  Z.rem gnx gpx <> 0 \/ Z.rem gny gpy <> 0 \/ Z.rem gnz gpz <> 0 ->
  partition_periodic rank size nvs gnx gny gnz gpx gpy gpz = Err.
Proof.
  intros rank size nvs gnx gny gnz gpx gpy gpz H. unfold partition_periodic.
  destruct ((gpx <? 1) || (gpy <? 1) || (gpz <? 1) || negb (gpx * gpy * gpz =? size)) eqn:A; [reflexivity|].
  replace ((gnx <? 1) || (gny <? 1) || (gnz <? 1) || negb (Z.rem gnx gpx =? 0) || negb (Z.rem gny gpy =? 0) || negb (Z.rem gnz gpz =? 0)) with true by lia.
  reflexivity.
Qed.
Print Assumptions C21_bad_args.

(* Box of 4x2x1 cells on 2x1x1 ranks; cell (1,0,0), the last of rank 0, and the outer cell (3,0,0). *)
Example C21_example :
  match partition_periodic 0 2 [48; 48] 4 2 1 2 1 1, partition_metal 1 2 [48; 48] 4 2 1 2 1 1 with
  | Ok g, Ok h =>
      local_voxel (2, 2, 1) (1, 0, 0) = 22 /\
      map (fun f => g_nbr g (6 * 22 + f)) [0; 1; 2; 3; 4; 5] = [Some 21; Some 26; Some 22; Some 69; Some 26; Some 22] /\
      map (fun f => g_bc g (face_code f)) [0; 1; 2; 3; 4; 5] = [1; 0; 0; 1; 0; 0] /\
      map (fun f => g_nbr h (6 * 22 + f)) [0; 1; 2; 3; 4; 5] = [Some 69; Some (-1); Some 70; Some (-1); Some 74; Some 70] /\
      map (fun f => g_bc h (face_code f)) [0; 1; 2; 3; 4; 5] = [0; -1; 1; -1; -1; 1]
  | _, _ => False end.
Proof. vm_compute. repeat split. Qed.
