From Coq Require Import ZArith List Bool Lia ZifyBool Permutation.
From Verif Require Import DistributeModel VoxelModel VoxelProofs SortModel SortProofs SweepModel SweepProofs
  FieldModel FieldProofs FieldSpec.
Import ListNotations.
Open Scope Z_scope.
Ltac Zify.zify_post_hook ::= idtac.

Section S.
Variable V : Type.
Variable A : arith V.
Variable mt : mats V.
Variable k : coefs V.
Variables (nx ny nz : Z) (contract : bool) (P : Z).
Hypothesis Hx : 1 <= nx.
Hypothesis Hy : 1 <= ny.
Hypothesis Hz : 1 <= nz.
Hypothesis Hn : nx * ny * nz < 2 ^ 31.
Hypothesis HP : 1 <= P < 2 ^ 31.

Notation vox := (voxel nx ny nz).

(* ---- the sweeps as families of kernels over mesh points ---- *)
Definition b_fam (i : nat) (x y z : Z) : fop V :=
  match i with
  | 0%nat => UPDATE_CBX (vox x y z) (vox x (y+1) z) (vox x y (z+1))
  | 1%nat => UPDATE_CBY (vox x y z) (vox x y (z+1)) (vox (x+1) y z)
  | _ => UPDATE_CBZ (vox x y z) (vox (x+1) y z) (vox x (y+1) z)
  end.
Definition b_wc (i : nat) := match i with 0%nat => [Cbx] | 1%nat => [Cby] | _ => [Cbz] end.
Definition b_pieces := [mk_piece 0 1 nx 1 ny 1 nz; mk_piece 1 1 nx 1 ny 1 nz; mk_piece 2 1 nx 1 ny 1 nz;
  mk_piece 0 (nx+1) (nx+1) 1 ny 1 nz; mk_piece 1 1 nx (ny+1) (ny+1) 1 nz; mk_piece 2 1 nx 1 ny (nz+1) (nz+1)].

Definition e_fam (UEX UEY UEZ : Z -> Z -> Z -> fop V) (i : nat) (x y z : Z) : fop V :=
  match i with
  | 0%nat => UEX (vox x y z) (vox x (y-1) z) (vox x y (z-1))
  | 1%nat => UEY (vox x y z) (vox x y (z-1)) (vox (x-1) y z)
  | _ => UEZ (vox x y z) (vox (x-1) y z) (vox x (y-1) z)
  end.
Definition e_wc (i : nat) := match i with 0%nat => [Tcax; Ex] | 1%nat => [Tcay; Ey] | _ => [Tcaz; Ez] end.
Definition curl_wc (i : nat) := match i with 0%nat => [Tcax] | 1%nat => [Tcay] | _ => [Tcaz] end.
Definition e_fc (i : nat) := match i with 0%nat => [Jfx; Cby; Cbz] | 1%nat => [Jfy; Cbx; Cbz] | _ => [Jfz; Cbx; Cby] end.
Definition e_pieces_in := [mk_piece 0 2 nx 2 ny 2 nz; mk_piece 1 2 nx 2 ny 2 nz; mk_piece 2 2 nx 2 ny 2 nz;
  mk_piece 0 1 1 2 ny 2 nz; mk_piece 1 2 nx 1 1 2 nz; mk_piece 2 2 nx 2 ny 1 1].
Definition e_pieces_out := [
  mk_piece 0 1 nx 1 (ny+1) 1 1; mk_piece 0 1 nx 1 (ny+1) (nz+1) (nz+1);
  mk_piece 0 1 nx 1 1 2 nz; mk_piece 0 1 nx (ny+1) (ny+1) 2 nz;
  mk_piece 1 1 1 1 ny 1 (nz+1); mk_piece 1 (nx+1) (nx+1) 1 ny 1 (nz+1);
  mk_piece 1 2 nx 1 ny 1 1; mk_piece 1 2 nx 1 ny (nz+1) (nz+1);
  mk_piece 2 1 (nx+1) 1 1 1 nz; mk_piece 2 1 (nx+1) (ny+1) (ny+1) 1 nz;
  mk_piece 2 1 1 2 ny 1 nz; mk_piece 2 (nx+1) (nx+1) 2 ny 1 nz].

Definition d_fam (UD : Z -> Z -> Z -> Z -> fop V) (i : nat) (x y z : Z) : fop V :=
  UD (vox x y z) (vox (x-1) y z) (vox x (y-1) z) (vox x y (z-1)).
Definition d_pieces_in := [mk_piece 0 2 nx 2 ny 2 nz].
Definition d_pieces_out := [
  mk_piece 0 1 (nx+1) 1 (ny+1) 1 1; mk_piece 0 1 (nx+1) 1 (ny+1) (nz+1) (nz+1);
  mk_piece 0 1 (nx+1) 1 1 2 nz; mk_piece 0 1 (nx+1) (ny+1) (ny+1) 2 nz;
  mk_piece 0 1 1 2 ny 2 nz; mk_piece 0 (nx+1) (nx+1) 2 ny 2 nz].

Definition db_fam (i : nat) (x y z : Z) : fop V :=
  UPDATE_DERR_B (vox x y z) (vox (x+1) y z) (vox x (y+1) z) (vox x y (z+1)).
Definition db_pieces := [mk_piece 0 1 nx 1 ny 1 nz].

Definition mb_fam (i : nat) (x y z : Z) : fop V :=
  match i with
  | 0%nat => MARDER_CBX (vox x y z) (vox (x-1) y z)
  | 1%nat => MARDER_CBY (vox x y z) (vox x (y-1) z)
  | _ => MARDER_CBZ (vox x y z) (vox x y (z-1))
  end.
Definition mb_pieces_in := [mk_piece 0 2 nx 2 ny 2 nz; mk_piece 1 2 nx 2 ny 2 nz; mk_piece 2 2 nx 2 ny 2 nz;
  mk_piece 0 2 nx 1 ny 1 1; mk_piece 0 2 nx 1 1 2 nz;
  mk_piece 1 1 1 2 ny 1 nz; mk_piece 1 2 nx 2 ny 1 1;
  mk_piece 2 1 nx 1 1 2 nz; mk_piece 2 1 1 2 ny 2 nz].
Definition mb_pieces_out := [
  mk_piece 0 1 1 1 ny 1 nz; mk_piece 0 (nx+1) (nx+1) 1 ny 1 nz;
  mk_piece 1 1 nx 1 1 1 nz; mk_piece 1 1 nx (ny+1) (ny+1) 1 nz;
  mk_piece 2 1 nx 1 ny 1 1; mk_piece 2 1 nx 1 ny (nz+1) (nz+1)].

Definition me_fam (i : nat) (x y z : Z) : fop V :=
  match i with
  | 0%nat => MARDER_EX (vox x y z) (vox (x+1) y z)
  | 1%nat => MARDER_EY (vox x y z) (vox x (y+1) z)
  | _ => MARDER_EZ (vox x y z) (vox x y (z+1))
  end.
Definition me_wc (i : nat) := match i with 0%nat => [Ex] | 1%nat => [Ey] | _ => [Ez] end.
Definition me_pieces := [mk_piece 0 1 nx 1 ny 1 nz; mk_piece 1 1 nx 1 ny 1 nz; mk_piece 2 1 nx 1 ny 1 nz;
  mk_piece 0 1 nx 1 (ny+1) (nz+1) (nz+1); mk_piece 0 1 nx (ny+1) (ny+1) 1 nz;
  mk_piece 1 (nx+1) (nx+1) 1 ny 1 (nz+1); mk_piece 1 1 nx 1 ny (nz+1) (nz+1);
  mk_piece 2 1 (nx+1) (ny+1) (ny+1) 1 nz; mk_piece 2 (nx+1) (nx+1) 1 ny 1 nz].

Ltac unfold_fam := cbv beta iota delta [op_at b_fam e_fam d_fam db_fam mb_fam me_fam].
Ltac unfold_fam_in H := cbv beta iota delta [op_at b_fam e_fam d_fam db_fam mb_fam me_fam] in H.

Ltac simp_pts := unfold pts; cbn [flat_map]; rewrite ?map_app; cbn [map]; rewrite ?app_nil_r, <- ?app_assoc.
Ltac vox_eq := unfold voxel; cbv zeta; lia.
Ltac host_piece := rewrite map_piece; cbn [px0 px1 py0 py1 pz0 pz1 pk];
  repeat (rewrite for_one || (apply for_ext; intros ? ?)); cbv zeta; unfold_fam; apply (f_equal (fun a => [a])); f_equal; vox_eq.
Lemma perm_app_eq {T} (a a' b b' : list T) : a = a' -> Permutation b b' -> Permutation (a ++ b) (a' ++ b').
Proof. intros ->. apply Permutation_app_head. Qed.
Ltac perm_host := repeat match goal with
  |- Permutation (?a ++ ?b) (?a' ++ ?b') => apply (perm_app_eq a a' b b'); [host_piece|] end;
  match goal with |- Permutation ?a ?b => apply (@Permutation_refl' _ a b); host_piece end.
Ltac all_disj := repeat (constructor; [repeat (constructor; [unfold disj; cbn; lia|]); constructor|]); constructor.
Ltac all_ok := apply pts_ok; cbn [pin px0 px1 py0 py1 pz0 pz1 pk]; intros;
  repeat match goal with H : _ \/ _ |- _ => destruct H as [H|H] end; lia.

(* From a fam_result to [updated]. *)
Lemma result_updated fam wc qs B r c i xh yh zh new :
  fam_result V A mt k nx ny nz fam wc (pts qs) B r ->
  (forall j, In c (wc j) -> (exists x y z, pin j x y z qs) -> j = i) -> In c (wc i) ->
  (forall x y z, pin i x y z qs <-> (1 <= x <= xh /\ 1 <= y <= yh /\ 1 <= z <= zh)) ->
  (forall x y z, stores floc V floc_eqb (fexec V A mt k (fam i x y z) B) B (c, vox x y z) = new x y z) ->
  updated V nx ny nz B r c xh yh zh new.
Proof.
  intros [Hw Hn'] Hu Hi Hp Hf. split.
  - intros x y z h1 h2 h3. rewrite <- Hf. apply Hw; [|exact Hi]. apply in_pts. apply Hp. auto.
  - intros v Hv. apply Hn'. intros j x y z Hq Hc. apply in_pts in Hq.
    assert (j = i) by (apply Hu; eauto). subst j. apply Hp in Hq. apply Hv; tauto.
Qed.

Lemma result_only fam wc qs B r cs :
  fam_result V A mt k nx ny nz fam wc (pts qs) B r -> (forall j c, In c (wc j) -> In c cs) ->
  only V cs B r.
Proof.
  intros [_ Hn'] H c v Hc. apply Hn'. intros j x y z _ Hj. exfalso. apply Hc. eapply H. exact Hj.
Qed.

Ltac cover := cbn [pin px0 px1 py0 py1 pz0 pz1 pk app]; intros x y z; split;
  [intros Hp; repeat destruct Hp as [Hp|Hp]; lia
  |intros Hp;
   assert (Cx : x = 1 \/ 2 <= x <= nx \/ x = nx + 1) by lia;
   assert (Cy : y = 1 \/ 2 <= y <= ny \/ y = ny + 1) by lia;
   assert (Cz : z = 1 \/ 2 <= z <= nz \/ z = nz + 1) by lia;
   destruct Cx as [Cx|[Cx|Cx]]; destruct Cy as [Cy|[Cy|Cy]]; destruct Cz as [Cz|[Cz|Cz]]; try (exfalso; lia);
   repeat first [left; repeat apply conj; lia|right]].
Lemma e_cover0 : forall x y z, pin 0 x y z (e_pieces_in ++ e_pieces_out) <->
  (1 <= x <= nx /\ 1 <= y <= ny + 1 /\ 1 <= z <= nz + 1).
Proof. unfold e_pieces_in, e_pieces_out. cover. Qed.
Lemma e_cover1 : forall x y z, pin 1 x y z (e_pieces_in ++ e_pieces_out) <->
  (1 <= x <= nx + 1 /\ 1 <= y <= ny /\ 1 <= z <= nz + 1).
Proof. unfold e_pieces_in, e_pieces_out. cover. Qed.
Lemma e_cover2 : forall x y z, pin 2 x y z (e_pieces_in ++ e_pieces_out) <->
  (1 <= x <= nx + 1 /\ 1 <= y <= ny + 1 /\ 1 <= z <= nz).
Proof. unfold e_pieces_in, e_pieces_out. cover. Qed.
Lemma d_cover : forall x y z, pin 0 x y z (d_pieces_in ++ d_pieces_out) <->
  (1 <= x <= nx + 1 /\ 1 <= y <= ny + 1 /\ 1 <= z <= nz + 1).
Proof. unfold d_pieces_in, d_pieces_out. cover. Qed.

Ltac famW := let i := fresh in intros i; destruct i as [|[|]]; intros; reflexivity.
Ltac famR := let i := fresh in let Hl := fresh in intros i ? ? ? ? Hl; destruct i as [|[|]];
  unfold_fam; cbn [fW fR In fst b_wc e_wc curl_wc e_fc me_wc]; unfold_fam_in Hl; cbn [fW fR In] in Hl;
  repeat match goal with H : _ \/ _ |- _ => destruct H as [H|H] end; try contradiction; subst; cbn [fst]; tauto.
Ltac wcd := let i := fresh in let j := fresh in intros i j ? ? ? ? ?; destruct i as [|[|[|]]]; try lia;
  destruct j as [|[|[|]]]; try lia; cbn in *; intuition congruence.
Ltac fcd := let i := fresh in let j := fresh in intros i j ? ? ?; destruct i as [|[|]];
  destruct j as [|[|]]; cbn in *; intuition congruence.
Ltac wcin := let j := fresh in intros j ? ?; destruct j as [|[|]]; cbn in *; tauto.
Ltac kernel := intros; cbn; unfold store, floc_eqb; cbn; rewrite ?Z.eqb_refl; cbn; reflexivity.
Ltac upd H i := eapply (result_updated _ _ _ _ _ _ i);
  [exact H
  |let j := fresh in intros j ? (? & ? & ? & ?); destruct j as [|[|[|]]]; cbn in *; intuition (try congruence; try lia)
  |cbn; tauto
  |first [apply e_cover0|apply e_cover1|apply e_cover2|apply d_cover|
          cbn [pin px0 px1 py0 py1 pz0 pz1 pk]; intros; lia]
  |kernel].

(* ---- advance_b ---- *)
Lemma advance_b_perm : Permutation (advance_b_pipes V nx ny nz contract P ++ advance_b_host V nx ny nz)
  (map (op_at V b_fam) (pts b_pieces)).
Proof.
  unfold b_pieces. simp_pts.
  etransitivity; [apply Permutation_app; [unfold advance_b_pipes; apply (pipelines3 V nx ny nz Hx Hy Hz contract P 1 _ _ _
    (op_at V b_fam) 0 1 2); try lia; intros; unfold_fam; f_equal; vox_eq|reflexivity]|].
  rewrite <- !app_assoc. do 3 apply Permutation_app_head. unfold advance_b_host. perm_host.
Qed.

Lemma advance_b_spec m r : advance_b_run V A mt k nx ny nz contract P m r -> faraday V nx ny nz A k m r.
Proof.
  intros Hr.
  assert (H : fam_result V A mt k nx ny nz b_fam b_wc (pts b_pieces) m r).
  { apply (free_result V A mt k nx ny nz Hx Hy b_fam b_wc (fun _ => [Ex; Ey; Ez]) 3) with (8 := Hr).
    - famW.
    - famR.
    - wcd.
    - fcd.
    - apply advance_b_perm.
    - unfold b_pieces. all_disj.
    - unfold b_pieces. all_ok. }
  split; [eapply result_only; [exact H|wcin]|].
  unfold on_xface, on_yface, on_zface, b_pieces in *. split; [|split].
  - upd H 0%nat.
  - upd H 1%nat.
  - upd H 2%nat.
Qed.

(* ---- clean_div_e ---- *)
Lemma clean_div_e_perm : Permutation (clean_e_pipes V nx ny nz contract P ++ clean_e_leftover V nx ny nz)
  (map (op_at V me_fam) (pts me_pieces)).
Proof.
  unfold me_pieces. simp_pts.
  etransitivity; [apply Permutation_app; [unfold clean_e_pipes; apply (pipelines3 V nx ny nz Hx Hy Hz contract P 1 _ _ _
    (op_at V me_fam) 0 1 2); try lia; intros; unfold_fam; f_equal; vox_eq|reflexivity]|].
  rewrite <- !app_assoc. do 3 apply Permutation_app_head. unfold clean_e_leftover. perm_host.
Qed.

Lemma clean_div_e_spec m r : clean_div_e_run V A mt k nx ny nz contract P m r -> marder_e V nx ny nz A mt k m r.
Proof.
  intros Hr.
  assert (H : fam_result V A mt k nx ny nz me_fam me_wc (pts me_pieces) m r).
  { apply (free_result V A mt k nx ny nz Hx Hy me_fam me_wc (fun _ => [DivE]) 3) with (8 := Hr).
    - famW.
    - famR.
    - wcd.
    - fcd.
    - apply clean_div_e_perm.
    - unfold me_pieces. all_disj.
    - unfold me_pieces. all_ok. }
  split; [eapply result_only; [exact H|wcin]|].
  unfold on_xedge, on_yedge, on_zedge, me_pieces in *. split; [|split].
  - upd H 0%nat.
  - upd H 1%nat.
  - upd H 2%nat.
Qed.

(* ---- compute_div_b_err ---- *)
Lemma div_b_perm : Permutation (div_b_pipes V nx ny nz contract P) (map (op_at V db_fam) (pts db_pieces)).
Proof.
  unfold db_pieces. simp_pts. unfold div_b_pipes.
  apply (pipelines1 V nx ny nz Hx Hy Hz contract P 1 _ (op_at V db_fam) 0); try lia; intros; unfold_fam; f_equal; vox_eq.
Qed.

Lemma div_b_err_spec m r : div_b_err_run V A mt k nx ny nz contract P m r -> gauss_b V nx ny nz A k m r.
Proof.
  intros Hr.
  assert (H : fam_result V A mt k nx ny nz db_fam (fun _ => [DivB]) (pts db_pieces) m r).
  { apply (free_result V A mt k nx ny nz Hx Hy db_fam (fun _ => [DivB]) (fun _ => [Cbx; Cby; Cbz]) 1) with (8 := Hr).
    - famW.
    - famR.
    - wcd.
    - fcd.
    - apply div_b_perm.
    - unfold db_pieces. all_disj.
    - unfold db_pieces. all_ok. }
  split; [eapply result_only; [exact H|wcin]|].
  unfold on_cell, db_pieces in *. upd H 0%nat.
Qed.

(* ---- sweeps with ghosts ---- *)
Lemma ghosts_in G (m : floc -> V) : NoDup (map fst G) -> with_ghosts G m (stores floc V floc_eqb G m).
Proof.
  intros Hnd. split.
  - intros [c v] x Hin. apply ghost_stores; assumption.
  - intros l Hl. apply (stores_notin _ _ _ floc_eqb_spec). exact Hl.
Qed.

Lemma vox_ne x y z x' y' z' : 0 <= x <= nx + 1 -> 0 <= y <= ny + 1 -> 0 <= z <= nz + 1 ->
  0 <= x' <= nx + 1 -> 0 <= y' <= ny + 1 -> 0 <= z' <= nz + 1 ->
  vox x y z = vox x' y' z' -> x = x' /\ y = y' /\ z = z'.
Proof.
  intros. assert ((x, y, z) = (x', y', z')) by (apply (voxel_inj nx ny nz); unfold in_mesh; auto; lia).
  repeat split; congruence.
Qed.

Lemma ghost_at d x y z : 0 <= x <= nx + 1 -> 0 <= y <= ny + 1 -> 0 <= z <= nz + 1 ->
  on_ghost nx ny nz d (vox x y z) ->
  (d = 0 /\ (x = 0 \/ x = nx + 1)) \/ (d = 1 /\ (y = 0 \/ y = ny + 1)) \/ (d = 2 /\ (z = 0 \/ z = nz + 1)).
Proof.
  intros h1 h2 h3 (x' & y' & z' & h4 & h5 & h6 & He & H). apply vox_ne in He; [|lia..].
  destruct He as (-> & -> & ->). exact H.
Qed.

Lemma tang_at c x y z : 0 <= x <= nx + 1 -> 0 <= y <= ny + 1 -> 0 <= z <= nz + 1 ->
  ghost_tang_b nx ny nz c (vox x y z) ->
  ((x = 0 \/ x = nx + 1) /\ (c = Cby \/ c = Cbz)) \/ ((y = 0 \/ y = ny + 1) /\ (c = Cbz \/ c = Cbx)) \/
  ((z = 0 \/ z = nz + 1) /\ (c = Cbx \/ c = Cby)).
Proof.
  intros h1 h2 h3 [[H Hc]|[[H Hc]|[H Hc]]]; apply ghost_at in H; try assumption;
    [left|right; left|right; right]; (split; [lia|exact Hc]).
Qed.

Lemma norm_at c x y z : 0 <= x <= nx + 1 -> 0 <= y <= ny + 1 -> 0 <= z <= nz + 1 ->
  ghost_norm_e nx ny nz c (vox x y z) ->
  ((x = 0 \/ x = nx + 1) /\ c = Ex) \/ ((y = 0 \/ y = ny + 1) /\ c = Ey) \/ ((z = 0 \/ z = nz + 1) /\ c = Ez).
Proof.
  intros h1 h2 h3 [[H Hc]|[[H Hc]|[H Hc]]]; apply ghost_at in H; try assumption;
    [left|right; left|right; right]; (split; [lia|exact Hc]).
Qed.

Lemma divb_at c x y z : 0 <= x <= nx + 1 -> 0 <= y <= ny + 1 -> 0 <= z <= nz + 1 ->
  ghost_div_b nx ny nz c (vox x y z) ->
  c = DivB /\ (x = 0 \/ x = nx + 1 \/ y = 0 \/ y = ny + 1 \/ z = 0 \/ z = nz + 1).
Proof.
  intros h1 h2 h3 [Hc (d & Hd & H)]. apply ghost_at in H; try assumption. split; [exact Hc|lia].
Qed.

(* no read at a ghost point *)
Ltac noread := let Hq := fresh in let Hok := fresh in let Hr := fresh in let i := fresh in
  intros i ? ? ? ? ? Hq Hok Hr; apply in_pts in Hq; cbn [pin px0 px1 py0 py1 pz0 pz1 pk] in Hq;
  destruct i as [|[|]]; unfold_fam_in Hr; cbn [fR In] in Hr;
  repeat match goal with H : _ \/ _ |- _ => match H with Hr => destruct H as [H|H] end end;
  try contradiction; inversion Hr; subst; clear Hr;
  (apply tang_at in Hok || apply norm_at in Hok || apply divb_at in Hok); try lia;
  repeat match goal with
  | H : _ /\ _ |- _ => match H with Hok => destruct H as [? Hok] end
  | H : _ \/ _ |- _ => match H with Hok => destruct H as [Hok|Hok] end
  end; try discriminate; lia.
Ltac wcok := let i := fresh in intros ? ? ? i ?; destruct i as [|[|]];
  cbn [b_wc e_wc curl_wc me_wc In] in *; unfold ghost_tang_b, ghost_norm_e, ghost_div_b in *;
  intuition (subst; discriminate || congruence).

(* ---- advance_e, compute_curl_b ---- *)
Lemma advance_e_perm_in UEX UEY UEZ :
  Permutation (advance_e_pipes V nx ny nz contract P UEX UEY UEZ ++ advance_e_leftover V nx ny nz UEX UEY UEZ)
  (map (op_at V (e_fam UEX UEY UEZ)) (pts e_pieces_in)).
Proof.
  unfold e_pieces_in. simp_pts.
  etransitivity; [apply Permutation_app; [unfold advance_e_pipes; apply (pipelines3 V nx ny nz Hx Hy Hz contract P 2 _ _ _
    (op_at V (e_fam UEX UEY UEZ)) 0 1 2); try lia; intros; unfold_fam; f_equal; vox_eq|reflexivity]|].
  rewrite <- !app_assoc. do 3 apply Permutation_app_head. unfold advance_e_leftover. perm_host.
Qed.

Lemma advance_e_perm_out UEX UEY UEZ :
  Permutation (advance_e_exterior V nx ny nz UEX UEY UEZ)
  (map (op_at V (e_fam UEX UEY UEZ)) (pts e_pieces_out)).
Proof. unfold e_pieces_out. simp_pts. unfold advance_e_exterior. perm_host. Qed.

Lemma advance_e_spec G m r : ghost_list (ghost_tang_b nx ny nz) G ->
  advance_e_run V A mt k nx ny nz contract P G m r ->
  exists B, with_ghosts G m B /\ ampere V nx ny nz A mt k B r.
Proof.
  intros HG Hr.
  assert (H : fam_result V A mt k nx ny nz (e_fam UPDATE_EX UPDATE_EY UPDATE_EZ) e_wc
                (pts (e_pieces_in ++ e_pieces_out)) (stores floc V floc_eqb G m) r).
  { apply (ghost_result V A mt k nx ny nz Hx Hy _ e_wc e_fc 3) with (9 := HG) (12 := Hr).
    - famW.
    - famR.
    - wcd.
    - fcd.
    - apply advance_e_perm_in.
    - apply advance_e_perm_out.
    - unfold e_pieces_in, e_pieces_out. cbn [app]. all_disj.
    - unfold e_pieces_in, e_pieces_out. cbn [app]. all_ok.
    - wcok.
    - unfold e_pieces_in. noread. }
  exists (stores floc V floc_eqb G m). split; [apply ghosts_in; apply HG|].
  split; [eapply result_only; [exact H|wcin]|].
  unfold on_xedge, on_yedge, on_zedge.
  split; [|split; [|split; [|split; [|split]]]].
  - upd H 0%nat.
  - upd H 1%nat.
  - upd H 2%nat.
  - upd H 0%nat.
  - upd H 1%nat.
  - upd H 2%nat.
Qed.

Lemma curl_b_spec G m r : ghost_list (ghost_tang_b nx ny nz) G ->
  curl_b_run V A mt k nx ny nz contract P G m r ->
  exists B, with_ghosts G m B /\ curl_only V nx ny nz A mt k B r.
Proof.
  intros HG Hr.
  assert (H : fam_result V A mt k nx ny nz (e_fam CURL_EX CURL_EY CURL_EZ) curl_wc
                (pts (e_pieces_in ++ e_pieces_out)) (stores floc V floc_eqb G m) r).
  { apply (ghost_result V A mt k nx ny nz Hx Hy _ curl_wc e_fc 3) with (9 := HG) (12 := Hr).
    - famW.
    - famR.
    - wcd.
    - fcd.
    - apply advance_e_perm_in.
    - apply advance_e_perm_out.
    - unfold e_pieces_in, e_pieces_out. cbn [app]. all_disj.
    - unfold e_pieces_in, e_pieces_out. cbn [app]. all_ok.
    - wcok.
    - unfold e_pieces_in. noread. }
  exists (stores floc V floc_eqb G m). split; [apply ghosts_in; apply HG|].
  split; [eapply result_only; [exact H|wcin]|].
  unfold on_xedge, on_yedge, on_zedge.
  split; [|split].
  - upd H 0%nat.
  - upd H 1%nat.
  - upd H 2%nat.
Qed.

(* ---- compute_div_e_err, compute_rhob ---- *)
Lemma div_e_perm_in UD : Permutation (div_e_pipes V nx ny nz contract P UD)
  (map (op_at V (d_fam UD)) (pts d_pieces_in)).
Proof.
  unfold d_pieces_in. simp_pts. unfold div_e_pipes.
  apply (pipelines1 V nx ny nz Hx Hy Hz contract P 2 _ (op_at V (d_fam UD)) 0); try lia; intros; unfold_fam; f_equal; vox_eq.
Qed.

Lemma div_e_perm_out UD : Permutation (div_e_exterior V nx ny nz UD)
  (map (op_at V (d_fam UD)) (pts d_pieces_out)).
Proof.
  unfold d_pieces_out. simp_pts. unfold div_e_exterior.
  do 4 match goal with
  |- Permutation (?a ++ ?b) (?a' ++ ?b') => apply (perm_app_eq a a' b b'); [host_piece|] end.
  etransitivity.
  { apply for_perm. intros z.
    apply (for_app_perm 2 ny (fun y => [UD (vox 1 y z) (vox 0 y z) (vox 1 (y-1) z) (vox 1 y (z-1))])
             (fun y => [UD (vox (nx+1) y z) (vox nx y z) (vox (nx+1) (y-1) z) (vox (nx+1) y (z-1))])). }
  etransitivity.
  { apply for_app_perm. }
  perm_host.
Qed.

Lemma div_e_err_spec G m r : ghost_list (ghost_norm_e nx ny nz) G ->
  div_e_err_run V A mt k nx ny nz contract P G m r ->
  exists B, with_ghosts G m B /\ gauss_e V nx ny nz A mt k B r.
Proof.
  intros HG Hr.
  assert (H : fam_result V A mt k nx ny nz (d_fam UPDATE_DERR_E) (fun _ => [DivE])
                (pts (d_pieces_in ++ d_pieces_out)) (stores floc V floc_eqb G m) r).
  { apply (ghost_result V A mt k nx ny nz Hx Hy _ (fun _ => [DivE]) (fun _ => [Ex; Ey; Ez; Rhof; Rhob]) 1)
      with (9 := HG) (12 := Hr).
    - famW.
    - famR.
    - wcd.
    - fcd.
    - apply div_e_perm_in.
    - apply div_e_perm_out.
    - unfold d_pieces_in, d_pieces_out. cbn [app]. all_disj.
    - unfold d_pieces_in, d_pieces_out. cbn [app]. all_ok.
    - wcok.
    - unfold d_pieces_in. noread. }
  exists (stores floc V floc_eqb G m). split; [apply ghosts_in; apply HG|].
  split; [eapply result_only; [exact H|wcin]|].
  unfold on_node. upd H 0%nat.
Qed.

Lemma rhob_spec G m r : ghost_list (ghost_norm_e nx ny nz) G ->
  rhob_run V A mt k nx ny nz contract P G m r ->
  exists B, with_ghosts G m B /\ bound_charge V nx ny nz A mt k B r.
Proof.
  intros HG Hr.
  assert (H : fam_result V A mt k nx ny nz (d_fam UPDATE_RHOB) (fun _ => [Rhob])
                (pts (d_pieces_in ++ d_pieces_out)) (stores floc V floc_eqb G m) r).
  { apply (ghost_result V A mt k nx ny nz Hx Hy _ (fun _ => [Rhob]) (fun _ => [Ex; Ey; Ez; Rhof]) 1)
      with (9 := HG) (12 := Hr).
    - famW.
    - famR.
    - wcd.
    - fcd.
    - apply div_e_perm_in.
    - apply div_e_perm_out.
    - unfold d_pieces_in, d_pieces_out. cbn [app]. all_disj.
    - unfold d_pieces_in, d_pieces_out. cbn [app]. all_ok.
    - wcok.
    - unfold d_pieces_in. noread. }
  exists (stores floc V floc_eqb G m). split; [apply ghosts_in; apply HG|].
  split; [eapply result_only; [exact H|wcin]|].
  unfold on_node. upd H 0%nat.
Qed.

(* ---- clean_div_b ---- *)
Lemma clean_div_b_perm_in : Permutation (clean_b_pipes V nx ny nz contract P ++ clean_b_leftover V nx ny nz)
  (map (op_at V mb_fam) (pts mb_pieces_in)).
Proof.
  unfold mb_pieces_in. simp_pts.
  etransitivity; [apply Permutation_app; [unfold clean_b_pipes; apply (pipelines3 V nx ny nz Hx Hy Hz contract P 2 _ _ _
    (op_at V mb_fam) 0 1 2); try lia; intros; unfold_fam; f_equal; vox_eq|reflexivity]|].
  rewrite <- !app_assoc. do 3 apply Permutation_app_head. unfold clean_b_leftover. perm_host.
Qed.

Lemma clean_div_b_perm_out : Permutation (clean_b_exterior V nx ny nz) (map (op_at V mb_fam) (pts mb_pieces_out)).
Proof. unfold mb_pieces_out. simp_pts. unfold clean_b_exterior. perm_host. Qed.

Lemma clean_div_b_spec G m r : ghost_list (ghost_div_b nx ny nz) G ->
  clean_div_b_run V A mt k nx ny nz contract P G m r ->
  exists B, with_ghosts G m B /\ marder_b V nx ny nz A k B r.
Proof.
  intros HG Hr.
  assert (H : fam_result V A mt k nx ny nz mb_fam b_wc
                (pts (mb_pieces_in ++ mb_pieces_out)) (stores floc V floc_eqb G m) r).
  { apply (ghost_result V A mt k nx ny nz Hx Hy _ b_wc (fun _ => [DivB]) 3) with (9 := HG) (12 := Hr).
    - famW.
    - famR.
    - wcd.
    - fcd.
    - apply clean_div_b_perm_in.
    - apply clean_div_b_perm_out.
    - unfold mb_pieces_in, mb_pieces_out. cbn [app]. all_disj.
    - unfold mb_pieces_in, mb_pieces_out. cbn [app]. all_ok.
    - wcok.
    - unfold mb_pieces_in. noread. }
  exists (stores floc V floc_eqb G m). split; [apply ghosts_in; apply HG|].
  split; [eapply result_only; [exact H|wcin]|].
  unfold on_xface, on_yface, on_zface, mb_pieces_in, mb_pieces_out in *. cbn [app] in H.
  split; [|split].
  - upd H 0%nat.
  - upd H 1%nat.
  - upd H 2%nat.
Qed.

(* ---- every location is stored to once ---- *)
Lemma touched_W ops F : touched V A mt k ops F = flat_map (fW V) ops.
Proof.
  unfold touched. apply flat_map_ext. intros o. apply (texec_dom V A mt k (false, o) F).
Qed.

Lemma flat_map_perm {S T} (f : S -> list T) l l' : Permutation l l' -> Permutation (flat_map f l) (flat_map f l').
Proof.
  induction 1; cbn [flat_map]; [constructor|apply Permutation_app_head; assumption| |etransitivity; eassumption].
  rewrite !app_assoc. apply Permutation_app_tail. apply Permutation_app_comm.
Qed.

Lemma nodup_flat {S T} (f : S -> list T) l : NoDup l -> (forall a, In a l -> NoDup (f a)) ->
  (forall a b t, In a l -> In b l -> In t (f a) -> In t (f b) -> a = b) -> NoDup (flat_map f l).
Proof.
  intros Hl. induction Hl as [|a l Ha Hl IH]; intros H1 H2; [constructor|]. cbn [flat_map]. apply nodup_app.
  - apply H1. left. reflexivity.
  - apply IH; [intros b Hb; apply H1; right; exact Hb|].
    intros b c t Hb Hc. apply H2; right; assumption.
  - intros t Ht Hc. apply in_flat_map in Hc. destruct Hc as (b & Hb & Htb).
    assert (a = b) by (apply (H2 a b t); [left; reflexivity|right; exact Hb|exact Ht|exact Htb]).
    subst. contradiction.
Qed.

Lemma fam_once fam wc n ops bs F :
  (forall i x y z, fW V (fam i x y z) = map (fun c => (c, vox x y z)) (wc i)) ->
  (forall i j c, (i < n)%nat -> (j < n)%nat -> In c (wc i) -> In c (wc j) -> i = j) ->
  (forall i, NoDup (wc i)) ->
  Permutation ops (map (op_at V fam) (pts bs)) -> ForallOrdPairs disj bs -> Forall (pt_ok nx ny nz n) (pts bs) ->
  NoDup (touched V A mt k ops F).
Proof.
  intros HW Hd Hwn HPm Hdis Hok. rewrite touched_W.
  eapply Permutation_NoDup; [apply flat_map_perm; symmetry; exact HPm|].
  rewrite flat_map_concat_map, map_map, <- flat_map_concat_map.
  rewrite Forall_forall in Hok.
  apply nodup_flat; [apply nodup_pts; exact Hdis| |].
  - intros [[[i x] y] z] _. cbn [op_at]. rewrite HW. apply FinFun.Injective_map_NoDup; [|apply Hwn].
    intros c c' He. congruence.
  - intros [[[i x] y] z] [[[j x'] y'] z'] t Hq Hq' Ht Ht'. apply Hok in Hq, Hq'. cbn [pt_ok] in Hq, Hq'.
    cbn [op_at] in Ht, Ht'. rewrite HW in Ht, Ht'. apply in_map_iff in Ht, Ht'.
    destruct Ht as (c & <- & Hc), Ht' as (c' & He & Hc'). injection He as -> Hv.
    assert (i = j) by (eapply Hd; try eassumption; tauto). subst j.
    assert ((x, y, z) = (x', y', z')) by (apply (voxel_inj nx ny nz); try assumption; unfold in_mesh; lia).
    congruence.
Qed.

Ltac wcn := let i := fresh in intros i; destruct i as [|[|]]; cbn;
  repeat (constructor; [cbn; intuition discriminate|]); constructor.

Lemma advance_b_once F : NoDup (touched V A mt k (advance_b_pipes V nx ny nz contract P ++ advance_b_host V nx ny nz) F).
Proof.
  apply (fam_once b_fam b_wc 3 _ b_pieces); [famW|wcd|wcn|apply advance_b_perm| |]; unfold b_pieces; [all_disj|all_ok].
Qed.
Lemma clean_div_e_once F : NoDup (touched V A mt k (clean_e_pipes V nx ny nz contract P ++ clean_e_leftover V nx ny nz) F).
Proof.
  apply (fam_once me_fam me_wc 3 _ me_pieces); [famW|wcd|wcn|apply clean_div_e_perm| |]; unfold me_pieces; [all_disj|all_ok].
Qed.
Lemma div_b_err_once F : NoDup (touched V A mt k (div_b_pipes V nx ny nz contract P) F).
Proof.
  apply (fam_once db_fam (fun _ => [DivB]) 1 _ db_pieces); [famW|wcd|wcn|apply div_b_perm| |]; unfold db_pieces; [all_disj|all_ok].
Qed.

Lemma perm_pts_app fam Q H qs hs : Permutation Q (map (op_at V fam) (pts qs)) -> Permutation H (map (op_at V fam) (pts hs)) ->
  Permutation (Q ++ H) (map (op_at V fam) (pts (qs ++ hs))).
Proof. intros h1 h2. unfold pts. rewrite flat_map_app, map_app. apply Permutation_app; assumption. Qed.

Lemma advance_e_once F : NoDup (touched V A mt k ((advance_e_pipes V nx ny nz contract P UPDATE_EX UPDATE_EY UPDATE_EZ ++
   advance_e_leftover V nx ny nz UPDATE_EX UPDATE_EY UPDATE_EZ) ++ advance_e_exterior V nx ny nz UPDATE_EX UPDATE_EY UPDATE_EZ) F).
Proof.
  apply (fam_once (e_fam UPDATE_EX UPDATE_EY UPDATE_EZ) e_wc 3 _ (e_pieces_in ++ e_pieces_out)); [famW|wcd|wcn|
    apply perm_pts_app; [apply advance_e_perm_in|apply advance_e_perm_out]| |];
    unfold e_pieces_in, e_pieces_out; cbn [app]; [all_disj|all_ok].
Qed.
Lemma curl_b_once F : NoDup (touched V A mt k ((advance_e_pipes V nx ny nz contract P CURL_EX CURL_EY CURL_EZ ++
   advance_e_leftover V nx ny nz CURL_EX CURL_EY CURL_EZ) ++ advance_e_exterior V nx ny nz CURL_EX CURL_EY CURL_EZ) F).
Proof.
  apply (fam_once (e_fam CURL_EX CURL_EY CURL_EZ) curl_wc 3 _ (e_pieces_in ++ e_pieces_out)); [famW|wcd|wcn|
    apply perm_pts_app; [apply advance_e_perm_in|apply advance_e_perm_out]| |];
    unfold e_pieces_in, e_pieces_out; cbn [app]; [all_disj|all_ok].
Qed.
Lemma div_e_err_once F : NoDup (touched V A mt k (div_e_pipes V nx ny nz contract P UPDATE_DERR_E ++
   div_e_exterior V nx ny nz UPDATE_DERR_E) F).
Proof.
  apply (fam_once (d_fam UPDATE_DERR_E) (fun _ => [DivE]) 1 _ (d_pieces_in ++ d_pieces_out)); [famW|wcd|wcn|
    apply perm_pts_app; [apply div_e_perm_in|apply div_e_perm_out]| |];
    unfold d_pieces_in, d_pieces_out; cbn [app]; [all_disj|all_ok].
Qed.
Lemma rhob_once F : NoDup (touched V A mt k (div_e_pipes V nx ny nz contract P UPDATE_RHOB ++
   div_e_exterior V nx ny nz UPDATE_RHOB) F).
Proof.
  apply (fam_once (d_fam UPDATE_RHOB) (fun _ => [Rhob]) 1 _ (d_pieces_in ++ d_pieces_out)); [famW|wcd|wcn|
    apply perm_pts_app; [apply div_e_perm_in|apply div_e_perm_out]| |];
    unfold d_pieces_in, d_pieces_out; cbn [app]; [all_disj|all_ok].
Qed.
Lemma clean_div_b_once F : NoDup (touched V A mt k ((clean_b_pipes V nx ny nz contract P ++ clean_b_leftover V nx ny nz) ++
   clean_b_exterior V nx ny nz) F).
Proof.
  apply (fam_once mb_fam b_wc 3 _ (mb_pieces_in ++ mb_pieces_out)); [famW|wcd|wcn|
    apply perm_pts_app; [apply clean_div_b_perm_in|apply clean_div_b_perm_out]| |];
    unfold mb_pieces_in, mb_pieces_out; cbn [app]; [all_disj|all_ok].
Qed.
End S.
