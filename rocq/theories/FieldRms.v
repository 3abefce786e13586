From Coq Require Import ZArith List Bool Reals Lia ZifyBool Lra Psatz Permutation.
From Verif Require Import DistributeModel VoxelModel VoxelProofs SortModel SortProofs SweepModel SweepProofs
  FieldModel FieldProofs FieldSpec FieldBoundaryModel.
Import ListNotations.
Open Scope Z_scope.
Ltac Zify.zify_post_hook ::= idtac.

(* ---- sums over loops ---- *)
Definition zsum (l : list Z) : Z := fold_right Z.add 0 l.
Lemma zsum_app l l' : zsum (l ++ l') = zsum l + zsum l'.
Proof. induction l as [|a l IH]; [reflexivity|]. cbn [app zsum fold_right]. fold (zsum (l ++ l')) (zsum l). lia. Qed.
Lemma zsum_perm l l' : Permutation l l' -> zsum l = zsum l'.
Proof. induction 1; cbn [zsum fold_right] in *; fold zsum in *; unfold zsum in *; lia. Qed.
Lemma zsum_flat {T} (f : T -> list Z) l : zsum (flat_map f l) = zsum (map (fun i => zsum (f i)) l).
Proof.
  induction l as [|a l IH]; [reflexivity|]. cbn [flat_map map]. rewrite zsum_app, IH. reflexivity.
Qed.
Lemma zsum_scale {T} c (f : T -> Z) l : zsum (map (fun i => c * f i) l) = c * zsum (map f l).
Proof. induction l as [|a l IH]; [cbn; lia|]; cbn [map zsum fold_right]; fold (zsum (map (fun i => c * f i) l)) (zsum (map f l)); lia. Qed.
Lemma zsum_const {T} c (l : list T) : zsum (map (fun _ => c) l) = c * Z.of_nat (length l).
Proof. induction l as [|a l IH]; [cbn; lia|]; cbn [map zsum fold_right length]; fold (zsum (map (fun _ : T => c) l)); lia. Qed.

Lemma zsum_ends n : 1 <= n -> zsum (map (half_if_end n) (zrange 1 (n + 1 + 1))) = 2 * n.
Proof.
  intros Hn. rewrite (zrange_app 1 (n + 1)) by lia. rewrite (zrange_cons 1 (n + 1)) by lia.
  rewrite (zrange_cons (n + 1)), (zrange_nil (n + 1 + 1)) by lia.
  rewrite map_app, zsum_app. cbn [map zsum fold_right]. fold (zsum (map (half_if_end n) (zrange (1 + 1) (n + 1)))).
  rewrite (map_ext_in _ (fun _ => 2)).
  - rewrite zsum_const, length_zrange. unfold half_if_end.
    replace (1 =? 1) with true by lia. replace (n + 1 =? n + 1) with true by lia. rewrite orb_true_r. cbn [orb]. lia.
  - intros i Hi. apply in_zrange in Hi. unfold half_if_end.
    replace (i =? 1) with false by lia. replace (i =? n + 1) with false by lia. reflexivity.
Qed.

Lemma length_flat {T} (f : Z -> list T) l : Z.of_nat (length (flat_map f l)) = zsum (map (fun i => Z.of_nat (length (f i))) l).
Proof.
  induction l as [|a l IH]; [reflexivity|]. cbn [flat_map map zsum fold_right]. rewrite app_length.
  fold (zsum (map (fun i => Z.of_nat (length (f i))) l)). lia.
Qed.

Lemma length_for {T} a b c (f : Z -> list T) : a <= b + 1 -> (forall i, a <= i <= b -> Z.of_nat (length (f i)) = c) ->
  Z.of_nat (length (for_ a b f)) = (b - a + 1) * c.
Proof.
  intros Hab H. unfold for_. rewrite length_flat, (map_ext_in _ (fun _ => c)).
  - rewrite zsum_const, length_zrange. rewrite Z2Nat.id by lia. ring.
  - intros i Hi. apply in_zrange in Hi. apply H. lia.
Qed.

Section Rms.
Variables (nx ny nz : Z) (contract : bool) (P : Z).
Hypothesis Hx : 1 <= nx.
Hypothesis Hy : 1 <= ny.
Hypothesis Hz : 1 <= nz.
Hypothesis Hn : nx * ny * nz < 2 ^ 31.
Hypothesis HP : 1 <= P < 2 ^ 31.
Notation vox := (voxel nx ny nz).

Definition nodes : piece := mk_piece 0 1 (nx + 1) 1 (ny + 1) 1 (nz + 1).
Definition term (q : pt) : Z * Z := let '(_, x, y, z) := q in (node_weight nx ny nz x y z, vox x y z).

Lemma rms_pipes_perm lo : lo = 1 \/ lo = 2 ->
  Permutation (rms_pipes nx ny nz contract P lo)
    (map (fun q : pt => let '(_, x, y, z) := q in (8, vox x y z)) (piece_pts (mk_piece 0 lo nx lo ny lo nz))).
Proof.
  intros Hlo. pose proof (visits_map nx ny nz Hx Hy Hz contract P lo 0%nat (fun v => (8, v))
    (fun q : pt => let '(_, x, y, z) := q in (8, vox x y z)) Hlo Hn HP (fun _ _ _ => eq_refl)) as H.
  etransitivity; [|exact H]. unfold rms_pipes, visits_of.
  match goal with |- Permutation ?a ?b => assert (E : a = b); [|rewrite E; reflexivity] end.
  rewrite !flat_map_concat_map, concat_map, map_map. reflexivity.
Qed.

Lemma term_inj : NoDup (map term (piece_pts nodes)).
Proof.
  assert (H : forall q q', In q (piece_pts nodes) -> In q' (piece_pts nodes) -> term q = term q' -> q = q').
  { intros q q' Hq Hq' He. apply in_piece in Hq, Hq'. cbn in Hq, Hq'.
    destruct Hq as (x & y & z & -> & H1 & H2 & H3). destruct Hq' as (x' & y' & z' & -> & H4 & H5 & H6).
    cbn [term] in He. injection He as _ Hv.
    assert ((x, y, z) = (x', y', z')) by (apply (voxel_inj nx ny nz); try assumption; unfold in_mesh; lia).
    congruence. }
  revert H. generalize (nodup_piece nodes). generalize (piece_pts nodes). intros l Hl. 
  induction Hl as [|a l Ha Hl IH]; intros H; [constructor|]. cbn [map]. constructor.
  - intros Hc. apply in_map_iff in Hc. destruct Hc as (b & He & Hb).
    assert (b = a) by (apply H; [right; exact Hb|left; reflexivity|exact He]). subst. contradiction.
  - apply IH. intros q q' Hq Hq'. apply H; right; assumption.
Qed.

Lemma length_piece b : px0 b <= px1 b + 1 -> py0 b <= py1 b + 1 -> pz0 b <= pz1 b + 1 ->
  Z.of_nat (length (piece_pts b)) = (pz1 b - pz0 b + 1) * ((py1 b - py0 b + 1) * ((px1 b - px0 b + 1) * 1)).
Proof.
  intros h1 h2 h3. unfold piece_pts. repeat (apply length_for; [assumption|intros]). reflexivity.
Qed.

Lemma length_terms : Z.of_nat (length (rms_e_terms nx ny nz contract P)) = (nx + 1) * (ny + 1) * (nz + 1).
Proof.
  unfold rms_e_terms. rewrite app_length, Nat2Z.inj_add.
  rewrite (Permutation_length (rms_pipes_perm 2 (or_intror eq_refl))), map_length, length_piece by (cbn; lia).
  unfold rms_host. rewrite !app_length, !Nat2Z.inj_add.
  rewrite (length_for 2 ny ((nz - 1) * 2)) by (try lia; intros; rewrite (length_for 2 nz 2) by (try lia; reflexivity); lia).
  rewrite (length_for 2 nz ((nx - 1) * 2)) by (try lia; intros; rewrite (length_for 2 nx 2) by (try lia; reflexivity); lia).
  rewrite (length_for 2 nx ((ny - 1) * 2)) by (try lia; intros; rewrite (length_for 2 ny 2) by (try lia; reflexivity); lia).
  rewrite (length_for 2 nx 4) by (try lia; reflexivity).
  rewrite (length_for 2 ny 4) by (try lia; reflexivity).
  rewrite (length_for 2 nz 4) by (try lia; reflexivity).
  cbn [length px0 px1 py0 py1 pz0 pz1]. change (Z.of_nat 8) with 8. ring.
Qed.

Lemma he_end1 n : half_if_end n 1 = 1.
Proof. reflexivity. Qed.
Lemma he_end2 n : half_if_end n (n + 1) = 1.
Proof. unfold half_if_end. replace (n + 1 =? n + 1) with true by lia. rewrite orb_true_r. reflexivity. Qed.
Lemma he_mid n i : 2 <= i <= n -> half_if_end n i = 2.
Proof. intros H. unfold half_if_end. replace (i =? 1) with false by lia. replace (i =? n + 1) with false by lia. reflexivity. Qed.

Lemma terms_incl : incl (map term (piece_pts nodes)) (rms_e_terms nx ny nz contract P).
Proof.
  intros t Ht. apply in_map_iff in Ht. destruct Ht as (q & <- & Hq). apply in_piece in Hq. cbn in Hq.
  destruct Hq as (x & y & z & -> & H1 & H2 & H3). cbn [term]. unfold node_weight, rms_e_terms.
  assert (Cx : x = 1 \/ x = nx + 1 \/ 2 <= x <= nx) by lia.
  assert (Cy : y = 1 \/ y = ny + 1 \/ 2 <= y <= ny) by lia.
  assert (Cz : z = 1 \/ z = nz + 1 \/ 2 <= z <= nz) by lia.
  destruct (Z.eq_dec 0 0) as [_|]; [|lia].
  apply in_or_app.
  assert (Hmid : 2 <= x <= nx -> 2 <= y <= ny -> 2 <= z <= nz ->
    In (half_if_end nx x * half_if_end ny y * half_if_end nz z, vox x y z) (rms_pipes nx ny nz contract P 2)).
  { intros h1 h2 h3. apply (Permutation_in _ (Permutation_sym (rms_pipes_perm 2 (or_intror eq_refl)))).
    rewrite !he_mid by assumption. change (2 * 2 * 2) with 8. apply in_map_iff. exists (0%nat, x, y, z).
    split; [reflexivity|]. apply in_piece. exists x, y, z. cbn. auto. }
  destruct Cx as [->|[->|Cx]], Cy as [->|[->|Cy]], Cz as [->|[->|Cz]]; try (left; apply Hmid; assumption);
    right; rewrite ?he_end1, ?he_end2; rewrite ?he_mid by assumption; cbn [Z.mul Pos.mul Pos.add]; unfold rms_host;
    rewrite !in_app_iff;
    first
    [ do 6 right; cbn [In]; tauto
    | left; apply in_for; exists y; split; [lia|]; apply in_for; exists z; split; [lia|]; cbn [In]; tauto
    | right; left; apply in_for; exists z; split; [lia|]; apply in_for; exists x; split; [lia|]; cbn [In]; tauto
    | do 2 right; left; apply in_for; exists x; split; [lia|]; apply in_for; exists y; split; [lia|]; cbn [In]; tauto
    | do 3 right; left; apply in_for; exists x; split; [lia|]; cbn [In]; tauto
    | do 4 right; left; apply in_for; exists y; split; [lia|]; cbn [In]; tauto
    | do 5 right; left; apply in_for; exists z; split; [lia|]; cbn [In]; tauto ].
Qed.

Lemma terms_perm : Permutation (map term (piece_pts nodes)) (rms_e_terms nx ny nz contract P).
Proof.
  apply NoDup_Permutation_bis.
  - exact term_inj.
  - apply Nat2Z.inj_le. rewrite length_terms, map_length, length_piece by (cbn; lia). cbn. lia.
  - exact terms_incl.
Qed.

Lemma rms_e_once v w : (In (w, v) (rms_e_terms nx ny nz contract P) <->
  exists x y z, 1 <= x <= nx + 1 /\ 1 <= y <= ny + 1 /\ 1 <= z <= nz + 1 /\ v = vox x y z /\
    w = node_weight nx ny nz x y z).
Proof.
  split.
  - intros H. apply (Permutation_in _ (Permutation_sym terms_perm)) in H. apply in_map_iff in H.
    destruct H as (q & He & Hq). apply in_piece in Hq. cbn in Hq.
    destruct Hq as (x & y & z & -> & H1 & H2 & H3). cbn [term] in He. injection He as <- <-.
    exists x, y, z. auto.
  - intros (x & y & z & H1 & H2 & H3 & -> & ->). apply (Permutation_in _ terms_perm). apply in_map_iff.
    exists (0%nat, x, y, z). split; [reflexivity|]. apply in_piece. exists x, y, z. cbn. auto.
Qed.

Lemma rms_e_nodup : NoDup (map snd (rms_e_terms nx ny nz contract P)).
Proof.
  eapply Permutation_NoDup; [apply Permutation_map; exact terms_perm|].
  assert (H : forall t t', In t (map term (piece_pts nodes)) -> In t' (map term (piece_pts nodes)) -> snd t = snd t' -> t = t').
  { intros t t' Ht Ht' He. apply in_map_iff in Ht, Ht'. destruct Ht as (q & <- & Hq), Ht' as (q' & <- & Hq').
    apply in_piece in Hq, Hq'. cbn in Hq, Hq'.
    destruct Hq as (x & y & z & -> & H1 & H2 & H3). destruct Hq' as (x' & y' & z' & -> & H4 & H5 & H6).
    cbn [term snd] in He.
    assert ((x, y, z) = (x', y', z')) by (apply (voxel_inj nx ny nz); try assumption; unfold in_mesh; lia).
    congruence. }
  revert H. generalize term_inj. generalize (map term (piece_pts nodes)). intros l Hl.
  induction Hl as [|a l Ha Hl IH]; intros H; [constructor|]. cbn [map]. constructor.
  - intros Hc. apply in_map_iff in Hc. destruct Hc as (b & He & Hb).
    assert (b = a) by (apply H; [right; exact Hb|left; reflexivity|exact He]). subst. contradiction.
  - apply IH. intros q q' Hq Hq'. apply H; right; assumption.
Qed.

Lemma rms_e_total : zsum (map fst (rms_e_terms nx ny nz contract P)) = 8 * (nx * ny * nz).
Proof.
  rewrite <- (zsum_perm _ _ (Permutation_map fst terms_perm)). rewrite map_map.
  unfold piece_pts, nodes. cbn [px0 px1 py0 py1 pz0 pz1 pk].
  rewrite map_for. unfold for_ at 1. rewrite zsum_flat.
  transitivity (zsum (map (fun z => 4 * nx * ny * half_if_end nz z) (zrange 1 (nz + 1 + 1)))).
  - f_equal. apply map_ext. intros z. rewrite map_for. unfold for_ at 1. rewrite zsum_flat.
    transitivity (zsum (map (fun y => 2 * nx * half_if_end nz z * half_if_end ny y) (zrange 1 (ny + 1 + 1)))).
    + f_equal. apply map_ext. intros y. rewrite map_for. unfold for_. rewrite zsum_flat.
      transitivity (zsum (map (fun x => (half_if_end ny y * half_if_end nz z) * half_if_end nx x) (zrange 1 (nx + 1 + 1)))).
      * f_equal. apply map_ext. intros x. cbn [map term fst zsum fold_right]. unfold node_weight. ring.
      * rewrite zsum_scale, zsum_ends by exact Hx. ring.
    + rewrite zsum_scale, zsum_ends by exact Hy. ring.
  - rewrite zsum_scale, zsum_ends by exact Hz. ring.
Qed.

Lemma rms_b_once v w : (In (w, v) (rms_b_terms nx ny nz contract P) <->
  w = 8 /\ exists x y z, 1 <= x <= nx /\ 1 <= y <= ny /\ 1 <= z <= nz /\ v = vox x y z).
Proof.
  unfold rms_b_terms. pose proof (rms_pipes_perm 1 (or_introl eq_refl)) as HPm. split.
  - intros H. apply (Permutation_in _ HPm) in H. apply in_map_iff in H.
    destruct H as (q & He & Hq). apply in_piece in Hq. cbn in Hq.
    destruct Hq as (x & y & z & -> & H1 & H2 & H3). injection He as <- <-. split; [reflexivity|]. exists x, y, z. auto.
  - intros (-> & x & y & z & H1 & H2 & H3 & ->). apply (Permutation_in _ (Permutation_sym HPm)). apply in_map_iff.
    exists (0%nat, x, y, z). split; [reflexivity|]. apply in_piece. exists x, y, z. cbn. auto.
Qed.

Lemma rms_b_nodup : NoDup (map snd (rms_b_terms nx ny nz contract P)).
Proof.
  unfold rms_b_terms. eapply Permutation_NoDup; [apply Permutation_map; symmetry; apply (rms_pipes_perm 1 (or_introl eq_refl))|].
  rewrite map_map.
  assert (H : forall q q', In q (piece_pts (mk_piece 0 1 nx 1 ny 1 nz)) -> In q' (piece_pts (mk_piece 0 1 nx 1 ny 1 nz)) ->
     snd (let '(_, x, y, z) := q in (8, vox x y z)) = snd (let '(_, x, y, z) := q' in (8, vox x y z)) -> q = q').
  { intros q q' Hq Hq' He. apply in_piece in Hq, Hq'. cbn in Hq, Hq'.
    destruct Hq as (x & y & z & -> & H1 & H2 & H3). destruct Hq' as (x' & y' & z' & -> & H4 & H5 & H6).
    cbn [snd] in He.
    assert ((x, y, z) = (x', y', z')) by (apply (voxel_inj nx ny nz); try assumption; unfold in_mesh; lia).
    congruence. }
  revert H. generalize (nodup_piece (mk_piece 0 1 nx 1 ny 1 nz)). generalize (piece_pts (mk_piece 0 1 nx 1 ny 1 nz)). intros l Hl.
  induction Hl as [|a l Ha Hl IH]; intros H; [constructor|]. cbn [map]. constructor.
  - intros Hc. apply in_map_iff in Hc. destruct Hc as (b & He & Hb).
    assert (b = a) by (apply H; [right; exact Hb|left; reflexivity|exact He]). subst. contradiction.
  - apply IH. intros q q' Hq Hq'. apply H; right; assumption.
Qed.
End Rms.

Lemma rms_sum_perm t t' d : Permutation t t' -> rms_sum t d = rms_sum t' d.
Proof.
  induction 1; cbn [rms_sum fold_right] in *; unfold rms_sum in *; [reflexivity|f_equal; assumption|ring|congruence].
Qed.
