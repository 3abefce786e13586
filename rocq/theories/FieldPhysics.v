From Coq Require Import ZArith List Bool Reals Lia ZifyBool Lra Psatz Permutation.
From Verif Require Import DistributeModel VoxelModel VoxelProofs SortModel SortProofs SweepModel SweepProofs
  FieldModel FieldProofs FieldSpec FieldSweeps FieldBoundaryModel.
Import ListNotations.
Open Scope Z_scope.
Ltac Zify.zify_post_hook ::= idtac.

(* ---- local adjustments ---- *)
Section Adj.
Variable V : Type.
Variable zero : V.
Variable bc : face -> Z.
Variable ws : Z.
Notation adjust_all := (adjust_all V zero bc ws).

Lemma zap_notin ls F l : ~ In l ls -> zap V zero ls F l = F l.
Proof.
  intros H. unfold zap. apply (stores_notin _ _ _ floc_eqb_spec). rewrite map_map. cbn [fst]. rewrite map_id. exact H.
Qed.

Lemma zap_in ls F l : In l ls -> zap V zero ls F l = zero.
Proof.
  intros H. unfold zap. revert F. induction ls as [|a ls IH]; intros F; [destruct H|].
  cbn [map]. change (stores floc V floc_eqb ((a, zero) :: map (fun l => (l, zero)) ls) F l) with
    (stores floc V floc_eqb (map (fun l => (l, zero)) ls) (store floc V floc_eqb F a zero) l).
  destruct (in_dec (fun a b => reflect_dec _ _ (floc_eqb_spec a b)) l ls) as [Hin|Hn]; [apply IH; exact Hin|].
  destruct H as [->|H]; [|contradiction].
  rewrite (stores_notin _ _ _ floc_eqb_spec) by (rewrite map_map; cbn [fst]; rewrite map_id; exact Hn).
  unfold store. rewrite floc_eqb_refl. reflexivity.
Qed.

Lemma adjust_unchanged acts skips locs ss F F' l : adjust_all acts skips locs ss F = Some F' ->
  (forall s, In s ss -> In (bc s) acts -> ~ In l (locs s)) -> F' l = F l.
Proof.
  revert F. induction ss as [|s ss IH]; intros F H Hn; cbn in H; [injection H as <-; reflexivity|].
  unfold adjust_face in H. destruct ((0 <=? bc s) && (bc s <? ws)).
  - apply (IH F H). intros s' Hs'. apply Hn. right. exact Hs'.
  - destruct (existsb (Z.eqb (bc s)) acts) eqn:Ea.
    + rewrite (IH _ H) by (intros s' Hs'; apply Hn; right; exact Hs').
      apply zap_notin. apply Hn; [left; reflexivity|]. apply existsb_exists in Ea.
      destruct Ea as (b & Hb & He). apply Z.eqb_eq in He. subst. exact Hb.
    + destruct (existsb (Z.eqb (bc s)) skips); [|discriminate].
      apply (IH F H). intros s' Hs'. apply Hn. right. exact Hs'.
Qed.

Lemma adjust_keeps acts skips locs ss F F' l : adjust_all acts skips locs ss F = Some F' ->
  F l = zero -> F' l = zero.
Proof.
  revert F. induction ss as [|s ss IH]; intros F H Hz; cbn in H; [injection H as <-; exact Hz|].
  unfold adjust_face in H. destruct ((0 <=? bc s) && (bc s <? ws)); [apply (IH F H Hz)|].
  destruct (existsb (Z.eqb (bc s)) acts) eqn:Ea.
  - apply (IH _ H). destruct (in_dec (fun a b => reflect_dec _ _ (floc_eqb_spec a b)) l (locs s)) as [Hin|Hn].
    + apply zap_in. exact Hin.
    + rewrite zap_notin by exact Hn. exact Hz.
  - destruct (existsb (Z.eqb (bc s)) skips); [|discriminate]. apply (IH F H Hz).
Qed.

Lemma adjust_zeroes acts skips locs ss F F' l s : adjust_all acts skips locs ss F = Some F' ->
  In s ss -> In (bc s) acts -> bc s < 0 -> In l (locs s) -> F' l = zero.
Proof.
  revert F. induction ss as [|s' ss IH]; intros F H Hs Ha Hneg Hl; [destruct Hs|]. cbn in H.
  unfold adjust_face in H. destruct Hs as [->|Hs].
  - replace ((0 <=? bc s) && (bc s <? ws)) with false in H by lia.
    replace (existsb (Z.eqb (bc s)) acts) with true in H
      by (symmetry; apply existsb_exists; exists (bc s); split; [exact Ha|apply Z.eqb_refl]).
    eapply adjust_keeps; [exact H|]. apply zap_in. exact Hl.
  - destruct ((0 <=? bc s') && (bc s' <? ws)); [eapply IH; eassumption|].
    destruct (existsb (Z.eqb (bc s')) acts); [eapply IH; eassumption|].
    destruct (existsb (Z.eqb (bc s')) skips); [eapply IH; eassumption|discriminate].
Qed.
End Adj.

Lemma in_xyz {T} xl xh yl yh zl zh (body : Z -> Z -> Z -> list T) t :
  In t (xyz_loop xl xh yl yh zl zh body) <->
  exists x y z, xl <= x <= xh /\ yl <= y <= yh /\ zl <= z <= zh /\ In t (body x y z).
Proof.
  unfold xyz_loop. rewrite in_for. split.
  - intros (z & hz & H). apply in_for in H. destruct H as (y & hy & H). apply in_for in H.
    destruct H as (x & hx & H). exists x, y, z. auto.
  - intros (x & y & z & hx & hy & hz & H). exists z. split; [exact hz|]. apply in_for. exists y.
    split; [exact hy|]. apply in_for. exists x. auto.
Qed.

Section Phys.
Variables (nx ny nz : Z) (contract : bool) (P : Z).
Hypothesis Hx : 1 <= nx.
Hypothesis Hy : 1 <= ny.
Hypothesis Hz : 1 <= nz.
Hypothesis Hn : nx * ny * nz < 2 ^ 31.
Hypothesis HP : 1 <= P < 2 ^ 31.
Variable g : rgrid.
Hypothesis Hgx : gnx g = nx.
Hypothesis Hgy : gny g = ny.
Hypothesis Hgz : gnz g = nz.
Variable bc : face -> Z.
Variable ws : Z.

Notation vox := (voxel nx ny nz).
Notation at_ := (at_ R nx ny nz).
Notation div_b := (div_b R nx ny nz RA).

Lemma if_thick_scale n s a : if_thick n (s * a)%R = (s * if_thick n a)%R.
Proof. unfold if_thick. destruct (1 <? n); [reflexivity|ring]. Qed.

Ltac loc_cases H := unfold face_loop, yz_edge_loop, zy_edge_loop, node_loop in H;
  repeat match type of H with In _ (_ ++ _) => apply in_app_or in H; destruct H as [H|H] end;
  apply in_xyz in H; destruct H as (?x' & ?y' & ?z' & ?h1 & ?h2 & ?h3 & H); cbn [In cbn_ e_Y e_Z tca_Y tca_Z] in H;
  repeat match type of H with _ \/ _ => destruct H as [H|H] end; try contradiction;
  try discriminate H; injection H as H; apply (vox_ne nx ny nz Hx Hy) in H; try lia.

(* ---- C08 ---- *)
Lemma norm_b_kept F F' c x y z : adjust_norm_b R 0%R nx ny nz bc ws F = Some F' ->
  0 <= x <= nx + 1 -> 0 <= y <= ny + 1 -> 0 <= z <= nz + 1 ->
  (c = Cbx -> (x = 1 -> bc XM <> symmetric_fields) /\ (x = nx + 1 -> bc XP <> symmetric_fields)) ->
  (c = Cby -> (y = 1 -> bc YM <> symmetric_fields) /\ (y = ny + 1 -> bc YP <> symmetric_fields)) ->
  (c = Cbz -> (z = 1 -> bc ZM <> symmetric_fields) /\ (z = nz + 1 -> bc ZP <> symmetric_fields)) ->
  F' (c, vox x y z) = F (c, vox x y z).
Proof.
  intros H hx hy hz h1 h2 h3. eapply adjust_unchanged; [exact H|].
  intros s _ Hs Hl. cbn in Hs. destruct Hs as [Hs|[]].
  destruct s; unfold face_loop in Hl; apply in_xyz in Hl; destruct Hl as (x' & y' & z' & k1 & k2 & k3 & [Hl|[]]);
    cbn [cbn_] in Hl; injection Hl as <- Hl; apply (vox_ne nx ny nz Hx Hy) in Hl; try lia; destruct Hl as (-> & -> & ->).
  - apply (proj1 (h1 eq_refl)); [lia|congruence].
  - apply (proj1 (h2 eq_refl)); [lia|congruence].
  - apply (proj1 (h3 eq_refl)); [lia|congruence].
  - apply (proj2 (h1 eq_refl)); [lia|congruence].
  - apply (proj2 (h2 eq_refl)); [lia|congruence].
  - apply (proj2 (h3 eq_refl)); [lia|congruence].
Qed.

Lemma div_b_preserved mt frac m r1 r x y z :
  advance_b_run R RA mt (advance_b_coefs g frac) nx ny nz contract P m r1 ->
  adjust_norm_b R 0%R nx ny nz bc ws r1 = Some r ->
  1 <= x <= nx -> 1 <= y <= ny -> 1 <= z <= nz ->
  (x = 1 -> bc XM <> symmetric_fields) -> (x = nx -> bc XP <> symmetric_fields) ->
  (y = 1 -> bc YM <> symmetric_fields) -> (y = ny -> bc YP <> symmetric_fields) ->
  (z = 1 -> bc ZM <> symmetric_fields) -> (z = nz -> bc ZP <> symmetric_fields) ->
  div_b (div_coefs g) r x y z = div_b (div_coefs g) m x y z.
Proof.
  intros Hr Ha hx hy hz b1 b2 b3 b4 b5 b6.
  apply (advance_b_spec R RA mt _ nx ny nz contract P Hx Hy Hz Hn HP) in Hr.
  destruct Hr as (_ & [Hcx _] & [Hcy _] & [Hcz _]).
  unfold FieldSpec.div_b, FieldSpec.at_.
  rewrite !(norm_b_kept r1 r) by (first [exact Ha|lia|intros; discriminate|
    intros; split; intros; first [apply b1; lia|apply b2; lia|apply b3; lia|apply b4; lia|apply b5; lia|apply b6; lia|exfalso; lia]]).
  rewrite !Hcx, !Hcy, !Hcz by lia.
  unfold curl_e_x, curl_e_y, curl_e_z, FieldSpec.at_, advance_b_coefs, div_coefs, RA; cbn [px py pz cj damp a_add a_sub a_mul].
  rewrite !if_thick_scale. ring.
Qed.

(* ---- C10 ---- *)
Lemma tang_e_kept F F' c x y z : adjust_tang_e R 0%R nx ny nz bc ws F = Some F' ->
  0 <= x <= nx + 1 -> 0 <= y <= ny + 1 -> 0 <= z <= nz + 1 ->
  (c = Ex \/ c = Tcax -> 1 < y <= ny /\ 1 < z <= nz) ->
  (c = Ey \/ c = Tcay -> 1 < x <= nx /\ 1 < z <= nz) ->
  (c = Ez \/ c = Tcaz -> 1 < x <= nx /\ 1 < y <= ny) ->
  F' (c, vox x y z) = F (c, vox x y z).
Proof.
  intros H hx hy hz h1 h2 h3. eapply adjust_unchanged; [exact H|].
  intros s _ Hs Hl. cbn in Hs. destruct Hs as [Hs|[]].
  apply in_app_or in Hl.
  destruct s; destruct Hl as [Hl|Hl]; unfold yz_edge_loop, zy_edge_loop in Hl; apply in_xyz in Hl;
    destruct Hl as (x' & y' & z' & k1 & k2 & k3 & [Hl|[Hl|[]]]);
    cbn [e_Y e_Z tca_Y tca_Z] in Hl; injection Hl as <- Hl; apply (vox_ne nx ny nz Hx Hy) in Hl; try lia;
    destruct Hl as (-> & -> & ->);
    first [pose proof (h1 (or_introl eq_refl)) | pose proof (h1 (or_intror eq_refl)) |
           pose proof (h2 (or_introl eq_refl)) | pose proof (h2 (or_intror eq_refl)) |
           pose proof (h3 (or_introl eq_refl)) | pose proof (h3 (or_intror eq_refl))]; lia.
Qed.

Lemma tang_b_ghost_other G (m B : floc -> R) c v : ghost_list (ghost_tang_b nx ny nz) G -> with_ghosts G m B ->
  c <> Cbx -> c <> Cby -> c <> Cbz -> B (c, v) = m (c, v).
Proof.
  intros [_ HG] [_ HB] h1 h2 h3. apply HB. intros Hc. apply in_map_iff in Hc.
  destruct Hc as ([[c' v'] w] & He & Hin). cbn in He. injection He as -> ->.
  specialize (HG _ _ _ Hin). unfold ghost_tang_b in HG. intuition congruence.
Qed.

(* a lossless material: no conductivity, nonzero permittivity *)
Definition lossless (mt : mats R) : Prop := exists ml : Z -> material, forall i,
  mtab mt i = mat_coef g (ml i) /\ m_sigmax (ml i) = 0%R /\ m_sigmay (ml i) = 0%R /\ m_sigmaz (ml i) = 0%R /\
  m_epsx (ml i) <> 0%R /\ m_epsy (ml i) <> 0%R /\ m_epsz (ml i) <> 0%R.

Lemma mat_a_zero eps : mat_a g 0 eps = 0%R.
Proof. unfold mat_a, Rdiv. ring. Qed.
Lemma decay_zero : decay_of 0 = 1%R.
Proof. unfold decay_of. rewrite Ropp_0. apply exp_0. Qed.
Lemma drive_zero eps : drive_of 0 eps = (1 / eps)%R.
Proof. unfold drive_of. destruct (Req_EM_T 0 0); [reflexivity|congruence]. Qed.

Lemma lossless_coefs mt i : lossless mt ->
  decayx (mtab mt i) = 1%R /\ decayy (mtab mt i) = 1%R /\ decayz (mtab mt i) = 1%R /\
  (epsx (mtab mt i) * drivex (mtab mt i) = 1)%R /\ (epsy (mtab mt i) * drivey (mtab mt i) = 1)%R /\
  (epsz (mtab mt i) * drivez (mtab mt i) = 1)%R.
Proof.
  intros (ml & H). destruct (H i) as (-> & h1 & h2 & h3 & e1 & e2 & e3).
  unfold mat_coef. cbn. rewrite h1, h2, h3, !mat_a_zero, decay_zero, !drive_zero.
  repeat split; field; assumption.
Qed.

Lemma lossless_e e j t d1 d2 d3 dm c : d1 = 1%R -> (d3 * d2 = 1)%R ->
  (d3 * (d1 * e + d2 * (t - dm - c * j)) = d3 * e + (t - dm - c * j))%R.
Proof. intros -> H. transitivity (d3 * e + (d3 * d2) * (t - dm - c * j))%R; [ring|]. rewrite H. ring. Qed.

Lemma gauss_step mt dmp G m r1 r x y z :
  lossless mt ->
  ghost_list (ghost_tang_b nx ny nz) G ->
  advance_e_run R RA mt (advance_e_coefs g dmp) nx ny nz contract P G m r1 ->
  adjust_tang_e R 0%R nx ny nz bc ws r1 = Some r ->
  1 < x <= nx -> 1 < y <= ny -> 1 < z <= nz ->
  (div_d R nx ny nz RA mt (div_coefs g) r x y z =
   div_d R nx ny nz RA mt (div_coefs g) m x y z
   - dt g / eps0 g * div_node nx ny nz (div_coefs g) m Jfx Jfy Jfz x y z
   - dmp * div_node nx ny nz (div_coefs g) m Tcax Tcay Tcaz x y z)%R /\
  (div_node nx ny nz (div_coefs g) r Tcax Tcay Tcaz x y z =
   - dmp * div_node nx ny nz (div_coefs g) m Tcax Tcay Tcaz x y z)%R.
Proof.
  intros Hml HG Hr Ha hx hy hz.
  apply (advance_e_spec R RA mt _ nx ny nz contract P Hx Hy Hz Hn HP) in Hr; [|exact HG].
  destruct Hr as (B & HB & _ & [Htx _] & [Hty _] & [Htz _] & [Hex _] & [Hey _] & [Hez _]).
  pose proof (fun c v => tang_b_ghost_other G m B c v HG HB) as HBm.
  unfold div_d, div_node, dx_, dy_, dz_, FieldSpec.at_.
  rewrite !(tang_e_kept r1 r) by (first [exact Ha|lia|intros [?|?]; first [discriminate|lia]]).
  rewrite !Hex, !Hey, !Hez, !Htx, !Hty, !Htz by lia.
  unfold new_e, new_tca, FieldSpec.at_, mat.
  rewrite !(HBm Ex), !(HBm Ey), !(HBm Ez), !(HBm Tcax), !(HBm Tcay), !(HBm Tcaz), !(HBm Jfx), !(HBm Jfy), !(HBm Jfz) by discriminate.
  cbn [RA a_add a_sub a_mul].
  rewrite !lossless_e by (first [apply lossless_coefs; exact Hml | apply (lossless_coefs mt _ Hml)]).
  unfold curl_h_x, curl_h_y, curl_h_z, advance_e_coefs, div_coefs, RA; cbn [px py pz cj damp a_add a_sub a_mul].
  rewrite !if_thick_scale. split; ring.
Qed.
End Phys.
