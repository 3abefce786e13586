(* One step of the fields: what it does to the conserved form of the energy. *)
From Coq Require Import Reals ZArith List Bool Lia ZifyBool Lra.
From Verif Require Import SortModel SortProofs GridModel SweepModel FieldModel FieldBoundaryModel
  RemoteModel RemoteSpec RemoteProofs DecompSpec DecompProofs DecompSteps LocalModel LocalSpec LocalProofs WallSpec WallProofs ParticleSpec ParticleProofs YeeCalculus EnergySpec EnergySums.
Import ListNotations.
Open Scope Z_scope.
Ltac Zify.zify_post_hook ::= idtac.
Local Notation axis := RemoteModel.axis.
Local Notation AX := RemoteModel.AX.
Local Notation AY := RemoteModel.AY.
Local Notation AZ := RemoteModel.AZ.
Local Notation AT := RemoteModel.at_.
Local Notation put := RemoteModel.put.

Lemma node_e a b : node_on (e_ a) b = edge a b. Proof. destruct a, b; reflexivity. Qed.
Lemma node_b a b : node_on (cb a) b = face_ a b. Proof. destruct a, b; reflexivity. Qed.

Section Step.
Variable M : gmesh.
Variable gm : gmats R.
Variable K : lconst R.
Hypothesis Kneg : forall x, lc_neg K x = (- x)%R.
Hypothesis Kzero : lc_zero K = 0%R.
Hypothesis Mok : mesh_ok M.
Hypothesis Mrep : mats_repeat_on M gm.
Local Notation N := (gm_n M).
Lemma Np a : 1 <= N a. Proof. apply (proj1 Mok). Qed.

(* the mesh as a box of one rank *)
Definition L1 : layout R := mk_layout R (fun _ => 1) (gm_per M) (fun a _ => N a) (fun _ _ => 1%R).
Lemma L1_total a : total L1 a = N a. Proof. reflexivity. Qed.
Lemma L1_ok : layout_ok L1. Proof. split; intros; cbn; [lia|apply Np]. Qed.
Lemma L1_M a : total L1 a = N a /\ l_per L1 a = gm_per M a. Proof. split; reflexivity. Qed.
Lemma rep_L1 {T} (f : cell -> T) : mesh_repeats M f <-> repeats L1 f. Proof. split; intros H a g Ha; specialize (H a g Ha); exact H. Qed.
Definition repF (F : gfield R) : Prop := forall c, mesh_repeats M (F c).
Lemma repF_L1 F : repF F <-> field_repeats L1 F. Proof. split; intros H c; apply rep_L1, H. Qed.
Lemma mats_L1 : mats_repeat L1 gm.
Proof. destruct Mrep as (R1 & R2 & R3 & R4 & R5 & R6 & R7). repeat split; apply rep_L1; assumption. Qed.
Lemma step_rep F s : repF F -> (exists k, s = AdvanceB k \/ s = AdvanceE k) -> repF (g_step RA K M gm F s).
Proof.
  intros H (k & [-> | ->]); apply repF_L1; apply repF_L1 in H; unfold g_step; cbn [ghosts_needed].
  - apply (rep_within L1 M L1_M); [|exact H]. apply (rep_adjust K L1 M L1_M). apply rep_advance_b. exact H.
  - pose proof (rep_ghosts RA K L1 M L1_M GhostTangB F H) as H1. apply (rep_within L1 M L1_M); [|exact H1]. apply (rep_adjust K L1 M L1_M). apply rep_advance_e; [exact H1|exact mats_L1].
Qed.
Lemma inr_mesh c g : inr N (node_on c) g -> in_mesh_at M c g = true.
Proof.
  intros H. unfold in_mesh_at. apply forallb_forall. intros a _. specialize (H a). destruct (gm_per M a); [reflexivity|]. cbn [orb]. lia.
Qed.
Lemma inr_e a g : inr N (edge a) g -> inr N (node_on (e_ a)) g. Proof. intros H b. rewrite node_e. apply H. Qed.
Lemma inr_b a g : inr N (face_ a) g -> inr N (node_on (cb a)) g. Proof. intros H b. rewrite node_b. apply H. Qed.

(* ---- the B step ---- *)
Lemma pinned_ok k a g : existsb (fun d => negb (gm_per M (fst d)) && (AT (fst d) g =? rim M (fst d) (snd d)) && kept_zero (AdvanceB k : sweep R) (fst d) (cb a) (gm_bc M (fst d) (snd d))) all_faces = pinned M a g.
Proof.
  unfold pinned, all_faces, rim. destruct a; cbn [existsb fst snd kept_zero cb]; change (-1 =? -1) with true; change (1 =? -1) with false; cbv iota; rewrite ?andb_false_r, ?orb_false_r; cbn [orb];
    match goal with |- context [gm_per M ?x] => destruct (gm_per M x); cbn [negb andb orb]; try reflexivity end.
Qed.
Lemma adjust_none k a g c : (forall a', c <> cb a') -> existsb (fun d => negb (gm_per M (fst d)) && (AT (fst d) g =? rim M (fst d) (snd d)) && kept_zero (AdvanceB k : sweep R) (fst d) c (gm_bc M (fst d) (snd d))) a = false.
Proof.
  intros H. induction a as [|d l IH]; [reflexivity|]. cbn [existsb]. rewrite IH, orb_false_r. destruct d as [d t]; cbn [fst snd].
  assert (E : kept_zero (AdvanceB k : sweep R) d c (gm_bc M d t) = false); [|rewrite E; apply andb_false_r].
  pose proof (H AX); pose proof (H AY); pose proof (H AZ). destruct c; cbn in *; try congruence; reflexivity.
Qed.
Lemma adv_b_other k F c g : (forall a, c <> cb a) -> g_step RA K M gm F (AdvanceB k) c g = F c g.
Proof.
  intros H. unfold g_step. cbn [ghosts_needed g_sweep]. unfold g_within. destruct (in_mesh_at M c g); [|reflexivity]. unfold g_adjust. rewrite adjust_none by exact H.
  pose proof (H AX); pose proof (H AY); pose proof (H AZ). destruct c; cbn in *; try congruence; reflexivity.
Qed.
Lemma adv_b_in kb ke F a g : halved kb ke -> in_mesh_at M (cb a) g = true ->
  g_step RA K M gm F (AdvanceB kb) (cb a) g = if pinned M a g then 0%R else (F (cb a) g - half_turn M ke F a g)%R.
Proof.
  intros [Hk _] Hg. unfold g_step. cbn [ghosts_needed g_sweep]. unfold g_within. rewrite Hg. unfold g_adjust. rewrite pinned_ok, Kzero. unfold half_turn. destruct (pinned M a g) eqn:E; [reflexivity|].
  pose proof (Hk AX) as K1. pose proof (Hk AY) as K2. pose proof (Hk AZ) as K3. cbn [coef] in *.
  destruct a; cbn [g_advance_b cb next e_ coef RA a_add a_sub a_mul]; rewrite K1 || idtac; rewrite ?K2, ?K3; field.
Qed.
Lemma walls_pinned F a g : meets_walls M F -> in_mesh_at M (cb a) g = true -> pinned M a g = true -> F (cb a) g = 0%R.
Proof.
  intros H Hg Hp. unfold pinned in Hp. apply andb_prop in Hp. destruct Hp as [P1 P2]. apply negb_true_iff in P1. apply orb_prop in P2. destruct P2 as [P2|P2]; apply andb_prop in P2; destruct P2 as [P2 P3].
  - destruct (H a (-1) P1 ltac:(tauto)) as [_ X]. apply X; [lia|exact Hg|]. unfold rim. cbn. lia.
  - destruct (H a 1 P1 ltac:(tauto)) as [_ X]. apply X; [lia|exact Hg|]. unfold rim. cbn. lia.
Qed.
Lemma adv_b_val kb ke F a g : halved kb ke -> meets_walls M F -> in_mesh_at M (cb a) g = true -> g_step RA K M gm F (AdvanceB kb) (cb a) g = (F (cb a) g - half_turn M ke F a g)%R.
Proof.
  intros Hk Hw Hg. rewrite (adv_b_in kb ke) by assumption. destruct (pinned M a g) eqn:E; [|reflexivity]. rewrite (walls_pinned F a g Hw Hg E). unfold half_turn. rewrite E. lra.
Qed.
Lemma not_b_e a : forall a', e_ a <> cb a'. Proof. destruct a; intros []; discriminate. Qed.
Lemma adv_b_walls kb ke F : halved kb ke -> meets_walls M F -> meets_walls M (g_step RA K M gm F (AdvanceB kb)).
Proof.
  intros Hk Hw a t Hp Ht. split.
  - intros Hb b g Nb Hg Hr. rewrite adv_b_other by apply not_b_e. apply (proj1 (Hw a t Hp Ht) Hb b g Nb Hg Hr).
  - intros Hb g Hg Hr. rewrite (adv_b_in kb ke) by assumption.
    assert (E : pinned M a g = true); [|rewrite E; reflexivity]. unfold pinned. rewrite Hp. unfold rim in Hr. destruct Ht as [-> | ->]; cbn in Hr; lia.
Qed.

(* ---- the E step ---- *)
Definition shut (a : axis) (g : cell) : bool := (* on a conducting wall along a *)
  existsb (fun d => negb (axis_eqb (fst d) a) && negb (gm_per M (fst d)) && (AT (fst d) g =? rim M (fst d) (snd d)) && (gm_bc M (fst d) (snd d) =? -1)) all_faces.
Lemma shut_ok k a g : existsb (fun d => negb (gm_per M (fst d)) && (AT (fst d) g =? rim M (fst d) (snd d)) && kept_zero (AdvanceE k : sweep R) (fst d) (e_ a) (gm_bc M (fst d) (snd d))) all_faces = shut a g.
Proof.
  unfold shut. generalize all_faces. intros l. induction l as [|[d t] l IH]; [reflexivity|]. cbn [existsb fst snd]. rewrite IH. f_equal.
  destruct d, a; cbn [axis_eqb negb andb kept_zero e_]; rewrite ?andb_false_r; reflexivity.
Qed.
Section E.
Variable F : gfield R.
Local Notation G := (g_ghosts RA K M GhostTangB F).
Lemma ghosts_other c g : (forall a, c <> cb a) -> G c g = F c g.
Proof.
  intros H. unfold g_ghosts. destruct (find _ _) as [[a t]|] eqn:E; [|reflexivity]. apply find_some in E. destruct E as [_ E]. cbn [fst snd] in E.
  exfalso. pose proof (H AX); pose proof (H AY); pose proof (H AZ). destruct c; cbn in *; rewrite ?andb_false_r in E; cbn in E; congruence.
Qed.
Lemma ghosts_in a g : in_mesh_at M (cb a) g = true -> G (cb a) g = F (cb a) g.
Proof.
  intros H. unfold g_ghosts. destruct (find _ _) as [[b t]|] eqn:E; [|reflexivity]. apply find_some in E. destruct E as [Hin E]. cbn [fst snd] in E. exfalso.
  apply all_faces_sign in Hin. cbn [snd] in Hin. apply andb_prop in E. destruct E as [E E3]. apply andb_prop in E. destruct E as [E1 E2].
  unfold in_mesh_at in H. rewrite forallb_forall in H. specialize (H b ltac:(destruct b; cbn; tauto)). unfold past in E3.
  assert (node_on (cb a) b = false) as Q by (destruct a, b; cbn in E2 |- *; congruence). rewrite Q in H. apply negb_true_iff in E1. rewrite E1 in H. cbn [orb] in H. destruct Hin as [-> | ->]; cbn in E3; lia.
Qed.
Lemma ghosts_at a b t g : a <> b -> gm_per M b = false -> t = -1 \/ t = 1 -> gm_bc M b t <> -1 -> AT b g = past M b t -> (forall d, d <> a -> d <> b -> 1 <= AT d g <= N d) ->
  G (cb a) g = (- F (cb a) (put b (AT b g - t) g))%R.
Proof.
  intros Nab Hp Ht Hc Hg Hd. unfold g_ghosts. destruct (find _ _) as [[b' t']|] eqn:E.
  - apply find_some in E. destruct E as [Hin E]. cbn [fst snd] in E. apply all_faces_sign in Hin. cbn [snd] in Hin. apply andb_prop in E. destruct E as [E E3]. apply andb_prop in E. destruct E as [E1 E2].
    assert (b' = b) as ->.
    { destruct (axis_eq b' b) as [X|X]; [exact X|]. exfalso. assert (b' <> a) as Y by (intros ->; destruct a; cbn in E2; congruence). specialize (Hd b' Y X). unfold past in E3. destruct Hin as [-> | ->]; cbn in E3; lia. }
    assert (t' = t) as ->. { pose proof (Np b). unfold past in Hg, E3. destruct Hin as [-> | ->], Ht as [-> | ->]; cbn in Hg, E3; try reflexivity; lia. }
    unfold wall_value. replace (gm_bc M b t =? -1) with false by lia. pose proof (proj2 Mok b t Hp Ht). replace ((gm_bc M b t =? -2) || (gm_bc M b t =? -3)) with true by lia. apply Kneg.
  - exfalso. pose proof (find_none _ _ E (b, t) (all_faces_in b t Ht)) as X. cbn [fst snd] in X. rewrite Hp, Hg, Z.eqb_refl in X. destruct a, b; cbn in X; congruence.
Qed.
(* H beyond the walls included *)
Definition hh (a : axis) (g : cell) : R := (G (cb a) g * rmu_at gm a g)%R.
Lemma adv_e_in k a g : in_mesh_at M (e_ a) g = true -> damp k = 0%R ->
  g_step RA K M gm F (AdvanceE k) (e_ a) g = if shut a g then 0%R else
    (decay_at gm a g * F (e_ a) g + drive_at gm a g * (curl_dn (coef k) hh a g - cj k * F (jf a) g))%R.
Proof.
  intros Hg Hd. unfold g_step. cbn [ghosts_needed g_sweep]. unfold g_within. rewrite Hg. unfold g_adjust. rewrite shut_ok, Kzero. destruct (shut a g); [reflexivity|].
  assert (Q : forall a, (forall c, c = e_ a \/ c = jf a -> G c g = F c g)) by (intros d c Hc; apply ghosts_other; intros x; destruct Hc as [-> | ->]; destruct d, x; discriminate).
  destruct a; cbn [g_advance_e e_]; unfold g_e, g_tca; rewrite Hd; cbn [RA a_add a_sub a_mul]; unfold curl_dn, Db, hh; cbn [next cb coef]; unfold g_curl_x, g_curl_y, g_curl_z, g_hx, g_hy, g_hz, rmu_at, decay_at, drive_at; cbn [RA a_add a_sub a_mul jf].
  all: rewrite ?(Q AX Ex), ?(Q AY Ey), ?(Q AZ Ez), ?(Q AX Jfx), ?(Q AY Jfy), ?(Q AZ Jfz) by tauto; ring.
Qed.
Lemma adv_e_b k a g : in_mesh_at M (cb a) g = true -> g_step RA K M gm F (AdvanceE k) (cb a) g = F (cb a) g.
Proof.
  intros Hg. unfold g_step. cbn [ghosts_needed g_sweep]. unfold g_within. rewrite Hg. unfold g_adjust.
  assert (E : existsb (fun d => negb (gm_per M (fst d)) && (AT (fst d) g =? rim M (fst d) (snd d)) && kept_zero (AdvanceE k : sweep R) (fst d) (cb a) (gm_bc M (fst d) (snd d))) all_faces = false).
  { generalize all_faces. intros l. induction l as [|[d t] l IH]; [reflexivity|]. cbn [existsb fst snd]. rewrite IH. destruct d, a; cbn [kept_zero cb]; rewrite andb_false_r; reflexivity. }
  rewrite E. transitivity (G (cb a) g); [destruct a; reflexivity|]. apply ghosts_in. exact Hg.
Qed.
Lemma adv_e_j k a g : g_step RA K M gm F (AdvanceE k) (jf a) g = F (jf a) g.
Proof.
  transitivity (G (jf a) g); [|apply ghosts_other; destruct a; intros []; discriminate].
  unfold g_step. cbn [ghosts_needed g_sweep]. unfold g_within. destruct (in_mesh_at M (jf a) g); [|reflexivity]. unfold g_adjust.
  assert (E : existsb (fun d => negb (gm_per M (fst d)) && (AT (fst d) g =? rim M (fst d) (snd d)) && kept_zero (AdvanceE k : sweep R) (fst d) (jf a) (gm_bc M (fst d) (snd d))) all_faces = false).
  { generalize all_faces. intros l. induction l as [|[d t] l IH]; [reflexivity|]. cbn [existsb fst snd]. rewrite IH. destruct d, a; cbn [kept_zero jf]; rewrite andb_false_r; reflexivity. }
  rewrite E. destruct a; reflexivity.
Qed.
Lemma shut_at a b t g : b <> a -> gm_per M b = false -> t = -1 \/ t = 1 -> gm_bc M b t = -1 -> AT b g = rim M b t -> shut a g = true.
Proof.
  intros Nb Hp Ht Hc Hr. unfold shut. apply existsb_exists. exists (b, t). split; [apply all_faces_in; exact Ht|]. cbn [fst snd]. rewrite Hp, Hc, Hr, !Z.eqb_refl. destruct a, b; try congruence; reflexivity.
Qed.
Lemma shut_zero a g : meets_walls M F -> in_mesh_at M (e_ a) g = true -> shut a g = true -> F (e_ a) g = 0%R.
Proof.
  intros Hw Hg Hs. unfold shut in Hs. apply existsb_exists in Hs. destruct Hs as ([b t] & Hin & Hs). apply all_faces_sign in Hin. cbn [fst snd] in *.
  apply andb_prop in Hs. destruct Hs as [Hs S4]. apply andb_prop in Hs. destruct Hs as [Hs S3']. apply andb_prop in Hs. destruct Hs as [S1 S2]. apply negb_true_iff in S1, S2.
  apply (proj1 (Hw b t S2 Hin)); [lia| |exact Hg|lia]. intros ->. destruct b; cbn in S1; congruence.
Qed.
Lemma adv_e_walls k : damp k = 0%R -> meets_walls M F -> meets_walls M (g_step RA K M gm F (AdvanceE k)).
Proof.
  intros Hd Hw a t Hp Ht. split.
  - intros Hb b g Nb Hg Hr. rewrite adv_e_in by assumption. rewrite (shut_at b a t g) by (auto; congruence). reflexivity.
  - intros Hb g Hg Hr. rewrite adv_e_b by exact Hg. apply (proj2 (Hw a t Hp Ht) Hb g Hg Hr).
Qed.
End E.

(* ---- repeating ---- *)
Lemma eps_rep a : mesh_repeats M (eps_at gm a).
Proof. destruct Mrep as (R1 & R2 & R3 & _). intros d g Hd. destruct a; unfold eps_at, gmat; rewrite ?(R1 d g Hd), ?(R2 d g Hd), ?(R3 d g Hd); reflexivity. Qed.
Lemma rmu_rep a : mesh_repeats M (rmu_at gm a).
Proof. destruct Mrep as (_ & _ & _ & _ & R1 & R2 & R3). intros d g Hd. destruct a; unfold rmu_at, gmat; rewrite ?(R1 d g Hd), ?(R2 d g Hd), ?(R3 d g Hd); reflexivity. Qed.
Lemma up_far d b g n : up b (put d (AT d g + n) g) = put d (AT d (up b g) + n) (up b g).
Proof. destruct g as [[x y] z], d, b; cbn; apply (f_equal2 pair); try apply (f_equal2 pair); lia. Qed.
Lemma dn_far d b g n : dn b (put d (AT d g + n) g) = put d (AT d (dn b g) + n) (dn b g).
Proof. destruct g as [[x y] z], d, b; cbn; apply (f_equal2 pair); try apply (f_equal2 pair); lia. Qed.
Lemma put_back b u v g : AT b g = v -> put b v (put b u g) = g.
Proof. destruct g as [[x y] z], b; cbn; intros <-; reflexivity. Qed.
Lemma pinned_rep a : mesh_repeats M (pinned M a).
Proof.
  intros d g Hd. unfold pinned. destruct (axis_eq a d) as [-> |X]; [rewrite Hd; reflexivity|]. rewrite at_put_other by exact X. reflexivity.
Qed.
Lemma half_rep k F a : repF F -> mesh_repeats M (half_turn M k F a).
Proof. intros HF d g Hd. unfold half_turn. rewrite (pinned_rep a d g Hd). destruct (pinned M a g); [reflexivity|]. rewrite !up_far, !(HF _ d _ Hd). reflexivity. Qed.
Lemma total_e f a : mesh_repeats M f -> total_over M (e_ a) f = S3 N (edge a) f.
Proof. intros H. rewrite (total_S3 M (e_ a) f Np H). apply S3_kind. apply node_e. Qed.
Lemma total_b f a : mesh_repeats M f -> total_over M (cb a) f = S3 N (face_ a) f.
Proof. intros H. rewrite (total_S3 M (cb a) f Np H). apply S3_kind. apply node_b. Qed.
Lemma e_energy_S3 F a : repF F -> e_energy M gm F a = S3 N (edge a) (fun g => eps_at gm a g * (F (e_ a) g * F (e_ a) g))%R.
Proof. intros HF. apply total_e. intros d g Hd. rewrite (eps_rep a d g Hd), !(HF _ d g Hd). reflexivity. Qed.
Lemma b_energy_S3 F a : repF F -> b_energy M gm F a = S3 N (face_ a) (fun g => rmu_at gm a g * (F (cb a) g * F (cb a) g))%R.
Proof. intros HF. apply total_b. intros d g Hd. rewrite (rmu_rep a d g Hd), !(HF _ d g Hd). reflexivity. Qed.
Lemma kept_S3 k F : repF F -> kept M gm k F = (sum3 (fun a => S3 N (edge a) (fun g => eps_at gm a g * (F (e_ a) g * F (e_ a) g))) +
  sum3 (fun a => S3 N (face_ a) (fun g => rmu_at gm a g * ((F (cb a) g + half_turn M k F a g) * (F (cb a) g - half_turn M k F a g)))))%R.
Proof.
  intros HF. unfold kept, xyz, sum3. rewrite !e_energy_S3 by exact HF.
  assert (Q : forall a, mesh_repeats M (fun g => rmu_at gm a g * ((F (cb a) g + half_turn M k F a g) * (F (cb a) g - half_turn M k F a g)))%R).
  { intros a d g Hd. rewrite (rmu_rep a d g Hd), (HF _ d g Hd), (half_rep k F a HF d g Hd). reflexivity. }
  rewrite !total_b; [reflexivity|apply Q..].
Qed.
Lemma closed_by b (k : axis -> bool) (T : cell -> R) : (gm_per M b = true -> forall g, T (put b (AT b g + N b) g) = T g) ->
  (gm_per M b = false -> forall t g, t = -1 \/ t = 1 -> (forall d, d <> b -> 1 <= AT d g <= N d + (if k d then 1 else 0)) -> AT b g = rim M b t -> T g = 0%R) -> closed N b k T.
Proof.
  intros Hp Hw g Hg H1. destruct (gm_per M b) eqn:E.
  - replace (N b + 1) with (AT b g + N b) by lia. apply Hp; reflexivity.
  - rewrite (Hw eq_refl (-1) g); [|tauto|intros d _; apply Hg|unfold rim; cbn; lia].
    apply (Hw eq_refl 1); [tauto| |unfold rim; cbn; rewrite at_put_same; lia]. intros d Hd. rewrite at_put_other by exact Hd. apply Hg.
Qed.
Hypothesis Mmir : mirrored M gm.
Hypothesis Mloss : lossless M gm.
Section Work.
Variables kb ke : coefs R.
Hypothesis Hk : halved kb ke.
Variable F : gfield R.
Hypothesis HF : repF F.
Hypothesis HW : meets_walls M F.
Let F1 := g_step RA K M gm F (AdvanceB kb).
Let F2 := g_step RA K M gm F1 (AdvanceE ke).
Let F3 := g_step RA K M gm F2 (AdvanceB kb).
Lemma r1 : repF F1. Proof. apply step_rep; [exact HF|exists kb; tauto]. Qed.
Lemma r2 : repF F2. Proof. apply step_rep; [exact r1|exists ke; tauto]. Qed.
Lemma r3 : repF F3. Proof. apply step_rep; [exact r2|exists kb; tauto]. Qed.
Lemma w1 : meets_walls M F1. Proof. apply (adv_b_walls kb ke); assumption. Qed.
Lemma w2 : meets_walls M F2. Proof. apply adv_e_walls; [apply Hk|exact w1]. Qed.
Lemma w3 : meets_walls M F3. Proof. apply (adv_b_walls kb ke); [exact Hk|exact w2]. Qed.
Lemma E1 a g : F1 (e_ a) g = F (e_ a) g. Proof. apply adv_b_other, not_b_e. Qed.
Lemma E3 a g : F3 (e_ a) g = F2 (e_ a) g. Proof. apply adv_b_other, not_b_e. Qed.
Lemma j1 a g : F1 (jf a) g = F (jf a) g. Proof. apply adv_b_other. destruct a; intros []; discriminate. Qed.
Lemma j3 a g : F3 (jf a) g = F (jf a) g. Proof. transitivity (F2 (jf a) g); [apply adv_b_other; destruct a; intros []; discriminate|]. transitivity (F1 (jf a) g); [apply adv_e_j|apply j1]. Qed.
Lemma half3 a g : half_turn M ke F3 a g = half_turn M ke F2 a g.
Proof. unfold half_turn. rewrite !E3. reflexivity. Qed.
Let ee (a : axis) (g : cell) : R := (F (e_ a) g + F2 (e_ a) g)%R.
Lemma hh_rep a : mesh_repeats M (hh F1 a).
Proof.
  intros d g Hd. unfold hh. rewrite (rmu_rep a d g Hd). f_equal. pose proof (rep_ghosts RA K L1 M L1_M GhostTangB F1 (proj1 (repF_L1 F1) r1)) as Q. exact (Q (cb a) d g Hd).
Qed.
Lemma adj_closed a b c : b <> a -> c <> a -> c <> b -> closed N b (face_ a) (fun g => (ee c g * (hh F1 a g + hh F1 a (dn b g)) / 2)%R).
Proof.
  intros Nb Nc Ncb. apply closed_by.
  - intros Hp g. unfold ee. rewrite dn_far, !(HF _ b g Hp), !(r2 _ b g Hp), !(hh_rep a b _ Hp). reflexivity.
  - intros Hp t g Ht Hd Hr.
    assert (Hc : in_mesh_at M (e_ c) g = true).
    { apply inr_mesh, inr_e. intros d. destruct (axis_eq d b) as [-> |X].
      - rewrite Hr. unfold rim. pose proof (Np b). destruct c, b; try congruence; destruct Ht as [-> | ->]; cbn; lia.
      - specialize (Hd d X). destruct a, b, c, d; cbn in Hd |- *; try congruence; lia. }
    destruct (Z.eq_dec (gm_bc M b t) (-1)) as [C|C].
    + unfold ee. rewrite (proj1 (HW b t Hp Ht) C c g Ncb Hc Hr), (proj1 (w2 b t Hp Ht) C c g Ncb Hc Hr). lra.
    + assert (Z0 : (hh F1 a g + hh F1 a (dn b g))%R = 0%R); [|rewrite Z0; lra].
      assert (Q : forall g', AT b g' = past M b t -> (forall d, d <> b -> AT d g' = AT d g) -> hh F1 a g' = (- hh F1 a (put b (AT b g' - t) g'))%R).
      { intros g' Hg' Ho. unfold hh. rewrite (Mmir a b t g' ltac:(congruence) Hp Ht C Hg').
        rewrite (ghosts_at F1 a b t g' ltac:(congruence) Hp Ht C Hg').
        - rewrite ghosts_in; [ring|]. apply inr_mesh, inr_b. intros d. pose proof (Np b). destruct (axis_eq d b) as [-> |X].
          + rewrite at_put_same, Hg'. unfold past. destruct a, b; try congruence; destruct Ht as [-> | ->]; cbn; lia.
          + rewrite at_put_other, Ho by exact X. apply Hd. exact X.
        - intros d Da Db. rewrite Ho by exact Db. specialize (Hd d Db). destruct a, d; cbn in Hd; try congruence; lia. }
      destruct Ht as [-> | ->].
      * rewrite (Q (dn b g)).
        -- replace (put b (AT b (dn b g) - -1) (dn b g)) with g; [ring|]. destruct g as [[x y] z], b; cbn; apply (f_equal2 pair); try apply (f_equal2 pair); lia.
        -- unfold dn. rewrite at_put_same, Hr. reflexivity.
        -- intros d X. unfold dn. apply at_put_other. exact X.
      * rewrite (Q g); [unfold dn; ring|rewrite Hr; reflexivity|reflexivity].
Qed.
Lemma face_part a g : inr N (face_ a) g ->
  (rmu_at gm a g * ((F3 (cb a) g + half_turn M ke F3 a g) * (F3 (cb a) g - half_turn M ke F3 a g)) - rmu_at gm a g * ((F (cb a) g + half_turn M ke F a g) * (F (cb a) g - half_turn M ke F a g)) =
   - (hh F1 a g * curl_up (coef ke) ee a g))%R.
Proof.
  intros Hg. assert (Hm : in_mesh_at M (cb a) g = true) by (apply inr_mesh, inr_b, Hg).
  assert (V1 : F1 (cb a) g = (F (cb a) g - half_turn M ke F a g)%R) by (apply (adv_b_val kb); assumption).
  assert (V2 : F2 (cb a) g = F1 (cb a) g) by (apply adv_e_b; exact Hm).
  assert (V3 : F3 (cb a) g = (F2 (cb a) g - half_turn M ke F2 a g)%R) by (apply (adv_b_val kb); [exact Hk|exact w2|exact Hm]).
  rewrite half3, V3, V2. unfold hh. rewrite (ghosts_in F1 a g Hm).
  assert (P : (F1 (cb a) g * (2 * (half_turn M ke F a g + half_turn M ke F2 a g)) = F1 (cb a) g * curl_up (coef ke) ee a g)%R).
  { destruct (pinned M a g) eqn:Ep.
    - assert (F1 (cb a) g = 0%R) as ->; [|ring]. unfold F1. rewrite (adv_b_in kb ke) by assumption. rewrite Ep. reflexivity.
    - f_equal. unfold half_turn. rewrite Ep. unfold curl_up, Du, ee. field. }
  transitivity (- rmu_at gm a g * (F1 (cb a) g * (2 * (half_turn M ke F a g + half_turn M ke F2 a g))))%R; [|rewrite P; ring].
  rewrite V1. ring.
Qed.
Lemma edge_part a g : inr N (edge a) g ->
  (eps_at gm a g * (F3 (e_ a) g * F3 (e_ a) g) - eps_at gm a g * (F (e_ a) g * F (e_ a) g) = ee a g * curl_dn (coef ke) (hh F1) a g - cj ke * (F (jf a) g * ee a g))%R.
Proof.
  intros Hg. assert (Hm : in_mesh_at M (e_ a) g = true) by (apply inr_mesh, inr_e, Hg). rewrite E3.
  destruct (Mloss a g Hm) as [D1 D2]. unfold ee.
  assert (V : F2 (e_ a) g = if shut a g then 0%R else (F (e_ a) g + drive_at gm a g * (curl_dn (coef ke) (hh F1) a g - cj ke * F (jf a) g))%R).
  { unfold F2. rewrite (adv_e_in F1 ke a g Hm (proj2 Hk)). rewrite D1, E1, j1. destruct (shut a g); [reflexivity|ring]. }
  destruct (shut a g) eqn:S.
  - rewrite V, (shut_zero F a g HW Hm S). ring.
  - replace (eps_at gm a g * (F2 (e_ a) g * F2 (e_ a) g) - eps_at gm a g * (F (e_ a) g * F (e_ a) g))%R with ((eps_at gm a g * (F2 (e_ a) g - F (e_ a) g)) * (F (e_ a) g + F2 (e_ a) g))%R by ring.
    replace (eps_at gm a g * (F2 (e_ a) g - F (e_ a) g))%R with (curl_dn (coef ke) (hh F1) a g - cj ke * F (jf a) g)%R; [ring|].
    rewrite V. transitivity ((drive_at gm a g * eps_at gm a g) * (curl_dn (coef ke) (hh F1) a g - cj ke * F (jf a) g))%R; [rewrite D2; ring|ring].
Qed.
Lemma work_done : (kept M gm ke F3 - kept M gm ke F = - cj ke * work M F F3)%R.
Proof.
  rewrite (kept_S3 ke F3 r3), (kept_S3 ke F HF).
  assert (W : work M F F3 = sum3 (fun a => S3 N (edge a) (fun g => F (jf a) g * ee a g))%R).
  { unfold work, xyz, sum3. rewrite !total_e; [|intros d g Hd; rewrite !(HF _ d g Hd), (r3 _ d g Hd); reflexivity..].
    repeat (f_equal; try (apply S3_ext; intros g _; rewrite E3; reflexivity)). }
  pose proof (curl_adjoint N Np (coef ke) (hh F1) ee (fun a b Nb c Nc Ncb => adj_closed a b c Nb Nc Ncb)) as A.
  assert (P : forall a, (S3 N (face_ a) (fun g => rmu_at gm a g * ((F3 (cb a) g + half_turn M ke F3 a g) * (F3 (cb a) g - half_turn M ke F3 a g))) -
     S3 N (face_ a) (fun g => rmu_at gm a g * ((F (cb a) g + half_turn M ke F a g) * (F (cb a) g - half_turn M ke F a g))) = - S3 N (face_ a) (fun g => hh F1 a g * curl_up (coef ke) ee a g))%R).
  { intros a. rewrite <- S3_sub. transitivity (S3 N (face_ a) (fun g => (-1) * (hh F1 a g * curl_up (coef ke) ee a g))%R); [apply S3_ext; intros g Hg; rewrite face_part by exact Hg; ring|]. rewrite S3_scale. ring. }
  assert (Q : forall a, (S3 N (edge a) (fun g => eps_at gm a g * (F3 (e_ a) g * F3 (e_ a) g)) - S3 N (edge a) (fun g => eps_at gm a g * (F (e_ a) g * F (e_ a) g)) =
     S3 N (edge a) (fun g => ee a g * curl_dn (coef ke) (hh F1) a g) - cj ke * S3 N (edge a) (fun g => F (jf a) g * ee a g))%R).
  { intros a. rewrite <- S3_scale, <- !S3_sub. apply S3_ext. intros g Hg. apply edge_part. exact Hg. }
  rewrite W. unfold sum3 in *. pose proof (P AX). pose proof (P AY). pose proof (P AZ). pose proof (Q AX). pose proof (Q AY). pose proof (Q AZ). lra.
Qed.
End Work.

(* ---- the conserved form bounds the energy ---- *)
Section Bound.
Variable k : coefs R.
Variables m0 m1 : R.
Hypothesis Hm0 : (0 < m0)%R.
Hypothesis Heps : forall a g, in_mesh_at M (e_ a) g = true -> (m0 <= eps_at gm a g)%R.
Hypothesis Hrmu : forall a g, in_mesh_at M (cb a) g = true -> (0 <= rmu_at gm a g <= m1)%R.
Variable F : gfield R.
Hypothesis HF : repF F.
Hypothesis HW : meets_walls M F.
Local Notation theta := (m1 / m0 * (px k * px k + py k * py k + pz k * pz k))%R.
(* E beyond the walls across its own axis: mirrored by conductors, reversed by the others *)
Let sg (b : Z) : R := if b =? -1 then 1%R else (-1)%R.
Definition XE (a : axis) (g : cell) : R :=
  if gm_per M a then F (e_ a) g else if AT a g =? 0 then (sg (gm_bc M a (-1)) * F (e_ a) (put a 1 g))%R else if AT a g =? N a + 1 then (sg (gm_bc M a 1) * F (e_ a) (put a (N a) g))%R else F (e_ a) g.
Lemma XE_in a g : 1 <= AT a g <= N a -> XE a g = F (e_ a) g.
Proof. intros H. unfold XE. destruct (gm_per M a); [reflexivity|]. replace (AT a g =? 0) with false by lia. replace (AT a g =? N a + 1) with false by lia. reflexivity. Qed.
Lemma XE_rep a : mesh_repeats M (XE a).
Proof.
  intros d g Hd. unfold XE. destruct (axis_eq d a) as [-> |X]; [rewrite Hd; apply HF; exact Hd|]. rewrite at_put_other by congruence.
  assert (Q : forall v, F (e_ a) (put a v (put d (AT d g + N d) g)) = F (e_ a) (put a v g)).
  { intros v. rewrite (put_swap a d) by congruence. rewrite <- (HF (e_ a) d (put a v g) Hd). rewrite at_put_other by exact X. reflexivity. }
  rewrite !Q, (HF (e_ a) d g Hd). reflexivity.
Qed.
Lemma XE_zero a b t g : b <> a -> gm_per M b = false -> t = -1 \/ t = 1 -> gm_bc M b t = -1 -> AT b g = rim M b t -> 0 <= AT a g <= N a + 1 ->
  (gm_per M a = false \/ 1 <= AT a g <= N a) -> (forall d, d <> a -> d <> b -> 1 <= AT d g <= N d + 1) -> XE a g = 0%R.
Proof.
  intros Nb Hp Ht Hc Hr Ha Hpa Hd.
  assert (Q : forall v, 1 <= v <= N a -> F (e_ a) (put a v g) = 0%R).
  { intros v Hv. apply (proj1 (HW b t Hp Ht) Hc a); [congruence| |rewrite at_put_other by exact Nb; exact Hr]. apply inr_mesh, inr_e. intros d. pose proof (Np b). destruct (axis_eq d a) as [-> |X].
    - rewrite at_put_same. destruct a; cbn; lia.
    - rewrite at_put_other by exact X. destruct (axis_eq d b) as [-> |Y]; [rewrite Hr; unfold rim; destruct Ht as [-> | ->], a, b; cbn; try congruence; lia|]. specialize (Hd d X Y). destruct a, d; cbn; try congruence; lia. }
  assert (Q' : 1 <= AT a g <= N a -> F (e_ a) g = 0%R). { intros Hv. rewrite <- (Q (AT a g) Hv). f_equal. destruct g as [[x y] z], a; reflexivity. }
  pose proof (Np a). unfold XE. destruct (gm_per M a) eqn:Pa; [apply Q'; intuition discriminate|]. destruct (AT a g =? 0) eqn:A0; [rewrite Q by lia; ring|]. destruct (AT a g =? N a + 1) eqn:A1; [rewrite Q by lia; ring|]. apply Q'. lia.
Qed.
Lemma XE_wall a t g : gm_per M a = false -> t = -1 \/ t = 1 -> AT a g = rim M a t -> XE a (if t =? -1 then dn a g else g) = (sg (gm_bc M a t) * XE a (if t =? -1 then g else dn a g))%R.
Proof.
  intros Hp Ht Hr. unfold rim in Hr. pose proof (Np a). unfold XE. rewrite Hp. destruct Ht as [-> | ->]; [change (-1 =? -1) with true in *|change (1 =? -1) with false in *]; cbv iota in *.
  - unfold dn. rewrite at_put_same, Hr. change (1 - 1 =? 0) with true. change (1 =? 0) with false. replace (1 =? N a + 1) with false by lia. cbv iota. f_equal. f_equal. destruct g as [[x y] z], a; cbn in *; subst; reflexivity.
  - unfold dn. rewrite !at_put_same, Hr. replace (N a + 1 =? 0) with false by lia. replace (N a + 1 =? N a + 1) with true by lia. replace (N a + 1 - 1) with (N a) by lia. replace (N a =? 0) with false by lia. replace (N a =? N a + 1) with false by lia. reflexivity.
Qed.
Lemma XE_anti a t g : gm_per M a = false -> t = -1 \/ t = 1 -> gm_bc M a t <> -1 -> AT a g = rim M a t -> (XE a g + XE a (dn a g))%R = 0%R.
Proof.
  intros Hp Ht Hc Hr. pose proof (XE_wall a t g Hp Ht Hr) as X. unfold sg in X. replace (gm_bc M a t =? -1) with false in X by lia. destruct Ht as [-> | ->]; cbn in X; rewrite X; ring.
Qed.
Lemma XE_sq a t g : gm_per M a = false -> t = -1 \/ t = 1 -> AT a g = rim M a t -> (XE a g * XE a g - XE a (dn a g) * XE a (dn a g))%R = 0%R.
Proof.
  intros Hp Ht Hr. pose proof (XE_wall a t g Hp Ht Hr) as X. unfold sg in X. destruct (gm_bc M a t =? -1), Ht as [-> | ->]; cbn in X; rewrite X; ring.
Qed.
Lemma XE_curl : (sum3 (fun a => S3 N (face_ a) (fun g => curl_up (coef k) XE a g * curl_up (coef k) XE a g)) <=
  4 * (px k * px k + py k * py k + pz k * pz k) * sum3 (fun a => S3 N (edge a) (fun g => XE a g * XE a g)))%R.
Proof.
  apply (curl_bound N Np (coef k) XE).
  - intros a b c Nb Nc Ncb. apply closed_by.
    + intros Hp g. unfold Du. rewrite dn_far, !up_far, !(XE_rep _ b _ Hp). reflexivity.
    + intros Hp t g Ht Hd Hr. destruct (Z.eq_dec (gm_bc M b t) (-1)) as [C|C].
      * assert (Rc : 1 <= AT c g <= N c) by (pose proof (Hd c ltac:(congruence)) as Q; destruct a, c; cbn in Q; try congruence; lia).
        rewrite (XE_zero c b t g ltac:(congruence) Hp Ht C Hr ltac:(lia) (or_intror Rc)); [lra|]. intros d D1 D2. specialize (Hd d D2). destruct (face_ a d); lia.
      * unfold Du. rewrite (up_dn_comm c b g) by congruence. pose proof (XE_anti b t g Hp Ht C Hr) as A1. pose proof (XE_anti b t (up c g) Hp Ht C) as A2. unfold up at 1 in A2. rewrite at_put_other in A2 by congruence. specialize (A2 Hr).
        assert (Z0 : (XE b (up c g) - XE b g + (XE b (dn b (up c g)) - XE b (dn b g)))%R = 0%R) by lra. rewrite Z0. lra.
  - intros b c Nc. apply closed_by.
    + intros Hp g. unfold Db. rewrite !dn_far, !(XE_rep _ c _ Hp). reflexivity.
    + intros Hp t g Ht Hd Hr. destruct (Z.eq_dec (gm_bc M c t) (-1)) as [C|C].
      * assert (Z0 : Db b (XE b) g = 0%R); [|rewrite Z0; lra]. unfold Db.
        pose proof (Hd b ltac:(congruence)) as Rb. assert (edge c b = true) as E by (destruct b, c; cbn; congruence). rewrite E in Rb.
        assert (Ro : forall d, d <> b -> d <> c -> 1 <= AT d g <= N d + 1) by (intros d D1 D2; specialize (Hd d D2); destruct (edge c d); lia).
        assert (Dn : forall d, d <> b -> AT d (dn b g) = AT d g) by (intros d D; unfold dn; apply at_put_other; exact D). assert (Db' : AT b (dn b g) = AT b g - 1) by (unfold dn; apply at_put_same).
        destruct (gm_per M b) eqn:Pb.
        -- (* shift the places outside back into the mesh *)
           assert (Z1 : forall g', AT c g' = rim M c t -> 0 <= AT b g' <= N b + 1 -> (forall d, d <> b -> d <> c -> 1 <= AT d g' <= N d + 1) -> XE b g' = 0%R).
           { intros g' Hr' Rb' Ro'. pose proof (Np b) as Pn.
             assert (Z2 : forall h, AT c h = rim M c t -> 1 <= AT b h <= N b -> (forall d, d <> b -> d <> c -> 1 <= AT d h <= N d + 1) -> XE b h = 0%R).
             { intros h Hh Bh Oh. apply (XE_zero b c t h); try assumption; try lia. }
             destruct (Z.eq_dec (AT b g') 0) as [B0|B0]; [|destruct (Z.eq_dec (AT b g') (N b + 1)) as [B1|B1]; [|apply Z2; [exact Hr'|lia|exact Ro']]].
             - rewrite <- (XE_rep b b g' Pb). apply Z2; [rewrite at_put_other by exact Nc; exact Hr'|rewrite at_put_same; lia|intros d D1 D2; rewrite at_put_other by exact D1; apply Ro'; assumption].
             - replace g' with (put b (AT b (put b 1 g') + N b) (put b 1 g')) by (rewrite at_put_same; apply put_back; lia). rewrite (XE_rep b b (put b 1 g') Pb).
               apply Z2; [rewrite at_put_other by exact Nc; exact Hr'|rewrite at_put_same; lia|intros d D1 D2; rewrite at_put_other by exact D1; apply Ro'; assumption]. }
           rewrite (Z1 g), (Z1 (dn b g)); try lia; try assumption; [lra|rewrite Dn by congruence; exact Hr|intros d D1 D2; rewrite Dn by exact D1; apply Ro; assumption].
        -- rewrite (XE_zero b c t g), (XE_zero b c t (dn b g)); try assumption; try tauto; try lia; [lra|rewrite Dn by congruence; exact Hr|intros d D1 D2; rewrite Dn by exact D1; apply Ro; assumption].
      * rewrite (XE_anti c t g Hp Ht C Hr). lra.
  - intros a. apply closed_by.
    + intros Hp g. rewrite dn_far, !(XE_rep _ a _ Hp). reflexivity.
    + intros Hp t g Ht Hd Hr. apply (XE_sq a t g Hp Ht Hr).
Qed.
Lemma m1_pos : (0 <= m1)%R.
Proof. pose proof (Hrmu AX (1, 1, 1)). assert (in_mesh_at M (cb AX) (1, 1, 1) = true). { apply inr_mesh. intros d. pose proof (Np d). destruct d; cbn [RemoteModel.at_]; destruct (node_on (cb AX) _); lia. } specialize (H H0). lra. Qed.
Lemma turn_bound : (sum3 (fun a => S3 N (face_ a) (fun g => rmu_at gm a g * (half_turn M k F a g * half_turn M k F a g))) <= theta * sum3 (fun a => S3 N (edge a) (fun g => eps_at gm a g * (F (e_ a) g * F (e_ a) g))))%R.
Proof.
  pose proof m1_pos as P1.
  assert (A : forall a, (S3 N (face_ a) (fun g => rmu_at gm a g * (half_turn M k F a g * half_turn M k F a g)) <= m1 / 4 * S3 N (face_ a) (fun g => curl_up (coef k) XE a g * curl_up (coef k) XE a g))%R).
  { intros a. rewrite <- S3_scale. apply S3_le. intros g Hg. destruct (Hrmu a g (inr_mesh _ _ (inr_b a g Hg))) as [B1 B2].
    assert (C : (half_turn M k F a g * half_turn M k F a g <= curl_up (coef k) XE a g * curl_up (coef k) XE a g / 4)%R).
    { unfold half_turn. destruct (pinned M a g).
      - pose proof (Rle_0_sqr (curl_up (coef k) XE a g)) as Q. unfold Rsqr in Q. lra.
      - right. unfold curl_up, Du. pose proof (Hg (next a)) as R1. pose proof (Hg (next (next a))) as R2. assert (face_ a (next a) = false) as X1 by (destruct a; reflexivity). assert (face_ a (next (next a)) = false) as X2 by (destruct a; reflexivity). rewrite X1 in R1. rewrite X2 in R2.
        rewrite !XE_in; [field| | | |]; try lia; unfold up; rewrite at_put_other by (destruct a; discriminate); lia. }
    assert (D : (rmu_at gm a g * (half_turn M k F a g * half_turn M k F a g) <= rmu_at gm a g * (curl_up (coef k) XE a g * curl_up (coef k) XE a g / 4))%R) by (apply Rmult_le_compat_l; assumption).
    assert (E : (rmu_at gm a g * (curl_up (coef k) XE a g * curl_up (coef k) XE a g / 4) <= m1 * (curl_up (coef k) XE a g * curl_up (coef k) XE a g / 4))%R).
    { apply Rmult_le_compat_r; [|exact B2]. pose proof (Rle_0_sqr (curl_up (coef k) XE a g)) as Q. unfold Rsqr in Q. lra. }
    lra. }
  assert (B : forall a, (m0 * S3 N (edge a) (fun g => XE a g * XE a g) <= S3 N (edge a) (fun g => eps_at gm a g * (F (e_ a) g * F (e_ a) g)))%R).
  { intros a. rewrite <- S3_scale. apply S3_le. intros g Hg. pose proof (Heps a g (inr_mesh _ _ (inr_e a g Hg))). rewrite XE_in by (pose proof (Hg a) as Q; destruct a; cbn in Q; lia).
    apply Rmult_le_compat_r; [|exact H]. apply (Rle_0_sqr (F (e_ a) g)). }
  pose proof XE_curl as C. set (p2 := (px k * px k + py k * py k + pz k * pz k)%R) in *.
  assert (P2 : (0 <= p2)%R) by (unfold p2; pose proof (Rle_0_sqr (px k)); pose proof (Rle_0_sqr (py k)); pose proof (Rle_0_sqr (pz k)); unfold Rsqr in *; lra).
  set (S1 := sum3 (fun a => S3 N (edge a) (fun g => eps_at gm a g * (F (e_ a) g * F (e_ a) g))%R)). set (SX := sum3 (fun a => S3 N (edge a) (fun g => XE a g * XE a g)%R)) in *.
  assert (B' : (m0 * SX <= S1)%R) by (unfold SX, S1, sum3; pose proof (B AX); pose proof (B AY); pose proof (B AZ); lra).
  set (SC := sum3 (fun a => S3 N (face_ a) (fun g => curl_up (coef k) XE a g * curl_up (coef k) XE a g)%R)) in *.
  assert (A' : (sum3 (fun a => S3 N (face_ a) (fun g => rmu_at gm a g * (half_turn M k F a g * half_turn M k F a g))) <= m1 / 4 * SC)%R) by (unfold SC, sum3; pose proof (A AX); pose proof (A AY); pose proof (A AZ); lra).
  eapply Rle_trans; [exact A'|]. apply Rle_trans with (m1 / 4 * (4 * p2 * SX))%R; [apply Rmult_le_compat_l; [lra|exact C]|].
  assert (D : (SX <= S1 / m0)%R) by (apply (Rmult_le_reg_l m0); [exact Hm0|]; replace (m0 * (S1 / m0))%R with S1 by (field; lra); exact B').
  apply Rle_trans with (m1 / 4 * (4 * p2 * (S1 / m0)))%R; [|right; field; lra].
  apply Rmult_le_compat_l; [lra|]. apply Rmult_le_compat_l; [lra|exact D].
Qed.
Lemma kept_split : kept M gm k F = (energy M gm F - sum3 (fun a => S3 N (face_ a) (fun g => rmu_at gm a g * (half_turn M k F a g * half_turn M k F a g))))%R.
Proof.
  rewrite (kept_S3 k F HF). unfold energy, xyz, sum3. rewrite !e_energy_S3, !b_energy_S3 by exact HF.
  assert (Q : forall a, S3 N (face_ a) (fun g => rmu_at gm a g * ((F (cb a) g + half_turn M k F a g) * (F (cb a) g - half_turn M k F a g)))%R =
    (S3 N (face_ a) (fun g => rmu_at gm a g * (F (cb a) g * F (cb a) g)) - S3 N (face_ a) (fun g => rmu_at gm a g * (half_turn M k F a g * half_turn M k F a g)))%R).
  { intros a. rewrite <- S3_sub. apply S3_ext. intros g _. ring. }
  rewrite !Q. ring.
Qed.
Lemma b_energy_pos a : (0 <= b_energy M gm F a)%R.
Proof. rewrite b_energy_S3 by exact HF. apply S3_pos. intros g Hg. apply Rmult_le_pos; [apply (Hrmu a g (inr_mesh _ _ (inr_b a g Hg)))|apply (Rle_0_sqr (F (cb a) g))]. Qed.
Lemma kept_le : (kept M gm k F <= energy M gm F)%R.
Proof.
  rewrite kept_split. assert (0 <= sum3 (fun a => S3 N (face_ a) (fun g => rmu_at gm a g * (half_turn M k F a g * half_turn M k F a g))))%R; [|lra].
  assert (Q : forall a, (0 <= S3 N (face_ a) (fun g => rmu_at gm a g * (half_turn M k F a g * half_turn M k F a g)))%R).
  { intros a. apply S3_pos. intros g Hg. apply Rmult_le_pos; [apply (Hrmu a g (inr_mesh _ _ (inr_b a g Hg)))|apply (Rle_0_sqr (half_turn M k F a g))]. }
  unfold sum3. pose proof (Q AX). pose proof (Q AY). pose proof (Q AZ). lra.
Qed.
Lemma kept_ge : (0 <= theta)%R -> ((1 - theta) * energy M gm F <= kept M gm k F)%R.
Proof.
  intros Ht. rewrite kept_split. pose proof turn_bound as T. pose proof (b_energy_pos AX). pose proof (b_energy_pos AY). pose proof (b_energy_pos AZ).
  assert (E : energy M gm F = (sum3 (fun a => S3 N (edge a) (fun g => eps_at gm a g * (F (e_ a) g * F (e_ a) g))) + xyz (b_energy M gm F))%R).
  { unfold energy, xyz, sum3. rewrite !e_energy_S3 by exact HF. reflexivity. }
  assert (0 <= theta * xyz (b_energy M gm F))%R by (apply Rmult_le_pos; [exact Ht|unfold xyz; lra]). rewrite E in *. lra.
Qed.
Lemma theta_pos : (0 <= theta)%R.
Proof.
  pose proof m1_pos. apply Rmult_le_pos; [apply Rmult_le_pos; [assumption|left; apply Rinv_0_lt_compat; exact Hm0]|].
  pose proof (Rle_0_sqr (px k)); pose proof (Rle_0_sqr (py k)); pose proof (Rle_0_sqr (pz k)); unfold Rsqr in *; lra.
Qed.
End Bound.

(* ---- many steps ---- *)
Lemma steps_kept kb ke n : halved kb ke -> forall F, repF F -> meets_walls M F -> (forall a g, in_mesh_at M (e_ a) g = true -> F (jf a) g = 0%R) ->
  let F' := fold_left (g_step RA K M gm) (field_steps kb ke n) F in
  repF F' /\ meets_walls M F' /\ kept M gm ke F' = kept M gm ke F.
Proof.
  intros Hk. induction n as [|n IH]; intros F HF HW HJ; [cbn; auto|].
  cbn [field_steps repeat concat app fold_left]. change (concat (repeat [AdvanceB kb; AdvanceE ke; AdvanceB kb] n)) with (field_steps kb ke n).
  set (F3 := g_step RA K M gm _ (AdvanceB kb)).
  pose proof (r3 kb ke F HF) as R3. pose proof (w3 kb ke Hk F HW) as W3. fold F3 in R3, W3.
  assert (J3 : forall a g, in_mesh_at M (e_ a) g = true -> F3 (jf a) g = 0%R) by (intros a g Hg; unfold F3; rewrite (j3 kb ke F a g); apply HJ; exact Hg).
  destruct (IH F3 R3 W3 J3) as (I1' & I2' & I3'). split; [exact I1'|]. split; [exact I2'|]. cbv zeta in I3'. rewrite I3'.
  pose proof (work_done kb ke Hk F HF HW) as WD. fold F3 in WD.
  assert (Z0 : work M F F3 = 0%R); [|rewrite Z0 in WD; lra]. unfold work, xyz.
  assert (Q : forall a, total_over M (e_ a) (fun g => F (jf a) g * (F (e_ a) g + F3 (e_ a) g))%R = 0%R).
  { intros a. rewrite total_e by (intros d g Hd; rewrite !(HF _ d g Hd), (R3 _ d g Hd); reflexivity). rewrite <- (S3_zero N (edge a)). apply S3_ext. intros g Hg. rewrite HJ by (apply inr_mesh, inr_e, Hg). ring. }
  rewrite !Q. ring.
Qed.
End Step.
