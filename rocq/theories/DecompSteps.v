(* Each sweep on every rank of a box is the sweep of the undivided mesh. *)
From Coq Require Import ZArith List Bool Lia ZifyBool.
From Verif Require Import SortModel VoxelModel VoxelProofs GridModel GridProofs SweepModel FieldModel FieldSpec FieldSweeps
  RemoteModel RemoteSpec RemoteProofs RemoteGhost DecompSpec DecompProofs.
Import ListNotations.
Open Scope Z_scope.
Ltac Zify.zify_post_hook ::= idtac.
Local Notation AT := RemoteModel.at_.

Definition ghosts_of (e : exch) (nx ny nz : Z) : comp -> Z -> Prop :=
  match e with GhostTangB => ghost_tang_b nx ny nz | GhostNormE => ghost_norm_e nx ny nz | GhostDivB => ghost_div_b nx ny nz | _ => fun _ _ => False end.

Section Rank.
Context {V : Type}.
Variable RAr : rarith V.
Variable L : layout V.
Variable num : cell -> Z.
Variable ws : Z.
Variable G : Z -> cgrid V.
Hypothesis OK : layout_ok L.
Hypothesis HB : box L num ws G.
(* cells of one size along each axis, for which the arithmetic returns the neighbour's value *)
Definition even_sizes : Prop := forall a i j, 0 <= i < l_p L a -> 0 <= j < l_p L a -> l_d L a i = l_d L a j.
Definition clear_weights : Prop := forall a i w o, 0 <= i < l_p L a ->
  let d := l_d L a i in
  r_add V RAr (r_mul V RAr (r_dbl_div V RAr d (r_add V RAr d d)) w) (r_mul V RAr (r_div V RAr (r_sub V RAr d d) (r_add V RAr d d)) o) = w.
Hypothesis Ev : even_sizes.
Hypothesis Cw : clear_weights.
Variable F : gfield V.
Hypothesis Fr : field_repeats L F.

Lemma axis_dec (a b : axis) : a = b \/ a <> b.
Proof. destruct a, b; first [left; reflexivity | right; discriminate]. Qed.
Lemma vox_inj p q q' : inside L p -> (forall a, 0 <= AT a q <= l_n L a (AT a p) + 1) -> (forall a, 0 <= AT a q' <= l_n L a (AT a p) + 1) ->
  vox3 (size_at L p) q = vox3 (size_at L p) q' -> q = q'.
Proof.
  intros Hp H H' E. destruct OK as [_ On]. pose proof (On AX _ (Hp AX)) as Nx. pose proof (On AY _ (Hp AY)) as Ny. pose proof (On AZ _ (Hp AZ)) as Nz.
  pose proof (H AX); pose proof (H AY); pose proof (H AZ). pose proof (H' AX); pose proof (H' AY); pose proof (H' AZ).
  destruct q as [[x y] z], q' as [[x' y'] z']. cbn [RemoteModel.at_] in *. cbn [vox3 size_at] in E.
  exact (voxel_inj (l_n L AX (AT AX p)) (l_n L AY (AT AY p)) (l_n L AZ (AT AZ p)) x y z x' y' z' Nx Ny ltac:(unfold in_mesh; tauto) ltac:(unfold in_mesh; tauto) E).
Qed.
Lemma held_in_mesh c p q : inside L p -> holds L c p q -> forall a, 0 <= AT a q <= l_n L a (AT a p) + 1.
Proof. intros Hp H a. specialize (H a). destruct (node_on c a); lia. Qed.

Lemma ghosts_of_face e p c q : ghosted e = true -> inside L p -> (forall a, 0 <= AT a q <= l_n L a (AT a p) + 1) ->
  ghosts_of e (l_n L AX (AT AX p)) (l_n L AY (AT AY p)) (l_n L AZ (AT AZ p)) c (vox3 (size_at L p) q) ->
  exists a, ghost_comp e a c = true /\ (AT a q = 0 \/ AT a q = l_n L a (AT a p) + 1).
Proof.
  intros Hg Hp Hq H.
  assert (K : forall d, on_ghost (l_n L AX (AT AX p)) (l_n L AY (AT AY p)) (l_n L AZ (AT AZ p)) d (vox3 (size_at L p) q) ->
     (d = 0 /\ (AT AX q = 0 \/ AT AX q = l_n L AX (AT AX p) + 1)) \/ (d = 1 /\ (AT AY q = 0 \/ AT AY q = l_n L AY (AT AY p) + 1)) \/
     (d = 2 /\ (AT AZ q = 0 \/ AT AZ q = l_n L AZ (AT AZ p) + 1))).
  { intros d (x & y & z & X & Y & Z_ & E & D). change (voxel (l_n L AX (AT AX p)) (l_n L AY (AT AY p)) (l_n L AZ (AT AZ p)) x y z) with (vox3 (size_at L p) (x, y, z)) in E.
    apply vox_inj in E; [|assumption|assumption|intros [| |]; cbn [RemoteModel.at_]; assumption]. subst q. exact D. }
  destruct e; try discriminate Hg; cbn [ghosts_of] in H.
  - destruct H as [[H C]|[[H C]|[H C]]]; apply K in H; destruct C as [-> | ->];
      [exists AX|exists AX|exists AY|exists AY|exists AZ|exists AZ]; (split; [reflexivity|]); lia.
  - destruct H as [[H ->]|[[H ->]|[H ->]]]; apply K in H; [exists AX|exists AY|exists AZ]; (split; [reflexivity|]); lia.
  - destruct H as (-> & d & Hd & H). apply K in H. destruct Hd as [-> |[-> | ->]]; [exists AX|exists AY|exists AZ]; (split; [reflexivity|]); lia.
Qed.
Lemma ghost_comp_off e a c : ghost_comp e a c = true -> node_on c a = false.
Proof. destruct e, a, c; cbn; congruence. Qed.

(* after the exchange, the array with the ghosts in place holds the field at held entries and at ghost entries *)
Lemma near_values e W W1 p Gh B : ghosted e = true -> inside L p -> holds_field L num F W -> run_phases V RAr ws G e (phases e) W W1 ->
  ghosts_from L num F e W1 p Gh -> ghost_list (ghosts_of e (l_n L AX (AT AX p)) (l_n L AY (AT AY p)) (l_n L AZ (AT AZ p))) Gh ->
  with_ghosts Gh (W (num p)) B ->
  (forall c q, holds L c p q -> B (c, vox3 (size_at L p) q) = F c (gplace L p q)) /\
  (forall a t c q, t = -1 \/ t = 1 -> ghost_entry L e p a t c q -> B (c, vox3 (size_at L p) q) = F c (gplace L p q)).
Proof.
  intros Hg Hp HF Hr Gf [_ Gl] [Bi Bo]. split.
  - intros c q Hq. rewrite Bo; [apply HF; assumption|]. intros Hin. apply in_map_iff in Hin. destruct Hin as ([[c' v] x] & E & Hin). cbn [fst] in E. injection E as -> ->.
    apply Gl in Hin. apply ghosts_of_face in Hin; [|assumption|assumption|eapply held_in_mesh; eassumption].
    destruct Hin as (a & Ga & Ha). apply ghost_comp_off in Ga. specialize (Hq a). rewrite Ga in Hq. lia.
  - intros a t c q Ht Hq. specialize (Gf a t c q Ht Hq). destruct (beside L a (AT a p) t) as [j|] eqn:Ej.
    + rewrite (Bi _ _ Gf). destruct (ghost_run RAr L num ws G OK HB e Hg W W1 p Hr Hp) as [_ R].
      pose proof Hq as (Q1 & Q2 & Q3). assert (Hs : sign (- t)) by (unfold sign; lia).
      assert (Hgot : got L e p a (- t) c q). { apply (got_ghost L e Hg p a (- t) c q Hs). split; [exact Q1|]. split; [|exact Q3]. rewrite Q2. destruct Ht as [-> | ->]; reflexivity. }
      specialize (R a (- t) j c q Hs ltac:(rewrite Z.opp_involutive; exact Ej) Hgot). change (c, vox3 (size_at L p) q) with (locv (size_at L p) (c, q)). rewrite R.
      unfold filled, combine_. rewrite (size_box L num ws G HB) by exact Hp. pose proof HB as (_ & _ & _ & _ & Dx & _). rewrite (Dx p a Hp). cbn [fst snd].
      assert (Hj : 0 <= j < l_p L a) by (apply (beside_range L a (AT a p) t j (Hp a) Ht Ej)).
      assert (Hp' : inside L (put a j p)). { intros b. destruct (axis_dec b a) as [-> | N]; [rewrite at_put_same; exact Hj|rewrite at_put_other by exact N; apply Hp]. }
      rewrite (Ev a j (AT a p) Hj (Hp a)).
      assert (Es : send_plane e (- t) (l_n L a j) = (if t =? -1 then l_n L a j else 1)) by (unfold send_plane; rewrite Hg; destruct Ht as [-> | ->]; reflexivity). rewrite Es.
      assert (Hnear : holds L c (put a j p) (put a (if t =? -1 then l_n L a j else 1) q)).
      { intros b. destruct OK as [_ On]. pose proof (On a j Hj). destruct (axis_dec b a) as [-> | N].
        - rewrite !at_put_same. rewrite (ghost_comp_off _ _ _ Q1). destruct (t =? -1); lia.
        - rewrite !at_put_other by exact N. apply Q3, N. }
      assert (E : W (num (put a j p)) (locv (size_at L (put a j p)) (c, put a (if t =? -1 then l_n L a j else 1) q)) = F c (gplace L p q)).
      { change (locv (size_at L (put a j p)) (c, put a (if t =? -1 then l_n L a j else 1) q)) with (c, vox3 (size_at L (put a j p)) (put a (if t =? -1 then l_n L a j else 1) q)).
        rewrite (HF c (put a j p) _ Hp' Hnear). apply (ghost_place L (F c) a t j p q (Fr c) Hp Ht Ej Q2). }
      rewrite <- E. destruct e; try discriminate Hg; apply Cw; apply Hp.
    + exact (Bi _ _ Gf).
Qed.
(* along an axis whose faces the exchange serves *)
Lemma near_axis e p B a c q :
  (forall c q, holds L c p q -> B (c, vox3 (size_at L p) q) = F c (gplace L p q)) ->
  (forall a t c q, t = -1 \/ t = 1 -> ghost_entry L e p a t c q -> B (c, vox3 (size_at L p) q) = F c (gplace L p q)) ->
  ghost_comp e a c = true -> 0 <= AT a q <= l_n L a (AT a p) + 1 ->
  (forall b, b <> a -> 1 <= AT b q <= l_n L b (AT b p) + (if node_on c b then 1 else 0)) ->
  B (c, vox3 (size_at L p) q) = F c (gplace L p q).
Proof.
  intros H1 H2 Hc Ha Hb. assert (AT a q = 0 \/ AT a q = l_n L a (AT a p) + 1 \/ 1 <= AT a q <= l_n L a (AT a p)) as [E|[E|E]] by lia.
  - apply (H2 a (-1)); [lia|]. split; [exact Hc|]. split; [exact E|exact Hb].
  - apply (H2 a 1); [lia|]. split; [exact Hc|]. split; [exact E|exact Hb].
  - apply H1. intros b. destruct (axis_dec b a) as [-> | N]; [rewrite (ghost_comp_off _ _ _ Hc); lia|apply Hb, N].
Qed.

Variable A : arith V.
Variable gm : gmats V.
Variable k : coefs V.
Section One.
Variable p : cell.
Hypothesis Hp : inside L p.
Variable mt : mats V.
Hypothesis Hm : same_mats L gm p mt.
Variable B : mem V.
Notation nx := (l_n L AX (AT AX p)).
Notation ny := (l_n L AY (AT AY p)).
Notation nz := (l_n L AZ (AT AZ p)).
Hypothesis Bh : forall c q, holds L c p q -> B (c, vox3 (size_at L p) q) = F c (gplace L p q).
Notation vox := (voxel nx ny nz).
Notation P3 x y z := (gplace L p (x, y, z)).

Definition hi (c : comp) (a : axis) : Z := l_n L a (AT a p) + (if node_on c a then 1 else 0).
Lemma held3 c x y z : 1 <= x <= hi c AX -> 1 <= y <= hi c AY -> 1 <= z <= hi c AZ -> B (c, vox x y z) = F c (P3 x y z).
Proof. intros X Y Z_. apply (Bh c (x, y, z)). intros [| |]; cbn [RemoteModel.at_]; assumption. Qed.
Definition ghosts_ok (e : exch) : Prop :=
  forall a t c q, t = -1 \/ t = 1 -> ghost_entry L e p a t c q -> B (c, vox3 (size_at L p) q) = F c (gplace L p q).
Lemma near3 e c x y z : ghosts_ok e ->
  (ghost_comp e AX c = true /\ 0 <= x <= nx + 1 /\ 1 <= y <= hi c AY /\ 1 <= z <= hi c AZ) \/
  (ghost_comp e AY c = true /\ 1 <= x <= hi c AX /\ 0 <= y <= ny + 1 /\ 1 <= z <= hi c AZ) \/
  (ghost_comp e AZ c = true /\ 1 <= x <= hi c AX /\ 1 <= y <= hi c AY /\ 0 <= z <= nz + 1) -> B (c, vox x y z) = F c (P3 x y z).
Proof.
  intros Hg [(C & X & Y & Z_)|[(C & X & Y & Z_)|(C & X & Y & Z_)]].
  - apply (near_axis e p B AX c (x, y, z) Bh Hg C); [exact X|]. intros [| |] N; cbn [RemoteModel.at_]; [contradiction|assumption|assumption].
  - apply (near_axis e p B AY c (x, y, z) Bh Hg C); [exact Y|]. intros [| |] N; cbn [RemoteModel.at_]; [assumption|contradiction|assumption].
  - apply (near_axis e p B AZ c (x, y, z) Bh Hg C); [exact Z_|]. intros [| |] N; cbn [RemoteModel.at_]; [assumption|assumption|contradiction].
Qed.
Lemma dn3 a x y z : dn a (P3 x y z) = gplace L p (put a (AT a (x, y, z) - 1) (x, y, z)).
Proof. rewrite <- gplace_dn. reflexivity. Qed.
Lemma up3 a x y z : up a (P3 x y z) = gplace L p (put a (AT a (x, y, z) + 1) (x, y, z)).
Proof. rewrite <- gplace_up. reflexivity. Qed.
Lemma mat3 x y z : 0 <= x <= nx + 1 -> 0 <= y <= ny + 1 -> 0 <= z <= nz + 1 ->
  ematx mt (vox x y z) = g_ematx gm (P3 x y z) /\ ematy mt (vox x y z) = g_ematy gm (P3 x y z) /\ ematz mt (vox x y z) = g_ematz gm (P3 x y z) /\
  nmat mt (vox x y z) = g_nmat gm (P3 x y z) /\
  fmatx mt (vox x y z) = g_fmatx gm (P3 x y z) /\ fmaty mt (vox x y z) = g_fmaty gm (P3 x y z) /\ fmatz mt (vox x y z) = g_fmatz gm (P3 x y z).
Proof. intros X Y Z_. destruct Hm as [_ H]. apply (H (x, y, z)). intros [| |]; cbn [RemoteModel.at_]; assumption. Qed.
Lemma mtab3 i : mtab mt i = g_mtab gm i.
Proof. apply Hm. Qed.
Lemma ex3 x y z : 0 <= x <= nx + 1 -> 0 <= y <= ny + 1 -> 0 <= z <= nz + 1 -> ematx mt (vox x y z) = g_ematx gm (P3 x y z). Proof. intros. apply mat3; assumption. Qed.
Lemma ey3 x y z : 0 <= x <= nx + 1 -> 0 <= y <= ny + 1 -> 0 <= z <= nz + 1 -> ematy mt (vox x y z) = g_ematy gm (P3 x y z). Proof. intros. apply mat3; assumption. Qed.
Lemma ez3 x y z : 0 <= x <= nx + 1 -> 0 <= y <= ny + 1 -> 0 <= z <= nz + 1 -> ematz mt (vox x y z) = g_ematz gm (P3 x y z). Proof. intros. apply mat3; assumption. Qed.
Lemma no3 x y z : 0 <= x <= nx + 1 -> 0 <= y <= ny + 1 -> 0 <= z <= nz + 1 -> nmat mt (vox x y z) = g_nmat gm (P3 x y z). Proof. intros. apply mat3; assumption. Qed.
Lemma fx3 x y z : 0 <= x <= nx + 1 -> 0 <= y <= ny + 1 -> 0 <= z <= nz + 1 -> fmatx mt (vox x y z) = g_fmatx gm (P3 x y z). Proof. intros. apply mat3; assumption. Qed.
Lemma fy3 x y z : 0 <= x <= nx + 1 -> 0 <= y <= ny + 1 -> 0 <= z <= nz + 1 -> fmaty mt (vox x y z) = g_fmaty gm (P3 x y z). Proof. intros. apply mat3; assumption. Qed.
Lemma fz3 x y z : 0 <= x <= nx + 1 -> 0 <= y <= ny + 1 -> 0 <= z <= nz + 1 -> fmatz mt (vox x y z) = g_fmatz gm (P3 x y z). Proof. intros. apply mat3; assumption. Qed.

(* a whole array holds a new field *)
Definition holds_here (Gf : gfield V) (r : mem V) : Prop := forall c q, holds L c p q -> r (c, vox3 (size_at L p) q) = Gf c (gplace L p q).
Lemma holds_here3 (Gf : gfield V) r :
  (forall c x y z, 1 <= x <= hi c AX -> 1 <= y <= hi c AY -> 1 <= z <= hi c AZ -> r (c, vox x y z) = Gf c (P3 x y z)) -> holds_here Gf r.
Proof. intros H c [[x y] z] Hq. apply H; [apply (Hq AX)|apply (Hq AY)|apply (Hq AZ)]. Qed.
Ltac mats := repeat first [rewrite ex3 by lia | rewrite ey3 by lia | rewrite ez3 by lia | rewrite no3 by lia | rewrite fx3 by lia | rewrite fy3 by lia | rewrite fz3 by lia | rewrite mtab3].
Ltac reads Hg := repeat match goal with
  | |- context [B (?c, voxel _ _ _ ?x ?y ?z)] => first
     [ rewrite (held3 c x y z) by (unfold hi; cbn [node_on]; lia)
     | rewrite (near3 _ c x y z Hg) by (unfold hi; cbn [node_on ghost_comp]; lia) ] end.

Ltac fin Hg :=
  unfold new_e, new_tca, curl_h_x, curl_h_y, curl_h_z, curl_e_x, curl_e_y, curl_e_z, div_d, div_b, dx_, dy_, dz_, hx, hy, hz, mat, FieldSpec.at_;
  reads Hg; mats;
  unfold g_advance_e, g_advance_b, g_div_e_err, g_rhob, g_div_b_err, g_clean_b, g_clean_e, g_e, g_tca, g_curl_x, g_curl_y, g_curl_z, g_div_d, g_div_b,
    g_dx, g_dy, g_dz, g_hx, g_hy, g_hz, gmat;
  rewrite ?dn3, ?up3; cbn [put RemoteModel.at_]; reflexivity.
Ltac rest Ho X Y Z_ := try (rewrite Ho by (cbn; intuition discriminate); apply held3; assumption); unfold hi in X, Y, Z_; cbn [node_on] in X, Y, Z_.
Ltac upd U Hg := destruct U as [-> _]; [|lia|lia|lia]; fin Hg.

Lemma rank_ampere r : ghosts_ok GhostTangB -> ampere V nx ny nz A mt k B r -> holds_here (g_advance_e V A gm k F) r.
Proof.
  intros Hg (Ho & T1 & T2 & T3 & E1 & E2 & E3). apply holds_here3. intros c x y z X Y Z_. destruct c; rest Ho X Y Z_.
  - upd E1 Hg.
  - upd E2 Hg.
  - upd E3 Hg.
  - upd T1 Hg.
  - upd T2 Hg.
  - upd T3 Hg.
Qed.
Lemma rank_faraday r : faraday V nx ny nz A k B r -> holds_here (g_advance_b V A k F) r.
Proof.
  intros (Ho & T1 & T2 & T3). apply holds_here3. intros c x y z X Y Z_. destruct c; rest Ho X Y Z_.
  - upd T1 I.
  - upd T2 I.
  - upd T3 I.
Qed.
Lemma rank_gauss_e r : ghosts_ok GhostNormE -> gauss_e V nx ny nz A mt k B r -> holds_here (g_div_e_err V A gm k F) r.
Proof.
  intros Hg (Ho & T1). apply holds_here3. intros c x y z X Y Z_. destruct c; rest Ho X Y Z_. upd T1 Hg.
Qed.
Lemma rank_rhob r : ghosts_ok GhostNormE -> bound_charge V nx ny nz A mt k B r -> holds_here (g_rhob V A gm k F) r.
Proof.
  intros Hg (Ho & T1). apply holds_here3. intros c x y z X Y Z_. destruct c; rest Ho X Y Z_. upd T1 Hg.
Qed.
Lemma rank_gauss_b r : gauss_b V nx ny nz A k B r -> holds_here (g_div_b_err V A k F) r.
Proof.
  intros (Ho & T1). apply holds_here3. intros c x y z X Y Z_. destruct c; rest Ho X Y Z_. upd T1 I.
Qed.
Lemma rank_marder_b r : ghosts_ok GhostDivB -> marder_b V nx ny nz A k B r -> holds_here (g_clean_b V A k F) r.
Proof.
  intros Hg (Ho & T1 & T2 & T3). apply holds_here3. intros c x y z X Y Z_. destruct c; rest Ho X Y Z_.
  - upd T1 Hg.
  - upd T2 Hg.
  - upd T3 Hg.
Qed.
Lemma rank_marder_e r : marder_e V nx ny nz A mt k B r -> holds_here (g_clean_e V A gm k F) r.
Proof.
  intros (Ho & T1 & T2 & T3). apply holds_here3. intros c x y z X Y Z_. destruct c; rest Ho X Y Z_.
  - upd T1 I.
  - upd T2 I.
  - upd T3 I.
Qed.
End One.

(* repeating *)
Hypothesis Mr : mats_repeat L gm.
Lemma rep2 {T U X} (f : T -> U -> X) (g : cell -> T) (h : cell -> U) : repeats L g -> repeats L h -> repeats L (fun c => f (g c) (h c)).
Proof. intros Hg Hh a c Ep. cbv beta. rewrite (Hg a c Ep), (Hh a c Ep). reflexivity. Qed.
Lemma rep1 {T X} (f : T -> X) (g : cell -> T) : repeats L g -> repeats L (fun c => f (g c)).
Proof. intros Hg a c Ep. cbv beta. rewrite (Hg a c Ep). reflexivity. Qed.
Lemma rep0 {X} (v : X) : repeats L (fun _ => v).
Proof. intros a c Ep. reflexivity. Qed.
Lemma repF c : repeats L (fun g => F c g). Proof. apply Fr. Qed.
Lemma rep_mat c f : repeats L (fun g => f gm g) -> repeats L (fun g => gmat V gm c f g).
Proof. intros H. unfold gmat. apply (rep1 (fun i => c (g_mtab gm i))). exact H. Qed.
Ltac rep := lazymatch goal with
  | |- repeats L (fun g => a_add A (@?f g) (@?h g)) => apply (rep2 (a_add A) f h); rep
  | |- repeats L (fun g => a_sub A (@?f g) (@?h g)) => apply (rep2 (a_sub A) f h); rep
  | |- repeats L (fun g => a_mul A (@?f g) (@?h g)) => apply (rep2 (a_mul A) f h); rep
  | |- repeats L (fun g => gmat V gm ?c ?f g) => apply (rep_mat c f); apply Mr
  | |- repeats L (fun g => F ?c g) => apply repF
  | |- repeats L (fun g => F ?c (dn ?b g)) => apply (repeats_dn L (F c) b), Fr
  | |- repeats L (fun g => F ?c (up ?b g)) => apply (repeats_up L (F c) b), Fr
  | |- repeats L (fun g => gmat V gm ?c ?f (dn ?b g)) => apply (repeats_dn L (fun g => gmat V gm c f g) b); rep
  | |- repeats L (fun _ => ?v) => apply rep0
  end.
Ltac fields := intros c; destruct c; try apply Fr;
  unfold g_advance_e, g_advance_b, g_div_e_err, g_rhob, g_div_b_err, g_clean_b, g_clean_e, g_e, g_tca, g_curl_x, g_curl_y, g_curl_z, g_div_d, g_div_b,
    g_dx, g_dy, g_dz, g_hx, g_hy, g_hz; rep.
Lemma rep_advance_e : field_repeats L (g_advance_e V A gm k F).
Proof. fields. Qed.
Lemma rep_advance_b : field_repeats L (g_advance_b V A k F).
Proof. fields. Qed.
Lemma rep_div_e_err : field_repeats L (g_div_e_err V A gm k F).
Proof. fields. Qed.
Lemma rep_rhob : field_repeats L (g_rhob V A gm k F).
Proof. fields. Qed.
Lemma rep_div_b_err : field_repeats L (g_div_b_err V A k F).
Proof. fields. Qed.
Lemma rep_clean_b : field_repeats L (g_clean_b V A k F).
Proof. fields. Qed.
Lemma rep_clean_e : field_repeats L (g_clean_e V A gm k F).
Proof. fields. Qed.
End Rank.
