(* C56: the field update of a box with walls does not depend on how the mesh is divided among ranks. *)
From Coq Require Import Reals ZArith List Bool Lia ZifyBool Lra.
From Verif Require Import SortModel VoxelModel VoxelProofs GridModel GridProofs SweepModel FieldProofs FieldModel FieldSpec FieldSweeps FieldBoundaryModel FieldPhysics FieldFinal
  RemoteModel RemoteSpec DecompSpec RemoteProofs RemoteGhost DecompProofs RemoteSum PropertiesRemote DecompSteps PropertiesDecomp
  LocalModel LocalSpec LocalProofs PropertiesLocal WallSpec WallProofs WallAdjust.
Import ListNotations.
Open Scope Z_scope.
Ltac Zify.zify_post_hook ::= idtac.
Local Notation AT := RemoteModel.at_.

(* ---- what the ranks do ---- *)
Section Ranks.
Variable V : Type.
Variable RAr : rarith V.            (* arithmetic of the exchanges *)
Variable A : arith V.               (* arithmetic of the sweeps and of the values beyond walls *)
Variable K : lconst V.
Variable L : layout V.
Variable num : cell -> Z.
Variable ws : Z.
Variable G : Z -> cgrid V.
Variable mt : cell -> mats V.
Variable fma : cell -> bool.
Variable P : cell -> Z.
Notation nx p := (l_n L AX (AT AX p)).
Notation ny p := (l_n L AY (AT AY p)).
Notation nz p := (l_n L AZ (AT AZ p)).
(* As with_exchange of C54, with the ghost values beyond walls from the local_ghost routine: /repo/src/field_advance/standard/pipeline/advance_e_pipeline.cc:64-69,142-145
   (begin_remote_ghost_tang_b, local_ghost_tang_b, end_remote_ghost_tang_b), compute_div_e_err_pipeline.cc:49-53,70-71 and compute_rhob_pipeline.cc:50-54,71-72 (norm_e),
   clean_div_b_pipeline.cc:144-147,236-238 (div_b).  Simplification: an entry beyond a wall that the sweep does not read (tca of local_ghost_norm_e) is not put
   into the array. *)
Definition with_walls (e : exch) (run : cell -> list (floc * V) -> mem V -> mem V -> Prop) (W W2 : Z -> mem V) : Prop :=
  exists W1 Gh Fl, run_phases V RAr ws G e (phases e) W W1 /\
  forall p, inside L p ->
    local_ghost V A K ws (G (num p)) e (W (num p)) = Some (Fl p) /\
    ghost_list (ghosts_of e (nx p) (ny p) (nz p)) (Gh p) /\
    (forall a t c q, t = -1 \/ t = 1 -> ghost_entry L e p a t c q ->
       In ((c, vox3 (size_at L p) q), match beside L a (AT a p) t with Some _ => W1 (num p) | None => Fl p end (c, vox3 (size_at L p) q)) (Gh p)) /\
    run p (Gh p) (W (num p)) (W2 (num p)).
Definition swept (s : sweep V) (W W2 : Z -> mem V) : Prop :=
  match s with
  | AdvanceB k => forall p, inside L p -> advance_b_run V A (mt p) k (nx p) (ny p) (nz p) (fma p) (P p) (W (num p)) (W2 (num p))
  | AdvanceE k => with_walls GhostTangB (fun p Gh => advance_e_run V A (mt p) k (nx p) (ny p) (nz p) (fma p) (P p) Gh) W W2
  | DivEErr k => with_walls GhostNormE (fun p Gh => div_e_err_run V A (mt p) k (nx p) (ny p) (nz p) (fma p) (P p) Gh) W W2
  | BoundCharge k => with_walls GhostNormE (fun p Gh => rhob_run V A (mt p) k (nx p) (ny p) (nz p) (fma p) (P p) Gh) W W2
  | DivBErr k => forall p, inside L p -> div_b_err_run V A (mt p) k (nx p) (ny p) (nz p) (fma p) (P p) (W (num p)) (W2 (num p))
  | CleanB k => with_walls GhostDivB (fun p Gh => clean_div_b_run V A (mt p) k (nx p) (ny p) (nz p) (fma p) (P p) Gh) W W2
  | CleanE k => forall p, inside L p -> clean_div_e_run V A (mt p) k (nx p) (ny p) (nz p) (fma p) (P p) (W (num p)) (W2 (num p))
  end.
(* the sweep and then the adjustment at the walls *)
Definition ranks_step (s : sweep V) (W W3 : Z -> mem V) : Prop :=
  exists W2, swept s W W2 /\ forall p, inside L p -> rank_adjust RAr (lc_zero K) L num ws G s p (W2 (num p)) = Some (W3 (num p)).
Inductive ranks_run : list (sweep V) -> (Z -> mem V) -> (Z -> mem V) -> Prop :=
| rr_nil : forall W, ranks_run [] W W
| rr_cons : forall s ss W W1 W2, ranks_step s W W1 -> ranks_run ss W1 W2 -> ranks_run (s :: ss) W W2.
(* two cells at absorbing walls, wanted where the normal E beyond the wall is used *)
Definition thick_walls (M : gmesh) (s : sweep V) : Prop :=
  ghosts_needed s = Some GhostNormE -> forall p a t, inside L p -> t = -1 \/ t = 1 -> beside L a (AT a p) t = None -> gm_bc M a t = -4 -> 2 <= l_n L a (AT a p).
Definition held (F : gfield V) (W : Z -> mem V) : Prop := field_repeats L F /\ holds_field L num F W /\ holds_walls L num F W.
End Ranks.

Section Proof.
Variable V : Type.
Variable RAr : rarith V.
Variable A : arith V.
Variable K : lconst V.
Variable L : layout V.
Variable num : cell -> Z.
Variable ws : Z.
Variable G : Z -> cgrid V.
Variable mt : cell -> mats V.
Variable fma : cell -> bool.
Variable P : cell -> Z.
Variable M : gmesh.
Variable gm : gmats V.
Hypothesis OK : layout_ok L.
Hypothesis HB : box L num ws G.
Hypothesis Dv : divides L num G M.
Variable F : gfield V.
Variable W : Z -> mem V.
Hypothesis Fr : field_repeats L F.
Hypothesis HF : holds_field L num F W.
Hypothesis HW : holds_walls L num F W.
Notation nx p := (l_n L AX (AT AX p)).
Notation ny p := (l_n L AY (AT AY p)).
Notation nz p := (l_n L AZ (AT AZ p)).
Let HM : forall a, total L a = gm_n M a /\ l_per L a = gm_per M a.
Proof. apply Dv. Qed.
Lemma mesh_code p a t : inside L p -> t = -1 \/ t = 1 -> beside L a (AT a p) t = None -> c_bc V (G (num p)) (port a t) = gm_bc M a t /\ -4 <= gm_bc M a t <= -1.
Proof.
  intros Hp Ht Hb. destruct Dv as (_ & D2 & D3). split; [apply D2; assumption|]. apply D3; [|exact Ht]. apply (beside_none L a _ t (Hp a) Ht) in Hb. destruct (HM a) as [_ <-]. tauto.
Qed.
Lemma rank_n p : inside L p -> c_n V (G (num p)) = size_at L p.
Proof. apply HB. Qed.
(* the values that local_ghost puts beyond walls are those of the whole mesh *)
Lemma local_values e p Fl a t c q : ghosted e = true -> inside L p -> t = -1 \/ t = 1 -> beside L a (AT a p) t = None -> beyond e (size_at L p) a t c q ->
  (e = GhostNormE -> forall a t, t = -1 \/ t = 1 -> beside L a (AT a p) t = None -> gm_bc M a t = -4 -> 2 <= l_n L a (AT a p)) ->
  local_ghost V A K ws (G (num p)) e (W (num p)) = Some Fl -> Fl (c, vox3 (size_at L p) q) = g_ghosts A K M e F c (gplace L p q).
Proof.
  intros Hg Hp Ht Hb B Hk Hl. destruct (mesh_code p a t Hp Ht Hb) as [Ec Rc].
  assert (Wc : forall a t, t = -1 \/ t = 1 -> (beside L a (AT a p) t = None <-> c_bc V (G (num p)) (port a t) < 0 \/ ws <= c_bc V (G (num p)) (port a t))) by (intros; apply (wall_codes L num ws G HB p Hp); assumption).
  destruct (C55_ghosts V A K ws (G (num p)) e (W (num p)) Fl) as [H1 _]; [|exact Hl|].
  - split; [intros a'; rewrite (rank_n p Hp), at_size; destruct OK as [_ On]; apply On, Hp|]. intros He a' t' Ht' Hc. rewrite (rank_n p Hp), at_size.
    assert (Hb' : beside L a' (AT a' p) t' = None) by (apply Wc; [exact Ht'|lia]). apply (Hk He a' t' Ht' Hb'). destruct (mesh_code p a' t' Hp Ht' Hb') as [E' _]. lia.
  - rewrite (rank_n p Hp) in H1. rewrite (H1 a t c q); [|split; [exact Ht|apply Wc; assumption]|exact B].
    rewrite (ghosts_beyond A K L OK M HM e F p a t c q Hp Ht Hb B). rewrite Ec.
    apply (rank_wall_value A K L OK e F (W (num p)) p a t c q (gm_bc M a t) Hp Ht Hb B).
    + intros c' q' Hq'. apply HF; assumption.
    + intros ->. apply (HW p a t c q Hp Ht Hb B).
    + intros He N1 N2 N3. apply (Hk He a t Ht Hb). lia.
Qed.
Lemma ghost_beyond e p a t c q : ghost_entry L e p a t c q -> beyond e (size_at L p) a t c q.
Proof.
  intros (C & Ha & Hd). split; [destruct e, a, c; try discriminate C; reflexivity|]. split; [rewrite at_size; exact Ha|]. intros b Hb. rewrite at_size. exact (Hd b Hb).
Qed.
Lemma beyond_ghost_b p a t c q : beyond GhostTangB (size_at L p) a t c q -> ghost_entry L GhostTangB p a t c q.
Proof.
  intros (C & Ha & Hd). split; [destruct a, c; try discriminate C; reflexivity|]. split; [rewrite at_size in Ha; exact Ha|]. intros b Hb. specialize (Hd b Hb). rewrite at_size in Hd. exact Hd.
Qed.
Definition F1_of (s : sweep V) : gfield V := match ghosts_needed s with Some e => g_ghosts A K M e F | None => F end.
Lemma F1_rep s : field_repeats L (F1_of s).
Proof. unfold F1_of. destruct (ghosts_needed s); [apply rep_ghosts; [exact HM|exact Fr]|exact Fr]. Qed.
Lemma F1_held s : holds_field L num (F1_of s) W.
Proof.
  intros c p q Hp Hq. unfold F1_of. destruct (ghosts_needed s); [|apply HF; assumption]. rewrite (ghosts_held A K L OK M HM e F c p q Hp Hq). apply HF; assumption.
Qed.
Lemma with_walls_exchange e run W2 : ghosted e = true ->
  (e = GhostNormE -> forall p a t, inside L p -> t = -1 \/ t = 1 -> beside L a (AT a p) t = None -> gm_bc M a t = -4 -> 2 <= l_n L a (AT a p)) ->
  with_walls V RAr A K L num ws G e run W W2 ->
  exists wall, with_exchange V RAr L num ws G e wall run W W2 /\ walls_of V L e (g_ghosts A K M e F) wall.
Proof.
  intros Hg Hk (W1 & Gh & Fl & Hr & Hp'). exists Gh. split.
  - exists W1, Gh. split; [exact Hr|]. intros p Hp. destruct (Hp' p Hp) as (_ & H2 & H3 & H4). split; [exact H2|]. split; [|exact H4].
    intros a t c q Ht Hq. specialize (H3 a t c q Ht Hq). destruct (beside L a (AT a p) t); [exact H3|intros x Hx; exact Hx].
  - intros p a t c q Hp Ht Hb Hq. destruct (Hp' p Hp) as (H1 & _ & H3 & _). specialize (H3 a t c q Ht Hq). rewrite Hb in H3.
    rewrite (local_values e p (Fl p) a t c q Hg Hp Ht Hb (ghost_beyond e p a t c q Hq)) in H3; [exact H3|intros He; exact (fun a t => Hk He p a t Hp)|exact H1].
Qed.
Lemma to_on_ranks s W2 : thick_walls V L M s -> swept V RAr A K L num ws G mt fma P s W W2 ->
  exists wall, on_ranks V RAr A L num ws G mt fma P s wall W W2 /\ (forall e, ghosts_used V s = Some e -> walls_of V L e (F1_of s) wall).
Proof.
  intros Th H. unfold thick_walls in Th. destruct s as [k|k|k|k|k|k|k]; cbn [swept on_ranks ghosts_used ghosts_needed] in *;
    try (exists (fun _ => []); split; [exact H|discriminate]);
    apply with_walls_exchange in H; try reflexivity; try (intros; discriminate); try (intros _; apply Th; reflexivity); destruct H as (wall & H1 & H2); exists wall; (split; [exact H1|]); intros e E; injection E as <-; exact H2.
Qed.
(* ---- what the sweeps leave beyond the walls ---- *)
Hypothesis Fit : fits V L P.
Lemma updated_out (B r : mem V) p c a q xh yh zh (f : Z -> Z -> Z -> V) : inside L p -> (forall a, 0 <= AT a q <= l_n L a (AT a p) + 1) ->
  updated V (nx p) (ny p) (nz p) B r c xh yh zh f -> xh <= nx p + 1 -> yh <= ny p + 1 -> zh <= nz p + 1 ->
  (AT a q = 0 \/ AT a q = (match a with AX => xh | AY => yh | AZ => zh end) + 1) -> r (c, vox3 (size_at L p) q) = B (c, vox3 (size_at L p) q).
Proof.
  intros Hp Hm [_ U] X Y Z_ Hq. apply U. intros x y z Hx Hy Hz E. change (voxel (nx p) (ny p) (nz p) x y z) with (vox3 (size_at L p) (x, y, z)) in E.
  apply (vox_inj L OK p) in E; [|exact Hp|exact Hm|intros [| |]; cbn [RemoteModel.at_]; lia]. subst q. destruct a; cbn [RemoteModel.at_] in Hq; lia.
Qed.
Lemma beyond_in p a t c q : inside L p -> t = -1 \/ t = 1 -> beyond GhostTangB (size_at L p) a t c q -> forall d, 0 <= AT d q <= l_n L d (AT d p) + 1.
Proof.
  intros Hp Ht (C & Ha & Hd) d. destruct (axis_eq d a) as [-> | N].
  - rewrite Ha, at_size. destruct OK as [_ On]. pose proof (On a _ (Hp a)). destruct Ht as [-> | ->]; cbn; lia.
  - specialize (Hd d N). rewrite at_size in Hd. destruct (node_on c d); lia.
Qed.
Lemma beyond_faces p a t c q (B r : mem V) fx fy fz : inside L p -> t = -1 \/ t = 1 -> beyond GhostTangB (size_at L p) a t c q ->
  on_xface V (nx p) (ny p) (nz p) B r Cbx fx -> on_yface V (nx p) (ny p) (nz p) B r Cby fy -> on_zface V (nx p) (ny p) (nz p) B r Cbz fz ->
  r (c, vox3 (size_at L p) q) = B (c, vox3 (size_at L p) q).
Proof.
  intros Hp Ht Hb Ux Uy Uz. pose proof (beyond_in p a t c q Hp Ht Hb) as Hm. destruct Hb as (C & Ha & _). rewrite at_size in Ha.
  assert (Q : AT a q = 0 \/ AT a q = l_n L a (AT a p) + 1) by (destruct Ht as [-> | ->]; cbn in Ha; tauto).
  destruct a, c; try discriminate C; first [(apply (updated_out B r p _ AX q _ _ _ _ Hp Hm Ux); [lia|lia|lia|exact Q]) | (apply (updated_out B r p _ AX q _ _ _ _ Hp Hm Uy); [lia|lia|lia|exact Q]) | (apply (updated_out B r p _ AX q _ _ _ _ Hp Hm Uz); [lia|lia|lia|exact Q]) | (apply (updated_out B r p _ AY q _ _ _ _ Hp Hm Ux); [lia|lia|lia|exact Q]) | (apply (updated_out B r p _ AY q _ _ _ _ Hp Hm Uy); [lia|lia|lia|exact Q]) | (apply (updated_out B r p _ AY q _ _ _ _ Hp Hm Uz); [lia|lia|lia|exact Q]) | (apply (updated_out B r p _ AZ q _ _ _ _ Hp Hm Ux); [lia|lia|lia|exact Q]) | (apply (updated_out B r p _ AZ q _ _ _ _ Hp Hm Uy); [lia|lia|lia|exact Q]) | (apply (updated_out B r p _ AZ q _ _ _ _ Hp Hm Uz); [lia|lia|lia|exact Q])].
Qed.

Lemma ghosts_b_other e c g : e <> GhostTangB -> c = Cbx \/ c = Cby \/ c = Cbz -> ghosted e = true -> g_ghosts A K M e F c g = F c g.
Proof.
  intros Ne Hc Hg. unfold g_ghosts. replace (find _ _) with (@None (axis * Z)); [reflexivity|]. symmetry. apply find_none_iff. intros [a t] _. cbn [fst snd].
  replace (beyond_comp e a c) with false; [rewrite andb_false_r; reflexivity|]. destruct e; try discriminate Hg; try congruence; destruct Hc as [-> |[-> | ->]], a; reflexivity.
Qed.
Lemma not_ghost e p (Gh : list (floc * V)) (m B : mem V) c l : ghosted e = true -> e <> GhostTangB -> c = Cbx \/ c = Cby \/ c = Cbz -> ghost_list (ghosts_of e (nx p) (ny p) (nz p)) Gh -> with_ghosts Gh m B -> B (c, l) = m (c, l).
Proof.
  intros Hg Ne Hc [_ Gl] [_ Bo]. apply Bo. intros Hin. apply in_map_iff in Hin. destruct Hin as ([[c' v] x] & E & Hin). cbn [fst] in E. injection E as -> ->. apply Gl in Hin.
  destruct e; try discriminate Hg; try congruence; cbn [ghosts_of] in Hin.
  - unfold ghost_norm_e in Hin. destruct Hc as [-> |[-> | ->]]; intuition discriminate.
  - unfold ghost_div_b in Hin. destruct Hc as [-> |[-> | ->]]; intuition discriminate.
Qed.
Lemma beyond_cb a c : beyond_comp GhostTangB a c = true -> c = Cbx \/ c = Cby \/ c = Cbz.
Proof. destruct a, c; cbn; intuition discriminate. Qed.
Lemma walls_after s W2 : swept V RAr A K L num ws G mt fma P s W W2 -> holds_walls L num (F1_of s) W2.
Proof.
  intros H p a t c q Hp Ht Hb B. pose proof (beyond_cb a c (proj1 B)) as Hc.
  assert (Pos : 1 <= nx p /\ 1 <= ny p /\ 1 <= nz p) by (destruct OK as [_ O]; split; [|split]; apply O, Hp). destruct Pos as (X & Y & Z_), (Fit p Hp) as [F1 F2].
  pose proof (HW p a t c q Hp Ht Hb B) as Hw.
  assert (Ncb : forall cs, (forall x, In x cs -> x <> Cbx /\ x <> Cby /\ x <> Cbz) -> ~ In c cs) by (intros cs Hcs Hin; specialize (Hcs c Hin); intuition congruence).
  unfold F1_of. destruct s as [k|k|k|k|k|k|k]; cbn [swept ghosts_needed] in *.
  - specialize (H p Hp). eapply advance_b_spec in H; try eassumption. destruct H as (_ & Ux & Uy & Uz). rewrite (beyond_faces p a t c q _ _ _ _ _ Hp Ht B Ux Uy Uz). exact Hw.
  - destruct H as (W1 & Gh & Fl & _ & H). destruct (H p Hp) as (H1 & H2 & H3 & H4). eapply advance_e_spec in H4; try eassumption. destruct H4 as (Bm & [Bi _] & (On & _)).
    rewrite On by (apply Ncb; cbn [In]; intuition (subst; discriminate)). specialize (H3 a t c q Ht (beyond_ghost_b p a t c q B)). rewrite Hb in H3. rewrite (Bi _ _ H3).
    apply (local_values GhostTangB p (Fl p) a t c q eq_refl Hp Ht Hb B); [discriminate|exact H1].
  - destruct H as (W1 & Gh & Fl & _ & H). destruct (H p Hp) as (_ & H2 & _ & H4). eapply div_e_err_spec in H4; try eassumption. destruct H4 as (Bm & Bg & (On & _)).
    rewrite On by (apply Ncb; cbn [In]; intuition (subst; discriminate)). rewrite (not_ghost GhostNormE p (Gh p) (W (num p)) Bm c _ eq_refl ltac:(discriminate) Hc H2 Bg). rewrite ghosts_b_other; [exact Hw|discriminate|exact Hc|reflexivity].
  - destruct H as (W1 & Gh & Fl & _ & H). destruct (H p Hp) as (_ & H2 & _ & H4). eapply rhob_spec in H4; try eassumption. destruct H4 as (Bm & Bg & (On & _)).
    rewrite On by (apply Ncb; cbn [In]; intuition (subst; discriminate)). rewrite (not_ghost GhostNormE p (Gh p) (W (num p)) Bm c _ eq_refl ltac:(discriminate) Hc H2 Bg). rewrite ghosts_b_other; [exact Hw|discriminate|exact Hc|reflexivity].
  - specialize (H p Hp). eapply div_b_err_spec in H; try eassumption. destruct H as (On & _). rewrite On by (apply Ncb; cbn [In]; intuition (subst; discriminate)). exact Hw.
  - destruct H as (W1 & Gh & Fl & _ & H). destruct (H p Hp) as (_ & H2 & _ & H4). eapply clean_div_b_spec in H4; try eassumption. destruct H4 as (Bm & Bg & (_ & Ux & Uy & Uz)).
    rewrite (beyond_faces p a t c q _ _ _ _ _ Hp Ht B Ux Uy Uz). rewrite (not_ghost GhostDivB p (Gh p) (W (num p)) Bm c _ eq_refl ltac:(discriminate) Hc H2 Bg). rewrite ghosts_b_other; [exact Hw|discriminate|exact Hc|reflexivity].
  - specialize (H p Hp). eapply clean_div_e_spec in H; try eassumption. destruct H as (On & _). rewrite On by (apply Ncb; cbn [In]; intuition (subst; discriminate)). exact Hw.
Qed.
(* the adjustment *)
Lemma hit_adjust s p c q : inside L p -> holds L c p q ->
  (hit L num G p s c q <-> existsb (fun d => negb (gm_per M (fst d)) && (AT (fst d) (gplace L p q) =? rim M (fst d) (snd d)) && kept_zero s (fst d) c (gm_bc M (fst d) (snd d))) all_faces = true).
Proof.
  intros Hp Hq. rewrite existsb_exists. split.
  - intros (a & t & Ht & Hb & Ha & Hz & _). exists (a, t). split; [apply all_faces_in, Ht|]. cbn [fst snd]. destruct (mesh_code p a t Hp Ht Hb) as [Ec _]. rewrite <- Ec, Hz, andb_true_r.
    pose proof (proj1 (beside_none L a _ t (Hp a) Ht) Hb) as [Pe _]. destruct (HM a) as [_ Pm]. rewrite <- Pm, Pe. cbn [negb andb]. apply Z.eqb_eq.
    apply (place_rim L OK M HM a t p q Hp Ht Pe); [|split; [exact Hb|exact Ha]]. specialize (Hq a). destruct (node_on c a); lia.
  - intros ([a t] & Hin & E). apply all_faces_sign in Hin. cbn [fst snd] in *. apply andb_prop in E. destruct E as [E E3]. apply andb_prop in E. destruct E as [E1 E2]. apply Z.eqb_eq in E2. apply negb_true_iff in E1.
    destruct (HM a) as [_ Pm]. rewrite <- Pm in E1. apply (place_rim L OK M HM a t p q Hp Hin E1) in E2; [|specialize (Hq a); destruct (node_on c a); lia]. destruct E2 as [Hb Ha].
    exists a, t. split; [exact Hin|]. split; [exact Hb|]. split; [exact Ha|]. split; [|exact Hq]. destruct (mesh_code p a t Hp Hin Hb) as [-> _]. exact E3.
Qed.
Hypothesis Hz : r_zero V RAr = lc_zero K.
Lemma after_adjust s F2 W2 W3 : field_repeats L F2 -> holds_field L num F2 W2 -> holds_walls L num (F1_of s) W2 ->
  (forall p, inside L p -> rank_adjust RAr (lc_zero K) L num ws G s p (W2 (num p)) = Some (W3 (num p))) ->
  held V L num (g_within M (g_adjust K M s F2) (F1_of s)) W3.
Proof.
  intros R2 H2 Hw2 Ha.
  assert (Ok : forall p c q, inside L p -> (hit L num G p s c q -> W3 (num p) (c, vox3 (size_at L p) q) = lc_zero K) /\
     ((forall a, 0 <= AT a q <= l_n L a (AT a p) + 1) -> ~ hit L num G p s c q -> W3 (num p) (c, vox3 (size_at L p) q) = W2 (num p) (c, vox3 (size_at L p) q))).
  { intros p c q Hp. apply (rank_adjust_ok RAr (lc_zero K) L num ws G OK HB p Hp Hz s (W2 (num p)) (W3 (num p))); [|exact (Ha p Hp)].
    intros a t Ht Hb. destruct (mesh_code p a t Hp Ht Hb) as [-> R]. lia. }
  split; [apply rep_within; [exact HM|apply rep_adjust; [exact HM|exact R2]|apply F1_rep]|]. split.
  - intros c p q Hp Hq. unfold g_within. rewrite (held_in_mesh_at L OK M HM c p q Hp Hq). unfold g_adjust. destruct (Ok p c q Hp) as [O1 O2]. pose proof (hit_adjust s p c q Hp Hq) as Hh.
    destruct (existsb _ all_faces).
    + apply O1, Hh. reflexivity.
    + rewrite O2; [apply H2; assumption|exact (held_in_mesh L c p q Hp Hq)|]. intros X. apply Hh in X. discriminate.
  - intros p a t c q Hp Ht Hb B. unfold g_within. rewrite (beyond_not_in_mesh L M HM GhostTangB p a t c q Hp Ht Hb B). destruct (Ok p c q Hp) as [_ O2].
    rewrite O2; [apply (Hw2 p a t c q Hp Ht Hb B)|exact (beyond_in p a t c q Hp Ht B)|].
    intros (a' & t' & _ & _ & _ & _ & Hh). destruct B as (C & Pa & _). specialize (Hh a). rewrite (beyond_off GhostTangB a c C) in Hh. rewrite at_size in Pa. destruct Ht as [-> | ->]; cbn in Pa; lia.
Qed.
End Proof.

(* One sweep of all ranks, with the exchange, the values beyond walls and the adjustment at the walls: if the arrays held the field F of the mesh, they then hold the
   field that the undivided mesh with the same walls has. *)
Theorem C56_step : forall V RAr A K L num ws G mt fma P M gm F s W W3,
  layout_ok L -> box L num ws G -> divides L num G M -> even_sizes L -> clear_weights RAr L -> fits V L P -> alike V L mt gm -> r_zero V RAr = lc_zero K -> thick_walls V L M s ->
  held V L num F W -> ranks_step V RAr A K L num ws G mt fma P s W W3 -> held V L num (g_step A K M gm F s) W3.
Proof.
  intros V RAr A K L num ws G mt fma P M gm F s W W3 OK HB Dv Ev Cw Fit Al Hz Th (Fr & HF & HW) (W2 & Hs & Ha).
  destruct (to_on_ranks V RAr A K L num ws G mt fma P M OK HB Dv F W HF HW s W2 Th Hs) as (wall & Hr & Hwl).
  destruct (C54_sweep V RAr A L num ws G mt fma P gm (F1_of V A K M F s) s wall W W2 OK HB Ev Cw Fit Al) as [H1 H2];
    [eapply F1_rep; eassumption|eapply F1_held; eassumption|exact Hwl|exact Hr|].
  pose proof (walls_after V RAr A K L num ws G mt fma P M OK HB Dv F W HF HW Fit s W2 Hs) as H3.
  eapply after_adjust; eassumption.
Qed.
Print Assumptions C56_step.

(* Any sequence of sweeps on a box with walls: the ranks end with the field of the undivided mesh. *)
Theorem C56_run : forall V RAr A K L num ws G mt fma P M gm ss F W W2,
  layout_ok L -> box L num ws G -> divides L num G M -> even_sizes L -> clear_weights RAr L -> fits V L P -> alike V L mt gm -> r_zero V RAr = lc_zero K ->
  (forall s, In s ss -> thick_walls V L M s) -> held V L num F W -> ranks_run V RAr A K L num ws G mt fma P ss W W2 -> held V L num (fold_left (g_step A K M gm) ss F) W2.
Proof.
  intros V RAr A K L num ws G mt fma P M gm ss. induction ss as [|s ss IH]; intros F W W2 OK HB Dv Ev Cw Fit Al Hz Th HF H; inversion H; subst; cbn [fold_left]; [exact HF|].
  eapply IH; try eassumption; [intros s' Hs'; apply Th; right; exact Hs'|]. eapply C56_step; try eassumption. apply Th. left. reflexivity.
Qed.
Print Assumptions C56_run.

(* So two ways of dividing the same mesh end with the same value wherever both hold one. *)
Theorem C56_layouts_agree : forall V RAr A K M gm ss F L num ws G mt fma P W W2 L' num' ws' G' mt' fma' P' W' W2', r_zero V RAr = lc_zero K ->
  layout_ok L -> box L num ws G -> divides L num G M -> even_sizes L -> clear_weights RAr L -> fits V L P -> alike V L mt gm -> (forall s, In s ss -> thick_walls V L M s) ->
  layout_ok L' -> box L' num' ws' G' -> divides L' num' G' M -> even_sizes L' -> clear_weights RAr L' -> fits V L' P' -> alike V L' mt' gm -> (forall s, In s ss -> thick_walls V L' M s) ->
  held V L num F W -> held V L' num' F W' ->
  ranks_run V RAr A K L num ws G mt fma P ss W W2 -> ranks_run V RAr A K L' num' ws' G' mt' fma' P' ss W' W2' ->
  forall c p q p' q', inside L p -> holds L c p q -> inside L' p' -> holds L' c p' q' -> gplace L p q = gplace L' p' q' ->
  W2 (num p) (c, vox3 (size_at L p) q) = W2' (num' p') (c, vox3 (size_at L' p') q').
Proof.
  intros V RAr A K M gm ss F L num ws G mt fma P W W2 L' num' ws' G' mt' fma' P' W' W2' Hz OK HB Dv Ev Cw Fit Al Th OK' HB' Dv' Ev' Cw' Fit' Al' Th' HF HF' H H' c p q p' q' Hp Hq Hp' Hq' E.
  destruct (C56_run V RAr A K L num ws G mt fma P M gm ss F W W2 OK HB Dv Ev Cw Fit Al Hz Th HF H) as (_ & X & _).
  destruct (C56_run V RAr A K L' num' ws' G' mt' fma' P' M gm ss F W' W2' OK' HB' Dv' Ev' Cw' Fit' Al' Hz Th' HF' H') as (_ & X' & _).
  rewrite (X c p q Hp Hq), (X' c p' q' Hp' Hq'), E. reflexivity.
Qed.
Print Assumptions C56_layouts_agree.

(* The constants of the values beyond walls depend on the local cell counts only through whether they are all 1. *)
Theorem C56_same_constants : forall r r', (gnx r <= 1 /\ gny r <= 1 /\ gnz r <= 1 <-> gnx r' <= 1 /\ gny r' <= 1 /\ gnz r' <= 1) ->
  rdx r = rdx r' -> rdy r = rdy r' -> rdz r = rdz r' -> cvac r = cvac r' -> dt r = dt r' -> ghost_consts r = ghost_consts r'.
Proof.
  intros r r' H E1 E2 E3 E4 E5. unfold ghost_consts, cdt_d, higend. rewrite E1, E2, E3, E4, E5.
  replace ((1 <? gnx r') || (1 <? gny r') || (1 <? gnz r')) with ((1 <? gnx r) || (1 <? gny r) || (1 <? gnz r)) by lia. reflexivity.
Qed.
Print Assumptions C56_same_constants.

(* On the undivided mesh the walls keep what they stand for: after any run that ends with an advance of E the tangential E is 0 on every conductor, after one that ends
   with an advance of B the normal B is 0 on every symmetry plane. *)
Theorem C56_walls_kept : forall V (A : arith V) K M gm F s a t c g, t = -1 \/ t = 1 -> gm_per M a = false -> at_ a g = rim M a t -> in_mesh_at M c g = true -> kept_zero s a c (gm_bc M a t) = true ->
  g_step A K M gm F s c g = lc_zero K.
Proof.
  intros V A K M gm F s a t c g Ht Hp Hg Hm Hk. unfold g_step, g_within. rewrite Hm. unfold g_adjust. replace (existsb _ _) with true; [reflexivity|]. symmetry. apply existsb_exists. exists (a, t).
  split; [apply all_faces_in, Ht|]. cbn [fst snd]. rewrite Hp, Hk. rewrite Hg, Z.eqb_refl. reflexivity.
Qed.
Print Assumptions C56_walls_kept.

(* With the four boundary conditions at the walls every step can be carried out, so runs of any sequence exist from any arrays. *)
Lemma entry_unique {V} (L : layout V) e p a t c q a' t' : layout_ok L -> inside L p -> t = -1 \/ t = 1 -> t' = -1 \/ t' = 1 -> ghosted e = true -> ghost_entry L e p a t c q -> ghost_entry L e p a' t' c q -> a = a' /\ t = t'.
Proof.
  intros [_ O] Hp Ht Ht' Hg (Q1 & Q2 & Q3) (Q1' & Q2' & Q3'). pose proof (O a _ (Hp a)) as N.
  assert (Nn : node_on c a = false) by (destruct e, a, c; try discriminate Hg; try discriminate Q1; reflexivity).
  destruct (axis_eq a a') as [<- | Na].
  - split; [reflexivity|]. rewrite Q2 in Q2'. destruct Ht as [-> | ->], Ht' as [-> | ->]; cbn in Q2'; lia.
  - exfalso. specialize (Q3' a Na). rewrite Nn in Q3'. destruct Ht as [-> | ->]; cbn in Q2; lia.
Qed.
Definition known_walls {V} (L : layout V) (num : cell -> Z) (G : Z -> cgrid V) : Prop :=
  forall p a t, inside L p -> t = -1 \/ t = 1 -> beside L a (AT a p) t = None -> -4 <= c_bc V (G (num p)) (port a t) <= -1.
Theorem C56_steps_exist : forall V RAr A K L num ws G mt fma P s W, layout_ok L -> box L num ws G -> known_walls L num G -> exists W3, ranks_step V RAr A K L num ws G mt fma P s W W3.
Proof.
  intros V RAr A K L num ws G mt fma P s W OK HB Kn.
  assert (Code : forall p a t, inside L p -> t = -1 \/ t = 1 -> c_bc V (G (num p)) (port a t) < 0 \/ ws <= c_bc V (G (num p)) (port a t) -> -4 <= c_bc V (G (num p)) (port a t) <= -1).
  { intros p a t Hp Ht Hc. apply (wall_codes L num ws G HB p Hp a t Ht) in Hc. apply Kn; assumption. }
  assert (Ch : forall W (run : cell -> mem V -> mem V -> Prop), (forall p m, inside L p -> exists r, run p m r) -> exists W2, forall p, inside L p -> run p (W (num p)) (W2 (num p))).
  { intros W0 run Hr. destruct (pick (fun r m => forall p, inside L p -> num p = r -> run p (W0 r) m) (W0 0) ws) as (W2 & H2).
    - intros r Rr. pose proof HB as (_ & In_ & On & _). destruct (On r Rr) as (p & Hp & <-). destruct (Hr p (W0 (num p)) Hp) as (m & Hm). exists m.
      intros p' Hp' E. rewrite (In_ p' p Hp' Hp E). exact Hm.
    - exists W2. intros p Hp. apply H2; [apply HB, Hp|exact Hp|reflexivity]. }
  assert (Ad : forall W2, exists W3, forall p, inside L p -> rank_adjust RAr (lc_zero K) L num ws G s p (W2 (num p)) = Some (W3 (num p))).
  { intros W2. apply (Ch W2 (fun p m r => rank_adjust RAr (lc_zero K) L num ws G s p m = Some r)). intros p m Hp.
    assert (Fa : forall acts skips locs fs F, (forall b, -4 <= b <= -1 -> existsb (Z.eqb b) acts = true \/ existsb (Z.eqb b) skips = true) ->
      exists F', adjust_all V (lc_zero K) (fun f => c_bc V (G (num p)) (port (fst (face_of f)) (snd (face_of f)))) ws acts skips locs fs F = Some F').
    { intros acts skips locs fs. induction fs as [|f fs IH]; intros F Hb; [eexists; reflexivity|]. cbn [adjust_all]. unfold adjust_face.
      destruct ((0 <=? _) && _) eqn:E; [apply IH, Hb|]. destruct (Hb (c_bc V (G (num p)) (port (fst (face_of f)) (snd (face_of f))))) as [Q|Q];
        [apply Code; [exact Hp|apply face_sign|lia]| |]; rewrite Q; [apply IH, Hb|]. destruct (existsb _ acts); apply IH, Hb. }
    assert (Fr : forall ds F, (forall d, In d ds -> snd d = -1 \/ snd d = 1) -> exists F', adjust V RAr ws Rhob (G (num p)) ds F = Some F').
    { induction ds as [|[a t] ds IH]; intros F Hd; [eexists; reflexivity|]. cbn [adjust]. unfold adjust_dir.
      destruct ((c_bc V (G (num p)) (port a t) <? 0) || (ws <=? c_bc V (G (num p)) (port a t))) eqn:E; [|apply IH; intros d Hin; apply Hd; right; exact Hin].
      pose proof (Code p a t Hp (Hd (a, t) (or_introl eq_refl)) ltac:(lia)) as R.
      assert (Q : exists x, adjust_action Rhob (c_bc V (G (num p)) (port a t)) = Some x).
      { assert (B : c_bc V (G (num p)) (port a t) = -1 \/ c_bc V (G (num p)) (port a t) = -2 \/ c_bc V (G (num p)) (port a t) = -3 \/ c_bc V (G (num p)) (port a t) = -4) by lia.
        destruct B as [-> |[-> |[-> | ->]]]; eexists; reflexivity. }
      destruct Q as (x & ->). apply IH. intros d Hin. apply Hd. right. exact Hin. }
    assert (Cd : forall b, -4 <= b <= -1 -> b = -1 \/ b = -2 \/ b = -3 \/ b = -4) by (intros; lia).
    destruct s; cbn [rank_adjust]; unfold adjust_norm_b, adjust_tang_e, adjust_div_e, adjust_rhob;
      first [apply Fa; intros b Rb; destruct (Cd b Rb) as [-> |[-> |[-> | ->]]]; cbn; tauto | apply Fr; intros d Hd; exact (six_dirs d Hd) | eexists; reflexivity]. }
  assert (Gx : forall e (run : cell -> list (floc * V) -> mem V -> mem V -> Prop), ghosted e = true -> (forall p Gh m, exists r, run p Gh m r) ->
             exists W2, with_walls V RAr A K L num ws G e run W W2).
  { intros e run Hg Hr.
    assert (X : exists W1, run_phases V RAr ws G e (phases e) W W1).
    { assert (Kr : forall r, 0 <= r < ws -> exists F', receive_all V RAr ws G e r (messages V ws G e six W) six (W r) = Some F').
      { intros r Rr. pose proof HB as (_ & _ & On & _). destruct (On r Rr) as (p & Hp & <-). apply (receive_list_ok RAr L num ws G OK HB e six W p six_dirs Hp). apply incl_refl. }
      exists (fun r => match receive_all V RAr ws G e r (messages V ws G e six W) six (W r) with Some F => F | None => W r end).
      unfold phases. rewrite Hg. econstructor; [|constructor; reflexivity]. intros r Rr. destruct (Kr r Rr) as (F' & EF). rewrite EF. reflexivity. }
    destruct X as (W1 & HW1).
    set (Fl := fun p => match local_ghost V A K ws (G (num p)) e (W (num p)) with Some F => F | None => W (num p) end).
    set (got_ := fun p d => map (locv (size_at L p)) (addrs (size_at L p) (fst d) (recv_plane e (snd d) (l_n L (fst d) (AT (fst d) p))) (send_items e (fst d)))).
    set (locs := fun p => nodup floc_dec (flat_map (got_ p) six)).
    set (val := fun p l => if existsb (fun d => match beside L (fst d) (AT (fst d) p) (- snd d) with None => existsb (floc_eqb l) (got_ p d) | Some _ => false end) six then Fl p l else W1 (num p) l).
    set (Gh := fun p => map (fun l => (l, val p l)) (locs p)).
    assert (Gt : forall p a t c l, t = -1 \/ t = 1 -> In (c, l) (got_ p (a, t)) <-> exists q, l = vox3 (size_at L p) q /\ ghost_entry L e p a (- t) c q).
    { intros p a t c l Ht. unfold got_. cbn [fst snd]. rewrite in_map_iff. split.
      - intros ([c' q] & E & Hq). injection E as -> <-. exists q. split; [reflexivity|]. apply (got_ghost L e Hg p a t c q Ht) in Hq. destruct Hq as (Q1 & Q2 & Q3). split; [exact Q1|]. split; [|exact Q3].
        rewrite Q2. destruct Ht as [-> | ->]; reflexivity.
      - intros (q & -> & (Q1 & Q2 & Q3)). exists (c, q). split; [reflexivity|]. apply (got_ghost L e Hg p a t c q Ht). split; [exact Q1|]. split; [|exact Q3]. rewrite Q2. destruct Ht as [-> | ->]; reflexivity. }
    assert (Em : forall p a t c q, inside L p -> t = -1 \/ t = 1 -> ghost_entry L e p a t c q -> forall b, 0 <= AT b q <= l_n L b (AT b p) + 1).
    { intros p a t c q Hp Ht (Q1 & Q2 & Q3) b. destruct OK as [_ O]. pose proof (O b _ (Hp b)). destruct (axis_eq b a) as [-> | N]; [destruct (t =? -1); lia|]. specialize (Q3 b N). destruct (node_on c b); lia. }
    destruct (Ch W (fun p m r => run p (Gh p) m r)) as (W2 & H2); [intros p m _; apply Hr|].
    exists W2, W1, Gh, Fl. split; [exact HW1|]. intros p Hp. split; [|split; [|split; [|apply H2, Hp]]].
    - unfold Fl. destruct (local_ghost V A K ws (G (num p)) e (W (num p))) eqn:E; [reflexivity|]. exfalso.
      destruct (proj2 (C55_defined V A K ws (G (num p)) e (W (num p)) Hg)) as (F' & E'); [|rewrite E in E'; discriminate]. intros a t [Ht Hc]. apply Code; assumption.
    - split.
      + unfold Gh. rewrite map_map. cbn [fst]. rewrite map_id. apply NoDup_nodup.
      + intros c v x Hin. unfold Gh in Hin. apply in_map_iff in Hin. destruct Hin as (l & E & Hl). injection E as -> _. unfold locs in Hl. apply nodup_In in Hl.
        apply in_flat_map in Hl. destruct Hl as ((a & t) & Hd & Hl). pose proof (six_dirs (a, t) Hd) as Ht. cbn [snd] in Ht. apply (Gt p a t c v Ht) in Hl. destruct Hl as (q & -> & Hq).
        assert (Ht' : - t = -1 \/ - t = 1) by (unfold sign in Ht; lia). pose proof (Em p a (- t) c q Hp Ht' Hq) as Mq. destruct Hq as (Q1 & Q2 & Q3).
        assert (Og : on_ghost (l_n L AX (AT AX p)) (l_n L AY (AT AY p)) (l_n L AZ (AT AZ p)) (match a with AX => 0 | AY => 1 | AZ => 2 end) (vox3 (size_at L p) q)).
        { pose proof (Mq AX); pose proof (Mq AY); pose proof (Mq AZ). destruct q as [[qx qy] qz]. exists qx, qy, qz. cbn [RemoteModel.at_] in *. repeat (split; [assumption|]). split; [reflexivity|].
          destruct a; cbn [RemoteModel.at_] in Q2; destruct (- t =? -1); tauto. }
        destruct e; try discriminate Hg; destruct a, c; try discriminate Q1; cbn [ghosts_of];
          unfold ghost_tang_b, ghost_norm_e, ghost_div_b; try tauto; (split; [reflexivity|]); eexists; (split; [|exact Og]); tauto.
    - intros a t c q Ht Hq. assert (Ht' : - t = -1 \/ - t = 1) by lia.
      assert (Hi : In (c, vox3 (size_at L p) q) (got_ p (a, - t))) by (apply Gt; [exact Ht'|]; exists q; split; [reflexivity|]; rewrite Z.opp_involutive; exact Hq).
      assert (Hs : In (a, - t) six) by (destruct Ht as [-> | ->], a; cbn; tauto).
      assert (Hl : In (c, vox3 (size_at L p) q) (locs p)) by (unfold locs; apply nodup_In; apply in_flat_map; exists (a, - t); split; assumption).
      enough (Ev : val p (c, vox3 (size_at L p) q) = match beside L a (AT a p) t with Some _ => W1 (num p) | None => Fl p end (c, vox3 (size_at L p) q)).
      { rewrite <- Ev. unfold Gh. exact (in_map (fun l => (l, val p l)) _ _ Hl). }
      unfold val. destruct (beside L a (AT a p) t) eqn:E.
      + replace (existsb _ six) with false; [reflexivity|]. symmetry. apply not_true_iff_false. intros Ex_. apply existsb_exists in Ex_. destruct Ex_ as ([a' t'] & Hd & Q). cbn [fst snd] in Q.
        destruct (beside L a' (AT a' p) (- t')) eqn:E'; [discriminate|]. apply existsb_exists in Q. destruct Q as (l & Hl' & Ek). apply (reflect_iff _ _ (floc_eqb_spec _ _)) in Ek. subst l.
        pose proof (six_dirs _ Hd) as Hs'. cbn [snd] in Hs'. unfold sign in Hs'. apply (Gt p a' t' _ _ Hs') in Hl'. destruct Hl' as (q' & Eq & Hq'). assert (Hs2 : - t' = -1 \/ - t' = 1) by lia.
        apply (vox_inj L OK p) in Eq; [|exact Hp|exact (Em p a t c q Hp Ht Hq)|exact (Em p a' (- t') c q' Hp Hs2 Hq')]. subst q'.
        destruct (entry_unique L e p a t c q a' (- t') OK Hp Ht Hs2 Hg Hq Hq') as [<- Et]. rewrite <- Et in E'. congruence.
      + replace (existsb _ six) with true; [reflexivity|]. symmetry. apply existsb_exists. exists (a, - t). split; [exact Hs|]. cbn [fst snd]. rewrite Z.opp_involutive, E.
        apply existsb_exists. eexists. split; [exact Hi|]. apply (reflect_iff _ _ (floc_eqb_spec _ _)). reflexivity. }
  assert (Sw : exists W2, swept V RAr A K L num ws G mt fma P s W W2).
  { destruct s as [k|k|k|k|k|k|k]; cbn [swept].
    - apply (Ch W (fun p => advance_b_run V A (mt p) k (l_n L AX (AT AX p)) (l_n L AY (AT AY p)) (l_n L AZ (AT AZ p)) (fma p) (P p))). intros p m _. apply (runs_exist V A (mt p) k _ _ _ (fma p) (P p) [] m).
    - apply Gx; [reflexivity|]. intros p Gh m. apply (runs_exist V A (mt p) k (l_n L AX (AT AX p)) (l_n L AY (AT AY p)) (l_n L AZ (AT AZ p)) (fma p) (P p) Gh m).
    - apply Gx; [reflexivity|]. intros p Gh m. apply (runs_exist V A (mt p) k (l_n L AX (AT AX p)) (l_n L AY (AT AY p)) (l_n L AZ (AT AZ p)) (fma p) (P p) Gh m).
    - apply Gx; [reflexivity|]. intros p Gh m. apply (runs_exist V A (mt p) k (l_n L AX (AT AX p)) (l_n L AY (AT AY p)) (l_n L AZ (AT AZ p)) (fma p) (P p) Gh m).
    - apply (Ch W (fun p => div_b_err_run V A (mt p) k (l_n L AX (AT AX p)) (l_n L AY (AT AY p)) (l_n L AZ (AT AZ p)) (fma p) (P p))). intros p m _. apply (runs_exist V A (mt p) k _ _ _ (fma p) (P p) [] m).
    - apply Gx; [reflexivity|]. intros p Gh m. apply (runs_exist V A (mt p) k (l_n L AX (AT AX p)) (l_n L AY (AT AY p)) (l_n L AZ (AT AZ p)) (fma p) (P p) Gh m).
    - apply (Ch W (fun p => clean_div_e_run V A (mt p) k (l_n L AX (AT AX p)) (l_n L AY (AT AY p)) (l_n L AZ (AT AZ p)) (fma p) (P p))). intros p m _. apply (runs_exist V A (mt p) k _ _ _ (fma p) (P p) [] m). }
  destruct Sw as (W2 & H2). destruct (Ad W2) as (W3 & H3). exists W3, W2. split; assumption.
Qed.
Print Assumptions C56_steps_exist.

(* ---- cases ---- *)
(* Two cells along x between a wall lo and a wall hi, the ends of y and z joined, on one rank and on two. *)
Definition Lw (k : Z) : layout R := mk_layout R (fun a => match a with AX => k | _ => 1 end) (fun a => match a with AX => false | _ => true end) (fun a _ => match a with AX => 2 / k | _ => 1 end) (fun _ _ => 1%R).
Definition Gw (k lo hi : Z) (r : Z) : cgrid R := mk_cgrid R (2 / k, 1, 1) (fun _ => 1%R) (fun p => if p =? 12 then (if r =? 0 then lo else r - 1) else if p =? 14 then (if r =? k - 1 then hi else r + 1) else r).
Definition Mw (lo hi : Z) : gmesh := mk_gmesh (fun a => match a with AX => 2 | _ => 1 end) (fun a => match a with AX => false | _ => true end) (fun _ t => if t =? -1 then lo else hi).
Lemma Lw_ok k : k = 1 \/ k = 2 -> layout_ok (Lw k).
Proof. intros [-> | ->]; (split; [intros [| |]; cbn; lia|intros [| |] i _; cbn; lia]). Qed.
Lemma Lw_in k p : k = 1 \/ k = 2 -> inside (Lw k) p -> p = (0, 0, 0) \/ k = 2 /\ p = (1, 0, 0).
Proof.
  intros Hk H. destruct p as [[x y] z]. pose proof (H AX). pose proof (H AY). pose proof (H AZ). cbn in *. assert (y = 0) as -> by lia; assert (z = 0) as -> by lia. assert (x = 0 \/ k = 2 /\ x = 1) as [-> | [-> ->]] by lia; tauto.
Qed.
Lemma Lw_box k lo hi : k = 1 \/ k = 2 -> lo < 0 -> hi < 0 -> box (Lw k) (at_ AX) k (Gw k lo hi).
Proof.
  intros Hk Hl Hh. unfold box. split; [|split; [|split; [|split; [|split]]]].
  - intros p H. apply (H AX).
  - intros p q H H' E. destruct (Lw_in k p Hk H) as [->| [-> ->]]; destruct (Lw_in _ q Hk H') as [->| [K ->]]; cbn in E; try reflexivity; lia.
  - intros r Hr. exists (r, 0, 0). split; [intros [| |]; cbn; lia|reflexivity].
  - intros p H. destruct (Lw_in k p Hk H) as [->| [_ ->]]; reflexivity.
  - intros p a H. reflexivity.
  - intros p a s H Hs. destruct (Lw_in k p Hk H) as [-> | [-> ->]].
    + destruct Hk as [-> | ->]; destruct Hs as [-> | ->]; destruct a; vm_compute; intuition congruence.
    + destruct Hs as [-> | ->]; destruct a; vm_compute; intuition congruence.
Qed.
Lemma Lw_divides k lo hi : k = 1 \/ k = 2 -> -4 <= lo <= -1 -> -4 <= hi <= -1 -> divides (Lw k) (at_ AX) (Gw k lo hi) (Mw lo hi).
Proof.
  intros Hk Hl Hh. split; [intros a; destruct Hk as [-> | ->], a; split; reflexivity|]. split.
  - intros p a t Hp Ht Hb. destruct (Lw_in k p Hk Hp) as [-> | [-> ->]]; destruct Hk as [E | E]; try discriminate E; subst; destruct Ht as [-> | ->], a; try discriminate Hb; reflexivity.
  - intros a t Hp Ht. cbn. destruct Ht as [-> | ->]; cbn; assumption.
Qed.
Lemma divides_known {V} (L : layout V) num G M : divides L num G M -> known_walls L num G.
Proof.
  intros (D1 & D2 & D3) p a t Hp Ht Hb. rewrite (D2 p a t Hp Ht Hb). apply D3; [|exact Ht]. apply (beside_none L a _ t (Hp a) Ht) in Hb. destruct (D1 a) as [_ <-]. tauto.
Qed.
Definition Kw : lconst R := mk_lconst R Ropp 2%R 0%R (fun _ => 1%R) (fun _ => 3%R) (fun _ => 5%R).
Lemma Fw_held k : k = 1 \/ k = 2 -> held R (Lw k) (at_ AX) Fa (Wa k).
Proof.
  intros Hk. split; [|split].
  - intros c a g Hp. destruct a; [discriminate Hp| |]; destruct g as [[x y] z]; unfold Fa; destruct c; reflexivity.
  - intros c p q Hp Hq. apply (Wa_holds k Hk c p q); [exact Hp|exact Hq].
  - intros p a t c q _ _ _ B. pose proof (beyond_cb a c (proj1 B)) as Hc. destruct Hc as [-> |[-> | ->]]; reflexivity.
Qed.
(* A conductor and an absorbing wall, advance of B and then of E: Cbz becomes 1 and -1 in the two cells as in C54_example.  Ey is kept 0 on the conductor; between the
   cells it becomes 0 - (-1 - 1) = 2; on the absorbing wall the Cbz beyond is 3*0 + 5*(-1) + (1 - 0) = -4 and Ey becomes 1 - (-4 - -1) = 4. *)
Example C56_example : forall k, k = 1 \/ k = 2 ->
  (exists W2, ranks_run R Rarith RA Kw (Lw k) (at_ AX) k (Gw k (-1) (-4)) (fun _ => mta) (fun _ => false) (fun _ => 4) [AdvanceB ka; AdvanceE ka] (Wa k) W2) /\
  forall W2, ranks_run R Rarith RA Kw (Lw k) (at_ AX) k (Gw k (-1) (-4)) (fun _ => mta) (fun _ => false) (fun _ => 4) [AdvanceB ka; AdvanceE ka] (Wa k) W2 ->
  W2 0 (Ey, voxel (2 / k) 1 1 1 1 1) = 0%R /\ W2 0 (Ey, voxel (2 / k) 1 1 2 1 1) = 2%R /\ W2 (k - 1) (Ey, voxel (2 / k) 1 1 (4 - k) 1 1) = 4%R.
Proof.
  intros k Hk. pose proof (Lw_box k (-1) (-4) Hk ltac:(lia) ltac:(lia)) as HB. pose proof (Lw_divides k (-1) (-4) Hk ltac:(lia) ltac:(lia)) as Dv. split.
  - destruct (C56_steps_exist R Rarith RA Kw (Lw k) (at_ AX) k (Gw k (-1) (-4)) (fun _ => mta) (fun _ => false) (fun _ => 4) (AdvanceB ka) (Wa k) (Lw_ok k Hk) HB (divides_known _ _ _ _ Dv)) as (W1 & H1).
    destruct (C56_steps_exist R Rarith RA Kw (Lw k) (at_ AX) k (Gw k (-1) (-4)) (fun _ => mta) (fun _ => false) (fun _ => 4) (AdvanceE ka) W1 (Lw_ok k Hk) HB (divides_known _ _ _ _ Dv)) as (W2 & H2).
    exists W2. econstructor; [exact H1|]. econstructor; [exact H2|]. constructor.
  - intros W2 H.
    destruct (C56_run R Rarith RA Kw (Lw k) (at_ AX) k (Gw k (-1) (-4)) (fun _ => mta) (fun _ => false) (fun _ => 4) (Mw (-1) (-4)) gma [AdvanceB ka; AdvanceE ka] Fa (Wa k) W2) as (_ & X & _);
      [apply Lw_ok, Hk|exact HB|exact Dv|intros a i j _ _; reflexivity|apply C54_clear_weights_exact; intros a i _; cbn; lra| | |reflexivity| |apply Fw_held, Hk|exact H|].
    + intros p Hp. destruct Hk as [-> | ->]; vm_compute; intuition congruence.
    + split; [repeat split|]. intros p _. split; [reflexivity|]. intros q _. repeat split.
    + intros s [<- |[<- |[]]] Hn; discriminate.
    + destruct Hk as [-> | ->].
      * assert (I0 : inside (Lw 1) (0, 0, 0)) by (intros [| |]; cbn; lia).
        assert (Q : forall x, 1 <= x <= 3 -> holds (Lw 1) Ey (0, 0, 0) (x, 1, 1)) by (intros x Hx [| |]; cbn; lia).
        split; [|split]; [refine (eq_trans (X Ey _ _ I0 (Q 1 ltac:(lia))) _)|refine (eq_trans (X Ey _ _ I0 (Q 2 ltac:(lia))) _)|refine (eq_trans (X Ey _ _ I0 (Q 3 ltac:(lia))) _)]; cbv -[IZR Rplus Rminus Rmult Ropp]; lra.
      * assert (I0 : forall r, 0 <= r <= 1 -> inside (Lw 2) (r, 0, 0)) by (intros r Hr [| |]; cbn; lia).
        assert (Q : forall r x, 1 <= x <= 2 -> holds (Lw 2) Ey (r, 0, 0) (x, 1, 1)) by (intros r x Hx [| |]; cbn; lia).
        split; [|split]; [refine (eq_trans (X Ey _ _ (I0 0 ltac:(lia)) (Q 0 1 ltac:(lia))) _)|refine (eq_trans (X Ey _ _ (I0 0 ltac:(lia)) (Q 0 2 ltac:(lia))) _)|refine (eq_trans (X Ey _ _ (I0 1 ltac:(lia)) (Q 1 2 ltac:(lia))) _)]; cbv -[IZR Rplus Rminus Rmult Ropp]; lra.
Qed.
(* The ranks must give a wall one boundary condition.  Two ranks along y, the wall x = 0 a conductor on the first and a symmetry plane on the second: both hold the Ez of
   the edge of the wall they share, equal before the Marder step of E, and 0 and 1 after. *)
Definition Lm : layout R := mk_layout R (fun a => match a with AY => 2 | _ => 1 end) (fun a => match a with AX => false | _ => true end) (fun _ _ => 1) (fun _ _ => 1%R).
Definition Gm (r : Z) : cgrid R := mk_cgrid R (1, 1, 1) (fun _ => 1%R) (fun p => if (p =? 12) || (p =? 14) then (if r =? 0 then -1 else -2) else if (p =? 10) || (p =? 16) then 1 - r else r).
Definition Fm : gfield R := fun c _ => match c with Ez => 1%R | _ => 0%R end.
Theorem C56_mixed_walls_refuted : exists L num G W, layout_ok L /\ box L num 2 G /\ even_sizes L /\ known_walls L num G /\
  held R L num Fm W /\ (exists W3, ranks_step R Rarith RA Kw L num 2 G (fun _ => mta) (fun _ => false) (fun _ => 4) (CleanE ka) W W3) /\
  forall W3, ranks_step R Rarith RA Kw L num 2 G (fun _ => mta) (fun _ => false) (fun _ => 4) (CleanE ka) W W3 ->
  exists p q p' q', inside L p /\ holds L Ez p q /\ inside L p' /\ holds L Ez p' q' /\ gplace L p q = gplace L p' q' /\
    W3 (num p) (Ez, vox3 (size_at L p) q) = 0%R /\ W3 (num p') (Ez, vox3 (size_at L p') q') = 1%R.
Proof.
  exists Lm, (at_ AY), Gm, (fun _ l => Fm (fst l) (0, 0, 0)).
  assert (OK : layout_ok Lm) by (split; [intros [| |]; cbn; lia|intros [| |] i _; cbn; lia]).
  assert (Li : forall p, inside Lm p -> p = (0, 0, 0) \/ p = (0, 1, 0)).
  { intros [[x y] z] H. pose proof (H AX). pose proof (H AY). pose proof (H AZ). cbn in *. assert (x = 0) as -> by lia; assert (z = 0) as -> by lia. assert (y = 0 \/ y = 1) as [-> | ->] by lia; tauto. }
  assert (HB : box Lm (at_ AY) 2 Gm).
  { unfold box. split; [|split; [|split; [|split; [|split]]]].
    - intros p H. apply (H AY).
    - intros p q H H' E. destruct (Li p H) as [->| ->]; destruct (Li q H') as [->| ->]; cbn in E; try reflexivity; lia.
    - intros r Hr. exists (0, r, 0). split; [intros [| |]; cbn; lia|reflexivity].
    - intros p H. destruct (Li p H) as [->| ->]; reflexivity.
    - intros p a H. reflexivity.
    - intros p a s H Hs. destruct (Li p H) as [-> | ->]; destruct Hs as [-> | ->]; destruct a; vm_compute; intuition congruence. }
  assert (Ev : even_sizes Lm) by (intros a i j _ _; reflexivity).
  assert (HW : held R Lm (at_ AY) Fm (fun _ l => Fm (fst l) (0, 0, 0))).
  { split; [intros c a g _; reflexivity|]. split; [intros c p q _ _; reflexivity|intros p a t c q _ _ _ _; reflexivity]. }
  assert (Kn : known_walls Lm (at_ AY) Gm).
  { intros p a t Hp Ht Hb. destruct (Li p Hp) as [-> | ->]; destruct Ht as [-> | ->], a; try discriminate Hb; cbn; lia. }
  split; [exact OK|]. split; [exact HB|]. split; [exact Ev|]. split; [exact Kn|]. split; [exact HW|]. split; [apply C56_steps_exist; assumption|].
  intros W3 (W2 & Hs & Ha).
  destruct (C54_sweep R Rarith RA Lm (at_ AY) 2 Gm (fun _ => mta) (fun _ => false) (fun _ => 4) gma Fm (CleanE ka) (fun _ => []) (fun _ l => Fm (fst l) (0, 0, 0)) W2) as [X _];
    [exact OK|exact HB|exact Ev|apply C54_clear_weights_exact; intros a i _; cbn; lra| | |apply HW|apply HW|discriminate|exact Hs|].
  { intros p Hp. vm_compute; intuition congruence. }
  { split; [repeat split|]. intros p _. split; [reflexivity|]. intros q _. repeat split. }
  assert (I0 : forall r, 0 <= r <= 1 -> inside Lm (0, r, 0)) by (intros r Hr [| |]; cbn; lia).
  assert (Q : forall r y, 1 <= y <= 2 -> holds Lm Ez (0, r, 0) (1, y, 1)) by (intros r y Hy [| |]; cbn; lia).
  exists (0, 0, 0), (1, 2, 1), (0, 1, 0), (1, 1, 1). split; [apply I0; lia|]. split; [apply Q; lia|]. split; [apply I0; lia|]. split; [apply Q; lia|]. split; [reflexivity|].
  assert (Ok : forall r, 0 <= r <= 1 -> _) by (intros r Hr; exact (rank_adjust_ok Rarith (lc_zero Kw) Lm (at_ AY) 2 Gm OK HB (0, r, 0) (I0 r Hr) eq_refl (CleanE ka) (W2 r) (W3 r)
     (fun a t Ht Hb => ltac:(pose proof (Kn (0, r, 0) a t (I0 r Hr) Ht Hb); lia)) (Ha (0, r, 0) (I0 r Hr)))).
  split.
  - apply (Ok 0 ltac:(lia) Ez (1, 2, 1)). exists AX, (-1). split; [tauto|]. split; [reflexivity|]. split; [reflexivity|]. split; [reflexivity|apply Q; lia].
  - refine (eq_trans (proj2 (Ok 1 ltac:(lia) Ez (1, 1, 1)) _ _) _).
    + intros [| |]; cbn; lia.
    + intros (a & t & Ht & Hb & _ & Hk & _). destruct Ht as [-> | ->], a; try discriminate Hb; discriminate Hk.
    + refine (eq_trans (X Ez (0, 1, 0) (1, 1, 1) (I0 1 ltac:(lia)) (Q 1 1 ltac:(lia))) _). cbv -[IZR Rplus Rminus Rmult Ropp]. lra.
Qed.
Print Assumptions C56_mixed_walls_refuted.
