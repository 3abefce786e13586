(* The whole particle part of a step. *)
From Coq Require Import Reals Lra ZArith List Bool Lia ZifyBool Permutation Sorting.Sorted.
From Verif Require Import SortModel SortProofs GridModel GridProofs ParticleModel ParticleSpec ParticleProofs MoverModel RemoveProofs BoundaryProofs AdvanceProofs
  FieldModel RemoteModel RemoteSpec RemoteProofs DecompSpec DecompProofs ChargeModel ChargeSpec ChargeProofs ChargeRounds.
Import ListNotations.
Open Scope Z_scope.
Ltac Zify.zify_post_hook ::= idtac.
Local Notation sumR := ParticleSpec.sumR.

Lemma move_pw g fuel : forall q0 p0 d0 l0 st p disp lg, move_loop Rnum fuel g q0 p0 d0 l0 = MDone st p disp lg -> pw p = pw p0.
Proof.
  induction fuel as [|fuel IH]; intros q0 p0 d0 l0 st p disp lg Em; [discriminate|]. rewrite move_step in Em. destruct (hstep p0 d0) as [h [a|]]; cbv zeta in Em.
  - destruct (negb (int_ok _)); [discriminate|]. destruct (nbr_at _ _ _) as [n|]; [|discriminate].
    destruct (n =? reflect_particles); [apply IH in Em; exact Em|]. destruct ((n <? _) || _); [|apply IH in Em; exact Em].
    destruct (_ || _); [discriminate|]. apply mdone_inj in Em. destruct Em as (_ & <- & _ & _). reflexivity.
  - apply mdone_inj in Em. destruct Em as (_ & <- & _ & _). reflexivity.
Qed.

Section W.
Variable L : layout R.
Hypothesis OK : layout_ok L.
Variable pos : Z -> cell.
Variable ws : Z.
Variable Phi : cell -> R.
Hypothesis HPhi : repeats L Phi.
Variable first : Z -> Z.
Variable B : Z -> bgrid.
Hypothesis HW : wired L pos ws first B.
Variable Q : list R.
Notation PC := (particle_charge L pos Phi).
Notation SC := (species_charge L pos Phi).
Notation RC := (rank_charge L pos Phi).
Notation MC := (moved_charge L pos Phi).

Lemma advance_charge fuel r qdt cdt q f p st p' d lg : 0 <= r < ws ->
  advance_one Rnum (S fuel) (b_mesh (B r)) qdt cdt q f p = MDone st p' d lg ->
  PC r q st p' = (PC r q false p + MC r lg)%R /\ (st = true -> stopped (b_mesh (B r)) p').
Proof.
  intros Hr E. rewrite advance_is_move in E. unfold move_p in E. split.
  - pose proof (move_continuity (S fuel) _ _ _ _ _ (wired_glued L OK pos ws Phi HPhi first B HW r Hr) _ _ _ _ _ _ _ E) as C.
    pose proof (move_pw _ _ _ _ _ _ _ _ _ _ E) as W. cbn [pw] in W.
    unfold flows at 2 in C. cbn [map ParticleSpec.sumR fold_right n_mul Rnum pi pd pw] in C. unfold particle_charge, moved_charge. rewrite W. cbn [voxel_of]. lra.
  - intros ->. exact (move_stopped _ _ _ _ _ _ _ _ _ E).
Qed.

(* the particles at indices i, i+1, ... with the movers pm *)
Definition part_sum (r : Z) (q : R) (i : Z) (pm : list (mover (V := R))) (ps : list (part R)) : R :=
  sumR (map (fun j => match nth_error ps j with
                      | Some p => PC r q (existsb (Z.eqb (i + Z.of_nat j)) (map m_i pm)) p
                      | None => 0%R end) (seq 0 (length ps))).
Lemma part_sum_cons r q i pm p ps : part_sum r q i pm (p :: ps) = (PC r q (existsb (Z.eqb i) (map m_i pm)) p + part_sum r q (i + 1) pm ps)%R.
Proof.
  unfold part_sum. cbn [length seq map nth_error]. rewrite sumR_cons. rewrite Z.add_0_r. f_equal.
  rewrite <- seq_shift, map_map. apply sum_ext. intros j _. cbn [nth_error]. replace (i + Z.of_nat (S j)) with (i + 1 + Z.of_nat j) by lia. reflexivity.
Qed.
Lemma part_sum_skip r q i m pm ps : m_i m < i -> part_sum r q i (m :: pm) ps = part_sum r q i pm ps.
Proof.
  intros H. unfold part_sum. apply sum_ext. intros j _. destruct (nth_error ps j); [|reflexivity]. cbn [map existsb]. replace (i + Z.of_nat j =? m_i m) with false by lia. reflexivity.
Qed.

Lemma advance_list_charge fuel r qdt cdt q fs kept : 0 <= r < ws -> forall ps i ps' pm lg,
  advance_list Rnum (S fuel) (b_mesh (B r)) qdt cdt q fs kept i ps = Some (ps', pm, lg) ->
  part_sum r q i pm ps' = (sumR (map (PC r q false) ps) + MC r lg)%R /\ length ps' = length ps /\
  StronglySorted Z.lt (map m_i pm) /\
  (forall m, In m pm -> i <= m_i m < i + Z.of_nat (length ps) /\ forall p, nth_error ps' (Z.to_nat (m_i m - i)) = Some p -> stopped (b_mesh (B r)) p).
Proof.
  intros Hr. induction ps as [|p ps IH]; intros i ps' pm lg; cbn [advance_list].
  - intros H. injection H as <- <- <-. unfold part_sum, moved_charge, flows. cbn. split; [unfold ParticleSpec.sumR; cbn; lra|]. split; [reflexivity|]. split; [constructor|intros m []].
  - destruct (advance_one Rnum (S fuel) (b_mesh (B r)) qdt cdt q (fs (pi p)) p) as [st p1 d l1| |] eqn:E1; try discriminate.
    destruct (advance_list Rnum (S fuel) (b_mesh (B r)) qdt cdt q fs kept (i + 1) ps) as [[[ps1 pm1] l2]|] eqn:E2; [|discriminate].
    destruct (IH (i + 1) ps1 pm1 l2 E2) as (I1 & I2 & I3 & I4). destruct (advance_charge fuel r qdt cdt q _ p st p1 d l1 Hr E1) as (A1 & A2).
    assert (MCa : MC r (l1 ++ l2) = (MC r l1 + MC r l2)%R) by (unfold moved_charge; apply flows_app).
    assert (Ni : existsb (Z.eqb i) (map m_i pm1) = false).
    { apply not_true_is_false. intros E. apply existsb_exists in E. destruct E as (j & Hj & Ej). apply in_map_iff in Hj. destruct Hj as (m & <- & Hm). destruct (I4 m Hm). lia. }
    assert (Old : forall p2 m, In m pm1 -> i <= m_i m < i + Z.of_nat (S (length ps)) /\ forall p3, nth_error (p2 :: ps1) (Z.to_nat (m_i m - i)) = Some p3 -> stopped (b_mesh (B r)) p3).
    { intros p2 m Hm. destruct (I4 m Hm) as (J1 & J2). split; [lia|]. intros p3. replace (Z.to_nat (m_i m - i)) with (S (Z.to_nat (m_i m - (i + 1)))) by lia. cbn [nth_error]. apply J2. }
    destruct st; [destruct (kept i)|]; intros H; injection H as <- <- <-; rewrite MCa; cbn [map length]; rewrite sumR_cons.
    + split; [|split; [lia|split]].
      * rewrite part_sum_cons, part_sum_skip by (cbn [m_i]; lia). cbn [map existsb m_i]. rewrite Z.eqb_refl. cbn [orb]. rewrite I1, A1. lra.
      * cbn [map m_i]. constructor; [exact I3|]. apply Forall_forall. intros j Hj. apply in_map_iff in Hj. destruct Hj as (m & <- & Hm). destruct (I4 m Hm). lia.
      * intros m [<-|Hm]; [|apply Old, Hm]. cbn [m_i]. split; [lia|]. rewrite Z.sub_diag. cbn [Z.to_nat nth_error]. intros p3 E. injection E as <-. apply A2. reflexivity.
    + split; [|split; [lia|split; [exact I3|intros m Hm; apply Old, Hm]]].
      rewrite part_sum_cons, Ni, I1. replace (PC r q false (mkp (pd p1) (Z.shiftr (pi p1) 3) (pu p1) (pw p1))) with (PC r q true p1); [rewrite A1; lra|].
      unfold particle_charge. cbn [pw pi pd voxel_of]. rewrite Z.shiftr_div_pow2 by lia. reflexivity.
    + split; [|split; [lia|split; [exact I3|intros m Hm; apply Old, Hm]]].
      rewrite part_sum_cons, Ni, I1, A1. lra.
Qed.
Lemma part_sum_species r s : part_sum r (s_q s) 0 (s_pm s) (s_p s) = SC r s.
Proof. reflexivity. Qed.

Lemma advance_all_charge fuel r qdt cdt fs kept : 0 <= r < ws -> forall ss k ss' lg, Forall (fun s => s_pm s = []) ss ->
  advance_all Rnum (S fuel) (b_mesh (B r)) qdt cdt fs kept k ss = Some (ss', lg) ->
  RC r ss' = (RC r ss + MC r lg)%R /\ map s_q ss' = map s_q ss /\ Forall (species_ok (b_mesh (B r))) ss'.
Proof.
  intros Hr. induction ss as [|s ss IH]; intros k ss' lg HN; cbn [advance_all].
  - intros H. injection H as <- <-. unfold rank_charge, moved_charge, flows. cbn. split; [unfold ParticleSpec.sumR; cbn; lra|]. split; [reflexivity|constructor].
  - inversion HN as [|s0 ss0 N1 N2]; subst s0 ss0.
    destruct (advance_list Rnum (S fuel) (b_mesh (B r)) (qdt k) cdt (s_q s) fs (kept k) 0 (s_p s)) as [[[ps pm] l1]|] eqn:E1; [|discriminate].
    destruct (advance_all Rnum (S fuel) (b_mesh (B r)) qdt cdt fs kept (k + 1) ss) as [[ss1 l2]|] eqn:E2; [|discriminate].
    intros H. injection H as <- <-. destruct (IH _ _ _ N2 E2) as (I1 & I2 & I3).
    destruct (advance_list_charge fuel r _ _ _ _ _ Hr _ _ _ _ _ E1) as (A1 & A2 & A3 & A4).
    split; [|split].
    + unfold rank_charge in *. cbn [map]. rewrite !sumR_cons, I1. rewrite <- (part_sum_species r (mk_spec (s_q s) ps pm)). cbn [s_q s_p s_pm]. rewrite A1.
      replace (SC r s) with (sumR (map (PC r (s_q s) false) (s_p s))) by (symmetry; destruct s as [q0 p0 m0]; cbn [s_pm] in N1; subst m0; apply species_plain).
      unfold moved_charge. rewrite flows_app. lra.
    + cbn [map s_q]. f_equal. exact I2.
    + constructor; [|exact I3]. split; cbn [s_pm s_p]; [exact A3|]. intros m Hm. destruct (A4 m Hm) as (B1 & B2). rewrite A2. split; [lia|]. rewrite Z.sub_0_r in B2. exact B2.
Qed.

(* the leftovers *)
Lemma drop_all_charge r nx ny nz r8V : forall ss adds ss', Forall movers_ok ss -> drop_all Rnum nx ny nz r8V ss = Some (adds, ss') ->
  RC r ss' = (RC r ss - listed_charge L pos Phi r ss)%R /\ map s_q ss' = map s_q ss /\ Forall (fun s => s_pm s = []) ss'.
Proof.
  induction ss as [|s ss IH]; intros adds ss' HM; cbn [drop_all].
  - intros H. injection H as <- <-. unfold rank_charge, listed_charge. cbn. split; [lra|]. split; [reflexivity|constructor].
  - inversion HM as [|s0 ss0 (M1 & M2) HM2]; subst s0 ss0. unfold drop_leftovers.
    destruct (remove_movers_spec (s_p s) _ M1 M2) as (ps' & E & P & _). rewrite E.
    destruct (drop_all Rnum nx ny nz r8V ss) as [[a2 s2]|] eqn:E2; [|discriminate].
    intros H. injection H as <- <-. destruct (IH _ _ HM2 eq_refl) as (I1 & I2 & I3). split; [|split].
    + unfold rank_charge, listed_charge in *. cbn [map]. rewrite !sumR_cons, I1. rewrite (species_split L pos Phi r s (conj M1 M2)), species_plain, (sum_mapperm _ _ _ P). lra.
    + cbn [map s_q]. f_equal. exact I2.
    + constructor; [reflexivity|exact I3].
Qed.

Lemma over_ext f g : (forall r, 0 <= r < ws -> f r = g r) -> over_ranks ws f = over_ranks ws g.
Proof. intros H. apply sum_ext. intros r Hr. apply in_zrange in Hr. apply H. lia. Qed.
Lemma over_plus f g : over_ranks ws (fun r => (f r + g r)%R) = (over_ranks ws f + over_ranks ws g)%R.
Proof. apply sum_plus. Qed.
Lemma over_minus f g : over_ranks ws (fun r => (f r - g r)%R) = (over_ranks ws f - over_ranks ws g)%R.
Proof. unfold over_ranks. induction (zrange 0 ws) as [|x l IH]; cbn [map]; [cbn; lra|]. rewrite !sumR_cons, IH. lra. Qed.

Lemma rounds_charge fuel n SS gain lg SS' : reciprocal ws B -> rounds L pos ws Phi B Q fuel n SS gain lg SS' -> ranks_ok ws B Q SS ->
  (world_charge L pos ws Phi SS' = world_charge L pos ws Phi SS + gain + over_ranks ws (fun r => MC r (lg r)))%R /\ ranks_ok ws B Q SS'.
Proof.
  intros Rc H. induction H as [SS SS' lg H|n SS SS1 SS2 SS3 out loc lg1 lg2 lg gain H1 H2 IH H3]; intros HO.
  - split.
    + assert (E0 : over_ranks ws (fun r => MC r (lg r)) = 0%R).
      { rewrite (over_ext _ (fun _ => 0%R)); [apply sum_zero|]. intros r Hr. rewrite (proj2 (H r Hr)). reflexivity. }
      rewrite E0. unfold world_charge. rewrite (over_ext _ (fun r => RC r (SS r))); [lra|]. intros r Hr. rewrite (proj1 (H r Hr)). reflexivity.
    + intros r Hr. rewrite (proj1 (H r Hr)). apply HO, Hr.
  - destruct (round_charge L OK pos ws Phi HPhi first B HW Q fuel SS SS1 SS2 out loc lg1 Rc HO (fun r Hr => conj (proj1 (H1 r Hr)) (proj1 (proj2 (H1 r Hr))))) as (C1 & C2). destruct (IH C2) as (D1 & D2). split; [|exact D2].
    rewrite D1, C1. rewrite (over_ext (fun r => MC r (lg r)) (fun r => (MC r (lg1 r) + MC r (lg2 r))%R)); [rewrite over_plus; lra|].
    intros r Hr. rewrite (H3 r Hr). unfold moved_charge. apply flows_app.
Qed.

Theorem step_charge fuel n qdt cdt fs kept SS0 SS1 SS2 SS3 lg1 lg2 gain dims r8V adds : reciprocal ws B ->
  (forall r, 0 <= r < ws -> map s_q (SS0 r) = Q /\ Forall (fun s => s_pm s = []) (SS0 r)) ->
  (forall r, 0 <= r < ws -> advance_all Rnum (S fuel) (b_mesh (B r)) (qdt r) (cdt r) (fs r) (kept r) 0 (SS0 r) = Some (SS1 r, lg1 r)) ->
  rounds L pos ws Phi B Q fuel n SS1 gain lg2 SS2 ->
  (forall r, 0 <= r < ws -> let '(nx, ny, nz) := dims r in drop_all Rnum nx ny nz (r8V r) (SS2 r) = Some (adds r, SS3 r)) ->
  (world_charge L pos ws Phi SS3 = world_charge L pos ws Phi SS0 + gain - over_ranks ws (fun r => listed_charge L pos Phi r (SS2 r))
    + over_ranks ws (fun r => MC r (lg1 r ++ lg2 r)))%R /\
  (forall r, 0 <= r < ws -> map s_q (SS3 r) = Q /\ Forall (fun s => s_pm s = []) (SS3 r)).
Proof.
  intros Rc H0 HA HR HD.
  assert (A : forall r, 0 <= r < ws -> RC r (SS1 r) = (RC r (SS0 r) + MC r (lg1 r))%R /\ map s_q (SS1 r) = Q /\ Forall (species_ok (b_mesh (B r))) (SS1 r)).
  { intros r Hr. destruct (H0 r Hr) as (Q0 & N0). destruct (advance_all_charge fuel r _ _ _ _ Hr _ _ _ _ N0 (HA r Hr)) as (A1 & A2 & A3). split; [exact A1|]. split; [congruence|exact A3]. }
  destruct (rounds_charge fuel n SS1 gain lg2 SS2 Rc HR) as (R1 & R2). { intros r Hr. apply A, Hr. }
  assert (D : forall r, 0 <= r < ws -> RC r (SS3 r) = (RC r (SS2 r) - listed_charge L pos Phi r (SS2 r))%R /\ map s_q (SS3 r) = map s_q (SS2 r) /\ Forall (fun s => s_pm s = []) (SS3 r)).
  { intros r Hr. specialize (HD r Hr). destruct (dims r) as [[nx ny] nz]. apply (drop_all_charge r nx ny nz (r8V r) (SS2 r) (adds r)); [|exact HD].
    destruct (R2 r Hr) as (_ & Hs). eapply Forall_impl; [intros s; apply ok_movers|exact Hs]. }
  split.
  - unfold world_charge in *. rewrite (over_ext _ _ (fun r Hr => proj1 (D r Hr))), over_minus, R1, (over_ext _ _ (fun r Hr => proj1 (A r Hr))), over_plus.
    rewrite (over_ext (fun r => MC r (lg1 r ++ lg2 r)) (fun r => (MC r (lg1 r) + MC r (lg2 r))%R)) by (intros r Hr; unfold moved_charge; apply flows_app). rewrite over_plus. lra.
  - intros r Hr. destruct (D r Hr) as (_ & D2 & D3). destruct (R2 r Hr) as (Q2 & _). split; [congruence|exact D3].
Qed.

(* without boundary conditions nothing is lost and no handler is called *)
Lemma packed_fates b : forall sp ss outs ss', packed Rnum b sp ss outs ss' -> forall x, In x (concat outs) ->
  exists k s m p, In s ss /\ In m (s_pm s) /\ nth_error (s_p s) (Z.to_nat (m_i m)) = Some p /\ dispatch Rnum b k p m = Some x.
Proof.
  intros sp ss outs ss' H. induction H as [|sp s ss fs ps' outs ss' Ef P H IH]; intros x Hx; [destruct Hx|].
  cbn [concat] in Hx. apply in_app_or in Hx. destruct Hx as [Hx|Hx].
  - apply (in_map Some) in Hx. rewrite Ef in Hx. apply in_map_iff in Hx. destruct Hx as (m & Em & Hm). apply in_rev in Hm. unfold fate_of in Em.
    destruct (nth_error (s_p s) (Z.to_nat (m_i m))) as [p|] eqn:Ep; [|discriminate]. exists sp, s, m, p. split; [left; reflexivity|]. auto.
  - destruct (IH x Hx) as (k & s1 & m & p & I1 & I2). exists k, s1, m, p. split; [right; exact I1|exact I2].
Qed.
Lemma closed_lost r ss : closed ws B -> 0 <= r < ws -> Forall (species_ok (b_mesh (B r))) ss -> lost_charge L pos Phi r (b_mesh (B r)) ss = 0%R.
Proof.
  intros HC Hr Hs. unfold lost_charge. apply sum_zero'. intros s Is. rewrite Forall_forall in Hs. specialize (Hs s Is).
  apply sum_zero'. intros m Hm. destruct (nth_error (s_p s) (Z.to_nat (m_i m))) as [p|] eqn:Ep; [|reflexivity].
  destruct (proj2 (proj2 Hs m Hm) p Ep) as (v & f & n & Ei & Hf & En & Hn1 & Hn2 & Ed).
  destruct (shiftr8 v f Hf) as (Q1 & Q2 & Q3). rewrite Ei, Q3. rewrite <- (Z.mod_unique (8 * v + f) 8 v f ltac:(lia) eq_refl), En.
  destruct (HC r v f n Hr Hf En) as [E|E]; [contradiction|]. replace (n <? 0) with false by lia. reflexivity.
Qed.
Lemma closed_custom r ss sp out ss' : closed ws B -> 0 <= r < ws -> Forall (species_ok (b_mesh (B r))) ss -> pack_species Rnum (B r) sp ss = Some (out, ss') ->
  forall h p m f, ~ In (Custom h p m f) out.
Proof.
  intros HC Hr Hs E h p0 m0 f0 Hin. assert (HM : Forall movers_ok ss) by (eapply Forall_impl; [intros s; apply ok_movers|exact Hs]).
  destruct (pack_species_packed _ _ _ _ _ HM E) as ((outs & -> & Pk) & _).
  destruct (packed_fates _ _ _ _ _ Pk _ Hin) as (k & s & m & p & Is & Im & Ep & Ed). rewrite Forall_forall in Hs.
  destruct (proj2 (proj2 (Hs s Is) m Im) p Ep) as (v & f & n & Ei & Hf & En & Hn1 & Hn2 & _).
  destruct (shiftr8 v f Hf) as (Q1 & Q2 & Q3). unfold dispatch in Ed. cbv zeta in Ed. rewrite Ei, Q1, Q2, En in Ed.
  destruct (HC r v f n Hr Hf En) as [E0|E0]; [contradiction|].
  replace (0 <=? - n - 3) with false in Ed by lia. cbn [andb] in Ed.
  destruct (n =? absorb_particles); [discriminate|]. destruct (_ || _) in Ed; [|discriminate]. destruct (_ && _) in Ed; discriminate.
Qed.
Lemma rounds_closed fuel n SS gain lg SS' : closed ws B -> reciprocal ws B -> rounds L pos ws Phi B Q fuel n SS gain lg SS' -> ranks_ok ws B Q SS -> gain = 0%R.
Proof.
  intros HC Rc H. induction H as [SS SS' lg H|n SS SS1 SS2 SS3 out loc lg1 lg2 lg gain H1 H2 IH H3]; intros HO; [reflexivity|].
  destruct (round_charge L OK pos ws Phi HPhi first B HW Q fuel SS SS1 SS2 out loc lg1 Rc HO (fun r Hr => conj (proj1 (H1 r Hr)) (proj1 (proj2 (H1 r Hr))))) as (_ & C2).
  rewrite (IH C2). rewrite (over_ext (fun r => lost_charge L pos Phi r (b_mesh (B r)) (SS r)) (fun _ => 0%R)) by (intros r Hr; apply closed_lost; [exact HC|exact Hr|apply HO, Hr]).
  rewrite (over_ext (fun r => sumR (map (injector_charge L pos Phi Q r) (loc r))) (fun _ => 0%R)).
  - unfold over_ranks. rewrite sum_zero. lra.
  - intros r Hr. destruct (H1 r Hr) as (E1 & _ & E3). rewrite E3; [reflexivity|]. apply (closed_custom r (SS r) 0 (out r) (SS1 r) HC Hr); [apply HO, Hr|exact E1].
Qed.
End W.

(* the constant test function *)
Lemma charge_one sy sz q v d : charge sy sz (fun _ => 1%R) q v d = q.
Proof. unfold charge, sum_bool, share. field. Qed.
Lemma flows_one sy sz lg : flows sy sz (fun _ => 1%R) lg = 0%R.
Proof.
  unfold flows. apply sum_zero'. intros [v j] _. unfold flow, sum_bool. cbv zeta. field.
Qed.
Lemma seq_map_nth {A} (F : A -> R) (l : list A) : sumR (map (fun i => match nth_error l i with Some x => F x | None => 0%R end) (seq 0 (length l))) = sumR (map F l).
Proof.
  induction l as [|a l IH]; [reflexivity|]. cbn [length seq map nth_error]. rewrite !sumR_cons. f_equal.
  rewrite <- seq_shift, map_map. cbn [nth_error]. exact IH.
Qed.
Lemma world_total L pos ws SS : world_charge L pos ws (fun _ => 1%R) SS = total_charge ws SS.
Proof.
  unfold world_charge, total_charge. apply sum_ext. intros r _. unfold rank_charge. apply sum_ext. intros s _. unfold species_charge.
  rewrite <- (seq_map_nth (fun p => (s_q s * pw p)%R) (s_p s)). apply sum_ext. intros i _. destruct (nth_error (s_p s) i); [|reflexivity]. unfold particle_charge. apply charge_one.
Qed.

(* the rounds do not depend on the test function *)
Lemma rounds_any L pos ws Phi Phi' B Q fuel n SS gain lg SS' : rounds L pos ws Phi B Q fuel n SS gain lg SS' -> exists gain', rounds L pos ws Phi' B Q fuel n SS gain' lg SS'.
Proof.
  intros H. induction H as [SS SS' lg H|n SS SS1 SS2 SS3 out loc lg1 lg2 lg gain H1 H2 [gain' IH] H3]; [exists 0%R; constructor; exact H|].
  eexists. exact (rounds_S L pos ws Phi' B Q fuel n SS SS1 SS2 SS3 out loc lg1 lg2 lg gain' H1 IH H3).
Qed.
