(* Particles and streaks stay in cells of their rank. *)
From Coq Require Import Reals Lra ZArith List Bool Lia ZifyBool Permutation Sorting.Sorted.
From Verif Require Import SortModel SortProofs VoxelModel VoxelProofs GridModel GridProofs ParticleModel ParticleSpec ParticleProofs MoverModel RemoveProofs BoundaryProofs AdvanceProofs
  FieldModel RemoteModel RemoteSpec RemoteProofs DecompSpec DecompProofs ChargeModel ChargeSpec ChargeProofs ChargeRounds ChargeStep CurrentSpec.
Import ListNotations.
Open Scope Z_scope.
Ltac Zify.zify_post_hook ::= idtac.
Local Notation AT := RemoteModel.at_.
Local Notation axis := RemoteModel.axis.
Local Notation mput := MoverModel.put.
Local Notation sumR := ParticleSpec.sumR.

Section W.
Variable L : layout R.
Hypothesis OK : layout_ok L.
Variable pos : Z -> cell.
Variable ws : Z.
Variable first : Z -> Z.
Variable B : Z -> bgrid.
Hypothesis HW : wired L pos ws first B.
Notation IN := (in_rank L pos).
Definition log_in (r : Z) (lg : list (streak R)) : Prop := forall v j, In (v, j) lg -> IN r v.
Lemma log_app r l m : log_in r l -> log_in r m -> log_in r (l ++ m).
Proof. intros H1 H2 v j H. apply in_app_or in H. destruct H; [eapply H1|eapply H2]; eassumption. Qed.
Lemma log_nil r : log_in r [].
Proof. intros v j []. Qed.

Lemma step_cell r v f n : 0 <= r < ws -> 0 <= f < 6 -> nbr_at (b_mesh (B r)) v f = Some n -> mrangel (b_mesh (B r)) <= n <= mrangeh (b_mesh (B r)) -> IN r (n - mrangel (b_mesh (B r))).
Proof.
  intros Hr Hf En Hb. pose proof HW as (_ & _ & _ & F & T). destruct (F r Hr) as (F1 & F2 & F3 & F4 & _). rewrite F3, F4 in Hb. rewrite F3.
  pose proof (first_nonneg L OK pos ws first B HW r ltac:(lia)).
  destruct (T r v f n Hr Hf En ltac:(lia)) as (q & r' & q' & -> & Hq & Hr' & -> & Hq' & HN & _).
  pose proof (owner_unique L OK pos ws first B HW r r' q' Hr Hr' Hq' Hb). subst r'. exists q'. split; [exact Hq'|lia].
Qed.
Lemma move_cells r fuel : 0 <= r < ws -> forall q p d log st p' d' log', move_loop Rnum fuel (b_mesh (B r)) q p d log = MDone st p' d' log' ->
  IN r (pi p) -> log_in r log -> IN r (voxel_of st (pi p')) /\ log_in r log'.
Proof.
  intros Hr. induction fuel as [|fuel IH]; intros q p d log st p' d' log' E Hp Hl; [discriminate|].
  rewrite move_step in E. destruct (hstep p d) as [h ax]. cbv zeta in E.
  match type of E with context [log ++ [?e]] => assert (Hl1 : log_in r (log ++ [e])) by (apply log_app; [exact Hl|]; intros v j [Q|[]]; injection Q as <- _; exact Hp) end.
  destruct ax as [a|].
  - destruct (negb (int_ok (6 * pi p))); [discriminate|].
    destruct (nbr_at (b_mesh (B r)) (pi p) (face_of a (dirR (vget d a)))) as [n|] eqn:EN; [|discriminate].
    destruct (n =? reflect_particles) eqn:ER; [apply IH in E; [exact E|exact Hp|exact Hl1]|].
    destruct ((n <? mrangel (b_mesh (B r))) || (mrangeh (b_mesh (B r)) <? n)) eqn:EB.
    + destruct (negb (int_ok (8 * pi p)) || negb (int_ok (8 * pi p + _)%Z)); [discriminate|]. apply mdone_inj in E. destruct E as (<- & <- & _ & <-). split; [|exact Hl1].
      cbn [voxel_of pi]. pose proof (face_of_range a (dirR (vget d a))) as Hf. destruct (shiftr8 (pi p) _ Hf) as (_ & _ & ->). exact Hp.
    + apply IH in E; [exact E| |exact Hl1]. cbn [pi]. apply (step_cell r (pi p) (face_of a (dirR (vget d a)))); [exact Hr|apply face_of_range|exact EN|lia].
  - apply mdone_inj in E. destruct E as (<- & <- & _ & <-). split; [exact Hp|exact Hl1].
Qed.

(* the particles at indices i, i+1, ... with the movers pm *)
Definition placed_from (r i : Z) (pm : list (mover (V := R))) (ps : list (part R)) : Prop :=
  forall j p, nth_error ps j = Some p -> IN r (voxel_of (existsb (Z.eqb (i + Z.of_nat j)) (map m_i pm)) (pi p)).
Lemma advance_list_cells fuel r qdt cdt q fs kept : 0 <= r < ws -> forall ps i ps' pm lg,
  advance_list Rnum (S fuel) (b_mesh (B r)) qdt cdt q fs kept i ps = Some (ps', pm, lg) -> (forall p, In p ps -> IN r (pi p)) ->
  placed_from r i pm ps' /\ log_in r lg /\ forall m, In m pm -> i <= m_i m.
Proof.
  intros Hr. induction ps as [|p ps IH]; intros i ps' pm lg; cbn [advance_list].
  - intros H _. injection H as <- <- <-. split; [intros [|j] p E; discriminate|]. split; [apply log_nil|intros m []].
  - destruct (advance_one Rnum (S fuel) (b_mesh (B r)) qdt cdt q (fs (pi p)) p) as [st p1 d l1| |] eqn:E1; try discriminate.
    destruct (advance_list Rnum (S fuel) (b_mesh (B r)) qdt cdt q fs kept (i + 1) ps) as [[[ps1 pm1] l2]|] eqn:E2; [|discriminate].
    intros E H. destruct (IH (i + 1) ps1 pm1 l2 E2 (fun p0 Hp0 => H p0 (or_intror Hp0))) as (I1 & I2 & I4).
    rewrite advance_is_move in E1. unfold move_p in E1. destruct (move_cells r _ Hr _ _ _ _ _ _ _ _ E1 (H p (or_introl eq_refl)) (log_nil r)) as (M1 & M2).
    assert (Ni : existsb (Z.eqb i) (map m_i pm1) = false).
    { apply not_true_is_false. intros Q. apply existsb_exists in Q. destruct Q as (j & Hj & Ej). apply in_map_iff in Hj. destruct Hj as (m & <- & Hm). specialize (I4 m Hm). lia. }
    assert (Old : forall m, In m pm1 -> i <= m_i m) by (intros m Hm; specialize (I4 m Hm); lia).
    destruct st; [destruct (kept i)|]; injection E as <- <- <-; (split; [|split; [apply log_app; assumption|]]).
    + intros [|j] p0 Q; cbn [nth_error] in Q.
      * injection Q as <-. cbn [map existsb m_i]. rewrite Z.add_0_r, Z.eqb_refl. exact M1.
      * cbn [map existsb m_i]. replace (i + Z.of_nat (S j) =? i) with false by lia. cbn [orb]. replace (i + Z.of_nat (S j)) with (i + 1 + Z.of_nat j) by lia. exact (I1 j p0 Q).
    + intros m [<-|Hm]; [cbn; lia|apply Old, Hm].
    + intros [|j] p0 Q; cbn [nth_error] in Q.
      * injection Q as <-. rewrite Z.add_0_r, Ni. cbn [pi voxel_of]. rewrite Z.shiftr_div_pow2 by lia. exact M1.
      * replace (i + Z.of_nat (S j)) with (i + 1 + Z.of_nat j) by lia. exact (I1 j p0 Q).
    + exact Old.
    + intros [|j] p0 Q; cbn [nth_error] in Q.
      * injection Q as <-. rewrite Z.add_0_r, Ni. exact M1.
      * replace (i + Z.of_nat (S j)) with (i + 1 + Z.of_nat j) by lia. exact (I1 j p0 Q).
    + exact Old.
Qed.
Lemma placed_plain r q ps : placed L pos r (mk_spec q ps []) <-> forall p, In p ps -> IN r (pi p).
Proof.
  split.
  - intros H p Hp. apply In_nth_error in Hp. destruct Hp as (i & Hi). exact (H i p Hi).
  - intros H i p Hi. apply nth_error_In in Hi. exact (H p Hi).
Qed.
Lemma advance_all_cells fuel r qdt cdt fs kept : 0 <= r < ws -> forall ss k ss' lg, Forall (fun s => s_pm s = []) ss ->
  advance_all Rnum (S fuel) (b_mesh (B r)) qdt cdt fs kept k ss = Some (ss', lg) -> Forall (placed L pos r) ss -> Forall (placed L pos r) ss' /\ log_in r lg.
Proof.
  intros Hr. induction ss as [|s ss IH]; intros k ss' lg HN; cbn [advance_all].
  - intros H _. injection H as <- <-. split; [constructor|apply log_nil].
  - inversion HN as [|s0 ss0 N1 N2]; subst s0 ss0.
    destruct (advance_list Rnum (S fuel) (b_mesh (B r)) (qdt k) cdt (s_q s) fs (kept k) 0 (s_p s)) as [[[ps pm] l1]|] eqn:E1; [|discriminate].
    destruct (advance_all Rnum (S fuel) (b_mesh (B r)) qdt cdt fs kept (k + 1) ss) as [[ss1 l2]|] eqn:E2; [|discriminate].
    intros H HP. injection H as <- <-. inversion HP as [|s0 ss0 P1 P2]; subst s0 ss0. destruct (IH _ _ _ N2 E2 P2) as (I1 & I2).
    destruct s as [q0 p0 m0]. cbn [s_pm s_p s_q] in *. subst m0.
    destruct (advance_list_cells fuel r _ _ _ _ _ Hr _ _ _ _ _ E1 (proj1 (placed_plain r q0 p0) P1)) as (A1 & A2 & _).
    split; [|apply log_app; assumption]. constructor; [|exact I1]. intros i p Hi. exact (A1 i p Hi).
Qed.

Lemma stopped_cell r k p m f ij : 0 <= r < ws -> stopped (b_mesh (B r)) p -> dispatch Rnum (B r) k p m = Some (Sent f ij) -> IN (nthz (b_bc (B r)) f) (pi (ij_p ij)).
Proof.
  intros Hr (v & f0 & n & Ep & Hf0 & En & Hn1 & Hn2 & Ed) E.
  destruct (shiftr8 v f0 Hf0) as (S1 & S2 & S3).
  pose proof HW as (_ & _ & _ & F & T). destruct (F r Hr) as (F1 & F2 & F3 & F4 & F5).
  unfold dispatch in E. cbv zeta in E. rewrite Ep, S1, S2, En in E.
  destruct (n =? absorb_particles); [discriminate|].
  destruct (((0 <=? n) && (n <? mrangel (b_mesh (B r)))) || ((mrangeh (b_mesh (B r)) <? n) && (n <=? nthz (b_range (B r)) (b_size (B r))))) eqn:Es;
    [|destruct ((0 <=? - n - 3) && (- n - 3 <? b_nb (B r))); discriminate].
  destruct ((f0 <? 6) && shared (B r) f0) eqn:Eh; [|discriminate]. injection E as <- <-.
  pose proof (first_nonneg L OK pos ws first B HW (r + 1) ltac:(lia)) as P1. pose proof (first_nonneg L OK pos ws first B HW r ltac:(lia)) as P0.
  pose proof (proj1 (nv_pos L OK pos ws first B HW r Hr)) as P2.
  assert (Hn : 0 <= n) by (rewrite F3, F4 in Es; lia).
  destruct (T r v f0 n Hr Hf0 En Hn) as (q & r' & q' & Ev & Hq & Hr' & Enn & Hq' & HN & Hbc).
  assert (Nr : r' <> r). { intros ->. apply Hn2. rewrite F3, F4, Enn. pose proof (proj2 (nv_pos L OK pos ws first B HW r Hr) q' Hq'). lia. }
  specialize (Hbc Nr). rewrite Hbc. exists q'. split; [exact Hq'|]. cbn [ij_p pi]. rewrite (F5 r' ltac:(lia)), Enn. lia.
Qed.

Lemma others_placed r s : placed L pos r s -> forall p, In p (others (s_p s) (map m_i (s_pm s))) -> IN r (pi p).
Proof.
  intros H p Hp. unfold others in Hp. apply in_flat_map in Hp. destruct Hp as (k & _ & Hp). destruct (existsb (Z.eqb (Z.of_nat k)) (map m_i (s_pm s))) eqn:E; [destruct Hp|].
  destruct (nth_error (s_p s) k) as [p0|] eqn:En; [|destruct Hp]. destruct Hp as [->|[]]. specialize (H k p En). rewrite E in H. exact H.
Qed.
Lemma packed_cells r : forall sp ss outs ss', packed Rnum (B r) sp ss outs ss' -> Forall (placed L pos r) ss -> Forall (placed L pos r) ss'.
Proof.
  intros sp ss outs ss' H. induction H as [|sp s ss fs ps' outs ss' Ef P H IH]; intros HF; [constructor|]. inversion HF as [|s0 ss0 P1 P2]; subst s0 ss0. constructor; [|apply IH, P2].
  apply placed_plain. intros p Hp. apply (others_placed r s P1). apply (Permutation_in p P Hp).
Qed.
Lemma drop_all_cells r nx ny nz r8V : forall ss adds ss', Forall movers_ok ss -> drop_all Rnum nx ny nz r8V ss = Some (adds, ss') -> Forall (placed L pos r) ss -> Forall (placed L pos r) ss'.
Proof.
  induction ss as [|s ss IH]; intros adds ss' HM; cbn [drop_all].
  - intros H _. injection H as <- <-. constructor.
  - inversion HM as [|s0 ss0 (M1 & M2) HM2]; subst s0 ss0. unfold drop_leftovers.
    destruct (remove_movers_spec (s_p s) _ M1 M2) as (ps' & E & P & _). rewrite E.
    destruct (drop_all Rnum nx ny nz r8V ss) as [[a2 s2]|] eqn:E2; [|discriminate].
    intros H HF. injection H as <- <-. inversion HF as [|s0 ss0 P1 P2]; subst s0 ss0. constructor; [|apply (IH _ _ HM2 eq_refl P2)].
    apply placed_plain. intros p Hp. apply (others_placed r s P1). apply (Permutation_in p P Hp).
Qed.
Lemma inject_one_cells fuel r ss ij ss' log : 0 <= r < ws -> Forall movers_ok ss -> inject_one Rnum fuel (b_mesh (B r)) ss ij = Some (ss', log) ->
  IN r (pi (ij_p ij)) -> Forall (placed L pos r) ss -> Forall (placed L pos r) ss' /\ log_in r log.
Proof.
  intros Hr HM. unfold inject_one. destruct (Z.ltb_spec (ij_sp ij) 0) as [|Hi]; [discriminate|].
  destruct (nth_error ss (Z.to_nat (ij_sp ij))) as [s0|] eqn:E0; [|discriminate].
  destruct (move_p Rnum fuel (b_mesh (B r)) (s_q s0) (ij_p ij) (ij_disp ij)) as [st p disp lg| |] eqn:Em; try discriminate.
  intros H Hij HF. injection H as <- <-. unfold move_p in Em.
  destruct (move_cells r _ Hr _ _ _ _ _ _ _ _ Em Hij (log_nil r)) as (M1 & M2). split; [|exact M2].
  assert (HL : (Z.to_nat (ij_sp ij) < length ss)%nat) by (apply nth_error_Some; congruence).
  apply Forall_mput; [exact HF|exact HL|]. rewrite Forall_forall in HF, HM. apply nth_error_In in E0. specialize (HF s0 E0). destruct (HM s0 E0) as (K1 & K2).
  intros i p1 Hi1. cbn [s_p s_pm] in *. destruct (Nat.lt_ge_cases i (length (s_p s0))) as [C|C].
  - rewrite nth_error_app1 in Hi1 by exact C. specialize (HF i p1 Hi1). destruct st; [|exact HF]. rewrite map_app, existsb_app. cbn [map existsb m_i].
    replace (Z.of_nat i =? Z.of_nat (length (s_p s0))) with false by lia. rewrite !orb_false_r. exact HF.
  - rewrite nth_error_app2 in Hi1 by exact C. destruct (i - length (s_p s0))%nat as [|k] eqn:Ek; cbn [nth_error] in Hi1; [|destruct k; discriminate]. injection Hi1 as <-.
    assert (i = length (s_p s0)) by lia. subst i.
    assert (N : existsb (Z.eqb (Z.of_nat (length (s_p s0)))) (map m_i (s_pm s0)) = false).
    { apply not_true_is_false. intros E. apply existsb_exists in E. destruct E as (i & Hi2 & Ei). specialize (K2 i Hi2). lia. }
    destruct st; [|rewrite N; exact M1]. rewrite map_app, existsb_app, N. cbn [map existsb m_i orb]. rewrite Z.eqb_refl. exact M1.
Qed.

Variable Q : list R.
Lemma inject_all_cells fuel r : 0 <= r < ws -> forall l ss ss' log, map s_q ss = Q -> Forall (species_ok (b_mesh (B r))) ss ->
  inject_all Rnum fuel (b_mesh (B r)) ss l = Some (ss', log) -> (forall ij, In ij l -> IN r (pi (ij_p ij))) -> Forall (placed L pos r) ss -> Forall (placed L pos r) ss' /\ log_in r log.
Proof.
  intros Hr. induction l as [|ij l IH]; intros ss ss' log HQ HO; cbn [inject_all].
  - intros H _ HF. injection H as <- <-. split; [exact HF|apply log_nil].
  - destruct (inject_one Rnum fuel (b_mesh (B r)) ss ij) as [[s1 l1]|] eqn:E1; [|discriminate].
    destruct (inject_all Rnum fuel (b_mesh (B r)) s1 l) as [[s2 l2]|] eqn:E2; [|discriminate].
    intros H HI HF. injection H as <- <-.
    assert (HM : Forall movers_ok ss) by (eapply Forall_impl; [intros s; apply ok_movers|exact HO]).
    destruct (inject_one_cells fuel r ss ij s1 l1 Hr HM E1 (HI ij (or_introl eq_refl)) HF) as (A1 & A2).
    assert (Hone : repeats L (fun _ => 0%R)) by (intros a g Ha; reflexivity).
    destruct (inject_one_charge L OK pos ws (fun _ => 0%R) Hone first B HW Q fuel r ss ij s1 l1 Hr HQ HO E1) as (_ & B2 & B3).
    destruct (IH s1 s2 l2 B2 B3 E2 (fun ij0 H0 => HI ij0 (or_intror H0)) A1) as (C1 & C2). split; [exact C1|apply log_app; assumption].
Qed.
Lemma sends_in f (l : list (fate (V := R))) ij : In ij (sends f l) -> In (Sent f ij) l.
Proof.
  intros H. unfold sends in H. apply in_flat_map in H. destruct H as (x & Hx & H). destruct x as [p|g i|k p m g|p]; try destruct H.
  destruct (Z.eqb_spec f g) as [->|N]; [|destruct H]. destruct H as [->|[]]. exact Hx.
Qed.
Lemma rounds_cells Phi fuel n SS gain lg SS' : repeats L Phi -> closed ws B -> reciprocal ws B -> rounds L pos ws Phi B Q fuel n SS gain lg SS' -> ranks_ok ws B Q SS ->
  (forall r, 0 <= r < ws -> Forall (placed L pos r) (SS r)) -> forall r, 0 <= r < ws -> Forall (placed L pos r) (SS' r) /\ log_in r (lg r).
Proof.
  intros HPhi HC Rc H. induction H as [SS SS' lg H|n SS SS1 SS2 SS3 out loc lg1 lg2 lg gain H1 H2 IH H3]; intros HO HF r Hr.
  - destruct (H r Hr) as (-> & ->). split; [apply HF, Hr|apply log_nil].
  - destruct (round_charge L OK pos ws Phi HPhi first B HW Q fuel SS SS1 SS2 out loc lg1 Rc HO (fun r Hr => conj (proj1 (H1 r Hr)) (proj1 (proj2 (H1 r Hr))))) as (_ & C2).
    assert (K : forall r, 0 <= r < ws -> Forall (placed L pos r) (SS2 r) /\ log_in r (lg1 r)).
    { clear r Hr. intros r Hr. destruct (H1 r Hr) as (E1 & E2 & E3). destruct (HO r Hr) as (O1 & O2).
      assert (HM : Forall movers_ok (SS r)) by (eapply Forall_impl; [intros s; apply ok_movers|exact O2]).
      destruct (pack_species_packed _ _ _ _ _ HM E1) as ((outs & Eo & Pk) & _).
      rewrite E3 in E2 by (apply (closed_custom ws B r (SS r) 0 (out r) (SS1 r) HC Hr O2 E1)).
      assert (S1 : map s_q (SS1 r) = Q /\ Forall (fun s => s_pm s = []) (SS1 r)).
      { rewrite <- O1. clear - Pk. induction Pk as [|sp s ss fs ps' outs ss' Ef P H IH]; [split; [reflexivity|constructor]|]. destruct IH as (I1 & I2). split; [cbn; f_equal; exact I1|constructor; [reflexivity|exact I2]]. }
      destruct S1 as (S1 & S2). apply (inject_all_cells fuel r Hr _ (SS1 r) (SS2 r) (lg1 r) S1) in E2; [exact E2| | |].
      - eapply Forall_impl; [|exact S2]. intros s Es. split; rewrite Es; [constructor|]. intros m [].
      - intros ij Hij. unfold injection_order in Hij. cbn [rev app] in Hij. apply in_flat_map in Hij. destruct Hij as (f & Hf & Hij).
        destruct (shared (B r) f) eqn:Es; [|destruct Hij]. apply in_rev in Hij. assert (Hf6 : 0 <= f < 6) by (cbn in Hf; lia).
        rewrite (received_eq ws B out r f Rc Hr Hf6 Es) in Hij. destruct (shared_partner ws B r f Rc Hr Hf6 Es) as (P1 & P2 & P3 & P4).
        set (r' := nthz (b_bc (B r)) f) in *. apply sends_in in Hij. destruct (H1 r' P1) as (E1' & _). destruct (HO r' P1) as (_ & O2').
        assert (HM' : Forall movers_ok (SS r')) by (eapply Forall_impl; [intros s; apply ok_movers|exact O2']).
        destruct (pack_species_packed _ _ _ _ _ HM' E1') as ((outs' & Eo' & Pk') & _). rewrite Eo' in Hij.
        destruct (packed_fates _ _ _ _ _ Pk' _ Hij) as (k & s & m & p & Is & Im & Ep & Edp). rewrite Forall_forall in O2'.
        rewrite <- P4. apply (stopped_cell r' k p m (opp f) ij P1); [|exact Edp]. apply (proj2 (proj2 (O2' s Is) m Im)), Ep.
      - apply (packed_cells r 0 (SS r) outs (SS1 r) Pk (HF r Hr)). }
    destruct (IH C2 (fun r0 Hr0 => proj1 (K r0 Hr0)) r Hr) as (I1 & I2). split; [exact I1|]. rewrite (H3 r Hr). apply log_app; [apply K, Hr|exact I2].
Qed.
Theorem step_cells Phi fuel n qdt cdt fs kept SS0 SS1 SS2 SS3 lg1 lg2 gain dims r8V adds : repeats L Phi -> closed ws B -> reciprocal ws B ->
  (forall r, 0 <= r < ws -> map s_q (SS0 r) = Q /\ Forall (fun s => s_pm s = []) (SS0 r)) ->
  (forall r, 0 <= r < ws -> advance_all Rnum (S fuel) (b_mesh (B r)) (qdt r) (cdt r) (fs r) (kept r) 0 (SS0 r) = Some (SS1 r, lg1 r)) ->
  rounds L pos ws Phi B Q fuel n SS1 gain lg2 SS2 ->
  (forall r, 0 <= r < ws -> let '(nx, ny, nz) := dims r in drop_all Rnum nx ny nz (r8V r) (SS2 r) = Some (adds r, SS3 r)) ->
  (forall r, 0 <= r < ws -> Forall (placed L pos r) (SS0 r)) ->
  forall r, 0 <= r < ws -> Forall (placed L pos r) (SS3 r) /\ log_in r (lg1 r ++ lg2 r).
Proof.
  intros HPhi HC Rc H0 HA HR HD HP r Hr.
  assert (A : forall r, 0 <= r < ws -> map s_q (SS1 r) = Q /\ Forall (species_ok (b_mesh (B r))) (SS1 r) /\ Forall (placed L pos r) (SS1 r) /\ log_in r (lg1 r)).
  { clear r Hr. intros r Hr. destruct (H0 r Hr) as (Q0 & N0). destruct (advance_all_charge L OK pos ws Phi HPhi first B HW fuel r _ _ _ _ Hr _ _ _ _ N0 (HA r Hr)) as (A1 & A2 & A3).
    destruct (advance_all_cells fuel r _ _ _ _ Hr _ _ _ _ N0 (HA r Hr) (HP r Hr)) as (A4 & A5). split; [congruence|]. split; [exact A3|]. split; assumption. }
  assert (O1 : ranks_ok ws B Q SS1) by (intros r0 Hr0; destruct (A r0 Hr0) as (A1 & A2 & _); split; assumption).
  destruct (rounds_cells Phi fuel n SS1 gain lg2 SS2 HPhi HC Rc HR O1 (fun r0 Hr0 => proj1 (proj2 (proj2 (A r0 Hr0)))) r Hr) as (R1 & R2).
  destruct (rounds_charge L OK pos ws Phi HPhi first B HW Q fuel n SS1 gain lg2 SS2 Rc HR O1) as (_ & O2).
  split; [|apply log_app; [apply A, Hr|exact R2]]. specialize (HD r Hr). destruct (dims r) as [[nx ny] nz]. apply (drop_all_cells r nx ny nz (r8V r) (SS2 r) (adds r)); [|exact HD|exact R1].
  destruct (O2 r Hr) as (_ & Hs). eapply Forall_impl; [intros s; apply ok_movers|exact Hs].
Qed.
End W.
