(* C61: the charge densities of all ranks, and the error of Gauss's law over a whole step. *)
From Coq Require Import Reals Lra ZArith List Bool Lia ZifyBool.
From Verif Require Import SortModel SortProofs GridModel GridProofs VoxelModel ParticleModel ParticleSpec ParticleProofs MoverModel BoundaryProofs
  SweepModel FieldModel FieldSpec FieldSweeps FieldBoundaryModel FieldPhysics FieldFinal
  RemoteModel RemoteSpec RemoteProofs RemoteSync RemoteSum DecompSpec DecompProofs DecompSteps PropertiesRemote PropertiesDecomp
  ChargeModel ChargeSpec ChargeProofs ChargeRounds ChargeStep PropertiesCharge CurrentSpec CurrentProofs CurrentCells CurrentSync
  PropertiesCurrent RhoSpec RhoProofs RhoSteps RhoFinal.
Import ListNotations.
Open Scope Z_scope.
Ltac Zify.zify_post_hook ::= idtac.
Local Notation sumR := ParticleSpec.sumR.
Local Notation axis := RemoteModel.axis.
Local Notation AT := RemoteModel.at_.

(* clear_rhof, accumulate_rho_p for every species on every rank, and the exchanges of synchronize_rho: at every copy of every node, rhof is the charge that all particles of
   all ranks bring to the node, per cell volume; the other members keep their values, rhob for the exchange's average. *)
Theorem C61_free : forall L pos num ws G rd SS W W1 W2,
  layout_ok L -> box L num ws G -> (forall r, 0 <= r < ws -> inside L (pos r) /\ num (pos r) = r) ->
  equal_cells L rd -> (forall a i, 0 <= i < l_p L a -> (0 < l_d L a i)%R) ->
  (forall r, 0 <= r < ws -> Forall (fun s => s_pm s = []) (SS r) /\ Forall (placed L pos r) (SS r)) ->
  accumulated L pos ws rd SS W W1 -> run_phases R Rarith ws G SyncRho (phases SyncRho) W1 W2 ->
  forall p q, inside L p ->
    (holds L Rhof p q -> W2 (num p) (Rhof, vox3 (size_at L p) q) = (vx rd * vy rd * vz rd * world_charge L pos ws (at_node L (gplace L p q)) SS)%R) /\
    (forall c, c <> Rhof -> c <> Rhob -> holds L c p q -> W2 (num p) (c, vox3 (size_at L p) q) = W (num p) (c, vox3 (size_at L p) q)).
Proof.
  intros L pos num ws G rd SS W W1 W2 OK HB HI HE Hd HS HA H p q Hp. split.
  - intros Hq. exact (free_density L OK pos num ws G HB HI rd HE Hd SS W W1 W2 p q HS HA H Hp Hq).
  - intros c N1 N2 Hq. transitivity (W1 (num p) (c, vox3 (size_at L p) q)).
    + apply (sync_keep Rarith L num ws G OK HB SyncRho W1 W2 c p q eq_refl H Hp); [|left; destruct c; try reflexivity; contradiction]. intros a. specialize (Hq a). destruct (node_on c a); lia.
    + destruct (pos_num L pos num ws G HB HI p Hp) as (M1 & M2). pose proof (HA (num p) c q M1 ltac:(rewrite M2; exact Hq)) as U. cbv zeta in U. rewrite M2 in U.
      replace (is_rhof c) with false in U by (destruct c; try reflexivity; contradiction). exact U.
Qed.
Print Assumptions C61_free.

(* The charge of the particles removed at the end of the step goes to rhob by accumulate_rhob, doubled at the faces of each rank; synchronize_rho averages the copies.
   Together they add the removed charge per cell volume at every copy of every node, and per half, quarter or eighth volume at the nodes on walls. *)
Theorem C61_bound : forall L pos num ws G rd SS adds SS' B0 W W1 W2,
  layout_ok L -> box L num ws G -> (forall r, 0 <= r < ws -> inside L (pos r) /\ num (pos r) = r) ->
  equal_cells L rd -> (forall a i, 0 <= i < l_p L a -> (0 < l_d L a i)%R) ->
  (forall r, 0 <= r < ws -> Forall movers_ok (SS r) /\ Forall (placed L pos r) (SS r)) ->
  (forall r, 0 <= r < ws -> let '(nx, ny, nz) := size_at L (pos r) in drop_all Rnum nx ny nz (inv_8V rd) (SS r) = Some (adds r, SS' r)) ->
  repeats L B0 -> (forall p q, inside L p -> holds L Rhob p q -> W (num p) (Rhob, vox3 (size_at L p) q) = B0 (gplace L p q)) ->
  deposited L pos ws adds W W1 -> run_phases R Rarith ws G SyncRho (phases SyncRho) W1 W2 ->
  forall p q, inside L p -> holds L Rhob p q -> let g := gplace L p q in
    W2 (num p) (Rhob, vox3 (size_at L p) q) =
      (B0 g + halves L g * (vx rd * vy rd * vz rd * over_ranks ws (fun r => listed_charge L pos (at_node L g) r (SS r))))%R.
Proof.
  intros L pos num ws G rd SS adds SS' B0 W W1 W2 OK HB HI HE Hd HS HD HR HW HA H p q Hp Hq. cbv zeta.
  apply (bound_density L OK pos num ws G HB HI rd HE Hd SS adds SS' B0 W W1 W2 p q HS HD HR HW); [|exact H|exact Hp|exact Hq].
  intros r e Hr He. cbv zeta. exact (HA r Rhob e Hr He).
Qed.
Print Assumptions C61_bound.

(* A whole step on a box whose axes are all joined: particles SS0 are advanced, handed over and the leftovers removed (advance.cc:47-101); currents unloaded and synchronised
   (:105-112); B advanced by half a step, E by a step, B by half a step (:120-137); rhof made anew and the densities synchronised (:144-146). *)
Definition whole_step (L : layout R) (pos : Z -> cell) (num : cell -> Z) (ws : Z) (G : Z -> cgrid R) mt fma P
    (gr : rgrid) (dmp : R) (kb kb' : coefs R) (B : Z -> bgrid) (Q : list R) (SS0 : Z -> list (spec (V := R))) (W0 : Z -> mem R) (SS3 : Z -> list (spec (V := R))) (W6 : Z -> mem R) : Prop :=
  let rd := mkv (rdx gr) (rdy gr) (rdz gr) in
  exists fuel n qdt cdt fs kept SS1 SS2 lg1 lg2 Phi gain adds Wd Wj W1 W2 W3 W4 W5,
  (forall r, 0 <= r < ws -> advance_all Rnum (S fuel) (b_mesh (B r)) (qdt r) (cdt r) (fs r) (kept r) 0 (SS0 r) = Some (SS1 r, lg1 r)) /\
  rounds L pos ws Phi B Q fuel n SS1 gain lg2 SS2 /\
  (forall r, 0 <= r < ws -> let '(nx, ny, nz) := size_at L (pos r) in drop_all Rnum nx ny nz (inv_8V rd) (SS2 r) = Some (adds r, SS3 r)) /\
  deposited L pos ws adds W0 Wd /\ unloaded L pos ws rd (dt gr) (fun r => lg1 r ++ lg2 r) Wd Wj /\ run_phases R Rarith ws G SyncJf (phases SyncJf) Wj W1 /\
  on_ranks R Rarith RA L num ws G mt fma P (AdvanceB kb) (fun _ => []) W1 W2 /\
  on_ranks R Rarith RA L num ws G mt fma P (AdvanceE (advance_e_coefs gr dmp)) (fun _ => []) W2 W3 /\
  on_ranks R Rarith RA L num ws G mt fma P (AdvanceB kb') (fun _ => []) W3 W4 /\
  accumulated L pos ws rd SS3 W4 W5 /\ run_phases R Rarith ws G SyncRho (phases SyncRho) W5 W6.
(* The particles of all ranks are in cells of their ranks and not on the way. *)
Definition at_rest (L : layout R) (pos : Z -> cell) (ws : Z) (Q : list R) (SS : Z -> list (spec (V := R))) : Prop :=
  forall r, 0 <= r < ws -> map s_q (SS r) = Q /\ Forall (fun s => s_pm s = []) (SS r) /\ Forall (placed L pos r) (SS r).
(* The arrays hold the field F whose rhof is the density of the particles. *)
Definition charged (L : layout R) (pos : Z -> cell) (num : cell -> Z) (ws : Z) (gr : rgrid) (SS : Z -> list (spec (V := R))) (F : gfield R) (W : Z -> mem R) : Prop :=
  field_repeats L F /\ holds_field L num F W /\ forall g, F Rhof g = (rdx gr * rdy gr * rdz gr * world_charge L pos ws (at_node L g) SS)%R.

(* At every copy of every node the error of Gauss's law that compute_div_e_err finds after a whole step in lossless materials is the one it found before, up to the damping;
   and the arrays and particles are again such that the next step may follow. *)
Theorem C61_gauss : forall L pos num ws G mt fma P gm gr dmp kb kb' first B Q SS0 SS3 F0 W0 D0 W6 D6,
  layout_ok L -> box L num ws G -> (forall r, 0 <= r < ws -> inside L (pos r) /\ num (pos r) = r) ->
  equal_cells L (mkv (rdx gr) (rdy gr) (rdz gr)) -> (forall a i, 0 <= i < l_p L a -> (0 < l_d L a i)%R) -> dt gr <> 0%R -> (forall a, l_per L a = true) ->
  (* materials and local sizes *)
  fits R L P -> alike R L mt gm -> (forall p, inside L p -> lossless gr (mt p)) ->
  (1 < gnx gr \/ total L RemoteModel.AX = 1) -> (1 < gny gr \/ total L RemoteModel.AY = 1) -> (1 < gnz gr \/ total L RemoteModel.AZ = 1) ->
  wired L pos ws first B -> reciprocal ws B -> closed ws B ->
  at_rest L pos ws Q SS0 -> charged L pos num ws gr SS0 F0 W0 ->
  whole_step L pos num ws G mt fma P gr dmp kb kb' B Q SS0 W0 SS3 W6 ->
  at_rest L pos ws Q SS3 /\ (exists F6, charged L pos num ws gr SS3 F6 W6) /\
  (on_ranks R Rarith RA L num ws G mt fma P (DivEErr (div_coefs gr)) (fun _ => []) W0 D0 ->
   on_ranks R Rarith RA L num ws G mt fma P (DivEErr (div_coefs gr)) (fun _ => []) W6 D6 ->
   forall p q, inside L p -> holds L DivE p q -> let g := gplace L p q in
    D6 (num p) (DivE, vox3 (size_at L p) q) =
      (D0 (num p) (DivE, vox3 (size_at L p) q) - nonconductive (g_mtab gm (g_nmat gm g)) * (dmp * g_div_node (div_coefs gr) F0 Tcax Tcay Tcaz g))%R).
Proof.
  intros L pos num ws G mt fma P gm gr dmp kb kb' first B Q SS0 SS3 F0 W0 D0 W6 D6
    OK HB HI HE Hd Hdt Per Fit Al Lo TX TY TZ HW Rc HC H0 (Fr & HF & HF0) (fuel & n & qdt & cdt & fs & kept & SS1 & SS2 & lg1 & lg2 & Phi & gain & adds & Wd & Wj & W1 & W2 & W3 & W4 & W5 &
    HA & HR & HD & HDep & HU & HS & SB & SE & SB' & HAc & HSr).
  set (rd := mkv (rdx gr) (rdy gr) (rdz gr)) in *.
  assert (Ev : even_sizes L) by (intros a i j Hi Hj; exact (equal_size L rd HE a i j Hi Hj)).
  assert (Nz : forall a i, 0 <= i < l_p L a -> l_d L a i <> 0%R) by (intros a i Hi; specialize (Hd a i Hi); lra).
  pose proof (C54_clear_weights_exact L Nz) as Cw.
  assert (NoW : forall (F : gfield R) (e : exch), walls_of R L e F (fun _ => [])).
  { intros F e p' a t c q' _ _ Hn. exfalso. unfold beside in Hn. rewrite Per in Hn. destruct ((0 <=? AT a p' + t) && (AT a p' + t <? l_p L a)); discriminate. }
  (* particles and currents *)
  set (dims := fun r => size_at L (pos r)). set (r8 := fun _ : Z => inv_8V rd).
  destruct (C60_step L pos num ws G rd (dt gr) first B Q fuel n qdt cdt fs kept SS0 SS1 SS2 SS3 lg1 lg2 Phi gain dims r8 adds Wd Wj W1
    OK HB HI HE Hd Hdt HW Rc HC H0 HA HR HD HU HS) as (C3 & J & J1 & J2 & _ & J4).
  assert (H0' : forall r, 0 <= r < ws -> map s_q (SS0 r) = Q /\ Forall (fun s => s_pm s = []) (SS0 r)) by (intros r Hr; destruct (H0 r Hr) as (X & Y & _); split; assumption).
  assert (M2 : forall r, 0 <= r < ws -> Forall movers_ok (SS2 r) /\ Forall (placed L pos r) (SS2 r)).
  { assert (Hz : repeats L (fun _ : cell => 0%R)) by (intros a g' Ha; reflexivity).
    destruct (rounds_any L pos ws Phi (fun _ => 0%R) B Q fuel n SS1 gain lg2 SS2 HR) as (gz & HRz).
    assert (A1 : forall r, 0 <= r < ws -> (map s_q (SS1 r) = Q /\ Forall (species_ok (b_mesh (B r))) (SS1 r)) /\ Forall (placed L pos r) (SS1 r)).
    { intros r Hr. destruct (H0 r Hr) as (Q0 & N0 & P0). destruct (advance_all_charge L OK pos ws (fun _ => 0%R) Hz first B HW fuel r _ _ _ _ Hr _ _ _ _ N0 (HA r Hr)) as (_ & A2 & A3).
      destruct (advance_all_cells L OK pos ws first B HW fuel r _ _ _ _ Hr _ _ _ _ N0 (HA r Hr) P0) as (A4 & _). split; [split; [congruence|exact A3]|exact A4]. }
    assert (O1 : ranks_ok ws B Q SS1) by (intros r Hr; apply A1, Hr).
    intros r Hr. destruct (rounds_charge L OK pos ws (fun _ => 0%R) Hz first B HW Q fuel n SS1 gz lg2 SS2 Rc HRz O1) as (_ & O2).
    destruct (rounds_cells L OK pos ws first B HW Q (fun _ => 0%R) fuel n SS1 gz lg2 SS2 Hz HC Rc HRz O1 (fun r0 Hr0 => proj2 (A1 r0 Hr0)) r Hr) as (R1 & _).
    split; [|exact R1]. destruct (O2 r Hr) as (_ & Hs). eapply Forall_impl; [intros s; apply ok_movers|exact Hs]. }
  (* the fields but rhob, step by step *)
  set (F1 := fun c g => if is_current c then J c g else F0 c g).
  assert (Fr1 : field_repeats L F1) by (intros c a g' Ha; unfold F1; destruct (is_current c); [apply J2, Ha|apply Fr, Ha]).
  assert (Back : forall c p q, inside L p -> holds L c p q -> Wd (num p) (c, vox3 (size_at L p) q) =
     if is_rhob c then apply_adds Rnum (adds (num p)) (fun u => W0 (num p) (Rhob, u)) (vox3 (size_at L p) q) else W0 (num p) (c, vox3 (size_at L p) q)).
  { intros c p0 q0 Hp0 Hq0. destruct (pos_num L pos num ws G HB HI p0 Hp0) as (N1 & N2). pose proof (HDep (num p0) c q0 N1 ltac:(rewrite N2; exact Hq0)) as U. cbv zeta in U. rewrite N2 in U. exact U. }
  assert (HF1 : holds_but L num F1 W1).
  { intros c p0 q0 Nc Hp0 Hq0. rewrite (J1 c p0 q0 Hp0 Hq0). unfold F1. destruct (is_current c); [reflexivity|].
    rewrite (Back c p0 q0 Hp0 Hq0). replace (is_rhob c) with false by (destruct c; try reflexivity; contradiction). apply HF; assumption. }
  destruct (sweep_but Rarith L num ws G OK HB Ev Cw F1 Fr1 RA gm mt fma P Fit Al (AdvanceB kb) (fun _ => []) W1 W2 I HF1 (fun e _ => NoW F1 e) SB) as (HF2 & K2).
  cbn [g_sweep] in HF2. pose proof (rep_advance_b L F1 Fr1 RA kb) as Fr2. set (F2 := g_advance_b R RA kb F1) in *.
  destruct (sweep_but Rarith L num ws G OK HB Ev Cw F2 Fr2 RA gm mt fma P Fit Al (AdvanceE (advance_e_coefs gr dmp)) (fun _ => []) W2 W3 I HF2 (fun e _ => NoW F2 e) SE) as (HF3 & K3).
  cbn [g_sweep] in HF3. pose proof (rep_advance_e L F2 Fr2 RA gm (advance_e_coefs gr dmp) (proj1 Al)) as Fr3. set (F3 := g_advance_e R RA gm (advance_e_coefs gr dmp) F2) in *.
  destruct (sweep_but Rarith L num ws G OK HB Ev Cw F3 Fr3 RA gm mt fma P Fit Al (AdvanceB kb') (fun _ => []) W3 W4 I HF3 (fun e _ => NoW F3 e) SB') as (HF4 & K4).
  cbn [g_sweep] in HF4. pose proof (rep_advance_b L F3 Fr3 RA kb') as Fr4. set (F4 := g_advance_b R RA kb' F3) in *.
  (* the densities *)
  set (rd3 := (rdx gr * rdy gr * rdz gr)%R) in *.
  set (lost := fun g => over_ranks ws (fun r => listed_charge L pos (at_node L g) r (SS2 r))).
  set (F6 := fun c g => match c with Rhof => (rd3 * world_charge L pos ws (at_node L g) SS3)%R | Rhob => (F0 Rhob g + rd3 * lost g)%R | _ => F4 c g end).
  assert (S3 : forall r, 0 <= r < ws -> Forall (fun s => s_pm s = []) (SS3 r) /\ Forall (placed L pos r) (SS3 r)) by (intros r Hr; apply C3, Hr).
  assert (W5b : forall r e, 0 <= r < ws -> holds L Rhob (pos r) e -> let v := vox3 (size_at L (pos r)) e in W5 r (Rhob, v) = apply_adds Rnum (adds r) (fun u => W0 r (Rhob, u)) v).
  { intros r e Hr He. cbv zeta. destruct (HI r Hr) as (I1 & I2). pose proof (HAc r Rhob e Hr He) as U. cbv zeta in U. cbn [is_rhof] in U. rewrite U.
    pose proof (K4 (pos r) (vox3 (size_at L (pos r)) e) I1) as X4. pose proof (K3 (pos r) (vox3 (size_at L (pos r)) e) I1) as X3. pose proof (K2 (pos r) (vox3 (size_at L (pos r)) e) I1) as X2.
    pose proof (J1 Rhob (pos r) e I1 He) as X1. cbn [is_current] in X1. pose proof (Back Rhob (pos r) e I1 He) as X0. cbn [is_rhob] in X0. rewrite I2 in *. congruence. }
  assert (H1 : forall g, halves L g = 1%R) by (intros g'; unfold halves, on_wall; rewrite !Per; cbn [negb andb]; ring).
  assert (HF6 : holds_field L num F6 W6).
  { intros c p0 q0 Hp0 Hq0. destruct (C61_free L pos num ws G rd SS3 W4 W5 W6 OK HB HI HE Hd S3 HAc HSr p0 q0 Hp0) as (X1 & X2).
    destruct c; try (unfold F6; rewrite X2 by (first [discriminate | exact Hq0]); apply HF4; [discriminate|exact Hp0|exact Hq0]).
    - exact (bound_density L OK pos num ws G HB HI rd HE Hd SS2 adds SS3 (F0 Rhob) W0 W5 W6 p0 q0 M2 HD (Fr Rhob) (HF Rhob) W5b HSr Hp0 Hq0) || idtac.
      rewrite (bound_density L OK pos num ws G HB HI rd HE Hd SS2 adds SS3 (F0 Rhob) W0 W5 W6 p0 q0 M2 HD (Fr Rhob) (HF Rhob) W5b HSr Hp0 Hq0), H1. unfold F6, lost, rd3. cbn [vx vy vz rd]. ring.
    - rewrite (X1 Hq0). reflexivity. }
  assert (Fr6 : field_repeats L F6).
  { intros c a g' Ha. destruct c; try exact (Fr4 _ a g' Ha); unfold F6; cbv beta iota.
    - rewrite (Fr Rhob a g' Ha). f_equal. f_equal. unfold lost, over_ranks. apply sum_ext. intros r _. apply listed_ext. intros g''. apply at_node_left, Ha.
    - f_equal. apply world_ext. intros g''. apply at_node_left, Ha. }
  split; [intros r Hr; apply C3, Hr|]. split; [exists F6; split; [exact Fr6|split; [exact HF6|reflexivity]]|]. intros HD0 HD6 p q Hp Hq g.
  destruct (C54_sweep R Rarith RA L num ws G mt fma P gm F6 (DivEErr (div_coefs gr)) (fun _ => []) W6 D6 OK HB Ev Cw Fit Al Fr6 HF6 (fun e _ => NoW F6 e) HD6) as (E6 & _).
  destruct (C54_sweep R Rarith RA L num ws G mt fma P gm F0 (DivEErr (div_coefs gr)) (fun _ => []) W0 D0 OK HB Ev Cw Fit Al Fr HF (fun e _ => NoW F0 e) HD0) as (E0 & _).
  rewrite (E6 DivE p q Hp Hq), (E0 DivE p q Hp Hq). fold g. cbn [g_sweep]. unfold g_div_e_err, gmat. cbn [RA a_add a_sub a_mul].
  assert (ED : g_div_d R RA gm (div_coefs gr) F6 g = g_div_d R RA gm (div_coefs gr) F3 g) by reflexivity.
  rewrite ED. unfold F3. rewrite (field_gauss L mt gm gr dmp F2 OK Al Lo g).
  assert (EF : g_div_d R RA gm (div_coefs gr) F2 g = g_div_d R RA gm (div_coefs gr) F0 g) by reflexivity.
  assert (ET : g_div_node (div_coefs gr) F2 Tcax Tcay Tcaz g = g_div_node (div_coefs gr) F0 Tcax Tcay Tcaz g) by reflexivity.
  rewrite EF, ET.
  assert (One : forall a c n x, 1 < n \/ total L a = 1 -> (if_thick n x * (J c g - J c (dn a g)) = x * (J c g - J c (dn a g)))%R).
  { intros a c n0 x [Hn|Ht].
    - unfold if_thick. replace (1 <? n0) with true by lia. reflexivity.
    - replace (J c g) with (J c (dn a g)); [ring|]. rewrite <- (J2 c a (dn a g) (Per a)), Ht. f_equal. unfold dn. destruct a, g as [[? ?] ?]; cbn; repeat f_equal; lia. }
  assert (EJ : g_div_node (div_coefs gr) F2 Jfx Jfy Jfz g = div_current rd J g).
  { unfold g_div_node, div_current, F2, F1, g_advance_b, div_coefs. cbn [is_current px py pz vx vy vz rd]. rewrite (One RemoteModel.AX), (One RemoteModel.AY), (One RemoteModel.AZ) by assumption. reflexivity. }
  rewrite EJ. specialize (J4 g). fold (lost g) in J4. cbn [vx vy vz rd] in J4. fold rd3 in J4. rewrite HF0. unfold F6, div_coefs. cbn [cj].
  replace (dt gr / eps0 gr * div_current rd J g)%R with (dt gr * div_current rd J g / eps0 gr)%R by (unfold Rdiv; ring). unfold rd in *. rewrite J4. unfold Rdiv. ring.
Qed.
Print Assumptions C61_gauss.

(* The start of a run (initialize.cc:32-39): rhof from the particles, rhob from E.  The arrays then hold a field with the density of the particles, and there is no error at any node,
   conductors (where the error is not counted) or not. *)
Theorem C61_start : forall L pos num ws G mt fma P gm gr SS F W W1 W2 W3,
  layout_ok L -> box L num ws G -> (forall r, 0 <= r < ws -> inside L (pos r) /\ num (pos r) = r) ->
  equal_cells L (mkv (rdx gr) (rdy gr) (rdz gr)) -> (forall a i, 0 <= i < l_p L a -> (0 < l_d L a i)%R) -> eps0 gr <> 0%R -> (forall a, l_per L a = true) ->
  fits R L P -> alike R L mt gm -> (forall i, nonconductive (g_mtab gm i) = 0%R \/ nonconductive (g_mtab gm i) = 1%R) ->
  (forall r, 0 <= r < ws -> Forall (fun s => s_pm s = []) (SS r) /\ Forall (placed L pos r) (SS r)) ->
  field_repeats L F -> holds_field L num F W ->
  accumulated L pos ws (mkv (rdx gr) (rdy gr) (rdz gr)) SS W W1 -> run_phases R Rarith ws G SyncRho (phases SyncRho) W1 W2 ->
  on_ranks R Rarith RA L num ws G mt fma P (BoundCharge (rhob_coefs gr)) (fun _ => []) W2 W3 ->
  (exists F3, charged L pos num ws gr SS F3 W3) /\
  forall D, on_ranks R Rarith RA L num ws G mt fma P (DivEErr (div_coefs gr)) (fun _ => []) W3 D ->
  forall p q, inside L p -> holds L DivE p q -> D (num p) (DivE, vox3 (size_at L p) q) = 0%R.
Proof.
  intros L pos num ws G mt fma P gm gr SS F W W1 W2 W3 OK HB HI HE Hd He Per Fit Al Nc HS Fr HF HA HSr HBc. set (rd := mkv (rdx gr) (rdy gr) (rdz gr)) in *.
  assert (Ev : even_sizes L) by (intros a i j Hi Hj; exact (equal_size L rd HE a i j Hi Hj)).
  assert (Nz : forall a i, 0 <= i < l_p L a -> l_d L a i <> 0%R) by (intros a i Hi; specialize (Hd a i Hi); lra).
  pose proof (C54_clear_weights_exact L Nz) as Cw.
  assert (NoW : forall (F : gfield R) (e : exch), walls_of R L e F (fun _ => [])).
  { intros F' e p' a t c q' _ _ Hn. exfalso. unfold beside in Hn. rewrite Per in Hn. destruct ((0 <=? AT a p' + t) && (AT a p' + t <? l_p L a)); discriminate. }
  set (F2 := fun c g => match c with Rhof => (rdx gr * rdy gr * rdz gr * world_charge L pos ws (at_node L g) SS)%R | _ => F c g end).
  assert (Fr2 : field_repeats L F2).
  { intros c a g' Ha. destruct c; try exact (Fr _ a g' Ha); unfold F2; cbv beta iota. f_equal. apply world_ext. intros g''. apply at_node_left, Ha. }
  assert (HF2 : holds_field L num F2 W2).
  { intros c p q Hp Hq. destruct (C61_free L pos num ws G rd SS W W1 W2 OK HB HI HE Hd HS HA HSr p q Hp) as (X1 & X2).
    destruct c; try (unfold F2; rewrite X2 by (first [discriminate | exact Hq]); apply HF; assumption).
    - rewrite (bound_density L OK pos num ws G HB HI rd HE Hd (fun _ => []) (fun _ => []) (fun _ => []) (F Rhob) W W1 W2 p q); try assumption.
      + unfold F2, over_ranks, listed_charge. cbn [map]. rewrite (sum_ext _ (fun _ => 0%R)) by (intros; reflexivity).
        replace (sumR (map (fun _ : Z => 0%R) (zrange 0 ws))) with 0%R; [ring|]. induction (zrange 0 ws) as [|? l IH]; [reflexivity|]. cbn. unfold sumR in IH. rewrite <- IH. ring.
      + intros r Hr. split; constructor.
      + intros r Hr. destruct (size_at L (pos r)) as [[nx ny] nz]. reflexivity.
      + exact (Fr Rhob).
      + exact (HF Rhob).
      + intros r e Hr Hh. cbv zeta. pose proof (HA r Rhob e Hr Hh) as U. cbv zeta in U. exact U.
    - rewrite (X1 Hq). reflexivity. }
  destruct (C54_sweep R Rarith RA L num ws G mt fma P gm F2 (BoundCharge (rhob_coefs gr)) (fun _ => []) W2 W3 OK HB Ev Cw Fit Al Fr2 HF2 (fun e _ => NoW F2 e) HBc) as (HF3 & Fr3).
  cbn [g_sweep] in *. split; [eexists; split; [exact Fr3|split; [exact HF3|reflexivity]]|].
  intros D HD p q Hp Hq.
  destruct (C54_sweep R Rarith RA L num ws G mt fma P gm _ (DivEErr (div_coefs gr)) (fun _ => []) W3 D OK HB Ev Cw Fit Al Fr3 HF3 (fun e _ => NoW _ e) HD) as (E4 & _).
  rewrite (E4 DivE p q Hp Hq). set (g := gplace L p q). cbn [g_sweep]. unfold g_div_e_err, gmat. cbn [RA a_add a_sub a_mul].
  destruct (Nc (g_nmat gm g)) as [N|N]; rewrite N; [ring|]. unfold g_rhob at 3. unfold gmat. rewrite N. cbn [RA a_add a_sub a_mul].
  assert (ED : forall F' : gfield R, g_div_d R RA gm (rhob_coefs gr) F' g = (eps0 gr * g_div_d R RA gm (div_coefs gr) F' g)%R).
  { intros F'. unfold g_div_d, rhob_coefs, div_coefs, RA. cbn [px py pz a_add a_sub a_mul]. rewrite !if_thick_scale. ring. }
  rewrite ED.
  assert (E2 : g_div_d R RA gm (div_coefs gr) (g_rhob R RA gm (rhob_coefs gr) F2) g = g_div_d R RA gm (div_coefs gr) F2 g) by reflexivity.
  assert (E3 : g_rhob R RA gm (rhob_coefs gr) F2 Rhof g = F2 Rhof g) by reflexivity. rewrite E2, E3. unfold div_coefs at 2. cbn [cj]. field. exact He.
Qed.
Print Assumptions C61_start.

(* Any number of steps. *)
Inductive steps (step : (Z -> list (spec (V := R))) -> (Z -> mem R) -> (Z -> list (spec (V := R))) -> (Z -> mem R) -> Prop) :
    nat -> (Z -> list (spec (V := R))) -> (Z -> mem R) -> (Z -> list (spec (V := R))) -> (Z -> mem R) -> Prop :=
| steps_none SS W : steps step 0 SS W SS W
| steps_more n SS W SS1 W1 SS2 W2 : step SS W SS1 W1 -> steps step n SS1 W1 SS2 W2 -> steps step (S n) SS W SS2 W2.

(* A run without damping keeps Gauss's law at every copy of every node: started with no error, there is none after any number of steps. *)
Theorem C61_run : forall L pos num ws G mt fma P gm gr kb kb' first B Q n SS0 SSn F0 W0 Wn,
  layout_ok L -> box L num ws G -> (forall r, 0 <= r < ws -> inside L (pos r) /\ num (pos r) = r) ->
  equal_cells L (mkv (rdx gr) (rdy gr) (rdz gr)) -> (forall a i, 0 <= i < l_p L a -> (0 < l_d L a i)%R) -> dt gr <> 0%R -> (forall a, l_per L a = true) ->
  fits R L P -> alike R L mt gm -> (forall p, inside L p -> lossless gr (mt p)) ->
  (1 < gnx gr \/ total L RemoteModel.AX = 1) -> (1 < gny gr \/ total L RemoteModel.AY = 1) -> (1 < gnz gr \/ total L RemoteModel.AZ = 1) ->
  wired L pos ws first B -> reciprocal ws B -> closed ws B ->
  at_rest L pos ws Q SS0 -> charged L pos num ws gr SS0 F0 W0 ->
  steps (whole_step L pos num ws G mt fma P gr 0 kb kb' B Q) n SS0 W0 SSn Wn ->
  forall D0 Dn, on_ranks R Rarith RA L num ws G mt fma P (DivEErr (div_coefs gr)) (fun _ => []) W0 D0 ->
   on_ranks R Rarith RA L num ws G mt fma P (DivEErr (div_coefs gr)) (fun _ => []) Wn Dn ->
   forall p q, inside L p -> holds L DivE p q -> Dn (num p) (DivE, vox3 (size_at L p) q) = D0 (num p) (DivE, vox3 (size_at L p) q).
Proof.
  intros L pos num ws G mt fma P gm gr kb kb' first B Q n SS0 SSn F0 W0 Wn OK HB HI HE Hd Hdt Per Fit Al Lo TX TY TZ HW Rc HC H0 HF H.
  assert (Ev : even_sizes L) by (intros a i j Hi Hj; exact (equal_size L _ HE a i j Hi Hj)).
  assert (Nz : forall a i, 0 <= i < l_p L a -> l_d L a i <> 0%R) by (intros a i Hi; specialize (Hd a i Hi); lra).
  pose proof (C54_clear_weights_exact L Nz) as Cw.
  assert (NoW : forall (F : gfield R) (e : exch), walls_of R L e F (fun _ => [])).
  { intros F' e p' a t c q' _ _ Hn. exfalso. unfold beside in Hn. rewrite Per in Hn. destruct ((0 <=? AT a p' + t) && (AT a p' + t <? l_p L a)); discriminate. }
  revert F0 H0 HF. induction H as [SS W|n SS W SS1 W1 SS2 W2 H1 H2 IH]; intros F0 H0 HF D0 Dn HD0 HDn p q Hp Hq.
  - destruct HF as (Fr & HF & _).
    destruct (C54_sweep R Rarith RA L num ws G mt fma P gm F0 (DivEErr (div_coefs gr)) (fun _ => []) W D0 OK HB Ev Cw Fit Al Fr HF (fun e _ => NoW F0 e) HD0) as (E0 & _).
    destruct (C54_sweep R Rarith RA L num ws G mt fma P gm F0 (DivEErr (div_coefs gr)) (fun _ => []) W Dn OK HB Ev Cw Fit Al Fr HF (fun e _ => NoW F0 e) HDn) as (En & _).
    rewrite (E0 DivE p q Hp Hq), (En DivE p q Hp Hq). reflexivity.
  - destruct (C61_gauss L pos num ws G mt fma P gm gr 0 kb kb' first B Q SS SS1 F0 W D0 W1 W1 OK HB HI HE Hd Hdt Per Fit Al Lo TX TY TZ HW Rc HC H0 HF H1) as (A1 & (F1 & A2) & _).
    assert (X : exists D1, on_ranks R Rarith RA L num ws G mt fma P (DivEErr (div_coefs gr)) (fun _ => []) W1 D1).
    { apply C54_runs_exist; assumption. }
    destruct X as (D1 & HD1).
    destruct (C61_gauss L pos num ws G mt fma P gm gr 0 kb kb' first B Q SS SS1 F0 W D0 W1 D1 OK HB HI HE Hd Hdt Per Fit Al Lo TX TY TZ HW Rc HC H0 HF H1) as (_ & _ & A3).
    rewrite (IH F1 A1 A2 D1 Dn HD1 HDn p q Hp Hq), (A3 HD0 HD1 p q Hp Hq). ring.
Qed.
Print Assumptions C61_run.

(* Box of 4x2x1 cells on 2x1x1 ranks, all axes joined.  A particle of charge 1 at the middle of cell (2,1,1) of rank 0 and one of charge 2 at the middle of cell (1,1,1) of rank 1:
   the node (3,1,1) is voxel 23 of rank 0 and voxel 21 of rank 1, which hold 1/8 and 2/8 before the exchange; the node is met from both sides along z, so the charge there is 3/4. *)
Definition ex_SS (r : Z) : list (spec (V := R)) :=
  if r =? 0 then [mk_spec 1%R [mkp (mkv 0 0 0)%R 22 (mkv 0 0 0)%R 1%R] []] else [mk_spec 1%R [mkp (mkv 0 0 0)%R 21 (mkv 0 0 0)%R 2%R] []].
Example C61_example :
  own_rhof ex_L (rank_to_index 2 1) (mkv 1 1 1)%R 0 (ex_SS 0) 23 = (1 / 8)%R /\
  own_rhof ex_L (rank_to_index 2 1) (mkv 1 1 1)%R 1 (ex_SS 1) 21 = (2 / 8)%R /\
  world_charge ex_L (rank_to_index 2 1) 2 (at_node ex_L (3, 1, 1)) ex_SS = (3 / 4)%R.
Proof.
  split; [|split].
  - unfold own_rhof, ex_SS, inv_8V, accumulate_rho_p. cbn. lra.
  - unfold own_rhof, ex_SS, inv_8V, accumulate_rho_p. cbn. lra.
  - unfold world_charge, over_ranks, ex_SS. change (zrange 0 2) with [0; 1]. unfold rank_charge, species_charge, particle_charge, charge, sum_bool, node, share. cbn -[seen Rplus Rminus Rmult Rdiv Ropp].
    repeat match goal with |- context [seen ?l ?p ?f ?r ?v] => first [change (seen l p f r v) with 0%R | change (seen l p f r v) with 1%R] end.
    lra.
Qed.
(* A particle of charge 1 left on the mover list at the middle of the high x face of cell (2,1,1) of rank 0 brings 1/4 to each corner of the face.  At voxel 23 the rank adds
   eight times that, as the node is on its faces along x, y and z; its seven other copies (one more along x on rank 1, one along y, both along z again) get 0, or as much along z:
   the average is 1/2, which is the charge at the node. *)
Definition ex_left : list (spec (V := R)) := [mk_spec 1%R [mkp (mkv 1 0 0)%R (8 * 22 + 3) (mkv 0 0 0)%R 1%R] [mk_mover (mkv 0 0 0)%R 0]].
Example C61_example_left : match drop_all Rnum 2 2 1 (inv_8V (mkv 1 1 1)%R) ex_left with
  | Some (adds, ss) => (apply_adds Rnum adds (fun _ => 0%R) 23 = 2)%R /\ (apply_adds Rnum adds (fun _ => 0%R) 39 = 2)%R /\ (apply_adds Rnum adds (fun _ => 0%R) 31 = 0)%R /\ map s_p ss = [[]]
  | None => False end /\
  listed_charge ex_L (rank_to_index 2 1) (at_node ex_L (3, 1, 1)) 0 ex_left = (1 / 2)%R.
Proof.
  split.
  - unfold ex_left, inv_8V. cbn. repeat split; lra.
  - unfold listed_charge, ex_left, particle_charge, charge, sum_bool, node, share. cbn -[seen Rplus Rminus Rmult Rdiv Ropp].
    repeat match goal with |- context [seen ?l ?p ?f ?r ?v] => first [change (seen l p f r v) with 0%R | change (seen l p f r v) with 1%R] end.
    lra.
Qed.
