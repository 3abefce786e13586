(* C64: the field energy the code reports, and its fate under the field update. *)
From Coq Require Import Reals ZArith List Bool Lia ZifyBool Lra FunctionalExtensionality.
From Verif Require Import SortModel SortProofs DistributeModel VoxelModel GridModel SweepModel FieldModel FieldBoundaryModel
  RemoteModel RemoteSpec RemoteProofs DecompSpec RemoteSum DecompSteps PropertiesDecomp LocalModel LocalSpec WallSpec WallProofs PropertiesWall
  ParticleSpec EnergyModel EnergySpec YeeCalculus EnergySums EnergyProofs.
Import ListNotations.
Open Scope Z_scope.
Ltac Zify.zify_post_hook ::= idtac.
Local Notation axis := RemoteModel.axis.
Local Notation AX := RemoteModel.AX.
Local Notation AY := RemoteModel.AY.
Local Notation AZ := RemoteModel.AZ.
Local Notation AT := RemoteModel.at_.
Local Notation put := RemoteModel.put.

(* ---- the sum over all ranks ---- *)
(* One of the six numbers energy_f returns (the same on every rank): G, mt, W, fma and P are the ranks' grids, materials, field arrays, contraction and pipelines. *)
Definition energy_f (ws : Z) (G : Z -> cgrid R) (mt : Z -> mats R) (W : Z -> mem R) (fma : Z -> bool) (P : Z -> Z) (eps0 dV : R) (c : comp) : R :=
  world_en ws (fun r => let '(nx, ny, nz) := c_n R (G r) in rank_en nx ny nz (reduce_en nx ny (mt r) (W r)) (fma r) (P r) eps0 dV c).
Definition vacuum_energy_f (ws : Z) (G : Z -> cgrid R) (mt : Z -> mats R) (W : Z -> mem R) (fma : Z -> bool) (P : Z -> Z) (eps0 dV : R) (c : comp) : R :=
  world_en ws (fun r => let '(nx, ny, nz) := c_n R (G r) in rank_en nx ny nz (vacuum_reduce_en nx ny (mt r) (W r)) (fma r) (P r) eps0 dV c).

Lemma energy_f_density : forall L num ws G M gm mt F W fma P eps0 dV a c, c = e_ a \/ c = cb a ->
  layout_ok L -> box L num ws G -> (forall a, total L a = gm_n M a /\ l_per L a = gm_per M a) -> alike R L (fun p => mt (num p)) gm -> fits R L (fun p => P (num p)) ->
  field_repeats L F -> holds_field L num F W -> energy_f ws G mt W fma P eps0 dV c = (0.5 * eps0 * dV * total_over M c (density gm F c))%R.
Proof.
  intros L num ws G M gm mt F W fma P eps0 dV a c Hc OK HB HM [Mr Al] Fit Fr Hh. unfold energy_f.
  apply (world_total L num ws G OK HB M gm (fun p => mt (num p)) F W HM Al Mr Fr Hh _ (fun p => fma (num p)) (fun p => P (num p)) eps0 dV a c Hc).
  - intros p Hp. exact (Fit p Hp).
  - intros p Hp. pose proof HB as (_ & _ & _ & B4 & _). rewrite (B4 p Hp). unfold size_at. reflexivity.
Qed.
(* On any division of a mesh into ranks, with any number of pipelines, the six sums are eps0/2 times the volume of a cell times the sum of eps E^2 and of cB^2/mu over the
   places of the mesh, each taken once with the part of a cell it has. *)
Theorem C64_energy : forall L num ws G M gm mt F W fma P eps0 dV a,
  layout_ok L -> box L num ws G -> (forall a, total L a = gm_n M a /\ l_per L a = gm_per M a) -> alike R L (fun p => mt (num p)) gm -> fits R L (fun p => P (num p)) ->
  field_repeats L F -> holds_field L num F W ->
  energy_f ws G mt W fma P eps0 dV (e_ a) = (0.5 * eps0 * dV * e_energy M gm F a)%R /\
  energy_f ws G mt W fma P eps0 dV (cb a) = (0.5 * eps0 * dV * b_energy M gm F a)%R.
Proof.
  intros L num ws G M gm mt F W fma P eps0 dV a OK HB HM Al Fit Fr Hh.
  split; erewrite energy_f_density; try eassumption; try (left; reflexivity); try (right; reflexivity); destruct a; reflexivity.
Qed.
Print Assumptions C64_energy.

(* With one material the vacuum version gives the same. *)
Theorem C64_vacuum : forall ws G mt W fma P eps0 dV a c, c = e_ a \/ c = cb a ->
  (forall r v, 0 <= r < ws -> ematx (mt r) v = 0 /\ ematy (mt r) v = 0 /\ ematz (mt r) v = 0 /\ fmatx (mt r) v = 0 /\ fmaty (mt r) v = 0 /\ fmatz (mt r) v = 0) ->
  vacuum_energy_f ws G mt W fma P eps0 dV c = energy_f ws G mt W fma P eps0 dV c.
Proof.
  intros ws G mt W fma P eps0 dV a c Hc Hm. unfold vacuum_energy_f, energy_f, world_en. apply sumR_ext_in. intros r Hr. apply in_zrange in Hr. destruct (c_n R (G r)) as [[nx ny] nz].
  assert (E : forall v, vacuum_reduce_en nx ny (mt r) (W r) c v = reduce_en nx ny (mt r) (W r) c v).
  { intros v. assert (Q : forall v, ematx (mt r) v = 0 /\ ematy (mt r) v = 0 /\ ematz (mt r) v = 0 /\ fmatx (mt r) v = 0 /\ fmaty (mt r) v = 0 /\ fmatz (mt r) v = 0) by (intros; apply Hm; lia).
    destruct Hc as [-> | ->], a; cbn [e_ cb vacuum_reduce_en reduce_en sq]; unfold vsq; rewrite ?(proj1 (Q _)), ?(proj1 (proj2 (Q _))), ?(proj1 (proj2 (proj2 (Q _)))), ?(proj1 (proj2 (proj2 (proj2 (Q _))))),
      ?(proj1 (proj2 (proj2 (proj2 (proj2 (Q _)))))), ?(proj2 (proj2 (proj2 (proj2 (proj2 (Q _)))))); field. }
  unfold rank_en. f_equal.
  assert (P' : forall p, pipe_en nx ny nz (vacuum_reduce_en nx ny (mt r) (W r)) (fma r) (P r) c p = pipe_en nx ny nz (reduce_en nx ny (mt r) (W r)) (fma r) (P r) c p).
  { intros p. unfold pipe_en. rewrite !(fold_sum (fun u : vstate => _)). f_equal. apply sumR_ext_in. intros u _. apply E. }
  rewrite P', !(fold_sum (fun p => pipe_en _ _ _ _ _ _ c p)). f_equal. apply sumR_ext_in. intros p _. apply P'.
Qed.
Print Assumptions C64_vacuum.

(* ---- one time step on the whole mesh ---- *)
(* Lossless materials, any mixture of joined axes, conducting walls (-1), symmetry planes (-2) and magnetic walls (-3).  One step changes the conserved form by the work done
   on the currents, exactly, and keeps what it asks of the fields. *)
Theorem C64_work : forall M gm r kb ke F, mesh_ok M -> mats_repeat_on M gm -> mirrored M gm -> lossless M gm -> halved kb ke ->
  (forall c, mesh_repeats M (F c)) -> meets_walls M F ->
  let F' := fold_left (g_step RA (ghost_consts r) M gm) (field_steps kb ke 1) F in
  (kept M gm ke F' - kept M gm ke F = - cj ke * work M F F')%R /\ (forall c, mesh_repeats M (F' c)) /\ meets_walls M F' /\ (forall a g, F' (jf a) g = F (jf a) g).
Proof.
  intros M gm r kb ke F Mok Mr Mm Ml Hk HF HW. cbv zeta. cbn [field_steps repeat concat app fold_left].
  assert (K1 : forall x, lc_neg (ghost_consts r) x = (- x)%R) by reflexivity. assert (K0 : lc_zero (ghost_consts r) = 0%R) by reflexivity.
  split; [apply work_done; assumption|]. split; [apply r3; assumption|]. split; [apply w3; assumption|]. intros a g. apply j3.
Qed.
Print Assumptions C64_work.

(* The conserved form lies between 1-theta of the energy and the energy; theta is the square of the Courant number times the largest ratio of 1/mu to eps. *)
Definition courant2 (k : coefs R) (m0 m1 : R) : R := (m1 / m0 * (px k * px k + py k * py k + pz k * pz k))%R.
Definition within (M : gmesh) (gm : gmats R) (m0 m1 : R) : Prop := (0 < m0)%R /\ (forall a g, in_mesh_at M (e_ a) g = true -> m0 <= eps_at gm a g)%R /\
  (forall a g, in_mesh_at M (cb a) g = true -> 0 <= rmu_at gm a g <= m1)%R.
Theorem C64_bounds : forall M gm k m0 m1 F, mesh_ok M -> mats_repeat_on M gm -> within M gm m0 m1 -> (forall c, mesh_repeats M (F c)) -> meets_walls M F ->
  ((1 - courant2 k m0 m1) * energy M gm F <= kept M gm k F <= energy M gm F)%R.
Proof.
  intros M gm k m0 m1 F Mok Mr (P0 & He & Hm) HF HW. split.
  - apply (kept_ge M gm Mok Mr k m0 m1 P0 He Hm F HF HW). apply (theta_pos M gm Mok k m0 m1 P0 Hm).
  - apply (kept_le M gm Mok Mr k m1 Hm F HF).
Qed.
Print Assumptions C64_bounds.

(* Below the Courant limit the energy of fields without currents stays below a fixed multiple of its value at the start, for any number of steps. *)
Theorem C64_stable : forall M gm r kb ke m0 m1 n F, mesh_ok M -> mats_repeat_on M gm -> mirrored M gm -> lossless M gm -> halved kb ke -> within M gm m0 m1 -> (courant2 ke m0 m1 < 1)%R ->
  (forall c, mesh_repeats M (F c)) -> meets_walls M F -> (forall a g, in_mesh_at M (e_ a) g = true -> F (jf a) g = 0%R) ->
  (energy M gm (fold_left (g_step RA (ghost_consts r) M gm) (field_steps kb ke n) F) <= energy M gm F / (1 - courant2 ke m0 m1))%R.
Proof.
  intros M gm r kb ke m0 m1 n F Mok Mr Mm Ml Hk Wi Hc HF HW HJ.
  destruct (steps_kept M gm (ghost_consts r) (fun x => eq_refl) eq_refl Mok Mr Mm Ml kb ke n Hk F HF HW HJ) as (R' & W' & E). cbv zeta in *.
  pose proof (C64_bounds M gm ke m0 m1 _ Mok Mr Wi R' W') as [B1 _]. pose proof (C64_bounds M gm ke m0 m1 F Mok Mr Wi HF HW) as [_ B2].
  apply (Rmult_le_reg_l (1 - courant2 ke m0 m1)); [lra|]. replace ((1 - courant2 ke m0 m1) * (energy M gm F / (1 - courant2 ke m0 m1)))%R with (energy M gm F) by (field; lra). lra.
Qed.
Print Assumptions C64_stable.

(* The same for the energies the code reports on a box of ranks. *)
Definition reported (ws : Z) (G : Z -> cgrid R) (mt : Z -> mats R) (W : Z -> mem R) (fma : Z -> bool) (P : Z -> Z) (eps0 dV : R) : R :=
  (xyz (fun a => energy_f ws G mt W fma P eps0 dV (e_ a)) + xyz (fun a => energy_f ws G mt W fma P eps0 dV (cb a)))%R.
Theorem C64_run : forall L num ws G mt fma P M gm r kb ke m0 m1 n F W W2 eps0 dV,
  layout_ok L -> box L num ws G -> divides L num G M -> even_sizes L -> (forall a i, 0 <= i < l_p L a -> l_d L a i <> 0%R) ->
  fits R L (fun p => P (num p)) -> alike R L (fun p => mt (num p)) gm ->
  (forall a t, gm_per M a = false -> t = -1 \/ t = 1 -> gm_bc M a t <> -4) -> mirrored M gm -> lossless M gm -> halved kb ke -> within M gm m0 m1 -> (courant2 ke m0 m1 < 1)%R -> (0 <= eps0)%R -> (0 <= dV)%R ->
  meets_walls M F -> (forall a g, in_mesh_at M (e_ a) g = true -> F (jf a) g = 0%R) -> held R L num F W ->
  ranks_run R Rarith RA (ghost_consts r) L num ws G (fun p => mt (num p)) (fun p => fma (num p)) (fun p => P (num p)) (field_steps kb ke n) W W2 ->
  (reported ws G mt W2 fma P eps0 dV <= reported ws G mt W fma P eps0 dV / (1 - courant2 ke m0 m1))%R.
Proof.
  intros L num ws G mt fma P M gm r kb ke m0 m1 n F W W2 eps0 dV OK HB Dv Ev Sz Fit Al Nab Mm Ml Hk Wi Hc H0 HV HW HJ HF Hrun.
  pose proof Dv as (HM & _ & Bc).
  assert (Mok : mesh_ok M).
  { split; [intros a; apply (mesh_n L OK M HM)|]. intros a t Hp Ht. pose proof (Bc a t Hp Ht). pose proof (Nab a t Hp Ht). lia. }
  assert (Rep : forall T (f : cell -> T), repeats L f -> mesh_repeats M f).
  { intros T f H a g Ha. destruct (HM a) as [E1 E2]. rewrite <- E1. apply H. rewrite E2. exact Ha. }
  assert (Mr : mats_repeat_on M gm) by (destruct Al as [(R1 & R2 & R3 & R4 & R5 & R6 & R7) _]; repeat split; apply Rep; assumption).
  assert (FR : forall c, mesh_repeats M (F c)) by (intros c; apply Rep; apply HF).
  set (F' := fold_left (g_step RA (ghost_consts r) M gm) (field_steps kb ke n) F).
  assert (H2 : held R L num F' W2).
  { eapply C56_run; try eassumption; [apply C54_clear_weights_exact; exact Sz|reflexivity|]. intros s Hs He. exfalso.
    assert (Q : exists k, s = AdvanceB k \/ s = AdvanceE k); [|destruct Q as (k & [-> | ->]); discriminate].
    unfold field_steps in Hs. apply in_concat in Hs. destruct Hs as (l & Hl & Hs). apply repeat_spec in Hl. subst l. destruct Hs as [<-|[<-|[<-|[]]]]; eexists; [left|right|left]; reflexivity. }
  assert (Rp : forall F W, held R L num F W -> reported ws G mt W fma P eps0 dV = (0.5 * eps0 * dV * energy M gm F)%R).
  { intros F0 W0 (A1 & A2 & _). unfold reported, xyz, energy.
    pose proof (fun a => C64_energy L num ws G M gm mt F0 W0 fma P eps0 dV a OK HB HM Al Fit A1 A2) as Q.
    rewrite !(fun a => proj1 (Q a)), !(fun a => proj2 (Q a)). unfold xyz. ring. }
  rewrite (Rp F' W2 H2), (Rp F W HF).
  pose proof (C64_stable M gm r kb ke m0 m1 n F Mok Mr Mm Ml Hk Wi Hc FR HW HJ) as S. fold F' in S.
  apply Rle_trans with (0.5 * eps0 * dV * (energy M gm F / (1 - courant2 ke m0 m1)))%R; [|right; field; lra].
  apply Rmult_le_compat_l; [|exact S]. apply Rmult_le_pos; [lra|exact HV].
Qed.
Print Assumptions C64_run.

(* ---- the Courant condition is needed ---- *)
(* Two cells along x, all ends joined, one material with eps = mu = 1. *)
Definition M2 : gmesh := mk_gmesh (fun a => match a with AX => 2 | _ => 1 end) (fun _ => true) (fun _ _ => 0).
Definition kx (p : R) : coefs R := (mk_coefs R p 0 0 1 0)%R.
Definition alt (g : cell) : R := if Z.even (AT AX g) then 1%R else (-1)%R.
Definition wave (e b : R) (F : gfield R) : Prop := forall g, F Ey g = (alt g * e)%R /\ F Cbz g = (alt g * b)%R /\
  F Ex g = 0%R /\ F Ez g = 0%R /\ F Cbx g = 0%R /\ F Cby g = 0%R /\ F Jfx g = 0%R /\ F Jfy g = 0%R /\ F Jfz g = 0%R.
Lemma alt_up g : alt (up AX g) = (- alt g)%R.
Proof. destruct g as [[x y] z]. unfold alt. cbn [up RemoteModel.put RemoteModel.at_]. rewrite Z.even_add. destruct (Z.even x); cbn; lra. Qed.
Lemma alt_dn g : alt (dn AX g) = (- alt g)%R.
Proof. destruct g as [[x y] z]. unfold alt. cbn [dn RemoteModel.put RemoteModel.at_]. rewrite Z.even_sub. destruct (Z.even x); cbn; lra. Qed.
Lemma alt_sq g : (alt g * alt g = 1)%R. Proof. unfold alt. destruct (Z.even _); lra. Qed.
Lemma wave_b r p e b F : wave e b F -> wave e (b + 2 * p * e)%R (g_step RA (ghost_consts r) M2 gma F (AdvanceB (kx p))).
Proof.
  intros H g. pose proof (H g) as (A1 & A2 & A3 & A4 & A5 & A6 & A7 & A8 & A9). pose proof (alt_up g). 
  unfold g_step, g_within, g_adjust, in_mesh_at. cbn [ghosts_needed forallb gm_per M2 orb andb all_faces existsb negb fst snd g_sweep g_advance_b RA a_sub a_mul px py pz kx].
  rewrite A1, A2, A3, A4, A5, A6, A7, A8, A9, (proj1 (H (up AX g))), (proj1 (H (up AZ g))).
  rewrite !(proj1 (proj2 (proj2 (H _)))), !(proj1 (proj2 (proj2 (proj2 (H _))))). rewrite H0. repeat split; ring.
Qed.
Lemma wave_e r p e b F : wave e b F -> wave (e - 2 * p * b)%R b (g_step RA (ghost_consts r) M2 gma F (AdvanceE (kx p))).
Proof.
  intros H g. pose proof (H g) as (A1 & A2 & A3 & A4 & A5 & A6 & A7 & A8 & A9). pose proof (alt_dn g) as D.
  assert (Eg : g_ghosts RA (ghost_consts r) M2 GhostTangB F = F) by reflexivity.
  unfold g_step, g_within, g_adjust, in_mesh_at. cbn [ghosts_needed forallb gm_per M2 orb andb all_faces existsb negb fst snd g_sweep g_advance_e]. unfold g_e, g_tca, g_curl_x, g_curl_y, g_curl_z, g_hx, g_hy, g_hz.
  cbn [RA a_sub a_mul a_add px py pz cj damp kx]. rewrite Eg.
  assert (G1 : forall f h g, In f [decayx; decayy; decayz; drivex; drivey; drivez; rmux; rmuy; rmuz] -> gmat R gma f h g = 1%R).
  { intros f h g' I. cbn in I. unfold gmat. cbn [gma g_mtab]. repeat destruct I as [<-|I]; reflexivity || contradiction. }
  rewrite !G1 by (cbn; tauto).
  rewrite A1, A2, A3, A4, A5, A6, A7, A8, A9, (proj1 (proj2 (H (dn AX g)))), D.
  pose proof (H (dn AX g)) as (_ & _ & _ & _ & _ & B6 & _). pose proof (H (dn AY g)) as (_ & C2 & _ & _ & C5 & _). pose proof (H (dn AZ g)) as (_ & _ & _ & _ & D5 & D6 & _).
  rewrite B6, C2, C5, D5, D6. repeat split; ring.
Qed.
Lemma wave_step r p e b F : wave e b F -> wave (- ((2 * (p * p) - 1) * e + 2 * p * b))%R (- ((2 * (p * p) - 1) * b + 2 * p * (p * p - 1) * e))%R
  (fold_left (g_step RA (ghost_consts r) M2 gma) (field_steps (kx (p / 2)) (kx p) 1) F).
Proof.
  intros H. cbn [field_steps repeat concat app fold_left]. apply (wave_b r (p / 2)) in H. apply (wave_e r p) in H. apply (wave_b r (p / 2)) in H. intros g. destruct (H g) as (A1 & A2 & A3). rewrite A1, A2. split; [field|split; [field|exact A3]].
Qed.
Lemma field_steps_S kb ke n : field_steps kb ke (S n) = field_steps kb ke n ++ field_steps kb ke 1.
Proof. induction n as [|n IH]; [reflexivity|]. change (field_steps kb ke (S (S n))) with ([AdvanceB kb; AdvanceE ke; AdvanceB kb] ++ field_steps kb ke (S n)). rewrite IH at 1. reflexivity. Qed.
Lemma wave_grows r p F n : (1 < p)%R -> wave 1 0 F ->
  exists s e b, (s = 1 \/ s = -1)%R /\ ((2 * (p * p) - 1) ^ n <= e)%R /\ (0 <= b)%R /\ wave (s * e) (s * b) (fold_left (g_step RA (ghost_consts r) M2 gma) (field_steps (kx (p / 2)) (kx p) n) F).
Proof.
  intros Hp H. assert (1 < p * p)%R by nra. assert (1 < 2 * (p * p) - 1)%R as X by lra. induction n as [|n (s & e & b & Hs & He & Hb & IH)].
  - exists 1%R, 1%R, 0%R. split; [left; reflexivity|]. split; [cbn; lra|]. split; [lra|]. intros g. cbn [field_steps repeat concat fold_left].
    destruct (H g) as (A1 & A2 & A3). rewrite A1, A2. split; [ring|split; [ring|exact A3]].
  - assert (0 < (2 * (p * p) - 1) ^ n)%R as Y by (apply pow_lt; lra).
    exists (- s)%R, ((2 * (p * p) - 1) * e + 2 * p * b)%R, ((2 * (p * p) - 1) * b + 2 * p * (p * p - 1) * e)%R.
    split; [destruct Hs as [-> | ->]; [right|left]; lra|]. split; [|split].
    + cbn [pow]. assert (0 <= 2 * p * b)%R by (apply Rmult_le_pos; lra). assert ((2 * (p * p) - 1) * (2 * (p * p) - 1) ^ n <= (2 * (p * p) - 1) * e)%R by (apply Rmult_le_compat_l; lra). lra.
    + assert (0 <= 2 * p * (p * p - 1) * e)%R by (apply Rmult_le_pos; [apply Rmult_le_pos; lra|lra]). assert (0 <= (2 * (p * p) - 1) * b)%R by (apply Rmult_le_pos; lra). lra.
    + rewrite field_steps_S, fold_left_app. apply (wave_step r p) in IH. intros g. destruct (IH g) as (A1 & A2 & A3). rewrite A1, A2. split; [ring|split; [ring|exact A3]].
Qed.
Lemma wave_energy e b F : wave e b F -> energy M2 gma F = (2 * (e * e) + 2 * (b * b))%R.
Proof.
  intros H. unfold energy, xyz, e_energy, b_energy, total_over, stations, share.
  cbn [node_on e_ cb gm_per gm_n M2 negb andb]. change (zrange 1 (2 + 0 + 1)) with [1; 2]. change (zrange 1 (1 + 0 + 1)) with [1]. cbn [map ParticleSpec.sumR fold_right].
  assert (Q : forall g, F Ey g = (alt g * e)%R /\ F Cbz g = (alt g * b)%R /\ F Ex g = 0%R /\ F Ez g = 0%R /\ F Cbx g = 0%R /\ F Cby g = 0%R) by (intros g; destruct (H g) as (A1 & A2 & A3 & A4 & A5 & A6 & _); tauto).
  destruct (Q (1, 1, 1)) as (-> & -> & -> & -> & -> & ->). destruct (Q (2, 1, 1)) as (-> & -> & -> & -> & -> & ->). cbn -[IZR]. lra.
Qed.
(* All that C64_stable asks except the Courant condition, with theta = p^2 > 1: the energy passes every bound. *)
Theorem C64_courant_needed : forall (p : R) r, (1 < p)%R -> exists F, mesh_ok M2 /\ mats_repeat_on M2 gma /\ mirrored M2 gma /\ lossless M2 gma /\ halved (kx (p / 2)) (kx p) /\ within M2 gma 1 1 /\ courant2 (kx p) 1 1 = (p * p)%R /\
  (forall c, mesh_repeats M2 (F c)) /\ meets_walls M2 F /\ (forall a g, F (jf a) g = 0%R) /\ energy M2 gma F = 2%R /\
  forall B, exists n, (B < energy M2 gma (fold_left (g_step RA (ghost_consts r) M2 gma) (field_steps (kx (p / 2)) (kx p) n) F))%R.
Proof.
  intros p r Hp. set (F := (fun c g => match c with Ey => alt g | _ => 0%R end) : gfield R). exists F.
  assert (HF : wave 1 0 F) by (intros g; unfold F; repeat split; ring).
  split; [split; [intros []; cbn; lia|intros a t E; discriminate E]|]. split; [repeat split|]. split; [intros a b t g _ E; discriminate E|].
  split; [intros [] g _; split; cbn -[IZR]; lra|]. split; [split; [intros []; cbn -[IZR]; lra|reflexivity]|].
  split; [split; [lra|]; split; intros [] g _; cbn -[IZR]; lra|]. split; [unfold courant2; cbn -[IZR]; field|].
  split; [intros c a [[x y] z] _; unfold F; destruct c; try reflexivity; unfold alt; destruct a; cbn [RemoteModel.put RemoteModel.at_ gm_n M2]; try reflexivity; rewrite Z.even_add; destruct (Z.even x); reflexivity|].
  split; [intros a t E; discriminate E|]. split; [intros []; reflexivity|]. split; [rewrite (wave_energy 1 0 F HF); lra|].
  intros B. assert (1 < p * p)%R by nra. set (x := (2 * (p * p) - 1)%R). assert (1 < x)%R as X by (unfold x; lra).
  set (q := (Rmax B 1 / (x - 1))%R). assert (0 < q)%R as Q by (apply Rdiv_lt_0_compat; [pose proof (Rmax_r B 1)|]; lra).
  destruct (archimed q) as [Up _]. assert (0 <= Rdefinitions.up q)%Z as Up0 by (apply le_IZR; lra).
  set (n := Z.to_nat (Rdefinitions.up q)). assert (q < INR n)%R as Hn by (unfold n; rewrite INR_IZR_INZ, Z2Nat.id by exact Up0; lra). exists n.
  destruct (wave_grows r p F n Hp HF) as (s & e & b & Hs & He & Hb & W). rewrite (wave_energy _ _ _ W). fold x in He.
  assert (1 + INR n * (x - 1) <= x ^ n)%R as Bn. { replace x with (1 + (x - 1))%R at 2 by ring. apply poly. lra. }
  assert (Rmax B 1 < INR n * (x - 1))%R as Hm.
  { apply (Rmult_lt_compat_r (x - 1)) in Hn; [|lra]. unfold q in Hn. replace (Rmax B 1 / (x - 1) * (x - 1))%R with (Rmax B 1) in Hn by (field; lra). exact Hn. }
  pose proof (Rmax_l B 1). pose proof (Rmax_r B 1). assert (s * s = 1)%R as S2 by (destruct Hs as [-> | ->]; lra).
  replace (2 * (s * e * (s * e)) + 2 * (s * b * (s * b)))%R with (2 * (s * s) * (e * e + b * b))%R by ring. rewrite S2. nra.
Qed.
Print Assumptions C64_courant_needed.

(* ---- cases ---- *)
(* Two cells between walls along x, on one rank and on two, Ey = 1, 2, 3 on the three planes: half of 1, 4 and half of 9, times eps0 dV / 2 = 3. *)
Definition We (k : Z) (r : Z) : mem R := fun l => match fst l with Ey => IZR (snd l mod (2 / k + 2) + r) | _ => 0%R end.
Example C64_example : forall k, k = 1 \/ k = 2 -> forall fma, energy_f k (Gw k (-3) (-3)) (fun _ => mta) (We k) (fun _ => fma) (fun _ => 4) 2 3 Ey = 27%R.
Proof.
  intros k Hk fma. unfold energy_f, world_en, rank_en, pipe_en.
  destruct Hk as [-> | ->], fma; cbv -[IZR Rplus Rmult Rdiv Rinv Q2R]; lra.
Qed.
Example C64_example_mesh : e_energy (Mw (-3) (-3)) gma (fun c g => match c with Ey => IZR (AT AX g) | _ => 0%R end) AY = 9%R.
Proof. cbv -[IZR Rplus Rmult Rdiv Rinv]. lra. Qed.
(* A conductor and a magnetic wall, Ey = 0, 1, 2, Jy = 2, c dt / dx = 1/2. *)
Example C64_example_work : forall r, let M := Mw (-1) (-3) in let F : gfield R := fun c g => match c with Ey => IZR (AT AX g - 1) | Jfy => 2%R | _ => 0%R end in
  let F' := fold_left (g_step RA (ghost_consts r) M gma) (field_steps (kx (1 / 4)) (kx (1 / 2)) 1) F in
  kept M gma (kx (1 / 2)) F = (23 / 8)%R /\ kept M gma (kx (1 / 2)) F' = (9 / 8)%R /\ work M F F' = (7 / 4)%R.
Proof. intros r. cbv -[IZR Rplus Rmult Rdiv Rinv Rminus Ropp cdt_d higend]. repeat split; lra. Qed.
