(* C62: the hydro moments (dump_hydro): what accumulate_hydro_p makes of the particles, and synchronize_hydro_array. *)
From Coq Require Import Reals Lra ZArith List Bool Lia ZifyBool.
From Verif Require Import SortModel SortProofs DistributeModel VoxelModel GridModel GridProofs FloatModel FieldModel ParticleModel ParticleSpec ParticleProofs KernelProofs MoverModel
  RemoteModel RemoteSpec RemoteProofs RemoteSync RemoteSum DecompSpec ChargeModel ChargeSpec ChargeProofs CurrentSpec CurrentProofs PropertiesRemote PropertiesCharge RhoSpec RhoProofs
  HydroModel HydroSpec HydroProofs HydroMoments.
Import ListNotations.
Open Scope Z_scope.
Ltac Zify.zify_post_hook ::= idtac.
Local Notation sumR := ParticleSpec.sumR.
Local Notation axis := RemoteModel.axis.
Local Notation AT := RemoteModel.at_.

(* One particle, exact arithmetic.  The loop adds to each of the 14 members, at the eight nodes of the particle's cell, the moment of the particle with the momentum that center_p
   would give it, shared among the nodes as its charge is (8 r8V is one over the cell volume), and changes nothing else. *)
Theorem C62_particle : forall nx ny nz h f p H k v, h_c h <> 0%R ->
  fold_left (hydro_add Rnum) (hydro_one Rnum (2 / 5)%R nx ny nz h f p) H (k, v) =
  (H (k, v) + 8 * h_r8V h * charge (nx + 2) ((nx + 2) * (ny + 2)) (ind v) (moment_of k h f p) (pi p) (pd p))%R.
Proof. intros nx ny nz h f p H k v Hc. rewrite adds_at, (one_at nx ny nz h f p k v Hc). reflexivity. Qed.
Print Assumptions C62_particle.

(* All particles of all species of a rank on any number of pipelines: the copies of the pipelines and of the host together hold the moments of each particle once. *)
Theorem C62_pipelines : forall contract P nx ny nz f ss k v, 1 <= P < 2 ^ 31 -> Forall (fun s => h_c (fst s) <> 0%R /\ Z.of_nat (length (snd s)) < 2 ^ 31) ss ->
  sumR (map (fun i => hydro_copy Rnum (2 / 5)%R contract P nx ny nz f ss i (k, v)) (zrange 0 (P + 1))) =
  sumR (map (fun s => sumR (map (fun p => (8 * h_r8V (fst s) * charge (nx + 2) ((nx + 2) * (ny + 2)) (ind v) (moment_of k (fst s) f p) (pi p) (pd p))%R) (snd s))) ss).
Proof. intros contract P nx ny nz f ss k v HP HF. exact (copies_at contract P nx ny nz f ss k v HP HF). Qed.
Print Assumptions C62_pipelines.

(* The whole box: after the reduction of the copies on every rank and synchronize_hydro_array, every copy of every node on every rank holds the moments of all particles of all ranks
   there, per volume: the cell volume inside, a half, a quarter or an eighth of it on walls, edges and corners of the box. *)
Theorem C62_world : forall L pos num ws G rd contract P f ss W W',
  layout_ok L -> box L num ws G -> (forall r, 0 <= r < ws -> inside L (pos r) /\ num (pos r) = r) ->
  equal_cells L rd -> (forall a i, 0 <= i < l_p L a -> (0 < l_d L a i)%R) -> 1 <= P < 2 ^ 31 ->
  (forall r, 0 <= r < ws -> Forall (fun s => h_c (fst s) <> 0%R /\ h_r8V (fst s) = inv_8V rd /\ Z.of_nat (length (snd s)) < 2 ^ 31 /\ forall p, In p (snd s) -> in_rank L pos r (pi p)) (ss r)) ->
  (forall r, 0 <= r < ws -> reduced contract P (size_at L (pos r)) (f r) (ss r) (W r)) -> synchronize_hydro Rarith ws G W W' ->
  forall k p q, inside L p -> holds L Rhof p q -> let g := gplace L p q in
    W' (num p) (k, vox3 (size_at L p) q) = (halves L g * (vx rd * vy rd * vz rd * world_moment L pos ws (at_node L g) k f ss))%R.
Proof.
  intros L pos num ws G rd contract P f ss W W' OK HB HI HE Hd HP Hs HW HS k p q Hp Hq. cbv zeta.
  exact (moments_at L OK pos num ws G HB HI rd HE Hd contract P f ss W W' k p q HP Hs HW HS Hp Hq).
Qed.
Print Assumptions C62_world.

(* Whatever the arrays hold, and in any arithmetic whose addition is symmetric: on a box the exchange can always be carried out, every message having the expected size, and leaves
   all copies of a node with the same 14 values. *)
Theorem C62_copies_agree : forall V (A : rarith V) L num ws G, (forall x y, r_add V A x y = r_add V A y x) -> (forall x y, r_avg V A x y = r_avg V A y x) -> layout_ok L -> box L num ws G -> forall W,
  (exists W', synchronize_hydro A ws G W W') /\
  forall W' k p q p' q', synchronize_hydro A ws G W W' -> inside L p -> holds L Rhof p q -> inside L p' -> holds L Rhof p' q' -> same_place L (p, q) (p', q') ->
    W' (num p) (k, vox3 (size_at L p) q) = W' (num p') (k, vox3 (size_at L p') q').
Proof.
  intros V A L num ws G Ha Hv OK HB W.
  set (F := fun k r (l : floc) => match l with (_, v) => hydro_adjust A ws (G r) (W r) (k, v) end). split.
  - destruct (C44_copies_agree V A L num ws G SyncRho Rhof Ha Hv OK HB ltac:(cbn; tauto) (F Hrho)) as ((F' & HF') & _).
    exact (phases_exist A ws G Hrho _ (F Hrho) F' (fun r => hydro_adjust A ws (G r) (W r)) ltac:(intros r _ v; reflexivity) HF').
  - intros W' k p q p' q' HS Hp Hq Hp' Hq' E.
    destruct (phases_show A ws G k _ (F k) (fun r => hydro_adjust A ws (G r) (W r)) W' ltac:(intros r Hr v; reflexivity) HS) as (F' & HR & HF).
    pose proof HB as (Rn & _). pose proof (Rn p Hp) as R1. pose proof (Rn p' Hp') as R2. rewrite <- (HF _ R1), <- (HF _ R2).
    exact (proj2 (C44_copies_agree V A L num ws G SyncRho Rhof Ha Hv OK HB ltac:(cbn; tauto) (F k)) F' p q p' q' HR Hp Hq Hp' Hq' E).
Qed.
Print Assumptions C62_copies_agree.
Theorem C62_copies_agree_single : forall L num ws G, layout_ok L -> box L num ws G -> forall W,
  (exists W', synchronize_hydro Farith ws G W W') /\
  forall W' k p q p' q', synchronize_hydro Farith ws G W W' -> inside L p -> holds L Rhof p q -> inside L p' -> holds L Rhof p' q' -> same_place L (p, q) (p', q') ->
    W' (num p) (k, vox3 (size_at L p) q) = W' (num p') (k, vox3 (size_at L p') q').
Proof.
  intros L num ws G OK HB W. apply (C62_copies_agree b32 Farith L num ws G); [| |exact OK|exact HB].
  - intros x y. apply Bplus_comm.
  - intros x y. cbn [r_avg Farith]. unfold d_add. rewrite Bplus_comm. reflexivity.
Qed.
Print Assumptions C62_copies_agree_single.
(* The messages have the size announced to begin_send_port and begin_recv_port. *)
Theorem C62_sizes : forall V (G : Z -> cgrid V) r H a s, (forall b, 0 <= AT b (c_n V (G r))) -> Z.of_nat (length (hydro_pack G r H a s)) = hydro_floats (c_n V (G r)) a.
Proof.
  intros V G r H a s Hn. unfold hydro_pack, hydro_floats. cbn [length]. rewrite (flat_len _ _ 14) by (intros; reflexivity). rewrite Nat2Z.inj_succ, Nat2Z.inj_mul, plane_len by apply Hn. cbn [wide_y wide_z]. change (Z.of_nat 14) with 14. ring.
Qed.
Print Assumptions C62_sizes.

(* The moments of one particle: energy not negative and zero only at rest, slower than light, and the stress is momentum times velocity, so symmetric, with trace
   p.v = (gamma + 1)/gamma times the kinetic energy. *)
Theorem C62_physics : forall q m c u, (0 < c)%R -> (0 < m)%R ->
  let M := moment q m c u in let v := velocity c u in
  (0 <= M Hke)%R /\ (M Hke = 0%R <-> vx u = 0 /\ vy u = 0 /\ vz u = 0)%R /\ (vx v * vx v + vy v * vy v + vz v * vz v < c * c)%R /\
  (M Htxy = M Hpy * vx v /\ M Htyz = M Hpz * vy v /\ M Htzx = M Hpx * vz v)%R /\
  (M Htxx + M Htyy + M Htzz = (lorentz u + 1) / lorentz u * M Hke)%R /\
  (q <> 0 -> M Hpx = m / q * lorentz u * M Hjx /\ M Hpy = m / q * lorentz u * M Hjy /\ M Hpz = m / q * lorentz u * M Hjz)%R.
Proof.
  intros q m c u Hc Hm M v. pose proof (lorentz_pos u) as Lp.
  assert (Eg : (lorentz u * lorentz u = 1 + (vx u * vx u + vy u * vy u + vz u * vz u))%R) by (unfold lorentz; apply sqrt_sqrt; nra).
  assert (Mc : (0 < m * c * c)%R) by (apply Rmult_lt_0_compat; [apply Rmult_lt_0_compat|]; assumption).
  split; [|split; [|split; [|split; [|split]]]].
  - unfold M, moment. apply Rmult_le_pos; lra.
  - unfold M, moment. split.
    + intros E. apply Rmult_integral in E. destruct E as [E|E]; [lra|]. assert (lorentz u = 1)%R as E1 by lra. rewrite E1 in Eg. repeat split; nra.
    + intros (-> & -> & ->) || intros (E1 & E2 & E3). assert (lorentz u * lorentz u = 1)%R by (rewrite Eg, E1, E2, E3; ring). assert (lorentz u = 1)%R as -> by nra. ring.
  - unfold v, velocity. cbn [vx vy vz].
    replace (c * vx u / lorentz u * (c * vx u / lorentz u) + c * vy u / lorentz u * (c * vy u / lorentz u) + c * vz u / lorentz u * (c * vz u / lorentz u))%R
      with (c * c * ((lorentz u * lorentz u - 1) / (lorentz u * lorentz u)))%R by (rewrite Eg at 1; field_simplify; [f_equal; ring| |]; nra).
    rewrite <- (Rmult_1_r (c * c)) at 2. apply Rmult_lt_compat_l; [nra|]. assert (0 < lorentz u * lorentz u)%R by nra. apply (Rmult_lt_reg_r (lorentz u * lorentz u)); [assumption|]. unfold Rdiv. rewrite Rmult_assoc, Rinv_l by lra. lra.
  - unfold M, moment, v, velocity. cbn [vx vy vz]. repeat split; field; lra.
  - unfold M, moment, velocity. cbn [vx vy vz].
    replace (m * c * vx u * (c * vx u / lorentz u) + m * c * vy u * (c * vy u / lorentz u) + m * c * vz u * (c * vz u / lorentz u))%R
      with (m * c * c * (lorentz u * lorentz u - 1) / lorentz u)%R by (rewrite Eg; field; lra). field. lra.
  - intros Hq. unfold M, moment, velocity. cbn [vx vy vz]. repeat split; field; split; lra.
Qed.
Print Assumptions C62_physics.

(* Box of 4x2x1 cells on 2x1x1 ranks as in C61.  No fields.  A particle of charge 1, mass 2 and momentum (3/4, 0, 0), so gamma 5/4, at the middle of cell (2,1,1) of rank 0 and one at rest, of
   weight 2, at the middle of cell (1,1,1) of rank 1; c = 1.  The node (3,1,1) is met twice along z: current 2/8 of 3/5, momentum 2/8 of 3/2, energy 2/8 of 1/2, stress 2/8 of 9/10. *)
Definition ex_h : hcoef (V := R) := mk_hcoef 1%R 2%R 1%R 1%R (inv_8V (mkv 1 1 1)%R).
Definition ex_f : interp (V := R) := mk_interp 0%R 0%R 0%R 0%R 0%R 0%R 0%R 0%R 0%R 0%R 0%R 0%R 0%R 0%R 0%R 0%R 0%R 0%R.
Definition ex_hs (r : Z) : list (hcoef (V := R) * list (part R)) :=
  if r =? 0 then [(ex_h, [mkp (mkv 0 0 0)%R 22 (mkv (3 / 4) 0 0)%R 1%R])] else [(ex_h, [mkp (mkv 0 0 0)%R 21 (mkv 0 0 0)%R 2%R])].
Lemma ex_now u d i w : momentum_now ex_h ex_f (mkp d i u w) = u.
Proof.
  destruct u as [a b c]. unfold momentum_now, center_one. cbn [pu pd]. unfold boris, vadd, vmap2, half_e, mag_b. cbn [ex_f ex_h h_qdt i_ex i_dexdy i_dexdz i_d2exdydz i_ey i_deydz i_deydx i_d2eydzdx i_ez i_dezdx i_dezdy i_d2ezdxdy i_cbx i_dcbxdx i_cby i_dcbydy i_cbz i_dcbzdz vx vy vz n_add n_sub n_mul Rnum].
  cbv zeta. f_equal; ring.
Qed.
Lemma ex_gamma : lorentz (mkv (3 / 4) 0 0)%R = (5 / 4)%R.
Proof. unfold lorentz. cbn [vx vy vz]. replace (1 + (3 / 4 * (3 / 4) + 0 * 0 + 0 * 0))%R with ((5 / 4) * (5 / 4))%R by lra. apply sqrt_square. lra. Qed.
Lemma ex_rest : lorentz (mkv 0 0 0)%R = 1%R.
Proof. unfold lorentz. cbn [vx vy vz]. replace (1 + (0 * 0 + 0 * 0 + 0 * 0))%R with 1%R by lra. apply sqrt_1. Qed.
Example C62_example : let M := fun k => world_moment ex_L (rank_to_index 2 1) 2 (at_node ex_L (3, 1, 1)) k (fun _ _ => ex_f) ex_hs in
  (M Hjx = 2 / 8 * (3 / 5) /\ M Hrho = 3 / 4 /\ M Hpx = 2 / 8 * (3 / 2) /\ M Hke = 2 / 8 * (1 / 2) /\ M Htxx = 2 / 8 * (9 / 10) /\ M Htxy = 0)%R.
Proof.
  assert (E : forall k, world_moment ex_L (rank_to_index 2 1) 2 (at_node ex_L (3, 1, 1)) k (fun _ _ => ex_f) ex_hs =
    (2 / 8 * moment 1 2 1 (mkv (3 / 4) 0 0)%R k + 4 / 8 * moment 1 2 1 (mkv 0 0 0)%R k)%R).
  { intros k. unfold world_moment, over_ranks, rank_moment, ex_hs. change (zrange 0 2) with [0; 1]. cbn [map Z.eqb fst snd]. unfold moment_of. rewrite !ex_now. cbn [pw pi pd ex_h h_q h_m h_c].
    set (m1 := moment 1 2 1 (mkv (3 / 4) 0 0)%R k). set (m2 := moment 1 2 1 (mkv 0 0 0)%R k). clearbody m1 m2. unfold charge, sum_bool, node, share. cbn -[seen Rplus Rminus Rmult Rdiv Ropp].
    repeat match goal with |- context [seen ?l ?p ?f ?r ?v] => first [change (seen l p f r v) with 0%R | change (seen l p f r v) with 1%R] end. lra. }
  cbv beta zeta. rewrite !E. unfold moment, velocity. rewrite ex_gamma, ex_rest. cbn [vx vy vz]. repeat split; lra.
Qed.
(* The same box with walls along x: the node (1,1,1) is on a wall, with half of the volume of the others. *)
Definition ex_Lw : layout R := mk_layout R (fun a => AT a (2, 1, 1)) (fun a => match a with RemoteModel.AX => false | _ => true end) (fun a _ => AT a (2, 2, 1)) (fun _ _ => 1%R).
Example C62_example_wall : halves ex_Lw (1, 1, 1) = 2%R /\ halves ex_Lw (5, 2, 1) = 2%R /\ halves ex_Lw (3, 1, 1) = 1%R /\ halves ex_L (1, 1, 1) = 1%R.
Proof. unfold halves, on_wall. change (total ex_Lw RemoteModel.AX) with 4. change (total ex_L RemoteModel.AX) with 4. cbn [l_per ex_L ex_Lw negb andb orb RemoteModel.at_ Z.eqb Pos.eqb Z.add Pos.add Pos.succ]. repeat split; lra. Qed.
