(* C60: the currents of all ranks carry the charge of the particles, and Gauss's law holds at every node of the mesh. *)
From Coq Require Import Reals Lra ZArith List Bool Lia ZifyBool.
From Verif Require Import SortModel SortProofs GridModel GridProofs VoxelModel ParticleModel ParticleSpec ParticleProofs MoverModel BoundaryProofs
  SweepModel FieldModel FieldSpec FieldSweeps FieldBoundaryModel FieldPhysics FieldFinal
  RemoteModel RemoteSpec RemoteProofs RemoteSync RemoteSum DecompSpec DecompProofs DecompSteps PropertiesRemote PropertiesDecomp
  ChargeModel ChargeSpec ChargeProofs ChargeRounds ChargeStep PropertiesCharge CurrentSpec CurrentProofs CurrentCells CurrentSync
  PartitionProofs TopologyProofs ChargeTables CurrentTables.
Import ListNotations.
Open Scope Z_scope.
Ltac Zify.zify_post_hook ::= idtac.
Local Notation sumR := ParticleSpec.sumR.
Local Notation axis := RemoteModel.axis.
Local Notation AT := RemoteModel.at_.

(* Unload and synchronisation.  Rank r has put the currents of the streaks lg r in its field array; after synchronize_jf the arrays hold one field F of the whole mesh,
   every copy the same, nothing crossing walls, whose divergence at each node is the charge the streaks took away from the node, per volume and time. *)
Theorem C60_currents : forall L pos num ws G rd dt lg W W1 W2,
  layout_ok L -> box L num ws G -> (forall r, 0 <= r < ws -> inside L (pos r) /\ num (pos r) = r) ->
  equal_cells L rd -> (forall a i, 0 <= i < l_p L a -> (0 < l_d L a i)%R) -> dt <> 0%R ->
  (forall r v j, 0 <= r < ws -> In (v, j) (lg r) -> in_rank L pos r v) ->
  unloaded L pos ws rd dt lg W W1 -> run_phases R Rarith ws G SyncJf (phases SyncJf) W1 W2 ->
  exists F : gfield R,
    (forall c p q, inside L p -> holds L c p q -> W2 (num p) (c, vox3 (size_at L p) q) = if is_current c then F c (gplace L p q) else W (num p) (c, vox3 (size_at L p) q)) /\
    field_repeats L F /\
    (forall a g, l_per L a = false -> AT a g < 1 \/ total L a < AT a g -> F (current_along a) g = 0%R) /\
    forall g, (dt * div_current rd F g = - (vx rd * vy rd * vz rd * over_ranks ws (fun r => moved_charge L pos (at_node L g) r (lg r))))%R.
Proof.
  intros L pos num ws G rd dt lg W W1 W2 OK HB HI HE Hd Hdt HL HU HS.
  assert (HI' : forall r, 0 <= r < ws -> inside L (pos r)) by (intros r Hr; apply HI, Hr).
  exists (Jg L pos ws rd dt lg). split; [|split; [|split]].
  - intros c p q Hp Hq. destruct (is_current c) eqn:Ec.
    + exact (synced_current L OK pos num ws G HB HI rd HE Hd dt lg HL c W W1 W2 p q Ec HU HS Hp Hq).
    + transitivity (W1 (num p) (c, vox3 (size_at L p) q)).
      * apply (sync_keep Rarith L num ws G OK HB SyncJf W1 W2 c p q eq_refl HS Hp); [|left; destruct c; try discriminate Ec; reflexivity]. intros a. specialize (Hq a). destruct (node_on c a); lia.
      * destruct (pos_num L pos num ws G HB HI p Hp) as (N1 & N2). pose proof (HU (num p) c q N1 ltac:(rewrite N2; exact Hq)) as U. cbv zeta in U. rewrite Ec in U. rewrite N2 in U. exact U.
  - intros c. apply Jg_repeats.
  - intros a g. apply (Jg_beyond L OK pos ws HI' rd dt lg HL a g).
  - intros g. exact (world_div L OK pos ws HI' rd dt Hdt lg HL g).
Qed.
Print Assumptions C60_currents.

(* A whole particle step in a box whose tables hold only neighbours and reflecting walls: particles that start in cells of their ranks end in cells of their
   ranks, all streaks lie in them, and div J at each node accounts for the change of the charge of all particles at the node, apart from the particles removed at the end
   (whose charge goes to rhob). *)
Theorem C60_step : forall L pos num ws G rd dt first B Q fuel n qdt cdt fs kept SS0 SS1 SS2 SS3 lg1 lg2 Phi gain dims r8V adds W W1 W2,
  layout_ok L -> box L num ws G -> (forall r, 0 <= r < ws -> inside L (pos r) /\ num (pos r) = r) ->
  equal_cells L rd -> (forall a i, 0 <= i < l_p L a -> (0 < l_d L a i)%R) -> dt <> 0%R ->
  wired L pos ws first B -> reciprocal ws B -> closed ws B ->
  (forall r, 0 <= r < ws -> map s_q (SS0 r) = Q /\ Forall (fun s => s_pm s = []) (SS0 r) /\ Forall (placed L pos r) (SS0 r)) ->
  (forall r, 0 <= r < ws -> advance_all Rnum (S fuel) (b_mesh (B r)) (qdt r) (cdt r) (fs r) (kept r) 0 (SS0 r) = Some (SS1 r, lg1 r)) ->
  rounds L pos ws Phi B Q fuel n SS1 gain lg2 SS2 ->
  (forall r, 0 <= r < ws -> let '(nx, ny, nz) := dims r in drop_all Rnum nx ny nz (r8V r) (SS2 r) = Some (adds r, SS3 r)) ->
  unloaded L pos ws rd dt (fun r => lg1 r ++ lg2 r) W W1 -> run_phases R Rarith ws G SyncJf (phases SyncJf) W1 W2 ->
  (forall r, 0 <= r < ws -> map s_q (SS3 r) = Q /\ Forall (fun s => s_pm s = []) (SS3 r) /\ Forall (placed L pos r) (SS3 r)) /\
  exists F : gfield R,
    (forall c p q, inside L p -> holds L c p q -> W2 (num p) (c, vox3 (size_at L p) q) = if is_current c then F c (gplace L p q) else W (num p) (c, vox3 (size_at L p) q)) /\
    field_repeats L F /\
    (forall a g, l_per L a = false -> AT a g < 1 \/ total L a < AT a g -> F (current_along a) g = 0%R) /\
    forall g, (dt * div_current rd F g = - (vx rd * vy rd * vz rd *
      (world_charge L pos ws (at_node L g) SS3 + over_ranks ws (fun r => listed_charge L pos (at_node L g) r (SS2 r)) - world_charge L pos ws (at_node L g) SS0)))%R.
Proof.
  intros L pos num ws G rd dt first B Q fuel n qdt cdt fs kept SS0 SS1 SS2 SS3 lg1 lg2 Phi gain dims r8V adds W W1 W2 OK HB HI HE Hd Hdt HW Rc HC H0 HA HR HD HU HS.
  assert (H0' : forall r, 0 <= r < ws -> map s_q (SS0 r) = Q /\ Forall (fun s => s_pm s = []) (SS0 r)) by (intros r Hr; destruct (H0 r Hr) as (X & Y & _); split; assumption).
  assert (HP : forall r, 0 <= r < ws -> Forall (placed L pos r) (SS0 r)) by (intros r Hr; apply H0, Hr).
  assert (Any : forall g, exists gain', rounds L pos ws (at_node L g) B Q fuel n SS1 gain' lg2 SS2) by (intros g; exact (rounds_any L pos ws Phi (at_node L g) B Q fuel n SS1 gain lg2 SS2 HR)).
  assert (Hz : repeats L (fun _ : cell => 0%R)) by (intros a g Ha; reflexivity).
  destruct (rounds_any L pos ws Phi (fun _ => 0%R) B Q fuel n SS1 gain lg2 SS2 HR) as (gz & HRz).
  pose proof (step_cells L OK pos ws first B HW Q (fun _ => 0%R) fuel n qdt cdt fs kept SS0 SS1 SS2 SS3 lg1 lg2 gz dims r8V adds Hz HC Rc H0' HA HRz HD HP) as CL.
  split.
  - intros r Hr. destruct (C59_step L pos ws (fun _ => 0%R) first B Q fuel n qdt cdt fs kept SS0 SS1 SS2 SS3 lg1 lg2 gz dims r8V adds OK Hz HW Rc H0' HA HRz HD) as (_ & S3).
    destruct (S3 r Hr) as (S1 & S2). split; [exact S1|]. split; [exact S2|]. apply CL, Hr.
  - destruct (C60_currents L pos num ws G rd dt (fun r => lg1 r ++ lg2 r) W W1 W2 OK HB HI HE Hd Hdt (fun r v j Hr Hin => proj2 (CL r Hr) v j Hin) HU HS) as (F & F1 & F2 & F3 & F4).
    exists F. split; [exact F1|]. split; [exact F2|]. split; [exact F3|]. intros g. rewrite (F4 g). destruct (Any g) as (gain' & HR').
    destruct (C59_closed L pos ws (at_node L g) first B Q fuel n qdt cdt fs kept SS0 SS1 SS2 SS3 lg1 lg2 gain' dims r8V adds OK (at_node_repeats L g) HW Rc HC H0' HA HR' HD) as (E & _).
    rewrite E. ring.
Qed.
Print Assumptions C60_step.

(* ... and the advance of E in lossless materials, from any arrays W3 with these currents, then changes div D at every node by the charge the particle step brought there, per
   volume and eps0, up to the damping.  Along each axis the ranks have more than one cell, or the box is periodic and one cell wide. *)
Theorem C60_gauss : forall L num ws G mt fma P gm gr dmp (J : gfield R) (dQ : cell -> R) F wall W2 W3 W4,
  layout_ok L -> box L num ws G -> even_sizes L -> (forall a i, 0 <= i < l_p L a -> l_d L a i <> 0%R) -> fits R L P -> alike R L mt gm ->
  (forall p, inside L p -> lossless gr (mt p)) ->
  (1 < gnx gr \/ l_per L RemoteModel.AX = true /\ total L RemoteModel.AX = 1) -> (1 < gny gr \/ l_per L RemoteModel.AY = true /\ total L RemoteModel.AY = 1) ->
  (1 < gnz gr \/ l_per L RemoteModel.AZ = true /\ total L RemoteModel.AZ = 1) ->
  (* the currents, as C60_step gives them *)
  (forall c p q, inside L p -> holds L c p q -> is_current c = true -> W2 (num p) (c, vox3 (size_at L p) q) = J c (gplace L p q)) -> field_repeats L J ->
  (forall g, (dt gr * div_current (mkv (rdx gr) (rdy gr) (rdz gr)) J g = - (rdx gr * rdy gr * rdz gr * dQ g))%R) ->
  (* the other fields *)
  field_repeats L F -> holds_field L num F W3 -> walls_of R L GhostTangB F wall ->
  (forall c p q, inside L p -> holds L c p q -> is_current c = true -> W3 (num p) (c, vox3 (size_at L p) q) = W2 (num p) (c, vox3 (size_at L p) q)) ->
  on_ranks R Rarith RA L num ws G mt fma P (AdvanceE (advance_e_coefs gr dmp)) wall W3 W4 ->
  exists F', holds_field L num F' W4 /\ field_repeats L F' /\ forall g,
    (g_div_d R RA gm (div_coefs gr) F' g = g_div_d R RA gm (div_coefs gr) F g + rdx gr * rdy gr * rdz gr * dQ g / eps0 gr
       - dmp * g_div_node (div_coefs gr) F Tcax Tcay Tcaz g)%R.
Proof.
  intros L num ws G mt fma P gm gr dmp J dQ F wall W2 W3 W4 OK HB Ev Hd Fit Al Lo TX TY TZ HJ Jr JD Fr HF Hw HW H.
  set (F2 := fun c g => if is_current c then J c g else F c g).
  assert (Fr2 : field_repeats L F2) by (intros c a g Ha; unfold F2; destruct (is_current c); [apply Jr, Ha|apply Fr, Ha]).
  assert (HF2 : holds_field L num F2 W3).
  { intros c p q Hp Hq. unfold F2. destruct (is_current c) eqn:E; [|apply HF; assumption]. rewrite (HW c p q Hp Hq E). apply HJ; assumption. }
  assert (Hw2 : walls_of R L GhostTangB F2 wall).
  { intros p a t c q Hp Ht Hb He. specialize (Hw p a t c q Hp Ht Hb He). unfold F2. destruct (is_current c) eqn:E; [|exact Hw]. exfalso.
    destruct He as (He & _). destruct c; try discriminate E; destruct a; discriminate He. }
  destruct (C54_gauss_every_node L num ws G mt fma P gm gr dmp F2 wall W3 W4 OK HB Ev Hd Fit Al Lo Fr2 HF2 Hw2 H) as (F' & A1 & A2 & A3).
  exists F'. split; [exact A1|]. split; [exact A2|]. intros g. destruct (A3 g) as (E & _). rewrite E.
  assert (ED : g_div_d R RA gm (div_coefs gr) F2 g = g_div_d R RA gm (div_coefs gr) F g) by reflexivity.
  assert (ET : g_div_node (div_coefs gr) F2 Tcax Tcay Tcaz g = g_div_node (div_coefs gr) F Tcax Tcay Tcaz g) by reflexivity.
  rewrite ED, ET. clear ED ET E.
  assert (One : forall a c n x, 1 < n \/ l_per L a = true /\ total L a = 1 -> (if_thick n x * (J c g - J c (dn a g)) = x * (J c g - J c (dn a g)))%R).
  { intros a c n0 x [Hn|(Hp & Ht)].
    - unfold if_thick. replace (1 <? n0) with true by lia. reflexivity.
    - replace (J c g) with (J c (dn a g)); [ring|]. rewrite <- (Jr c a (dn a g) Hp), Ht. f_equal. unfold dn. destruct a, g as [[? ?] ?]; cbn; repeat f_equal; lia. }
  assert (EJ : g_div_node (div_coefs gr) F2 Jfx Jfy Jfz g = div_current (mkv (rdx gr) (rdy gr) (rdz gr)) J g).
  { unfold g_div_node, div_current, F2, div_coefs. cbn [is_current px py pz vx vy vz]. rewrite (One RemoteModel.AX), (One RemoteModel.AY), (One RemoteModel.AZ) by assumption. reflexivity. }
  rewrite EJ. specialize (JD g). unfold Rminus. rewrite (Rmult_comm (dt gr / eps0 gr)). 
  replace (div_current (mkv (rdx gr) (rdy gr) (rdz gr)) J g * (dt gr / eps0 gr))%R with (dt gr * div_current (mkv (rdx gr) (rdy gr) (rdz gr)) J g / eps0 gr)%R by (unfold Rdiv; ring).
  rewrite JD. unfold Rdiv. ring.
Qed.
Print Assumptions C60_gauss.

(* The grids of the domain set-up (C21), with cells of size h, form one box for the exchanges, numbered as the set-up numbers the ranks; with C59_tables this gives
   all that C60_step asks of the set-up. *)
Theorem C60_boxes : forall gpx gpy gpz lx ly lz fbc pbc (G : Z -> grid) (h : axis -> R) (periodic : bool),
  1 <= gpx -> 1 <= gpy -> 1 <= gpz -> 1 <= lx -> 1 <= ly -> 1 <= lz ->
  let nv := (lx + 2) * (ly + 2) * (lz + 2) in let size := gpx * gpy * gpz in
  8 * nv <= 2147483648 -> -4 <= fbc <= -1 -> pbc < 0 -> (forall a, h a <> 0%R) ->
  (forall r, 0 <= r < size ->
     (if periodic then partition_periodic else partition_walls fbc pbc) r size (repeat nv (Z.to_nat size)) (lx * gpx) (ly * gpy) (lz * gpz) gpx gpy gpz = Ok (G r)) ->
  let L := mk_layout R (fun a => AT a (gpx, gpy, gpz)) (fun a => periodic || (AT a (lx * gpx, ly * gpy, lz * gpz) <=? 1)) (fun a _ => AT a (lx, ly, lz)) (fun a _ => h a) in
  let num := fun p => let '(x, y, z) := p in x + gpx * (y + gpy * z) in
  box L num size (fun r => mk_cgrid R (g_nx (G r), g_ny (G r), g_nz (G r)) h (g_bc (G r))) /\
  (forall r, 0 <= r < size -> inside L (rank_to_index gpx gpy r) /\ num (rank_to_index gpx gpy r) = r) /\
  equal_cells L (mkv (/ h RemoteModel.AX) (/ h RemoteModel.AY) (/ h RemoteModel.AZ))%R /\ even_sizes L.
Proof.
  intros gpx gpy gpz lx ly lz fbc pbc G h periodic P1 P2 P3 L1 L2 L3 nv size HN Hf Hp Hh HG L num.
  set (gp := (gpx, gpy, gpz)) in *. set (n := (lx, ly, lz)) in *.
  assert (Pn : pos3 n) by (cbn; lia). assert (Pg : pos3 gp) by (cbn; lia).
  assert (HN6 : 6 * nv_of lx ly lz <= 2147483647) by (change (nv_of lx ly lz) with nv; lia).
  set (gn := if periodic then (1, 1, 1) else (lx * gpx, ly * gpy, lz * gpz)).
  assert (HO : forall p, below gp p -> open_grid gp gn n fbc pbc p (G (rank3 gp p))).
  { intros p Bp. specialize (HG _ (rank3_range gp p Bp)). unfold gn. destruct periodic.
    - apply torus_open.
      destruct (partition_periodic_spec (lx * gpx) (ly * gpy) (lz * gpz) gpx gpy gpz lx ly lz p P1 P2 P3 L1 L2 L3 eq_refl eq_refl eq_refl HN6 Bp) as (g & E & T).
      fold gp in E. change (nv_of lx ly lz) with nv in E. change (gpx * gpy * gpz) with size in E. rewrite HG in E. injection E as <-. exact T.
    - destruct (partition_walls_spec fbc pbc (lx * gpx) (ly * gpy) (lz * gpz) gpx gpy gpz lx ly lz p Hf Hp P1 P2 P3 L1 L2 L3 eq_refl eq_refl eq_refl HN6 Bp) as (g & E & T).
      fold gp in E. change (nv_of lx ly lz) with nv in E. change (gpx * gpy * gpz) with size in E. rewrite HG in E. injection E as <-. exact T. }
  assert (Hfb : fbc < 0) by lia.
  assert (Hper : forall a, (periodic || (AT a (lx * gpx, ly * gpy, lz * gpz) <=? 1)) = negb (1 <? AT a gn)).
  { intros a. unfold gn. destruct periodic; [destruct a; reflexivity|]. cbn [orb]. lia. }
  assert (NE : forall p, num p = rank3 gp p) by (intros [[x y] z]; reflexivity).
  split; [|split; [|split]].
  - exact (box_fields gpx gpy gpz gn n fbc pbc G _ h Hper Pg Hfb HO).
  - intros r Hr. destruct (rank_to_index_onto gpx gpy gpz r P1 P2 P3 Hr) as (A & B). split; [|rewrite NE; exact B].
    intros a. exact (proj1 (below_at gpx gpy gpz _) A a).
  - intros i. repeat split; intros _; cbn; apply Rinv_r, Hh.
  - intros a i j _ _. reflexivity.
Qed.
Print Assumptions C60_boxes.

(* Box of 4x2x1 cells of size 1 on 2x1x1 ranks (voxels of a rank are 4x4x3).  In rank 0 a streak in cell (2,1,1), voxel 22, moves charge 1 along the low edge from
   node (2,1,1) to (3,1,1), which rank 0 holds in voxel 23 and rank 1 as its node (1,1,1) in voxel 21; in rank 1 a streak in cell (1,1,1), voxel 21, moves charge 1/2
   on from there.  The current into the node is 1, out of it 1/2, and the node gains 1/2. *)
Definition ex_lg (r : Z) : list (streak R) :=
  if r =? 0 then [(22, [4; 0; 0; 0; 0; 0; 0; 0; 0; 0; 0; 0]%R)] else [(21, [2; 0; 0; 0; 0; 0; 0; 0; 0; 0; 0; 0]%R)].
Example C60_example :
  vx (own_current ex_L (rank_to_index 2 1) (mkv 1 1 1)%R 1 ex_lg 0 22) = 1%R /\
  vx (own_current ex_L (rank_to_index 2 1) (mkv 1 1 1)%R 1 ex_lg 1 21) = (1 / 2)%R /\
  over_ranks 2 (fun r => moved_charge ex_L (rank_to_index 2 1) (at_node ex_L (3, 1, 1)) r (ex_lg r)) = (1 / 2)%R /\
  over_ranks 2 (fun r => moved_charge ex_L (rank_to_index 2 1) (at_node ex_L (2, 1, 1)) r (ex_lg r)) = (-1)%R.
Proof.
  split; [|split; [|split]].
  - unfold own_current, ex_lg, unload, unload_coef, acc_streaks. cbn. lra.
  - unfold own_current, ex_lg, unload, unload_coef, acc_streaks. cbn. lra.
  - unfold over_ranks, moved_charge, flows, ex_lg. change (zrange 0 2) with [0; 1]. unfold flow, sum_bool, node. cbn -[seen Rplus Rminus Rmult Rdiv Ropp].
    repeat match goal with |- context [seen ?l ?p ?f ?r ?v] => first [change (seen l p f r v) with 0%R | change (seen l p f r v) with 1%R] end.
    lra.
  - unfold over_ranks, moved_charge, flows, ex_lg. change (zrange 0 2) with [0; 1]. unfold flow, sum_bool, node. cbn -[seen Rplus Rminus Rmult Rdiv Ropp].
    repeat match goal with |- context [seen ?l ?p ?f ?r ?v] => first [change (seen l p f r v) with 0%R | change (seen l p f r v) with 1%R] end. lra.
Qed.
