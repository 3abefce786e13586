(* C59: the charge of the particles of all ranks, node by node of the whole mesh, over a whole particle step. *)
From Coq Require Import Reals Lra ZArith List Bool Lia ZifyBool.
From Verif Require Import SortModel GridModel GridProofs PartitionProofs TopologyProofs VoxelModel ParticleModel ParticleSpec ParticleProofs MoverModel BoundaryProofs
  FieldModel RemoteModel RemoteSpec DecompSpec ChargeModel ChargeSpec ChargeProofs ChargeRounds ChargeStep ChargeTables.
Import ListNotations.
Open Scope Z_scope.
Ltac Zify.zify_post_hook ::= idtac.
Local Notation sumR := ParticleSpec.sumR.
Local Notation axis := RemoteModel.axis.
Local Notation AT := RemoteModel.at_.

(* One round of boundary_p on all ranks.  Paired with any function Phi of the nodes of the whole mesh, the charge of all particles changes by what stopped at
   boundary conditions, what the handlers inject, and what is moved along mesh edges while the arrived particles finish their moves; the lists stay in order. *)
Theorem C59_round : forall L pos ws Phi first B Q fuel SS SS' SS'' out loc log,
  layout_ok L -> repeats L Phi -> wired L pos ws first B -> reciprocal ws B -> ranks_ok ws B Q SS ->
  (forall r, 0 <= r < ws -> pack_species Rnum (B r) 0 (SS r) = Some (out r, SS' r) /\
     inject_all Rnum fuel (b_mesh (B r)) (SS' r) (injection_order (B r) (loc r) (received B out r)) = Some (SS'' r, log r)) ->
  (world_charge L pos ws Phi SS'' = world_charge L pos ws Phi SS - over_ranks ws (fun r => lost_charge L pos Phi r (b_mesh (B r)) (SS r))
     + over_ranks ws (fun r => sumR (map (injector_charge L pos Phi Q r) (loc r))) + over_ranks ws (fun r => moved_charge L pos Phi r (log r)))%R /\
  ranks_ok ws B Q SS''.
Proof.
  intros L pos ws Phi first B Q fuel SS SS' SS'' out loc log OK HP HW Rc HO H.
  exact (round_charge L OK pos ws Phi HP first B HW Q fuel SS SS' SS'' out loc log Rc HO H).
Qed.
Print Assumptions C59_round.

(* The whole particle step: advance_p for every species on every rank, any number of rounds of boundary_p, removal of what is left. *)
Theorem C59_step : forall L pos ws Phi first B Q fuel n qdt cdt fs kept SS0 SS1 SS2 SS3 lg1 lg2 gain dims r8V adds,
  layout_ok L -> repeats L Phi -> wired L pos ws first B -> reciprocal ws B ->
  (forall r, 0 <= r < ws -> map s_q (SS0 r) = Q /\ Forall (fun s => s_pm s = []) (SS0 r)) ->
  (forall r, 0 <= r < ws -> advance_all Rnum (S fuel) (b_mesh (B r)) (qdt r) (cdt r) (fs r) (kept r) 0 (SS0 r) = Some (SS1 r, lg1 r)) ->
  rounds L pos ws Phi B Q fuel n SS1 gain lg2 SS2 ->
  (forall r, 0 <= r < ws -> let '(nx, ny, nz) := dims r in drop_all Rnum nx ny nz (r8V r) (SS2 r) = Some (adds r, SS3 r)) ->
  (world_charge L pos ws Phi SS3 = world_charge L pos ws Phi SS0 + gain - over_ranks ws (fun r => listed_charge L pos Phi r (SS2 r))
    + over_ranks ws (fun r => moved_charge L pos Phi r (lg1 r ++ lg2 r)))%R /\
  (forall r, 0 <= r < ws -> map s_q (SS3 r) = Q /\ Forall (fun s => s_pm s = []) (SS3 r)).
Proof.
  intros L pos ws Phi first B Q fuel n qdt cdt fs kept SS0 SS1 SS2 SS3 lg1 lg2 gain dims r8V adds OK HP HW Rc H0 HA HR HD.
  exact (step_charge L OK pos ws Phi HP first B HW Q fuel n qdt cdt fs kept SS0 SS1 SS2 SS3 lg1 lg2 gain dims r8V adds Rc H0 HA HR HD).
Qed.
Print Assumptions C59_step.

(* Where the tables hold only neighbours and reflecting walls, nothing is gained or lost on the way: at every node of the mesh the charge changes by the charge
   moved along the edges, less the particles removed after the last round; and the total charge by the removed particles alone. *)
Theorem C59_closed : forall L pos ws Phi first B Q fuel n qdt cdt fs kept SS0 SS1 SS2 SS3 lg1 lg2 gain dims r8V adds,
  layout_ok L -> repeats L Phi -> wired L pos ws first B -> reciprocal ws B -> closed ws B ->
  (forall r, 0 <= r < ws -> map s_q (SS0 r) = Q /\ Forall (fun s => s_pm s = []) (SS0 r)) ->
  (forall r, 0 <= r < ws -> advance_all Rnum (S fuel) (b_mesh (B r)) (qdt r) (cdt r) (fs r) (kept r) 0 (SS0 r) = Some (SS1 r, lg1 r)) ->
  rounds L pos ws Phi B Q fuel n SS1 gain lg2 SS2 ->
  (forall r, 0 <= r < ws -> let '(nx, ny, nz) := dims r in drop_all Rnum nx ny nz (r8V r) (SS2 r) = Some (adds r, SS3 r)) ->
  (world_charge L pos ws Phi SS3 = world_charge L pos ws Phi SS0 - over_ranks ws (fun r => listed_charge L pos Phi r (SS2 r))
    + over_ranks ws (fun r => moved_charge L pos Phi r (lg1 r ++ lg2 r)))%R /\
  (total_charge ws SS3 = total_charge ws SS0
     - over_ranks ws (fun r => sumR (map (fun s => sumR (map (fun m => match nth_error (s_p s) (Z.to_nat (m_i m)) with Some p => (s_q s * pw p)%R | None => 0%R end) (s_pm s))) (SS2 r))))%R.
Proof.
  assert (G : forall L pos ws Phi first B Q fuel n qdt cdt fs kept SS0 SS1 SS2 SS3 lg1 lg2 gain dims r8V adds,
    layout_ok L -> repeats L Phi -> wired L pos ws first B -> reciprocal ws B -> closed ws B ->
    (forall r, 0 <= r < ws -> map s_q (SS0 r) = Q /\ Forall (fun s => s_pm s = []) (SS0 r)) ->
    (forall r, 0 <= r < ws -> advance_all Rnum (S fuel) (b_mesh (B r)) (qdt r) (cdt r) (fs r) (kept r) 0 (SS0 r) = Some (SS1 r, lg1 r)) ->
    rounds L pos ws Phi B Q fuel n SS1 gain lg2 SS2 ->
    (forall r, 0 <= r < ws -> let '(nx, ny, nz) := dims r in drop_all Rnum nx ny nz (r8V r) (SS2 r) = Some (adds r, SS3 r)) ->
    (world_charge L pos ws Phi SS3 = world_charge L pos ws Phi SS0 - over_ranks ws (fun r => listed_charge L pos Phi r (SS2 r))
      + over_ranks ws (fun r => moved_charge L pos Phi r (lg1 r ++ lg2 r)))%R).
  { intros L pos ws Phi first B Q fuel n qdt cdt fs kept SS0 SS1 SS2 SS3 lg1 lg2 gain dims r8V adds OK HP HW Rc HC H0 HA HR HD.
    destruct (step_charge L OK pos ws Phi HP first B HW Q fuel n qdt cdt fs kept SS0 SS1 SS2 SS3 lg1 lg2 gain dims r8V adds Rc H0 HA HR HD) as (E & _).
    rewrite E, (rounds_closed L OK pos ws Phi HP first B HW Q fuel n SS1 gain lg2 SS2 HC Rc HR); [lra|].
    intros r Hr. destruct (H0 r Hr) as (Q0 & N0). destruct (advance_all_charge L OK pos ws Phi HP first B HW fuel r _ _ _ _ Hr _ _ _ _ N0 (HA r Hr)) as (_ & A2 & A3).
    split; [congruence|exact A3]. }
  intros L pos ws Phi first B Q fuel n qdt cdt fs kept SS0 SS1 SS2 SS3 lg1 lg2 gain dims r8V adds OK HP HW Rc HC H0 HA HR HD.
  split; [exact (G L pos ws Phi first B Q fuel n qdt cdt fs kept SS0 SS1 SS2 SS3 lg1 lg2 gain dims r8V adds OK HP HW Rc HC H0 HA HR HD)|].
  assert (H1 : repeats L (fun _ => 1%R)) by (intros a g _; reflexivity).
  destruct (rounds_any L pos ws Phi (fun _ => 1%R) B Q fuel n SS1 gain lg2 SS2 HR) as (gain1 & HR1).
  pose proof (G L pos ws (fun _ => 1%R) first B Q fuel n qdt cdt fs kept SS0 SS1 SS2 SS3 lg1 lg2 gain1 dims r8V adds OK H1 HW Rc HC H0 HA HR1 HD) as E.
  rewrite !world_total in E. rewrite E.
  replace (over_ranks ws (fun r => moved_charge L pos (fun _ => 1%R) r (lg1 r ++ lg2 r))) with 0%R.
  2:{ symmetry. apply sum_zero'. intros r _. unfold moved_charge. apply flows_one. }
  rewrite Rplus_0_r. f_equal. apply sum_ext. intros r _. unfold listed_charge. apply sum_ext. intros s _. apply sum_ext. intros m _.
  destruct (nth_error (s_p s) (Z.to_nat (m_i m))); [|reflexivity]. unfold particle_charge. apply charge_one.
Qed.
Print Assumptions C59_closed.

(* The tables the domain set-up builds (C21) are wired this way, periodic and with walls; in the walled box an axis counts as periodic when it is one cell wide,
   where the set-up puts no walls.  The periodic box is closed, and so is the walled one when the walls reflect. *)
Theorem C59_tables : forall gpx gpy gpz lx ly lz fbc pbc nb (G : Z -> grid) (d : axis -> Z -> R) (periodic : bool),
  1 <= gpx -> 1 <= gpy -> 1 <= gpz -> 1 <= lx -> 1 <= ly -> 1 <= lz ->
  let nv := (lx + 2) * (ly + 2) * (lz + 2) in let size := gpx * gpy * gpz in
  8 * nv <= 2147483648 -> -4 <= fbc <= -1 -> pbc < 0 ->
  (forall r, 0 <= r < size ->
     (if periodic then partition_periodic else partition_walls fbc pbc) r size (repeat nv (Z.to_nat size)) (lx * gpx) (ly * gpy) (lz * gpz) gpx gpy gpz = Ok (G r)) ->
  let L := mk_layout R (fun a => AT a (gpx, gpy, gpz)) (fun a => periodic || (AT a (lx * gpx, ly * gpy, lz * gpz) <=? 1)) (fun a _ => AT a (lx, ly, lz)) d in
  let B := fun r => bgrid_of nb (G r) in
  layout_ok L /\ reciprocal size B /\ wired L (rank_to_index gpx gpy) size (fun r => r * nv) B /\
  (periodic = true \/ pbc = reflect_particles -> closed size B).
Proof.
  intros gpx gpy gpz lx ly lz fbc pbc nb G d periodic P1 P2 P3 L1 L2 L3 nv size HN Hf Hp HG L B.
  set (gp := (gpx, gpy, gpz)) in *. set (n := (lx, ly, lz)) in *.
  assert (Pn : pos3 n) by (cbn; lia). assert (Pg : pos3 gp) by (cbn; lia).
  assert (HN6 : 6 * nv_of lx ly lz <= 2147483647) by (change (nv_of lx ly lz) with nv; lia).
  set (gn := if periodic then (1, 1, 1) else (lx * gpx, ly * gpy, lz * gpz)).
  assert (HO : forall p, below gp p -> open_grid gp gn n fbc pbc p (G (rank3 gp p))).
  { intros p Bp. specialize (HG _ (rank3_range gp p Bp)). unfold gn. destruct periodic.
    - apply torus_open.
      destruct (partition_periodic_spec (lx * gpx) (ly * gpy) (lz * gpz) gpx gpy gpz lx ly lz p P1 P2 P3 L1 L2 L3 eq_refl eq_refl eq_refl HN6 Bp) as (g & E & T).
      fold gp in E. change (nv_of lx ly lz) with nv in E. change (gpx * gpy * gpz) with size in E. rewrite HG in E. injection E as <-. exact T.
    - destruct (partition_walls_spec fbc pbc (lx * gpx) (ly * gpy) (lz * gpz) gpx gpy gpz lx ly lz p Hf Hp P1 P2 P3 L1 L2 L3 eq_refl eq_refl eq_refl HN6 Bp) as (g & E & T).
      fold gp in E. change (nv_of lx ly lz) with nv in E. change (gpx * gpy * gpz) with size in E. rewrite HG in E. injection E as <-. exact T. }
  assert (Hfb : fbc < 0) by lia.
  assert (Hper : forall a, (periodic || (AT a (lx * gpx, ly * gpy, lz * gpz) <=? 1)) = negb (1 <? AT a gn)).
  { intros a. unfold gn. destruct periodic; [destruct a; reflexivity|]. cbn [orb]. lia. }
  split; [split; intros a; [|intros i _]; destruct a; cbn; lia|].
  split; [exact (box_reciprocal gp gn n fbc pbc nb G Pg Hfb HO)|].
  split; [exact (box_wired gpx gpy gpz gn n fbc pbc nb G _ d Hper Pn Pg Hp HO)|].
  intros HC. apply (box_closed gpx gpy gpz gn n fbc pbc nb G _ d Hper Pn Pg HO).
  intros p f Bp Hff W. destruct HC as [HC|HC]; [|exact HC]. exfalso. revert W. unfold gn. rewrite HC. unfold at_wall.
  destruct (cyc (f mod 3) gp) as [[? ?] ?], (cyc (f mod 3) p) as [[? ?] ?]. unfold cyc. destruct (f mod 3) as [|[]|]; rewrite andb_false_r; discriminate.
Qed.
Print Assumptions C59_tables.

(* Box of 4x2x1 cells on 2x1x1 ranks: a particle of weight 3 and charge -2 per weight stopped on the high x face of cell (2,1,1) of rank 0 (voxel 22), and the same
   particle after its arrival in cell (1,1,1) of rank 1 (voxel 21): both bring -3/2 to the node (3,1,1) of the mesh. *)
Definition ex_L : layout R := mk_layout R (fun a => AT a (2, 1, 1)) (fun _ => true) (fun a _ => AT a (2, 2, 1)) (fun _ _ => 1%R).
Definition ex_Phi (g : cell) : R := let '(x, y, z) := g in if (x mod 4 =? 3) && (y mod 2 =? 1) then 1%R else 0%R.
Example C59_example :
  repeats ex_L ex_Phi /\
  particle_charge ex_L (rank_to_index 2 1) ex_Phi 0 (-2) true (mkp (mkv 1 (1 / 2) 0)%R (8 * 22 + 3) (mkv 0 0 0)%R 3%R) = (- (3 / 2))%R /\
  particle_charge ex_L (rank_to_index 2 1) ex_Phi 1 (-2) false (mkp (mkv (-1) (1 / 2) 0)%R 21 (mkv 0 0 0)%R 3%R) = (- (3 / 2))%R.
Proof.
  split; [|split].
  - assert (T : total ex_L RemoteModel.AX = 4 /\ total ex_L RemoteModel.AY = 2) by (split; reflexivity). destruct T as (T1 & T2).
    intros a [[x y] z] _. destruct a; rewrite ?T1, ?T2; cbn -[Z.modulo Z.add total]; unfold ex_Phi.
    + replace ((x + 4) mod 4) with (x mod 4); [reflexivity|]. rewrite <- (Z.mod_add x 1 4) by lia. reflexivity.
    + replace ((y + 2) mod 2) with (y mod 2); [reflexivity|]. rewrite <- (Z.mod_add y 1 2) by lia. reflexivity.
    + reflexivity.
  - unfold particle_charge, charge, sum_bool, share, seen. cbn -[Rplus Rminus Rmult Rdiv Ropp place].
    repeat match goal with |- context [place ex_L RemoteModel.AX ?p ?q] => let v := eval vm_compute in (place ex_L RemoteModel.AX p q) in change (place ex_L RemoteModel.AX p q) with v end.
    cbn -[Rplus Rminus Rmult Rdiv Ropp]. lra.
  - unfold particle_charge, charge, sum_bool, share, seen. cbn -[Rplus Rminus Rmult Rdiv Ropp place].
    repeat match goal with |- context [place ex_L RemoteModel.AX ?p ?q] => let v := eval vm_compute in (place ex_L RemoteModel.AX p q) in change (place ex_L RemoteModel.AX p q) with v end.
    cbn -[Rplus Rminus Rmult Rdiv Ropp]. lra.
Qed.
Example C59_example_tables : match partition_periodic 0 2 [48; 48] 4 2 1 2 1 1 with
  | Ok g => nbr_at (b_mesh (bgrid_of 0 g)) 22 3 = Some (48 + 21) /\ gplace ex_L (rank_to_index 2 1 0) (2, 1, 1) = (2, 1, 1) /\ gplace ex_L (rank_to_index 2 1 1) (1, 1, 1) = (3, 1, 1)
  | _ => False end.
Proof. vm_compute. repeat split. Qed.
