(* C55: the values beyond a wall. *)
From Coq Require Import Classical_Prop Reals ZArith List Bool Lia ZifyBool Lra.
From Verif Require Import SortModel VoxelModel VoxelProofs GridModel FieldModel FieldSpec FieldBoundaryModel RemoteModel RemoteSpec DecompSpec RemoteProofs PropertiesField LocalModel LocalSpec LocalProofs.
Import ListNotations.
Open Scope Z_scope.
Ltac Zify.zify_post_hook ::= idtac.

(* Face t of axis a has no rank beyond it. *)
Definition walled {V} (ws : Z) (g : cgrid V) (a : axis) (t : Z) : Prop := (t = -1 \/ t = 1) /\ (c_bc V g (port a t) < 0 \/ ws <= c_bc V g (port a t)).
(* Sizes the routines rely on: cells in every direction, and two of them along an axis with an absorbing wall for the normal electric field. *)
Definition sized {V} (g : cgrid V) (e : exch) : Prop :=
  (forall a, 1 <= at_ a (c_n V g)) /\ (e = GhostNormE -> forall a t, t = -1 \/ t = 1 -> c_bc V g (port a t) = -4 -> 2 <= at_ a (c_n V g)).
Lemma six_in a t : t = -1 \/ t = 1 -> In (a, t) six.
Proof. intros [-> | ->]; destruct a; cbn; tauto. Qed.
Lemma six_dirs : dirs six.
Proof. intros d H. cbn in H. repeat (destruct H as [<- |H]; [unfold sign; cbn; auto|]). destruct H. Qed.
Lemma six_nodup : NoDup six.
Proof. repeat constructor; cbn; intros H; repeat (destruct H as [H|H]; [discriminate|]); exact H. Qed.

(* After the routine every entry beyond a wall has the value wanted there, worked out from the array before it, whatever the order of faces and points; nothing else has changed. *)
Theorem C55_ghosts : forall V (A : arith V) K ws g e F F', sized g e -> local_ghost V A K ws g e F = Some F' ->
  (forall a t c q, walled ws g a t -> beyond e (c_n V g) a t c q ->
     F' (c, vox3 (c_n V g) q) = wall_value A K e (c_bc V g (port a t)) a t (fun c q => F (c, vox3 (c_n V g) q)) c q) /\
  (forall l, (forall a t c q, walled ws g a t -> beyond e (c_n V g) a t c q -> l <> (c, vox3 (c_n V g) q)) -> F' l = F l).
Proof.
  intros V A K ws g e F F' [Hn Ht] H. destruct (faces_ok A K ws g Hn e) with (ds := six) (F := F) (F' := F') as [H1 H2]; [|exact six_dirs|exact six_nodup|exact H|].
  - intros a t Hs _ He Hb. exact (Ht He a t Hs Hb).
  - split.
    + intros a t c q [Hs Hw] B. exact (H1 a t c q (six_in a t Hs) Hw B).
    + intros l Hl. apply H2. intros a t c q Hin Hw B. apply (Hl a t c q); [|exact B]. split; [exact (six_dirs _ Hin)|exact Hw].
Qed.
Print Assumptions C55_ghosts.
(* The routine goes through exactly when the walls have one of the four field boundary conditions. *)
Theorem C55_defined : forall V (A : arith V) K ws g e F, ghosted e = true ->
  (exists F', local_ghost V A K ws g e F = Some F') <-> (forall a t, walled ws g a t -> -4 <= c_bc V g (port a t) <= -1).
Proof.
  intros V A K ws g e F Hg. pose proof (faces_some A K ws g e Hg six F) as Q. unfold local_ghost. split.
  - intros [F' E] a t [Hs Hw]. apply Q; [rewrite E; discriminate|exact (six_in a t Hs)|exact Hw].
  - intros H. destruct (local_faces V A K ws g e six F) as [F'|] eqn:E; [exists F'; reflexivity|]. exfalso. apply Q; [|reflexivity]. intros a t Hin Hw. apply H. split; [exact (six_dirs _ Hin)|exact Hw].
Qed.
Print Assumptions C55_defined.

(* What the values say, in exact arithmetic.  At a conducting wall no change across the wall; at a symmetry plane or magnetic wall zero there; at an absorbing wall
   the normal electric field continues in a straight line and the error of div B is 0. *)
Theorem C55_meaning : forall r ws g e F F' a t c q, sized g e -> local_ghost R RA (ghost_consts r) ws g e F = Some F' -> walled ws g a t -> beyond e (c_n R g) a t c q ->
  let at' s := F' (c, vox3 (c_n R g) (put a (at_ a q - s * t) q)) in
  (c_bc R g (port a t) = -1 -> (at' 0%Z - at' 1%Z = 0)%R) /\
  (c_bc R g (port a t) = -2 \/ c_bc R g (port a t) = -3 -> ((at' 0%Z + at' 1%Z) / 2 = 0)%R) /\
  (c_bc R g (port a t) = -4 -> e = GhostNormE -> (at' 0%Z - 2 * at' 1%Z + at' 2%Z = 0)%R) /\
  (c_bc R g (port a t) = -4 -> e = GhostDivB -> at' 0%Z = 0%R).
Proof.
  intros r ws g e F F' a t c q Hz H Hw B at'. destruct (C55_ghosts _ _ _ _ _ _ _ _ Hz H) as [H1 H2]. destruct Hz as [Hn Hk]. pose proof Hw as [Hs _].
  assert (E0 : at' 0 = F' (c, vox3 (c_n R g) q)) by (unfold at'; f_equal; f_equal; replace (at_ a q - 0 * t) with (at_ a q) by lia; destruct q as [[x y] z], a; reflexivity).
  pose proof (proj1 (beyond_ghost g e a t c q Hs) B) as (C & Ha & Hd).
  assert (In_ : forall s, 1 <= at_ a q - s * t <= at_ a (c_n R g) -> at' s = F (c, vox3 (c_n R g) (put a (at_ a q - s * t) q))).
  { intros s Hr. apply H2. intros a2 t2 c2 q2 [Ht2 _] B2 E. unfold at' in *.
    assert (M : forall d, 0 <= at_ d (put a (at_ a q - s * t) q) <= at_ d (c_n R g) + 1).
    { intros d. destruct (axis_eq d a) as [-> | N]; [rewrite at_put_same; lia|]. rewrite at_put_other by exact N. specialize (Hd d N). destruct (node_on c d); lia. }
    apply (loc_inj g Hn (c, _) (c2, q2)) in E; [|exact M|exact (beyond_mesh g Hn e a2 t2 c2 q2 Ht2 B2)]. injection E as <- <-.
    apply (beyond_ghost g) in B2; [|exact Ht2]. destruct B2 as (C2 & P2 & _). assert (1 <= at_ a2 (put a (at_ a q - s * t) q) <= at_ a2 (c_n R g)).
    { destruct (axis_eq a2 a) as [-> | N]; [rewrite at_put_same; lia|]. rewrite at_put_other by exact N. specialize (Hd a2 N). rewrite (beyond_off e a2 c C2) in Hd. lia. }
    unfold ghost_at in P2. destruct Ht2 as [-> | ->]; cbn in P2; lia. }
  assert (E1 : at' 1 = F (c, vox3 (c_n R g) (put a (at_ a q - t) q))).
  { rewrite In_; [replace (at_ a q - 1 * t) with (at_ a q - t) by lia; reflexivity|]. pose proof (inner_range g Hn a t q Hs Ha). lia. }
  rewrite E0, E1. rewrite (H1 a t c q Hw B). unfold wall_value. repeat split.
  - intros ->. cbn [Z.eqb Pos.eqb]. lra.
  - intros [-> | ->]; cbn [Z.eqb Pos.eqb orb ghost_consts lc_neg]; lra.
  - intros Hb He. assert (E2 : at' 2 = F (c, vox3 (c_n R g) (put a (at_ a q - 2 * t) q))).
    { rewrite In_; [reflexivity|]. apply (second_range g); [exact Hs|exact Ha|exact (Hk He a t Hs Hb)]. }
    rewrite E2, Hb, He. cbn [Z.eqb Pos.eqb orb ghost_consts lc_two RA a_mul a_sub]. lra.
  - intros -> ->. reflexivity.
Qed.
Print Assumptions C55_meaning.

(* The absorbing wall.  Old is the field one step of Faraday's law before the array F, with the same electric field; delta is the Courant number of the wall.  The new value beyond
   the wall is then that of the one way wave equation. *)
Theorem C55_one_way : forall r ws g F F' a t c q (Old : gfield R), sized g GhostTangB -> c_n R g = (gnx r, gny r, gnz r) -> 1 < gnx r -> 1 < gny r -> 1 < gnz r ->
  local_ghost R RA (ghost_consts r) ws g GhostTangB F = Some F' -> walled ws g a t -> c_bc R g (port a t) = -4 -> beyond GhostTangB (c_n R g) a t c q ->
  let now c q := F (c, vox3 (c_n R g) q) in let h := put a (at_ a q - t) q in let delta := (cdt_d r a * higend r)%R in
  (forall c q, c = Ex \/ c = Ey \/ c = Ez -> Old c q = now c q) -> now c h = g_advance_b R RA (advance_b_coefs r 1) Old c h -> (1 + delta <> 0)%R ->
  F' (c, vox3 (c_n R g) q) = (Old c h + (delta - 1) / (delta + 1) * (now c h - now c q))%R.
Proof.
  intros r ws g F F' a t c q Old Hz En Nx Ny Nz H Hw Hb B now h delta He Hh Hd. destruct (C55_ghosts _ _ _ _ _ _ _ _ Hz H) as [H1 _]. rewrite (H1 a t c q Hw B). rewrite Hb.
  fold now. unfold wall_value. fold h. cbn [Z.eqb Pos.eqb orb]. assert (D1 : (delta + 1 <> 0)%R) by lra.
  destruct Hz as [Hn _]. destruct B as (C & _ & _). unfold across, rise.
  assert (Al : forall old gh gq X, gh = (old - X)%R -> (old + (delta - 1) / (delta + 1) * (gh - gq) = (1 - delta) / (1 + delta) * gq + 2 * delta / (1 + delta) * gh + X)%R).
  { intros old gh gq X ->. field. lra. }
  assert (S2 : forall k x y : R, (if t =? -1 then (k * (x - y)) else - (k * (y - x)))%R = (k * (x - y))%R) by (intros; destruct (t =? -1); lra).
  unfold g_advance_b, advance_b_coefs, if_thick in Hh. cbn [px py pz] in Hh. rewrite (proj2 (Z.ltb_lt _ _) Nx), (proj2 (Z.ltb_lt _ _) Ny), (proj2 (Z.ltb_lt _ _) Nz) in Hh.
  destruct a, c; try discriminate C; cbn [RA a_add a_sub a_mul ghost_consts lc_neg lc_cdt lc_decay lc_drive] in *; rewrite S2; rewrite ?(He Ex), ?(He Ey), ?(He Ez) in Hh by tauto;
    rewrite (Al _ _ _ _ Hh); fold delta; unfold cdt_d; unfold Rdiv; unfold now; ring.
Qed.
Print Assumptions C55_one_way.
(* So a wave that moves out through the wall at c times the factor of local.cc:65 and changes in a straight line is continued exactly: y is the distance outward from the wall,
   tau the time of the old field. *)
Theorem C55_outgoing : forall r ws g F F' a t c q (Old : gfield R) al be tau dx, sized g GhostTangB -> c_n R g = (gnx r, gny r, gnz r) -> 1 < gnx r -> 1 < gny r -> 1 < gnz r ->
  local_ghost R RA (ghost_consts r) ws g GhostTangB F = Some F' -> walled ws g a t -> c_bc R g (port a t) = -4 -> beyond GhostTangB (c_n R g) a t c q ->
  let now c q := F (c, vox3 (c_n R g) q) in let h := put a (at_ a q - t) q in let v := (cvac r * higend r)%R in
  (forall c q, c = Ex \/ c = Ey \/ c = Ez -> Old c q = now c q) -> now c h = g_advance_b R RA (advance_b_coefs r 1) Old c h ->
  (0 < cvac r)%R -> (0 < dt r)%R -> (0 < dx)%R -> (match a with AX => rdx r | AY => rdy r | AZ => rdz r end = / dx)%R ->
  let wave y s := (al + be * (y - v * s))%R in
  Old c h = wave (- dx / 2)%R tau -> now c h = wave (- dx / 2)%R (tau + dt r)%R -> now c q = wave (dx / 2)%R tau -> F' (c, vox3 (c_n R g) q) = wave (dx / 2)%R (tau + dt r)%R.
Proof.
  intros r ws g F F' a t c q Old al be tau dx Hz En Nx Ny Nz H Hw Hb B now h v He Hh Pc Pt Px Hr wave W1 W2 W3.
  assert (Pg : (0 < higend r)%R) by (unfold higend; destruct (_ || _ || _); lra).
  assert (Ed : (cdt_d r a * higend r = v * dt r / dx)%R) by (unfold cdt_d; rewrite Hr; unfold v, Rdiv; ring).
  assert (Pd : (0 < v * dt r / dx)%R) by (unfold v; apply Rmult_lt_0_compat; [repeat apply Rmult_lt_0_compat; assumption|apply Rinv_0_lt_compat, Px]).
  assert (Pv : (0 < v * dt r)%R) by (unfold v; repeat apply Rmult_lt_0_compat; assumption).
  rewrite (C55_one_way r ws g F F' a t c q Old Hz En Nx Ny Nz H Hw Hb B He Hh) by (rewrite Ed; lra).
  change (F (c, vox3 (c_n R g) (put a (at_ a q - t) q))) with (now c h). change (F (c, vox3 (c_n R g) q)) with (now c q). fold h. rewrite W1, W2, W3, Ed. unfold wave. field. split; lra.
Qed.
Print Assumptions C55_outgoing.

(* whether a location is an entry beyond a wall *)
Lemma floc_dec_beyond {V} ws (g : cgrid V) e l : (exists a t c q, walled ws g a t /\ beyond e (c_n V g) a t c q /\ l = (c, vox3 (c_n V g) q)) \/
  (forall a t c q, walled ws g a t -> beyond e (c_n V g) a t c q -> l <> (c, vox3 (c_n V g) q)).
Proof.
  destruct (Classical_Prop.classic (exists a t c q, walled ws g a t /\ beyond e (c_n V g) a t c q /\ l = (c, vox3 (c_n V g) q))) as [H|H]; [left; exact H|right].
  intros a t c q Hw B E. apply H. exists a, t, c, q. auto.
Qed.
(* For the routines without memory, running them again changes nothing. *)
Theorem C55_again : forall V (A : arith V) K ws g e F F' F'', sized g e -> (e = GhostTangB -> forall a t, walled ws g a t -> c_bc V g (port a t) <> -4) ->
  local_ghost V A K ws g e F = Some F' -> local_ghost V A K ws g e F' = Some F'' -> forall l, F'' l = F' l.
Proof.
  intros V A K ws g e F F' F'' Hz Hm H H' l. destruct (C55_ghosts _ _ _ _ _ _ _ _ Hz H) as [A1 A2]. destruct (C55_ghosts _ _ _ _ _ _ _ _ Hz H') as [B1 B2].
  destruct (floc_dec_beyond ws g e l) as [(a & t & c & q & Hw & B & ->)|N]; [|apply B2, N].
  rewrite (B1 a t c q Hw B), (A1 a t c q Hw B). destruct Hz as [Hn Hk]. pose proof Hw as [Hs Hc].
  change (wall_value A K e (c_bc V g (port a t)) a t (rd V g F') c q = wall_value A K e (c_bc V g (port a t)) a t (rd V g F) c q).
  apply wall_stable; [exact Hn|exact Hs| |intros E1 E2; exact (Hk E1 a t Hs E2)|exact B|intros E1 E2; exfalso; exact (Hm E1 a t Hw E2)|].
  - destruct B as (C & _). assert (Hg : ghosted e = true) by (destruct e; try reflexivity; discriminate C).
    pose proof (proj1 (C55_defined V A K ws g e F Hg) (ex_intro _ F' H) a t Hw). lia.
  - intros k Hl. apply A2. intros a' t' c' q' [Hs' _] B'. exact (Hl a' t' c' q' Hs' B').
Qed.
Print Assumptions C55_again.


(* ---- cases ---- *)
Definition ZK : lconst Z := mk_lconst Z Z.opp 2 0 (fun _ => 1) (fun _ => 3) (fun _ => 5).
Definition g_walls (n : cell) (lo hi : Z) : cgrid Z := mk_cgrid Z n (fun _ => 1) (fun p => if p =? port AX (-1) then lo else if p =? port AX 1 then hi else 0).
(* A box of 3 x 2 x 1 cells on one rank, joined to itself along y and z: conducting below, absorbing above.  Cby beyond the walls. *)
Definition F_ex : mem Z := fun l => match fst l with Cby => 100 + snd l | Ez => 2 * snd l | Ex => 7 * snd l | _ => 0 end.
Example C55_example : exists F', local_ghost Z ZA ZK 1 (g_walls (3, 2, 1) (-1) (-4)) GhostTangB F_ex = Some F' /\
  F' (Cby, vox3 (3, 2, 1) (0, 2, 1)) = F_ex (Cby, vox3 (3, 2, 1) (1, 2, 1)) /\
  F' (Cby, vox3 (3, 2, 1) (4, 2, 1)) = 3 * F_ex (Cby, vox3 (3, 2, 1) (4, 2, 1)) + 5 * F_ex (Cby, vox3 (3, 2, 1) (3, 2, 1)) - 2 + 7 * 20 /\
  F' (Cby, vox3 (3, 2, 1) (4, 0, 1)) = F_ex (Cby, vox3 (3, 2, 1) (4, 0, 1)).
Proof.
  destruct (local_ghost Z ZA ZK 1 (g_walls (3, 2, 1) (-1) (-4)) GhostTangB F_ex) as [F'|] eqn:E; [|vm_compute in E; discriminate].
  exists F'. split; [reflexivity|]. assert (X : forall l, F' l = match local_ghost Z ZA ZK 1 (g_walls (3, 2, 1) (-1) (-4)) GhostTangB F_ex with Some F => F l | None => 0 end) by (intros; rewrite E; reflexivity).
  rewrite !X. vm_compute. repeat split; reflexivity.
Qed.
(* A boundary condition without a case ends the run. *)
Example C55_example_bad : local_ghost Z ZA ZK 1 (g_walls (3, 2, 1) (-1) (-5)) GhostTangB F_ex = None.
Proof. vm_compute. reflexivity. Qed.

(* The magnetic field beyond an absorbing wall has memory: working it out twice in a step, as compute_curl_b does after advance_e, is not the same as once. *)
Theorem C55_twice_refuted : exists g F F' F'' l, sized g GhostTangB /\ local_ghost Z ZA ZK 1 g GhostTangB F = Some F' /\ local_ghost Z ZA ZK 1 g GhostTangB F' = Some F'' /\ F'' l <> F' l.
Proof.
  pose (g := g_walls (3, 2, 1) (-1) (-4)). destruct (local_ghost Z ZA ZK 1 g GhostTangB F_ex) as [F'|] eqn:E; [|vm_compute in E; discriminate].
  destruct (local_ghost Z ZA ZK 1 g GhostTangB F') as [F''|] eqn:E'.
  - exists g, F_ex, F', F'', (Cby, vox3 (3, 2, 1) (4, 2, 1)). split; [split; [intros []; cbn; lia|discriminate]|]. split; [exact E|]. split; [exact E'|].
    assert (X : forall l, F'' l = match local_ghost Z ZA ZK 1 g GhostTangB F_ex with Some F => match local_ghost Z ZA ZK 1 g GhostTangB F with Some F2 => F2 l | None => 0 end | None => 0 end) by (intros; rewrite E, E'; reflexivity).
    assert (Y : forall l, F' l = match local_ghost Z ZA ZK 1 g GhostTangB F_ex with Some F => F l | None => 0 end) by (intros; rewrite E; reflexivity).
    rewrite X, Y. vm_compute. discriminate.
  - exfalso. assert (X : exists F2, local_ghost Z ZA ZK 1 g GhostTangB F' = Some F2); [|destruct X; congruence].
    apply C55_defined; [reflexivity|]. apply (C55_defined Z ZA ZK 1 g GhostTangB F_ex); [reflexivity|]. exists F'. exact E.
Qed.
(* With one cell along the axis of an absorbing wall the normal electric field beyond it is worked out from what was left beyond the other wall: two arrays that agree
   everywhere but there give different values. *)
Theorem C55_thin_absorbing_refuted : exists g F G_ F' G', local_ghost Z ZA ZK 1 g GhostNormE F = Some F' /\ local_ghost Z ZA ZK 1 g GhostNormE G_ = Some G' /\
  (forall c q, at_ AX q <> 0 -> at_ AX q <> 2 -> (forall a, 0 <= at_ a q <= at_ a (c_n Z g) + 1) -> F (c, vox3 (c_n Z g) q) = G_ (c, vox3 (c_n Z g) q)) /\
  F' (Ex, vox3 (c_n Z g) (0, 1, 1)) <> G' (Ex, vox3 (c_n Z g) (0, 1, 1)).
Proof.
  pose (g := g_walls (1, 1, 1) (-4) (-4)). pose (F := (fun _ => 0) : mem Z). pose (H := (fun l => if floc_eqb l (Ex, vox3 (1, 1, 1) (2, 1, 1)) then 1 else 0) : mem Z).
  destruct (local_ghost Z ZA ZK 1 g GhostNormE F) as [F'|] eqn:E; [|vm_compute in E; discriminate].
  destruct (local_ghost Z ZA ZK 1 g GhostNormE H) as [H'|] eqn:E'; [|vm_compute in E'; discriminate].
  exists g, F, H, F', H'. split; [exact E|]. split; [exact E'|]. split.
  - intros c q N0 N2 M. pose proof (M AX) as Mx. pose proof (M AY) as My. pose proof (M AZ) as Mz. destruct q as [[x y] z]. cbn in *.
    assert (x = 1) by lia. subst x. assert (y = 0 \/ y = 1 \/ y = 2) as [-> |[-> | ->]] by lia; assert (z = 0 \/ z = 1 \/ z = 2) as [-> |[-> | ->]] by lia; destruct c; reflexivity.
  - assert (X : forall l, F' l = match local_ghost Z ZA ZK 1 g GhostNormE F with Some F => F l | None => 0 end) by (intros; rewrite E; reflexivity).
    assert (Y : forall l, H' l = match local_ghost Z ZA ZK 1 g GhostNormE H with Some F => F l | None => 0 end) by (intros; rewrite E'; reflexivity).
    rewrite X, Y. vm_compute. discriminate.
Qed.
(* The comment local.cc:61-64 promises the factor 1 in one dimension; the code gives it only for a mesh of a single cell. *)
Theorem C55_one_dimension_refuted : exists r, gny r = 1 /\ gnz r = 1 /\ 1 < gnx r /\ (higend r <> 1)%R.
Proof. exists (mk_rgrid 10 1 1 1 1 1 1 1 1). cbn. repeat split; try lia. unfold higend. cbn. lra. Qed.
Print Assumptions C55_twice_refuted.
Print Assumptions C55_thin_absorbing_refuted.
Print Assumptions C55_one_dimension_refuted.
