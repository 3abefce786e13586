From Coq Require Import ZArith List Bool Lia Reals Lra QArith.QArith.
From Flocq Require Import Core IEEE754.BinarySingleNaN.
From Verif Require Import FloatModel FloatProofs DistributeModel DistributeProofs VoxelModel SortModel SortProofs ParticleModel MoverModel ChargeModel HydroModel
  VecPartModel VecPartSpec VecPartProofs VecPartSums VecPartFloat.
Import ListNotations.
Open Scope Z_scope.
Ltac Zify.zify_post_hook ::= idtac.

(* ---- C67: the particle kernels of the three vector widths ---- *)
(* k = 2, 3, 4: lanes in blocks of 4, 8, 16.  In exact arithmetic unless b32 is said. *)

(* move_p with V4_ACCELERATION: same particle, same streaks into the same voxels, same outcome and same mover as the scalar move_p, for every mesh
   (walls, absorbing faces, other ranks), number of crossings, starting point and displacement off the faces in the directions of no displacement. *)
Theorem C67_move_p : forall X fuel g qsp p disp, exact_ops X -> off_faces (pd p) disp ->
  same_move (vmove_p Rnum X fuel g qsp p disp) (move_p Rnum fuel g qsp p disp).
Proof. intros X fuel g qsp p disp HX. apply vmove_p_same. exact HX. Qed.
Print Assumptions C67_move_p.

(* The vector pipelines and the host's scalar rest take every particle once, in order. *)
Theorem C67_shares : forall {A} k c P (ps : list A), In k [2; 3; 4]%nat -> 1 <= P < 2 ^ 31 -> Z.of_nat (length ps) < 2 ^ 31 ->
  (forall rank, 0 <= rank < P -> Forall (fun b => length b = 2 ^ k)%nat (vblocks k c P rank ps)) /\
  flat_map (fun rank => concat (vblocks k c P rank ps)) (zrange 0 P) ++ skipn (Z.to_nat (fst (distribute c (Z.of_nat (length ps)) 16 P P))) ps = ps.
Proof.
  intros A k c P ps Hk HP Hn. split; [|apply shares_cover; assumption].
  intros rank Hr. pose proof (vblocks_share k c P rank ps Hk Hr ltac:(lia) Hn) as H. destruct (distribute c (Z.of_nat (length ps)) 16 rank P). apply H.
Qed.
Print Assumptions C67_shares.

(* advance_p: what pipeline [rank] does to its share ps[n0], ..., ps[n0+n-1] with vector kernels is what the scalar pipeline does: the particles, the
   movers stored (with indices counted from n0), every word of every accumulator; and every increment stays within its accumulator. *)
Theorem C67_advance : forall X fuel g qdt cdt q fs kept k c P rank ps, exact_ops X -> In k [2; 3; 4]%nat -> 0 <= rank < P -> P < 2 ^ 31 -> Z.of_nat (length ps) < 2 ^ 31 ->
  Forall (leaves_clear qdt cdt fs) ps ->
  let '(n0, n) := distribute c (Z.of_nat (length ps)) 16 rank P in
  match vadvance_blocks Rnum X k fuel g qdt cdt q fs kept n0 (vblocks k c P rank ps),
        advance_list Rnum fuel g qdt cdt q fs kept n0 (firstn (Z.to_nat n) (skipn (Z.to_nat n0) ps)) with
  | Some (a, pm, inc), Some (a', pm', log) => a = a' /\ pm = pm' /\
      (forall acc v w, apply_incrs Rnum inc acc v w = acc_streaks Rnum log acc v w) /\ (forall x, In x inc -> inside (acc_words k) x)
  | None, None => True
  | _, _ => False
  end.
Proof.
  intros X fuel g qdt cdt q fs kept k c P rank ps HX Hk Hr HP Hn HF.
  pose proof (vblocks_share k c P rank ps Hk Hr HP Hn) as HS.
  destruct (distribute c (Z.of_nat (length ps)) 16 rank P) as [n0 n]. destruct HS as [HS _].
  assert (HB : Forall (Forall (leaves_clear qdt cdt fs)) (vblocks k c P rank ps)).
  { apply Forall_forall. intros b Hb. apply Forall_forall. intros p Hp. rewrite Forall_forall in HF. apply HF.
    assert (Hc : In p (concat (vblocks k c P rank ps))) by (apply in_concat; exists b; auto). rewrite HS in Hc.
    rewrite <- (firstn_skipn (Z.to_nat n0) ps). apply in_or_app. right. rewrite <- (firstn_skipn (Z.to_nat n) (skipn _ _)). apply in_or_app. left. exact Hc. }
  pose proof (vadvance_blocks_same X HX fuel g qdt cdt q fs kept k Hk _ n0 HB) as H. rewrite HS in H.
  pose proof (vadvance_inside X fuel g qdt cdt q fs kept k Hk (vblocks k c P rank ps) n0) as HI.
  destruct (vadvance_blocks _ _ _ _ _ _ _ _ _ _ _ _) as [[[a pm] inc]|]; destruct (advance_list _ _ _ _ _ _ _ _ _ _) as [[[a' pm'] log]|]; cbn [same_step] in H; try exact H.
  destruct H as (H1 & H2 & H3). split; [exact H1|]. split; [exact H2|]. split; [|apply (HI _ _ _ eq_refl)].
  intros acc v w. rewrite apply_incrs_sum, acc_streaks_sum, H3. reflexivity.
Qed.
Print Assumptions C67_advance.

(* center_p and uncenter_p *)
Theorem C67_center : forall X qdt fs k c P rank ps, exact_ops X -> In k [2; 3; 4]%nat -> 0 <= rank < P -> P < 2 ^ 31 -> Z.of_nat (length ps) < 2 ^ 31 ->
  let '(n0, n) := distribute c (Z.of_nat (length ps)) 16 rank P in
  let share := firstn (Z.to_nat n) (skipn (Z.to_nat n0) ps) in
  concat (map (map (fun p => center_lane Rnum X qdt (fs (pi p)) p)) (vblocks k c P rank ps)) = map (fun p => center_one Rnum qdt (fs (pi p)) p) share /\
  concat (map (map (fun p => uncenter_lane Rnum X qdt (fs (pi p)) p)) (vblocks k c P rank ps)) = map (fun p => uncenter_one Rnum qdt (fs (pi p)) p) share.
Proof.
  intros X qdt fs k c P rank ps HX Hk Hr HP Hn. pose proof (vblocks_share k c P rank ps Hk Hr HP Hn) as HS.
  destruct (distribute c (Z.of_nat (length ps)) 16 rank P) as [n0 n]. destruct HS as [HS _]. cbv zeta. rewrite <- HS, !concat_map.
  split; f_equal; apply map_ext; intros b; apply map_ext; intros p; [apply center_lane_eq|apply uncenter_lane_eq]; exact HX.
Qed.
Print Assumptions C67_center.

(* energy_p: the lanes' sums add up to the scalar pipeline's sum *)
Theorem C67_energy : forall X qdt msp fs k c P rank ps, exact_ops X -> In k [2; 3; 4]%nat -> 0 <= rank < P -> P < 2 ^ 31 -> Z.of_nat (length ps) < 2 ^ 31 ->
  venergy Rnum 0%R Rplus (fun x => x) (2 ^ k) qdt msp fs (vblocks k c P rank ps) =
  energy_seg 0%R Rplus c (Z.of_nat (length ps)) P
    (fun i => match nth_error ps (Z.to_nat i) with Some p => energy_one Rnum qdt msp (fs (pi p)) p | None => 0%R end) rank.
Proof.
  intros X qdt msp fs k c P rank ps HX Hk Hr HP Hn. pose proof (vblocks_share k c P rank ps Hk Hr HP Hn) as HS.
  destruct (distribute_ok c (Z.of_nat (length ps)) 16 P ltac:(lia) ltac:(lia) ltac:(lia)) as (HD & _ & _). specialize (HD rank ltac:(lia)).
  unfold energy_seg. destruct (distribute c (Z.of_nat (length ps)) 16 rank P) as [n0 n] eqn:ED. destruct HS as [HS HL]. destruct HD as (H0 & H1 & H2 & _).
  rewrite (venergy_sum X HX) by exact HL. rewrite HS.
  pose proof (range_nth ps (fun e p => (e + energy_one Rnum qdt msp (fs (pi p)) p)%R) (Z.to_nat n) n0 0%R H0 ltac:(lia)) as HR.
  rewrite Z2Nat.id in HR by exact H1. rewrite fold_plus_map, Rplus_0_l in HR. rewrite <- HR.
  assert (G : forall l x, fold_left (fun b i => match nth_error ps (Z.to_nat i) with Some p => (b + energy_one Rnum qdt msp (fs (pi p)) p)%R | None => b end) l x =
    fold_left (fun en i => (en + match nth_error ps (Z.to_nat i) with Some p => energy_one Rnum qdt msp (fs (pi p)) p | None => 0%R end)%R) l x); [|apply G].
  induction l as [|i l IH]; intros x; [reflexivity|]. cbn [fold_left]. rewrite IH.
  destruct (nth_error ps (Z.to_nat i)); [reflexivity|rewrite Rplus_0_r; reflexivity].
Qed.
Print Assumptions C67_energy.

(* accumulate_hydro_p: every member of every hydro element; the two words of padding stay; no increment leaves its element *)
Theorem C67_hydro : forall X nx ny nz h fs k c P rank ps, exact_ops X -> In k [2; 3; 4]%nat -> 0 <= rank < P -> P < 2 ^ 31 -> Z.of_nat (length ps) < 2 ^ 31 ->
  let inc := vhydro Rnum X k nx ny h fs (vblocks k c P rank ps) in
  (forall (H : Z -> nat -> R) v m, apply_incrs Rnum inc H v (hyd_word m) =
     hydro_seg Rnum (2 / 5)%R c P rank nx ny nz h fs ps (fun mv => H (snd mv) (hyd_word (fst mv))) (m, v)) /\
  (forall H v w, (14 <= w)%nat -> apply_incrs Rnum inc H v w = H v w) /\
  (forall x, In x inc -> inside 16 x).
Proof.
  intros X nx ny nz h fs k c P rank ps HX Hk Hr HP Hn. pose proof (vblocks_share k c P rank ps Hk Hr HP Hn) as HS.
  destruct (distribute_ok c (Z.of_nat (length ps)) 16 P ltac:(lia) ltac:(lia) ltac:(lia)) as (HD & _ & _). specialize (HD rank ltac:(lia)).
  cbv zeta. split; [|split].
  - intros H v m. unfold hydro_seg. destruct (distribute c (Z.of_nat (length ps)) 16 rank P) as [n0 n] eqn:ED. destruct HS as [HS HL]. destruct HD as (H0 & H1 & H2 & _).
    rewrite apply_incrs_sum, (vhydro_sum X nx ny h fs k _ v (hyd_word m) Hk), HS.
    pose proof (range_nth ps (fun H p => fold_left (hydro_add Rnum) (hydro_one Rnum (2 / 5)%R nx ny nz h fs p) H) (Z.to_nat n) n0 (fun mv => H (snd mv) (hyd_word (fst mv))) H0 ltac:(lia)) as HR.
    rewrite Z2Nat.id in HR by exact H1. rewrite HR, fold_hydro_sum. cbn [fst snd]. f_equal. apply sumR_ext. intros p _. apply corner_sum. exact HX.
  - intros H v w Hw. rewrite apply_incrs_sum, (vhydro_sum X nx ny h fs k _ v w Hk).
    rewrite (sumR_ext _ (fun _ => 0%R)); [rewrite sumR_zero; lra|]. intros p _. rewrite (sumR_ext _ (fun _ => 0%R)); [apply sumR_zero|].
    intros c' _. unfold at_streak, corner_row. cbn [fst snd]. rewrite hydro_row_pad by exact Hw. destruct (v =? _); reflexivity.
  - apply vhydro_inside. exact Hk.
Qed.
Print Assumptions C67_hydro.

(* One Newton step on an estimate with relative error d leaves the error -3/2 d^2 - 1/2 d^3 (rsqrt) and -d^2 (rcp): the refinement of the SSE, AVX and
   AVX-512 classes squares the error of the instruction. *)
Theorem C67_newton : forall a d, (0 < a)%R ->
  newton_rsqrt Rnum a ((1 + d) / sqrt a)%R = ((1 - 3 / 2 * d * d - / 2 * d * d * d) / sqrt a)%R /\
  newton_rcp Rnum a ((1 + d) / a)%R = ((1 - d * d) / a)%R.
Proof.
  intros a d Ha. unfold newton_rsqrt, newton_rcp. cbn [n_add n_sub n_mul n_half Rnum].
  assert (Hs : (0 < sqrt a)%R) by (apply sqrt_lt_R0; exact Ha). split; [|field; lra].
  assert (E : a = (sqrt a * sqrt a)%R) by (symmetry; apply sqrt_sqrt; lra). revert Hs E. generalize (sqrt a). intros t Hs ->. field. lra.
Qed.
Print Assumptions C67_newton.

(* binary32: the streak is cut where the scalar move_p cuts it.  For a run of move_p all of whose passes are calm, the vector move_p leaves bit for
   bit the same particle, voxel, momentum, outcome and remaining displacement, with streaks through the same voxels. *)
Theorem C67_move_p_binary32 : forall fuel g qsp p disp, calm_run fuel g (pd p) (pi p) disp = true ->
  same_path (vmove_p Fnum Fops fuel g qsp p disp) (move_p Fnum fuel g qsp p disp).
Proof. exact calm_move. Qed.
Print Assumptions C67_move_p_binary32.
(* the shift of the denominator changes nothing once the displacement is at least 2^-99 *)
Theorem C67_shift_absorbed : forall (d : b32), is_finite d = true -> (bpow radix2 (-99) <= Rabs (B2R32 d) <= bpow radix2 125)%R -> o_den Fops d = f_add d d.
Proof. intros d Fd Hd. apply (den_ok d (B2R32 d)); [split; [exact Fd|reflexivity]|exact Hd]. Qed.
Print Assumptions C67_shift_absorbed.

(* On a face and with zero displacement across it the two differ: from the middle of the +x face of voxel 1, moving along y, the vector move_p puts
   the particle into voxel 2 (dx = -1); the scalar one leaves it in voxel 1 (dx = 1).  With a reflecting face the vector move_p also reverses ux. *)
Definition ex_nbr (x : Z) : list Z := repeat (-2) 6 ++ [-2; -2; -2; x; 1; -2] ++ [1; -2; -2; -2; 2; -2].
Definition ex_row (x : Z) : mesh := mk_mesh (ex_nbr x) 0 2.
Definition ex_h : b32 := n_half Fnum.
Definition ex_f (m e : Z) : b32 := binary_normalize 24 128 prec_gt_0_32 prec_lt_emax_32 mode_NE m e false.
Definition ex_part : part b32 := mkp (mkv (f_of_Z 1) (f_of_Z 0) (f_of_Z 0)) 1 (mkv (f_of_Z 1) (f_of_Z 1) (f_of_Z 0)) (f_of_Z 1).
Definition ex_end (r : mres (V := b32)) : option (bool * Z * list (SpecFloat.spec_float) * SpecFloat.spec_float) :=
  match r with MDone s p _ _ => Some (s, pi p, map B2SF [vx (pd p); vy (pd p); vz (pd p)], B2SF (vx (pu p))) | _ => None end.
Theorem C67_on_face_refuted : exists p disp, f_le (vx (pd p)) (f_of_Z 1) = true /\ f_eq (vx disp) (f_of_Z 0) = true /\
  match vmove_p Fnum Fops 5 (ex_row 2) (f_of_Z 1) p disp, move_p Fnum 5 (ex_row 2) (f_of_Z 1) p disp with
  | MDone false pv _ lv, MDone false ps _ ls => pi pv = 2 /\ pi ps = 1 /\ f_eq (vx (pd pv)) (f_of_Z (-1)) = true /\ f_eq (vx (pd ps)) (f_of_Z 1) = true /\
      length lv = 2%nat /\ length ls = 1%nat
  | _, _ => False
  end /\
  match vmove_p Fnum Fops 5 (ex_row (-1)) (f_of_Z 1) p disp, move_p Fnum 5 (ex_row (-1)) (f_of_Z 1) p disp with
  | MDone false pv _ _, MDone false ps _ _ => f_eq (vx (pu ps)) (f_of_Z 1) = true /\ f_eq (vx (pu pv)) (f_of_Z (-1)) = true
  | _, _ => False
  end.
Proof. exists ex_part, (mkv (f_of_Z 0) (ex_f 1 (-2)) (f_of_Z 0)). vm_compute. repeat split. Qed.
Print Assumptions C67_on_face_refuted.

(* a calm run in binary32: out of voxel 1 through its +x face with a displacement of one, and along z by less than 2^-99 *)
Definition ex_p32 : part b32 := mkp (mkv ex_h (ex_f 1 (-2)) (ex_f 1 (-3))) 1 (mkv (f_of_Z 1) (f_of_Z 0) (f_of_Z 0)) (f_of_Z 3).
Definition ex_d32 : vec b32 := mkv (ex_f 3 (-2)) (ex_f 1 (-4)) (ex_f 1 (-110)).
Example C67_example_binary32 : calm_run 5 (ex_row 2) (pd ex_p32) (pi ex_p32) ex_d32 = true /\
  ex_end (vmove_p Fnum Fops 5 (ex_row 2) (f_of_Z 2) ex_p32 ex_d32) = ex_end (move_p Fnum 5 (ex_row 2) (f_of_Z 2) ex_p32 ex_d32) /\
  match move_p Fnum 5 (ex_row 2) (f_of_Z 2) ex_p32 ex_d32 with MDone false p _ log => pi p = 2 /\ B2SF (vx (pd p)) = B2SF (f_of_Z 0) /\ map fst log = [1; 2] | _ => False end.
Proof. split; [vm_compute; reflexivity|]. split; [vm_compute; reflexivity|]. vm_compute. repeat split. Qed.
(* a division of 5 particles over 2 pipelines leaves all to the host; of 40 in fours, 4 and 4 blocks and 8 to the host *)
Example C67_example_shares : vblocks 2 false 2 0 (seq 0 5) = [] /\ map (@length nat) (vblocks 2 false 2 1 (seq 0 40)) = [4; 4; 4; 4]%nat /\
  map (@length nat) (vblocks 4 false 2 1 (seq 0 40)) = [16]%nat /\ concat (vblocks 3 false 2 1 (seq 0 40)) = seq 16 16 /\
  skipn (Z.to_nat (fst (distribute false 40 16 2 2))) (seq 0 40) = seq 32 8.
Proof. vm_compute. repeat split. Qed.
(* operations as exact_ops asks for exist *)
Definition ex_ops : vops R := mk_vops (fun x => if Rle_dec 0 x then 1 else -1)%R (fun x => if Req_EM_T x 0 then tiny else 2 * x)%R (fun x => 1 / sqrt x)%R (fun x => 1 / x)%R.
Example C67_example_ops : exact_ops ex_ops.
Proof.
  unfold exact_ops, ex_ops. cbn [o_sgn o_den o_rsqrt o_rcp]. repeat split; intros; try reflexivity.
  - destruct (Rle_dec 0 x); lra.
  - destruct (Rle_dec 0 x); lra.
  - left. destruct (Rle_dec 0 0); lra.
  - destruct (Req_EM_T x 0); lra.
  - destruct (Req_EM_T 0 0), (Rle_dec 0 0); lra.
Qed.
(* an accumulator row of the 8-wide kernel: two increments of eight words *)
Example C67_example_incs : vincs (groups_j 3) [(7, seq 0 16); (9, seq 20 16)] = [(7, 0%nat, seq 0 8); (9, 0%nat, seq 20 8); (7, 8%nat, seq 8 8); (9, 8%nat, seq 28 8)].
Proof. reflexivity. Qed.
(* SSE's estimate is off by at most 1.5*2^-12: after the step by less than 2^-22 *)
Example C67_example_newton : forall d, (Rabs d <= 3 / 8192)%R -> (Rabs (3 / 2 * d * d + / 2 * d * d * d) < / 4194304)%R.
Proof.
  intros d H. assert (Hd : (- (3 / 8192) <= d <= 3 / 8192)%R) by (revert H; unfold Rabs; destruct (Rcase_abs d); lra).
  assert (0 <= d * d <= 9 / 67108864)%R by nra. assert (- (27 / 549755813888) <= d * d * d <= 27 / 549755813888)%R by (split; nra).
  apply Rabs_def1; lra.
Qed.
