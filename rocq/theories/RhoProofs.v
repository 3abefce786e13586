(* The charge densities after accumulation and synchronisation. *)
From Coq Require Import Reals Lra ZArith List Bool Lia ZifyBool Permutation.
From Verif Require Import SortModel SortProofs VoxelModel VoxelProofs GridModel GridProofs ParticleModel ParticleSpec ParticleProofs ParticleProofs2 KernelProofs MoverModel BoundaryProofs RemoveProofs
  FieldModel RemoteModel RemoteSpec RemoteProofs RemoteSync RemoteSum DecompSpec DecompProofs ChargeModel ChargeSpec ChargeProofs ChargeRounds ChargeStep
  CurrentSpec CurrentProofs CurrentCells CurrentSync RhoSpec.
Import ListNotations.
Open Scope Z_scope.
Ltac Zify.zify_post_hook ::= idtac.
Local Notation AT := RemoteModel.at_.
Local Notation axis := RemoteModel.axis.
Local Notation sumR := ParticleSpec.sumR.
Local Notation plane := KernelProofs.plane.

Lemma charge_ext sy sz phi psi q v d : (forall b1 b2 b3, phi (node sy sz v b1 b2 b3) = psi (node sy sz v b1 b2 b3)) -> charge sy sz phi q v d = charge sy sz psi q v d.
Proof. intros H. unfold charge, sum_bool. rewrite !H. reflexivity. Qed.
Lemma charge_sum {T} sy sz (phi : T -> Z -> R) l q v d : charge sy sz (fun m => sumR (map (fun x => phi x m) l)) q v d = sumR (map (fun x => charge sy sz (phi x) q v d) l).
Proof.
  induction l as [|x l IH]; cbn [map].
  - unfold charge, sum_bool, ParticleSpec.sumR. cbn [fold_right]. ring.
  - rewrite sumR_cons, <- IH. unfold charge, sum_bool. rewrite !sumR_cons. ring.
Qed.
Lemma charge_scale sy sz k phi q v d : charge sy sz (fun m => (k * phi m)%R) q v d = (k * charge sy sz phi q v d)%R.
Proof. unfold charge, sum_bool. ring. Qed.

Section Rank.
Variable L : layout R.
Hypothesis OK : layout_ok L.
Variable pos : Z -> cell.
Variable r : Z.
Hypothesis Hp : inside L (pos r).
Notation n := (size_at L (pos r)).
Notation sy := (stride_y L pos r).
Notation sz := (stride_z L pos r).

Lemma charge_nodes g q v d : in_rank L pos r v ->
  sumR (map (fun e => (A L pos r g e * charge sy sz (ind (vox3 n e)) q v d)%R) (nodes n)) = charge sy sz (seen L pos (at_node L g) r) q v d.
Proof.
  intros (c & Hc & ->).
  rewrite (sum_ext (fun e => (A L pos r g e * charge sy sz (ind (vox3 n e)) q (vox3 n c) d)%R) (fun e => charge sy sz (fun m => (A L pos r g e * ind (vox3 n e) m)%R) q (vox3 n c) d))
    by (intros e _; symmetry; apply charge_scale).
  rewrite <- charge_sum. apply charge_ext. intros b1 b2 b3.
  rewrite (seen_corner L OK pos (at_node L g) r c b1 b2 b3 Hp Hc).
  assert (B : forall b, 0 <= Z.b2z b <= 1) by (intros []; cbn; lia).
  pose proof (B b1) as B1. pose proof (B b2) as B2. pose proof (B b3) as B3.
  replace (node sy sz (vox3 n c) b1 b2 b3) with (vox3 n (shift c (Z.b2z b1) (Z.b2z b2) (Z.b2z b3))) by (rewrite (vox_shift L pos r); unfold node; ring).
  set (q1 := shift c (Z.b2z b1) (Z.b2z b2) (Z.b2z b3)).
  assert (I1 : in3 n q1) by (apply real_in3; [exact Hc| | |]; lia).
  assert (N1 : In q1 (nodes n)).
  { apply in_nodes. intros a. unfold q1. rewrite at_shift. specialize (Hc a). rewrite <- (at_size L pos r) in Hc. destruct a; lia. }
  rewrite (sum_pick _ q1 (nodes n) (nodup_nodes n) N1).
  - unfold A, ind. rewrite Z.eqb_refl. lra.
  - intros q2 H2 N2. unfold ind. destruct (vox3 n q2 =? vox3 n q1) eqn:E; [|lra]. exfalso. apply N2. apply (vox3_inj n); [apply (size_pos L OK), Hp| |exact I1|lia].
    apply in3_at. intros a. pose proof (proj1 (in_nodes n q2) H2 a). lia.
Qed.

(* what the rank's own particles put at node e *)
Definition species_at (e : cell) (s : spec (V := R)) : R := sumR (map (fun p => charge sy sz (ind (vox3 n e)) (s_q s * pw p) (pi p) (pd p)) (s_p s)).
Lemma own_rhof_sum rd ss e : own_rhof L pos rd r ss (vox3 n e) = (vx rd * vy rd * vz rd * sumR (map (species_at e) ss))%R.
Proof.
  unfold own_rhof. rewrite apply_adds_sum, Rplus_0_l, <- sum_scale, sum_flat. apply sum_ext. intros s _. unfold accumulate_rho_p. rewrite sum_flat.
  unfold species_at. rewrite <- sum_scale. apply sum_ext. intros p _. rewrite rho_adds_charge. unfold inv_8V. field.
Qed.
Lemma rank_nodes g ss : Forall (fun s => s_pm s = []) ss -> Forall (placed L pos r) ss ->
  sumR (map (fun e => (A L pos r g e * sumR (map (species_at e) ss))%R) (nodes n)) = rank_charge L pos (at_node L g) r ss.
Proof.
  intros HN HP. unfold rank_charge.
  rewrite (sum_ext (fun e => (A L pos r g e * sumR (map (species_at e) ss))%R) (fun e => sumR (map (fun s => (A L pos r g e * species_at e s)%R) ss))) by (intros e _; symmetry; apply sum_scale).
  rewrite sum_swap. apply sum_ext. intros s Hs. rewrite Forall_forall in HN, HP. specialize (HN s Hs). specialize (HP s Hs). destruct s as [q0 p0 m0]. cbn [s_pm] in HN. subst m0.
  rewrite species_plain. unfold species_at. cbn [s_q s_p].
  rewrite (sum_ext (fun e => (A L pos r g e * sumR (map (fun p => charge sy sz (ind (vox3 n e)) (q0 * pw p) (pi p) (pd p)) p0))%R)
                   (fun e => sumR (map (fun p => (A L pos r g e * charge sy sz (ind (vox3 n e)) (q0 * pw p) (pi p) (pd p))%R) p0))) by (intros e _; symmetry; apply sum_scale).
  rewrite sum_swap. apply sum_ext. intros p Hin. apply charge_nodes. exact (proj1 (placed_plain L pos r q0 p0) HP p Hin).
Qed.

(* the doubled deposits of accumulate_rhob *)
Definition dbl (e : cell) : R :=
  (plane (AT RemoteModel.AX n) (AT RemoteModel.AX e) * plane (AT RemoteModel.AY n) (AT RemoteModel.AY e) * plane (AT RemoteModel.AZ n) (AT RemoteModel.AZ e))%R.
Lemma eight {T} (l : list T) x0 x1 x2 x3 x4 x5 x6 x7 : length l = 8%nat -> nth_error l 0 = Some x0 -> nth_error l 1 = Some x1 -> nth_error l 2 = Some x2 -> nth_error l 3 = Some x3 ->
  nth_error l 4 = Some x4 -> nth_error l 5 = Some x5 -> nth_error l 6 = Some x6 -> nth_error l 7 = Some x7 -> l = [x0; x1; x2; x3; x4; x5; x6; x7].
Proof.
  destruct l as [|a0 [|a1 [|a2 [|a3 [|a4 [|a5 [|a6 [|a7 [|a8 l]]]]]]]]]; try discriminate. intros _. cbn [nth_error]. congruence.
Qed.
Lemma rhob_at e qsp r8V p : In e (nodes n) -> in_rank L pos r (pi p) ->
  sumR (map (fun x => (ind (vox3 n e) (fst x) * snd x)%R) (rhob_adds Rnum (AT RemoteModel.AX n) (AT RemoteModel.AY n) (AT RemoteModel.AZ n) qsp r8V p)) =
  (dbl e * (8 * r8V * charge sy sz (ind (vox3 n e)) (qsp * pw p) (pi p) (pd p)))%R.
Proof.
  intros He (c & Hc & Ep). destruct c as [[x y] z]. pose proof (Hc RemoteModel.AX) as X. pose proof (Hc RemoteModel.AY) as Y. pose proof (Hc RemoteModel.AZ) as Z'. cbn [RemoteModel.at_] in X, Y, Z'.
  rewrite <- (at_size L pos r RemoteModel.AX) in X. rewrite <- (at_size L pos r RemoteModel.AY) in Y. rewrite <- (at_size L pos r RemoteModel.AZ) in Z'.
  assert (SY : sy_of (AT RemoteModel.AX n) = sy) by reflexivity.
  assert (SZ : sz_of (AT RemoteModel.AX n) (AT RemoteModel.AY n) = sz) by (unfold sz_of, sy_of, stride_z, size_at; cbn [RemoteModel.at_]; ring).
  assert (NT : forall b1 b2 b3, nth_error (rhob_adds Rnum (AT RemoteModel.AX n) (AT RemoteModel.AY n) (AT RemoteModel.AZ n) qsp r8V p) (corner_no b1 b2 b3) =
    Some (node sy sz (pi p) b1 b2 b3, (plane (AT RemoteModel.AX n) (x + Z.b2z b1) * plane (AT RemoteModel.AY n) (y + Z.b2z b2) * plane (AT RemoteModel.AZ n) (z + Z.b2z b3)
       * (8 * r8V * (qsp * pw p) * corner_share (pd p) b1 b2 b3))%R)) 
    by (intros b1 b2 b3; pose proof (rhob_adds_nth _ _ _ qsp r8V p x y z b1 b2 b3 X Y Z' Ep) as NT; rewrite SY, SZ in NT; exact NT).
  assert (TT : forall b1 b2 b3 k, (ind (vox3 n e) (node sy sz (pi p) b1 b2 b3) * (plane (AT RemoteModel.AX n) (x + Z.b2z b1) * plane (AT RemoteModel.AY n) (y + Z.b2z b2) * plane (AT RemoteModel.AZ n) (z + Z.b2z b3) * k)
     = dbl e * (ind (vox3 n e) (node sy sz (pi p) b1 b2 b3) * k))%R).
  { intros b1 b2 b3 k. unfold ind. destruct (vox3 n e =? node sy sz (pi p) b1 b2 b3) eqn:E; [|ring].
    assert (e = shift (x, y, z) (Z.b2z b1) (Z.b2z b2) (Z.b2z b3)) as ->.
    { apply (vox3_inj n).
      - apply (size_pos L OK), Hp.
      - apply in3_at. intros a. pose proof (proj1 (in_nodes n e) He a). lia.
      - apply real_in3; [exact Hc| | |]; [destruct b1|destruct b2|destruct b3]; cbn; lia.
      - rewrite (vox_shift L pos r), <- Ep. apply Z.eqb_eq in E. rewrite E. unfold node. ring. }
    unfold dbl. cbn [shift RemoteModel.at_]. ring. }
  assert (L8 : length (rhob_adds Rnum (AT RemoteModel.AX n) (AT RemoteModel.AY n) (AT RemoteModel.AZ n) qsp r8V p) = 8%nat).
  { assert (7 < length (rhob_adds Rnum (AT RemoteModel.AX n) (AT RemoteModel.AY n) (AT RemoteModel.AZ n) qsp r8V p))%nat as LB.
    { apply nth_error_Some. pose proof (NT true true true) as E. cbn [corner_no Nat.b2n Nat.add Nat.mul] in E. rewrite E. discriminate. }
    unfold rhob_adds in *. rewrite combine_length in *. unfold corners in *. cbn [length] in *. lia. }
  erewrite (eight (rhob_adds Rnum (AT RemoteModel.AX n) (AT RemoteModel.AY n) (AT RemoteModel.AZ n) qsp r8V p));
    [|exact L8|apply (NT false false false)|apply (NT true false false)|apply (NT false true false)|apply (NT true true false)|apply (NT false false true)|apply (NT true false true)|apply (NT false true true)|apply (NT true true true)].
  cbn [map fst snd]. rewrite !sumR_cons, !TT. unfold charge, sum_bool, corner_share, ParticleSpec.sumR. cbn [fold_right]. ring.
Qed.
Definition listed_at (e : cell) (s : spec (V := R)) : R :=
  sumR (map (fun m => match nth_error (s_p s) (Z.to_nat (m_i m)) with Some p => charge sy sz (ind (vox3 n e)) (s_q s * pw p) (pi p / 8) (pd p) | None => 0%R end) (s_pm s)).
Lemma drop_at e r8V : In e (nodes n) -> forall ss adds ss', Forall movers_ok ss -> Forall (placed L pos r) ss ->
  drop_all Rnum (AT RemoteModel.AX n) (AT RemoteModel.AY n) (AT RemoteModel.AZ n) r8V ss = Some (adds, ss') ->
  sumR (map (fun x => (ind (vox3 n e) (fst x) * snd x)%R) adds) = (dbl e * (8 * r8V * sumR (map (listed_at e) ss)))%R.
Proof.
  intros He. induction ss as [|s ss IH]; intros adds ss' HM HP; cbn [drop_all].
  - intros H. injection H as <- <-. unfold ParticleSpec.sumR. cbn. ring.
  - inversion HM as [|s0 ss0 (M1 & M2) HM2]; subst s0 ss0. inversion HP as [|s0 ss0 P1 P2]; subst s0 ss0. unfold drop_leftovers.
    destruct (remove_movers_spec (s_p s) _ M1 M2) as (ps' & E & _ & _). rewrite E.
    destruct (drop_all Rnum (AT RemoteModel.AX n) (AT RemoteModel.AY n) (AT RemoteModel.AZ n) r8V ss) as [[a2 s2]|] eqn:E2; [|discriminate].
    intros H. injection H as <- <-. rewrite sum_app', (IH _ _ HM2 P2 eq_refl). cbn [map]. rewrite sumR_cons, sum_flat.
    assert (EL : sumR (map (fun p => sumR (map (fun x => (ind (vox3 n e) (fst x) * snd x)%R) (rhob_adds Rnum (AT RemoteModel.AX n) (AT RemoteModel.AY n) (AT RemoteModel.AZ n) (s_q s) r8V (unshift p)))) (listed (s_p s) (rev (map m_i (s_pm s)))))
      = (dbl e * (8 * r8V * listed_at e s))%R); [|etransitivity; [exact (f_equal (fun t => (t + _)%R) EL)|ring]].
    rewrite (sum_mapperm _ _ _ (listed_rev_perm (s_p s) (map m_i (s_pm s)))). unfold listed, listed_at. rewrite <- !sum_scale, sum_flat, map_map. apply sum_ext. intros m Hm.
    destruct (nth_error (s_p s) (Z.to_nat (m_i m))) as [p|] eqn:En; cbn [map]; [|unfold ParticleSpec.sumR; cbn; ring].
    rewrite sumR_cons, rhob_at; [|exact He|].
    + unfold unshift. cbn [pw pi pd]. rewrite Z.shiftr_div_pow2 by lia. unfold ParticleSpec.sumR. cbn [fold_right]. change (2 ^ 3) with 8. ring.
    + specialize (P1 _ _ En). replace (existsb (Z.eqb (Z.of_nat (Z.to_nat (m_i m)))) (map m_i (s_pm s))) with true in P1.
      * unfold unshift. cbn [pi]. rewrite Z.shiftr_div_pow2 by lia. exact P1.
      * symmetry. apply existsb_exists. exists (m_i m). split; [apply in_map, Hm|]. specialize (M2 (m_i m) (in_map m_i _ _ Hm)). lia.
Qed.
Lemma listed_nodes g ss : Forall movers_ok ss -> Forall (placed L pos r) ss ->
  sumR (map (fun e => (A L pos r g e * sumR (map (listed_at e) ss))%R) (nodes n)) = listed_charge L pos (at_node L g) r ss.
Proof.
  intros HM HP. unfold listed_charge.
  rewrite (sum_ext (fun e => (A L pos r g e * sumR (map (listed_at e) ss))%R) (fun e => sumR (map (fun s => (A L pos r g e * listed_at e s)%R) ss))) by (intros e _; symmetry; apply sum_scale).
  rewrite sum_swap. apply sum_ext. intros s Hs. rewrite Forall_forall in HM, HP. specialize (HM s Hs). specialize (HP s Hs). destruct HM as (M1 & M2).
  unfold listed_at.
  rewrite (sum_ext (fun e => (A L pos r g e * sumR (map (fun m => match nth_error (s_p s) (Z.to_nat (m_i m)) with Some p => charge sy sz (ind (vox3 n e)) (s_q s * pw p) (pi p / 8) (pd p) | None => 0%R end) (s_pm s)))%R)
                   (fun e => sumR (map (fun m => (A L pos r g e * match nth_error (s_p s) (Z.to_nat (m_i m)) with Some p => charge sy sz (ind (vox3 n e)) (s_q s * pw p) (pi p / 8) (pd p) | None => 0%R end)%R) (s_pm s)))) by (intros e _; symmetry; apply sum_scale).
  rewrite sum_swap. apply sum_ext. intros m Hm. destruct (nth_error (s_p s) (Z.to_nat (m_i m))) as [p|] eqn:En.
  - unfold particle_charge. cbn [voxel_of]. apply charge_nodes. specialize (HP _ _ En). replace (existsb (Z.eqb (Z.of_nat (Z.to_nat (m_i m)))) (map m_i (s_pm s))) with true in HP; [exact HP|].
    symmetry. apply existsb_exists. exists (m_i m). split; [apply in_map, Hm|]. specialize (M2 (m_i m) (in_map m_i _ _ Hm)). lia.
  - apply sum_zero'. intros e _. ring.
Qed.
End Rank.

(* ---- synchronize_rho ---- *)
Section S.
Variable L : layout R.
Hypothesis OK : layout_ok L.
Variable pos : Z -> cell.
Variable num : cell -> Z.
Variable ws : Z.
Variable G : Z -> cgrid R.
Hypothesis HB : box L num ws G.
Hypothesis HI : forall r, 0 <= r < ws -> inside L (pos r) /\ num (pos r) = r.
Variable rd : vec R.
Hypothesis Hcells : equal_cells L rd.
Hypothesis Hpos : forall a i, 0 <= i < l_p L a -> (0 < l_d L a i)%R.

Lemma node_comp c a : fam SyncRho c = true -> node_on c a = true.
Proof. destruct c, a; cbn; congruence. Qed.
Lemma is_rho c : fam SyncRho c = true -> c = Rhof \/ c = Rhob.
Proof. destruct c; cbn; intros E; try discriminate E; auto. Qed.
Lemma held_nodes c p e : fam SyncRho c = true -> In e (nodes (size_at L p)) <-> holds L c p e.
Proof.
  intros Hf. rewrite in_nodes. unfold holds. split; intros H a; specialize (H a); rewrite ?(node_comp c a Hf) in *;
  replace (AT a (size_at L p)) with (l_n L a (AT a p)) in * by (destruct a; reflexivity); exact H.
Qed.
Definition count (c : comp) (p q : cell) : R := INR (length (mesh_copies L pos ws c p q)).
Lemma count_pos c p q : inside L p -> holds L c p q -> (0 < count c p q)%R.
Proof.
  intros Hp Hq. pose proof (mesh_copies_ok L OK pos num ws G HB HI c p q) as MC. apply lt_0_INR. set (cs := mesh_copies L pos ws c p q) in *.
  assert (In (p, q) cs) as I; [|destruct cs; [destruct I|cbn; lia]]. apply MC. split; [exact Hp|]. split; [exact Hq|]. intros a. destruct (l_per L a); [exists 0; lia|reflexivity].
Qed.
Lemma synced_rho c W1 W2 p q : fam SyncRho c = true -> run_phases R Rarith ws G SyncRho (phases SyncRho) W1 W2 -> inside L p -> holds L c p q ->
  W2 (num p) (c, vox3 (size_at L p) q) =
  ((if is_rhof c then 1 else / count c p q) *
   over_ranks ws (fun r => sumR (map (fun e => (A L pos r (gplace L p q) e * W1 r (c, vox3 (size_at L (pos r)) e))%R) (nodes (size_at L (pos r))))))%R.
Proof.
  intros Ff H Hp Hq. pose proof (mesh_copies_ok L OK pos num ws G HB HI c p q) as MC.
  pose proof (run_copies L num ws G OK HB SyncRho W1 W2 c (p, q) _ (or_intror Hpos) eq_refl Ff H (conj Hp Hq) MC) as E.
  pose proof (count_pos c p q Hp Hq) as Hne. unfold count in *.
  rewrite !rsum_sum in E. set (cs := mesh_copies L pos ws c p q) in *.
  assert (Ew : forall l, In l cs -> wt3 L SyncRho l = vol L p).
  { intros l Hl. apply MC in Hl. destruct Hl as (Hl & _). rewrite (vol_equal L rd Hcells p (fst l) Hp Hl). unfold wt3, wt, vol, coord. reflexivity. }
  rewrite (sum_ext (wt3 L SyncRho) (fun _ => (vol L p * 1)%R)) in E by (intros l Hl; rewrite (Ew l Hl); ring).
  rewrite (sum_ext (fun l' => (wt3 L SyncRho l' * val L num W1 c l')%R) (fun l' => (vol L p * val L num W1 c l')%R)) in E by (intros l Hl; rewrite (Ew l Hl); reflexivity).
  rewrite !sum_scale in E.
  assert (El : sumR (map (fun _ : loc => 1%R) cs) = INR (length cs)).
  { clear. induction cs as [|x l IH]; [reflexivity|]. cbn [map length]. rewrite sumR_cons, IH, S_INR. lra. }
  rewrite El in E. pose proof (vol_pos L Hpos p Hp) as V.
  assert (E' : val L num W2 c (p, q) = ((if is_rhof c then 1 else / INR (length cs)) * sumR (map (val L num W1 c) cs))%R).
  { apply (Rmult_eq_reg_r (vol L p * INR (length cs))%R); [|apply Rgt_not_eq, Rmult_lt_0_compat; assumption]. rewrite E.
    destruct (is_rho c Ff) as [-> | ->]; cbn [fac is_rhof]; [ring|]. field. lra. }
  change (W2 (num p) (c, vox3 (size_at L p) q)) with (val L num W2 c (p, q)). rewrite E'. f_equal.
  unfold cs, mesh_copies, over_ranks. rewrite sum_flat. apply sum_ext. intros r Hr. apply in_zrange in Hr. destruct (HI r ltac:(lia)) as (I1 & I2).
  rewrite map_map, sum_filter. apply sum_ext. intros q' Hq'.
  assert (EA : A L pos r (gplace L p q) q' = if same_node L (gplace L p q) (gplace L (pos r) q') then 1%R else 0%R) by reflexivity. rewrite EA.
  rewrite (proj2 (held_spec L c (pos r) q') (proj1 (held_nodes c (pos r) q' Ff) Hq')). cbn [andb].
  destruct (same_node L (gplace L p q) (gplace L (pos r) q')); [|lra]. rewrite Rmult_1_l. unfold val. cbn [fst snd]. rewrite I2. reflexivity.
Qed.

(* doubled planes = copies times walls *)
Lemma plane_axis a i x : 0 <= i < l_p L a -> 1 <= x <= l_n L a i + 1 ->
  plane (l_n L a i) x = (INR (length (along L Rhob a (i, x))) *
    (if negb (l_per L a) && ((before (l_n L a) (Z.to_nat i) + x =? 1) || (before (l_n L a) (Z.to_nat i) + x =? total L a + 1)) then 2 else 1))%R.
Proof.
  intros Hi Hx. destruct OK as [O1 O2]. pose proof (O2 a) as Hn.
  destruct (place_range (l_n L a) (l_p L a) Hn 1 (i, x) (or_intror eq_refl) (conj Hi Hx)) as (R1 & R2 & R3). unfold B in *. cbn [fst snd] in *.
  assert (T : total L a = before (l_n L a) (Z.to_nat (l_p L a))) by reflexivity. rewrite T.
  unfold along, other. cbn [node_on]. unfold partner. unfold partner1. unfold KernelProofs.plane.
  assert (E0 : i = 0 -> x = 1 -> before (l_n L a) (Z.to_nat i) + x = 1) by (intros -> ->; reflexivity).
  assert (E1 : i = l_p L a - 1 -> x = l_n L a i + 1 -> before (l_n L a) (Z.to_nat i) + x = before (l_n L a) (Z.to_nat (l_p L a)) + 1).
  { intros Ei ->. pose proof (B_succ (l_n L a) i ltac:(lia)) as S. unfold B in S. replace (i + 1) with (l_p L a) in S by lia. lia. }
  pose proof (Hn i Hi) as Ni.
  assert (R2' : before (l_n L a) (Z.to_nat i) + x = 1 -> i = 0 /\ x = 1) by (intros E; specialize (R2 E); injection R2; auto).
  assert (R3' : before (l_n L a) (Z.to_nat i) + x = before (l_n L a) (Z.to_nat (l_p L a)) + 1 -> i = l_p L a - 1 /\ x = l_n L a i + 1)
    by (intros E; specialize (R3 E); injection R3 as -> ->; auto).
  destruct (Z.eqb_spec x (l_n L a i + 1)) as [X|X]; destruct (Z.eqb_spec x 1) as [X1|X1]; try lia.
  - unfold beside1. destruct ((0 <=? i + 1) && (i + 1 <? l_p L a)) eqn:Eb.
    + replace (before (l_n L a) (Z.to_nat i) + x =? 1) with false by lia.
      replace (before (l_n L a) (Z.to_nat i) + x =? before (l_n L a) (Z.to_nat (l_p L a)) + 1) with false by lia. rewrite andb_false_r. cbn [length INR]. lra.
    + destruct (l_per L a); cbn [negb andb length INR]; [lra|]. rewrite (proj2 (Z.eqb_eq _ _) (E1 ltac:(lia) X)), orb_true_r. lra.
  - unfold beside1. destruct ((0 <=? i + -1) && (i + -1 <? l_p L a)) eqn:Eb.
    + replace (before (l_n L a) (Z.to_nat i) + x =? 1) with false by lia.
      replace (before (l_n L a) (Z.to_nat i) + x =? before (l_n L a) (Z.to_nat (l_p L a)) + 1) with false by lia. rewrite andb_false_r. cbn [length INR]. lra.
    + destruct (l_per L a); cbn [negb andb length INR]; [lra|]. rewrite (proj2 (Z.eqb_eq _ _) (E0 ltac:(lia) X1)). cbn [orb]. lra.
  - replace (before (l_n L a) (Z.to_nat i) + x =? 1) with false by lia.
    replace (before (l_n L a) (Z.to_nat i) + x =? before (l_n L a) (Z.to_nat (l_p L a)) + 1) with false by lia. rewrite andb_false_r. cbn [length INR]. lra.
Qed.
Lemma dbl_count p q r e : inside L p -> holds L Rhob p q -> 0 <= r < ws -> In e (nodes (size_at L (pos r))) -> same_node L (gplace L p q) (gplace L (pos r) e) = true ->
  dbl L pos r e = (count Rhob p q * halves L (gplace L p q))%R.
Proof.
  intros Hp Hq Hr He Hs. destruct (HI r Hr) as (I1 & _). apply same_node_spec in Hs; [|exact OK].
  pose proof (proj1 (held_nodes Rhob (pos r) e eq_refl) He) as He'.
  assert (C : copies_of L Rhob (pos r, e) (mesh_copies L pos ws Rhob p q)).
  { destruct (mesh_copies_ok L OK pos num ws G HB HI Rhob p q) as (N & M). split; [exact N|]. intros l'. rewrite M.
    assert (K : same_place L (p, q) l' <-> same_place L (pos r, e) l'); [|tauto].
    unfold same_place in *. split; intros H a; specialize (H a); specialize (Hs a); destruct (l_per L a); try congruence; destruct H as (k & Hk), Hs as (j & Hj).
    - exists (k - j). lia.
    - exists (k + j). lia. }
  apply copies_perm in C; [|exact OK|exact (conj I1 He')]. apply Permutation_length in C. unfold count. rewrite C, every_len, !mult_INR.
  assert (K : forall a, plane (AT a (size_at L (pos r))) (AT a e) = (INR (length (along L Rhob a (coord a (pos r, e)))) * (if on_wall L a (gplace L p q) then 2 else 1))%R).
  { intros a. replace (AT a (size_at L (pos r))) with (l_n L a (AT a (pos r))) by (destruct a; reflexivity).
    rewrite (plane_axis a (AT a (pos r)) (AT a e) (I1 a) ltac:(specialize (He' a); cbn [node_on] in He'; exact He')). unfold coord. cbn [fst snd]. f_equal. unfold on_wall.
    destruct (l_per L a) eqn:Ea; [reflexivity|]. cbn [negb andb]. rewrite at_gplace. specialize (Hs a). rewrite Ea in Hs. cbn [fst snd] in Hs. rewrite <- Hs. reflexivity. }
  unfold dbl, halves. rewrite !K. ring.
Qed.
Lemma ones p q : inside L p -> holds L Rhob p q ->
  over_ranks ws (fun r => sumR (map (A L pos r (gplace L p q)) (nodes (size_at L (pos r))))) = count Rhob p q.
Proof.
  intros Hp Hq. unfold count, mesh_copies, over_ranks.
  assert (El : forall cs : list loc, INR (length cs) = sumR (map (fun _ : loc => 1%R) cs)).
  { clear. induction cs as [|x l IH]; [reflexivity|]. cbn [map length]. rewrite sumR_cons, <- IH, S_INR. lra. }
  etransitivity; [|symmetry; apply El]. rewrite sum_flat. apply sum_ext. intros r Hr. rewrite map_map, sum_filter. apply sum_ext. intros e He.
  rewrite (proj2 (held_spec L Rhob (pos r) e) (proj1 (held_nodes Rhob (pos r) e eq_refl) He)). reflexivity.
Qed.
Lemma over_scale k f : over_ranks ws (fun r => (k * f r)%R) = (k * over_ranks ws f)%R.
Proof. apply sum_scale. Qed.

(* rhof *)
Lemma free_density SS W W1 W2 p q : (forall r, 0 <= r < ws -> Forall (fun s => s_pm s = []) (SS r) /\ Forall (placed L pos r) (SS r)) ->
  accumulated L pos ws rd SS W W1 -> run_phases R Rarith ws G SyncRho (phases SyncRho) W1 W2 -> inside L p -> holds L Rhof p q ->
  W2 (num p) (Rhof, vox3 (size_at L p) q) = (vx rd * vy rd * vz rd * world_charge L pos ws (at_node L (gplace L p q)) SS)%R.
Proof.
  intros HS HA H Hp Hq. rewrite (synced_rho Rhof W1 W2 p q eq_refl H Hp Hq). cbn [is_rhof]. rewrite Rmult_1_l. unfold world_charge. rewrite <- over_scale.
  apply over_ext. intros r Hr. destruct (HI r Hr) as (I1 & _). destruct (HS r Hr) as (S1 & S2).
  rewrite <- (rank_nodes L OK pos r I1 (gplace L p q) (SS r) S1 S2), <- sum_scale. apply sum_ext. intros e He.
  pose proof (HA r Rhof e Hr (proj1 (held_nodes Rhof (pos r) e eq_refl) He)) as U. cbv zeta in U. cbn [is_rhof] in U. rewrite U, own_rhof_sum. ring.
Qed.

(* rhob: B holds the density before the deposits *)
Lemma bound_density SS adds SS' B0 W W1 W2 p q : (forall r, 0 <= r < ws -> Forall movers_ok (SS r) /\ Forall (placed L pos r) (SS r)) ->
  (forall r, 0 <= r < ws -> let '(nx, ny, nz) := size_at L (pos r) in drop_all Rnum nx ny nz (inv_8V rd) (SS r) = Some (adds r, SS' r)) ->
  repeats L B0 -> (forall p q, inside L p -> holds L Rhob p q -> W (num p) (Rhob, vox3 (size_at L p) q) = B0 (gplace L p q)) ->
  (forall r e, 0 <= r < ws -> holds L Rhob (pos r) e -> let v := vox3 (size_at L (pos r)) e in W1 r (Rhob, v) = apply_adds Rnum (adds r) (fun u => W r (Rhob, u)) v) ->
  run_phases R Rarith ws G SyncRho (phases SyncRho) W1 W2 -> inside L p -> holds L Rhob p q ->
  W2 (num p) (Rhob, vox3 (size_at L p) q) =
    (B0 (gplace L p q) + halves L (gplace L p q) * (vx rd * vy rd * vz rd * over_ranks ws (fun r => listed_charge L pos (at_node L (gplace L p q)) r (SS r))))%R.
Proof.
  intros HS HD HR HW HA H Hp Hq. rewrite (synced_rho Rhob W1 W2 p q eq_refl H Hp Hq). cbn [is_rhof]. pose proof (count_pos Rhob p q Hp Hq) as Cp. set (g := gplace L p q) in *.
  assert (E : over_ranks ws (fun r => sumR (map (fun e => (A L pos r g e * W1 r (Rhob, vox3 (size_at L (pos r)) e))%R) (nodes (size_at L (pos r))))) =
    (B0 g * count Rhob p q + count Rhob p q * halves L g * (vx rd * vy rd * vz rd) * over_ranks ws (fun r => listed_charge L pos (at_node L g) r (SS r)))%R).
  { rewrite <- (ones p q Hp Hq) at 1. fold g. rewrite <- !over_scale, <- over_plus. apply over_ext. intros r Hr. destruct (HI r Hr) as (I1 & I2). destruct (HS r Hr) as (S1 & S2).
    rewrite <- (listed_nodes L OK pos r I1 g (SS r) S1 S2), <- !sum_scale, <- sum_plus. apply sum_ext. intros e He.
    pose proof (proj1 (held_nodes Rhob (pos r) e eq_refl) He) as He'. rewrite (HA r e Hr He'), apply_adds_sum.
    pose proof (HD r Hr) as D. rewrite (drop_at L OK pos r I1 e (inv_8V rd) He (SS r) (adds r) (SS' r) S1 S2 D).
    assert (EA : A L pos r g e = if same_node L g (gplace L (pos r) e) then 1%R else 0%R) by reflexivity. rewrite EA.
    destruct (same_node L g (gplace L (pos r) e)) eqn:Es; [|ring].
    rewrite (dbl_count p q r e Hp Hq Hr He Es). fold g. pose proof (HW (pos r) e I1 He') as U. rewrite I2 in U. rewrite U.
    assert (EB : B0 (gplace L (pos r) e) = B0 g); [|rewrite EB; unfold inv_8V; field].
    apply (repeats_same L B0 g (gplace L (pos r) e) HR). apply same_node_spec in Es; [|exact OK]. intros a. specialize (Es a). cbn [fst snd] in Es. unfold g. rewrite !at_gplace. destruct (l_per L a); [exact Es|]. apply Z.sub_move_0_r. exact Es. }
  rewrite E. field. lra.
Qed.
End S.
