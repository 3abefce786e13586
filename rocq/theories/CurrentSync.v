(* synchronize_jf adds the currents of all ranks up. *)
From Coq Require Import Reals Lra ZArith List Bool Lia ZifyBool Permutation.
From Verif Require Import SortModel SortProofs VoxelModel VoxelProofs GridModel GridProofs ParticleModel ParticleSpec ParticleProofs MoverModel
  FieldModel RemoteModel RemoteSpec RemoteProofs RemoteSync RemoteSum DecompSpec DecompProofs ChargeSpec ChargeProofs CurrentSpec CurrentProofs.
Import ListNotations.
Open Scope Z_scope.
Ltac Zify.zify_post_hook ::= idtac.
Local Notation AT := RemoteModel.at_.
Local Notation axis := RemoteModel.axis.
Local Notation sumR := ParticleSpec.sumR.
Local Notation sum_app' := CurrentProofs.sum_app'.

Lemma rsum_sum {T} (f : T -> R) l : RemoteSum.sumR f l = sumR (map f l).
Proof. induction l as [|x l IH]; [reflexivity|]. cbn [RemoteSum.sumR map]. rewrite sumR_cons, <- IH. reflexivity. Qed.

Section S.
Variable L : layout R.
Hypothesis OK : layout_ok L.
Variable pos : Z -> cell.
Variable num : cell -> Z.
Variable ws : Z.
Variable G : Z -> cgrid R.
Hypothesis HB : box L num ws G.
Hypothesis HI : forall r, 0 <= r < ws -> inside L (pos r) /\ num (pos r) = r.

Lemma before_pos a k : (Z.of_nat k <= l_p L a) -> Z.of_nat k <= before (l_n L a) k.
Proof. destruct OK as [_ H]. induction k as [|k IH]; intros Hk; cbn [before]; [lia|]. specialize (IH ltac:(lia)). specialize (H a (Z.of_nat k) ltac:(lia)). lia. Qed.
Lemma total_positive a : 0 < total L a.
Proof. unfold total. destruct OK as [H _]. specialize (H a). pose proof (before_pos a (Z.to_nat (l_p L a)) ltac:(lia)). lia. Qed.
Definition same_node (g g' : cell) : bool := same_along L RemoteModel.AX g g' && same_along L RemoteModel.AY g g' && same_along L RemoteModel.AZ g g'.
Lemma same_along_spec a g g' : same_along L a g g' = true <-> (if l_per L a then (total L a | AT a g' - AT a g) else AT a g' = AT a g).
Proof.
  unfold same_along. pose proof (total_positive a). destruct (l_per L a); [|lia]. rewrite Z.eqb_eq. apply Z.mod_divide. lia.
Qed.
Lemma same_node_spec p q p' q' : same_node (gplace L p q) (gplace L p' q') = true <-> same_place L (p, q) (p', q').
Proof.
  unfold same_node, same_place. rewrite !andb_true_iff, !same_along_spec, !at_gplace. cbn [fst snd]. split.
  - intros ((H1 & H2) & H3) a. destruct a; [exact H1|exact H2|exact H3].
  - intros H. split; [split|]; apply H.
Qed.
Definition held (c : comp) (p q : cell) : bool :=
  forallb (fun a => (1 <=? AT a q) && (AT a q <=? l_n L a (AT a p) + (if node_on c a then 1 else 0))) [RemoteModel.AX; RemoteModel.AY; RemoteModel.AZ].
Lemma held_spec c p q : held c p q = true <-> holds L c p q.
Proof.
  unfold held, holds. rewrite forallb_forall. split.
  - intros H a. specialize (H a). assert (In a [RemoteModel.AX; RemoteModel.AY; RemoteModel.AZ]) as I by (destruct a; cbn; tauto). specialize (H I). lia.
  - intros H a _. specialize (H a). lia.
Qed.
Definition mesh_copies (c : comp) (p q : cell) : list (cell * cell) :=
  flat_map (fun r => map (fun q' => (pos r, q')) (filter (fun q' => held c (pos r) q' && same_node (gplace L p q) (gplace L (pos r) q')) (nodes (size_at L (pos r))))) (zrange 0 ws).
Lemma pos_num p : inside L p -> 0 <= num p < ws /\ pos (num p) = p.
Proof.
  intros Hp. pose proof HB as (B1 & B2 & _). specialize (B1 p Hp). split; [exact B1|]. destruct (HI (num p) B1) as (I1 & I2). exact (B2 _ _ I1 Hp I2).
Qed.
Lemma mesh_copies_ok c p q : copies_of L c (p, q) (mesh_copies c p q).
Proof.
  split.
  - unfold mesh_copies. apply NoDup_flat; [apply NoDup_zrange| |].
    + intros r _. apply FinFun.Injective_map_NoDup; [intros x y E; injection E as E; exact E|]. apply NoDup_filter, nodup_nodes.
    + intros r r' l Hr Hr' H H'. apply in_zrange in Hr, Hr'. apply in_map_iff in H, H'. destruct H as (q1 & <- & _). destruct H' as (q2 & E & _). injection E as E _.
      destruct (HI r ltac:(lia)) as (_ & <-). destruct (HI r' ltac:(lia)) as (_ & <-). congruence.
  - intros [p' q']. cbn [fst snd]. unfold mesh_copies. rewrite in_flat_map. split.
    + intros (r & Hr & H). apply in_zrange in Hr. apply in_map_iff in H. destruct H as (q1 & E & H). injection E as <- <-. apply filter_In in H. destruct H as (_ & H).
      apply andb_prop in H. destruct H as (H1 & H2). split; [apply HI; lia|]. split; [apply held_spec, H1|apply same_node_spec, H2].
    + intros (H1 & H2 & H3). destruct (pos_num p' H1) as (N1 & N2). exists (num p'). split; [apply in_zrange; lia|]. apply in_map_iff. exists q'. rewrite N2. split; [reflexivity|].
      apply filter_In. split; [|rewrite (proj2 (held_spec c p' q') H2), (proj2 (same_node_spec p q p' q') H3); reflexivity].
      apply in_nodes. intros a. specialize (H2 a). replace (AT a (size_at L p')) with (l_n L a (AT a p')) by (destruct a; reflexivity). destruct (node_on c a); lia.
Qed.

Variable rd : vec R.
Hypothesis Hcells : equal_cells L rd.
Hypothesis Hpos : forall a i, 0 <= i < l_p L a -> (0 < l_d L a i)%R.
Variable dt : R.
Variable lg : Z -> list (streak R).
Hypothesis HL : forall r v j, 0 <= r < ws -> In (v, j) (lg r) -> in_rank L pos r v.

Lemma equal_size a i j : 0 <= i < l_p L a -> 0 <= j < l_p L a -> l_d L a i = l_d L a j.
Proof.
  intros Hi Hj. destruct (Hcells i) as (X & Y & Z'). destruct (Hcells j) as (X1 & Y1 & Z1).
  assert (K : forall x y z, (x * z = 1 -> y * z = 1 -> x = y)%R).
  { intros x y z E1 E2. assert (z <> 0)%R by (intros ->; lra). apply (Rmult_eq_reg_r z); [lra|assumption]. }
  destruct a; [apply (K _ _ (vx rd))|apply (K _ _ (vy rd))|apply (K _ _ (vz rd))]; auto.
Qed.
Definition vol (p : cell) : R := (l_d L RemoteModel.AX (AT RemoteModel.AX p) * l_d L RemoteModel.AY (AT RemoteModel.AY p) * l_d L RemoteModel.AZ (AT RemoteModel.AZ p))%R.
Lemma vol_equal p p' : inside L p -> inside L p' -> vol p = vol p'.
Proof. intros H H'. unfold vol. f_equal; [f_equal|]; apply equal_size; auto. Qed.
Lemma vol_pos p : inside L p -> (0 < vol p)%R.
Proof. intros H. unfold vol. repeat apply Rmult_lt_0_compat; apply Hpos, H. Qed.

Lemma synced_current c W W1 W2 p q : is_current c = true -> unloaded L pos ws rd dt lg W W1 ->
  run_phases R Rarith ws G SyncJf (phases SyncJf) W1 W2 -> inside L p -> holds L c p q ->
  W2 (num p) (c, vox3 (size_at L p) q) = Jg L pos ws rd dt lg c (gplace L p q).
Proof.
  intros Hc HU H Hp Hq. pose proof (mesh_copies_ok c p q) as MC.
  assert (Ff : fam SyncJf c = true) by (destruct c; try discriminate Hc; reflexivity).
  pose proof (run_copies L num ws G OK HB SyncJf W1 W2 c (p, q) _ (or_intror Hpos) eq_refl Ff H (conj Hp Hq) MC) as E.
  rewrite !rsum_sum in E. set (cs := mesh_copies c p q) in *.
  assert (Ew : forall l, In l cs -> wt3 L SyncJf l = vol p).
  { intros l Hl. apply MC in Hl. destruct Hl as (Hl & _). rewrite (vol_equal p (fst l) Hp Hl). unfold wt3, wt, vol, coord. reflexivity. }
  rewrite (sum_ext (wt3 L SyncJf) (fun _ => (vol p * 1)%R)) in E by (intros l Hl; rewrite (Ew l Hl); ring).
  rewrite (sum_ext (fun l' => (wt3 L SyncJf l' * val L num W1 c l')%R) (fun l' => (vol p * val L num W1 c l')%R)) in E by (intros l Hl; rewrite (Ew l Hl); reflexivity).
  rewrite !sum_scale in E.
  assert (El : sumR (map (fun _ : loc => 1%R) cs) = INR (length cs)).
  { clear. induction cs as [|x l IH]; [reflexivity|]. cbn [map length]. rewrite sumR_cons, IH, S_INR. lra. }
  rewrite El in E. replace (fac SyncJf c (length cs)) with (INR (length cs)) in E by (destruct c; try discriminate Hc; reflexivity).
  assert (Hne : (0 < INR (length cs))%R).
  { apply lt_0_INR. assert (In (p, q) cs) as I; [|destruct cs; [destruct I|cbn; lia]]. apply MC. split; [exact Hp|]. split; [exact Hq|]. intros a. destruct (l_per L a); [exists 0; lia|reflexivity]. }
  pose proof (vol_pos p Hp) as V.
  assert (E' : val L num W2 c (p, q) = sumR (map (val L num W1 c) cs)).
  { apply (Rmult_eq_reg_r (vol p * INR (length cs))%R); [|apply Rgt_not_eq, Rmult_lt_0_compat; assumption]. rewrite E. ring. }
  change (W2 (num p) (c, vox3 (size_at L p) q)) with (val L num W2 c (p, q)). rewrite E'. clear E E' El Ew Hne.
  unfold cs, mesh_copies, Jg, over_ranks. rewrite sum_flat. apply sum_ext. intros r Hr. apply in_zrange in Hr. destruct (HI r ltac:(lia)) as (I1 & I2).
  rewrite map_map, sum_filter. unfold Jn. apply sum_ext. intros q' Hq'.
  assert (EA : A L pos r (gplace L p q) q' = if same_node (gplace L p q) (gplace L (pos r) q') then 1%R else 0%R) by reflexivity. rewrite EA.
  destruct (held c (pos r) q') eqn:Eh; cbn [andb].
  - destruct (same_node (gplace L p q) (gplace L (pos r) q')); [|lra]. rewrite Rmult_1_l. unfold val. cbn [fst snd]. rewrite I2.
    pose proof (HU r c q' ltac:(lia) (proj1 (held_spec _ _ _) Eh)) as U. cbv zeta in U. rewrite Hc in U. exact U.
  - rewrite in_nodes in Hq'.
    assert (J0 : J L pos rd dt lg r c q' = 0%R); [|rewrite J0; ring].
    assert (ex : exists a, c = current_along a) by (destruct c; try discriminate Hc; [exists RemoteModel.AX|exists RemoteModel.AY|exists RemoteModel.AZ]; reflexivity).
    destruct ex as (a & ->). apply (J_zero L OK pos rd dt lg r I1 (fun v j => HL r v j ltac:(lia))).
    + right. destruct (Z.eq_dec (AT a q') (AT a (size_at L (pos r)) + 1)) as [X|X]; [exact X|]. exfalso. apply not_true_iff_false in Eh. apply Eh, held_spec. intros b. pose proof (Hq' b) as Hb.
      replace (AT b (size_at L (pos r))) with (l_n L b (AT b (pos r))) in Hb by (destruct b; reflexivity).
      pose proof (Hq' a) as Ha. replace (AT a (size_at L (pos r))) with (l_n L a (AT a (pos r))) in X, Ha by (destruct a; reflexivity).
      destruct a, b; cbn [current_along node_on]; lia.
    + intros b _. apply Hq'.
Qed.
End S.
