(* One round of boundary_p moves charge between ranks without changing it; the whole particle step. *)
From Coq Require Import Reals Lra ZArith List Bool Lia ZifyBool Permutation Sorting.Sorted.
From Verif Require Import SortModel SortProofs GridModel GridProofs ParticleModel ParticleSpec ParticleProofs MoverModel RemoveProofs BoundaryProofs AdvanceProofs
  FieldModel RemoteModel RemoteSpec RemoteProofs DecompSpec DecompProofs ChargeModel ChargeSpec ChargeProofs.
Import ListNotations.
Open Scope Z_scope.
Ltac Zify.zify_post_hook ::= idtac.
Local Notation sumR := ParticleSpec.sumR.
Local Notation mput := MoverModel.put.

(* ---- where move_p stops ---- *)
Lemma shiftr8 v f : 0 <= f < 6 -> Z.shiftr (8 * v + f) 3 = v /\ Z.land (8 * v + f) 7 = f /\ (8 * v + f) / 8 = v.
Proof.
  intros H. assert (D : (8 * v + f) / 8 = v) by (rewrite Z.mul_comm, Z.div_add_l by lia; rewrite (Z.div_small f 8) by lia; lia).
  split; [rewrite Z.shiftr_div_pow2 by lia; exact D|]. split; [|exact D].
  replace 7 with (Z.ones 3) by reflexivity. rewrite Z.land_ones by lia. change (2 ^ 3) with 8. rewrite Z.mul_comm, Z.add_comm, Z.mod_add by lia. apply Z.mod_small. lia.
Qed.
Lemma move_stopped fuel g q : forall p disp log p' disp' log', move_loop Rnum fuel g q p disp log = MDone true p' disp' log' -> stopped g p'.
Proof.
  induction fuel as [|fuel IH]; intros p disp log p' disp' log' E; [discriminate|].
  rewrite move_step in E. destruct (hstep p disp) as [h ax] eqn:Eh. cbv zeta in E. destruct ax as [a|]; [|discriminate].
  set (s := sstep disp h) in *. pose proof (step_on_face _ _ _ _ Eh) as F. fold s in F.
  destruct (negb (int_ok (6 * pi p))); [discriminate|].
  destruct (nbr_at g (pi p) (face_of a (dirR (vget disp a)))) as [n|] eqn:EN; [|discriminate].
  destruct (n =? reflect_particles) eqn:ER; [apply IH in E; exact E|].
  destruct ((n <? mrangel g) || (mrangeh g <? n)) eqn:EB; [|apply IH in E; exact E].
  destruct (negb (int_ok (8 * pi p)) || negb (int_ok (8 * pi p + _)%Z)); [discriminate|].
  apply mdone_inj in E. destruct E as (_ & <- & _ & _). exists (pi p), (face_of a (dirR (vget disp a))), n. cbn [pi pd].
  split; [reflexivity|]. split; [apply face_of_range|]. split; [exact EN|]. split; [lia|]. split; [lia|].
  rewrite face_of_axis, face_of_high. replace (vget (vset _ a (dirR (vget disp a))) a) with (dirR (vget disp a)) by (destruct a; reflexivity). apply dirR_up.
Qed.

(* ---- charge of a species, by movers and others ---- *)
Lemma sum_listed_others (F : bool -> part R -> R) (ps : list (part R)) idx : NoDup idx -> (forall i, In i idx -> 0 <= i < Z.of_nat (length ps)) ->
  sumR (map (fun i => match nth_error ps i with Some p => F (existsb (Z.eqb (Z.of_nat i)) idx) p | None => 0%R end) (seq 0 (length ps))) =
  (sumR (map (fun i => match nth_error ps (Z.to_nat i) with Some p => F true p | None => 0%R end) idx) + sumR (map (F false) (others ps idx)))%R.
Proof.
  intros ND HB. set (pr := fun k => existsb (Z.eqb (Z.of_nat k)) idx).
  assert (E1 : sumR (map (F false) (others ps idx)) = sumR (map (fun k => if pr k then 0%R else match nth_error ps k with Some p => F false p | None => 0%R end) (seq 0 (length ps)))).
  { unfold others. rewrite sum_flat. apply sum_ext. intros k _. unfold pr. destruct (existsb _ idx); [reflexivity|]. destruct (nth_error ps k); cbn [map ParticleSpec.sumR fold_right]; lra. }
  assert (E2 : sumR (map (fun i => match nth_error ps (Z.to_nat i) with Some p => F true p | None => 0%R end) idx) =
               sumR (map (fun k => if pr k then match nth_error ps k with Some p => F true p | None => 0%R end else 0%R) (seq 0 (length ps)))).
  { rewrite <- (map_map Z.to_nat (fun k => match nth_error ps k with Some p => F true p | None => 0%R end)).
    rewrite <- (sum_mapperm _ _ _ (filter_listed ps idx ND HB)). fold pr. clear. induction (seq 0 (length ps)) as [|k l IH]; [reflexivity|].
    cbn [filter map]. rewrite sumR_cons. destruct (pr k); cbn [map]; rewrite ?sumR_cons, IH; lra. }
  rewrite E1, E2, <- sum_plus. apply sum_ext. intros k _. unfold pr. destruct (existsb _ idx), (nth_error ps k); lra.
Qed.
Lemma others_nil {A} (ps : list A) : others ps [] = ps.
Proof.
  unfold others. cbn [existsb]. rewrite <- (seq_all ps 0) at 2. rewrite !flat_map_concat_map. f_equal. apply map_ext. intros k. rewrite Nat.sub_0_r. reflexivity.
Qed.

Lemma pack_loop_inv b sp : forall ms ps out r, Sgt (map m_i ms) -> (forall i, In i (map m_i ms) -> 0 <= i < Z.of_nat (length ps)) ->
  pack_loop Rnum b sp ps ms out = Some r -> forall m, In m ms -> fate_of Rnum b sp ps m <> None.
Proof.
  induction ms as [|m0 ms IH]; intros ps out r HS HB E m Hm; [destruct Hm|]. cbn [pack_loop map] in *.
  apply StronglySorted_inv in HS. destruct HS as (HS & F). rewrite Forall_forall in F.
  destruct (remove_at_spec ps (m_i m0) (HB _ (or_introl eq_refl))) as (x & ps1 & E1 & Ex & P & Ln & Kp). rewrite E1 in E.
  destruct (dispatch Rnum b sp x m0) as [f|] eqn:Ed; [|discriminate].
  destruct Hm as [<-|Hm].
  - unfold fate_of. rewrite Ex, Ed. discriminate.
  - pose proof (HB _ (or_introl eq_refl)) as B0.
    assert (Q : fate_of Rnum b sp ps1 m <> None).
    { apply (IH ps1 _ r HS) with (m := m) in E; [exact E| |exact Hm]. intros j Hj. specialize (F j Hj). pose proof (HB j (or_intror Hj)). lia. }
    unfold fate_of in *. rewrite Kp in Q; [exact Q|]. specialize (F (m_i m) (in_map m_i _ _ Hm)). pose proof (HB (m_i m) (or_intror (in_map m_i _ _ Hm))). lia.
Qed.
Lemma pack_species_packed b : forall ss sp out ss', Forall movers_ok ss -> pack_species Rnum b sp ss = Some (out, ss') ->
  (exists outs, out = concat outs /\ packed Rnum b sp ss outs ss') /\
  (forall k s m, nth_error ss k = Some s -> In m (s_pm s) -> fate_of Rnum b (sp + Z.of_nat k) (s_p s) m <> None).
Proof.
  intros ss sp out ss' HM E.
  assert (N : forall k s m, nth_error ss k = Some s -> In m (s_pm s) -> fate_of Rnum b (sp + Z.of_nat k) (s_p s) m <> None).
  { revert sp out ss' E. induction ss as [|s0 ss IH]; intros sp out ss' E k s m Hk Hm; [destruct k; discriminate|]. inversion HM as [|a0 b0 H1 H2]; subst. cbn [pack_species] in E.
    destruct (pack_loop Rnum b sp (s_p s0) (rev (s_pm s0)) []) as [[o p]|] eqn:El; [|discriminate].
    destruct (pack_species Rnum b (sp + 1) ss) as [[o' p']|] eqn:Er; [|discriminate].
    destruct k as [|k]; cbn [nth_error] in Hk.
    - injection Hk as <-. rewrite Z.add_0_r. destruct H1 as (HS & HB). apply (pack_loop_inv b sp (rev (s_pm s0)) (s_p s0) [] (o, p)).
      + rewrite map_rev. apply Slt_rev, HS.
      + intros i Hi. rewrite map_rev in Hi. apply HB, in_rev, Hi.
      + exact El.
      + apply in_rev. rewrite rev_involutive. exact Hm.
    - replace (sp + Z.of_nat (S k)) with (sp + 1 + Z.of_nat k) by lia. exact (IH H2 (sp + 1) _ _ Er k s m Hk Hm). }
  destruct (pack_species_spec Rnum b ss sp HM N) as (outs & ss1 & E1 & P). rewrite E in E1. injection E1 as -> ->. split; [|exact N]. exists outs. split; [reflexivity|exact P].
Qed.

(* the charge of the particles on the mover lists that boundary_p does not send to another rank: absorbed, given to a handler, or dropped *)
Fixpoint kept_back (L : layout R) (pos : Z -> cell) (Phi : cell -> R) (r : Z) (b : bgrid) (k : Z) (ss : list (spec (V := R))) : R :=
  match ss with
  | [] => 0%R
  | s :: ss =>
    (sumR (map (fun m => match nth_error (s_p s) (Z.to_nat (m_i m)) with
                         | Some p => match dispatch Rnum b k p m with Some (Sent _ _) => 0 | _ => particle_charge L pos Phi r (s_q s) true p end
                         | None => 0 end) (s_pm s)) + kept_back L pos Phi r b (k + 1) ss)%R
  end.

Section W.
Variable L : layout R.
Hypothesis OK : layout_ok L.
Variable pos : Z -> cell.
Variable ws : Z.
Variable Phi : cell -> R.
Hypothesis HPhi : repeats L Phi.
Variable first : Z -> Z.
Variable B : Z -> bgrid.
Hypothesis HW : wired L pos ws first B.
Variable Q : list R.
Notation PC := (particle_charge L pos Phi).
Notation SC := (species_charge L pos Phi).
Notation RC := (rank_charge L pos Phi).
Notation IC := (injector_charge L pos Phi Q).
Notation MC := (moved_charge L pos Phi).

Lemma ok_movers g s : species_ok g s -> movers_ok s.
Proof. intros (H1 & H2). split; [exact H1|]. intros i Hi. apply in_map_iff in Hi. destruct Hi as (m & <- & Hm). apply H2, Hm. Qed.
Lemma species_split r s : movers_ok s ->
  SC r s = (sumR (map (fun m => match nth_error (s_p s) (Z.to_nat (m_i m)) with Some p => PC r (s_q s) true p | None => 0%R end) (s_pm s)) +
            sumR (map (PC r (s_q s) false) (others (s_p s) (map m_i (s_pm s)))))%R.
Proof.
  intros (H1 & H2). unfold species_charge. rewrite (sum_listed_others (fun u p => PC r (s_q s) u p) (s_p s) _ (Slt_nodup _ H1) H2), map_map. reflexivity.
Qed.
Lemma species_plain r q ps : SC r (mk_spec q ps []) = sumR (map (PC r q false) ps).
Proof.
  rewrite species_split; [|split; [constructor|intros i []]]. cbn [s_p s_pm s_q map ParticleSpec.sumR fold_right]. rewrite others_nil. unfold sumR. lra.
Qed.

(* what a fate carries away to the rank across face f *)
Definition sent_charge (r : Z) (x : fate (V := R)) : R := match x with Sent f ij => IC (nthz (b_bc (B r)) f) ij | _ => 0%R end.

Lemma stopped_sent r k p m f ij : 0 <= r < ws -> stopped (b_mesh (B r)) p -> dispatch Rnum (B r) k p m = Some (Sent f ij) ->
  0 <= f < 6 /\ shared (B r) f = true /\ 0 <= nthz (b_bc (B r)) f < ws /\ ij_sp ij = k /\
  forall q, PC (nthz (b_bc (B r)) f) q false (ij_p ij) = PC r q true p.
Proof.
  intros Hr (v & f0 & n & Ep & Hf0 & En & Hn1 & Hn2 & Ed) E.
  destruct (shiftr8 v f0 Hf0) as (S1 & S2 & S3).
  pose proof HW as (_ & _ & _ & F & T). destruct (F r Hr) as (F1 & F2 & F3 & F4 & F5).
  unfold dispatch in E. cbv zeta in E. rewrite Ep, S1, S2, En in E.
  destruct (n =? absorb_particles); [discriminate|].
  destruct (((0 <=? n) && (n <? mrangel (b_mesh (B r)))) || ((mrangeh (b_mesh (B r)) <? n) && (n <=? nthz (b_range (B r)) (b_size (B r))))) eqn:Es;
    [|destruct ((0 <=? - n - 3) && (- n - 3 <? b_nb (B r))); discriminate].
  destruct ((f0 <? 6) && shared (B r) f0) eqn:Eh; [|discriminate]. injection E as <- <-.
  pose proof (first_nonneg L OK pos ws first B HW (r + 1) ltac:(lia)) as P1. pose proof (first_nonneg L OK pos ws first B HW r ltac:(lia)) as P0.
  pose proof (proj1 (nv_pos L OK pos ws first B HW r Hr)) as P2.
  assert (Hn : 0 <= n) by (rewrite F3, F4 in Es; lia).
  destruct (T r v f0 n Hr Hf0 En Hn) as (q & r' & q' & Ev & Hq & Hr' & Enn & Hq' & HN & Hbc).
  assert (Nr : r' <> r). { intros ->. apply Hn2. rewrite F3, F4, Enn. pose proof (proj2 (nv_pos L OK pos ws first B HW r Hr) q' Hq'). lia. }
  specialize (Hbc Nr). rewrite Hbc. split; [exact Hf0|]. split; [apply andb_prop in Eh; apply Eh|]. split; [exact Hr'|]. split; [reflexivity|].
  intros qs. unfold particle_charge. cbn [ij_p pw pd pi voxel_of]. rewrite Ep, S3.
  destruct (face_facts f0 Hf0) as (_ & _ & Ea & Edir). rewrite Ea, Edir. rewrite (F5 r' ltac:(lia)), Enn.
  replace (first r' + vox3 (size_at L (pos r')) q' - first r') with (vox3 (size_at L (pos r')) q') by lia. rewrite Ev.
  apply charge_glue2; [exact Ed|]. intros b1 b2.
  apply (corners_glued L OK pos Phi HPhi); try assumption; apply (wired_inside L pos ws first B HW); assumption.
Qed.

(* packing *)
Lemma nth_Q (qs : list R) (s : spec (V := R)) (ss : list (spec (V := R))) k : map s_q ss = qs -> nth_error ss k = Some s -> nth k qs 0%R = s_q s.
Proof. intros <- H. apply nth_error_nth. rewrite nth_error_map, H. reflexivity. Qed.

Lemma packed_charge r : 0 <= r < ws -> forall k ss outs ss', packed Rnum (B r) (Z.of_nat k) ss outs ss' ->
  Forall (species_ok (b_mesh (B r))) ss -> (forall j s, nth_error ss j = Some s -> nth (k + j) Q 0%R = s_q s) ->
  RC r ss = (RC r ss' + kept_back L pos Phi r (B r) (Z.of_nat k) ss + sumR (map (sent_charge r) (concat outs)))%R /\
  map s_q ss' = map s_q ss /\ Forall (fun s => s_pm s = []) ss' /\
  (forall f ij, In (Sent f ij) (concat outs) -> 0 <= f < 6 /\ shared (B r) f = true).
Proof.
  intros Hr k ss outs ss' H. remember (Z.of_nat k) as sp eqn:Esp. revert k Esp.
  induction H as [|sp s ss fs ps' outs ss' Ef P H IH]; intros k Esp HO HQ.
  - cbn. split; [unfold ParticleSpec.sumR; cbn; lra|]. split; [reflexivity|]. split; [constructor|]. intros f ij [].
  - inversion HO as [|s0 ss0 O1 O2]; subst s0 ss0.
    destruct (IH (S k) ltac:(lia) O2) as (I1 & I2 & I3 & I4).
    { intros j s1 Hj. rewrite <- (HQ (S j) s1 Hj). f_equal. lia. }
    assert (Qs : nth k Q 0%R = s_q s) by (rewrite <- (HQ 0%nat s eq_refl); f_equal; lia).
    assert (Fate : forall m, In m (s_pm s) -> exists p x, nth_error (s_p s) (Z.to_nat (m_i m)) = Some p /\ dispatch Rnum (B r) sp p m = Some x /\ stopped (b_mesh (B r)) p /\ In x fs).
    { intros m Hm. assert (Hf : In (fate_of Rnum (B r) sp (s_p s) m) (map Some fs)) by (rewrite Ef; apply in_map, in_rev; rewrite rev_involutive; exact Hm).
      apply in_map_iff in Hf. destruct Hf as (x & Ex & Hx). unfold fate_of in Ex. destruct (nth_error (s_p s) (Z.to_nat (m_i m))) as [p|] eqn:En; [|discriminate].
      exists p, x. split; [reflexivity|]. split; [congruence|]. split; [|exact Hx]. destruct O1 as (_ & O1). apply (proj2 (O1 m Hm) p En). }
    cbn [concat map]. split; [|split; [|split]].
    + unfold rank_charge in *. cbn [map kept_back]. rewrite !sumR_cons, I1, map_app, sumR_app. rewrite (species_split r s (ok_movers _ _ O1)).
      rewrite species_plain, (sum_mapperm _ _ _ P). replace (Z.of_nat (S k)) with (sp + 1) in * by lia.
      assert (Movers : (sumR (map (fun m => match nth_error (s_p s) (Z.to_nat (m_i m)) with Some p => PC r (s_q s) true p | None => 0 end) (s_pm s)) =
        sumR (map (fun m => match nth_error (s_p s) (Z.to_nat (m_i m)) with Some p => match dispatch Rnum (B r) sp p m with Some (Sent _ _) => 0 | _ => PC r (s_q s) true p end | None => 0 end) (s_pm s))
        + sumR (map (sent_charge r) fs))%R).
      { assert (Efs : sumR (map (sent_charge r) fs) = sumR (map (fun m => match fate_of Rnum (B r) sp (s_p s) m with Some x => sent_charge r x | None => 0%R end) (s_pm s))).
        { rewrite (sum_mapperm _ _ _ (Permutation_rev (s_pm s))).
          rewrite <- (map_map (fate_of Rnum (B r) sp (s_p s)) (fun o => match o with Some x => sent_charge r x | None => 0%R end)), <- Ef, map_map. reflexivity. }
        rewrite Efs, <- sum_plus. apply sum_ext. intros m Hm. destruct (Fate m Hm) as (p & x & En & Ed & St & _). unfold fate_of. rewrite En, Ed.
        destruct x as [p0|f ij|? ? ? ?|p0]; cbn [sent_charge]; try lra.
        destruct (stopped_sent r sp p m f ij Hr St Ed) as (_ & _ & _ & Es & Ec). unfold injector_charge. rewrite Es, Esp, Nat2Z.id, Qs, Ec. lra. }
      rewrite Movers. lra.
    + f_equal. exact I2.
    + constructor; [reflexivity|exact I3].
    + intros f ij Hin. apply in_app_or in Hin. destruct Hin as [Hin|Hin]; [|apply (I4 f ij Hin)].
      assert (Hf : In (Some (Sent f ij)) (map (fate_of Rnum (B r) sp (s_p s)) (rev (s_pm s)))) by (rewrite <- Ef; apply in_map, Hin).
      apply in_map_iff in Hf. destruct Hf as (m & Em & Hm). apply in_rev in Hm. destruct (Fate m Hm) as (p & x & En & Ed & St & _). unfold fate_of in Em. rewrite En in Em.
      destruct (stopped_sent r sp p m f ij Hr St Em) as (H1 & H2 & _). split; assumption.
Qed.

(* what is not sent on stopped at a boundary condition *)
Lemma kept_lost r : 0 <= r < ws -> forall ss k, Forall (species_ok (b_mesh (B r))) ss ->
  (forall j s m p, nth_error ss j = Some s -> In m (s_pm s) -> nth_error (s_p s) (Z.to_nat (m_i m)) = Some p -> dispatch Rnum (B r) (k + Z.of_nat j) p m <> None) ->
  kept_back L pos Phi r (B r) k ss = lost_charge L pos Phi r (b_mesh (B r)) ss.
Proof.
  intros Hr. pose proof HW as (_ & _ & _ & F & T). destruct (F r Hr) as (F1 & F2 & F3 & F4 & F5).
  pose proof (first_nonneg L OK pos ws first B HW (r + 1) ltac:(lia)) as P1. pose proof (first_nonneg L OK pos ws first B HW r ltac:(lia)) as P0.
  pose proof (proj1 (nv_pos L OK pos ws first B HW r Hr)) as P2.
  induction ss as [|s ss IH]; intros k Hs Hd; [reflexivity|]. pose proof (Forall_inv Hs) as S1. pose proof (Forall_inv_tail Hs) as S2.
  cbn [kept_back]. unfold lost_charge in *. cbn [map]. rewrite sumR_cons. f_equal.
  - apply sum_ext. intros m Hm. destruct (nth_error (s_p s) (Z.to_nat (m_i m))) as [p|] eqn:Ep; [|reflexivity].
    pose proof (Hd 0%nat s m p eq_refl Hm Ep) as D. rewrite Z.add_0_r in D.
    destruct (proj2 (proj2 S1 m Hm) p Ep) as (v & f & n & Ei & Hf & En & Hn1 & Hn2 & Ed).
    destruct (shiftr8 v f Hf) as (Q1 & Q2 & Q3). unfold dispatch in D |- *. cbv zeta in D |- *. rewrite Ei, Q1, Q2, En in D. rewrite Ei, Q1, Q2, Q3, En.
    rewrite <- (Z.mod_unique (8 * v + f) 8 v f ltac:(lia) eq_refl), En.
    destruct (Z.ltb_spec n 0) as [N|N].
    + destruct (n =? absorb_particles); [reflexivity|].
      replace (((0 <=? n) && (n <? mrangel (b_mesh (B r)))) || ((mrangeh (b_mesh (B r)) <? n) && (n <=? nthz (b_range (B r)) (b_size (B r))))) with false by (rewrite F3, F4; lia).
      destruct ((0 <=? - n - 3) && (- n - 3 <? b_nb (B r))); reflexivity.
    + replace (n =? absorb_particles) with false in D |- * by (unfold absorb_particles; lia).
      destruct (T r v f n Hr Hf En N) as (q & r' & q' & Ev & Hq & Hr' & Enn & Hq' & HN & Hbc).
      pose proof (proj2 (nv_pos L OK pos ws first B HW r' Hr') q' Hq') as V'.
      pose proof (first_mono L OK pos ws first B HW (r' + 1) ws ltac:(lia) ltac:(lia) ltac:(lia)) as M.
      rewrite F2, (F5 ws) in D |- * by lia.
      replace (((0 <=? n) && (n <? mrangel (b_mesh (B r)))) || ((mrangeh (b_mesh (B r)) <? n) && (n <=? first ws))) with true in D |- * by lia.
      destruct ((f <? 6) && shared (B r) f); [reflexivity|contradiction].
  - apply IH; [exact S2|]. intros j s1 m p Hj Hm Ep. replace (k + 1 + Z.of_nat j) with (k + Z.of_nat (S j)) by lia. exact (Hd (S j) s1 m p Hj Hm Ep).
Qed.

(* injection *)
Lemma species_add r s p (st : bool) d : movers_ok s ->
  SC r (mk_spec (s_q s) (s_p s ++ [p]) (if st then s_pm s ++ [mk_mover d (Z.of_nat (length (s_p s)))] else s_pm s)) = (SC r s + PC r (s_q s) st p)%R.
Proof.
  intros (H1 & H2). unfold species_charge. cbn [s_q s_p s_pm]. rewrite app_length, seq_app, map_app, sumR_app. cbn [length seq map Nat.add]. f_equal.
  - apply sum_ext. intros i Hi. apply in_seq in Hi. rewrite nth_error_app1 by lia. destruct (nth_error (s_p s) i) as [p0|]; [|reflexivity]. f_equal.
    destruct st; [|reflexivity]. rewrite map_app, existsb_app. cbn [map existsb m_i]. replace (Z.of_nat i =? Z.of_nat (length (s_p s))) with false by lia. rewrite !orb_false_r. reflexivity.
  - rewrite sumR_cons. rewrite nth_error_app2 by lia. rewrite Nat.sub_diag. cbn [nth_error]. unfold ParticleSpec.sumR. cbn [fold_right]. rewrite Rplus_0_r. f_equal.
    assert (N : existsb (Z.eqb (Z.of_nat (length (s_p s)))) (map m_i (s_pm s)) = false).
    { apply not_true_is_false. intros E. apply existsb_exists in E. destruct E as (i & Hi & Ei). specialize (H2 i Hi). lia. }
    destruct st; [|exact N]. rewrite map_app, existsb_app, N. cbn [map existsb m_i orb]. rewrite Z.eqb_refl. reflexivity.
Qed.
Lemma rank_put r : forall ss k s0 s, nth_error ss k = Some s0 -> RC r (mput ss k s) = (RC r ss - SC r s0 + SC r s)%R.
Proof.
  unfold rank_charge, mput. induction ss as [|x ss IH]; intros [|k] s0 s E; try discriminate; cbn [nth_error] in E.
  - injection E as ->. cbn [firstn skipn app map]. rewrite !sumR_cons. lra.
  - specialize (IH k s0 s E). cbn [firstn skipn app map]. cbn [skipn] in IH. rewrite !sumR_cons. rewrite IH. lra.
Qed.
Lemma mput_q : forall (ss : list (spec (V := R))) k s0 s, nth_error ss k = Some s0 -> s_q s = s_q s0 -> map s_q (mput ss k s) = map s_q ss.
Proof.
  unfold mput. induction ss as [|x ss IH]; intros [|k] s0 s E Es; try discriminate; cbn [nth_error] in E.
  - injection E as ->. cbn [firstn skipn app map]. rewrite Es. reflexivity.
  - cbn [firstn app map]. f_equal. apply (IH k s0 s E Es).
Qed.
Lemma Forall_mput {T} (P : T -> Prop) : forall ss k s, Forall P ss -> (k < length ss)%nat -> P s -> Forall P (mput ss k s).
Proof.
  unfold mput. induction ss as [|x ss IH]; intros k s H Hk Hs; [cbn in Hk; lia|]. inversion H; subst. destruct k as [|k]; cbn [firstn skipn app].
  - constructor; assumption.
  - constructor; [assumption|]. apply IH; [assumption|cbn in Hk; lia|exact Hs].
Qed.

Lemma inject_one_charge fuel r ss ij ss' log : 0 <= r < ws -> map s_q ss = Q -> Forall (species_ok (b_mesh (B r))) ss ->
  inject_one Rnum fuel (b_mesh (B r)) ss ij = Some (ss', log) ->
  RC r ss' = (RC r ss + IC r ij + MC r log)%R /\ map s_q ss' = Q /\ Forall (species_ok (b_mesh (B r))) ss'.
Proof.
  intros Hr HQ HO. unfold inject_one. destruct (Z.ltb_spec (ij_sp ij) 0) as [|Hi]; [discriminate|].
  destruct (nth_error ss (Z.to_nat (ij_sp ij))) as [s0|] eqn:E0; [|discriminate].
  destruct (move_p Rnum fuel (b_mesh (B r)) (s_q s0) (ij_p ij) (ij_disp ij)) as [st p disp lg| |] eqn:Em; try discriminate.
  intros H. injection H as <- <-.
  assert (O0 : species_ok (b_mesh (B r)) s0) by (rewrite Forall_forall in HO; apply HO; apply nth_error_In in E0; exact E0).
  pose proof (nth_Q Q s0 ss (Z.to_nat (ij_sp ij)) HQ E0) as Qs.
  assert (HL : (Z.to_nat (ij_sp ij) < length ss)%nat) by (apply nth_error_Some; congruence).
  split; [|split].
  - rewrite (rank_put r _ _ _ _ E0), (species_add r s0 p st disp (ok_movers _ _ O0)). unfold injector_charge. rewrite Qs. unfold particle_charge, moved_charge in *.
    unfold move_p in Em. pose proof (move_continuity fuel _ _ _ _ _ (wired_glued L OK pos ws Phi HPhi first B HW r Hr) _ _ _ _ _ _ _ Em) as C.
    unfold flows at 2 in C. cbn [map ParticleSpec.sumR fold_right n_mul Rnum] in C. cbn [voxel_of].
    assert (W : pw p = pw (ij_p ij)).
    { clear - Em. revert Em. generalize (ij_disp ij), (@nil (streak R)). generalize (n_mul Rnum (s_q s0) (pw (ij_p ij))). generalize (ij_p ij) as p0. revert p disp lg.
      induction fuel as [|fuel IH]; intros p disp lg p0 q0 d0 l0 Em; [discriminate|]. rewrite move_step in Em. destruct (hstep p0 d0) as [h [a|]]; cbv zeta in Em.
      - destruct (negb (int_ok _)); [discriminate|]. destruct (nbr_at _ _ _) as [n|]; [|discriminate].
        destruct (n =? reflect_particles); [apply IH in Em; exact Em|]. destruct ((n <? _) || _); [|apply IH in Em; exact Em].
        destruct (_ || _); [discriminate|]. apply mdone_inj in Em. destruct Em as (_ & <- & _ & _). reflexivity.
      - apply mdone_inj in Em. destruct Em as (_ & <- & _ & _). reflexivity. }
    rewrite W. lra.
  - rewrite (mput_q ss _ s0 _ E0) by reflexivity. exact HQ.
  - apply Forall_mput; [exact HO|exact HL|]. pose proof (ok_movers _ _ O0) as (M1 & M2). destruct O0 as (_ & O0). split; cbn [s_p s_pm].
    + destruct st; [|exact M1]. rewrite map_app. cbn [map m_i]. apply Slt_snoc; [exact M1|]. intros y Hy. specialize (M2 y Hy). lia.
    + assert (Old : forall m, In m (s_pm s0) -> 0 <= m_i m < Z.of_nat (length (s_p s0 ++ [p])) /\ forall p1, nth_error (s_p s0 ++ [p]) (Z.to_nat (m_i m)) = Some p1 -> stopped (b_mesh (B r)) p1).
      { intros m Hm. destruct (O0 m Hm) as (A1 & A2). rewrite app_length. split; [lia|]. intros p1. rewrite nth_error_app1 by lia. apply A2. }
      destruct st; [|exact Old]. intros m Hm. apply in_app_or in Hm. destruct Hm as [Hm|[<-|[]]]; [apply Old, Hm|]. cbn [m_i].
      rewrite app_length. cbn [length]. split; [lia|]. intros p1. rewrite Nat2Z.id, nth_error_app2 by lia. rewrite Nat.sub_diag. cbn [nth_error]. intros E. injection E as <-.
      unfold move_p in Em. exact (move_stopped _ _ _ _ _ _ _ _ _ Em).
Qed.
Lemma inject_all_charge fuel r : 0 <= r < ws -> forall l ss ss' log, map s_q ss = Q -> Forall (species_ok (b_mesh (B r))) ss ->
  inject_all Rnum fuel (b_mesh (B r)) ss l = Some (ss', log) ->
  RC r ss' = (RC r ss + sumR (map (IC r) l) + MC r log)%R /\ map s_q ss' = Q /\ Forall (species_ok (b_mesh (B r))) ss'.
Proof.
  intros Hr. induction l as [|ij l IH]; intros ss ss' log HQ HO; cbn [inject_all].
  - intros H. injection H as <- <-. cbn. unfold moved_charge, flows. cbn. split; [unfold ParticleSpec.sumR; cbn; lra|]. split; assumption.
  - destruct (inject_one Rnum fuel (b_mesh (B r)) ss ij) as [[s1 l1]|] eqn:E1; [|discriminate].
    destruct (inject_all Rnum fuel (b_mesh (B r)) s1 l) as [[s2 l2]|] eqn:E2; [|discriminate].
    intros H. injection H as <- <-. destruct (inject_one_charge fuel r ss ij s1 l1 Hr HQ HO E1) as (A1 & A2 & A3).
    destruct (IH s1 s2 l2 A2 A3 E2) as (B1 & B2 & B3). split; [|split; assumption]. cbn [map]. rewrite sumR_cons, B1, A1. unfold moved_charge. rewrite flows_app. lra.
Qed.

(* exchange *)
Lemma sum_sends r (h : Z -> injector (V := R) -> R) (l : list (fate (V := R))) :
  (forall f ij, In (Sent f ij) l -> 0 <= f < 6 /\ shared (B r) f = true) ->
  sumR (map (fun f => if shared (B r) f then sumR (map (h f) (sends f l)) else 0%R) faces) =
  sumR (map (fun x => match x with Sent f ij => h f ij | _ => 0%R end) l).
Proof.
  induction l as [|x l IH]; intros H.
  - cbn [sends flat_map map]. transitivity (sumR (map (fun _ : Z => 0%R) faces)); [apply sum_ext; intros f _; destruct (shared (B r) f); reflexivity|apply sum_zero].
  - cbn [map]. rewrite sumR_cons, <- (IH (fun f ij Hin => H f ij (or_intror Hin))). clear IH.
    destruct x as [p|g i|k p m g|p]; try (rewrite Rplus_0_l; reflexivity).
    destruct (H g i (or_introl eq_refl)) as (Hg & Hs).
    transitivity (sumR (map (fun f => ((if f =? g then h f i else 0) + (if shared (B r) f then sumR (map (h f) (sends f l)) else 0))%R) faces)).
    + apply sum_ext. intros f _. unfold sends at 1. cbn [flat_map]. fold (sends f l). destruct (Z.eqb_spec f g) as [->|N].
      * rewrite Hs. cbn [app map]. rewrite sumR_cons. reflexivity.
      * cbn [app]. lra.
    + rewrite sum_plus. f_equal. assert (Hc : In g faces) by (apply in_faces, Hg). cbn in Hc.
      destruct Hc as [<-|[<-|[<-|[<-|[<-|[<-|[]]]]]]]; unfold faces; cbn [map Z.eqb Pos.eqb]; unfold ParticleSpec.sumR; cbn [fold_right]; lra.
Qed.
Lemma pairs_sumR (h : Z -> Z -> R) :
  sumR (map (fun '(r, f) => h r f) (shared_pairs ws B)) =
  sumR (map (fun r => sumR (map (fun f => if shared (B r) f then h r f else 0%R) faces)) (zrange 0 ws)).
Proof.
  unfold shared_pairs. induction (zrange 0 ws) as [|r l IH]; [reflexivity|]. cbn [list_prod map].
  rewrite filter_app, map_app, sumR_app, sumR_cons, IH. f_equal. clear. induction faces as [|f fs IH]; [reflexivity|]. cbn [map filter].
  rewrite sumR_cons. destruct (shared (B r) f); cbn [map]; rewrite ?sumR_cons, IH; lra.
Qed.
Lemma partners_perm : reciprocal ws B -> Permutation (map (fun '(r, f) => (nthz (b_bc (B r)) f, opp f)) (shared_pairs ws B)) (shared_pairs ws B).
Proof.
  intros Rc. set (LL := shared_pairs ws B). set (phi := fun '(r, f) => (nthz (b_bc (B r)) f, opp f) : Z * Z).
  assert (OO : forall f, 0 <= f < 6 -> opp (opp f) = f).
  { intros f Hf. apply in_faces in Hf. cbn in Hf. repeat (destruct Hf as [<-|Hf]; [|]); try contradiction; reflexivity. }
  assert (OB : forall f, 0 <= opp f < 6) by (intros; unfold opp; apply Z.mod_pos_bound; lia).
  assert (IN : forall x, In x LL -> In (phi x) LL /\ phi (phi x) = x).
  { intros [r f] H. apply in_shared_pairs in H. destruct H as (H1 & H2 & H3).
    destruct (shared_partner ws B r f Rc H1 H2 H3) as (K1 & K2 & K3 & K4). unfold phi. split.
    - apply in_shared_pairs. split; [exact K1|]. split; [apply OB|exact K3].
    - rewrite K4, OO by exact H2. reflexivity. }
  assert (NL : NoDup LL) by (apply NoDup_filter, NoDup_prod; [apply NoDup_zrange|repeat constructor; cbn; lia]).
  apply NoDup_Permutation; [|exact NL|].
  - assert (G : forall l, NoDup l -> incl l LL -> NoDup (map phi l)).
    { induction l as [|x l IH]; intros N I; [constructor|]. inversion N; subst. cbn [map]. constructor.
      - rewrite in_map_iff. intros (y & E & Hy). apply H1. replace x with y; [exact Hy|].
        rewrite <- (proj2 (IN y (I y (or_intror Hy)))), E. apply IN, I. left; reflexivity.
      - apply IH; [assumption|]. intros y Hy. apply I. right; exact Hy. }
    apply G; [exact NL|apply incl_refl].
  - intros x. rewrite in_map_iff. split.
    + intros (y & <- & Hy). apply IN, Hy.
    + intros Hx. exists (phi x). split; apply IN, Hx.
Qed.
Lemma exchanged_charge (out : Z -> list (fate (V := R))) : reciprocal ws B ->
  (forall r, 0 <= r < ws -> forall f ij, In (Sent f ij) (out r) -> 0 <= f < 6 /\ shared (B r) f = true) ->
  sumR (map (fun r => sumR (map (fun f => if shared (B r) f then sumR (map (IC r) (received B out r f)) else 0%R) faces)) (zrange 0 ws)) =
  sumR (map (fun r => sumR (map (sent_charge r) (out r))) (zrange 0 ws)).
Proof.
  intros Rc H. rewrite <- (pairs_sumR (fun r f => sumR (map (IC r) (received B out r f)))).
  transitivity (sumR (map (fun '(r, f) => sumR (map (IC (nthz (b_bc (B r)) f)) (sends f (out r)))) (map (fun '(r, f) => (nthz (b_bc (B r)) f, opp f)) (shared_pairs ws B)))).
  - rewrite map_map. apply sum_ext. intros [r f] Hin. apply in_shared_pairs in Hin. destruct Hin as (H1 & H2 & H3).
    destruct (shared_partner ws B r f Rc H1 H2 H3) as (K1 & K2 & K3 & K4). rewrite K4, (received_eq ws B out r f Rc H1 H2 H3). reflexivity.
  - rewrite (sum_mapperm _ _ _ (partners_perm Rc)), (pairs_sumR (fun r f => sumR (map (IC (nthz (b_bc (B r)) f)) (sends f (out r))))).
    apply sum_ext. intros r Hr. apply in_zrange in Hr. apply (sum_sends r (fun f => IC (nthz (b_bc (B r)) f)) (out r)). intros f ij Hin. exact (H r ltac:(lia) f ij Hin).
Qed.

Lemma order_charge r b loc recv : sumR (map (IC r) (injection_order b loc recv)) =
  (sumR (map (IC r) loc) + sumR (map (fun f => if shared b f then sumR (map (IC r) (recv f)) else 0%R) faces))%R.
Proof.
  unfold injection_order. change [0; 1; 2; 3; 4; 5] with faces. rewrite map_app, sumR_app, sum_flat. f_equal.
  - symmetry. apply sum_mapperm, Permutation_rev.
  - apply sum_ext. intros f _. destruct (shared b f); [|reflexivity]. symmetry. apply sum_mapperm, Permutation_rev.
Qed.

Theorem round_charge fuel (SS SS' SS'' : Z -> list (spec (V := R))) out loc log : reciprocal ws B -> ranks_ok ws B Q SS ->
  (forall r, 0 <= r < ws -> pack_species Rnum (B r) 0 (SS r) = Some (out r, SS' r) /\
     inject_all Rnum fuel (b_mesh (B r)) (SS' r) (injection_order (B r) (loc r) (received B out r)) = Some (SS'' r, log r)) ->
  (world_charge L pos ws Phi SS'' = world_charge L pos ws Phi SS - over_ranks ws (fun r => lost_charge L pos Phi r (b_mesh (B r)) (SS r))
     + over_ranks ws (fun r => sumR (map (IC r) (loc r))) + over_ranks ws (fun r => MC r (log r)))%R /\ ranks_ok ws B Q SS''.
Proof.
  intros Rc HO H.
  assert (P : forall r, 0 <= r < ws -> (RC r (SS r) = RC r (SS' r) + lost_charge L pos Phi r (b_mesh (B r)) (SS r) + sumR (map (sent_charge r) (out r)))%R /\
    map s_q (SS' r) = Q /\ Forall (species_ok (b_mesh (B r))) (SS' r) /\ (forall f ij, In (Sent f ij) (out r) -> 0 <= f < 6 /\ shared (B r) f = true)).
  { intros r Hr. destruct (HO r Hr) as (HQ & Hs). destruct (H r Hr) as (Hp & _).
    assert (HM : Forall movers_ok (SS r)) by (eapply Forall_impl; [intros s; apply ok_movers|exact Hs]).
    destruct (pack_species_packed _ _ _ _ _ HM Hp) as ((outs & Eo & Pk) & Fd).
    destruct (packed_charge r Hr 0%nat (SS r) outs (SS' r) Pk Hs) as (C1 & C2 & C3 & C4).
    { intros j s Hj. cbn [Nat.add]. exact (nth_Q Q s (SS r) j HQ Hj). }
    rewrite Eo. rewrite <- (kept_lost r Hr (SS r) 0 Hs).
    2:{ intros j s m p Hj Hm Ep. pose proof (Fd j s m Hj Hm) as Nd. unfold fate_of in Nd. rewrite Ep in Nd. exact Nd. }
    split; [exact C1|]. split; [congruence|]. split; [|exact C4].
    eapply Forall_impl; [|exact C3]. intros s Es. split; rewrite Es; [constructor|]. intros m []. }
  assert (J : forall r, 0 <= r < ws -> (RC r (SS'' r) = RC r (SS' r) + sumR (map (IC r) (injection_order (B r) (loc r) (received B out r))) + MC r (log r))%R /\
    map s_q (SS'' r) = Q /\ Forall (species_ok (b_mesh (B r))) (SS'' r)).
  { intros r Hr. destruct (P r Hr) as (_ & P2 & P3 & _). destruct (H r Hr) as (_ & Hi). exact (inject_all_charge fuel r Hr _ _ _ _ P2 P3 Hi). }
  split; [|intros r Hr; apply J, Hr].
  unfold world_charge, over_ranks.
  assert (X : forall f g, (forall r, 0 <= r < ws -> f r = g r) -> sumR (map f (zrange 0 ws)) = sumR (map g (zrange 0 ws))) by (intros f g Hfg; apply sum_ext; intros r Hr; apply in_zrange in Hr; apply Hfg; lia).
  rewrite (X (fun r => RC r (SS'' r)) _ (fun r Hr => proj1 (J r Hr))), (X (fun r => RC r (SS r)) _ (fun r Hr => proj1 (P r Hr))).
  rewrite !sum_plus. rewrite <- (exchanged_charge out Rc (fun r Hr => proj2 (proj2 (proj2 (P r Hr))))).
  rewrite (X (fun r => sumR (map (IC r) (injection_order (B r) (loc r) (received B out r)))) _ (fun r _ => order_charge r (B r) (loc r) (received B out r))).
  rewrite sum_plus. lra.
Qed.
End W.
