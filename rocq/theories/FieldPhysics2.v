From Coq Require Import ZArith List Bool Reals Lia ZifyBool Lra Psatz Permutation.
From Verif Require Import DistributeModel VoxelModel VoxelProofs SortModel SortProofs SweepModel SweepProofs
  FieldModel FieldProofs FieldSpec FieldSweeps FieldBoundaryModel FieldPhysics.
Import ListNotations.
Open Scope Z_scope.
Ltac Zify.zify_post_hook ::= idtac.

Section Phys.
Variables (nx ny nz : Z) (contract : bool) (P : Z).
Hypothesis Hx : 1 <= nx.
Hypothesis Hy : 1 <= ny.
Hypothesis Hz : 1 <= nz.
Hypothesis Hn : nx * ny * nz < 2 ^ 31.
Hypothesis HP : 1 <= P < 2 ^ 31.
Variable g : rgrid.
Variable bc : face -> Z.
Variable ws : Z.

Notation vox := (voxel nx ny nz).
Notation at_ := (at_ R nx ny nz).
Notation div_b := (div_b R nx ny nz RA).

Lemma norm_e_ghost_other G (m B : floc -> R) c v : ghost_list (ghost_norm_e nx ny nz) G -> with_ghosts G m B ->
  c <> Ex -> c <> Ey -> c <> Ez -> B (c, v) = m (c, v).
Proof.
  intros [_ HG] [_ HB] h1 h2 h3. apply HB. intros Hc. apply in_map_iff in Hc.
  destruct Hc as ([[c' v'] w] & He & Hin). cbn in He. injection He as -> ->.
  specialize (HG _ _ _ Hin). unfold ghost_norm_e in HG. intuition congruence.
Qed.

Lemma norm_e_ghost_inside G (m B : floc -> R) c x y z :
  ghost_list (ghost_norm_e nx ny nz) G -> with_ghosts G m B ->
  1 <= x <= nx -> 1 <= y <= ny -> 1 <= z <= nz -> B (c, vox x y z) = m (c, vox x y z).
Proof.
  intros [_ HG] [_ HB] h1 h2 h3. apply HB. intros Hc. apply in_map_iff in Hc.
  destruct Hc as ([[c' v'] w] & He & Hin). cbn in He. injection He as -> ->.
  specialize (HG _ _ _ Hin). apply (norm_at nx ny nz Hx Hy) in HG; lia.
Qed.

(* Gauss error of a node after compute_div_e_err and local_adjust_div_e. *)
Lemma gauss_error mt k G m r1 r x y z :
  ghost_list (ghost_norm_e nx ny nz) G ->
  div_e_err_run R RA mt k nx ny nz contract P G m r1 ->
  adjust_div_e R 0%R nx ny nz bc ws r1 = Some r ->
  1 < x <= nx -> 1 < y <= ny -> 1 < z <= nz ->
  r (DivE, vox x y z) = (nonconductive (mtab mt (nmat mt (vox x y z))) *
    (div_d R nx ny nz RA mt k m x y z - cj k * (m (Rhof, vox x y z) + m (Rhob, vox x y z))))%R.
Proof.
  intros HG Hr Ha hx hy hz.
  apply (div_e_err_spec R RA mt k nx ny nz contract P Hx Hy Hz Hn HP) in Hr; [|exact HG].
  destruct Hr as (B & HB & _ & [Hd _]).
  assert (Hkeep : r (DivE, vox x y z) = r1 (DivE, vox x y z)).
  { eapply adjust_unchanged; [exact Ha|]. intros s _ _ Hl.
    destruct s; unfold node_loop in Hl; apply in_xyz in Hl; destruct Hl as (x' & y' & z' & k1 & k2 & k3 & [Hl|[]]);
      injection Hl as Hl; apply (vox_ne nx ny nz Hx Hy) in Hl; lia. }
  rewrite Hkeep, Hd by lia. unfold div_d, dx_, dy_, dz_, FieldSpec.at_, mat. cbn [RA a_add a_sub a_mul].
  rewrite !(norm_e_ghost_inside G m B) by (first [assumption|lia]). reflexivity.
Qed.

Lemma gauss_error_carried mt dmp G0 G G1 m d0 d0' r1 r m1 d1 d1' x y z :
  lossless g mt ->
  ghost_list (ghost_norm_e nx ny nz) G0 -> ghost_list (ghost_tang_b nx ny nz) G ->
  ghost_list (ghost_norm_e nx ny nz) G1 ->
  (* error before *)
  div_e_err_run R RA mt (div_coefs g) nx ny nz contract P G0 m d0 ->
  adjust_div_e R 0%R nx ny nz bc ws d0 = Some d0' ->
  (* advance of E *)
  advance_e_run R RA mt (advance_e_coefs g dmp) nx ny nz contract P G m r1 ->
  adjust_tang_e R 0%R nx ny nz bc ws r1 = Some r ->
  (* new charge density *)
  (forall c v, c = Ex \/ c = Ey \/ c = Ez \/ c = Rhob -> m1 (c, v) = r (c, v)) ->
  (m1 (Rhof, vox x y z) - m (Rhof, vox x y z) =
     - dt g * div_node nx ny nz (div_coefs g) m Jfx Jfy Jfz x y z)%R ->
  div_node nx ny nz (div_coefs g) m Tcax Tcay Tcaz x y z = 0%R ->
  (* error after *)
  div_e_err_run R RA mt (div_coefs g) nx ny nz contract P G1 m1 d1 ->
  adjust_div_e R 0%R nx ny nz bc ws d1 = Some d1' ->
  eps0 g <> 0%R ->
  1 < x <= nx -> 1 < y <= ny -> 1 < z <= nz ->
  d1' (DivE, vox x y z) = d0' (DivE, vox x y z).
Proof.
  intros Hml HG0 HG HG1 Hd0 Ha0 Hr Ha Hm1 Hcont Htca Hd1 Ha1 Heps hx hy hz.
  rewrite (gauss_error mt (div_coefs g) G1 m1 d1 d1' x y z) by assumption.
  rewrite (gauss_error mt (div_coefs g) G0 m d0 d0' x y z) by assumption.
  destruct (gauss_step nx ny nz contract P Hx Hy Hz Hn HP g bc ws mt dmp G m r1 r x y z) as [Hg _]; try assumption.
  assert (Hrb : r (Rhob, vox x y z) = m (Rhob, vox x y z)).
  { transitivity (r1 (Rhob, vox x y z)).
    - eapply adjust_unchanged; [exact Ha|]. intros s _ _ Hl. apply in_app_or in Hl.
      destruct s; destruct Hl as [Hl|Hl]; unfold yz_edge_loop, zy_edge_loop in Hl; apply in_xyz in Hl;
        destruct Hl as (x' & y' & z' & k1 & k2 & k3 & [Hl|[Hl|[]]]); discriminate Hl.
    - apply (advance_e_spec R RA mt _ nx ny nz contract P Hx Hy Hz Hn HP) in Hr; [|exact HG].
      destruct Hr as (B & HB & Ho & _). rewrite Ho by (cbn; intuition discriminate).
      apply (tang_b_ghost_other nx ny nz P HP G m B); try assumption; discriminate. }
  f_equal. rewrite (Hm1 Rhob) by tauto. rewrite Hrb.
  replace (div_d R nx ny nz RA mt (div_coefs g) m1 x y z) with (div_d R nx ny nz RA mt (div_coefs g) r x y z).
  2:{ unfold div_d, dx_, dy_, dz_, FieldSpec.at_. rewrite !(Hm1 Ex), !(Hm1 Ey), !(Hm1 Ez) by tauto. reflexivity. }
  rewrite Hg, Htca.
  replace (m1 (Rhof, vox x y z)) with (m (Rhof, vox x y z) - dt g * div_node nx ny nz (div_coefs g) m Jfx Jfy Jfz x y z)%R by lra.
  cbn [cj div_coefs]. field. exact Heps.
Qed.

(* ---- C48 ---- *)
Lemma marder_step mt G m r1 r x y z :
  ghost_list (ghost_div_b nx ny nz) G ->
  clean_div_b_run R RA mt (marder_coefs g) nx ny nz contract P G m r1 ->
  adjust_norm_b R 0%R nx ny nz bc ws r1 = Some r ->
  1 <= x <= nx -> 1 <= y <= ny -> 1 <= z <= nz ->
  (x = 1 -> bc XM <> symmetric_fields) -> (x = nx -> bc XP <> symmetric_fields) ->
  (y = 1 -> bc YM <> symmetric_fields) -> (y = ny -> bc YP <> symmetric_fields) ->
  (z = 1 -> bc ZM <> symmetric_fields) -> (z = nz -> bc ZP <> symmetric_fields) ->
  exists B, with_ghosts G m B /\
  (div_b (div_coefs g) r x y z = div_b (div_coefs g) m x y z +
    lap (px (div_coefs g) * px (marder_coefs g)) (py (div_coefs g) * py (marder_coefs g))
        (pz (div_coefs g) * pz (marder_coefs g)) (at_ B DivB) x y z)%R.
Proof.
  intros HG Hr Ha hx hy hz b1 b2 b3 b4 b5 b6.
  apply (clean_div_b_spec R RA mt _ nx ny nz contract P Hx Hy Hz Hn HP) in Hr; [|exact HG].
  destruct Hr as (B & HB & _ & [Hcx _] & [Hcy _] & [Hcz _]). exists B. split; [exact HB|].
  unfold FieldSpec.div_b, FieldSpec.at_.
  rewrite !(norm_b_kept nx ny nz Hx Hy Hz bc ws r1 r) by (first [exact Ha|lia|intros; discriminate|
    intros; split; intros; first [apply b1; lia|apply b2; lia|apply b3; lia|apply b4; lia|apply b5; lia|apply b6; lia|exfalso; lia]]).
  rewrite !Hcx, !Hcy, !Hcz by lia.
  assert (HBm : forall c v, c <> DivB -> B (c, v) = m (c, v)).
  { intros c v Hc. apply (proj2 HB). intros Hin. apply in_map_iff in Hin. destruct Hin as ([[c' v'] w] & He & Hin).
    cbn in He. injection He as -> ->. destruct (proj2 HG _ _ _ Hin). contradiction. }
  unfold lap, FieldSpec.at_. rewrite !(HBm Cbx), !(HBm Cby), !(HBm Cbz) by discriminate.
  unfold RA; cbn [px py pz a_add a_sub a_mul].
  replace (x + 1 - 1) with x by lia. replace (y + 1 - 1) with y by lia. replace (z + 1 - 1) with z by lia. ring.
Qed.

Lemma marder_weights : rdx g <> 0%R -> rdy g <> 0%R -> rdz g <> 0%R ->
  (1 < gnx g \/ 1 < gny g \/ 1 < gnz g)%Z ->
  let kd := div_coefs g in let km := marder_coefs g in
  (0 <= px kd * px km /\ 0 <= py kd * py km /\ 0 <= pz kd * pz km /\
   px kd * px km + py kd * py km + pz kd * pz km = 3888889 / 10000000)%R.
Proof.
  intros h1 h2 h3 Hne kd km. unfold kd, km, div_coefs, marder_coefs, alphadt. cbn [px py pz].
  set (a := if_thick (gnx g) (rdx g)). set (b := if_thick (gny g) (rdy g)). set (c := if_thick (gnz g) (rdz g)).
  assert (Hs : (0 < a * a + b * b + c * c)%R).
  { assert (Ha : (0 <= a * a)%R) by nra. assert (Hb : (0 <= b * b)%R) by nra. assert (Hc : (0 <= c * c)%R) by nra.
    destruct Hne as [Hne|[Hne|Hne]].
    - assert (a = rdx g) by (unfold a, if_thick; replace (1 <? gnx g) with true by lia; reflexivity). nra.
    - assert (b = rdy g) by (unfold b, if_thick; replace (1 <? gny g) with true by lia; reflexivity). nra.
    - assert (c = rdz g) by (unfold c, if_thick; replace (1 <? gnz g) with true by lia; reflexivity). nra. }
  assert (Hi : (0 < 3888889 / 10000000 / (a * a + b * b + c * c))%R).
  { apply Rdiv_lt_0_compat; lra. }
  repeat split.
  - replace (a * (a * (3888889 / 10000000 / (a * a + b * b + c * c))))%R with
      ((a * a) * (3888889 / 10000000 / (a * a + b * b + c * c)))%R by ring. nra.
  - replace (b * (b * (3888889 / 10000000 / (a * a + b * b + c * c))))%R with
      ((b * b) * (3888889 / 10000000 / (a * a + b * b + c * c)))%R by ring. nra.
  - replace (c * (c * (3888889 / 10000000 / (a * a + b * b + c * c))))%R with
      ((c * c) * (3888889 / 10000000 / (a * a + b * b + c * c)))%R by ring. nra.
  - field. lra.
Qed.

Lemma lap_bounded a b c D x y z M : (0 <= a)%R -> (0 <= b)%R -> (0 <= c)%R -> (a + b + c <= 1 / 2)%R ->
  (Rabs (D x y z) <= M)%R ->
  (Rabs (D (x+1)%Z y z) <= M)%R -> (Rabs (D (x-1)%Z y z) <= M)%R ->
  (Rabs (D x (y+1)%Z z) <= M)%R -> (Rabs (D x (y-1)%Z z) <= M)%R ->
  (Rabs (D x y (z+1)%Z) <= M)%R -> (Rabs (D x y (z-1)%Z) <= M)%R ->
  (Rabs (D x y z + lap a b c D x y z) <= M)%R.
Proof.
  intros ha hb hc hs h0 h1 h2 h3 h4 h5 h6. unfold lap.
  assert (H : forall u, (Rabs u <= M -> - M <= u <= M)%R).
  { intros u Hu. split; [|apply Rle_trans with (Rabs u); [apply Rle_abs|exact Hu]].
    pose proof (Rle_abs (- u)). rewrite Rabs_Ropp in H. lra. }
  apply H in h0, h1, h2, h3, h4, h5, h6. apply Rabs_le. nra.
Qed.

Lemma marder_contracts mt G m r1 r M x y z :
  rdx g <> 0%R -> rdy g <> 0%R -> rdz g <> 0%R -> (1 < gnx g \/ 1 < gny g \/ 1 < gnz g) ->
  ghost_list (ghost_div_b nx ny nz) G ->
  (forall x y z, 1 <= x <= nx -> 1 <= y <= ny -> 1 <= z <= nz -> m (DivB, vox x y z) = div_b (div_coefs g) m x y z) ->
  (forall l w, In (l, w) G -> (Rabs w <= M)%R) ->
  (forall x y z, 1 <= x <= nx /\ 1 <= y <= ny /\ 0 <= z <= nz + 1 \/
                 1 <= x <= nx /\ 0 <= y <= ny + 1 /\ 1 <= z <= nz \/
                 0 <= x <= nx + 1 /\ 1 <= y <= ny /\ 1 <= z <= nz -> (Rabs (m (DivB, vox x y z)) <= M)%R) ->
  clean_div_b_run R RA mt (marder_coefs g) nx ny nz contract P G m r1 ->
  adjust_norm_b R 0%R nx ny nz bc ws r1 = Some r ->
  1 <= x <= nx -> 1 <= y <= ny -> 1 <= z <= nz ->
  (x = 1 -> bc XM <> symmetric_fields) -> (x = nx -> bc XP <> symmetric_fields) ->
  (y = 1 -> bc YM <> symmetric_fields) -> (y = ny -> bc YP <> symmetric_fields) ->
  (z = 1 -> bc ZM <> symmetric_fields) -> (z = nz -> bc ZP <> symmetric_fields) ->
  (Rabs (div_b (div_coefs g) r x y z) <= M)%R.
Proof.
  intros n1 n2 n3 Hne HG Hdiv HbG Hb Hr Ha hx hy hz b1 b2 b3 b4 b5 b6.
  destruct (marder_step mt G m r1 r x y z) as (B & HB & ->); try assumption.
  destruct (marder_weights n1 n2 n3 Hne) as (w1 & w2 & w3 & ws').
  rewrite <- Hdiv by assumption.
  assert (HBb : forall x y z, 1 <= x <= nx /\ 1 <= y <= ny /\ 0 <= z <= nz + 1 \/
                 1 <= x <= nx /\ 0 <= y <= ny + 1 /\ 1 <= z <= nz \/
                 0 <= x <= nx + 1 /\ 1 <= y <= ny /\ 1 <= z <= nz -> (Rabs (B (DivB, vox x y z)) <= M)%R).
  { intros x' y' z' h.
    destruct (in_dec (fun a b => reflect_dec _ _ (floc_eqb_spec a b)) (DivB, vox x' y' z') (map fst G)) as [Hin|Hni].
    - apply in_map_iff in Hin. destruct Hin as ([l w] & He & Hin). cbn in He. subst l.
      rewrite (proj1 HB _ _ Hin). eapply HbG. exact Hin.
    - rewrite (proj2 HB _ Hni). apply Hb. exact h. }
  assert (HB0 : m (DivB, vox x y z) = at_ B DivB x y z).
  { unfold FieldSpec.at_. symmetry. apply (proj2 HB). intros Hin. apply in_map_iff in Hin.
    destruct Hin as ([[c' v'] w] & He & Hin). cbn in He. injection He as -> ->.
    pose proof (proj2 HG _ _ _ Hin) as Hgl. apply (divb_at nx ny nz Hx Hy) in Hgl; lia. }
  rewrite HB0. apply lap_bounded; try assumption; try (rewrite ws'; lra); unfold FieldSpec.at_; apply HBb; lia.
Qed.

(* An already clean field stays as it is. *)
Lemma marder_fixed mt G m r1 r x y z c :
  ghost_list (ghost_div_b nx ny nz) G ->
  clean_div_b_run R RA mt (marder_coefs g) nx ny nz contract P G m r1 ->
  adjust_norm_b R 0%R nx ny nz bc ws r1 = Some r ->
  (forall l v, In (l, v) G -> v = 0%R) -> (forall v, m (DivB, v) = 0%R) ->
  bc XM <> symmetric_fields -> bc XP <> symmetric_fields -> bc YM <> symmetric_fields ->
  bc YP <> symmetric_fields -> bc ZM <> symmetric_fields -> bc ZP <> symmetric_fields ->
  c = Cbx \/ c = Cby \/ c = Cbz ->
  0 <= x <= nx + 1 -> 0 <= y <= ny + 1 -> 0 <= z <= nz + 1 ->
  r (c, vox x y z) = m (c, vox x y z).
Proof.
  intros HG Hr Ha Hg0 Hm0 b1 b2 b3 b4 b5 b6 Hc hx hy hz.
  rewrite (norm_b_kept nx ny nz Hx Hy Hz bc ws r1 r) by (first [exact Ha|lia|tauto]).
  apply (clean_div_b_spec R RA mt _ nx ny nz contract P Hx Hy Hz Hn HP) in Hr; [|exact HG].
  destruct Hr as (B & HB & _ & Hcx & Hcy & Hcz).
  assert (HBm : forall c v, c <> DivB -> B (c, v) = m (c, v)).
  { intros c' v Hc'. apply (proj2 HB). intros Hin. apply in_map_iff in Hin. destruct Hin as ([[c2 v2] w] & He & Hin).
    cbn in He. injection He as -> ->. destruct (proj2 HG _ _ _ Hin). contradiction. }
  assert (HB0 : forall v, B (DivB, v) = 0%R).
  { intros v. destruct (in_dec (fun a b => reflect_dec _ _ (floc_eqb_spec a b)) (DivB, v) (map fst G)) as [Hin|Hni].
    - apply in_map_iff in Hin. destruct Hin as ([l w] & He & Hin). cbn in He. subst l.
      rewrite (proj1 HB _ _ Hin). eapply Hg0. exact Hin.
    - rewrite (proj2 HB _ Hni). apply Hm0. }
  rewrite <- (HBm c) by (intuition congruence).
  assert (Hu : forall c xh yh zh new, updated R nx ny nz B r1 c xh yh zh new ->
    (forall x y z, new x y z = B (c, vox x y z)) -> xh <= nx + 1 -> yh <= ny + 1 -> zh <= nz + 1 ->
    r1 (c, vox x y z) = B (c, vox x y z)).
  { intros c' xh yh zh new [Hi Ho] Hnew b1' b2' b3'.
    destruct (Z_le_dec 1 x), (Z_le_dec x xh), (Z_le_dec 1 y), (Z_le_dec y yh), (Z_le_dec 1 z), (Z_le_dec z zh);
      try (apply Ho; intros x' y' z' k1 k2 k3 He; apply (vox_ne nx ny nz Hx Hy) in He; lia).
    rewrite Hi by lia. apply Hnew. }
  unfold on_xface, on_yface, on_zface in *.
  destruct Hc as [->|[->| ->]].
  - eapply Hu; [exact Hcx| |lia..]. intros. unfold FieldSpec.at_, RA; cbn [a_add a_sub a_mul]. rewrite !HB0. ring.
  - eapply Hu; [exact Hcy| |lia..]. intros. unfold FieldSpec.at_, RA; cbn [a_add a_sub a_mul]. rewrite !HB0. ring.
  - eapply Hu; [exact Hcz| |lia..]. intros. unfold FieldSpec.at_, RA; cbn [a_add a_sub a_mul]. rewrite !HB0. ring.
Qed.
End Phys.
