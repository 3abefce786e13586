From Coq Require Import ZArith List Bool Reals Lia ZifyBool Lra Psatz Permutation FunctionalExtensionality.
From Flocq Require Import BinarySingleNaN.
From Verif Require Import FloatModel DistributeModel VoxelModel VoxelProofs SortModel SortProofs SweepModel SweepProofs
  FieldModel FieldProofs FieldSpec FieldSweeps FieldBoundaryModel FieldPhysics FieldPhysics2 FieldRms FieldCoefs.
Import ListNotations.
Open Scope Z_scope.
Ltac Zify.zify_post_hook ::= idtac.

Section Det.
Variable V : Type.
Variables (nx ny nz : Z).
Variable A : arith V.
Variable mt : mats V.
Variable k : coefs V.

Lemma updated_det (B r r' : floc -> V) c xh yh zh new :
  updated V nx ny nz B r c xh yh zh new -> updated V nx ny nz B r' c xh yh zh new ->
  forall v, r (c, v) = r' (c, v).
Proof.
  intros [H1 H2] [H1' H2'] v.
  destruct (in_dec Z.eq_dec v (map (fun q : pt => let '(_, x, y, z) := q in voxel nx ny nz x y z)
              (piece_pts (mk_piece 0 1 xh 1 yh 1 zh)))) as [Hin|Hni].
  - apply in_map_iff in Hin. destruct Hin as (q & <- & Hq). apply in_piece in Hq. cbn in Hq.
    destruct Hq as (x & y & z & -> & h1 & h2 & h3). rewrite H1, H1' by lia. reflexivity.
  - assert (Hv : forall x y z, 1 <= x <= xh -> 1 <= y <= yh -> 1 <= z <= zh -> v <> voxel nx ny nz x y z).
    { intros x y z h1 h2 h3 ->. apply Hni. apply in_map_iff. exists (0%nat, x, y, z). split; [reflexivity|].
      apply in_piece. exists x, y, z. cbn. auto. }
    rewrite H2, H2' by exact Hv. reflexivity.
Qed.

Lemma with_ghosts_det G (m B B' : floc -> V) : with_ghosts G m B -> with_ghosts G m B' -> B = B'.
Proof.
  intros [H1 H2] [H1' H2']. apply functional_extensionality. intros l.
  destruct (in_dec (fun a b => reflect_dec _ _ (floc_eqb_spec a b)) l (map fst G)) as [Hin|Hni].
  - apply in_map_iff in Hin. destruct Hin as ([l' w] & He & Hin). cbn in He. subst l'.
    rewrite (H1 _ _ Hin), (H1' _ _ Hin). reflexivity.
  - rewrite H2, H2' by exact Hni. reflexivity.
Qed.

Ltac det c v Hc :=
  intros [c v];
  match goal with
  | H : only _ ?cs ?B ?r, H' : only _ ?cs ?B ?r' |- _ =>
      destruct (in_dec (fun a b => reflect_dec _ _ (comp_eqb_spec a b)) c cs) as [Hc|Hc];
      [|rewrite H, H' by exact Hc; reflexivity]
  end;
  cbn [In] in Hc; repeat (destruct Hc as [<-|Hc]); try contradiction;
  eapply updated_det; eassumption.

Lemma faraday_det B r r' : faraday V nx ny nz A k B r -> faraday V nx ny nz A k B r' -> forall l, r l = r' l.
Proof. intros (H & H0 & H1 & H2) (G & G0 & G1 & G2). det c v Hc. Qed.
Lemma ampere_det B r r' : ampere V nx ny nz A mt k B r -> ampere V nx ny nz A mt k B r' -> forall l, r l = r' l.
Proof. intros (H & H0 & H1 & H2 & H3 & H4 & H5) (G & G0 & G1 & G2 & G3 & G4 & G5). det c v Hc. Qed.
Lemma curl_only_det B r r' : curl_only V nx ny nz A mt k B r -> curl_only V nx ny nz A mt k B r' -> forall l, r l = r' l.
Proof. intros (H & H0 & H1 & H2) (G & G0 & G1 & G2). det c v Hc. Qed.
Lemma gauss_e_det B r r' : gauss_e V nx ny nz A mt k B r -> gauss_e V nx ny nz A mt k B r' -> forall l, r l = r' l.
Proof. intros (H & H0) (G & G0). det c v Hc. Qed.
Lemma bound_charge_det B r r' : bound_charge V nx ny nz A mt k B r -> bound_charge V nx ny nz A mt k B r' -> forall l, r l = r' l.
Proof. intros (H & H0) (G & G0). det c v Hc. Qed.
Lemma gauss_b_det B r r' : gauss_b V nx ny nz A k B r -> gauss_b V nx ny nz A k B r' -> forall l, r l = r' l.
Proof. intros (H & H0) (G & G0). det c v Hc. Qed.
Lemma marder_b_det B r r' : marder_b V nx ny nz A k B r -> marder_b V nx ny nz A k B r' -> forall l, r l = r' l.
Proof. intros (H & H0 & H1 & H2) (G & G0 & G1 & G2). det c v Hc. Qed.
Lemma marder_e_det B r r' : marder_e V nx ny nz A mt k B r -> marder_e V nx ny nz A mt k B r' -> forall l, r l = r' l.
Proof. intros (H & H0 & H1 & H2) (G & G0 & G1 & G2). det c v Hc. Qed.

Variables (c1 c2 : bool) (P1 P2 : Z).
Hypothesis Hx : 1 <= nx.
Hypothesis Hy : 1 <= ny.
Hypothesis Hz : 1 <= nz.
Hypothesis Hn : nx * ny * nz < 2 ^ 31.
Hypothesis HP1 : 1 <= P1 < 2 ^ 31.
Hypothesis HP2 : 1 <= P2 < 2 ^ 31.

Ltac ghost_det L D := intros HG H1 H2;
  apply (L V A mt k nx ny nz c1 P1 Hx Hy Hz Hn HP1) in H1; [|exact HG];
  apply (L V A mt k nx ny nz c2 P2 Hx Hy Hz Hn HP2) in H2; [|exact HG];
  destruct H1 as (B1 & HB1 & H1), H2 as (B2 & HB2 & H2);
  rewrite <- (with_ghosts_det _ _ _ _ HB1 HB2) in H2; eapply D; eassumption.

Lemma advance_b_det m r r' : advance_b_run V A mt k nx ny nz c1 P1 m r -> advance_b_run V A mt k nx ny nz c2 P2 m r' ->
  forall l, r l = r' l.
Proof.
  intros H1 H2. eapply faraday_det; eapply advance_b_spec; [..|exact H1|exact Hx|exact Hy|exact Hz|exact Hn|exact HP2|exact H2]; assumption.
Qed.
Lemma clean_div_e_det m r r' : clean_div_e_run V A mt k nx ny nz c1 P1 m r -> clean_div_e_run V A mt k nx ny nz c2 P2 m r' ->
  forall l, r l = r' l.
Proof.
  intros H1 H2. eapply marder_e_det; eapply clean_div_e_spec; [..|exact H1|exact Hx|exact Hy|exact Hz|exact Hn|exact HP2|exact H2]; assumption.
Qed.
Lemma div_b_err_det m r r' : div_b_err_run V A mt k nx ny nz c1 P1 m r -> div_b_err_run V A mt k nx ny nz c2 P2 m r' ->
  forall l, r l = r' l.
Proof.
  intros H1 H2. eapply gauss_b_det; eapply div_b_err_spec; [..|exact H1|exact Hx|exact Hy|exact Hz|exact Hn|exact HP2|exact H2]; assumption.
Qed.
Lemma advance_e_det G m r r' : ghost_list (ghost_tang_b nx ny nz) G ->
  advance_e_run V A mt k nx ny nz c1 P1 G m r -> advance_e_run V A mt k nx ny nz c2 P2 G m r' -> forall l, r l = r' l.
Proof. ghost_det advance_e_spec ampere_det. Qed.
Lemma curl_b_det G m r r' : ghost_list (ghost_tang_b nx ny nz) G ->
  curl_b_run V A mt k nx ny nz c1 P1 G m r -> curl_b_run V A mt k nx ny nz c2 P2 G m r' -> forall l, r l = r' l.
Proof. ghost_det curl_b_spec curl_only_det. Qed.
Lemma div_e_err_det G m r r' : ghost_list (ghost_norm_e nx ny nz) G ->
  div_e_err_run V A mt k nx ny nz c1 P1 G m r -> div_e_err_run V A mt k nx ny nz c2 P2 G m r' -> forall l, r l = r' l.
Proof. ghost_det div_e_err_spec gauss_e_det. Qed.
Lemma rhob_det G m r r' : ghost_list (ghost_norm_e nx ny nz) G ->
  rhob_run V A mt k nx ny nz c1 P1 G m r -> rhob_run V A mt k nx ny nz c2 P2 G m r' -> forall l, r l = r' l.
Proof. ghost_det rhob_spec bound_charge_det. Qed.
Lemma clean_div_b_det G m r r' : ghost_list (ghost_div_b nx ny nz) G ->
  clean_div_b_run V A mt k nx ny nz c1 P1 G m r -> clean_div_b_run V A mt k nx ny nz c2 P2 G m r' -> forall l, r l = r' l.
Proof. ghost_det clean_div_b_spec marder_b_det. Qed.
End Det.

Section Exist.
Variable V : Type.
Variable A : arith V.
Variable mt : mats V.
Variable k : coefs V.
Variables (nx ny nz : Z) (contract : bool) (P : Z).

Lemma free_exists ops m : free_run V A mt k ops m
  (run_ops floc V (top V) floc_eqb (texec V A mt k) (pipe_ops V ops) m).
Proof. apply phase_run_ops. Qed.
Lemma ghost_exists Q G H m : exists r, ghost_run V A mt k Q G H m r.
Proof. eexists. apply split_run_ops. Qed.

Lemma runs_exist G m :
  (exists r, advance_b_run V A mt k nx ny nz contract P m r) /\
  (exists r, clean_div_e_run V A mt k nx ny nz contract P m r) /\
  (exists r, div_b_err_run V A mt k nx ny nz contract P m r) /\
  (exists r, advance_e_run V A mt k nx ny nz contract P G m r) /\
  (exists r, curl_b_run V A mt k nx ny nz contract P G m r) /\
  (exists r, div_e_err_run V A mt k nx ny nz contract P G m r) /\
  (exists r, rhob_run V A mt k nx ny nz contract P G m r) /\
  (exists r, clean_div_b_run V A mt k nx ny nz contract P G m r).
Proof.
  repeat split; first [eexists; apply free_exists | apply ghost_exists].
Qed.
End Exist.

(* ---- the symmetric boundary breaks div B ---- *)
Definition sym_grid : rgrid := mk_rgrid 2 2 1 1 1 1 1 (1/2) 1.
Definition sym_bc (s : face) : Z := match s with XM => symmetric_fields | _ => 0 end.
Definition sym_mem (l : floc) : R := if floc_eqb l (Ez, voxel 2 2 1 1 2 1) then 1%R else 0%R.

Lemma sym_breaks mt contract P : 1 <= P < 2 ^ 31 -> exists r1 r,
  advance_b_run R RA mt (advance_b_coefs sym_grid 1) 2 2 1 contract P sym_mem r1 /\
  adjust_norm_b R 0%R 2 2 1 sym_bc 1 r1 = Some r /\
  div_b R 2 2 1 RA (div_coefs sym_grid) sym_mem 1 1 1 = 0%R /\
  div_b R 2 2 1 RA (div_coefs sym_grid) r 1 1 1 = (-1/2)%R.
Proof.
  intros HP.
  destruct (runs_exist R RA mt (advance_b_coefs sym_grid 1) 2 2 1 contract P [] sym_mem) as ((r1 & Hr) & _).
  assert (exists r, adjust_norm_b R 0%R 2 2 1 sym_bc 1 r1 = Some r) as (r & Ha) by (eexists; reflexivity).
  exists r1, r. split; [exact Hr|]. split; [exact Ha|].
  assert (Hx : 1 <= 2) by lia. assert (Hz : 1 <= 1) by lia. assert (Hn : 2 * 2 * 1 < 2 ^ 31) by lia.
  apply (advance_b_spec R RA mt _ 2 2 1 contract P Hx Hx Hz Hn HP) in Hr.
  destruct Hr as (_ & [Hcx _] & [Hcy _] & [Hcz _]).
  unfold div_b, at_. 
  assert (E0 : r (Cbx, voxel 2 2 1 1 1 1) = 0%R).
  { eapply (adjust_zeroes R 0%R); [exact Ha| | | |]; [left; reflexivity|left; reflexivity|reflexivity|].
    vm_compute. left. reflexivity. }
  rewrite E0.
  rewrite !(norm_b_kept 2 2 1 Hx Hx Hz sym_bc 1 r1 r) by
    (first [exact Ha|lia|intros; discriminate|intros; split; intros; first [discriminate|lia]]).
  rewrite !Hcx, !Hcy, !Hcz by lia.
  unfold curl_e_x, curl_e_y, curl_e_z, at_, sym_mem, sym_grid, advance_b_coefs, div_coefs, if_thick, RA.
  cbn. unfold voxel. cbn. split; lra.
Qed.

(* ---- single precision coefficient of a one-cell mesh ---- *)
Lemma marder_nan rx ry rz c : is_finite_strict c = true ->
  let '(px, py, pz) := marder_coefs_f 1 1 1 rx ry rz c in
  is_nan px = true /\ is_nan py = true /\ is_nan pz = true /\
  (forall b d : b32, is_nan (f_add b (f_mul px d)) = true).
Proof.
  intros Hc. destruct c as [s|s| |s mm e He]; try discriminate.
  assert (E : marder_coefs_f 1 1 1 rx ry rz (B754_finite s mm e He) = (B754_nan, B754_nan, B754_nan)).
  { unfold marder_coefs_f. change (1 <? 1) with false. cbv iota.
    destruct s; reflexivity. }
  rewrite E. repeat split. intros b d. destruct b, d; reflexivity.
Qed.
