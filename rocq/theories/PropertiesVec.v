From Coq Require Import ZArith List Bool Permutation Lia Reals Lra.
From Flocq Require Import BinarySingleNaN.
From Verif Require Import FloatModel DistributeModel VoxelModel VoxelProofs SortModel SweepModel SweepProofs FieldModel FieldSpec
  FieldProofs FieldSweeps FieldFinal FieldBoundaryModel FieldCoefs VecFieldModel VecSweepProofs VecFieldProofs VecFieldFloat.
Import ListNotations.
Open Scope Z_scope.
Ltac Zify.zify_post_hook ::= idtac.

(* ---- C65: the field sweeps with vector kernels ---- *)
(* The three widths of the code. *)
Definition width (W : nat) : Prop := W = 4%nat \/ W = 8%nat \/ W = 16%nat.
Lemma width_pos W : width W -> (0 < W)%nat.
Proof. unfold width. lia. Qed.
Lemma width_16 W : width W -> Nat.divide W 16.
Proof. intros [->|[->| ->]]; [exists 4%nat|exists 2%nat|exists 1%nat]; reflexivity. Qed.

(* The scalar and the vector formula of advance_b round alike. *)
Definition swaps {V} (A : arith V) : Prop := forall a x y, a_sub A a (a_sub A x y) = a_add A a (a_sub A y x).
Definition commutes {V} (A : arith V) : Prop :=
  (forall x y, a_add A x y = a_add A y x) /\ (forall x y, a_mul A x y = a_mul A y x).

Section Same.
Variable V : Type.
Variables (nx ny nz : Z).
Lemma updated_ext B r r' c a b d new : (forall l, r l = r' l) -> updated V nx ny nz B r' c a b d new -> updated V nx ny nz B r c a b d new.
Proof. intros E [H1 H2]. split; intros; rewrite E; auto. Qed.
Lemma only_ext cs (B r r' : floc -> V) : (forall l, r l = r' l) -> only V cs B r' -> only V cs B r.
Proof. intros E H c v Hc. rewrite E. apply H. exact Hc. Qed.
End Same.

Section C65.
Variable V : Type.
Variable A : arith V.
Variable mt : mats V.
Variable k : coefs V.
Variables (nx ny nz : Z) (contract : bool) (P : Z).
Hypothesis Hx : 1 <= nx. Hypothesis Hy : 1 <= ny. Hypothesis Hz : 1 <= nz.
Hypothesis Hn : nx * ny * nz < 2 ^ 31.
Hypothesis HP : 1 <= P < 2 ^ 31.
Variable W : nat.
Hypothesis HW : width W.

Lemma faraday_ext B r r' : (forall l, r l = r' l) -> faraday V nx ny nz A k B r' -> faraday V nx ny nz A k B r.
Proof.
  intros E (H1 & H2 & H3 & H4). split; [exact (only_ext V _ _ _ _ E H1)|].
  split; [exact (updated_ext V nx ny nz _ _ _ _ _ _ _ _ E H2)|].
  split; [exact (updated_ext V nx ny nz _ _ _ _ _ _ _ _ E H3)|exact (updated_ext V nx ny nz _ _ _ _ _ _ _ _ E H4)].
Qed.
Lemma ampere_ext B r r' : (forall l, r l = r' l) -> ampere V nx ny nz A mt k B r' -> ampere V nx ny nz A mt k B r.
Proof.
  intros E (H0 & H1 & H2 & H3 & H4 & H5 & H6). split; [exact (only_ext V _ _ _ _ E H0)|].
  repeat match goal with |- _ /\ _ => split end;
    (eapply updated_ext; [exact E|]); assumption.
Qed.
Lemma curl_only_ext B r r' : (forall l, r l = r' l) -> curl_only V nx ny nz A mt k B r' -> curl_only V nx ny nz A mt k B r.
Proof.
  intros E (H0 & H1 & H2 & H3). split; [exact (only_ext V _ _ _ _ E H0)|].
  repeat match goal with |- _ /\ _ => split end;
    (eapply updated_ext; [exact E|]); assumption.
Qed.
Lemma marder_b_ext B r r' : (forall l, r l = r' l) -> marder_b V nx ny nz A k B r' -> marder_b V nx ny nz A k B r.
Proof.
  intros E (H0 & H1 & H2 & H3). split; [exact (only_ext V _ _ _ _ E H0)|].
  repeat match goal with |- _ /\ _ => split end;
    (eapply updated_ext; [exact E|]); assumption.
Qed.

Lemma v_advance_b : swaps A -> forall m r,
  vadvance_b_run V A mt k nx ny nz contract P W m r -> faraday V nx ny nz A k m r.
Proof.
  intros HA m r H. destruct (vadvance_b_sim V nx ny nz contract P Hx Hy Hz Hn HP W (width_pos W HW) (width_16 W HW) A mt k m r HA H)
    as (r' & H' & E).
  apply (faraday_ext m r r' E). exact (advance_b_spec V A mt k nx ny nz contract P Hx Hy Hz Hn HP m r' H').
Qed.
Lemma v_advance_e G m r : ghost_list (ghost_tang_b nx ny nz) G -> vadvance_e_run V A mt k nx ny nz contract P W G m r ->
  exists B, with_ghosts G m B /\ ampere V nx ny nz A mt k B r.
Proof.
  intros HG H. destruct (vadvance_e_sim V nx ny nz contract P Hx Hy Hz Hn HP W (width_pos W HW) (width_16 W HW) A mt k G m r HG H)
    as (r' & H' & E).
  destruct (advance_e_spec V A mt k nx ny nz contract P Hx Hy Hz Hn HP G m r' HG H') as (B & HB & S).
  exists B. split; [exact HB|exact (ampere_ext B r r' E S)].
Qed.
Lemma v_curl_b G m r : ghost_list (ghost_tang_b nx ny nz) G -> vcurl_b_run V A mt k nx ny nz contract P W G m r ->
  exists B, with_ghosts G m B /\ curl_only V nx ny nz A mt k B r.
Proof.
  intros HG H. destruct (vcurl_b_sim V nx ny nz contract P Hx Hy Hz Hn HP W (width_pos W HW) (width_16 W HW) A mt k G m r HG H)
    as (r' & H' & E).
  destruct (curl_b_spec V A mt k nx ny nz contract P Hx Hy Hz Hn HP G m r' HG H') as (B & HB & S).
  exists B. split; [exact HB|exact (curl_only_ext B r r' E S)].
Qed.
Lemma v_clean_div_b : commutes A -> forall G m r, ghost_list (ghost_div_b nx ny nz) G ->
  vclean_div_b_run V A mt k nx ny nz contract P W G m r ->
  exists B, with_ghosts G m B /\ marder_b V nx ny nz A k B r.
Proof.
  intros [Ha Hm] G m r HG H.
  destruct (vclean_div_b_sim V nx ny nz contract P Hx Hy Hz Hn HP W (width_pos W HW) (width_16 W HW) A mt k G m r Ha Hm HG H)
    as (r' & H' & E).
  destruct (clean_div_b_spec V A mt k nx ny nz contract P Hx Hy Hz Hn HP G m r' HG H') as (B & HB & S).
  exists B. split; [exact HB|exact (marder_b_ext B r r' E S)].
Qed.
End C65.

(* Whatever the width, the number of pipelines, the order in which blocks and scalar
   operations interleave and the moment at which each lane is loaded, the sweeps with
   vector kernels compute the same discrete equations as the scalar ones. *)
Theorem C65_advance_b : forall V A mt k nx ny nz (contract : bool) P,
  1 <= nx -> 1 <= ny -> 1 <= nz -> nx * ny * nz < 2 ^ 31 -> 1 <= P < 2 ^ 31 -> forall W, width W ->
  swaps A -> forall m r,
  vadvance_b_run V A mt k nx ny nz contract P W m r -> faraday V nx ny nz A k m r.
Proof. exact v_advance_b. Qed.
Print Assumptions C65_advance_b.

Theorem C65_advance_e : forall V A mt k nx ny nz (contract : bool) P,
  1 <= nx -> 1 <= ny -> 1 <= nz -> nx * ny * nz < 2 ^ 31 -> 1 <= P < 2 ^ 31 -> forall W, width W ->
  forall G m r, ghost_list (ghost_tang_b nx ny nz) G -> vadvance_e_run V A mt k nx ny nz contract P W G m r ->
  exists B, with_ghosts G m B /\ ampere V nx ny nz A mt k B r.
Proof. exact v_advance_e. Qed.
Print Assumptions C65_advance_e.

Theorem C65_compute_curl_b : forall V A mt k nx ny nz (contract : bool) P,
  1 <= nx -> 1 <= ny -> 1 <= nz -> nx * ny * nz < 2 ^ 31 -> 1 <= P < 2 ^ 31 -> forall W, width W ->
  forall G m r, ghost_list (ghost_tang_b nx ny nz) G -> vcurl_b_run V A mt k nx ny nz contract P W G m r ->
  exists B, with_ghosts G m B /\ curl_only V nx ny nz A mt k B r.
Proof. exact v_curl_b. Qed.
Print Assumptions C65_compute_curl_b.

Theorem C65_clean_div_b : forall V A mt k nx ny nz (contract : bool) P,
  1 <= nx -> 1 <= ny -> 1 <= nz -> nx * ny * nz < 2 ^ 31 -> 1 <= P < 2 ^ 31 -> forall W, width W ->
  commutes A -> forall G m r, ghost_list (ghost_div_b nx ny nz) G ->
  vclean_div_b_run V A mt k nx ny nz contract P W G m r ->
  exists B, with_ghosts G m B /\ marder_b V nx ny nz A k B r.
Proof. exact v_clean_div_b. Qed.
Print Assumptions C65_clean_div_b.

(* The vacuum kernels, in the reals and with a single material. *)
Theorem C65_vacuum : forall mt k, single mt -> forall nx ny nz (contract : bool) P,
  1 <= nx -> 1 <= ny -> 1 <= nz -> nx * ny * nz < 2 ^ 31 -> 1 <= P < 2 ^ 31 -> forall W, width W ->
  forall G m r, ghost_list (ghost_tang_b nx ny nz) G ->
  (vvac_advance_e_run k (mtab mt 0) nx ny nz contract P W G m r ->
     exists B, with_ghosts G m B /\ ampere R nx ny nz RA mt k B r) /\
  (vvac_curl_b_run k (mtab mt 0) nx ny nz contract P W G m r ->
     exists B, with_ghosts G m B /\ curl_only R nx ny nz RA mt k B r).
Proof.
  intros mt k Hs nx ny nz contract P Hx Hy Hz Hn HP W HW G m r HG. split; intros H.
  - destruct (vvac_advance_e_sim k (mtab mt 0) nx ny nz contract P Hx Hy Hz Hn HP W (width_pos W HW) (width_16 W HW) G m r HG H)
      as (r' & H' & E).
    apply (vac_advance_e mt k Hs) in H'.
    destruct (advance_e_spec R RA mt k nx ny nz contract P Hx Hy Hz Hn HP G m r' HG H') as (B & HB & S).
    exists B. split; [exact HB|exact (ampere_ext R RA mt k nx ny nz B r r' E S)].
  - destruct (vvac_curl_b_sim k (mtab mt 0) nx ny nz contract P Hx Hy Hz Hn HP W (width_pos W HW) (width_16 W HW) G m r HG H)
      as (r' & H' & E).
    apply (vac_curl_b mt k Hs) in H'.
    destruct (curl_b_spec R RA mt k nx ny nz contract P Hx Hy Hz Hn HP G m r' HG H') as (B & HB & S).
    exists B. split; [exact HB|exact (curl_only_ext R RA mt k nx ny nz B r r' E S)].
Qed.
Print Assumptions C65_vacuum.

(* A run with vector kernels and a scalar run leave the same memory. *)
Theorem C65_same_as_scalar : forall V A mt k nx ny nz (c c' : bool) P P',
  1 <= nx -> 1 <= ny -> 1 <= nz -> nx * ny * nz < 2 ^ 31 -> 1 <= P < 2 ^ 31 -> 1 <= P' < 2 ^ 31 ->
  forall W, width W -> forall G m,
  let same (vec scal : (floc -> V) -> Prop) := forall r r', vec r -> scal r' -> forall l, r l = r' l in
  (swaps A -> same (vadvance_b_run V A mt k nx ny nz c P W m) (advance_b_run V A mt k nx ny nz c' P' m)) /\
  (ghost_list (ghost_tang_b nx ny nz) G ->
    same (vadvance_e_run V A mt k nx ny nz c P W G m) (advance_e_run V A mt k nx ny nz c' P' G m)) /\
  (ghost_list (ghost_tang_b nx ny nz) G ->
    same (vcurl_b_run V A mt k nx ny nz c P W G m) (curl_b_run V A mt k nx ny nz c' P' G m)) /\
  (commutes A -> ghost_list (ghost_div_b nx ny nz) G ->
    same (vclean_div_b_run V A mt k nx ny nz c P W G m) (clean_div_b_run V A mt k nx ny nz c' P' G m)).
Proof.
  intros V A mt k nx ny nz c c' P P' Hx Hy Hz Hn HP HP' W HW G m same.
  pose proof (width_pos W HW) as W0. pose proof (width_16 W HW) as W16.
  split; [|split; [|split]].
  - intros HA r r' H H' l.
    destruct (vadvance_b_sim V nx ny nz c P Hx Hy Hz Hn HP W W0 W16 A mt k m r HA H) as (r1 & H1 & E).
    rewrite E. exact (advance_b_det V nx ny nz A mt k c c' P P' Hx Hy Hz Hn HP HP' m r1 r' H1 H' l).
  - intros HG r r' H H' l.
    destruct (vadvance_e_sim V nx ny nz c P Hx Hy Hz Hn HP W W0 W16 A mt k G m r HG H) as (r1 & H1 & E).
    rewrite E. exact (advance_e_det V nx ny nz A mt k c c' P P' Hx Hy Hz Hn HP HP' G m r1 r' HG H1 H' l).
  - intros HG r r' H H' l.
    destruct (vcurl_b_sim V nx ny nz c P Hx Hy Hz Hn HP W W0 W16 A mt k G m r HG H) as (r1 & H1 & E).
    rewrite E. exact (curl_b_det V nx ny nz A mt k c c' P P' Hx Hy Hz Hn HP HP' G m r1 r' HG H1 H' l).
  - intros [Ha Hm] HG r r' H H' l.
    destruct (vclean_div_b_sim V nx ny nz c P Hx Hy Hz Hn HP W W0 W16 A mt k G m r Ha Hm HG H) as (r1 & H1 & E).
    rewrite E. exact (clean_div_b_det V nx ny nz A mt k c c' P P' Hx Hy Hz Hn HP HP' G m r1 r' HG H1 H' l).
Qed.
Print Assumptions C65_same_as_scalar.

(* Not vacuous: there are runs. *)
Theorem C65_runs_exist : forall V A mt k nx ny nz (contract : bool) P W G m,
  (exists r, vadvance_b_run V A mt k nx ny nz contract P W m r) /\
  (exists r, vadvance_e_run V A mt k nx ny nz contract P W G m r) /\
  (exists r, vcurl_b_run V A mt k nx ny nz contract P W G m r) /\
  (exists r, vclean_div_b_run V A mt k nx ny nz contract P W G m r).
Proof. intros V A mt k nx ny nz contract P W G m. exact (vruns_exist V nx ny nz contract P W A mt k G m). Qed.
Print Assumptions C65_runs_exist.

(* Single precision: additions and products commute; the formulas of advance_b agree
   unless the old value is minus zero, which the vector kernel may turn into plus zero. *)
Theorem C65_single_precision : commutes A32 /\
  (forall a x y, a <> B754_zero true -> f_sub a (f_sub x y) = f_add a (f_sub y x)) /\ ~ swaps A32.
Proof.
  split; [split; [exact f_add_comm|exact f_mul_comm]|]. split; [exact f_sub_swap|].
  intros H. specialize (H (B754_zero true) (B754_zero false) (B754_zero false)). discriminate H.
Qed.
Print Assumptions C65_single_precision.

(* Over the integers, 16x2x1 voxels on one pipeline: two passes of width 16. *)
Definition ZA65 : arith Z := mk_arith Z Z.add Z.sub Z.mul.
Definition Zmats65 : mats Z :=
  mk_mats Z (fun _ => 0) (fun _ => 0) (fun _ => 0) (fun _ => 0) (fun _ => 0) (fun _ => 0) (fun _ => 0)
    (fun _ => mk_mcoef Z 1 1 1 1 1 1 1 1 1 1 1 1 1).
Definition Zfield65 (l : floc) : Z :=
  match fst l with Ex => 3 * snd l | Ey => snd l * snd l | Ez => 7 - snd l | Cbx => 5 | Cby => 2 * snd l | _ => 1 end.
Example C65_example_premises : swaps ZA65 /\ commutes ZA65.
Proof. split; [intros a x y; cbn; lia|split; intros x y; cbn; lia]. Qed.
Example C65_example : exists r,
  vadvance_b_run Z ZA65 Zmats65 (mk_coefs Z 2 3 5 1 0) 16 2 1 false 1 16 Zfield65 r /\
  r (Cbz, voxel 16 2 1 1 2 1) = 1 - (2 * (Z.pow (voxel 16 2 1 2 2 1) 2 - Z.pow (voxel 16 2 1 1 2 1) 2) - 3 * (3 * 18)).
Proof.
  destruct (C65_runs_exist Z ZA65 Zmats65 (mk_coefs Z 2 3 5 1 0) 16 2 1 false 1 16 [] Zfield65) as [(r & H) _].
  exists r. split; [exact H|].
  destruct (C65_advance_b Z ZA65 Zmats65 (mk_coefs Z 2 3 5 1 0) 16 2 1 false 1 ltac:(lia) ltac:(lia) ltac:(lia)
    ltac:(lia) ltac:(lia) 16%nat (or_intror (or_intror eq_refl)) (proj1 C65_example_premises) _ _ H) as (_ & _ & _ & Z3).
  rewrite (proj1 Z3) by lia. reflexivity.
Qed.

(* A block of 16 voxels would be lost by a kernel of width 32. *)
Example C65_width_32_loses_voxels : exists r,
  vadvance_b_run Z ZA65 Zmats65 (mk_coefs Z 2 3 5 1 0) 16 1 1 false 1 32 Zfield65 r /\
  ~ faraday Z 16 1 1 ZA65 (mk_coefs Z 2 3 5 1 0) Zfield65 r.
Proof.
  assert (L : forall l hs hh m, exists hs', vracy floc Z (top Z) Z floc_eqb (texec Z ZA65 Zmats65 (mk_coefs Z 2 3 5 1 0)) fst
    (vb_puts Z ZA65 (mk_coefs Z 2 3 5 1 0) 16 1) hs hh m (map Scal l)
    (run_ops floc Z (top Z) floc_eqb (texec Z ZA65 Zmats65 (mk_coefs Z 2 3 5 1 0)) l m) hs').
  { induction l as [|o l IH]; intros hs hh m; [exists hs; constructor|].
    destruct (IH (m :: hs) (m :: hh) (stores floc Z floc_eqb (texec Z ZA65 Zmats65 (mk_coefs Z 2 3 5 1 0) o m) m)) as (hs' & H).
    exists hs'. econstructor; [|exact H]. intros x. exists m. split; [left; reflexivity|reflexivity]. }
  assert (E : vpipelines Z 16 1 1 false 1 32 1 (b_body Z 16 1) = []) by (vm_compute; reflexivity).
  unfold vadvance_b_run. rewrite E. cbn [app].
  destruct (L (pipe_ops Z (advance_b_host Z 16 1 1)) [] [] Zfield65) as (hs' & H).
  eexists. split; [eexists _, _; split; [reflexivity|exact H]|].
  intros (_ & _ & _ & F). destruct F as [F _]. specialize (F 1 1 1 ltac:(lia) ltac:(lia) ltac:(lia)).
  vm_compute in F. discriminate F.
Qed.
