From Coq Require Import ZArith List Bool Reals Lra Psatz Permutation.
From Verif Require Import SortModel SweepModel FieldModel FieldProofs FieldBoundaryModel.
Import ListNotations.
Open Scope R_scope.

(* ---- decay and drive ---- *)
Lemma decay_bounds a : 0 <= a -> 0 < decay_of a <= 1.
Proof.
  intros Ha. unfold decay_of. split; [apply exp_pos|].
  rewrite <- exp_0. destruct (Req_dec a 0) as [->|Hne]; [rewrite Ropp_0; lra|].
  left. apply exp_increasing. lra.
Qed.

Lemma drive_closed a eps : a <> 0 -> eps <> 0 -> drive_of a eps = (1 - exp (- a)) / (a * eps).
Proof.
  intros Ha He. unfold drive_of, decay_of.
  destruct (Req_EM_T a 0); [contradiction|].
  destruct (Req_EM_T (exp (- a)) 0) as [H|_]; [pose proof (exp_pos (- a)); lra|].
  unfold sinh. f_equal.
  replace (2 * exp (- (1 / 2) * a) * ((exp (1 / 2 * a) - exp (- (1 / 2 * a))) / 2)) with
    (exp (- (1 / 2) * a) * exp (1 / 2 * a) - exp (- (1 / 2) * a) * exp (- (1 / 2 * a))) by field.
  rewrite <- !exp_plus.
  replace (- (1 / 2) * a + 1 / 2 * a) with 0 by lra.
  replace (- (1 / 2) * a + - (1 / 2 * a)) with (- a) by lra.
  rewrite exp_0. reflexivity.
Qed.

Lemma one_minus_exp a : 0 < a -> a / (1 + a) <= 1 - exp (- a) <= a /\ 1 - exp (- a) <= 1.
Proof.
  intros Ha. pose proof (exp_pos (- a)) as Hp. pose proof (exp_ineq1 a ltac:(lra)) as H1.
  assert (H2 : 1 + - a < exp (- a)) by (apply exp_ineq1; lra).
  repeat split; try lra.
  assert (He : exp (- a) = / exp a) by apply exp_Ropp.
  assert (exp (- a) <= / (1 + a)).
  { rewrite He. apply Rinv_le_contravar; lra. }
  assert (a / (1 + a) = 1 - / (1 + a)) by (field; lra). lra.
Qed.

(* 1/((1+a) eps) <= drive <= min (1/eps, 1/(a eps)) *)
Lemma drive_bounds a eps : 0 <= a -> 0 < eps ->
  1 / ((1 + a) * eps) <= drive_of a eps <= 1 / eps /\ (0 < a -> drive_of a eps <= 1 / (a * eps)).
Proof.
  intros Ha He. assert (Hi : 0 < / eps) by (apply Rinv_0_lt_compat; lra).
  destruct (Req_dec a 0) as [->|Hne].
  - unfold drive_of. destruct (Req_EM_T 0 0) as [_|]; [|lra]. split; [|lra].
    replace ((1 + 0) * eps) with eps by ring. lra.
  - rewrite drive_closed by lra. destruct (one_minus_exp a ltac:(lra)) as [[H1 H2] H3].
    assert (Ha' : 0 < / (a * eps)) by (apply Rinv_0_lt_compat; nra).
    unfold Rdiv. repeat split.
    + replace (1 * / ((1 + a) * eps)) with (a / (1 + a) * / (a * eps)) by (field; lra).
      apply Rmult_le_compat_r; lra.
    + replace (1 * / eps) with (a * / (a * eps)) by (field; lra). apply Rmult_le_compat_r; lra.
    + intros _. apply Rmult_le_compat_r; lra.
Qed.

Lemma drive_limit_zero eps : 0 < eps -> forall d, 0 < d ->
  exists h, 0 < h /\ forall a, 0 <= a < h -> Rabs (drive_of a eps - 1 / eps) < d.
Proof.
  intros He d Hd. exists (d * eps). split; [nra|]. intros a Ha.
  destruct (drive_bounds a eps) as [[H1 H2] _]; try lra.
  assert (Hi : 0 < / eps) by (apply Rinv_0_lt_compat; lra).
  assert (H3 : 1 / eps - a / eps <= 1 / ((1 + a) * eps)).
  { replace (1 / eps - a / eps) with ((1 - a * a) * (1 / ((1 + a) * eps))) by (field; lra).
    assert (0 < 1 / ((1 + a) * eps)) by (apply Rdiv_lt_0_compat; nra). nra. }
  assert (H4 : a / eps < d).
  { apply Rmult_lt_reg_r with eps; [lra|]. unfold Rdiv. rewrite Rmult_assoc, Rinv_l by lra. lra. }
  rewrite Rabs_left1 by lra. lra.
Qed.

Lemma drive_limit_inf eps : 0 < eps -> forall d, 0 < d ->
  exists h, 0 < h /\ forall a, h < a -> Rabs (drive_of a eps) < d /\ 0 < decay_of a < d.
Proof.
  intros He d Hd. exists (1 / (d * eps) + 1 / d). 
  assert (h1 : 0 < 1 / (d * eps)) by (apply Rdiv_lt_0_compat; nra).
  assert (h2 : 0 < 1 / d) by (apply Rdiv_lt_0_compat; lra).
  split; [lra|]. intros a Ha.
  destruct (drive_bounds a eps) as [[H1 H2] H3]; try lra. specialize (H3 ltac:(lra)).
  assert (H0 : 0 < 1 / ((1 + a) * eps)) by (apply Rdiv_lt_0_compat; nra).
  split; [|split; [apply exp_pos|]].
  - rewrite Rabs_pos_eq by lra. apply Rle_lt_trans with (1 := H3).
    assert (Hlt : 1 < a * (d * eps)).
    { apply Rmult_lt_reg_r with (/ (d * eps)); [apply Rinv_0_lt_compat; nra|].
      rewrite Rmult_assoc, Rinv_r by nra. lra. }
    apply Rmult_lt_reg_r with (a * eps); [nra|]. unfold Rdiv. rewrite Rmult_assoc, Rinv_l by nra. lra.
  - unfold decay_of. rewrite exp_Ropp. pose proof (exp_ineq1 a ltac:(lra)).
    assert (Hlt : 1 < a * d).
    { apply Rmult_lt_reg_r with (/ d); [apply Rinv_0_lt_compat; lra|].
      rewrite Rmult_assoc, Rinv_r by lra. lra. }
    apply Rmult_lt_reg_r with (exp a); [lra|]. rewrite Rinv_l by lra. nra.
Qed.

(* ---- exact relaxation ---- *)
Lemma deriv_exp_lin l t : derivable_pt_lim (fun t => exp (l * t)) t (l * exp (l * t)).
Proof.
  replace (l * exp (l * t)) with (exp (l * t) * l) by ring.
  apply (derivable_pt_lim_comp (fun t => l * t) exp); [|apply derivable_pt_lim_exp].
  pose proof (derivable_pt_lim_scal id l t 1 (derivable_pt_lim_id t)) as H. rewrite Rmult_1_r in H. exact H.
Qed.

Lemma const_deriv f T : 0 < T -> (forall t, 0 <= t <= T -> derivable_pt_lim f t 0) -> f T = f 0.
Proof.
  intros HT H. destruct (MVT_cor2 f (fun _ => 0) 0 T HT H) as (c & Hc & _). lra.
Qed.

Lemma relaxation g sigma eps S y E0 :
  0 < dt g -> eps <> 0 -> eps0 g <> 0 ->
  y 0 = E0 ->
  (forall t, 0 <= t <= dt g ->
     derivable_pt_lim y t (S / (dt g * eps) - sigma / (eps * eps0 g) * y t)) ->
  y (dt g) = decay_of (mat_a g sigma eps) * E0 + drive_of (mat_a g sigma eps) eps * S.
Proof.
  intros Hdt He He0 Hy0 Hy. set (T := dt g) in *. set (l := sigma / (eps * eps0 g)) in *.
  assert (Ha : mat_a g sigma eps = l * T) by (unfold mat_a, l, T; field; auto).
  rewrite Ha. set (s := S / (T * eps)) in *.
  destruct (Req_dec l 0) as [Hl|Hl].
  - rewrite Hl, Rmult_0_l. unfold decay_of, drive_of. destruct (Req_EM_T 0 0) as [_|]; [|lra].
    rewrite Ropp_0, exp_0.
    assert (H : y T - s * T = y 0 - s * 0).
    { apply (const_deriv (fun t => y t - s * t)); [exact Hdt|]. intros t Ht.
      replace 0 with (s - s * 1) by ring.
      apply (derivable_pt_lim_minus y (fun t => s * t)).
      - pose proof (Hy t Ht) as H. rewrite Hl, Rmult_0_l, Rminus_0_r in H. exact H.
      - apply (derivable_pt_lim_scal id s t 1). apply derivable_pt_lim_id. }
    rewrite Hy0 in H. replace (y T) with (E0 + s * T) by lra. unfold s. field. split; lra.
  - assert (H : exp (l * T) * (y T - s / l) = exp (l * 0) * (y 0 - s / l)).
    { apply (const_deriv (fun t => exp (l * t) * (y t - s / l))); [exact Hdt|]. intros t Ht.
      replace 0 with (l * exp (l * t) * (y t - s / l) + exp (l * t) * ((s - l * y t) - 0)) by (field; exact Hl).
      apply (derivable_pt_lim_mult (fun t => exp (l * t)) (fun t => y t - s / l)).
      - apply deriv_exp_lin.
      - apply (derivable_pt_lim_minus y (fun _ => s / l)); [apply Hy; exact Ht|].
        apply derivable_pt_lim_const. }
    rewrite Hy0, Rmult_0_r, exp_0 in H.
    rewrite drive_closed by (first [assumption | apply Rmult_integral_contrapositive; split; lra]).
    unfold decay_of. rewrite exp_Ropp. pose proof (exp_pos (l * T)) as Hp.
    assert (Hy' : y T = s / l + / exp (l * T) * (E0 - s / l)).
    { apply Rmult_eq_reg_l with (exp (l * T)); [|lra].
      transitivity (exp (l * T) * (y T - s / l) + exp (l * T) * (s / l)); [ring|]. rewrite H. field. split; lra. }
    rewrite Hy'. unfold s. field. repeat split; lra.
Qed.

(* such a y exists *)
Lemma relaxation_exists g sigma eps S E0 : 0 < dt g -> eps <> 0 -> eps0 g <> 0 ->
  exists y, y 0 = E0 /\ forall t,
    derivable_pt_lim y t (S / (dt g * eps) - sigma / (eps * eps0 g) * y t).
Proof.
  intros Hdt He He0. set (l := sigma / (eps * eps0 g)). set (s := S / (dt g * eps)).
  destruct (Req_dec l 0) as [Hl|Hl].
  - exists (fun t => E0 + s * t). split; [ring|]. intros t. rewrite Hl.
    replace (s - 0 * (E0 + s * t)) with (0 + s * 1) by ring.
    apply (derivable_pt_lim_plus (fun _ => E0) (fun t => s * t)); [apply derivable_pt_lim_const|].
    apply (derivable_pt_lim_scal id s t 1). apply derivable_pt_lim_id.
  - exists (fun t => s / l + (E0 - s / l) * exp (- l * t)). split; [rewrite Rmult_0_r, exp_0; ring|].
    intros t. replace (s - l * (s / l + (E0 - s / l) * exp (- l * t))) with
      (0 + (E0 - s / l) * (- l * exp (- l * t))) by (field; exact Hl).
    apply (derivable_pt_lim_plus (fun _ => s / l) (fun t => (E0 - s / l) * exp (- l * t)));
      [apply derivable_pt_lim_const|].
    apply (derivable_pt_lim_scal (fun t => exp (- l * t)) (E0 - s / l) t). apply deriv_exp_lin.
Qed.

Lemma mat_a_nonneg g sigma eps : 0 <= sigma -> 0 < eps -> 0 < eps0 g -> 0 <= dt g -> 0 <= mat_a g sigma eps.
Proof.
  intros. unfold mat_a, Rdiv. apply Rmult_le_pos; [nra|]. left. apply Rinv_0_lt_compat. nra.
Qed.

(* ---- vacuum kernels ---- *)
Definition single (mt : mats R) : Prop := forall v,
  ematx mt v = 0%Z /\ ematy mt v = 0%Z /\ ematz mt v = 0%Z /\ nmat mt v = 0%Z /\
  fmatx mt v = 0%Z /\ fmaty mt v = 0%Z /\ fmatz mt v = 0%Z.

Lemma vacuum_kernel mt k o F : single mt -> has_vacuum o = true ->
  vac_fexec k (mtab mt 0) o F = fexec R RA mt k o F.
Proof.
  intros Hs Ho. 
  assert (h1 : forall v, ematx mt v = 0%Z) by (intros v; apply Hs).
  assert (h2 : forall v, ematy mt v = 0%Z) by (intros v; apply Hs).
  assert (h3 : forall v, ematz mt v = 0%Z) by (intros v; apply Hs).
  assert (h4 : forall v, nmat mt v = 0%Z) by (intros v; apply Hs).
  assert (h5 : forall v, fmatx mt v = 0%Z) by (intros v; apply Hs).
  assert (h6 : forall v, fmaty mt v = 0%Z) by (intros v; apply Hs).
  assert (h7 : forall v, fmatz mt v = 0%Z) by (intros v; apply Hs).
  destruct o; cbn in Ho; try discriminate; unfold vac_fexec, vac_curl_x, vac_curl_y, vac_curl_z, vac_div; cbn;
    unfold curl_x, curl_y, curl_z, div_eps_e, M; cbn; rewrite ?h1, ?h2, ?h3, ?h4, ?h5, ?h6, ?h7;
    repeat match goal with
      | |- @eq R _ _ => ring
      | |- (_, _) = (_, _) => apply f_equal2
      | |- _ :: _ = _ :: _ => apply f_equal2
      | |- _ => reflexivity
      end.
Qed.

Section Ext.
Variables (loc val op : Type).
Variable loc_eqb : loc -> loc -> bool.
Variables (exec exec' : op -> (loc -> val) -> list (loc * val)).
Variable host : op -> bool.
Variable ok : op -> Prop.
Hypothesis Hext : forall o F, ok o -> exec o F = exec' o F.

Lemma racy_ext hs hh m ops r hs' : Forall ok ops ->
  racy loc val op loc_eqb exec host hs hh m ops r hs' -> racy loc val op loc_eqb exec' host hs hh m ops r hs'.
Proof.
  intros Hok H. revert Hok. induction H; intros Hok; [constructor|].
  inversion_clear Hok. apply racy_cons with (s := s); [assumption|].
  rewrite <- Hext by assumption. apply IHracy. assumption.
Qed.

Lemma phase_ext ops m r : Forall ok ops -> phase_run loc val op loc_eqb exec host ops m r ->
  phase_run loc val op loc_eqb exec' host ops m r.
Proof.
  intros Hok (ops' & hs' & HP & H). exists ops', hs'. split; [exact HP|]. apply racy_ext; [|exact H].
  eapply Permutation_Forall; eassumption.
Qed.

Lemma split_ext Q G H m r : Forall ok Q -> Forall ok G -> Forall ok H ->
  split_run loc val op loc_eqb exec host Q G H m r -> split_run loc val op loc_eqb exec' host Q G H m r.
Proof.
  intros HQ HG HH (Q1 & Q2 & L1 & L2 & m1 & hs1 & hs2 & P1 & P2 & R1 & P3 & R2).
  exists Q1, Q2, L1, L2, m1, hs1, hs2.
  pose proof (Permutation_Forall P1 HQ) as HQ'. apply Forall_app in HQ'. destruct HQ' as [HQ1 HQ2].
  repeat split; try assumption; (apply racy_ext; [|assumption]).
  - eapply Permutation_Forall; [symmetry; exact P2|]. apply Forall_app. auto.
  - eapply Permutation_Forall; [symmetry; exact P3|]. apply Forall_app. auto.
Qed.
End Ext.

Section VacRuns.
Variables (mt : mats R) (k : coefs R).
Hypothesis Hs : single mt.

Definition vac_ok (o : top R) : Prop :=
  has_vacuum (snd o) = true \/ exists c v x, snd o = GHOST c v x.

Lemma vac_texec_eq o F : vac_ok o -> vac_texec k (mtab mt 0) o F = texec R RA mt k o F.
Proof.
  intros [H|(c & v & x & H)]; unfold vac_texec, texec.
  - destruct (snd o); try discriminate H; apply vacuum_kernel; assumption.
  - rewrite H. reflexivity.
Qed.

Lemma vac_ok_ghosts G : Forall vac_ok (host_ops R (ghost_ops G)).
Proof.
  apply Forall_forall. intros o Ho. apply in_map_iff in Ho. destruct Ho as (o' & <- & Ho).
  apply in_map_iff in Ho. destruct Ho as ([[c v] x] & <- & _). right. exists c, v, x. reflexivity.
Qed.

Lemma vac_ok_ops b l : (forall o, In o l -> has_vacuum o = true) -> Forall vac_ok (map (pair b) l).
Proof.
  intros H. apply Forall_forall. intros o Ho. apply in_map_iff in Ho. destruct Ho as (o' & <- & Ho).
  left. apply H. exact Ho.
Qed.

Lemma vac_free ops m r : (forall o, In o ops -> has_vacuum o = true) ->
  (vac_free_run k (mtab mt 0) ops m r <-> free_run R RA mt k ops m r).
Proof.
  intros H. split; apply (phase_ext _ _ _ _ _ _ _ vac_ok); try (apply vac_ok_ops; exact H);
    intros; [|symmetry]; apply vac_texec_eq; assumption.
Qed.

Lemma vac_ghost Q G H m r : (forall o, In o Q -> has_vacuum o = true) -> (forall o, In o H -> has_vacuum o = true) ->
  (vac_ghost_run k (mtab mt 0) Q G H m r <-> ghost_run R RA mt k Q G H m r).
Proof.
  intros HQ HH. split; apply (split_ext _ _ _ _ _ _ _ vac_ok);
    try (apply vac_ok_ops; assumption); try apply vac_ok_ghosts;
    intros; [|symmetry]; apply vac_texec_eq; assumption.
Qed.

Lemma in_pipelines nx ny nz contract P lo body (o : fop R) :
  In o (pipelines R nx ny nz contract P lo body) -> exists v, In o (body v).
Proof.
  unfold pipelines. intros H. apply in_flat_map in H. destruct H as (p & _ & H).
  apply in_flat_map in H. destruct H as ([[[v x] y] z] & _ & H). eauto.
Qed.

Ltac ops_in H :=
  repeat match type of H with
  | In _ (_ ++ _) => apply in_app_or in H; destruct H as [H|H]
  | In _ (for_ _ _ _) => apply in_for in H; destruct H as (? & _ & H); cbv beta zeta in H
  | In _ (pipelines _ _ _ _ _ _ _ _) => apply in_pipelines in H; destruct H as (? & H)
  | In _ _ => cbn [In] in H
  | _ \/ _ => destruct H as [<-|H]; [reflexivity|]
  | False => destruct H
  end.

Variables (nx ny nz : Z) (contract : bool) (P : Z).

Lemma vac_clean_div_e m r :
  vac_clean_div_e_run k (mtab mt 0) nx ny nz contract P m r <-> clean_div_e_run R RA mt k nx ny nz contract P m r.
Proof.
  apply vac_free. intros o H. unfold clean_e_pipes, clean_e_leftover in H. ops_in H.
Qed.
Lemma vac_advance_e G m r :
  vac_advance_e_run k (mtab mt 0) nx ny nz contract P G m r <-> advance_e_run R RA mt k nx ny nz contract P G m r.
Proof.
  apply vac_ghost; intros o H; unfold advance_e_pipes, advance_e_leftover, advance_e_exterior in H; ops_in H.
Qed.
Lemma vac_curl_b G m r :
  vac_curl_b_run k (mtab mt 0) nx ny nz contract P G m r <-> curl_b_run R RA mt k nx ny nz contract P G m r.
Proof.
  apply vac_ghost; intros o H; unfold advance_e_pipes, advance_e_leftover, advance_e_exterior in H; ops_in H.
Qed.
Lemma vac_div_e_err G m r :
  vac_div_e_err_run k (mtab mt 0) nx ny nz contract P G m r <-> div_e_err_run R RA mt k nx ny nz contract P G m r.
Proof.
  apply vac_ghost; intros o H; unfold div_e_pipes, div_e_exterior in H; ops_in H.
Qed.
Lemma vac_rhob G m r :
  vac_rhob_run k (mtab mt 0) nx ny nz contract P G m r <-> rhob_run R RA mt k nx ny nz contract P G m r.
Proof.
  apply vac_ghost; intros o H; unfold div_e_pipes, div_e_exterior in H; ops_in H.
Qed.
End VacRuns.
