(* Proofs about the refluxing boundary condition. *)
Require Import ZArith List Bool Reals Lra Lia Psatz.
From Flocq Require Import Core BinarySingleNaN.
Require Verif.VecPartFloat Verif.RemoveProofs.
Require Import Verif.FloatModel Verif.FloatProofs Verif.ParticleModel Verif.ParticleSpec Verif.ParticleProofs Verif.MoverModel Verif.RefluxModel Verif.RefluxSpec.
Import ListNotations.
Ltac Zify.zify_post_hook ::= idtac.
Open Scope Z_scope.

Lemma face_cases f : 0 <= f < 6 -> f = 0 \/ f = 1 \/ f = 2 \/ f = 3 \/ f = 4 \/ f = 5.
Proof. lia. Qed.

Lemma zget_some {A} (l : list A) i : 0 <= i < Z.of_nat (length l) -> exists x, zget l i = Some x.
Proof.
  intros H. unfold zget. rewrite (proj2 (Z.ltb_ge _ _)) by lia. destruct (nth_error l (Z.to_nat i)) eqn:E; [eauto|].
  apply nth_error_None in E. lia.
Qed.
Lemma zget_in {A} (l : list A) i x : zget l i = Some x -> 0 <= i < Z.of_nat (length l).
Proof.
  unfold zget. destruct (i <? 0) eqn:E; [discriminate|]. apply Z.ltb_ge in E. intros H.
  assert (Z.to_nat i < length l)%nat by (apply nth_error_Some; congruence). lia.
Qed.

Section Any.
Context {V : Type} (K : num V).
Variables root2 tiny : V.
Lemma bath_u_some para perp f e n1 n2 : 0 <= f < 6 -> exists u, bath_u K root2 para perp f e n1 n2 = Some u /\
  vget u (face_axis f) = n_mul K (n_mul K para (scale K root2 f)) (n_sqrt K e) /\
  vget u (next_axis (face_axis f)) = n_mul K perp n1 /\
  vget u (next_axis (next_axis (face_axis f))) = n_mul K perp n2.
Proof. intros H. destruct (face_cases f H) as [->|[->|[->|[->|[->| ->]]]]]; eexists; repeat split. Qed.
Lemma bath_u_face para perp f e n1 n2 u : bath_u K root2 para perp f e n1 n2 = Some u -> 0 <= f < 6.
Proof.
  unfold bath_u, perm_row. intros H. assert (f = 0 \/ f = 1 \/ f = 2 \/ f = 3 \/ f = 4 \/ f = 5); [|lia].
  destruct f as [|q|q]; try discriminate; [auto|]. destruct q as [[|[]|]|[|[]|]|]; try discriminate; auto 10.
Qed.
End Any.

Open Scope R_scope.
Lemma sqr_len2 u : sqr Rnum u = len2 u.
Proof. unfold sqr, len2. cbn [Rnum n_add n_mul]. ring. Qed.
Lemma len2_nonneg u : 0 <= len2 u.
Proof. unfold len2. nra. Qed.
Lemma gamma_pos u : 0 < gamma u.
Proof. unfold gamma. apply sqrt_lt_R0. pose proof (len2_nonneg u). lra. Qed.
Lemma tiny_pos : 0 < R_tiny.
Proof. unfold R_tiny. apply Rinv_0_lt_compat, pow_lt. lra. Qed.

Lemma ratio_R tiny c u u' disp : 0 < tiny ->
  ratio Rnum tiny c u u' disp = gamma u * sqrt (len2 (in_space (c_d c) disp)) / (gamma u' * sqrt (tiny + len2 u)).
Proof.
  intros T. unfold ratio. rewrite !sqr_len2. cbn [Rnum n_add n_mul n_div n_sqrt n_one].
  change (vmap2 Rmult (c_d c) disp) with (in_space (c_d c) disp).
  pose proof (len2_nonneg u). pose proof (len2_nonneg u'). pose proof (len2_nonneg (in_space (c_d c) disp)). unfold gamma.
  rewrite <- !sqrt_mult by lra. rewrite <- sqrt_div; [reflexivity|apply Rmult_le_pos; lra|apply Rmult_lt_0_compat; lra].
Qed.

(* 1 / sqrt (1 + t) is within t/2 of one *)
Lemma shrink_bounds x t : 0 < x -> 0 < t -> let k := sqrt x / sqrt (t + x) in 0 < k < 1 /\ 1 - k <= t / (2 * x).
Proof.
  intros X T k. assert (A : 0 < sqrt x) by (apply sqrt_lt_R0; lra). assert (B : 0 < sqrt (t + x)) by (apply sqrt_lt_R0; lra).
  assert (AA : sqrt x * sqrt x = x) by (apply sqrt_sqrt; lra). assert (BB : sqrt (t + x) * sqrt (t + x) = t + x) by (apply sqrt_sqrt; lra).
  assert (L : sqrt x < sqrt (t + x)) by (apply sqrt_lt_1; lra).
  unfold k. split; [split|].
  - apply Rdiv_lt_0_compat; lra.
  - apply Rmult_lt_reg_r with (sqrt (t + x)); [exact B|]. unfold Rdiv. rewrite Rmult_assoc, Rinv_l by lra. lra.
  - set (a := sqrt x) in *. set (b := sqrt (t + x)) in *.
    replace (1 - a / b) with ((b - a) / b) by (field; lra).
    apply Rmult_le_reg_r with (b * (2 * x)); [nra|].
    replace ((b - a) / b * (b * (2 * x))) with ((b - a) * (2 * x)) by (field; lra).
    replace (t / (2 * x) * (b * (2 * x))) with (t * b) by (field; lra).
    clearbody a b. replace t with ((b - a) * (b + a)) by lra. rewrite <- AA.
    assert (0 <= (b + a) * b - 2 * (a * a)) by nra. assert (0 <= (b - a) * ((b + a) * b - 2 * (a * a))) by (apply Rmult_le_pos; lra). lra.
Qed.

Lemma scale_sq x k : len2 (mkv (x * vx k) (x * vy k) (x * vz k)) = x ^ 2 * len2 k.
Proof. unfold len2. cbn [vx vy vz]. ring. Qed.

(* ---- the wall is not touched again ---- *)
Definition same_but (a : axis) (g1 g2 : mesh) : Prop :=
  mrangel g1 = mrangel g2 /\ mrangeh g1 = mrangeh g2 /\
  forall v f, (0 <= f < 6)%Z -> face_axis f <> a -> nbr_at g1 v f = nbr_at g2 v f.

Lemma face_axis_of b d : face_axis (face_of b d) = b /\ (0 <= face_of b d < 6)%Z.
Proof. unfold face_of. destruct (Rltb 0 d), b; cbn; split; try reflexivity; lia. Qed.

Lemma axis_eq_dec (a b : axis) : {a = b} + {a <> b}.
Proof. decide equality. Qed.

Definition stays (p : part R) (disp : vec R) (a : axis) : Prop := vget disp a = 0 \/ -1 < vget (pd p) a + 2 * vget disp a < 1.
Lemma not_reached a p disp h b : stays p disp a -> hstep p disp = (h, Some b) -> b <> a.
Proof.
  intros I E ->. pose proof (hstep_R p disp) as H. rewrite E in H. destruct H as (N & Hh & L & _).
  assert (D : dirR (vget disp a) - vget (pd p) a = 2 * h * vget disp a) by (rewrite Hh; field; exact N).
  destruct I as [I|I]; [contradiction|]. unfold dirR in D. destruct (Rltb_spec 0 (vget disp a)); nra.
Qed.

Lemma move_misses a g1 g2 q : same_but a g1 g2 -> forall fuel p disp log,
  stays p disp a ->
  move_loop Rnum fuel g1 q p disp log = move_loop Rnum fuel g2 q p disp log /\
  forall st p' disp' log', move_loop Rnum fuel g1 q p disp log = MDone st p' disp' log' ->
    vget (pu p') a = vget (pu p) a /\ vget (pd p') a + 2 * vget disp' a = vget (pd p) a + 2 * vget disp a /\
    (if st then exists v f, (0 <= f < 6)%Z /\ pi p' = (8 * v + f)%Z /\ face_axis f <> a else vget disp' a = 0).
Proof.
  intros (L & H & N). induction fuel as [|fuel IH]; intros p disp log I; [split; [reflexivity|discriminate]|].
  rewrite !move_step. destruct (hstep p disp) as [h ax] eqn:Eh. cbv zeta.
  assert (S : vget (dstep (pd p) (sstep disp h)) a + 2 * vget (vmap2 Rminus disp (sstep disp h)) a = vget (pd p) a + 2 * vget disp a).
  { unfold dstep. rewrite !vget_vmap2. unfold sstep. rewrite !vget_vmap. ring. }
  assert (Z : vget disp a = 0 -> vget (vmap2 Rminus disp (sstep disp h)) a = 0).
  { intros Z. unfold sstep. rewrite vget_vmap2, vget_vmap, Z. ring. }
  destruct ax as [b|].
  2:{ split; [reflexivity|]. intros st p' disp' log' [= <- <- <- <-]. split; [reflexivity|]. split; [exact S|].
      pose proof (hstep_R p disp) as HR. rewrite Eh in HR. destruct HR as (-> & _).
      rewrite vget_vmap2. unfold sstep. rewrite vget_vmap. ring. }
  pose proof (not_reached a p disp h b I Eh) as NB.
  set (f := face_of b (dirR (vget disp b))). destruct (face_axis_of b (dirR (vget disp b))) as [FA FR]. fold f in FA, FR.
  rewrite <- (N (pi p) f FR) by congruence. rewrite <- L, <- H.
  destruct (negb (int_ok (6 * pi p))); [split; [reflexivity|discriminate]|].
  destruct (nbr_at g1 (pi p) f) as [n|]; [|split; [reflexivity|discriminate]].
  assert (VS : forall (v : vec R) x, vget (vset v b x) a = vget v a) by (intros; rewrite vget_vset; destruct a, b; congruence).
  destruct (n =? reflect_particles)%Z; [|destruct ((n <? mrangel g1) || (mrangeh g1 <? n))%Z].
  - match goal with |- move_loop _ _ _ _ ?P ?D ?G = _ /\ _ => destruct (IH P D G) as [E1 E2] end;
      [unfold stays; cbn [pd]; rewrite !VS; destruct I as [I|I]; [left; exact (Z I)|right; rewrite S; exact I]|]. split; [exact E1|]. intros st p' disp' log' E. destruct (E2 _ _ _ _ E) as (A & B & C).
    cbn [pu pd] in A, B. rewrite ?VS in A. split; [exact A|]. split; [rewrite B, ?VS; exact S|exact C].
  - destruct (negb (int_ok (8 * pi p)) || negb (int_ok (8 * pi p + f))); [split; [reflexivity|discriminate]|].
    split; [reflexivity|]. intros st p' disp' log' [= <- <- <- <-]. cbn [pu pd pi]. rewrite VS. split; [reflexivity|]. split; [exact S|].
    exists (pi p), f. split; [exact FR|]. split; [reflexivity|]. congruence.
  - match goal with |- move_loop _ _ _ _ ?P ?D ?G = _ /\ _ => destruct (IH P D G) as [E1 E2] end;
      [unfold stays; cbn [pd]; rewrite !VS; destruct I as [I|I]; [left; exact (Z I)|right; rewrite S; exact I]|]. split; [exact E1|]. intros st p' disp' log' E. destruct (E2 _ _ _ _ E) as (A & B & C).
    cbn [pu pd] in A, B. split; [exact A|]. split; [rewrite B, ?VS; exact S|exact C].
Qed.

(* ---- binary32 ---- *)
Lemma f_sqrt_ok x a : fin32 x a -> 0 <= a -> fin32 (f_sqrt x) (RN32 (sqrt a)).
Proof.
  intros [F E] A. pose proof (Bsqrt_correct 24 128 prec_gt_0_32 prec_lt_emax_32 mode_NE x) as (H1 & H2 & _).
  change (B2R x) with (B2R32 x) in H1. rewrite E in H1. split; [|exact H1]. unfold f_sqrt. rewrite H2.
  destruct x as [sg|sg| |sg m ex Hb]; try discriminate; [reflexivity|]. destruct sg; [|reflexivity].
  exfalso. assert (B2R32 (B754_finite true m ex Hb) < 0) by (apply F2R_lt_0; reflexivity). lra.
Qed.
Lemma RN32_pos x : 0 <= x -> 0 <= RN32 x.
Proof. intros H. apply round_ge_generic; [apply FLT_exp_valid; reflexivity|apply valid_rnd_N|apply generic_format_0|exact H]. Qed.
Lemma RN32_le_pow x k : (-126 <= k <= 127)%Z -> x <= bpow radix2 k -> RN32 x <= bpow radix2 k.
Proof.
  intros Hk H. apply round_le_generic; [apply FLT_exp_valid; reflexivity|apply valid_rnd_N| |exact H].
  apply generic_format_bpow. unfold FLT_exp. lia.
Qed.
Lemma fin32_ldexp m e : (Z.abs m < 2 ^ 24)%Z -> (-149 <= e <= 100)%Z -> fin32 (f_ldexp m e) (IZR m * bpow radix2 e).
Proof.
  intros Hm He. pose proof (binary_normalize_correct 24 128 prec_gt_0_32 prec_lt_emax_32 mode_NE m e false) as H. cbv zeta in H.
  change (round radix2 (SpecFloat.fexp 24 128) (round_mode mode_NE)) with RN32 in H. unfold F2R in H. cbn [Defs.Fnum Defs.Fexp] in H.
  assert (G : generic_format radix2 (FLT_exp (-149) 24) (IZR m * bpow radix2 e)).
  { apply generic_format_FLT with (emin := (-149)%Z) (prec := 24%Z). exists (Defs.Float radix2 m e); [reflexivity| |]; cbn [Defs.Fnum Defs.Fexp]; [exact Hm|lia]. }
  assert (RR : RN32 (IZR m * bpow radix2 e) = IZR m * bpow radix2 e) by (apply round_generic; [apply valid_rnd_N|exact G]).
  rewrite RR in H.
  rewrite Rlt_bool_true in H; [destruct H as (H1 & H2 & _); split; assumption|].
  rewrite Rabs_mult, (Rabs_pos_eq (bpow radix2 e)) by apply bpow_ge_0. rewrite <- abs_IZR.
  apply Rlt_le_trans with (bpow radix2 24 * bpow radix2 e).
  - apply Rmult_lt_compat_r; [apply bpow_gt_0|]. change (bpow radix2 24) with (IZR (2 ^ 24)). apply IZR_lt. exact Hm.
  - rewrite <- bpow_plus. apply bpow_le. lia.
Qed.
Lemma root2_fin : exists r, fin32 F_root2 r /\ 1 <= r <= 2.
Proof.
  eexists. split; [apply fin32_ldexp; [reflexivity|lia]|]. cbn. split; lra.
Qed.
Lemma tiny_fin : fin32 F_tiny (bpow radix2 (-126)).
Proof. replace (bpow radix2 (-126)) with (1 * bpow radix2 (-126)) by ring. apply (fin32_ldexp 1 (-126)); [reflexivity|lia]. Qed.

Lemma normal32 para e a b f : fin32 para a -> fin32 e b -> 0 <= a <= bpow radix2 100 -> 0 <= b <= bpow radix2 20 -> exists x,
  fin32 (f_mul (f_mul para (scale Fnum F_root2 f)) (f_sqrt e)) x /\ if (f <? 3)%Z then 0 <= x else x <= 0.
Proof.
  intros Fp Fe Ha Hb. destruct root2_fin as (r & Fr & Hr).
  pose proof (f_sqrt_ok e b Fe (proj1 Hb)) as Fs.
  assert (S0 : 0 <= RN32 (sqrt b)) by (apply RN32_pos, sqrt_pos).
  assert (S1 : RN32 (sqrt b) <= bpow radix2 10).
  { apply RN32_le_pow; [lia|]. change (bpow radix2 20) with (bpow radix2 (10 + 10)) in Hb. rewrite bpow_plus in Hb.
    rewrite <- (sqrt_square (bpow radix2 10)) by apply bpow_ge_0. apply sqrt_le_1_alt. apply Hb. }
  assert (P1 : 0 <= a * r <= bpow radix2 101).
  { split; [apply Rmult_le_pos; lra|]. change 101%Z with (100 + 1)%Z. rewrite bpow_plus. change (bpow radix2 1) with 2. apply Rmult_le_compat; lra. }
  assert (B : forall y, 0 <= y <= bpow radix2 101 -> Rabs y <= bpow radix2 127) by (intros y Hy; rewrite Rabs_pos_eq by apply Hy; apply Rle_trans with (bpow radix2 101); [apply Hy|apply bpow_le; lia]).
  assert (Q0 : forall y, 0 <= y <= bpow radix2 101 -> 0 <= RN32 y * RN32 (sqrt b) /\ Rabs (RN32 y * RN32 (sqrt b)) <= bpow radix2 127).
  { intros y Hy. assert (0 <= RN32 y) by (apply RN32_pos; lra). assert (RN32 y <= bpow radix2 101) by (apply RN32_le_pow; [lia|apply Hy]).
    split; [apply Rmult_le_pos; lra|]. rewrite Rabs_pos_eq by (apply Rmult_le_pos; lra).
    apply Rle_trans with (bpow radix2 101 * bpow radix2 10); [apply Rmult_le_compat; lra|]. rewrite <- bpow_plus. apply bpow_le. lia. }
  unfold scale. destruct (f <? 3)%Z.
  - pose proof (f_mul_ok _ _ _ _ Fp Fr (B _ P1)) as M1. destruct (Q0 _ P1) as [Q1 Q2].
    pose proof (f_mul_ok _ _ _ _ M1 Fs Q2) as M2. eexists. split; [exact M2|]. apply RN32_pos. exact Q1.
  - assert (Fo : fin32 (n_opp Fnum F_root2) (- r)) by (exact (VecPartFloat.fin32_opp _ _ Fr)).
    assert (M1 : fin32 (f_mul para (n_opp Fnum F_root2)) (RN32 (a * - r))) by (apply (f_mul_ok _ _ _ _ Fp Fo); rewrite Ropp_mult_distr_r_reverse, Rabs_Ropp; apply B, P1).
    assert (E : RN32 (a * - r) = - RN32 (a * r)) by (rewrite Ropp_mult_distr_r_reverse; apply round_NE_opp).
    rewrite E in M1. destruct (Q0 _ P1) as [Q1 Q2].
    assert (M2 : fin32 (f_mul (f_mul para (n_opp Fnum F_root2)) (f_sqrt e)) (RN32 (- RN32 (a * r) * RN32 (sqrt b)))).
    { apply (f_mul_ok _ _ _ _ M1 Fs). rewrite Ropp_mult_distr_l_reverse, Rabs_Ropp. exact Q2. }
    eexists. split; [exact M2|]. rewrite Ropp_mult_distr_l_reverse. unfold RN32. rewrite round_NE_opp. fold RN32.
    pose proof (RN32_pos _ Q1) as P. unfold RN32 in P. lra.
Qed.

Lemma tiny_absorbed x a : fin32 x a -> bpow radix2 (-101) <= a <= bpow radix2 126 -> f_add F_tiny x = x.
Proof.
  intros [Fx Ex] [Hl Hh].
  assert (Gx : generic_format radix2 (FLT_exp (-149) 24) a) by (rewrite <- Ex; exact (generic_format_B2R 24 128 x)).
  assert (P0 : 0 < a) by (apply Rlt_le_trans with (2 := Hl), bpow_gt_0).
  assert (U : bpow radix2 (-124) <= ulp radix2 (FLT_exp (-149) 24) a).
  { rewrite ulp_neq_0 by lra. apply bpow_le. unfold cexp, FLT_exp.
    assert (-101 < mag radix2 a)%Z by (apply mag_gt_bpow; rewrite Rabs_pos_eq by lra; exact Hl). lia. }
  assert (T : bpow radix2 (-126) < ulp radix2 (FLT_exp (-149) 24) a / 2).
  { apply Rlt_le_trans with (bpow radix2 (-125)); [apply bpow_lt; lia|]. replace (bpow radix2 (-125)) with (bpow radix2 (-124) / 2); [lra|].
    change (-124)%Z with (-125 + 1)%Z. rewrite bpow_plus. change (bpow radix2 1) with 2. field. }
  assert (T0 : 0 < bpow radix2 (-126)) by apply bpow_gt_0.
  assert (R : RN32 (bpow radix2 (-126) + a) = a).
  { rewrite Rplus_comm. unfold RN32.
    assert (VE : Valid_exp (FLT_exp (-149) 24)) by (apply FLT_exp_valid; reflexivity).
    assert (D : round radix2 (FLT_exp (-149) 24) Zfloor (a + bpow radix2 (-126)) = a) by (apply round_DN_plus_eps_pos; [exact VE|lra|exact Gx|split; lra]).
    assert (UU : round radix2 (FLT_exp (-149) 24) Zceil (a + bpow radix2 (-126)) = a + ulp radix2 (FLT_exp (-149) 24) a) by (apply round_UP_plus_eps_pos; [exact VE|lra|exact Gx|split; lra]).
    transitivity (round radix2 (FLT_exp (-149) 24) Zfloor (a + bpow radix2 (-126))); [|exact D].
    apply (round_N_eq_DN radix2 (FLT_exp (-149) 24) (fun x => negb (Z.even x))). rewrite D, UU. lra. }
  assert (S : fin32 (f_add F_tiny x) a).
  { rewrite <- R at 1. apply f_add_ok; [exact tiny_fin|split; assumption|].
    rewrite Rabs_pos_eq by lra. apply Rle_trans with (bpow radix2 126 + bpow radix2 126); [assert (bpow radix2 (-126) <= bpow radix2 126) by (apply bpow_le; lia); lra|].
    change 127%Z with (126 + 1)%Z. rewrite bpow_plus. change (bpow radix2 1) with 2. lra. }
  destruct S as [S1 S2]. apply B2R_inj.
  - destruct (f_add F_tiny x) as [sg|sg| |sg m e Hb]; try discriminate; [|reflexivity]. cbn in S2. lra.
  - destruct x as [sg|sg| |sg m e Hb]; try discriminate; [|reflexivity]. cbn in Ex. lra.
  - change (B2R (f_add F_tiny x)) with (B2R32 (f_add F_tiny x)). change (B2R x) with (B2R32 x). congruence.
Qed.

(* ---- the arrays ---- *)
Definition sized {V} (n : Z) (s : hstate V) : Prop :=
  exists b, h_bath s = Some b /\ Z.of_nat (length (ut_para b)) = n /\ Z.of_nat (length (ut_perp b)) = n.
Definition fits {V} (n : Z) (ev : hevent V) : Prop :=
  match ev with HSpecies => True | HCreate => False | HSet id _ _ | HHit id => (0 <= id < n)%Z end.
Lemma sized_step {V} (K : num V) n s ev : sized n s -> fits n ev ->
  bath_step K s ev = RErr \/ exists s', bath_step K s ev = ROk s' /\ sized n s'.
Proof.
  intros (b & Eb & L1 & L2) F. unfold bath_step. destruct ev as [| |id para perp|id]; cbn [fits] in F.
  - right. eexists. split; [reflexivity|]. exists b. auto.
  - contradiction.
  - rewrite Eb. unfold set_temp. destruct (n_lt K para _ || n_lt K perp _); [now left|].
    destruct (zget_some (ut_para b) id) as [x ->]; [lia|]. destruct (zget_some (ut_perp b) id) as [y ->]; [lia|].
    right. eexists. split; [reflexivity|]. eexists. split; [reflexivity|]. cbn [ut_para ut_perp]. rewrite !RemoveProofs.put_length by lia. auto.
  - rewrite Eb. destruct (zget_some (ut_para b) id) as [x ->]; [lia|]. destruct (zget_some (ut_perp b) id) as [y ->]; [lia|].
    right. eexists. split; [reflexivity|]. exists b. auto.
Qed.
Lemma sized_run {V} (K : num V) n l : forall s, sized n s -> Forall (fits n) l ->
  bath_run K s l = RErr \/ exists s', bath_run K s l = ROk s' /\ sized n s'.
Proof.
  induction l as [|ev l IH]; intros s S F; [right; exists s; auto|]. inversion F as [|? ? F1 F2]; subst. cbn [bath_run].
  destruct (sized_step K n s ev S F1) as [->|(s' & -> & S')]; [now left|]. now apply IH.
Qed.
Lemma species_run {V} (K : num V) k : forall n l, bath_run K (mk_hs n None) (repeat HSpecies k ++ l) = bath_run K (mk_hs (n + Z.of_nat k)%Z None) l.
Proof.
  induction k as [|k IH]; intros n l; [cbn [repeat app]; do 2 f_equal; lia|]. cbn [repeat app bath_run bath_step h_n h_bath].
  rewrite IH. do 2 f_equal. lia.
Qed.

(* ---- the distribution of the normal momentum ---- *)
Lemma cdf_event ut x h : 0 < ut -> 0 <= x -> 0 < h <= 1 -> (ut * sqrt 2 * sqrt (- ln h) <= x <-> exp (- (x ^ 2 / (2 * ut ^ 2))) <= h).
Proof.
  intros U X [H0 H1]. assert (E0 : 0 <= - ln h). { assert (ln h <= ln 1) by (destruct (Rle_lt_or_eq_dec _ _ H1) as [L| ->]; [left; apply ln_increasing; lra|lra]). rewrite ln_1 in *. lra. }
  set (e := - ln h) in *.
  assert (Q : (ut * sqrt 2 * sqrt e) ^ 2 = 2 * ut ^ 2 * e).
  { replace ((ut * sqrt 2 * sqrt e) ^ 2) with (ut ^ 2 * (sqrt 2 * sqrt 2) * (sqrt e * sqrt e)) by ring. rewrite !sqrt_sqrt by lra. ring. }
  assert (P : 0 <= ut * sqrt 2 * sqrt e). { apply Rmult_le_pos; [apply Rmult_le_pos; [lra|apply sqrt_pos]|apply sqrt_pos]. }
  assert (Hh : h = exp (- e)) by (unfold e; rewrite Ropp_involutive, exp_ln; lra).
  assert (U2 : 0 < 2 * ut ^ 2) by nra.
  assert (M : e <= x ^ 2 / (2 * ut ^ 2) <-> 2 * ut ^ 2 * e <= x ^ 2).
  { split; intros M.
    - apply Rmult_le_compat_l with (r := 2 * ut ^ 2) in M; [|lra]. replace (2 * ut ^ 2 * (x ^ 2 / (2 * ut ^ 2))) with (x ^ 2) in M by (field; lra). exact M.
    - apply Rmult_le_reg_l with (2 * ut ^ 2); [lra|]. replace (2 * ut ^ 2 * (x ^ 2 / (2 * ut ^ 2))) with (x ^ 2) by (field; lra). exact M. }
  split; intros C.
  - rewrite Hh. assert (e <= x ^ 2 / (2 * ut ^ 2)) by (apply M; rewrite <- Q; nra).
    destruct (Rle_lt_or_eq_dec _ _ H) as [L|L]; [left; apply exp_increasing; lra|right; f_equal; lra].
  - rewrite Hh in C. assert (e <= x ^ 2 / (2 * ut ^ 2)).
    { destruct (Rle_or_lt e (x ^ 2 / (2 * ut ^ 2))) as [L|L]; [exact L|]. assert (exp (- e) < exp (- (x ^ 2 / (2 * ut ^ 2)))) by (apply exp_increasing; lra). lra. }
    apply M in H. rewrite <- Q in H. apply Rsqr_incr_0; [unfold Rsqr; lra|exact P|exact X].
Qed.
Lemma cdf_density ut x : 0 < ut -> derivable_pt_lim (fun x => 1 - exp (- (x ^ 2 / (2 * ut ^ 2)))) x (x / ut ^ 2 * exp (- (x ^ 2 / (2 * ut ^ 2)))).
Proof.
  intros U. assert (U2 : 2 * ut ^ 2 <> 0) by nra.
  assert (D1 : derivable_pt_lim (fun x => - (x ^ 2 / (2 * ut ^ 2))) x (- (x / ut ^ 2))).
  { replace (- (x / ut ^ 2)) with (- / (2 * ut ^ 2) * (INR 2 * x ^ 1)) by (cbn [INR pow]; field; nra).
    apply derivable_pt_lim_ext with (f := fun x => - / (2 * ut ^ 2) * x ^ 2); [intros; field; nra|].
    apply derivable_pt_lim_scal. apply (derivable_pt_lim_pow x 2). }
  pose proof (derivable_pt_lim_comp _ exp x _ _ D1 (derivable_pt_lim_exp _)) as D2.
  pose proof (derivable_pt_lim_minus _ _ x _ _ (derivable_pt_lim_const 1 x) D2) as D3. unfold minus_fct, fct_cte, comp in D3.
  replace (x / ut ^ 2 * exp (- (x ^ 2 / (2 * ut ^ 2)))) with (0 - exp (- (x ^ 2 / (2 * ut ^ 2))) * - (x / ut ^ 2)) by ring. exact D3.
Qed.
