(* C68: the refluxing particle boundary (maxwellian_reflux.cc). *)
Require Import ZArith List Bool Reals Lra Lia Psatz.
From Flocq Require Import Core BinarySingleNaN.
Require Import Verif.FloatModel Verif.FloatProofs Verif.ParticleModel Verif.ParticleSpec Verif.MoverModel Verif.RefluxModel Verif.RefluxSpec Verif.RefluxProofs.
Require Verif.PropertiesParticle.
Import ListNotations.
Ltac Zify.zify_post_hook ::= idtac.
Open Scope Z_scope.

(* In any arithmetic: the handler works exactly for the species the arrays have entries for and the six faces; then it
   puts one particle of the same species, weight, voxel and position in the place of the incident one; the momentum
   across the face is ut_para*(+-sqrt 2)*sqrt(e), + at a lower and - at an upper face, and the ones along the face are
   ut_perp times the two normal numbers, in cyclic order of the axes. *)
Theorem C68_replaced : forall V (K : num V) root2 tiny b c sp p disp f e n1 n2,
  (match interact K root2 tiny b c sp p disp f e n1 n2 with
   | ROk ij =>
       ij_sp ij = sp /\ pd (ij_p ij) = pd p /\ pi (ij_p ij) = pi p /\ pw (ij_p ij) = pw p /\
       exists para perp, nth_error (ut_para b) (Z.to_nat sp) = Some para /\ nth_error (ut_perp b) (Z.to_nat sp) = Some perp /\
         vget (pu (ij_p ij)) (face_axis f) =
           n_mul K (n_mul K para (if face_high f then n_opp K root2 else root2)) (n_sqrt K e) /\
         vget (pu (ij_p ij)) (next_axis (face_axis f)) = n_mul K perp n1 /\
         vget (pu (ij_p ij)) (next_axis (next_axis (face_axis f))) = n_mul K perp n2
   | _ => True end) /\
  ((exists ij, interact K root2 tiny b c sp p disp f e n1 n2 = ROk ij) <->
   0 <= sp < Z.of_nat (length (ut_para b)) /\ sp < Z.of_nat (length (ut_perp b)) /\ 0 <= f < 6) /\
  interact K root2 tiny b c sp p disp f e n1 n2 <> RErr.
Proof.
  intros V K root2 tiny b c sp p disp f e n1 n2. unfold interact.
  destruct (zget (ut_para b) sp) as [para|] eqn:Ea; [destruct (zget (ut_perp b) sp) as [perp|] eqn:Eb|].
  - pose proof (zget_in _ _ _ Ea) as Ia. pose proof (zget_in _ _ _ Eb) as Ib.
    unfold zget in Ea, Eb. rewrite (proj2 (Z.ltb_ge _ _)) in Ea, Eb by lia.
    destruct (bath_u K root2 para perp f e n1 n2) as [u|] eqn:Eu.
    + pose proof (bath_u_face K root2 _ _ _ _ _ _ _ Eu) as Hf. split; [|split; [|discriminate]].
      * cbn [ij_sp ij_p pd pi pw pu]. repeat (split; [reflexivity|]). exists para, perp. split; [exact Ea|]. split; [exact Eb|].
        destruct (bath_u_some K root2 para perp f e n1 n2 Hf) as (u' & E' & A & B & C). rewrite Eu in E'. injection E' as <-.
        split; [|auto]. rewrite A. unfold scale, face_high. destruct (Z.ltb_spec f 3), (Z.leb_spec 3 f); try lia; reflexivity.
      * split; [lia|]. intros _. eauto.
    + split; [exact I|]. split; [|discriminate]. split; [intros [ij H]; discriminate|]. intros (_ & _ & Hf). exfalso.
      destruct (bath_u_some K root2 para perp f e n1 n2 Hf) as (u' & E' & _). congruence.
  - split; [exact I|]. split; [|discriminate]. split; [intros [ij H]; discriminate|]. intros (H1 & H2 & _). exfalso.
    destruct (zget_some (ut_perp b) sp) as [x Hx]; [lia|]. congruence.
  - split; [exact I|]. split; [|discriminate]. split; [intros [ij H]; discriminate|]. intros (H1 & H2 & _). exfalso.
    destruct (zget_some (ut_para b) sp) as [x Hx]; [lia|]. congruence.
Qed.
Print Assumptions C68_replaced.

(* the result of a call, in exact arithmetic *)
Definition refluxed (b : bath R) (c : cells R) (sp : Z) (p : part R) (disp : vec R) (f : Z) (e n1 n2 : R) (ij : injector) : Prop :=
  interact Rnum R_root2 R_tiny b c sp p disp f e n1 n2 = ROk ij.
(* positive cell sizes with their reciprocals, temperatures that set_reflux_temp accepts, an exponential random number *)
Definition sane (b : bath R) (c : cells R) (e : R) : Prop :=
  (forall a, 0 < vget (c_d c) a /\ vget (c_rd c) a = / vget (c_d c) a)%R /\ Forall (fun t => 0 <= t)%R (ut_para b) /\ (0 <= e)%R.

(* Exact arithmetic: the new momentum and the new displacement point from the face into the cell. *)
Theorem C68_inward : forall b c sp p disp f e n1 n2 ij, sane b c e -> refluxed b c sp p disp f e n1 n2 ij ->
  inward f (vget (pu (ij_p ij)) (face_axis f)) /\ inward f (vget (ij_disp ij) (face_axis f)) /\
  (Forall (fun t => 0 < t)%R (ut_para b) -> (0 < e)%R -> strictly_inward f (vget (pu (ij_p ij)) (face_axis f))).
Proof.
  intros b c sp p disp f e n1 n2 ij (Hc & Hb & He) E. unfold refluxed in E.
  destruct (C68_replaced R Rnum R_root2 R_tiny b c sp p disp f e n1 n2) as (H & _). rewrite E in H.
  destruct H as (_ & _ & _ & _ & para & perp & Ea & _ & Eu & _). cbn [Rnum n_mul n_sqrt n_opp] in Eu.
  assert (P : (0 <= para)%R). { rewrite Forall_forall in Hb. apply Hb. eapply nth_error_In, Ea. }
  assert (S2 : (0 < R_root2)%R) by (unfold R_root2; apply sqrt_lt_R0; lra).
  pose proof (sqrt_pos e) as Se.
  assert (I1 : inward f (vget (pu (ij_p ij)) (face_axis f))).
  { rewrite Eu. unfold inward. assert (0 <= para * R_root2)%R by (apply Rmult_le_pos; lra). destruct (face_high f).
    - replace (para * - R_root2 * sqrt e)%R with (- (para * R_root2 * sqrt e))%R by ring.
      assert (0 <= para * R_root2 * sqrt e)%R by (apply Rmult_le_pos; lra). lra.
    - apply Rmult_le_pos; lra. }
  split; [exact I1|]. split.
  - unfold interact in E. destruct (zget (ut_para b) sp) as [q1|]; [|discriminate]. destruct (zget (ut_perp b) sp) as [q2|]; [|discriminate].
    destruct (bath_u Rnum R_root2 q1 q2 f e n1 n2) as [u|]; [|discriminate].
    cbv zeta in E. match type of E with ROk ?x = ROk _ => assert (EE : ij = x) by congruence end. clear E. subst ij. cbn [ij_disp ij_p pu] in *.
    rewrite ParticleProofs.vget_vmap2, ParticleProofs.vget_vmap. change (n_mul Rnum) with Rmult.
    assert (Q : (0 <= ratio Rnum R_tiny c (pu p) u disp)%R) by apply sqrt_pos.
    destruct (Hc (face_axis f)) as [D ->]. assert (D' : (0 < / vget (c_d c) (face_axis f))%R) by (apply Rinv_0_lt_compat; exact D).
    set (r := ratio Rnum R_tiny c (pu p) u disp) in *. set (w := (/ vget (c_d c) (face_axis f))%R) in *. set (y := vget u (face_axis f)) in *.
    unfold inward in *. destruct (face_high f).
    + clearbody r w y. assert (0 <= (- y * r) * w)%R by (apply Rmult_le_pos; [apply Rmult_le_pos|]; lra). lra.
    + apply Rmult_le_pos; [apply Rmult_le_pos; lra|lra].
  - intros Pb Pe. assert (P' : (0 < para)%R). { rewrite Forall_forall in Pb. apply Pb. eapply nth_error_In, Ea. }
    assert (Se' : (0 < sqrt e)%R) by (apply sqrt_lt_R0; exact Pe). rewrite Eu. unfold strictly_inward.
    assert (0 < para * R_root2 * sqrt e)%R by (apply Rmult_lt_0_compat; [apply Rmult_lt_0_compat|]; lra).
    destruct (face_high f); lra.
Qed.
Print Assumptions C68_inward.

(* Exact arithmetic: the new particle travels for the time the incident one had left, along its own momentum, up to the
   factor k that the FLT_MIN under the root causes (|1-k| <= FLT_MIN / (2 |u|^2)).  |u'|/gamma' is the new speed. *)
Theorem C68_aging : forall b c sp p disp f e n1 n2 ij, sane b c e -> refluxed b c sp p disp f e n1 n2 ij ->
  (0 < len2 (pu p))%R ->
  let left := flight (pu p) (in_space (c_d c) disp) in let u' := pu (ij_p ij) in
  exists k, (0 < k < 1 /\ 1 - k <= R_tiny / (2 * len2 (pu p)))%R /\
    (forall a, vget (c_d c) a * vget (ij_disp ij) a = k * left * (vget u' a / gamma u'))%R.
Proof.
  intros b c sp p disp f e n1 n2 ij (Hc & Hb & He) E U left u'. unfold refluxed in E.
  unfold interact in E. destruct (zget (ut_para b) sp) as [q1|]; [|discriminate]. destruct (zget (ut_perp b) sp) as [q2|]; [|discriminate].
  destruct (bath_u Rnum R_root2 q1 q2 f e n1 n2) as [u|]; [|discriminate].
    cbv zeta in E. match type of E with ROk ?x = ROk _ => assert (EE : ij = x) by congruence end. clear E. subst ij. cbn [ij_disp ij_p pu] in *.
  pose proof (shrink_bounds (len2 (pu p)) R_tiny U tiny_pos) as S. cbv zeta in S.
  exists (sqrt (len2 (pu p)) / sqrt (R_tiny + len2 (pu p)))%R. split; [exact S|].
  intros a. rewrite ParticleProofs.vget_vmap2, ParticleProofs.vget_vmap. change (n_mul Rnum) with Rmult. rewrite (ratio_R _ _ _ _ _ tiny_pos).
  destruct (Hc a) as [D ->]. unfold left, flight. subst u'.
  assert (G1 : (0 < gamma u)%R) by apply gamma_pos. assert (G2 : (0 < sqrt (len2 (pu p)))%R) by (apply sqrt_lt_R0; exact U).
  assert (G3 : (0 < sqrt (R_tiny + len2 (pu p)))%R) by (apply sqrt_lt_R0; pose proof tiny_pos; lra).
  field. lra.
Qed.
Print Assumptions C68_aging.

(* Exact arithmetic: if the incident particle had no more than a whole step left (c dt = cdt) and the step is no longer
   than the cell along the normal of the face, the move of the new particle does not come to any face normal to that axis:
   its result is the same whatever the neighbour table says about those faces, its normal momentum is kept and its
   final normal coordinate is where the displacement leads (positions run over [-1,1], hence the 2). *)
Theorem C68_wall_not_touched : forall b c sp p disp f e n1 n2 ij cdt g1 g2 fuel qsp,
  sane b c e -> refluxed b c sp p disp f e n1 n2 ij -> (0 < len2 (pu p))%R ->
  (flight (pu p) (in_space (c_d c) disp) <= cdt)%R -> (cdt <= vget (c_d c) (face_axis f))%R ->
  vget (pd p) (face_axis f) = (if face_high f then 1 else -1)%R ->
  mrangel g1 = mrangel g2 -> mrangeh g1 = mrangeh g2 ->
  (forall v f', 0 <= f' < 6 -> face_axis f' <> face_axis f -> nbr_at g1 v f' = nbr_at g2 v f') ->
  move_p Rnum fuel g1 qsp (ij_p ij) (ij_disp ij) = move_p Rnum fuel g2 qsp (ij_p ij) (ij_disp ij) /\
  forall st p' disp' log, move_p Rnum fuel g1 qsp (ij_p ij) (ij_disp ij) = MDone st p' disp' log ->
    vget (pu p') (face_axis f) = vget (pu (ij_p ij)) (face_axis f) /\
    (vget (pd p') (face_axis f) + 2 * vget disp' (face_axis f) = vget (pd p) (face_axis f) + 2 * vget (ij_disp ij) (face_axis f))%R /\
    (if st then exists v f', 0 <= f' < 6 /\ pi p' = 8 * v + f' /\ face_axis f' <> face_axis f else vget disp' (face_axis f) = 0%R).
Proof.
  intros b c sp p disp f e n1 n2 ij cdt g1 g2 fuel qsp Hs E U HF HC HD L H N. set (a := face_axis f) in *.
  pose proof (C68_inward b c sp p disp f e n1 n2 ij Hs E) as (_ & I & _).
  destruct (C68_aging b c sp p disp f e n1 n2 ij Hs E U) as (k & (Hk & _) & A). specialize (A a).
  destruct (C68_replaced R Rnum R_root2 R_tiny b c sp p disp f e n1 n2) as (P & _). unfold refluxed in E. rewrite E in P. destruct P as (_ & P & _).
  destruct Hs as (Hc & _). destruct (Hc a) as [D _].
  assert (ST : stays (ij_p ij) (ij_disp ij) a).
  { unfold stays. rewrite P, HD. set (u' := pu (ij_p ij)) in *. set (le := flight (pu p) (in_space (c_d c) disp)) in *.
    assert (LE : (0 <= le)%R). { unfold le, flight. apply Rmult_le_pos; [apply Rmult_le_pos; [apply sqrt_pos|left; apply gamma_pos]|left; apply Rinv_0_lt_compat, sqrt_lt_R0; exact U]. }
    assert (SP : (Rabs (vget u' a / gamma u') < 1)%R).
    { pose proof (gamma_pos u') as G. unfold Rdiv. rewrite Rabs_mult, (Rabs_pos_eq (/ _)) by (left; apply Rinv_0_lt_compat; exact G).
      apply Rmult_lt_reg_r with (gamma u'); [exact G|]. rewrite Rmult_assoc, Rinv_l, Rmult_1_r, Rmult_1_l by lra.
      rewrite <- sqrt_Rsqr_abs. unfold gamma. apply sqrt_lt_1_alt. split; [apply Rle_0_sqr|]. unfold Rsqr, len2. destruct a; cbn [vget]; nra. }
    assert (B : (Rabs (vget (ij_disp ij) a) < 1)%R).
    { apply Rmult_lt_reg_l with (vget (c_d c) a); [exact D|]. rewrite <- (Rabs_pos_eq (vget (c_d c) a)) at 1 by lra. rewrite <- Rabs_mult, A, Rmult_1_r.
      rewrite !Rabs_mult, (Rabs_pos_eq k), (Rabs_pos_eq le) by lra. apply Rabs_def2 in SP.
      destruct (Req_dec le 0) as [Z|Z]; [rewrite Z, Rmult_0_r, Rmult_0_l; exact D|].
      assert (0 <= Rabs (vget u' a / gamma u') < 1)%R by (split; [apply Rabs_pos|apply Rabs_def1; lra]).
      assert (k * le < le)%R by nra. assert (0 < k * le)%R by (apply Rmult_lt_0_compat; lra). nra. }
    apply Rabs_def2 in B. unfold inward in I. destruct (face_high f).
    - destruct (Req_dec (vget (ij_disp ij) a) 0); [now left|right; fold a in I; lra].
    - destruct (Req_dec (vget (ij_disp ij) a) 0); [now left|right; fold a in I; lra]. }
  unfold move_p. rewrite <- P. apply (move_misses a g1 g2 _ (conj L (conj H N))). exact ST.
Qed.
Print Assumptions C68_wall_not_touched.

(* Exact arithmetic, through boundary_p's dispatch: a particle moves to a wall with a handler, the handler's particle is
   moved on.  The charge assigned to the mesh has changed by the charges the two moves carried along the mesh edges: the
   wall neither takes nor gives charge. *)
Theorem C68_charge : forall fuel fuel' bg qsp sp sy sz phi b c e n1 n2 p disp p1 d1 log1 i k pc m f ij st p2 d2 log2,
  glued sy sz phi (b_mesh bg) ->
  move_p Rnum fuel (b_mesh bg) qsp p disp = MDone true p1 d1 log1 ->
  dispatch Rnum bg sp p1 (mk_mover d1 i) = Some (Custom k pc m f) ->
  refluxed b c sp pc (m_disp m) f e n1 n2 ij ->
  move_p Rnum fuel' (b_mesh bg) qsp (ij_p ij) (ij_disp ij) = MDone st p2 d2 log2 ->
  (charge sy sz phi (qsp * pw p2) (voxel_of st (pi p2)) (pd p2) - charge sy sz phi (qsp * pw p) (pi p) (pd p) =
   flows sy sz phi log1 + flows sy sz phi log2)%R.
Proof.
  intros fuel fuel' bg qsp sp sy sz phi b c e n1 n2 p disp p1 d1 log1 i k pc m f ij st p2 d2 log2 G M1 D E M2.
  pose proof (PropertiesParticle.C11_move_continuity _ _ _ _ _ _ _ _ _ _ _ _ G M1) as C1.
  pose proof (PropertiesParticle.C11_move_continuity _ _ _ _ _ _ _ _ _ _ _ _ G M2) as C2.
  destruct (C68_replaced R Rnum R_root2 R_tiny b c sp pc (m_disp m) f e n1 n2) as (P & _). unfold refluxed in E. rewrite E in P.
  destruct P as (_ & P1 & P2 & P3 & _).
  assert (W : forall fuel g q p0 d0 l st p' d' l', move_loop Rnum fuel g q p0 d0 l = MDone st p' d' l' -> pw p' = pw p0).
  { clear. induction fuel as [|fuel IH]; intros g q p0 d0 l st p' d' l' E; [discriminate|]. rewrite ParticleProofs.move_step in E.
    destruct (ParticleProofs.hstep p0 d0) as [h [a|]]; cbv zeta in E; [|injection E as <- <- <- <-; reflexivity].
    destruct (negb (int_ok (6 * pi p0))); [discriminate|]. destruct (nbr_at _ _ _) as [n|]; [|discriminate].
    destruct (n =? reflect_particles); [apply IH in E; exact E|]. destruct ((n <? mrangel g) || (mrangeh g <? n)).
    - destruct (negb (int_ok (8 * pi p0)) || _); [discriminate|]. injection E as <- <- <- <-. reflexivity.
    - apply IH in E. exact E. }
  pose proof (W _ _ _ _ _ _ _ _ _ _ M1) as W1. pose proof (W _ _ _ _ _ _ _ _ _ _ M2) as W2.
  assert (Q : pd pc = pd p1 /\ pi pc = voxel_of true (pi p1) /\ pw pc = pw p1).
  { unfold dispatch in D. destruct (nbr_at _ _ _) as [nn|]; [|discriminate]. destruct (nn =? absorb_particles); [discriminate|].
    destruct (_ || _); [destruct (_ && _); discriminate|]. destruct ((0 <=? - nn - 3) && (- nn - 3 <? b_nb bg)); [|discriminate].
    injection D as <- <- <- <-. cbn [pd pi pw]. split; [reflexivity|]. split; [|reflexivity]. unfold voxel_of. rewrite Z.shiftr_div_pow2 by lia. reflexivity. }
  destruct Q as (Q1 & Q2 & Q3). rewrite P1, P2, P3, Q1, Q2, Q3, W1 in C2. rewrite W2, P3, Q3, W1. lra.
Qed.
Print Assumptions C68_charge.

(* The size of the normal momentum: with the exponential number e = -ln h of a uniform h, the momentum is at most x for
   exactly the h in [exp(-x^2/2ut^2), 1], an interval of length 1 - exp(-x^2/2ut^2); the density of that law is
   x/ut^2 exp(-x^2/2ut^2): the flux out of a Maxwellian of thermal momentum ut. *)
Theorem C68_flux_weighted : forall b c sp p disp f n1 n2 ij h ut x,
  refluxed b c sp p disp f (- ln h) n1 n2 ij -> nth_error (ut_para b) (Z.to_nat sp) = Some ut -> (0 < ut)%R -> (0 < h <= 1)%R -> (0 <= x)%R ->
  (Rabs (vget (pu (ij_p ij)) (face_axis f)) <= x <-> exp (- (x ^ 2 / (2 * ut ^ 2))) <= h)%R /\
  derivable_pt_lim (fun x => 1 - exp (- (x ^ 2 / (2 * ut ^ 2))))%R x (x / ut ^ 2 * exp (- (x ^ 2 / (2 * ut ^ 2))))%R.
Proof.
  intros b c sp p disp f n1 n2 ij h ut x E Eu U Hh Hx. split; [|apply cdf_density, U].
  destruct (C68_replaced R Rnum R_root2 R_tiny b c sp p disp f (- ln h)%R n1 n2) as (P & _). unfold refluxed in E. rewrite E in P.
  destruct P as (_ & _ & _ & _ & para & perp & Ea & _ & E' & _). rewrite Eu in Ea. injection Ea as <-. rewrite <- (cdf_event ut x h U Hx Hh).
  rewrite E'. cbn [Rnum n_mul n_sqrt n_opp]. unfold R_root2.
  assert (0 <= ut * sqrt 2 * sqrt (- ln h))%R by (apply Rmult_le_pos; [apply Rmult_le_pos; [lra|apply sqrt_pos]|apply sqrt_pos]).
  destruct (face_high f); [|rewrite Rabs_pos_eq by assumption; tauto].
  replace (ut * - sqrt 2 * sqrt (- ln h))%R with (- (ut * sqrt 2 * sqrt (- ln h)))%R by ring. rewrite Rabs_Ropp, Rabs_pos_eq by assumption. tauto.
Qed.
Print Assumptions C68_flux_weighted.

(* In the code's own binary32 arithmetic the normal momentum is finite and does not point out of the domain, for
   0 <= ut_para <= 2^100 and 0 <= e <= 2^20. *)
Theorem C68_inward_binary32 : forall b c sp p disp f e n1 n2 ij para,
  interact Fnum F_root2 F_tiny b c sp p disp f e n1 n2 = ROk ij -> nth_error (ut_para b) (Z.to_nat sp) = Some para ->
  is_finite para = true -> is_finite e = true -> (0 <= B2R32 para <= bpow radix2 100)%R -> (0 <= B2R32 e <= bpow radix2 20)%R ->
  is_finite (vget (pu (ij_p ij)) (face_axis f)) = true /\ inward f (B2R32 (vget (pu (ij_p ij)) (face_axis f))).
Proof.
  intros b c sp p disp f e n1 n2 ij para E Ep Fp Fe Hp He.
  destruct (C68_replaced b32 Fnum F_root2 F_tiny b c sp p disp f e n1 n2) as (P & _). rewrite E in P.
  destruct P as (_ & _ & _ & _ & para' & perp & Ea & _ & E' & _). rewrite Ep in Ea. injection Ea as <-. rewrite E'.
  destruct (normal32 para e _ _ f (conj Fp eq_refl) (conj Fe eq_refl) Hp He) as (x & (Fx & Ex) & S).
  unfold scale in Fx, Ex. unfold inward, face_high. cbn [Fnum n_mul n_sqrt n_opp] in *.
  destruct (Z.ltb_spec f 3), (Z.leb_spec 3 f); try lia; (split; [exact Fx|]; rewrite Ex; exact S).
Qed.
Print Assumptions C68_inward_binary32.

(* ... and the FLT_MIN added to |u|^2 changes nothing there unless |u|^2 < 2^-101. *)
Theorem C68_flt_min_absorbed : forall x : b32, is_finite x = true -> (bpow radix2 (-101) <= B2R32 x <= bpow radix2 126)%R ->
  n_add Fnum F_tiny x = x.
Proof. intros x F H. exact (tiny_absorbed x _ (conj F eq_refl) H). Qed.
Print Assumptions C68_flt_min_absorbed.

(* The two arrays: if all k species are defined before the handler is created, and only their ids are used, no call
   touches memory outside; the only other end is the error for a negative temperature. *)
Theorem C68_arrays : forall V (K : num V) k l, (1 <= k)%nat ->
  Forall (fun ev => match ev with HSet id _ _ | HHit id => 0 <= id < Z.of_nat k | _ => False end) l ->
  let r := bath_run K (mk_hs 0 None) (repeat HSpecies k ++ HCreate :: l) in
  r <> RUB /\
  (Forall (fun ev => match ev with HSet _ x y => n_lt K x (n_zero K) = false /\ n_lt K y (n_zero K) = false | _ => True end) l -> r <> RErr).
Proof.
  intros V K k l Hk Hl. cbv zeta. rewrite species_run. cbn [bath_run bath_step h_n h_bath]. unfold new_bath.
  rewrite (proj2 (Z.leb_gt _ _)) by lia. set (b := mk_bath _ _).
  assert (S : sized (Z.of_nat k) (mk_hs (0 + Z.of_nat k) (Some b))).
  { exists b. split; [reflexivity|]. cbn [b ut_para ut_perp]. rewrite !repeat_length. split; lia. }
  assert (F : Forall (fits (V := V) (Z.of_nat k)) l).
  { eapply Forall_impl; [|exact Hl]. intros [| |id x y|id]; cbn; tauto. }
  split; [destruct (sized_run K _ l _ S F) as [->|(s' & -> & _)]; discriminate|].
  clear Hl. intros T. revert S. generalize (mk_hs (0 + Z.of_nat k) (Some b)). clear b. induction l as [|ev l IH]; intros s S; [discriminate|].
  inversion F as [|? ? F1 F2]; subst. inversion T as [|? ? T1 T2]; subst. cbn [bath_run].
  destruct (sized_step K _ s ev S F1) as [B|(s' & -> & S')]; [|now apply IH]. exfalso.
  destruct S as (b & Eb & L1 & L2). destruct ev as [| |id x y|id]; cbn [fits bath_step] in *.
  - discriminate.
  - exact F1.
  - rewrite Eb in B. unfold set_temp in B. destruct T1 as [X Y]. rewrite X, Y in B. cbn [orb] in B.
    destruct (zget_some (ut_para b) id) as [w1 E1]; [lia|]. destruct (zget_some (ut_perp b) id) as [w2 E2]; [lia|]. rewrite E1, E2 in B. discriminate.
  - rewrite Eb in B. destruct (zget_some (ut_para b) id) as [w1 E1]; [lia|]. destruct (zget_some (ut_perp b) id) as [w2 E2]; [lia|]. rewrite E1, E2 in B. discriminate.
Qed.
Print Assumptions C68_arrays.

(* "The handler serves every species of the simulation" is false: a species defined after the handler was created has no
   entry; setting its temperature, or one of its particles reaching the wall, is an access outside the arrays. *)
Theorem C68_late_species_refuted : exists l : list (hevent R),
  bath_run Rnum (mk_hs 0 None) ([HSpecies; HCreate; HSpecies] ++ l) = RUB /\
  (forall ev, In ev l -> match ev with HHit id => 0 <= id < 2 | _ => False end).
Proof.
  exists [HHit 0; HHit 1]. split; [reflexivity|]. intros ev [<-|[<-|[]]]; lia.
Qed.
Print Assumptions C68_late_species_refuted.

(* "set_reflux_temp rejects what is not a temperature" is false: a NaN passes the test ut < 0 and every momentum across the
   face is then NaN. *)
Theorem C68_nan_refuted : exists (para : b32) b, set_temp Fnum (mk_bath [f_of_Z 0] [f_of_Z 0]) 0 para (f_of_Z 1) = ROk b /\
  forall c p disp f e n1 n2 ij, interact Fnum F_root2 F_tiny b c 0 p disp f e n1 n2 = ROk ij ->
    is_nan (vget (pu (ij_p ij)) (face_axis f)) = true.
Proof.
  exists B754_nan, (mk_bath [B754_nan] [f_of_Z 1]). split; [reflexivity|]. intros c p disp f e n1 n2 ij E.
  destruct (C68_replaced b32 Fnum F_root2 F_tiny (mk_bath [B754_nan] [f_of_Z 1]) c 0 p disp f e n1 n2) as (P & _). rewrite E in P.
  destruct P as (_ & _ & _ & _ & para & perp & Ea & _ & E' & _). cbn in Ea. injection Ea as <-. rewrite E'.
  cbn [Fnum n_mul n_sqrt n_opp]. destruct (face_high f); cbn [f_mul Bmult]; reflexivity.
Qed.
Print Assumptions C68_nan_refuted.

(* ---- concrete runs ---- *)
Definition ex_one : b32 := f_of_Z 1.
Definition ex_bath : bath b32 := mk_bath [f_of_Z 3; f_of_Z 2] [f_of_Z 5; f_of_Z 1].
Definition ex_cells : cells b32 := mk_cells (mkv (f_of_Z 2) (f_of_Z 4) (f_of_Z 1)) (mkv (f_ldexp 1 (-1)) (f_ldexp 1 (-2)) (f_of_Z 1)).
Definition ex_p (u : vec b32) : part b32 := mkp (mkv (f_of_Z 0) (f_of_Z 1) (f_of_Z 0)) 17 u (f_of_Z 7).
Definition show (r : rout (injector (V := b32))) : option (Z * Z * list SpecFloat.spec_float * list SpecFloat.spec_float) :=
  match r with
  | ROk ij => Some (ij_sp ij, pi (ij_p ij), map B2SF [vx (pu (ij_p ij)); vy (pu (ij_p ij)); vz (pu (ij_p ij)); pw (ij_p ij)],
                    map B2SF [vx (ij_disp ij); vy (ij_disp ij); vz (ij_disp ij)])
  | _ => None end.
(* +y face, species 1, e = 1: uy = -2 sqrt 2; the normal numbers 3 and 4 go to z and x *)
Example C68_example_face :
  show (interact Fnum F_root2 F_tiny ex_bath ex_cells 1 (ex_p (mkv ex_one ex_one ex_one)) (mkv (f_of_Z 0) (f_of_Z 0) (f_of_Z 0)) 4 ex_one (f_of_Z 3) (f_of_Z 4))
  = Some (1, 17, map B2SF [f_of_Z 4; f_ldexp (-11863283) (-22); f_of_Z 3; f_of_Z 7], map B2SF [f_of_Z 0; Bopp (f_of_Z 0); f_of_Z 0]).
Proof. vm_compute. reflexivity. Qed.
(* a particle at rest with nothing left to travel: no division by zero; species 2 has no entry; there is no face 6 *)
Example C68_example_rest :
  show (interact Fnum F_root2 F_tiny ex_bath ex_cells 0 (ex_p (mkv (f_of_Z 0) (f_of_Z 0) (f_of_Z 0))) (mkv (f_of_Z 0) (f_of_Z 0) (f_of_Z 0)) 0 (f_of_Z 4) (f_of_Z 0) (f_of_Z 0))
  = Some (0, 17, map B2SF [f_mul (f_mul (f_of_Z 3) F_root2) (f_of_Z 2); f_of_Z 0; f_of_Z 0; f_of_Z 7], map B2SF [f_of_Z 0; f_of_Z 0; f_of_Z 0]) /\
  interact Fnum F_root2 F_tiny ex_bath ex_cells 2 (ex_p (mkv ex_one ex_one ex_one)) (mkv ex_one ex_one ex_one) 0 ex_one ex_one ex_one = RUB /\
  interact Fnum F_root2 F_tiny ex_bath ex_cells 1 (ex_p (mkv ex_one ex_one ex_one)) (mkv ex_one ex_one ex_one) 6 ex_one ex_one ex_one = RUB.
Proof. vm_compute. repeat split. Qed.
(* an exact case of the ageing: |u| = 3/4 (gamma 5/4), D = (0,-3,0) left, so left = 5; u' = (0,0,-4/3) (gamma' 5/3): D' = 5 * (0,0,-4/5), up to FLT_MIN *)
Example C68_example_aging :
  (flight (mkv 0 (3 / 4) 0) (in_space (mkv 1 3 1) (mkv 0 (-1) 0)) = 5 /\ gamma (mkv 0 0 (-4 / 3)) = 5 / 3 /\
   ratio Rnum 0 (mk_cells (mkv 1 3 1) (mkv 1 (/ 3) 1)) (mkv 0 (3 / 4) 0) (mkv 0 0 (-4 / 3)) (mkv 0 (-1) 0) = 3)%R.
Proof.
  unfold flight, gamma, len2, in_space, ratio, sqr. cbn [vx vy vz vmap2 c_d Rnum n_add n_mul n_div n_sqrt n_one].
  split; [|split].
  - replace ((1 * 0) ^ 2 + (3 * -1) ^ 2 + (1 * 0) ^ 2)%R with (3 * 3)%R by ring. replace (1 + (0 ^ 2 + (3 / 4) ^ 2 + 0 ^ 2))%R with (5 / 4 * (5 / 4))%R by field.
    replace (0 ^ 2 + (3 / 4) ^ 2 + 0 ^ 2)%R with (3 / 4 * (3 / 4))%R by field. rewrite !sqrt_square by lra. field.
  - replace (1 + (0 ^ 2 + 0 ^ 2 + (-4 / 3) ^ 2))%R with (5 / 3 * (5 / 3))%R by field. apply sqrt_square. lra.
  - match goal with |- sqrt ?x = _ => replace x with (3 * 3)%R by field end. apply sqrt_square. lra.
Qed.
(* h = exp(-2), ut = 1: the momentum is 2, the smallest bound x is 2 *)
Example C68_example_flux : (1 * sqrt 2 * sqrt (- ln (exp (-2))) = 2)%R.
Proof. rewrite ln_exp. replace (- -2)%R with 2%R by lra. rewrite Rmult_1_l. apply sqrt_sqrt. lra. Qed.
(* all together in binary32: a particle stopped at the +y face of voxel 17 (index 8*17+4) with an eighth of a cell left is
   handed to handler 0, replaced and moved on: it ends inside voxel 17, below the face, with a momentum out of the wall *)
Definition ex_bg : bgrid := mk_bgrid (mk_mesh (repeat (-3) 108) 0 17) (repeat (-3) 6) [0; 18] 0 1 1.
Definition ex_hit : part b32 := mkp (mkv (f_of_Z 0) (f_of_Z 1) (f_of_Z 0)) 140 (mkv (f_of_Z 0) (f_ldexp 3 (-2)) (f_of_Z 0)) (f_of_Z 7).
Example C68_example_chain :
  match dispatch Fnum ex_bg 1 ex_hit (mk_mover (mkv (f_of_Z 0) (f_ldexp 1 (-3)) (f_of_Z 0)) 5) with
  | Some (Custom k p m f) =>
      k = 0 /\ f = 4 /\ pi p = 17 /\
      match interact Fnum F_root2 F_tiny ex_bath ex_cells 1 p (m_disp m) f ex_one (f_ldexp 1 (-2)) (f_ldexp (-1) (-3)) with
      | ROk ij => f_lt (vy (ij_disp ij)) (f_of_Z 0) = true /\
          match move_p Fnum 5 (b_mesh ex_bg) (f_of_Z 1) (ij_p ij) (ij_disp ij) with
          | MDone false p' _ log => pi p' = 17 /\ f_lt (vy (pd p')) (f_of_Z 1) = true /\ f_lt (vy (pu p')) (f_of_Z 0) = true /\ map fst log = [17]
          | _ => False end
      | _ => False end
  | _ => False end.
Proof. vm_compute. repeat split. Qed.
(* two species, temperatures set for both, both hit the wall; and the sizes of a handler made for two species *)
Example C68_example_arrays :
  bath_run Fnum (mk_hs 0 None) [HSpecies; HSpecies; HCreate; HSet 1 (f_of_Z 2) (f_of_Z 1); HHit 0; HHit 1]
    = ROk (mk_hs 2 (Some (mk_bath [f_of_Z 0; f_of_Z 2] [f_of_Z 0; f_of_Z 1]))) /\
  bath_run Fnum (mk_hs 0 None) [HSpecies; HCreate; HSet 0 (f_of_Z (-2)) (f_of_Z 1)] = RErr /\
  bath_run Fnum (mk_hs 0 None) [HCreate] = RErr.
Proof. repeat split. Qed.
(* 2^-101 absorbs FLT_MIN, 3 * 2^-105 does not *)
Example C68_example_absorbed : f_eq (f_add F_tiny (f_ldexp 1 (-101))) (f_ldexp 1 (-101)) = true /\
  f_eq (f_add F_tiny (f_ldexp 3 (-105))) (f_ldexp 3 (-105)) = false.
Proof. vm_compute. repeat split. Qed.
