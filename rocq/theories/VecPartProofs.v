(* Proofs about the vector particle kernels in exact arithmetic. *)
From Coq Require Import ZArith List Bool Reals Lra Lia Morphisms.
From Verif Require Import SortModel DistributeModel DistributeProofs VoxelModel ParticleModel MoverModel ChargeModel HydroModel VecPartModel VecPartSpec.
Import ListNotations.
Ltac Zify.zify_post_hook ::= idtac.
Open Scope R_scope.

Lemma Rltb_t x y : x < y -> Rltb x y = true.
Proof. unfold Rltb. destruct (Rlt_dec x y); [reflexivity|lra]. Qed.
Lemma Rltb_f x y : y <= x -> Rltb x y = false.
Proof. unfold Rltb. destruct (Rlt_dec x y); [lra|reflexivity]. Qed.
Lemma vec_ext (a b : vec R) : vx a = vx b -> vy a = vy b -> vz a = vz b -> a = b.
Proof. destruct a, b; cbn. intros -> -> ->. reflexivity. Qed.
Lemma tiny_pos : 0 < tiny < / 2.
Proof. unfold tiny. split; [apply Rinv_0_lt_compat; apply pow_lt; lra|]. apply Rinv_lt_contravar; [apply Rmult_lt_0_compat; [lra|apply pow_lt; lra]|].
  replace 2 with (2 ^ 1)%R by ring. apply Rle_lt_trans with (10 ^ 1); [lra|]. apply Rlt_pow; [lra|lia]. Qed.

(* ---------- move_p ---------- *)

Lemma vpick_pick (v f : axis -> R) : (forall a, f a = v a * / 2 \/ (2 <= v a /\ 1 <= f a)) ->
  vpick Rnum f = (fst (pick Rnum v) * / 2, snd (pick Rnum v)).
Proof.
  intros H. pose proof (H AX) as Hx. pose proof (H AY) as Hy. pose proof (H AZ) as Hz. clear H.
  unfold vpick, pick. cbn [n_lt n_one n_two Rnum fst snd].
  unfold Rltb. destruct Hx as [Hx|[Hx Hx']], Hy as [Hy|[Hy Hy']], Hz as [Hz|[Hz Hz']];
  destruct (Rlt_dec (f AX) 1), (Rlt_dec (v AX) 2); cbn [fst snd]; try (exfalso; lra);
  repeat match goal with |- context[Rlt_dec ?x ?y] => lazymatch y with context[Rlt_dec _ _] => fail | _ => idtac end; destruct (Rlt_dec x y); cbn [fst snd]; try (exfalso; lra) end;
  f_equal; lra.
Qed.
Lemma vpick_lt f s a : vpick Rnum f = (s, Some a) -> s = f a /\ s < 1.
Proof.
  unfold vpick. cbn [n_lt n_one Rnum]. unfold Rltb.
  repeat match goal with |- context[Rlt_dec ?x ?y] => lazymatch y with context[Rlt_dec _ _] => fail | _ => idtac end; destruct (Rlt_dec x y); cbn [fst snd] end;
  cbn [fst snd] in *; intros H; inversion H; subst; split; try reflexivity; lra.
Qed.

Lemma vstreak_eq q mid s : vstreak Rnum q (1 / 3 * q) mid s =
  accumulate_streak Rnum q (n_mul3 Rnum (((q * vx s) * vy s) * vz s)) mid s.
Proof.
  unfold vstreak, accumulate_streak, accumulate_j, vmap, vmap2. cbn [vx vy vz n_add n_sub n_mul n_one n_mul3 Rnum app].
  repeat (f_equal; [ring|]). f_equal. ring.
Qed.

Section Move.
Variable X : vops R.
Hypothesis HX : exact_ops X.

Lemma fr_dist r dr : off_faces r dr -> forall a,
  let v := face_dist Rnum (s_dir Rnum dr) r dr a in
  let f := (vget (vmap (o_sgn X) dr) a - vget r a) / o_den X (vget dr a) in
  (vget dr a <> 0 /\ f = v * / 2) \/ (vget dr a = 0 /\ 2 <= v /\ 1 <= f).
Proof.
  destruct HX as (Hp & Hn & H0 & Hd & Hd0 & _). intros Ho a. cbv zeta.
  assert (E : vget (vmap (o_sgn X) dr) a = o_sgn X (vget dr a)) by (destruct a; reflexivity).
  assert (E' : vget (s_dir Rnum dr) a = if Rltb 0 (vget dr a) then 1 else -1) by (destruct a; reflexivity).
  unfold face_dist. cbn [n_eq n_zero n_big n_sub n_div Rnum]. rewrite E, E'. unfold Reqb'.
  destruct (Req_EM_T (vget dr a) 0) as [Z|NZ].
  - right. split; [exact Z|]. split.
    + apply Rle_trans with (34 * 1); [lra|]. apply Rmult_le_compat_l; [lra|]. apply pow_R1_Rle. lra.
    + destruct (Ho a) as [C|C]; [contradiction|]. rewrite Z, Hd0.
      pose proof tiny_pos as Ht.
      assert (- (1 - tiny) <= vget r a <= 1 - tiny) by (revert C; unfold Rabs; destruct (Rcase_abs _); lra).
      destruct H0 as [S|S]; rewrite S.
      * apply Rmult_le_reg_r with tiny; [lra|]. unfold Rdiv. rewrite Rmult_assoc. rewrite (Rmult_1_l tiny). rewrite Rinv_l; lra.
      * replace ((-1 - vget r a) / (-1 * tiny)) with ((1 + vget r a) / tiny) by (field; lra).
        apply Rmult_le_reg_r with tiny; [lra|]. unfold Rdiv. rewrite Rmult_assoc, Rinv_l; lra.
  - left. split; [exact NZ|]. rewrite Hd by exact NZ.
    destruct (Rlt_dec 0 (vget dr a)) as [P|P].
    + rewrite (Hp _ P), Rltb_t by exact P. field. exact NZ.
    + apply Rnot_lt_le in P. assert (N : vget dr a < 0) by (destruct P; [assumption|contradiction]). rewrite (Hn _ N), Rltb_f by exact P. field. exact NZ.
Qed.

Lemma sgn_dir dr a : vget dr a <> 0 -> vget (vmap (o_sgn X) dr) a = vget (s_dir Rnum dr) a.
Proof.
  destruct HX as (Hp & Hn & _). intros NZ.
  assert (E : vget (vmap (o_sgn X) dr) a = o_sgn X (vget dr a)) by (destruct a; reflexivity).
  assert (E' : vget (s_dir Rnum dr) a = if Rltb 0 (vget dr a) then 1 else -1) by (destruct a; reflexivity).
  rewrite E, E'. destruct (Rlt_dec 0 (vget dr a)) as [P|P].
  - rewrite (Hp _ P), Rltb_t; [reflexivity|exact P].
  - apply Rnot_lt_le in P. assert (N : vget dr a < 0) by (destruct P; [assumption|contradiction]). rewrite (Hn _ N), Rltb_f; [reflexivity|exact P].
Qed.

Lemma vget_vset {V} (v : vec V) a b t : vget (vset v a t) b = if match a, b with AX, AX | AY, AY | AZ, AZ => true | _, _ => false end then t else vget v b.
Proof. destruct a, b; reflexivity. Qed.
Lemma vget_vmap {V W} (f : V -> W) v a : vget (vmap f v) a = f (vget v a).
Proof. destruct a; reflexivity. Qed.
Lemma vget_vmap2 {U V W} (f : U -> V -> W) u v a : vget (vmap2 f u v) a = f (vget u a) (vget v a).
Proof. destruct a; reflexivity. Qed.

Lemma vmove_loop_same fuel : forall g q d0 p dr log, off_faces (pd p) dr ->
  same_move (vmove_loop Rnum X fuel g q (1 / 3 * q) d0 p dr log) (move_loop Rnum fuel g q p dr log).
Proof.
  induction fuel as [|fuel IH]; intros g q d0 p dr log Ho; [exact I|].
  cbn [vmove_loop move_loop].
  pose proof (fr_dist (pd p) dr Ho) as F. cbv zeta in F.
  assert (P := vpick_pick (face_dist Rnum (s_dir Rnum dr) (pd p) dr)
    (fun a => n_div Rnum (n_sub Rnum (vget (vmap (o_sgn X) dr) a) (vget (pd p) a)) (o_den X (vget dr a)))).
  cbn [n_div n_sub Rnum] in P. specialize (P ltac:(intros a; destruct (F a) as [[_ E]|[_ E]]; [left; exact E|right; exact E])).
  cbn [n_div n_sub Rnum].
  destruct (vpick Rnum _) as [s type] eqn:EP.
  destruct (pick Rnum _) as [v3 ax] eqn:EQ. cbn [fst snd] in P. injection P as Es Et. subst type.
  assert (Hs : vmap (fun d => n_mul Rnum s d) dr = vmap (fun d => n_mul Rnum d (n_mul Rnum v3 (n_half Rnum))) dr).
  { unfold vmap. cbn [n_mul n_half Rnum]. rewrite Es. f_equal; ring. }
  rewrite Hs. set (S := vmap (fun d => n_mul Rnum d (n_mul Rnum v3 (n_half Rnum))) dr) in *.
  rewrite vstreak_eq. fold (n_mul Rnum).
  destruct ax as [a|].
  2:{ cbn [same_move]. repeat split; try reflexivity. discriminate. }
  destruct (vpick_lt _ _ _ EP) as [Ef Hlt].
  assert (NZ : vget dr a <> 0). { destruct (F a) as [[N _]|[_ [_ N]]]; [exact N|]. cbn beta in Ef. lra. }
  rewrite (sgn_dir dr a NZ).
  set (r := vset (vmap2 (n_add Rnum) (pd p) (vmap2 (n_add Rnum) S S)) a (vget (s_dir Rnum dr) a)).
  assert (Hr : vset r a (n_opp Rnum (vget r a)) = vset (vmap2 (n_add Rnum) (pd p) (vmap2 (n_add Rnum) S S)) a (vget (s_dir Rnum dr) a) -> True) by trivial.
  assert (Hra : vget r a = vget (s_dir Rnum dr) a) by (unfold r; destruct a; reflexivity).
  (* the invariant *)
  assert (HS : forall b, vget S b = s * vget dr b). { intros b. rewrite <- Hs. rewrite vget_vmap. reflexivity. }
  assert (Inv : forall b, vget (vmap2 (n_sub Rnum) dr S) b <> 0 \/ (b <> a /\ Rabs (vget r b) <= 1 - tiny)).
  { intros b. rewrite vget_vmap2. cbn [n_sub Rnum]. rewrite HS. destruct (Req_dec (vget dr b) 0) as [Z|N].
    - right. assert (b <> a) by congruence. split; [assumption|]. unfold r. rewrite vget_vset.
      replace (match a, b with AX, AX | AY, AY | AZ, AZ => true | _, _ => false end) with false by (destruct a, b; try reflexivity; congruence).
      rewrite !vget_vmap2. cbn [n_add Rnum]. rewrite HS, Z. replace (vget (pd p) b + (s * 0 + s * 0)) with (vget (pd p) b) by ring.
      destruct (Ho b) as [C|C]; [contradiction|exact C].
    - left. replace (vget dr b - s * vget dr b) with ((1 - s) * vget dr b) by ring. apply Rmult_integral_contrapositive. split; [lra|exact N]. }
  destruct (negb (int_ok (6 * pi p))) eqn:E6; [exact I|].
  cbn [n_lt n_zero Rnum] in *.
  destruct (nbr_at g (pi p) (if Rltb 0 (vget (s_dir Rnum dr) a) then Z.add (axis_code a) 3 else axis_code a)) as [n|] eqn:En; [|exact I].
  destruct (n =? reflect_particles)%Z eqn:E1.
  { apply IH. cbn [pd]. intros b. rewrite vget_vset. destruct (Inv b) as [N|[Hb Hb']].
    - left. destruct (match a, b with AX, AX | AY, AY | AZ, AZ => true | _, _ => false end) eqn:Eab; [|exact N].
      assert (a = b) by (destruct a, b; try discriminate; reflexivity). subst b. apply (Ropp_neq_0_compat _ N).
    - right. exact Hb'. }
  destruct ((n <? mrangel g) || (mrangeh g <? n))%Z eqn:E2.
  { destruct (negb (int_ok (8 * pi p)) || _) eqn:E8; [exact I|]. cbn [same_move]. repeat split; reflexivity. }
  replace (vset r a (n_opp Rnum (vget r a))) with (vset r a (n_opp Rnum (vget (s_dir Rnum dr) a))) by (rewrite Hra; reflexivity).
  apply IH. cbn [pd]. intros b. destruct (Inv b) as [N|[Hb Hb']]; [left; exact N|right]. rewrite vget_vset.
  replace (match a, b with AX, AX | AY, AY | AZ, AZ => true | _, _ => false end) with false by (destruct a, b; try reflexivity; congruence).
  exact Hb'.
Qed.

Lemma vmove_p_same fuel g qsp p disp : off_faces (pd p) disp ->
  same_move (vmove_p Rnum X fuel g qsp p disp) (move_p Rnum fuel g qsp p disp).
Proof. intros H. unfold vmove_p, move_p. apply vmove_loop_same. exact H. Qed.
End Move.

(* ---------- the lanes ---------- *)

Section Lane.
Variable X : vops R.
Hypothesis HX : exact_ops X.

Lemma norm2_nonneg u : 0 <= norm2 Rnum u.
Proof. unfold norm2. cbn [n_add n_mul Rnum]. nra. Qed.
Lemma lane_norm2_eq u : lane_norm2 Rnum u = norm2 Rnum u.
Proof. reflexivity. Qed.
Lemma lane_e_eq c f d : vmap (fun e => n_mul Rnum c e) (lane_e Rnum f d) = half_e Rnum c f d.
Proof. apply vec_ext; cbn; unfold fma; cbn; ring. Qed.
Lemma lane_e'_eq c f d : vmap (fun e => n_mul Rnum c e) (lane_e' Rnum f d) = half_e Rnum c f d.
Proof. apply vec_ext; cbn; unfold fma; cbn; ring. Qed.
Lemma lane_b_eq f d : lane_b Rnum f d = mag_b Rnum f d.
Proof. apply vec_ext; cbn; unfold fma; cbn; ring. Qed.

Lemma rotate_boris poly c cb u : (forall x, poly x = 1 + x * (1 / 3 + x * (2 / 15))) ->
  lane_rotate Rnum X poly (c * o_rsqrt X (1 + lane_norm2 Rnum u)) cb u = boris Rnum c cb u.
Proof.
  intros Hp. destruct HX as (_ & _ & _ & _ & _ & Hs & Hr).
  change (lane_norm2 Rnum) with (norm2 Rnum). rewrite Hs by (pose proof (norm2_nonneg u); lra).
  unfold lane_rotate, boris. cbn [n_mul n_add n_sub n_div n_sqrt n_one n_third n_215 Rnum]. change (lane_norm2 Rnum) with (norm2 Rnum).
  replace (c * (1 / sqrt (1 + norm2 Rnum u))) with (c / sqrt (1 + norm2 Rnum u)) by (unfold Rdiv; ring).
  set (v0 := c / sqrt (1 + norm2 Rnum u)). set (v1 := norm2 Rnum cb). rewrite Hp.
  set (v3 := v0 * (1 + v0 * v0 * v1 * (1 / 3 + v0 * v0 * v1 * (2 / 15)))).
  assert (0 <= v3 * v3 * v1) by (apply Rmult_le_pos; [apply Rle_0_sqr|apply norm2_nonneg]).
  rewrite Hr by (unfold fma; cbn [n_add n_mul Rnum]; lra).
  assert (E : v3 * (1 / fma Rnum (v3 * v3) v1 1) = v3 / (1 + v1 * (v3 * v3))).
  { unfold fma. cbn [n_add n_mul Rnum]. replace (v3 * v3 * v1 + 1) with (1 + v1 * (v3 * v3)) by ring. unfold Rdiv. ring. }
  rewrite E. set (v4 := v3 / (1 + v1 * (v3 * v3))).
  apply vec_ext; cbn [vx vy vz]; unfold fma, fms; cbn [n_add n_sub n_mul Rnum]; ring.
Qed.
Lemma poly_ok x : lane_poly Rnum x = 1 + x * (1 / 3 + x * (2 / 15)).
Proof. unfold lane_poly, fma. cbn [n_add n_mul n_one n_third n_215 Rnum]. ring. Qed.
Lemma poly'_ok x : lane_poly' Rnum x = 1 + x * (1 / 3 + x * (2 / 15)).
Proof. unfold lane_poly', fma. cbn [n_add n_mul n_one n_third n_215 Rnum]. ring. Qed.
Lemma lane_push_eq c f p : lane_push Rnum X c f p = push_u Rnum c f p.
Proof.
  unfold lane_push, push_u, vadd. rewrite lane_e_eq, lane_b_eq. cbn [n_mul n_add n_one Rnum].
  rewrite (rotate_boris (lane_poly Rnum) c _ _ poly_ok). reflexivity.
Qed.
Lemma lane_disp_eq cdt u : lane_disp Rnum X cdt u = displacement Rnum cdt u.
Proof.
  unfold lane_disp, displacement. cbn [n_add n_mul n_one n_div n_sqrt Rnum]. change (lane_norm2 Rnum) with (norm2 Rnum).
  destruct HX as (_ & _ & _ & _ & _ & Hs & _). rewrite Hs by (pose proof (norm2_nonneg u); lra). reflexivity.
Qed.
Lemma lane_out_eq v : lane_out Rnum v = negb (inbnds Rnum v).
Proof.
  unfold lane_out, inbnds. cbn [n_lt n_le n_one n_opp Rnum]. unfold Rltb, Rleb'.
  repeat match goal with |- context[Rlt_dec ?a ?b] => destruct (Rlt_dec a b) | |- context[Rle_dec ?a ?b] => destruct (Rle_dec a b) end;
  cbn; try reflexivity; exfalso; lra.
Qed.
Lemma lane_j_eq q v s a b : lane_j Rnum q v s a b = accumulate_j Rnum q v s a b.
Proof. reflexivity. Qed.
Lemma lane_row_zero s mid : lane_j Rnum 0 ((((0 * vx s) * vy s) * vz s) * (1 / 3)) (vx s) (vy mid) (vz mid) ++
  lane_j Rnum 0 ((((0 * vx s) * vy s) * vz s) * (1 / 3)) (vy s) (vz mid) (vx mid) ++
  lane_j Rnum 0 ((((0 * vx s) * vy s) * vz s) * (1 / 3)) (vz s) (vx mid) (vy mid) ++ [0; 0; 0; 0] = repeat 0 16.
Proof. unfold lane_j. cbn [n_add n_sub n_mul n_one Rnum app repeat]. repeat (apply f_equal2; [ring|]). reflexivity. Qed.

(* a lane against the scalar loop body *)
Lemma adv_lane_in fuel g c cdt q f p : l_out (adv_lane Rnum X c cdt q f p) = false ->
  exists j d, advance_one Rnum fuel g c cdt q f p = MDone false (l_p (adv_lane Rnum X c cdt q f p)) d [(pi p, j)] /\
  l_row (adv_lane Rnum X c cdt q f p) = j ++ [0; 0; 0; 0] /\ length j = 12%nat.
Proof.
  unfold adv_lane, advance_one. rewrite lane_push_eq, lane_disp_eq. cbv zeta.
  change (vmap2 (n_add Rnum)) with (vadd Rnum). rewrite lane_out_eq.
  destruct (inbnds Rnum _); cbn [negb l_out l_p l_row]; [intros _|discriminate].
  do 2 eexists. split; [reflexivity|]. split; [|reflexivity]. unfold accumulate_streak. rewrite <- !app_assoc. reflexivity.
Qed.
Lemma adv_lane_out fuel g c cdt q f p : l_out (adv_lane Rnum X c cdt q f p) = true ->
  advance_one Rnum fuel g c cdt q f p = move_p Rnum fuel g q (l_p (adv_lane Rnum X c cdt q f p)) (l_disp (adv_lane Rnum X c cdt q f p)) /\
  l_row (adv_lane Rnum X c cdt q f p) = repeat 0 16.
Proof.
  unfold adv_lane, advance_one. rewrite lane_push_eq, lane_disp_eq. cbv zeta.
  change (vmap2 (n_add Rnum)) with (vadd Rnum). rewrite lane_out_eq.
  destruct (inbnds Rnum _); cbn [negb l_out l_p l_row l_disp]; [discriminate|intros _].
  split; [reflexivity|]. cbn [n_zero n_mul n_third Rnum]. apply lane_row_zero.
Qed.
Lemma adv_lane_pi c cdt q f p : pi (l_p (adv_lane Rnum X c cdt q f p)) = pi p.
Proof. reflexivity. Qed.

Lemma center_lane_eq c f p : center_lane Rnum X c f p = center_one Rnum c f p.
Proof.
  unfold center_lane, center_one, vadd. rewrite lane_e'_eq, lane_b_eq. cbn [n_mul n_add n_one n_half Rnum].
  rewrite (rotate_boris (lane_poly' Rnum) _ _ _ poly'_ok). reflexivity.
Qed.
Lemma uncenter_lane_eq c f p : uncenter_lane Rnum X c f p = uncenter_one Rnum c f p.
Proof.
  unfold uncenter_lane, uncenter_one, vadd. rewrite lane_e'_eq, lane_b_eq. cbn [n_mul n_add n_one n_half n_opp Rnum].
  rewrite (rotate_boris (lane_poly' Rnum) _ _ _ poly'_ok). reflexivity.
Qed.
Lemma energy_lane_eq c m f p : energy_lane Rnum c m f p = energy_one Rnum c m f p.
Proof.
  unfold energy_lane, energy_one, vadd. rewrite <- (lane_e'_eq c).
  unfold lane_norm2, fma, vmap2, vmap. cbn [vx vy vz n_add n_mul n_div n_sqrt n_one Rnum].
  set (e := lane_e' Rnum f (pd p)).
  match goal with |- _ * (?a / (1 + sqrt (1 + ?a))) = _ * (?b / (1 + sqrt (1 + ?b))) => replace a with b by ring; reflexivity end.
Qed.
Lemma hydro_lane_eq h f p : hydro_lane Rnum X h f p = hydro_state Rnum (2 / 5) h f p.
Proof.
  unfold hydro_lane, hydro_state, vadd. rewrite lane_e_eq, lane_b_eq. cbv zeta.
  set (u := vmap2 (n_add Rnum) (pu p) (half_e Rnum (h_qdt h) f (pd p))). set (cb := mag_b Rnum f (pd p)).
  destruct HX as (_ & _ & _ & _ & _ & _ & Hr).
  cbn [n_add n_mul n_sub n_div n_sqrt n_one n_two n_third Rnum].
  change (lane_norm2 Rnum) with (norm2 Rnum).
  replace (vx u * vx u + vy u * vy u + vz u * vz u) with (norm2 Rnum u) by (unfold norm2; cbn [n_add n_mul Rnum]; ring).
  set (g := sqrt (1 + norm2 Rnum u)).
  assert (Hg : 1 <= g). { unfold g. rewrite <- sqrt_1 at 1. apply sqrt_le_1_alt. pose proof (norm2_nonneg u); lra. }
  rewrite !Hr by lra.
  replace (h_c h * (1 / g)) with (h_c h / g) by (unfold Rdiv; ring).
  replace (h_c h * norm2 Rnum u * (1 / (1 + g))) with (norm2 Rnum u * (h_c h / (g + 1))) by (rewrite (Rplus_comm 1 g); unfold Rdiv; ring).
  set (v0 := h_qdt h / (2 * h_c h) * (h_c h / g)).
  assert (E : forall v1, v1 = vx cb * vx cb + vy cb * vy cb + vz cb * vz cb -> lane_rotate Rnum X (lane_poly Rnum) v0 cb u =
     (let v3 := v0 * (1 + 1 / 3 * (v0 * v0 * v1) * (1 + 2 / 5 * (v0 * v0 * v1))) in
      let v4 := v3 / (1 + v1 * v3 * v3) in
      let v4 := v4 + v4 in
      let w0 := vx u + v3 * (vy u * vz cb - vz u * vy cb) in
      let w1 := vy u + v3 * (vz u * vx cb - vx u * vz cb) in
      let w2 := vz u + v3 * (vx u * vy cb - vy u * vx cb) in
      mkv (vx u + v4 * (w1 * vz cb - w2 * vy cb)) (vy u + v4 * (w2 * vx cb - w0 * vz cb)) (vz u + v4 * (w0 * vy cb - w1 * vx cb)))).
  { intros v1 Ev. cbv zeta. unfold lane_rotate. cbn [n_add n_mul n_sub n_one Rnum]. change (lane_norm2 Rnum) with (norm2 Rnum).
    replace (norm2 Rnum cb) with v1 by (rewrite Ev; unfold norm2; cbn [n_add n_mul Rnum]; ring).
    rewrite poly_ok.
    replace (v0 * (1 + v0 * v0 * v1 * (1 / 3 + v0 * v0 * v1 * (2 / 15)))) with (v0 * (1 + 1 / 3 * (v0 * v0 * v1) * (1 + 2 / 5 * (v0 * v0 * v1)))) by field.
    set (v3 := v0 * (1 + 1 / 3 * (v0 * v0 * v1) * (1 + 2 / 5 * (v0 * v0 * v1)))).
    assert (0 <= v3 * v3 * v1) by (apply Rmult_le_pos; [apply Rle_0_sqr|subst v1; nra]).
    rewrite Hr by (unfold fma; cbn [n_add n_mul Rnum]; lra).
    replace (v3 * (1 / fma Rnum (v3 * v3) v1 1)) with (v3 / (1 + v1 * v3 * v3)).
    2:{ unfold fma. cbn [n_add n_mul Rnum]. replace (v3 * v3 * v1 + 1) with (1 + v1 * v3 * v3) by ring. unfold Rdiv. ring. }
    set (v4 := v3 / (1 + v1 * v3 * v3)).
    apply vec_ext; cbn [vx vy vz]; unfold fma, fms; cbn [n_add n_sub n_mul Rnum]; ring. }
  rewrite (E _ eq_refl). reflexivity.
Qed.
End Lane.
