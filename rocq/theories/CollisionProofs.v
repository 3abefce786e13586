(* Proofs about the collision operators: exact-arithmetic kernels, pairing, sampling, thermostat. *)
From Coq Require Import Reals Lra Psatz.
From Coq Require Import ZArith List Bool Lia ZifyBool Permutation.
From Flocq Require Import Core BinarySingleNaN.
From Verif Require Import ParticleModel ParticleProofs.
From Verif Require Import FloatModel FloatProofs RngModel ConvProofs SortModel SortProofs VoxelModel DistributeModel DistributeProofs
  CollisionModel.
Import ListNotations.
Open Scope Z_scope.
Ltac Zify.zify_post_hook ::= idtac.

(* scalar product, sum, scaling of real vectors: the vocabulary of the conservation laws *)
Definition dot (a b : vec R) : R := (vx a * vx b + vy a * vy b + vz a * vz b)%R.
Definition vplus (a b : vec R) : vec R := mkv (vx a + vx b)%R (vy a + vy b)%R (vz a + vz b)%R.
Definition vminus (a b : vec R) : vec R := mkv (vx a - vx b)%R (vy a - vy b)%R (vz a - vz b)%R.
Definition vtimes (s : R) (a : vec R) : vec R := mkv (s * vx a)%R (s * vy a)%R (s * vz a)%R.

Section Kernels.
Local Open Scope R_scope.

Lemma inv_guard s G : 0 <= s -> 0 <= G -> let i := 1 / sqrt (s + G) in
  0 <= i * i * s <= 1 /\ (1 - i * i * s) * s <= G /\ (G = 0 -> (1 - i * i * s) * s = 0).
Proof.
  intros Hs HG i.
  destruct (Req_dec (s + G) 0) as [E|E].
  - assert (s = 0) by lra. assert (G = 0) by lra. subst s. rewrite !Rmult_0_r. lra.
  - assert (P : 0 < s + G) by lra.
    assert (Ei : i * i = / (s + G)).
    { unfold i. pose proof (sqrt_lt_R0 _ P). rewrite <- (sqrt_sqrt (s + G)) at 3 by lra. field. lra. }
    rewrite Ei.
    assert (Et : / (s + G) * s = 1 - G / (s + G)) by (field; lra).
    assert (Hq : 0 <= G / (s + G) <= 1).
    { split; [apply Rmult_le_pos; [lra|left; apply Rinv_0_lt_compat; exact P]|].
      apply (Rmult_le_reg_r (s + G)); [exact P|]. unfold Rdiv. rewrite Rmult_assoc, Rinv_l by lra. lra. }
    rewrite Et. split; [lra|].
    assert (Eq : G / (s + G) * s = G * (1 - G / (s + G))) by (field; lra).
    replace (1 - (1 - G / (s + G))) with (G / (s + G)) by ring. rewrite Eq. split; [nra|]. intros ->. ring.
Qed.

Lemma transverse_ok G (u : vec R) : 0 <= G ->
  let t := transverse Rnum G u in
  dot u t = 0 /\ 0 <= dot t t <= 1 /\ (1 - dot t t) * dot u u <= 3 / 2 * G /\
  (G = 0 -> (1 - dot t t) * dot u u = 0).
Proof.
  intros HG. destruct u as [x y z].
  assert (AUX : forall m a b, m * m <= a * a -> m * m <= b * b -> let i := 1 / sqrt (a * a + b * b + G) in
    m * 0 + a * (i * b) + b * (- i * a) = 0 /\
    0 <= 0 * 0 + i * b * (i * b) + - i * a * (- i * a) <= 1 /\
    (1 - (0 * 0 + i * b * (i * b) + - i * a * (- i * a))) * (m * m + a * a + b * b) <= 3 / 2 * G /\
    (G = 0 -> (1 - (0 * 0 + i * b * (i * b) + - i * a * (- i * a))) * (m * m + a * a + b * b) = 0)).
  { intros m a b Ha Hb i. pose proof (inv_guard (a * a + b * b) G ltac:(nra) HG) as (A & B & C).
    fold i in A, B, C. set (tau := i * i * (a * a + b * b)) in *.
    replace (0 * 0 + i * b * (i * b) + - i * a * (- i * a)) with tau by (unfold tau; ring).
    split; [ring|]. split; [exact A|].
    replace (m * m + a * a + b * b) with (m * m + (a * a + b * b)) by ring.
    assert (Hm : m * m <= (a * a + b * b) / 2) by lra.
    assert (Hs : 0 <= a * a + b * b) by nra. set (s := a * a + b * b) in *. clearbody s tau.
    set (q := m * m) in *. assert (0 <= q) by (unfold q; nra). clearbody q.
    split; [nra|]. intros E. pose proof (C E). nra. }
  unfold transverse, least. cbn [vx vy vz Rnum n_lt n_mul n_add n_div n_one n_sqrt n_zero n_opp].
  destruct (Rltb_spec (y * y) (x * x)).
  - destruct (Rltb_spec (z * z) (y * y)); cbn [vget vset vx vy vz]; unfold dot; cbn [vx vy vz].
    + pose proof (AUX z x y ltac:(lra) ltac:(lra)) as (A & B & C & D). cbv zeta in *. set (i := 1 / sqrt (x * x + y * y + G)) in *.
      replace (x * (i * y) + y * (- i * x) + z * 0) with (z * 0 + x * (i * y) + y * (- i * x)) by ring.
      replace (i * y * (i * y) + - i * x * (- i * x) + 0 * 0) with (0 * 0 + i * y * (i * y) + - i * x * (- i * x)) by ring.
      replace (x * x + y * y + z * z) with (z * z + x * x + y * y) by ring. tauto.
    + pose proof (AUX y z x ltac:(lra) ltac:(lra)) as (A & B & C & D). cbv zeta in *. set (i := 1 / sqrt (z * z + x * x + G)) in *.
      replace (x * (- i * z) + y * 0 + z * (i * x)) with (y * 0 + z * (i * x) + x * (- i * z)) by ring.
      replace (- i * z * (- i * z) + 0 * 0 + i * x * (i * x)) with (0 * 0 + i * x * (i * x) + - i * z * (- i * z)) by ring.
      replace (x * x + y * y + z * z) with (y * y + z * z + x * x) by ring. tauto.
  - destruct (Rltb_spec (z * z) (x * x)); cbn [vget vset vx vy vz]; unfold dot; cbn [vx vy vz].
    + pose proof (AUX z x y ltac:(lra) ltac:(lra)) as (A & B & C & D). cbv zeta in *. set (i := 1 / sqrt (x * x + y * y + G)) in *.
      replace (x * (i * y) + y * (- i * x) + z * 0) with (z * 0 + x * (i * y) + y * (- i * x)) by ring.
      replace (i * y * (i * y) + - i * x * (- i * x) + 0 * 0) with (0 * 0 + i * y * (i * y) + - i * x * (- i * x)) by ring.
      replace (x * x + y * y + z * z) with (z * z + x * x + y * y) by ring. tauto.
    + pose proof (AUX x y z ltac:(lra) ltac:(lra)) as (A & B & C & D). cbv zeta in *. tauto.
Qed.

Definition cross (u t : vec R) : vec R :=
  mkv (vy u * vz t - vz u * vy t) (vz u * vx t - vx u * vz t) (vx u * vy t - vy u * vx t).
Definition comb (p q r : R) (u t : vec R) : vec R :=
  vplus (vplus (vtimes p u) (vtimes q t)) (vtimes r (cross u t)).
Lemma comb_norm p q r u t : dot u t = 0 ->
  dot (comb p q r u t) (comb p q r u t) = p * p * dot u u + (q * q + r * r * dot u u) * dot t t.
Proof.
  intros H.
  assert (E : dot (comb p q r u t) (comb p q r u t) =
    p * p * dot u u + (q * q + r * r * dot u u) * dot t t + dot u t * (2 * p * q - r * r * dot u t))
    by (unfold comb, dot, vplus, vtimes, cross; cbn [vx vy vz]; ring).
  rewrite E, H. ring.
Qed.

(* what an elastic rotation with transverse part of squared size S = 1 - P^2 does to the length *)
Lemma elastic P Q R' (u t : vec R) G ur : 0 <= G -> dot u t = 0 -> 0 <= dot t t <= 1 ->
  (1 - dot t t) * dot u u <= 3 / 2 * G -> (G = 0 -> (1 - dot t t) * dot u u = 0) ->
  ur * ur = dot u u -> P * P + (Q * Q + R' * R') = 1 ->
  let v := comb P (Q * ur) R' u t in
  dot u u - 3 / 2 * G <= dot v v <= dot u u /\ (G = 0 -> dot v v = dot u u).
Proof.
  intros HG H0 Ht Hd He Hur Hs v. unfold v. rewrite comb_norm by exact H0.
  replace (Q * ur * (Q * ur)) with (Q * Q * dot u u) by (rewrite <- Hur; ring).
  set (S := Q * Q + R' * R') in *.
  replace (P * P * dot u u + (Q * Q * dot u u + R' * R' * dot u u) * dot t t)
    with (dot u u - S * ((1 - dot t t) * dot u u)) by (replace (P * P) with (1 - S) by lra; unfold S; ring).
  assert (HS : 0 <= S <= 1) by (unfold S in *; nra). clearbody S.
  assert (Hu : 0 <= dot u u) by (unfold dot; nra).
  assert (Hp : 0 <= (1 - dot t t) * dot u u) by nra. set (k := (1 - dot t t) * dot u u) in *. clearbody k.
  split; [split; nra|]. intros E. rewrite (He E). ring.
Qed.

Lemma sqrt_square u : sqrt (square Rnum u) * sqrt (square Rnum u) = dot u u.
Proof.
  unfold square. cbn [Rnum n_add n_mul]. apply sqrt_sqrt.
  pose proof (Rle_0_sqr (vx u)). pose proof (Rle_0_sqr (vy u)). pose proof (Rle_0_sqr (vz u)). unfold Rsqr, dot in *. lra.
Qed.

(* both transfers: u - 2 a is an elastic rotation of u *)
Definition rotates (G : R) (f : vec R -> vec R) : Prop := forall u,
  let v := vminus u (vtimes 2 (f u)) in
  dot u u - 3 / 2 * G <= dot v v <= dot u u /\ (G = 0 -> dot v v = dot u u).

Lemma hard_sphere_rotates G bcs bsn : 0 <= G -> bcs * bcs + bsn * bsn < 1 -> rotates G (hard_sphere_transfer Rnum G bcs bsn).
Proof.
  intros HG Hb u v. destruct (transverse_ok G u HG) as (A & B & C & D). cbv zeta in *.
  set (t := transverse Rnum G u) in *.
  set (s := sqrt (1 - (bcs * bcs + bsn * bsn))).
  assert (Es : s * s = 1 - (bcs * bcs + bsn * bsn)) by (unfold s; apply sqrt_sqrt; lra).
  assert (Ev : v = comb (1 - 2 * (s * s)) (2 * s * bcs * sqrt (square Rnum u)) (2 * (s * bsn)) u t).
  { unfold v, hard_sphere_transfer, blend. cbn [Rnum n_add n_sub n_mul n_sqrt n_one]. fold t. fold s. rewrite Es.
    unfold comb, vminus, vplus, vtimes, cross. cbn [vx vy vz]. f_equal; ring. }
  rewrite Ev. apply (elastic _ (2 * s * bcs) (2 * (s * bsn)) u t G); try assumption; [apply sqrt_square|].
  replace (2 * s * bcs * (2 * s * bcs) + 2 * (s * bsn) * (2 * (s * bsn))) with (4 * (s * s) * (bcs * bcs + bsn * bsn)) by ring.
  replace (bcs * bcs + bsn * bsn) with (1 - s * s) by lra. ring.
Qed.

Lemma coulomb_rotates G cc bcs bsn : 0 <= G -> rotates G (coulomb_transfer Rnum G cc bcs bsn).
Proof.
  intros HG u v. destruct (transverse_ok G u HG) as (A & B & C & D). cbv zeta in *.
  set (t := transverse Rnum G u) in *.
  set (b := cc * square Rnum u). set (p := 1 / (1 + b * b * (bcs * bcs + bsn * bsn))).
  assert (Hn : 0 < 1 + b * b * (bcs * bcs + bsn * bsn)) by (assert (0 <= b * b) by nra; assert (0 <= bcs * bcs + bsn * bsn) by nra; nra).
  assert (Ep : p * p * (b * b * (bcs * bcs + bsn * bsn)) = p - p * p) by (unfold p; field; lra).
  assert (Ev : v = comb (1 - 2 * p) (2 * (p * b) * bcs * sqrt (square Rnum u)) (2 * (p * b * bsn)) u t).
  { unfold v, coulomb_transfer, blend. cbn [Rnum n_add n_sub n_mul n_div n_sqrt n_one]. fold t. fold b. fold p.
    unfold comb, vminus, vplus, vtimes, cross. cbn [vx vy vz]. f_equal; ring. }
  rewrite Ev. apply (elastic _ (2 * (p * b) * bcs) (2 * (p * b * bsn)) u t G); try assumption; [apply sqrt_square|].
  replace (2 * (p * b) * bcs * (2 * (p * b) * bcs) + 2 * (p * b * bsn) * (2 * (p * b * bsn)))
    with (4 * (p * p * (b * b * (bcs * bcs + bsn * bsn)))) by ring. rewrite Ep. ring.
Qed.

Lemma ta_rotates G dd cs sn u : 0 <= G -> cs * cs + sn * sn = 1 ->
  let v := vplus u (ta_change Rnum G dd cs sn u) in
  dot u u - 3 / 2 * G <= dot v v <= dot u u /\ (G = 0 -> dot v v = dot u u).
Proof.
  intros HG Hc v. destruct (transverse_ok G u HG) as (A & B & C & D). cbv zeta in *.
  set (t := transverse Rnum G u) in *. set (s := 2 * dd / (1 + dd * dd)).
  assert (Hn : 0 < 1 + dd * dd) by nra.
  assert (Ep : (1 - s * dd) * (1 - s * dd) + s * s = 1) by (unfold s; field; lra).
  assert (Ev : v = comb (1 - s * dd) (s * cs * sqrt (square Rnum u)) (s * sn) u t).
  { unfold v, ta_change. cbn [Rnum n_add n_sub n_mul n_div n_sqrt n_one n_two n_opp]. fold t. fold s.
    unfold comb, vminus, vplus, vtimes, cross. cbn [vx vy vz]. f_equal; ring. }
  rewrite Ev. apply (elastic _ (s * cs) (s * sn) u t G); try assumption; [apply sqrt_square|].
  replace (s * cs * (s * cs) + s * sn * (s * sn)) with (s * s * (cs * cs + sn * sn)) by ring. rewrite Hc. lra.
Qed.

Lemma vec_eq (a b : vec R) : vx a = vx b -> vy a = vy b -> vz a = vz b -> a = b.
Proof. destruct a as [a1 a2 a3], b as [b1 b2 b3]; cbn [vx vy vz]; congruence. Qed.

Lemma two_masses mi mj : 0 < mi -> 0 < mj ->
  mi * twomu_mi Rnum mi mj = mj * twomu_mj Rnum mi mj /\ twomu_mi Rnum mi mj + twomu_mj Rnum mi mj = 2.
Proof. intros A B. unfold twomu_mi, twomu_mj. cbn [Rnum n_div n_mul n_add n_two]. split; field; lra. Qed.
Lemma ta_masses mi mj : 0 < mi -> 0 < mj ->
  mi * ta_mu_i Rnum mi mj = mj * ta_mu_j Rnum mi mj /\ ta_mu_i Rnum mi mj + ta_mu_j Rnum mi mj = 1.
Proof. intros A B. unfold ta_mu_i, ta_mu_j. cbn [Rnum n_div n_mul n_add]. split; field; lra. Qed.

(* kinetic energy from total momentum and relative momentum *)
Lemma energy_split mi mj (a b : vec R) : 0 < mi -> 0 < mj ->
  mi * dot a a + mj * dot b b =
  (dot (vplus (vtimes mi a) (vtimes mj b)) (vplus (vtimes mi a) (vtimes mj b)) +
   mi * mj * dot (vminus a b) (vminus a b)) / (mi + mj).
Proof. intros A B. unfold dot, vplus, vtimes, vminus. cbn [vx vy vz]. field. lra. Qed.

Definition conserves (G mi mj : R) (ui uj ui' uj' : vec R) : Prop :=
  vplus (vtimes mi ui') (vtimes mj uj') = vplus (vtimes mi ui) (vtimes mj uj) /\
  dot (vminus ui uj) (vminus ui uj) - 3 / 2 * G <= dot (vminus ui' uj') (vminus ui' uj') <= dot (vminus ui uj) (vminus ui uj) /\
  (G = 0 -> dot (vminus ui' uj') (vminus ui' uj') = dot (vminus ui uj) (vminus ui uj) /\
            mi * dot ui' ui' + mj * dot uj' uj' = mi * dot ui ui + mj * dot uj uj).

Lemma conserves_intro G mi mj ui uj ui' uj' : 0 < mi -> 0 < mj ->
  vplus (vtimes mi ui') (vtimes mj uj') = vplus (vtimes mi ui) (vtimes mj uj) ->
  dot (vminus ui uj) (vminus ui uj) - 3 / 2 * G <= dot (vminus ui' uj') (vminus ui' uj') <= dot (vminus ui uj) (vminus ui uj) ->
  (G = 0 -> dot (vminus ui' uj') (vminus ui' uj') = dot (vminus ui uj) (vminus ui uj)) ->
  conserves G mi mj ui uj ui' uj'.
Proof.
  intros Hi Hj A B C. split; [exact A|]. split; [exact B|]. intros E. split; [exact (C E)|].
  rewrite (energy_split mi mj ui' uj'), (energy_split mi mj ui uj), A, (C E) by assumption. reflexivity.
Qed.

Lemma collide_both G f mi mj ui uj : 0 < mi -> 0 < mj -> rotates G f ->
  let '(ui', uj') := collide Rnum f (twomu_mi Rnum mi mj) (twomu_mj Rnum mi mj) 3 ui uj in
  conserves G mi mj ui uj ui' uj'.
Proof.
  intros Hi Hj Hf. unfold collide. change (Z.testbit 3 0) with true. change (Z.testbit 3 1) with true. cbn match.
  destruct (two_masses mi mj Hi Hj) as [E1 E2]. set (wi := twomu_mi Rnum mi mj) in *. set (wj := twomu_mj Rnum mi mj) in *.
  set (a := f (vsub3 Rnum ui uj)).
  assert (Em : vplus (vtimes mi (vsub3 Rnum ui (vscale Rnum wi a))) (vtimes mj (vadd3 Rnum uj (vscale Rnum wj a))) =
               vplus (vtimes mi ui) (vtimes mj uj)).
  { unfold vplus, vtimes, vsub3, vadd3, vscale. cbn [vx vy vz Rnum n_add n_sub n_mul].
    apply vec_eq; cbn [vx vy vz];
    match goal with |- ?m1 * (?p - _ * ?q) + ?m2 * (?r + _ * ?q) = _ =>
      replace (m1 * (p - wi * q) + m2 * (r + wj * q)) with (m1 * p + m2 * r - (m1 * wi - m2 * wj) * q) by ring end;
    rewrite E1; ring. }
  assert (Er : vminus (vsub3 Rnum ui (vscale Rnum wi a)) (vadd3 Rnum uj (vscale Rnum wj a)) =
               vminus (vminus ui uj) (vtimes 2 a)).
  { rewrite <- E2. unfold vminus, vtimes, vsub3, vadd3, vscale. cbn [vx vy vz Rnum n_add n_sub n_mul].
    apply vec_eq; cbn [vx vy vz]; ring. }
  destruct (Hf (vminus ui uj)) as [A B]. change (f (vminus ui uj)) with a in A, B.
  apply conserves_intro; try assumption; rewrite Er; assumption.
Qed.

Lemma ta_collide_both G mi mj std gauss cs sn r ui uj wi wj : 0 <= G -> 0 < mi -> 0 < mj -> cs * cs + sn * sn = 1 ->
  (wj < wi -> wi * r <= wj) -> (wi < wj -> wj * r <= wi) ->
  let '(ui', uj') := ta_collide Rnum G (ta_mu_i Rnum mi mj) (ta_mu_j Rnum mi mj) std gauss cs sn r ui uj wi wj in
  conserves G mi mj ui uj ui' uj'.
Proof.
  intros HG Hi Hj Hc H1 H2. unfold ta_collide. cbn [Rnum n_lt n_mul n_zero].
  replace (Rltb wj wi && Rltb wj (wi * r))%bool with false
    by (destruct (Rltb_spec wj wi), (Rltb_spec wj (wi * r)); cbn; try reflexivity; exfalso; specialize (H1 r0); lra).
  replace (Rltb wi wj && Rltb wi (wj * r))%bool with false
    by (destruct (Rltb_spec wi wj), (Rltb_spec wi (wj * r)); cbn; try reflexivity; exfalso; specialize (H2 r0); lra).
  destruct (ta_masses mi mj Hi Hj) as [E1 E2]. set (xi := ta_mu_i Rnum mi mj) in *. set (xj := ta_mu_j Rnum mi mj) in *.
  set (u := vsub3 Rnum ui uj).
  set (a := ta_change _ _ _ _ _ _).
  assert (Em : vplus (vtimes mi (vadd3 Rnum ui (vscale Rnum xi a))) (vtimes mj (vsub3 Rnum uj (vscale Rnum xj a))) =
               vplus (vtimes mi ui) (vtimes mj uj)).
  { unfold vplus, vtimes, vsub3, vadd3, vscale. cbn [vx vy vz Rnum n_add n_sub n_mul].
    apply vec_eq; cbn [vx vy vz];
    match goal with |- ?m1 * (?p + _ * ?q) + ?m2 * (?r - _ * ?q) = _ =>
      replace (m1 * (p + xi * q) + m2 * (r - xj * q)) with (m1 * p + m2 * r + (m1 * xi - m2 * xj) * q) by ring end;
    rewrite E1; ring. }
  assert (Er : vminus (vadd3 Rnum ui (vscale Rnum xi a)) (vsub3 Rnum uj (vscale Rnum xj a)) = vplus u a).
  { unfold u, vminus, vplus, vsub3, vadd3, vscale. cbn [vx vy vz Rnum n_add n_sub n_mul].
    apply vec_eq; cbn [vx vy vz].
    - replace (vx ui + xi * vx a - (vx uj - xj * vx a)) with (vx ui - vx uj + (xi + xj) * vx a) by ring. rewrite E2. ring.
    - replace (vy ui + xi * vy a - (vy uj - xj * vy a)) with (vy ui - vy uj + (xi + xj) * vy a) by ring. rewrite E2. ring.
    - replace (vz ui + xi * vz a - (vz uj - xj * vz a)) with (vz ui - vz uj + (xi + xj) * vz a) by ring. rewrite E2. ring. }
  destruct (ta_rotates G (ta_deflection Rnum std gauss u) cs sn u HG Hc) as [A B]. fold a in A, B.
  change (vminus ui uj) with u in *.
  apply conserves_intro; try assumption; rewrite Er; change (vminus ui uj) with u; assumption.
Qed.

(* relative momentum after a two-sided collision *)
Lemma collide_relative f mi mj ui uj : 0 < mi -> 0 < mj ->
  let '(ui', uj') := collide Rnum f (twomu_mi Rnum mi mj) (twomu_mj Rnum mi mj) 3 ui uj in
  vminus ui' uj' = vminus (vminus ui uj) (vtimes 2 (f (vminus ui uj))).
Proof.
  intros Hi Hj. unfold collide. change (Z.testbit 3 0) with true. change (Z.testbit 3 1) with true. cbn match.
  destruct (two_masses mi mj Hi Hj) as [_ E2]. change (vsub3 Rnum ui uj) with (vminus ui uj). rewrite <- E2.
  set (a := f (vminus ui uj)). unfold vminus, vtimes, vsub3, vadd3, vscale. cbn [vx vy vz Rnum n_add n_sub n_mul].
  apply vec_eq; cbn [vx vy vz]; ring.
Qed.
Lemma ta_relative G mi mj std gauss cs sn r ui uj wi wj : 0 < mi -> 0 < mj ->
  (wj < wi -> wi * r <= wj) -> (wi < wj -> wj * r <= wi) ->
  let u := vminus ui uj in
  let '(ui', uj') := ta_collide Rnum G (ta_mu_i Rnum mi mj) (ta_mu_j Rnum mi mj) std gauss cs sn r ui uj wi wj in
  vminus ui' uj' = vplus u (ta_change Rnum G (ta_deflection Rnum std gauss u) cs sn u).
Proof.
  intros Hi Hj H1 H2. cbv zeta. unfold ta_collide. cbn [Rnum n_lt n_mul n_zero].
  replace (Rltb wj wi && Rltb wj (wi * r))%bool with false
    by (destruct (Rltb_spec wj wi), (Rltb_spec wj (wi * r)); cbn; try reflexivity; exfalso; specialize (H1 r0); lra).
  replace (Rltb wi wj && Rltb wi (wj * r))%bool with false
    by (destruct (Rltb_spec wi wj), (Rltb_spec wi (wj * r)); cbn; try reflexivity; exfalso; specialize (H2 r0); lra).
  destruct (ta_masses mi mj Hi Hj) as [_ E2]. change (vsub3 Rnum ui uj) with (vminus ui uj).
  set (a := ta_change _ _ _ _ _ _). set (xi := ta_mu_i Rnum mi mj) in *. set (xj := ta_mu_j Rnum mi mj) in *.
  unfold vminus, vplus, vsub3, vadd3, vscale. cbn [vx vy vz Rnum n_add n_sub n_mul].
  apply vec_eq; cbn [vx vy vz];
  match goal with |- ?p + _ * ?q - (?r - _ * ?q) = _ =>
    replace (p + xi * q - (r - xj * q)) with (p - r + (xi + xj) * q) by ring end; rewrite E2; ring.
Qed.

Lemma dot_blend a b c (u t : vec R) : dot u t = 0 -> dot u (blend Rnum a b c u t) = a * dot u u.
Proof.
  intros H. unfold dot, blend in *. cbn [vx vy vz Rnum n_add n_sub n_mul] in *.
  match goal with |- ?L = _ => replace L with (a * (vx u * vx u + vy u * vy u + vz u * vz u) - b * (vx u * vx t + vy u * vy t + vz u * vz t)) by ring end.
  rewrite H. ring.
Qed.
Lemma dot_minus_twice (u a : vec R) : dot u (vminus u (vtimes 2 a)) = dot u u - 2 * dot u a.
Proof. unfold dot, vminus, vtimes. cbn [vx vy vz]. ring. Qed.
Lemma hard_sphere_cosine G bcs bsn u : 0 <= G ->
  dot u (vminus u (vtimes 2 (hard_sphere_transfer Rnum G bcs bsn u))) = (2 * (bcs * bcs + bsn * bsn) - 1) * dot u u.
Proof.
  intros HG. destruct (transverse_ok G u HG) as [A _]. rewrite dot_minus_twice. unfold hard_sphere_transfer.
  rewrite dot_blend by exact A. cbn [Rnum n_add n_sub n_mul n_one]. ring.
Qed.
Lemma coulomb_cosine G cc bcs bsn u : 0 <= G ->
  let q := (cc * dot u u) * (cc * dot u u) * (bcs * bcs + bsn * bsn) in
  (1 + q) * dot u (vminus u (vtimes 2 (coulomb_transfer Rnum G cc bcs bsn u))) = (q - 1) * dot u u.
Proof.
  intros HG q. destruct (transverse_ok G u HG) as [A _]. rewrite dot_minus_twice. unfold coulomb_transfer.
  rewrite dot_blend by exact A. cbn [Rnum n_add n_sub n_mul n_div n_one]. change (square Rnum u) with (dot u u). fold q.
  assert (0 <= q) by (unfold q; assert (0 <= cc * dot u u * (cc * dot u u)) by nra; assert (0 <= bcs * bcs + bsn * bsn) by nra; nra).
  field. lra.
Qed.
Lemma ta_cosine G dd cs sn u : 0 <= G ->
  (1 + dd * dd) * dot u (vplus u (ta_change Rnum G dd cs sn u)) = (1 - dd * dd) * dot u u.
Proof.
  intros HG. destruct (transverse_ok G u HG) as [A _]. cbv zeta in A. unfold ta_change.
  set (t := transverse Rnum G u) in *. unfold vplus, dot in *. cbn [vx vy vz Rnum n_add n_sub n_mul n_div n_one n_two n_opp n_sqrt].
  assert (Hn : 0 < 1 + dd * dd) by nra.
  set (s := 2 * dd / (1 + dd * dd)). assert (Es : s * (1 + dd * dd) = 2 * dd) by (unfold s; field; lra).
  set (w := s * sqrt (square Rnum u) * cs).
  match goal with |- (1 + dd * dd) * ?L = _ =>
    replace L with ((1 - s * dd) * (vx u * vx u + vy u * vy u + vz u * vz u) + w * (vx u * vx t + vy u * vy t + vz u * vz t)) by ring end.
  rewrite A. replace ((1 + dd * dd) * ((1 - s * dd) * (vx u * vx u + vy u * vy u + vz u * vz u) + w * 0))
    with ((1 + dd * dd - s * (1 + dd * dd) * dd) * (vx u * vx u + vy u * vy u + vz u * vz u)) by ring.
  rewrite Es. ring.
Qed.
Lemma ta_width std gauss u : 0 < dot u u ->
  ta_deflection Rnum std gauss u = gauss * Rmin 1 (std / (sqrt (dot u u) * sqrt (sqrt (dot u u)))).
Proof.
  intros H. unfold ta_deflection. cbn [Rnum n_lt n_mul n_div n_one n_sqrt]. change (square Rnum u) with (dot u u).
  pose proof (sqrt_lt_R0 _ H) as S. set (x := sqrt (dot u u)) in *. pose proof (sqrt_lt_R0 _ S) as S2.
  assert (E : std * sqrt (1 / x) * (1 / x) = std / (x * sqrt x)).
  { rewrite sqrt_div_alt by lra. rewrite sqrt_1. field. lra. }
  rewrite E. destruct (Rltb_spec 1 (std / (x * sqrt x))).
  - rewrite Rmin_left by lra. ring.
  - rewrite Rmin_right by lra. ring.
Qed.

(* a partner that is not updated *)
Lemma ta_collide_one G mu_i mu_j std gauss cs sn r ui uj wi wj :
  let '(ui', uj') := ta_collide Rnum G mu_i mu_j std gauss cs sn r ui uj wi wj in
  (wj < wi -> wj < wi * r -> ui' = ui) /\ (wi < wj -> wi < wj * r -> uj' = uj).
Proof.
  unfold ta_collide. cbn [Rnum n_lt n_mul n_zero]. split.
  - intros A B. destruct (Rltb_spec wj wi); [|lra]. destruct (Rltb_spec wj (wi * r)); [|lra]. cbn [andb].
    unfold vadd3, vscale. cbn [vx vy vz Rnum n_add n_mul]. apply vec_eq; cbn [vx vy vz]; ring.
  - intros A B. destruct (Rltb_spec wi wj); [|lra]. destruct (Rltb_spec wi (wj * r)); [|lra]. cbn [andb].
    unfold vsub3, vscale. cbn [vx vy vz Rnum n_sub n_mul]. apply vec_eq; cbn [vx vy vz]; ring.
Qed.

Lemma fluid_is_one_sided f wi wj ud ut g ui :
  collide_fluid Rnum f wi ud ut g ui = fst (collide Rnum f wi wj 1 ui (vplus ud (vtimes ut g))).
Proof.
  unfold collide_fluid, collide. change (Z.testbit 1 0) with true. cbn match. cbn [fst]. cbn [Rnum n_eq n_zero].
  f_equal. f_equal. f_equal. destruct (Reqb_spec ut 0) as [->|H]; unfold vsub3, vplus, vtimes, vscale; cbn [vx vy vz Rnum n_sub n_mul];
    apply vec_eq; cbn [vx vy vz]; ring.
Qed.
End Kernels.

(* ---- pairing ---- *)
Definition uses (l : list Z) (x : Z) : Z := Z.of_nat (count_occ Z.eq_dec l x).
Lemma uses_app l k x : uses (l ++ k) x = uses l x + uses k x.
Proof. unfold uses. rewrite count_occ_app. lia. Qed.
Lemma uses_cons a l x : uses (a :: l) x = (if x =? a then 1 else 0) + uses l x.
Proof.
  unfold uses. cbn [count_occ]. destruct (Z.eq_dec a x); destruct (Z.eqb_spec x a); lia.
Qed.
Lemma uses_nil x : uses [] x = 0. Proof. reflexivity. Qed.
Lemma uses_zrange lo hi x : uses (zrange lo hi) x = if (lo <=? x) && (x <? hi) then 1 else 0.
Proof.
  unfold uses. destruct ((lo <=? x) && (x <? hi)) eqn:E.
  - assert (I : In x (zrange lo hi)) by (apply in_zrange; lia).
    apply (NoDup_count_occ' Z.eq_dec) with (x := x) in I; [lia|apply NoDup_zrange].
  - assert (I : ~ In x (zrange lo hi)) by (rewrite in_zrange; lia).
    apply (count_occ_not_In Z.eq_dec) in I. lia.
Qed.
Lemma uses_nonneg l x : 0 <= uses l x. Proof. unfold uses. lia. Qed.
Lemma uses_in l x : In x l <-> 0 < uses l x.
Proof. unfold uses. rewrite (count_occ_In Z.eq_dec). lia. Qed.

Lemma one_against_fst r : forall k l, map fst (one_against r k l) = zrange k (k + Z.of_nat r).
Proof.
  induction r as [|r IH]; intros k l; cbn [one_against map fst].
  - rewrite zrange_nil; [reflexivity|lia].
  - rewrite IH. rewrite (zrange_cons k) by lia. f_equal. f_equal. lia.
Qed.
Lemma one_against_snd r : forall k l x, uses (map snd (one_against r k l)) x = if x =? l then Z.of_nat r else 0.
Proof.
  induction r as [|r IH]; intros k l x; cbn [one_against map snd].
  - rewrite uses_nil. destruct (x =? l); reflexivity.
  - rewrite uses_cons, IH. destruct (x =? l); lia.
Qed.
Lemma many_against_fst n r : forall k l, map fst (many_against n r k l) = zrange k (k + Z.of_nat n * Z.of_nat r).
Proof.
  induction n as [|n IH]; intros k l; cbn [many_against].
  - rewrite zrange_nil; [reflexivity|lia].
  - rewrite map_app, one_against_fst, IH.
    rewrite (zrange_app k (k + Z.of_nat r) (k + Z.of_nat (S n) * Z.of_nat r)) by nia. f_equal. f_equal. nia.
Qed.
Lemma many_against_snd n r : forall k l x, uses (map snd (many_against n r k l)) x =
  if (l <=? x) && (x <? l + Z.of_nat n) then Z.of_nat r else 0.
Proof.
  induction n as [|n IH]; intros k l x; cbn [many_against].
  - cbn [map]. rewrite uses_nil. destruct ((l <=? x) && (x <? l + Z.of_nat 0)) eqn:E; lia.
  - rewrite map_app, uses_app, one_against_snd, IH.
    destruct (x =? l) eqn:E1, ((l + 1 <=? x) && (x <? l + 1 + Z.of_nat n)) eqn:E2,
      ((l <=? x) && (x <? l + Z.of_nat (S n))) eqn:E3; lia.
Qed.

Lemma pairs_more_ok k0 nk l0 nl : 1 <= nl -> nl <= nk ->
  map fst (pairs_more k0 nk l0 nl) = zrange k0 (k0 + nk) /\
  forall x, uses (map snd (pairs_more k0 nk l0 nl)) x =
    if (l0 <=? x) && (x <? l0 + nl) then nk / nl + (if x - l0 <? nk mod nl then 1 else 0) else 0.
Proof.
  intros H1 H2. unfold pairs_more. cbv zeta.
  pose proof (Z.div_mod nk nl ltac:(lia)) as D. pose proof (Z.mod_pos_bound nk nl ltac:(lia)) as M.
  replace (nk - nk / nl * nl) with (nk mod nl) by lia.
  assert (Q : 0 <= nk / nl) by (apply Z.div_pos; lia).
  set (q := nk / nl) in *. set (r := nk mod nl) in *. clearbody q r. split.
  - rewrite map_app, !many_against_fst.
    replace (Z.of_nat (Z.to_nat r)) with r by lia. replace (Z.of_nat (Z.to_nat (q + 1))) with (q + 1) by lia.
    replace (Z.of_nat (Z.to_nat (nl - r))) with (nl - r) by lia. replace (Z.of_nat (Z.to_nat q)) with q by lia.
    rewrite (zrange_app k0 (k0 + r * (q + 1)) (k0 + nk)) by nia. f_equal. f_equal. nia.
  - intros x. rewrite map_app, uses_app, !many_against_snd.
    destruct ((l0 <=? x) && (x <? l0 + Z.of_nat (Z.to_nat r))) eqn:E1,
      ((l0 + r <=? x) && (x <? l0 + r + Z.of_nat (Z.to_nat (nl - r)))) eqn:E2,
      ((l0 <=? x) && (x <? l0 + nl)) eqn:E3, (x - l0 <? r) eqn:E4; lia.
Qed.

Lemma map_flip (l : list (Z * Z)) : map fst (map (fun q => (snd q, fst q)) l) = map snd l /\
  map snd (map (fun q => (snd q, fst q)) l) = map fst l.
Proof. rewrite !map_map. split; reflexivity. Qed.

Lemma pairs_inter_ok k0 nk l0 nl : 1 <= nk -> 1 <= nl ->
  let ps := pairs_inter k0 nk l0 nl in
  (nl <= nk -> map fst ps = zrange k0 (k0 + nk) /\
     forall x, uses (map snd ps) x = if (l0 <=? x) && (x <? l0 + nl) then nk / nl + (if x - l0 <? nk mod nl then 1 else 0) else 0) /\
  (nk <= nl -> map snd ps = zrange l0 (l0 + nl) /\
     forall x, uses (map fst ps) x = if (k0 <=? x) && (x <? k0 + nk) then nl / nk + (if x - k0 <? nl mod nk then 1 else 0) else 0).
Proof.
  intros Hk Hl ps. unfold ps, pairs_inter. destruct (nl <? nk) eqn:E.
  - split; [intros _; apply pairs_more_ok; lia|lia].
  - destruct (map_flip (pairs_more l0 nl k0 nk)) as [-> ->].
    destruct (pairs_more_ok l0 nl k0 nk ltac:(lia) ltac:(lia)) as [A B]. split; [|intros _; split; assumption].
    intros H. assert (nk = nl) by lia. subst nl. split.
    + assert (L : forall n k l, map snd (many_against n 1 k l) = zrange l (l + Z.of_nat n)).
      { induction n as [|n IH]; intros k l; cbn [many_against one_against app map snd].
        - rewrite zrange_nil; [reflexivity|lia].
        - rewrite IH, (zrange_cons l) by lia. f_equal. f_equal. lia. }
      unfold pairs_more. cbv zeta. rewrite Z.div_same by lia. replace (nk - 1 * nk) with 0 by lia.
      change (Z.to_nat 0) with O. cbn [many_against app]. change (Z.to_nat 1) with 1%nat. rewrite L. f_equal; lia.
    + intros x. rewrite A, uses_zrange, Z.div_same, Z.mod_same by lia.
      destruct ((l0 <=? x) && (x <? l0 + nk)) eqn:E1; [|reflexivity]. destruct (x - l0 <? 0) eqn:E2; lia.
Qed.

(* both endpoints of every pair lie in the voxel's ranges *)
Lemma pairs_inter_in k0 nk l0 nl k l : 1 <= nk -> 1 <= nl -> In (k, l) (pairs_inter k0 nk l0 nl) ->
  k0 <= k < k0 + nk /\ l0 <= l < l0 + nl.
Proof.
  intros Hk Hl I. pose proof (in_map fst _ _ I) as I1. pose proof (in_map snd _ _ I) as I2. cbn [fst snd] in I1, I2.
  destruct (pairs_inter_ok k0 nk l0 nl Hk Hl) as [A B]. cbv zeta in *.
  destruct (Z.le_gt_cases nl nk) as [L|L].
  - destruct (A L) as [A1 A2]. rewrite A1 in I1. apply in_zrange in I1. split; [exact I1|].
    apply uses_in in I2. rewrite A2 in I2. destruct ((l0 <=? l) && (l <? l0 + nl)) eqn:E; lia.
  - destruct (B ltac:(lia)) as [A1 A2]. rewrite A1 in I2. apply in_zrange in I2. split; [|exact I2].
    apply uses_in in I1. rewrite A2 in I1. destruct ((k0 <=? k) && (k <? k0 + nk)) eqn:E; lia.
Qed.

(* number of collisions a particle of a single species takes part in *)
Definition meets (ps : list (Z * Z)) (x : Z) : Z := uses (map fst ps) x + uses (map snd ps) x.
Lemma meets_app a b x : meets (a ++ b) x = meets a x + meets b x.
Proof. unfold meets. rewrite !map_app, !uses_app. lia. Qed.

Lemma half_pairs k0 h x : 1 <= h ->
  meets (pairs_inter k0 h (k0 + h) h) x = if (k0 <=? x) && (x <? k0 + 2 * h) then 1 else 0.
Proof.
  intros H. destruct (pairs_inter_ok k0 h (k0 + h) h H H) as [A B]. cbv zeta in *.
  destruct (A ltac:(lia)) as [A1 _]. destruct (B ltac:(lia)) as [B1 _]. unfold meets. rewrite A1, B1, !uses_zrange.
  destruct ((k0 <=? x) && (x <? k0 + h)) eqn:E1, ((k0 + h <=? x) && (x <? k0 + h + h)) eqn:E2,
    ((k0 <=? x) && (x <? k0 + 2 * h)) eqn:E3; lia.
Qed.

Lemma same_species k0 nk l0 nl x : 0 <= nk ->
  meets (voxel_pairs true k0 nk l0 nl) x =
    if (k0 <=? x) && (x <? k0 + nk) then
      if nk =? 1 then 0 else if negb (nk mod 2 =? 0) && (x <? k0 + 3) then 2 else 1
    else 0.
Proof.
  intros H. unfold voxel_pairs. pose proof (Z.div_mod nk 2 ltac:(lia)) as D. pose proof (Z.mod_pos_bound nk 2 ltac:(lia)) as M.
  destruct (nk =? 0) eqn:E0; [unfold meets; cbn [map]; rewrite uses_nil; destruct ((k0 <=? x) && (x <? k0 + nk)) eqn:E; lia|].
  cbv zeta. destruct (nk mod 2 =? 0) eqn:E2; cbn [negb andb].
  - cbn [app]. replace (nk / 2 =? 0) with false by lia. rewrite half_pairs by lia.
    replace (nk =? 1) with false by (destruct (nk =? 1) eqn:E1; [|reflexivity]; replace nk with 1 in E2 by lia; discriminate E2).
    replace (2 * (nk / 2)) with nk by lia. reflexivity.
  - assert (nk mod 2 = 1) by lia. destruct (3 <=? nk) eqn:E3.
    + rewrite meets_app. assert (T : meets [(k0, k0 + 1); (k0, k0 + 2); (k0 + 1, k0 + 2)] x =
         if (k0 <=? x) && (x <? k0 + 3) then 2 else 0).
      { unfold meets. cbn [map fst snd]. rewrite !uses_cons, !uses_nil.
        destruct (x =? k0) eqn:A, (x =? k0 + 1) eqn:B, (x =? k0 + 2) eqn:C, ((k0 <=? x) && (x <? k0 + 3)) eqn:E; lia. }
      rewrite T. replace (nk =? 1) with false by lia.
      assert (Dh : (nk - 3) / 2 = nk / 2 - 1) by (replace (nk - 3) with (2 * (nk / 2 - 1)) by lia; rewrite Z.mul_comm; apply Z.div_mul; lia).
      rewrite Dh. destruct (nk / 2 - 1 =? 0) eqn:E4.
      * unfold meets. cbn [map]. rewrite uses_nil.
        destruct ((k0 <=? x) && (x <? k0 + nk)) eqn:E5, ((k0 <=? x) && (x <? k0 + 3)) eqn:E6, (x <? k0 + 3) eqn:E7; lia.
      * rewrite half_pairs by lia.
        destruct ((k0 <=? x) && (x <? k0 + nk)) eqn:E5, ((k0 <=? x) && (x <? k0 + 3)) eqn:E6, (x <? k0 + 3) eqn:E7,
          ((k0 + 3 <=? x) && (x <? k0 + 3 + 2 * (nk / 2 - 1))) eqn:E8; lia.
    + assert (nk = 1) by lia. subst nk. change (1 / 2 =? 0) with true. cbn match. cbn [app].
      change (1 =? 1) with true. cbn match. unfold meets. cbn [map]. rewrite uses_nil. destruct ((k0 <=? x) && (x <? k0 + 1)); reflexivity.
Qed.

(* no particle meets itself: same-index pairs do not occur within one species *)
Lemma no_self k0 nk l0 nl k : 0 <= nk -> ~ In (k, k) (voxel_pairs true k0 nk l0 nl).
Proof.
  intros H I. unfold voxel_pairs in I. destruct (nk =? 0) eqn:E0; [destruct I|]. cbv zeta in I. apply in_app_or in I.
  destruct I as [I|I].
  - destruct (negb (nk mod 2 =? 0) && (3 <=? nk)); [|destruct I]. cbn [In] in I.
    repeat (destruct I as [I|I]; [injection I; lia|]). destruct I.
  - set (n := if negb (nk mod 2 =? 0) && (3 <=? nk) then nk - 3 else nk) in *.
    set (o := if negb (nk mod 2 =? 0) && (3 <=? nk) then k0 + 3 else k0) in *.
    destruct (n / 2 =? 0) eqn:E; [destruct I|].
    assert (0 <= n) by (unfold n; destruct (negb (nk mod 2 =? 0) && (3 <=? nk)) eqn:E5; lia).
    assert (0 <= n / 2) by (apply Z.div_pos; lia).
    apply pairs_inter_in in I; lia.
Qed.

(* ---- shuffle ---- *)
Lemma swap_perm {A} (p : Z -> A) i j lo hi : lo <= i < hi -> lo <= j < hi ->
  Permutation (map (swap p i j) (zrange lo hi)) (map p (zrange lo hi)).
Proof.
  intros Hi Hj. rewrite <- (map_map (fun x => if x =? i then j else if x =? j then i else x) p) || idtac.
  assert (E : map (swap p i j) (zrange lo hi) = map p (map (fun x => if x =? i then j else if x =? j then i else x) (zrange lo hi))).
  { rewrite map_map. apply map_ext. intros x. unfold swap. destruct (x =? i); [reflexivity|]. destruct (x =? j); reflexivity. }
  rewrite E. apply Permutation_map. apply NoDup_Permutation.
  - apply FinFun.Injective_map_NoDup; [|apply NoDup_zrange]. intros x y Exy.
    destruct (x =? i) eqn:E1, (y =? i) eqn:E2, (x =? j) eqn:E3, (y =? j) eqn:E4; lia.
  - apply NoDup_zrange.
  - intros x. rewrite in_map_iff. split.
    + intros (y & <- & Hy). apply in_zrange in Hy. apply in_zrange. destruct (y =? i), (y =? j); lia.
    + intros Hx. apply in_zrange in Hx. exists (if x =? i then j else if x =? j then i else x). split.
      * destruct (x =? i) eqn:E1, (x =? j) eqn:E2, (j =? i) eqn:E3, (i =? i) eqn:E4, (j =? j) eqn:E5;
          try lia; rewrite ?E1, ?E2, ?E3, ?E4, ?E5; try lia.
      * apply in_zrange. destruct (x =? i), (x =? j); lia.
Qed.
Lemma draw_below_ok rn i k1 : 0 < rn -> forall words j ws, (forall u, In u words -> 0 <= u) ->
  draw_below rn i k1 words = Got j ws -> i <= j < k1 /\ (forall u, In u ws -> 0 <= u).
Proof.
  intros Hr. induction words as [|u us IH]; intros j ws Hw E; cbn [draw_below] in E; [discriminate E|]. cbv zeta in E.
  destruct (negb (int_ok (i + u / rn))); [discriminate E|].
  assert (0 <= u / rn) by (apply Z.div_pos; [apply Hw; left; reflexivity|exact Hr]).
  destruct (i + u / rn <? k1) eqn:L.
  - injection E as <- <-. split; [lia|]. intros v Hv. apply Hw. right. exact Hv.
  - apply IH; [intros v Hv; apply Hw; right; exact Hv|exact E].
Qed.
Lemma shuffle_ok {A} n : forall i k1 (p : Z -> A) words p' ws lo, lo <= i -> i + Z.of_nat n < k1 -> k1 - lo < 2 ^ 31 ->
  (forall u, In u words -> 0 <= u) -> shuffle_from n i k1 p words = Got p' ws ->
  Permutation (map p' (zrange lo k1)) (map p (zrange lo k1)) /\ forall x, ~ (lo <= x < k1) -> p' x = p x.
Proof.
  induction n as [|n IH]; intros i k1 p words p' ws lo H1 H2 H3 Hw E; cbn [shuffle_from] in E.
  - injection E as <- <-. split; [apply Permutation_refl|reflexivity].
  - destruct (draw_below (4294967295 / (k1 - i)) i k1 words) as [j us| |] eqn:Ed; try discriminate E.
    assert (0 < 4294967295 / (k1 - i)) by (apply Z.div_str_pos; lia).
    destruct (draw_below_ok _ _ _ H _ _ _ Hw Ed) as [Hj Hu].
    destruct (IH (i + 1) k1 (swap p i j) us p' ws lo ltac:(lia) ltac:(lia) H3 Hu E) as [P Q]. split.
    + eapply Permutation_trans; [exact P|]. apply swap_perm; lia.
    + intros x Hx. rewrite (Q x Hx). unfold swap. destruct (x =? i) eqn:E1; [lia|]. destruct (x =? j) eqn:E2; [lia|]. reflexivity.
Qed.
Lemma draw_no_overflow i k1 : 0 <= i -> i + 1 < k1 -> k1 < 2 ^ 30 -> forall words,
  (forall u, In u words -> 0 <= u < 2 ^ 32) -> draw_below (4294967295 / (k1 - i)) i k1 words <> Overflow.
Proof.
  intros Hi Hk Hb. set (n := k1 - i) in *. set (rn := 4294967295 / n).
  assert (Hr : 4 <= rn) by (apply Z.div_le_lower_bound; lia).
  clearbody rn.
  induction words as [|u us IH]; intros Hw; cbn [draw_below]; [discriminate|]. cbv zeta.
  assert (Hu : 0 <= u < 2 ^ 32) by (apply Hw; left; reflexivity).
  assert (Q0 : 0 <= u / rn) by (apply Z.div_pos; lia).
  assert (Q1 : u / rn < 2 ^ 30).

  { apply Z.div_lt_upper_bound; lia. }
  assert (O : int_ok (i + u / rn) = true) by (unfold int_ok; lia). rewrite O. cbn [negb].
  destruct (i + u / rn <? k1); [discriminate|]. apply IH. intros v Hv. apply Hw. right. exact Hv.
Qed.
Lemma shuffle_no_overflow {A} n : forall i k1 (p : Z -> A) words, 0 <= i -> i + Z.of_nat n < k1 -> k1 < 2 ^ 30 ->
  (forall u, In u words -> 0 <= u < 2 ^ 32) -> shuffle_from n i k1 p words <> Overflow.
Proof.
  induction n as [|n IH]; intros i k1 p words H1 H2 H3 Hw; cbn [shuffle_from]; [discriminate|].
  pose proof (draw_no_overflow i k1 H1 ltac:(lia) H3 words Hw) as N.
  destruct (draw_below (4294967295 / (k1 - i)) i k1 words) as [j us| |] eqn:Ed; [|discriminate|congruence].
  apply IH; [lia|lia|exact H3|]. clear - Ed Hw.
  set (rn := 4294967295 / (k1 - i)) in *. clearbody rn. induction words as [|u ws IH]; cbn [draw_below] in Ed; [discriminate Ed|].
  cbv zeta in Ed. destruct (negb (int_ok (i + u / rn))); [discriminate Ed|]. destruct (i + u / rn <? k1).
  - injection Ed as <- <-. intros v Hv. apply Hw. right. exact Hv.
  - apply IH; [intros v Hv; apply Hw; right; exact Hv|exact Ed].
Qed.

(* ---- words per value ---- *)
Lemma count_quot q k N : 0 < q -> 0 <= k -> (k + 1) * q <= N -> cardinal (fun u => 0 <= u < N /\ u / q = k) q.
Proof.
  intros Hq Hk HN. apply (cardinal_iff (fun u => k * q <= u < (k + 1) * q)).
  - intros u. split.
    + intros Hu. split; [nia|]. symmetry. apply (Z.div_unique u q k (u - q * k)); lia.
    + intros [Hu <-]. pose proof (Z.div_mod u q ltac:(lia)). pose proof (Z.mod_pos_bound u q Hq). lia.
  - pose proof (cardinal_interval (k * q) ((k + 1) * q) ltac:(nia)) as C.
    replace ((k + 1) * q - k * q) with q in C by ring. exact C.
Qed.
(* one step of the shuffle: every position j of i..k1-1 is hit by the same number of words *)
Lemma shuffle_step_uniform i k1 j : 0 <= i -> i < k1 -> k1 < 2 ^ 30 -> i <= j < k1 ->
  cardinal (fun u => 0 <= u < 2 ^ 32 /\ draw_below (4294967295 / (k1 - i)) i k1 [u] = Got j []) (4294967295 / (k1 - i)).
Proof.
  intros Hi Hk Hb Hj. set (n := k1 - i). pose proof (Z.mul_div_le 4294967295 n ltac:(lia)) as M.
  set (q := 4294967295 / n) in *. assert (Hq : 4 <= q) by (apply Z.div_le_lower_bound; lia). clearbody q.
  apply (cardinal_iff (fun u => 0 <= u < 2 ^ 32 /\ u / q = j - i)); [|apply count_quot; [lia|lia|nia]].
  intros u. cbn [draw_below]. cbv zeta. split; intros [Hu E]; (split; [exact Hu|]).
  - rewrite E. replace (i + (j - i)) with j by ring. replace (int_ok j) with true by (unfold int_ok; lia). cbn [negb].
    replace (j <? k1) with true by lia. reflexivity.
  - destruct (negb (int_ok (i + u / q))); [discriminate E|]. destruct (i + u / q <? k1); [|discriminate E].
    injection E as E. lia.
Qed.

Definition fair_count (nk : Z) : Prop := 4294967295 mod nk < 4294967295 / nk.
Lemma candidate_ok nk : 1 <= nk < 2 ^ 31 -> fair_count nk -> forall words k ws,
  (forall u, In u words -> 0 <= u < 2 ^ 32) -> candidate nk words = Some (k, ws) -> 0 <= k < nk.
Proof.
  intros Hn Hf words. induction words as [|u us IH]; intros k ws Hw E; cbn [candidate] in E; [discriminate E|]. cbv zeta in E.
  unfold fair_count in Hf. pose proof (Z.div_mod 4294967295 nk ltac:(lia)) as D. pose proof (Z.mod_pos_bound 4294967295 nk ltac:(lia)) as M.
  set (q := 4294967295 / nk) in *. set (r := 4294967295 mod nk) in *. clearbody q r.
  assert (Hu : 0 <= u < 2 ^ 32) by (apply Hw; left; reflexivity).
  assert (0 <= u / q) by (apply Z.div_pos; lia). assert (u / q < nk + 1) by (apply Z.div_lt_upper_bound; nia).
  destruct (u / q =? nk) eqn:Ek.
  - apply (IH k ws); [intros v Hv; apply Hw; right; exact Hv|exact E].
  - injection E as <- <-. lia.
Qed.
Lemma candidate_bad nk : 1 <= nk < 2 ^ 31 -> ~ fair_count nk ->
  exists u k, 0 <= u < 2 ^ 32 /\ candidate nk [u] = Some (k, []) /\ nk < k.
Proof.
  intros Hn Hf. unfold fair_count in Hf. pose proof (Z.div_mod 4294967295 nk ltac:(lia)) as D.
  exists 4294967295, (4294967295 / (4294967295 / nk)). cbn [candidate]. cbv zeta.
  assert (Q : 0 < 4294967295 / nk) by (apply Z.div_str_pos; lia).
  set (q := 4294967295 / nk) in *. set (r := 4294967295 mod nk) in *. clearbody q r.
  assert (nk + 1 <= 4294967295 / q) by (apply Z.div_le_lower_bound; nia).
  replace (4294967295 / q =? nk) with false by lia. split; [lia|]. split; [reflexivity|lia].
Qed.
Lemma fair_small nk : 1 <= nk <= 65535 -> fair_count nk.
Proof.
  intros H. unfold fair_count. pose proof (Z.mod_pos_bound 4294967295 nk ltac:(lia)).
  assert (65537 <= 4294967295 / nk) by (apply Z.div_le_lower_bound; nia). lia.
Qed.
Lemma candidate_uniform nk k : 1 <= nk < 2 ^ 31 -> 0 <= k < nk ->
  cardinal (fun u => 0 <= u < 2 ^ 32 /\ candidate nk [u] = Some (k, [])) (4294967295 / nk).
Proof.
  intros Hn Hk. assert (Q : 0 < 4294967295 / nk) by (apply Z.div_str_pos; lia).
  pose proof (Z.mul_div_le 4294967295 nk ltac:(lia)) as M.
  apply (cardinal_iff (fun u => 0 <= u < 2 ^ 32 /\ u / (4294967295 / nk) = k)); [|apply count_quot; [exact Q|lia|nia]].
  intros u. cbn [candidate]. cbv zeta. split; intros [Hu E]; (split; [exact Hu|]).
  - rewrite E. replace (k =? nk) with false by lia. reflexivity.
  - destruct (u / (4294967295 / nk) =? nk); [discriminate E|]. injection E as E. exact E.
Qed.

(* ---- striping ---- *)
Lemma stripe_loop_in v1 P : 1 <= P -> forall fuel v x, v1 <= v + Z.of_nat fuel ->
  In x (stripe_loop fuel v v1 P) <-> v <= x < v1 /\ (x - v) mod P = 0.
Proof.
  intros HP. induction fuel as [|f IH]; intros v x H; cbn [stripe_loop].
  - split; [intros []|lia].
  - destruct (v <? v1) eqn:E; [|split; [intros []|lia]]. cbn [In]. rewrite IH by lia. split.
    + intros [<-|[A B]]; [split; [lia|]; rewrite Z.sub_diag; apply Z.mod_0_l; lia|]. split; [lia|].
      replace (x - v) with (x - (v + P) + 1 * P) by ring. rewrite Z.mod_add by lia. exact B.
    + intros [A B]. destruct (Z.eq_dec v x) as [->|N]; [left; reflexivity|right].
      pose proof (Z.div_mod (x - v) P ltac:(lia)) as D. rewrite B in D.
      assert (P <= x - v).
      { set (q := (x - v) / P) in *. clearbody q. assert (0 < q) by nia. nia. } split; [lia|].
      replace (x - v) with (x - (v + P) + 1 * P) in B by ring. rewrite Z.mod_add in B by lia. exact B.
Qed.
Lemma stripe_loop_nodup v1 P : 1 <= P -> forall fuel v, v1 <= v + Z.of_nat fuel -> NoDup (stripe_loop fuel v v1 P).
Proof.
  intros HP. induction fuel as [|f IH]; intros v H; cbn [stripe_loop]; [constructor|].
  destruct (v <? v1); [|constructor]. constructor; [|apply IH; lia]. rewrite stripe_loop_in by lia. lia.
Qed.
Lemma stripe_in nx ny nz P r v : 0 <= nx -> 0 <= ny -> 0 <= nz -> 1 <= P -> 0 <= r < P ->
  In v (stripe nx ny nz P r) <-> 0 <= v <= voxel nx ny nz nx ny nz /\ v mod P = r.
Proof.
  intros Hx Hy Hz HP Hr. unfold stripe. replace (r =? P) with false by lia. cbv zeta.
  replace (voxel nx ny nz 0 0 0 + r) with r by (unfold voxel; lia).
  assert (0 <= voxel nx ny nz nx ny nz) by (unfold voxel; nia). set (w := voxel nx ny nz nx ny nz) in *. clearbody w.
  rewrite stripe_loop_in by lia. split; intros [A B].
  - split; [lia|]. pose proof (Z.div_mod (v - r) P ltac:(lia)) as D. rewrite B in D.
    symmetry. apply (Z.mod_unique v P ((v - r) / P)); lia.
  - pose proof (Z.div_mod v P ltac:(lia)) as D. rewrite B in D.
    assert (0 <= v / P) by (apply Z.div_pos; lia).
    split; [nia|]. replace (v - r) with (v / P * P) by lia. apply Z.mod_mul. lia.
Qed.

(* ---- unary coverage ---- *)
Lemma visited_all c np P : 0 <= np < 2 ^ 31 -> 1 <= P < 2 ^ 31 -> visited c np P = zrange 0 np.
Proof.
  intros HN HP. unfold visited.
  assert (H0 : split_point c np P 0 = 0) by (apply split_0; lia).
  assert (HsP : split_point c np P P = np) by (apply split_P; lia).
  assert (Hmono : forall p p', 0 <= p -> p <= p' -> p' <= P -> split_point c np P p <= split_point c np P p')
    by (intros; apply split_mono; lia).
  assert (G : forall n, Z.of_nat n <= P ->
    flat_map (fun r => let '(i, i1) := collision_range c np P r in zrange i i1) (zrange 0 (Z.of_nat n)) =
    zrange 0 (split_point c np P (Z.of_nat n))).
  { induction n as [|n IH]; intros Hn.
    - change (Z.of_nat 0) with 0. rewrite H0. reflexivity.
    - rewrite (zrange_app 0 (Z.of_nat n)) by lia. rewrite flat_map_app, IH by lia.
      rewrite (zrange_cons (Z.of_nat n)) by lia. rewrite (zrange_nil (Z.of_nat n + 1)) by lia. cbn [flat_map]. rewrite app_nil_r.
      unfold collision_range. replace (Z.of_nat (S n)) with (Z.of_nat n + 1) by lia.
      rewrite <- (zrange_app 0 (split_point c np P (Z.of_nat n))); [reflexivity|].
      pose proof (Hmono 0 (Z.of_nat n) ltac:(lia) ltac:(lia) ltac:(lia)).
      pose proof (Hmono (Z.of_nat n) (Z.of_nat n + 1) ltac:(lia) ltac:(lia) ltac:(lia)). lia. }
  specialize (G (Z.to_nat P) ltac:(lia)). replace (Z.of_nat (Z.to_nat P)) with P in G by lia. rewrite HsP in G. exact G.
Qed.

(* ---- thinning ---- *)
Lemma f_cmp_ok x y a b : fin32 x a -> fin32 y b -> Bcompare x y = Some (Rcompare a b).
Proof. intros [A1 A2] [B1 B2]. rewrite Bcompare_correct by assumption. rewrite A2, B2. reflexivity. Qed.
Lemma f_le_ok x y a b : fin32 x a -> fin32 y b -> f_le x y = true <-> (a <= b)%R.
Proof.
  intros A B. unfold f_le. rewrite (f_cmp_ok x y a b A B). destruct (Rcompare_spec a b); split; intros; try reflexivity; try lra; discriminate.
Qed.
Lemma f_lt_ok x y a b : fin32 x a -> fin32 y b -> f_lt x y = true <-> (a < b)%R.
Proof.
  intros A B. unfold f_lt. rewrite (f_cmp_ok x y a b A B). destruct (Rcompare_spec a b); split; intros; try reflexivity; try lra; discriminate.
Qed.
Lemma f_eq_ok x y a b : fin32 x a -> fin32 y b -> f_eq x y = true <-> (a = b)%R.
Proof.
  intros A B. unfold f_eq. rewrite (f_cmp_ok x y a b A B). destruct (Rcompare_spec a b); split; intros; try reflexivity; try lra; discriminate.
Qed.
Lemma f_lt_no x y a b : fin32 x a -> fin32 y b -> (b <= a)%R -> f_lt x y = false.
Proof. intros A B H. destruct (f_lt x y) eqn:E; [|reflexivity]. apply (f_lt_ok x y a b A B) in E. lra. Qed.
Lemma f_le_no x y a b : fin32 x a -> fin32 y b -> (b < a)%R -> f_le x y = false.
Proof. intros A B H. destruct (f_le x y) eqn:E; [|reflexivity]. apply (f_le_ok x y a b A B) in E. lra. Qed.
Lemma f_eq_no x y a b : fin32 x a -> fin32 y b -> (a <> b)%R -> f_eq x y = false.
Proof. intros A B H. destruct (f_eq x y) eqn:E; [|reflexivity]. apply (f_eq_ok x y a b A B) in E. lra. Qed.

Lemma c0_unit u : 0 <= u < 2 ^ 32 -> (0 <= IZR (u / 2 ^ 8) / 16777216 < 1)%R.
Proof.
  intros H. assert (0 <= u / 2 ^ 8 < 16777216) as [A B].
  { split; [apply Z.div_pos; lia|]. apply Z.div_lt_upper_bound; lia. }
  apply IZR_le in A. apply IZR_lt in B. lra.
Qed.
Lemma thin_none wk wl pr p r1 r2 : fin32 pr p -> (p <= 0)%R -> 0 <= r1 < 2 ^ 32 ->
  thin Fnum wk wl pr (conv_frand_c0 r1) r2 = None /\ thin_unary Fnum pr (conv_frand_c0 r1) = false.
Proof.
  intros Hp H0 Hr. pose proof (frand_c0_ok r1 Hr) as F. pose proof (c0_unit r1 Hr) as U.
  unfold thin, thin_unary. cbn [Fnum n_le n_lt].
  rewrite (proj2 (f_le_ok _ _ _ _ Hp F)) by lra. rewrite (f_lt_no _ _ _ _ F Hp) by lra. split; reflexivity.
Qed.
Lemma thin_some wk wl pr p r1 r2 : fin32 pr p -> (1 <= p)%R -> 0 <= r1 < 2 ^ 32 ->
  thin Fnum wk wl pr (conv_frand_c0 r1) r2 <> None /\ thin_unary Fnum pr (conv_frand_c0 r1) = true.
Proof.
  intros Hp H0 Hr. pose proof (frand_c0_ok r1 Hr) as F. pose proof (c0_unit r1 Hr) as U.
  unfold thin, thin_unary. cbn [Fnum n_le n_lt].
  rewrite (f_le_no _ _ _ _ Hp F) by lra. rewrite (proj2 (f_lt_ok _ _ _ _ F Hp)) by lra. split; [discriminate|reflexivity].
Qed.
Lemma thin_type wk wl a b pr r1 r2 t : fin32 wk a -> fin32 wl b -> thin Fnum wk wl pr r1 r2 = Some t ->
  (t = 1 \/ t = 2 \/ t = 3) /\ ((a < b)%R -> Z.testbit t 0 = true) /\ ((b < a)%R -> Z.testbit t 1 = true) /\ (a = b -> t = 3).
Proof.
  intros A B. unfold thin. cbn [Fnum n_le n_lt n_eq n_mul]. destruct (f_le pr r1); [discriminate|].
  destruct (Rcompare_spec a b) as [C|C|C].
  - rewrite (f_lt_no _ _ _ _ B A) by lra. rewrite (f_eq_no _ _ _ _ B A) by lra. cbn [orb].
    destruct (f_lt (f_mul wl r2) wk); intros E; injection E as <-; (split; [tauto|]); (split; [reflexivity|]); split; intros; lra.
  - rewrite (f_lt_no _ _ _ _ B A) by lra. rewrite (proj2 (f_eq_ok _ _ _ _ B A)) by lra. cbn [orb].
    intros E. injection E as <-. split; [tauto|]. split; [reflexivity|]. split; reflexivity.
  - rewrite (proj2 (f_lt_ok _ _ _ _ B A)) by lra. rewrite (proj2 (f_eq_ok _ _ _ _ B B)) by reflexivity.
    rewrite (f_eq_no _ _ _ _ A B) by lra. cbn [orb].
    destruct (f_lt (f_mul wk r2) wl); intros E; injection E as <-; (split; [tauto|]); (split; [intros; lra|]); (split; [reflexivity|]); intros; lra.
Qed.

(* how often the heavier particle is updated, exact arithmetic: m of the 2^24 values of frand_c0 *)
Lemma heavier_count w_min w_max : (0 < w_min)%R -> (w_min <= w_max)%R ->
  cardinal (fun m => 0 <= m < 2 ^ 24 /\ (w_max * (IZR m / 16777216) < w_min)%R) (Zceil (16777216 * (w_min / w_max))).
Proof.
  intros H0 H1. set (x := (16777216 * (w_min / w_max))%R).
  assert (Hq : (0 < w_min / w_max <= 1)%R).
  { split; [apply Rdiv_lt_0_compat; lra|]. apply (Rmult_le_reg_r w_max); [lra|]. unfold Rdiv. rewrite Rmult_assoc, Rinv_l; lra. }
  assert (Hx : (0 < x <= 16777216)%R) by (unfold x; lra).
  assert (Hc : 0 <= Zceil x <= 16777216).
  { split; [apply le_IZR; pose proof (Zceil_ub x); simpl; lra|apply Zceil_glb; lra]. }
  apply (cardinal_iff (fun m => 0 <= m < Zceil x)).
  - intros m. assert (E : (w_max * (IZR m / 16777216) < w_min)%R <-> (IZR m < x)%R).
    { unfold x. split; intros L.
      - apply (Rmult_lt_reg_r (w_max / 16777216)); [apply Rdiv_lt_0_compat; lra|].
        replace (16777216 * (w_min / w_max) * (w_max / 16777216))%R with w_min by (field; lra).
        replace (IZR m * (w_max / 16777216))%R with (w_max * (IZR m / 16777216))%R by (field; lra). exact L.
      - apply (Rmult_lt_compat_r (w_max / 16777216)) in L; [|apply Rdiv_lt_0_compat; lra].
        replace (16777216 * (w_min / w_max) * (w_max / 16777216))%R with w_min in L by (field; lra).
        replace (IZR m * (w_max / 16777216))%R with (w_max * (IZR m / 16777216))%R in L by (field; lra). exact L. }
    rewrite E. split.
    + intros [A B]. split; [lia|]. destruct (Rlt_le_dec (IZR m) x) as [L|L]; [exact L|exfalso].
      apply Zceil_glb in L. lia.
    + intros [A B]. split; [lia|]. apply lt_IZR. pose proof (Zceil_ub x). lra.
  - pose proof (cardinal_interval 0 (Zceil x) ltac:(lia)) as C. rewrite Z.sub_0_r in C. exact C.
Qed.

(* ---- thermostat ---- *)
Section Thermostat.
Local Open Scope R_scope.
Lemma drive_arg nudt kT m c : 0 <= nudt -> 0 <= kT -> 0 < m * c ->
  0 <= - (exp (- 2 * nudt) - 1) * kT / (m * c) /\
  lang_drive nudt kT m c * lang_drive nudt kT m c = (1 - exp (- 2 * nudt)) * (kT / (m * c)).
Proof.
  intros Hn Hk Hm.
  assert (E : exp (- 2 * nudt) <= 1).
  { rewrite <- exp_0. destruct (Req_dec nudt 0) as [->|N]; [right; f_equal; ring|]. left. apply exp_increasing. lra. }
  assert (H : 0 <= - (exp (- 2 * nudt) - 1) * kT / (m * c)).
  { unfold Rdiv. apply Rmult_le_pos; [apply Rmult_le_pos; lra|]. left. apply Rinv_0_lt_compat. exact Hm. }
  split; [exact H|]. unfold lang_drive. rewrite sqrt_sqrt by exact H. field. split; intros E0; rewrite E0 in Hm; lra.
Qed.
Lemma decay_sq nudt : lang_decay nudt * lang_decay nudt = exp (- 2 * nudt).
Proof. unfold lang_decay. rewrite <- exp_plus. f_equal. ring. Qed.
Lemma decay_unit nudt : 0 <= nudt -> 0 < lang_decay nudt <= 1.
Proof.
  intros H. unfold lang_decay. split; [apply exp_pos|]. rewrite <- exp_0.
  destruct (Req_dec nudt 0) as [->|N]; [right; f_equal; ring|]. left. apply exp_increasing. lra.
Qed.
(* variance of a component after n applications *)
Fixpoint variance_after (n : nat) (decay drive v : R) : R :=
  match n with O => v | S n' => variance_after n' decay drive (decay * decay * v + drive * drive) end.
Lemma variance_ok n : forall decay drive T v, decay * decay * T + drive * drive = T ->
  variance_after n decay drive v - T = (decay * decay) ^ n * (v - T).
Proof.
  induction n as [|n IH]; intros decay drive T v H; cbn [variance_after pow]; [ring|].
  rewrite (IH decay drive T _ H).
  replace (decay * decay * v + drive * drive - T) with (decay * decay * (v - T)) by (replace (drive * drive) with (T - decay * decay * T) by lra; ring). ring.
Qed.
End Thermostat.
