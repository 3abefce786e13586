(* Charge deposition, the Boris rotation and the energy of one particle, in exact arithmetic. *)
Require Import Reals List Bool Lra.
Require Import ZArith Lia ZifyBool.
Require Import Verif.VoxelModel Verif.VoxelProofs Verif.ParticleModel Verif.ParticleSpec Verif.ParticleProofs Verif.ParticleProofs2.
Import ListNotations.
Open Scope R_scope.

Ltac opR := cbv [Rnum n_zero n_one n_two n_half n_big n_third n_215 n_add n_sub n_mul n_div n_opp n_sqrt n_mul3] in *.

(* ---------- Boris ---------- *)

Definition cross (a b : vec R) : vec R :=
  mkv (vy a * vz b - vz a * vy b) (vz a * vx b - vx a * vz b) (vx a * vy b - vy a * vx b).
(* rotation with half-angle vector t*cb *)
Definition rot (t : R) (cb u : vec R) : vec R :=
  let s := 2 * (t / (1 + norm2 Rnum cb * (t * t))) in
  let w := mkv (vx u + t * vx (cross u cb)) (vy u + t * vy (cross u cb)) (vz u + t * vz (cross u cb)) in
  mkv (vx u + s * vx (cross w cb)) (vy u + s * vy (cross w cb)) (vz u + s * vz (cross w cb)).
Definition boris_t (c : R) (cb u : vec R) : R :=
  let v0 := c / sqrt (1 + norm2 Rnum u) in
  let v2 := v0 * v0 * norm2 Rnum cb in
  v0 * (1 + v2 * (1 / 3 + v2 * (2 / 15))).

Lemma boris_rot c cb u : boris Rnum c cb u = rot (boris_t c cb u) cb u.
Proof.
  unfold boris, rot, boris_t, cross. opR. cbv zeta. cbn [vx vy vz].
  f_equal; ring.
Qed.

Lemma norm2_nonneg (u : vec R) : 0 <= norm2 Rnum u.
Proof. unfold norm2; opR. nra. Qed.
Lemma rot_den cb t : 1 + norm2 Rnum cb * (t * t) <> 0.
Proof. pose proof (norm2_nonneg cb). assert (0 <= t * t) by nra. nra. Qed.

Lemma rot_norm t cb u : norm2 Rnum (rot t cb u) = norm2 Rnum u.
Proof.
  pose proof (rot_den cb t) as D. unfold rot, norm2, cross in *. opR. cbv zeta in *. cbn [vx vy vz] in *. field. exact D.
Qed.
Lemma rot_inv t cb u : rot (- t) cb (rot t cb u) = u.
Proof.
  pose proof (rot_den cb t) as D. pose proof (rot_den cb (- t)) as D'.
  destruct u as [u1 u2 u3]. unfold rot, norm2, cross in *. opR. cbv zeta in *. cbn [vx vy vz] in *.
  f_equal; field; repeat split; assumption || (intros Q; apply D; rewrite <- Q; ring).
Qed.

Lemma boris_norm c cb u : norm2 Rnum (boris Rnum c cb u) = norm2 Rnum u.
Proof. rewrite boris_rot. apply rot_norm. Qed.
Lemma boris_t_opp c cb u u' : norm2 Rnum u' = norm2 Rnum u -> boris_t (- c) cb u' = - boris_t c cb u.
Proof.
  intros E. unfold boris_t. rewrite E. cbv zeta. unfold Rdiv. rewrite Ropp_mult_distr_l_reverse.
  set (v0 := c * / sqrt (1 + norm2 Rnum u)). ring.
Qed.
Lemma boris_inv c cb u : boris Rnum (- c) cb (boris Rnum c cb u) = u.
Proof.
  rewrite (boris_rot (- c)), (boris_t_opp c cb u) by apply boris_norm.
  rewrite boris_rot. apply rot_inv.
Qed.
Lemma boris_inv' c c' cb u : c' = - c -> boris Rnum c' cb (boris Rnum c cb u) = u.
Proof. intros ->. apply boris_inv. Qed.

Lemma half_e_opp q f d : half_e Rnum (- q) f d = vmap Ropp (half_e Rnum q f d).
Proof. unfold half_e, vmap. opR. cbn [vx vy vz]. f_equal; ring. Qed.

Lemma center_uncenter q f p : center_one Rnum q f (uncenter_one Rnum q f p) = p.
Proof.
  destruct p as [d v u w]. unfold center_one, uncenter_one. cbn [pd pi pu pw].
  f_equal. change (n_opp Rnum q) with (- q). rewrite half_e_opp.
  set (h := half_e Rnum q f d). set (b := boris Rnum (n_mul Rnum (n_opp Rnum (n_half Rnum)) q) (mag_b Rnum f d) u).
  assert (E : vadd Rnum (vadd Rnum b (vmap Ropp h)) h = b).
  { destruct b, h. unfold vadd, vmap2, vmap. opR. cbn. f_equal; ring. }
  rewrite E. unfold b. apply boris_inv'. opR. ring.
Qed.
Lemma uncenter_center q f p : uncenter_one Rnum q f (center_one Rnum q f p) = p.
Proof.
  destruct p as [d v u w]. unfold center_one, uncenter_one. cbn [pd pi pu pw].
  f_equal. change (n_opp Rnum q) with (- q). rewrite half_e_opp.
  rewrite boris_inv' by (opR; ring).
  set (h := half_e Rnum q f d). destruct u, h. unfold vadd, vmap2, vmap. opR. cbn. f_equal; ring.
Qed.

Definition no_e (f : interp (V := R)) : Prop :=
  i_ex f = 0 /\ i_dexdy f = 0 /\ i_dexdz f = 0 /\ i_d2exdydz f = 0 /\
  i_ey f = 0 /\ i_deydz f = 0 /\ i_deydx f = 0 /\ i_d2eydzdx f = 0 /\
  i_ez f = 0 /\ i_dezdx f = 0 /\ i_dezdy f = 0 /\ i_d2ezdxdy f = 0.

Lemma half_e_zero q f d : no_e f -> half_e Rnum q f d = mkv 0 0 0.
Proof.
  destruct f; unfold no_e; cbn. intros H.
  unfold half_e; opR; cbn in *. decompose [and] H; subst. f_equal; ring.
Qed.
Lemma vadd_0_r u : vadd Rnum u (mkv 0 0 0) = u.
Proof. destruct u. unfold vadd, vmap2. opR. cbn. f_equal; ring. Qed.

Lemma push_no_e q f p : no_e f -> norm2 Rnum (push_u Rnum q f p) = norm2 Rnum (pu p).
Proof.
  intros H. unfold push_u. cbv zeta. rewrite half_e_zero by exact H. rewrite !vadd_0_r. apply boris_norm.
Qed.

(* ---------- kinetic energy ---------- *)

Lemma energy_identity q m f p :
  energy_one Rnum q m f p =
  m * pw p * (sqrt (1 + norm2 Rnum (vadd Rnum (pu p) (half_e Rnum q f (pd p)))) - 1).
Proof.
  unfold energy_one. cbv zeta. set (v := vadd Rnum (pu p) (half_e Rnum q f (pd p))). clearbody v.
  replace (norm2 Rnum v) with (vx v * vx v + vy v * vy v + vz v * vz v) by (unfold norm2; opR; ring).
  opR. set (v0 := vx v * vx v + vy v * vy v + vz v * vz v).
  assert (0 <= v0) by (unfold v0; nra).
  assert (S : sqrt (1 + v0) * sqrt (1 + v0) = 1 + v0) by (apply sqrt_sqrt; lra).
  assert (0 <= sqrt (1 + v0)) by apply sqrt_pos.
  set (g := sqrt (1 + v0)) in *. clearbody g. clearbody v0.
  assert (E : v0 = (g - 1) * (1 + g)) by (ring_simplify; lra).
  rewrite E. field. lra.
Qed.
Lemma gamma_ge1 u : 1 <= sqrt (1 + norm2 Rnum u).
Proof. pose proof (norm2_nonneg u). rewrite <- sqrt_1 at 1. apply sqrt_le_1; lra. Qed.
Lemma energy_nonneg q m f p : 0 <= m -> 0 <= pw p -> 0 <= energy_one Rnum q m f p.
Proof.
  intros Hm Hw. rewrite energy_identity. pose proof (gamma_ge1 (vadd Rnum (pu p) (half_e Rnum q f (pd p)))).
  apply Rmult_le_pos; [apply Rmult_le_pos; assumption|lra].
Qed.

(* ---------- deposition ---------- *)

(* position of corner (bx,by,bz) in the code's order *)
Definition corner_no (bx by' bz : bool) : nat := (Nat.b2n bx + 2 * Nat.b2n by' + 4 * Nat.b2n bz)%nat.
Definition corner_share (d : vec R) (bx by' bz : bool) : R := share bx (vx d) * share by' (vy d) * share bz (vz d).

Lemma rho_adds_nth sy sz qsp r8V p bx by' bz :
  nth_error (rho_adds Rnum sy sz qsp r8V p) (corner_no bx by' bz) =
  Some (node sy sz (pi p) bx by' bz, 8 * r8V * (qsp * pw p) * corner_share (pd p) bx by' bz).
Proof.
  destruct p as [[d1 d2 d3] v u w].
  destruct bx, by', bz; cbv [rho_adds corners weights combine nth_error corner_no Nat.b2n Nat.add Nat.mul
    pi pd pw vx vy vz Rnum n_add n_sub n_mul corner_share share node Z.b2z]; f_equal; f_equal; try lia; field.
Qed.
Lemma rho_adds_len sy sz qsp r8V p : length (rho_adds Rnum sy sz qsp r8V p) = 8%nat.
Proof. reflexivity. Qed.
Lemma rho_adds_total sy sz qsp r8V p :
  sumR (map snd (rho_adds Rnum sy sz qsp r8V p)) = 8 * r8V * (qsp * pw p).
Proof.
  destruct p as [[d1 d2 d3] v u w].
  cbv [rho_adds corners weights combine map fold_right sumR snd pi pd pw vx vy vz Rnum n_add n_sub n_mul]. ring.
Qed.
Lemma share_nonneg b x : Rabs x <= 1 -> 0 <= share b x.
Proof. unfold Rabs, share. destruct (Rcase_abs x), b; intros; lra. Qed.
Lemma corner_share_nonneg d bx by' bz : in_cell d -> 0 <= corner_share d bx by' bz.
Proof.
  intros (Hx & Hy & Hz). unfold corner_share.
  apply Rmult_le_pos; [apply Rmult_le_pos|]; apply share_nonneg; assumption.
Qed.

Lemma node_voxel nx ny nz x y z bx by' bz :
  node (sy_of nx) (sz_of nx ny) (voxel nx ny nz x y z) bx by' bz =
  voxel nx ny nz (x + Z.b2z bx) (y + Z.b2z by') (z + Z.b2z bz).
Proof. unfold node, voxel, sz_of, sy_of. ring. Qed.

Lemma node_range nx ny nz x y z bx by' bz :
  (1 <= x <= nx -> 1 <= y <= ny -> 1 <= z <= nz ->
   0 <= node (sy_of nx) (sz_of nx ny) (voxel nx ny nz x y z) bx by' bz < nv_of nx ny nz)%Z.
Proof.
  intros. rewrite node_voxel. apply voxel_range; try lia. unfold in_mesh. destruct bx, by', bz; cbn [Z.b2z]; lia.
Qed.
Lemma node_inj nx ny nz x y z bx by' bz cx cy cz :
  (1 <= x <= nx)%Z -> (1 <= y <= ny)%Z -> (1 <= z <= nz)%Z ->
  node (sy_of nx) (sz_of nx ny) (voxel nx ny nz x y z) bx by' bz =
  node (sy_of nx) (sz_of nx ny) (voxel nx ny nz x y z) cx cy cz -> (bx, by', bz) = (cx, cy, cz).
Proof.
  intros Hx Hy Hz E. rewrite !node_voxel in E. apply voxel_inj in E; try lia.
  - injection E as E1 E2 E3. destruct bx, by', bz, cx, cy, cz; cbn [Z.b2z] in *; try reflexivity; lia.
  - unfold in_mesh. destruct bx, by', bz; cbn [Z.b2z]; lia.
  - unfold in_mesh. destruct cx, cy, cz; cbn [Z.b2z]; lia.
Qed.

(* the factor of one axis: a node coordinate i in 1..n+1 lies on the boundary planes 1 and n+1 *)
Definition plane (n i : Z) : R := if (i =? 1)%Z then 2 else if (i =? n + 1)%Z then 2 else 1.

Lemma double_if_nth b sel w0 w1 w2 w3 w4 w5 w6 w7 :
  double_if Rnum b sel [w0; w1; w2; w3; w4; w5; w6; w7] =
  let f k t := if b then if sel k then 2 * t else t else t in
  [f 0%nat w0; f 1%nat w1; f 2%nat w2; f 3%nat w3; f 4%nat w4; f 5%nat w5; f 6%nat w6; f 7%nat w7].
Proof.
  unfold double_if. destruct b; [|reflexivity]. cbn [map combine seq]. opR.
  assert (E : forall (s : bool) t, (if s then t + t else t) = (if s then 2 * t else t)) by (intros [|] t; ring).
  rewrite !E. reflexivity.
Qed.

Lemma rhob_adds_nth nx ny nz qsp r8V p x y z bx by' bz :
  (1 <= x <= nx)%Z -> (1 <= y <= ny)%Z -> (1 <= z <= nz)%Z -> pi p = voxel nx ny nz x y z ->
  nth_error (rhob_adds Rnum nx ny nz qsp r8V p) (corner_no bx by' bz) =
  Some (node (sy_of nx) (sz_of nx ny) (pi p) bx by' bz,
        plane nx (x + Z.b2z bx) * plane ny (y + Z.b2z by') * plane nz (z + Z.b2z bz) *
        (8 * r8V * (qsp * pw p) * corner_share (pd p) bx by' bz)).
Proof.
  intros Hx Hy Hz E.
  pose proof (rho_adds_nth (sy_of nx) (sz_of nx ny) qsp r8V p bx by' bz) as RN.
  revert RN. unfold rho_adds, rhob_adds, rhob_weights. rewrite E, decode_rhob_voxel by (unfold in_mesh; lia).
  set (v := voxel nx ny nz x y z).
  assert (WE : weights Rnum (n_mul Rnum (n_mul Rnum qsp r8V) (pw p)) (pd p) =
               weights Rnum (n_mul Rnum (pw p) (n_mul Rnum qsp r8V)) (pd p)).
  { f_equal. opR. ring. }
  rewrite WE. clear WE. destruct (weights Rnum (n_mul Rnum (pw p) (n_mul Rnum qsp r8V)) (pd p))
    as [|w0 [|w1 [|w2 [|w3 [|w4 [|w5 [|w6 [|w7 [|w8 ws]]]]]]]]] eqn:W; try discriminate. clear W.
  assert (FL : forall n i, (1 <= i <= n)%Z -> plane n (i + 0) = if (i =? 1)%Z then 2 else 1).
  { intros n i H. unfold plane. rewrite Z.add_0_r. destruct (Z.eqb_spec i 1), (Z.eqb_spec i (n + 1)); try reflexivity; lia. }
  assert (FH : forall n i, (1 <= i <= n)%Z -> plane n (i + 1) = if (i =? n)%Z then 2 else 1).
  { intros n i H. unfold plane. destruct (Z.eqb_spec (i + 1) 1), (Z.eqb_spec (i + 1) (n + 1)), (Z.eqb_spec i n); try reflexivity; lia. }
  assert (MI : forall (b : bool) t, (if b then 2 * t else t) = (if b then 2 else 1) * t) by (intros [|] t; ring).
  cbv zeta. rewrite !double_if_nth. cbv zeta.
  generalize (8 * r8V * (qsp * pw p) * corner_share (pd p) bx by' bz). intros c.
  destruct bx, by', bz; cbv [corners combine corner_no Nat.b2n Nat.add Nat.mul nth_error Nat.testbit Nat.odd Nat.even Nat.div2 negb Z.b2z];
    rewrite ?FL, ?FH by assumption; intros RN; apply (f_equal (fun o => match o with Some e => e | None => (0%Z, 0) end)) in RN;
    inversion RN; subst; f_equal; f_equal;
    repeat match goal with |- context [if ?b then 2 * ?t else ?t] => rewrite (MI b t) end;
    repeat match goal with |- context [if ?b then ?t else ?t] => replace (if b then t else t) with t by (destruct b; reflexivity) end;
    ring.
Qed.
