(* C25-C29: collision operators. *)
From Coq Require Import Reals Lra.
From Coq Require Import ZArith List Bool Lia Permutation.
From Flocq Require Import Core BinarySingleNaN.
From Verif Require Import ParticleModel ParticleProofs.
From Verif Require Import FloatModel FloatProofs RngModel ConvProofs SortModel SortProofs VoxelModel CollisionModel CollisionProofs.
Import ListNotations.
Open Scope Z_scope.

(* ---- C25 ---- *)
(* Exact arithmetic; tiny stands for FLT_MIN.  [conserves tiny mi mj ui uj ui' uj'] says: total
   momentum is unchanged; the squared relative momentum does not grow and shrinks by at most
   3/2 tiny; with tiny = 0 it and the kinetic energy are unchanged. *)
Theorem C25_hard_sphere : forall tiny mi mj bcs bsn ui uj,
  (0 <= tiny)%R -> (0 < mi)%R -> (0 < mj)%R -> (bcs * bcs + bsn * bsn < 1)%R ->
  let '(ui', uj') := collide Rnum (hard_sphere_transfer Rnum tiny bcs bsn)
                       (twomu_mi Rnum mi mj) (twomu_mj Rnum mi mj) 3 ui uj in
  vplus (vtimes mi ui') (vtimes mj uj') = vplus (vtimes mi ui) (vtimes mj uj) /\
  (dot (vminus ui uj) (vminus ui uj) - 3 / 2 * tiny <= dot (vminus ui' uj') (vminus ui' uj')
     <= dot (vminus ui uj) (vminus ui uj))%R /\
  (tiny = 0 -> dot (vminus ui' uj') (vminus ui' uj') = dot (vminus ui uj) (vminus ui uj) /\
               mi * dot ui' ui' + mj * dot uj' uj' = mi * dot ui ui + mj * dot uj uj)%R.
Proof.
  intros tiny mi mj bcs bsn ui uj H1 H2 H3 H4.
  pose proof (collide_both tiny (hard_sphere_transfer Rnum tiny bcs bsn) mi mj ui uj H2 H3 (hard_sphere_rotates tiny bcs bsn H1 H4)) as C.
  destruct (collide Rnum (hard_sphere_transfer Rnum tiny bcs bsn) (twomu_mi Rnum mi mj) (twomu_mj Rnum mi mj) 3 ui uj).
  exact C.
Qed.
Print Assumptions C25_hard_sphere.

Theorem C25_coulomb : forall tiny mi mj cc bcs bsn ui uj,
  (0 <= tiny)%R -> (0 < mi)%R -> (0 < mj)%R ->
  let '(ui', uj') := collide Rnum (coulomb_transfer Rnum tiny cc bcs bsn)
                       (twomu_mi Rnum mi mj) (twomu_mj Rnum mi mj) 3 ui uj in
  vplus (vtimes mi ui') (vtimes mj uj') = vplus (vtimes mi ui) (vtimes mj uj) /\
  (dot (vminus ui uj) (vminus ui uj) - 3 / 2 * tiny <= dot (vminus ui' uj') (vminus ui' uj')
     <= dot (vminus ui uj) (vminus ui uj))%R /\
  (tiny = 0 -> dot (vminus ui' uj') (vminus ui' uj') = dot (vminus ui uj) (vminus ui uj) /\
               mi * dot ui' ui' + mj * dot uj' uj' = mi * dot ui ui + mj * dot uj uj)%R.
Proof.
  intros tiny mi mj cc bcs bsn ui uj H1 H2 H3.
  pose proof (collide_both tiny (coulomb_transfer Rnum tiny cc bcs bsn) mi mj ui uj H2 H3 (coulomb_rotates tiny cc bcs bsn H1)) as C.
  destruct (collide Rnum (coulomb_transfer Rnum tiny cc bcs bsn) (twomu_mi Rnum mi mj) (twomu_mj Rnum mi mj) 3 ui uj).
  exact C.
Qed.
Print Assumptions C25_coulomb.

(* Takizuka-Abe, whenever the weight test lets both partners be updated. *)
Theorem C25_takizuka_abe : forall tiny mi mj std gauss cs sn r ui uj wi wj,
  (0 <= tiny)%R -> (0 < mi)%R -> (0 < mj)%R -> (cs * cs + sn * sn = 1)%R ->
  (wj < wi -> wi * r <= wj)%R -> (wi < wj -> wj * r <= wi)%R ->
  let '(ui', uj') := ta_collide Rnum tiny (ta_mu_i Rnum mi mj) (ta_mu_j Rnum mi mj) std gauss cs sn r ui uj wi wj in
  vplus (vtimes mi ui') (vtimes mj uj') = vplus (vtimes mi ui) (vtimes mj uj) /\
  (dot (vminus ui uj) (vminus ui uj) - 3 / 2 * tiny <= dot (vminus ui' uj') (vminus ui' uj')
     <= dot (vminus ui uj) (vminus ui uj))%R /\
  (tiny = 0 -> dot (vminus ui' uj') (vminus ui' uj') = dot (vminus ui uj) (vminus ui uj) /\
               mi * dot ui' ui' + mj * dot uj' uj' = mi * dot ui ui + mj * dot uj uj)%R.
Proof.
  intros tiny mi mj std gauss cs sn r ui uj wi wj H1 H2 H3 H4 H5 H6.
  pose proof (ta_collide_both tiny mi mj std gauss cs sn r ui uj wi wj H1 H2 H3 H4 H5 H6) as C.
  destruct (ta_collide Rnum tiny (ta_mu_i Rnum mi mj) (ta_mu_j Rnum mi mj) std gauss cs sn r ui uj wi wj).
  exact C.
Qed.
Print Assumptions C25_takizuka_abe.

(* Updating one partner: that partner ends as in the two-sided collision, the other is untouched.
   Holds for any number system, so also in binary32. *)
Theorem C25_one_sided : forall V (K : num V) f wi wj ui uj,
  collide K f wi wj 1 ui uj = (fst (collide K f wi wj 3 ui uj), uj) /\
  collide K f wi wj 2 ui uj = (ui, snd (collide K f wi wj 3 ui uj)).
Proof. intros. split; reflexivity. Qed.
Print Assumptions C25_one_sided.

Theorem C25_takizuka_abe_one_sided : forall tiny mu_i mu_j std gauss cs sn r ui uj wi wj,
  let '(ui', uj') := ta_collide Rnum tiny mu_i mu_j std gauss cs sn r ui uj wi wj in
  ((wj < wi)%R -> (wj < wi * r)%R -> ui' = ui) /\ ((wi < wj)%R -> (wi < wj * r)%R -> uj' = uj).
Proof. exact ta_collide_one. Qed.
Print Assumptions C25_takizuka_abe_one_sided.

(* A collision with a fluid is a one-sided collision with a particle of momentum drift + ut*g. *)
Theorem C25_fluid : forall f wi wj ud ut g ui,
  collide_fluid Rnum f wi ud ut g ui = fst (collide Rnum f wi wj 1 ui (vplus ud (vtimes ut g))).
Proof. exact fluid_is_one_sided. Qed.
Print Assumptions C25_fluid.

(* The scattering angle theta of each kernel, as cos theta |u|^2 = u . u' for the relative momenta u
   and u' before and after.  Hard spheres: the impact point at distance b from the axis gives
   cos theta = 2 b^2 - 1.  Coulomb: tan (theta/2) = 1 / (cc |u|^2 b), the Rutherford formula, b = 0 included.
   Takizuka-Abe: tan (theta/2) = dd, a normal draw times std / |u|^(3/2) limited to 1. *)
Theorem C25_hard_sphere_angle : forall tiny mi mj bcs bsn ui uj,
  (0 <= tiny)%R -> (0 < mi)%R -> (0 < mj)%R ->
  let '(ui', uj') := collide Rnum (hard_sphere_transfer Rnum tiny bcs bsn)
                       (twomu_mi Rnum mi mj) (twomu_mj Rnum mi mj) 3 ui uj in
  (dot (vminus ui uj) (vminus ui' uj') =
   (2 * (bcs * bcs + bsn * bsn) - 1) * dot (vminus ui uj) (vminus ui uj))%R.
Proof.
  intros tiny mi mj bcs bsn ui uj H1 H2 H3.
  pose proof (collide_relative (hard_sphere_transfer Rnum tiny bcs bsn) mi mj ui uj H2 H3) as C.
  destruct (collide Rnum (hard_sphere_transfer Rnum tiny bcs bsn) (twomu_mi Rnum mi mj) (twomu_mj Rnum mi mj) 3 ui uj).
  rewrite C. exact (hard_sphere_cosine tiny bcs bsn _ H1).
Qed.
Print Assumptions C25_hard_sphere_angle.

Theorem C25_coulomb_angle : forall tiny mi mj cc bcs bsn ui uj,
  (0 <= tiny)%R -> (0 < mi)%R -> (0 < mj)%R ->
  let '(ui', uj') := collide Rnum (coulomb_transfer Rnum tiny cc bcs bsn)
                       (twomu_mi Rnum mi mj) (twomu_mj Rnum mi mj) 3 ui uj in
  let u := vminus ui uj in
  let q := ((cc * dot u u) * (cc * dot u u) * (bcs * bcs + bsn * bsn))%R in
  ((1 + q) * dot u (vminus ui' uj') = (q - 1) * dot u u)%R.
Proof.
  intros tiny mi mj cc bcs bsn ui uj H1 H2 H3.
  pose proof (collide_relative (coulomb_transfer Rnum tiny cc bcs bsn) mi mj ui uj H2 H3) as C.
  destruct (collide Rnum (coulomb_transfer Rnum tiny cc bcs bsn) (twomu_mi Rnum mi mj) (twomu_mj Rnum mi mj) 3 ui uj).
  cbv zeta. rewrite C. exact (coulomb_cosine tiny cc bcs bsn _ H1).
Qed.
Print Assumptions C25_coulomb_angle.

Theorem C25_takizuka_abe_angle : forall tiny mi mj std gauss cs sn r ui uj wi wj,
  (0 <= tiny)%R -> (0 < mi)%R -> (0 < mj)%R ->
  (wj < wi -> wi * r <= wj)%R -> (wi < wj -> wj * r <= wi)%R ->
  let u := vminus ui uj in (0 < dot u u)%R ->
  let '(ui', uj') := ta_collide Rnum tiny (ta_mu_i Rnum mi mj) (ta_mu_j Rnum mi mj) std gauss cs sn r ui uj wi wj in
  let speed := sqrt (dot u u) in
  let dd := (gauss * Rmin 1 (std / (speed * sqrt speed)))%R in
  ((1 + dd * dd) * dot u (vminus ui' uj') = (1 - dd * dd) * dot u u)%R.
Proof.
  intros tiny mi mj std gauss cs sn r ui uj wi wj H1 H2 H3 H5 H6 u H7.
  pose proof (ta_relative tiny mi mj std gauss cs sn r ui uj wi wj H2 H3 H5 H6) as C. cbv zeta in C.
  destruct (ta_collide Rnum tiny (ta_mu_i Rnum mi mj) (ta_mu_j Rnum mi mj) std gauss cs sn r ui uj wi wj).
  cbv zeta. rewrite C. fold u. rewrite <- (ta_width std gauss u H7). exact (ta_cosine tiny _ cs sn u H1).
Qed.
Print Assumptions C25_takizuka_abe_angle.

(* Relative momentum (0,4,0): with std 4 the width is 4/8, so a draw of 1 turns u by 2 atan (1/2),
   cosine 3/5; with std 80 the width would be 10 and is limited to 1, a right angle. *)
Example C25_example_angle : forall cs sn r,
  let turn std := ta_collide Rnum 0%R (ta_mu_i Rnum 1%R 3%R) (ta_mu_j Rnum 1%R 3%R) std 1%R cs sn r (mkv 1 6 0)%R (mkv 1 2 0)%R 1%R 1%R in
  dot (mkv 0 4 0)%R (vminus (fst (turn 4%R)) (snd (turn 4%R))) = (3 / 5 * 16)%R /\
  dot (mkv 0 4 0)%R (vminus (fst (turn 80%R)) (snd (turn 80%R))) = 0%R.
Proof.
  intros cs sn r turn.
  assert (E4 : sqrt (dot (vminus (mkv 1 6 0)%R (mkv 1 2 0)%R) (vminus (mkv 1 6 0)%R (mkv 1 2 0)%R)) = 4%R).
  { unfold dot, vminus. cbn [vx vy vz]. replace ((1 - 1) * (1 - 1) + (6 - 2) * (6 - 2) + (0 - 0) * (0 - 0))%R with (4 * 4)%R by ring.
    apply R_sqrt.sqrt_square. lra. }
  assert (E2 : sqrt 4 = 2%R) by (replace 4%R with (2 * 2)%R by ring; apply R_sqrt.sqrt_square; lra).
  assert (Eu : (mkv 0 4 0)%R = vminus (mkv 1 6 0)%R (mkv 1 2 0)%R) by (unfold vminus; cbn [vx vy vz]; apply vec_eq; cbn [vx vy vz]; ring).
  assert (Ed : dot (vminus (mkv 1 6 0)%R (mkv 1 2 0)%R) (vminus (mkv 1 6 0)%R (mkv 1 2 0)%R) = 16%R)
    by (unfold dot, vminus; cbn [vx vy vz]; ring).
  assert (T : forall std, let m := Rmin 1 (std / 8)%R in
            ((1 + m * m) * dot (mkv 0 4 0)%R (vminus (fst (turn std)) (snd (turn std))) = (1 - m * m) * 16)%R).
  { intros std m. pose proof (C25_takizuka_abe_angle 0%R 1%R 3%R std 1%R cs sn r (mkv 1 6 0)%R (mkv 1 2 0)%R 1%R 1%R
      ltac:(lra) ltac:(lra) ltac:(lra) ltac:(lra) ltac:(lra) ltac:(rewrite Ed; lra)) as C.
    unfold turn. destruct (ta_collide _ _ _ _ _ _ _ _ _ _ _ _ _) as [a b]. cbv zeta in C. cbn [fst snd].
    rewrite E4, E2, Ed in C. rewrite Eu. replace (4 * 2)%R with 8%R in C by ring. fold m in C.
    rewrite Rmult_1_l in C. exact C. }
  split.
  - pose proof (T 4%R) as C. cbv zeta in C. rewrite Rmin_right in C by lra. lra.
  - pose proof (T 80%R) as C. cbv zeta in C. rewrite Rmin_left in C by lra. lra.
Qed.

(* Two equal masses, relative momentum (3,4,0), impact point (3/5,0): the second component is
   exchanged.  And in binary32, FLT_MIN included, a non-trivial collision conserves momentum to the
   last bit in this case. *)
Example C25_example_exchange :
  collide Rnum (hard_sphere_transfer Rnum 0%R (3 / 5)%R 0%R) 1%R 1%R 3 (mkv 3 4 0)%R (mkv 0 0 0)%R = (mkv 3 0 0, mkv 0 4 0)%R.
Proof.
  unfold collide, hard_sphere_transfer, transverse, least, square, blend, vsub3, vadd3, vscale.
  change (Z.testbit 3 0) with true. change (Z.testbit 3 1) with true.
  cbn [vx vy vz Rnum n_add n_sub n_mul n_div n_lt n_one n_sqrt n_zero n_opp].
  destruct (Rltb_spec ((4 - 0) * (4 - 0)) ((3 - 0) * (3 - 0))) as [H|H]; [lra|]. cbn match.
  destruct (Rltb_spec ((0 - 0) * (0 - 0)) ((3 - 0) * (3 - 0))) as [H'|H']; [|lra]. cbn [vget vset vx vy vz].
  assert (E5 : sqrt ((3 - 0) * (3 - 0) + (4 - 0) * (4 - 0) + 0) = 5%R)
    by (replace ((3 - 0) * (3 - 0) + (4 - 0) * (4 - 0) + 0)%R with (5 * 5)%R by ring; apply R_sqrt.sqrt_square; lra).
  assert (E5' : sqrt ((3 - 0) * (3 - 0) + (4 - 0) * (4 - 0) + (0 - 0) * (0 - 0)) = 5%R)
    by (replace ((3 - 0) * (3 - 0) + (4 - 0) * (4 - 0) + (0 - 0) * (0 - 0))%R with (5 * 5)%R by ring; apply R_sqrt.sqrt_square; lra).
  assert (E4 : sqrt (1 - (3 / 5 * (3 / 5) + 0 * 0)) = (4 / 5)%R)
    by (replace (1 - (3 / 5 * (3 / 5) + 0 * 0))%R with (4 / 5 * (4 / 5))%R by field; apply R_sqrt.sqrt_square; lra).
  rewrite E5, E5', E4. f_equal; apply vec_eq; cbn [vx vy vz]; field.
Qed.
Definition flt_min : b32 := f_div (f_of_Z 1) (f_of_Z (2 ^ 126)).
Example C25_example_binary32 :
  let half := f_div (f_of_Z 1) (f_of_Z 2) in
  let '(a, b) := collide Fnum (hard_sphere_transfer Fnum flt_min half half) (f_of_Z 1) (f_of_Z 1) 3
                   (mkv (f_of_Z 3) (f_of_Z 4) (f_of_Z 12)) (mkv (f_of_Z 0) (f_of_Z 0) (f_of_Z 0)) in
  f_lt (vx a) (f_of_Z 3) = true /\ f_eq (f_add (vx a) (vx b)) (f_of_Z 3) = true /\
  f_eq (f_add (vy a) (vy b)) (f_of_Z 4) = true /\ f_eq (f_add (vz a) (vz b)) (f_of_Z 12) = true.
Proof. vm_compute. repeat split. Qed.

(* The code does not guard 1/|ur| in the Takizuka-Abe kernel: for identical momenta and no scattering
   width (uncharged partners, or no density), the new momenta are NaN. *)
Theorem C25_comoving_refuted : exists ui : vec b32,
  is_nan (vx (fst (ta_collide Fnum flt_min (f_div (f_of_Z 1) (f_of_Z 2)) (f_div (f_of_Z 1) (f_of_Z 2))
    (f_of_Z 0) (f_of_Z 1) (f_of_Z 1) (f_of_Z 0) (f_of_Z 0) ui ui (f_of_Z 1) (f_of_Z 1)))) = true.
Proof. exists (mkv (f_of_Z 1) (f_of_Z 2) (f_of_Z 3)). vm_compute. reflexivity. Qed.
Print Assumptions C25_comoving_refuted.

(* ---- C26 ---- *)
(* [uses l x]: number of occurrences of x in l.  Two species, nk and nl particles of the voxel. *)
Theorem C26_two_species : forall k0 nk l0 nl, 1 <= nk -> 1 <= nl ->
  let ps := voxel_pairs false k0 nk l0 nl in
  (nl <= nk ->
     map fst ps = zrange k0 (k0 + nk) /\
     forall l, l0 <= l < l0 + nl -> uses (map snd ps) l = nk / nl + (if l - l0 <? nk mod nl then 1 else 0)) /\
  (nk <= nl ->
     map snd ps = zrange l0 (l0 + nl) /\
     forall k, k0 <= k < k0 + nk -> uses (map fst ps) k = nl / nk + (if k - k0 <? nl mod nk then 1 else 0)) /\
  forall k l, In (k, l) ps -> k0 <= k < k0 + nk /\ l0 <= l < l0 + nl.
Proof.
  intros k0 nk l0 nl Hk Hl ps. unfold ps, voxel_pairs.
  replace (nk =? 0) with false by (symmetry; apply Z.eqb_neq; lia).
  replace (nl =? 0) with false by (symmetry; apply Z.eqb_neq; lia). cbn match.
  destruct (pairs_inter_ok k0 nk l0 nl Hk Hl) as [A B]. cbv zeta in *. split; [|split].
  - intros H. destruct (A H) as [A1 A2]. split; [exact A1|]. intros l L. rewrite A2.
    replace ((l0 <=? l) && (l <? l0 + nl)) with true; [reflexivity|]. symmetry. apply andb_true_iff. split; [apply Z.leb_le|apply Z.ltb_lt]; lia.
  - intros H. destruct (B H) as [A1 A2]. split; [exact A1|]. intros l L. rewrite A2.
    replace ((k0 <=? l) && (l <? k0 + nk)) with true; [reflexivity|]. symmetry. apply andb_true_iff. split; [apply Z.leb_le|apply Z.ltb_lt]; lia.
  - intros k l I. exact (pairs_inter_in k0 nk l0 nl k l Hk Hl I).
Qed.
Print Assumptions C26_two_species.

(* One species: how many collisions each index x takes part in; zero outside the voxel. *)
Theorem C26_one_species : forall k0 nk l0 nl x, 0 <= nk ->
  let ps := voxel_pairs true k0 nk l0 nl in
  uses (map fst ps) x + uses (map snd ps) x =
    (if (k0 <=? x) && (x <? k0 + nk) then
       if nk =? 1 then 0 else if Z.odd nk && (x <? k0 + 3) then 2 else 1
     else 0) /\
  ~ In (x, x) ps.
Proof.
  intros k0 nk l0 nl x H ps. split; [|apply no_self; exact H].
  replace (Z.odd nk) with (negb (nk mod 2 =? 0)); [exact (same_species k0 nk l0 nl x H)|].
  rewrite Zmod_odd. destruct (Z.odd nk); reflexivity.
Qed.
Print Assumptions C26_one_species.

(* The shuffle permutes the voxel's particles and touches no other. *)
Theorem C26_shuffle : forall A k0 nk (p : Z -> A) words p' ws, 1 <= nk < 2 ^ 31 ->
  (forall u, In u words -> 0 <= u) -> shuffle_voxel k0 nk p words = Got p' ws ->
  Permutation (map p' (zrange k0 (k0 + nk))) (map p (zrange k0 (k0 + nk))) /\
  forall x, x < k0 \/ k0 + nk <= x -> p' x = p x.
Proof.
  intros A k0 nk p words p' ws H Hw E.
  destruct (shuffle_ok (Z.to_nat (nk - 1)) k0 (k0 + nk) p words p' ws k0 ltac:(lia) ltac:(lia) ltac:(lia) Hw E) as [P Q].
  split; [exact P|]. intros x Hx. apply Q. lia.
Qed.
Print Assumptions C26_shuffle.

(* No int overflow in the shuffle while the species has fewer than 2^30 particles, and every position
   is hit by equally many words. *)
Theorem C26_shuffle_defined : forall A k0 nk (p : Z -> A) words, 0 <= k0 -> 1 <= nk -> k0 + nk < 2 ^ 30 ->
  (forall u, In u words -> 0 <= u < 2 ^ 32) -> shuffle_voxel k0 nk p words <> Overflow.
Proof. intros A k0 nk p words H1 H2 H3 Hw. apply shuffle_no_overflow; [lia|lia|lia|exact Hw]. Qed.
Print Assumptions C26_shuffle_defined.

Theorem C26_shuffle_uniform : forall i k1 j, 0 <= i -> i < k1 -> k1 < 2 ^ 30 -> i <= j < k1 ->
  cardinal (fun u => 0 <= u < 2 ^ 32 /\ draw_below (4294967295 / (k1 - i)) i k1 [u] = Got j []) (4294967295 / (k1 - i)).
Proof. exact shuffle_step_uniform. Qed.
Print Assumptions C26_shuffle_uniform.

Example C26_example :
  voxel_pairs false 10 5 20 2 = [(10, 20); (11, 20); (12, 20); (13, 21); (14, 21)] /\
  voxel_pairs false 10 2 20 3 = [(10, 20); (10, 21); (11, 22)] /\
  voxel_pairs true 10 7 0 0 = [(10, 11); (10, 12); (11, 12); (13, 15); (14, 16)] /\
  voxel_pairs true 10 1 0 0 = [] /\ voxel_pairs true 10 4 0 0 = [(10, 12); (11, 13)].
Proof. vm_compute. repeat split. Qed.
Example C26_example_shuffle :
  match shuffle_voxel 5 3 (fun x => x * x) [4294967295; 3000000000; 3000000000; 7] with
  | Got p ws => map p [4; 5; 6; 7; 8] = [16; 49; 25; 36; 64] /\ ws = [7]
  | _ => False
  end.
Proof. vm_compute. split; reflexivity. Qed.

(* ---- C27 ---- *)
(* The candidate stays in the voxel for every word exactly when (2^32-1) mod nk < (2^32-1) / nk. *)
Theorem C27_in_voxel : forall nk, 1 <= nk < 2 ^ 31 ->
  ((forall words k ws, (forall u, In u words -> 0 <= u < 2 ^ 32) -> candidate nk words = Some (k, ws) -> 0 <= k < nk)
   <-> 4294967295 mod nk < 4294967295 / nk).
Proof.
  intros nk H. split.
  - intros F. destruct (Z.lt_ge_cases (4294967295 mod nk) (4294967295 / nk)) as [L|L]; [exact L|exfalso].
    destruct (candidate_bad nk H ltac:(unfold fair_count; lia)) as (u & k & Hu & E & Hk).
    pose proof (F [u] k [] ltac:(intros v [<-|[]]; exact Hu) E). lia.
  - intros L words k ws. apply candidate_ok; [exact H|exact L].
Qed.
Print Assumptions C27_in_voxel.
Theorem C27_small_voxels : forall nk words k ws, 1 <= nk <= 65535 ->
  (forall u, In u words -> 0 <= u < 2 ^ 32) -> candidate nk words = Some (k, ws) -> 0 <= k < nk.
Proof. intros nk words k ws H. apply candidate_ok; [lia|apply fair_small; exact H]. Qed.
Print Assumptions C27_small_voxels.
(* Every index of the voxel belongs to the same number of words. *)
Theorem C27_uniform : forall nk k, 1 <= nk < 2 ^ 31 -> 0 <= k < nk ->
  cardinal (fun u => 0 <= u < 2 ^ 32 /\ candidate nk [u] = Some (k, [])) (4294967295 / nk).
Proof. exact candidate_uniform. Qed.
Print Assumptions C27_uniform.
Theorem C27_large_voxel_refuted : exists nk u k,
  nk = 65536 /\ 0 <= u < 2 ^ 32 /\ candidate nk [u] = Some (k, []) /\ ~ k < nk.
Proof. exists 65536, 4294967295, 65537. vm_compute. repeat split; intros; discriminate. Qed.
Print Assumptions C27_large_voxel_refuted.
(* The number of pairs is evaluated in int. *)
Theorem C27_pair_count : forall nk, 0 <= nk <= 46340 -> pair_count true nk nk = Some (nk * (nk + 1) / 2).
Proof.
  intros nk H. unfold pair_count. replace (int_ok (nk * (nk + 1))) with true.
  - rewrite Z.shiftr_div_pow2 by lia. reflexivity.
  - symmetry. unfold int_ok. apply andb_true_iff. split; apply Z.leb_le; nia.
Qed.
Print Assumptions C27_pair_count.
Theorem C27_pair_count_refuted : exists nk, nk = 46341 /\ pair_count true nk nk = None.
Proof. exists 46341. split; reflexivity. Qed.
Print Assumptions C27_pair_count_refuted.
Example C27_example :
  candidate 3 [0] = Some (0, []) /\ candidate 3 [4294967294; 5] = Some (2, [5]) /\
  candidate 2 [4294967295; 2147483647] = Some (1, []) /\ pair_count true 4 4 = Some 10 /\ pair_count false 4 7 = Some 28.
Proof. vm_compute. repeat split. Qed.

(* ---- C28 ---- *)
Theorem C28_striping : forall nx ny nz P, 1 <= nx -> 1 <= ny -> 1 <= nz -> 1 <= P ->
  (forall v, 0 <= v <= voxel nx ny nz nx ny nz -> exists! r, 0 <= r < P /\ In v (stripe nx ny nz P r)) /\
  (forall r v, 0 <= r <= P -> In v (stripe nx ny nz P r) -> 0 <= v <= voxel nx ny nz nx ny nz) /\
  (forall r, 0 <= r < P -> NoDup (stripe nx ny nz P r)) /\
  (forall x y z, 1 <= x <= nx -> 1 <= y <= ny -> 1 <= z <= nz ->
     0 <= voxel nx ny nz x y z <= voxel nx ny nz nx ny nz).
Proof.
  intros nx ny nz P Hx Hy Hz HP. split; [|split; [|split]].
  - intros v Hv. exists (v mod P). pose proof (Z.mod_pos_bound v P ltac:(lia)). split.
    + split; [assumption|]. apply stripe_in; try lia.
    + intros r [Hr I]. apply stripe_in in I; lia.
  - intros r v Hr I. destruct (Z.eq_dec r P) as [->|N].
    + unfold stripe in I. rewrite Z.eqb_refl in I. destruct I.
    + apply stripe_in in I; lia.
  - intros r Hr. unfold stripe. replace (r =? P) with false by (symmetry; apply Z.eqb_neq; lia). apply stripe_loop_nodup; [lia|].
    unfold voxel. lia.
  - intros x y z A B C. unfold voxel. nia.
Qed.
Print Assumptions C28_striping.

(* Unary models and the thermostat visit the particles 0..np-1, each once. *)
Theorem C28_unary_visits : forall contract np P, 0 <= np < 2 ^ 31 -> 1 <= P < 2 ^ 31 -> visited contract np P = zrange 0 np.
Proof. exact visited_all. Qed.
Print Assumptions C28_unary_visits.

(* In binary32 with the draw of frand_c0: probability <= 0 never collides, >= 1 always. *)
Theorem C28_never : forall wk wl pr p r1 r2, is_finite pr = true -> B2R pr = p -> (p <= 0)%R -> 0 <= r1 < 2 ^ 32 ->
  thin Fnum wk wl pr (conv_frand_c0 r1) r2 = None /\ thin_unary Fnum pr (conv_frand_c0 r1) = false.
Proof. intros wk wl pr p r1 r2 F E. apply thin_none. split; assumption. Qed.
Print Assumptions C28_never.
Theorem C28_always : forall wk wl pr p r1 r2, is_finite pr = true -> B2R pr = p -> (1 <= p)%R -> 0 <= r1 < 2 ^ 32 ->
  thin Fnum wk wl pr (conv_frand_c0 r1) r2 <> None /\ thin_unary Fnum pr (conv_frand_c0 r1) = true.
Proof. intros wk wl pr p r1 r2 F E. apply thin_some. split; assumption. Qed.
Print Assumptions C28_always.
(* Bit 0 of type updates particle k, bit 1 particle l. *)
Theorem C28_lighter_updated : forall wk wl pr r1 r2 t, is_finite wk = true -> is_finite wl = true ->
  thin Fnum wk wl pr r1 r2 = Some t ->
  (t = 1 \/ t = 2 \/ t = 3) /\
  ((B2R wk < B2R wl)%R -> Z.testbit t 0 = true) /\ ((B2R wl < B2R wk)%R -> Z.testbit t 1 = true) /\
  (B2R wk = B2R wl -> t = 3).
Proof. intros wk wl pr r1 r2 t A B. apply thin_type; split; auto. Qed.
Print Assumptions C28_lighter_updated.
(* Exact arithmetic: of the 2^24 values of the second draw, ceil(2^24 w_min/w_max) update the heavier. *)
Theorem C28_heavier_fraction : forall w_min w_max, (0 < w_min)%R -> (w_min <= w_max)%R ->
  cardinal (fun m => 0 <= m < 2 ^ 24 /\ (w_max * (IZR m / 16777216) < w_min)%R) (Zceil (16777216 * (w_min / w_max))).
Proof. exact heavier_count. Qed.
Print Assumptions C28_heavier_fraction.
(* A NaN rate: the binary loop collides, the unary loop does not. *)
Theorem C28_nan_rate_refuted : exists pr : b32, is_nan pr = true /\
  forall r1 r2, thin Fnum (f_of_Z 1) (f_of_Z 1) pr r1 r2 = Some 3 /\ thin_unary Fnum pr r1 = false.
Proof.
  exists B754_nan. split; [reflexivity|]. intros r1 r2. split; [reflexivity|].
  unfold thin_unary. cbn [Fnum n_lt]. unfold f_lt. destruct r1; reflexivity.
Qed.
Print Assumptions C28_nan_rate_refuted.
Example C28_example :
  stripe 2 2 2 5 3 = [3; 8; 13; 18; 23; 28; 33; 38] /\ stripe 2 2 2 5 5 = [] /\ visited false 10 3 = [0; 1; 2; 3; 4; 5; 6; 7; 8; 9] /\
  thin Fnum (f_of_Z 1) (f_of_Z 4) (f_of_Z 1) (conv_frand_c0 4294967295) (conv_frand_c0 4294967295) = Some 1 /\
  thin Fnum (f_of_Z 1) (f_of_Z 4) (f_of_Z 1) (conv_frand_c0 4294967295) (conv_frand_c0 1000000000) = Some 3 /\
  thin Fnum (f_of_Z 4) (f_of_Z 1) (f_of_Z 1) (conv_frand_c0 4294967295) (conv_frand_c0 4294967295) = Some 2 /\
  thin Fnum (f_of_Z 4) (f_of_Z 1) (f_of_Z 0) (conv_frand_c0 0) (conv_frand_c0 4294967295) = None.
Proof. vm_compute. repeat split. Qed.

(* ---- C29 ---- *)
Theorem C29_fixed_point : forall nudt kT m c, (0 <= nudt)%R -> (0 <= kT)%R -> (0 < m * c)%R ->
  (lang_decay nudt * lang_decay nudt * (kT / (m * c)) + lang_drive nudt kT m c * lang_drive nudt kT m c = kT / (m * c))%R /\
  (0 < lang_decay nudt <= 1)%R.
Proof.
  intros nudt kT m c A B C. destruct (drive_arg nudt kT m c A B C) as [_ E]. rewrite decay_sq, E.
  split; [ring|apply decay_unit; exact A].
Qed.
Print Assumptions C29_fixed_point.
(* Two consecutive applications act as one over the sum of the intervals. *)
Theorem C29_composition : forall a b kT m c, (0 <= a)%R -> (0 <= b)%R -> (0 <= kT)%R -> (0 < m * c)%R ->
  lang_decay (a + b) = (lang_decay b * lang_decay a)%R /\
  (lang_drive (a + b) kT m c * lang_drive (a + b) kT m c =
   lang_decay b * lang_decay b * (lang_drive a kT m c * lang_drive a kT m c) + lang_drive b kT m c * lang_drive b kT m c)%R.
Proof.
  intros a b kT m c A B C D.
  destruct (drive_arg a kT m c A C D) as [_ Ea]. destruct (drive_arg b kT m c B C D) as [_ Eb].
  destruct (drive_arg (a + b) kT m c ltac:(lra) C D) as [_ Es]. rewrite Ea, Eb, Es, decay_sq. split.
  - unfold lang_decay. rewrite <- exp_plus. f_equal. ring.
  - replace (-2 * (a + b))%R with (-2 * b + -2 * a)%R by ring. rewrite exp_plus. ring.
Qed.
Print Assumptions C29_composition.
(* The distance of the variance from kT/(mc) shrinks by the factor decay^2 at each application. *)
Theorem C29_relaxation : forall n nudt kT m c v, (0 <= nudt)%R -> (0 <= kT)%R -> (0 < m * c)%R ->
  (variance_after n (lang_decay nudt) (lang_drive nudt kT m c) v - kT / (m * c) =
   (lang_decay nudt * lang_decay nudt) ^ n * (v - kT / (m * c)))%R.
Proof. intros n nudt kT m c v A B C. apply variance_ok. exact (proj1 (C29_fixed_point nudt kT m c A B C)). Qed.
Print Assumptions C29_relaxation.
(* On an ensemble: momenta us and independent draws gs of mean 0 and mean square 1, every pair equally likely.  One application multiplies the mean by decay
   and takes the mean square v to decay^2 v + drive^2, so v = kT/(mc) is kept and any other relaxes as [C29_relaxation] says. *)
Definition mean (xs : list R) : R := (fold_right Rplus 0 xs / INR (length xs))%R.
Theorem C29_ensemble : forall nudt kT m c us gs, (0 <= nudt)%R -> (0 <= kT)%R -> (0 < m * c)%R -> us <> [] -> gs <> [] ->
  mean gs = 0%R -> mean (map (fun g => g * g)%R gs) = 1%R ->
  let d := lang_decay nudt in let w := lang_drive nudt kT m c in
  let us' := map (fun ug => lang_step d w (fst ug) (snd ug)) (list_prod us gs) in
  mean us' = (d * mean us)%R /\
  mean (map (fun u => u * u)%R us') = (d * d * mean (map (fun u => u * u)%R us) + w * w)%R /\
  (mean (map (fun u => u * u)%R us') - kT / (m * c) = exp (- 2 * nudt) * (mean (map (fun u => u * u)%R us) - kT / (m * c)))%R.
Proof.
  intros nudt kT m c us gs A B C Hu Hg M1 M2 d w us'.
  pose (S := fold_right Rplus 0%R).
  assert (Nu : INR (length us) <> 0%R) by (apply not_0_INR; destruct us; [contradiction|discriminate]).
  assert (Ng : INR (length gs) <> 0%R) by (apply not_0_INR; destruct gs; [contradiction|discriminate]).
  assert (S1 : S gs = 0%R) by (unfold mean in M1; fold S in M1; apply (Rmult_eq_compat_r (INR (length gs))) in M1; unfold Rdiv in M1; rewrite Rmult_assoc, Rinv_l in M1 by exact Ng; lra).
  assert (S2 : S (map (fun g => g * g)%R gs) = INR (length gs)).
  { unfold mean in M2; fold S in M2. rewrite map_length in M2. apply (Rmult_eq_compat_r (INR (length gs))) in M2. unfold Rdiv in M2; rewrite Rmult_assoc, Rinv_l in M2 by exact Ng; lra. }
  assert (App : forall xs ys, S (xs ++ ys) = (S xs + S ys)%R) by (intros xs ys; unfold S; induction xs as [|x xs IH]; cbn [app fold_right]; [|rewrite IH]; ring).
  assert (T1 : forall u l, S (map (fun ug => lang_step d w (fst ug) (snd ug)) (map (fun y => (u, y)) l)) = (INR (length l) * (d * u) + w * S l)%R).
  { intros u l. induction l as [|g l IH]; [cbn; ring|]. cbn [map S fold_right fst snd]. fold S. rewrite IH. cbn [length]. rewrite S_INR. change (S (g :: l)) with (g + S l)%R. unfold lang_step. ring. }
  assert (T2 : forall u l, S (map (fun u => u * u)%R (map (fun ug => lang_step d w (fst ug) (snd ug)) (map (fun y => (u, y)) l))) =
             (INR (length l) * (d * d * (u * u)) + 2 * d * u * w * S l + w * w * S (map (fun g => g * g)%R l))%R).
  { intros u l. induction l as [|g l IH]; [cbn; ring|]. cbn [map S fold_right fst snd]. fold S. rewrite IH. cbn [length]. rewrite S_INR. change (S (g :: l)) with (g + S l)%R.
    change (S (map (fun g0 => g0 * g0)%R (g :: l))) with (g * g + S (map (fun g0 => g0 * g0)%R l))%R. unfold lang_step. ring. }
  assert (U1 : forall l, S (map (fun ug => lang_step d w (fst ug) (snd ug)) (list_prod l gs)) = (INR (length gs) * d * S l)%R).
  { induction l as [|u l IH]; [cbn; ring|]. cbn [list_prod]. rewrite map_app, App, IH, T1, S1. change (S (u :: l)) with (u + S l)%R. ring. }
  assert (U2 : forall l, S (map (fun u => u * u)%R (map (fun ug => lang_step d w (fst ug) (snd ug)) (list_prod l gs))) = (INR (length gs) * (d * d * S (map (fun u => u * u)%R l) + INR (length l) * (w * w)))%R).
  { induction l as [|u l IH]; [cbn; ring|]. cbn [list_prod]. rewrite !map_app, App, IH, T2, S1, S2. cbn [length]. rewrite S_INR. change (S (map (fun u0 => u0 * u0)%R (u :: l))) with (u * u + S (map (fun u0 => u0 * u0)%R l))%R. ring. }
  assert (Q : mean (map (fun u => u * u)%R us') = (d * d * mean (map (fun u => u * u)%R us) + w * w)%R).
  { unfold mean. fold S. unfold us' at 1. rewrite U2. unfold us'. rewrite !map_length, prod_length, mult_INR. field. tauto. }
  split; [|split; [exact Q|]].
  - unfold mean. fold S. unfold us' at 1. rewrite U1. unfold us'. rewrite !map_length, prod_length, mult_INR. field. tauto.
  - rewrite Q. pose proof (proj1 (C29_fixed_point nudt kT m c A B C)) as Fx. fold d w in Fx. unfold d in *. rewrite decay_sq in *. lra.
Qed.
Print Assumptions C29_ensemble.
Theorem C29_no_friction : forall dt interval kT m c u g,
  lang_step (lang_decay (lang_nudt 0 dt interval)) (lang_drive (lang_nudt 0 dt interval) kT m c) u g = u.
Proof.
  intros. unfold lang_step, lang_decay, lang_drive, lang_nudt.
  replace (0 * IZR interval * dt)%R with 0%R by ring. replace (-2 * 0)%R with 0%R by ring. rewrite Ropp_0, exp_0.
  replace (- (1 - 1) * kT / (m * c))%R with 0%R by (unfold Rdiv; ring). rewrite sqrt_0. ring.
Qed.
Print Assumptions C29_no_friction.
(* nu = ln 2, one unit of time: halves the momentum; variance 1/2 and drive^2 = 3/4 * 2. *)
Example C29_example : lang_decay (lang_nudt (ln 2) 1 1) = (/ 2)%R /\
  (lang_drive (lang_nudt (ln 2) 1 1) 2 1 1 * lang_drive (lang_nudt (ln 2) 1 1) 2 1 1 = 3 / 2)%R.
Proof.
  assert (L : (0 < ln 2)%R) by (rewrite <- ln_1; apply ln_increasing; lra).
  assert (E : lang_nudt (ln 2) 1 1 = ln 2) by (unfold lang_nudt; ring). rewrite E.
  assert (D : lang_decay (ln 2) = (/ 2)%R) by (unfold lang_decay; rewrite exp_Ropp, exp_ln by lra; reflexivity).
  split; [exact D|]. destruct (drive_arg (ln 2) 2 1 1 ltac:(lra) ltac:(lra) ltac:(lra)) as [_ ->].
  rewrite <- decay_sq, D. field.
Qed.
