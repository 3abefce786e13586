(* C76: the helpers of an input deck: uniform random numbers and the sizes of a species, /repo/src/vpic/vpic.h. *)
From Coq Require Import Reals Lra ZArith Bool Lia.
From Flocq Require Import Core IEEE754.BinarySingleNaN.
From Verif Require Import FloatModel FloatProofs DistributeModel RngModel InjectModel InjectProofs HelperModel HelperProofs.
Open Scope Z_scope.

(* For every 64-bit word the generator gives and every low < high that are not almost equal, uniform returns a number of the
   closed interval [low, high]. *)
Theorem C76_uniform_closed : forall u low high a b, 0 <= u < 2 ^ 64 -> fin64 low a -> fin64 high b ->
  (Rabs a <= bpow radix2 1000)%R -> (Rabs b <= bpow radix2 1000)%R ->
  (Rmax (Rabs a) (Rabs b) * bpow radix2 (-52) <= b - a)%R -> (bpow radix2 (-1000) <= b - a)%R ->
  exists r, fin64 (uniform u low high) r /\ (a <= r <= b)%R.
Proof.
  intros u low high a b H A B LA LB G G2. eexists. split; [apply (uniform_R u low high a b); eassumption|].
  pose proof (tof_bound u H) as T. pose proof U_pos as UP. rewrite U2 in G.
  pose proof (Rmax_l (Rabs a) (Rabs b)). pose proof (Rmax_r (Rabs a) (Rabs b)).
  assert (GA : (Rabs a * (2 * U) <= b - a)%R) by (apply Rle_trans with (2 := G); apply Rmult_le_compat_r; lra).
  assert (GB : (Rabs b * (2 * U) <= b - a)%R) by (apply Rle_trans with (2 := G); apply Rmult_le_compat_r; lra).
  split.
  - apply lower; [exact (fin64_F _ _ A)|lra|lra|exact GB|exact G2].
  - apply upper; [exact (fin64_F _ _ B)|lra|lra|exact GA|exact G2].
Qed.
Print Assumptions C76_uniform_closed.

(* Its distance from low + t*(high-low), where t = (2*floor(u/2^12)+1)/2^53, is a few units in the last place. *)
Theorem C76_uniform_accurate : forall u low high a b M, 0 <= u < 2 ^ 64 -> fin64 low a -> fin64 high b ->
  (Rabs a <= M)%R -> (Rabs b <= M)%R -> (M <= bpow radix2 1000)%R ->
  let t := (IZR (2 * (u / 2 ^ 12) + 1) * bpow radix2 (-53))%R in
  (0 < t < 1)%R /\
  exists r, fin64 (uniform u low high) r /\ (Rabs (r - (a + t * (b - a))) <= 3 * M * bpow radix2 (-53) + 4 * bpow radix2 (-1075))%R.
Proof.
  intros u low high a b M H A B LA LB LM t. pose proof (tof_bound u H) as T. pose proof U_pos as UP. fold (tof u) in t.
  split; [unfold t; lra|]. eexists. split; [apply (uniform_R u low high a b); try eassumption; lra|].
  replace (a + t * (b - a))%R with (a * (1 - tof u) + b * tof u)%R by (unfold t; ring).
  apply accuracy; lra.
Qed.
Print Assumptions C76_uniform_accurate.

(* The interval is open, as the comment says, when low is 0. *)
Theorem C76_uniform_open : forall u high b, 0 <= u < 2 ^ 64 -> fin64 high b -> (bpow radix2 (-900) <= b <= bpow radix2 1000)%R ->
  exists r, fin64 (uniform u (d_of_Z 0) high) r /\ (0 < r < b)%R.
Proof.
  intros u high b H B L. pose proof (bpow_gt_0 radix2 (-900)). eexists.
  split; [apply (uniform_R u (d_of_Z 0) high 0 b H); [split; reflexivity|exact B|rewrite Rabs_R0; apply bpow_ge_0|rewrite Rabs_pos_eq by lra; lra]|].
  apply open_zero; [lra|]. exact (tof_bound u H).
Qed.
Print Assumptions C76_uniform_open.

(* It is not open in general, which the comment asks (FIXME, vpic.h:596): both ends of [1,2] are returned. *)
Theorem C76_uniform_open_refuted : exists u u' low high, 0 <= u < 2 ^ 64 /\ 0 <= u' < 2 ^ 64 /\ d_lt low high = true /\
  uniform u low high = low /\ uniform u' low high = high.
Proof.
  exists 0, (2 ^ 64 - 1), (d_of_Z 1), (d_of_Z 2). do 2 (split; [lia|]). split; [vm_compute; reflexivity|].
  split; apply B2SF_inj; vm_compute; reflexivity.
Qed.
Print Assumptions C76_uniform_open_refuted.

(* and a deck that loads a rank with uniform( rng, x0, x1 ) loses the particle: inject_particle takes x = x1 for a particle of
   the neighbour, which does not draw it. *)
Theorem C76_uniform_dropped_refuted : exists u e, 0 <= u < 2 ^ 64 /\
  d_lt (ParticleModel.f2d (e_lo e)) (ParticleModel.f2d (e_hi e)) = true /\
  outside e true (uniform u (ParticleModel.f2d (e_lo e)) (ParticleModel.f2d (e_hi e))) = true.
Proof. exists (2 ^ 64 - 1), (mk_extent 4 (f_of_Z 1) (f_of_Z 2)). split; [lia|]. split; vm_compute; reflexivity. Qed.
Print Assumptions C76_uniform_dropped_refuted.

(* The condition that low and high are not almost equal is needed: with low = high = 1/3 the result can be less than both. *)
Theorem C76_uniform_degenerate_refuted : exists u low, 0 <= u < 2 ^ 64 /\ d_lt (uniform u low low) low = true.
Proof. exists (1000079607182271 * 2 ^ 12), (d_div (d_of_Z 1) (d_of_Z 3)). split; [lia|]. vm_compute. reflexivity. Qed.
Print Assumptions C76_uniform_degenerate_refuted.

(* define_species with whole numbers below 2^31: the arrays have the sizes the deck asks for, at least 1, and the capacities
   recorded in the species are those of the arrays. *)
Theorem C76_species_sizes : forall np nm n m, fin64 np (IZR n) -> fin64 nm (IZR m) -> 0 <= n < 2 ^ 31 -> 0 <= m < 2 ^ 31 ->
  define_species np nm = Some (mk_sizes (Z.max 1 n) (Z.max 1 m) (Z.max 1 n) (Z.max 1 m)).
Proof. exact given_nm. Qed.
Print Assumptions C76_species_sizes.

(* With a negative number of movers: 2/25 of the particles, at least 16 for each pipeline and the host. *)
Theorem C76_species_movers : forall np nm n c, fin64 np (IZR n) -> fin64 nm c -> (c < 0)%R -> 0 <= n < 2 ^ 31 ->
  define_species np nm = Some (mk_sizes (Z.max 1 n) (Z.max (16 * 273) (2 * n / 25)) (Z.max 1 n) (Z.max (16 * 273) (2 * n / 25))).
Proof. exact derived_nm. Qed.
Print Assumptions C76_species_movers.

(* For 2^31 particles, which size_t and the allocator can hold, the recorded capacity is negative; a negative number of
   particles is undefined although species() would raise it to 1. *)
Theorem C76_species_refuted :
  (exists np nm s, fin64 np (IZR (2 ^ 31)) /\ define_species np nm = Some s /\ alloc_p s = 2 ^ 31 /\ max_np s = - 2 ^ 31) /\
  (exists np nm, fin64 np (-1) /\ define_species np nm = None).
Proof.
  split.
  - exists (d_of_Z (2 ^ 31)), (d_of_Z 16), (species_sizes (2 ^ 31) 16). split; [apply ConvProofs.fin64_Z; lia|]. split; [vm_compute; reflexivity|]. split; reflexivity.
  - exists (d_of_Z (-1)), (d_of_Z 1). split; [apply (ConvProofs.fin64_Z (-1)); lia|]. vm_compute. reflexivity.
Qed.
Print Assumptions C76_species_refuted.

Example uniform_example : uniform (2 ^ 63) (d_of_Z (-4)) (d_of_Z 4) = d_div (d_of_Z 1) (d_of_Z (2 ^ 50)).
Proof. apply B2SF_inj. vm_compute. reflexivity. Qed.
Example uniform_ends_example : d_lt (d_of_Z 3) (uniform 0 (d_of_Z 3) (d_of_Z 100)) = true /\ d_lt (uniform (2 ^ 64 - 1) (d_of_Z 3) (d_of_Z 100)) (d_of_Z 100) = true.
Proof. split; vm_compute; reflexivity. Qed.
Example species_example : define_species (d_of_Z 100000) (d_of_Z (-1)) = Some (mk_sizes 100000 8000 100000 8000) /\
  define_species (d_of_Z 1000) (d_of_Z (-1)) = Some (mk_sizes 1000 4368 1000 4368) /\
  define_species (d_of_Z 0) (d_of_Z 7) = Some (mk_sizes 1 7 1 7).
Proof. repeat split; vm_compute; reflexivity. Qed.
