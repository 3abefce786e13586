(* C33 - C39: random numbers. *)
From Coq Require Import Reals ZArith List Bool Lia Lra ZifyBool Permutation SpecFloat.
From Flocq Require Import BinarySingleNaN.
From Verif Require Import FloatModel FloatProofs RngModel RngProofs ConvProofs PermProofs.
Import ListNotations.
Open Scope Z_scope.

(* ---- C33 ---- *)

(* Value of the conversions for every word (fin32 x r: x is a finite float of value r). *)
Theorem C33_float_values : forall u, 0 <= u < 2 ^ 32 ->
  fin32 (conv_frand u) (IZR (2 * (u / 2 ^ 9) + 1) / 16777216) /\
  fin32 (conv_frand_c0 u) (IZR (u / 2 ^ 8) / 16777216) /\
  fin32 (conv_frand_c1 u) (IZR (u / 2 ^ 8 + 1) / 16777216) /\
  fin32 (conv_frand_c u) (IZR (u / 2 ^ 8 + u mod 2) / 16777216).
Proof.
  intros u Hu. split; [exact (frand_ok u Hu)|]. split; [exact (frand_c0_ok u Hu)|].
  split; [exact (frand_c1_ok u Hu)|exact (frand_c_ok u Hu)].
Qed.
Print Assumptions C33_float_values.

Theorem C33_double_values : forall u, 0 <= u < 2 ^ 64 ->
  fin64 (conv_drand u) (IZR (2 * (u / 2 ^ 12) + 1) / 9007199254740992) /\
  fin64 (conv_drand_c0 u) (IZR (u / 2 ^ 11) / 9007199254740992) /\
  fin64 (conv_drand_c1 u) (IZR (u / 2 ^ 11 + 1) / 9007199254740992) /\
  fin64 (conv_drand_c u) (IZR (u / 2 ^ 11 + u mod 2) / 9007199254740992).
Proof.
  intros u Hu. split; [exact (drand_ok u Hu)|]. split; [exact (drand_c0_ok u Hu)|].
  split; [exact (drand_c1_ok u Hu)|exact (drand_c_ok u Hu)].
Qed.
Print Assumptions C33_double_values.

(* They lie in (0,1), [0,1), (0,1] and [0,1]. *)
Theorem C33_float_intervals : forall u, 0 <= u < 2 ^ 32 ->
  (0 < B2R32 (conv_frand u) < 1 /\ 0 <= B2R32 (conv_frand_c0 u) < 1 /\
   0 < B2R32 (conv_frand_c1 u) <= 1 /\ 0 <= B2R32 (conv_frand_c u) <= 1)%R.
Proof.
  intros u Hu. destruct (C33_float_values u Hu) as ((_ & ->) & (_ & ->) & (_ & ->) & (_ & ->)).
  pose proof (div_bound u 9 23 ltac:(lia) ltac:(lia) ltac:(lia)) as B9.
  pose proof (div_bound u 8 24 ltac:(lia) ltac:(lia) ltac:(lia)) as B8.
  pose proof (Z.mod_pos_bound u 2 ltac:(lia)) as B2.
  assert (G : forall k, 0 <= k -> (0 <= IZR k / 16777216)%R) by (intros k Hk; apply IZR_le in Hk; lra).
  assert (L : forall k, k < 16777216 -> (IZR k / 16777216 < 1)%R) by (intros k Hk; apply IZR_lt in Hk; lra).
  assert (P : forall k, 0 < k -> (0 < IZR k / 16777216)%R) by (intros k Hk; apply IZR_lt in Hk; lra).
  assert (E : forall k, k <= 16777216 -> (IZR k / 16777216 <= 1)%R) by (intros k Hk; apply IZR_le in Hk; lra).
  split; [split; [apply P|apply L]; lia|]. split; [split; [apply G|apply L]; lia|].
  split; [split; [apply P|apply E]; lia|]. split; [apply G|apply E]; lia.
Qed.
Print Assumptions C33_float_intervals.

Theorem C33_double_intervals : forall u, 0 <= u < 2 ^ 64 ->
  (0 < B2R64 (conv_drand u) < 1 /\ 0 <= B2R64 (conv_drand_c0 u) < 1 /\
   0 < B2R64 (conv_drand_c1 u) <= 1 /\ 0 <= B2R64 (conv_drand_c u) <= 1)%R.
Proof.
  intros u Hu. destruct (C33_double_values u Hu) as ((_ & ->) & (_ & ->) & (_ & ->) & (_ & ->)).
  pose proof (div_bound u 12 52 ltac:(lia) ltac:(lia) ltac:(lia)) as B9.
  pose proof (div_bound u 11 53 ltac:(lia) ltac:(lia) ltac:(lia)) as B8.
  pose proof (Z.mod_pos_bound u 2 ltac:(lia)) as B2.
  assert (G : forall k, 0 <= k -> (0 <= IZR k / 9007199254740992)%R) by (intros k Hk; apply IZR_le in Hk; lra).
  assert (L : forall k, k < 9007199254740992 -> (IZR k / 9007199254740992 < 1)%R) by (intros k Hk; apply IZR_lt in Hk; lra).
  assert (P : forall k, 0 < k -> (0 < IZR k / 9007199254740992)%R) by (intros k Hk; apply IZR_lt in Hk; lra).
  assert (E : forall k, k <= 9007199254740992 -> (IZR k / 9007199254740992 <= 1)%R) by (intros k Hk; apply IZR_le in Hk; lra).
  split; [split; [apply P|apply L]; lia|]. split; [split; [apply G|apply L]; lia|].
  split; [split; [apply P|apply E]; lia|]. split; [apply G|apply E]; lia.
Qed.
Print Assumptions C33_double_intervals.

(* Words per lattice point.  In the closed generators the two end points get half. *)
Lemma same_value32 (f : Z -> b32) (g : Z -> Z) u m :
  fin32 (f u) (IZR (g u) / 16777216) -> (B2R32 (f u) = IZR m / 16777216)%R <-> g u = m.
Proof.
  intros [_ ->]. split; [|intros ->; reflexivity]. intros E. apply eq_IZR. lra.
Qed.
Lemma same_value64 (f : Z -> b64) (g : Z -> Z) u m :
  fin64 (f u) (IZR (g u) / 9007199254740992) -> (B2R64 (f u) = IZR m / 9007199254740992)%R <-> g u = m.
Proof.
  intros [_ ->]. split; [|intros ->; reflexivity]. intros E. apply eq_IZR. lra.
Qed.

Theorem C33_float_equidistributed : forall m,
  (0 <= m < 2 ^ 23 ->
   cardinal (fun u => 0 <= u < 2 ^ 32 /\ B2R32 (conv_frand u) = (IZR (2 * m + 1) / 16777216)%R) (2 ^ 9)) /\
  (0 <= m < 2 ^ 24 ->
   cardinal (fun u => 0 <= u < 2 ^ 32 /\ B2R32 (conv_frand_c0 u) = (IZR m / 16777216)%R) (2 ^ 8) /\
   cardinal (fun u => 0 <= u < 2 ^ 32 /\ B2R32 (conv_frand_c1 u) = (IZR (m + 1) / 16777216)%R) (2 ^ 8)) /\
  (0 <= m <= 2 ^ 24 ->
   cardinal (fun u => 0 <= u < 2 ^ 32 /\ B2R32 (conv_frand_c u) = (IZR m / 16777216)%R)
            (if (m =? 0) || (m =? 2 ^ 24) then 2 ^ 7 else 2 ^ 8)).
Proof.
  intros m. split; [|split].
  - intros Hm. apply (cardinal_iff (fun u => 0 <= u < 2 ^ 32 /\ u / 2 ^ 9 = m)); [|apply count_div; lia].
    intros u. split; intros [Hu E]; (split; [exact Hu|]); apply (same_value32 conv_frand _ u) in E || idtac;
      try (apply (same_value32 conv_frand (fun u => 2 * (u / 2 ^ 9) + 1)); [exact (frand_ok u Hu)|lia]).
    apply (same_value32 conv_frand (fun u => 2 * (u / 2 ^ 9) + 1)) in E; [lia|exact (frand_ok u Hu)].
  - intros Hm. split.
    + apply (cardinal_iff (fun u => 0 <= u < 2 ^ 32 /\ u / 2 ^ 8 = m)); [|apply count_div; lia].
      intros u. split; intros [Hu E]; (split; [exact Hu|]).
      * apply (same_value32 conv_frand_c0 (fun u => u / 2 ^ 8)); [exact (frand_c0_ok u Hu)|exact E].
      * apply (same_value32 conv_frand_c0 (fun u => u / 2 ^ 8)) in E; [exact E|exact (frand_c0_ok u Hu)].
    + apply (cardinal_iff (fun u => 0 <= u < 2 ^ 32 /\ u / 2 ^ 8 = m)); [|apply count_div; lia].
      intros u. split; intros [Hu E]; (split; [exact Hu|]).
      * apply (same_value32 conv_frand_c1 (fun u => u / 2 ^ 8 + 1)); [exact (frand_c1_ok u Hu)|lia].
      * apply (same_value32 conv_frand_c1 (fun u => u / 2 ^ 8 + 1)) in E; [lia|exact (frand_c1_ok u Hu)].
  - intros Hm. apply (cardinal_iff (fun u => 0 <= u < 2 ^ 32 /\ u / 2 ^ 8 + u mod 2 = m)); [|apply (count_closed 8 32); lia].
    intros u. split; intros [Hu E]; (split; [exact Hu|]).
    * apply (same_value32 conv_frand_c (fun u => u / 2 ^ 8 + u mod 2)); [exact (frand_c_ok u Hu)|exact E].
    * apply (same_value32 conv_frand_c (fun u => u / 2 ^ 8 + u mod 2)) in E; [exact E|exact (frand_c_ok u Hu)].
Qed.
Print Assumptions C33_float_equidistributed.

Theorem C33_double_equidistributed : forall m,
  (0 <= m < 2 ^ 52 ->
   cardinal (fun u => 0 <= u < 2 ^ 64 /\ B2R64 (conv_drand u) = (IZR (2 * m + 1) / 9007199254740992)%R) (2 ^ 12)) /\
  (0 <= m < 2 ^ 53 ->
   cardinal (fun u => 0 <= u < 2 ^ 64 /\ B2R64 (conv_drand_c0 u) = (IZR m / 9007199254740992)%R) (2 ^ 11) /\
   cardinal (fun u => 0 <= u < 2 ^ 64 /\ B2R64 (conv_drand_c1 u) = (IZR (m + 1) / 9007199254740992)%R) (2 ^ 11)) /\
  (0 <= m <= 2 ^ 53 ->
   cardinal (fun u => 0 <= u < 2 ^ 64 /\ B2R64 (conv_drand_c u) = (IZR m / 9007199254740992)%R)
            (if (m =? 0) || (m =? 2 ^ 53) then 2 ^ 10 else 2 ^ 11)).
Proof.
  intros m. split; [|split].
  - intros Hm. apply (cardinal_iff (fun u => 0 <= u < 2 ^ 64 /\ u / 2 ^ 12 = m)); [|apply count_div; lia].
    intros u. split; intros [Hu E]; (split; [exact Hu|]).
    + apply (same_value64 conv_drand (fun u => 2 * (u / 2 ^ 12) + 1)); [exact (drand_ok u Hu)|lia].
    + apply (same_value64 conv_drand (fun u => 2 * (u / 2 ^ 12) + 1)) in E; [lia|exact (drand_ok u Hu)].
  - intros Hm. split.
    + apply (cardinal_iff (fun u => 0 <= u < 2 ^ 64 /\ u / 2 ^ 11 = m)); [|apply count_div; lia].
      intros u. split; intros [Hu E]; (split; [exact Hu|]).
      * apply (same_value64 conv_drand_c0 (fun u => u / 2 ^ 11)); [exact (drand_c0_ok u Hu)|exact E].
      * apply (same_value64 conv_drand_c0 (fun u => u / 2 ^ 11)) in E; [exact E|exact (drand_c0_ok u Hu)].
    + apply (cardinal_iff (fun u => 0 <= u < 2 ^ 64 /\ u / 2 ^ 11 = m)); [|apply count_div; lia].
      intros u. split; intros [Hu E]; (split; [exact Hu|]).
      * apply (same_value64 conv_drand_c1 (fun u => u / 2 ^ 11 + 1)); [exact (drand_c1_ok u Hu)|lia].
      * apply (same_value64 conv_drand_c1 (fun u => u / 2 ^ 11 + 1)) in E; [lia|exact (drand_c1_ok u Hu)].
  - intros Hm. apply (cardinal_iff (fun u => 0 <= u < 2 ^ 64 /\ u / 2 ^ 11 + u mod 2 = m)); [|apply (count_closed 11 64); lia].
    intros u. split; intros [Hu E]; (split; [exact Hu|]).
    * apply (same_value64 conv_drand_c (fun u => u / 2 ^ 11 + u mod 2)); [exact (drand_c_ok u Hu)|exact E].
    * apply (same_value64 conv_drand_c (fun u => u / 2 ^ 11 + u mod 2)) in E; [exact E|exact (drand_c_ok u Hu)].
Qed.
Print Assumptions C33_double_equidistributed.

(* The integer generators: width w bytes, unsigned (rs = 0) or signed (rs = 1). *)
Theorem C33_integer_range : forall w rs r v n r1,
  w = 1 \/ w = 2 \/ w = 4 \/ w = 8 -> rs = 0 \/ rs = 1 -> rng_next w rs r = (v, n, r1) ->
  0 <= v < 2 ^ (8 * w - rs).
Proof. exact int_range. Qed.
Print Assumptions C33_integer_range.

Theorem C33_signed_equidistributed : forall w m,
  w = 1 \/ w = 2 \/ w = 4 \/ w = 8 -> 0 <= m < 2 ^ (8 * w - 1) ->
  cardinal (fun u => 0 <= u < 2 ^ (8 * w) /\ Z.shiftr u 1 = m) 2.
Proof.
  intros w m Hw Hm. apply (cardinal_iff (fun u => 0 <= u < 2 ^ (8 * w) /\ u / 2 ^ 1 = m)).
  - intros u. rewrite Z.shiftr_div_pow2 by lia. reflexivity.
  - apply (count_div 1); lia.
Qed.
Print Assumptions C33_signed_equidistributed.

Example C33_example_float :
  map (fun f => B2SF (f 0xFFFFFFFF)) [conv_frand; conv_frand_c0; conv_frand_c1; conv_frand_c] =
  [S754_finite false 16777215 (-24); S754_finite false 16777215 (-24);
   S754_finite false 8388608 (-23); S754_finite false 8388608 (-23)] /\
  map (fun f => B2SF (f 0)) [conv_frand; conv_frand_c0; conv_frand_c1; conv_frand_c] =
  [S754_finite false 8388608 (-47); S754_zero false; S754_finite false 8388608 (-47); S754_zero false].
Proof. vm_compute. split; reflexivity. Qed.
Example C33_example_double :
  B2SF (conv_drand (2 ^ 64 - 1)) = S754_finite false 9007199254740991 (-53) /\
  B2SF (conv_drand_c (2 ^ 64 - 1)) = S754_finite false 4503599627370496 (-52).
Proof. vm_compute. split; reflexivity. Qed.

(* ---- C34 ---- *)

(* One draw of w bytes: where it reads; whether it regenerates the block. *)
Theorem C34_one_draw : forall w rs r v n r1,
  w = 1 \/ w = 2 \/ w = 4 \/ w = 8 -> 0 <= nx r <= 1408 -> rng_next w rs r = (v, n, r1) ->
  0 <= n /\ n + w <= 1408 /\ n mod w = 0 /\ nx r1 = n + w /\
  v = Z.shiftr (bytes_value (st r1) n (Z.to_nat w)) rs /\
  ((* same block: the first aligned slot at or after the cursor *)
   (epoch r1 = epoch r /\ st r1 = st r /\ nx r <= n /\
    forall k, nx r <= k -> k mod w = 0 -> n <= k) \/
   (* new block: because no aligned slot was left *)
   (epoch r1 = epoch r + 1 /\ st r1 = sfmt_next (st r) /\ n = 0 /\
    forall k, nx r <= k -> k mod w = 0 -> 1408 < k + w)).
Proof. exact next_spec. Qed.
Print Assumptions C34_one_draw.

(* Any sequence of draws: in bounds, aligned, and each draw uses only bytes after
   those of all earlier draws (blocks are numbered by d_epoch). *)
Theorem C34_no_byte_twice : forall ops r l r',
  (forall w rs, In (w, rs) ops -> w = 1 \/ w = 2 \/ w = 4 \/ w = 8) -> 0 <= nx r <= 1408 ->
  draws ops r = (l, r') ->
  0 <= nx r' <= 1408 /\ map d_width l = map fst ops /\
  Forall (fun d => 0 <= d_off d /\ d_off d + d_width d <= 1408 /\ d_off d mod d_width d = 0 /\
                   (epoch r < d_epoch d \/ epoch r = d_epoch d /\ nx r <= d_off d)) l /\
  ForallOrdPairs (fun a b => d_epoch a < d_epoch b \/
                             d_epoch a = d_epoch b /\ d_off a + d_width a <= d_off b) l.
Proof. exact draws_ok. Qed.
Print Assumptions C34_no_byte_twice.

Example C34_example :
  let '(l, r') := draws [(1, 0); (8, 1); (2, 0); (4, 0); (8, 0)] (mk_rng (fun i => i) 1390 3) in
  map (fun d => (d_epoch d, d_off d, d_width d)) l =
  [(3, 1390, 1); (3, 1392, 8); (3, 1400, 2); (3, 1404, 4); (4, 0, 8)] /\ nx r' = 8.
Proof. vm_compute. split; reflexivity. Qed.

(* ---- C35 ---- *)

(* certified p u: the number of set bits of u under the masks p is odd. *)
Theorem C35_adjust : forall p u,
  length u = length p -> Forall word u -> Forall word p -> Exists (fun q => q <> 0) p ->
  certified p (adjust p u) /\ length (adjust p u) = length u /\ Forall word (adjust p u) /\
  (certified p u -> adjust p u = u) /\
  (~ certified p u -> exists i b, (i < length u)%nat /\ 0 <= b < 32 /\
       adjust p u = set_at u i (Z.lxor (nthZ u i) (2 ^ b))) /\
  adjust p (adjust p u) = adjust p u.
Proof. exact adjust_ok. Qed.
Print Assumptions C35_adjust.

Theorem C35_seed_certified : forall seed,
  length (seed_state seed) = 352%nat /\ Forall word (seed_state seed) /\
  certified SFMT_PARITY (firstn 4 (seed_state seed)).
Proof. exact seed_ok. Qed.
Print Assumptions C35_seed_certified.

Example C35_example :
  parity_bit SFMT_PARITY [0; 0; 0; 0] = 0 /\ adjust SFMT_PARITY [0; 0; 0; 0] = [1; 0; 0; 0] /\
  adjust SFMT_PARITY [2; 5; 0x8000; 0] = [2; 5; 0x8000; 0] /\
  adjust [0; 0x30; 0; 0] [7; 7; 7; 7] = [7; 7 + 16; 7; 7] /\
  firstn 2 (seed_state 5489) = [5488; 1301868182].
Proof. vm_compute. repeat split. Qed.

(* ---- C36 ---- *)

(* Seeds of unsynchronised pools of n_rng generators in a world of ws ranks. *)
Theorem C36_unsync_seeds_distinct : forall ws n_rng, 1 <= n_rng ->
  forall ra rb sa sb la lb i j,
  0 <= ra < ws -> 0 <= rb < ws ->
  pool_seeds ws ra n_rng false sa = Some la -> pool_seeds ws rb n_rng false sb = Some lb ->
  (i < Z.to_nat n_rng)%nat -> (j < Z.to_nat n_rng)%nat ->
  nthZ la i = nthZ lb j -> ra = rb /\ sa = sb /\ i = j.
Proof. exact pool_unsync. Qed.
Print Assumptions C36_unsync_seeds_distinct.

Theorem C36_sync_seeds_same : forall ws n_rng ra rb s,
  pool_seeds ws ra n_rng true s = pool_seeds ws rb n_rng true s.
Proof. exact pool_sync. Qed.
Print Assumptions C36_sync_seeds_same.

Theorem C36_sync_unsync_disjoint : forall ws na nb ra rb sa sb la lb i j,
  1 <= na -> 1 <= nb -> 0 <= ra < ws -> 0 <= rb < ws ->
  pool_seeds ws ra na false sa = Some la -> pool_seeds ws rb nb true sb = Some lb ->
  (i < Z.to_nat na)%nat -> (j < Z.to_nat nb)%nat -> nthZ la i <> nthZ lb j.
Proof. exact pool_mixed. Qed.
Print Assumptions C36_sync_unsync_disjoint.

(* Different seeds give different generator states. *)
Theorem C36_states_distinct : forall ws n_rng, 1 <= n_rng ->
  forall ra rb sa sb la lb i j,
  0 <= ra < ws -> 0 <= rb < ws ->
  pool_seeds ws ra n_rng false sa = Some la -> pool_seeds ws rb n_rng false sb = Some lb ->
  (i < Z.to_nat n_rng)%nat -> (j < Z.to_nat n_rng)%nat ->
  seed_state (nthZ la i) = seed_state (nthZ lb j) -> ra = rb /\ sa = sb /\ i = j.
Proof. exact pool_states. Qed.
Print Assumptions C36_states_distinct.

(* With pools of different sizes, different user seeds can collide. *)
Theorem C36_pool_sizes_differ_refuted :
  exists ws r na nb sa sb la lb i j,
    0 <= r < ws /\ na <> nb /\ sa <> sb /\
    pool_seeds ws r na false sa = Some la /\ pool_seeds ws r nb false sb = Some lb /\
    (i < length la)%nat /\ (j < length lb)%nat /\ nthZ la i = nthZ lb j.
Proof.
  exists 4, 1, 2, 4, 2, 1, [1 + 5 * 4; 1 + 5 * 5], [1 + 5 * 4; 1 + 5 * 5; 1 + 5 * 6; 1 + 5 * 7], 0%nat, 0%nat.
  vm_compute. repeat split; try discriminate; repeat constructor.
Qed.
Print Assumptions C36_pool_sizes_differ_refuted.

Example C36_example :
  pool_seeds 4 0 3 false 7 = Some [105; 110; 115] /\ pool_seeds 4 3 3 false 7 = Some [108; 113; 118] /\
  pool_seeds 4 0 3 true 7 = Some [109; 114; 119] /\ pool_seeds 1024 0 64 false 40000 = None.
Proof. vm_compute. repeat split. Qed.

(* ---- C37 ---- *)

(* zseq n = [0; ...; n - 1] *)
Theorem C37_permutation : forall n ws x rest,
  0 <= n < 2 ^ 31 -> Forall word ws -> randperm n ws = Done x rest ->
  Permutation (zseq n) x /\ Forall word rest.
Proof. exact randperm_ok. Qed.
Print Assumptions C37_permutation.

(* Uniformity: every permutation is the result for equally many sequences of
   accepted words, the product of (2^32-1)/m for m = 2, ..., n. *)
Theorem C37_uniform : forall n p, 1 <= n <= 2 ^ 30 -> Permutation (zseq n) p ->
  cardinal (fun ws => Forall word ws /\ Z.of_nat (length ws) = n - 1 /\ randperm n ws = Done p [])
           (ways (Z.to_nat (n - 1))).
Proof. exact randperm_uniform. Qed.
Print Assumptions C37_uniform.

Theorem C37_draw_uniform : forall m o, 2 <= m < 2 ^ 31 -> 0 <= o < m ->
  cardinal (fun a => 0 <= a < 2 ^ 32 /\ a / ((2 ^ 32 - 1) / m) = o) ((2 ^ 32 - 1) / m).
Proof. exact draw_count. Qed.
Print Assumptions C37_draw_uniform.

(* At most half of the words are rejected in each draw. *)
Theorem C37_rejections : forall m, 2 <= m < 2 ^ 31 ->
  cardinal (fun a => 0 <= a < 2 ^ 32 /\ m <= a / ((2 ^ 32 - 1) / m)) (2 ^ 32 - m * ((2 ^ 32 - 1) / m)) /\
  2 * (2 ^ 32 - m * ((2 ^ 32 - 1) / m)) <= 2 ^ 32.
Proof. exact reject_count. Qed.
Print Assumptions C37_rejections.

(* No int overflow up to 2^30 elements ... *)
Theorem C37_no_overflow : forall n ws, 0 <= n <= 2 ^ 30 -> Forall word ws -> randperm n ws <> Undef.
Proof. exact randperm_no_undef. Qed.
Print Assumptions C37_no_overflow.

(* ... but for the largest int the sum i + a/d overflows: in iteration i = 1 (n - i =
   2^31 - 2, d = 2) for the word 2^32 - 1. *)
Theorem C37_overflow_refuted :
  exists i n a, 0 <= i < n - 1 /\ n < 2 ^ 31 /\ word a /\
    perm_draw ((2 ^ 32 - 1) / (n - i)) i n [a] = Undef.
Proof.
  exists 1, (2 ^ 31 - 1), (2 ^ 32 - 1). split; [lia|]. split; [lia|]. split; [unfold word; lia|]. reflexivity.
Qed.
Print Assumptions C37_overflow_refuted.

Example C37_example :
  randperm 4 [0x90000000; 0xFFFFFFFF; 0x20000000; 0xC0000000; 5] = Done [2; 1; 3; 0] [5] /\
  randperm 1 [] = Done [0] [] /\ randperm 3 [0] = More /\ ways 3 = 1073741823 * 1431655765 * 2147483647.
Proof. vm_compute. repeat split. Qed.

(* ---- C38 ---- *)

(* Elements of sz bytes every str bytes: the shuffle permutes them and touches nothing
   else.  It never divides by zero. *)
Theorem C38_shuffle_permutes : forall sz str n m ws, 0 <= sz <= str -> 0 <= n < 2 ^ 64 ->
  shuffle sz str n m ws <> Undef /\
  forall m' rest, shuffle sz str n m ws = Done m' rest ->
    exists s, Permutation (zseq n) s /\
      (forall e k, 0 <= e < n -> 0 <= k < sz -> m' (e * str + k) = m (nthZ s (Z.to_nat e) * str + k)) /\
      (forall q, (forall e k, 0 <= e < n -> 0 <= k < sz -> q <> e * str + k) -> m' q = m q).
Proof. exact shuffle_ok. Qed.
Print Assumptions C38_shuffle_permutes.

(* Two elements are exchanged for exactly one of the 2^32 low halves of the word. *)
Theorem C38_two_elements : forall sz str m w, 1 <= sz <= str -> 0 <= w < 2 ^ 64 ->
  exists m', shuffle sz str 2 m [w] = Done m' [] /\
  forall q, m' q =
    if w mod 2 ^ 32 =? 2 ^ 32 - 1 then
      (if (0 <=? q) && (q <? 0 + sz) then m (q - 0 + str)
       else if (str <=? q) && (q <? str + sz) then m (q - str + 0) else m q)
    else m q.
Proof. exact shuffle_two. Qed.
Print Assumptions C38_two_elements.

(* How many low halves give offset o when m elements are left. *)
Theorem C38_offset_counts : forall m o, 1 <= m < 2 ^ 64 -> 0 <= o ->
  cardinal (fun a => 0 <= a < 2 ^ 32 /\ a / shuffle_d m = o)
           (Z.max 0 (Z.min (2 ^ 32) ((o + 1) * shuffle_d m) - o * shuffle_d m)).
Proof. exact shuffle_count. Qed.
Print Assumptions C38_offset_counts.

(* Not every permutation can come out: of six elements only the first two can end up
   in front. *)
Theorem C38_six_elements : forall sz str m ws m' rest, 1 <= sz <= str -> shuffle sz str 6 m ws = Done m' rest ->
  (forall k, 0 <= k < sz -> m' k = m k) \/ (forall k, 0 <= k < sz -> m' k = m (str + k)).
Proof. exact shuffle_six. Qed.
Print Assumptions C38_six_elements.

Theorem C38_uniform_refuted :
  exists m o1 o2 c1 c2, 0 <= o1 < m /\ 0 <= o2 < m /\ c1 <> c2 /\
    cardinal (fun a => 0 <= a < 2 ^ 32 /\ a / shuffle_d m = o1) c1 /\
    cardinal (fun a => 0 <= a < 2 ^ 32 /\ a / shuffle_d m = o2) c2.
Proof.
  exists 2, 0, 1, (2 ^ 32 - 1), 1. split; [lia|]. split; [lia|]. split; [lia|].
  split; [exact (shuffle_count 2 0 ltac:(lia) ltac:(lia))|exact (shuffle_count 2 1 ltac:(lia) ltac:(lia))].
Qed.
Print Assumptions C38_uniform_refuted.

Example C38_example :
  match shuffle 2 3 3 (fun q => q) [2 ^ 32 + 0xAAAAAAAA; 0x5555555FFFFFFFF] with
  | Done m rest => map m [0; 1; 2; 3; 4; 5; 6; 7; 8] = [6; 7; 2; 0; 1; 5; 3; 4; 8] /\ rest = []
  | _ => False
  end.
Proof. vm_compute. repeat split. Qed.

(* ---- C39 ---- *)

(* Sign, index and lattice value as functions of the bits 0, 1-6 and 7-31. *)
Theorem C39_frandn_split : forall a, 0 <= a < 2 ^ 32 ->
  frandn_s a = a mod 2 /\ frandn_i a = (a / 2) mod 64 /\
  frandn_j a = 256 * ((a / 256 + (a / 128) mod 2) mod 2 ^ 24).
Proof. exact frandn_parts. Qed.
Print Assumptions C39_frandn_split.

(* The table accesses i and i+1 are inside the tables of 65 (257) entries. *)
Theorem C39_table_in_bounds : forall a,
  (0 <= a < 2 ^ 32 -> 0 <= frandn_i a /\ frandn_i a + 1 < 65 /\ 0 <= frandn_j a < 2 ^ 32 /\ 0 <= frandn_s a < 2) /\
  (0 <= a < 2 ^ 64 -> 0 <= drandn_i a /\ drandn_i a + 1 < 257 /\ 0 <= drandn_j a < 2 ^ 64 /\ 0 <= drandn_s a < 2).
Proof.
  intros a. split; intros Ha.
  - destruct (frandn_parts a Ha) as (-> & -> & ->).
    pose proof (Z.mod_pos_bound a 2 ltac:(lia)). pose proof (Z.mod_pos_bound (a / 2) 64 ltac:(lia)).
    pose proof (Z.mod_pos_bound (a / 256 + (a / 128) mod 2) (2 ^ 24) ltac:(lia)). lia.
  - destruct (drandn_parts a Ha) as (-> & -> & ->).
    pose proof (Z.mod_pos_bound a 2 ltac:(lia)). pose proof (Z.mod_pos_bound (a / 2) 256 ltac:(lia)).
    pose proof (Z.mod_pos_bound (a / 1024 + 2 * ((a / 1024) mod 2)) (2 ^ 54) ltac:(lia)). lia.
Qed.
Print Assumptions C39_table_in_bounds.

(* Sign, index and lattice value are independent and exactly uniform: each combination
   comes from two words.  (The lattice value is not the "trapezoid" of the comments.) *)
Theorem C39_frandn_uniform : forall s i k, 0 <= s < 2 -> 0 <= i < 64 -> 0 <= k < 2 ^ 24 ->
  cardinal (fun a => 0 <= a < 2 ^ 32 /\ frandn_s a = s /\ frandn_i a = i /\ frandn_j a = 256 * k) 2.
Proof. exact frandn_count. Qed.
Print Assumptions C39_frandn_uniform.

(* The largest lattice value wraps to zero exactly when bits 7 to 31 are all set. *)
Theorem C39_frandn_wraps : forall a, 0 <= a < 2 ^ 32 ->
  (frandn_j a < a - a mod 256 <-> a / 128 = 2 ^ 25 - 1) /\ (a / 128 = 2 ^ 25 - 1 -> frandn_j a = 0).
Proof.
  intros a Ha. destruct (frandn_parts a Ha) as (_ & _ & E). rewrite E.
  pose proof (Z.div_mod a 256 ltac:(lia)). pose proof (Z.mod_pos_bound a 256 ltac:(lia)).
  assert (A2 : a / 128 = 2 * (a / 256) + (a / 128) mod 2).
  { pose proof (Z.div_mod (a / 128) 2 ltac:(lia)) as D. rewrite Z.div_div in D by lia. exact D. }
  pose proof (Z.mod_pos_bound (a / 128) 2 ltac:(lia)).
  set (b := (a / 128) mod 2) in *. set (h := a / 256) in *.
  assert (0 <= h < 2 ^ 24) by lia.
  destruct (Z.eq_dec (h + b) (2 ^ 24)) as [Q|Q].
  - rewrite Q. change (2 ^ 24 mod 2 ^ 24) with 0. lia.
  - rewrite Z.mod_small by lia. lia.
Qed.
Print Assumptions C39_frandn_wraps.

Theorem C39_drandn_split : forall a, 0 <= a < 2 ^ 64 ->
  drandn_s a = a mod 2 /\ drandn_i a = (a / 2) mod 256 /\
  drandn_j a = 1024 * ((a / 1024 + 2 * ((a / 1024) mod 2)) mod 2 ^ 54).
Proof. exact drandn_parts. Qed.
Print Assumptions C39_drandn_split.

Theorem C39_drandn_uniform : forall s i k, 0 <= s < 2 -> 0 <= i < 256 -> 0 <= k < 2 ^ 54 ->
  cardinal (fun a => 0 <= a < 2 ^ 64 /\ drandn_s a = s /\ drandn_i a = i /\ drandn_j a = 1024 * k) 2.
Proof. exact drandn_count. Qed.
Print Assumptions C39_drandn_uniform.

(* In drandn the two masks overlap in bit 10, so the sum carries, and bit 9 is unused. *)
Theorem C39_drandn_masks_refuted :
  exists a, 0 <= a < 2 ^ 64 /\ Z.land 0x400 (2 ^ 64 - 1 - 0x3ff) <> 0 /\
    drandn_j a = Z.land a (2 ^ 64 - 1 - 0x3ff) + 0x800 /\
    drandn_j (a + 0x200) = drandn_j a /\ drandn_j (0xFFFFFFFFFFFFFC00) = 0x400.
Proof. exists 0x400. vm_compute. repeat split; discriminate. Qed.
Print Assumptions C39_drandn_masks_refuted.

Example C39_example :
  (frandn_s 0x123456FF, frandn_i 0x123456FF, frandn_j 0x123456FF) = (1, 63, 0x12345700) /\
  (frandn_s 0xFFFFFF80, frandn_i 0xFFFFFF80, frandn_j 0xFFFFFF80) = (0, 0, 0) /\
  (drandn_s 0x1234567890ABCDEF, drandn_i 0x1234567890ABCDEF, drandn_j 0x1234567890ABCDEF) = (1, 247, 0x1234567890ABD400).
Proof. vm_compute. repeat split. Qed.
