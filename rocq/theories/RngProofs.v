From Coq Require Import ZArith List Bool Lia ZifyBool Znumtheory Permutation Ring.
From Verif Require Import RngModel.
Import ListNotations.
Open Scope Z_scope.

Lemma testbit_high x n b : 0 <= x < 2 ^ b -> b <= n -> Z.testbit x n = false.
Proof.
  intros Hx Hn. destruct (Z.eq_dec x 0) as [->|H]; [apply Z.bits_0|].
  destruct (Z.lt_ge_cases b 0) as [Hb|Hb]; [rewrite Z.pow_neg_r in Hx by lia; lia|].
  apply Z.bits_above_log2; [lia|]. apply Z.lt_le_trans with b; [|lia]. apply Z.log2_lt_pow2; lia.
Qed.

Lemma mask_floor b x k : 0 <= b -> 0 <= x < 2 ^ b -> 0 <= k ->
  Z.land x ((Z.lnot (2 ^ k - 1)) mod 2 ^ b) = x - x mod 2 ^ k.
Proof.
  intros Hb Hx Hk. rewrite <- Z.land_ones by lia. rewrite Z.sub_1_r, <- Z.ones_equiv.
  assert (E : Z.land x (Z.land (Z.lnot (Z.ones k)) (Z.ones b)) = Z.ldiff x (Z.ones k)).
  { apply Z.bits_inj'. intros i Hi. rewrite !Z.land_spec, Z.ldiff_spec, Z.lnot_spec by lia.
    destruct (Z.ltb_spec i b) as [L|L].
    - rewrite (Z.ones_spec_low b) by lia. rewrite andb_true_r. reflexivity.
    - rewrite (testbit_high x i b) by lia. reflexivity. }
  rewrite E, Z.ldiff_ones_r, Z.shiftl_mul_pow2, Z.shiftr_div_pow2 by lia.
  assert (0 < 2 ^ k) by (apply Z.pow_pos_nonneg; lia).
  pose proof (Z.div_mod x (2 ^ k)). lia.
Qed.

(* ---------- the buffer ---------- *)

Definition width (w : Z) : Prop := w = 1 \/ w = 2 \/ w = 4 \/ w = 8.

(* round up to a multiple of w *)
Lemma aligned_n n w : width w -> 0 <= n <= 1408 ->
  let n0 := Z.land (u32 (n + w - 1)) (u32 (Z.lnot (w - 1))) in
  n <= n0 < n + w /\ n0 mod w = 0.
Proof.
  intros Hw Hn n0. assert (exists k, 0 <= k <= 3 /\ w = 2 ^ k) as (k & Hk & E).
  { destruct Hw as [->|[->|[->| ->]]]; [exists 0|exists 1|exists 2|exists 3]; split; lia || reflexivity. }
  assert (1 <= w <= 8) by (destruct Hw as [->|[->|[->| ->]]]; lia).
  assert (En : n0 = n + w - 1 - (n + w - 1) mod w).
  { unfold n0, u32. rewrite (Z.mod_small (n + w - 1)) by lia. subst w. rewrite mask_floor by lia. reflexivity. }
  rewrite En. pose proof (Z.mod_pos_bound (n + w - 1) w ltac:(lia)).
  split; [lia|]. rewrite Zminus_mod_idemp_r, Z.sub_diag. apply Z.mod_0_l. lia.
Qed.

Lemma slot_unique n n0 k w : 0 < w -> n <= n0 < n + w -> n0 mod w = 0 -> n <= k -> k mod w = 0 -> n0 <= k.
Proof.
  intros Hw H1 H2 H3 H4. apply Z.mod_divide in H2; [|lia]. apply Z.mod_divide in H4; [|lia].
  destruct H2 as [a ->], H4 as [b ->]. assert (a * w < (b + 1) * w) by lia.
  assert (a < b + 1) by nia. nia.
Qed.

Lemma nc_mod w : width w -> SFMT_NC mod w = 0.
Proof. intros [->|[->|[->| ->]]]; reflexivity. Qed.

Lemma next_spec w rs r v n r1 : width w -> 0 <= nx r <= SFMT_NC -> rng_next w rs r = (v, n, r1) ->
  0 <= n /\ n + w <= SFMT_NC /\ n mod w = 0 /\ nx r1 = n + w /\
  v = Z.shiftr (bytes_value (st r1) n (Z.to_nat w)) rs /\
  ((epoch r1 = epoch r /\ st r1 = st r /\ nx r <= n /\
    forall k, nx r <= k -> k mod w = 0 -> n <= k) \/
   (epoch r1 = epoch r + 1 /\ st r1 = sfmt_next (st r) /\ n = 0 /\
    forall k, nx r <= k -> k mod w = 0 -> SFMT_NC < k + w)).
Proof.
  intros Hw Hn E. unfold rng_next in E.
  assert (Hw8 : 1 <= w <= 8) by (destruct Hw as [->|[->|[->| ->]]]; lia).
  pose proof (aligned_n (nx r) w Hw Hn) as A. cbv zeta in A.
  set (n0 := Z.land (u32 (nx r + w - 1)) (u32 (Z.lnot (w - 1)))) in *. destruct A as [A1 A2].
  destruct (Z.leb_spec SFMT_NC n0) as [L|L]; injection E as <- <- <-; cbn [nx st epoch].
  - unfold SFMT_NC in *. split; [lia|]. split; [lia|]. split; [apply Z.mod_0_l; lia|].
    split; [unfold u32; rewrite Z.mod_small by lia; lia|]. split; [reflexivity|]. right.
    split; [reflexivity|]. split; [reflexivity|]. split; [reflexivity|]. intros k H1 H2.
    pose proof (slot_unique _ _ k w ltac:(lia) A1 A2 H1 H2). lia.
  - assert (n0 + w <= SFMT_NC).
    { pose proof (nc_mod w Hw) as H. apply Z.mod_divide in H; [|lia]. apply Z.mod_divide in A2; [|lia].
      destruct H as [a Ha], A2 as [b Hb]. rewrite Ha, Hb in *. assert (b < a) by nia. nia. }
    unfold SFMT_NC in *. split; [lia|]. split; [lia|]. split; [exact A2|].
    split; [unfold u32; rewrite Z.mod_small by lia; lia|]. split; [reflexivity|]. left.
    split; [reflexivity|]. split; [reflexivity|]. split; [lia|]. intros k H1 H2.
    apply (slot_unique _ _ k w ltac:(lia) A1 A2 H1 H2).
Qed.

(* d is in bounds and aligned, and uses bytes from (e, n) on *)
Definition draw_ok (e n : Z) (d : draw) : Prop :=
  0 <= d_off d /\ d_off d + d_width d <= SFMT_NC /\ d_off d mod d_width d = 0 /\
  (e < d_epoch d \/ e = d_epoch d /\ n <= d_off d).
(* all bytes of a come before all bytes of b *)
Definition before (a b : draw) : Prop :=
  d_epoch a < d_epoch b \/ d_epoch a = d_epoch b /\ d_off a + d_width a <= d_off b.

Lemma draws_ok ops : forall r l r', (forall w rs, In (w, rs) ops -> width w) -> 0 <= nx r <= SFMT_NC ->
  draws ops r = (l, r') ->
  0 <= nx r' <= SFMT_NC /\ map d_width l = map fst ops /\
  Forall (draw_ok (epoch r) (nx r)) l /\ ForallOrdPairs before l.
Proof.
  induction ops as [|[w rs] ops IH]; intros r l r' Hw Hn H; cbn [draws] in H.
  - injection H as <- <-. split; [exact Hn|]. split; [reflexivity|]. split; constructor.
  - destruct (rng_next w rs r) as [[v n] r1] eqn:E. destruct (draws ops r1) as [l1 r2] eqn:E2.
    injection H as <- <-.
    assert (Hw1 : width w) by (apply (Hw w rs); left; reflexivity).
    destruct (next_spec _ _ _ _ _ _ Hw1 Hn E) as (H1 & H2 & H3 & H4 & _ & H5).
    assert (Hw8 : 1 <= w <= 8) by (destruct Hw1 as [->|[->|[->| ->]]]; lia).
    destruct (IH r1 l1 r2) as (I1 & I2 & I3 & I4); [intros w' rs' Hin; apply (Hw w' rs'); right; exact Hin|lia|exact E2|].
    split; [exact I1|]. split; [cbn; rewrite I2; reflexivity|]. split.
    + constructor.
      * unfold draw_ok. cbn. repeat split; try assumption. destruct H5 as [(A & B & C & D)|(A & B & C & D)]; lia.
      * eapply Forall_impl; [|exact I3]. intros d (D1 & D2 & D3 & D4). unfold draw_ok. repeat split; try assumption.
        destruct H5 as [(A & B & C & D)|(A & B & C & D)]; lia.
    + constructor; [|exact I4]. eapply Forall_impl; [|exact I3]. intros d (D1 & D2 & D3 & D4).
      unfold before. cbn. lia.
Qed.

Lemma bytes_bound s w : forall k, 0 <= bytes_value s k w < 256 ^ Z.of_nat w.
Proof.
  induction w as [|w IH]; intros k; cbn [bytes_value]; [cbn; lia|].
  pose proof (IH (k + 1)). pose proof (Z.mod_pos_bound (Z.shiftr (s (k / 4)) (8 * (k mod 4))) 256 ltac:(lia)).
  unfold byte_at. rewrite Nat2Z.inj_succ, Z.pow_succ_r by lia. lia.
Qed.

(* An integer generator of w bytes (signed: shift by one) stays in its range. *)
Lemma int_range w rs r v n r1 : width w -> rs = 0 \/ rs = 1 -> rng_next w rs r = (v, n, r1) ->
  0 <= v < 2 ^ (8 * w - rs).
Proof.
  intros Hw Hr H. unfold rng_next in H.
  destruct (if SFMT_NC <=? _ then _ else _) as [[s n'] e]. injection H as <- _ _.
  pose proof (bytes_bound s (Z.to_nat w) n') as B.
  replace (256 ^ Z.of_nat (Z.to_nat w)) with (2 ^ (8 * w)) in B.
  2:{ destruct Hw as [->|[->|[->| ->]]]; reflexivity. }
  destruct Hr as [->| ->].
  - rewrite Z.shiftr_0_r, Z.sub_0_r. exact B.
  - rewrite Z.shiftr_div_pow2 by lia. change (2 ^ 1) with 2.
    assert (E : 2 ^ (8 * w) = 2 * 2 ^ (8 * w - 1)).
    { rewrite <- Z.pow_succ_r by (destruct Hw as [->|[->|[->| ->]]]; lia). f_equal. lia. }
    pose proof (Z.div_mod (bytes_value s n' (Z.to_nat w)) 2 ltac:(lia)).
    pose proof (Z.mod_pos_bound (bytes_value s n' (Z.to_nat w)) 2 ltac:(lia)). lia.
Qed.

(* ---------- parity ---------- *)

(* The parity certificate: how many bits of the words are set under the masks. *)
Fixpoint count_bits (k : nat) (x : Z) : Z :=
  match k with O => 0 | S k' => Z.b2z (Z.testbit x (Z.of_nat k')) + count_bits k' x end.
Definition popcount (x : Z) : Z := count_bits 32 x.
Definition certified (p u : list Z) : Prop :=
  Z.odd (fold_right Z.add 0 (map (fun q => popcount (Z.land (fst q) (snd q))) (combine u p))) = true.

Fixpoint xor_bits (k : nat) (x : Z) : bool :=
  match k with O => false | S k' => xorb (Z.testbit x (Z.of_nat k')) (xor_bits k' x) end.
Lemma odd_count k x : Z.odd (count_bits k x) = xor_bits k x.
Proof.
  induction k as [|k IH]; cbn [count_bits xor_bits]; [reflexivity|].
  rewrite Z.odd_add, IH. destruct (Z.testbit x (Z.of_nat k)); reflexivity.
Qed.
Lemma xor_lxor k x y : xor_bits k (Z.lxor x y) = xorb (xor_bits k x) (xor_bits k y).
Proof.
  induction k as [|k IH]; cbn [xor_bits]; [reflexivity|]. rewrite Z.lxor_spec, IH.
  destruct (Z.testbit x _), (Z.testbit y _), (xor_bits k x), (xor_bits k y); reflexivity.
Qed.
Lemma xor_zero k : xor_bits k 0 = false.
Proof. induction k as [|k IH]; cbn [xor_bits]; [reflexivity|]. rewrite Z.bits_0, IH. reflexivity. Qed.

Lemma fold_parity b : 0 <= b < 2 ^ 32 ->
  let f b n := Z.lxor b (Z.shiftr b n) in
  Z.land (f (f (f (f (f b 16) 8) 4) 2) 1) 1 = Z.b2z (xor_bits 32 b).
Proof.
  intros Hb f. change 1 with (Z.ones 1) at 2. rewrite Z.land_ones by lia. change (2 ^ 1) with 2.
  rewrite Zmod_odd. rewrite <- Z.bit0_odd.
  assert (T : forall i, 32 <= i -> Z.testbit b i = false) by (intros i Hi; apply (testbit_high b i 32); lia).
  assert (E : Z.testbit (f (f (f (f (f b 16) 8) 4) 2) 1) 0 = xor_bits 32 b).
  { unfold f. cbn [xor_bits].
    repeat rewrite ?Z.lxor_spec, ?Z.shiftr_spec by lia.
    cbn [Z.add Pos.add Pos.succ Pos.add_carry Z.of_nat Pos.of_succ_nat]. clear T Hb f.
    ring. }
  rewrite E. destruct (xor_bits 32 b); reflexivity.
Qed.

Definition word (x : Z) : Prop := 0 <= x < 2 ^ 32.

Lemma word_bits x : word x <-> 0 <= x /\ forall i, 32 <= i -> Z.testbit x i = false.
Proof.
  unfold word. split.
  - intros H. split; [lia|]. intros i Hi. apply (testbit_high x i 32); lia.
  - intros [H1 H2]. split; [exact H1|]. destruct (Z.eq_dec x 0) as [->|N]; [reflexivity|].
    apply Z.log2_lt_pow2; [lia|]. destruct (Z.lt_ge_cases (Z.log2 x) 32) as [L|L]; [exact L|].
    pose proof (Z.bit_log2 x ltac:(lia)) as B. rewrite H2 in B by exact L. discriminate.
Qed.

Lemma word_lxor x y : word x -> word y -> word (Z.lxor x y).
Proof.
  rewrite !word_bits. intros [A B] [C D]. split; [apply Z.lxor_nonneg; tauto|].
  intros i Hi. rewrite Z.lxor_spec, B, D by exact Hi. reflexivity.
Qed.
Lemma word_land x y : word x -> word y -> word (Z.land x y).
Proof.
  rewrite !word_bits. intros [A B] [C D]. split; [apply Z.land_nonneg; tauto|].
  intros i Hi. rewrite Z.land_spec, B by exact Hi. reflexivity.
Qed.

Definition masked (u p : list Z) : list Z := map (fun q => Z.land (fst q) (snd q)) (combine u p).

Lemma masked_word u : forall p, Forall word u -> Forall word p -> Forall word (masked u p).
Proof.
  unfold masked. induction u as [|x u IH]; intros [|q p] Hu Hp; cbn; try constructor.
  - inversion Hu; inversion Hp; subst. apply word_land; assumption.
  - inversion Hu; inversion Hp; subst. apply IH; assumption.
Qed.

Lemma fold_xor_word l : forall b, word b -> Forall word l -> word (fold_left Z.lxor l b).
Proof.
  induction l as [|x l IH]; intros b Hb Hl; cbn; [exact Hb|]. inversion Hl; subst.
  apply IH; [apply word_lxor; assumption|assumption].
Qed.
Lemma fold_xor_bits l : forall b, xor_bits 32 (fold_left Z.lxor l b) =
  xorb (xor_bits 32 b) (fold_right xorb false (map (xor_bits 32) l)).
Proof.
  induction l as [|x l IH]; intros b; cbn [fold_left map fold_right]; [rewrite xorb_false_r; reflexivity|].
  rewrite IH, xor_lxor, xorb_assoc. reflexivity.
Qed.
Lemma odd_sum (l : list (Z * Z)) :
  Z.odd (fold_right Z.add 0 (map (fun q => popcount (Z.land (fst q) (snd q))) l)) =
  fold_right xorb false (map (xor_bits 32) (map (fun q => Z.land (fst q) (snd q)) l)).
Proof.
  induction l as [|q l IH]; cbn [map fold_right]; [reflexivity|].
  rewrite Z.odd_add, IH. unfold popcount. rewrite odd_count. reflexivity.
Qed.

Lemma certified_iff p u : Forall word u -> Forall word p -> certified p u <-> parity_bit p u = 1.
Proof.
  intros Hu Hp. unfold certified, parity_bit. rewrite odd_sum.
  pose proof (masked_word u p Hu Hp) as M. unfold masked in M.
  rewrite fold_parity by (apply fold_xor_word; [unfold word; lia|exact M]).
  rewrite fold_xor_bits, xor_zero, xorb_false_l.
  destruct (fold_right xorb false _); cbn; split; intro H; lia || reflexivity || discriminate.
Qed.

(* the loop finds the lowest set bit *)
Lemma first_bit_spec p : forall k n, 0 <= n ->
  (forall i, n <= i < n + Z.of_nat k -> Z.testbit p i = false) /\ first_bit k (2 ^ n) p = None \/
  exists i, n <= i < n + Z.of_nat k /\ Z.testbit p i = true /\
            (forall j, n <= j < i -> Z.testbit p j = false) /\ first_bit k (2 ^ n) p = Some (2 ^ i).
Proof.
  induction k as [|k IH]; intros n Hn; cbn [first_bit].
  - left. split; [intros; lia|reflexivity].
  - assert (L : Z.land (2 ^ n) p = if Z.testbit p n then 2 ^ n else 0).
    { apply Z.bits_inj'. intros i Hi. rewrite Z.land_spec, Z.pow2_bits_eqb by lia.
      destruct (Z.eqb_spec n i) as [->|N].
      - destruct (Z.testbit p i); [rewrite Z.pow2_bits_true by lia; reflexivity|rewrite Z.bits_0; reflexivity].
      - destruct (Z.testbit p n); [rewrite Z.pow2_bits_false by lia|rewrite Z.bits_0]; reflexivity. }
    rewrite L. assert (P : 0 < 2 ^ n) by (apply Z.pow_pos_nonneg; lia). destruct (Z.testbit p n) eqn:T.
    + right. exists n. destruct (Z.eqb_spec (2 ^ n) 0); [lia|]. split; [lia|]. split; [exact T|].
      split; [intros; lia|reflexivity].
    + cbn [Z.eqb negb]. rewrite <- Z.pow_succ_r by lia. destruct (IH (Z.succ n) ltac:(lia)) as [[A B]|(i & A & B & C & D)].
      * left. split; [|exact B]. intros i Hi. destruct (Z.eq_dec i n) as [->|]; [exact T|]. apply A. lia.
      * right. exists i. split; [lia|]. split; [exact B|]. split; [|exact D].
        intros j Hj. destruct (Z.eq_dec j n) as [->|]; [exact T|]. apply C. lia.
Qed.

Lemma xor_bits_pow k : forall i, 0 <= i < Z.of_nat k -> xor_bits k (2 ^ i) = true.
Proof.
  induction k as [|k IH]; intros i Hi; [lia|]. cbn [xor_bits].
  destruct (Z.eq_dec i (Z.of_nat k)) as [->|N].
  - rewrite Z.pow2_bits_true by lia.
    assert (E : forall m n, Z.of_nat m <= n -> xor_bits m (2 ^ n) = false).
    { induction m as [|m IHm]; intros n Hn; cbn [xor_bits]; [reflexivity|].
      rewrite Z.pow2_bits_false, IHm by lia. reflexivity. }
    rewrite E by lia. reflexivity.
  - rewrite Z.pow2_bits_false by lia. rewrite IH by lia. reflexivity.
Qed.

(* what flip_first does *)
Lemma flip_spec p : forall u, length u = length p -> Forall word p -> Exists (fun q => q <> 0) p ->
  exists i b, (i < length u)%nat /\ 0 <= b < 32 /\
    flip_first p u = set_at u i (Z.lxor (nthZ u i) (2 ^ b)) /\
    fold_right xorb false (map (xor_bits 32) (masked (flip_first p u) p)) =
    negb (fold_right xorb false (map (xor_bits 32) (masked u p))).
Proof.
  induction p as [|q p IH]; intros [|v u] Hl Hp He; cbn in Hl; try lia; [inversion He|].
  inversion Hp as [|? ? Hq Hp']; subst. cbn [flip_first].
  destruct (first_bit_spec q 32 0 ltac:(lia)) as [[A B]|(i & A & B & C & D)].
  - change (2 ^ 0) with 1 in B. rewrite B.
    assert (q = 0).
    { apply Z.bits_inj'. intros i Hi. rewrite Z.bits_0. destruct (Z.lt_ge_cases i 32); [apply A; lia|].
      apply (testbit_high q i 32); [exact Hq|lia]. }
    inversion He as [? ? N|? ? N]; subst; [contradiction|].
    destruct (IH u ltac:(lia) Hp' N) as (i & b & I1 & I2 & I3 & I4).
    exists (S i), b. split; [cbn; lia|]. split; [exact I2|]. split.
    + cbn [set_at]. rewrite I3. reflexivity.
    + unfold masked in *. cbn [combine map fold_right fst snd]. rewrite I4.
      generalize (xor_bits 32 (Z.land v 0)). generalize (fold_right xorb false (map (xor_bits 32) (map (fun q => Z.land (fst q) (snd q)) (combine u p)))).
      intros [|] [|]; reflexivity.
  - change (2 ^ 0) with 1 in D. rewrite D. exists 0%nat, i. split; [cbn; lia|]. split; [lia|].
    split; [reflexivity|]. unfold masked. cbn [combine map fold_right fst snd].
    assert (E : Z.land (Z.lxor v (2 ^ i)) q = Z.lxor (Z.land v q) (2 ^ i)).
    { apply Z.bits_inj'. intros k Hk. rewrite Z.land_spec, !Z.lxor_spec, Z.land_spec, Z.pow2_bits_eqb by lia.
      destruct (Z.eqb_spec i k) as [<-|N].
      - rewrite B. destruct (Z.testbit v i); reflexivity.
      - rewrite !xorb_false_r. reflexivity. }
    rewrite E, xor_lxor, (xor_bits_pow 32 i) by lia.
    destruct (xor_bits 32 (Z.land v q)), (fold_right xorb false _); reflexivity.
Qed.

Lemma set_at_length l : forall i x, length (set_at l i x) = length l.
Proof. induction l as [|y l IH]; intros [|i] x; cbn; auto. Qed.
Lemma set_at_word l : forall i x, Forall word l -> word x -> Forall word (set_at l i x).
Proof.
  induction l as [|y l IH]; intros [|i] x Hl Hx; cbn; try assumption; inversion Hl; subst; constructor; auto.
Qed.
Lemma nthZ_word l i : (i < length l)%nat -> Forall word l -> word (nthZ l i).
Proof. intros Hi H. eapply Forall_forall in H; [exact H|]. apply nth_In. exact Hi. Qed.
Lemma word_pow b : 0 <= b < 32 -> word (2 ^ b).
Proof. intros H. unfold word. split; [apply Z.pow_nonneg; lia|]. apply Z.pow_lt_mono_r; lia. Qed.

Lemma parity_range p u : Forall word u -> Forall word p -> parity_bit p u = 0 \/ parity_bit p u = 1.
Proof.
  intros Hu Hp. unfold parity_bit. pose proof (masked_word u p Hu Hp) as M. unfold masked in M.
  rewrite fold_parity by (apply fold_xor_word; [unfold word; lia|exact M]).
  destruct (xor_bits 32 _); cbn; tauto.
Qed.

Lemma adjust_ok p u : length u = length p -> Forall word u -> Forall word p -> Exists (fun q => q <> 0) p ->
  certified p (adjust p u) /\ length (adjust p u) = length u /\ Forall word (adjust p u) /\
  (certified p u -> adjust p u = u) /\
  (~ certified p u -> exists i b, (i < length u)%nat /\ 0 <= b < 32 /\
       adjust p u = set_at u i (Z.lxor (nthZ u i) (2 ^ b))) /\
  adjust p (adjust p u) = adjust p u.
Proof.
  intros Hl Hu Hp He.
  assert (K : forall v, Forall word v -> certified p v -> adjust p v = v).
  { intros v Hv C. unfold adjust. rewrite certified_iff in C by assumption. rewrite C. reflexivity. }
  destruct (parity_range p u Hu Hp) as [P|P].
  - destruct (flip_spec p u Hl Hp He) as (i & b & A & B & C & D).
    assert (E : adjust p u = set_at u i (Z.lxor (nthZ u i) (2 ^ b))) by (unfold adjust; rewrite P; exact C).
    assert (W : Forall word (adjust p u)).
    { rewrite E. apply set_at_word; [exact Hu|]. apply word_lxor; [apply nthZ_word; assumption|apply word_pow; lia]. }
    assert (N : ~ certified p u) by (rewrite certified_iff by assumption; lia).
    assert (Ce : certified p (adjust p u)).
    { unfold adjust. rewrite P. cbn [Z.eqb]. unfold certified in *. rewrite odd_sum in *. unfold masked in D. rewrite D.
      apply not_true_is_false in N. rewrite N. reflexivity. }
    split; [exact Ce|]. split; [rewrite E; apply set_at_length|]. split; [exact W|]. split; [intros; contradiction|].
    split; [intros _; exists i, b; auto|]. apply K; assumption.
  - assert (C : certified p u) by (rewrite certified_iff by assumption; exact P).
    rewrite (K u Hu C). split; [exact C|]. split; [reflexivity|]. split; [exact Hu|].
    split; [reflexivity|]. split; [intros; contradiction|]. apply K; assumption.
Qed.

Lemma seed_words_ok k : forall n u, word u -> length (seed_words k n u) = k /\ Forall word (seed_words k n u).
Proof.
  induction k as [|k IH]; intros n u Hu; cbn [seed_words]; [split; [reflexivity|constructor]|].
  destruct (IH (n + 1) (u32 (1812433253 * Z.lxor u (Z.shiftr u 30) + (n + 1)))) as [A B].
  { unfold word, u32. apply Z.mod_pos_bound. lia. }
  cbn [length]. split; [lia|]. constructor; assumption.
Qed.

Lemma parity_words : Forall word SFMT_PARITY /\ Exists (fun q => q <> 0) SFMT_PARITY.
Proof. split; [repeat constructor; discriminate|left; discriminate]. Qed.

Lemma forall_firstn {A} (P : A -> Prop) l : forall n, Forall P l -> Forall P (firstn n l).
Proof. induction l as [|x l IH]; intros [|n] H; cbn; try constructor; inversion H; auto. Qed.
Lemma forall_skipn {A} (P : A -> Prop) l : forall n, Forall P l -> Forall P (skipn n l).
Proof. induction l as [|x l IH]; intros [|n] H; cbn; try constructor; inversion H; subst; auto. Qed.

Lemma seed_ok seed : length (seed_state seed) = 352%nat /\ Forall word (seed_state seed) /\
  certified SFMT_PARITY (firstn 4 (seed_state seed)).
Proof.
  unfold seed_state. cbv zeta. assert (W : word (u32 seed)) by (apply Z.mod_pos_bound; lia).
  destruct (seed_words_ok 352 0 (u32 seed) W) as [A B]. set (w := seed_words 352 0 (u32 seed)) in *. clearbody w.
  assert (L4 : length (firstn 4 w) = 4%nat) by (rewrite firstn_length, A; reflexivity).
  destruct parity_words as [P1 P2].
  destruct (adjust_ok SFMT_PARITY (firstn 4 w) ltac:(rewrite L4; reflexivity) (forall_firstn _ _ _ B) P1 P2)
    as (C & L & F & _).
  split; [rewrite app_length, L, L4, skipn_length, A; reflexivity|]. split.
  - apply Forall_app. split; [exact F|]. apply forall_skipn. exact B.
  - rewrite firstn_app, L, L4, Nat.sub_diag. rewrite firstn_all2 by (rewrite L, L4; lia). rewrite app_nil_r. exact C.
Qed.

(* Distinct seeds give distinct states: word 1 is an injective function of the seed. *)
Lemma xorshift_inj x y : word x -> word y -> Z.lxor x (Z.shiftr x 30) = Z.lxor y (Z.shiftr y 30) -> x = y.
Proof.
  intros Hx Hy E. apply word_bits in Hx, Hy. destruct Hx as [X1 X2], Hy as [Y1 Y2].
  assert (B : forall i, 2 <= i -> Z.testbit x i = Z.testbit y i).
  { intros i Hi. assert (T : Z.testbit (Z.lxor x (Z.shiftr x 30)) i = Z.testbit (Z.lxor y (Z.shiftr y 30)) i) by (rewrite E; reflexivity).
    rewrite !Z.lxor_spec, !Z.shiftr_spec, (X2 (i + 30)), (Y2 (i + 30)), !xorb_false_r in T by lia. exact T. }
  assert (S : Z.shiftr x 30 = Z.shiftr y 30).
  { apply Z.bits_inj'. intros i Hi. rewrite !Z.shiftr_spec by lia. apply B. lia. }
  rewrite S in E. assert (E2 : Z.lxor (Z.lxor x (Z.shiftr y 30)) (Z.shiftr y 30) = Z.lxor (Z.lxor y (Z.shiftr y 30)) (Z.shiftr y 30)) by (rewrite E; reflexivity).
  rewrite !Z.lxor_assoc, Z.lxor_nilpotent, !Z.lxor_0_r in E2. exact E2.
Qed.

Lemma lcg_inj x y : word x -> word y -> u32 (1812433253 * x + 1) = u32 (1812433253 * y + 1) -> x = y.
Proof.
  intros Hx Hy E. unfold u32 in E.
  assert (D : (2 ^ 32 | 1812433253 * (x - y))).
  { apply Z.mod_divide; [lia|]. replace (1812433253 * (x - y)) with (1812433253 * x + 1 - (1812433253 * y + 1)) by lia.
    rewrite Zminus_mod, E, Z.sub_diag. reflexivity. }
  apply Gauss in D.
  - destruct D as [k Hk]. unfold word in *. assert (k = 0) by lia. lia.
  - apply Zgcd_1_rel_prime. reflexivity.
Qed.

Lemma shift_word x k : word x -> 0 <= k -> word (Z.shiftr x k).
Proof.
  intros [A B] Hk. unfold word. rewrite Z.shiftr_div_pow2 by lia.
  assert (0 < 2 ^ k) by (apply Z.pow_pos_nonneg; lia).
  split; [apply Z.div_pos; lia|]. apply Z.le_lt_trans with x; [|exact B]. apply Z.div_le_upper_bound; nia.
Qed.

Lemma seed_words4 k u : exists a b r, seed_words (S (S (S (S k)))) 0 u =
  u :: u32 (1812433253 * Z.lxor u (Z.shiftr u 30) + 1) :: a :: b :: r.
Proof. cbn [seed_words]. change (0 + 1) with 1. do 3 eexists. reflexivity. Qed.

Lemma seed_word1 seed : nthZ (seed_state seed) 1 =
  u32 (1812433253 * Z.lxor (u32 seed) (Z.shiftr (u32 seed) 30) + 1).
Proof.
  unfold seed_state. cbv zeta. set (u0 := u32 seed).
  assert (E : exists a b r, seed_words 352 0 u0 =
     u0 :: u32 (1812433253 * Z.lxor u0 (Z.shiftr u0 30) + 1) :: a :: b :: r).
  { exact (seed_words4 348 u0). }
  destruct E as (a & b & r & ->). cbn [firstn skipn app].
  set (u1 := u32 _). unfold adjust. destruct (parity_bit _ _ =? 1); reflexivity.
Qed.

Lemma seed_inj s t : u32 s <> u32 t -> seed_state s <> seed_state t.
Proof.
  intros N E. apply N.
  assert (Ws : word (u32 s)) by (apply Z.mod_pos_bound; lia).
  assert (Wt : word (u32 t)) by (apply Z.mod_pos_bound; lia).
  assert (E1 : nthZ (seed_state s) 1 = nthZ (seed_state t) 1) by (rewrite E; reflexivity).
  rewrite !seed_word1 in E1. apply lcg_inj in E1; try (apply word_lxor; [assumption|apply shift_word; [assumption|lia]]).
  apply xorshift_inj in E1; assumption.
Qed.

(* ---------- seeds of pools ---------- *)
Lemma int_op_some x y : int_op x = Some y -> y = x /\ - 2 ^ 31 <= x < 2 ^ 31.
Proof.
  unfold int_op. destruct (in_int x) eqn:E; [|discriminate]. intros H. injection H as <-.
  unfold in_int in E. lia.
Qed.

Lemma pool_loop_ok k : forall n nr ws s l, pool_loop k n nr ws s = Some l ->
  length l = k /\ forall i, (i < k)%nat -> nthZ l i = s + (ws + 1) * (n + Z.of_nat i) /\
     - 2 ^ 31 <= nthZ l i < 2 ^ 31.
Proof.
  induction k as [|k IH]; intros n nr ws s l H; cbn [pool_loop] in H.
  - injection H as <-. split; [reflexivity|]. intros; lia.
  - destruct (int_op (ws + 1)) eqn:E1; [|discriminate]. destruct (int_op ((ws + 1) * n)) eqn:E2; [|discriminate].
    destruct (int_op (s + (ws + 1) * n)) eqn:E3; [|discriminate].
    destruct (pool_loop k (n + 1) nr ws s) eqn:E4; [|discriminate]. injection H as <-.
    apply int_op_some in E3. destruct E3 as [-> B]. destruct (IH _ _ _ _ _ E4) as [L F].
    split; [cbn; lia|]. intros [|i] Hi; unfold nthZ in *; cbn [nth].
    + rewrite Z.add_0_r. lia.
    + destruct (F i ltac:(lia)) as [F1 F2]. split; [rewrite F1; lia|exact F2].
Qed.

Lemma pool_ok ws rank nr sync seed l : 1 <= nr -> pool_seeds ws rank nr sync seed = Some l ->
  length l = Z.to_nat nr /\
  forall i, (i < Z.to_nat nr)%nat ->
    nthZ l i = (if sync then ws else rank) + (ws + 1) * (nr * seed + Z.of_nat i) /\
    - 2 ^ 31 <= nthZ l i < 2 ^ 31.
Proof.
  intros Hn H. unfold pool_seeds in H.
  destruct (int_op (ws + 1)); [|discriminate]. destruct (int_op ((ws + 1) * nr)); [|discriminate].
  destruct (int_op ((ws + 1) * nr * seed)); [|discriminate].
  destruct (int_op ((if sync then ws else rank) + (ws + 1) * nr * seed)) eqn:E; [|discriminate].
  apply int_op_some in E. destruct E as [-> _]. apply pool_loop_ok in H. destruct H as [A B].
  split; [exact A|]. intros i Hi. destruct (B i Hi) as [C D]. split; [rewrite C; ring|exact D].
Qed.

Lemma seed_value_inj ws r1 r2 a b : 0 <= r1 <= ws -> 0 <= r2 <= ws ->
  r1 + (ws + 1) * a = r2 + (ws + 1) * b -> r1 = r2 /\ a = b.
Proof. intros H1 H2 E. assert (a = b) by nia. subst. lia. Qed.

Lemma pool_unsync ws nr : 1 <= nr ->
  forall ra rb sa sb la lb i j,
  0 <= ra < ws -> 0 <= rb < ws ->
  pool_seeds ws ra nr false sa = Some la -> pool_seeds ws rb nr false sb = Some lb ->
  (i < Z.to_nat nr)%nat -> (j < Z.to_nat nr)%nat -> nthZ la i = nthZ lb j -> ra = rb /\ sa = sb /\ i = j.
Proof.
  intros Hn ra rb sa sb la lb i j Ha Hb A B Hi Hj E.
  apply pool_ok in A; [|exact Hn]. apply pool_ok in B; [|exact Hn].
  destruct A as [_ A], B as [_ B]. destruct (A i Hi) as [A1 _], (B j Hj) as [B1 _].
  rewrite A1, B1 in E. apply seed_value_inj in E; [|lia|lia]. destruct E as [E1 E2].
  split; [exact E1|]. assert (sa = sb) by nia. subst. split; [reflexivity|]. lia.
Qed.

Lemma pool_sync ws nr ra rb s : pool_seeds ws ra nr true s = pool_seeds ws rb nr true s.
Proof. reflexivity. Qed.

Lemma pool_mixed ws na nb ra rb sa sb la lb i j : 1 <= na -> 1 <= nb -> 0 <= ra < ws -> 0 <= rb < ws ->
  pool_seeds ws ra na false sa = Some la -> pool_seeds ws rb nb true sb = Some lb ->
  (i < Z.to_nat na)%nat -> (j < Z.to_nat nb)%nat -> nthZ la i <> nthZ lb j.
Proof.
  intros Hna Hnb Ha Hb A B Hi Hj E.
  apply pool_ok in A; [|exact Hna]. apply pool_ok in B; [|exact Hnb].
  destruct A as [_ A], B as [_ B]. destruct (A i Hi) as [A1 _], (B j Hj) as [B1 _].
  rewrite A1, B1 in E. apply seed_value_inj in E; lia.
Qed.

Lemma int_u32_inj x y : - 2 ^ 31 <= x < 2 ^ 31 -> - 2 ^ 31 <= y < 2 ^ 31 -> u32 x = u32 y -> x = y.
Proof.
  intros Hx Hy E. unfold u32 in E.
  pose proof (Z.div_mod x (2 ^ 32) ltac:(lia)). pose proof (Z.div_mod y (2 ^ 32) ltac:(lia)).
  rewrite E in *. nia.
Qed.

Lemma pool_states ws nr : 1 <= nr ->
  forall ra rb sa sb la lb i j,
  0 <= ra < ws -> 0 <= rb < ws ->
  pool_seeds ws ra nr false sa = Some la -> pool_seeds ws rb nr false sb = Some lb ->
  (i < Z.to_nat nr)%nat -> (j < Z.to_nat nr)%nat ->
  seed_state (nthZ la i) = seed_state (nthZ lb j) -> ra = rb /\ sa = sb /\ i = j.
Proof.
  intros Hn ra rb sa sb la lb i j Ha Hb A B Hi Hj E.
  apply (pool_unsync ws nr Hn ra rb sa sb la lb i j); try assumption.
  apply pool_ok in A; [|exact Hn]. apply pool_ok in B; [|exact Hn].
  destruct A as [_ A], B as [_ B]. destruct (A i Hi) as [_ A2], (B j Hj) as [_ B2].
  apply int_u32_inj; try assumption. destruct (Z.eq_dec (u32 (nthZ la i)) (u32 (nthZ lb j))) as [U|U]; [exact U|].
  exfalso. exact (seed_inj _ _ U E).
Qed.
