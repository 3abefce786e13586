(* The operations on words that the vector operators are made of, against the
   scalar operations they stand for. *)
From Coq Require Import ZArith List String Bool Lia.
From Flocq Require Import IEEE754.Binary IEEE754.Bits.
From Verif Require Import VecOpModel VecOpSpec.
Import ListNotations.
Ltac Zify.zify_post_hook ::= idtac.
Open Scope Z_scope.

Lemma sint_val : forall w, sint w = val w.
Proof. reflexivity. Qed.
Lemma of_sint_result : forall z, of_sint z = int_result z.
Proof. reflexivity. Qed.
Lemma b2m_mask : forall b, b2m b = mask b.
Proof. intros [|]; reflexivity. Qed.
Lemma neg_b2w : forall b, int_result (- val (b2w b)) = Some (mask b).
Proof. intros [|]; reflexivity. Qed.

Lemma val_range : forall w, word w -> - 2 ^ 31 <= val w < 2 ^ 31.
Proof.
  intros w [A B]. unfold val. change (2 ^ 31) with 2147483648. change (2 ^ 32) with 4294967296 in *.
  destruct (w <? 2147483648) eqn:E; lia.
Qed.
Lemma val_mod : forall w, word w -> val w mod 2 ^ 32 = w.
Proof.
  intros w [A B]. unfold val. destruct (w <? 2 ^ 31) eqn:E.
  - apply Z.mod_small. lia.
  - replace (w - 2 ^ 32) with (w + (-1) * 2 ^ 32) by lia. rewrite Z.mod_add by lia. apply Z.mod_small. lia.
Qed.
Lemma val_inj : forall a b, word a -> word b -> val a = val b -> a = b.
Proof. intros a b A B H. rewrite <- (val_mod a A), <- (val_mod b B), H. reflexivity. Qed.
Lemma eqb_val : forall a b, word a -> word b -> (a =? b) = (val a =? val b).
Proof.
  intros a b A B. apply eq_true_iff_eq. rewrite !Z.eqb_eq. split; [intros ->; reflexivity|apply val_inj; assumption].
Qed.
Lemma word0 : word 0.
Proof. unfold word. lia. Qed.
Lemma eqb0_val : forall a, word a -> (a =? 0) = (val a =? 0).
Proof. intros a A. rewrite (eqb_val a 0 A word0). reflexivity. Qed.

Lemma quot_in : forall a b, - 2 ^ 31 <= a < 2 ^ 31 -> - 2 ^ 31 <= b < 2 ^ 31 -> b <> 0 ->
  int_result (Z.quot a b) = None <-> (a = - 2 ^ 31 /\ b = -1).
Proof.
  intros a b A B H. unfold int_result.
  change (2 ^ 31) with 2147483648 in *.
  assert (Q : Z.abs (Z.quot a b) <= Z.abs a).
  { rewrite <- Z.quot_abs by exact H. rewrite Z.quot_div_nonneg by lia.
    apply Z.div_le_upper_bound; nia. }
  destruct (Z.eq_dec b (-1)) as [->|N].
  - replace (-1) with (- (1)) by lia. rewrite Z.quot_opp_r, Z.quot_1_r by lia.
    destruct ((- (2147483648) <=? - a) && (- a <? 2147483648)) eqn:E.
    + split; [discriminate|]. apply andb_true_iff in E. lia.
    + split; [|reflexivity]. intros _. apply andb_false_iff in E. lia.
  - assert (Q2 : b = 1 \/ Z.abs (Z.quot a b) * 2 <= Z.abs a).
    { destruct (Z.eq_dec b 1); [left; assumption|right].
      rewrite <- Z.quot_abs by exact H. rewrite Z.quot_div_nonneg by lia.
      pose proof (Z.div_le_compat_l (Z.abs a) 2 (Z.abs b)) as D.
      pose proof (Z.mul_div_le (Z.abs a) 2). lia. }
    assert (I : - 2147483648 <= Z.quot a b < 2147483648).
    { destruct Q2 as [->|Q2]; [rewrite Z.quot_1_r; lia|]. lia. }
    destruct ((- (2147483648) <=? Z.quot a b) && (Z.quot a b <? 2147483648)) eqn:E.
    + split; [discriminate|]. intros [_ G]. contradiction.
    + apply andb_false_iff in E. lia.
Qed.

Lemma rem_word : forall a b, word a -> word b ->
  (if b =? 0 then None else match int_result (Z.quot (val a) (val b)) with
                            | Some _ => int_result (Z.rem (val a) (val b)) | None => None end)
  = (if (val b =? 0) || ((val a =? - 2 ^ 31) && (val b =? -1)) then None else int_result (Z.rem (val a) (val b))).
Proof.
  intros a b A B. rewrite (eqb0_val b B). pose proof (val_range a A). pose proof (val_range b B).
  destruct (val b =? 0) eqn:E; [reflexivity|]. cbn [orb]. apply Z.eqb_neq in E.
  pose proof (quot_in (val a) (val b) H H0 E) as Q.
  destruct (int_result (Z.quot (val a) (val b))) as [q|].
  - destruct ((val a =? - 2 ^ 31) && (val b =? -1)) eqn:G; [|reflexivity].
    apply andb_true_iff in G. destruct G as [G1 G2]. apply Z.eqb_eq in G1, G2.
    assert (X : Some q = None) by (apply Q; split; assumption). discriminate.
  - destruct Q as [Q _]. destruct (Q eq_refl) as [G1 G2]. rewrite G1, G2. reflexivity.
Qed.

Lemma shl_word : forall a b, word a -> word b ->
  (if (val b <? 0) || (32 <=? val b) || (val a <? 0) || (W32 <=? Z.shiftl a b) then None else Some (Z.shiftl a b))
  = (if (0 <=? val b) && (val b <? 32) && (0 <=? val a) && (val a * 2 ^ val b <? 2 ^ 32)
     then Some (val a * 2 ^ val b) else None).
Proof.
  intros a b A B.
  destruct (val b <? 0) eqn:E1; [assert (E : (0 <=? val b) = false) by lia; rewrite E; reflexivity|].
  destruct (32 <=? val b) eqn:E2;
    [assert (E : (val b <? 32) = false) by lia; rewrite E, andb_false_r; reflexivity|].
  destruct (val a <? 0) eqn:E3;
    [assert (E : (0 <=? val a) = false) by lia; rewrite E, !andb_false_r; reflexivity|].
  assert (Eb : b = val b).
  { unfold val in *. destruct (b <? 2 ^ 31); [reflexivity|]. unfold word in B. lia. }
  assert (Ea : a = val a).
  { unfold val in *. destruct (a <? 2 ^ 31); [reflexivity|]. unfold word in A. lia. }
  assert (S : Z.shiftl a b = val a * 2 ^ val b).
  { rewrite Z.shiftl_mul_pow2 by (rewrite Eb; lia). rewrite <- Ea, <- Eb. reflexivity. }
  rewrite S. change W32 with (2 ^ 32). cbn [orb].
  replace (0 <=? val b) with true by lia. replace (val b <? 32) with true by lia.
  replace (0 <=? val a) with true by lia. cbn [andb].
  destruct (2 ^ 32 <=? val a * 2 ^ val b) eqn:E4.
  - replace (val a * 2 ^ val b <? 2 ^ 32) with false by lia. reflexivity.
  - replace (val a * 2 ^ val b <? 2 ^ 32) with true by lia. reflexivity.
Qed.

Lemma shr_word : forall a b, word a -> word b ->
  (if (val b <? 0) || (32 <=? val b) then None else int_result (Z.shiftr (val a) b))
  = (if (0 <=? val b) && (val b <? 32) then Some ((val a / 2 ^ val b) mod 2 ^ 32) else None).
Proof.
  intros a b A B.
  destruct (val b <? 0) eqn:E1; [assert (E : (0 <=? val b) = false) by lia; rewrite E; reflexivity|].
  destruct (32 <=? val b) eqn:E2;
    [assert (E : (val b <? 32) = false) by lia; rewrite E, andb_false_r; reflexivity|].
  assert (Eb : b = val b).
  { unfold val in *. destruct (b <? 2 ^ 31); [reflexivity|]. unfold word in B. lia. }
  rewrite Z.shiftr_div_pow2 by (rewrite Eb; lia). rewrite <- Eb. cbn [orb].
  replace (0 <=? b) with true by lia. replace (b <? 32) with true by lia. cbn [andb].
  unfold int_result. pose proof (val_range a A) as R.
  assert (P : 1 <= 2 ^ b) by (apply (Z.pow_le_mono_r 2 0 b); lia).
  assert (D : - 2 ^ 31 <= val a / 2 ^ b < 2 ^ 31).
  { split.
    - apply Z.div_le_lower_bound; nia.
    - apply Z.div_lt_upper_bound; nia. }
  replace (- 2 ^ 31 <=? val a / 2 ^ b) with true by lia.
  replace (val a / 2 ^ b <? 2 ^ 31) with true by lia. reflexivity.
Qed.

Lemma abs_word : forall a, word a ->
  (if b2w (0 <=? val a) =? 0 then int_result (- val a) else Some a) = int_result (Z.abs (val a)).
Proof.
  intros a A. pose proof (val_range a A) as R. destruct (0 <=? val a) eqn:E; cbn [b2w].
  - cbn [Z.eqb]. rewrite Z.abs_eq by lia. unfold int_result.
    replace (- 2 ^ 31 <=? val a) with true by lia. replace (val a <? 2 ^ 31) with true by lia. cbn [andb].
    rewrite (val_mod a A). reflexivity.
  - cbn [Z.eqb]. rewrite Z.abs_neq by lia. reflexivity.
Qed.

(* ---- bits ---------------------------------------------------------------- *)
Lemma bits_spec : forall g w, word w -> (forall i, 0 <= i < 32 -> Z.testbit w i = g i) -> w = bits g.
Proof.
  intros g w Hw Hb.
  assert (G : forall n a w, 0 <= w < 2 ^ (Z.of_nat n) ->
    (forall i, 0 <= i < Z.of_nat n -> Z.testbit w i = g (Z.of_nat a + i)) ->
    fold_right (fun i s => (if g (Z.of_nat i) then 2 ^ Z.of_nat i else 0) + s) 0 (seq a n) = 2 ^ Z.of_nat a * w).
  { clear. induction n as [|n IH]; intros a w Hw Hb.
    - cbn in *. assert (w = 0) by lia. subst. lia.
    - cbn [seq fold_right].
      assert (P : 2 ^ Z.of_nat (S n) = 2 * 2 ^ Z.of_nat n).
      { rewrite Nat2Z.inj_succ, Z.pow_succ_r by lia. reflexivity. }
      rewrite P in Hw.
      rewrite (IH (S a) (Z.div2 w)).
      + pose proof (Hb 0 ltac:(lia)) as H0. rewrite Z.add_0_r in H0. rewrite <- H0.
        assert (P2 : 2 ^ Z.of_nat (S a) = 2 * 2 ^ Z.of_nat a).
        { rewrite Nat2Z.inj_succ, Z.pow_succ_r by lia. reflexivity. }
        rewrite P2. pose proof (Z.div2_odd w) as D. rewrite <- Z.bit0_odd in D.
        destruct (Z.testbit w 0); cbn [Z.b2z] in D; nia.
      + rewrite Z.div2_div. split; [apply Z.div_pos; lia|]. apply Z.div_lt_upper_bound; lia.
      + intros i Hi. rewrite Z.div2_spec, Z.shiftr_spec by lia. rewrite Hb by lia. f_equal. lia. }
  unfold bits. rewrite (G 32%nat 0%nat w).
  - change (2 ^ Z.of_nat 0) with 1. lia.
  - exact Hw.
  - intros i Hi. rewrite Hb by exact Hi. f_equal.
Qed.

Lemma testbit_high : forall w i, word w -> 32 <= i -> Z.testbit w i = false.
Proof.
  intros w i [A B] H. destruct (Z.eq_dec w 0) as [->|N]; [apply Z.testbit_0_l|].
  apply Z.bits_above_log2; [exact A|]. apply Z.log2_lt_pow2; [lia|].
  apply Z.lt_le_trans with (2 ^ 32); [exact B|]. apply Z.pow_le_mono_r; lia.
Qed.
Lemma word_bits : forall w, 0 <= w -> (forall i, 32 <= i -> Z.testbit w i = false) -> word w.
Proof.
  intros w H B. unfold word. split; [exact H|].
  destruct (Z.eq_dec w 0) as [->|N]; [lia|].
  apply Z.log2_lt_pow2; [lia|].
  destruct (Z_lt_le_dec (Z.log2 w) 32) as [L|L]; [exact L|].
  specialize (B (Z.log2 w) L). rewrite Z.bit_log2 in B by lia. discriminate.
Qed.
Lemma word_land : forall a b, word a -> word b -> word (Z.land a b).
Proof.
  intros a b A B. apply word_bits; [apply Z.land_nonneg; left; apply A|].
  intros i Hi. rewrite Z.land_spec, (testbit_high a) by assumption. reflexivity.
Qed.
Lemma word_lor : forall a b, word a -> word b -> word (Z.lor a b).
Proof.
  intros a b A B. apply word_bits; [apply Z.lor_nonneg; split; [apply A|apply B]|].
  intros i Hi. rewrite Z.lor_spec, (testbit_high a), (testbit_high b) by assumption. reflexivity.
Qed.
Lemma word_lxor : forall a b, word a -> word b -> word (Z.lxor a b).
Proof.
  intros a b A B. apply word_bits; [apply Z.lxor_nonneg; split; intros; [apply B|apply A]|].
  intros i Hi. rewrite Z.lxor_spec, (testbit_high a), (testbit_high b) by assumption. reflexivity.
Qed.
Lemma word_ones : word ones.
Proof. unfold word, ones. lia. Qed.
Lemma word_wnot : forall a, word a -> word (wnot a).
Proof. intros a A. apply word_lxor; [exact A|apply word_ones]. Qed.
Lemma ones_bit : forall i, 0 <= i < 32 -> Z.testbit ones i = true.
Proof. intros i H. change ones with (Z.ones 32). apply Z.ones_spec_low. exact H. Qed.
Lemma wnot_bit : forall a i, 0 <= i < 32 -> Z.testbit (wnot a) i = negb (Z.testbit a i).
Proof. intros a i H. unfold wnot. rewrite Z.lxor_spec, ones_bit by exact H. apply xorb_true_r. Qed.

Lemma wnot_sub : forall a, word a -> wnot a = ones - a.
Proof.
  intros a A. unfold wnot. assert (L : Z.ldiff a ones = 0).
  { apply Z.bits_inj'. intros i Hi. rewrite Z.ldiff_spec, Z.testbit_0_l.
    destruct (Z_lt_le_dec i 32); [rewrite ones_bit by lia; apply andb_false_r|].
    rewrite (testbit_high a i A) by lia. reflexivity. }
  rewrite (Z.sub_nocarry_ldiff ones a L). apply Z.bits_inj'. intros i Hi.
  rewrite Z.lxor_spec, Z.ldiff_spec. destruct (Z_lt_le_dec i 32).
  - rewrite ones_bit by lia. rewrite xorb_true_r. reflexivity.
  - rewrite (testbit_high a i A), (testbit_high ones i word_ones) by lia. reflexivity.
Qed.

Lemma not_word : forall a, word a -> Some (wnot a) = int_result (- val a - 1).
Proof.
  intros a A. rewrite (wnot_sub a A). pose proof (val_range a A) as R. unfold int_result.
  replace (- 2 ^ 31 <=? - val a - 1) with true by lia. replace (- val a - 1 <? 2 ^ 31) with true by lia.
  cbn [andb]. f_equal. unfold val, word in *. destruct (a <? 2 ^ 31) eqn:E.
  - replace (- a - 1) with ((ones - a) + (-1) * 2 ^ 32) by (unfold ones; lia).
    rewrite Z.mod_add by lia. symmetry. apply Z.mod_small. unfold ones. lia.
  - symmetry. replace (- (a - 2 ^ 32) - 1) with (ones - a) by (unfold ones; lia). apply Z.mod_small. unfold ones. lia.
Qed.

Lemma bit31 : forall a, word a -> Z.testbit a 31 = (2 ^ 31 <=? a).
Proof.
  intros a A. destruct (2 ^ 31 <=? a) eqn:L.
  - destruct (Z.testbit a 31) eqn:B; [reflexivity|]. exfalso.
    assert (W : a < 2 ^ 31); [|lia].
    destruct (Z.eq_dec a 0) as [->|N0]; [lia|].
    apply Z.log2_lt_pow2; [unfold word in A; lia|].
    destruct (Z_lt_le_dec (Z.log2 a) 31) as [G|G]; [exact G|]. exfalso.
    assert (Z.log2 a < 32) by (apply Z.log2_lt_pow2; unfold word in A; lia).
    assert (Z.log2 a = 31) by lia. pose proof (Z.bit_log2 a ltac:(unfold word in A; lia)) as Q.
    rewrite H0 in Q. congruence.
  - destruct (Z.eq_dec a 0) as [->|N0]; [reflexivity|].
    apply Z.bits_above_log2; [apply A|]. apply Z.log2_lt_pow2; [unfold word in A; lia|lia].
Qed.

Lemma flip_word : forall a, word a -> Z.lxor a signbit = (a + 2 ^ 31) mod 2 ^ 32.
Proof.
  intros a A.
  assert (S : signbit = 2 ^ 31) by reflexivity.
  destruct (Z_lt_le_dec a (2 ^ 31)) as [L|L].
  - rewrite Z.mod_small by (unfold word in A; lia). rewrite <- S.
    symmetry. apply Z.add_nocarry_lxor. apply Z.bits_inj'. intros i Hi.
    rewrite Z.land_spec, Z.testbit_0_l. rewrite S, Z.pow2_bits_eqb by lia.
    destruct (Z.eqb_spec 31 i) as [<-|N]; [|apply andb_false_r].
    destruct (Z.eq_dec a 0) as [->|N0]; [reflexivity|].
    rewrite Z.bits_above_log2; [reflexivity|apply A|]. apply Z.log2_lt_pow2; [unfold word in A; lia|exact L].
  - replace (a + 2 ^ 31) with ((a - 2 ^ 31) + 1 * 2 ^ 32) by lia. rewrite Z.mod_add by lia.
    rewrite Z.mod_small by (unfold word in A; lia).
    assert (B : Z.testbit a 31 = true) by (rewrite (bit31 a A); lia).
    rewrite S. rewrite Z.sub_nocarry_ldiff.
    + apply Z.bits_inj'. intros i Hi. rewrite Z.lxor_spec, Z.ldiff_spec, Z.pow2_bits_eqb by lia.
      destruct (Z.eqb_spec 31 i) as [<-|N]; [rewrite B; reflexivity|].
      rewrite xorb_false_r. cbn [negb]. rewrite andb_true_r. reflexivity.
    + apply Z.bits_inj'. intros i Hi. rewrite Z.ldiff_spec, Z.testbit_0_l, Z.pow2_bits_eqb by lia.
      destruct (Z.eqb_spec 31 i) as [<-|N]; [rewrite B; reflexivity|reflexivity].
Qed.

Lemma abs_land : forall a, Z.land a 2147483647 = a mod 2 ^ 31.
Proof. intros a. change 2147483647 with (Z.ones 31). apply Z.land_ones. lia. Qed.

Lemma sign_land : forall b, word b -> Z.land b signbit = if 2 ^ 31 <=? b then 2 ^ 31 else 0.
Proof.
  intros b B. rewrite <- (bit31 b B). apply Z.bits_inj'. intros i Hi.
  rewrite Z.land_spec. change signbit with (2 ^ 31). rewrite Z.pow2_bits_eqb by lia.
  destruct (Z.eqb_spec 31 i) as [<-|N].
  - rewrite andb_true_r. destruct (Z.testbit b 31); reflexivity.
  - rewrite andb_false_r. destruct (Z.testbit b 31); [|rewrite Z.testbit_0_l; reflexivity].
    rewrite Z.pow2_bits_eqb by lia. destruct (Z.eqb_spec 31 i); [contradiction|reflexivity].
Qed.

Lemma copysign_word : forall a b, word a -> word b ->
  Z.lor (Z.land signbit b) (Z.land (wnot signbit) a) = a mod 2 ^ 31 + (if 2 ^ 31 <=? b then 2 ^ 31 else 0).
Proof.
  intros a b A B. rewrite <- (sign_land b B), <- abs_land.
  change (wnot signbit) with 2147483647.
  rewrite (Z.land_comm signbit b), (Z.land_comm 2147483647 a).
  rewrite Z.lor_comm. symmetry. rewrite Z.add_nocarry_lxor.
  - apply Z.bits_inj'. intros i Hi. rewrite Z.lxor_spec, Z.lor_spec, !Z.land_spec.
    assert (X : Z.testbit 2147483647 i && Z.testbit signbit i = false).
    { rewrite <- Z.land_spec. change (Z.land 2147483647 signbit) with 0. apply Z.testbit_0_l. }
    destruct (Z.testbit 2147483647 i), (Z.testbit signbit i), (Z.testbit a i), (Z.testbit b i); try reflexivity; discriminate.
  - apply Z.bits_inj'. intros i Hi. rewrite !Z.land_spec, Z.testbit_0_l.
    assert (X : Z.testbit 2147483647 i && Z.testbit signbit i = false).
    { rewrite <- Z.land_spec. change (Z.land 2147483647 signbit) with 0. apply Z.testbit_0_l. }
    destruct (Z.testbit 2147483647 i), (Z.testbit signbit i), (Z.testbit a i), (Z.testbit b i); try reflexivity; discriminate.
Qed.

(* ---- floats ---------------------------------------------------------------- *)
Lemma cmp_swap : forall a b,
  b32_compare (b32_of_bits b) (b32_of_bits a) =
  match b32_compare (b32_of_bits a) (b32_of_bits b) with Some c => Some (CompOpp c) | None => None end.
Proof. intros a b. apply Bcompare_swap. Qed.

Lemma fcmp_lt : forall a b, fcmp CLt a b = flt a b.
Proof. intros. unfold fcmp, flt. destruct (b32_compare _ _) as [[| |]|]; reflexivity. Qed.
Lemma fcmp_gt : forall a b, fcmp CGt a b = flt b a.
Proof. intros. unfold fcmp, flt. rewrite (cmp_swap a b). destruct (b32_compare _ _) as [[| |]|]; reflexivity. Qed.
Lemma fcmp_eq : forall a b, fcmp CEq a b = feq a b.
Proof. intros. unfold fcmp, feq. destruct (b32_compare _ _) as [[| |]|]; reflexivity. Qed.
Lemma fcmp_ne : forall a b, fcmp CNe a b = negb (feq a b).
Proof. intros. unfold fcmp, feq. destruct (b32_compare _ _) as [[| |]|]; reflexivity. Qed.
Lemma fcmp_le : forall a b, fcmp CLe a b = flt a b || feq a b.
Proof. intros. unfold fcmp, flt, feq. destruct (b32_compare _ _) as [[| |]|]; reflexivity. Qed.
Lemma fcmp_ge : forall a b, fcmp CGe a b = flt b a || feq a b.
Proof. intros. unfold fcmp, flt, feq. rewrite (cmp_swap a b). destruct (b32_compare _ _) as [[| |]|]; reflexivity. Qed.
Lemma feq_sym : forall a b, feq a b = feq b a.
Proof. intros. unfold feq. rewrite (cmp_swap a b). destruct (b32_compare _ _) as [[| |]|]; reflexivity. Qed.

Lemma cmp_none : forall a b, b32_compare (b32_of_bits a) (b32_of_bits b) = None <-> nan a = true \/ nan b = true.
Proof.
  intros a b. unfold nan. generalize (b32_of_bits a) (b32_of_bits b). clear a b. intros x y.
  destruct x as [s|s|s p|s m e], y as [s'|s'|s' p'|s' m' e']; cbn [is_nan];
    try destruct s; try destruct s'; cbn; split; try discriminate; try (intros [|]; discriminate); auto.
Qed.

Lemma fneqord_word : forall a b, nan a = false -> nan b = false -> fneqord a b = negb (feq a b).
Proof.
  intros a b A B. pose proof (cmp_none a b) as N. unfold fneqord, feq.
  destruct (b32_compare _ _) as [[| |]|]; try reflexivity.
  destruct N as [N _]. destruct (N eq_refl); congruence.
Qed.

Lemma nan0 : nan 0 = false.
Proof. reflexivity. Qed.

(* the zeros *)
Lemma feq0 : forall a, word a -> feq a 0 = true <-> (a = 0 \/ a = 2 ^ 31).
Proof.
  intros a A. split.
  - intros H. unfold feq in H.
    assert (R : bits_of_b32 (b32_of_bits a) = a) by (apply bits_of_binary_float_of_bits; exact A).
    change (b32_of_bits 0) with (B754_zero 24 128 false) in H.
    destruct (b32_of_bits a) as [s|s|s p|s m e].
    + destruct s; cbn in R; [right|left]; symmetry; exact R.
    + destruct s; discriminate.
    + destruct s; discriminate.
    + destruct s; discriminate.
  - intros [->| ->]; reflexivity.
Qed.

Lemma not_word_float : forall a, word a -> a <> 2 ^ 31 -> (a =? 0) = feq a 0.
Proof.
  intros a A N. apply eq_true_iff_eq. rewrite (feq0 a A), Z.eqb_eq. split; [auto|]. intros [|]; [assumption|contradiction].
Qed.

(* the sign *)
Lemma sign_word : forall b, word b -> Bsign 24 128 (b32_of_bits b) = (2 ^ 31 <=? b).
Proof.
  intros b B.
  assert (R : bits_of_b32 (b32_of_bits b) = b) by (apply bits_of_binary_float_of_bits; exact B).
  pose proof (split_bits_of_binary_float_correct 23 8 eq_refl eq_refl (b32_of_bits b)) as S.
  change (bits_of_binary_float 23 8 (b32_of_bits b)) with (bits_of_b32 (b32_of_bits b)) in S. rewrite R in S.
  apply (f_equal (fun x => fst (fst x))) in S. unfold split_bits in S. cbn [fst] in S.
  change (2 ^ 23 * 2 ^ 8) with (2 ^ 31) in S. rewrite S.
  destruct (b32_of_bits b) as [s|s|s p q|s m e q]; try reflexivity.
  cbn [Bsign]. unfold split_bits_of_binary_float. destruct (0 <=? Z.pos m - 2 ^ 23); reflexivity.
Qed.

Lemma flt0_word : forall b, word b -> b <> 2 ^ 31 -> nan b = false -> flt b 0 = (2 ^ 31 <=? b).
Proof.
  intros b B N M. rewrite <- (sign_word b B).
  assert (R : bits_of_b32 (b32_of_bits b) = b) by (apply bits_of_binary_float_of_bits; exact B).
  unfold flt. change (b32_of_bits 0) with (B754_zero 24 128 false).
  unfold nan in M. destruct (b32_of_bits b) as [s|s|s p q|s m e q]; cbn [is_nan] in M; try discriminate.
  - destruct s; [exfalso; apply N; symmetry; exact R|reflexivity].
  - destruct s; reflexivity.
  - destruct s; reflexivity.
Qed.

Lemma copysign_cond : forall a b, word a -> word b -> b <> 2 ^ 31 -> nan b = false ->
  (if b2w (flt b 0) =? 0 then Z.land a 2147483647 else Z.lxor (Z.land a 2147483647) signbit)
  = a mod 2 ^ 31 + (if 2 ^ 31 <=? b then 2 ^ 31 else 0).
Proof.
  intros a b A B N M. rewrite (flt0_word b B N M), abs_land.
  assert (R : 0 <= a mod 2 ^ 31 < 2 ^ 31) by (apply Z.mod_pos_bound; lia).
  destruct (2 ^ 31 <=? b); cbn [b2w Z.eqb]; [|lia].
  rewrite flip_word by (unfold word; lia). apply Z.mod_small. lia.
Qed.
