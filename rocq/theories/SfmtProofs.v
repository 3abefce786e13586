(* The state update of the generators is the recursion. *)
From Coq Require Import ZArith List Bool Lia ZifyBool.
From Verif Require Import FloatModel RngModel SfmtSpec.
Import ListNotations.
Open Scope Z_scope.
Ltac Zify.zify_post_hook ::= idtac.

Lemma low_high a b m : 0 <= a < 2 ^ 32 -> 0 <= m -> Z.testbit (a + 2 ^ 32 * b) m = if m <? 32 then Z.testbit a m else Z.testbit b (m - 32).
Proof.
  intros Ha Hm. destruct (Z.ltb_spec m 32).
  - rewrite <- (Z.mod_pow2_bits_low (a + 2 ^ 32 * b) 32 m) by lia. replace (a + 2 ^ 32 * b) with (a + b * 2 ^ 32) by ring. rewrite Z.mod_add by lia. rewrite Z.mod_small by lia. reflexivity.
  - replace m with (m - 32 + 32) at 1 by lia. rewrite <- Z.div_pow2_bits by lia. replace (a + 2 ^ 32 * b) with (a + b * 2 ^ 32) by ring. rewrite Z.div_add by lia. rewrite (Z.div_small a) by lia. reflexivity.
Qed.
Definition pack4 (w0 w1 w2 w3 : Z) : Z := w0 + 2 ^ 32 * w1 + 2 ^ 64 * w2 + 2 ^ 96 * w3.
Definition lane (w0 w1 w2 w3 k : Z) : Z := if k =? 0 then w0 else if k =? 1 then w1 else if k =? 2 then w2 else if k =? 3 then w3 else 0.
Lemma word_high w m : 0 <= w < 2 ^ 32 -> 32 <= m -> Z.testbit w m = false.
Proof. intros H Hm. rewrite <- (Z.mod_small w (2 ^ 32)) by lia. apply Z.mod_pow2_bits_high. lia. Qed.
Lemma pack4_bit w0 w1 w2 w3 m : 0 <= w0 < 2 ^ 32 -> 0 <= w1 < 2 ^ 32 -> 0 <= w2 < 2 ^ 32 -> 0 <= w3 < 2 ^ 32 -> 0 <= m ->
  Z.testbit (pack4 w0 w1 w2 w3) m = if m <? 32 then Z.testbit w0 m else if m <? 64 then Z.testbit w1 (m - 32) else if m <? 96 then Z.testbit w2 (m - 64) else Z.testbit w3 (m - 96).
Proof.
  intros H0 H1 H2 H3 Hm. unfold pack4. replace (w0 + 2 ^ 32 * w1 + 2 ^ 64 * w2 + 2 ^ 96 * w3) with (w0 + 2 ^ 32 * (w1 + 2 ^ 32 * (w2 + 2 ^ 32 * w3))) by ring.
  rewrite low_high by assumption. destruct (Z.ltb_spec m 32); [reflexivity|]. rewrite low_high by (assumption || lia).
  destruct (Z.ltb_spec (m - 32) 32), (Z.ltb_spec m 64); try lia; [reflexivity|]. rewrite low_high by (assumption || lia).
  destruct (Z.ltb_spec (m - 32 - 32) 32), (Z.ltb_spec m 96); try (exfalso; lia); f_equal; lia.
Qed.
Lemma pack4_range w0 w1 w2 w3 : 0 <= w0 < 2 ^ 32 -> 0 <= w1 < 2 ^ 32 -> 0 <= w2 < 2 ^ 32 -> 0 <= w3 < 2 ^ 32 -> 0 <= pack4 w0 w1 w2 w3 < 2 ^ 128.
Proof. unfold pack4. lia. Qed.
Lemma lanes_pack4 f w0 w1 w2 w3 : 0 <= w0 < 2 ^ 32 -> 0 <= w1 < 2 ^ 32 -> 0 <= w2 < 2 ^ 32 -> 0 <= w3 < 2 ^ 32 ->
  lanes f (pack4 w0 w1 w2 w3) = pack4 (f w0) (f w1) (f w2) (f w3).
Proof.
  intros H0 H1 H2 H3. unfold lanes.
  assert (E0 : pack4 w0 w1 w2 w3 mod 2 ^ 32 = w0).
  { unfold pack4. replace (w0 + 2 ^ 32 * w1 + 2 ^ 64 * w2 + 2 ^ 96 * w3) with (w0 + (w1 + 2 ^ 32 * (w2 + 2 ^ 32 * w3)) * 2 ^ 32) by ring. rewrite Z.mod_add, Z.mod_small by lia. reflexivity. }
  assert (E1 : pack4 w0 w1 w2 w3 / 2 ^ 32 mod 2 ^ 32 = w1).
  { unfold pack4. replace (w0 + 2 ^ 32 * w1 + 2 ^ 64 * w2 + 2 ^ 96 * w3) with (w0 + (w1 + (w2 + 2 ^ 32 * w3) * 2 ^ 32) * 2 ^ 32) by ring. rewrite Z.div_add, Z.div_small by lia. cbn [Z.add]. rewrite Z.mod_add, Z.mod_small by lia. reflexivity. }
  assert (E2 : pack4 w0 w1 w2 w3 / 2 ^ 64 mod 2 ^ 32 = w2).
  { unfold pack4. replace (w0 + 2 ^ 32 * w1 + 2 ^ 64 * w2 + 2 ^ 96 * w3) with ((w0 + 2 ^ 32 * w1) + (w2 + w3 * 2 ^ 32) * 2 ^ 64) by ring. rewrite Z.div_add, Z.div_small by lia. cbn [Z.add]. rewrite Z.mod_add, Z.mod_small by lia. reflexivity. }
  assert (E3 : pack4 w0 w1 w2 w3 / 2 ^ 96 mod 2 ^ 32 = w3).
  { unfold pack4. replace (w0 + 2 ^ 32 * w1 + 2 ^ 64 * w2 + 2 ^ 96 * w3) with ((w0 + 2 ^ 32 * w1 + 2 ^ 64 * w2) + w3 * 2 ^ 96) by ring. rewrite Z.div_add, Z.div_small by lia. cbn [Z.add]. rewrite Z.mod_small by lia. reflexivity. }
  rewrite E0, E1, E2, E3. reflexivity.
Qed.

(* one application of the macro, on the words of four vectors *)
Definition xw (a : Z -> Z) k := if k =? 0 then u32 (Z.shiftl (a 0) SFMT_L2A) else Z.lor (u32 (Z.shiftl (a k) SFMT_L2A)) (Z.shiftr (a (k - 1)) SFMT_L2B).
Definition yw (c : Z -> Z) k := if k =? 3 then Z.shiftr (c 3) SFMT_R2A else Z.lor (Z.shiftr (c k) SFMT_R2A) (u32 (Z.shiftl (c (k + 1)) SFMT_R2B)).
Definition word4 (a b c d : Z -> Z) k := Z.lxor (a k) (Z.lxor (Z.lxor (xw a k) (Z.land (Z.shiftr (b k) SFMT_R1) (SFMT_MASK k))) (Z.lxor (yw c k) (u32 (Z.shiftl (d k) SFMT_L1)))).
Lemma range_bits x n : 0 <= n -> 0 <= x -> (forall m, n <= m -> Z.testbit x m = false) -> 0 <= x < 2 ^ n.
Proof.
  intros Hn Hx H. split; [exact Hx|]. destruct (Z.eq_dec x 0) as [-> |Nz]; [apply Z.pow_pos_nonneg; lia|]. apply Z.log2_lt_pow2; [lia|].
  destruct (Z.lt_ge_cases (Z.log2 x) n) as [|Hge]; [assumption|]. specialize (H _ Hge). rewrite Z.bit_log2 in H by lia. discriminate.
Qed.
Lemma word4_word a b c d k : (forall j, 0 <= j < 4 -> 0 <= a j < 2 ^ 32) -> (forall j, 0 <= j < 4 -> 0 <= b j < 2 ^ 32) -> (forall j, 0 <= j < 4 -> 0 <= c j < 2 ^ 32) -> (forall j, 0 <= j < 4 -> 0 <= d j < 2 ^ 32) ->
  0 <= k < 4 -> 0 <= word4 a b c d k < 2 ^ 32.
Proof.
  intros Ha Hb Hc Hd Hk.
  assert (U : forall x, 0 <= u32 x < 2 ^ 32) by (intros; apply Z.mod_pos_bound; lia).
  assert (S : forall x n, 0 <= x < 2 ^ 32 -> 0 <= n -> 0 <= Z.shiftr x n < 2 ^ 32).
  { intros x n Hx Hn. rewrite Z.shiftr_div_pow2 by lia. split; [apply Z.div_pos; lia|]. apply Z.le_lt_trans with x; [|lia]. apply Z.div_le_upper_bound; [lia|]. pose proof (Z.pow_pos_nonneg 2 n). nia. }
  assert (B : forall f x y, (forall m, Z.testbit (f x y) m = orb (Z.testbit x m) (Z.testbit y m) \/ Z.testbit (f x y) m = xorb (Z.testbit x m) (Z.testbit y m) \/ Z.testbit (f x y) m = andb (Z.testbit x m) (Z.testbit y m)) ->
    0 <= f x y -> 0 <= x < 2 ^ 32 -> 0 <= y < 2 ^ 32 -> 0 <= f x y < 2 ^ 32).
  { intros f x y H H0 Hx Hy. apply range_bits; [lia|exact H0|]. intros m Hm. pose proof (word_high x m Hx Hm) as Qx. pose proof (word_high y m Hy Hm) as Qy.
    destruct (H m) as [E|[E|E]]; rewrite E, Qx, Qy; reflexivity. }
  assert (LO : forall x y, 0 <= x < 2 ^ 32 -> 0 <= y < 2 ^ 32 -> 0 <= Z.lor x y < 2 ^ 32) by (intros x y Hx Hy; apply B; [intros; left; apply Z.lor_spec|apply Z.lor_nonneg; lia|lia|lia]).
  assert (LX : forall x y, 0 <= x < 2 ^ 32 -> 0 <= y < 2 ^ 32 -> 0 <= Z.lxor x y < 2 ^ 32) by (intros x y Hx Hy; apply B; [intros; right; left; apply Z.lxor_spec|apply Z.lxor_nonneg; lia|lia|lia]).
  assert (LA : forall x y, 0 <= x < 2 ^ 32 -> 0 <= y < 2 ^ 32 -> 0 <= Z.land x y < 2 ^ 32) by (intros x y Hx Hy; apply B; [intros; right; right; apply Z.land_spec|apply Z.land_nonneg; lia|lia|lia]).
  assert (M : 0 <= SFMT_MASK k < 2 ^ 32) by (unfold SFMT_MASK; destruct (k =? 0), (k =? 1), (k =? 2); lia).
  unfold word4. apply LX; [auto|]. apply LX; apply LX; try (apply LA; [apply S; [auto|unfold SFMT_R1; lia]|exact M]); try apply U.
  - unfold xw. destruct (Z.eqb_spec k 0); [apply U|]. apply LO; [apply U|]. apply S; [apply Ha; lia|unfold SFMT_L2B; lia].
  - unfold yw. destruct (Z.eqb_spec k 3); [apply S; [apply Hc; lia|unfold SFMT_R2A; lia]|]. apply LO; [apply S; [apply Hc; lia|unfold SFMT_R2A; lia]|apply U].
Qed.
Definition vec4 (a : Z -> Z) : Z := pack4 (a 0) (a 1) (a 2) (a 3).

Lemma u32_shl_bit x n m : 0 <= n -> 0 <= m -> Z.testbit (u32 (Z.shiftl x n)) m = (m <? 32) && (n <=? m) && Z.testbit x (m - n).
Proof.
  intros Hn Hm. unfold u32. destruct (Z.ltb_spec m 32).
  - rewrite Z.mod_pow2_bits_low by lia. rewrite Z.shiftl_spec by lia. destruct (Z.leb_spec n m); [reflexivity|]. cbn. apply Z.testbit_neg_r. lia.
  - rewrite Z.mod_pow2_bits_high by lia. reflexivity.
Qed.
Lemma mask_eq : mask = pack4 (SFMT_MASK 0) (SFMT_MASK 1) (SFMT_MASK 2) (SFMT_MASK 3).
Proof. reflexivity. Qed.
Lemma step_recursion a b c d : (forall j, 0 <= j < 4 -> 0 <= a j < 2 ^ 32) -> (forall j, 0 <= j < 4 -> 0 <= b j < 2 ^ 32) -> (forall j, 0 <= j < 4 -> 0 <= c j < 2 ^ 32) -> (forall j, 0 <= j < 4 -> 0 <= d j < 2 ^ 32) ->
  vec4 (word4 a b c d) = recursion (vec4 a) (vec4 b) (vec4 c) (vec4 d).
Proof.
  intros Ha Hb Hc Hd. unfold recursion, vec4. rewrite mask_eq.
  assert (J : forall (e : Z -> Z), (forall j, 0 <= j < 4 -> 0 <= e j < 2 ^ 32) -> 0 <= e 0 < 2 ^ 32 /\ 0 <= e 1 < 2 ^ 32 /\ 0 <= e 2 < 2 ^ 32 /\ 0 <= e 3 < 2 ^ 32) by (intros e He; repeat split; apply He; lia).
  destruct (J _ Ha) as (A0 & A1 & A2 & A3). destruct (J _ Hb) as (B0 & B1 & B2 & B3). destruct (J _ Hc) as (C0 & C1 & C2 & C3). destruct (J _ Hd) as (D0 & D1 & D2 & D3).
  destruct (J (word4 a b c d) (fun j Hj => word4_word a b c d j Ha Hb Hc Hd Hj)) as (W0 & W1 & W2 & W3).
  rewrite !lanes_pack4 by assumption.
  assert (Sr : forall x, 0 <= x < 2 ^ 32 -> 0 <= x / 2 ^ 7 < 2 ^ 32) by (intros x Hx; split; [apply Z.div_pos; lia|apply Z.div_lt_upper_bound; lia]).
  assert (Sl : forall x, 0 <= x * 2 ^ 14 mod 2 ^ 32 < 2 ^ 32) by (intros x; apply Z.mod_pos_bound; lia).
  assert (M : forall k, 0 <= SFMT_MASK k < 2 ^ 32) by (intros k; unfold SFMT_MASK; destruct (k =? 0), (k =? 1), (k =? 2); lia).
  apply Z.bits_inj'. intros m Hm. rewrite !Z.lxor_spec, Z.land_spec.
  rewrite !pack4_bit by auto.
  (* the 128-bit shifts *)
  assert (EL : Z.testbit (pack4 (a 0) (a 1) (a 2) (a 3) * 2 ^ 24 mod 2 ^ 128) m = (m <? 128) && (24 <=? m) && Z.testbit (pack4 (a 0) (a 1) (a 2) (a 3)) (m - 24)).
  { destruct (Z.ltb_spec m 128); [|rewrite Z.mod_pow2_bits_high by lia; reflexivity]. rewrite Z.mod_pow2_bits_low by lia. rewrite Z.mul_pow2_bits by lia.
    destruct (Z.leb_spec 24 m); [reflexivity|]. cbn. apply Z.testbit_neg_r. lia. }
  assert (ER : Z.testbit (pack4 (c 0) (c 1) (c 2) (c 3) / 2 ^ 24) m = Z.testbit (pack4 (c 0) (c 1) (c 2) (c 3)) (m + 24)) by (apply Z.div_pow2_bits; lia).
  rewrite EL, ER. rewrite (pack4_bit (c 0)) by (assumption || lia).
  assert (EA : 24 <= m -> Z.testbit (pack4 (a 0) (a 1) (a 2) (a 3)) (m - 24) = if m - 24 <? 32 then Z.testbit (a 0) (m - 24) else if m - 24 <? 64 then Z.testbit (a 1) (m - 24 - 32) else if m - 24 <? 96 then Z.testbit (a 2) (m - 24 - 64) else Z.testbit (a 3) (m - 24 - 96)) by (intros; apply pack4_bit; assumption || lia).
  assert (DR : forall x j, 0 <= j -> Z.testbit (x / 2 ^ 7) j = Z.testbit x (j + 7)) by (intros; apply Z.div_pow2_bits; lia).
  assert (DL : forall x j, 0 <= j -> Z.testbit (x * 2 ^ 14 mod 2 ^ 32) j = (j <? 32) && (14 <=? j) && Z.testbit x (j - 14)).
  { intros x j Hj. rewrite <- Z.shiftl_mul_pow2 by lia. apply (u32_shl_bit x 14 j); lia. }
  assert (WB : forall k j, 0 <= k < 4 -> 0 <= j < 32 -> Z.testbit (word4 a b c d k) j =
     xorb (Z.testbit (a k) j) (xorb (xorb (if j <? 24 then (if k =? 0 then false else Z.testbit (a (k - 1)) (j + 8)) else Z.testbit (a k) (j - 24)) (Z.testbit (b k) (j + 7) && Z.testbit (SFMT_MASK k) j))
       (xorb (if j <? 8 then Z.testbit (c k) (j + 24) else if k =? 3 then false else Z.testbit (c (k + 1)) (j - 8)) ((14 <=? j) && Z.testbit (d k) (j - 14))))).
  { intros k j Hk Hj. unfold word4. rewrite !Z.lxor_spec, Z.land_spec. rewrite u32_shl_bit by (unfold SFMT_L1; lia). rewrite Z.shiftr_spec by lia. unfold SFMT_L1, SFMT_R1. replace (j <? 32) with true by lia. cbn [andb].
    f_equal. f_equal; [f_equal|f_equal].
    - unfold xw, SFMT_L2A, SFMT_L2B. destruct (Z.eqb_spec k 0) as [-> |].
      + rewrite u32_shl_bit by lia. replace (j <? 32) with true by lia. cbn [andb]. destruct (Z.leb_spec 24 j), (Z.ltb_spec j 24); try lia; reflexivity.
      + rewrite Z.lor_spec, u32_shl_bit, Z.shiftr_spec by lia. replace (j <? 32) with true by lia. cbn [andb]. destruct (Z.leb_spec 24 j), (Z.ltb_spec j 24); try lia; cbn [andb orb]; [|reflexivity].
        rewrite (word_high (a (k - 1)) (j + 8)) by (apply Ha || idtac; lia). apply orb_false_r.
    - unfold yw, SFMT_R2A, SFMT_R2B. destruct (Z.eqb_spec k 3) as [-> |].
      + rewrite Z.shiftr_spec by lia. destruct (Z.ltb_spec j 8); [reflexivity|]. apply word_high; [apply Hc; lia|lia].
      + rewrite Z.lor_spec, u32_shl_bit, Z.shiftr_spec by lia. replace (j <? 32) with true by lia. cbn [andb]. destruct (Z.leb_spec 8 j), (Z.ltb_spec j 8); try lia; cbn [andb]; [|apply orb_false_r].
        rewrite (word_high (c k) (j + 24)) by (apply Hc || idtac; lia). reflexivity. }
  destruct (Z.ltb_spec m 32); [|destruct (Z.ltb_spec m 64); [|destruct (Z.ltb_spec m 96); [|destruct (Z.ltb_spec m 128)]]].
  - rewrite WB by lia. rewrite DR, DL by lia. replace (m <? 32) with true by lia. replace (m <? 128) with true by lia. cbn [andb Z.eqb Pos.eqb].
    f_equal. f_equal; f_equal.
    { destruct (Z.ltb_spec m 24), (Z.leb_spec 24 m); try (exfalso; lia); cbn [andb]; [reflexivity|rewrite EA by lia; replace (m - 24 <? 32) with true by lia; reflexivity]. }
    destruct (Z.ltb_spec m 8), (Z.ltb_spec (m + 24) 32); try (exfalso; lia); [reflexivity|]. replace (m + 24 <? 64) with true by lia. f_equal; first [reflexivity|lia].
  - rewrite WB by lia. rewrite DR, DL by lia. replace (m - 32 <? 32) with true by lia. replace (m <? 128) with true by lia. replace (24 <=? m) with true by lia. rewrite EA by lia. cbn [andb Z.eqb Pos.eqb Z.add Z.sub Z.opp Z.pos_sub Pos.pred_double Pos.succ].
    f_equal. f_equal; f_equal.
    + destruct (Z.ltb_spec (m - 32) 24), (Z.ltb_spec (m - 24) 32); try (exfalso; lia); [f_equal; first [reflexivity|lia]|]. replace (m - 24 <? 64) with true by lia. f_equal; first [reflexivity|lia].
    + replace (m + 24 <? 32) with false by lia. destruct (Z.ltb_spec (m - 32) 8), (Z.ltb_spec (m + 24) 64); try (exfalso; lia); [f_equal; first [reflexivity|lia]|]. replace (m + 24 <? 96) with true by lia. f_equal; first [reflexivity|lia].
  - rewrite WB by lia. rewrite DR, DL by lia. replace (m - 64 <? 32) with true by lia. replace (m <? 128) with true by lia. replace (24 <=? m) with true by lia. rewrite EA by lia. cbn [andb Z.eqb Pos.eqb].
    f_equal. f_equal; f_equal.
    + replace (m - 24 <? 32) with false by lia. destruct (Z.ltb_spec (m - 64) 24), (Z.ltb_spec (m - 24) 64); try (exfalso; lia); [f_equal; first [reflexivity|lia]|]. replace (m - 24 <? 96) with true by lia. f_equal; first [reflexivity|lia].
    + replace (m + 24 <? 32) with false by lia. replace (m + 24 <? 64) with false by lia. destruct (Z.ltb_spec (m - 64) 8), (Z.ltb_spec (m + 24) 96); try (exfalso; lia); f_equal; first [reflexivity|lia].
  - rewrite WB by lia. rewrite DR, DL by lia. replace (m - 96 <? 32) with true by lia. replace (m <? 128) with true by lia. replace (24 <=? m) with true by lia. rewrite EA by lia. cbn [andb Z.eqb Pos.eqb].
    f_equal. f_equal; f_equal.
    + replace (m - 24 <? 32) with false by lia. replace (m - 24 <? 64) with false by lia. destruct (Z.ltb_spec (m - 96) 24), (Z.ltb_spec (m - 24) 96); try (exfalso; lia); f_equal; first [reflexivity|lia].
    + replace (m + 24 <? 32) with false by lia. replace (m + 24 <? 64) with false by lia. replace (m + 24 <? 96) with false by lia. destruct (Z.ltb_spec (m - 96) 8); [f_equal; first [reflexivity|lia]|]. symmetry. apply word_high; [assumption|lia].
  - rewrite (word_high (word4 a b c d 3)) by (assumption || lia). rewrite (word_high (a 3)) by (assumption || lia). rewrite DR, DL by lia. replace (m <? 128) with false by lia. replace (m - 96 <? 32) with false by lia.
    rewrite (word_high (b 3)) by (assumption || lia). replace (m + 24 <? 32) with false by lia. replace (m + 24 <? 64) with false by lia. replace (m + 24 <? 96) with false by lia. rewrite (word_high (c 3)) by (assumption || lia). reflexivity.
Qed.

(* ---------- the whole state ---------- *)
Definition vw (s : Z -> Z) (v : Z) : Z -> Z := fun k => s (4 * v + k).
Lemma vec_vw s v : vec s v = vec4 (vw s v).
Proof. unfold vec, vec4, pack4, vw. rewrite Z.add_0_r. reflexivity. Qed.
Lemma step_words s a b c d i : sfmt_step s a b c d i = if (4 * a <=? i) && (i <? 4 * a + 4) then word4 (vw s a) (vw s b) (vw s c) (vw s d) (i - 4 * a) else s i.
Proof. reflexivity. Qed.
Lemma vw_ok s v : words_ok s -> 0 <= v < 88 -> forall j, 0 <= j < 4 -> 0 <= vw s v j < 2 ^ 32.
Proof. intros H Hv j Hj. apply H. lia. Qed.
Lemma step_spec s a b c d : words_ok s -> 0 <= a < 88 -> 0 <= b < 88 -> 0 <= c < 88 -> 0 <= d < 88 ->
  let s' := sfmt_step s a b c d in
  words_ok s' /\ vec s' a = recursion (vec s a) (vec s b) (vec s c) (vec s d) /\ (forall v, v <> a -> vec s' v = vec s v) /\ (forall i, ~ 0 <= i < 352 -> s' i = s i).
Proof.
  intros H Ha Hb Hc Hd. cbv zeta.
  assert (W : forall k, 0 <= k < 4 -> 0 <= word4 (vw s a) (vw s b) (vw s c) (vw s d) k < 2 ^ 32) by (intros k Hk; apply word4_word; try exact Hk; apply vw_ok; assumption).
  split; [|split; [|split]].
  - intros i Hi. rewrite step_words. destruct ((4 * a <=? i) && (i <? 4 * a + 4)) eqn:E; [apply W; lia|apply H, Hi].
  - rewrite !vec_vw. rewrite <- step_recursion by (apply vw_ok; assumption). unfold vec4.
    assert (E : forall k, 0 <= k < 4 -> vw (sfmt_step s a b c d) a k = word4 (vw s a) (vw s b) (vw s c) (vw s d) k).
    { intros k Hk. unfold vw at 1. rewrite step_words. replace ((4 * a <=? 4 * a + k) && (4 * a + k <? 4 * a + 4)) with true by lia. f_equal. lia. }
    rewrite !E by lia. reflexivity.
  - intros v Hv. unfold vec. rewrite !step_words. 
    assert (E : forall k, 0 <= k < 4 -> (4 * a <=? 4 * v + k) && (4 * v + k <? 4 * a + 4) = false) by lia.
    pose proof (E 0) as E0. rewrite Z.add_0_r in E0. rewrite E0, !E by lia. reflexivity.
  - intros i Hi. rewrite step_words. replace ((4 * a <=? i) && (i <? 4 * a + 4)) with false by lia. reflexivity.
Qed.
Lemma step_local s t a b c d : (forall i, 0 <= i < 352 -> s i = t i) -> 0 <= a < 88 -> 0 <= b < 88 -> 0 <= c < 88 -> 0 <= d < 88 ->
  forall i, 0 <= i < 352 -> sfmt_step s a b c d i = sfmt_step t a b c d i.
Proof.
  intros H Ha Hb Hc Hd i Hi. rewrite !step_words. destruct ((4 * a <=? i) && (i <? 4 * a + 4)) eqn:E; [|apply H, Hi].
  assert (V : forall v k, 0 <= v < 88 -> 0 <= k < 4 -> vw s v k = vw t v k) by (intros; apply H; lia).
  set (k := i - 4 * a). assert (Hk : 0 <= k < 4) by lia. unfold word4, xw, yw. rewrite !(V _ k) by lia. f_equal. f_equal.
  - f_equal. rewrite (V a 0) by lia. destruct (Z.eqb_spec k 0); [reflexivity|]. rewrite (V a (k - 1)) by lia. reflexivity.
  - f_equal. destruct (Z.eqb_spec k 3); [rewrite (V c 3) by lia; reflexivity|]. rewrite (V c (k + 1)) by lia. reflexivity.
Qed.
(* the operands of pass n *)
Lemma iter_eq s n : sfmt_iter s n = sfmt_step s n (if n <? 20 then n + 68 else n - 20) (if n <? 2 then 86 + n else n - 2) (if n <? 1 then 87 else n - 1).
Proof. reflexivity. Qed.
(* after n passes: the first n vectors are new *)
Definition halfway (s t : Z -> Z) (n : Z) : Prop :=
  words_ok t /\ (forall v, n <= v < 88 -> vec t v = vec s v) /\ (forall i, ~ 0 <= i < 352 -> t i = s i) /\
  (forall i, 0 <= i < n -> stream s t (i + 88) = recursion (stream s t i) (stream s t (i + 68)) (stream s t (i + 86)) (stream s t (i + 87))).
Lemma halfway_step s t n : 0 <= n < 88 -> halfway s t n -> halfway s (sfmt_iter t n) (n + 1).
Proof.
  intros Hn (K1 & K2 & K3 & K4). rewrite iter_eq.
  assert (B : 0 <= (if n <? 20 then n + 68 else n - 20) < 88 /\ 0 <= (if n <? 2 then 86 + n else n - 2) < 88 /\ 0 <= (if n <? 1 then 87 else n - 1) < 88).
  { destruct (Z.ltb_spec n 20), (Z.ltb_spec n 2), (Z.ltb_spec n 1); lia. }
  destruct B as (B1 & B2 & B3). destruct (step_spec t n _ _ _ K1 Hn B1 B2 B3) as (S1 & S2 & S3 & S4). set (u := sfmt_step t n _ _ _) in *.
  split; [exact S1|]. split; [intros v Hv; rewrite S3 by lia; apply K2; lia|]. split; [intros i Hi; rewrite S4 by exact Hi; apply K3, Hi|].
  assert (ST : forall j, 0 <= j < n + 88 -> stream s u j = stream s t j).
  { intros j Hj. unfold stream. destruct (Z.ltb_spec j 88); [reflexivity|]. apply S3. lia. }
  intros i Hi. destruct (Z.eq_dec i n) as [-> |Ne].
  - rewrite (ST n), (ST (n + 68)), (ST (n + 86)), (ST (n + 87)) by lia. unfold stream at 1. replace (n + 88 <? 88) with false by lia. replace (n + 88 - 88) with n by lia. rewrite S2. f_equal.
    + unfold stream. replace (n <? 88) with true by lia. apply K2. lia.
    + unfold stream. destruct (Z.ltb_spec n 20), (Z.ltb_spec (n + 68) 88); try (exfalso; lia); [apply K2; lia|f_equal; lia].
    + unfold stream. destruct (Z.ltb_spec n 2), (Z.ltb_spec (n + 86) 88); try (exfalso; lia); [replace (86 + n) with (n + 86) by lia; apply K2; lia|f_equal; lia].
    + unfold stream. destruct (Z.ltb_spec n 1), (Z.ltb_spec (n + 87) 88); try (exfalso; lia); [replace (n + 87) with 87 by lia; apply K2; lia|f_equal; lia].
  - rewrite !ST by lia. apply K4. lia.
Qed.
Lemma passes : forall k n s t, 0 <= n -> n + Z.of_nat k = 88 -> halfway s t n -> halfway s (fold_left sfmt_iter (map Z.of_nat (seq (Z.to_nat n) k)) t) 88.
Proof.
  induction k as [|k IH]; intros n s t H0 Hk Hh; cbn [seq map fold_left]; [replace 88 with n by lia; exact Hh|].
  rewrite Z2Nat.id by lia. replace (S (Z.to_nat n)) with (Z.to_nat (n + 1)) by lia. apply IH; [lia|lia|]. apply halfway_step; [lia|exact Hh].
Qed.
Lemma next_recursion s : words_ok s -> halfway s (sfmt_next s) 88.
Proof.
  intros H. apply (passes 88 0 s s); [lia|reflexivity|]. split; [exact H|]. split; [reflexivity|]. split; [reflexivity|]. intros i Hi. lia.
Qed.
Lemma next_local s t : (forall i, 0 <= i < 352 -> s i = t i) -> forall i, 0 <= i < 352 -> sfmt_next s i = sfmt_next t i.
Proof.
  unfold sfmt_next. assert (G : forall k n s t, 0 <= n -> n + Z.of_nat k = 88 -> (forall i, 0 <= i < 352 -> s i = t i) -> forall i, 0 <= i < 352 ->
    fold_left sfmt_iter (map Z.of_nat (seq (Z.to_nat n) k)) s i = fold_left sfmt_iter (map Z.of_nat (seq (Z.to_nat n) k)) t i).
  { induction k as [|k IH]; intros n s0 t0 H0 Hk H; cbn [seq map fold_left]; [exact H|]. rewrite Z2Nat.id by lia. replace (S (Z.to_nat n)) with (Z.to_nat (n + 1)) by lia. apply IH; [lia|lia|].
    rewrite !iter_eq. apply step_local; [exact H|lia| | |]; destruct (Z.ltb_spec n 20), (Z.ltb_spec n 2), (Z.ltb_spec n 1); lia. }
  intros H. apply (G 88%nat 0); [lia|reflexivity|exact H].
Qed.
