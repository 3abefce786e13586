(* Conversions of random words to floating point and integer counting lemmas. *)
From Coq Require Import Reals ZArith List Bool Lia Lra ZifyBool FinFun SpecFloat.
From Flocq Require Import Core BinarySingleNaN.
From Verif Require Import FloatModel FloatProofs RngModel.
Import ListNotations.
Open Scope Z_scope.

(* P holds for exactly c values. *)
Definition cardinal {A : Type} (P : A -> Prop) (c : Z) : Prop :=
  exists l, NoDup l /\ Z.of_nat (length l) = c /\ forall u, In u l <-> P u.

Lemma cardinal_interval lo hi : lo <= hi -> cardinal (fun u => lo <= u < hi) (hi - lo).
Proof.
  intros H. exists (map (fun k => lo + Z.of_nat k) (seq 0 (Z.to_nat (hi - lo)))). split.
  - apply Injective_map_NoDup; [intros x y E; lia|apply seq_NoDup].
  - split; [rewrite map_length, seq_length; lia|]. intros u. rewrite in_map_iff. split.
    + intros (k & <- & Hk). apply in_seq in Hk. lia.
    + intros Hu. exists (Z.to_nat (u - lo)). split; [lia|]. apply in_seq. lia.
Qed.
Lemma cardinal_iff {A : Type} (P Q : A -> Prop) c : (forall u, P u <-> Q u) -> cardinal P c -> cardinal Q c.
Proof.
  intros H (l & L1 & L2 & L3). exists l. split; [exact L1|]. split; [exact L2|]. intros u. rewrite L3. apply H.
Qed.
Lemma nodup_app {A} (l1 l2 : list A) : NoDup l1 -> NoDup l2 -> (forall x, In x l1 -> ~ In x l2) -> NoDup (l1 ++ l2).
Proof.
  induction l1 as [|x l1 IH]; intros A1 A2 H; cbn; [exact A2|]. inversion A1; subst. constructor.
  - rewrite in_app_iff. intros [I|I]; [contradiction|]. exact (H x (or_introl eq_refl) I).
  - apply IH; [assumption|assumption|]. intros y Hy. apply H. right. exact Hy.
Qed.
Lemma cardinal_or {T : Type} (P Q : T -> Prop) c d : (forall u, P u -> Q u -> False) -> cardinal P c -> cardinal Q d ->
  cardinal (fun u => P u \/ Q u) (c + d).
Proof.
  intros H (l & A & B & C) (k & A' & B' & C'). exists (l ++ k). split.
  - apply nodup_app; try assumption. intros x Hx Hk. apply (H x); [apply C|apply C']; assumption.
  - split; [rewrite app_length; lia|]. intros u. rewrite in_app_iff, C, C'. tauto.
Qed.
Lemma cardinal_unique {T : Type} (P : T -> Prop) c d : cardinal P c -> cardinal P d -> c = d.
Proof.
  intros (l & A & B & C) (k & A' & B' & C').
  assert (length l <= length k)%nat by (apply NoDup_incl_length; [exact A|]; intros x Hx; apply C', C; exact Hx).
  assert (length k <= length l)%nat by (apply NoDup_incl_length; [exact A'|]; intros x Hx; apply C, C'; exact Hx).
  lia.
Qed.
Lemma cardinal_empty {T : Type} (P : T -> Prop) : (forall u, ~ P u) -> cardinal P 0.
Proof.
  intros H. exists []. split; [constructor|]. split; [reflexivity|]. intros u. split; [intros []|intros K; exact (H u K)].
Qed.
Lemma nodup_cons_map {T : Type} (a : T) l : NoDup l -> NoDup (map (cons a) l).
Proof. intros H. apply Injective_map_NoDup; [intros x y E; injection E as E; exact E|exact H]. Qed.
(* pairs (head, tail) chosen independently *)
Lemma cardinal_cons {T : Type} (P : T -> Prop) (Q : list T -> Prop) c d : cardinal P c -> cardinal Q d ->
  cardinal (fun ws => match ws with [] => False | a :: r => P a /\ Q r end) (c * d).
Proof.
  intros (l & A & B & C) (k & A' & B' & C').
  exists (flat_map (fun a => map (cons a) k) l). split; [|split].
  - clear B C. induction l as [|a l IH]; cbn [flat_map]; [constructor|]. inversion A; subst.
    apply nodup_app; [apply nodup_cons_map; exact A'|apply IH; assumption|].
    intros x Hx Hy. apply in_map_iff in Hx. destruct Hx as (r & <- & Hr). apply in_flat_map in Hy.
    destruct Hy as (b & Hb & Hy). apply in_map_iff in Hy. destruct Hy as (r' & E & _). injection E as -> _. contradiction.
  - rewrite <- B, <- B'. clear. induction l as [|a l IH]; cbn [flat_map length]; [reflexivity|].
    rewrite app_length, map_length. lia.
  - intros ws. rewrite in_flat_map. split.
    + intros (a & Ha & Hw). apply in_map_iff in Hw. destruct Hw as (r & <- & Hr). split; [apply C|apply C']; assumption.
    + destruct ws as [|a r]; [intros []|]. intros [Ha Hr]. exists a. split; [apply C; exact Ha|].
      apply in_map. apply C'. exact Hr.
Qed.
Lemma cardinal_one (x : Z) : cardinal (fun u => u = x) 1.
Proof.
  apply (cardinal_iff (fun u => x <= u < x + 1)); [intros; lia|]. pose proof (cardinal_interval x (x + 1) ltac:(lia)) as C.
  replace (x + 1 - x) with 1 in C by lia. exact C.
Qed.

(* multiples of a small power of two are exact *)
Lemma pow_R k : 0 <= k -> bpow radix2 k = IZR (2 ^ k).
Proof. intros H. rewrite <- IZR_Zpower by exact H. reflexivity. Qed.

Lemma RN_exact prec emin m e : 0 < prec -> emin <= e -> Z.abs m <= 2 ^ prec ->
  round radix2 (FLT_exp emin prec) ZnearestE (IZR m * bpow radix2 e) = (IZR m * bpow radix2 e)%R.
Proof.
  intros Hp He Hm. apply round_generic; [apply valid_rnd_N|].
  destruct (Z.eq_dec (Z.abs m) (2 ^ prec)) as [E|N].
  - assert (F : generic_format radix2 (FLT_exp emin prec) (bpow radix2 (prec + e))).
    { apply generic_format_bpow. unfold FLT_exp. lia. }
    rewrite bpow_plus in F. rewrite pow_R in F by lia.
    destruct (Z.abs_eq_or_opp m) as [A|A].
    + rewrite <- E, A in F. exact F.
    + replace (IZR m * bpow radix2 e)%R with (- (IZR (2 ^ prec) * bpow radix2 e))%R.
      * apply generic_format_opp. exact F.
      * rewrite <- E, A, opp_IZR. ring.
  - apply generic_format_FLT. exists (Float radix2 m e); [reflexivity| |exact He].
    cbn [Fnum]. change (Zpower radix2 prec) with (2 ^ prec). lia.
Qed.

Lemma RN32_exact m e : -149 <= e -> Z.abs m <= 2 ^ 24 -> RN32 (IZR m * bpow radix2 e) = (IZR m * bpow radix2 e)%R.
Proof. intros. apply RN_exact; lia. Qed.
Lemma RN64_exact m e : -1074 <= e -> Z.abs m <= 2 ^ 53 -> RN64 (IZR m * bpow radix2 e) = (IZR m * bpow radix2 e)%R.
Proof. intros. apply RN_exact; lia. Qed.

Lemma mb_le m e k b : Z.abs m <= 2 ^ k -> 0 <= k -> k + e <= b -> (Rabs (IZR m * bpow radix2 e) <= bpow radix2 b)%R.
Proof.
  intros Hm Hk H. rewrite Rabs_mult, (Rabs_pos_eq (bpow radix2 e)) by apply bpow_ge_0.
  apply Rle_trans with (bpow radix2 (k + e)); [|apply bpow_le; lia]. rewrite bpow_plus.
  apply Rmult_le_compat_r; [apply bpow_ge_0|]. rewrite <- abs_IZR, pow_R by lia. apply IZR_le. exact Hm.
Qed.

Lemma fin32_Z m : Z.abs m <= 2 ^ 24 -> fin32 (f_of_Z m) (IZR m).
Proof.
  intros Hm. pose proof (RN32_exact m 0 ltac:(lia) Hm) as R. pose proof (mb_le m 0 24 127 Hm ltac:(lia) ltac:(lia)) as B.
  cbn [bpow] in R, B. rewrite Rmult_1_r in R, B. pose proof (f_of_Z_ok m B) as F. rewrite R in F. exact F.
Qed.
Lemma fin64_Z m : Z.abs m <= 2 ^ 53 -> fin64 (d_of_Z m) (IZR m).
Proof.
  intros Hm. pose proof (RN64_exact m 0 ltac:(lia) Hm) as R. pose proof (mb_le m 0 53 1023 Hm ltac:(lia) ltac:(lia)) as B.
  cbn [bpow] in R, B. rewrite Rmult_1_r in R, B. pose proof (d_of_Z_ok m B) as F. rewrite R in F. exact F.
Qed.

Lemma const32 x s : B2SF x = S754_finite false 8388608 s -> fin32 x (bpow radix2 (23 + s)).
Proof.
  intros H. split.
  - rewrite <- is_finite_SF_B2SF, H. reflexivity.
  - rewrite <- (SF2R_B2SF 24 128), H. unfold SF2R, F2R. cbn [Fnum Fexp cond_Zopp]. rewrite bpow_plus.
    reflexivity.
Qed.
Lemma const64 x s : B2SF x = S754_finite false 4503599627370496 s -> fin64 x (bpow radix2 (52 + s)).
Proof.
  intros H. split.
  - rewrite <- is_finite_SF_B2SF, H. reflexivity.
  - rewrite <- (SF2R_B2SF 53 1024), H. unfold SF2R, F2R. cbn [Fnum Fexp cond_Zopp]. rewrite bpow_plus.
    reflexivity.
Qed.

Lemma scale32 m x e : 0 <= m <= 2 ^ 24 -> fin32 x (IZR m) ->
  -100 <= e <= 0 -> forall c, fin32 c (bpow radix2 e) -> fin32 (f_mul x c) (IZR m * bpow radix2 e).
Proof.
  intros Hm Hx He c Hc. rewrite <- (RN32_exact m e) by lia. apply f_mul_ok; try assumption.
  apply (mb_le m e 24); lia.
Qed.
Lemma scale64 m x e : 0 <= m <= 2 ^ 53 -> fin64 x (IZR m) ->
  -100 <= e <= 0 -> forall c, fin64 c (bpow radix2 e) -> fin64 (d_mul x c) (IZR m * bpow radix2 e).
Proof.
  intros Hm Hx He c Hc. rewrite <- (RN64_exact m e) by lia. apply d_mul_ok; try assumption.
  apply (mb_le m e 53); lia.
Qed.

Lemma shr u k : 0 <= k -> Z.shiftr u k = u / 2 ^ k.
Proof. apply Z.shiftr_div_pow2. Qed.
Lemma div_bound u k b : 0 <= k -> 0 <= b -> 0 <= u < 2 ^ (k + b) -> 0 <= u / 2 ^ k < 2 ^ b.
Proof.
  intros Hk Hb Hu. assert (0 < 2 ^ k) by (apply Z.pow_pos_nonneg; lia). split; [apply Z.div_pos; lia|].
  apply Z.div_lt_upper_bound; [lia|]. rewrite <- Z.pow_add_r by lia. lia.
Qed.
Lemma land1 u : Z.land u 1 = u mod 2.
Proof. change 1 with (Z.ones 1). rewrite Z.land_ones by lia. reflexivity. Qed.

Lemma bpow_m24 : bpow radix2 (-24) = (/ 16777216)%R.
Proof. cbn. f_equal. Qed.
Lemma bpow_m53 : bpow radix2 (-53) = (/ 9007199254740992)%R.
Proof. cbn. f_equal. Qed.

Lemma c24 : fin32 (f_div (f_of_Z 1) (f_of_Z 16777216)) (bpow radix2 (-24)).
Proof. apply (const32 _ (-47)). vm_compute. reflexivity. Qed.
Lemma c23 : fin32 (f_div (f_of_Z 2) (f_of_Z 16777216)) (bpow radix2 (-23)).
Proof. apply (const32 _ (-46)). vm_compute. reflexivity. Qed.
Lemma half32 : fin32 (f_div (f_of_Z 1) (f_of_Z 2)) (bpow radix2 (-1)).
Proof. apply (const32 _ (-24)). vm_compute. reflexivity. Qed.
Lemma c53 : fin64 (d_div (d_of_Z 1) (d_of_Z 9007199254740992)) (bpow radix2 (-53)).
Proof. apply (const64 _ (-105)). vm_compute. reflexivity. Qed.
Lemma c52 : fin64 (d_div (d_of_Z 2) (d_of_Z 9007199254740992)) (bpow radix2 (-52)).
Proof. apply (const64 _ (-104)). vm_compute. reflexivity. Qed.
Lemma half64 : fin64 (d_div (d_of_Z 1) (d_of_Z 2)) (bpow radix2 (-1)).
Proof. apply (const64 _ (-53)). vm_compute. reflexivity. Qed.

Lemma frand_c0_ok u : 0 <= u < 2 ^ 32 -> fin32 (conv_frand_c0 u) (IZR (u / 2 ^ 8) / 16777216).
Proof.
  intros Hu. unfold conv_frand_c0, Rdiv. rewrite <- bpow_m24, shr by lia.
  pose proof (div_bound u 8 24 ltac:(lia) ltac:(lia) ltac:(lia)).
  apply scale32; [lia|apply fin32_Z; lia|lia|exact c24].
Qed.
Lemma frand_c1_ok u : 0 <= u < 2 ^ 32 -> fin32 (conv_frand_c1 u) (IZR (u / 2 ^ 8 + 1) / 16777216).
Proof.
  intros Hu. unfold conv_frand_c1, Rdiv. rewrite <- bpow_m24, shr by lia.
  pose proof (div_bound u 8 24 ltac:(lia) ltac:(lia) ltac:(lia)).
  apply scale32; [lia|apply fin32_Z; lia|lia|exact c24].
Qed.
Lemma frand_c_ok u : 0 <= u < 2 ^ 32 -> fin32 (conv_frand_c u) (IZR (u / 2 ^ 8 + u mod 2) / 16777216).
Proof.
  intros Hu. unfold conv_frand_c, Rdiv. rewrite <- bpow_m24, shr, land1 by lia.
  pose proof (div_bound u 8 24 ltac:(lia) ltac:(lia) ltac:(lia)).
  pose proof (Z.mod_pos_bound u 2 ltac:(lia)).
  apply scale32; [lia|apply fin32_Z; lia|lia|exact c24].
Qed.
Lemma drand_c0_ok u : 0 <= u < 2 ^ 64 -> fin64 (conv_drand_c0 u) (IZR (u / 2 ^ 11) / 9007199254740992).
Proof.
  intros Hu. unfold conv_drand_c0, Rdiv. rewrite <- bpow_m53, shr by lia.
  pose proof (div_bound u 11 53 ltac:(lia) ltac:(lia) ltac:(lia)).
  apply scale64; [lia|apply fin64_Z; lia|lia|exact c53].
Qed.
Lemma drand_c1_ok u : 0 <= u < 2 ^ 64 -> fin64 (conv_drand_c1 u) (IZR (u / 2 ^ 11 + 1) / 9007199254740992).
Proof.
  intros Hu. unfold conv_drand_c1, Rdiv. rewrite <- bpow_m53, shr by lia.
  pose proof (div_bound u 11 53 ltac:(lia) ltac:(lia) ltac:(lia)).
  apply scale64; [lia|apply fin64_Z; lia|lia|exact c53].
Qed.
Lemma drand_c_ok u : 0 <= u < 2 ^ 64 -> fin64 (conv_drand_c u) (IZR (u / 2 ^ 11 + u mod 2) / 9007199254740992).
Proof.
  intros Hu. unfold conv_drand_c, Rdiv. rewrite <- bpow_m53, shr, land1 by lia.
  pose proof (div_bound u 11 53 ltac:(lia) ltac:(lia) ltac:(lia)).
  pose proof (Z.mod_pos_bound u 2 ltac:(lia)).
  apply scale64; [lia|apply fin64_Z; lia|lia|exact c53].
Qed.
Lemma frand_ok u : 0 <= u < 2 ^ 32 -> fin32 (conv_frand u) (IZR (2 * (u / 2 ^ 9) + 1) / 16777216).
Proof.
  intros Hu. unfold conv_frand. rewrite shr by lia.
  pose proof (div_bound u 9 23 ltac:(lia) ltac:(lia) ltac:(lia)) as B. set (m := u / 2 ^ 9) in *. clearbody m.
  assert (E : (IZR m + bpow radix2 (-1))%R = (IZR (2 * m + 1) * bpow radix2 (-1))%R).
  { rewrite plus_IZR, mult_IZR. change (bpow radix2 (-1)) with (/ 2)%R. lra. }
  assert (A : fin32 (f_add (f_of_Z m) (f_div (f_of_Z 1) (f_of_Z 2))) (IZR (2 * m + 1) * bpow radix2 (-1))).
  { rewrite <- (RN32_exact (2 * m + 1) (-1)) by lia. rewrite <- E. apply f_add_ok; [apply fin32_Z; lia|exact half32|].
    rewrite E. apply (mb_le _ _ 24); lia. }
  replace (IZR (2 * m + 1) / 16777216)%R with (IZR (2 * m + 1) * bpow radix2 (-1) * bpow radix2 (-23))%R.
  2:{ unfold Rdiv. rewrite <- bpow_m24. rewrite Rmult_assoc, <- bpow_plus. reflexivity. }
  assert (E2 : (IZR (2 * m + 1) * bpow radix2 (-1) * bpow radix2 (-23))%R = (IZR (2 * m + 1) * bpow radix2 (-24))%R).
  { rewrite Rmult_assoc, <- bpow_plus. reflexivity. }
  rewrite E2, <- (RN32_exact (2 * m + 1) (-24)) by lia. rewrite <- E2. apply f_mul_ok; [exact A|exact c23|].
  rewrite E2. apply (mb_le _ _ 24); lia.
Qed.
Lemma drand_ok u : 0 <= u < 2 ^ 64 -> fin64 (conv_drand u) (IZR (2 * (u / 2 ^ 12) + 1) / 9007199254740992).
Proof.
  intros Hu. unfold conv_drand. rewrite shr by lia.
  pose proof (div_bound u 12 52 ltac:(lia) ltac:(lia) ltac:(lia)) as B. set (m := u / 2 ^ 12) in *. clearbody m.
  assert (E : (IZR m + bpow radix2 (-1))%R = (IZR (2 * m + 1) * bpow radix2 (-1))%R).
  { rewrite plus_IZR, mult_IZR. change (bpow radix2 (-1)) with (/ 2)%R. lra. }
  assert (A : fin64 (d_add (d_of_Z m) (d_div (d_of_Z 1) (d_of_Z 2))) (IZR (2 * m + 1) * bpow radix2 (-1))).
  { rewrite <- (RN64_exact (2 * m + 1) (-1)) by lia. rewrite <- E. apply d_add_ok; [apply fin64_Z; lia|exact half64|].
    rewrite E. apply (mb_le _ _ 53); lia. }
  replace (IZR (2 * m + 1) / 9007199254740992)%R with (IZR (2 * m + 1) * bpow radix2 (-1) * bpow radix2 (-52))%R.
  2:{ unfold Rdiv. rewrite <- bpow_m53. rewrite Rmult_assoc, <- bpow_plus. reflexivity. }
  assert (E2 : (IZR (2 * m + 1) * bpow radix2 (-1) * bpow radix2 (-52))%R = (IZR (2 * m + 1) * bpow radix2 (-53))%R).
  { rewrite Rmult_assoc, <- bpow_plus. reflexivity. }
  rewrite E2, <- (RN64_exact (2 * m + 1) (-53)) by lia. rewrite <- E2. apply d_mul_ok; [exact A|exact c52|].
  rewrite E2. apply (mb_le _ _ 53); lia.
Qed.

(* How many words give a given lattice point. *)
Lemma count_div k N m : 0 <= k -> 0 <= m < 2 ^ (N - k) -> k <= N ->
  cardinal (fun u => 0 <= u < 2 ^ N /\ u / 2 ^ k = m) (2 ^ k).
Proof.
  intros Hk Hm HN. assert (P : 0 < 2 ^ k) by (apply Z.pow_pos_nonneg; lia).
  assert (E : 2 ^ N = 2 ^ (N - k) * 2 ^ k) by (rewrite <- Z.pow_add_r by lia; f_equal; lia).
  apply (cardinal_iff (fun u => m * 2 ^ k <= u < m * 2 ^ k + 2 ^ k)).
  - intros u. split.
    + intros H. assert (D : u / 2 ^ k = m).
      { symmetry. apply (Z.div_unique u (2 ^ k) m (u - m * 2 ^ k)); lia. }
      split; [nia|exact D].
    + intros [H D]. pose proof (Z.div_mod u (2 ^ k) ltac:(lia)). pose proof (Z.mod_pos_bound u (2 ^ k) P). lia.
  - pose proof (cardinal_interval (m * 2 ^ k) (m * 2 ^ k + 2 ^ k) ltac:(lia)) as C.
    replace (m * 2 ^ k + 2 ^ k - m * 2 ^ k) with (2 ^ k) in C by lia. exact C.
Qed.

(* words u in [lo, lo + 2 h) of given lowest bit b, lo even *)
Lemma count_parity lo h b : 0 <= h -> lo mod 2 = 0 -> b = 0 \/ b = 1 ->
  cardinal (fun u => lo <= u < lo + 2 * h /\ u mod 2 = b) h.
Proof.
  intros Hh Hlo Hb. exists (map (fun k => lo + b + 2 * Z.of_nat k) (seq 0 (Z.to_nat h))). split.
  - apply Injective_map_NoDup; [intros x y E; lia|apply seq_NoDup].
  - split; [rewrite map_length, seq_length; lia|]. intros u. rewrite in_map_iff. split.
    + intros (k & <- & Hk). apply in_seq in Hk. split; [lia|].
      replace (lo + b + 2 * Z.of_nat k) with (lo + b + Z.of_nat k * 2) by lia. rewrite Z.mod_add by lia.
      rewrite Z.add_mod, Hlo by lia. destruct Hb as [->| ->]; reflexivity.
    + intros [Hu Hm]. exists (Z.to_nat ((u - lo) / 2)).
      pose proof (Z.div_mod u 2 ltac:(lia)). pose proof (Z.div_mod lo 2 ltac:(lia)).
      assert (E : (u - lo) / 2 = u / 2 - lo / 2).
      { symmetry. apply (Z.div_unique (u - lo) 2 (u / 2 - lo / 2) b); lia. }
      rewrite E. split; [lia|]. apply in_seq. lia.
Qed.

(* the closed generators: u/2^k + u mod 2 *)
Lemma count_closed k N m : 1 <= k -> k < N -> 0 <= m <= 2 ^ (N - k) ->
  cardinal (fun u => 0 <= u < 2 ^ N /\ u / 2 ^ k + u mod 2 = m)
           (if (m =? 0) || (m =? 2 ^ (N - k)) then 2 ^ (k - 1) else 2 ^ k).
Proof.
  intros Hk HN Hm. assert (P : 0 < 2 ^ (k - 1)) by (apply Z.pow_pos_nonneg; lia).
  assert (Q : 0 < 2 ^ (N - k)) by (apply Z.pow_pos_nonneg; lia).
  assert (E1 : 2 ^ k = 2 * 2 ^ (k - 1)) by (rewrite <- Z.pow_succ_r by lia; f_equal; lia).
  assert (E : 2 ^ N = 2 ^ (N - k) * 2 ^ k) by (rewrite <- Z.pow_add_r by lia; f_equal; lia).
  set (h := 2 ^ (k - 1)) in *. set (M := 2 ^ (N - k)) in *.
  assert (D : forall u q, u / 2 ^ k = q <-> q * 2 ^ k <= u < q * 2 ^ k + 2 * h).
  { intros u q. split.
    - intros <-. pose proof (Z.div_mod u (2 ^ k) ltac:(lia)). pose proof (Z.mod_pos_bound u (2 ^ k) ltac:(lia)). lia.
    - intros H. symmetry. apply (Z.div_unique u (2 ^ k) q (u - q * 2 ^ k)); lia. }
  assert (Ev : forall q, (q * 2 ^ k) mod 2 = 0).
  { intros q. rewrite E1. replace (q * (2 * h)) with (q * h * 2) by lia. apply Z.mod_mul. lia. }
  assert (C : forall q b, b = 0 \/ b = 1 -> cardinal (fun u => u / 2 ^ k = q /\ u mod 2 = b) h).
  { intros q b Hb. eapply cardinal_iff; [|apply (count_parity (q * 2 ^ k) h b); [lia|apply Ev|exact Hb]].
    intros u. cbv beta. rewrite D. tauto. }
  assert (R : forall u, 0 <= u < 2 ^ N <-> 0 <= u / 2 ^ k < M).
  { intros u. split; intros H.
    - pose proof (proj1 (D u _) eq_refl). split; [apply Z.div_pos; lia|]. apply Z.div_lt_upper_bound; lia.
    - pose proof (proj1 (D u _) eq_refl). nia. }
  destruct ((m =? 0) || (m =? M)) eqn:B.
  - destruct (Z.eq_dec m 0) as [->|N0].
    + eapply cardinal_iff; [|apply (C 0 0); tauto]. intros u. cbv beta. rewrite R.
      pose proof (Z.mod_pos_bound u 2 ltac:(lia)). lia.
    + assert (m = M) by lia. subst m. eapply cardinal_iff; [|apply (C (M - 1) 1); tauto]. intros u. cbv beta. rewrite R.
      pose proof (Z.mod_pos_bound u 2 ltac:(lia)). lia.
  - assert (E3 : 2 ^ k = h + h) by lia.
    assert (G : forall c, c = h + h -> cardinal (fun u => 0 <= u < 2 ^ N /\ u / 2 ^ k + u mod 2 = m) c); [|exact (G _ E3)].
    intros c ->. eapply cardinal_iff; [|apply cardinal_or; [|apply (C m 0); tauto|apply (C (m - 1) 1); tauto]].
    + intros u. cbv beta. rewrite R. pose proof (Z.mod_pos_bound u 2 ltac:(lia)). lia.
    + intros u [_ H1] [_ H2]. lia.
Qed.
