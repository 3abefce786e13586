(* C58: the state update of the random number generators. *)
From Coq Require Import ZArith List Bool Lia.
From Verif Require Import FloatModel RngModel SfmtSpec SfmtProofs.
Import ListNotations.
Open Scope Z_scope.

(* s: the 352 words of the state.  The 88 vectors of the state followed by the 88 of the next state are a stretch of the sequence of SFMT-11213: the shifts by whole bytes, which the
   portable code does with pairs of 32-bit shifts (and the SSE2 code with _mm_slli_si128, _mm_srli_si128), are the shifts of the 128-bit numbers, and each vector is computed from the
   right ones, old or new. *)
Theorem C58_recursion : forall s, words_ok s -> let s' := sfmt_next s in
  forall i, 0 <= i < 88 -> stream s s' (i + 88) = recursion (stream s s' i) (stream s s' (i + 68)) (stream s s' (i + 86)) (stream s s' (i + 87)).
Proof. intros s H. cbv zeta. apply (next_recursion s H). Qed.
Print Assumptions C58_recursion.
(* The new words are 32-bit words again; nothing outside the 352 words is written, and nothing outside them is read. *)
Theorem C58_inside : forall s, words_ok s -> words_ok (sfmt_next s) /\ (forall i, ~ 0 <= i < 352 -> sfmt_next s i = s i) /\
  forall t, (forall i, 0 <= i < 352 -> s i = t i) -> forall i, 0 <= i < 352 -> sfmt_next s i = sfmt_next t i.
Proof. intros s H. destruct (next_recursion s H) as (K1 & _ & K3 & _). split; [exact K1|]. split; [exact K3|]. intros t Ht. apply next_local, Ht. Qed.
Print Assumptions C58_inside.
(* So any number of updates in a row gives one sequence. *)
Fixpoint updates (n : nat) (s : words) : words := match n with O => s | S n => sfmt_next (updates n s) end.
Definition sequence (s : words) (j : Z) : Z := vec (updates (Z.to_nat (j / 88)) s) (j mod 88).
Theorem C58_sequence : forall s, words_ok s -> forall i, 0 <= i ->
  sequence s (i + 88) = recursion (sequence s i) (sequence s (i + 68)) (sequence s (i + 86)) (sequence s (i + 87)).
Proof.
  intros s H i Hi. assert (W : forall n, words_ok (updates n s)) by (induction n as [|n IH]; [exact H|exact (proj1 (C58_inside _ IH))]).
  assert (D : 88 * (i / 88) + i mod 88 = i /\ 0 <= i mod 88 < 88 /\ 0 <= i / 88) by (pose proof (Z.div_mod i 88); pose proof (Z.mod_pos_bound i 88); pose proof (Z.div_pos i 88); lia).
  destruct D as (D1 & D2 & D3). set (q := i / 88) in *. set (m := i mod 88) in *.
  assert (S : forall j, 0 <= j < 176 -> sequence s (88 * q + j) = stream (updates (Z.to_nat q) s) (sfmt_next (updates (Z.to_nat q) s)) j).
  { intros j Hj. unfold sequence, stream. destruct (Z.ltb_spec j 88).
    - replace ((88 * q + j) / 88) with q by (apply Z.div_unique_pos with j; lia). replace ((88 * q + j) mod 88) with j by (apply Z.mod_unique_pos with q; lia). reflexivity.
    - replace ((88 * q + j) / 88) with (q + 1) by (apply Z.div_unique_pos with (j - 88); lia). replace ((88 * q + j) mod 88) with (j - 88) by (apply Z.mod_unique_pos with (q + 1); lia).
      replace (Z.to_nat (q + 1)) with (Datatypes.S (Z.to_nat q)) by lia. reflexivity. }
  pose proof (C58_recursion _ (W (Z.to_nat q)) m D2) as R. cbv zeta in R. rewrite <- !S in R by lia.
  replace (88 * q + (m + 88)) with (i + 88) in R by lia. replace (88 * q + m) with i in R by lia. replace (88 * q + (m + 68)) with (i + 68) in R by lia. replace (88 * q + (m + 86)) with (i + 86) in R by lia. replace (88 * q + (m + 87)) with (i + 87) in R by lia.
  exact R.
Qed.
Print Assumptions C58_sequence.

(* Words 0x9e3779b9 * (i + 1): the first three new vectors, computed word by word and by the recursion. *)
Example C58_example : let s := fun i => if (0 <=? i) && (i <? 352) then 0x9e3779b9 * (i + 1) mod 2 ^ 32 else 0 in let s' := sfmt_next s in
  [s' 0; s' 1; s' 2; s' 3; s' 4] = [3767296537; 1696089949; 1611632686; 1253628654; 1251855174] /\
  vec s' 0 = recursion (vec s 0) (vec s 68) (vec s 86) (vec s 87) /\ vec s' 1 = recursion (vec s 1) (vec s 69) (vec s 87) (vec s' 0) /\
  vec s' 2 = recursion (vec s 2) (vec s 70) (vec s' 0) (vec s' 1) /\ s' 352 = 0.
Proof. vm_compute. repeat split. Qed.
