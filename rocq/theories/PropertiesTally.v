(* C51: the tally of absorbed particles. *)
From Coq Require Import ZArith List Bool Lia ZifyBool.
From Verif Require Import TallyModel.
Import ListNotations.
Open Scope Z_scope.

(* The history of a program, without the model's state. *)
Definition event_eqb (a b : event) : bool :=
  match a, b with
  | Define, Define | Create, Create => true
  | Absorb j i, Absorb j' i' => Nat.eqb j j' && (i =? i')
  | Checkpt j, Checkpt j' => Nat.eqb j j'
  | _, _ => false
  end.
Fixpoint occurrences (e : event) (es : list event) : Z :=
  match es with [] => 0 | x :: es => (if event_eqb e x then 1 else 0) + occurrences e es end.
(* the number of species defined before handler number j was created *)
Fixpoint defined_before (j : nat) (es : list event) : Z :=
  match es with
  | [] => 0
  | Define :: es => 1 + defined_before j es
  | Create :: es => match j with O => 0 | S j => defined_before j es end
  | _ :: es => defined_before j es
  end.

Lemma occ_app e a b : occurrences e (a ++ b) = occurrences e a + occurrences e b.
Proof. induction a as [|x a IH]; cbn [app occurrences]; [lia|]. rewrite IH. lia. Qed.
Lemma run_app es : forall s e, run s (es ++ [e]) = match run s es with TOK s' => step s' e | o => o end.
Proof.
  induction es as [|x es IH]; intros s e; cbn [app run]; [destruct (step s e); reflexivity|].
  destruct (step s x); [apply IH|reflexivity|reflexivity].
Qed.
Lemma occ_pos e es : 0 <= occurrences e es.
Proof. induction es as [|x es IH]; cbn [occurrences]; [lia|]. destruct (event_eqb e x); lia. Qed.
Lemma db_app_eq j es x : (Z.of_nat j < occurrences Create es \/ (x <> Define /\ x <> Create)) -> defined_before j (es ++ [x]) = defined_before j es.
Proof.
  revert j. induction es as [|y es IH]; intros j H; cbn [app defined_before occurrences] in *.
  - destruct H as [H|[H1 H2]]; [lia|]. destruct x; congruence || reflexivity.
  - destruct y; cbn [event_eqb] in H; try (rewrite IH by (intuition lia); reflexivity). destruct j as [|j]; [reflexivity|]. apply IH. intuition lia.
Qed.
Lemma db_end es j : Z.of_nat j = occurrences Create es -> forall x, defined_before j (es ++ [x]) = occurrences Define es + (if event_eqb Define x then 1 else 0).
Proof.
  revert j. induction es as [|y es IH]; intros j H x; cbn [app defined_before occurrences] in *.
  - destruct x; cbn [event_eqb]; try lia. destruct j; lia.
  - destruct y; cbn [event_eqb] in *; try (rewrite IH by lia; lia). destruct j as [|j]; [pose proof (occ_pos Create es); lia|]. rewrite IH by lia. lia.
Qed.

Definition ids (n : Z) (l : list Z) : Prop := l = map (fun k => n - 1 - Z.of_nat k) (seq 0 (Z.to_nat n)).
Record inv (es : list event) (s : tstate) : Prop := {
  i_sp : ids (occurrences Define es) (species_list s);
  i_nh : Z.of_nat (length (handlers s)) = occurrences Create es;
  i_none : forall j i, (length (handlers s) <= j)%nat -> occurrences (Absorb j i) es = 0;
  i_h : forall j h, nth_error (handlers s) j = Some h ->
        h_size h = defined_before j es /\ num_species (h_list h) = h_size h /\ 1 <= h_size h /\
        forall i, 0 <= i < h_size h -> h_tally h i = occurrences (Absorb j i) es /\ h_tally h i <= 2 ^ 31 - 1 }.
Lemma ids_num n l : 0 <= n -> ids n l -> num_species l = n /\ (l = [] <-> n = 0).
Proof.
  intros Hn ->. destruct (Z.to_nat n) as [|k] eqn:E; cbn [seq map num_species].
  - split; [lia|]. split; [lia|reflexivity].
  - split; [lia|]. split; [discriminate|lia].
Qed.
Lemma ids_succ n l : 0 <= n -> ids n l -> ids (n + 1) (append_species l).
Proof.
  intros Hn H. destruct (ids_num n l Hn H) as [E _]. unfold append_species. rewrite E, H. unfold ids.
  replace (Z.to_nat (n + 1)) with (S (Z.to_nat n)) by lia. cbn [seq map]. f_equal; [lia|].
  rewrite <- seq_shift, map_map. apply map_ext. intros k. lia.
Qed.
Lemma ids_in n l i : ids n l -> existsb (Z.eqb i) l = true <-> 0 <= i < n.
Proof.
  intros ->. rewrite existsb_exists. split.
  - intros (x & I & E). apply in_map_iff in I. destruct I as (k & <- & I). apply in_seq in I. lia.
  - intros H. exists i. split; [|lia]. apply in_map_iff. exists (Z.to_nat (n - 1 - i)). split; [lia|]. apply in_seq. lia.
Qed.
Lemma nth_set_nth {A} j (x : A) l k : (j < length l)%nat -> nth_error (set_nth j x l) k = if Nat.eqb k j then Some x else nth_error l k.
Proof.
  unfold set_nth. revert j k. induction l as [|a l IH]; intros [|j] k H; cbn [length] in H; try lia.
  - cbn [firstn skipn app]. destruct k; reflexivity.
  - cbn [firstn app]. destruct k as [|k]; [reflexivity|]. cbn [nth_error Nat.eqb]. rewrite <- IH by lia. reflexivity.
Qed.
Lemma set_nth_length {A} j (x : A) l : (j < length l)%nat -> length (set_nth j x l) = length l.
Proof. intros H. unfold set_nth. rewrite app_length. cbn [length]. rewrite firstn_length, skipn_length. lia. Qed.
Lemma inv_run es : forall s, run start es = TOK s -> inv es s.
Proof.
  induction es as [|e es IH] using rev_ind; intros s H.
  - injection H as <-. constructor; [reflexivity|reflexivity|reflexivity|]. intros [|j] h E; discriminate.
  - rewrite run_app in H. destruct (run start es) as [s0| |]; try discriminate. destruct (IH s0 eq_refl) as [I1 I2 I4 I3]. clear IH.
    pose proof (occ_pos Define es) as Pd. destruct (ids_num _ _ Pd I1) as [In Ie].
    assert (Bj : forall j h, nth_error (handlers s0) j = Some h -> Z.of_nat j < occurrences Create es).
    { intros j h E. assert (nth_error (handlers s0) j <> None) as N by congruence. apply nth_error_Some in N. lia. }
    destruct e as [| |j id|j]; cbn [step] in H.
    + injection H as <-. constructor; cbn [species_list handlers].
      * rewrite occ_app. cbn [occurrences event_eqb]. rewrite Z.add_0_r. apply ids_succ; assumption.
      * rewrite occ_app. cbn [occurrences event_eqb]. lia.
      * intros j i L. rewrite occ_app. cbn [occurrences event_eqb]. rewrite I4 by exact L. lia.
      * intros j h E. pose proof (Bj j h E). destruct (I3 j h E) as (A & B & C & D). rewrite db_app_eq by (left; assumption).
        repeat split; try assumption; intros; [|apply D; assumption]. rewrite occ_app. cbn [occurrences event_eqb]. rewrite Z.add_0_r. apply D; assumption.
    + destruct (species_list s0) as [|a l] eqn:El; [discriminate|]. injection H as <-. constructor; cbn [species_list handlers].
      * rewrite occ_app. cbn [occurrences event_eqb]. rewrite !Z.add_0_r. exact I1.
      * rewrite app_length, occ_app. cbn [length occurrences event_eqb]. lia.
      * intros j i L. rewrite app_length in L. cbn [length] in L. rewrite occ_app. cbn [occurrences event_eqb]. rewrite I4 by lia. lia.
      * intros j h E. destruct (Nat.lt_trichotomy j (length (handlers s0))) as [L|[L|L]].
        -- rewrite nth_error_app1 in E by exact L. pose proof (Bj j h E). destruct (I3 j h E) as (A & B & C & D). rewrite db_app_eq by (left; assumption).
           repeat split; try assumption; intros; [|apply D; assumption]. rewrite occ_app. cbn [occurrences event_eqb]. rewrite !Z.add_0_r. apply D; assumption.
        -- rewrite nth_error_app2 in E by lia. subst j. rewrite Nat.sub_diag in E. injection E as <-. cbn [h_size h_list h_tally].
           assert (occurrences Define es <> 0) by (intros Z0; apply Ie in Z0; discriminate).
           rewrite (db_end es _ I2). cbn [event_eqb]. cbn [num_species] in In |- *. split; [lia|]. split; [reflexivity|]. split; [lia|]. intros i Hi. split; [|lia].
           rewrite occ_app. cbn [occurrences event_eqb].
           rewrite I4 by lia. lia.
        -- rewrite nth_error_app2 in E by lia. destruct (j - length (handlers s0))%nat as [|[|k]] eqn:Ek; [lia|discriminate|discriminate].
    + destruct (nth_error (handlers s0) j) as [h0|] eqn:Ej; [|discriminate]. destruct (existsb (Z.eqb id) (species_list s0)) eqn:Ex; [|discriminate].
      destruct ((0 <=? id) && (id <? h_size h0)) eqn:B; [|discriminate]. destruct (h_tally h0 id =? 2 ^ 31 - 1) eqn:Of; [discriminate|]. injection H as <-.
      assert (Lj : (j < length (handlers s0))%nat) by (apply nth_error_Some; congruence).
      constructor; cbn [species_list handlers].
      * rewrite occ_app. cbn [occurrences event_eqb]. rewrite !Z.add_0_r. exact I1.
      * rewrite set_nth_length by exact Lj. rewrite occ_app. cbn [occurrences event_eqb]. lia.
      * intros k i L. rewrite set_nth_length in L by exact Lj. rewrite occ_app. cbn [occurrences event_eqb]. rewrite I4 by exact L.
        replace (Nat.eqb k j) with false by (symmetry; apply Nat.eqb_neq; lia). reflexivity.
      * intros k h E. rewrite nth_set_nth in E by exact Lj. rewrite db_app_eq by (right; split; discriminate).
        destruct (Nat.eqb_spec k j) as [->|N].
        -- injection E as <-. cbn [h_size h_list h_tally]. destruct (I3 j h0 Ej) as (A & B' & C & D). repeat split; try assumption; rewrite ?occ_app; cbn [occurrences event_eqb]; destruct (D i) as [D1 D2]; try assumption.
           ++ rewrite Nat.eqb_refl. destruct (Z.eqb_spec i id); cbn [andb]; lia.
           ++ destruct (Z.eqb_spec i id) as [->|]; lia.
        -- destruct (I3 k h E) as (A & B' & C & D). repeat split; try assumption; intros; destruct (D i) as [D1 D2]; try assumption.
           rewrite occ_app; cbn [occurrences event_eqb]. replace (Nat.eqb k j) with false by (symmetry; apply Nat.eqb_neq; exact N). cbn [andb]. lia.
    + destruct (nth_error (handlers s0) j) as [h0|] eqn:Ej; [|discriminate]. destruct (num_species (h_list h0) <=? h_size h0) eqn:B; [|discriminate]. injection H as <-.
      assert (Lj : (j < length (handlers s0))%nat) by (apply nth_error_Some; congruence).
      constructor; cbn [species_list handlers].
      * rewrite occ_app. cbn [occurrences event_eqb]. rewrite !Z.add_0_r. exact I1.
      * rewrite set_nth_length by exact Lj. rewrite occ_app. cbn [occurrences event_eqb]. lia.
      * intros k i L. rewrite set_nth_length in L by exact Lj. rewrite occ_app. cbn [occurrences event_eqb]. rewrite I4 by exact L. lia.
      * intros k h E. rewrite nth_set_nth in E by exact Lj. rewrite db_app_eq by (right; split; discriminate).
        destruct (Nat.eqb_spec k j) as [->|N].
        -- injection E as <-. cbn [h_size h_list h_tally]. destruct (I3 j h0 Ej) as (A & B' & C & D). rewrite B' in *. repeat split; try assumption; rewrite ?occ_app; cbn [occurrences event_eqb]; destruct (D i) as [D1 D2]; try assumption. lia.
        -- destruct (I3 k h E) as (A & B' & C & D). repeat split; try assumption; intros; destruct (D i) as [D1 D2]; try assumption.
           rewrite occ_app; cbn [occurrences event_eqb]. lia.
Qed.

(* In every history that stays within the language, the tally of handler j holds for each of its species exactly the number
   of absorbed particles, and it has one counter for each species defined before the handler. *)
Theorem C51_counts : forall es s j h, run start es = TOK s -> nth_error (handlers s) j = Some h ->
  h_size h = defined_before j es /\ forall i, 0 <= i < defined_before j es -> h_tally h i = occurrences (Absorb j i) es.
Proof.
  intros es s j h H E. destruct (inv_run es s H) as [_ _ _ I]. destruct (I j h E) as (A & _ & _ & D). split; [exact A|]. intros i Hi. apply D. lia.
Qed.
Print Assumptions C51_counts.

(* Exactly two things leave the language: a particle of a species that was defined after the handler was created, and the
   2^31-th particle of one species.  All other absorptions, of any defined species at any existing handler, are counted. *)
Theorem C51_absorb : forall es s j i, run start es = TOK s -> Z.of_nat j < occurrences Create es -> 0 <= i < occurrences Define es ->
  (run start (es ++ [Absorb j i]) = TUB <-> (defined_before j es <= i \/ occurrences (Absorb j i) es = 2 ^ 31 - 1)) /\
  (i < defined_before j es -> occurrences (Absorb j i) es < 2 ^ 31 - 1 -> exists s', run start (es ++ [Absorb j i]) = TOK s').
Proof.
  intros es s j i H Hj Hi. pose proof (inv_run es s H) as [I1 I2 I4 I3]. rewrite run_app, H. cbn [step].
  assert (exists h, nth_error (handlers s) j = Some h) as [h E].
  { destruct (nth_error (handlers s) j) as [h|] eqn:E; [exists h; reflexivity|]. apply nth_error_None in E. lia. }
  rewrite E. destruct (I3 j h E) as (A & B & C & D). replace (existsb (Z.eqb i) (species_list s)) with true by (symmetry; apply (ids_in _ _ i I1); exact Hi).
  destruct (i <? h_size h) eqn:L.
  - destruct (D i ltac:(lia)) as [D1 D2]. replace (0 <=? i) with true by lia. cbn [andb]. rewrite D1. destruct (occurrences (Absorb j i) es =? 2 ^ 31 - 1) eqn:O.
    + split; [split; [intros _; right; lia|reflexivity]|lia].
    + split; [split; [discriminate|lia]|]. intros _ _. eexists. reflexivity.
  - replace ((0 <=? i) && false) with false by lia. split; [split; [intros _; left; lia|reflexivity]|lia].
Qed.
Print Assumptions C51_absorb.

(* Creating a handler is an error only without species; checkpointing and restoring never leaves the allocated counters. *)
Theorem C51_others : forall es s, run start es = TOK s ->
  (run start (es ++ [Create]) = TError <-> occurrences Define es = 0) /\ run start (es ++ [Create]) <> TUB /\
  (forall j, Z.of_nat j < occurrences Create es -> exists s', run start (es ++ [Checkpt j]) = TOK s').
Proof.
  intros es s H. pose proof (inv_run es s H) as [I1 I2 I4 I3]. rewrite run_app, H. cbn [step]. destruct (ids_num _ _ (occ_pos Define es) I1) as [_ Ie].
  split; [|split].
  - destruct (species_list s) as [|a l]; split; intros Q; try reflexivity; try discriminate; [apply Ie; reflexivity|apply Ie in Q; discriminate].
  - destruct (species_list s); discriminate.
  - intros j Hj. rewrite run_app, H. cbn [step]. destruct (nth_error (handlers s) j) as [h|] eqn:E; [|apply nth_error_None in E; lia].
    destruct (I3 j h E) as (A & B & C & D). replace (num_species (h_list h) <=? h_size h) with true by lia. eexists. reflexivity.
Qed.
Print Assumptions C51_others.

(* The property without the restriction is false: electrons, then the handler, then ions; an absorbed ion is counted
   outside the array. *)
Theorem C51_any_order_refuted : exists es, run start es = TUB /\
  es = [Define; Create; Define; Absorb 0 0; Absorb 0 1].
Proof. eexists. split; [|reflexivity]. reflexivity. Qed.
Print Assumptions C51_any_order_refuted.

Example C51_example :
  match run start [Define; Define; Create; Define; Create; Absorb 0 1; Absorb 1 2; Absorb 0 1; Checkpt 0; Absorb 0 0; Absorb 1 1] with
  | TOK s => map (fun h => (h_size h, map (h_tally h) [0; 1; 2])) (handlers s)
  | _ => []
  end = [(2, [1; 2; 0]); (3, [0; 1; 1])].
Proof. reflexivity. Qed.
