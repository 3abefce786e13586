(* C86: the weeks, days, hours, minutes and seconds a run reports. *)
From Coq Require Import ZArith List Bool Lia ZifyBool.
From Flocq Require Import IEEE754.BinarySingleNaN.
From Verif Require Import FloatModel InjectModel ProfileModel ElapsedModel.
Open Scope Z_scope.
Ltac Zify.zify_post_hook ::= idtac.

Definition seconds (r : time_report) : Z := r_w r * 604800 + r_d r * 86400 + r_h r * 3600 + r_m r * 60 + r_s r.
Definition in_range (r : time_report) : Prop := 0 <= r_w r /\ 0 <= r_d r < 7 /\ 0 <= r_h r < 24 /\ 0 <= r_m r < 60 /\ 0 <= r_s r < 60.
Definition opposite (r : time_report) : time_report := mk_report (- r_w r) (- r_d r) (- r_h r) (- r_m r) (- r_s r).

Lemma quot_bounds : forall a k, 0 < k -> 0 <= a -> 0 <= a - k * Z.quot a k < k /\ 0 <= Z.quot a k.
Proof.
  intros a k K A. pose proof (Z.quot_rem' a k). pose proof (Z.rem_bound_pos a k A K). pose proof (Z.quot_pos a k A K). lia.
Qed.
Lemma int_mul_ok : forall a b, - 2 ^ 31 <= a * b < 2 ^ 31 -> int_mul a b = Some (a * b).
Proof. intros a b H. unfold int_mul. replace ((- 2 ^ 31 <=? a * b) && (a * b <? 2 ^ 31)) with true by lia. reflexivity. Qed.
Lemma int_add_ok : forall a b, - 2 ^ 31 <= a + b < 2 ^ 31 -> int_add a b = Some (a + b).
Proof. intros a b H. unfold int_add. replace ((- 2 ^ 31 <=? a + b) && (a + b <? 2 ^ 31)) with true by lia. reflexivity. Qed.
Lemma less_ok : forall x y k, - 2 ^ 31 <= y * k < 2 ^ 31 -> - 2 ^ 31 <= x - y * k < 2 ^ 31 -> less_times x y k = Some (x - y * k).
Proof. intros x y k A B. unfold less_times. rewrite int_mul_ok by exact A. rewrite int_add_ok by lia. reflexivity. Qed.
Lemma breakdown_pos : forall s, 0 <= s < 2 ^ 31 -> exists r, breakdown s = Some r /\ seconds r = s /\ in_range r.
Proof.
  intros s H. unfold breakdown.
  destruct (quot_bounds s 60 ltac:(lia) ltac:(lia)) as [A1 A2]. set (m := Z.quot s 60) in *.
  destruct (quot_bounds m 60 ltac:(lia) A2) as [B1 B2]. set (h := Z.quot m 60) in *.
  destruct (quot_bounds h 24 ltac:(lia) B2) as [C1 C2]. set (d := Z.quot h 24) in *.
  destruct (quot_bounds d 7 ltac:(lia) C2) as [D1 D2]. set (w := Z.quot d 7) in *. clearbody m h d w.
  rewrite !less_ok by lia. eexists. split; [reflexivity|]. unfold seconds, in_range. cbn [r_w r_d r_h r_m r_s]. lia.
Qed.
Lemma breakdown_neg : forall s, - 2 ^ 31 <= s < 0 -> exists r, breakdown s = Some r /\ seconds r = s /\ in_range (opposite r).
Proof.
  intros s H. unfold breakdown.
  assert (Q : forall a k, 0 < k -> a <= 0 -> - k < a - k * Z.quot a k <= 0 /\ Z.quot a k <= 0).
  { intros a k K A. pose proof (quot_bounds (- a) k K ltac:(lia)) as B. rewrite Z.quot_opp_l in B by lia. lia. }
  destruct (Q s 60 ltac:(lia) ltac:(lia)) as [A1 A2]. set (m := Z.quot s 60) in *.
  destruct (Q m 60 ltac:(lia) A2) as [B1 B2]. set (h := Z.quot m 60) in *.
  destruct (Q h 24 ltac:(lia) B2) as [C1 C2]. set (d := Z.quot h 24) in *.
  destruct (Q d 7 ltac:(lia) C2) as [D1 D2]. set (w := Z.quot d 7) in *. clearbody m h d w.
  rewrite !less_ok by lia. eexists. split; [reflexivity|]. unfold seconds, in_range, opposite. cbn [r_w r_d r_h r_m r_s]. lia.
Qed.

(* the report of a whole number of seconds int can hold is defined, and it is the one way to write them with days below 7, hours below 24,
   minutes and seconds below 60; when the clock was set back, all parts are the opposite of those of the opposite time *)
Theorem C86_breakdown : forall s, - 2 ^ 31 <= s < 2 ^ 31 -> exists r, breakdown s = Some r /\ seconds r = s /\
  (0 <= s -> in_range r /\ forall q, in_range q -> seconds q = s -> q = r) /\
  (s < 0 -> in_range (opposite r) /\ forall q, in_range (opposite q) -> seconds q = s -> q = r).
Proof.
  assert (U : forall q r, in_range q -> in_range r -> seconds q = seconds r -> q = r).
  { intros [w d h m s] [w' d' h' m' s']. unfold in_range, seconds. cbn [r_w r_d r_h r_m r_s]. intros A B E.
    assert (s = s') by lia. subst. assert (m = m') by lia. subst. assert (h = h') by lia. subst. assert (d = d') by lia. subst. f_equal. lia. }
  intros s H. destruct (Z_lt_le_dec s 0) as [L|L].
  - destruct (breakdown_neg s ltac:(lia)) as (r & E & S & R). exists r. split; [exact E|]. split; [exact S|]. split; [lia|]. intros _. split; [exact R|].
    intros q Q Sq. assert (O : opposite q = opposite r) by (apply U; [exact Q|exact R|unfold seconds, opposite in *; cbn [r_w r_d r_h r_m r_s]; lia]).
    destruct q as [w d h m z], r as [w' d' h' m' z']. unfold opposite in O. cbn [r_w r_d r_h r_m r_s] in O. injection O as O1 O2 O3 O4 O5. f_equal; lia.
  - destruct (breakdown_pos s ltac:(lia)) as (r & E & S & R). exists r. split; [exact E|]. split; [exact S|]. split; [|lia]. intros _. split; [exact R|].
    intros q Q Sq. apply U; [exact Q|exact R|lia].
Qed.
Print Assumptions C86_breakdown.

(* the report of a run is defined exactly if the time, cut to whole seconds, fits int, and then is that of these seconds *)
Theorem C86_defined : forall x : b64, elapsed_report x <> None <-> is_finite x = true /\ - 2 ^ 31 <= d_trunc x < 2 ^ 31.
Proof.
  intro x. unfold elapsed_report, to_int. destruct (is_finite x); [|split; [congruence|intros [A _]; discriminate A]].
  destruct ((- 2 ^ 31 <=? d_trunc x) && (d_trunc x <? 2 ^ 31)) eqn:E.
  - destruct (C86_breakdown (d_trunc x) ltac:(lia)) as (r & -> & _). split; [intros _; split; [reflexivity|lia]|intros _ C; discriminate C].
  - split; [congruence|intros [_ A]; lia].
Qed.
Print Assumptions C86_defined.
Theorem C86_report : forall (x : b64) r, elapsed_report x = Some r -> seconds r = d_trunc x /\ (0 <= d_trunc x -> in_range r).
Proof.
  intros x r E. pose proof (proj1 (C86_defined x) ltac:(rewrite E; discriminate)) as [F H].
  destruct (C86_breakdown (d_trunc x) H) as (r' & E' & S & P & _).
  unfold elapsed_report, to_int in E. rewrite F in E. replace ((- 2 ^ 31 <=? d_trunc x) && (d_trunc x <? 2 ^ 31)) with true in E by lia.
  rewrite E' in E. injection E as <-. split; [exact S|]. intro A. apply (P A).
Qed.
Print Assumptions C86_report.

(* 1000000 seconds: 1 week, 4 days, 13 hours, 46 minutes, 40 seconds; the longest run that can be reported; a clock set back by 61 seconds *)
Example C86_example_million : breakdown 1000000 = Some (mk_report 1 4 13 46 40).
Proof. reflexivity. Qed.
Example C86_example_longest : breakdown (2 ^ 31 - 1) = Some (mk_report 3550 5 3 14 7).
Proof. reflexivity. Qed.
Example C86_example_back : breakdown (- 61) = Some (mk_report 0 0 0 (-1) (-1)).
Proof. reflexivity. Qed.
Example C86_example_too_long : elapsed_report (d_of_Z (2 ^ 31)) = None.
Proof. vm_compute. reflexivity. Qed.
Example C86_example_run : elapsed_report (d_of_Z 90061) = Some (mk_report 0 1 1 1 1).
Proof. vm_compute. reflexivity. Qed.
