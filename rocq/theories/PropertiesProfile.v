(* C81: the profile timers. *)
From Coq Require Import Reals Lra ZArith List Bool Lia.
From Flocq Require Import Core IEEE754.BinarySingleNaN.
From Verif Require Import FloatModel FloatProofs ConvProofs DistributeModel InjectModel InjectProofs ProfileModel ProfileProofs.
Import ListNotations.
Open Scope Z_scope.

(* update_profile adds the time and the calls since the last update to the totals, and clears them. *)
Definition updated (p q : timer) : Prop := t q = d_of_Z 0 /\ n q = 0 /\ t_total q = d_add (t_total p) (t p) /\ n_total q = n_total p + n p.
Lemma add_up_updated : forall ps s s' qs S S', add_up ps s s' = Some (qs, S, S') ->
  Forall2 (fun p q => t_total q = d_add (t_total p) (t p) /\ n_total q = n_total p + n p /\ - 2 ^ 31 <= n_total p + n p < 2 ^ 31) ps qs.
Proof.
  induction ps as [|p ps IH]; intros s s' qs S S' H; cbn [add_up] in H; [injection H as <- _ _; constructor|].
  unfold int_add in H. destruct ((- 2 ^ 31 <=? n_total p + n p) && (n_total p + n p <? 2 ^ 31)) eqn:B; [|discriminate].
  destruct (add_up ps _ _) as [[[r' a] b]|] eqn:E; [|discriminate]. injection H as <- _ _. constructor; [|apply (IH _ _ _ _ _ E)].
  cbn [t_total n_total]. apply andb_true_iff in B. destruct B as [B1 B2]. apply Z.leb_le in B1. apply Z.ltb_lt in B2. auto.
Qed.
Theorem C81_update : forall dump ps qs l, update_profile dump ps = Some (qs, l) -> Forall2 updated ps qs.
Proof.
  intros dump ps qs l H. unfold update_profile in H. destruct (add_up ps _ _) as [[[r a] b]|] eqn:E; [|discriminate].
  destruct (if dump then _ else _); [|discriminate]. injection H as <- _. apply add_up_updated in E. induction E as [|p q ps qs (A & B & _) _ IH]; [constructor|].
  cbn [map]. constructor; [|exact IH]. unfold updated, clear. cbn [t n t_total n_total]. auto.
Qed.
Print Assumptions C81_update.

(* Over any run of TOCs and updates the calls are counted: total and current count of timer k grow by the calls of timer k. *)
Inductive event := E_toc (k : nat) (elapsed : b64) (calls : Z) | E_update (dump : bool).
Fixpoint at_timer (k : nat) (f : timer -> option timer) (ps : list timer) : option (list timer) :=
  match ps, k with
  | [], _ => None
  | p :: r, O => match f p with Some p' => Some (p' :: r) | None => None end
  | p :: r, S k => match at_timer k f r with Some r' => Some (p :: r') | None => None end
  end.
Definition do_event (s : option (list timer)) (e : event) : option (list timer) :=
  match s with
  | None => None
  | Some ps => match e with
    | E_toc k elapsed calls => at_timer k (toc elapsed calls) ps
    | E_update dump => option_map fst (update_profile dump ps)
    end
  end.
Definition calls_of (k : nat) (e : event) : Z := match e with E_toc j _ c => if Nat.eqb j k then c else 0 | E_update _ => 0 end.
Lemma at_timer_spec : forall j f ps qs, at_timer j f ps = Some qs -> length qs = length ps /\
  forall k, nth_error qs k = if Nat.eqb j k then match nth_error ps k with Some p => f p | None => None end else nth_error ps k.
Proof.
  induction j as [|j IH]; intros f [|p ps] qs H; cbn [at_timer] in H; try discriminate.
  - destruct (f p) as [p'|] eqn:E; [|discriminate]. injection H as <-. split; [reflexivity|]. intros [|k]; cbn [nth_error Nat.eqb]; [symmetry; exact E|reflexivity].
  - destruct (at_timer j f ps) as [r|] eqn:E; [|discriminate]. injection H as <-. destruct (IH _ _ _ E) as [L N]. split; [cbn [length]; congruence|]. intros [|k]; cbn [nth_error Nat.eqb]; [reflexivity|apply N].
Qed.
Theorem C81_counts : forall es ps qs k p, fold_left do_event es (Some ps) = Some qs -> nth_error ps k = Some p ->
  exists q, nth_error qs k = Some q /\ n_total q + n q = n_total p + n p + fold_right Z.add 0 (map (calls_of k) es).
Proof.
  induction es as [|e es IH]; intros ps qs k p H P; cbn [fold_left] in H.
  - injection H as <-. exists p. split; [exact P|]. cbn. lia.
  - destruct (do_event (Some ps) e) as [m|] eqn:E; [|exfalso; clear - H; induction es as [|e' es IH]; [discriminate|exact (IH H)]].
    assert (Q : exists q, nth_error m k = Some q /\ n_total q + n q = n_total p + n p + calls_of k e).
    { destruct e as [j el c|dump]; cbn [do_event] in E.
      - apply at_timer_spec in E. destruct E as [L N]. specialize (N k). cbn [calls_of]. destruct (Nat.eqb j k) eqn:J; rewrite P in N; [|exists p; split; [exact N|lia]].
        assert (K : (k < length m)%nat) by (rewrite L; apply nth_error_Some; congruence). apply nth_error_Some in K. destruct (nth_error m k) as [q|] eqn:M; [|contradiction].
        exists q. split; [reflexivity|]. symmetry in N. unfold toc, int_add in N. destruct ((- 2 ^ 31 <=? n p + c) && (n p + c <? 2 ^ 31)); [|discriminate]. injection N as <-. cbn [n n_total]. lia.
      - destruct (update_profile dump ps) as [[r l]|] eqn:U; [|discriminate]. cbn [option_map fst] in E. injection E as <-. apply C81_update in U.
        cbn [calls_of]. clear - U P. revert k P. induction U as [|a b ps r (_ & B & _ & D) _ IH]; intros [|k] P; cbn [nth_error] in *; try discriminate; [|apply IH, P].
        injection P as ->. exists b. split; [reflexivity|]. lia. }
    destruct Q as (q & Q1 & Q2). destruct (IH _ _ _ _ H Q1) as (q' & A & B). exists q'. split; [exact A|]. cbn [map fold_right]. lia.
Qed.
Print Assumptions C81_counts.

Lemma add_up_sums : forall ps s s' qs S S', add_up ps s s' = Some (qs, S, S') ->
  S = fold_left d_add (map t ps) s /\ S' = fold_left d_add (map (fun p => d_add (t_total p) (t p)) ps) s'.
Proof.
  induction ps as [|p ps IH]; intros s s' qs S S' H; cbn [add_up] in H; [injection H as _ <- <-; split; reflexivity|].
  destruct (int_add _ _); [|discriminate]. destruct (add_up ps _ _) as [[[r' a] b]|] eqn:E; [|discriminate]. injection H as _ <- <-. cbn [map fold_left]. apply (IH _ _ _ _ _ E).
Qed.
(* The report, for times that are zero or between 2^-60 and 2^60 seconds, at most 2^50 timers and counts in range: if some time was spent
   it is defined, and each percentage is between 0 and 100 and within 0.500001 of the share of the timer in the
   sum A of the times since the last update (1 if that is zero) and in the sum A' of the totals; the sums are the rounded ones in the order of the table. *)
Theorem C81_percent : forall ps, Forall timer_ok ps -> Z.of_nat (length ps) <= 2 ^ 50 -> (exists p, In p ps /\ (B2R64 (t_total p) <> 0 \/ B2R64 (t p) <> 0)%R) ->
  exists qs l s A A', update_profile true ps = Some (qs, l) /\ (0 < A)%R /\ (0 < A')%R /\
    fin64 (fold_left d_add (map t ps) (d_of_Z 0)) s /\ ((s = 0 /\ A = 1) \/ A = s)%R /\
    fin64 (fold_left d_add (map (fun p => d_add (t_total p) (t p)) ps) (d_of_Z 0)) A' /\
    Forall (fun x => 0 <= pct x <= 100 /\ 0 <= pct_total x <= 100 /\
      exists a a', fin64 (time x) a /\ fin64 (time_total x) a' /\ (Rabs (IZR (pct x) - 100 * a / A) <= / 2 + / 1000000)%R /\ (Rabs (IZR (pct_total x) - 100 * a' / A') <= / 2 + / 1000000)%R) l /\
    (* the lines are the timers that were called, in order *)
    map (fun x => (time x, count x, time_total x, count_total x)) l =
    map (fun p => (t p, n p, d_add (t_total p) (t p), n_total p + n p)) (filter (fun p => negb ((n p =? 0) && (n_total p + n p =? 0))) ps).
Proof.
  intros ps F L (p0 & I0 & N0).
  destruct (add_up_ok ps 0 0 _ _ _ _ F ltac:(lia) ltac:(lia) ltac:(lia) ltac:(lia) (clock_0 0 ltac:(lia)) (clock_0 0 ltac:(lia))) as (qs & S & S' & A & A' & E & KA & KA' & GA & GA' & F2 & FC).
  unfold update_profile. rewrite E.
  assert (PA' : (0 < A')%R).
  { destruct (Rle_lt_dec A' 0) as [Z|]; [|assumption]. exfalso.
    assert (H : exists q, In q qs /\ t_total q = d_add (t_total p0) (t p0)). { clear - F2 I0. induction F2 as [|p q ps qs (_ & B & _) _ IH]; [destruct I0|]. destruct I0 as [<-|I0]; [exists q; split; [left; reflexivity|exact B]|]. destruct (IH I0) as (q' & Q1 & Q2). exists q'. split; [right; exact Q1|exact Q2]. }
    destruct H as (q & Iq & Tq). rewrite Forall_forall in FC, F. destruct (FC q Iq) as (_ & x & Kx & Lx). destruct (F p0 I0) as ((y & Ky) & (a0 & K0) & _).
    destruct (clock_add 1 1 _ _ _ _ ltac:(lia) ltac:(lia) ltac:(lia) K0 Ky) as (r & Kr & Ra & Rb & _). rewrite Tq in Kx.
    assert (r = x) by (destruct Kr as ((_ & <-) & _), Kx as ((_ & <-) & _); reflexivity). subst r. pose proof (clock_nonneg _ _ _ K0). pose proof (clock_nonneg _ _ _ Ky). rewrite (proj2 (proj1 K0)), (proj2 (proj1 Ky)) in N0. lra. }
  set (sum := if d_eq S (d_of_Z 0) then d_of_Z 1 else S).
  assert (HS : exists B, clock (2 ^ 52) sum B /\ (0 < B)%R /\ ((A = 0 /\ B = 1) \/ B = A)%R).
  { unfold sum. pose proof (clock_nonneg _ _ _ KA) as PA. destruct (d_eq S (d_of_Z 0)) eqn:D.
    - apply (proj1 (d_eq_ok _ _ _ _ (proj1 KA) (fin64_Z 0 ltac:(lia)))) in D. exists 1%R. split; [|split; [lra|left; split; [exact D|reflexivity]]]. split; [apply (fin64_Z 1); lia|]. split; [right; apply (bpow_le radix2 (-60) 0); lia|].
      change (IZR (2 ^ 52)) with (bpow radix2 52). rewrite <- bpow_plus. apply (bpow_le radix2 0); lia.
    - exists A. split; [exact KA|]. split; [|right; reflexivity]. destruct PA as [PA|PA]; [exact PA|]. exfalso. assert (T : d_eq S (d_of_Z 0) = true) by (apply (proj2 (d_eq_ok _ _ _ _ (proj1 KA) (fin64_Z 0 ltac:(lia)))); symmetry; exact PA). congruence. }
  destruct HS as (B & KB & PB & HB).
  assert (R : exists l, report qs sum S' = Some l /\ Forall (fun x => 0 <= pct x <= 100 /\ 0 <= pct_total x <= 100 /\
      exists a a', fin64 (time x) a /\ fin64 (time_total x) a' /\ (Rabs (IZR (pct x) - 100 * a / B) <= / 2 + / 1000000)%R /\ (Rabs (IZR (pct_total x) - 100 * a' / A') <= / 2 + / 1000000)%R) l).
  { clear - FC KB KA' PB PA' HB. induction FC as [|q qs ((x & Kx & Lx) & (y & Ky & Ly)) _ IH]; [exists []; split; [reflexivity|constructor]|].
    destruct IH as (l & El & Fl). cbn [report]. destruct ((n q =? 0) && (n_total q =? 0)); [exists l; auto|].
    assert (XB : (x <= B)%R) by (destruct HB as [[-> _]| ->]; [lra|exact Lx]).
    destruct (percent_ok _ _ _ _ _ Kx KB XB ltac:(lra)) as (k & Ek & Bk & Ck). destruct (percent_ok _ _ _ _ _ Ky KA' Ly ltac:(lra)) as (j & Ej & Bj & Cj).
    rewrite Ek, Ej, El. eexists. split; [reflexivity|]. constructor; [|exact Fl]. cbn [pct pct_total time time_total]. split; [exact Bk|]. split; [exact Bj|]. exists x, y. split; [apply Kx|]. split; [apply Ky|]. split; [exact Ck|exact Cj]. }
  destruct R as (l & El & Fl). fold sum. rewrite El. destruct (add_up_sums _ _ _ _ _ _ E) as [SS SS']. exists (map clear qs), l, A, B, A'. split; [reflexivity|]. split; [exact PB|]. split; [exact PA'|].
  split; [rewrite <- SS; apply KA|]. split; [exact HB|]. split; [rewrite <- SS'; apply KA'|]. split; [exact Fl|].
  clear - F2 El. revert l El. induction F2 as [|p q ps qs (T1 & T2 & T3 & T4) _ IH]; intros l El; cbn [report] in El; [injection El as <-; reflexivity|].
  cbn [filter]. rewrite T3, T4 in El. destruct ((n p =? 0) && (n_total p + n p =? 0)); cbn [negb]; [apply IH, El|].
  destruct (percent _ _); [|discriminate]. destruct (percent _ _); [|discriminate]. destruct (report qs sum S') as [l'|]; [|discriminate]. injection El as <-. cbn [map time count time_total count_total]. rewrite T1, T2. f_equal. apply IH. reflexivity.
Qed.
Print Assumptions C81_percent.

(* The comment says a division by zero is avoided; that is so for the sum since the last update only.  Calls that took no measurable time
   since the start make the total 0/0, and the conversion of a NaN to int is undefined. *)
Theorem C81_no_time_refuted : exists ps, Forall timer_ok ps /\ update_profile false ps <> None /\ update_profile true ps = None.
Proof.
  exists [mk_timer (d_of_Z 0) (d_of_Z 0) 1 0]. split; [|split; [discriminate|vm_compute; reflexivity]].
  constructor; [|constructor]. split; [exists 0%R; apply clock_0; lia|]. split; [exists 0%R; apply clock_0; lia|]. cbn. lia.
Qed.
Print Assumptions C81_no_time_refuted.

(* timers of 1 s and 3 s since the update, 4 s and 4 s in all *)
Example profile_example : option_map (fun r => (map (fun p => (n p, n_total p)) (fst r), map (fun x => (pct x, count x, pct_total x, count_total x)) (snd r)))
  (update_profile true [mk_timer (d_of_Z 1) (d_of_Z 3) 2 5; mk_timer (d_of_Z 0) (d_of_Z 0) 0 0; mk_timer (d_of_Z 3) (d_of_Z 1) 1 1]) =
  Some ([(0, 7); (0, 0); (0, 2)], [(25, 2, 50, 7); (75, 1, 50, 2)]).
Proof. vm_compute. reflexivity. Qed.
Example counts_example : option_map (map (fun p => (n p, n_total p))) (fold_left do_event [E_toc 1 (d_of_Z 2) 3; E_update false; E_toc 1 (d_of_Z 1) 4] (Some [mk_timer (d_of_Z 0) (d_of_Z 0) 0 0; mk_timer (d_of_Z 0) (d_of_Z 0) 0 0])) =
  Some [(0, 0); (4, 3)].
Proof. vm_compute. reflexivity. Qed.
