(* C40: the thread dispatcher.  n = --tpp threads, D = --dispatch_to_host; every interleaving of the host with the pipeline threads,
   spurious wake-ups included, from thread_boot on, for every sequence of calls the host makes. *)
From Coq Require Import ZArith List Bool Lia ZifyBool.
From Verif Require Import ThreadModel ThreadSpec ThreadProofs ThreadJobs ThreadLive.
Import ListNotations.
Open Scope Z_scope.
Ltac Zify.zify_post_hook ::= idtac.

(* Whatever the program: unless it was stopped by an error, when no dispatch is under way the history consists of complete
   dispatches only, each of which ran its n jobs exactly once each, with their own arguments, between the dispatch and the
   return of the wait; and while one is under way no job has been started twice and nothing of another dispatch has happened. *)
Theorem C40_each_job_once : forall n D prog s,
  D = 0 \/ D = 1 -> 1 <= n <= 272 -> reach n D prog s -> hp s <> HError -> hp s <> HUB ->
  (busy s = false -> complete n (disp s) (log s)) /\
  (busy s = true -> exists d l sz str m, disp s = S d /\ log s = l ++ EvDispatch d sz str :: m /\ complete n d l /\ block_running n d sz str m).
Proof.
  intros n D prog s HD Hn R N1 N2. destruct (inv_reach n D prog s HD Hn R) as [[B|B]|[_ L]]; [contradiction|contradiction|].
  destruct L as [B C _|e l m sz str js B Ed El Cl J]; split; try congruence. intros _. exists e, l, sz, str, m. split; [exact Ed|]. split; [exact El|]. split; [exact Cl|].
  destruct J as [J1 J2 J3 J4 J5 J6 J7 J8 J9 J9' J10 J11]. split; [|exact J11]. intros j. destruct (within n j) eqn:Wj; unfold within in Wj; [|left; apply J7; lia].
  assert (Hj : 0 <= j < n) by lia. destruct (js j) as [|i| |] eqn:Ej.
  - left. apply J2; assumption.
  - destruct (J1 j i Hj Ej) as (_ & _ & _ & F & _). rewrite F. unfold ev_of. destruct (wp s i); try (left; reflexivity); right; split; try reflexivity; [left|right]; reflexivity.
  - right. split; [reflexivity|]. destruct (J4 j Hj Ej) as (_ & _ & [[_ F]|[_ F]]); [left|right]; exact F.
  - right. split; [reflexivity|]. right. apply (J3 j Hj Ej).
Qed.
Print Assumptions C40_each_job_once.

(* Between calls, and after the halt, the program's own calls have had their effect once each and in order; with the theorem above
   this puts the caller's own share of the work (EvStrag) where the program has it. *)
Theorem C40_calls : forall n D prog s, reach n D prog s -> hp s = HReady \/ hp s = HDone ->
  exists executed, prog = executed ++ calls s /\ filter own (log s) = expected 0 executed.
Proof.
  intros n D prog s R H. destruct (called_reach n D prog s R) as [[B|B]|(ex & P & L & _)]; [destruct H; congruence|destruct H; congruence|].
  exists ex. split; [exact P|]. rewrite <- L. unfold pending. destruct H as [-> | ->]; rewrite app_nil_r; reflexivity.
Qed.
Print Assumptions C40_calls.

(* A program that waits for every dispatch before the next one, that halts last, and whose argument offsets fit an int. *)
Fixpoint proper (n : Z) (pending : bool) (cs : list call) : Prop :=
  match cs with
  | [] => True
  | CDispatch sz str :: cs => pending = false /\ (forall id, 0 <= id < n -> - 2 ^ 31 <= id * sz < 2 ^ 31 /\ - 2 ^ 31 <= id * sz * str < 2 ^ 31) /\ proper n true cs
  | CStrag :: cs => proper n pending cs
  | CWait :: cs => pending = true /\ proper n false cs
  | CHalt :: cs => pending = false /\ cs = []
  end.
Lemma proper_wf n b cs : proper n b cs -> wf n b cs.
Proof. revert b. induction cs as [|c cs IH]; intros b; [trivial|]. destruct c; cbn [proper wf]; intros H; [|apply IH, H| |exact H]; intuition. Qed.
Lemma halt_stays n D prog s : reach n D prog s -> In CHalt prog ->
  In CHalt (calls s) \/ match hp s with HHalt _ | HHaltHold _ | HHaltSig _ | HHaltUnl _ | HJoin _ | HDone | HError | HUB => True | _ => False end.
Proof.
  intros R H. induction R as [|s s' R IH T]; [left; exact H|]. destruct T as [T|i Hi T].
  - hcases T; rewrite E in IH; proj; try (right; exact I); try (destruct (signal_proj s wid) as (_ & _ & _ & -> & _)); try tauto;
      rewrite C in IH; cbn [In] in IH; destruct IH as [[F|F]|F]; try discriminate; tauto.
  - destruct T; proj; exact IH.
Qed.
(* It runs into no error and leaves the language nowhere, *)
Theorem C40_no_error : forall n D prog s, D = 0 \/ D = 1 -> 1 <= n <= 272 -> proper n false prog -> reach n D prog s -> hp s <> HError /\ hp s <> HUB.
Proof.
  intros n D prog s HD Hn P R. destruct (wfs_reach n D prog s HD Hn (proper_wf _ _ _ P) R) as [_ F]. unfold wfs in F. split; intros E; rewrite E in F; exact F.
Qed.
Print Assumptions C40_no_error.
(* from whatever state it has got to it can be completed (there is no deadlock, and no state from which waiting is for ever), and if
   it halts the dispatcher then completed means halted. *)
Theorem C40_completes : forall n D prog s, D = 0 \/ D = 1 -> 1 <= n <= 272 -> proper n false prog -> reach n D prog s ->
  exists s', steps n D s s' /\ reach n D prog s' /\ calls s' = [] /\ (hp s' = HReady \/ hp s' = HDone) /\ (In CHalt prog -> hp s' = HDone).
Proof.
  intros n D prog s HD Hn P R. pose proof (wfs_reach n D prog s HD Hn (proper_wf _ _ _ P) R) as G.
  destruct (finish n D HD Hn (Z.to_nat (hm n (n - D) s)) s G ltac:(pose proof (hm_nonneg n D HD Hn s G); lia)) as (s' & S & [_ F'] & F).
  assert (R' : reach n D prog s'). { clear -R S. induction S as [|s s1 s2 T S IH]; [exact R|]. apply IH. eapply r_step; eassumption. }
  exists s'. split; [exact S|]. split; [exact R'|]. destruct F as [[F1 F2]|F].
  - split; [exact F2|]. split; [left; exact F1|]. intros H. destruct (halt_stays n D prog s' R' H) as [Q|Q]; [rewrite F2 in Q; destruct Q|rewrite F1 in Q; destruct Q].
  - unfold wfs in F'. rewrite F in F'. split; [exact F'|]. split; [right; exact F|]. intros _. exact F.
Qed.
Print Assumptions C40_completes.
(* After the halt all threads are gone, the mutexes are free. *)
Theorem C40_halted : forall n D prog s i, D = 0 \/ D = 1 -> 1 <= n <= 272 -> reach n D prog s -> hp s = HDone -> 0 <= i < n - D -> wp s i = WDead /\ mtx s i = None.
Proof.
  intros n D prog s i HD Hn R E Hi. destruct (inv_reach n D prog s HD Hn R) as [[B|B]|[[_ _ W] _]]; [congruence|congruence|]. specialize (W i Hi). unfold wok in W. rewrite E in W.
  destruct (wp s i); destruct (st s i); destruct (mtx s i) as [[|]|]; cbn in W; try discriminate; split; reflexivity.
Qed.
Print Assumptions C40_halted.
(* Misuse is reported: dispatching or halting while a dispatch is under way, waiting without one. *)
Theorem C40_misuse : forall n D s s' c cs, hp s = HReady -> calls s = c :: cs ->
  (busy s = true /\ (c = CHalt \/ exists sz str, c = CDispatch sz str)) \/ (busy s = false /\ c = CWait) -> hstep n D s s' -> hp s' = HError.
Proof.
  intros n D s s' c0 rest Eh Ec Hm T. hcases T; try congruence; proj; try reflexivity; exfalso; rewrite C in Ec; injection Ec as <- <-;
    destruct Hm as [[Hb [Hc|(a & b & Hc)]]|[Hb Hc]]; congruence.
Qed.
Print Assumptions C40_misuse.

(* Two pipelines, one of them the host: the two jobs overlap. *)
Ltac nrm := match goal with |- steps ?n ?D ?s ?e => let s1 := eval vm_compute in s in change (steps n D s1 e) | _ => idtac end.
Ltac hs c := eapply s_step; [apply by_host; eapply c; first [reflexivity | (cbn; unfold MAX_PIPELINE; lia) | discriminate | (cbn; tauto) | idtac]|]; nrm.
Ltac ws c := eapply s_step; [apply (by_worker _ _ _ _ 0); [lia|]; eapply c; first [reflexivity | (cbn; tauto)]|]; nrm.
Example C40_example : proper 2 false [CDispatch 8 1; CStrag; CWait; CHalt] /\ exists s, steps 2 1 (boot_state [CDispatch 8 1; CStrag; CWait; CHalt]) s /\ hp s = HDone /\
  log s = [EvDispatch 0 8 1; EvStart 0 1 8; EvStart 0 0 0; EvFinish 0 1; EvStrag; EvFinish 0 0; EvReturn 0; EvHalted].
Proof.
  split; [cbn [proper]; repeat split; try (change (2 ^ 31) with 2147483648); lia|]. eexists. split; [|split].
  - hs h_boot. ws w_lock. ws w_idle. ws w_sleep. hs h_boot_ack. hs h_booted. ws w_wait.
    hs h_disp. hs h_loop. hs h_try. ws w_spurious. hs h_assign. hs h_sig. hs h_unl. hs h_loop_host. ws w_relock. ws w_exec. hs h_host. hs h_host_done.
    hs h_strag. hs h_wait. ws w_fin. ws w_flag. hs h_wait_next. hs h_wait_next. hs h_wait_end. hs h_halt. ws w_sleep. ws w_wait.
    hs h_halt_lock. hs h_halt_set. hs h_halt_sig. hs h_halt_unl. ws w_relock. ws w_term. hs h_join. hs h_halt_end.
    { intros i Hi. replace i with 0 by lia. reflexivity. }
    apply s_refl.
  - reflexivity.
  - reflexivity.
Qed.

(* Other values of the setting: with 2, two pipelines get no thread and only job 0 is run, so the wait never returns. *)
Theorem C40_other_setting_refuted : forall s, reach 2 2 [CDispatch 8 1; CWait] s -> ~ In (EvReturn 0) (log s).
Proof.
  assert (I : forall s, reach 2 2 [CDispatch 8 1; CWait] s -> ~ In (EvReturn 0) (log s) /\ dn s 1 = false /\
    match hp s with HBoot 0 => calls s = [CDispatch 8 1; CWait] /\ busy s = false | HReady => (calls s = [CDispatch 8 1; CWait] /\ busy s = false) \/ (calls s = [CWait] /\ busy s = true)
    | HLoop _ _ 0 => calls s = [CWait] /\ busy s = true | HHost 0 | HHostDone 0 => calls s = [CWait] /\ busy s = true | HWait 0 | HWait 1 => calls s = [] /\ busy s = true | HUB | HError => True | _ => False end).
  { intros s R. induction R as [|s s' R (I1 & I2 & I3) T]; [split; [intros []|split; [reflexivity|split; reflexivity]]|]. destruct T as [T|i Hi T]; [|lia].
    hcases T; rewrite E in I3; proj; try contradiction.
    all: try (destruct i as [| |]; try contradiction; lia).
    all: try (split; [assumption|split; [assumption|exact Logic.I]]).
    - split; [exact I1|]. split; [exact I2|]. destruct i; try contradiction. tauto.
    - destruct I3 as [[I3 I4]|[I3 I4]]; [|congruence]. rewrite C in I3. injection I3 as -> -> ->. split; [intros Q; apply in_app_or in Q; destruct Q as [Q|[Q|[]]]; [exact (I1 Q)|discriminate]|].
      split; [exact I2|]. split; reflexivity.
    - destruct id as [| |]; try contradiction. lia.
    - destruct id as [| |]; try contradiction. split; [intros Q; apply in_app_or in Q; destruct Q as [Q|[Q|[]]]; [exact (I1 Q)|discriminate]|]. split; [rewrite set_other by lia; exact I2|exact I3].
    - discriminate.
    - destruct id as [| |]; try contradiction. split; [intros Q; apply in_app_or in Q; destruct Q as [Q|[Q|[]]]; [exact (I1 Q)|discriminate]|]. split; [exact I2|exact I3].
    - destruct id as [| |]; try contradiction. split; [exact I1|]. split; [rewrite set_other by lia; exact I2|right; exact I3].
    - destruct I3 as [[I3 I4]|[I3 I4]]; rewrite C in I3; discriminate.
    - destruct I3 as [[I3 I4]|[I3 I4]]; rewrite C in I3; [discriminate|]. injection I3 as ->. split; [exact I1|]. split; [exact I2|]. split; [reflexivity|exact I4].
    - destruct id as [|p|]; try contradiction; [split; [exact I1|]; split; [exact I2|exact I3]|]. exfalso. destruct p; try contradiction. congruence.
    - exfalso. destruct id as [|p|]; try contradiction; try lia. destruct p; try contradiction; lia.
    - destruct I3 as [[I3 I4]|[I3 I4]]; rewrite C in I3; discriminate. }
  intros s R. apply (I s R).
Qed.
Print Assumptions C40_other_setting_refuted.

(* The completion flags are plain volatile ints: a state is reachable in which the host is about to read Done[0] and a pipeline thread
   is about to write it, with no mutex held in common; on the machines the model leaves out the host need not see the thread's
   results.  The theorems above take memory as sequentially consistent. *)
Theorem C40_flag_race_refuted : exists s, steps 1 0 (boot_state [CDispatch 8 1; CWait]) s /\ hp s = HWait 0 /\ wp s 0 = WFlag /\ t_job (tk s 0) = 0.
Proof.
  eexists. split; [|split; [|split]].
  - eapply s_step; [apply by_host; eapply h_boot; first [reflexivity | (cbn; unfold MAX_PIPELINE; lia)]|]. ws w_lock. ws w_idle. ws w_sleep. hs h_boot_ack. hs h_booted. ws w_wait.
    hs h_disp. hs h_loop. hs h_try. hs h_assign. hs h_sig. hs h_unl. hs h_loop_end. hs h_wait. ws w_relock. ws w_exec. ws w_fin. apply s_refl.
  - reflexivity.
  - reflexivity.
  - reflexivity.
Qed.
Print Assumptions C40_flag_race_refuted.
