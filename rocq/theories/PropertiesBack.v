(* C77: the serial and OpenMP back ends of the dispatcher run the jobs that the thread dispatcher runs (C40). *)
From Coq Require Import ZArith List Bool Lia ZifyBool.
From Verif Require Import ThreadModel ThreadSpec ThreadProofs ThreadJobs ThreadLive PropertiesThread BackModel BackSpec BackProofs.
Import ListNotations.
Open Scope Z_scope.
Ltac Zify.zify_post_hook ::= idtac.

(* The serial dispatcher completes every proper program (each dispatch is waited for, the halt is last, offsets fit an int), the
   caller's calls take effect in order, and unless the last dispatch was not waited for the history consists of complete
   dispatches only: each of the n jobs once with its own arguments. *)
Theorem C77_serial : forall n prog, proper n false prog ->
  exists l, serial_run n true false 0 prog = (SOk, l) /\ filter own l = expected 0 prog /\
    (pending_after false prog = false -> complete n (dispatches prog) l).
Proof.
  intros n prog P. destruct (serial_ok n prog false 0 [] (proper_wf _ _ _ P) (c_nil n)) as (l & R & E & S). exists l. split; [exact R|]. split; [exact E|].
  intro Q. rewrite Q in S. exact S.
Qed.
Print Assumptions C77_serial.

(* It stops with an error at, and only at, a dispatch or halt while one is under way, a wait while none is, and any call after the
   halt. *)
Theorem C77_serial_misuse : forall n alive busy d c cs,
  serial_run n alive busy d (c :: cs) = (SErr, []) <->
  match c with
  | CStrag => False
  | CDispatch _ _ | CHalt => alive = false \/ busy = true
  | CWait => alive = false \/ busy = false
  end.
Proof.
  intros n alive busy d c cs. destruct c; cbn [serial_run]; unfold after; destruct alive, busy; cbn [negb]; try destruct (forallb _ _);
    split; intro H; try discriminate; try (injection H as _ H; discriminate); try tauto; try reflexivity; destruct H; discriminate.
Qed.
Print Assumptions C77_serial_misuse.

(* The OpenMP loop, with a team of any number T >= 0 of threads that take the iterations in any order: if all pipelines get the same
   arguments, as in every call of the code, then outside the parallel region the history consists of complete dispatches
   and at most one dispatch with all its jobs run once; the caller's calls take effect in order. *)
Theorem C77_omp : forall n T prog s, proper n false prog -> ~ In CHalt prog -> (forall sz str, In (CDispatch sz str) prog -> str = 0) ->
  oreach n T prog s -> o_reg s = None ->
  exists executed, prog = executed ++ o_calls s /\ filter own (o_log s) = expected 0 executed /\
    (pending_after false executed = false -> complete n (dispatches executed) (o_log s)) /\
    (pending_after false executed = true -> exists d l sz str m, dispatches executed = S d /\ o_log s = l ++ EvDispatch d sz str :: m /\ complete n d l /\ block_ok n d sz str m).
Proof.
  intros n T prog s P NH SA R G. destruct (oinv_reach n T prog s (proper_wf _ _ _ P) NH (fun sz str H => or_introl (SA sz str H)) R) as (ex & E & F & D & W & I).
  rewrite G in I. destruct I as [_ I]. exists ex. split; [exact E|]. split; [exact F|]. rewrite <- D. unfold so_far in I. split; intro Q; rewrite Q in I; exact I.
Qed.
Print Assumptions C77_omp.

(* Inside the region no job has been started twice and nothing else happens. *)
Theorem C77_omp_running : forall n T prog s sz str, proper n false prog -> ~ In CHalt prog -> (forall sz str, In (CDispatch sz str) prog -> str = 0) ->
  oreach n T prog s -> o_reg s = Some (sz, str) ->
  exists d l m, o_log s = l ++ EvDispatch d sz str :: m /\ complete n d l /\ block_running n d sz str m /\ ~ In EvStrag m.
Proof.
  intros n T prog s sz str P NH SA R G. destruct (oinv_reach n T prog s (proper_wf _ _ _ P) NH (fun sz str H => or_introl (SA sz str H)) R) as (ex & E & F & D & W & I).
  rewrite G in I. destruct I as (_ & d & l & m & _ & _ & L & C & RA & RB). exists d, l, m. split; [exact L|]. split; [exact C|]. split; [split|].
  - intro j. rewrite RA. destruct (within n j); [|left; reflexivity]. destruct (o_job s j); cbn [job_events]; [left; reflexivity|right; split; [reflexivity|left; reflexivity]|right; split; [reflexivity|right; reflexivity]].
  - intros e H. right. apply RB, H.
  - intro H. destruct (RB _ H) as (j & J). discriminate.
Qed.
Print Assumptions C77_omp_running.

(* There is no deadlock, with however few threads. *)
Theorem C77_omp_completes : forall n T prog s, (1 <= T)%nat -> ~ In CHalt prog -> oreach n T prog s ->
  exists s', osteps n T s s' /\ o_calls s' = [] /\ o_reg s' = None.
Proof.
  intros n T prog s HT NH R. apply (omp_finish n T (o_calls s) HT s eq_refl). intro H. apply NH.
  assert (X : exists ex, prog = ex ++ o_calls s).
  { clear - R. induction R as [|s s' R (ex & IH) ST]; [exists []; reflexivity|]. destruct ST as [sz str cs G C| | | |cs G C|cs G C]; cbn [o_calls]; try (exists ex; exact IH).
    - exists (ex ++ [CDispatch sz str]). rewrite <- app_assoc. cbn [app]. rewrite <- C. exact IH.
    - exists (ex ++ [CStrag]). rewrite <- app_assoc. cbn [app]. rewrite <- C. exact IH.
    - exists (ex ++ [CWait]). rewrite <- app_assoc. cbn [app]. rewrite <- C. exact IH. }
  destruct X as (ex & ->). apply in_app_iff. right. exact H.
Qed.
Print Assumptions C77_omp_completes.

(* The caller's own share of the work is done after all jobs with OpenMP, *)
Theorem C77_omp_caller_last : forall n T prog s s', proper n false prog -> ~ In CHalt prog -> (forall sz str, In (CDispatch sz str) prog -> str = 0) ->
  oreach n T prog s -> ostep n T s s' -> o_log s' = o_log s ++ [EvStrag] ->
  complete n (o_disp s) (o_log s) \/ exists d l sz str m, o_log s = l ++ EvDispatch d sz str :: m /\ complete n d l /\ block_ok n d sz str m.
Proof.
  intros n T prog s s' P NH SA R ST L. assert (G : o_reg s = None).
  { destruct ST; cbn [o_log] in L; try assumption; try (apply app_inv_head in L; discriminate). rewrite <- (app_nil_r (o_log s)) in L at 1. apply app_inv_head in L. discriminate. }
  destruct (oinv_reach n T prog s (proper_wf _ _ _ P) NH (fun sz str H => or_introl (SA sz str H)) R) as (ex & E & F & D & W & I).
  rewrite G in I. destruct I as [_ I]. unfold so_far in I. destruct (pending_after false ex); [right|left; exact I].
  destruct I as (d & l & sz & str & m & _ & I). exists d, l, sz, str, m. exact I.
Qed.
Print Assumptions C77_omp_caller_last.

(* while the thread dispatcher lets it run beside them, even before the first has started: results that hold for every
   interleaving with the caller's share cover OpenMP, not the other way round. *)
Theorem C77_thread_caller_last_refuted : exists s, steps 1 0 (boot_state [CDispatch 8 0; CStrag; CWait]) s /\ log s = [EvDispatch 0 8 0; EvStrag].
Proof.
  eexists. split.
  - eapply s_step; [apply by_host; eapply h_boot; first [reflexivity | (cbn; unfold MAX_PIPELINE; lia)]|]. ws w_lock. ws w_idle. ws w_sleep. hs h_boot_ack. hs h_booted. ws w_wait.
    hs h_disp. hs h_loop. hs h_try. hs h_assign. hs h_sig. hs h_unl. hs h_loop_end. hs h_strag. apply s_refl.
  - reflexivity.
Qed.
Print Assumptions C77_thread_caller_last_refuted.

(* The three back ends make the same calls: whenever a program that waits for its last dispatch is through, every job of every dispatch has
   been called the same number of times with the same arguments in all of them. *)
Theorem C77_same_calls : forall n D T prog p s so l, D = 0 \/ D = 1 -> 1 <= n <= 272 -> prog = p ++ [CWait] -> proper n false prog -> ~ In CHalt prog ->
  (forall sz str, In (CDispatch sz str) prog -> str = 0) ->
  reach n D prog s -> hp s = HReady -> calls s = [] -> busy s = false ->
  oreach n T prog so -> o_reg so = None -> o_calls so = [] ->
  serial_run n true false 0 prog = (SOk, l) ->
  forall d j off, starts d j off (log s) = starts d j off l /\ starts d j off (o_log so) = starts d j off l.
Proof.
  intros n D T prog p s so l HD Hn EP P NH SA R H C B RO G CO SR.
  assert (PA : pending_after false prog = false) by (rewrite EP, pending_app; reflexivity).
  destruct (C77_serial n prog P) as (l' & SR' & F3 & C3). rewrite SR in SR'. injection SR' as <-. specialize (C3 PA).
  destruct (C77_omp n T prog so P NH SA RO G) as (ex & E & F2 & C2 & _). rewrite CO, app_nil_r in E. subst ex. specialize (C2 PA).
  destruct (C40_calls n D prog s R (or_introl H)) as (ex & E & F1). rewrite C, app_nil_r in E. subst ex.
  destruct (C40_each_job_once n D prog s HD Hn R ltac:(congruence) ltac:(congruence)) as [C1 _]. specialize (C1 B).
  intros d j off. split.
  - apply (complete_same _ _ _ _ _ C1 C3). congruence.
  - apply (complete_same _ _ _ _ _ C2 C3). congruence.
Qed.
Print Assumptions C77_same_calls.

(* With one argument structure for each pipeline OpenMP passes the wrong ones: args + id*sizeof*str counts structures, not bytes.
   Job 1 of structures of 8 bytes gets the ninth structure; the thread and serial dispatchers give it the second, and so does
   OpenMP's call of the caller's share.  (No call in the code has a stride.) *)
Theorem C77_omp_stride_refuted : exists s, oreach 2 1 [CDispatch 8 1] s /\ In (EvStart 0 1 64) (o_log s) /\
  forall s', oreach 2 1 [CDispatch 8 1] s' -> ~ In (EvStart 0 1 (1 * 8 * 1)) (o_log s').
Proof.
  eexists. split; [|split].
  - eapply or_step; [eapply or_step; [apply or_boot|]|].
    + eapply o_fork; reflexivity.
    + eapply (o_start 2 1 _ 8 1 1); [reflexivity|lia|reflexivity|vm_compute; lia].
  - right. left. reflexivity.
  - intros s' R. assert (I : (forall sz str, In (CDispatch sz str) (o_calls s') -> sz = 8 /\ str = 1) /\ (forall sz str, o_reg s' = Some (sz, str) -> sz = 8 /\ str = 1) /\
      ~ In (EvStart 0 1 (1 * 8 * 1)) (o_log s')).
    { induction R as [|s s' R (I1 & I2 & I3) ST]; [split; [intros sz str [H|[]]; injection H as <- <-; split; reflexivity|split; [discriminate|intros []]]|].
      destruct ST as [sz str cs G C|sz str j G J TD L|j J RN|sz str G AD|cs G C|cs G C]; cbn [o_calls o_reg o_log]; rewrite ?C in I1.
      - split; [intros; apply I1; right; assumption|]. split; [intros ? ? H; injection H as <- <-; apply I1; left; reflexivity|].
        intro H. apply in_app_iff in H. destruct H as [H|[H|[]]]; [exact (I3 H)|discriminate].
      - split; [exact I1|]. split; [exact I2|]. intro H. apply in_app_iff in H. destruct H as [H|[H|[]]]; [exact (I3 H)|].
        destruct (I2 sz str G) as [-> ->]. injection H as _ HJ H. subst j. vm_compute in H. discriminate.
      - split; [exact I1|]. split; [exact I2|]. intro H. apply in_app_iff in H. destruct H as [H|[H|[]]]; [exact (I3 H)|discriminate].
      - split; [exact I1|]. split; [discriminate|exact I3].
      - split; [intros; apply I1; right; assumption|]. split; [discriminate|]. intro H. apply in_app_iff in H. destruct H as [H|[H|[]]]; [exact (I3 H)|discriminate].
      - split; [intros; apply I1; right; assumption|]. split; [discriminate|]. intro H. apply in_app_iff in H. destruct H as [H|[H|[]]]; [exact (I3 H)|discriminate]. }
    apply I.
Qed.
Print Assumptions C77_omp_stride_refuted.

(* two pipelines *)
Example serial_example : serial_run 2 true false 0 [CDispatch 8 1; CStrag; CWait; CHalt] =
  (SOk, [EvDispatch 0 8 1; EvStart 0 0 0; EvFinish 0 0; EvStart 0 1 8; EvFinish 0 1; EvStrag; EvReturn 0; EvHalted]).
Proof. reflexivity. Qed.
Example serial_error_example : serial_run 2 true false 0 [CDispatch 8 0; CDispatch 8 0; CWait] = (SErr, [EvDispatch 0 8 0; EvStart 0 0 0; EvFinish 0 0; EvStart 0 1 0; EvFinish 0 1]).
Proof. reflexivity. Qed.
(* one thread that takes the second iteration first *)
Example omp_example : exists s, oreach 2 1 [CDispatch 8 0; CStrag; CWait] s /\ o_calls s = [] /\
  o_log s = [EvDispatch 0 8 0; EvStart 0 1 0; EvFinish 0 1; EvStart 0 0 0; EvFinish 0 0; EvStrag; EvReturn 0].
Proof.
  eexists. split; [|split].
  - eapply or_step; [eapply or_step; [eapply or_step; [eapply or_step; [eapply or_step; [eapply or_step; [eapply or_step; [eapply or_step; [apply or_boot|]|]|]|]|]|]|]|].
    + eapply o_fork; reflexivity.
    + eapply (o_start 2 1 _ 8 0 1); [reflexivity|lia|reflexivity|vm_compute; lia].
    + eapply (o_finish 2 1 _ 1); [lia|reflexivity].
    + eapply (o_start 2 1 _ 8 0 0); [reflexivity|lia|reflexivity|vm_compute; lia].
    + eapply (o_finish 2 1 _ 0); [lia|reflexivity].
    + eapply (o_join 2 1 _ 8 0); [reflexivity|]. intros j J. assert (j = 0 \/ j = 1) as [-> | ->] by lia; reflexivity.
    + eapply o_strag; reflexivity.
    + eapply o_wait; reflexivity.
  - reflexivity.
  - reflexivity.
Qed.
