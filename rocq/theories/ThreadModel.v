(* Model of the thread dispatcher, /repo/src/util/pipelines/pipelines_thread.cc, as an interleaving of the host thread and
   the pipeline threads.
   Simplifications: memory is sequentially consistent (in the code Done[] and the state polled by thread_boot are volatile
   ints, not atomics or mutex protected, which the language calls a data race); pthread calls succeed; func is not
   NULL; pipelines return; only the host calls the dispatcher; checkpoint registration is left out. *)
From Coq Require Import ZArith List Bool.
Import ListNotations.
Open Scope Z_scope.

(* lines 49-54 *)
Inductive pstate : Type := SLEEP | EXECUTE | TERMINATE | ACK.
(* pipelines.h:10 *)
Definition MAX_PIPELINE : Z := 272.
(* What the dispatcher is asked to run: number of the dispatch (its func and args), job, offset into args. *)
Record task : Type := mk_task { t_disp : nat; t_job : Z; t_off : Z }.
(* Where a pipeline thread is in pipeline_mgr, lines 461-517. *)
Inductive wpc : Type :=
| WNew        (* not created *)
| WLock       (* before pthread_mutex_lock, 471 *)
| WSwitch     (* before the switch, 477 *)
| WRun        (* in func, 493-494 *)
| WFlag       (* before *flag = 1, 495 *)
| WSetSleep   (* before state = PIPELINE_SLEEP, 507 *)
| WWait       (* before pthread_cond_wait, 508 *)
| WWaiting    (* in pthread_cond_wait, mutex released *)
| WWoken      (* signalled (or woken spuriously), has to lock the mutex again *)
| WDead.      (* returned *)
Inductive owner : Type := ByHost | ByWorker.
(* Where the host is. *)
Inductive hpc : Type :=
| HBoot (i : Z) | HBootSpin (i : Z)                 (* thread_boot, loop 194-228 *)
| HReady                                             (* outside the dispatcher *)
| HLoop (sz str id : Z)                              (* thread_dispatch, loop head 534 *)
| HTry (sz str id : Z)                               (* parallel_execute, loop head 387 *)
| HHold (sz str id wid : Z)                          (* parallel_execute, switch 399, mutex of wid locked *)
| HSig (sz str id wid : Z) | HUnl (sz str id wid : Z) (* 415, 416 *)
| HHost (id : Z) | HHostDone (id : Z)                (* thread_dispatch, 545, 546 *)
| HWait (id : Z)                                     (* thread_wait, loop 562-565 *)
| HHalt (id : Z) | HHaltHold (id : Z) | HHaltSig (id : Z) | HHaltUnl (id : Z) | HJoin (id : Z) (* thread_halt, 282-302 *)
| HDone                                              (* dispatcher halted *)
| HError | HUB.
(* Calls the program makes: dispatch, its own share of the work (the second half of EXEC_PIPELINES,
   pipelines_exec_pth.h:60-67), wait, halt. *)
Inductive call : Type := CDispatch (sz str : Z) | CStrag | CWait | CHalt.
(* What can be observed, in order. *)
Inductive event : Type :=
| EvDispatch (d : nat) (sz str : Z) | EvStrag | EvReturn (d : nat) | EvHalted
| EvStart (d : nat) (job off : Z) | EvFinish (d : nat) (job : Z).

Record tstate : Type := mk_state {
  hp : hpc; next_id : Z; busy : bool; calls : list call; disp : nat;
  wp : Z -> wpc; st : Z -> pstate; tk : Z -> task; mtx : Z -> option owner; dn : Z -> bool; log : list event }.
Definition set {A} (f : Z -> A) (i : Z) (x : A) : Z -> A := fun k => if k =? i then x else f k.
Definition set_hp s x := mk_state x (next_id s) (busy s) (calls s) (disp s) (wp s) (st s) (tk s) (mtx s) (dn s) (log s).
Definition set_next s x := mk_state (hp s) x (busy s) (calls s) (disp s) (wp s) (st s) (tk s) (mtx s) (dn s) (log s).
Definition set_busy s x := mk_state (hp s) (next_id s) x (calls s) (disp s) (wp s) (st s) (tk s) (mtx s) (dn s) (log s).
Definition set_calls s x := mk_state (hp s) (next_id s) (busy s) x (disp s) (wp s) (st s) (tk s) (mtx s) (dn s) (log s).
Definition set_disp s x := mk_state (hp s) (next_id s) (busy s) (calls s) x (wp s) (st s) (tk s) (mtx s) (dn s) (log s).
Definition set_wp s i x := mk_state (hp s) (next_id s) (busy s) (calls s) (disp s) (set (wp s) i x) (st s) (tk s) (mtx s) (dn s) (log s).
Definition set_st s i x := mk_state (hp s) (next_id s) (busy s) (calls s) (disp s) (wp s) (set (st s) i x) (tk s) (mtx s) (dn s) (log s).
Definition set_tk s i x := mk_state (hp s) (next_id s) (busy s) (calls s) (disp s) (wp s) (st s) (set (tk s) i x) (mtx s) (dn s) (log s).
Definition set_mtx s i x := mk_state (hp s) (next_id s) (busy s) (calls s) (disp s) (wp s) (st s) (tk s) (set (mtx s) i x) (dn s) (log s).
Definition set_dn s i x := mk_state (hp s) (next_id s) (busy s) (calls s) (disp s) (wp s) (st s) (tk s) (mtx s) (set (dn s) i x) (log s).
Definition emit s e := mk_state (hp s) (next_id s) (busy s) (calls s) (disp s) (wp s) (st s) (tk s) (mtx s) (dn s) (log s ++ [e]).

(* static initialisation; thread_boot up to its loop, lines 168-190 *)
Definition boot_state (prog : list call) : tstate :=
  mk_state (HBoot 0) 0 false prog 0 (fun _ => WNew) (fun _ => SLEEP) (fun _ => mk_task 0 0 0) (fun _ => None) (fun _ => false) [].

(* One step of pipeline thread i, in pipeline_mgr. *)
Inductive wstep (i : Z) (s : tstate) : tstate -> Prop :=
| w_lock : wp s i = WLock -> mtx s i = None -> wstep i s (set_wp (set_mtx s i (Some ByWorker)) i WSwitch)
| w_term : wp s i = WSwitch -> st s i = TERMINATE -> wstep i s (set_wp (set_mtx s i None) i WDead)
| w_exec : wp s i = WSwitch -> st s i = EXECUTE -> wstep i s (emit (set_wp s i WRun) (EvStart (t_disp (tk s i)) (t_job (tk s i)) (t_off (tk s i))))
| w_idle : wp s i = WSwitch -> st s i = ACK \/ st s i = SLEEP -> wstep i s (set_wp s i WSetSleep)
| w_fin : wp s i = WRun -> wstep i s (emit (set_wp s i WFlag) (EvFinish (t_disp (tk s i)) (t_job (tk s i))))
| w_flag : wp s i = WFlag -> wstep i s (set_wp (set_dn s (t_job (tk s i)) true) i WSetSleep)
| w_sleep : wp s i = WSetSleep -> wstep i s (set_wp (set_st s i SLEEP) i WWait)
| w_wait : wp s i = WWait -> wstep i s (set_wp (set_mtx s i None) i WWaiting)
| w_spurious : wp s i = WWaiting -> wstep i s (set_wp s i WWoken)
| w_relock : wp s i = WWoken -> mtx s i = None -> wstep i s (set_wp (set_mtx s i (Some ByWorker)) i WSwitch).

(* pthread_cond_signal: wakes the thread if it waits *)
Definition signal (s : tstate) (i : Z) : tstate := match wp s i with WWaiting => set_wp s i WWoken | _ => s end.
Definition int_ok (x : Z) : bool := (- 2147483648 <=? x) && (x <=? 2147483647).
(* id*sz*str as the compiler evaluates it, lines 537, 545 *)
Definition off_ok (id sz str : Z) : bool := int_ok (id * sz) && int_ok (id * sz * str).

(* One step of the host.  n = n_pipeline, D = Dispatch_To_Host. *)
Inductive hstep (n D : Z) (s : tstate) : tstate -> Prop :=
(* thread_boot *)
| h_boot_ub : forall i, hp s = HBoot i -> i < n - D -> MAX_PIPELINE <= i -> hstep n D s (set_hp s HUB)
| h_boot : forall i, hp s = HBoot i -> i < n - D -> i < MAX_PIPELINE ->
    hstep n D s (set_hp (set_wp (set_mtx (set_st s i ACK) i None) i WLock) (HBootSpin i))
| h_boot_ack : forall i, hp s = HBootSpin i -> st s i = SLEEP -> hstep n D s (set_hp s (HBoot (i + 1)))
| h_booted : forall i, hp s = HBoot i -> n - D <= i -> hstep n D s (set_hp s HReady)
(* thread_dispatch, lines 519-548 *)
| h_disp_err : forall sz str cs, hp s = HReady -> calls s = CDispatch sz str :: cs -> busy s = true -> hstep n D s (set_hp s HError)
| h_disp : forall sz str cs, hp s = HReady -> calls s = CDispatch sz str :: cs -> busy s = false ->
    hstep n D s (emit (set_calls (set_disp (set_busy (set_hp s (HLoop sz str 0)) true) (S (disp s))) cs) (EvDispatch (disp s) sz str))
| h_loop_ub : forall sz str id, hp s = HLoop sz str id -> (id < n - D \/ D <> 0) -> (MAX_PIPELINE <= id \/ off_ok id sz str = false) -> hstep n D s (set_hp s HUB)
| h_loop : forall sz str id, hp s = HLoop sz str id -> id < n - D -> id < MAX_PIPELINE -> off_ok id sz str = true ->
    hstep n D s (set_hp (set_dn s id false) (HTry sz str id))
| h_loop_host : forall sz str id, hp s = HLoop sz str id -> n - D <= id -> D <> 0 -> id < MAX_PIPELINE -> off_ok id sz str = true ->
    hstep n D s (emit (set_hp (set_dn s id false) (HHost id)) (EvStart (Nat.pred (disp s)) id (id * sz * str)))
| h_loop_end : forall sz str id, hp s = HLoop sz str id -> n - D <= id -> D = 0 -> hstep n D s (set_hp s HReady)
| h_host : forall id, hp s = HHost id -> hstep n D s (emit (set_hp s (HHostDone id)) (EvFinish (Nat.pred (disp s)) id))
| h_host_done : forall id, hp s = HHostDone id -> hstep n D s (set_hp (set_dn s id true) HReady)
(* parallel_execute, lines 363-438 *)
| h_try_fail : forall sz str id, hp s = HTry sz str id -> mtx s (next_id s) <> None ->
    hstep n D s (set_next s (if n - D <=? next_id s + 1 then 0 else next_id s + 1))
| h_try : forall sz str id, hp s = HTry sz str id -> mtx s (next_id s) = None ->
    hstep n D s (set_next (set_hp (set_mtx s (next_id s) (Some ByHost)) (HHold sz str id (next_id s))) (if n - D <=? next_id s + 1 then 0 else next_id s + 1))
| h_assign : forall sz str id wid, hp s = HHold sz str id wid -> st s wid = SLEEP ->
    hstep n D s (set_hp (set_tk (set_st s wid EXECUTE) wid (mk_task (Nat.pred (disp s)) id (id * sz * str))) (HSig sz str id wid))
| h_hold_term : forall sz str id wid, hp s = HHold sz str id wid -> st s wid = TERMINATE -> hstep n D s (set_hp (set_mtx s wid None) HError)
| h_hold_no : forall sz str id wid, hp s = HHold sz str id wid -> st s wid = EXECUTE \/ st s wid = ACK -> hstep n D s (set_hp (set_mtx s wid None) (HTry sz str id))
| h_sig : forall sz str id wid, hp s = HSig sz str id wid -> hstep n D s (set_hp (signal s wid) (HUnl sz str id wid))
| h_unl : forall sz str id wid, hp s = HUnl sz str id wid -> hstep n D s (set_hp (set_mtx s wid None) (HLoop sz str (id + 1)))
(* the caller's own work *)
| h_strag : forall cs, hp s = HReady -> calls s = CStrag :: cs -> hstep n D s (emit (set_calls s cs) EvStrag)
(* thread_wait, lines 550-568 *)
| h_wait_err : forall cs, hp s = HReady -> calls s = CWait :: cs -> busy s = false -> hstep n D s (set_hp s HError)
| h_wait : forall cs, hp s = HReady -> calls s = CWait :: cs -> busy s = true -> hstep n D s (set_calls (set_hp s (HWait 0)) cs)
| h_wait_next : forall id, hp s = HWait id -> id < n -> dn s id = true -> hstep n D s (set_hp s (HWait (id + 1)))
| h_wait_end : forall id, hp s = HWait id -> n <= id -> hstep n D s (emit (set_busy (set_hp s HReady) false) (EvReturn (Nat.pred (disp s))))
(* thread_halt, lines 264-319 *)
| h_halt_err : forall cs, hp s = HReady -> calls s = CHalt :: cs -> busy s = true -> hstep n D s (set_hp s HError)
| h_halt : forall cs, hp s = HReady -> calls s = CHalt :: cs -> busy s = false -> hstep n D s (set_calls (set_hp s (HHalt 0)) cs)
| h_halt_lock : forall id, hp s = HHalt id -> id < n - D -> mtx s id = None -> hstep n D s (set_hp (set_mtx s id (Some ByHost)) (HHaltHold id))
| h_halt_set : forall id, hp s = HHaltHold id -> hstep n D s (set_hp (set_st s id TERMINATE) (HHaltSig id))
| h_halt_sig : forall id, hp s = HHaltSig id -> hstep n D s (set_hp (signal s id) (HHaltUnl id))
| h_halt_unl : forall id, hp s = HHaltUnl id -> hstep n D s (set_hp (set_mtx s id None) (HJoin id))
| h_join : forall id, hp s = HJoin id -> wp s id = WDead -> hstep n D s (set_hp s (HHalt (id + 1)))
(* destroying a locked mutex is undefined *)
| h_halt_end : forall id, hp s = HHalt id -> n - D <= id -> (forall i, 0 <= i < n - D -> mtx s i = None) -> hstep n D s (emit (set_hp s HDone) EvHalted)
| h_halt_ub : forall id i, hp s = HHalt id -> n - D <= id -> 0 <= i < n - D -> mtx s i <> None -> hstep n D s (set_hp s HUB)
(* any call after thread_halt: n_pipeline is 0 *)
| h_dead : forall c cs, hp s = HDone -> calls s = c :: cs -> c <> CStrag -> hstep n D s (set_hp s HError).

Inductive step (n D : Z) (s s' : tstate) : Prop :=
| by_host : hstep n D s s' -> step n D s s'
| by_worker : forall i, 0 <= i < n - D -> wstep i s s' -> step n D s s'.
Inductive reach (n D : Z) (prog : list call) : tstate -> Prop :=
| r_boot : reach n D prog (boot_state prog)
| r_step : forall s s', reach n D prog s -> step n D s s' -> reach n D prog s'.
Inductive steps (n D : Z) : tstate -> tstate -> Prop :=
| s_refl : forall s, steps n D s s
| s_step : forall s s1 s2, step n D s s1 -> steps n D s1 s2 -> steps n D s s2.
