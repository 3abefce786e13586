(* Model of the other two back ends of the dispatcher: the serial one, /repo/src/util/pipelines/pipelines_serial.cc, and the OpenMP one,
   /repo/src/util/pipelines/pipelines_exec_omp.h.  Calls and events are those of ThreadModel, so that the three can be compared.
   Simplifications: func is not NULL; jobs return; only the host calls the dispatcher; checkpoint registration and booting
   are left out. *)
From Coq Require Import ZArith List Bool.
From Verif Require Import ThreadModel.
Import ListNotations.
Open Scope Z_scope.

(* ids 0 .. n-1 in order *)
Definition ids (n : Z) : list Z := map Z.of_nat (seq 0 (Z.to_nat n)).

(* ---- serial ---- *)
(* result of a program: completed, stopped by ERROR, left the language *)
Inductive sres : Type := SOk | SErr | SUB.
(* pipelines_serial.cc:50-51: the loop of serial_dispatch *)
Definition serial_jobs (n : Z) (d : nat) (sz str : Z) : list event :=
  flat_map (fun id => [EvStart d id (id * sz * str); EvFinish d id]) (ids n).
Definition after (es : list event) (r : sres * list event) : sres * list event := (fst r, es ++ snd r).
(* n = serial.n_pipeline while booted (alive), Busy; pipelines_serial.cc:40-66.  CStrag is the caller's own share, the second
   half of EXEC_PIPELINES.  When an offset overflows, the events of the dispatch are not listed. *)
Fixpoint serial_run (n : Z) (alive busy : bool) (d : nat) (cs : list call) : sres * list event :=
  match cs with
  | [] => (SOk, [])
  | CStrag :: cs => after [EvStrag] (serial_run n alive busy d cs)
  | CDispatch sz str :: cs =>
      if negb alive then (SErr, []) else if busy then (SErr, []) else
      if forallb (fun id => off_ok id sz str) (ids n)
      then after (EvDispatch d sz str :: serial_jobs n d sz str) (serial_run n alive true (S d) cs)
      else (SUB, [])
  | CWait :: cs =>
      if negb alive then (SErr, []) else if busy then after [EvReturn (Nat.pred d)] (serial_run n alive false d cs) else (SErr, [])
  | CHalt :: cs =>
      if negb alive then (SErr, []) else if busy then (SErr, []) else after [EvHalted] (serial_run n false false d cs)
  end.

(* ---- OpenMP ---- *)
(* an iteration of the omp for loop *)
Inductive ojob : Type := JTodo | JRun | JDone.
Record ostate : Type := mk_ostate {
  o_calls : list call; o_disp : nat; o_reg : option (Z * Z); (* inside the parallel region, with sizeof and stride *)
  o_job : Z -> ojob; o_log : list event }.
Definition omp_boot_state (prog : list call) : ostate := mk_ostate prog 0 None (fun _ => JTodo) [].
Definition is_run (x : ojob) : bool := match x with JRun => true | _ => false end.
(* iterations under way *)
Definition running (n : Z) (s : ostate) : nat := length (filter (fun j => is_run (o_job s j)) (ids n)).
(* pipelines_exec_omp.h:89: args+id*sizeof of args*str, in bytes: args is a pointer to a structure of sz bytes, so that adding
   counts structures *)
Definition omp_off (sz str id : Z) : Z := sz * (id * sz * str).
(* One step; n = omp_helper.n_pipeline iterations, T = threads of the team, which OpenMP may choose smaller than num_threads.
   pipelines_exec_omp.h:82-92: the parallel region with its loop, in whatever order and on whatever thread (no schedule clause), the
   implicit barrier at its end, then the caller's share; :18: WAIT_PIPELINES is a barrier outside a parallel region, i.e.
   of a team of one. *)
Inductive ostep (n : Z) (T : nat) (s : ostate) : ostate -> Prop :=
| o_fork : forall sz str cs, o_reg s = None -> o_calls s = CDispatch sz str :: cs ->
    ostep n T s (mk_ostate cs (S (o_disp s)) (Some (sz, str)) (fun _ => JTodo) (o_log s ++ [EvDispatch (o_disp s) sz str]))
| o_start : forall sz str j, o_reg s = Some (sz, str) -> 0 <= j < n -> o_job s j = JTodo -> (running n s < T)%nat ->
    ostep n T s (mk_ostate (o_calls s) (o_disp s) (o_reg s) (set (o_job s) j JRun)
      (o_log s ++ [EvStart (Nat.pred (o_disp s)) j (omp_off sz str j)]))
| o_finish : forall j, 0 <= j < n -> o_job s j = JRun ->
    ostep n T s (mk_ostate (o_calls s) (o_disp s) (o_reg s) (set (o_job s) j JDone) (o_log s ++ [EvFinish (Nat.pred (o_disp s)) j]))
| o_join : forall sz str, o_reg s = Some (sz, str) -> (forall j, 0 <= j < n -> o_job s j = JDone) ->
    ostep n T s (mk_ostate (o_calls s) (o_disp s) None (fun _ => JTodo) (o_log s))
| o_strag : forall cs, o_reg s = None -> o_calls s = CStrag :: cs ->
    ostep n T s (mk_ostate cs (o_disp s) None (o_job s) (o_log s ++ [EvStrag]))
| o_wait : forall cs, o_reg s = None -> o_calls s = CWait :: cs ->
    ostep n T s (mk_ostate cs (o_disp s) None (o_job s) (o_log s ++ [EvReturn (Nat.pred (o_disp s))])).
Inductive oreach (n : Z) (T : nat) (prog : list call) : ostate -> Prop :=
| or_boot : oreach n T prog (omp_boot_state prog)
| or_step : forall s s', oreach n T prog s -> ostep n T s s' -> oreach n T prog s'.
Inductive osteps (n : Z) (T : nat) : ostate -> ostate -> Prop :=
| os_refl : forall s, osteps n T s s
| os_step : forall s s1 s2, ostep n T s s1 -> osteps n T s1 s2 -> osteps n T s s2.
