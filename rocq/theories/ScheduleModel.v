(* Model of the order in which a run calls its operations: /repo/src/vpic/advance.cc, initialize.cc,
   deck/main.cc:65-150.  An operation is an event; its arguments other than the species, and the timers
   (TIC, TOC: one statement each, util/profile/profile.h:46-66), are left out. *)
From Coq Require Import ZArith List Bool.
Import ListNotations.
Open Scope Z_scope.

Inductive call : Type :=
| SortP (s : nat) | ClearAcc | Collisions | UserCollisions | AdvanceP (s : nat) | Emit | UserInject | ReduceAcc
| BoundaryP | DropMovers (s : nat)
| ClearJf | UnloadAcc | SyncJf | UserCurrent | HalfAdvanceB | AdvanceE | UserField
| ClearRhof | AccRho (s : nat) | SyncRho | DivEErr | RmsE | CleanE | DivBErr | RmsB | CleanB | SyncTangENormB
| LoadInterp | IncStep | Profile | UserDiag
| UserInit | CurlB | ComputeRhob | UncenterP (s : nat)
| Register                                      (* REGISTER_OBJECT of the pointer to the simulation *)
| Message.                                      (* MESSAGE or WARNING, of this rank only *)

(* vpic.h:134-141 and the lists of the simulation; sort_interval of a species *)
Record config : Type := mkcf {
  c_species : list nat; c_sort : nat -> Z; c_collide : bool; c_emit : bool;
  c_num_step : Z; c_comm_round : Z; c_status : Z; c_div_e : Z; c_div_e_round : Z; c_div_b : Z; c_div_b_round : Z; c_sync : Z }.
(* what differs between ranks: the rank, verbose, and the movers left of each species *)
Record local : Type := mklo { l_rank : Z; l_verbose : bool; l_nm : nat -> Z }.

Definition msg (l : local) : list call := if l_rank l =? 0 then [Message] else [].
(* (interval>0) && ((step() % interval)==0) *)
Definition due (interval step : Z) : bool := (0 <? interval) && (Z.rem step interval =? 0).
Definition some {A} (l : list A) : bool := match l with [] => false | _ => true end.
Definition when (b : bool) (l : list call) : list call := if b then l else [].
Definition rounds (n : Z) (f : Z -> list call) : list call := flat_map (fun k => f (Z.of_nat k)) (seq 0 (Z.to_nat n)).
(* round==0 || round==num-1 *)
Definition reported (num round : Z) : bool := (round =? 0) || (round =? num - 1).

(* advance.cc:21-206 after the test of line 21 *)
Definition advance_calls (c : config) (l : local) (step : Z) : list call :=
  flat_map (fun s => when (due (c_sort c s) step) (msg l ++ [SortP s])) (c_species c) ++        (* 25-29 *)
  when (some (c_species c)) [ClearAcc] ++                                                       (* 36-37 *)
  when (c_collide c) [Collisions] ++ [UserCollisions] ++                                        (* 45-47 *)
  map AdvanceP (c_species c) ++                                                                 (* 49-50 *)
  when (c_emit c) [Emit] ++ [UserInject] ++                                                     (* 58-60 *)
  when (some (c_species c)) [ReduceAcc] ++                                                      (* 65-66 *)
  rounds (c_comm_round c) (fun _ => [BoundaryP]) ++                                             (* 73-77 *)
  flat_map (fun s => when (negb (l_nm l s =? 0) && l_verbose l) [Message] ++ [DropMovers s]) (c_species c) ++     (* 78-101 *)
  [ClearJf] ++ when (some (c_species c)) [UnloadAcc] ++ [SyncJf] ++                             (* 107-110 *)
  [UserCurrent; HalfAdvanceB; AdvanceE; UserField; HalfAdvanceB] ++                             (* 119-137 *)
  when (due (c_div_e c) step)                                                                   (* 141-156 *)
    (msg l ++ [ClearRhof] ++ map AccRho (c_species c) ++ [SyncRho] ++
     rounds (c_div_e_round c) (fun r => [DivEErr] ++ when (reported (c_div_e_round c) r) ([RmsE] ++ msg l) ++ [CleanE])) ++
  when (due (c_div_b c) step)                                                                   (* 160-171 *)
    (msg l ++ rounds (c_div_b_round c) (fun r => [DivBErr] ++ when (reported (c_div_b_round c) r) ([RmsB] ++ msg l) ++ [CleanB])) ++
  when (due (c_sync c) step) (msg l ++ [SyncTangENormB] ++ msg l) ++                            (* 175-179 *)
  when (some (c_species c)) [LoadInterp] ++ [IncStep] ++                                        (* 185-187 *)
  when (due (c_status c) (step + 1)) (msg l ++ [Profile]) ++                                    (* 191-194 *)
  [UserDiag].                                                                                   (* 198 *)

(* initialize.cc:10-63 *)
Definition initialize_calls (c : config) (l : local) : list call :=
  [UserInit] ++ msg l ++ [SyncTangENormB] ++ msg l ++ msg l ++ [DivBErr; RmsB] ++ msg l ++ [CleanB] ++
  msg l ++ [CurlB] ++ msg l ++ [ClearRhof] ++ map AccRho (c_species c) ++ [SyncRho; ComputeRhob] ++
  msg l ++ [DivEErr; RmsE] ++ msg l ++ [CleanE] ++ msg l ++ [SyncTangENormB] ++ msg l ++
  when (some (c_species c)) (msg l ++ [LoadInterp]) ++ map UncenterP (c_species c) ++
  msg l ++ [UserDiag] ++ msg l ++ [Profile].

(* the test of advance.cc:21: true is "return 0" *)
Definition finished (num_step step : Z) : bool := (0 <? num_step) && (num_step <=? step).
(* while( simulation->advance() ), main.cc:121, from a step on; fuel bounds the calls of advance.  The second
   component: the loop has ended (advance returned 0).  l: the local data at each step *)
Fixpoint main_loop (fuel : nat) (c : config) (l : Z -> local) (step : Z) : list call * Z * bool :=
  if finished (c_num_step c) step then ([], step, true) else
  match fuel with
  | O => ([], step, false)
  | S n => let '(cs, e, b) := main_loop n c l (step + 1) in (advance_calls c (l step) step ++ cs, e, b)
  end.
(* main.cc:65-121 from scratch: the pointer is registered after initialize returns (line 101) *)
Definition main_scratch (fuel : nat) (c : config) (l : Z -> local) : list call * Z * bool :=
  let '(cs, e, b) := main_loop fuel c l 0 in (initialize_calls c (l (-1)) ++ [Register] ++ cs, e, b).
(* main.cc:73-91, 121 with --restore: the checkpoint was written by user_diagnostics after the calls of a trace.
   It holds the simulation, with its step (grid.h:80), as of then, and the pointer to it (checkpt_main, main.cc:24-27) if
   that was registered.  None: the pointer is still NULL (line 16) and simulation->advance() is undefined behaviour.
   The restore itself is CheckptModel's; what user_diagnostics does after the checkpoint is not repeated. *)
Definition is_reg (k : call) : bool := match k with Register => true | _ => false end.
Definition is_inc (k : call) : bool := match k with IncStep => true | _ => false end.
Definition main_restore (fuel : nat) (c : config) (l : Z -> local) (trace : list call) : option (list call * Z * bool) :=
  if existsb is_reg trace then Some (main_loop fuel c l (Z.of_nat (length (filter is_inc trace)))) else None.
