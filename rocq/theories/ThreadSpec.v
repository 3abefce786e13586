(* What a correct dispatcher shows to its caller: properties of the list of events, stated without the dispatcher. *)
From Coq Require Import ZArith List Bool.
From Verif Require Import ThreadModel.
Import ListNotations.
Open Scope Z_scope.

(* the events of job j *)
Definition of_job (j : Z) (e : event) : bool := match e with EvStart _ j' _ | EvFinish _ j' => j =? j' | _ => false end.
Definition within (n j : Z) : bool := (0 <=? j) && (j <? n).
(* Between a dispatch and the return of the wait: every one of the n jobs is started once with its own arguments and then finished
   once, no other job is run, and nothing of another dispatch happens. *)
Definition block_ok (n : Z) (d : nat) (sz str : Z) (m : list event) : Prop :=
  (forall j, filter (of_job j) m = if within n j then [EvStart d j (j * sz * str); EvFinish d j] else []) /\
  (forall e, In e m -> e = EvStrag \/ exists j, of_job j e = true).
(* the same while it is under way *)
Definition block_running (n : Z) (d : nat) (sz str : Z) (m : list event) : Prop :=
  (forall j, filter (of_job j) m = [] \/
             (within n j = true /\ (filter (of_job j) m = [EvStart d j (j * sz * str)] \/ filter (of_job j) m = [EvStart d j (j * sz * str); EvFinish d j]))) /\
  (forall e, In e m -> e = EvStrag \/ exists j, of_job j e = true).
(* A history of d complete dispatches, numbered 0, 1, ..., one after the other. *)
Inductive complete (n : Z) : nat -> list event -> Prop :=
| c_nil : complete n 0 []
| c_block : forall d l sz str m, complete n d l -> block_ok n d sz str m -> complete n (S d) (l ++ EvDispatch d sz str :: m ++ [EvReturn d])
| c_strag : forall d l, complete n d l -> complete n d (l ++ [EvStrag])
| c_halt : forall d l, complete n d l -> complete n d (l ++ [EvHalted]).
(* What the caller sees of its own calls. *)
Definition own (e : event) : bool := match e with EvStart _ _ _ | EvFinish _ _ => false | _ => true end.
Fixpoint expected (d : nat) (cs : list call) : list event :=
  match cs with
  | [] => []
  | CDispatch sz str :: cs => EvDispatch d sz str :: expected (S d) cs
  | CStrag :: cs => EvStrag :: expected d cs
  | CWait :: cs => EvReturn (Nat.pred d) :: expected d cs
  | CHalt :: cs => EvHalted :: expected d cs
  end.
