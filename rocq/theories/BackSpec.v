(* Words for the statements about the back ends, without the back ends. *)
From Coq Require Import ZArith List Bool.
From Verif Require Import ThreadModel.
Import ListNotations.
Open Scope Z_scope.

(* after these calls a dispatch has not been waited for *)
Fixpoint pending_after (b : bool) (cs : list call) : bool :=
  match cs with [] => b | CDispatch _ _ :: cs => pending_after true cs | CWait :: cs => pending_after false cs | _ :: cs => pending_after b cs end.
(* number of dispatches *)
Fixpoint dispatches (cs : list call) : nat :=
  match cs with [] => 0%nat | CDispatch _ _ :: cs => S (dispatches cs) | _ :: cs => dispatches cs end.
(* calls of job j of dispatch d with arguments at offset off *)
Definition is_start (d : nat) (j off : Z) (e : event) : bool :=
  match e with EvStart d' j' off' => (Nat.eqb d d') && (j =? j') && (off =? off') | _ => false end.
Definition starts (d : nat) (j off : Z) (l : list event) : nat := length (filter (is_start d j off) l).
