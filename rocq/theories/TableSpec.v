(* What a reader of a text table does, stated without the model: lines end with a newline, words are separated by spaces. *)
From Coq Require Import ZArith List Bool Ascii String.
Import ListNotations.
Open Scope list_scope.

Fixpoint split (c : ascii) (cur l : list ascii) : list (list ascii) :=
  match l with
  | [] => [cur]
  | x :: t => if Ascii.eqb x c then cur :: split c [] t else split c (cur ++ [x]) t
  end.
(* the lines of a file; the last item is what follows the last newline *)
Definition lines (file : list ascii) : list (list ascii) := split (ascii_of_nat 10) [] file.
Definition words (line : list ascii) : list (list ascii) :=
  filter (fun w => match w with [] => false | _ => true end) (split (ascii_of_nat 32) [] line).
(* printable as one word *)
Definition word (w : list ascii) : Prop := w <> [] /\ ~ In (ascii_of_nat 32) w /\ ~ In (ascii_of_nat 10) w.
