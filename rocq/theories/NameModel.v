(* Model of the names of the files of a run: the sprintf calls of /repo/deck/main.cc and /repo/src/vpic/dump.cc into arrays of fixed
   length.  A string is its list of characters without the NUL at its end.  A store beyond the array is a distinct outcome
   (None).  Left out: the null pointer test of the base, and whether the file can be opened. *)
From Coq Require Import ZArith List Bool Ascii String.
Import ListNotations.
Open Scope string_scope.
Open Scope list_scope.
Open Scope Z_scope.

Definition chars (s : string) : list ascii := list_ascii_of_string s.
Definition digit_char (d : Z) : ascii := ascii_of_nat (Z.to_nat (48 + d)).
(* printf %i, %d, %li, %ld: the digits, at most 20 of them *)
Fixpoint digits (fuel : nat) (n : Z) : list ascii :=
  match fuel with O => [] | S f => if n <? 10 then [digit_char n] else digits f (n / 10) ++ [digit_char (n mod 10)] end.
Definition decimal (n : Z) : list ascii := if n <? 0 then "-"%char :: digits 20 (- n) else digits 20 n.

(* sprintf into an array of n characters: the string and its NUL, or a store beyond the array *)
Definition sprintf_to (n : nat) (l : list ascii) : option (list ascii) := if Nat.ltb (List.length l) n then Some l else None.

(* main.cc:47-54 *)
Definition checkpt_name (base : list ascii) (tag rank : Z) : option (list ascii) :=
  sprintf_to 256 (base ++ chars "." ++ decimal tag ++ chars "." ++ decimal rank).
(* main.cc:84-85 *)
Definition restore_name (base : list ascii) (rank : Z) : option (list ascii) :=
  sprintf_to 256 (base ++ chars "." ++ decimal rank).
(* dump.cc:140-147 *)
Definition grid_name (base : list ascii) (rank : Z) : option (list ascii) :=
  sprintf_to 256 (base ++ chars "." ++ decimal rank).
(* dump.cc:186-195 (dump_fields), 228-251 (dump_hydro), 279-296 (dump_particles) *)
Definition dump_name (base : list ascii) (ftag : Z) (step rank : Z) : option (list ascii) :=
  if negb (ftag =? 0) then sprintf_to 256 (base ++ chars "." ++ decimal step ++ chars "." ++ decimal rank)
  else sprintf_to 256 (base ++ chars "." ++ decimal rank).
(* dump.cc:411-412 *)
Definition header_name (base : list ascii) : option (list ascii) := sprintf_to 256 (base ++ chars ".vpc").
(* dump.cc:538 and 713 *)
Definition dump_step (user_step step : Z) : Z := if user_step =? -1 then step else user_step.
(* dump.cc:541-546 and 717-722: timeDir *)
Definition time_dir (dir : list ascii) (step : Z) : option (list ascii) := sprintf_to 256 (dir ++ chars "/T." ++ decimal step).
(* dump.cc:538-558 (field_dump), 713-734 (hydro_dump): filename, after timeDir *)
Definition parallel_name (dir file : list ascii) (user_step step rank : Z) : option (list ascii) :=
  let s := dump_step user_step step in
  match time_dir dir s with
  | None => None
  | Some _ => sprintf_to 300 (dir ++ chars "/T." ++ decimal s ++ chars "/" ++ file ++ chars "." ++ decimal s ++ chars "." ++ decimal rank)
  end.
