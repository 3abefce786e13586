(* Model of the report of the time a run took (/repo/deck/main.cc:117-137).  The difference of the two readings of the clock is an input.
   int arithmetic that overflows and a double that int cannot hold are a distinct outcome (None).  Left out: the text. *)
From Coq Require Import ZArith List Bool.
From Verif Require Import FloatModel ProfileModel.
Open Scope Z_scope.

Definition int_mul (a b : Z) : option Z := if (- 2 ^ 31 <=? a * b) && (a * b <? 2 ^ 31) then Some (a * b) else None.
(* x -= y*k *)
Definition less_times (x y k : Z) : option Z := match int_mul y k with Some p => int_add x (- p) | None => None end.
Record time_report := mk_report { r_w : Z; r_d : Z; r_h : Z; r_m : Z; r_s : Z }.
(* main.cc:129-133; division of ints rounds towards zero *)
Definition breakdown (s : Z) : option time_report :=
  let m := Z.quot s 60 in let h := Z.quot m 60 in let d := Z.quot h 24 in let w := Z.quot d 7 in
  match less_times s m 60, less_times m h 60, less_times h d 24, less_times d w 7 with
  | Some s', Some m', Some h', Some d' => Some (mk_report w d' h' m' s')
  | _, _, _, _ => None
  end.
Definition elapsed_report (elapsed : b64) : option time_report :=
  match to_int elapsed with Some s => breakdown s | None => None end.
