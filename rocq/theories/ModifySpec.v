(* What a line of the file says, without the code. *)
From Coq Require Import ZArith List Bool Ascii String.
Import ListNotations.
Open Scope string_scope.
Open Scope list_scope.
Open Scope Z_scope.

Definition white (c : ascii) : Prop := In (nat_of_ascii c) [9; 10; 11; 12; 13; 32]%nat.
Definition digit (c : ascii) : Prop := (48 <= nat_of_ascii c <= 57)%nat.
(* the number that digits write: the last one counts one, the one before it ten ... *)
Fixpoint number (ds : list ascii) : Z :=
  match ds with [] => 0 | c :: r => (Z.of_nat (nat_of_ascii c) - 48) * 10 ^ Z.of_nat (List.length r) + number r end.

(* the line starts with the name, white space, a sign or none, and all the digits of |v| *)
Definition says (name : string) (v : Z) (line : list ascii) : Prop :=
  exists ws sg ds rest, line = list_ascii_of_string name ++ ws ++ sg ++ ds ++ rest /\ Forall white ws /\ ds <> [] /\ Forall digit ds /\
    match rest with [] => True | c :: _ => ~ digit c end /\
    (((sg = [] \/ sg = ["+"%char]) /\ v = number ds) \/ (sg = ["-"%char] /\ v = - number ds)).

(* the integer settings and their names *)
Inductive setting := S_num_step | S_checkpt | S_hydro | S_field | S_particle.
Definition name_of (k : setting) : string :=
  match k with S_num_step => "num_step" | S_checkpt => "checkpt_interval" | S_hydro => "hydro_interval" | S_field => "field_interval" | S_particle => "particle_interval" end.
(* the value a setting gets: intervals are not negative *)
Definition value_of (k : setting) (v : Z) : Z := match k with S_num_step => v | _ => Z.max 0 v end.
Definition in_int (v : Z) : Prop := - 2 ^ 31 <= v < 2 ^ 31.

(* a line of a file: a newline at its end and nowhere else *)
Definition text_line (line : list ascii) : Prop := exists body, line = body ++ ["010"%char] /\ ~ In "010"%char body.
