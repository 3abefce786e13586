(* Model of vpic_simulation::modify in /repo/src/vpic/misc.cc: the file named on the command line that changes settings of a run that is
   restored.  The file is its list of characters, none of them NUL.  Left out: opening the file (a failure stops the run), the
   messages, the fields behind EXTEND_MODIFY (the macro is not defined by the build), and that the file is never closed. *)
From Coq Require Import ZArith List Bool Ascii String.
Import ListNotations.
Open Scope string_scope.
Open Scope list_scope.
Open Scope Z_scope.

(* isspace in the C locale; the digits; the newline *)
Definition is_space (c : ascii) : bool := let n := Z.of_nat (nat_of_ascii c) in ((9 <=? n) && (n <=? 13)) || (n =? 32).
Definition is_digit (c : ascii) : bool := let n := Z.of_nat (nat_of_ascii c) in (48 <=? n) && (n <=? 57).
Definition is_newline (c : ascii) : bool := Z.of_nat (nat_of_ascii c) =? 10.
Definition digit_of (c : ascii) : Z := Z.of_nat (nat_of_ascii c) - 48.

(* misc.cc:142: the successive results of fgets( line, 127, handle ): at most 126 characters, up to and with a newline; room is what is
   left of the 126 *)
Fixpoint chunks (room : nat) (cur : list ascii) (l : list ascii) : list (list ascii) :=
  match l with
  | [] => match cur with [] => [] | _ => [rev cur] end
  | c :: r => if is_newline c || Nat.eqb room 1 then rev (c :: cur) :: chunks 126 [] r else chunks (pred room) (c :: cur) r
  end.
Definition fgets_all (file : list ascii) : list (list ascii) := chunks 126 [] file.

(* sscanf, literal characters of the format: None when the input differs *)
Fixpoint skip_literal (f l : list ascii) : option (list ascii) :=
  match f, l with
  | [], _ => Some l
  | a :: f', b :: l' => if Ascii.eqb a b then skip_literal f' l' else None
  | _ :: _, [] => None
  end.
(* sscanf, white space of the format: any amount of it, also none *)
Fixpoint skip_space (l : list ascii) : list ascii :=
  match l with c :: r => if is_space c then skip_space r else l | [] => [] end.
(* the digits at the head of the input, read with the value v before them; the flag tells whether there was one *)
Fixpoint read_digits (v : Z) (some : bool) (l : list ascii) : option Z :=
  match l with
  | c :: r => if is_digit c then read_digits (10 * v + digit_of c) true r else if some then Some v else None
  | [] => if some then Some v else None
  end.
(* sscanf, %d: no conversion, a value, or a value that int cannot hold, which C leaves undefined *)
Inductive scan := No_match | Match (v : Z) | Undefined.
Definition scan_d (l : list ascii) : scan :=
  let l := skip_space l in
  let r := match l with
    | c :: r => if Ascii.eqb c "-" then option_map Z.opp (read_digits 0 false r) else if Ascii.eqb c "+" then read_digits 0 false r else read_digits 0 false l
    | [] => None
    end in
  match r with None => No_match | Some v => if (- 2 ^ 31 <=? v) && (v <? 2 ^ 31) then Match v else Undefined end.
(* the condition of ITEST, misc.cc:124-125: sscanf( line, N " %d", &iarg )==1 *)
Definition itest (name : string) (line : list ascii) : scan :=
  match skip_literal (list_ascii_of_string name) line with None => No_match | Some l => scan_d (skip_space l) end.

Section Modify.
  (* the double settings, and the conversion %le: what it reads at the head of the input, if anything *)
  Variable D : Type.
  Variable scan_le : list ascii -> option D.

  (* the settings modify can change *)
  Record settings := mk_settings { quota : D; num_step : Z; checkpt_interval : Z; hydro_interval : Z; field_interval : Z; particle_interval : Z }.

  (* misc.cc:127-128 and 143 *)
  Definition test_quota (line : list ascii) (s : settings) : settings :=
    match skip_literal (list_ascii_of_string "quota") line with
    | None => s
    | Some l => match scan_le (skip_space (skip_space l)) with
        | Some d => mk_settings d (num_step s) (checkpt_interval s) (hydro_interval s) (field_interval s) (particle_interval s)
        | None => s
        end
    end.
  (* ITEST( V, N, A ); None: undefined behaviour *)
  Definition test_int (name : string) (put : Z -> settings -> settings) (arg : Z -> Z) (line : list ascii) (s : option settings) : option settings :=
    match s with
    | None => None
    | Some s => match itest name line with No_match => Some s | Match v => Some (put (arg v) s) | Undefined => None end
    end.
  Definition put_num_step (v : Z) (s : settings) := mk_settings (quota s) v (checkpt_interval s) (hydro_interval s) (field_interval s) (particle_interval s).
  Definition put_checkpt (v : Z) (s : settings) := mk_settings (quota s) (num_step s) v (hydro_interval s) (field_interval s) (particle_interval s).
  Definition put_hydro (v : Z) (s : settings) := mk_settings (quota s) (num_step s) (checkpt_interval s) v (field_interval s) (particle_interval s).
  Definition put_field (v : Z) (s : settings) := mk_settings (quota s) (num_step s) (checkpt_interval s) (hydro_interval s) v (particle_interval s).
  Definition put_particle (v : Z) (s : settings) := mk_settings (quota s) (num_step s) (checkpt_interval s) (hydro_interval s) (field_interval s) v.
  (* (iarg<0 ? 0 : iarg) *)
  Definition at_least_0 (v : Z) : Z := if v <? 0 then 0 else v.

  (* misc.cc:143-148, one turn of the loop *)
  Definition modify_line (s : option settings) (line : list ascii) : option settings :=
    let s := option_map (test_quota line) s in
    let s := test_int "num_step" put_num_step (fun v => v) line s in
    let s := test_int "checkpt_interval" put_checkpt at_least_0 line s in
    let s := test_int "hydro_interval" put_hydro at_least_0 line s in
    let s := test_int "field_interval" put_field at_least_0 line s in
    test_int "particle_interval" put_particle at_least_0 line s.
  (* misc.cc:132-170 *)
  Definition modify (file : list ascii) (s : settings) : option settings := fold_left modify_line (fgets_all file) (Some s).
End Modify.
