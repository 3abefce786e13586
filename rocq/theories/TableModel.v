(* Model of vpic_simulation::dump_energies (/repo/src/vpic/dump.cc:37-77): the calls it makes on one rank, in order, and what they
   leave in the file.  Text is a list of characters.  How %e prints a double is an input fmt of the model, the energies are inputs
   too (energy_f and energy_p are modelled in EnergyModel.v); of those two calls the model keeps the collective sum inside them.
   Left out: errors of vfprintf (its result is ignored, StandardIOPolicy.h:126), the log. *)
From Coq Require Import ZArith List Bool Ascii String.
From Verif Require Import NameModel.
Import ListNotations.
Open Scope string_scope.
Open Scope list_scope.
Open Scope Z_scope.

Definition newline : ascii := ascii_of_nat 10.
Definition quote : ascii := ascii_of_nat 34.

(* one call made by a rank: fopen with "a" (append) or "w" (FileIO.h:31, StandardIOPolicy.h:78-88), vfprintf, mp_allsum_d of n
   doubles (n = 6 in energy_f_pipeline.cc:94 and vacuum_energy_f_pipeline.cc:96, n = 1 in energy_p_pipeline.cc:111), fclose, and exit(1)
   by ERROR (util_base.h:267-273) *)
Inductive call := Open (append : bool) | Print (text : list ascii) | AllSum (n : Z) | Close | Exit.

Section Dump.
Context {V : Type}.
Variable fmt : V -> list ascii.

(* the species in the order of LIST_FOR_EACH (util_base.h:220-221): its name and the value energy_p returns *)
Record dump := { d_step : Z; d_field : nat -> V; d_species : list (list ascii * V) }.

(* dump.cc:51-57: the layout line, one quoted name per species, and the line of the time step *)
Definition header (dt : V) (sp : list (list ascii * V)) : list call :=
  [Print (chars "% Layout" ++ [newline] ++ chars "% step ex ey ez bx by bz")] ++
  map (fun s => Print (chars " " ++ [quote] ++ fst s ++ [quote])) sp ++
  [Print [newline]; Print (chars "% timestep = " ++ fmt dt ++ [newline])].

(* dump.cc:37-77.  has_name: fname is not NULL; opens and closes: what fopen and fclose of the file answer on rank 0 *)
Definition dump_energies (rank : Z) (has_name opens closes : bool) (append : Z) (dt : V) (d : dump) : list call :=
  if negb has_name then [Exit] else
  let head := if rank =? 0 then
      [Open (negb (append =? 0))] ++
      (if opens then (if append =? 0 then header dt (d_species d) else []) ++ [Print (decimal (d_step d) ++ chars " ")] else [Exit])
    else [] in
  let fields := [AllSum 6] ++ (if rank =? 0 then
      [Print (fmt (d_field d 0%nat) ++ chars " " ++ fmt (d_field d 1%nat) ++ chars " " ++ fmt (d_field d 2%nat) ++ chars " " ++
              fmt (d_field d 3%nat) ++ chars " " ++ fmt (d_field d 4%nat) ++ chars " " ++ fmt (d_field d 5%nat))] else []) in
  let particles := flat_map (fun s => AllSum 1 :: if rank =? 0 then [Print (chars " " ++ fmt (snd s))] else []) (d_species d) in
  let tail := if rank =? 0 then [Print [newline]; Close] ++ (if closes then [] else [Exit]) else [] in
  if (rank =? 0) && negb opens then head else head ++ fields ++ particles ++ tail.

(* the file: None while there is none; "w" makes it empty, "a" keeps it, everything printed goes to its end *)
Definition on_file (f : option (list ascii)) (c : call) : option (list ascii) :=
  match c with
  | Open true => Some (match f with Some t => t | None => [] end)
  | Open false => Some []
  | Print t => match f with Some u => Some (u ++ t) | None => None end
  | _ => f
  end.
Definition dump_file (append : Z) (dt : V) (f : option (list ascii)) (d : dump) : option (list ascii) :=
  fold_left on_file (dump_energies 0 true true true append dt d) f.
(* one dump that starts the file and the dumps that append to it *)
Definition table (dt : V) (f : option (list ascii)) (d : dump) (more : list dump) : option (list ascii) :=
  fold_left (dump_file 1 dt) more (dump_file 0 dt f d).
End Dump.
Arguments dump : clear implicits.

(* append_species (/repo/src/species_advance/species_advance.cc:94-108) puts a new species at the head of the list; only the order
   matters here *)
Definition append_species {A} (s : A) (l : list A) : list A := s :: l.
