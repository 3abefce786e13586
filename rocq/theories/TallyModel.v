(* Model of the tally of absorbed particles, /repo/src/boundary/absorb_tally.cc, together with the numbering of
   species (species_advance.cc:58-62, 94-108).  The charge the handler also accumulates is not modelled here.
   Pointers to species lists are modelled by the list of the ids from that species on, newest first. *)
From Coq Require Import ZArith List Bool.
Import ListNotations.
Open Scope Z_scope.

(* num_species, species_advance.cc:58-62 *)
Definition num_species (l : list Z) : Z := match l with [] => 0 | id :: _ => id + 1 end.
(* id assigned by append_species, species_advance.cc:104-106 *)
Definition append_species (l : list Z) : list Z := num_species l :: l.

(* absorb_tally_t, absorb_tally.cc:12-16.  h_size is the number of ints allocated for tally. *)
Record handler : Type := mk_handler { h_list : list Z; h_size : Z; h_tally : Z -> Z }.
Record tstate : Type := mk_tstate { species_list : list Z; handlers : list handler }.

Inductive event : Type :=
| Define                       (* a species is appended *)
| Create                       (* absorb_tally( species_list, fa ) *)
| Absorb (j : nat) (id : Z)    (* a particle of species id hits a boundary with handler j *)
| Checkpt (j : nat).           (* checkpt_absorb_tally, restore_absorb_tally *)
(* TError is ERROR; TUB an access outside the tally or the overflow of its int counter. *)
Inductive outcome : Type := TOK (s : tstate) | TError | TUB.

Definition set_nth {A} (j : nat) (x : A) (l : list A) : list A := firstn j l ++ x :: skipn (S j) l.

Definition step (s : tstate) (e : event) : outcome :=
  match e with
  | Define => TOK (mk_tstate (append_species (species_list s)) (handlers s))
  (* absorb_tally, absorb_tally.cc:62-77 *)
  | Create =>
      match species_list s with
      | [] => TError
      | l => TOK (mk_tstate l (handlers s ++ [mk_handler l (num_species l) (fun _ => 0)]))
      end
  (* interact_absorb_tally, line 26.  No handler j or no such species: not a call the program makes. *)
  | Absorb j id =>
      match nth_error (handlers s) j with
      | None => TError
      | Some h =>
          if existsb (Z.eqb id) (species_list s) then
            if (0 <=? id) && (id <? h_size h) then
              if h_tally h id =? 2 ^ 31 - 1 then TUB
              else TOK (mk_tstate (species_list s)
                     (set_nth j (mk_handler (h_list h) (h_size h) (fun i => if i =? id then h_tally h i + 1 else h_tally h i)) (handlers s)))
            else TUB
          else TError
      end
  (* checkpt_absorb_tally:32-38 reads num_species( at->sp_list ) ints, restore_absorb_tally:41-48 allocates
     and fills as many *)
  | Checkpt j =>
      match nth_error (handlers s) j with
      | None => TError
      | Some h =>
          if num_species (h_list h) <=? h_size h
          then TOK (mk_tstate (species_list s) (set_nth j (mk_handler (h_list h) (num_species (h_list h)) (h_tally h)) (handlers s)))
          else TUB
      end
  end.
Fixpoint run (s : tstate) (es : list event) : outcome :=
  match es with
  | [] => TOK s
  | e :: es => match step s e with TOK s' => run s' es | o => o end
  end.
Definition start : tstate := mk_tstate [] [].
