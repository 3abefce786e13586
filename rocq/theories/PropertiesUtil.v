(* C04, C50, C52: allocation, identifiers, command line. *)
From Coq Require Import ZArith List String Lia.
From Verif Require Import UtilModel UtilProofs ListProofs.
Import ListNotations.
Open Scope Z_scope.

(* ---- C04 ---- *)

(* For every block [u, u + raw_size n a) the system allocator may hand out. *)
Theorem C04_aligned_in_bounds : forall n a u m,
  1 <= n -> (exists k, 0 <= k /\ a = 2 ^ k) ->
  n + align_mask a + 8 < 2 ^ 64 ->
  0 <= u -> u + raw_size n a <= 2 ^ 64 ->
  exists p m', malloc_aligned (Some u) n a m = AOk p m' /\
    p mod a = 0 /\ p mod 16 = 0 /\
    (* the bookkeeping word and the n bytes lie in the block *)
    u <= p - 8 /\ p + n <= u + raw_size n a /\
    (* nothing but the bookkeeping word is written *)
    (forall q, q < p - 8 \/ p <= q -> m' q = m q) /\
    (* whatever is later stored in the n bytes, the block is handed back *)
    (forall m'', (forall q, p - 8 <= q < p -> m'' q = m' q) -> free_aligned m'' p = u).
Proof. exact aligned_ok. Qed.
Print Assumptions C04_aligned_in_bounds.

Theorem C04_bad_alignment_stops : forall raw n a m,
  0 <= a -> ~ (exists k, 0 <= k /\ a = 2 ^ k) -> malloc_aligned raw n a m = AError.
Proof. exact aligned_error. Qed.
Print Assumptions C04_bad_alignment_stops.

(* Without the size bound the statement is false: the size wraps. *)
Theorem C04_wrapping_size_refuted :
  exists n a u m, 1 <= n < 2 ^ 64 /\ (exists k, 0 <= k /\ a = 2 ^ k) /\ 0 <= u /\ u + raw_size n a <= 2 ^ 64 /\
    raw_size n a < n /\ malloc_aligned (Some u) n a m = AUndefined.
Proof.
  exists (2 ^ 64 - 16), 16, 0x1000, (fun _ => 0). split; [lia|]. split; [exists 4; lia|].
  split; [lia|]. split; [vm_compute; discriminate|]. split; reflexivity.
Qed.
Print Assumptions C04_wrapping_size_refuted.

Example C04_example :
  match malloc_aligned (Some 1003) 100 128 (fun _ => 7) with
  | AOk p m => p = 1024 + 0 /\ map m [1015; 1016; 1017; 1023; 1024] = [7; 1003 mod 256; 1003 / 256; 0; 7] /\
               raw_size 100 128 = 235 /\ free_aligned m p = 1003
  | _ => False
  end.
Proof. vm_compute. repeat split. Qed.
(* a small alignment is raised to 16 *)
Example C04_example_small :
  match malloc_aligned (Some 5) 1 2 (fun _ => 0) with AOk p m => p = 16 /\ free_aligned m p = 5 | _ => False end.
Proof. vm_compute. repeat split. Qed.

(* ---- C50 ---- *)

Theorem C50_species_ids : forall ops h0 h p fuel,
  (List.length ops <= fuel)%nat ->
  append_all (append_species fuel) ops h0 None = Some (h, p) ->
  NoDup (map (fun a => name (h0 a)) ops) /\
  num_ids h p = Z.of_nat (List.length ops) /\
  forall k a, nth_error ops k = Some a ->
    id (h a) = Z.of_nat k /\
    find_name fuel h (name (h0 a)) p = Some (Some a) /\
    find_id fuel h (Z.of_nat k) p = Some (Some a) /\
    walk fuel h p = Some (rev ops).
Proof. exact species_ids. Qed.
Print Assumptions C50_species_ids.

(* A new name on the same grid is never refused. *)
Theorem C50_species_accepted : forall ops h0 h p fuel a,
  (List.length ops <= fuel)%nat ->
  append_all (append_species fuel) ops h0 None = Some (h, p) ->
  ~ In (name (h0 a)) (map (fun b => name (h0 b)) ops) ->
  next (h0 a) = None ->
  (forall b, In b ops -> grid_of (h0 a) = grid_of (h0 b)) ->
  exists h' p', append_species fuel h a p = Some (h', p').
Proof. exact species_accepted. Qed.
Print Assumptions C50_species_accepted.

Theorem C50_material_ids : forall ops h0 h p fuel,
  (List.length ops <= fuel)%nat ->
  append_all (append_material fuel) ops h0 None = Some (h, p) ->
  NoDup (map (fun a => name (h0 a)) ops) /\
  num_ids h p = Z.of_nat (List.length ops) /\ Z.of_nat (List.length ops) <= 32768 /\
  forall k a, nth_error ops k = Some a ->
    id (h a) = Z.of_nat k /\
    find_name fuel h (name (h0 a)) p = Some (Some a) /\
    find_id fuel h (Z.of_nat k) p = Some (Some a) /\
    walk fuel h p = Some (rev ops).
Proof. exact material_ids. Qed.
Print Assumptions C50_material_ids.

Theorem C50_handler_ids : forall ops h0 h p fuel,
  (List.length ops <= fuel)%nat -> NoDup ops ->
  append_all append_particle_bc ops h0 None = Some (h, p) ->
  num_particle_bc h p = Z.of_nat (List.length ops) /\
  walk fuel h p = Some (rev ops) /\
  (forall k a, nth_error ops k = Some a -> id (h a) = -3 - Z.of_nat k) /\
  ((List.length ops <= 32)%nat -> exists tab, handler_table fuel h p = Some tab /\
      forall a, In a ops -> tab (- id (h a) - 3) = Some a) /\
  ((32 < List.length ops)%nat -> handler_table fuel h p = None).
Proof. exact handler_ids. Qed.
Print Assumptions C50_handler_ids.

Theorem C50_handler_ids_not_builtin : forall ops h0 h p fuel a,
  (List.length ops <= fuel)%nat -> NoDup ops ->
  append_all append_particle_bc ops h0 None = Some (h, p) -> In a ops ->
  id (h a) <> -1 /\ id (h a) <> -2 /\ id (h a) < 0.
Proof.
  intros ops h0 h p fuel a Hf N E Ha. destruct (handler_ids ops h0 h p fuel Hf N E) as (_ & _ & F & _).
  apply In_nth_error in Ha. destruct Ha as [k Hk]. rewrite (F k a Hk). lia.
Qed.
Print Assumptions C50_handler_ids_not_builtin.

(* Appending the same object twice: no walk over the list ends. *)
Theorem C50_handler_twice_circular : forall a,
  exists h p, append_all append_particle_bc [a; a] fresh_heap None = Some (h, p) /\
    forall fuel, walk fuel h p = None.
Proof. exact handler_twice. Qed.
Print Assumptions C50_handler_twice_circular.

Theorem C50_collision_twice_circular : forall a,
  exists h p, append_all append_collision_op [a; a] fresh_heap None = Some (h, p) /\
    forall fuel, walk fuel h p = None.
Proof. exact collision_twice. Qed.
Print Assumptions C50_collision_twice_circular.

Theorem C50_collision_once : forall ops h0 h p fuel,
  (List.length ops <= fuel)%nat -> NoDup ops ->
  append_all append_collision_op ops h0 None = Some (h, p) -> walk fuel h p = Some (rev ops).
Proof. exact collision_once. Qed.
Print Assumptions C50_collision_once.

(* Emitters may be appended any number of times. *)
Theorem C50_emitters : forall ops h0 h p fuel,
  (List.length ops <= fuel)%nat ->
  append_all (append_emitter fuel) ops h0 None = Some (h, p) ->
  exists l, walk fuel h p = Some l /\ NoDup l /\ forall a, In a l <-> In a ops.
Proof. exact emitter_ok. Qed.
Print Assumptions C50_emitters.

Definition demo_heap : heap := fun a =>
  mk_node (if a =? 10 then "electron" else if a =? 20 then "ion" else if a =? 30 then "electron" else "") 99 7 None.
Example C50_example_species :
  match append_all (append_species 5) [10; 20] demo_heap None with
  | Some (h, p) => p = Some 20 /\ map (fun a => id (h a)) [10; 20] = [0; 1] /\
                   find_name 5 h "electron" p = Some (Some 10) /\ find_id 5 h 1 p = Some (Some 20) /\
                   find_name 5 h "muon" p = Some None /\ append_species 5 h 30 p = None
  | None => False
  end.
Proof. vm_compute. repeat split. Qed.
Example C50_example_handlers :
  match append_all append_particle_bc [10; 20; 30] demo_heap None with
  | Some (h, p) => map (fun a => id (h a)) [10; 20; 30] = [-3; -4; -5] /\
      match handler_table 5 h p with Some tab => map tab [0; 1; 2; 3] = [Some 10; Some 20; Some 30; None] | None => False end
  | None => False
  end.
Proof. vm_compute. repeat split. Qed.
Example C50_example_emitters :
  match append_all (append_emitter 9) [10; 20; 10; 10; 30; 20] demo_heap None with
  | Some (h, p) => walk 9 h p = Some [30; 20; 10]
  | None => False
  end.
Proof. vm_compute. reflexivity. Qed.

(* ---- C52 ---- *)

(* Never outside of argv (None); the new argv is the remaining arguments, then NULL. *)
Theorem C52_strip_value : forall T (convert : string -> T) key args val,
  exists junk,
    strip_cmdline_val T convert key (List.length args) (map Some args ++ [None]) val =
    Some (List.length (remaining key args), map Some (remaining key args) ++ None :: junk,
          last_value T convert key args val) /\
    (List.length (remaining key args) + List.length junk = List.length args)%nat.
Proof. exact strip_ok. Qed.
Print Assumptions C52_strip_value.

(* What remains and what is returned: option absent, given with a value, given last
   without a value. *)
Theorem C52_strip_meaning : forall T (convert : string -> T) key,
  (forall args, ~ In key (remaining key args)) /\
  (forall args, ~ In key args ->
     remaining key args = args /\ forall d, last_value T convert key args d = d) /\
  (forall pre v post, ~ In key pre ->
     remaining key (pre ++ key :: v :: post) = pre ++ remaining key post /\
     forall d, last_value T convert key (pre ++ key :: v :: post) d = last_value T convert key post (convert v)) /\
  (forall pre, ~ In key pre ->
     remaining key (pre ++ [key]) = pre /\ forall d, last_value T convert key (pre ++ [key]) d = d).
Proof.
  intros T convert key. split; [exact (remaining_no_key T convert key)|].
  split; [exact (remaining_none T convert key)|]. split; [exact (remaining_one T convert key)|].
  exact (remaining_last T convert key).
Qed.
Print Assumptions C52_strip_meaning.

Theorem C52_strip_flag : forall key args,
  let rest := filter (fun s => negb (String.eqb s key)) args in
  exists junk,
    strip_cmdline key (List.length args) (map Some args ++ [None]) =
    Some (List.length rest, map Some rest ++ None :: junk, List.length (filter (String.eqb key) args)) /\
    (List.length rest + List.length junk = List.length args)%nat.
Proof. exact strip_flag_ok. Qed.
Print Assumptions C52_strip_flag.

Open Scope string_scope.
Example C52_example :
  strip_cmdline_val string (fun s => s) "--tpp" 7
    [Some "vpic"; Some "--tpp"; Some "4"; Some "deck"; Some "--tpp"; Some "8"; Some "--tpp"; None] "1" =
  Some (2%nat, [Some "vpic"; Some "deck"; None; Some "deck"; Some "--tpp"; Some "8"; Some "--tpp"; None], "8"%string).
Proof. vm_compute. reflexivity. Qed.
Example C52_example_flag :
  match strip_cmdline "-v" 4 [Some "a"; Some "-v"; Some "b"; Some "-v"; None] with
  | Some (n, argv, c) => n = 2%nat /\ firstn 3 argv = [Some "a"; Some "b"; None] /\ c = 2%nat
  | None => False
  end.
Proof. vm_compute. repeat split. Qed.
