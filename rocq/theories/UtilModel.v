(* Allocation, command line and named lists: /repo/src/util/util_base.cc,
   species_advance.cc, material.cc, boundary.cc, collision.cc, emitter.cc. *)
From Coq Require Import ZArith List Bool String.
Import ListNotations.
Open Scope Z_scope.

(* ---- aligned allocation ---- *)

(* size_t and unsigned long int arithmetic (64 bits, LP64). *)
Definition wrap64 (x : Z) : Z := x mod 2 ^ 64.

(* Memory as bytes by address; a pointer is 8 bytes, least significant first. *)
Definition store_ptr (m : Z -> Z) (p v : Z) : Z -> Z :=
  fun q => if (p <=? q) && (q <? p + 8) then (v / 256 ^ (q - p)) mod 256 else m q.
Definition load_ptr (m : Z -> Z) (p : Z) : Z :=
  m p + 256 * (m (p + 1) + 256 * (m (p + 2) + 256 * (m (p + 3) + 256 * (m (p + 4) +
  256 * (m (p + 5) + 256 * (m (p + 6) + 256 * m (p + 7))))))).

(* Outcome of util_malloc_aligned: ERROR (exit), NULL for an empty request, the
   aligned address with the memory after the call, or a store outside of the block
   got from malloc (undefined behaviour). *)
Inductive aligned_res : Type :=
| AError | ANull | AUndefined | AOk (mem_a : Z) (m : Z -> Z).

(* util_base.cc:205-211: small alignments are raised to 16, then a becomes the mask. *)
Definition align_mask (a : Z) : Z := (if a <? 16 then 16 else a) - 1.

(* The number of bytes asked of malloc, util_base.cc:214. *)
Definition raw_size (n a : Z) : Z := wrap64 (n + align_mask a + 8).

(* util_malloc_aligned, /repo/src/util/util_base.cc:184-232.  [raw] is what
   malloc returned (None: out of memory); mem_ref is not null. *)
Definition malloc_aligned (raw : option Z) (n a : Z) (m : Z -> Z) : aligned_res :=
  if (a =? 0) || negb (Z.land a (a - 1) =? 0) then AError
  else if n =? 0 then ANull
  else match raw with
  | None => AError
  | Some mem_u =>
      let mask := align_mask a in
      let mem_a := Z.land (wrap64 (mem_u + mask + 8)) (wrap64 (Z.lnot mask)) in
      let mem_p := mem_a - 8 in
      if (mem_u <=? mem_p) && (mem_p + 8 <=? mem_u + raw_size n a)
      then AOk mem_a (store_ptr m mem_p mem_u) else AUndefined
  end.

(* What util_free_aligned hands to free(), util_base.cc:234-244. *)
Definition free_aligned (m : Z -> Z) (mem_a : Z) : Z := load_ptr m (mem_a - 8).

(* ---- command line ---- *)

(* argv: entries 0..argc-1 are strings, entry argc is NULL. *)
Definition argv_t : Type := list (option string).

Fixpoint set_nth {A} (n : nat) (x : A) (l : list A) : option (list A) :=
  match l, n with
  | [], _ => None
  | _ :: l', O => Some (x :: l')
  | y :: l', S n' => match set_nth n' x l' with Some r => Some (y :: r) | None => None end
  end.

(* Undefined behaviour (access outside argv, strcmp of NULL) is None. *)
Section Strip.
Variable T : Type.
Variable convert : string -> T.
Variable key : string.

(* The for loop of STRIP_CMDLINE, util_base.cc:23-26.  [fuel] counts iterations. *)
Fixpoint strip_loop (fuel : nat) (argc i n : nat) (argv : argv_t) (val : T) : option (nat * argv_t * T) :=
  match fuel with
  | O => None
  | S f =>
      if (argc <=? i)%nat then Some (n, argv, val)
      else match nth_error argv i with
      | Some (Some s) =>
          if negb (String.eqb s key) then
            match set_nth n (Some s) argv with
            | Some argv' => strip_loop f argc (i + 1) (n + 1) argv' val
            | None => None
            end
          else if (argc <=? i + 1)%nat then strip_loop f argc (i + 2) n argv val
          else match nth_error argv (i + 1) with
               | Some (Some v) => strip_loop f argc (i + 2) n argv (convert v)
               | _ => None
               end
      | _ => None
      end
  end.

(* strip_cmdline_int/double/string, util_base.cc:18-30 and 44-46: new argc, argv, value. *)
Definition strip_cmdline_val (argc : nat) (argv : argv_t) (val : T) : option (nat * argv_t * T) :=
  match strip_loop (argc + 1) argc 0 0 argv val with
  | Some (n, argv', v) =>
      match set_nth n None argv' with Some argv'' => Some (n, argv'', v) | None => None end
  | None => None
  end.
End Strip.

(* strip_cmdline, util_base.cc:32-42. *)
Fixpoint strip_flag_loop (key : string) (k : nat) (i n : nat) (argv : argv_t) (val : nat) : option (nat * argv_t * nat) :=
  match k with
  | O => Some (n, argv, val)
  | S k' =>
      match nth_error argv i with
      | Some (Some s) =>
          if negb (String.eqb s key) then
            match set_nth n (Some s) argv with
            | Some argv' => strip_flag_loop key k' (i + 1) (n + 1) argv' val
            | None => None
            end
          else strip_flag_loop key k' (i + 1) n argv (val + 1)
      | _ => None
      end
  end.
Definition strip_cmdline (key : string) (argc : nat) (argv : argv_t) : option (nat * argv_t * nat) :=
  match strip_flag_loop key argc 0 0 argv 0 with
  | Some (n, argv', v) =>
      match set_nth n None argv' with Some argv'' => Some (n, argv'', v) | None => None end
  | None => None
  end.

(* ---- intrusive lists ---- *)

(* A heap of list nodes (species_t, material_t, particle_bc_t, collision_op_t,
   emitter_t reduced to the members the list code uses).  Addresses are positive. *)
Record node : Type := mk_node { name : string; id : Z; grid_of : Z; next : option Z }.
Definition heap : Type := Z -> node.
Definition upd (h : heap) (p : Z) (n : node) : heap := fun q => if q =? p then n else h q.

(* A loop over a list: the nodes met, or None if it has not ended after [fuel] steps. *)
Fixpoint walk (fuel : nat) (h : heap) (p : option Z) : option (list Z) :=
  match p with
  | None => Some []
  | Some a =>
      match fuel with
      | O => None
      | S f => match walk f h (next (h a)) with Some l => Some (a :: l) | None => None end
      end
  end.

(* LIST_FIND_FIRST, /repo/src/util/util_base.h:223-226; outer None: did not end. *)
Fixpoint find_first (fuel : nat) (h : heap) (cond : node -> bool) (p : option Z) : option (option Z) :=
  match p with
  | None => Some None
  | Some a => if cond (h a) then Some (Some a)
      else match fuel with O => None | S f => find_first f h cond (next (h a)) end
  end.
Definition find_name fuel h nm p := find_first fuel h (fun n => String.eqb (name n) nm) p.
Definition find_id fuel h i p := find_first fuel h (fun n => id n =? i) p.

(* num_species, num_material: species_advance.cc:58-62, material.cc:41-44 *)
Definition num_ids (h : heap) (p : option Z) : Z := match p with None => 0 | Some a => id (h a) + 1 end.

(* append_species, species_advance.cc:94-108.  None is ERROR. *)
Definition append_species (fuel : nat) (h : heap) (sp : Z) (l : option Z) : option (heap * option Z) :=
  match next (h sp) with
  | Some _ => None
  | None =>
      match find_name fuel h (name (h sp)) l with
      | Some None =>
          let same_grid := match l with None => true | Some a => grid_of (h sp) =? grid_of (h a) end in
          if same_grid then
            Some (upd h sp (mk_node (name (h sp)) (num_ids h l) (grid_of (h sp)) l), Some sp)
          else None
      | _ => None
      end
  end.

(* append_material, material.cc:77-93; material_id is int16_t, max_material 32768
   (material.h:7-10), so that the stored id is the number. *)
Definition append_material (fuel : nat) (h : heap) (m : Z) (l : option Z) : option (heap * option Z) :=
  match next (h m) with
  | Some _ => None
  | None =>
      match find_name fuel h (name (h m)) l with
      | Some None =>
          if 32768 <=? num_ids h l then None
          else Some (upd h m (mk_node (name (h m)) (num_ids h l) (grid_of (h m)) l), Some m)
      | _ => None
      end
  end.

(* num_particle_bc, append_particle_bc: boundary.cc:51-54, 66-76 *)
Definition num_particle_bc (h : heap) (l : option Z) : Z := match l with None => 0 | Some a => - id (h a) - 2 end.
Definition append_particle_bc (h : heap) (pbc : Z) (l : option Z) : option (heap * option Z) :=
  match next (h pbc) with
  | Some _ => None
  | None => Some (upd h pbc (mk_node (name (h pbc)) (-3 - num_particle_bc h l) (grid_of (h pbc)) l), Some pbc)
  end.

(* append_collision_op, collision.cc:74-81 *)
Definition append_collision_op (h : heap) (cop : Z) (l : option Z) : option (heap * option Z) :=
  match next (h cop) with
  | Some _ => None
  | None => Some (upd h cop (mk_node (name (h cop)) (id (h cop)) (grid_of (h cop)) l), Some cop)
  end.

(* append_emitter, emitter.cc:83-93: an emitter already in the list is left alone. *)
Definition append_emitter (fuel : nat) (h : heap) (e : Z) (l : option Z) : option (heap * option Z) :=
  match walk fuel h l with
  | None => None
  | Some nodes =>
      if existsb (Z.eqb e) nodes then Some (h, l)
      else match next (h e) with
      | Some _ => None
      | None => Some (upd h e (mk_node (name (h e)) (id (h e)) (grid_of (h e)) l), Some e)
      end
  end.
(* The handler table of boundary_p, boundary_p.cc:38 and 98-113: 32 slots.  None is
   ERROR or a store outside of the table. *)
Fixpoint handler_table_loop (h : heap) (nodes : list Z) (tab : Z -> option Z) : option (Z -> option Z) :=
  match nodes with
  | [] => Some tab
  | a :: r =>
      let k := - id (h a) - 3 in
      if (0 <=? k) && (k <? 32) then handler_table_loop h r (fun i => if i =? k then Some a else tab i)
      else None
  end.
Definition handler_table (fuel : nat) (h : heap) (l : option Z) : option (Z -> option Z) :=
  if 32 <? num_particle_bc h l then None
  else match walk fuel h l with Some nodes => handler_table_loop h nodes (fun _ => None) | None => None end.

(* A program that defines objects one after the other; None when one of the calls
   ends the program. *)
Fixpoint append_all (app : heap -> Z -> option Z -> option (heap * option Z)) (ops : list Z)
    (h : heap) (l : option Z) : option (heap * option Z) :=
  match ops with
  | [] => Some (h, l)
  | a :: r => match app h a l with Some (h', l') => append_all app r h' l' | None => None end
  end.
