(* What saving and restoring should achieve, independent of the file format:
   which objects can be saved, and what they become in the restoring process. *)
From Coq Require Import ZArith List Bool.
From Verif Require Import CheckptModel.
Import ListNotations.
Open Scope Z_scope.

Definition is_word (w : Z) : Prop := 0 <= w < 2 ^ 64.
Definition is_byte (b : Z) : Prop := 0 <= b < 256.

Section Spec.
Variable yw : symbols.              (* symbol table of the saving process *)
Variable yr : symbols.              (* and of the restoring process *)
Variable shape : Z -> list kind.    (* what the restore function at an address reads *)
Variable alloc : nat -> Z.          (* address of the k-th restored object *)
Variable old : list node.           (* the registry that is saved *)

(* a C string: no zero byte *)
Definition wf_str (s : option (list Z)) : Prop :=
  match s with None => True | Some b => ~ In 0 b /\ Z.of_nat (length b) < 2 ^ 64 - 1 end.
(* the address is that of an exported symbol *)
Definition by_name (a : Z) : bool := a =? find_saddr yw (sym_name yw a).
(* its address in the restoring process; other addresses are taken over *)
Definition newsym (a : Z) : Z :=
  if a =? 0 then 0 else if by_name a then find_saddr yr (sym_name yw a) else a.
Definition wf_sym (a : Z) : Prop :=
  a = 0 \/ (is_word a /\ (by_name a = true -> wf_str (sym_name yw a) /\ wf_str (sym_file yw a) /\ find_saddr yr (sym_name yw a) <> 0)).

Fixpoint position (reg : list node) (p : Z) : nat :=
  match reg with [] => O | n :: r => if n_obj n =? p then O else S (position r p) end.
Definition id_of (p : Z) : Z := match find_obj old p with Some n => n_id n | None => 0 end.
(* where the object that was at p is after restoring *)
Definition newptr (p : Z) : Z := if p =? 0 then 0 else alloc (position old p).
Definition restored_val (v : val) : val :=
  match v with
  | VPtr p => VPtr (newptr p) | VFptr p => VFptr (id_of p) | VSym a => VSym (newsym a)
  | _ => v
  end.
Definition kind_of (v : val) : kind :=
  match v with VRaw b => KRaw (length b) | VData _ _ _ _ _ => KData | VStr _ => KStr | VPtr _ => KPtr | VFptr _ => KFptr | VSym _ => KSym end.
(* [seen]: the objects registered before the one the value belongs to *)
Definition wf_val (seen : list node) (v : val) : Prop :=
  match v with
  | VRaw b => Forall is_byte b
  | VData sz str max align es => is_word sz /\ is_word str /\ is_word max /\ is_word align /\
      (align = 0 \/ Z.land align (align - 1) = 0) /\ sz <= str /\ Z.of_nat (length es) <= max /\ max * str < 2 ^ 64 /\
      Forall (fun e => Z.of_nat (length e) = sz) es
  | VStr s => wf_str s
  | VPtr p => p = 0 \/ In p (map n_obj seen)
  | VFptr p => p = 0 \/ In p (map n_obj old)
  | VSym a => wf_sym a
  end.
(* the node can be saved and its functions exist in the restoring process *)
Definition wf_node (n : node) (link : Z) : Prop :=
  is_word (n_obj n) /\ n_obj n <> 0 /\ is_word (n_ck n) /\ is_word (n_rs n) /\ is_word (n_an n) /\
  is_word (n_id n) /\ n_id n <> 0 /\ is_word link /\
  wf_sym (n_ck n) /\ wf_sym (n_rs n) /\ wf_sym (n_an n) /\ n_ck n <> 0 /\ newsym (n_rs n) <> 0.
Definition wf_object (seen : list node) (o : object) : Prop :=
  let '(n, link, vs) := o in
  wf_node n link /\ shape (newsym (n_rs n)) = map kind_of vs /\ Forall (wf_val seen) vs.
Definition restored_object (k : nat) (o : object) : node * list val :=
  let '(n, link, vs) := o in
  (mkn (alloc k) (newsym (n_ck n)) (newsym (n_rs n)) (newsym (n_an n)) (n_id n), map restored_val vs).
End Spec.

Definition node_of (o : object) : node := fst (fst o).
(* every object can be saved, its plain pointers lead to objects registered before it *)
Definition wf_objects (yw yr : symbols) (shape : Z -> list kind) (os : list object) : Prop :=
  NoDup (map n_obj (map node_of os)) /\ NoDup (map n_id (map node_of os)) /\
  forall k o, nth_error os k = Some o -> wf_object yw yr shape (map node_of os) (firstn k (map node_of os)) o.
