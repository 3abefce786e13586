(* Model of the checkpoint service, /repo/src/util/checkpt/checkpt.cc.
   size_t and pointers are 64 bit numbers, 0 is the null pointer.  ERROR prints and exits
   (util_base.h:267-273): it is the outcome Fail.  Memory allocation is assumed to succeed. *)
From Coq Require Import ZArith List Bool.
Import ListNotations.
Open Scope Z_scope.

Definition word (w : Z) : Z := w mod 2 ^ 64.      (* size_t arithmetic *)

(* registry_t, checkpt.cc:31-38, without the link: the registry is the list of its nodes.  The
   function pointers are the addresses of the functions. *)
Record node : Type := mkn { n_obj : Z; n_ck : Z; n_rs : Z; n_an : Z; n_id : Z }.
(* booted, registry, next_id: lines 17, 40, 45.  [busy]: one of checkpt, restore is non-null. *)
Record service : Type := mks { s_booted : bool; s_busy : bool; s_reg : list node; s_next : Z }.

Definition find_obj (reg : list node) (p : Z) : option node := find (fun n => n_obj n =? p) reg.
Definition find_id (reg : list node) (i : Z) : option node := find (fun n => n_id n =? i) reg.

Inductive outcome (A : Type) : Type := Done (a : A) | Error.
Arguments Done {A}. Arguments Error {A}.

(* checkpt.cc:94-112 *)
Definition boot (s : service) : outcome service :=
  if s_booted s then Error else Done (mks true false [] 1).
(* checkpt.cc:114-130 *)
Definition halt (s : service) : outcome service :=
  if negb (s_booted s) then Error else
  match s_reg s with [] => if s_busy s then Error else Done (mks false (s_busy s) (s_reg s) (s_next s)) | _ => Error end.
(* checkpt.cc:132-148 and 150-166 *)
Definition object_id (s : service) (p : Z) : outcome Z :=
  if negb (s_booted s) then Error else
  Done (match find_obj (s_reg s) p with Some n => n_id n | None => 0 end).
Definition object_ptr (s : service) (i : Z) : outcome Z :=
  if negb (s_booted s) then Error else
  Done (match find_id (s_reg s) i with Some n => n_obj n | None => 0 end).
(* checkpt.cc:171-209 *)
Definition register (s : service) (p ck rs an : Z) : outcome service :=
  if negb (s_booted s) || s_busy s then Error else
  if p =? 0 then Error else
  match find_obj (s_reg s) p with
  | Some _ => Error
  | None => Done (mks true false (s_reg s ++ [mkn p ck rs an (s_next s)]) (word (s_next s + 1)))
  end.
(* checkpt.cc:211-237 *)
Fixpoint remove_first (reg : list node) (p : Z) : list node :=
  match reg with [] => [] | n :: r => if n_obj n =? p then r else n :: remove_first r p end.
Definition unregister (s : service) (p : Z) : outcome service :=
  if negb (s_booted s) || s_busy s then Error else
  match find_obj (s_reg s) p with
  | None => Error
  | Some _ => Done (mks true false (remove_first (s_reg s) p) (s_next s))
  end.

(* A program: a sequence of calls.  A call that reports an error leaves the service as it was (the
   process then exits; continuing the sequence covers every shorter program too). *)
Inductive call : Type := Register (p ck rs an : Z) | Unregister (p : Z).
Definition step (s : service) (c : call) : service :=
  match (match c with Register p ck rs an => register s p ck rs an | Unregister p => unregister s p end) with
  | Done s' => s' | Error => s end.
Definition run (s : service) (cs : list call) : service := fold_left step cs s.

(* ---- the file ---- *)

(* What an object's checkpt function writes and its restore function reads back, in order.
   VRaw: checkpt_raw of a known number of bytes (CHECKPT_VAL and the like).
   VData: checkpt_data, the elements written.  VStr: checkpt_str, None for NULL.
   VPtr: checkpt_ptr / restore_ptr.  VFptr: checkpt_fptr / restore_fptr; in a restored object it holds
   the identifier.  VSym: checkpt_sym / restore_sym. *)
Inductive val : Type :=
  | VRaw (b : list Z)
  | VData (sz str max align : Z) (elts : list (list Z))
  | VStr (s : option (list Z))
  | VPtr (p : Z) | VFptr (p : Z) | VSym (a : Z).
Inductive kind : Type := KRaw (n : nat) | KData | KStr | KPtr | KFptr | KSym.

(* A stored word that the reader compares with constants, or plain bytes. *)
Inductive chunk : Type := Mark (w : Z) (legal : list Z) | Plain (b : list Z).
Fixpoint le (k : nat) (w : Z) : list Z :=
  match k with O => [] | S k' => w mod 256 :: le k' (w / 256) end.
Fixpoint unle (b : list Z) : Z := match b with [] => 0 | x :: r => x + 256 * unle r end.
Definition bytes_of (c : chunk) : list Z := match c with Mark w _ => le 8 w | Plain b => b end.
Definition flat (cs : list chunk) : list Z := flat_map bytes_of cs.

(* 0xDA7A, 0x577, 0x2c11577, 0x977, 0x2c11977, 0x2C11513B, 0x577513B, 0xADD7513B, 0x600DF00D, 0xBADF00D *)
Definition M_data : Z := 55930.
Definition M_str : Z := 1399.
Definition M_nostr : Z := 46208375.
Definition M_ptr : Z := 2423.
Definition M_noptr : Z := 46209399.
Definition M_nosym : Z := 739332411.
Definition M_namesym : Z := 91705659.
Definition M_addrsym : Z := 2916569403.
Definition M_node : Z := 1611526157.
Definition M_end : Z := 195948557.

(* The symbol tables: dladdr gives name and file of an address, dlsym the address of a name (0 if
   not found).  dladdr is assumed to succeed; its result is not checked (checkpt.cc:662). *)
Record symbols : Type := mk_symbols { sym_name : Z -> option (list Z); sym_file : Z -> option (list Z); sym_addr : list Z -> Z }.
(* find_saddr, checkpt.cc:602-645 *)
Definition find_saddr (y : symbols) (name : option (list Z)) : Z :=
  match name with None => 0 | Some n => sym_addr y n end.

(* checkpt_str, checkpt.cc:433-447 *)
Definition put_str (s : option (list Z)) : list chunk :=
  match s with
  | None => [Mark M_nostr [M_nostr; M_str]]
  | Some b => [Mark M_str [M_nostr; M_str]; Plain (le 8 (Z.of_nat (length b))); Plain b]
  end.
(* checkpt_fptr, checkpt.cc:476-491; None: ERROR *)
Definition put_ptr (reg : list node) (p : Z) : option (list chunk) :=
  if p =? 0 then Some [Mark M_noptr [M_noptr; M_ptr]] else
  match find_obj reg p with
  | None => None
  | Some n => Some [Mark M_ptr [M_noptr; M_ptr]; Plain (le 8 (n_id n))]
  end.
(* checkpt_sym, checkpt.cc:647-701 (the variant with reverse symbol lookup) *)
Definition put_sym (y : symbols) (a : Z) : list chunk :=
  let legal := [M_nosym; M_namesym; M_addrsym] in
  if a =? 0 then [Mark M_nosym legal] else
  if a =? find_saddr y (sym_name y a)
  then Mark M_namesym legal :: put_str (sym_name y a) ++ put_str (sym_file y a)
  else [Mark M_addrsym legal; Plain (le 8 a)].
(* checkpt_data, checkpt.cc:380-405; None: ERROR.  Null data with a positive size is not modelled. *)
Definition put_data (sz str max align : Z) (elts : list (list Z)) : option (list chunk) :=
  let n := Z.of_nat (length elts) in
  if (max <? n) || (str <? sz) then None else
  Some (Mark M_data [M_data] :: Plain (le 8 sz) :: Plain (le 8 str) :: Plain (le 8 n) :: Plain (le 8 max)
        :: Plain (le 8 align) :: map Plain elts).
Definition put_val (y : symbols) (reg : list node) (v : val) : option (list chunk) :=
  match v with
  | VRaw b => Some [Plain b]
  | VData sz str max align elts => put_data sz str max align elts
  | VStr s => Some (put_str s)
  | VPtr p | VFptr p => put_ptr reg p
  | VSym a => Some (put_sym y a)
  end.
Fixpoint put_vals (y : symbols) (reg : list node) (vs : list val) : option (list chunk) :=
  match vs with
  | [] => Some []
  | v :: r => match put_val y reg v, put_vals y reg r with Some a, Some b => Some (a ++ b) | _, _ => None end
  end.
(* One turn of the loop of checkpt_objects, checkpt.cc:256-264.  The node is written raw: its six
   words, of which the link is [link]. *)
Definition put_node (y : symbols) (reg : list node) (n : node) (link : Z) (vs : list val) : option (list chunk) :=
  match put_vals y reg (if n_ck n =? 0 then [] else vs) with
  | None => None
  | Some cs => Some (Mark M_node [M_node; M_end]
      :: Plain (le 8 (n_obj n) ++ le 8 (n_ck n) ++ le 8 (n_rs n) ++ le 8 (n_an n) ++ le 8 (n_id n) ++ le 8 link)
      :: put_sym y (n_ck n) ++ put_sym y (n_rs n) ++ put_sym y (n_an n) ++ cs)
  end.
(* objects: node, link word and contents *)
Definition object : Type := node * Z * list val.
Fixpoint put_nodes (y : symbols) (reg : list node) (os : list object) : option (list chunk) :=
  match os with
  | [] => Some []
  | (n, link, vs) :: r =>
      match put_node y reg n link vs, put_nodes y reg r with Some a, Some b => Some (a ++ b) | _, _ => None end
  end.
(* checkpt_objects, checkpt.cc:239-273 *)
Definition checkpoint (y : symbols) (next : Z) (os : list object) : option (list chunk) :=
  match put_nodes y (map (fun o => fst (fst o)) os) os with
  | None => None
  | Some cs => Some (Plain (le 8 next) :: cs ++ [Mark M_end [M_node; M_end]])
  end.

(* ---- reading ---- *)

(* checkpt_read (checkpt_io.h:44-53) ignores how many bytes fread delivered, so past the end of the
   file the destination keeps what was in memory: [junk] (any bytes).  The reader's state is the rest
   of the file and the number of junk bytes taken so far. *)
Definition cursor : Type := (list Z * nat)%type.
Inductive res (A : Type) : Type := Ok (a : A) (s : cursor) | Fail | Undef | Looping.
Arguments Ok {A}. Arguments Fail {A}. Arguments Undef {A}. Arguments Looping {A}.

Section Reader.
Variable junk : nat -> Z.
Variable y : symbols.               (* of the restoring process *)
Variable shape : Z -> list kind.    (* what the restore function at an address reads *)
Variable alloc : nat -> Z.          (* address returned by the k-th restore function *)

Fixpoint take (n : nat) (s : cursor) : list Z * cursor :=
  match n with
  | O => ([], s)
  | S n' => let '(b, s1) := match fst s with [] => (junk (snd s), ([], S (snd s))) | x :: r => (x, (r, snd s)) end in
            let '(bs, s2) := take n' s1 in (b :: bs, s2)
  end.
Definition get_word (s : cursor) : Z * cursor := let '(b, s') := take 8 s in (unle b, s').

Fixpoint take_elts (n : nat) (sz : nat) (s : cursor) : list (list Z) * cursor :=
  match n with
  | O => ([], s)
  | S n' => let '(b, s1) := take sz s in let '(bs, s2) := take_elts n' sz s1 in (b :: bs, s2)
  end.
(* restore_data, checkpt.cc:407-431.  Undef: an element is stored beyond the allocated
   max_ele*str_ele bytes, a product that wraps around in size_t. *)
Definition get_data (s : cursor) : res val :=
  let '(h, s) := get_word s in
  if negb (h =? M_data) then Fail else
  let '(sz, s) := get_word s in let '(str, s) := get_word s in
  let '(n, s) := get_word s in let '(max, s) := get_word s in
  let '(align, s) := get_word s in
  if (max <? n) || (str <? sz) then Fail else
  if negb (align =? 0) && negb (Z.land align (align - 1) =? 0) then Fail else     (* util_base.cc:198 *)
  let size := word (max * str) in
  if (n =? 0) || (sz =? 0) then Ok (VData sz str max align (repeat [] (Z.to_nat n))) s else
  if size =? 0 then Fail else                                                     (* NULL data *)
  if size <? (n - 1) * str + sz then Undef else
  let '(es, s) := take_elts (Z.to_nat n) (Z.to_nat sz) s in Ok (VData sz str max align es) s.
(* restore_str, checkpt.cc:449-474 *)
Definition get_str (s : cursor) : res (option (list Z)) :=
  let '(h, s) := get_word s in
  if h =? M_nostr then Ok None s else
  if negb (h =? M_str) then Fail else
  let '(len, s) := get_word s in
  if len =? 2 ^ 64 - 1 then Fail else                                             (* NULL data *)
  let '(b, s) := take (Z.to_nat len) s in
  if existsb (Z.eqb 0) b then Fail else Ok (Some b) s.
(* restore_fptr, checkpt.cc:493-512: the identifier *)
Definition get_fptr (s : cursor) : res Z :=
  let '(h, s) := get_word s in
  if h =? M_noptr then Ok 0 s else
  if negb (h =? M_ptr) then Fail else
  let '(i, s) := get_word s in
  if i =? 0 then Fail else Ok i s.
(* reanimate_fptr, checkpt.cc:514-528; restore_ptr, 535-538 *)
Definition reanimate_fptr (reg : list node) (i : Z) : option Z :=
  if i =? 0 then Some 0 else
  match find_id reg i with None => None | Some n => if n_obj n =? 0 then None else Some (n_obj n) end.
Definition get_ptr (reg : list node) (s : cursor) : res Z :=
  match get_fptr s with
  | Ok i s => match reanimate_fptr reg i with None => Fail | Some p => Ok p s end
  | Fail => Fail | Undef => Undef | Looping => Looping
  end.
(* restore_sym, checkpt.cc:703-784 *)
Definition get_sym (s : cursor) : res Z :=
  let '(h, s) := get_word s in
  if h =? M_nosym then Ok 0 s else
  if h =? M_namesym then
    match get_str s with
    | Ok name s => match get_str s with
                   | Ok _ s => let a := find_saddr y name in if a =? 0 then Fail else Ok a s
                   | Fail => Fail | Undef => Undef | Looping => Looping end
    | Fail => Fail | Undef => Undef | Looping => Looping end
  else if h =? M_addrsym then let '(a, s) := get_word s in Ok a s
  else Fail.
Definition get_val (reg : list node) (k : kind) (s : cursor) : res val :=
  match k with
  | KRaw n => let '(b, s) := take n s in Ok (VRaw b) s
  | KData => get_data s
  | KStr => match get_str s with Ok v s => Ok (VStr v) s | Fail => Fail | Undef => Undef | Looping => Looping end
  | KPtr => match get_ptr reg s with Ok v s => Ok (VPtr v) s | Fail => Fail | Undef => Undef | Looping => Looping end
  | KFptr => match get_fptr s with Ok v s => Ok (VFptr v) s | Fail => Fail | Undef => Undef | Looping => Looping end
  | KSym => match get_sym s with Ok v s => Ok (VSym v) s | Fail => Fail | Undef => Undef | Looping => Looping end
  end.
Fixpoint get_vals (reg : list node) (ks : list kind) (s : cursor) : res (list val) :=
  match ks with
  | [] => Ok [] s
  | k :: r => match get_val reg k s with
              | Ok v s => match get_vals reg r s with
                          | Ok vs s => Ok (v :: vs) s | Fail => Fail | Undef => Undef | Looping => Looping end
              | Fail => Fail | Undef => Undef | Looping => Looping end
  end.
(* One object, checkpt.cc:310-320.  While its restore function runs, the node is already in the
   registry with the old address of the object. *)
Definition get_node (reg : list node) (s : cursor) : res (node * list val) :=
  let '(obj, s) := get_word s in let '(_, s) := get_word s in let '(_, s) := get_word s in
  let '(_, s) := get_word s in let '(id, s) := get_word s in let '(_, s) := get_word s in
  match get_sym s with
  | Ok ck s => match get_sym s with
    | Ok rs s => match get_sym s with
      | Ok an s =>
          if rs =? 0 then Ok (mkn obj ck rs an id, []) s else
          match get_vals (reg ++ [mkn obj ck rs an id]) (shape rs) s with
          | Ok vs s => Ok (mkn (alloc (length reg)) ck rs an id, vs) s
          | Fail => Fail | Undef => Undef | Looping => Looping end
      | Fail => Fail | Undef => Undef | Looping => Looping end
    | Fail => Fail | Undef => Undef | Looping => Looping end
  | Fail => Fail | Undef => Undef | Looping => Looping end.
(* the loop, checkpt.cc:305-321; [fuel] bounds the number of turns looked at *)
Fixpoint get_nodes (fuel : nat) (reg : list node) (s : cursor) : res (list (node * list val)) :=
  match fuel with
  | O => Looping
  | S f =>
      let '(h, s) := get_word s in
      if h =? M_end then Ok [] s else
      if negb (h =? M_node) then Fail else
      match get_node reg s with
      | Ok o s => match get_nodes f (reg ++ [fst o]) s with
                  | Ok os s => Ok (o :: os) s | Fail => Fail | Undef => Undef | Looping => Looping end
      | Fail => Fail | Undef => Undef | Looping => Looping end
  end.
(* restore_objects, checkpt.cc:275-328, for a file: next_id and the objects in order; the final
   cursor tells how many bytes that were never in the file have been used. *)
Definition restore (fuel : nat) (file : list Z) : res (Z * list (node * list val)) :=
  let '(next, s) := get_word (file, O) in
  match get_nodes fuel [] s with
  | Ok os s => Ok (next, os) s | Fail => Fail | Undef => Undef | Looping => Looping end.
End Reader.
