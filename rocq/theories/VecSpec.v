(* What the memory operations of the vector classes have to do. *)
From Coq Require Import ZArith List String.
From Verif Require Import VecModel VecPrograms4 VecPrograms8 VecPrograms16.
Import ListNotations.
Open Scope string_scope. Open Scope list_scope.

(* A word in memory: a pointer argument and an offset. *)
Definition place : Type := string * nat.
Definition addr (a : string -> Z) (k : place) : Z := (a (fst k) + Z.of_nat (snd k))%Z.

(* A function: its code; for every vector argument the words that its lanes stand for;
   and for the pointers it uses the alignment it needs and the number of words touched. *)
Record vfun := mk_vfun {
  code : list stmt;
  lanes : list (string * list place);
  frame : list (string * nat * nat) }.

(* The conditions under which a call is defined. *)
Definition framed {word} (a : string -> Z) (m : mem word) (f : list (string * nat * nat)) : Prop :=
  forall p al n, In (p, al, n) f -> (Z.modulo (a p) (Z.of_nat al) = 0)%Z /\
    forall o, (o < n)%nat -> m (addr a (p, o)) <> None.

(* A load: it is defined exactly under these conditions; memory stays as it is and every
   lane of a vector gets the word it stands for. *)
Definition is_load (f : vfun) : Prop := forall word (zero : word) a s m,
  (framed a m (frame f) <-> exists r, run word zero a (code f) s m = Ok r) /\
  forall s' m', run word zero a (code f) s m = Ok (s', m') ->
    m' = m /\ forall x src, In (x, src) (lanes f) -> map Some (get x s') = map (fun k => m (addr a k)) src.

(* A store of vectors x with lanes c x 0, c x 1, ... to places that do not overlap:
   afterwards the words are the lanes and the rest of memory is unchanged. *)
Definition args {word} (f : vfun) (c : string -> nat -> cell word) : env word :=
  map (fun x => (fst x, map (c (fst x)) (seq 0 (List.length (snd x))))) (lanes f).
Definition places (f : vfun) : list place := flat_map snd (lanes f).
Definition apart (a : string -> Z) (l : list place) : Prop :=
  forall k k', In k l -> In k' l -> addr a k = addr a k' -> k = k'.
Definition is_store (f : vfun) : Prop := forall word (zero : word) a c m,
  (framed a m (frame f) <-> exists r, run word zero a (code f) (args f c) m = Ok r) /\
  forall s' m', run word zero a (code f) (args f c) m = Ok (s', m') -> apart a (places f) ->
    (forall x dst i k, In (x, dst) (lanes f) -> nth_error dst i = Some k -> m' (addr a k) = Some (c x i)) /\
    (forall z, (forall k, In k (places f) -> z <> addr a k) -> m' z = m z).

(* Registers only: vector number i afterwards has in lane j what vector number j had in
   lane i (transpose), or the two vectors are exchanged (swap). *)
Definition is_transpose (code : list stmt) (xs : list string) : Prop := forall word (zero : word) a c m,
  let n := List.length xs in
  exists s', run word zero a code (map (fun x => (x, map (c x) (seq 0 n))) xs) m = Ok (s', m) /\
    forall i, (i < n)%nat -> get (nth i xs "") s' = map (fun j => c (nth j xs "") i) (seq 0 n).
Definition is_swap (code : list stmt) (n : nat) : Prop := forall word (zero : word) a c m,
  exists s', run word zero a code [("a", map (c "a") (seq 0 n)); ("b", map (c "b") (seq 0 n))] m = Ok (s', m) /\
    get "a" s' = map (c "b") (seq 0 n) /\ get "b" s' = map (c "a") (seq 0 n).

(* n words at p set to zero; copied from q to p; exchanged between p and q.  The words at
   p and q do not overlap. *)
Definition block (z : Z) (n : nat) (y : Z) : Prop := (z <= y < z + Z.of_nat n)%Z.
Definition is_clear (code : list stmt) (n al : nat) : Prop := forall word (zero : word) a s m,
  (framed a m [("p", al, n)] <-> exists r, run word zero a code s m = Ok r) /\
  forall s' m', run word zero a code s m = Ok (s', m') ->
    forall y, (block (a "p") n y -> m' y = Some (Some zero)) /\ (~ block (a "p") n y -> m' y = m y).
Definition is_copy (code : list stmt) (p q : string) (n al : nat) : Prop := forall word (zero : word) a s m,
  (framed a m [(p, al, n); (q, al, n)] <-> exists r, run word zero a code s m = Ok r) /\
  forall s' m', run word zero a code s m = Ok (s', m') -> (forall y, ~ (block (a p) n y /\ block (a q) n y)) ->
    forall y, (block (a p) n y -> m' y = m (a q + (y - a p))%Z) /\ (~ block (a p) n y -> m' y = m y).
Definition is_swap_mem (code : list stmt) (p q : string) (n al : nat) : Prop := forall word (zero : word) a s m,
  (framed a m [(p, al, n); (q, al, n)] <-> exists r, run word zero a code s m = Ok r) /\
  forall s' m', run word zero a code s m = Ok (s', m') -> (forall y, ~ (block (a p) n y /\ block (a q) n y)) ->
    forall y, (block (a p) n y -> m' y = m (a q + (y - a p))%Z) /\ (block (a q) n y -> m' y = m (a p + (y - a q))%Z) /\
      (~ block (a p) n y -> ~ block (a q) n y -> m' y = m y).

(* ---- the words the lanes stand for ---- *)
Definition number {T} (l : list T) : list (nat * T) := combine (seq 0 (List.length l)) l.
(* load_Wxk_tr, store_Wxk_tr: lane l of vector number k is word k of pointer l *)
Definition tr (ptrs vecs : list string) : list (string * list place) :=
  map (fun kx => (snd kx, map (fun p => (p, fst kx)) ptrs)) (number vecs).
(* load_16x8_tr_p and the like: a pointer stands for two groups of eight words *)
Definition tr_p (ptrs vecs : list string) : list (string * list place) :=
  map (fun kx => (snd kx, flat_map (fun p => [(p, fst kx); (p, 8 + fst kx)]) ptrs)) (number vecs).
(* load_Wx1, store_Wx1: lane l is word l *)
Definition row (n : nat) (p x : string) : list (string * list place) := [(x, map (fun l => (p, l)) (seq 0 n))].
(* load_16x2_bc: all lanes of vector number k are word k *)
Definition bc (n : nat) (p : string) (vecs : list string) : list (string * list place) :=
  map (fun kx => (snd kx, repeat (p, fst kx) n)) (number vecs).
(* every pointer has to be a multiple of al words and n words of it are touched *)
Definition each (ptrs : list string) (al n : nat) : list (string * nat * nat) := map (fun p => (p, al, n)) ptrs.

Definition a4 : list string := ["a0"; "a1"; "a2"; "a3"].
Definition a8 : list string := a4 ++ ["a4"; "a5"; "a6"; "a7"].
Definition a00 : list string := ["a00"; "a01"; "a02"; "a03"; "a04"; "a05"; "a06"; "a07"].
Definition a16 : list string := a00 ++ ["a08"; "a09"; "a10"; "a11"; "a12"; "a13"; "a14"; "a15"].
Definition abc (n : nat) : list string :=
  firstn n ["a"; "b"; "c"; "d"; "e"; "f"; "g"; "h"; "i"; "j"; "k"; "l"; "m"; "n"; "o"; "p"].
Definition b00 : list string := ["b00"; "b01"; "b02"; "b03"; "b04"; "b05"; "b06"; "b07"].
Definition b08 : list string := ["b08"; "b09"; "b10"; "b11"; "b12"; "b13"; "b14"; "b15"].
Definition b16 : list string := b00 ++ b08.

(* ---- the functions ---- *)
(* All functions that load vectors.  Arguments are in the order of the declarations; p4, p8, p16 are the
   portable headers. *)
Definition load_funs : list vfun :=
  [mk_vfun p4_load_4x1 (row 4 "p" "a") (each ["p"] 1 4);
   mk_vfun p4_load_4x1_tr (tr a4 (abc 1)) (each a4 1 1);
   mk_vfun p4_load_4x2_tr (tr a4 (abc 2)) (each a4 1 2);
   mk_vfun p4_load_4x3_tr (tr a4 (abc 3)) (each a4 1 3);
   mk_vfun p4_load_4x4_tr (tr a4 (abc 4)) (each a4 1 4);
   mk_vfun sse_load_4x1 (row 4 "p" "a") (each ["p"] 4 4);
   mk_vfun sse_load_4x1_tr (tr a4 (abc 1)) (each a4 1 1);
   mk_vfun sse_load_4x2_tr (tr a4 (abc 2)) (each a4 1 2);
   mk_vfun sse_load_4x3_tr (tr a4 (abc 3)) (each a4 4 4);
   mk_vfun sse_load_4x4_tr (tr a4 (abc 4)) (each a4 4 4);
   mk_vfun avx_load_4x1 (row 4 "p" "a") (each ["p"] 4 4);
   mk_vfun avx_load_4x1_tr (tr a4 (abc 1)) (each a4 1 1);
   mk_vfun avx_load_4x2_tr (tr a4 (abc 2)) (each a4 1 2);
   mk_vfun avx_load_4x3_tr (tr a4 (abc 3)) (each a4 4 4);
   mk_vfun avx_load_4x4_tr (tr a4 (abc 4)) (each a4 4 4);
   mk_vfun avx2_load_4x1 (row 4 "p" "a") (each ["p"] 4 4);
   mk_vfun avx2_load_4x1_tr (tr a4 (abc 1)) (each a4 1 1);
   mk_vfun avx2_load_4x2_tr (tr a4 (abc 2)) (each a4 1 2);
   mk_vfun avx2_load_4x3_tr (tr a4 (abc 3)) (each a4 4 4);
   mk_vfun avx2_load_4x4_tr (tr a4 (abc 4)) (each a4 4 4);
   mk_vfun neon_load_4x1 (row 4 "p" "a") (each ["p"] 1 4);
   mk_vfun neon_load_4x1_tr (tr a4 (abc 1)) (each a4 1 1);
   mk_vfun neon_load_4x2_tr (tr a4 (abc 2)) (each a4 1 4);
   mk_vfun neon_load_4x3_tr (tr a4 (abc 3)) (each a4 1 4);
   mk_vfun neon_load_4x4_tr (tr a4 (abc 4)) (each a4 1 4);
   mk_vfun neon_load_4x8_tr (tr_p ["a0"; "a2"] b00) (each ["a0"; "a2"] 1 16);
   mk_vfun neon_load_4x16_tr (tr a4 b16) (each a4 1 16);
   mk_vfun p8_load_8x1 (row 8 "p" "a") (each ["p"] 1 8);
   mk_vfun p8_load_8x1_tr (tr a8 (abc 1)) (each a8 1 1);
   mk_vfun p8_load_8x2_tr (tr a8 (abc 2)) (each a8 1 2);
   mk_vfun p8_load_8x3_tr (tr a8 (abc 3)) (each a8 1 3);
   mk_vfun p8_load_8x4_tr (tr a8 (abc 4)) (each a8 1 4);
   mk_vfun p8_load_8x8_tr (tr a8 (abc 8)) (each a8 1 8);
   mk_vfun avx_load_8x1 (row 8 "p" "a") (each ["p"] 1 8);
   mk_vfun avx_load_8x1_tr (tr a8 (abc 1)) (each a8 1 1);
   mk_vfun avx_load_8x2_tr (tr a8 (abc 2)) (each a8 1 2);
   mk_vfun avx_load_8x3_tr (tr a8 (abc 3)) (each a8 1 3);
   mk_vfun avx_load_8x4_tr (tr a8 (abc 4)) (each a8 4 4);
   mk_vfun avx_load_8x8_tr (tr a8 (abc 8)) (each a8 8 8);
   mk_vfun avx2_load_8x1 (row 8 "p" "a") (each ["p"] 1 8);
   mk_vfun avx2_load_8x1_tr (tr a8 (abc 1)) (each a8 1 1);
   mk_vfun avx2_load_8x2_tr (tr a8 (abc 2)) (each a8 1 2);
   mk_vfun avx2_load_8x3_tr (tr a8 (abc 3)) (each a8 1 3);
   mk_vfun avx2_load_8x4_tr (tr a8 (abc 4)) (each a8 4 4);
   mk_vfun avx2_load_8x8_tr (tr a8 ["b0"; "b1"; "b2"; "b3"; "b4"; "b5"; "b6"; "b7"]) (each a8 8 8);
   mk_vfun p16_load_16x1 (row 16 "p" "a") (each ["p"] 1 16);
   mk_vfun p16_load_16x1_tr (tr a16 (abc 1)) (each a16 1 1);
   mk_vfun p16_load_16x2_tr (tr a16 (abc 2)) (each a16 1 2);
   mk_vfun p16_load_16x3_tr (tr a16 (abc 3)) (each a16 1 3);
   mk_vfun p16_load_16x4_tr (tr a16 (abc 4)) (each a16 1 4);
   mk_vfun p16_load_16x8_tr (tr a16 (abc 8)) (each a16 1 8);
   mk_vfun p16_load_16x16_tr (tr a16 b16) (each a16 1 16);
   mk_vfun p16_load_16x8_tr_p (tr_p a00 b00) (each a00 1 16);
   mk_vfun p16_load_16x16_tr_p (tr_p a00 b00 ++ tr_p (skipn 8 a16) b08) (each a16 1 16);
   mk_vfun avx512_load_16x1 (row 16 "p" "a") (each ["p"] 1 16);
   mk_vfun avx512_load_16x1_tr (tr a16 (abc 1)) (each a16 1 1);
   mk_vfun avx512_load_16x2_tr (tr a16 (firstn 2 b00)) (each a16 16 16);
   mk_vfun avx512_load_16x2_bc (bc 16 "a00" (firstn 2 b00)) (each (firstn 1 a00) 16 16);
   mk_vfun avx512_load_16x3_tr (tr a16 (firstn 3 b00)) (each a16 16 16);
   mk_vfun avx512_load_16x4_tr (tr a16 (firstn 4 b00)) (each a16 16 16);
   mk_vfun avx512_load_16x8_tr (tr a16 b00) (each a16 16 16);
   mk_vfun avx512_load_16x16_tr (tr a16 b16) (each a16 16 16);
   mk_vfun avx512_load_16x8_tr_p (tr_p a00 b00) (each a00 16 16);
   mk_vfun avx512_load_16x16_tr_p (tr_p a00 b00 ++ tr_p (skipn 8 a16) b08) (each a16 16 16)].
(* All functions that store vectors but neon_store_4x8_tr. *)
Definition store_funs : list vfun :=
  [mk_vfun p4_store_4x1 (row 4 "p" "a") (each ["p"] 1 4);
   mk_vfun p4_stream_4x1 (row 4 "p" "a") (each ["p"] 1 4);
   mk_vfun p4_store_4x1_tr (tr a4 (abc 1)) (each a4 1 1);
   mk_vfun p4_store_4x2_tr (tr a4 (abc 2)) (each a4 1 2);
   mk_vfun p4_store_4x3_tr (tr a4 (abc 3)) (each a4 1 3);
   mk_vfun p4_store_4x4_tr (tr a4 (abc 4)) (each a4 1 4);
   mk_vfun sse_store_4x1 (row 4 "p" "a") (each ["p"] 4 4);
   mk_vfun sse_stream_4x1 (row 4 "p" "a") (each ["p"] 4 4);
   mk_vfun sse_store_4x1_tr (tr a4 (abc 1)) (each a4 1 1);
   mk_vfun sse_store_4x2_tr (tr a4 (abc 2)) (each a4 1 2);
   mk_vfun sse_store_4x3_tr (tr a4 (abc 3)) (each a4 1 3);
   mk_vfun sse_store_4x4_tr (tr a4 (abc 4)) (each a4 4 4);
   mk_vfun avx_store_4x1 (row 4 "p" "a") (each ["p"] 4 4);
   mk_vfun avx_stream_4x1 (row 4 "p" "a") (each ["p"] 4 4);
   mk_vfun avx_store_4x1_tr (tr a4 (abc 1)) (each a4 1 1);
   mk_vfun avx_store_4x2_tr (tr a4 (abc 2)) (each a4 1 2);
   mk_vfun avx_store_4x3_tr (tr a4 (abc 3)) (each a4 1 3);
   mk_vfun avx_store_4x4_tr (tr a4 (abc 4)) (each a4 4 4);
   mk_vfun avx2_store_4x1 (row 4 "p" "a") (each ["p"] 4 4);
   mk_vfun avx2_stream_4x1 (row 4 "p" "a") (each ["p"] 4 4);
   mk_vfun avx2_store_4x1_tr (tr a4 (abc 1)) (each a4 1 1);
   mk_vfun avx2_store_4x2_tr (tr a4 (abc 2)) (each a4 1 2);
   mk_vfun avx2_store_4x3_tr (tr a4 (abc 3)) (each a4 1 3);
   mk_vfun avx2_store_4x4_tr (tr a4 (abc 4)) (each a4 4 4);
   mk_vfun neon_store_4x1 (row 4 "p" "a") (each ["p"] 1 4);
   mk_vfun neon_stream_4x1 (row 4 "p" "a") (each ["p"] 1 4);
   mk_vfun neon_store_4x1_tr (tr a4 (abc 1)) (each a4 1 1);
   mk_vfun neon_store_4x2_tr (tr a4 (abc 2)) (each a4 1 2);
   mk_vfun neon_store_4x3_tr (tr a4 (abc 3)) (each a4 1 3);
   mk_vfun neon_store_4x4_tr (tr a4 (abc 4)) (each a4 1 4);
   mk_vfun p8_store_8x1 (row 8 "p" "a") (each ["p"] 1 8);
   mk_vfun p8_stream_8x1 (row 8 "p" "a") (each ["p"] 1 8);
   mk_vfun p8_store_8x1_tr (tr a8 (abc 1)) (each a8 1 1);
   mk_vfun p8_store_8x2_tr (tr a8 (abc 2)) (each a8 1 2);
   mk_vfun p8_store_8x3_tr (tr a8 (abc 3)) (each a8 1 3);
   mk_vfun p8_store_8x4_tr (tr a8 (abc 4)) (each a8 1 4);
   mk_vfun p8_store_8x8_tr (tr a8 (abc 8)) (each a8 1 8);
   mk_vfun avx_store_8x1 (row 8 "p" "a") (each ["p"] 1 8);
   mk_vfun avx_stream_8x1 (row 8 "p" "a") (each ["p"] 1 8);
   mk_vfun avx_store_8x1_tr (tr a8 (abc 1)) (each a8 1 1);
   mk_vfun avx_store_8x2_tr (tr a8 (abc 2)) (each a8 1 2);
   mk_vfun avx_store_8x3_tr (tr a8 (abc 3)) (each a8 1 3);
   mk_vfun avx_store_8x4_tr (tr a8 (abc 4)) (each a8 4 4);
   mk_vfun avx_store_8x8_tr (tr a8 (abc 8)) (each a8 8 8);
   mk_vfun avx2_store_8x1 (row 8 "p" "a") (each ["p"] 1 8);
   mk_vfun avx2_stream_8x1 (row 8 "p" "a") (each ["p"] 1 8);
   mk_vfun avx2_store_8x1_tr (tr a8 (abc 1)) (each a8 1 1);
   mk_vfun avx2_store_8x2_tr (tr a8 (abc 2)) (each a8 1 2);
   mk_vfun avx2_store_8x3_tr (tr a8 (abc 3)) (each a8 1 3);
   mk_vfun avx2_store_8x4_tr (tr a8 (abc 4)) (each a8 4 4);
   mk_vfun avx2_store_8x8_tr (tr a8 (abc 8)) (each a8 8 8);
   mk_vfun p16_store_16x1 (row 16 "p" "a") (each ["p"] 1 16);
   mk_vfun p16_stream_16x1 (row 16 "p" "a") (each ["p"] 1 16);
   mk_vfun p16_store_16x1_tr (tr a16 (abc 1)) (each a16 1 1);
   mk_vfun p16_store_16x2_tr (tr a16 (abc 2)) (each a16 1 2);
   mk_vfun p16_store_16x3_tr (tr a16 (abc 3)) (each a16 1 3);
   mk_vfun p16_store_16x4_tr (tr a16 (abc 4)) (each a16 1 4);
   mk_vfun p16_store_16x8_tr (tr a16 (abc 8)) (each a16 1 8);
   mk_vfun p16_store_16x16_tr (tr a16 b16) (each a16 1 16);
   mk_vfun p16_store_16x8_tr_p (tr_p a00 b00) (each a00 1 16);
   mk_vfun p16_store_16x16_tr_p (tr_p a00 b00 ++ tr_p (skipn 8 a16) b08) (each a16 1 16);
   mk_vfun avx512_store_16x1 (row 16 "p" "a") (each ["p"] 1 16);
   mk_vfun avx512_stream_16x1 (row 16 "p" "a") (each ["p"] 1 16);
   mk_vfun avx512_store_16x1_tr (tr a16 (abc 1)) (each a16 1 1);
   mk_vfun avx512_store_16x2_tr (tr a16 (abc 2)) (each a16 1 2);
   mk_vfun avx512_store_16x3_tr (tr a16 (abc 3)) (each a16 1 3);
   mk_vfun avx512_store_16x4_tr (tr a16 (abc 4)) (each a16 1 4);
   mk_vfun avx512_store_16x8_tr (tr a16 (abc 8)) (each a16 1 8);
   mk_vfun avx512_store_16x16_tr (tr a16 b16) (each a16 16 16);
   mk_vfun avx512_store_16x8_tr_p (tr_p a00 b00) (each a00 16 16);
   mk_vfun avx512_store_16x16_tr_p (tr_p a00 b00 ++ tr_p (skipn 8 a16) b08) (each a16 16 16)].
(* transpose *)
Definition transposes : list (list stmt * list string) :=
  [(p4_transpose, a4); (sse_transpose, a4); (avx_transpose4, a4); (avx2_transpose4, a4); (neon_transpose, a4);
   (p8_transpose, a8); (avx_transpose8, a8); (avx2_transpose8, a8); (p16_transpose, a16); (avx512_transpose, a16)].
(* swap( a, b ) *)
Definition swaps_reg : list (list stmt * nat) :=
  [(p4_swap, 4); (sse_swap, 4); (avx_swap4, 4); (avx2_swap4, 4); (neon_swap, 4); (p8_swap, 8); (avx_swap8, 8);
   (avx2_swap8, 8); (p16_swap, 16); (avx512_swap, 16)].
(* clear_Wx1: words and alignment *)
Definition clears : list (list stmt * nat * nat) :=
  [(p4_clear_4x1, 4, 1); (sse_clear_4x1, 4, 4); (avx_clear_4x1, 4, 4); (avx2_clear_4x1, 4, 4);
   (neon_clear_4x1, 4, 1); (p8_clear_8x1, 8, 1); (avx_clear_8x1, 8, 1); (avx2_clear_8x1, 8, 1);
   (p16_clear_16x1, 16, 1); (avx512_clear_16x1, 16, 1)].
(* copy_Wx1( dst, src ) *)
Definition copies : list (list stmt * string * string * nat * nat) :=
  [(p4_copy_4x1, "dst", "src", 4, 1); (sse_copy_4x1, "dst", "src", 4, 4); (avx_copy_4x1, "dst", "src", 4, 4);
   (avx2_copy_4x1, "dst", "src", 4, 4); (neon_copy_4x1, "dst", "src", 4, 1); (p8_copy_8x1, "dst", "src", 8, 1);
   (avx_copy_8x1, "dst", "src", 8, 1); (avx2_copy_8x1, "dst", "src", 8, 1); (p16_copy_16x1, "dst", "src", 16, 1);
   (avx512_copy_16x1, "dst", "src", 16, 1)].
(* swap_Wx1( a, b ) *)
Definition swaps_mem : list (list stmt * string * string * nat * nat) :=
  [(p4_swap_4x1, "a", "b", 4, 1); (sse_swap_4x1, "a", "b", 4, 4); (avx_swap_4x1, "a", "b", 4, 4);
   (avx2_swap_4x1, "a", "b", 4, 4); (neon_swap_4x1, "a", "b", 4, 1); (p8_swap_8x1, "a", "b", 8, 1);
   (avx_swap_8x1, "a", "b", 8, 1); (avx2_swap_8x1, "a", "b", 8, 1); (p16_swap_16x1, "a", "b", 16, 1);
   (avx512_swap_16x1, "a", "b", 16, 1)].
