(* Random number generators: /repo/src/util/rng. *)
From Coq Require Import ZArith List Bool.
From Flocq Require Import BinarySingleNaN.
From Verif Require Import FloatModel.
Import ListNotations.
Open Scope Z_scope.

Definition u32 (x : Z) : Z := x mod 2 ^ 32.
Definition u64 (x : Z) : Z := x mod 2 ^ 64.

(* ---- generator state ---- *)

(* The default parameter set SFMT_E == 11213, rng_private.h:31-33, 104-114, 173-187:
   88 vectors of four 32-bit words, 1408 bytes. *)
Definition SFMT_N : Z := 88.
Definition SFMT_M : Z := 68.
Definition SFMT_NM : Z := 20.
Definition SFMT_NC : Z := 1408.
Definition SFMT_L1 : Z := 14.
Definition SFMT_L2A : Z := 24.
Definition SFMT_L2B : Z := 8.
Definition SFMT_R1 : Z := 7.
Definition SFMT_R2A : Z := 24.
Definition SFMT_R2B : Z := 8.
Definition SFMT_MASK (k : Z) : Z :=
  if k =? 0 then 0xeffff7fb else if k =? 1 then 0xffffffef else if k =? 2 then 0xdfdfbfff else 0x7fffdbfd.
Definition SFMT_PARITY : list Z := [0x00000001; 0x00000000; 0xe8148000; 0xd0c7afa3].

(* The state is the array u32[0..351] of words (struct rng, rng_private.h:190-205). *)
Definition words : Type := Z -> Z.

(* The portable SFMT macro applied to vectors a, b, c, d, rng_private.h:226-238. *)
Definition sfmt_step (s : words) (a b c d : Z) : words :=
  let g v k := s (4 * v + k) in
  let x k := if k =? 0 then u32 (Z.shiftl (g a 0) SFMT_L2A)
             else Z.lor (u32 (Z.shiftl (g a k) SFMT_L2A)) (Z.shiftr (g a (k - 1)) SFMT_L2B) in
  let y k := if k =? 3 then Z.shiftr (g c 3) SFMT_R2A
             else Z.lor (Z.shiftr (g c k) SFMT_R2A) (u32 (Z.shiftl (g c (k + 1)) SFMT_R2B)) in
  fun i =>
    if (4 * a <=? i) && (i <? 4 * a + 4) then
      let k := i - 4 * a in
      Z.lxor (g a k) (Z.lxor (Z.lxor (x k) (Z.land (Z.shiftr (g b k) SFMT_R1) (SFMT_MASK k)))
                             (Z.lxor (y k) (u32 (Z.shiftl (g d k) SFMT_L1))))
    else s i.

(* sfmt_next, rng_private.h:242-255 *)
Definition sfmt_iter (s : words) (n : Z) : words :=
  sfmt_step s n (if n <? SFMT_NM then n + SFMT_M else n - SFMT_NM)
    (if n <? 2 then SFMT_N - 2 + n else n - 2) (if n <? 1 then SFMT_N - 1 else n - 1).
Definition sfmt_next (s : words) : words :=
  fold_left sfmt_iter (map Z.of_nat (seq 0 88)) s.

(* Byte k of the state (union in struct rng; little endian). *)
Definition byte_at (s : words) (k : Z) : Z := Z.shiftr (s (k / 4)) (8 * (k mod 4)) mod 256.
(* state.p[ k/w ] for elements of w bytes *)
Fixpoint bytes_value (s : words) (k : Z) (w : nat) : Z :=
  match w with O => 0 | S w' => byte_at s k + 256 * bytes_value s (k + 1) w' end.

(* A generator: state, next unextracted byte (uint32_t), and, for the statements only,
   the number of times the state was regenerated. *)
Record rng : Type := mk_rng { st : words; nx : Z; epoch : Z }.

(* RNG_NEXT, rng_private.h:262-268, for elements of w bytes and right shift rs: value,
   offset of the bytes read, and new generator. *)
Definition rng_next (w rs : Z) (r : rng) : Z * Z * rng :=
  let n0 := Z.land (u32 (nx r + w - 1)) (u32 (Z.lnot (w - 1))) in
  let '(s, n, e) := if SFMT_NC <=? n0 then (sfmt_next (st r), 0, epoch r + 1) else (st r, n0, epoch r) in
  (Z.shiftr (bytes_value s n (Z.to_nat w)) rs, n, mk_rng s (u32 (n + w)) e).

(* A program drawing elements of the given widths; gives the list of draws
   (epoch, offset, width, value). *)
Record draw : Type := mk_draw { d_epoch : Z; d_off : Z; d_width : Z; d_val : Z }.
Fixpoint draws (ops : list (Z * Z)) (r : rng) : list draw * rng :=
  match ops with
  | [] => ([], r)
  | (w, rs) :: ops' =>
      let '(v, n, r1) := rng_next w rs r in
      let '(l, r2) := draws ops' r1 in (mk_draw (epoch r1) n w v :: l, r2)
  end.

(* ---- seeding ---- *)

(* The fold of adjust_rng, rng.cc:52-54: the parity of the masked words. *)
Definition parity_bit (p : list Z) (u : list Z) : Z :=
  let b0 := fold_left Z.lxor (map (fun q => Z.land (fst q) (snd q)) (combine u p)) 0 in
  let f b n := Z.lxor b (Z.shiftr b n) in
  Z.land (f (f (f (f (f b0 16) 8) 4) 2) 1) 1.

(* for( bit=1; bit; bit<<=1 ) if( bit & parity ) ..., rng.cc:60-61: the first bit met. *)
Fixpoint first_bit (k : nat) (bit p : Z) : option Z :=
  match k with
  | O => None
  | S k' => if negb (Z.land bit p =? 0) then Some bit else first_bit k' (2 * bit) p
  end.
Fixpoint flip_first (p u : list Z) : list Z :=
  match p, u with
  | q :: p', v :: u' =>
      match first_bit 32 1 q with Some bit => Z.lxor v bit :: u' | None => v :: flip_first p' u' end
  | _, _ => u
  end.
(* adjust_rng, rng.cc:43-62, on the first four words *)
Definition adjust (p u : list Z) : list Z := if parity_bit p u =? 1 then u else flip_first p u.

(* seed_rng, rng.cc:64-75 (int SFMT_N32 = 352) *)
Fixpoint seed_words (k : nat) (n u : Z) : list Z :=
  match k with
  | O => []
  | S k' => u :: seed_words k' (n + 1) (u32 (1812433253 * Z.lxor u (Z.shiftr u 30) + (n + 1)))
  end.
Definition seed_state (seed : Z) : list Z :=
  let u := seed_words 352 0 (u32 seed) in adjust SFMT_PARITY (firstn 4 u) ++ skipn 4 u.

(* seed_rng_pool, rng_pool.cc:52-61: the seeds given to the n_rng generators; None when
   an int operation overflows (undefined behaviour). *)
Definition in_int (x : Z) : bool := (- 2 ^ 31 <=? x) && (x <? 2 ^ 31).
Definition int_op (x : Z) : option Z := if in_int x then Some x else None.
Fixpoint pool_loop (k : nat) (n n_rng ws seed : Z) : option (list Z) :=
  match k with
  | O => Some []
  | S k' =>
      match int_op (ws + 1), int_op ((ws + 1) * n), int_op (seed + (ws + 1) * n) with
      | Some _, Some _, Some s =>
          match pool_loop k' (n + 1) n_rng ws seed with Some l => Some (s :: l) | None => None end
      | _, _, _ => None
      end
  end.
Definition pool_seeds (world_size world_rank n_rng : Z) (sync : bool) (seed : Z) : option (list Z) :=
  match int_op (world_size + 1), int_op ((world_size + 1) * n_rng), int_op ((world_size + 1) * n_rng * seed),
        int_op ((if sync then world_size else world_rank) + (world_size + 1) * n_rng * seed) with
  | Some _, Some _, Some _, Some s => pool_loop (Z.to_nat n_rng) 0 n_rng world_size s
  | _, _, _, _ => None
  end.

(* ---- conversions to floating point, rng_private.h:290-298 ---- *)
(* shifts of unsigned words; integer sums are int / unsigned and do not wrap *)
Definition conv_frand (u : Z) : b32 :=
  f_mul (f_add (f_of_Z (Z.shiftr u 9)) (f_div (f_of_Z 1) (f_of_Z 2))) (f_div (f_of_Z 2) (f_of_Z 16777216)).
Definition conv_frand_c0 (u : Z) : b32 := f_mul (f_of_Z (Z.shiftr u 8)) (f_div (f_of_Z 1) (f_of_Z 16777216)).
Definition conv_frand_c1 (u : Z) : b32 := f_mul (f_of_Z (Z.shiftr u 8 + 1)) (f_div (f_of_Z 1) (f_of_Z 16777216)).
Definition conv_frand_c (u : Z) : b32 :=
  f_mul (f_of_Z (Z.shiftr u 8 + Z.land u 1)) (f_div (f_of_Z 1) (f_of_Z 16777216)).
Definition conv_drand (u : Z) : b64 :=
  d_mul (d_add (d_of_Z (Z.shiftr u 12)) (d_div (d_of_Z 1) (d_of_Z 2))) (d_div (d_of_Z 2) (d_of_Z 9007199254740992)).
Definition conv_drand_c0 (u : Z) : b64 := d_mul (d_of_Z (Z.shiftr u 11)) (d_div (d_of_Z 1) (d_of_Z 9007199254740992)).
Definition conv_drand_c1 (u : Z) : b64 := d_mul (d_of_Z (Z.shiftr u 11 + 1)) (d_div (d_of_Z 1) (d_of_Z 9007199254740992)).
Definition conv_drand_c (u : Z) : b64 :=
  d_mul (d_of_Z (Z.shiftr u 11 + Z.land u 1)) (d_div (d_of_Z 1) (d_of_Z 9007199254740992)).

(* ---- normal generators: splitting of the random word ---- *)
(* frandn, rng.cc:307-311: sign, table index, lattice value (all uint32_t) *)
Definition frandn_s (a : Z) : Z := Z.land a 0x01.
Definition frandn_i (a : Z) : Z := Z.shiftr (Z.land a 0x7e) 1.
Definition frandn_j (a : Z) : Z :=
  u32 (Z.land a (u32 (Z.lnot 0xff)) + u32 (Z.shiftl (Z.land a 0x80) 1)).
(* drandn, rng.cc:366-370 (uint64_t) *)
Definition drandn_s (a : Z) : Z := Z.land a 0x001.
Definition drandn_i (a : Z) : Z := Z.shiftr (Z.land a 0x1fe) 1.
Definition drandn_j (a : Z) : Z :=
  u64 (Z.land a (u64 (Z.lnot 0x3ff)) + u64 (Z.shiftl (Z.land a 0x400) 1)).

(* ---- permutations ---- *)

(* Outcome of a function that draws from a finite stream of words: needs more words,
   undefined behaviour (int overflow), or a result and the words left. *)
Inductive outcome (A : Type) : Type := More | Undef | Done (x : A) (rest : list Z).
Arguments More {A}. Arguments Undef {A}. Arguments Done {A}.

(* The do-while loop of randperm, rng.cc:475-479, for i and n. *)
Fixpoint perm_draw (d i n : Z) (ws : list Z) : outcome Z :=
  match ws with
  | [] => More
  | a :: r =>
      if negb (in_int (a / d) && in_int (i + a / d)) then Undef
      else if n <=? i + a / d then perm_draw d i n r else Done (i + a / d) r
  end.

Definition nthZ (l : list Z) (i : nat) : Z := nth i l 0.
Fixpoint set_at (l : list Z) (i : nat) (x : Z) : list Z :=
  match l, i with
  | [], _ => []
  | _ :: r, O => x :: r
  | y :: r, S i' => y :: set_at r i' x
  end.
(* t = x[i], x[i] = x[j], x[j] = t *)
Definition swap_at (l : list Z) (i j : nat) : list Z := set_at (set_at l i (nthZ l j)) j (nthZ l i).

(* The loop over i, rng.cc:474-481; k iterations are left. *)
Fixpoint perm_loop (k : nat) (i n : Z) (x : list Z) (ws : list Z) : outcome (list Z) :=
  match k with
  | O => Done x ws
  | S k' =>
      let d := (2 ^ 32 - 1) / (n - i) in
      match perm_draw d i n ws with
      | Done j r => perm_loop k' (i + 1) n (swap_at x (Z.to_nat i) (Z.to_nat j)) r
      | More => More
      | Undef => Undef
      end
  end.
(* randperm, rng.cc:451-484, n >= 0 *)
Definition randperm (n : Z) (ws : list Z) : outcome (list Z) :=
  perm_loop (Z.to_nat (n - 1)) 0 n (map Z.of_nat (seq 0 (Z.to_nat n))) ws.

(* ---- shuffle ---- *)
(* d and a are uint32_t although 64 bit values are assigned to them, rng.cc:492, 503-506 *)
Definition shuffle_d (m : Z) : Z := u32 ((2 ^ 64 - 1) / m).
(* ws: 64-bit words.  d = 0 would be a division by zero: Undef. *)
Fixpoint shuffle_draw (d i n : Z) (ws : list Z) : outcome Z :=
  match ws with
  | [] => More
  | a :: r =>
      if d =? 0 then Undef
      else let j := u64 (i + u32 a / d) in
           if n <=? j then shuffle_draw d i n r else Done j r
  end.

(* Memory: bytes by offset from _x. *)
Definition mem : Type := Z -> Z.
Definition put (m : mem) (p v : Z) : mem := fun q => if q =? p then v else m q.
(* SWAP_IJ by bytes, rng.cc:531-533: k counts up from k0. *)
Fixpoint swap_bytes (k : nat) (off : Z) (m : mem) (pi pj : Z) : mem :=
  match k with
  | O => m
  | S k' =>
      let t := m (pi + off) in
      swap_bytes k' (off + 1) (put (put m (pi + off) (m (pj + off))) (pj + off) t) pi pj
  end.
(* SWAP_IJ by elements of 1, 2, 4 or 8 bytes, rng.cc:516-517: whole elements are
   loaded and stored. *)
Definition load_bytes (m : mem) (p : Z) (w : Z) : Z -> Z := fun k => m (p + k).
Definition store_bytes (m : mem) (p w : Z) (v : Z -> Z) : mem :=
  fun q => if (p <=? q) && (q <? p + w) then v (q - p) else m q.
Definition swap_elem (w : Z) (m : mem) (pi pj : Z) : mem :=
  let t := load_bytes m pi w in
  let m1 := store_bytes m pi w (load_bytes m pj w) in
  store_bytes m1 pj w t.

(* Which of the two is used, rng.cc:514-535 (str, sz in bytes). *)
Definition shuffle_swap (sz str : Z) (m : mem) (i j : Z) : mem :=
  if (str mod sz =? 0) && ((sz =? 1) || (sz =? 2) || (sz =? 4) || (sz =? 8))
  then swap_elem sz m (i * str) (j * str)
  else swap_bytes (Z.to_nat sz) 0 m (i * str) (j * str).

Fixpoint shuffle_loop (k : nat) (i n sz str : Z) (m : mem) (ws : list Z) : outcome mem :=
  match k with
  | O => Done m ws
  | S k' =>
      match shuffle_draw (shuffle_d (n - i)) i n ws with
      | Done j r => shuffle_loop k' (i + 1) n sz str (shuffle_swap sz str m i j) r
      | More => More
      | Undef => Undef
      end
  end.
(* shuffle, rng.cc:486-540: sz_ele <= str_ele (else ERROR); n_ele < 2 or sz_ele = 0
   returns at once, which the loop gives as well for n_ele < 2. *)
Definition shuffle (sz str n : Z) (m : mem) (ws : list Z) : outcome mem :=
  if (n <? 2) || (sz =? 0) then Done m ws
  else shuffle_loop (Z.to_nat (n - 1)) 0 n sz str m ws.
