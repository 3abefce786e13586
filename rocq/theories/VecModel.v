(* The memory operations of the vector classes v4, v8 and v16.

   The bodies of load_*, store_*, stream_*, clear_*, copy_*, swap_*, transpose and swap
   in the headers /repo/src/util/v4/v4_{portable,sse,avx,avx2,neon}.h,
   /repo/src/util/v8/v8_{portable,avx,avx2}.h and
   /repo/src/util/v16/v16_{portable,avx512}.h are straight-line code (or a loop over the
   lanes).  They are transcribed statement by statement into the small language below
   (VecPrograms4.v, VecPrograms8.v, VecPrograms16.v), whose operations are the intrinsics
   that occur, with the meaning given in the manuals of the processors (Intel intrinsics
   guide, Arm NEON reference).

   Simplifications: a word is 32 bits of an arbitrary type, addresses count words (all
   pointers are multiples of 4 bytes); a variable that has not been set has no lanes;
   v4_altivec.h and the v0 and v1 versions of the portable headers (not included by v4.h,
   v8.h, v16.h) are left out, and so is what stands in `#if 0'. *)
From Coq Require Import ZArith List String Bool.
Import ListNotations.
Open Scope string_scope. Open Scope list_scope.

(* ---- syntax ---- *)
Inductive vexp : Type :=
| R (x : string)                                  (* a variable x, or x.v of a vector x *)
| Zero (n : nat)                                  (* _mm_setzero_ps(), vdupq_n_f32( 0.0f ) *)
| Ld (n : nat) (p : string)                       (* _mm_load_ps, _mm256_load_ps, _mm512_load_ps: n = 4, 8, 16 *)
| Ldu (n : nat) (p : string)                      (* vld1q_f32 *)
| Ld4 (p : string) (k : nat)                      (* vld4q_f32( p ).val[k] *)
| LdL (e : vexp) (p : string)                     (* _mm_loadl_pi *)
| LdH (e : vexp) (p : string)                     (* _mm_loadh_pi *)
| Setr (l : list (string * nat))                  (* _mm_setr_ps of words in memory *)
| Set1 (n : nat) (x : string) (i : nat)           (* _mm512_set1_ps( x[i] ) *)
| Ulo (e f : vexp)                                (* _mm*_unpacklo_ps *)
| Uhi (e f : vexp)                                (* _mm*_unpackhi_ps *)
| Mlh (e f : vexp)                                (* _mm_movelh_ps *)
| Mhl (e f : vexp)                                (* _mm_movehl_ps *)
| Shuf (e f : vexp) (imm : nat)                   (* _mm*_shuffle_ps *)
| SetM (hi lo : vexp)                             (* _mm256_set_m128 *)
| P2f (e f : vexp) (imm : nat)                    (* _mm256_permute2f128_ps *)
| Ext (e : vexp) (imm : nat)                      (* _mm256_extractf128_ps *)
| ShF (e f : vexp) (imm : nat)                    (* _mm512_shuffle_f32x4 *)
| PermX (idx : list nat) (e : vexp)               (* _mm512_permutexvar_ps, idx by _mm512_set_epi32 *)
| PermX2 (e : vexp) (idx : list nat) (f : vexp)   (* _mm512_permutex2var_ps *)
| Trn1 (e f : vexp) | Trn2 (e f : vexp)           (* vtrn1q_f32, vtrn2q_f32 (vtrnq_f32 gives both) *)
| Trn1d (e f : vexp) | Trn2d (e f : vexp)         (* vtrn1q_f64, vtrn2q_f64 *)
| Uzp1 (e f : vexp) | Uzp2 (e f : vexp).          (* vuzp1q_f32, vuzp2q_f32 *)
Coercion R : string >-> vexp.

Inductive stmt : Type :=
| Set_ (x : string) (e : vexp)                    (* x = e, x.v = e *)
| St (n : nat) (p : string) (e : vexp)            (* _mm*_store_ps, _mm*_stream_ps *)
| Stu (p : string) (e : vexp)                     (* vst1q_f32 *)
| St4 (p x0 x1 x2 x3 : string)                    (* vst4q_f32 *)
| StL (p : string) (e : vexp)                     (* _mm_storel_pi *)
| StH (p : string) (e : vexp)                     (* _mm_storeh_pi *)
| LIn (n : nat) (x : string) (i : nat) (p : string) (o : nat)  (* x.i[i] = p[o] as int, x having n lanes *)
| LOut (p : string) (o : nat) (x : string) (i : nat)           (* p[o] = x.i[i] as int *)
| Cp (p : string) (o : nat) (p' : string) (o' : nat)           (* p[o] = p'[o'] as int *)
| Clr (p : string) (o : nat)                                   (* p[o] = 0 as int *)
| Sw (n : nat) (x : string) (i : nat) (y : string) (j : nat).  (* sw( x.i[i], y.i[j] ) *)
Notation "x ::= e" := (Set_ x e) (at level 70).

(* _MM_SHUFFLE of xmmintrin.h *)
Definition mm_shuffle (z y x w : nat) : nat := 64 * z + 16 * y + 4 * x + w.

(* The fields of two bits of an immediate operand. *)
Definition field2 (imm k : nat) : nat := Nat.modulo (Nat.div imm (Nat.pow 4 k)) 4.

(* An operation may be undefined behaviour: an address that is not a multiple of what
   the instruction asks for, or a word outside the memory of the program. *)
Inductive outcome (T : Type) : Type := Ok (t : T) | Misaligned | OutOfBounds.
Arguments Ok {T}. Arguments Misaligned {T}. Arguments OutOfBounds {T}.
Definition bind {S T} (x : outcome S) (f : S -> outcome T) : outcome T :=
  match x with Ok s => f s | Misaligned => Misaligned | OutOfBounds => OutOfBounds end.

Section Vec.
Variable word : Type.
Variable zero : word.

(* A word of a register or of memory; None: not yet given a value. *)
Definition cell : Type := option word.
Definition reg : Type := list cell.
Definition lane (r : reg) (i : nat) : cell := nth i r None.

(* ---- data movement between registers ---- *)
Definition quad (r : reg) (i : nat) : reg :=
  [lane r (4 * i); lane r (4 * i + 1); lane r (4 * i + 2); lane r (4 * i + 3)].
Definition quads2 (f : reg -> reg -> reg) (a b : reg) : reg :=
  flat_map (fun i => f (quad a i) (quad b i)) (seq 0 (Nat.div (List.length a) 4)).

Definition unpacklo (a b : reg) : reg :=
  quads2 (fun a b => [lane a 0; lane b 0; lane a 1; lane b 1]) a b.
Definition unpackhi (a b : reg) : reg :=
  quads2 (fun a b => [lane a 2; lane b 2; lane a 3; lane b 3]) a b.
Definition movelh (a b : reg) : reg := [lane a 0; lane a 1; lane b 0; lane b 1].
Definition movehl (a b : reg) : reg := [lane b 2; lane b 3; lane a 2; lane a 3].
Definition shuffle_ps (imm : nat) (a b : reg) : reg :=
  quads2 (fun a b => [lane a (field2 imm 0); lane a (field2 imm 1); lane b (field2 imm 2); lane b (field2 imm 3)]) a b.
Definition set_m128 (hi lo : reg) : reg := quad lo 0 ++ quad hi 0.
(* Bits 3 and 7 of the immediate (a half set to zero) do not occur. *)
Definition permute2f128 (imm : nat) (a b : reg) : reg :=
  let half k := match k with 0 => quad a 0 | 1 => quad a 1 | 2 => quad b 0 | _ => quad b 1 end in
  half (field2 imm 0) ++ half (field2 imm 2).
Definition extractf128 (imm : nat) (a : reg) : reg := quad a (Nat.modulo imm 2).
Definition shuffle_f32x4 (imm : nat) (a b : reg) : reg :=
  quad a (field2 imm 0) ++ quad a (field2 imm 1) ++ quad b (field2 imm 2) ++ quad b (field2 imm 3).
(* _mm512_set_epi32 names the highest lane first. *)
Definition permutexvar (idx : list nat) (a : reg) : reg := map (fun i => lane a (Nat.modulo i 16)) (rev idx).
Definition permutex2var (a : reg) (idx : list nat) (b : reg) : reg :=
  map (fun i => if Nat.ltb (Nat.modulo i 32) 16 then lane a (Nat.modulo i 16) else lane b (Nat.modulo i 16)) (rev idx).
Definition trn1 (a b : reg) : reg := [lane a 0; lane b 0; lane a 2; lane b 2].
Definition trn2 (a b : reg) : reg := [lane a 1; lane b 1; lane a 3; lane b 3].
Definition trn1d (a b : reg) : reg := [lane a 0; lane a 1; lane b 0; lane b 1].
Definition trn2d (a b : reg) : reg := [lane a 2; lane a 3; lane b 2; lane b 3].
Definition uzp1 (a b : reg) : reg := [lane a 0; lane a 2; lane b 0; lane b 2].
Definition uzp2 (a b : reg) : reg := [lane a 1; lane a 3; lane b 1; lane b 3].

(* ---- expressions ---- *)
Definition env : Type := list (string * reg).
Fixpoint get (x : string) (s : env) : reg :=
  match s with
  | [] => []
  | (y, r) :: s => if String.eqb x y then r else get x s
  end.

Section Eval.
(* ld al p l: the words at offsets l of pointer p, which has to be a multiple of al words *)
Variable ld : nat -> string -> list nat -> outcome reg.
Variable s : env.
Definition un (f : reg -> reg) (x : outcome reg) : outcome reg := bind x (fun r => Ok (f r)).
Definition bin (f : reg -> reg -> reg) (x y : outcome reg) : outcome reg :=
  bind x (fun a => bind y (fun b => Ok (f a b))).
Fixpoint eval (e : vexp) : outcome reg :=
  match e with
  | R x => Ok (get x s)
  | Zero n => Ok (repeat (Some zero) n)
  | Ld n p => ld n p (seq 0 n)
  | Ldu n p => ld 1 p (seq 0 n)
  | Ld4 p k => ld 1 p [k; 4 + k; 8 + k; 12 + k]
  | LdL e p => bin (fun a b => [lane b 0; lane b 1; lane a 2; lane a 3]) (eval e) (ld 1 p [0; 1])
  | LdH e p => bin (fun a b => [lane a 0; lane a 1; lane b 0; lane b 1]) (eval e) (ld 1 p [0; 1])
  | Setr l => fold_right (fun po r => bin (fun a b => a ++ b) (ld 1 (fst po) [snd po]) r) (Ok []) l
  | Set1 n x i => Ok (repeat (lane (get x s) i) n)
  | Ulo e f => bin unpacklo (eval e) (eval f)
  | Uhi e f => bin unpackhi (eval e) (eval f)
  | Mlh e f => bin movelh (eval e) (eval f)
  | Mhl e f => bin movehl (eval e) (eval f)
  | Shuf e f imm => bin (shuffle_ps imm) (eval e) (eval f)
  | SetM e f => bin set_m128 (eval e) (eval f)
  | P2f e f imm => bin (permute2f128 imm) (eval e) (eval f)
  | Ext e imm => un (extractf128 imm) (eval e)
  | ShF e f imm => bin (shuffle_f32x4 imm) (eval e) (eval f)
  | PermX idx e => un (permutexvar idx) (eval e)
  | PermX2 e idx f => bin (fun a b => permutex2var a idx b) (eval e) (eval f)
  | Trn1 e f => bin trn1 (eval e) (eval f)
  | Trn2 e f => bin trn2 (eval e) (eval f)
  | Trn1d e f => bin trn1d (eval e) (eval f)
  | Trn2d e f => bin trn2d (eval e) (eval f)
  | Uzp1 e f => bin uzp1 (eval e) (eval f)
  | Uzp2 e f => bin uzp2 (eval e) (eval f)
  end.
End Eval.

(* ---- statements ---- *)
(* x with lane i of n replaced *)
Definition set_lane (n : nat) (r : reg) (i : nat) (c : cell) : reg :=
  map (fun j => if Nat.eqb j i then c else lane r j) (seq 0 n).

Section Exec.
Variable ld : nat -> string -> list nat -> outcome reg.
(* The stores of a statement once its operands are known: alignment, pointer, words. *)
Definition exec1 (s : env) (t : stmt) : outcome (env * list (nat * string * list (nat * cell))) :=
  match t with
  | Set_ x e => bind (eval ld s e) (fun r => Ok ((x, r) :: s, []))
  | St n p e => bind (eval ld s e) (fun r => Ok (s, [(n, p, map (fun i => (i, lane r i)) (seq 0 n))]))
  | Stu p e => bind (eval ld s e) (fun r => Ok (s, [(1, p, map (fun i => (i, lane r i)) (seq 0 4))]))
  | St4 p x0 x1 x2 x3 =>
      Ok (s, [(1, p, flat_map (fun i => [(4 * i, lane (get x0 s) i); (4 * i + 1, lane (get x1 s) i);
                                         (4 * i + 2, lane (get x2 s) i); (4 * i + 3, lane (get x3 s) i)]) (seq 0 4))])
  | StL p e => bind (eval ld s e) (fun r => Ok (s, [(1, p, [(0, lane r 0); (1, lane r 1)])]))
  | StH p e => bind (eval ld s e) (fun r => Ok (s, [(1, p, [(0, lane r 2); (1, lane r 3)])]))
  | LIn n x i p o => bind (ld 1 p [o]) (fun r => Ok ((x, set_lane n (get x s) i (lane r 0)) :: s, []))
  | LOut p o x i => Ok (s, [(1, p, [(o, lane (get x s) i)])])
  | Cp p o p' o' => bind (ld 1 p' [o']) (fun r => Ok (s, [(1, p, [(o, lane r 0)])]))
  | Clr p o => Ok (s, [(1, p, [(o, Some zero)])])
  | Sw n x i y j =>
      (* #define sw(x,y) x^=y, y^=x, x^=y: a lane exchanged with itself becomes zero
         (v4_portable.h:179, v8_portable.h:231, v16_portable.h:427, v4_neon.h:222) *)
      if String.eqb x y && Nat.eqb i j then Ok ((x, set_lane n (get x s) i (Some zero)) :: s, [])
      else
        let c := lane (get x s) i in let d := lane (get y s) j in
        let s' := (x, set_lane n (get x s) i d) :: s in
        Ok ((y, set_lane n (get y s') j c) :: s', [])
  end.
End Exec.

(* ---- memory ---- *)
(* None: an address outside the objects the program may touch. *)
Definition mem : Type := Z -> option cell.
Variable a : string -> Z.   (* the addresses the pointers hold *)

Fixpoint loads (m : mem) (z : Z) (l : list nat) : outcome reg :=
  match l with
  | [] => Ok []
  | o :: l => match m (z + Z.of_nat o)%Z with
    | None => OutOfBounds
    | Some c => bind (loads m z l) (fun r => Ok (c :: r))
    end
  end.
Definition aligned (n : nat) (p : string) : bool := Z.eqb (Z.modulo (a p) (Z.of_nat n)) 0.
Definition load (m : mem) (al : nat) (p : string) (l : list nat) : outcome reg :=
  if aligned al p then loads m (a p) l else Misaligned.

Definition put (m : mem) (z : Z) (c : cell) : mem := fun y => if Z.eqb y z then Some c else m y.
Fixpoint puts (m : mem) (z : Z) (l : list (nat * cell)) : outcome mem :=
  match l with
  | [] => Ok m
  | (o, c) :: l => match m (z + Z.of_nat o)%Z with
    | None => OutOfBounds
    | Some _ => puts (put m (z + Z.of_nat o) c) z l
    end
  end.
Definition store (m : mem) (al : nat) (p : string) (l : list (nat * cell)) : outcome mem :=
  if aligned al p then puts m (a p) l else Misaligned.

Fixpoint stores_all (m : mem) (l : list (nat * string * list (nat * cell))) : outcome mem :=
  match l with
  | [] => Ok m
  | (n, p, ws) :: l => bind (store m n p ws) (fun m => stores_all m l)
  end.
Fixpoint run (l : list stmt) (s : env) (m : mem) : outcome (env * mem) :=
  match l with
  | [] => Ok (s, m)
  | t :: l => bind (exec1 (load m) s t) (fun '(s, w) => bind (stores_all m w) (fun m => run l s m))
  end.
End Vec.
Arguments get {word}. Arguments lane {word}.
