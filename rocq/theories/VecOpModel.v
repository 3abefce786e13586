(* The operators of the vector classes, as programs over lanes.

   Ten headers define the same operations: src/util/v4/v4_portable.h,
   v4_sse.h, v4_avx.h, v4_avx2.h, v4_neon.h, src/util/v8/v8_portable.h,
   v8_avx.h, v8_avx2.h, src/util/v16/v16_portable.h and v16_avx512.h.  A
   function is written either lane by lane ("c.i[j] = a.i[j] + b.i[j]", in a
   loop or unrolled) or with intrinsics ("c.v = _mm_add_ps( a.v, b.v )").
   This file gives the language of both forms and its meaning; the functions
   themselves are in VecOpPrograms4.v, VecOpPrograms8.v and VecOpPrograms16.v.

   Simplifications.  A lane is the 32-bit word that the members i[k], f[k]
   and v share (the union at v4_sse.h:129-134).  Arguments passed by reference
   are distinct objects.  Signalling NaNs are not told from quiet ones.  The
   operands of && and || have no effects, so both are evaluated. *)
From Coq Require Import ZArith List String Bool.
From Flocq Require Import IEEE754.Binary IEEE754.Bits.
Import ListNotations.
Open Scope string_scope. Open Scope list_scope. Open Scope Z_scope.

(* A comparison of two floats, as in the C operators < > == != <= >= and the
   intrinsics _mm_cmplt_ps ... (v4_sse.h:1067-1072), vcltq_f32 ...
   (v4_neon.h:1317-1321). *)
Inductive pred := CLt | CGt | CEq | CNe | CLe | CGe.

(* Operations of one operand.  I...: on the int member i[k] (- ~ !);
   F...: on the float member f[k] (-, ::fabs, ::sqrt, another function of
   <cmath>); FRsqrtE, FRcpE: the estimates _mm_rsqrt_ps, _mm_rcp_ps,
   _mm512_rsqrt14_ps, _mm512_rcp14_ps, vrsqrteq_f32, vrecpeq_f32. *)
Inductive op1 := INeg | INot | ILNot | FNeg | FAbs | FSqrt | FRsqrtE | FRcpE | FFun (name : string).

(* Operations of two operands.  VAndnot is _mm_andnot_ps( a, b ) = ~a & b;
   VBic is vbicq_s32( a, b ) = a & ~b; VCmp p is a vector comparison, whose
   lanes are all ones or all zeros; VCmpNeqOrd is _mm256_cmp_ps( a, b,
   _CMP_NEQ_OS ), not equal and neither a NaN (v8_avx.h:1387). *)
Inductive op2 := IAdd | ISub | IMul | IDiv | IMod | IShl | IShr | IXor | IAnd | IOr
  | ILt | IGt | IEq | INe | ILe | IGe | ILAnd | ILOr
  | FAdd | FSub | FMul | FDiv | FCmp (p : pred) | FLAnd | FLOr | FFun2 (name : string)
  | VAndnot | VBic | VCmp (p : pred) | VCmpNeqOrd.

(* _mm_fmadd_ps = a*b+c, _mm_fmsub_ps = a*b-c, _mm_fnmadd_ps = -(a*b)+c, each
   with a single rounding (v4_avx2.h:1429-1447). *)
Inductive op3 := Fmadd | Fmsub | Fnmadd.

(* The lane named in brackets: a number (also a template argument), or the
   counter j of the loop around it. *)
Inductive ix := Ix (k : nat) | J.

(* A scalar expression: x.i[k] or x.f[k], a constant (as its 32 bits), the
   operations, and c ? t : e. *)
Inductive sx := Ln (x : string) (k : ix) | Cst (w : Z) | U1 (o : op1) (e : sx)
  | B2 (o : op2) (e f : sx) | T3 (o : op3) (e f g : sx) | Cond (c t e : sx).

(* A vector expression: a register, set1_ps, setr_ps, an intrinsic that works
   lane by lane, and _mm_shuffle_ps with its immediate. *)
Inductive vx := VReg (x : string) | VSet1 (e : sx) | VSetr (l : list sx)
  | V1 (o : op1) (v : vx) | V2 (o : op2) (v w : vx) | V3 (o : op3) (u v w : vx)
  | VShuf (v w : vx) (imm : nat).

(* A statement: to one lane (or to a scalar, which is a variable of one
   lane), to all lanes of a register, or "for( int j = 0; j < n; j++ )".
   A statement whose right hand side is ++x or x++ stands as two; "if(c) t =
   e" as t = c ? e : t (v4_portable.h:1083). *)
Inductive stmt := SetL (x : string) (k : ix) (e : sx) | SetV (x : string) (v : vx)
  | For (n : nat) (body : list stmt).

(* A function: its name (operators with the class of their arguments), the
   line in its header, its parameters with their numbers of lanes ("this" for
   a member), its body, and the variables that hold its results: the value
   returned, then the arguments that are not const. *)
Record fn := fnc { f_name : string; f_line : nat; f_params : list (string * nat);
                   f_body : list stmt; f_outs : list string }.

(* ---- the meaning of the operations ------------------------------------- *)

(* The float arithmetic of the machine, on words.  Nothing is assumed of it:
   rounding, NaN payloads, flushing of denormals and the accuracy of the
   estimates are whatever these functions say. *)
Record fpu := { f_add : Z -> Z -> Z; f_sub : Z -> Z -> Z; f_mul : Z -> Z -> Z; f_div : Z -> Z -> Z;
                f_sqrt : Z -> Z; f_rsqrte : Z -> Z; f_rcpe : Z -> Z;
                f_fmadd : Z -> Z -> Z -> Z; f_fmsub : Z -> Z -> Z -> Z; f_fnmadd : Z -> Z -> Z -> Z;
                f_fun : string -> Z -> Z; f_fun2 : string -> Z -> Z -> Z }.

Definition W32 : Z := 4294967296.
Definition ones : Z := 4294967295.
Definition signbit : Z := 2147483648.

(* the int that a word stands for, two's complement *)
Definition sint (w : Z) : Z := if w <? signbit then w else w - W32.
(* an int result: undefined behaviour (None) if it is not representable *)
Definition of_sint (z : Z) : option Z :=
  if (- signbit <=? z) && (z <? signbit) then Some (z mod W32) else None.
Definition b2w (b : bool) : Z := if b then 1 else 0.
Definition b2m (b : bool) : Z := if b then ones else 0.
Definition wnot (w : Z) : Z := Z.lxor w ones.

(* comparison of the floats that two words stand for *)
Definition fcmp (p : pred) (a b : Z) : bool :=
  match b32_compare (b32_of_bits a) (b32_of_bits b), p with
  | Some Lt, (CLt | CLe | CNe) => true
  | Some Gt, (CGt | CGe | CNe) => true
  | Some Eq, (CEq | CLe | CGe) => true
  | None, CNe => true
  | _, _ => false
  end.
Definition fneqord (a b : Z) : bool :=
  match b32_compare (b32_of_bits a) (b32_of_bits b) with Some Lt | Some Gt => true | _ => false end.
(* a float as a condition: anything but +0 and -0 *)
Definition ftruth (a : Z) : bool := fcmp CNe a 0.

Definition eval1 (F : fpu) (o : op1) (a : Z) : option Z :=
  match o with
  | INeg => of_sint (- sint a)
  | INot => Some (wnot a)
  | ILNot => Some (b2w (a =? 0))
  | FNeg => Some (Z.lxor a signbit)
  | FAbs => Some (Z.land a 2147483647)
  | FSqrt => Some (f_sqrt F a)
  | FRsqrtE => Some (f_rsqrte F a)
  | FRcpE => Some (f_rcpe F a)
  | FFun n => Some (f_fun F n a)
  end.

(* Undefined (None): overflow, division by zero or of the least int by -1, a
   shift by a negative number or by 32 or more, a left shift of a negative
   number or out of 32 bits.  A right shift of a negative number keeps the
   sign, as all compilers have it. *)
Definition eval2 (F : fpu) (o : op2) (a b : Z) : option Z :=
  match o with
  | IAdd => of_sint (sint a + sint b)
  | ISub => of_sint (sint a - sint b)
  | IMul => of_sint (sint a * sint b)
  | IDiv => if b =? 0 then None else of_sint (Z.quot (sint a) (sint b))
  | IMod => if b =? 0 then None
            else match of_sint (Z.quot (sint a) (sint b)) with
                 | Some _ => of_sint (Z.rem (sint a) (sint b)) | None => None end
  | IShl => if (sint b <? 0) || (32 <=? sint b) || (sint a <? 0) || (W32 <=? Z.shiftl a b) then None
            else Some (Z.shiftl a b)
  | IShr => if (sint b <? 0) || (32 <=? sint b) then None else of_sint (Z.shiftr (sint a) b)
  | IXor => Some (Z.lxor a b)
  | IAnd => Some (Z.land a b)
  | IOr => Some (Z.lor a b)
  | ILt => Some (b2w (sint a <? sint b))
  | IGt => Some (b2w (sint b <? sint a))
  | IEq => Some (b2w (a =? b))
  | INe => Some (b2w (negb (a =? b)))
  | ILe => Some (b2w (sint a <=? sint b))
  | IGe => Some (b2w (sint b <=? sint a))
  | ILAnd => Some (b2w (negb (a =? 0) && negb (b =? 0)))
  | ILOr => Some (b2w (negb (a =? 0) || negb (b =? 0)))
  | FAdd => Some (f_add F a b)
  | FSub => Some (f_sub F a b)
  | FMul => Some (f_mul F a b)
  | FDiv => Some (f_div F a b)
  | FCmp p => Some (b2w (fcmp p a b))
  | FLAnd => Some (b2w (ftruth a && ftruth b))
  | FLOr => Some (b2w (ftruth a || ftruth b))
  | FFun2 n => Some (f_fun2 F n a b)
  | VAndnot => Some (Z.land (wnot a) b)
  | VBic => Some (Z.land a (wnot b))
  | VCmp p => Some (b2m (fcmp p a b))
  | VCmpNeqOrd => Some (b2m (fneqord a b))
  end.

Definition eval3 (F : fpu) (o : op3) (a b c : Z) : option Z :=
  match o with
  | Fmadd => Some (f_fmadd F a b c)
  | Fmsub => Some (f_fmsub F a b c)
  | Fnmadd => Some (f_fnmadd F a b c)
  end.

(* ---- the meaning of a function ------------------------------------------ *)

(* The variables: x, k |-> lane k of x; None before it is set.  Reading it
   then is undefined. *)
Definition env := string -> nat -> option Z.

Fixpoint eval (F : fpu) (r : env) (e : sx) : option Z :=
  match e with
  | Ln x (Ix k) => r x k
  | Ln x J => None
  | Cst w => Some w
  | U1 o e => match eval F r e with Some a => eval1 F o a | None => None end
  | B2 o e f => match eval F r e, eval F r f with
                | Some a, Some b => eval2 F o a b | _, _ => None end
  | T3 o e f g => match eval F r e, eval F r f, eval F r g with
                  | Some a, Some b, Some c => eval3 F o a b c | _, _, _ => None end
  | Cond c t e => match eval F r c with
                  | Some a => if a =? 0 then eval F r e else eval F r t
                  | None => None end
  end.

(* the loop counter put in *)
Definition ix_at (j : nat) (k : ix) : ix := match k with J => Ix j | _ => k end.
Fixpoint sx_at (j : nat) (e : sx) : sx :=
  match e with
  | Ln x k => Ln x (ix_at j k)
  | Cst w => Cst w
  | U1 o e => U1 o (sx_at j e)
  | B2 o e f => B2 o (sx_at j e) (sx_at j f)
  | T3 o e f g => T3 o (sx_at j e) (sx_at j f) (sx_at j g)
  | Cond c t e => Cond (sx_at j c) (sx_at j t) (sx_at j e)
  end.

(* Lane k of a vector expression.  Intrinsics work lane by lane; lane k of
   _mm_shuffle_ps( v, w, imm ) is the lane of v (k < 2) or w (k = 2, 3) that
   bits 2k and 2k+1 of imm give. *)
Fixpoint lane_of (v : vx) (k : nat) : sx :=
  match v with
  | VReg x => Ln x (Ix k)
  | VSet1 e => e
  | VSetr l => nth k l (Ln "?" J)
  | V1 o v => U1 o (lane_of v k)
  | V2 o v w => B2 o (lane_of v k) (lane_of w k)
  | V3 o u v w => T3 o (lane_of u k) (lane_of v k) (lane_of w k)
  | VShuf v w imm =>
      let s := Z.to_nat (Z.land (Z.shiftr (Z.of_nat imm) (2 * Z.of_nat k)) 3) in
      if Nat.ltb k 2 then lane_of v s else lane_of w s
  end.

(* An assignment in its simplest form: the lanes set at once, each with the
   expression for it. *)
Definition step := list (string * nat * sx).
Definition the_ix (k : ix) : nat := match k with Ix n => n | J => 0%nat end.
Fixpoint flat1 (W : nat) (j : nat) (s : stmt) : list step :=
  match s with
  | SetL x k e => [[(x, the_ix (ix_at j k), sx_at j e)]]
  | SetV x v => [map (fun k => (x, k, lane_of v k)) (seq 0 W)]
  | For n body => flat_map (fun i => flat_map (flat1 W i) body) (seq 0 n)
  end.
Definition flat (W : nat) (b : list stmt) : list step := flat_map (flat1 W 0) b.

Definition upd (r : env) (x : string) (k : nat) (w : Z) : env :=
  fun y l => if String.eqb y x && Nat.eqb l k then Some w else r y l.

(* all right hand sides first, then the assignments *)
Fixpoint evals (F : fpu) (r : env) (es : list sx) : option (list Z) :=
  match es with
  | [] => Some []
  | e :: es => match eval F r e, evals F r es with
               | Some w, Some ws => Some (w :: ws) | _, _ => None end
  end.
Fixpoint upds (r : env) (ks : step) (ws : list Z) : env :=
  match ks, ws with
  | (x, k, _) :: ks, w :: ws => upds (upd r x k w) ks ws
  | _, _ => r
  end.
Fixpoint exec (F : fpu) (r : env) (ss : list step) : option env :=
  match ss with
  | [] => Some r
  | s :: ss => match evals F r (map snd s) with
               | Some ws => exec F (upds r s ws) ss | None => None end
  end.

(* The arguments: each a list of lanes (a scalar: of one). *)
Fixpoint bind (ps : list (string * nat)) (args : list (list Z)) : env :=
  match ps, args with
  | (x, n) :: ps, a :: args =>
      fun y k => if String.eqb y x then (if Nat.ltb k n then nth_error a k else None)
                 else bind ps args y k
  | _, _ => fun _ _ => None
  end.

(* A call: for every lane below n, the words of the results in that lane;
   None if anything undefined was done. *)
Fixpoint opts {A} (l : list (option A)) : option (list A) :=
  match l with
  | [] => Some []
  | o :: l => match o, opts l with Some x, Some xs => Some (x :: xs) | _, _ => None end
  end.
Definition call_n (F : fpu) (W n : nat) (f : fn) (args : list (list Z)) : option (list (list Z)) :=
  match exec F (bind (f_params f) args) (flat W (f_body f)) with
  | Some r => opts (map (fun j => opts (map (fun x => r x j) (f_outs f))) (seq 0 n))
  | None => None
  end.
Definition call (F : fpu) (W : nat) (f : fn) (args : list (list Z)) : option (list (list Z)) :=
  call_n F W W f args.
