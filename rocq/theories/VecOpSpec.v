(* What the operators of the vector classes have to do: in every lane, what
   the scalar operator does. *)
From Coq Require Import ZArith List String Bool Reals.
From Flocq Require Import IEEE754.Binary IEEE754.Bits.
From Verif Require Import VecOpModel VecOpTable.
Import ListNotations.
Open Scope string_scope. Open Scope list_scope. Open Scope Z_scope.

Definition word (w : Z) : Prop := 0 <= w < 2 ^ 32.

(* ---- the scalar operators ----------------------------------------------- *)

(* the int with the bits w, and the bits of an int if there is such an int *)
Definition val (w : Z) : Z := if w <? 2 ^ 31 then w else w - 2 ^ 32.
Definition int_result (z : Z) : option Z :=
  if (- 2 ^ 31 <=? z) && (z <? 2 ^ 31) then Some (z mod 2 ^ 32) else None.

(* the word with the bits g *)
Definition bits (g : Z -> bool) : Z :=
  fold_right (fun i s => (if g (Z.of_nat i) then 2 ^ Z.of_nat i else 0) + s) 0 (seq 0 32).
(* a condition as the vector classes represent it *)
Definition mask (b : bool) : Z := if b then 2 ^ 32 - 1 else 0.

Definition nan (a : Z) : bool := is_nan 24 128 (b32_of_bits a).
Definition flt (a b : Z) : bool :=
  match b32_compare (b32_of_bits a) (b32_of_bits b) with Some Lt => true | _ => false end.
Definition feq (a b : Z) : bool :=
  match b32_compare (b32_of_bits a) (b32_of_bits b) with Some Eq => true | _ => false end.

(* int op int, and what "op=" leaves in its left operand *)
Definition int_ops : list (string * (Z -> Z -> option Z)) :=
  [ ("+", fun a b => int_result (val a + val b));
    ("-", fun a b => int_result (val a - val b));
    ("*", fun a b => int_result (val a * val b));
    ("/", fun a b => if val b =? 0 then None else int_result (Z.quot (val a) (val b)));
    ("%", fun a b => if (val b =? 0) || ((val a =? - 2 ^ 31) && (val b =? -1)) then None
                     else int_result (Z.rem (val a) (val b)));
    ("<<", fun a b => if (0 <=? val b) && (val b <? 32) && (0 <=? val a) && (val a * 2 ^ val b <? 2 ^ 32)
                      then Some (val a * 2 ^ val b) else None);
    (">>", fun a b => if (0 <=? val b) && (val b <? 32) then Some ((val a / 2 ^ val b) mod 2 ^ 32) else None);
    ("^", fun a b => Some (bits (fun i => xorb (Z.testbit a i) (Z.testbit b i))));
    ("&", fun a b => Some (bits (fun i => Z.testbit a i && Z.testbit b i)));
    ("|", fun a b => Some (bits (fun i => Z.testbit a i || Z.testbit b i))) ].

(* int op int as a condition *)
Definition int_tests : list (string * (Z -> Z -> bool)) :=
  [ ("<", fun a b => val a <? val b); (">", fun a b => val b <? val a);
    ("==", fun a b => val a =? val b); ("!=", fun a b => negb (val a =? val b));
    ("<=", fun a b => val a <=? val b); (">=", fun a b => val b <=? val a);
    ("&&", fun a b => negb (val a =? 0) && negb (val b =? 0));
    ("||", fun a b => negb (val a =? 0) || negb (val b =? 0)) ].

(* float op float, and what "op=" leaves in its left operand *)
Definition float_ops (F : fpu) : list (string * (Z -> Z -> Z)) :=
  [ ("+", f_add F); ("-", f_sub F); ("*", f_mul F); ("/", f_div F) ].

Definition float_tests : list (string * (Z -> Z -> bool)) :=
  [ ("<", flt); (">", fun a b => flt b a); ("==", feq); ("!=", fun a b => negb (feq a b));
    ("<=", fun a b => flt a b || feq a b); (">=", fun a b => flt b a || feq a b);
    ("&&", fun a b => negb (feq a 0) && negb (feq b 0));
    ("||", fun a b => negb (feq a 0) || negb (feq b 0)) ].

Definition math1 : list string :=
  ["acos"; "asin"; "atan"; "ceil"; "cos"; "cosh"; "exp"; "floor"; "log"; "log10"; "sin"; "sinh"; "tan"; "tanh"].
Definition math2 : list string := ["atan2"; "fmod"; "pow"].

(* ---- lane by lane --------------------------------------------------------- *)

(* A specification of a function: from the words of its arguments in a lane
   to the words of its results in that lane, None if undefined. *)
Definition lspec := list Z -> option (list Z).
Definition on1 (g : Z -> option (list Z)) : lspec :=
  fun c => match c with [a] => g a | _ => None end.
Definition on2 (g : Z -> Z -> option (list Z)) : lspec :=
  fun c => match c with [a; b] => g a b | _ => None end.
Definition on3 (g : Z -> Z -> Z -> option (list Z)) : lspec :=
  fun c => match c with [a; b; d] => g a b d | _ => None end.
Definition one (o : option Z) : option (list Z) := option_map (fun x => [x]) o.

(* 1.0f and 0.5f *)
Definition f1 : Z := 1065353216.
Definition fhalf : Z := 1056964608.

(* the headers that have fused multiply-add, and those without intrinsics *)
Definition fused (h : hdr) : bool := match h with V4avx2 | V8avx2 | V16avx512 => true | _ => false end.
Definition portable (h : hdr) : bool := match h with V4portable | V8portable | V16portable => true | _ => false end.

(* one step of Newton's method for 1/sqrt(a) and 1/a from the estimate b *)
Definition newton_rsqrt (F : fpu) (fma : bool) (a b : Z) : Z :=
  if fma then f_fmadd F fhalf (f_fnmadd F a (f_mul F b (f_mul F b b)) b) b
  else f_add F b (f_mul F fhalf (f_sub F b (f_mul F a (f_mul F b (f_mul F b b))))).
Definition newton_rcp (F : fpu) (fma : bool) (a b : Z) : Z :=
  if fma then f_fnmadd F a (f_mul F b b) (f_add F b b)
  else f_sub F (f_add F b b) (f_mul F a (f_mul F b b)).

Definition lane_specs (F : fpu) (h : hdr) : list (string * lspec) :=
  map (fun p => ("int " ++ fst p, on2 (fun a b => one (snd p a b))))%string int_ops ++
  map (fun p => ("int " ++ fst p ++ "=", on2 (fun a b => one (snd p a b))))%string int_ops ++
  map (fun p => ("int " ++ fst p, on2 (fun a b => Some [mask (snd p a b)])))%string int_tests ++
  [ ("int =", on2 (fun a b => Some [b]));
    ("int unary+", on1 (fun a => Some [a]));
    ("int unary-", on1 (fun a => one (int_result (- val a))));
    ("int !", on1 (fun a => Some [mask (val a =? 0)]));
    ("int ~", on1 (fun a => one (int_result (- val a - 1))));
    ("int pre++", on1 (fun a => option_map (fun s => [s; s]) (int_result (val a + 1))));
    ("int pre--", on1 (fun a => option_map (fun s => [s; s]) (int_result (val a - 1))));
    ("int post++", on1 (fun a => option_map (fun s => [a; s]) (int_result (val a + 1))));
    ("int post--", on1 (fun a => option_map (fun s => [a; s]) (int_result (val a - 1))));
    ("int abs", on1 (fun a => one (int_result (Z.abs (val a)))));
    ("int from copy", on1 (fun a => Some [a]));
    ("int from mixed", on1 (fun a => Some [a]));
    ("int from scalar", on1 (fun a => Some [a]));
    ("czero", on2 (fun c a => Some [bits (fun i => Z.testbit a i && negb (Z.testbit c i))]));
    ("notczero", on2 (fun c a => Some [bits (fun i => Z.testbit a i && Z.testbit c i)]));
    ("merge", on3 (fun c t f => Some [bits (fun i => if Z.testbit c i then Z.testbit t i else Z.testbit f i)])) ] ++
  map (fun p => ("float " ++ fst p, on2 (fun a b => Some [snd p a b])))%string (float_ops F) ++
  map (fun p => ("float " ++ fst p ++ "=", on2 (fun a b => Some [snd p a b])))%string (float_ops F) ++
  map (fun p => ("float " ++ fst p, on2 (fun a b => Some [mask (snd p a b)])))%string float_tests ++
  [ ("float =", on2 (fun a b => Some [b]));
    ("float unary+", on1 (fun a => Some [a]));
    ("float unary-", on1 (fun a => Some [(a + 2 ^ 31) mod 2 ^ 32]));
    ("float !", on1 (fun a => Some [mask (feq a 0)]));
    ("float pre++", on1 (fun a => Some [f_add F a f1; f_add F a f1]));
    ("float pre--", on1 (fun a => Some [f_sub F a f1; f_sub F a f1]));
    ("float post++", on1 (fun a => Some [a; f_add F a f1]));
    ("float post--", on1 (fun a => Some [a; f_sub F a f1]));
    ("float from copy", on1 (fun a => Some [a]));
    ("float from mixed", on1 (fun a => Some [a]));
    ("float from scalar", on1 (fun a => Some [a]));
    ("fabs", on1 (fun a => Some [a mod 2 ^ 31]));
    ("sqrt", on1 (fun a => Some [f_sqrt F a]));
    ("copysign", on2 (fun a b => Some [a mod 2 ^ 31 + (if 2 ^ 31 <=? b then 2 ^ 31 else 0)]));
    ("fma", on3 (fun a b c => Some [if fused h then f_fmadd F a b c else f_add F (f_mul F a b) c]));
    ("fms", on3 (fun a b c => Some [if fused h then f_fmsub F a b c else f_sub F (f_mul F a b) c]));
    ("fnms", on3 (fun a b c => Some [if fused h then f_fnmadd F a b c else f_sub F c (f_mul F a b)]));
    ("clear_bits", on2 (fun m a => Some [bits (fun i => Z.testbit a i && negb (Z.testbit m i))]));
    ("set_bits", on2 (fun m a => Some [bits (fun i => Z.testbit a i || Z.testbit m i)]));
    ("toggle_bits", on2 (fun m a => Some [bits (fun i => xorb (Z.testbit a i) (Z.testbit m i))]));
    ("increment", on2 (fun p a => Some [f_add F p a]));
    ("decrement", on2 (fun p a => Some [f_sub F p a]));
    ("scale", on2 (fun p a => Some [f_mul F p a]));
    ("rcp_approx", on1 (fun a => Some [if portable h then f_div F f1 a else f_rcpe F a]));
    ("rsqrt_approx", on1 (fun a => Some [if portable h then f_sqrt F (f_div F f1 a) else f_rsqrte F a]));
    ("rcp", on1 (fun a => Some [if portable h then f_div F f1 a
                                else newton_rcp F (match h with V4avx2 => true | _ => false end) a (f_rcpe F a)]));
    ("rsqrt", on1 (fun a => Some [if portable h then f_sqrt F (f_div F f1 a)
                                  else newton_rsqrt F (match h with V4avx2 => true | _ => false end) a (f_rsqrte F a)])) ] ++
  map (fun n => (n, on1 (fun a => Some [f_fun F n a]))) math1 ++
  map (fun n => (n, on2 (fun a b => Some [f_fun2 F n a b]))) math2.

(* The lanes in which a function does that.  All, but for:
   - !a of floats where the int of the same bits is tested: not for -0;
   - != && || of v8_avx.h and v8_avx2.h, made for ordered operands: not for NaNs;
   - -a computed as 0 - a: not for +0 nor NaNs;
   - copysign(a,b) that tests b < 0: not for b = -0 nor b a NaN;
   - clear_bits of v4_neon.h, whose operands are exchanged. *)
Definition lane_dom (h : hdr) (n : string) (c : list Z) : bool :=
  match h, n, c with
  | (V4portable | V4neon | V8portable | V16portable | V16avx512), "float !", [a] => negb (a =? 2 ^ 31)
  | (V8avx | V8avx2), ("float !=" | "float &&" | "float ||"), [a; b] => negb (nan a) && negb (nan b)
  | (V4sse | V4avx | V4avx2 | V8avx | V8avx2 | V16avx512), "float unary-", [a] => negb (a =? 0) && negb (nan a)
  | (V4portable | V4neon | V8portable | V16portable), "copysign", [a; b] => negb (b =? 2 ^ 31) && negb (nan b)
  | V4neon, "clear_bits", [m; a] => m =? a
  | _, _, _ => true
  end.

(* what IEEE arithmetic does in 0 - a, in every rounding mode, for the a of
   lane_dom *)
Definition sub_from_zero (F : fpu) : Prop :=
  forall a, word a -> a <> 0 -> nan a = false -> f_sub F 0 a = (a + 2 ^ 31) mod 2 ^ 32.

(* the words of the arguments in lane j; a scalar argument is the same in all *)
Definition column (j : nat) (args : list (list Z)) : list Z :=
  map (fun a => match a with [w] => w | _ => nth j a 0 end) args.

(* arguments as the parameters ask for *)
Definition good_args (f : fn) (args : list (list Z)) : Prop :=
  Forall2 (fun p a => List.length a = snd p /\ Forall word a) (f_params f) args.

(* all names *)
Definition op_names : list string :=
  ["int +"; "int -"; "int *"; "int /"; "int %"; "int <<"; "int >>"; "int ^"; "int &"; "int |";
   "int +="; "int -="; "int *="; "int /="; "int %="; "int <<="; "int >>="; "int ^="; "int &="; "int |="; "int =";
   "int <"; "int >"; "int =="; "int !="; "int <="; "int >="; "int &&"; "int ||";
   "int unary+"; "int unary-"; "int !"; "int ~"; "int pre++"; "int pre--"; "int post++"; "int post--"; "int abs";
   "int from copy"; "int from mixed"; "int from scalar"; "czero"; "notczero"; "merge";
   "float +"; "float -"; "float *"; "float /"; "float +="; "float -="; "float *="; "float /="; "float =";
   "float <"; "float >"; "float =="; "float !="; "float <="; "float >="; "float &&"; "float ||";
   "float unary+"; "float unary-"; "float !"; "float pre++"; "float pre--"; "float post++"; "float post--";
   "float from copy"; "float from mixed"; "float from scalar"; "fabs"; "sqrt"; "copysign";
   "acos"; "asin"; "atan"; "atan2"; "ceil"; "cos"; "cosh"; "exp"; "floor"; "fmod"; "log"; "log10"; "pow";
   "sin"; "sinh"; "tan"; "tanh"; "rsqrt_approx"; "rsqrt"; "rcp_approx"; "rcp"; "fma"; "fms"; "fnms";
   "clear_bits"; "set_bits"; "toggle_bits"; "increment"; "decrement"; "scale"].

(* ---- the functions that are not lane by lane ------------------------------ *)

(* (1 +- x)(1 +- y)(1 +- z): the plus signs given *)
Definition pm (F : fpu) (plus : bool) (x : Z) : Z := if plus then f_add F f1 x else f_sub F f1 x.
Definition tri_weight (F : fpu) (sx sy sz : bool) (x y z : Z) : Z :=
  f_mul F (f_mul F (pm F sx x) (pm F sy y)) (pm F sz z).
(* lane by lane: the low and the high half of the eight weights *)
Definition tri_rows (F : fpu) (x y z : Z) : list (list Z) :=
  map (fun p => [tri_weight F (fst p) (snd p) false x y z; tri_weight F (fst p) (snd p) true x y z])
      [(false, false); (true, false); (false, true); (true, true)].

(* ---- accuracy --------------------------------------------------------------- *)

Definition real (a : Z) : R := B2R 24 128 (b32_of_bits a).
(* r is the exact result x rounded to 24 bits, without under- or overflow *)
Definition rounded (r : Z) (x : R) : Prop :=
  exists d : R, (Rabs d <= / 16777216)%R /\ real r = (x * (1 + d))%R.
(* the estimates that _mm_rcp_ps and _mm_rsqrt_ps give: 1.5 * 2^-12 *)
Definition est : R := (3 / 8192)%R.
Definition finite (a : Z) : bool := is_finite 24 128 (b32_of_bits a).

(* What is asked of the machine for the accuracy of rcp and rsqrt of a from
   the estimate b: the estimate is an estimate, 2b and c/2 are exact, every
   other operation rounds. *)
Definition rcp_ops (F : fpu) (fma : bool) (a b : Z) : Prop :=
  real a <> 0%R /\ (exists e, (Rabs e <= est)%R /\ real b = (/ real a * (1 + e))%R) /\
  real (f_add F b b) = (2 * real b)%R /\ rounded (f_mul F b b) (real b * real b) /\
  if fma then rounded (f_fnmadd F a (f_mul F b b) (f_add F b b))
                      (real (f_add F b b) - real a * real (f_mul F b b))
  else rounded (f_mul F a (f_mul F b b)) (real a * real (f_mul F b b)) /\
       rounded (f_sub F (f_add F b b) (f_mul F a (f_mul F b b)))
               (real (f_add F b b) - real (f_mul F a (f_mul F b b))).
Definition rsqrt_ops (F : fpu) (fma : bool) (a b : Z) : Prop :=
  (0 < real a)%R /\ (exists e, (Rabs e <= est)%R /\ real b = (/ sqrt (real a) * (1 + e))%R) /\
  let bb := f_mul F b b in let bbb := f_mul F b bb in
  rounded bb (real b * real b) /\ rounded bbb (real b * real bb) /\
  if fma then let t := f_fnmadd F a bbb b in
              rounded t (real b - real a * real bbb) /\ rounded (f_fmadd F fhalf t b) (1 / 2 * real t + real b)
  else let ab := f_mul F a bbb in let t := f_sub F b ab in
       rounded ab (real a * real bbb) /\ rounded t (real b - real ab) /\
       real (f_mul F fhalf t) = (1 / 2 * real t)%R /\
       rounded (f_add F b (f_mul F fhalf t)) (real b + real (f_mul F fhalf t)).

(* ---- where lane_dom leaves a function out ----------------------------------- *)
Definition departures : list (hdr * string) :=
  map (fun h => (h, "float !")) [V4portable; V4neon; V8portable; V16portable; V16avx512] ++
  flat_map (fun h => [(h, "float !="); (h, "float &&"); (h, "float ||")]) [V8avx; V8avx2] ++
  map (fun h => (h, "float unary-")) [V4sse; V4avx; V4avx2; V8avx; V8avx2; V16avx512] ++
  map (fun h => (h, "copysign")) [V4portable; V4neon; V8portable; V16portable] ++
  [(V4neon, "clear_bits")].
