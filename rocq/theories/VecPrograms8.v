(* The memory operations of the eight-wide vectors, transcribed from the headers named
   with each definition (the language is that of VecModel.v). *)
From Coq Require Import List String.
From Verif Require Import VecModel.
Import ListNotations.
Open Scope string_scope.

(* ---- /repo/src/util/v8/v8_portable.h ---- *)
(* v8_portable.h:233-243 *)
Definition p8_swap : list stmt :=
  [Sw 8 "a" 0 "b" 0; Sw 8 "a" 1 "b" 1; Sw 8 "a" 2 "b" 2; Sw 8 "a" 3 "b" 3; Sw 8 "a" 4 "b" 4; Sw 8 "a" 5 "b" 5;
   Sw 8 "a" 6 "b" 6; Sw 8 "a" 7 "b" 7].
(* v8_portable.h:245-255 *)
Definition p8_transpose : list stmt :=
  [Sw 8 "a0" 1 "a1" 0; Sw 8 "a0" 2 "a2" 0; Sw 8 "a0" 3 "a3" 0; Sw 8 "a0" 4 "a4" 0; Sw 8 "a0" 5 "a5" 0;
   Sw 8 "a0" 6 "a6" 0; Sw 8 "a0" 7 "a7" 0; Sw 8 "a1" 2 "a2" 1; Sw 8 "a1" 3 "a3" 1; Sw 8 "a1" 4 "a4" 1;
   Sw 8 "a1" 5 "a5" 1; Sw 8 "a1" 6 "a6" 1; Sw 8 "a1" 7 "a7" 1; Sw 8 "a2" 3 "a3" 2; Sw 8 "a2" 4 "a4" 2;
   Sw 8 "a2" 5 "a5" 2; Sw 8 "a2" 6 "a6" 2; Sw 8 "a2" 7 "a7" 2; Sw 8 "a3" 4 "a4" 3; Sw 8 "a3" 5 "a5" 3;
   Sw 8 "a3" 6 "a6" 3; Sw 8 "a3" 7 "a7" 3; Sw 8 "a4" 5 "a5" 4; Sw 8 "a4" 6 "a6" 4; Sw 8 "a4" 7 "a7" 4;
   Sw 8 "a5" 6 "a6" 5; Sw 8 "a5" 7 "a7" 5; Sw 8 "a6" 7 "a7" 6].
(* v8_portable.h:261-272 *)
Definition p8_load_8x1 : list stmt :=
  [LIn 8 "a" 0 "p" 0; LIn 8 "a" 1 "p" 1; LIn 8 "a" 2 "p" 2; LIn 8 "a" 3 "p" 3; LIn 8 "a" 4 "p" 4; LIn 8 "a" 5 "p" 5;
   LIn 8 "a" 6 "p" 6; LIn 8 "a" 7 "p" 7].
(* v8_portable.h:274-285 *)
Definition p8_store_8x1 : list stmt :=
  [LOut "p" 0 "a" 0; LOut "p" 1 "a" 1; LOut "p" 2 "a" 2; LOut "p" 3 "a" 3; LOut "p" 4 "a" 4; LOut "p" 5 "a" 5;
   LOut "p" 6 "a" 6; LOut "p" 7 "a" 7].
(* v8_portable.h:287-298 *)
Definition p8_stream_8x1 : list stmt := p8_store_8x1.
(* v8_portable.h:300-310 *)
Definition p8_clear_8x1 : list stmt :=
  [Clr "p" 0; Clr "p" 1; Clr "p" 2; Clr "p" 3; Clr "p" 4; Clr "p" 5; Clr "p" 6; Clr "p" 7].
(* v8_portable.h:313-324 *)
Definition p8_copy_8x1 : list stmt :=
  [Cp "dst" 0 "src" 0; Cp "dst" 1 "src" 1; Cp "dst" 2 "src" 2; Cp "dst" 3 "src" 3; Cp "dst" 4 "src" 4;
   Cp "dst" 5 "src" 5; Cp "dst" 6 "src" 6; Cp "dst" 7 "src" 7].
(* v8_portable.h:326-362 *)
Definition p8_swap_8x1 : list stmt :=
  [LIn 1 "t" 0 "a" 0; Cp "a" 0 "b" 0; LOut "b" 0 "t" 0; LIn 1 "t" 0 "a" 1; Cp "a" 1 "b" 1; LOut "b" 1 "t" 0;
   LIn 1 "t" 0 "a" 2; Cp "a" 2 "b" 2; LOut "b" 2 "t" 0; LIn 1 "t" 0 "a" 3; Cp "a" 3 "b" 3; LOut "b" 3 "t" 0;
   LIn 1 "t" 0 "a" 4; Cp "a" 4 "b" 4; LOut "b" 4 "t" 0; LIn 1 "t" 0 "a" 5; Cp "a" 5 "b" 5; LOut "b" 5 "t" 0;
   LIn 1 "t" 0 "a" 6; Cp "a" 6 "b" 6; LOut "b" 6 "t" 0; LIn 1 "t" 0 "a" 7; Cp "a" 7 "b" 7; LOut "b" 7 "t" 0].
(* v8_portable.h:366-380 *)
Definition p8_load_8x1_tr : list stmt :=
  [LIn 8 "a" 0 "a0" 0; LIn 8 "a" 1 "a1" 0; LIn 8 "a" 2 "a2" 0; LIn 8 "a" 3 "a3" 0; LIn 8 "a" 4 "a4" 0;
   LIn 8 "a" 5 "a5" 0; LIn 8 "a" 6 "a6" 0; LIn 8 "a" 7 "a7" 0].
(* v8_portable.h:382-415 *)
Definition p8_load_8x2_tr : list stmt :=
  [LIn 8 "a" 0 "a0" 0; LIn 8 "b" 0 "a0" 1; LIn 8 "a" 1 "a1" 0; LIn 8 "b" 1 "a1" 1; LIn 8 "a" 2 "a2" 0;
   LIn 8 "b" 2 "a2" 1; LIn 8 "a" 3 "a3" 0; LIn 8 "b" 3 "a3" 1; LIn 8 "a" 4 "a4" 0; LIn 8 "b" 4 "a4" 1;
   LIn 8 "a" 5 "a5" 0; LIn 8 "b" 5 "a5" 1; LIn 8 "a" 6 "a6" 0; LIn 8 "b" 6 "a6" 1; LIn 8 "a" 7 "a7" 0;
   LIn 8 "b" 7 "a7" 1].
(* v8_portable.h:417-458 *)
Definition p8_load_8x3_tr : list stmt :=
  [LIn 8 "a" 0 "a0" 0; LIn 8 "b" 0 "a0" 1; LIn 8 "c" 0 "a0" 2; LIn 8 "a" 1 "a1" 0; LIn 8 "b" 1 "a1" 1;
   LIn 8 "c" 1 "a1" 2; LIn 8 "a" 2 "a2" 0; LIn 8 "b" 2 "a2" 1; LIn 8 "c" 2 "a2" 2; LIn 8 "a" 3 "a3" 0;
   LIn 8 "b" 3 "a3" 1; LIn 8 "c" 3 "a3" 2; LIn 8 "a" 4 "a4" 0; LIn 8 "b" 4 "a4" 1; LIn 8 "c" 4 "a4" 2;
   LIn 8 "a" 5 "a5" 0; LIn 8 "b" 5 "a5" 1; LIn 8 "c" 5 "a5" 2; LIn 8 "a" 6 "a6" 0; LIn 8 "b" 6 "a6" 1;
   LIn 8 "c" 6 "a6" 2; LIn 8 "a" 7 "a7" 0; LIn 8 "b" 7 "a7" 1; LIn 8 "c" 7 "a7" 2].
(* v8_portable.h:460-509 *)
Definition p8_load_8x4_tr : list stmt :=
  [LIn 8 "a" 0 "a0" 0; LIn 8 "b" 0 "a0" 1; LIn 8 "c" 0 "a0" 2; LIn 8 "d" 0 "a0" 3; LIn 8 "a" 1 "a1" 0;
   LIn 8 "b" 1 "a1" 1; LIn 8 "c" 1 "a1" 2; LIn 8 "d" 1 "a1" 3; LIn 8 "a" 2 "a2" 0; LIn 8 "b" 2 "a2" 1;
   LIn 8 "c" 2 "a2" 2; LIn 8 "d" 2 "a2" 3; LIn 8 "a" 3 "a3" 0; LIn 8 "b" 3 "a3" 1; LIn 8 "c" 3 "a3" 2;
   LIn 8 "d" 3 "a3" 3; LIn 8 "a" 4 "a4" 0; LIn 8 "b" 4 "a4" 1; LIn 8 "c" 4 "a4" 2; LIn 8 "d" 4 "a4" 3;
   LIn 8 "a" 5 "a5" 0; LIn 8 "b" 5 "a5" 1; LIn 8 "c" 5 "a5" 2; LIn 8 "d" 5 "a5" 3; LIn 8 "a" 6 "a6" 0;
   LIn 8 "b" 6 "a6" 1; LIn 8 "c" 6 "a6" 2; LIn 8 "d" 6 "a6" 3; LIn 8 "a" 7 "a7" 0; LIn 8 "b" 7 "a7" 1;
   LIn 8 "c" 7 "a7" 2; LIn 8 "d" 7 "a7" 3].
(* v8_portable.h:511-593 *)
Definition p8_load_8x8_tr : list stmt :=
  [LIn 8 "a" 0 "a0" 0; LIn 8 "b" 0 "a0" 1; LIn 8 "c" 0 "a0" 2; LIn 8 "d" 0 "a0" 3; LIn 8 "e" 0 "a0" 4;
   LIn 8 "f" 0 "a0" 5; LIn 8 "g" 0 "a0" 6; LIn 8 "h" 0 "a0" 7; LIn 8 "a" 1 "a1" 0; LIn 8 "b" 1 "a1" 1;
   LIn 8 "c" 1 "a1" 2; LIn 8 "d" 1 "a1" 3; LIn 8 "e" 1 "a1" 4; LIn 8 "f" 1 "a1" 5; LIn 8 "g" 1 "a1" 6;
   LIn 8 "h" 1 "a1" 7; LIn 8 "a" 2 "a2" 0; LIn 8 "b" 2 "a2" 1; LIn 8 "c" 2 "a2" 2; LIn 8 "d" 2 "a2" 3;
   LIn 8 "e" 2 "a2" 4; LIn 8 "f" 2 "a2" 5; LIn 8 "g" 2 "a2" 6; LIn 8 "h" 2 "a2" 7; LIn 8 "a" 3 "a3" 0;
   LIn 8 "b" 3 "a3" 1; LIn 8 "c" 3 "a3" 2; LIn 8 "d" 3 "a3" 3; LIn 8 "e" 3 "a3" 4; LIn 8 "f" 3 "a3" 5;
   LIn 8 "g" 3 "a3" 6; LIn 8 "h" 3 "a3" 7; LIn 8 "a" 4 "a4" 0; LIn 8 "b" 4 "a4" 1; LIn 8 "c" 4 "a4" 2;
   LIn 8 "d" 4 "a4" 3; LIn 8 "e" 4 "a4" 4; LIn 8 "f" 4 "a4" 5; LIn 8 "g" 4 "a4" 6; LIn 8 "h" 4 "a4" 7;
   LIn 8 "a" 5 "a5" 0; LIn 8 "b" 5 "a5" 1; LIn 8 "c" 5 "a5" 2; LIn 8 "d" 5 "a5" 3; LIn 8 "e" 5 "a5" 4;
   LIn 8 "f" 5 "a5" 5; LIn 8 "g" 5 "a5" 6; LIn 8 "h" 5 "a5" 7; LIn 8 "a" 6 "a6" 0; LIn 8 "b" 6 "a6" 1;
   LIn 8 "c" 6 "a6" 2; LIn 8 "d" 6 "a6" 3; LIn 8 "e" 6 "a6" 4; LIn 8 "f" 6 "a6" 5; LIn 8 "g" 6 "a6" 6;
   LIn 8 "h" 6 "a6" 7; LIn 8 "a" 7 "a7" 0; LIn 8 "b" 7 "a7" 1; LIn 8 "c" 7 "a7" 2; LIn 8 "d" 7 "a7" 3;
   LIn 8 "e" 7 "a7" 4; LIn 8 "f" 7 "a7" 5; LIn 8 "g" 7 "a7" 6; LIn 8 "h" 7 "a7" 7].
(* v8_portable.h:595-607 *)
Definition p8_store_8x1_tr : list stmt :=
  [LOut "a0" 0 "a" 0; LOut "a1" 0 "a" 1; LOut "a2" 0 "a" 2; LOut "a3" 0 "a" 3; LOut "a4" 0 "a" 4; LOut "a5" 0 "a" 5;
   LOut "a6" 0 "a" 6; LOut "a7" 0 "a" 7].
(* v8_portable.h:609-638 *)
Definition p8_store_8x2_tr : list stmt :=
  [LOut "a0" 0 "a" 0; LOut "a0" 1 "b" 0; LOut "a1" 0 "a" 1; LOut "a1" 1 "b" 1; LOut "a2" 0 "a" 2; LOut "a2" 1 "b" 2;
   LOut "a3" 0 "a" 3; LOut "a3" 1 "b" 3; LOut "a4" 0 "a" 4; LOut "a4" 1 "b" 4; LOut "a5" 0 "a" 5; LOut "a5" 1 "b" 5;
   LOut "a6" 0 "a" 6; LOut "a6" 1 "b" 6; LOut "a7" 0 "a" 7; LOut "a7" 1 "b" 7].
(* v8_portable.h:640-677 *)
Definition p8_store_8x3_tr : list stmt :=
  [LOut "a0" 0 "a" 0; LOut "a0" 1 "b" 0; LOut "a0" 2 "c" 0; LOut "a1" 0 "a" 1; LOut "a1" 1 "b" 1; LOut "a1" 2 "c" 1;
   LOut "a2" 0 "a" 2; LOut "a2" 1 "b" 2; LOut "a2" 2 "c" 2; LOut "a3" 0 "a" 3; LOut "a3" 1 "b" 3; LOut "a3" 2 "c" 3;
   LOut "a4" 0 "a" 4; LOut "a4" 1 "b" 4; LOut "a4" 2 "c" 4; LOut "a5" 0 "a" 5; LOut "a5" 1 "b" 5; LOut "a5" 2 "c" 5;
   LOut "a6" 0 "a" 6; LOut "a6" 1 "b" 6; LOut "a6" 2 "c" 6; LOut "a7" 0 "a" 7; LOut "a7" 1 "b" 7; LOut "a7" 2 "c" 7].
(* v8_portable.h:679-724 *)
Definition p8_store_8x4_tr : list stmt :=
  [LOut "a0" 0 "a" 0; LOut "a0" 1 "b" 0; LOut "a0" 2 "c" 0; LOut "a0" 3 "d" 0; LOut "a1" 0 "a" 1; LOut "a1" 1 "b" 1;
   LOut "a1" 2 "c" 1; LOut "a1" 3 "d" 1; LOut "a2" 0 "a" 2; LOut "a2" 1 "b" 2; LOut "a2" 2 "c" 2; LOut "a2" 3 "d" 2;
   LOut "a3" 0 "a" 3; LOut "a3" 1 "b" 3; LOut "a3" 2 "c" 3; LOut "a3" 3 "d" 3; LOut "a4" 0 "a" 4; LOut "a4" 1 "b" 4;
   LOut "a4" 2 "c" 4; LOut "a4" 3 "d" 4; LOut "a5" 0 "a" 5; LOut "a5" 1 "b" 5; LOut "a5" 2 "c" 5; LOut "a5" 3 "d" 5;
   LOut "a6" 0 "a" 6; LOut "a6" 1 "b" 6; LOut "a6" 2 "c" 6; LOut "a6" 3 "d" 6; LOut "a7" 0 "a" 7; LOut "a7" 1 "b" 7;
   LOut "a7" 2 "c" 7; LOut "a7" 3 "d" 7].
(* v8_portable.h:726-804 *)
Definition p8_store_8x8_tr : list stmt :=
  [LOut "a0" 0 "a" 0; LOut "a0" 1 "b" 0; LOut "a0" 2 "c" 0; LOut "a0" 3 "d" 0; LOut "a0" 4 "e" 0; LOut "a0" 5 "f" 0;
   LOut "a0" 6 "g" 0; LOut "a0" 7 "h" 0; LOut "a1" 0 "a" 1; LOut "a1" 1 "b" 1; LOut "a1" 2 "c" 1; LOut "a1" 3 "d" 1;
   LOut "a1" 4 "e" 1; LOut "a1" 5 "f" 1; LOut "a1" 6 "g" 1; LOut "a1" 7 "h" 1; LOut "a2" 0 "a" 2; LOut "a2" 1 "b" 2;
   LOut "a2" 2 "c" 2; LOut "a2" 3 "d" 2; LOut "a2" 4 "e" 2; LOut "a2" 5 "f" 2; LOut "a2" 6 "g" 2; LOut "a2" 7 "h" 2;
   LOut "a3" 0 "a" 3; LOut "a3" 1 "b" 3; LOut "a3" 2 "c" 3; LOut "a3" 3 "d" 3; LOut "a3" 4 "e" 3; LOut "a3" 5 "f" 3;
   LOut "a3" 6 "g" 3; LOut "a3" 7 "h" 3; LOut "a4" 0 "a" 4; LOut "a4" 1 "b" 4; LOut "a4" 2 "c" 4; LOut "a4" 3 "d" 4;
   LOut "a4" 4 "e" 4; LOut "a4" 5 "f" 4; LOut "a4" 6 "g" 4; LOut "a4" 7 "h" 4; LOut "a5" 0 "a" 5; LOut "a5" 1 "b" 5;
   LOut "a5" 2 "c" 5; LOut "a5" 3 "d" 5; LOut "a5" 4 "e" 5; LOut "a5" 5 "f" 5; LOut "a5" 6 "g" 5; LOut "a5" 7 "h" 5;
   LOut "a6" 0 "a" 6; LOut "a6" 1 "b" 6; LOut "a6" 2 "c" 6; LOut "a6" 3 "d" 6; LOut "a6" 4 "e" 6; LOut "a6" 5 "f" 6;
   LOut "a6" 6 "g" 6; LOut "a6" 7 "h" 6; LOut "a7" 0 "a" 7; LOut "a7" 1 "b" 7; LOut "a7" 2 "c" 7; LOut "a7" 3 "d" 7;
   LOut "a7" 4 "e" 7; LOut "a7" 5 "f" 7; LOut "a7" 6 "g" 7; LOut "a7" 7 "h" 7].

(* ---- /repo/src/util/v8/v8_avx.h ---- *)
(* v8_avx.h:232-239 *)
Definition avx_swap8 : list stmt :=
  ["a_v" ::= "a"; "a" ::= "b"; "b" ::= "a_v"].
(* v8_avx.h:241-274 *)
Definition avx_transpose8 : list stmt :=
  ["t0" ::= Ulo "a0" "a1"; "t1" ::= Uhi "a0" "a1"; "t2" ::= Ulo "a2" "a3"; "t3" ::= Uhi "a2" "a3";
   "t4" ::= Ulo "a4" "a5"; "t5" ::= Uhi "a4" "a5"; "t6" ::= Ulo "a6" "a7"; "t7" ::= Uhi "a6" "a7";
   "u0" ::= Shuf "t0" "t2" (mm_shuffle 1 0 1 0); "u1" ::= Shuf "t0" "t2" (mm_shuffle 3 2 3 2);
   "u2" ::= Shuf "t1" "t3" (mm_shuffle 1 0 1 0); "u3" ::= Shuf "t1" "t3" (mm_shuffle 3 2 3 2);
   "u4" ::= Shuf "t4" "t6" (mm_shuffle 1 0 1 0); "u5" ::= Shuf "t4" "t6" (mm_shuffle 3 2 3 2);
   "u6" ::= Shuf "t5" "t7" (mm_shuffle 1 0 1 0); "u7" ::= Shuf "t5" "t7" (mm_shuffle 3 2 3 2);
   "a0" ::= P2f "u0" "u4" 32; "a1" ::= P2f "u1" "u5" 32; "a2" ::= P2f "u2" "u6" 32; "a3" ::= P2f "u3" "u7" 32;
   "a4" ::= P2f "u0" "u4" 49; "a5" ::= P2f "u1" "u5" 49; "a6" ::= P2f "u2" "u6" 49; "a7" ::= P2f "u3" "u7" 49].
(* v8_avx.h:278-289 *)
Definition avx_load_8x1 : list stmt := p8_load_8x1.
(* v8_avx.h:291-302 *)
Definition avx_store_8x1 : list stmt := p8_store_8x1.
(* v8_avx.h:304-315 *)
Definition avx_stream_8x1 : list stmt := p8_store_8x1.
(* v8_avx.h:317-327 *)
Definition avx_clear_8x1 : list stmt := p8_clear_8x1.
(* v8_avx.h:330-341 *)
Definition avx_copy_8x1 : list stmt := p8_copy_8x1.
(* v8_avx.h:343-379 *)
Definition avx_swap_8x1 : list stmt := p8_swap_8x1.
(* v8_avx.h:383-397 *)
Definition avx_load_8x1_tr : list stmt := p8_load_8x1_tr.
(* v8_avx.h:399-425 *)
Definition avx_load_8x2_tr : list stmt :=
  ["zero" ::= Zero 4; "t0" ::= LdH (LdL "zero" "a0") "a1"; "t1" ::= LdH (LdL "zero" "a2") "a3";
   "t2" ::= LdH (LdL "zero" "a4") "a5"; "t3" ::= LdH (LdL "zero" "a6") "a7"; "u0" ::= SetM "t2" "t0";
   "u1" ::= SetM "t3" "t1"; "a" ::= Shuf "u0" "u1" (mm_shuffle 2 0 2 0); "b" ::= Shuf "u0" "u1" (mm_shuffle 3 1 3 1)].
(* v8_avx.h:427-468 *)
Definition avx_load_8x3_tr : list stmt := p8_load_8x3_tr.
(* v8_avx.h:470-500 *)
Definition avx_load_8x4_tr : list stmt :=
  ["a" ::= SetM (Ld 4 "a4") (Ld 4 "a0"); "b" ::= SetM (Ld 4 "a5") (Ld 4 "a1"); "c" ::= SetM (Ld 4 "a6") (Ld 4 "a2");
   "d" ::= SetM (Ld 4 "a7") (Ld 4 "a3"); "tmp0" ::= Shuf "a" "b" 68; "tmp2" ::= Shuf "a" "b" 238;
   "tmp1" ::= Shuf "c" "d" 68; "tmp3" ::= Shuf "c" "d" 238; "a" ::= Shuf "tmp0" "tmp1" 136;
   "b" ::= Shuf "tmp0" "tmp1" 221; "c" ::= Shuf "tmp2" "tmp3" 136; "d" ::= Shuf "tmp2" "tmp3" 221].
(* v8_avx.h:502-552 *)
Definition avx_load_8x8_tr : list stmt :=
  ["a" ::= Ld 8 "a0"; "b" ::= Ld 8 "a1"; "c" ::= Ld 8 "a2"; "d" ::= Ld 8 "a3"; "e" ::= Ld 8 "a4"; "f" ::= Ld 8 "a5";
   "g" ::= Ld 8 "a6"; "h" ::= Ld 8 "a7"; "t0" ::= Ulo "a" "b"; "t1" ::= Uhi "a" "b"; "t2" ::= Ulo "c" "d";
   "t3" ::= Uhi "c" "d"; "t4" ::= Ulo "e" "f"; "t5" ::= Uhi "e" "f"; "t6" ::= Ulo "g" "h"; "t7" ::= Uhi "g" "h";
   "u0" ::= Shuf "t0" "t2" (mm_shuffle 1 0 1 0); "u1" ::= Shuf "t0" "t2" (mm_shuffle 3 2 3 2);
   "u2" ::= Shuf "t1" "t3" (mm_shuffle 1 0 1 0); "u3" ::= Shuf "t1" "t3" (mm_shuffle 3 2 3 2);
   "u4" ::= Shuf "t4" "t6" (mm_shuffle 1 0 1 0); "u5" ::= Shuf "t4" "t6" (mm_shuffle 3 2 3 2);
   "u6" ::= Shuf "t5" "t7" (mm_shuffle 1 0 1 0); "u7" ::= Shuf "t5" "t7" (mm_shuffle 3 2 3 2);
   "a" ::= P2f "u0" "u4" 32; "b" ::= P2f "u1" "u5" 32; "c" ::= P2f "u2" "u6" 32; "d" ::= P2f "u3" "u7" 32;
   "e" ::= P2f "u0" "u4" 49; "f" ::= P2f "u1" "u5" 49; "g" ::= P2f "u2" "u6" 49; "h" ::= P2f "u3" "u7" 49].
(* v8_avx.h:554-566 *)
Definition avx_store_8x1_tr : list stmt := p8_store_8x1_tr.
(* v8_avx.h:568-596 *)
Definition avx_store_8x2_tr : list stmt :=
  ["u0" ::= Ulo "a" "b"; "u1" ::= Uhi "a" "b"; "t0" ::= Ext "u0" 0; "t1" ::= Ext "u1" 0; "t2" ::= Ext "u0" 1;
   "t3" ::= Ext "u1" 1; StL "a0" "t0"; StH "a1" "t0"; StL "a2" "t1"; StH "a3" "t1"; StL "a4" "t2"; StH "a5" "t2";
   StL "a6" "t3"; StH "a7" "t3"].
(* v8_avx.h:598-635 *)
Definition avx_store_8x3_tr : list stmt := p8_store_8x3_tr.
(* v8_avx.h:637-675 *)
Definition avx_store_8x4_tr : list stmt :=
  ["u0" ::= Ulo "a" "b"; "u1" ::= Ulo "c" "d"; "u2" ::= Uhi "a" "b"; "u3" ::= Uhi "c" "d";
   "t0" ::= Shuf "u0" "u1" (mm_shuffle 1 0 1 0); "t1" ::= Shuf "u0" "u1" (mm_shuffle 3 2 3 2);
   "t2" ::= Shuf "u2" "u3" (mm_shuffle 1 0 1 0); "t3" ::= Shuf "u2" "u3" (mm_shuffle 3 2 3 2); "s0" ::= Ext "t0" 0;
   "s1" ::= Ext "t1" 0; "s2" ::= Ext "t2" 0; "s3" ::= Ext "t3" 0; "s4" ::= Ext "t0" 1; "s5" ::= Ext "t1" 1;
   "s6" ::= Ext "t2" 1; "s7" ::= Ext "t3" 1; St 4 "a0" "s0"; St 4 "a1" "s1"; St 4 "a2" "s2"; St 4 "a3" "s3";
   St 4 "a4" "s4"; St 4 "a5" "s5"; St 4 "a6" "s6"; St 4 "a7" "s7"].
(* v8_avx.h:677-723 *)
Definition avx_store_8x8_tr : list stmt :=
  ["t0" ::= Ulo "a" "b"; "t1" ::= Uhi "a" "b"; "t2" ::= Ulo "c" "d"; "t3" ::= Uhi "c" "d"; "t4" ::= Ulo "e" "f";
   "t5" ::= Uhi "e" "f"; "t6" ::= Ulo "g" "h"; "t7" ::= Uhi "g" "h"; "u0" ::= Shuf "t0" "t2" (mm_shuffle 1 0 1 0);
   "u1" ::= Shuf "t0" "t2" (mm_shuffle 3 2 3 2); "u2" ::= Shuf "t1" "t3" (mm_shuffle 1 0 1 0);
   "u3" ::= Shuf "t1" "t3" (mm_shuffle 3 2 3 2); "u4" ::= Shuf "t4" "t6" (mm_shuffle 1 0 1 0);
   "u5" ::= Shuf "t4" "t6" (mm_shuffle 3 2 3 2); "u6" ::= Shuf "t5" "t7" (mm_shuffle 1 0 1 0);
   "u7" ::= Shuf "t5" "t7" (mm_shuffle 3 2 3 2); "t0" ::= P2f "u0" "u4" 32; "t1" ::= P2f "u1" "u5" 32;
   "t2" ::= P2f "u2" "u6" 32; "t3" ::= P2f "u3" "u7" 32; "t4" ::= P2f "u0" "u4" 49; "t5" ::= P2f "u1" "u5" 49;
   "t6" ::= P2f "u2" "u6" 49; "t7" ::= P2f "u3" "u7" 49; St 8 "a0" "t0"; St 8 "a1" "t1"; St 8 "a2" "t2";
   St 8 "a3" "t3"; St 8 "a4" "t4"; St 8 "a5" "t5"; St 8 "a6" "t6"; St 8 "a7" "t7"].

(* ---- /repo/src/util/v8/v8_avx2.h ---- *)
(* v8_avx2.h:232-239 *)
Definition avx2_swap8 : list stmt := avx_swap8.
(* v8_avx2.h:241-274 *)
Definition avx2_transpose8 : list stmt := avx_transpose8.
(* v8_avx2.h:278-289 *)
Definition avx2_load_8x1 : list stmt := p8_load_8x1.
(* v8_avx2.h:291-302 *)
Definition avx2_store_8x1 : list stmt := p8_store_8x1.
(* v8_avx2.h:304-315 *)
Definition avx2_stream_8x1 : list stmt := p8_store_8x1.
(* v8_avx2.h:317-327 *)
Definition avx2_clear_8x1 : list stmt := p8_clear_8x1.
(* v8_avx2.h:330-341 *)
Definition avx2_copy_8x1 : list stmt := p8_copy_8x1.
(* v8_avx2.h:343-379 *)
Definition avx2_swap_8x1 : list stmt := p8_swap_8x1.
(* v8_avx2.h:383-397 *)
Definition avx2_load_8x1_tr : list stmt := p8_load_8x1_tr.
(* v8_avx2.h:399-425 *)
Definition avx2_load_8x2_tr : list stmt := avx_load_8x2_tr.
(* v8_avx2.h:466-507 *)
Definition avx2_load_8x3_tr : list stmt := p8_load_8x3_tr.
(* v8_avx2.h:509-539 *)
Definition avx2_load_8x4_tr : list stmt := avx_load_8x4_tr.
(* v8_avx2.h:542-590 *)
Definition avx2_load_8x8_tr : list stmt :=
  ["t0" ::= Ld 8 "a0"; "t1" ::= Ld 8 "a1"; "t2" ::= Ld 8 "a2"; "t3" ::= Ld 8 "a3"; "t4" ::= Ld 8 "a4";
   "t5" ::= Ld 8 "a5"; "t6" ::= Ld 8 "a6"; "t7" ::= Ld 8 "a7"; "b0" ::= Ulo "t0" "t1"; "b1" ::= Uhi "t0" "t1";
   "b2" ::= Ulo "t2" "t3"; "b3" ::= Uhi "t2" "t3"; "b4" ::= Ulo "t4" "t5"; "b5" ::= Uhi "t4" "t5";
   "b6" ::= Ulo "t6" "t7"; "b7" ::= Uhi "t6" "t7"; "t0" ::= Shuf "b0" "b2" (mm_shuffle 1 0 1 0);
   "t1" ::= Shuf "b0" "b2" (mm_shuffle 3 2 3 2); "t2" ::= Shuf "b1" "b3" (mm_shuffle 1 0 1 0);
   "t3" ::= Shuf "b1" "b3" (mm_shuffle 3 2 3 2); "t4" ::= Shuf "b4" "b6" (mm_shuffle 1 0 1 0);
   "t5" ::= Shuf "b4" "b6" (mm_shuffle 3 2 3 2); "t6" ::= Shuf "b5" "b7" (mm_shuffle 1 0 1 0);
   "t7" ::= Shuf "b5" "b7" (mm_shuffle 3 2 3 2); "b0" ::= P2f "t0" "t4" 32; "b1" ::= P2f "t1" "t5" 32;
   "b2" ::= P2f "t2" "t6" 32; "b3" ::= P2f "t3" "t7" 32; "b4" ::= P2f "t0" "t4" 49; "b5" ::= P2f "t1" "t5" 49;
   "b6" ::= P2f "t2" "t6" 49; "b7" ::= P2f "t3" "t7" 49].
(* v8_avx2.h:750-762 *)
Definition avx2_store_8x1_tr : list stmt := p8_store_8x1_tr.
(* v8_avx2.h:764-792 *)
Definition avx2_store_8x2_tr : list stmt := avx_store_8x2_tr.
(* v8_avx2.h:794-831 *)
Definition avx2_store_8x3_tr : list stmt := p8_store_8x3_tr.
(* v8_avx2.h:833-871 *)
Definition avx2_store_8x4_tr : list stmt := avx_store_8x4_tr.
(* v8_avx2.h:873-919 *)
Definition avx2_store_8x8_tr : list stmt := avx_store_8x8_tr.
