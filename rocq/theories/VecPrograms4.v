(* The memory operations of the four-wide vectors, transcribed from the headers named
   with each definition (the language is that of VecModel.v). *)
From Coq Require Import List String.
From Verif Require Import VecModel.
Import ListNotations.
Open Scope string_scope.

(* ---- /repo/src/util/v4/v4_portable.h ---- *)
(* v4_portable.h:181-187 *)
Definition p4_swap : list stmt :=
  [Sw 4 "a" 0 "b" 0; Sw 4 "a" 1 "b" 1; Sw 4 "a" 2 "b" 2; Sw 4 "a" 3 "b" 3].
(* v4_portable.h:189-194 *)
Definition p4_transpose : list stmt :=
  [Sw 4 "a0" 1 "a1" 0; Sw 4 "a0" 2 "a2" 0; Sw 4 "a0" 3 "a3" 0; Sw 4 "a1" 2 "a2" 1; Sw 4 "a1" 3 "a3" 1;
   Sw 4 "a2" 3 "a3" 2].
(* v4_portable.h:200-207 *)
Definition p4_load_4x1 : list stmt :=
  [LIn 4 "a" 0 "p" 0; LIn 4 "a" 1 "p" 1; LIn 4 "a" 2 "p" 2; LIn 4 "a" 3 "p" 3].
(* v4_portable.h:209-216 *)
Definition p4_store_4x1 : list stmt :=
  [LOut "p" 0 "a" 0; LOut "p" 1 "a" 1; LOut "p" 2 "a" 2; LOut "p" 3 "a" 3].
(* v4_portable.h:218-225 *)
Definition p4_stream_4x1 : list stmt := p4_store_4x1.
(* v4_portable.h:227-233 *)
Definition p4_clear_4x1 : list stmt :=
  [Clr "p" 0; Clr "p" 1; Clr "p" 2; Clr "p" 3].
(* v4_portable.h:235-242 *)
Definition p4_copy_4x1 : list stmt :=
  [Cp "dst" 0 "src" 0; Cp "dst" 1 "src" 1; Cp "dst" 2 "src" 2; Cp "dst" 3 "src" 3].
(* v4_portable.h:244-268 *)
Definition p4_swap_4x1 : list stmt :=
  [LIn 1 "t" 0 "a" 0; Cp "a" 0 "b" 0; LOut "b" 0 "t" 0; LIn 1 "t" 0 "a" 1; Cp "a" 1 "b" 1; LOut "b" 1 "t" 0;
   LIn 1 "t" 0 "a" 2; Cp "a" 2 "b" 2; LOut "b" 2 "t" 0; LIn 1 "t" 0 "a" 3; Cp "a" 3 "b" 3; LOut "b" 3 "t" 0].
(* v4_portable.h:272-282 *)
Definition p4_load_4x1_tr : list stmt :=
  [LIn 4 "a" 0 "a0" 0; LIn 4 "a" 1 "a1" 0; LIn 4 "a" 2 "a2" 0; LIn 4 "a" 3 "a3" 0].
(* v4_portable.h:284-302 *)
Definition p4_load_4x2_tr : list stmt :=
  [LIn 4 "a" 0 "a0" 0; LIn 4 "b" 0 "a0" 1; LIn 4 "a" 1 "a1" 0; LIn 4 "b" 1 "a1" 1; LIn 4 "a" 2 "a2" 0;
   LIn 4 "b" 2 "a2" 1; LIn 4 "a" 3 "a3" 0; LIn 4 "b" 3 "a3" 1].
(* v4_portable.h:304-327 *)
Definition p4_load_4x3_tr : list stmt :=
  [LIn 4 "a" 0 "a0" 0; LIn 4 "b" 0 "a0" 1; LIn 4 "c" 0 "a0" 2; LIn 4 "a" 1 "a1" 0; LIn 4 "b" 1 "a1" 1;
   LIn 4 "c" 1 "a1" 2; LIn 4 "a" 2 "a2" 0; LIn 4 "b" 2 "a2" 1; LIn 4 "c" 2 "a2" 2; LIn 4 "a" 3 "a3" 0;
   LIn 4 "b" 3 "a3" 1; LIn 4 "c" 3 "a3" 2].
(* v4_portable.h:329-357 *)
Definition p4_load_4x4_tr : list stmt :=
  [LIn 4 "a" 0 "a0" 0; LIn 4 "b" 0 "a0" 1; LIn 4 "c" 0 "a0" 2; LIn 4 "d" 0 "a0" 3; LIn 4 "a" 1 "a1" 0;
   LIn 4 "b" 1 "a1" 1; LIn 4 "c" 1 "a1" 2; LIn 4 "d" 1 "a1" 3; LIn 4 "a" 2 "a2" 0; LIn 4 "b" 2 "a2" 1;
   LIn 4 "c" 2 "a2" 2; LIn 4 "d" 2 "a2" 3; LIn 4 "a" 3 "a3" 0; LIn 4 "b" 3 "a3" 1; LIn 4 "c" 3 "a3" 2;
   LIn 4 "d" 3 "a3" 3].
(* v4_portable.h:359-369 *)
Definition p4_store_4x1_tr : list stmt :=
  [LOut "a0" 0 "a" 0; LOut "a1" 0 "a" 1; LOut "a2" 0 "a" 2; LOut "a3" 0 "a" 3].
(* v4_portable.h:371-389 *)
Definition p4_store_4x2_tr : list stmt :=
  [LOut "a0" 0 "a" 0; LOut "a0" 1 "b" 0; LOut "a1" 0 "a" 1; LOut "a1" 1 "b" 1; LOut "a2" 0 "a" 2; LOut "a2" 1 "b" 2;
   LOut "a3" 0 "a" 3; LOut "a3" 1 "b" 3].
(* v4_portable.h:391-414 *)
Definition p4_store_4x3_tr : list stmt :=
  [LOut "a0" 0 "a" 0; LOut "a0" 1 "b" 0; LOut "a0" 2 "c" 0; LOut "a1" 0 "a" 1; LOut "a1" 1 "b" 1; LOut "a1" 2 "c" 1;
   LOut "a2" 0 "a" 2; LOut "a2" 1 "b" 2; LOut "a2" 2 "c" 2; LOut "a3" 0 "a" 3; LOut "a3" 1 "b" 3; LOut "a3" 2 "c" 3].
(* v4_portable.h:416-444 *)
Definition p4_store_4x4_tr : list stmt :=
  [LOut "a0" 0 "a" 0; LOut "a0" 1 "b" 0; LOut "a0" 2 "c" 0; LOut "a0" 3 "d" 0; LOut "a1" 0 "a" 1; LOut "a1" 1 "b" 1;
   LOut "a1" 2 "c" 1; LOut "a1" 3 "d" 1; LOut "a2" 0 "a" 2; LOut "a2" 1 "b" 2; LOut "a2" 2 "c" 2; LOut "a2" 3 "d" 2;
   LOut "a3" 0 "a" 3; LOut "a3" 1 "b" 3; LOut "a3" 2 "c" 3; LOut "a3" 3 "d" 3].

(* ---- /repo/src/util/v4/v4_sse.h ---- *)
(* v4_sse.h:180-187 *)
Definition sse_swap : list stmt :=
  ["t" ::= "a"; "a" ::= "b"; "b" ::= "t"].
(* v4_sse.h:189-207 *)
Definition sse_transpose : list stmt :=
  ["a0_v" ::= "a0"; "a1_v" ::= "a1"; "a2_v" ::= "a2"; "a3_v" ::= "a3"; "t" ::= Uhi "a0_v" "a1_v";
   "a0_v" ::= Ulo "a0_v" "a1_v"; "u" ::= Uhi "a2_v" "a3_v"; "a2_v" ::= Ulo "a2_v" "a3_v";
   "a1_v" ::= Mhl "a2_v" "a0_v"; "a0_v" ::= Mlh "a0_v" "a2_v"; "a2_v" ::= Mlh "t" "u"; "a3_v" ::= Mhl "u" "t";
   "a0" ::= "a0_v"; "a1" ::= "a1_v"; "a2" ::= "a2_v"; "a3" ::= "a3_v"].
(* v4_sse.h:211-215 *)
Definition sse_load_4x1 : list stmt :=
  ["a" ::= Ld 4 "p"].
(* v4_sse.h:217-221 *)
Definition sse_store_4x1 : list stmt :=
  [St 4 "p" "a"].
(* v4_sse.h:223-227 *)
Definition sse_stream_4x1 : list stmt := sse_store_4x1.
(* v4_sse.h:229-232 *)
Definition sse_clear_4x1 : list stmt :=
  [St 4 "p" (Zero 4)].
(* v4_sse.h:234-238 *)
Definition sse_copy_4x1 : list stmt :=
  [St 4 "dst" (Ld 4 "src")].
(* v4_sse.h:240-247 *)
Definition sse_swap_4x1 : list stmt :=
  ["t" ::= Ld 4 "a"; St 4 "a" (Ld 4 "b"); St 4 "b" "t"].
(* v4_sse.h:251-261 *)
Definition sse_load_4x1_tr : list stmt :=
  ["a" ::= Setr [("a0", 0); ("a1", 0); ("a2", 0); ("a3", 0)]].
(* v4_sse.h:263-282 *)
Definition sse_load_4x2_tr : list stmt :=
  ["b_v" ::= Zero 4; "t" ::= LdH (LdL "b_v" "a0") "a1"; "b_v" ::= LdH (LdL "b_v" "a2") "a3";
   "a_v" ::= Shuf "t" "b_v" 136; "b_v" ::= Shuf "t" "b_v" 221; "a" ::= "a_v"; "b" ::= "b_v"].
(* v4_sse.h:284-312 *)
Definition sse_load_4x3_tr : list stmt :=
  ["t" ::= Ld 4 "a0"; "b_v" ::= Ld 4 "a1"; "c_v" ::= Ld 4 "a2"; "u" ::= Ld 4 "a3"; "a_v" ::= Ulo "t" "b_v";
   "b_v" ::= Uhi "t" "b_v"; "t" ::= Ulo "c_v" "u"; "u" ::= Uhi "c_v" "u"; "c_v" ::= Mlh "b_v" "u";
   "b_v" ::= Mhl "t" "a_v"; "a_v" ::= Mlh "a_v" "t"; "a" ::= "a_v"; "b" ::= "b_v"; "c" ::= "c_v"].
(* v4_sse.h:314-345 *)
Definition sse_load_4x4_tr : list stmt :=
  ["a_v" ::= Ld 4 "a0"; "b_v" ::= Ld 4 "a1"; "c_v" ::= Ld 4 "a2"; "d_v" ::= Ld 4 "a3"; "t" ::= Uhi "a_v" "b_v";
   "a_v" ::= Ulo "a_v" "b_v"; "u" ::= Uhi "c_v" "d_v"; "c_v" ::= Ulo "c_v" "d_v"; "b_v" ::= Mhl "c_v" "a_v";
   "a_v" ::= Mlh "a_v" "c_v"; "c_v" ::= Mlh "t" "u"; "d_v" ::= Mhl "u" "t"; "a" ::= "a_v"; "b" ::= "b_v";
   "c" ::= "c_v"; "d" ::= "d_v"].
(* v4_sse.h:347-357 *)
Definition sse_store_4x1_tr : list stmt := p4_store_4x1_tr.
(* v4_sse.h:359-377 *)
Definition sse_store_4x2_tr : list stmt :=
  ["a_v" ::= "a"; "b_v" ::= "b"; "t" ::= Ulo "a_v" "b_v"; StL "a0" "t"; StH "a1" "t"; "t" ::= Uhi "a_v" "b_v";
   StL "a2" "t"; StH "a3" "t"].
(* v4_sse.h:379-403 *)
Definition sse_store_4x3_tr : list stmt :=
  ["a_v" ::= "a"; "b_v" ::= "b"; "t" ::= Ulo "a_v" "b_v"; StL "a0" "t"; StH "a1" "t"; "t" ::= Uhi "a_v" "b_v";
   StL "a2" "t"; StH "a3" "t"; LOut "a0" 2 "c" 0; LOut "a1" 2 "c" 1; LOut "a2" 2 "c" 2; LOut "a3" 2 "c" 3].
(* v4_sse.h:405-430 *)
Definition sse_store_4x4_tr : list stmt :=
  ["a_v" ::= "a"; "b_v" ::= "b"; "c_v" ::= "c"; "d_v" ::= "d"; "t" ::= Uhi "a_v" "b_v"; "a_v" ::= Ulo "a_v" "b_v";
   "u" ::= Uhi "c_v" "d_v"; "c_v" ::= Ulo "c_v" "d_v"; "b_v" ::= Mhl "c_v" "a_v"; "a_v" ::= Mlh "a_v" "c_v";
   "c_v" ::= Mlh "t" "u"; "d_v" ::= Mhl "u" "t"; St 4 "a0" "a_v"; St 4 "a1" "b_v"; St 4 "a2" "c_v"; St 4 "a3" "d_v"].

(* ---- /repo/src/util/v4/v4_avx.h ---- *)
(* v4_avx.h:180-187 *)
Definition avx_swap4 : list stmt := sse_swap.
(* v4_avx.h:189-207 *)
Definition avx_transpose4 : list stmt := sse_transpose.
(* v4_avx.h:211-215 *)
Definition avx_load_4x1 : list stmt := sse_load_4x1.
(* v4_avx.h:217-221 *)
Definition avx_store_4x1 : list stmt := sse_store_4x1.
(* v4_avx.h:223-227 *)
Definition avx_stream_4x1 : list stmt := sse_store_4x1.
(* v4_avx.h:229-232 *)
Definition avx_clear_4x1 : list stmt := sse_clear_4x1.
(* v4_avx.h:234-238 *)
Definition avx_copy_4x1 : list stmt := sse_copy_4x1.
(* v4_avx.h:240-247 *)
Definition avx_swap_4x1 : list stmt := sse_swap_4x1.
(* v4_avx.h:251-261 *)
Definition avx_load_4x1_tr : list stmt := sse_load_4x1_tr.
(* v4_avx.h:263-279 *)
Definition avx_load_4x2_tr : list stmt :=
  ["b_v" ::= Zero 4; "t" ::= LdH (LdL "b_v" "a0") "a1"; "b_v" ::= LdH (LdL "b_v" "a2") "a3";
   "a" ::= Shuf "t" "b_v" 136; "b" ::= Shuf "t" "b_v" 221].
(* v4_avx.h:281-305 *)
Definition avx_load_4x3_tr : list stmt :=
  ["a" ::= Ld 4 "a0"; "b" ::= Ld 4 "a1"; "c" ::= Ld 4 "a2"; "d_v" ::= Ld 4 "a3"; "r" ::= Ulo "a" "b";
   "s" ::= Uhi "a" "b"; "t" ::= Ulo "c" "d_v"; "u" ::= Uhi "c" "d_v"; "a" ::= Mlh "r" "t"; "b" ::= Mhl "t" "r";
   "c" ::= Mlh "s" "u"].
(* v4_avx.h:307-333 *)
Definition avx_load_4x4_tr : list stmt :=
  ["a" ::= Ld 4 "a0"; "b" ::= Ld 4 "a1"; "c" ::= Ld 4 "a2"; "d" ::= Ld 4 "a3"; "r" ::= Uhi "a" "b";
   "s" ::= Ulo "a" "b"; "t" ::= Uhi "c" "d"; "u" ::= Ulo "c" "d"; "a" ::= Mlh "s" "u"; "b" ::= Mhl "u" "s";
   "c" ::= Mlh "r" "t"; "d" ::= Mhl "t" "r"].
(* v4_avx.h:335-345 *)
Definition avx_store_4x1_tr : list stmt := p4_store_4x1_tr.
(* v4_avx.h:347-365 *)
Definition avx_store_4x2_tr : list stmt :=
  ["t" ::= Ulo "a" "b"; StL "a0" "t"; StH "a1" "t"; "t" ::= Uhi "a" "b"; StL "a2" "t"; StH "a3" "t"].
(* v4_avx.h:367-391 *)
Definition avx_store_4x3_tr : list stmt :=
  ["t" ::= Ulo "a" "b"; StL "a0" "t"; StH "a1" "t"; "t" ::= Uhi "a" "b"; StL "a2" "t"; StH "a3" "t";
   LOut "a0" 2 "c" 0; LOut "a1" 2 "c" 1; LOut "a2" 2 "c" 2; LOut "a3" 2 "c" 3].
(* v4_avx.h:393-418 *)
Definition avx_store_4x4_tr : list stmt :=
  ["t" ::= Uhi "a" "b"; "a_v" ::= Ulo "a" "b"; "u" ::= Uhi "c" "d"; "c_v" ::= Ulo "c" "d"; "b_v" ::= Mhl "c_v" "a_v";
   "a_v" ::= Mlh "a_v" "c_v"; "c_v" ::= Mlh "t" "u"; "d_v" ::= Mhl "u" "t"; St 4 "a0" "a_v"; St 4 "a1" "b_v";
   St 4 "a2" "c_v"; St 4 "a3" "d_v"].

(* ---- /repo/src/util/v4/v4_avx2.h ---- *)
(* v4_avx2.h:180-187 *)
Definition avx2_swap4 : list stmt := sse_swap.
(* v4_avx2.h:189-207 *)
Definition avx2_transpose4 : list stmt := sse_transpose.
(* v4_avx2.h:211-215 *)
Definition avx2_load_4x1 : list stmt := sse_load_4x1.
(* v4_avx2.h:217-221 *)
Definition avx2_store_4x1 : list stmt := sse_store_4x1.
(* v4_avx2.h:223-227 *)
Definition avx2_stream_4x1 : list stmt := sse_store_4x1.
(* v4_avx2.h:229-232 *)
Definition avx2_clear_4x1 : list stmt := sse_clear_4x1.
(* v4_avx2.h:234-238 *)
Definition avx2_copy_4x1 : list stmt := sse_copy_4x1.
(* v4_avx2.h:240-247 *)
Definition avx2_swap_4x1 : list stmt := sse_swap_4x1.
(* v4_avx2.h:251-261 *)
Definition avx2_load_4x1_tr : list stmt := sse_load_4x1_tr.
(* v4_avx2.h:263-279 *)
Definition avx2_load_4x2_tr : list stmt := avx_load_4x2_tr.
(* v4_avx2.h:281-305 *)
Definition avx2_load_4x3_tr : list stmt := avx_load_4x3_tr.
(* v4_avx2.h:338-364 *)
Definition avx2_load_4x4_tr : list stmt := avx_load_4x4_tr.
(* v4_avx2.h:480-490 *)
Definition avx2_store_4x1_tr : list stmt := p4_store_4x1_tr.
(* v4_avx2.h:492-510 *)
Definition avx2_store_4x2_tr : list stmt := avx_store_4x2_tr.
(* v4_avx2.h:512-536 *)
Definition avx2_store_4x3_tr : list stmt := avx_store_4x3_tr.
(* v4_avx2.h:538-563 *)
Definition avx2_store_4x4_tr : list stmt := avx_store_4x4_tr.

(* ---- /repo/src/util/v4/v4_neon.h ---- *)
(* v4_neon.h:224-235 *)
Definition neon_swap : list stmt :=
  flat_map (fun j => [Sw 4 "a" j "b" j]) (seq 0 4).
(* v4_neon.h:238-250 *)
Definition neon_transpose : list stmt :=
  ["r.val0" ::= Trn1 "a0" "a1"; "r.val1" ::= Trn2 "a0" "a1"; "s.val0" ::= Trn1 "a2" "a3"; "s.val1" ::= Trn2 "a2" "a3";
   "a0" ::= Trn1d "r.val0" "s.val0"; "a2" ::= Trn2d "r.val0" "s.val0"; "a1" ::= Trn1d "r.val1" "s.val1";
   "a3" ::= Trn2d "r.val1" "s.val1"].
(* v4_neon.h:286-290 *)
Definition neon_load_4x1 : list stmt :=
  ["a" ::= Ldu 4 "p"].
(* v4_neon.h:292-296 *)
Definition neon_store_4x1 : list stmt :=
  [Stu "p" "a"].
(* v4_neon.h:298-304 *)
Definition neon_stream_4x1 : list stmt :=
  flat_map (fun j => [LOut "p" j "a" j]) (seq 0 4).
(* v4_neon.h:306-309 *)
Definition neon_clear_4x1 : list stmt :=
  [Stu "p" (Zero 4)].
(* v4_neon.h:311-315 *)
Definition neon_copy_4x1 : list stmt :=
  [Stu "dst" (Ldu 4 "src")].
(* v4_neon.h:317-324 *)
Definition neon_swap_4x1 : list stmt :=
  ["t" ::= Ldu 4 "a"; Stu "a" (Ldu 4 "b"); Stu "b" "t"].
(* v4_neon.h:328-338 *)
Definition neon_load_4x1_tr : list stmt := p4_load_4x1_tr.
(* v4_neon.h:340-362 *)
Definition neon_load_4x2_tr : list stmt :=
  ["a" ::= Ldu 4 "a0"; "b" ::= Ldu 4 "a1"; "a2_v" ::= Ldu 4 "a2"; "a3_v" ::= Ldu 4 "a3"; "r" ::= Trn1 "a" "b";
   "s" ::= Trn2 "a" "b"; "t" ::= Trn1 "a2_v" "a3_v"; "u" ::= Trn2 "a2_v" "a3_v"; "a" ::= Trn1d "r" "t";
   "b" ::= Trn1d "s" "u"].
(* v4_neon.h:364-388 *)
Definition neon_load_4x3_tr : list stmt :=
  ["a" ::= Ldu 4 "a0"; "b" ::= Ldu 4 "a1"; "c" ::= Ldu 4 "a2"; "d_v" ::= Ldu 4 "a3"; "r" ::= Trn1 "a" "b";
   "s" ::= Trn2 "a" "b"; "t" ::= Trn1 "c" "d_v"; "u" ::= Trn2 "c" "d_v"; "a" ::= Trn1d "r" "t"; "b" ::= Trn1d "s" "u";
   "c" ::= Trn2d "r" "t"].
(* v4_neon.h:390-416 *)
Definition neon_load_4x4_tr : list stmt :=
  ["a" ::= Ldu 4 "a0"; "b" ::= Ldu 4 "a1"; "c" ::= Ldu 4 "a2"; "d" ::= Ldu 4 "a3"; "r" ::= Trn1 "a" "b";
   "s" ::= Trn2 "a" "b"; "t" ::= Trn1 "c" "d"; "u" ::= Trn2 "c" "d"; "a" ::= Trn1d "r" "t"; "b" ::= Trn1d "s" "u";
   "c" ::= Trn2d "r" "t"; "d" ::= Trn2d "s" "u"].
(* v4_neon.h:419-444 *)
Definition neon_load_4x8_tr : list stmt :=
  ["mat0.val0" ::= Ld4 "a0" 0; "mat0.val1" ::= Ld4 "a0" 1; "mat0.val2" ::= Ld4 "a0" 2; "mat0.val3" ::= Ld4 "a0" 3;
   "mat2.val0" ::= Ld4 "a2" 0; "mat2.val1" ::= Ld4 "a2" 1; "mat2.val2" ::= Ld4 "a2" 2; "mat2.val3" ::= Ld4 "a2" 3;
   "b00" ::= Uzp1 "mat0.val0" "mat2.val0"; "b01" ::= Uzp1 "mat0.val1" "mat2.val1";
   "b02" ::= Uzp1 "mat0.val2" "mat2.val2"; "b03" ::= Uzp1 "mat0.val3" "mat2.val3";
   "b04" ::= Uzp2 "mat0.val0" "mat2.val0"; "b05" ::= Uzp2 "mat0.val1" "mat2.val1";
   "b06" ::= Uzp2 "mat0.val2" "mat2.val2"; "b07" ::= Uzp2 "mat0.val3" "mat2.val3"].
(* v4_neon.h:448-514 *)
Definition neon_load_4x16_tr : list stmt :=
  ["mat0.val0" ::= Ld4 "a0" 0; "mat0.val1" ::= Ld4 "a0" 1; "mat0.val2" ::= Ld4 "a0" 2; "mat0.val3" ::= Ld4 "a0" 3;
   "mat1.val0" ::= Ld4 "a1" 0; "mat1.val1" ::= Ld4 "a1" 1; "mat1.val2" ::= Ld4 "a1" 2; "mat1.val3" ::= Ld4 "a1" 3;
   "mat2.val0" ::= Ld4 "a2" 0; "mat2.val1" ::= Ld4 "a2" 1; "mat2.val2" ::= Ld4 "a2" 2; "mat2.val3" ::= Ld4 "a2" 3;
   "mat3.val0" ::= Ld4 "a3" 0; "mat3.val1" ::= Ld4 "a3" 1; "mat3.val2" ::= Ld4 "a3" 2; "mat3.val3" ::= Ld4 "a3" 3;
   "c00" ::= Uzp1 "mat0.val0" "mat1.val0"; "c01" ::= Uzp1 "mat0.val1" "mat1.val1";
   "c02" ::= Uzp1 "mat0.val2" "mat1.val2"; "c03" ::= Uzp1 "mat0.val3" "mat1.val3";
   "c04" ::= Uzp2 "mat0.val0" "mat1.val0"; "c05" ::= Uzp2 "mat0.val1" "mat1.val1";
   "c06" ::= Uzp2 "mat0.val2" "mat1.val2"; "c07" ::= Uzp2 "mat0.val3" "mat1.val3";
   "c08" ::= Uzp1 "mat2.val0" "mat3.val0"; "c09" ::= Uzp1 "mat2.val1" "mat3.val1";
   "c10" ::= Uzp1 "mat2.val2" "mat3.val2"; "c11" ::= Uzp1 "mat2.val3" "mat3.val3";
   "c12" ::= Uzp2 "mat2.val0" "mat3.val0"; "c13" ::= Uzp2 "mat2.val1" "mat3.val1";
   "c14" ::= Uzp2 "mat2.val2" "mat3.val2"; "c15" ::= Uzp2 "mat2.val3" "mat3.val3"; "b00" ::= Uzp1 "c00" "c08";
   "b01" ::= Uzp1 "c01" "c09"; "b02" ::= Uzp1 "c02" "c10"; "b03" ::= Uzp1 "c03" "c11"; "b04" ::= Uzp1 "c04" "c12";
   "b05" ::= Uzp1 "c05" "c13"; "b06" ::= Uzp1 "c06" "c14"; "b07" ::= Uzp1 "c07" "c15"; "b08" ::= Uzp2 "c00" "c08";
   "b09" ::= Uzp2 "c01" "c09"; "b10" ::= Uzp2 "c02" "c10"; "b11" ::= Uzp2 "c03" "c11"; "b12" ::= Uzp2 "c04" "c12";
   "b13" ::= Uzp2 "c05" "c13"; "b14" ::= Uzp2 "c06" "c14"; "b15" ::= Uzp2 "c07" "c15"].
(* v4_neon.h:517-527 *)
Definition neon_store_4x1_tr : list stmt := p4_store_4x1_tr.
(* v4_neon.h:529-559 *)
Definition neon_store_4x2_tr : list stmt := p4_store_4x2_tr.
(* v4_neon.h:561-601 *)
Definition neon_store_4x3_tr : list stmt := p4_store_4x3_tr.
(* v4_neon.h:603-624 *)
Definition neon_store_4x4_tr : list stmt :=
  ["r" ::= Trn1 "a" "b"; "s" ::= Trn2 "a" "b"; "t" ::= Trn1 "c" "d"; "u" ::= Trn2 "c" "d"; Stu "a0" (Trn1d "r" "t");
   Stu "a1" (Trn1d "s" "u"); Stu "a2" (Trn2d "r" "t"); Stu "a3" (Trn2d "s" "u")].
(* v4_neon.h:627-654 *)
Definition neon_store_4x8_tr : list stmt :=
  ["mat0.val0" ::= Uzp1 "b00" "b04"; "mat0.val1" ::= Uzp1 "b01" "b05"; "mat0.val2" ::= Uzp1 "b02" "b06";
   "mat0.val3" ::= Uzp1 "b03" "b07"; "mat2.val0" ::= Uzp2 "b00" "b04"; "mat2.val1" ::= Uzp2 "b01" "b05";
   "mat2.val2" ::= Uzp2 "b02" "b06"; "mat2.val3" ::= Uzp2 "b03" "b07";
   St4 "a0" "mat0.val0" "mat0.val1" "mat0.val2" "mat0.val3";
   St4 "a2" "mat2.val0" "mat2.val1" "mat2.val2" "mat2.val3"].
