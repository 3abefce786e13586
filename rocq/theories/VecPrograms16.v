(* The memory operations of the sixteen-wide vectors, transcribed from the headers named
   with each definition (the language is that of VecModel.v). *)
From Coq Require Import List String.
From Verif Require Import VecModel.
Import ListNotations.
Open Scope string_scope.

(* ---- /repo/src/util/v16/v16_portable.h ---- *)
(* v16_portable.h:429-447 *)
Definition p16_swap : list stmt :=
  [Sw 16 "a" 0 "b" 0; Sw 16 "a" 1 "b" 1; Sw 16 "a" 2 "b" 2; Sw 16 "a" 3 "b" 3; Sw 16 "a" 4 "b" 4; Sw 16 "a" 5 "b" 5;
   Sw 16 "a" 6 "b" 6; Sw 16 "a" 7 "b" 7; Sw 16 "a" 8 "b" 8; Sw 16 "a" 9 "b" 9; Sw 16 "a" 10 "b" 10;
   Sw 16 "a" 11 "b" 11; Sw 16 "a" 12 "b" 12; Sw 16 "a" 13 "b" 13; Sw 16 "a" 14 "b" 14; Sw 16 "a" 15 "b" 15].
(* v16_portable.h:449-469 *)
Definition p16_transpose : list stmt :=
  [Sw 16 "a00" 1 "a01" 0; Sw 16 "a00" 2 "a02" 0; Sw 16 "a00" 3 "a03" 0; Sw 16 "a00" 4 "a04" 0; Sw 16 "a00" 5 "a05" 0;
   Sw 16 "a00" 6 "a06" 0; Sw 16 "a00" 7 "a07" 0; Sw 16 "a00" 8 "a08" 0; Sw 16 "a00" 9 "a09" 0; Sw 16 "a00" 10 "a10" 0;
   Sw 16 "a00" 11 "a11" 0; Sw 16 "a00" 12 "a12" 0; Sw 16 "a00" 13 "a13" 0; Sw 16 "a00" 14 "a14" 0;
   Sw 16 "a00" 15 "a15" 0; Sw 16 "a01" 2 "a02" 1; Sw 16 "a01" 3 "a03" 1; Sw 16 "a01" 4 "a04" 1; Sw 16 "a01" 5 "a05" 1;
   Sw 16 "a01" 6 "a06" 1; Sw 16 "a01" 7 "a07" 1; Sw 16 "a01" 8 "a08" 1; Sw 16 "a01" 9 "a09" 1; Sw 16 "a01" 10 "a10" 1;
   Sw 16 "a01" 11 "a11" 1; Sw 16 "a01" 12 "a12" 1; Sw 16 "a01" 13 "a13" 1; Sw 16 "a01" 14 "a14" 1;
   Sw 16 "a01" 15 "a15" 1; Sw 16 "a02" 3 "a03" 2; Sw 16 "a02" 4 "a04" 2; Sw 16 "a02" 5 "a05" 2; Sw 16 "a02" 6 "a06" 2;
   Sw 16 "a02" 7 "a07" 2; Sw 16 "a02" 8 "a08" 2; Sw 16 "a02" 9 "a09" 2; Sw 16 "a02" 10 "a10" 2;
   Sw 16 "a02" 11 "a11" 2; Sw 16 "a02" 12 "a12" 2; Sw 16 "a02" 13 "a13" 2; Sw 16 "a02" 14 "a14" 2;
   Sw 16 "a02" 15 "a15" 2; Sw 16 "a03" 4 "a04" 3; Sw 16 "a03" 5 "a05" 3; Sw 16 "a03" 6 "a06" 3; Sw 16 "a03" 7 "a07" 3;
   Sw 16 "a03" 8 "a08" 3; Sw 16 "a03" 9 "a09" 3; Sw 16 "a03" 10 "a10" 3; Sw 16 "a03" 11 "a11" 3;
   Sw 16 "a03" 12 "a12" 3; Sw 16 "a03" 13 "a13" 3; Sw 16 "a03" 14 "a14" 3; Sw 16 "a03" 15 "a15" 3;
   Sw 16 "a04" 5 "a05" 4; Sw 16 "a04" 6 "a06" 4; Sw 16 "a04" 7 "a07" 4; Sw 16 "a04" 8 "a08" 4; Sw 16 "a04" 9 "a09" 4;
   Sw 16 "a04" 10 "a10" 4; Sw 16 "a04" 11 "a11" 4; Sw 16 "a04" 12 "a12" 4; Sw 16 "a04" 13 "a13" 4;
   Sw 16 "a04" 14 "a14" 4; Sw 16 "a04" 15 "a15" 4; Sw 16 "a05" 6 "a06" 5; Sw 16 "a05" 7 "a07" 5;
   Sw 16 "a05" 8 "a08" 5; Sw 16 "a05" 9 "a09" 5; Sw 16 "a05" 10 "a10" 5; Sw 16 "a05" 11 "a11" 5;
   Sw 16 "a05" 12 "a12" 5; Sw 16 "a05" 13 "a13" 5; Sw 16 "a05" 14 "a14" 5; Sw 16 "a05" 15 "a15" 5;
   Sw 16 "a06" 7 "a07" 6; Sw 16 "a06" 8 "a08" 6; Sw 16 "a06" 9 "a09" 6; Sw 16 "a06" 10 "a10" 6;
   Sw 16 "a06" 11 "a11" 6; Sw 16 "a06" 12 "a12" 6; Sw 16 "a06" 13 "a13" 6; Sw 16 "a06" 14 "a14" 6;
   Sw 16 "a06" 15 "a15" 6; Sw 16 "a07" 8 "a08" 7; Sw 16 "a07" 9 "a09" 7; Sw 16 "a07" 10 "a10" 7;
   Sw 16 "a07" 11 "a11" 7; Sw 16 "a07" 12 "a12" 7; Sw 16 "a07" 13 "a13" 7; Sw 16 "a07" 14 "a14" 7;
   Sw 16 "a07" 15 "a15" 7; Sw 16 "a08" 9 "a09" 8; Sw 16 "a08" 10 "a10" 8; Sw 16 "a08" 11 "a11" 8;
   Sw 16 "a08" 12 "a12" 8; Sw 16 "a08" 13 "a13" 8; Sw 16 "a08" 14 "a14" 8; Sw 16 "a08" 15 "a15" 8;
   Sw 16 "a09" 10 "a10" 9; Sw 16 "a09" 11 "a11" 9; Sw 16 "a09" 12 "a12" 9; Sw 16 "a09" 13 "a13" 9;
   Sw 16 "a09" 14 "a14" 9; Sw 16 "a09" 15 "a15" 9; Sw 16 "a10" 11 "a11" 10; Sw 16 "a10" 12 "a12" 10;
   Sw 16 "a10" 13 "a13" 10; Sw 16 "a10" 14 "a14" 10; Sw 16 "a10" 15 "a15" 10; Sw 16 "a11" 12 "a12" 11;
   Sw 16 "a11" 13 "a13" 11; Sw 16 "a11" 14 "a14" 11; Sw 16 "a11" 15 "a15" 11; Sw 16 "a12" 13 "a13" 12;
   Sw 16 "a12" 14 "a14" 12; Sw 16 "a12" 15 "a15" 12; Sw 16 "a13" 14 "a14" 13; Sw 16 "a13" 15 "a15" 13;
   Sw 16 "a14" 15 "a15" 14].
(* v16_portable.h:475-494 *)
Definition p16_load_16x1 : list stmt :=
  [LIn 16 "a" 0 "p" 0; LIn 16 "a" 1 "p" 1; LIn 16 "a" 2 "p" 2; LIn 16 "a" 3 "p" 3; LIn 16 "a" 4 "p" 4;
   LIn 16 "a" 5 "p" 5; LIn 16 "a" 6 "p" 6; LIn 16 "a" 7 "p" 7; LIn 16 "a" 8 "p" 8; LIn 16 "a" 9 "p" 9;
   LIn 16 "a" 10 "p" 10; LIn 16 "a" 11 "p" 11; LIn 16 "a" 12 "p" 12; LIn 16 "a" 13 "p" 13; LIn 16 "a" 14 "p" 14;
   LIn 16 "a" 15 "p" 15].
(* v16_portable.h:496-515 *)
Definition p16_store_16x1 : list stmt :=
  [LOut "p" 0 "a" 0; LOut "p" 1 "a" 1; LOut "p" 2 "a" 2; LOut "p" 3 "a" 3; LOut "p" 4 "a" 4; LOut "p" 5 "a" 5;
   LOut "p" 6 "a" 6; LOut "p" 7 "a" 7; LOut "p" 8 "a" 8; LOut "p" 9 "a" 9; LOut "p" 10 "a" 10; LOut "p" 11 "a" 11;
   LOut "p" 12 "a" 12; LOut "p" 13 "a" 13; LOut "p" 14 "a" 14; LOut "p" 15 "a" 15].
(* v16_portable.h:517-536 *)
Definition p16_stream_16x1 : list stmt := p16_store_16x1.
(* v16_portable.h:538-556 *)
Definition p16_clear_16x1 : list stmt :=
  [Clr "p" 0; Clr "p" 1; Clr "p" 2; Clr "p" 3; Clr "p" 4; Clr "p" 5; Clr "p" 6; Clr "p" 7; Clr "p" 8; Clr "p" 9;
   Clr "p" 10; Clr "p" 11; Clr "p" 12; Clr "p" 13; Clr "p" 14; Clr "p" 15].
(* v16_portable.h:559-578 *)
Definition p16_copy_16x1 : list stmt :=
  [Cp "dst" 0 "src" 0; Cp "dst" 1 "src" 1; Cp "dst" 2 "src" 2; Cp "dst" 3 "src" 3; Cp "dst" 4 "src" 4;
   Cp "dst" 5 "src" 5; Cp "dst" 6 "src" 6; Cp "dst" 7 "src" 7; Cp "dst" 8 "src" 8; Cp "dst" 9 "src" 9;
   Cp "dst" 10 "src" 10; Cp "dst" 11 "src" 11; Cp "dst" 12 "src" 12; Cp "dst" 13 "src" 13; Cp "dst" 14 "src" 14;
   Cp "dst" 15 "src" 15].
(* v16_portable.h:580-648 *)
Definition p16_swap_16x1 : list stmt :=
  [LIn 1 "t" 0 "a" 0; Cp "a" 0 "b" 0; LOut "b" 0 "t" 0; LIn 1 "t" 0 "a" 1; Cp "a" 1 "b" 1; LOut "b" 1 "t" 0;
   LIn 1 "t" 0 "a" 2; Cp "a" 2 "b" 2; LOut "b" 2 "t" 0; LIn 1 "t" 0 "a" 3; Cp "a" 3 "b" 3; LOut "b" 3 "t" 0;
   LIn 1 "t" 0 "a" 4; Cp "a" 4 "b" 4; LOut "b" 4 "t" 0; LIn 1 "t" 0 "a" 5; Cp "a" 5 "b" 5; LOut "b" 5 "t" 0;
   LIn 1 "t" 0 "a" 6; Cp "a" 6 "b" 6; LOut "b" 6 "t" 0; LIn 1 "t" 0 "a" 7; Cp "a" 7 "b" 7; LOut "b" 7 "t" 0;
   LIn 1 "t" 0 "a" 8; Cp "a" 8 "b" 8; LOut "b" 8 "t" 0; LIn 1 "t" 0 "a" 9; Cp "a" 9 "b" 9; LOut "b" 9 "t" 0;
   LIn 1 "t" 0 "a" 10; Cp "a" 10 "b" 10; LOut "b" 10 "t" 0; LIn 1 "t" 0 "a" 11; Cp "a" 11 "b" 11; LOut "b" 11 "t" 0;
   LIn 1 "t" 0 "a" 12; Cp "a" 12 "b" 12; LOut "b" 12 "t" 0; LIn 1 "t" 0 "a" 13; Cp "a" 13 "b" 13; LOut "b" 13 "t" 0;
   LIn 1 "t" 0 "a" 14; Cp "a" 14 "b" 14; LOut "b" 14 "t" 0; LIn 1 "t" 0 "a" 15; Cp "a" 15 "b" 15; LOut "b" 15 "t" 0].
(* v16_portable.h:652-678 *)
Definition p16_load_16x1_tr : list stmt :=
  [LIn 16 "a" 0 "a00" 0; LIn 16 "a" 1 "a01" 0; LIn 16 "a" 2 "a02" 0; LIn 16 "a" 3 "a03" 0; LIn 16 "a" 4 "a04" 0;
   LIn 16 "a" 5 "a05" 0; LIn 16 "a" 6 "a06" 0; LIn 16 "a" 7 "a07" 0; LIn 16 "a" 8 "a08" 0; LIn 16 "a" 9 "a09" 0;
   LIn 16 "a" 10 "a10" 0; LIn 16 "a" 11 "a11" 0; LIn 16 "a" 12 "a12" 0; LIn 16 "a" 13 "a13" 0; LIn 16 "a" 14 "a14" 0;
   LIn 16 "a" 15 "a15" 0].
(* v16_portable.h:680-745 *)
Definition p16_load_16x2_tr : list stmt :=
  [LIn 16 "a" 0 "a00" 0; LIn 16 "b" 0 "a00" 1; LIn 16 "a" 1 "a01" 0; LIn 16 "b" 1 "a01" 1; LIn 16 "a" 2 "a02" 0;
   LIn 16 "b" 2 "a02" 1; LIn 16 "a" 3 "a03" 0; LIn 16 "b" 3 "a03" 1; LIn 16 "a" 4 "a04" 0; LIn 16 "b" 4 "a04" 1;
   LIn 16 "a" 5 "a05" 0; LIn 16 "b" 5 "a05" 1; LIn 16 "a" 6 "a06" 0; LIn 16 "b" 6 "a06" 1; LIn 16 "a" 7 "a07" 0;
   LIn 16 "b" 7 "a07" 1; LIn 16 "a" 8 "a08" 0; LIn 16 "b" 8 "a08" 1; LIn 16 "a" 9 "a09" 0; LIn 16 "b" 9 "a09" 1;
   LIn 16 "a" 10 "a10" 0; LIn 16 "b" 10 "a10" 1; LIn 16 "a" 11 "a11" 0; LIn 16 "b" 11 "a11" 1; LIn 16 "a" 12 "a12" 0;
   LIn 16 "b" 12 "a12" 1; LIn 16 "a" 13 "a13" 0; LIn 16 "b" 13 "a13" 1; LIn 16 "a" 14 "a14" 0; LIn 16 "b" 14 "a14" 1;
   LIn 16 "a" 15 "a15" 0; LIn 16 "b" 15 "a15" 1].
(* v16_portable.h:747-828 *)
Definition p16_load_16x3_tr : list stmt :=
  [LIn 16 "a" 0 "a00" 0; LIn 16 "b" 0 "a00" 1; LIn 16 "c" 0 "a00" 2; LIn 16 "a" 1 "a01" 0; LIn 16 "b" 1 "a01" 1;
   LIn 16 "c" 1 "a01" 2; LIn 16 "a" 2 "a02" 0; LIn 16 "b" 2 "a02" 1; LIn 16 "c" 2 "a02" 2; LIn 16 "a" 3 "a03" 0;
   LIn 16 "b" 3 "a03" 1; LIn 16 "c" 3 "a03" 2; LIn 16 "a" 4 "a04" 0; LIn 16 "b" 4 "a04" 1; LIn 16 "c" 4 "a04" 2;
   LIn 16 "a" 5 "a05" 0; LIn 16 "b" 5 "a05" 1; LIn 16 "c" 5 "a05" 2; LIn 16 "a" 6 "a06" 0; LIn 16 "b" 6 "a06" 1;
   LIn 16 "c" 6 "a06" 2; LIn 16 "a" 7 "a07" 0; LIn 16 "b" 7 "a07" 1; LIn 16 "c" 7 "a07" 2; LIn 16 "a" 8 "a08" 0;
   LIn 16 "b" 8 "a08" 1; LIn 16 "c" 8 "a08" 2; LIn 16 "a" 9 "a09" 0; LIn 16 "b" 9 "a09" 1; LIn 16 "c" 9 "a09" 2;
   LIn 16 "a" 10 "a10" 0; LIn 16 "b" 10 "a10" 1; LIn 16 "c" 10 "a10" 2; LIn 16 "a" 11 "a11" 0; LIn 16 "b" 11 "a11" 1;
   LIn 16 "c" 11 "a11" 2; LIn 16 "a" 12 "a12" 0; LIn 16 "b" 12 "a12" 1; LIn 16 "c" 12 "a12" 2; LIn 16 "a" 13 "a13" 0;
   LIn 16 "b" 13 "a13" 1; LIn 16 "c" 13 "a13" 2; LIn 16 "a" 14 "a14" 0; LIn 16 "b" 14 "a14" 1; LIn 16 "c" 14 "a14" 2;
   LIn 16 "a" 15 "a15" 0; LIn 16 "b" 15 "a15" 1; LIn 16 "c" 15 "a15" 2].
(* v16_portable.h:830-927 *)
Definition p16_load_16x4_tr : list stmt :=
  [LIn 16 "a" 0 "a00" 0; LIn 16 "b" 0 "a00" 1; LIn 16 "c" 0 "a00" 2; LIn 16 "d" 0 "a00" 3; LIn 16 "a" 1 "a01" 0;
   LIn 16 "b" 1 "a01" 1; LIn 16 "c" 1 "a01" 2; LIn 16 "d" 1 "a01" 3; LIn 16 "a" 2 "a02" 0; LIn 16 "b" 2 "a02" 1;
   LIn 16 "c" 2 "a02" 2; LIn 16 "d" 2 "a02" 3; LIn 16 "a" 3 "a03" 0; LIn 16 "b" 3 "a03" 1; LIn 16 "c" 3 "a03" 2;
   LIn 16 "d" 3 "a03" 3; LIn 16 "a" 4 "a04" 0; LIn 16 "b" 4 "a04" 1; LIn 16 "c" 4 "a04" 2; LIn 16 "d" 4 "a04" 3;
   LIn 16 "a" 5 "a05" 0; LIn 16 "b" 5 "a05" 1; LIn 16 "c" 5 "a05" 2; LIn 16 "d" 5 "a05" 3; LIn 16 "a" 6 "a06" 0;
   LIn 16 "b" 6 "a06" 1; LIn 16 "c" 6 "a06" 2; LIn 16 "d" 6 "a06" 3; LIn 16 "a" 7 "a07" 0; LIn 16 "b" 7 "a07" 1;
   LIn 16 "c" 7 "a07" 2; LIn 16 "d" 7 "a07" 3; LIn 16 "a" 8 "a08" 0; LIn 16 "b" 8 "a08" 1; LIn 16 "c" 8 "a08" 2;
   LIn 16 "d" 8 "a08" 3; LIn 16 "a" 9 "a09" 0; LIn 16 "b" 9 "a09" 1; LIn 16 "c" 9 "a09" 2; LIn 16 "d" 9 "a09" 3;
   LIn 16 "a" 10 "a10" 0; LIn 16 "b" 10 "a10" 1; LIn 16 "c" 10 "a10" 2; LIn 16 "d" 10 "a10" 3; LIn 16 "a" 11 "a11" 0;
   LIn 16 "b" 11 "a11" 1; LIn 16 "c" 11 "a11" 2; LIn 16 "d" 11 "a11" 3; LIn 16 "a" 12 "a12" 0; LIn 16 "b" 12 "a12" 1;
   LIn 16 "c" 12 "a12" 2; LIn 16 "d" 12 "a12" 3; LIn 16 "a" 13 "a13" 0; LIn 16 "b" 13 "a13" 1; LIn 16 "c" 13 "a13" 2;
   LIn 16 "d" 13 "a13" 3; LIn 16 "a" 14 "a14" 0; LIn 16 "b" 14 "a14" 1; LIn 16 "c" 14 "a14" 2; LIn 16 "d" 14 "a14" 3;
   LIn 16 "a" 15 "a15" 0; LIn 16 "b" 15 "a15" 1; LIn 16 "c" 15 "a15" 2; LIn 16 "d" 15 "a15" 3].
(* v16_portable.h:929-1091 *)
Definition p16_load_16x8_tr : list stmt :=
  [LIn 16 "a" 0 "a00" 0; LIn 16 "b" 0 "a00" 1; LIn 16 "c" 0 "a00" 2; LIn 16 "d" 0 "a00" 3; LIn 16 "e" 0 "a00" 4;
   LIn 16 "f" 0 "a00" 5; LIn 16 "g" 0 "a00" 6; LIn 16 "h" 0 "a00" 7; LIn 16 "a" 1 "a01" 0; LIn 16 "b" 1 "a01" 1;
   LIn 16 "c" 1 "a01" 2; LIn 16 "d" 1 "a01" 3; LIn 16 "e" 1 "a01" 4; LIn 16 "f" 1 "a01" 5; LIn 16 "g" 1 "a01" 6;
   LIn 16 "h" 1 "a01" 7; LIn 16 "a" 2 "a02" 0; LIn 16 "b" 2 "a02" 1; LIn 16 "c" 2 "a02" 2; LIn 16 "d" 2 "a02" 3;
   LIn 16 "e" 2 "a02" 4; LIn 16 "f" 2 "a02" 5; LIn 16 "g" 2 "a02" 6; LIn 16 "h" 2 "a02" 7; LIn 16 "a" 3 "a03" 0;
   LIn 16 "b" 3 "a03" 1; LIn 16 "c" 3 "a03" 2; LIn 16 "d" 3 "a03" 3; LIn 16 "e" 3 "a03" 4; LIn 16 "f" 3 "a03" 5;
   LIn 16 "g" 3 "a03" 6; LIn 16 "h" 3 "a03" 7; LIn 16 "a" 4 "a04" 0; LIn 16 "b" 4 "a04" 1; LIn 16 "c" 4 "a04" 2;
   LIn 16 "d" 4 "a04" 3; LIn 16 "e" 4 "a04" 4; LIn 16 "f" 4 "a04" 5; LIn 16 "g" 4 "a04" 6; LIn 16 "h" 4 "a04" 7;
   LIn 16 "a" 5 "a05" 0; LIn 16 "b" 5 "a05" 1; LIn 16 "c" 5 "a05" 2; LIn 16 "d" 5 "a05" 3; LIn 16 "e" 5 "a05" 4;
   LIn 16 "f" 5 "a05" 5; LIn 16 "g" 5 "a05" 6; LIn 16 "h" 5 "a05" 7; LIn 16 "a" 6 "a06" 0; LIn 16 "b" 6 "a06" 1;
   LIn 16 "c" 6 "a06" 2; LIn 16 "d" 6 "a06" 3; LIn 16 "e" 6 "a06" 4; LIn 16 "f" 6 "a06" 5; LIn 16 "g" 6 "a06" 6;
   LIn 16 "h" 6 "a06" 7; LIn 16 "a" 7 "a07" 0; LIn 16 "b" 7 "a07" 1; LIn 16 "c" 7 "a07" 2; LIn 16 "d" 7 "a07" 3;
   LIn 16 "e" 7 "a07" 4; LIn 16 "f" 7 "a07" 5; LIn 16 "g" 7 "a07" 6; LIn 16 "h" 7 "a07" 7; LIn 16 "a" 8 "a08" 0;
   LIn 16 "b" 8 "a08" 1; LIn 16 "c" 8 "a08" 2; LIn 16 "d" 8 "a08" 3; LIn 16 "e" 8 "a08" 4; LIn 16 "f" 8 "a08" 5;
   LIn 16 "g" 8 "a08" 6; LIn 16 "h" 8 "a08" 7; LIn 16 "a" 9 "a09" 0; LIn 16 "b" 9 "a09" 1; LIn 16 "c" 9 "a09" 2;
   LIn 16 "d" 9 "a09" 3; LIn 16 "e" 9 "a09" 4; LIn 16 "f" 9 "a09" 5; LIn 16 "g" 9 "a09" 6; LIn 16 "h" 9 "a09" 7;
   LIn 16 "a" 10 "a10" 0; LIn 16 "b" 10 "a10" 1; LIn 16 "c" 10 "a10" 2; LIn 16 "d" 10 "a10" 3; LIn 16 "e" 10 "a10" 4;
   LIn 16 "f" 10 "a10" 5; LIn 16 "g" 10 "a10" 6; LIn 16 "h" 10 "a10" 7; LIn 16 "a" 11 "a11" 0; LIn 16 "b" 11 "a11" 1;
   LIn 16 "c" 11 "a11" 2; LIn 16 "d" 11 "a11" 3; LIn 16 "e" 11 "a11" 4; LIn 16 "f" 11 "a11" 5; LIn 16 "g" 11 "a11" 6;
   LIn 16 "h" 11 "a11" 7; LIn 16 "a" 12 "a12" 0; LIn 16 "b" 12 "a12" 1; LIn 16 "c" 12 "a12" 2; LIn 16 "d" 12 "a12" 3;
   LIn 16 "e" 12 "a12" 4; LIn 16 "f" 12 "a12" 5; LIn 16 "g" 12 "a12" 6; LIn 16 "h" 12 "a12" 7; LIn 16 "a" 13 "a13" 0;
   LIn 16 "b" 13 "a13" 1; LIn 16 "c" 13 "a13" 2; LIn 16 "d" 13 "a13" 3; LIn 16 "e" 13 "a13" 4; LIn 16 "f" 13 "a13" 5;
   LIn 16 "g" 13 "a13" 6; LIn 16 "h" 13 "a13" 7; LIn 16 "a" 14 "a14" 0; LIn 16 "b" 14 "a14" 1; LIn 16 "c" 14 "a14" 2;
   LIn 16 "d" 14 "a14" 3; LIn 16 "e" 14 "a14" 4; LIn 16 "f" 14 "a14" 5; LIn 16 "g" 14 "a14" 6; LIn 16 "h" 14 "a14" 7;
   LIn 16 "a" 15 "a15" 0; LIn 16 "b" 15 "a15" 1; LIn 16 "c" 15 "a15" 2; LIn 16 "d" 15 "a15" 3; LIn 16 "e" 15 "a15" 4;
   LIn 16 "f" 15 "a15" 5; LIn 16 "g" 15 "a15" 6; LIn 16 "h" 15 "a15" 7].
(* v16_portable.h:1093-1385 *)
Definition p16_load_16x16_tr : list stmt :=
  [LIn 16 "b00" 0 "a00" 0; LIn 16 "b01" 0 "a00" 1; LIn 16 "b02" 0 "a00" 2; LIn 16 "b03" 0 "a00" 3;
   LIn 16 "b04" 0 "a00" 4; LIn 16 "b05" 0 "a00" 5; LIn 16 "b06" 0 "a00" 6; LIn 16 "b07" 0 "a00" 7;
   LIn 16 "b08" 0 "a00" 8; LIn 16 "b09" 0 "a00" 9; LIn 16 "b10" 0 "a00" 10; LIn 16 "b11" 0 "a00" 11;
   LIn 16 "b12" 0 "a00" 12; LIn 16 "b13" 0 "a00" 13; LIn 16 "b14" 0 "a00" 14; LIn 16 "b15" 0 "a00" 15;
   LIn 16 "b00" 1 "a01" 0; LIn 16 "b01" 1 "a01" 1; LIn 16 "b02" 1 "a01" 2; LIn 16 "b03" 1 "a01" 3;
   LIn 16 "b04" 1 "a01" 4; LIn 16 "b05" 1 "a01" 5; LIn 16 "b06" 1 "a01" 6; LIn 16 "b07" 1 "a01" 7;
   LIn 16 "b08" 1 "a01" 8; LIn 16 "b09" 1 "a01" 9; LIn 16 "b10" 1 "a01" 10; LIn 16 "b11" 1 "a01" 11;
   LIn 16 "b12" 1 "a01" 12; LIn 16 "b13" 1 "a01" 13; LIn 16 "b14" 1 "a01" 14; LIn 16 "b15" 1 "a01" 15;
   LIn 16 "b00" 2 "a02" 0; LIn 16 "b01" 2 "a02" 1; LIn 16 "b02" 2 "a02" 2; LIn 16 "b03" 2 "a02" 3;
   LIn 16 "b04" 2 "a02" 4; LIn 16 "b05" 2 "a02" 5; LIn 16 "b06" 2 "a02" 6; LIn 16 "b07" 2 "a02" 7;
   LIn 16 "b08" 2 "a02" 8; LIn 16 "b09" 2 "a02" 9; LIn 16 "b10" 2 "a02" 10; LIn 16 "b11" 2 "a02" 11;
   LIn 16 "b12" 2 "a02" 12; LIn 16 "b13" 2 "a02" 13; LIn 16 "b14" 2 "a02" 14; LIn 16 "b15" 2 "a02" 15;
   LIn 16 "b00" 3 "a03" 0; LIn 16 "b01" 3 "a03" 1; LIn 16 "b02" 3 "a03" 2; LIn 16 "b03" 3 "a03" 3;
   LIn 16 "b04" 3 "a03" 4; LIn 16 "b05" 3 "a03" 5; LIn 16 "b06" 3 "a03" 6; LIn 16 "b07" 3 "a03" 7;
   LIn 16 "b08" 3 "a03" 8; LIn 16 "b09" 3 "a03" 9; LIn 16 "b10" 3 "a03" 10; LIn 16 "b11" 3 "a03" 11;
   LIn 16 "b12" 3 "a03" 12; LIn 16 "b13" 3 "a03" 13; LIn 16 "b14" 3 "a03" 14; LIn 16 "b15" 3 "a03" 15;
   LIn 16 "b00" 4 "a04" 0; LIn 16 "b01" 4 "a04" 1; LIn 16 "b02" 4 "a04" 2; LIn 16 "b03" 4 "a04" 3;
   LIn 16 "b04" 4 "a04" 4; LIn 16 "b05" 4 "a04" 5; LIn 16 "b06" 4 "a04" 6; LIn 16 "b07" 4 "a04" 7;
   LIn 16 "b08" 4 "a04" 8; LIn 16 "b09" 4 "a04" 9; LIn 16 "b10" 4 "a04" 10; LIn 16 "b11" 4 "a04" 11;
   LIn 16 "b12" 4 "a04" 12; LIn 16 "b13" 4 "a04" 13; LIn 16 "b14" 4 "a04" 14; LIn 16 "b15" 4 "a04" 15;
   LIn 16 "b00" 5 "a05" 0; LIn 16 "b01" 5 "a05" 1; LIn 16 "b02" 5 "a05" 2; LIn 16 "b03" 5 "a05" 3;
   LIn 16 "b04" 5 "a05" 4; LIn 16 "b05" 5 "a05" 5; LIn 16 "b06" 5 "a05" 6; LIn 16 "b07" 5 "a05" 7;
   LIn 16 "b08" 5 "a05" 8; LIn 16 "b09" 5 "a05" 9; LIn 16 "b10" 5 "a05" 10; LIn 16 "b11" 5 "a05" 11;
   LIn 16 "b12" 5 "a05" 12; LIn 16 "b13" 5 "a05" 13; LIn 16 "b14" 5 "a05" 14; LIn 16 "b15" 5 "a05" 15;
   LIn 16 "b00" 6 "a06" 0; LIn 16 "b01" 6 "a06" 1; LIn 16 "b02" 6 "a06" 2; LIn 16 "b03" 6 "a06" 3;
   LIn 16 "b04" 6 "a06" 4; LIn 16 "b05" 6 "a06" 5; LIn 16 "b06" 6 "a06" 6; LIn 16 "b07" 6 "a06" 7;
   LIn 16 "b08" 6 "a06" 8; LIn 16 "b09" 6 "a06" 9; LIn 16 "b10" 6 "a06" 10; LIn 16 "b11" 6 "a06" 11;
   LIn 16 "b12" 6 "a06" 12; LIn 16 "b13" 6 "a06" 13; LIn 16 "b14" 6 "a06" 14; LIn 16 "b15" 6 "a06" 15;
   LIn 16 "b00" 7 "a07" 0; LIn 16 "b01" 7 "a07" 1; LIn 16 "b02" 7 "a07" 2; LIn 16 "b03" 7 "a07" 3;
   LIn 16 "b04" 7 "a07" 4; LIn 16 "b05" 7 "a07" 5; LIn 16 "b06" 7 "a07" 6; LIn 16 "b07" 7 "a07" 7;
   LIn 16 "b08" 7 "a07" 8; LIn 16 "b09" 7 "a07" 9; LIn 16 "b10" 7 "a07" 10; LIn 16 "b11" 7 "a07" 11;
   LIn 16 "b12" 7 "a07" 12; LIn 16 "b13" 7 "a07" 13; LIn 16 "b14" 7 "a07" 14; LIn 16 "b15" 7 "a07" 15;
   LIn 16 "b00" 8 "a08" 0; LIn 16 "b01" 8 "a08" 1; LIn 16 "b02" 8 "a08" 2; LIn 16 "b03" 8 "a08" 3;
   LIn 16 "b04" 8 "a08" 4; LIn 16 "b05" 8 "a08" 5; LIn 16 "b06" 8 "a08" 6; LIn 16 "b07" 8 "a08" 7;
   LIn 16 "b08" 8 "a08" 8; LIn 16 "b09" 8 "a08" 9; LIn 16 "b10" 8 "a08" 10; LIn 16 "b11" 8 "a08" 11;
   LIn 16 "b12" 8 "a08" 12; LIn 16 "b13" 8 "a08" 13; LIn 16 "b14" 8 "a08" 14; LIn 16 "b15" 8 "a08" 15;
   LIn 16 "b00" 9 "a09" 0; LIn 16 "b01" 9 "a09" 1; LIn 16 "b02" 9 "a09" 2; LIn 16 "b03" 9 "a09" 3;
   LIn 16 "b04" 9 "a09" 4; LIn 16 "b05" 9 "a09" 5; LIn 16 "b06" 9 "a09" 6; LIn 16 "b07" 9 "a09" 7;
   LIn 16 "b08" 9 "a09" 8; LIn 16 "b09" 9 "a09" 9; LIn 16 "b10" 9 "a09" 10; LIn 16 "b11" 9 "a09" 11;
   LIn 16 "b12" 9 "a09" 12; LIn 16 "b13" 9 "a09" 13; LIn 16 "b14" 9 "a09" 14; LIn 16 "b15" 9 "a09" 15;
   LIn 16 "b00" 10 "a10" 0; LIn 16 "b01" 10 "a10" 1; LIn 16 "b02" 10 "a10" 2; LIn 16 "b03" 10 "a10" 3;
   LIn 16 "b04" 10 "a10" 4; LIn 16 "b05" 10 "a10" 5; LIn 16 "b06" 10 "a10" 6; LIn 16 "b07" 10 "a10" 7;
   LIn 16 "b08" 10 "a10" 8; LIn 16 "b09" 10 "a10" 9; LIn 16 "b10" 10 "a10" 10; LIn 16 "b11" 10 "a10" 11;
   LIn 16 "b12" 10 "a10" 12; LIn 16 "b13" 10 "a10" 13; LIn 16 "b14" 10 "a10" 14; LIn 16 "b15" 10 "a10" 15;
   LIn 16 "b00" 11 "a11" 0; LIn 16 "b01" 11 "a11" 1; LIn 16 "b02" 11 "a11" 2; LIn 16 "b03" 11 "a11" 3;
   LIn 16 "b04" 11 "a11" 4; LIn 16 "b05" 11 "a11" 5; LIn 16 "b06" 11 "a11" 6; LIn 16 "b07" 11 "a11" 7;
   LIn 16 "b08" 11 "a11" 8; LIn 16 "b09" 11 "a11" 9; LIn 16 "b10" 11 "a11" 10; LIn 16 "b11" 11 "a11" 11;
   LIn 16 "b12" 11 "a11" 12; LIn 16 "b13" 11 "a11" 13; LIn 16 "b14" 11 "a11" 14; LIn 16 "b15" 11 "a11" 15;
   LIn 16 "b00" 12 "a12" 0; LIn 16 "b01" 12 "a12" 1; LIn 16 "b02" 12 "a12" 2; LIn 16 "b03" 12 "a12" 3;
   LIn 16 "b04" 12 "a12" 4; LIn 16 "b05" 12 "a12" 5; LIn 16 "b06" 12 "a12" 6; LIn 16 "b07" 12 "a12" 7;
   LIn 16 "b08" 12 "a12" 8; LIn 16 "b09" 12 "a12" 9; LIn 16 "b10" 12 "a12" 10; LIn 16 "b11" 12 "a12" 11;
   LIn 16 "b12" 12 "a12" 12; LIn 16 "b13" 12 "a12" 13; LIn 16 "b14" 12 "a12" 14; LIn 16 "b15" 12 "a12" 15;
   LIn 16 "b00" 13 "a13" 0; LIn 16 "b01" 13 "a13" 1; LIn 16 "b02" 13 "a13" 2; LIn 16 "b03" 13 "a13" 3;
   LIn 16 "b04" 13 "a13" 4; LIn 16 "b05" 13 "a13" 5; LIn 16 "b06" 13 "a13" 6; LIn 16 "b07" 13 "a13" 7;
   LIn 16 "b08" 13 "a13" 8; LIn 16 "b09" 13 "a13" 9; LIn 16 "b10" 13 "a13" 10; LIn 16 "b11" 13 "a13" 11;
   LIn 16 "b12" 13 "a13" 12; LIn 16 "b13" 13 "a13" 13; LIn 16 "b14" 13 "a13" 14; LIn 16 "b15" 13 "a13" 15;
   LIn 16 "b00" 14 "a14" 0; LIn 16 "b01" 14 "a14" 1; LIn 16 "b02" 14 "a14" 2; LIn 16 "b03" 14 "a14" 3;
   LIn 16 "b04" 14 "a14" 4; LIn 16 "b05" 14 "a14" 5; LIn 16 "b06" 14 "a14" 6; LIn 16 "b07" 14 "a14" 7;
   LIn 16 "b08" 14 "a14" 8; LIn 16 "b09" 14 "a14" 9; LIn 16 "b10" 14 "a14" 10; LIn 16 "b11" 14 "a14" 11;
   LIn 16 "b12" 14 "a14" 12; LIn 16 "b13" 14 "a14" 13; LIn 16 "b14" 14 "a14" 14; LIn 16 "b15" 14 "a14" 15;
   LIn 16 "b00" 15 "a15" 0; LIn 16 "b01" 15 "a15" 1; LIn 16 "b02" 15 "a15" 2; LIn 16 "b03" 15 "a15" 3;
   LIn 16 "b04" 15 "a15" 4; LIn 16 "b05" 15 "a15" 5; LIn 16 "b06" 15 "a15" 6; LIn 16 "b07" 15 "a15" 7;
   LIn 16 "b08" 15 "a15" 8; LIn 16 "b09" 15 "a15" 9; LIn 16 "b10" 15 "a15" 10; LIn 16 "b11" 15 "a15" 11;
   LIn 16 "b12" 15 "a15" 12; LIn 16 "b13" 15 "a15" 13; LIn 16 "b14" 15 "a15" 14; LIn 16 "b15" 15 "a15" 15].
(* v16_portable.h:1387-1533 *)
Definition p16_load_16x8_tr_p : list stmt :=
  [LIn 16 "b00" 0 "a00" 0; LIn 16 "b01" 0 "a00" 1; LIn 16 "b02" 0 "a00" 2; LIn 16 "b03" 0 "a00" 3;
   LIn 16 "b04" 0 "a00" 4; LIn 16 "b05" 0 "a00" 5; LIn 16 "b06" 0 "a00" 6; LIn 16 "b07" 0 "a00" 7;
   LIn 16 "b00" 1 "a00" 8; LIn 16 "b01" 1 "a00" 9; LIn 16 "b02" 1 "a00" 10; LIn 16 "b03" 1 "a00" 11;
   LIn 16 "b04" 1 "a00" 12; LIn 16 "b05" 1 "a00" 13; LIn 16 "b06" 1 "a00" 14; LIn 16 "b07" 1 "a00" 15;
   LIn 16 "b00" 2 "a01" 0; LIn 16 "b01" 2 "a01" 1; LIn 16 "b02" 2 "a01" 2; LIn 16 "b03" 2 "a01" 3;
   LIn 16 "b04" 2 "a01" 4; LIn 16 "b05" 2 "a01" 5; LIn 16 "b06" 2 "a01" 6; LIn 16 "b07" 2 "a01" 7;
   LIn 16 "b00" 3 "a01" 8; LIn 16 "b01" 3 "a01" 9; LIn 16 "b02" 3 "a01" 10; LIn 16 "b03" 3 "a01" 11;
   LIn 16 "b04" 3 "a01" 12; LIn 16 "b05" 3 "a01" 13; LIn 16 "b06" 3 "a01" 14; LIn 16 "b07" 3 "a01" 15;
   LIn 16 "b00" 4 "a02" 0; LIn 16 "b01" 4 "a02" 1; LIn 16 "b02" 4 "a02" 2; LIn 16 "b03" 4 "a02" 3;
   LIn 16 "b04" 4 "a02" 4; LIn 16 "b05" 4 "a02" 5; LIn 16 "b06" 4 "a02" 6; LIn 16 "b07" 4 "a02" 7;
   LIn 16 "b00" 5 "a02" 8; LIn 16 "b01" 5 "a02" 9; LIn 16 "b02" 5 "a02" 10; LIn 16 "b03" 5 "a02" 11;
   LIn 16 "b04" 5 "a02" 12; LIn 16 "b05" 5 "a02" 13; LIn 16 "b06" 5 "a02" 14; LIn 16 "b07" 5 "a02" 15;
   LIn 16 "b00" 6 "a03" 0; LIn 16 "b01" 6 "a03" 1; LIn 16 "b02" 6 "a03" 2; LIn 16 "b03" 6 "a03" 3;
   LIn 16 "b04" 6 "a03" 4; LIn 16 "b05" 6 "a03" 5; LIn 16 "b06" 6 "a03" 6; LIn 16 "b07" 6 "a03" 7;
   LIn 16 "b00" 7 "a03" 8; LIn 16 "b01" 7 "a03" 9; LIn 16 "b02" 7 "a03" 10; LIn 16 "b03" 7 "a03" 11;
   LIn 16 "b04" 7 "a03" 12; LIn 16 "b05" 7 "a03" 13; LIn 16 "b06" 7 "a03" 14; LIn 16 "b07" 7 "a03" 15;
   LIn 16 "b00" 8 "a04" 0; LIn 16 "b01" 8 "a04" 1; LIn 16 "b02" 8 "a04" 2; LIn 16 "b03" 8 "a04" 3;
   LIn 16 "b04" 8 "a04" 4; LIn 16 "b05" 8 "a04" 5; LIn 16 "b06" 8 "a04" 6; LIn 16 "b07" 8 "a04" 7;
   LIn 16 "b00" 9 "a04" 8; LIn 16 "b01" 9 "a04" 9; LIn 16 "b02" 9 "a04" 10; LIn 16 "b03" 9 "a04" 11;
   LIn 16 "b04" 9 "a04" 12; LIn 16 "b05" 9 "a04" 13; LIn 16 "b06" 9 "a04" 14; LIn 16 "b07" 9 "a04" 15;
   LIn 16 "b00" 10 "a05" 0; LIn 16 "b01" 10 "a05" 1; LIn 16 "b02" 10 "a05" 2; LIn 16 "b03" 10 "a05" 3;
   LIn 16 "b04" 10 "a05" 4; LIn 16 "b05" 10 "a05" 5; LIn 16 "b06" 10 "a05" 6; LIn 16 "b07" 10 "a05" 7;
   LIn 16 "b00" 11 "a05" 8; LIn 16 "b01" 11 "a05" 9; LIn 16 "b02" 11 "a05" 10; LIn 16 "b03" 11 "a05" 11;
   LIn 16 "b04" 11 "a05" 12; LIn 16 "b05" 11 "a05" 13; LIn 16 "b06" 11 "a05" 14; LIn 16 "b07" 11 "a05" 15;
   LIn 16 "b00" 12 "a06" 0; LIn 16 "b01" 12 "a06" 1; LIn 16 "b02" 12 "a06" 2; LIn 16 "b03" 12 "a06" 3;
   LIn 16 "b04" 12 "a06" 4; LIn 16 "b05" 12 "a06" 5; LIn 16 "b06" 12 "a06" 6; LIn 16 "b07" 12 "a06" 7;
   LIn 16 "b00" 13 "a06" 8; LIn 16 "b01" 13 "a06" 9; LIn 16 "b02" 13 "a06" 10; LIn 16 "b03" 13 "a06" 11;
   LIn 16 "b04" 13 "a06" 12; LIn 16 "b05" 13 "a06" 13; LIn 16 "b06" 13 "a06" 14; LIn 16 "b07" 13 "a06" 15;
   LIn 16 "b00" 14 "a07" 0; LIn 16 "b01" 14 "a07" 1; LIn 16 "b02" 14 "a07" 2; LIn 16 "b03" 14 "a07" 3;
   LIn 16 "b04" 14 "a07" 4; LIn 16 "b05" 14 "a07" 5; LIn 16 "b06" 14 "a07" 6; LIn 16 "b07" 14 "a07" 7;
   LIn 16 "b00" 15 "a07" 8; LIn 16 "b01" 15 "a07" 9; LIn 16 "b02" 15 "a07" 10; LIn 16 "b03" 15 "a07" 11;
   LIn 16 "b04" 15 "a07" 12; LIn 16 "b05" 15 "a07" 13; LIn 16 "b06" 15 "a07" 14; LIn 16 "b07" 15 "a07" 15].
(* v16_portable.h:1535-1827 *)
Definition p16_load_16x16_tr_p : list stmt :=
  [LIn 16 "b00" 0 "a00" 0; LIn 16 "b01" 0 "a00" 1; LIn 16 "b02" 0 "a00" 2; LIn 16 "b03" 0 "a00" 3;
   LIn 16 "b04" 0 "a00" 4; LIn 16 "b05" 0 "a00" 5; LIn 16 "b06" 0 "a00" 6; LIn 16 "b07" 0 "a00" 7;
   LIn 16 "b00" 1 "a00" 8; LIn 16 "b01" 1 "a00" 9; LIn 16 "b02" 1 "a00" 10; LIn 16 "b03" 1 "a00" 11;
   LIn 16 "b04" 1 "a00" 12; LIn 16 "b05" 1 "a00" 13; LIn 16 "b06" 1 "a00" 14; LIn 16 "b07" 1 "a00" 15;
   LIn 16 "b00" 2 "a01" 0; LIn 16 "b01" 2 "a01" 1; LIn 16 "b02" 2 "a01" 2; LIn 16 "b03" 2 "a01" 3;
   LIn 16 "b04" 2 "a01" 4; LIn 16 "b05" 2 "a01" 5; LIn 16 "b06" 2 "a01" 6; LIn 16 "b07" 2 "a01" 7;
   LIn 16 "b00" 3 "a01" 8; LIn 16 "b01" 3 "a01" 9; LIn 16 "b02" 3 "a01" 10; LIn 16 "b03" 3 "a01" 11;
   LIn 16 "b04" 3 "a01" 12; LIn 16 "b05" 3 "a01" 13; LIn 16 "b06" 3 "a01" 14; LIn 16 "b07" 3 "a01" 15;
   LIn 16 "b00" 4 "a02" 0; LIn 16 "b01" 4 "a02" 1; LIn 16 "b02" 4 "a02" 2; LIn 16 "b03" 4 "a02" 3;
   LIn 16 "b04" 4 "a02" 4; LIn 16 "b05" 4 "a02" 5; LIn 16 "b06" 4 "a02" 6; LIn 16 "b07" 4 "a02" 7;
   LIn 16 "b00" 5 "a02" 8; LIn 16 "b01" 5 "a02" 9; LIn 16 "b02" 5 "a02" 10; LIn 16 "b03" 5 "a02" 11;
   LIn 16 "b04" 5 "a02" 12; LIn 16 "b05" 5 "a02" 13; LIn 16 "b06" 5 "a02" 14; LIn 16 "b07" 5 "a02" 15;
   LIn 16 "b00" 6 "a03" 0; LIn 16 "b01" 6 "a03" 1; LIn 16 "b02" 6 "a03" 2; LIn 16 "b03" 6 "a03" 3;
   LIn 16 "b04" 6 "a03" 4; LIn 16 "b05" 6 "a03" 5; LIn 16 "b06" 6 "a03" 6; LIn 16 "b07" 6 "a03" 7;
   LIn 16 "b00" 7 "a03" 8; LIn 16 "b01" 7 "a03" 9; LIn 16 "b02" 7 "a03" 10; LIn 16 "b03" 7 "a03" 11;
   LIn 16 "b04" 7 "a03" 12; LIn 16 "b05" 7 "a03" 13; LIn 16 "b06" 7 "a03" 14; LIn 16 "b07" 7 "a03" 15;
   LIn 16 "b00" 8 "a04" 0; LIn 16 "b01" 8 "a04" 1; LIn 16 "b02" 8 "a04" 2; LIn 16 "b03" 8 "a04" 3;
   LIn 16 "b04" 8 "a04" 4; LIn 16 "b05" 8 "a04" 5; LIn 16 "b06" 8 "a04" 6; LIn 16 "b07" 8 "a04" 7;
   LIn 16 "b00" 9 "a04" 8; LIn 16 "b01" 9 "a04" 9; LIn 16 "b02" 9 "a04" 10; LIn 16 "b03" 9 "a04" 11;
   LIn 16 "b04" 9 "a04" 12; LIn 16 "b05" 9 "a04" 13; LIn 16 "b06" 9 "a04" 14; LIn 16 "b07" 9 "a04" 15;
   LIn 16 "b00" 10 "a05" 0; LIn 16 "b01" 10 "a05" 1; LIn 16 "b02" 10 "a05" 2; LIn 16 "b03" 10 "a05" 3;
   LIn 16 "b04" 10 "a05" 4; LIn 16 "b05" 10 "a05" 5; LIn 16 "b06" 10 "a05" 6; LIn 16 "b07" 10 "a05" 7;
   LIn 16 "b00" 11 "a05" 8; LIn 16 "b01" 11 "a05" 9; LIn 16 "b02" 11 "a05" 10; LIn 16 "b03" 11 "a05" 11;
   LIn 16 "b04" 11 "a05" 12; LIn 16 "b05" 11 "a05" 13; LIn 16 "b06" 11 "a05" 14; LIn 16 "b07" 11 "a05" 15;
   LIn 16 "b00" 12 "a06" 0; LIn 16 "b01" 12 "a06" 1; LIn 16 "b02" 12 "a06" 2; LIn 16 "b03" 12 "a06" 3;
   LIn 16 "b04" 12 "a06" 4; LIn 16 "b05" 12 "a06" 5; LIn 16 "b06" 12 "a06" 6; LIn 16 "b07" 12 "a06" 7;
   LIn 16 "b00" 13 "a06" 8; LIn 16 "b01" 13 "a06" 9; LIn 16 "b02" 13 "a06" 10; LIn 16 "b03" 13 "a06" 11;
   LIn 16 "b04" 13 "a06" 12; LIn 16 "b05" 13 "a06" 13; LIn 16 "b06" 13 "a06" 14; LIn 16 "b07" 13 "a06" 15;
   LIn 16 "b00" 14 "a07" 0; LIn 16 "b01" 14 "a07" 1; LIn 16 "b02" 14 "a07" 2; LIn 16 "b03" 14 "a07" 3;
   LIn 16 "b04" 14 "a07" 4; LIn 16 "b05" 14 "a07" 5; LIn 16 "b06" 14 "a07" 6; LIn 16 "b07" 14 "a07" 7;
   LIn 16 "b00" 15 "a07" 8; LIn 16 "b01" 15 "a07" 9; LIn 16 "b02" 15 "a07" 10; LIn 16 "b03" 15 "a07" 11;
   LIn 16 "b04" 15 "a07" 12; LIn 16 "b05" 15 "a07" 13; LIn 16 "b06" 15 "a07" 14; LIn 16 "b07" 15 "a07" 15;
   LIn 16 "b08" 0 "a08" 0; LIn 16 "b09" 0 "a08" 1; LIn 16 "b10" 0 "a08" 2; LIn 16 "b11" 0 "a08" 3;
   LIn 16 "b12" 0 "a08" 4; LIn 16 "b13" 0 "a08" 5; LIn 16 "b14" 0 "a08" 6; LIn 16 "b15" 0 "a08" 7;
   LIn 16 "b08" 1 "a08" 8; LIn 16 "b09" 1 "a08" 9; LIn 16 "b10" 1 "a08" 10; LIn 16 "b11" 1 "a08" 11;
   LIn 16 "b12" 1 "a08" 12; LIn 16 "b13" 1 "a08" 13; LIn 16 "b14" 1 "a08" 14; LIn 16 "b15" 1 "a08" 15;
   LIn 16 "b08" 2 "a09" 0; LIn 16 "b09" 2 "a09" 1; LIn 16 "b10" 2 "a09" 2; LIn 16 "b11" 2 "a09" 3;
   LIn 16 "b12" 2 "a09" 4; LIn 16 "b13" 2 "a09" 5; LIn 16 "b14" 2 "a09" 6; LIn 16 "b15" 2 "a09" 7;
   LIn 16 "b08" 3 "a09" 8; LIn 16 "b09" 3 "a09" 9; LIn 16 "b10" 3 "a09" 10; LIn 16 "b11" 3 "a09" 11;
   LIn 16 "b12" 3 "a09" 12; LIn 16 "b13" 3 "a09" 13; LIn 16 "b14" 3 "a09" 14; LIn 16 "b15" 3 "a09" 15;
   LIn 16 "b08" 4 "a10" 0; LIn 16 "b09" 4 "a10" 1; LIn 16 "b10" 4 "a10" 2; LIn 16 "b11" 4 "a10" 3;
   LIn 16 "b12" 4 "a10" 4; LIn 16 "b13" 4 "a10" 5; LIn 16 "b14" 4 "a10" 6; LIn 16 "b15" 4 "a10" 7;
   LIn 16 "b08" 5 "a10" 8; LIn 16 "b09" 5 "a10" 9; LIn 16 "b10" 5 "a10" 10; LIn 16 "b11" 5 "a10" 11;
   LIn 16 "b12" 5 "a10" 12; LIn 16 "b13" 5 "a10" 13; LIn 16 "b14" 5 "a10" 14; LIn 16 "b15" 5 "a10" 15;
   LIn 16 "b08" 6 "a11" 0; LIn 16 "b09" 6 "a11" 1; LIn 16 "b10" 6 "a11" 2; LIn 16 "b11" 6 "a11" 3;
   LIn 16 "b12" 6 "a11" 4; LIn 16 "b13" 6 "a11" 5; LIn 16 "b14" 6 "a11" 6; LIn 16 "b15" 6 "a11" 7;
   LIn 16 "b08" 7 "a11" 8; LIn 16 "b09" 7 "a11" 9; LIn 16 "b10" 7 "a11" 10; LIn 16 "b11" 7 "a11" 11;
   LIn 16 "b12" 7 "a11" 12; LIn 16 "b13" 7 "a11" 13; LIn 16 "b14" 7 "a11" 14; LIn 16 "b15" 7 "a11" 15;
   LIn 16 "b08" 8 "a12" 0; LIn 16 "b09" 8 "a12" 1; LIn 16 "b10" 8 "a12" 2; LIn 16 "b11" 8 "a12" 3;
   LIn 16 "b12" 8 "a12" 4; LIn 16 "b13" 8 "a12" 5; LIn 16 "b14" 8 "a12" 6; LIn 16 "b15" 8 "a12" 7;
   LIn 16 "b08" 9 "a12" 8; LIn 16 "b09" 9 "a12" 9; LIn 16 "b10" 9 "a12" 10; LIn 16 "b11" 9 "a12" 11;
   LIn 16 "b12" 9 "a12" 12; LIn 16 "b13" 9 "a12" 13; LIn 16 "b14" 9 "a12" 14; LIn 16 "b15" 9 "a12" 15;
   LIn 16 "b08" 10 "a13" 0; LIn 16 "b09" 10 "a13" 1; LIn 16 "b10" 10 "a13" 2; LIn 16 "b11" 10 "a13" 3;
   LIn 16 "b12" 10 "a13" 4; LIn 16 "b13" 10 "a13" 5; LIn 16 "b14" 10 "a13" 6; LIn 16 "b15" 10 "a13" 7;
   LIn 16 "b08" 11 "a13" 8; LIn 16 "b09" 11 "a13" 9; LIn 16 "b10" 11 "a13" 10; LIn 16 "b11" 11 "a13" 11;
   LIn 16 "b12" 11 "a13" 12; LIn 16 "b13" 11 "a13" 13; LIn 16 "b14" 11 "a13" 14; LIn 16 "b15" 11 "a13" 15;
   LIn 16 "b08" 12 "a14" 0; LIn 16 "b09" 12 "a14" 1; LIn 16 "b10" 12 "a14" 2; LIn 16 "b11" 12 "a14" 3;
   LIn 16 "b12" 12 "a14" 4; LIn 16 "b13" 12 "a14" 5; LIn 16 "b14" 12 "a14" 6; LIn 16 "b15" 12 "a14" 7;
   LIn 16 "b08" 13 "a14" 8; LIn 16 "b09" 13 "a14" 9; LIn 16 "b10" 13 "a14" 10; LIn 16 "b11" 13 "a14" 11;
   LIn 16 "b12" 13 "a14" 12; LIn 16 "b13" 13 "a14" 13; LIn 16 "b14" 13 "a14" 14; LIn 16 "b15" 13 "a14" 15;
   LIn 16 "b08" 14 "a15" 0; LIn 16 "b09" 14 "a15" 1; LIn 16 "b10" 14 "a15" 2; LIn 16 "b11" 14 "a15" 3;
   LIn 16 "b12" 14 "a15" 4; LIn 16 "b13" 14 "a15" 5; LIn 16 "b14" 14 "a15" 6; LIn 16 "b15" 14 "a15" 7;
   LIn 16 "b08" 15 "a15" 8; LIn 16 "b09" 15 "a15" 9; LIn 16 "b10" 15 "a15" 10; LIn 16 "b11" 15 "a15" 11;
   LIn 16 "b12" 15 "a15" 12; LIn 16 "b13" 15 "a15" 13; LIn 16 "b14" 15 "a15" 14; LIn 16 "b15" 15 "a15" 15].
(* v16_portable.h:1829-1851 *)
Definition p16_store_16x1_tr : list stmt :=
  [LOut "a00" 0 "a" 0; LOut "a01" 0 "a" 1; LOut "a02" 0 "a" 2; LOut "a03" 0 "a" 3; LOut "a04" 0 "a" 4;
   LOut "a05" 0 "a" 5; LOut "a06" 0 "a" 6; LOut "a07" 0 "a" 7; LOut "a08" 0 "a" 8; LOut "a09" 0 "a" 9;
   LOut "a10" 0 "a" 10; LOut "a11" 0 "a" 11; LOut "a12" 0 "a" 12; LOut "a13" 0 "a" 13; LOut "a14" 0 "a" 14;
   LOut "a15" 0 "a" 15].
(* v16_portable.h:1853-1910 *)
Definition p16_store_16x2_tr : list stmt :=
  [LOut "a00" 0 "a" 0; LOut "a00" 1 "b" 0; LOut "a01" 0 "a" 1; LOut "a01" 1 "b" 1; LOut "a02" 0 "a" 2;
   LOut "a02" 1 "b" 2; LOut "a03" 0 "a" 3; LOut "a03" 1 "b" 3; LOut "a04" 0 "a" 4; LOut "a04" 1 "b" 4;
   LOut "a05" 0 "a" 5; LOut "a05" 1 "b" 5; LOut "a06" 0 "a" 6; LOut "a06" 1 "b" 6; LOut "a07" 0 "a" 7;
   LOut "a07" 1 "b" 7; LOut "a08" 0 "a" 8; LOut "a08" 1 "b" 8; LOut "a09" 0 "a" 9; LOut "a09" 1 "b" 9;
   LOut "a10" 0 "a" 10; LOut "a10" 1 "b" 10; LOut "a11" 0 "a" 11; LOut "a11" 1 "b" 11; LOut "a12" 0 "a" 12;
   LOut "a12" 1 "b" 12; LOut "a13" 0 "a" 13; LOut "a13" 1 "b" 13; LOut "a14" 0 "a" 14; LOut "a14" 1 "b" 14;
   LOut "a15" 0 "a" 15; LOut "a15" 1 "b" 15].
(* v16_portable.h:1912-1985 *)
Definition p16_store_16x3_tr : list stmt :=
  [LOut "a00" 0 "a" 0; LOut "a00" 1 "b" 0; LOut "a00" 2 "c" 0; LOut "a01" 0 "a" 1; LOut "a01" 1 "b" 1;
   LOut "a01" 2 "c" 1; LOut "a02" 0 "a" 2; LOut "a02" 1 "b" 2; LOut "a02" 2 "c" 2; LOut "a03" 0 "a" 3;
   LOut "a03" 1 "b" 3; LOut "a03" 2 "c" 3; LOut "a04" 0 "a" 4; LOut "a04" 1 "b" 4; LOut "a04" 2 "c" 4;
   LOut "a05" 0 "a" 5; LOut "a05" 1 "b" 5; LOut "a05" 2 "c" 5; LOut "a06" 0 "a" 6; LOut "a06" 1 "b" 6;
   LOut "a06" 2 "c" 6; LOut "a07" 0 "a" 7; LOut "a07" 1 "b" 7; LOut "a07" 2 "c" 7; LOut "a08" 0 "a" 8;
   LOut "a08" 1 "b" 8; LOut "a08" 2 "c" 8; LOut "a09" 0 "a" 9; LOut "a09" 1 "b" 9; LOut "a09" 2 "c" 9;
   LOut "a10" 0 "a" 10; LOut "a10" 1 "b" 10; LOut "a10" 2 "c" 10; LOut "a11" 0 "a" 11; LOut "a11" 1 "b" 11;
   LOut "a11" 2 "c" 11; LOut "a12" 0 "a" 12; LOut "a12" 1 "b" 12; LOut "a12" 2 "c" 12; LOut "a13" 0 "a" 13;
   LOut "a13" 1 "b" 13; LOut "a13" 2 "c" 13; LOut "a14" 0 "a" 14; LOut "a14" 1 "b" 14; LOut "a14" 2 "c" 14;
   LOut "a15" 0 "a" 15; LOut "a15" 1 "b" 15; LOut "a15" 2 "c" 15].
(* v16_portable.h:1987-2076 *)
Definition p16_store_16x4_tr : list stmt :=
  [LOut "a00" 0 "a" 0; LOut "a00" 1 "b" 0; LOut "a00" 2 "c" 0; LOut "a00" 3 "d" 0; LOut "a01" 0 "a" 1;
   LOut "a01" 1 "b" 1; LOut "a01" 2 "c" 1; LOut "a01" 3 "d" 1; LOut "a02" 0 "a" 2; LOut "a02" 1 "b" 2;
   LOut "a02" 2 "c" 2; LOut "a02" 3 "d" 2; LOut "a03" 0 "a" 3; LOut "a03" 1 "b" 3; LOut "a03" 2 "c" 3;
   LOut "a03" 3 "d" 3; LOut "a04" 0 "a" 4; LOut "a04" 1 "b" 4; LOut "a04" 2 "c" 4; LOut "a04" 3 "d" 4;
   LOut "a05" 0 "a" 5; LOut "a05" 1 "b" 5; LOut "a05" 2 "c" 5; LOut "a05" 3 "d" 5; LOut "a06" 0 "a" 6;
   LOut "a06" 1 "b" 6; LOut "a06" 2 "c" 6; LOut "a06" 3 "d" 6; LOut "a07" 0 "a" 7; LOut "a07" 1 "b" 7;
   LOut "a07" 2 "c" 7; LOut "a07" 3 "d" 7; LOut "a08" 0 "a" 8; LOut "a08" 1 "b" 8; LOut "a08" 2 "c" 8;
   LOut "a08" 3 "d" 8; LOut "a09" 0 "a" 9; LOut "a09" 1 "b" 9; LOut "a09" 2 "c" 9; LOut "a09" 3 "d" 9;
   LOut "a10" 0 "a" 10; LOut "a10" 1 "b" 10; LOut "a10" 2 "c" 10; LOut "a10" 3 "d" 10; LOut "a11" 0 "a" 11;
   LOut "a11" 1 "b" 11; LOut "a11" 2 "c" 11; LOut "a11" 3 "d" 11; LOut "a12" 0 "a" 12; LOut "a12" 1 "b" 12;
   LOut "a12" 2 "c" 12; LOut "a12" 3 "d" 12; LOut "a13" 0 "a" 13; LOut "a13" 1 "b" 13; LOut "a13" 2 "c" 13;
   LOut "a13" 3 "d" 13; LOut "a14" 0 "a" 14; LOut "a14" 1 "b" 14; LOut "a14" 2 "c" 14; LOut "a14" 3 "d" 14;
   LOut "a15" 0 "a" 15; LOut "a15" 1 "b" 15; LOut "a15" 2 "c" 15; LOut "a15" 3 "d" 15].
(* v16_portable.h:2078-2232 *)
Definition p16_store_16x8_tr : list stmt :=
  [LOut "a00" 0 "a" 0; LOut "a00" 1 "b" 0; LOut "a00" 2 "c" 0; LOut "a00" 3 "d" 0; LOut "a00" 4 "e" 0;
   LOut "a00" 5 "f" 0; LOut "a00" 6 "g" 0; LOut "a00" 7 "h" 0; LOut "a01" 0 "a" 1; LOut "a01" 1 "b" 1;
   LOut "a01" 2 "c" 1; LOut "a01" 3 "d" 1; LOut "a01" 4 "e" 1; LOut "a01" 5 "f" 1; LOut "a01" 6 "g" 1;
   LOut "a01" 7 "h" 1; LOut "a02" 0 "a" 2; LOut "a02" 1 "b" 2; LOut "a02" 2 "c" 2; LOut "a02" 3 "d" 2;
   LOut "a02" 4 "e" 2; LOut "a02" 5 "f" 2; LOut "a02" 6 "g" 2; LOut "a02" 7 "h" 2; LOut "a03" 0 "a" 3;
   LOut "a03" 1 "b" 3; LOut "a03" 2 "c" 3; LOut "a03" 3 "d" 3; LOut "a03" 4 "e" 3; LOut "a03" 5 "f" 3;
   LOut "a03" 6 "g" 3; LOut "a03" 7 "h" 3; LOut "a04" 0 "a" 4; LOut "a04" 1 "b" 4; LOut "a04" 2 "c" 4;
   LOut "a04" 3 "d" 4; LOut "a04" 4 "e" 4; LOut "a04" 5 "f" 4; LOut "a04" 6 "g" 4; LOut "a04" 7 "h" 4;
   LOut "a05" 0 "a" 5; LOut "a05" 1 "b" 5; LOut "a05" 2 "c" 5; LOut "a05" 3 "d" 5; LOut "a05" 4 "e" 5;
   LOut "a05" 5 "f" 5; LOut "a05" 6 "g" 5; LOut "a05" 7 "h" 5; LOut "a06" 0 "a" 6; LOut "a06" 1 "b" 6;
   LOut "a06" 2 "c" 6; LOut "a06" 3 "d" 6; LOut "a06" 4 "e" 6; LOut "a06" 5 "f" 6; LOut "a06" 6 "g" 6;
   LOut "a06" 7 "h" 6; LOut "a07" 0 "a" 7; LOut "a07" 1 "b" 7; LOut "a07" 2 "c" 7; LOut "a07" 3 "d" 7;
   LOut "a07" 4 "e" 7; LOut "a07" 5 "f" 7; LOut "a07" 6 "g" 7; LOut "a07" 7 "h" 7; LOut "a08" 0 "a" 8;
   LOut "a08" 1 "b" 8; LOut "a08" 2 "c" 8; LOut "a08" 3 "d" 8; LOut "a08" 4 "e" 8; LOut "a08" 5 "f" 8;
   LOut "a08" 6 "g" 8; LOut "a08" 7 "h" 8; LOut "a09" 0 "a" 9; LOut "a09" 1 "b" 9; LOut "a09" 2 "c" 9;
   LOut "a09" 3 "d" 9; LOut "a09" 4 "e" 9; LOut "a09" 5 "f" 9; LOut "a09" 6 "g" 9; LOut "a09" 7 "h" 9;
   LOut "a10" 0 "a" 10; LOut "a10" 1 "b" 10; LOut "a10" 2 "c" 10; LOut "a10" 3 "d" 10; LOut "a10" 4 "e" 10;
   LOut "a10" 5 "f" 10; LOut "a10" 6 "g" 10; LOut "a10" 7 "h" 10; LOut "a11" 0 "a" 11; LOut "a11" 1 "b" 11;
   LOut "a11" 2 "c" 11; LOut "a11" 3 "d" 11; LOut "a11" 4 "e" 11; LOut "a11" 5 "f" 11; LOut "a11" 6 "g" 11;
   LOut "a11" 7 "h" 11; LOut "a12" 0 "a" 12; LOut "a12" 1 "b" 12; LOut "a12" 2 "c" 12; LOut "a12" 3 "d" 12;
   LOut "a12" 4 "e" 12; LOut "a12" 5 "f" 12; LOut "a12" 6 "g" 12; LOut "a12" 7 "h" 12; LOut "a13" 0 "a" 13;
   LOut "a13" 1 "b" 13; LOut "a13" 2 "c" 13; LOut "a13" 3 "d" 13; LOut "a13" 4 "e" 13; LOut "a13" 5 "f" 13;
   LOut "a13" 6 "g" 13; LOut "a13" 7 "h" 13; LOut "a14" 0 "a" 14; LOut "a14" 1 "b" 14; LOut "a14" 2 "c" 14;
   LOut "a14" 3 "d" 14; LOut "a14" 4 "e" 14; LOut "a14" 5 "f" 14; LOut "a14" 6 "g" 14; LOut "a14" 7 "h" 14;
   LOut "a15" 0 "a" 15; LOut "a15" 1 "b" 15; LOut "a15" 2 "c" 15; LOut "a15" 3 "d" 15; LOut "a15" 4 "e" 15;
   LOut "a15" 5 "f" 15; LOut "a15" 6 "g" 15; LOut "a15" 7 "h" 15].
(* v16_portable.h:2234-2518 *)
Definition p16_store_16x16_tr : list stmt :=
  [LOut "a00" 0 "b00" 0; LOut "a00" 1 "b01" 0; LOut "a00" 2 "b02" 0; LOut "a00" 3 "b03" 0; LOut "a00" 4 "b04" 0;
   LOut "a00" 5 "b05" 0; LOut "a00" 6 "b06" 0; LOut "a00" 7 "b07" 0; LOut "a00" 8 "b08" 0; LOut "a00" 9 "b09" 0;
   LOut "a00" 10 "b10" 0; LOut "a00" 11 "b11" 0; LOut "a00" 12 "b12" 0; LOut "a00" 13 "b13" 0; LOut "a00" 14 "b14" 0;
   LOut "a00" 15 "b15" 0; LOut "a01" 0 "b00" 1; LOut "a01" 1 "b01" 1; LOut "a01" 2 "b02" 1; LOut "a01" 3 "b03" 1;
   LOut "a01" 4 "b04" 1; LOut "a01" 5 "b05" 1; LOut "a01" 6 "b06" 1; LOut "a01" 7 "b07" 1; LOut "a01" 8 "b08" 1;
   LOut "a01" 9 "b09" 1; LOut "a01" 10 "b10" 1; LOut "a01" 11 "b11" 1; LOut "a01" 12 "b12" 1; LOut "a01" 13 "b13" 1;
   LOut "a01" 14 "b14" 1; LOut "a01" 15 "b15" 1; LOut "a02" 0 "b00" 2; LOut "a02" 1 "b01" 2; LOut "a02" 2 "b02" 2;
   LOut "a02" 3 "b03" 2; LOut "a02" 4 "b04" 2; LOut "a02" 5 "b05" 2; LOut "a02" 6 "b06" 2; LOut "a02" 7 "b07" 2;
   LOut "a02" 8 "b08" 2; LOut "a02" 9 "b09" 2; LOut "a02" 10 "b10" 2; LOut "a02" 11 "b11" 2; LOut "a02" 12 "b12" 2;
   LOut "a02" 13 "b13" 2; LOut "a02" 14 "b14" 2; LOut "a02" 15 "b15" 2; LOut "a03" 0 "b00" 3; LOut "a03" 1 "b01" 3;
   LOut "a03" 2 "b02" 3; LOut "a03" 3 "b03" 3; LOut "a03" 4 "b04" 3; LOut "a03" 5 "b05" 3; LOut "a03" 6 "b06" 3;
   LOut "a03" 7 "b07" 3; LOut "a03" 8 "b08" 3; LOut "a03" 9 "b09" 3; LOut "a03" 10 "b10" 3; LOut "a03" 11 "b11" 3;
   LOut "a03" 12 "b12" 3; LOut "a03" 13 "b13" 3; LOut "a03" 14 "b14" 3; LOut "a03" 15 "b15" 3; LOut "a04" 0 "b00" 4;
   LOut "a04" 1 "b01" 4; LOut "a04" 2 "b02" 4; LOut "a04" 3 "b03" 4; LOut "a04" 4 "b04" 4; LOut "a04" 5 "b05" 4;
   LOut "a04" 6 "b06" 4; LOut "a04" 7 "b07" 4; LOut "a04" 8 "b08" 4; LOut "a04" 9 "b09" 4; LOut "a04" 10 "b10" 4;
   LOut "a04" 11 "b11" 4; LOut "a04" 12 "b12" 4; LOut "a04" 13 "b13" 4; LOut "a04" 14 "b14" 4; LOut "a04" 15 "b15" 4;
   LOut "a05" 0 "b00" 5; LOut "a05" 1 "b01" 5; LOut "a05" 2 "b02" 5; LOut "a05" 3 "b03" 5; LOut "a05" 4 "b04" 5;
   LOut "a05" 5 "b05" 5; LOut "a05" 6 "b06" 5; LOut "a05" 7 "b07" 5; LOut "a05" 8 "b08" 5; LOut "a05" 9 "b09" 5;
   LOut "a05" 10 "b10" 5; LOut "a05" 11 "b11" 5; LOut "a05" 12 "b12" 5; LOut "a05" 13 "b13" 5; LOut "a05" 14 "b14" 5;
   LOut "a05" 15 "b15" 5; LOut "a06" 0 "b00" 6; LOut "a06" 1 "b01" 6; LOut "a06" 2 "b02" 6; LOut "a06" 3 "b03" 6;
   LOut "a06" 4 "b04" 6; LOut "a06" 5 "b05" 6; LOut "a06" 6 "b06" 6; LOut "a06" 7 "b07" 6; LOut "a06" 8 "b08" 6;
   LOut "a06" 9 "b09" 6; LOut "a06" 10 "b10" 6; LOut "a06" 11 "b11" 6; LOut "a06" 12 "b12" 6; LOut "a06" 13 "b13" 6;
   LOut "a06" 14 "b14" 6; LOut "a06" 15 "b15" 6; LOut "a07" 0 "b00" 7; LOut "a07" 1 "b01" 7; LOut "a07" 2 "b02" 7;
   LOut "a07" 3 "b03" 7; LOut "a07" 4 "b04" 7; LOut "a07" 5 "b05" 7; LOut "a07" 6 "b06" 7; LOut "a07" 7 "b07" 7;
   LOut "a07" 8 "b08" 7; LOut "a07" 9 "b09" 7; LOut "a07" 10 "b10" 7; LOut "a07" 11 "b11" 7; LOut "a07" 12 "b12" 7;
   LOut "a07" 13 "b13" 7; LOut "a07" 14 "b14" 7; LOut "a07" 15 "b15" 7; LOut "a08" 0 "b00" 8; LOut "a08" 1 "b01" 8;
   LOut "a08" 2 "b02" 8; LOut "a08" 3 "b03" 8; LOut "a08" 4 "b04" 8; LOut "a08" 5 "b05" 8; LOut "a08" 6 "b06" 8;
   LOut "a08" 7 "b07" 8; LOut "a08" 8 "b08" 8; LOut "a08" 9 "b09" 8; LOut "a08" 10 "b10" 8; LOut "a08" 11 "b11" 8;
   LOut "a08" 12 "b12" 8; LOut "a08" 13 "b13" 8; LOut "a08" 14 "b14" 8; LOut "a08" 15 "b15" 8; LOut "a09" 0 "b00" 9;
   LOut "a09" 1 "b01" 9; LOut "a09" 2 "b02" 9; LOut "a09" 3 "b03" 9; LOut "a09" 4 "b04" 9; LOut "a09" 5 "b05" 9;
   LOut "a09" 6 "b06" 9; LOut "a09" 7 "b07" 9; LOut "a09" 8 "b08" 9; LOut "a09" 9 "b09" 9; LOut "a09" 10 "b10" 9;
   LOut "a09" 11 "b11" 9; LOut "a09" 12 "b12" 9; LOut "a09" 13 "b13" 9; LOut "a09" 14 "b14" 9; LOut "a09" 15 "b15" 9;
   LOut "a10" 0 "b00" 10; LOut "a10" 1 "b01" 10; LOut "a10" 2 "b02" 10; LOut "a10" 3 "b03" 10; LOut "a10" 4 "b04" 10;
   LOut "a10" 5 "b05" 10; LOut "a10" 6 "b06" 10; LOut "a10" 7 "b07" 10; LOut "a10" 8 "b08" 10; LOut "a10" 9 "b09" 10;
   LOut "a10" 10 "b10" 10; LOut "a10" 11 "b11" 10; LOut "a10" 12 "b12" 10; LOut "a10" 13 "b13" 10;
   LOut "a10" 14 "b14" 10; LOut "a10" 15 "b15" 10; LOut "a11" 0 "b00" 11; LOut "a11" 1 "b01" 11;
   LOut "a11" 2 "b02" 11; LOut "a11" 3 "b03" 11; LOut "a11" 4 "b04" 11; LOut "a11" 5 "b05" 11; LOut "a11" 6 "b06" 11;
   LOut "a11" 7 "b07" 11; LOut "a11" 8 "b08" 11; LOut "a11" 9 "b09" 11; LOut "a11" 10 "b10" 11;
   LOut "a11" 11 "b11" 11; LOut "a11" 12 "b12" 11; LOut "a11" 13 "b13" 11; LOut "a11" 14 "b14" 11;
   LOut "a11" 15 "b15" 11; LOut "a12" 0 "b00" 12; LOut "a12" 1 "b01" 12; LOut "a12" 2 "b02" 12; LOut "a12" 3 "b03" 12;
   LOut "a12" 4 "b04" 12; LOut "a12" 5 "b05" 12; LOut "a12" 6 "b06" 12; LOut "a12" 7 "b07" 12; LOut "a12" 8 "b08" 12;
   LOut "a12" 9 "b09" 12; LOut "a12" 10 "b10" 12; LOut "a12" 11 "b11" 12; LOut "a12" 12 "b12" 12;
   LOut "a12" 13 "b13" 12; LOut "a12" 14 "b14" 12; LOut "a12" 15 "b15" 12; LOut "a13" 0 "b00" 13;
   LOut "a13" 1 "b01" 13; LOut "a13" 2 "b02" 13; LOut "a13" 3 "b03" 13; LOut "a13" 4 "b04" 13; LOut "a13" 5 "b05" 13;
   LOut "a13" 6 "b06" 13; LOut "a13" 7 "b07" 13; LOut "a13" 8 "b08" 13; LOut "a13" 9 "b09" 13; LOut "a13" 10 "b10" 13;
   LOut "a13" 11 "b11" 13; LOut "a13" 12 "b12" 13; LOut "a13" 13 "b13" 13; LOut "a13" 14 "b14" 13;
   LOut "a13" 15 "b15" 13; LOut "a14" 0 "b00" 14; LOut "a14" 1 "b01" 14; LOut "a14" 2 "b02" 14; LOut "a14" 3 "b03" 14;
   LOut "a14" 4 "b04" 14; LOut "a14" 5 "b05" 14; LOut "a14" 6 "b06" 14; LOut "a14" 7 "b07" 14; LOut "a14" 8 "b08" 14;
   LOut "a14" 9 "b09" 14; LOut "a14" 10 "b10" 14; LOut "a14" 11 "b11" 14; LOut "a14" 12 "b12" 14;
   LOut "a14" 13 "b13" 14; LOut "a14" 14 "b14" 14; LOut "a14" 15 "b15" 14; LOut "a15" 0 "b00" 15;
   LOut "a15" 1 "b01" 15; LOut "a15" 2 "b02" 15; LOut "a15" 3 "b03" 15; LOut "a15" 4 "b04" 15; LOut "a15" 5 "b05" 15;
   LOut "a15" 6 "b06" 15; LOut "a15" 7 "b07" 15; LOut "a15" 8 "b08" 15; LOut "a15" 9 "b09" 15; LOut "a15" 10 "b10" 15;
   LOut "a15" 11 "b11" 15; LOut "a15" 12 "b12" 15; LOut "a15" 13 "b13" 15; LOut "a15" 14 "b14" 15;
   LOut "a15" 15 "b15" 15].
(* v16_portable.h:2520-2672 *)
Definition p16_store_16x8_tr_p : list stmt :=
  [LOut "a00" 0 "b00" 0; LOut "a00" 1 "b01" 0; LOut "a00" 2 "b02" 0; LOut "a00" 3 "b03" 0; LOut "a00" 4 "b04" 0;
   LOut "a00" 5 "b05" 0; LOut "a00" 6 "b06" 0; LOut "a00" 7 "b07" 0; LOut "a00" 8 "b00" 1; LOut "a00" 9 "b01" 1;
   LOut "a00" 10 "b02" 1; LOut "a00" 11 "b03" 1; LOut "a00" 12 "b04" 1; LOut "a00" 13 "b05" 1; LOut "a00" 14 "b06" 1;
   LOut "a00" 15 "b07" 1; LOut "a01" 0 "b00" 2; LOut "a01" 1 "b01" 2; LOut "a01" 2 "b02" 2; LOut "a01" 3 "b03" 2;
   LOut "a01" 4 "b04" 2; LOut "a01" 5 "b05" 2; LOut "a01" 6 "b06" 2; LOut "a01" 7 "b07" 2; LOut "a01" 8 "b00" 3;
   LOut "a01" 9 "b01" 3; LOut "a01" 10 "b02" 3; LOut "a01" 11 "b03" 3; LOut "a01" 12 "b04" 3; LOut "a01" 13 "b05" 3;
   LOut "a01" 14 "b06" 3; LOut "a01" 15 "b07" 3; LOut "a02" 0 "b00" 4; LOut "a02" 1 "b01" 4; LOut "a02" 2 "b02" 4;
   LOut "a02" 3 "b03" 4; LOut "a02" 4 "b04" 4; LOut "a02" 5 "b05" 4; LOut "a02" 6 "b06" 4; LOut "a02" 7 "b07" 4;
   LOut "a02" 8 "b00" 5; LOut "a02" 9 "b01" 5; LOut "a02" 10 "b02" 5; LOut "a02" 11 "b03" 5; LOut "a02" 12 "b04" 5;
   LOut "a02" 13 "b05" 5; LOut "a02" 14 "b06" 5; LOut "a02" 15 "b07" 5; LOut "a03" 0 "b00" 6; LOut "a03" 1 "b01" 6;
   LOut "a03" 2 "b02" 6; LOut "a03" 3 "b03" 6; LOut "a03" 4 "b04" 6; LOut "a03" 5 "b05" 6; LOut "a03" 6 "b06" 6;
   LOut "a03" 7 "b07" 6; LOut "a03" 8 "b00" 7; LOut "a03" 9 "b01" 7; LOut "a03" 10 "b02" 7; LOut "a03" 11 "b03" 7;
   LOut "a03" 12 "b04" 7; LOut "a03" 13 "b05" 7; LOut "a03" 14 "b06" 7; LOut "a03" 15 "b07" 7; LOut "a04" 0 "b00" 8;
   LOut "a04" 1 "b01" 8; LOut "a04" 2 "b02" 8; LOut "a04" 3 "b03" 8; LOut "a04" 4 "b04" 8; LOut "a04" 5 "b05" 8;
   LOut "a04" 6 "b06" 8; LOut "a04" 7 "b07" 8; LOut "a04" 8 "b00" 9; LOut "a04" 9 "b01" 9; LOut "a04" 10 "b02" 9;
   LOut "a04" 11 "b03" 9; LOut "a04" 12 "b04" 9; LOut "a04" 13 "b05" 9; LOut "a04" 14 "b06" 9; LOut "a04" 15 "b07" 9;
   LOut "a05" 0 "b00" 10; LOut "a05" 1 "b01" 10; LOut "a05" 2 "b02" 10; LOut "a05" 3 "b03" 10; LOut "a05" 4 "b04" 10;
   LOut "a05" 5 "b05" 10; LOut "a05" 6 "b06" 10; LOut "a05" 7 "b07" 10; LOut "a05" 8 "b00" 11; LOut "a05" 9 "b01" 11;
   LOut "a05" 10 "b02" 11; LOut "a05" 11 "b03" 11; LOut "a05" 12 "b04" 11; LOut "a05" 13 "b05" 11;
   LOut "a05" 14 "b06" 11; LOut "a05" 15 "b07" 11; LOut "a06" 0 "b00" 12; LOut "a06" 1 "b01" 12;
   LOut "a06" 2 "b02" 12; LOut "a06" 3 "b03" 12; LOut "a06" 4 "b04" 12; LOut "a06" 5 "b05" 12; LOut "a06" 6 "b06" 12;
   LOut "a06" 7 "b07" 12; LOut "a06" 8 "b00" 13; LOut "a06" 9 "b01" 13; LOut "a06" 10 "b02" 13;
   LOut "a06" 11 "b03" 13; LOut "a06" 12 "b04" 13; LOut "a06" 13 "b05" 13; LOut "a06" 14 "b06" 13;
   LOut "a06" 15 "b07" 13; LOut "a07" 0 "b00" 14; LOut "a07" 1 "b01" 14; LOut "a07" 2 "b02" 14; LOut "a07" 3 "b03" 14;
   LOut "a07" 4 "b04" 14; LOut "a07" 5 "b05" 14; LOut "a07" 6 "b06" 14; LOut "a07" 7 "b07" 14; LOut "a07" 8 "b00" 15;
   LOut "a07" 9 "b01" 15; LOut "a07" 10 "b02" 15; LOut "a07" 11 "b03" 15; LOut "a07" 12 "b04" 15;
   LOut "a07" 13 "b05" 15; LOut "a07" 14 "b06" 15; LOut "a07" 15 "b07" 15].
(* v16_portable.h:2674-2958 *)
Definition p16_store_16x16_tr_p : list stmt :=
  [LOut "a00" 0 "b00" 0; LOut "a00" 1 "b01" 0; LOut "a00" 2 "b02" 0; LOut "a00" 3 "b03" 0; LOut "a00" 4 "b04" 0;
   LOut "a00" 5 "b05" 0; LOut "a00" 6 "b06" 0; LOut "a00" 7 "b07" 0; LOut "a00" 8 "b00" 1; LOut "a00" 9 "b01" 1;
   LOut "a00" 10 "b02" 1; LOut "a00" 11 "b03" 1; LOut "a00" 12 "b04" 1; LOut "a00" 13 "b05" 1; LOut "a00" 14 "b06" 1;
   LOut "a00" 15 "b07" 1; LOut "a01" 0 "b00" 2; LOut "a01" 1 "b01" 2; LOut "a01" 2 "b02" 2; LOut "a01" 3 "b03" 2;
   LOut "a01" 4 "b04" 2; LOut "a01" 5 "b05" 2; LOut "a01" 6 "b06" 2; LOut "a01" 7 "b07" 2; LOut "a01" 8 "b00" 3;
   LOut "a01" 9 "b01" 3; LOut "a01" 10 "b02" 3; LOut "a01" 11 "b03" 3; LOut "a01" 12 "b04" 3; LOut "a01" 13 "b05" 3;
   LOut "a01" 14 "b06" 3; LOut "a01" 15 "b07" 3; LOut "a02" 0 "b00" 4; LOut "a02" 1 "b01" 4; LOut "a02" 2 "b02" 4;
   LOut "a02" 3 "b03" 4; LOut "a02" 4 "b04" 4; LOut "a02" 5 "b05" 4; LOut "a02" 6 "b06" 4; LOut "a02" 7 "b07" 4;
   LOut "a02" 8 "b00" 5; LOut "a02" 9 "b01" 5; LOut "a02" 10 "b02" 5; LOut "a02" 11 "b03" 5; LOut "a02" 12 "b04" 5;
   LOut "a02" 13 "b05" 5; LOut "a02" 14 "b06" 5; LOut "a02" 15 "b07" 5; LOut "a03" 0 "b00" 6; LOut "a03" 1 "b01" 6;
   LOut "a03" 2 "b02" 6; LOut "a03" 3 "b03" 6; LOut "a03" 4 "b04" 6; LOut "a03" 5 "b05" 6; LOut "a03" 6 "b06" 6;
   LOut "a03" 7 "b07" 6; LOut "a03" 8 "b00" 7; LOut "a03" 9 "b01" 7; LOut "a03" 10 "b02" 7; LOut "a03" 11 "b03" 7;
   LOut "a03" 12 "b04" 7; LOut "a03" 13 "b05" 7; LOut "a03" 14 "b06" 7; LOut "a03" 15 "b07" 7; LOut "a04" 0 "b00" 8;
   LOut "a04" 1 "b01" 8; LOut "a04" 2 "b02" 8; LOut "a04" 3 "b03" 8; LOut "a04" 4 "b04" 8; LOut "a04" 5 "b05" 8;
   LOut "a04" 6 "b06" 8; LOut "a04" 7 "b07" 8; LOut "a04" 8 "b00" 9; LOut "a04" 9 "b01" 9; LOut "a04" 10 "b02" 9;
   LOut "a04" 11 "b03" 9; LOut "a04" 12 "b04" 9; LOut "a04" 13 "b05" 9; LOut "a04" 14 "b06" 9; LOut "a04" 15 "b07" 9;
   LOut "a05" 0 "b00" 10; LOut "a05" 1 "b01" 10; LOut "a05" 2 "b02" 10; LOut "a05" 3 "b03" 10; LOut "a05" 4 "b04" 10;
   LOut "a05" 5 "b05" 10; LOut "a05" 6 "b06" 10; LOut "a05" 7 "b07" 10; LOut "a05" 8 "b00" 11; LOut "a05" 9 "b01" 11;
   LOut "a05" 10 "b02" 11; LOut "a05" 11 "b03" 11; LOut "a05" 12 "b04" 11; LOut "a05" 13 "b05" 11;
   LOut "a05" 14 "b06" 11; LOut "a05" 15 "b07" 11; LOut "a06" 0 "b00" 12; LOut "a06" 1 "b01" 12;
   LOut "a06" 2 "b02" 12; LOut "a06" 3 "b03" 12; LOut "a06" 4 "b04" 12; LOut "a06" 5 "b05" 12; LOut "a06" 6 "b06" 12;
   LOut "a06" 7 "b07" 12; LOut "a06" 8 "b00" 13; LOut "a06" 9 "b01" 13; LOut "a06" 10 "b02" 13;
   LOut "a06" 11 "b03" 13; LOut "a06" 12 "b04" 13; LOut "a06" 13 "b05" 13; LOut "a06" 14 "b06" 13;
   LOut "a06" 15 "b07" 13; LOut "a07" 0 "b00" 14; LOut "a07" 1 "b01" 14; LOut "a07" 2 "b02" 14; LOut "a07" 3 "b03" 14;
   LOut "a07" 4 "b04" 14; LOut "a07" 5 "b05" 14; LOut "a07" 6 "b06" 14; LOut "a07" 7 "b07" 14; LOut "a07" 8 "b00" 15;
   LOut "a07" 9 "b01" 15; LOut "a07" 10 "b02" 15; LOut "a07" 11 "b03" 15; LOut "a07" 12 "b04" 15;
   LOut "a07" 13 "b05" 15; LOut "a07" 14 "b06" 15; LOut "a07" 15 "b07" 15; LOut "a08" 0 "b08" 0; LOut "a08" 1 "b09" 0;
   LOut "a08" 2 "b10" 0; LOut "a08" 3 "b11" 0; LOut "a08" 4 "b12" 0; LOut "a08" 5 "b13" 0; LOut "a08" 6 "b14" 0;
   LOut "a08" 7 "b15" 0; LOut "a08" 8 "b08" 1; LOut "a08" 9 "b09" 1; LOut "a08" 10 "b10" 1; LOut "a08" 11 "b11" 1;
   LOut "a08" 12 "b12" 1; LOut "a08" 13 "b13" 1; LOut "a08" 14 "b14" 1; LOut "a08" 15 "b15" 1; LOut "a09" 0 "b08" 2;
   LOut "a09" 1 "b09" 2; LOut "a09" 2 "b10" 2; LOut "a09" 3 "b11" 2; LOut "a09" 4 "b12" 2; LOut "a09" 5 "b13" 2;
   LOut "a09" 6 "b14" 2; LOut "a09" 7 "b15" 2; LOut "a09" 8 "b08" 3; LOut "a09" 9 "b09" 3; LOut "a09" 10 "b10" 3;
   LOut "a09" 11 "b11" 3; LOut "a09" 12 "b12" 3; LOut "a09" 13 "b13" 3; LOut "a09" 14 "b14" 3; LOut "a09" 15 "b15" 3;
   LOut "a10" 0 "b08" 4; LOut "a10" 1 "b09" 4; LOut "a10" 2 "b10" 4; LOut "a10" 3 "b11" 4; LOut "a10" 4 "b12" 4;
   LOut "a10" 5 "b13" 4; LOut "a10" 6 "b14" 4; LOut "a10" 7 "b15" 4; LOut "a10" 8 "b08" 5; LOut "a10" 9 "b09" 5;
   LOut "a10" 10 "b10" 5; LOut "a10" 11 "b11" 5; LOut "a10" 12 "b12" 5; LOut "a10" 13 "b13" 5; LOut "a10" 14 "b14" 5;
   LOut "a10" 15 "b15" 5; LOut "a11" 0 "b08" 6; LOut "a11" 1 "b09" 6; LOut "a11" 2 "b10" 6; LOut "a11" 3 "b11" 6;
   LOut "a11" 4 "b12" 6; LOut "a11" 5 "b13" 6; LOut "a11" 6 "b14" 6; LOut "a11" 7 "b15" 6; LOut "a11" 8 "b08" 7;
   LOut "a11" 9 "b09" 7; LOut "a11" 10 "b10" 7; LOut "a11" 11 "b11" 7; LOut "a11" 12 "b12" 7; LOut "a11" 13 "b13" 7;
   LOut "a11" 14 "b14" 7; LOut "a11" 15 "b15" 7; LOut "a12" 0 "b08" 8; LOut "a12" 1 "b09" 8; LOut "a12" 2 "b10" 8;
   LOut "a12" 3 "b11" 8; LOut "a12" 4 "b12" 8; LOut "a12" 5 "b13" 8; LOut "a12" 6 "b14" 8; LOut "a12" 7 "b15" 8;
   LOut "a12" 8 "b08" 9; LOut "a12" 9 "b09" 9; LOut "a12" 10 "b10" 9; LOut "a12" 11 "b11" 9; LOut "a12" 12 "b12" 9;
   LOut "a12" 13 "b13" 9; LOut "a12" 14 "b14" 9; LOut "a12" 15 "b15" 9; LOut "a13" 0 "b08" 10; LOut "a13" 1 "b09" 10;
   LOut "a13" 2 "b10" 10; LOut "a13" 3 "b11" 10; LOut "a13" 4 "b12" 10; LOut "a13" 5 "b13" 10; LOut "a13" 6 "b14" 10;
   LOut "a13" 7 "b15" 10; LOut "a13" 8 "b08" 11; LOut "a13" 9 "b09" 11; LOut "a13" 10 "b10" 11;
   LOut "a13" 11 "b11" 11; LOut "a13" 12 "b12" 11; LOut "a13" 13 "b13" 11; LOut "a13" 14 "b14" 11;
   LOut "a13" 15 "b15" 11; LOut "a14" 0 "b08" 12; LOut "a14" 1 "b09" 12; LOut "a14" 2 "b10" 12; LOut "a14" 3 "b11" 12;
   LOut "a14" 4 "b12" 12; LOut "a14" 5 "b13" 12; LOut "a14" 6 "b14" 12; LOut "a14" 7 "b15" 12; LOut "a14" 8 "b08" 13;
   LOut "a14" 9 "b09" 13; LOut "a14" 10 "b10" 13; LOut "a14" 11 "b11" 13; LOut "a14" 12 "b12" 13;
   LOut "a14" 13 "b13" 13; LOut "a14" 14 "b14" 13; LOut "a14" 15 "b15" 13; LOut "a15" 0 "b08" 14;
   LOut "a15" 1 "b09" 14; LOut "a15" 2 "b10" 14; LOut "a15" 3 "b11" 14; LOut "a15" 4 "b12" 14; LOut "a15" 5 "b13" 14;
   LOut "a15" 6 "b14" 14; LOut "a15" 7 "b15" 14; LOut "a15" 8 "b08" 15; LOut "a15" 9 "b09" 15; LOut "a15" 10 "b10" 15;
   LOut "a15" 11 "b11" 15; LOut "a15" 12 "b12" 15; LOut "a15" 13 "b13" 15; LOut "a15" 14 "b14" 15;
   LOut "a15" 15 "b15" 15].

(* ---- /repo/src/util/v16/v16_avx512.h ---- *)
(* v16_avx512.h:420-427 *)
Definition avx512_swap : list stmt :=
  ["a_v" ::= "a"; "a" ::= "b"; "b" ::= "a_v"].
(* v16_avx512.h:429-520 *)
Definition avx512_transpose : list stmt :=
  ["t00" ::= Ulo "a00" "a01"; "t01" ::= Uhi "a00" "a01"; "t02" ::= Ulo "a02" "a03"; "t03" ::= Uhi "a02" "a03";
   "t04" ::= Ulo "a04" "a05"; "t05" ::= Uhi "a04" "a05"; "t06" ::= Ulo "a06" "a07"; "t07" ::= Uhi "a06" "a07";
   "t08" ::= Ulo "a08" "a09"; "t09" ::= Uhi "a08" "a09"; "t10" ::= Ulo "a10" "a11"; "t11" ::= Uhi "a10" "a11";
   "t12" ::= Ulo "a12" "a13"; "t13" ::= Uhi "a12" "a13"; "t14" ::= Ulo "a14" "a15"; "t15" ::= Uhi "a14" "a15";
   "a00" ::= Shuf "t00" "t02" (mm_shuffle 1 0 1 0); "a01" ::= Shuf "t00" "t02" (mm_shuffle 3 2 3 2);
   "a02" ::= Shuf "t01" "t03" (mm_shuffle 1 0 1 0); "a03" ::= Shuf "t01" "t03" (mm_shuffle 3 2 3 2);
   "a04" ::= Shuf "t04" "t06" (mm_shuffle 1 0 1 0); "a05" ::= Shuf "t04" "t06" (mm_shuffle 3 2 3 2);
   "a06" ::= Shuf "t05" "t07" (mm_shuffle 1 0 1 0); "a07" ::= Shuf "t05" "t07" (mm_shuffle 3 2 3 2);
   "a08" ::= Shuf "t08" "t10" (mm_shuffle 1 0 1 0); "a09" ::= Shuf "t08" "t10" (mm_shuffle 3 2 3 2);
   "a10" ::= Shuf "t09" "t11" (mm_shuffle 1 0 1 0); "a11" ::= Shuf "t09" "t11" (mm_shuffle 3 2 3 2);
   "a12" ::= Shuf "t12" "t14" (mm_shuffle 1 0 1 0); "a13" ::= Shuf "t12" "t14" (mm_shuffle 3 2 3 2);
   "a14" ::= Shuf "t13" "t15" (mm_shuffle 1 0 1 0); "a15" ::= Shuf "t13" "t15" (mm_shuffle 3 2 3 2);
   "t00" ::= ShF "a00" "a04" 136; "t01" ::= ShF "a01" "a05" 136; "t02" ::= ShF "a02" "a06" 136;
   "t03" ::= ShF "a03" "a07" 136; "t04" ::= ShF "a00" "a04" 221; "t05" ::= ShF "a01" "a05" 221;
   "t06" ::= ShF "a02" "a06" 221; "t07" ::= ShF "a03" "a07" 221; "t08" ::= ShF "a08" "a12" 136;
   "t09" ::= ShF "a09" "a13" 136; "t10" ::= ShF "a10" "a14" 136; "t11" ::= ShF "a11" "a15" 136;
   "t12" ::= ShF "a08" "a12" 221; "t13" ::= ShF "a09" "a13" 221; "t14" ::= ShF "a10" "a14" 221;
   "t15" ::= ShF "a11" "a15" 221; "a00" ::= ShF "t00" "t08" 136; "a01" ::= ShF "t01" "t09" 136;
   "a02" ::= ShF "t02" "t10" 136; "a03" ::= ShF "t03" "t11" 136; "a04" ::= ShF "t04" "t12" 136;
   "a05" ::= ShF "t05" "t13" 136; "a06" ::= ShF "t06" "t14" 136; "a07" ::= ShF "t07" "t15" 136;
   "a08" ::= ShF "t00" "t08" 221; "a09" ::= ShF "t01" "t09" 221; "a10" ::= ShF "t02" "t10" 221;
   "a11" ::= ShF "t03" "t11" 221; "a12" ::= ShF "t04" "t12" 221; "a13" ::= ShF "t05" "t13" 221;
   "a14" ::= ShF "t06" "t14" 221; "a15" ::= ShF "t07" "t15" 221].
(* v16_avx512.h:527-532 *)
Definition avx512_load_16x1 : list stmt :=
  flat_map (fun j => [LIn 16 "a" j "p" j]) (seq 0 16).
(* v16_avx512.h:535-540 *)
Definition avx512_store_16x1 : list stmt :=
  flat_map (fun j => [LOut "p" j "a" j]) (seq 0 16).
(* v16_avx512.h:542-547 *)
Definition avx512_stream_16x1 : list stmt := avx512_store_16x1.
(* v16_avx512.h:549-553 *)
Definition avx512_clear_16x1 : list stmt :=
  flat_map (fun j => [Clr "p" j]) (seq 0 16).
(* v16_avx512.h:556-561 *)
Definition avx512_copy_16x1 : list stmt :=
  flat_map (fun j => [Cp "dst" j "src" j]) (seq 0 16).
(* v16_avx512.h:563-574 *)
Definition avx512_swap_16x1 : list stmt :=
  flat_map (fun j => [LIn 1 "t" 0 "a" j; Cp "a" j "b" j; LOut "b" j "t" 0]) (seq 0 16).
(* v16_avx512.h:578-604 *)
Definition avx512_load_16x1_tr : list stmt := p16_load_16x1_tr.
(* v16_avx512.h:606-669 *)
Definition avx512_load_16x2_tr : list stmt :=
  ["u00" ::= Ld 16 "a00"; "u01" ::= Ld 16 "a01"; "u02" ::= Ld 16 "a02"; "u03" ::= Ld 16 "a03"; "u04" ::= Ld 16 "a04";
   "u05" ::= Ld 16 "a05"; "u06" ::= Ld 16 "a06"; "u07" ::= Ld 16 "a07"; "u08" ::= Ld 16 "a08"; "u09" ::= Ld 16 "a09";
   "u10" ::= Ld 16 "a10"; "u11" ::= Ld 16 "a11"; "u12" ::= Ld 16 "a12"; "u13" ::= Ld 16 "a13"; "u14" ::= Ld 16 "a14";
   "u15" ::= Ld 16 "a15"; "t00" ::= Ulo "u00" "u01"; "t02" ::= Ulo "u02" "u03"; "t04" ::= Ulo "u04" "u05";
   "t06" ::= Ulo "u06" "u07"; "t08" ::= Ulo "u08" "u09"; "t10" ::= Ulo "u10" "u11"; "t12" ::= Ulo "u12" "u13";
   "t14" ::= Ulo "u14" "u15"; "u00" ::= Shuf "t00" "t02" (mm_shuffle 1 0 1 0);
   "u01" ::= Shuf "t00" "t02" (mm_shuffle 3 2 3 2); "u04" ::= Shuf "t04" "t06" (mm_shuffle 1 0 1 0);
   "u05" ::= Shuf "t04" "t06" (mm_shuffle 3 2 3 2); "u08" ::= Shuf "t08" "t10" (mm_shuffle 1 0 1 0);
   "u09" ::= Shuf "t08" "t10" (mm_shuffle 3 2 3 2); "u12" ::= Shuf "t12" "t14" (mm_shuffle 1 0 1 0);
   "u13" ::= Shuf "t12" "t14" (mm_shuffle 3 2 3 2); "t00" ::= ShF "u00" "u04" 136; "t01" ::= ShF "u01" "u05" 136;
   "t08" ::= ShF "u08" "u12" 136; "t09" ::= ShF "u09" "u13" 136; "b00" ::= ShF "t00" "t08" 136;
   "b01" ::= ShF "t01" "t09" 136].
(* v16_avx512.h:671-680 *)
Definition avx512_load_16x2_bc : list stmt :=
  ["t00" ::= Ld 16 "a00"; "b00" ::= Set1 16 "t00" 0; "b01" ::= Set1 16 "t00" 1].
(* v16_avx512.h:682-760 *)
Definition avx512_load_16x3_tr : list stmt :=
  ["u00" ::= Ld 16 "a00"; "u01" ::= Ld 16 "a01"; "u02" ::= Ld 16 "a02"; "u03" ::= Ld 16 "a03"; "u04" ::= Ld 16 "a04";
   "u05" ::= Ld 16 "a05"; "u06" ::= Ld 16 "a06"; "u07" ::= Ld 16 "a07"; "u08" ::= Ld 16 "a08"; "u09" ::= Ld 16 "a09";
   "u10" ::= Ld 16 "a10"; "u11" ::= Ld 16 "a11"; "u12" ::= Ld 16 "a12"; "u13" ::= Ld 16 "a13"; "u14" ::= Ld 16 "a14";
   "u15" ::= Ld 16 "a15"; "t00" ::= Ulo "u00" "u01"; "t01" ::= Uhi "u00" "u01"; "t02" ::= Ulo "u02" "u03";
   "t03" ::= Uhi "u02" "u03"; "t04" ::= Ulo "u04" "u05"; "t05" ::= Uhi "u04" "u05"; "t06" ::= Ulo "u06" "u07";
   "t07" ::= Uhi "u06" "u07"; "t08" ::= Ulo "u08" "u09"; "t09" ::= Uhi "u08" "u09"; "t10" ::= Ulo "u10" "u11";
   "t11" ::= Uhi "u10" "u11"; "t12" ::= Ulo "u12" "u13"; "t13" ::= Uhi "u12" "u13"; "t14" ::= Ulo "u14" "u15";
   "t15" ::= Uhi "u14" "u15"; "u00" ::= Shuf "t00" "t02" (mm_shuffle 1 0 1 0);
   "u01" ::= Shuf "t00" "t02" (mm_shuffle 3 2 3 2); "u02" ::= Shuf "t01" "t03" (mm_shuffle 1 0 1 0);
   "u04" ::= Shuf "t04" "t06" (mm_shuffle 1 0 1 0); "u05" ::= Shuf "t04" "t06" (mm_shuffle 3 2 3 2);
   "u06" ::= Shuf "t05" "t07" (mm_shuffle 1 0 1 0); "u08" ::= Shuf "t08" "t10" (mm_shuffle 1 0 1 0);
   "u09" ::= Shuf "t08" "t10" (mm_shuffle 3 2 3 2); "u10" ::= Shuf "t09" "t11" (mm_shuffle 1 0 1 0);
   "u12" ::= Shuf "t12" "t14" (mm_shuffle 1 0 1 0); "u13" ::= Shuf "t12" "t14" (mm_shuffle 3 2 3 2);
   "u14" ::= Shuf "t13" "t15" (mm_shuffle 1 0 1 0); "t00" ::= ShF "u00" "u04" 136; "t01" ::= ShF "u01" "u05" 136;
   "t02" ::= ShF "u02" "u06" 136; "t08" ::= ShF "u08" "u12" 136; "t09" ::= ShF "u09" "u13" 136;
   "t10" ::= ShF "u10" "u14" 136; "b00" ::= ShF "t00" "t08" 136; "b01" ::= ShF "t01" "t09" 136;
   "b02" ::= ShF "t02" "t10" 136].
(* v16_avx512.h:762-847 *)
Definition avx512_load_16x4_tr : list stmt :=
  ["u00" ::= Ld 16 "a00"; "u01" ::= Ld 16 "a01"; "u02" ::= Ld 16 "a02"; "u03" ::= Ld 16 "a03"; "u04" ::= Ld 16 "a04";
   "u05" ::= Ld 16 "a05"; "u06" ::= Ld 16 "a06"; "u07" ::= Ld 16 "a07"; "u08" ::= Ld 16 "a08"; "u09" ::= Ld 16 "a09";
   "u10" ::= Ld 16 "a10"; "u11" ::= Ld 16 "a11"; "u12" ::= Ld 16 "a12"; "u13" ::= Ld 16 "a13"; "u14" ::= Ld 16 "a14";
   "u15" ::= Ld 16 "a15"; "t00" ::= Ulo "u00" "u01"; "t01" ::= Uhi "u00" "u01"; "t02" ::= Ulo "u02" "u03";
   "t03" ::= Uhi "u02" "u03"; "t04" ::= Ulo "u04" "u05"; "t05" ::= Uhi "u04" "u05"; "t06" ::= Ulo "u06" "u07";
   "t07" ::= Uhi "u06" "u07"; "t08" ::= Ulo "u08" "u09"; "t09" ::= Uhi "u08" "u09"; "t10" ::= Ulo "u10" "u11";
   "t11" ::= Uhi "u10" "u11"; "t12" ::= Ulo "u12" "u13"; "t13" ::= Uhi "u12" "u13"; "t14" ::= Ulo "u14" "u15";
   "t15" ::= Uhi "u14" "u15"; "u00" ::= Shuf "t00" "t02" (mm_shuffle 1 0 1 0);
   "u01" ::= Shuf "t00" "t02" (mm_shuffle 3 2 3 2); "u02" ::= Shuf "t01" "t03" (mm_shuffle 1 0 1 0);
   "u03" ::= Shuf "t01" "t03" (mm_shuffle 3 2 3 2); "u04" ::= Shuf "t04" "t06" (mm_shuffle 1 0 1 0);
   "u05" ::= Shuf "t04" "t06" (mm_shuffle 3 2 3 2); "u06" ::= Shuf "t05" "t07" (mm_shuffle 1 0 1 0);
   "u07" ::= Shuf "t05" "t07" (mm_shuffle 3 2 3 2); "u08" ::= Shuf "t08" "t10" (mm_shuffle 1 0 1 0);
   "u09" ::= Shuf "t08" "t10" (mm_shuffle 3 2 3 2); "u10" ::= Shuf "t09" "t11" (mm_shuffle 1 0 1 0);
   "u11" ::= Shuf "t09" "t11" (mm_shuffle 3 2 3 2); "u12" ::= Shuf "t12" "t14" (mm_shuffle 1 0 1 0);
   "u13" ::= Shuf "t12" "t14" (mm_shuffle 3 2 3 2); "u14" ::= Shuf "t13" "t15" (mm_shuffle 1 0 1 0);
   "u15" ::= Shuf "t13" "t15" (mm_shuffle 3 2 3 2); "t00" ::= ShF "u00" "u04" 136; "t01" ::= ShF "u01" "u05" 136;
   "t02" ::= ShF "u02" "u06" 136; "t03" ::= ShF "u03" "u07" 136; "t08" ::= ShF "u08" "u12" 136;
   "t09" ::= ShF "u09" "u13" 136; "t10" ::= ShF "u10" "u14" 136; "t11" ::= ShF "u11" "u15" 136;
   "b00" ::= ShF "t00" "t08" 136; "b01" ::= ShF "t01" "t09" 136; "b02" ::= ShF "t02" "t10" 136;
   "b03" ::= ShF "t03" "t11" 136].
(* v16_avx512.h:849-947 *)
Definition avx512_load_16x8_tr : list stmt :=
  ["u00" ::= Ld 16 "a00"; "u01" ::= Ld 16 "a01"; "u02" ::= Ld 16 "a02"; "u03" ::= Ld 16 "a03"; "u04" ::= Ld 16 "a04";
   "u05" ::= Ld 16 "a05"; "u06" ::= Ld 16 "a06"; "u07" ::= Ld 16 "a07"; "u08" ::= Ld 16 "a08"; "u09" ::= Ld 16 "a09";
   "u10" ::= Ld 16 "a10"; "u11" ::= Ld 16 "a11"; "u12" ::= Ld 16 "a12"; "u13" ::= Ld 16 "a13"; "u14" ::= Ld 16 "a14";
   "u15" ::= Ld 16 "a15"; "t00" ::= Ulo "u00" "u01"; "t01" ::= Uhi "u00" "u01"; "t02" ::= Ulo "u02" "u03";
   "t03" ::= Uhi "u02" "u03"; "t04" ::= Ulo "u04" "u05"; "t05" ::= Uhi "u04" "u05"; "t06" ::= Ulo "u06" "u07";
   "t07" ::= Uhi "u06" "u07"; "t08" ::= Ulo "u08" "u09"; "t09" ::= Uhi "u08" "u09"; "t10" ::= Ulo "u10" "u11";
   "t11" ::= Uhi "u10" "u11"; "t12" ::= Ulo "u12" "u13"; "t13" ::= Uhi "u12" "u13"; "t14" ::= Ulo "u14" "u15";
   "t15" ::= Uhi "u14" "u15"; "u00" ::= Shuf "t00" "t02" (mm_shuffle 1 0 1 0);
   "u01" ::= Shuf "t00" "t02" (mm_shuffle 3 2 3 2); "u02" ::= Shuf "t01" "t03" (mm_shuffle 1 0 1 0);
   "u03" ::= Shuf "t01" "t03" (mm_shuffle 3 2 3 2); "u04" ::= Shuf "t04" "t06" (mm_shuffle 1 0 1 0);
   "u05" ::= Shuf "t04" "t06" (mm_shuffle 3 2 3 2); "u06" ::= Shuf "t05" "t07" (mm_shuffle 1 0 1 0);
   "u07" ::= Shuf "t05" "t07" (mm_shuffle 3 2 3 2); "u08" ::= Shuf "t08" "t10" (mm_shuffle 1 0 1 0);
   "u09" ::= Shuf "t08" "t10" (mm_shuffle 3 2 3 2); "u10" ::= Shuf "t09" "t11" (mm_shuffle 1 0 1 0);
   "u11" ::= Shuf "t09" "t11" (mm_shuffle 3 2 3 2); "u12" ::= Shuf "t12" "t14" (mm_shuffle 1 0 1 0);
   "u13" ::= Shuf "t12" "t14" (mm_shuffle 3 2 3 2); "u14" ::= Shuf "t13" "t15" (mm_shuffle 1 0 1 0);
   "u15" ::= Shuf "t13" "t15" (mm_shuffle 3 2 3 2); "t00" ::= ShF "u00" "u04" 136; "t01" ::= ShF "u01" "u05" 136;
   "t02" ::= ShF "u02" "u06" 136; "t03" ::= ShF "u03" "u07" 136; "t04" ::= ShF "u00" "u04" 221;
   "t05" ::= ShF "u01" "u05" 221; "t06" ::= ShF "u02" "u06" 221; "t07" ::= ShF "u03" "u07" 221;
   "t08" ::= ShF "u08" "u12" 136; "t09" ::= ShF "u09" "u13" 136; "t10" ::= ShF "u10" "u14" 136;
   "t11" ::= ShF "u11" "u15" 136; "t12" ::= ShF "u08" "u12" 221; "t13" ::= ShF "u09" "u13" 221;
   "t14" ::= ShF "u10" "u14" 221; "t15" ::= ShF "u11" "u15" 221; "b00" ::= ShF "t00" "t08" 136;
   "b01" ::= ShF "t01" "t09" 136; "b02" ::= ShF "t02" "t10" 136; "b03" ::= ShF "t03" "t11" 136;
   "b04" ::= ShF "t04" "t12" 136; "b05" ::= ShF "t05" "t13" 136; "b06" ::= ShF "t06" "t14" 136;
   "b07" ::= ShF "t07" "t15" 136].
(* v16_avx512.h:950-1057 *)
Definition avx512_load_16x16_tr : list stmt :=
  ["b00" ::= Ld 16 "a00"; "b01" ::= Ld 16 "a01"; "b02" ::= Ld 16 "a02"; "b03" ::= Ld 16 "a03"; "b04" ::= Ld 16 "a04";
   "b05" ::= Ld 16 "a05"; "b06" ::= Ld 16 "a06"; "b07" ::= Ld 16 "a07"; "b08" ::= Ld 16 "a08"; "b09" ::= Ld 16 "a09";
   "b10" ::= Ld 16 "a10"; "b11" ::= Ld 16 "a11"; "b12" ::= Ld 16 "a12"; "b13" ::= Ld 16 "a13"; "b14" ::= Ld 16 "a14";
   "b15" ::= Ld 16 "a15"; "t00" ::= Ulo "b00" "b01"; "t01" ::= Uhi "b00" "b01"; "t02" ::= Ulo "b02" "b03";
   "t03" ::= Uhi "b02" "b03"; "t04" ::= Ulo "b04" "b05"; "t05" ::= Uhi "b04" "b05"; "t06" ::= Ulo "b06" "b07";
   "t07" ::= Uhi "b06" "b07"; "t08" ::= Ulo "b08" "b09"; "t09" ::= Uhi "b08" "b09"; "t10" ::= Ulo "b10" "b11";
   "t11" ::= Uhi "b10" "b11"; "t12" ::= Ulo "b12" "b13"; "t13" ::= Uhi "b12" "b13"; "t14" ::= Ulo "b14" "b15";
   "t15" ::= Uhi "b14" "b15"; "b00" ::= Shuf "t00" "t02" (mm_shuffle 1 0 1 0);
   "b01" ::= Shuf "t00" "t02" (mm_shuffle 3 2 3 2); "b02" ::= Shuf "t01" "t03" (mm_shuffle 1 0 1 0);
   "b03" ::= Shuf "t01" "t03" (mm_shuffle 3 2 3 2); "b04" ::= Shuf "t04" "t06" (mm_shuffle 1 0 1 0);
   "b05" ::= Shuf "t04" "t06" (mm_shuffle 3 2 3 2); "b06" ::= Shuf "t05" "t07" (mm_shuffle 1 0 1 0);
   "b07" ::= Shuf "t05" "t07" (mm_shuffle 3 2 3 2); "b08" ::= Shuf "t08" "t10" (mm_shuffle 1 0 1 0);
   "b09" ::= Shuf "t08" "t10" (mm_shuffle 3 2 3 2); "b10" ::= Shuf "t09" "t11" (mm_shuffle 1 0 1 0);
   "b11" ::= Shuf "t09" "t11" (mm_shuffle 3 2 3 2); "b12" ::= Shuf "t12" "t14" (mm_shuffle 1 0 1 0);
   "b13" ::= Shuf "t12" "t14" (mm_shuffle 3 2 3 2); "b14" ::= Shuf "t13" "t15" (mm_shuffle 1 0 1 0);
   "b15" ::= Shuf "t13" "t15" (mm_shuffle 3 2 3 2); "t00" ::= ShF "b00" "b04" 136; "t01" ::= ShF "b01" "b05" 136;
   "t02" ::= ShF "b02" "b06" 136; "t03" ::= ShF "b03" "b07" 136; "t04" ::= ShF "b00" "b04" 221;
   "t05" ::= ShF "b01" "b05" 221; "t06" ::= ShF "b02" "b06" 221; "t07" ::= ShF "b03" "b07" 221;
   "t08" ::= ShF "b08" "b12" 136; "t09" ::= ShF "b09" "b13" 136; "t10" ::= ShF "b10" "b14" 136;
   "t11" ::= ShF "b11" "b15" 136; "t12" ::= ShF "b08" "b12" 221; "t13" ::= ShF "b09" "b13" 221;
   "t14" ::= ShF "b10" "b14" 221; "t15" ::= ShF "b11" "b15" 221; "b00" ::= ShF "t00" "t08" 136;
   "b01" ::= ShF "t01" "t09" 136; "b02" ::= ShF "t02" "t10" 136; "b03" ::= ShF "t03" "t11" 136;
   "b04" ::= ShF "t04" "t12" 136; "b05" ::= ShF "t05" "t13" 136; "b06" ::= ShF "t06" "t14" 136;
   "b07" ::= ShF "t07" "t15" 136; "b08" ::= ShF "t00" "t08" 221; "b09" ::= ShF "t01" "t09" 221;
   "b10" ::= ShF "t02" "t10" 221; "b11" ::= ShF "t03" "t11" 221; "b12" ::= ShF "t04" "t12" 221;
   "b13" ::= ShF "t05" "t13" 221; "b14" ::= ShF "t06" "t14" 221; "b15" ::= ShF "t07" "t15" 221].
(* v16_avx512.h:1060-1119 *)
Definition avx512_load_16x8_tr_p : list stmt :=
  let idx := [15; 11; 14; 10; 13; 9; 12; 8; 7; 3; 6; 2; 5; 1; 4; 0] in
  ["b00" ::= Ld 16 "a00"; "b01" ::= Ld 16 "a01"; "b02" ::= Ld 16 "a02"; "b03" ::= Ld 16 "a03"; "b04" ::= Ld 16 "a04";
   "b05" ::= Ld 16 "a05"; "b06" ::= Ld 16 "a06"; "b07" ::= Ld 16 "a07"; "t00" ::= Ulo "b00" "b01";
   "t01" ::= Uhi "b00" "b01"; "t02" ::= Ulo "b02" "b03"; "t03" ::= Uhi "b02" "b03"; "t04" ::= Ulo "b04" "b05";
   "t05" ::= Uhi "b04" "b05"; "t06" ::= Ulo "b06" "b07"; "t07" ::= Uhi "b06" "b07";
   "b00" ::= Shuf "t00" "t02" (mm_shuffle 1 0 1 0); "b01" ::= Shuf "t00" "t02" (mm_shuffle 3 2 3 2);
   "b02" ::= Shuf "t01" "t03" (mm_shuffle 1 0 1 0); "b03" ::= Shuf "t01" "t03" (mm_shuffle 3 2 3 2);
   "b04" ::= Shuf "t04" "t06" (mm_shuffle 1 0 1 0); "b05" ::= Shuf "t04" "t06" (mm_shuffle 3 2 3 2);
   "b06" ::= Shuf "t05" "t07" (mm_shuffle 1 0 1 0); "b07" ::= Shuf "t05" "t07" (mm_shuffle 3 2 3 2);
   "t00" ::= ShF "b00" "b04" 136; "t01" ::= ShF "b01" "b05" 136; "t02" ::= ShF "b02" "b06" 136;
   "t03" ::= ShF "b03" "b07" 136; "t04" ::= ShF "b00" "b04" 221; "t05" ::= ShF "b01" "b05" 221;
   "t06" ::= ShF "b02" "b06" 221; "t07" ::= ShF "b03" "b07" 221; "b00" ::= PermX idx "t00"; "b01" ::= PermX idx "t01";
   "b02" ::= PermX idx "t02"; "b03" ::= PermX idx "t03"; "b04" ::= PermX idx "t04"; "b05" ::= PermX idx "t05";
   "b06" ::= PermX idx "t06"; "b07" ::= PermX idx "t07"].
(* v16_avx512.h:1122-1231 *)
Definition avx512_load_16x16_tr_p : list stmt :=
  let idx := [15; 11; 14; 10; 13; 9; 12; 8; 7; 3; 6; 2; 5; 1; 4; 0] in
  ["b00" ::= Ld 16 "a00"; "b01" ::= Ld 16 "a01"; "b02" ::= Ld 16 "a02"; "b03" ::= Ld 16 "a03"; "b04" ::= Ld 16 "a04";
   "b05" ::= Ld 16 "a05"; "b06" ::= Ld 16 "a06"; "b07" ::= Ld 16 "a07"; "b08" ::= Ld 16 "a08"; "b09" ::= Ld 16 "a09";
   "b10" ::= Ld 16 "a10"; "b11" ::= Ld 16 "a11"; "b12" ::= Ld 16 "a12"; "b13" ::= Ld 16 "a13"; "b14" ::= Ld 16 "a14";
   "b15" ::= Ld 16 "a15"; "t00" ::= Ulo "b00" "b01"; "t01" ::= Uhi "b00" "b01"; "t02" ::= Ulo "b02" "b03";
   "t03" ::= Uhi "b02" "b03"; "t04" ::= Ulo "b04" "b05"; "t05" ::= Uhi "b04" "b05"; "t06" ::= Ulo "b06" "b07";
   "t07" ::= Uhi "b06" "b07"; "t08" ::= Ulo "b08" "b09"; "t09" ::= Uhi "b08" "b09"; "t10" ::= Ulo "b10" "b11";
   "t11" ::= Uhi "b10" "b11"; "t12" ::= Ulo "b12" "b13"; "t13" ::= Uhi "b12" "b13"; "t14" ::= Ulo "b14" "b15";
   "t15" ::= Uhi "b14" "b15"; "b00" ::= Shuf "t00" "t02" (mm_shuffle 1 0 1 0);
   "b01" ::= Shuf "t00" "t02" (mm_shuffle 3 2 3 2); "b02" ::= Shuf "t01" "t03" (mm_shuffle 1 0 1 0);
   "b03" ::= Shuf "t01" "t03" (mm_shuffle 3 2 3 2); "b04" ::= Shuf "t04" "t06" (mm_shuffle 1 0 1 0);
   "b05" ::= Shuf "t04" "t06" (mm_shuffle 3 2 3 2); "b06" ::= Shuf "t05" "t07" (mm_shuffle 1 0 1 0);
   "b07" ::= Shuf "t05" "t07" (mm_shuffle 3 2 3 2); "b08" ::= Shuf "t08" "t10" (mm_shuffle 1 0 1 0);
   "b09" ::= Shuf "t08" "t10" (mm_shuffle 3 2 3 2); "b10" ::= Shuf "t09" "t11" (mm_shuffle 1 0 1 0);
   "b11" ::= Shuf "t09" "t11" (mm_shuffle 3 2 3 2); "b12" ::= Shuf "t12" "t14" (mm_shuffle 1 0 1 0);
   "b13" ::= Shuf "t12" "t14" (mm_shuffle 3 2 3 2); "b14" ::= Shuf "t13" "t15" (mm_shuffle 1 0 1 0);
   "b15" ::= Shuf "t13" "t15" (mm_shuffle 3 2 3 2); "t00" ::= ShF "b00" "b04" 136; "t01" ::= ShF "b01" "b05" 136;
   "t02" ::= ShF "b02" "b06" 136; "t03" ::= ShF "b03" "b07" 136; "t04" ::= ShF "b00" "b04" 221;
   "t05" ::= ShF "b01" "b05" 221; "t06" ::= ShF "b02" "b06" 221; "t07" ::= ShF "b03" "b07" 221;
   "t08" ::= ShF "b08" "b12" 136; "t09" ::= ShF "b09" "b13" 136; "t10" ::= ShF "b10" "b14" 136;
   "t11" ::= ShF "b11" "b15" 136; "t12" ::= ShF "b08" "b12" 221; "t13" ::= ShF "b09" "b13" 221;
   "t14" ::= ShF "b10" "b14" 221; "t15" ::= ShF "b11" "b15" 221; "b00" ::= PermX idx "t00"; "b01" ::= PermX idx "t01";
   "b02" ::= PermX idx "t02"; "b03" ::= PermX idx "t03"; "b04" ::= PermX idx "t04"; "b05" ::= PermX idx "t05";
   "b06" ::= PermX idx "t06"; "b07" ::= PermX idx "t07"; "b08" ::= PermX idx "t08"; "b09" ::= PermX idx "t09";
   "b10" ::= PermX idx "t10"; "b11" ::= PermX idx "t11"; "b12" ::= PermX idx "t12"; "b13" ::= PermX idx "t13";
   "b14" ::= PermX idx "t14"; "b15" ::= PermX idx "t15"].
(* v16_avx512.h:1233-1255 *)
Definition avx512_store_16x1_tr : list stmt := p16_store_16x1_tr.
(* v16_avx512.h:1257-1314 *)
Definition avx512_store_16x2_tr : list stmt := p16_store_16x2_tr.
(* v16_avx512.h:1316-1389 *)
Definition avx512_store_16x3_tr : list stmt := p16_store_16x3_tr.
(* v16_avx512.h:1391-1480 *)
Definition avx512_store_16x4_tr : list stmt := p16_store_16x4_tr.
(* v16_avx512.h:1482-1636 *)
Definition avx512_store_16x8_tr : list stmt := p16_store_16x8_tr.
(* v16_avx512.h:1638-1755 *)
Definition avx512_store_16x16_tr : list stmt :=
  ["t00" ::= Ulo "b00" "b01"; "t01" ::= Uhi "b00" "b01"; "t02" ::= Ulo "b02" "b03"; "t03" ::= Uhi "b02" "b03";
   "t04" ::= Ulo "b04" "b05"; "t05" ::= Uhi "b04" "b05"; "t06" ::= Ulo "b06" "b07"; "t07" ::= Uhi "b06" "b07";
   "t08" ::= Ulo "b08" "b09"; "t09" ::= Uhi "b08" "b09"; "t10" ::= Ulo "b10" "b11"; "t11" ::= Uhi "b10" "b11";
   "t12" ::= Ulo "b12" "b13"; "t13" ::= Uhi "b12" "b13"; "t14" ::= Ulo "b14" "b15"; "t15" ::= Uhi "b14" "b15";
   "u00" ::= Shuf "t00" "t02" (mm_shuffle 1 0 1 0); "u01" ::= Shuf "t00" "t02" (mm_shuffle 3 2 3 2);
   "u02" ::= Shuf "t01" "t03" (mm_shuffle 1 0 1 0); "u03" ::= Shuf "t01" "t03" (mm_shuffle 3 2 3 2);
   "u04" ::= Shuf "t04" "t06" (mm_shuffle 1 0 1 0); "u05" ::= Shuf "t04" "t06" (mm_shuffle 3 2 3 2);
   "u06" ::= Shuf "t05" "t07" (mm_shuffle 1 0 1 0); "u07" ::= Shuf "t05" "t07" (mm_shuffle 3 2 3 2);
   "u08" ::= Shuf "t08" "t10" (mm_shuffle 1 0 1 0); "u09" ::= Shuf "t08" "t10" (mm_shuffle 3 2 3 2);
   "u10" ::= Shuf "t09" "t11" (mm_shuffle 1 0 1 0); "u11" ::= Shuf "t09" "t11" (mm_shuffle 3 2 3 2);
   "u12" ::= Shuf "t12" "t14" (mm_shuffle 1 0 1 0); "u13" ::= Shuf "t12" "t14" (mm_shuffle 3 2 3 2);
   "u14" ::= Shuf "t13" "t15" (mm_shuffle 1 0 1 0); "u15" ::= Shuf "t13" "t15" (mm_shuffle 3 2 3 2);
   "t00" ::= ShF "u00" "u04" 136; "t01" ::= ShF "u01" "u05" 136; "t02" ::= ShF "u02" "u06" 136;
   "t03" ::= ShF "u03" "u07" 136; "t04" ::= ShF "u00" "u04" 221; "t05" ::= ShF "u01" "u05" 221;
   "t06" ::= ShF "u02" "u06" 221; "t07" ::= ShF "u03" "u07" 221; "t08" ::= ShF "u08" "u12" 136;
   "t09" ::= ShF "u09" "u13" 136; "t10" ::= ShF "u10" "u14" 136; "t11" ::= ShF "u11" "u15" 136;
   "t12" ::= ShF "u08" "u12" 221; "t13" ::= ShF "u09" "u13" 221; "t14" ::= ShF "u10" "u14" 221;
   "t15" ::= ShF "u11" "u15" 221; "u00" ::= ShF "t00" "t08" 136; "u01" ::= ShF "t01" "t09" 136;
   "u02" ::= ShF "t02" "t10" 136; "u03" ::= ShF "t03" "t11" 136; "u04" ::= ShF "t04" "t12" 136;
   "u05" ::= ShF "t05" "t13" 136; "u06" ::= ShF "t06" "t14" 136; "u07" ::= ShF "t07" "t15" 136;
   "u08" ::= ShF "t00" "t08" 221; "u09" ::= ShF "t01" "t09" 221; "u10" ::= ShF "t02" "t10" 221;
   "u11" ::= ShF "t03" "t11" 221; "u12" ::= ShF "t04" "t12" 221; "u13" ::= ShF "t05" "t13" 221;
   "u14" ::= ShF "t06" "t14" 221; "u15" ::= ShF "t07" "t15" 221; St 16 "a00" "u00"; St 16 "a01" "u01";
   St 16 "a02" "u02"; St 16 "a03" "u03"; St 16 "a04" "u04"; St 16 "a05" "u05"; St 16 "a06" "u06"; St 16 "a07" "u07";
   St 16 "a08" "u08"; St 16 "a09" "u09"; St 16 "a10" "u10"; St 16 "a11" "u11"; St 16 "a12" "u12"; St 16 "a13" "u13";
   St 16 "a14" "u14"; St 16 "a15" "u15"].
(* v16_avx512.h:1758-1838 *)
Definition avx512_store_16x8_tr_p : list stmt :=
  let idx := [15; 13; 11; 9; 14; 12; 10; 8; 7; 5; 3; 1; 6; 4; 2; 0] in
  let idx1 := [23; 22; 21; 20; 7; 6; 5; 4; 19; 18; 17; 16; 3; 2; 1; 0] in
  let idx2 := [31; 30; 29; 28; 15; 14; 13; 12; 27; 26; 25; 24; 11; 10; 9; 8] in
  ["t00" ::= PermX idx "b00"; "t01" ::= PermX idx "b01"; "t02" ::= PermX idx "b02"; "t03" ::= PermX idx "b03";
   "t04" ::= PermX idx "b04"; "t05" ::= PermX idx "b05"; "t06" ::= PermX idx "b06"; "t07" ::= PermX idx "b07";
   "u00" ::= PermX2 "t00" idx1 "t04"; "u01" ::= PermX2 "t01" idx1 "t05"; "u02" ::= PermX2 "t02" idx1 "t06";
   "u03" ::= PermX2 "t03" idx1 "t07"; "u04" ::= PermX2 "t00" idx2 "t04"; "u05" ::= PermX2 "t01" idx2 "t05";
   "u06" ::= PermX2 "t02" idx2 "t06"; "u07" ::= PermX2 "t03" idx2 "t07";
   "t00" ::= Shuf "u00" "u01" (mm_shuffle 1 0 1 0); "t01" ::= Shuf "u02" "u03" (mm_shuffle 1 0 1 0);
   "t02" ::= Shuf "u00" "u01" (mm_shuffle 3 2 3 2); "t03" ::= Shuf "u02" "u03" (mm_shuffle 3 2 3 2);
   "t04" ::= Shuf "u04" "u05" (mm_shuffle 1 0 1 0); "t05" ::= Shuf "u06" "u07" (mm_shuffle 1 0 1 0);
   "t06" ::= Shuf "u04" "u05" (mm_shuffle 3 2 3 2); "t07" ::= Shuf "u06" "u07" (mm_shuffle 3 2 3 2);
   "u00" ::= Shuf "t00" "t01" (mm_shuffle 2 0 2 0); "u01" ::= Shuf "t00" "t01" (mm_shuffle 3 1 3 1);
   "u02" ::= Shuf "t02" "t03" (mm_shuffle 2 0 2 0); "u03" ::= Shuf "t02" "t03" (mm_shuffle 3 1 3 1);
   "u04" ::= Shuf "t04" "t05" (mm_shuffle 2 0 2 0); "u05" ::= Shuf "t04" "t05" (mm_shuffle 3 1 3 1);
   "u06" ::= Shuf "t06" "t07" (mm_shuffle 2 0 2 0); "u07" ::= Shuf "t06" "t07" (mm_shuffle 3 1 3 1);
   St 16 "a00" "u00"; St 16 "a01" "u01"; St 16 "a02" "u02"; St 16 "a03" "u03"; St 16 "a04" "u04"; St 16 "a05" "u05";
   St 16 "a06" "u06"; St 16 "a07" "u07"].
(* v16_avx512.h:1841-1965 *)
Definition avx512_store_16x16_tr_p : list stmt :=
  let idx := [15; 13; 11; 9; 14; 12; 10; 8; 7; 5; 3; 1; 6; 4; 2; 0] in
  let idx1 := [23; 22; 21; 20; 7; 6; 5; 4; 19; 18; 17; 16; 3; 2; 1; 0] in
  let idx2 := [31; 30; 29; 28; 15; 14; 13; 12; 27; 26; 25; 24; 11; 10; 9; 8] in
  ["t00" ::= PermX idx "b00"; "t01" ::= PermX idx "b01"; "t02" ::= PermX idx "b02"; "t03" ::= PermX idx "b03";
   "t04" ::= PermX idx "b04"; "t05" ::= PermX idx "b05"; "t06" ::= PermX idx "b06"; "t07" ::= PermX idx "b07";
   "t08" ::= PermX idx "b08"; "t09" ::= PermX idx "b09"; "t10" ::= PermX idx "b10"; "t11" ::= PermX idx "b11";
   "t12" ::= PermX idx "b12"; "t13" ::= PermX idx "b13"; "t14" ::= PermX idx "b14"; "t15" ::= PermX idx "b15";
   "u00" ::= PermX2 "t00" idx1 "t04"; "u01" ::= PermX2 "t01" idx1 "t05"; "u02" ::= PermX2 "t02" idx1 "t06";
   "u03" ::= PermX2 "t03" idx1 "t07"; "u04" ::= PermX2 "t00" idx2 "t04"; "u05" ::= PermX2 "t01" idx2 "t05";
   "u06" ::= PermX2 "t02" idx2 "t06"; "u07" ::= PermX2 "t03" idx2 "t07"; "u08" ::= PermX2 "t08" idx1 "t12";
   "u09" ::= PermX2 "t09" idx1 "t13"; "u10" ::= PermX2 "t10" idx1 "t14"; "u11" ::= PermX2 "t11" idx1 "t15";
   "u12" ::= PermX2 "t08" idx2 "t12"; "u13" ::= PermX2 "t09" idx2 "t13"; "u14" ::= PermX2 "t10" idx2 "t14";
   "u15" ::= PermX2 "t11" idx2 "t15"; "t00" ::= Shuf "u00" "u01" (mm_shuffle 1 0 1 0);
   "t01" ::= Shuf "u02" "u03" (mm_shuffle 1 0 1 0); "t02" ::= Shuf "u00" "u01" (mm_shuffle 3 2 3 2);
   "t03" ::= Shuf "u02" "u03" (mm_shuffle 3 2 3 2); "t04" ::= Shuf "u04" "u05" (mm_shuffle 1 0 1 0);
   "t05" ::= Shuf "u06" "u07" (mm_shuffle 1 0 1 0); "t06" ::= Shuf "u04" "u05" (mm_shuffle 3 2 3 2);
   "t07" ::= Shuf "u06" "u07" (mm_shuffle 3 2 3 2); "t08" ::= Shuf "u08" "u09" (mm_shuffle 1 0 1 0);
   "t09" ::= Shuf "u10" "u11" (mm_shuffle 1 0 1 0); "t10" ::= Shuf "u08" "u09" (mm_shuffle 3 2 3 2);
   "t11" ::= Shuf "u10" "u11" (mm_shuffle 3 2 3 2); "t12" ::= Shuf "u12" "u13" (mm_shuffle 1 0 1 0);
   "t13" ::= Shuf "u14" "u15" (mm_shuffle 1 0 1 0); "t14" ::= Shuf "u12" "u13" (mm_shuffle 3 2 3 2);
   "t15" ::= Shuf "u14" "u15" (mm_shuffle 3 2 3 2); "u00" ::= Shuf "t00" "t01" (mm_shuffle 2 0 2 0);
   "u01" ::= Shuf "t00" "t01" (mm_shuffle 3 1 3 1); "u02" ::= Shuf "t02" "t03" (mm_shuffle 2 0 2 0);
   "u03" ::= Shuf "t02" "t03" (mm_shuffle 3 1 3 1); "u04" ::= Shuf "t04" "t05" (mm_shuffle 2 0 2 0);
   "u05" ::= Shuf "t04" "t05" (mm_shuffle 3 1 3 1); "u06" ::= Shuf "t06" "t07" (mm_shuffle 2 0 2 0);
   "u07" ::= Shuf "t06" "t07" (mm_shuffle 3 1 3 1); "u08" ::= Shuf "t08" "t09" (mm_shuffle 2 0 2 0);
   "u09" ::= Shuf "t08" "t09" (mm_shuffle 3 1 3 1); "u10" ::= Shuf "t10" "t11" (mm_shuffle 2 0 2 0);
   "u11" ::= Shuf "t10" "t11" (mm_shuffle 3 1 3 1); "u12" ::= Shuf "t12" "t13" (mm_shuffle 2 0 2 0);
   "u13" ::= Shuf "t12" "t13" (mm_shuffle 3 1 3 1); "u14" ::= Shuf "t14" "t15" (mm_shuffle 2 0 2 0);
   "u15" ::= Shuf "t14" "t15" (mm_shuffle 3 1 3 1); St 16 "a00" "u00"; St 16 "a01" "u01"; St 16 "a02" "u02";
   St 16 "a03" "u03"; St 16 "a04" "u04"; St 16 "a05" "u05"; St 16 "a06" "u06"; St 16 "a07" "u07"; St 16 "a08" "u08";
   St 16 "a09" "u09"; St 16 "a10" "u10"; St 16 "a11" "u11"; St 16 "a12" "u12"; St 16 "a13" "u13"; St 16 "a14" "u14";
   St 16 "a15" "u15"].
