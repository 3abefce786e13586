(* The operators of the vector classes of 8 lanes, transcribed function by
   function from src/util/v8: see VecOpModel.v.  The number after a name is
   the line of the function (of the macro call that makes it, for those made by
   macros); comments give its first and last line.  Macros are expanded, the
   text of "#if 0" is left out.  Left out too: default constructors,
   destructors, operator[] and operator() (they return a reference to a lane)
   and the memory operations, which are in VecPrograms8.v. *)
From Coq Require Import ZArith List String.
From Verif Require Import VecOpModel.
Import ListNotations.
Open Scope string_scope. Open Scope list_scope. Open Scope nat_scope.

(* src/util/v8/v8_portable.h *)
Definition ops_v8_portable : list fn := [
  (* v8/v8_portable.h:927-927 *)
  fnc "int =" 927 [("this", 8); ("b", 8)]
   [SetL "this" (Ix 0) (Ln "b" (Ix 0));
    SetL "this" (Ix 1) (Ln "b" (Ix 1));
    SetL "this" (Ix 2) (Ln "b" (Ix 2));
    SetL "this" (Ix 3) (Ln "b" (Ix 3));
    SetL "this" (Ix 4) (Ln "b" (Ix 4));
    SetL "this" (Ix 5) (Ln "b" (Ix 5));
    SetL "this" (Ix 6) (Ln "b" (Ix 6));
    SetL "this" (Ix 7) (Ln "b" (Ix 7))]
   ["this"];
  (* v8/v8_portable.h:928-928 *)
  fnc "int +=" 928 [("this", 8); ("b", 8)]
   [SetL "this" (Ix 0) (B2 IAdd (Ln "this" (Ix 0)) (Ln "b" (Ix 0)));
    SetL "this" (Ix 1) (B2 IAdd (Ln "this" (Ix 1)) (Ln "b" (Ix 1)));
    SetL "this" (Ix 2) (B2 IAdd (Ln "this" (Ix 2)) (Ln "b" (Ix 2)));
    SetL "this" (Ix 3) (B2 IAdd (Ln "this" (Ix 3)) (Ln "b" (Ix 3)));
    SetL "this" (Ix 4) (B2 IAdd (Ln "this" (Ix 4)) (Ln "b" (Ix 4)));
    SetL "this" (Ix 5) (B2 IAdd (Ln "this" (Ix 5)) (Ln "b" (Ix 5)));
    SetL "this" (Ix 6) (B2 IAdd (Ln "this" (Ix 6)) (Ln "b" (Ix 6)));
    SetL "this" (Ix 7) (B2 IAdd (Ln "this" (Ix 7)) (Ln "b" (Ix 7)))]
   ["this"];
  (* v8/v8_portable.h:929-929 *)
  fnc "int -=" 929 [("this", 8); ("b", 8)]
   [SetL "this" (Ix 0) (B2 ISub (Ln "this" (Ix 0)) (Ln "b" (Ix 0)));
    SetL "this" (Ix 1) (B2 ISub (Ln "this" (Ix 1)) (Ln "b" (Ix 1)));
    SetL "this" (Ix 2) (B2 ISub (Ln "this" (Ix 2)) (Ln "b" (Ix 2)));
    SetL "this" (Ix 3) (B2 ISub (Ln "this" (Ix 3)) (Ln "b" (Ix 3)));
    SetL "this" (Ix 4) (B2 ISub (Ln "this" (Ix 4)) (Ln "b" (Ix 4)));
    SetL "this" (Ix 5) (B2 ISub (Ln "this" (Ix 5)) (Ln "b" (Ix 5)));
    SetL "this" (Ix 6) (B2 ISub (Ln "this" (Ix 6)) (Ln "b" (Ix 6)));
    SetL "this" (Ix 7) (B2 ISub (Ln "this" (Ix 7)) (Ln "b" (Ix 7)))]
   ["this"];
  (* v8/v8_portable.h:930-930 *)
  fnc "int *=" 930 [("this", 8); ("b", 8)]
   [SetL "this" (Ix 0) (B2 IMul (Ln "this" (Ix 0)) (Ln "b" (Ix 0)));
    SetL "this" (Ix 1) (B2 IMul (Ln "this" (Ix 1)) (Ln "b" (Ix 1)));
    SetL "this" (Ix 2) (B2 IMul (Ln "this" (Ix 2)) (Ln "b" (Ix 2)));
    SetL "this" (Ix 3) (B2 IMul (Ln "this" (Ix 3)) (Ln "b" (Ix 3)));
    SetL "this" (Ix 4) (B2 IMul (Ln "this" (Ix 4)) (Ln "b" (Ix 4)));
    SetL "this" (Ix 5) (B2 IMul (Ln "this" (Ix 5)) (Ln "b" (Ix 5)));
    SetL "this" (Ix 6) (B2 IMul (Ln "this" (Ix 6)) (Ln "b" (Ix 6)));
    SetL "this" (Ix 7) (B2 IMul (Ln "this" (Ix 7)) (Ln "b" (Ix 7)))]
   ["this"];
  (* v8/v8_portable.h:931-931 *)
  fnc "int /=" 931 [("this", 8); ("b", 8)]
   [SetL "this" (Ix 0) (B2 IDiv (Ln "this" (Ix 0)) (Ln "b" (Ix 0)));
    SetL "this" (Ix 1) (B2 IDiv (Ln "this" (Ix 1)) (Ln "b" (Ix 1)));
    SetL "this" (Ix 2) (B2 IDiv (Ln "this" (Ix 2)) (Ln "b" (Ix 2)));
    SetL "this" (Ix 3) (B2 IDiv (Ln "this" (Ix 3)) (Ln "b" (Ix 3)));
    SetL "this" (Ix 4) (B2 IDiv (Ln "this" (Ix 4)) (Ln "b" (Ix 4)));
    SetL "this" (Ix 5) (B2 IDiv (Ln "this" (Ix 5)) (Ln "b" (Ix 5)));
    SetL "this" (Ix 6) (B2 IDiv (Ln "this" (Ix 6)) (Ln "b" (Ix 6)));
    SetL "this" (Ix 7) (B2 IDiv (Ln "this" (Ix 7)) (Ln "b" (Ix 7)))]
   ["this"];
  (* v8/v8_portable.h:932-932 *)
  fnc "int %=" 932 [("this", 8); ("b", 8)]
   [SetL "this" (Ix 0) (B2 IMod (Ln "this" (Ix 0)) (Ln "b" (Ix 0)));
    SetL "this" (Ix 1) (B2 IMod (Ln "this" (Ix 1)) (Ln "b" (Ix 1)));
    SetL "this" (Ix 2) (B2 IMod (Ln "this" (Ix 2)) (Ln "b" (Ix 2)));
    SetL "this" (Ix 3) (B2 IMod (Ln "this" (Ix 3)) (Ln "b" (Ix 3)));
    SetL "this" (Ix 4) (B2 IMod (Ln "this" (Ix 4)) (Ln "b" (Ix 4)));
    SetL "this" (Ix 5) (B2 IMod (Ln "this" (Ix 5)) (Ln "b" (Ix 5)));
    SetL "this" (Ix 6) (B2 IMod (Ln "this" (Ix 6)) (Ln "b" (Ix 6)));
    SetL "this" (Ix 7) (B2 IMod (Ln "this" (Ix 7)) (Ln "b" (Ix 7)))]
   ["this"];
  (* v8/v8_portable.h:933-933 *)
  fnc "int ^=" 933 [("this", 8); ("b", 8)]
   [SetL "this" (Ix 0) (B2 IXor (Ln "this" (Ix 0)) (Ln "b" (Ix 0)));
    SetL "this" (Ix 1) (B2 IXor (Ln "this" (Ix 1)) (Ln "b" (Ix 1)));
    SetL "this" (Ix 2) (B2 IXor (Ln "this" (Ix 2)) (Ln "b" (Ix 2)));
    SetL "this" (Ix 3) (B2 IXor (Ln "this" (Ix 3)) (Ln "b" (Ix 3)));
    SetL "this" (Ix 4) (B2 IXor (Ln "this" (Ix 4)) (Ln "b" (Ix 4)));
    SetL "this" (Ix 5) (B2 IXor (Ln "this" (Ix 5)) (Ln "b" (Ix 5)));
    SetL "this" (Ix 6) (B2 IXor (Ln "this" (Ix 6)) (Ln "b" (Ix 6)));
    SetL "this" (Ix 7) (B2 IXor (Ln "this" (Ix 7)) (Ln "b" (Ix 7)))]
   ["this"];
  (* v8/v8_portable.h:934-934 *)
  fnc "int &=" 934 [("this", 8); ("b", 8)]
   [SetL "this" (Ix 0) (B2 IAnd (Ln "this" (Ix 0)) (Ln "b" (Ix 0)));
    SetL "this" (Ix 1) (B2 IAnd (Ln "this" (Ix 1)) (Ln "b" (Ix 1)));
    SetL "this" (Ix 2) (B2 IAnd (Ln "this" (Ix 2)) (Ln "b" (Ix 2)));
    SetL "this" (Ix 3) (B2 IAnd (Ln "this" (Ix 3)) (Ln "b" (Ix 3)));
    SetL "this" (Ix 4) (B2 IAnd (Ln "this" (Ix 4)) (Ln "b" (Ix 4)));
    SetL "this" (Ix 5) (B2 IAnd (Ln "this" (Ix 5)) (Ln "b" (Ix 5)));
    SetL "this" (Ix 6) (B2 IAnd (Ln "this" (Ix 6)) (Ln "b" (Ix 6)));
    SetL "this" (Ix 7) (B2 IAnd (Ln "this" (Ix 7)) (Ln "b" (Ix 7)))]
   ["this"];
  (* v8/v8_portable.h:935-935 *)
  fnc "int |=" 935 [("this", 8); ("b", 8)]
   [SetL "this" (Ix 0) (B2 IOr (Ln "this" (Ix 0)) (Ln "b" (Ix 0)));
    SetL "this" (Ix 1) (B2 IOr (Ln "this" (Ix 1)) (Ln "b" (Ix 1)));
    SetL "this" (Ix 2) (B2 IOr (Ln "this" (Ix 2)) (Ln "b" (Ix 2)));
    SetL "this" (Ix 3) (B2 IOr (Ln "this" (Ix 3)) (Ln "b" (Ix 3)));
    SetL "this" (Ix 4) (B2 IOr (Ln "this" (Ix 4)) (Ln "b" (Ix 4)));
    SetL "this" (Ix 5) (B2 IOr (Ln "this" (Ix 5)) (Ln "b" (Ix 5)));
    SetL "this" (Ix 6) (B2 IOr (Ln "this" (Ix 6)) (Ln "b" (Ix 6)));
    SetL "this" (Ix 7) (B2 IOr (Ln "this" (Ix 7)) (Ln "b" (Ix 7)))]
   ["this"];
  (* v8/v8_portable.h:936-936 *)
  fnc "int <<=" 936 [("this", 8); ("b", 8)]
   [SetL "this" (Ix 0) (B2 IShl (Ln "this" (Ix 0)) (Ln "b" (Ix 0)));
    SetL "this" (Ix 1) (B2 IShl (Ln "this" (Ix 1)) (Ln "b" (Ix 1)));
    SetL "this" (Ix 2) (B2 IShl (Ln "this" (Ix 2)) (Ln "b" (Ix 2)));
    SetL "this" (Ix 3) (B2 IShl (Ln "this" (Ix 3)) (Ln "b" (Ix 3)));
    SetL "this" (Ix 4) (B2 IShl (Ln "this" (Ix 4)) (Ln "b" (Ix 4)));
    SetL "this" (Ix 5) (B2 IShl (Ln "this" (Ix 5)) (Ln "b" (Ix 5)));
    SetL "this" (Ix 6) (B2 IShl (Ln "this" (Ix 6)) (Ln "b" (Ix 6)));
    SetL "this" (Ix 7) (B2 IShl (Ln "this" (Ix 7)) (Ln "b" (Ix 7)))]
   ["this"];
  (* v8/v8_portable.h:937-937 *)
  fnc "int >>=" 937 [("this", 8); ("b", 8)]
   [SetL "this" (Ix 0) (B2 IShr (Ln "this" (Ix 0)) (Ln "b" (Ix 0)));
    SetL "this" (Ix 1) (B2 IShr (Ln "this" (Ix 1)) (Ln "b" (Ix 1)));
    SetL "this" (Ix 2) (B2 IShr (Ln "this" (Ix 2)) (Ln "b" (Ix 2)));
    SetL "this" (Ix 3) (B2 IShr (Ln "this" (Ix 3)) (Ln "b" (Ix 3)));
    SetL "this" (Ix 4) (B2 IShr (Ln "this" (Ix 4)) (Ln "b" (Ix 4)));
    SetL "this" (Ix 5) (B2 IShr (Ln "this" (Ix 5)) (Ln "b" (Ix 5)));
    SetL "this" (Ix 6) (B2 IShr (Ln "this" (Ix 6)) (Ln "b" (Ix 6)));
    SetL "this" (Ix 7) (B2 IShr (Ln "this" (Ix 7)) (Ln "b" (Ix 7)))]
   ["this"];
  (* v8/v8_portable.h:971-971 *)
  fnc "int unary+" 971 [("a", 8)]
   [SetL "b" (Ix 0) (Ln "a" (Ix 0));
    SetL "b" (Ix 1) (Ln "a" (Ix 1));
    SetL "b" (Ix 2) (Ln "a" (Ix 2));
    SetL "b" (Ix 3) (Ln "a" (Ix 3));
    SetL "b" (Ix 4) (Ln "a" (Ix 4));
    SetL "b" (Ix 5) (Ln "a" (Ix 5));
    SetL "b" (Ix 6) (Ln "a" (Ix 6));
    SetL "b" (Ix 7) (Ln "a" (Ix 7))]
   ["b"];
  (* v8/v8_portable.h:972-972 *)
  fnc "int unary-" 972 [("a", 8)]
   [SetL "b" (Ix 0) (U1 INeg (Ln "a" (Ix 0)));
    SetL "b" (Ix 1) (U1 INeg (Ln "a" (Ix 1)));
    SetL "b" (Ix 2) (U1 INeg (Ln "a" (Ix 2)));
    SetL "b" (Ix 3) (U1 INeg (Ln "a" (Ix 3)));
    SetL "b" (Ix 4) (U1 INeg (Ln "a" (Ix 4)));
    SetL "b" (Ix 5) (U1 INeg (Ln "a" (Ix 5)));
    SetL "b" (Ix 6) (U1 INeg (Ln "a" (Ix 6)));
    SetL "b" (Ix 7) (U1 INeg (Ln "a" (Ix 7)))]
   ["b"];
  (* v8/v8_portable.h:974-988 *)
  fnc "int !" 974 [("a", 8)]
   [SetL "b" (Ix 0) (U1 INeg (U1 ILNot (Ln "a" (Ix 0))));
    SetL "b" (Ix 1) (U1 INeg (U1 ILNot (Ln "a" (Ix 1))));
    SetL "b" (Ix 2) (U1 INeg (U1 ILNot (Ln "a" (Ix 2))));
    SetL "b" (Ix 3) (U1 INeg (U1 ILNot (Ln "a" (Ix 3))));
    SetL "b" (Ix 4) (U1 INeg (U1 ILNot (Ln "a" (Ix 4))));
    SetL "b" (Ix 5) (U1 INeg (U1 ILNot (Ln "a" (Ix 5))));
    SetL "b" (Ix 6) (U1 INeg (U1 ILNot (Ln "a" (Ix 6))));
    SetL "b" (Ix 7) (U1 INeg (U1 ILNot (Ln "a" (Ix 7))))]
   ["b"];
  (* v8/v8_portable.h:990-990 *)
  fnc "int ~" 990 [("a", 8)]
   [SetL "b" (Ix 0) (U1 INot (Ln "a" (Ix 0)));
    SetL "b" (Ix 1) (U1 INot (Ln "a" (Ix 1)));
    SetL "b" (Ix 2) (U1 INot (Ln "a" (Ix 2)));
    SetL "b" (Ix 3) (U1 INot (Ln "a" (Ix 3)));
    SetL "b" (Ix 4) (U1 INot (Ln "a" (Ix 4)));
    SetL "b" (Ix 5) (U1 INot (Ln "a" (Ix 5)));
    SetL "b" (Ix 6) (U1 INot (Ln "a" (Ix 6)));
    SetL "b" (Ix 7) (U1 INot (Ln "a" (Ix 7)))]
   ["b"];
  (* v8/v8_portable.h:1011-1011 *)
  fnc "int pre++" 1011 [("a", 8)]
   [SetL "a" (Ix 0) (B2 IAdd (Ln "a" (Ix 0)) (Cst 1));
    SetL "b" (Ix 0) (Ln "a" (Ix 0));
    SetL "a" (Ix 1) (B2 IAdd (Ln "a" (Ix 1)) (Cst 1));
    SetL "b" (Ix 1) (Ln "a" (Ix 1));
    SetL "a" (Ix 2) (B2 IAdd (Ln "a" (Ix 2)) (Cst 1));
    SetL "b" (Ix 2) (Ln "a" (Ix 2));
    SetL "a" (Ix 3) (B2 IAdd (Ln "a" (Ix 3)) (Cst 1));
    SetL "b" (Ix 3) (Ln "a" (Ix 3));
    SetL "a" (Ix 4) (B2 IAdd (Ln "a" (Ix 4)) (Cst 1));
    SetL "b" (Ix 4) (Ln "a" (Ix 4));
    SetL "a" (Ix 5) (B2 IAdd (Ln "a" (Ix 5)) (Cst 1));
    SetL "b" (Ix 5) (Ln "a" (Ix 5));
    SetL "a" (Ix 6) (B2 IAdd (Ln "a" (Ix 6)) (Cst 1));
    SetL "b" (Ix 6) (Ln "a" (Ix 6));
    SetL "a" (Ix 7) (B2 IAdd (Ln "a" (Ix 7)) (Cst 1));
    SetL "b" (Ix 7) (Ln "a" (Ix 7))]
   ["b"; "a"];
  (* v8/v8_portable.h:1012-1012 *)
  fnc "int pre--" 1012 [("a", 8)]
   [SetL "a" (Ix 0) (B2 ISub (Ln "a" (Ix 0)) (Cst 1));
    SetL "b" (Ix 0) (Ln "a" (Ix 0));
    SetL "a" (Ix 1) (B2 ISub (Ln "a" (Ix 1)) (Cst 1));
    SetL "b" (Ix 1) (Ln "a" (Ix 1));
    SetL "a" (Ix 2) (B2 ISub (Ln "a" (Ix 2)) (Cst 1));
    SetL "b" (Ix 2) (Ln "a" (Ix 2));
    SetL "a" (Ix 3) (B2 ISub (Ln "a" (Ix 3)) (Cst 1));
    SetL "b" (Ix 3) (Ln "a" (Ix 3));
    SetL "a" (Ix 4) (B2 ISub (Ln "a" (Ix 4)) (Cst 1));
    SetL "b" (Ix 4) (Ln "a" (Ix 4));
    SetL "a" (Ix 5) (B2 ISub (Ln "a" (Ix 5)) (Cst 1));
    SetL "b" (Ix 5) (Ln "a" (Ix 5));
    SetL "a" (Ix 6) (B2 ISub (Ln "a" (Ix 6)) (Cst 1));
    SetL "b" (Ix 6) (Ln "a" (Ix 6));
    SetL "a" (Ix 7) (B2 ISub (Ln "a" (Ix 7)) (Cst 1));
    SetL "b" (Ix 7) (Ln "a" (Ix 7))]
   ["b"; "a"];
  (* v8/v8_portable.h:1033-1033 *)
  fnc "int post++" 1033 [("a", 8)]
   [SetL "b" (Ix 0) (Ln "a" (Ix 0));
    SetL "a" (Ix 0) (B2 IAdd (Ln "a" (Ix 0)) (Cst 1));
    SetL "b" (Ix 1) (Ln "a" (Ix 1));
    SetL "a" (Ix 1) (B2 IAdd (Ln "a" (Ix 1)) (Cst 1));
    SetL "b" (Ix 2) (Ln "a" (Ix 2));
    SetL "a" (Ix 2) (B2 IAdd (Ln "a" (Ix 2)) (Cst 1));
    SetL "b" (Ix 3) (Ln "a" (Ix 3));
    SetL "a" (Ix 3) (B2 IAdd (Ln "a" (Ix 3)) (Cst 1));
    SetL "b" (Ix 4) (Ln "a" (Ix 4));
    SetL "a" (Ix 4) (B2 IAdd (Ln "a" (Ix 4)) (Cst 1));
    SetL "b" (Ix 5) (Ln "a" (Ix 5));
    SetL "a" (Ix 5) (B2 IAdd (Ln "a" (Ix 5)) (Cst 1));
    SetL "b" (Ix 6) (Ln "a" (Ix 6));
    SetL "a" (Ix 6) (B2 IAdd (Ln "a" (Ix 6)) (Cst 1));
    SetL "b" (Ix 7) (Ln "a" (Ix 7));
    SetL "a" (Ix 7) (B2 IAdd (Ln "a" (Ix 7)) (Cst 1))]
   ["b"; "a"];
  (* v8/v8_portable.h:1034-1034 *)
  fnc "int post--" 1034 [("a", 8)]
   [SetL "b" (Ix 0) (Ln "a" (Ix 0));
    SetL "a" (Ix 0) (B2 ISub (Ln "a" (Ix 0)) (Cst 1));
    SetL "b" (Ix 1) (Ln "a" (Ix 1));
    SetL "a" (Ix 1) (B2 ISub (Ln "a" (Ix 1)) (Cst 1));
    SetL "b" (Ix 2) (Ln "a" (Ix 2));
    SetL "a" (Ix 2) (B2 ISub (Ln "a" (Ix 2)) (Cst 1));
    SetL "b" (Ix 3) (Ln "a" (Ix 3));
    SetL "a" (Ix 3) (B2 ISub (Ln "a" (Ix 3)) (Cst 1));
    SetL "b" (Ix 4) (Ln "a" (Ix 4));
    SetL "a" (Ix 4) (B2 ISub (Ln "a" (Ix 4)) (Cst 1));
    SetL "b" (Ix 5) (Ln "a" (Ix 5));
    SetL "a" (Ix 5) (B2 ISub (Ln "a" (Ix 5)) (Cst 1));
    SetL "b" (Ix 6) (Ln "a" (Ix 6));
    SetL "a" (Ix 6) (B2 ISub (Ln "a" (Ix 6)) (Cst 1));
    SetL "b" (Ix 7) (Ln "a" (Ix 7));
    SetL "a" (Ix 7) (B2 ISub (Ln "a" (Ix 7)) (Cst 1))]
   ["b"; "a"];
  (* v8/v8_portable.h:1055-1055 *)
  fnc "int +" 1055 [("a", 8); ("b", 8)]
   [SetL "c" (Ix 0) (B2 IAdd (Ln "a" (Ix 0)) (Ln "b" (Ix 0)));
    SetL "c" (Ix 1) (B2 IAdd (Ln "a" (Ix 1)) (Ln "b" (Ix 1)));
    SetL "c" (Ix 2) (B2 IAdd (Ln "a" (Ix 2)) (Ln "b" (Ix 2)));
    SetL "c" (Ix 3) (B2 IAdd (Ln "a" (Ix 3)) (Ln "b" (Ix 3)));
    SetL "c" (Ix 4) (B2 IAdd (Ln "a" (Ix 4)) (Ln "b" (Ix 4)));
    SetL "c" (Ix 5) (B2 IAdd (Ln "a" (Ix 5)) (Ln "b" (Ix 5)));
    SetL "c" (Ix 6) (B2 IAdd (Ln "a" (Ix 6)) (Ln "b" (Ix 6)));
    SetL "c" (Ix 7) (B2 IAdd (Ln "a" (Ix 7)) (Ln "b" (Ix 7)))]
   ["c"];
  (* v8/v8_portable.h:1056-1056 *)
  fnc "int -" 1056 [("a", 8); ("b", 8)]
   [SetL "c" (Ix 0) (B2 ISub (Ln "a" (Ix 0)) (Ln "b" (Ix 0)));
    SetL "c" (Ix 1) (B2 ISub (Ln "a" (Ix 1)) (Ln "b" (Ix 1)));
    SetL "c" (Ix 2) (B2 ISub (Ln "a" (Ix 2)) (Ln "b" (Ix 2)));
    SetL "c" (Ix 3) (B2 ISub (Ln "a" (Ix 3)) (Ln "b" (Ix 3)));
    SetL "c" (Ix 4) (B2 ISub (Ln "a" (Ix 4)) (Ln "b" (Ix 4)));
    SetL "c" (Ix 5) (B2 ISub (Ln "a" (Ix 5)) (Ln "b" (Ix 5)));
    SetL "c" (Ix 6) (B2 ISub (Ln "a" (Ix 6)) (Ln "b" (Ix 6)));
    SetL "c" (Ix 7) (B2 ISub (Ln "a" (Ix 7)) (Ln "b" (Ix 7)))]
   ["c"];
  (* v8/v8_portable.h:1057-1057 *)
  fnc "int *" 1057 [("a", 8); ("b", 8)]
   [SetL "c" (Ix 0) (B2 IMul (Ln "a" (Ix 0)) (Ln "b" (Ix 0)));
    SetL "c" (Ix 1) (B2 IMul (Ln "a" (Ix 1)) (Ln "b" (Ix 1)));
    SetL "c" (Ix 2) (B2 IMul (Ln "a" (Ix 2)) (Ln "b" (Ix 2)));
    SetL "c" (Ix 3) (B2 IMul (Ln "a" (Ix 3)) (Ln "b" (Ix 3)));
    SetL "c" (Ix 4) (B2 IMul (Ln "a" (Ix 4)) (Ln "b" (Ix 4)));
    SetL "c" (Ix 5) (B2 IMul (Ln "a" (Ix 5)) (Ln "b" (Ix 5)));
    SetL "c" (Ix 6) (B2 IMul (Ln "a" (Ix 6)) (Ln "b" (Ix 6)));
    SetL "c" (Ix 7) (B2 IMul (Ln "a" (Ix 7)) (Ln "b" (Ix 7)))]
   ["c"];
  (* v8/v8_portable.h:1058-1058 *)
  fnc "int /" 1058 [("a", 8); ("b", 8)]
   [SetL "c" (Ix 0) (B2 IDiv (Ln "a" (Ix 0)) (Ln "b" (Ix 0)));
    SetL "c" (Ix 1) (B2 IDiv (Ln "a" (Ix 1)) (Ln "b" (Ix 1)));
    SetL "c" (Ix 2) (B2 IDiv (Ln "a" (Ix 2)) (Ln "b" (Ix 2)));
    SetL "c" (Ix 3) (B2 IDiv (Ln "a" (Ix 3)) (Ln "b" (Ix 3)));
    SetL "c" (Ix 4) (B2 IDiv (Ln "a" (Ix 4)) (Ln "b" (Ix 4)));
    SetL "c" (Ix 5) (B2 IDiv (Ln "a" (Ix 5)) (Ln "b" (Ix 5)));
    SetL "c" (Ix 6) (B2 IDiv (Ln "a" (Ix 6)) (Ln "b" (Ix 6)));
    SetL "c" (Ix 7) (B2 IDiv (Ln "a" (Ix 7)) (Ln "b" (Ix 7)))]
   ["c"];
  (* v8/v8_portable.h:1059-1059 *)
  fnc "int %" 1059 [("a", 8); ("b", 8)]
   [SetL "c" (Ix 0) (B2 IMod (Ln "a" (Ix 0)) (Ln "b" (Ix 0)));
    SetL "c" (Ix 1) (B2 IMod (Ln "a" (Ix 1)) (Ln "b" (Ix 1)));
    SetL "c" (Ix 2) (B2 IMod (Ln "a" (Ix 2)) (Ln "b" (Ix 2)));
    SetL "c" (Ix 3) (B2 IMod (Ln "a" (Ix 3)) (Ln "b" (Ix 3)));
    SetL "c" (Ix 4) (B2 IMod (Ln "a" (Ix 4)) (Ln "b" (Ix 4)));
    SetL "c" (Ix 5) (B2 IMod (Ln "a" (Ix 5)) (Ln "b" (Ix 5)));
    SetL "c" (Ix 6) (B2 IMod (Ln "a" (Ix 6)) (Ln "b" (Ix 6)));
    SetL "c" (Ix 7) (B2 IMod (Ln "a" (Ix 7)) (Ln "b" (Ix 7)))]
   ["c"];
  (* v8/v8_portable.h:1060-1060 *)
  fnc "int ^" 1060 [("a", 8); ("b", 8)]
   [SetL "c" (Ix 0) (B2 IXor (Ln "a" (Ix 0)) (Ln "b" (Ix 0)));
    SetL "c" (Ix 1) (B2 IXor (Ln "a" (Ix 1)) (Ln "b" (Ix 1)));
    SetL "c" (Ix 2) (B2 IXor (Ln "a" (Ix 2)) (Ln "b" (Ix 2)));
    SetL "c" (Ix 3) (B2 IXor (Ln "a" (Ix 3)) (Ln "b" (Ix 3)));
    SetL "c" (Ix 4) (B2 IXor (Ln "a" (Ix 4)) (Ln "b" (Ix 4)));
    SetL "c" (Ix 5) (B2 IXor (Ln "a" (Ix 5)) (Ln "b" (Ix 5)));
    SetL "c" (Ix 6) (B2 IXor (Ln "a" (Ix 6)) (Ln "b" (Ix 6)));
    SetL "c" (Ix 7) (B2 IXor (Ln "a" (Ix 7)) (Ln "b" (Ix 7)))]
   ["c"];
  (* v8/v8_portable.h:1061-1061 *)
  fnc "int &" 1061 [("a", 8); ("b", 8)]
   [SetL "c" (Ix 0) (B2 IAnd (Ln "a" (Ix 0)) (Ln "b" (Ix 0)));
    SetL "c" (Ix 1) (B2 IAnd (Ln "a" (Ix 1)) (Ln "b" (Ix 1)));
    SetL "c" (Ix 2) (B2 IAnd (Ln "a" (Ix 2)) (Ln "b" (Ix 2)));
    SetL "c" (Ix 3) (B2 IAnd (Ln "a" (Ix 3)) (Ln "b" (Ix 3)));
    SetL "c" (Ix 4) (B2 IAnd (Ln "a" (Ix 4)) (Ln "b" (Ix 4)));
    SetL "c" (Ix 5) (B2 IAnd (Ln "a" (Ix 5)) (Ln "b" (Ix 5)));
    SetL "c" (Ix 6) (B2 IAnd (Ln "a" (Ix 6)) (Ln "b" (Ix 6)));
    SetL "c" (Ix 7) (B2 IAnd (Ln "a" (Ix 7)) (Ln "b" (Ix 7)))]
   ["c"];
  (* v8/v8_portable.h:1062-1062 *)
  fnc "int |" 1062 [("a", 8); ("b", 8)]
   [SetL "c" (Ix 0) (B2 IOr (Ln "a" (Ix 0)) (Ln "b" (Ix 0)));
    SetL "c" (Ix 1) (B2 IOr (Ln "a" (Ix 1)) (Ln "b" (Ix 1)));
    SetL "c" (Ix 2) (B2 IOr (Ln "a" (Ix 2)) (Ln "b" (Ix 2)));
    SetL "c" (Ix 3) (B2 IOr (Ln "a" (Ix 3)) (Ln "b" (Ix 3)));
    SetL "c" (Ix 4) (B2 IOr (Ln "a" (Ix 4)) (Ln "b" (Ix 4)));
    SetL "c" (Ix 5) (B2 IOr (Ln "a" (Ix 5)) (Ln "b" (Ix 5)));
    SetL "c" (Ix 6) (B2 IOr (Ln "a" (Ix 6)) (Ln "b" (Ix 6)));
    SetL "c" (Ix 7) (B2 IOr (Ln "a" (Ix 7)) (Ln "b" (Ix 7)))]
   ["c"];
  (* v8/v8_portable.h:1063-1063 *)
  fnc "int <<" 1063 [("a", 8); ("b", 8)]
   [SetL "c" (Ix 0) (B2 IShl (Ln "a" (Ix 0)) (Ln "b" (Ix 0)));
    SetL "c" (Ix 1) (B2 IShl (Ln "a" (Ix 1)) (Ln "b" (Ix 1)));
    SetL "c" (Ix 2) (B2 IShl (Ln "a" (Ix 2)) (Ln "b" (Ix 2)));
    SetL "c" (Ix 3) (B2 IShl (Ln "a" (Ix 3)) (Ln "b" (Ix 3)));
    SetL "c" (Ix 4) (B2 IShl (Ln "a" (Ix 4)) (Ln "b" (Ix 4)));
    SetL "c" (Ix 5) (B2 IShl (Ln "a" (Ix 5)) (Ln "b" (Ix 5)));
    SetL "c" (Ix 6) (B2 IShl (Ln "a" (Ix 6)) (Ln "b" (Ix 6)));
    SetL "c" (Ix 7) (B2 IShl (Ln "a" (Ix 7)) (Ln "b" (Ix 7)))]
   ["c"];
  (* v8/v8_portable.h:1064-1064 *)
  fnc "int >>" 1064 [("a", 8); ("b", 8)]
   [SetL "c" (Ix 0) (B2 IShr (Ln "a" (Ix 0)) (Ln "b" (Ix 0)));
    SetL "c" (Ix 1) (B2 IShr (Ln "a" (Ix 1)) (Ln "b" (Ix 1)));
    SetL "c" (Ix 2) (B2 IShr (Ln "a" (Ix 2)) (Ln "b" (Ix 2)));
    SetL "c" (Ix 3) (B2 IShr (Ln "a" (Ix 3)) (Ln "b" (Ix 3)));
    SetL "c" (Ix 4) (B2 IShr (Ln "a" (Ix 4)) (Ln "b" (Ix 4)));
    SetL "c" (Ix 5) (B2 IShr (Ln "a" (Ix 5)) (Ln "b" (Ix 5)));
    SetL "c" (Ix 6) (B2 IShr (Ln "a" (Ix 6)) (Ln "b" (Ix 6)));
    SetL "c" (Ix 7) (B2 IShr (Ln "a" (Ix 7)) (Ln "b" (Ix 7)))]
   ["c"];
  (* v8/v8_portable.h:1085-1085 *)
  fnc "int <" 1085 [("a", 8); ("b", 8)]
   [SetL "c" (Ix 0) (U1 INeg (B2 ILt (Ln "a" (Ix 0)) (Ln "b" (Ix 0))));
    SetL "c" (Ix 1) (U1 INeg (B2 ILt (Ln "a" (Ix 1)) (Ln "b" (Ix 1))));
    SetL "c" (Ix 2) (U1 INeg (B2 ILt (Ln "a" (Ix 2)) (Ln "b" (Ix 2))));
    SetL "c" (Ix 3) (U1 INeg (B2 ILt (Ln "a" (Ix 3)) (Ln "b" (Ix 3))));
    SetL "c" (Ix 4) (U1 INeg (B2 ILt (Ln "a" (Ix 4)) (Ln "b" (Ix 4))));
    SetL "c" (Ix 5) (U1 INeg (B2 ILt (Ln "a" (Ix 5)) (Ln "b" (Ix 5))));
    SetL "c" (Ix 6) (U1 INeg (B2 ILt (Ln "a" (Ix 6)) (Ln "b" (Ix 6))));
    SetL "c" (Ix 7) (U1 INeg (B2 ILt (Ln "a" (Ix 7)) (Ln "b" (Ix 7))))]
   ["c"];
  (* v8/v8_portable.h:1086-1086 *)
  fnc "int >" 1086 [("a", 8); ("b", 8)]
   [SetL "c" (Ix 0) (U1 INeg (B2 IGt (Ln "a" (Ix 0)) (Ln "b" (Ix 0))));
    SetL "c" (Ix 1) (U1 INeg (B2 IGt (Ln "a" (Ix 1)) (Ln "b" (Ix 1))));
    SetL "c" (Ix 2) (U1 INeg (B2 IGt (Ln "a" (Ix 2)) (Ln "b" (Ix 2))));
    SetL "c" (Ix 3) (U1 INeg (B2 IGt (Ln "a" (Ix 3)) (Ln "b" (Ix 3))));
    SetL "c" (Ix 4) (U1 INeg (B2 IGt (Ln "a" (Ix 4)) (Ln "b" (Ix 4))));
    SetL "c" (Ix 5) (U1 INeg (B2 IGt (Ln "a" (Ix 5)) (Ln "b" (Ix 5))));
    SetL "c" (Ix 6) (U1 INeg (B2 IGt (Ln "a" (Ix 6)) (Ln "b" (Ix 6))));
    SetL "c" (Ix 7) (U1 INeg (B2 IGt (Ln "a" (Ix 7)) (Ln "b" (Ix 7))))]
   ["c"];
  (* v8/v8_portable.h:1087-1087 *)
  fnc "int ==" 1087 [("a", 8); ("b", 8)]
   [SetL "c" (Ix 0) (U1 INeg (B2 IEq (Ln "a" (Ix 0)) (Ln "b" (Ix 0))));
    SetL "c" (Ix 1) (U1 INeg (B2 IEq (Ln "a" (Ix 1)) (Ln "b" (Ix 1))));
    SetL "c" (Ix 2) (U1 INeg (B2 IEq (Ln "a" (Ix 2)) (Ln "b" (Ix 2))));
    SetL "c" (Ix 3) (U1 INeg (B2 IEq (Ln "a" (Ix 3)) (Ln "b" (Ix 3))));
    SetL "c" (Ix 4) (U1 INeg (B2 IEq (Ln "a" (Ix 4)) (Ln "b" (Ix 4))));
    SetL "c" (Ix 5) (U1 INeg (B2 IEq (Ln "a" (Ix 5)) (Ln "b" (Ix 5))));
    SetL "c" (Ix 6) (U1 INeg (B2 IEq (Ln "a" (Ix 6)) (Ln "b" (Ix 6))));
    SetL "c" (Ix 7) (U1 INeg (B2 IEq (Ln "a" (Ix 7)) (Ln "b" (Ix 7))))]
   ["c"];
  (* v8/v8_portable.h:1088-1088 *)
  fnc "int !=" 1088 [("a", 8); ("b", 8)]
   [SetL "c" (Ix 0) (U1 INeg (B2 INe (Ln "a" (Ix 0)) (Ln "b" (Ix 0))));
    SetL "c" (Ix 1) (U1 INeg (B2 INe (Ln "a" (Ix 1)) (Ln "b" (Ix 1))));
    SetL "c" (Ix 2) (U1 INeg (B2 INe (Ln "a" (Ix 2)) (Ln "b" (Ix 2))));
    SetL "c" (Ix 3) (U1 INeg (B2 INe (Ln "a" (Ix 3)) (Ln "b" (Ix 3))));
    SetL "c" (Ix 4) (U1 INeg (B2 INe (Ln "a" (Ix 4)) (Ln "b" (Ix 4))));
    SetL "c" (Ix 5) (U1 INeg (B2 INe (Ln "a" (Ix 5)) (Ln "b" (Ix 5))));
    SetL "c" (Ix 6) (U1 INeg (B2 INe (Ln "a" (Ix 6)) (Ln "b" (Ix 6))));
    SetL "c" (Ix 7) (U1 INeg (B2 INe (Ln "a" (Ix 7)) (Ln "b" (Ix 7))))]
   ["c"];
  (* v8/v8_portable.h:1089-1089 *)
  fnc "int <=" 1089 [("a", 8); ("b", 8)]
   [SetL "c" (Ix 0) (U1 INeg (B2 ILe (Ln "a" (Ix 0)) (Ln "b" (Ix 0))));
    SetL "c" (Ix 1) (U1 INeg (B2 ILe (Ln "a" (Ix 1)) (Ln "b" (Ix 1))));
    SetL "c" (Ix 2) (U1 INeg (B2 ILe (Ln "a" (Ix 2)) (Ln "b" (Ix 2))));
    SetL "c" (Ix 3) (U1 INeg (B2 ILe (Ln "a" (Ix 3)) (Ln "b" (Ix 3))));
    SetL "c" (Ix 4) (U1 INeg (B2 ILe (Ln "a" (Ix 4)) (Ln "b" (Ix 4))));
    SetL "c" (Ix 5) (U1 INeg (B2 ILe (Ln "a" (Ix 5)) (Ln "b" (Ix 5))));
    SetL "c" (Ix 6) (U1 INeg (B2 ILe (Ln "a" (Ix 6)) (Ln "b" (Ix 6))));
    SetL "c" (Ix 7) (U1 INeg (B2 ILe (Ln "a" (Ix 7)) (Ln "b" (Ix 7))))]
   ["c"];
  (* v8/v8_portable.h:1090-1090 *)
  fnc "int >=" 1090 [("a", 8); ("b", 8)]
   [SetL "c" (Ix 0) (U1 INeg (B2 IGe (Ln "a" (Ix 0)) (Ln "b" (Ix 0))));
    SetL "c" (Ix 1) (U1 INeg (B2 IGe (Ln "a" (Ix 1)) (Ln "b" (Ix 1))));
    SetL "c" (Ix 2) (U1 INeg (B2 IGe (Ln "a" (Ix 2)) (Ln "b" (Ix 2))));
    SetL "c" (Ix 3) (U1 INeg (B2 IGe (Ln "a" (Ix 3)) (Ln "b" (Ix 3))));
    SetL "c" (Ix 4) (U1 INeg (B2 IGe (Ln "a" (Ix 4)) (Ln "b" (Ix 4))));
    SetL "c" (Ix 5) (U1 INeg (B2 IGe (Ln "a" (Ix 5)) (Ln "b" (Ix 5))));
    SetL "c" (Ix 6) (U1 INeg (B2 IGe (Ln "a" (Ix 6)) (Ln "b" (Ix 6))));
    SetL "c" (Ix 7) (U1 INeg (B2 IGe (Ln "a" (Ix 7)) (Ln "b" (Ix 7))))]
   ["c"];
  (* v8/v8_portable.h:1091-1091 *)
  fnc "int &&" 1091 [("a", 8); ("b", 8)]
   [SetL "c" (Ix 0) (U1 INeg (B2 ILAnd (Ln "a" (Ix 0)) (Ln "b" (Ix 0))));
    SetL "c" (Ix 1) (U1 INeg (B2 ILAnd (Ln "a" (Ix 1)) (Ln "b" (Ix 1))));
    SetL "c" (Ix 2) (U1 INeg (B2 ILAnd (Ln "a" (Ix 2)) (Ln "b" (Ix 2))));
    SetL "c" (Ix 3) (U1 INeg (B2 ILAnd (Ln "a" (Ix 3)) (Ln "b" (Ix 3))));
    SetL "c" (Ix 4) (U1 INeg (B2 ILAnd (Ln "a" (Ix 4)) (Ln "b" (Ix 4))));
    SetL "c" (Ix 5) (U1 INeg (B2 ILAnd (Ln "a" (Ix 5)) (Ln "b" (Ix 5))));
    SetL "c" (Ix 6) (U1 INeg (B2 ILAnd (Ln "a" (Ix 6)) (Ln "b" (Ix 6))));
    SetL "c" (Ix 7) (U1 INeg (B2 ILAnd (Ln "a" (Ix 7)) (Ln "b" (Ix 7))))]
   ["c"];
  (* v8/v8_portable.h:1092-1092 *)
  fnc "int ||" 1092 [("a", 8); ("b", 8)]
   [SetL "c" (Ix 0) (U1 INeg (B2 ILOr (Ln "a" (Ix 0)) (Ln "b" (Ix 0))));
    SetL "c" (Ix 1) (U1 INeg (B2 ILOr (Ln "a" (Ix 1)) (Ln "b" (Ix 1))));
    SetL "c" (Ix 2) (U1 INeg (B2 ILOr (Ln "a" (Ix 2)) (Ln "b" (Ix 2))));
    SetL "c" (Ix 3) (U1 INeg (B2 ILOr (Ln "a" (Ix 3)) (Ln "b" (Ix 3))));
    SetL "c" (Ix 4) (U1 INeg (B2 ILOr (Ln "a" (Ix 4)) (Ln "b" (Ix 4))));
    SetL "c" (Ix 5) (U1 INeg (B2 ILOr (Ln "a" (Ix 5)) (Ln "b" (Ix 5))));
    SetL "c" (Ix 6) (U1 INeg (B2 ILOr (Ln "a" (Ix 6)) (Ln "b" (Ix 6))));
    SetL "c" (Ix 7) (U1 INeg (B2 ILOr (Ln "a" (Ix 7)) (Ln "b" (Ix 7))))]
   ["c"];
  (* v8/v8_portable.h:1098-1112 *)
  fnc "int abs" 1098 [("a", 8)]
   [SetL "b" (Ix 0) (Cond (B2 IGe (Ln "a" (Ix 0)) (Cst 0)) (Ln "a" (Ix 0)) (U1 INeg (Ln "a" (Ix 0))));
    SetL "b" (Ix 1) (Cond (B2 IGe (Ln "a" (Ix 1)) (Cst 0)) (Ln "a" (Ix 1)) (U1 INeg (Ln "a" (Ix 1))));
    SetL "b" (Ix 2) (Cond (B2 IGe (Ln "a" (Ix 2)) (Cst 0)) (Ln "a" (Ix 2)) (U1 INeg (Ln "a" (Ix 2))));
    SetL "b" (Ix 3) (Cond (B2 IGe (Ln "a" (Ix 3)) (Cst 0)) (Ln "a" (Ix 3)) (U1 INeg (Ln "a" (Ix 3))));
    SetL "b" (Ix 4) (Cond (B2 IGe (Ln "a" (Ix 4)) (Cst 0)) (Ln "a" (Ix 4)) (U1 INeg (Ln "a" (Ix 4))));
    SetL "b" (Ix 5) (Cond (B2 IGe (Ln "a" (Ix 5)) (Cst 0)) (Ln "a" (Ix 5)) (U1 INeg (Ln "a" (Ix 5))));
    SetL "b" (Ix 6) (Cond (B2 IGe (Ln "a" (Ix 6)) (Cst 0)) (Ln "a" (Ix 6)) (U1 INeg (Ln "a" (Ix 6))));
    SetL "b" (Ix 7) (Cond (B2 IGe (Ln "a" (Ix 7)) (Cst 0)) (Ln "a" (Ix 7)) (U1 INeg (Ln "a" (Ix 7))))]
   ["b"];
  (* v8/v8_portable.h:1114-1128 *)
  fnc "czero" 1114 [("c", 8); ("a", 8)]
   [SetL "b" (Ix 0) (B2 IAnd (Ln "a" (Ix 0)) (U1 INot (Ln "c" (Ix 0))));
    SetL "b" (Ix 1) (B2 IAnd (Ln "a" (Ix 1)) (U1 INot (Ln "c" (Ix 1))));
    SetL "b" (Ix 2) (B2 IAnd (Ln "a" (Ix 2)) (U1 INot (Ln "c" (Ix 2))));
    SetL "b" (Ix 3) (B2 IAnd (Ln "a" (Ix 3)) (U1 INot (Ln "c" (Ix 3))));
    SetL "b" (Ix 4) (B2 IAnd (Ln "a" (Ix 4)) (U1 INot (Ln "c" (Ix 4))));
    SetL "b" (Ix 5) (B2 IAnd (Ln "a" (Ix 5)) (U1 INot (Ln "c" (Ix 5))));
    SetL "b" (Ix 6) (B2 IAnd (Ln "a" (Ix 6)) (U1 INot (Ln "c" (Ix 6))));
    SetL "b" (Ix 7) (B2 IAnd (Ln "a" (Ix 7)) (U1 INot (Ln "c" (Ix 7))))]
   ["b"];
  (* v8/v8_portable.h:1130-1144 *)
  fnc "notczero" 1130 [("c", 8); ("a", 8)]
   [SetL "b" (Ix 0) (B2 IAnd (Ln "a" (Ix 0)) (Ln "c" (Ix 0)));
    SetL "b" (Ix 1) (B2 IAnd (Ln "a" (Ix 1)) (Ln "c" (Ix 1)));
    SetL "b" (Ix 2) (B2 IAnd (Ln "a" (Ix 2)) (Ln "c" (Ix 2)));
    SetL "b" (Ix 3) (B2 IAnd (Ln "a" (Ix 3)) (Ln "c" (Ix 3)));
    SetL "b" (Ix 4) (B2 IAnd (Ln "a" (Ix 4)) (Ln "c" (Ix 4)));
    SetL "b" (Ix 5) (B2 IAnd (Ln "a" (Ix 5)) (Ln "c" (Ix 5)));
    SetL "b" (Ix 6) (B2 IAnd (Ln "a" (Ix 6)) (Ln "c" (Ix 6)));
    SetL "b" (Ix 7) (B2 IAnd (Ln "a" (Ix 7)) (Ln "c" (Ix 7)))]
   ["b"];
  (* v8/v8_portable.h:1146-1160 *)
  fnc "merge" 1146 [("c", 8); ("t", 8); ("f", 8)]
   [SetL "m" (Ix 0) (B2 IOr (B2 IAnd (Ln "f" (Ix 0)) (U1 INot (Ln "c" (Ix 0)))) (B2 IAnd (Ln "t" (Ix 0)) (Ln "c" (Ix 0))));
    SetL "m" (Ix 1) (B2 IOr (B2 IAnd (Ln "f" (Ix 1)) (U1 INot (Ln "c" (Ix 1)))) (B2 IAnd (Ln "t" (Ix 1)) (Ln "c" (Ix 1))));
    SetL "m" (Ix 2) (B2 IOr (B2 IAnd (Ln "f" (Ix 2)) (U1 INot (Ln "c" (Ix 2)))) (B2 IAnd (Ln "t" (Ix 2)) (Ln "c" (Ix 2))));
    SetL "m" (Ix 3) (B2 IOr (B2 IAnd (Ln "f" (Ix 3)) (U1 INot (Ln "c" (Ix 3)))) (B2 IAnd (Ln "t" (Ix 3)) (Ln "c" (Ix 3))));
    SetL "m" (Ix 4) (B2 IOr (B2 IAnd (Ln "f" (Ix 4)) (U1 INot (Ln "c" (Ix 4)))) (B2 IAnd (Ln "t" (Ix 4)) (Ln "c" (Ix 4))));
    SetL "m" (Ix 5) (B2 IOr (B2 IAnd (Ln "f" (Ix 5)) (U1 INot (Ln "c" (Ix 5)))) (B2 IAnd (Ln "t" (Ix 5)) (Ln "c" (Ix 5))));
    SetL "m" (Ix 6) (B2 IOr (B2 IAnd (Ln "f" (Ix 6)) (U1 INot (Ln "c" (Ix 6)))) (B2 IAnd (Ln "t" (Ix 6)) (Ln "c" (Ix 6))));
    SetL "m" (Ix 7) (B2 IOr (B2 IAnd (Ln "f" (Ix 7)) (U1 INot (Ln "c" (Ix 7)))) (B2 IAnd (Ln "t" (Ix 7)) (Ln "c" (Ix 7))))]
   ["m"];
  (* v8/v8_portable.h:1309-1309 *)
  fnc "float =" 1309 [("this", 8); ("b", 8)]
   [SetL "this" (Ix 0) (Ln "b" (Ix 0));
    SetL "this" (Ix 1) (Ln "b" (Ix 1));
    SetL "this" (Ix 2) (Ln "b" (Ix 2));
    SetL "this" (Ix 3) (Ln "b" (Ix 3));
    SetL "this" (Ix 4) (Ln "b" (Ix 4));
    SetL "this" (Ix 5) (Ln "b" (Ix 5));
    SetL "this" (Ix 6) (Ln "b" (Ix 6));
    SetL "this" (Ix 7) (Ln "b" (Ix 7))]
   ["this"];
  (* v8/v8_portable.h:1310-1310 *)
  fnc "float +=" 1310 [("this", 8); ("b", 8)]
   [SetL "this" (Ix 0) (B2 FAdd (Ln "this" (Ix 0)) (Ln "b" (Ix 0)));
    SetL "this" (Ix 1) (B2 FAdd (Ln "this" (Ix 1)) (Ln "b" (Ix 1)));
    SetL "this" (Ix 2) (B2 FAdd (Ln "this" (Ix 2)) (Ln "b" (Ix 2)));
    SetL "this" (Ix 3) (B2 FAdd (Ln "this" (Ix 3)) (Ln "b" (Ix 3)));
    SetL "this" (Ix 4) (B2 FAdd (Ln "this" (Ix 4)) (Ln "b" (Ix 4)));
    SetL "this" (Ix 5) (B2 FAdd (Ln "this" (Ix 5)) (Ln "b" (Ix 5)));
    SetL "this" (Ix 6) (B2 FAdd (Ln "this" (Ix 6)) (Ln "b" (Ix 6)));
    SetL "this" (Ix 7) (B2 FAdd (Ln "this" (Ix 7)) (Ln "b" (Ix 7)))]
   ["this"];
  (* v8/v8_portable.h:1311-1311 *)
  fnc "float -=" 1311 [("this", 8); ("b", 8)]
   [SetL "this" (Ix 0) (B2 FSub (Ln "this" (Ix 0)) (Ln "b" (Ix 0)));
    SetL "this" (Ix 1) (B2 FSub (Ln "this" (Ix 1)) (Ln "b" (Ix 1)));
    SetL "this" (Ix 2) (B2 FSub (Ln "this" (Ix 2)) (Ln "b" (Ix 2)));
    SetL "this" (Ix 3) (B2 FSub (Ln "this" (Ix 3)) (Ln "b" (Ix 3)));
    SetL "this" (Ix 4) (B2 FSub (Ln "this" (Ix 4)) (Ln "b" (Ix 4)));
    SetL "this" (Ix 5) (B2 FSub (Ln "this" (Ix 5)) (Ln "b" (Ix 5)));
    SetL "this" (Ix 6) (B2 FSub (Ln "this" (Ix 6)) (Ln "b" (Ix 6)));
    SetL "this" (Ix 7) (B2 FSub (Ln "this" (Ix 7)) (Ln "b" (Ix 7)))]
   ["this"];
  (* v8/v8_portable.h:1312-1312 *)
  fnc "float *=" 1312 [("this", 8); ("b", 8)]
   [SetL "this" (Ix 0) (B2 FMul (Ln "this" (Ix 0)) (Ln "b" (Ix 0)));
    SetL "this" (Ix 1) (B2 FMul (Ln "this" (Ix 1)) (Ln "b" (Ix 1)));
    SetL "this" (Ix 2) (B2 FMul (Ln "this" (Ix 2)) (Ln "b" (Ix 2)));
    SetL "this" (Ix 3) (B2 FMul (Ln "this" (Ix 3)) (Ln "b" (Ix 3)));
    SetL "this" (Ix 4) (B2 FMul (Ln "this" (Ix 4)) (Ln "b" (Ix 4)));
    SetL "this" (Ix 5) (B2 FMul (Ln "this" (Ix 5)) (Ln "b" (Ix 5)));
    SetL "this" (Ix 6) (B2 FMul (Ln "this" (Ix 6)) (Ln "b" (Ix 6)));
    SetL "this" (Ix 7) (B2 FMul (Ln "this" (Ix 7)) (Ln "b" (Ix 7)))]
   ["this"];
  (* v8/v8_portable.h:1313-1313 *)
  fnc "float /=" 1313 [("this", 8); ("b", 8)]
   [SetL "this" (Ix 0) (B2 FDiv (Ln "this" (Ix 0)) (Ln "b" (Ix 0)));
    SetL "this" (Ix 1) (B2 FDiv (Ln "this" (Ix 1)) (Ln "b" (Ix 1)));
    SetL "this" (Ix 2) (B2 FDiv (Ln "this" (Ix 2)) (Ln "b" (Ix 2)));
    SetL "this" (Ix 3) (B2 FDiv (Ln "this" (Ix 3)) (Ln "b" (Ix 3)));
    SetL "this" (Ix 4) (B2 FDiv (Ln "this" (Ix 4)) (Ln "b" (Ix 4)));
    SetL "this" (Ix 5) (B2 FDiv (Ln "this" (Ix 5)) (Ln "b" (Ix 5)));
    SetL "this" (Ix 6) (B2 FDiv (Ln "this" (Ix 6)) (Ln "b" (Ix 6)));
    SetL "this" (Ix 7) (B2 FDiv (Ln "this" (Ix 7)) (Ln "b" (Ix 7)))]
   ["this"];
  (* v8/v8_portable.h:1332-1346 *)
  fnc "float unary+" 1332 [("a", 8)]
   [SetL "b" (Ix 0) (Ln "a" (Ix 0));
    SetL "b" (Ix 1) (Ln "a" (Ix 1));
    SetL "b" (Ix 2) (Ln "a" (Ix 2));
    SetL "b" (Ix 3) (Ln "a" (Ix 3));
    SetL "b" (Ix 4) (Ln "a" (Ix 4));
    SetL "b" (Ix 5) (Ln "a" (Ix 5));
    SetL "b" (Ix 6) (Ln "a" (Ix 6));
    SetL "b" (Ix 7) (Ln "a" (Ix 7))]
   ["b"];
  (* v8/v8_portable.h:1348-1362 *)
  fnc "float unary-" 1348 [("a", 8)]
   [SetL "b" (Ix 0) (U1 FNeg (Ln "a" (Ix 0)));
    SetL "b" (Ix 1) (U1 FNeg (Ln "a" (Ix 1)));
    SetL "b" (Ix 2) (U1 FNeg (Ln "a" (Ix 2)));
    SetL "b" (Ix 3) (U1 FNeg (Ln "a" (Ix 3)));
    SetL "b" (Ix 4) (U1 FNeg (Ln "a" (Ix 4)));
    SetL "b" (Ix 5) (U1 FNeg (Ln "a" (Ix 5)));
    SetL "b" (Ix 6) (U1 FNeg (Ln "a" (Ix 6)));
    SetL "b" (Ix 7) (U1 FNeg (Ln "a" (Ix 7)))]
   ["b"];
  (* v8/v8_portable.h:1364-1378 *)
  fnc "float !" 1364 [("a", 8)]
   [SetL "b" (Ix 0) (Cond (Ln "a" (Ix 0)) (Cst 0) (Cst 4294967295));
    SetL "b" (Ix 1) (Cond (Ln "a" (Ix 1)) (Cst 0) (Cst 4294967295));
    SetL "b" (Ix 2) (Cond (Ln "a" (Ix 2)) (Cst 0) (Cst 4294967295));
    SetL "b" (Ix 3) (Cond (Ln "a" (Ix 3)) (Cst 0) (Cst 4294967295));
    SetL "b" (Ix 4) (Cond (Ln "a" (Ix 4)) (Cst 0) (Cst 4294967295));
    SetL "b" (Ix 5) (Cond (Ln "a" (Ix 5)) (Cst 0) (Cst 4294967295));
    SetL "b" (Ix 6) (Cond (Ln "a" (Ix 6)) (Cst 0) (Cst 4294967295));
    SetL "b" (Ix 7) (Cond (Ln "a" (Ix 7)) (Cst 0) (Cst 4294967295))]
   ["b"];
  (* v8/v8_portable.h:1382-1396 *)
  fnc "float pre++" 1382 [("a", 8)]
   [SetL "a" (Ix 0) (B2 FAdd (Ln "a" (Ix 0)) (Cst 1065353216));
    SetL "b" (Ix 0) (Ln "a" (Ix 0));
    SetL "a" (Ix 1) (B2 FAdd (Ln "a" (Ix 1)) (Cst 1065353216));
    SetL "b" (Ix 1) (Ln "a" (Ix 1));
    SetL "a" (Ix 2) (B2 FAdd (Ln "a" (Ix 2)) (Cst 1065353216));
    SetL "b" (Ix 2) (Ln "a" (Ix 2));
    SetL "a" (Ix 3) (B2 FAdd (Ln "a" (Ix 3)) (Cst 1065353216));
    SetL "b" (Ix 3) (Ln "a" (Ix 3));
    SetL "a" (Ix 4) (B2 FAdd (Ln "a" (Ix 4)) (Cst 1065353216));
    SetL "b" (Ix 4) (Ln "a" (Ix 4));
    SetL "a" (Ix 5) (B2 FAdd (Ln "a" (Ix 5)) (Cst 1065353216));
    SetL "b" (Ix 5) (Ln "a" (Ix 5));
    SetL "a" (Ix 6) (B2 FAdd (Ln "a" (Ix 6)) (Cst 1065353216));
    SetL "b" (Ix 6) (Ln "a" (Ix 6));
    SetL "a" (Ix 7) (B2 FAdd (Ln "a" (Ix 7)) (Cst 1065353216));
    SetL "b" (Ix 7) (Ln "a" (Ix 7))]
   ["b"; "a"];
  (* v8/v8_portable.h:1398-1412 *)
  fnc "float pre--" 1398 [("a", 8)]
   [SetL "a" (Ix 0) (B2 FSub (Ln "a" (Ix 0)) (Cst 1065353216));
    SetL "b" (Ix 0) (Ln "a" (Ix 0));
    SetL "a" (Ix 1) (B2 FSub (Ln "a" (Ix 1)) (Cst 1065353216));
    SetL "b" (Ix 1) (Ln "a" (Ix 1));
    SetL "a" (Ix 2) (B2 FSub (Ln "a" (Ix 2)) (Cst 1065353216));
    SetL "b" (Ix 2) (Ln "a" (Ix 2));
    SetL "a" (Ix 3) (B2 FSub (Ln "a" (Ix 3)) (Cst 1065353216));
    SetL "b" (Ix 3) (Ln "a" (Ix 3));
    SetL "a" (Ix 4) (B2 FSub (Ln "a" (Ix 4)) (Cst 1065353216));
    SetL "b" (Ix 4) (Ln "a" (Ix 4));
    SetL "a" (Ix 5) (B2 FSub (Ln "a" (Ix 5)) (Cst 1065353216));
    SetL "b" (Ix 5) (Ln "a" (Ix 5));
    SetL "a" (Ix 6) (B2 FSub (Ln "a" (Ix 6)) (Cst 1065353216));
    SetL "b" (Ix 6) (Ln "a" (Ix 6));
    SetL "a" (Ix 7) (B2 FSub (Ln "a" (Ix 7)) (Cst 1065353216));
    SetL "b" (Ix 7) (Ln "a" (Ix 7))]
   ["b"; "a"];
  (* v8/v8_portable.h:1416-1430 *)
  fnc "float post++" 1416 [("a", 8)]
   [SetL "b" (Ix 0) (Ln "a" (Ix 0));
    SetL "a" (Ix 0) (B2 FAdd (Ln "a" (Ix 0)) (Cst 1065353216));
    SetL "b" (Ix 1) (Ln "a" (Ix 1));
    SetL "a" (Ix 1) (B2 FAdd (Ln "a" (Ix 1)) (Cst 1065353216));
    SetL "b" (Ix 2) (Ln "a" (Ix 2));
    SetL "a" (Ix 2) (B2 FAdd (Ln "a" (Ix 2)) (Cst 1065353216));
    SetL "b" (Ix 3) (Ln "a" (Ix 3));
    SetL "a" (Ix 3) (B2 FAdd (Ln "a" (Ix 3)) (Cst 1065353216));
    SetL "b" (Ix 4) (Ln "a" (Ix 4));
    SetL "a" (Ix 4) (B2 FAdd (Ln "a" (Ix 4)) (Cst 1065353216));
    SetL "b" (Ix 5) (Ln "a" (Ix 5));
    SetL "a" (Ix 5) (B2 FAdd (Ln "a" (Ix 5)) (Cst 1065353216));
    SetL "b" (Ix 6) (Ln "a" (Ix 6));
    SetL "a" (Ix 6) (B2 FAdd (Ln "a" (Ix 6)) (Cst 1065353216));
    SetL "b" (Ix 7) (Ln "a" (Ix 7));
    SetL "a" (Ix 7) (B2 FAdd (Ln "a" (Ix 7)) (Cst 1065353216))]
   ["b"; "a"];
  (* v8/v8_portable.h:1432-1446 *)
  fnc "float post--" 1432 [("a", 8)]
   [SetL "b" (Ix 0) (Ln "a" (Ix 0));
    SetL "a" (Ix 0) (B2 FSub (Ln "a" (Ix 0)) (Cst 1065353216));
    SetL "b" (Ix 1) (Ln "a" (Ix 1));
    SetL "a" (Ix 1) (B2 FSub (Ln "a" (Ix 1)) (Cst 1065353216));
    SetL "b" (Ix 2) (Ln "a" (Ix 2));
    SetL "a" (Ix 2) (B2 FSub (Ln "a" (Ix 2)) (Cst 1065353216));
    SetL "b" (Ix 3) (Ln "a" (Ix 3));
    SetL "a" (Ix 3) (B2 FSub (Ln "a" (Ix 3)) (Cst 1065353216));
    SetL "b" (Ix 4) (Ln "a" (Ix 4));
    SetL "a" (Ix 4) (B2 FSub (Ln "a" (Ix 4)) (Cst 1065353216));
    SetL "b" (Ix 5) (Ln "a" (Ix 5));
    SetL "a" (Ix 5) (B2 FSub (Ln "a" (Ix 5)) (Cst 1065353216));
    SetL "b" (Ix 6) (Ln "a" (Ix 6));
    SetL "a" (Ix 6) (B2 FSub (Ln "a" (Ix 6)) (Cst 1065353216));
    SetL "b" (Ix 7) (Ln "a" (Ix 7));
    SetL "a" (Ix 7) (B2 FSub (Ln "a" (Ix 7)) (Cst 1065353216))]
   ["b"; "a"];
  (* v8/v8_portable.h:1465-1465 *)
  fnc "float +" 1465 [("a", 8); ("b", 8)]
   [SetL "c" (Ix 0) (B2 FAdd (Ln "a" (Ix 0)) (Ln "b" (Ix 0)));
    SetL "c" (Ix 1) (B2 FAdd (Ln "a" (Ix 1)) (Ln "b" (Ix 1)));
    SetL "c" (Ix 2) (B2 FAdd (Ln "a" (Ix 2)) (Ln "b" (Ix 2)));
    SetL "c" (Ix 3) (B2 FAdd (Ln "a" (Ix 3)) (Ln "b" (Ix 3)));
    SetL "c" (Ix 4) (B2 FAdd (Ln "a" (Ix 4)) (Ln "b" (Ix 4)));
    SetL "c" (Ix 5) (B2 FAdd (Ln "a" (Ix 5)) (Ln "b" (Ix 5)));
    SetL "c" (Ix 6) (B2 FAdd (Ln "a" (Ix 6)) (Ln "b" (Ix 6)));
    SetL "c" (Ix 7) (B2 FAdd (Ln "a" (Ix 7)) (Ln "b" (Ix 7)))]
   ["c"];
  (* v8/v8_portable.h:1466-1466 *)
  fnc "float -" 1466 [("a", 8); ("b", 8)]
   [SetL "c" (Ix 0) (B2 FSub (Ln "a" (Ix 0)) (Ln "b" (Ix 0)));
    SetL "c" (Ix 1) (B2 FSub (Ln "a" (Ix 1)) (Ln "b" (Ix 1)));
    SetL "c" (Ix 2) (B2 FSub (Ln "a" (Ix 2)) (Ln "b" (Ix 2)));
    SetL "c" (Ix 3) (B2 FSub (Ln "a" (Ix 3)) (Ln "b" (Ix 3)));
    SetL "c" (Ix 4) (B2 FSub (Ln "a" (Ix 4)) (Ln "b" (Ix 4)));
    SetL "c" (Ix 5) (B2 FSub (Ln "a" (Ix 5)) (Ln "b" (Ix 5)));
    SetL "c" (Ix 6) (B2 FSub (Ln "a" (Ix 6)) (Ln "b" (Ix 6)));
    SetL "c" (Ix 7) (B2 FSub (Ln "a" (Ix 7)) (Ln "b" (Ix 7)))]
   ["c"];
  (* v8/v8_portable.h:1467-1467 *)
  fnc "float *" 1467 [("a", 8); ("b", 8)]
   [SetL "c" (Ix 0) (B2 FMul (Ln "a" (Ix 0)) (Ln "b" (Ix 0)));
    SetL "c" (Ix 1) (B2 FMul (Ln "a" (Ix 1)) (Ln "b" (Ix 1)));
    SetL "c" (Ix 2) (B2 FMul (Ln "a" (Ix 2)) (Ln "b" (Ix 2)));
    SetL "c" (Ix 3) (B2 FMul (Ln "a" (Ix 3)) (Ln "b" (Ix 3)));
    SetL "c" (Ix 4) (B2 FMul (Ln "a" (Ix 4)) (Ln "b" (Ix 4)));
    SetL "c" (Ix 5) (B2 FMul (Ln "a" (Ix 5)) (Ln "b" (Ix 5)));
    SetL "c" (Ix 6) (B2 FMul (Ln "a" (Ix 6)) (Ln "b" (Ix 6)));
    SetL "c" (Ix 7) (B2 FMul (Ln "a" (Ix 7)) (Ln "b" (Ix 7)))]
   ["c"];
  (* v8/v8_portable.h:1468-1468 *)
  fnc "float /" 1468 [("a", 8); ("b", 8)]
   [SetL "c" (Ix 0) (B2 FDiv (Ln "a" (Ix 0)) (Ln "b" (Ix 0)));
    SetL "c" (Ix 1) (B2 FDiv (Ln "a" (Ix 1)) (Ln "b" (Ix 1)));
    SetL "c" (Ix 2) (B2 FDiv (Ln "a" (Ix 2)) (Ln "b" (Ix 2)));
    SetL "c" (Ix 3) (B2 FDiv (Ln "a" (Ix 3)) (Ln "b" (Ix 3)));
    SetL "c" (Ix 4) (B2 FDiv (Ln "a" (Ix 4)) (Ln "b" (Ix 4)));
    SetL "c" (Ix 5) (B2 FDiv (Ln "a" (Ix 5)) (Ln "b" (Ix 5)));
    SetL "c" (Ix 6) (B2 FDiv (Ln "a" (Ix 6)) (Ln "b" (Ix 6)));
    SetL "c" (Ix 7) (B2 FDiv (Ln "a" (Ix 7)) (Ln "b" (Ix 7)))]
   ["c"];
  (* v8/v8_portable.h:1489-1489 *)
  fnc "float <" 1489 [("a", 8); ("b", 8)]
   [SetL "c" (Ix 0) (U1 INeg (B2 (FCmp CLt) (Ln "a" (Ix 0)) (Ln "b" (Ix 0))));
    SetL "c" (Ix 1) (U1 INeg (B2 (FCmp CLt) (Ln "a" (Ix 1)) (Ln "b" (Ix 1))));
    SetL "c" (Ix 2) (U1 INeg (B2 (FCmp CLt) (Ln "a" (Ix 2)) (Ln "b" (Ix 2))));
    SetL "c" (Ix 3) (U1 INeg (B2 (FCmp CLt) (Ln "a" (Ix 3)) (Ln "b" (Ix 3))));
    SetL "c" (Ix 4) (U1 INeg (B2 (FCmp CLt) (Ln "a" (Ix 4)) (Ln "b" (Ix 4))));
    SetL "c" (Ix 5) (U1 INeg (B2 (FCmp CLt) (Ln "a" (Ix 5)) (Ln "b" (Ix 5))));
    SetL "c" (Ix 6) (U1 INeg (B2 (FCmp CLt) (Ln "a" (Ix 6)) (Ln "b" (Ix 6))));
    SetL "c" (Ix 7) (U1 INeg (B2 (FCmp CLt) (Ln "a" (Ix 7)) (Ln "b" (Ix 7))))]
   ["c"];
  (* v8/v8_portable.h:1490-1490 *)
  fnc "float >" 1490 [("a", 8); ("b", 8)]
   [SetL "c" (Ix 0) (U1 INeg (B2 (FCmp CGt) (Ln "a" (Ix 0)) (Ln "b" (Ix 0))));
    SetL "c" (Ix 1) (U1 INeg (B2 (FCmp CGt) (Ln "a" (Ix 1)) (Ln "b" (Ix 1))));
    SetL "c" (Ix 2) (U1 INeg (B2 (FCmp CGt) (Ln "a" (Ix 2)) (Ln "b" (Ix 2))));
    SetL "c" (Ix 3) (U1 INeg (B2 (FCmp CGt) (Ln "a" (Ix 3)) (Ln "b" (Ix 3))));
    SetL "c" (Ix 4) (U1 INeg (B2 (FCmp CGt) (Ln "a" (Ix 4)) (Ln "b" (Ix 4))));
    SetL "c" (Ix 5) (U1 INeg (B2 (FCmp CGt) (Ln "a" (Ix 5)) (Ln "b" (Ix 5))));
    SetL "c" (Ix 6) (U1 INeg (B2 (FCmp CGt) (Ln "a" (Ix 6)) (Ln "b" (Ix 6))));
    SetL "c" (Ix 7) (U1 INeg (B2 (FCmp CGt) (Ln "a" (Ix 7)) (Ln "b" (Ix 7))))]
   ["c"];
  (* v8/v8_portable.h:1491-1491 *)
  fnc "float ==" 1491 [("a", 8); ("b", 8)]
   [SetL "c" (Ix 0) (U1 INeg (B2 (FCmp CEq) (Ln "a" (Ix 0)) (Ln "b" (Ix 0))));
    SetL "c" (Ix 1) (U1 INeg (B2 (FCmp CEq) (Ln "a" (Ix 1)) (Ln "b" (Ix 1))));
    SetL "c" (Ix 2) (U1 INeg (B2 (FCmp CEq) (Ln "a" (Ix 2)) (Ln "b" (Ix 2))));
    SetL "c" (Ix 3) (U1 INeg (B2 (FCmp CEq) (Ln "a" (Ix 3)) (Ln "b" (Ix 3))));
    SetL "c" (Ix 4) (U1 INeg (B2 (FCmp CEq) (Ln "a" (Ix 4)) (Ln "b" (Ix 4))));
    SetL "c" (Ix 5) (U1 INeg (B2 (FCmp CEq) (Ln "a" (Ix 5)) (Ln "b" (Ix 5))));
    SetL "c" (Ix 6) (U1 INeg (B2 (FCmp CEq) (Ln "a" (Ix 6)) (Ln "b" (Ix 6))));
    SetL "c" (Ix 7) (U1 INeg (B2 (FCmp CEq) (Ln "a" (Ix 7)) (Ln "b" (Ix 7))))]
   ["c"];
  (* v8/v8_portable.h:1492-1492 *)
  fnc "float !=" 1492 [("a", 8); ("b", 8)]
   [SetL "c" (Ix 0) (U1 INeg (B2 (FCmp CNe) (Ln "a" (Ix 0)) (Ln "b" (Ix 0))));
    SetL "c" (Ix 1) (U1 INeg (B2 (FCmp CNe) (Ln "a" (Ix 1)) (Ln "b" (Ix 1))));
    SetL "c" (Ix 2) (U1 INeg (B2 (FCmp CNe) (Ln "a" (Ix 2)) (Ln "b" (Ix 2))));
    SetL "c" (Ix 3) (U1 INeg (B2 (FCmp CNe) (Ln "a" (Ix 3)) (Ln "b" (Ix 3))));
    SetL "c" (Ix 4) (U1 INeg (B2 (FCmp CNe) (Ln "a" (Ix 4)) (Ln "b" (Ix 4))));
    SetL "c" (Ix 5) (U1 INeg (B2 (FCmp CNe) (Ln "a" (Ix 5)) (Ln "b" (Ix 5))));
    SetL "c" (Ix 6) (U1 INeg (B2 (FCmp CNe) (Ln "a" (Ix 6)) (Ln "b" (Ix 6))));
    SetL "c" (Ix 7) (U1 INeg (B2 (FCmp CNe) (Ln "a" (Ix 7)) (Ln "b" (Ix 7))))]
   ["c"];
  (* v8/v8_portable.h:1493-1493 *)
  fnc "float <=" 1493 [("a", 8); ("b", 8)]
   [SetL "c" (Ix 0) (U1 INeg (B2 (FCmp CLe) (Ln "a" (Ix 0)) (Ln "b" (Ix 0))));
    SetL "c" (Ix 1) (U1 INeg (B2 (FCmp CLe) (Ln "a" (Ix 1)) (Ln "b" (Ix 1))));
    SetL "c" (Ix 2) (U1 INeg (B2 (FCmp CLe) (Ln "a" (Ix 2)) (Ln "b" (Ix 2))));
    SetL "c" (Ix 3) (U1 INeg (B2 (FCmp CLe) (Ln "a" (Ix 3)) (Ln "b" (Ix 3))));
    SetL "c" (Ix 4) (U1 INeg (B2 (FCmp CLe) (Ln "a" (Ix 4)) (Ln "b" (Ix 4))));
    SetL "c" (Ix 5) (U1 INeg (B2 (FCmp CLe) (Ln "a" (Ix 5)) (Ln "b" (Ix 5))));
    SetL "c" (Ix 6) (U1 INeg (B2 (FCmp CLe) (Ln "a" (Ix 6)) (Ln "b" (Ix 6))));
    SetL "c" (Ix 7) (U1 INeg (B2 (FCmp CLe) (Ln "a" (Ix 7)) (Ln "b" (Ix 7))))]
   ["c"];
  (* v8/v8_portable.h:1494-1494 *)
  fnc "float >=" 1494 [("a", 8); ("b", 8)]
   [SetL "c" (Ix 0) (U1 INeg (B2 (FCmp CGe) (Ln "a" (Ix 0)) (Ln "b" (Ix 0))));
    SetL "c" (Ix 1) (U1 INeg (B2 (FCmp CGe) (Ln "a" (Ix 1)) (Ln "b" (Ix 1))));
    SetL "c" (Ix 2) (U1 INeg (B2 (FCmp CGe) (Ln "a" (Ix 2)) (Ln "b" (Ix 2))));
    SetL "c" (Ix 3) (U1 INeg (B2 (FCmp CGe) (Ln "a" (Ix 3)) (Ln "b" (Ix 3))));
    SetL "c" (Ix 4) (U1 INeg (B2 (FCmp CGe) (Ln "a" (Ix 4)) (Ln "b" (Ix 4))));
    SetL "c" (Ix 5) (U1 INeg (B2 (FCmp CGe) (Ln "a" (Ix 5)) (Ln "b" (Ix 5))));
    SetL "c" (Ix 6) (U1 INeg (B2 (FCmp CGe) (Ln "a" (Ix 6)) (Ln "b" (Ix 6))));
    SetL "c" (Ix 7) (U1 INeg (B2 (FCmp CGe) (Ln "a" (Ix 7)) (Ln "b" (Ix 7))))]
   ["c"];
  (* v8/v8_portable.h:1495-1495 *)
  fnc "float &&" 1495 [("a", 8); ("b", 8)]
   [SetL "c" (Ix 0) (U1 INeg (B2 FLAnd (Ln "a" (Ix 0)) (Ln "b" (Ix 0))));
    SetL "c" (Ix 1) (U1 INeg (B2 FLAnd (Ln "a" (Ix 1)) (Ln "b" (Ix 1))));
    SetL "c" (Ix 2) (U1 INeg (B2 FLAnd (Ln "a" (Ix 2)) (Ln "b" (Ix 2))));
    SetL "c" (Ix 3) (U1 INeg (B2 FLAnd (Ln "a" (Ix 3)) (Ln "b" (Ix 3))));
    SetL "c" (Ix 4) (U1 INeg (B2 FLAnd (Ln "a" (Ix 4)) (Ln "b" (Ix 4))));
    SetL "c" (Ix 5) (U1 INeg (B2 FLAnd (Ln "a" (Ix 5)) (Ln "b" (Ix 5))));
    SetL "c" (Ix 6) (U1 INeg (B2 FLAnd (Ln "a" (Ix 6)) (Ln "b" (Ix 6))));
    SetL "c" (Ix 7) (U1 INeg (B2 FLAnd (Ln "a" (Ix 7)) (Ln "b" (Ix 7))))]
   ["c"];
  (* v8/v8_portable.h:1496-1496 *)
  fnc "float ||" 1496 [("a", 8); ("b", 8)]
   [SetL "c" (Ix 0) (U1 INeg (B2 FLOr (Ln "a" (Ix 0)) (Ln "b" (Ix 0))));
    SetL "c" (Ix 1) (U1 INeg (B2 FLOr (Ln "a" (Ix 1)) (Ln "b" (Ix 1))));
    SetL "c" (Ix 2) (U1 INeg (B2 FLOr (Ln "a" (Ix 2)) (Ln "b" (Ix 2))));
    SetL "c" (Ix 3) (U1 INeg (B2 FLOr (Ln "a" (Ix 3)) (Ln "b" (Ix 3))));
    SetL "c" (Ix 4) (U1 INeg (B2 FLOr (Ln "a" (Ix 4)) (Ln "b" (Ix 4))));
    SetL "c" (Ix 5) (U1 INeg (B2 FLOr (Ln "a" (Ix 5)) (Ln "b" (Ix 5))));
    SetL "c" (Ix 6) (U1 INeg (B2 FLOr (Ln "a" (Ix 6)) (Ln "b" (Ix 6))));
    SetL "c" (Ix 7) (U1 INeg (B2 FLOr (Ln "a" (Ix 7)) (Ln "b" (Ix 7))))]
   ["c"];
  (* v8/v8_portable.h:1532-1532 *)
  fnc "acos" 1532 [("a", 8)]
   [SetL "b" (Ix 0) (U1 (FFun "acos") (Ln "a" (Ix 0)));
    SetL "b" (Ix 1) (U1 (FFun "acos") (Ln "a" (Ix 1)));
    SetL "b" (Ix 2) (U1 (FFun "acos") (Ln "a" (Ix 2)));
    SetL "b" (Ix 3) (U1 (FFun "acos") (Ln "a" (Ix 3)));
    SetL "b" (Ix 4) (U1 (FFun "acos") (Ln "a" (Ix 4)));
    SetL "b" (Ix 5) (U1 (FFun "acos") (Ln "a" (Ix 5)));
    SetL "b" (Ix 6) (U1 (FFun "acos") (Ln "a" (Ix 6)));
    SetL "b" (Ix 7) (U1 (FFun "acos") (Ln "a" (Ix 7)))]
   ["b"];
  (* v8/v8_portable.h:1532-1532 *)
  fnc "asin" 1532 [("a", 8)]
   [SetL "b" (Ix 0) (U1 (FFun "asin") (Ln "a" (Ix 0)));
    SetL "b" (Ix 1) (U1 (FFun "asin") (Ln "a" (Ix 1)));
    SetL "b" (Ix 2) (U1 (FFun "asin") (Ln "a" (Ix 2)));
    SetL "b" (Ix 3) (U1 (FFun "asin") (Ln "a" (Ix 3)));
    SetL "b" (Ix 4) (U1 (FFun "asin") (Ln "a" (Ix 4)));
    SetL "b" (Ix 5) (U1 (FFun "asin") (Ln "a" (Ix 5)));
    SetL "b" (Ix 6) (U1 (FFun "asin") (Ln "a" (Ix 6)));
    SetL "b" (Ix 7) (U1 (FFun "asin") (Ln "a" (Ix 7)))]
   ["b"];
  (* v8/v8_portable.h:1532-1532 *)
  fnc "atan" 1532 [("a", 8)]
   [SetL "b" (Ix 0) (U1 (FFun "atan") (Ln "a" (Ix 0)));
    SetL "b" (Ix 1) (U1 (FFun "atan") (Ln "a" (Ix 1)));
    SetL "b" (Ix 2) (U1 (FFun "atan") (Ln "a" (Ix 2)));
    SetL "b" (Ix 3) (U1 (FFun "atan") (Ln "a" (Ix 3)));
    SetL "b" (Ix 4) (U1 (FFun "atan") (Ln "a" (Ix 4)));
    SetL "b" (Ix 5) (U1 (FFun "atan") (Ln "a" (Ix 5)));
    SetL "b" (Ix 6) (U1 (FFun "atan") (Ln "a" (Ix 6)));
    SetL "b" (Ix 7) (U1 (FFun "atan") (Ln "a" (Ix 7)))]
   ["b"];
  (* v8/v8_portable.h:1532-1532 *)
  fnc "atan2" 1532 [("a", 8); ("b", 8)]
   [SetL "c" (Ix 0) (B2 (FFun2 "atan2") (Ln "a" (Ix 0)) (Ln "b" (Ix 0)));
    SetL "c" (Ix 1) (B2 (FFun2 "atan2") (Ln "a" (Ix 1)) (Ln "b" (Ix 1)));
    SetL "c" (Ix 2) (B2 (FFun2 "atan2") (Ln "a" (Ix 2)) (Ln "b" (Ix 2)));
    SetL "c" (Ix 3) (B2 (FFun2 "atan2") (Ln "a" (Ix 3)) (Ln "b" (Ix 3)));
    SetL "c" (Ix 4) (B2 (FFun2 "atan2") (Ln "a" (Ix 4)) (Ln "b" (Ix 4)));
    SetL "c" (Ix 5) (B2 (FFun2 "atan2") (Ln "a" (Ix 5)) (Ln "b" (Ix 5)));
    SetL "c" (Ix 6) (B2 (FFun2 "atan2") (Ln "a" (Ix 6)) (Ln "b" (Ix 6)));
    SetL "c" (Ix 7) (B2 (FFun2 "atan2") (Ln "a" (Ix 7)) (Ln "b" (Ix 7)))]
   ["c"];
  (* v8/v8_portable.h:1533-1533 *)
  fnc "ceil" 1533 [("a", 8)]
   [SetL "b" (Ix 0) (U1 (FFun "ceil") (Ln "a" (Ix 0)));
    SetL "b" (Ix 1) (U1 (FFun "ceil") (Ln "a" (Ix 1)));
    SetL "b" (Ix 2) (U1 (FFun "ceil") (Ln "a" (Ix 2)));
    SetL "b" (Ix 3) (U1 (FFun "ceil") (Ln "a" (Ix 3)));
    SetL "b" (Ix 4) (U1 (FFun "ceil") (Ln "a" (Ix 4)));
    SetL "b" (Ix 5) (U1 (FFun "ceil") (Ln "a" (Ix 5)));
    SetL "b" (Ix 6) (U1 (FFun "ceil") (Ln "a" (Ix 6)));
    SetL "b" (Ix 7) (U1 (FFun "ceil") (Ln "a" (Ix 7)))]
   ["b"];
  (* v8/v8_portable.h:1533-1533 *)
  fnc "cos" 1533 [("a", 8)]
   [SetL "b" (Ix 0) (U1 (FFun "cos") (Ln "a" (Ix 0)));
    SetL "b" (Ix 1) (U1 (FFun "cos") (Ln "a" (Ix 1)));
    SetL "b" (Ix 2) (U1 (FFun "cos") (Ln "a" (Ix 2)));
    SetL "b" (Ix 3) (U1 (FFun "cos") (Ln "a" (Ix 3)));
    SetL "b" (Ix 4) (U1 (FFun "cos") (Ln "a" (Ix 4)));
    SetL "b" (Ix 5) (U1 (FFun "cos") (Ln "a" (Ix 5)));
    SetL "b" (Ix 6) (U1 (FFun "cos") (Ln "a" (Ix 6)));
    SetL "b" (Ix 7) (U1 (FFun "cos") (Ln "a" (Ix 7)))]
   ["b"];
  (* v8/v8_portable.h:1533-1533 *)
  fnc "cosh" 1533 [("a", 8)]
   [SetL "b" (Ix 0) (U1 (FFun "cosh") (Ln "a" (Ix 0)));
    SetL "b" (Ix 1) (U1 (FFun "cosh") (Ln "a" (Ix 1)));
    SetL "b" (Ix 2) (U1 (FFun "cosh") (Ln "a" (Ix 2)));
    SetL "b" (Ix 3) (U1 (FFun "cosh") (Ln "a" (Ix 3)));
    SetL "b" (Ix 4) (U1 (FFun "cosh") (Ln "a" (Ix 4)));
    SetL "b" (Ix 5) (U1 (FFun "cosh") (Ln "a" (Ix 5)));
    SetL "b" (Ix 6) (U1 (FFun "cosh") (Ln "a" (Ix 6)));
    SetL "b" (Ix 7) (U1 (FFun "cosh") (Ln "a" (Ix 7)))]
   ["b"];
  (* v8/v8_portable.h:1533-1533 *)
  fnc "exp" 1533 [("a", 8)]
   [SetL "b" (Ix 0) (U1 (FFun "exp") (Ln "a" (Ix 0)));
    SetL "b" (Ix 1) (U1 (FFun "exp") (Ln "a" (Ix 1)));
    SetL "b" (Ix 2) (U1 (FFun "exp") (Ln "a" (Ix 2)));
    SetL "b" (Ix 3) (U1 (FFun "exp") (Ln "a" (Ix 3)));
    SetL "b" (Ix 4) (U1 (FFun "exp") (Ln "a" (Ix 4)));
    SetL "b" (Ix 5) (U1 (FFun "exp") (Ln "a" (Ix 5)));
    SetL "b" (Ix 6) (U1 (FFun "exp") (Ln "a" (Ix 6)));
    SetL "b" (Ix 7) (U1 (FFun "exp") (Ln "a" (Ix 7)))]
   ["b"];
  (* v8/v8_portable.h:1534-1534 *)
  fnc "fabs" 1534 [("a", 8)]
   [SetL "b" (Ix 0) (U1 FAbs (Ln "a" (Ix 0)));
    SetL "b" (Ix 1) (U1 FAbs (Ln "a" (Ix 1)));
    SetL "b" (Ix 2) (U1 FAbs (Ln "a" (Ix 2)));
    SetL "b" (Ix 3) (U1 FAbs (Ln "a" (Ix 3)));
    SetL "b" (Ix 4) (U1 FAbs (Ln "a" (Ix 4)));
    SetL "b" (Ix 5) (U1 FAbs (Ln "a" (Ix 5)));
    SetL "b" (Ix 6) (U1 FAbs (Ln "a" (Ix 6)));
    SetL "b" (Ix 7) (U1 FAbs (Ln "a" (Ix 7)))]
   ["b"];
  (* v8/v8_portable.h:1534-1534 *)
  fnc "floor" 1534 [("a", 8)]
   [SetL "b" (Ix 0) (U1 (FFun "floor") (Ln "a" (Ix 0)));
    SetL "b" (Ix 1) (U1 (FFun "floor") (Ln "a" (Ix 1)));
    SetL "b" (Ix 2) (U1 (FFun "floor") (Ln "a" (Ix 2)));
    SetL "b" (Ix 3) (U1 (FFun "floor") (Ln "a" (Ix 3)));
    SetL "b" (Ix 4) (U1 (FFun "floor") (Ln "a" (Ix 4)));
    SetL "b" (Ix 5) (U1 (FFun "floor") (Ln "a" (Ix 5)));
    SetL "b" (Ix 6) (U1 (FFun "floor") (Ln "a" (Ix 6)));
    SetL "b" (Ix 7) (U1 (FFun "floor") (Ln "a" (Ix 7)))]
   ["b"];
  (* v8/v8_portable.h:1534-1534 *)
  fnc "fmod" 1534 [("a", 8); ("b", 8)]
   [SetL "c" (Ix 0) (B2 (FFun2 "fmod") (Ln "a" (Ix 0)) (Ln "b" (Ix 0)));
    SetL "c" (Ix 1) (B2 (FFun2 "fmod") (Ln "a" (Ix 1)) (Ln "b" (Ix 1)));
    SetL "c" (Ix 2) (B2 (FFun2 "fmod") (Ln "a" (Ix 2)) (Ln "b" (Ix 2)));
    SetL "c" (Ix 3) (B2 (FFun2 "fmod") (Ln "a" (Ix 3)) (Ln "b" (Ix 3)));
    SetL "c" (Ix 4) (B2 (FFun2 "fmod") (Ln "a" (Ix 4)) (Ln "b" (Ix 4)));
    SetL "c" (Ix 5) (B2 (FFun2 "fmod") (Ln "a" (Ix 5)) (Ln "b" (Ix 5)));
    SetL "c" (Ix 6) (B2 (FFun2 "fmod") (Ln "a" (Ix 6)) (Ln "b" (Ix 6)));
    SetL "c" (Ix 7) (B2 (FFun2 "fmod") (Ln "a" (Ix 7)) (Ln "b" (Ix 7)))]
   ["c"];
  (* v8/v8_portable.h:1534-1534 *)
  fnc "log" 1534 [("a", 8)]
   [SetL "b" (Ix 0) (U1 (FFun "log") (Ln "a" (Ix 0)));
    SetL "b" (Ix 1) (U1 (FFun "log") (Ln "a" (Ix 1)));
    SetL "b" (Ix 2) (U1 (FFun "log") (Ln "a" (Ix 2)));
    SetL "b" (Ix 3) (U1 (FFun "log") (Ln "a" (Ix 3)));
    SetL "b" (Ix 4) (U1 (FFun "log") (Ln "a" (Ix 4)));
    SetL "b" (Ix 5) (U1 (FFun "log") (Ln "a" (Ix 5)));
    SetL "b" (Ix 6) (U1 (FFun "log") (Ln "a" (Ix 6)));
    SetL "b" (Ix 7) (U1 (FFun "log") (Ln "a" (Ix 7)))]
   ["b"];
  (* v8/v8_portable.h:1535-1535 *)
  fnc "log10" 1535 [("a", 8)]
   [SetL "b" (Ix 0) (U1 (FFun "log10") (Ln "a" (Ix 0)));
    SetL "b" (Ix 1) (U1 (FFun "log10") (Ln "a" (Ix 1)));
    SetL "b" (Ix 2) (U1 (FFun "log10") (Ln "a" (Ix 2)));
    SetL "b" (Ix 3) (U1 (FFun "log10") (Ln "a" (Ix 3)));
    SetL "b" (Ix 4) (U1 (FFun "log10") (Ln "a" (Ix 4)));
    SetL "b" (Ix 5) (U1 (FFun "log10") (Ln "a" (Ix 5)));
    SetL "b" (Ix 6) (U1 (FFun "log10") (Ln "a" (Ix 6)));
    SetL "b" (Ix 7) (U1 (FFun "log10") (Ln "a" (Ix 7)))]
   ["b"];
  (* v8/v8_portable.h:1535-1535 *)
  fnc "pow" 1535 [("a", 8); ("b", 8)]
   [SetL "c" (Ix 0) (B2 (FFun2 "pow") (Ln "a" (Ix 0)) (Ln "b" (Ix 0)));
    SetL "c" (Ix 1) (B2 (FFun2 "pow") (Ln "a" (Ix 1)) (Ln "b" (Ix 1)));
    SetL "c" (Ix 2) (B2 (FFun2 "pow") (Ln "a" (Ix 2)) (Ln "b" (Ix 2)));
    SetL "c" (Ix 3) (B2 (FFun2 "pow") (Ln "a" (Ix 3)) (Ln "b" (Ix 3)));
    SetL "c" (Ix 4) (B2 (FFun2 "pow") (Ln "a" (Ix 4)) (Ln "b" (Ix 4)));
    SetL "c" (Ix 5) (B2 (FFun2 "pow") (Ln "a" (Ix 5)) (Ln "b" (Ix 5)));
    SetL "c" (Ix 6) (B2 (FFun2 "pow") (Ln "a" (Ix 6)) (Ln "b" (Ix 6)));
    SetL "c" (Ix 7) (B2 (FFun2 "pow") (Ln "a" (Ix 7)) (Ln "b" (Ix 7)))]
   ["c"];
  (* v8/v8_portable.h:1535-1535 *)
  fnc "sin" 1535 [("a", 8)]
   [SetL "b" (Ix 0) (U1 (FFun "sin") (Ln "a" (Ix 0)));
    SetL "b" (Ix 1) (U1 (FFun "sin") (Ln "a" (Ix 1)));
    SetL "b" (Ix 2) (U1 (FFun "sin") (Ln "a" (Ix 2)));
    SetL "b" (Ix 3) (U1 (FFun "sin") (Ln "a" (Ix 3)));
    SetL "b" (Ix 4) (U1 (FFun "sin") (Ln "a" (Ix 4)));
    SetL "b" (Ix 5) (U1 (FFun "sin") (Ln "a" (Ix 5)));
    SetL "b" (Ix 6) (U1 (FFun "sin") (Ln "a" (Ix 6)));
    SetL "b" (Ix 7) (U1 (FFun "sin") (Ln "a" (Ix 7)))]
   ["b"];
  (* v8/v8_portable.h:1535-1535 *)
  fnc "sinh" 1535 [("a", 8)]
   [SetL "b" (Ix 0) (U1 (FFun "sinh") (Ln "a" (Ix 0)));
    SetL "b" (Ix 1) (U1 (FFun "sinh") (Ln "a" (Ix 1)));
    SetL "b" (Ix 2) (U1 (FFun "sinh") (Ln "a" (Ix 2)));
    SetL "b" (Ix 3) (U1 (FFun "sinh") (Ln "a" (Ix 3)));
    SetL "b" (Ix 4) (U1 (FFun "sinh") (Ln "a" (Ix 4)));
    SetL "b" (Ix 5) (U1 (FFun "sinh") (Ln "a" (Ix 5)));
    SetL "b" (Ix 6) (U1 (FFun "sinh") (Ln "a" (Ix 6)));
    SetL "b" (Ix 7) (U1 (FFun "sinh") (Ln "a" (Ix 7)))]
   ["b"];
  (* v8/v8_portable.h:1536-1536 *)
  fnc "sqrt" 1536 [("a", 8)]
   [SetL "b" (Ix 0) (U1 FSqrt (Ln "a" (Ix 0)));
    SetL "b" (Ix 1) (U1 FSqrt (Ln "a" (Ix 1)));
    SetL "b" (Ix 2) (U1 FSqrt (Ln "a" (Ix 2)));
    SetL "b" (Ix 3) (U1 FSqrt (Ln "a" (Ix 3)));
    SetL "b" (Ix 4) (U1 FSqrt (Ln "a" (Ix 4)));
    SetL "b" (Ix 5) (U1 FSqrt (Ln "a" (Ix 5)));
    SetL "b" (Ix 6) (U1 FSqrt (Ln "a" (Ix 6)));
    SetL "b" (Ix 7) (U1 FSqrt (Ln "a" (Ix 7)))]
   ["b"];
  (* v8/v8_portable.h:1536-1536 *)
  fnc "tan" 1536 [("a", 8)]
   [SetL "b" (Ix 0) (U1 (FFun "tan") (Ln "a" (Ix 0)));
    SetL "b" (Ix 1) (U1 (FFun "tan") (Ln "a" (Ix 1)));
    SetL "b" (Ix 2) (U1 (FFun "tan") (Ln "a" (Ix 2)));
    SetL "b" (Ix 3) (U1 (FFun "tan") (Ln "a" (Ix 3)));
    SetL "b" (Ix 4) (U1 (FFun "tan") (Ln "a" (Ix 4)));
    SetL "b" (Ix 5) (U1 (FFun "tan") (Ln "a" (Ix 5)));
    SetL "b" (Ix 6) (U1 (FFun "tan") (Ln "a" (Ix 6)));
    SetL "b" (Ix 7) (U1 (FFun "tan") (Ln "a" (Ix 7)))]
   ["b"];
  (* v8/v8_portable.h:1536-1536 *)
  fnc "tanh" 1536 [("a", 8)]
   [SetL "b" (Ix 0) (U1 (FFun "tanh") (Ln "a" (Ix 0)));
    SetL "b" (Ix 1) (U1 (FFun "tanh") (Ln "a" (Ix 1)));
    SetL "b" (Ix 2) (U1 (FFun "tanh") (Ln "a" (Ix 2)));
    SetL "b" (Ix 3) (U1 (FFun "tanh") (Ln "a" (Ix 3)));
    SetL "b" (Ix 4) (U1 (FFun "tanh") (Ln "a" (Ix 4)));
    SetL "b" (Ix 5) (U1 (FFun "tanh") (Ln "a" (Ix 5)));
    SetL "b" (Ix 6) (U1 (FFun "tanh") (Ln "a" (Ix 6)));
    SetL "b" (Ix 7) (U1 (FFun "tanh") (Ln "a" (Ix 7)))]
   ["b"];
  (* v8/v8_portable.h:1538-1576 *)
  fnc "copysign" 1538 [("a", 8); ("b", 8)]
   [SetL "t" (Ix 0) (U1 FAbs (Ln "a" (Ix 0)));
    SetL "t" (Ix 0) (Cond (B2 (FCmp CLt) (Ln "b" (Ix 0)) (Cst 0)) (U1 FNeg (Ln "t" (Ix 0))) (Ln "t" (Ix 0)));
    SetL "c" (Ix 0) (Ln "t" (Ix 0));
    SetL "t" (Ix 0) (U1 FAbs (Ln "a" (Ix 1)));
    SetL "t" (Ix 0) (Cond (B2 (FCmp CLt) (Ln "b" (Ix 1)) (Cst 0)) (U1 FNeg (Ln "t" (Ix 0))) (Ln "t" (Ix 0)));
    SetL "c" (Ix 1) (Ln "t" (Ix 0));
    SetL "t" (Ix 0) (U1 FAbs (Ln "a" (Ix 2)));
    SetL "t" (Ix 0) (Cond (B2 (FCmp CLt) (Ln "b" (Ix 2)) (Cst 0)) (U1 FNeg (Ln "t" (Ix 0))) (Ln "t" (Ix 0)));
    SetL "c" (Ix 2) (Ln "t" (Ix 0));
    SetL "t" (Ix 0) (U1 FAbs (Ln "a" (Ix 3)));
    SetL "t" (Ix 0) (Cond (B2 (FCmp CLt) (Ln "b" (Ix 3)) (Cst 0)) (U1 FNeg (Ln "t" (Ix 0))) (Ln "t" (Ix 0)));
    SetL "c" (Ix 3) (Ln "t" (Ix 0));
    SetL "t" (Ix 0) (U1 FAbs (Ln "a" (Ix 4)));
    SetL "t" (Ix 0) (Cond (B2 (FCmp CLt) (Ln "b" (Ix 4)) (Cst 0)) (U1 FNeg (Ln "t" (Ix 0))) (Ln "t" (Ix 0)));
    SetL "c" (Ix 4) (Ln "t" (Ix 0));
    SetL "t" (Ix 0) (U1 FAbs (Ln "a" (Ix 5)));
    SetL "t" (Ix 0) (Cond (B2 (FCmp CLt) (Ln "b" (Ix 5)) (Cst 0)) (U1 FNeg (Ln "t" (Ix 0))) (Ln "t" (Ix 0)));
    SetL "c" (Ix 5) (Ln "t" (Ix 0));
    SetL "t" (Ix 0) (U1 FAbs (Ln "a" (Ix 6)));
    SetL "t" (Ix 0) (Cond (B2 (FCmp CLt) (Ln "b" (Ix 6)) (Cst 0)) (U1 FNeg (Ln "t" (Ix 0))) (Ln "t" (Ix 0)));
    SetL "c" (Ix 6) (Ln "t" (Ix 0));
    SetL "t" (Ix 0) (U1 FAbs (Ln "a" (Ix 7)));
    SetL "t" (Ix 0) (Cond (B2 (FCmp CLt) (Ln "b" (Ix 7)) (Cst 0)) (U1 FNeg (Ln "t" (Ix 0))) (Ln "t" (Ix 0)));
    SetL "c" (Ix 7) (Ln "t" (Ix 0))]
   ["c"];
  (* v8/v8_portable.h:1583-1597 *)
  fnc "rsqrt_approx" 1583 [("a", 8)]
   [SetL "b" (Ix 0) (U1 FSqrt (B2 FDiv (Cst 1065353216) (Ln "a" (Ix 0))));
    SetL "b" (Ix 1) (U1 FSqrt (B2 FDiv (Cst 1065353216) (Ln "a" (Ix 1))));
    SetL "b" (Ix 2) (U1 FSqrt (B2 FDiv (Cst 1065353216) (Ln "a" (Ix 2))));
    SetL "b" (Ix 3) (U1 FSqrt (B2 FDiv (Cst 1065353216) (Ln "a" (Ix 3))));
    SetL "b" (Ix 4) (U1 FSqrt (B2 FDiv (Cst 1065353216) (Ln "a" (Ix 4))));
    SetL "b" (Ix 5) (U1 FSqrt (B2 FDiv (Cst 1065353216) (Ln "a" (Ix 5))));
    SetL "b" (Ix 6) (U1 FSqrt (B2 FDiv (Cst 1065353216) (Ln "a" (Ix 6))));
    SetL "b" (Ix 7) (U1 FSqrt (B2 FDiv (Cst 1065353216) (Ln "a" (Ix 7))))]
   ["b"];
  (* v8/v8_portable.h:1599-1613 *)
  fnc "rsqrt" 1599 [("a", 8)]
   [SetL "b" (Ix 0) (U1 FSqrt (B2 FDiv (Cst 1065353216) (Ln "a" (Ix 0))));
    SetL "b" (Ix 1) (U1 FSqrt (B2 FDiv (Cst 1065353216) (Ln "a" (Ix 1))));
    SetL "b" (Ix 2) (U1 FSqrt (B2 FDiv (Cst 1065353216) (Ln "a" (Ix 2))));
    SetL "b" (Ix 3) (U1 FSqrt (B2 FDiv (Cst 1065353216) (Ln "a" (Ix 3))));
    SetL "b" (Ix 4) (U1 FSqrt (B2 FDiv (Cst 1065353216) (Ln "a" (Ix 4))));
    SetL "b" (Ix 5) (U1 FSqrt (B2 FDiv (Cst 1065353216) (Ln "a" (Ix 5))));
    SetL "b" (Ix 6) (U1 FSqrt (B2 FDiv (Cst 1065353216) (Ln "a" (Ix 6))));
    SetL "b" (Ix 7) (U1 FSqrt (B2 FDiv (Cst 1065353216) (Ln "a" (Ix 7))))]
   ["b"];
  (* v8/v8_portable.h:1615-1629 *)
  fnc "rcp_approx" 1615 [("a", 8)]
   [SetL "b" (Ix 0) (B2 FDiv (Cst 1065353216) (Ln "a" (Ix 0)));
    SetL "b" (Ix 1) (B2 FDiv (Cst 1065353216) (Ln "a" (Ix 1)));
    SetL "b" (Ix 2) (B2 FDiv (Cst 1065353216) (Ln "a" (Ix 2)));
    SetL "b" (Ix 3) (B2 FDiv (Cst 1065353216) (Ln "a" (Ix 3)));
    SetL "b" (Ix 4) (B2 FDiv (Cst 1065353216) (Ln "a" (Ix 4)));
    SetL "b" (Ix 5) (B2 FDiv (Cst 1065353216) (Ln "a" (Ix 5)));
    SetL "b" (Ix 6) (B2 FDiv (Cst 1065353216) (Ln "a" (Ix 6)));
    SetL "b" (Ix 7) (B2 FDiv (Cst 1065353216) (Ln "a" (Ix 7)))]
   ["b"];
  (* v8/v8_portable.h:1631-1645 *)
  fnc "rcp" 1631 [("a", 8)]
   [SetL "b" (Ix 0) (B2 FDiv (Cst 1065353216) (Ln "a" (Ix 0)));
    SetL "b" (Ix 1) (B2 FDiv (Cst 1065353216) (Ln "a" (Ix 1)));
    SetL "b" (Ix 2) (B2 FDiv (Cst 1065353216) (Ln "a" (Ix 2)));
    SetL "b" (Ix 3) (B2 FDiv (Cst 1065353216) (Ln "a" (Ix 3)));
    SetL "b" (Ix 4) (B2 FDiv (Cst 1065353216) (Ln "a" (Ix 4)));
    SetL "b" (Ix 5) (B2 FDiv (Cst 1065353216) (Ln "a" (Ix 5)));
    SetL "b" (Ix 6) (B2 FDiv (Cst 1065353216) (Ln "a" (Ix 6)));
    SetL "b" (Ix 7) (B2 FDiv (Cst 1065353216) (Ln "a" (Ix 7)))]
   ["b"];
  (* v8/v8_portable.h:1647-1661 *)
  fnc "fma" 1647 [("a", 8); ("b", 8); ("c", 8)]
   [SetL "d" (Ix 0) (B2 FAdd (B2 FMul (Ln "a" (Ix 0)) (Ln "b" (Ix 0))) (Ln "c" (Ix 0)));
    SetL "d" (Ix 1) (B2 FAdd (B2 FMul (Ln "a" (Ix 1)) (Ln "b" (Ix 1))) (Ln "c" (Ix 1)));
    SetL "d" (Ix 2) (B2 FAdd (B2 FMul (Ln "a" (Ix 2)) (Ln "b" (Ix 2))) (Ln "c" (Ix 2)));
    SetL "d" (Ix 3) (B2 FAdd (B2 FMul (Ln "a" (Ix 3)) (Ln "b" (Ix 3))) (Ln "c" (Ix 3)));
    SetL "d" (Ix 4) (B2 FAdd (B2 FMul (Ln "a" (Ix 4)) (Ln "b" (Ix 4))) (Ln "c" (Ix 4)));
    SetL "d" (Ix 5) (B2 FAdd (B2 FMul (Ln "a" (Ix 5)) (Ln "b" (Ix 5))) (Ln "c" (Ix 5)));
    SetL "d" (Ix 6) (B2 FAdd (B2 FMul (Ln "a" (Ix 6)) (Ln "b" (Ix 6))) (Ln "c" (Ix 6)));
    SetL "d" (Ix 7) (B2 FAdd (B2 FMul (Ln "a" (Ix 7)) (Ln "b" (Ix 7))) (Ln "c" (Ix 7)))]
   ["d"];
  (* v8/v8_portable.h:1663-1677 *)
  fnc "fms" 1663 [("a", 8); ("b", 8); ("c", 8)]
   [SetL "d" (Ix 0) (B2 FSub (B2 FMul (Ln "a" (Ix 0)) (Ln "b" (Ix 0))) (Ln "c" (Ix 0)));
    SetL "d" (Ix 1) (B2 FSub (B2 FMul (Ln "a" (Ix 1)) (Ln "b" (Ix 1))) (Ln "c" (Ix 1)));
    SetL "d" (Ix 2) (B2 FSub (B2 FMul (Ln "a" (Ix 2)) (Ln "b" (Ix 2))) (Ln "c" (Ix 2)));
    SetL "d" (Ix 3) (B2 FSub (B2 FMul (Ln "a" (Ix 3)) (Ln "b" (Ix 3))) (Ln "c" (Ix 3)));
    SetL "d" (Ix 4) (B2 FSub (B2 FMul (Ln "a" (Ix 4)) (Ln "b" (Ix 4))) (Ln "c" (Ix 4)));
    SetL "d" (Ix 5) (B2 FSub (B2 FMul (Ln "a" (Ix 5)) (Ln "b" (Ix 5))) (Ln "c" (Ix 5)));
    SetL "d" (Ix 6) (B2 FSub (B2 FMul (Ln "a" (Ix 6)) (Ln "b" (Ix 6))) (Ln "c" (Ix 6)));
    SetL "d" (Ix 7) (B2 FSub (B2 FMul (Ln "a" (Ix 7)) (Ln "b" (Ix 7))) (Ln "c" (Ix 7)))]
   ["d"];
  (* v8/v8_portable.h:1679-1693 *)
  fnc "fnms" 1679 [("a", 8); ("b", 8); ("c", 8)]
   [SetL "d" (Ix 0) (B2 FSub (Ln "c" (Ix 0)) (B2 FMul (Ln "a" (Ix 0)) (Ln "b" (Ix 0))));
    SetL "d" (Ix 1) (B2 FSub (Ln "c" (Ix 1)) (B2 FMul (Ln "a" (Ix 1)) (Ln "b" (Ix 1))));
    SetL "d" (Ix 2) (B2 FSub (Ln "c" (Ix 2)) (B2 FMul (Ln "a" (Ix 2)) (Ln "b" (Ix 2))));
    SetL "d" (Ix 3) (B2 FSub (Ln "c" (Ix 3)) (B2 FMul (Ln "a" (Ix 3)) (Ln "b" (Ix 3))));
    SetL "d" (Ix 4) (B2 FSub (Ln "c" (Ix 4)) (B2 FMul (Ln "a" (Ix 4)) (Ln "b" (Ix 4))));
    SetL "d" (Ix 5) (B2 FSub (Ln "c" (Ix 5)) (B2 FMul (Ln "a" (Ix 5)) (Ln "b" (Ix 5))));
    SetL "d" (Ix 6) (B2 FSub (Ln "c" (Ix 6)) (B2 FMul (Ln "a" (Ix 6)) (Ln "b" (Ix 6))));
    SetL "d" (Ix 7) (B2 FSub (Ln "c" (Ix 7)) (B2 FMul (Ln "a" (Ix 7)) (Ln "b" (Ix 7))))]
   ["d"];
  (* v8/v8_portable.h:1695-1709 *)
  fnc "clear_bits" 1695 [("m", 8); ("a", 8)]
   [SetL "b" (Ix 0) (B2 IAnd (U1 INot (Ln "m" (Ix 0))) (Ln "a" (Ix 0)));
    SetL "b" (Ix 1) (B2 IAnd (U1 INot (Ln "m" (Ix 1))) (Ln "a" (Ix 1)));
    SetL "b" (Ix 2) (B2 IAnd (U1 INot (Ln "m" (Ix 2))) (Ln "a" (Ix 2)));
    SetL "b" (Ix 3) (B2 IAnd (U1 INot (Ln "m" (Ix 3))) (Ln "a" (Ix 3)));
    SetL "b" (Ix 4) (B2 IAnd (U1 INot (Ln "m" (Ix 4))) (Ln "a" (Ix 4)));
    SetL "b" (Ix 5) (B2 IAnd (U1 INot (Ln "m" (Ix 5))) (Ln "a" (Ix 5)));
    SetL "b" (Ix 6) (B2 IAnd (U1 INot (Ln "m" (Ix 6))) (Ln "a" (Ix 6)));
    SetL "b" (Ix 7) (B2 IAnd (U1 INot (Ln "m" (Ix 7))) (Ln "a" (Ix 7)))]
   ["b"];
  (* v8/v8_portable.h:1711-1725 *)
  fnc "set_bits" 1711 [("m", 8); ("a", 8)]
   [SetL "b" (Ix 0) (B2 IOr (Ln "m" (Ix 0)) (Ln "a" (Ix 0)));
    SetL "b" (Ix 1) (B2 IOr (Ln "m" (Ix 1)) (Ln "a" (Ix 1)));
    SetL "b" (Ix 2) (B2 IOr (Ln "m" (Ix 2)) (Ln "a" (Ix 2)));
    SetL "b" (Ix 3) (B2 IOr (Ln "m" (Ix 3)) (Ln "a" (Ix 3)));
    SetL "b" (Ix 4) (B2 IOr (Ln "m" (Ix 4)) (Ln "a" (Ix 4)));
    SetL "b" (Ix 5) (B2 IOr (Ln "m" (Ix 5)) (Ln "a" (Ix 5)));
    SetL "b" (Ix 6) (B2 IOr (Ln "m" (Ix 6)) (Ln "a" (Ix 6)));
    SetL "b" (Ix 7) (B2 IOr (Ln "m" (Ix 7)) (Ln "a" (Ix 7)))]
   ["b"];
  (* v8/v8_portable.h:1727-1741 *)
  fnc "toggle_bits" 1727 [("m", 8); ("a", 8)]
   [SetL "b" (Ix 0) (B2 IXor (Ln "m" (Ix 0)) (Ln "a" (Ix 0)));
    SetL "b" (Ix 1) (B2 IXor (Ln "m" (Ix 1)) (Ln "a" (Ix 1)));
    SetL "b" (Ix 2) (B2 IXor (Ln "m" (Ix 2)) (Ln "a" (Ix 2)));
    SetL "b" (Ix 3) (B2 IXor (Ln "m" (Ix 3)) (Ln "a" (Ix 3)));
    SetL "b" (Ix 4) (B2 IXor (Ln "m" (Ix 4)) (Ln "a" (Ix 4)));
    SetL "b" (Ix 5) (B2 IXor (Ln "m" (Ix 5)) (Ln "a" (Ix 5)));
    SetL "b" (Ix 6) (B2 IXor (Ln "m" (Ix 6)) (Ln "a" (Ix 6)));
    SetL "b" (Ix 7) (B2 IXor (Ln "m" (Ix 7)) (Ln "a" (Ix 7)))]
   ["b"];
  (* v8/v8_portable.h:1743-1753 *)
  fnc "increment" 1743 [("p", 8); ("a", 8)]
   [SetL "p" (Ix 0) (B2 FAdd (Ln "p" (Ix 0)) (Ln "a" (Ix 0)));
    SetL "p" (Ix 1) (B2 FAdd (Ln "p" (Ix 1)) (Ln "a" (Ix 1)));
    SetL "p" (Ix 2) (B2 FAdd (Ln "p" (Ix 2)) (Ln "a" (Ix 2)));
    SetL "p" (Ix 3) (B2 FAdd (Ln "p" (Ix 3)) (Ln "a" (Ix 3)));
    SetL "p" (Ix 4) (B2 FAdd (Ln "p" (Ix 4)) (Ln "a" (Ix 4)));
    SetL "p" (Ix 5) (B2 FAdd (Ln "p" (Ix 5)) (Ln "a" (Ix 5)));
    SetL "p" (Ix 6) (B2 FAdd (Ln "p" (Ix 6)) (Ln "a" (Ix 6)));
    SetL "p" (Ix 7) (B2 FAdd (Ln "p" (Ix 7)) (Ln "a" (Ix 7)))]
   ["p"];
  (* v8/v8_portable.h:1755-1765 *)
  fnc "decrement" 1755 [("p", 8); ("a", 8)]
   [SetL "p" (Ix 0) (B2 FSub (Ln "p" (Ix 0)) (Ln "a" (Ix 0)));
    SetL "p" (Ix 1) (B2 FSub (Ln "p" (Ix 1)) (Ln "a" (Ix 1)));
    SetL "p" (Ix 2) (B2 FSub (Ln "p" (Ix 2)) (Ln "a" (Ix 2)));
    SetL "p" (Ix 3) (B2 FSub (Ln "p" (Ix 3)) (Ln "a" (Ix 3)));
    SetL "p" (Ix 4) (B2 FSub (Ln "p" (Ix 4)) (Ln "a" (Ix 4)));
    SetL "p" (Ix 5) (B2 FSub (Ln "p" (Ix 5)) (Ln "a" (Ix 5)));
    SetL "p" (Ix 6) (B2 FSub (Ln "p" (Ix 6)) (Ln "a" (Ix 6)));
    SetL "p" (Ix 7) (B2 FSub (Ln "p" (Ix 7)) (Ln "a" (Ix 7)))]
   ["p"];
  (* v8/v8_portable.h:1767-1777 *)
  fnc "scale" 1767 [("p", 8); ("a", 8)]
   [SetL "p" (Ix 0) (B2 FMul (Ln "p" (Ix 0)) (Ln "a" (Ix 0)));
    SetL "p" (Ix 1) (B2 FMul (Ln "p" (Ix 1)) (Ln "a" (Ix 1)));
    SetL "p" (Ix 2) (B2 FMul (Ln "p" (Ix 2)) (Ln "a" (Ix 2)));
    SetL "p" (Ix 3) (B2 FMul (Ln "p" (Ix 3)) (Ln "a" (Ix 3)));
    SetL "p" (Ix 4) (B2 FMul (Ln "p" (Ix 4)) (Ln "a" (Ix 4)));
    SetL "p" (Ix 5) (B2 FMul (Ln "p" (Ix 5)) (Ln "a" (Ix 5)));
    SetL "p" (Ix 6) (B2 FMul (Ln "p" (Ix 6)) (Ln "a" (Ix 6)));
    SetL "p" (Ix 7) (B2 FMul (Ln "p" (Ix 7)) (Ln "a" (Ix 7)))]
   ["p"];
  (* v8/v8_portable.h:887-888 *)
  fnc "int from copy" 887 [("a", 8)]
   [SetV "this" (VReg "a")]
   ["this"];
  (* v8/v8_portable.h:889-894 *)
  fnc "int from mixed" 889 [("a", 8)]
   [SetL "this" (Ix 0) (Ln "a" (Ix 0));
    SetL "this" (Ix 1) (Ln "a" (Ix 1));
    SetL "this" (Ix 2) (Ln "a" (Ix 2));
    SetL "this" (Ix 3) (Ln "a" (Ix 3));
    SetL "this" (Ix 4) (Ln "a" (Ix 4));
    SetL "this" (Ix 5) (Ln "a" (Ix 5));
    SetL "this" (Ix 6) (Ln "a" (Ix 6));
    SetL "this" (Ix 7) (Ln "a" (Ix 7))]
   ["this"];
  (* v8/v8_portable.h:895-900 *)
  fnc "int from scalar" 895 [("a", 1)]
   [SetL "this" (Ix 0) (Ln "a" (Ix 0));
    SetL "this" (Ix 1) (Ln "a" (Ix 0));
    SetL "this" (Ix 2) (Ln "a" (Ix 0));
    SetL "this" (Ix 3) (Ln "a" (Ix 0));
    SetL "this" (Ix 4) (Ln "a" (Ix 0));
    SetL "this" (Ix 5) (Ln "a" (Ix 0));
    SetL "this" (Ix 6) (Ln "a" (Ix 0));
    SetL "this" (Ix 7) (Ln "a" (Ix 0))]
   ["this"];
  (* v8/v8_portable.h:1241-1252 *)
  fnc "float from copy" 1241 [("a", 8)]
   [SetL "this" (Ix 0) (Ln "a" (Ix 0));
    SetL "this" (Ix 1) (Ln "a" (Ix 1));
    SetL "this" (Ix 2) (Ln "a" (Ix 2));
    SetL "this" (Ix 3) (Ln "a" (Ix 3));
    SetL "this" (Ix 4) (Ln "a" (Ix 4));
    SetL "this" (Ix 5) (Ln "a" (Ix 5));
    SetL "this" (Ix 6) (Ln "a" (Ix 6));
    SetL "this" (Ix 7) (Ln "a" (Ix 7))]
   ["this"];
  (* v8/v8_portable.h:1253-1264 *)
  fnc "float from mixed" 1253 [("a", 8)]
   [SetL "this" (Ix 0) (Ln "a" (Ix 0));
    SetL "this" (Ix 1) (Ln "a" (Ix 1));
    SetL "this" (Ix 2) (Ln "a" (Ix 2));
    SetL "this" (Ix 3) (Ln "a" (Ix 3));
    SetL "this" (Ix 4) (Ln "a" (Ix 4));
    SetL "this" (Ix 5) (Ln "a" (Ix 5));
    SetL "this" (Ix 6) (Ln "a" (Ix 6));
    SetL "this" (Ix 7) (Ln "a" (Ix 7))]
   ["this"];
  (* v8/v8_portable.h:1265-1276 *)
  fnc "float from scalar" 1265 [("a", 1)]
   [SetL "this" (Ix 0) (Ln "a" (Ix 0));
    SetL "this" (Ix 1) (Ln "a" (Ix 0));
    SetL "this" (Ix 2) (Ln "a" (Ix 0));
    SetL "this" (Ix 3) (Ln "a" (Ix 0));
    SetL "this" (Ix 4) (Ln "a" (Ix 0));
    SetL "this" (Ix 5) (Ln "a" (Ix 0));
    SetL "this" (Ix 6) (Ln "a" (Ix 0));
    SetL "this" (Ix 7) (Ln "a" (Ix 0))]
   ["this"]].

(* src/util/v8/v8_portable.h:185-189 *)
Definition any_v8_portable : fn :=
  fnc "any" 185 [("a", 8)]
   [SetL "ret" (Ix 0) (B2 ILOr (B2 ILOr (B2 ILOr (B2 ILOr (B2 ILOr (B2 ILOr (B2 ILOr (Ln "a" (Ix 0)) (Ln "a" (Ix 1))) (Ln "a" (Ix 2))) (Ln "a" (Ix 3))) (Ln "a" (Ix 4))) (Ln "a" (Ix 5))) (Ln "a" (Ix 6))) (Ln "a" (Ix 7)))]
   ["ret"].

(* src/util/v8/v8_portable.h:191-195 *)
Definition all_v8_portable : fn :=
  fnc "all" 191 [("a", 8)]
   [SetL "ret" (Ix 0) (B2 ILAnd (B2 ILAnd (B2 ILAnd (B2 ILAnd (B2 ILAnd (B2 ILAnd (B2 ILAnd (Ln "a" (Ix 0)) (Ln "a" (Ix 1))) (Ln "a" (Ix 2))) (Ln "a" (Ix 3))) (Ln "a" (Ix 4))) (Ln "a" (Ix 5))) (Ln "a" (Ix 6))) (Ln "a" (Ix 7)))]
   ["ret"].

(* src/util/v8/v8_portable.h:197-212 *)
Definition splat_v8_portable (n : nat) : fn :=
  fnc "splat" 197 [("a", 8)]
   [SetL "b" (Ix 0) (Ln "a" (Ix n));
    SetL "b" (Ix 1) (Ln "a" (Ix n));
    SetL "b" (Ix 2) (Ln "a" (Ix n));
    SetL "b" (Ix 3) (Ln "a" (Ix n));
    SetL "b" (Ix 4) (Ln "a" (Ix n));
    SetL "b" (Ix 5) (Ln "a" (Ix n));
    SetL "b" (Ix 6) (Ln "a" (Ix n));
    SetL "b" (Ix 7) (Ln "a" (Ix n))]
   ["b"].

(* src/util/v8/v8_portable.h:214-229 *)
Definition shuffle_v8_portable (i0 i1 i2 i3 i4 i5 i6 i7 : nat) : fn :=
  fnc "shuffle" 214 [("a", 8)]
   [SetL "b" (Ix 0) (Ln "a" (Ix i0));
    SetL "b" (Ix 1) (Ln "a" (Ix i1));
    SetL "b" (Ix 2) (Ln "a" (Ix i2));
    SetL "b" (Ix 3) (Ln "a" (Ix i3));
    SetL "b" (Ix 4) (Ln "a" (Ix i4));
    SetL "b" (Ix 5) (Ln "a" (Ix i5));
    SetL "b" (Ix 6) (Ln "a" (Ix i6));
    SetL "b" (Ix 7) (Ln "a" (Ix i7))]
   ["b"].

(* src/util/v8/v8_portable.h:901-907 *)
Definition int_from_scalars_v8_portable : fn :=
  fnc "int from scalars" 901 [("i0", 1); ("i1", 1); ("i2", 1); ("i3", 1); ("i4", 1); ("i5", 1); ("i6", 1); ("i7", 1)]
   [SetL "this" (Ix 0) (Ln "i0" (Ix 0));
    SetL "this" (Ix 1) (Ln "i1" (Ix 0));
    SetL "this" (Ix 2) (Ln "i2" (Ix 0));
    SetL "this" (Ix 3) (Ln "i3" (Ix 0));
    SetL "this" (Ix 4) (Ln "i4" (Ix 0));
    SetL "this" (Ix 5) (Ln "i5" (Ix 0));
    SetL "this" (Ix 6) (Ln "i6" (Ix 0));
    SetL "this" (Ix 7) (Ln "i7" (Ix 0))]
   ["this"].

(* src/util/v8/v8_portable.h:1277-1289 *)
Definition float_from_scalars_v8_portable : fn :=
  fnc "float from scalars" 1277 [("f0", 1); ("f1", 1); ("f2", 1); ("f3", 1); ("f4", 1); ("f5", 1); ("f6", 1); ("f7", 1)]
   [SetL "this" (Ix 0) (Ln "f0" (Ix 0));
    SetL "this" (Ix 1) (Ln "f1" (Ix 0));
    SetL "this" (Ix 2) (Ln "f2" (Ix 0));
    SetL "this" (Ix 3) (Ln "f3" (Ix 0));
    SetL "this" (Ix 4) (Ln "f4" (Ix 0));
    SetL "this" (Ix 5) (Ln "f5" (Ix 0));
    SetL "this" (Ix 6) (Ln "f6" (Ix 0));
    SetL "this" (Ix 7) (Ln "f7" (Ix 0))]
   ["this"].

(* src/util/v8/v8_avx.h *)
Definition ops_v8_avx : list fn := [
  (* v8/v8_avx.h:859-863 *)
  fnc "int =" 859 [("this", 8); ("b", 8)]
   [SetV "this" (VReg "b")]
   ["this"];
  (* v8/v8_avx.h:865-865 *)
  fnc "int +=" 865 [("this", 8); ("b", 8)]
   [SetL "this" (Ix 0) (B2 IAdd (Ln "this" (Ix 0)) (Ln "b" (Ix 0)));
    SetL "this" (Ix 1) (B2 IAdd (Ln "this" (Ix 1)) (Ln "b" (Ix 1)));
    SetL "this" (Ix 2) (B2 IAdd (Ln "this" (Ix 2)) (Ln "b" (Ix 2)));
    SetL "this" (Ix 3) (B2 IAdd (Ln "this" (Ix 3)) (Ln "b" (Ix 3)));
    SetL "this" (Ix 4) (B2 IAdd (Ln "this" (Ix 4)) (Ln "b" (Ix 4)));
    SetL "this" (Ix 5) (B2 IAdd (Ln "this" (Ix 5)) (Ln "b" (Ix 5)));
    SetL "this" (Ix 6) (B2 IAdd (Ln "this" (Ix 6)) (Ln "b" (Ix 6)));
    SetL "this" (Ix 7) (B2 IAdd (Ln "this" (Ix 7)) (Ln "b" (Ix 7)))]
   ["this"];
  (* v8/v8_avx.h:866-866 *)
  fnc "int -=" 866 [("this", 8); ("b", 8)]
   [SetL "this" (Ix 0) (B2 ISub (Ln "this" (Ix 0)) (Ln "b" (Ix 0)));
    SetL "this" (Ix 1) (B2 ISub (Ln "this" (Ix 1)) (Ln "b" (Ix 1)));
    SetL "this" (Ix 2) (B2 ISub (Ln "this" (Ix 2)) (Ln "b" (Ix 2)));
    SetL "this" (Ix 3) (B2 ISub (Ln "this" (Ix 3)) (Ln "b" (Ix 3)));
    SetL "this" (Ix 4) (B2 ISub (Ln "this" (Ix 4)) (Ln "b" (Ix 4)));
    SetL "this" (Ix 5) (B2 ISub (Ln "this" (Ix 5)) (Ln "b" (Ix 5)));
    SetL "this" (Ix 6) (B2 ISub (Ln "this" (Ix 6)) (Ln "b" (Ix 6)));
    SetL "this" (Ix 7) (B2 ISub (Ln "this" (Ix 7)) (Ln "b" (Ix 7)))]
   ["this"];
  (* v8/v8_avx.h:867-867 *)
  fnc "int *=" 867 [("this", 8); ("b", 8)]
   [SetL "this" (Ix 0) (B2 IMul (Ln "this" (Ix 0)) (Ln "b" (Ix 0)));
    SetL "this" (Ix 1) (B2 IMul (Ln "this" (Ix 1)) (Ln "b" (Ix 1)));
    SetL "this" (Ix 2) (B2 IMul (Ln "this" (Ix 2)) (Ln "b" (Ix 2)));
    SetL "this" (Ix 3) (B2 IMul (Ln "this" (Ix 3)) (Ln "b" (Ix 3)));
    SetL "this" (Ix 4) (B2 IMul (Ln "this" (Ix 4)) (Ln "b" (Ix 4)));
    SetL "this" (Ix 5) (B2 IMul (Ln "this" (Ix 5)) (Ln "b" (Ix 5)));
    SetL "this" (Ix 6) (B2 IMul (Ln "this" (Ix 6)) (Ln "b" (Ix 6)));
    SetL "this" (Ix 7) (B2 IMul (Ln "this" (Ix 7)) (Ln "b" (Ix 7)))]
   ["this"];
  (* v8/v8_avx.h:868-868 *)
  fnc "int /=" 868 [("this", 8); ("b", 8)]
   [SetL "this" (Ix 0) (B2 IDiv (Ln "this" (Ix 0)) (Ln "b" (Ix 0)));
    SetL "this" (Ix 1) (B2 IDiv (Ln "this" (Ix 1)) (Ln "b" (Ix 1)));
    SetL "this" (Ix 2) (B2 IDiv (Ln "this" (Ix 2)) (Ln "b" (Ix 2)));
    SetL "this" (Ix 3) (B2 IDiv (Ln "this" (Ix 3)) (Ln "b" (Ix 3)));
    SetL "this" (Ix 4) (B2 IDiv (Ln "this" (Ix 4)) (Ln "b" (Ix 4)));
    SetL "this" (Ix 5) (B2 IDiv (Ln "this" (Ix 5)) (Ln "b" (Ix 5)));
    SetL "this" (Ix 6) (B2 IDiv (Ln "this" (Ix 6)) (Ln "b" (Ix 6)));
    SetL "this" (Ix 7) (B2 IDiv (Ln "this" (Ix 7)) (Ln "b" (Ix 7)))]
   ["this"];
  (* v8/v8_avx.h:869-869 *)
  fnc "int %=" 869 [("this", 8); ("b", 8)]
   [SetL "this" (Ix 0) (B2 IMod (Ln "this" (Ix 0)) (Ln "b" (Ix 0)));
    SetL "this" (Ix 1) (B2 IMod (Ln "this" (Ix 1)) (Ln "b" (Ix 1)));
    SetL "this" (Ix 2) (B2 IMod (Ln "this" (Ix 2)) (Ln "b" (Ix 2)));
    SetL "this" (Ix 3) (B2 IMod (Ln "this" (Ix 3)) (Ln "b" (Ix 3)));
    SetL "this" (Ix 4) (B2 IMod (Ln "this" (Ix 4)) (Ln "b" (Ix 4)));
    SetL "this" (Ix 5) (B2 IMod (Ln "this" (Ix 5)) (Ln "b" (Ix 5)));
    SetL "this" (Ix 6) (B2 IMod (Ln "this" (Ix 6)) (Ln "b" (Ix 6)));
    SetL "this" (Ix 7) (B2 IMod (Ln "this" (Ix 7)) (Ln "b" (Ix 7)))]
   ["this"];
  (* v8/v8_avx.h:871-875 *)
  fnc "int ^=" 871 [("this", 8); ("b", 8)]
   [SetV "this" (V2 IXor (VReg "this") (VReg "b"))]
   ["this"];
  (* v8/v8_avx.h:877-881 *)
  fnc "int &=" 877 [("this", 8); ("b", 8)]
   [SetV "this" (V2 IAnd (VReg "this") (VReg "b"))]
   ["this"];
  (* v8/v8_avx.h:883-887 *)
  fnc "int |=" 883 [("this", 8); ("b", 8)]
   [SetV "this" (V2 IOr (VReg "this") (VReg "b"))]
   ["this"];
  (* v8/v8_avx.h:889-889 *)
  fnc "int <<=" 889 [("this", 8); ("b", 8)]
   [SetL "this" (Ix 0) (B2 IShl (Ln "this" (Ix 0)) (Ln "b" (Ix 0)));
    SetL "this" (Ix 1) (B2 IShl (Ln "this" (Ix 1)) (Ln "b" (Ix 1)));
    SetL "this" (Ix 2) (B2 IShl (Ln "this" (Ix 2)) (Ln "b" (Ix 2)));
    SetL "this" (Ix 3) (B2 IShl (Ln "this" (Ix 3)) (Ln "b" (Ix 3)));
    SetL "this" (Ix 4) (B2 IShl (Ln "this" (Ix 4)) (Ln "b" (Ix 4)));
    SetL "this" (Ix 5) (B2 IShl (Ln "this" (Ix 5)) (Ln "b" (Ix 5)));
    SetL "this" (Ix 6) (B2 IShl (Ln "this" (Ix 6)) (Ln "b" (Ix 6)));
    SetL "this" (Ix 7) (B2 IShl (Ln "this" (Ix 7)) (Ln "b" (Ix 7)))]
   ["this"];
  (* v8/v8_avx.h:890-890 *)
  fnc "int >>=" 890 [("this", 8); ("b", 8)]
   [SetL "this" (Ix 0) (B2 IShr (Ln "this" (Ix 0)) (Ln "b" (Ix 0)));
    SetL "this" (Ix 1) (B2 IShr (Ln "this" (Ix 1)) (Ln "b" (Ix 1)));
    SetL "this" (Ix 2) (B2 IShr (Ln "this" (Ix 2)) (Ln "b" (Ix 2)));
    SetL "this" (Ix 3) (B2 IShr (Ln "this" (Ix 3)) (Ln "b" (Ix 3)));
    SetL "this" (Ix 4) (B2 IShr (Ln "this" (Ix 4)) (Ln "b" (Ix 4)));
    SetL "this" (Ix 5) (B2 IShr (Ln "this" (Ix 5)) (Ln "b" (Ix 5)));
    SetL "this" (Ix 6) (B2 IShr (Ln "this" (Ix 6)) (Ln "b" (Ix 6)));
    SetL "this" (Ix 7) (B2 IShr (Ln "this" (Ix 7)) (Ln "b" (Ix 7)))]
   ["this"];
  (* v8/v8_avx.h:924-931 *)
  fnc "int unary+" 924 [("a", 8)]
   [SetV "b" (VReg "a")]
   ["b"];
  (* v8/v8_avx.h:933-933 *)
  fnc "int unary-" 933 [("a", 8)]
   [SetL "b" (Ix 0) (U1 INeg (Ln "a" (Ix 0)));
    SetL "b" (Ix 1) (U1 INeg (Ln "a" (Ix 1)));
    SetL "b" (Ix 2) (U1 INeg (Ln "a" (Ix 2)));
    SetL "b" (Ix 3) (U1 INeg (Ln "a" (Ix 3)));
    SetL "b" (Ix 4) (U1 INeg (Ln "a" (Ix 4)));
    SetL "b" (Ix 5) (U1 INeg (Ln "a" (Ix 5)));
    SetL "b" (Ix 6) (U1 INeg (Ln "a" (Ix 6)));
    SetL "b" (Ix 7) (U1 INeg (Ln "a" (Ix 7)))]
   ["b"];
  (* v8/v8_avx.h:935-949 *)
  fnc "int !" 935 [("a", 8)]
   [SetL "b" (Ix 0) (U1 INeg (U1 ILNot (Ln "a" (Ix 0))));
    SetL "b" (Ix 1) (U1 INeg (U1 ILNot (Ln "a" (Ix 1))));
    SetL "b" (Ix 2) (U1 INeg (U1 ILNot (Ln "a" (Ix 2))));
    SetL "b" (Ix 3) (U1 INeg (U1 ILNot (Ln "a" (Ix 3))));
    SetL "b" (Ix 4) (U1 INeg (U1 ILNot (Ln "a" (Ix 4))));
    SetL "b" (Ix 5) (U1 INeg (U1 ILNot (Ln "a" (Ix 5))));
    SetL "b" (Ix 6) (U1 INeg (U1 ILNot (Ln "a" (Ix 6))));
    SetL "b" (Ix 7) (U1 INeg (U1 ILNot (Ln "a" (Ix 7))))]
   ["b"];
  (* v8/v8_avx.h:951-966 *)
  fnc "int ~" 951 [("a", 8)]
   [SetL "u" (Ix 0) (Cst 4294967295);
    SetV "b" (V2 IXor (VReg "a") (VSet1 (Ln "u" (Ix 0))))]
   ["b"];
  (* v8/v8_avx.h:987-987 *)
  fnc "int pre++" 987 [("a", 8)]
   [SetL "a" (Ix 0) (B2 IAdd (Ln "a" (Ix 0)) (Cst 1));
    SetL "b" (Ix 0) (Ln "a" (Ix 0));
    SetL "a" (Ix 1) (B2 IAdd (Ln "a" (Ix 1)) (Cst 1));
    SetL "b" (Ix 1) (Ln "a" (Ix 1));
    SetL "a" (Ix 2) (B2 IAdd (Ln "a" (Ix 2)) (Cst 1));
    SetL "b" (Ix 2) (Ln "a" (Ix 2));
    SetL "a" (Ix 3) (B2 IAdd (Ln "a" (Ix 3)) (Cst 1));
    SetL "b" (Ix 3) (Ln "a" (Ix 3));
    SetL "a" (Ix 4) (B2 IAdd (Ln "a" (Ix 4)) (Cst 1));
    SetL "b" (Ix 4) (Ln "a" (Ix 4));
    SetL "a" (Ix 5) (B2 IAdd (Ln "a" (Ix 5)) (Cst 1));
    SetL "b" (Ix 5) (Ln "a" (Ix 5));
    SetL "a" (Ix 6) (B2 IAdd (Ln "a" (Ix 6)) (Cst 1));
    SetL "b" (Ix 6) (Ln "a" (Ix 6));
    SetL "a" (Ix 7) (B2 IAdd (Ln "a" (Ix 7)) (Cst 1));
    SetL "b" (Ix 7) (Ln "a" (Ix 7))]
   ["b"; "a"];
  (* v8/v8_avx.h:988-988 *)
  fnc "int pre--" 988 [("a", 8)]
   [SetL "a" (Ix 0) (B2 ISub (Ln "a" (Ix 0)) (Cst 1));
    SetL "b" (Ix 0) (Ln "a" (Ix 0));
    SetL "a" (Ix 1) (B2 ISub (Ln "a" (Ix 1)) (Cst 1));
    SetL "b" (Ix 1) (Ln "a" (Ix 1));
    SetL "a" (Ix 2) (B2 ISub (Ln "a" (Ix 2)) (Cst 1));
    SetL "b" (Ix 2) (Ln "a" (Ix 2));
    SetL "a" (Ix 3) (B2 ISub (Ln "a" (Ix 3)) (Cst 1));
    SetL "b" (Ix 3) (Ln "a" (Ix 3));
    SetL "a" (Ix 4) (B2 ISub (Ln "a" (Ix 4)) (Cst 1));
    SetL "b" (Ix 4) (Ln "a" (Ix 4));
    SetL "a" (Ix 5) (B2 ISub (Ln "a" (Ix 5)) (Cst 1));
    SetL "b" (Ix 5) (Ln "a" (Ix 5));
    SetL "a" (Ix 6) (B2 ISub (Ln "a" (Ix 6)) (Cst 1));
    SetL "b" (Ix 6) (Ln "a" (Ix 6));
    SetL "a" (Ix 7) (B2 ISub (Ln "a" (Ix 7)) (Cst 1));
    SetL "b" (Ix 7) (Ln "a" (Ix 7))]
   ["b"; "a"];
  (* v8/v8_avx.h:1009-1009 *)
  fnc "int post++" 1009 [("a", 8)]
   [SetL "b" (Ix 0) (Ln "a" (Ix 0));
    SetL "a" (Ix 0) (B2 IAdd (Ln "a" (Ix 0)) (Cst 1));
    SetL "b" (Ix 1) (Ln "a" (Ix 1));
    SetL "a" (Ix 1) (B2 IAdd (Ln "a" (Ix 1)) (Cst 1));
    SetL "b" (Ix 2) (Ln "a" (Ix 2));
    SetL "a" (Ix 2) (B2 IAdd (Ln "a" (Ix 2)) (Cst 1));
    SetL "b" (Ix 3) (Ln "a" (Ix 3));
    SetL "a" (Ix 3) (B2 IAdd (Ln "a" (Ix 3)) (Cst 1));
    SetL "b" (Ix 4) (Ln "a" (Ix 4));
    SetL "a" (Ix 4) (B2 IAdd (Ln "a" (Ix 4)) (Cst 1));
    SetL "b" (Ix 5) (Ln "a" (Ix 5));
    SetL "a" (Ix 5) (B2 IAdd (Ln "a" (Ix 5)) (Cst 1));
    SetL "b" (Ix 6) (Ln "a" (Ix 6));
    SetL "a" (Ix 6) (B2 IAdd (Ln "a" (Ix 6)) (Cst 1));
    SetL "b" (Ix 7) (Ln "a" (Ix 7));
    SetL "a" (Ix 7) (B2 IAdd (Ln "a" (Ix 7)) (Cst 1))]
   ["b"; "a"];
  (* v8/v8_avx.h:1010-1010 *)
  fnc "int post--" 1010 [("a", 8)]
   [SetL "b" (Ix 0) (Ln "a" (Ix 0));
    SetL "a" (Ix 0) (B2 ISub (Ln "a" (Ix 0)) (Cst 1));
    SetL "b" (Ix 1) (Ln "a" (Ix 1));
    SetL "a" (Ix 1) (B2 ISub (Ln "a" (Ix 1)) (Cst 1));
    SetL "b" (Ix 2) (Ln "a" (Ix 2));
    SetL "a" (Ix 2) (B2 ISub (Ln "a" (Ix 2)) (Cst 1));
    SetL "b" (Ix 3) (Ln "a" (Ix 3));
    SetL "a" (Ix 3) (B2 ISub (Ln "a" (Ix 3)) (Cst 1));
    SetL "b" (Ix 4) (Ln "a" (Ix 4));
    SetL "a" (Ix 4) (B2 ISub (Ln "a" (Ix 4)) (Cst 1));
    SetL "b" (Ix 5) (Ln "a" (Ix 5));
    SetL "a" (Ix 5) (B2 ISub (Ln "a" (Ix 5)) (Cst 1));
    SetL "b" (Ix 6) (Ln "a" (Ix 6));
    SetL "a" (Ix 6) (B2 ISub (Ln "a" (Ix 6)) (Cst 1));
    SetL "b" (Ix 7) (Ln "a" (Ix 7));
    SetL "a" (Ix 7) (B2 ISub (Ln "a" (Ix 7)) (Cst 1))]
   ["b"; "a"];
  (* v8/v8_avx.h:1031-1031 *)
  fnc "int +" 1031 [("a", 8); ("b", 8)]
   [SetL "c" (Ix 0) (B2 IAdd (Ln "a" (Ix 0)) (Ln "b" (Ix 0)));
    SetL "c" (Ix 1) (B2 IAdd (Ln "a" (Ix 1)) (Ln "b" (Ix 1)));
    SetL "c" (Ix 2) (B2 IAdd (Ln "a" (Ix 2)) (Ln "b" (Ix 2)));
    SetL "c" (Ix 3) (B2 IAdd (Ln "a" (Ix 3)) (Ln "b" (Ix 3)));
    SetL "c" (Ix 4) (B2 IAdd (Ln "a" (Ix 4)) (Ln "b" (Ix 4)));
    SetL "c" (Ix 5) (B2 IAdd (Ln "a" (Ix 5)) (Ln "b" (Ix 5)));
    SetL "c" (Ix 6) (B2 IAdd (Ln "a" (Ix 6)) (Ln "b" (Ix 6)));
    SetL "c" (Ix 7) (B2 IAdd (Ln "a" (Ix 7)) (Ln "b" (Ix 7)))]
   ["c"];
  (* v8/v8_avx.h:1032-1032 *)
  fnc "int -" 1032 [("a", 8); ("b", 8)]
   [SetL "c" (Ix 0) (B2 ISub (Ln "a" (Ix 0)) (Ln "b" (Ix 0)));
    SetL "c" (Ix 1) (B2 ISub (Ln "a" (Ix 1)) (Ln "b" (Ix 1)));
    SetL "c" (Ix 2) (B2 ISub (Ln "a" (Ix 2)) (Ln "b" (Ix 2)));
    SetL "c" (Ix 3) (B2 ISub (Ln "a" (Ix 3)) (Ln "b" (Ix 3)));
    SetL "c" (Ix 4) (B2 ISub (Ln "a" (Ix 4)) (Ln "b" (Ix 4)));
    SetL "c" (Ix 5) (B2 ISub (Ln "a" (Ix 5)) (Ln "b" (Ix 5)));
    SetL "c" (Ix 6) (B2 ISub (Ln "a" (Ix 6)) (Ln "b" (Ix 6)));
    SetL "c" (Ix 7) (B2 ISub (Ln "a" (Ix 7)) (Ln "b" (Ix 7)))]
   ["c"];
  (* v8/v8_avx.h:1033-1033 *)
  fnc "int *" 1033 [("a", 8); ("b", 8)]
   [SetL "c" (Ix 0) (B2 IMul (Ln "a" (Ix 0)) (Ln "b" (Ix 0)));
    SetL "c" (Ix 1) (B2 IMul (Ln "a" (Ix 1)) (Ln "b" (Ix 1)));
    SetL "c" (Ix 2) (B2 IMul (Ln "a" (Ix 2)) (Ln "b" (Ix 2)));
    SetL "c" (Ix 3) (B2 IMul (Ln "a" (Ix 3)) (Ln "b" (Ix 3)));
    SetL "c" (Ix 4) (B2 IMul (Ln "a" (Ix 4)) (Ln "b" (Ix 4)));
    SetL "c" (Ix 5) (B2 IMul (Ln "a" (Ix 5)) (Ln "b" (Ix 5)));
    SetL "c" (Ix 6) (B2 IMul (Ln "a" (Ix 6)) (Ln "b" (Ix 6)));
    SetL "c" (Ix 7) (B2 IMul (Ln "a" (Ix 7)) (Ln "b" (Ix 7)))]
   ["c"];
  (* v8/v8_avx.h:1034-1034 *)
  fnc "int /" 1034 [("a", 8); ("b", 8)]
   [SetL "c" (Ix 0) (B2 IDiv (Ln "a" (Ix 0)) (Ln "b" (Ix 0)));
    SetL "c" (Ix 1) (B2 IDiv (Ln "a" (Ix 1)) (Ln "b" (Ix 1)));
    SetL "c" (Ix 2) (B2 IDiv (Ln "a" (Ix 2)) (Ln "b" (Ix 2)));
    SetL "c" (Ix 3) (B2 IDiv (Ln "a" (Ix 3)) (Ln "b" (Ix 3)));
    SetL "c" (Ix 4) (B2 IDiv (Ln "a" (Ix 4)) (Ln "b" (Ix 4)));
    SetL "c" (Ix 5) (B2 IDiv (Ln "a" (Ix 5)) (Ln "b" (Ix 5)));
    SetL "c" (Ix 6) (B2 IDiv (Ln "a" (Ix 6)) (Ln "b" (Ix 6)));
    SetL "c" (Ix 7) (B2 IDiv (Ln "a" (Ix 7)) (Ln "b" (Ix 7)))]
   ["c"];
  (* v8/v8_avx.h:1035-1035 *)
  fnc "int %" 1035 [("a", 8); ("b", 8)]
   [SetL "c" (Ix 0) (B2 IMod (Ln "a" (Ix 0)) (Ln "b" (Ix 0)));
    SetL "c" (Ix 1) (B2 IMod (Ln "a" (Ix 1)) (Ln "b" (Ix 1)));
    SetL "c" (Ix 2) (B2 IMod (Ln "a" (Ix 2)) (Ln "b" (Ix 2)));
    SetL "c" (Ix 3) (B2 IMod (Ln "a" (Ix 3)) (Ln "b" (Ix 3)));
    SetL "c" (Ix 4) (B2 IMod (Ln "a" (Ix 4)) (Ln "b" (Ix 4)));
    SetL "c" (Ix 5) (B2 IMod (Ln "a" (Ix 5)) (Ln "b" (Ix 5)));
    SetL "c" (Ix 6) (B2 IMod (Ln "a" (Ix 6)) (Ln "b" (Ix 6)));
    SetL "c" (Ix 7) (B2 IMod (Ln "a" (Ix 7)) (Ln "b" (Ix 7)))]
   ["c"];
  (* v8/v8_avx.h:1037-1044 *)
  fnc "int ^" 1037 [("a", 8); ("b", 8)]
   [SetV "c" (V2 IXor (VReg "a") (VReg "b"))]
   ["c"];
  (* v8/v8_avx.h:1046-1053 *)
  fnc "int &" 1046 [("a", 8); ("b", 8)]
   [SetV "c" (V2 IAnd (VReg "a") (VReg "b"))]
   ["c"];
  (* v8/v8_avx.h:1055-1062 *)
  fnc "int |" 1055 [("a", 8); ("b", 8)]
   [SetV "c" (V2 IOr (VReg "a") (VReg "b"))]
   ["c"];
  (* v8/v8_avx.h:1064-1064 *)
  fnc "int <<" 1064 [("a", 8); ("b", 8)]
   [SetL "c" (Ix 0) (B2 IShl (Ln "a" (Ix 0)) (Ln "b" (Ix 0)));
    SetL "c" (Ix 1) (B2 IShl (Ln "a" (Ix 1)) (Ln "b" (Ix 1)));
    SetL "c" (Ix 2) (B2 IShl (Ln "a" (Ix 2)) (Ln "b" (Ix 2)));
    SetL "c" (Ix 3) (B2 IShl (Ln "a" (Ix 3)) (Ln "b" (Ix 3)));
    SetL "c" (Ix 4) (B2 IShl (Ln "a" (Ix 4)) (Ln "b" (Ix 4)));
    SetL "c" (Ix 5) (B2 IShl (Ln "a" (Ix 5)) (Ln "b" (Ix 5)));
    SetL "c" (Ix 6) (B2 IShl (Ln "a" (Ix 6)) (Ln "b" (Ix 6)));
    SetL "c" (Ix 7) (B2 IShl (Ln "a" (Ix 7)) (Ln "b" (Ix 7)))]
   ["c"];
  (* v8/v8_avx.h:1065-1065 *)
  fnc "int >>" 1065 [("a", 8); ("b", 8)]
   [SetL "c" (Ix 0) (B2 IShr (Ln "a" (Ix 0)) (Ln "b" (Ix 0)));
    SetL "c" (Ix 1) (B2 IShr (Ln "a" (Ix 1)) (Ln "b" (Ix 1)));
    SetL "c" (Ix 2) (B2 IShr (Ln "a" (Ix 2)) (Ln "b" (Ix 2)));
    SetL "c" (Ix 3) (B2 IShr (Ln "a" (Ix 3)) (Ln "b" (Ix 3)));
    SetL "c" (Ix 4) (B2 IShr (Ln "a" (Ix 4)) (Ln "b" (Ix 4)));
    SetL "c" (Ix 5) (B2 IShr (Ln "a" (Ix 5)) (Ln "b" (Ix 5)));
    SetL "c" (Ix 6) (B2 IShr (Ln "a" (Ix 6)) (Ln "b" (Ix 6)));
    SetL "c" (Ix 7) (B2 IShr (Ln "a" (Ix 7)) (Ln "b" (Ix 7)))]
   ["c"];
  (* v8/v8_avx.h:1086-1086 *)
  fnc "int <" 1086 [("a", 8); ("b", 8)]
   [SetL "c" (Ix 0) (U1 INeg (B2 ILt (Ln "a" (Ix 0)) (Ln "b" (Ix 0))));
    SetL "c" (Ix 1) (U1 INeg (B2 ILt (Ln "a" (Ix 1)) (Ln "b" (Ix 1))));
    SetL "c" (Ix 2) (U1 INeg (B2 ILt (Ln "a" (Ix 2)) (Ln "b" (Ix 2))));
    SetL "c" (Ix 3) (U1 INeg (B2 ILt (Ln "a" (Ix 3)) (Ln "b" (Ix 3))));
    SetL "c" (Ix 4) (U1 INeg (B2 ILt (Ln "a" (Ix 4)) (Ln "b" (Ix 4))));
    SetL "c" (Ix 5) (U1 INeg (B2 ILt (Ln "a" (Ix 5)) (Ln "b" (Ix 5))));
    SetL "c" (Ix 6) (U1 INeg (B2 ILt (Ln "a" (Ix 6)) (Ln "b" (Ix 6))));
    SetL "c" (Ix 7) (U1 INeg (B2 ILt (Ln "a" (Ix 7)) (Ln "b" (Ix 7))))]
   ["c"];
  (* v8/v8_avx.h:1087-1087 *)
  fnc "int >" 1087 [("a", 8); ("b", 8)]
   [SetL "c" (Ix 0) (U1 INeg (B2 IGt (Ln "a" (Ix 0)) (Ln "b" (Ix 0))));
    SetL "c" (Ix 1) (U1 INeg (B2 IGt (Ln "a" (Ix 1)) (Ln "b" (Ix 1))));
    SetL "c" (Ix 2) (U1 INeg (B2 IGt (Ln "a" (Ix 2)) (Ln "b" (Ix 2))));
    SetL "c" (Ix 3) (U1 INeg (B2 IGt (Ln "a" (Ix 3)) (Ln "b" (Ix 3))));
    SetL "c" (Ix 4) (U1 INeg (B2 IGt (Ln "a" (Ix 4)) (Ln "b" (Ix 4))));
    SetL "c" (Ix 5) (U1 INeg (B2 IGt (Ln "a" (Ix 5)) (Ln "b" (Ix 5))));
    SetL "c" (Ix 6) (U1 INeg (B2 IGt (Ln "a" (Ix 6)) (Ln "b" (Ix 6))));
    SetL "c" (Ix 7) (U1 INeg (B2 IGt (Ln "a" (Ix 7)) (Ln "b" (Ix 7))))]
   ["c"];
  (* v8/v8_avx.h:1088-1088 *)
  fnc "int ==" 1088 [("a", 8); ("b", 8)]
   [SetL "c" (Ix 0) (U1 INeg (B2 IEq (Ln "a" (Ix 0)) (Ln "b" (Ix 0))));
    SetL "c" (Ix 1) (U1 INeg (B2 IEq (Ln "a" (Ix 1)) (Ln "b" (Ix 1))));
    SetL "c" (Ix 2) (U1 INeg (B2 IEq (Ln "a" (Ix 2)) (Ln "b" (Ix 2))));
    SetL "c" (Ix 3) (U1 INeg (B2 IEq (Ln "a" (Ix 3)) (Ln "b" (Ix 3))));
    SetL "c" (Ix 4) (U1 INeg (B2 IEq (Ln "a" (Ix 4)) (Ln "b" (Ix 4))));
    SetL "c" (Ix 5) (U1 INeg (B2 IEq (Ln "a" (Ix 5)) (Ln "b" (Ix 5))));
    SetL "c" (Ix 6) (U1 INeg (B2 IEq (Ln "a" (Ix 6)) (Ln "b" (Ix 6))));
    SetL "c" (Ix 7) (U1 INeg (B2 IEq (Ln "a" (Ix 7)) (Ln "b" (Ix 7))))]
   ["c"];
  (* v8/v8_avx.h:1089-1089 *)
  fnc "int !=" 1089 [("a", 8); ("b", 8)]
   [SetL "c" (Ix 0) (U1 INeg (B2 INe (Ln "a" (Ix 0)) (Ln "b" (Ix 0))));
    SetL "c" (Ix 1) (U1 INeg (B2 INe (Ln "a" (Ix 1)) (Ln "b" (Ix 1))));
    SetL "c" (Ix 2) (U1 INeg (B2 INe (Ln "a" (Ix 2)) (Ln "b" (Ix 2))));
    SetL "c" (Ix 3) (U1 INeg (B2 INe (Ln "a" (Ix 3)) (Ln "b" (Ix 3))));
    SetL "c" (Ix 4) (U1 INeg (B2 INe (Ln "a" (Ix 4)) (Ln "b" (Ix 4))));
    SetL "c" (Ix 5) (U1 INeg (B2 INe (Ln "a" (Ix 5)) (Ln "b" (Ix 5))));
    SetL "c" (Ix 6) (U1 INeg (B2 INe (Ln "a" (Ix 6)) (Ln "b" (Ix 6))));
    SetL "c" (Ix 7) (U1 INeg (B2 INe (Ln "a" (Ix 7)) (Ln "b" (Ix 7))))]
   ["c"];
  (* v8/v8_avx.h:1090-1090 *)
  fnc "int <=" 1090 [("a", 8); ("b", 8)]
   [SetL "c" (Ix 0) (U1 INeg (B2 ILe (Ln "a" (Ix 0)) (Ln "b" (Ix 0))));
    SetL "c" (Ix 1) (U1 INeg (B2 ILe (Ln "a" (Ix 1)) (Ln "b" (Ix 1))));
    SetL "c" (Ix 2) (U1 INeg (B2 ILe (Ln "a" (Ix 2)) (Ln "b" (Ix 2))));
    SetL "c" (Ix 3) (U1 INeg (B2 ILe (Ln "a" (Ix 3)) (Ln "b" (Ix 3))));
    SetL "c" (Ix 4) (U1 INeg (B2 ILe (Ln "a" (Ix 4)) (Ln "b" (Ix 4))));
    SetL "c" (Ix 5) (U1 INeg (B2 ILe (Ln "a" (Ix 5)) (Ln "b" (Ix 5))));
    SetL "c" (Ix 6) (U1 INeg (B2 ILe (Ln "a" (Ix 6)) (Ln "b" (Ix 6))));
    SetL "c" (Ix 7) (U1 INeg (B2 ILe (Ln "a" (Ix 7)) (Ln "b" (Ix 7))))]
   ["c"];
  (* v8/v8_avx.h:1091-1091 *)
  fnc "int >=" 1091 [("a", 8); ("b", 8)]
   [SetL "c" (Ix 0) (U1 INeg (B2 IGe (Ln "a" (Ix 0)) (Ln "b" (Ix 0))));
    SetL "c" (Ix 1) (U1 INeg (B2 IGe (Ln "a" (Ix 1)) (Ln "b" (Ix 1))));
    SetL "c" (Ix 2) (U1 INeg (B2 IGe (Ln "a" (Ix 2)) (Ln "b" (Ix 2))));
    SetL "c" (Ix 3) (U1 INeg (B2 IGe (Ln "a" (Ix 3)) (Ln "b" (Ix 3))));
    SetL "c" (Ix 4) (U1 INeg (B2 IGe (Ln "a" (Ix 4)) (Ln "b" (Ix 4))));
    SetL "c" (Ix 5) (U1 INeg (B2 IGe (Ln "a" (Ix 5)) (Ln "b" (Ix 5))));
    SetL "c" (Ix 6) (U1 INeg (B2 IGe (Ln "a" (Ix 6)) (Ln "b" (Ix 6))));
    SetL "c" (Ix 7) (U1 INeg (B2 IGe (Ln "a" (Ix 7)) (Ln "b" (Ix 7))))]
   ["c"];
  (* v8/v8_avx.h:1092-1092 *)
  fnc "int &&" 1092 [("a", 8); ("b", 8)]
   [SetL "c" (Ix 0) (U1 INeg (B2 ILAnd (Ln "a" (Ix 0)) (Ln "b" (Ix 0))));
    SetL "c" (Ix 1) (U1 INeg (B2 ILAnd (Ln "a" (Ix 1)) (Ln "b" (Ix 1))));
    SetL "c" (Ix 2) (U1 INeg (B2 ILAnd (Ln "a" (Ix 2)) (Ln "b" (Ix 2))));
    SetL "c" (Ix 3) (U1 INeg (B2 ILAnd (Ln "a" (Ix 3)) (Ln "b" (Ix 3))));
    SetL "c" (Ix 4) (U1 INeg (B2 ILAnd (Ln "a" (Ix 4)) (Ln "b" (Ix 4))));
    SetL "c" (Ix 5) (U1 INeg (B2 ILAnd (Ln "a" (Ix 5)) (Ln "b" (Ix 5))));
    SetL "c" (Ix 6) (U1 INeg (B2 ILAnd (Ln "a" (Ix 6)) (Ln "b" (Ix 6))));
    SetL "c" (Ix 7) (U1 INeg (B2 ILAnd (Ln "a" (Ix 7)) (Ln "b" (Ix 7))))]
   ["c"];
  (* v8/v8_avx.h:1093-1093 *)
  fnc "int ||" 1093 [("a", 8); ("b", 8)]
   [SetL "c" (Ix 0) (U1 INeg (B2 ILOr (Ln "a" (Ix 0)) (Ln "b" (Ix 0))));
    SetL "c" (Ix 1) (U1 INeg (B2 ILOr (Ln "a" (Ix 1)) (Ln "b" (Ix 1))));
    SetL "c" (Ix 2) (U1 INeg (B2 ILOr (Ln "a" (Ix 2)) (Ln "b" (Ix 2))));
    SetL "c" (Ix 3) (U1 INeg (B2 ILOr (Ln "a" (Ix 3)) (Ln "b" (Ix 3))));
    SetL "c" (Ix 4) (U1 INeg (B2 ILOr (Ln "a" (Ix 4)) (Ln "b" (Ix 4))));
    SetL "c" (Ix 5) (U1 INeg (B2 ILOr (Ln "a" (Ix 5)) (Ln "b" (Ix 5))));
    SetL "c" (Ix 6) (U1 INeg (B2 ILOr (Ln "a" (Ix 6)) (Ln "b" (Ix 6))));
    SetL "c" (Ix 7) (U1 INeg (B2 ILOr (Ln "a" (Ix 7)) (Ln "b" (Ix 7))))]
   ["c"];
  (* v8/v8_avx.h:1099-1113 *)
  fnc "int abs" 1099 [("a", 8)]
   [SetL "b" (Ix 0) (Cond (B2 IGe (Ln "a" (Ix 0)) (Cst 0)) (Ln "a" (Ix 0)) (U1 INeg (Ln "a" (Ix 0))));
    SetL "b" (Ix 1) (Cond (B2 IGe (Ln "a" (Ix 1)) (Cst 0)) (Ln "a" (Ix 1)) (U1 INeg (Ln "a" (Ix 1))));
    SetL "b" (Ix 2) (Cond (B2 IGe (Ln "a" (Ix 2)) (Cst 0)) (Ln "a" (Ix 2)) (U1 INeg (Ln "a" (Ix 2))));
    SetL "b" (Ix 3) (Cond (B2 IGe (Ln "a" (Ix 3)) (Cst 0)) (Ln "a" (Ix 3)) (U1 INeg (Ln "a" (Ix 3))));
    SetL "b" (Ix 4) (Cond (B2 IGe (Ln "a" (Ix 4)) (Cst 0)) (Ln "a" (Ix 4)) (U1 INeg (Ln "a" (Ix 4))));
    SetL "b" (Ix 5) (Cond (B2 IGe (Ln "a" (Ix 5)) (Cst 0)) (Ln "a" (Ix 5)) (U1 INeg (Ln "a" (Ix 5))));
    SetL "b" (Ix 6) (Cond (B2 IGe (Ln "a" (Ix 6)) (Cst 0)) (Ln "a" (Ix 6)) (U1 INeg (Ln "a" (Ix 6))));
    SetL "b" (Ix 7) (Cond (B2 IGe (Ln "a" (Ix 7)) (Cst 0)) (Ln "a" (Ix 7)) (U1 INeg (Ln "a" (Ix 7))))]
   ["b"];
  (* v8/v8_avx.h:1115-1122 *)
  fnc "czero" 1115 [("c", 8); ("a", 8)]
   [SetV "b" (V2 VAndnot (VReg "c") (VReg "a"))]
   ["b"];
  (* v8/v8_avx.h:1124-1131 *)
  fnc "notczero" 1124 [("c", 8); ("a", 8)]
   [SetV "b" (V2 IAnd (VReg "c") (VReg "a"))]
   ["b"];
  (* v8/v8_avx.h:1133-1143 *)
  fnc "merge" 1133 [("c", 8); ("t", 8); ("f", 8)]
   [SetV "c_v" (VReg "c");
    SetV "tf" (V2 IOr (V2 VAndnot (VReg "c_v") (VReg "f")) (V2 IAnd (VReg "c_v") (VReg "t")))]
   ["tf"];
  (* v8/v8_avx.h:1254-1258 *)
  fnc "float =" 1254 [("this", 8); ("b", 8)]
   [SetV "this" (VReg "b")]
   ["this"];
  (* v8/v8_avx.h:1260-1260 *)
  fnc "float +=" 1260 [("this", 8); ("b", 8)]
   [SetV "this" (V2 FAdd (VReg "this") (VReg "b"))]
   ["this"];
  (* v8/v8_avx.h:1261-1261 *)
  fnc "float -=" 1261 [("this", 8); ("b", 8)]
   [SetV "this" (V2 FSub (VReg "this") (VReg "b"))]
   ["this"];
  (* v8/v8_avx.h:1262-1262 *)
  fnc "float *=" 1262 [("this", 8); ("b", 8)]
   [SetV "this" (V2 FMul (VReg "this") (VReg "b"))]
   ["this"];
  (* v8/v8_avx.h:1263-1263 *)
  fnc "float /=" 1263 [("this", 8); ("b", 8)]
   [SetV "this" (V2 FDiv (VReg "this") (VReg "b"))]
   ["this"];
  (* v8/v8_avx.h:1282-1289 *)
  fnc "float unary+" 1282 [("a", 8)]
   [SetV "b" (VReg "a")]
   ["b"];
  (* v8/v8_avx.h:1291-1298 *)
  fnc "float unary-" 1291 [("a", 8)]
   [SetV "b" (V2 FSub (VSet1 (Cst 0)) (VReg "a"))]
   ["b"];
  (* v8/v8_avx.h:1300-1307 *)
  fnc "float !" 1300 [("a", 8)]
   [SetV "b" (V2 (VCmp CEq) (VSet1 (Cst 0)) (VReg "a"))]
   ["b"];
  (* v8/v8_avx.h:1311-1320 *)
  fnc "float pre++" 1311 [("a", 8)]
   [SetV "t" (V2 FAdd (VReg "a") (VSet1 (Cst 1065353216)));
    SetV "a" (VReg "t");
    SetV "b" (VReg "t")]
   ["b"; "a"];
  (* v8/v8_avx.h:1322-1331 *)
  fnc "float pre--" 1322 [("a", 8)]
   [SetV "t" (V2 FSub (VReg "a") (VSet1 (Cst 1065353216)));
    SetV "a" (VReg "t");
    SetV "b" (VReg "t")]
   ["b"; "a"];
  (* v8/v8_avx.h:1335-1344 *)
  fnc "float post++" 1335 [("a", 8)]
   [SetV "a_v" (VReg "a");
    SetV "a" (V2 FAdd (VReg "a_v") (VSet1 (Cst 1065353216)));
    SetV "b" (VReg "a_v")]
   ["b"; "a"];
  (* v8/v8_avx.h:1346-1355 *)
  fnc "float post--" 1346 [("a", 8)]
   [SetV "a_v" (VReg "a");
    SetV "a" (V2 FSub (VReg "a_v") (VSet1 (Cst 1065353216)));
    SetV "b" (VReg "a_v")]
   ["b"; "a"];
  (* v8/v8_avx.h:1367-1367 *)
  fnc "float +" 1367 [("a", 8); ("b", 8)]
   [SetV "c" (V2 FAdd (VReg "a") (VReg "b"))]
   ["c"];
  (* v8/v8_avx.h:1368-1368 *)
  fnc "float -" 1368 [("a", 8); ("b", 8)]
   [SetV "c" (V2 FSub (VReg "a") (VReg "b"))]
   ["c"];
  (* v8/v8_avx.h:1369-1369 *)
  fnc "float *" 1369 [("a", 8); ("b", 8)]
   [SetV "c" (V2 FMul (VReg "a") (VReg "b"))]
   ["c"];
  (* v8/v8_avx.h:1370-1370 *)
  fnc "float /" 1370 [("a", 8); ("b", 8)]
   [SetV "c" (V2 FDiv (VReg "a") (VReg "b"))]
   ["c"];
  (* v8/v8_avx.h:1384-1384 *)
  fnc "float <" 1384 [("a", 8); ("b", 8)]
   [SetV "c" (V2 (VCmp CLt) (VReg "a") (VReg "b"))]
   ["c"];
  (* v8/v8_avx.h:1385-1385 *)
  fnc "float >" 1385 [("a", 8); ("b", 8)]
   [SetV "c" (V2 (VCmp CGt) (VReg "a") (VReg "b"))]
   ["c"];
  (* v8/v8_avx.h:1386-1386 *)
  fnc "float ==" 1386 [("a", 8); ("b", 8)]
   [SetV "c" (V2 (VCmp CEq) (VReg "a") (VReg "b"))]
   ["c"];
  (* v8/v8_avx.h:1387-1387 *)
  fnc "float !=" 1387 [("a", 8); ("b", 8)]
   [SetV "c" (V2 VCmpNeqOrd (VReg "a") (VReg "b"))]
   ["c"];
  (* v8/v8_avx.h:1388-1388 *)
  fnc "float <=" 1388 [("a", 8); ("b", 8)]
   [SetV "c" (V2 (VCmp CLe) (VReg "a") (VReg "b"))]
   ["c"];
  (* v8/v8_avx.h:1389-1389 *)
  fnc "float >=" 1389 [("a", 8); ("b", 8)]
   [SetV "c" (V2 (VCmp CGe) (VReg "a") (VReg "b"))]
   ["c"];
  (* v8/v8_avx.h:1391-1400 *)
  fnc "float &&" 1391 [("a", 8); ("b", 8)]
   [SetV "vzero" (VSet1 (Cst 0));
    SetV "c" (V2 IAnd (V2 VCmpNeqOrd (VReg "a") (VReg "vzero")) (V2 VCmpNeqOrd (VReg "b") (VReg "vzero")))]
   ["c"];
  (* v8/v8_avx.h:1402-1411 *)
  fnc "float ||" 1402 [("a", 8); ("b", 8)]
   [SetV "vzero" (VSet1 (Cst 0));
    SetV "c" (V2 IOr (V2 VCmpNeqOrd (VReg "a") (VReg "vzero")) (V2 VCmpNeqOrd (VReg "b") (VReg "vzero")))]
   ["c"];
  (* v8/v8_avx.h:1447-1447 *)
  fnc "acos" 1447 [("a", 8)]
   [SetL "b" (Ix 0) (U1 (FFun "acos") (Ln "a" (Ix 0)));
    SetL "b" (Ix 1) (U1 (FFun "acos") (Ln "a" (Ix 1)));
    SetL "b" (Ix 2) (U1 (FFun "acos") (Ln "a" (Ix 2)));
    SetL "b" (Ix 3) (U1 (FFun "acos") (Ln "a" (Ix 3)));
    SetL "b" (Ix 4) (U1 (FFun "acos") (Ln "a" (Ix 4)));
    SetL "b" (Ix 5) (U1 (FFun "acos") (Ln "a" (Ix 5)));
    SetL "b" (Ix 6) (U1 (FFun "acos") (Ln "a" (Ix 6)));
    SetL "b" (Ix 7) (U1 (FFun "acos") (Ln "a" (Ix 7)))]
   ["b"];
  (* v8/v8_avx.h:1447-1447 *)
  fnc "asin" 1447 [("a", 8)]
   [SetL "b" (Ix 0) (U1 (FFun "asin") (Ln "a" (Ix 0)));
    SetL "b" (Ix 1) (U1 (FFun "asin") (Ln "a" (Ix 1)));
    SetL "b" (Ix 2) (U1 (FFun "asin") (Ln "a" (Ix 2)));
    SetL "b" (Ix 3) (U1 (FFun "asin") (Ln "a" (Ix 3)));
    SetL "b" (Ix 4) (U1 (FFun "asin") (Ln "a" (Ix 4)));
    SetL "b" (Ix 5) (U1 (FFun "asin") (Ln "a" (Ix 5)));
    SetL "b" (Ix 6) (U1 (FFun "asin") (Ln "a" (Ix 6)));
    SetL "b" (Ix 7) (U1 (FFun "asin") (Ln "a" (Ix 7)))]
   ["b"];
  (* v8/v8_avx.h:1447-1447 *)
  fnc "atan" 1447 [("a", 8)]
   [SetL "b" (Ix 0) (U1 (FFun "atan") (Ln "a" (Ix 0)));
    SetL "b" (Ix 1) (U1 (FFun "atan") (Ln "a" (Ix 1)));
    SetL "b" (Ix 2) (U1 (FFun "atan") (Ln "a" (Ix 2)));
    SetL "b" (Ix 3) (U1 (FFun "atan") (Ln "a" (Ix 3)));
    SetL "b" (Ix 4) (U1 (FFun "atan") (Ln "a" (Ix 4)));
    SetL "b" (Ix 5) (U1 (FFun "atan") (Ln "a" (Ix 5)));
    SetL "b" (Ix 6) (U1 (FFun "atan") (Ln "a" (Ix 6)));
    SetL "b" (Ix 7) (U1 (FFun "atan") (Ln "a" (Ix 7)))]
   ["b"];
  (* v8/v8_avx.h:1447-1447 *)
  fnc "atan2" 1447 [("a", 8); ("b", 8)]
   [SetL "c" (Ix 0) (B2 (FFun2 "atan2") (Ln "a" (Ix 0)) (Ln "b" (Ix 0)));
    SetL "c" (Ix 1) (B2 (FFun2 "atan2") (Ln "a" (Ix 1)) (Ln "b" (Ix 1)));
    SetL "c" (Ix 2) (B2 (FFun2 "atan2") (Ln "a" (Ix 2)) (Ln "b" (Ix 2)));
    SetL "c" (Ix 3) (B2 (FFun2 "atan2") (Ln "a" (Ix 3)) (Ln "b" (Ix 3)));
    SetL "c" (Ix 4) (B2 (FFun2 "atan2") (Ln "a" (Ix 4)) (Ln "b" (Ix 4)));
    SetL "c" (Ix 5) (B2 (FFun2 "atan2") (Ln "a" (Ix 5)) (Ln "b" (Ix 5)));
    SetL "c" (Ix 6) (B2 (FFun2 "atan2") (Ln "a" (Ix 6)) (Ln "b" (Ix 6)));
    SetL "c" (Ix 7) (B2 (FFun2 "atan2") (Ln "a" (Ix 7)) (Ln "b" (Ix 7)))]
   ["c"];
  (* v8/v8_avx.h:1448-1448 *)
  fnc "ceil" 1448 [("a", 8)]
   [SetL "b" (Ix 0) (U1 (FFun "ceil") (Ln "a" (Ix 0)));
    SetL "b" (Ix 1) (U1 (FFun "ceil") (Ln "a" (Ix 1)));
    SetL "b" (Ix 2) (U1 (FFun "ceil") (Ln "a" (Ix 2)));
    SetL "b" (Ix 3) (U1 (FFun "ceil") (Ln "a" (Ix 3)));
    SetL "b" (Ix 4) (U1 (FFun "ceil") (Ln "a" (Ix 4)));
    SetL "b" (Ix 5) (U1 (FFun "ceil") (Ln "a" (Ix 5)));
    SetL "b" (Ix 6) (U1 (FFun "ceil") (Ln "a" (Ix 6)));
    SetL "b" (Ix 7) (U1 (FFun "ceil") (Ln "a" (Ix 7)))]
   ["b"];
  (* v8/v8_avx.h:1448-1448 *)
  fnc "cos" 1448 [("a", 8)]
   [SetL "b" (Ix 0) (U1 (FFun "cos") (Ln "a" (Ix 0)));
    SetL "b" (Ix 1) (U1 (FFun "cos") (Ln "a" (Ix 1)));
    SetL "b" (Ix 2) (U1 (FFun "cos") (Ln "a" (Ix 2)));
    SetL "b" (Ix 3) (U1 (FFun "cos") (Ln "a" (Ix 3)));
    SetL "b" (Ix 4) (U1 (FFun "cos") (Ln "a" (Ix 4)));
    SetL "b" (Ix 5) (U1 (FFun "cos") (Ln "a" (Ix 5)));
    SetL "b" (Ix 6) (U1 (FFun "cos") (Ln "a" (Ix 6)));
    SetL "b" (Ix 7) (U1 (FFun "cos") (Ln "a" (Ix 7)))]
   ["b"];
  (* v8/v8_avx.h:1448-1448 *)
  fnc "cosh" 1448 [("a", 8)]
   [SetL "b" (Ix 0) (U1 (FFun "cosh") (Ln "a" (Ix 0)));
    SetL "b" (Ix 1) (U1 (FFun "cosh") (Ln "a" (Ix 1)));
    SetL "b" (Ix 2) (U1 (FFun "cosh") (Ln "a" (Ix 2)));
    SetL "b" (Ix 3) (U1 (FFun "cosh") (Ln "a" (Ix 3)));
    SetL "b" (Ix 4) (U1 (FFun "cosh") (Ln "a" (Ix 4)));
    SetL "b" (Ix 5) (U1 (FFun "cosh") (Ln "a" (Ix 5)));
    SetL "b" (Ix 6) (U1 (FFun "cosh") (Ln "a" (Ix 6)));
    SetL "b" (Ix 7) (U1 (FFun "cosh") (Ln "a" (Ix 7)))]
   ["b"];
  (* v8/v8_avx.h:1448-1448 *)
  fnc "exp" 1448 [("a", 8)]
   [SetL "b" (Ix 0) (U1 (FFun "exp") (Ln "a" (Ix 0)));
    SetL "b" (Ix 1) (U1 (FFun "exp") (Ln "a" (Ix 1)));
    SetL "b" (Ix 2) (U1 (FFun "exp") (Ln "a" (Ix 2)));
    SetL "b" (Ix 3) (U1 (FFun "exp") (Ln "a" (Ix 3)));
    SetL "b" (Ix 4) (U1 (FFun "exp") (Ln "a" (Ix 4)));
    SetL "b" (Ix 5) (U1 (FFun "exp") (Ln "a" (Ix 5)));
    SetL "b" (Ix 6) (U1 (FFun "exp") (Ln "a" (Ix 6)));
    SetL "b" (Ix 7) (U1 (FFun "exp") (Ln "a" (Ix 7)))]
   ["b"];
  (* v8/v8_avx.h:1449-1449 *)
  fnc "floor" 1449 [("a", 8)]
   [SetL "b" (Ix 0) (U1 (FFun "floor") (Ln "a" (Ix 0)));
    SetL "b" (Ix 1) (U1 (FFun "floor") (Ln "a" (Ix 1)));
    SetL "b" (Ix 2) (U1 (FFun "floor") (Ln "a" (Ix 2)));
    SetL "b" (Ix 3) (U1 (FFun "floor") (Ln "a" (Ix 3)));
    SetL "b" (Ix 4) (U1 (FFun "floor") (Ln "a" (Ix 4)));
    SetL "b" (Ix 5) (U1 (FFun "floor") (Ln "a" (Ix 5)));
    SetL "b" (Ix 6) (U1 (FFun "floor") (Ln "a" (Ix 6)));
    SetL "b" (Ix 7) (U1 (FFun "floor") (Ln "a" (Ix 7)))]
   ["b"];
  (* v8/v8_avx.h:1449-1449 *)
  fnc "fmod" 1449 [("a", 8); ("b", 8)]
   [SetL "c" (Ix 0) (B2 (FFun2 "fmod") (Ln "a" (Ix 0)) (Ln "b" (Ix 0)));
    SetL "c" (Ix 1) (B2 (FFun2 "fmod") (Ln "a" (Ix 1)) (Ln "b" (Ix 1)));
    SetL "c" (Ix 2) (B2 (FFun2 "fmod") (Ln "a" (Ix 2)) (Ln "b" (Ix 2)));
    SetL "c" (Ix 3) (B2 (FFun2 "fmod") (Ln "a" (Ix 3)) (Ln "b" (Ix 3)));
    SetL "c" (Ix 4) (B2 (FFun2 "fmod") (Ln "a" (Ix 4)) (Ln "b" (Ix 4)));
    SetL "c" (Ix 5) (B2 (FFun2 "fmod") (Ln "a" (Ix 5)) (Ln "b" (Ix 5)));
    SetL "c" (Ix 6) (B2 (FFun2 "fmod") (Ln "a" (Ix 6)) (Ln "b" (Ix 6)));
    SetL "c" (Ix 7) (B2 (FFun2 "fmod") (Ln "a" (Ix 7)) (Ln "b" (Ix 7)))]
   ["c"];
  (* v8/v8_avx.h:1449-1449 *)
  fnc "log" 1449 [("a", 8)]
   [SetL "b" (Ix 0) (U1 (FFun "log") (Ln "a" (Ix 0)));
    SetL "b" (Ix 1) (U1 (FFun "log") (Ln "a" (Ix 1)));
    SetL "b" (Ix 2) (U1 (FFun "log") (Ln "a" (Ix 2)));
    SetL "b" (Ix 3) (U1 (FFun "log") (Ln "a" (Ix 3)));
    SetL "b" (Ix 4) (U1 (FFun "log") (Ln "a" (Ix 4)));
    SetL "b" (Ix 5) (U1 (FFun "log") (Ln "a" (Ix 5)));
    SetL "b" (Ix 6) (U1 (FFun "log") (Ln "a" (Ix 6)));
    SetL "b" (Ix 7) (U1 (FFun "log") (Ln "a" (Ix 7)))]
   ["b"];
  (* v8/v8_avx.h:1450-1450 *)
  fnc "log10" 1450 [("a", 8)]
   [SetL "b" (Ix 0) (U1 (FFun "log10") (Ln "a" (Ix 0)));
    SetL "b" (Ix 1) (U1 (FFun "log10") (Ln "a" (Ix 1)));
    SetL "b" (Ix 2) (U1 (FFun "log10") (Ln "a" (Ix 2)));
    SetL "b" (Ix 3) (U1 (FFun "log10") (Ln "a" (Ix 3)));
    SetL "b" (Ix 4) (U1 (FFun "log10") (Ln "a" (Ix 4)));
    SetL "b" (Ix 5) (U1 (FFun "log10") (Ln "a" (Ix 5)));
    SetL "b" (Ix 6) (U1 (FFun "log10") (Ln "a" (Ix 6)));
    SetL "b" (Ix 7) (U1 (FFun "log10") (Ln "a" (Ix 7)))]
   ["b"];
  (* v8/v8_avx.h:1450-1450 *)
  fnc "pow" 1450 [("a", 8); ("b", 8)]
   [SetL "c" (Ix 0) (B2 (FFun2 "pow") (Ln "a" (Ix 0)) (Ln "b" (Ix 0)));
    SetL "c" (Ix 1) (B2 (FFun2 "pow") (Ln "a" (Ix 1)) (Ln "b" (Ix 1)));
    SetL "c" (Ix 2) (B2 (FFun2 "pow") (Ln "a" (Ix 2)) (Ln "b" (Ix 2)));
    SetL "c" (Ix 3) (B2 (FFun2 "pow") (Ln "a" (Ix 3)) (Ln "b" (Ix 3)));
    SetL "c" (Ix 4) (B2 (FFun2 "pow") (Ln "a" (Ix 4)) (Ln "b" (Ix 4)));
    SetL "c" (Ix 5) (B2 (FFun2 "pow") (Ln "a" (Ix 5)) (Ln "b" (Ix 5)));
    SetL "c" (Ix 6) (B2 (FFun2 "pow") (Ln "a" (Ix 6)) (Ln "b" (Ix 6)));
    SetL "c" (Ix 7) (B2 (FFun2 "pow") (Ln "a" (Ix 7)) (Ln "b" (Ix 7)))]
   ["c"];
  (* v8/v8_avx.h:1450-1450 *)
  fnc "sin" 1450 [("a", 8)]
   [SetL "b" (Ix 0) (U1 (FFun "sin") (Ln "a" (Ix 0)));
    SetL "b" (Ix 1) (U1 (FFun "sin") (Ln "a" (Ix 1)));
    SetL "b" (Ix 2) (U1 (FFun "sin") (Ln "a" (Ix 2)));
    SetL "b" (Ix 3) (U1 (FFun "sin") (Ln "a" (Ix 3)));
    SetL "b" (Ix 4) (U1 (FFun "sin") (Ln "a" (Ix 4)));
    SetL "b" (Ix 5) (U1 (FFun "sin") (Ln "a" (Ix 5)));
    SetL "b" (Ix 6) (U1 (FFun "sin") (Ln "a" (Ix 6)));
    SetL "b" (Ix 7) (U1 (FFun "sin") (Ln "a" (Ix 7)))]
   ["b"];
  (* v8/v8_avx.h:1450-1450 *)
  fnc "sinh" 1450 [("a", 8)]
   [SetL "b" (Ix 0) (U1 (FFun "sinh") (Ln "a" (Ix 0)));
    SetL "b" (Ix 1) (U1 (FFun "sinh") (Ln "a" (Ix 1)));
    SetL "b" (Ix 2) (U1 (FFun "sinh") (Ln "a" (Ix 2)));
    SetL "b" (Ix 3) (U1 (FFun "sinh") (Ln "a" (Ix 3)));
    SetL "b" (Ix 4) (U1 (FFun "sinh") (Ln "a" (Ix 4)));
    SetL "b" (Ix 5) (U1 (FFun "sinh") (Ln "a" (Ix 5)));
    SetL "b" (Ix 6) (U1 (FFun "sinh") (Ln "a" (Ix 6)));
    SetL "b" (Ix 7) (U1 (FFun "sinh") (Ln "a" (Ix 7)))]
   ["b"];
  (* v8/v8_avx.h:1451-1451 *)
  fnc "tan" 1451 [("a", 8)]
   [SetL "b" (Ix 0) (U1 (FFun "tan") (Ln "a" (Ix 0)));
    SetL "b" (Ix 1) (U1 (FFun "tan") (Ln "a" (Ix 1)));
    SetL "b" (Ix 2) (U1 (FFun "tan") (Ln "a" (Ix 2)));
    SetL "b" (Ix 3) (U1 (FFun "tan") (Ln "a" (Ix 3)));
    SetL "b" (Ix 4) (U1 (FFun "tan") (Ln "a" (Ix 4)));
    SetL "b" (Ix 5) (U1 (FFun "tan") (Ln "a" (Ix 5)));
    SetL "b" (Ix 6) (U1 (FFun "tan") (Ln "a" (Ix 6)));
    SetL "b" (Ix 7) (U1 (FFun "tan") (Ln "a" (Ix 7)))]
   ["b"];
  (* v8/v8_avx.h:1451-1451 *)
  fnc "tanh" 1451 [("a", 8)]
   [SetL "b" (Ix 0) (U1 (FFun "tanh") (Ln "a" (Ix 0)));
    SetL "b" (Ix 1) (U1 (FFun "tanh") (Ln "a" (Ix 1)));
    SetL "b" (Ix 2) (U1 (FFun "tanh") (Ln "a" (Ix 2)));
    SetL "b" (Ix 3) (U1 (FFun "tanh") (Ln "a" (Ix 3)));
    SetL "b" (Ix 4) (U1 (FFun "tanh") (Ln "a" (Ix 4)));
    SetL "b" (Ix 5) (U1 (FFun "tanh") (Ln "a" (Ix 5)));
    SetL "b" (Ix 6) (U1 (FFun "tanh") (Ln "a" (Ix 6)));
    SetL "b" (Ix 7) (U1 (FFun "tanh") (Ln "a" (Ix 7)))]
   ["b"];
  (* v8/v8_avx.h:1453-1460 *)
  fnc "fabs" 1453 [("a", 8)]
   [SetV "b" (V2 VAndnot (VSet1 (Cst 2147483648)) (VReg "a"))]
   ["b"];
  (* v8/v8_avx.h:1462-1469 *)
  fnc "sqrt" 1462 [("a", 8)]
   [SetV "b" (V1 FSqrt (VReg "a"))]
   ["b"];
  (* v8/v8_avx.h:1471-1480 *)
  fnc "copysign" 1471 [("a", 8); ("b", 8)]
   [SetV "t" (VSet1 (Cst 2147483648));
    SetV "c" (V2 IOr (V2 IAnd (VReg "t") (VReg "b")) (V2 VAndnot (VReg "t") (VReg "a")))]
   ["c"];
  (* v8/v8_avx.h:1487-1494 *)
  fnc "rsqrt_approx" 1487 [("a", 8)]
   [SetV "b" (V1 FRsqrtE (VReg "a"))]
   ["b"];
  (* v8/v8_avx.h:1514-1530 *)
  fnc "rsqrt" 1514 [("a", 8)]
   [SetV "a_v" (VReg "a");
    SetV "b_v" (V1 FRsqrtE (VReg "a_v"));
    SetV "b" (V2 FAdd (VReg "b_v") (V2 FMul (VSet1 (Cst 1056964608)) (V2 FSub (VReg "b_v") (V2 FMul (VReg "a_v") (V2 FMul (VReg "b_v") (V2 FMul (VReg "b_v") (VReg "b_v")))))))]
   ["b"];
  (* v8/v8_avx.h:1555-1562 *)
  fnc "rcp_approx" 1555 [("a", 8)]
   [SetV "b" (V1 FRcpE (VReg "a"))]
   ["b"];
  (* v8/v8_avx.h:1582-1592 *)
  fnc "rcp" 1582 [("a", 8)]
   [SetV "a_v" (VReg "a");
    SetV "b_v" (V1 FRcpE (VReg "a_v"));
    SetV "b" (V2 FSub (V2 FAdd (VReg "b_v") (VReg "b_v")) (V2 FMul (VReg "a_v") (V2 FMul (VReg "b_v") (VReg "b_v"))))]
   ["b"];
  (* v8/v8_avx.h:1605-1614 *)
  fnc "fma" 1605 [("a", 8); ("b", 8); ("c", 8)]
   [SetV "d" (V2 FAdd (V2 FMul (VReg "a") (VReg "b")) (VReg "c"))]
   ["d"];
  (* v8/v8_avx.h:1616-1625 *)
  fnc "fms" 1616 [("a", 8); ("b", 8); ("c", 8)]
   [SetV "d" (V2 FSub (V2 FMul (VReg "a") (VReg "b")) (VReg "c"))]
   ["d"];
  (* v8/v8_avx.h:1627-1636 *)
  fnc "fnms" 1627 [("a", 8); ("b", 8); ("c", 8)]
   [SetV "d" (V2 FSub (VReg "c") (V2 FMul (VReg "a") (VReg "b")))]
   ["d"];
  (* v8/v8_avx.h:1638-1645 *)
  fnc "clear_bits" 1638 [("m", 8); ("a", 8)]
   [SetV "b" (V2 VAndnot (VReg "m") (VReg "a"))]
   ["b"];
  (* v8/v8_avx.h:1647-1654 *)
  fnc "set_bits" 1647 [("m", 8); ("a", 8)]
   [SetV "b" (V2 IOr (VReg "m") (VReg "a"))]
   ["b"];
  (* v8/v8_avx.h:1656-1663 *)
  fnc "toggle_bits" 1656 [("m", 8); ("a", 8)]
   [SetV "b" (V2 IXor (VReg "m") (VReg "a"))]
   ["b"];
  (* v8/v8_avx.h:1665-1668 *)
  fnc "increment" 1665 [("p", 8); ("a", 8)]
   [SetV "p" (V2 FAdd (VReg "p") (VReg "a"))]
   ["p"];
  (* v8/v8_avx.h:1670-1673 *)
  fnc "decrement" 1670 [("p", 8); ("a", 8)]
   [SetV "p" (V2 FSub (VReg "p") (VReg "a"))]
   ["p"];
  (* v8/v8_avx.h:1675-1678 *)
  fnc "scale" 1675 [("p", 8); ("a", 8)]
   [SetV "p" (V2 FMul (VReg "p") (VReg "a"))]
   ["p"];
  (* v8/v8_avx.h:806-807 *)
  fnc "int from copy" 806 [("a", 8)]
   [SetV "this" (VReg "a")]
   ["this"];
  (* v8/v8_avx.h:808-812 *)
  fnc "int from mixed" 808 [("a", 8)]
   [SetV "this" (VReg "a")]
   ["this"];
  (* v8/v8_avx.h:813-823 *)
  fnc "int from scalar" 813 [("a", 1)]
   [SetL "u" (Ix 0) (Ln "a" (Ix 0));
    SetV "this" (VSet1 (Ln "u" (Ix 0)))]
   ["this"];
  (* v8/v8_avx.h:1224-1225 *)
  fnc "float from copy" 1224 [("a", 8)]
   [SetV "this" (VReg "a")]
   ["this"];
  (* v8/v8_avx.h:1226-1230 *)
  fnc "float from mixed" 1226 [("a", 8)]
   [SetV "this" (VReg "a")]
   ["this"];
  (* v8/v8_avx.h:1231-1235 *)
  fnc "float from scalar" 1231 [("a", 1)]
   [SetV "this" (VSet1 (Ln "a" (Ix 0)))]
   ["this"]].

(* src/util/v8/v8_avx.h:193-197 *)
Definition any_v8_avx : fn :=
  fnc "any" 193 [("a", 8)]
   [SetL "ret" (Ix 0) (B2 ILOr (B2 ILOr (B2 ILOr (B2 ILOr (B2 ILOr (B2 ILOr (B2 ILOr (Ln "a" (Ix 0)) (Ln "a" (Ix 1))) (Ln "a" (Ix 2))) (Ln "a" (Ix 3))) (Ln "a" (Ix 4))) (Ln "a" (Ix 5))) (Ln "a" (Ix 6))) (Ln "a" (Ix 7)))]
   ["ret"].

(* src/util/v8/v8_avx.h:199-203 *)
Definition all_v8_avx : fn :=
  fnc "all" 199 [("a", 8)]
   [SetL "ret" (Ix 0) (B2 ILAnd (B2 ILAnd (B2 ILAnd (B2 ILAnd (B2 ILAnd (B2 ILAnd (B2 ILAnd (Ln "a" (Ix 0)) (Ln "a" (Ix 1))) (Ln "a" (Ix 2))) (Ln "a" (Ix 3))) (Ln "a" (Ix 4))) (Ln "a" (Ix 5))) (Ln "a" (Ix 6))) (Ln "a" (Ix 7)))]
   ["ret"].

(* src/util/v8/v8_avx.h:205-213 *)
Definition splat_v8_avx (n : nat) : fn :=
  fnc "splat" 205 [("a", 8)]
   [SetV "b" (VSet1 (Ln "a" (Ix n)))]
   ["b"].

(* src/util/v8/v8_avx.h:215-230 *)
Definition shuffle_v8_avx (i0 i1 i2 i3 i4 i5 i6 i7 : nat) : fn :=
  fnc "shuffle" 215 [("a", 8)]
   [SetL "b" (Ix 0) (Ln "a" (Ix i0));
    SetL "b" (Ix 1) (Ln "a" (Ix i1));
    SetL "b" (Ix 2) (Ln "a" (Ix i2));
    SetL "b" (Ix 3) (Ln "a" (Ix i3));
    SetL "b" (Ix 4) (Ln "a" (Ix i4));
    SetL "b" (Ix 5) (Ln "a" (Ix i5));
    SetL "b" (Ix 6) (Ln "a" (Ix i6));
    SetL "b" (Ix 7) (Ln "a" (Ix i7))]
   ["b"].

(* src/util/v8/v8_avx.h:824-839 *)
Definition int_from_scalars_v8_avx : fn :=
  fnc "int from scalars" 824 [("i0", 1); ("i1", 1); ("i2", 1); ("i3", 1); ("i4", 1); ("i5", 1); ("i6", 1); ("i7", 1)]
   [SetL "u0" (Ix 0) (Ln "i0" (Ix 0));
    SetL "u1" (Ix 0) (Ln "i1" (Ix 0));
    SetL "u2" (Ix 0) (Ln "i2" (Ix 0));
    SetL "u3" (Ix 0) (Ln "i3" (Ix 0));
    SetL "u4" (Ix 0) (Ln "i4" (Ix 0));
    SetL "u5" (Ix 0) (Ln "i5" (Ix 0));
    SetL "u6" (Ix 0) (Ln "i6" (Ix 0));
    SetL "u7" (Ix 0) (Ln "i7" (Ix 0));
    SetV "this" (VSetr [(Ln "u0" (Ix 0)); (Ln "u1" (Ix 0)); (Ln "u2" (Ix 0)); (Ln "u3" (Ix 0)); (Ln "u4" (Ix 0)); (Ln "u5" (Ix 0)); (Ln "u6" (Ix 0)); (Ln "u7" (Ix 0))])]
   ["this"].

(* src/util/v8/v8_avx.h:1236-1241 *)
Definition float_from_scalars_v8_avx : fn :=
  fnc "float from scalars" 1236 [("f0", 1); ("f1", 1); ("f2", 1); ("f3", 1); ("f4", 1); ("f5", 1); ("f6", 1); ("f7", 1)]
   [SetV "this" (VSetr [(Ln "f0" (Ix 0)); (Ln "f1" (Ix 0)); (Ln "f2" (Ix 0)); (Ln "f3" (Ix 0)); (Ln "f4" (Ix 0)); (Ln "f5" (Ix 0)); (Ln "f6" (Ix 0)); (Ln "f7" (Ix 0))])]
   ["this"].

(* src/util/v8/v8_avx2.h *)
Definition ops_v8_avx2 : list fn := [
  (* v8/v8_avx2.h:1055-1059 *)
  fnc "int =" 1055 [("this", 8); ("b", 8)]
   [SetV "this" (VReg "b")]
   ["this"];
  (* v8/v8_avx2.h:1061-1061 *)
  fnc "int +=" 1061 [("this", 8); ("b", 8)]
   [SetL "this" (Ix 0) (B2 IAdd (Ln "this" (Ix 0)) (Ln "b" (Ix 0)));
    SetL "this" (Ix 1) (B2 IAdd (Ln "this" (Ix 1)) (Ln "b" (Ix 1)));
    SetL "this" (Ix 2) (B2 IAdd (Ln "this" (Ix 2)) (Ln "b" (Ix 2)));
    SetL "this" (Ix 3) (B2 IAdd (Ln "this" (Ix 3)) (Ln "b" (Ix 3)));
    SetL "this" (Ix 4) (B2 IAdd (Ln "this" (Ix 4)) (Ln "b" (Ix 4)));
    SetL "this" (Ix 5) (B2 IAdd (Ln "this" (Ix 5)) (Ln "b" (Ix 5)));
    SetL "this" (Ix 6) (B2 IAdd (Ln "this" (Ix 6)) (Ln "b" (Ix 6)));
    SetL "this" (Ix 7) (B2 IAdd (Ln "this" (Ix 7)) (Ln "b" (Ix 7)))]
   ["this"];
  (* v8/v8_avx2.h:1062-1062 *)
  fnc "int -=" 1062 [("this", 8); ("b", 8)]
   [SetL "this" (Ix 0) (B2 ISub (Ln "this" (Ix 0)) (Ln "b" (Ix 0)));
    SetL "this" (Ix 1) (B2 ISub (Ln "this" (Ix 1)) (Ln "b" (Ix 1)));
    SetL "this" (Ix 2) (B2 ISub (Ln "this" (Ix 2)) (Ln "b" (Ix 2)));
    SetL "this" (Ix 3) (B2 ISub (Ln "this" (Ix 3)) (Ln "b" (Ix 3)));
    SetL "this" (Ix 4) (B2 ISub (Ln "this" (Ix 4)) (Ln "b" (Ix 4)));
    SetL "this" (Ix 5) (B2 ISub (Ln "this" (Ix 5)) (Ln "b" (Ix 5)));
    SetL "this" (Ix 6) (B2 ISub (Ln "this" (Ix 6)) (Ln "b" (Ix 6)));
    SetL "this" (Ix 7) (B2 ISub (Ln "this" (Ix 7)) (Ln "b" (Ix 7)))]
   ["this"];
  (* v8/v8_avx2.h:1063-1063 *)
  fnc "int *=" 1063 [("this", 8); ("b", 8)]
   [SetL "this" (Ix 0) (B2 IMul (Ln "this" (Ix 0)) (Ln "b" (Ix 0)));
    SetL "this" (Ix 1) (B2 IMul (Ln "this" (Ix 1)) (Ln "b" (Ix 1)));
    SetL "this" (Ix 2) (B2 IMul (Ln "this" (Ix 2)) (Ln "b" (Ix 2)));
    SetL "this" (Ix 3) (B2 IMul (Ln "this" (Ix 3)) (Ln "b" (Ix 3)));
    SetL "this" (Ix 4) (B2 IMul (Ln "this" (Ix 4)) (Ln "b" (Ix 4)));
    SetL "this" (Ix 5) (B2 IMul (Ln "this" (Ix 5)) (Ln "b" (Ix 5)));
    SetL "this" (Ix 6) (B2 IMul (Ln "this" (Ix 6)) (Ln "b" (Ix 6)));
    SetL "this" (Ix 7) (B2 IMul (Ln "this" (Ix 7)) (Ln "b" (Ix 7)))]
   ["this"];
  (* v8/v8_avx2.h:1064-1064 *)
  fnc "int /=" 1064 [("this", 8); ("b", 8)]
   [SetL "this" (Ix 0) (B2 IDiv (Ln "this" (Ix 0)) (Ln "b" (Ix 0)));
    SetL "this" (Ix 1) (B2 IDiv (Ln "this" (Ix 1)) (Ln "b" (Ix 1)));
    SetL "this" (Ix 2) (B2 IDiv (Ln "this" (Ix 2)) (Ln "b" (Ix 2)));
    SetL "this" (Ix 3) (B2 IDiv (Ln "this" (Ix 3)) (Ln "b" (Ix 3)));
    SetL "this" (Ix 4) (B2 IDiv (Ln "this" (Ix 4)) (Ln "b" (Ix 4)));
    SetL "this" (Ix 5) (B2 IDiv (Ln "this" (Ix 5)) (Ln "b" (Ix 5)));
    SetL "this" (Ix 6) (B2 IDiv (Ln "this" (Ix 6)) (Ln "b" (Ix 6)));
    SetL "this" (Ix 7) (B2 IDiv (Ln "this" (Ix 7)) (Ln "b" (Ix 7)))]
   ["this"];
  (* v8/v8_avx2.h:1065-1065 *)
  fnc "int %=" 1065 [("this", 8); ("b", 8)]
   [SetL "this" (Ix 0) (B2 IMod (Ln "this" (Ix 0)) (Ln "b" (Ix 0)));
    SetL "this" (Ix 1) (B2 IMod (Ln "this" (Ix 1)) (Ln "b" (Ix 1)));
    SetL "this" (Ix 2) (B2 IMod (Ln "this" (Ix 2)) (Ln "b" (Ix 2)));
    SetL "this" (Ix 3) (B2 IMod (Ln "this" (Ix 3)) (Ln "b" (Ix 3)));
    SetL "this" (Ix 4) (B2 IMod (Ln "this" (Ix 4)) (Ln "b" (Ix 4)));
    SetL "this" (Ix 5) (B2 IMod (Ln "this" (Ix 5)) (Ln "b" (Ix 5)));
    SetL "this" (Ix 6) (B2 IMod (Ln "this" (Ix 6)) (Ln "b" (Ix 6)));
    SetL "this" (Ix 7) (B2 IMod (Ln "this" (Ix 7)) (Ln "b" (Ix 7)))]
   ["this"];
  (* v8/v8_avx2.h:1067-1071 *)
  fnc "int ^=" 1067 [("this", 8); ("b", 8)]
   [SetV "this" (V2 IXor (VReg "this") (VReg "b"))]
   ["this"];
  (* v8/v8_avx2.h:1073-1077 *)
  fnc "int &=" 1073 [("this", 8); ("b", 8)]
   [SetV "this" (V2 IAnd (VReg "this") (VReg "b"))]
   ["this"];
  (* v8/v8_avx2.h:1079-1083 *)
  fnc "int |=" 1079 [("this", 8); ("b", 8)]
   [SetV "this" (V2 IOr (VReg "this") (VReg "b"))]
   ["this"];
  (* v8/v8_avx2.h:1085-1085 *)
  fnc "int <<=" 1085 [("this", 8); ("b", 8)]
   [SetL "this" (Ix 0) (B2 IShl (Ln "this" (Ix 0)) (Ln "b" (Ix 0)));
    SetL "this" (Ix 1) (B2 IShl (Ln "this" (Ix 1)) (Ln "b" (Ix 1)));
    SetL "this" (Ix 2) (B2 IShl (Ln "this" (Ix 2)) (Ln "b" (Ix 2)));
    SetL "this" (Ix 3) (B2 IShl (Ln "this" (Ix 3)) (Ln "b" (Ix 3)));
    SetL "this" (Ix 4) (B2 IShl (Ln "this" (Ix 4)) (Ln "b" (Ix 4)));
    SetL "this" (Ix 5) (B2 IShl (Ln "this" (Ix 5)) (Ln "b" (Ix 5)));
    SetL "this" (Ix 6) (B2 IShl (Ln "this" (Ix 6)) (Ln "b" (Ix 6)));
    SetL "this" (Ix 7) (B2 IShl (Ln "this" (Ix 7)) (Ln "b" (Ix 7)))]
   ["this"];
  (* v8/v8_avx2.h:1086-1086 *)
  fnc "int >>=" 1086 [("this", 8); ("b", 8)]
   [SetL "this" (Ix 0) (B2 IShr (Ln "this" (Ix 0)) (Ln "b" (Ix 0)));
    SetL "this" (Ix 1) (B2 IShr (Ln "this" (Ix 1)) (Ln "b" (Ix 1)));
    SetL "this" (Ix 2) (B2 IShr (Ln "this" (Ix 2)) (Ln "b" (Ix 2)));
    SetL "this" (Ix 3) (B2 IShr (Ln "this" (Ix 3)) (Ln "b" (Ix 3)));
    SetL "this" (Ix 4) (B2 IShr (Ln "this" (Ix 4)) (Ln "b" (Ix 4)));
    SetL "this" (Ix 5) (B2 IShr (Ln "this" (Ix 5)) (Ln "b" (Ix 5)));
    SetL "this" (Ix 6) (B2 IShr (Ln "this" (Ix 6)) (Ln "b" (Ix 6)));
    SetL "this" (Ix 7) (B2 IShr (Ln "this" (Ix 7)) (Ln "b" (Ix 7)))]
   ["this"];
  (* v8/v8_avx2.h:1120-1127 *)
  fnc "int unary+" 1120 [("a", 8)]
   [SetV "b" (VReg "a")]
   ["b"];
  (* v8/v8_avx2.h:1129-1129 *)
  fnc "int unary-" 1129 [("a", 8)]
   [SetL "b" (Ix 0) (U1 INeg (Ln "a" (Ix 0)));
    SetL "b" (Ix 1) (U1 INeg (Ln "a" (Ix 1)));
    SetL "b" (Ix 2) (U1 INeg (Ln "a" (Ix 2)));
    SetL "b" (Ix 3) (U1 INeg (Ln "a" (Ix 3)));
    SetL "b" (Ix 4) (U1 INeg (Ln "a" (Ix 4)));
    SetL "b" (Ix 5) (U1 INeg (Ln "a" (Ix 5)));
    SetL "b" (Ix 6) (U1 INeg (Ln "a" (Ix 6)));
    SetL "b" (Ix 7) (U1 INeg (Ln "a" (Ix 7)))]
   ["b"];
  (* v8/v8_avx2.h:1131-1145 *)
  fnc "int !" 1131 [("a", 8)]
   [SetL "b" (Ix 0) (U1 INeg (U1 ILNot (Ln "a" (Ix 0))));
    SetL "b" (Ix 1) (U1 INeg (U1 ILNot (Ln "a" (Ix 1))));
    SetL "b" (Ix 2) (U1 INeg (U1 ILNot (Ln "a" (Ix 2))));
    SetL "b" (Ix 3) (U1 INeg (U1 ILNot (Ln "a" (Ix 3))));
    SetL "b" (Ix 4) (U1 INeg (U1 ILNot (Ln "a" (Ix 4))));
    SetL "b" (Ix 5) (U1 INeg (U1 ILNot (Ln "a" (Ix 5))));
    SetL "b" (Ix 6) (U1 INeg (U1 ILNot (Ln "a" (Ix 6))));
    SetL "b" (Ix 7) (U1 INeg (U1 ILNot (Ln "a" (Ix 7))))]
   ["b"];
  (* v8/v8_avx2.h:1147-1162 *)
  fnc "int ~" 1147 [("a", 8)]
   [SetL "u" (Ix 0) (Cst 4294967295);
    SetV "b" (V2 IXor (VReg "a") (VSet1 (Ln "u" (Ix 0))))]
   ["b"];
  (* v8/v8_avx2.h:1183-1183 *)
  fnc "int pre++" 1183 [("a", 8)]
   [SetL "a" (Ix 0) (B2 IAdd (Ln "a" (Ix 0)) (Cst 1));
    SetL "b" (Ix 0) (Ln "a" (Ix 0));
    SetL "a" (Ix 1) (B2 IAdd (Ln "a" (Ix 1)) (Cst 1));
    SetL "b" (Ix 1) (Ln "a" (Ix 1));
    SetL "a" (Ix 2) (B2 IAdd (Ln "a" (Ix 2)) (Cst 1));
    SetL "b" (Ix 2) (Ln "a" (Ix 2));
    SetL "a" (Ix 3) (B2 IAdd (Ln "a" (Ix 3)) (Cst 1));
    SetL "b" (Ix 3) (Ln "a" (Ix 3));
    SetL "a" (Ix 4) (B2 IAdd (Ln "a" (Ix 4)) (Cst 1));
    SetL "b" (Ix 4) (Ln "a" (Ix 4));
    SetL "a" (Ix 5) (B2 IAdd (Ln "a" (Ix 5)) (Cst 1));
    SetL "b" (Ix 5) (Ln "a" (Ix 5));
    SetL "a" (Ix 6) (B2 IAdd (Ln "a" (Ix 6)) (Cst 1));
    SetL "b" (Ix 6) (Ln "a" (Ix 6));
    SetL "a" (Ix 7) (B2 IAdd (Ln "a" (Ix 7)) (Cst 1));
    SetL "b" (Ix 7) (Ln "a" (Ix 7))]
   ["b"; "a"];
  (* v8/v8_avx2.h:1184-1184 *)
  fnc "int pre--" 1184 [("a", 8)]
   [SetL "a" (Ix 0) (B2 ISub (Ln "a" (Ix 0)) (Cst 1));
    SetL "b" (Ix 0) (Ln "a" (Ix 0));
    SetL "a" (Ix 1) (B2 ISub (Ln "a" (Ix 1)) (Cst 1));
    SetL "b" (Ix 1) (Ln "a" (Ix 1));
    SetL "a" (Ix 2) (B2 ISub (Ln "a" (Ix 2)) (Cst 1));
    SetL "b" (Ix 2) (Ln "a" (Ix 2));
    SetL "a" (Ix 3) (B2 ISub (Ln "a" (Ix 3)) (Cst 1));
    SetL "b" (Ix 3) (Ln "a" (Ix 3));
    SetL "a" (Ix 4) (B2 ISub (Ln "a" (Ix 4)) (Cst 1));
    SetL "b" (Ix 4) (Ln "a" (Ix 4));
    SetL "a" (Ix 5) (B2 ISub (Ln "a" (Ix 5)) (Cst 1));
    SetL "b" (Ix 5) (Ln "a" (Ix 5));
    SetL "a" (Ix 6) (B2 ISub (Ln "a" (Ix 6)) (Cst 1));
    SetL "b" (Ix 6) (Ln "a" (Ix 6));
    SetL "a" (Ix 7) (B2 ISub (Ln "a" (Ix 7)) (Cst 1));
    SetL "b" (Ix 7) (Ln "a" (Ix 7))]
   ["b"; "a"];
  (* v8/v8_avx2.h:1205-1205 *)
  fnc "int post++" 1205 [("a", 8)]
   [SetL "b" (Ix 0) (Ln "a" (Ix 0));
    SetL "a" (Ix 0) (B2 IAdd (Ln "a" (Ix 0)) (Cst 1));
    SetL "b" (Ix 1) (Ln "a" (Ix 1));
    SetL "a" (Ix 1) (B2 IAdd (Ln "a" (Ix 1)) (Cst 1));
    SetL "b" (Ix 2) (Ln "a" (Ix 2));
    SetL "a" (Ix 2) (B2 IAdd (Ln "a" (Ix 2)) (Cst 1));
    SetL "b" (Ix 3) (Ln "a" (Ix 3));
    SetL "a" (Ix 3) (B2 IAdd (Ln "a" (Ix 3)) (Cst 1));
    SetL "b" (Ix 4) (Ln "a" (Ix 4));
    SetL "a" (Ix 4) (B2 IAdd (Ln "a" (Ix 4)) (Cst 1));
    SetL "b" (Ix 5) (Ln "a" (Ix 5));
    SetL "a" (Ix 5) (B2 IAdd (Ln "a" (Ix 5)) (Cst 1));
    SetL "b" (Ix 6) (Ln "a" (Ix 6));
    SetL "a" (Ix 6) (B2 IAdd (Ln "a" (Ix 6)) (Cst 1));
    SetL "b" (Ix 7) (Ln "a" (Ix 7));
    SetL "a" (Ix 7) (B2 IAdd (Ln "a" (Ix 7)) (Cst 1))]
   ["b"; "a"];
  (* v8/v8_avx2.h:1206-1206 *)
  fnc "int post--" 1206 [("a", 8)]
   [SetL "b" (Ix 0) (Ln "a" (Ix 0));
    SetL "a" (Ix 0) (B2 ISub (Ln "a" (Ix 0)) (Cst 1));
    SetL "b" (Ix 1) (Ln "a" (Ix 1));
    SetL "a" (Ix 1) (B2 ISub (Ln "a" (Ix 1)) (Cst 1));
    SetL "b" (Ix 2) (Ln "a" (Ix 2));
    SetL "a" (Ix 2) (B2 ISub (Ln "a" (Ix 2)) (Cst 1));
    SetL "b" (Ix 3) (Ln "a" (Ix 3));
    SetL "a" (Ix 3) (B2 ISub (Ln "a" (Ix 3)) (Cst 1));
    SetL "b" (Ix 4) (Ln "a" (Ix 4));
    SetL "a" (Ix 4) (B2 ISub (Ln "a" (Ix 4)) (Cst 1));
    SetL "b" (Ix 5) (Ln "a" (Ix 5));
    SetL "a" (Ix 5) (B2 ISub (Ln "a" (Ix 5)) (Cst 1));
    SetL "b" (Ix 6) (Ln "a" (Ix 6));
    SetL "a" (Ix 6) (B2 ISub (Ln "a" (Ix 6)) (Cst 1));
    SetL "b" (Ix 7) (Ln "a" (Ix 7));
    SetL "a" (Ix 7) (B2 ISub (Ln "a" (Ix 7)) (Cst 1))]
   ["b"; "a"];
  (* v8/v8_avx2.h:1227-1227 *)
  fnc "int +" 1227 [("a", 8); ("b", 8)]
   [SetL "c" (Ix 0) (B2 IAdd (Ln "a" (Ix 0)) (Ln "b" (Ix 0)));
    SetL "c" (Ix 1) (B2 IAdd (Ln "a" (Ix 1)) (Ln "b" (Ix 1)));
    SetL "c" (Ix 2) (B2 IAdd (Ln "a" (Ix 2)) (Ln "b" (Ix 2)));
    SetL "c" (Ix 3) (B2 IAdd (Ln "a" (Ix 3)) (Ln "b" (Ix 3)));
    SetL "c" (Ix 4) (B2 IAdd (Ln "a" (Ix 4)) (Ln "b" (Ix 4)));
    SetL "c" (Ix 5) (B2 IAdd (Ln "a" (Ix 5)) (Ln "b" (Ix 5)));
    SetL "c" (Ix 6) (B2 IAdd (Ln "a" (Ix 6)) (Ln "b" (Ix 6)));
    SetL "c" (Ix 7) (B2 IAdd (Ln "a" (Ix 7)) (Ln "b" (Ix 7)))]
   ["c"];
  (* v8/v8_avx2.h:1228-1228 *)
  fnc "int -" 1228 [("a", 8); ("b", 8)]
   [SetL "c" (Ix 0) (B2 ISub (Ln "a" (Ix 0)) (Ln "b" (Ix 0)));
    SetL "c" (Ix 1) (B2 ISub (Ln "a" (Ix 1)) (Ln "b" (Ix 1)));
    SetL "c" (Ix 2) (B2 ISub (Ln "a" (Ix 2)) (Ln "b" (Ix 2)));
    SetL "c" (Ix 3) (B2 ISub (Ln "a" (Ix 3)) (Ln "b" (Ix 3)));
    SetL "c" (Ix 4) (B2 ISub (Ln "a" (Ix 4)) (Ln "b" (Ix 4)));
    SetL "c" (Ix 5) (B2 ISub (Ln "a" (Ix 5)) (Ln "b" (Ix 5)));
    SetL "c" (Ix 6) (B2 ISub (Ln "a" (Ix 6)) (Ln "b" (Ix 6)));
    SetL "c" (Ix 7) (B2 ISub (Ln "a" (Ix 7)) (Ln "b" (Ix 7)))]
   ["c"];
  (* v8/v8_avx2.h:1229-1229 *)
  fnc "int *" 1229 [("a", 8); ("b", 8)]
   [SetL "c" (Ix 0) (B2 IMul (Ln "a" (Ix 0)) (Ln "b" (Ix 0)));
    SetL "c" (Ix 1) (B2 IMul (Ln "a" (Ix 1)) (Ln "b" (Ix 1)));
    SetL "c" (Ix 2) (B2 IMul (Ln "a" (Ix 2)) (Ln "b" (Ix 2)));
    SetL "c" (Ix 3) (B2 IMul (Ln "a" (Ix 3)) (Ln "b" (Ix 3)));
    SetL "c" (Ix 4) (B2 IMul (Ln "a" (Ix 4)) (Ln "b" (Ix 4)));
    SetL "c" (Ix 5) (B2 IMul (Ln "a" (Ix 5)) (Ln "b" (Ix 5)));
    SetL "c" (Ix 6) (B2 IMul (Ln "a" (Ix 6)) (Ln "b" (Ix 6)));
    SetL "c" (Ix 7) (B2 IMul (Ln "a" (Ix 7)) (Ln "b" (Ix 7)))]
   ["c"];
  (* v8/v8_avx2.h:1230-1230 *)
  fnc "int /" 1230 [("a", 8); ("b", 8)]
   [SetL "c" (Ix 0) (B2 IDiv (Ln "a" (Ix 0)) (Ln "b" (Ix 0)));
    SetL "c" (Ix 1) (B2 IDiv (Ln "a" (Ix 1)) (Ln "b" (Ix 1)));
    SetL "c" (Ix 2) (B2 IDiv (Ln "a" (Ix 2)) (Ln "b" (Ix 2)));
    SetL "c" (Ix 3) (B2 IDiv (Ln "a" (Ix 3)) (Ln "b" (Ix 3)));
    SetL "c" (Ix 4) (B2 IDiv (Ln "a" (Ix 4)) (Ln "b" (Ix 4)));
    SetL "c" (Ix 5) (B2 IDiv (Ln "a" (Ix 5)) (Ln "b" (Ix 5)));
    SetL "c" (Ix 6) (B2 IDiv (Ln "a" (Ix 6)) (Ln "b" (Ix 6)));
    SetL "c" (Ix 7) (B2 IDiv (Ln "a" (Ix 7)) (Ln "b" (Ix 7)))]
   ["c"];
  (* v8/v8_avx2.h:1231-1231 *)
  fnc "int %" 1231 [("a", 8); ("b", 8)]
   [SetL "c" (Ix 0) (B2 IMod (Ln "a" (Ix 0)) (Ln "b" (Ix 0)));
    SetL "c" (Ix 1) (B2 IMod (Ln "a" (Ix 1)) (Ln "b" (Ix 1)));
    SetL "c" (Ix 2) (B2 IMod (Ln "a" (Ix 2)) (Ln "b" (Ix 2)));
    SetL "c" (Ix 3) (B2 IMod (Ln "a" (Ix 3)) (Ln "b" (Ix 3)));
    SetL "c" (Ix 4) (B2 IMod (Ln "a" (Ix 4)) (Ln "b" (Ix 4)));
    SetL "c" (Ix 5) (B2 IMod (Ln "a" (Ix 5)) (Ln "b" (Ix 5)));
    SetL "c" (Ix 6) (B2 IMod (Ln "a" (Ix 6)) (Ln "b" (Ix 6)));
    SetL "c" (Ix 7) (B2 IMod (Ln "a" (Ix 7)) (Ln "b" (Ix 7)))]
   ["c"];
  (* v8/v8_avx2.h:1233-1240 *)
  fnc "int ^" 1233 [("a", 8); ("b", 8)]
   [SetV "c" (V2 IXor (VReg "a") (VReg "b"))]
   ["c"];
  (* v8/v8_avx2.h:1242-1249 *)
  fnc "int &" 1242 [("a", 8); ("b", 8)]
   [SetV "c" (V2 IAnd (VReg "a") (VReg "b"))]
   ["c"];
  (* v8/v8_avx2.h:1251-1258 *)
  fnc "int |" 1251 [("a", 8); ("b", 8)]
   [SetV "c" (V2 IOr (VReg "a") (VReg "b"))]
   ["c"];
  (* v8/v8_avx2.h:1260-1260 *)
  fnc "int <<" 1260 [("a", 8); ("b", 8)]
   [SetL "c" (Ix 0) (B2 IShl (Ln "a" (Ix 0)) (Ln "b" (Ix 0)));
    SetL "c" (Ix 1) (B2 IShl (Ln "a" (Ix 1)) (Ln "b" (Ix 1)));
    SetL "c" (Ix 2) (B2 IShl (Ln "a" (Ix 2)) (Ln "b" (Ix 2)));
    SetL "c" (Ix 3) (B2 IShl (Ln "a" (Ix 3)) (Ln "b" (Ix 3)));
    SetL "c" (Ix 4) (B2 IShl (Ln "a" (Ix 4)) (Ln "b" (Ix 4)));
    SetL "c" (Ix 5) (B2 IShl (Ln "a" (Ix 5)) (Ln "b" (Ix 5)));
    SetL "c" (Ix 6) (B2 IShl (Ln "a" (Ix 6)) (Ln "b" (Ix 6)));
    SetL "c" (Ix 7) (B2 IShl (Ln "a" (Ix 7)) (Ln "b" (Ix 7)))]
   ["c"];
  (* v8/v8_avx2.h:1261-1261 *)
  fnc "int >>" 1261 [("a", 8); ("b", 8)]
   [SetL "c" (Ix 0) (B2 IShr (Ln "a" (Ix 0)) (Ln "b" (Ix 0)));
    SetL "c" (Ix 1) (B2 IShr (Ln "a" (Ix 1)) (Ln "b" (Ix 1)));
    SetL "c" (Ix 2) (B2 IShr (Ln "a" (Ix 2)) (Ln "b" (Ix 2)));
    SetL "c" (Ix 3) (B2 IShr (Ln "a" (Ix 3)) (Ln "b" (Ix 3)));
    SetL "c" (Ix 4) (B2 IShr (Ln "a" (Ix 4)) (Ln "b" (Ix 4)));
    SetL "c" (Ix 5) (B2 IShr (Ln "a" (Ix 5)) (Ln "b" (Ix 5)));
    SetL "c" (Ix 6) (B2 IShr (Ln "a" (Ix 6)) (Ln "b" (Ix 6)));
    SetL "c" (Ix 7) (B2 IShr (Ln "a" (Ix 7)) (Ln "b" (Ix 7)))]
   ["c"];
  (* v8/v8_avx2.h:1282-1282 *)
  fnc "int <" 1282 [("a", 8); ("b", 8)]
   [SetL "c" (Ix 0) (U1 INeg (B2 ILt (Ln "a" (Ix 0)) (Ln "b" (Ix 0))));
    SetL "c" (Ix 1) (U1 INeg (B2 ILt (Ln "a" (Ix 1)) (Ln "b" (Ix 1))));
    SetL "c" (Ix 2) (U1 INeg (B2 ILt (Ln "a" (Ix 2)) (Ln "b" (Ix 2))));
    SetL "c" (Ix 3) (U1 INeg (B2 ILt (Ln "a" (Ix 3)) (Ln "b" (Ix 3))));
    SetL "c" (Ix 4) (U1 INeg (B2 ILt (Ln "a" (Ix 4)) (Ln "b" (Ix 4))));
    SetL "c" (Ix 5) (U1 INeg (B2 ILt (Ln "a" (Ix 5)) (Ln "b" (Ix 5))));
    SetL "c" (Ix 6) (U1 INeg (B2 ILt (Ln "a" (Ix 6)) (Ln "b" (Ix 6))));
    SetL "c" (Ix 7) (U1 INeg (B2 ILt (Ln "a" (Ix 7)) (Ln "b" (Ix 7))))]
   ["c"];
  (* v8/v8_avx2.h:1283-1283 *)
  fnc "int >" 1283 [("a", 8); ("b", 8)]
   [SetL "c" (Ix 0) (U1 INeg (B2 IGt (Ln "a" (Ix 0)) (Ln "b" (Ix 0))));
    SetL "c" (Ix 1) (U1 INeg (B2 IGt (Ln "a" (Ix 1)) (Ln "b" (Ix 1))));
    SetL "c" (Ix 2) (U1 INeg (B2 IGt (Ln "a" (Ix 2)) (Ln "b" (Ix 2))));
    SetL "c" (Ix 3) (U1 INeg (B2 IGt (Ln "a" (Ix 3)) (Ln "b" (Ix 3))));
    SetL "c" (Ix 4) (U1 INeg (B2 IGt (Ln "a" (Ix 4)) (Ln "b" (Ix 4))));
    SetL "c" (Ix 5) (U1 INeg (B2 IGt (Ln "a" (Ix 5)) (Ln "b" (Ix 5))));
    SetL "c" (Ix 6) (U1 INeg (B2 IGt (Ln "a" (Ix 6)) (Ln "b" (Ix 6))));
    SetL "c" (Ix 7) (U1 INeg (B2 IGt (Ln "a" (Ix 7)) (Ln "b" (Ix 7))))]
   ["c"];
  (* v8/v8_avx2.h:1284-1284 *)
  fnc "int ==" 1284 [("a", 8); ("b", 8)]
   [SetL "c" (Ix 0) (U1 INeg (B2 IEq (Ln "a" (Ix 0)) (Ln "b" (Ix 0))));
    SetL "c" (Ix 1) (U1 INeg (B2 IEq (Ln "a" (Ix 1)) (Ln "b" (Ix 1))));
    SetL "c" (Ix 2) (U1 INeg (B2 IEq (Ln "a" (Ix 2)) (Ln "b" (Ix 2))));
    SetL "c" (Ix 3) (U1 INeg (B2 IEq (Ln "a" (Ix 3)) (Ln "b" (Ix 3))));
    SetL "c" (Ix 4) (U1 INeg (B2 IEq (Ln "a" (Ix 4)) (Ln "b" (Ix 4))));
    SetL "c" (Ix 5) (U1 INeg (B2 IEq (Ln "a" (Ix 5)) (Ln "b" (Ix 5))));
    SetL "c" (Ix 6) (U1 INeg (B2 IEq (Ln "a" (Ix 6)) (Ln "b" (Ix 6))));
    SetL "c" (Ix 7) (U1 INeg (B2 IEq (Ln "a" (Ix 7)) (Ln "b" (Ix 7))))]
   ["c"];
  (* v8/v8_avx2.h:1285-1285 *)
  fnc "int !=" 1285 [("a", 8); ("b", 8)]
   [SetL "c" (Ix 0) (U1 INeg (B2 INe (Ln "a" (Ix 0)) (Ln "b" (Ix 0))));
    SetL "c" (Ix 1) (U1 INeg (B2 INe (Ln "a" (Ix 1)) (Ln "b" (Ix 1))));
    SetL "c" (Ix 2) (U1 INeg (B2 INe (Ln "a" (Ix 2)) (Ln "b" (Ix 2))));
    SetL "c" (Ix 3) (U1 INeg (B2 INe (Ln "a" (Ix 3)) (Ln "b" (Ix 3))));
    SetL "c" (Ix 4) (U1 INeg (B2 INe (Ln "a" (Ix 4)) (Ln "b" (Ix 4))));
    SetL "c" (Ix 5) (U1 INeg (B2 INe (Ln "a" (Ix 5)) (Ln "b" (Ix 5))));
    SetL "c" (Ix 6) (U1 INeg (B2 INe (Ln "a" (Ix 6)) (Ln "b" (Ix 6))));
    SetL "c" (Ix 7) (U1 INeg (B2 INe (Ln "a" (Ix 7)) (Ln "b" (Ix 7))))]
   ["c"];
  (* v8/v8_avx2.h:1286-1286 *)
  fnc "int <=" 1286 [("a", 8); ("b", 8)]
   [SetL "c" (Ix 0) (U1 INeg (B2 ILe (Ln "a" (Ix 0)) (Ln "b" (Ix 0))));
    SetL "c" (Ix 1) (U1 INeg (B2 ILe (Ln "a" (Ix 1)) (Ln "b" (Ix 1))));
    SetL "c" (Ix 2) (U1 INeg (B2 ILe (Ln "a" (Ix 2)) (Ln "b" (Ix 2))));
    SetL "c" (Ix 3) (U1 INeg (B2 ILe (Ln "a" (Ix 3)) (Ln "b" (Ix 3))));
    SetL "c" (Ix 4) (U1 INeg (B2 ILe (Ln "a" (Ix 4)) (Ln "b" (Ix 4))));
    SetL "c" (Ix 5) (U1 INeg (B2 ILe (Ln "a" (Ix 5)) (Ln "b" (Ix 5))));
    SetL "c" (Ix 6) (U1 INeg (B2 ILe (Ln "a" (Ix 6)) (Ln "b" (Ix 6))));
    SetL "c" (Ix 7) (U1 INeg (B2 ILe (Ln "a" (Ix 7)) (Ln "b" (Ix 7))))]
   ["c"];
  (* v8/v8_avx2.h:1287-1287 *)
  fnc "int >=" 1287 [("a", 8); ("b", 8)]
   [SetL "c" (Ix 0) (U1 INeg (B2 IGe (Ln "a" (Ix 0)) (Ln "b" (Ix 0))));
    SetL "c" (Ix 1) (U1 INeg (B2 IGe (Ln "a" (Ix 1)) (Ln "b" (Ix 1))));
    SetL "c" (Ix 2) (U1 INeg (B2 IGe (Ln "a" (Ix 2)) (Ln "b" (Ix 2))));
    SetL "c" (Ix 3) (U1 INeg (B2 IGe (Ln "a" (Ix 3)) (Ln "b" (Ix 3))));
    SetL "c" (Ix 4) (U1 INeg (B2 IGe (Ln "a" (Ix 4)) (Ln "b" (Ix 4))));
    SetL "c" (Ix 5) (U1 INeg (B2 IGe (Ln "a" (Ix 5)) (Ln "b" (Ix 5))));
    SetL "c" (Ix 6) (U1 INeg (B2 IGe (Ln "a" (Ix 6)) (Ln "b" (Ix 6))));
    SetL "c" (Ix 7) (U1 INeg (B2 IGe (Ln "a" (Ix 7)) (Ln "b" (Ix 7))))]
   ["c"];
  (* v8/v8_avx2.h:1288-1288 *)
  fnc "int &&" 1288 [("a", 8); ("b", 8)]
   [SetL "c" (Ix 0) (U1 INeg (B2 ILAnd (Ln "a" (Ix 0)) (Ln "b" (Ix 0))));
    SetL "c" (Ix 1) (U1 INeg (B2 ILAnd (Ln "a" (Ix 1)) (Ln "b" (Ix 1))));
    SetL "c" (Ix 2) (U1 INeg (B2 ILAnd (Ln "a" (Ix 2)) (Ln "b" (Ix 2))));
    SetL "c" (Ix 3) (U1 INeg (B2 ILAnd (Ln "a" (Ix 3)) (Ln "b" (Ix 3))));
    SetL "c" (Ix 4) (U1 INeg (B2 ILAnd (Ln "a" (Ix 4)) (Ln "b" (Ix 4))));
    SetL "c" (Ix 5) (U1 INeg (B2 ILAnd (Ln "a" (Ix 5)) (Ln "b" (Ix 5))));
    SetL "c" (Ix 6) (U1 INeg (B2 ILAnd (Ln "a" (Ix 6)) (Ln "b" (Ix 6))));
    SetL "c" (Ix 7) (U1 INeg (B2 ILAnd (Ln "a" (Ix 7)) (Ln "b" (Ix 7))))]
   ["c"];
  (* v8/v8_avx2.h:1289-1289 *)
  fnc "int ||" 1289 [("a", 8); ("b", 8)]
   [SetL "c" (Ix 0) (U1 INeg (B2 ILOr (Ln "a" (Ix 0)) (Ln "b" (Ix 0))));
    SetL "c" (Ix 1) (U1 INeg (B2 ILOr (Ln "a" (Ix 1)) (Ln "b" (Ix 1))));
    SetL "c" (Ix 2) (U1 INeg (B2 ILOr (Ln "a" (Ix 2)) (Ln "b" (Ix 2))));
    SetL "c" (Ix 3) (U1 INeg (B2 ILOr (Ln "a" (Ix 3)) (Ln "b" (Ix 3))));
    SetL "c" (Ix 4) (U1 INeg (B2 ILOr (Ln "a" (Ix 4)) (Ln "b" (Ix 4))));
    SetL "c" (Ix 5) (U1 INeg (B2 ILOr (Ln "a" (Ix 5)) (Ln "b" (Ix 5))));
    SetL "c" (Ix 6) (U1 INeg (B2 ILOr (Ln "a" (Ix 6)) (Ln "b" (Ix 6))));
    SetL "c" (Ix 7) (U1 INeg (B2 ILOr (Ln "a" (Ix 7)) (Ln "b" (Ix 7))))]
   ["c"];
  (* v8/v8_avx2.h:1295-1309 *)
  fnc "int abs" 1295 [("a", 8)]
   [SetL "b" (Ix 0) (Cond (B2 IGe (Ln "a" (Ix 0)) (Cst 0)) (Ln "a" (Ix 0)) (U1 INeg (Ln "a" (Ix 0))));
    SetL "b" (Ix 1) (Cond (B2 IGe (Ln "a" (Ix 1)) (Cst 0)) (Ln "a" (Ix 1)) (U1 INeg (Ln "a" (Ix 1))));
    SetL "b" (Ix 2) (Cond (B2 IGe (Ln "a" (Ix 2)) (Cst 0)) (Ln "a" (Ix 2)) (U1 INeg (Ln "a" (Ix 2))));
    SetL "b" (Ix 3) (Cond (B2 IGe (Ln "a" (Ix 3)) (Cst 0)) (Ln "a" (Ix 3)) (U1 INeg (Ln "a" (Ix 3))));
    SetL "b" (Ix 4) (Cond (B2 IGe (Ln "a" (Ix 4)) (Cst 0)) (Ln "a" (Ix 4)) (U1 INeg (Ln "a" (Ix 4))));
    SetL "b" (Ix 5) (Cond (B2 IGe (Ln "a" (Ix 5)) (Cst 0)) (Ln "a" (Ix 5)) (U1 INeg (Ln "a" (Ix 5))));
    SetL "b" (Ix 6) (Cond (B2 IGe (Ln "a" (Ix 6)) (Cst 0)) (Ln "a" (Ix 6)) (U1 INeg (Ln "a" (Ix 6))));
    SetL "b" (Ix 7) (Cond (B2 IGe (Ln "a" (Ix 7)) (Cst 0)) (Ln "a" (Ix 7)) (U1 INeg (Ln "a" (Ix 7))))]
   ["b"];
  (* v8/v8_avx2.h:1311-1318 *)
  fnc "czero" 1311 [("c", 8); ("a", 8)]
   [SetV "b" (V2 VAndnot (VReg "c") (VReg "a"))]
   ["b"];
  (* v8/v8_avx2.h:1320-1327 *)
  fnc "notczero" 1320 [("c", 8); ("a", 8)]
   [SetV "b" (V2 IAnd (VReg "c") (VReg "a"))]
   ["b"];
  (* v8/v8_avx2.h:1329-1339 *)
  fnc "merge" 1329 [("c", 8); ("t", 8); ("f", 8)]
   [SetV "c_v" (VReg "c");
    SetV "tf" (V2 IOr (V2 VAndnot (VReg "c_v") (VReg "f")) (V2 IAnd (VReg "c_v") (VReg "t")))]
   ["tf"];
  (* v8/v8_avx2.h:1450-1454 *)
  fnc "float =" 1450 [("this", 8); ("b", 8)]
   [SetV "this" (VReg "b")]
   ["this"];
  (* v8/v8_avx2.h:1456-1456 *)
  fnc "float +=" 1456 [("this", 8); ("b", 8)]
   [SetV "this" (V2 FAdd (VReg "this") (VReg "b"))]
   ["this"];
  (* v8/v8_avx2.h:1457-1457 *)
  fnc "float -=" 1457 [("this", 8); ("b", 8)]
   [SetV "this" (V2 FSub (VReg "this") (VReg "b"))]
   ["this"];
  (* v8/v8_avx2.h:1458-1458 *)
  fnc "float *=" 1458 [("this", 8); ("b", 8)]
   [SetV "this" (V2 FMul (VReg "this") (VReg "b"))]
   ["this"];
  (* v8/v8_avx2.h:1459-1459 *)
  fnc "float /=" 1459 [("this", 8); ("b", 8)]
   [SetV "this" (V2 FDiv (VReg "this") (VReg "b"))]
   ["this"];
  (* v8/v8_avx2.h:1478-1485 *)
  fnc "float unary+" 1478 [("a", 8)]
   [SetV "b" (VReg "a")]
   ["b"];
  (* v8/v8_avx2.h:1487-1494 *)
  fnc "float unary-" 1487 [("a", 8)]
   [SetV "b" (V2 FSub (VSet1 (Cst 0)) (VReg "a"))]
   ["b"];
  (* v8/v8_avx2.h:1496-1503 *)
  fnc "float !" 1496 [("a", 8)]
   [SetV "b" (V2 (VCmp CEq) (VSet1 (Cst 0)) (VReg "a"))]
   ["b"];
  (* v8/v8_avx2.h:1507-1516 *)
  fnc "float pre++" 1507 [("a", 8)]
   [SetV "t" (V2 FAdd (VReg "a") (VSet1 (Cst 1065353216)));
    SetV "a" (VReg "t");
    SetV "b" (VReg "t")]
   ["b"; "a"];
  (* v8/v8_avx2.h:1518-1527 *)
  fnc "float pre--" 1518 [("a", 8)]
   [SetV "t" (V2 FSub (VReg "a") (VSet1 (Cst 1065353216)));
    SetV "a" (VReg "t");
    SetV "b" (VReg "t")]
   ["b"; "a"];
  (* v8/v8_avx2.h:1531-1540 *)
  fnc "float post++" 1531 [("a", 8)]
   [SetV "a_v" (VReg "a");
    SetV "a" (V2 FAdd (VReg "a_v") (VSet1 (Cst 1065353216)));
    SetV "b" (VReg "a_v")]
   ["b"; "a"];
  (* v8/v8_avx2.h:1542-1551 *)
  fnc "float post--" 1542 [("a", 8)]
   [SetV "a_v" (VReg "a");
    SetV "a" (V2 FSub (VReg "a_v") (VSet1 (Cst 1065353216)));
    SetV "b" (VReg "a_v")]
   ["b"; "a"];
  (* v8/v8_avx2.h:1563-1563 *)
  fnc "float +" 1563 [("a", 8); ("b", 8)]
   [SetV "c" (V2 FAdd (VReg "a") (VReg "b"))]
   ["c"];
  (* v8/v8_avx2.h:1564-1564 *)
  fnc "float -" 1564 [("a", 8); ("b", 8)]
   [SetV "c" (V2 FSub (VReg "a") (VReg "b"))]
   ["c"];
  (* v8/v8_avx2.h:1565-1565 *)
  fnc "float *" 1565 [("a", 8); ("b", 8)]
   [SetV "c" (V2 FMul (VReg "a") (VReg "b"))]
   ["c"];
  (* v8/v8_avx2.h:1566-1566 *)
  fnc "float /" 1566 [("a", 8); ("b", 8)]
   [SetV "c" (V2 FDiv (VReg "a") (VReg "b"))]
   ["c"];
  (* v8/v8_avx2.h:1580-1580 *)
  fnc "float <" 1580 [("a", 8); ("b", 8)]
   [SetV "c" (V2 (VCmp CLt) (VReg "a") (VReg "b"))]
   ["c"];
  (* v8/v8_avx2.h:1581-1581 *)
  fnc "float >" 1581 [("a", 8); ("b", 8)]
   [SetV "c" (V2 (VCmp CGt) (VReg "a") (VReg "b"))]
   ["c"];
  (* v8/v8_avx2.h:1582-1582 *)
  fnc "float ==" 1582 [("a", 8); ("b", 8)]
   [SetV "c" (V2 (VCmp CEq) (VReg "a") (VReg "b"))]
   ["c"];
  (* v8/v8_avx2.h:1583-1583 *)
  fnc "float !=" 1583 [("a", 8); ("b", 8)]
   [SetV "c" (V2 VCmpNeqOrd (VReg "a") (VReg "b"))]
   ["c"];
  (* v8/v8_avx2.h:1584-1584 *)
  fnc "float <=" 1584 [("a", 8); ("b", 8)]
   [SetV "c" (V2 (VCmp CLe) (VReg "a") (VReg "b"))]
   ["c"];
  (* v8/v8_avx2.h:1585-1585 *)
  fnc "float >=" 1585 [("a", 8); ("b", 8)]
   [SetV "c" (V2 (VCmp CGe) (VReg "a") (VReg "b"))]
   ["c"];
  (* v8/v8_avx2.h:1587-1596 *)
  fnc "float &&" 1587 [("a", 8); ("b", 8)]
   [SetV "vzero" (VSet1 (Cst 0));
    SetV "c" (V2 IAnd (V2 VCmpNeqOrd (VReg "a") (VReg "vzero")) (V2 VCmpNeqOrd (VReg "b") (VReg "vzero")))]
   ["c"];
  (* v8/v8_avx2.h:1598-1607 *)
  fnc "float ||" 1598 [("a", 8); ("b", 8)]
   [SetV "vzero" (VSet1 (Cst 0));
    SetV "c" (V2 IOr (V2 VCmpNeqOrd (VReg "a") (VReg "vzero")) (V2 VCmpNeqOrd (VReg "b") (VReg "vzero")))]
   ["c"];
  (* v8/v8_avx2.h:1643-1643 *)
  fnc "acos" 1643 [("a", 8)]
   [SetL "b" (Ix 0) (U1 (FFun "acos") (Ln "a" (Ix 0)));
    SetL "b" (Ix 1) (U1 (FFun "acos") (Ln "a" (Ix 1)));
    SetL "b" (Ix 2) (U1 (FFun "acos") (Ln "a" (Ix 2)));
    SetL "b" (Ix 3) (U1 (FFun "acos") (Ln "a" (Ix 3)));
    SetL "b" (Ix 4) (U1 (FFun "acos") (Ln "a" (Ix 4)));
    SetL "b" (Ix 5) (U1 (FFun "acos") (Ln "a" (Ix 5)));
    SetL "b" (Ix 6) (U1 (FFun "acos") (Ln "a" (Ix 6)));
    SetL "b" (Ix 7) (U1 (FFun "acos") (Ln "a" (Ix 7)))]
   ["b"];
  (* v8/v8_avx2.h:1643-1643 *)
  fnc "asin" 1643 [("a", 8)]
   [SetL "b" (Ix 0) (U1 (FFun "asin") (Ln "a" (Ix 0)));
    SetL "b" (Ix 1) (U1 (FFun "asin") (Ln "a" (Ix 1)));
    SetL "b" (Ix 2) (U1 (FFun "asin") (Ln "a" (Ix 2)));
    SetL "b" (Ix 3) (U1 (FFun "asin") (Ln "a" (Ix 3)));
    SetL "b" (Ix 4) (U1 (FFun "asin") (Ln "a" (Ix 4)));
    SetL "b" (Ix 5) (U1 (FFun "asin") (Ln "a" (Ix 5)));
    SetL "b" (Ix 6) (U1 (FFun "asin") (Ln "a" (Ix 6)));
    SetL "b" (Ix 7) (U1 (FFun "asin") (Ln "a" (Ix 7)))]
   ["b"];
  (* v8/v8_avx2.h:1643-1643 *)
  fnc "atan" 1643 [("a", 8)]
   [SetL "b" (Ix 0) (U1 (FFun "atan") (Ln "a" (Ix 0)));
    SetL "b" (Ix 1) (U1 (FFun "atan") (Ln "a" (Ix 1)));
    SetL "b" (Ix 2) (U1 (FFun "atan") (Ln "a" (Ix 2)));
    SetL "b" (Ix 3) (U1 (FFun "atan") (Ln "a" (Ix 3)));
    SetL "b" (Ix 4) (U1 (FFun "atan") (Ln "a" (Ix 4)));
    SetL "b" (Ix 5) (U1 (FFun "atan") (Ln "a" (Ix 5)));
    SetL "b" (Ix 6) (U1 (FFun "atan") (Ln "a" (Ix 6)));
    SetL "b" (Ix 7) (U1 (FFun "atan") (Ln "a" (Ix 7)))]
   ["b"];
  (* v8/v8_avx2.h:1643-1643 *)
  fnc "atan2" 1643 [("a", 8); ("b", 8)]
   [SetL "c" (Ix 0) (B2 (FFun2 "atan2") (Ln "a" (Ix 0)) (Ln "b" (Ix 0)));
    SetL "c" (Ix 1) (B2 (FFun2 "atan2") (Ln "a" (Ix 1)) (Ln "b" (Ix 1)));
    SetL "c" (Ix 2) (B2 (FFun2 "atan2") (Ln "a" (Ix 2)) (Ln "b" (Ix 2)));
    SetL "c" (Ix 3) (B2 (FFun2 "atan2") (Ln "a" (Ix 3)) (Ln "b" (Ix 3)));
    SetL "c" (Ix 4) (B2 (FFun2 "atan2") (Ln "a" (Ix 4)) (Ln "b" (Ix 4)));
    SetL "c" (Ix 5) (B2 (FFun2 "atan2") (Ln "a" (Ix 5)) (Ln "b" (Ix 5)));
    SetL "c" (Ix 6) (B2 (FFun2 "atan2") (Ln "a" (Ix 6)) (Ln "b" (Ix 6)));
    SetL "c" (Ix 7) (B2 (FFun2 "atan2") (Ln "a" (Ix 7)) (Ln "b" (Ix 7)))]
   ["c"];
  (* v8/v8_avx2.h:1644-1644 *)
  fnc "ceil" 1644 [("a", 8)]
   [SetL "b" (Ix 0) (U1 (FFun "ceil") (Ln "a" (Ix 0)));
    SetL "b" (Ix 1) (U1 (FFun "ceil") (Ln "a" (Ix 1)));
    SetL "b" (Ix 2) (U1 (FFun "ceil") (Ln "a" (Ix 2)));
    SetL "b" (Ix 3) (U1 (FFun "ceil") (Ln "a" (Ix 3)));
    SetL "b" (Ix 4) (U1 (FFun "ceil") (Ln "a" (Ix 4)));
    SetL "b" (Ix 5) (U1 (FFun "ceil") (Ln "a" (Ix 5)));
    SetL "b" (Ix 6) (U1 (FFun "ceil") (Ln "a" (Ix 6)));
    SetL "b" (Ix 7) (U1 (FFun "ceil") (Ln "a" (Ix 7)))]
   ["b"];
  (* v8/v8_avx2.h:1644-1644 *)
  fnc "cos" 1644 [("a", 8)]
   [SetL "b" (Ix 0) (U1 (FFun "cos") (Ln "a" (Ix 0)));
    SetL "b" (Ix 1) (U1 (FFun "cos") (Ln "a" (Ix 1)));
    SetL "b" (Ix 2) (U1 (FFun "cos") (Ln "a" (Ix 2)));
    SetL "b" (Ix 3) (U1 (FFun "cos") (Ln "a" (Ix 3)));
    SetL "b" (Ix 4) (U1 (FFun "cos") (Ln "a" (Ix 4)));
    SetL "b" (Ix 5) (U1 (FFun "cos") (Ln "a" (Ix 5)));
    SetL "b" (Ix 6) (U1 (FFun "cos") (Ln "a" (Ix 6)));
    SetL "b" (Ix 7) (U1 (FFun "cos") (Ln "a" (Ix 7)))]
   ["b"];
  (* v8/v8_avx2.h:1644-1644 *)
  fnc "cosh" 1644 [("a", 8)]
   [SetL "b" (Ix 0) (U1 (FFun "cosh") (Ln "a" (Ix 0)));
    SetL "b" (Ix 1) (U1 (FFun "cosh") (Ln "a" (Ix 1)));
    SetL "b" (Ix 2) (U1 (FFun "cosh") (Ln "a" (Ix 2)));
    SetL "b" (Ix 3) (U1 (FFun "cosh") (Ln "a" (Ix 3)));
    SetL "b" (Ix 4) (U1 (FFun "cosh") (Ln "a" (Ix 4)));
    SetL "b" (Ix 5) (U1 (FFun "cosh") (Ln "a" (Ix 5)));
    SetL "b" (Ix 6) (U1 (FFun "cosh") (Ln "a" (Ix 6)));
    SetL "b" (Ix 7) (U1 (FFun "cosh") (Ln "a" (Ix 7)))]
   ["b"];
  (* v8/v8_avx2.h:1644-1644 *)
  fnc "exp" 1644 [("a", 8)]
   [SetL "b" (Ix 0) (U1 (FFun "exp") (Ln "a" (Ix 0)));
    SetL "b" (Ix 1) (U1 (FFun "exp") (Ln "a" (Ix 1)));
    SetL "b" (Ix 2) (U1 (FFun "exp") (Ln "a" (Ix 2)));
    SetL "b" (Ix 3) (U1 (FFun "exp") (Ln "a" (Ix 3)));
    SetL "b" (Ix 4) (U1 (FFun "exp") (Ln "a" (Ix 4)));
    SetL "b" (Ix 5) (U1 (FFun "exp") (Ln "a" (Ix 5)));
    SetL "b" (Ix 6) (U1 (FFun "exp") (Ln "a" (Ix 6)));
    SetL "b" (Ix 7) (U1 (FFun "exp") (Ln "a" (Ix 7)))]
   ["b"];
  (* v8/v8_avx2.h:1645-1645 *)
  fnc "floor" 1645 [("a", 8)]
   [SetL "b" (Ix 0) (U1 (FFun "floor") (Ln "a" (Ix 0)));
    SetL "b" (Ix 1) (U1 (FFun "floor") (Ln "a" (Ix 1)));
    SetL "b" (Ix 2) (U1 (FFun "floor") (Ln "a" (Ix 2)));
    SetL "b" (Ix 3) (U1 (FFun "floor") (Ln "a" (Ix 3)));
    SetL "b" (Ix 4) (U1 (FFun "floor") (Ln "a" (Ix 4)));
    SetL "b" (Ix 5) (U1 (FFun "floor") (Ln "a" (Ix 5)));
    SetL "b" (Ix 6) (U1 (FFun "floor") (Ln "a" (Ix 6)));
    SetL "b" (Ix 7) (U1 (FFun "floor") (Ln "a" (Ix 7)))]
   ["b"];
  (* v8/v8_avx2.h:1645-1645 *)
  fnc "fmod" 1645 [("a", 8); ("b", 8)]
   [SetL "c" (Ix 0) (B2 (FFun2 "fmod") (Ln "a" (Ix 0)) (Ln "b" (Ix 0)));
    SetL "c" (Ix 1) (B2 (FFun2 "fmod") (Ln "a" (Ix 1)) (Ln "b" (Ix 1)));
    SetL "c" (Ix 2) (B2 (FFun2 "fmod") (Ln "a" (Ix 2)) (Ln "b" (Ix 2)));
    SetL "c" (Ix 3) (B2 (FFun2 "fmod") (Ln "a" (Ix 3)) (Ln "b" (Ix 3)));
    SetL "c" (Ix 4) (B2 (FFun2 "fmod") (Ln "a" (Ix 4)) (Ln "b" (Ix 4)));
    SetL "c" (Ix 5) (B2 (FFun2 "fmod") (Ln "a" (Ix 5)) (Ln "b" (Ix 5)));
    SetL "c" (Ix 6) (B2 (FFun2 "fmod") (Ln "a" (Ix 6)) (Ln "b" (Ix 6)));
    SetL "c" (Ix 7) (B2 (FFun2 "fmod") (Ln "a" (Ix 7)) (Ln "b" (Ix 7)))]
   ["c"];
  (* v8/v8_avx2.h:1645-1645 *)
  fnc "log" 1645 [("a", 8)]
   [SetL "b" (Ix 0) (U1 (FFun "log") (Ln "a" (Ix 0)));
    SetL "b" (Ix 1) (U1 (FFun "log") (Ln "a" (Ix 1)));
    SetL "b" (Ix 2) (U1 (FFun "log") (Ln "a" (Ix 2)));
    SetL "b" (Ix 3) (U1 (FFun "log") (Ln "a" (Ix 3)));
    SetL "b" (Ix 4) (U1 (FFun "log") (Ln "a" (Ix 4)));
    SetL "b" (Ix 5) (U1 (FFun "log") (Ln "a" (Ix 5)));
    SetL "b" (Ix 6) (U1 (FFun "log") (Ln "a" (Ix 6)));
    SetL "b" (Ix 7) (U1 (FFun "log") (Ln "a" (Ix 7)))]
   ["b"];
  (* v8/v8_avx2.h:1646-1646 *)
  fnc "log10" 1646 [("a", 8)]
   [SetL "b" (Ix 0) (U1 (FFun "log10") (Ln "a" (Ix 0)));
    SetL "b" (Ix 1) (U1 (FFun "log10") (Ln "a" (Ix 1)));
    SetL "b" (Ix 2) (U1 (FFun "log10") (Ln "a" (Ix 2)));
    SetL "b" (Ix 3) (U1 (FFun "log10") (Ln "a" (Ix 3)));
    SetL "b" (Ix 4) (U1 (FFun "log10") (Ln "a" (Ix 4)));
    SetL "b" (Ix 5) (U1 (FFun "log10") (Ln "a" (Ix 5)));
    SetL "b" (Ix 6) (U1 (FFun "log10") (Ln "a" (Ix 6)));
    SetL "b" (Ix 7) (U1 (FFun "log10") (Ln "a" (Ix 7)))]
   ["b"];
  (* v8/v8_avx2.h:1646-1646 *)
  fnc "pow" 1646 [("a", 8); ("b", 8)]
   [SetL "c" (Ix 0) (B2 (FFun2 "pow") (Ln "a" (Ix 0)) (Ln "b" (Ix 0)));
    SetL "c" (Ix 1) (B2 (FFun2 "pow") (Ln "a" (Ix 1)) (Ln "b" (Ix 1)));
    SetL "c" (Ix 2) (B2 (FFun2 "pow") (Ln "a" (Ix 2)) (Ln "b" (Ix 2)));
    SetL "c" (Ix 3) (B2 (FFun2 "pow") (Ln "a" (Ix 3)) (Ln "b" (Ix 3)));
    SetL "c" (Ix 4) (B2 (FFun2 "pow") (Ln "a" (Ix 4)) (Ln "b" (Ix 4)));
    SetL "c" (Ix 5) (B2 (FFun2 "pow") (Ln "a" (Ix 5)) (Ln "b" (Ix 5)));
    SetL "c" (Ix 6) (B2 (FFun2 "pow") (Ln "a" (Ix 6)) (Ln "b" (Ix 6)));
    SetL "c" (Ix 7) (B2 (FFun2 "pow") (Ln "a" (Ix 7)) (Ln "b" (Ix 7)))]
   ["c"];
  (* v8/v8_avx2.h:1646-1646 *)
  fnc "sin" 1646 [("a", 8)]
   [SetL "b" (Ix 0) (U1 (FFun "sin") (Ln "a" (Ix 0)));
    SetL "b" (Ix 1) (U1 (FFun "sin") (Ln "a" (Ix 1)));
    SetL "b" (Ix 2) (U1 (FFun "sin") (Ln "a" (Ix 2)));
    SetL "b" (Ix 3) (U1 (FFun "sin") (Ln "a" (Ix 3)));
    SetL "b" (Ix 4) (U1 (FFun "sin") (Ln "a" (Ix 4)));
    SetL "b" (Ix 5) (U1 (FFun "sin") (Ln "a" (Ix 5)));
    SetL "b" (Ix 6) (U1 (FFun "sin") (Ln "a" (Ix 6)));
    SetL "b" (Ix 7) (U1 (FFun "sin") (Ln "a" (Ix 7)))]
   ["b"];
  (* v8/v8_avx2.h:1646-1646 *)
  fnc "sinh" 1646 [("a", 8)]
   [SetL "b" (Ix 0) (U1 (FFun "sinh") (Ln "a" (Ix 0)));
    SetL "b" (Ix 1) (U1 (FFun "sinh") (Ln "a" (Ix 1)));
    SetL "b" (Ix 2) (U1 (FFun "sinh") (Ln "a" (Ix 2)));
    SetL "b" (Ix 3) (U1 (FFun "sinh") (Ln "a" (Ix 3)));
    SetL "b" (Ix 4) (U1 (FFun "sinh") (Ln "a" (Ix 4)));
    SetL "b" (Ix 5) (U1 (FFun "sinh") (Ln "a" (Ix 5)));
    SetL "b" (Ix 6) (U1 (FFun "sinh") (Ln "a" (Ix 6)));
    SetL "b" (Ix 7) (U1 (FFun "sinh") (Ln "a" (Ix 7)))]
   ["b"];
  (* v8/v8_avx2.h:1647-1647 *)
  fnc "tan" 1647 [("a", 8)]
   [SetL "b" (Ix 0) (U1 (FFun "tan") (Ln "a" (Ix 0)));
    SetL "b" (Ix 1) (U1 (FFun "tan") (Ln "a" (Ix 1)));
    SetL "b" (Ix 2) (U1 (FFun "tan") (Ln "a" (Ix 2)));
    SetL "b" (Ix 3) (U1 (FFun "tan") (Ln "a" (Ix 3)));
    SetL "b" (Ix 4) (U1 (FFun "tan") (Ln "a" (Ix 4)));
    SetL "b" (Ix 5) (U1 (FFun "tan") (Ln "a" (Ix 5)));
    SetL "b" (Ix 6) (U1 (FFun "tan") (Ln "a" (Ix 6)));
    SetL "b" (Ix 7) (U1 (FFun "tan") (Ln "a" (Ix 7)))]
   ["b"];
  (* v8/v8_avx2.h:1647-1647 *)
  fnc "tanh" 1647 [("a", 8)]
   [SetL "b" (Ix 0) (U1 (FFun "tanh") (Ln "a" (Ix 0)));
    SetL "b" (Ix 1) (U1 (FFun "tanh") (Ln "a" (Ix 1)));
    SetL "b" (Ix 2) (U1 (FFun "tanh") (Ln "a" (Ix 2)));
    SetL "b" (Ix 3) (U1 (FFun "tanh") (Ln "a" (Ix 3)));
    SetL "b" (Ix 4) (U1 (FFun "tanh") (Ln "a" (Ix 4)));
    SetL "b" (Ix 5) (U1 (FFun "tanh") (Ln "a" (Ix 5)));
    SetL "b" (Ix 6) (U1 (FFun "tanh") (Ln "a" (Ix 6)));
    SetL "b" (Ix 7) (U1 (FFun "tanh") (Ln "a" (Ix 7)))]
   ["b"];
  (* v8/v8_avx2.h:1649-1656 *)
  fnc "fabs" 1649 [("a", 8)]
   [SetV "b" (V2 VAndnot (VSet1 (Cst 2147483648)) (VReg "a"))]
   ["b"];
  (* v8/v8_avx2.h:1658-1665 *)
  fnc "sqrt" 1658 [("a", 8)]
   [SetV "b" (V1 FSqrt (VReg "a"))]
   ["b"];
  (* v8/v8_avx2.h:1667-1676 *)
  fnc "copysign" 1667 [("a", 8); ("b", 8)]
   [SetV "t" (VSet1 (Cst 2147483648));
    SetV "c" (V2 IOr (V2 IAnd (VReg "t") (VReg "b")) (V2 VAndnot (VReg "t") (VReg "a")))]
   ["c"];
  (* v8/v8_avx2.h:1683-1690 *)
  fnc "rsqrt_approx" 1683 [("a", 8)]
   [SetV "b" (V1 FRsqrtE (VReg "a"))]
   ["b"];
  (* v8/v8_avx2.h:1710-1726 *)
  fnc "rsqrt" 1710 [("a", 8)]
   [SetV "a_v" (VReg "a");
    SetV "b_v" (V1 FRsqrtE (VReg "a_v"));
    SetV "b" (V2 FAdd (VReg "b_v") (V2 FMul (VSet1 (Cst 1056964608)) (V2 FSub (VReg "b_v") (V2 FMul (VReg "a_v") (V2 FMul (VReg "b_v") (V2 FMul (VReg "b_v") (VReg "b_v")))))))]
   ["b"];
  (* v8/v8_avx2.h:1751-1758 *)
  fnc "rcp_approx" 1751 [("a", 8)]
   [SetV "b" (V1 FRcpE (VReg "a"))]
   ["b"];
  (* v8/v8_avx2.h:1778-1788 *)
  fnc "rcp" 1778 [("a", 8)]
   [SetV "a_v" (VReg "a");
    SetV "b_v" (V1 FRcpE (VReg "a_v"));
    SetV "b" (V2 FSub (V2 FAdd (VReg "b_v") (VReg "b_v")) (V2 FMul (VReg "a_v") (V2 FMul (VReg "b_v") (VReg "b_v"))))]
   ["b"];
  (* v8/v8_avx2.h:1801-1808 *)
  fnc "fma" 1801 [("a", 8); ("b", 8); ("c", 8)]
   [SetV "d" (V3 Fmadd (VReg "a") (VReg "b") (VReg "c"))]
   ["d"];
  (* v8/v8_avx2.h:1810-1817 *)
  fnc "fms" 1810 [("a", 8); ("b", 8); ("c", 8)]
   [SetV "d" (V3 Fmsub (VReg "a") (VReg "b") (VReg "c"))]
   ["d"];
  (* v8/v8_avx2.h:1819-1826 *)
  fnc "fnms" 1819 [("a", 8); ("b", 8); ("c", 8)]
   [SetV "d" (V3 Fnmadd (VReg "a") (VReg "b") (VReg "c"))]
   ["d"];
  (* v8/v8_avx2.h:1828-1835 *)
  fnc "clear_bits" 1828 [("m", 8); ("a", 8)]
   [SetV "b" (V2 VAndnot (VReg "m") (VReg "a"))]
   ["b"];
  (* v8/v8_avx2.h:1837-1844 *)
  fnc "set_bits" 1837 [("m", 8); ("a", 8)]
   [SetV "b" (V2 IOr (VReg "m") (VReg "a"))]
   ["b"];
  (* v8/v8_avx2.h:1846-1853 *)
  fnc "toggle_bits" 1846 [("m", 8); ("a", 8)]
   [SetV "b" (V2 IXor (VReg "m") (VReg "a"))]
   ["b"];
  (* v8/v8_avx2.h:1855-1858 *)
  fnc "increment" 1855 [("p", 8); ("a", 8)]
   [SetV "p" (V2 FAdd (VReg "p") (VReg "a"))]
   ["p"];
  (* v8/v8_avx2.h:1860-1863 *)
  fnc "decrement" 1860 [("p", 8); ("a", 8)]
   [SetV "p" (V2 FSub (VReg "p") (VReg "a"))]
   ["p"];
  (* v8/v8_avx2.h:1865-1868 *)
  fnc "scale" 1865 [("p", 8); ("a", 8)]
   [SetV "p" (V2 FMul (VReg "p") (VReg "a"))]
   ["p"];
  (* v8/v8_avx2.h:1002-1003 *)
  fnc "int from copy" 1002 [("a", 8)]
   [SetV "this" (VReg "a")]
   ["this"];
  (* v8/v8_avx2.h:1004-1008 *)
  fnc "int from mixed" 1004 [("a", 8)]
   [SetV "this" (VReg "a")]
   ["this"];
  (* v8/v8_avx2.h:1009-1019 *)
  fnc "int from scalar" 1009 [("a", 1)]
   [SetL "u" (Ix 0) (Ln "a" (Ix 0));
    SetV "this" (VSet1 (Ln "u" (Ix 0)))]
   ["this"];
  (* v8/v8_avx2.h:1420-1421 *)
  fnc "float from copy" 1420 [("a", 8)]
   [SetV "this" (VReg "a")]
   ["this"];
  (* v8/v8_avx2.h:1422-1426 *)
  fnc "float from mixed" 1422 [("a", 8)]
   [SetV "this" (VReg "a")]
   ["this"];
  (* v8/v8_avx2.h:1427-1431 *)
  fnc "float from scalar" 1427 [("a", 1)]
   [SetV "this" (VSet1 (Ln "a" (Ix 0)))]
   ["this"]].

(* src/util/v8/v8_avx2.h:193-197 *)
Definition any_v8_avx2 : fn :=
  fnc "any" 193 [("a", 8)]
   [SetL "ret" (Ix 0) (B2 ILOr (B2 ILOr (B2 ILOr (B2 ILOr (B2 ILOr (B2 ILOr (B2 ILOr (Ln "a" (Ix 0)) (Ln "a" (Ix 1))) (Ln "a" (Ix 2))) (Ln "a" (Ix 3))) (Ln "a" (Ix 4))) (Ln "a" (Ix 5))) (Ln "a" (Ix 6))) (Ln "a" (Ix 7)))]
   ["ret"].

(* src/util/v8/v8_avx2.h:199-203 *)
Definition all_v8_avx2 : fn :=
  fnc "all" 199 [("a", 8)]
   [SetL "ret" (Ix 0) (B2 ILAnd (B2 ILAnd (B2 ILAnd (B2 ILAnd (B2 ILAnd (B2 ILAnd (B2 ILAnd (Ln "a" (Ix 0)) (Ln "a" (Ix 1))) (Ln "a" (Ix 2))) (Ln "a" (Ix 3))) (Ln "a" (Ix 4))) (Ln "a" (Ix 5))) (Ln "a" (Ix 6))) (Ln "a" (Ix 7)))]
   ["ret"].

(* src/util/v8/v8_avx2.h:205-213 *)
Definition splat_v8_avx2 (n : nat) : fn :=
  fnc "splat" 205 [("a", 8)]
   [SetV "b" (VSet1 (Ln "a" (Ix n)))]
   ["b"].

(* src/util/v8/v8_avx2.h:215-230 *)
Definition shuffle_v8_avx2 (i0 i1 i2 i3 i4 i5 i6 i7 : nat) : fn :=
  fnc "shuffle" 215 [("a", 8)]
   [SetL "b" (Ix 0) (Ln "a" (Ix i0));
    SetL "b" (Ix 1) (Ln "a" (Ix i1));
    SetL "b" (Ix 2) (Ln "a" (Ix i2));
    SetL "b" (Ix 3) (Ln "a" (Ix i3));
    SetL "b" (Ix 4) (Ln "a" (Ix i4));
    SetL "b" (Ix 5) (Ln "a" (Ix i5));
    SetL "b" (Ix 6) (Ln "a" (Ix i6));
    SetL "b" (Ix 7) (Ln "a" (Ix i7))]
   ["b"].

(* src/util/v8/v8_avx2.h:1020-1035 *)
Definition int_from_scalars_v8_avx2 : fn :=
  fnc "int from scalars" 1020 [("i0", 1); ("i1", 1); ("i2", 1); ("i3", 1); ("i4", 1); ("i5", 1); ("i6", 1); ("i7", 1)]
   [SetL "u0" (Ix 0) (Ln "i0" (Ix 0));
    SetL "u1" (Ix 0) (Ln "i1" (Ix 0));
    SetL "u2" (Ix 0) (Ln "i2" (Ix 0));
    SetL "u3" (Ix 0) (Ln "i3" (Ix 0));
    SetL "u4" (Ix 0) (Ln "i4" (Ix 0));
    SetL "u5" (Ix 0) (Ln "i5" (Ix 0));
    SetL "u6" (Ix 0) (Ln "i6" (Ix 0));
    SetL "u7" (Ix 0) (Ln "i7" (Ix 0));
    SetV "this" (VSetr [(Ln "u0" (Ix 0)); (Ln "u1" (Ix 0)); (Ln "u2" (Ix 0)); (Ln "u3" (Ix 0)); (Ln "u4" (Ix 0)); (Ln "u5" (Ix 0)); (Ln "u6" (Ix 0)); (Ln "u7" (Ix 0))])]
   ["this"].

(* src/util/v8/v8_avx2.h:1432-1437 *)
Definition float_from_scalars_v8_avx2 : fn :=
  fnc "float from scalars" 1432 [("f0", 1); ("f1", 1); ("f2", 1); ("f3", 1); ("f4", 1); ("f5", 1); ("f6", 1); ("f7", 1)]
   [SetV "this" (VSetr [(Ln "f0" (Ix 0)); (Ln "f1" (Ix 0)); (Ln "f2" (Ix 0)); (Ln "f3" (Ix 0)); (Ln "f4" (Ix 0)); (Ln "f5" (Ix 0)); (Ln "f6" (Ix 0)); (Ln "f7" (Ix 0))])]
   ["this"].
