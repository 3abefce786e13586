(* The operators of the vector classes of 16 lanes, transcribed function by
   function from src/util/v16: see VecOpModel.v.  The number after a name is
   the line of the function (of the macro call that makes it, for those made by
   macros); comments give its first and last line.  Macros are expanded, the
   text of "#if 0" is left out.  Left out too: default constructors,
   destructors, operator[] and operator() (they return a reference to a lane)
   and the memory operations, which are in VecPrograms16.v. *)
From Coq Require Import ZArith List String.
From Verif Require Import VecOpModel.
Import ListNotations.
Open Scope string_scope. Open Scope list_scope. Open Scope nat_scope.

(* src/util/v16/v16_portable.h *)
Definition ops_v16_portable : list fn := [
  (* v16/v16_portable.h:3097-3097 *)
  fnc "int =" 3097 [("this", 16); ("b", 16)]
   [SetL "this" (Ix 0) (Ln "b" (Ix 0));
    SetL "this" (Ix 1) (Ln "b" (Ix 1));
    SetL "this" (Ix 2) (Ln "b" (Ix 2));
    SetL "this" (Ix 3) (Ln "b" (Ix 3));
    SetL "this" (Ix 4) (Ln "b" (Ix 4));
    SetL "this" (Ix 5) (Ln "b" (Ix 5));
    SetL "this" (Ix 6) (Ln "b" (Ix 6));
    SetL "this" (Ix 7) (Ln "b" (Ix 7));
    SetL "this" (Ix 8) (Ln "b" (Ix 8));
    SetL "this" (Ix 9) (Ln "b" (Ix 9));
    SetL "this" (Ix 10) (Ln "b" (Ix 10));
    SetL "this" (Ix 11) (Ln "b" (Ix 11));
    SetL "this" (Ix 12) (Ln "b" (Ix 12));
    SetL "this" (Ix 13) (Ln "b" (Ix 13));
    SetL "this" (Ix 14) (Ln "b" (Ix 14));
    SetL "this" (Ix 15) (Ln "b" (Ix 15))]
   ["this"];
  (* v16/v16_portable.h:3098-3098 *)
  fnc "int +=" 3098 [("this", 16); ("b", 16)]
   [SetL "this" (Ix 0) (B2 IAdd (Ln "this" (Ix 0)) (Ln "b" (Ix 0)));
    SetL "this" (Ix 1) (B2 IAdd (Ln "this" (Ix 1)) (Ln "b" (Ix 1)));
    SetL "this" (Ix 2) (B2 IAdd (Ln "this" (Ix 2)) (Ln "b" (Ix 2)));
    SetL "this" (Ix 3) (B2 IAdd (Ln "this" (Ix 3)) (Ln "b" (Ix 3)));
    SetL "this" (Ix 4) (B2 IAdd (Ln "this" (Ix 4)) (Ln "b" (Ix 4)));
    SetL "this" (Ix 5) (B2 IAdd (Ln "this" (Ix 5)) (Ln "b" (Ix 5)));
    SetL "this" (Ix 6) (B2 IAdd (Ln "this" (Ix 6)) (Ln "b" (Ix 6)));
    SetL "this" (Ix 7) (B2 IAdd (Ln "this" (Ix 7)) (Ln "b" (Ix 7)));
    SetL "this" (Ix 8) (B2 IAdd (Ln "this" (Ix 8)) (Ln "b" (Ix 8)));
    SetL "this" (Ix 9) (B2 IAdd (Ln "this" (Ix 9)) (Ln "b" (Ix 9)));
    SetL "this" (Ix 10) (B2 IAdd (Ln "this" (Ix 10)) (Ln "b" (Ix 10)));
    SetL "this" (Ix 11) (B2 IAdd (Ln "this" (Ix 11)) (Ln "b" (Ix 11)));
    SetL "this" (Ix 12) (B2 IAdd (Ln "this" (Ix 12)) (Ln "b" (Ix 12)));
    SetL "this" (Ix 13) (B2 IAdd (Ln "this" (Ix 13)) (Ln "b" (Ix 13)));
    SetL "this" (Ix 14) (B2 IAdd (Ln "this" (Ix 14)) (Ln "b" (Ix 14)));
    SetL "this" (Ix 15) (B2 IAdd (Ln "this" (Ix 15)) (Ln "b" (Ix 15)))]
   ["this"];
  (* v16/v16_portable.h:3099-3099 *)
  fnc "int -=" 3099 [("this", 16); ("b", 16)]
   [SetL "this" (Ix 0) (B2 ISub (Ln "this" (Ix 0)) (Ln "b" (Ix 0)));
    SetL "this" (Ix 1) (B2 ISub (Ln "this" (Ix 1)) (Ln "b" (Ix 1)));
    SetL "this" (Ix 2) (B2 ISub (Ln "this" (Ix 2)) (Ln "b" (Ix 2)));
    SetL "this" (Ix 3) (B2 ISub (Ln "this" (Ix 3)) (Ln "b" (Ix 3)));
    SetL "this" (Ix 4) (B2 ISub (Ln "this" (Ix 4)) (Ln "b" (Ix 4)));
    SetL "this" (Ix 5) (B2 ISub (Ln "this" (Ix 5)) (Ln "b" (Ix 5)));
    SetL "this" (Ix 6) (B2 ISub (Ln "this" (Ix 6)) (Ln "b" (Ix 6)));
    SetL "this" (Ix 7) (B2 ISub (Ln "this" (Ix 7)) (Ln "b" (Ix 7)));
    SetL "this" (Ix 8) (B2 ISub (Ln "this" (Ix 8)) (Ln "b" (Ix 8)));
    SetL "this" (Ix 9) (B2 ISub (Ln "this" (Ix 9)) (Ln "b" (Ix 9)));
    SetL "this" (Ix 10) (B2 ISub (Ln "this" (Ix 10)) (Ln "b" (Ix 10)));
    SetL "this" (Ix 11) (B2 ISub (Ln "this" (Ix 11)) (Ln "b" (Ix 11)));
    SetL "this" (Ix 12) (B2 ISub (Ln "this" (Ix 12)) (Ln "b" (Ix 12)));
    SetL "this" (Ix 13) (B2 ISub (Ln "this" (Ix 13)) (Ln "b" (Ix 13)));
    SetL "this" (Ix 14) (B2 ISub (Ln "this" (Ix 14)) (Ln "b" (Ix 14)));
    SetL "this" (Ix 15) (B2 ISub (Ln "this" (Ix 15)) (Ln "b" (Ix 15)))]
   ["this"];
  (* v16/v16_portable.h:3100-3100 *)
  fnc "int *=" 3100 [("this", 16); ("b", 16)]
   [SetL "this" (Ix 0) (B2 IMul (Ln "this" (Ix 0)) (Ln "b" (Ix 0)));
    SetL "this" (Ix 1) (B2 IMul (Ln "this" (Ix 1)) (Ln "b" (Ix 1)));
    SetL "this" (Ix 2) (B2 IMul (Ln "this" (Ix 2)) (Ln "b" (Ix 2)));
    SetL "this" (Ix 3) (B2 IMul (Ln "this" (Ix 3)) (Ln "b" (Ix 3)));
    SetL "this" (Ix 4) (B2 IMul (Ln "this" (Ix 4)) (Ln "b" (Ix 4)));
    SetL "this" (Ix 5) (B2 IMul (Ln "this" (Ix 5)) (Ln "b" (Ix 5)));
    SetL "this" (Ix 6) (B2 IMul (Ln "this" (Ix 6)) (Ln "b" (Ix 6)));
    SetL "this" (Ix 7) (B2 IMul (Ln "this" (Ix 7)) (Ln "b" (Ix 7)));
    SetL "this" (Ix 8) (B2 IMul (Ln "this" (Ix 8)) (Ln "b" (Ix 8)));
    SetL "this" (Ix 9) (B2 IMul (Ln "this" (Ix 9)) (Ln "b" (Ix 9)));
    SetL "this" (Ix 10) (B2 IMul (Ln "this" (Ix 10)) (Ln "b" (Ix 10)));
    SetL "this" (Ix 11) (B2 IMul (Ln "this" (Ix 11)) (Ln "b" (Ix 11)));
    SetL "this" (Ix 12) (B2 IMul (Ln "this" (Ix 12)) (Ln "b" (Ix 12)));
    SetL "this" (Ix 13) (B2 IMul (Ln "this" (Ix 13)) (Ln "b" (Ix 13)));
    SetL "this" (Ix 14) (B2 IMul (Ln "this" (Ix 14)) (Ln "b" (Ix 14)));
    SetL "this" (Ix 15) (B2 IMul (Ln "this" (Ix 15)) (Ln "b" (Ix 15)))]
   ["this"];
  (* v16/v16_portable.h:3101-3101 *)
  fnc "int /=" 3101 [("this", 16); ("b", 16)]
   [SetL "this" (Ix 0) (B2 IDiv (Ln "this" (Ix 0)) (Ln "b" (Ix 0)));
    SetL "this" (Ix 1) (B2 IDiv (Ln "this" (Ix 1)) (Ln "b" (Ix 1)));
    SetL "this" (Ix 2) (B2 IDiv (Ln "this" (Ix 2)) (Ln "b" (Ix 2)));
    SetL "this" (Ix 3) (B2 IDiv (Ln "this" (Ix 3)) (Ln "b" (Ix 3)));
    SetL "this" (Ix 4) (B2 IDiv (Ln "this" (Ix 4)) (Ln "b" (Ix 4)));
    SetL "this" (Ix 5) (B2 IDiv (Ln "this" (Ix 5)) (Ln "b" (Ix 5)));
    SetL "this" (Ix 6) (B2 IDiv (Ln "this" (Ix 6)) (Ln "b" (Ix 6)));
    SetL "this" (Ix 7) (B2 IDiv (Ln "this" (Ix 7)) (Ln "b" (Ix 7)));
    SetL "this" (Ix 8) (B2 IDiv (Ln "this" (Ix 8)) (Ln "b" (Ix 8)));
    SetL "this" (Ix 9) (B2 IDiv (Ln "this" (Ix 9)) (Ln "b" (Ix 9)));
    SetL "this" (Ix 10) (B2 IDiv (Ln "this" (Ix 10)) (Ln "b" (Ix 10)));
    SetL "this" (Ix 11) (B2 IDiv (Ln "this" (Ix 11)) (Ln "b" (Ix 11)));
    SetL "this" (Ix 12) (B2 IDiv (Ln "this" (Ix 12)) (Ln "b" (Ix 12)));
    SetL "this" (Ix 13) (B2 IDiv (Ln "this" (Ix 13)) (Ln "b" (Ix 13)));
    SetL "this" (Ix 14) (B2 IDiv (Ln "this" (Ix 14)) (Ln "b" (Ix 14)));
    SetL "this" (Ix 15) (B2 IDiv (Ln "this" (Ix 15)) (Ln "b" (Ix 15)))]
   ["this"];
  (* v16/v16_portable.h:3102-3102 *)
  fnc "int %=" 3102 [("this", 16); ("b", 16)]
   [SetL "this" (Ix 0) (B2 IMod (Ln "this" (Ix 0)) (Ln "b" (Ix 0)));
    SetL "this" (Ix 1) (B2 IMod (Ln "this" (Ix 1)) (Ln "b" (Ix 1)));
    SetL "this" (Ix 2) (B2 IMod (Ln "this" (Ix 2)) (Ln "b" (Ix 2)));
    SetL "this" (Ix 3) (B2 IMod (Ln "this" (Ix 3)) (Ln "b" (Ix 3)));
    SetL "this" (Ix 4) (B2 IMod (Ln "this" (Ix 4)) (Ln "b" (Ix 4)));
    SetL "this" (Ix 5) (B2 IMod (Ln "this" (Ix 5)) (Ln "b" (Ix 5)));
    SetL "this" (Ix 6) (B2 IMod (Ln "this" (Ix 6)) (Ln "b" (Ix 6)));
    SetL "this" (Ix 7) (B2 IMod (Ln "this" (Ix 7)) (Ln "b" (Ix 7)));
    SetL "this" (Ix 8) (B2 IMod (Ln "this" (Ix 8)) (Ln "b" (Ix 8)));
    SetL "this" (Ix 9) (B2 IMod (Ln "this" (Ix 9)) (Ln "b" (Ix 9)));
    SetL "this" (Ix 10) (B2 IMod (Ln "this" (Ix 10)) (Ln "b" (Ix 10)));
    SetL "this" (Ix 11) (B2 IMod (Ln "this" (Ix 11)) (Ln "b" (Ix 11)));
    SetL "this" (Ix 12) (B2 IMod (Ln "this" (Ix 12)) (Ln "b" (Ix 12)));
    SetL "this" (Ix 13) (B2 IMod (Ln "this" (Ix 13)) (Ln "b" (Ix 13)));
    SetL "this" (Ix 14) (B2 IMod (Ln "this" (Ix 14)) (Ln "b" (Ix 14)));
    SetL "this" (Ix 15) (B2 IMod (Ln "this" (Ix 15)) (Ln "b" (Ix 15)))]
   ["this"];
  (* v16/v16_portable.h:3103-3103 *)
  fnc "int ^=" 3103 [("this", 16); ("b", 16)]
   [SetL "this" (Ix 0) (B2 IXor (Ln "this" (Ix 0)) (Ln "b" (Ix 0)));
    SetL "this" (Ix 1) (B2 IXor (Ln "this" (Ix 1)) (Ln "b" (Ix 1)));
    SetL "this" (Ix 2) (B2 IXor (Ln "this" (Ix 2)) (Ln "b" (Ix 2)));
    SetL "this" (Ix 3) (B2 IXor (Ln "this" (Ix 3)) (Ln "b" (Ix 3)));
    SetL "this" (Ix 4) (B2 IXor (Ln "this" (Ix 4)) (Ln "b" (Ix 4)));
    SetL "this" (Ix 5) (B2 IXor (Ln "this" (Ix 5)) (Ln "b" (Ix 5)));
    SetL "this" (Ix 6) (B2 IXor (Ln "this" (Ix 6)) (Ln "b" (Ix 6)));
    SetL "this" (Ix 7) (B2 IXor (Ln "this" (Ix 7)) (Ln "b" (Ix 7)));
    SetL "this" (Ix 8) (B2 IXor (Ln "this" (Ix 8)) (Ln "b" (Ix 8)));
    SetL "this" (Ix 9) (B2 IXor (Ln "this" (Ix 9)) (Ln "b" (Ix 9)));
    SetL "this" (Ix 10) (B2 IXor (Ln "this" (Ix 10)) (Ln "b" (Ix 10)));
    SetL "this" (Ix 11) (B2 IXor (Ln "this" (Ix 11)) (Ln "b" (Ix 11)));
    SetL "this" (Ix 12) (B2 IXor (Ln "this" (Ix 12)) (Ln "b" (Ix 12)));
    SetL "this" (Ix 13) (B2 IXor (Ln "this" (Ix 13)) (Ln "b" (Ix 13)));
    SetL "this" (Ix 14) (B2 IXor (Ln "this" (Ix 14)) (Ln "b" (Ix 14)));
    SetL "this" (Ix 15) (B2 IXor (Ln "this" (Ix 15)) (Ln "b" (Ix 15)))]
   ["this"];
  (* v16/v16_portable.h:3104-3104 *)
  fnc "int &=" 3104 [("this", 16); ("b", 16)]
   [SetL "this" (Ix 0) (B2 IAnd (Ln "this" (Ix 0)) (Ln "b" (Ix 0)));
    SetL "this" (Ix 1) (B2 IAnd (Ln "this" (Ix 1)) (Ln "b" (Ix 1)));
    SetL "this" (Ix 2) (B2 IAnd (Ln "this" (Ix 2)) (Ln "b" (Ix 2)));
    SetL "this" (Ix 3) (B2 IAnd (Ln "this" (Ix 3)) (Ln "b" (Ix 3)));
    SetL "this" (Ix 4) (B2 IAnd (Ln "this" (Ix 4)) (Ln "b" (Ix 4)));
    SetL "this" (Ix 5) (B2 IAnd (Ln "this" (Ix 5)) (Ln "b" (Ix 5)));
    SetL "this" (Ix 6) (B2 IAnd (Ln "this" (Ix 6)) (Ln "b" (Ix 6)));
    SetL "this" (Ix 7) (B2 IAnd (Ln "this" (Ix 7)) (Ln "b" (Ix 7)));
    SetL "this" (Ix 8) (B2 IAnd (Ln "this" (Ix 8)) (Ln "b" (Ix 8)));
    SetL "this" (Ix 9) (B2 IAnd (Ln "this" (Ix 9)) (Ln "b" (Ix 9)));
    SetL "this" (Ix 10) (B2 IAnd (Ln "this" (Ix 10)) (Ln "b" (Ix 10)));
    SetL "this" (Ix 11) (B2 IAnd (Ln "this" (Ix 11)) (Ln "b" (Ix 11)));
    SetL "this" (Ix 12) (B2 IAnd (Ln "this" (Ix 12)) (Ln "b" (Ix 12)));
    SetL "this" (Ix 13) (B2 IAnd (Ln "this" (Ix 13)) (Ln "b" (Ix 13)));
    SetL "this" (Ix 14) (B2 IAnd (Ln "this" (Ix 14)) (Ln "b" (Ix 14)));
    SetL "this" (Ix 15) (B2 IAnd (Ln "this" (Ix 15)) (Ln "b" (Ix 15)))]
   ["this"];
  (* v16/v16_portable.h:3105-3105 *)
  fnc "int |=" 3105 [("this", 16); ("b", 16)]
   [SetL "this" (Ix 0) (B2 IOr (Ln "this" (Ix 0)) (Ln "b" (Ix 0)));
    SetL "this" (Ix 1) (B2 IOr (Ln "this" (Ix 1)) (Ln "b" (Ix 1)));
    SetL "this" (Ix 2) (B2 IOr (Ln "this" (Ix 2)) (Ln "b" (Ix 2)));
    SetL "this" (Ix 3) (B2 IOr (Ln "this" (Ix 3)) (Ln "b" (Ix 3)));
    SetL "this" (Ix 4) (B2 IOr (Ln "this" (Ix 4)) (Ln "b" (Ix 4)));
    SetL "this" (Ix 5) (B2 IOr (Ln "this" (Ix 5)) (Ln "b" (Ix 5)));
    SetL "this" (Ix 6) (B2 IOr (Ln "this" (Ix 6)) (Ln "b" (Ix 6)));
    SetL "this" (Ix 7) (B2 IOr (Ln "this" (Ix 7)) (Ln "b" (Ix 7)));
    SetL "this" (Ix 8) (B2 IOr (Ln "this" (Ix 8)) (Ln "b" (Ix 8)));
    SetL "this" (Ix 9) (B2 IOr (Ln "this" (Ix 9)) (Ln "b" (Ix 9)));
    SetL "this" (Ix 10) (B2 IOr (Ln "this" (Ix 10)) (Ln "b" (Ix 10)));
    SetL "this" (Ix 11) (B2 IOr (Ln "this" (Ix 11)) (Ln "b" (Ix 11)));
    SetL "this" (Ix 12) (B2 IOr (Ln "this" (Ix 12)) (Ln "b" (Ix 12)));
    SetL "this" (Ix 13) (B2 IOr (Ln "this" (Ix 13)) (Ln "b" (Ix 13)));
    SetL "this" (Ix 14) (B2 IOr (Ln "this" (Ix 14)) (Ln "b" (Ix 14)));
    SetL "this" (Ix 15) (B2 IOr (Ln "this" (Ix 15)) (Ln "b" (Ix 15)))]
   ["this"];
  (* v16/v16_portable.h:3106-3106 *)
  fnc "int <<=" 3106 [("this", 16); ("b", 16)]
   [SetL "this" (Ix 0) (B2 IShl (Ln "this" (Ix 0)) (Ln "b" (Ix 0)));
    SetL "this" (Ix 1) (B2 IShl (Ln "this" (Ix 1)) (Ln "b" (Ix 1)));
    SetL "this" (Ix 2) (B2 IShl (Ln "this" (Ix 2)) (Ln "b" (Ix 2)));
    SetL "this" (Ix 3) (B2 IShl (Ln "this" (Ix 3)) (Ln "b" (Ix 3)));
    SetL "this" (Ix 4) (B2 IShl (Ln "this" (Ix 4)) (Ln "b" (Ix 4)));
    SetL "this" (Ix 5) (B2 IShl (Ln "this" (Ix 5)) (Ln "b" (Ix 5)));
    SetL "this" (Ix 6) (B2 IShl (Ln "this" (Ix 6)) (Ln "b" (Ix 6)));
    SetL "this" (Ix 7) (B2 IShl (Ln "this" (Ix 7)) (Ln "b" (Ix 7)));
    SetL "this" (Ix 8) (B2 IShl (Ln "this" (Ix 8)) (Ln "b" (Ix 8)));
    SetL "this" (Ix 9) (B2 IShl (Ln "this" (Ix 9)) (Ln "b" (Ix 9)));
    SetL "this" (Ix 10) (B2 IShl (Ln "this" (Ix 10)) (Ln "b" (Ix 10)));
    SetL "this" (Ix 11) (B2 IShl (Ln "this" (Ix 11)) (Ln "b" (Ix 11)));
    SetL "this" (Ix 12) (B2 IShl (Ln "this" (Ix 12)) (Ln "b" (Ix 12)));
    SetL "this" (Ix 13) (B2 IShl (Ln "this" (Ix 13)) (Ln "b" (Ix 13)));
    SetL "this" (Ix 14) (B2 IShl (Ln "this" (Ix 14)) (Ln "b" (Ix 14)));
    SetL "this" (Ix 15) (B2 IShl (Ln "this" (Ix 15)) (Ln "b" (Ix 15)))]
   ["this"];
  (* v16/v16_portable.h:3107-3107 *)
  fnc "int >>=" 3107 [("this", 16); ("b", 16)]
   [SetL "this" (Ix 0) (B2 IShr (Ln "this" (Ix 0)) (Ln "b" (Ix 0)));
    SetL "this" (Ix 1) (B2 IShr (Ln "this" (Ix 1)) (Ln "b" (Ix 1)));
    SetL "this" (Ix 2) (B2 IShr (Ln "this" (Ix 2)) (Ln "b" (Ix 2)));
    SetL "this" (Ix 3) (B2 IShr (Ln "this" (Ix 3)) (Ln "b" (Ix 3)));
    SetL "this" (Ix 4) (B2 IShr (Ln "this" (Ix 4)) (Ln "b" (Ix 4)));
    SetL "this" (Ix 5) (B2 IShr (Ln "this" (Ix 5)) (Ln "b" (Ix 5)));
    SetL "this" (Ix 6) (B2 IShr (Ln "this" (Ix 6)) (Ln "b" (Ix 6)));
    SetL "this" (Ix 7) (B2 IShr (Ln "this" (Ix 7)) (Ln "b" (Ix 7)));
    SetL "this" (Ix 8) (B2 IShr (Ln "this" (Ix 8)) (Ln "b" (Ix 8)));
    SetL "this" (Ix 9) (B2 IShr (Ln "this" (Ix 9)) (Ln "b" (Ix 9)));
    SetL "this" (Ix 10) (B2 IShr (Ln "this" (Ix 10)) (Ln "b" (Ix 10)));
    SetL "this" (Ix 11) (B2 IShr (Ln "this" (Ix 11)) (Ln "b" (Ix 11)));
    SetL "this" (Ix 12) (B2 IShr (Ln "this" (Ix 12)) (Ln "b" (Ix 12)));
    SetL "this" (Ix 13) (B2 IShr (Ln "this" (Ix 13)) (Ln "b" (Ix 13)));
    SetL "this" (Ix 14) (B2 IShr (Ln "this" (Ix 14)) (Ln "b" (Ix 14)));
    SetL "this" (Ix 15) (B2 IShr (Ln "this" (Ix 15)) (Ln "b" (Ix 15)))]
   ["this"];
  (* v16/v16_portable.h:3149-3149 *)
  fnc "int unary+" 3149 [("a", 16)]
   [SetL "b" (Ix 0) (Ln "a" (Ix 0));
    SetL "b" (Ix 1) (Ln "a" (Ix 1));
    SetL "b" (Ix 2) (Ln "a" (Ix 2));
    SetL "b" (Ix 3) (Ln "a" (Ix 3));
    SetL "b" (Ix 4) (Ln "a" (Ix 4));
    SetL "b" (Ix 5) (Ln "a" (Ix 5));
    SetL "b" (Ix 6) (Ln "a" (Ix 6));
    SetL "b" (Ix 7) (Ln "a" (Ix 7));
    SetL "b" (Ix 8) (Ln "a" (Ix 8));
    SetL "b" (Ix 9) (Ln "a" (Ix 9));
    SetL "b" (Ix 10) (Ln "a" (Ix 10));
    SetL "b" (Ix 11) (Ln "a" (Ix 11));
    SetL "b" (Ix 12) (Ln "a" (Ix 12));
    SetL "b" (Ix 13) (Ln "a" (Ix 13));
    SetL "b" (Ix 14) (Ln "a" (Ix 14));
    SetL "b" (Ix 15) (Ln "a" (Ix 15))]
   ["b"];
  (* v16/v16_portable.h:3150-3150 *)
  fnc "int unary-" 3150 [("a", 16)]
   [SetL "b" (Ix 0) (U1 INeg (Ln "a" (Ix 0)));
    SetL "b" (Ix 1) (U1 INeg (Ln "a" (Ix 1)));
    SetL "b" (Ix 2) (U1 INeg (Ln "a" (Ix 2)));
    SetL "b" (Ix 3) (U1 INeg (Ln "a" (Ix 3)));
    SetL "b" (Ix 4) (U1 INeg (Ln "a" (Ix 4)));
    SetL "b" (Ix 5) (U1 INeg (Ln "a" (Ix 5)));
    SetL "b" (Ix 6) (U1 INeg (Ln "a" (Ix 6)));
    SetL "b" (Ix 7) (U1 INeg (Ln "a" (Ix 7)));
    SetL "b" (Ix 8) (U1 INeg (Ln "a" (Ix 8)));
    SetL "b" (Ix 9) (U1 INeg (Ln "a" (Ix 9)));
    SetL "b" (Ix 10) (U1 INeg (Ln "a" (Ix 10)));
    SetL "b" (Ix 11) (U1 INeg (Ln "a" (Ix 11)));
    SetL "b" (Ix 12) (U1 INeg (Ln "a" (Ix 12)));
    SetL "b" (Ix 13) (U1 INeg (Ln "a" (Ix 13)));
    SetL "b" (Ix 14) (U1 INeg (Ln "a" (Ix 14)));
    SetL "b" (Ix 15) (U1 INeg (Ln "a" (Ix 15)))]
   ["b"];
  (* v16/v16_portable.h:3152-3172 *)
  fnc "int !" 3152 [("a", 16)]
   [SetL "b" (Ix 0) (U1 INeg (U1 ILNot (Ln "a" (Ix 0))));
    SetL "b" (Ix 1) (U1 INeg (U1 ILNot (Ln "a" (Ix 1))));
    SetL "b" (Ix 2) (U1 INeg (U1 ILNot (Ln "a" (Ix 2))));
    SetL "b" (Ix 3) (U1 INeg (U1 ILNot (Ln "a" (Ix 3))));
    SetL "b" (Ix 4) (U1 INeg (U1 ILNot (Ln "a" (Ix 4))));
    SetL "b" (Ix 5) (U1 INeg (U1 ILNot (Ln "a" (Ix 5))));
    SetL "b" (Ix 6) (U1 INeg (U1 ILNot (Ln "a" (Ix 6))));
    SetL "b" (Ix 7) (U1 INeg (U1 ILNot (Ln "a" (Ix 7))));
    SetL "b" (Ix 8) (U1 INeg (U1 ILNot (Ln "a" (Ix 8))));
    SetL "b" (Ix 9) (U1 INeg (U1 ILNot (Ln "a" (Ix 9))));
    SetL "b" (Ix 10) (U1 INeg (U1 ILNot (Ln "a" (Ix 10))));
    SetL "b" (Ix 11) (U1 INeg (U1 ILNot (Ln "a" (Ix 11))));
    SetL "b" (Ix 12) (U1 INeg (U1 ILNot (Ln "a" (Ix 12))));
    SetL "b" (Ix 13) (U1 INeg (U1 ILNot (Ln "a" (Ix 13))));
    SetL "b" (Ix 14) (U1 INeg (U1 ILNot (Ln "a" (Ix 14))));
    SetL "b" (Ix 15) (U1 INeg (U1 ILNot (Ln "a" (Ix 15))))]
   ["b"];
  (* v16/v16_portable.h:3174-3174 *)
  fnc "int ~" 3174 [("a", 16)]
   [SetL "b" (Ix 0) (U1 INot (Ln "a" (Ix 0)));
    SetL "b" (Ix 1) (U1 INot (Ln "a" (Ix 1)));
    SetL "b" (Ix 2) (U1 INot (Ln "a" (Ix 2)));
    SetL "b" (Ix 3) (U1 INot (Ln "a" (Ix 3)));
    SetL "b" (Ix 4) (U1 INot (Ln "a" (Ix 4)));
    SetL "b" (Ix 5) (U1 INot (Ln "a" (Ix 5)));
    SetL "b" (Ix 6) (U1 INot (Ln "a" (Ix 6)));
    SetL "b" (Ix 7) (U1 INot (Ln "a" (Ix 7)));
    SetL "b" (Ix 8) (U1 INot (Ln "a" (Ix 8)));
    SetL "b" (Ix 9) (U1 INot (Ln "a" (Ix 9)));
    SetL "b" (Ix 10) (U1 INot (Ln "a" (Ix 10)));
    SetL "b" (Ix 11) (U1 INot (Ln "a" (Ix 11)));
    SetL "b" (Ix 12) (U1 INot (Ln "a" (Ix 12)));
    SetL "b" (Ix 13) (U1 INot (Ln "a" (Ix 13)));
    SetL "b" (Ix 14) (U1 INot (Ln "a" (Ix 14)));
    SetL "b" (Ix 15) (U1 INot (Ln "a" (Ix 15)))]
   ["b"];
  (* v16/v16_portable.h:3203-3203 *)
  fnc "int pre++" 3203 [("a", 16)]
   [SetL "a" (Ix 0) (B2 IAdd (Ln "a" (Ix 0)) (Cst 1));
    SetL "b" (Ix 0) (Ln "a" (Ix 0));
    SetL "a" (Ix 1) (B2 IAdd (Ln "a" (Ix 1)) (Cst 1));
    SetL "b" (Ix 1) (Ln "a" (Ix 1));
    SetL "a" (Ix 2) (B2 IAdd (Ln "a" (Ix 2)) (Cst 1));
    SetL "b" (Ix 2) (Ln "a" (Ix 2));
    SetL "a" (Ix 3) (B2 IAdd (Ln "a" (Ix 3)) (Cst 1));
    SetL "b" (Ix 3) (Ln "a" (Ix 3));
    SetL "a" (Ix 4) (B2 IAdd (Ln "a" (Ix 4)) (Cst 1));
    SetL "b" (Ix 4) (Ln "a" (Ix 4));
    SetL "a" (Ix 5) (B2 IAdd (Ln "a" (Ix 5)) (Cst 1));
    SetL "b" (Ix 5) (Ln "a" (Ix 5));
    SetL "a" (Ix 6) (B2 IAdd (Ln "a" (Ix 6)) (Cst 1));
    SetL "b" (Ix 6) (Ln "a" (Ix 6));
    SetL "a" (Ix 7) (B2 IAdd (Ln "a" (Ix 7)) (Cst 1));
    SetL "b" (Ix 7) (Ln "a" (Ix 7));
    SetL "a" (Ix 8) (B2 IAdd (Ln "a" (Ix 8)) (Cst 1));
    SetL "b" (Ix 8) (Ln "a" (Ix 8));
    SetL "a" (Ix 9) (B2 IAdd (Ln "a" (Ix 9)) (Cst 1));
    SetL "b" (Ix 9) (Ln "a" (Ix 9));
    SetL "a" (Ix 10) (B2 IAdd (Ln "a" (Ix 10)) (Cst 1));
    SetL "b" (Ix 10) (Ln "a" (Ix 10));
    SetL "a" (Ix 11) (B2 IAdd (Ln "a" (Ix 11)) (Cst 1));
    SetL "b" (Ix 11) (Ln "a" (Ix 11));
    SetL "a" (Ix 12) (B2 IAdd (Ln "a" (Ix 12)) (Cst 1));
    SetL "b" (Ix 12) (Ln "a" (Ix 12));
    SetL "a" (Ix 13) (B2 IAdd (Ln "a" (Ix 13)) (Cst 1));
    SetL "b" (Ix 13) (Ln "a" (Ix 13));
    SetL "a" (Ix 14) (B2 IAdd (Ln "a" (Ix 14)) (Cst 1));
    SetL "b" (Ix 14) (Ln "a" (Ix 14));
    SetL "a" (Ix 15) (B2 IAdd (Ln "a" (Ix 15)) (Cst 1));
    SetL "b" (Ix 15) (Ln "a" (Ix 15))]
   ["b"; "a"];
  (* v16/v16_portable.h:3204-3204 *)
  fnc "int pre--" 3204 [("a", 16)]
   [SetL "a" (Ix 0) (B2 ISub (Ln "a" (Ix 0)) (Cst 1));
    SetL "b" (Ix 0) (Ln "a" (Ix 0));
    SetL "a" (Ix 1) (B2 ISub (Ln "a" (Ix 1)) (Cst 1));
    SetL "b" (Ix 1) (Ln "a" (Ix 1));
    SetL "a" (Ix 2) (B2 ISub (Ln "a" (Ix 2)) (Cst 1));
    SetL "b" (Ix 2) (Ln "a" (Ix 2));
    SetL "a" (Ix 3) (B2 ISub (Ln "a" (Ix 3)) (Cst 1));
    SetL "b" (Ix 3) (Ln "a" (Ix 3));
    SetL "a" (Ix 4) (B2 ISub (Ln "a" (Ix 4)) (Cst 1));
    SetL "b" (Ix 4) (Ln "a" (Ix 4));
    SetL "a" (Ix 5) (B2 ISub (Ln "a" (Ix 5)) (Cst 1));
    SetL "b" (Ix 5) (Ln "a" (Ix 5));
    SetL "a" (Ix 6) (B2 ISub (Ln "a" (Ix 6)) (Cst 1));
    SetL "b" (Ix 6) (Ln "a" (Ix 6));
    SetL "a" (Ix 7) (B2 ISub (Ln "a" (Ix 7)) (Cst 1));
    SetL "b" (Ix 7) (Ln "a" (Ix 7));
    SetL "a" (Ix 8) (B2 ISub (Ln "a" (Ix 8)) (Cst 1));
    SetL "b" (Ix 8) (Ln "a" (Ix 8));
    SetL "a" (Ix 9) (B2 ISub (Ln "a" (Ix 9)) (Cst 1));
    SetL "b" (Ix 9) (Ln "a" (Ix 9));
    SetL "a" (Ix 10) (B2 ISub (Ln "a" (Ix 10)) (Cst 1));
    SetL "b" (Ix 10) (Ln "a" (Ix 10));
    SetL "a" (Ix 11) (B2 ISub (Ln "a" (Ix 11)) (Cst 1));
    SetL "b" (Ix 11) (Ln "a" (Ix 11));
    SetL "a" (Ix 12) (B2 ISub (Ln "a" (Ix 12)) (Cst 1));
    SetL "b" (Ix 12) (Ln "a" (Ix 12));
    SetL "a" (Ix 13) (B2 ISub (Ln "a" (Ix 13)) (Cst 1));
    SetL "b" (Ix 13) (Ln "a" (Ix 13));
    SetL "a" (Ix 14) (B2 ISub (Ln "a" (Ix 14)) (Cst 1));
    SetL "b" (Ix 14) (Ln "a" (Ix 14));
    SetL "a" (Ix 15) (B2 ISub (Ln "a" (Ix 15)) (Cst 1));
    SetL "b" (Ix 15) (Ln "a" (Ix 15))]
   ["b"; "a"];
  (* v16/v16_portable.h:3233-3233 *)
  fnc "int post++" 3233 [("a", 16)]
   [SetL "b" (Ix 0) (Ln "a" (Ix 0));
    SetL "a" (Ix 0) (B2 IAdd (Ln "a" (Ix 0)) (Cst 1));
    SetL "b" (Ix 1) (Ln "a" (Ix 1));
    SetL "a" (Ix 1) (B2 IAdd (Ln "a" (Ix 1)) (Cst 1));
    SetL "b" (Ix 2) (Ln "a" (Ix 2));
    SetL "a" (Ix 2) (B2 IAdd (Ln "a" (Ix 2)) (Cst 1));
    SetL "b" (Ix 3) (Ln "a" (Ix 3));
    SetL "a" (Ix 3) (B2 IAdd (Ln "a" (Ix 3)) (Cst 1));
    SetL "b" (Ix 4) (Ln "a" (Ix 4));
    SetL "a" (Ix 4) (B2 IAdd (Ln "a" (Ix 4)) (Cst 1));
    SetL "b" (Ix 5) (Ln "a" (Ix 5));
    SetL "a" (Ix 5) (B2 IAdd (Ln "a" (Ix 5)) (Cst 1));
    SetL "b" (Ix 6) (Ln "a" (Ix 6));
    SetL "a" (Ix 6) (B2 IAdd (Ln "a" (Ix 6)) (Cst 1));
    SetL "b" (Ix 7) (Ln "a" (Ix 7));
    SetL "a" (Ix 7) (B2 IAdd (Ln "a" (Ix 7)) (Cst 1));
    SetL "b" (Ix 8) (Ln "a" (Ix 8));
    SetL "a" (Ix 8) (B2 IAdd (Ln "a" (Ix 8)) (Cst 1));
    SetL "b" (Ix 9) (Ln "a" (Ix 9));
    SetL "a" (Ix 9) (B2 IAdd (Ln "a" (Ix 9)) (Cst 1));
    SetL "b" (Ix 10) (Ln "a" (Ix 10));
    SetL "a" (Ix 10) (B2 IAdd (Ln "a" (Ix 10)) (Cst 1));
    SetL "b" (Ix 11) (Ln "a" (Ix 11));
    SetL "a" (Ix 11) (B2 IAdd (Ln "a" (Ix 11)) (Cst 1));
    SetL "b" (Ix 12) (Ln "a" (Ix 12));
    SetL "a" (Ix 12) (B2 IAdd (Ln "a" (Ix 12)) (Cst 1));
    SetL "b" (Ix 13) (Ln "a" (Ix 13));
    SetL "a" (Ix 13) (B2 IAdd (Ln "a" (Ix 13)) (Cst 1));
    SetL "b" (Ix 14) (Ln "a" (Ix 14));
    SetL "a" (Ix 14) (B2 IAdd (Ln "a" (Ix 14)) (Cst 1));
    SetL "b" (Ix 15) (Ln "a" (Ix 15));
    SetL "a" (Ix 15) (B2 IAdd (Ln "a" (Ix 15)) (Cst 1))]
   ["b"; "a"];
  (* v16/v16_portable.h:3234-3234 *)
  fnc "int post--" 3234 [("a", 16)]
   [SetL "b" (Ix 0) (Ln "a" (Ix 0));
    SetL "a" (Ix 0) (B2 ISub (Ln "a" (Ix 0)) (Cst 1));
    SetL "b" (Ix 1) (Ln "a" (Ix 1));
    SetL "a" (Ix 1) (B2 ISub (Ln "a" (Ix 1)) (Cst 1));
    SetL "b" (Ix 2) (Ln "a" (Ix 2));
    SetL "a" (Ix 2) (B2 ISub (Ln "a" (Ix 2)) (Cst 1));
    SetL "b" (Ix 3) (Ln "a" (Ix 3));
    SetL "a" (Ix 3) (B2 ISub (Ln "a" (Ix 3)) (Cst 1));
    SetL "b" (Ix 4) (Ln "a" (Ix 4));
    SetL "a" (Ix 4) (B2 ISub (Ln "a" (Ix 4)) (Cst 1));
    SetL "b" (Ix 5) (Ln "a" (Ix 5));
    SetL "a" (Ix 5) (B2 ISub (Ln "a" (Ix 5)) (Cst 1));
    SetL "b" (Ix 6) (Ln "a" (Ix 6));
    SetL "a" (Ix 6) (B2 ISub (Ln "a" (Ix 6)) (Cst 1));
    SetL "b" (Ix 7) (Ln "a" (Ix 7));
    SetL "a" (Ix 7) (B2 ISub (Ln "a" (Ix 7)) (Cst 1));
    SetL "b" (Ix 8) (Ln "a" (Ix 8));
    SetL "a" (Ix 8) (B2 ISub (Ln "a" (Ix 8)) (Cst 1));
    SetL "b" (Ix 9) (Ln "a" (Ix 9));
    SetL "a" (Ix 9) (B2 ISub (Ln "a" (Ix 9)) (Cst 1));
    SetL "b" (Ix 10) (Ln "a" (Ix 10));
    SetL "a" (Ix 10) (B2 ISub (Ln "a" (Ix 10)) (Cst 1));
    SetL "b" (Ix 11) (Ln "a" (Ix 11));
    SetL "a" (Ix 11) (B2 ISub (Ln "a" (Ix 11)) (Cst 1));
    SetL "b" (Ix 12) (Ln "a" (Ix 12));
    SetL "a" (Ix 12) (B2 ISub (Ln "a" (Ix 12)) (Cst 1));
    SetL "b" (Ix 13) (Ln "a" (Ix 13));
    SetL "a" (Ix 13) (B2 ISub (Ln "a" (Ix 13)) (Cst 1));
    SetL "b" (Ix 14) (Ln "a" (Ix 14));
    SetL "a" (Ix 14) (B2 ISub (Ln "a" (Ix 14)) (Cst 1));
    SetL "b" (Ix 15) (Ln "a" (Ix 15));
    SetL "a" (Ix 15) (B2 ISub (Ln "a" (Ix 15)) (Cst 1))]
   ["b"; "a"];
  (* v16/v16_portable.h:3263-3263 *)
  fnc "int +" 3263 [("a", 16); ("b", 16)]
   [SetL "c" (Ix 0) (B2 IAdd (Ln "a" (Ix 0)) (Ln "b" (Ix 0)));
    SetL "c" (Ix 1) (B2 IAdd (Ln "a" (Ix 1)) (Ln "b" (Ix 1)));
    SetL "c" (Ix 2) (B2 IAdd (Ln "a" (Ix 2)) (Ln "b" (Ix 2)));
    SetL "c" (Ix 3) (B2 IAdd (Ln "a" (Ix 3)) (Ln "b" (Ix 3)));
    SetL "c" (Ix 4) (B2 IAdd (Ln "a" (Ix 4)) (Ln "b" (Ix 4)));
    SetL "c" (Ix 5) (B2 IAdd (Ln "a" (Ix 5)) (Ln "b" (Ix 5)));
    SetL "c" (Ix 6) (B2 IAdd (Ln "a" (Ix 6)) (Ln "b" (Ix 6)));
    SetL "c" (Ix 7) (B2 IAdd (Ln "a" (Ix 7)) (Ln "b" (Ix 7)));
    SetL "c" (Ix 8) (B2 IAdd (Ln "a" (Ix 8)) (Ln "b" (Ix 8)));
    SetL "c" (Ix 9) (B2 IAdd (Ln "a" (Ix 9)) (Ln "b" (Ix 9)));
    SetL "c" (Ix 10) (B2 IAdd (Ln "a" (Ix 10)) (Ln "b" (Ix 10)));
    SetL "c" (Ix 11) (B2 IAdd (Ln "a" (Ix 11)) (Ln "b" (Ix 11)));
    SetL "c" (Ix 12) (B2 IAdd (Ln "a" (Ix 12)) (Ln "b" (Ix 12)));
    SetL "c" (Ix 13) (B2 IAdd (Ln "a" (Ix 13)) (Ln "b" (Ix 13)));
    SetL "c" (Ix 14) (B2 IAdd (Ln "a" (Ix 14)) (Ln "b" (Ix 14)));
    SetL "c" (Ix 15) (B2 IAdd (Ln "a" (Ix 15)) (Ln "b" (Ix 15)))]
   ["c"];
  (* v16/v16_portable.h:3264-3264 *)
  fnc "int -" 3264 [("a", 16); ("b", 16)]
   [SetL "c" (Ix 0) (B2 ISub (Ln "a" (Ix 0)) (Ln "b" (Ix 0)));
    SetL "c" (Ix 1) (B2 ISub (Ln "a" (Ix 1)) (Ln "b" (Ix 1)));
    SetL "c" (Ix 2) (B2 ISub (Ln "a" (Ix 2)) (Ln "b" (Ix 2)));
    SetL "c" (Ix 3) (B2 ISub (Ln "a" (Ix 3)) (Ln "b" (Ix 3)));
    SetL "c" (Ix 4) (B2 ISub (Ln "a" (Ix 4)) (Ln "b" (Ix 4)));
    SetL "c" (Ix 5) (B2 ISub (Ln "a" (Ix 5)) (Ln "b" (Ix 5)));
    SetL "c" (Ix 6) (B2 ISub (Ln "a" (Ix 6)) (Ln "b" (Ix 6)));
    SetL "c" (Ix 7) (B2 ISub (Ln "a" (Ix 7)) (Ln "b" (Ix 7)));
    SetL "c" (Ix 8) (B2 ISub (Ln "a" (Ix 8)) (Ln "b" (Ix 8)));
    SetL "c" (Ix 9) (B2 ISub (Ln "a" (Ix 9)) (Ln "b" (Ix 9)));
    SetL "c" (Ix 10) (B2 ISub (Ln "a" (Ix 10)) (Ln "b" (Ix 10)));
    SetL "c" (Ix 11) (B2 ISub (Ln "a" (Ix 11)) (Ln "b" (Ix 11)));
    SetL "c" (Ix 12) (B2 ISub (Ln "a" (Ix 12)) (Ln "b" (Ix 12)));
    SetL "c" (Ix 13) (B2 ISub (Ln "a" (Ix 13)) (Ln "b" (Ix 13)));
    SetL "c" (Ix 14) (B2 ISub (Ln "a" (Ix 14)) (Ln "b" (Ix 14)));
    SetL "c" (Ix 15) (B2 ISub (Ln "a" (Ix 15)) (Ln "b" (Ix 15)))]
   ["c"];
  (* v16/v16_portable.h:3265-3265 *)
  fnc "int *" 3265 [("a", 16); ("b", 16)]
   [SetL "c" (Ix 0) (B2 IMul (Ln "a" (Ix 0)) (Ln "b" (Ix 0)));
    SetL "c" (Ix 1) (B2 IMul (Ln "a" (Ix 1)) (Ln "b" (Ix 1)));
    SetL "c" (Ix 2) (B2 IMul (Ln "a" (Ix 2)) (Ln "b" (Ix 2)));
    SetL "c" (Ix 3) (B2 IMul (Ln "a" (Ix 3)) (Ln "b" (Ix 3)));
    SetL "c" (Ix 4) (B2 IMul (Ln "a" (Ix 4)) (Ln "b" (Ix 4)));
    SetL "c" (Ix 5) (B2 IMul (Ln "a" (Ix 5)) (Ln "b" (Ix 5)));
    SetL "c" (Ix 6) (B2 IMul (Ln "a" (Ix 6)) (Ln "b" (Ix 6)));
    SetL "c" (Ix 7) (B2 IMul (Ln "a" (Ix 7)) (Ln "b" (Ix 7)));
    SetL "c" (Ix 8) (B2 IMul (Ln "a" (Ix 8)) (Ln "b" (Ix 8)));
    SetL "c" (Ix 9) (B2 IMul (Ln "a" (Ix 9)) (Ln "b" (Ix 9)));
    SetL "c" (Ix 10) (B2 IMul (Ln "a" (Ix 10)) (Ln "b" (Ix 10)));
    SetL "c" (Ix 11) (B2 IMul (Ln "a" (Ix 11)) (Ln "b" (Ix 11)));
    SetL "c" (Ix 12) (B2 IMul (Ln "a" (Ix 12)) (Ln "b" (Ix 12)));
    SetL "c" (Ix 13) (B2 IMul (Ln "a" (Ix 13)) (Ln "b" (Ix 13)));
    SetL "c" (Ix 14) (B2 IMul (Ln "a" (Ix 14)) (Ln "b" (Ix 14)));
    SetL "c" (Ix 15) (B2 IMul (Ln "a" (Ix 15)) (Ln "b" (Ix 15)))]
   ["c"];
  (* v16/v16_portable.h:3266-3266 *)
  fnc "int /" 3266 [("a", 16); ("b", 16)]
   [SetL "c" (Ix 0) (B2 IDiv (Ln "a" (Ix 0)) (Ln "b" (Ix 0)));
    SetL "c" (Ix 1) (B2 IDiv (Ln "a" (Ix 1)) (Ln "b" (Ix 1)));
    SetL "c" (Ix 2) (B2 IDiv (Ln "a" (Ix 2)) (Ln "b" (Ix 2)));
    SetL "c" (Ix 3) (B2 IDiv (Ln "a" (Ix 3)) (Ln "b" (Ix 3)));
    SetL "c" (Ix 4) (B2 IDiv (Ln "a" (Ix 4)) (Ln "b" (Ix 4)));
    SetL "c" (Ix 5) (B2 IDiv (Ln "a" (Ix 5)) (Ln "b" (Ix 5)));
    SetL "c" (Ix 6) (B2 IDiv (Ln "a" (Ix 6)) (Ln "b" (Ix 6)));
    SetL "c" (Ix 7) (B2 IDiv (Ln "a" (Ix 7)) (Ln "b" (Ix 7)));
    SetL "c" (Ix 8) (B2 IDiv (Ln "a" (Ix 8)) (Ln "b" (Ix 8)));
    SetL "c" (Ix 9) (B2 IDiv (Ln "a" (Ix 9)) (Ln "b" (Ix 9)));
    SetL "c" (Ix 10) (B2 IDiv (Ln "a" (Ix 10)) (Ln "b" (Ix 10)));
    SetL "c" (Ix 11) (B2 IDiv (Ln "a" (Ix 11)) (Ln "b" (Ix 11)));
    SetL "c" (Ix 12) (B2 IDiv (Ln "a" (Ix 12)) (Ln "b" (Ix 12)));
    SetL "c" (Ix 13) (B2 IDiv (Ln "a" (Ix 13)) (Ln "b" (Ix 13)));
    SetL "c" (Ix 14) (B2 IDiv (Ln "a" (Ix 14)) (Ln "b" (Ix 14)));
    SetL "c" (Ix 15) (B2 IDiv (Ln "a" (Ix 15)) (Ln "b" (Ix 15)))]
   ["c"];
  (* v16/v16_portable.h:3267-3267 *)
  fnc "int %" 3267 [("a", 16); ("b", 16)]
   [SetL "c" (Ix 0) (B2 IMod (Ln "a" (Ix 0)) (Ln "b" (Ix 0)));
    SetL "c" (Ix 1) (B2 IMod (Ln "a" (Ix 1)) (Ln "b" (Ix 1)));
    SetL "c" (Ix 2) (B2 IMod (Ln "a" (Ix 2)) (Ln "b" (Ix 2)));
    SetL "c" (Ix 3) (B2 IMod (Ln "a" (Ix 3)) (Ln "b" (Ix 3)));
    SetL "c" (Ix 4) (B2 IMod (Ln "a" (Ix 4)) (Ln "b" (Ix 4)));
    SetL "c" (Ix 5) (B2 IMod (Ln "a" (Ix 5)) (Ln "b" (Ix 5)));
    SetL "c" (Ix 6) (B2 IMod (Ln "a" (Ix 6)) (Ln "b" (Ix 6)));
    SetL "c" (Ix 7) (B2 IMod (Ln "a" (Ix 7)) (Ln "b" (Ix 7)));
    SetL "c" (Ix 8) (B2 IMod (Ln "a" (Ix 8)) (Ln "b" (Ix 8)));
    SetL "c" (Ix 9) (B2 IMod (Ln "a" (Ix 9)) (Ln "b" (Ix 9)));
    SetL "c" (Ix 10) (B2 IMod (Ln "a" (Ix 10)) (Ln "b" (Ix 10)));
    SetL "c" (Ix 11) (B2 IMod (Ln "a" (Ix 11)) (Ln "b" (Ix 11)));
    SetL "c" (Ix 12) (B2 IMod (Ln "a" (Ix 12)) (Ln "b" (Ix 12)));
    SetL "c" (Ix 13) (B2 IMod (Ln "a" (Ix 13)) (Ln "b" (Ix 13)));
    SetL "c" (Ix 14) (B2 IMod (Ln "a" (Ix 14)) (Ln "b" (Ix 14)));
    SetL "c" (Ix 15) (B2 IMod (Ln "a" (Ix 15)) (Ln "b" (Ix 15)))]
   ["c"];
  (* v16/v16_portable.h:3268-3268 *)
  fnc "int ^" 3268 [("a", 16); ("b", 16)]
   [SetL "c" (Ix 0) (B2 IXor (Ln "a" (Ix 0)) (Ln "b" (Ix 0)));
    SetL "c" (Ix 1) (B2 IXor (Ln "a" (Ix 1)) (Ln "b" (Ix 1)));
    SetL "c" (Ix 2) (B2 IXor (Ln "a" (Ix 2)) (Ln "b" (Ix 2)));
    SetL "c" (Ix 3) (B2 IXor (Ln "a" (Ix 3)) (Ln "b" (Ix 3)));
    SetL "c" (Ix 4) (B2 IXor (Ln "a" (Ix 4)) (Ln "b" (Ix 4)));
    SetL "c" (Ix 5) (B2 IXor (Ln "a" (Ix 5)) (Ln "b" (Ix 5)));
    SetL "c" (Ix 6) (B2 IXor (Ln "a" (Ix 6)) (Ln "b" (Ix 6)));
    SetL "c" (Ix 7) (B2 IXor (Ln "a" (Ix 7)) (Ln "b" (Ix 7)));
    SetL "c" (Ix 8) (B2 IXor (Ln "a" (Ix 8)) (Ln "b" (Ix 8)));
    SetL "c" (Ix 9) (B2 IXor (Ln "a" (Ix 9)) (Ln "b" (Ix 9)));
    SetL "c" (Ix 10) (B2 IXor (Ln "a" (Ix 10)) (Ln "b" (Ix 10)));
    SetL "c" (Ix 11) (B2 IXor (Ln "a" (Ix 11)) (Ln "b" (Ix 11)));
    SetL "c" (Ix 12) (B2 IXor (Ln "a" (Ix 12)) (Ln "b" (Ix 12)));
    SetL "c" (Ix 13) (B2 IXor (Ln "a" (Ix 13)) (Ln "b" (Ix 13)));
    SetL "c" (Ix 14) (B2 IXor (Ln "a" (Ix 14)) (Ln "b" (Ix 14)));
    SetL "c" (Ix 15) (B2 IXor (Ln "a" (Ix 15)) (Ln "b" (Ix 15)))]
   ["c"];
  (* v16/v16_portable.h:3269-3269 *)
  fnc "int &" 3269 [("a", 16); ("b", 16)]
   [SetL "c" (Ix 0) (B2 IAnd (Ln "a" (Ix 0)) (Ln "b" (Ix 0)));
    SetL "c" (Ix 1) (B2 IAnd (Ln "a" (Ix 1)) (Ln "b" (Ix 1)));
    SetL "c" (Ix 2) (B2 IAnd (Ln "a" (Ix 2)) (Ln "b" (Ix 2)));
    SetL "c" (Ix 3) (B2 IAnd (Ln "a" (Ix 3)) (Ln "b" (Ix 3)));
    SetL "c" (Ix 4) (B2 IAnd (Ln "a" (Ix 4)) (Ln "b" (Ix 4)));
    SetL "c" (Ix 5) (B2 IAnd (Ln "a" (Ix 5)) (Ln "b" (Ix 5)));
    SetL "c" (Ix 6) (B2 IAnd (Ln "a" (Ix 6)) (Ln "b" (Ix 6)));
    SetL "c" (Ix 7) (B2 IAnd (Ln "a" (Ix 7)) (Ln "b" (Ix 7)));
    SetL "c" (Ix 8) (B2 IAnd (Ln "a" (Ix 8)) (Ln "b" (Ix 8)));
    SetL "c" (Ix 9) (B2 IAnd (Ln "a" (Ix 9)) (Ln "b" (Ix 9)));
    SetL "c" (Ix 10) (B2 IAnd (Ln "a" (Ix 10)) (Ln "b" (Ix 10)));
    SetL "c" (Ix 11) (B2 IAnd (Ln "a" (Ix 11)) (Ln "b" (Ix 11)));
    SetL "c" (Ix 12) (B2 IAnd (Ln "a" (Ix 12)) (Ln "b" (Ix 12)));
    SetL "c" (Ix 13) (B2 IAnd (Ln "a" (Ix 13)) (Ln "b" (Ix 13)));
    SetL "c" (Ix 14) (B2 IAnd (Ln "a" (Ix 14)) (Ln "b" (Ix 14)));
    SetL "c" (Ix 15) (B2 IAnd (Ln "a" (Ix 15)) (Ln "b" (Ix 15)))]
   ["c"];
  (* v16/v16_portable.h:3270-3270 *)
  fnc "int |" 3270 [("a", 16); ("b", 16)]
   [SetL "c" (Ix 0) (B2 IOr (Ln "a" (Ix 0)) (Ln "b" (Ix 0)));
    SetL "c" (Ix 1) (B2 IOr (Ln "a" (Ix 1)) (Ln "b" (Ix 1)));
    SetL "c" (Ix 2) (B2 IOr (Ln "a" (Ix 2)) (Ln "b" (Ix 2)));
    SetL "c" (Ix 3) (B2 IOr (Ln "a" (Ix 3)) (Ln "b" (Ix 3)));
    SetL "c" (Ix 4) (B2 IOr (Ln "a" (Ix 4)) (Ln "b" (Ix 4)));
    SetL "c" (Ix 5) (B2 IOr (Ln "a" (Ix 5)) (Ln "b" (Ix 5)));
    SetL "c" (Ix 6) (B2 IOr (Ln "a" (Ix 6)) (Ln "b" (Ix 6)));
    SetL "c" (Ix 7) (B2 IOr (Ln "a" (Ix 7)) (Ln "b" (Ix 7)));
    SetL "c" (Ix 8) (B2 IOr (Ln "a" (Ix 8)) (Ln "b" (Ix 8)));
    SetL "c" (Ix 9) (B2 IOr (Ln "a" (Ix 9)) (Ln "b" (Ix 9)));
    SetL "c" (Ix 10) (B2 IOr (Ln "a" (Ix 10)) (Ln "b" (Ix 10)));
    SetL "c" (Ix 11) (B2 IOr (Ln "a" (Ix 11)) (Ln "b" (Ix 11)));
    SetL "c" (Ix 12) (B2 IOr (Ln "a" (Ix 12)) (Ln "b" (Ix 12)));
    SetL "c" (Ix 13) (B2 IOr (Ln "a" (Ix 13)) (Ln "b" (Ix 13)));
    SetL "c" (Ix 14) (B2 IOr (Ln "a" (Ix 14)) (Ln "b" (Ix 14)));
    SetL "c" (Ix 15) (B2 IOr (Ln "a" (Ix 15)) (Ln "b" (Ix 15)))]
   ["c"];
  (* v16/v16_portable.h:3271-3271 *)
  fnc "int <<" 3271 [("a", 16); ("b", 16)]
   [SetL "c" (Ix 0) (B2 IShl (Ln "a" (Ix 0)) (Ln "b" (Ix 0)));
    SetL "c" (Ix 1) (B2 IShl (Ln "a" (Ix 1)) (Ln "b" (Ix 1)));
    SetL "c" (Ix 2) (B2 IShl (Ln "a" (Ix 2)) (Ln "b" (Ix 2)));
    SetL "c" (Ix 3) (B2 IShl (Ln "a" (Ix 3)) (Ln "b" (Ix 3)));
    SetL "c" (Ix 4) (B2 IShl (Ln "a" (Ix 4)) (Ln "b" (Ix 4)));
    SetL "c" (Ix 5) (B2 IShl (Ln "a" (Ix 5)) (Ln "b" (Ix 5)));
    SetL "c" (Ix 6) (B2 IShl (Ln "a" (Ix 6)) (Ln "b" (Ix 6)));
    SetL "c" (Ix 7) (B2 IShl (Ln "a" (Ix 7)) (Ln "b" (Ix 7)));
    SetL "c" (Ix 8) (B2 IShl (Ln "a" (Ix 8)) (Ln "b" (Ix 8)));
    SetL "c" (Ix 9) (B2 IShl (Ln "a" (Ix 9)) (Ln "b" (Ix 9)));
    SetL "c" (Ix 10) (B2 IShl (Ln "a" (Ix 10)) (Ln "b" (Ix 10)));
    SetL "c" (Ix 11) (B2 IShl (Ln "a" (Ix 11)) (Ln "b" (Ix 11)));
    SetL "c" (Ix 12) (B2 IShl (Ln "a" (Ix 12)) (Ln "b" (Ix 12)));
    SetL "c" (Ix 13) (B2 IShl (Ln "a" (Ix 13)) (Ln "b" (Ix 13)));
    SetL "c" (Ix 14) (B2 IShl (Ln "a" (Ix 14)) (Ln "b" (Ix 14)));
    SetL "c" (Ix 15) (B2 IShl (Ln "a" (Ix 15)) (Ln "b" (Ix 15)))]
   ["c"];
  (* v16/v16_portable.h:3272-3272 *)
  fnc "int >>" 3272 [("a", 16); ("b", 16)]
   [SetL "c" (Ix 0) (B2 IShr (Ln "a" (Ix 0)) (Ln "b" (Ix 0)));
    SetL "c" (Ix 1) (B2 IShr (Ln "a" (Ix 1)) (Ln "b" (Ix 1)));
    SetL "c" (Ix 2) (B2 IShr (Ln "a" (Ix 2)) (Ln "b" (Ix 2)));
    SetL "c" (Ix 3) (B2 IShr (Ln "a" (Ix 3)) (Ln "b" (Ix 3)));
    SetL "c" (Ix 4) (B2 IShr (Ln "a" (Ix 4)) (Ln "b" (Ix 4)));
    SetL "c" (Ix 5) (B2 IShr (Ln "a" (Ix 5)) (Ln "b" (Ix 5)));
    SetL "c" (Ix 6) (B2 IShr (Ln "a" (Ix 6)) (Ln "b" (Ix 6)));
    SetL "c" (Ix 7) (B2 IShr (Ln "a" (Ix 7)) (Ln "b" (Ix 7)));
    SetL "c" (Ix 8) (B2 IShr (Ln "a" (Ix 8)) (Ln "b" (Ix 8)));
    SetL "c" (Ix 9) (B2 IShr (Ln "a" (Ix 9)) (Ln "b" (Ix 9)));
    SetL "c" (Ix 10) (B2 IShr (Ln "a" (Ix 10)) (Ln "b" (Ix 10)));
    SetL "c" (Ix 11) (B2 IShr (Ln "a" (Ix 11)) (Ln "b" (Ix 11)));
    SetL "c" (Ix 12) (B2 IShr (Ln "a" (Ix 12)) (Ln "b" (Ix 12)));
    SetL "c" (Ix 13) (B2 IShr (Ln "a" (Ix 13)) (Ln "b" (Ix 13)));
    SetL "c" (Ix 14) (B2 IShr (Ln "a" (Ix 14)) (Ln "b" (Ix 14)));
    SetL "c" (Ix 15) (B2 IShr (Ln "a" (Ix 15)) (Ln "b" (Ix 15)))]
   ["c"];
  (* v16/v16_portable.h:3301-3301 *)
  fnc "int <" 3301 [("a", 16); ("b", 16)]
   [SetL "c" (Ix 0) (U1 INeg (B2 ILt (Ln "a" (Ix 0)) (Ln "b" (Ix 0))));
    SetL "c" (Ix 1) (U1 INeg (B2 ILt (Ln "a" (Ix 1)) (Ln "b" (Ix 1))));
    SetL "c" (Ix 2) (U1 INeg (B2 ILt (Ln "a" (Ix 2)) (Ln "b" (Ix 2))));
    SetL "c" (Ix 3) (U1 INeg (B2 ILt (Ln "a" (Ix 3)) (Ln "b" (Ix 3))));
    SetL "c" (Ix 4) (U1 INeg (B2 ILt (Ln "a" (Ix 4)) (Ln "b" (Ix 4))));
    SetL "c" (Ix 5) (U1 INeg (B2 ILt (Ln "a" (Ix 5)) (Ln "b" (Ix 5))));
    SetL "c" (Ix 6) (U1 INeg (B2 ILt (Ln "a" (Ix 6)) (Ln "b" (Ix 6))));
    SetL "c" (Ix 7) (U1 INeg (B2 ILt (Ln "a" (Ix 7)) (Ln "b" (Ix 7))));
    SetL "c" (Ix 8) (U1 INeg (B2 ILt (Ln "a" (Ix 8)) (Ln "b" (Ix 8))));
    SetL "c" (Ix 9) (U1 INeg (B2 ILt (Ln "a" (Ix 9)) (Ln "b" (Ix 9))));
    SetL "c" (Ix 10) (U1 INeg (B2 ILt (Ln "a" (Ix 10)) (Ln "b" (Ix 10))));
    SetL "c" (Ix 11) (U1 INeg (B2 ILt (Ln "a" (Ix 11)) (Ln "b" (Ix 11))));
    SetL "c" (Ix 12) (U1 INeg (B2 ILt (Ln "a" (Ix 12)) (Ln "b" (Ix 12))));
    SetL "c" (Ix 13) (U1 INeg (B2 ILt (Ln "a" (Ix 13)) (Ln "b" (Ix 13))));
    SetL "c" (Ix 14) (U1 INeg (B2 ILt (Ln "a" (Ix 14)) (Ln "b" (Ix 14))));
    SetL "c" (Ix 15) (U1 INeg (B2 ILt (Ln "a" (Ix 15)) (Ln "b" (Ix 15))))]
   ["c"];
  (* v16/v16_portable.h:3302-3302 *)
  fnc "int >" 3302 [("a", 16); ("b", 16)]
   [SetL "c" (Ix 0) (U1 INeg (B2 IGt (Ln "a" (Ix 0)) (Ln "b" (Ix 0))));
    SetL "c" (Ix 1) (U1 INeg (B2 IGt (Ln "a" (Ix 1)) (Ln "b" (Ix 1))));
    SetL "c" (Ix 2) (U1 INeg (B2 IGt (Ln "a" (Ix 2)) (Ln "b" (Ix 2))));
    SetL "c" (Ix 3) (U1 INeg (B2 IGt (Ln "a" (Ix 3)) (Ln "b" (Ix 3))));
    SetL "c" (Ix 4) (U1 INeg (B2 IGt (Ln "a" (Ix 4)) (Ln "b" (Ix 4))));
    SetL "c" (Ix 5) (U1 INeg (B2 IGt (Ln "a" (Ix 5)) (Ln "b" (Ix 5))));
    SetL "c" (Ix 6) (U1 INeg (B2 IGt (Ln "a" (Ix 6)) (Ln "b" (Ix 6))));
    SetL "c" (Ix 7) (U1 INeg (B2 IGt (Ln "a" (Ix 7)) (Ln "b" (Ix 7))));
    SetL "c" (Ix 8) (U1 INeg (B2 IGt (Ln "a" (Ix 8)) (Ln "b" (Ix 8))));
    SetL "c" (Ix 9) (U1 INeg (B2 IGt (Ln "a" (Ix 9)) (Ln "b" (Ix 9))));
    SetL "c" (Ix 10) (U1 INeg (B2 IGt (Ln "a" (Ix 10)) (Ln "b" (Ix 10))));
    SetL "c" (Ix 11) (U1 INeg (B2 IGt (Ln "a" (Ix 11)) (Ln "b" (Ix 11))));
    SetL "c" (Ix 12) (U1 INeg (B2 IGt (Ln "a" (Ix 12)) (Ln "b" (Ix 12))));
    SetL "c" (Ix 13) (U1 INeg (B2 IGt (Ln "a" (Ix 13)) (Ln "b" (Ix 13))));
    SetL "c" (Ix 14) (U1 INeg (B2 IGt (Ln "a" (Ix 14)) (Ln "b" (Ix 14))));
    SetL "c" (Ix 15) (U1 INeg (B2 IGt (Ln "a" (Ix 15)) (Ln "b" (Ix 15))))]
   ["c"];
  (* v16/v16_portable.h:3303-3303 *)
  fnc "int ==" 3303 [("a", 16); ("b", 16)]
   [SetL "c" (Ix 0) (U1 INeg (B2 IEq (Ln "a" (Ix 0)) (Ln "b" (Ix 0))));
    SetL "c" (Ix 1) (U1 INeg (B2 IEq (Ln "a" (Ix 1)) (Ln "b" (Ix 1))));
    SetL "c" (Ix 2) (U1 INeg (B2 IEq (Ln "a" (Ix 2)) (Ln "b" (Ix 2))));
    SetL "c" (Ix 3) (U1 INeg (B2 IEq (Ln "a" (Ix 3)) (Ln "b" (Ix 3))));
    SetL "c" (Ix 4) (U1 INeg (B2 IEq (Ln "a" (Ix 4)) (Ln "b" (Ix 4))));
    SetL "c" (Ix 5) (U1 INeg (B2 IEq (Ln "a" (Ix 5)) (Ln "b" (Ix 5))));
    SetL "c" (Ix 6) (U1 INeg (B2 IEq (Ln "a" (Ix 6)) (Ln "b" (Ix 6))));
    SetL "c" (Ix 7) (U1 INeg (B2 IEq (Ln "a" (Ix 7)) (Ln "b" (Ix 7))));
    SetL "c" (Ix 8) (U1 INeg (B2 IEq (Ln "a" (Ix 8)) (Ln "b" (Ix 8))));
    SetL "c" (Ix 9) (U1 INeg (B2 IEq (Ln "a" (Ix 9)) (Ln "b" (Ix 9))));
    SetL "c" (Ix 10) (U1 INeg (B2 IEq (Ln "a" (Ix 10)) (Ln "b" (Ix 10))));
    SetL "c" (Ix 11) (U1 INeg (B2 IEq (Ln "a" (Ix 11)) (Ln "b" (Ix 11))));
    SetL "c" (Ix 12) (U1 INeg (B2 IEq (Ln "a" (Ix 12)) (Ln "b" (Ix 12))));
    SetL "c" (Ix 13) (U1 INeg (B2 IEq (Ln "a" (Ix 13)) (Ln "b" (Ix 13))));
    SetL "c" (Ix 14) (U1 INeg (B2 IEq (Ln "a" (Ix 14)) (Ln "b" (Ix 14))));
    SetL "c" (Ix 15) (U1 INeg (B2 IEq (Ln "a" (Ix 15)) (Ln "b" (Ix 15))))]
   ["c"];
  (* v16/v16_portable.h:3304-3304 *)
  fnc "int !=" 3304 [("a", 16); ("b", 16)]
   [SetL "c" (Ix 0) (U1 INeg (B2 INe (Ln "a" (Ix 0)) (Ln "b" (Ix 0))));
    SetL "c" (Ix 1) (U1 INeg (B2 INe (Ln "a" (Ix 1)) (Ln "b" (Ix 1))));
    SetL "c" (Ix 2) (U1 INeg (B2 INe (Ln "a" (Ix 2)) (Ln "b" (Ix 2))));
    SetL "c" (Ix 3) (U1 INeg (B2 INe (Ln "a" (Ix 3)) (Ln "b" (Ix 3))));
    SetL "c" (Ix 4) (U1 INeg (B2 INe (Ln "a" (Ix 4)) (Ln "b" (Ix 4))));
    SetL "c" (Ix 5) (U1 INeg (B2 INe (Ln "a" (Ix 5)) (Ln "b" (Ix 5))));
    SetL "c" (Ix 6) (U1 INeg (B2 INe (Ln "a" (Ix 6)) (Ln "b" (Ix 6))));
    SetL "c" (Ix 7) (U1 INeg (B2 INe (Ln "a" (Ix 7)) (Ln "b" (Ix 7))));
    SetL "c" (Ix 8) (U1 INeg (B2 INe (Ln "a" (Ix 8)) (Ln "b" (Ix 8))));
    SetL "c" (Ix 9) (U1 INeg (B2 INe (Ln "a" (Ix 9)) (Ln "b" (Ix 9))));
    SetL "c" (Ix 10) (U1 INeg (B2 INe (Ln "a" (Ix 10)) (Ln "b" (Ix 10))));
    SetL "c" (Ix 11) (U1 INeg (B2 INe (Ln "a" (Ix 11)) (Ln "b" (Ix 11))));
    SetL "c" (Ix 12) (U1 INeg (B2 INe (Ln "a" (Ix 12)) (Ln "b" (Ix 12))));
    SetL "c" (Ix 13) (U1 INeg (B2 INe (Ln "a" (Ix 13)) (Ln "b" (Ix 13))));
    SetL "c" (Ix 14) (U1 INeg (B2 INe (Ln "a" (Ix 14)) (Ln "b" (Ix 14))));
    SetL "c" (Ix 15) (U1 INeg (B2 INe (Ln "a" (Ix 15)) (Ln "b" (Ix 15))))]
   ["c"];
  (* v16/v16_portable.h:3305-3305 *)
  fnc "int <=" 3305 [("a", 16); ("b", 16)]
   [SetL "c" (Ix 0) (U1 INeg (B2 ILe (Ln "a" (Ix 0)) (Ln "b" (Ix 0))));
    SetL "c" (Ix 1) (U1 INeg (B2 ILe (Ln "a" (Ix 1)) (Ln "b" (Ix 1))));
    SetL "c" (Ix 2) (U1 INeg (B2 ILe (Ln "a" (Ix 2)) (Ln "b" (Ix 2))));
    SetL "c" (Ix 3) (U1 INeg (B2 ILe (Ln "a" (Ix 3)) (Ln "b" (Ix 3))));
    SetL "c" (Ix 4) (U1 INeg (B2 ILe (Ln "a" (Ix 4)) (Ln "b" (Ix 4))));
    SetL "c" (Ix 5) (U1 INeg (B2 ILe (Ln "a" (Ix 5)) (Ln "b" (Ix 5))));
    SetL "c" (Ix 6) (U1 INeg (B2 ILe (Ln "a" (Ix 6)) (Ln "b" (Ix 6))));
    SetL "c" (Ix 7) (U1 INeg (B2 ILe (Ln "a" (Ix 7)) (Ln "b" (Ix 7))));
    SetL "c" (Ix 8) (U1 INeg (B2 ILe (Ln "a" (Ix 8)) (Ln "b" (Ix 8))));
    SetL "c" (Ix 9) (U1 INeg (B2 ILe (Ln "a" (Ix 9)) (Ln "b" (Ix 9))));
    SetL "c" (Ix 10) (U1 INeg (B2 ILe (Ln "a" (Ix 10)) (Ln "b" (Ix 10))));
    SetL "c" (Ix 11) (U1 INeg (B2 ILe (Ln "a" (Ix 11)) (Ln "b" (Ix 11))));
    SetL "c" (Ix 12) (U1 INeg (B2 ILe (Ln "a" (Ix 12)) (Ln "b" (Ix 12))));
    SetL "c" (Ix 13) (U1 INeg (B2 ILe (Ln "a" (Ix 13)) (Ln "b" (Ix 13))));
    SetL "c" (Ix 14) (U1 INeg (B2 ILe (Ln "a" (Ix 14)) (Ln "b" (Ix 14))));
    SetL "c" (Ix 15) (U1 INeg (B2 ILe (Ln "a" (Ix 15)) (Ln "b" (Ix 15))))]
   ["c"];
  (* v16/v16_portable.h:3306-3306 *)
  fnc "int >=" 3306 [("a", 16); ("b", 16)]
   [SetL "c" (Ix 0) (U1 INeg (B2 IGe (Ln "a" (Ix 0)) (Ln "b" (Ix 0))));
    SetL "c" (Ix 1) (U1 INeg (B2 IGe (Ln "a" (Ix 1)) (Ln "b" (Ix 1))));
    SetL "c" (Ix 2) (U1 INeg (B2 IGe (Ln "a" (Ix 2)) (Ln "b" (Ix 2))));
    SetL "c" (Ix 3) (U1 INeg (B2 IGe (Ln "a" (Ix 3)) (Ln "b" (Ix 3))));
    SetL "c" (Ix 4) (U1 INeg (B2 IGe (Ln "a" (Ix 4)) (Ln "b" (Ix 4))));
    SetL "c" (Ix 5) (U1 INeg (B2 IGe (Ln "a" (Ix 5)) (Ln "b" (Ix 5))));
    SetL "c" (Ix 6) (U1 INeg (B2 IGe (Ln "a" (Ix 6)) (Ln "b" (Ix 6))));
    SetL "c" (Ix 7) (U1 INeg (B2 IGe (Ln "a" (Ix 7)) (Ln "b" (Ix 7))));
    SetL "c" (Ix 8) (U1 INeg (B2 IGe (Ln "a" (Ix 8)) (Ln "b" (Ix 8))));
    SetL "c" (Ix 9) (U1 INeg (B2 IGe (Ln "a" (Ix 9)) (Ln "b" (Ix 9))));
    SetL "c" (Ix 10) (U1 INeg (B2 IGe (Ln "a" (Ix 10)) (Ln "b" (Ix 10))));
    SetL "c" (Ix 11) (U1 INeg (B2 IGe (Ln "a" (Ix 11)) (Ln "b" (Ix 11))));
    SetL "c" (Ix 12) (U1 INeg (B2 IGe (Ln "a" (Ix 12)) (Ln "b" (Ix 12))));
    SetL "c" (Ix 13) (U1 INeg (B2 IGe (Ln "a" (Ix 13)) (Ln "b" (Ix 13))));
    SetL "c" (Ix 14) (U1 INeg (B2 IGe (Ln "a" (Ix 14)) (Ln "b" (Ix 14))));
    SetL "c" (Ix 15) (U1 INeg (B2 IGe (Ln "a" (Ix 15)) (Ln "b" (Ix 15))))]
   ["c"];
  (* v16/v16_portable.h:3307-3307 *)
  fnc "int &&" 3307 [("a", 16); ("b", 16)]
   [SetL "c" (Ix 0) (U1 INeg (B2 ILAnd (Ln "a" (Ix 0)) (Ln "b" (Ix 0))));
    SetL "c" (Ix 1) (U1 INeg (B2 ILAnd (Ln "a" (Ix 1)) (Ln "b" (Ix 1))));
    SetL "c" (Ix 2) (U1 INeg (B2 ILAnd (Ln "a" (Ix 2)) (Ln "b" (Ix 2))));
    SetL "c" (Ix 3) (U1 INeg (B2 ILAnd (Ln "a" (Ix 3)) (Ln "b" (Ix 3))));
    SetL "c" (Ix 4) (U1 INeg (B2 ILAnd (Ln "a" (Ix 4)) (Ln "b" (Ix 4))));
    SetL "c" (Ix 5) (U1 INeg (B2 ILAnd (Ln "a" (Ix 5)) (Ln "b" (Ix 5))));
    SetL "c" (Ix 6) (U1 INeg (B2 ILAnd (Ln "a" (Ix 6)) (Ln "b" (Ix 6))));
    SetL "c" (Ix 7) (U1 INeg (B2 ILAnd (Ln "a" (Ix 7)) (Ln "b" (Ix 7))));
    SetL "c" (Ix 8) (U1 INeg (B2 ILAnd (Ln "a" (Ix 8)) (Ln "b" (Ix 8))));
    SetL "c" (Ix 9) (U1 INeg (B2 ILAnd (Ln "a" (Ix 9)) (Ln "b" (Ix 9))));
    SetL "c" (Ix 10) (U1 INeg (B2 ILAnd (Ln "a" (Ix 10)) (Ln "b" (Ix 10))));
    SetL "c" (Ix 11) (U1 INeg (B2 ILAnd (Ln "a" (Ix 11)) (Ln "b" (Ix 11))));
    SetL "c" (Ix 12) (U1 INeg (B2 ILAnd (Ln "a" (Ix 12)) (Ln "b" (Ix 12))));
    SetL "c" (Ix 13) (U1 INeg (B2 ILAnd (Ln "a" (Ix 13)) (Ln "b" (Ix 13))));
    SetL "c" (Ix 14) (U1 INeg (B2 ILAnd (Ln "a" (Ix 14)) (Ln "b" (Ix 14))));
    SetL "c" (Ix 15) (U1 INeg (B2 ILAnd (Ln "a" (Ix 15)) (Ln "b" (Ix 15))))]
   ["c"];
  (* v16/v16_portable.h:3308-3308 *)
  fnc "int ||" 3308 [("a", 16); ("b", 16)]
   [SetL "c" (Ix 0) (U1 INeg (B2 ILOr (Ln "a" (Ix 0)) (Ln "b" (Ix 0))));
    SetL "c" (Ix 1) (U1 INeg (B2 ILOr (Ln "a" (Ix 1)) (Ln "b" (Ix 1))));
    SetL "c" (Ix 2) (U1 INeg (B2 ILOr (Ln "a" (Ix 2)) (Ln "b" (Ix 2))));
    SetL "c" (Ix 3) (U1 INeg (B2 ILOr (Ln "a" (Ix 3)) (Ln "b" (Ix 3))));
    SetL "c" (Ix 4) (U1 INeg (B2 ILOr (Ln "a" (Ix 4)) (Ln "b" (Ix 4))));
    SetL "c" (Ix 5) (U1 INeg (B2 ILOr (Ln "a" (Ix 5)) (Ln "b" (Ix 5))));
    SetL "c" (Ix 6) (U1 INeg (B2 ILOr (Ln "a" (Ix 6)) (Ln "b" (Ix 6))));
    SetL "c" (Ix 7) (U1 INeg (B2 ILOr (Ln "a" (Ix 7)) (Ln "b" (Ix 7))));
    SetL "c" (Ix 8) (U1 INeg (B2 ILOr (Ln "a" (Ix 8)) (Ln "b" (Ix 8))));
    SetL "c" (Ix 9) (U1 INeg (B2 ILOr (Ln "a" (Ix 9)) (Ln "b" (Ix 9))));
    SetL "c" (Ix 10) (U1 INeg (B2 ILOr (Ln "a" (Ix 10)) (Ln "b" (Ix 10))));
    SetL "c" (Ix 11) (U1 INeg (B2 ILOr (Ln "a" (Ix 11)) (Ln "b" (Ix 11))));
    SetL "c" (Ix 12) (U1 INeg (B2 ILOr (Ln "a" (Ix 12)) (Ln "b" (Ix 12))));
    SetL "c" (Ix 13) (U1 INeg (B2 ILOr (Ln "a" (Ix 13)) (Ln "b" (Ix 13))));
    SetL "c" (Ix 14) (U1 INeg (B2 ILOr (Ln "a" (Ix 14)) (Ln "b" (Ix 14))));
    SetL "c" (Ix 15) (U1 INeg (B2 ILOr (Ln "a" (Ix 15)) (Ln "b" (Ix 15))))]
   ["c"];
  (* v16/v16_portable.h:3314-3336 *)
  fnc "int abs" 3314 [("a", 16)]
   [SetL "b" (Ix 0) (Cond (B2 IGe (Ln "a" (Ix 0)) (Cst 0)) (Ln "a" (Ix 0)) (U1 INeg (Ln "a" (Ix 0))));
    SetL "b" (Ix 1) (Cond (B2 IGe (Ln "a" (Ix 1)) (Cst 0)) (Ln "a" (Ix 1)) (U1 INeg (Ln "a" (Ix 1))));
    SetL "b" (Ix 2) (Cond (B2 IGe (Ln "a" (Ix 2)) (Cst 0)) (Ln "a" (Ix 2)) (U1 INeg (Ln "a" (Ix 2))));
    SetL "b" (Ix 3) (Cond (B2 IGe (Ln "a" (Ix 3)) (Cst 0)) (Ln "a" (Ix 3)) (U1 INeg (Ln "a" (Ix 3))));
    SetL "b" (Ix 4) (Cond (B2 IGe (Ln "a" (Ix 4)) (Cst 0)) (Ln "a" (Ix 4)) (U1 INeg (Ln "a" (Ix 4))));
    SetL "b" (Ix 5) (Cond (B2 IGe (Ln "a" (Ix 5)) (Cst 0)) (Ln "a" (Ix 5)) (U1 INeg (Ln "a" (Ix 5))));
    SetL "b" (Ix 6) (Cond (B2 IGe (Ln "a" (Ix 6)) (Cst 0)) (Ln "a" (Ix 6)) (U1 INeg (Ln "a" (Ix 6))));
    SetL "b" (Ix 7) (Cond (B2 IGe (Ln "a" (Ix 7)) (Cst 0)) (Ln "a" (Ix 7)) (U1 INeg (Ln "a" (Ix 7))));
    SetL "b" (Ix 8) (Cond (B2 IGe (Ln "a" (Ix 8)) (Cst 0)) (Ln "a" (Ix 8)) (U1 INeg (Ln "a" (Ix 8))));
    SetL "b" (Ix 9) (Cond (B2 IGe (Ln "a" (Ix 9)) (Cst 0)) (Ln "a" (Ix 9)) (U1 INeg (Ln "a" (Ix 9))));
    SetL "b" (Ix 10) (Cond (B2 IGe (Ln "a" (Ix 10)) (Cst 0)) (Ln "a" (Ix 10)) (U1 INeg (Ln "a" (Ix 10))));
    SetL "b" (Ix 11) (Cond (B2 IGe (Ln "a" (Ix 11)) (Cst 0)) (Ln "a" (Ix 11)) (U1 INeg (Ln "a" (Ix 11))));
    SetL "b" (Ix 12) (Cond (B2 IGe (Ln "a" (Ix 12)) (Cst 0)) (Ln "a" (Ix 12)) (U1 INeg (Ln "a" (Ix 12))));
    SetL "b" (Ix 13) (Cond (B2 IGe (Ln "a" (Ix 13)) (Cst 0)) (Ln "a" (Ix 13)) (U1 INeg (Ln "a" (Ix 13))));
    SetL "b" (Ix 14) (Cond (B2 IGe (Ln "a" (Ix 14)) (Cst 0)) (Ln "a" (Ix 14)) (U1 INeg (Ln "a" (Ix 14))));
    SetL "b" (Ix 15) (Cond (B2 IGe (Ln "a" (Ix 15)) (Cst 0)) (Ln "a" (Ix 15)) (U1 INeg (Ln "a" (Ix 15))))]
   ["b"];
  (* v16/v16_portable.h:3338-3360 *)
  fnc "czero" 3338 [("c", 16); ("a", 16)]
   [SetL "b" (Ix 0) (B2 IAnd (Ln "a" (Ix 0)) (U1 INot (Ln "c" (Ix 0))));
    SetL "b" (Ix 1) (B2 IAnd (Ln "a" (Ix 1)) (U1 INot (Ln "c" (Ix 1))));
    SetL "b" (Ix 2) (B2 IAnd (Ln "a" (Ix 2)) (U1 INot (Ln "c" (Ix 2))));
    SetL "b" (Ix 3) (B2 IAnd (Ln "a" (Ix 3)) (U1 INot (Ln "c" (Ix 3))));
    SetL "b" (Ix 4) (B2 IAnd (Ln "a" (Ix 4)) (U1 INot (Ln "c" (Ix 4))));
    SetL "b" (Ix 5) (B2 IAnd (Ln "a" (Ix 5)) (U1 INot (Ln "c" (Ix 5))));
    SetL "b" (Ix 6) (B2 IAnd (Ln "a" (Ix 6)) (U1 INot (Ln "c" (Ix 6))));
    SetL "b" (Ix 7) (B2 IAnd (Ln "a" (Ix 7)) (U1 INot (Ln "c" (Ix 7))));
    SetL "b" (Ix 8) (B2 IAnd (Ln "a" (Ix 8)) (U1 INot (Ln "c" (Ix 8))));
    SetL "b" (Ix 9) (B2 IAnd (Ln "a" (Ix 9)) (U1 INot (Ln "c" (Ix 9))));
    SetL "b" (Ix 10) (B2 IAnd (Ln "a" (Ix 10)) (U1 INot (Ln "c" (Ix 10))));
    SetL "b" (Ix 11) (B2 IAnd (Ln "a" (Ix 11)) (U1 INot (Ln "c" (Ix 11))));
    SetL "b" (Ix 12) (B2 IAnd (Ln "a" (Ix 12)) (U1 INot (Ln "c" (Ix 12))));
    SetL "b" (Ix 13) (B2 IAnd (Ln "a" (Ix 13)) (U1 INot (Ln "c" (Ix 13))));
    SetL "b" (Ix 14) (B2 IAnd (Ln "a" (Ix 14)) (U1 INot (Ln "c" (Ix 14))));
    SetL "b" (Ix 15) (B2 IAnd (Ln "a" (Ix 15)) (U1 INot (Ln "c" (Ix 15))))]
   ["b"];
  (* v16/v16_portable.h:3362-3384 *)
  fnc "notczero" 3362 [("c", 16); ("a", 16)]
   [SetL "b" (Ix 0) (B2 IAnd (Ln "a" (Ix 0)) (Ln "c" (Ix 0)));
    SetL "b" (Ix 1) (B2 IAnd (Ln "a" (Ix 1)) (Ln "c" (Ix 1)));
    SetL "b" (Ix 2) (B2 IAnd (Ln "a" (Ix 2)) (Ln "c" (Ix 2)));
    SetL "b" (Ix 3) (B2 IAnd (Ln "a" (Ix 3)) (Ln "c" (Ix 3)));
    SetL "b" (Ix 4) (B2 IAnd (Ln "a" (Ix 4)) (Ln "c" (Ix 4)));
    SetL "b" (Ix 5) (B2 IAnd (Ln "a" (Ix 5)) (Ln "c" (Ix 5)));
    SetL "b" (Ix 6) (B2 IAnd (Ln "a" (Ix 6)) (Ln "c" (Ix 6)));
    SetL "b" (Ix 7) (B2 IAnd (Ln "a" (Ix 7)) (Ln "c" (Ix 7)));
    SetL "b" (Ix 8) (B2 IAnd (Ln "a" (Ix 8)) (Ln "c" (Ix 8)));
    SetL "b" (Ix 9) (B2 IAnd (Ln "a" (Ix 9)) (Ln "c" (Ix 9)));
    SetL "b" (Ix 10) (B2 IAnd (Ln "a" (Ix 10)) (Ln "c" (Ix 10)));
    SetL "b" (Ix 11) (B2 IAnd (Ln "a" (Ix 11)) (Ln "c" (Ix 11)));
    SetL "b" (Ix 12) (B2 IAnd (Ln "a" (Ix 12)) (Ln "c" (Ix 12)));
    SetL "b" (Ix 13) (B2 IAnd (Ln "a" (Ix 13)) (Ln "c" (Ix 13)));
    SetL "b" (Ix 14) (B2 IAnd (Ln "a" (Ix 14)) (Ln "c" (Ix 14)));
    SetL "b" (Ix 15) (B2 IAnd (Ln "a" (Ix 15)) (Ln "c" (Ix 15)))]
   ["b"];
  (* v16/v16_portable.h:3386-3408 *)
  fnc "merge" 3386 [("c", 16); ("t", 16); ("f", 16)]
   [SetL "m" (Ix 0) (B2 IOr (B2 IAnd (Ln "f" (Ix 0)) (U1 INot (Ln "c" (Ix 0)))) (B2 IAnd (Ln "t" (Ix 0)) (Ln "c" (Ix 0))));
    SetL "m" (Ix 1) (B2 IOr (B2 IAnd (Ln "f" (Ix 1)) (U1 INot (Ln "c" (Ix 1)))) (B2 IAnd (Ln "t" (Ix 1)) (Ln "c" (Ix 1))));
    SetL "m" (Ix 2) (B2 IOr (B2 IAnd (Ln "f" (Ix 2)) (U1 INot (Ln "c" (Ix 2)))) (B2 IAnd (Ln "t" (Ix 2)) (Ln "c" (Ix 2))));
    SetL "m" (Ix 3) (B2 IOr (B2 IAnd (Ln "f" (Ix 3)) (U1 INot (Ln "c" (Ix 3)))) (B2 IAnd (Ln "t" (Ix 3)) (Ln "c" (Ix 3))));
    SetL "m" (Ix 4) (B2 IOr (B2 IAnd (Ln "f" (Ix 4)) (U1 INot (Ln "c" (Ix 4)))) (B2 IAnd (Ln "t" (Ix 4)) (Ln "c" (Ix 4))));
    SetL "m" (Ix 5) (B2 IOr (B2 IAnd (Ln "f" (Ix 5)) (U1 INot (Ln "c" (Ix 5)))) (B2 IAnd (Ln "t" (Ix 5)) (Ln "c" (Ix 5))));
    SetL "m" (Ix 6) (B2 IOr (B2 IAnd (Ln "f" (Ix 6)) (U1 INot (Ln "c" (Ix 6)))) (B2 IAnd (Ln "t" (Ix 6)) (Ln "c" (Ix 6))));
    SetL "m" (Ix 7) (B2 IOr (B2 IAnd (Ln "f" (Ix 7)) (U1 INot (Ln "c" (Ix 7)))) (B2 IAnd (Ln "t" (Ix 7)) (Ln "c" (Ix 7))));
    SetL "m" (Ix 8) (B2 IOr (B2 IAnd (Ln "f" (Ix 8)) (U1 INot (Ln "c" (Ix 8)))) (B2 IAnd (Ln "t" (Ix 8)) (Ln "c" (Ix 8))));
    SetL "m" (Ix 9) (B2 IOr (B2 IAnd (Ln "f" (Ix 9)) (U1 INot (Ln "c" (Ix 9)))) (B2 IAnd (Ln "t" (Ix 9)) (Ln "c" (Ix 9))));
    SetL "m" (Ix 10) (B2 IOr (B2 IAnd (Ln "f" (Ix 10)) (U1 INot (Ln "c" (Ix 10)))) (B2 IAnd (Ln "t" (Ix 10)) (Ln "c" (Ix 10))));
    SetL "m" (Ix 11) (B2 IOr (B2 IAnd (Ln "f" (Ix 11)) (U1 INot (Ln "c" (Ix 11)))) (B2 IAnd (Ln "t" (Ix 11)) (Ln "c" (Ix 11))));
    SetL "m" (Ix 12) (B2 IOr (B2 IAnd (Ln "f" (Ix 12)) (U1 INot (Ln "c" (Ix 12)))) (B2 IAnd (Ln "t" (Ix 12)) (Ln "c" (Ix 12))));
    SetL "m" (Ix 13) (B2 IOr (B2 IAnd (Ln "f" (Ix 13)) (U1 INot (Ln "c" (Ix 13)))) (B2 IAnd (Ln "t" (Ix 13)) (Ln "c" (Ix 13))));
    SetL "m" (Ix 14) (B2 IOr (B2 IAnd (Ln "f" (Ix 14)) (U1 INot (Ln "c" (Ix 14)))) (B2 IAnd (Ln "t" (Ix 14)) (Ln "c" (Ix 14))));
    SetL "m" (Ix 15) (B2 IOr (B2 IAnd (Ln "f" (Ix 15)) (U1 INot (Ln "c" (Ix 15)))) (B2 IAnd (Ln "t" (Ix 15)) (Ln "c" (Ix 15))))]
   ["m"];
  (* v16/v16_portable.h:3551-3551 *)
  fnc "float =" 3551 [("this", 16); ("b", 16)]
   [SetL "this" (Ix 0) (Ln "b" (Ix 0));
    SetL "this" (Ix 1) (Ln "b" (Ix 1));
    SetL "this" (Ix 2) (Ln "b" (Ix 2));
    SetL "this" (Ix 3) (Ln "b" (Ix 3));
    SetL "this" (Ix 4) (Ln "b" (Ix 4));
    SetL "this" (Ix 5) (Ln "b" (Ix 5));
    SetL "this" (Ix 6) (Ln "b" (Ix 6));
    SetL "this" (Ix 7) (Ln "b" (Ix 7));
    SetL "this" (Ix 8) (Ln "b" (Ix 8));
    SetL "this" (Ix 9) (Ln "b" (Ix 9));
    SetL "this" (Ix 10) (Ln "b" (Ix 10));
    SetL "this" (Ix 11) (Ln "b" (Ix 11));
    SetL "this" (Ix 12) (Ln "b" (Ix 12));
    SetL "this" (Ix 13) (Ln "b" (Ix 13));
    SetL "this" (Ix 14) (Ln "b" (Ix 14));
    SetL "this" (Ix 15) (Ln "b" (Ix 15))]
   ["this"];
  (* v16/v16_portable.h:3552-3552 *)
  fnc "float +=" 3552 [("this", 16); ("b", 16)]
   [SetL "this" (Ix 0) (B2 FAdd (Ln "this" (Ix 0)) (Ln "b" (Ix 0)));
    SetL "this" (Ix 1) (B2 FAdd (Ln "this" (Ix 1)) (Ln "b" (Ix 1)));
    SetL "this" (Ix 2) (B2 FAdd (Ln "this" (Ix 2)) (Ln "b" (Ix 2)));
    SetL "this" (Ix 3) (B2 FAdd (Ln "this" (Ix 3)) (Ln "b" (Ix 3)));
    SetL "this" (Ix 4) (B2 FAdd (Ln "this" (Ix 4)) (Ln "b" (Ix 4)));
    SetL "this" (Ix 5) (B2 FAdd (Ln "this" (Ix 5)) (Ln "b" (Ix 5)));
    SetL "this" (Ix 6) (B2 FAdd (Ln "this" (Ix 6)) (Ln "b" (Ix 6)));
    SetL "this" (Ix 7) (B2 FAdd (Ln "this" (Ix 7)) (Ln "b" (Ix 7)));
    SetL "this" (Ix 8) (B2 FAdd (Ln "this" (Ix 8)) (Ln "b" (Ix 8)));
    SetL "this" (Ix 9) (B2 FAdd (Ln "this" (Ix 9)) (Ln "b" (Ix 9)));
    SetL "this" (Ix 10) (B2 FAdd (Ln "this" (Ix 10)) (Ln "b" (Ix 10)));
    SetL "this" (Ix 11) (B2 FAdd (Ln "this" (Ix 11)) (Ln "b" (Ix 11)));
    SetL "this" (Ix 12) (B2 FAdd (Ln "this" (Ix 12)) (Ln "b" (Ix 12)));
    SetL "this" (Ix 13) (B2 FAdd (Ln "this" (Ix 13)) (Ln "b" (Ix 13)));
    SetL "this" (Ix 14) (B2 FAdd (Ln "this" (Ix 14)) (Ln "b" (Ix 14)));
    SetL "this" (Ix 15) (B2 FAdd (Ln "this" (Ix 15)) (Ln "b" (Ix 15)))]
   ["this"];
  (* v16/v16_portable.h:3553-3553 *)
  fnc "float -=" 3553 [("this", 16); ("b", 16)]
   [SetL "this" (Ix 0) (B2 FSub (Ln "this" (Ix 0)) (Ln "b" (Ix 0)));
    SetL "this" (Ix 1) (B2 FSub (Ln "this" (Ix 1)) (Ln "b" (Ix 1)));
    SetL "this" (Ix 2) (B2 FSub (Ln "this" (Ix 2)) (Ln "b" (Ix 2)));
    SetL "this" (Ix 3) (B2 FSub (Ln "this" (Ix 3)) (Ln "b" (Ix 3)));
    SetL "this" (Ix 4) (B2 FSub (Ln "this" (Ix 4)) (Ln "b" (Ix 4)));
    SetL "this" (Ix 5) (B2 FSub (Ln "this" (Ix 5)) (Ln "b" (Ix 5)));
    SetL "this" (Ix 6) (B2 FSub (Ln "this" (Ix 6)) (Ln "b" (Ix 6)));
    SetL "this" (Ix 7) (B2 FSub (Ln "this" (Ix 7)) (Ln "b" (Ix 7)));
    SetL "this" (Ix 8) (B2 FSub (Ln "this" (Ix 8)) (Ln "b" (Ix 8)));
    SetL "this" (Ix 9) (B2 FSub (Ln "this" (Ix 9)) (Ln "b" (Ix 9)));
    SetL "this" (Ix 10) (B2 FSub (Ln "this" (Ix 10)) (Ln "b" (Ix 10)));
    SetL "this" (Ix 11) (B2 FSub (Ln "this" (Ix 11)) (Ln "b" (Ix 11)));
    SetL "this" (Ix 12) (B2 FSub (Ln "this" (Ix 12)) (Ln "b" (Ix 12)));
    SetL "this" (Ix 13) (B2 FSub (Ln "this" (Ix 13)) (Ln "b" (Ix 13)));
    SetL "this" (Ix 14) (B2 FSub (Ln "this" (Ix 14)) (Ln "b" (Ix 14)));
    SetL "this" (Ix 15) (B2 FSub (Ln "this" (Ix 15)) (Ln "b" (Ix 15)))]
   ["this"];
  (* v16/v16_portable.h:3554-3554 *)
  fnc "float *=" 3554 [("this", 16); ("b", 16)]
   [SetL "this" (Ix 0) (B2 FMul (Ln "this" (Ix 0)) (Ln "b" (Ix 0)));
    SetL "this" (Ix 1) (B2 FMul (Ln "this" (Ix 1)) (Ln "b" (Ix 1)));
    SetL "this" (Ix 2) (B2 FMul (Ln "this" (Ix 2)) (Ln "b" (Ix 2)));
    SetL "this" (Ix 3) (B2 FMul (Ln "this" (Ix 3)) (Ln "b" (Ix 3)));
    SetL "this" (Ix 4) (B2 FMul (Ln "this" (Ix 4)) (Ln "b" (Ix 4)));
    SetL "this" (Ix 5) (B2 FMul (Ln "this" (Ix 5)) (Ln "b" (Ix 5)));
    SetL "this" (Ix 6) (B2 FMul (Ln "this" (Ix 6)) (Ln "b" (Ix 6)));
    SetL "this" (Ix 7) (B2 FMul (Ln "this" (Ix 7)) (Ln "b" (Ix 7)));
    SetL "this" (Ix 8) (B2 FMul (Ln "this" (Ix 8)) (Ln "b" (Ix 8)));
    SetL "this" (Ix 9) (B2 FMul (Ln "this" (Ix 9)) (Ln "b" (Ix 9)));
    SetL "this" (Ix 10) (B2 FMul (Ln "this" (Ix 10)) (Ln "b" (Ix 10)));
    SetL "this" (Ix 11) (B2 FMul (Ln "this" (Ix 11)) (Ln "b" (Ix 11)));
    SetL "this" (Ix 12) (B2 FMul (Ln "this" (Ix 12)) (Ln "b" (Ix 12)));
    SetL "this" (Ix 13) (B2 FMul (Ln "this" (Ix 13)) (Ln "b" (Ix 13)));
    SetL "this" (Ix 14) (B2 FMul (Ln "this" (Ix 14)) (Ln "b" (Ix 14)));
    SetL "this" (Ix 15) (B2 FMul (Ln "this" (Ix 15)) (Ln "b" (Ix 15)))]
   ["this"];
  (* v16/v16_portable.h:3555-3555 *)
  fnc "float /=" 3555 [("this", 16); ("b", 16)]
   [SetL "this" (Ix 0) (B2 FDiv (Ln "this" (Ix 0)) (Ln "b" (Ix 0)));
    SetL "this" (Ix 1) (B2 FDiv (Ln "this" (Ix 1)) (Ln "b" (Ix 1)));
    SetL "this" (Ix 2) (B2 FDiv (Ln "this" (Ix 2)) (Ln "b" (Ix 2)));
    SetL "this" (Ix 3) (B2 FDiv (Ln "this" (Ix 3)) (Ln "b" (Ix 3)));
    SetL "this" (Ix 4) (B2 FDiv (Ln "this" (Ix 4)) (Ln "b" (Ix 4)));
    SetL "this" (Ix 5) (B2 FDiv (Ln "this" (Ix 5)) (Ln "b" (Ix 5)));
    SetL "this" (Ix 6) (B2 FDiv (Ln "this" (Ix 6)) (Ln "b" (Ix 6)));
    SetL "this" (Ix 7) (B2 FDiv (Ln "this" (Ix 7)) (Ln "b" (Ix 7)));
    SetL "this" (Ix 8) (B2 FDiv (Ln "this" (Ix 8)) (Ln "b" (Ix 8)));
    SetL "this" (Ix 9) (B2 FDiv (Ln "this" (Ix 9)) (Ln "b" (Ix 9)));
    SetL "this" (Ix 10) (B2 FDiv (Ln "this" (Ix 10)) (Ln "b" (Ix 10)));
    SetL "this" (Ix 11) (B2 FDiv (Ln "this" (Ix 11)) (Ln "b" (Ix 11)));
    SetL "this" (Ix 12) (B2 FDiv (Ln "this" (Ix 12)) (Ln "b" (Ix 12)));
    SetL "this" (Ix 13) (B2 FDiv (Ln "this" (Ix 13)) (Ln "b" (Ix 13)));
    SetL "this" (Ix 14) (B2 FDiv (Ln "this" (Ix 14)) (Ln "b" (Ix 14)));
    SetL "this" (Ix 15) (B2 FDiv (Ln "this" (Ix 15)) (Ln "b" (Ix 15)))]
   ["this"];
  (* v16/v16_portable.h:3574-3596 *)
  fnc "float unary+" 3574 [("a", 16)]
   [SetL "b" (Ix 0) (Ln "a" (Ix 0));
    SetL "b" (Ix 1) (Ln "a" (Ix 1));
    SetL "b" (Ix 2) (Ln "a" (Ix 2));
    SetL "b" (Ix 3) (Ln "a" (Ix 3));
    SetL "b" (Ix 4) (Ln "a" (Ix 4));
    SetL "b" (Ix 5) (Ln "a" (Ix 5));
    SetL "b" (Ix 6) (Ln "a" (Ix 6));
    SetL "b" (Ix 7) (Ln "a" (Ix 7));
    SetL "b" (Ix 8) (Ln "a" (Ix 8));
    SetL "b" (Ix 9) (Ln "a" (Ix 9));
    SetL "b" (Ix 10) (Ln "a" (Ix 10));
    SetL "b" (Ix 11) (Ln "a" (Ix 11));
    SetL "b" (Ix 12) (Ln "a" (Ix 12));
    SetL "b" (Ix 13) (Ln "a" (Ix 13));
    SetL "b" (Ix 14) (Ln "a" (Ix 14));
    SetL "b" (Ix 15) (Ln "a" (Ix 15))]
   ["b"];
  (* v16/v16_portable.h:3598-3620 *)
  fnc "float unary-" 3598 [("a", 16)]
   [SetL "b" (Ix 0) (U1 FNeg (Ln "a" (Ix 0)));
    SetL "b" (Ix 1) (U1 FNeg (Ln "a" (Ix 1)));
    SetL "b" (Ix 2) (U1 FNeg (Ln "a" (Ix 2)));
    SetL "b" (Ix 3) (U1 FNeg (Ln "a" (Ix 3)));
    SetL "b" (Ix 4) (U1 FNeg (Ln "a" (Ix 4)));
    SetL "b" (Ix 5) (U1 FNeg (Ln "a" (Ix 5)));
    SetL "b" (Ix 6) (U1 FNeg (Ln "a" (Ix 6)));
    SetL "b" (Ix 7) (U1 FNeg (Ln "a" (Ix 7)));
    SetL "b" (Ix 8) (U1 FNeg (Ln "a" (Ix 8)));
    SetL "b" (Ix 9) (U1 FNeg (Ln "a" (Ix 9)));
    SetL "b" (Ix 10) (U1 FNeg (Ln "a" (Ix 10)));
    SetL "b" (Ix 11) (U1 FNeg (Ln "a" (Ix 11)));
    SetL "b" (Ix 12) (U1 FNeg (Ln "a" (Ix 12)));
    SetL "b" (Ix 13) (U1 FNeg (Ln "a" (Ix 13)));
    SetL "b" (Ix 14) (U1 FNeg (Ln "a" (Ix 14)));
    SetL "b" (Ix 15) (U1 FNeg (Ln "a" (Ix 15)))]
   ["b"];
  (* v16/v16_portable.h:3622-3644 *)
  fnc "float !" 3622 [("a", 16)]
   [SetL "b" (Ix 0) (Cond (Ln "a" (Ix 0)) (Cst 0) (Cst 4294967295));
    SetL "b" (Ix 1) (Cond (Ln "a" (Ix 1)) (Cst 0) (Cst 4294967295));
    SetL "b" (Ix 2) (Cond (Ln "a" (Ix 2)) (Cst 0) (Cst 4294967295));
    SetL "b" (Ix 3) (Cond (Ln "a" (Ix 3)) (Cst 0) (Cst 4294967295));
    SetL "b" (Ix 4) (Cond (Ln "a" (Ix 4)) (Cst 0) (Cst 4294967295));
    SetL "b" (Ix 5) (Cond (Ln "a" (Ix 5)) (Cst 0) (Cst 4294967295));
    SetL "b" (Ix 6) (Cond (Ln "a" (Ix 6)) (Cst 0) (Cst 4294967295));
    SetL "b" (Ix 7) (Cond (Ln "a" (Ix 7)) (Cst 0) (Cst 4294967295));
    SetL "b" (Ix 8) (Cond (Ln "a" (Ix 8)) (Cst 0) (Cst 4294967295));
    SetL "b" (Ix 9) (Cond (Ln "a" (Ix 9)) (Cst 0) (Cst 4294967295));
    SetL "b" (Ix 10) (Cond (Ln "a" (Ix 10)) (Cst 0) (Cst 4294967295));
    SetL "b" (Ix 11) (Cond (Ln "a" (Ix 11)) (Cst 0) (Cst 4294967295));
    SetL "b" (Ix 12) (Cond (Ln "a" (Ix 12)) (Cst 0) (Cst 4294967295));
    SetL "b" (Ix 13) (Cond (Ln "a" (Ix 13)) (Cst 0) (Cst 4294967295));
    SetL "b" (Ix 14) (Cond (Ln "a" (Ix 14)) (Cst 0) (Cst 4294967295));
    SetL "b" (Ix 15) (Cond (Ln "a" (Ix 15)) (Cst 0) (Cst 4294967295))]
   ["b"];
  (* v16/v16_portable.h:3648-3670 *)
  fnc "float pre++" 3648 [("a", 16)]
   [SetL "a" (Ix 0) (B2 FAdd (Ln "a" (Ix 0)) (Cst 1065353216));
    SetL "b" (Ix 0) (Ln "a" (Ix 0));
    SetL "a" (Ix 1) (B2 FAdd (Ln "a" (Ix 1)) (Cst 1065353216));
    SetL "b" (Ix 1) (Ln "a" (Ix 1));
    SetL "a" (Ix 2) (B2 FAdd (Ln "a" (Ix 2)) (Cst 1065353216));
    SetL "b" (Ix 2) (Ln "a" (Ix 2));
    SetL "a" (Ix 3) (B2 FAdd (Ln "a" (Ix 3)) (Cst 1065353216));
    SetL "b" (Ix 3) (Ln "a" (Ix 3));
    SetL "a" (Ix 4) (B2 FAdd (Ln "a" (Ix 4)) (Cst 1065353216));
    SetL "b" (Ix 4) (Ln "a" (Ix 4));
    SetL "a" (Ix 5) (B2 FAdd (Ln "a" (Ix 5)) (Cst 1065353216));
    SetL "b" (Ix 5) (Ln "a" (Ix 5));
    SetL "a" (Ix 6) (B2 FAdd (Ln "a" (Ix 6)) (Cst 1065353216));
    SetL "b" (Ix 6) (Ln "a" (Ix 6));
    SetL "a" (Ix 7) (B2 FAdd (Ln "a" (Ix 7)) (Cst 1065353216));
    SetL "b" (Ix 7) (Ln "a" (Ix 7));
    SetL "a" (Ix 8) (B2 FAdd (Ln "a" (Ix 8)) (Cst 1065353216));
    SetL "b" (Ix 8) (Ln "a" (Ix 8));
    SetL "a" (Ix 9) (B2 FAdd (Ln "a" (Ix 9)) (Cst 1065353216));
    SetL "b" (Ix 9) (Ln "a" (Ix 9));
    SetL "a" (Ix 10) (B2 FAdd (Ln "a" (Ix 10)) (Cst 1065353216));
    SetL "b" (Ix 10) (Ln "a" (Ix 10));
    SetL "a" (Ix 11) (B2 FAdd (Ln "a" (Ix 11)) (Cst 1065353216));
    SetL "b" (Ix 11) (Ln "a" (Ix 11));
    SetL "a" (Ix 12) (B2 FAdd (Ln "a" (Ix 12)) (Cst 1065353216));
    SetL "b" (Ix 12) (Ln "a" (Ix 12));
    SetL "a" (Ix 13) (B2 FAdd (Ln "a" (Ix 13)) (Cst 1065353216));
    SetL "b" (Ix 13) (Ln "a" (Ix 13));
    SetL "a" (Ix 14) (B2 FAdd (Ln "a" (Ix 14)) (Cst 1065353216));
    SetL "b" (Ix 14) (Ln "a" (Ix 14));
    SetL "a" (Ix 15) (B2 FAdd (Ln "a" (Ix 15)) (Cst 1065353216));
    SetL "b" (Ix 15) (Ln "a" (Ix 15))]
   ["b"; "a"];
  (* v16/v16_portable.h:3672-3694 *)
  fnc "float pre--" 3672 [("a", 16)]
   [SetL "a" (Ix 0) (B2 FSub (Ln "a" (Ix 0)) (Cst 1065353216));
    SetL "b" (Ix 0) (Ln "a" (Ix 0));
    SetL "a" (Ix 1) (B2 FSub (Ln "a" (Ix 1)) (Cst 1065353216));
    SetL "b" (Ix 1) (Ln "a" (Ix 1));
    SetL "a" (Ix 2) (B2 FSub (Ln "a" (Ix 2)) (Cst 1065353216));
    SetL "b" (Ix 2) (Ln "a" (Ix 2));
    SetL "a" (Ix 3) (B2 FSub (Ln "a" (Ix 3)) (Cst 1065353216));
    SetL "b" (Ix 3) (Ln "a" (Ix 3));
    SetL "a" (Ix 4) (B2 FSub (Ln "a" (Ix 4)) (Cst 1065353216));
    SetL "b" (Ix 4) (Ln "a" (Ix 4));
    SetL "a" (Ix 5) (B2 FSub (Ln "a" (Ix 5)) (Cst 1065353216));
    SetL "b" (Ix 5) (Ln "a" (Ix 5));
    SetL "a" (Ix 6) (B2 FSub (Ln "a" (Ix 6)) (Cst 1065353216));
    SetL "b" (Ix 6) (Ln "a" (Ix 6));
    SetL "a" (Ix 7) (B2 FSub (Ln "a" (Ix 7)) (Cst 1065353216));
    SetL "b" (Ix 7) (Ln "a" (Ix 7));
    SetL "a" (Ix 8) (B2 FSub (Ln "a" (Ix 8)) (Cst 1065353216));
    SetL "b" (Ix 8) (Ln "a" (Ix 8));
    SetL "a" (Ix 9) (B2 FSub (Ln "a" (Ix 9)) (Cst 1065353216));
    SetL "b" (Ix 9) (Ln "a" (Ix 9));
    SetL "a" (Ix 10) (B2 FSub (Ln "a" (Ix 10)) (Cst 1065353216));
    SetL "b" (Ix 10) (Ln "a" (Ix 10));
    SetL "a" (Ix 11) (B2 FSub (Ln "a" (Ix 11)) (Cst 1065353216));
    SetL "b" (Ix 11) (Ln "a" (Ix 11));
    SetL "a" (Ix 12) (B2 FSub (Ln "a" (Ix 12)) (Cst 1065353216));
    SetL "b" (Ix 12) (Ln "a" (Ix 12));
    SetL "a" (Ix 13) (B2 FSub (Ln "a" (Ix 13)) (Cst 1065353216));
    SetL "b" (Ix 13) (Ln "a" (Ix 13));
    SetL "a" (Ix 14) (B2 FSub (Ln "a" (Ix 14)) (Cst 1065353216));
    SetL "b" (Ix 14) (Ln "a" (Ix 14));
    SetL "a" (Ix 15) (B2 FSub (Ln "a" (Ix 15)) (Cst 1065353216));
    SetL "b" (Ix 15) (Ln "a" (Ix 15))]
   ["b"; "a"];
  (* v16/v16_portable.h:3698-3720 *)
  fnc "float post++" 3698 [("a", 16)]
   [SetL "b" (Ix 0) (Ln "a" (Ix 0));
    SetL "a" (Ix 0) (B2 FAdd (Ln "a" (Ix 0)) (Cst 1065353216));
    SetL "b" (Ix 1) (Ln "a" (Ix 1));
    SetL "a" (Ix 1) (B2 FAdd (Ln "a" (Ix 1)) (Cst 1065353216));
    SetL "b" (Ix 2) (Ln "a" (Ix 2));
    SetL "a" (Ix 2) (B2 FAdd (Ln "a" (Ix 2)) (Cst 1065353216));
    SetL "b" (Ix 3) (Ln "a" (Ix 3));
    SetL "a" (Ix 3) (B2 FAdd (Ln "a" (Ix 3)) (Cst 1065353216));
    SetL "b" (Ix 4) (Ln "a" (Ix 4));
    SetL "a" (Ix 4) (B2 FAdd (Ln "a" (Ix 4)) (Cst 1065353216));
    SetL "b" (Ix 5) (Ln "a" (Ix 5));
    SetL "a" (Ix 5) (B2 FAdd (Ln "a" (Ix 5)) (Cst 1065353216));
    SetL "b" (Ix 6) (Ln "a" (Ix 6));
    SetL "a" (Ix 6) (B2 FAdd (Ln "a" (Ix 6)) (Cst 1065353216));
    SetL "b" (Ix 7) (Ln "a" (Ix 7));
    SetL "a" (Ix 7) (B2 FAdd (Ln "a" (Ix 7)) (Cst 1065353216));
    SetL "b" (Ix 8) (Ln "a" (Ix 8));
    SetL "a" (Ix 8) (B2 FAdd (Ln "a" (Ix 8)) (Cst 1065353216));
    SetL "b" (Ix 9) (Ln "a" (Ix 9));
    SetL "a" (Ix 9) (B2 FAdd (Ln "a" (Ix 9)) (Cst 1065353216));
    SetL "b" (Ix 10) (Ln "a" (Ix 10));
    SetL "a" (Ix 10) (B2 FAdd (Ln "a" (Ix 10)) (Cst 1065353216));
    SetL "b" (Ix 11) (Ln "a" (Ix 11));
    SetL "a" (Ix 11) (B2 FAdd (Ln "a" (Ix 11)) (Cst 1065353216));
    SetL "b" (Ix 12) (Ln "a" (Ix 12));
    SetL "a" (Ix 12) (B2 FAdd (Ln "a" (Ix 12)) (Cst 1065353216));
    SetL "b" (Ix 13) (Ln "a" (Ix 13));
    SetL "a" (Ix 13) (B2 FAdd (Ln "a" (Ix 13)) (Cst 1065353216));
    SetL "b" (Ix 14) (Ln "a" (Ix 14));
    SetL "a" (Ix 14) (B2 FAdd (Ln "a" (Ix 14)) (Cst 1065353216));
    SetL "b" (Ix 15) (Ln "a" (Ix 15));
    SetL "a" (Ix 15) (B2 FAdd (Ln "a" (Ix 15)) (Cst 1065353216))]
   ["b"; "a"];
  (* v16/v16_portable.h:3722-3744 *)
  fnc "float post--" 3722 [("a", 16)]
   [SetL "b" (Ix 0) (Ln "a" (Ix 0));
    SetL "a" (Ix 0) (B2 FSub (Ln "a" (Ix 0)) (Cst 1065353216));
    SetL "b" (Ix 1) (Ln "a" (Ix 1));
    SetL "a" (Ix 1) (B2 FSub (Ln "a" (Ix 1)) (Cst 1065353216));
    SetL "b" (Ix 2) (Ln "a" (Ix 2));
    SetL "a" (Ix 2) (B2 FSub (Ln "a" (Ix 2)) (Cst 1065353216));
    SetL "b" (Ix 3) (Ln "a" (Ix 3));
    SetL "a" (Ix 3) (B2 FSub (Ln "a" (Ix 3)) (Cst 1065353216));
    SetL "b" (Ix 4) (Ln "a" (Ix 4));
    SetL "a" (Ix 4) (B2 FSub (Ln "a" (Ix 4)) (Cst 1065353216));
    SetL "b" (Ix 5) (Ln "a" (Ix 5));
    SetL "a" (Ix 5) (B2 FSub (Ln "a" (Ix 5)) (Cst 1065353216));
    SetL "b" (Ix 6) (Ln "a" (Ix 6));
    SetL "a" (Ix 6) (B2 FSub (Ln "a" (Ix 6)) (Cst 1065353216));
    SetL "b" (Ix 7) (Ln "a" (Ix 7));
    SetL "a" (Ix 7) (B2 FSub (Ln "a" (Ix 7)) (Cst 1065353216));
    SetL "b" (Ix 8) (Ln "a" (Ix 8));
    SetL "a" (Ix 8) (B2 FSub (Ln "a" (Ix 8)) (Cst 1065353216));
    SetL "b" (Ix 9) (Ln "a" (Ix 9));
    SetL "a" (Ix 9) (B2 FSub (Ln "a" (Ix 9)) (Cst 1065353216));
    SetL "b" (Ix 10) (Ln "a" (Ix 10));
    SetL "a" (Ix 10) (B2 FSub (Ln "a" (Ix 10)) (Cst 1065353216));
    SetL "b" (Ix 11) (Ln "a" (Ix 11));
    SetL "a" (Ix 11) (B2 FSub (Ln "a" (Ix 11)) (Cst 1065353216));
    SetL "b" (Ix 12) (Ln "a" (Ix 12));
    SetL "a" (Ix 12) (B2 FSub (Ln "a" (Ix 12)) (Cst 1065353216));
    SetL "b" (Ix 13) (Ln "a" (Ix 13));
    SetL "a" (Ix 13) (B2 FSub (Ln "a" (Ix 13)) (Cst 1065353216));
    SetL "b" (Ix 14) (Ln "a" (Ix 14));
    SetL "a" (Ix 14) (B2 FSub (Ln "a" (Ix 14)) (Cst 1065353216));
    SetL "b" (Ix 15) (Ln "a" (Ix 15));
    SetL "a" (Ix 15) (B2 FSub (Ln "a" (Ix 15)) (Cst 1065353216))]
   ["b"; "a"];
  (* v16/v16_portable.h:3771-3771 *)
  fnc "float +" 3771 [("a", 16); ("b", 16)]
   [SetL "c" (Ix 0) (B2 FAdd (Ln "a" (Ix 0)) (Ln "b" (Ix 0)));
    SetL "c" (Ix 1) (B2 FAdd (Ln "a" (Ix 1)) (Ln "b" (Ix 1)));
    SetL "c" (Ix 2) (B2 FAdd (Ln "a" (Ix 2)) (Ln "b" (Ix 2)));
    SetL "c" (Ix 3) (B2 FAdd (Ln "a" (Ix 3)) (Ln "b" (Ix 3)));
    SetL "c" (Ix 4) (B2 FAdd (Ln "a" (Ix 4)) (Ln "b" (Ix 4)));
    SetL "c" (Ix 5) (B2 FAdd (Ln "a" (Ix 5)) (Ln "b" (Ix 5)));
    SetL "c" (Ix 6) (B2 FAdd (Ln "a" (Ix 6)) (Ln "b" (Ix 6)));
    SetL "c" (Ix 7) (B2 FAdd (Ln "a" (Ix 7)) (Ln "b" (Ix 7)));
    SetL "c" (Ix 8) (B2 FAdd (Ln "a" (Ix 8)) (Ln "b" (Ix 8)));
    SetL "c" (Ix 9) (B2 FAdd (Ln "a" (Ix 9)) (Ln "b" (Ix 9)));
    SetL "c" (Ix 10) (B2 FAdd (Ln "a" (Ix 10)) (Ln "b" (Ix 10)));
    SetL "c" (Ix 11) (B2 FAdd (Ln "a" (Ix 11)) (Ln "b" (Ix 11)));
    SetL "c" (Ix 12) (B2 FAdd (Ln "a" (Ix 12)) (Ln "b" (Ix 12)));
    SetL "c" (Ix 13) (B2 FAdd (Ln "a" (Ix 13)) (Ln "b" (Ix 13)));
    SetL "c" (Ix 14) (B2 FAdd (Ln "a" (Ix 14)) (Ln "b" (Ix 14)));
    SetL "c" (Ix 15) (B2 FAdd (Ln "a" (Ix 15)) (Ln "b" (Ix 15)))]
   ["c"];
  (* v16/v16_portable.h:3772-3772 *)
  fnc "float -" 3772 [("a", 16); ("b", 16)]
   [SetL "c" (Ix 0) (B2 FSub (Ln "a" (Ix 0)) (Ln "b" (Ix 0)));
    SetL "c" (Ix 1) (B2 FSub (Ln "a" (Ix 1)) (Ln "b" (Ix 1)));
    SetL "c" (Ix 2) (B2 FSub (Ln "a" (Ix 2)) (Ln "b" (Ix 2)));
    SetL "c" (Ix 3) (B2 FSub (Ln "a" (Ix 3)) (Ln "b" (Ix 3)));
    SetL "c" (Ix 4) (B2 FSub (Ln "a" (Ix 4)) (Ln "b" (Ix 4)));
    SetL "c" (Ix 5) (B2 FSub (Ln "a" (Ix 5)) (Ln "b" (Ix 5)));
    SetL "c" (Ix 6) (B2 FSub (Ln "a" (Ix 6)) (Ln "b" (Ix 6)));
    SetL "c" (Ix 7) (B2 FSub (Ln "a" (Ix 7)) (Ln "b" (Ix 7)));
    SetL "c" (Ix 8) (B2 FSub (Ln "a" (Ix 8)) (Ln "b" (Ix 8)));
    SetL "c" (Ix 9) (B2 FSub (Ln "a" (Ix 9)) (Ln "b" (Ix 9)));
    SetL "c" (Ix 10) (B2 FSub (Ln "a" (Ix 10)) (Ln "b" (Ix 10)));
    SetL "c" (Ix 11) (B2 FSub (Ln "a" (Ix 11)) (Ln "b" (Ix 11)));
    SetL "c" (Ix 12) (B2 FSub (Ln "a" (Ix 12)) (Ln "b" (Ix 12)));
    SetL "c" (Ix 13) (B2 FSub (Ln "a" (Ix 13)) (Ln "b" (Ix 13)));
    SetL "c" (Ix 14) (B2 FSub (Ln "a" (Ix 14)) (Ln "b" (Ix 14)));
    SetL "c" (Ix 15) (B2 FSub (Ln "a" (Ix 15)) (Ln "b" (Ix 15)))]
   ["c"];
  (* v16/v16_portable.h:3773-3773 *)
  fnc "float *" 3773 [("a", 16); ("b", 16)]
   [SetL "c" (Ix 0) (B2 FMul (Ln "a" (Ix 0)) (Ln "b" (Ix 0)));
    SetL "c" (Ix 1) (B2 FMul (Ln "a" (Ix 1)) (Ln "b" (Ix 1)));
    SetL "c" (Ix 2) (B2 FMul (Ln "a" (Ix 2)) (Ln "b" (Ix 2)));
    SetL "c" (Ix 3) (B2 FMul (Ln "a" (Ix 3)) (Ln "b" (Ix 3)));
    SetL "c" (Ix 4) (B2 FMul (Ln "a" (Ix 4)) (Ln "b" (Ix 4)));
    SetL "c" (Ix 5) (B2 FMul (Ln "a" (Ix 5)) (Ln "b" (Ix 5)));
    SetL "c" (Ix 6) (B2 FMul (Ln "a" (Ix 6)) (Ln "b" (Ix 6)));
    SetL "c" (Ix 7) (B2 FMul (Ln "a" (Ix 7)) (Ln "b" (Ix 7)));
    SetL "c" (Ix 8) (B2 FMul (Ln "a" (Ix 8)) (Ln "b" (Ix 8)));
    SetL "c" (Ix 9) (B2 FMul (Ln "a" (Ix 9)) (Ln "b" (Ix 9)));
    SetL "c" (Ix 10) (B2 FMul (Ln "a" (Ix 10)) (Ln "b" (Ix 10)));
    SetL "c" (Ix 11) (B2 FMul (Ln "a" (Ix 11)) (Ln "b" (Ix 11)));
    SetL "c" (Ix 12) (B2 FMul (Ln "a" (Ix 12)) (Ln "b" (Ix 12)));
    SetL "c" (Ix 13) (B2 FMul (Ln "a" (Ix 13)) (Ln "b" (Ix 13)));
    SetL "c" (Ix 14) (B2 FMul (Ln "a" (Ix 14)) (Ln "b" (Ix 14)));
    SetL "c" (Ix 15) (B2 FMul (Ln "a" (Ix 15)) (Ln "b" (Ix 15)))]
   ["c"];
  (* v16/v16_portable.h:3774-3774 *)
  fnc "float /" 3774 [("a", 16); ("b", 16)]
   [SetL "c" (Ix 0) (B2 FDiv (Ln "a" (Ix 0)) (Ln "b" (Ix 0)));
    SetL "c" (Ix 1) (B2 FDiv (Ln "a" (Ix 1)) (Ln "b" (Ix 1)));
    SetL "c" (Ix 2) (B2 FDiv (Ln "a" (Ix 2)) (Ln "b" (Ix 2)));
    SetL "c" (Ix 3) (B2 FDiv (Ln "a" (Ix 3)) (Ln "b" (Ix 3)));
    SetL "c" (Ix 4) (B2 FDiv (Ln "a" (Ix 4)) (Ln "b" (Ix 4)));
    SetL "c" (Ix 5) (B2 FDiv (Ln "a" (Ix 5)) (Ln "b" (Ix 5)));
    SetL "c" (Ix 6) (B2 FDiv (Ln "a" (Ix 6)) (Ln "b" (Ix 6)));
    SetL "c" (Ix 7) (B2 FDiv (Ln "a" (Ix 7)) (Ln "b" (Ix 7)));
    SetL "c" (Ix 8) (B2 FDiv (Ln "a" (Ix 8)) (Ln "b" (Ix 8)));
    SetL "c" (Ix 9) (B2 FDiv (Ln "a" (Ix 9)) (Ln "b" (Ix 9)));
    SetL "c" (Ix 10) (B2 FDiv (Ln "a" (Ix 10)) (Ln "b" (Ix 10)));
    SetL "c" (Ix 11) (B2 FDiv (Ln "a" (Ix 11)) (Ln "b" (Ix 11)));
    SetL "c" (Ix 12) (B2 FDiv (Ln "a" (Ix 12)) (Ln "b" (Ix 12)));
    SetL "c" (Ix 13) (B2 FDiv (Ln "a" (Ix 13)) (Ln "b" (Ix 13)));
    SetL "c" (Ix 14) (B2 FDiv (Ln "a" (Ix 14)) (Ln "b" (Ix 14)));
    SetL "c" (Ix 15) (B2 FDiv (Ln "a" (Ix 15)) (Ln "b" (Ix 15)))]
   ["c"];
  (* v16/v16_portable.h:3803-3803 *)
  fnc "float <" 3803 [("a", 16); ("b", 16)]
   [SetL "c" (Ix 0) (U1 INeg (B2 (FCmp CLt) (Ln "a" (Ix 0)) (Ln "b" (Ix 0))));
    SetL "c" (Ix 1) (U1 INeg (B2 (FCmp CLt) (Ln "a" (Ix 1)) (Ln "b" (Ix 1))));
    SetL "c" (Ix 2) (U1 INeg (B2 (FCmp CLt) (Ln "a" (Ix 2)) (Ln "b" (Ix 2))));
    SetL "c" (Ix 3) (U1 INeg (B2 (FCmp CLt) (Ln "a" (Ix 3)) (Ln "b" (Ix 3))));
    SetL "c" (Ix 4) (U1 INeg (B2 (FCmp CLt) (Ln "a" (Ix 4)) (Ln "b" (Ix 4))));
    SetL "c" (Ix 5) (U1 INeg (B2 (FCmp CLt) (Ln "a" (Ix 5)) (Ln "b" (Ix 5))));
    SetL "c" (Ix 6) (U1 INeg (B2 (FCmp CLt) (Ln "a" (Ix 6)) (Ln "b" (Ix 6))));
    SetL "c" (Ix 7) (U1 INeg (B2 (FCmp CLt) (Ln "a" (Ix 7)) (Ln "b" (Ix 7))));
    SetL "c" (Ix 8) (U1 INeg (B2 (FCmp CLt) (Ln "a" (Ix 8)) (Ln "b" (Ix 8))));
    SetL "c" (Ix 9) (U1 INeg (B2 (FCmp CLt) (Ln "a" (Ix 9)) (Ln "b" (Ix 9))));
    SetL "c" (Ix 10) (U1 INeg (B2 (FCmp CLt) (Ln "a" (Ix 10)) (Ln "b" (Ix 10))));
    SetL "c" (Ix 11) (U1 INeg (B2 (FCmp CLt) (Ln "a" (Ix 11)) (Ln "b" (Ix 11))));
    SetL "c" (Ix 12) (U1 INeg (B2 (FCmp CLt) (Ln "a" (Ix 12)) (Ln "b" (Ix 12))));
    SetL "c" (Ix 13) (U1 INeg (B2 (FCmp CLt) (Ln "a" (Ix 13)) (Ln "b" (Ix 13))));
    SetL "c" (Ix 14) (U1 INeg (B2 (FCmp CLt) (Ln "a" (Ix 14)) (Ln "b" (Ix 14))));
    SetL "c" (Ix 15) (U1 INeg (B2 (FCmp CLt) (Ln "a" (Ix 15)) (Ln "b" (Ix 15))))]
   ["c"];
  (* v16/v16_portable.h:3804-3804 *)
  fnc "float >" 3804 [("a", 16); ("b", 16)]
   [SetL "c" (Ix 0) (U1 INeg (B2 (FCmp CGt) (Ln "a" (Ix 0)) (Ln "b" (Ix 0))));
    SetL "c" (Ix 1) (U1 INeg (B2 (FCmp CGt) (Ln "a" (Ix 1)) (Ln "b" (Ix 1))));
    SetL "c" (Ix 2) (U1 INeg (B2 (FCmp CGt) (Ln "a" (Ix 2)) (Ln "b" (Ix 2))));
    SetL "c" (Ix 3) (U1 INeg (B2 (FCmp CGt) (Ln "a" (Ix 3)) (Ln "b" (Ix 3))));
    SetL "c" (Ix 4) (U1 INeg (B2 (FCmp CGt) (Ln "a" (Ix 4)) (Ln "b" (Ix 4))));
    SetL "c" (Ix 5) (U1 INeg (B2 (FCmp CGt) (Ln "a" (Ix 5)) (Ln "b" (Ix 5))));
    SetL "c" (Ix 6) (U1 INeg (B2 (FCmp CGt) (Ln "a" (Ix 6)) (Ln "b" (Ix 6))));
    SetL "c" (Ix 7) (U1 INeg (B2 (FCmp CGt) (Ln "a" (Ix 7)) (Ln "b" (Ix 7))));
    SetL "c" (Ix 8) (U1 INeg (B2 (FCmp CGt) (Ln "a" (Ix 8)) (Ln "b" (Ix 8))));
    SetL "c" (Ix 9) (U1 INeg (B2 (FCmp CGt) (Ln "a" (Ix 9)) (Ln "b" (Ix 9))));
    SetL "c" (Ix 10) (U1 INeg (B2 (FCmp CGt) (Ln "a" (Ix 10)) (Ln "b" (Ix 10))));
    SetL "c" (Ix 11) (U1 INeg (B2 (FCmp CGt) (Ln "a" (Ix 11)) (Ln "b" (Ix 11))));
    SetL "c" (Ix 12) (U1 INeg (B2 (FCmp CGt) (Ln "a" (Ix 12)) (Ln "b" (Ix 12))));
    SetL "c" (Ix 13) (U1 INeg (B2 (FCmp CGt) (Ln "a" (Ix 13)) (Ln "b" (Ix 13))));
    SetL "c" (Ix 14) (U1 INeg (B2 (FCmp CGt) (Ln "a" (Ix 14)) (Ln "b" (Ix 14))));
    SetL "c" (Ix 15) (U1 INeg (B2 (FCmp CGt) (Ln "a" (Ix 15)) (Ln "b" (Ix 15))))]
   ["c"];
  (* v16/v16_portable.h:3805-3805 *)
  fnc "float ==" 3805 [("a", 16); ("b", 16)]
   [SetL "c" (Ix 0) (U1 INeg (B2 (FCmp CEq) (Ln "a" (Ix 0)) (Ln "b" (Ix 0))));
    SetL "c" (Ix 1) (U1 INeg (B2 (FCmp CEq) (Ln "a" (Ix 1)) (Ln "b" (Ix 1))));
    SetL "c" (Ix 2) (U1 INeg (B2 (FCmp CEq) (Ln "a" (Ix 2)) (Ln "b" (Ix 2))));
    SetL "c" (Ix 3) (U1 INeg (B2 (FCmp CEq) (Ln "a" (Ix 3)) (Ln "b" (Ix 3))));
    SetL "c" (Ix 4) (U1 INeg (B2 (FCmp CEq) (Ln "a" (Ix 4)) (Ln "b" (Ix 4))));
    SetL "c" (Ix 5) (U1 INeg (B2 (FCmp CEq) (Ln "a" (Ix 5)) (Ln "b" (Ix 5))));
    SetL "c" (Ix 6) (U1 INeg (B2 (FCmp CEq) (Ln "a" (Ix 6)) (Ln "b" (Ix 6))));
    SetL "c" (Ix 7) (U1 INeg (B2 (FCmp CEq) (Ln "a" (Ix 7)) (Ln "b" (Ix 7))));
    SetL "c" (Ix 8) (U1 INeg (B2 (FCmp CEq) (Ln "a" (Ix 8)) (Ln "b" (Ix 8))));
    SetL "c" (Ix 9) (U1 INeg (B2 (FCmp CEq) (Ln "a" (Ix 9)) (Ln "b" (Ix 9))));
    SetL "c" (Ix 10) (U1 INeg (B2 (FCmp CEq) (Ln "a" (Ix 10)) (Ln "b" (Ix 10))));
    SetL "c" (Ix 11) (U1 INeg (B2 (FCmp CEq) (Ln "a" (Ix 11)) (Ln "b" (Ix 11))));
    SetL "c" (Ix 12) (U1 INeg (B2 (FCmp CEq) (Ln "a" (Ix 12)) (Ln "b" (Ix 12))));
    SetL "c" (Ix 13) (U1 INeg (B2 (FCmp CEq) (Ln "a" (Ix 13)) (Ln "b" (Ix 13))));
    SetL "c" (Ix 14) (U1 INeg (B2 (FCmp CEq) (Ln "a" (Ix 14)) (Ln "b" (Ix 14))));
    SetL "c" (Ix 15) (U1 INeg (B2 (FCmp CEq) (Ln "a" (Ix 15)) (Ln "b" (Ix 15))))]
   ["c"];
  (* v16/v16_portable.h:3806-3806 *)
  fnc "float !=" 3806 [("a", 16); ("b", 16)]
   [SetL "c" (Ix 0) (U1 INeg (B2 (FCmp CNe) (Ln "a" (Ix 0)) (Ln "b" (Ix 0))));
    SetL "c" (Ix 1) (U1 INeg (B2 (FCmp CNe) (Ln "a" (Ix 1)) (Ln "b" (Ix 1))));
    SetL "c" (Ix 2) (U1 INeg (B2 (FCmp CNe) (Ln "a" (Ix 2)) (Ln "b" (Ix 2))));
    SetL "c" (Ix 3) (U1 INeg (B2 (FCmp CNe) (Ln "a" (Ix 3)) (Ln "b" (Ix 3))));
    SetL "c" (Ix 4) (U1 INeg (B2 (FCmp CNe) (Ln "a" (Ix 4)) (Ln "b" (Ix 4))));
    SetL "c" (Ix 5) (U1 INeg (B2 (FCmp CNe) (Ln "a" (Ix 5)) (Ln "b" (Ix 5))));
    SetL "c" (Ix 6) (U1 INeg (B2 (FCmp CNe) (Ln "a" (Ix 6)) (Ln "b" (Ix 6))));
    SetL "c" (Ix 7) (U1 INeg (B2 (FCmp CNe) (Ln "a" (Ix 7)) (Ln "b" (Ix 7))));
    SetL "c" (Ix 8) (U1 INeg (B2 (FCmp CNe) (Ln "a" (Ix 8)) (Ln "b" (Ix 8))));
    SetL "c" (Ix 9) (U1 INeg (B2 (FCmp CNe) (Ln "a" (Ix 9)) (Ln "b" (Ix 9))));
    SetL "c" (Ix 10) (U1 INeg (B2 (FCmp CNe) (Ln "a" (Ix 10)) (Ln "b" (Ix 10))));
    SetL "c" (Ix 11) (U1 INeg (B2 (FCmp CNe) (Ln "a" (Ix 11)) (Ln "b" (Ix 11))));
    SetL "c" (Ix 12) (U1 INeg (B2 (FCmp CNe) (Ln "a" (Ix 12)) (Ln "b" (Ix 12))));
    SetL "c" (Ix 13) (U1 INeg (B2 (FCmp CNe) (Ln "a" (Ix 13)) (Ln "b" (Ix 13))));
    SetL "c" (Ix 14) (U1 INeg (B2 (FCmp CNe) (Ln "a" (Ix 14)) (Ln "b" (Ix 14))));
    SetL "c" (Ix 15) (U1 INeg (B2 (FCmp CNe) (Ln "a" (Ix 15)) (Ln "b" (Ix 15))))]
   ["c"];
  (* v16/v16_portable.h:3807-3807 *)
  fnc "float <=" 3807 [("a", 16); ("b", 16)]
   [SetL "c" (Ix 0) (U1 INeg (B2 (FCmp CLe) (Ln "a" (Ix 0)) (Ln "b" (Ix 0))));
    SetL "c" (Ix 1) (U1 INeg (B2 (FCmp CLe) (Ln "a" (Ix 1)) (Ln "b" (Ix 1))));
    SetL "c" (Ix 2) (U1 INeg (B2 (FCmp CLe) (Ln "a" (Ix 2)) (Ln "b" (Ix 2))));
    SetL "c" (Ix 3) (U1 INeg (B2 (FCmp CLe) (Ln "a" (Ix 3)) (Ln "b" (Ix 3))));
    SetL "c" (Ix 4) (U1 INeg (B2 (FCmp CLe) (Ln "a" (Ix 4)) (Ln "b" (Ix 4))));
    SetL "c" (Ix 5) (U1 INeg (B2 (FCmp CLe) (Ln "a" (Ix 5)) (Ln "b" (Ix 5))));
    SetL "c" (Ix 6) (U1 INeg (B2 (FCmp CLe) (Ln "a" (Ix 6)) (Ln "b" (Ix 6))));
    SetL "c" (Ix 7) (U1 INeg (B2 (FCmp CLe) (Ln "a" (Ix 7)) (Ln "b" (Ix 7))));
    SetL "c" (Ix 8) (U1 INeg (B2 (FCmp CLe) (Ln "a" (Ix 8)) (Ln "b" (Ix 8))));
    SetL "c" (Ix 9) (U1 INeg (B2 (FCmp CLe) (Ln "a" (Ix 9)) (Ln "b" (Ix 9))));
    SetL "c" (Ix 10) (U1 INeg (B2 (FCmp CLe) (Ln "a" (Ix 10)) (Ln "b" (Ix 10))));
    SetL "c" (Ix 11) (U1 INeg (B2 (FCmp CLe) (Ln "a" (Ix 11)) (Ln "b" (Ix 11))));
    SetL "c" (Ix 12) (U1 INeg (B2 (FCmp CLe) (Ln "a" (Ix 12)) (Ln "b" (Ix 12))));
    SetL "c" (Ix 13) (U1 INeg (B2 (FCmp CLe) (Ln "a" (Ix 13)) (Ln "b" (Ix 13))));
    SetL "c" (Ix 14) (U1 INeg (B2 (FCmp CLe) (Ln "a" (Ix 14)) (Ln "b" (Ix 14))));
    SetL "c" (Ix 15) (U1 INeg (B2 (FCmp CLe) (Ln "a" (Ix 15)) (Ln "b" (Ix 15))))]
   ["c"];
  (* v16/v16_portable.h:3808-3808 *)
  fnc "float >=" 3808 [("a", 16); ("b", 16)]
   [SetL "c" (Ix 0) (U1 INeg (B2 (FCmp CGe) (Ln "a" (Ix 0)) (Ln "b" (Ix 0))));
    SetL "c" (Ix 1) (U1 INeg (B2 (FCmp CGe) (Ln "a" (Ix 1)) (Ln "b" (Ix 1))));
    SetL "c" (Ix 2) (U1 INeg (B2 (FCmp CGe) (Ln "a" (Ix 2)) (Ln "b" (Ix 2))));
    SetL "c" (Ix 3) (U1 INeg (B2 (FCmp CGe) (Ln "a" (Ix 3)) (Ln "b" (Ix 3))));
    SetL "c" (Ix 4) (U1 INeg (B2 (FCmp CGe) (Ln "a" (Ix 4)) (Ln "b" (Ix 4))));
    SetL "c" (Ix 5) (U1 INeg (B2 (FCmp CGe) (Ln "a" (Ix 5)) (Ln "b" (Ix 5))));
    SetL "c" (Ix 6) (U1 INeg (B2 (FCmp CGe) (Ln "a" (Ix 6)) (Ln "b" (Ix 6))));
    SetL "c" (Ix 7) (U1 INeg (B2 (FCmp CGe) (Ln "a" (Ix 7)) (Ln "b" (Ix 7))));
    SetL "c" (Ix 8) (U1 INeg (B2 (FCmp CGe) (Ln "a" (Ix 8)) (Ln "b" (Ix 8))));
    SetL "c" (Ix 9) (U1 INeg (B2 (FCmp CGe) (Ln "a" (Ix 9)) (Ln "b" (Ix 9))));
    SetL "c" (Ix 10) (U1 INeg (B2 (FCmp CGe) (Ln "a" (Ix 10)) (Ln "b" (Ix 10))));
    SetL "c" (Ix 11) (U1 INeg (B2 (FCmp CGe) (Ln "a" (Ix 11)) (Ln "b" (Ix 11))));
    SetL "c" (Ix 12) (U1 INeg (B2 (FCmp CGe) (Ln "a" (Ix 12)) (Ln "b" (Ix 12))));
    SetL "c" (Ix 13) (U1 INeg (B2 (FCmp CGe) (Ln "a" (Ix 13)) (Ln "b" (Ix 13))));
    SetL "c" (Ix 14) (U1 INeg (B2 (FCmp CGe) (Ln "a" (Ix 14)) (Ln "b" (Ix 14))));
    SetL "c" (Ix 15) (U1 INeg (B2 (FCmp CGe) (Ln "a" (Ix 15)) (Ln "b" (Ix 15))))]
   ["c"];
  (* v16/v16_portable.h:3809-3809 *)
  fnc "float &&" 3809 [("a", 16); ("b", 16)]
   [SetL "c" (Ix 0) (U1 INeg (B2 FLAnd (Ln "a" (Ix 0)) (Ln "b" (Ix 0))));
    SetL "c" (Ix 1) (U1 INeg (B2 FLAnd (Ln "a" (Ix 1)) (Ln "b" (Ix 1))));
    SetL "c" (Ix 2) (U1 INeg (B2 FLAnd (Ln "a" (Ix 2)) (Ln "b" (Ix 2))));
    SetL "c" (Ix 3) (U1 INeg (B2 FLAnd (Ln "a" (Ix 3)) (Ln "b" (Ix 3))));
    SetL "c" (Ix 4) (U1 INeg (B2 FLAnd (Ln "a" (Ix 4)) (Ln "b" (Ix 4))));
    SetL "c" (Ix 5) (U1 INeg (B2 FLAnd (Ln "a" (Ix 5)) (Ln "b" (Ix 5))));
    SetL "c" (Ix 6) (U1 INeg (B2 FLAnd (Ln "a" (Ix 6)) (Ln "b" (Ix 6))));
    SetL "c" (Ix 7) (U1 INeg (B2 FLAnd (Ln "a" (Ix 7)) (Ln "b" (Ix 7))));
    SetL "c" (Ix 8) (U1 INeg (B2 FLAnd (Ln "a" (Ix 8)) (Ln "b" (Ix 8))));
    SetL "c" (Ix 9) (U1 INeg (B2 FLAnd (Ln "a" (Ix 9)) (Ln "b" (Ix 9))));
    SetL "c" (Ix 10) (U1 INeg (B2 FLAnd (Ln "a" (Ix 10)) (Ln "b" (Ix 10))));
    SetL "c" (Ix 11) (U1 INeg (B2 FLAnd (Ln "a" (Ix 11)) (Ln "b" (Ix 11))));
    SetL "c" (Ix 12) (U1 INeg (B2 FLAnd (Ln "a" (Ix 12)) (Ln "b" (Ix 12))));
    SetL "c" (Ix 13) (U1 INeg (B2 FLAnd (Ln "a" (Ix 13)) (Ln "b" (Ix 13))));
    SetL "c" (Ix 14) (U1 INeg (B2 FLAnd (Ln "a" (Ix 14)) (Ln "b" (Ix 14))));
    SetL "c" (Ix 15) (U1 INeg (B2 FLAnd (Ln "a" (Ix 15)) (Ln "b" (Ix 15))))]
   ["c"];
  (* v16/v16_portable.h:3810-3810 *)
  fnc "float ||" 3810 [("a", 16); ("b", 16)]
   [SetL "c" (Ix 0) (U1 INeg (B2 FLOr (Ln "a" (Ix 0)) (Ln "b" (Ix 0))));
    SetL "c" (Ix 1) (U1 INeg (B2 FLOr (Ln "a" (Ix 1)) (Ln "b" (Ix 1))));
    SetL "c" (Ix 2) (U1 INeg (B2 FLOr (Ln "a" (Ix 2)) (Ln "b" (Ix 2))));
    SetL "c" (Ix 3) (U1 INeg (B2 FLOr (Ln "a" (Ix 3)) (Ln "b" (Ix 3))));
    SetL "c" (Ix 4) (U1 INeg (B2 FLOr (Ln "a" (Ix 4)) (Ln "b" (Ix 4))));
    SetL "c" (Ix 5) (U1 INeg (B2 FLOr (Ln "a" (Ix 5)) (Ln "b" (Ix 5))));
    SetL "c" (Ix 6) (U1 INeg (B2 FLOr (Ln "a" (Ix 6)) (Ln "b" (Ix 6))));
    SetL "c" (Ix 7) (U1 INeg (B2 FLOr (Ln "a" (Ix 7)) (Ln "b" (Ix 7))));
    SetL "c" (Ix 8) (U1 INeg (B2 FLOr (Ln "a" (Ix 8)) (Ln "b" (Ix 8))));
    SetL "c" (Ix 9) (U1 INeg (B2 FLOr (Ln "a" (Ix 9)) (Ln "b" (Ix 9))));
    SetL "c" (Ix 10) (U1 INeg (B2 FLOr (Ln "a" (Ix 10)) (Ln "b" (Ix 10))));
    SetL "c" (Ix 11) (U1 INeg (B2 FLOr (Ln "a" (Ix 11)) (Ln "b" (Ix 11))));
    SetL "c" (Ix 12) (U1 INeg (B2 FLOr (Ln "a" (Ix 12)) (Ln "b" (Ix 12))));
    SetL "c" (Ix 13) (U1 INeg (B2 FLOr (Ln "a" (Ix 13)) (Ln "b" (Ix 13))));
    SetL "c" (Ix 14) (U1 INeg (B2 FLOr (Ln "a" (Ix 14)) (Ln "b" (Ix 14))));
    SetL "c" (Ix 15) (U1 INeg (B2 FLOr (Ln "a" (Ix 15)) (Ln "b" (Ix 15))))]
   ["c"];
  (* v16/v16_portable.h:3862-3862 *)
  fnc "acos" 3862 [("a", 16)]
   [SetL "b" (Ix 0) (U1 (FFun "acos") (Ln "a" (Ix 0)));
    SetL "b" (Ix 1) (U1 (FFun "acos") (Ln "a" (Ix 1)));
    SetL "b" (Ix 2) (U1 (FFun "acos") (Ln "a" (Ix 2)));
    SetL "b" (Ix 3) (U1 (FFun "acos") (Ln "a" (Ix 3)));
    SetL "b" (Ix 4) (U1 (FFun "acos") (Ln "a" (Ix 4)));
    SetL "b" (Ix 5) (U1 (FFun "acos") (Ln "a" (Ix 5)));
    SetL "b" (Ix 6) (U1 (FFun "acos") (Ln "a" (Ix 6)));
    SetL "b" (Ix 7) (U1 (FFun "acos") (Ln "a" (Ix 7)));
    SetL "b" (Ix 8) (U1 (FFun "acos") (Ln "a" (Ix 8)));
    SetL "b" (Ix 9) (U1 (FFun "acos") (Ln "a" (Ix 9)));
    SetL "b" (Ix 10) (U1 (FFun "acos") (Ln "a" (Ix 10)));
    SetL "b" (Ix 11) (U1 (FFun "acos") (Ln "a" (Ix 11)));
    SetL "b" (Ix 12) (U1 (FFun "acos") (Ln "a" (Ix 12)));
    SetL "b" (Ix 13) (U1 (FFun "acos") (Ln "a" (Ix 13)));
    SetL "b" (Ix 14) (U1 (FFun "acos") (Ln "a" (Ix 14)));
    SetL "b" (Ix 15) (U1 (FFun "acos") (Ln "a" (Ix 15)))]
   ["b"];
  (* v16/v16_portable.h:3862-3862 *)
  fnc "asin" 3862 [("a", 16)]
   [SetL "b" (Ix 0) (U1 (FFun "asin") (Ln "a" (Ix 0)));
    SetL "b" (Ix 1) (U1 (FFun "asin") (Ln "a" (Ix 1)));
    SetL "b" (Ix 2) (U1 (FFun "asin") (Ln "a" (Ix 2)));
    SetL "b" (Ix 3) (U1 (FFun "asin") (Ln "a" (Ix 3)));
    SetL "b" (Ix 4) (U1 (FFun "asin") (Ln "a" (Ix 4)));
    SetL "b" (Ix 5) (U1 (FFun "asin") (Ln "a" (Ix 5)));
    SetL "b" (Ix 6) (U1 (FFun "asin") (Ln "a" (Ix 6)));
    SetL "b" (Ix 7) (U1 (FFun "asin") (Ln "a" (Ix 7)));
    SetL "b" (Ix 8) (U1 (FFun "asin") (Ln "a" (Ix 8)));
    SetL "b" (Ix 9) (U1 (FFun "asin") (Ln "a" (Ix 9)));
    SetL "b" (Ix 10) (U1 (FFun "asin") (Ln "a" (Ix 10)));
    SetL "b" (Ix 11) (U1 (FFun "asin") (Ln "a" (Ix 11)));
    SetL "b" (Ix 12) (U1 (FFun "asin") (Ln "a" (Ix 12)));
    SetL "b" (Ix 13) (U1 (FFun "asin") (Ln "a" (Ix 13)));
    SetL "b" (Ix 14) (U1 (FFun "asin") (Ln "a" (Ix 14)));
    SetL "b" (Ix 15) (U1 (FFun "asin") (Ln "a" (Ix 15)))]
   ["b"];
  (* v16/v16_portable.h:3862-3862 *)
  fnc "atan" 3862 [("a", 16)]
   [SetL "b" (Ix 0) (U1 (FFun "atan") (Ln "a" (Ix 0)));
    SetL "b" (Ix 1) (U1 (FFun "atan") (Ln "a" (Ix 1)));
    SetL "b" (Ix 2) (U1 (FFun "atan") (Ln "a" (Ix 2)));
    SetL "b" (Ix 3) (U1 (FFun "atan") (Ln "a" (Ix 3)));
    SetL "b" (Ix 4) (U1 (FFun "atan") (Ln "a" (Ix 4)));
    SetL "b" (Ix 5) (U1 (FFun "atan") (Ln "a" (Ix 5)));
    SetL "b" (Ix 6) (U1 (FFun "atan") (Ln "a" (Ix 6)));
    SetL "b" (Ix 7) (U1 (FFun "atan") (Ln "a" (Ix 7)));
    SetL "b" (Ix 8) (U1 (FFun "atan") (Ln "a" (Ix 8)));
    SetL "b" (Ix 9) (U1 (FFun "atan") (Ln "a" (Ix 9)));
    SetL "b" (Ix 10) (U1 (FFun "atan") (Ln "a" (Ix 10)));
    SetL "b" (Ix 11) (U1 (FFun "atan") (Ln "a" (Ix 11)));
    SetL "b" (Ix 12) (U1 (FFun "atan") (Ln "a" (Ix 12)));
    SetL "b" (Ix 13) (U1 (FFun "atan") (Ln "a" (Ix 13)));
    SetL "b" (Ix 14) (U1 (FFun "atan") (Ln "a" (Ix 14)));
    SetL "b" (Ix 15) (U1 (FFun "atan") (Ln "a" (Ix 15)))]
   ["b"];
  (* v16/v16_portable.h:3862-3862 *)
  fnc "atan2" 3862 [("a", 16); ("b", 16)]
   [SetL "c" (Ix 0) (B2 (FFun2 "atan2") (Ln "a" (Ix 0)) (Ln "b" (Ix 0)));
    SetL "c" (Ix 1) (B2 (FFun2 "atan2") (Ln "a" (Ix 1)) (Ln "b" (Ix 1)));
    SetL "c" (Ix 2) (B2 (FFun2 "atan2") (Ln "a" (Ix 2)) (Ln "b" (Ix 2)));
    SetL "c" (Ix 3) (B2 (FFun2 "atan2") (Ln "a" (Ix 3)) (Ln "b" (Ix 3)));
    SetL "c" (Ix 4) (B2 (FFun2 "atan2") (Ln "a" (Ix 4)) (Ln "b" (Ix 4)));
    SetL "c" (Ix 5) (B2 (FFun2 "atan2") (Ln "a" (Ix 5)) (Ln "b" (Ix 5)));
    SetL "c" (Ix 6) (B2 (FFun2 "atan2") (Ln "a" (Ix 6)) (Ln "b" (Ix 6)));
    SetL "c" (Ix 7) (B2 (FFun2 "atan2") (Ln "a" (Ix 7)) (Ln "b" (Ix 7)));
    SetL "c" (Ix 8) (B2 (FFun2 "atan2") (Ln "a" (Ix 8)) (Ln "b" (Ix 8)));
    SetL "c" (Ix 9) (B2 (FFun2 "atan2") (Ln "a" (Ix 9)) (Ln "b" (Ix 9)));
    SetL "c" (Ix 10) (B2 (FFun2 "atan2") (Ln "a" (Ix 10)) (Ln "b" (Ix 10)));
    SetL "c" (Ix 11) (B2 (FFun2 "atan2") (Ln "a" (Ix 11)) (Ln "b" (Ix 11)));
    SetL "c" (Ix 12) (B2 (FFun2 "atan2") (Ln "a" (Ix 12)) (Ln "b" (Ix 12)));
    SetL "c" (Ix 13) (B2 (FFun2 "atan2") (Ln "a" (Ix 13)) (Ln "b" (Ix 13)));
    SetL "c" (Ix 14) (B2 (FFun2 "atan2") (Ln "a" (Ix 14)) (Ln "b" (Ix 14)));
    SetL "c" (Ix 15) (B2 (FFun2 "atan2") (Ln "a" (Ix 15)) (Ln "b" (Ix 15)))]
   ["c"];
  (* v16/v16_portable.h:3863-3863 *)
  fnc "ceil" 3863 [("a", 16)]
   [SetL "b" (Ix 0) (U1 (FFun "ceil") (Ln "a" (Ix 0)));
    SetL "b" (Ix 1) (U1 (FFun "ceil") (Ln "a" (Ix 1)));
    SetL "b" (Ix 2) (U1 (FFun "ceil") (Ln "a" (Ix 2)));
    SetL "b" (Ix 3) (U1 (FFun "ceil") (Ln "a" (Ix 3)));
    SetL "b" (Ix 4) (U1 (FFun "ceil") (Ln "a" (Ix 4)));
    SetL "b" (Ix 5) (U1 (FFun "ceil") (Ln "a" (Ix 5)));
    SetL "b" (Ix 6) (U1 (FFun "ceil") (Ln "a" (Ix 6)));
    SetL "b" (Ix 7) (U1 (FFun "ceil") (Ln "a" (Ix 7)));
    SetL "b" (Ix 8) (U1 (FFun "ceil") (Ln "a" (Ix 8)));
    SetL "b" (Ix 9) (U1 (FFun "ceil") (Ln "a" (Ix 9)));
    SetL "b" (Ix 10) (U1 (FFun "ceil") (Ln "a" (Ix 10)));
    SetL "b" (Ix 11) (U1 (FFun "ceil") (Ln "a" (Ix 11)));
    SetL "b" (Ix 12) (U1 (FFun "ceil") (Ln "a" (Ix 12)));
    SetL "b" (Ix 13) (U1 (FFun "ceil") (Ln "a" (Ix 13)));
    SetL "b" (Ix 14) (U1 (FFun "ceil") (Ln "a" (Ix 14)));
    SetL "b" (Ix 15) (U1 (FFun "ceil") (Ln "a" (Ix 15)))]
   ["b"];
  (* v16/v16_portable.h:3863-3863 *)
  fnc "cos" 3863 [("a", 16)]
   [SetL "b" (Ix 0) (U1 (FFun "cos") (Ln "a" (Ix 0)));
    SetL "b" (Ix 1) (U1 (FFun "cos") (Ln "a" (Ix 1)));
    SetL "b" (Ix 2) (U1 (FFun "cos") (Ln "a" (Ix 2)));
    SetL "b" (Ix 3) (U1 (FFun "cos") (Ln "a" (Ix 3)));
    SetL "b" (Ix 4) (U1 (FFun "cos") (Ln "a" (Ix 4)));
    SetL "b" (Ix 5) (U1 (FFun "cos") (Ln "a" (Ix 5)));
    SetL "b" (Ix 6) (U1 (FFun "cos") (Ln "a" (Ix 6)));
    SetL "b" (Ix 7) (U1 (FFun "cos") (Ln "a" (Ix 7)));
    SetL "b" (Ix 8) (U1 (FFun "cos") (Ln "a" (Ix 8)));
    SetL "b" (Ix 9) (U1 (FFun "cos") (Ln "a" (Ix 9)));
    SetL "b" (Ix 10) (U1 (FFun "cos") (Ln "a" (Ix 10)));
    SetL "b" (Ix 11) (U1 (FFun "cos") (Ln "a" (Ix 11)));
    SetL "b" (Ix 12) (U1 (FFun "cos") (Ln "a" (Ix 12)));
    SetL "b" (Ix 13) (U1 (FFun "cos") (Ln "a" (Ix 13)));
    SetL "b" (Ix 14) (U1 (FFun "cos") (Ln "a" (Ix 14)));
    SetL "b" (Ix 15) (U1 (FFun "cos") (Ln "a" (Ix 15)))]
   ["b"];
  (* v16/v16_portable.h:3863-3863 *)
  fnc "cosh" 3863 [("a", 16)]
   [SetL "b" (Ix 0) (U1 (FFun "cosh") (Ln "a" (Ix 0)));
    SetL "b" (Ix 1) (U1 (FFun "cosh") (Ln "a" (Ix 1)));
    SetL "b" (Ix 2) (U1 (FFun "cosh") (Ln "a" (Ix 2)));
    SetL "b" (Ix 3) (U1 (FFun "cosh") (Ln "a" (Ix 3)));
    SetL "b" (Ix 4) (U1 (FFun "cosh") (Ln "a" (Ix 4)));
    SetL "b" (Ix 5) (U1 (FFun "cosh") (Ln "a" (Ix 5)));
    SetL "b" (Ix 6) (U1 (FFun "cosh") (Ln "a" (Ix 6)));
    SetL "b" (Ix 7) (U1 (FFun "cosh") (Ln "a" (Ix 7)));
    SetL "b" (Ix 8) (U1 (FFun "cosh") (Ln "a" (Ix 8)));
    SetL "b" (Ix 9) (U1 (FFun "cosh") (Ln "a" (Ix 9)));
    SetL "b" (Ix 10) (U1 (FFun "cosh") (Ln "a" (Ix 10)));
    SetL "b" (Ix 11) (U1 (FFun "cosh") (Ln "a" (Ix 11)));
    SetL "b" (Ix 12) (U1 (FFun "cosh") (Ln "a" (Ix 12)));
    SetL "b" (Ix 13) (U1 (FFun "cosh") (Ln "a" (Ix 13)));
    SetL "b" (Ix 14) (U1 (FFun "cosh") (Ln "a" (Ix 14)));
    SetL "b" (Ix 15) (U1 (FFun "cosh") (Ln "a" (Ix 15)))]
   ["b"];
  (* v16/v16_portable.h:3863-3863 *)
  fnc "exp" 3863 [("a", 16)]
   [SetL "b" (Ix 0) (U1 (FFun "exp") (Ln "a" (Ix 0)));
    SetL "b" (Ix 1) (U1 (FFun "exp") (Ln "a" (Ix 1)));
    SetL "b" (Ix 2) (U1 (FFun "exp") (Ln "a" (Ix 2)));
    SetL "b" (Ix 3) (U1 (FFun "exp") (Ln "a" (Ix 3)));
    SetL "b" (Ix 4) (U1 (FFun "exp") (Ln "a" (Ix 4)));
    SetL "b" (Ix 5) (U1 (FFun "exp") (Ln "a" (Ix 5)));
    SetL "b" (Ix 6) (U1 (FFun "exp") (Ln "a" (Ix 6)));
    SetL "b" (Ix 7) (U1 (FFun "exp") (Ln "a" (Ix 7)));
    SetL "b" (Ix 8) (U1 (FFun "exp") (Ln "a" (Ix 8)));
    SetL "b" (Ix 9) (U1 (FFun "exp") (Ln "a" (Ix 9)));
    SetL "b" (Ix 10) (U1 (FFun "exp") (Ln "a" (Ix 10)));
    SetL "b" (Ix 11) (U1 (FFun "exp") (Ln "a" (Ix 11)));
    SetL "b" (Ix 12) (U1 (FFun "exp") (Ln "a" (Ix 12)));
    SetL "b" (Ix 13) (U1 (FFun "exp") (Ln "a" (Ix 13)));
    SetL "b" (Ix 14) (U1 (FFun "exp") (Ln "a" (Ix 14)));
    SetL "b" (Ix 15) (U1 (FFun "exp") (Ln "a" (Ix 15)))]
   ["b"];
  (* v16/v16_portable.h:3864-3864 *)
  fnc "fabs" 3864 [("a", 16)]
   [SetL "b" (Ix 0) (U1 FAbs (Ln "a" (Ix 0)));
    SetL "b" (Ix 1) (U1 FAbs (Ln "a" (Ix 1)));
    SetL "b" (Ix 2) (U1 FAbs (Ln "a" (Ix 2)));
    SetL "b" (Ix 3) (U1 FAbs (Ln "a" (Ix 3)));
    SetL "b" (Ix 4) (U1 FAbs (Ln "a" (Ix 4)));
    SetL "b" (Ix 5) (U1 FAbs (Ln "a" (Ix 5)));
    SetL "b" (Ix 6) (U1 FAbs (Ln "a" (Ix 6)));
    SetL "b" (Ix 7) (U1 FAbs (Ln "a" (Ix 7)));
    SetL "b" (Ix 8) (U1 FAbs (Ln "a" (Ix 8)));
    SetL "b" (Ix 9) (U1 FAbs (Ln "a" (Ix 9)));
    SetL "b" (Ix 10) (U1 FAbs (Ln "a" (Ix 10)));
    SetL "b" (Ix 11) (U1 FAbs (Ln "a" (Ix 11)));
    SetL "b" (Ix 12) (U1 FAbs (Ln "a" (Ix 12)));
    SetL "b" (Ix 13) (U1 FAbs (Ln "a" (Ix 13)));
    SetL "b" (Ix 14) (U1 FAbs (Ln "a" (Ix 14)));
    SetL "b" (Ix 15) (U1 FAbs (Ln "a" (Ix 15)))]
   ["b"];
  (* v16/v16_portable.h:3864-3864 *)
  fnc "floor" 3864 [("a", 16)]
   [SetL "b" (Ix 0) (U1 (FFun "floor") (Ln "a" (Ix 0)));
    SetL "b" (Ix 1) (U1 (FFun "floor") (Ln "a" (Ix 1)));
    SetL "b" (Ix 2) (U1 (FFun "floor") (Ln "a" (Ix 2)));
    SetL "b" (Ix 3) (U1 (FFun "floor") (Ln "a" (Ix 3)));
    SetL "b" (Ix 4) (U1 (FFun "floor") (Ln "a" (Ix 4)));
    SetL "b" (Ix 5) (U1 (FFun "floor") (Ln "a" (Ix 5)));
    SetL "b" (Ix 6) (U1 (FFun "floor") (Ln "a" (Ix 6)));
    SetL "b" (Ix 7) (U1 (FFun "floor") (Ln "a" (Ix 7)));
    SetL "b" (Ix 8) (U1 (FFun "floor") (Ln "a" (Ix 8)));
    SetL "b" (Ix 9) (U1 (FFun "floor") (Ln "a" (Ix 9)));
    SetL "b" (Ix 10) (U1 (FFun "floor") (Ln "a" (Ix 10)));
    SetL "b" (Ix 11) (U1 (FFun "floor") (Ln "a" (Ix 11)));
    SetL "b" (Ix 12) (U1 (FFun "floor") (Ln "a" (Ix 12)));
    SetL "b" (Ix 13) (U1 (FFun "floor") (Ln "a" (Ix 13)));
    SetL "b" (Ix 14) (U1 (FFun "floor") (Ln "a" (Ix 14)));
    SetL "b" (Ix 15) (U1 (FFun "floor") (Ln "a" (Ix 15)))]
   ["b"];
  (* v16/v16_portable.h:3864-3864 *)
  fnc "fmod" 3864 [("a", 16); ("b", 16)]
   [SetL "c" (Ix 0) (B2 (FFun2 "fmod") (Ln "a" (Ix 0)) (Ln "b" (Ix 0)));
    SetL "c" (Ix 1) (B2 (FFun2 "fmod") (Ln "a" (Ix 1)) (Ln "b" (Ix 1)));
    SetL "c" (Ix 2) (B2 (FFun2 "fmod") (Ln "a" (Ix 2)) (Ln "b" (Ix 2)));
    SetL "c" (Ix 3) (B2 (FFun2 "fmod") (Ln "a" (Ix 3)) (Ln "b" (Ix 3)));
    SetL "c" (Ix 4) (B2 (FFun2 "fmod") (Ln "a" (Ix 4)) (Ln "b" (Ix 4)));
    SetL "c" (Ix 5) (B2 (FFun2 "fmod") (Ln "a" (Ix 5)) (Ln "b" (Ix 5)));
    SetL "c" (Ix 6) (B2 (FFun2 "fmod") (Ln "a" (Ix 6)) (Ln "b" (Ix 6)));
    SetL "c" (Ix 7) (B2 (FFun2 "fmod") (Ln "a" (Ix 7)) (Ln "b" (Ix 7)));
    SetL "c" (Ix 8) (B2 (FFun2 "fmod") (Ln "a" (Ix 8)) (Ln "b" (Ix 8)));
    SetL "c" (Ix 9) (B2 (FFun2 "fmod") (Ln "a" (Ix 9)) (Ln "b" (Ix 9)));
    SetL "c" (Ix 10) (B2 (FFun2 "fmod") (Ln "a" (Ix 10)) (Ln "b" (Ix 10)));
    SetL "c" (Ix 11) (B2 (FFun2 "fmod") (Ln "a" (Ix 11)) (Ln "b" (Ix 11)));
    SetL "c" (Ix 12) (B2 (FFun2 "fmod") (Ln "a" (Ix 12)) (Ln "b" (Ix 12)));
    SetL "c" (Ix 13) (B2 (FFun2 "fmod") (Ln "a" (Ix 13)) (Ln "b" (Ix 13)));
    SetL "c" (Ix 14) (B2 (FFun2 "fmod") (Ln "a" (Ix 14)) (Ln "b" (Ix 14)));
    SetL "c" (Ix 15) (B2 (FFun2 "fmod") (Ln "a" (Ix 15)) (Ln "b" (Ix 15)))]
   ["c"];
  (* v16/v16_portable.h:3864-3864 *)
  fnc "log" 3864 [("a", 16)]
   [SetL "b" (Ix 0) (U1 (FFun "log") (Ln "a" (Ix 0)));
    SetL "b" (Ix 1) (U1 (FFun "log") (Ln "a" (Ix 1)));
    SetL "b" (Ix 2) (U1 (FFun "log") (Ln "a" (Ix 2)));
    SetL "b" (Ix 3) (U1 (FFun "log") (Ln "a" (Ix 3)));
    SetL "b" (Ix 4) (U1 (FFun "log") (Ln "a" (Ix 4)));
    SetL "b" (Ix 5) (U1 (FFun "log") (Ln "a" (Ix 5)));
    SetL "b" (Ix 6) (U1 (FFun "log") (Ln "a" (Ix 6)));
    SetL "b" (Ix 7) (U1 (FFun "log") (Ln "a" (Ix 7)));
    SetL "b" (Ix 8) (U1 (FFun "log") (Ln "a" (Ix 8)));
    SetL "b" (Ix 9) (U1 (FFun "log") (Ln "a" (Ix 9)));
    SetL "b" (Ix 10) (U1 (FFun "log") (Ln "a" (Ix 10)));
    SetL "b" (Ix 11) (U1 (FFun "log") (Ln "a" (Ix 11)));
    SetL "b" (Ix 12) (U1 (FFun "log") (Ln "a" (Ix 12)));
    SetL "b" (Ix 13) (U1 (FFun "log") (Ln "a" (Ix 13)));
    SetL "b" (Ix 14) (U1 (FFun "log") (Ln "a" (Ix 14)));
    SetL "b" (Ix 15) (U1 (FFun "log") (Ln "a" (Ix 15)))]
   ["b"];
  (* v16/v16_portable.h:3865-3865 *)
  fnc "log10" 3865 [("a", 16)]
   [SetL "b" (Ix 0) (U1 (FFun "log10") (Ln "a" (Ix 0)));
    SetL "b" (Ix 1) (U1 (FFun "log10") (Ln "a" (Ix 1)));
    SetL "b" (Ix 2) (U1 (FFun "log10") (Ln "a" (Ix 2)));
    SetL "b" (Ix 3) (U1 (FFun "log10") (Ln "a" (Ix 3)));
    SetL "b" (Ix 4) (U1 (FFun "log10") (Ln "a" (Ix 4)));
    SetL "b" (Ix 5) (U1 (FFun "log10") (Ln "a" (Ix 5)));
    SetL "b" (Ix 6) (U1 (FFun "log10") (Ln "a" (Ix 6)));
    SetL "b" (Ix 7) (U1 (FFun "log10") (Ln "a" (Ix 7)));
    SetL "b" (Ix 8) (U1 (FFun "log10") (Ln "a" (Ix 8)));
    SetL "b" (Ix 9) (U1 (FFun "log10") (Ln "a" (Ix 9)));
    SetL "b" (Ix 10) (U1 (FFun "log10") (Ln "a" (Ix 10)));
    SetL "b" (Ix 11) (U1 (FFun "log10") (Ln "a" (Ix 11)));
    SetL "b" (Ix 12) (U1 (FFun "log10") (Ln "a" (Ix 12)));
    SetL "b" (Ix 13) (U1 (FFun "log10") (Ln "a" (Ix 13)));
    SetL "b" (Ix 14) (U1 (FFun "log10") (Ln "a" (Ix 14)));
    SetL "b" (Ix 15) (U1 (FFun "log10") (Ln "a" (Ix 15)))]
   ["b"];
  (* v16/v16_portable.h:3865-3865 *)
  fnc "pow" 3865 [("a", 16); ("b", 16)]
   [SetL "c" (Ix 0) (B2 (FFun2 "pow") (Ln "a" (Ix 0)) (Ln "b" (Ix 0)));
    SetL "c" (Ix 1) (B2 (FFun2 "pow") (Ln "a" (Ix 1)) (Ln "b" (Ix 1)));
    SetL "c" (Ix 2) (B2 (FFun2 "pow") (Ln "a" (Ix 2)) (Ln "b" (Ix 2)));
    SetL "c" (Ix 3) (B2 (FFun2 "pow") (Ln "a" (Ix 3)) (Ln "b" (Ix 3)));
    SetL "c" (Ix 4) (B2 (FFun2 "pow") (Ln "a" (Ix 4)) (Ln "b" (Ix 4)));
    SetL "c" (Ix 5) (B2 (FFun2 "pow") (Ln "a" (Ix 5)) (Ln "b" (Ix 5)));
    SetL "c" (Ix 6) (B2 (FFun2 "pow") (Ln "a" (Ix 6)) (Ln "b" (Ix 6)));
    SetL "c" (Ix 7) (B2 (FFun2 "pow") (Ln "a" (Ix 7)) (Ln "b" (Ix 7)));
    SetL "c" (Ix 8) (B2 (FFun2 "pow") (Ln "a" (Ix 8)) (Ln "b" (Ix 8)));
    SetL "c" (Ix 9) (B2 (FFun2 "pow") (Ln "a" (Ix 9)) (Ln "b" (Ix 9)));
    SetL "c" (Ix 10) (B2 (FFun2 "pow") (Ln "a" (Ix 10)) (Ln "b" (Ix 10)));
    SetL "c" (Ix 11) (B2 (FFun2 "pow") (Ln "a" (Ix 11)) (Ln "b" (Ix 11)));
    SetL "c" (Ix 12) (B2 (FFun2 "pow") (Ln "a" (Ix 12)) (Ln "b" (Ix 12)));
    SetL "c" (Ix 13) (B2 (FFun2 "pow") (Ln "a" (Ix 13)) (Ln "b" (Ix 13)));
    SetL "c" (Ix 14) (B2 (FFun2 "pow") (Ln "a" (Ix 14)) (Ln "b" (Ix 14)));
    SetL "c" (Ix 15) (B2 (FFun2 "pow") (Ln "a" (Ix 15)) (Ln "b" (Ix 15)))]
   ["c"];
  (* v16/v16_portable.h:3865-3865 *)
  fnc "sin" 3865 [("a", 16)]
   [SetL "b" (Ix 0) (U1 (FFun "sin") (Ln "a" (Ix 0)));
    SetL "b" (Ix 1) (U1 (FFun "sin") (Ln "a" (Ix 1)));
    SetL "b" (Ix 2) (U1 (FFun "sin") (Ln "a" (Ix 2)));
    SetL "b" (Ix 3) (U1 (FFun "sin") (Ln "a" (Ix 3)));
    SetL "b" (Ix 4) (U1 (FFun "sin") (Ln "a" (Ix 4)));
    SetL "b" (Ix 5) (U1 (FFun "sin") (Ln "a" (Ix 5)));
    SetL "b" (Ix 6) (U1 (FFun "sin") (Ln "a" (Ix 6)));
    SetL "b" (Ix 7) (U1 (FFun "sin") (Ln "a" (Ix 7)));
    SetL "b" (Ix 8) (U1 (FFun "sin") (Ln "a" (Ix 8)));
    SetL "b" (Ix 9) (U1 (FFun "sin") (Ln "a" (Ix 9)));
    SetL "b" (Ix 10) (U1 (FFun "sin") (Ln "a" (Ix 10)));
    SetL "b" (Ix 11) (U1 (FFun "sin") (Ln "a" (Ix 11)));
    SetL "b" (Ix 12) (U1 (FFun "sin") (Ln "a" (Ix 12)));
    SetL "b" (Ix 13) (U1 (FFun "sin") (Ln "a" (Ix 13)));
    SetL "b" (Ix 14) (U1 (FFun "sin") (Ln "a" (Ix 14)));
    SetL "b" (Ix 15) (U1 (FFun "sin") (Ln "a" (Ix 15)))]
   ["b"];
  (* v16/v16_portable.h:3865-3865 *)
  fnc "sinh" 3865 [("a", 16)]
   [SetL "b" (Ix 0) (U1 (FFun "sinh") (Ln "a" (Ix 0)));
    SetL "b" (Ix 1) (U1 (FFun "sinh") (Ln "a" (Ix 1)));
    SetL "b" (Ix 2) (U1 (FFun "sinh") (Ln "a" (Ix 2)));
    SetL "b" (Ix 3) (U1 (FFun "sinh") (Ln "a" (Ix 3)));
    SetL "b" (Ix 4) (U1 (FFun "sinh") (Ln "a" (Ix 4)));
    SetL "b" (Ix 5) (U1 (FFun "sinh") (Ln "a" (Ix 5)));
    SetL "b" (Ix 6) (U1 (FFun "sinh") (Ln "a" (Ix 6)));
    SetL "b" (Ix 7) (U1 (FFun "sinh") (Ln "a" (Ix 7)));
    SetL "b" (Ix 8) (U1 (FFun "sinh") (Ln "a" (Ix 8)));
    SetL "b" (Ix 9) (U1 (FFun "sinh") (Ln "a" (Ix 9)));
    SetL "b" (Ix 10) (U1 (FFun "sinh") (Ln "a" (Ix 10)));
    SetL "b" (Ix 11) (U1 (FFun "sinh") (Ln "a" (Ix 11)));
    SetL "b" (Ix 12) (U1 (FFun "sinh") (Ln "a" (Ix 12)));
    SetL "b" (Ix 13) (U1 (FFun "sinh") (Ln "a" (Ix 13)));
    SetL "b" (Ix 14) (U1 (FFun "sinh") (Ln "a" (Ix 14)));
    SetL "b" (Ix 15) (U1 (FFun "sinh") (Ln "a" (Ix 15)))]
   ["b"];
  (* v16/v16_portable.h:3866-3866 *)
  fnc "sqrt" 3866 [("a", 16)]
   [SetL "b" (Ix 0) (U1 FSqrt (Ln "a" (Ix 0)));
    SetL "b" (Ix 1) (U1 FSqrt (Ln "a" (Ix 1)));
    SetL "b" (Ix 2) (U1 FSqrt (Ln "a" (Ix 2)));
    SetL "b" (Ix 3) (U1 FSqrt (Ln "a" (Ix 3)));
    SetL "b" (Ix 4) (U1 FSqrt (Ln "a" (Ix 4)));
    SetL "b" (Ix 5) (U1 FSqrt (Ln "a" (Ix 5)));
    SetL "b" (Ix 6) (U1 FSqrt (Ln "a" (Ix 6)));
    SetL "b" (Ix 7) (U1 FSqrt (Ln "a" (Ix 7)));
    SetL "b" (Ix 8) (U1 FSqrt (Ln "a" (Ix 8)));
    SetL "b" (Ix 9) (U1 FSqrt (Ln "a" (Ix 9)));
    SetL "b" (Ix 10) (U1 FSqrt (Ln "a" (Ix 10)));
    SetL "b" (Ix 11) (U1 FSqrt (Ln "a" (Ix 11)));
    SetL "b" (Ix 12) (U1 FSqrt (Ln "a" (Ix 12)));
    SetL "b" (Ix 13) (U1 FSqrt (Ln "a" (Ix 13)));
    SetL "b" (Ix 14) (U1 FSqrt (Ln "a" (Ix 14)));
    SetL "b" (Ix 15) (U1 FSqrt (Ln "a" (Ix 15)))]
   ["b"];
  (* v16/v16_portable.h:3866-3866 *)
  fnc "tan" 3866 [("a", 16)]
   [SetL "b" (Ix 0) (U1 (FFun "tan") (Ln "a" (Ix 0)));
    SetL "b" (Ix 1) (U1 (FFun "tan") (Ln "a" (Ix 1)));
    SetL "b" (Ix 2) (U1 (FFun "tan") (Ln "a" (Ix 2)));
    SetL "b" (Ix 3) (U1 (FFun "tan") (Ln "a" (Ix 3)));
    SetL "b" (Ix 4) (U1 (FFun "tan") (Ln "a" (Ix 4)));
    SetL "b" (Ix 5) (U1 (FFun "tan") (Ln "a" (Ix 5)));
    SetL "b" (Ix 6) (U1 (FFun "tan") (Ln "a" (Ix 6)));
    SetL "b" (Ix 7) (U1 (FFun "tan") (Ln "a" (Ix 7)));
    SetL "b" (Ix 8) (U1 (FFun "tan") (Ln "a" (Ix 8)));
    SetL "b" (Ix 9) (U1 (FFun "tan") (Ln "a" (Ix 9)));
    SetL "b" (Ix 10) (U1 (FFun "tan") (Ln "a" (Ix 10)));
    SetL "b" (Ix 11) (U1 (FFun "tan") (Ln "a" (Ix 11)));
    SetL "b" (Ix 12) (U1 (FFun "tan") (Ln "a" (Ix 12)));
    SetL "b" (Ix 13) (U1 (FFun "tan") (Ln "a" (Ix 13)));
    SetL "b" (Ix 14) (U1 (FFun "tan") (Ln "a" (Ix 14)));
    SetL "b" (Ix 15) (U1 (FFun "tan") (Ln "a" (Ix 15)))]
   ["b"];
  (* v16/v16_portable.h:3866-3866 *)
  fnc "tanh" 3866 [("a", 16)]
   [SetL "b" (Ix 0) (U1 (FFun "tanh") (Ln "a" (Ix 0)));
    SetL "b" (Ix 1) (U1 (FFun "tanh") (Ln "a" (Ix 1)));
    SetL "b" (Ix 2) (U1 (FFun "tanh") (Ln "a" (Ix 2)));
    SetL "b" (Ix 3) (U1 (FFun "tanh") (Ln "a" (Ix 3)));
    SetL "b" (Ix 4) (U1 (FFun "tanh") (Ln "a" (Ix 4)));
    SetL "b" (Ix 5) (U1 (FFun "tanh") (Ln "a" (Ix 5)));
    SetL "b" (Ix 6) (U1 (FFun "tanh") (Ln "a" (Ix 6)));
    SetL "b" (Ix 7) (U1 (FFun "tanh") (Ln "a" (Ix 7)));
    SetL "b" (Ix 8) (U1 (FFun "tanh") (Ln "a" (Ix 8)));
    SetL "b" (Ix 9) (U1 (FFun "tanh") (Ln "a" (Ix 9)));
    SetL "b" (Ix 10) (U1 (FFun "tanh") (Ln "a" (Ix 10)));
    SetL "b" (Ix 11) (U1 (FFun "tanh") (Ln "a" (Ix 11)));
    SetL "b" (Ix 12) (U1 (FFun "tanh") (Ln "a" (Ix 12)));
    SetL "b" (Ix 13) (U1 (FFun "tanh") (Ln "a" (Ix 13)));
    SetL "b" (Ix 14) (U1 (FFun "tanh") (Ln "a" (Ix 14)));
    SetL "b" (Ix 15) (U1 (FFun "tanh") (Ln "a" (Ix 15)))]
   ["b"];
  (* v16/v16_portable.h:3868-3938 *)
  fnc "copysign" 3868 [("a", 16); ("b", 16)]
   [SetL "t" (Ix 0) (U1 FAbs (Ln "a" (Ix 0)));
    SetL "t" (Ix 0) (Cond (B2 (FCmp CLt) (Ln "b" (Ix 0)) (Cst 0)) (U1 FNeg (Ln "t" (Ix 0))) (Ln "t" (Ix 0)));
    SetL "c" (Ix 0) (Ln "t" (Ix 0));
    SetL "t" (Ix 0) (U1 FAbs (Ln "a" (Ix 1)));
    SetL "t" (Ix 0) (Cond (B2 (FCmp CLt) (Ln "b" (Ix 1)) (Cst 0)) (U1 FNeg (Ln "t" (Ix 0))) (Ln "t" (Ix 0)));
    SetL "c" (Ix 1) (Ln "t" (Ix 0));
    SetL "t" (Ix 0) (U1 FAbs (Ln "a" (Ix 2)));
    SetL "t" (Ix 0) (Cond (B2 (FCmp CLt) (Ln "b" (Ix 2)) (Cst 0)) (U1 FNeg (Ln "t" (Ix 0))) (Ln "t" (Ix 0)));
    SetL "c" (Ix 2) (Ln "t" (Ix 0));
    SetL "t" (Ix 0) (U1 FAbs (Ln "a" (Ix 3)));
    SetL "t" (Ix 0) (Cond (B2 (FCmp CLt) (Ln "b" (Ix 3)) (Cst 0)) (U1 FNeg (Ln "t" (Ix 0))) (Ln "t" (Ix 0)));
    SetL "c" (Ix 3) (Ln "t" (Ix 0));
    SetL "t" (Ix 0) (U1 FAbs (Ln "a" (Ix 4)));
    SetL "t" (Ix 0) (Cond (B2 (FCmp CLt) (Ln "b" (Ix 4)) (Cst 0)) (U1 FNeg (Ln "t" (Ix 0))) (Ln "t" (Ix 0)));
    SetL "c" (Ix 4) (Ln "t" (Ix 0));
    SetL "t" (Ix 0) (U1 FAbs (Ln "a" (Ix 5)));
    SetL "t" (Ix 0) (Cond (B2 (FCmp CLt) (Ln "b" (Ix 5)) (Cst 0)) (U1 FNeg (Ln "t" (Ix 0))) (Ln "t" (Ix 0)));
    SetL "c" (Ix 5) (Ln "t" (Ix 0));
    SetL "t" (Ix 0) (U1 FAbs (Ln "a" (Ix 6)));
    SetL "t" (Ix 0) (Cond (B2 (FCmp CLt) (Ln "b" (Ix 6)) (Cst 0)) (U1 FNeg (Ln "t" (Ix 0))) (Ln "t" (Ix 0)));
    SetL "c" (Ix 6) (Ln "t" (Ix 0));
    SetL "t" (Ix 0) (U1 FAbs (Ln "a" (Ix 7)));
    SetL "t" (Ix 0) (Cond (B2 (FCmp CLt) (Ln "b" (Ix 7)) (Cst 0)) (U1 FNeg (Ln "t" (Ix 0))) (Ln "t" (Ix 0)));
    SetL "c" (Ix 7) (Ln "t" (Ix 0));
    SetL "t" (Ix 0) (U1 FAbs (Ln "a" (Ix 8)));
    SetL "t" (Ix 0) (Cond (B2 (FCmp CLt) (Ln "b" (Ix 8)) (Cst 0)) (U1 FNeg (Ln "t" (Ix 0))) (Ln "t" (Ix 0)));
    SetL "c" (Ix 8) (Ln "t" (Ix 0));
    SetL "t" (Ix 0) (U1 FAbs (Ln "a" (Ix 9)));
    SetL "t" (Ix 0) (Cond (B2 (FCmp CLt) (Ln "b" (Ix 9)) (Cst 0)) (U1 FNeg (Ln "t" (Ix 0))) (Ln "t" (Ix 0)));
    SetL "c" (Ix 9) (Ln "t" (Ix 0));
    SetL "t" (Ix 0) (U1 FAbs (Ln "a" (Ix 10)));
    SetL "t" (Ix 0) (Cond (B2 (FCmp CLt) (Ln "b" (Ix 10)) (Cst 0)) (U1 FNeg (Ln "t" (Ix 0))) (Ln "t" (Ix 0)));
    SetL "c" (Ix 10) (Ln "t" (Ix 0));
    SetL "t" (Ix 0) (U1 FAbs (Ln "a" (Ix 11)));
    SetL "t" (Ix 0) (Cond (B2 (FCmp CLt) (Ln "b" (Ix 11)) (Cst 0)) (U1 FNeg (Ln "t" (Ix 0))) (Ln "t" (Ix 0)));
    SetL "c" (Ix 11) (Ln "t" (Ix 0));
    SetL "t" (Ix 0) (U1 FAbs (Ln "a" (Ix 12)));
    SetL "t" (Ix 0) (Cond (B2 (FCmp CLt) (Ln "b" (Ix 12)) (Cst 0)) (U1 FNeg (Ln "t" (Ix 0))) (Ln "t" (Ix 0)));
    SetL "c" (Ix 12) (Ln "t" (Ix 0));
    SetL "t" (Ix 0) (U1 FAbs (Ln "a" (Ix 13)));
    SetL "t" (Ix 0) (Cond (B2 (FCmp CLt) (Ln "b" (Ix 13)) (Cst 0)) (U1 FNeg (Ln "t" (Ix 0))) (Ln "t" (Ix 0)));
    SetL "c" (Ix 13) (Ln "t" (Ix 0));
    SetL "t" (Ix 0) (U1 FAbs (Ln "a" (Ix 14)));
    SetL "t" (Ix 0) (Cond (B2 (FCmp CLt) (Ln "b" (Ix 14)) (Cst 0)) (U1 FNeg (Ln "t" (Ix 0))) (Ln "t" (Ix 0)));
    SetL "c" (Ix 14) (Ln "t" (Ix 0));
    SetL "t" (Ix 0) (U1 FAbs (Ln "a" (Ix 15)));
    SetL "t" (Ix 0) (Cond (B2 (FCmp CLt) (Ln "b" (Ix 15)) (Cst 0)) (U1 FNeg (Ln "t" (Ix 0))) (Ln "t" (Ix 0)));
    SetL "c" (Ix 15) (Ln "t" (Ix 0))]
   ["c"];
  (* v16/v16_portable.h:3945-3967 *)
  fnc "rsqrt_approx" 3945 [("a", 16)]
   [SetL "b" (Ix 0) (U1 FSqrt (B2 FDiv (Cst 1065353216) (Ln "a" (Ix 0))));
    SetL "b" (Ix 1) (U1 FSqrt (B2 FDiv (Cst 1065353216) (Ln "a" (Ix 1))));
    SetL "b" (Ix 2) (U1 FSqrt (B2 FDiv (Cst 1065353216) (Ln "a" (Ix 2))));
    SetL "b" (Ix 3) (U1 FSqrt (B2 FDiv (Cst 1065353216) (Ln "a" (Ix 3))));
    SetL "b" (Ix 4) (U1 FSqrt (B2 FDiv (Cst 1065353216) (Ln "a" (Ix 4))));
    SetL "b" (Ix 5) (U1 FSqrt (B2 FDiv (Cst 1065353216) (Ln "a" (Ix 5))));
    SetL "b" (Ix 6) (U1 FSqrt (B2 FDiv (Cst 1065353216) (Ln "a" (Ix 6))));
    SetL "b" (Ix 7) (U1 FSqrt (B2 FDiv (Cst 1065353216) (Ln "a" (Ix 7))));
    SetL "b" (Ix 8) (U1 FSqrt (B2 FDiv (Cst 1065353216) (Ln "a" (Ix 8))));
    SetL "b" (Ix 9) (U1 FSqrt (B2 FDiv (Cst 1065353216) (Ln "a" (Ix 9))));
    SetL "b" (Ix 10) (U1 FSqrt (B2 FDiv (Cst 1065353216) (Ln "a" (Ix 10))));
    SetL "b" (Ix 11) (U1 FSqrt (B2 FDiv (Cst 1065353216) (Ln "a" (Ix 11))));
    SetL "b" (Ix 12) (U1 FSqrt (B2 FDiv (Cst 1065353216) (Ln "a" (Ix 12))));
    SetL "b" (Ix 13) (U1 FSqrt (B2 FDiv (Cst 1065353216) (Ln "a" (Ix 13))));
    SetL "b" (Ix 14) (U1 FSqrt (B2 FDiv (Cst 1065353216) (Ln "a" (Ix 14))));
    SetL "b" (Ix 15) (U1 FSqrt (B2 FDiv (Cst 1065353216) (Ln "a" (Ix 15))))]
   ["b"];
  (* v16/v16_portable.h:3969-3991 *)
  fnc "rsqrt" 3969 [("a", 16)]
   [SetL "b" (Ix 0) (U1 FSqrt (B2 FDiv (Cst 1065353216) (Ln "a" (Ix 0))));
    SetL "b" (Ix 1) (U1 FSqrt (B2 FDiv (Cst 1065353216) (Ln "a" (Ix 1))));
    SetL "b" (Ix 2) (U1 FSqrt (B2 FDiv (Cst 1065353216) (Ln "a" (Ix 2))));
    SetL "b" (Ix 3) (U1 FSqrt (B2 FDiv (Cst 1065353216) (Ln "a" (Ix 3))));
    SetL "b" (Ix 4) (U1 FSqrt (B2 FDiv (Cst 1065353216) (Ln "a" (Ix 4))));
    SetL "b" (Ix 5) (U1 FSqrt (B2 FDiv (Cst 1065353216) (Ln "a" (Ix 5))));
    SetL "b" (Ix 6) (U1 FSqrt (B2 FDiv (Cst 1065353216) (Ln "a" (Ix 6))));
    SetL "b" (Ix 7) (U1 FSqrt (B2 FDiv (Cst 1065353216) (Ln "a" (Ix 7))));
    SetL "b" (Ix 8) (U1 FSqrt (B2 FDiv (Cst 1065353216) (Ln "a" (Ix 8))));
    SetL "b" (Ix 9) (U1 FSqrt (B2 FDiv (Cst 1065353216) (Ln "a" (Ix 9))));
    SetL "b" (Ix 10) (U1 FSqrt (B2 FDiv (Cst 1065353216) (Ln "a" (Ix 10))));
    SetL "b" (Ix 11) (U1 FSqrt (B2 FDiv (Cst 1065353216) (Ln "a" (Ix 11))));
    SetL "b" (Ix 12) (U1 FSqrt (B2 FDiv (Cst 1065353216) (Ln "a" (Ix 12))));
    SetL "b" (Ix 13) (U1 FSqrt (B2 FDiv (Cst 1065353216) (Ln "a" (Ix 13))));
    SetL "b" (Ix 14) (U1 FSqrt (B2 FDiv (Cst 1065353216) (Ln "a" (Ix 14))));
    SetL "b" (Ix 15) (U1 FSqrt (B2 FDiv (Cst 1065353216) (Ln "a" (Ix 15))))]
   ["b"];
  (* v16/v16_portable.h:3993-4015 *)
  fnc "rcp_approx" 3993 [("a", 16)]
   [SetL "b" (Ix 0) (B2 FDiv (Cst 1065353216) (Ln "a" (Ix 0)));
    SetL "b" (Ix 1) (B2 FDiv (Cst 1065353216) (Ln "a" (Ix 1)));
    SetL "b" (Ix 2) (B2 FDiv (Cst 1065353216) (Ln "a" (Ix 2)));
    SetL "b" (Ix 3) (B2 FDiv (Cst 1065353216) (Ln "a" (Ix 3)));
    SetL "b" (Ix 4) (B2 FDiv (Cst 1065353216) (Ln "a" (Ix 4)));
    SetL "b" (Ix 5) (B2 FDiv (Cst 1065353216) (Ln "a" (Ix 5)));
    SetL "b" (Ix 6) (B2 FDiv (Cst 1065353216) (Ln "a" (Ix 6)));
    SetL "b" (Ix 7) (B2 FDiv (Cst 1065353216) (Ln "a" (Ix 7)));
    SetL "b" (Ix 8) (B2 FDiv (Cst 1065353216) (Ln "a" (Ix 8)));
    SetL "b" (Ix 9) (B2 FDiv (Cst 1065353216) (Ln "a" (Ix 9)));
    SetL "b" (Ix 10) (B2 FDiv (Cst 1065353216) (Ln "a" (Ix 10)));
    SetL "b" (Ix 11) (B2 FDiv (Cst 1065353216) (Ln "a" (Ix 11)));
    SetL "b" (Ix 12) (B2 FDiv (Cst 1065353216) (Ln "a" (Ix 12)));
    SetL "b" (Ix 13) (B2 FDiv (Cst 1065353216) (Ln "a" (Ix 13)));
    SetL "b" (Ix 14) (B2 FDiv (Cst 1065353216) (Ln "a" (Ix 14)));
    SetL "b" (Ix 15) (B2 FDiv (Cst 1065353216) (Ln "a" (Ix 15)))]
   ["b"];
  (* v16/v16_portable.h:4017-4039 *)
  fnc "rcp" 4017 [("a", 16)]
   [SetL "b" (Ix 0) (B2 FDiv (Cst 1065353216) (Ln "a" (Ix 0)));
    SetL "b" (Ix 1) (B2 FDiv (Cst 1065353216) (Ln "a" (Ix 1)));
    SetL "b" (Ix 2) (B2 FDiv (Cst 1065353216) (Ln "a" (Ix 2)));
    SetL "b" (Ix 3) (B2 FDiv (Cst 1065353216) (Ln "a" (Ix 3)));
    SetL "b" (Ix 4) (B2 FDiv (Cst 1065353216) (Ln "a" (Ix 4)));
    SetL "b" (Ix 5) (B2 FDiv (Cst 1065353216) (Ln "a" (Ix 5)));
    SetL "b" (Ix 6) (B2 FDiv (Cst 1065353216) (Ln "a" (Ix 6)));
    SetL "b" (Ix 7) (B2 FDiv (Cst 1065353216) (Ln "a" (Ix 7)));
    SetL "b" (Ix 8) (B2 FDiv (Cst 1065353216) (Ln "a" (Ix 8)));
    SetL "b" (Ix 9) (B2 FDiv (Cst 1065353216) (Ln "a" (Ix 9)));
    SetL "b" (Ix 10) (B2 FDiv (Cst 1065353216) (Ln "a" (Ix 10)));
    SetL "b" (Ix 11) (B2 FDiv (Cst 1065353216) (Ln "a" (Ix 11)));
    SetL "b" (Ix 12) (B2 FDiv (Cst 1065353216) (Ln "a" (Ix 12)));
    SetL "b" (Ix 13) (B2 FDiv (Cst 1065353216) (Ln "a" (Ix 13)));
    SetL "b" (Ix 14) (B2 FDiv (Cst 1065353216) (Ln "a" (Ix 14)));
    SetL "b" (Ix 15) (B2 FDiv (Cst 1065353216) (Ln "a" (Ix 15)))]
   ["b"];
  (* v16/v16_portable.h:4041-4063 *)
  fnc "fma" 4041 [("a", 16); ("b", 16); ("c", 16)]
   [SetL "d" (Ix 0) (B2 FAdd (B2 FMul (Ln "a" (Ix 0)) (Ln "b" (Ix 0))) (Ln "c" (Ix 0)));
    SetL "d" (Ix 1) (B2 FAdd (B2 FMul (Ln "a" (Ix 1)) (Ln "b" (Ix 1))) (Ln "c" (Ix 1)));
    SetL "d" (Ix 2) (B2 FAdd (B2 FMul (Ln "a" (Ix 2)) (Ln "b" (Ix 2))) (Ln "c" (Ix 2)));
    SetL "d" (Ix 3) (B2 FAdd (B2 FMul (Ln "a" (Ix 3)) (Ln "b" (Ix 3))) (Ln "c" (Ix 3)));
    SetL "d" (Ix 4) (B2 FAdd (B2 FMul (Ln "a" (Ix 4)) (Ln "b" (Ix 4))) (Ln "c" (Ix 4)));
    SetL "d" (Ix 5) (B2 FAdd (B2 FMul (Ln "a" (Ix 5)) (Ln "b" (Ix 5))) (Ln "c" (Ix 5)));
    SetL "d" (Ix 6) (B2 FAdd (B2 FMul (Ln "a" (Ix 6)) (Ln "b" (Ix 6))) (Ln "c" (Ix 6)));
    SetL "d" (Ix 7) (B2 FAdd (B2 FMul (Ln "a" (Ix 7)) (Ln "b" (Ix 7))) (Ln "c" (Ix 7)));
    SetL "d" (Ix 8) (B2 FAdd (B2 FMul (Ln "a" (Ix 8)) (Ln "b" (Ix 8))) (Ln "c" (Ix 8)));
    SetL "d" (Ix 9) (B2 FAdd (B2 FMul (Ln "a" (Ix 9)) (Ln "b" (Ix 9))) (Ln "c" (Ix 9)));
    SetL "d" (Ix 10) (B2 FAdd (B2 FMul (Ln "a" (Ix 10)) (Ln "b" (Ix 10))) (Ln "c" (Ix 10)));
    SetL "d" (Ix 11) (B2 FAdd (B2 FMul (Ln "a" (Ix 11)) (Ln "b" (Ix 11))) (Ln "c" (Ix 11)));
    SetL "d" (Ix 12) (B2 FAdd (B2 FMul (Ln "a" (Ix 12)) (Ln "b" (Ix 12))) (Ln "c" (Ix 12)));
    SetL "d" (Ix 13) (B2 FAdd (B2 FMul (Ln "a" (Ix 13)) (Ln "b" (Ix 13))) (Ln "c" (Ix 13)));
    SetL "d" (Ix 14) (B2 FAdd (B2 FMul (Ln "a" (Ix 14)) (Ln "b" (Ix 14))) (Ln "c" (Ix 14)));
    SetL "d" (Ix 15) (B2 FAdd (B2 FMul (Ln "a" (Ix 15)) (Ln "b" (Ix 15))) (Ln "c" (Ix 15)))]
   ["d"];
  (* v16/v16_portable.h:4065-4087 *)
  fnc "fms" 4065 [("a", 16); ("b", 16); ("c", 16)]
   [SetL "d" (Ix 0) (B2 FSub (B2 FMul (Ln "a" (Ix 0)) (Ln "b" (Ix 0))) (Ln "c" (Ix 0)));
    SetL "d" (Ix 1) (B2 FSub (B2 FMul (Ln "a" (Ix 1)) (Ln "b" (Ix 1))) (Ln "c" (Ix 1)));
    SetL "d" (Ix 2) (B2 FSub (B2 FMul (Ln "a" (Ix 2)) (Ln "b" (Ix 2))) (Ln "c" (Ix 2)));
    SetL "d" (Ix 3) (B2 FSub (B2 FMul (Ln "a" (Ix 3)) (Ln "b" (Ix 3))) (Ln "c" (Ix 3)));
    SetL "d" (Ix 4) (B2 FSub (B2 FMul (Ln "a" (Ix 4)) (Ln "b" (Ix 4))) (Ln "c" (Ix 4)));
    SetL "d" (Ix 5) (B2 FSub (B2 FMul (Ln "a" (Ix 5)) (Ln "b" (Ix 5))) (Ln "c" (Ix 5)));
    SetL "d" (Ix 6) (B2 FSub (B2 FMul (Ln "a" (Ix 6)) (Ln "b" (Ix 6))) (Ln "c" (Ix 6)));
    SetL "d" (Ix 7) (B2 FSub (B2 FMul (Ln "a" (Ix 7)) (Ln "b" (Ix 7))) (Ln "c" (Ix 7)));
    SetL "d" (Ix 8) (B2 FSub (B2 FMul (Ln "a" (Ix 8)) (Ln "b" (Ix 8))) (Ln "c" (Ix 8)));
    SetL "d" (Ix 9) (B2 FSub (B2 FMul (Ln "a" (Ix 9)) (Ln "b" (Ix 9))) (Ln "c" (Ix 9)));
    SetL "d" (Ix 10) (B2 FSub (B2 FMul (Ln "a" (Ix 10)) (Ln "b" (Ix 10))) (Ln "c" (Ix 10)));
    SetL "d" (Ix 11) (B2 FSub (B2 FMul (Ln "a" (Ix 11)) (Ln "b" (Ix 11))) (Ln "c" (Ix 11)));
    SetL "d" (Ix 12) (B2 FSub (B2 FMul (Ln "a" (Ix 12)) (Ln "b" (Ix 12))) (Ln "c" (Ix 12)));
    SetL "d" (Ix 13) (B2 FSub (B2 FMul (Ln "a" (Ix 13)) (Ln "b" (Ix 13))) (Ln "c" (Ix 13)));
    SetL "d" (Ix 14) (B2 FSub (B2 FMul (Ln "a" (Ix 14)) (Ln "b" (Ix 14))) (Ln "c" (Ix 14)));
    SetL "d" (Ix 15) (B2 FSub (B2 FMul (Ln "a" (Ix 15)) (Ln "b" (Ix 15))) (Ln "c" (Ix 15)))]
   ["d"];
  (* v16/v16_portable.h:4089-4111 *)
  fnc "fnms" 4089 [("a", 16); ("b", 16); ("c", 16)]
   [SetL "d" (Ix 0) (B2 FSub (Ln "c" (Ix 0)) (B2 FMul (Ln "a" (Ix 0)) (Ln "b" (Ix 0))));
    SetL "d" (Ix 1) (B2 FSub (Ln "c" (Ix 1)) (B2 FMul (Ln "a" (Ix 1)) (Ln "b" (Ix 1))));
    SetL "d" (Ix 2) (B2 FSub (Ln "c" (Ix 2)) (B2 FMul (Ln "a" (Ix 2)) (Ln "b" (Ix 2))));
    SetL "d" (Ix 3) (B2 FSub (Ln "c" (Ix 3)) (B2 FMul (Ln "a" (Ix 3)) (Ln "b" (Ix 3))));
    SetL "d" (Ix 4) (B2 FSub (Ln "c" (Ix 4)) (B2 FMul (Ln "a" (Ix 4)) (Ln "b" (Ix 4))));
    SetL "d" (Ix 5) (B2 FSub (Ln "c" (Ix 5)) (B2 FMul (Ln "a" (Ix 5)) (Ln "b" (Ix 5))));
    SetL "d" (Ix 6) (B2 FSub (Ln "c" (Ix 6)) (B2 FMul (Ln "a" (Ix 6)) (Ln "b" (Ix 6))));
    SetL "d" (Ix 7) (B2 FSub (Ln "c" (Ix 7)) (B2 FMul (Ln "a" (Ix 7)) (Ln "b" (Ix 7))));
    SetL "d" (Ix 8) (B2 FSub (Ln "c" (Ix 8)) (B2 FMul (Ln "a" (Ix 8)) (Ln "b" (Ix 8))));
    SetL "d" (Ix 9) (B2 FSub (Ln "c" (Ix 9)) (B2 FMul (Ln "a" (Ix 9)) (Ln "b" (Ix 9))));
    SetL "d" (Ix 10) (B2 FSub (Ln "c" (Ix 10)) (B2 FMul (Ln "a" (Ix 10)) (Ln "b" (Ix 10))));
    SetL "d" (Ix 11) (B2 FSub (Ln "c" (Ix 11)) (B2 FMul (Ln "a" (Ix 11)) (Ln "b" (Ix 11))));
    SetL "d" (Ix 12) (B2 FSub (Ln "c" (Ix 12)) (B2 FMul (Ln "a" (Ix 12)) (Ln "b" (Ix 12))));
    SetL "d" (Ix 13) (B2 FSub (Ln "c" (Ix 13)) (B2 FMul (Ln "a" (Ix 13)) (Ln "b" (Ix 13))));
    SetL "d" (Ix 14) (B2 FSub (Ln "c" (Ix 14)) (B2 FMul (Ln "a" (Ix 14)) (Ln "b" (Ix 14))));
    SetL "d" (Ix 15) (B2 FSub (Ln "c" (Ix 15)) (B2 FMul (Ln "a" (Ix 15)) (Ln "b" (Ix 15))))]
   ["d"];
  (* v16/v16_portable.h:4113-4135 *)
  fnc "clear_bits" 4113 [("m", 16); ("a", 16)]
   [SetL "b" (Ix 0) (B2 IAnd (U1 INot (Ln "m" (Ix 0))) (Ln "a" (Ix 0)));
    SetL "b" (Ix 1) (B2 IAnd (U1 INot (Ln "m" (Ix 1))) (Ln "a" (Ix 1)));
    SetL "b" (Ix 2) (B2 IAnd (U1 INot (Ln "m" (Ix 2))) (Ln "a" (Ix 2)));
    SetL "b" (Ix 3) (B2 IAnd (U1 INot (Ln "m" (Ix 3))) (Ln "a" (Ix 3)));
    SetL "b" (Ix 4) (B2 IAnd (U1 INot (Ln "m" (Ix 4))) (Ln "a" (Ix 4)));
    SetL "b" (Ix 5) (B2 IAnd (U1 INot (Ln "m" (Ix 5))) (Ln "a" (Ix 5)));
    SetL "b" (Ix 6) (B2 IAnd (U1 INot (Ln "m" (Ix 6))) (Ln "a" (Ix 6)));
    SetL "b" (Ix 7) (B2 IAnd (U1 INot (Ln "m" (Ix 7))) (Ln "a" (Ix 7)));
    SetL "b" (Ix 8) (B2 IAnd (U1 INot (Ln "m" (Ix 8))) (Ln "a" (Ix 8)));
    SetL "b" (Ix 9) (B2 IAnd (U1 INot (Ln "m" (Ix 9))) (Ln "a" (Ix 9)));
    SetL "b" (Ix 10) (B2 IAnd (U1 INot (Ln "m" (Ix 10))) (Ln "a" (Ix 10)));
    SetL "b" (Ix 11) (B2 IAnd (U1 INot (Ln "m" (Ix 11))) (Ln "a" (Ix 11)));
    SetL "b" (Ix 12) (B2 IAnd (U1 INot (Ln "m" (Ix 12))) (Ln "a" (Ix 12)));
    SetL "b" (Ix 13) (B2 IAnd (U1 INot (Ln "m" (Ix 13))) (Ln "a" (Ix 13)));
    SetL "b" (Ix 14) (B2 IAnd (U1 INot (Ln "m" (Ix 14))) (Ln "a" (Ix 14)));
    SetL "b" (Ix 15) (B2 IAnd (U1 INot (Ln "m" (Ix 15))) (Ln "a" (Ix 15)))]
   ["b"];
  (* v16/v16_portable.h:4137-4159 *)
  fnc "set_bits" 4137 [("m", 16); ("a", 16)]
   [SetL "b" (Ix 0) (B2 IOr (Ln "m" (Ix 0)) (Ln "a" (Ix 0)));
    SetL "b" (Ix 1) (B2 IOr (Ln "m" (Ix 1)) (Ln "a" (Ix 1)));
    SetL "b" (Ix 2) (B2 IOr (Ln "m" (Ix 2)) (Ln "a" (Ix 2)));
    SetL "b" (Ix 3) (B2 IOr (Ln "m" (Ix 3)) (Ln "a" (Ix 3)));
    SetL "b" (Ix 4) (B2 IOr (Ln "m" (Ix 4)) (Ln "a" (Ix 4)));
    SetL "b" (Ix 5) (B2 IOr (Ln "m" (Ix 5)) (Ln "a" (Ix 5)));
    SetL "b" (Ix 6) (B2 IOr (Ln "m" (Ix 6)) (Ln "a" (Ix 6)));
    SetL "b" (Ix 7) (B2 IOr (Ln "m" (Ix 7)) (Ln "a" (Ix 7)));
    SetL "b" (Ix 8) (B2 IOr (Ln "m" (Ix 8)) (Ln "a" (Ix 8)));
    SetL "b" (Ix 9) (B2 IOr (Ln "m" (Ix 9)) (Ln "a" (Ix 9)));
    SetL "b" (Ix 10) (B2 IOr (Ln "m" (Ix 10)) (Ln "a" (Ix 10)));
    SetL "b" (Ix 11) (B2 IOr (Ln "m" (Ix 11)) (Ln "a" (Ix 11)));
    SetL "b" (Ix 12) (B2 IOr (Ln "m" (Ix 12)) (Ln "a" (Ix 12)));
    SetL "b" (Ix 13) (B2 IOr (Ln "m" (Ix 13)) (Ln "a" (Ix 13)));
    SetL "b" (Ix 14) (B2 IOr (Ln "m" (Ix 14)) (Ln "a" (Ix 14)));
    SetL "b" (Ix 15) (B2 IOr (Ln "m" (Ix 15)) (Ln "a" (Ix 15)))]
   ["b"];
  (* v16/v16_portable.h:4161-4183 *)
  fnc "toggle_bits" 4161 [("m", 16); ("a", 16)]
   [SetL "b" (Ix 0) (B2 IXor (Ln "m" (Ix 0)) (Ln "a" (Ix 0)));
    SetL "b" (Ix 1) (B2 IXor (Ln "m" (Ix 1)) (Ln "a" (Ix 1)));
    SetL "b" (Ix 2) (B2 IXor (Ln "m" (Ix 2)) (Ln "a" (Ix 2)));
    SetL "b" (Ix 3) (B2 IXor (Ln "m" (Ix 3)) (Ln "a" (Ix 3)));
    SetL "b" (Ix 4) (B2 IXor (Ln "m" (Ix 4)) (Ln "a" (Ix 4)));
    SetL "b" (Ix 5) (B2 IXor (Ln "m" (Ix 5)) (Ln "a" (Ix 5)));
    SetL "b" (Ix 6) (B2 IXor (Ln "m" (Ix 6)) (Ln "a" (Ix 6)));
    SetL "b" (Ix 7) (B2 IXor (Ln "m" (Ix 7)) (Ln "a" (Ix 7)));
    SetL "b" (Ix 8) (B2 IXor (Ln "m" (Ix 8)) (Ln "a" (Ix 8)));
    SetL "b" (Ix 9) (B2 IXor (Ln "m" (Ix 9)) (Ln "a" (Ix 9)));
    SetL "b" (Ix 10) (B2 IXor (Ln "m" (Ix 10)) (Ln "a" (Ix 10)));
    SetL "b" (Ix 11) (B2 IXor (Ln "m" (Ix 11)) (Ln "a" (Ix 11)));
    SetL "b" (Ix 12) (B2 IXor (Ln "m" (Ix 12)) (Ln "a" (Ix 12)));
    SetL "b" (Ix 13) (B2 IXor (Ln "m" (Ix 13)) (Ln "a" (Ix 13)));
    SetL "b" (Ix 14) (B2 IXor (Ln "m" (Ix 14)) (Ln "a" (Ix 14)));
    SetL "b" (Ix 15) (B2 IXor (Ln "m" (Ix 15)) (Ln "a" (Ix 15)))]
   ["b"];
  (* v16/v16_portable.h:4185-4203 *)
  fnc "increment" 4185 [("p", 16); ("a", 16)]
   [SetL "p" (Ix 0) (B2 FAdd (Ln "p" (Ix 0)) (Ln "a" (Ix 0)));
    SetL "p" (Ix 1) (B2 FAdd (Ln "p" (Ix 1)) (Ln "a" (Ix 1)));
    SetL "p" (Ix 2) (B2 FAdd (Ln "p" (Ix 2)) (Ln "a" (Ix 2)));
    SetL "p" (Ix 3) (B2 FAdd (Ln "p" (Ix 3)) (Ln "a" (Ix 3)));
    SetL "p" (Ix 4) (B2 FAdd (Ln "p" (Ix 4)) (Ln "a" (Ix 4)));
    SetL "p" (Ix 5) (B2 FAdd (Ln "p" (Ix 5)) (Ln "a" (Ix 5)));
    SetL "p" (Ix 6) (B2 FAdd (Ln "p" (Ix 6)) (Ln "a" (Ix 6)));
    SetL "p" (Ix 7) (B2 FAdd (Ln "p" (Ix 7)) (Ln "a" (Ix 7)));
    SetL "p" (Ix 8) (B2 FAdd (Ln "p" (Ix 8)) (Ln "a" (Ix 8)));
    SetL "p" (Ix 9) (B2 FAdd (Ln "p" (Ix 9)) (Ln "a" (Ix 9)));
    SetL "p" (Ix 10) (B2 FAdd (Ln "p" (Ix 10)) (Ln "a" (Ix 10)));
    SetL "p" (Ix 11) (B2 FAdd (Ln "p" (Ix 11)) (Ln "a" (Ix 11)));
    SetL "p" (Ix 12) (B2 FAdd (Ln "p" (Ix 12)) (Ln "a" (Ix 12)));
    SetL "p" (Ix 13) (B2 FAdd (Ln "p" (Ix 13)) (Ln "a" (Ix 13)));
    SetL "p" (Ix 14) (B2 FAdd (Ln "p" (Ix 14)) (Ln "a" (Ix 14)));
    SetL "p" (Ix 15) (B2 FAdd (Ln "p" (Ix 15)) (Ln "a" (Ix 15)))]
   ["p"];
  (* v16/v16_portable.h:4205-4223 *)
  fnc "decrement" 4205 [("p", 16); ("a", 16)]
   [SetL "p" (Ix 0) (B2 FSub (Ln "p" (Ix 0)) (Ln "a" (Ix 0)));
    SetL "p" (Ix 1) (B2 FSub (Ln "p" (Ix 1)) (Ln "a" (Ix 1)));
    SetL "p" (Ix 2) (B2 FSub (Ln "p" (Ix 2)) (Ln "a" (Ix 2)));
    SetL "p" (Ix 3) (B2 FSub (Ln "p" (Ix 3)) (Ln "a" (Ix 3)));
    SetL "p" (Ix 4) (B2 FSub (Ln "p" (Ix 4)) (Ln "a" (Ix 4)));
    SetL "p" (Ix 5) (B2 FSub (Ln "p" (Ix 5)) (Ln "a" (Ix 5)));
    SetL "p" (Ix 6) (B2 FSub (Ln "p" (Ix 6)) (Ln "a" (Ix 6)));
    SetL "p" (Ix 7) (B2 FSub (Ln "p" (Ix 7)) (Ln "a" (Ix 7)));
    SetL "p" (Ix 8) (B2 FSub (Ln "p" (Ix 8)) (Ln "a" (Ix 8)));
    SetL "p" (Ix 9) (B2 FSub (Ln "p" (Ix 9)) (Ln "a" (Ix 9)));
    SetL "p" (Ix 10) (B2 FSub (Ln "p" (Ix 10)) (Ln "a" (Ix 10)));
    SetL "p" (Ix 11) (B2 FSub (Ln "p" (Ix 11)) (Ln "a" (Ix 11)));
    SetL "p" (Ix 12) (B2 FSub (Ln "p" (Ix 12)) (Ln "a" (Ix 12)));
    SetL "p" (Ix 13) (B2 FSub (Ln "p" (Ix 13)) (Ln "a" (Ix 13)));
    SetL "p" (Ix 14) (B2 FSub (Ln "p" (Ix 14)) (Ln "a" (Ix 14)));
    SetL "p" (Ix 15) (B2 FSub (Ln "p" (Ix 15)) (Ln "a" (Ix 15)))]
   ["p"];
  (* v16/v16_portable.h:4225-4243 *)
  fnc "scale" 4225 [("p", 16); ("a", 16)]
   [SetL "p" (Ix 0) (B2 FMul (Ln "p" (Ix 0)) (Ln "a" (Ix 0)));
    SetL "p" (Ix 1) (B2 FMul (Ln "p" (Ix 1)) (Ln "a" (Ix 1)));
    SetL "p" (Ix 2) (B2 FMul (Ln "p" (Ix 2)) (Ln "a" (Ix 2)));
    SetL "p" (Ix 3) (B2 FMul (Ln "p" (Ix 3)) (Ln "a" (Ix 3)));
    SetL "p" (Ix 4) (B2 FMul (Ln "p" (Ix 4)) (Ln "a" (Ix 4)));
    SetL "p" (Ix 5) (B2 FMul (Ln "p" (Ix 5)) (Ln "a" (Ix 5)));
    SetL "p" (Ix 6) (B2 FMul (Ln "p" (Ix 6)) (Ln "a" (Ix 6)));
    SetL "p" (Ix 7) (B2 FMul (Ln "p" (Ix 7)) (Ln "a" (Ix 7)));
    SetL "p" (Ix 8) (B2 FMul (Ln "p" (Ix 8)) (Ln "a" (Ix 8)));
    SetL "p" (Ix 9) (B2 FMul (Ln "p" (Ix 9)) (Ln "a" (Ix 9)));
    SetL "p" (Ix 10) (B2 FMul (Ln "p" (Ix 10)) (Ln "a" (Ix 10)));
    SetL "p" (Ix 11) (B2 FMul (Ln "p" (Ix 11)) (Ln "a" (Ix 11)));
    SetL "p" (Ix 12) (B2 FMul (Ln "p" (Ix 12)) (Ln "a" (Ix 12)));
    SetL "p" (Ix 13) (B2 FMul (Ln "p" (Ix 13)) (Ln "a" (Ix 13)));
    SetL "p" (Ix 14) (B2 FMul (Ln "p" (Ix 14)) (Ln "a" (Ix 14)));
    SetL "p" (Ix 15) (B2 FMul (Ln "p" (Ix 15)) (Ln "a" (Ix 15)))]
   ["p"];
  (* v16/v16_portable.h:3041-3042 *)
  fnc "int from copy" 3041 [("a", 16)]
   [SetV "this" (VReg "a")]
   ["this"];
  (* v16/v16_portable.h:3043-3050 *)
  fnc "int from mixed" 3043 [("a", 16)]
   [SetL "this" (Ix 0) (Ln "a" (Ix 0));
    SetL "this" (Ix 1) (Ln "a" (Ix 1));
    SetL "this" (Ix 2) (Ln "a" (Ix 2));
    SetL "this" (Ix 3) (Ln "a" (Ix 3));
    SetL "this" (Ix 4) (Ln "a" (Ix 4));
    SetL "this" (Ix 5) (Ln "a" (Ix 5));
    SetL "this" (Ix 6) (Ln "a" (Ix 6));
    SetL "this" (Ix 7) (Ln "a" (Ix 7));
    SetL "this" (Ix 8) (Ln "a" (Ix 8));
    SetL "this" (Ix 9) (Ln "a" (Ix 9));
    SetL "this" (Ix 10) (Ln "a" (Ix 10));
    SetL "this" (Ix 11) (Ln "a" (Ix 11));
    SetL "this" (Ix 12) (Ln "a" (Ix 12));
    SetL "this" (Ix 13) (Ln "a" (Ix 13));
    SetL "this" (Ix 14) (Ln "a" (Ix 14));
    SetL "this" (Ix 15) (Ln "a" (Ix 15))]
   ["this"];
  (* v16/v16_portable.h:3051-3058 *)
  fnc "int from scalar" 3051 [("a", 1)]
   [SetL "this" (Ix 0) (Ln "a" (Ix 0));
    SetL "this" (Ix 1) (Ln "a" (Ix 0));
    SetL "this" (Ix 2) (Ln "a" (Ix 0));
    SetL "this" (Ix 3) (Ln "a" (Ix 0));
    SetL "this" (Ix 4) (Ln "a" (Ix 0));
    SetL "this" (Ix 5) (Ln "a" (Ix 0));
    SetL "this" (Ix 6) (Ln "a" (Ix 0));
    SetL "this" (Ix 7) (Ln "a" (Ix 0));
    SetL "this" (Ix 8) (Ln "a" (Ix 0));
    SetL "this" (Ix 9) (Ln "a" (Ix 0));
    SetL "this" (Ix 10) (Ln "a" (Ix 0));
    SetL "this" (Ix 11) (Ln "a" (Ix 0));
    SetL "this" (Ix 12) (Ln "a" (Ix 0));
    SetL "this" (Ix 13) (Ln "a" (Ix 0));
    SetL "this" (Ix 14) (Ln "a" (Ix 0));
    SetL "this" (Ix 15) (Ln "a" (Ix 0))]
   ["this"];
  (* v16/v16_portable.h:3489-3496 *)
  fnc "float from copy" 3489 [("a", 16)]
   [SetL "this" (Ix 0) (Ln "a" (Ix 0));
    SetL "this" (Ix 1) (Ln "a" (Ix 1));
    SetL "this" (Ix 2) (Ln "a" (Ix 2));
    SetL "this" (Ix 3) (Ln "a" (Ix 3));
    SetL "this" (Ix 4) (Ln "a" (Ix 4));
    SetL "this" (Ix 5) (Ln "a" (Ix 5));
    SetL "this" (Ix 6) (Ln "a" (Ix 6));
    SetL "this" (Ix 7) (Ln "a" (Ix 7));
    SetL "this" (Ix 8) (Ln "a" (Ix 8));
    SetL "this" (Ix 9) (Ln "a" (Ix 9));
    SetL "this" (Ix 10) (Ln "a" (Ix 10));
    SetL "this" (Ix 11) (Ln "a" (Ix 11));
    SetL "this" (Ix 12) (Ln "a" (Ix 12));
    SetL "this" (Ix 13) (Ln "a" (Ix 13));
    SetL "this" (Ix 14) (Ln "a" (Ix 14));
    SetL "this" (Ix 15) (Ln "a" (Ix 15))]
   ["this"];
  (* v16/v16_portable.h:3497-3504 *)
  fnc "float from mixed" 3497 [("a", 16)]
   [SetL "this" (Ix 0) (Ln "a" (Ix 0));
    SetL "this" (Ix 1) (Ln "a" (Ix 1));
    SetL "this" (Ix 2) (Ln "a" (Ix 2));
    SetL "this" (Ix 3) (Ln "a" (Ix 3));
    SetL "this" (Ix 4) (Ln "a" (Ix 4));
    SetL "this" (Ix 5) (Ln "a" (Ix 5));
    SetL "this" (Ix 6) (Ln "a" (Ix 6));
    SetL "this" (Ix 7) (Ln "a" (Ix 7));
    SetL "this" (Ix 8) (Ln "a" (Ix 8));
    SetL "this" (Ix 9) (Ln "a" (Ix 9));
    SetL "this" (Ix 10) (Ln "a" (Ix 10));
    SetL "this" (Ix 11) (Ln "a" (Ix 11));
    SetL "this" (Ix 12) (Ln "a" (Ix 12));
    SetL "this" (Ix 13) (Ln "a" (Ix 13));
    SetL "this" (Ix 14) (Ln "a" (Ix 14));
    SetL "this" (Ix 15) (Ln "a" (Ix 15))]
   ["this"];
  (* v16/v16_portable.h:3505-3512 *)
  fnc "float from scalar" 3505 [("a", 1)]
   [SetL "this" (Ix 0) (Ln "a" (Ix 0));
    SetL "this" (Ix 1) (Ln "a" (Ix 0));
    SetL "this" (Ix 2) (Ln "a" (Ix 0));
    SetL "this" (Ix 3) (Ln "a" (Ix 0));
    SetL "this" (Ix 4) (Ln "a" (Ix 0));
    SetL "this" (Ix 5) (Ln "a" (Ix 0));
    SetL "this" (Ix 6) (Ln "a" (Ix 0));
    SetL "this" (Ix 7) (Ln "a" (Ix 0));
    SetL "this" (Ix 8) (Ln "a" (Ix 0));
    SetL "this" (Ix 9) (Ln "a" (Ix 0));
    SetL "this" (Ix 10) (Ln "a" (Ix 0));
    SetL "this" (Ix 11) (Ln "a" (Ix 0));
    SetL "this" (Ix 12) (Ln "a" (Ix 0));
    SetL "this" (Ix 13) (Ln "a" (Ix 0));
    SetL "this" (Ix 14) (Ln "a" (Ix 0));
    SetL "this" (Ix 15) (Ln "a" (Ix 0))]
   ["this"]].

(* src/util/v16/v16_portable.h:361-367 *)
Definition any_v16_portable : fn :=
  fnc "any" 361 [("a", 16)]
   [SetL "ret" (Ix 0) (B2 ILOr (B2 ILOr (B2 ILOr (B2 ILOr (B2 ILOr (B2 ILOr (B2 ILOr (B2 ILOr (B2 ILOr (B2 ILOr (B2 ILOr (B2 ILOr (B2 ILOr (B2 ILOr (B2 ILOr (Ln "a" (Ix 0)) (Ln "a" (Ix 1))) (Ln "a" (Ix 2))) (Ln "a" (Ix 3))) (Ln "a" (Ix 4))) (Ln "a" (Ix 5))) (Ln "a" (Ix 6))) (Ln "a" (Ix 7))) (Ln "a" (Ix 8))) (Ln "a" (Ix 9))) (Ln "a" (Ix 10))) (Ln "a" (Ix 11))) (Ln "a" (Ix 12))) (Ln "a" (Ix 13))) (Ln "a" (Ix 14))) (Ln "a" (Ix 15)))]
   ["ret"].

(* src/util/v16/v16_portable.h:369-375 *)
Definition all_v16_portable : fn :=
  fnc "all" 369 [("a", 16)]
   [SetL "ret" (Ix 0) (B2 ILAnd (B2 ILAnd (B2 ILAnd (B2 ILAnd (B2 ILAnd (B2 ILAnd (B2 ILAnd (B2 ILAnd (B2 ILAnd (B2 ILAnd (B2 ILAnd (B2 ILAnd (B2 ILAnd (B2 ILAnd (B2 ILAnd (Ln "a" (Ix 0)) (Ln "a" (Ix 1))) (Ln "a" (Ix 2))) (Ln "a" (Ix 3))) (Ln "a" (Ix 4))) (Ln "a" (Ix 5))) (Ln "a" (Ix 6))) (Ln "a" (Ix 7))) (Ln "a" (Ix 8))) (Ln "a" (Ix 9))) (Ln "a" (Ix 10))) (Ln "a" (Ix 11))) (Ln "a" (Ix 12))) (Ln "a" (Ix 13))) (Ln "a" (Ix 14))) (Ln "a" (Ix 15)))]
   ["ret"].

(* src/util/v16/v16_portable.h:377-400 *)
Definition splat_v16_portable (n : nat) : fn :=
  fnc "splat" 377 [("a", 16)]
   [SetL "b" (Ix 0) (Ln "a" (Ix n));
    SetL "b" (Ix 1) (Ln "a" (Ix n));
    SetL "b" (Ix 2) (Ln "a" (Ix n));
    SetL "b" (Ix 3) (Ln "a" (Ix n));
    SetL "b" (Ix 4) (Ln "a" (Ix n));
    SetL "b" (Ix 5) (Ln "a" (Ix n));
    SetL "b" (Ix 6) (Ln "a" (Ix n));
    SetL "b" (Ix 7) (Ln "a" (Ix n));
    SetL "b" (Ix 8) (Ln "a" (Ix n));
    SetL "b" (Ix 9) (Ln "a" (Ix n));
    SetL "b" (Ix 10) (Ln "a" (Ix n));
    SetL "b" (Ix 11) (Ln "a" (Ix n));
    SetL "b" (Ix 12) (Ln "a" (Ix n));
    SetL "b" (Ix 13) (Ln "a" (Ix n));
    SetL "b" (Ix 14) (Ln "a" (Ix n));
    SetL "b" (Ix 15) (Ln "a" (Ix n))]
   ["b"].

(* src/util/v16/v16_portable.h:402-425 *)
Definition shuffle_v16_portable (i00 i01 i02 i03 i04 i05 i06 i07 i08 i09 i10 i11 i12 i13 i14 i15 : nat) : fn :=
  fnc "shuffle" 402 [("a", 16)]
   [SetL "b" (Ix 0) (Ln "a" (Ix i00));
    SetL "b" (Ix 1) (Ln "a" (Ix i01));
    SetL "b" (Ix 2) (Ln "a" (Ix i02));
    SetL "b" (Ix 3) (Ln "a" (Ix i03));
    SetL "b" (Ix 4) (Ln "a" (Ix i04));
    SetL "b" (Ix 5) (Ln "a" (Ix i05));
    SetL "b" (Ix 6) (Ln "a" (Ix i06));
    SetL "b" (Ix 7) (Ln "a" (Ix i07));
    SetL "b" (Ix 8) (Ln "a" (Ix i08));
    SetL "b" (Ix 9) (Ln "a" (Ix i09));
    SetL "b" (Ix 10) (Ln "a" (Ix i10));
    SetL "b" (Ix 11) (Ln "a" (Ix i11));
    SetL "b" (Ix 12) (Ln "a" (Ix i12));
    SetL "b" (Ix 13) (Ln "a" (Ix i13));
    SetL "b" (Ix 14) (Ln "a" (Ix i14));
    SetL "b" (Ix 15) (Ln "a" (Ix i15))]
   ["b"].

(* src/util/v16/v16_portable.h:3059-3069 *)
Definition int_from_scalars_v16_portable : fn :=
  fnc "int from scalars" 3059 [("i00", 1); ("i01", 1); ("i02", 1); ("i03", 1); ("i04", 1); ("i05", 1); ("i06", 1); ("i07", 1); ("i08", 1); ("i09", 1); ("i10", 1); ("i11", 1); ("i12", 1); ("i13", 1); ("i14", 1); ("i15", 1)]
   [SetL "this" (Ix 0) (Ln "i00" (Ix 0));
    SetL "this" (Ix 1) (Ln "i01" (Ix 0));
    SetL "this" (Ix 2) (Ln "i02" (Ix 0));
    SetL "this" (Ix 3) (Ln "i03" (Ix 0));
    SetL "this" (Ix 4) (Ln "i04" (Ix 0));
    SetL "this" (Ix 5) (Ln "i05" (Ix 0));
    SetL "this" (Ix 6) (Ln "i06" (Ix 0));
    SetL "this" (Ix 7) (Ln "i07" (Ix 0));
    SetL "this" (Ix 8) (Ln "i08" (Ix 0));
    SetL "this" (Ix 9) (Ln "i09" (Ix 0));
    SetL "this" (Ix 10) (Ln "i10" (Ix 0));
    SetL "this" (Ix 11) (Ln "i11" (Ix 0));
    SetL "this" (Ix 12) (Ln "i12" (Ix 0));
    SetL "this" (Ix 13) (Ln "i13" (Ix 0));
    SetL "this" (Ix 14) (Ln "i14" (Ix 0));
    SetL "this" (Ix 15) (Ln "i15" (Ix 0))]
   ["this"].

(* src/util/v16/v16_portable.h:3513-3523 *)
Definition float_from_scalars_v16_portable : fn :=
  fnc "float from scalars" 3513 [("f00", 1); ("f01", 1); ("f02", 1); ("f03", 1); ("f04", 1); ("f05", 1); ("f06", 1); ("f07", 1); ("f08", 1); ("f09", 1); ("f10", 1); ("f11", 1); ("f12", 1); ("f13", 1); ("f14", 1); ("f15", 1)]
   [SetL "this" (Ix 0) (Ln "f00" (Ix 0));
    SetL "this" (Ix 1) (Ln "f01" (Ix 0));
    SetL "this" (Ix 2) (Ln "f02" (Ix 0));
    SetL "this" (Ix 3) (Ln "f03" (Ix 0));
    SetL "this" (Ix 4) (Ln "f04" (Ix 0));
    SetL "this" (Ix 5) (Ln "f05" (Ix 0));
    SetL "this" (Ix 6) (Ln "f06" (Ix 0));
    SetL "this" (Ix 7) (Ln "f07" (Ix 0));
    SetL "this" (Ix 8) (Ln "f08" (Ix 0));
    SetL "this" (Ix 9) (Ln "f09" (Ix 0));
    SetL "this" (Ix 10) (Ln "f10" (Ix 0));
    SetL "this" (Ix 11) (Ln "f11" (Ix 0));
    SetL "this" (Ix 12) (Ln "f12" (Ix 0));
    SetL "this" (Ix 13) (Ln "f13" (Ix 0));
    SetL "this" (Ix 14) (Ln "f14" (Ix 0));
    SetL "this" (Ix 15) (Ln "f15" (Ix 0))]
   ["this"].

(* src/util/v16/v16_avx512.h *)
Definition ops_v16_avx512 : list fn := [
  (* v16/v16_avx512.h:2102-2106 *)
  fnc "int =" 2102 [("this", 16); ("b", 16)]
   [SetV "this" (VReg "b")]
   ["this"];
  (* v16/v16_avx512.h:2108-2108 *)
  fnc "int +=" 2108 [("this", 16); ("b", 16)]
   [For (16) [SetL "this" J (B2 IAdd (Ln "this" J) (Ln "b" J))]]
   ["this"];
  (* v16/v16_avx512.h:2109-2109 *)
  fnc "int -=" 2109 [("this", 16); ("b", 16)]
   [For (16) [SetL "this" J (B2 ISub (Ln "this" J) (Ln "b" J))]]
   ["this"];
  (* v16/v16_avx512.h:2110-2110 *)
  fnc "int *=" 2110 [("this", 16); ("b", 16)]
   [For (16) [SetL "this" J (B2 IMul (Ln "this" J) (Ln "b" J))]]
   ["this"];
  (* v16/v16_avx512.h:2111-2111 *)
  fnc "int /=" 2111 [("this", 16); ("b", 16)]
   [For (16) [SetL "this" J (B2 IDiv (Ln "this" J) (Ln "b" J))]]
   ["this"];
  (* v16/v16_avx512.h:2112-2112 *)
  fnc "int %=" 2112 [("this", 16); ("b", 16)]
   [For (16) [SetL "this" J (B2 IMod (Ln "this" J) (Ln "b" J))]]
   ["this"];
  (* v16/v16_avx512.h:2114-2118 *)
  fnc "int ^=" 2114 [("this", 16); ("b", 16)]
   [SetV "this" (V2 IXor (VReg "this") (VReg "b"))]
   ["this"];
  (* v16/v16_avx512.h:2120-2124 *)
  fnc "int &=" 2120 [("this", 16); ("b", 16)]
   [SetV "this" (V2 IAnd (VReg "this") (VReg "b"))]
   ["this"];
  (* v16/v16_avx512.h:2126-2130 *)
  fnc "int |=" 2126 [("this", 16); ("b", 16)]
   [SetV "this" (V2 IOr (VReg "this") (VReg "b"))]
   ["this"];
  (* v16/v16_avx512.h:2132-2132 *)
  fnc "int <<=" 2132 [("this", 16); ("b", 16)]
   [For (16) [SetL "this" J (B2 IShl (Ln "this" J) (Ln "b" J))]]
   ["this"];
  (* v16/v16_avx512.h:2133-2133 *)
  fnc "int >>=" 2133 [("this", 16); ("b", 16)]
   [For (16) [SetL "this" J (B2 IShr (Ln "this" J) (Ln "b" J))]]
   ["this"];
  (* v16/v16_avx512.h:2161-2168 *)
  fnc "int unary+" 2161 [("a", 16)]
   [SetV "b" (VReg "a")]
   ["b"];
  (* v16/v16_avx512.h:2170-2170 *)
  fnc "int unary-" 2170 [("a", 16)]
   [For (16) [SetL "b" J (U1 INeg (Ln "a" J))]]
   ["b"];
  (* v16/v16_avx512.h:2172-2180 *)
  fnc "int !" 2172 [("a", 16)]
   [For (16) [SetL "b" J (U1 INeg (U1 ILNot (Ln "a" J)))]]
   ["b"];
  (* v16/v16_avx512.h:2182-2193 *)
  fnc "int ~" 2182 [("a", 16)]
   [SetL "u" (Ix 0) (Cst 4294967295);
    SetV "b" (V2 IXor (VReg "a") (VSet1 (Ln "u" (Ix 0))))]
   ["b"];
  (* v16/v16_avx512.h:2208-2208 *)
  fnc "int pre++" 2208 [("a", 16)]
   [For (16) [SetL "a" J (B2 IAdd (Ln "a" J) (Cst 1)); SetL "b" J (Ln "a" J)]]
   ["b"; "a"];
  (* v16/v16_avx512.h:2209-2209 *)
  fnc "int pre--" 2209 [("a", 16)]
   [For (16) [SetL "a" J (B2 ISub (Ln "a" J) (Cst 1)); SetL "b" J (Ln "a" J)]]
   ["b"; "a"];
  (* v16/v16_avx512.h:2224-2224 *)
  fnc "int post++" 2224 [("a", 16)]
   [For (16) [SetL "b" J (Ln "a" J); SetL "a" J (B2 IAdd (Ln "a" J) (Cst 1))]]
   ["b"; "a"];
  (* v16/v16_avx512.h:2225-2225 *)
  fnc "int post--" 2225 [("a", 16)]
   [For (16) [SetL "b" J (Ln "a" J); SetL "a" J (B2 ISub (Ln "a" J) (Cst 1))]]
   ["b"; "a"];
  (* v16/v16_avx512.h:2240-2240 *)
  fnc "int +" 2240 [("a", 16); ("b", 16)]
   [For (16) [SetL "c" J (B2 IAdd (Ln "a" J) (Ln "b" J))]]
   ["c"];
  (* v16/v16_avx512.h:2241-2241 *)
  fnc "int -" 2241 [("a", 16); ("b", 16)]
   [For (16) [SetL "c" J (B2 ISub (Ln "a" J) (Ln "b" J))]]
   ["c"];
  (* v16/v16_avx512.h:2242-2242 *)
  fnc "int *" 2242 [("a", 16); ("b", 16)]
   [For (16) [SetL "c" J (B2 IMul (Ln "a" J) (Ln "b" J))]]
   ["c"];
  (* v16/v16_avx512.h:2243-2243 *)
  fnc "int /" 2243 [("a", 16); ("b", 16)]
   [For (16) [SetL "c" J (B2 IDiv (Ln "a" J) (Ln "b" J))]]
   ["c"];
  (* v16/v16_avx512.h:2244-2244 *)
  fnc "int %" 2244 [("a", 16); ("b", 16)]
   [For (16) [SetL "c" J (B2 IMod (Ln "a" J) (Ln "b" J))]]
   ["c"];
  (* v16/v16_avx512.h:2246-2253 *)
  fnc "int ^" 2246 [("a", 16); ("b", 16)]
   [SetV "c" (V2 IXor (VReg "a") (VReg "b"))]
   ["c"];
  (* v16/v16_avx512.h:2255-2262 *)
  fnc "int &" 2255 [("a", 16); ("b", 16)]
   [SetV "c" (V2 IAnd (VReg "a") (VReg "b"))]
   ["c"];
  (* v16/v16_avx512.h:2275-2275 *)
  fnc "int |" 2275 [("a", 16); ("b", 16)]
   [For (16) [SetL "c" J (B2 IOr (Ln "a" J) (Ln "b" J))]]
   ["c"];
  (* v16/v16_avx512.h:2276-2276 *)
  fnc "int <<" 2276 [("a", 16); ("b", 16)]
   [For (16) [SetL "c" J (B2 IShl (Ln "a" J) (Ln "b" J))]]
   ["c"];
  (* v16/v16_avx512.h:2277-2277 *)
  fnc "int >>" 2277 [("a", 16); ("b", 16)]
   [For (16) [SetL "c" J (B2 IShr (Ln "a" J) (Ln "b" J))]]
   ["c"];
  (* v16/v16_avx512.h:2292-2292 *)
  fnc "int <" 2292 [("a", 16); ("b", 16)]
   [For (16) [SetL "c" J (U1 INeg (B2 ILt (Ln "a" J) (Ln "b" J)))]]
   ["c"];
  (* v16/v16_avx512.h:2293-2293 *)
  fnc "int >" 2293 [("a", 16); ("b", 16)]
   [For (16) [SetL "c" J (U1 INeg (B2 IGt (Ln "a" J) (Ln "b" J)))]]
   ["c"];
  (* v16/v16_avx512.h:2294-2294 *)
  fnc "int ==" 2294 [("a", 16); ("b", 16)]
   [For (16) [SetL "c" J (U1 INeg (B2 IEq (Ln "a" J) (Ln "b" J)))]]
   ["c"];
  (* v16/v16_avx512.h:2295-2295 *)
  fnc "int !=" 2295 [("a", 16); ("b", 16)]
   [For (16) [SetL "c" J (U1 INeg (B2 INe (Ln "a" J) (Ln "b" J)))]]
   ["c"];
  (* v16/v16_avx512.h:2296-2296 *)
  fnc "int <=" 2296 [("a", 16); ("b", 16)]
   [For (16) [SetL "c" J (U1 INeg (B2 ILe (Ln "a" J) (Ln "b" J)))]]
   ["c"];
  (* v16/v16_avx512.h:2297-2297 *)
  fnc "int >=" 2297 [("a", 16); ("b", 16)]
   [For (16) [SetL "c" J (U1 INeg (B2 IGe (Ln "a" J) (Ln "b" J)))]]
   ["c"];
  (* v16/v16_avx512.h:2298-2298 *)
  fnc "int &&" 2298 [("a", 16); ("b", 16)]
   [For (16) [SetL "c" J (U1 INeg (B2 ILAnd (Ln "a" J) (Ln "b" J)))]]
   ["c"];
  (* v16/v16_avx512.h:2299-2299 *)
  fnc "int ||" 2299 [("a", 16); ("b", 16)]
   [For (16) [SetL "c" J (U1 INeg (B2 ILOr (Ln "a" J) (Ln "b" J)))]]
   ["c"];
  (* v16/v16_avx512.h:2305-2313 *)
  fnc "int abs" 2305 [("a", 16)]
   [For (16) [SetL "b" J (Cond (B2 IGe (Ln "a" J) (Cst 0)) (Ln "a" J) (U1 INeg (Ln "a" J)))]]
   ["b"];
  (* v16/v16_avx512.h:2315-2323 *)
  fnc "czero" 2315 [("c", 16); ("a", 16)]
   [For (16) [SetL "b" J (B2 IAnd (Ln "a" J) (U1 INot (Ln "c" J)))]]
   ["b"];
  (* v16/v16_avx512.h:2336-2343 *)
  fnc "notczero" 2336 [("c", 16); ("a", 16)]
   [SetV "b" (V2 IAnd (VReg "c") (VReg "a"))]
   ["b"];
  (* v16/v16_avx512.h:2345-2353 *)
  fnc "merge" 2345 [("c", 16); ("t", 16); ("f", 16)]
   [For (16) [SetL "m" J (B2 IOr (B2 IAnd (Ln "f" J) (U1 INot (Ln "c" J))) (B2 IAnd (Ln "t" J) (Ln "c" J)))]]
   ["m"];
  (* v16/v16_avx512.h:2481-2485 *)
  fnc "float =" 2481 [("this", 16); ("b", 16)]
   [SetV "this" (VReg "b")]
   ["this"];
  (* v16/v16_avx512.h:2487-2487 *)
  fnc "float +=" 2487 [("this", 16); ("b", 16)]
   [SetV "this" (V2 FAdd (VReg "this") (VReg "b"))]
   ["this"];
  (* v16/v16_avx512.h:2488-2488 *)
  fnc "float -=" 2488 [("this", 16); ("b", 16)]
   [SetV "this" (V2 FSub (VReg "this") (VReg "b"))]
   ["this"];
  (* v16/v16_avx512.h:2489-2489 *)
  fnc "float *=" 2489 [("this", 16); ("b", 16)]
   [SetV "this" (V2 FMul (VReg "this") (VReg "b"))]
   ["this"];
  (* v16/v16_avx512.h:2490-2490 *)
  fnc "float /=" 2490 [("this", 16); ("b", 16)]
   [SetV "this" (V2 FDiv (VReg "this") (VReg "b"))]
   ["this"];
  (* v16/v16_avx512.h:2509-2516 *)
  fnc "float unary+" 2509 [("a", 16)]
   [SetV "b" (VReg "a")]
   ["b"];
  (* v16/v16_avx512.h:2518-2525 *)
  fnc "float unary-" 2518 [("a", 16)]
   [SetV "b" (V2 FSub (VSet1 (Cst 0)) (VReg "a"))]
   ["b"];
  (* v16/v16_avx512.h:2527-2535 *)
  fnc "float !" 2527 [("a", 16)]
   [For (16) [SetL "b" J (Cond (Ln "a" J) (Cst 0) (Cst 4294967295))]]
   ["b"];
  (* v16/v16_avx512.h:2550-2559 *)
  fnc "float pre++" 2550 [("a", 16)]
   [SetV "t" (V2 FAdd (VReg "a") (VSet1 (Cst 1065353216)));
    SetV "a" (VReg "t");
    SetV "b" (VReg "t")]
   ["b"; "a"];
  (* v16/v16_avx512.h:2561-2570 *)
  fnc "float pre--" 2561 [("a", 16)]
   [SetV "t" (V2 FSub (VReg "a") (VSet1 (Cst 1065353216)));
    SetV "a" (VReg "t");
    SetV "b" (VReg "t")]
   ["b"; "a"];
  (* v16/v16_avx512.h:2574-2583 *)
  fnc "float post++" 2574 [("a", 16)]
   [SetV "a_v" (VReg "a");
    SetV "a" (V2 FAdd (VReg "a_v") (VSet1 (Cst 1065353216)));
    SetV "b" (VReg "a_v")]
   ["b"; "a"];
  (* v16/v16_avx512.h:2585-2594 *)
  fnc "float post--" 2585 [("a", 16)]
   [SetV "a_v" (VReg "a");
    SetV "a" (V2 FSub (VReg "a_v") (VSet1 (Cst 1065353216)));
    SetV "b" (VReg "a_v")]
   ["b"; "a"];
  (* v16/v16_avx512.h:2606-2606 *)
  fnc "float +" 2606 [("a", 16); ("b", 16)]
   [SetV "c" (V2 FAdd (VReg "a") (VReg "b"))]
   ["c"];
  (* v16/v16_avx512.h:2607-2607 *)
  fnc "float -" 2607 [("a", 16); ("b", 16)]
   [SetV "c" (V2 FSub (VReg "a") (VReg "b"))]
   ["c"];
  (* v16/v16_avx512.h:2608-2608 *)
  fnc "float *" 2608 [("a", 16); ("b", 16)]
   [SetV "c" (V2 FMul (VReg "a") (VReg "b"))]
   ["c"];
  (* v16/v16_avx512.h:2609-2609 *)
  fnc "float /" 2609 [("a", 16); ("b", 16)]
   [SetV "c" (V2 FDiv (VReg "a") (VReg "b"))]
   ["c"];
  (* v16/v16_avx512.h:2624-2624 *)
  fnc "float <" 2624 [("a", 16); ("b", 16)]
   [For (16) [SetL "c" J (U1 INeg (B2 (FCmp CLt) (Ln "a" J) (Ln "b" J)))]]
   ["c"];
  (* v16/v16_avx512.h:2625-2625 *)
  fnc "float >" 2625 [("a", 16); ("b", 16)]
   [For (16) [SetL "c" J (U1 INeg (B2 (FCmp CGt) (Ln "a" J) (Ln "b" J)))]]
   ["c"];
  (* v16/v16_avx512.h:2626-2626 *)
  fnc "float ==" 2626 [("a", 16); ("b", 16)]
   [For (16) [SetL "c" J (U1 INeg (B2 (FCmp CEq) (Ln "a" J) (Ln "b" J)))]]
   ["c"];
  (* v16/v16_avx512.h:2627-2627 *)
  fnc "float !=" 2627 [("a", 16); ("b", 16)]
   [For (16) [SetL "c" J (U1 INeg (B2 (FCmp CNe) (Ln "a" J) (Ln "b" J)))]]
   ["c"];
  (* v16/v16_avx512.h:2628-2628 *)
  fnc "float <=" 2628 [("a", 16); ("b", 16)]
   [For (16) [SetL "c" J (U1 INeg (B2 (FCmp CLe) (Ln "a" J) (Ln "b" J)))]]
   ["c"];
  (* v16/v16_avx512.h:2629-2629 *)
  fnc "float >=" 2629 [("a", 16); ("b", 16)]
   [For (16) [SetL "c" J (U1 INeg (B2 (FCmp CGe) (Ln "a" J) (Ln "b" J)))]]
   ["c"];
  (* v16/v16_avx512.h:2630-2630 *)
  fnc "float &&" 2630 [("a", 16); ("b", 16)]
   [For (16) [SetL "c" J (U1 INeg (B2 FLAnd (Ln "a" J) (Ln "b" J)))]]
   ["c"];
  (* v16/v16_avx512.h:2631-2631 *)
  fnc "float ||" 2631 [("a", 16); ("b", 16)]
   [For (16) [SetL "c" J (U1 INeg (B2 FLOr (Ln "a" J) (Ln "b" J)))]]
   ["c"];
  (* v16/v16_avx512.h:2692-2692 *)
  fnc "acos" 2692 [("a", 16)]
   [For (16) [SetL "b" J (U1 (FFun "acos") (Ln "a" J))]]
   ["b"];
  (* v16/v16_avx512.h:2692-2692 *)
  fnc "asin" 2692 [("a", 16)]
   [For (16) [SetL "b" J (U1 (FFun "asin") (Ln "a" J))]]
   ["b"];
  (* v16/v16_avx512.h:2692-2692 *)
  fnc "atan" 2692 [("a", 16)]
   [For (16) [SetL "b" J (U1 (FFun "atan") (Ln "a" J))]]
   ["b"];
  (* v16/v16_avx512.h:2692-2692 *)
  fnc "atan2" 2692 [("a", 16); ("b", 16)]
   [For (16) [SetL "c" J (B2 (FFun2 "atan2") (Ln "a" J) (Ln "b" J))]]
   ["c"];
  (* v16/v16_avx512.h:2693-2693 *)
  fnc "ceil" 2693 [("a", 16)]
   [For (16) [SetL "b" J (U1 (FFun "ceil") (Ln "a" J))]]
   ["b"];
  (* v16/v16_avx512.h:2693-2693 *)
  fnc "cos" 2693 [("a", 16)]
   [For (16) [SetL "b" J (U1 (FFun "cos") (Ln "a" J))]]
   ["b"];
  (* v16/v16_avx512.h:2693-2693 *)
  fnc "cosh" 2693 [("a", 16)]
   [For (16) [SetL "b" J (U1 (FFun "cosh") (Ln "a" J))]]
   ["b"];
  (* v16/v16_avx512.h:2693-2693 *)
  fnc "exp" 2693 [("a", 16)]
   [For (16) [SetL "b" J (U1 (FFun "exp") (Ln "a" J))]]
   ["b"];
  (* v16/v16_avx512.h:2694-2694 *)
  fnc "floor" 2694 [("a", 16)]
   [For (16) [SetL "b" J (U1 (FFun "floor") (Ln "a" J))]]
   ["b"];
  (* v16/v16_avx512.h:2694-2694 *)
  fnc "fmod" 2694 [("a", 16); ("b", 16)]
   [For (16) [SetL "c" J (B2 (FFun2 "fmod") (Ln "a" J) (Ln "b" J))]]
   ["c"];
  (* v16/v16_avx512.h:2694-2694 *)
  fnc "log" 2694 [("a", 16)]
   [For (16) [SetL "b" J (U1 (FFun "log") (Ln "a" J))]]
   ["b"];
  (* v16/v16_avx512.h:2695-2695 *)
  fnc "log10" 2695 [("a", 16)]
   [For (16) [SetL "b" J (U1 (FFun "log10") (Ln "a" J))]]
   ["b"];
  (* v16/v16_avx512.h:2695-2695 *)
  fnc "pow" 2695 [("a", 16); ("b", 16)]
   [For (16) [SetL "c" J (B2 (FFun2 "pow") (Ln "a" J) (Ln "b" J))]]
   ["c"];
  (* v16/v16_avx512.h:2695-2695 *)
  fnc "sin" 2695 [("a", 16)]
   [For (16) [SetL "b" J (U1 (FFun "sin") (Ln "a" J))]]
   ["b"];
  (* v16/v16_avx512.h:2695-2695 *)
  fnc "sinh" 2695 [("a", 16)]
   [For (16) [SetL "b" J (U1 (FFun "sinh") (Ln "a" J))]]
   ["b"];
  (* v16/v16_avx512.h:2696-2696 *)
  fnc "tan" 2696 [("a", 16)]
   [For (16) [SetL "b" J (U1 (FFun "tan") (Ln "a" J))]]
   ["b"];
  (* v16/v16_avx512.h:2696-2696 *)
  fnc "tanh" 2696 [("a", 16)]
   [For (16) [SetL "b" J (U1 (FFun "tanh") (Ln "a" J))]]
   ["b"];
  (* v16/v16_avx512.h:2698-2705 *)
  fnc "fabs" 2698 [("a", 16)]
   [SetV "b" (V2 VAndnot (VSet1 (Cst 2147483648)) (VReg "a"))]
   ["b"];
  (* v16/v16_avx512.h:2707-2714 *)
  fnc "sqrt" 2707 [("a", 16)]
   [SetV "b" (V1 FSqrt (VReg "a"))]
   ["b"];
  (* v16/v16_avx512.h:2716-2724 *)
  fnc "copysign" 2716 [("a", 16); ("b", 16)]
   [SetV "t" (VSet1 (Cst 2147483648));
    SetV "c" (V2 IOr (V2 IAnd (VReg "t") (VReg "b")) (V2 VAndnot (VReg "t") (VReg "a")))]
   ["c"];
  (* v16/v16_avx512.h:2731-2740 *)
  fnc "rsqrt_approx" 2731 [("a", 16)]
   [SetV "b" (V1 FRsqrtE (VReg "a"))]
   ["b"];
  (* v16/v16_avx512.h:2742-2762 *)
  fnc "rsqrt" 2742 [("a", 16)]
   [SetV "a_v" (VReg "a");
    SetV "b_v" (V1 FRsqrtE (VReg "a_v"));
    SetV "b" (V2 FAdd (VReg "b_v") (V2 FMul (VSet1 (Cst 1056964608)) (V2 FSub (VReg "b_v") (V2 FMul (VReg "a_v") (V2 FMul (VReg "b_v") (V2 FMul (VReg "b_v") (VReg "b_v")))))))]
   ["b"];
  (* v16/v16_avx512.h:2764-2773 *)
  fnc "rcp_approx" 2764 [("a", 16)]
   [SetV "b" (V1 FRcpE (VReg "a"))]
   ["b"];
  (* v16/v16_avx512.h:2775-2790 *)
  fnc "rcp" 2775 [("a", 16)]
   [SetV "a_v" (VReg "a");
    SetV "b_v" (V1 FRcpE (VReg "a_v"));
    SetV "b" (V2 FSub (V2 FAdd (VReg "b_v") (VReg "b_v")) (V2 FMul (VReg "a_v") (V2 FMul (VReg "b_v") (VReg "b_v"))))]
   ["b"];
  (* v16/v16_avx512.h:2792-2799 *)
  fnc "fma" 2792 [("a", 16); ("b", 16); ("c", 16)]
   [SetV "d" (V3 Fmadd (VReg "a") (VReg "b") (VReg "c"))]
   ["d"];
  (* v16/v16_avx512.h:2801-2808 *)
  fnc "fms" 2801 [("a", 16); ("b", 16); ("c", 16)]
   [SetV "d" (V3 Fmsub (VReg "a") (VReg "b") (VReg "c"))]
   ["d"];
  (* v16/v16_avx512.h:2810-2817 *)
  fnc "fnms" 2810 [("a", 16); ("b", 16); ("c", 16)]
   [SetV "d" (V3 Fnmadd (VReg "a") (VReg "b") (VReg "c"))]
   ["d"];
  (* v16/v16_avx512.h:2819-2826 *)
  fnc "clear_bits" 2819 [("m", 16); ("a", 16)]
   [SetV "b" (V2 VAndnot (VReg "m") (VReg "a"))]
   ["b"];
  (* v16/v16_avx512.h:2828-2835 *)
  fnc "set_bits" 2828 [("m", 16); ("a", 16)]
   [SetV "b" (V2 IOr (VReg "m") (VReg "a"))]
   ["b"];
  (* v16/v16_avx512.h:2837-2844 *)
  fnc "toggle_bits" 2837 [("m", 16); ("a", 16)]
   [SetV "b" (V2 IXor (VReg "m") (VReg "a"))]
   ["b"];
  (* v16/v16_avx512.h:2846-2849 *)
  fnc "increment" 2846 [("p", 16); ("a", 16)]
   [SetV "p" (V2 FAdd (VReg "p") (VReg "a"))]
   ["p"];
  (* v16/v16_avx512.h:2851-2854 *)
  fnc "decrement" 2851 [("p", 16); ("a", 16)]
   [SetV "p" (V2 FSub (VReg "p") (VReg "a"))]
   ["p"];
  (* v16/v16_avx512.h:2856-2859 *)
  fnc "scale" 2856 [("p", 16); ("a", 16)]
   [SetV "p" (V2 FMul (VReg "p") (VReg "a"))]
   ["p"];
  (* v16/v16_avx512.h:2048-2049 *)
  fnc "int from copy" 2048 [("a", 16)]
   [SetV "this" (VReg "a")]
   ["this"];
  (* v16/v16_avx512.h:2050-2054 *)
  fnc "int from mixed" 2050 [("a", 16)]
   [SetV "this" (VReg "a")]
   ["this"];
  (* v16/v16_avx512.h:2055-2065 *)
  fnc "int from scalar" 2055 [("a", 1)]
   [SetL "u" (Ix 0) (Ln "a" (Ix 0));
    SetV "this" (VSet1 (Ln "u" (Ix 0)))]
   ["this"];
  (* v16/v16_avx512.h:2448-2449 *)
  fnc "float from copy" 2448 [("a", 16)]
   [SetV "this" (VReg "a")]
   ["this"];
  (* v16/v16_avx512.h:2450-2454 *)
  fnc "float from mixed" 2450 [("a", 16)]
   [SetV "this" (VReg "a")]
   ["this"];
  (* v16/v16_avx512.h:2455-2459 *)
  fnc "float from scalar" 2455 [("a", 1)]
   [SetV "this" (VSet1 (Ln "a" (Ix 0)))]
   ["this"]].

(* src/util/v16/v16_avx512.h:367-373 *)
Definition any_v16_avx512 : fn :=
  fnc "any" 367 [("a", 16)]
   [SetL "ret" (Ix 0) (B2 ILOr (B2 ILOr (B2 ILOr (B2 ILOr (B2 ILOr (B2 ILOr (B2 ILOr (B2 ILOr (B2 ILOr (B2 ILOr (B2 ILOr (B2 ILOr (B2 ILOr (B2 ILOr (B2 ILOr (Ln "a" (Ix 0)) (Ln "a" (Ix 1))) (Ln "a" (Ix 2))) (Ln "a" (Ix 3))) (Ln "a" (Ix 4))) (Ln "a" (Ix 5))) (Ln "a" (Ix 6))) (Ln "a" (Ix 7))) (Ln "a" (Ix 8))) (Ln "a" (Ix 9))) (Ln "a" (Ix 10))) (Ln "a" (Ix 11))) (Ln "a" (Ix 12))) (Ln "a" (Ix 13))) (Ln "a" (Ix 14))) (Ln "a" (Ix 15)))]
   ["ret"].

(* src/util/v16/v16_avx512.h:375-381 *)
Definition all_v16_avx512 : fn :=
  fnc "all" 375 [("a", 16)]
   [SetL "ret" (Ix 0) (B2 ILAnd (B2 ILAnd (B2 ILAnd (B2 ILAnd (B2 ILAnd (B2 ILAnd (B2 ILAnd (B2 ILAnd (B2 ILAnd (B2 ILAnd (B2 ILAnd (B2 ILAnd (B2 ILAnd (B2 ILAnd (B2 ILAnd (Ln "a" (Ix 0)) (Ln "a" (Ix 1))) (Ln "a" (Ix 2))) (Ln "a" (Ix 3))) (Ln "a" (Ix 4))) (Ln "a" (Ix 5))) (Ln "a" (Ix 6))) (Ln "a" (Ix 7))) (Ln "a" (Ix 8))) (Ln "a" (Ix 9))) (Ln "a" (Ix 10))) (Ln "a" (Ix 11))) (Ln "a" (Ix 12))) (Ln "a" (Ix 13))) (Ln "a" (Ix 14))) (Ln "a" (Ix 15)))]
   ["ret"].

(* src/util/v16/v16_avx512.h:383-391 *)
Definition splat_v16_avx512 (n : nat) : fn :=
  fnc "splat" 383 [("a", 16)]
   [SetV "b" (VSet1 (Ln "a" (Ix n)))]
   ["b"].

(* src/util/v16/v16_avx512.h:393-416 *)
Definition shuffle_v16_avx512 (i00 i01 i02 i03 i04 i05 i06 i07 i08 i09 i10 i11 i12 i13 i14 i15 : nat) : fn :=
  fnc "shuffle" 393 [("a", 16)]
   [SetL "b" (Ix 0) (Ln "a" (Ix i00));
    SetL "b" (Ix 1) (Ln "a" (Ix i01));
    SetL "b" (Ix 2) (Ln "a" (Ix i02));
    SetL "b" (Ix 3) (Ln "a" (Ix i03));
    SetL "b" (Ix 4) (Ln "a" (Ix i04));
    SetL "b" (Ix 5) (Ln "a" (Ix i05));
    SetL "b" (Ix 6) (Ln "a" (Ix i06));
    SetL "b" (Ix 7) (Ln "a" (Ix i07));
    SetL "b" (Ix 8) (Ln "a" (Ix i08));
    SetL "b" (Ix 9) (Ln "a" (Ix i09));
    SetL "b" (Ix 10) (Ln "a" (Ix i10));
    SetL "b" (Ix 11) (Ln "a" (Ix i11));
    SetL "b" (Ix 12) (Ln "a" (Ix i12));
    SetL "b" (Ix 13) (Ln "a" (Ix i13));
    SetL "b" (Ix 14) (Ln "a" (Ix i14));
    SetL "b" (Ix 15) (Ln "a" (Ix i15))]
   ["b"].

(* src/util/v16/v16_avx512.h:2066-2088 *)
Definition int_from_scalars_v16_avx512 : fn :=
  fnc "int from scalars" 2066 [("i00", 1); ("i01", 1); ("i02", 1); ("i03", 1); ("i04", 1); ("i05", 1); ("i06", 1); ("i07", 1); ("i08", 1); ("i09", 1); ("i10", 1); ("i11", 1); ("i12", 1); ("i13", 1); ("i14", 1); ("i15", 1)]
   [SetL "u00" (Ix 0) (Ln "i00" (Ix 0));
    SetL "u01" (Ix 0) (Ln "i01" (Ix 0));
    SetL "u02" (Ix 0) (Ln "i02" (Ix 0));
    SetL "u03" (Ix 0) (Ln "i03" (Ix 0));
    SetL "u04" (Ix 0) (Ln "i04" (Ix 0));
    SetL "u05" (Ix 0) (Ln "i05" (Ix 0));
    SetL "u06" (Ix 0) (Ln "i06" (Ix 0));
    SetL "u07" (Ix 0) (Ln "i07" (Ix 0));
    SetL "u08" (Ix 0) (Ln "i08" (Ix 0));
    SetL "u09" (Ix 0) (Ln "i09" (Ix 0));
    SetL "u10" (Ix 0) (Ln "i10" (Ix 0));
    SetL "u11" (Ix 0) (Ln "i11" (Ix 0));
    SetL "u12" (Ix 0) (Ln "i12" (Ix 0));
    SetL "u13" (Ix 0) (Ln "i13" (Ix 0));
    SetL "u14" (Ix 0) (Ln "i14" (Ix 0));
    SetL "u15" (Ix 0) (Ln "i15" (Ix 0));
    SetV "this" (VSetr [(Ln "u00" (Ix 0)); (Ln "u01" (Ix 0)); (Ln "u02" (Ix 0)); (Ln "u03" (Ix 0)); (Ln "u04" (Ix 0)); (Ln "u05" (Ix 0)); (Ln "u06" (Ix 0)); (Ln "u07" (Ix 0)); (Ln "u08" (Ix 0)); (Ln "u09" (Ix 0)); (Ln "u10" (Ix 0)); (Ln "u11" (Ix 0)); (Ln "u12" (Ix 0)); (Ln "u13" (Ix 0)); (Ln "u14" (Ix 0)); (Ln "u15" (Ix 0))])]
   ["this"].

(* src/util/v16/v16_avx512.h:2460-2468 *)
Definition float_from_scalars_v16_avx512 : fn :=
  fnc "float from scalars" 2460 [("f00", 1); ("f01", 1); ("f02", 1); ("f03", 1); ("f04", 1); ("f05", 1); ("f06", 1); ("f07", 1); ("f08", 1); ("f09", 1); ("f10", 1); ("f11", 1); ("f12", 1); ("f13", 1); ("f14", 1); ("f15", 1)]
   [SetV "this" (VSetr [(Ln "f00" (Ix 0)); (Ln "f01" (Ix 0)); (Ln "f02" (Ix 0)); (Ln "f03" (Ix 0)); (Ln "f04" (Ix 0)); (Ln "f05" (Ix 0)); (Ln "f06" (Ix 0)); (Ln "f07" (Ix 0)); (Ln "f08" (Ix 0)); (Ln "f09" (Ix 0)); (Ln "f10" (Ix 0)); (Ln "f11" (Ix 0)); (Ln "f12" (Ix 0)); (Ln "f13" (Ix 0)); (Ln "f14" (Ix 0)); (Ln "f15" (Ix 0))])]
   ["this"].
