(* The operators of the vector classes of 4 lanes, transcribed function by
   function from src/util/v4: see VecOpModel.v.  The number after a name is
   the line of the function (of the macro call that makes it, for those made by
   macros); comments give its first and last line.  Macros are expanded, the
   text of "#if 0" is left out.  Left out too: default constructors,
   destructors, operator[] and operator() (they return a reference to a lane)
   and the memory operations, which are in VecPrograms4.v. *)
From Coq Require Import ZArith List String.
From Verif Require Import VecOpModel.
Import ListNotations.
Open Scope string_scope. Open Scope list_scope. Open Scope nat_scope.

(* src/util/v4/v4_portable.h *)
Definition ops_v4_portable : list fn := [
  (* v4/v4_portable.h:568-568 *)
  fnc "int +=" 568 [("this", 4); ("b", 4)]
   [SetL "this" (Ix 0) (B2 IAdd (Ln "this" (Ix 0)) (Ln "b" (Ix 0)));
    SetL "this" (Ix 1) (B2 IAdd (Ln "this" (Ix 1)) (Ln "b" (Ix 1)));
    SetL "this" (Ix 2) (B2 IAdd (Ln "this" (Ix 2)) (Ln "b" (Ix 2)));
    SetL "this" (Ix 3) (B2 IAdd (Ln "this" (Ix 3)) (Ln "b" (Ix 3)))]
   ["this"];
  (* v4/v4_portable.h:569-569 *)
  fnc "int -=" 569 [("this", 4); ("b", 4)]
   [SetL "this" (Ix 0) (B2 ISub (Ln "this" (Ix 0)) (Ln "b" (Ix 0)));
    SetL "this" (Ix 1) (B2 ISub (Ln "this" (Ix 1)) (Ln "b" (Ix 1)));
    SetL "this" (Ix 2) (B2 ISub (Ln "this" (Ix 2)) (Ln "b" (Ix 2)));
    SetL "this" (Ix 3) (B2 ISub (Ln "this" (Ix 3)) (Ln "b" (Ix 3)))]
   ["this"];
  (* v4/v4_portable.h:570-570 *)
  fnc "int *=" 570 [("this", 4); ("b", 4)]
   [SetL "this" (Ix 0) (B2 IMul (Ln "this" (Ix 0)) (Ln "b" (Ix 0)));
    SetL "this" (Ix 1) (B2 IMul (Ln "this" (Ix 1)) (Ln "b" (Ix 1)));
    SetL "this" (Ix 2) (B2 IMul (Ln "this" (Ix 2)) (Ln "b" (Ix 2)));
    SetL "this" (Ix 3) (B2 IMul (Ln "this" (Ix 3)) (Ln "b" (Ix 3)))]
   ["this"];
  (* v4/v4_portable.h:571-571 *)
  fnc "int /=" 571 [("this", 4); ("b", 4)]
   [SetL "this" (Ix 0) (B2 IDiv (Ln "this" (Ix 0)) (Ln "b" (Ix 0)));
    SetL "this" (Ix 1) (B2 IDiv (Ln "this" (Ix 1)) (Ln "b" (Ix 1)));
    SetL "this" (Ix 2) (B2 IDiv (Ln "this" (Ix 2)) (Ln "b" (Ix 2)));
    SetL "this" (Ix 3) (B2 IDiv (Ln "this" (Ix 3)) (Ln "b" (Ix 3)))]
   ["this"];
  (* v4/v4_portable.h:572-572 *)
  fnc "int %=" 572 [("this", 4); ("b", 4)]
   [SetL "this" (Ix 0) (B2 IMod (Ln "this" (Ix 0)) (Ln "b" (Ix 0)));
    SetL "this" (Ix 1) (B2 IMod (Ln "this" (Ix 1)) (Ln "b" (Ix 1)));
    SetL "this" (Ix 2) (B2 IMod (Ln "this" (Ix 2)) (Ln "b" (Ix 2)));
    SetL "this" (Ix 3) (B2 IMod (Ln "this" (Ix 3)) (Ln "b" (Ix 3)))]
   ["this"];
  (* v4/v4_portable.h:573-573 *)
  fnc "int <<=" 573 [("this", 4); ("b", 4)]
   [SetL "this" (Ix 0) (B2 IShl (Ln "this" (Ix 0)) (Ln "b" (Ix 0)));
    SetL "this" (Ix 1) (B2 IShl (Ln "this" (Ix 1)) (Ln "b" (Ix 1)));
    SetL "this" (Ix 2) (B2 IShl (Ln "this" (Ix 2)) (Ln "b" (Ix 2)));
    SetL "this" (Ix 3) (B2 IShl (Ln "this" (Ix 3)) (Ln "b" (Ix 3)))]
   ["this"];
  (* v4/v4_portable.h:574-574 *)
  fnc "int >>=" 574 [("this", 4); ("b", 4)]
   [SetL "this" (Ix 0) (B2 IShr (Ln "this" (Ix 0)) (Ln "b" (Ix 0)));
    SetL "this" (Ix 1) (B2 IShr (Ln "this" (Ix 1)) (Ln "b" (Ix 1)));
    SetL "this" (Ix 2) (B2 IShr (Ln "this" (Ix 2)) (Ln "b" (Ix 2)));
    SetL "this" (Ix 3) (B2 IShr (Ln "this" (Ix 3)) (Ln "b" (Ix 3)))]
   ["this"];
  (* v4/v4_portable.h:575-575 *)
  fnc "int =" 575 [("this", 4); ("b", 4)]
   [SetL "this" (Ix 0) (Ln "b" (Ix 0));
    SetL "this" (Ix 1) (Ln "b" (Ix 1));
    SetL "this" (Ix 2) (Ln "b" (Ix 2));
    SetL "this" (Ix 3) (Ln "b" (Ix 3))]
   ["this"];
  (* v4/v4_portable.h:576-576 *)
  fnc "int ^=" 576 [("this", 4); ("b", 4)]
   [SetL "this" (Ix 0) (B2 IXor (Ln "this" (Ix 0)) (Ln "b" (Ix 0)));
    SetL "this" (Ix 1) (B2 IXor (Ln "this" (Ix 1)) (Ln "b" (Ix 1)));
    SetL "this" (Ix 2) (B2 IXor (Ln "this" (Ix 2)) (Ln "b" (Ix 2)));
    SetL "this" (Ix 3) (B2 IXor (Ln "this" (Ix 3)) (Ln "b" (Ix 3)))]
   ["this"];
  (* v4/v4_portable.h:577-577 *)
  fnc "int &=" 577 [("this", 4); ("b", 4)]
   [SetL "this" (Ix 0) (B2 IAnd (Ln "this" (Ix 0)) (Ln "b" (Ix 0)));
    SetL "this" (Ix 1) (B2 IAnd (Ln "this" (Ix 1)) (Ln "b" (Ix 1)));
    SetL "this" (Ix 2) (B2 IAnd (Ln "this" (Ix 2)) (Ln "b" (Ix 2)));
    SetL "this" (Ix 3) (B2 IAnd (Ln "this" (Ix 3)) (Ln "b" (Ix 3)))]
   ["this"];
  (* v4/v4_portable.h:578-578 *)
  fnc "int |=" 578 [("this", 4); ("b", 4)]
   [SetL "this" (Ix 0) (B2 IOr (Ln "this" (Ix 0)) (Ln "b" (Ix 0)));
    SetL "this" (Ix 1) (B2 IOr (Ln "this" (Ix 1)) (Ln "b" (Ix 1)));
    SetL "this" (Ix 2) (B2 IOr (Ln "this" (Ix 2)) (Ln "b" (Ix 2)));
    SetL "this" (Ix 3) (B2 IOr (Ln "this" (Ix 3)) (Ln "b" (Ix 3)))]
   ["this"];
  (* v4/v4_portable.h:608-608 *)
  fnc "int unary+" 608 [("a", 4)]
   [SetL "b" (Ix 0) (Ln "a" (Ix 0));
    SetL "b" (Ix 1) (Ln "a" (Ix 1));
    SetL "b" (Ix 2) (Ln "a" (Ix 2));
    SetL "b" (Ix 3) (Ln "a" (Ix 3))]
   ["b"];
  (* v4/v4_portable.h:609-609 *)
  fnc "int unary-" 609 [("a", 4)]
   [SetL "b" (Ix 0) (U1 INeg (Ln "a" (Ix 0)));
    SetL "b" (Ix 1) (U1 INeg (Ln "a" (Ix 1)));
    SetL "b" (Ix 2) (U1 INeg (Ln "a" (Ix 2)));
    SetL "b" (Ix 3) (U1 INeg (Ln "a" (Ix 3)))]
   ["b"];
  (* v4/v4_portable.h:611-621 *)
  fnc "int !" 611 [("a", 4)]
   [SetL "b" (Ix 0) (U1 INeg (U1 ILNot (Ln "a" (Ix 0))));
    SetL "b" (Ix 1) (U1 INeg (U1 ILNot (Ln "a" (Ix 1))));
    SetL "b" (Ix 2) (U1 INeg (U1 ILNot (Ln "a" (Ix 2))));
    SetL "b" (Ix 3) (U1 INeg (U1 ILNot (Ln "a" (Ix 3))))]
   ["b"];
  (* v4/v4_portable.h:623-623 *)
  fnc "int ~" 623 [("a", 4)]
   [SetL "b" (Ix 0) (U1 INot (Ln "a" (Ix 0)));
    SetL "b" (Ix 1) (U1 INot (Ln "a" (Ix 1)));
    SetL "b" (Ix 2) (U1 INot (Ln "a" (Ix 2)));
    SetL "b" (Ix 3) (U1 INot (Ln "a" (Ix 3)))]
   ["b"];
  (* v4/v4_portable.h:640-640 *)
  fnc "int pre++" 640 [("a", 4)]
   [SetL "a" (Ix 0) (B2 IAdd (Ln "a" (Ix 0)) (Cst 1));
    SetL "b" (Ix 0) (Ln "a" (Ix 0));
    SetL "a" (Ix 1) (B2 IAdd (Ln "a" (Ix 1)) (Cst 1));
    SetL "b" (Ix 1) (Ln "a" (Ix 1));
    SetL "a" (Ix 2) (B2 IAdd (Ln "a" (Ix 2)) (Cst 1));
    SetL "b" (Ix 2) (Ln "a" (Ix 2));
    SetL "a" (Ix 3) (B2 IAdd (Ln "a" (Ix 3)) (Cst 1));
    SetL "b" (Ix 3) (Ln "a" (Ix 3))]
   ["b"; "a"];
  (* v4/v4_portable.h:641-641 *)
  fnc "int pre--" 641 [("a", 4)]
   [SetL "a" (Ix 0) (B2 ISub (Ln "a" (Ix 0)) (Cst 1));
    SetL "b" (Ix 0) (Ln "a" (Ix 0));
    SetL "a" (Ix 1) (B2 ISub (Ln "a" (Ix 1)) (Cst 1));
    SetL "b" (Ix 1) (Ln "a" (Ix 1));
    SetL "a" (Ix 2) (B2 ISub (Ln "a" (Ix 2)) (Cst 1));
    SetL "b" (Ix 2) (Ln "a" (Ix 2));
    SetL "a" (Ix 3) (B2 ISub (Ln "a" (Ix 3)) (Cst 1));
    SetL "b" (Ix 3) (Ln "a" (Ix 3))]
   ["b"; "a"];
  (* v4/v4_portable.h:658-658 *)
  fnc "int post++" 658 [("a", 4)]
   [SetL "b" (Ix 0) (Ln "a" (Ix 0));
    SetL "a" (Ix 0) (B2 IAdd (Ln "a" (Ix 0)) (Cst 1));
    SetL "b" (Ix 1) (Ln "a" (Ix 1));
    SetL "a" (Ix 1) (B2 IAdd (Ln "a" (Ix 1)) (Cst 1));
    SetL "b" (Ix 2) (Ln "a" (Ix 2));
    SetL "a" (Ix 2) (B2 IAdd (Ln "a" (Ix 2)) (Cst 1));
    SetL "b" (Ix 3) (Ln "a" (Ix 3));
    SetL "a" (Ix 3) (B2 IAdd (Ln "a" (Ix 3)) (Cst 1))]
   ["b"; "a"];
  (* v4/v4_portable.h:659-659 *)
  fnc "int post--" 659 [("a", 4)]
   [SetL "b" (Ix 0) (Ln "a" (Ix 0));
    SetL "a" (Ix 0) (B2 ISub (Ln "a" (Ix 0)) (Cst 1));
    SetL "b" (Ix 1) (Ln "a" (Ix 1));
    SetL "a" (Ix 1) (B2 ISub (Ln "a" (Ix 1)) (Cst 1));
    SetL "b" (Ix 2) (Ln "a" (Ix 2));
    SetL "a" (Ix 2) (B2 ISub (Ln "a" (Ix 2)) (Cst 1));
    SetL "b" (Ix 3) (Ln "a" (Ix 3));
    SetL "a" (Ix 3) (B2 ISub (Ln "a" (Ix 3)) (Cst 1))]
   ["b"; "a"];
  (* v4/v4_portable.h:676-676 *)
  fnc "int +" 676 [("a", 4); ("b", 4)]
   [SetL "c" (Ix 0) (B2 IAdd (Ln "a" (Ix 0)) (Ln "b" (Ix 0)));
    SetL "c" (Ix 1) (B2 IAdd (Ln "a" (Ix 1)) (Ln "b" (Ix 1)));
    SetL "c" (Ix 2) (B2 IAdd (Ln "a" (Ix 2)) (Ln "b" (Ix 2)));
    SetL "c" (Ix 3) (B2 IAdd (Ln "a" (Ix 3)) (Ln "b" (Ix 3)))]
   ["c"];
  (* v4/v4_portable.h:677-677 *)
  fnc "int -" 677 [("a", 4); ("b", 4)]
   [SetL "c" (Ix 0) (B2 ISub (Ln "a" (Ix 0)) (Ln "b" (Ix 0)));
    SetL "c" (Ix 1) (B2 ISub (Ln "a" (Ix 1)) (Ln "b" (Ix 1)));
    SetL "c" (Ix 2) (B2 ISub (Ln "a" (Ix 2)) (Ln "b" (Ix 2)));
    SetL "c" (Ix 3) (B2 ISub (Ln "a" (Ix 3)) (Ln "b" (Ix 3)))]
   ["c"];
  (* v4/v4_portable.h:678-678 *)
  fnc "int *" 678 [("a", 4); ("b", 4)]
   [SetL "c" (Ix 0) (B2 IMul (Ln "a" (Ix 0)) (Ln "b" (Ix 0)));
    SetL "c" (Ix 1) (B2 IMul (Ln "a" (Ix 1)) (Ln "b" (Ix 1)));
    SetL "c" (Ix 2) (B2 IMul (Ln "a" (Ix 2)) (Ln "b" (Ix 2)));
    SetL "c" (Ix 3) (B2 IMul (Ln "a" (Ix 3)) (Ln "b" (Ix 3)))]
   ["c"];
  (* v4/v4_portable.h:679-679 *)
  fnc "int /" 679 [("a", 4); ("b", 4)]
   [SetL "c" (Ix 0) (B2 IDiv (Ln "a" (Ix 0)) (Ln "b" (Ix 0)));
    SetL "c" (Ix 1) (B2 IDiv (Ln "a" (Ix 1)) (Ln "b" (Ix 1)));
    SetL "c" (Ix 2) (B2 IDiv (Ln "a" (Ix 2)) (Ln "b" (Ix 2)));
    SetL "c" (Ix 3) (B2 IDiv (Ln "a" (Ix 3)) (Ln "b" (Ix 3)))]
   ["c"];
  (* v4/v4_portable.h:680-680 *)
  fnc "int %" 680 [("a", 4); ("b", 4)]
   [SetL "c" (Ix 0) (B2 IMod (Ln "a" (Ix 0)) (Ln "b" (Ix 0)));
    SetL "c" (Ix 1) (B2 IMod (Ln "a" (Ix 1)) (Ln "b" (Ix 1)));
    SetL "c" (Ix 2) (B2 IMod (Ln "a" (Ix 2)) (Ln "b" (Ix 2)));
    SetL "c" (Ix 3) (B2 IMod (Ln "a" (Ix 3)) (Ln "b" (Ix 3)))]
   ["c"];
  (* v4/v4_portable.h:681-681 *)
  fnc "int <<" 681 [("a", 4); ("b", 4)]
   [SetL "c" (Ix 0) (B2 IShl (Ln "a" (Ix 0)) (Ln "b" (Ix 0)));
    SetL "c" (Ix 1) (B2 IShl (Ln "a" (Ix 1)) (Ln "b" (Ix 1)));
    SetL "c" (Ix 2) (B2 IShl (Ln "a" (Ix 2)) (Ln "b" (Ix 2)));
    SetL "c" (Ix 3) (B2 IShl (Ln "a" (Ix 3)) (Ln "b" (Ix 3)))]
   ["c"];
  (* v4/v4_portable.h:682-682 *)
  fnc "int >>" 682 [("a", 4); ("b", 4)]
   [SetL "c" (Ix 0) (B2 IShr (Ln "a" (Ix 0)) (Ln "b" (Ix 0)));
    SetL "c" (Ix 1) (B2 IShr (Ln "a" (Ix 1)) (Ln "b" (Ix 1)));
    SetL "c" (Ix 2) (B2 IShr (Ln "a" (Ix 2)) (Ln "b" (Ix 2)));
    SetL "c" (Ix 3) (B2 IShr (Ln "a" (Ix 3)) (Ln "b" (Ix 3)))]
   ["c"];
  (* v4/v4_portable.h:683-683 *)
  fnc "int ^" 683 [("a", 4); ("b", 4)]
   [SetL "c" (Ix 0) (B2 IXor (Ln "a" (Ix 0)) (Ln "b" (Ix 0)));
    SetL "c" (Ix 1) (B2 IXor (Ln "a" (Ix 1)) (Ln "b" (Ix 1)));
    SetL "c" (Ix 2) (B2 IXor (Ln "a" (Ix 2)) (Ln "b" (Ix 2)));
    SetL "c" (Ix 3) (B2 IXor (Ln "a" (Ix 3)) (Ln "b" (Ix 3)))]
   ["c"];
  (* v4/v4_portable.h:684-684 *)
  fnc "int &" 684 [("a", 4); ("b", 4)]
   [SetL "c" (Ix 0) (B2 IAnd (Ln "a" (Ix 0)) (Ln "b" (Ix 0)));
    SetL "c" (Ix 1) (B2 IAnd (Ln "a" (Ix 1)) (Ln "b" (Ix 1)));
    SetL "c" (Ix 2) (B2 IAnd (Ln "a" (Ix 2)) (Ln "b" (Ix 2)));
    SetL "c" (Ix 3) (B2 IAnd (Ln "a" (Ix 3)) (Ln "b" (Ix 3)))]
   ["c"];
  (* v4/v4_portable.h:685-685 *)
  fnc "int |" 685 [("a", 4); ("b", 4)]
   [SetL "c" (Ix 0) (B2 IOr (Ln "a" (Ix 0)) (Ln "b" (Ix 0)));
    SetL "c" (Ix 1) (B2 IOr (Ln "a" (Ix 1)) (Ln "b" (Ix 1)));
    SetL "c" (Ix 2) (B2 IOr (Ln "a" (Ix 2)) (Ln "b" (Ix 2)));
    SetL "c" (Ix 3) (B2 IOr (Ln "a" (Ix 3)) (Ln "b" (Ix 3)))]
   ["c"];
  (* v4/v4_portable.h:702-702 *)
  fnc "int <" 702 [("a", 4); ("b", 4)]
   [SetL "c" (Ix 0) (U1 INeg (B2 ILt (Ln "a" (Ix 0)) (Ln "b" (Ix 0))));
    SetL "c" (Ix 1) (U1 INeg (B2 ILt (Ln "a" (Ix 1)) (Ln "b" (Ix 1))));
    SetL "c" (Ix 2) (U1 INeg (B2 ILt (Ln "a" (Ix 2)) (Ln "b" (Ix 2))));
    SetL "c" (Ix 3) (U1 INeg (B2 ILt (Ln "a" (Ix 3)) (Ln "b" (Ix 3))))]
   ["c"];
  (* v4/v4_portable.h:703-703 *)
  fnc "int >" 703 [("a", 4); ("b", 4)]
   [SetL "c" (Ix 0) (U1 INeg (B2 IGt (Ln "a" (Ix 0)) (Ln "b" (Ix 0))));
    SetL "c" (Ix 1) (U1 INeg (B2 IGt (Ln "a" (Ix 1)) (Ln "b" (Ix 1))));
    SetL "c" (Ix 2) (U1 INeg (B2 IGt (Ln "a" (Ix 2)) (Ln "b" (Ix 2))));
    SetL "c" (Ix 3) (U1 INeg (B2 IGt (Ln "a" (Ix 3)) (Ln "b" (Ix 3))))]
   ["c"];
  (* v4/v4_portable.h:704-704 *)
  fnc "int ==" 704 [("a", 4); ("b", 4)]
   [SetL "c" (Ix 0) (U1 INeg (B2 IEq (Ln "a" (Ix 0)) (Ln "b" (Ix 0))));
    SetL "c" (Ix 1) (U1 INeg (B2 IEq (Ln "a" (Ix 1)) (Ln "b" (Ix 1))));
    SetL "c" (Ix 2) (U1 INeg (B2 IEq (Ln "a" (Ix 2)) (Ln "b" (Ix 2))));
    SetL "c" (Ix 3) (U1 INeg (B2 IEq (Ln "a" (Ix 3)) (Ln "b" (Ix 3))))]
   ["c"];
  (* v4/v4_portable.h:705-705 *)
  fnc "int !=" 705 [("a", 4); ("b", 4)]
   [SetL "c" (Ix 0) (U1 INeg (B2 INe (Ln "a" (Ix 0)) (Ln "b" (Ix 0))));
    SetL "c" (Ix 1) (U1 INeg (B2 INe (Ln "a" (Ix 1)) (Ln "b" (Ix 1))));
    SetL "c" (Ix 2) (U1 INeg (B2 INe (Ln "a" (Ix 2)) (Ln "b" (Ix 2))));
    SetL "c" (Ix 3) (U1 INeg (B2 INe (Ln "a" (Ix 3)) (Ln "b" (Ix 3))))]
   ["c"];
  (* v4/v4_portable.h:706-706 *)
  fnc "int <=" 706 [("a", 4); ("b", 4)]
   [SetL "c" (Ix 0) (U1 INeg (B2 ILe (Ln "a" (Ix 0)) (Ln "b" (Ix 0))));
    SetL "c" (Ix 1) (U1 INeg (B2 ILe (Ln "a" (Ix 1)) (Ln "b" (Ix 1))));
    SetL "c" (Ix 2) (U1 INeg (B2 ILe (Ln "a" (Ix 2)) (Ln "b" (Ix 2))));
    SetL "c" (Ix 3) (U1 INeg (B2 ILe (Ln "a" (Ix 3)) (Ln "b" (Ix 3))))]
   ["c"];
  (* v4/v4_portable.h:707-707 *)
  fnc "int >=" 707 [("a", 4); ("b", 4)]
   [SetL "c" (Ix 0) (U1 INeg (B2 IGe (Ln "a" (Ix 0)) (Ln "b" (Ix 0))));
    SetL "c" (Ix 1) (U1 INeg (B2 IGe (Ln "a" (Ix 1)) (Ln "b" (Ix 1))));
    SetL "c" (Ix 2) (U1 INeg (B2 IGe (Ln "a" (Ix 2)) (Ln "b" (Ix 2))));
    SetL "c" (Ix 3) (U1 INeg (B2 IGe (Ln "a" (Ix 3)) (Ln "b" (Ix 3))))]
   ["c"];
  (* v4/v4_portable.h:708-708 *)
  fnc "int &&" 708 [("a", 4); ("b", 4)]
   [SetL "c" (Ix 0) (U1 INeg (B2 ILAnd (Ln "a" (Ix 0)) (Ln "b" (Ix 0))));
    SetL "c" (Ix 1) (U1 INeg (B2 ILAnd (Ln "a" (Ix 1)) (Ln "b" (Ix 1))));
    SetL "c" (Ix 2) (U1 INeg (B2 ILAnd (Ln "a" (Ix 2)) (Ln "b" (Ix 2))));
    SetL "c" (Ix 3) (U1 INeg (B2 ILAnd (Ln "a" (Ix 3)) (Ln "b" (Ix 3))))]
   ["c"];
  (* v4/v4_portable.h:709-709 *)
  fnc "int ||" 709 [("a", 4); ("b", 4)]
   [SetL "c" (Ix 0) (U1 INeg (B2 ILOr (Ln "a" (Ix 0)) (Ln "b" (Ix 0))));
    SetL "c" (Ix 1) (U1 INeg (B2 ILOr (Ln "a" (Ix 1)) (Ln "b" (Ix 1))));
    SetL "c" (Ix 2) (U1 INeg (B2 ILOr (Ln "a" (Ix 2)) (Ln "b" (Ix 2))));
    SetL "c" (Ix 3) (U1 INeg (B2 ILOr (Ln "a" (Ix 3)) (Ln "b" (Ix 3))))]
   ["c"];
  (* v4/v4_portable.h:715-725 *)
  fnc "int abs" 715 [("a", 4)]
   [SetL "b" (Ix 0) (Cond (B2 IGe (Ln "a" (Ix 0)) (Cst 0)) (Ln "a" (Ix 0)) (U1 INeg (Ln "a" (Ix 0))));
    SetL "b" (Ix 1) (Cond (B2 IGe (Ln "a" (Ix 1)) (Cst 0)) (Ln "a" (Ix 1)) (U1 INeg (Ln "a" (Ix 1))));
    SetL "b" (Ix 2) (Cond (B2 IGe (Ln "a" (Ix 2)) (Cst 0)) (Ln "a" (Ix 2)) (U1 INeg (Ln "a" (Ix 2))));
    SetL "b" (Ix 3) (Cond (B2 IGe (Ln "a" (Ix 3)) (Cst 0)) (Ln "a" (Ix 3)) (U1 INeg (Ln "a" (Ix 3))))]
   ["b"];
  (* v4/v4_portable.h:727-737 *)
  fnc "czero" 727 [("c", 4); ("a", 4)]
   [SetL "b" (Ix 0) (B2 IAnd (Ln "a" (Ix 0)) (U1 INot (Ln "c" (Ix 0))));
    SetL "b" (Ix 1) (B2 IAnd (Ln "a" (Ix 1)) (U1 INot (Ln "c" (Ix 1))));
    SetL "b" (Ix 2) (B2 IAnd (Ln "a" (Ix 2)) (U1 INot (Ln "c" (Ix 2))));
    SetL "b" (Ix 3) (B2 IAnd (Ln "a" (Ix 3)) (U1 INot (Ln "c" (Ix 3))))]
   ["b"];
  (* v4/v4_portable.h:739-749 *)
  fnc "notczero" 739 [("c", 4); ("a", 4)]
   [SetL "b" (Ix 0) (B2 IAnd (Ln "a" (Ix 0)) (Ln "c" (Ix 0)));
    SetL "b" (Ix 1) (B2 IAnd (Ln "a" (Ix 1)) (Ln "c" (Ix 1)));
    SetL "b" (Ix 2) (B2 IAnd (Ln "a" (Ix 2)) (Ln "c" (Ix 2)));
    SetL "b" (Ix 3) (B2 IAnd (Ln "a" (Ix 3)) (Ln "c" (Ix 3)))]
   ["b"];
  (* v4/v4_portable.h:751-761 *)
  fnc "merge" 751 [("c", 4); ("t", 4); ("f", 4)]
   [SetL "tf" (Ix 0) (B2 IOr (B2 IAnd (Ln "f" (Ix 0)) (U1 INot (Ln "c" (Ix 0)))) (B2 IAnd (Ln "t" (Ix 0)) (Ln "c" (Ix 0))));
    SetL "tf" (Ix 1) (B2 IOr (B2 IAnd (Ln "f" (Ix 1)) (U1 INot (Ln "c" (Ix 1)))) (B2 IAnd (Ln "t" (Ix 1)) (Ln "c" (Ix 1))));
    SetL "tf" (Ix 2) (B2 IOr (B2 IAnd (Ln "f" (Ix 2)) (U1 INot (Ln "c" (Ix 2)))) (B2 IAnd (Ln "t" (Ix 2)) (Ln "c" (Ix 2))));
    SetL "tf" (Ix 3) (B2 IOr (B2 IAnd (Ln "f" (Ix 3)) (U1 INot (Ln "c" (Ix 3)))) (B2 IAnd (Ln "t" (Ix 3)) (Ln "c" (Ix 3))))]
   ["tf"];
  (* v4/v4_portable.h:890-890 *)
  fnc "float =" 890 [("this", 4); ("b", 4)]
   [SetL "this" (Ix 0) (Ln "b" (Ix 0));
    SetL "this" (Ix 1) (Ln "b" (Ix 1));
    SetL "this" (Ix 2) (Ln "b" (Ix 2));
    SetL "this" (Ix 3) (Ln "b" (Ix 3))]
   ["this"];
  (* v4/v4_portable.h:891-891 *)
  fnc "float +=" 891 [("this", 4); ("b", 4)]
   [SetL "this" (Ix 0) (B2 FAdd (Ln "this" (Ix 0)) (Ln "b" (Ix 0)));
    SetL "this" (Ix 1) (B2 FAdd (Ln "this" (Ix 1)) (Ln "b" (Ix 1)));
    SetL "this" (Ix 2) (B2 FAdd (Ln "this" (Ix 2)) (Ln "b" (Ix 2)));
    SetL "this" (Ix 3) (B2 FAdd (Ln "this" (Ix 3)) (Ln "b" (Ix 3)))]
   ["this"];
  (* v4/v4_portable.h:892-892 *)
  fnc "float -=" 892 [("this", 4); ("b", 4)]
   [SetL "this" (Ix 0) (B2 FSub (Ln "this" (Ix 0)) (Ln "b" (Ix 0)));
    SetL "this" (Ix 1) (B2 FSub (Ln "this" (Ix 1)) (Ln "b" (Ix 1)));
    SetL "this" (Ix 2) (B2 FSub (Ln "this" (Ix 2)) (Ln "b" (Ix 2)));
    SetL "this" (Ix 3) (B2 FSub (Ln "this" (Ix 3)) (Ln "b" (Ix 3)))]
   ["this"];
  (* v4/v4_portable.h:893-893 *)
  fnc "float *=" 893 [("this", 4); ("b", 4)]
   [SetL "this" (Ix 0) (B2 FMul (Ln "this" (Ix 0)) (Ln "b" (Ix 0)));
    SetL "this" (Ix 1) (B2 FMul (Ln "this" (Ix 1)) (Ln "b" (Ix 1)));
    SetL "this" (Ix 2) (B2 FMul (Ln "this" (Ix 2)) (Ln "b" (Ix 2)));
    SetL "this" (Ix 3) (B2 FMul (Ln "this" (Ix 3)) (Ln "b" (Ix 3)))]
   ["this"];
  (* v4/v4_portable.h:894-894 *)
  fnc "float /=" 894 [("this", 4); ("b", 4)]
   [SetL "this" (Ix 0) (B2 FDiv (Ln "this" (Ix 0)) (Ln "b" (Ix 0)));
    SetL "this" (Ix 1) (B2 FDiv (Ln "this" (Ix 1)) (Ln "b" (Ix 1)));
    SetL "this" (Ix 2) (B2 FDiv (Ln "this" (Ix 2)) (Ln "b" (Ix 2)));
    SetL "this" (Ix 3) (B2 FDiv (Ln "this" (Ix 3)) (Ln "b" (Ix 3)))]
   ["this"];
  (* v4/v4_portable.h:913-923 *)
  fnc "float unary+" 913 [("a", 4)]
   [SetL "b" (Ix 0) (Ln "a" (Ix 0));
    SetL "b" (Ix 1) (Ln "a" (Ix 1));
    SetL "b" (Ix 2) (Ln "a" (Ix 2));
    SetL "b" (Ix 3) (Ln "a" (Ix 3))]
   ["b"];
  (* v4/v4_portable.h:925-935 *)
  fnc "float unary-" 925 [("a", 4)]
   [SetL "b" (Ix 0) (U1 FNeg (Ln "a" (Ix 0)));
    SetL "b" (Ix 1) (U1 FNeg (Ln "a" (Ix 1)));
    SetL "b" (Ix 2) (U1 FNeg (Ln "a" (Ix 2)));
    SetL "b" (Ix 3) (U1 FNeg (Ln "a" (Ix 3)))]
   ["b"];
  (* v4/v4_portable.h:937-947 *)
  fnc "float !" 937 [("a", 4)]
   [SetL "b" (Ix 0) (Cond (Ln "a" (Ix 0)) (Cst 0) (Cst 4294967295));
    SetL "b" (Ix 1) (Cond (Ln "a" (Ix 1)) (Cst 0) (Cst 4294967295));
    SetL "b" (Ix 2) (Cond (Ln "a" (Ix 2)) (Cst 0) (Cst 4294967295));
    SetL "b" (Ix 3) (Cond (Ln "a" (Ix 3)) (Cst 0) (Cst 4294967295))]
   ["b"];
  (* v4/v4_portable.h:951-961 *)
  fnc "float pre++" 951 [("a", 4)]
   [SetL "a" (Ix 0) (B2 FAdd (Ln "a" (Ix 0)) (Cst 1065353216));
    SetL "b" (Ix 0) (Ln "a" (Ix 0));
    SetL "a" (Ix 1) (B2 FAdd (Ln "a" (Ix 1)) (Cst 1065353216));
    SetL "b" (Ix 1) (Ln "a" (Ix 1));
    SetL "a" (Ix 2) (B2 FAdd (Ln "a" (Ix 2)) (Cst 1065353216));
    SetL "b" (Ix 2) (Ln "a" (Ix 2));
    SetL "a" (Ix 3) (B2 FAdd (Ln "a" (Ix 3)) (Cst 1065353216));
    SetL "b" (Ix 3) (Ln "a" (Ix 3))]
   ["b"; "a"];
  (* v4/v4_portable.h:963-973 *)
  fnc "float pre--" 963 [("a", 4)]
   [SetL "a" (Ix 0) (B2 FSub (Ln "a" (Ix 0)) (Cst 1065353216));
    SetL "b" (Ix 0) (Ln "a" (Ix 0));
    SetL "a" (Ix 1) (B2 FSub (Ln "a" (Ix 1)) (Cst 1065353216));
    SetL "b" (Ix 1) (Ln "a" (Ix 1));
    SetL "a" (Ix 2) (B2 FSub (Ln "a" (Ix 2)) (Cst 1065353216));
    SetL "b" (Ix 2) (Ln "a" (Ix 2));
    SetL "a" (Ix 3) (B2 FSub (Ln "a" (Ix 3)) (Cst 1065353216));
    SetL "b" (Ix 3) (Ln "a" (Ix 3))]
   ["b"; "a"];
  (* v4/v4_portable.h:977-987 *)
  fnc "float post++" 977 [("a", 4)]
   [SetL "b" (Ix 0) (Ln "a" (Ix 0));
    SetL "a" (Ix 0) (B2 FAdd (Ln "a" (Ix 0)) (Cst 1065353216));
    SetL "b" (Ix 1) (Ln "a" (Ix 1));
    SetL "a" (Ix 1) (B2 FAdd (Ln "a" (Ix 1)) (Cst 1065353216));
    SetL "b" (Ix 2) (Ln "a" (Ix 2));
    SetL "a" (Ix 2) (B2 FAdd (Ln "a" (Ix 2)) (Cst 1065353216));
    SetL "b" (Ix 3) (Ln "a" (Ix 3));
    SetL "a" (Ix 3) (B2 FAdd (Ln "a" (Ix 3)) (Cst 1065353216))]
   ["b"; "a"];
  (* v4/v4_portable.h:989-999 *)
  fnc "float post--" 989 [("a", 4)]
   [SetL "b" (Ix 0) (Ln "a" (Ix 0));
    SetL "a" (Ix 0) (B2 FSub (Ln "a" (Ix 0)) (Cst 1065353216));
    SetL "b" (Ix 1) (Ln "a" (Ix 1));
    SetL "a" (Ix 1) (B2 FSub (Ln "a" (Ix 1)) (Cst 1065353216));
    SetL "b" (Ix 2) (Ln "a" (Ix 2));
    SetL "a" (Ix 2) (B2 FSub (Ln "a" (Ix 2)) (Cst 1065353216));
    SetL "b" (Ix 3) (Ln "a" (Ix 3));
    SetL "a" (Ix 3) (B2 FSub (Ln "a" (Ix 3)) (Cst 1065353216))]
   ["b"; "a"];
  (* v4/v4_portable.h:1014-1014 *)
  fnc "float +" 1014 [("a", 4); ("b", 4)]
   [SetL "c" (Ix 0) (B2 FAdd (Ln "a" (Ix 0)) (Ln "b" (Ix 0)));
    SetL "c" (Ix 1) (B2 FAdd (Ln "a" (Ix 1)) (Ln "b" (Ix 1)));
    SetL "c" (Ix 2) (B2 FAdd (Ln "a" (Ix 2)) (Ln "b" (Ix 2)));
    SetL "c" (Ix 3) (B2 FAdd (Ln "a" (Ix 3)) (Ln "b" (Ix 3)))]
   ["c"];
  (* v4/v4_portable.h:1015-1015 *)
  fnc "float -" 1015 [("a", 4); ("b", 4)]
   [SetL "c" (Ix 0) (B2 FSub (Ln "a" (Ix 0)) (Ln "b" (Ix 0)));
    SetL "c" (Ix 1) (B2 FSub (Ln "a" (Ix 1)) (Ln "b" (Ix 1)));
    SetL "c" (Ix 2) (B2 FSub (Ln "a" (Ix 2)) (Ln "b" (Ix 2)));
    SetL "c" (Ix 3) (B2 FSub (Ln "a" (Ix 3)) (Ln "b" (Ix 3)))]
   ["c"];
  (* v4/v4_portable.h:1016-1016 *)
  fnc "float *" 1016 [("a", 4); ("b", 4)]
   [SetL "c" (Ix 0) (B2 FMul (Ln "a" (Ix 0)) (Ln "b" (Ix 0)));
    SetL "c" (Ix 1) (B2 FMul (Ln "a" (Ix 1)) (Ln "b" (Ix 1)));
    SetL "c" (Ix 2) (B2 FMul (Ln "a" (Ix 2)) (Ln "b" (Ix 2)));
    SetL "c" (Ix 3) (B2 FMul (Ln "a" (Ix 3)) (Ln "b" (Ix 3)))]
   ["c"];
  (* v4/v4_portable.h:1017-1017 *)
  fnc "float /" 1017 [("a", 4); ("b", 4)]
   [SetL "c" (Ix 0) (B2 FDiv (Ln "a" (Ix 0)) (Ln "b" (Ix 0)));
    SetL "c" (Ix 1) (B2 FDiv (Ln "a" (Ix 1)) (Ln "b" (Ix 1)));
    SetL "c" (Ix 2) (B2 FDiv (Ln "a" (Ix 2)) (Ln "b" (Ix 2)));
    SetL "c" (Ix 3) (B2 FDiv (Ln "a" (Ix 3)) (Ln "b" (Ix 3)))]
   ["c"];
  (* v4/v4_portable.h:1034-1034 *)
  fnc "float <" 1034 [("a", 4); ("b", 4)]
   [SetL "c" (Ix 0) (U1 INeg (B2 (FCmp CLt) (Ln "a" (Ix 0)) (Ln "b" (Ix 0))));
    SetL "c" (Ix 1) (U1 INeg (B2 (FCmp CLt) (Ln "a" (Ix 1)) (Ln "b" (Ix 1))));
    SetL "c" (Ix 2) (U1 INeg (B2 (FCmp CLt) (Ln "a" (Ix 2)) (Ln "b" (Ix 2))));
    SetL "c" (Ix 3) (U1 INeg (B2 (FCmp CLt) (Ln "a" (Ix 3)) (Ln "b" (Ix 3))))]
   ["c"];
  (* v4/v4_portable.h:1035-1035 *)
  fnc "float >" 1035 [("a", 4); ("b", 4)]
   [SetL "c" (Ix 0) (U1 INeg (B2 (FCmp CGt) (Ln "a" (Ix 0)) (Ln "b" (Ix 0))));
    SetL "c" (Ix 1) (U1 INeg (B2 (FCmp CGt) (Ln "a" (Ix 1)) (Ln "b" (Ix 1))));
    SetL "c" (Ix 2) (U1 INeg (B2 (FCmp CGt) (Ln "a" (Ix 2)) (Ln "b" (Ix 2))));
    SetL "c" (Ix 3) (U1 INeg (B2 (FCmp CGt) (Ln "a" (Ix 3)) (Ln "b" (Ix 3))))]
   ["c"];
  (* v4/v4_portable.h:1036-1036 *)
  fnc "float ==" 1036 [("a", 4); ("b", 4)]
   [SetL "c" (Ix 0) (U1 INeg (B2 (FCmp CEq) (Ln "a" (Ix 0)) (Ln "b" (Ix 0))));
    SetL "c" (Ix 1) (U1 INeg (B2 (FCmp CEq) (Ln "a" (Ix 1)) (Ln "b" (Ix 1))));
    SetL "c" (Ix 2) (U1 INeg (B2 (FCmp CEq) (Ln "a" (Ix 2)) (Ln "b" (Ix 2))));
    SetL "c" (Ix 3) (U1 INeg (B2 (FCmp CEq) (Ln "a" (Ix 3)) (Ln "b" (Ix 3))))]
   ["c"];
  (* v4/v4_portable.h:1037-1037 *)
  fnc "float <=" 1037 [("a", 4); ("b", 4)]
   [SetL "c" (Ix 0) (U1 INeg (B2 (FCmp CLe) (Ln "a" (Ix 0)) (Ln "b" (Ix 0))));
    SetL "c" (Ix 1) (U1 INeg (B2 (FCmp CLe) (Ln "a" (Ix 1)) (Ln "b" (Ix 1))));
    SetL "c" (Ix 2) (U1 INeg (B2 (FCmp CLe) (Ln "a" (Ix 2)) (Ln "b" (Ix 2))));
    SetL "c" (Ix 3) (U1 INeg (B2 (FCmp CLe) (Ln "a" (Ix 3)) (Ln "b" (Ix 3))))]
   ["c"];
  (* v4/v4_portable.h:1038-1038 *)
  fnc "float >=" 1038 [("a", 4); ("b", 4)]
   [SetL "c" (Ix 0) (U1 INeg (B2 (FCmp CGe) (Ln "a" (Ix 0)) (Ln "b" (Ix 0))));
    SetL "c" (Ix 1) (U1 INeg (B2 (FCmp CGe) (Ln "a" (Ix 1)) (Ln "b" (Ix 1))));
    SetL "c" (Ix 2) (U1 INeg (B2 (FCmp CGe) (Ln "a" (Ix 2)) (Ln "b" (Ix 2))));
    SetL "c" (Ix 3) (U1 INeg (B2 (FCmp CGe) (Ln "a" (Ix 3)) (Ln "b" (Ix 3))))]
   ["c"];
  (* v4/v4_portable.h:1039-1039 *)
  fnc "float !=" 1039 [("a", 4); ("b", 4)]
   [SetL "c" (Ix 0) (U1 INeg (B2 (FCmp CNe) (Ln "a" (Ix 0)) (Ln "b" (Ix 0))));
    SetL "c" (Ix 1) (U1 INeg (B2 (FCmp CNe) (Ln "a" (Ix 1)) (Ln "b" (Ix 1))));
    SetL "c" (Ix 2) (U1 INeg (B2 (FCmp CNe) (Ln "a" (Ix 2)) (Ln "b" (Ix 2))));
    SetL "c" (Ix 3) (U1 INeg (B2 (FCmp CNe) (Ln "a" (Ix 3)) (Ln "b" (Ix 3))))]
   ["c"];
  (* v4/v4_portable.h:1040-1040 *)
  fnc "float &&" 1040 [("a", 4); ("b", 4)]
   [SetL "c" (Ix 0) (U1 INeg (B2 FLAnd (Ln "a" (Ix 0)) (Ln "b" (Ix 0))));
    SetL "c" (Ix 1) (U1 INeg (B2 FLAnd (Ln "a" (Ix 1)) (Ln "b" (Ix 1))));
    SetL "c" (Ix 2) (U1 INeg (B2 FLAnd (Ln "a" (Ix 2)) (Ln "b" (Ix 2))));
    SetL "c" (Ix 3) (U1 INeg (B2 FLAnd (Ln "a" (Ix 3)) (Ln "b" (Ix 3))))]
   ["c"];
  (* v4/v4_portable.h:1041-1041 *)
  fnc "float ||" 1041 [("a", 4); ("b", 4)]
   [SetL "c" (Ix 0) (U1 INeg (B2 FLOr (Ln "a" (Ix 0)) (Ln "b" (Ix 0))));
    SetL "c" (Ix 1) (U1 INeg (B2 FLOr (Ln "a" (Ix 1)) (Ln "b" (Ix 1))));
    SetL "c" (Ix 2) (U1 INeg (B2 FLOr (Ln "a" (Ix 2)) (Ln "b" (Ix 2))));
    SetL "c" (Ix 3) (U1 INeg (B2 FLOr (Ln "a" (Ix 3)) (Ln "b" (Ix 3))))]
   ["c"];
  (* v4/v4_portable.h:1069-1069 *)
  fnc "acos" 1069 [("a", 4)]
   [SetL "b" (Ix 0) (U1 (FFun "acos") (Ln "a" (Ix 0)));
    SetL "b" (Ix 1) (U1 (FFun "acos") (Ln "a" (Ix 1)));
    SetL "b" (Ix 2) (U1 (FFun "acos") (Ln "a" (Ix 2)));
    SetL "b" (Ix 3) (U1 (FFun "acos") (Ln "a" (Ix 3)))]
   ["b"];
  (* v4/v4_portable.h:1069-1069 *)
  fnc "asin" 1069 [("a", 4)]
   [SetL "b" (Ix 0) (U1 (FFun "asin") (Ln "a" (Ix 0)));
    SetL "b" (Ix 1) (U1 (FFun "asin") (Ln "a" (Ix 1)));
    SetL "b" (Ix 2) (U1 (FFun "asin") (Ln "a" (Ix 2)));
    SetL "b" (Ix 3) (U1 (FFun "asin") (Ln "a" (Ix 3)))]
   ["b"];
  (* v4/v4_portable.h:1069-1069 *)
  fnc "atan" 1069 [("a", 4)]
   [SetL "b" (Ix 0) (U1 (FFun "atan") (Ln "a" (Ix 0)));
    SetL "b" (Ix 1) (U1 (FFun "atan") (Ln "a" (Ix 1)));
    SetL "b" (Ix 2) (U1 (FFun "atan") (Ln "a" (Ix 2)));
    SetL "b" (Ix 3) (U1 (FFun "atan") (Ln "a" (Ix 3)))]
   ["b"];
  (* v4/v4_portable.h:1069-1069 *)
  fnc "atan2" 1069 [("a", 4); ("b", 4)]
   [SetL "c" (Ix 0) (B2 (FFun2 "atan2") (Ln "a" (Ix 0)) (Ln "b" (Ix 0)));
    SetL "c" (Ix 1) (B2 (FFun2 "atan2") (Ln "a" (Ix 1)) (Ln "b" (Ix 1)));
    SetL "c" (Ix 2) (B2 (FFun2 "atan2") (Ln "a" (Ix 2)) (Ln "b" (Ix 2)));
    SetL "c" (Ix 3) (B2 (FFun2 "atan2") (Ln "a" (Ix 3)) (Ln "b" (Ix 3)))]
   ["c"];
  (* v4/v4_portable.h:1070-1070 *)
  fnc "ceil" 1070 [("a", 4)]
   [SetL "b" (Ix 0) (U1 (FFun "ceil") (Ln "a" (Ix 0)));
    SetL "b" (Ix 1) (U1 (FFun "ceil") (Ln "a" (Ix 1)));
    SetL "b" (Ix 2) (U1 (FFun "ceil") (Ln "a" (Ix 2)));
    SetL "b" (Ix 3) (U1 (FFun "ceil") (Ln "a" (Ix 3)))]
   ["b"];
  (* v4/v4_portable.h:1070-1070 *)
  fnc "cos" 1070 [("a", 4)]
   [SetL "b" (Ix 0) (U1 (FFun "cos") (Ln "a" (Ix 0)));
    SetL "b" (Ix 1) (U1 (FFun "cos") (Ln "a" (Ix 1)));
    SetL "b" (Ix 2) (U1 (FFun "cos") (Ln "a" (Ix 2)));
    SetL "b" (Ix 3) (U1 (FFun "cos") (Ln "a" (Ix 3)))]
   ["b"];
  (* v4/v4_portable.h:1070-1070 *)
  fnc "cosh" 1070 [("a", 4)]
   [SetL "b" (Ix 0) (U1 (FFun "cosh") (Ln "a" (Ix 0)));
    SetL "b" (Ix 1) (U1 (FFun "cosh") (Ln "a" (Ix 1)));
    SetL "b" (Ix 2) (U1 (FFun "cosh") (Ln "a" (Ix 2)));
    SetL "b" (Ix 3) (U1 (FFun "cosh") (Ln "a" (Ix 3)))]
   ["b"];
  (* v4/v4_portable.h:1070-1070 *)
  fnc "exp" 1070 [("a", 4)]
   [SetL "b" (Ix 0) (U1 (FFun "exp") (Ln "a" (Ix 0)));
    SetL "b" (Ix 1) (U1 (FFun "exp") (Ln "a" (Ix 1)));
    SetL "b" (Ix 2) (U1 (FFun "exp") (Ln "a" (Ix 2)));
    SetL "b" (Ix 3) (U1 (FFun "exp") (Ln "a" (Ix 3)))]
   ["b"];
  (* v4/v4_portable.h:1071-1071 *)
  fnc "fabs" 1071 [("a", 4)]
   [SetL "b" (Ix 0) (U1 FAbs (Ln "a" (Ix 0)));
    SetL "b" (Ix 1) (U1 FAbs (Ln "a" (Ix 1)));
    SetL "b" (Ix 2) (U1 FAbs (Ln "a" (Ix 2)));
    SetL "b" (Ix 3) (U1 FAbs (Ln "a" (Ix 3)))]
   ["b"];
  (* v4/v4_portable.h:1071-1071 *)
  fnc "floor" 1071 [("a", 4)]
   [SetL "b" (Ix 0) (U1 (FFun "floor") (Ln "a" (Ix 0)));
    SetL "b" (Ix 1) (U1 (FFun "floor") (Ln "a" (Ix 1)));
    SetL "b" (Ix 2) (U1 (FFun "floor") (Ln "a" (Ix 2)));
    SetL "b" (Ix 3) (U1 (FFun "floor") (Ln "a" (Ix 3)))]
   ["b"];
  (* v4/v4_portable.h:1071-1071 *)
  fnc "fmod" 1071 [("a", 4); ("b", 4)]
   [SetL "c" (Ix 0) (B2 (FFun2 "fmod") (Ln "a" (Ix 0)) (Ln "b" (Ix 0)));
    SetL "c" (Ix 1) (B2 (FFun2 "fmod") (Ln "a" (Ix 1)) (Ln "b" (Ix 1)));
    SetL "c" (Ix 2) (B2 (FFun2 "fmod") (Ln "a" (Ix 2)) (Ln "b" (Ix 2)));
    SetL "c" (Ix 3) (B2 (FFun2 "fmod") (Ln "a" (Ix 3)) (Ln "b" (Ix 3)))]
   ["c"];
  (* v4/v4_portable.h:1071-1071 *)
  fnc "log" 1071 [("a", 4)]
   [SetL "b" (Ix 0) (U1 (FFun "log") (Ln "a" (Ix 0)));
    SetL "b" (Ix 1) (U1 (FFun "log") (Ln "a" (Ix 1)));
    SetL "b" (Ix 2) (U1 (FFun "log") (Ln "a" (Ix 2)));
    SetL "b" (Ix 3) (U1 (FFun "log") (Ln "a" (Ix 3)))]
   ["b"];
  (* v4/v4_portable.h:1072-1072 *)
  fnc "log10" 1072 [("a", 4)]
   [SetL "b" (Ix 0) (U1 (FFun "log10") (Ln "a" (Ix 0)));
    SetL "b" (Ix 1) (U1 (FFun "log10") (Ln "a" (Ix 1)));
    SetL "b" (Ix 2) (U1 (FFun "log10") (Ln "a" (Ix 2)));
    SetL "b" (Ix 3) (U1 (FFun "log10") (Ln "a" (Ix 3)))]
   ["b"];
  (* v4/v4_portable.h:1072-1072 *)
  fnc "pow" 1072 [("a", 4); ("b", 4)]
   [SetL "c" (Ix 0) (B2 (FFun2 "pow") (Ln "a" (Ix 0)) (Ln "b" (Ix 0)));
    SetL "c" (Ix 1) (B2 (FFun2 "pow") (Ln "a" (Ix 1)) (Ln "b" (Ix 1)));
    SetL "c" (Ix 2) (B2 (FFun2 "pow") (Ln "a" (Ix 2)) (Ln "b" (Ix 2)));
    SetL "c" (Ix 3) (B2 (FFun2 "pow") (Ln "a" (Ix 3)) (Ln "b" (Ix 3)))]
   ["c"];
  (* v4/v4_portable.h:1072-1072 *)
  fnc "sin" 1072 [("a", 4)]
   [SetL "b" (Ix 0) (U1 (FFun "sin") (Ln "a" (Ix 0)));
    SetL "b" (Ix 1) (U1 (FFun "sin") (Ln "a" (Ix 1)));
    SetL "b" (Ix 2) (U1 (FFun "sin") (Ln "a" (Ix 2)));
    SetL "b" (Ix 3) (U1 (FFun "sin") (Ln "a" (Ix 3)))]
   ["b"];
  (* v4/v4_portable.h:1072-1072 *)
  fnc "sinh" 1072 [("a", 4)]
   [SetL "b" (Ix 0) (U1 (FFun "sinh") (Ln "a" (Ix 0)));
    SetL "b" (Ix 1) (U1 (FFun "sinh") (Ln "a" (Ix 1)));
    SetL "b" (Ix 2) (U1 (FFun "sinh") (Ln "a" (Ix 2)));
    SetL "b" (Ix 3) (U1 (FFun "sinh") (Ln "a" (Ix 3)))]
   ["b"];
  (* v4/v4_portable.h:1073-1073 *)
  fnc "sqrt" 1073 [("a", 4)]
   [SetL "b" (Ix 0) (U1 FSqrt (Ln "a" (Ix 0)));
    SetL "b" (Ix 1) (U1 FSqrt (Ln "a" (Ix 1)));
    SetL "b" (Ix 2) (U1 FSqrt (Ln "a" (Ix 2)));
    SetL "b" (Ix 3) (U1 FSqrt (Ln "a" (Ix 3)))]
   ["b"];
  (* v4/v4_portable.h:1073-1073 *)
  fnc "tan" 1073 [("a", 4)]
   [SetL "b" (Ix 0) (U1 (FFun "tan") (Ln "a" (Ix 0)));
    SetL "b" (Ix 1) (U1 (FFun "tan") (Ln "a" (Ix 1)));
    SetL "b" (Ix 2) (U1 (FFun "tan") (Ln "a" (Ix 2)));
    SetL "b" (Ix 3) (U1 (FFun "tan") (Ln "a" (Ix 3)))]
   ["b"];
  (* v4/v4_portable.h:1073-1073 *)
  fnc "tanh" 1073 [("a", 4)]
   [SetL "b" (Ix 0) (U1 (FFun "tanh") (Ln "a" (Ix 0)));
    SetL "b" (Ix 1) (U1 (FFun "tanh") (Ln "a" (Ix 1)));
    SetL "b" (Ix 2) (U1 (FFun "tanh") (Ln "a" (Ix 2)));
    SetL "b" (Ix 3) (U1 (FFun "tanh") (Ln "a" (Ix 3)))]
   ["b"];
  (* v4/v4_portable.h:1078-1100 *)
  fnc "copysign" 1078 [("a", 4); ("b", 4)]
   [SetL "t" (Ix 0) (U1 FAbs (Ln "a" (Ix 0)));
    SetL "t" (Ix 0) (Cond (B2 (FCmp CLt) (Ln "b" (Ix 0)) (Cst 0)) (U1 FNeg (Ln "t" (Ix 0))) (Ln "t" (Ix 0)));
    SetL "c" (Ix 0) (Ln "t" (Ix 0));
    SetL "t" (Ix 0) (U1 FAbs (Ln "a" (Ix 1)));
    SetL "t" (Ix 0) (Cond (B2 (FCmp CLt) (Ln "b" (Ix 1)) (Cst 0)) (U1 FNeg (Ln "t" (Ix 0))) (Ln "t" (Ix 0)));
    SetL "c" (Ix 1) (Ln "t" (Ix 0));
    SetL "t" (Ix 0) (U1 FAbs (Ln "a" (Ix 2)));
    SetL "t" (Ix 0) (Cond (B2 (FCmp CLt) (Ln "b" (Ix 2)) (Cst 0)) (U1 FNeg (Ln "t" (Ix 0))) (Ln "t" (Ix 0)));
    SetL "c" (Ix 2) (Ln "t" (Ix 0));
    SetL "t" (Ix 0) (U1 FAbs (Ln "a" (Ix 3)));
    SetL "t" (Ix 0) (Cond (B2 (FCmp CLt) (Ln "b" (Ix 3)) (Cst 0)) (U1 FNeg (Ln "t" (Ix 0))) (Ln "t" (Ix 0)));
    SetL "c" (Ix 3) (Ln "t" (Ix 0))]
   ["c"];
  (* v4/v4_portable.h:1104-1114 *)
  fnc "rsqrt_approx" 1104 [("a", 4)]
   [SetL "b" (Ix 0) (U1 FSqrt (B2 FDiv (Cst 1065353216) (Ln "a" (Ix 0))));
    SetL "b" (Ix 1) (U1 FSqrt (B2 FDiv (Cst 1065353216) (Ln "a" (Ix 1))));
    SetL "b" (Ix 2) (U1 FSqrt (B2 FDiv (Cst 1065353216) (Ln "a" (Ix 2))));
    SetL "b" (Ix 3) (U1 FSqrt (B2 FDiv (Cst 1065353216) (Ln "a" (Ix 3))))]
   ["b"];
  (* v4/v4_portable.h:1116-1126 *)
  fnc "rsqrt" 1116 [("a", 4)]
   [SetL "b" (Ix 0) (U1 FSqrt (B2 FDiv (Cst 1065353216) (Ln "a" (Ix 0))));
    SetL "b" (Ix 1) (U1 FSqrt (B2 FDiv (Cst 1065353216) (Ln "a" (Ix 1))));
    SetL "b" (Ix 2) (U1 FSqrt (B2 FDiv (Cst 1065353216) (Ln "a" (Ix 2))));
    SetL "b" (Ix 3) (U1 FSqrt (B2 FDiv (Cst 1065353216) (Ln "a" (Ix 3))))]
   ["b"];
  (* v4/v4_portable.h:1128-1138 *)
  fnc "rcp_approx" 1128 [("a", 4)]
   [SetL "b" (Ix 0) (B2 FDiv (Cst 1065353216) (Ln "a" (Ix 0)));
    SetL "b" (Ix 1) (B2 FDiv (Cst 1065353216) (Ln "a" (Ix 1)));
    SetL "b" (Ix 2) (B2 FDiv (Cst 1065353216) (Ln "a" (Ix 2)));
    SetL "b" (Ix 3) (B2 FDiv (Cst 1065353216) (Ln "a" (Ix 3)))]
   ["b"];
  (* v4/v4_portable.h:1140-1150 *)
  fnc "rcp" 1140 [("a", 4)]
   [SetL "b" (Ix 0) (B2 FDiv (Cst 1065353216) (Ln "a" (Ix 0)));
    SetL "b" (Ix 1) (B2 FDiv (Cst 1065353216) (Ln "a" (Ix 1)));
    SetL "b" (Ix 2) (B2 FDiv (Cst 1065353216) (Ln "a" (Ix 2)));
    SetL "b" (Ix 3) (B2 FDiv (Cst 1065353216) (Ln "a" (Ix 3)))]
   ["b"];
  (* v4/v4_portable.h:1152-1162 *)
  fnc "fma" 1152 [("a", 4); ("b", 4); ("c", 4)]
   [SetL "d" (Ix 0) (B2 FAdd (B2 FMul (Ln "a" (Ix 0)) (Ln "b" (Ix 0))) (Ln "c" (Ix 0)));
    SetL "d" (Ix 1) (B2 FAdd (B2 FMul (Ln "a" (Ix 1)) (Ln "b" (Ix 1))) (Ln "c" (Ix 1)));
    SetL "d" (Ix 2) (B2 FAdd (B2 FMul (Ln "a" (Ix 2)) (Ln "b" (Ix 2))) (Ln "c" (Ix 2)));
    SetL "d" (Ix 3) (B2 FAdd (B2 FMul (Ln "a" (Ix 3)) (Ln "b" (Ix 3))) (Ln "c" (Ix 3)))]
   ["d"];
  (* v4/v4_portable.h:1164-1174 *)
  fnc "fms" 1164 [("a", 4); ("b", 4); ("c", 4)]
   [SetL "d" (Ix 0) (B2 FSub (B2 FMul (Ln "a" (Ix 0)) (Ln "b" (Ix 0))) (Ln "c" (Ix 0)));
    SetL "d" (Ix 1) (B2 FSub (B2 FMul (Ln "a" (Ix 1)) (Ln "b" (Ix 1))) (Ln "c" (Ix 1)));
    SetL "d" (Ix 2) (B2 FSub (B2 FMul (Ln "a" (Ix 2)) (Ln "b" (Ix 2))) (Ln "c" (Ix 2)));
    SetL "d" (Ix 3) (B2 FSub (B2 FMul (Ln "a" (Ix 3)) (Ln "b" (Ix 3))) (Ln "c" (Ix 3)))]
   ["d"];
  (* v4/v4_portable.h:1176-1186 *)
  fnc "fnms" 1176 [("a", 4); ("b", 4); ("c", 4)]
   [SetL "d" (Ix 0) (B2 FSub (Ln "c" (Ix 0)) (B2 FMul (Ln "a" (Ix 0)) (Ln "b" (Ix 0))));
    SetL "d" (Ix 1) (B2 FSub (Ln "c" (Ix 1)) (B2 FMul (Ln "a" (Ix 1)) (Ln "b" (Ix 1))));
    SetL "d" (Ix 2) (B2 FSub (Ln "c" (Ix 2)) (B2 FMul (Ln "a" (Ix 2)) (Ln "b" (Ix 2))));
    SetL "d" (Ix 3) (B2 FSub (Ln "c" (Ix 3)) (B2 FMul (Ln "a" (Ix 3)) (Ln "b" (Ix 3))))]
   ["d"];
  (* v4/v4_portable.h:1188-1198 *)
  fnc "clear_bits" 1188 [("m", 4); ("a", 4)]
   [SetL "b" (Ix 0) (B2 IAnd (U1 INot (Ln "m" (Ix 0))) (Ln "a" (Ix 0)));
    SetL "b" (Ix 1) (B2 IAnd (U1 INot (Ln "m" (Ix 1))) (Ln "a" (Ix 1)));
    SetL "b" (Ix 2) (B2 IAnd (U1 INot (Ln "m" (Ix 2))) (Ln "a" (Ix 2)));
    SetL "b" (Ix 3) (B2 IAnd (U1 INot (Ln "m" (Ix 3))) (Ln "a" (Ix 3)))]
   ["b"];
  (* v4/v4_portable.h:1200-1210 *)
  fnc "set_bits" 1200 [("m", 4); ("a", 4)]
   [SetL "b" (Ix 0) (B2 IOr (Ln "m" (Ix 0)) (Ln "a" (Ix 0)));
    SetL "b" (Ix 1) (B2 IOr (Ln "m" (Ix 1)) (Ln "a" (Ix 1)));
    SetL "b" (Ix 2) (B2 IOr (Ln "m" (Ix 2)) (Ln "a" (Ix 2)));
    SetL "b" (Ix 3) (B2 IOr (Ln "m" (Ix 3)) (Ln "a" (Ix 3)))]
   ["b"];
  (* v4/v4_portable.h:1212-1222 *)
  fnc "toggle_bits" 1212 [("m", 4); ("a", 4)]
   [SetL "b" (Ix 0) (B2 IXor (Ln "m" (Ix 0)) (Ln "a" (Ix 0)));
    SetL "b" (Ix 1) (B2 IXor (Ln "m" (Ix 1)) (Ln "a" (Ix 1)));
    SetL "b" (Ix 2) (B2 IXor (Ln "m" (Ix 2)) (Ln "a" (Ix 2)));
    SetL "b" (Ix 3) (B2 IXor (Ln "m" (Ix 3)) (Ln "a" (Ix 3)))]
   ["b"];
  (* v4/v4_portable.h:1224-1231 *)
  fnc "increment" 1224 [("p", 4); ("a", 4)]
   [SetL "p" (Ix 0) (B2 FAdd (Ln "p" (Ix 0)) (Ln "a" (Ix 0)));
    SetL "p" (Ix 1) (B2 FAdd (Ln "p" (Ix 1)) (Ln "a" (Ix 1)));
    SetL "p" (Ix 2) (B2 FAdd (Ln "p" (Ix 2)) (Ln "a" (Ix 2)));
    SetL "p" (Ix 3) (B2 FAdd (Ln "p" (Ix 3)) (Ln "a" (Ix 3)))]
   ["p"];
  (* v4/v4_portable.h:1233-1240 *)
  fnc "decrement" 1233 [("p", 4); ("a", 4)]
   [SetL "p" (Ix 0) (B2 FSub (Ln "p" (Ix 0)) (Ln "a" (Ix 0)));
    SetL "p" (Ix 1) (B2 FSub (Ln "p" (Ix 1)) (Ln "a" (Ix 1)));
    SetL "p" (Ix 2) (B2 FSub (Ln "p" (Ix 2)) (Ln "a" (Ix 2)));
    SetL "p" (Ix 3) (B2 FSub (Ln "p" (Ix 3)) (Ln "a" (Ix 3)))]
   ["p"];
  (* v4/v4_portable.h:1242-1249 *)
  fnc "scale" 1242 [("p", 4); ("a", 4)]
   [SetL "p" (Ix 0) (B2 FMul (Ln "p" (Ix 0)) (Ln "a" (Ix 0)));
    SetL "p" (Ix 1) (B2 FMul (Ln "p" (Ix 1)) (Ln "a" (Ix 1)));
    SetL "p" (Ix 2) (B2 FMul (Ln "p" (Ix 2)) (Ln "a" (Ix 2)));
    SetL "p" (Ix 3) (B2 FMul (Ln "p" (Ix 3)) (Ln "a" (Ix 3)))]
   ["p"];
  (* v4/v4_portable.h:527-528 *)
  fnc "int from copy" 527 [("a", 4)]
   [SetV "this" (VReg "a")]
   ["this"];
  (* v4/v4_portable.h:529-536 *)
  fnc "int from mixed" 529 [("a", 4)]
   [SetL "this" (Ix 0) (Ln "a" (Ix 0));
    SetL "this" (Ix 1) (Ln "a" (Ix 1));
    SetL "this" (Ix 2) (Ln "a" (Ix 2));
    SetL "this" (Ix 3) (Ln "a" (Ix 3))]
   ["this"];
  (* v4/v4_portable.h:537-544 *)
  fnc "int from scalar" 537 [("a", 1)]
   [SetL "this" (Ix 0) (Ln "a" (Ix 0));
    SetL "this" (Ix 1) (Ln "a" (Ix 0));
    SetL "this" (Ix 2) (Ln "a" (Ix 0));
    SetL "this" (Ix 3) (Ln "a" (Ix 0))]
   ["this"];
  (* v4/v4_portable.h:843-850 *)
  fnc "float from copy" 843 [("a", 4)]
   [SetL "this" (Ix 0) (Ln "a" (Ix 0));
    SetL "this" (Ix 1) (Ln "a" (Ix 1));
    SetL "this" (Ix 2) (Ln "a" (Ix 2));
    SetL "this" (Ix 3) (Ln "a" (Ix 3))]
   ["this"];
  (* v4/v4_portable.h:851-858 *)
  fnc "float from mixed" 851 [("a", 4)]
   [SetL "this" (Ix 0) (Ln "a" (Ix 0));
    SetL "this" (Ix 1) (Ln "a" (Ix 1));
    SetL "this" (Ix 2) (Ln "a" (Ix 2));
    SetL "this" (Ix 3) (Ln "a" (Ix 3))]
   ["this"];
  (* v4/v4_portable.h:859-866 *)
  fnc "float from scalar" 859 [("a", 1)]
   [SetL "this" (Ix 0) (Ln "a" (Ix 0));
    SetL "this" (Ix 1) (Ln "a" (Ix 0));
    SetL "this" (Ix 2) (Ln "a" (Ix 0));
    SetL "this" (Ix 3) (Ln "a" (Ix 0))]
   ["this"]].

(* src/util/v4/v4_portable.h:143-146 *)
Definition any_v4_portable : fn :=
  fnc "any" 143 [("a", 4)]
   [SetL "ret" (Ix 0) (B2 ILOr (B2 ILOr (B2 ILOr (Ln "a" (Ix 0)) (Ln "a" (Ix 1))) (Ln "a" (Ix 2))) (Ln "a" (Ix 3)))]
   ["ret"].

(* src/util/v4/v4_portable.h:148-151 *)
Definition all_v4_portable : fn :=
  fnc "all" 148 [("a", 4)]
   [SetL "ret" (Ix 0) (B2 ILAnd (B2 ILAnd (B2 ILAnd (Ln "a" (Ix 0)) (Ln "a" (Ix 1))) (Ln "a" (Ix 2))) (Ln "a" (Ix 3)))]
   ["ret"].

(* src/util/v4/v4_portable.h:153-164 *)
Definition splat_v4_portable (n : nat) : fn :=
  fnc "splat" 153 [("a", 4)]
   [SetL "b" (Ix 0) (Ln "a" (Ix n));
    SetL "b" (Ix 1) (Ln "a" (Ix n));
    SetL "b" (Ix 2) (Ln "a" (Ix n));
    SetL "b" (Ix 3) (Ln "a" (Ix n))]
   ["b"].

(* src/util/v4/v4_portable.h:166-177 *)
Definition shuffle_v4_portable (i0 i1 i2 i3 : nat) : fn :=
  fnc "shuffle" 166 [("a", 4)]
   [SetL "b" (Ix 0) (Ln "a" (Ix i0));
    SetL "b" (Ix 1) (Ln "a" (Ix i1));
    SetL "b" (Ix 2) (Ln "a" (Ix i2));
    SetL "b" (Ix 3) (Ln "a" (Ix i3))]
   ["b"].

(* src/util/v4/v4_portable.h:1254-1267 *)
Definition trilinear_v4_portable : fn :=
  fnc "trilinear" 1254 [("wl", 4); ("wh", 4)]
   [SetL "x" (Ix 0) (Ln "wl" (Ix 0));
    SetL "y" (Ix 0) (Ln "wl" (Ix 1));
    SetL "z" (Ix 0) (Ln "wl" (Ix 2));
    SetL "wl" (Ix 0) (B2 FMul (B2 FMul (B2 FSub (Cst 1065353216) (Ln "x" (Ix 0))) (B2 FSub (Cst 1065353216) (Ln "y" (Ix 0)))) (B2 FSub (Cst 1065353216) (Ln "z" (Ix 0))));
    SetL "wl" (Ix 1) (B2 FMul (B2 FMul (B2 FAdd (Cst 1065353216) (Ln "x" (Ix 0))) (B2 FSub (Cst 1065353216) (Ln "y" (Ix 0)))) (B2 FSub (Cst 1065353216) (Ln "z" (Ix 0))));
    SetL "wl" (Ix 2) (B2 FMul (B2 FMul (B2 FSub (Cst 1065353216) (Ln "x" (Ix 0))) (B2 FAdd (Cst 1065353216) (Ln "y" (Ix 0)))) (B2 FSub (Cst 1065353216) (Ln "z" (Ix 0))));
    SetL "wl" (Ix 3) (B2 FMul (B2 FMul (B2 FAdd (Cst 1065353216) (Ln "x" (Ix 0))) (B2 FAdd (Cst 1065353216) (Ln "y" (Ix 0)))) (B2 FSub (Cst 1065353216) (Ln "z" (Ix 0))));
    SetL "wh" (Ix 0) (B2 FMul (B2 FMul (B2 FSub (Cst 1065353216) (Ln "x" (Ix 0))) (B2 FSub (Cst 1065353216) (Ln "y" (Ix 0)))) (B2 FAdd (Cst 1065353216) (Ln "z" (Ix 0))));
    SetL "wh" (Ix 1) (B2 FMul (B2 FMul (B2 FAdd (Cst 1065353216) (Ln "x" (Ix 0))) (B2 FSub (Cst 1065353216) (Ln "y" (Ix 0)))) (B2 FAdd (Cst 1065353216) (Ln "z" (Ix 0))));
    SetL "wh" (Ix 2) (B2 FMul (B2 FMul (B2 FSub (Cst 1065353216) (Ln "x" (Ix 0))) (B2 FAdd (Cst 1065353216) (Ln "y" (Ix 0)))) (B2 FAdd (Cst 1065353216) (Ln "z" (Ix 0))));
    SetL "wh" (Ix 3) (B2 FMul (B2 FMul (B2 FAdd (Cst 1065353216) (Ln "x" (Ix 0))) (B2 FAdd (Cst 1065353216) (Ln "y" (Ix 0)))) (B2 FAdd (Cst 1065353216) (Ln "z" (Ix 0))))]
   ["wl"; "wh"].

(* src/util/v4/v4_portable.h:545-552 *)
Definition int_from_scalars_v4_portable : fn :=
  fnc "int from scalars" 545 [("i0", 1); ("i1", 1); ("i2", 1); ("i3", 1)]
   [SetL "this" (Ix 0) (Ln "i0" (Ix 0));
    SetL "this" (Ix 1) (Ln "i1" (Ix 0));
    SetL "this" (Ix 2) (Ln "i2" (Ix 0));
    SetL "this" (Ix 3) (Ln "i3" (Ix 0))]
   ["this"].

(* src/util/v4/v4_portable.h:867-874 *)
Definition float_from_scalars_v4_portable : fn :=
  fnc "float from scalars" 867 [("f0", 1); ("f1", 1); ("f2", 1); ("f3", 1)]
   [SetL "this" (Ix 0) (Ln "f0" (Ix 0));
    SetL "this" (Ix 1) (Ln "f1" (Ix 0));
    SetL "this" (Ix 2) (Ln "f2" (Ix 0));
    SetL "this" (Ix 3) (Ln "f3" (Ix 0))]
   ["this"].

(* src/util/v4/v4_sse.h *)
Definition ops_v4_sse : list fn := [
  (* v4/v4_sse.h:563-563 *)
  fnc "int +=" 563 [("this", 4); ("b", 4)]
   [SetL "this" (Ix 0) (B2 IAdd (Ln "this" (Ix 0)) (Ln "b" (Ix 0)));
    SetL "this" (Ix 1) (B2 IAdd (Ln "this" (Ix 1)) (Ln "b" (Ix 1)));
    SetL "this" (Ix 2) (B2 IAdd (Ln "this" (Ix 2)) (Ln "b" (Ix 2)));
    SetL "this" (Ix 3) (B2 IAdd (Ln "this" (Ix 3)) (Ln "b" (Ix 3)))]
   ["this"];
  (* v4/v4_sse.h:564-564 *)
  fnc "int -=" 564 [("this", 4); ("b", 4)]
   [SetL "this" (Ix 0) (B2 ISub (Ln "this" (Ix 0)) (Ln "b" (Ix 0)));
    SetL "this" (Ix 1) (B2 ISub (Ln "this" (Ix 1)) (Ln "b" (Ix 1)));
    SetL "this" (Ix 2) (B2 ISub (Ln "this" (Ix 2)) (Ln "b" (Ix 2)));
    SetL "this" (Ix 3) (B2 ISub (Ln "this" (Ix 3)) (Ln "b" (Ix 3)))]
   ["this"];
  (* v4/v4_sse.h:565-565 *)
  fnc "int *=" 565 [("this", 4); ("b", 4)]
   [SetL "this" (Ix 0) (B2 IMul (Ln "this" (Ix 0)) (Ln "b" (Ix 0)));
    SetL "this" (Ix 1) (B2 IMul (Ln "this" (Ix 1)) (Ln "b" (Ix 1)));
    SetL "this" (Ix 2) (B2 IMul (Ln "this" (Ix 2)) (Ln "b" (Ix 2)));
    SetL "this" (Ix 3) (B2 IMul (Ln "this" (Ix 3)) (Ln "b" (Ix 3)))]
   ["this"];
  (* v4/v4_sse.h:566-566 *)
  fnc "int /=" 566 [("this", 4); ("b", 4)]
   [SetL "this" (Ix 0) (B2 IDiv (Ln "this" (Ix 0)) (Ln "b" (Ix 0)));
    SetL "this" (Ix 1) (B2 IDiv (Ln "this" (Ix 1)) (Ln "b" (Ix 1)));
    SetL "this" (Ix 2) (B2 IDiv (Ln "this" (Ix 2)) (Ln "b" (Ix 2)));
    SetL "this" (Ix 3) (B2 IDiv (Ln "this" (Ix 3)) (Ln "b" (Ix 3)))]
   ["this"];
  (* v4/v4_sse.h:567-567 *)
  fnc "int %=" 567 [("this", 4); ("b", 4)]
   [SetL "this" (Ix 0) (B2 IMod (Ln "this" (Ix 0)) (Ln "b" (Ix 0)));
    SetL "this" (Ix 1) (B2 IMod (Ln "this" (Ix 1)) (Ln "b" (Ix 1)));
    SetL "this" (Ix 2) (B2 IMod (Ln "this" (Ix 2)) (Ln "b" (Ix 2)));
    SetL "this" (Ix 3) (B2 IMod (Ln "this" (Ix 3)) (Ln "b" (Ix 3)))]
   ["this"];
  (* v4/v4_sse.h:568-568 *)
  fnc "int <<=" 568 [("this", 4); ("b", 4)]
   [SetL "this" (Ix 0) (B2 IShl (Ln "this" (Ix 0)) (Ln "b" (Ix 0)));
    SetL "this" (Ix 1) (B2 IShl (Ln "this" (Ix 1)) (Ln "b" (Ix 1)));
    SetL "this" (Ix 2) (B2 IShl (Ln "this" (Ix 2)) (Ln "b" (Ix 2)));
    SetL "this" (Ix 3) (B2 IShl (Ln "this" (Ix 3)) (Ln "b" (Ix 3)))]
   ["this"];
  (* v4/v4_sse.h:569-569 *)
  fnc "int >>=" 569 [("this", 4); ("b", 4)]
   [SetL "this" (Ix 0) (B2 IShr (Ln "this" (Ix 0)) (Ln "b" (Ix 0)));
    SetL "this" (Ix 1) (B2 IShr (Ln "this" (Ix 1)) (Ln "b" (Ix 1)));
    SetL "this" (Ix 2) (B2 IShr (Ln "this" (Ix 2)) (Ln "b" (Ix 2)));
    SetL "this" (Ix 3) (B2 IShr (Ln "this" (Ix 3)) (Ln "b" (Ix 3)))]
   ["this"];
  (* v4/v4_sse.h:573-578 *)
  fnc "int =" 573 [("this", 4); ("b", 4)]
   [SetV "this" (VReg "b")]
   ["this"];
  (* v4/v4_sse.h:580-585 *)
  fnc "int ^=" 580 [("this", 4); ("b", 4)]
   [SetV "this" (V2 IXor (VReg "this") (VReg "b"))]
   ["this"];
  (* v4/v4_sse.h:587-592 *)
  fnc "int &=" 587 [("this", 4); ("b", 4)]
   [SetV "this" (V2 IAnd (VReg "this") (VReg "b"))]
   ["this"];
  (* v4/v4_sse.h:594-599 *)
  fnc "int |=" 594 [("this", 4); ("b", 4)]
   [SetV "this" (V2 IOr (VReg "this") (VReg "b"))]
   ["this"];
  (* v4/v4_sse.h:627-634 *)
  fnc "int unary+" 627 [("a", 4)]
   [SetV "b" (VReg "a")]
   ["b"];
  (* v4/v4_sse.h:636-636 *)
  fnc "int unary-" 636 [("a", 4)]
   [SetL "b" (Ix 0) (U1 INeg (Ln "a" (Ix 0)));
    SetL "b" (Ix 1) (U1 INeg (Ln "a" (Ix 1)));
    SetL "b" (Ix 2) (U1 INeg (Ln "a" (Ix 2)));
    SetL "b" (Ix 3) (U1 INeg (Ln "a" (Ix 3)))]
   ["b"];
  (* v4/v4_sse.h:638-648 *)
  fnc "int !" 638 [("a", 4)]
   [SetL "b" (Ix 0) (U1 INeg (U1 ILNot (Ln "a" (Ix 0))));
    SetL "b" (Ix 1) (U1 INeg (U1 ILNot (Ln "a" (Ix 1))));
    SetL "b" (Ix 2) (U1 INeg (U1 ILNot (Ln "a" (Ix 2))));
    SetL "b" (Ix 3) (U1 INeg (U1 ILNot (Ln "a" (Ix 3))))]
   ["b"];
  (* v4/v4_sse.h:650-665 *)
  fnc "int ~" 650 [("a", 4)]
   [SetL "u" (Ix 0) (Cst 4294967295);
    SetV "b" (V2 IXor (VReg "a") (VSet1 (Ln "u" (Ix 0))))]
   ["b"];
  (* v4/v4_sse.h:682-682 *)
  fnc "int pre++" 682 [("a", 4)]
   [SetL "a" (Ix 0) (B2 IAdd (Ln "a" (Ix 0)) (Cst 1));
    SetL "b" (Ix 0) (Ln "a" (Ix 0));
    SetL "a" (Ix 1) (B2 IAdd (Ln "a" (Ix 1)) (Cst 1));
    SetL "b" (Ix 1) (Ln "a" (Ix 1));
    SetL "a" (Ix 2) (B2 IAdd (Ln "a" (Ix 2)) (Cst 1));
    SetL "b" (Ix 2) (Ln "a" (Ix 2));
    SetL "a" (Ix 3) (B2 IAdd (Ln "a" (Ix 3)) (Cst 1));
    SetL "b" (Ix 3) (Ln "a" (Ix 3))]
   ["b"; "a"];
  (* v4/v4_sse.h:683-683 *)
  fnc "int pre--" 683 [("a", 4)]
   [SetL "a" (Ix 0) (B2 ISub (Ln "a" (Ix 0)) (Cst 1));
    SetL "b" (Ix 0) (Ln "a" (Ix 0));
    SetL "a" (Ix 1) (B2 ISub (Ln "a" (Ix 1)) (Cst 1));
    SetL "b" (Ix 1) (Ln "a" (Ix 1));
    SetL "a" (Ix 2) (B2 ISub (Ln "a" (Ix 2)) (Cst 1));
    SetL "b" (Ix 2) (Ln "a" (Ix 2));
    SetL "a" (Ix 3) (B2 ISub (Ln "a" (Ix 3)) (Cst 1));
    SetL "b" (Ix 3) (Ln "a" (Ix 3))]
   ["b"; "a"];
  (* v4/v4_sse.h:700-700 *)
  fnc "int post++" 700 [("a", 4)]
   [SetL "b" (Ix 0) (Ln "a" (Ix 0));
    SetL "a" (Ix 0) (B2 IAdd (Ln "a" (Ix 0)) (Cst 1));
    SetL "b" (Ix 1) (Ln "a" (Ix 1));
    SetL "a" (Ix 1) (B2 IAdd (Ln "a" (Ix 1)) (Cst 1));
    SetL "b" (Ix 2) (Ln "a" (Ix 2));
    SetL "a" (Ix 2) (B2 IAdd (Ln "a" (Ix 2)) (Cst 1));
    SetL "b" (Ix 3) (Ln "a" (Ix 3));
    SetL "a" (Ix 3) (B2 IAdd (Ln "a" (Ix 3)) (Cst 1))]
   ["b"; "a"];
  (* v4/v4_sse.h:701-701 *)
  fnc "int post--" 701 [("a", 4)]
   [SetL "b" (Ix 0) (Ln "a" (Ix 0));
    SetL "a" (Ix 0) (B2 ISub (Ln "a" (Ix 0)) (Cst 1));
    SetL "b" (Ix 1) (Ln "a" (Ix 1));
    SetL "a" (Ix 1) (B2 ISub (Ln "a" (Ix 1)) (Cst 1));
    SetL "b" (Ix 2) (Ln "a" (Ix 2));
    SetL "a" (Ix 2) (B2 ISub (Ln "a" (Ix 2)) (Cst 1));
    SetL "b" (Ix 3) (Ln "a" (Ix 3));
    SetL "a" (Ix 3) (B2 ISub (Ln "a" (Ix 3)) (Cst 1))]
   ["b"; "a"];
  (* v4/v4_sse.h:718-718 *)
  fnc "int +" 718 [("a", 4); ("b", 4)]
   [SetL "c" (Ix 0) (B2 IAdd (Ln "a" (Ix 0)) (Ln "b" (Ix 0)));
    SetL "c" (Ix 1) (B2 IAdd (Ln "a" (Ix 1)) (Ln "b" (Ix 1)));
    SetL "c" (Ix 2) (B2 IAdd (Ln "a" (Ix 2)) (Ln "b" (Ix 2)));
    SetL "c" (Ix 3) (B2 IAdd (Ln "a" (Ix 3)) (Ln "b" (Ix 3)))]
   ["c"];
  (* v4/v4_sse.h:719-719 *)
  fnc "int -" 719 [("a", 4); ("b", 4)]
   [SetL "c" (Ix 0) (B2 ISub (Ln "a" (Ix 0)) (Ln "b" (Ix 0)));
    SetL "c" (Ix 1) (B2 ISub (Ln "a" (Ix 1)) (Ln "b" (Ix 1)));
    SetL "c" (Ix 2) (B2 ISub (Ln "a" (Ix 2)) (Ln "b" (Ix 2)));
    SetL "c" (Ix 3) (B2 ISub (Ln "a" (Ix 3)) (Ln "b" (Ix 3)))]
   ["c"];
  (* v4/v4_sse.h:720-720 *)
  fnc "int *" 720 [("a", 4); ("b", 4)]
   [SetL "c" (Ix 0) (B2 IMul (Ln "a" (Ix 0)) (Ln "b" (Ix 0)));
    SetL "c" (Ix 1) (B2 IMul (Ln "a" (Ix 1)) (Ln "b" (Ix 1)));
    SetL "c" (Ix 2) (B2 IMul (Ln "a" (Ix 2)) (Ln "b" (Ix 2)));
    SetL "c" (Ix 3) (B2 IMul (Ln "a" (Ix 3)) (Ln "b" (Ix 3)))]
   ["c"];
  (* v4/v4_sse.h:721-721 *)
  fnc "int /" 721 [("a", 4); ("b", 4)]
   [SetL "c" (Ix 0) (B2 IDiv (Ln "a" (Ix 0)) (Ln "b" (Ix 0)));
    SetL "c" (Ix 1) (B2 IDiv (Ln "a" (Ix 1)) (Ln "b" (Ix 1)));
    SetL "c" (Ix 2) (B2 IDiv (Ln "a" (Ix 2)) (Ln "b" (Ix 2)));
    SetL "c" (Ix 3) (B2 IDiv (Ln "a" (Ix 3)) (Ln "b" (Ix 3)))]
   ["c"];
  (* v4/v4_sse.h:722-722 *)
  fnc "int %" 722 [("a", 4); ("b", 4)]
   [SetL "c" (Ix 0) (B2 IMod (Ln "a" (Ix 0)) (Ln "b" (Ix 0)));
    SetL "c" (Ix 1) (B2 IMod (Ln "a" (Ix 1)) (Ln "b" (Ix 1)));
    SetL "c" (Ix 2) (B2 IMod (Ln "a" (Ix 2)) (Ln "b" (Ix 2)));
    SetL "c" (Ix 3) (B2 IMod (Ln "a" (Ix 3)) (Ln "b" (Ix 3)))]
   ["c"];
  (* v4/v4_sse.h:723-723 *)
  fnc "int <<" 723 [("a", 4); ("b", 4)]
   [SetL "c" (Ix 0) (B2 IShl (Ln "a" (Ix 0)) (Ln "b" (Ix 0)));
    SetL "c" (Ix 1) (B2 IShl (Ln "a" (Ix 1)) (Ln "b" (Ix 1)));
    SetL "c" (Ix 2) (B2 IShl (Ln "a" (Ix 2)) (Ln "b" (Ix 2)));
    SetL "c" (Ix 3) (B2 IShl (Ln "a" (Ix 3)) (Ln "b" (Ix 3)))]
   ["c"];
  (* v4/v4_sse.h:724-724 *)
  fnc "int >>" 724 [("a", 4); ("b", 4)]
   [SetL "c" (Ix 0) (B2 IShr (Ln "a" (Ix 0)) (Ln "b" (Ix 0)));
    SetL "c" (Ix 1) (B2 IShr (Ln "a" (Ix 1)) (Ln "b" (Ix 1)));
    SetL "c" (Ix 2) (B2 IShr (Ln "a" (Ix 2)) (Ln "b" (Ix 2)));
    SetL "c" (Ix 3) (B2 IShr (Ln "a" (Ix 3)) (Ln "b" (Ix 3)))]
   ["c"];
  (* v4/v4_sse.h:728-735 *)
  fnc "int ^" 728 [("a", 4); ("b", 4)]
   [SetV "c" (V2 IXor (VReg "a") (VReg "b"))]
   ["c"];
  (* v4/v4_sse.h:737-744 *)
  fnc "int &" 737 [("a", 4); ("b", 4)]
   [SetV "c" (V2 IAnd (VReg "a") (VReg "b"))]
   ["c"];
  (* v4/v4_sse.h:746-753 *)
  fnc "int |" 746 [("a", 4); ("b", 4)]
   [SetV "c" (V2 IOr (VReg "a") (VReg "b"))]
   ["c"];
  (* v4/v4_sse.h:768-768 *)
  fnc "int <" 768 [("a", 4); ("b", 4)]
   [SetL "c" (Ix 0) (U1 INeg (B2 ILt (Ln "a" (Ix 0)) (Ln "b" (Ix 0))));
    SetL "c" (Ix 1) (U1 INeg (B2 ILt (Ln "a" (Ix 1)) (Ln "b" (Ix 1))));
    SetL "c" (Ix 2) (U1 INeg (B2 ILt (Ln "a" (Ix 2)) (Ln "b" (Ix 2))));
    SetL "c" (Ix 3) (U1 INeg (B2 ILt (Ln "a" (Ix 3)) (Ln "b" (Ix 3))))]
   ["c"];
  (* v4/v4_sse.h:769-769 *)
  fnc "int >" 769 [("a", 4); ("b", 4)]
   [SetL "c" (Ix 0) (U1 INeg (B2 IGt (Ln "a" (Ix 0)) (Ln "b" (Ix 0))));
    SetL "c" (Ix 1) (U1 INeg (B2 IGt (Ln "a" (Ix 1)) (Ln "b" (Ix 1))));
    SetL "c" (Ix 2) (U1 INeg (B2 IGt (Ln "a" (Ix 2)) (Ln "b" (Ix 2))));
    SetL "c" (Ix 3) (U1 INeg (B2 IGt (Ln "a" (Ix 3)) (Ln "b" (Ix 3))))]
   ["c"];
  (* v4/v4_sse.h:770-770 *)
  fnc "int ==" 770 [("a", 4); ("b", 4)]
   [SetL "c" (Ix 0) (U1 INeg (B2 IEq (Ln "a" (Ix 0)) (Ln "b" (Ix 0))));
    SetL "c" (Ix 1) (U1 INeg (B2 IEq (Ln "a" (Ix 1)) (Ln "b" (Ix 1))));
    SetL "c" (Ix 2) (U1 INeg (B2 IEq (Ln "a" (Ix 2)) (Ln "b" (Ix 2))));
    SetL "c" (Ix 3) (U1 INeg (B2 IEq (Ln "a" (Ix 3)) (Ln "b" (Ix 3))))]
   ["c"];
  (* v4/v4_sse.h:771-771 *)
  fnc "int !=" 771 [("a", 4); ("b", 4)]
   [SetL "c" (Ix 0) (U1 INeg (B2 INe (Ln "a" (Ix 0)) (Ln "b" (Ix 0))));
    SetL "c" (Ix 1) (U1 INeg (B2 INe (Ln "a" (Ix 1)) (Ln "b" (Ix 1))));
    SetL "c" (Ix 2) (U1 INeg (B2 INe (Ln "a" (Ix 2)) (Ln "b" (Ix 2))));
    SetL "c" (Ix 3) (U1 INeg (B2 INe (Ln "a" (Ix 3)) (Ln "b" (Ix 3))))]
   ["c"];
  (* v4/v4_sse.h:772-772 *)
  fnc "int <=" 772 [("a", 4); ("b", 4)]
   [SetL "c" (Ix 0) (U1 INeg (B2 ILe (Ln "a" (Ix 0)) (Ln "b" (Ix 0))));
    SetL "c" (Ix 1) (U1 INeg (B2 ILe (Ln "a" (Ix 1)) (Ln "b" (Ix 1))));
    SetL "c" (Ix 2) (U1 INeg (B2 ILe (Ln "a" (Ix 2)) (Ln "b" (Ix 2))));
    SetL "c" (Ix 3) (U1 INeg (B2 ILe (Ln "a" (Ix 3)) (Ln "b" (Ix 3))))]
   ["c"];
  (* v4/v4_sse.h:773-773 *)
  fnc "int >=" 773 [("a", 4); ("b", 4)]
   [SetL "c" (Ix 0) (U1 INeg (B2 IGe (Ln "a" (Ix 0)) (Ln "b" (Ix 0))));
    SetL "c" (Ix 1) (U1 INeg (B2 IGe (Ln "a" (Ix 1)) (Ln "b" (Ix 1))));
    SetL "c" (Ix 2) (U1 INeg (B2 IGe (Ln "a" (Ix 2)) (Ln "b" (Ix 2))));
    SetL "c" (Ix 3) (U1 INeg (B2 IGe (Ln "a" (Ix 3)) (Ln "b" (Ix 3))))]
   ["c"];
  (* v4/v4_sse.h:774-774 *)
  fnc "int &&" 774 [("a", 4); ("b", 4)]
   [SetL "c" (Ix 0) (U1 INeg (B2 ILAnd (Ln "a" (Ix 0)) (Ln "b" (Ix 0))));
    SetL "c" (Ix 1) (U1 INeg (B2 ILAnd (Ln "a" (Ix 1)) (Ln "b" (Ix 1))));
    SetL "c" (Ix 2) (U1 INeg (B2 ILAnd (Ln "a" (Ix 2)) (Ln "b" (Ix 2))));
    SetL "c" (Ix 3) (U1 INeg (B2 ILAnd (Ln "a" (Ix 3)) (Ln "b" (Ix 3))))]
   ["c"];
  (* v4/v4_sse.h:775-775 *)
  fnc "int ||" 775 [("a", 4); ("b", 4)]
   [SetL "c" (Ix 0) (U1 INeg (B2 ILOr (Ln "a" (Ix 0)) (Ln "b" (Ix 0))));
    SetL "c" (Ix 1) (U1 INeg (B2 ILOr (Ln "a" (Ix 1)) (Ln "b" (Ix 1))));
    SetL "c" (Ix 2) (U1 INeg (B2 ILOr (Ln "a" (Ix 2)) (Ln "b" (Ix 2))));
    SetL "c" (Ix 3) (U1 INeg (B2 ILOr (Ln "a" (Ix 3)) (Ln "b" (Ix 3))))]
   ["c"];
  (* v4/v4_sse.h:781-791 *)
  fnc "int abs" 781 [("a", 4)]
   [SetL "b" (Ix 0) (Cond (B2 IGe (Ln "a" (Ix 0)) (Cst 0)) (Ln "a" (Ix 0)) (U1 INeg (Ln "a" (Ix 0))));
    SetL "b" (Ix 1) (Cond (B2 IGe (Ln "a" (Ix 1)) (Cst 0)) (Ln "a" (Ix 1)) (U1 INeg (Ln "a" (Ix 1))));
    SetL "b" (Ix 2) (Cond (B2 IGe (Ln "a" (Ix 2)) (Cst 0)) (Ln "a" (Ix 2)) (U1 INeg (Ln "a" (Ix 2))));
    SetL "b" (Ix 3) (Cond (B2 IGe (Ln "a" (Ix 3)) (Cst 0)) (Ln "a" (Ix 3)) (U1 INeg (Ln "a" (Ix 3))))]
   ["b"];
  (* v4/v4_sse.h:793-800 *)
  fnc "czero" 793 [("c", 4); ("a", 4)]
   [SetV "b" (V2 VAndnot (VReg "c") (VReg "a"))]
   ["b"];
  (* v4/v4_sse.h:802-809 *)
  fnc "notczero" 802 [("c", 4); ("a", 4)]
   [SetV "b" (V2 IAnd (VReg "c") (VReg "a"))]
   ["b"];
  (* v4/v4_sse.h:811-821 *)
  fnc "merge" 811 [("c", 4); ("t", 4); ("f", 4)]
   [SetV "c_v" (VReg "c");
    SetV "tf" (V2 IOr (V2 VAndnot (VReg "c_v") (VReg "f")) (V2 IAnd (VReg "c_v") (VReg "t")))]
   ["tf"];
  (* v4/v4_sse.h:932-932 *)
  fnc "float +=" 932 [("this", 4); ("b", 4)]
   [SetV "this" (V2 FAdd (VReg "this") (VReg "b"))]
   ["this"];
  (* v4/v4_sse.h:933-933 *)
  fnc "float -=" 933 [("this", 4); ("b", 4)]
   [SetV "this" (V2 FSub (VReg "this") (VReg "b"))]
   ["this"];
  (* v4/v4_sse.h:934-934 *)
  fnc "float *=" 934 [("this", 4); ("b", 4)]
   [SetV "this" (V2 FMul (VReg "this") (VReg "b"))]
   ["this"];
  (* v4/v4_sse.h:935-935 *)
  fnc "float /=" 935 [("this", 4); ("b", 4)]
   [SetV "this" (V2 FDiv (VReg "this") (VReg "b"))]
   ["this"];
  (* v4/v4_sse.h:939-944 *)
  fnc "float =" 939 [("this", 4); ("b", 4)]
   [SetV "this" (VReg "b")]
   ["this"];
  (* v4/v4_sse.h:961-968 *)
  fnc "float unary+" 961 [("a", 4)]
   [SetV "b" (VReg "a")]
   ["b"];
  (* v4/v4_sse.h:970-977 *)
  fnc "float unary-" 970 [("a", 4)]
   [SetV "b" (V2 FSub (VSet1 (Cst 0)) (VReg "a"))]
   ["b"];
  (* v4/v4_sse.h:979-986 *)
  fnc "float !" 979 [("a", 4)]
   [SetV "b" (V2 (VCmp CEq) (VSet1 (Cst 0)) (VReg "a"))]
   ["b"];
  (* v4/v4_sse.h:990-1000 *)
  fnc "float pre++" 990 [("a", 4)]
   [SetV "t" (V2 FAdd (VReg "a") (VSet1 (Cst 1065353216)));
    SetV "a" (VReg "t");
    SetV "b" (VReg "t")]
   ["b"; "a"];
  (* v4/v4_sse.h:1002-1012 *)
  fnc "float pre--" 1002 [("a", 4)]
   [SetV "t" (V2 FSub (VReg "a") (VSet1 (Cst 1065353216)));
    SetV "a" (VReg "t");
    SetV "b" (VReg "t")]
   ["b"; "a"];
  (* v4/v4_sse.h:1016-1026 *)
  fnc "float post++" 1016 [("a", 4)]
   [SetV "a_v" (VReg "a");
    SetV "a" (V2 FAdd (VReg "a_v") (VSet1 (Cst 1065353216)));
    SetV "b" (VReg "a_v")]
   ["b"; "a"];
  (* v4/v4_sse.h:1028-1038 *)
  fnc "float post--" 1028 [("a", 4)]
   [SetV "a_v" (VReg "a");
    SetV "a" (V2 FSub (VReg "a_v") (VSet1 (Cst 1065353216)));
    SetV "b" (VReg "a_v")]
   ["b"; "a"];
  (* v4/v4_sse.h:1050-1050 *)
  fnc "float +" 1050 [("a", 4); ("b", 4)]
   [SetV "c" (V2 FAdd (VReg "a") (VReg "b"))]
   ["c"];
  (* v4/v4_sse.h:1051-1051 *)
  fnc "float -" 1051 [("a", 4); ("b", 4)]
   [SetV "c" (V2 FSub (VReg "a") (VReg "b"))]
   ["c"];
  (* v4/v4_sse.h:1052-1052 *)
  fnc "float *" 1052 [("a", 4); ("b", 4)]
   [SetV "c" (V2 FMul (VReg "a") (VReg "b"))]
   ["c"];
  (* v4/v4_sse.h:1053-1053 *)
  fnc "float /" 1053 [("a", 4); ("b", 4)]
   [SetV "c" (V2 FDiv (VReg "a") (VReg "b"))]
   ["c"];
  (* v4/v4_sse.h:1067-1067 *)
  fnc "float <" 1067 [("a", 4); ("b", 4)]
   [SetV "c" (V2 (VCmp CLt) (VReg "a") (VReg "b"))]
   ["c"];
  (* v4/v4_sse.h:1068-1068 *)
  fnc "float >" 1068 [("a", 4); ("b", 4)]
   [SetV "c" (V2 (VCmp CGt) (VReg "a") (VReg "b"))]
   ["c"];
  (* v4/v4_sse.h:1069-1069 *)
  fnc "float ==" 1069 [("a", 4); ("b", 4)]
   [SetV "c" (V2 (VCmp CEq) (VReg "a") (VReg "b"))]
   ["c"];
  (* v4/v4_sse.h:1070-1070 *)
  fnc "float <=" 1070 [("a", 4); ("b", 4)]
   [SetV "c" (V2 (VCmp CLe) (VReg "a") (VReg "b"))]
   ["c"];
  (* v4/v4_sse.h:1071-1071 *)
  fnc "float >=" 1071 [("a", 4); ("b", 4)]
   [SetV "c" (V2 (VCmp CGe) (VReg "a") (VReg "b"))]
   ["c"];
  (* v4/v4_sse.h:1072-1072 *)
  fnc "float !=" 1072 [("a", 4); ("b", 4)]
   [SetV "c" (V2 (VCmp CNe) (VReg "a") (VReg "b"))]
   ["c"];
  (* v4/v4_sse.h:1076-1086 *)
  fnc "float &&" 1076 [("a", 4); ("b", 4)]
   [SetV "vzero" (VSet1 (Cst 0));
    SetV "c" (V2 IAnd (V2 (VCmp CNe) (VReg "a") (VReg "vzero")) (V2 (VCmp CNe) (VReg "b") (VReg "vzero")))]
   ["c"];
  (* v4/v4_sse.h:1088-1098 *)
  fnc "float ||" 1088 [("a", 4); ("b", 4)]
   [SetV "vzero" (VSet1 (Cst 0));
    SetV "c" (V2 IOr (V2 (VCmp CNe) (VReg "a") (VReg "vzero")) (V2 (VCmp CNe) (VReg "b") (VReg "vzero")))]
   ["c"];
  (* v4/v4_sse.h:1124-1124 *)
  fnc "acos" 1124 [("a", 4)]
   [SetL "b" (Ix 0) (U1 (FFun "acos") (Ln "a" (Ix 0)));
    SetL "b" (Ix 1) (U1 (FFun "acos") (Ln "a" (Ix 1)));
    SetL "b" (Ix 2) (U1 (FFun "acos") (Ln "a" (Ix 2)));
    SetL "b" (Ix 3) (U1 (FFun "acos") (Ln "a" (Ix 3)))]
   ["b"];
  (* v4/v4_sse.h:1124-1124 *)
  fnc "asin" 1124 [("a", 4)]
   [SetL "b" (Ix 0) (U1 (FFun "asin") (Ln "a" (Ix 0)));
    SetL "b" (Ix 1) (U1 (FFun "asin") (Ln "a" (Ix 1)));
    SetL "b" (Ix 2) (U1 (FFun "asin") (Ln "a" (Ix 2)));
    SetL "b" (Ix 3) (U1 (FFun "asin") (Ln "a" (Ix 3)))]
   ["b"];
  (* v4/v4_sse.h:1124-1124 *)
  fnc "atan" 1124 [("a", 4)]
   [SetL "b" (Ix 0) (U1 (FFun "atan") (Ln "a" (Ix 0)));
    SetL "b" (Ix 1) (U1 (FFun "atan") (Ln "a" (Ix 1)));
    SetL "b" (Ix 2) (U1 (FFun "atan") (Ln "a" (Ix 2)));
    SetL "b" (Ix 3) (U1 (FFun "atan") (Ln "a" (Ix 3)))]
   ["b"];
  (* v4/v4_sse.h:1124-1124 *)
  fnc "atan2" 1124 [("a", 4); ("b", 4)]
   [SetL "c" (Ix 0) (B2 (FFun2 "atan2") (Ln "a" (Ix 0)) (Ln "b" (Ix 0)));
    SetL "c" (Ix 1) (B2 (FFun2 "atan2") (Ln "a" (Ix 1)) (Ln "b" (Ix 1)));
    SetL "c" (Ix 2) (B2 (FFun2 "atan2") (Ln "a" (Ix 2)) (Ln "b" (Ix 2)));
    SetL "c" (Ix 3) (B2 (FFun2 "atan2") (Ln "a" (Ix 3)) (Ln "b" (Ix 3)))]
   ["c"];
  (* v4/v4_sse.h:1125-1125 *)
  fnc "ceil" 1125 [("a", 4)]
   [SetL "b" (Ix 0) (U1 (FFun "ceil") (Ln "a" (Ix 0)));
    SetL "b" (Ix 1) (U1 (FFun "ceil") (Ln "a" (Ix 1)));
    SetL "b" (Ix 2) (U1 (FFun "ceil") (Ln "a" (Ix 2)));
    SetL "b" (Ix 3) (U1 (FFun "ceil") (Ln "a" (Ix 3)))]
   ["b"];
  (* v4/v4_sse.h:1125-1125 *)
  fnc "cos" 1125 [("a", 4)]
   [SetL "b" (Ix 0) (U1 (FFun "cos") (Ln "a" (Ix 0)));
    SetL "b" (Ix 1) (U1 (FFun "cos") (Ln "a" (Ix 1)));
    SetL "b" (Ix 2) (U1 (FFun "cos") (Ln "a" (Ix 2)));
    SetL "b" (Ix 3) (U1 (FFun "cos") (Ln "a" (Ix 3)))]
   ["b"];
  (* v4/v4_sse.h:1125-1125 *)
  fnc "cosh" 1125 [("a", 4)]
   [SetL "b" (Ix 0) (U1 (FFun "cosh") (Ln "a" (Ix 0)));
    SetL "b" (Ix 1) (U1 (FFun "cosh") (Ln "a" (Ix 1)));
    SetL "b" (Ix 2) (U1 (FFun "cosh") (Ln "a" (Ix 2)));
    SetL "b" (Ix 3) (U1 (FFun "cosh") (Ln "a" (Ix 3)))]
   ["b"];
  (* v4/v4_sse.h:1125-1125 *)
  fnc "exp" 1125 [("a", 4)]
   [SetL "b" (Ix 0) (U1 (FFun "exp") (Ln "a" (Ix 0)));
    SetL "b" (Ix 1) (U1 (FFun "exp") (Ln "a" (Ix 1)));
    SetL "b" (Ix 2) (U1 (FFun "exp") (Ln "a" (Ix 2)));
    SetL "b" (Ix 3) (U1 (FFun "exp") (Ln "a" (Ix 3)))]
   ["b"];
  (* v4/v4_sse.h:1126-1126 *)
  fnc "floor" 1126 [("a", 4)]
   [SetL "b" (Ix 0) (U1 (FFun "floor") (Ln "a" (Ix 0)));
    SetL "b" (Ix 1) (U1 (FFun "floor") (Ln "a" (Ix 1)));
    SetL "b" (Ix 2) (U1 (FFun "floor") (Ln "a" (Ix 2)));
    SetL "b" (Ix 3) (U1 (FFun "floor") (Ln "a" (Ix 3)))]
   ["b"];
  (* v4/v4_sse.h:1126-1126 *)
  fnc "fmod" 1126 [("a", 4); ("b", 4)]
   [SetL "c" (Ix 0) (B2 (FFun2 "fmod") (Ln "a" (Ix 0)) (Ln "b" (Ix 0)));
    SetL "c" (Ix 1) (B2 (FFun2 "fmod") (Ln "a" (Ix 1)) (Ln "b" (Ix 1)));
    SetL "c" (Ix 2) (B2 (FFun2 "fmod") (Ln "a" (Ix 2)) (Ln "b" (Ix 2)));
    SetL "c" (Ix 3) (B2 (FFun2 "fmod") (Ln "a" (Ix 3)) (Ln "b" (Ix 3)))]
   ["c"];
  (* v4/v4_sse.h:1126-1126 *)
  fnc "log" 1126 [("a", 4)]
   [SetL "b" (Ix 0) (U1 (FFun "log") (Ln "a" (Ix 0)));
    SetL "b" (Ix 1) (U1 (FFun "log") (Ln "a" (Ix 1)));
    SetL "b" (Ix 2) (U1 (FFun "log") (Ln "a" (Ix 2)));
    SetL "b" (Ix 3) (U1 (FFun "log") (Ln "a" (Ix 3)))]
   ["b"];
  (* v4/v4_sse.h:1127-1127 *)
  fnc "log10" 1127 [("a", 4)]
   [SetL "b" (Ix 0) (U1 (FFun "log10") (Ln "a" (Ix 0)));
    SetL "b" (Ix 1) (U1 (FFun "log10") (Ln "a" (Ix 1)));
    SetL "b" (Ix 2) (U1 (FFun "log10") (Ln "a" (Ix 2)));
    SetL "b" (Ix 3) (U1 (FFun "log10") (Ln "a" (Ix 3)))]
   ["b"];
  (* v4/v4_sse.h:1127-1127 *)
  fnc "pow" 1127 [("a", 4); ("b", 4)]
   [SetL "c" (Ix 0) (B2 (FFun2 "pow") (Ln "a" (Ix 0)) (Ln "b" (Ix 0)));
    SetL "c" (Ix 1) (B2 (FFun2 "pow") (Ln "a" (Ix 1)) (Ln "b" (Ix 1)));
    SetL "c" (Ix 2) (B2 (FFun2 "pow") (Ln "a" (Ix 2)) (Ln "b" (Ix 2)));
    SetL "c" (Ix 3) (B2 (FFun2 "pow") (Ln "a" (Ix 3)) (Ln "b" (Ix 3)))]
   ["c"];
  (* v4/v4_sse.h:1127-1127 *)
  fnc "sin" 1127 [("a", 4)]
   [SetL "b" (Ix 0) (U1 (FFun "sin") (Ln "a" (Ix 0)));
    SetL "b" (Ix 1) (U1 (FFun "sin") (Ln "a" (Ix 1)));
    SetL "b" (Ix 2) (U1 (FFun "sin") (Ln "a" (Ix 2)));
    SetL "b" (Ix 3) (U1 (FFun "sin") (Ln "a" (Ix 3)))]
   ["b"];
  (* v4/v4_sse.h:1127-1127 *)
  fnc "sinh" 1127 [("a", 4)]
   [SetL "b" (Ix 0) (U1 (FFun "sinh") (Ln "a" (Ix 0)));
    SetL "b" (Ix 1) (U1 (FFun "sinh") (Ln "a" (Ix 1)));
    SetL "b" (Ix 2) (U1 (FFun "sinh") (Ln "a" (Ix 2)));
    SetL "b" (Ix 3) (U1 (FFun "sinh") (Ln "a" (Ix 3)))]
   ["b"];
  (* v4/v4_sse.h:1128-1128 *)
  fnc "tan" 1128 [("a", 4)]
   [SetL "b" (Ix 0) (U1 (FFun "tan") (Ln "a" (Ix 0)));
    SetL "b" (Ix 1) (U1 (FFun "tan") (Ln "a" (Ix 1)));
    SetL "b" (Ix 2) (U1 (FFun "tan") (Ln "a" (Ix 2)));
    SetL "b" (Ix 3) (U1 (FFun "tan") (Ln "a" (Ix 3)))]
   ["b"];
  (* v4/v4_sse.h:1128-1128 *)
  fnc "tanh" 1128 [("a", 4)]
   [SetL "b" (Ix 0) (U1 (FFun "tanh") (Ln "a" (Ix 0)));
    SetL "b" (Ix 1) (U1 (FFun "tanh") (Ln "a" (Ix 1)));
    SetL "b" (Ix 2) (U1 (FFun "tanh") (Ln "a" (Ix 2)));
    SetL "b" (Ix 3) (U1 (FFun "tanh") (Ln "a" (Ix 3)))]
   ["b"];
  (* v4/v4_sse.h:1133-1140 *)
  fnc "fabs" 1133 [("a", 4)]
   [SetV "b" (V2 VAndnot (VSet1 (Cst 2147483648)) (VReg "a"))]
   ["b"];
  (* v4/v4_sse.h:1142-1149 *)
  fnc "sqrt" 1142 [("a", 4)]
   [SetV "b" (V1 FSqrt (VReg "a"))]
   ["b"];
  (* v4/v4_sse.h:1151-1161 *)
  fnc "copysign" 1151 [("a", 4); ("b", 4)]
   [SetV "t" (VSet1 (Cst 2147483648));
    SetV "c" (V2 IOr (V2 IAnd (VReg "t") (VReg "b")) (V2 VAndnot (VReg "t") (VReg "a")))]
   ["c"];
  (* v4/v4_sse.h:1165-1172 *)
  fnc "rsqrt_approx" 1165 [("a", 4)]
   [SetV "b" (V1 FRsqrtE (VReg "a"))]
   ["b"];
  (* v4/v4_sse.h:1174-1194 *)
  fnc "rsqrt" 1174 [("a", 4)]
   [SetV "a_v" (VReg "a");
    SetV "b_v" (V1 FRsqrtE (VReg "a_v"));
    SetV "b" (V2 FAdd (VReg "b_v") (V2 FMul (VSet1 (Cst 1056964608)) (V2 FSub (VReg "b_v") (V2 FMul (VReg "a_v") (V2 FMul (VReg "b_v") (V2 FMul (VReg "b_v") (VReg "b_v")))))))]
   ["b"];
  (* v4/v4_sse.h:1210-1217 *)
  fnc "rcp_approx" 1210 [("a", 4)]
   [SetV "b" (V1 FRcpE (VReg "a"))]
   ["b"];
  (* v4/v4_sse.h:1219-1234 *)
  fnc "rcp" 1219 [("a", 4)]
   [SetV "a_v" (VReg "a");
    SetV "b_v" (V1 FRcpE (VReg "a_v"));
    SetV "b" (V2 FSub (V2 FAdd (VReg "b_v") (VReg "b_v")) (V2 FMul (VReg "a_v") (V2 FMul (VReg "b_v") (VReg "b_v"))))]
   ["b"];
  (* v4/v4_sse.h:1250-1257 *)
  fnc "fma" 1250 [("a", 4); ("b", 4); ("c", 4)]
   [SetV "d" (V2 FAdd (V2 FMul (VReg "a") (VReg "b")) (VReg "c"))]
   ["d"];
  (* v4/v4_sse.h:1259-1266 *)
  fnc "fms" 1259 [("a", 4); ("b", 4); ("c", 4)]
   [SetV "d" (V2 FSub (V2 FMul (VReg "a") (VReg "b")) (VReg "c"))]
   ["d"];
  (* v4/v4_sse.h:1268-1275 *)
  fnc "fnms" 1268 [("a", 4); ("b", 4); ("c", 4)]
   [SetV "d" (V2 FSub (VReg "c") (V2 FMul (VReg "a") (VReg "b")))]
   ["d"];
  (* v4/v4_sse.h:1277-1284 *)
  fnc "clear_bits" 1277 [("m", 4); ("a", 4)]
   [SetV "b" (V2 VAndnot (VReg "m") (VReg "a"))]
   ["b"];
  (* v4/v4_sse.h:1286-1293 *)
  fnc "set_bits" 1286 [("m", 4); ("a", 4)]
   [SetV "b" (V2 IOr (VReg "m") (VReg "a"))]
   ["b"];
  (* v4/v4_sse.h:1295-1302 *)
  fnc "toggle_bits" 1295 [("m", 4); ("a", 4)]
   [SetV "b" (V2 IXor (VReg "m") (VReg "a"))]
   ["b"];
  (* v4/v4_sse.h:1304-1308 *)
  fnc "increment" 1304 [("p", 4); ("a", 4)]
   [SetV "p" (V2 FAdd (VReg "p") (VReg "a"))]
   ["p"];
  (* v4/v4_sse.h:1310-1314 *)
  fnc "decrement" 1310 [("p", 4); ("a", 4)]
   [SetV "p" (V2 FSub (VReg "p") (VReg "a"))]
   ["p"];
  (* v4/v4_sse.h:1316-1320 *)
  fnc "scale" 1316 [("p", 4); ("a", 4)]
   [SetV "p" (V2 FMul (VReg "p") (VReg "a"))]
   ["p"];
  (* v4/v4_sse.h:513-514 *)
  fnc "int from copy" 513 [("a", 4)]
   [SetV "this" (VReg "a")]
   ["this"];
  (* v4/v4_sse.h:515-519 *)
  fnc "int from mixed" 515 [("a", 4)]
   [SetV "this" (VReg "a")]
   ["this"];
  (* v4/v4_sse.h:520-531 *)
  fnc "int from scalar" 520 [("a", 1)]
   [SetL "u" (Ix 0) (Ln "a" (Ix 0));
    SetV "this" (VSet1 (Ln "u" (Ix 0)))]
   ["this"];
  (* v4/v4_sse.h:903-904 *)
  fnc "float from copy" 903 [("a", 4)]
   [SetV "this" (VReg "a")]
   ["this"];
  (* v4/v4_sse.h:905-909 *)
  fnc "float from mixed" 905 [("a", 4)]
   [SetV "this" (VReg "a")]
   ["this"];
  (* v4/v4_sse.h:910-914 *)
  fnc "float from scalar" 910 [("a", 1)]
   [SetV "this" (VSet1 (Ln "a" (Ix 0)))]
   ["this"]].

(* src/util/v4/v4_sse.h:150-153 *)
Definition any_v4_sse : fn :=
  fnc "any" 150 [("a", 4)]
   [SetL "ret" (Ix 0) (B2 ILOr (B2 ILOr (B2 ILOr (Ln "a" (Ix 0)) (Ln "a" (Ix 1))) (Ln "a" (Ix 2))) (Ln "a" (Ix 3)))]
   ["ret"].

(* src/util/v4/v4_sse.h:155-158 *)
Definition all_v4_sse : fn :=
  fnc "all" 155 [("a", 4)]
   [SetL "ret" (Ix 0) (B2 ILAnd (B2 ILAnd (B2 ILAnd (Ln "a" (Ix 0)) (Ln "a" (Ix 1))) (Ln "a" (Ix 2))) (Ln "a" (Ix 3)))]
   ["ret"].

(* src/util/v4/v4_sse.h:160-168 *)
Definition splat_v4_sse (n : nat) : fn :=
  fnc "splat" 160 [("a", 4)]
   [SetV "b" (VShuf (VReg "a") (VReg "a") (n*(1 + 1*4 + 1*16 + 1*64))%nat)]
   ["b"].

(* src/util/v4/v4_sse.h:170-178 *)
Definition shuffle_v4_sse (i0 i1 i2 i3 : nat) : fn :=
  fnc "shuffle" 170 [("a", 4)]
   [SetV "b" (VShuf (VReg "a") (VReg "a") ((i0 + i1*4 + i2*16 + i3*64))%nat)]
   ["b"].

(* src/util/v4/v4_sse.h:1325-1351 *)
Definition trilinear_v4_sse : fn :=
  fnc "trilinear" 1325 [("wl", 4); ("wh", 4)]
   [SetV "l" (VSet1 (Cst 1065353216));
    SetV "s" (VSetr [(Cst 2147483648); (Cst 0); (Cst 2147483648); (Cst 0)]);
    SetV "z" (VReg "wl");
    SetV "xy" (V2 FAdd (VReg "l") (V2 IXor (VReg "s") (VShuf (VReg "z") (VReg "z") (0+0*4+1*16+1*64)%nat)));
    SetV "z" (V2 FAdd (VReg "l") (V2 IXor (VReg "s") (VShuf (VReg "z") (VReg "z") (2+2*4+2*16+2*64)%nat)));
    SetV "xy" (V2 FMul (VShuf (VReg "xy") (VReg "xy") (0+1*4+0*16+1*64)%nat) (VShuf (VReg "xy") (VReg "xy") (2+2*4+3*16+3*64)%nat));
    SetV "wl" (V2 FMul (VReg "xy") (VShuf (VReg "z") (VReg "z") (0+0*4+0*16+0*64)%nat));
    SetV "wh" (V2 FMul (VReg "xy") (VShuf (VReg "z") (VReg "z") (1+1*4+1*16+1*64)%nat))]
   ["wl"; "wh"].

(* src/util/v4/v4_sse.h:532-547 *)
Definition int_from_scalars_v4_sse : fn :=
  fnc "int from scalars" 532 [("i0", 1); ("i1", 1); ("i2", 1); ("i3", 1)]
   [SetL "u0" (Ix 0) (Ln "i0" (Ix 0));
    SetL "u1" (Ix 0) (Ln "i1" (Ix 0));
    SetL "u2" (Ix 0) (Ln "i2" (Ix 0));
    SetL "u3" (Ix 0) (Ln "i3" (Ix 0));
    SetV "this" (VSetr [(Ln "u0" (Ix 0)); (Ln "u1" (Ix 0)); (Ln "u2" (Ix 0)); (Ln "u3" (Ix 0))])]
   ["this"].

(* src/util/v4/v4_sse.h:915-919 *)
Definition float_from_scalars_v4_sse : fn :=
  fnc "float from scalars" 915 [("f0", 1); ("f1", 1); ("f2", 1); ("f3", 1)]
   [SetV "this" (VSetr [(Ln "f0" (Ix 0)); (Ln "f1" (Ix 0)); (Ln "f2" (Ix 0)); (Ln "f3" (Ix 0))])]
   ["this"].

(* src/util/v4/v4_avx.h *)
Definition ops_v4_avx : list fn := [
  (* v4/v4_avx.h:551-551 *)
  fnc "int +=" 551 [("this", 4); ("b", 4)]
   [SetL "this" (Ix 0) (B2 IAdd (Ln "this" (Ix 0)) (Ln "b" (Ix 0)));
    SetL "this" (Ix 1) (B2 IAdd (Ln "this" (Ix 1)) (Ln "b" (Ix 1)));
    SetL "this" (Ix 2) (B2 IAdd (Ln "this" (Ix 2)) (Ln "b" (Ix 2)));
    SetL "this" (Ix 3) (B2 IAdd (Ln "this" (Ix 3)) (Ln "b" (Ix 3)))]
   ["this"];
  (* v4/v4_avx.h:552-552 *)
  fnc "int -=" 552 [("this", 4); ("b", 4)]
   [SetL "this" (Ix 0) (B2 ISub (Ln "this" (Ix 0)) (Ln "b" (Ix 0)));
    SetL "this" (Ix 1) (B2 ISub (Ln "this" (Ix 1)) (Ln "b" (Ix 1)));
    SetL "this" (Ix 2) (B2 ISub (Ln "this" (Ix 2)) (Ln "b" (Ix 2)));
    SetL "this" (Ix 3) (B2 ISub (Ln "this" (Ix 3)) (Ln "b" (Ix 3)))]
   ["this"];
  (* v4/v4_avx.h:553-553 *)
  fnc "int *=" 553 [("this", 4); ("b", 4)]
   [SetL "this" (Ix 0) (B2 IMul (Ln "this" (Ix 0)) (Ln "b" (Ix 0)));
    SetL "this" (Ix 1) (B2 IMul (Ln "this" (Ix 1)) (Ln "b" (Ix 1)));
    SetL "this" (Ix 2) (B2 IMul (Ln "this" (Ix 2)) (Ln "b" (Ix 2)));
    SetL "this" (Ix 3) (B2 IMul (Ln "this" (Ix 3)) (Ln "b" (Ix 3)))]
   ["this"];
  (* v4/v4_avx.h:554-554 *)
  fnc "int /=" 554 [("this", 4); ("b", 4)]
   [SetL "this" (Ix 0) (B2 IDiv (Ln "this" (Ix 0)) (Ln "b" (Ix 0)));
    SetL "this" (Ix 1) (B2 IDiv (Ln "this" (Ix 1)) (Ln "b" (Ix 1)));
    SetL "this" (Ix 2) (B2 IDiv (Ln "this" (Ix 2)) (Ln "b" (Ix 2)));
    SetL "this" (Ix 3) (B2 IDiv (Ln "this" (Ix 3)) (Ln "b" (Ix 3)))]
   ["this"];
  (* v4/v4_avx.h:555-555 *)
  fnc "int %=" 555 [("this", 4); ("b", 4)]
   [SetL "this" (Ix 0) (B2 IMod (Ln "this" (Ix 0)) (Ln "b" (Ix 0)));
    SetL "this" (Ix 1) (B2 IMod (Ln "this" (Ix 1)) (Ln "b" (Ix 1)));
    SetL "this" (Ix 2) (B2 IMod (Ln "this" (Ix 2)) (Ln "b" (Ix 2)));
    SetL "this" (Ix 3) (B2 IMod (Ln "this" (Ix 3)) (Ln "b" (Ix 3)))]
   ["this"];
  (* v4/v4_avx.h:556-556 *)
  fnc "int <<=" 556 [("this", 4); ("b", 4)]
   [SetL "this" (Ix 0) (B2 IShl (Ln "this" (Ix 0)) (Ln "b" (Ix 0)));
    SetL "this" (Ix 1) (B2 IShl (Ln "this" (Ix 1)) (Ln "b" (Ix 1)));
    SetL "this" (Ix 2) (B2 IShl (Ln "this" (Ix 2)) (Ln "b" (Ix 2)));
    SetL "this" (Ix 3) (B2 IShl (Ln "this" (Ix 3)) (Ln "b" (Ix 3)))]
   ["this"];
  (* v4/v4_avx.h:557-557 *)
  fnc "int >>=" 557 [("this", 4); ("b", 4)]
   [SetL "this" (Ix 0) (B2 IShr (Ln "this" (Ix 0)) (Ln "b" (Ix 0)));
    SetL "this" (Ix 1) (B2 IShr (Ln "this" (Ix 1)) (Ln "b" (Ix 1)));
    SetL "this" (Ix 2) (B2 IShr (Ln "this" (Ix 2)) (Ln "b" (Ix 2)));
    SetL "this" (Ix 3) (B2 IShr (Ln "this" (Ix 3)) (Ln "b" (Ix 3)))]
   ["this"];
  (* v4/v4_avx.h:561-566 *)
  fnc "int =" 561 [("this", 4); ("b", 4)]
   [SetV "this" (VReg "b")]
   ["this"];
  (* v4/v4_avx.h:568-573 *)
  fnc "int ^=" 568 [("this", 4); ("b", 4)]
   [SetV "this" (V2 IXor (VReg "this") (VReg "b"))]
   ["this"];
  (* v4/v4_avx.h:575-580 *)
  fnc "int &=" 575 [("this", 4); ("b", 4)]
   [SetV "this" (V2 IAnd (VReg "this") (VReg "b"))]
   ["this"];
  (* v4/v4_avx.h:582-587 *)
  fnc "int |=" 582 [("this", 4); ("b", 4)]
   [SetV "this" (V2 IOr (VReg "this") (VReg "b"))]
   ["this"];
  (* v4/v4_avx.h:615-622 *)
  fnc "int unary+" 615 [("a", 4)]
   [SetV "b" (VReg "a")]
   ["b"];
  (* v4/v4_avx.h:624-624 *)
  fnc "int unary-" 624 [("a", 4)]
   [SetL "b" (Ix 0) (U1 INeg (Ln "a" (Ix 0)));
    SetL "b" (Ix 1) (U1 INeg (Ln "a" (Ix 1)));
    SetL "b" (Ix 2) (U1 INeg (Ln "a" (Ix 2)));
    SetL "b" (Ix 3) (U1 INeg (Ln "a" (Ix 3)))]
   ["b"];
  (* v4/v4_avx.h:626-636 *)
  fnc "int !" 626 [("a", 4)]
   [SetL "b" (Ix 0) (U1 INeg (U1 ILNot (Ln "a" (Ix 0))));
    SetL "b" (Ix 1) (U1 INeg (U1 ILNot (Ln "a" (Ix 1))));
    SetL "b" (Ix 2) (U1 INeg (U1 ILNot (Ln "a" (Ix 2))));
    SetL "b" (Ix 3) (U1 INeg (U1 ILNot (Ln "a" (Ix 3))))]
   ["b"];
  (* v4/v4_avx.h:638-653 *)
  fnc "int ~" 638 [("a", 4)]
   [SetL "u" (Ix 0) (Cst 4294967295);
    SetV "b" (V2 IXor (VReg "a") (VSet1 (Ln "u" (Ix 0))))]
   ["b"];
  (* v4/v4_avx.h:670-670 *)
  fnc "int pre++" 670 [("a", 4)]
   [SetL "a" (Ix 0) (B2 IAdd (Ln "a" (Ix 0)) (Cst 1));
    SetL "b" (Ix 0) (Ln "a" (Ix 0));
    SetL "a" (Ix 1) (B2 IAdd (Ln "a" (Ix 1)) (Cst 1));
    SetL "b" (Ix 1) (Ln "a" (Ix 1));
    SetL "a" (Ix 2) (B2 IAdd (Ln "a" (Ix 2)) (Cst 1));
    SetL "b" (Ix 2) (Ln "a" (Ix 2));
    SetL "a" (Ix 3) (B2 IAdd (Ln "a" (Ix 3)) (Cst 1));
    SetL "b" (Ix 3) (Ln "a" (Ix 3))]
   ["b"; "a"];
  (* v4/v4_avx.h:671-671 *)
  fnc "int pre--" 671 [("a", 4)]
   [SetL "a" (Ix 0) (B2 ISub (Ln "a" (Ix 0)) (Cst 1));
    SetL "b" (Ix 0) (Ln "a" (Ix 0));
    SetL "a" (Ix 1) (B2 ISub (Ln "a" (Ix 1)) (Cst 1));
    SetL "b" (Ix 1) (Ln "a" (Ix 1));
    SetL "a" (Ix 2) (B2 ISub (Ln "a" (Ix 2)) (Cst 1));
    SetL "b" (Ix 2) (Ln "a" (Ix 2));
    SetL "a" (Ix 3) (B2 ISub (Ln "a" (Ix 3)) (Cst 1));
    SetL "b" (Ix 3) (Ln "a" (Ix 3))]
   ["b"; "a"];
  (* v4/v4_avx.h:688-688 *)
  fnc "int post++" 688 [("a", 4)]
   [SetL "b" (Ix 0) (Ln "a" (Ix 0));
    SetL "a" (Ix 0) (B2 IAdd (Ln "a" (Ix 0)) (Cst 1));
    SetL "b" (Ix 1) (Ln "a" (Ix 1));
    SetL "a" (Ix 1) (B2 IAdd (Ln "a" (Ix 1)) (Cst 1));
    SetL "b" (Ix 2) (Ln "a" (Ix 2));
    SetL "a" (Ix 2) (B2 IAdd (Ln "a" (Ix 2)) (Cst 1));
    SetL "b" (Ix 3) (Ln "a" (Ix 3));
    SetL "a" (Ix 3) (B2 IAdd (Ln "a" (Ix 3)) (Cst 1))]
   ["b"; "a"];
  (* v4/v4_avx.h:689-689 *)
  fnc "int post--" 689 [("a", 4)]
   [SetL "b" (Ix 0) (Ln "a" (Ix 0));
    SetL "a" (Ix 0) (B2 ISub (Ln "a" (Ix 0)) (Cst 1));
    SetL "b" (Ix 1) (Ln "a" (Ix 1));
    SetL "a" (Ix 1) (B2 ISub (Ln "a" (Ix 1)) (Cst 1));
    SetL "b" (Ix 2) (Ln "a" (Ix 2));
    SetL "a" (Ix 2) (B2 ISub (Ln "a" (Ix 2)) (Cst 1));
    SetL "b" (Ix 3) (Ln "a" (Ix 3));
    SetL "a" (Ix 3) (B2 ISub (Ln "a" (Ix 3)) (Cst 1))]
   ["b"; "a"];
  (* v4/v4_avx.h:706-706 *)
  fnc "int +" 706 [("a", 4); ("b", 4)]
   [SetL "c" (Ix 0) (B2 IAdd (Ln "a" (Ix 0)) (Ln "b" (Ix 0)));
    SetL "c" (Ix 1) (B2 IAdd (Ln "a" (Ix 1)) (Ln "b" (Ix 1)));
    SetL "c" (Ix 2) (B2 IAdd (Ln "a" (Ix 2)) (Ln "b" (Ix 2)));
    SetL "c" (Ix 3) (B2 IAdd (Ln "a" (Ix 3)) (Ln "b" (Ix 3)))]
   ["c"];
  (* v4/v4_avx.h:707-707 *)
  fnc "int -" 707 [("a", 4); ("b", 4)]
   [SetL "c" (Ix 0) (B2 ISub (Ln "a" (Ix 0)) (Ln "b" (Ix 0)));
    SetL "c" (Ix 1) (B2 ISub (Ln "a" (Ix 1)) (Ln "b" (Ix 1)));
    SetL "c" (Ix 2) (B2 ISub (Ln "a" (Ix 2)) (Ln "b" (Ix 2)));
    SetL "c" (Ix 3) (B2 ISub (Ln "a" (Ix 3)) (Ln "b" (Ix 3)))]
   ["c"];
  (* v4/v4_avx.h:708-708 *)
  fnc "int *" 708 [("a", 4); ("b", 4)]
   [SetL "c" (Ix 0) (B2 IMul (Ln "a" (Ix 0)) (Ln "b" (Ix 0)));
    SetL "c" (Ix 1) (B2 IMul (Ln "a" (Ix 1)) (Ln "b" (Ix 1)));
    SetL "c" (Ix 2) (B2 IMul (Ln "a" (Ix 2)) (Ln "b" (Ix 2)));
    SetL "c" (Ix 3) (B2 IMul (Ln "a" (Ix 3)) (Ln "b" (Ix 3)))]
   ["c"];
  (* v4/v4_avx.h:709-709 *)
  fnc "int /" 709 [("a", 4); ("b", 4)]
   [SetL "c" (Ix 0) (B2 IDiv (Ln "a" (Ix 0)) (Ln "b" (Ix 0)));
    SetL "c" (Ix 1) (B2 IDiv (Ln "a" (Ix 1)) (Ln "b" (Ix 1)));
    SetL "c" (Ix 2) (B2 IDiv (Ln "a" (Ix 2)) (Ln "b" (Ix 2)));
    SetL "c" (Ix 3) (B2 IDiv (Ln "a" (Ix 3)) (Ln "b" (Ix 3)))]
   ["c"];
  (* v4/v4_avx.h:710-710 *)
  fnc "int %" 710 [("a", 4); ("b", 4)]
   [SetL "c" (Ix 0) (B2 IMod (Ln "a" (Ix 0)) (Ln "b" (Ix 0)));
    SetL "c" (Ix 1) (B2 IMod (Ln "a" (Ix 1)) (Ln "b" (Ix 1)));
    SetL "c" (Ix 2) (B2 IMod (Ln "a" (Ix 2)) (Ln "b" (Ix 2)));
    SetL "c" (Ix 3) (B2 IMod (Ln "a" (Ix 3)) (Ln "b" (Ix 3)))]
   ["c"];
  (* v4/v4_avx.h:711-711 *)
  fnc "int <<" 711 [("a", 4); ("b", 4)]
   [SetL "c" (Ix 0) (B2 IShl (Ln "a" (Ix 0)) (Ln "b" (Ix 0)));
    SetL "c" (Ix 1) (B2 IShl (Ln "a" (Ix 1)) (Ln "b" (Ix 1)));
    SetL "c" (Ix 2) (B2 IShl (Ln "a" (Ix 2)) (Ln "b" (Ix 2)));
    SetL "c" (Ix 3) (B2 IShl (Ln "a" (Ix 3)) (Ln "b" (Ix 3)))]
   ["c"];
  (* v4/v4_avx.h:712-712 *)
  fnc "int >>" 712 [("a", 4); ("b", 4)]
   [SetL "c" (Ix 0) (B2 IShr (Ln "a" (Ix 0)) (Ln "b" (Ix 0)));
    SetL "c" (Ix 1) (B2 IShr (Ln "a" (Ix 1)) (Ln "b" (Ix 1)));
    SetL "c" (Ix 2) (B2 IShr (Ln "a" (Ix 2)) (Ln "b" (Ix 2)));
    SetL "c" (Ix 3) (B2 IShr (Ln "a" (Ix 3)) (Ln "b" (Ix 3)))]
   ["c"];
  (* v4/v4_avx.h:716-723 *)
  fnc "int ^" 716 [("a", 4); ("b", 4)]
   [SetV "c" (V2 IXor (VReg "a") (VReg "b"))]
   ["c"];
  (* v4/v4_avx.h:725-732 *)
  fnc "int &" 725 [("a", 4); ("b", 4)]
   [SetV "c" (V2 IAnd (VReg "a") (VReg "b"))]
   ["c"];
  (* v4/v4_avx.h:734-741 *)
  fnc "int |" 734 [("a", 4); ("b", 4)]
   [SetV "c" (V2 IOr (VReg "a") (VReg "b"))]
   ["c"];
  (* v4/v4_avx.h:756-756 *)
  fnc "int <" 756 [("a", 4); ("b", 4)]
   [SetL "c" (Ix 0) (U1 INeg (B2 ILt (Ln "a" (Ix 0)) (Ln "b" (Ix 0))));
    SetL "c" (Ix 1) (U1 INeg (B2 ILt (Ln "a" (Ix 1)) (Ln "b" (Ix 1))));
    SetL "c" (Ix 2) (U1 INeg (B2 ILt (Ln "a" (Ix 2)) (Ln "b" (Ix 2))));
    SetL "c" (Ix 3) (U1 INeg (B2 ILt (Ln "a" (Ix 3)) (Ln "b" (Ix 3))))]
   ["c"];
  (* v4/v4_avx.h:757-757 *)
  fnc "int >" 757 [("a", 4); ("b", 4)]
   [SetL "c" (Ix 0) (U1 INeg (B2 IGt (Ln "a" (Ix 0)) (Ln "b" (Ix 0))));
    SetL "c" (Ix 1) (U1 INeg (B2 IGt (Ln "a" (Ix 1)) (Ln "b" (Ix 1))));
    SetL "c" (Ix 2) (U1 INeg (B2 IGt (Ln "a" (Ix 2)) (Ln "b" (Ix 2))));
    SetL "c" (Ix 3) (U1 INeg (B2 IGt (Ln "a" (Ix 3)) (Ln "b" (Ix 3))))]
   ["c"];
  (* v4/v4_avx.h:758-758 *)
  fnc "int ==" 758 [("a", 4); ("b", 4)]
   [SetL "c" (Ix 0) (U1 INeg (B2 IEq (Ln "a" (Ix 0)) (Ln "b" (Ix 0))));
    SetL "c" (Ix 1) (U1 INeg (B2 IEq (Ln "a" (Ix 1)) (Ln "b" (Ix 1))));
    SetL "c" (Ix 2) (U1 INeg (B2 IEq (Ln "a" (Ix 2)) (Ln "b" (Ix 2))));
    SetL "c" (Ix 3) (U1 INeg (B2 IEq (Ln "a" (Ix 3)) (Ln "b" (Ix 3))))]
   ["c"];
  (* v4/v4_avx.h:759-759 *)
  fnc "int !=" 759 [("a", 4); ("b", 4)]
   [SetL "c" (Ix 0) (U1 INeg (B2 INe (Ln "a" (Ix 0)) (Ln "b" (Ix 0))));
    SetL "c" (Ix 1) (U1 INeg (B2 INe (Ln "a" (Ix 1)) (Ln "b" (Ix 1))));
    SetL "c" (Ix 2) (U1 INeg (B2 INe (Ln "a" (Ix 2)) (Ln "b" (Ix 2))));
    SetL "c" (Ix 3) (U1 INeg (B2 INe (Ln "a" (Ix 3)) (Ln "b" (Ix 3))))]
   ["c"];
  (* v4/v4_avx.h:760-760 *)
  fnc "int <=" 760 [("a", 4); ("b", 4)]
   [SetL "c" (Ix 0) (U1 INeg (B2 ILe (Ln "a" (Ix 0)) (Ln "b" (Ix 0))));
    SetL "c" (Ix 1) (U1 INeg (B2 ILe (Ln "a" (Ix 1)) (Ln "b" (Ix 1))));
    SetL "c" (Ix 2) (U1 INeg (B2 ILe (Ln "a" (Ix 2)) (Ln "b" (Ix 2))));
    SetL "c" (Ix 3) (U1 INeg (B2 ILe (Ln "a" (Ix 3)) (Ln "b" (Ix 3))))]
   ["c"];
  (* v4/v4_avx.h:761-761 *)
  fnc "int >=" 761 [("a", 4); ("b", 4)]
   [SetL "c" (Ix 0) (U1 INeg (B2 IGe (Ln "a" (Ix 0)) (Ln "b" (Ix 0))));
    SetL "c" (Ix 1) (U1 INeg (B2 IGe (Ln "a" (Ix 1)) (Ln "b" (Ix 1))));
    SetL "c" (Ix 2) (U1 INeg (B2 IGe (Ln "a" (Ix 2)) (Ln "b" (Ix 2))));
    SetL "c" (Ix 3) (U1 INeg (B2 IGe (Ln "a" (Ix 3)) (Ln "b" (Ix 3))))]
   ["c"];
  (* v4/v4_avx.h:762-762 *)
  fnc "int &&" 762 [("a", 4); ("b", 4)]
   [SetL "c" (Ix 0) (U1 INeg (B2 ILAnd (Ln "a" (Ix 0)) (Ln "b" (Ix 0))));
    SetL "c" (Ix 1) (U1 INeg (B2 ILAnd (Ln "a" (Ix 1)) (Ln "b" (Ix 1))));
    SetL "c" (Ix 2) (U1 INeg (B2 ILAnd (Ln "a" (Ix 2)) (Ln "b" (Ix 2))));
    SetL "c" (Ix 3) (U1 INeg (B2 ILAnd (Ln "a" (Ix 3)) (Ln "b" (Ix 3))))]
   ["c"];
  (* v4/v4_avx.h:763-763 *)
  fnc "int ||" 763 [("a", 4); ("b", 4)]
   [SetL "c" (Ix 0) (U1 INeg (B2 ILOr (Ln "a" (Ix 0)) (Ln "b" (Ix 0))));
    SetL "c" (Ix 1) (U1 INeg (B2 ILOr (Ln "a" (Ix 1)) (Ln "b" (Ix 1))));
    SetL "c" (Ix 2) (U1 INeg (B2 ILOr (Ln "a" (Ix 2)) (Ln "b" (Ix 2))));
    SetL "c" (Ix 3) (U1 INeg (B2 ILOr (Ln "a" (Ix 3)) (Ln "b" (Ix 3))))]
   ["c"];
  (* v4/v4_avx.h:769-779 *)
  fnc "int abs" 769 [("a", 4)]
   [SetL "b" (Ix 0) (Cond (B2 IGe (Ln "a" (Ix 0)) (Cst 0)) (Ln "a" (Ix 0)) (U1 INeg (Ln "a" (Ix 0))));
    SetL "b" (Ix 1) (Cond (B2 IGe (Ln "a" (Ix 1)) (Cst 0)) (Ln "a" (Ix 1)) (U1 INeg (Ln "a" (Ix 1))));
    SetL "b" (Ix 2) (Cond (B2 IGe (Ln "a" (Ix 2)) (Cst 0)) (Ln "a" (Ix 2)) (U1 INeg (Ln "a" (Ix 2))));
    SetL "b" (Ix 3) (Cond (B2 IGe (Ln "a" (Ix 3)) (Cst 0)) (Ln "a" (Ix 3)) (U1 INeg (Ln "a" (Ix 3))))]
   ["b"];
  (* v4/v4_avx.h:781-788 *)
  fnc "czero" 781 [("c", 4); ("a", 4)]
   [SetV "b" (V2 VAndnot (VReg "c") (VReg "a"))]
   ["b"];
  (* v4/v4_avx.h:790-797 *)
  fnc "notczero" 790 [("c", 4); ("a", 4)]
   [SetV "b" (V2 IAnd (VReg "c") (VReg "a"))]
   ["b"];
  (* v4/v4_avx.h:799-809 *)
  fnc "merge" 799 [("c", 4); ("t", 4); ("f", 4)]
   [SetV "c_v" (VReg "c");
    SetV "tf" (V2 IOr (V2 VAndnot (VReg "c_v") (VReg "f")) (V2 IAnd (VReg "c_v") (VReg "t")))]
   ["tf"];
  (* v4/v4_avx.h:920-920 *)
  fnc "float +=" 920 [("this", 4); ("b", 4)]
   [SetV "this" (V2 FAdd (VReg "this") (VReg "b"))]
   ["this"];
  (* v4/v4_avx.h:921-921 *)
  fnc "float -=" 921 [("this", 4); ("b", 4)]
   [SetV "this" (V2 FSub (VReg "this") (VReg "b"))]
   ["this"];
  (* v4/v4_avx.h:922-922 *)
  fnc "float *=" 922 [("this", 4); ("b", 4)]
   [SetV "this" (V2 FMul (VReg "this") (VReg "b"))]
   ["this"];
  (* v4/v4_avx.h:923-923 *)
  fnc "float /=" 923 [("this", 4); ("b", 4)]
   [SetV "this" (V2 FDiv (VReg "this") (VReg "b"))]
   ["this"];
  (* v4/v4_avx.h:927-932 *)
  fnc "float =" 927 [("this", 4); ("b", 4)]
   [SetV "this" (VReg "b")]
   ["this"];
  (* v4/v4_avx.h:949-956 *)
  fnc "float unary+" 949 [("a", 4)]
   [SetV "b" (VReg "a")]
   ["b"];
  (* v4/v4_avx.h:958-965 *)
  fnc "float unary-" 958 [("a", 4)]
   [SetV "b" (V2 FSub (VSet1 (Cst 0)) (VReg "a"))]
   ["b"];
  (* v4/v4_avx.h:967-974 *)
  fnc "float !" 967 [("a", 4)]
   [SetV "b" (V2 (VCmp CEq) (VSet1 (Cst 0)) (VReg "a"))]
   ["b"];
  (* v4/v4_avx.h:978-988 *)
  fnc "float pre++" 978 [("a", 4)]
   [SetV "t" (V2 FAdd (VReg "a") (VSet1 (Cst 1065353216)));
    SetV "a" (VReg "t");
    SetV "b" (VReg "t")]
   ["b"; "a"];
  (* v4/v4_avx.h:990-1000 *)
  fnc "float pre--" 990 [("a", 4)]
   [SetV "t" (V2 FSub (VReg "a") (VSet1 (Cst 1065353216)));
    SetV "a" (VReg "t");
    SetV "b" (VReg "t")]
   ["b"; "a"];
  (* v4/v4_avx.h:1004-1014 *)
  fnc "float post++" 1004 [("a", 4)]
   [SetV "a_v" (VReg "a");
    SetV "a" (V2 FAdd (VReg "a_v") (VSet1 (Cst 1065353216)));
    SetV "b" (VReg "a_v")]
   ["b"; "a"];
  (* v4/v4_avx.h:1016-1026 *)
  fnc "float post--" 1016 [("a", 4)]
   [SetV "a_v" (VReg "a");
    SetV "a" (V2 FSub (VReg "a_v") (VSet1 (Cst 1065353216)));
    SetV "b" (VReg "a_v")]
   ["b"; "a"];
  (* v4/v4_avx.h:1038-1038 *)
  fnc "float +" 1038 [("a", 4); ("b", 4)]
   [SetV "c" (V2 FAdd (VReg "a") (VReg "b"))]
   ["c"];
  (* v4/v4_avx.h:1039-1039 *)
  fnc "float -" 1039 [("a", 4); ("b", 4)]
   [SetV "c" (V2 FSub (VReg "a") (VReg "b"))]
   ["c"];
  (* v4/v4_avx.h:1040-1040 *)
  fnc "float *" 1040 [("a", 4); ("b", 4)]
   [SetV "c" (V2 FMul (VReg "a") (VReg "b"))]
   ["c"];
  (* v4/v4_avx.h:1041-1041 *)
  fnc "float /" 1041 [("a", 4); ("b", 4)]
   [SetV "c" (V2 FDiv (VReg "a") (VReg "b"))]
   ["c"];
  (* v4/v4_avx.h:1055-1055 *)
  fnc "float <" 1055 [("a", 4); ("b", 4)]
   [SetV "c" (V2 (VCmp CLt) (VReg "a") (VReg "b"))]
   ["c"];
  (* v4/v4_avx.h:1056-1056 *)
  fnc "float >" 1056 [("a", 4); ("b", 4)]
   [SetV "c" (V2 (VCmp CGt) (VReg "a") (VReg "b"))]
   ["c"];
  (* v4/v4_avx.h:1057-1057 *)
  fnc "float ==" 1057 [("a", 4); ("b", 4)]
   [SetV "c" (V2 (VCmp CEq) (VReg "a") (VReg "b"))]
   ["c"];
  (* v4/v4_avx.h:1058-1058 *)
  fnc "float <=" 1058 [("a", 4); ("b", 4)]
   [SetV "c" (V2 (VCmp CLe) (VReg "a") (VReg "b"))]
   ["c"];
  (* v4/v4_avx.h:1059-1059 *)
  fnc "float >=" 1059 [("a", 4); ("b", 4)]
   [SetV "c" (V2 (VCmp CGe) (VReg "a") (VReg "b"))]
   ["c"];
  (* v4/v4_avx.h:1060-1060 *)
  fnc "float !=" 1060 [("a", 4); ("b", 4)]
   [SetV "c" (V2 (VCmp CNe) (VReg "a") (VReg "b"))]
   ["c"];
  (* v4/v4_avx.h:1064-1074 *)
  fnc "float &&" 1064 [("a", 4); ("b", 4)]
   [SetV "vzero" (VSet1 (Cst 0));
    SetV "c" (V2 IAnd (V2 (VCmp CNe) (VReg "a") (VReg "vzero")) (V2 (VCmp CNe) (VReg "b") (VReg "vzero")))]
   ["c"];
  (* v4/v4_avx.h:1076-1086 *)
  fnc "float ||" 1076 [("a", 4); ("b", 4)]
   [SetV "vzero" (VSet1 (Cst 0));
    SetV "c" (V2 IOr (V2 (VCmp CNe) (VReg "a") (VReg "vzero")) (V2 (VCmp CNe) (VReg "b") (VReg "vzero")))]
   ["c"];
  (* v4/v4_avx.h:1112-1112 *)
  fnc "acos" 1112 [("a", 4)]
   [SetL "b" (Ix 0) (U1 (FFun "acos") (Ln "a" (Ix 0)));
    SetL "b" (Ix 1) (U1 (FFun "acos") (Ln "a" (Ix 1)));
    SetL "b" (Ix 2) (U1 (FFun "acos") (Ln "a" (Ix 2)));
    SetL "b" (Ix 3) (U1 (FFun "acos") (Ln "a" (Ix 3)))]
   ["b"];
  (* v4/v4_avx.h:1112-1112 *)
  fnc "asin" 1112 [("a", 4)]
   [SetL "b" (Ix 0) (U1 (FFun "asin") (Ln "a" (Ix 0)));
    SetL "b" (Ix 1) (U1 (FFun "asin") (Ln "a" (Ix 1)));
    SetL "b" (Ix 2) (U1 (FFun "asin") (Ln "a" (Ix 2)));
    SetL "b" (Ix 3) (U1 (FFun "asin") (Ln "a" (Ix 3)))]
   ["b"];
  (* v4/v4_avx.h:1112-1112 *)
  fnc "atan" 1112 [("a", 4)]
   [SetL "b" (Ix 0) (U1 (FFun "atan") (Ln "a" (Ix 0)));
    SetL "b" (Ix 1) (U1 (FFun "atan") (Ln "a" (Ix 1)));
    SetL "b" (Ix 2) (U1 (FFun "atan") (Ln "a" (Ix 2)));
    SetL "b" (Ix 3) (U1 (FFun "atan") (Ln "a" (Ix 3)))]
   ["b"];
  (* v4/v4_avx.h:1112-1112 *)
  fnc "atan2" 1112 [("a", 4); ("b", 4)]
   [SetL "c" (Ix 0) (B2 (FFun2 "atan2") (Ln "a" (Ix 0)) (Ln "b" (Ix 0)));
    SetL "c" (Ix 1) (B2 (FFun2 "atan2") (Ln "a" (Ix 1)) (Ln "b" (Ix 1)));
    SetL "c" (Ix 2) (B2 (FFun2 "atan2") (Ln "a" (Ix 2)) (Ln "b" (Ix 2)));
    SetL "c" (Ix 3) (B2 (FFun2 "atan2") (Ln "a" (Ix 3)) (Ln "b" (Ix 3)))]
   ["c"];
  (* v4/v4_avx.h:1113-1113 *)
  fnc "ceil" 1113 [("a", 4)]
   [SetL "b" (Ix 0) (U1 (FFun "ceil") (Ln "a" (Ix 0)));
    SetL "b" (Ix 1) (U1 (FFun "ceil") (Ln "a" (Ix 1)));
    SetL "b" (Ix 2) (U1 (FFun "ceil") (Ln "a" (Ix 2)));
    SetL "b" (Ix 3) (U1 (FFun "ceil") (Ln "a" (Ix 3)))]
   ["b"];
  (* v4/v4_avx.h:1113-1113 *)
  fnc "cos" 1113 [("a", 4)]
   [SetL "b" (Ix 0) (U1 (FFun "cos") (Ln "a" (Ix 0)));
    SetL "b" (Ix 1) (U1 (FFun "cos") (Ln "a" (Ix 1)));
    SetL "b" (Ix 2) (U1 (FFun "cos") (Ln "a" (Ix 2)));
    SetL "b" (Ix 3) (U1 (FFun "cos") (Ln "a" (Ix 3)))]
   ["b"];
  (* v4/v4_avx.h:1113-1113 *)
  fnc "cosh" 1113 [("a", 4)]
   [SetL "b" (Ix 0) (U1 (FFun "cosh") (Ln "a" (Ix 0)));
    SetL "b" (Ix 1) (U1 (FFun "cosh") (Ln "a" (Ix 1)));
    SetL "b" (Ix 2) (U1 (FFun "cosh") (Ln "a" (Ix 2)));
    SetL "b" (Ix 3) (U1 (FFun "cosh") (Ln "a" (Ix 3)))]
   ["b"];
  (* v4/v4_avx.h:1113-1113 *)
  fnc "exp" 1113 [("a", 4)]
   [SetL "b" (Ix 0) (U1 (FFun "exp") (Ln "a" (Ix 0)));
    SetL "b" (Ix 1) (U1 (FFun "exp") (Ln "a" (Ix 1)));
    SetL "b" (Ix 2) (U1 (FFun "exp") (Ln "a" (Ix 2)));
    SetL "b" (Ix 3) (U1 (FFun "exp") (Ln "a" (Ix 3)))]
   ["b"];
  (* v4/v4_avx.h:1114-1114 *)
  fnc "floor" 1114 [("a", 4)]
   [SetL "b" (Ix 0) (U1 (FFun "floor") (Ln "a" (Ix 0)));
    SetL "b" (Ix 1) (U1 (FFun "floor") (Ln "a" (Ix 1)));
    SetL "b" (Ix 2) (U1 (FFun "floor") (Ln "a" (Ix 2)));
    SetL "b" (Ix 3) (U1 (FFun "floor") (Ln "a" (Ix 3)))]
   ["b"];
  (* v4/v4_avx.h:1114-1114 *)
  fnc "fmod" 1114 [("a", 4); ("b", 4)]
   [SetL "c" (Ix 0) (B2 (FFun2 "fmod") (Ln "a" (Ix 0)) (Ln "b" (Ix 0)));
    SetL "c" (Ix 1) (B2 (FFun2 "fmod") (Ln "a" (Ix 1)) (Ln "b" (Ix 1)));
    SetL "c" (Ix 2) (B2 (FFun2 "fmod") (Ln "a" (Ix 2)) (Ln "b" (Ix 2)));
    SetL "c" (Ix 3) (B2 (FFun2 "fmod") (Ln "a" (Ix 3)) (Ln "b" (Ix 3)))]
   ["c"];
  (* v4/v4_avx.h:1114-1114 *)
  fnc "log" 1114 [("a", 4)]
   [SetL "b" (Ix 0) (U1 (FFun "log") (Ln "a" (Ix 0)));
    SetL "b" (Ix 1) (U1 (FFun "log") (Ln "a" (Ix 1)));
    SetL "b" (Ix 2) (U1 (FFun "log") (Ln "a" (Ix 2)));
    SetL "b" (Ix 3) (U1 (FFun "log") (Ln "a" (Ix 3)))]
   ["b"];
  (* v4/v4_avx.h:1115-1115 *)
  fnc "log10" 1115 [("a", 4)]
   [SetL "b" (Ix 0) (U1 (FFun "log10") (Ln "a" (Ix 0)));
    SetL "b" (Ix 1) (U1 (FFun "log10") (Ln "a" (Ix 1)));
    SetL "b" (Ix 2) (U1 (FFun "log10") (Ln "a" (Ix 2)));
    SetL "b" (Ix 3) (U1 (FFun "log10") (Ln "a" (Ix 3)))]
   ["b"];
  (* v4/v4_avx.h:1115-1115 *)
  fnc "pow" 1115 [("a", 4); ("b", 4)]
   [SetL "c" (Ix 0) (B2 (FFun2 "pow") (Ln "a" (Ix 0)) (Ln "b" (Ix 0)));
    SetL "c" (Ix 1) (B2 (FFun2 "pow") (Ln "a" (Ix 1)) (Ln "b" (Ix 1)));
    SetL "c" (Ix 2) (B2 (FFun2 "pow") (Ln "a" (Ix 2)) (Ln "b" (Ix 2)));
    SetL "c" (Ix 3) (B2 (FFun2 "pow") (Ln "a" (Ix 3)) (Ln "b" (Ix 3)))]
   ["c"];
  (* v4/v4_avx.h:1115-1115 *)
  fnc "sin" 1115 [("a", 4)]
   [SetL "b" (Ix 0) (U1 (FFun "sin") (Ln "a" (Ix 0)));
    SetL "b" (Ix 1) (U1 (FFun "sin") (Ln "a" (Ix 1)));
    SetL "b" (Ix 2) (U1 (FFun "sin") (Ln "a" (Ix 2)));
    SetL "b" (Ix 3) (U1 (FFun "sin") (Ln "a" (Ix 3)))]
   ["b"];
  (* v4/v4_avx.h:1115-1115 *)
  fnc "sinh" 1115 [("a", 4)]
   [SetL "b" (Ix 0) (U1 (FFun "sinh") (Ln "a" (Ix 0)));
    SetL "b" (Ix 1) (U1 (FFun "sinh") (Ln "a" (Ix 1)));
    SetL "b" (Ix 2) (U1 (FFun "sinh") (Ln "a" (Ix 2)));
    SetL "b" (Ix 3) (U1 (FFun "sinh") (Ln "a" (Ix 3)))]
   ["b"];
  (* v4/v4_avx.h:1116-1116 *)
  fnc "tan" 1116 [("a", 4)]
   [SetL "b" (Ix 0) (U1 (FFun "tan") (Ln "a" (Ix 0)));
    SetL "b" (Ix 1) (U1 (FFun "tan") (Ln "a" (Ix 1)));
    SetL "b" (Ix 2) (U1 (FFun "tan") (Ln "a" (Ix 2)));
    SetL "b" (Ix 3) (U1 (FFun "tan") (Ln "a" (Ix 3)))]
   ["b"];
  (* v4/v4_avx.h:1116-1116 *)
  fnc "tanh" 1116 [("a", 4)]
   [SetL "b" (Ix 0) (U1 (FFun "tanh") (Ln "a" (Ix 0)));
    SetL "b" (Ix 1) (U1 (FFun "tanh") (Ln "a" (Ix 1)));
    SetL "b" (Ix 2) (U1 (FFun "tanh") (Ln "a" (Ix 2)));
    SetL "b" (Ix 3) (U1 (FFun "tanh") (Ln "a" (Ix 3)))]
   ["b"];
  (* v4/v4_avx.h:1121-1128 *)
  fnc "fabs" 1121 [("a", 4)]
   [SetV "b" (V2 VAndnot (VSet1 (Cst 2147483648)) (VReg "a"))]
   ["b"];
  (* v4/v4_avx.h:1130-1137 *)
  fnc "sqrt" 1130 [("a", 4)]
   [SetV "b" (V1 FSqrt (VReg "a"))]
   ["b"];
  (* v4/v4_avx.h:1139-1149 *)
  fnc "copysign" 1139 [("a", 4); ("b", 4)]
   [SetV "t" (VSet1 (Cst 2147483648));
    SetV "c" (V2 IOr (V2 IAnd (VReg "t") (VReg "b")) (V2 VAndnot (VReg "t") (VReg "a")))]
   ["c"];
  (* v4/v4_avx.h:1153-1160 *)
  fnc "rsqrt_approx" 1153 [("a", 4)]
   [SetV "b" (V1 FRsqrtE (VReg "a"))]
   ["b"];
  (* v4/v4_avx.h:1162-1182 *)
  fnc "rsqrt" 1162 [("a", 4)]
   [SetV "a_v" (VReg "a");
    SetV "b_v" (V1 FRsqrtE (VReg "a_v"));
    SetV "b" (V2 FAdd (VReg "b_v") (V2 FMul (VSet1 (Cst 1056964608)) (V2 FSub (VReg "b_v") (V2 FMul (VReg "a_v") (V2 FMul (VReg "b_v") (V2 FMul (VReg "b_v") (VReg "b_v")))))))]
   ["b"];
  (* v4/v4_avx.h:1184-1191 *)
  fnc "rcp_approx" 1184 [("a", 4)]
   [SetV "b" (V1 FRcpE (VReg "a"))]
   ["b"];
  (* v4/v4_avx.h:1193-1208 *)
  fnc "rcp" 1193 [("a", 4)]
   [SetV "a_v" (VReg "a");
    SetV "b_v" (V1 FRcpE (VReg "a_v"));
    SetV "b" (V2 FSub (V2 FAdd (VReg "b_v") (VReg "b_v")) (V2 FMul (VReg "a_v") (V2 FMul (VReg "b_v") (VReg "b_v"))))]
   ["b"];
  (* v4/v4_avx.h:1210-1217 *)
  fnc "fma" 1210 [("a", 4); ("b", 4); ("c", 4)]
   [SetV "d" (V2 FAdd (V2 FMul (VReg "a") (VReg "b")) (VReg "c"))]
   ["d"];
  (* v4/v4_avx.h:1219-1226 *)
  fnc "fms" 1219 [("a", 4); ("b", 4); ("c", 4)]
   [SetV "d" (V2 FSub (V2 FMul (VReg "a") (VReg "b")) (VReg "c"))]
   ["d"];
  (* v4/v4_avx.h:1228-1235 *)
  fnc "fnms" 1228 [("a", 4); ("b", 4); ("c", 4)]
   [SetV "d" (V2 FSub (VReg "c") (V2 FMul (VReg "a") (VReg "b")))]
   ["d"];
  (* v4/v4_avx.h:1237-1244 *)
  fnc "clear_bits" 1237 [("m", 4); ("a", 4)]
   [SetV "b" (V2 VAndnot (VReg "m") (VReg "a"))]
   ["b"];
  (* v4/v4_avx.h:1246-1253 *)
  fnc "set_bits" 1246 [("m", 4); ("a", 4)]
   [SetV "b" (V2 IOr (VReg "m") (VReg "a"))]
   ["b"];
  (* v4/v4_avx.h:1255-1262 *)
  fnc "toggle_bits" 1255 [("m", 4); ("a", 4)]
   [SetV "b" (V2 IXor (VReg "m") (VReg "a"))]
   ["b"];
  (* v4/v4_avx.h:1264-1268 *)
  fnc "increment" 1264 [("p", 4); ("a", 4)]
   [SetV "p" (V2 FAdd (VReg "p") (VReg "a"))]
   ["p"];
  (* v4/v4_avx.h:1270-1274 *)
  fnc "decrement" 1270 [("p", 4); ("a", 4)]
   [SetV "p" (V2 FSub (VReg "p") (VReg "a"))]
   ["p"];
  (* v4/v4_avx.h:1276-1280 *)
  fnc "scale" 1276 [("p", 4); ("a", 4)]
   [SetV "p" (V2 FMul (VReg "p") (VReg "a"))]
   ["p"];
  (* v4/v4_avx.h:501-502 *)
  fnc "int from copy" 501 [("a", 4)]
   [SetV "this" (VReg "a")]
   ["this"];
  (* v4/v4_avx.h:503-507 *)
  fnc "int from mixed" 503 [("a", 4)]
   [SetV "this" (VReg "a")]
   ["this"];
  (* v4/v4_avx.h:508-519 *)
  fnc "int from scalar" 508 [("a", 1)]
   [SetL "u" (Ix 0) (Ln "a" (Ix 0));
    SetV "this" (VSet1 (Ln "u" (Ix 0)))]
   ["this"];
  (* v4/v4_avx.h:891-892 *)
  fnc "float from copy" 891 [("a", 4)]
   [SetV "this" (VReg "a")]
   ["this"];
  (* v4/v4_avx.h:893-897 *)
  fnc "float from mixed" 893 [("a", 4)]
   [SetV "this" (VReg "a")]
   ["this"];
  (* v4/v4_avx.h:898-902 *)
  fnc "float from scalar" 898 [("a", 1)]
   [SetV "this" (VSet1 (Ln "a" (Ix 0)))]
   ["this"]].

(* src/util/v4/v4_avx.h:150-153 *)
Definition any_v4_avx : fn :=
  fnc "any" 150 [("a", 4)]
   [SetL "ret" (Ix 0) (B2 ILOr (B2 ILOr (B2 ILOr (Ln "a" (Ix 0)) (Ln "a" (Ix 1))) (Ln "a" (Ix 2))) (Ln "a" (Ix 3)))]
   ["ret"].

(* src/util/v4/v4_avx.h:155-158 *)
Definition all_v4_avx : fn :=
  fnc "all" 155 [("a", 4)]
   [SetL "ret" (Ix 0) (B2 ILAnd (B2 ILAnd (B2 ILAnd (Ln "a" (Ix 0)) (Ln "a" (Ix 1))) (Ln "a" (Ix 2))) (Ln "a" (Ix 3)))]
   ["ret"].

(* src/util/v4/v4_avx.h:160-168 *)
Definition splat_v4_avx (n : nat) : fn :=
  fnc "splat" 160 [("a", 4)]
   [SetV "b" (VShuf (VReg "a") (VReg "a") (n*(1 + 1*4 + 1*16 + 1*64))%nat)]
   ["b"].

(* src/util/v4/v4_avx.h:170-178 *)
Definition shuffle_v4_avx (i0 i1 i2 i3 : nat) : fn :=
  fnc "shuffle" 170 [("a", 4)]
   [SetV "b" (VShuf (VReg "a") (VReg "a") ((i0 + i1*4 + i2*16 + i3*64))%nat)]
   ["b"].

(* src/util/v4/v4_avx.h:1285-1311 *)
Definition trilinear_v4_avx : fn :=
  fnc "trilinear" 1285 [("wl", 4); ("wh", 4)]
   [SetV "l" (VSet1 (Cst 1065353216));
    SetV "s" (VSetr [(Cst 2147483648); (Cst 0); (Cst 2147483648); (Cst 0)]);
    SetV "z" (VReg "wl");
    SetV "xy" (V2 FAdd (VReg "l") (V2 IXor (VReg "s") (VShuf (VReg "z") (VReg "z") (0+0*4+1*16+1*64)%nat)));
    SetV "z" (V2 FAdd (VReg "l") (V2 IXor (VReg "s") (VShuf (VReg "z") (VReg "z") (2+2*4+2*16+2*64)%nat)));
    SetV "xy" (V2 FMul (VShuf (VReg "xy") (VReg "xy") (0+1*4+0*16+1*64)%nat) (VShuf (VReg "xy") (VReg "xy") (2+2*4+3*16+3*64)%nat));
    SetV "wl" (V2 FMul (VReg "xy") (VShuf (VReg "z") (VReg "z") (0+0*4+0*16+0*64)%nat));
    SetV "wh" (V2 FMul (VReg "xy") (VShuf (VReg "z") (VReg "z") (1+1*4+1*16+1*64)%nat))]
   ["wl"; "wh"].

(* src/util/v4/v4_avx.h:520-535 *)
Definition int_from_scalars_v4_avx : fn :=
  fnc "int from scalars" 520 [("i0", 1); ("i1", 1); ("i2", 1); ("i3", 1)]
   [SetL "u0" (Ix 0) (Ln "i0" (Ix 0));
    SetL "u1" (Ix 0) (Ln "i1" (Ix 0));
    SetL "u2" (Ix 0) (Ln "i2" (Ix 0));
    SetL "u3" (Ix 0) (Ln "i3" (Ix 0));
    SetV "this" (VSetr [(Ln "u0" (Ix 0)); (Ln "u1" (Ix 0)); (Ln "u2" (Ix 0)); (Ln "u3" (Ix 0))])]
   ["this"].

(* src/util/v4/v4_avx.h:903-907 *)
Definition float_from_scalars_v4_avx : fn :=
  fnc "float from scalars" 903 [("f0", 1); ("f1", 1); ("f2", 1); ("f3", 1)]
   [SetV "this" (VSetr [(Ln "f0" (Ix 0)); (Ln "f1" (Ix 0)); (Ln "f2" (Ix 0)); (Ln "f3" (Ix 0))])]
   ["this"].

(* src/util/v4/v4_avx2.h *)
Definition ops_v4_avx2 : list fn := [
  (* v4/v4_avx2.h:696-696 *)
  fnc "int +=" 696 [("this", 4); ("b", 4)]
   [SetL "this" (Ix 0) (B2 IAdd (Ln "this" (Ix 0)) (Ln "b" (Ix 0)));
    SetL "this" (Ix 1) (B2 IAdd (Ln "this" (Ix 1)) (Ln "b" (Ix 1)));
    SetL "this" (Ix 2) (B2 IAdd (Ln "this" (Ix 2)) (Ln "b" (Ix 2)));
    SetL "this" (Ix 3) (B2 IAdd (Ln "this" (Ix 3)) (Ln "b" (Ix 3)))]
   ["this"];
  (* v4/v4_avx2.h:697-697 *)
  fnc "int -=" 697 [("this", 4); ("b", 4)]
   [SetL "this" (Ix 0) (B2 ISub (Ln "this" (Ix 0)) (Ln "b" (Ix 0)));
    SetL "this" (Ix 1) (B2 ISub (Ln "this" (Ix 1)) (Ln "b" (Ix 1)));
    SetL "this" (Ix 2) (B2 ISub (Ln "this" (Ix 2)) (Ln "b" (Ix 2)));
    SetL "this" (Ix 3) (B2 ISub (Ln "this" (Ix 3)) (Ln "b" (Ix 3)))]
   ["this"];
  (* v4/v4_avx2.h:698-698 *)
  fnc "int *=" 698 [("this", 4); ("b", 4)]
   [SetL "this" (Ix 0) (B2 IMul (Ln "this" (Ix 0)) (Ln "b" (Ix 0)));
    SetL "this" (Ix 1) (B2 IMul (Ln "this" (Ix 1)) (Ln "b" (Ix 1)));
    SetL "this" (Ix 2) (B2 IMul (Ln "this" (Ix 2)) (Ln "b" (Ix 2)));
    SetL "this" (Ix 3) (B2 IMul (Ln "this" (Ix 3)) (Ln "b" (Ix 3)))]
   ["this"];
  (* v4/v4_avx2.h:699-699 *)
  fnc "int /=" 699 [("this", 4); ("b", 4)]
   [SetL "this" (Ix 0) (B2 IDiv (Ln "this" (Ix 0)) (Ln "b" (Ix 0)));
    SetL "this" (Ix 1) (B2 IDiv (Ln "this" (Ix 1)) (Ln "b" (Ix 1)));
    SetL "this" (Ix 2) (B2 IDiv (Ln "this" (Ix 2)) (Ln "b" (Ix 2)));
    SetL "this" (Ix 3) (B2 IDiv (Ln "this" (Ix 3)) (Ln "b" (Ix 3)))]
   ["this"];
  (* v4/v4_avx2.h:700-700 *)
  fnc "int %=" 700 [("this", 4); ("b", 4)]
   [SetL "this" (Ix 0) (B2 IMod (Ln "this" (Ix 0)) (Ln "b" (Ix 0)));
    SetL "this" (Ix 1) (B2 IMod (Ln "this" (Ix 1)) (Ln "b" (Ix 1)));
    SetL "this" (Ix 2) (B2 IMod (Ln "this" (Ix 2)) (Ln "b" (Ix 2)));
    SetL "this" (Ix 3) (B2 IMod (Ln "this" (Ix 3)) (Ln "b" (Ix 3)))]
   ["this"];
  (* v4/v4_avx2.h:701-701 *)
  fnc "int <<=" 701 [("this", 4); ("b", 4)]
   [SetL "this" (Ix 0) (B2 IShl (Ln "this" (Ix 0)) (Ln "b" (Ix 0)));
    SetL "this" (Ix 1) (B2 IShl (Ln "this" (Ix 1)) (Ln "b" (Ix 1)));
    SetL "this" (Ix 2) (B2 IShl (Ln "this" (Ix 2)) (Ln "b" (Ix 2)));
    SetL "this" (Ix 3) (B2 IShl (Ln "this" (Ix 3)) (Ln "b" (Ix 3)))]
   ["this"];
  (* v4/v4_avx2.h:702-702 *)
  fnc "int >>=" 702 [("this", 4); ("b", 4)]
   [SetL "this" (Ix 0) (B2 IShr (Ln "this" (Ix 0)) (Ln "b" (Ix 0)));
    SetL "this" (Ix 1) (B2 IShr (Ln "this" (Ix 1)) (Ln "b" (Ix 1)));
    SetL "this" (Ix 2) (B2 IShr (Ln "this" (Ix 2)) (Ln "b" (Ix 2)));
    SetL "this" (Ix 3) (B2 IShr (Ln "this" (Ix 3)) (Ln "b" (Ix 3)))]
   ["this"];
  (* v4/v4_avx2.h:706-711 *)
  fnc "int =" 706 [("this", 4); ("b", 4)]
   [SetV "this" (VReg "b")]
   ["this"];
  (* v4/v4_avx2.h:713-718 *)
  fnc "int ^=" 713 [("this", 4); ("b", 4)]
   [SetV "this" (V2 IXor (VReg "this") (VReg "b"))]
   ["this"];
  (* v4/v4_avx2.h:720-725 *)
  fnc "int &=" 720 [("this", 4); ("b", 4)]
   [SetV "this" (V2 IAnd (VReg "this") (VReg "b"))]
   ["this"];
  (* v4/v4_avx2.h:727-732 *)
  fnc "int |=" 727 [("this", 4); ("b", 4)]
   [SetV "this" (V2 IOr (VReg "this") (VReg "b"))]
   ["this"];
  (* v4/v4_avx2.h:760-767 *)
  fnc "int unary+" 760 [("a", 4)]
   [SetV "b" (VReg "a")]
   ["b"];
  (* v4/v4_avx2.h:769-769 *)
  fnc "int unary-" 769 [("a", 4)]
   [SetL "b" (Ix 0) (U1 INeg (Ln "a" (Ix 0)));
    SetL "b" (Ix 1) (U1 INeg (Ln "a" (Ix 1)));
    SetL "b" (Ix 2) (U1 INeg (Ln "a" (Ix 2)));
    SetL "b" (Ix 3) (U1 INeg (Ln "a" (Ix 3)))]
   ["b"];
  (* v4/v4_avx2.h:771-781 *)
  fnc "int !" 771 [("a", 4)]
   [SetL "b" (Ix 0) (U1 INeg (U1 ILNot (Ln "a" (Ix 0))));
    SetL "b" (Ix 1) (U1 INeg (U1 ILNot (Ln "a" (Ix 1))));
    SetL "b" (Ix 2) (U1 INeg (U1 ILNot (Ln "a" (Ix 2))));
    SetL "b" (Ix 3) (U1 INeg (U1 ILNot (Ln "a" (Ix 3))))]
   ["b"];
  (* v4/v4_avx2.h:783-798 *)
  fnc "int ~" 783 [("a", 4)]
   [SetL "u" (Ix 0) (Cst 4294967295);
    SetV "b" (V2 IXor (VReg "a") (VSet1 (Ln "u" (Ix 0))))]
   ["b"];
  (* v4/v4_avx2.h:815-815 *)
  fnc "int pre++" 815 [("a", 4)]
   [SetL "a" (Ix 0) (B2 IAdd (Ln "a" (Ix 0)) (Cst 1));
    SetL "b" (Ix 0) (Ln "a" (Ix 0));
    SetL "a" (Ix 1) (B2 IAdd (Ln "a" (Ix 1)) (Cst 1));
    SetL "b" (Ix 1) (Ln "a" (Ix 1));
    SetL "a" (Ix 2) (B2 IAdd (Ln "a" (Ix 2)) (Cst 1));
    SetL "b" (Ix 2) (Ln "a" (Ix 2));
    SetL "a" (Ix 3) (B2 IAdd (Ln "a" (Ix 3)) (Cst 1));
    SetL "b" (Ix 3) (Ln "a" (Ix 3))]
   ["b"; "a"];
  (* v4/v4_avx2.h:816-816 *)
  fnc "int pre--" 816 [("a", 4)]
   [SetL "a" (Ix 0) (B2 ISub (Ln "a" (Ix 0)) (Cst 1));
    SetL "b" (Ix 0) (Ln "a" (Ix 0));
    SetL "a" (Ix 1) (B2 ISub (Ln "a" (Ix 1)) (Cst 1));
    SetL "b" (Ix 1) (Ln "a" (Ix 1));
    SetL "a" (Ix 2) (B2 ISub (Ln "a" (Ix 2)) (Cst 1));
    SetL "b" (Ix 2) (Ln "a" (Ix 2));
    SetL "a" (Ix 3) (B2 ISub (Ln "a" (Ix 3)) (Cst 1));
    SetL "b" (Ix 3) (Ln "a" (Ix 3))]
   ["b"; "a"];
  (* v4/v4_avx2.h:833-833 *)
  fnc "int post++" 833 [("a", 4)]
   [SetL "b" (Ix 0) (Ln "a" (Ix 0));
    SetL "a" (Ix 0) (B2 IAdd (Ln "a" (Ix 0)) (Cst 1));
    SetL "b" (Ix 1) (Ln "a" (Ix 1));
    SetL "a" (Ix 1) (B2 IAdd (Ln "a" (Ix 1)) (Cst 1));
    SetL "b" (Ix 2) (Ln "a" (Ix 2));
    SetL "a" (Ix 2) (B2 IAdd (Ln "a" (Ix 2)) (Cst 1));
    SetL "b" (Ix 3) (Ln "a" (Ix 3));
    SetL "a" (Ix 3) (B2 IAdd (Ln "a" (Ix 3)) (Cst 1))]
   ["b"; "a"];
  (* v4/v4_avx2.h:834-834 *)
  fnc "int post--" 834 [("a", 4)]
   [SetL "b" (Ix 0) (Ln "a" (Ix 0));
    SetL "a" (Ix 0) (B2 ISub (Ln "a" (Ix 0)) (Cst 1));
    SetL "b" (Ix 1) (Ln "a" (Ix 1));
    SetL "a" (Ix 1) (B2 ISub (Ln "a" (Ix 1)) (Cst 1));
    SetL "b" (Ix 2) (Ln "a" (Ix 2));
    SetL "a" (Ix 2) (B2 ISub (Ln "a" (Ix 2)) (Cst 1));
    SetL "b" (Ix 3) (Ln "a" (Ix 3));
    SetL "a" (Ix 3) (B2 ISub (Ln "a" (Ix 3)) (Cst 1))]
   ["b"; "a"];
  (* v4/v4_avx2.h:851-851 *)
  fnc "int +" 851 [("a", 4); ("b", 4)]
   [SetL "c" (Ix 0) (B2 IAdd (Ln "a" (Ix 0)) (Ln "b" (Ix 0)));
    SetL "c" (Ix 1) (B2 IAdd (Ln "a" (Ix 1)) (Ln "b" (Ix 1)));
    SetL "c" (Ix 2) (B2 IAdd (Ln "a" (Ix 2)) (Ln "b" (Ix 2)));
    SetL "c" (Ix 3) (B2 IAdd (Ln "a" (Ix 3)) (Ln "b" (Ix 3)))]
   ["c"];
  (* v4/v4_avx2.h:852-852 *)
  fnc "int -" 852 [("a", 4); ("b", 4)]
   [SetL "c" (Ix 0) (B2 ISub (Ln "a" (Ix 0)) (Ln "b" (Ix 0)));
    SetL "c" (Ix 1) (B2 ISub (Ln "a" (Ix 1)) (Ln "b" (Ix 1)));
    SetL "c" (Ix 2) (B2 ISub (Ln "a" (Ix 2)) (Ln "b" (Ix 2)));
    SetL "c" (Ix 3) (B2 ISub (Ln "a" (Ix 3)) (Ln "b" (Ix 3)))]
   ["c"];
  (* v4/v4_avx2.h:853-853 *)
  fnc "int *" 853 [("a", 4); ("b", 4)]
   [SetL "c" (Ix 0) (B2 IMul (Ln "a" (Ix 0)) (Ln "b" (Ix 0)));
    SetL "c" (Ix 1) (B2 IMul (Ln "a" (Ix 1)) (Ln "b" (Ix 1)));
    SetL "c" (Ix 2) (B2 IMul (Ln "a" (Ix 2)) (Ln "b" (Ix 2)));
    SetL "c" (Ix 3) (B2 IMul (Ln "a" (Ix 3)) (Ln "b" (Ix 3)))]
   ["c"];
  (* v4/v4_avx2.h:854-854 *)
  fnc "int /" 854 [("a", 4); ("b", 4)]
   [SetL "c" (Ix 0) (B2 IDiv (Ln "a" (Ix 0)) (Ln "b" (Ix 0)));
    SetL "c" (Ix 1) (B2 IDiv (Ln "a" (Ix 1)) (Ln "b" (Ix 1)));
    SetL "c" (Ix 2) (B2 IDiv (Ln "a" (Ix 2)) (Ln "b" (Ix 2)));
    SetL "c" (Ix 3) (B2 IDiv (Ln "a" (Ix 3)) (Ln "b" (Ix 3)))]
   ["c"];
  (* v4/v4_avx2.h:855-855 *)
  fnc "int %" 855 [("a", 4); ("b", 4)]
   [SetL "c" (Ix 0) (B2 IMod (Ln "a" (Ix 0)) (Ln "b" (Ix 0)));
    SetL "c" (Ix 1) (B2 IMod (Ln "a" (Ix 1)) (Ln "b" (Ix 1)));
    SetL "c" (Ix 2) (B2 IMod (Ln "a" (Ix 2)) (Ln "b" (Ix 2)));
    SetL "c" (Ix 3) (B2 IMod (Ln "a" (Ix 3)) (Ln "b" (Ix 3)))]
   ["c"];
  (* v4/v4_avx2.h:856-856 *)
  fnc "int <<" 856 [("a", 4); ("b", 4)]
   [SetL "c" (Ix 0) (B2 IShl (Ln "a" (Ix 0)) (Ln "b" (Ix 0)));
    SetL "c" (Ix 1) (B2 IShl (Ln "a" (Ix 1)) (Ln "b" (Ix 1)));
    SetL "c" (Ix 2) (B2 IShl (Ln "a" (Ix 2)) (Ln "b" (Ix 2)));
    SetL "c" (Ix 3) (B2 IShl (Ln "a" (Ix 3)) (Ln "b" (Ix 3)))]
   ["c"];
  (* v4/v4_avx2.h:857-857 *)
  fnc "int >>" 857 [("a", 4); ("b", 4)]
   [SetL "c" (Ix 0) (B2 IShr (Ln "a" (Ix 0)) (Ln "b" (Ix 0)));
    SetL "c" (Ix 1) (B2 IShr (Ln "a" (Ix 1)) (Ln "b" (Ix 1)));
    SetL "c" (Ix 2) (B2 IShr (Ln "a" (Ix 2)) (Ln "b" (Ix 2)));
    SetL "c" (Ix 3) (B2 IShr (Ln "a" (Ix 3)) (Ln "b" (Ix 3)))]
   ["c"];
  (* v4/v4_avx2.h:861-868 *)
  fnc "int ^" 861 [("a", 4); ("b", 4)]
   [SetV "c" (V2 IXor (VReg "a") (VReg "b"))]
   ["c"];
  (* v4/v4_avx2.h:870-877 *)
  fnc "int &" 870 [("a", 4); ("b", 4)]
   [SetV "c" (V2 IAnd (VReg "a") (VReg "b"))]
   ["c"];
  (* v4/v4_avx2.h:879-886 *)
  fnc "int |" 879 [("a", 4); ("b", 4)]
   [SetV "c" (V2 IOr (VReg "a") (VReg "b"))]
   ["c"];
  (* v4/v4_avx2.h:901-901 *)
  fnc "int <" 901 [("a", 4); ("b", 4)]
   [SetL "c" (Ix 0) (U1 INeg (B2 ILt (Ln "a" (Ix 0)) (Ln "b" (Ix 0))));
    SetL "c" (Ix 1) (U1 INeg (B2 ILt (Ln "a" (Ix 1)) (Ln "b" (Ix 1))));
    SetL "c" (Ix 2) (U1 INeg (B2 ILt (Ln "a" (Ix 2)) (Ln "b" (Ix 2))));
    SetL "c" (Ix 3) (U1 INeg (B2 ILt (Ln "a" (Ix 3)) (Ln "b" (Ix 3))))]
   ["c"];
  (* v4/v4_avx2.h:902-902 *)
  fnc "int >" 902 [("a", 4); ("b", 4)]
   [SetL "c" (Ix 0) (U1 INeg (B2 IGt (Ln "a" (Ix 0)) (Ln "b" (Ix 0))));
    SetL "c" (Ix 1) (U1 INeg (B2 IGt (Ln "a" (Ix 1)) (Ln "b" (Ix 1))));
    SetL "c" (Ix 2) (U1 INeg (B2 IGt (Ln "a" (Ix 2)) (Ln "b" (Ix 2))));
    SetL "c" (Ix 3) (U1 INeg (B2 IGt (Ln "a" (Ix 3)) (Ln "b" (Ix 3))))]
   ["c"];
  (* v4/v4_avx2.h:903-903 *)
  fnc "int ==" 903 [("a", 4); ("b", 4)]
   [SetL "c" (Ix 0) (U1 INeg (B2 IEq (Ln "a" (Ix 0)) (Ln "b" (Ix 0))));
    SetL "c" (Ix 1) (U1 INeg (B2 IEq (Ln "a" (Ix 1)) (Ln "b" (Ix 1))));
    SetL "c" (Ix 2) (U1 INeg (B2 IEq (Ln "a" (Ix 2)) (Ln "b" (Ix 2))));
    SetL "c" (Ix 3) (U1 INeg (B2 IEq (Ln "a" (Ix 3)) (Ln "b" (Ix 3))))]
   ["c"];
  (* v4/v4_avx2.h:904-904 *)
  fnc "int !=" 904 [("a", 4); ("b", 4)]
   [SetL "c" (Ix 0) (U1 INeg (B2 INe (Ln "a" (Ix 0)) (Ln "b" (Ix 0))));
    SetL "c" (Ix 1) (U1 INeg (B2 INe (Ln "a" (Ix 1)) (Ln "b" (Ix 1))));
    SetL "c" (Ix 2) (U1 INeg (B2 INe (Ln "a" (Ix 2)) (Ln "b" (Ix 2))));
    SetL "c" (Ix 3) (U1 INeg (B2 INe (Ln "a" (Ix 3)) (Ln "b" (Ix 3))))]
   ["c"];
  (* v4/v4_avx2.h:905-905 *)
  fnc "int <=" 905 [("a", 4); ("b", 4)]
   [SetL "c" (Ix 0) (U1 INeg (B2 ILe (Ln "a" (Ix 0)) (Ln "b" (Ix 0))));
    SetL "c" (Ix 1) (U1 INeg (B2 ILe (Ln "a" (Ix 1)) (Ln "b" (Ix 1))));
    SetL "c" (Ix 2) (U1 INeg (B2 ILe (Ln "a" (Ix 2)) (Ln "b" (Ix 2))));
    SetL "c" (Ix 3) (U1 INeg (B2 ILe (Ln "a" (Ix 3)) (Ln "b" (Ix 3))))]
   ["c"];
  (* v4/v4_avx2.h:906-906 *)
  fnc "int >=" 906 [("a", 4); ("b", 4)]
   [SetL "c" (Ix 0) (U1 INeg (B2 IGe (Ln "a" (Ix 0)) (Ln "b" (Ix 0))));
    SetL "c" (Ix 1) (U1 INeg (B2 IGe (Ln "a" (Ix 1)) (Ln "b" (Ix 1))));
    SetL "c" (Ix 2) (U1 INeg (B2 IGe (Ln "a" (Ix 2)) (Ln "b" (Ix 2))));
    SetL "c" (Ix 3) (U1 INeg (B2 IGe (Ln "a" (Ix 3)) (Ln "b" (Ix 3))))]
   ["c"];
  (* v4/v4_avx2.h:907-907 *)
  fnc "int &&" 907 [("a", 4); ("b", 4)]
   [SetL "c" (Ix 0) (U1 INeg (B2 ILAnd (Ln "a" (Ix 0)) (Ln "b" (Ix 0))));
    SetL "c" (Ix 1) (U1 INeg (B2 ILAnd (Ln "a" (Ix 1)) (Ln "b" (Ix 1))));
    SetL "c" (Ix 2) (U1 INeg (B2 ILAnd (Ln "a" (Ix 2)) (Ln "b" (Ix 2))));
    SetL "c" (Ix 3) (U1 INeg (B2 ILAnd (Ln "a" (Ix 3)) (Ln "b" (Ix 3))))]
   ["c"];
  (* v4/v4_avx2.h:908-908 *)
  fnc "int ||" 908 [("a", 4); ("b", 4)]
   [SetL "c" (Ix 0) (U1 INeg (B2 ILOr (Ln "a" (Ix 0)) (Ln "b" (Ix 0))));
    SetL "c" (Ix 1) (U1 INeg (B2 ILOr (Ln "a" (Ix 1)) (Ln "b" (Ix 1))));
    SetL "c" (Ix 2) (U1 INeg (B2 ILOr (Ln "a" (Ix 2)) (Ln "b" (Ix 2))));
    SetL "c" (Ix 3) (U1 INeg (B2 ILOr (Ln "a" (Ix 3)) (Ln "b" (Ix 3))))]
   ["c"];
  (* v4/v4_avx2.h:914-924 *)
  fnc "int abs" 914 [("a", 4)]
   [SetL "b" (Ix 0) (Cond (B2 IGe (Ln "a" (Ix 0)) (Cst 0)) (Ln "a" (Ix 0)) (U1 INeg (Ln "a" (Ix 0))));
    SetL "b" (Ix 1) (Cond (B2 IGe (Ln "a" (Ix 1)) (Cst 0)) (Ln "a" (Ix 1)) (U1 INeg (Ln "a" (Ix 1))));
    SetL "b" (Ix 2) (Cond (B2 IGe (Ln "a" (Ix 2)) (Cst 0)) (Ln "a" (Ix 2)) (U1 INeg (Ln "a" (Ix 2))));
    SetL "b" (Ix 3) (Cond (B2 IGe (Ln "a" (Ix 3)) (Cst 0)) (Ln "a" (Ix 3)) (U1 INeg (Ln "a" (Ix 3))))]
   ["b"];
  (* v4/v4_avx2.h:926-933 *)
  fnc "czero" 926 [("c", 4); ("a", 4)]
   [SetV "b" (V2 VAndnot (VReg "c") (VReg "a"))]
   ["b"];
  (* v4/v4_avx2.h:935-942 *)
  fnc "notczero" 935 [("c", 4); ("a", 4)]
   [SetV "b" (V2 IAnd (VReg "c") (VReg "a"))]
   ["b"];
  (* v4/v4_avx2.h:944-954 *)
  fnc "merge" 944 [("c", 4); ("t", 4); ("f", 4)]
   [SetV "c_v" (VReg "c");
    SetV "tf" (V2 IOr (V2 VAndnot (VReg "c_v") (VReg "f")) (V2 IAnd (VReg "c_v") (VReg "t")))]
   ["tf"];
  (* v4/v4_avx2.h:1065-1065 *)
  fnc "float +=" 1065 [("this", 4); ("b", 4)]
   [SetV "this" (V2 FAdd (VReg "this") (VReg "b"))]
   ["this"];
  (* v4/v4_avx2.h:1066-1066 *)
  fnc "float -=" 1066 [("this", 4); ("b", 4)]
   [SetV "this" (V2 FSub (VReg "this") (VReg "b"))]
   ["this"];
  (* v4/v4_avx2.h:1067-1067 *)
  fnc "float *=" 1067 [("this", 4); ("b", 4)]
   [SetV "this" (V2 FMul (VReg "this") (VReg "b"))]
   ["this"];
  (* v4/v4_avx2.h:1068-1068 *)
  fnc "float /=" 1068 [("this", 4); ("b", 4)]
   [SetV "this" (V2 FDiv (VReg "this") (VReg "b"))]
   ["this"];
  (* v4/v4_avx2.h:1072-1077 *)
  fnc "float =" 1072 [("this", 4); ("b", 4)]
   [SetV "this" (VReg "b")]
   ["this"];
  (* v4/v4_avx2.h:1094-1101 *)
  fnc "float unary+" 1094 [("a", 4)]
   [SetV "b" (VReg "a")]
   ["b"];
  (* v4/v4_avx2.h:1103-1110 *)
  fnc "float unary-" 1103 [("a", 4)]
   [SetV "b" (V2 FSub (VSet1 (Cst 0)) (VReg "a"))]
   ["b"];
  (* v4/v4_avx2.h:1112-1119 *)
  fnc "float !" 1112 [("a", 4)]
   [SetV "b" (V2 (VCmp CEq) (VSet1 (Cst 0)) (VReg "a"))]
   ["b"];
  (* v4/v4_avx2.h:1123-1133 *)
  fnc "float pre++" 1123 [("a", 4)]
   [SetV "t" (V2 FAdd (VReg "a") (VSet1 (Cst 1065353216)));
    SetV "a" (VReg "t");
    SetV "b" (VReg "t")]
   ["b"; "a"];
  (* v4/v4_avx2.h:1135-1145 *)
  fnc "float pre--" 1135 [("a", 4)]
   [SetV "t" (V2 FSub (VReg "a") (VSet1 (Cst 1065353216)));
    SetV "a" (VReg "t");
    SetV "b" (VReg "t")]
   ["b"; "a"];
  (* v4/v4_avx2.h:1149-1159 *)
  fnc "float post++" 1149 [("a", 4)]
   [SetV "a_v" (VReg "a");
    SetV "a" (V2 FAdd (VReg "a_v") (VSet1 (Cst 1065353216)));
    SetV "b" (VReg "a_v")]
   ["b"; "a"];
  (* v4/v4_avx2.h:1161-1171 *)
  fnc "float post--" 1161 [("a", 4)]
   [SetV "a_v" (VReg "a");
    SetV "a" (V2 FSub (VReg "a_v") (VSet1 (Cst 1065353216)));
    SetV "b" (VReg "a_v")]
   ["b"; "a"];
  (* v4/v4_avx2.h:1183-1183 *)
  fnc "float +" 1183 [("a", 4); ("b", 4)]
   [SetV "c" (V2 FAdd (VReg "a") (VReg "b"))]
   ["c"];
  (* v4/v4_avx2.h:1184-1184 *)
  fnc "float -" 1184 [("a", 4); ("b", 4)]
   [SetV "c" (V2 FSub (VReg "a") (VReg "b"))]
   ["c"];
  (* v4/v4_avx2.h:1185-1185 *)
  fnc "float *" 1185 [("a", 4); ("b", 4)]
   [SetV "c" (V2 FMul (VReg "a") (VReg "b"))]
   ["c"];
  (* v4/v4_avx2.h:1186-1186 *)
  fnc "float /" 1186 [("a", 4); ("b", 4)]
   [SetV "c" (V2 FDiv (VReg "a") (VReg "b"))]
   ["c"];
  (* v4/v4_avx2.h:1200-1200 *)
  fnc "float <" 1200 [("a", 4); ("b", 4)]
   [SetV "c" (V2 (VCmp CLt) (VReg "a") (VReg "b"))]
   ["c"];
  (* v4/v4_avx2.h:1201-1201 *)
  fnc "float >" 1201 [("a", 4); ("b", 4)]
   [SetV "c" (V2 (VCmp CGt) (VReg "a") (VReg "b"))]
   ["c"];
  (* v4/v4_avx2.h:1202-1202 *)
  fnc "float ==" 1202 [("a", 4); ("b", 4)]
   [SetV "c" (V2 (VCmp CEq) (VReg "a") (VReg "b"))]
   ["c"];
  (* v4/v4_avx2.h:1203-1203 *)
  fnc "float <=" 1203 [("a", 4); ("b", 4)]
   [SetV "c" (V2 (VCmp CLe) (VReg "a") (VReg "b"))]
   ["c"];
  (* v4/v4_avx2.h:1204-1204 *)
  fnc "float >=" 1204 [("a", 4); ("b", 4)]
   [SetV "c" (V2 (VCmp CGe) (VReg "a") (VReg "b"))]
   ["c"];
  (* v4/v4_avx2.h:1205-1205 *)
  fnc "float !=" 1205 [("a", 4); ("b", 4)]
   [SetV "c" (V2 (VCmp CNe) (VReg "a") (VReg "b"))]
   ["c"];
  (* v4/v4_avx2.h:1209-1219 *)
  fnc "float &&" 1209 [("a", 4); ("b", 4)]
   [SetV "vzero" (VSet1 (Cst 0));
    SetV "c" (V2 IAnd (V2 (VCmp CNe) (VReg "a") (VReg "vzero")) (V2 (VCmp CNe) (VReg "b") (VReg "vzero")))]
   ["c"];
  (* v4/v4_avx2.h:1221-1231 *)
  fnc "float ||" 1221 [("a", 4); ("b", 4)]
   [SetV "vzero" (VSet1 (Cst 0));
    SetV "c" (V2 IOr (V2 (VCmp CNe) (VReg "a") (VReg "vzero")) (V2 (VCmp CNe) (VReg "b") (VReg "vzero")))]
   ["c"];
  (* v4/v4_avx2.h:1257-1257 *)
  fnc "acos" 1257 [("a", 4)]
   [SetL "b" (Ix 0) (U1 (FFun "acos") (Ln "a" (Ix 0)));
    SetL "b" (Ix 1) (U1 (FFun "acos") (Ln "a" (Ix 1)));
    SetL "b" (Ix 2) (U1 (FFun "acos") (Ln "a" (Ix 2)));
    SetL "b" (Ix 3) (U1 (FFun "acos") (Ln "a" (Ix 3)))]
   ["b"];
  (* v4/v4_avx2.h:1257-1257 *)
  fnc "asin" 1257 [("a", 4)]
   [SetL "b" (Ix 0) (U1 (FFun "asin") (Ln "a" (Ix 0)));
    SetL "b" (Ix 1) (U1 (FFun "asin") (Ln "a" (Ix 1)));
    SetL "b" (Ix 2) (U1 (FFun "asin") (Ln "a" (Ix 2)));
    SetL "b" (Ix 3) (U1 (FFun "asin") (Ln "a" (Ix 3)))]
   ["b"];
  (* v4/v4_avx2.h:1257-1257 *)
  fnc "atan" 1257 [("a", 4)]
   [SetL "b" (Ix 0) (U1 (FFun "atan") (Ln "a" (Ix 0)));
    SetL "b" (Ix 1) (U1 (FFun "atan") (Ln "a" (Ix 1)));
    SetL "b" (Ix 2) (U1 (FFun "atan") (Ln "a" (Ix 2)));
    SetL "b" (Ix 3) (U1 (FFun "atan") (Ln "a" (Ix 3)))]
   ["b"];
  (* v4/v4_avx2.h:1257-1257 *)
  fnc "atan2" 1257 [("a", 4); ("b", 4)]
   [SetL "c" (Ix 0) (B2 (FFun2 "atan2") (Ln "a" (Ix 0)) (Ln "b" (Ix 0)));
    SetL "c" (Ix 1) (B2 (FFun2 "atan2") (Ln "a" (Ix 1)) (Ln "b" (Ix 1)));
    SetL "c" (Ix 2) (B2 (FFun2 "atan2") (Ln "a" (Ix 2)) (Ln "b" (Ix 2)));
    SetL "c" (Ix 3) (B2 (FFun2 "atan2") (Ln "a" (Ix 3)) (Ln "b" (Ix 3)))]
   ["c"];
  (* v4/v4_avx2.h:1258-1258 *)
  fnc "ceil" 1258 [("a", 4)]
   [SetL "b" (Ix 0) (U1 (FFun "ceil") (Ln "a" (Ix 0)));
    SetL "b" (Ix 1) (U1 (FFun "ceil") (Ln "a" (Ix 1)));
    SetL "b" (Ix 2) (U1 (FFun "ceil") (Ln "a" (Ix 2)));
    SetL "b" (Ix 3) (U1 (FFun "ceil") (Ln "a" (Ix 3)))]
   ["b"];
  (* v4/v4_avx2.h:1258-1258 *)
  fnc "cos" 1258 [("a", 4)]
   [SetL "b" (Ix 0) (U1 (FFun "cos") (Ln "a" (Ix 0)));
    SetL "b" (Ix 1) (U1 (FFun "cos") (Ln "a" (Ix 1)));
    SetL "b" (Ix 2) (U1 (FFun "cos") (Ln "a" (Ix 2)));
    SetL "b" (Ix 3) (U1 (FFun "cos") (Ln "a" (Ix 3)))]
   ["b"];
  (* v4/v4_avx2.h:1258-1258 *)
  fnc "cosh" 1258 [("a", 4)]
   [SetL "b" (Ix 0) (U1 (FFun "cosh") (Ln "a" (Ix 0)));
    SetL "b" (Ix 1) (U1 (FFun "cosh") (Ln "a" (Ix 1)));
    SetL "b" (Ix 2) (U1 (FFun "cosh") (Ln "a" (Ix 2)));
    SetL "b" (Ix 3) (U1 (FFun "cosh") (Ln "a" (Ix 3)))]
   ["b"];
  (* v4/v4_avx2.h:1258-1258 *)
  fnc "exp" 1258 [("a", 4)]
   [SetL "b" (Ix 0) (U1 (FFun "exp") (Ln "a" (Ix 0)));
    SetL "b" (Ix 1) (U1 (FFun "exp") (Ln "a" (Ix 1)));
    SetL "b" (Ix 2) (U1 (FFun "exp") (Ln "a" (Ix 2)));
    SetL "b" (Ix 3) (U1 (FFun "exp") (Ln "a" (Ix 3)))]
   ["b"];
  (* v4/v4_avx2.h:1259-1259 *)
  fnc "floor" 1259 [("a", 4)]
   [SetL "b" (Ix 0) (U1 (FFun "floor") (Ln "a" (Ix 0)));
    SetL "b" (Ix 1) (U1 (FFun "floor") (Ln "a" (Ix 1)));
    SetL "b" (Ix 2) (U1 (FFun "floor") (Ln "a" (Ix 2)));
    SetL "b" (Ix 3) (U1 (FFun "floor") (Ln "a" (Ix 3)))]
   ["b"];
  (* v4/v4_avx2.h:1259-1259 *)
  fnc "fmod" 1259 [("a", 4); ("b", 4)]
   [SetL "c" (Ix 0) (B2 (FFun2 "fmod") (Ln "a" (Ix 0)) (Ln "b" (Ix 0)));
    SetL "c" (Ix 1) (B2 (FFun2 "fmod") (Ln "a" (Ix 1)) (Ln "b" (Ix 1)));
    SetL "c" (Ix 2) (B2 (FFun2 "fmod") (Ln "a" (Ix 2)) (Ln "b" (Ix 2)));
    SetL "c" (Ix 3) (B2 (FFun2 "fmod") (Ln "a" (Ix 3)) (Ln "b" (Ix 3)))]
   ["c"];
  (* v4/v4_avx2.h:1259-1259 *)
  fnc "log" 1259 [("a", 4)]
   [SetL "b" (Ix 0) (U1 (FFun "log") (Ln "a" (Ix 0)));
    SetL "b" (Ix 1) (U1 (FFun "log") (Ln "a" (Ix 1)));
    SetL "b" (Ix 2) (U1 (FFun "log") (Ln "a" (Ix 2)));
    SetL "b" (Ix 3) (U1 (FFun "log") (Ln "a" (Ix 3)))]
   ["b"];
  (* v4/v4_avx2.h:1260-1260 *)
  fnc "log10" 1260 [("a", 4)]
   [SetL "b" (Ix 0) (U1 (FFun "log10") (Ln "a" (Ix 0)));
    SetL "b" (Ix 1) (U1 (FFun "log10") (Ln "a" (Ix 1)));
    SetL "b" (Ix 2) (U1 (FFun "log10") (Ln "a" (Ix 2)));
    SetL "b" (Ix 3) (U1 (FFun "log10") (Ln "a" (Ix 3)))]
   ["b"];
  (* v4/v4_avx2.h:1260-1260 *)
  fnc "pow" 1260 [("a", 4); ("b", 4)]
   [SetL "c" (Ix 0) (B2 (FFun2 "pow") (Ln "a" (Ix 0)) (Ln "b" (Ix 0)));
    SetL "c" (Ix 1) (B2 (FFun2 "pow") (Ln "a" (Ix 1)) (Ln "b" (Ix 1)));
    SetL "c" (Ix 2) (B2 (FFun2 "pow") (Ln "a" (Ix 2)) (Ln "b" (Ix 2)));
    SetL "c" (Ix 3) (B2 (FFun2 "pow") (Ln "a" (Ix 3)) (Ln "b" (Ix 3)))]
   ["c"];
  (* v4/v4_avx2.h:1260-1260 *)
  fnc "sin" 1260 [("a", 4)]
   [SetL "b" (Ix 0) (U1 (FFun "sin") (Ln "a" (Ix 0)));
    SetL "b" (Ix 1) (U1 (FFun "sin") (Ln "a" (Ix 1)));
    SetL "b" (Ix 2) (U1 (FFun "sin") (Ln "a" (Ix 2)));
    SetL "b" (Ix 3) (U1 (FFun "sin") (Ln "a" (Ix 3)))]
   ["b"];
  (* v4/v4_avx2.h:1260-1260 *)
  fnc "sinh" 1260 [("a", 4)]
   [SetL "b" (Ix 0) (U1 (FFun "sinh") (Ln "a" (Ix 0)));
    SetL "b" (Ix 1) (U1 (FFun "sinh") (Ln "a" (Ix 1)));
    SetL "b" (Ix 2) (U1 (FFun "sinh") (Ln "a" (Ix 2)));
    SetL "b" (Ix 3) (U1 (FFun "sinh") (Ln "a" (Ix 3)))]
   ["b"];
  (* v4/v4_avx2.h:1261-1261 *)
  fnc "tan" 1261 [("a", 4)]
   [SetL "b" (Ix 0) (U1 (FFun "tan") (Ln "a" (Ix 0)));
    SetL "b" (Ix 1) (U1 (FFun "tan") (Ln "a" (Ix 1)));
    SetL "b" (Ix 2) (U1 (FFun "tan") (Ln "a" (Ix 2)));
    SetL "b" (Ix 3) (U1 (FFun "tan") (Ln "a" (Ix 3)))]
   ["b"];
  (* v4/v4_avx2.h:1261-1261 *)
  fnc "tanh" 1261 [("a", 4)]
   [SetL "b" (Ix 0) (U1 (FFun "tanh") (Ln "a" (Ix 0)));
    SetL "b" (Ix 1) (U1 (FFun "tanh") (Ln "a" (Ix 1)));
    SetL "b" (Ix 2) (U1 (FFun "tanh") (Ln "a" (Ix 2)));
    SetL "b" (Ix 3) (U1 (FFun "tanh") (Ln "a" (Ix 3)))]
   ["b"];
  (* v4/v4_avx2.h:1266-1273 *)
  fnc "fabs" 1266 [("a", 4)]
   [SetV "b" (V2 VAndnot (VSet1 (Cst 2147483648)) (VReg "a"))]
   ["b"];
  (* v4/v4_avx2.h:1275-1282 *)
  fnc "sqrt" 1275 [("a", 4)]
   [SetV "b" (V1 FSqrt (VReg "a"))]
   ["b"];
  (* v4/v4_avx2.h:1284-1294 *)
  fnc "copysign" 1284 [("a", 4); ("b", 4)]
   [SetV "t" (VSet1 (Cst 2147483648));
    SetV "c" (V2 IOr (V2 IAnd (VReg "t") (VReg "b")) (V2 VAndnot (VReg "t") (VReg "a")))]
   ["c"];
  (* v4/v4_avx2.h:1298-1305 *)
  fnc "rsqrt_approx" 1298 [("a", 4)]
   [SetV "b" (V1 FRsqrtE (VReg "a"))]
   ["b"];
  (* v4/v4_avx2.h:1307-1323 *)
  fnc "rsqrt" 1307 [("a", 4)]
   [SetV "b_v" (V1 FRsqrtE (VReg "a"));
    SetV "b" (V3 Fmadd (VSet1 (Cst 1056964608)) (V3 Fnmadd (VReg "a") (V2 FMul (VReg "b_v") (V2 FMul (VReg "b_v") (VReg "b_v"))) (VReg "b_v")) (VReg "b_v"))]
   ["b"];
  (* v4/v4_avx2.h:1369-1376 *)
  fnc "rcp_approx" 1369 [("a", 4)]
   [SetV "b" (V1 FRcpE (VReg "a"))]
   ["b"];
  (* v4/v4_avx2.h:1378-1391 *)
  fnc "rcp" 1378 [("a", 4)]
   [SetV "b_v" (V1 FRcpE (VReg "a"));
    SetV "b" (V3 Fnmadd (VReg "a") (V2 FMul (VReg "b_v") (VReg "b_v")) (V2 FAdd (VReg "b_v") (VReg "b_v")))]
   ["b"];
  (* v4/v4_avx2.h:1429-1436 *)
  fnc "fma" 1429 [("a", 4); ("b", 4); ("c", 4)]
   [SetV "d" (V3 Fmadd (VReg "a") (VReg "b") (VReg "c"))]
   ["d"];
  (* v4/v4_avx2.h:1438-1445 *)
  fnc "fms" 1438 [("a", 4); ("b", 4); ("c", 4)]
   [SetV "d" (V3 Fmsub (VReg "a") (VReg "b") (VReg "c"))]
   ["d"];
  (* v4/v4_avx2.h:1447-1454 *)
  fnc "fnms" 1447 [("a", 4); ("b", 4); ("c", 4)]
   [SetV "d" (V3 Fnmadd (VReg "a") (VReg "b") (VReg "c"))]
   ["d"];
  (* v4/v4_avx2.h:1456-1463 *)
  fnc "clear_bits" 1456 [("m", 4); ("a", 4)]
   [SetV "b" (V2 VAndnot (VReg "m") (VReg "a"))]
   ["b"];
  (* v4/v4_avx2.h:1465-1472 *)
  fnc "set_bits" 1465 [("m", 4); ("a", 4)]
   [SetV "b" (V2 IOr (VReg "m") (VReg "a"))]
   ["b"];
  (* v4/v4_avx2.h:1474-1481 *)
  fnc "toggle_bits" 1474 [("m", 4); ("a", 4)]
   [SetV "b" (V2 IXor (VReg "m") (VReg "a"))]
   ["b"];
  (* v4/v4_avx2.h:1483-1487 *)
  fnc "increment" 1483 [("p", 4); ("a", 4)]
   [SetV "p" (V2 FAdd (VReg "p") (VReg "a"))]
   ["p"];
  (* v4/v4_avx2.h:1489-1493 *)
  fnc "decrement" 1489 [("p", 4); ("a", 4)]
   [SetV "p" (V2 FSub (VReg "p") (VReg "a"))]
   ["p"];
  (* v4/v4_avx2.h:1495-1499 *)
  fnc "scale" 1495 [("p", 4); ("a", 4)]
   [SetV "p" (V2 FMul (VReg "p") (VReg "a"))]
   ["p"];
  (* v4/v4_avx2.h:646-647 *)
  fnc "int from copy" 646 [("a", 4)]
   [SetV "this" (VReg "a")]
   ["this"];
  (* v4/v4_avx2.h:648-652 *)
  fnc "int from mixed" 648 [("a", 4)]
   [SetV "this" (VReg "a")]
   ["this"];
  (* v4/v4_avx2.h:653-664 *)
  fnc "int from scalar" 653 [("a", 1)]
   [SetL "u" (Ix 0) (Ln "a" (Ix 0));
    SetV "this" (VSet1 (Ln "u" (Ix 0)))]
   ["this"];
  (* v4/v4_avx2.h:1036-1037 *)
  fnc "float from copy" 1036 [("a", 4)]
   [SetV "this" (VReg "a")]
   ["this"];
  (* v4/v4_avx2.h:1038-1042 *)
  fnc "float from mixed" 1038 [("a", 4)]
   [SetV "this" (VReg "a")]
   ["this"];
  (* v4/v4_avx2.h:1043-1047 *)
  fnc "float from scalar" 1043 [("a", 1)]
   [SetV "this" (VSet1 (Ln "a" (Ix 0)))]
   ["this"]].

(* src/util/v4/v4_avx2.h:150-153 *)
Definition any_v4_avx2 : fn :=
  fnc "any" 150 [("a", 4)]
   [SetL "ret" (Ix 0) (B2 ILOr (B2 ILOr (B2 ILOr (Ln "a" (Ix 0)) (Ln "a" (Ix 1))) (Ln "a" (Ix 2))) (Ln "a" (Ix 3)))]
   ["ret"].

(* src/util/v4/v4_avx2.h:155-158 *)
Definition all_v4_avx2 : fn :=
  fnc "all" 155 [("a", 4)]
   [SetL "ret" (Ix 0) (B2 ILAnd (B2 ILAnd (B2 ILAnd (Ln "a" (Ix 0)) (Ln "a" (Ix 1))) (Ln "a" (Ix 2))) (Ln "a" (Ix 3)))]
   ["ret"].

(* src/util/v4/v4_avx2.h:160-168 *)
Definition splat_v4_avx2 (n : nat) : fn :=
  fnc "splat" 160 [("a", 4)]
   [SetV "b" (VShuf (VReg "a") (VReg "a") (n*(1 + 1*4 + 1*16 + 1*64))%nat)]
   ["b"].

(* src/util/v4/v4_avx2.h:170-178 *)
Definition shuffle_v4_avx2 (i0 i1 i2 i3 : nat) : fn :=
  fnc "shuffle" 170 [("a", 4)]
   [SetV "b" (VShuf (VReg "a") (VReg "a") ((i0 + i1*4 + i2*16 + i3*64))%nat)]
   ["b"].

(* src/util/v4/v4_avx2.h:1504-1530 *)
Definition trilinear_v4_avx2 : fn :=
  fnc "trilinear" 1504 [("wl", 4); ("wh", 4)]
   [SetV "l" (VSet1 (Cst 1065353216));
    SetV "s" (VSetr [(Cst 2147483648); (Cst 0); (Cst 2147483648); (Cst 0)]);
    SetV "z" (VReg "wl");
    SetV "xy" (V2 FAdd (VReg "l") (V2 IXor (VReg "s") (VShuf (VReg "z") (VReg "z") (0+0*4+1*16+1*64)%nat)));
    SetV "z" (V2 FAdd (VReg "l") (V2 IXor (VReg "s") (VShuf (VReg "z") (VReg "z") (2+2*4+2*16+2*64)%nat)));
    SetV "xy" (V2 FMul (VShuf (VReg "xy") (VReg "xy") (0+1*4+0*16+1*64)%nat) (VShuf (VReg "xy") (VReg "xy") (2+2*4+3*16+3*64)%nat));
    SetV "wl" (V2 FMul (VReg "xy") (VShuf (VReg "z") (VReg "z") (0+0*4+0*16+0*64)%nat));
    SetV "wh" (V2 FMul (VReg "xy") (VShuf (VReg "z") (VReg "z") (1+1*4+1*16+1*64)%nat))]
   ["wl"; "wh"].

(* src/util/v4/v4_avx2.h:665-680 *)
Definition int_from_scalars_v4_avx2 : fn :=
  fnc "int from scalars" 665 [("i0", 1); ("i1", 1); ("i2", 1); ("i3", 1)]
   [SetL "u0" (Ix 0) (Ln "i0" (Ix 0));
    SetL "u1" (Ix 0) (Ln "i1" (Ix 0));
    SetL "u2" (Ix 0) (Ln "i2" (Ix 0));
    SetL "u3" (Ix 0) (Ln "i3" (Ix 0));
    SetV "this" (VSetr [(Ln "u0" (Ix 0)); (Ln "u1" (Ix 0)); (Ln "u2" (Ix 0)); (Ln "u3" (Ix 0))])]
   ["this"].

(* src/util/v4/v4_avx2.h:1048-1052 *)
Definition float_from_scalars_v4_avx2 : fn :=
  fnc "float from scalars" 1048 [("f0", 1); ("f1", 1); ("f2", 1); ("f3", 1)]
   [SetV "this" (VSetr [(Ln "f0" (Ix 0)); (Ln "f1" (Ix 0)); (Ln "f2" (Ix 0)); (Ln "f3" (Ix 0))])]
   ["this"].

(* src/util/v4/v4_neon.h *)
Definition ops_v4_neon : list fn := [
  (* v4/v4_neon.h:792-792 *)
  fnc "int +=" 792 [("this", 4); ("b", 4)]
   [For (4) [SetL "this" J (B2 IAdd (Ln "this" J) (Ln "b" J))]]
   ["this"];
  (* v4/v4_neon.h:793-793 *)
  fnc "int -=" 793 [("this", 4); ("b", 4)]
   [For (4) [SetL "this" J (B2 ISub (Ln "this" J) (Ln "b" J))]]
   ["this"];
  (* v4/v4_neon.h:794-794 *)
  fnc "int *=" 794 [("this", 4); ("b", 4)]
   [For (4) [SetL "this" J (B2 IMul (Ln "this" J) (Ln "b" J))]]
   ["this"];
  (* v4/v4_neon.h:795-795 *)
  fnc "int /=" 795 [("this", 4); ("b", 4)]
   [For (4) [SetL "this" J (B2 IDiv (Ln "this" J) (Ln "b" J))]]
   ["this"];
  (* v4/v4_neon.h:796-796 *)
  fnc "int %=" 796 [("this", 4); ("b", 4)]
   [For (4) [SetL "this" J (B2 IMod (Ln "this" J) (Ln "b" J))]]
   ["this"];
  (* v4/v4_neon.h:797-797 *)
  fnc "int <<=" 797 [("this", 4); ("b", 4)]
   [For (4) [SetL "this" J (B2 IShl (Ln "this" J) (Ln "b" J))]]
   ["this"];
  (* v4/v4_neon.h:798-798 *)
  fnc "int >>=" 798 [("this", 4); ("b", 4)]
   [For (4) [SetL "this" J (B2 IShr (Ln "this" J) (Ln "b" J))]]
   ["this"];
  (* v4/v4_neon.h:802-807 *)
  fnc "int =" 802 [("this", 4); ("b", 4)]
   [SetV "this" (VReg "b")]
   ["this"];
  (* v4/v4_neon.h:809-814 *)
  fnc "int ^=" 809 [("this", 4); ("b", 4)]
   [SetV "this" (V2 IXor (VReg "this") (VReg "b"))]
   ["this"];
  (* v4/v4_neon.h:816-821 *)
  fnc "int &=" 816 [("this", 4); ("b", 4)]
   [SetV "this" (V2 IAnd (VReg "this") (VReg "b"))]
   ["this"];
  (* v4/v4_neon.h:823-828 *)
  fnc "int |=" 823 [("this", 4); ("b", 4)]
   [SetV "this" (V2 IOr (VReg "this") (VReg "b"))]
   ["this"];
  (* v4/v4_neon.h:855-855 *)
  fnc "int unary+" 855 [("a", 4)]
   [For (4) [SetL "b" J (Ln "a" J)]]
   ["b"];
  (* v4/v4_neon.h:856-856 *)
  fnc "int unary-" 856 [("a", 4)]
   [For (4) [SetL "b" J (U1 INeg (Ln "a" J))]]
   ["b"];
  (* v4/v4_neon.h:858-867 *)
  fnc "int !" 858 [("a", 4)]
   [For (4) [SetL "b" J (U1 INeg (U1 ILNot (Ln "a" J)))]]
   ["b"];
  (* v4/v4_neon.h:869-869 *)
  fnc "int ~" 869 [("a", 4)]
   [For (4) [SetL "b" J (U1 INot (Ln "a" J))]]
   ["b"];
  (* v4/v4_neon.h:885-885 *)
  fnc "int pre++" 885 [("a", 4)]
   [For (4) [SetL "a" J (B2 IAdd (Ln "a" J) (Cst 1)); SetL "b" J (Ln "a" J)]]
   ["b"; "a"];
  (* v4/v4_neon.h:886-886 *)
  fnc "int pre--" 886 [("a", 4)]
   [For (4) [SetL "a" J (B2 ISub (Ln "a" J) (Cst 1)); SetL "b" J (Ln "a" J)]]
   ["b"; "a"];
  (* v4/v4_neon.h:902-902 *)
  fnc "int post++" 902 [("a", 4)]
   [For (4) [SetL "b" J (Ln "a" J); SetL "a" J (B2 IAdd (Ln "a" J) (Cst 1))]]
   ["b"; "a"];
  (* v4/v4_neon.h:903-903 *)
  fnc "int post--" 903 [("a", 4)]
   [For (4) [SetL "b" J (Ln "a" J); SetL "a" J (B2 ISub (Ln "a" J) (Cst 1))]]
   ["b"; "a"];
  (* v4/v4_neon.h:919-919 *)
  fnc "int +" 919 [("a", 4); ("b", 4)]
   [For (4) [SetL "c" J (B2 IAdd (Ln "a" J) (Ln "b" J))]]
   ["c"];
  (* v4/v4_neon.h:920-920 *)
  fnc "int -" 920 [("a", 4); ("b", 4)]
   [For (4) [SetL "c" J (B2 ISub (Ln "a" J) (Ln "b" J))]]
   ["c"];
  (* v4/v4_neon.h:921-921 *)
  fnc "int *" 921 [("a", 4); ("b", 4)]
   [For (4) [SetL "c" J (B2 IMul (Ln "a" J) (Ln "b" J))]]
   ["c"];
  (* v4/v4_neon.h:922-922 *)
  fnc "int /" 922 [("a", 4); ("b", 4)]
   [For (4) [SetL "c" J (B2 IDiv (Ln "a" J) (Ln "b" J))]]
   ["c"];
  (* v4/v4_neon.h:923-923 *)
  fnc "int %" 923 [("a", 4); ("b", 4)]
   [For (4) [SetL "c" J (B2 IMod (Ln "a" J) (Ln "b" J))]]
   ["c"];
  (* v4/v4_neon.h:924-924 *)
  fnc "int <<" 924 [("a", 4); ("b", 4)]
   [For (4) [SetL "c" J (B2 IShl (Ln "a" J) (Ln "b" J))]]
   ["c"];
  (* v4/v4_neon.h:925-925 *)
  fnc "int >>" 925 [("a", 4); ("b", 4)]
   [For (4) [SetL "c" J (B2 IShr (Ln "a" J) (Ln "b" J))]]
   ["c"];
  (* v4/v4_neon.h:929-936 *)
  fnc "int ^" 929 [("a", 4); ("b", 4)]
   [SetV "c" (V2 IXor (VReg "a") (VReg "b"))]
   ["c"];
  (* v4/v4_neon.h:938-945 *)
  fnc "int &" 938 [("a", 4); ("b", 4)]
   [SetV "c" (V2 IAnd (VReg "a") (VReg "b"))]
   ["c"];
  (* v4/v4_neon.h:947-954 *)
  fnc "int |" 947 [("a", 4); ("b", 4)]
   [SetV "c" (V2 IOr (VReg "a") (VReg "b"))]
   ["c"];
  (* v4/v4_neon.h:968-968 *)
  fnc "int <" 968 [("a", 4); ("b", 4)]
   [For (4) [SetL "c" J (U1 INeg (B2 ILt (Ln "a" J) (Ln "b" J)))]]
   ["c"];
  (* v4/v4_neon.h:969-969 *)
  fnc "int >" 969 [("a", 4); ("b", 4)]
   [For (4) [SetL "c" J (U1 INeg (B2 IGt (Ln "a" J) (Ln "b" J)))]]
   ["c"];
  (* v4/v4_neon.h:970-970 *)
  fnc "int ==" 970 [("a", 4); ("b", 4)]
   [For (4) [SetL "c" J (U1 INeg (B2 IEq (Ln "a" J) (Ln "b" J)))]]
   ["c"];
  (* v4/v4_neon.h:971-971 *)
  fnc "int !=" 971 [("a", 4); ("b", 4)]
   [For (4) [SetL "c" J (U1 INeg (B2 INe (Ln "a" J) (Ln "b" J)))]]
   ["c"];
  (* v4/v4_neon.h:972-972 *)
  fnc "int <=" 972 [("a", 4); ("b", 4)]
   [For (4) [SetL "c" J (U1 INeg (B2 ILe (Ln "a" J) (Ln "b" J)))]]
   ["c"];
  (* v4/v4_neon.h:973-973 *)
  fnc "int >=" 973 [("a", 4); ("b", 4)]
   [For (4) [SetL "c" J (U1 INeg (B2 IGe (Ln "a" J) (Ln "b" J)))]]
   ["c"];
  (* v4/v4_neon.h:974-974 *)
  fnc "int &&" 974 [("a", 4); ("b", 4)]
   [For (4) [SetL "c" J (U1 INeg (B2 ILAnd (Ln "a" J) (Ln "b" J)))]]
   ["c"];
  (* v4/v4_neon.h:975-975 *)
  fnc "int ||" 975 [("a", 4); ("b", 4)]
   [For (4) [SetL "c" J (U1 INeg (B2 ILOr (Ln "a" J) (Ln "b" J)))]]
   ["c"];
  (* v4/v4_neon.h:981-990 *)
  fnc "int abs" 981 [("a", 4)]
   [For (4) [SetL "b" J (Cond (B2 IGe (Ln "a" J) (Cst 0)) (Ln "a" J) (U1 INeg (Ln "a" J)))]]
   ["b"];
  (* v4/v4_neon.h:992-1006 *)
  fnc "czero" 992 [("c", 4); ("a", 4)]
   [For (4) [SetL "b" J (B2 IAnd (Ln "a" J) (U1 INot (Ln "c" J)))]]
   ["b"];
  (* v4/v4_neon.h:1008-1021 *)
  fnc "notczero" 1008 [("c", 4); ("a", 4)]
   [SetV "b" (V2 IAnd (VReg "c") (VReg "a"))]
   ["b"];
  (* v4/v4_neon.h:1023-1042 *)
  fnc "merge" 1023 [("c", 4); ("t", 4); ("f", 4)]
   [For (4) [SetL "tf" J (B2 IOr (B2 IAnd (Ln "f" J) (U1 INot (Ln "c" J))) (B2 IAnd (Ln "t" J) (Ln "c" J)))]]
   ["tf"];
  (* v4/v4_neon.h:1158-1158 *)
  fnc "float +=" 1158 [("this", 4); ("b", 4)]
   [SetV "this" (V2 FAdd (VReg "this") (VReg "b"))]
   ["this"];
  (* v4/v4_neon.h:1159-1159 *)
  fnc "float -=" 1159 [("this", 4); ("b", 4)]
   [SetV "this" (V2 FSub (VReg "this") (VReg "b"))]
   ["this"];
  (* v4/v4_neon.h:1160-1160 *)
  fnc "float *=" 1160 [("this", 4); ("b", 4)]
   [SetV "this" (V2 FMul (VReg "this") (VReg "b"))]
   ["this"];
  (* v4/v4_neon.h:1161-1161 *)
  fnc "float /=" 1161 [("this", 4); ("b", 4)]
   [SetV "this" (V2 FDiv (VReg "this") (VReg "b"))]
   ["this"];
  (* v4/v4_neon.h:1165-1170 *)
  fnc "float =" 1165 [("this", 4); ("b", 4)]
   [SetV "this" (VReg "b")]
   ["this"];
  (* v4/v4_neon.h:1187-1194 *)
  fnc "float unary+" 1187 [("a", 4)]
   [SetV "b" (VReg "a")]
   ["b"];
  (* v4/v4_neon.h:1196-1207 *)
  fnc "float unary-" 1196 [("a", 4)]
   [For (4) [SetL "b" J (U1 FNeg (Ln "a" J))]]
   ["b"];
  (* v4/v4_neon.h:1209-1220 *)
  fnc "float !" 1209 [("a", 4)]
   [For (4) [SetL "b" J (Cond (Ln "a" J) (Cst 0) (Cst 4294967295))]]
   ["b"];
  (* v4/v4_neon.h:1224-1238 *)
  fnc "float pre++" 1224 [("a", 4)]
   [For (4) [SetL "a" J (B2 FAdd (Ln "a" J) (Cst 1065353216)); SetL "b" J (Ln "a" J)]]
   ["b"; "a"];
  (* v4/v4_neon.h:1240-1254 *)
  fnc "float pre--" 1240 [("a", 4)]
   [For (4) [SetL "a" J (B2 FSub (Ln "a" J) (Cst 1065353216)); SetL "b" J (Ln "a" J)]]
   ["b"; "a"];
  (* v4/v4_neon.h:1258-1272 *)
  fnc "float post++" 1258 [("a", 4)]
   [For (4) [SetL "b" J (Ln "a" J); SetL "a" J (B2 FAdd (Ln "a" J) (Cst 1065353216))]]
   ["b"; "a"];
  (* v4/v4_neon.h:1274-1288 *)
  fnc "float post--" 1274 [("a", 4)]
   [For (4) [SetL "b" J (Ln "a" J); SetL "a" J (B2 FSub (Ln "a" J) (Cst 1065353216))]]
   ["b"; "a"];
  (* v4/v4_neon.h:1300-1300 *)
  fnc "float +" 1300 [("a", 4); ("b", 4)]
   [SetV "c" (V2 FAdd (VReg "a") (VReg "b"))]
   ["c"];
  (* v4/v4_neon.h:1301-1301 *)
  fnc "float -" 1301 [("a", 4); ("b", 4)]
   [SetV "c" (V2 FSub (VReg "a") (VReg "b"))]
   ["c"];
  (* v4/v4_neon.h:1302-1302 *)
  fnc "float *" 1302 [("a", 4); ("b", 4)]
   [SetV "c" (V2 FMul (VReg "a") (VReg "b"))]
   ["c"];
  (* v4/v4_neon.h:1303-1303 *)
  fnc "float /" 1303 [("a", 4); ("b", 4)]
   [SetV "c" (V2 FDiv (VReg "a") (VReg "b"))]
   ["c"];
  (* v4/v4_neon.h:1317-1317 *)
  fnc "float <" 1317 [("a", 4); ("b", 4)]
   [SetV "c" (V2 (VCmp CLt) (VReg "a") (VReg "b"))]
   ["c"];
  (* v4/v4_neon.h:1318-1318 *)
  fnc "float >" 1318 [("a", 4); ("b", 4)]
   [SetV "c" (V2 (VCmp CGt) (VReg "a") (VReg "b"))]
   ["c"];
  (* v4/v4_neon.h:1319-1319 *)
  fnc "float ==" 1319 [("a", 4); ("b", 4)]
   [SetV "c" (V2 (VCmp CEq) (VReg "a") (VReg "b"))]
   ["c"];
  (* v4/v4_neon.h:1320-1320 *)
  fnc "float <=" 1320 [("a", 4); ("b", 4)]
   [SetV "c" (V2 (VCmp CLe) (VReg "a") (VReg "b"))]
   ["c"];
  (* v4/v4_neon.h:1321-1321 *)
  fnc "float >=" 1321 [("a", 4); ("b", 4)]
   [SetV "c" (V2 (VCmp CGe) (VReg "a") (VReg "b"))]
   ["c"];
  (* v4/v4_neon.h:1325-1336 *)
  fnc "float !=" 1325 [("a", 4); ("b", 4)]
   [SetV "c" (V1 INot (V2 (VCmp CEq) (VReg "a") (VReg "b")))]
   ["c"];
  (* v4/v4_neon.h:1338-1356 *)
  fnc "float &&" 1338 [("a", 4); ("b", 4)]
   [SetV "vzero" (VSet1 (Cst 0));
    SetV "c" (V2 IAnd (V1 INot (V2 (VCmp CEq) (VReg "a") (VReg "vzero"))) (V1 INot (V2 (VCmp CEq) (VReg "b") (VReg "vzero"))))]
   ["c"];
  (* v4/v4_neon.h:1358-1376 *)
  fnc "float ||" 1358 [("a", 4); ("b", 4)]
   [SetV "vzero" (VSet1 (Cst 0));
    SetV "c" (V2 IOr (V1 INot (V2 (VCmp CEq) (VReg "a") (VReg "vzero"))) (V1 INot (V2 (VCmp CEq) (VReg "b") (VReg "vzero"))))]
   ["c"];
  (* v4/v4_neon.h:1400-1400 *)
  fnc "acos" 1400 [("a", 4)]
   [For (4) [SetL "b" J (U1 (FFun "acos") (Ln "a" J))]]
   ["b"];
  (* v4/v4_neon.h:1400-1400 *)
  fnc "asin" 1400 [("a", 4)]
   [For (4) [SetL "b" J (U1 (FFun "asin") (Ln "a" J))]]
   ["b"];
  (* v4/v4_neon.h:1400-1400 *)
  fnc "atan" 1400 [("a", 4)]
   [For (4) [SetL "b" J (U1 (FFun "atan") (Ln "a" J))]]
   ["b"];
  (* v4/v4_neon.h:1400-1400 *)
  fnc "atan2" 1400 [("a", 4); ("b", 4)]
   [For (4) [SetL "c" J (B2 (FFun2 "atan2") (Ln "a" J) (Ln "b" J))]]
   ["c"];
  (* v4/v4_neon.h:1401-1401 *)
  fnc "ceil" 1401 [("a", 4)]
   [For (4) [SetL "b" J (U1 (FFun "ceil") (Ln "a" J))]]
   ["b"];
  (* v4/v4_neon.h:1401-1401 *)
  fnc "cos" 1401 [("a", 4)]
   [For (4) [SetL "b" J (U1 (FFun "cos") (Ln "a" J))]]
   ["b"];
  (* v4/v4_neon.h:1401-1401 *)
  fnc "cosh" 1401 [("a", 4)]
   [For (4) [SetL "b" J (U1 (FFun "cosh") (Ln "a" J))]]
   ["b"];
  (* v4/v4_neon.h:1401-1401 *)
  fnc "exp" 1401 [("a", 4)]
   [For (4) [SetL "b" J (U1 (FFun "exp") (Ln "a" J))]]
   ["b"];
  (* v4/v4_neon.h:1402-1402 *)
  fnc "fabs" 1402 [("a", 4)]
   [For (4) [SetL "b" J (U1 FAbs (Ln "a" J))]]
   ["b"];
  (* v4/v4_neon.h:1402-1402 *)
  fnc "floor" 1402 [("a", 4)]
   [For (4) [SetL "b" J (U1 (FFun "floor") (Ln "a" J))]]
   ["b"];
  (* v4/v4_neon.h:1402-1402 *)
  fnc "fmod" 1402 [("a", 4); ("b", 4)]
   [For (4) [SetL "c" J (B2 (FFun2 "fmod") (Ln "a" J) (Ln "b" J))]]
   ["c"];
  (* v4/v4_neon.h:1402-1402 *)
  fnc "log" 1402 [("a", 4)]
   [For (4) [SetL "b" J (U1 (FFun "log") (Ln "a" J))]]
   ["b"];
  (* v4/v4_neon.h:1403-1403 *)
  fnc "log10" 1403 [("a", 4)]
   [For (4) [SetL "b" J (U1 (FFun "log10") (Ln "a" J))]]
   ["b"];
  (* v4/v4_neon.h:1403-1403 *)
  fnc "pow" 1403 [("a", 4); ("b", 4)]
   [For (4) [SetL "c" J (B2 (FFun2 "pow") (Ln "a" J) (Ln "b" J))]]
   ["c"];
  (* v4/v4_neon.h:1403-1403 *)
  fnc "sin" 1403 [("a", 4)]
   [For (4) [SetL "b" J (U1 (FFun "sin") (Ln "a" J))]]
   ["b"];
  (* v4/v4_neon.h:1403-1403 *)
  fnc "sinh" 1403 [("a", 4)]
   [For (4) [SetL "b" J (U1 (FFun "sinh") (Ln "a" J))]]
   ["b"];
  (* v4/v4_neon.h:1404-1404 *)
  fnc "sqrt" 1404 [("a", 4)]
   [For (4) [SetL "b" J (U1 FSqrt (Ln "a" J))]]
   ["b"];
  (* v4/v4_neon.h:1404-1404 *)
  fnc "tan" 1404 [("a", 4)]
   [For (4) [SetL "b" J (U1 (FFun "tan") (Ln "a" J))]]
   ["b"];
  (* v4/v4_neon.h:1404-1404 *)
  fnc "tanh" 1404 [("a", 4)]
   [For (4) [SetL "b" J (U1 (FFun "tanh") (Ln "a" J))]]
   ["b"];
  (* v4/v4_neon.h:1409-1423 *)
  fnc "copysign" 1409 [("a", 4); ("b", 4)]
   [For (4) [SetL "t" (Ix 0) (U1 FAbs (Ln "a" J)); SetL "t" (Ix 0) (Cond (B2 (FCmp CLt) (Ln "b" J) (Cst 0)) (U1 FNeg (Ln "t" (Ix 0))) (Ln "t" (Ix 0))); SetL "c" J (Ln "t" (Ix 0))]]
   ["c"];
  (* v4/v4_neon.h:1427-1434 *)
  fnc "rsqrt_approx" 1427 [("a", 4)]
   [SetV "b" (V1 FRsqrtE (VReg "a"))]
   ["b"];
  (* v4/v4_neon.h:1436-1460 *)
  fnc "rsqrt" 1436 [("a", 4)]
   [SetV "a_v" (VReg "a");
    SetV "b_v" (V1 FRsqrtE (VReg "a_v"));
    SetV "b" (V2 FAdd (VReg "b_v") (V2 FMul (VSet1 (Cst 1056964608)) (V2 FSub (VReg "b_v") (V2 FMul (VReg "a_v") (V2 FMul (VReg "b_v") (V2 FMul (VReg "b_v") (VReg "b_v")))))))]
   ["b"];
  (* v4/v4_neon.h:1462-1469 *)
  fnc "rcp_approx" 1462 [("a", 4)]
   [SetV "b" (V1 FRcpE (VReg "a"))]
   ["b"];
  (* v4/v4_neon.h:1471-1490 *)
  fnc "rcp" 1471 [("a", 4)]
   [SetV "a_v" (VReg "a");
    SetV "b_v" (V1 FRcpE (VReg "a_v"));
    SetV "b" (V2 FSub (V2 FAdd (VReg "b_v") (VReg "b_v")) (V2 FMul (VReg "a_v") (V2 FMul (VReg "b_v") (VReg "b_v"))))]
   ["b"];
  (* v4/v4_neon.h:1492-1503 *)
  fnc "fma" 1492 [("a", 4); ("b", 4); ("c", 4)]
   [SetV "d" (V2 FAdd (V2 FMul (VReg "a") (VReg "b")) (VReg "c"))]
   ["d"];
  (* v4/v4_neon.h:1505-1514 *)
  fnc "fms" 1505 [("a", 4); ("b", 4); ("c", 4)]
   [SetV "d" (V2 FSub (V2 FMul (VReg "a") (VReg "b")) (VReg "c"))]
   ["d"];
  (* v4/v4_neon.h:1516-1528 *)
  fnc "fnms" 1516 [("a", 4); ("b", 4); ("c", 4)]
   [SetV "d" (V2 FSub (VReg "c") (V2 FMul (VReg "a") (VReg "b")))]
   ["d"];
  (* v4/v4_neon.h:1530-1543 *)
  fnc "clear_bits" 1530 [("m", 4); ("a", 4)]
   [SetV "b" (V2 VBic (VReg "m") (VReg "a"))]
   ["b"];
  (* v4/v4_neon.h:1545-1558 *)
  fnc "set_bits" 1545 [("m", 4); ("a", 4)]
   [SetV "b" (V2 IOr (VReg "m") (VReg "a"))]
   ["b"];
  (* v4/v4_neon.h:1560-1573 *)
  fnc "toggle_bits" 1560 [("m", 4); ("a", 4)]
   [SetV "b" (V2 IXor (VReg "m") (VReg "a"))]
   ["b"];
  (* v4/v4_neon.h:1575-1579 *)
  fnc "increment" 1575 [("p", 4); ("a", 4)]
   [SetV "p" (V2 FAdd (VReg "p") (VReg "a"))]
   ["p"];
  (* v4/v4_neon.h:1581-1585 *)
  fnc "decrement" 1581 [("p", 4); ("a", 4)]
   [SetV "p" (V2 FSub (VReg "p") (VReg "a"))]
   ["p"];
  (* v4/v4_neon.h:1587-1591 *)
  fnc "scale" 1587 [("p", 4); ("a", 4)]
   [SetV "p" (V2 FMul (VReg "p") (VReg "a"))]
   ["p"];
  (* v4/v4_neon.h:738-739 *)
  fnc "int from copy" 738 [("a", 4)]
   [SetV "this" (VReg "a")]
   ["this"];
  (* v4/v4_neon.h:740-744 *)
  fnc "int from mixed" 740 [("a", 4)]
   [SetV "this" (VReg "a")]
   ["this"];
  (* v4/v4_neon.h:745-756 *)
  fnc "int from scalar" 745 [("a", 1)]
   [SetL "u" (Ix 0) (Ln "a" (Ix 0));
    SetV "this" (VSet1 (Ln "u" (Ix 0)))]
   ["this"];
  (* v4/v4_neon.h:1124-1125 *)
  fnc "float from copy" 1124 [("a", 4)]
   [SetV "this" (VReg "a")]
   ["this"];
  (* v4/v4_neon.h:1126-1130 *)
  fnc "float from mixed" 1126 [("a", 4)]
   [SetV "this" (VReg "a")]
   ["this"];
  (* v4/v4_neon.h:1131-1135 *)
  fnc "float from scalar" 1131 [("a", 1)]
   [SetV "this" (VSet1 (Ln "a" (Ix 0)))]
   ["this"]].

(* src/util/v4/v4_neon.h:187-190 *)
Definition any_v4_neon : fn :=
  fnc "any" 187 [("a", 4)]
   [SetL "ret" (Ix 0) (B2 ILOr (B2 ILOr (B2 ILOr (Ln "a" (Ix 0)) (Ln "a" (Ix 1))) (Ln "a" (Ix 2))) (Ln "a" (Ix 3)))]
   ["ret"].

(* src/util/v4/v4_neon.h:192-195 *)
Definition all_v4_neon : fn :=
  fnc "all" 192 [("a", 4)]
   [SetL "ret" (Ix 0) (B2 ILAnd (B2 ILAnd (B2 ILAnd (Ln "a" (Ix 0)) (Ln "a" (Ix 1))) (Ln "a" (Ix 2))) (Ln "a" (Ix 3)))]
   ["ret"].

(* src/util/v4/v4_neon.h:197-207 *)
Definition splat_v4_neon (n : nat) : fn :=
  fnc "splat" 197 [("a", 4)]
   [For (4) [SetL "b" J (Ln "a" (Ix n))]]
   ["b"].

(* src/util/v4/v4_neon.h:209-220 *)
Definition shuffle_v4_neon (i0 i1 i2 i3 : nat) : fn :=
  fnc "shuffle" 209 [("a", 4)]
   [SetL "b" (Ix 0) (Ln "a" (Ix i0));
    SetL "b" (Ix 1) (Ln "a" (Ix i1));
    SetL "b" (Ix 2) (Ln "a" (Ix i2));
    SetL "b" (Ix 3) (Ln "a" (Ix i3))]
   ["b"].

(* src/util/v4/v4_neon.h:1596-1609 *)
Definition trilinear_v4_neon : fn :=
  fnc "trilinear" 1596 [("wl", 4); ("wh", 4)]
   [SetL "x" (Ix 0) (Ln "wl" (Ix 0));
    SetL "y" (Ix 0) (Ln "wl" (Ix 1));
    SetL "z" (Ix 0) (Ln "wl" (Ix 2));
    SetL "wl" (Ix 0) (B2 FMul (B2 FMul (B2 FSub (Cst 1065353216) (Ln "x" (Ix 0))) (B2 FSub (Cst 1065353216) (Ln "y" (Ix 0)))) (B2 FSub (Cst 1065353216) (Ln "z" (Ix 0))));
    SetL "wl" (Ix 1) (B2 FMul (B2 FMul (B2 FAdd (Cst 1065353216) (Ln "x" (Ix 0))) (B2 FSub (Cst 1065353216) (Ln "y" (Ix 0)))) (B2 FSub (Cst 1065353216) (Ln "z" (Ix 0))));
    SetL "wl" (Ix 2) (B2 FMul (B2 FMul (B2 FSub (Cst 1065353216) (Ln "x" (Ix 0))) (B2 FAdd (Cst 1065353216) (Ln "y" (Ix 0)))) (B2 FSub (Cst 1065353216) (Ln "z" (Ix 0))));
    SetL "wl" (Ix 3) (B2 FMul (B2 FMul (B2 FAdd (Cst 1065353216) (Ln "x" (Ix 0))) (B2 FAdd (Cst 1065353216) (Ln "y" (Ix 0)))) (B2 FSub (Cst 1065353216) (Ln "z" (Ix 0))));
    SetL "wh" (Ix 0) (B2 FMul (B2 FMul (B2 FSub (Cst 1065353216) (Ln "x" (Ix 0))) (B2 FSub (Cst 1065353216) (Ln "y" (Ix 0)))) (B2 FAdd (Cst 1065353216) (Ln "z" (Ix 0))));
    SetL "wh" (Ix 1) (B2 FMul (B2 FMul (B2 FAdd (Cst 1065353216) (Ln "x" (Ix 0))) (B2 FSub (Cst 1065353216) (Ln "y" (Ix 0)))) (B2 FAdd (Cst 1065353216) (Ln "z" (Ix 0))));
    SetL "wh" (Ix 2) (B2 FMul (B2 FMul (B2 FSub (Cst 1065353216) (Ln "x" (Ix 0))) (B2 FAdd (Cst 1065353216) (Ln "y" (Ix 0)))) (B2 FAdd (Cst 1065353216) (Ln "z" (Ix 0))));
    SetL "wh" (Ix 3) (B2 FMul (B2 FMul (B2 FAdd (Cst 1065353216) (Ln "x" (Ix 0))) (B2 FAdd (Cst 1065353216) (Ln "y" (Ix 0)))) (B2 FAdd (Cst 1065353216) (Ln "z" (Ix 0))))]
   ["wl"; "wh"].

(* src/util/v4/v4_neon.h:757-777 *)
Definition int_from_scalars_v4_neon : fn :=
  fnc "int from scalars" 757 [("i0", 1); ("i1", 1); ("i2", 1); ("i3", 1)]
   [SetL "this" (Ix 0) (Ln "i0" (Ix 0));
    SetL "this" (Ix 1) (Ln "i1" (Ix 0));
    SetL "this" (Ix 2) (Ln "i2" (Ix 0));
    SetL "this" (Ix 3) (Ln "i3" (Ix 0))]
   ["this"].

(* src/util/v4/v4_neon.h:1136-1145 *)
Definition float_from_scalars_v4_neon : fn :=
  fnc "float from scalars" 1136 [("f0", 1); ("f1", 1); ("f2", 1); ("f3", 1)]
   [SetL "this" (Ix 0) (Ln "f0" (Ix 0));
    SetL "this" (Ix 1) (Ln "f1" (Ix 0));
    SetL "this" (Ix 2) (Ln "f2" (Ix 0));
    SetL "this" (Ix 3) (Ln "f3" (Ix 0))]
   ["this"].
