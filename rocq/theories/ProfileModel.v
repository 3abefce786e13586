(* Model of the profile timers: TOC of /repo/src/util/profile/profile.h and update_profile of /repo/src/util/profile/profile.cc.  A
   timer is its numbers; the table is the list of timers up to the one without a name.  Undefined behaviour (an int that
   overflows, a double that int cannot hold) is a distinct outcome (None).  Left out: the name and the mean time per call of a
   line of the report, and its text. *)
From Coq Require Import ZArith List Bool.
From Flocq Require Import IEEE754.BinarySingleNaN.
From Verif Require Import FloatModel DistributeModel InjectModel.
Import ListNotations.
Open Scope Z_scope.

(* profile.h:76-80 *)
Record timer := mk_timer { t : b64; t_total : b64; n : Z; n_total : Z }.
(* a sum of ints *)
Definition int_add (a b : Z) : option Z := if (- 2 ^ 31 <=? a + b) && (a + b <? 2 ^ 31) then Some (a + b) else None.
(* (int)x of a double *)
Definition to_int (x : b64) : option Z :=
  if is_finite x then let k := d_trunc x in if (- 2 ^ 31 <=? k) && (k <? 2 ^ 31) then Some k else None else None.

(* profile.h:58-64: TOC, with the time elapsed since TIC *)
Definition toc (elapsed : b64) (calls : Z) (p : timer) : option timer :=
  match int_add (n p) calls with Some k => Some (mk_timer (d_add (t p) elapsed) (t_total p) k (n_total p)) | None => None end.

(* profile.cc:16-21: the first loop, from the sums so far *)
Fixpoint add_up (ps : list timer) (sum sum_total : b64) : option (list timer * b64 * b64) :=
  match ps with
  | [] => Some ([], sum, sum_total)
  | p :: r =>
    let tt := d_add (t_total p) (t p) in
    match int_add (n_total p) (n p) with
    | None => None
    | Some nn => match add_up r (d_add sum (t p)) (d_add sum_total tt) with
        | None => None
        | Some (r', s, st) => Some (mk_timer (t p) tt (n p) nn :: r', s, st)
        end
    end
  end.
(* profile.cc:54: (int)( 100.*p->t/sum + 0.5 ) *)
Definition percent (x sum : b64) : option Z := to_int (d_add (d_div (d_mul (d_of_Z 100) x) sum) d_half).
(* profile.cc:46-60: a line of the report *)
Record line := mk_line { pct : Z; time : b64; count : Z; pct_total : Z; time_total : b64; count_total : Z }.
Fixpoint report (ps : list timer) (sum sum_total : b64) : option (list line) :=
  match ps with
  | [] => Some []
  | p :: r =>
    if (n p =? 0) && (n_total p =? 0) then report r sum sum_total
    else match percent (t p) sum, percent (t_total p) sum_total, report r sum sum_total with
      | Some a, Some b, Some l => Some (mk_line a (t p) (n p) b (t_total p) (n_total p) :: l)
      | _, _, _ => None
      end
  end.
(* profile.cc:65-68 *)
Definition clear (p : timer) : timer := mk_timer (d_of_Z 0) (t_total p) 0 (n_total p).
(* profile.cc:11-69; the lines are those of the report, none without dump *)
Definition update_profile (dump : bool) (ps : list timer) : option (list timer * list line) :=
  match add_up ps (d_of_Z 0) (d_of_Z 0) with
  | None => None
  | Some (ps', sum, sum_total) =>
    let sum := if d_eq sum (d_of_Z 0) then d_of_Z 1 else sum in
    match (if dump then report ps' sum sum_total else Some []) with None => None | Some l => Some (map clear ps', l) end
  end.
