(* What each operation of a step assumes about its inputs, as stated in the comments of
   /repo/src/vpic/advance.cc, sf_interface/sf_interface.h, species_advance/species_advance.h and
   field_advance/field_advance.h, and what it leaves.  Times are counted in half steps. *)
From Coq Require Import ZArith List Bool.
From Verif Require Import ScheduleModel.
Import ListNotations.
Open Scope Z_scope.

(* the accumulators: contents unknown; cleared, possibly with deposits in all copies; summed into the host copy *)
Inductive acc_state : Type := AccUnknown | AccOpen | AccReduced.
(* the free current: unknown; cleared; currents of the half step t added; the same summed over shared faces *)
Inductive jf_state : Type := JfUnknown | JfClear | JfLoaded (t : Z) | JfShared (t : option Z).
(* the free charge: unknown; being accumulated at t, with the species done; complete *)
Inductive rho_state : Type := RhoUnknown | RhoOpen (t : Z) (done : list nat) | RhoFull (t : Z).
Record times : Type := mkt {
  t_step : Z; t_e : Z; t_b : Z;
  t_pos : nat -> Z; t_mom : nat -> Z; t_movers : nat -> bool;         (* t_movers: the mover list may hold movers *)
  t_interp : option Z; t_acc : acc_state; t_jf : jf_state; t_rho : rho_state;
  t_rhob : bool; t_curl : bool;                                        (* bound charge and damping fields set *)
  t_erre : bool; t_errb : bool }.                                      (* the divergence errors are those of E and B *)

Section Contracts.
Variable species : list nat.
Definition setf {A} (f : nat -> A) (s : nat) (x : A) : nat -> A := fun k => if Nat.eqb k s then x else f k.
Definition all_species (p : nat -> bool) : bool := forallb p species.
(* every species at positions t, momenta t + d *)
Definition at_time (x : times) (t d : Z) : bool := all_species (fun s => (t_pos x s =? t) && (t_mom x s =? t + d)).
Definition no_movers (x : times) : bool := all_species (fun s => negb (t_movers x s)).
Definition interp_at (x : times) (t : Z) : bool := match t_interp x with Some u => u =? t | None => false end.
Definition acc_is (x : times) (a : acc_state) : bool :=
  match t_acc x, a with AccOpen, AccOpen => true | AccReduced, AccReduced => true | _, _ => false end.

(* a change of E or B, also by cleaning or sharing, makes the interpolators and the divergence error stale; a change of
   the particles the free charge *)
Definition upd_e (x : times) (e : Z) : times :=
  mkt (t_step x) e (t_b x) (t_pos x) (t_mom x) (t_movers x) None (t_acc x) (t_jf x) (t_rho x) (t_rhob x) (t_curl x) false (t_errb x).
Definition upd_b (x : times) (b : Z) : times :=
  mkt (t_step x) (t_e x) b (t_pos x) (t_mom x) (t_movers x) None (t_acc x) (t_jf x) (t_rho x) (t_rhob x) (t_curl x) (t_erre x) false.
Definition upd_p (x : times) (p m : nat -> Z) (mv : nat -> bool) : times :=
  mkt (t_step x) (t_e x) (t_b x) p m mv (t_interp x) (t_acc x) (t_jf x) RhoUnknown (t_rhob x) (t_curl x) false (t_errb x).
Definition upd_acc (x : times) (a : acc_state) : times :=
  mkt (t_step x) (t_e x) (t_b x) (t_pos x) (t_mom x) (t_movers x) (t_interp x) a (t_jf x) (t_rho x) (t_rhob x) (t_curl x) (t_erre x) (t_errb x).
Definition upd_jf (x : times) (j : jf_state) : times :=
  mkt (t_step x) (t_e x) (t_b x) (t_pos x) (t_mom x) (t_movers x) (t_interp x) (t_acc x) j (t_rho x) (t_rhob x) (t_curl x) (t_erre x) (t_errb x).
Definition upd_rho (x : times) (r : rho_state) : times :=
  mkt (t_step x) (t_e x) (t_b x) (t_pos x) (t_mom x) (t_movers x) (t_interp x) (t_acc x) (t_jf x) r (t_rhob x) (t_curl x) false (t_errb x).
Definition upd_set (x : times) (rhob curl erre errb : bool) : times :=
  mkt (t_step x) (t_e x) (t_b x) (t_pos x) (t_mom x) (t_movers x) (t_interp x) (t_acc x) (t_jf x) (t_rho x) rhob curl erre errb.
Definition upd_interp (x : times) (t : Z) : times :=
  mkt (t_step x) (t_e x) (t_b x) (t_pos x) (t_mom x) (t_movers x) (Some t) (t_acc x) (t_jf x) (t_rho x) (t_rhob x) (t_curl x) (t_erre x) (t_errb x).
Definition upd_step (x : times) (n : Z) : times :=
  mkt n (t_e x) (t_b x) (t_pos x) (t_mom x) (t_movers x) (t_interp x) (t_acc x) (t_jf x) (t_rho x) (t_rhob x) (t_curl x) (t_erre x) (t_errb x).

(* the operation under its contract; None: called when its inputs are not what it assumes *)
Definition exec (k : call) (x : times) : option times :=
  let chk (b : bool) (y : times) := if b then Some y else None in
  match k with
  (* a sort, a collision model: positions and momenta of the whole list, no particle between two cells; "Particles
     should not have moved since the last performance sort when calling collision operators" *)
  | SortP s => chk (negb (t_movers x s)) x
  | Collisions | UserCollisions => chk (no_movers x && at_time x (t_e x) (-1) && (t_e x =? t_b x)) x
  | ClearAcc => Some (upd_acc x AccOpen)
  (* "fields are at E_0 and B_0 and the particle positions are at r_0 and u_{-1/2}"; the mover list is empty *)
  | AdvanceP s => chk (acc_is x AccOpen && interp_at x (t_pos x s) && (t_pos x s =? t_e x) && (t_mom x s =? t_pos x s - 1) && negb (t_movers x s))
      (upd_p x (setf (t_pos x) s (t_pos x s + 2)) (setf (t_mom x) s (t_mom x s + 2)) (setf (t_movers x) s true))
  (* "must be done after advance_p and before guard list processing"; into open accumulators if there are species *)
  | Emit | UserInject => chk ((acc_is x AccOpen || negb (some species)) && at_time x (t_e x + 2) (-1))
      (upd_p x (t_pos x) (t_mom x) (fun s => true))
  | ReduceAcc => chk (acc_is x AccOpen) (upd_acc x AccReduced)
  | BoundaryP => chk ((acc_is x AccReduced || negb (some species)) && at_time x (t_e x + 2) (-1)) (upd_p x (t_pos x) (t_mom x) (t_movers x))
  | DropMovers s => Some (upd_p x (t_pos x) (t_mom x) (setf (t_movers x) s false))
  | ClearJf => Some (upd_jf x JfClear)
  (* "the guard lists are empty and the accumulators on each processor are current" *)
  | UnloadAcc => chk (match t_jf x with JfClear => acc_is x AccReduced && no_movers x && at_time x (t_e x + 2) (-1) | _ => false end)
      (upd_acc (upd_jf x (JfLoaded (t_e x + 1))) AccUnknown)
  | SyncJf => match t_jf x with
      | JfClear => chk (negb (some species)) (upd_jf x (JfShared None))
      | JfLoaded t => Some (upd_jf x (JfShared (Some t))) | _ => None end
  | UserCurrent => chk (match t_jf x with JfShared (Some t) => t =? t_e x + 1 | JfShared None => true | _ => false end) x
  (* B_0 to B_1/2 with E_0, B_1/2 to B_1 with E_1 *)
  | HalfAdvanceB => chk ((t_e x =? t_b x) || (t_e x =? t_b x + 1)) (upd_b x (t_b x + 1))
  (* E_0 to E_1 with B_1/2 and the current of the half step *)
  | AdvanceE => chk (t_curl x && (t_b x =? t_e x + 1) && match t_jf x with JfShared (Some t) => t =? t_e x + 1 | JfShared None => true | _ => false end)
      (upd_jf (upd_e x (t_e x + 2)) JfUnknown)
  | UserField => chk (t_e x =? t_b x + 1) (upd_e x (t_e x))
  (* charge of the particles, complete before it is shared and once each *)
  | ClearRhof => Some (upd_rho x (RhoOpen (t_e x) []))
  | AccRho s => match t_rho x with
      | RhoOpen t d => chk ((t_pos x s =? t) && negb (t_movers x s) && negb (existsb (Nat.eqb s) d)) (upd_rho x (RhoOpen t (s :: d))) | _ => None end
  | SyncRho => match t_rho x with
      | RhoOpen t d => chk (all_species (fun s => existsb (Nat.eqb s) d)) (upd_rho x (RhoFull t)) | _ => None end
  | ComputeRhob => chk (match t_rho x with RhoFull t => t =? t_e x | _ => false end) (upd_set x true (t_curl x) false (t_errb x))
  | DivEErr => chk (t_rhob x && match t_rho x with RhoFull t => t =? t_e x | _ => false end) (upd_set x (t_rhob x) (t_curl x) true (t_errb x))
  | RmsE => chk (t_erre x) x
  | CleanE => chk (t_erre x) (upd_e x (t_e x))
  | DivBErr => Some (upd_set x (t_rhob x) (t_curl x) (t_erre x) true)
  | RmsB => chk (t_errb x) x
  | CleanB => chk (t_errb x) (upd_b x (t_b x))
  | SyncTangENormB => chk (t_e x =? t_b x) (upd_b (upd_e x (t_e x)) (t_b x))
  | CurlB => chk (t_e x =? t_b x) (upd_set x (t_rhob x) true (t_erre x) (t_errb x))
  | LoadInterp => chk (t_e x =? t_b x) (upd_interp x (t_e x))
  (* a step ends with all at its end *)
  | IncStep => chk ((t_e x =? 2 * (t_step x + 1)) && (t_b x =? t_e x) && at_time x (t_e x) (-1) && no_movers x) (upd_step x (t_step x + 1))
  | UserDiag => chk ((t_e x =? 2 * t_step x) && (t_b x =? t_e x) && at_time x (t_e x) (-1) && no_movers x && (interp_at x (t_e x) || negb (some species))) x
  (* the deck: fields and particles at time 0, momenta not yet half a step back *)
  | UserInit => Some (mkt 0 0 0 (fun _ => 0) (fun _ => 0) (fun _ => false) None AccUnknown JfUnknown RhoUnknown false false false false)
  | UncenterP s => chk (interp_at x (t_pos x s) && (t_mom x s =? t_pos x s)) (upd_p x (t_pos x) (setf (t_mom x) s (t_mom x s - 1)) (t_movers x))
  | Profile | Register | Message => Some x
  end.
Fixpoint execs (l : list call) (x : times) : option times :=
  match l with [] => Some x | k :: r => match exec k x with Some y => execs r y | None => None end end.

(* ready for the step n *)
Definition ready (n : Z) (x : times) : Prop :=
  t_step x = n /\ t_e x = 2 * n /\ t_b x = 2 * n /\
  (forall s, In s species -> t_pos x s = 2 * n /\ t_mom x s = 2 * n - 1 /\ t_movers x s = false) /\
  (species <> [] -> t_interp x = Some (2 * n)) /\ t_rhob x = true /\ t_curl x = true.
End Contracts.

(* the operations in which ranks exchange messages: all of them must be called by all ranks in the same order *)
Definition collective (k : call) : bool :=
  match k with
  | BoundaryP | SyncJf | HalfAdvanceB | AdvanceE | SyncRho | DivEErr | RmsE | CleanE | DivBErr | RmsB | CleanB | SyncTangENormB
  | LoadInterp | CurlB | ComputeRhob | Profile | Emit | Collisions
  | UserInit | UserDiag | UserField | UserCurrent | UserInject | UserCollisions => true
  | _ => false end.
Definition call_eqb (a b : call) : bool :=
  match a, b with
  | SortP s, SortP t | AdvanceP s, AdvanceP t | DropMovers s, DropMovers t | AccRho s, AccRho t | UncenterP s, UncenterP t => Nat.eqb s t
  | ClearAcc, ClearAcc | Collisions, Collisions | UserCollisions, UserCollisions | Emit, Emit | UserInject, UserInject | ReduceAcc, ReduceAcc
  | BoundaryP, BoundaryP | ClearJf, ClearJf | UnloadAcc, UnloadAcc | SyncJf, SyncJf | UserCurrent, UserCurrent | HalfAdvanceB, HalfAdvanceB
  | AdvanceE, AdvanceE | UserField, UserField | ClearRhof, ClearRhof | SyncRho, SyncRho | DivEErr, DivEErr | RmsE, RmsE | CleanE, CleanE
  | DivBErr, DivBErr | RmsB, RmsB | CleanB, CleanB | SyncTangENormB, SyncTangENormB | LoadInterp, LoadInterp | IncStep, IncStep
  | Profile, Profile | UserDiag, UserDiag | UserInit, UserInit | CurlB, CurlB | ComputeRhob, ComputeRhob | Register, Register | Message, Message => true
  | _, _ => false end.
Definition occurrences (k : call) (l : list call) : Z := Z.of_nat (length (filter (call_eqb k) l)).
(* an interval is meant: every so many steps, counted from step 0; never if not positive *)
Definition on_interval (interval step : Z) : Prop := 0 < interval /\ exists m, step = m * interval.
(* the steps 0 .. n - 1 that are on an interval *)
Definition steps_on (interval n : Z) : Z := if 0 <? interval then (n + interval - 1) / interval else 0.
