(* Model of the two variants of inject_particle_raw in /repo/src/vpic/vpic.h, on the arrays of InjectModel.  A store beyond the arrays is
   undefined behaviour (UB).  The charge left behind (line 574) and the currents of move_p are not recorded. *)
From Coq Require Import ZArith List Bool.
Require Import Verif.FloatModel Verif.SortModel Verif.ParticleModel Verif.GridModel Verif.InjectModel.
Import ListNotations.
Open Scope Z_scope.

(* vpic.h:550-558 *)
Definition inject_raw {M : Type} (s : store_of M) (p : part b32) : res (store_of M) :=
  if Z.of_nat (length (s_p s)) <? s_max_np s then Ok (mk_store (s_p s ++ [p]) (s_max_np s) (s_pm s) (s_max_nm s)) else UB.
(* vpic.h:562-576: [move] stands for move_p: whether the mover is still in use, the particle, what remains of the displacement m *)
Definition inject_raw_move {M : Type} (move : part b32 -> M -> bool * part b32 * M) (s : store_of M) (p : part b32) (m : M) : res (store_of M) :=
  if negb (Z.of_nat (length (s_p s)) <? s_max_np s) then UB
  else if negb (Z.of_nat (length (s_pm s)) <? s_max_nm s) then UB
  else let '(busy, p', m') := move p m in
    Ok (mk_store (s_p s ++ [p']) (s_max_np s) (s_pm s ++ if busy then [(m', Z.of_nat (length (s_p s ++ [p])) - 1)] else []) (s_max_nm s)).
(* a deck that injects one particle after the other *)
Fixpoint inject_raw_all {M : Type} (s : store_of M) (ps : list (part b32)) : res (store_of M) :=
  match ps with [] => Ok s | p :: r => bind (inject_raw s p) (fun s' => inject_raw_all s' r) end.
Fixpoint inject_raw_move_all {M : Type} (move : part b32 -> M -> bool * part b32 * M) (s : store_of M) (ps : list (part b32 * M)) : res (store_of M) :=
  match ps with [] => Ok s | (p, m) :: r => bind (inject_raw_move move s p m) (fun s' => inject_raw_move_all move s' r) end.
