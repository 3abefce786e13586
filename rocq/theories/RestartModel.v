(* Model of a run that continues from a checkpoint (main.cc:70-92), as the checkpoint service sees it, on top of LifeModel.v.  The file is the
   registry at the time of checkpt_objects (checkpt.cc:239-272); restore_objects (checkpt.cc:274-325) drops what boot_services registered and
   registers the objects of the file in their order, each under the address its restore function returns.  phi is that address for each
   object; serial, thread, world and &simulation keep theirs.  Left out: contents of the objects (C31, C69), other programs than the one
   that wrote the file. *)
From Coq Require Import ZArith List Bool.
From Verif Require Import CheckptModel LifeModel.
Import ListNotations.
Open Scope Z_scope.

(* a deck calls checkpt in user_diagnostics, either the call at the end of initialize (initialize.cc:60), when main has not registered
   &simulation yet (main.cc:100-101), or the one of a step (advance.cc:198) *)
Inductive moment := InInitialize | InStep.
Definition at_checkpt (w : moment) (t : threading) (a : statics) (e s : pool) (g mp this : Z) (deck : list create) : outcome service :=
  and_then (boot (mks false false [] 0)) (fun s0 =>
  registers s0 (flat_map (part_objects a) (boots t) ++ constructed e s g mp this ++ flat_map created deck ++
    match w with InInitialize => [] | InStep => [a_main a] end)).

Definition restored_registry (phi : Z -> Z) (s : service) : service :=
  mks true false (map (fun n => mkn (phi (n_obj n)) (n_ck n) (n_rs n) (n_an n) (n_id n)) (s_reg s)) (s_next s).
Definition move_pool (phi : Z -> Z) (p : pool) : pool := {| p_pool := phi (p_pool p); p_rng := map phi (p_rng p) |}.
(* the simulation in the new process: its pointers lead to the restored objects (vpic.cc:41-71) *)
Definition move_sim (phi : Z -> Z) (m : sim) : sim := {| m_entropy := move_pool phi (m_entropy m); m_sync := move_pool phi (m_sync m);
  m_grid := phi (m_grid m); m_mp := phi (m_mp m); m_this := phi (m_this m); m_materials := map phi (m_materials m);
  m_fields := match m_fields m with Some (f, i, a, h) => Some (phi f, phi i, phi a, phi h) | None => None end;
  m_species := map phi (m_species m); m_bcs := map phi (m_bcs m); m_emitters := map phi (m_emitters m); m_cops := map phi (m_cops m) |}.

(* the variable simulation is NULL until restore_main (main.cc:16, 35-39) sets it, which only happens when &simulation is in the
   file; main.cc:112 and 121 then call members of a NULL simulation: undefined *)
Inductive ending := NullSimulation | Ended (o : outcome service).
Definition restored_run (w : moment) (phi : Z -> Z) (t : threading) (a : statics) (e s : pool) (g mp this : Z) (deck : list create) : ending :=
  match at_checkpt w t a e s g mp this deck with
  | Error => Ended Error
  | Done s1 =>
    match find_obj (s_reg s1) (a_main a) with
    | None => NullSimulation
    | Some _ => Ended (and_then (unregisters (restored_registry phi s1)
        ([a_main a] ++ destroyed (move_sim phi (fold_left define deck (new_sim e s g mp this))) ++ flat_map (part_objects a) (halts t))) halt)
    end
  end.
