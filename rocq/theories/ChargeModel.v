(* The particle part of one step on one rank: advance_p on every species, one round of boundary_p, the removal of what is left on the mover lists. *)
From Coq Require Import ZArith List Bool.
From Verif Require Import ParticleModel MoverModel.
Import ListNotations.
Open Scope Z_scope.

Section Step.
Context {V : Type} (K : num V).

(* The particle loop of advance_p, advance_p_pipeline.cc:89-239, over the particles ps that stand at indices i, i+1, ... of p0; fs v is the
   interpolator of voxel v.  [kept j]: there was room for particle j's mover (225-228); otherwise the voxel is shifted back (229-236).  Result: the
   particles, the stored movers in order of index, and the streaks.  None: move_p does not end well.  Simplification: which pipeline stores
   which mover, and the compaction of the segments, are C16's; here they only determine kept. *)
Fixpoint advance_list (fuel : nat) (g : mesh) (qdt_2mc : V) (cdt : vec V) (q : V) (fs : Z -> interp (V := V)) (kept : Z -> bool) (i : Z) (ps : list (part V))
  : option (list (part V) * list (mover (V := V)) * list (streak V)) :=
  match ps with
  | [] => Some ([], [], [])
  | p :: ps =>
    match advance_one K fuel g qdt_2mc cdt q (fs (pi p)) p with
    | MDone st p' d lg =>
      match advance_list fuel g qdt_2mc cdt q fs kept (i + 1) ps with
      | Some (ps', pm, lg') =>
        if st then
          if kept i then Some (p' :: ps', mk_mover d i :: pm, lg ++ lg')
          else Some (mkp (pd p') (Z.shiftr (pi p') 3) (pu p') (pw p') :: ps', pm, lg ++ lg')
        else Some (p' :: ps', pm, lg ++ lg')
      | None => None
      end
    | _ => None
    end
  end.
(* advance_p for every species of the list, advance.cc:47-48; qdt k is qdt_2mc of species k, kept k its mover storage.  The mover list starts empty
   (advance_p_pipeline.cc:310). *)
Fixpoint advance_all (fuel : nat) (g : mesh) (qdt : Z -> V) (cdt : vec V) (fs : Z -> interp (V := V)) (kept : Z -> Z -> bool) (k : Z) (ss : list (spec (V := V)))
  : option (list (spec (V := V)) * list (streak V)) :=
  match ss with
  | [] => Some ([], [])
  | s :: ss =>
    match advance_list fuel g (qdt k) cdt (s_q s) fs (kept k) 0 (s_p s) with
    | Some (ps, pm, lg) =>
      match advance_all fuel g qdt cdt fs kept (k + 1) ss with
      | Some (ss', lg') => Some (mk_spec (s_q s) ps pm :: ss', lg ++ lg')
      | None => None
      end
    | None => None
    end
  end.
(* The removal of the particles whose movers are left after the last round, advance.cc:78-101, for every species: the additions to rhob, and the
   species with empty mover lists. *)
Fixpoint drop_all (nx ny nz : Z) (r8V : V) (ss : list (spec (V := V))) : option (list (Z * V) * list (spec (V := V))) :=
  match ss with
  | [] => Some ([], [])
  | s :: ss =>
    match drop_leftovers K nx ny nz (s_q s) r8V (s_p s) (map m_i (s_pm s)) with
    | Some (adds, ps) =>
      match drop_all nx ny nz r8V ss with
      | Some (adds', ss') => Some (adds ++ adds', mk_spec (s_q s) ps [] :: ss')
      | None => None
      end
    | None => None
    end
  end.
End Step.
