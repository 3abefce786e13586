(* Concurrent execution of memory sweeps.

   A sweep is a set of elementary operations (one kernel applied at one mesh
   point).  Worker threads and the host execute them without synchronisation
   (EXEC_PIPELINES ... WAIT_PIPELINES,
   /repo/src/util/pipelines/pipelines_exec_pth.h:60-67), so the model lets the
   operations take effect in any order, and lets every value that an operation
   reads be the value that location had at any earlier moment of the phase. *)
From Coq Require Import ZArith List Bool Permutation.
From Verif Require Import SortModel.
Import ListNotations.
Open Scope Z_scope.

Section Sweep.
Variables (loc val op : Type).
Variable loc_eqb : loc -> loc -> bool.
(* The stores an operation performs, as a function of the memory it reads. *)
Variable exec : op -> (loc -> val) -> list (loc * val).
(* Operations that the host runs after its ghost update (see split_run). *)
Variable host : op -> bool.

Definition store (m : loc -> val) (l : loc) (v : val) : loc -> val :=
  fun l' => if loc_eqb l' l then v else m l'.

Definition stores (ws : list (loc * val)) (m : loc -> val) : loc -> val :=
  fold_left (fun m w => store m (fst w) (snd w)) ws m.

(* In-order execution. *)
Definition run_ops (ops : list op) (m : loc -> val) : loc -> val :=
  fold_left (fun m o => stores (exec o m) m) ops m.

(* racy hs hh m ops r hs': starting from memory m with earlier memories hs (of
   which hh were seen since the host's ghost update), executing ops in this order can end
   in memory r with earlier memories hs'.  An operation reads each location at
   any earlier moment, host operations at any moment after the ghost update. *)
Inductive racy : list (loc -> val) -> list (loc -> val) -> (loc -> val) -> list op ->
    (loc -> val) -> list (loc -> val) -> Prop :=
| racy_nil : forall hs hh m, racy hs hh m [] m hs
| racy_cons : forall hs hh m o ops s r hs',
    (forall l, exists m', In m' (m :: if host o then hh else hs) /\ s l = m' l) ->
    racy (m :: hs) (m :: hh) (stores (exec o s) m) ops r hs' ->
    racy hs hh m (o :: ops) r hs'.

(* One phase: all operations unordered. *)
Definition phase_run (ops : list op) (m r : loc -> val) : Prop :=
  exists ops' hs', Permutation ops ops' /\ racy [] [] m ops' r hs'.

(* Pipelines execute Q while the host first performs the ghost updates G and
   then the operations H. *)
Definition split_run (Q G H : list op) (m r : loc -> val) : Prop :=
  exists Q1 Q2 L1 L2 m1 hs1 hs2,
    Permutation Q (Q1 ++ Q2) /\
    Permutation L1 (Q1 ++ G) /\ racy [] [] m L1 m1 hs1 /\
    Permutation L2 (Q2 ++ H) /\ racy hs1 [] m1 L2 r hs2.
End Sweep.
