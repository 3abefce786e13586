(* The functions of the headers of 16 lanes, in one lane. *)
From Coq Require Import ZArith List String.
From Verif Require Import VecOpModel VecOpTable VecOpSpec VecOpProofs VecOpWords VecOpLanes.
Import ListNotations.
Open Scope Z_scope.

Lemma lanes_V16portable : Forall (lane_ok V16portable) (summary V16portable).
Proof. all_lanes V16portable. Qed.

Lemma lanes_V16avx512 : Forall (lane_ok V16avx512) (summary V16avx512).
Proof. all_lanes V16avx512. Qed.
