(* The functions of the headers of 8 lanes, in one lane. *)
From Coq Require Import ZArith List String.
From Verif Require Import VecOpModel VecOpTable VecOpSpec VecOpProofs VecOpWords VecOpLanes.
Import ListNotations.
Open Scope Z_scope.

Lemma lanes_V8portable : Forall (lane_ok V8portable) (summary V8portable).
Proof. all_lanes V8portable. Qed.

Lemma lanes_V8avx : Forall (lane_ok V8avx) (summary V8avx).
Proof. all_lanes V8avx. Qed.

Lemma lanes_V8avx2 : Forall (lane_ok V8avx2) (summary V8avx2).
Proof. all_lanes V8avx2. Qed.
