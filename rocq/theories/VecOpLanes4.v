(* The functions of the headers of 4 lanes, in one lane. *)
From Coq Require Import ZArith List String.
From Verif Require Import VecOpModel VecOpTable VecOpSpec VecOpProofs VecOpWords VecOpLanes.
Import ListNotations.
Open Scope Z_scope.

Lemma lanes_V4portable : Forall (lane_ok V4portable) (summary V4portable).
Proof. all_lanes V4portable. Qed.

Lemma lanes_V4sse : Forall (lane_ok V4sse) (summary V4sse).
Proof. all_lanes V4sse. Qed.

Lemma lanes_V4avx : Forall (lane_ok V4avx) (summary V4avx).
Proof. all_lanes V4avx. Qed.

Lemma lanes_V4avx2 : Forall (lane_ok V4avx2) (summary V4avx2).
Proof. all_lanes V4avx2. Qed.

Lemma lanes_V4neon : Forall (lane_ok V4neon) (summary V4neon).
Proof. all_lanes V4neon. Qed.
