(* What the refluxing boundary is meant to do, stated without the model's helper functions. *)
Require Import ZArith Reals List.
Require Import Verif.ParticleModel Verif.ParticleSpec.
Open Scope R_scope.

(* |v|^2, and the Lorentz factor of a normalised momentum *)
Definition len2 (v : vec R) : R := vx v ^ 2 + vy v ^ 2 + vz v ^ 2.
Definition gamma (u : vec R) : R := sqrt (1 + len2 u).
(* a displacement in cells as a displacement in space *)
Definition in_space (size disp : vec R) : vec R := mkv (vx size * vx disp) (vy size * vy disp) (vz size * vz disp).
(* c times the time a particle of momentum u needs for the displacement D (its speed is |u| / gamma) *)
Definition flight (u D : vec R) : R := sqrt (len2 D) * gamma u / sqrt (len2 u).
(* pointing from the face into the cell; the faces are numbered -x, -y, -z, +x, +y, +z *)
Definition inward (f : Z) (x : R) : Prop := if face_high f then x <= 0 else 0 <= x.
Definition strictly_inward (f : Z) (x : R) : Prop := if face_high f then x < 0 else 0 < x.
Definition next_axis (a : axis) : axis := match a with AX => AY | AY => AZ | AZ => AX end.
