(* The moments that hydro_p is to make of the particles, stated on the particles alone. *)
From Coq Require Import Reals ZArith List Bool.
From Verif Require Import ParticleModel ParticleSpec GridModel SortModel MoverModel FieldModel RemoteModel RemoteSpec DecompSpec ChargeModel ChargeSpec CurrentSpec RhoSpec HydroModel.
Import ListNotations.
Open Scope R_scope.

(* gamma of the normalised momentum u = p/(mc) *)
Definition lorentz (u : vec R) : R := sqrt (1 + (vx u * vx u + vy u * vy u + vz u * vz u)).
(* the velocity, in units of which c is the speed of light *)
Definition velocity (c : R) (u : vec R) : vec R := mkv (c * vx u / lorentz u) (c * vy u / lorentz u) (c * vz u / lorentz u).
(* The moment of a particle of charge q, mass m and momentum u.  The comments of sf_interface.h:185-192: current, charge, momentum, kinetic energy, stress. *)
Definition moment (q m c : R) (u : vec R) (k : hyd) : R :=
  let v := velocity c u in
  match k with
  | Hjx => q * vx v | Hjy => q * vy v | Hjz => q * vz v
  | Hrho => q
  | Hpx => m * c * vx u | Hpy => m * c * vy u | Hpz => m * c * vz u
  | Hke => m * c * c * (lorentz u - 1)
  | Htxx => m * c * vx u * vx v | Htyy => m * c * vy u * vy v | Htzz => m * c * vz u * vz v
  | Htyz => m * c * vy u * vz v | Htzx => m * c * vz u * vx v | Htxy => m * c * vx u * vy v
  end.
(* The momentum at the time of the position: what center_p (C14) would leave. *)
Definition momentum_now (h : hcoef (V := R)) (f : interp) (p : part R) : vec R := pu (center_one Rnum (h_qdt h) f p).
Definition moment_of (k : hyd) (h : hcoef (V := R)) (f : Z -> interp) (p : part R) : R :=
  moment (h_q h) (h_m h) (h_c h) (momentum_now h (f (pi p)) p) k * pw p.

Section World.
Variable L : layout R.
Variable pos : Z -> cell.
Variable ws : Z.
(* What the species ss of rank r bring to the nodes of the mesh, seen through phi, with the weights of its charge (C13). *)
Definition rank_moment (phi : cell -> R) (k : hyd) (r : Z) (f : Z -> interp) (ss : list (hcoef (V := R) * list (part R))) : R :=
  sumR (map (fun s => sumR (map (fun p => charge (stride_y L pos r) (stride_z L pos r) (seen L pos phi r) (moment_of k (fst s) f p) (pi p) (pd p)) (snd s))) ss).
Definition world_moment (phi : cell -> R) (k : hyd) (f : Z -> Z -> interp) (ss : Z -> list (hcoef (V := R) * list (part R))) : R :=
  over_ranks ws (fun r => rank_moment phi k r (f r) (ss r)).
(* The array of rank r after reduce_hydro_array: its own copy with those of the pipelines 1..P added (C45). *)
Definition reduced (contract : bool) (P : Z) (n : cell) (f : Z -> interp) (ss : list (hcoef (V := R) * list (part R))) (H : hyd * Z -> R) : Prop :=
  forall k e, H (k, vox3 n e) = sumR (map (fun i => hydro_copy Rnum (2 / 5) contract P (fst (fst n)) (snd (fst n)) (snd n) f ss i (k, vox3 n e)) (zrange 0 (P + 1))).
End World.
