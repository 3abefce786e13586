(* vpic_simulation::poynting_flux, /repo/src/vpic/diagnostics.cc:34-81, with RANK_TO_INDEX (13-21).  Arithmetic is that of
   the reals: the roundings of float and double are left out.  Every rank has the same nx, ny, nz, cvac and e0 (partition.cc
   gives all ranks the same mesh); there are px*py*pz ranks. *)
From Coq Require Import Reals ZArith List Bool.
From Verif Require Import VoxelModel SortModel.
Import ListNotations.
Open Scope Z_scope.

(* the members of field_t that are read *)
Inductive pcomp := Pey | Pez | Pcby | Pcbz.
(* one float of pvec: its value, or what new float[] left there *)
Inductive cell := Known (x : R) | Unset.
(* what the call returns: Undef is an integer division by zero, an int overflow or a store outside pvec, Garbage a sum over
   floats that were never set, Nan the quotient of a division by zero, Flux a number *)
Inductive outcome := Undef | Garbage | Nan | Flux (x : R).

(* int stride = (grid->ny-1)*(grid->nz-1), line 37 *)
Definition pf_stride (ny nz : Z) : Z := (ny - 1) * (nz - 1).
(* float * pvec = new float[stride] and memset(pvec, 0, stride), lines 39-45: the last argument counts bytes, so float i,
   bytes 4i to 4i+3, is cleared if all four lie below stride *)
Definition new_pvec (stride : Z) : Z -> cell := fun i => if (0 <=? i) && (4 * i + 3 <? stride) then Known 0 else Unset.
(* INDEX_FORTRAN_3(x, y, z, 0, nx+1, 0, ny+1, 0, nz+1), util_base.h:208-209 *)
Definition pf_index (nx ny x y z : Z) : Z := x - 0 + (nx + 1 - 0 + 1) * (y - 0 + (ny + 1 - 0 + 1) * (z - 0)).
(* RANK_TO_INDEX, lines 13-21: ix; C division truncates *)
Definition pf_ix (px rank : Z) : Z := let iy := Z.quot rank px in rank - iy * px.
(* lines 59-62: the value stored for (j,k) *)
Definition pf_term (nx ny : Z) (cvac e0 : R) (F : pcomp -> Z -> R) (j k : Z) : R :=
  let k1 := pf_index nx ny 1 (j + 1) (k + 1) in let k2 := pf_index nx ny 2 (j + 1) (k + 1) in
  ((F Pey k2 * 0.5 * (F Pcbz k1 + F Pcbz k2) - F Pez k2 * 0.5 * (F Pcby k1 + F Pcby k2)) / (cvac * cvac * e0 * e0))%R.
(* lines 52-64: the loops over j and k *)
Definition pf_pairs (ny nz : Z) : list (Z * Z) := flat_map (fun j => map (fun k => (j, k)) (zrange 1 nz)) (zrange 1 ny).
Definition pf_fill (nx ny nz : Z) (cvac e0 : R) (F : pcomp -> Z -> R) (v : Z -> cell) : option (Z -> cell) :=
  fold_left (fun o (jk : Z * Z) => match o with
     | None => None
     | Some v => let i := (fst jk - 1) * (nz - 1) + snd jk - 1 in
         if (0 <=? i) && (i <? pf_stride ny nz)
         then Some (fun l => if l =? i then Known (pf_term nx ny cvac e0 F (fst jk) (snd jk)) else v l) else None
     end) (pf_pairs ny nz) (Some v).
(* lines 67-69 *)
Definition pf_psum (stride : Z) (v : Z -> cell) : option R :=
  fold_left (fun o i => match o, v i with Some s, Known x => Some (s + x)%R | _, _ => None end) (zrange 0 stride) (Some 0%R).
(* the rank's own sum: None is Undef, Some None is Garbage *)
Definition pf_rank (px nx ny nz : Z) (cvac e0 : R) (F : pcomp -> Z -> R) (rank : Z) : option (option R) :=
  let stride := pf_stride ny nz in
  match (if pf_ix px rank =? 0 then pf_fill nx ny nz cvac e0 F (new_pvec stride) else Some (new_pvec stride)) with
  | None => None
  | Some v => Some (pf_psum stride v)
  end.
(* mp_allsum_d, line 72 *)
Definition pf_allsum (l : list (option (option R))) : option (option R) :=
  fold_left (fun o x => match o, x with
     | None, _ | _, None => None
     | Some (Some s), Some (Some y) => Some (Some (s + y)%R)
     | _, _ => Some None
     end) l (Some (Some 0%R)).
(* The whole call on all ranks.  gpsum /= stride*py*pz, line 75: int times size_t, that is modulo 2^64, then converted. *)
Definition poynting (px py pz nx ny nz : Z) (cvac e0 : R) (F : Z -> pcomp -> Z -> R) : outcome :=
  if (px =? 0) || negb (pf_stride ny nz <? 2 ^ 31) then Undef
  else if Req_EM_T (cvac * cvac * e0 * e0) 0 then Nan
  else match pf_allsum (map (fun r => pf_rank px nx ny nz cvac e0 (F r) r) (zrange 0 (px * py * pz))) with
       | None => Undef
       | Some None => Garbage
       | Some (Some s) => let d := (pf_stride ny nz * py * pz) mod 2 ^ 64 in if d =? 0 then Nan else Flux (s / IZR d)
       end.
