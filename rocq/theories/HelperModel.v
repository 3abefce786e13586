(* Model of the helpers of an input deck in /repo/src/vpic/vpic.h: uniform random numbers and the sizes of a species. *)
From Coq Require Import ZArith Bool.
From Flocq Require Import IEEE754.BinarySingleNaN.
From Verif Require Import FloatModel DistributeModel RngModel InjectModel.
Open Scope Z_scope.

(* vpic.h:599-602: uniform, in double without contraction into fma; dx = drand( rng ) *)
Definition uniform_of (low high dx : b64) : b64 :=
  d_add (d_mul low (d_sub (d_of_Z 1) dx)) (d_mul high dx).
(* drand is conv_drand of a 64-bit word of the generator (rng.cc, rng_private.h:290-298) *)
Definition uniform (u : Z) (low high : b64) : b64 := uniform_of low high (conv_drand u).

(* pipelines.h:10 *)
Definition MAX_PIPELINE : Z := 272.
(* (size_t)x of a double; None: not representable (undefined) *)
Definition to_size (x : b64) : option Z :=
  if is_finite x then let n := d_trunc x in if (0 <=? n) && (n <? 2 ^ 64) then Some n else None else None.
(* int = size_t: the value modulo 2^32, as gcc and clang define it *)
Definition size_to_int (n : Z) : Z := let r := n mod 2 ^ 32 in if r <? 2 ^ 31 then r else r - 2 ^ 32.

(* vpic.h:507-511: the number of movers when the deck gives a negative one *)
Definition default_nm (np nm : b64) : b64 :=
  if d_lt nm (d_of_Z 0) then
    let m := d_div (d_mul (d_of_Z 2) np) (d_of_Z 25) in
    if d_lt m (d_of_Z (16 * (MAX_PIPELINE + 1))) then d_of_Z (16 * (MAX_PIPELINE + 1)) else m
  else nm.

(* species_advance.cc:126-127, 138-142: entries allocated for particles and movers, and the capacities recorded *)
Record sizes : Type := mk_sizes { alloc_p : Z; alloc_pm : Z; max_np : Z; max_nm : Z }.
Definition species_sizes (np nm : Z) : sizes :=
  let np := if np <? 1 then 1 else np in
  let nm := if nm <? 1 then 1 else nm in
  mk_sizes np nm (size_to_int np) (size_to_int nm).

(* vpic.h:496-517: define_species; the other arguments are passed on unchanged.  The doubles 16*(MAX_PIPELINE+1) and 2, 25
   are ints converted exactly. *)
Definition define_species (np nm : b64) : option sizes :=
  match to_size np, to_size (default_nm np nm) with
  | Some p, Some m => Some (species_sizes p m)
  | _, _ => None
  end.
