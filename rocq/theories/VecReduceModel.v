(* The vector kernels of reduce_array, /repo/src/sf_interface/pipeline/reduce_array_pipeline_v4.cc, _v8.cc, _v16.cc
   (W = 4, 8, 16 lanes), and the way EXEC_PIPELINES runs them (util/pipelines/pipelines_exec_pth.h:23-52): the kernel
   of the widest class is dispatched to the pipelines 0..P-1 and the caller runs the scalar kernel with rank P.
   Locations count floats from the start of the array of accumulators or hydro moments, which MALLOC_ALIGNED aligns to
   128 bytes = 32 floats, so that a location is aligned to W floats exactly when W divides it.
   Arithmetic is that of the scalar model: one lane of a v4float/v8float/v16float sum is one float sum (C72). *)
Require Import Verif.ParticleModel.
From Coq Require Import ZArith List Bool.
From Verif Require Import DistributeModel VoxelModel SortModel SweepModel FieldModel SfModel.
Import ListNotations.
Open Scope Z_scope.

(* for( j = i ; j < i1; j += W ): the values of j, line 32 of each file; [fuel] bounds the number of passes *)
Fixpoint vsteps (fuel : nat) (W i i1 : Z) : list Z :=
  match fuel with
  | O => []
  | S f => if i <? i1 then i :: vsteps f W (i + W) i1 else []
  end.

Section VecReduce.
Context {V : Type} (K : num V).
Variable contract : bool.
Variable P : Z.                     (* N_PIPELINE *)
Variable W : Z.                     (* lanes *)

(* one load or store of W consecutive floats at l by load_Wx1 / store_Wx1 (lines 34-38; the pointers carry
   ALIGNED(4*W)): undefined unless l is aligned to W floats and all of them lie in the tot floats of the array *)
Definition vaccess_ok (tot l : Z) : bool := (l mod W =? 0) && (0 <=? l) && (l + W <=? tot).

(* OP( j ) for one j: A loads v0 from a + j, B( j, r ) loads v_r from b + red_int sr r0 j r with b = a + sr, and C stores
   the sum of O_op lane by lane to a + j.  All loads precede the store.  None: an access that is not vaccess_ok, or an
   int overflow in the index of B. *)
Definition vop (tot a sr r0 j : Z) (n : nat) (m : Z -> V) : option (Z -> V) :=
  if vaccess_ok tot (a + j)%Z &&
     forallb (fun r => int_ok ((Z.of_nat r + r0) * sr)%Z && int_ok (red_int sr r0 j r) && vaccess_ok tot (a + sr + red_int sr r0 j r)%Z) (seq 1 n)
  then Some (stores Z V Z.eqb
         (map (fun t => ((a + (j + t))%Z,
                 O_op K n (fun r => match r with O => m (a + (j + t))%Z | _ => m (a + sr + red_int sr r0 j r + t)%Z end))) (zrange 0 W)) m)
  else None.
(* LOOP( OP ), line 32 *)
Fixpoint vpass (tot a sr r0 : Z) (n : nat) (js : list Z) (m : Z -> V) : option (Z -> V) :=
  match js with
  | [] => Some m
  | j :: js' => match vop tot a sr r0 j n m with Some m' => vpass tot a sr r0 n js' m' | None => None end
  end.
(* while( nr ) switch( nr ), lines 132-149 *)
Fixpoint vred_loop (fuel : nat) (tot a sr i i1 : Z) (nr : nat) (r0 : Z) (m : Z -> V) : option (Z -> V) :=
  match fuel, nr with
  | _, O => Some m
  | O, _ => None
  | S f, _ =>
      let n := Nat.min nr 9 in
      match vpass tot a sr r0 n (vsteps (Z.to_nat (i1 - i)) W i i1) m with
      | Some m' => vred_loop f tot a sr i i1 (nr - n) (r0 + Z.of_nat n) m'
      | None => None
      end
  end.
(* reduce_array_pipeline_vW, lines 11-149: DISTRIBUTE( args->n, W, rank, n_pipeline, i, i1 ), i1 += i.  The loop stores
   whole vectors, so what a job stores is every float it changes: the floats from i to the end of its last vector. *)
Definition vlast (i i1 : Z) : Z := i + W * ((i1 - i + W - 1) / W).
Definition vreduce_job (g : rargs) (p : Z) (m : Z -> V) : option (list (Z * V)) :=
  let '(i, n) := distribute contract (ra_n g) W p P in
  let nr := Z.to_nat (ra_n_array g - 1) in
  match vred_loop nr (ra_n_array g * ra_s_array g) (ra_a g) (ra_s_array g) i (i + n) nr (-1) m with
  | None => None
  | Some m' => Some (map (fun k => ((ra_a g + k)%Z, m' (ra_a g + k)%Z)) (zrange i (vlast i (i + n))))
  end.

(* EXEC_PIPELINES: vector jobs for the pipelines, the scalar job for the caller *)
Definition vexec_job (g : rargs) (p : Z) (m : Z -> V) : option (list (Z * V)) :=
  if p <? P then vreduce_job g p m else reduce_job K contract P g p m.
Definition vreduce_exec (g : rargs) (p : Z) (m : Z -> V) : list (Z * V) :=
  match vexec_job g p m with Some l => l | None => [] end.
Definition vreduce_run (g : rargs) : (Z -> V) -> (Z -> V) -> Prop :=
  phase_run Z V Z Z.eqb (vreduce_exec g) (fun _ => false) (ranks P).
End VecReduce.

(* The structures as sf_interface.h:28-52,114-122,185-200 pads them: floats per accumulator_t and per hydro_t in the build
   whose widest vector class has W lanes (accumulator: 12 floats of current plus PAD_SIZE_ACCUMULATOR for W = 8, 16;
   hydro: 14 moments plus PAD_SIZE_HYDRO). *)
Definition acc_floats (W : Z) : Z := if W <? 8 then 12 else 16.
Definition hydro_floats : Z := 16.
