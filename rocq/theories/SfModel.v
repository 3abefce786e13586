(* Model of /repo/src/sf_interface: the accumulator array (clear, reduce, unload) and the
   interpolator array (load).  Only the scalar pipelines are modelled.  The arithmetic is a parameter
   as in ParticleModel.  A pipeline job is one operation of a sweep in the sense of SweepModel: the
   jobs take effect in any order and may read values of any earlier moment. *)
Require Import Verif.ParticleModel.
From Coq Require Import ZArith List Bool.
From Verif Require Import DistributeModel VoxelModel SortModel SweepModel FieldModel.
Import ListNotations.
Open Scope Z_scope.

(* POW2_CEIL( u, 2 ), util_base.h:163 *)
Definition ceil2 (u : Z) : Z := Z.land (u + 2 - 1) (Z.lnot (2 - 1)).
(* aa->stride, accumulator_array.cc:76, in accumulators *)
Definition acc_stride (nx ny nz : Z) : Z := ceil2 (nv_of nx ny nz).
(* i0 and na, clear_array_pipeline.cc:52-54, reduce_array_pipeline.cc:189-191 *)
Definition acc_i0 (nx ny nz : Z) : Z := Z.quot (voxel nx ny nz 1 1 1) 2 * 2.
Definition acc_na (nx ny nz : Z) : Z :=
  Z.quot ((voxel nx ny nz nx ny nz - acc_i0 nx ny nz + 1) + 1) 2 * 2.

(* reduce_pipeline_args_t, sf_interface_pipeline.h:65-74.  ra_a is the index of the first element. *)
Record rargs : Type := mk_rargs { ra_a : Z; ra_n : Z; ra_n_array : Z; ra_s_array : Z; ra_n_block : Z }.
(* clear_accumulator_array_pipeline:56-62 and reduce_accumulator_array_pipeline:193-199; nf =
   sizeof(accumulator_t)/sizeof(float), np = aa->n_pipeline, accumulators_n_block = 256.  The products
   are int: None if they overflow. *)
Definition acc_args (nx ny nz nf np : Z) : option rargs :=
  if int_ok (acc_na nx ny nz * nf) && int_ok (acc_stride nx ny nz * nf)
  then Some (mk_rargs (acc_i0 nx ny nz * nf) (acc_na nx ny nz * nf) (np + 1) (acc_stride nx ny nz * nf) 256)
  else None.
(* clear_hydro_array_pipeline:83-89, reduce_hydro_array_pipeline:224-230; ha->stride = POW2_CEIL(nv,2),
   hydro_n_block = 1 *)
Definition hydro_args (nx ny nz nf np : Z) : option rargs :=
  if int_ok (nv_of nx ny nz * nf) && int_ok (acc_stride nx ny nz * nf)
  then Some (mk_rargs 0 (nv_of nx ny nz * nf) (np + 1) (acc_stride nx ny nz * nf) 1)
  else None.

Section Sf.
Context {V : Type} (K : num V).
Variable contract : bool.           (* see DistributeModel *)
Variable P : Z.                     (* number of pipelines of the dispatcher; job P is the host's *)
Local Notation "x + y" := (n_add K x y).
Local Notation "x - y" := (n_sub K x y).
Local Notation "x * y" := (n_mul K x y).

(* clear_array_pipeline_scalar, clear_array_pipeline.cc:9-29.  CLEAR( a, n ) sets n floats to zero. *)
Definition clear_job (g : rargs) (p : Z) (m : Z -> V) : list (Z * V) :=
  let '(i, n) := distribute contract (ra_n g) (ra_n_block g) p P in
  flat_map (fun r => map (fun k => ((ra_a g + i + r * ra_s_array g + k)%Z, n_zero K)) (zrange 0 n)) (zrange 0 (ra_n_array g)).

(* The operations O1..O9 of reduce_array_pipeline_scalar, reduce_array_pipeline.cc:44-134: what is
   stored to a[k], from v0 = a[k] and v1..vn. *)
Definition O_op (n : nat) (v : nat -> V) : V :=
  let v01 := v 0%nat + v 1%nat in let v23 := v 2%nat + v 3%nat in
  let v45 := v 4%nat + v 5%nat in let v67 := v 6%nat + v 7%nat in
  match n with
  | 0%nat => v 0%nat
  | 1%nat => v01
  | 2%nat => v01 + v 2%nat
  | 3%nat => v01 + v23
  | 4%nat => (v01 + v23) + v 4%nat
  | 5%nat => (v01 + v23) + v45
  | 6%nat => (v01 + v23) + (v45 + v 6%nat)
  | 7%nat => (v01 + v23) + (v45 + v67)
  | 8%nat => ((v01 + v23) + (v45 + v67)) + v 8%nat
  | _ => ((v01 + v23) + (v45 + v67)) + (v 8%nat + v 9%nat)
  end.
(* the int expression k + ( r + r0 ) * sr of B( k, r ), line 42 *)
Definition red_int (sr r0 k : Z) (r : nat) : Z := k + (Z.of_nat r + r0) * sr.
Definition red_ints_ok (sr r0 i i1 : Z) (n : nat) : bool :=
  forallb (fun k => forallb (fun r => int_ok ((Z.of_nat r + r0) * sr) && int_ok (red_int sr r0 k r)) (seq 1 n)) (zrange i i1).
(* LOOP( On ): j from i to i1-1, b = a + sr *)
Definition red_pass (a sr r0 i i1 : Z) (n : nat) (m : Z -> V) : Z -> V :=
  fold_left (fun m k => store Z V Z.eqb m (a + k)%Z
    (O_op n (fun r => match r with O => m (a + k)%Z | _ => m (a + sr + red_int sr r0 k r)%Z end))) (zrange i i1) m.
(* while( nr ) switch( nr ), lines 136-155.  None: signed overflow. *)
Fixpoint red_loop (fuel : nat) (a sr i i1 : Z) (nr : nat) (r0 : Z) (m : Z -> V) : option (Z -> V) :=
  match fuel, nr with
  | _, O => Some m
  | O, _ => None
  | S f, _ =>
      let n := Nat.min nr 9 in
      if red_ints_ok sr r0 i i1 n
      then red_loop f a sr i i1 (nr - n) (r0 + Z.of_nat n) (red_pass a sr r0 i i1 n m)
      else None
  end.
Definition reduce_job (g : rargs) (p : Z) (m : Z -> V) : option (list (Z * V)) :=
  let '(i, n) := distribute contract (ra_n g) 1 p P in
  let nr := Z.to_nat (ra_n_array g - 1) in
  match red_loop nr (ra_a g) (ra_s_array g) i (i + n) nr (-1) m with
  | None => None
  | Some m' => Some (map (fun k => ((ra_a g + k)%Z, m' (ra_a g + k)%Z)) (zrange i (i + n)))
  end.

(* EXEC_PIPELINES ... WAIT_PIPELINES: the jobs of all pipelines and of the host *)
Definition clear_run (g : rargs) : (Z -> V) -> (Z -> V) -> Prop :=
  phase_run Z V Z Z.eqb (clear_job g) (fun _ => false) (ranks P).
Definition reduce_exec (g : rargs) (p : Z) (m : Z -> V) : list (Z * V) :=
  match reduce_job g p m with Some l => l | None => [] end.
Definition reduce_run (g : rargs) : (Z -> V) -> (Z -> V) -> Prop :=
  phase_run Z V Z Z.eqb (reduce_exec g) (fun _ => false) (ranks P).

(* Adding a value t to component k of the accumulator of voxel v in copy r: what the particle kernels do. *)
Definition deposit (stride nf : Z) (m : Z -> V) (d : Z * Z * Z * V) : Z -> V :=
  let '(r, v, k, t) := d in let l := (nf * (r * stride + v) + k)%Z in store Z V Z.eqb m l (m l + t).

(* unload_accumulator_pipeline_scalar, unload_accumulator_pipeline.cc:19-82, one voxel; acc is a[].jx[], jy[], jz[]
   of copy 0, c = cx, cy, cz. *)
Definition unload_exec (nx ny : Z) (c : vec V) (acc : Z -> nat -> V) (v : Z) (F : floc -> V) : list (floc * V) :=
  let u := unload K (sy_of nx) (sz_of nx ny) c acc v in
  [((Jfx, v), F (Jfx, v) + vx u); ((Jfy, v), F (Jfy, v) + vy u); ((Jfz, v), F (Jfz, v) + vz u)].
Definition voxels_of (l : list vstate) : list Z := map (fun s => fst (fst (fst s))) l.
(* the voxels visited by all jobs, lines 49-80 *)
Definition unload_voxels (nx ny nz : Z) : list Z :=
  voxels_of (flat_map (fun p => job_walk contract (next_stencil nx ny nz 1 (nx + 1)%Z 1 (ny + 1)%Z) nx ny nz
                                  1 (nx + 1)%Z 1 (ny + 1)%Z 1 (nz + 1)%Z 1 p P) (ranks P)).
Definition unload_run (nx ny nz : Z) (c : vec V) (acc : Z -> nat -> V) : (floc -> V) -> (floc -> V) -> Prop :=
  phase_run floc V Z floc_eqb (unload_exec nx ny c acc) (fun _ => false) (unload_voxels nx ny nz).

(* load_interpolator_pipeline_scalar, interpolator_array_pipeline.cc:62-120, one voxel v; the neighbours
   pfx, pfy, pfz are at distance 1, sy, sz. *)
Definition fourth : V := n_half K * n_half K.
Definition interpolator_at (nx ny : Z) (F : floc -> V) (v : Z) : @interp V :=
  let sy := sy_of nx in let sz := sz_of nx ny in
  let quad w0 w1 w2 w3 :=
    (fourth * ((w3 + w0) + (w1 + w2)), fourth * ((w3 - w0) + (w1 - w2)),
     fourth * ((w3 - w0) - (w1 - w2)), fourth * ((w3 + w0) - (w1 + w2))) in
  let '(ex, dexdy, dexdz, d2exdydz) := quad (F (Ex, v)) (F (Ex, v + sy)%Z) (F (Ex, v + sz)%Z) (F (Ex, v + sy + sz)%Z) in
  let '(ey, deydz, deydx, d2eydzdx) := quad (F (Ey, v)) (F (Ey, v + sz)%Z) (F (Ey, v + 1)%Z) (F (Ey, v + 1 + sz)%Z) in
  let '(ez, dezdx, dezdy, d2ezdxdy) := quad (F (Ez, v)) (F (Ez, v + 1)%Z) (F (Ez, v + sy)%Z) (F (Ez, v + 1 + sy)%Z) in
  mk_interp ex dexdy dexdz d2exdydz ey deydz deydx d2eydzdx ez dezdx dezdy d2ezdxdy
    (n_half K * (F (Cbx, v + 1)%Z + F (Cbx, v))) (n_half K * (F (Cbx, v + 1)%Z - F (Cbx, v)))
    (n_half K * (F (Cby, v + sy)%Z + F (Cby, v))) (n_half K * (F (Cby, v + sy)%Z - F (Cby, v)))
    (n_half K * (F (Cbz, v + sz)%Z + F (Cbz, v))) (n_half K * (F (Cbz, v + sz)%Z - F (Cbz, v))).
Definition load_exec (nx ny : Z) (F : floc -> V) (v : Z) (fi : Z -> @interp V) : list (Z * @interp V) :=
  [(v, interpolator_at nx ny F v)].
Definition load_voxels (nx ny nz : Z) : list Z :=
  voxels_of (flat_map (fun p => job_walk contract (next_stencil nx ny nz 1 nx 1 ny) nx ny nz 1 nx 1 ny 1 nz 1 p P) (ranks P)).
Definition load_run (nx ny nz : Z) (F : floc -> V) : (Z -> @interp V) -> (Z -> @interp V) -> Prop :=
  phase_run Z (@interp V) Z Z.eqb (load_exec nx ny F) (fun _ => false) (load_voxels nx ny nz).
End Sf.
