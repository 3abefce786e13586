(* Particle sorting.  A particle is a voxel index and an opaque payload (the 28
   other bytes of particle_t, /repo/src/species_advance/species_advance_aos.h:21-32).
   Arrays are functions from indices; C ints are unbounded Z (the array sizes
   involved are below 2^31). *)
From Coq Require Import ZArith List Bool Permutation.
From Verif Require Import DistributeModel.
Import ListNotations.
Open Scope Z_scope.

Record particle := mkp { key : Z; pay : Z }.

Definition upd {A} (m : Z -> A) (i : Z) (x : A) : Z -> A :=
  fun j => if j =? i then x else m j.

(* a list of array writes performed in order *)
Definition apply_writes {A} (w : list (Z * A)) (m : Z -> A) : Z -> A :=
  fold_left (fun m '(i, x) => upd m i x) w m.

(* lo, lo+1, ..., hi-1 *)
Definition zrange (lo hi : Z) : list Z :=
  map (fun k => lo + Z.of_nat k) (seq 0 (Z.to_nat (hi - lo))).

(* array section p[i..i1) read as a list *)
Definition section {A} (m : Z -> A) (i i1 : Z) : list A := map m (zrange i i1).

(* V2P and P2V, /repo/src/species_advance/standard/pipeline/spa_private.h:200-216. *)
Definition V2P (v P vl vh : Z) : Z := Z.quot ((v - vl) * P) (vh - vl + 1).
Definition P2V (p P vl vh : Z) : Z := vl + Z.quot (p * (vh - vl + 1) + (P - 1)) P.

(* count[ f(p) ]++ over a section; sort_p_pipeline.cc:62-65, 178-181, sort_p.cc:69-72. *)
Definition count_loop (f : particle -> Z) (l : list particle) (count : Z -> Z) : Z -> Z :=
  fold_left (fun c p => upd c (f p) (c (f p) + 1)) l count.

(* j = next[f(p)]++; dst[j] = p over a section; sort_p_pipeline.cc:119-134, 197-212,
   sort_p.cc:96-99.  Returns the final next and the writes to dst, in order. *)
Definition scatter_loop (f : particle -> Z) (l : list particle) (next : Z -> Z)
  : (Z -> Z) * list (Z * particle) :=
  fold_left (fun '(nx, w) p => (upd nx (f p) (nx (f p) + 1), w ++ [(nx (f p), p)])) l (next, []).

(* CLEAR( &next[v0], v1-v0 ) *)
Definition clear_range (v0 v1 : Z) (m : Z -> Z) : Z -> Z :=
  fold_left (fun m v => upd m v 0) (zrange v0 v1) m.

(* for v in vs: count = next[v]; next[v] = sum; partition[v] = sum; sum += count.
   sort_p_pipeline.cc:184-191; sort_p.cc:75-81 with the same effect (partition[i]=j;
   j+=next[i]; next[i]=partition[i]). Returns (next, partition writes, sum). *)
Definition prefix_loop (vs : list Z) (next : Z -> Z) (sum : Z)
  : (Z -> Z) * list (Z * Z) * Z :=
  fold_left (fun '(nx, pw, s) v => (upd nx v s, pw ++ [(v, s)], s + nx v)) vs (next, [], sum).

(* ---- parallel sort ---- *)

Section Pipeline.
Variable contract : bool.          (* see DistributeModel *)
Variables (np : Z) (vl vh nv : Z).
Variable n_pipeline : Z.
Let n_subsort := n_pipeline.       (* sort_p_pipeline.cc:263-264 *)

(* DISTRIBUTE( args->n, 1, pipeline_rank, n_pipeline, i, i1 ); i1 += i; *)
Definition chunk {A} (m : Z -> A) (r : Z) : list A :=
  let '(i, n) := distribute contract np 1 r n_pipeline in section m i (i + n).

(* coarse_count_pipeline_scalar, sort_p_pipeline.cc:31-75.  The result row is
   coarse_partition[ cp_stride*rank + subsort ]; rows of different ranks do not
   overlap since cp_stride >= n_subsort. *)
Definition coarse_count (p : Z -> particle) (r : Z) : Z -> Z :=
  count_loop (fun q => V2P (key q) n_subsort vl vh) (chunk p r) (fun _ => 0).

(* sort_p_pipeline.cc:318-328: subsort-major, pipeline-minor prefix sum.
   cp is indexed by (rank, subsort). *)
Definition coarse_prefix (cp : Z -> Z -> Z) : Z -> Z -> Z :=
  fst (fold_left (fun '(m, sum) '(r, s) =>
         (fun r' s' => if (r' =? r) && (s' =? s) then sum else m r' s', sum + m r s))
       (flat_map (fun s => map (fun r => (r, s)) (zrange 0 n_pipeline)) (zrange 0 n_subsort))
       (cp, 0)).

(* coarse_sort_pipeline_scalar, sort_p_pipeline.cc:82-136: writes to aux_p. *)
Definition coarse_sort (p : Z -> particle) (cp : Z -> Z -> Z) (r : Z) : list (Z * particle) :=
  snd (scatter_loop (fun q => V2P (key q) n_subsort vl vh) (chunk p r) (cp r)).

(* one subsort of subsort_pipeline_scalar, sort_p_pipeline.cc:163-213: reads
   p_src and cp0 = coarse_partition[..], returns the scratch next array, the
   writes to partition and the writes to p_dst. *)
Definition subsort (p_src : Z -> particle) (cp0 : Z -> Z) (next : Z -> Z) (s : Z)
  : (Z -> Z) * list (Z * Z) * list (Z * particle) :=
  let i0 := cp0 s in let i1 := cp0 (s + 1) in
  let v0 := P2V s n_subsort vl vh in
  let v1 := P2V (s + 1) n_subsort vl vh in
  let next := clear_range v0 v1 next in
  let next := count_loop key (section p_src i0 i1) next in
  let '(next, pw, sum) := prefix_loop (zrange v0 v1) next i0 in
  let pw := pw ++ [(v1, sum)] in
  let '(next, w) := scatter_loop key (section p_src i0 i1) next in
  (next, pw, w).

(* The host clears/fills the ghost parts of the partition while the subsorts
   run, sort_p_pipeline.cc:343-348. *)
Definition ghost_writes : list (Z * Z) :=
  map (fun v => (v, 0)) (zrange 0 vl) ++ map (fun v => (v, np)) (zrange (vh + 1) nv).

(* The subsorts a pipeline executes, in order: subsort = rank; subsort < n_subsort;
   subsort += n_pipeline (line 163).  With n_subsort = n_pipeline this is just [rank]. *)
Definition subsorts_of (r : Z) : list Z :=
  filter (fun s => (s - r) mod n_pipeline =? 0) (zrange r n_subsort).
End Pipeline.

(* The whole of sort_p_pipeline, sort_p_pipeline.cc:221-371, as a relation: the
   writes of concurrently running jobs may take effect in any order.  For the
   coarse and fine phases we allow any permutation of all the writes of all the
   jobs (a superset of the possible interleavings).
   p, partition: arrays before; p', partition': arrays after.
   nx0 s: contents of the scratch array next when subsort s starts. *)
Definition sort_pipeline_run (contract : bool) (np vl vh nv n_pipeline : Z)
    (p aux0 : Z -> particle) (nx0 : Z -> Z -> Z) (partition : Z -> Z)
    (p' : Z -> particle) (partition' : Z -> Z) : Prop :=
  if negb (n_pipeline =? 1) then
    exists aux cw fw pw,
      let cp := coarse_prefix n_pipeline (fun r => coarse_count contract np vl vh n_pipeline p r) in
      Permutation cw
        (flat_map (coarse_sort contract np vl vh n_pipeline p cp) (zrange 0 n_pipeline)) /\
      aux = apply_writes cw aux0 /\
      (* coarse_partition[n_subsort] = n_particle *)
      let cp0 := upd (cp 0) n_pipeline np in
      let jobs := map (fun s => subsort vl vh n_pipeline aux cp0 (nx0 s) s)
                      (flat_map (subsorts_of n_pipeline) (zrange 0 n_pipeline)) in
      Permutation fw (flat_map snd jobs) /\
      Permutation pw (flat_map (fun j => snd (fst j)) jobs ++ ghost_writes np vl vh nv) /\
      p' = apply_writes fw p /\
      partition' = apply_writes pw partition
  else
    (* single thread: sort from p into the scratch array, then copy back; lines 352-370 *)
    let cp0 := upd (upd (fun _ => 0) 0 0) 1 np in
    let '(_, pw, fw) := subsort vl vh 1 p cp0 (nx0 0) 0 in
    let aux := apply_writes fw aux0 in
    p' = apply_writes (map (fun i => (i, aux i)) (zrange 0 np)) p /\
    partition' = apply_writes (pw ++ ghost_writes np vl vh nv) partition.

(* One particular run: all jobs in rank order, scratch memory initially zero. *)
Definition sort_pipeline_exec (contract : bool) (np vl vh nv n_pipeline : Z)
    (p : Z -> particle) (partition : Z -> Z) : (Z -> particle) * (Z -> Z) :=
  let aux0 := fun _ => mkp 0 0 in
  if negb (n_pipeline =? 1) then
    let cp := coarse_prefix n_pipeline (fun r => coarse_count contract np vl vh n_pipeline p r) in
    let aux := apply_writes
      (flat_map (coarse_sort contract np vl vh n_pipeline p cp) (zrange 0 n_pipeline)) aux0 in
    let cp0 := upd (cp 0) n_pipeline np in
    let jobs := map (fun s => subsort vl vh n_pipeline aux cp0 (fun _ => 0) s)
                    (flat_map (subsorts_of n_pipeline) (zrange 0 n_pipeline)) in
    (apply_writes (flat_map snd jobs) p,
     apply_writes (flat_map (fun j => snd (fst j)) jobs ++ ghost_writes np vl vh nv) partition)
  else
    let cp0 := upd (upd (fun _ => 0) 0 0) 1 np in
    let '(_, pw, fw) := subsort vl vh 1 p cp0 (fun _ => 0) 0 in
    let aux := apply_writes fw aux0 in
    (apply_writes (map (fun i => (i, aux i)) (zrange 0 np)) p,
     apply_writes (pw ++ ghost_writes np vl vh nv) partition).

(* ---- legacy serial sort, /repo/src/species_advance/standard/sort_p.cc:24-139 ---- *)

(* lines 68-81: counts and partition over 0..nc (nc1 = nc+1 entries) *)
Definition legacy_partition (nc : Z) (l : list particle) : (Z -> Z) * list (Z * Z) :=
  let next := count_loop key l (fun _ => 0) in
  let '(next, pw, _) := prefix_loop (zrange 0 (nc + 1)) next 0 in (next, pw).

(* lines 83-104 *)
Definition legacy_out_of_place (np nc : Z) (p new_p : Z -> particle) : Z -> particle :=
  let '(next, _) := legacy_partition nc (section p 0 np) in
  apply_writes (snd (scatter_loop key (section p 0 np) next)) new_p.

(* lines 106-138.  State: i, next, p.  One trip of the inner for(;;) is one
   step; src = Some k while inside the inner loop with src = &p[k].  The loop
   ends when i reaches nc.  Out of fuel is None. *)
Fixpoint legacy_in_place (fuel : nat) (nc : Z) (partition : Z -> Z)
    (i : Z) (src : option Z) (next : Z -> Z) (p : Z -> particle) : option (Z -> particle) :=
  match fuel with
  | O => None
  | S fuel =>
    match src with
    | None =>
        if i <? nc then
          if next i >=? partition (i + 1) then legacy_in_place fuel nc partition (i + 1) None next p
          else legacy_in_place fuel nc partition i (Some (next i)) next p
        else Some p
    | Some k =>
        let v := key (p k) in
        let dest := next v in
        let next := upd next v (next v + 1) in
        if k =? dest then legacy_in_place fuel nc partition i None next p
        else let save := p dest in
             legacy_in_place fuel nc partition i (Some k) next (upd (upd p dest (p k)) k save)
    end
  end.

(* whole legacy sort; returns (particles, partition, last_sorted := step).
   Note the early return for np = 0 after last_sorted has been set (lines 30, 46-47). *)
Definition legacy_sort (out_of_place : bool) (fuel : nat) (np nc step : Z)
    (p new_p : Z -> particle) (partition : Z -> Z) : option ((Z -> particle) * (Z -> Z) * Z) :=
  if np =? 0 then Some (p, partition, step)
  else
    let '(next, pw) := legacy_partition nc (section p 0 np) in
    let partition' := apply_writes pw partition in
    if out_of_place then Some (legacy_out_of_place np nc p new_p, partition', step)
    else match legacy_in_place fuel nc partition' 0 None next p with
         | Some p' => Some (p', partition', step)
         | None => None
         end.
