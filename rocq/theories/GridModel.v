(* Local grids: neighbour tables, joining of domains, box partitions. *)
From Coq Require Import ZArith List Bool.
From Verif Require Import SortModel VoxelModel.
Import ListNotations.
Open Scope Z_scope.

(* Outcome of a routine: it returns, stops with ERROR(( )), or has undefined behaviour (integer
   overflow, access outside an array). *)
Inductive res (A : Type) : Type := Ok (a : A) | Err | UB.
Arguments Ok {A}. Arguments Err {A}. Arguments UB {A}.
Definition bind {A B} (r : res A) (k : A -> res B) : res B :=
  match r with Ok a => k a | Err => Err | UB => UB end.

(* The neighbour array (grid.h:116-121): entry number -> value, None where nothing was stored. *)
Definition table : Type := Z -> option Z.
Definition store (t : table) (w : Z * Z) : table := fun k => if k =? fst w then Some (snd w) else t k.
(* stores into an array of [size] entries *)
Definition stores (size : Z) (t : table) (ws : list (Z * Z)) : res table :=
  if forallb (fun w => (0 <=? fst w) && (fst w <? size)) ws then Ok (fold_left store ws t) else UB.

(* grid_t, grid.h:73-131: mesh size, boundary codes bc[27], voxel ranges of all ranks, neighbour
   table; g_rank and g_size are world_rank and world_size. *)
Record grid : Type := mk_grid {
  g_rank : Z; g_size : Z; g_nx : Z; g_ny : Z; g_nz : Z;
  g_bc : Z -> Z; g_range : list Z; g_nbr : table }.
Definition g_nv (g : grid) : Z := nv_of (g_nx g) (g_ny g) (g_nz g).
Definition rangez (g : grid) (r : Z) : Z := nth (Z.to_nat r) (g_range g) 0.
Definition g_rangel (g : grid) : Z := rangez g (g_rank g).              (* ops.cc:52 *)
Definition g_rangeh (g : grid) : Z := rangez g (g_rank g + 1) - 1.      (* ops.cc:53 *)

(* BOUNDARY(i,j,k), grid.h:16. *)
Definition bcode (i j k : Z) : Z := 13 + i + 3 * j + 9 * k.
Definition reflect_code : Z := -1.     (* reflect_particles, grid.h:29 *)
Definition pec_code : Z := -1.         (* pec_fields = anti_symmetric_fields, grid.h:21-22 *)
Definition absorb_field_code : Z := -4. (* absorb_fields, grid.h:26 *)

(* Conversion of per-rank voxel counts into ranges, ops.cc:42-51: range[i] becomes the sum of the
   counts before i; [nvs] are the gathered counts followed by the 0 stored at range[world_size]. *)
Fixpoint offsets (jj : Z) (nvs : list Z) : list Z :=
  match nvs with [] => [] | kk :: l => jj :: offsets (jj + kk) l end.

(* The six neighbour entries written for voxel (x,y,z), in program order, ops.cc:58-85. *)
Definition when (b : bool) (l : list (Z * Z)) : list (Z * Z) := if b then l else [].
Definition size_writes (nx ny nz rangel : Z) (c : Z * Z * Z) : list (Z * Z) :=
  let '(x, y, z) := c in
  let i := 6 * voxel nx ny nz x y z in
  [(i + 0, rangel + voxel nx ny nz (x - 1) y z);
   (i + 1, rangel + voxel nx ny nz x (y - 1) z);
   (i + 2, rangel + voxel nx ny nz x y (z - 1));
   (i + 3, rangel + voxel nx ny nz (x + 1) y z);
   (i + 4, rangel + voxel nx ny nz x (y + 1) z);
   (i + 5, rangel + voxel nx ny nz x y (z + 1))]
  ++ when (x =? 1) [(i + 0, reflect_code)]
  ++ when (y =? 1) [(i + 1, reflect_code)]
  ++ when (z =? 1) [(i + 2, reflect_code)]
  ++ when (x =? nx) [(i + 3, reflect_code)]
  ++ when (y =? ny) [(i + 4, reflect_code)]
  ++ when (z =? nz) [(i + 5, reflect_code)]
  ++ when ((x =? 0) || (x =? nx + 1) || (y =? 0) || (y =? ny + 1) || (z =? 0) || (z =? nz + 1))
       [(i + 0, reflect_code); (i + 1, reflect_code); (i + 2, reflect_code);
        (i + 3, reflect_code); (i + 4, reflect_code); (i + 5, reflect_code)].
(* for( z ) for( y ) for( x ), inclusive bounds *)
Definition cells (x0 x1 y0 y1 z0 z1 : Z) : list (Z * Z * Z) :=
  flat_map (fun z => flat_map (fun y => map (fun x => (x, y, z)) (zrange x0 (x1 + 1))) (zrange y0 (y1 + 1)))
           (zrange z0 (z1 + 1)).

(* size_grid, ops.cc:18-116 (the disabled space filling curve omitted).  [nvs]: the result of
   mp_allgather_i64, the voxel count of every rank.  The counts and 6*nv are computed in int, so
   6*nv above INT_MAX is undefined; the 64 bit sums are taken not to overflow. *)
Definition size_grid (rank size : Z) (nvs : list Z) (nx ny nz : Z) : res grid :=
  if (nx <? 1) || (ny <? 1) || (nz <? 1) then Err else
  let nv := nv_of nx ny nz in
  if 2147483647 <? 6 * nv then UB else
  let range := offsets 0 (nvs ++ [0]) in
  let rangel := nth (Z.to_nat rank) range 0 in
  bind (stores (6 * nv) (fun _ => None)
          (flat_map (size_writes nx ny nz rangel) (cells 0 (nx + 1) 0 (ny + 1) 0 (nz + 1)))) (fun t =>
  Ok (mk_grid rank size nx ny nz (fun b => if b =? bcode 0 0 0 then rank else pec_code) range t)).

(* The macro arguments X,Y,Z of GLUE_FACE and SET_PBC name the coordinates x,y,z cyclically shifted
   (ops.cc:157-162, 203-208): for axis 0 X,Y,Z = x,y,z; axis 1 y,z,x; axis 2 z,x,y.  [cyc] gives
   (X,Y,Z) from (x,y,z), [uncyc] the inverse. *)
Definition cyc (ax : Z) (c : Z * Z * Z) : Z * Z * Z :=
  let '(x, y, z) := c in match ax with 0 => (x, y, z) | 1 => (y, z, x) | _ => (z, x, y) end.
Definition uncyc (ax : Z) (c : Z * Z * Z) : Z * Z * Z :=
  let '(X, Y, W) := c in match ax with 0 => (X, Y, W) | 1 => (W, X, Y) | _ => (Y, W, X) end.
Definition vox3 (n c : Z * Z * Z) : Z :=
  let '(nx, ny, nz) := n in let '(x, y, z) := c in voxel nx ny nz x y z.
Definition dims (g : grid) : Z * Z * Z := (g_nx g, g_ny g, g_nz g).

(* The boundary code of face tag: 0,1,2 the low x,y,z faces, 3,4,5 the high ones. *)
Definition face_code (tag : Z) : Z := match tag with
  | 0 => bcode (-1) 0 0 | 1 => bcode 0 (-1) 0 | 2 => bcode 0 0 (-1)
  | 3 => bcode 1 0 0 | 4 => bcode 0 1 0 | _ => bcode 0 0 1 end.
Definition faces6 : list Z := [0; 1; 2; 3; 4; 5].

Definition set_bc (g : grid) (b v : Z) : grid :=
  mk_grid (g_rank g) (g_size g) (g_nx g) (g_ny g) (g_nz g) (fun k => if k =? b then v else g_bc g k) (g_range g) (g_nbr g).
Definition set_nbr (g : grid) (t : table) : grid :=
  mk_grid (g_rank g) (g_size g) (g_nx g) (g_ny g) (g_nz g) (g_bc g) (g_range g) t.

(* One GLUE_FACE(tag,...), ops.cc:136-155. *)
Definition glue_face (g : grid) (tag rank : Z) : res grid :=
  let ax := tag mod 3 in let neg := tag <? 3 in
  let '(lX, lY, lZ) := cyc ax (dims g) in
  let rnc := rangez g (rank + 1) - rangez g rank in
  let face := (lY + 2) * (lZ + 2) in
  if negb (Z.rem rnc face =? 0) then Err else
  let rX := Z.quot rnc face - 2 in
  let rdims := uncyc ax (rX, lY, lZ) in
  let ws := flat_map (fun iZ => map (fun iY =>
      (6 * vox3 (dims g) (uncyc ax (if neg then 1 else lX, iY, iZ)) + tag,
       rangez g rank + vox3 rdims (uncyc ax (if neg then rX else 1, iY, iZ))))
    (zrange 1 (lY + 1))) (zrange 1 (lZ + 1)) in
  bind (stores (6 * g_nv g) (g_nbr g) ws) (fun t => Ok (set_nbr g t)).

(* join_grid, ops.cc:118-165; boundaries that are not faces only get their bc entry. *)
Definition join_grid (g : grid) (boundary rank : Z) : res grid :=
  if (boundary <? 0) || (27 <=? boundary) || (boundary =? bcode 0 0 0) || (rank <? 0) || (g_size g <=? rank) then Err
  else let g := set_bc g boundary rank in
  match find (fun tag => boundary =? face_code tag) faces6 with
  | Some tag => glue_face g tag rank
  | None => Ok g end.

(* set_fbc, ops.cc:167-178. *)
Definition set_fbc (g : grid) (boundary fbc : Z) : res grid :=
  if (boundary <? 0) || (27 <=? boundary) || (boundary =? bcode 0 0 0) ||
     negb ((fbc =? -1) || (fbc =? -2) || (fbc =? -3) || (fbc =? -4)) then Err
  else Ok (set_bc g boundary fbc).

(* set_pbc, ops.cc:180-211. *)
Definition set_pbc (g : grid) (boundary pbc : Z) : res grid :=
  if (boundary <? 0) || (27 <=? boundary) || (boundary =? bcode 0 0 0) || (0 <=? pbc) then Err else
  match find (fun tag => boundary =? face_code tag) faces6 with
  | Some tag =>
      let ax := tag mod 3 in let neg := tag <? 3 in
      let '(lX, lY, lZ) := cyc ax (dims g) in
      let ws := flat_map (fun iZ => map (fun iY =>
          (6 * vox3 (dims g) (uncyc ax (if neg then 1 else lX, iY, iZ)) + tag, pbc))
        (zrange 1 (lY + 1))) (zrange 1 (lZ + 1)) in
      bind (stores (6 * g_nv g) (g_nbr g) ws) (fun t => Ok (set_nbr g t))
  | None => Ok g end.

(* RANK_TO_INDEX, partition.cc:13-23 (C integer division). *)
Definition rank_to_index (gpx gpy rank : Z) : Z * Z * Z :=
  let iy := Z.quot rank gpx in let ix := rank - iy * gpx in
  let iz := Z.quot iy gpy in let iy := iy - iz * gpy in
  (ix, iy, iz).

(* INDEX_TO_RANK, partition.cc:25-33.  The two while loops, unrolled |i|+1 times (more than they
   can run when gp >= 1). *)
Fixpoint wrap_down (fuel : nat) (gp i : Z) : Z :=
  match fuel with O => i | S k => if gp <=? i then wrap_down k gp (i - gp) else i end.
Fixpoint wrap_up (fuel : nat) (gp i : Z) : Z :=
  match fuel with O => i | S k => if i <? 0 then wrap_up k gp (i + gp) else i end.
Definition wrap (gp i : Z) : Z := let n := S (Z.to_nat (Z.abs i)) in wrap_up n gp (wrap_down n gp i).
Definition index_to_rank (gpx gpy gpz : Z) (c : Z * Z * Z) : Z :=
  let '(ix, iy, iz) := c in wrap gpx ix + gpx * (wrap gpy iy + gpy * wrap gpz iz).

(* partition_periodic_box, partition.cc:35-90, the integer part. *)
Definition partition_periodic (rank size : Z) (nvs : list Z) (gnx gny gnz gpx gpy gpz : Z) : res grid :=
  if (gpx <? 1) || (gpy <? 1) || (gpz <? 1) || negb (gpx * gpy * gpz =? size) then Err else
  if (gnx <? 1) || (gny <? 1) || (gnz <? 1) || negb (Z.rem gnx gpx =? 0) || negb (Z.rem gny gpy =? 0) ||
     negb (Z.rem gnz gpz =? 0) then Err else
  let '(px, py, pz) := rank_to_index gpx gpy rank in
  let i2r := index_to_rank gpx gpy gpz in
  bind (size_grid rank size nvs (Z.quot gnx gpx) (Z.quot gny gpy) (Z.quot gnz gpz)) (fun g =>
  bind (join_grid g (bcode (-1) 0 0) (i2r (px - 1, py, pz))) (fun g =>
  bind (join_grid g (bcode 0 (-1) 0) (i2r (px, py - 1, pz))) (fun g =>
  bind (join_grid g (bcode 0 0 (-1)) (i2r (px, py, pz - 1))) (fun g =>
  bind (join_grid g (bcode 1 0 0) (i2r (px + 1, py, pz))) (fun g =>
  bind (join_grid g (bcode 0 1 0) (i2r (px, py + 1, pz))) (fun g =>
        join_grid g (bcode 0 0 1) (i2r (px, py, pz + 1)))))))).

(* The overrides of partition_absorbing_box and partition_metal_box, partition.cc:107-140, 159-192:
   the same code with (absorb_fields, pbc) or (anti_symmetric_fields, reflect_particles). *)
Definition wall (cond : bool) (b fbc pbc : Z) (g : grid) : res grid :=
  if cond then bind (set_fbc g b fbc) (fun g => set_pbc g b pbc) else Ok g.
Definition partition_walls (fbc pbc rank size : Z) (nvs : list Z) (gnx gny gnz gpx gpy gpz : Z) : res grid :=
  bind (partition_periodic rank size nvs gnx gny gnz gpx gpy gpz) (fun g =>
  let '(px, py, pz) := rank_to_index gpx gpy rank in
  bind (wall ((px =? 0) && (1 <? gnx)) (bcode (-1) 0 0) fbc pbc g) (fun g =>
  bind (wall ((px =? gpx - 1) && (1 <? gnx)) (bcode 1 0 0) fbc pbc g) (fun g =>
  bind (wall ((py =? 0) && (1 <? gny)) (bcode 0 (-1) 0) fbc pbc g) (fun g =>
  bind (wall ((py =? gpy - 1) && (1 <? gny)) (bcode 0 1 0) fbc pbc g) (fun g =>
  bind (wall ((pz =? 0) && (1 <? gnz)) (bcode 0 0 (-1)) fbc pbc g) (fun g =>
        wall ((pz =? gpz - 1) && (1 <? gnz)) (bcode 0 0 1) fbc pbc g)))))).
(* partition.cc:92-140 *)
Definition partition_absorbing rank size nvs gnx gny gnz gpx gpy gpz pbc :=
  partition_walls absorb_field_code pbc rank size nvs gnx gny gnz gpx gpy gpz.
(* partition.cc:145-192 *)
Definition partition_metal rank size nvs gnx gny gnz gpx gpy gpz :=
  partition_walls pec_code reflect_code rank size nvs gnx gny gnz gpx gpy gpz.
