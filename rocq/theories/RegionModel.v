(* Model of the region macros of an input deck, /repo/deck/wrapper.h:71-417: which materials, field components,
   neighbours and emitter components they set.
   The coordinates are an arbitrary type T: an axis is the function h |-> x0 + dx*(h/2), so that the theorems hold for the
   doubles the macros compute (axis_d) as well as for exact numbers (axis_r).
   Simplifications: the logical equation rgn and the equations of the fields are functions of x, y, z only (a deck could
   write equations with side effects, or ones that read the field being set).  set_point_region_bc (wrapper.h:150-188) is
   not modelled: the six assignments of _ipbc at lines 179-184 have no semicolon, so no deck that uses it compiles. *)
From Coq Require Import ZArith List Bool Reals.
From Flocq Require Import IEEE754.BinarySingleNaN.
From Verif Require Import FloatModel DistributeModel VoxelModel SortModel ParticleModel.
Import ListNotations.
Open Scope Z_scope.

(* The eight members of field_t that hold a material (field_advance.h:44-62): of edges, faces, node and cell.  The six field
   components ex ey ez cbx cby cbz are stored under the names of the edge or face they live on. *)
Inductive member : Type := EX | EY | EZ | FX | FY | FZ | NODE | CELL.
Definition member_eq_dec : forall a b : member, {a = b} + {a <> b}.
Proof. decide equality. Defined.
Definition fkey_eq_dec : forall a b : Z * member, {a = b} + {a <> b}.
Proof. intros [a b] [c d]. destruct (Z.eq_dec a c), (member_eq_dec b d); subst; auto; right; congruence. Defined.

(* ---- stores ---- *)
(* A sequence of stores into an array whose valid places are given by [ok]; None: a store outside it (undefined). *)
Section stores.
Context {K V : Type} (keq : forall a b : K, {a = b} + {a <> b}) (ok : K -> bool).
Definition put (m : K -> V) (k : K) (x : V) : K -> V := fun k' => if keq k k' then x else m k'.
Fixpoint store_all (ws : list (K * V)) (m : K -> V) : option (K -> V) :=
  match ws with
  | [] => Some m
  | (k, x) :: t => if ok k then store_all t (put m k x) else None
  end.
(* if( c ) *k = x *)
Definition when (c : bool) (k : K) (x : V) : list (K * V) := if c then [(k, x)] else [].
End stores.

(* ---- the loops over the mesh ---- *)
(* for( int _i=lo; … ) { body; p += step; }  with the pointer p carried along (the _f++ of wrapper.h:146, the _n += 6 of 301) *)
Fixpoint row {W} (step : Z) (body : Z -> Z -> list W) (p : Z) (is : list Z) : list W :=
  match is with
  | [] => []
  | i :: t => body p i ++ row step body (p + step) t
  end.

(* wrapper.h:134-136: the three loops; p = base of the row, lo = first index, each index runs to n+1-lo *)
Definition mesh_loop {W} (step lo : Z) (base : Z -> Z -> Z) (nx ny nz : Z) (body : Z -> Z -> Z -> Z -> list W) : list W :=
  flat_map (fun k => flat_map (fun j => row step (fun p i => body p i j k) (base j k) (zrange lo (nx + 2 - lo)))
                              (zrange lo (ny + 2 - lo)))
           (zrange lo (nz + 2 - lo)).

Section macros.
Variable T : Type.
Variables X Y Z_ : Z -> T.            (* X h = x0 + dx*(h/2) *)
Variable rgn : T -> T -> T -> bool.
Variables nx ny nz : Z.

Definition field_ok (k : Z * member) : bool := (0 <=? fst k) && (fst k <? nv_of nx ny nz).

(* wrapper.h:134-136: _f = &field(0,_j,_k) *)
Definition field_loop {V} (body : Z -> Z -> Z -> Z -> list (Z * member * V)) (m : Z * member -> V) : option (Z * member -> V) :=
  store_all fkey_eq_dec field_ok (mesh_loop 1 0 (fun j k => voxel nx ny nz 0 j k) nx ny nz body) m.

(* ---- set_point_region_material, wrapper.h:129-148 ---- *)
(* get_material_id of NULL is -1 (material.cc:72-75) *)
Definition point_material_body (rmat : Z) (f i j k : Z) : list (Z * member * Z) :=
  let xn := X (2 * i - 2) in let xc := X (2 * i - 1) in
  let yn := Y (2 * j - 2) in let yc := Y (2 * j - 1) in
  let zn := Z_ (2 * k - 2) in let zc := Z_ (2 * k - 1) in
  when (rgn xn yn zn) (f, NODE) rmat ++
  when (rgn xc yn zn) (f, EX) rmat ++
  when (rgn xc yc zn) (f, FZ) rmat ++
  when (rgn xc yc zc) (f, CELL) rmat ++
  when (rgn xc yn zc) (f, FY) rmat ++
  when (rgn xn yn zc) (f, EZ) rmat ++
  when (rgn xn yc zc) (f, FX) rmat ++
  when (rgn xn yc zn) (f, EY) rmat.
Definition set_point_region_material (rmat : Z) (m : Z * member -> Z) : option (Z * member -> Z) :=
  if rmat =? -1 then Some m else field_loop (point_material_body rmat) m.

(* ---- set_point_region_field, wrapper.h:191-211 ---- *)
(* eqn: the six equations, cmul: the product with _c; the conversion to float on the store is part of both *)
Section fields.
Context {V : Type} (eqn : member -> T -> T -> T -> V) (cmul : V -> V).
Definition point_field_body (f i j k : Z) : list (Z * member * V) :=
  let xn := X (2 * i - 2) in let xc := X (2 * i - 1) in
  let yn := Y (2 * j - 2) in let yc := Y (2 * j - 1) in
  let zn := Z_ (2 * k - 2) in let zc := Z_ (2 * k - 1) in
  when (rgn xc yn zn) (f, EX) (eqn EX xc yn zn) ++
  when (rgn xc yc zn) (f, FZ) (cmul (eqn FZ xc yc zn)) ++
  when (rgn xc yn zc) (f, FY) (cmul (eqn FY xc yn zc)) ++
  when (rgn xn yn zc) (f, EZ) (eqn EZ xn yn zc) ++
  when (rgn xn yc zc) (f, FX) (cmul (eqn FX xn yc zc)) ++
  when (rgn xn yc zn) (f, EY) (eqn EY xn yc zn).
Definition set_point_region_field (m : Z * member -> V) : option (Z * member -> V) := field_loop point_field_body m.

(* ---- set_region_field, wrapper.h:389-417 ---- *)
(* _xe = _x0 + _dx*_i (lines 396-398) *)
Definition region_field_body (f i j k : Z) : list (Z * member * V) :=
  let xl := X (2 * i - 3) in let xe := X (2 * i) in let xc := X (2 * i - 1) in
  let yl := Y (2 * j - 3) in let ye := Y (2 * j) in let yc := Y (2 * j - 1) in
  let zl := Z_ (2 * k - 3) in let ze := Z_ (2 * k) in let zc := Z_ (2 * k - 1) in
  let rccc := rgn xc yc zc in let rlcc := rgn xl yc zc in
  let rclc := rgn xc yl zc in let rllc := rgn xl yl zc in
  let rccl := rgn xc yc zl in let rlcl := rgn xl yc zl in
  let rcll := rgn xc yl zl in
  when (rccc || rclc || rccl || rcll) (f, EX) (eqn EX xc ye ze) ++
  when (rccc || rccl || rlcc || rlcl) (f, EY) (eqn EY xe yc ze) ++
  when (rccc || rlcc || rclc || rllc) (f, EZ) (eqn EZ xe ye zc) ++
  when (rccc || rlcc) (f, FX) (cmul (eqn FX xe yc zc)) ++
  when (rccc || rclc) (f, FY) (cmul (eqn FY xc ye zc)) ++
  when (rccc || rccl) (f, FZ) (cmul (eqn FZ xc yc ze)).
Definition set_region_field (m : Z * member -> V) : option (Z * member -> V) := field_loop region_field_body m.
End fields.

(* ---- set_region_material, wrapper.h:213-255 ---- *)
Definition region_material_body (vmat smat : Z) (f i j k : Z) : list (Z * member * Z) :=
  let xl := X (2 * i - 3) in let xc := X (2 * i - 1) in
  let yl := Y (2 * j - 3) in let yc := Y (2 * j - 1) in
  let zl := Z_ (2 * k - 3) in let zc := Z_ (2 * k - 1) in
  let rccc := rgn xc yc zc in let rlcc := rgn xl yc zc in
  let rclc := rgn xc yl zc in let rllc := rgn xl yl zc in
  let rccl := rgn xc yc zl in let rlcl := rgn xl yc zl in
  let rcll := rgn xc yl zl in let rlll := rgn xl yl zl in
  (if smat =? -1 then [] else
   when (rccc || rclc || rccl || rcll) (f, EX) smat ++
   when (rccc || rccl || rlcc || rlcl) (f, EY) smat ++
   when (rccc || rlcc || rclc || rllc) (f, EZ) smat ++
   when (rccc || rlcc) (f, FX) smat ++
   when (rccc || rclc) (f, FY) smat ++
   when (rccc || rccl) (f, FZ) smat ++
   when (rccc || rlcc || rclc || rllc || rccl || rlcl || rcll || rlll) (f, NODE) smat) ++
  (if vmat =? -1 then [] else
   when (rccc && rclc && rccl && rcll) (f, EX) vmat ++
   when (rccc && rccl && rlcc && rlcl) (f, EY) vmat ++
   when (rccc && rlcc && rclc && rllc) (f, EZ) vmat ++
   when (rccc && rlcc) (f, FX) vmat ++
   when (rccc && rclc) (f, FY) vmat ++
   when (rccc && rccl) (f, FZ) vmat ++
   when (rccc && rlcc && rclc && rllc && rccl && rlcl && rcll && rlll) (f, NODE) vmat ++
   when rccc (f, CELL) vmat).
Definition set_region_material (vmat smat : Z) (m : Z * member -> Z) : option (Z * member -> Z) :=
  if (vmat =? -1) && (smat =? -1) then Some m else field_loop (region_material_body vmat smat) m.

(* ---- set_region_bc, wrapper.h:257-303 ---- *)
(* get_particle_bc_id of NULL is 0 (boundary.cc:79-84); neighbor is an array of 6*nv int64_t (grid.h:116) *)
Definition nb_ok (a : Z) : bool := (0 <=? a) && (a <? 6 * nv_of nx ny nz).
Definition region_bc_body (vpbc ipbc epbc : Z) (n i j k : Z) : list (Z * Z) :=
  let xl := X (2 * i - 3) in let xc := X (2 * i - 1) in let xh := X (2 * i + 1) in
  let yl := Y (2 * j - 3) in let yc := Y (2 * j - 1) in let yh := Y (2 * j + 1) in
  let zl := Z_ (2 * k - 3) in let zc := Z_ (2 * k - 1) in let zh := Z_ (2 * k + 1) in
  let rc := rgn xc yc zc in
  let r0 := rgn xl yc zc in let r1 := rgn xc yl zc in let r2 := rgn xc yc zl in
  let r3 := rgn xh yc zc in let r4 := rgn xc yh zc in let r5 := rgn xc yc zh in
  (if vpbc =? 0 then [] else
   when (rc && r0) (n + 0) vpbc ++ when (rc && r1) (n + 1) vpbc ++ when (rc && r2) (n + 2) vpbc ++
   when (rc && r3) (n + 3) vpbc ++ when (rc && r4) (n + 4) vpbc ++ when (rc && r5) (n + 5) vpbc) ++
  (if ipbc =? 0 then [] else
   when (rc && negb r0) (n + 0) ipbc ++ when (rc && negb r1) (n + 1) ipbc ++ when (rc && negb r2) (n + 2) ipbc ++
   when (rc && negb r3) (n + 3) ipbc ++ when (rc && negb r4) (n + 4) ipbc ++ when (rc && negb r5) (n + 5) ipbc) ++
  (if epbc =? 0 then [] else
   when (negb rc && r0) (n + 0) epbc ++ when (negb rc && r1) (n + 1) epbc ++ when (negb rc && r2) (n + 2) epbc ++
   when (negb rc && r3) (n + 3) epbc ++ when (negb rc && r4) (n + 4) epbc ++ when (negb rc && r5) (n + 5) epbc).
Definition set_region_bc (vpbc ipbc epbc : Z) (m : Z -> Z) : option (Z -> Z) :=
  if (vpbc =? 0) && (ipbc =? 0) && (epbc =? 0) then Some m
  else store_all Z.eq_dec nb_ok
         (mesh_loop 6 1 (fun j k => 6 * voxel nx ny nz 1 j k) nx ny nz (region_bc_body vpbc ipbc epbc)) m.

(* ---- emitters, wrapper.h:312-386 ---- *)
(* BOUNDARY(i,j,k), grid.h:16 *)
Definition boundary_code (i j k : Z) : Z := 13 + i + 3 * j + 9 * k.
(* COMPONENT_ID, emitter.h:26-27, in int; None: the shift overflows (undefined) *)
Definition component_id (v t : Z) : option Z := if v <? 2 ^ 26 then Some (Z.lor (Z.shiftl v 5) t) else None.

(* the first pass counts the places where the second one stores; the second stores c[n++] into an array of [size] entries.
   None: an overflow of COMPONENT_ID or a store behind the array.  Entries never stored stay None. *)
Fixpoint fill (size n : nat) (ids : list (option Z)) (c : nat -> option Z) : option (nat -> option Z) :=
  match ids with
  | [] => Some c
  | None :: _ => None
  | Some x :: t => if Nat.ltb n size then fill size (S n) t (fun a => if Nat.eqb a n then Some x else c a) else None
  end.
Definition emitter_array (size : nat) (ids : list (option Z)) : option (list (option Z)) :=
  match fill size 0 ids (fun _ => None) with
  | Some c => Some (map c (seq 0 size))
  | None => None
  end.
Definition push (c : bool) (x : option Z) : list (option Z) := if c then [x] else [].
Definition tick (c : bool) : list unit := if c then [tt] else [].

(* wrapper.h:317-323 and 326-332 *)
Definition volume_count_body (p i j k : Z) : list unit := tick (rgn (X (2 * i - 1)) (Y (2 * j - 1)) (Z_ (2 * k - 1))).
Definition volume_fill_body (p i j k : Z) : list (option Z) :=
  push (rgn (X (2 * i - 1)) (Y (2 * j - 1)) (Z_ (2 * k - 1))) (component_id (voxel nx ny nz i j k) (boundary_code 0 0 0)).
Definition volume_emitter : option (list (option Z)) :=
  emitter_array (length (mesh_loop 0 1 (fun _ _ => 0) nx ny nz volume_count_body))
                (mesh_loop 0 1 (fun _ _ => 0) nx ny nz volume_fill_body).

(* wrapper.h:346-362 *)
Definition surface_count_body (p i j k : Z) : list unit :=
  let xl := X (2 * i - 3) in let xc := X (2 * i - 1) in let xh := X (2 * i + 1) in
  let yl := Y (2 * j - 3) in let yc := Y (2 * j - 1) in let yh := Y (2 * j + 1) in
  let zl := Z_ (2 * k - 3) in let zc := Z_ (2 * k - 1) in let zh := Z_ (2 * k + 1) in
  let rc := rgn xc yc zc in
  let r0 := rgn xl yc zc in let r1 := rgn xc yl zc in let r2 := rgn xc yc zl in
  let r3 := rgn xh yc zc in let r4 := rgn xc yh zc in let r5 := rgn xc yc zh in
  tick (negb rc && r0) ++ tick (negb rc && r1) ++ tick (negb rc && r2) ++
  tick (negb rc && r3) ++ tick (negb rc && r4) ++ tick (negb rc && r5).
(* wrapper.h:366-384 *)
Definition surface_fill_body (p i j k : Z) : list (option Z) :=
  let xl := X (2 * i - 3) in let xc := X (2 * i - 1) in let xh := X (2 * i + 1) in
  let yl := Y (2 * j - 3) in let yc := Y (2 * j - 1) in let yh := Y (2 * j + 1) in
  let zl := Z_ (2 * k - 3) in let zc := Z_ (2 * k - 1) in let zh := Z_ (2 * k + 1) in
  let rc := rgn xc yc zc in
  let r0 := rgn xl yc zc in let r1 := rgn xc yl zc in let r2 := rgn xc yc zl in
  let r3 := rgn xh yc zc in let r4 := rgn xc yh zc in let r5 := rgn xc yc zh in
  let v := voxel nx ny nz i j k in
  push (negb rc && r0) (component_id v (boundary_code (-1) 0 0)) ++
  push (negb rc && r1) (component_id v (boundary_code 0 (-1) 0)) ++
  push (negb rc && r2) (component_id v (boundary_code 0 0 (-1))) ++
  push (negb rc && r3) (component_id v (boundary_code 1 0 0)) ++
  push (negb rc && r4) (component_id v (boundary_code 0 1 0)) ++
  push (negb rc && r5) (component_id v (boundary_code 0 0 1)).
Definition surface_emitter : option (list (option Z)) :=
  emitter_array (length (mesh_loop 0 1 (fun _ _ => 0) nx ny nz surface_count_body))
                (mesh_loop 0 1 (fun _ _ => 0) nx ny nz surface_fill_body).
End macros.

(* EXTRACT_LOCAL_CELL and EXTRACT_COMPONENT_TYPE, emitter.h:28-29 *)
Definition extract_cell (id : Z) : Z := Z.shiftr id 5.
Definition extract_type (id : Z) : Z := Z.land id 31.

(* ---- the coordinates ---- *)
(* _x0 + _dx*(_i-1), _x0 + _dx*(_i-0.5), … in double from the floats grid->x0 and grid->dx (grid.h:84-91); i-1 is an int
   converted to double and i-0.5 is exact, so both are h/2 for h = 2*i-2, 2*i-1.  No contraction into fma. *)
Definition axis_d (x0 dx : b32) (h : Z) : b64 := d_add (f2d x0) (d_mul (f2d dx) (d_div (d_of_Z h) (d_of_Z 2))).
(* the same without rounding *)
Definition axis_r (x0 dx : R) (h : Z) : R := (x0 + dx * (IZR h / 2))%R.
(* partition.cc:58: g->dx = (gx1-gx0)/(double)gnx, stored as float *)
Definition cell_size (gx0 gx1 : b64) (gnx : Z) : b32 := d2f (d_div (d_sub gx1 gx0) (d_of_Z gnx)).
