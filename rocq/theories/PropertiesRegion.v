(* C75: what the region macros of an input deck set, /repo/deck/wrapper.h:71-417.
   X, Y, Z_ give the coordinates the macros compute (RegionModel.axis_d in double); rgn is the logical equation of the deck. *)
From Coq Require Import ZArith List Bool Reals Lra Lia ZifyBool.
From Flocq Require Import IEEE754.BinarySingleNaN.
From Verif Require Import FloatModel DistributeModel VoxelModel VoxelProofs SortModel InjectModel.
From Verif Require Import RegionModel RegionSpec RegionProofs RegionFaces.
Require Import Verif.ParticleModel.
Import ListNotations.
Open Scope Z_scope.
Ltac Zify.zify_post_hook ::= idtac.

(* set_point_region_material: a material is set exactly where the location of the member is inside the region; no store
   leaves the field array. *)
Theorem C75_point_material : forall T (X Y Z_ : Z -> T) rgn nx ny nz rmat m, 1 <= nx -> 1 <= ny -> 1 <= nz -> rmat <> -1 ->
  exists m', set_point_region_material T X Y Z_ rgn nx ny nz rmat m = Some m' /\
    forall i j k f, in_mesh nx ny nz i j k -> m' (voxel nx ny nz i j k, f) =
      if at_place X Y Z_ rgn f i j k then rmat else m (voxel nx ny nz i j k, f).
Proof. intros. apply point_material; assumption. Qed.
Print Assumptions C75_point_material.

(* leave_unchanged leaves everything unchanged *)
Theorem C75_leave_unchanged : forall T (X Y Z_ : Z -> T) rgn nx ny nz m nb,
  set_point_region_material T X Y Z_ rgn nx ny nz (-1) m = Some m /\
  set_region_material T X Y Z_ rgn nx ny nz (-1) (-1) m = Some m /\
  set_region_bc T X Y Z_ rgn nx ny nz 0 0 0 nb = Some nb.
Proof. intros. repeat split. Qed.
Print Assumptions C75_leave_unchanged.

(* set_point_region_field: each component is the equation at its own location on the Yee mesh, where that is inside the
   region; cb is _c times the equation of b. *)
Theorem C75_point_field : forall T (X Y Z_ : Z -> T) rgn nx ny nz V (eqn : member -> T -> T -> T -> V) cmul m,
  1 <= nx -> 1 <= ny -> 1 <= nz ->
  exists m', set_point_region_field T X Y Z_ rgn nx ny nz eqn cmul m = Some m' /\
    forall i j k f, in_mesh nx ny nz i j k -> m' (voxel nx ny nz i j k, f) =
      match f with
      | NODE | CELL => m (voxel nx ny nz i j k, f)
      | EX | EY | EZ => if at_place X Y Z_ rgn f i j k then at_place X Y Z_ (eqn f) f i j k else m (voxel nx ny nz i j k, f)
      | FX | FY | FZ => if at_place X Y Z_ rgn f i j k then cmul (at_place X Y Z_ (eqn f) f i j k) else m (voxel nx ny nz i j k, f)
      end.
Proof. intros. apply point_field; assumption. Qed.
Print Assumptions C75_point_field.

(* set_region_material with a volume material: interior members get it, surface members get the surface material if one is
   given, and the rest is unchanged (wrapper.h:90-114). *)
Theorem C75_region_material : forall T (X Y Z_ : Z -> T) rgn nx ny nz vmat smat m, 1 <= nx -> 1 <= ny -> 1 <= nz -> vmat <> -1 ->
  exists m', set_region_material T X Y Z_ rgn nx ny nz vmat smat m = Some m' /\
    forall i j k f, in_mesh nx ny nz i j k ->
      (interior X Y Z_ rgn f i j k = true -> m' (voxel nx ny nz i j k, f) = vmat) /\
      (touched X Y Z_ rgn f i j k = true -> interior X Y Z_ rgn f i j k = false ->
         m' (voxel nx ny nz i j k, f) = if smat =? -1 then m (voxel nx ny nz i j k, f) else smat) /\
      (touched X Y Z_ rgn f i j k = false -> m' (voxel nx ny nz i j k, f) = m (voxel nx ny nz i j k, f)).
Proof.
  intros T X Y Z_ rgn nx ny nz vmat smat m HX HY HZ N.
  destruct (region_material X Y Z_ rgn nx ny nz HX HY HZ vmat smat m) as (m' & E & H). exists m'. split; [exact E|].
  intros i j k f I. rewrite (H i j k f I). replace (vmat =? -1) with false by lia. cbn [negb andb].
  assert (IT : interior X Y Z_ rgn f i j k = true -> touched X Y Z_ rgn f i j k = true).
  { unfold interior, touched. destruct f; cbn; intro A; repeat (apply andb_true_iff in A; destruct A as [? A]); 
    repeat match goal with B : rgn _ _ _ = true |- _ => rewrite B end; reflexivity. }
  assert (CE : f = CELL -> touched X Y Z_ rgn f i j k = interior X Y Z_ rgn f i j k).
  { intros ->. unfold interior, touched. cbn. rewrite orb_false_r, andb_true_r. reflexivity. }
  split; [intros ->; reflexivity|]. split.
  - intros A B. rewrite A, B. destruct (smat =? -1); [reflexivity|]. destruct f; try reflexivity. rewrite CE in A by reflexivity. congruence.
  - intro A. rewrite A. destruct (interior X Y Z_ rgn f i j k); [specialize (IT eq_refl); congruence|]. rewrite andb_false_r. reflexivity.
Qed.
Print Assumptions C75_region_material.

(* In all cases, with leave_unchanged (-1) for either material. *)
Theorem C75_region_material_exact : forall T (X Y Z_ : Z -> T) rgn nx ny nz vmat smat m, 1 <= nx -> 1 <= ny -> 1 <= nz ->
  exists m', set_region_material T X Y Z_ rgn nx ny nz vmat smat m = Some m' /\
    forall i j k f, in_mesh nx ny nz i j k -> m' (voxel nx ny nz i j k, f) =
      if negb (vmat =? -1) && interior X Y Z_ rgn f i j k then vmat
      else if negb (smat =? -1) && touched X Y Z_ rgn f i j k && (match f with CELL => false | _ => true end) then smat
      else m (voxel nx ny nz i j k, f).
Proof. intros. apply region_material; assumption. Qed.
Print Assumptions C75_region_material_exact.

(* With leave_unchanged for the volume and a surface material, as in /repo/sample/shapes:84, the interior is not left
   unchanged: a face both of whose cells are inside gets the surface material. *)
Theorem C75_region_material_refuted : exists (X : Z -> R) rgn smat (m m' : Z * member -> Z),
  set_region_material R X X X rgn 4 4 4 (-1) smat m = Some m' /\ smat <> -1 /\
  interior X X X rgn FX 3 2 2 = true /\ m' (voxel 4 4 4 3 2 2, FX) = smat /\ m (voxel 4 4 4 3 2 2, FX) <> smat.
Proof.
  destruct (region_material (axis_r 0 1) (axis_r 0 1) (axis_r 0 1) (fun _ _ _ => true) 4 4 4 ltac:(lia) ltac:(lia) ltac:(lia) (-1) 7 (fun _ => 0)) as (m' & E & H).
  exists (axis_r 0 1), (fun _ _ _ => true), 7, (fun _ => 0), m'. split; [exact E|]. split; [lia|]. split; [reflexivity|].
  split; [|lia]. rewrite H by (unfold in_mesh; lia). reflexivity.
Qed.
Print Assumptions C75_region_material_refuted.

(* set_region_bc: faces between two inside cells get vpbc, faces of an inside cell towards an outside one ipbc, faces of an
   outside cell towards an inside one epbc, unless that id is 0; nothing else in the neighbour array changes. *)
Theorem C75_region_bc : forall T (X Y Z_ : Z -> T) rgn nx ny nz vpbc ipbc epbc m, 1 <= nx -> 1 <= ny -> 1 <= nz ->
  exists m', set_region_bc T X Y Z_ rgn nx ny nz vpbc ipbc epbc m = Some m' /\
    (forall i j k f, in_domain nx ny nz i j k -> 0 <= f < 6 ->
       let a := 6 * voxel nx ny nz i j k + f in
       m' a = match cell_inside X Y Z_ rgn (i, j, k), cell_inside X Y Z_ rgn (beyond f i j k) with
              | true, true => if vpbc =? 0 then m a else vpbc
              | true, false => if ipbc =? 0 then m a else ipbc
              | false, true => if epbc =? 0 then m a else epbc
              | false, false => m a
              end) /\
    (forall a, (forall i j k f, in_domain nx ny nz i j k -> 0 <= f < 6 -> a <> 6 * voxel nx ny nz i j k + f) -> m' a = m a).
Proof.
  intros T X Y Z_ rgn nx ny nz vpbc ipbc epbc m HX HY HZ.
  destruct (region_bc X Y Z_ rgn nx ny nz HX HY HZ vpbc ipbc epbc m) as (m' & E & H & U). exists m'. split; [exact E|].
  split; [|exact U]. intros i j k f I F a. unfold a. rewrite (H i j k f I F). reflexivity.
Qed.
Print Assumptions C75_region_bc.

(* set_region_field sets exactly the components touched by the region, but evaluates the equations one cell too far along
   every axis where the component sits at a node. *)
Theorem C75_region_field : forall T (X Y Z_ : Z -> T) rgn nx ny nz V (eqn : member -> T -> T -> T -> V) cmul m,
  1 <= nx -> 1 <= ny -> 1 <= nz ->
  exists m', set_region_field T X Y Z_ rgn nx ny nz eqn cmul m = Some m' /\
    forall i j k f, in_mesh nx ny nz i j k -> m' (voxel nx ny nz i j k, f) =
      match f with
      | NODE | CELL => m (voxel nx ny nz i j k, f)
      | EX | EY | EZ => if touched X Y Z_ rgn f i j k then at_shifted X Y Z_ (eqn f) f i j k else m (voxel nx ny nz i j k, f)
      | FX | FY | FZ => if touched X Y Z_ rgn f i j k then cmul (at_shifted X Y Z_ (eqn f) f i j k) else m (voxel nx ny nz i j k, f)
      end.
Proof. intros. apply region_field; assumption. Qed.
Print Assumptions C75_region_field.

(* So a component is set to the equation at its own location when the equations do not depend on the coordinates *)
Theorem C75_region_field_uniform : forall T (X Y Z_ : Z -> T) rgn nx ny nz V (eqn : member -> T -> T -> T -> V) cmul m m' f,
  1 <= nx -> 1 <= ny -> 1 <= nz ->
  (forall x y z x' y' z', eqn f x y z = eqn f x' y' z') ->
  set_region_field T X Y Z_ rgn nx ny nz eqn cmul m = Some m' ->
  f = EX \/ f = EY \/ f = EZ ->
  forall i j k, in_mesh nx ny nz i j k -> m' (voxel nx ny nz i j k, f) =
    if touched X Y Z_ rgn f i j k then at_place X Y Z_ (eqn f) f i j k else m (voxel nx ny nz i j k, f).
Proof.
  intros T X Y Z_ rgn nx ny nz V eqn cmul m m' f HX HY HZ U E F i j k I.
  destruct (region_field X Y Z_ rgn nx ny nz HX HY HZ eqn cmul m) as (m2 & E2 & H). rewrite E2 in E. injection E as <-.
  rewrite (H i j k f I). unfold at_shifted, at_place.
  destruct F as [ -> | [ -> | -> ] ]; cbn [staggered]; destruct (touched X Y Z_ rgn _ i j k); auto.
Qed.
Print Assumptions C75_region_field_uniform.

(* and not in general: ex = y, everywhere; the ex of voxel (1,1,1) lies at y = 0 and is set to 1, the ex of the boundary
   node plane ny+1 lies at y = 4 and is set to 5. *)
Theorem C75_region_field_refuted : exists (eqn : member -> R -> R -> R -> R) (m m' : Z * member -> R),
  let X := axis_r 0 1 in
  set_region_field R X X X (fun _ _ _ => true) 4 4 4 eqn (fun b => b) m = Some m' /\
  at_place X X X (eqn EX) EX 1 1 1 = 0%R /\ m' (voxel 4 4 4 1 1 1, EX) = 1%R /\
  at_place X X X (eqn EX) EX 1 5 1 = 4%R /\ m' (voxel 4 4 4 1 5 1, EX) = 5%R.
Proof.
  destruct (region_field (axis_r 0 1) (axis_r 0 1) (axis_r 0 1) (fun _ _ _ => true) 4 4 4 ltac:(lia) ltac:(lia) ltac:(lia)
             (fun _ x y z => y) (fun b => b) (fun _ => 0%R)) as (m' & E & H).
  exists (fun _ x y z => y), (fun _ => 0%R), m'. cbv zeta. split; [exact E|].
  rewrite !H by (unfold in_mesh; lia). unfold at_place, at_shifted, touched, associated. cbn [staggered]. cbn [sides flat_map map app existsb orb cell_inside].
  unfold along, axis_r. cbn [Z.add Z.sub Z.mul Z.opp Pos.add Pos.mul Z.pos_sub Pos.sub Pos.pred_double Pos.succ Pos.sub_mask].
  repeat split; vm_compute Z.mul; simpl; lra.
Qed.
Print Assumptions C75_region_field_refuted.

(* Without rounding two ranks that share a face decide alike: with x0 of the higher rank at the upper end of the lower one, if the
   voxels they both hold (0 and 1 of the higher rank, nx and nx+1 of the lower) agree before a macro, they agree after it. *)
Theorem C75_ranks_agree : forall x0 dx (Y Z_ : Z -> R) rgn nx ny nz, 1 <= nx -> 1 <= ny -> 1 <= nz ->
  let XL := axis_r x0 dx in let XR := axis_r (x0 + dx * IZR nx) dx in
  let agree V (mL mR : Z * member -> V) := forall i j k f, 0 <= i <= 1 -> 0 <= j <= ny + 1 -> 0 <= k <= nz + 1 ->
      mL (voxel nx ny nz (nx + i) j k, f) = mR (voxel nx ny nz i j k, f) in
  (forall rmat mL mR mL' mR', agree Z mL mR ->
     set_point_region_material R XL Y Z_ rgn nx ny nz rmat mL = Some mL' ->
     set_point_region_material R XR Y Z_ rgn nx ny nz rmat mR = Some mR' -> agree Z mL' mR') /\
  (forall vmat smat mL mR mL' mR', agree Z mL mR ->
     set_region_material R XL Y Z_ rgn nx ny nz vmat smat mL = Some mL' ->
     set_region_material R XR Y Z_ rgn nx ny nz vmat smat mR = Some mR' -> agree Z mL' mR') /\
  (forall V (eqn : member -> R -> R -> R -> V) cmul mL mR mL' mR', agree V mL mR ->
     set_point_region_field R XL Y Z_ rgn nx ny nz eqn cmul mL = Some mL' ->
     set_point_region_field R XR Y Z_ rgn nx ny nz eqn cmul mR = Some mR' -> agree V mL' mR') /\
  (forall V (eqn : member -> R -> R -> R -> V) cmul mL mR mL' mR', agree V mL mR ->
     set_region_field R XL Y Z_ rgn nx ny nz eqn cmul mL = Some mL' ->
     set_region_field R XR Y Z_ rgn nx ny nz eqn cmul mR = Some mR' -> agree V mL' mR').
Proof.
  intros x0 dx Y Z_ rgn nx ny nz HX HY HZ XL XR agree.
  assert (SH : forall h i, along XL h (nx + i) = along XR h i).
  { intros h i. unfold along, XL, XR, axis_r. rewrite !plus_IZR, !mult_IZR, !minus_IZR, plus_IZR. destruct h; field. }
  assert (PL : forall V (g : R -> R -> R -> V) f i j k, at_place XL Y Z_ g f (nx + i) j k = at_place XR Y Z_ g f i j k).
  { intros V g f i j k. unfold at_place. destruct f; cbn [staggered]; rewrite ?SH; reflexivity. }
  assert (CI : forall i j k, cell_inside XL Y Z_ rgn (nx + i, j, k) = cell_inside XR Y Z_ rgn (i, j, k)).
  { intros. unfold cell_inside. rewrite SH. reflexivity. }
  assert (CI1 : forall i j k, cell_inside XL Y Z_ rgn (nx + i - 1, j, k) = cell_inside XR Y Z_ rgn (i - 1, j, k)).
  { intros. rewrite <- CI. replace (nx + i - 1) with (nx + (i - 1)) by lia. reflexivity. }
  assert (TO : forall f i j k, touched XL Y Z_ rgn f (nx + i) j k = touched XR Y Z_ rgn f i j k).
  { intros. unfold touched, associated. destruct f; cbn [staggered sides flat_map map app existsb]; rewrite ?CI, ?CI1; reflexivity. }
  assert (IN : forall f i j k, interior XL Y Z_ rgn f (nx + i) j k = interior XR Y Z_ rgn f i j k).
  { intros. unfold interior, associated. destruct f; cbn [staggered sides flat_map map app forallb]; rewrite ?CI, ?CI1; reflexivity. }
  assert (SF : forall V (g : R -> R -> R -> V) f i j k, at_shifted XL Y Z_ g f (nx + i) j k = at_shifted XR Y Z_ g f i j k).
  { intros V g f i j k. unfold at_shifted. destruct f; cbn [staggered]; rewrite <- ?Z.add_assoc, ?SH; reflexivity. }
  split; [|split; [|split]].
  - intros rmat mL mR mL' mR' A EL ER i j k f I J K. destruct (Z.eq_dec rmat (-1)) as [ -> |N].
    { injection EL as <-. injection ER as <-. apply A; assumption. }
    destruct (point_material XL Y Z_ rgn nx ny nz HX HY HZ rmat mL N) as (l & E1 & H1). rewrite E1 in EL. injection EL as <-.
    destruct (point_material XR Y Z_ rgn nx ny nz HX HY HZ rmat mR N) as (r & E2 & H2). rewrite E2 in ER. injection ER as <-.
    rewrite H1, H2 by (unfold in_mesh; lia). rewrite PL, (A i j k f I J K). reflexivity.
  - intros vmat smat mL mR mL' mR' A EL ER i j k f I J K.
    destruct (region_material XL Y Z_ rgn nx ny nz HX HY HZ vmat smat mL) as (l & E1 & H1). rewrite E1 in EL. injection EL as <-.
    destruct (region_material XR Y Z_ rgn nx ny nz HX HY HZ vmat smat mR) as (r & E2 & H2). rewrite E2 in ER. injection ER as <-.
    rewrite H1, H2 by (unfold in_mesh; lia). rewrite IN, TO, (A i j k f I J K). reflexivity.
  - intros V eqn cmul mL mR mL' mR' A EL ER i j k f I J K.
    destruct (point_field XL Y Z_ rgn nx ny nz HX HY HZ eqn cmul mL) as (l & E1 & H1). rewrite E1 in EL. injection EL as <-.
    destruct (point_field XR Y Z_ rgn nx ny nz HX HY HZ eqn cmul mR) as (r & E2 & H2). rewrite E2 in ER. injection ER as <-.
    rewrite H1, H2 by (unfold in_mesh; lia). rewrite !PL, (A i j k f I J K). reflexivity.
  - intros V eqn cmul mL mR mL' mR' A EL ER i j k f I J K.
    destruct (region_field XL Y Z_ rgn nx ny nz HX HY HZ eqn cmul mL) as (l & E1 & H1). rewrite E1 in EL. injection EL as <-.
    destruct (region_field XR Y Z_ rgn nx ny nz HX HY HZ eqn cmul mR) as (r & E2 & H2). rewrite E2 in ER. injection ER as <-.
    rewrite H1, H2 by (unfold in_mesh; lia). rewrite TO, SF, (A i j k f I J K). reflexivity.
Qed.
Print Assumptions C75_ranks_agree.

(* In double they do not: the box [0,1] of 10 cells on two ranks of 5.  grid->dx is 0.1 rounded to float, so the lower rank
   puts the shared plane at 0.5000000075 and the higher at 0.5.  With the region x > 0.5 the edge material ematy of the shared
   plane becomes 7 on the lower rank and is left alone on the higher one. *)
Definition box_x (p : Z) : Z -> b64 := axis_d (edge (d_of_Z 0) (d_of_Z 1) 2 p) (cell_size (d_of_Z 0) (d_of_Z 1) 10).
Theorem C75_ranks_refuted : exists (rgn : b64 -> b64 -> b64 -> bool) (mL mR mL' mR' : Z * member -> Z),
  (forall x y z, rgn x y z = d_lt (d_div (d_of_Z 1) (d_of_Z 2)) x) /\
  set_point_region_material b64 (box_x 0) (box_x 0) (box_x 0) rgn 5 1 1 7 mL = Some mL' /\
  set_point_region_material b64 (box_x 1) (box_x 0) (box_x 0) rgn 5 1 1 7 mR = Some mR' /\
  (forall key, mL key = mR key) /\ mL' (voxel 5 1 1 6 1 1, EY) = 7 /\ mR' (voxel 5 1 1 1 1 1, EY) = 0.
Proof.
  set (rgn := fun x _ _ : b64 => d_lt (d_div (d_of_Z 1) (d_of_Z 2)) x).
  destruct (point_material (box_x 0) (box_x 0) (box_x 0) rgn 5 1 1 ltac:(lia) ltac:(lia) ltac:(lia) 7 (fun _ => 0) ltac:(lia)) as (l & E1 & H1).
  destruct (point_material (box_x 1) (box_x 0) (box_x 0) rgn 5 1 1 ltac:(lia) ltac:(lia) ltac:(lia) 7 (fun _ => 0) ltac:(lia)) as (r & E2 & H2).
  exists rgn, (fun _ => 0), (fun _ => 0), l, r. split; [reflexivity|]. split; [exact E1|]. split; [exact E2|]. split; [reflexivity|].
  rewrite H1, H2 by (unfold in_mesh; lia). split; vm_compute; reflexivity.
Qed.
Print Assumptions C75_ranks_refuted.

(* define_volume_emitter: the array that is sized in the first pass is filled exactly by the second, and holds each cell of
   the domain whose centre is inside once, as component 13 (BOUNDARY(0,0,0)). *)
Theorem C75_volume_emitter : forall T (X Y Z_ : Z -> T) rgn nx ny nz, 1 <= nx -> 1 <= ny -> 1 <= nz -> nv_of nx ny nz <= 2 ^ 26 ->
  exists ids, volume_emitter T X Y Z_ rgn nx ny nz = Some (map Some ids) /\ NoDup ids /\
    forall id, In id ids <-> exists i j k, in_domain nx ny nz i j k /\ cell_inside X Y Z_ rgn (i, j, k) = true /\
                                           id = 32 * voxel nx ny nz i j k + 13.
Proof.
  intros T X Y Z_ rgn nx ny nz HX HY HZ N. exists (volume_ids X Y Z_ rgn nx ny nz).
  split; [apply volume_emitter_ids; assumption|]. split; [apply nodup_volume; assumption|]. intro. apply in_volume.
Qed.
Print Assumptions C75_volume_emitter.

(* define_surface_emitter: each face of an outside cell of the domain towards an inside cell once. *)
Theorem C75_surface_emitter : forall T (X Y Z_ : Z -> T) rgn nx ny nz, 1 <= nx -> 1 <= ny -> 1 <= nz -> nv_of nx ny nz <= 2 ^ 26 ->
  exists ids, surface_emitter T X Y Z_ rgn nx ny nz = Some (map Some ids) /\ NoDup ids /\
    forall id, In id ids <-> exists i j k f, in_domain nx ny nz i j k /\ 0 <= f < 6 /\
      cell_inside X Y Z_ rgn (i, j, k) = false /\ cell_inside X Y Z_ rgn (beyond f i j k) = true /\
      id = 32 * voxel nx ny nz i j k + dir_code (face_dir f).
Proof.
  intros T X Y Z_ rgn nx ny nz HX HY HZ N. exists (surface_ids X Y Z_ rgn nx ny nz).
  split; [apply surface_emitter_ids; assumption|]. split; [apply nodup_surface; assumption|]. intro. apply in_surface.
Qed.
Print Assumptions C75_surface_emitter.

(* The emitters decode what was stored (EXTRACT_LOCAL_CELL, EXTRACT_COMPONENT_TYPE). *)
Theorem C75_component_decodes : forall v t, 0 <= t < 32 -> extract_cell (32 * v + t) = v /\ extract_type (32 * v + t) = t.
Proof. exact extract_enc. Qed.
Print Assumptions C75_component_decodes.

(* On a rank with more than 2^26 voxels COMPONENT_ID overflows: 406 cells along each axis, everywhere. *)
Theorem C75_component_refuted : exists nx ny nz (X : Z -> R),
  1 <= nx /\ 1 <= ny /\ 1 <= nz /\ 6 * nv_of nx ny nz < 2 ^ 31 /\ volume_emitter R X X X (fun _ _ _ => true) nx ny nz = None.
Proof.
  exists 406, 406, 406, (axis_r 0 1). do 3 (split; [lia|]). split; [vm_compute; reflexivity|].
  apply (volume_overflow _ _ _ _ 406 406 406 406 406 406); [unfold in_domain; lia|reflexivity|vm_compute; discriminate].
Qed.
Print Assumptions C75_component_refuted.

(* ---- examples: a mesh of 3 x 2 x 1 cells, the region is cell 2 along x (1 < x < 2) ---- *)
Definition exX (h : Z) : Z := h.      (* coordinates in half cells *)
Definition exr (x y z : Z) : bool := (2 <? x) && (x <? 4).
Example region_material_example : match set_region_material Z exX exX exX exr 3 2 1 5 6 (fun _ => 0) with
  | Some m => map (fun i => m (voxel 3 2 1 i 1 1, FX)) [1; 2; 3; 4] = [0; 6; 6; 0] /\
              map (fun i => m (voxel 3 2 1 i 1 1, EX)) [1; 2; 3; 4] = [0; 5; 0; 0] /\
              map (fun i => m (voxel 3 2 1 i 1 1, CELL)) [1; 2; 3; 4] = [0; 5; 0; 0] /\
              map (fun i => m (voxel 3 2 1 i 1 1, NODE)) [1; 2; 3; 4] = [0; 6; 6; 0]
  | None => False end.
Proof. vm_compute. repeat split. Qed.
Example point_material_example : match set_point_region_material Z exX exX exX exr 3 2 1 5 (fun _ => 0) with
  | Some m => map (fun i => m (voxel 3 2 1 i 1 1, FX)) [1; 2; 3; 4] = [0; 0; 0; 0] /\
              map (fun i => m (voxel 3 2 1 i 1 1, EX)) [1; 2; 3; 4] = [0; 5; 0; 0]
  | None => False end.
Proof. vm_compute. repeat split. Qed.
Example point_field_example : match set_point_region_field Z exX exX exX exr 3 2 1 (fun _ x y z => x + 10 * y + 100 * z) (fun b => 1000 * b) (fun _ => 0) with
  | Some m => m (voxel 3 2 1 2 2 1, EX) = 23 /\ m (voxel 3 2 1 2 2 1, FZ) = 33000 /\ m (voxel 3 2 1 2 2 1, EY) = 0
  | None => False end.
Proof. vm_compute. repeat split. Qed.
Example region_field_example : match set_region_field Z exX exX exX exr 3 2 1 (fun _ x y z => x + 10 * y + 100 * z) (fun b => 1000 * b) (fun _ => 0) with
  | Some m => m (voxel 3 2 1 2 2 1, EX) = 243 /\ m (voxel 3 2 1 2 2 1, FX) = 134000 /\ m (voxel 3 2 1 1 2 1, EX) = 0
  | None => False end.
Proof. vm_compute. repeat split. Qed.
Example region_bc_example : match set_region_bc Z exX exX exX exr 3 2 1 (-5) (-6) (-7) (fun _ => 0) with
  | Some m => map (fun f => m (6 * voxel 3 2 1 2 1 1 + f)) [0; 1; 2; 3; 4; 5] = [-6; -5; -5; -6; -5; -5] /\
              map (fun f => m (6 * voxel 3 2 1 1 1 1 + f)) [0; 1; 2; 3; 4; 5] = [0; 0; 0; -7; 0; 0]
  | None => False end.
Proof. vm_compute. repeat split. Qed.
Example leave_unchanged_example :
  set_region_bc Z exX exX exX exr 3 2 1 0 0 0 (fun a => a) = Some (fun a => a) /\
  set_point_region_material Z exX exX exX exr 3 2 1 (-1) (fun k => fst k) = Some (fun k => fst k).
Proof. split; reflexivity. Qed.
Example surface_emitter_example : surface_emitter Z exX exX exX exr 3 2 1 =
  Some (map Some [32 * voxel 3 2 1 1 1 1 + 14; 32 * voxel 3 2 1 3 1 1 + 12; 32 * voxel 3 2 1 1 2 1 + 14; 32 * voxel 3 2 1 3 2 1 + 12]).
Proof. vm_compute. reflexivity. Qed.
Example volume_emitter_example : volume_emitter Z exX exX exX exr 3 2 1 = Some (map Some [32 * voxel 3 2 1 2 1 1 + 13; 32 * voxel 3 2 1 2 2 1 + 13]).
Proof. vm_compute. reflexivity. Qed.
Example component_decodes_example : extract_cell 845 = 26 /\ extract_type 845 = 13.
Proof. split; reflexivity. Qed.
Example ranks_agree_example : axis_r 0 (1 / 10) 11 = axis_r (0 + 1 / 10 * 5) (1 / 10) 1.
Proof. unfold axis_r. field. Qed.
