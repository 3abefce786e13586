(* set_region_bc and the two emitter macros *)
From Coq Require Import ZArith List Bool Lia ZifyBool Reals Lra.
From Verif Require Import DistributeModel VoxelModel VoxelProofs SortModel RegionModel RegionSpec RegionProofs.
Import ListNotations.
Open Scope Z_scope.
Ltac Zify.zify_post_hook ::= idtac.

Lemma bkey {A} n c c' (a b : A) : (if Z.eq_dec (n + c) (n + c') then a else b) = if Z.eq_dec c c' then a else b.
Proof. destruct (Z.eq_dec (n + c) (n + c')), (Z.eq_dec c c'); try reflexivity; exfalso; lia. Qed.

Lemma face_cases f : 0 <= f < 6 -> f = 0 \/ f = 1 \/ f = 2 \/ f = 3 \/ f = 4 \/ f = 5.
Proof. lia. Qed.
Lemma block_inj a b f f' : 0 <= f < 6 -> 0 <= f' < 6 -> 6 * a + f = 6 * b + f' -> a = b /\ f = f'.
Proof. lia. Qed.

Ltac in_bcs := repeat match goal with
  | H : In _ (_ ++ _) |- _ => apply in_app_or in H; destruct H as [H|H]
  | H : In _ (if ?b then _ else _) |- _ => destruct b
  | H : In _ (when ?c _ _) |- _ => unfold when in H; destruct c
  | H : In _ [] |- _ => destruct H
  | H : In _ [(?n + ?c, _)] |- _ => destruct H as [H|[]]; subst; exists c; split; [lia|reflexivity]
  end.

Lemma lor_shift v t : 0 <= t < 32 -> Z.lor (Z.shiftl v 5) t = 32 * v + t.
Proof.
  intro H. assert (L : Z.land (Z.shiftl v 5) t = 0).
  { apply Z.bits_inj_iff'. intros b Hb. rewrite Z.land_spec, Z.bits_0. destruct (Z.ltb_spec b 5).
    - rewrite Z.shiftl_spec_low by lia. reflexivity.
    - replace t with (t mod 2 ^ 5) by (apply Z.mod_small; lia). rewrite Z.mod_pow2_bits_high by lia. apply andb_false_r. }
  rewrite <- Z.lxor_lor by exact L. rewrite <- Z.add_nocarry_lxor by exact L. rewrite Z.shiftl_mul_pow2 by lia.
  change (2 ^ 5) with 32. ring.
Qed.
Lemma extract_enc v t : 0 <= t < 32 -> extract_cell (32 * v + t) = v /\ extract_type (32 * v + t) = t.
Proof.
  intro H. unfold extract_cell, extract_type. rewrite Z.shiftr_div_pow2 by lia. change 31 with (Z.ones 5). rewrite Z.land_ones by lia.
  change (2 ^ 5) with 32. split.
  - rewrite Z.mul_comm, Z.div_add_l by lia. rewrite Z.div_small by lia. lia.
  - rewrite Z.add_comm, Z.mul_comm, Z_mod_plus_full. apply Z.mod_small. exact H.
Qed.

(* ---- the fill pass ---- *)
Lemma fill_ok size : forall xs n c, (n + length xs <= size)%nat ->
  exists c', fill size n (map Some xs) c = Some c' /\ forall a, c' a =
    if Nat.ltb a n then c a else match nth_error xs (a - n) with Some x => Some x | None => c a end.
Proof.
  induction xs as [|x t IH]; intros n c H; cbn [map fill length] in *.
  - exists c. split; [reflexivity|]. intro a. destruct (Nat.ltb a n); [reflexivity|]. destruct (a - n)%nat; reflexivity.
  - replace (Nat.ltb n size) with true by (symmetry; apply Nat.ltb_lt; lia).
    destruct (IH (S n) (fun a => if Nat.eqb a n then Some x else c a) ltac:(lia)) as (c' & E & HC).
    exists c'. split; [exact E|]. intro a. rewrite HC.
    destruct (Nat.ltb_spec a n); [replace (Nat.ltb a (S n)) with true by (symmetry; apply Nat.ltb_lt; lia);
      replace (Nat.eqb a n) with false by (symmetry; apply Nat.eqb_neq; lia); reflexivity|].
    destruct (Nat.eqb_spec a n) as [ -> |].
    + replace (Nat.ltb n (S n)) with true by (symmetry; apply Nat.ltb_lt; lia). rewrite Nat.sub_diag. reflexivity.
    + replace (Nat.ltb a (S n)) with false by (symmetry; apply Nat.ltb_ge; lia).
      replace (a - n)%nat with (S (a - S n)) by lia. reflexivity.
Qed.
Lemma emitter_array_ok xs : emitter_array (length xs) (map Some xs) = Some (map Some xs).
Proof.
  unfold emitter_array. destruct (fill_ok (length xs) xs 0 (fun _ => None) ltac:(lia)) as (c' & E & HC). rewrite E. f_equal.
  rewrite (map_ext_in c' (fun a => nth_error xs a)).
  - clear. induction xs as [|x t IH]; [reflexivity|]. cbn [length seq map nth_error]. f_equal. rewrite <- seq_shift, map_map. exact IH.
  - intros a _. rewrite HC. cbn [Nat.ltb Nat.leb]. rewrite Nat.sub_0_r. destruct (nth_error xs a); reflexivity.
Qed.
Lemma fill_none size : forall ids n c, In None ids -> fill size n ids c = None.
Proof.
  induction ids as [|[x|] t IH]; intros n c I; [destruct I| |reflexivity].
  destruct I as [I|I]; [discriminate|]. cbn [fill]. destruct (Nat.ltb n size); [apply IH; exact I|reflexivity].
Qed.

Lemma flat_map_filter {A B} (p : A -> bool) (g : A -> B) l : flat_map (fun a => if p a then [g a] else []) l = map g (filter p l).
Proof. induction l as [|a t IH]; [reflexivity|]. cbn. rewrite IH. destruct (p a); reflexivity. Qed.
Lemma flat_map_in {A B} (f g : A -> list B) l : (forall a, In a l -> f a = g a) -> flat_map f l = flat_map g l.
Proof. induction l as [|a t IH]; intro H; [reflexivity|]. cbn. rewrite (H a (in_eq _ _)), IH by (intros; apply H; right; assumption). reflexivity. Qed.
Lemma length_flat {A B C} (f : A -> list B) (g : A -> list C) l : (forall a, In a l -> length (f a) = length (g a)) -> length (flat_map f l) = length (flat_map g l).
Proof. induction l as [|a t IH]; intro H; [reflexivity|]. cbn. rewrite !app_length, (H a (in_eq _ _)), IH by (intros; apply H; right; assumption). reflexivity. Qed.
Lemma filter_flat {A B} (p : B -> bool) (f : A -> list B) l : filter p (flat_map f l) = flat_map (fun a => filter p (f a)) l.
Proof. induction l as [|a t IH]; [reflexivity|]. cbn. rewrite filter_app, IH. reflexivity. Qed.
Lemma map_flat {A B C} (g : B -> C) (f : A -> list B) l : map g (flat_map f l) = flat_map (fun a => map g (f a)) l.
Proof. induction l as [|a t IH]; [reflexivity|]. cbn. rewrite map_app, IH. reflexivity. Qed.
Lemma nodup_map_in {A B} (f : A -> B) l : NoDup l -> (forall a b, In a l -> In b l -> f a = f b -> a = b) -> NoDup (map f l).
Proof.
  induction l as [|a t IH]; intros D I; [constructor|]. inversion D; subst. cbn. constructor.
  - intro H. apply in_map_iff in H. destruct H as (b & E & Hb). assert (b = a) by (apply I; auto using in_eq, in_cons). subst. contradiction.
  - apply IH; [assumption|]. intros x y X Y. apply I; right; assumption.
Qed.

Section faces.
Context {T : Type} (X Y Z_ : Z -> T) (rgn : T -> T -> T -> bool).
Variables nx ny nz : Z.
Hypotheses (HX : 1 <= nx) (HY : 1 <= ny) (HZ : 1 <= nz).
Notation inside := (cell_inside X Y Z_ rgn).

Lemma voxel6_step i j k : 6 * voxel nx ny nz 1 j k + 6 * (i - 1) = 6 * voxel nx ny nz i j k.
Proof. unfold voxel. ring. Qed.

Lemma bc_keys v i e p i0 j0 k0 w : In w (region_bc_body T X Y Z_ rgn v i e p i0 j0 k0) -> exists f, 0 <= f < 6 /\ fst w = p + f.
Proof. unfold region_bc_body. cbv zeta. intro I. in_bcs. Qed.

Definition bc_value (vpbc ipbc epbc old : Z) (rc rf : bool) : Z :=
  if rc then if rf then if vpbc =? 0 then old else vpbc else if ipbc =? 0 then old else ipbc
  else if rf then if epbc =? 0 then old else epbc else old.

Lemma beyond_0 i j k : inside (beyond 0 i j k) = rgn (X (2 * i - 3)) (Y (2 * j - 1)) (Z_ (2 * k - 1)).
Proof. unfold beyond, face_dir, cell_inside, along. cbn [Z.eqb Pos.eqb]. f_equal; f_equal; lia. Qed.
Lemma beyond_1 i j k : inside (beyond 1 i j k) = rgn (X (2 * i - 1)) (Y (2 * j - 3)) (Z_ (2 * k - 1)).
Proof. unfold beyond, face_dir, cell_inside, along. cbn [Z.eqb Pos.eqb]. f_equal; f_equal; lia. Qed.
Lemma beyond_2 i j k : inside (beyond 2 i j k) = rgn (X (2 * i - 1)) (Y (2 * j - 1)) (Z_ (2 * k - 3)).
Proof. unfold beyond, face_dir, cell_inside, along. cbn [Z.eqb Pos.eqb]. f_equal; f_equal; lia. Qed.
Lemma beyond_3 i j k : inside (beyond 3 i j k) = rgn (X (2 * i + 1)) (Y (2 * j - 1)) (Z_ (2 * k - 1)).
Proof. unfold beyond, face_dir, cell_inside, along. cbn [Z.eqb Pos.eqb]. f_equal; f_equal; lia. Qed.
Lemma beyond_4 i j k : inside (beyond 4 i j k) = rgn (X (2 * i - 1)) (Y (2 * j + 1)) (Z_ (2 * k - 1)).
Proof. unfold beyond, face_dir, cell_inside, along. cbn [Z.eqb Pos.eqb]. f_equal; f_equal; lia. Qed.
Lemma beyond_5 i j k : inside (beyond 5 i j k) = rgn (X (2 * i - 1)) (Y (2 * j - 1)) (Z_ (2 * k + 1)).
Proof. unfold beyond, face_dir, cell_inside, along. cbn [Z.eqb Pos.eqb]. f_equal; f_equal; lia. Qed.
Lemma inside_cell i j k : inside (i, j, k) = rgn (X (2 * i - 1)) (Y (2 * j - 1)) (Z_ (2 * k - 1)).
Proof. unfold cell_inside, along. f_equal; f_equal; lia. Qed.

Lemma lastw_if {K V} (keq : forall a b : K, {a = b} + {a <> b}) (k : K) (c : bool) (l : list (K * V)) :
  lastw keq k (if c then [] else l) = if c then None else lastw keq k l.
Proof. destruct c; reflexivity. Qed.

Lemma bc_last vpbc ipbc epbc n i j k f : 0 <= f < 6 ->
  lastw Z.eq_dec (n + f) (region_bc_body T X Y Z_ rgn vpbc ipbc epbc n i j k) =
  if inside (i, j, k) then if inside (beyond f i j k) then if vpbc =? 0 then None else Some vpbc else if ipbc =? 0 then None else Some ipbc
  else if inside (beyond f i j k) then if epbc =? 0 then None else Some epbc else None.
Proof.
  intro F. unfold region_bc_body. cbv zeta. repeat (rewrite ?lastw_app, ?lastw_if, ?lastw_when, ?bkey).
  rewrite inside_cell.
  destruct (face_cases f F) as [ -> | [ -> | [ -> | [ -> | [ -> | -> ] ] ] ] ];
  rewrite ?beyond_0, ?beyond_1, ?beyond_2, ?beyond_3, ?beyond_4, ?beyond_5; clear F;
  destruct (rgn (X (2 * i - 1)) (Y (2 * j - 1)) (Z_ (2 * k - 1))); cbn [negb andb];
  cbn [Z.eq_dec Z_rec Z_rect]; cbn;
  destruct (vpbc =? 0), (ipbc =? 0), (epbc =? 0);
  repeat match goal with |- context[rgn ?a ?b ?c] => destruct (rgn a b c) end; reflexivity.
Qed.

Lemma region_bc vpbc ipbc epbc m :
  exists m', set_region_bc T X Y Z_ rgn nx ny nz vpbc ipbc epbc m = Some m' /\
    (forall i j k f, in_domain nx ny nz i j k -> 0 <= f < 6 -> m' (6 * voxel nx ny nz i j k + f) =
      bc_value vpbc ipbc epbc (m (6 * voxel nx ny nz i j k + f)) (inside (i, j, k)) (inside (beyond f i j k))) /\
    (forall a, (forall i j k f, in_domain nx ny nz i j k -> 0 <= f < 6 -> a <> 6 * voxel nx ny nz i j k + f) -> m' a = m a).
Proof.
  unfold set_region_bc.
  destruct ((vpbc =? 0) && (ipbc =? 0) && (epbc =? 0)) eqn:B.
  { apply andb_true_iff in B. destruct B as [B B3]. apply andb_true_iff in B. destruct B as [B1 B2].
    exists m. split; [reflexivity|]. split; [|reflexivity]. intros. unfold bc_value. rewrite B1, B2, B3.
    destruct (inside _), (inside _); reflexivity. }
  rewrite mesh_loop_flat.
  match goal with |- context[store_all _ _ ?l] => set (ws := l) end.
  assert (KEY : forall w, In w ws -> exists i j k f, in_domain nx ny nz i j k /\ 0 <= f < 6 /\ fst w = 6 * voxel nx ny nz i j k + f).
  { intros w I. apply in_flat_map in I. destruct I as ([[i j] k] & I & W). apply in_cells in I.
    rewrite voxel6_step in W. apply bc_keys in W. destruct W as (f & F & W). exists i, j, k, f.
    unfold in_domain. repeat split; try lia. }
  assert (FA : Forall (fun w => nb_ok nx ny nz (fst w) = true) ws).
  { apply Forall_forall. intros w I. destruct (KEY w I) as (i & j & k & f & D & F & ->).
    pose proof (voxel_range nx ny nz i j k HX HY HZ ltac:(unfold in_mesh, in_domain in *; lia)). unfold nb_ok. lia. }
  destruct (store_all_ok Z.eq_dec (nb_ok nx ny nz) ws m FA) as (m' & E & H).
  exists m'. split; [exact E|]. split.
  - intros i j k f D F. rewrite H.
    destruct (lastw_flat Z.eq_dec (fun t => let '(i, j, k) := t in region_bc_body T X Y Z_ rgn vpbc ipbc epbc (6 * voxel nx ny nz 1 j k + 6 * (i - 1)) i j k)
                (6 * voxel nx ny nz i j k + f) (i, j, k) (cells 1 nx ny nz)) as [_ L].
    + intros [[a b] c] A N. apply in_cells in A. cbv beta iota. rewrite voxel6_step. apply lastw_none. intros w W E'.
      apply bc_keys in W. destruct W as (f' & F' & W). rewrite E' in W. apply N.
      destruct (block_inj _ _ _ _ F F' W) as [V _]. symmetry.
      apply (voxel_inj nx ny nz i j k a b c HX HY); [unfold in_mesh, in_domain in *; lia|unfold in_mesh, in_domain in *; lia|exact V].
    + unfold ws. rewrite L by (apply in_cells; unfold in_domain in D; lia). cbv beta iota. rewrite voxel6_step.
      rewrite (bc_last vpbc ipbc epbc _ i j k f F). unfold bc_value. destruct (inside (i, j, k)), (inside (beyond f i j k)), (vpbc =? 0), (ipbc =? 0), (epbc =? 0); reflexivity.
  - intros a A. rewrite H. replace (lastw Z.eq_dec a ws) with (@None Z); [reflexivity|]. symmetry. apply lastw_none.
    intros w W E'. destruct (KEY w W) as (i & j & k & f & D & F & K). apply (A i j k f D F). congruence.
Qed.

(* ---- emitters ---- *)
Definition six : list (Z * Z * Z) := map face_dir [0; 1; 2; 3; 4; 5].
Definition enc (x : Z * Z * Z * (Z * Z * Z)) : Z := let '(i, j, k, d) := x in 32 * voxel nx ny nz i j k + dir_code d.
Definition emits (x : Z * Z * Z * (Z * Z * Z)) : bool :=
  let '(i, j, k, (a, b, c)) := x in negb (inside (i, j, k)) && inside (i + a, j + b, k + c).
Definition faces_of (t : Z * Z * Z) : list (Z * Z * Z * (Z * Z * Z)) := map (fun d => (t, d)) six.

Lemma dir_range d : In d ((0, 0, 0) :: six) -> 0 <= dir_code d < 32.
Proof. cbn. intuition (subst; cbn; lia). Qed.
Lemma dir_inj d d' : In d six -> In d' six -> dir_code d = dir_code d' -> d = d'.
Proof. cbn. intros H H'. decompose [or] H; decompose [or] H'; subst; cbn; intro E; try reflexivity; try discriminate; contradiction. Qed.

Lemma component_ok i j k d : In d ((0, 0, 0) :: six) -> nv_of nx ny nz <= 2 ^ 26 -> in_domain nx ny nz i j k ->
  component_id (voxel nx ny nz i j k) (dir_code d) = Some (enc (i, j, k, d)).
Proof.
  intros D N I. pose proof (voxel_range nx ny nz i j k HX HY HZ ltac:(unfold in_mesh, in_domain in *; lia)) as R.
  unfold component_id. replace (voxel nx ny nz i j k <? 2 ^ 26) with true by lia. f_equal. unfold enc.
  apply lor_shift. apply dir_range. exact D.
Qed.

Definition surface_ids : list Z := map enc (filter emits (flat_map faces_of (cells 1 nx ny nz))).
Definition volume_ids : list Z := map (fun t => enc (t, (0, 0, 0))) (filter inside (cells 1 nx ny nz)).

Lemma volume_emitter_ids : nv_of nx ny nz <= 2 ^ 26 -> volume_emitter T X Y Z_ rgn nx ny nz = Some (map Some volume_ids).
Proof.
  intro N. unfold volume_emitter. rewrite !mesh_loop_flat.
  assert (F : flat_map (fun t : Z * Z * Z => let '(i, j, k) := t in volume_fill_body T X Y Z_ rgn nx ny nz (0 + 0 * (i - 1)) i j k) (cells 1 nx ny nz) = map Some volume_ids).
  { unfold volume_ids. rewrite map_map, <- flat_map_filter. apply flat_map_in. intros [[i j] k] I. apply in_cells in I.
    unfold volume_fill_body. change (boundary_code 0 0 0) with (dir_code (0, 0, 0)).
    rewrite component_ok by (first [apply in_eq|assumption|unfold in_domain; lia]). rewrite inside_cell. reflexivity. }
  rewrite F.
  replace (length _) with (length volume_ids); [apply emitter_array_ok|].
  rewrite <- (map_length Some), <- F. apply length_flat. intros [[i j] k] _. unfold volume_fill_body, volume_count_body, push, tick.
  destruct (rgn _ _ _); reflexivity.
Qed.

Lemma surface_emitter_ids : nv_of nx ny nz <= 2 ^ 26 -> surface_emitter T X Y Z_ rgn nx ny nz = Some (map Some surface_ids).
Proof.
  intro N. unfold surface_emitter. rewrite !mesh_loop_flat.
  assert (F : flat_map (fun t : Z * Z * Z => let '(i, j, k) := t in surface_fill_body T X Y Z_ rgn nx ny nz (0 + 0 * (i - 1)) i j k) (cells 1 nx ny nz) = map Some surface_ids).
  { unfold surface_ids. rewrite filter_flat, map_map, map_flat. apply flat_map_in. intros [[i j] k] I. apply in_cells in I.
    unfold surface_fill_body. cbv zeta.
    change (boundary_code (-1) 0 0) with (dir_code (face_dir 0)). change (boundary_code 0 (-1) 0) with (dir_code (face_dir 1)).
    change (boundary_code 0 0 (-1)) with (dir_code (face_dir 2)). change (boundary_code 1 0 0) with (dir_code (face_dir 3)).
    change (boundary_code 0 1 0) with (dir_code (face_dir 4)). change (boundary_code 0 0 1) with (dir_code (face_dir 5)).
    rewrite !component_ok by (first [cbn; tauto|assumption|unfold in_domain; lia]).
    rewrite <- beyond_0, <- beyond_1, <- beyond_2, <- beyond_3, <- beyond_4, <- beyond_5, <- inside_cell.
    unfold faces_of, six. cbn [map filter].
    assert (EM : forall f, emits (i, j, k, face_dir f) = negb (inside (i, j, k)) && inside (beyond f i j k)).
    { intro f. unfold emits, beyond. destruct (face_dir f) as [[a b] c]. reflexivity. }
    rewrite !EM. unfold push.
    repeat match goal with |- context[if ?b then _ else _] => destruct b end; reflexivity. }
  rewrite F.
  replace (length _) with (length surface_ids); [apply emitter_array_ok|].
  rewrite <- (map_length Some), <- F. apply length_flat. intros [[i j] k] _. unfold surface_fill_body, surface_count_body. cbv zeta.
  rewrite !app_length. repeat f_equal; unfold push, tick; match goal with |- context[if ?b then _ else _] => destruct b end; reflexivity.
Qed.

Lemma enc_inj i j k d i' j' k' d' : in_domain nx ny nz i j k -> in_domain nx ny nz i' j' k' -> In d six -> In d' six ->
  enc (i, j, k, d) = enc (i', j', k', d') -> (i, j, k, d) = (i', j', k', d').
Proof.
  intros I I' D D' E. unfold enc in E.
  pose proof (dir_range d (in_cons _ _ _ D)). pose proof (dir_range d' (in_cons _ _ _ D')).
  destruct (extract_enc (voxel nx ny nz i j k) (dir_code d) ltac:(assumption)) as [A B].
  destruct (extract_enc (voxel nx ny nz i' j' k') (dir_code d') ltac:(assumption)) as [A' B'].
  rewrite E in A, B. assert (V : voxel nx ny nz i j k = voxel nx ny nz i' j' k') by congruence.
  assert (C : dir_code d = dir_code d') by congruence. apply dir_inj in C; [|assumption|assumption].
  apply (voxel_inj nx ny nz) in V; [|assumption|assumption|unfold in_mesh, in_domain in *; lia|unfold in_mesh, in_domain in *; lia].
  congruence.
Qed.
Lemma nodup_six : NoDup six.
Proof. unfold six. cbn. repeat constructor; cbn; intuition discriminate. Qed.

Lemma in_faces i j k d : In (i, j, k, d) (flat_map faces_of (cells 1 nx ny nz)) <-> in_domain nx ny nz i j k /\ In d six.
Proof.
  rewrite in_flat_map. unfold faces_of. split.
  - intros (t & I & M). apply in_map_iff in M. destruct M as (d' & E & M). injection E as -> ->. apply in_cells in I. split; [unfold in_domain; lia|exact M].
  - intros [I D]. exists (i, j, k). split; [apply in_cells; unfold in_domain in I; lia|]. apply in_map_iff. exists d. auto.
Qed.
Lemma nodup_surface : NoDup surface_ids.
Proof.
  unfold surface_ids. apply nodup_map_in.
  - apply NoDup_filter. apply nodup_flat; [apply nodup_cells| |].
    + intros t _. apply nodup_map_in; [exact nodup_six|]. congruence.
    + intros a b x _ _ A B. apply in_map_iff in A, B. destruct A as (? & <- & _), B as (? & E & _). congruence.
  - intros [[[i j] k] d] [[[i' j'] k'] d'] A B E. apply filter_In in A, B. destruct A as [A _], B as [B _].
    apply in_faces in A, B. apply enc_inj; tauto.
Qed.
Lemma nodup_volume : NoDup volume_ids.
Proof.
  unfold volume_ids. apply nodup_map_in; [apply NoDup_filter, nodup_cells|].
  intros [[i j] k] [[i' j'] k'] A B E. apply filter_In in A, B. destruct A as [A _], B as [B _]. apply in_cells in A, B.
  unfold enc in E. apply (voxel_inj nx ny nz); [assumption|assumption|unfold in_mesh; lia|unfold in_mesh; lia|lia].
Qed.
Lemma in_surface id : In id surface_ids <-> exists i j k f, in_domain nx ny nz i j k /\ 0 <= f < 6 /\
  inside (i, j, k) = false /\ inside (beyond f i j k) = true /\ id = 32 * voxel nx ny nz i j k + dir_code (face_dir f).
Proof.
  unfold surface_ids. rewrite in_map_iff. split.
  - intros ([[[i j] k] d] & <- & I). apply filter_In in I. destruct I as [I E]. apply in_faces in I. destruct I as [I D].
    unfold six in D. apply in_map_iff in D. destruct D as (f & <- & D). exists i, j, k, f. split; [exact I|].
    split; [cbn in D; lia|]. unfold emits in E. unfold beyond, enc. destruct (face_dir f) as [[a b] c].
    apply andb_true_iff in E. destruct E as [E1 E2]. apply negb_true_iff in E1. auto.
  - intros (i & j & k & f & I & F & A & B & ->). exists (i, j, k, face_dir f). split; [reflexivity|]. apply filter_In. split.
    + apply in_faces. split; [exact I|]. unfold six. apply in_map. cbn. lia.
    + unfold emits. unfold beyond in B. destruct (face_dir f) as [[a b] c]. rewrite A, B. reflexivity.
Qed.
Lemma in_volume id : In id volume_ids <-> exists i j k, in_domain nx ny nz i j k /\ inside (i, j, k) = true /\ id = 32 * voxel nx ny nz i j k + 13.
Proof.
  unfold volume_ids. rewrite in_map_iff. split.
  - intros ([[i j] k] & <- & I). apply filter_In in I. destruct I as [I E]. apply in_cells in I. exists i, j, k. unfold in_domain. repeat split; try lia; exact E.
  - intros (i & j & k & I & A & ->). exists (i, j, k). split; [reflexivity|]. apply filter_In. split; [apply in_cells; unfold in_domain in I; lia|exact A].
Qed.
Lemma volume_overflow i j k : in_domain nx ny nz i j k -> inside (i, j, k) = true -> 2 ^ 26 <= voxel nx ny nz i j k ->
  volume_emitter T X Y Z_ rgn nx ny nz = None.
Proof.
  intros I A O. unfold volume_emitter, emitter_array. rewrite fill_none; [reflexivity|].
  rewrite mesh_loop_flat. apply in_flat_map. exists (i, j, k). split; [apply in_cells; unfold in_domain in I; lia|].
  cbv beta iota. unfold volume_fill_body. rewrite <- inside_cell, A. cbn [push]. left. unfold component_id.
  replace (voxel nx ny nz i j k <? 2 ^ 26) with false by lia. reflexivity.
Qed.
End faces.
