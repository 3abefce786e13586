From Coq Require Import ZArith List Bool Lia ZifyBool Reals Lra.
From Verif Require Import DistributeModel VoxelModel VoxelProofs SortModel RegionModel RegionSpec.
Import ListNotations.
Open Scope Z_scope.
Ltac Zify.zify_post_hook ::= idtac.

(* ---- stores ---- *)
Section stores.
Context {K V : Type} (keq : forall a b : K, {a = b} + {a <> b}) (ok : K -> bool).
Fixpoint lastw (k : K) (ws : list (K * V)) : option V :=
  match ws with
  | [] => None
  | (k', x) :: t => match lastw k t with Some y => Some y | None => if keq k' k then Some x else None end
  end.
Lemma lastw_app k a b : lastw k (a ++ b) = match lastw k b with Some y => Some y | None => lastw k a end.
Proof.
  induction a as [|[k' x] t IH]; cbn; [destruct (lastw k b); reflexivity|].
  rewrite IH. destruct (lastw k b); reflexivity.
Qed.
Lemma lastw_when k c k' x : lastw k (when c k' x) = if c then if keq k' k then Some x else None else None.
Proof. destruct c; reflexivity. Qed.
Lemma store_all_ok ws : forall m, Forall (fun w => ok (fst w) = true) ws ->
  exists m', store_all keq ok ws m = Some m' /\ forall k, m' k = match lastw k ws with Some x => x | None => m k end.
Proof.
  induction ws as [|[k x] t IH]; intros m F; cbn.
  - exists m. split; auto.
  - inversion F as [|? ? F1 F2]; subst. cbn in F1. rewrite F1.
    destruct (IH (put keq m k x) F2) as (m' & E & H). exists m'. split; [exact E|].
    intro k'. rewrite H. destruct (lastw k' t); [reflexivity|]. unfold put. destruct (keq k k'); reflexivity.
Qed.
Lemma lastw_none k ws : (forall w, In w ws -> fst w <> k) -> lastw k ws = None.
Proof.
  induction ws as [|[k' x] t IH]; intro H; [reflexivity|]. cbn. rewrite IH by (intros; apply H; right; assumption).
  destruct (keq k' k) as [E|]; [|reflexivity]. exfalso. exact (H (k', x) (or_introl eq_refl) E).
Qed.

Definition triple_dec : forall a b : Z * Z * Z, {a = b} + {a <> b}.
Proof. intros [[a b] c] [[a' b'] c']. destruct (Z.eq_dec a a'), (Z.eq_dec b b'), (Z.eq_dec c c'); subst; auto; right; congruence. Defined.

Lemma lastw_flat (body : Z * Z * Z -> list (K * V)) k t L :
  (forall t', In t' L -> t' <> t -> lastw k (body t') = None) ->
  (lastw k (flat_map body L) = None \/ lastw k (flat_map body L) = lastw k (body t)) /\
  (In t L -> lastw k (flat_map body L) = lastw k (body t)).
Proof.
  induction L as [|a L IH]; intro H; [split; [left; reflexivity|intros []]|].
  destruct IH as [A B]; [intros; apply H; [right|]; assumption|].
  cbn. rewrite lastw_app.
  destruct (triple_dec a t) as [->|N].
  - split; [right|intros _]; destruct A as [A|A]; rewrite A; try reflexivity; destruct (lastw k (body t)); reflexivity.
  - rewrite (H a (or_introl eq_refl) N). split.
    + destruct A as [A|A]; rewrite A; [left; reflexivity|right]. destruct (lastw k (body t)); reflexivity.
    + intros [E|I]; [congruence|]. rewrite (B I). destruct (lastw k (body t)); reflexivity.
Qed.
End stores.

(* ---- loops ---- *)
Lemma in_zr a b x : In x (zrange a b) <-> a <= x < b.
Proof.
  unfold zrange. rewrite in_map_iff. split.
  - intros (n & <- & I). apply in_seq in I. lia.
  - intro H. exists (Z.to_nat (x - a)). split; [lia|]. apply in_seq. lia.
Qed.
Lemma nodup_zr a b : NoDup (zrange a b).
Proof. apply FinFun.Injective_map_NoDup; [intros x y; lia|apply seq_NoDup]. Qed.

Lemma row_flat {W} step (body : Z -> Z -> list W) : forall n p lo,
  row step body p (map (fun k => lo + Z.of_nat k) (seq 0 n)) =
  flat_map (fun i => body (p + step * (i - lo)) i) (map (fun k => lo + Z.of_nat k) (seq 0 n)).
Proof.
  induction n as [|n IH]; intros p lo; [reflexivity|].
  cbn [seq map row flat_map]. rewrite <- seq_shift, map_map.
  rewrite (map_ext _ (fun k => (lo + 1) + Z.of_nat k)) by (intro; lia).
  rewrite IH. f_equal; [f_equal; lia|].
  apply flat_map_ext. intro i. f_equal. lia.
Qed.

Definition cells (lo nx ny nz : Z) : list (Z * Z * Z) :=
  flat_map (fun k => flat_map (fun j => map (fun i => (i, j, k)) (zrange lo (nx + 2 - lo))) (zrange lo (ny + 2 - lo))) (zrange lo (nz + 2 - lo)).
Lemma in_cells lo nx ny nz i j k :
  In (i, j, k) (cells lo nx ny nz) <-> lo <= i < nx + 2 - lo /\ lo <= j < ny + 2 - lo /\ lo <= k < nz + 2 - lo.
Proof.
  unfold cells. rewrite in_flat_map. split.
  - intros (k' & K & I). apply in_flat_map in I. destruct I as (j' & J & I). apply in_map_iff in I.
    destruct I as (i' & E & I). injection E as -> -> ->. apply in_zr in I, J, K. lia.
  - intros (I & J & K). exists k. split; [apply in_zr; lia|]. apply in_flat_map. exists j. split; [apply in_zr; lia|].
    apply in_map_iff. exists i. split; [reflexivity|apply in_zr; lia].
Qed.
Lemma nodup_flat {A B} (f : A -> list B) l : NoDup l -> (forall a, In a l -> NoDup (f a)) ->
  (forall a b x, In a l -> In b l -> In x (f a) -> In x (f b) -> a = b) -> NoDup (flat_map f l).
Proof.
  intros D F I. induction l as [|a t IH]; [constructor|]. inversion D as [|? ? D1 D2]; subst. cbn.
  assert (NA : forall x, In x (f a) -> In x (flat_map f t) -> False).
  { intros x H1 H2. apply in_flat_map in H2. destruct H2 as (b & Hb & H2).
    assert (a = b) by (apply (I a b x); auto using in_eq, in_cons). subst. contradiction. }
  assert (Fa := F a (in_eq _ _)).
  assert (Ft : NoDup (flat_map f t)).
  { apply IH; [assumption|intros; apply F; right; assumption|]. intros x y z X Y Z1 Z2. apply (I x y z); auto using in_cons. }
  clear - Fa Ft NA. revert Fa NA. generalize (f a). induction l as [|x l IH]; intros Fa NA; [assumption|]. inversion Fa; subst. cbn. constructor.
  - rewrite in_app_iff. intros [H|H]; [contradiction|]. apply (NA x); [left; reflexivity|assumption].
  - apply IH; [assumption|]. intros y Y. apply NA. right. exact Y.
Qed.
Lemma nodup_cells lo nx ny nz : NoDup (cells lo nx ny nz).
Proof.
  unfold cells. apply nodup_flat; [apply nodup_zr| |].
  - intros k _. apply nodup_flat; [apply nodup_zr| |].
    + intros j _. apply FinFun.Injective_map_NoDup; [intros x y; congruence|apply nodup_zr].
    + intros a b x _ _ A B. apply in_map_iff in A, B. destruct A as (? & <- & _), B as (? & E & _). congruence.
  - intros a b x _ _ A B. apply in_flat_map in A, B. destruct A as (? & _ & A), B as (? & _ & B).
    apply in_map_iff in A, B. destruct A as (? & <- & _), B as (? & E & _). congruence.
Qed.

Lemma mesh_loop_flat {W} step lo base nx ny nz (body : Z -> Z -> Z -> Z -> list W) :
  mesh_loop step lo base nx ny nz body =
  flat_map (fun t => let '(i, j, k) := t in body (base j k + step * (i - lo)) i j k) (cells lo nx ny nz).
Proof.
  unfold mesh_loop, cells.
  assert (F : forall {A B C} (g : B -> list C) (h : A -> list B) l, flat_map g (flat_map h l) = flat_map (fun a => flat_map g (h a)) l).
  { intros A B C g h l. induction l as [|a t IH]; [reflexivity|]. cbn. rewrite flat_map_app, IH. reflexivity. }
  assert (M : forall {A B C} (g : B -> list C) (h : A -> B) l, flat_map g (map h l) = flat_map (fun a => g (h a)) l).
  { intros A B C g h l. induction l as [|a t IH]; [reflexivity|]. cbn. rewrite IH. reflexivity. }
  rewrite F. apply flat_map_ext. intro k. rewrite F. apply flat_map_ext. intro j.
  unfold zrange at 1. rewrite row_flat. fold (zrange lo (nx + 2 - lo)). rewrite M. reflexivity.
Qed.

(* ---- the field array ---- *)
Section field.
Variables nx ny nz : Z.
Hypotheses (HX : 1 <= nx) (HY : 1 <= ny) (HZ : 1 <= nz).

Lemma voxel_step i j k : voxel nx ny nz 0 j k + 1 * (i - 0) = voxel nx ny nz i j k.
Proof. unfold voxel. ring. Qed.

Lemma field_loop_ok {V} (body : Z -> Z -> Z -> Z -> list (Z * member * V)) m :
  (forall p i j k w, In w (body p i j k) -> fst (fst w) = p) ->
  exists m', field_loop nx ny nz body m = Some m' /\
    forall i j k f, in_mesh nx ny nz i j k ->
      m' (voxel nx ny nz i j k, f) = match lastw fkey_eq_dec (voxel nx ny nz i j k, f) (body (voxel nx ny nz i j k) i j k) with
                                     | Some x => x | None => m (voxel nx ny nz i j k, f) end.
Proof.
  intro HB. unfold field_loop. rewrite mesh_loop_flat.
  match goal with |- context[store_all _ _ ?l] => set (ws := l) end.
  assert (FA : Forall (fun w => field_ok nx ny nz (fst w) = true) ws).
  { apply Forall_forall. intros w I. apply in_flat_map in I. destruct I as ([[i j] k] & I & W). apply in_cells in I.
    cbv beta in W. rewrite voxel_step in W. apply HB in W. unfold field_ok. rewrite W.
    pose proof (voxel_range nx ny nz i j k HX HY HZ ltac:(unfold in_mesh; lia)). lia. }
  destruct (store_all_ok fkey_eq_dec (field_ok nx ny nz) ws m FA) as (m' & E & H).
  exists m'. split; [exact E|]. intros i j k f I. rewrite H.
  destruct (lastw_flat fkey_eq_dec (fun t => let '(i, j, k) := t in body (voxel nx ny nz 0 j k + 1 * (i - 0)) i j k)
              (voxel nx ny nz i j k, f) (i, j, k) (cells 0 nx ny nz)) as [_ B].
  - intros [[a b] c] A N. apply in_cells in A. cbv beta iota. rewrite voxel_step. apply lastw_none. intros w W E'.
    apply HB in W. rewrite E' in W. cbn [fst] in W. apply N.
    symmetry. apply (voxel_inj nx ny nz i j k a b c HX HY I); [unfold in_mesh; lia|exact W].
  - unfold ws. rewrite B by (apply in_cells; unfold in_mesh in I; lia). cbv beta iota. rewrite voxel_step. reflexivity.
Qed.
End field.

Lemma fkey_same {A} v f f' (a b : A) : (if fkey_eq_dec (v, f) (v, f') then a else b) = if member_eq_dec f f' then a else b.
Proof. destruct (fkey_eq_dec (v, f) (v, f')), (member_eq_dec f f'); congruence. Qed.

Ltac in_whens := repeat match goal with
  | H : In _ (_ ++ _) |- _ => apply in_app_or in H; destruct H as [H|H]
  | H : In _ (if ?b then _ else _) |- _ => destruct b
  | H : In _ (when ?c _ _) |- _ => unfold when in H; destruct c
  | H : In _ [] |- _ => destruct H
  | H : In _ [_] |- _ => destruct H as [H|[]]; subst; reflexivity
  end.
Ltac last_whens := repeat (rewrite ?lastw_app, ?lastw_when, ?fkey_same); cbn [member_eq_dec member_rec member_rect].

Section bodies.
Context {T : Type} (X Y Z_ : Z -> T) (rgn : T -> T -> T -> bool).
Variables nx ny nz : Z.
Hypotheses (HX : 1 <= nx) (HY : 1 <= ny) (HZ : 1 <= nz).

Lemma along_node (A : Z -> T) i : along A false i = A (2 * i - 2).
Proof. unfold along. f_equal. lia. Qed.
Lemma along_half (A : Z -> T) i : along A true i = A (2 * i - 1).
Proof. unfold along. f_equal. lia. Qed.
Lemma along_low (A : Z -> T) i : along A true (i - 1) = A (2 * i - 3).
Proof. unfold along. f_equal. lia. Qed.
Lemma along_high (A : Z -> T) i : along A true (i + 1) = A (2 * i + 1).
Proof. unfold along. f_equal. lia. Qed.

Lemma point_material rmat m : rmat <> -1 ->
  exists m', set_point_region_material T X Y Z_ rgn nx ny nz rmat m = Some m' /\
    forall i j k f, in_mesh nx ny nz i j k -> m' (voxel nx ny nz i j k, f) =
      if at_place X Y Z_ rgn f i j k then rmat else m (voxel nx ny nz i j k, f).
Proof.
  intro N. unfold set_point_region_material. replace (rmat =? -1) with false by lia.
  destruct (field_loop_ok nx ny nz HX HY HZ (point_material_body T X Y Z_ rgn rmat) m) as (m' & E & H).
  { unfold point_material_body. intros p i j k w I. cbv zeta in I. in_whens. }
  exists m'. split; [exact E|]. intros i j k f I. rewrite (H i j k f I). unfold point_material_body. cbv zeta. last_whens.
  unfold at_place. destruct f; cbn [staggered member_eq_dec member_rec member_rect]; rewrite ?along_node, ?along_half;
  repeat match goal with |- context[rgn ?a ?b ?c] => destruct (rgn a b c) end; reflexivity.
Qed.

Section fields.
Context {V : Type} (eqn : member -> T -> T -> T -> V) (cmul : V -> V).
Lemma point_field m :
  exists m', set_point_region_field T X Y Z_ rgn nx ny nz eqn cmul m = Some m' /\
    forall i j k f, in_mesh nx ny nz i j k -> m' (voxel nx ny nz i j k, f) =
      match f with
      | NODE | CELL => m (voxel nx ny nz i j k, f)
      | EX | EY | EZ => if at_place X Y Z_ rgn f i j k then at_place X Y Z_ (eqn f) f i j k else m (voxel nx ny nz i j k, f)
      | FX | FY | FZ => if at_place X Y Z_ rgn f i j k then cmul (at_place X Y Z_ (eqn f) f i j k) else m (voxel nx ny nz i j k, f)
      end.
Proof.
  unfold set_point_region_field.
  destruct (field_loop_ok nx ny nz HX HY HZ (point_field_body T X Y Z_ rgn eqn cmul) m) as (m' & E & H).
  { unfold point_field_body. intros p i j k w I. cbv zeta in I. in_whens. }
  exists m'. split; [exact E|]. intros i j k f I. rewrite (H i j k f I). unfold point_field_body. cbv zeta. last_whens.
  unfold at_place. destruct f; cbn [staggered member_eq_dec member_rec member_rect]; rewrite ?along_node, ?along_half;
  repeat match goal with |- context[rgn ?a ?b ?c] => destruct (rgn a b c) end; reflexivity.
Qed.

Lemma along_next (A : Z -> T) i : along A false (i + 1) = A (2 * i).
Proof. unfold along. f_equal. lia. Qed.

Lemma region_field m :
  exists m', set_region_field T X Y Z_ rgn nx ny nz eqn cmul m = Some m' /\
    forall i j k f, in_mesh nx ny nz i j k -> m' (voxel nx ny nz i j k, f) =
      match f with
      | NODE | CELL => m (voxel nx ny nz i j k, f)
      | EX | EY | EZ => if touched X Y Z_ rgn f i j k then at_shifted X Y Z_ (eqn f) f i j k else m (voxel nx ny nz i j k, f)
      | FX | FY | FZ => if touched X Y Z_ rgn f i j k then cmul (at_shifted X Y Z_ (eqn f) f i j k) else m (voxel nx ny nz i j k, f)
      end.
Proof.
  unfold set_region_field.
  destruct (field_loop_ok nx ny nz HX HY HZ (region_field_body T X Y Z_ rgn eqn cmul) m) as (m' & E & H).
  { unfold region_field_body. intros p i j k w I. cbv zeta in I. in_whens. }
  exists m'. split; [exact E|]. intros i j k f I. rewrite (H i j k f I). unfold region_field_body. cbv zeta. last_whens.
  unfold at_shifted, touched, associated. destruct f; cbn [staggered member_eq_dec member_rec member_rect sides flat_map map app existsb];
  unfold cell_inside; rewrite ?along_next, ?along_low, ?along_half;
  repeat match goal with |- context[rgn ?a ?b ?c] => destruct (rgn a b c) end; reflexivity.
Qed.
End fields.

Lemma region_material vmat smat m :
  exists m', set_region_material T X Y Z_ rgn nx ny nz vmat smat m = Some m' /\
    forall i j k f, in_mesh nx ny nz i j k -> m' (voxel nx ny nz i j k, f) =
      if negb (vmat =? -1) && interior X Y Z_ rgn f i j k then vmat
      else if negb (smat =? -1) && touched X Y Z_ rgn f i j k && (match f with CELL => false | _ => true end) then smat
      else m (voxel nx ny nz i j k, f).
Proof.
  unfold set_region_material.
  destruct ((vmat =? -1) && (smat =? -1)) eqn:B.
  { apply andb_true_iff in B. destruct B as [-> ->]. exists m. split; reflexivity. }
  destruct (field_loop_ok nx ny nz HX HY HZ (region_material_body T X Y Z_ rgn vmat smat) m) as (m' & E & H).
  { unfold region_material_body. intros p i j k w I. cbv zeta in I. in_whens. }
  exists m'. split; [exact E|]. intros i j k f I. rewrite (H i j k f I). unfold region_material_body. cbv zeta.
  clear H E. destruct (vmat =? -1), (smat =? -1); try discriminate; cbn [negb andb]; last_whens;
  unfold interior, touched, associated;
  (destruct f; cbn [staggered member_eq_dec member_rec member_rect sides flat_map map app existsb forallb];
   unfold cell_inside; rewrite ?along_low, ?along_half;
   repeat match goal with |- context[rgn ?a ?b ?c] => destruct (rgn a b c) end; reflexivity).
Qed.
End bodies.
