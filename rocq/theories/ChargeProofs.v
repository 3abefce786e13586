(* Charge is neither created nor destroyed by the particle part of a step, on any division of the mesh. *)
From Coq Require Import Reals Lra ZArith List Bool Lia ZifyBool Permutation Sorting.Sorted.
From Verif Require Import SortModel SortProofs VoxelModel VoxelProofs GridModel GridProofs ParticleModel ParticleSpec ParticleProofs MoverModel RemoveProofs BoundaryProofs AdvanceProofs
  FieldModel RemoteModel RemoteSpec RemoteProofs DecompSpec DecompProofs ChargeModel ChargeSpec.
Import ListNotations.
Open Scope Z_scope.
Ltac Zify.zify_post_hook ::= idtac.
Local Notation AT := RemoteModel.at_.
Local Notation axis := RemoteModel.axis.
Local Notation put := RemoteModel.put.
Local Notation sumR := ParticleSpec.sumR.

(* ---- sums ---- *)
Lemma sumR_cons x l : sumR (x :: l) = (x + sumR l)%R.
Proof. reflexivity. Qed.
Lemma sum_ext {T} (f g : T -> R) l : (forall x, In x l -> f x = g x) -> sumR (map f l) = sumR (map g l).
Proof. intros H. f_equal. apply map_ext_in, H. Qed.
Lemma sum_plus {T} (f g : T -> R) l : sumR (map (fun x => (f x + g x)%R) l) = (sumR (map f l) + sumR (map g l))%R.
Proof. induction l as [|x l IH]; cbn [map]; [cbn; lra|]. rewrite !sumR_cons, IH. lra. Qed.
Lemma sum_zero {T} (l : list T) : sumR (map (fun _ => 0%R) l) = 0%R.
Proof. induction l as [|x l IH]; [reflexivity|]. cbn [map]. rewrite sumR_cons, IH. lra. Qed.
Lemma sum_zero' {A} (f : A -> R) (l : list A) : (forall x, In x l -> f x = 0%R) -> sumR (map f l) = 0%R.
Proof. intros H. rewrite (sum_ext f (fun _ => 0%R) l H). apply sum_zero. Qed.
Lemma sum_perm l l' : Permutation l l' -> sumR l = sumR l'.
Proof. induction 1; rewrite ?sumR_cons; try lra. Qed.
Lemma sum_mapperm {T} (f : T -> R) l l' : Permutation l l' -> sumR (map f l) = sumR (map f l').
Proof. intros H. apply sum_perm, Permutation_map, H. Qed.
Lemma sum_flat {T U} (f : U -> R) (g : T -> list U) l : sumR (map f (flat_map g l)) = sumR (map (fun x => sumR (map f (g x))) l).
Proof. induction l as [|x l IH]; [reflexivity|]. cbn [flat_map map]. rewrite map_app, sumR_app, sumR_cons, IH. reflexivity. Qed.

(* ---- the mesh seen from a rank ---- *)
Lemma entry_vox n q : pos3 n -> in3 n q -> entry_of n (vox3 n q) = q.
Proof.
  destruct n as [[nx ny] nz], q as [[x y] z]. cbn. unfold in_mesh, voxel. intros (H1 & H2 & H3) (Hx & Hy & Hz).
  f_equal; [f_equal|].
  - rewrite Z.mul_comm, Z.mod_add by lia. apply Z.mod_small. lia.
  - rewrite (Z.mul_comm (nx + 2)), Z.div_add by lia. rewrite (Z.div_small x) by lia. rewrite Z.add_0_l, Z.mul_comm, Z.mod_add by lia. apply Z.mod_small. lia.
  - rewrite <- Z.div_div by lia. rewrite (Z.mul_comm (nx + 2)), Z.div_add by lia. rewrite (Z.div_small x) by lia. rewrite Z.add_0_l, Z.mul_comm, Z.div_add by lia. rewrite Z.div_small by lia. lia.
Qed.
Definition shift (q : cell) (bx by' bz : Z) : cell := let '(x, y, z) := q in (x + bx, y + by', z + bz).
Lemma at_shift a q bx by' bz : AT a (shift q bx by' bz) = AT a q + match a with RemoteModel.AX => bx | RemoteModel.AY => by' | RemoteModel.AZ => bz end.
Proof. destruct q as [[x y] z], a; reflexivity. Qed.

Section L.
Variable L : layout R.
Hypothesis OK : layout_ok L.

Lemma repeats_many {T} (f : cell -> T) a : repeats L f -> l_per L a = true -> forall k g, f (put a (AT a g + k * total L a) g) = f g.
Proof.
  intros Hf Hp. assert (N : forall k : nat, forall g, f (put a (AT a g + Z.of_nat k * total L a) g) = f g).
  { induction k as [|k IH]; intros g.
    - replace (AT a g + Z.of_nat 0 * total L a) with (AT a g) by lia. f_equal. apply cell_ext. intros b. destruct (axis_eqb a b) eqn:E.
      + assert (a = b) by (destruct a, b; first [reflexivity | discriminate E]). subst b. rewrite at_put_same. reflexivity.
      + rewrite at_put_other by (intros ->; destruct a; discriminate E). reflexivity.
    - transitivity (f (put a (AT a g + Z.of_nat k * total L a) g)); [|apply IH]. rewrite <- (Hf a (put a (AT a g + Z.of_nat k * total L a) g) Hp). rewrite at_put_same. f_equal.
      apply cell_ext. intros b. destruct (axis_eqb a b) eqn:E.
      + assert (a = b) by (destruct a, b; first [reflexivity | discriminate E]). subst b. rewrite !at_put_same. lia.
      + rewrite !at_put_other by (intros ->; destruct a; discriminate E). reflexivity. }
  intros k g. destruct (Z.le_gt_cases 0 k) as [Hk|Hk].
  - rewrite <- (Z2Nat.id k Hk). apply N.
  - rewrite <- (N (Z.to_nat (- k)) (put a (AT a g + k * total L a) g)). rewrite at_put_same. f_equal.
    apply cell_ext. intros b. destruct (axis_eqb a b) eqn:E.
    + assert (a = b) by (destruct a, b; first [reflexivity | discriminate E]). subst b. rewrite !at_put_same. rewrite Z2Nat.id by lia. lia.
    + rewrite !at_put_other by (intros ->; destruct a; discriminate E). reflexivity.
Qed.
Lemma repeats_same {T} (f : cell -> T) g g' : repeats L f ->
  (forall a, if l_per L a then (total L a | AT a g' - AT a g) else AT a g' - AT a g = 0) -> f g' = f g.
Proof.
  intros Hf H.
  assert (One : forall a g, (if l_per L a then (total L a | AT a g' - AT a g) else AT a g' - AT a g = 0) -> f (put a (AT a g') g) = f g).
  { intros a g0 Ha. destruct (l_per L a) eqn:Ep.
    - destruct Ha as [k Hk]. rewrite <- (repeats_many f a Hf Ep k g0). f_equal. f_equal. lia.
    - f_equal. apply cell_ext. intros b. destruct (axis_eqb a b) eqn:E.
      + assert (a = b) by (destruct a, b; first [reflexivity | discriminate E]). subst b. rewrite at_put_same. lia.
      + rewrite at_put_other by (intros ->; destruct a; discriminate E). reflexivity. }
  set (g1 := put RemoteModel.AX (AT RemoteModel.AX g') g). set (g2 := put RemoteModel.AY (AT RemoteModel.AY g') g1).
  transitivity (f (put RemoteModel.AZ (AT RemoteModel.AZ g') g2)).
  - f_equal. unfold g2, g1. destruct g as [[? ?] ?], g' as [[? ?] ?]. reflexivity.
  - rewrite One; [unfold g2; rewrite One; [unfold g1; apply One, H|]|].
    + specialize (H RemoteModel.AY). unfold g1. destruct g as [[? ?] ?]. exact H.
    + specialize (H RemoteModel.AZ). unfold g2, g1. destruct g as [[? ?] ?]. exact H.
Qed.

Lemma size_pos p : inside L p -> pos3 (size_at L p).
Proof. intros Hp. destruct OK as [_ H]. cbn. split; [|split]; apply H, Hp. Qed.

Variable pos : Z -> cell.
Variable ws : Z.
Variable Phi : cell -> R.
Hypothesis HPhi : repeats L Phi.
Notation seen := (seen L pos Phi).
Notation stride_y := (stride_y L pos).
Notation stride_z := (stride_z L pos).

Lemma shifted_place a p q bx by' bz : place L a p (shift q bx by' bz) = place L a p q + match a with RemoteModel.AX => bx | RemoteModel.AY => by' | RemoteModel.AZ => bz end.
Proof. unfold place. rewrite at_shift. lia. Qed.
Lemma real_in3 p q bx by' bz : real_cell L p q -> (bx = 0 \/ bx = 1) -> (by' = 0 \/ by' = 1) -> (bz = 0 \/ bz = 1) -> in3 (size_at L p) (shift q bx by' bz).
Proof.
  intros Hq H1 H2 H3. pose proof (Hq RemoteModel.AX) as X. pose proof (Hq RemoteModel.AY) as Y. pose proof (Hq RemoteModel.AZ) as Z'.
  destruct q as [[x y] z]. cbn in *. unfold in_mesh. lia.
Qed.
Lemma seen_corner r q bx by' bz : inside L (pos r) -> real_cell L (pos r) q ->
  seen r (node (stride_y r) (stride_z r) (vox3 (size_at L (pos r)) q) bx by' bz) = Phi (gplace L (pos r) (shift q (Z.b2z bx) (Z.b2z by') (Z.b2z bz))).
Proof.
  intros Hp Hq. unfold ChargeSpec.seen. f_equal. f_equal.
  rewrite <- (entry_vox (size_at L (pos r)) (shift q (Z.b2z bx) (Z.b2z by') (Z.b2z bz))).
  - f_equal. unfold node, ChargeSpec.stride_y, ChargeSpec.stride_z, size_at. destruct q as [[x y] z]. cbn [vox3 shift]. unfold voxel. ring.
  - apply size_pos, Hp.
  - apply real_in3; [exact Hq| | |]; [destruct bx|destruct by'|destruct bz]; cbn; lia.
Qed.

(* the corners of a face seen from the two cells it separates *)
Definition axm (a : axis) : ParticleModel.axis := match a with RemoteModel.AX => ParticleModel.AX | RemoteModel.AY => ParticleModel.AY | RemoteModel.AZ => ParticleModel.AZ end.
Lemma face_facts f : 0 <= f < 6 -> face_axis f = axm (axis_of f) /\ face_high f = (side_of f =? 1) /\ face_ax f = face_axis f /\ face_dir Rnum f = (if face_high f then -1 else 1)%R.
Proof.
  intros Hf. assert (C : f = 0 \/ f = 1 \/ f = 2 \/ f = 3 \/ f = 4 \/ f = 5) by lia.
  destruct C as [-> |[-> |[-> |[-> |[-> | ->]]]]]; repeat split; cbn; try reflexivity; lra.
Qed.
Lemma corners_glued r r' q q' f b1 b2 : 0 <= f < 6 -> inside L (pos r) -> inside L (pos r') -> real_cell L (pos r) q -> real_cell L (pos r') q' ->
  next_cell L (axis_of f) (side_of f) (pos r) q (pos r') q' ->
  seen r (corner_on (stride_y r) (stride_z r) (vox3 (size_at L (pos r)) q) (face_axis f) (face_high f) b1 b2) =
  seen r' (corner_on (stride_y r') (stride_z r') (vox3 (size_at L (pos r')) q') (face_axis f) (negb (face_high f)) b1 b2).
Proof.
  intros Hf Hp Hp' Hq Hq' HN. destruct (face_facts f Hf) as (Ea & Eh & _). rewrite Ea.
  assert (Es : side_of f = -1 \/ side_of f = 1) by (unfold side_of; destruct (f <? 3); lia).
  symmetry. destruct (axis_of f); cbn [axm corner_on]; rewrite !seen_corner by assumption; apply (repeats_same Phi _ _ HPhi);
  intros a; rewrite !at_gplace, !shifted_place; specialize (HN a); cbv zeta in HN;
  destruct a; cbn [axis_eqb] in HN; rewrite ?Eh; destruct Es as [Es|Es]; rewrite Es in *; destruct b1, b2; cbn [Z.b2z negb Z.eqb Pos.eqb] in *;
  destruct (l_per L _);
  match goal with
  | H : (?t | ?x) |- (?t | ?y) => replace y with x by lia; exact H
  | _ => lia
  end.
Qed.

Lemma charge_glue2 sy sz sy' sz' (phi phi' : Z -> R) q v v' a (hi : bool) d :
  vget d a = (if hi then 1 else -1)%R ->
  (forall b1 b2, phi (corner_on sy sz v a hi b1 b2) = phi' (corner_on sy' sz' v' a (negb hi) b1 b2)) ->
  charge sy' sz' phi' q v' (vset d a (if hi then -1 else 1)%R) = charge sy sz phi q v d.
Proof.
  intros E G. pose proof (G false false) as G0. pose proof (G true false) as G1.
  pose proof (G false true) as G2. pose proof (G true true) as G3. clear G.
  destruct d as [d1 d2 d3].
  destruct a, hi; cbn [vget vx vy vz corner_on negb vset] in *; subst;
   cbv [charge sum_bool share vx vy vz]; rewrite G0, G1, G2, G3; field.
Qed.

(* ---- the tables ---- *)
Variable first : Z -> Z.
Variable B : Z -> bgrid.
Hypothesis HW : wired L pos ws first B.

Lemma wired_inside r : 0 <= r < ws -> inside L (pos r).
Proof. apply HW. Qed.
Lemma nv_pos r : 0 <= r < ws -> first r < first (r + 1) /\ forall q, real_cell L (pos r) q -> first r <= first r + vox3 (size_at L (pos r)) q < first (r + 1).
Proof.
  intros Hr. destruct HW as (_ & _ & F & _). specialize (F r Hr). pose proof (size_pos _ (wired_inside r Hr)) as P.
  assert (E : first (r + 1) = first r + nv3 (size_at L (pos r))) by (rewrite F; reflexivity). rewrite E.
  assert (A : forall q, real_cell L (pos r) q -> 0 <= vox3 (size_at L (pos r)) q < nv3 (size_at L (pos r))).
  { intros q Hq. apply vox3_range; [exact P|]. replace q with (shift q 0 0 0) by (destruct q as [[? ?] ?]; cbn; repeat f_equal; lia). apply real_in3; [exact Hq| | |]; lia. }
  split; [|intros q Hq; specialize (A q Hq); lia].
  specialize (A (1, 1, 1)). assert (real_cell L (pos r) (1, 1, 1)) as R1.
  { intros a. destruct OK as [_ H]. specialize (H a (AT a (pos r)) (wired_inside r Hr a)). destruct a; cbn in *; lia. }
  specialize (A R1). lia.
Qed.
Lemma first_mono r s : 0 <= r -> r <= s -> s <= ws -> first r <= first s.
Proof.
  intros Hr. apply (Zlt_lower_bound_ind (fun s => s <= ws -> first r <= first s) r).
  - intros x IH Hx Hw. destruct (Z.eq_dec x r) as [->|N]; [lia|]. specialize (IH (x - 1) ltac:(lia) ltac:(lia)).
    pose proof (proj1 (nv_pos (x - 1) ltac:(lia))) as Q. replace (x - 1 + 1) with x in Q by lia. lia.
Qed.
Lemma owner_unique r r' q' : 0 <= r < ws -> 0 <= r' < ws -> real_cell L (pos r') q' ->
  first r <= first r' + vox3 (size_at L (pos r')) q' <= first (r + 1) - 1 -> r' = r.
Proof.
  intros Hr Hr' Hq H. pose proof (proj2 (nv_pos r' Hr') q' Hq) as Q.
  destruct (Z.lt_trichotomy r' r) as [C|[C|C]]; [|exact C|].
  - pose proof (first_mono (r' + 1) r ltac:(lia) ltac:(lia) ltac:(lia)). lia.
  - pose proof (first_mono (r + 1) r' ltac:(lia) ltac:(lia) ltac:(lia)). lia.
Qed.
Lemma first_nonneg r : 0 <= r <= ws -> 0 <= first r.
Proof. intros H. destruct HW as (_ & F0 & _). pose proof (first_mono 0 r ltac:(lia) ltac:(lia) ltac:(lia)). lia. Qed.

Lemma wired_glued r : 0 <= r < ws -> glued (stride_y r) (stride_z r) (seen r) (b_mesh (B r)).
Proof.
  intros Hr v f v' Hf (n & En & Hn & Hb & ->) b1 b2. pose proof HW as (_ & _ & _ & F & T). destruct (F r Hr) as (F1 & F2 & F3 & F4 & _).
  rewrite F3, F4 in Hb. pose proof (first_nonneg r ltac:(lia)).
  destruct (T r v f n Hr Hf En ltac:(lia)) as (q & r' & q' & -> & Hq & Hr' & -> & Hq' & HN & _).
  pose proof (owner_unique r r' q' Hr Hr' Hq' Hb). subst r'. rewrite F3.
  replace (first r + vox3 (size_at L (pos r)) q' - first r) with (vox3 (size_at L (pos r)) q') by lia.
  apply corners_glued; try assumption; apply wired_inside; assumption.
Qed.
End L.
