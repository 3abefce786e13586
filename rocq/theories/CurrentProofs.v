(* The currents of all ranks, summed over shared edges, carry exactly the charge the streaks move. *)
From Coq Require Import Reals Lra ZArith List Bool Lia ZifyBool Permutation.
From Verif Require Import SortModel SortProofs VoxelModel VoxelProofs GridModel GridProofs ParticleModel ParticleSpec ParticleProofs ParticleProofs2 MoverModel
  FieldModel RemoteModel RemoteSpec RemoteProofs DecompSpec DecompProofs ChargeModel ChargeSpec ChargeProofs CurrentSpec.
Import ListNotations.
Open Scope Z_scope.
Ltac Zify.zify_post_hook ::= idtac.
Local Notation AT := RemoteModel.at_.
Local Notation axis := RemoteModel.axis.
Local Notation sumR := ParticleSpec.sumR.

(* ---- sums over ranges ---- *)
Definition sumZ (lo hi : Z) (f : Z -> R) : R := sumR (map f (zrange lo (hi + 1))).
Lemma sum_scale {T} (k : R) (f : T -> R) l : sumR (map (fun x => (k * f x)%R) l) = (k * sumR (map f l))%R.
Proof. induction l as [|x l IH]; cbn [map]; [cbn; lra|]. rewrite !sumR_cons, IH. lra. Qed.
Lemma sum_minus {T} (f g : T -> R) l : sumR (map (fun x => (f x - g x)%R) l) = (sumR (map f l) - sumR (map g l))%R.
Proof. induction l as [|x l IH]; cbn [map]; [cbn; lra|]. rewrite !sumR_cons, IH. lra. Qed.
Lemma sum_app' {T} (f : T -> R) l m : sumR (map f (l ++ m)) = (sumR (map f l) + sumR (map f m))%R.
Proof. rewrite map_app. apply sumR_app. Qed.
Lemma sum_swap {T U} (f : T -> U -> R) l m : sumR (map (fun x => sumR (map (f x) m)) l) = sumR (map (fun y => sumR (map (fun x => f x y) l)) m).
Proof.
  induction l as [|x l IH]; cbn [map]; [symmetry; apply sum_zero|]. rewrite sumR_cons, IH, <- sum_plus. apply sum_ext. intros y _. rewrite sumR_cons. reflexivity.
Qed.
Lemma sum_pick {T} (f : T -> R) x0 l : NoDup l -> In x0 l -> (forall x, In x l -> x <> x0 -> f x = 0%R) -> sumR (map f l) = f x0.
Proof.
  intros N Hin H. apply in_split in Hin. destruct Hin as (l1 & l2 & ->). rewrite sum_app'. cbn [map]. rewrite sumR_cons.
  apply NoDup_remove_2 in N. rewrite !sum_zero'; [lra| |].
  - intros x Hx. apply H; [apply in_or_app; right; right; exact Hx|]. intros ->. apply N, in_or_app. right. exact Hx.
  - intros x Hx. apply H; [apply in_or_app; left; exact Hx|]. intros ->. apply N, in_or_app. left. exact Hx.
Qed.
Lemma sum_filter {T} (f : T -> R) (b : T -> bool) l : sumR (map f (filter b l)) = sumR (map (fun x => if b x then f x else 0%R) l).
Proof. induction l as [|x l IH]; [reflexivity|]. cbn [filter map]. rewrite sumR_cons, <- IH. destruct (b x); cbn [map]; rewrite ?sumR_cons; lra. Qed.
Lemma sumZ_ext lo hi f g : (forall x, lo <= x <= hi -> f x = g x) -> sumZ lo hi f = sumZ lo hi g.
Proof. intros H. apply sum_ext. intros x Hx. apply in_zrange in Hx. apply H. lia. Qed.
Lemma zrange_shift lo hi : zrange (lo + 1) (hi + 1) = map (fun x => x + 1) (zrange lo hi).
Proof. unfold zrange. rewrite map_map. replace (hi + 1 - (lo + 1)) with (hi - lo) by lia. apply map_ext. intros k. lia. Qed.
Lemma shift_sum n (h : Z -> R) : 1 <= n -> h 0 = 0%R -> h (n + 1) = 0%R -> sumZ 1 (n + 1) (fun x => h (x - 1)) = sumZ 1 (n + 1) h.
Proof.
  intros Hn F0 F1. unfold sumZ.
  rewrite (zrange_cons 1 (n + 1 + 1)) by lia. cbn [map]. rewrite sumR_cons. replace (1 - 1) with 0 by lia. rewrite F0.
  change (h 1 :: map h (zrange (1 + 1) (n + 1 + 1))) with (map h (1 :: zrange (1 + 1) (n + 1 + 1))). rewrite <- (zrange_cons 1 (n + 1 + 1)) by lia.
  rewrite (zrange_app 1 (n + 1) (n + 1 + 1)) by lia. rewrite sum_app'.
  rewrite (zrange_cons (n + 1) (n + 1 + 1)), (zrange_nil (n + 1 + 1)) by lia. cbn [map]. rewrite sumR_cons, F1.
  rewrite zrange_shift, map_map. rewrite (sum_ext (fun x => h (x + 1 - 1)) h) by (intros x _; f_equal; lia). unfold ParticleSpec.sumR at 3. cbn [fold_right]. lra.
Qed.

(* ---- the nodes of a rank ---- *)
Definition nodes (n : cell) : list cell :=
  let '(nx, ny, nz) := n in
  flat_map (fun x => flat_map (fun y => map (fun z => (x, y, z)) (zrange 1 (nz + 1 + 1))) (zrange 1 (ny + 1 + 1))) (zrange 1 (nx + 1 + 1)).
Lemma in_nodes n q : In q (nodes n) <-> forall a, 1 <= AT a q <= AT a n + 1.
Proof.
  destruct n as [[nx ny] nz], q as [[x y] z]. unfold nodes. rewrite in_flat_map. split.
  - intros (x' & Hx & H). apply in_flat_map in H. destruct H as (y' & Hy & H). apply in_map_iff in H. destruct H as (z' & E & Hz).
    apply in_zrange in Hx, Hy, Hz. injection E as -> -> ->. intros a. destruct a; cbn; lia.
  - intros H. pose proof (H RemoteModel.AX) as X. pose proof (H RemoteModel.AY) as Y. pose proof (H RemoteModel.AZ) as W. cbn in X, Y, W.
    exists x. split; [apply in_zrange; lia|]. apply in_flat_map. exists y. split; [apply in_zrange; lia|]. apply in_map_iff. exists z. split; [reflexivity|apply in_zrange; lia].
Qed.
Lemma nodup_nodes n : NoDup (nodes n).
Proof.
  destruct n as [[nx ny] nz]. unfold nodes. apply (nodup_flat (fun q : cell => fst (fst q))); [| |apply NoDup_zrange].
  - intros x q Hq. apply in_flat_map in Hq. destruct Hq as (y & _ & Hq). apply in_map_iff in Hq. destruct Hq as (z & <- & _). reflexivity.
  - intros x _. apply (nodup_flat (fun q : cell => snd (fst q))); [| |apply NoDup_zrange].
    + intros y q Hq. apply in_map_iff in Hq. destruct Hq as (z & <- & _). reflexivity.
    + intros y _. apply FinFun.Injective_map_NoDup; [|apply NoDup_zrange]. intros z z' E. injection E as E. exact E.
Qed.
Lemma sum_nodes n (f : cell -> R) : sumR (map f (nodes n)) =
  let '(nx, ny, nz) := n in sumZ 1 (nx + 1) (fun x => sumZ 1 (ny + 1) (fun y => sumZ 1 (nz + 1) (fun z => f (x, y, z)))).
Proof.
  destruct n as [[nx ny] nz]. unfold nodes, sumZ. rewrite sum_flat. apply sum_ext. intros x _. rewrite sum_flat. apply sum_ext. intros y _. rewrite map_map. reflexivity.
Qed.
(* a sum over the nodes may be shifted along an axis if the summand vanishes at both ends *)
Lemma node_shift a n (h : cell -> R) : pos3 n ->
  (forall q, AT a q = 0 \/ AT a q = AT a n + 1 -> (forall b, b <> a -> 1 <= AT b q <= AT b n + 1) -> h q = 0%R) ->
  sumR (map (fun q => h (dn a q)) (nodes n)) = sumR (map h (nodes n)).
Proof.
  intros Hn H. rewrite !sum_nodes. destruct n as [[nx ny] nz]. destruct Hn as (N1 & N2 & N3). unfold dn. destruct a; cbn [RemoteModel.put RemoteModel.at_].
  - rewrite <- (shift_sum nx (fun x => sumZ 1 (ny + 1) (fun y => sumZ 1 (nz + 1) (fun z => h (x, y, z))))); [reflexivity|lia| |].
    + apply sum_zero'. intros y Hy. apply sum_zero'. intros z Hz. apply in_zrange in Hy, Hz. apply H; [left; reflexivity|]. intros b Hb. destruct b; cbn; solve [lia | contradiction Hb; reflexivity].
    + apply sum_zero'. intros y Hy. apply sum_zero'. intros z Hz. apply in_zrange in Hy, Hz. apply H; [right; reflexivity|]. intros b Hb. destruct b; cbn; solve [lia | contradiction Hb; reflexivity].
  - apply sumZ_ext. intros x Hx. rewrite <- (shift_sum ny (fun y => sumZ 1 (nz + 1) (fun z => h (x, y, z)))); [reflexivity|lia| |].
    + apply sum_zero'. intros z Hz. apply in_zrange in Hz. apply H; [left; reflexivity|]. intros b Hb. destruct b; cbn; solve [lia | contradiction Hb; reflexivity].
    + apply sum_zero'. intros z Hz. apply in_zrange in Hz. apply H; [right; reflexivity|]. intros b Hb. destruct b; cbn; solve [lia | contradiction Hb; reflexivity].
  - apply sumZ_ext. intros x Hx. apply sumZ_ext. intros y Hy. rewrite <- (shift_sum nz (fun z => h (x, y, z))); [reflexivity|lia| |].
    + apply H; [left; reflexivity|]. intros b Hb. destruct b; cbn; solve [lia | contradiction Hb; reflexivity].
    + apply H; [right; reflexivity|]. intros b Hb. destruct b; cbn; solve [lia | contradiction Hb; reflexivity].
Qed.

(* ---- flows are linear in the test function and look only at the corners of the streaks' cells ---- *)
Lemma flow_ext sy sz phi psi v j : (forall b1 b2 b3, phi (node sy sz v b1 b2 b3) = psi (node sy sz v b1 b2 b3)) -> flow sy sz phi (v, j) = flow sy sz psi (v, j).
Proof. intros H. unfold flow, sum_bool. cbv zeta. rewrite !H. reflexivity. Qed.
Lemma flow_sum {T} sy sz (phi : T -> Z -> R) l s : flow sy sz (fun m => sumR (map (fun x => phi x m) l)) s = sumR (map (fun x => flow sy sz (phi x) s) l).
Proof.
  induction l as [|x l IH]; cbn [map].
  - destruct s as [v j]. unfold flow, sum_bool, ParticleSpec.sumR. cbn [fold_right]. cbv zeta. field.
  - rewrite sumR_cons, <- IH. destruct s as [v j]. unfold flow, sum_bool. cbv zeta. rewrite !sumR_cons. field.
Qed.
Lemma flow_scale sy sz k phi s : flow sy sz (fun m => (k * phi m)%R) s = (k * flow sy sz phi s)%R.
Proof. destruct s as [v j]. unfold flow, sum_bool. cbv zeta. field. Qed.

(* ---- the currents of one rank ---- *)
Section Rank.
Variable L : layout R.
Hypothesis OK : layout_ok L.
Variable pos : Z -> cell.
Variable rd : vec R.
Variable dt : R.
Hypothesis Hdt : dt <> 0%R.
Variable lg : Z -> list (streak R).
Variable r : Z.
Hypothesis Hp : inside L (pos r).
Hypothesis HL : forall v j, In (v, j) (lg r) -> in_rank L pos r v.
Notation n := (size_at L (pos r)).
Notation sy := (stride_y L pos r).
Notation sz := (stride_z L pos r).

Definition J (c : comp) (q : cell) : R := component c (own_current L pos rd dt lg r (vox3 n q)).

Lemma vox_shift q bx by' bz : vox3 n (shift q bx by' bz) = vox3 n q + bx + sy * by' + sz * bz.
Proof. destruct q as [[x y] z]. unfold stride_y, stride_z, size_at. cbn [vox3 shift]. unfold voxel. ring. Qed.
Lemma acc_zero k q : in3 n q -> ~ real_cell L (pos r) q -> acc_streaks Rnum (lg r) (fun _ _ => 0%R) (vox3 n q) k = 0%R.
Proof.
  intros Hq HN. rewrite acc_streaks_sum. rewrite sum_zero'; [lra|]. intros [v j] Hin. cbn [fst snd].
  destruct (HL v j Hin) as (q' & Hr' & ->). unfold ind. destruct (vox3 n q =? vox3 n q') eqn:E; [|lra].
  exfalso. apply HN. replace q with q'; [exact Hr'|]. symmetry. apply (vox3_inj n); [apply (size_pos L OK), Hp|exact Hq| |lia].
  replace q' with (shift q' 0 0 0) by (destruct q' as [[? ?] ?]; cbn; repeat f_equal; lia). apply real_in3; [exact Hr'| | |]; lia.
Qed.
Lemma in3_at q : in3 n q <-> forall a, 0 <= AT a q <= AT a n + 1.
Proof.
  destruct q as [[x y] z]. unfold size_at. cbn. unfold in_mesh. split.
  - intros H a. destruct a; cbn; lia.
  - intros H. pose proof (H RemoteModel.AX). pose proof (H RemoteModel.AY). pose proof (H RemoteModel.AZ). cbn in *. lia.
Qed.
Lemma at_size a : AT a n = l_n L a (AT a (pos r)).
Proof. destruct a; reflexivity. Qed.
Lemma J_zero a q : AT a q = 0 \/ AT a q = AT a n + 1 -> (forall b, b <> a -> 1 <= AT b q <= AT b n + 1) -> J (current_along a) q = 0%R.
Proof.
  intros Ha Hb.
  assert (Z0 : forall k bx by' bz, (bx = 0 \/ bx = -1) -> (by' = 0 \/ by' = -1) -> (bz = 0 \/ bz = -1) ->
     match a with RemoteModel.AX => bx | RemoteModel.AY => by' | RemoteModel.AZ => bz end = 0 ->
     acc_streaks Rnum (lg r) (fun _ _ => 0%R) (vox3 n q + bx + sy * by' + sz * bz) k = 0%R).
  { intros k bx by' bz H1 H2 H3 H4. rewrite <- vox_shift. apply acc_zero.
    - apply in3_at. intros b. rewrite at_shift. destruct (axis_eqb a b) eqn:E.
      + assert (a = b) by (destruct a, b; first [reflexivity | discriminate E]). subst b. rewrite H4. pose proof (size_pos L OK _ Hp) as (P1 & P2 & P3). destruct a; cbn in *; lia.
      + specialize (Hb b). assert (b <> a) by (intros ->; destruct a; discriminate E). specialize (Hb H). destruct b; lia.
    - intros Hr'. specialize (Hr' a). rewrite at_shift, H4, <- at_size in Hr'. lia. }
  assert (Z0' : forall k m, (exists bx by' bz, m = vox3 n q + bx + sy * by' + sz * bz /\ (bx = 0 \/ bx = -1) /\ (by' = 0 \/ by' = -1) /\ (bz = 0 \/ bz = -1) /\
     match a with RemoteModel.AX => bx | RemoteModel.AY => by' | RemoteModel.AZ => bz end = 0) -> acc_streaks Rnum (lg r) (fun _ _ => 0%R) m k = 0%R).
  { intros k m (bx & by' & bz & -> & H1 & H2 & H3 & H4). apply Z0; assumption. }
  assert (Z1 : forall k m, (exists bx by' bz : bool, m = vox3 n q - Z.b2z bx - sy * Z.b2z by' - sz * Z.b2z bz /\
     match a with RemoteModel.AX => bx | RemoteModel.AY => by' | RemoteModel.AZ => bz end = false) -> acc_streaks Rnum (lg r) (fun _ _ => 0%R) m k = 0%R).
  { intros k m (bx & by' & bz & -> & H4). apply Z0'. exists (- Z.b2z bx), (- Z.b2z by'), (- Z.b2z bz). repeat split.
    - ring.
    - destruct bx; cbn; lia.
    - destruct by'; cbn; lia.
    - destruct bz; cbn; lia.
    - destruct a, bx, by', bz; try discriminate H4; reflexivity. }
  unfold J, own_current. destruct a; cbn [current_along component]; unfold unload; cbn [vx vy vz].
  - rewrite !Z1; [cbn; lra|..].
    + exists false, true, true; cbn; split; [lia|reflexivity].
    + exists false, false, true; cbn; split; [lia|reflexivity].
    + exists false, true, false; cbn; split; [lia|reflexivity].
    + exists false, false, false; cbn; split; [lia|reflexivity].
  - rewrite !Z1; [cbn; lra|..].
    + exists true, false, true; cbn; split; [lia|reflexivity].
    + exists true, false, false; cbn; split; [lia|reflexivity].
    + exists false, false, true; cbn; split; [lia|reflexivity].
    + exists false, false, false; cbn; split; [lia|reflexivity].
  - rewrite !Z1; [cbn; lra|..].
    + exists true, true, false; cbn; split; [lia|reflexivity].
    + exists false, true, false; cbn; split; [lia|reflexivity].
    + exists true, false, false; cbn; split; [lia|reflexivity].
    + exists false, false, false; cbn; split; [lia|reflexivity].
Qed.

Section Node.
Variable g : cell.
Definition A (q : cell) : R := at_node L g (gplace L (pos r) q).
Lemma moved_nodes : moved_charge L pos (at_node L g) r (lg r) = sumR (map (fun q => (A q * flows sy sz (ind (vox3 n q)) (lg r))%R) (nodes n)).
Proof.
  unfold moved_charge, flows.
  rewrite (sum_ext (fun q => (A q * sumR (map (flow sy sz (ind (vox3 n q))) (lg r)))%R)
                   (fun q => sumR (map (fun s => (A q * flow sy sz (ind (vox3 n q)) s)%R) (lg r)))) by (intros q _; symmetry; apply sum_scale).
  rewrite sum_swap. apply sum_ext. intros [v j] Hin. destruct (HL v j Hin) as (q & Hq & ->).
  rewrite (sum_ext (fun q0 => (A q0 * flow sy sz (ind (vox3 n q0)) (vox3 n q, j))%R) (fun q0 => flow sy sz (fun m => (A q0 * ind (vox3 n q0) m)%R) (vox3 n q, j)))
    by (intros q0 _; symmetry; apply flow_scale).
  rewrite <- flow_sum. apply flow_ext. intros b1 b2 b3.
  rewrite (seen_corner L OK pos (at_node L g) r q b1 b2 b3 Hp Hq).
  assert (B : forall b, 0 <= Z.b2z b <= 1) by (intros []; cbn; lia).
  pose proof (B b1) as B1. pose proof (B b2) as B2. pose proof (B b3) as B3.
  replace (node sy sz (vox3 n q) b1 b2 b3) with (vox3 n (shift q (Z.b2z b1) (Z.b2z b2) (Z.b2z b3))) by (rewrite vox_shift; unfold node; ring).
  set (q1 := shift q (Z.b2z b1) (Z.b2z b2) (Z.b2z b3)).
  assert (I1 : in3 n q1) by (apply real_in3; [exact Hq| | |]; lia).
  assert (N1 : In q1 (nodes n)).
  { apply in_nodes. intros a. unfold q1. rewrite at_shift. specialize (Hq a). rewrite <- at_size in Hq. destruct a; lia. }
  rewrite (sum_pick _ q1 (nodes n) (nodup_nodes n) N1).
  - unfold A, ind. rewrite Z.eqb_refl. lra.
  - intros q2 H2 N2. unfold ind. destruct (vox3 n q2 =? vox3 n q1) eqn:E; [|lra]. exfalso. apply N2. apply (vox3_inj n); [apply (size_pos L OK), Hp| |exact I1|lia].
    apply in3_at. intros a. pose proof (proj1 (in_nodes n q2) H2 a). lia.
Qed.
End Node.
Lemma same_dn b a g g' : same_along L b (dn a g) g' = same_along L b g (up a g').
Proof.
  unfold same_along. assert (E : AT b g' - AT b (dn a g) = AT b (up a g') - AT b g).
  { unfold dn, up. destruct a, b, g as [[? ?] ?], g' as [[? ?] ?]; cbn; lia. }
  rewrite E. destruct (l_per L b); [reflexivity|]. lia.
Qed.
Lemma A_dn a g q : A (dn a g) q = A g (up a q).
Proof.
  unfold A. replace (gplace L (pos r) (up a q)) with (up a (gplace L (pos r) q)).
  - unfold at_node. rewrite !same_dn. reflexivity.
  - apply cell_ext. intros b. rewrite at_gplace. unfold up, place. destruct a, b, q as [[? ?] ?]; cbn; unfold place; cbn; lia.
Qed.
Lemma shifted_current a g : sumR (map (fun q => (A (dn a g) q * J (current_along a) q)%R) (nodes n)) = sumR (map (fun q => (A g q * J (current_along a) (dn a q))%R) (nodes n)).
Proof.
  rewrite <- (node_shift a n (fun q => (A (dn a g) q * J (current_along a) q)%R)).
  - apply sum_ext. intros q _. rewrite A_dn. f_equal. f_equal. unfold up, dn. destruct a, q as [[? ?] ?]; cbn; repeat f_equal; lia.
  - apply (size_pos L OK), Hp.
  - intros q H1 H2. rewrite (J_zero a q H1 H2). lra.
Qed.
Definition Jn (c : comp) (g : cell) : R := sumR (map (fun q => (A g q * J c q)%R) (nodes n)).
Lemma rank_div g : (dt * div_current rd Jn g = - (vx rd * vy rd * vz rd * moved_charge L pos (at_node L g) r (lg r)))%R.
Proof.
  unfold div_current, Jn. rewrite (shifted_current RemoteModel.AX), (shifted_current RemoteModel.AY), (shifted_current RemoteModel.AZ). cbn [current_along].
  rewrite <- !sum_minus, <- !sum_scale, <- !sum_plus, <- sum_scale. rewrite moved_nodes.
  replace (- (vx rd * vy rd * vz rd * sumR (map (fun q => A g q * flows sy sz (ind (vox3 n q)) (lg r)) (nodes n))))%R
    with ((- (vx rd * vy rd * vz rd)) * sumR (map (fun q => A g q * flows sy sz (ind (vox3 n q)) (lg r)) (nodes n)))%R by ring.
  rewrite <- (sum_scale (- (vx rd * vy rd * vz rd))%R). apply sum_ext. intros q _.
  pose proof (divj_streaks sy sz rd dt (fun _ _ => 0%R) (lg r) (vox3 n q) Hdt) as D.
  assert (Z0 : divj sy sz rd (unload Rnum sy sz (unload_coef rd dt) (fun _ _ => 0%R)) (vox3 n q) = 0%R) by (cbv [divj unload vx vy vz Rnum n_add n_mul]; ring).
  rewrite Z0 in D. clear Z0.
  assert (E1 : vox3 n q - 1 = vox3 n (dn RemoteModel.AX q)) by (destruct q as [[x y] z]; unfold size_at; cbn; unfold voxel; ring).
  assert (E2 : vox3 n q - sy = vox3 n (dn RemoteModel.AY q)) by (destruct q as [[x y] z]; unfold size_at, stride_y; cbn; unfold voxel; ring).
  assert (E3 : vox3 n q - sz = vox3 n (dn RemoteModel.AZ q)) by (destruct q as [[x y] z]; unfold size_at, stride_z; cbn; unfold voxel; ring).
  unfold divj in D. rewrite E1, E2, E3 in D. unfold J, own_current. cbn [component].
  match type of D with (_ * ?X = _)%R => transitivity (A g q * (dt * X))%R; [ring|rewrite D; ring] end.
Qed.
End Rank.

(* ---- all ranks ---- *)
Section World.
Variable L : layout R.
Hypothesis OK : layout_ok L.
Variable pos : Z -> cell.
Variable ws : Z.
Hypothesis HI : forall r, 0 <= r < ws -> inside L (pos r).
Variable rd : vec R.
Variable dt : R.
Hypothesis Hdt : dt <> 0%R.
Variable lg : Z -> list (streak R).
Hypothesis HL : forall r v j, 0 <= r < ws -> In (v, j) (lg r) -> in_rank L pos r v.

Definition Jg (c : comp) (g : cell) : R := over_ranks ws (fun r => Jn L pos rd dt lg r c g).
Lemma world_div g : (dt * div_current rd Jg g = - (vx rd * vy rd * vz rd * over_ranks ws (fun r => moved_charge L pos (at_node L g) r (lg r))))%R.
Proof.
  transitivity (over_ranks ws (fun r => (dt * div_current rd (Jn L pos rd dt lg r) g)%R)).
  - unfold over_ranks. rewrite sum_scale. f_equal. unfold div_current, Jg, over_ranks. rewrite !sum_plus, !sum_scale, !sum_minus. reflexivity.
  - rewrite Ropp_mult_distr_l. unfold over_ranks. rewrite <- sum_scale. apply sum_ext. intros r Hr. apply in_zrange in Hr.
    rewrite rank_div; [ring|exact OK|exact Hdt|apply HI; lia|intros v j; apply HL; lia].
Qed.
Lemma at_node_repeats g : repeats L (at_node L g).
Proof.
  intros a g' Ha. unfold at_node. 
  assert (E : forall b, same_along L b g (RemoteModel.put a (AT a g' + total L a) g') = same_along L b g g').
  { intros b. unfold same_along. destruct (axis_eqb a b) eqn:E.
    - assert (a = b) by (destruct a, b; first [reflexivity | discriminate E]). subst b. rewrite Ha, at_put_same.
      replace (AT a g' + total L a - AT a g) with (AT a g' - AT a g + 1 * total L a) by lia. 
      destruct (Z.eq_dec (total L a) 0) as [E0|N0]; [rewrite E0; f_equal; f_equal; lia|]. rewrite Z.mod_add by exact N0. reflexivity.
    - rewrite at_put_other by (intros ->; destruct a; discriminate E). reflexivity. }
  rewrite !E. reflexivity.
Qed.
Lemma Jg_repeats c : repeats L (Jg c).
Proof.
  intros a g Ha. unfold Jg, over_ranks. apply sum_ext. intros r _. unfold Jn. apply sum_ext. intros q _. f_equal. unfold A, at_node.
  assert (E : forall b g', same_along L b (RemoteModel.put a (AT a g + total L a) g) g' = same_along L b g g').
  { intros b g'. unfold same_along. destruct (axis_eqb a b) eqn:E.
    - assert (a = b) by (destruct a, b; first [reflexivity | discriminate E]). subst b. rewrite Ha, at_put_same.
      destruct (Z.eq_dec (total L a) 0) as [E0|N0]; [rewrite E0; f_equal; f_equal; lia|].
      replace (AT a g' - (AT a g + total L a)) with (AT a g' - AT a g + (-1) * total L a) by lia. rewrite Z.mod_add by exact N0. reflexivity.
    - rewrite at_put_other by (intros ->; destruct a; discriminate E). reflexivity. }
  rewrite !E. reflexivity.
Qed.
Lemma before_mono a i j : (i <= j)%nat -> Z.of_nat j <= l_p L a -> before (l_n L a) i <= before (l_n L a) j.
Proof.
  intros H. induction H as [|j H IH]; intros Hj; [lia|]. cbn [before]. destruct OK as [_ O]. specialize (O a (Z.of_nat j) ltac:(lia)). specialize (IH ltac:(lia)). lia.
Qed.
Lemma Jg_beyond a g : l_per L a = false -> AT a g < 1 \/ total L a < AT a g -> Jg (current_along a) g = 0%R.
Proof.
  intros Ha Hg. apply sum_zero'. intros r Hr. apply in_zrange in Hr. pose proof (HI r ltac:(lia)) as Hp. apply sum_zero'. intros q Hq. rewrite in_nodes in Hq.
  destruct (Z.eq_dec (AT a q) (AT a (size_at L (pos r)) + 1)) as [E|N].
  - rewrite (J_zero L OK pos rd dt lg r Hp (fun v j => HL r v j ltac:(lia)) a q (or_intror E)); [ring|]. intros b _. apply Hq.
  - assert (Z0 : A L pos r g q = 0%R); [|rewrite Z0; ring]. unfold A, at_node.
    assert (F : same_along L a g (gplace L (pos r) q) = false).
    { unfold same_along. rewrite Ha, at_gplace. apply Z.eqb_neq. intros E. specialize (Hq a). rewrite at_size in Hq, N.
      pose proof (Hp a) as Hpa. pose proof (before_mono a (S (Z.to_nat (AT a (pos r)))) (Z.to_nat (l_p L a)) ltac:(lia) ltac:(lia)) as M. cbn [before] in M.
      rewrite Z2Nat.id in M by lia. unfold place in E. unfold total in Hg. pose proof (before_mono a 0 (Z.to_nat (AT a (pos r))) ltac:(lia) ltac:(lia)) as M0. cbn [before] in M0. lia. }
    destruct a; rewrite F; rewrite ?andb_false_r; reflexivity.
Qed.
End World.
