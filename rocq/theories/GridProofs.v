From Coq Require Import ZArith List Bool Lia ZifyBool Permutation.
From Verif Require Import SortModel SortProofs VoxelModel VoxelProofs GridModel.
Import ListNotations.
Open Scope Z_scope.
Ltac Zify.zify_post_hook ::= idtac.

(* ---- coordinates ---- *)
Definition in3 (n c : Z * Z * Z) : Prop :=
  let '(nx, ny, nz) := n in let '(x, y, z) := c in in_mesh nx ny nz x y z.
Definition pos3 (n : Z * Z * Z) : Prop := let '(nx, ny, nz) := n in 1 <= nx /\ 1 <= ny /\ 1 <= nz.
Definition nv3 (n : Z * Z * Z) : Z := let '(nx, ny, nz) := n in nv_of nx ny nz.
Definition interior (n c : Z * Z * Z) : bool :=
  let '(nx, ny, nz) := n in let '(x, y, z) := c in
  (1 <=? x) && (x <=? nx) && (1 <=? y) && (y <=? ny) && (1 <=? z) && (z <=? nz).
Definition step (f : Z) (c : Z * Z * Z) : Z * Z * Z :=
  let '(x, y, z) := c in match f with
  | 0 => (x - 1, y, z) | 1 => (x, y - 1, z) | 2 => (x, y, z - 1)
  | 3 => (x + 1, y, z) | 4 => (x, y + 1, z) | _ => (x, y, z + 1) end.

Lemma vox3_inj n c c' : pos3 n -> in3 n c -> in3 n c' -> vox3 n c = vox3 n c' -> c = c'.
Proof.
  destruct n as [[nx ny] nz], c as [[x y] z], c' as [[x' y'] z']. cbn. intros (H1 & H2 & H3) H H' E.
  exact (voxel_inj nx ny nz x y z x' y' z' H1 H2 H H' E).
Qed.
Lemma vox3_range n c : pos3 n -> in3 n c -> 0 <= vox3 n c < nv3 n.
Proof.
  destruct n as [[nx ny] nz], c as [[x y] z]. cbn. intros (H1 & H2 & H3) H. apply voxel_range; assumption.
Qed.
Lemma interior_in n c : interior n c = true -> in3 n c.
Proof. destruct n as [[nx ny] nz], c as [[x y] z]. cbn. unfold in_mesh. lia. Qed.
Lemma six f : 0 <= f < 6 -> f = 0 \/ f = 1 \/ f = 2 \/ f = 3 \/ f = 4 \/ f = 5.
Proof. lia. Qed.
Ltac six_cases f H := destruct (six f H) as [? |[? |[? |[? |[? | ?]]]]]; subst f.

Lemma cyc_uncyc ax c : cyc ax (uncyc ax c) = c.
Proof. destruct c as [[x y] z]. unfold cyc, uncyc. destruct ax as [|[]|]; reflexivity. Qed.
Lemma uncyc_cyc ax c : uncyc ax (cyc ax c) = c.
Proof. destruct c as [[x y] z]. unfold cyc, uncyc. destruct ax as [|[]|]; reflexivity. Qed.

(* ---- stores ---- *)
Lemma fold_store_app ws1 ws2 t : fold_left store (ws1 ++ ws2) t = fold_left store ws2 (fold_left store ws1 t).
Proof. apply fold_left_app. Qed.
Lemma fold_store_other ws : forall t k, (forall w, In w ws -> fst w <> k) -> fold_left store ws t k = t k.
Proof.
  induction ws as [|w ws IH]; intros t k H; [reflexivity|]. cbn [fold_left]. rewrite IH by (intros; apply H; right; assumption).
  unfold store. specialize (H w (or_introl eq_refl)). replace (k =? fst w) with false by lia. reflexivity.
Qed.
Lemma fold_store_hit ws v : forall t k, (exists w, In w ws /\ fst w = k) ->
  (forall w, In w ws -> fst w = k -> snd w = v) -> fold_left store ws t k = Some v.
Proof.
  induction ws as [|w ws IH]; intros t k (w0 & Hin & He) H; [destruct Hin|]. cbn [fold_left].
  destruct (existsb (fun w => fst w =? k) ws) eqn:B.
  - apply existsb_exists in B. destruct B as (w1 & H1 & H2). apply IH; [exists w1; split; [exact H1|lia]|].
    intros; apply H; [right|]; assumption.
  - rewrite fold_store_other.
    + destruct Hin as [->|Hin].
      * unfold store. replace (k =? fst w0) with true by lia. f_equal. apply H; [left; reflexivity|exact He].
      * exfalso. rewrite <- Bool.not_true_iff_false in B. apply B, existsb_exists. exists w0. split; [exact Hin|lia].
    + intros w1 H1 E. rewrite <- Bool.not_true_iff_false in B. apply B, existsb_exists. exists w1. split; [exact H1|lia].
Qed.
Lemma fold_store_block {A} (ws : A -> list (Z * Z)) (l : list A) a0 k v :
  In a0 l -> (forall t, fold_left store (ws a0) t k = Some v) ->
  (forall a, In a l -> a <> a0 -> forall w, In w (ws a) -> fst w <> k) ->
  (forall a b : A, {a = b} + {a <> b}) ->
  forall t, fold_left store (flat_map ws l) t k = Some v.
Proof.
  intros Hin Hv Ho dec t. revert t Hin Ho.
  assert (G : forall t, (In a0 l \/ t k = Some v) -> (forall a, In a l -> a <> a0 -> forall w, In w (ws a) -> fst w <> k) ->
              fold_left store (flat_map ws l) t k = Some v).
  { induction l as [|a l IH]; intros t H Ho; [destruct H as [[]|H]; exact H|].
    cbn [flat_map]. rewrite fold_store_app. apply IH; [|intros; eapply Ho; [right|..]; eassumption].
    destruct (dec a a0) as [->|N]; [right; apply Hv|].
    destruct H as [[E|H]|H]; [contradiction|left; exact H|right].
    rewrite fold_store_other; [exact H|]. apply Ho; [left; reflexivity|exact N]. }
  intros t Hin Ho. apply G; [left; exact Hin|exact Ho].
Qed.
Lemma stores_ok size t ws : (forall w, In w ws -> 0 <= fst w < size) -> stores size t ws = Ok (fold_left store ws t).
Proof.
  intros H. unfold stores. replace (forallb _ ws) with true; [reflexivity|]. symmetry. apply forallb_forall.
  intros w Hw. specialize (H w Hw). lia.
Qed.

(* ---- size_grid ---- *)
Lemma in_cells x0 x1 y0 y1 z0 z1 x y z : In (x, y, z) (cells x0 x1 y0 y1 z0 z1) <-> x0 <= x <= x1 /\ y0 <= y <= y1 /\ z0 <= z <= z1.
Proof.
  unfold cells. rewrite in_flat_map. split.
  - intros (c & Hc & H). apply in_flat_map in H. destruct H as (b & Hb & H). apply in_map_iff in H. destruct H as (a & E & Ha).
    injection E as -> -> ->. apply in_zrange in Ha, Hb, Hc. lia.
  - intros H. exists z. split; [apply in_zrange; lia|]. apply in_flat_map. exists y. split; [apply in_zrange; lia|].
    apply in_map_iff. exists x. split; [reflexivity|apply in_zrange; lia].
Qed.
Lemma fold_when b l t k : fold_left store (when b l) t k = if b then fold_left store l t k else t k.
Proof. destruct b; reflexivity. Qed.

Lemma if_same {A} (b : bool) (x : A) : (if b then x else x) = x.
Proof. destruct b; reflexivity. Qed.
Lemma when1 b i a v t f : fold_left store (when b [(i + a, v)]) t (i + f) = if b && (f =? a) then Some v else t (i + f).
Proof. rewrite fold_when. destruct b; [|reflexivity]. cbn [fold_left andb]. unfold store. cbn [fst snd]. replace (i + f =? i + a) with (f =? a) by lia. reflexivity. Qed.
Lemma size_writes_keys nx ny nz rl c w : In w (size_writes nx ny nz rl c) ->
  exists f, 0 <= f < 6 /\ fst w = 6 * vox3 (nx, ny, nz) c + f.
Proof.
  destruct c as [[x y] z]. unfold size_writes, vox3. intros H.
  assert (W : forall b l, In w (when b l) -> In w l) by (intros [] l; [exact (fun h => h)|intros []]).
  repeat (apply in_app_or in H; destruct H as [H|H]); try apply W in H; cbn [In] in H;
  repeat (destruct H as [<-|H]; [eexists; cbn [fst]; split; [|reflexivity]; lia|]); destruct H.
Qed.

Lemma size_writes_val nx ny nz rl x y z f t : 1 <= nx -> 1 <= ny -> 1 <= nz -> in_mesh nx ny nz x y z -> 0 <= f < 6 ->
  fold_left store (size_writes nx ny nz rl (x, y, z)) t (6 * voxel nx ny nz x y z + f) =
  Some (if interior (nx, ny, nz) (x, y, z) && interior (nx, ny, nz) (step f (x, y, z))
        then rl + vox3 (nx, ny, nz) (step f (x, y, z)) else -1).
Proof.
  intros H1 H2 H3 HM Hf. unfold size_writes. set (i := 6 * voxel nx ny nz x y z). unfold in_mesh in HM.
  rewrite !fold_store_app. rewrite fold_when.
  assert (L6 : forall a b c d e g T, fold_left store [(i + 0, a); (i + 1, b); (i + 2, c); (i + 3, d); (i + 4, e); (i + 5, g)] T (i + f)
    = Some (match f with 0 => a | 1 => b | 2 => c | 3 => d | 4 => e | _ => g end)).
  { intros. assert (E : forall a b, (i + a =? i + b) = (a =? b)) by (intros; lia).
    six_cases f Hf; unfold fold_left, store; cbn [fst snd]; rewrite ?E; reflexivity. }
  rewrite L6, !when1, L6. unfold reflect_code.
  set (B := (x =? 0) || (x =? nx + 1) || (y =? 0) || (y =? ny + 1) || (z =? 0) || (z =? nz + 1)).
  assert (EB : interior (nx, ny, nz) (x, y, z) = negb B) by (subst B; cbn; lia). rewrite EB.
  destruct B; cbn [negb andb].
  - six_cases f Hf; reflexivity.
  - cbn in EB. six_cases f Hf; cbn [Z.eqb Pos.eqb]; rewrite ?andb_false_r, ?andb_true_r; unfold step, interior, vox3;
    match goal with |- (if ?b then _ else _) = Some (if ?c then _ else _) => replace c with (negb b) by lia; destruct b; reflexivity end.
Qed.

Lemma cell_dec (a b : Z * Z * Z) : {a = b} + {a <> b}.
Proof. repeat decide equality. Qed.

Definition size_entry (n : Z * Z * Z) (rl f : Z) (c : Z * Z * Z) : Z :=
  if interior n c && interior n (step f c) then rl + vox3 n (step f c) else -1.

Lemma size_grid_spec rank size nvs nx ny nz : 1 <= nx -> 1 <= ny -> 1 <= nz -> 6 * nv_of nx ny nz <= 2147483647 ->
  exists t, size_grid rank size nvs nx ny nz =
    Ok (mk_grid rank size nx ny nz (fun b => if b =? 13 then rank else -1) (offsets 0 (nvs ++ [0])) t) /\
  forall c f, in3 (nx, ny, nz) c -> 0 <= f < 6 ->
    t (6 * vox3 (nx, ny, nz) c + f) = Some (size_entry (nx, ny, nz) (nth (Z.to_nat rank) (offsets 0 (nvs ++ [0])) 0) f c).
Proof.
  intros H1 H2 H3 Hnv. unfold size_grid. replace ((nx <? 1) || (ny <? 1) || (nz <? 1)) with false by lia. cbv zeta.
  replace (2147483647 <? 6 * nv_of nx ny nz) with false by lia. set (rl := nth _ _ _).
  assert (HC : forall c, In c (cells 0 (nx + 1) 0 (ny + 1) 0 (nz + 1)) <-> in3 (nx, ny, nz) c).
  { intros [[x y] z]. rewrite in_cells. cbn. unfold in_mesh. reflexivity. }
  assert (HP : pos3 (nx, ny, nz)) by (cbn; lia).
  rewrite stores_ok.
  - cbn [bind]. eexists. split; [reflexivity|]. intros c f Hc Hf.
    apply fold_store_block with (a0 := c).
    + apply HC, Hc.
    + intros t. destruct c as [[x y] z]. unfold vox3 at 1. rewrite size_writes_val by (assumption || exact Hc). reflexivity.
    + intros a Ha Hn w Hw E. apply size_writes_keys in Hw. destruct Hw as (f' & Hf' & E'). apply HC in Ha.
      apply Hn, (vox3_inj _ _ _ HP Ha Hc). lia.
    + exact cell_dec.
  - intros w Hw. apply in_flat_map in Hw. destruct Hw as (c & Hc & Hw). apply HC in Hc.
    apply size_writes_keys in Hw. destruct Hw as (f & Hf & E). pose proof (vox3_range _ _ HP Hc). unfold nv3 in H. lia.
Qed.

Lemma offsets_len jj l : length (offsets jj l) = length l.
Proof. revert jj. induction l; intros; cbn; [reflexivity|f_equal; auto]. Qed.
Lemma offsets_nth : forall l jj i, (S i < length l)%nat -> nth (S i) (offsets jj l) 0 = nth i (offsets jj l) 0 + nth i l 0.
Proof.
  induction l as [|a l IH]; intros jj i H; [cbn in H; lia|]. cbn [length] in H. destruct i as [|i].
  - cbn. destruct l; [cbn in H; lia|reflexivity].
  - cbn [offsets nth]. apply IH. lia.
Qed.
Lemma offsets_repeat nv : forall m jj i, (i < m)%nat -> nth i (offsets jj (repeat nv m ++ [0])) 0 = jj + Z.of_nat i * nv.
Proof.
  induction m as [|m IH]; intros jj i H; [lia|]. cbn [repeat app offsets]. destruct i as [|i]; cbn [nth]; [lia|].
  rewrite IH by lia. lia.
Qed.
Lemma nth_rep (nv : Z) m i : (i < m)%nat -> nth i (repeat nv m) 0 = nv.
Proof. revert i. induction m; intros [|i] H; cbn; try lia. apply IHm. lia. Qed.
Lemma offsets_repeat_all nv m i : (i <= m)%nat -> nth i (offsets 0 (repeat nv m ++ [0])) 0 = Z.of_nat i * nv.
Proof.
  intros H. destruct (Nat.eq_dec i m) as [->|N]; [|rewrite offsets_repeat by lia; lia].
  destruct m as [|m]; [reflexivity|]. rewrite offsets_nth by (rewrite app_length, repeat_length; cbn; lia).
  rewrite offsets_repeat by lia. rewrite app_nth1 by (rewrite repeat_length; lia). rewrite nth_rep by lia. lia.
Qed.
Lemma offsets_mono l : (forall n, In n l -> 0 <= n) -> forall jj i j, (i <= j)%nat -> (j < length l)%nat ->
  nth i (offsets jj l) 0 <= nth j (offsets jj l) 0.
Proof.
  intros H jj i j Hij. induction Hij as [|j Hij IH]; intros Hj; [lia|]. rewrite offsets_nth by exact Hj.
  specialize (IH ltac:(lia)). pose proof (H (nth j l 0) ltac:(apply nth_In; lia)). lia.
Qed.

(* ---- stores to one face ---- *)
Definition on_face (n : Z * Z * Z) (tag : Z) (c : Z * Z * Z) : bool :=
  let '(lX, lY, lZ) := cyc (tag mod 3) n in let '(X, Y, W) := cyc (tag mod 3) c in
  (X =? (if tag <? 3 then 1 else lX)) && (1 <=? Y) && (Y <=? lY) && (1 <=? W) && (W <=? lZ).
Definition face_writes (n : Z * Z * Z) (tag : Z) (val : Z -> Z -> Z) : list (Z * Z) :=
  let '(lX, lY, lZ) := cyc (tag mod 3) n in
  flat_map (fun iZ => map (fun iY => (6 * vox3 n (uncyc (tag mod 3) (if tag <? 3 then 1 else lX, iY, iZ)) + tag, val iY iZ))
     (zrange 1 (lY + 1))) (zrange 1 (lZ + 1)).
Definition tr1 (tag : Z) (c : Z * Z * Z) : Z := let '(_, Y, _) := cyc (tag mod 3) c in Y.
Definition tr2 (tag : Z) (c : Z * Z * Z) : Z := let '(_, _, W) := cyc (tag mod 3) c in W.

Lemma in3_cyc ax n c : in3 n c <-> in3 (cyc ax n) (cyc ax c).
Proof.
  destruct n as [[nx ny] nz], c as [[x y] z]. unfold cyc. destruct ax as [|[]|]; cbn; unfold in_mesh; tauto.
Qed.
Lemma pos3_cyc ax n : pos3 n <-> pos3 (cyc ax n).
Proof. destruct n as [[nx ny] nz]. unfold cyc. destruct ax as [|[]|]; cbn; tauto. Qed.
Lemma on_face_interior n tag c : pos3 n -> on_face n tag c = true -> interior n c = true.
Proof.
  destruct n as [[nx ny] nz], c as [[x y] z]. unfold on_face, cyc. generalize (tag mod 3). intros ax.
  destruct ax as [|[]|]; cbn; destruct (tag <? 3); lia.
Qed.
Lemma on_face_step n tag c : pos3 n -> 0 <= tag < 6 -> interior n c = true ->
  on_face n tag c = negb (interior n (step tag c)).
Proof.
  destruct n as [[nx ny] nz], c as [[x y] z]. intros HP Hf. six_cases tag Hf; cbn in *; lia.
Qed.

Lemma in_face_writes n tag val w : In w (face_writes n tag val) <->
  exists c, on_face n tag c = true /\ w = (6 * vox3 n c + tag, val (tr1 tag c) (tr2 tag c)).
Proof.
  unfold face_writes, on_face, tr1, tr2. destruct (cyc (tag mod 3) n) as [[lX lY] lZ]. rewrite in_flat_map. split.
  - intros (iZ & HZ & H). apply in_map_iff in H. destruct H as (iY & <- & HY). apply in_zrange in HY, HZ.
    exists (uncyc (tag mod 3) (if tag <? 3 then 1 else lX, iY, iZ)). rewrite cyc_uncyc. split; [lia|reflexivity].
  - intros (c & H & ->). destruct (cyc (tag mod 3) c) as [[X Y] W] eqn:E. exists W. split; [apply in_zrange; lia|].
    apply in_map_iff. exists Y. split; [|apply in_zrange; lia].
    replace (uncyc (tag mod 3) (if tag <? 3 then 1 else lX, Y, W)) with c; [reflexivity|].
    rewrite <- (uncyc_cyc (tag mod 3) c), E. do 3 f_equal. lia.
Qed.

Lemma face_stores n tag val t : pos3 n -> 0 <= tag < 6 -> exists t', stores (6 * nv3 n) t (face_writes n tag val) = Ok t' /\
  (forall c f, in3 n c -> 0 <= f < 6 -> t' (6 * vox3 n c + f) =
     if on_face n tag c && (f =? tag) then Some (val (tr1 tag c) (tr2 tag c)) else t (6 * vox3 n c + f)) /\
  (forall k, t' k <> t k -> exists c, on_face n tag c = true /\ k = 6 * vox3 n c + tag).
Proof.
  intros HP Ht. rewrite stores_ok.
  2:{ intros w Hw. apply in_face_writes in Hw. destruct Hw as (c & Hc & ->). cbn [fst].
      pose proof (vox3_range n c HP (interior_in _ _ (on_face_interior _ _ _ HP Hc))). lia. }
  eexists. split; [reflexivity|]. split.
  - intros c f Hc Hf. destruct (on_face n tag c && (f =? tag)) eqn:E.
    + apply andb_true_iff in E. destruct E as [E1 E2]. apply fold_store_hit.
      * eexists. split; [apply in_face_writes; exists c; split; [exact E1|reflexivity]|]. cbn [fst]. lia.
      * intros w Hw Hk. apply in_face_writes in Hw. destruct Hw as (c' & Hc' & ->). cbn [fst snd] in *.
        replace c' with c; [reflexivity|]. apply (vox3_inj n _ _ HP Hc); [apply interior_in, (on_face_interior _ _ _ HP Hc')|lia].
    + apply fold_store_other. intros w Hw Hk. apply in_face_writes in Hw. destruct Hw as (c' & Hc' & ->). cbn [fst] in Hk.
      assert (c' = c) by (apply (vox3_inj n _ _ HP); [apply interior_in, (on_face_interior _ _ _ HP Hc')|exact Hc|lia]).
      subst c'. rewrite Hc' in E. cbn [andb] in E. lia.
  - intros k Hk. destruct (existsb (fun w => fst w =? k) (face_writes n tag val)) eqn:B.
    + apply existsb_exists in B. destruct B as (w & Hw & E). apply in_face_writes in Hw. destruct Hw as (c & Hc & ->).
      exists c. split; [exact Hc|cbn [fst] in E; lia].
    + exfalso. apply Hk, fold_store_other. intros w Hw E. rewrite <- Bool.not_true_iff_false in B. apply B, existsb_exists.
      exists w. split; [exact Hw|lia].
Qed.

Lemma find_face tag : 0 <= tag < 6 -> find (fun t => face_code tag =? face_code t) faces6 = Some tag.
Proof. intros H. six_cases tag H; reflexivity. Qed.
Lemma face_code_ok tag : 0 <= tag < 6 -> 0 <= face_code tag < 27 /\ face_code tag <> 13.
Proof. intros H. six_cases tag H; vm_compute; split; try split; discriminate || reflexivity. Qed.

(* ---- join_grid, set_pbc on a face ---- *)
Definition remote_dims (n : Z * Z * Z) (tag rnc : Z) : Z * Z * Z :=
  let '(_, lY, lZ) := cyc (tag mod 3) n in uncyc (tag mod 3) (Z.quot rnc ((lY + 2) * (lZ + 2)) - 2, lY, lZ).
Definition across (n rn : Z * Z * Z) (tag : Z) (c : Z * Z * Z) : Z * Z * Z :=
  let '(rX, _, _) := cyc (tag mod 3) rn in
  uncyc (tag mod 3) (if tag <? 3 then rX else 1, tr1 tag c, tr2 tag c).

Definition same_shape (g g' : grid) : Prop :=
  g_rank g' = g_rank g /\ g_size g' = g_size g /\ dims g' = dims g /\ g_range g' = g_range g.
Lemma same_shape_refl g : same_shape g g. Proof. repeat split. Qed.
Lemma same_shape_trans a b c : same_shape a b -> same_shape b c -> same_shape a c.
Proof. unfold same_shape. intuition congruence. Qed.

Lemma join_spec g tag rank : pos3 (dims g) -> 0 <= tag < 6 -> 0 <= rank < g_size g ->
  let rnc := rangez g (rank + 1) - rangez g rank in
  let '(_, lY, lZ) := cyc (tag mod 3) (dims g) in
  (Z.rem rnc ((lY + 2) * (lZ + 2)) <> 0 -> join_grid g (face_code tag) rank = Err) /\
  (Z.rem rnc ((lY + 2) * (lZ + 2)) = 0 -> exists g', join_grid g (face_code tag) rank = Ok g' /\ same_shape g g' /\
     (forall b, g_bc g' b = if b =? face_code tag then rank else g_bc g b) /\
     (forall c f, in3 (dims g) c -> 0 <= f < 6 -> g_nbr g' (6 * vox3 (dims g) c + f) =
        if on_face (dims g) tag c && (f =? tag)
        then Some (rangez g rank + vox3 (remote_dims (dims g) tag rnc) (across (dims g) (remote_dims (dims g) tag rnc) tag c))
        else g_nbr g (6 * vox3 (dims g) c + f)) /\
     (forall k, g_nbr g' k <> g_nbr g k -> exists c, on_face (dims g) tag c = true /\ k = 6 * vox3 (dims g) c + tag)).
Proof.
  intros HP Ht Hr rnc. pose proof (face_code_ok tag Ht) as HF.
  unfold join_grid. change (bcode 0 0 0) with 13.
  replace ((face_code tag <? 0) || (27 <=? face_code tag) || (face_code tag =? 13) || (rank <? 0) || (g_size g <=? rank)) with false by lia.
  cbv zeta. rewrite find_face by exact Ht. unfold glue_face. change (dims (set_bc g (face_code tag) rank)) with (dims g).
  change (rangez (set_bc g (face_code tag) rank)) with (rangez g). fold rnc.
  unfold remote_dims, across. destruct (cyc (tag mod 3) (dims g)) as [[lX lY] lZ] eqn:EC. split; intros HD.
  - replace (negb (Z.rem rnc ((lY + 2) * (lZ + 2)) =? 0)) with true by lia. reflexivity.
  - replace (negb (Z.rem rnc ((lY + 2) * (lZ + 2)) =? 0)) with false by lia.
    set (rX := Z.quot rnc ((lY + 2) * (lZ + 2)) - 2).
    pose proof (face_stores (dims g) tag (fun iY iZ => rangez g rank + vox3 (uncyc (tag mod 3) (rX, lY, lZ)) (uncyc (tag mod 3) (if tag <? 3 then rX else 1, iY, iZ)))
      (g_nbr (set_bc g (face_code tag) rank)) HP Ht) as (t' & E & H1 & H2).
    unfold face_writes in E. rewrite EC in E.
    change (6 * g_nv (set_bc g (face_code tag) rank)) with (6 * nv3 (dims g)). rewrite E. cbn [bind].
    eexists. split; [reflexivity|]. split; [repeat split|]. split; [reflexivity|]. split; [|exact H2].
    intros c f Hc Hf. cbn [set_nbr g_nbr]. rewrite H1 by assumption. rewrite cyc_uncyc. reflexivity.
Qed.

Lemma pbc_spec g tag pbc : pos3 (dims g) -> 0 <= tag < 6 -> pbc < 0 ->
  exists g', set_pbc g (face_code tag) pbc = Ok g' /\ same_shape g g' /\ (forall b, g_bc g' b = g_bc g b) /\
     (forall c f, in3 (dims g) c -> 0 <= f < 6 -> g_nbr g' (6 * vox3 (dims g) c + f) =
        if on_face (dims g) tag c && (f =? tag) then Some pbc else g_nbr g (6 * vox3 (dims g) c + f)) /\
     (forall k, g_nbr g' k <> g_nbr g k -> exists c, on_face (dims g) tag c = true /\ k = 6 * vox3 (dims g) c + tag).
Proof.
  intros HP Ht Hr. pose proof (face_code_ok tag Ht) as HF.
  unfold set_pbc. change (bcode 0 0 0) with 13.
  replace ((face_code tag <? 0) || (27 <=? face_code tag) || (face_code tag =? 13) || (0 <=? pbc)) with false by lia.
  rewrite find_face by exact Ht. cbv zeta.
  pose proof (face_stores (dims g) tag (fun _ _ => pbc) (g_nbr g) HP Ht) as (t' & E & H1 & H2).
  unfold face_writes in E. destruct (cyc (tag mod 3) (dims g)) as [[lX lY] lZ] eqn:EC.
  change (6 * g_nv g) with (6 * nv3 (dims g)). rewrite E. cbn [bind].
  eexists. split; [reflexivity|]. split; [repeat split|]. split; [reflexivity|]. split; [|exact H2]. exact H1.
Qed.
