(* The field exchanges: what a receive does. *)
From Coq Require Import ZArith List Bool Lia ZifyBool.
From Verif Require Import SortModel SortProofs VoxelModel VoxelProofs GridModel GridProofs FieldModel RemoteModel RemoteSpec.
Import ListNotations.
Open Scope Z_scope.
Ltac Zify.zify_post_hook ::= idtac.

Lemma at_put_same a v c : at_ a (put a v c) = v.
Proof. destruct a, c as [[x y] z]; reflexivity. Qed.
Lemma at_put_other a b v c : b <> a -> at_ b (put a v c) = at_ b c.
Proof. destruct a, b, c as [[x y] z]; intros H; try reflexivity; contradiction. Qed.
Lemma put_put a v w c : put a v (put a w c) = put a v c.
Proof. destruct a, c as [[x y] z]; reflexivity. Qed.
Lemma put_at a c : put a (at_ a c) c = c.
Proof. destruct a, c as [[x y] z]; reflexivity. Qed.
Lemma cell_ext c c' : (forall a, at_ a c = at_ a c') -> c = c'.
Proof. destruct c as [[x y] z], c' as [[x' y'] z']. intros H. pose proof (H AX). pose proof (H AY). pose proof (H AZ). cbn in *. congruence. Qed.
Lemma next_neq a : next a <> a /\ next (next a) <> a.
Proof. destruct a; split; discriminate. Qed.
Lemma port_inj a s a' s' : s = -1 \/ s = 1 -> s' = -1 \/ s' = 1 -> port a s = port a' s' -> a = a' /\ s = s'.
Proof. intros [-> | ->] [-> | ->]; destruct a, a'; cbn; intros H; try (split; reflexivity); discriminate. Qed.
Lemma comp_eqb_true a b : comp_eqb a b = true <-> a = b.
Proof. split; [destruct a, b; cbn; congruence|intros ->; destruct b; reflexivity]. Qed.
Lemma floc_eqb_true (a b : floc) : floc_eqb a b = true <-> a = b.
Proof.
  unfold floc_eqb. destruct a as [c v], b as [c' v']. cbn. rewrite andb_true_iff, comp_eqb_true, Z.eqb_eq. split; [intros [-> ->]; reflexivity|intros E; injection E as -> ->; split; reflexivity].
Qed.

(* ---------- planes ---------- *)
(* bounds of the transverse coordinates *)
Definition wide_y (g : region) : Z := match g with Face | YZedge => 0 | _ => 1 end.
Definition wide_z (g : region) : Z := match g with Face | ZYedge => 0 | _ => 1 end.
Lemma in_plane n a g f c : In c (plane n a g f) <->
  at_ a c = f /\ 1 <= at_ (next a) c <= at_ (next a) n + wide_y g /\ 1 <= at_ (next (next a)) c <= at_ (next (next a)) n + wide_z g.
Proof.
  destruct n as [[nx ny] nz], c as [[x y] z]. destruct a, g; cbn [plane next at_ wide_y wide_z]; rewrite in_cells; lia.
Qed.
Lemma nodup_flat {A B} (key : B -> A) (f : A -> list B) l : (forall a b, In b (f a) -> key b = a) -> (forall a, In a l -> NoDup (f a)) -> NoDup l -> NoDup (flat_map f l).
Proof.
  intros K. induction l as [|a l IH]; intros N D; [constructor|]. inversion D as [|? ? D1 D2]; subst. cbn.
  assert (forall l1 l2 : list B, NoDup l1 -> NoDup l2 -> (forall x, In x l1 -> ~ In x l2) -> NoDup (l1 ++ l2)) as App.
  { clear. induction l1 as [|x l1 IH]; intros l2 N1 N2 H; [exact N2|]. inversion N1; subst. cbn. constructor.
    - rewrite in_app_iff. intros [Q|Q]; [contradiction|]. exact (H x (or_introl eq_refl) Q).
    - apply IH; [assumption|assumption|]. intros y Hy. apply H. right. exact Hy. }
  apply App; [apply N; left; reflexivity|apply IH; [intros; apply N; right; assumption|exact D2]|].
  intros x Hx Q. apply in_flat_map in Q. destruct Q as (b & Hb & Hxb). rewrite <- (K a x Hx), (K b x Hxb) in D1. contradiction.
Qed.
Lemma cells_nodup x0 x1 y0 y1 z0 z1 : NoDup (cells x0 x1 y0 y1 z0 z1).
Proof.
  unfold cells. apply (nodup_flat (fun c : Z * Z * Z => snd c)); [| |apply NoDup_zrange].
  - intros z b H. apply in_flat_map in H. destruct H as (y & _ & H). apply in_map_iff in H. destruct H as (x & <- & _). reflexivity.
  - intros z _. apply (nodup_flat (fun c : Z * Z * Z => snd (fst c))); [| |apply NoDup_zrange].
    + intros y b H. apply in_map_iff in H. destruct H as (x & <- & _). reflexivity.
    + intros y _. apply FinFun.Injective_map_NoDup; [|apply NoDup_zrange]. intros u v E. injection E. trivial.
Qed.
Lemma plane_nodup n a g f : NoDup (plane n a g f).
Proof. destruct n as [[nx ny] nz]. destruct a, g; apply cells_nodup. Qed.
Lemma map_flat {A B C} (g : B -> C) (f : A -> list B) l : map g (flat_map f l) = flat_map (fun x => map g (f x)) l.
Proof. induction l as [|x l IH]; [reflexivity|]. cbn. rewrite map_app, IH. reflexivity. Qed.
Lemma cells_x f f' y0 y1 z0 z1 : cells f' f' y0 y1 z0 z1 = map (put AX f') (cells f f y0 y1 z0 z1).
Proof.
  unfold cells. rewrite map_flat. apply flat_map_ext. intros z. rewrite map_flat. apply flat_map_ext. intros y.
  rewrite map_map. rewrite (zrange_cons f (f + 1)), (zrange_cons f' (f' + 1)), (zrange_nil (f + 1) (f + 1)), (zrange_nil (f' + 1) (f' + 1)) by lia. reflexivity.
Qed.
Lemma cells_y f f' x0 x1 z0 z1 : cells x0 x1 f' f' z0 z1 = map (put AY f') (cells x0 x1 f f z0 z1).
Proof.
  unfold cells. rewrite map_flat. apply flat_map_ext. intros z.
  rewrite (zrange_cons f (f + 1)), (zrange_cons f' (f' + 1)), (zrange_nil (f + 1) (f + 1)), (zrange_nil (f' + 1) (f' + 1)) by lia. cbn [flat_map]. rewrite !app_nil_r, map_map. reflexivity.
Qed.
Lemma cells_z f f' x0 x1 y0 y1 : cells x0 x1 y0 y1 f' f' = map (put AZ f') (cells x0 x1 y0 y1 f f).
Proof.
  unfold cells. rewrite (zrange_cons f (f + 1)), (zrange_cons f' (f' + 1)), (zrange_nil (f + 1) (f + 1)), (zrange_nil (f' + 1) (f' + 1)) by lia. cbn [flat_map]. rewrite !app_nil_r.
  rewrite map_flat. apply flat_map_ext. intros y. rewrite map_map. reflexivity.
Qed.
(* the same plane elsewhere, on a grid with the same transverse sizes *)
Lemma plane_moved n n' a g f f' : at_ (next a) n = at_ (next a) n' -> at_ (next (next a)) n = at_ (next (next a)) n' ->
  plane n' a g f' = map (put a f') (plane n a g f).
Proof.
  destruct n as [[nx ny] nz], n' as [[nx' ny'] nz']. destruct a, g; cbn [next at_ plane]; intros -> ->; first [apply cells_x | apply cells_y | apply cells_z].
Qed.
Definition move (a : axis) (f : Z) (l : addr) : addr := (fst l, put a f (snd l)).
Lemma addrs_moved n n' a f f' items : at_ (next a) n = at_ (next a) n' -> at_ (next (next a)) n = at_ (next (next a)) n' ->
  addrs n' a f' items = map (move a f') (addrs n a f items).
Proof.
  intros H1 H2. unfold addrs. rewrite map_flat. apply flat_map_ext. intros [g ks]. cbn [fst snd].
  rewrite (plane_moved n n' a g f f' H1 H2), map_flat. generalize (plane n a g f) as l. induction l as [|c l IH]; [reflexivity|]. cbn. rewrite IH, map_map. reflexivity.
Qed.
Lemma in_addrs n a f items c q : In (c, q) (addrs n a f items) <-> exists g ks, In (g, ks) items /\ In c ks /\ In q (plane n a g f).
Proof.
  unfold addrs. rewrite in_flat_map. split.
  - intros ((g & ks) & Hi & H). rewrite in_flat_map in H. destruct H as (q' & Hq & H). apply in_map_iff in H. destruct H as (k & E & Hk). injection E as -> ->. exists g, ks. tauto.
  - intros (g & ks & Hi & Hc & Hq). exists (g, ks). split; [exact Hi|]. rewrite in_flat_map. exists q. split; [exact Hq|]. apply in_map_iff. exists c. tauto.
Qed.
(* no component is listed twice *)
Definition comps_of (items : list (region * list comp)) : list comp := flat_map snd items.
Lemma addrs_nodup n a f items : NoDup (comps_of items) -> NoDup (addrs n a f items).
Proof.
  assert (App : forall (l1 l2 : list addr), NoDup l1 -> NoDup l2 -> (forall x, In x l1 -> ~ In x l2) -> NoDup (l1 ++ l2)).
  { induction l1 as [|x l1 IH]; intros l2 N1 N2 H; [exact N2|]. inversion N1; subst. cbn. constructor.
    - rewrite in_app_iff. intros [Q|Q]; [contradiction|]. exact (H x (or_introl eq_refl) Q).
    - apply IH; [assumption|assumption|]. intros y Hy. apply H. right. exact Hy. }
  assert (AppL : forall (l1 l2 : list comp), NoDup (l1 ++ l2) -> NoDup l1 /\ NoDup l2 /\ (forall x, In x l1 -> ~ In x l2)).
  { induction l1 as [|x l1 IH]; intros l2 N; [split; [constructor|split; [exact N|intros ? []]]|]. cbn in N. inversion N as [|? ? N1 N2]; subst. destruct (IH l2 N2) as (A1 & A2 & A3).
    rewrite in_app_iff in N1. split; [constructor; tauto|]. split; [exact A2|]. intros y [<-|Hy]; [tauto|apply A3, Hy]. }
  induction items as [|[g ks] items IH]; intros N; [constructor|]. cbn in N. destruct (AppL _ _ N) as (N1 & N2 & N3).
  change (addrs n a f ((g, ks) :: items)) with (flat_map (fun c => map (fun k => (k, c)) ks) (plane n a g f) ++ addrs n a f items).
  apply App; [|apply IH, N2|].
  - apply (nodup_flat (fun l : addr => snd l)); [| |apply plane_nodup].
    + intros c b H. apply in_map_iff in H. destruct H as (k & <- & _). reflexivity.
    + intros c _. apply FinFun.Injective_map_NoDup; [|exact N1]. intros u v E. injection E. trivial.
  - intros [c q] H1 H2. rewrite in_flat_map in H1. destruct H1 as (q' & _ & H1). apply in_map_iff in H1. destruct H1 as (k & E & Hk). injection E as -> ->.
    apply in_addrs in H2. destruct H2 as (g' & ks' & Hi & Hc & _). apply (N3 c Hk). unfold comps_of. apply in_flat_map. exists (g', ks'). tauto.
Qed.
Lemma items_same e a : recv_items e a = send_items e a.
Proof. reflexivity. Qed.
Lemma items_nodup e a : NoDup (comps_of (send_items e a)).
Proof. destruct e, a; cbn; repeat (constructor; [cbn; intuition discriminate|]); constructor. Qed.

(* ---------- unpacking ---------- *)
Section U.
Context {V : Type}.
Lemma unpack_spec (f : addr -> V -> mem V -> V) n : forall ls ws F,
  length ls = length ws -> NoDup (map (locv n) ls) ->
  (forall l w F1 F2, In l ls -> (forall k, k = locv n l \/ ~ In k (map (locv n) ls) -> F1 k = F2 k) -> f l w F1 = f l w F2) ->
  exists F', unpack V f n ls ws F = Some F' /\
    (forall k, ~ In k (map (locv n) ls) -> F' k = F k) /\
    (forall l w, In (l, w) (combine ls ws) -> F' (locv n l) = f l w F).
Proof.
  induction ls as [|l ls IH]; intros [|w ws] F HL HN Hf; try discriminate.
  - exists F. cbn. split; [reflexivity|]. split; [trivial|intros ? ? []].
  - cbn in HN. inversion HN as [|? ? HN1 HN2]; subst. cbn [unpack].
    set (F1 := fun k => if floc_eqb k (locv n l) then f l w F else F k).
    destruct (IH ws F1) as (F' & E & H1 & H2); [cbn in HL; lia|exact HN2| |].
    { intros l' w' Fa Fb Hl' Hk. apply Hf; [right; exact Hl'|]. intros k [->|Hn]; apply Hk; [left; reflexivity|right]. intros Q. apply Hn. right. exact Q. }
    exists F'. split; [exact E|]. split.
    + intros k Hk. rewrite H1 by (intros Q; apply Hk; right; exact Q). unfold F1. destruct (floc_eqb k (locv n l)) eqn:Ek; [|reflexivity].
      apply floc_eqb_true in Ek. exfalso. apply Hk. left. congruence.
    + intros l' w' [Q|Q].
      * injection Q as <- <-. rewrite H1 by exact HN1. unfold F1. replace (floc_eqb (locv n l) (locv n l)) with true by (symmetry; apply floc_eqb_true; reflexivity). reflexivity.
      * rewrite (H2 l' w' Q). apply Hf; [right; apply in_combine_l in Q; exact Q|]. intros k Hk. unfold F1. destruct (floc_eqb k (locv n l)) eqn:Ek; [|reflexivity].
        apply floc_eqb_true in Ek. subst k. exfalso. destruct Hk as [Hk|Hk].
        -- apply HN1. rewrite Hk. apply in_map. apply in_combine_l in Q. exact Q.
        -- apply Hk. left. reflexivity.
Qed.
End U.

(* ---------- a box of ranks ---------- *)
Section Box.
Context {V : Type}.
Variable A : rarith V.
Variable L : layout V.
Variable num : cell -> Z.
Variable ws : Z.
Variable G : Z -> cgrid V.
Hypothesis OK : layout_ok L.
Hypothesis HB : box L num ws G.

Definition sign (s : Z) : Prop := s = -1 \/ s = 1.
Definition dirs (ds : list (axis * Z)) : Prop := forall d, In d ds -> sign (snd d).
Lemma inside_put a j p : inside L p -> 0 <= j < l_p L a -> inside L (put a j p).
Proof.
  intros Hp Hj b. assert (D : b = a \/ b <> a) by (destruct a, b; (left; reflexivity) || (right; discriminate)). destruct D as [->|D]; [rewrite at_put_same; exact Hj|rewrite at_put_other by exact D; apply Hp].
Qed.
Lemma beside_range a i s j : 0 <= i < l_p L a -> sign s -> beside L a i s = Some j -> 0 <= j < l_p L a.
Proof.
  unfold beside. intros Hi Hs. destruct ((0 <=? i + s) && (i + s <? l_p L a)) eqn:E; [intros Q; injection Q as <-; lia|].
  destruct (l_per L a); [|discriminate]. intros Q. injection Q as <-. apply Z.mod_pos_bound. lia.
Qed.
Lemma beside_back a i s j : 0 <= i < l_p L a -> sign s -> beside L a i s = Some j -> beside L a j (- s) = Some i.
Proof.
  unfold beside. intros Hi Hs. destruct ((0 <=? i + s) && (i + s <? l_p L a)) eqn:E.
  - intros Q. injection Q as <-. replace (i + s + - s) with i by lia. replace ((0 <=? i) && (i <? l_p L a)) with true by lia. reflexivity.
  - destruct (l_per L a); [|discriminate]. intros Q. injection Q as <-. destruct Hs as [-> | ->].
    + assert (i = 0) by lia. subst i. replace ((0 + -1) mod l_p L a) with (l_p L a - 1) by (apply (Z.mod_unique _ _ (-1)); lia).
      replace ((0 <=? l_p L a - 1 + - -1) && (l_p L a - 1 + - -1 <? l_p L a)) with false by lia. f_equal. replace (l_p L a - 1 + - -1) with (0 + 1 * l_p L a) by lia. rewrite Z.mod_add by lia. apply Z.mod_0_l. lia.
    + assert (i = l_p L a - 1) by lia. replace (i + 1) with (0 + 1 * l_p L a) by lia. rewrite Z.mod_add, Z.mod_0_l by lia.
      replace ((0 <=? 0 + - (1)) && (0 + - (1) <? l_p L a)) with false by lia. f_equal. symmetry. apply (Z.mod_unique _ _ (-1)); lia.
Qed.
Lemma peer_box p a s : inside L p -> sign s -> peer V ws G (num p) (port a s) = match beside L a (at_ a p) s with Some j => Some (num (put a j p)) | None => None end.
Proof.
  intros Hp Hs. destruct HB as (H1 & _ & _ & _ & _ & H6). specialize (H6 p a s Hp Hs). unfold peer. destruct (beside L a (at_ a p) s) as [j|] eqn:E.
  - rewrite H6. assert (Hj : inside L (put a j p)) by (apply inside_put; [exact Hp|eapply beside_range; [apply Hp|exact Hs|exact E]]). specialize (H1 _ Hj).
    replace ((num (put a j p) <? 0) || (ws <=? num (put a j p))) with false by lia. reflexivity.
  - replace ((c_bc V (G (num p)) (port a s) <? 0) || (ws <=? c_bc V (G (num p)) (port a s))) with true by lia. reflexivity.
Qed.
Lemma size_box p : inside L p -> c_n V (G (num p)) = size_at L p.
Proof. apply HB. Qed.
Lemma at_size a p : at_ a (size_at L p) = l_n L a (at_ a p).
Proof. destruct a; reflexivity. Qed.
Lemma size_pos p : inside L p -> pos3 (size_at L p).
Proof. intros Hp. destruct OK as [_ O]. unfold size_at. cbn. split; [|split]; apply O, Hp. Qed.
Lemma size_pos_at a p : inside L p -> 1 <= l_n L a (at_ a p).
Proof. intros Hp. apply OK, Hp. Qed.

Definition meshed (p q : cell) : Prop := forall a, 0 <= at_ a q <= l_n L a (at_ a p) + 1.
Lemma meshed_in3 p q : meshed p q <-> in3 (size_at L p) q.
Proof.
  unfold meshed, size_at. destruct q as [[x y] z]. cbn. unfold in_mesh. split.
  - intros H. pose proof (H AX). pose proof (H AY). pose proof (H AZ). cbn in *. lia.
  - intros H [| |]; cbn; lia.
Qed.
Lemma locv_inj p l l' : inside L p -> meshed p (snd l) -> meshed p (snd l') -> locv (size_at L p) l = locv (size_at L p) l' -> l = l'.
Proof.
  intros Hp H H' E. apply meshed_in3 in H. apply meshed_in3 in H'. unfold locv in E. injection E as E1 E2. destruct l, l'. cbn in *. f_equal; [exact E1|]. eapply vox3_inj; [apply size_pos, Hp| | |]; eassumption.
Qed.
Lemma recv_plane_range e s n : sign s -> 1 <= n -> 0 <= recv_plane e s n <= n + 1.
Proof. intros [-> | ->] Hn; unfold recv_plane; cbn [Z.ltb Z.compare]; [lia|]. destruct (ghosted e); lia. Qed.
Lemma addr_meshed p a f items c q : inside L p -> 0 <= f <= l_n L a (at_ a p) + 1 -> In (c, q) (addrs (size_at L p) a f items) -> meshed p q.
Proof.
  intros Hp Hf H. apply in_addrs in H. destruct H as (g & ks & _ & _ & H). apply in_plane in H. rewrite !at_size in H. destruct H as (H1 & H2 & H3).
  assert (wide_y g <= 1 /\ wide_z g <= 1) by (destruct g; cbn; lia). intros b. assert (D : b = a \/ b = next a \/ b = next (next a)) by (destruct a, b; tauto). destruct D as [->|[->| ->]]; lia.
Qed.

(* the message under way *)
Lemma find_message e ds (W : Z -> mem V) src r a s m : dirs ds -> In (a, s) ds -> 0 <= src < ws -> send V ws G e src (W src) a s = Some m -> m_dst V m = r ->
  find (fun m => (m_src V m =? src) && (m_dst V m =? r) && (m_tag V m =? port a s)) (messages V ws G e ds W) = Some m.
Proof.
  intros Hds Hin Hsrc Hs Hr.
  assert (S : forall r' a' s' m', send V ws G e r' (W r') a' s' = Some m' -> m_src V m' = r' /\ m_tag V m' = port a' s').
  { unfold send. intros r' a' s' m'. destruct (peer V ws G r' (port a' s')); [|discriminate]. intros Q. injection Q as <-. split; reflexivity. }
  destruct (find _ (messages V ws G e ds W)) as [m'|] eqn:F.
  - apply find_some in F. destruct F as [F1 F2]. unfold messages in F1. apply in_flat_map in F1. destruct F1 as (r' & _ & F1). apply in_flat_map in F1. destruct F1 as ((a' & s') & Hd & F1). cbn [fst snd] in F1.
    destruct (send V ws G e r' (W r') a' s') as [m''|] eqn:E; [|destruct F1]. destruct F1 as [->|[]]. destruct (S _ _ _ _ E) as [S1 S2].
    assert (r' = src) by lia. subst r'. destruct (port_inj a' s' a s) as [-> ->]; [apply (Hds _ Hd)|apply (Hds _ Hin)|lia|]. congruence.
  - exfalso. destruct (S _ _ _ _ Hs) as [S1 S2]. assert (I : In m (messages V ws G e ds W)).
    { unfold messages. apply in_flat_map. exists src. split; [apply in_zrange; exact Hsrc|]. apply in_flat_map. exists (a, s). split; [exact Hin|]. cbn [fst snd]. rewrite Hs. left. reflexivity. }
    pose proof (find_none _ _ F m I) as Q. cbn in Q. rewrite S1, Hr, S2 in Q. lia.
Qed.

Lemma combine_head g a s dr dr' l w F : combine_ V A SyncTangENormB g a s dr l w F = combine_ V A SyncTangENormB g a s dr' l w F.
Proof. reflexivity. Qed.

(* One receive. *)
Definition got (e : exch) (p : cell) (a : axis) (s : Z) (c : comp) (q : cell) : Prop :=
  In (c, q) (addrs (size_at L p) a (recv_plane e s (l_n L a (at_ a p))) (send_items e a)).
Lemma receive_none e ds W p F a s : inside L p -> sign s -> beside L a (at_ a p) (- s) = None -> receive V A ws G e (num p) (messages V ws G e ds W) F a s = Some F.
Proof. intros Hp Hs E. unfold receive. rewrite peer_box by (assumption || (destruct Hs as [-> | ->]; [right|left]; reflexivity)). rewrite E. reflexivity. Qed.
Lemma receive_some e ds W p F a s j : dirs ds -> In (a, s) ds -> inside L p -> sign s -> beside L a (at_ a p) (- s) = Some j ->
  let p' := put a j p in
  exists F', receive V A ws G e (num p) (messages V ws G e ds W) F a s = Some F' /\
    (forall c q, meshed p q -> ~ got e p a s c q -> F' (locv (size_at L p) (c, q)) = F (locv (size_at L p) (c, q))) /\
    (forall c q, got e p a s c q -> F' (locv (size_at L p) (c, q)) =
       combine_ V A e (G (num p)) a s (l_d L a j) (c, q) (W (num p') (locv (size_at L p') (c, put a (send_plane e s (l_n L a j)) q))) F).
Proof.
  intros Hds Hin Hp Hs Ej p'. assert (Hs' : sign (- s)) by (destruct Hs as [-> | ->]; [right|left]; reflexivity).
  pose proof (beside_range a _ _ _ (Hp a) Hs' Ej) as Hj. assert (Hp' : inside L p') by (apply inside_put; assumption).
  pose proof (beside_back a _ _ _ (Hp a) Hs' Ej) as Eb. rewrite Z.opp_involutive in Eb.
  assert (Pd : peer V ws G (num p') (port a s) = Some (num p)).
  { rewrite peer_box by assumption. unfold p'. rewrite at_put_same, Eb, put_put, put_at. reflexivity. }
  assert (T : forall b, b <> a -> at_ b (size_at L p) = at_ b (size_at L p')).
  { intros b Hb. rewrite !at_size. unfold p'. rewrite at_put_other by exact Hb. reflexivity. }
  destruct (next_neq a) as [N1 N2].
  set (m := mk_msg V (num p') (num p) (port a s) (msg_floats e (size_at L p') a) (pack V G e (num p') (W (num p')) a s)).
  assert (Fm : find (fun m => (m_src V m =? num p') && (m_dst V m =? num p) && (m_tag V m =? port a s)) (messages V ws G e ds W) = Some m).
  { apply find_message; [assumption|assumption|apply HB, Hp'| |reflexivity]. unfold send. rewrite Pd, size_box by exact Hp'. reflexivity. }
  unfold receive. rewrite peer_box by assumption. rewrite Ej. fold p'. rewrite Fm.
  assert (Sz : msg_floats e (size_at L p') a = msg_floats e (size_at L p) a). { unfold msg_floats. rewrite !T by assumption. reflexivity. }
  rewrite size_box by exact Hp. cbn [m m_size m_data]. replace (negb (msg_floats e (size_at L p') a =? msg_floats e (size_at L p) a)) with false by lia.
  set (ls := addrs (size_at L p) a (recv_plane e s (at_ a (size_at L p))) (recv_items e a)).
  set (fs := send_plane e s (l_n L a j)).
  set (data := map (fun l => W (num p') (locv (size_at L p') (move a fs l))) ls).
  assert (Dp : pack V G e (num p') (W (num p')) a s = (if has_head e then [l_d L a j] else []) ++ data).
  { unfold pack. rewrite size_box by exact Hp'. f_equal.
    - destruct HB as (_ & _ & _ & _ & H5 & _). rewrite H5 by exact Hp'. unfold p'. rewrite at_put_same. reflexivity.
    - unfold data. rewrite <- (map_map (move a fs) (fun l => W (num p') (locv (size_at L p') l))). f_equal. unfold ls. change (recv_items e a) with (send_items e a).
      replace (send_plane e s (at_ a (size_at L p'))) with fs by (rewrite at_size; unfold p', fs; rewrite at_put_same; reflexivity).
      apply addrs_moved; apply T; assumption. }
  assert (Rr : 0 <= recv_plane e s (at_ a (size_at L p)) <= l_n L a (at_ a p) + 1) by (rewrite at_size; apply recv_plane_range; [exact Hs|apply size_pos_at, Hp]).
  assert (Mesh : forall l, In l ls -> meshed p (snd l)).
  { intros [c q] H. cbn. eapply addr_meshed; [exact Hp|exact Rr|exact H]. }
  assert (ND : NoDup (map (locv (size_at L p)) ls)).
  { assert (N : NoDup ls) by (apply addrs_nodup, items_nodup). clear -N Mesh Hp OK. revert N Mesh. induction ls as [|l ls IH]; intros N Mesh; [constructor|].
    inversion N as [|? ? M1 M2]; subst. cbn. constructor; [|apply IH; [exact M2|intros; apply Mesh; right; assumption]]. intros Q. apply in_map_iff in Q. destruct Q as (l' & E & H).
    apply locv_inj in E; [subst l'; contradiction|exact Hp|apply Mesh; right; exact H|apply Mesh; left; reflexivity]. }
  assert (Dep : forall l w F1 F2, In l ls -> (forall k, k = locv (size_at L p) l \/ ~ In k (map (locv (size_at L p)) ls) -> F1 k = F2 k) ->
    combine_ V A e (G (num p)) a s (l_d L a j) l w F1 = combine_ V A e (G (num p)) a s (l_d L a j) l w F2).
  { intros [c q] w F1 F2 Hl Hk. unfold combine_. rewrite size_box by exact Hp. rewrite (Hk (locv (size_at L p) (c, q))) by (left; reflexivity).
    destruct e; try reflexivity; cbn [fst snd]; do 2 f_equal; apply Hk; right; intros Q; apply in_map_iff in Q; destruct Q as ([c' q'] & E & H'); pose proof Hl as Hl0; apply in_addrs in Hl0; destruct Hl0 as (g & ks & _ & _ & Hq); apply in_plane in Hq;
      pose proof H' as H0; apply in_addrs in H0; destruct H0 as (g' & ks' & _ & _ & Hq'); apply in_plane in Hq'; destruct Hq as [Hq _]; destruct Hq' as [Hq' _];
      pose proof (size_pos_at a p Hp) as Pn; rewrite at_size in Hq, Hq'; unfold recv_plane in Hq, Hq'; cbn [ghosted] in Hq, Hq';
      (apply locv_inj in E; [injection E as _ E; rewrite E in Hq'; rewrite at_put_same in Hq'; destruct Hs as [-> | ->]; cbn [Z.ltb Z.compare] in *; lia|exact Hp|apply (Mesh _ H')|]);
      (intros b; destruct (axis_eqb b a) eqn:Eb'; [assert (b = a) by (destruct a, b; first [reflexivity | discriminate Eb']); subst b; cbn [snd]; rewrite at_put_same; destruct Hs as [-> | ->]; cbn [Z.ltb Z.compare] in *; lia
        |cbn [snd]; rewrite at_put_other by (intros ->; destruct a; discriminate Eb'); apply (Mesh _ Hl)]). }
  assert (Len : length ls = length data) by (unfold data; rewrite map_length; reflexivity).
  assert (exists F', unpack V (combine_ V A e (G (num p)) a s (l_d L a j)) (size_at L p) ls data F = Some F' /\
    (forall k, ~ In k (map (locv (size_at L p)) ls) -> F' k = F k) /\
    (forall l w, In (l, w) (combine ls data) -> F' (locv (size_at L p) l) = combine_ V A e (G (num p)) a s (l_d L a j) l w F)) as (F' & EF & U1 & U2) by (apply unpack_spec; assumption).
  exists F'. split; [|split].
  - rewrite Dp. destruct (has_head e) eqn:Eh; [exact EF|]. cbn [app]. destruct e; try discriminate Eh. exact EF.
  - intros c q Hq Hg. apply U1. intros Q. apply in_map_iff in Q. destruct Q as ([c' q'] & E & H). apply locv_inj in E; [|exact Hp|apply (Mesh _ H)|exact Hq]. injection E as -> ->. apply Hg. unfold got. rewrite <- at_size. exact H.
  - intros c q Hg. unfold got in Hg. rewrite <- at_size in Hg. change (In (c, q) ls) in Hg. apply U2. unfold data. clear -Hg. induction ls as [|l ls IH]; [destruct Hg|]. destruct Hg as [->|Hg]; [left; reflexivity|right; apply IH, Hg].
Qed.
End Box.
