From Coq Require Import ZArith List Bool Lia ZifyBool.
From Verif Require Import SortModel VoxelModel VoxelProofs GridModel GridProofs FieldModel FieldBoundaryModel RemoteModel RemoteSpec RemoteProofs RemoteGhost DecompSpec LocalModel LocalSpec.
Import ListNotations.
Open Scope Z_scope.
Ltac Zify.zify_post_hook ::= idtac.

(* ---------- a sequence of stores whose values do not depend on the other stores ---------- *)
Section Exec.
Context {V : Type}.
Definition wr : Type := floc * (mem V -> V).
Definition store1 (F : mem V) (w : wr) : mem V := fun k => if floc_eqb k (fst w) then snd w F else F k.
Lemma exec_ok : forall (ws : list wr) F, NoDup (map fst ws) ->
  (forall w F', In w ws -> (forall k, k = fst w \/ ~ In k (map fst ws) -> F' k = F k) -> snd w F' = snd w F) ->
  (forall w, In w ws -> fold_left store1 ws F (fst w) = snd w F) /\ forall k, ~ In k (map fst ws) -> fold_left store1 ws F k = F k.
Proof.
  assert (Out : forall (ws : list wr) F k, ~ In k (map fst ws) -> fold_left store1 ws F k = F k).
  { induction ws as [|w ws IH]; intros F k N; [reflexivity|]. cbn [fold_left]. rewrite IH by (intros H; apply N; right; exact H). unfold store1.
    destruct (floc_eqb k (fst w)) eqn:E; [|reflexivity]. apply floc_eqb_true in E. exfalso. apply N. left. congruence. }
  intros ws F N H. split; [|intros k; apply Out].
  assert (G : forall (done todo : list wr) F', ws = done ++ todo -> (forall k, ~ In k (map fst done) -> F' k = F k) -> forall w, In w todo -> fold_left store1 todo F' (fst w) = snd w F).
  { intros done todo. revert done. induction todo as [|w todo IH]; intros done F' E A w' Hw; [destruct Hw|].
    assert (Nd : NoDup (map fst done ++ fst w :: map fst todo)) by (rewrite E, map_app in N; exact N).
    assert (Vw : snd w F' = snd w F).
    { apply H; [rewrite E; apply in_app_iff; right; left; reflexivity|]. intros k [-> | Nk]; apply A.
      - apply NoDup_remove_2 in Nd. intros Q. apply Nd, in_app_iff. left. exact Q.
      - intros Q. apply Nk. rewrite E, map_app. apply in_app_iff. left. exact Q. }
    cbn [fold_left]. destruct Hw as [<- | Hw].
    - rewrite Out; [unfold store1; rewrite (proj2 (floc_eqb_true _ _) eq_refl); exact Vw|]. apply NoDup_remove_2 in Nd. intros Q. apply Nd, in_app_iff. right. exact Q.
    - apply (IH (done ++ [w])); [rewrite <- app_assoc; exact E| |exact Hw]. intros k Nk. rewrite map_app in Nk. cbn [map] in Nk. unfold store1.
      destruct (floc_eqb k (fst w)) eqn:Ek; [apply floc_eqb_true in Ek; exfalso; apply Nk, in_app_iff; right; left; congruence|]. apply A. intros Q. apply Nk, in_app_iff. left. exact Q. }
  intros w Hw. apply (G [] ws F eq_refl); [reflexivity|exact Hw].
Qed.
End Exec.

Section Walls.
Context {V : Type}.
Variable A : arith V.
Variable K : lconst V.
Variable ws : Z.
Variable g : cgrid V.
Notation n := (c_n V g).
Hypothesis Hn : forall a, 1 <= at_ a n.

Definition meshed3 (q : cell) : Prop := forall a, 0 <= at_ a q <= at_ a n + 1.
Lemma meshed3_in q : meshed3 q <-> in3 n q.
Proof.
  unfold meshed3. destruct n as [[x y] z], q as [[u v] w]. cbn [in3]. unfold in_mesh. split; intros H.
  - pose proof (H AX); pose proof (H AY); pose proof (H AZ). cbn in *. lia.
  - intros [| |]; cbn; lia.
Qed.
Lemma loc_inj l l' : meshed3 (snd l) -> meshed3 (snd l') -> locv n l = locv n l' -> l = l'.
Proof.
  destruct l as [c q], l' as [c' q']. cbn [snd]. intros M M' E. unfold locv in E. cbn [fst snd] in E. injection E as -> E. f_equal.
  apply (vox3_inj n); [|apply meshed3_in; assumption|apply meshed3_in; assumption|exact E].
  pose proof (Hn AX); pose proof (Hn AY); pose proof (Hn AZ). destruct n as [[x y] z]. cbn in *. lia.
Qed.

Definition comps (its : list (region * list (stmt V))) : list (region * list comp) := map (fun it => (fst it, map fst (snd it))) its.
Definition writes (a : axis) (t : Z) (its : list (region * list (stmt V))) : list (@wr V) :=
  flat_map (fun it => flat_map (fun q => map (fun s => (locv n (fst s, q), fun F => snd s F q)) (snd it)) (plane n a (fst it) (ghost_at V g a t))) its.
Lemma fold_flat {T U S} (f : S -> U -> S) (h : T -> list U) l : forall s, fold_left f (flat_map h l) s = fold_left (fun s x => fold_left f (h x) s) l s.
Proof. induction l as [|x l IH]; intros s; [reflexivity|]. cbn [flat_map fold_left]. rewrite fold_left_app, IH. reflexivity. Qed.
Lemma fold_map {T U S} (f : S -> U -> S) (h : T -> U) l : forall s, fold_left f (map h l) s = fold_left (fun s x => f s (h x)) l s.
Proof. induction l as [|x l IH]; intros s; [reflexivity|]. cbn. apply IH. Qed.
Lemma fold_ext {T S} (f h : S -> T -> S) l : (forall s x, f s x = h s x) -> forall s, fold_left f l s = fold_left h l s.
Proof. intros E. induction l as [|x l IH]; intros s; [reflexivity|]. cbn. rewrite E. apply IH. Qed.
Lemma loops_writes a t its F : fold_left (do_loop V g a t) its F = fold_left store1 (writes a t its) F.
Proof.
  unfold writes. rewrite fold_flat. apply fold_ext. intros F1 it. unfold do_loop. rewrite fold_flat. apply fold_ext. intros F2 q. rewrite fold_map. apply fold_ext. intros F3 s. reflexivity.
Qed.
Lemma writes_locs a t its : map fst (writes a t its) = map (locv n) (addrs n a (ghost_at V g a t) (comps its)).
Proof.
  unfold writes, addrs, comps. rewrite !map_flat. induction its as [|it its IH]; [reflexivity|]. cbn [flat_map map]. rewrite IH. f_equal. cbn [fst snd]. rewrite !map_flat.
  apply flat_map_ext. intros q. rewrite !map_map. reflexivity.
Qed.
Lemma in_writes a t its w : In w (writes a t its) <-> exists r ss s q, In (r, ss) its /\ In s ss /\ In q (plane n a r (ghost_at V g a t)) /\ w = (locv n (fst s, q), fun F => snd s F q).
Proof.
  unfold writes. rewrite in_flat_map. split.
  - intros ((r & ss) & H1 & H2). cbn [fst snd] in H2. rewrite in_flat_map in H2. destruct H2 as (q & Hq & H3). apply in_map_iff in H3. destruct H3 as (s & <- & Hs). exists r, ss, s, q. tauto.
  - intros (r & ss & s & q & H1 & H2 & H3 & ->). exists (r, ss). split; [exact H1|]. cbn [fst snd]. rewrite in_flat_map. exists q. split; [exact H3|]. apply in_map_iff. exists s. tauto.
Qed.
Lemma wall_comps e a t b its : wall_loops V A K g e a t b = Some its ->
  (b = -1 \/ b = -2 \/ b = -3 \/ b = -4) /\ NoDup (comps_of (comps its)) /\
  forall c q, In (c, q) (addrs n a (ghost_at V g a t) (comps its)) <-> beyond_comp e a c = true /\ at_ a q = ghost_at V g a t /\ forall d, d <> a -> 1 <= at_ d q <= at_ d n + (if node_on c d then 1 else 0).
Proof.
  intros H.
  assert (Hb : b = -1 \/ b = -2 \/ b = -3 \/ b = -4).
  { unfold wall_loops in H. destruct e; try discriminate H; destruct b as [|?|b]; try discriminate H; destruct b as [[b|b|]|[b|[b|b|]|]|]; try discriminate H; lia. }
  split; [exact Hb|].
  assert (E : comps its = match e with
     | GhostTangB => [(ZYedge, [cb (next a)]); (YZedge, [cb (next (next a))])]
     | GhostNormE => [(Node, [e_ a; tca a])] | _ => [(Face, [DivB])] end /\ ghosted e = true).
  { destruct Hb as [-> |[-> |[-> | ->]]]; destruct e; try discriminate H; injection H as <-; split; reflexivity. }
  destruct E as [E Eg]. rewrite E. split.
  - destruct e; try discriminate Eg; destruct a; cbn; repeat (constructor; [cbn; intuition discriminate|]); constructor.
  - intros c q. rewrite in_addrs. split.
    + intros (r & ks & Hi & Hc & Hq). apply in_plane in Hq.
      destruct e; try discriminate Eg; cbn [In] in Hi; repeat (destruct Hi as [Hi|Hi]); try contradiction; injection Hi as <- <-; cbn [In] in Hc; repeat (destruct Hc as [Hc|Hc]); try contradiction; subst c;
        (split; [destruct a; reflexivity|]); (split; [apply Hq|]); intros d Nd; destruct a, d; try contradiction; cbn [node_on cb e_ tca next wide_y wide_z] in *; lia.
    + intros (Hc & Hq & Hd).
      assert (X : forall r ks, In (r, ks) (match e with
          | GhostTangB => [(ZYedge, [cb (next a)]); (YZedge, [cb (next (next a))])]
          | GhostNormE => [(Node, [e_ a; tca a])] | _ => [(Face, [DivB])] end) -> In c ks ->
          (if node_on c (next a) then 1 else 0) <= wide_y r -> (if node_on c (next (next a)) then 1 else 0) <= wide_z r ->
          exists r ks, In (r, ks) (match e with
          | GhostTangB => [(ZYedge, [cb (next a)]); (YZedge, [cb (next (next a))])]
          | GhostNormE => [(Node, [e_ a; tca a])] | _ => [(Face, [DivB])] end) /\ In c ks /\ In q (plane n a r (ghost_at V g a t))).
      { intros r ks Hi Hk W1 W2. exists r, ks. split; [exact Hi|]. split; [exact Hk|]. apply in_plane. split; [exact Hq|]. destruct (next_neq a) as [N1 N2]. pose proof (Hd _ N1). pose proof (Hd _ N2). lia. }
      destruct e; try discriminate Eg; destruct a, c; try discriminate Hc; cbn [next cb e_ tca] in *;
        first [eapply X; [left; reflexivity|cbn; tauto|cbn; lia|cbn; lia] | eapply X; [right; left; reflexivity|cbn; tauto|cbn; lia|cbn; lia]].
Qed.

(* ---------- the statements give the values beyond the wall ---------- *)
Lemma step_put a s q : step a s q = put a (at_ a q + s) q.
Proof. reflexivity. Qed.
Lemma up_put a q v : up a (put a v q) = put a (v + 1) q.
Proof. unfold up. rewrite at_put_same, put_put. reflexivity. Qed.
Lemma step_step a b s t q : a <> b -> step a s (step b t q) = step b t (step a s q).
Proof. intros N. unfold step. destruct q as [[x y] z], a, b; try contradiction; reflexivity. Qed.
Lemma face_low a q : at_ a q = 0 -> put a 1 q = put a (at_ a q - -1) q.
Proof. intros ->. reflexivity. Qed.
Lemma stmt_value e a t b its r ss s q F : sign t -> wall_loops V A K g e a t b = Some its -> In (r, ss) its -> In s ss -> at_ a q = ghost_at V g a t ->
  snd s F q = wall_value A K e b a t (rd V g F) (fst s) q.
Proof.
  intros Ht Hw Hi Hs Hq. destruct (wall_comps e a t b its Hw) as (Hb & _ & _).
  set (h := put a (at_ a q - t) q).
  assert (Eh : step a (- t) q = h) by (unfold step, h; f_equal; lia).
  assert (Eo : forall o, o <> a -> step a (- t) (step o 1 q) = up o h).
  { intros o No. rewrite step_step by congruence. rewrite Eh. reflexivity. }
  assert (E2 : step a (- t * 2) q = put a (at_ a q - 2 * t) q) by (unfold step; f_equal; lia).
  assert (Ef : (t = -1 /\ put a (face_at V g a t) q = h /\ step a (- t) (put a (face_at V g a t) q) = up a h) \/
               (t = 1 /\ put a (face_at V g a t) q = up a h /\ step a (- t) (put a (face_at V g a t) q) = h)).
  { unfold h, up, step. rewrite !at_put_same, !put_put, Hq. unfold face_at, ghost_at. destruct Ht as [-> | ->]; [left|right]; (split; [reflexivity|]); split; f_equal; cbn; lia. }
  destruct (next_neq a) as [N1 N2].
  unfold wall_value. fold h.
  destruct Hb as [-> |[-> |[-> | ->]]]; destruct e; try discriminate Hw; injection Hw as <-; cbn [In] in Hi; repeat (destruct Hi as [Hi|Hi]); try contradiction; injection Hi as <- <-;
    cbn [In] in Hs; repeat (destruct Hs as [Hs|Hs]); try contradiction; subst s; unfold mirror, flipped, extrapolated, absorb_Y, absorb_Z; cbn [fst snd Z.eqb Pos.eqb orb]; rewrite ?Eh, ?E2; try reflexivity.
  - rewrite (Eo _ N2). destruct Ef as [(-> & Ef1 & Ef2)|(-> & Ef1 & Ef2)]; rewrite Ef2, Ef1; destruct a; reflexivity.
  - rewrite (Eo _ N1). destruct Ef as [(-> & Ef1 & Ef2)|(-> & Ef1 & Ef2)]; rewrite Ef2, Ef1; destruct a; reflexivity.
Qed.
Lemma wall_ext e b a t (R R' : comp -> cell -> V) c q :
  let h := put a (at_ a q - t) q in
  beyond_comp e a c = true -> (e = GhostTangB -> b <> -1 -> b <> -2 -> b <> -3 -> R c q = R' c q) -> R c h = R' c h ->
  (forall d o, e = GhostTangB -> d <> a -> o <> a -> o <> d -> c = cb d ->
     R (e_ o) h = R' (e_ o) h /\ R (e_ o) (up a h) = R' (e_ o) (up a h) /\ R (e_ a) h = R' (e_ a) h /\ R (e_ a) (up o h) = R' (e_ a) (up o h)) ->
  (e = GhostNormE -> b <> -1 -> b <> -2 -> b <> -3 -> R c (put a (at_ a q - 2 * t) q) = R' c (put a (at_ a q - 2 * t) q)) ->
  wall_value A K e b a t R c q = wall_value A K e b a t R' c q.
Proof.
  intros h Hc Hq Hh He H2. unfold wall_value. fold h. rewrite Hh. destruct (Z.eqb_spec b (-1)) as [|B1]; [reflexivity|].
  destruct (Z.eqb_spec b (-2)) as [|B2]; [reflexivity|]. destruct (Z.eqb_spec b (-3)) as [|B3]; [reflexivity|]. cbn [orb].
  destruct e; try discriminate Hc; [|rewrite H2 by (try reflexivity; assumption); reflexivity|reflexivity].
  rewrite Hq by (try reflexivity; assumption). unfold across, rise.
  destruct a, c; try discriminate Hc;
    [destruct (He AY AZ) as (X1 & X2 & X3 & X4) | destruct (He AZ AY) as (X1 & X2 & X3 & X4) | destruct (He AX AZ) as (X1 & X2 & X3 & X4) | destruct (He AZ AX) as (X1 & X2 & X3 & X4)
    |destruct (He AX AY) as (X1 & X2 & X3 & X4) | destruct (He AY AX) as (X1 & X2 & X3 & X4)]; try reflexivity; try discriminate; cbn [e_] in *; rewrite X1, X2, X3, X4; reflexivity.
Qed.

Lemma nodup_map_in {T U} (f : T -> U) l : (forall x y, In x l -> In y l -> f x = f y -> x = y) -> NoDup l -> NoDup (map f l).
Proof.
  induction l as [|x l IH]; intros Hf N; [constructor|]. inversion N as [|? ? N1 N2]; subst. cbn. constructor.
  - intros H. apply in_map_iff in H. destruct H as (y & E & Hy). apply N1. rewrite <- (Hf y x); [exact Hy|right; exact Hy|left; reflexivity|exact E].
  - apply IH; [|exact N2]. intros u v Hu Hv. apply Hf; right; assumption.
Qed.
Lemma ghost_range a t : sign t -> 0 <= ghost_at V g a t <= at_ a n + 1.
Proof. intros [-> | ->]; unfold ghost_at; cbn; pose proof (Hn a); lia. Qed.
Lemma beyond_ghost e a t c q : sign t -> beyond e n a t c q <-> beyond_comp e a c = true /\ at_ a q = ghost_at V g a t /\ forall d, d <> a -> 1 <= at_ d q <= at_ d n + (if node_on c d then 1 else 0).
Proof. intros [-> | ->]; reflexivity. Qed.
Lemma axis_eq (a b : axis) : a = b \/ a <> b.
Proof. destruct a, b; first [left; reflexivity | right; discriminate]. Qed.
Lemma beyond_mesh e a t c q : sign t -> beyond e n a t c q -> meshed3 q.
Proof.
  intros Ht H d. apply beyond_ghost in H; [|exact Ht]. destruct H as (_ & Ha & Hd). destruct (axis_eq d a) as [-> | N]; [rewrite Ha; apply ghost_range, Ht|]. specialize (Hd d N). destruct (node_on c d); lia.
Qed.
(* entries of different faces, and of a face and inside, are different *)
Lemma beyond_off e a c : beyond_comp e a c = true -> node_on c a = false.
Proof. destruct e, a, c; cbn; congruence. Qed.
Lemma beyond_apart e a t a' t' c q : sign t -> sign t' -> beyond e n a t c q -> beyond e n a' t' c q -> a = a' /\ t = t'.
Proof.
  intros Ht Ht' H H'. apply beyond_ghost in H; [|exact Ht]. apply beyond_ghost in H'; [|exact Ht']. destruct H as (C & Ha & Hd), H' as (C' & Ha' & Hd').
  destruct (axis_eq a a') as [-> | N].
  - split; [reflexivity|]. pose proof (Hn a'). rewrite Ha in Ha'. unfold ghost_at in Ha'. destruct Ht as [-> | ->], Ht' as [-> | ->]; cbn in Ha'; lia.
  - exfalso. specialize (Hd a' ltac:(congruence)). rewrite (beyond_off e a' c C') in Hd. unfold ghost_at in Ha'. destruct Ht' as [-> | ->]; cbn in Ha'; lia.
Qed.

(* values for one face, from array F; F' is only read at inner entries and at the entry itself *)
Definition thick (e : exch) (a : axis) (b : Z) : Prop := e = GhostNormE -> b = -4 -> 2 <= at_ a n.
Lemma inner_range a t q : sign t -> at_ a q = ghost_at V g a t -> 1 <= at_ a q - t <= at_ a n.
Proof. intros [-> | ->] ->; unfold ghost_at; cbn; pose proof (Hn a); lia. Qed.
Lemma second_range a t q : sign t -> at_ a q = ghost_at V g a t -> 2 <= at_ a n -> 1 <= at_ a q - 2 * t <= at_ a n.
Proof. intros [-> | ->] -> ; unfold ghost_at; cbn; lia. Qed.
(* the array with the entry beyond face (a,t) kept and others beyond walls possibly changed gives the same value *)
Lemma wall_stable e a t b F F' c q : sign t -> (b = -1 \/ b = -2 \/ b = -3 \/ b = -4) -> thick e a b -> beyond e n a t c q -> (e = GhostTangB -> b = -4 -> F' (locv n (c, q)) = F (locv n (c, q))) ->
  (forall k, (forall a' t' c' q', sign t' -> beyond e n a' t' c' q' -> k <> locv n (c', q')) -> F' k = F k) ->
  wall_value A K e b a t (rd V g F') c q = wall_value A K e b a t (rd V g F) c q.
Proof.
  intros Ht Hb Th Hq Own Rest.
  assert (In_ : forall c' q', meshed3 q' -> (forall d, beyond_comp e d c' = true -> 1 <= at_ d q' <= at_ d n) -> rd V g F' c' q' = rd V g F c' q').
  { intros c' q' M H. unfold rd. apply Rest. intros a1 t1 c1 q1 Ht1 B1 E. apply loc_inj in E; [|exact M|exact (beyond_mesh _ _ _ _ _ Ht1 B1)]. injection E as -> ->.
    apply beyond_ghost in B1; [|exact Ht1]. destruct B1 as (C1 & P1 & _). specialize (H a1 C1). unfold ghost_at in P1. destruct Ht1 as [-> | ->]; cbn in P1; lia. }
  assert (Ne : forall c' q', (forall d, beyond_comp e d c' = false) -> rd V g F' c' q' = rd V g F c' q').
  { intros c' q' H. unfold rd. apply Rest. intros a1 t1 c1 q1 _ [B1 _] E. injection E as -> _. rewrite H in B1. discriminate. }
  pose proof (beyond_mesh _ _ _ _ _ Ht Hq) as Mq. apply beyond_ghost in Hq; [|exact Ht]. destruct Hq as (C & Ha & Hd).
  assert (Near : forall v, 1 <= v <= at_ a n -> rd V g F' c (put a v q) = rd V g F c (put a v q)).
  { intros v Hv. apply In_.
    - intros d. destruct (axis_eq d a) as [-> | N]; [rewrite at_put_same; lia|rewrite at_put_other by exact N; apply Mq].
    - intros d Cd. destruct (axis_eq d a) as [-> | N]; [rewrite at_put_same; lia|]. rewrite at_put_other by exact N. specialize (Hd d N). rewrite (beyond_off e d c Cd) in Hd. lia. }
  apply wall_ext.
  - exact C.
  - intros Ee B1 B2 B3. apply Own; [exact Ee|tauto].
  - apply Near. apply inner_range; assumption.
  - intros d o -> _ _ _ _. repeat split; apply Ne; intros a'; destruct o, a, a'; reflexivity.
  - intros Ee B1 B2 B3. assert (Hb4 : b = -4) by tauto. apply Near. apply second_range; [assumption|assumption|apply Th; [exact Ee|exact Hb4]].
Qed.
Lemma face_ok e a t b its F : sign t -> wall_loops V A K g e a t b = Some its -> thick e a b ->
  (forall c q, beyond e n a t c q -> fold_left (do_loop V g a t) its F (locv n (c, q)) = wall_value A K e b a t (rd V g F) c q) /\
  (forall l, (forall c q, beyond e n a t c q -> l <> locv n (c, q)) -> fold_left (do_loop V g a t) its F l = F l).
Proof.
  intros Ht Hw Th. destruct (wall_comps e a t b its Hw) as (Hb & Nd & Ad). rewrite loops_writes.
  assert (Nl : NoDup (map fst (writes a t its))).
  { rewrite writes_locs. apply nodup_map_in; [|apply addrs_nodup, Nd]. intros [c q] [c' q'] H H' E. apply Ad in H, H'. apply loc_inj; [| |exact E]; cbn [snd]; eapply (beyond_mesh e a t); try exact Ht; apply beyond_ghost; try exact Ht; eassumption. }
  assert (Il : forall l, In l (map fst (writes a t its)) <-> exists c q, beyond e n a t c q /\ l = locv n (c, q)).
  { intros l. rewrite writes_locs, in_map_iff. split.
    - intros ([c q] & <- & H). apply Ad in H. exists c, q. split; [apply beyond_ghost; assumption|reflexivity].
    - intros (c & q & H & ->). exists (c, q). split; [reflexivity|]. apply Ad. apply beyond_ghost in H; assumption. }
  destruct (exec_ok (writes a t its) F Nl) as [E1 E2].
  - intros w F' Hw' Ag. pose proof Hw' as Hw2. apply in_writes in Hw'. destruct Hw' as (r & ss & s & q & H1 & H2 & H3 & ->). cbn [fst snd] in *.
    assert (Hq : at_ a q = ghost_at V g a t) by (apply in_plane in H3; apply H3).
    rewrite !(stmt_value e a t b its r ss s q) by assumption.
    assert (Bq : beyond e n a t (fst s) q).
    { apply beyond_ghost; [exact Ht|]. apply Ad. apply in_addrs. exists r, (map fst ss). split; [|split; [apply in_map, H2|exact H3]]. unfold comps. apply (in_map (fun it => (fst it, map fst (snd it)))) in H1. exact H1. }
    apply wall_stable; [assumption|assumption|assumption|assumption|intros _ _; apply Ag; left; reflexivity|].
    intros k Hk. apply Ag. right. intros Hin. apply Il in Hin. destruct Hin as (c' & q' & B' & ->). exact (Hk a t c' q' Ht B' eq_refl).
  - split.
    + intros c q Bq. assert (Hin : In (c, q) (addrs n a (ghost_at V g a t) (comps its))) by (apply Ad; apply beyond_ghost in Bq; assumption).
      apply in_addrs in Hin. destruct Hin as (r & ks & H1 & H2 & H3). unfold comps in H1. apply in_map_iff in H1. destruct H1 as ((r' & ss) & E & H1). cbn [fst snd] in E. injection E as -> <-.
      apply in_map_iff in H2. destruct H2 as (s & <- & H2).
      assert (Hwr : In (locv n (fst s, q), fun F => snd s F q) (writes a t its)) by (apply in_writes; exists r, ss, s, q; tauto).
      pose proof (E1 _ Hwr) as X. cbn [fst snd] in X. rewrite X. apply (stmt_value e a t b its r ss s q); try assumption. apply in_plane in H3. apply H3.
    + intros l Hl. apply E2. intros Hin. apply Il in Hin. destruct Hin as (c & q & B & ->). exact (Hl c q B eq_refl).
Qed.

(* ---------- all faces ---------- *)
Definition is_wall (a : axis) (t : Z) : Prop := c_bc V g (port a t) < 0 \/ ws <= c_bc V g (port a t).
Lemma faces_ok e : (forall a t, sign t -> is_wall a t -> thick e a (c_bc V g (port a t))) -> forall ds F F', dirs ds -> NoDup ds -> local_faces V A K ws g e ds F = Some F' ->
  (forall a t c q, In (a, t) ds -> is_wall a t -> beyond e n a t c q -> F' (locv n (c, q)) = wall_value A K e (c_bc V g (port a t)) a t (rd V g F) c q) /\
  (forall l, (forall a t c q, In (a, t) ds -> is_wall a t -> beyond e n a t c q -> l <> locv n (c, q)) -> F' l = F l).
Proof.
  intros Th. induction ds as [|[a t] ds IH]; intros F F' Hd Nd H; cbn [local_faces] in H.
  - injection H as <-. split; [intros a t c q []|reflexivity].
  - assert (Ht : sign t) by (apply (Hd (a, t)); left; reflexivity).
    destruct (local_face V A K ws g e (a, t) F) as [F1|] eqn:E1; [|discriminate]. inversion Nd as [|? ? N1 N2]; subst.
    destruct (IH F1 F' ltac:(intros d Hin; apply Hd; right; exact Hin) N2 H) as [I1 I2].
    assert (St : (forall c q, is_wall a t -> beyond e n a t c q -> F1 (locv n (c, q)) = wall_value A K e (c_bc V g (port a t)) a t (rd V g F) c q) /\
                 (forall l, (is_wall a t -> forall c q, beyond e n a t c q -> l <> locv n (c, q)) -> F1 l = F l) /\ (is_wall a t -> exists its, wall_loops V A K g e a t (c_bc V g (port a t)) = Some its)).
    { unfold local_face in E1. unfold is_wall in *. destruct ((c_bc V g (port a t) <? 0) || (ws <=? c_bc V g (port a t))) eqn:W.
      - destruct (wall_loops V A K g e a t (c_bc V g (port a t))) as [its|] eqn:Ew; [|discriminate]. injection E1 as <-.
        destruct (face_ok e a t _ its F Ht Ew (Th a t Ht ltac:(unfold is_wall; lia))) as [O1 O2]. split; [intros; apply O1; assumption|]. split; [intros l Hl; apply O2; apply Hl; lia|intros _; exists its; reflexivity].
      - injection E1 as <-. split; [intros; lia|]. split; [reflexivity|lia]. }
    destruct St as (S1 & S2 & S3). split.
    + intros a' t' c q [Q|Q] Hw B.
      * injection Q as <- <-. rewrite I2; [apply S1; assumption|]. intros a2 t2 c2 q2 Hin W2 B2 E. assert (Ht2 : sign t2) by (apply (Hd (a2, t2)); right; exact Hin).
        apply loc_inj in E; [|exact (beyond_mesh _ _ _ _ _ Ht B)|exact (beyond_mesh _ _ _ _ _ Ht2 B2)]. injection E as <- <-. destruct (beyond_apart e a t a2 t2 c q Ht Ht2 B B2) as [<- <-]. contradiction.
      * rewrite (I1 a' t' c q Q Hw B). assert (Ht' : sign t') by (apply (Hd (a', t')); right; exact Q).
        assert (F1 (locv n (c, q)) = F (locv n (c, q))).
        { apply S2. intros _ c2 q2 B2 E. apply loc_inj in E; [|exact (beyond_mesh _ _ _ _ _ Ht' B)|exact (beyond_mesh _ _ _ _ _ Ht B2)]. injection E as <- <-. destruct (beyond_apart e a t a' t' c q Ht Ht' B2 B) as [<- <-]. contradiction. }
        destruct (wall_loops V A K g e a' t' (c_bc V g (port a' t'))) as [its|] eqn:Ew.
        -- destruct (wall_comps e a' t' _ its Ew) as (Hb & _). apply wall_stable; try assumption; [apply Th; assumption|intros _ _; assumption|]. intros k Hk. apply S2. intros _ c2 q2 B2. apply (Hk a t c2 q2 Ht B2).
        -- exfalso. clear - Ew H Q Hw. revert F1 H. induction ds as [|[a2 t2] ds IH]; intros F1 H; [destruct Q|]. cbn [local_faces] in H.
           destruct (local_face V A K ws g e (a2, t2) F1) as [F2|] eqn:E2; [|discriminate]. destruct Q as [Q|Q]; [|exact (IH Q F2 H)]. injection Q as -> ->.
           unfold local_face in E2. rewrite Ew in E2. unfold is_wall in Hw. destruct ((c_bc V g (port a' t') <? 0) || (ws <=? c_bc V g (port a' t'))) eqn:W; [discriminate|lia].
    + intros l Hl. rewrite I2; [apply S2; intros Hw c q; apply Hl; [left; reflexivity|exact Hw]|]. intros a2 t2 c2 q2 Hin. apply Hl. right. exact Hin.
Qed.
Lemma faces_some e : ghosted e = true -> forall ds F, local_faces V A K ws g e ds F <> None <->
  forall a t, In (a, t) ds -> is_wall a t -> -4 <= c_bc V g (port a t) <= -1.
Proof.
  intros Hg.
  assert (W : forall a t b, wall_loops V A K g e a t b <> None <-> -4 <= b <= -1).
  { intros a t b. split.
    - destruct (wall_loops V A K g e a t b) as [its|] eqn:E; [|congruence]. intros _. destruct (wall_comps e a t b its E) as (Hb & _). lia.
    - intros Hb. assert (b = -1 \/ b = -2 \/ b = -3 \/ b = -4) as [-> |[-> |[-> | ->]]] by lia; destruct e; try discriminate Hg; discriminate. }
  induction ds as [|[a t] ds IH]; intros F; cbn [local_faces]; [split; [intros _ a t []|discriminate]|].
  unfold local_face at 1. unfold is_wall in *. destruct ((c_bc V g (port a t) <? 0) || (ws <=? c_bc V g (port a t))) eqn:Ew.
  - specialize (W a t (c_bc V g (port a t))). destruct (wall_loops V A K g e a t (c_bc V g (port a t))) as [its|].
    + rewrite IH. split; intros H a' t' Q.
      * destruct Q as [Q|Q]; [injection Q as <- <-; intros _; apply W; discriminate|apply H, Q].
      * apply H. right. exact Q.
    + split; [congruence|]. intros H _. apply (proj2 W); [|reflexivity]. apply H; [left; reflexivity|lia].
  - rewrite IH. split; intros H a' t' Q.
    + destruct Q as [Q|Q]; [injection Q as <- <-; lia|apply H, Q].
    + apply H. right. exact Q.
Qed.
End Walls.
