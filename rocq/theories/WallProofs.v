(* Walls of the undivided mesh against walls of the ranks. *)
From Coq Require Import ZArith List Bool Lia ZifyBool.
From Verif Require Import SortModel VoxelModel VoxelProofs GridModel SweepModel FieldModel FieldSpec FieldSweeps FieldBoundaryModel FieldPhysics
  RemoteModel RemoteSpec DecompSpec RemoteProofs RemoteGhost DecompProofs DecompSteps LocalModel LocalSpec LocalProofs WallSpec.
Import ListNotations.
Open Scope Z_scope.
Ltac Zify.zify_post_hook ::= idtac.
Local Notation AT := RemoteModel.at_.

(* moving all positions by a fixed amount *)
Definition moved (k : cell) (q : cell) : cell := (AT AX q + AT AX k, AT AY q + AT AY k, AT AZ q + AT AZ k).
Lemma moved_at k a q : AT a (moved k q) = AT a q + AT a k.
Proof. destruct a; reflexivity. Qed.
Lemma moved_put k a v q : moved k (put a v q) = put a (v + AT a k) (moved k q).
Proof. destruct q as [[x y] z], a; reflexivity. Qed.
Lemma moved_up k a q : moved k (up a q) = up a (moved k q).
Proof. unfold up. rewrite moved_put, moved_at. f_equal. lia. Qed.

Section Values.
Context {V : Type}.
Variable A : arith V.
Variable K : lconst V.
Lemma wall_value_moved e b a t (F : gfield V) k c q : wall_value A K e b a t (fun c q => F c (moved k q)) c q = wall_value A K e b a t F c (moved k q).
Proof.
  unfold wall_value, across, rise. rewrite moved_at. rewrite !moved_up, !moved_put.
  replace (AT a q - t + AT a k) with (AT a q + AT a k - t) by lia. replace (AT a q - 2 * t + AT a k) with (AT a q + AT a k - 2 * t) by lia. reflexivity.
Qed.
Lemma wall_value_same e b a t (F F' : gfield V) c q : (forall c q, F c q = F' c q) -> wall_value A K e b a t F c q = wall_value A K e b a t F' c q.
Proof. intros H. unfold wall_value, across, rise. rewrite !H. reflexivity. Qed.

Variable L : layout V.
Hypothesis OK : layout_ok L.
Variable M : gmesh.
Hypothesis HM : forall a, total L a = gm_n M a /\ l_per L a = gm_per M a.

Lemma gplace_moved p : exists k, forall q, gplace L p q = moved k q.
Proof. exists (gplace L p (0, 0, 0)). intros [[x y] z]. unfold gplace, moved, place. cbn [RemoteModel.at_]. f_equal; [f_equal|]; lia. Qed.
Lemma before_mono a i j : 0 <= i <= j -> j <= l_p L a -> before (l_n L a) (Z.to_nat i) + (j - i) <= before (l_n L a) (Z.to_nat j).
Proof.
  intros Hi Hj. destruct OK as [_ On]. assert (Q : forall k : nat, i + Z.of_nat k <= l_p L a -> before (l_n L a) (Z.to_nat i) + Z.of_nat k <= before (l_n L a) (Z.to_nat (i + Z.of_nat k))).
  { induction k as [|k IH]; intros Hk; [replace (i + Z.of_nat 0) with i by lia; lia|]. specialize (IH ltac:(lia)).
    replace (i + Z.of_nat (S k)) with ((i + Z.of_nat k) + 1) by lia. rewrite before_succ by lia. pose proof (On a (i + Z.of_nat k) ltac:(lia)). lia. }
  specialize (Q (Z.to_nat (j - i)) ltac:(lia)). replace (i + Z.of_nat (Z.to_nat (j - i))) with j in Q by lia. lia.
Qed.
Lemma place_range a p q : inside L p -> 0 <= AT a q <= l_n L a (AT a p) + 1 -> AT a q <= place L a p q <= total L a - l_n L a (AT a p) + AT a q.
Proof.
  intros Hp Hq. pose proof (Hp a) as Ha. unfold place, total. pose proof (before_mono a 0 (AT a p) ltac:(lia) ltac:(lia)). pose proof (before_mono a (AT a p + 1) (l_p L a) ltac:(lia) ltac:(lia)).
  rewrite before_succ in H0 by lia. cbn [Z.to_nat before] in H. lia.
Qed.
Lemma beside_none a i t : 0 <= i < l_p L a -> t = -1 \/ t = 1 -> beside L a i t = None <-> l_per L a = false /\ (if t =? -1 then i = 0 else i = l_p L a - 1).
Proof.
  intros Hi Ht. unfold beside. destruct ((0 <=? i + t) && (i + t <? l_p L a)) eqn:E.
  - split; [discriminate|]. intros [_ H]. exfalso. destruct Ht as [-> | ->]; cbn in H; lia.
  - destruct (l_per L a); split; try discriminate; try (intros [H _]; discriminate); try reflexivity.
    intros _. split; [reflexivity|]. destruct Ht as [-> | ->]; cbn; lia.
Qed.
(* the rank's own face is the face of the mesh *)
Lemma place_rim a t p q : inside L p -> t = -1 \/ t = 1 -> l_per L a = false -> 1 <= AT a q <= l_n L a (AT a p) + 1 ->
  (AT a (gplace L p q) = rim M a t <-> beside L a (AT a p) t = None /\ AT a q = (if t =? -1 then 1 else l_n L a (AT a p) + 1)).
Proof.
  intros Hp Ht Hper Hq. rewrite at_gplace. pose proof (Hp a) as Ha. rewrite (beside_none a _ t Ha Ht), Hper.
  unfold rim, place. destruct (HM a) as [<- _]. unfold total. pose proof (before_mono a 0 (AT a p) ltac:(lia) ltac:(lia)) as B1. pose proof (before_mono a (AT a p + 1) (l_p L a) ltac:(lia) ltac:(lia)) as B2.
  rewrite before_succ in B2 by lia. cbn [Z.to_nat before] in B1. destruct Ht as [-> | ->]; cbn [Z.eqb Pos.eqb].
  - split; [intros; split; [split; [reflexivity|]|]; lia|]. intros [[_ E0] E]. rewrite E0, E. reflexivity.
  - split; [intros; split; [split; [reflexivity|]|]; lia|]. intros [[_ E0] E].
    replace (before (l_n L a) (Z.to_nat (l_p L a))) with (before (l_n L a) (Z.to_nat (AT a p + 1))) by (do 2 f_equal; lia). rewrite before_succ by lia. lia.
Qed.
Lemma place_past a t p q : inside L p -> t = -1 \/ t = 1 -> beside L a (AT a p) t = None -> AT a q = (if t =? -1 then 0 else l_n L a (AT a p) + 1) -> AT a (gplace L p q) = past M a t.
Proof.
  intros Hp Ht Hb Hq. pose proof (Hp a) as Ha. apply (beside_none a _ t Ha Ht) in Hb. destruct Hb as [_ Hi]. rewrite at_gplace. unfold past, place. destruct (HM a) as [<- _]. unfold total.
  destruct Ht as [-> | ->]; cbn [Z.eqb Pos.eqb] in *.
  - rewrite Hi, Hq. reflexivity.
  - replace (before (l_n L a) (Z.to_nat (l_p L a))) with (before (l_n L a) (Z.to_nat (AT a p + 1))) by (do 2 f_equal; lia). rewrite before_succ by lia. lia.
Qed.
Lemma not_past a t p q : inside L p -> 1 <= AT a q <= l_n L a (AT a p) -> t = -1 \/ t = 1 -> AT a (gplace L p q) <> past M a t.
Proof. intros Hp Hq Ht. rewrite at_gplace. pose proof (place_range a p q Hp ltac:(lia)). unfold past. destruct (HM a) as [<- _]. destruct Ht as [-> | ->]; cbn; lia. Qed.

(* ---- values beyond walls ---- *)
Lemma find_none_iff {T} (f : T -> bool) l : find f l = None <-> forall x, In x l -> f x = false.
Proof. split; [intros H x Hx; exact (find_none f l H x Hx)|]. induction l as [|x l IH]; intros H; [reflexivity|]. cbn. rewrite (H x (or_introl eq_refl)). apply IH. intros y Hy. apply H. right. exact Hy. Qed.
Lemma all_faces_in a t : t = -1 \/ t = 1 -> In (a, t) all_faces.
Proof. intros [-> | ->]; destruct a; cbn; tauto. Qed.
Lemma all_faces_sign d : In d all_faces -> snd d = -1 \/ snd d = 1.
Proof. intros H. cbn in H. repeat (destruct H as [<- |H]; [cbn; auto|]). destruct H. Qed.
(* entries that a rank holds are not beyond a wall *)
Lemma ghosts_held e F c p q : inside L p -> holds L c p q -> g_ghosts A K M e F c (gplace L p q) = F c (gplace L p q).
Proof.
  intros Hp Hq. unfold g_ghosts. replace (find _ _) with (@None (axis * Z)); [reflexivity|]. symmetry. apply find_none_iff. intros [a t] Hin. apply all_faces_sign in Hin. cbn [fst snd] in *.
  destruct (gm_per M a); [reflexivity|]. destruct (beyond_comp e a c) eqn:C; [|reflexivity]. cbn [negb andb]. apply beyond_off in C. specialize (Hq a). rewrite C in Hq.
  pose proof (not_past a t p q Hp ltac:(lia) Hin). lia.
Qed.
Lemma beyond_held e a c p q b : beyond_comp e a c = true -> beyond_comp e b c = true -> 1 <= AT b q <= l_n L b (AT b p) + (if node_on c b then 1 else 0) -> 1 <= AT b q <= l_n L b (AT b p).
Proof. intros C C' H. rewrite (beyond_off e b c C') in H. lia. Qed.
Lemma at_size a p : AT a (size_at L p) = l_n L a (AT a p).
Proof. destruct a; reflexivity. Qed.
Lemma ghosts_beyond e F p a t c q : inside L p -> t = -1 \/ t = 1 -> beside L a (AT a p) t = None -> beyond e (size_at L p) a t c q ->
  g_ghosts A K M e F c (gplace L p q) = wall_value A K e (gm_bc M a t) a t F c (gplace L p q).
Proof.
  intros Hp Ht Hb (C & Ha & Hd). rewrite at_size in Ha. unfold g_ghosts.
  assert (Pa : gm_per M a = false) by (apply (beside_none a _ t (Hp a) Ht) in Hb; destruct (HM a) as [_ <-]; tauto).
  pose proof (place_past a t p q Hp Ht Hb Ha) as Pp.
  destruct (find _ all_faces) as [[a' t']|] eqn:E.
  - apply find_some in E. destruct E as [Hin E]. apply all_faces_sign in Hin. cbn [fst snd] in *. apply andb_prop in E. destruct E as [E E3]. apply andb_prop in E. destruct E as [E1 E2]. apply Z.eqb_eq in E3.
    destruct (axis_eq a' a) as [-> | N].
    + rewrite Pp in E3. unfold past in E3. destruct (HM a) as [Ht2 _]. pose proof (place_range a p (put a 1 q) Hp ltac:(rewrite at_put_same; destruct OK as [_ On]; pose proof (On a _ (Hp a)); lia)) as Pr. rewrite at_put_same in Pr.
      destruct OK as [_ On]. pose proof (On a _ (Hp a)). destruct Hin as [-> | ->], Ht as [-> | ->]; cbn in E3; try reflexivity; lia.
    + exfalso. specialize (Hd a' N). rewrite at_size, (beyond_off e a' c E2) in Hd. apply (not_past a' t' p q Hp ltac:(lia) Hin E3).
  - exfalso. apply (find_none _ _ E (a, t)) in Ht as E' || pose proof (find_none _ _ E (a, t) (all_faces_in a t Ht)) as E'. cbn [fst snd] in E'. rewrite Pa, C, Pp, Z.eqb_refl in E'. discriminate.
Qed.
(* values beyond walls from the rank's array *)
Lemma rank_wall_value e F W p a t c q b : inside L p -> t = -1 \/ t = 1 -> beside L a (AT a p) t = None -> beyond e (size_at L p) a t c q ->
  (forall c q, holds L c p q -> W (c, vox3 (size_at L p) q) = F c (gplace L p q)) ->
  (e = GhostTangB -> W (c, vox3 (size_at L p) q) = F c (gplace L p q)) ->
  (e = GhostNormE -> b <> -1 -> b <> -2 -> b <> -3 -> 2 <= l_n L a (AT a p)) ->
  wall_value A K e b a t (fun c q => W (c, vox3 (size_at L p) q)) c q = wall_value A K e b a t F c (gplace L p q).
Proof.
  intros Hp Ht Hb (C & Ha & Hd) Hh Ho Hk. rewrite at_size in Ha. destruct (gplace_moved p) as [k Ek].
  rewrite Ek. rewrite <- wall_value_moved. transitivity (wall_value A K e b a t (fun c q => F c (gplace L p q)) c q); [|apply wall_value_same; intros; rewrite Ek; reflexivity].
  assert (On : 1 <= l_n L a (AT a p)) by (destruct OK as [_ On]; apply On, Hp).
  assert (Near : forall v, 1 <= v <= l_n L a (AT a p) -> holds L c p (put a v q)).
  { intros v Hv d. destruct (axis_eq d a) as [-> | N]; [rewrite at_put_same; destruct (node_on c a); lia|]. rewrite at_put_other by exact N. specialize (Hd d N). rewrite at_size in Hd. exact Hd. }
  assert (Hv : 1 <= AT a q - t <= l_n L a (AT a p)) by (rewrite Ha; destruct Ht as [-> | ->]; cbn; lia).
  assert (Edge : forall d o c', d <> a -> o <> a -> o <> d -> c = cb d -> (c' = e_ o \/ c' = e_ a) -> forall q', AT d q' = AT d q -> (AT a q' = AT a q - t \/ c' = e_ o /\ AT a q' = AT a q - t + 1) ->
            (AT o q' = AT o q \/ c' = e_ a /\ AT o q' = AT o q + 1) -> holds L c' p q').
  { intros d o c' Nd No Nod -> Hc q' Qd Qa Qo. pose proof (Hd d Nd) as Rd. pose proof (Hd o No) as Ro. rewrite at_size in Rd, Ro.
    intros x. destruct a, d, o; try congruence; cbn [cb node_on e_] in *; destruct x, Hc as [-> | ->]; cbn [node_on e_] in *; intuition (try discriminate; lia). }
  apply wall_ext; [exact C|intros E _ _ _; apply Ho, E|apply Hh, Near, Hv| |intros E1 E2 E3 E4; apply Hh, Near; specialize (Hk E1 E2 E3 E4); rewrite Ha; destruct Ht as [-> | ->]; cbn; lia].
  intros d o _ Nd No Nod Ec. set (h := put a (AT a q - t) q).
  assert (Hd1 : AT d h = AT d q) by (apply at_put_other; exact Nd). assert (Ho1 : AT o h = AT o q) by (apply at_put_other; exact No). assert (Ha1 : AT a h = AT a q - t) by apply at_put_same.
  repeat split; apply Hh; apply (Edge d o); try assumption; try tauto; unfold up; rewrite ?at_put_same, ?at_put_other by congruence; rewrite ?Hd1, ?Ho1, ?Ha1; auto; right; split; auto.
Qed.

(* ---- shifts along joined axes ---- *)
Lemma rep_ghosts e F : field_repeats L F -> field_repeats L (g_ghosts A K M e F).
Proof.
  intros Fr c b g Hb. unfold g_ghosts.
  assert (Ef : forall d, negb (gm_per M (fst d)) && beyond_comp e (fst d) c && (AT (fst d) (put b (AT b g + total L b) g) =? past M (fst d) (snd d)) =
                         negb (gm_per M (fst d)) && beyond_comp e (fst d) c && (AT (fst d) g =? past M (fst d) (snd d))).
  { intros [a t]. cbn [fst snd]. destruct (axis_eq a b) as [-> | N]; [destruct (HM b) as [_ E]; rewrite <- E, Hb; reflexivity|]. rewrite at_put_other by exact N. reflexivity. }
  assert (Es : find (fun d => negb (gm_per M (fst d)) && beyond_comp e (fst d) c && (AT (fst d) (put b (AT b g + total L b) g) =? past M (fst d) (snd d))) all_faces =
               find (fun d => negb (gm_per M (fst d)) && beyond_comp e (fst d) c && (AT (fst d) g =? past M (fst d) (snd d))) all_faces).
  { generalize all_faces. intros l. induction l as [|d l IH]; [reflexivity|]. cbn [find]. rewrite Ef, IH. reflexivity. }
  rewrite Es. clear Es Ef. destruct (find _ _) as [[a t]|]; [|apply Fr, Hb].
  set (k := put b (total L b) (0, 0, 0)). assert (Em : forall q, put b (AT b q + total L b) q = moved k q).
  { intros [[x y] z]. unfold k, moved. destruct b; cbn [put RemoteModel.at_]; repeat f_equal; lia. }
  rewrite Em, <- wall_value_moved. apply wall_value_same. intros c' q. rewrite <- Em. apply Fr, Hb.
Qed.
Lemma in_mesh_rep c b g : l_per L b = true -> in_mesh_at M c (put b (AT b g + total L b) g) = in_mesh_at M c g.
Proof.
  intros Hb. assert (Pb : gm_per M b = true) by (destruct (HM b) as [_ <-]; exact Hb). unfold in_mesh_at. cbn [forallb].
  destruct b; rewrite Pb; cbn [orb andb]; destruct g as [[x y] z]; cbn [put RemoteModel.at_]; reflexivity.
Qed.
Lemma rep_within F' F : field_repeats L F' -> field_repeats L F -> field_repeats L (g_within M F' F).
Proof. intros H' H c b g Hb. unfold g_within. rewrite in_mesh_rep by exact Hb. destruct (in_mesh_at M c g); [apply H', Hb|apply H, Hb]. Qed.
Lemma rep_adjust s F : field_repeats L F -> field_repeats L (g_adjust K M s F).
Proof.
  intros H c b g Hb. unfold g_adjust. rewrite (H c b g Hb).
  assert (Ef : forall d, negb (gm_per M (fst d)) && (AT (fst d) (put b (AT b g + total L b) g) =? rim M (fst d) (snd d)) && kept_zero s (fst d) c (gm_bc M (fst d) (snd d)) =
                         negb (gm_per M (fst d)) && (AT (fst d) g =? rim M (fst d) (snd d)) && kept_zero s (fst d) c (gm_bc M (fst d) (snd d))).
  { intros [a t]. cbn [fst snd]. destruct (axis_eq a b) as [-> | N]; [destruct (HM b) as [_ E]; rewrite <- E, Hb; reflexivity|]. rewrite at_put_other by exact N. reflexivity. }
  replace (existsb _ all_faces) with (existsb (fun d => negb (gm_per M (fst d)) && (AT (fst d) g =? rim M (fst d) (snd d)) && kept_zero s (fst d) c (gm_bc M (fst d) (snd d))) all_faces); [reflexivity|].
  generalize all_faces. intros l. induction l as [|d l IH]; [reflexivity|]. cbn [existsb]. rewrite Ef, IH. reflexivity.
Qed.
Lemma held_in_mesh_at c p q : inside L p -> holds L c p q -> in_mesh_at M c (gplace L p q) = true.
Proof.
  intros Hp Hq. unfold in_mesh_at. apply forallb_forall. intros a _. specialize (Hq a). rewrite at_gplace.
  pose proof (place_range a p q Hp ltac:(destruct (node_on c a); lia)). destruct (HM a) as [E _]. destruct (node_on c a); lia.
Qed.
Lemma beyond_not_in_mesh e p a t c q : inside L p -> t = -1 \/ t = 1 -> beside L a (AT a p) t = None -> beyond e (size_at L p) a t c q -> in_mesh_at M c (gplace L p q) = false.
Proof.
  intros Hp Ht Hb (C & Ha & _). rewrite at_size in Ha. pose proof (place_past a t p q Hp Ht Hb Ha) as Pp. apply not_true_is_false. intros H. unfold in_mesh_at in H.
  apply (proj1 (forallb_forall _ _)) with (x := a) in H; [|destruct a; cbn; tauto]. rewrite Pp, (beyond_off e a c C) in H.
  apply (beside_none a _ t (Hp a) Ht) in Hb. destruct (HM a) as [_ Pe]. rewrite <- Pe in H. destruct Hb as [Hb _]. rewrite Hb in H. unfold past in H. destruct Ht as [-> | ->]; cbn in H; lia.
Qed.
End Values.
