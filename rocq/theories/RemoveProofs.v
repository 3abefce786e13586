(* Removal by back-filling, and what boundary_p does with the movers. *)
Require Import ZArith List Bool Lia ZifyBool Permutation Sorting.Sorted.
Require Import Verif.ParticleModel Verif.MoverModel.
Import ListNotations.
Open Scope Z_scope.

Section Rem.
Context {A : Type}.

Lemma put_nth (l : list A) : forall i x k, (i < length l)%nat ->
  nth_error (put l i x) k = if (k =? i)%nat then Some x else nth_error l k.
Proof.
  unfold put. induction l as [|a l IH]; intros i x k H; [cbn in H; lia|].
  destruct i as [|i]; cbn [firstn skipn app].
  - destruct k; reflexivity.
  - destruct k; [reflexivity|]. cbn [nth_error]. change ((S k =? S i)%nat) with ((k =? i)%nat).
    apply IH. cbn in H. lia.
Qed.
Lemma put_length (l : list A) i x : (i < length l)%nat -> length (put l i x) = length l.
Proof. intros. unfold put. rewrite app_length. cbn [length]. rewrite firstn_length, skipn_length. lia. Qed.

Lemma split_nth (l : list A) i x : nth_error l i = Some x -> l = firstn i l ++ x :: skipn (S i) l.
Proof.
  revert i. induction l as [|a l IH]; intros [|i] H; try discriminate; cbn.
  - injection H as ->. reflexivity.
  - f_equal. apply IH, H.
Qed.

(* The list after a removal: everything but the particle at i, the part below i unchanged. *)
Lemma remove_at_spec (ps : list A) i : 0 <= i < Z.of_nat (length ps) ->
  exists x ps', remove_at ps i = Some (x, ps') /\ nth_error ps (Z.to_nat i) = Some x /\
    Permutation ps (x :: ps') /\ length ps' = (length ps - 1)%nat /\
    (forall k, (k < Z.to_nat i)%nat -> nth_error ps' k = nth_error ps k).
Proof.
  intros Hi. set (n := Z.to_nat i). unfold remove_at. replace (i <? 0) with false by lia. fold n.
  assert (Hn : (n < length ps)%nat) by lia.
  destruct (nth_error ps n) as [x|] eqn:Ex; [|apply nth_error_None in Ex; lia].
  destruct (nth_error ps (length ps - 1)) as [y|] eqn:Ey; [|apply nth_error_None in Ey; lia].
  exists x, (firstn (length ps - 1) (put ps n y)). split; [reflexivity|]. split; [reflexivity|].
  pose proof (split_nth ps n x Ex) as S1.
  assert (PL : ps = firstn (length ps - 1) ps ++ [y]).
  { rewrite (split_nth ps _ y Ey) at 1. f_equal. f_equal. rewrite skipn_all2; [reflexivity|lia]. }
  split; [|split].
  - destruct (Nat.eq_dec n (length ps - 1)) as [E|NE].
    + rewrite E in Ex. rewrite Ex in Ey. injection Ey as <-.
      assert (F : firstn (length ps - 1) (put ps n x) = firstn (length ps - 1) ps).
      { unfold put. rewrite firstn_app, firstn_firstn, firstn_length.
        replace (length ps - 1 - Nat.min n (length ps))%nat with 0%nat by lia.
        cbn [firstn]. rewrite app_nil_r. f_equal. lia. }
      rewrite F, PL at 1. apply Permutation_sym, Permutation_cons_append.
    + assert (SK : skipn (S n) ps = firstn (length ps - 1 - S n) (skipn (S n) ps) ++ [y]).
      { transitivity (skipn (S n) (firstn (length ps - 1) ps ++ [y])); [f_equal; exact PL|].
        rewrite skipn_app, firstn_length.
        replace (S n - Nat.min (length ps - 1) (length ps))%nat with 0%nat by lia.
        rewrite (firstn_skipn_comm (length ps - 1 - S n) (S n) ps).
        replace (S n + (length ps - 1 - S n))%nat with (length ps - 1)%nat by lia. reflexivity. }
      assert (F : firstn (length ps - 1) (put ps n y) = firstn n ps ++ y :: firstn (length ps - 1 - S n) (skipn (S n) ps)).
      { unfold put. rewrite firstn_app, firstn_firstn, firstn_length.
        replace (Nat.min (length ps - 1) n) with n by lia.
        replace (length ps - 1 - Nat.min n (length ps))%nat with (S (length ps - 1 - S n)) by lia.
        cbn [firstn]. reflexivity. }
      rewrite F. set (T := firstn (length ps - 1 - S n) (skipn (S n) ps)) in *. clearbody T.
      rewrite S1 at 1. rewrite SK.
      apply Permutation_sym, Permutation_cons_app, Permutation_app_head, Permutation_cons_append.
  - rewrite firstn_length, put_length by lia. lia.
  - intros k Hk.
    assert (G : forall (l : list A) m j, (j < m)%nat -> nth_error (firstn m l) j = nth_error l j).
    { induction l as [|a l IH]; intros [|m] [|j] Hj; try lia; try reflexivity. cbn. apply IH. lia. }
    rewrite G by lia. rewrite put_nth by lia. replace (k =? n)%nat with false by lia. reflexivity.
Qed.

(* picked: the particles at the given indices *)
Definition picked (ps : list A) (idx : list Z) : list (option A) := map (fun i => nth_error ps (Z.to_nat i)) idx.

Definition Sgt (l : list Z) := StronglySorted Z.gt l.

Lemma remove_loop_spec : forall idx ps gone, Sgt idx ->
  (forall i, In i idx -> 0 <= i < Z.of_nat (length ps)) ->
  exists g ps', remove_loop ps idx gone = Some (gone ++ g, ps') /\
    map Some g = picked ps idx /\ Permutation ps (g ++ ps') /\ length ps' = (length ps - length idx)%nat.
Proof.
  induction idx as [|i idx IH]; intros ps gone HS HB; cbn [remove_loop].
  - exists [], ps. rewrite app_nil_r. split; [reflexivity|]. split; [reflexivity|]. split; [apply Permutation_refl|cbn; lia].
  - apply StronglySorted_inv in HS. destruct HS as (HS & F). rewrite Forall_forall in F.
    destruct (remove_at_spec ps i (HB i (or_introl eq_refl))) as (x & ps1 & E & Ex & P & L & K).
    rewrite E.
    destruct (IH ps1 (gone ++ [x]) HS) as (g & ps' & E' & Pk & P' & L').
    { intros j Hj. specialize (F j Hj). pose proof (HB j (or_intror Hj)). pose proof (HB i (or_introl eq_refl)). lia. }
    exists (x :: g), ps'. rewrite <- app_assoc in E'. split; [exact E'|]. split; [|split].
    + cbn [map picked]. f_equal; [symmetry; exact Ex|]. rewrite Pk. unfold picked. apply map_ext_in.
      intros j Hj. apply K. specialize (F j Hj). pose proof (HB j (or_intror Hj)). lia.
    + rewrite P, P'. apply Permutation_refl.
    + cbn [length]. rewrite L', L. lia.
Qed.

Lemma Slt_rev l : StronglySorted Z.lt l -> Sgt (rev l).
Proof.
  induction l as [|a l IH]; intros H; [constructor|]. apply StronglySorted_inv in H. destruct H as (H & F).
  cbn [rev]. specialize (IH H). clear H. rewrite Forall_forall in F.
  assert (F' : forall x, In x (rev l) -> x > a) by (intros x Hx; apply in_rev in Hx; specialize (F x Hx); lia).
  clear F. induction (rev l) as [|b r IHr]; cbn [app]; [repeat constructor|].
  apply StronglySorted_inv in IH. destruct IH as (IH & F). constructor.
  - apply IHr; [exact IH|]. intros x Hx. apply F'. right; exact Hx.
  - rewrite Forall_app. split; [exact F|]. constructor; [|constructor]. apply F'. left; reflexivity.
Qed.

(* particles whose index is not listed *)
Definition others (ps : list A) (idx : list Z) : list A :=
  flat_map (fun k => if existsb (Z.eqb (Z.of_nat k)) idx then []
                     else match nth_error ps k with Some x => [x] | None => [] end) (seq 0 (length ps)).
Definition listed (ps : list A) (idx : list Z) : list A :=
  flat_map (fun i => match nth_error ps (Z.to_nat i) with Some x => [x] | None => [] end) idx.

Lemma seq_all (l : list A) : forall s, flat_map (fun k => match nth_error l (k - s) with Some x => [x] | None => [] end) (seq s (length l)) = l.
Proof.
  induction l as [|a l IH]; intros s; [reflexivity|]. cbn [length seq flat_map]. rewrite Nat.sub_diag. cbn [nth_error app].
  f_equal. rewrite <- (IH (S s)) at 2. rewrite !flat_map_concat_map. f_equal. apply map_ext_in.
  intros k Hk. apply in_seq in Hk. replace (k - s)%nat with (S (k - S s)) by lia. reflexivity.
Qed.

Lemma flat_map_split {B C} (f : B -> list C) (p : B -> bool) l :
  Permutation (flat_map f l) (flat_map f (filter p l) ++ flat_map (fun b => if p b then [] else f b) l).
Proof.
  induction l as [|b l IH]; [constructor|]. cbn [flat_map filter]. destruct (p b); cbn [flat_map].
  - rewrite <- app_assoc. apply Permutation_app_head. rewrite app_nil_l. exact IH.
  - rewrite IH. rewrite !app_assoc. apply Permutation_app_tail. apply Permutation_app_comm.
Qed.

Lemma filter_listed (ps : list A) idx : NoDup idx -> (forall i, In i idx -> 0 <= i < Z.of_nat (length ps)) ->
  Permutation (filter (fun k => existsb (Z.eqb (Z.of_nat k)) idx) (seq 0 (length ps))) (map Z.to_nat idx).
Proof.
  intros ND HB. apply NoDup_Permutation.
  - apply NoDup_filter, seq_NoDup.
  - clear - ND HB. induction idx as [|i idx IH]; [constructor|]. inversion ND; subst. cbn [map]. constructor.
    + rewrite in_map_iff. intros (j & E & Hj). pose proof (HB i (or_introl eq_refl)). pose proof (HB j (or_intror Hj)).
      assert (i = j) by lia. subst. auto.
    + apply IH; auto. intros j Hj. apply HB. right; exact Hj.
  - intros k. rewrite filter_In, in_seq, in_map_iff, existsb_exists. split.
    + intros (_ & (i & Hi & E)). exists i. split; [lia|exact Hi].
    + intros (i & E & Hi). pose proof (HB i Hi). split; [lia|]. exists i. split; [exact Hi|lia].
Qed.

Lemma listed_others (ps : list A) idx : NoDup idx -> (forall i, In i idx -> 0 <= i < Z.of_nat (length ps)) ->
  Permutation ps (listed ps idx ++ others ps idx).
Proof.
  intros ND HB. unfold others.
  transitivity (flat_map (fun k => match nth_error ps k with Some x => [x] | None => [] end) (seq 0 (length ps))).
  { rewrite <- (seq_all ps 0) at 1. rewrite !flat_map_concat_map.
    erewrite map_ext; [apply Permutation_refl|]. intros k. cbv beta. rewrite Nat.sub_0_r. reflexivity. }
  rewrite (flat_map_split _ (fun k => existsb (Z.eqb (Z.of_nat k)) idx)). apply Permutation_app; [|apply Permutation_refl].
  unfold listed. rewrite filter_listed by auto.
  rewrite !flat_map_concat_map, map_map. apply Permutation_refl.
Qed.

Lemma Slt_nodup l : StronglySorted Z.lt l -> NoDup l.
Proof.
  induction l as [|a l IH]; intros H; [constructor|]. apply StronglySorted_inv in H. destruct H as (H & F).
  constructor; [|auto]. intros Hin. rewrite Forall_forall in F. specialize (F a Hin). lia.
Qed.

Lemma picked_listed (ps g : list A) idx : map Some g = picked ps idx -> g = listed ps idx.
Proof.
  revert g. induction idx as [|i idx IH]; intros [|x g] H; try discriminate; [reflexivity|].
  cbn in H. injection H as H1 H2. cbn [listed flat_map]. rewrite <- H1. cbn. f_equal. apply IH, H2.
Qed.

Lemma listed_rev_perm (ps : list A) idx : Permutation (listed ps (rev idx)) (listed ps idx).
Proof. unfold listed. rewrite <- Permutation_rev. apply Permutation_refl. Qed.

Lemma remove_movers_spec (ps : list A) idx : StronglySorted Z.lt idx ->
  (forall i, In i idx -> 0 <= i < Z.of_nat (length ps)) ->
  exists ps', remove_movers ps idx = Some (listed ps (rev idx), ps') /\
    Permutation ps' (others ps idx) /\ Z.of_nat (length ps') = Z.of_nat (length ps) - Z.of_nat (length idx).
Proof.
  intros HS HB. unfold remove_movers.
  destruct (remove_loop_spec (rev idx) ps [] (Slt_rev _ HS)) as (g & ps' & E & Pk & P & L).
  { intros i Hi. apply HB, in_rev, Hi. }
  apply picked_listed in Pk. subst g. exists ps'. split; [exact E|].
  pose proof (listed_others ps idx (Slt_nodup _ HS) HB) as LO.
  assert (P2 : Permutation (listed ps (rev idx) ++ ps') (listed ps (rev idx) ++ others ps idx)).
  { transitivity ps; [symmetry; exact P|]. transitivity (listed ps idx ++ others ps idx); [exact LO|].
    apply Permutation_app_tail. symmetry. apply listed_rev_perm. }
  apply Permutation_app_inv_l in P2. split; [exact P2|].
  pose proof (Permutation_length (listed_others ps idx (Slt_nodup _ HS) HB)) as LL.
  rewrite app_length in LL.
  assert (LI : length (listed ps idx) = length idx).
  { clear - HB. induction idx as [|i idx IH]; [reflexivity|]. cbn [listed flat_map]. rewrite app_length. fold (listed ps idx).
    rewrite IH by (intros j Hj; apply HB; right; exact Hj).
    pose proof (HB i (or_introl eq_refl)). destruct (nth_error ps (Z.to_nat i)) eqn:E; [reflexivity|].
    apply nth_error_None in E. lia. }
  rewrite L, rev_length. lia.
Qed.
End Rem.
