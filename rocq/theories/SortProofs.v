From Coq Require Import ZArith List Bool Lia ZifyBool Permutation Sorting.Sorted.
From Verif Require Import DistributeModel DistributeProofs VoxelProofs SortModel.
Import ListNotations.
Open Scope Z_scope.

Ltac Zify.zify_post_hook ::= idtac.

(* ---- zrange ---- *)

Lemma zrange_nil lo hi : hi <= lo -> zrange lo hi = [].
Proof. intros H. unfold zrange. replace (Z.to_nat (hi - lo)) with 0%nat by lia. reflexivity. Qed.

Lemma zrange_cons lo hi : lo < hi -> zrange lo hi = lo :: zrange (lo + 1) hi.
Proof.
  intros H. unfold zrange. replace (Z.to_nat (hi - lo)) with (S (Z.to_nat (hi - (lo + 1)))) by lia.
  cbn [seq map]. rewrite Z.add_0_r. f_equal. rewrite <- seq_shift, map_map.
  apply map_ext. intros k. lia.
Qed.

Lemma zrange_app lo m hi : lo <= m <= hi -> zrange lo hi = zrange lo m ++ zrange m hi.
Proof.
  intros H. unfold zrange.
  replace (Z.to_nat (hi - lo)) with (Z.to_nat (m - lo) + Z.to_nat (hi - m))%nat by lia.
  rewrite seq_app, map_app. f_equal. rewrite seq_shift_by, map_map. apply map_ext. intros k. lia.
Qed.

Lemma in_zrange v lo hi : In v (zrange lo hi) <-> lo <= v < hi.
Proof.
  unfold zrange. rewrite in_map_iff. split.
  - intros (k & <- & Hk). apply in_seq in Hk. lia.
  - intros H. exists (Z.to_nat (v - lo)). split; [lia|]. apply in_seq. lia.
Qed.

Lemma NoDup_zrange lo hi : NoDup (zrange lo hi).
Proof.
  unfold zrange. apply FinFun.Injective_map_NoDup; [|apply seq_NoDup]. intros a b H. lia.
Qed.

Lemma length_zrange lo hi : length (zrange lo hi) = Z.to_nat (hi - lo).
Proof. unfold zrange. rewrite map_length, seq_length. reflexivity. Qed.

Lemma zrange_ind (Q : Z -> Z -> Prop) :
  (forall lo hi, hi <= lo -> Q lo hi) ->
  (forall lo hi, lo < hi -> Q (lo + 1) hi -> Q lo hi) -> forall lo hi, Q lo hi.
Proof.
  intros H0 H1 lo hi. remember (Z.to_nat (hi - lo)) as n eqn:Hn.
  revert lo Hn. induction n as [|n IH]; intros lo Hn; [apply H0; lia|].
  apply H1; [lia|]. apply IH. lia.
Qed.

(* ---- updates and writes ---- *)

Lemma upd_same {A} (m : Z -> A) i x : upd m i x i = x.
Proof. unfold upd. rewrite Z.eqb_refl. reflexivity. Qed.

Lemma upd_other {A} (m : Z -> A) i x j : j <> i -> upd m i x j = m j.
Proof. intros H. unfold upd. destruct (Z.eqb_spec j i); congruence. Qed.

Lemma apply_writes_notin {A} (w : list (Z * A)) m k :
  (forall x, ~ In (k, x) w) -> apply_writes w m k = m k.
Proof.
  revert m. induction w as [|[i y] w IH]; intros m H; [reflexivity|].
  unfold apply_writes. cbn [fold_left]. fold (apply_writes w (upd m i y)).
  rewrite IH.
  - apply upd_other. intros ->. apply (H y). left. reflexivity.
  - intros x Hx. apply (H x). right. exact Hx.
Qed.

Lemma apply_writes_in {A} (w : list (Z * A)) m k x :
  (forall y, In (k, y) w -> y = x) -> In (k, x) w -> apply_writes w m k = x.
Proof.
  revert m. induction w as [|[i y] w IH]; intros m Hall Hin; [destruct Hin|].
  unfold apply_writes. cbn [fold_left]. fold (apply_writes w (upd m i y)).
  destruct (in_dec Z.eq_dec k (map fst w)) as [Hk|Hk].
  - apply in_map_iff in Hk. destruct Hk as ([k' x'] & Hk' & Hin'). cbn in Hk'. subst k'.
    assert (x' = x) by (apply Hall; right; exact Hin'). subst x'.
    apply IH; [|exact Hin']. intros y' Hy'. apply Hall. right. exact Hy'.
  - rewrite apply_writes_notin.
    + destruct Hin as [Heq|Hin].
      * injection Heq as -> ->. apply upd_same.
      * exfalso. apply Hk. apply in_map_iff. exists (k, x). auto.
    + intros y' Hy'. apply Hk. apply in_map_iff. exists (k, y'). auto.
Qed.

(* ---- enumerated lists ---- *)

Lemma nth_error_ext {A} (l l' : list A) : (forall n, nth_error l n = nth_error l' n) -> l = l'.
Proof.
  revert l'. induction l as [|x l IH]; intros [|y l'] H; try reflexivity.
  - discriminate (H 0%nat).
  - discriminate (H 0%nat).
  - injection (H 0%nat) as ->. f_equal. apply IH. intros n. exact (H (S n)).
Qed.

Fixpoint enum {A} (base : Z) (l : list A) : list (Z * A) :=
  match l with [] => [] | x :: l => (base, x) :: enum (base + 1) l end.

Lemma enum_app {A} base (l1 l2 : list A) :
  enum base (l1 ++ l2) = enum base l1 ++ enum (base + Z.of_nat (length l1)) l2.
Proof.
  revert base. induction l1 as [|x l1 IH]; intros base; cbn [enum app length].
  - f_equal. lia.
  - rewrite IH. do 3 f_equal. lia.
Qed.

Lemma in_enum {A} base (l : list A) k x :
  In (k, x) (enum base l) <-> base <= k /\ nth_error l (Z.to_nat (k - base)) = Some x.
Proof.
  revert base. induction l as [|y l IH]; intros base; cbn [enum In].
  - split; [intros []|]. intros [_ H]. destruct (Z.to_nat (k - base)); discriminate.
  - rewrite IH. split.
    + intros [Heq|[Hk Hn]].
      * injection Heq as -> ->. split; [lia|]. rewrite Z.sub_diag. reflexivity.
      * split; [lia|]. replace (Z.to_nat (k - base)) with (S (Z.to_nat (k - (base + 1)))) by lia.
        exact Hn.
    + intros [Hk Hn]. destruct (Z.eq_dec k base) as [->|Hne].
      * left. rewrite Z.sub_diag in Hn. cbn in Hn. congruence.
      * right. split; [lia|].
        replace (Z.to_nat (k - base)) with (S (Z.to_nat (k - (base + 1)))) in Hn by lia. exact Hn.
Qed.

(* Writing a permutation of an enumeration stores the list. *)
Lemma writes_enum {A} (w : list (Z * A)) (s : list A) (m : Z -> A) :
  Permutation w (enum 0 s) ->
  section (apply_writes w m) 0 (Z.of_nat (length s)) = s.
Proof.
  intros HP. apply nth_error_ext. intros n.
  unfold section. destruct (Nat.lt_ge_cases n (length s)) as [Hn|Hn].
  - rewrite nth_error_map. unfold zrange. rewrite nth_error_map.
    rewrite (nth_error_nth' _ 0%nat) by (rewrite seq_length; lia).
    rewrite seq_nth by lia. cbn [option_map].
    destruct (nth_error s n) as [x|] eqn:Hx.
    2:{ apply nth_error_None in Hx. lia. }
    f_equal. apply apply_writes_in.
    + intros y Hy. apply (Permutation_in _ HP) in Hy. apply in_enum in Hy. destruct Hy as [_ Hy].
      replace (Z.to_nat (0 + Z.of_nat (0 + n) - 0)) with n in Hy by lia. congruence.
    + apply (Permutation_in _ (Permutation_sym HP)). apply in_enum. split; [lia|].
      replace (Z.to_nat (0 + Z.of_nat (0 + n) - 0)) with n by lia. exact Hx.
  - rewrite (proj2 (nth_error_None s n) Hn). apply nth_error_None.
    rewrite map_length, length_zrange. lia.
Qed.

(* ---- counting ---- *)

Definition bucket {A} (f : A -> Z) (b : Z) (l : list A) : list A := filter (fun x => f x =? b) l.
Definition cnt {A} (f : A -> Z) (b : Z) (l : list A) : Z := Z.of_nat (length (bucket f b l)).

Lemma bucket_app {A} (f : A -> Z) b l1 l2 : bucket f b (l1 ++ l2) = bucket f b l1 ++ bucket f b l2.
Proof. apply filter_app. Qed.

Lemma cnt_app {A} (f : A -> Z) b l1 l2 : cnt f b (l1 ++ l2) = cnt f b l1 + cnt f b l2.
Proof. unfold cnt. rewrite bucket_app, app_length. lia. Qed.

Lemma cnt_perm {A} (f : A -> Z) b l l' : Permutation l l' -> cnt f b l = cnt f b l'.
Proof.
  intros H. unfold cnt, bucket. induction H; cbn [filter]; auto.
  - destruct (f x =? b); cbn [length]; lia.
  - destruct (f x =? b), (f y =? b); reflexivity.
  - lia.
Qed.

Lemma count_loop_spec f l c b : count_loop f l c b = c b + cnt f b l.
Proof.
  revert c. induction l as [|p l IH]; intros c; unfold cnt, bucket, count_loop in *; cbn [fold_left filter].
  - cbn. lia.
  - rewrite IH. unfold upd. rewrite (Z.eqb_sym (f p) b).
    destruct (Z.eqb_spec b (f p)) as [->|]; cbn [length]; lia.
Qed.

Lemma clear_range_spec v0 v1 m v :
  clear_range v0 v1 m v = if (v0 <=? v) && (v <? v1) then 0 else m v.
Proof.
  unfold clear_range. revert m. pattern v0, v1. apply zrange_ind; clear v0 v1.
  - intros lo hi H m. rewrite zrange_nil by lia. cbn [fold_left].
    destruct (Z.leb_spec lo v), (Z.ltb_spec v hi); cbn [andb]; try reflexivity. lia.
  - intros lo hi H IH m. rewrite zrange_cons by lia. cbn [fold_left]. rewrite IH.
    unfold upd. destruct (Z.eqb_spec v lo) as [->|].
    + destruct (Z.leb_spec (lo + 1) lo), (Z.ltb_spec lo hi), (Z.leb_spec lo lo); cbn [andb]; lia.
    + destruct (Z.leb_spec (lo + 1) v), (Z.ltb_spec v hi), (Z.leb_spec lo v); cbn [andb]; try lia.
Qed.

Definition psum (nx : Z -> Z) (lo hi : Z) : Z := fold_right (fun v s => nx v + s) 0 (zrange lo hi).

Lemma psum_nil nx lo hi : hi <= lo -> psum nx lo hi = 0.
Proof. intros H. unfold psum. rewrite zrange_nil by lia. reflexivity. Qed.
Lemma psum_cons nx lo hi : lo < hi -> psum nx lo hi = nx lo + psum nx (lo + 1) hi.
Proof. intros H. unfold psum. rewrite zrange_cons by lia. reflexivity. Qed.
Lemma psum_ext nx nx' lo hi : (forall v, lo <= v < hi -> nx v = nx' v) -> psum nx lo hi = psum nx' lo hi.
Proof.
  pattern lo, hi. apply zrange_ind; clear lo hi.
  - intros lo hi H _. rewrite !psum_nil by lia. reflexivity.
  - intros lo hi H IH He. rewrite (psum_cons nx), (psum_cons nx') by lia. rewrite He by lia.
    rewrite IH; [reflexivity|]. intros v Hv. apply He. lia.
Qed.
Lemma psum_app nx lo m hi : lo <= m <= hi -> psum nx lo hi = psum nx lo m + psum nx m hi.
Proof.
  intros H. unfold psum. rewrite (zrange_app lo m hi H). rewrite fold_right_app.
  generalize (fold_right (fun v s => nx v + s) 0 (zrange m hi)). intros z.
  induction (zrange lo m) as [|a l IH]; cbn [fold_right]; lia.
Qed.
Lemma psum_last nx lo hi : lo <= hi -> psum nx lo (hi + 1) = psum nx lo hi + nx hi.
Proof.
  intros H. rewrite (psum_app nx lo hi) by lia. f_equal.
  rewrite psum_cons by lia. rewrite psum_nil by lia. lia.
Qed.
Lemma psum_nonneg nx lo hi : (forall v, lo <= v < hi -> 0 <= nx v) -> 0 <= psum nx lo hi.
Proof.
  pattern lo, hi. apply zrange_ind; clear lo hi.
  - intros lo hi H _. rewrite psum_nil by lia. lia.
  - intros lo hi H IH He. rewrite psum_cons by lia. pose proof (He lo ltac:(lia)).
    pose proof (IH ltac:(intros v Hv; apply He; lia)). lia.
Qed.

Lemma prefix_loop_gen lo hi : forall nx pw s,
  exists nx',
  fold_left (fun '(nx, pw, s) v => (upd nx v s, pw ++ [(v, s)], s + nx v)) (zrange lo hi) (nx, pw, s) =
    (nx', pw ++ map (fun v => (v, s + psum nx lo v)) (zrange lo hi), s + psum nx lo hi) /\
  (forall v, nx' v = if (lo <=? v) && (v <? hi) then s + psum nx lo v else nx v).
Proof.
  pattern lo, hi. apply zrange_ind; clear lo hi.
  - intros lo hi H nx pw s. exists nx. rewrite zrange_nil, psum_nil by lia. cbn [fold_left map].
    rewrite app_nil_r, Z.add_0_r. split; [reflexivity|].
    intros v. replace ((lo <=? v) && (v <? hi)) with false by lia. reflexivity.
  - intros lo hi H IH nx pw s. rewrite zrange_cons by lia. cbn [fold_left map].
    destruct (IH (upd nx lo s) (pw ++ [(lo, s)]) (s + nx lo)) as (nx' & Heq & Hnx).
    exists nx'. rewrite Heq.
    assert (Hps : forall v, lo < v -> s + nx lo + psum (upd nx lo s) (lo + 1) v = s + psum nx lo v).
    { intros v Hv. rewrite (psum_cons nx lo v) by lia.
      rewrite (psum_ext (upd nx lo s) nx (lo + 1) v) by (intros u Hu; apply upd_other; lia). lia. }
    split.
    + f_equal; [f_equal|].
      * rewrite <- app_assoc. cbn [app]. rewrite (psum_nil nx lo lo) by lia. rewrite Z.add_0_r.
        do 2 f_equal. apply map_ext_in. intros v Hv. apply in_zrange in Hv. rewrite Hps by lia. reflexivity.
      * rewrite Hps by lia. reflexivity.
    + intros v. rewrite Hnx. unfold upd at 2. destruct (Z.eqb_spec v lo) as [->|Hne].
      * replace ((lo + 1 <=? lo) && (lo <? hi)) with false by lia.
        replace ((lo <=? lo) && (lo <? hi)) with true by lia. rewrite psum_nil by lia. lia.
      * destruct (Z_lt_le_dec lo v).
        -- replace (lo + 1 <=? v) with true by lia. replace (lo <=? v) with true by lia.
           cbn [andb]. destruct (v <? hi); [apply Hps; lia|reflexivity].
        -- replace ((lo + 1 <=? v) && (v <? hi)) with false by lia.
           replace ((lo <=? v) && (v <? hi)) with false by lia. reflexivity.
Qed.

(* ---- scatter ---- *)

Fixpoint sc (f : particle -> Z) (l : list particle) (nx : Z -> Z) : list (Z * particle) :=
  match l with
  | [] => []
  | p :: l => (nx (f p), p) :: sc f l (upd nx (f p) (nx (f p) + 1))
  end.

Lemma scatter_sc f l nx : snd (scatter_loop f l nx) = sc f l nx.
Proof.
  unfold scatter_loop.
  assert (H : forall w, snd (fold_left
     (fun '(nx, w) p => (upd nx (f p) (nx (f p) + 1), w ++ [(nx (f p), p)])) l (nx, w)) = w ++ sc f l nx).
  { revert nx. induction l as [|p l IH]; intros nx w; cbn [fold_left sc].
    - rewrite app_nil_r. reflexivity.
    - rewrite IH, <- app_assoc. reflexivity. }
  apply H.
Qed.

Lemma flat_map_ext_in {A B} (f g : A -> list B) l : (forall x, In x l -> f x = g x) ->
  flat_map f l = flat_map g l.
Proof.
  induction l as [|a l IH]; intros H; [reflexivity|]. cbn [flat_map].
  rewrite (H a), IH; [reflexivity| |left; reflexivity]. intros x Hx. apply H. right. exact Hx.
Qed.

Lemma sc_ext f l nx nx' : (forall p, In p l -> nx (f p) = nx' (f p)) -> sc f l nx = sc f l nx'.
Proof.
  revert nx nx'. induction l as [|p l IH]; intros nx nx' H; cbn [sc]; [reflexivity|].
  rewrite (H p (or_introl eq_refl)). f_equal. apply IH. intros q Hq.
  unfold upd. destruct (f q =? f p); [reflexivity|]. apply H. right. exact Hq.
Qed.

Lemma sc_perm f l : forall nx bs, NoDup bs -> (forall p, In p l -> In (f p) bs) ->
  Permutation (sc f l nx) (flat_map (fun b => enum (nx b) (bucket f b l)) bs).
Proof.
  induction l as [|p l IH]; intros nx bs Hnd Hin; cbn [sc].
  - rewrite flat_map_nil_all; [constructor|]. intros b _. reflexivity.
  - specialize (IH (upd nx (f p) (nx (f p) + 1)) bs Hnd (fun q Hq => Hin q (or_intror Hq))).
    rewrite IH. clear IH.
    destruct (in_split _ _ (Hin p (or_introl eq_refl))) as (b1 & b2 & ->).
    rewrite !flat_map_app. cbn [flat_map].
    assert (Hno : ~ In (f p) (b1 ++ b2)) by (apply NoDup_remove_2; exact Hnd).
    rewrite in_app_iff in Hno.
    rewrite (flat_map_ext_in (fun b => enum (upd nx (f p) (nx (f p) + 1) b) (bucket f b l))
               (fun b => enum (nx b) (bucket f b (p :: l))) b1).
    2:{ intros b Hb. assert (Hne : b <> f p) by (intros ->; tauto).
        rewrite upd_other by exact Hne. unfold bucket. cbn [filter].
        destruct (Z.eqb_spec (f p) b) as [He|]; [congruence|reflexivity]. }
    rewrite (flat_map_ext_in (fun b => enum (upd nx (f p) (nx (f p) + 1) b) (bucket f b l))
               (fun b => enum (nx b) (bucket f b (p :: l))) b2).
    2:{ intros b Hb. assert (Hne : b <> f p) by (intros ->; tauto).
        rewrite upd_other by exact Hne. unfold bucket. cbn [filter].
        destruct (Z.eqb_spec (f p) b) as [He|]; [congruence|reflexivity]. }
    rewrite upd_same. unfold bucket at 5. cbn [filter]. rewrite Z.eqb_refl. cbn [enum].
    fold (bucket f (f p) l). cbn [app]. apply Permutation_middle.
Qed.

(* consecutive buckets laid out from a base *)
Lemma enum_layout {A} (G : Z -> list A) lo hi base : forall start : Z -> Z,
  (forall v, lo <= v < hi -> start v = base + psum (fun u => Z.of_nat (length (G u))) lo v) ->
  flat_map (fun v => enum (start v) (G v)) (zrange lo hi) = enum base (flat_map G (zrange lo hi)).
Proof.
  revert base. pattern lo, hi. apply zrange_ind; clear lo hi.
  - intros lo hi H base start _. rewrite zrange_nil by lia. reflexivity.
  - intros lo hi H IH base start Hs. rewrite zrange_cons by lia. cbn [flat_map].
    rewrite enum_app. rewrite (Hs lo) by lia. rewrite psum_nil by lia. rewrite Z.add_0_r. f_equal.
    apply IH. intros v Hv. rewrite Hs by lia. rewrite psum_cons by lia. lia.
Qed.

Lemma section_app {A} (m : Z -> A) a b c : a <= b <= c -> section m a c = section m a b ++ section m b c.
Proof. intros H. unfold section. rewrite (zrange_app a b c H). apply map_app. Qed.

Lemma length_section {A} (m : Z -> A) a b : length (section m a b) = Z.to_nat (b - a).
Proof. unfold section. rewrite map_length. apply length_zrange. Qed.

Lemma flat_map_swap {A B C} (F : A -> B -> list C) (rs : list A) (ss : list B) :
  Permutation (flat_map (fun r => flat_map (fun s => F r s) ss) rs)
              (flat_map (fun s => flat_map (fun r => F r s) rs) ss).
Proof.
  induction rs as [|r rs IH]; cbn [flat_map].
  - rewrite flat_map_nil_all by reflexivity. constructor.
  - rewrite IH. clear IH. induction ss as [|s ss IH]; cbn [flat_map]; [constructor|].
    rewrite <- IH. rewrite <- !app_assoc. apply Permutation_app_head.
    rewrite !app_assoc. apply Permutation_app_tail. apply Permutation_app_comm.
Qed.
