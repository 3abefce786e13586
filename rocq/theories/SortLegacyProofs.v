From Coq Require Import ZArith List Bool Lia ZifyBool Permutation Sorting.Sorted.
From Verif Require Import DistributeModel VoxelProofs SortModel SortProofs SortPipelineProofs.
Import ListNotations.
Open Scope Z_scope.

Ltac Zify.zify_post_hook ::= idtac.

Lemma cnt_nonneg {A} (f : A -> Z) b l : 0 <= cnt f b l.
Proof. unfold cnt. lia. Qed.

Lemma cnt_zero_notin {A} (f : A -> Z) b l x : cnt f b l = 0 -> In x l -> f x <> b.
Proof.
  intros Hc Hin Hf. assert (H : In x (bucket f b l)) by (apply filter_In; split; [exact Hin|lia]).
  unfold cnt in Hc. destruct (bucket f b l); [destruct H|cbn in Hc; lia].
Qed.

Lemma in_section {A} (m : Z -> A) a b k : a <= k < b -> In (m k) (section m a b).
Proof. intros H. unfold section. apply in_map. apply in_zrange. exact H. Qed.

Lemma in_section_inv {A} (m : Z -> A) a b x : In x (section m a b) -> exists k, a <= k < b /\ x = m k.
Proof.
  unfold section. rewrite in_map_iff. intros (k & <- & Hk). apply in_zrange in Hk. exists k. auto.
Qed.

Lemma section_ext {A} (m m' : Z -> A) a b : (forall k, a <= k < b -> m k = m' k) -> section m a b = section m' a b.
Proof. intros H. unfold section. apply map_ext_in. intros k Hk. apply in_zrange in Hk. auto. Qed.

Lemma section_one {A} (m : Z -> A) a : section m a (a + 1) = [m a].
Proof. unfold section. rewrite zrange_cons by lia. rewrite zrange_nil by lia. reflexivity. Qed.

Lemma section_swap_lt {A} (m : Z -> A) n a b : 0 <= a -> a < b -> b < n ->
  Permutation (section (upd (upd m a (m b)) b (m a)) 0 n) (section m 0 n).
Proof.
  intros Ha Hab Hb.
  assert (E : forall m : Z -> A, section m 0 n =
     section m 0 a ++ m a :: section m (a + 1) b ++ m b :: section m (b + 1) n).
  { intros m'. rewrite (section_app m' 0 a n) by lia. f_equal.
    rewrite (section_app m' a (a + 1) n) by lia. rewrite section_one. cbn [app]. f_equal.
    rewrite (section_app m' (a + 1) b n) by lia. f_equal.
    rewrite (section_app m' b (b + 1) n) by lia. rewrite section_one. reflexivity. }
  rewrite (E m), (E (upd _ _ _)).
  rewrite upd_same. rewrite (upd_other _ b _ a) by lia. rewrite upd_same.
  rewrite !(section_ext (upd (upd m a (m b)) b (m a)) m).
  2-4: intros k Hk; rewrite !upd_other by lia; reflexivity.
  apply Permutation_app_head.
  set (x := section m (a + 1) b). set (y := section m (b + 1) n).
  transitivity (m b :: m a :: x ++ y).
  - apply perm_skip. symmetry. apply Permutation_middle.
  - transitivity (m a :: m b :: x ++ y); [apply perm_swap|]. apply perm_skip. apply Permutation_middle.
Qed.

Lemma section_ext_perm {A} (m m' : Z -> A) n : (forall k, 0 <= k < n -> m k = m' k) ->
  Permutation (section m 0 n) (section m' 0 n).
Proof. intros H. rewrite (section_ext m m') by assumption. reflexivity. Qed.

Lemma section_swap {A} (m : Z -> A) n a b : 0 <= a < n -> 0 <= b < n -> a <> b ->
  Permutation (section (upd (upd m a (m b)) b (m a)) 0 n) (section m 0 n).
Proof.
  intros Ha Hb Hne. destruct (Z_lt_le_dec a b) as [Hlt|Hge].
  - apply section_swap_lt; lia.
  - rewrite <- (section_swap_lt m n b a) by lia. apply section_ext_perm.
    intros k _. unfold upd. destruct (Z.eqb_spec k a), (Z.eqb_spec k b); try reflexivity. lia.
Qed.

Section Legacy.
Variables (np nc : Z) (l : list particle).
Hypothesis Hnc : 1 <= nc.
Hypothesis Hlen : Z.of_nat (length l) = np.
Hypothesis Hkey : forall p, In p l -> 0 <= key p < nc.

Let C := part_of 0 l.

Lemma C_mono a b : 0 <= a <= b -> C a <= C b.
Proof.
  intros H. unfold C, part_of. rewrite (psum_app _ 0 a b) by lia.
  pose proof (psum_nonneg (fun u => cnt key u l) a b (fun v _ => cnt_nonneg _ _ _)). lia.
Qed.

Lemma C_0 : C 0 = 0.
Proof. apply psum_nil. lia. Qed.

Lemma C_nc : C nc = np.
Proof.
  unfold C. replace nc with (nc - 1 + 1) by ring. rewrite vsorted_length; [exact Hlen| |lia].
  intros p Hp. specialize (Hkey p Hp). lia.
Qed.

Lemma C_succ v : 0 <= v -> C (v + 1) = C v + cnt key v l.
Proof. intros H. unfold C, part_of. apply psum_last. exact H. Qed.

Lemma legacy_partition_spec :
  exists next, legacy_partition nc l = (next, map (fun v => (v, C v)) (zrange 0 (nc + 1))) /\
    forall v, 0 <= v <= nc -> next v = C v.
Proof.
  unfold legacy_partition, prefix_loop.
  destruct (prefix_loop_gen 0 (nc + 1) (count_loop key l (fun _ => 0)) [] 0) as (nx & Heq & Hnx).
  rewrite Heq. exists nx.
  assert (Hps : forall v, 0 + psum (count_loop key l (fun _ => 0)) 0 v = C v).
  { intros v. rewrite Z.add_0_l. apply psum_ext. intros u _. rewrite count_loop_spec. reflexivity. }
  split.
  - f_equal. cbn [app]. apply map_ext. intros v. rewrite Hps. reflexivity.
  - intros v Hv. rewrite Hnx. replace ((0 <=? v) && (v <? nc + 1)) with true by lia. apply Hps.
Qed.

Lemma partition_after partition v :
  apply_writes (map (fun v => (v, C v)) (zrange 0 (nc + 1))) partition v =
  if (0 <=? v) && (v <=? nc) then C v else partition v.
Proof.
  destruct (Z_le_gt_dec 0 v) as [H0|H0]; [destruct (Z_le_gt_dec v nc) as [H1|H1]|].
  - replace ((0 <=? v) && (v <=? nc)) with true by lia. apply apply_writes_in.
    + intros y Hy. apply in_map_iff in Hy. destruct Hy as (u & Hu & _). congruence.
    + apply in_map_iff. exists v. rewrite in_zrange. split; [reflexivity|lia].
  - replace ((0 <=? v) && (v <=? nc)) with false by lia. apply apply_writes_notin.
    intros x Hx. apply in_map_iff in Hx. destruct Hx as (u & Hu & Hin). apply in_zrange in Hin.
    injection Hu as -> _. lia.
  - replace ((0 <=? v) && (v <=? nc)) with false by lia. apply apply_writes_notin.
    intros x Hx. apply in_map_iff in Hx. destruct Hx as (u & Hu & Hin). apply in_zrange in Hin.
    injection Hu as -> _. lia.
Qed.

Lemma legacy_out_spec p new_p : section p 0 np = l ->
  section (legacy_out_of_place np nc p new_p) 0 np = vsorted 0 (nc - 1) l.
Proof.
  intros Hp. unfold legacy_out_of_place. rewrite Hp.
  destruct legacy_partition_spec as (next & -> & Hnext). rewrite scatter_sc.
  assert (Hl : Z.of_nat (length (vsorted 0 (nc - 1) l)) = np).
  { rewrite <- Hlen. rewrite <- (Permutation_length (perm_vsorted l 0 (nc - 1)
      (fun p Hp => ltac:(specialize (Hkey p Hp); lia)))). reflexivity. }
  replace (section _ 0 np) with (section (apply_writes (sc key l next) new_p) 0 (Z.of_nat (length (vsorted 0 (nc - 1) l))))
    by (rewrite Hl; reflexivity).
  apply writes_enum.
  rewrite (sc_perm key l next (zrange 0 nc)).
  - rewrite (enum_layout (fun v => bucket key v l) 0 nc 0).
    + unfold vsorted. replace (nc - 1 + 1) with nc by ring. reflexivity.
    + intros v Hv. rewrite Hnext by lia. reflexivity.
  - apply NoDup_zrange.
  - intros q Hq. apply in_zrange. apply Hkey. exact Hq.
Qed.

(* ---- in place ---- *)

Record inv (i : Z) (next : Z -> Z) (p : Z -> particle) : Prop := {
  inv_perm : Permutation (section p 0 np) l;
  inv_next : forall v, 0 <= v < nc -> C v <= next v <= C (v + 1);
  inv_done : forall v j, 0 <= v < nc -> C v <= j < next v -> key (p j) = v;
  inv_full : forall v, 0 <= v < i -> v < nc -> next v = C (v + 1)
}.

Definition rem (next : Z -> Z) : Z := psum (fun v => C (v + 1) - next v) 0 nc.

Lemma rem_nonneg i next p : inv i next p -> 0 <= rem next.
Proof. intros I. apply psum_nonneg. intros v Hv. pose proof (inv_next _ _ _ I v Hv). lia. Qed.

Lemma rem_upd next v : 0 <= v < nc -> rem (upd next v (next v + 1)) = rem next - 1.
Proof.
  intros Hv. unfold rem. rewrite !(psum_app _ 0 v nc) by lia.
  rewrite !(psum_cons _ v nc) by lia. rewrite upd_same.
  rewrite (psum_ext (fun u => C (u + 1) - upd next v (next v + 1) u) (fun u => C (u + 1) - next u) 0 v)
    by (intros u Hu; rewrite upd_other by lia; reflexivity).
  rewrite (psum_ext (fun u => C (u + 1) - upd next v (next v + 1) u) (fun u => C (u + 1) - next u) (v + 1) nc)
    by (intros u Hu; rewrite upd_other by lia; reflexivity).
  lia.
Qed.

Lemma C_range v : 0 <= v <= nc -> 0 <= C v <= np.
Proof.
  intros H. rewrite <- C_0, <- C_nc at 1. split; apply C_mono; lia.
Qed.

(* a bucket that is full holds all particles of its voxel *)
Lemma full_bucket p v k : Permutation (section p 0 np) l -> 0 <= v < nc ->
  (forall j, C v <= j < C (v + 1) -> key (p j) = v) ->
  0 <= k < np -> key (p k) = v -> C v <= k < C (v + 1).
Proof.
  intros HP Hv Hall Hk Hkv.
  pose proof (cnt_perm key v _ _ HP) as Hc.
  pose proof (C_succ v ltac:(lia)) as Hs. pose proof (C_range v ltac:(lia)). pose proof (C_range (v + 1) ltac:(lia)).
  pose proof (C_mono v (v + 1) ltac:(lia)).
  rewrite (section_app p 0 (C v) np), (section_app p (C v) (C (v + 1)) np) in Hc by lia.
  rewrite !cnt_app in Hc.
  assert (Hm : cnt key v (section p (C v) (C (v + 1))) = C (v + 1) - C v).
  { unfold cnt, bucket. rewrite filter_all.
    - rewrite length_section. lia.
    - intros x Hx. apply in_section_inv in Hx. destruct Hx as (j & Hj & ->). rewrite Hall by lia. lia. }
  pose proof (cnt_nonneg key v (section p 0 (C v))). pose proof (cnt_nonneg key v (section p (C (v + 1)) np)).
  destruct (Z_lt_le_dec k (C v)).
  - exfalso. apply (cnt_zero_notin key v (section p 0 (C v)) (p k)); [lia| |exact Hkv]. apply in_section. lia.
  - destruct (Z_lt_le_dec k (C (v + 1))); [lia|].
    exfalso. apply (cnt_zero_notin key v (section p (C (v + 1)) np) (p k)); [lia| |exact Hkv]. apply in_section. lia.
Qed.

Lemma key_range p k : Permutation (section p 0 np) l -> 0 <= k < np -> 0 <= key (p k) < nc.
Proof. intros HP Hk. apply Hkey. apply (Permutation_in _ HP). apply in_section. exact Hk. Qed.

Definition final_ok (p' : Z -> particle) : Prop :=
  Permutation (section p' 0 np) l /\
  forall v j, 0 <= v < nc -> C v <= j < C (v + 1) -> key (p' j) = v.

Lemma C_disjoint u v j : 0 <= u -> 0 <= v -> C u <= j < C (u + 1) -> C v <= j < C (v + 1) -> u = v.
Proof.
  intros Hu Hv H1 H2. destruct (Z_lt_le_dec u v).
  - pose proof (C_mono (u + 1) v ltac:(lia)). lia.
  - destruct (Z_lt_le_dec v u); [|lia]. pose proof (C_mono (v + 1) u ltac:(lia)). lia.
Qed.

Lemma in_place_correct partition fuel :
  (forall v, 0 <= v <= nc -> partition v = C v) ->
  forall i src next p, 0 <= i <= nc -> inv i next p ->
  match src with
  | None => 1 + (nc - i) + 2 * rem next <= Z.of_nat fuel
  | Some k => k = next i /\ i < nc /\ next i < C (i + 1) /\ (nc - i) + 2 * rem next <= Z.of_nat fuel
  end ->
  exists p', legacy_in_place fuel nc partition i src next p = Some p' /\ final_ok p'.
Proof.
  intros Hpart. induction fuel as [|fuel IH]; intros i src next p Hi I Hm.
  - pose proof (rem_nonneg _ _ _ I). destruct src; lia.
  - cbn [legacy_in_place]. destruct src as [k|].
    + destruct Hm as (Hk & Hin & Hlt & Hf).
      pose proof (inv_next _ _ _ I i ltac:(lia)) as Hni.
      pose proof (C_range i ltac:(lia)) as HCi. pose proof (C_range (i + 1) ltac:(lia)) as HCi1.
      assert (Hkr : 0 <= k < np) by lia.
      pose proof (key_range p k (inv_perm _ _ _ I) Hkr) as Hv.
      set (v := key (p k)) in *.
      pose proof (inv_next _ _ _ I v Hv) as Hnv.
      pose proof (C_range v ltac:(lia)) as HCv. pose proof (C_range (v + 1) ltac:(lia)) as HCv1.
      assert (Hdest : next v < C (v + 1)).
      { destruct (Z_lt_le_dec (next v) (C (v + 1))) as [|Hge]; [assumption|exfalso].
        assert (He : next v = C (v + 1)) by lia.
        assert (Hb : C v <= k < C (v + 1)).
        { apply (full_bucket p v k (inv_perm _ _ _ I) Hv); [|exact Hkr|reflexivity].
          intros j Hj. apply (inv_done _ _ _ I); [exact Hv|lia]. }
        assert (Hvi : v = i) by (apply (C_disjoint v i k); lia). rewrite Hvi in *. lia. }
      set (next' := upd next v (next v + 1)).
      assert (Hfullv : forall u, 0 <= u < i -> u < nc -> u <> v).
      { intros u Hu Hu' ->. pose proof (inv_full _ _ _ I v Hu Hu'). lia. }
      assert (Hrem : rem next' = rem next - 1) by (apply rem_upd; exact Hv).
      destruct (Z.eqb_spec k (next v)) as [Heq|Hne].
      * (* src == dest *)
        assert (I' : inv i next' p).
        { split.
          - apply (inv_perm _ _ _ I).
          - intros u Hu. unfold next', upd. destruct (Z.eqb_spec u v) as [->|]; [lia|]. apply (inv_next _ _ _ I u Hu).
          - intros u j Hu. unfold next', upd. destruct (Z.eqb_spec u v) as [->|]; intros Hj.
            + destruct (Z.eq_dec j (next v)) as [->|]; [rewrite <- Heq; reflexivity|].
              apply (inv_done _ _ _ I); lia.
            + apply (inv_done _ _ _ I); assumption.
          - intros u Hu Hu'. unfold next'. rewrite upd_other by (apply Hfullv; assumption).
            apply (inv_full _ _ _ I); assumption. }
        apply IH; [lia|exact I'|]. lia.
      * assert (Hvi : v <> i). { intros E. rewrite E in Hne. contradiction. }
        set (d := next v) in *.
        assert (I' : inv i next' (upd (upd p d (p k)) k (p d))).
        { split.
          - rewrite section_swap by lia. apply (inv_perm _ _ _ I).
          - intros u Hu. unfold next', upd. destruct (Z.eqb_spec u v) as [->|]; [unfold d in *; lia|]. apply (inv_next _ _ _ I u Hu).
          - intros u j Hu Hj.
            assert (Hju : C u <= j < C (u + 1)).
            { pose proof (inv_next _ _ _ I u Hu). unfold next', upd in Hj.
              destruct (Z.eqb_spec u v) as [->|]; unfold d in *; lia. }
            destruct (Z.eq_dec j k) as [->|Hjk].
            { (* k lies in bucket i at next i: not in any done region *)
              exfalso. assert (u = i) by (apply (C_disjoint u i k); lia). subst u.
              unfold next' in Hj. rewrite upd_other in Hj by congruence. lia. }
            rewrite (upd_other _ k) by exact Hjk.
            destruct (Z.eq_dec j d) as [->|Hjd].
            { rewrite upd_same. fold v.
              apply (C_disjoint v u d); unfold d in *; lia. }
            rewrite upd_other by exact Hjd.
            unfold next', upd in Hj. destruct (Z.eqb_spec u v) as [->|].
            + apply (inv_done _ _ _ I); [exact Hu|]. unfold d in *. lia.
            + apply (inv_done _ _ _ I); assumption.
          - intros u Hu Hu'. unfold next'. rewrite upd_other by (apply Hfullv; assumption).
            apply (inv_full _ _ _ I); assumption. }
        apply IH; [lia|exact I'|].
        unfold next' at 1 2. rewrite !upd_other by congruence. split; [exact Hk|]. split; [exact Hin|]. split; [exact Hlt|].
        fold next'. lia.
    + destruct (Z.ltb_spec i nc) as [Hlt|Hge].
      * pose proof (inv_next _ _ _ I i ltac:(lia)) as Hni. rewrite Hpart by lia.
        destruct (Z.geb_spec (next i) (C (i + 1))) as [Hge|Hlt'].
        -- apply IH; [lia| |lia]. destruct I as [I1 I2 I3 I4]. split; try assumption.
           intros u Hu Hu'. destruct (Z.eq_dec u i) as [->|]; [lia|]. apply I4; lia.
        -- apply IH; [lia|exact I|]. repeat split; lia.
      * exists p. split; [reflexivity|]. split; [apply (inv_perm _ _ _ I)|].
        intros v j Hv Hj. apply (inv_done _ _ _ I); [exact Hv|].
        rewrite (inv_full _ _ _ I) by lia. exact Hj.
Qed.

Lemma rem_init next : (forall v, 0 <= v <= nc -> next v = C v) -> rem next = np.
Proof.
  intros H. unfold rem. rewrite (psum_ext _ (fun u => cnt key u l)).
  - exact C_nc.
  - intros v Hv. rewrite H by lia. rewrite C_succ by lia. lia.
Qed.

(* blocks *)
Lemma final_blocks p' v k : final_ok p' -> 0 <= v < nc ->
  (C v <= k < C (v + 1) <-> 0 <= k < np /\ key (p' k) = v).
Proof.
  intros [HP Hb] Hv. pose proof (C_range v ltac:(lia)). pose proof (C_range (v + 1) ltac:(lia)). split.
  - intros Hk. split; [lia|]. apply Hb; assumption.
  - intros [Hk Hkv]. apply (full_bucket p' v k HP Hv); [|exact Hk|exact Hkv].
    intros j Hj. apply Hb; assumption.
Qed.

Lemma final_sorted p' : final_ok p' -> forall j k, 0 <= j <= k -> k < np -> key (p' j) <= key (p' k).
Proof.
  intros Hf j k Hjk Hk. pose proof Hf as [HP _].
  pose proof (key_range p' j HP ltac:(lia)) as Hj. pose proof (key_range p' k HP ltac:(lia)) as Hkr.
  destruct (Z_le_gt_dec (key (p' j)) (key (p' k))) as [|Hgt]; [assumption|exfalso].
  assert (Hj0 : 0 <= j < np) by lia. assert (Hk0 : 0 <= k < np) by lia.
  pose proof (proj2 (final_blocks p' _ j Hf Hj) (conj Hj0 eq_refl)) as H1.
  pose proof (proj2 (final_blocks p' _ k Hf Hkr) (conj Hk0 eq_refl)) as H2.
  pose proof (C_mono (key (p' k) + 1) (key (p' j)) ltac:(lia)). lia.
Qed.

Lemma legacy_in_place_spec p partition step new_p fuel :
  section p 0 np = l -> np <> 0 -> 1 + nc + 2 * np <= Z.of_nat fuel ->
  exists p' partition', legacy_sort false fuel np nc step p new_p partition = Some (p', partition', step) /\
    final_ok p' /\ (forall v, 0 <= v <= nc -> partition' v = C v).
Proof.
  intros Hp Hnp Hfuel. unfold legacy_sort. replace (np =? 0) with false by lia. rewrite Hp.
  destruct legacy_partition_spec as (next & -> & Hnext).
  set (pt := apply_writes (map (fun v => (v, C v)) (zrange 0 (nc + 1))) partition).
  assert (Hpt : forall v, 0 <= v <= nc -> pt v = C v).
  { intros v Hv. unfold pt. rewrite partition_after. replace ((0 <=? v) && (v <=? nc)) with true by lia. reflexivity. }
  destruct (in_place_correct pt fuel Hpt 0 None next p) as (p' & -> & Hf).
  - lia.
  - split.
    + rewrite Hp. reflexivity.
    + intros v Hv. rewrite Hnext by lia. pose proof (C_mono v (v + 1) ltac:(lia)). lia.
    + intros v j Hv Hj. rewrite Hnext in Hj by lia. lia.
    + intros v Hv. lia.
  - rewrite rem_init by exact Hnext. lia.
  - exists p', pt. split; [reflexivity|]. split; assumption.
Qed.

Lemma legacy_out_of_place_spec p partition step new_p fuel :
  section p 0 np = l -> np <> 0 ->
  exists p' partition', legacy_sort true fuel np nc step p new_p partition = Some (p', partition', step) /\
    section p' 0 np = vsorted 0 (nc - 1) l /\ (forall v, 0 <= v <= nc -> partition' v = C v).
Proof.
  intros Hp Hnp. unfold legacy_sort. replace (np =? 0) with false by lia.
  pose proof (legacy_out_spec p new_p Hp) as Ho. rewrite Hp.
  destruct legacy_partition_spec as (next & -> & Hnext).
  eexists _, _. split; [reflexivity|]. split; [exact Ho|].
  intros v Hv. rewrite partition_after. replace ((0 <=? v) && (v <=? nc)) with true by lia. reflexivity.
Qed.
End Legacy.
