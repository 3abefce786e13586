Require Import Reals Lra Verif.ParticleModel Verif.ParticleSpec Verif.ParticleProofs.
Require Import ZArith List Bool Lia ZifyBool Permutation Sorting.Sorted.
Require Import Verif.DistributeModel Verif.DistributeProofs Verif.SortModel Verif.SortProofs Verif.SortPipelineProofs.
Require Import Verif.ParticleModel Verif.MoverModel.
Import ListNotations.
Open Scope Z_scope.

(* the ranges of ranks 0..P are, one after the other, 0..N-1 *)
Lemma distribute_concat c N b P : 0 <= N < 2 ^ 31 -> 1 <= b -> 1 <= P < 2 ^ 31 ->
  flat_map (fun r => let '(i, n) := distribute c N b r P in zrange i (i + n)) (zrange 0 (P + 1)) = zrange 0 N.
Proof.
  intros HN Hb HP. destruct (distribute_ok c N b P HN Hb HP) as (A & B & C).
  set (f := fun r => fst (distribute c N b r P)).
  assert (H0 : f 0 = 0).
  { pose proof (A 0 ltac:(lia)) as A0. unfold f. destruct (distribute c N b 0 P) as [i n] eqn:E0. cbn.
    destruct (Z.eq_dec N 0) as [->|NN]; [lia|].
    destruct (B 0 ltac:(lia)) as (p & (Hp & Hr) & _).
    assert (G : forall k, 0 <= k -> k <= P -> f 0 <= f k).
    { intros k Hk. pattern k. apply natlike_ind; [lia| |exact Hk].
      intros x Hx IH HxP. specialize (C x ltac:(lia)). unfold f in *. rewrite Z.add_1_r in C. rewrite C.
      pose proof (A x ltac:(lia)) as Ax. destruct (distribute c N b x P). cbn in *. lia. }
    pose proof (G p ltac:(lia) ltac:(lia)) as Gp. unfold f in Gp. rewrite E0 in Gp.
    destruct (distribute c N b p P). cbn in *. lia. }
  assert (HM : forall s, 0 <= s < P -> f s <= f (s + 1)).
  { intros s Hs. unfold f. rewrite C by lia. pose proof (A s ltac:(lia)) as As.
    destruct (distribute c N b s P). cbn in *. lia. }
  rewrite (zrange_app 0 P (P + 1)) by lia. rewrite flat_map_app.
  rewrite (zrange_cons P) by lia. rewrite (zrange_nil (P + 1)) by lia. cbn [flat_map]. rewrite app_nil_r.
  destruct (zrange_flat f P ltac:(lia) HM) as (E & L).
  transitivity (zrange 0 (f P) ++ zrange (f P) N).
  - f_equal.
    + rewrite H0 in E. rewrite <- E. apply flat_map_ext_in. intros r Hr. apply in_zrange in Hr.
      specialize (C r ltac:(lia)). unfold f. destruct (distribute c N b r P). cbn in *. rewrite C. reflexivity.
    + pose proof (A P ltac:(lia)) as AP. unfold f. destruct (distribute c N b P P). cbn. f_equal. lia.
  - symmetry. apply zrange_app. pose proof (A P ltac:(lia)) as AP. unfold f in *.
    destruct (distribute c N b P P). cbn in *. lia.
Qed.

Lemma NoDup_app3 {A} (l m : list A) : NoDup l -> NoDup m -> (forall x, In x l -> In x m -> False) -> NoDup (l ++ m).
Proof.
  induction l as [|a l IH]; intros H1 H2 H3; [exact H2|]. cbn. inversion H1; subst. constructor.
  - rewrite in_app_iff. intros [?|?]; [auto|]. apply (H3 a); [left; reflexivity|auto].
  - apply IH; auto. intros x ? ?. apply (H3 x); [right|]; auto.
Qed.

(* ---------- energy ---------- *)
Lemma fold_sum {A} (f : A -> R) l : forall z, fold_left (fun x k => (x + f k)%R) l z = (z + sumR (map f l))%R.
Proof. induction l as [|a l IH]; intros z; cbn; [unfold sumR; cbn; lra|]. rewrite IH. unfold sumR. cbn. lra. Qed.

Lemma sumR_flat_map {A B} (f : B -> R) (g : A -> list B) l :
  sumR (map f (flat_map g l)) = sumR (map (fun a => sumR (map f (g a))) l).
Proof. induction l as [|a l IH]; [reflexivity|]. cbn [flat_map map]. rewrite map_app, sumR_app, IH. reflexivity. Qed.

Lemma energy_total c np P (e : Z -> R) : 0 <= np < 2 ^ 31 -> 1 <= P < 2 ^ 31 ->
  energy_p 0%R Rplus c np P e = sumR (map e (zrange 0 np)).
Proof.
  intros HN HP. unfold energy_p. rewrite fold_sum, Rplus_0_l.
  rewrite <- (distribute_concat c np 16 P) by lia. rewrite sumR_flat_map.
  f_equal. apply map_ext. intros r. unfold energy_seg.
  destruct (distribute c np 16 r P). rewrite fold_sum. lra.
Qed.

(* ---------- mover segments ---------- *)
Section Seg.
Context {M : Type} (hit : Z -> option M).

Definition hits (ks : list Z) : list (Z * M) :=
  flat_map (fun k => match hit k with Some m => [(k, m)] | None => [] end) ks.

Lemma seg_loop_spec cap ks : forall nm ign,
  seg_loop hit cap ks nm ign =
  (nm ++ map snd (firstn (Z.to_nat cap - length nm) (hits ks)),
   ign ++ map fst (skipn (Z.to_nat cap - length nm) (hits ks))).
Proof.
  induction ks as [|k ks IH]; intros nm ign; cbn [seg_loop hits flat_map].
  - rewrite firstn_nil, skipn_nil, !app_nil_r. reflexivity.
  - fold (hits ks). destruct (hit k) as [m|]; [|rewrite IH; reflexivity].
    destruct (Z.ltb_spec (Z.of_nat (length nm)) cap).
    + rewrite IH. rewrite app_length. cbn [length app].
      replace (Z.to_nat cap - length nm)%nat with (S (Z.to_nat cap - (length nm + 1)))%nat by lia.
      cbn [firstn skipn map snd]. rewrite <- app_assoc. reflexivity.
    + rewrite IH. replace (Z.to_nat cap - length nm)%nat with 0%nat by lia.
      cbn [firstn skipn map app fst]. rewrite <- app_assoc. reflexivity.
Qed.

Variables (c : bool) (np max_nm P : Z).
Hypothesis Hnp : 0 <= np < 2 ^ 31.
Hypothesis Hm : 0 <= max_nm < 2 ^ 31.
Hypothesis HP : 1 <= P < 2 ^ 31.

Definition mm : Z := Z.max 0 (max_nm - np mod 16).
Lemma mm_eq : (let m := max_nm - Z.land np 15 in if m <? 0 then 0 else m) = mm.
Proof. unfold mm. cbv zeta. change 15 with (Z.ones 4). rewrite Z.land_ones by lia. change (2 ^ 4) with 16. destruct (Z.ltb_spec (max_nm - np mod 16) 0); lia. Qed.
Lemma mm_range : 0 <= mm < 2 ^ 31 /\ mm <= max_nm.
Proof. unfold mm. pose proof (Z.mod_pos_bound np 16). lia. Qed.

Definition base r := seg_base c np max_nm P r.
Definition cap r := seg_cap c np max_nm P r.
Lemma base_eq r : base r = fst (distribute c mm 8 r P).
Proof. unfold base, seg_base. rewrite <- mm_eq. reflexivity. Qed.
Lemma cap_eq r : cap r = if r =? P then max_nm - base r else snd (distribute c mm 8 r P).
Proof. unfold cap, seg_cap. rewrite <- mm_eq. reflexivity. Qed.

Lemma base_0 : base 0 = 0.
Proof.
  rewrite base_eq. unfold distribute. cbn [fst].
  rewrite split_0; [lia| |lia]. pose proof mm_range.
  pose proof (Z.quot_pos mm 8). pose proof (Z.quot_le_upper_bound mm 8 mm). lia.
Qed.

Lemma base_next r : 0 <= r < P -> base (r + 1) = base r + cap r /\ 0 <= cap r /\ 0 <= base r.
Proof.
  intros Hr. pose proof mm_range as R. destruct (distribute_ok c mm 8 P ltac:(lia) ltac:(lia) HP) as (A & _ & C).
  rewrite !base_eq, cap_eq. destruct (Z.eqb_spec r P); [lia|]. rewrite C by lia.
  pose proof (A r ltac:(lia)) as Ar. destruct (distribute c mm 8 r P). cbn in *. lia.
Qed.
Lemma base_P : 0 <= base P /\ base P + cap P = max_nm /\ 0 <= cap P /\ (np mod 16 <= max_nm -> np mod 16 <= cap P).
Proof.
  pose proof mm_range as R. destruct (distribute_ok c mm 8 P ltac:(lia) ltac:(lia) HP) as (A & _ & _).
  pose proof (A P ltac:(lia)) as AP. rewrite cap_eq, Z.eqb_refl, base_eq. destruct (distribute c mm 8 P P). cbn in *.
  unfold mm in *. lia.
Qed.

Definition kept r := fst (seg_run hit c np max_nm P r).
Definition lost r := snd (seg_run hit c np max_nm P r).
Definition rng r := let '(n0, n) := distribute c np 16 r P in zrange n0 (n0 + n).
Lemma run_eq r : kept r = map snd (firstn (Z.to_nat (cap r)) (hits (rng r))) /\
                 lost r = map fst (skipn (Z.to_nat (cap r)) (hits (rng r))).
Proof.
  unfold kept, lost, seg_run, rng. destruct (distribute c np 16 r P). rewrite seg_loop_spec. cbn [length fst snd app].
  rewrite Nat.sub_0_r. split; reflexivity.
Qed.
Definition klen r := Z.of_nat (length (kept r)).
Lemma klen_cap r : 0 <= cap r -> 0 <= klen r <= cap r.
Proof.
  intros H. unfold klen. destruct (run_eq r) as (-> & _). rewrite map_length, firstn_length. lia.
Qed.
Lemma cap_nonneg r : 0 <= r <= P -> 0 <= cap r.
Proof. intros. destruct (Z.eq_dec r P) as [->|]; [apply base_P|apply base_next; lia]. Qed.
Lemma base_mono r : 0 <= r -> r <= P -> forall r', r <= r' -> r' <= P -> base r <= base r'.
Proof.
  intros H0 HrP r' Hr' HP'. replace r' with (r + (r' - r)) in * by lia.
  assert (D : 0 <= r' - r) by lia. revert HP'. generalize dependent (r' - r). intros d _.
  intros D. pattern d. apply natlike_ind; [| |exact D].
  - rewrite Z.add_0_r. lia.
  - intros x Hx IH Hle. replace (r + Z.succ x) with (r + x + 1) by lia. pose proof (base_next (r + x)). lia.
Qed.
Lemma base_below r r' : 0 <= r -> r < r' -> r' <= P -> base r + cap r <= base r'.
Proof. intros. pose proof (base_next r). pose proof (base_mono (r + 1) ltac:(lia) ltac:(lia) r'). lia. Qed.

(* addresses *)
Lemma writes_in r i m : 0 <= r <= P -> In (i, m) (seg_writes hit c np max_nm P r) ->
  exists k, i = base r + Z.of_nat k /\ nth_error (kept r) k = Some m /\ base r <= i < base r + cap r.
Proof.
  intros Hr H. unfold seg_writes in H. fold (base r) (kept r) in H.
  pose proof (klen_cap r (cap_nonneg r Hr)) as L. unfold klen in L.
  assert (G : forall (l : list M) s, In (i, m) (combine (map (fun k => base r + Z.of_nat k) (seq s (length l))) l) ->
     exists k, (k < length l)%nat /\ i = base r + Z.of_nat (s + k) /\ nth_error l k = Some m).
  { induction l as [|x l IH]; intros s; cbn [length seq map combine]; [intros []|].
    intros [E|E].
    - injection E as <- <-. exists 0%nat. cbn. split; [lia|]. split; [f_equal; lia|reflexivity].
    - apply IH in E. destruct E as (k & A & B & C). exists (S k). cbn. split; [lia|]. split; [rewrite B; f_equal; lia|exact C]. }
  apply G in H. destruct H as (k & A & B & C). exists k. rewrite Nat.add_0_l in B. split; [exact B|]. split; [exact C|]. lia.
Qed.
Lemma writes_addr r : map fst (seg_writes hit c np max_nm P r) = zrange (base r) (base r + klen r).
Proof.
  unfold seg_writes. fold (base r) (kept r).
  assert (G : forall (l : list M) s, map fst (combine (map (fun k => base r + Z.of_nat k) (seq s (length l))) l) =
            map (fun k => base r + Z.of_nat k) (seq s (length l))).
  { induction l as [|x l IH]; intros s; cbn [length seq map combine]; [reflexivity|]. cbn. rewrite IH. reflexivity. }
  rewrite G. unfold zrange, klen. f_equal. f_equal. lia.
Qed.
Lemma writes_val r k m : nth_error (kept r) k = Some m -> In (base r + Z.of_nat k, m) (seg_writes hit c np max_nm P r).
Proof.
  unfold seg_writes. fold (base r) (kept r). intros H.
  assert (G : forall (l : list M) s k, nth_error l k = Some m ->
     In (base r + Z.of_nat (s + k), m) (combine (map (fun k => base r + Z.of_nat k) (seq s (length l))) l)).
  { induction l as [|x l IH]; intros s [|j] E; try discriminate; cbn [length seq map combine].
    - injection E as ->. left. f_equal. f_equal. lia.
    - right. replace (s + S j)%nat with (S s + j)%nat by lia. apply IH, E. }
  apply (G _ 0%nat _ H).
Qed.

Definition all_writes := flat_map (seg_writes hit c np max_nm P) (zrange 0 (P + 1)).

Lemma all_nodup : NoDup (map fst all_writes).
Proof.
  unfold all_writes.
  assert (G : forall k, 0 <= k -> k <= P + 1 -> forall i, In i (map fst (flat_map (seg_writes hit c np max_nm P) (zrange 0 k))) ->
     exists r, 0 <= r < k /\ base r <= i < base r + cap r).
  { intros k _ Hk i Hi. apply in_map_iff in Hi. destruct Hi as ([i' m] & E & Hi). cbn in E; subst i'.
    apply in_flat_map in Hi. destruct Hi as (r & Hr & Hi). apply in_zrange in Hr.
    apply writes_in in Hi; [|lia]. destruct Hi as (q & _ & _ & Hb). exists r. lia. }
  assert (forall k, 0 <= k -> k <= P + 1 -> NoDup (map fst (flat_map (seg_writes hit c np max_nm P) (zrange 0 k)))) as H.
  2:{ apply H; lia. }
  intros k Hk. pattern k. apply natlike_ind; [|clear k Hk; intros k Hk IH HkP|exact Hk].
  - intros _. rewrite zrange_nil by lia. constructor.
  - rewrite <- Z.add_1_r. rewrite (zrange_app 0 k (k + 1)) by lia. rewrite flat_map_app, map_app.
    rewrite (zrange_cons k) by lia. rewrite (zrange_nil (k + 1)) by lia. cbn [flat_map]. rewrite app_nil_r.
    rewrite writes_addr. apply NoDup_app3; [apply IH; lia|apply NoDup_zrange|].
    intros i H1 H2. apply G in H1; [|lia|lia]. destruct H1 as (r & Hr & Hb).
    apply in_zrange in H2. pose proof (base_below r k ltac:(lia) ltac:(lia) ltac:(lia)). lia.
Qed.

(* memory after the stores, in whatever order they arrive *)
Lemma mstores_notin (ws : list (Z * M)) : forall mem n, ~ In n (map fst ws) -> mstores mem ws n = mem n.
Proof.
  induction ws as [|[i m] ws IH]; intros mem n H; [reflexivity|]. cbn in H. unfold mstores in *. cbn [fold_left].
  rewrite IH by tauto. unfold mstore. cbn. destruct (Z.eqb_spec n i); [subst; tauto|reflexivity].
Qed.
Lemma mstores_in (ws : list (Z * M)) : forall mem i m, NoDup (map fst ws) -> In (i, m) ws -> mstores mem ws i = Some m.
Proof.
  induction ws as [|[j x] ws IH]; intros mem i m ND H; [destruct H|]. cbn in ND. inversion ND; subst.
  destruct H as [E|H].
  - injection E as -> ->. unfold mstores. cbn [fold_left]. fold (mstores (mstore mem (i, m)) ws).
    rewrite mstores_notin by auto. unfold mstore. cbn. rewrite Z.eqb_refl. reflexivity.
  - unfold mstores. cbn [fold_left]. apply IH; auto.
Qed.

Lemma stored mem ws r k : Permutation ws all_writes -> 0 <= r <= P -> (k < length (kept r))%nat ->
  mstores mem ws (base r + Z.of_nat k) = nth_error (kept r) k.
Proof.
  intros HPm Hr Hk. destruct (nth_error (kept r) k) as [m|] eqn:E; [|apply nth_error_None in E; lia].
  apply mstores_in.
  - apply (Permutation_NoDup (Permutation_map fst (Permutation_sym HPm))). apply all_nodup.
  - apply (Permutation_in _ (Permutation_sym HPm)). unfold all_writes. apply in_flat_map.
    exists r. split; [apply in_zrange; lia|]. apply writes_val, E.
Qed.

Definition kept_all := flat_map kept (zrange 0 (P + 1)).
Definition lost_all := flat_map lost (zrange 0 (P + 1)).

Lemma compact_spec mem0 : forall n k mem nm done,
  (n <= Z.to_nat (P + 1))%nat -> k = P + 1 - Z.of_nat n -> nm = Z.of_nat (length done) -> (0 <= nm <= if k =? P + 1 then max_nm else base k) ->
  (forall j, (j < length done)%nat -> mem (Z.of_nat j) = nth_error done j) ->
  (forall r j, k <= r <= P -> (j < length (kept r))%nat -> mem (base r + Z.of_nat j) = nth_error (kept r) j) ->
  (forall j, max_nm <= j -> mem j = mem0 j) ->
  let '(mem', nm') := compact base klen (zrange k (P + 1)) mem nm in
  let res := done ++ flat_map kept (zrange k (P + 1)) in
  nm' = Z.of_nat (length res) /\ nm' <= max_nm /\
  (forall j, (j < length res)%nat -> mem' (Z.of_nat j) = nth_error res j) /\
  (forall j, max_nm <= j -> mem' j = mem0 j).
Proof.
  induction n as [|n IH]; intros k mem nm done Hn Hk Hnm Hle HD HS HM0.
  - rewrite zrange_nil by lia. cbn [compact flat_map]. rewrite app_nil_r.
    replace (k =? P + 1) with true in Hle by lia. split; [exact Hnm|]. split; [lia|]. split; [exact HD|exact HM0].
  - rewrite zrange_cons by lia. cbn [compact flat_map].
    replace (k =? P + 1) with false in Hle by lia.
    pose proof (klen_cap k (cap_nonneg k ltac:(lia))) as KC. unfold klen in KC.
    rewrite app_assoc.
    assert (BK : base k + cap k <= max_nm).
    { destruct (Z.eq_dec k P) as [->|]; [pose proof base_P; lia|].
      pose proof (base_below k P ltac:(lia) ltac:(lia) ltac:(lia)). pose proof base_P. lia. }
    set (mem1 := if nm =? base k then mem else mmove mem nm (base k) (klen k)).
    assert (E1 : forall j, mem1 j = if (nm <=? j) && (j <? nm + klen k) then mem (j - nm + base k) else mem j).
    { intros j. unfold mem1. destruct (Z.eqb_spec nm (base k)) as [->|]; [|reflexivity].
      destruct ((base k <=? j) && (j <? base k + klen k)); [f_equal; lia|reflexivity]. }
    apply IH.
    + lia.
    + lia.
    + rewrite app_length, Nat2Z.inj_add. unfold klen. lia.
    + unfold klen in *. destruct (Z.eqb_spec (k + 1) (P + 1)); [lia|].
      pose proof (base_next k ltac:(lia)). lia.
    + intros j Hj. rewrite app_length in Hj. rewrite E1. unfold klen.
      destruct (Z.ltb_spec (Z.of_nat j) nm).
      * replace (nm <=? Z.of_nat j) with false by lia. cbn [andb]. rewrite HD by lia.
        rewrite nth_error_app1 by lia. reflexivity.
      * replace (nm <=? Z.of_nat j) with true by lia.
        replace (Z.of_nat j <? nm + Z.of_nat (length (kept k))) with true by lia. cbn [andb].
        rewrite nth_error_app2 by lia.
        replace (Z.of_nat j - nm + base k) with (base k + Z.of_nat (j - length done)) by lia.
        apply HS; [lia|lia].
    + intros r j Hr Hj. rewrite E1.
      pose proof (base_below k r ltac:(lia) ltac:(lia) ltac:(lia)) as BB. unfold klen.
      replace (base r + Z.of_nat j <? nm + Z.of_nat (length (kept k))) with false by lia.
      rewrite andb_false_r. apply HS; lia.
    + intros j Hj. rewrite E1. unfold klen.
      replace (j <? nm + Z.of_nat (length (kept k))) with false by lia.
      rewrite andb_false_r. apply HM0, Hj.
Qed.

Lemma writes_bounds i m : In (i, m) all_writes -> 0 <= i < max_nm.
Proof.
  intros H. unfold all_writes in H. apply in_flat_map in H. destruct H as (r & Hr & H). apply in_zrange in Hr.
  apply writes_in in H; [|lia]. destruct H as (k & E & _ & B).
  pose proof (base_mono 0 ltac:(lia) ltac:(lia) r ltac:(lia) ltac:(lia)). rewrite base_0 in *.
  destruct (Z.eq_dec r P) as [->|]; [pose proof base_P; lia|].
  pose proof (base_below r P ltac:(lia) ltac:(lia) ltac:(lia)). pose proof base_P. lia.
Qed.

Lemma advance_movers_spec mem ws : Permutation ws all_writes ->
  let '(mem', nm) := advance_movers hit c np max_nm P mem ws in
  nm = Z.of_nat (length kept_all) /\ nm <= max_nm /\
  (forall j, (j < length kept_all)%nat -> mem' (Z.of_nat j) = nth_error kept_all j) /\
  (forall j, max_nm <= j -> mem' j = mem j).
Proof.
  intros HPm. unfold advance_movers.
  pose proof (compact_spec mem (Z.to_nat (P + 1)) 0 (mstores mem ws) 0 []) as CS.
  cbn [app length] in CS. change (fun r => Z.of_nat (length (fst (seg_run hit c np max_nm P r)))) with klen.
  change (seg_base c np max_nm P) with base. apply CS.
  - lia.
  - lia.
  - lia.
  - rewrite base_0. destruct (0 =? P + 1); lia.
  - intros j Hj. lia.
  - intros r j Hr Hj. apply stored; auto.
  - intros j Hj. apply mstores_notin. intros H.
    apply (Permutation_in _ (Permutation_map fst HPm)) in H. apply in_map_iff in H.
    destruct H as ([i m] & E & H). cbn in E; subst i. apply writes_bounds in H. lia.
Qed.

(* what is in the list *)
Lemma hits_app l m : hits (l ++ m) = hits l ++ hits m.
Proof. apply flat_map_app. Qed.
Lemma hits_flat (f : Z -> list Z) l : hits (flat_map f l) = flat_map (fun r => hits (f r)) l.
Proof. induction l as [|a l IH]; [reflexivity|]. cbn [flat_map]. rewrite hits_app, IH. reflexivity. Qed.

Definition sel r := firstn (Z.to_nat (cap r)) (hits (rng r)).
Definition rej r := skipn (Z.to_nat (cap r)) (hits (rng r)).
Lemma kept_sel l : flat_map kept l = map snd (flat_map sel l).
Proof. induction l as [|r l IH]; [reflexivity|]. cbn [flat_map]. rewrite map_app, IH. f_equal. apply run_eq. Qed.
Lemma lost_rej l : flat_map lost l = map fst (flat_map rej l).
Proof. induction l as [|r l IH]; [reflexivity|]. cbn [flat_map]. rewrite map_app, IH. f_equal. apply run_eq. Qed.
Lemma sel_rej_perm l : Permutation (flat_map sel l ++ flat_map rej l) (flat_map (fun r => hits (rng r)) l).
Proof.
  induction l as [|r l IH]; [constructor|]. cbn [flat_map]. rewrite <- (firstn_skipn (Z.to_nat (cap r)) (hits (rng r))).
  fold (sel r) (rej r). rewrite <- !app_assoc. apply Permutation_app_head.
  rewrite <- IH. rewrite !app_assoc. apply Permutation_app_tail. apply Permutation_app_comm.
Qed.
Lemma hits_all : flat_map (fun r => hits (rng r)) (zrange 0 (P + 1)) = hits (zrange 0 np).
Proof. rewrite <- hits_flat. f_equal. unfold rng. apply distribute_concat; lia. Qed.

Definition Slt (l : list Z) := StronglySorted Z.lt l.
Lemma Slt_app l m : Slt (l ++ m) <-> Slt l /\ Slt m /\ (forall x y, In x l -> In y m -> x < y).
Proof.
  unfold Slt. induction l as [|a l IH]; cbn [app].
  - split; [intros H; repeat split; [constructor|exact H|intros ? ? []]|tauto].
  - split.
    + intros H. apply StronglySorted_inv in H. destruct H as (H & F). apply IH in H. destruct H as (A & B & C).
      rewrite Forall_app in F. destruct F as (F1 & F2). split; [constructor; auto|]. split; [auto|].
      intros x y [<-|Hx] Hy; [rewrite Forall_forall in F2; auto|auto].
    + intros (A & B & C). apply StronglySorted_inv in A. destruct A as (A & F). constructor.
      * apply IH. split; [auto|]. split; [auto|]. intros. apply C; [right|]; auto.
      * rewrite Forall_app. split; [auto|]. rewrite Forall_forall. intros y Hy. apply C; [left; reflexivity|auto].
Qed.
Lemma Slt_zrange lo hi : Slt (zrange lo hi).
Proof.
  remember (Z.to_nat (hi - lo)) as n eqn:En. revert lo En. induction n as [|n IH]; intros lo En.
  - rewrite zrange_nil by lia. constructor.
  - rewrite zrange_cons by lia. constructor; [apply IH; lia|]. rewrite Forall_forall. intros x Hx. apply in_zrange in Hx. lia.
Qed.
Lemma hits_fst_in l x : In x (map fst (hits l)) -> In x l.
Proof.
  intros H. apply in_map_iff in H. destruct H as ([k m] & E & H). cbn in E; subst. unfold hits in H.
  apply in_flat_map in H. destruct H as (y & Hy & H). destruct (hit y); [|destruct H].
  destruct H as [E|[]]. injection E as -> ->. exact Hy.
Qed.
Lemma Slt_hits l : Slt l -> Slt (map fst (hits l)).
Proof.
  induction l as [|a l IH]; intros H; [constructor|]. apply StronglySorted_inv in H. destruct H as (H & F).
  change (hits (a :: l)) with ((match hit a with Some m => [(a, m)] | None => [] end) ++ hits l).
  rewrite map_app. apply Slt_app. split; [destruct (hit a); repeat constructor|]. split; [auto|].
  intros x y Hx Hy. destruct (hit a); cbn in Hx; [|tauto]. destruct Hx as [<-|[]].
  rewrite Forall_forall in F. apply F. apply hits_fst_in, Hy.
Qed.
Lemma sel_sorted : forall l, Slt (map fst (flat_map (fun r => hits (rng r)) l)) -> Slt (map fst (flat_map sel l)).
Proof.
  induction l as [|r l IH]; intros H; [constructor|]. cbn [flat_map] in *. rewrite map_app in *.
  apply Slt_app in H. destruct H as (A & B & C). apply Slt_app.
  rewrite <- (firstn_skipn (Z.to_nat (cap r)) (hits (rng r))) in A. rewrite map_app in A. apply Slt_app in A.
  split; [apply A|]. split; [auto|].
  intros x y Hx Hy. apply C.
  - apply in_map_iff in Hx. destruct Hx as (e & E & Hx). apply in_map_iff. exists e. split; [auto|].
    rewrite <- (firstn_skipn (Z.to_nat (cap r)) (hits (rng r))). apply in_or_app. left. exact Hx.
  - apply in_map_iff in Hy. destruct Hy as (e & E & Hy). apply in_map_iff. exists e. split; [auto|].
    apply in_flat_map in Hy. destruct Hy as (r' & Hr' & Hy). apply in_flat_map. exists r'. split; [auto|].
    rewrite <- (firstn_skipn (Z.to_nat (cap r')) (hits (rng r'))). apply in_or_app. left. exact Hy.
Qed.

Lemma kept_sorted (idx : M -> Z) : (forall k m, hit k = Some m -> idx m = k) ->
  map idx kept_all = map fst (flat_map sel (zrange 0 (P + 1))) /\ Slt (map idx kept_all).
Proof.
  intros HI.
  assert (E : map idx kept_all = map fst (flat_map sel (zrange 0 (P + 1)))).
  { unfold kept_all. rewrite kept_sel, map_map. apply map_ext_in. intros [k m] H. cbn.
    apply in_flat_map in H. destruct H as (r & _ & H).
    assert (H' : In (k, m) (hits (rng r))).
    { rewrite <- (firstn_skipn (Z.to_nat (cap r)) (hits (rng r))). apply in_or_app. left. exact H. }
    unfold hits in H'. apply in_flat_map in H'. destruct H' as (y & _ & H'). destruct (hit y) eqn:Ey; [|destruct H'].
    destruct H' as [EE|[]]. injection EE as -> ->. apply HI, Ey. }
  split; [exact E|]. rewrite E. apply sel_sorted. rewrite hits_all. apply Slt_hits, Slt_zrange.
Qed.

Lemma kept_lost_perm (idx : M -> Z) : (forall k m, hit k = Some m -> idx m = k) ->
  Permutation (map idx kept_all ++ lost_all) (filter (fun k => match hit k with Some _ => true | None => false end) (zrange 0 np)).
Proof.
  intros HI. destruct (kept_sorted idx HI) as (-> & _). unfold lost_all. rewrite lost_rej, <- map_app.
  rewrite sel_rej_perm, hits_all.
  assert (E : forall l, map fst (hits l) = filter (fun k => match hit k with Some _ => true | None => false end) l).
  { induction l as [|a l IH]; [reflexivity|].
    change (hits (a :: l)) with ((match hit a with Some m => [(a, m)] | None => [] end) ++ hits l).
    rewrite map_app, IH. cbn [filter]. destruct (hit a); reflexivity. }
  rewrite E. apply Permutation_refl.
Qed.

Lemma hits_len l : (length (hits l) <= length l)%nat.
Proof.
  induction l as [|a l IH]; [cbn; lia|].
  change (hits (a :: l)) with ((match hit a with Some m => [(a, m)] | None => [] end) ++ hits l).
  rewrite app_length. cbn [length]. destruct (hit a); cbn [length]; lia.
Qed.
Lemma host_never_ignores : np mod 16 <= max_nm -> lost P = [].
Proof.
  intros H. destruct (run_eq P) as (_ & ->). rewrite skipn_all2; [reflexivity|].
  pose proof (hits_len (rng P)) as L. destruct base_P as (_ & _ & _ & C). specialize (C H).
  destruct (distribute_ok c np 16 P ltac:(lia) ltac:(lia) HP) as (A & _ & _).
  pose proof (A P ltac:(lia)) as AP. unfold rng in *. destruct (distribute c np 16 P P) as [i n].
  destruct AP as (_ & _ & _ & _ & _ & AP). destruct (AP eq_refl) as (-> & _).
  unfold zrange in L at 2. rewrite map_length, seq_length in L. lia.
Qed.
End Seg.
