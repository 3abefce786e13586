(* Proofs about the accumulator and interpolator arrays. *)
Require Import Reals Lra.
Require Import Verif.ParticleModel.
From Coq Require Import ZArith List Bool Lia ZifyBool Permutation.
From Verif Require Import DistributeModel DistributeProofs VoxelModel VoxelProofs SortModel SortProofs SweepModel SweepProofs FieldModel SfModel.
Import ListNotations.
Open Scope Z_scope.
Ltac Zify.zify_post_hook ::= idtac.

Lemma ceil2_spec u : 0 <= u -> ceil2 u = (u + 1) / 2 * 2.
Proof.
  intros H. unfold ceil2. change (2 - 1) with (Z.ones 1). rewrite <- Z.ldiff_land, Z.ldiff_ones_r by lia.
  rewrite Z.shiftl_mul_pow2, Z.shiftr_div_pow2 by lia. change (2 ^ 1) with 2. f_equal. f_equal. change (Z.ones 1) with 1. lia.
Qed.
Lemma ceil2_bounds u : 0 <= u -> u <= ceil2 u <= u + 1.
Proof. intros H. rewrite ceil2_spec by exact H. pose proof (Z.div_mod (u + 1) 2 ltac:(lia)). pose proof (Z.mod_pos_bound (u + 1) 2 ltac:(lia)). lia. Qed.
Lemma in_ranks P p : 0 <= P -> In p (ranks P) <-> 0 <= p <= P.
Proof.
  intros H. unfold ranks. rewrite in_map_iff. split.
  - intros (k & <- & I). apply in_seq in I. lia.
  - intros I. exists (Z.to_nat p). split; [lia|]. apply in_seq. lia.
Qed.
Lemma NoDup_ranks P : NoDup (ranks P).
Proof.
  unfold ranks. apply FinFun.Injective_map_NoDup; [intros a b E; lia|apply seq_NoDup].
Qed.

Lemma seq_shift_add n c : seq (1 + n) c = map (fun r => (r + n)%nat) (seq 1 c).
Proof.
  revert n. generalize 1%nat as s. induction c as [|c IH]; intros s n; [reflexivity|]. cbn [seq map]. f_equal. apply (IH (S s) n).
Qed.

Lemma racy_congr (loc val op : Type) eqb (ex ex' : op -> (loc -> val) -> list (loc * val)) host hs hh m ops r hs' :
  racy loc val op eqb ex host hs hh m ops r hs' -> (forall o m', In o ops -> ex o m' = ex' o m') -> racy loc val op eqb ex' host hs hh m ops r hs'.
Proof.
  intros H. induction H as [|hs hh m o ops s r hs' Hs Hr IH]; intros E; [constructor|]. econstructor; [exact Hs|].
  rewrite <- E by (left; reflexivity). apply IH. intros o' m' I. apply E. right. exact I.
Qed.
Lemma phase_run_congr (loc val op : Type) eqb (ex ex' : op -> (loc -> val) -> list (loc * val)) host ops m r :
  (forall o m', In o ops -> ex o m' = ex' o m') -> phase_run loc val op eqb ex host ops m r -> phase_run loc val op eqb ex' host ops m r.
Proof.
  intros E (ops' & hs' & HP & H). exists ops', hs'. split; [exact HP|]. eapply racy_congr; [exact H|]. intros o m' I. apply E.
  eapply Permutation_in; [symmetry; exact HP|exact I].
Qed.
Lemma stores_map_in {V} a (f : Z -> V) i i1 m k : i <= k < i1 -> stores Z V Z.eqb (map (fun k => (a + k, f k)) (zrange i i1)) m (a + k) = f k.
Proof.
  intros H. assert (E : zrange i i1 = zrange i k ++ zrange k i1) by (rewrite <- zrange_app by lia; reflexivity).
  rewrite E, (zrange_cons k) by lia. rewrite map_app. unfold stores. rewrite fold_left_app. cbn [map fold_left]. fold (stores Z V Z.eqb).
  match goal with |- fold_left _ ?l ?m0 ?x = _ => change (stores Z V Z.eqb l m0 x = f k) end.
  rewrite stores_notin; [unfold store; cbn [fst snd]; rewrite Z.eqb_refl; reflexivity|apply Z.eqb_spec|].
  rewrite map_map. cbn [fst]. intros I. apply in_map_iff in I. destruct I as (q & Eq & Iq). apply in_zrange in Iq. lia.
Qed.

(* a sum of the values of a list, each used exactly once, in order, with any grouping *)
Inductive summed {V} (K : num V) : list V -> V -> Prop :=
| summed_one v : summed K [v] v
| summed_plus a b x y : summed K a x -> summed K b y -> summed K (a ++ b) (n_add K x y).

Section Array.
Context {V : Type} (K : num V).
Variable contract : bool.
Variable P : Z.
Hypothesis HP : 1 <= P < 2 ^ 31.

Lemma dist_in N b p : 0 <= N < 2 ^ 31 -> 1 <= b -> 0 <= p <= P -> forall i n, distribute contract N b p P = (i, n) -> 0 <= i /\ 0 <= n /\ i + n <= N.
Proof.
  intros HN Hb Hp i n E. destruct (distribute_ok contract N b P HN Hb HP) as [H _]. specialize (H p Hp). rewrite E in H. tauto.
Qed.
Lemma dist_one N b k : 0 <= N < 2 ^ 31 -> 1 <= b -> 0 <= k < N -> exists p i n, 0 <= p <= P /\ distribute contract N b p P = (i, n) /\ i <= k < i + n.
Proof.
  intros HN Hb Hk. destruct (distribute_ok contract N b P HN Hb HP) as (_ & H & _). destruct (H k Hk) as (p & [Hp E] & _).
  destruct (distribute contract N b p P) as [i n] eqn:D. exists p, i, n. tauto.
Qed.
Lemma dist_disjoint N b p q i n i' n' k : 0 <= N < 2 ^ 31 -> 1 <= b -> 0 <= p <= P -> 0 <= q <= P ->
  distribute contract N b p P = (i, n) -> distribute contract N b q P = (i', n') -> i <= k < i + n -> i' <= k < i' + n' -> p = q.
Proof.
  intros HN Hb Hp Hq E E' H H'. pose proof (dist_in N b p HN Hb Hp i n E).
  destruct (distribute_ok contract N b P HN Hb HP) as (_ & U & _). destruct (U k ltac:(lia)) as (w & _ & U').
  rewrite (U' p Hp), (U' q Hq); [reflexivity|rewrite E'; lia|rewrite E; lia].
Qed.
Lemma pairwise_nodup W R l : (forall a b, In a l -> In b l -> a <> b -> indep Z Z W R a b) -> NoDup l -> pairwise Z Z W R l.
Proof.
  intros H N. induction N as [|a l Hi Hn IH]; [constructor|]. constructor.
  - intros b Hb. assert (a <> b) by (intros ->; contradiction). split; apply H; try (left; reflexivity); try (right; exact Hb); congruence.
  - apply IH. intros x y Hx Hy. apply H; right; assumption.
Qed.

(* ---- clear ---- *)
Record args_ok (g : rargs) : Prop := {
  ok_n : 0 <= ra_n g < 2 ^ 31; ok_s : ra_n g <= ra_s_array g; ok_a : 0 <= ra_n_array g; ok_b : 1 <= ra_n_block g }.
(* location l is element k of copy c *)
Definition element (g : rargs) (c k l : Z) : Prop :=
  0 <= c < ra_n_array g /\ 0 <= k < ra_n g /\ l = ra_a g + c * ra_s_array g + k.
Lemma element_inj g c k c' k' l : args_ok g -> element g c k l -> element g c' k' l -> c = c' /\ k = k'.
Proof.
  intros [_ Hs _ _] (Hc & Hk & ->) (Hc' & Hk' & E). assert (c = c'); [|split; [assumption|subst; lia]].
  destruct (Z.lt_trichotomy c c') as [L|[L|L]]; [exfalso|exact L|exfalso].
  - assert ((c + 1) * ra_s_array g <= c' * ra_s_array g) by nia. lia.
  - assert ((c' + 1) * ra_s_array g <= c * ra_s_array g) by nia. lia.
Qed.
Lemma clear_dom g p m l : In l (map fst (clear_job K contract P g p m)) <->
  exists c k, 0 <= c < ra_n_array g /\ fst (distribute contract (ra_n g) (ra_n_block g) p P) <= k < fst (distribute contract (ra_n g) (ra_n_block g) p P) + snd (distribute contract (ra_n g) (ra_n_block g) p P)
    /\ l = ra_a g + c * ra_s_array g + k.
Proof.
  unfold clear_job. destruct (distribute contract (ra_n g) (ra_n_block g) p P) as [i n]. cbn [fst snd]. rewrite in_map_iff. split.
  - intros ((l' & v) & E & I). cbn [fst] in E. subst l'. apply in_flat_map in I. destruct I as (c & Ic & I). apply in_zrange in Ic.
    apply in_map_iff in I. destruct I as (k & E & Ik). apply in_zrange in Ik. injection E as E _. exists c, (i + k). split; [lia|]. split; [lia|]. lia.
  - intros (c & k & Hc & Hk & ->). exists (ra_a g + c * ra_s_array g + k, n_zero K). split; [reflexivity|]. apply in_flat_map. exists c.
    split; [apply in_zrange; lia|]. apply in_map_iff. exists (k - i). split; [f_equal; lia|apply in_zrange; lia].
Qed.
Lemma stores_const ws v : (forall w, In w ws -> snd w = v) -> forall m l, In l (map fst ws) -> stores Z V Z.eqb ws m l = v.
Proof.
  intros H m l. revert m. induction ws as [|w ws IH]; intros m I; [destruct I|]. unfold stores in *. cbn [fold_left map In] in *.
  destruct (in_dec Z.eq_dec l (map fst ws)) as [J|J].
  - apply IH; [|exact J]. intros w' Hw'. apply H. right. exact Hw'.
  - destruct I as [E|I]; [|contradiction].
    pose proof (stores_notin Z V Z.eqb Z.eqb_spec ws (store Z V Z.eqb m (fst w) (snd w)) l J) as Q. unfold stores in Q. rewrite Q.
    unfold store. rewrite <- E, Z.eqb_refl. apply H. left. reflexivity.
Qed.
Lemma clear_ok g m r : args_ok g -> clear_run K contract P g m r ->
  (forall c k l, element g c k l -> r l = n_zero K) /\ (forall l, (forall c k, ~ element g c k l) -> r l = m l).
Proof.
  intros G H. destruct G as [Gn Gs Ga Gb].
  set (W := fun p => map fst (clear_job K contract P g p m)).
  assert (D : forall o m', map fst (clear_job K contract P g o m') = W o) by reflexivity.
  pose proof (phase_spec Z V Z Z.eqb (clear_job K contract P g) (fun _ => false) W (fun _ => []) Z.eqb_spec D) as S.
  specialize (S (fun _ _ _ _ => eq_refl) (ranks P) m r H). destruct S as [Sw Sn].
  { apply pairwise_nodup; [|apply NoDup_ranks]. intros p q Ip Iq N l Il. split; [|intros []]. intros Jl. apply N.
    apply in_ranks in Ip; [|lia]. apply in_ranks in Iq; [|lia].
    apply clear_dom in Il, Jl. destruct Il as (c & k & Hc & Hk & E). destruct Jl as (c' & k' & Hc' & Hk' & E').
    destruct (distribute contract (ra_n g) (ra_n_block g) p P) as [i n] eqn:Ep. destruct (distribute contract (ra_n g) (ra_n_block g) q P) as [i' n'] eqn:Eq.
    cbn [fst snd] in *. pose proof (dist_in _ _ p Gn Gb Ip _ _ Ep). pose proof (dist_in _ _ q Gn Gb Iq _ _ Eq).
    destruct (element_inj g c k c' k' l) as [-> ->]; [constructor; assumption|repeat split; lia|repeat split; lia|].
    eapply dist_disjoint with (k := k'); [exact Gn|exact Gb|exact Ip|exact Iq|exact Ep|exact Eq|lia|lia]. }
  split.
  - intros c k l (Hc & Hk & E). destruct (dist_one (ra_n g) (ra_n_block g) k Gn Gb Hk) as (p & i & n & Hp & Ed & Hi).
    assert (I : In l (W p)) by (apply clear_dom; rewrite Ed; exists c, k; cbn [fst snd]; tauto).
    rewrite (Sw p l); [|apply in_ranks; lia|exact I]. apply stores_const; [|exact I].
    intros w Hw. unfold clear_job in Hw. rewrite Ed in Hw. apply in_flat_map in Hw. destruct Hw as (x & _ & Hw).
    apply in_map_iff in Hw. destruct Hw as (y & <- & _). reflexivity.
  - intros l Hl. apply Sn. intros p Ip I. apply in_ranks in Ip; [|lia]. apply clear_dom in I. destruct I as (c & k & Hc & Hk & E).
    destruct (distribute contract (ra_n g) (ra_n_block g) p P) as [i n] eqn:Ep. cbn [fst snd] in *. pose proof (dist_in _ _ p Gn Gb Ip _ _ Ep).
    apply (Hl c k). repeat split; lia.
Qed.

(* ---- reduce ---- *)
Lemma O_ext n v w : (forall r, (r <= n)%nat -> v r = w r) -> (n <= 9)%nat -> O_op K n v = O_op K n w.
Proof.
  intros H L. destruct n as [|[|[|[|[|[|[|[|[|[|n]]]]]]]]]]; [..|lia]; unfold O_op; cbv zeta;
    rewrite ?(H 0%nat), ?(H 1%nat), ?(H 2%nat), ?(H 3%nat), ?(H 4%nat), ?(H 5%nat), ?(H 6%nat), ?(H 7%nat), ?(H 8%nat), ?(H 9%nat) by lia; reflexivity.
Qed.
Lemma O_sum n v l : (1 <= n <= 9)%nat -> summed K l (v O) -> summed K (l ++ map v (seq 1 n)) (O_op K n v).
Proof.
  intros L H. assert (P1 : forall a x r, summed K a x -> summed K (a ++ [v r]) (n_add K x (v r))) by (intros; apply summed_plus; [assumption|constructor]).
  assert (P2 : forall a x r s, summed K a x -> summed K (a ++ [v r; v s]) (n_add K x (n_add K (v r) (v s)))).
  { intros a x r s Hx. apply summed_plus; [assumption|]. apply (summed_plus K [v r] [v s]); constructor. }
  assert (P4 : forall a x r s t u, summed K a x -> summed K (a ++ [v r; v s; v t; v u]) (n_add K x (n_add K (n_add K (v r) (v s)) (n_add K (v t) (v u))))).
  { intros a x r s t u Hx. apply summed_plus; [assumption|]. apply (summed_plus K [v r; v s] [v t; v u]); apply (summed_plus K [_] [_]); constructor. }
  assert (P3 : forall a x r s t, summed K a x -> summed K (a ++ [v r; v s; v t]) (n_add K x (n_add K (n_add K (v r) (v s)) (v t)))).
  { intros a x r s t Hx. apply summed_plus; [assumption|]. apply (summed_plus K [v r; v s] [v t]); [apply (summed_plus K [_] [_]); constructor|constructor]. }
  destruct n as [|[|[|[|[|[|[|[|[|[|n]]]]]]]]]]; [lia|..|lia]; unfold O_op; cbv zeta; cbn [seq map].
  - apply P1, H.
  - change [v 1%nat; v 2%nat] with ([v 1%nat] ++ [v 2%nat]). rewrite app_assoc. apply P1, P1, H.
  - change [v 1%nat; v 2%nat; v 3%nat] with ([v 1%nat] ++ [v 2%nat; v 3%nat]). rewrite app_assoc. apply P2, P1, H.
  - change [v 1%nat; v 2%nat; v 3%nat; v 4%nat] with ([v 1%nat] ++ [v 2%nat; v 3%nat] ++ [v 4%nat]). rewrite !app_assoc. apply P1, P2, P1, H.
  - change [v 1%nat; v 2%nat; v 3%nat; v 4%nat; v 5%nat] with ([v 1%nat] ++ [v 2%nat; v 3%nat] ++ [v 4%nat; v 5%nat]). rewrite !app_assoc. apply P2, P2, P1, H.
  - change [v 1%nat; v 2%nat; v 3%nat; v 4%nat; v 5%nat; v 6%nat] with ([v 1%nat] ++ [v 2%nat; v 3%nat] ++ [v 4%nat; v 5%nat; v 6%nat]). rewrite !app_assoc. apply P3, P2, P1, H.
  - change [v 1%nat; v 2%nat; v 3%nat; v 4%nat; v 5%nat; v 6%nat; v 7%nat] with ([v 1%nat] ++ [v 2%nat; v 3%nat] ++ [v 4%nat; v 5%nat; v 6%nat; v 7%nat]). rewrite !app_assoc. apply P4, P2, P1, H.
  - change [v 1%nat; v 2%nat; v 3%nat; v 4%nat; v 5%nat; v 6%nat; v 7%nat; v 8%nat] with ([v 1%nat] ++ [v 2%nat; v 3%nat] ++ [v 4%nat; v 5%nat; v 6%nat; v 7%nat] ++ [v 8%nat]). rewrite !app_assoc. apply P1, P4, P2, P1, H.
  - change [v 1%nat; v 2%nat; v 3%nat; v 4%nat; v 5%nat; v 6%nat; v 7%nat; v 8%nat; v 9%nat] with ([v 1%nat] ++ [v 2%nat; v 3%nat] ++ [v 4%nat; v 5%nat; v 6%nat; v 7%nat] ++ [v 8%nat; v 9%nat]). rewrite !app_assoc. apply P2, P4, P2, P1, H.
Qed.

Lemma red_pass_spec a sr r0 i1 n m : (n <= 9)%nat -> -1 <= r0 -> i1 <= sr -> forall i, 0 <= i ->
  (forall k, i <= k < i1 -> red_pass K a sr r0 i i1 n m (a + k) =
     O_op K n (fun r => match r with O => m (a + k) | _ => m (a + sr + red_int sr r0 k r) end)) /\
  (forall l, ~ (a + i <= l < a + i1) -> red_pass K a sr r0 i i1 n m l = m l).
Proof.
  intros Hn Hr Hs i Hi. remember (Z.to_nat (i1 - i)) as c eqn:Ec. revert i m Hi Ec.
  induction c as [|c IH]; intros i m Hi Ec.
  - unfold red_pass. rewrite zrange_nil by lia. split; [intros; lia|reflexivity].
  - assert (i < i1) by lia. unfold red_pass. rewrite zrange_cons by lia. cbn [fold_left].
    match goal with |- context [fold_left _ _ ?s] => set (m1 := s) end. fold (red_pass K a sr r0 (i + 1) i1 n m1).
    destruct (IH (i + 1) m1 ltac:(lia) ltac:(lia)) as [A B].
    assert (M : forall l, l <> a + i -> m1 l = m l) by (intros l N; unfold m1, store; replace (l =? a + i) with false by lia; reflexivity).
    split.
    + intros k Hk. destruct (Z.eq_dec k i) as [->|Nk].
      * rewrite B by lia. unfold m1, store. rewrite Z.eqb_refl. reflexivity.
      * rewrite A by lia. apply O_ext; [|exact Hn]. intros r Lr. destruct r as [|r]; [apply M; lia|]. apply M. unfold red_int.
        assert (0 <= (Z.of_nat (S r) + r0) * sr) by (apply Z.mul_nonneg_nonneg; lia). lia.
    + intros l Hl. rewrite B by lia. apply M. lia.
Qed.

Fixpoint redval (fuel nr : nat) (r0 : Z) (v0 : V) (b : Z -> V) : V :=
  match fuel, nr with
  | _, O => v0
  | O, _ => v0
  | S f, _ => let n := Nat.min nr 9 in
      redval f (nr - n) (r0 + Z.of_nat n) (O_op K n (fun r => match r with O => v0 | _ => b (Z.of_nat r + r0) end)) b
  end.
Lemma redval_ext fuel : forall nr r0 v0 v0' b b', (forall q, r0 < q <= r0 + Z.of_nat nr -> b q = b' q) -> v0 = v0' ->
  redval fuel nr r0 v0 b = redval fuel nr r0 v0' b'.
Proof.
  induction fuel as [|f IH]; intros [|nr] r0 v0 v0' b b' H E; cbn [redval]; try exact E. cbv zeta. apply IH.
  - intros q Hq. apply H. lia.
  - apply O_ext; [|lia]. intros [|r] Hr; [exact E|]. apply H. lia.
Qed.
Lemma redval_sum fuel : forall nr r0 v0 b l, (nr <= fuel)%nat -> summed K l v0 ->
  summed K (l ++ map (fun r => b (Z.of_nat r + r0)) (seq 1 nr)) (redval fuel nr r0 v0 b).
Proof.
  induction fuel as [|f IH]; intros nr r0 v0 b l L H.
  - assert (nr = O) by lia. subst nr. cbn [seq map redval]. rewrite app_nil_r. exact H.
  - destruct nr as [|nr']; [cbn [seq map redval]; rewrite app_nil_r; exact H|]. set (nr := S nr') in *. cbn [redval].
    replace (match nr with O => v0 | S _ => let n := Nat.min nr 9 in redval f (nr - n) (r0 + Z.of_nat n) (O_op K n (fun r : nat => match r with O => v0 | S _ => b (Z.of_nat r + r0) end)) b end)
      with (redval f (nr - Nat.min nr 9) (r0 + Z.of_nat (Nat.min nr 9)) (O_op K (Nat.min nr 9) (fun r : nat => match r with O => v0 | S _ => b (Z.of_nat r + r0) end)) b) by reflexivity.
    set (n := Nat.min nr 9). assert (N : (1 <= n <= 9)%nat) by (unfold n, nr; lia).
    assert (S1 := O_sum n (fun r : nat => match r with O => v0 | S _ => b (Z.of_nat r + r0) end) l N H).
    specialize (IH (nr - n)%nat (r0 + Z.of_nat n) _ b _ ltac:(unfold nr in *; lia) S1).
    replace (l ++ map (fun r => b (Z.of_nat r + r0)) (seq 1 nr)) with
      ((l ++ map (fun r : nat => match r with O => v0 | S _ => b (Z.of_nat r + r0) end) (seq 1 n)) ++
       map (fun r => b (Z.of_nat r + (r0 + Z.of_nat n))) (seq 1 (nr - n))); [exact IH|].
    rewrite <- app_assoc. f_equal. assert (En : seq 1 nr = seq 1 n ++ seq (1 + n) (nr - n)) by (rewrite <- seq_app; f_equal; lia). rewrite En, map_app. f_equal.
    + apply map_ext_in. intros r I. apply in_seq in I. destruct r; [lia|reflexivity].
    + rewrite (seq_shift_add n (nr - n)), map_map. apply map_ext. intros r. f_equal. lia.
Qed.

Lemma red_ints_okI sr r0 i i1 n : -1 <= r0 -> 0 <= sr -> 0 <= i -> (Z.of_nat n + r0) * sr + i1 <= 2 ^ 31 -> red_ints_ok sr r0 i i1 n = true.
Proof.
  intros Hr Hs Hi H. unfold red_ints_ok. apply forallb_forall. intros k Ik. apply in_zrange in Ik. apply forallb_forall. intros r Ir. apply in_seq in Ir.
  assert (A : 0 <= (Z.of_nat r + r0) * sr) by (apply Z.mul_nonneg_nonneg; lia).
  assert (B : (Z.of_nat r + r0) * sr <= (Z.of_nat n + r0) * sr) by (apply Z.mul_le_mono_nonneg_r; lia).
  unfold red_int, int_ok. set (q := (Z.of_nat r + r0) * sr) in *. clearbody q. set (q' := (Z.of_nat n + r0) * sr) in *. clearbody q'.
  apply andb_true_iff. split; lia.
Qed.
Lemma red_loop_val a sr i i1 : 0 <= i -> i1 <= sr -> 0 <= sr -> forall fuel nr r0 m, (nr <= fuel)%nat -> -1 <= r0 ->
  (Z.of_nat nr + r0) * sr + i1 <= 2 ^ 31 ->
  exists m', red_loop K fuel a sr i i1 nr r0 m = Some m' /\
    (forall k, i <= k < i1 -> m' (a + k) = redval fuel nr r0 (m (a + k)) (fun q => m (a + sr + (k + q * sr)))) /\
    (forall l, ~ (a + i <= l < a + i1) -> m' l = m l).
Proof.
  intros Hi Hs Hs0. induction fuel as [|f IH]; intros nr r0 m L Hr Ho.
  - assert (nr = O) by lia. subst nr. exists m. cbn [red_loop redval]. repeat split; reflexivity.
  - destruct nr as [|nr']; [exists m; cbn [red_loop redval]; repeat split; reflexivity|]. cbn [red_loop redval]. set (nr := S nr') in *. cbv zeta.
    set (n := Nat.min nr 9). assert (N : (1 <= n <= 9)%nat) by (unfold n, nr; lia).
    assert (Hm : (Z.of_nat n + r0) * sr <= (Z.of_nat nr + r0) * sr) by (apply Z.mul_le_mono_nonneg_r; lia).
    rewrite red_ints_okI by lia.
    destruct (red_pass_spec a sr r0 i1 n m ltac:(lia) Hr Hs i Hi) as [A B].
    destruct (IH (nr - n)%nat (r0 + Z.of_nat n) (red_pass K a sr r0 i i1 n m)) as (m' & E & C & D).
    { unfold nr in *; lia. } { lia. } { replace (Z.of_nat (nr - n) + (r0 + Z.of_nat n)) with (Z.of_nat nr + r0) by lia. exact Ho. }
    exists m'. split; [exact E|]. split.
    + intros k Hk. rewrite C by exact Hk. apply redval_ext.
      * intros q Hq. apply B. assert (0 <= q * sr) by (apply Z.mul_nonneg_nonneg; lia). lia.
      * rewrite A by exact Hk. apply O_ext; [|lia]. intros [|r] Hr'; reflexivity.
    + intros l Hl. rewrite D, B by exact Hl. reflexivity.
Qed.
(* nothing overflows: the offsets of the last copy fit into an int *)
Definition reduce_fits (g : rargs) : Prop := (ra_n_array g - 2) * ra_s_array g + ra_n g <= 2 ^ 31.
Lemma reduce_job_val g p m : args_ok g -> reduce_fits g -> 1 <= ra_n_array g -> 0 <= p <= P -> forall i n, distribute contract (ra_n g) 1 p P = (i, n) ->
  exists f, reduce_job K contract P g p m = Some (map (fun k => (ra_a g + k, f k)) (zrange i (i + n))) /\
   forall k, i <= k < i + n -> f k = redval (Z.to_nat (ra_n_array g - 1)) (Z.to_nat (ra_n_array g - 1)) (-1) (m (ra_a g + k))
                                      (fun q => m (ra_a g + ra_s_array g + (k + q * ra_s_array g))).
Proof.
  intros [Gn Gs Ga Gb] F G1 Hp i n E. unfold reduce_job. rewrite E. cbv zeta. pose proof (dist_in _ 1 p Gn ltac:(lia) Hp i n E) as (I0 & I1 & I2).
  unfold reduce_fits in F.
  assert (F' : (Z.of_nat (Z.to_nat (ra_n_array g - 1)) + -1) * ra_s_array g + (i + n) <= 2 ^ 31).
  { rewrite Z2Nat.id by lia. replace (ra_n_array g - 1 + -1) with (ra_n_array g - 2) by lia. lia. }
  destruct (red_loop_val (ra_a g) (ra_s_array g) i (i + n) I0 ltac:(lia) ltac:(lia) (Z.to_nat (ra_n_array g - 1)) (Z.to_nat (ra_n_array g - 1)) (-1) m
     (le_n _) ltac:(lia) F') as (m' & Em & A & _).
  rewrite Em. exists (fun k => m' (ra_a g + k)). split; [reflexivity|]. intros k Hk. apply A, Hk.
Qed.

Lemma reduce_ok g m r : args_ok g -> reduce_fits g -> 1 <= ra_n_array g -> reduce_run K contract P g m r ->
  (forall k, 0 <= k < ra_n g -> summed K (map (fun c => m (ra_a g + c * ra_s_array g + k)) (zrange 0 (ra_n_array g))) (r (ra_a g + k))) /\
  (forall l, ~ (ra_a g <= l < ra_a g + ra_n g) -> r l = m l).
Proof.
  intros G F G1 H. pose proof G as [Gn Gs Ga Gb]. set (nr := Z.to_nat (ra_n_array g - 1)).
  set (rng := fun p => distribute contract (ra_n g) 1 p P).
  assert (X : forall p, 0 <= p <= P -> forall m', exists f, reduce_exec K contract P g p m' = map (fun k => (ra_a g + k, f k)) (zrange (fst (rng p)) (fst (rng p) + snd (rng p)))
     /\ forall k, fst (rng p) <= k < fst (rng p) + snd (rng p) -> f k = redval nr nr (-1) (m' (ra_a g + k)) (fun q => m' (ra_a g + ra_s_array g + (k + q * ra_s_array g)))).
  { intros p Hp m'. unfold rng. destruct (distribute contract (ra_n g) 1 p P) as [i n] eqn:E. cbn [fst snd].
    destruct (reduce_job_val g p m' G F G1 Hp i n E) as (f & Ef & A). exists f. unfold reduce_exec. rewrite Ef. split; [reflexivity|exact A]. }
  (* jobs as total functions *)
  set (ex := fun p m' => if (0 <=? p) && (p <=? P) then reduce_exec K contract P g p m' else []).
  set (W := fun p => if (0 <=? p) && (p <=? P) then map (fun k => ra_a g + k) (zrange (fst (rng p)) (fst (rng p) + snd (rng p))) else []).
  set (R := fun p => if (0 <=? p) && (p <=? P) then flat_map (fun k => map (fun c => ra_a g + c * ra_s_array g + k) (zrange 0 (ra_n_array g))) (zrange (fst (rng p)) (fst (rng p) + snd (rng p))) else []).
  assert (D : forall o m', map fst (ex o m') = W o).
  { intros o m'. unfold ex, W. destruct ((0 <=? o) && (o <=? P)) eqn:Ho; [|reflexivity]. destruct (X o ltac:(lia) m') as (f & -> & _).
    rewrite map_map. reflexivity. }
  assert (Ext : forall o m1 m2, (forall l, In l (R o) -> m1 l = m2 l) -> ex o m1 = ex o m2).
  { intros o m1 m2 Hag. unfold ex. destruct ((0 <=? o) && (o <=? P)) eqn:Ho; [|reflexivity].
    destruct (X o ltac:(lia) m1) as (f1 & -> & A1). destruct (X o ltac:(lia) m2) as (f2 & -> & A2).
    apply map_ext_in. intros k Ik. apply in_zrange in Ik. rewrite A1, A2 by exact Ik. f_equal.
    assert (Rk : forall c, 0 <= c < ra_n_array g -> m1 (ra_a g + c * ra_s_array g + k) = m2 (ra_a g + c * ra_s_array g + k)).
    { intros c Hc. apply Hag. unfold R. rewrite Ho. apply in_flat_map. exists k. split; [apply in_zrange; exact Ik|]. apply in_map_iff. exists c.
      split; [reflexivity|apply in_zrange; exact Hc]. }
    apply redval_ext.
    - intros q Hq. replace (ra_a g + ra_s_array g + (k + q * ra_s_array g)) with (ra_a g + (q + 1) * ra_s_array g + k) by ring. apply Rk. unfold nr in Hq. lia.
    - specialize (Rk 0 ltac:(lia)). rewrite Z.mul_0_l, Z.add_0_r in Rk. exact Rk. }
  assert (H' : phase_run Z V Z Z.eqb ex (fun _ => false) (ranks P) m r).
  { revert H. unfold reduce_run. apply phase_run_congr. intros o m' Io. apply in_ranks in Io; [|lia]. unfold ex. replace ((0 <=? o) && (o <=? P)) with true by lia. reflexivity. }
  pose proof (phase_spec Z V Z Z.eqb ex (fun _ => false) W R Z.eqb_spec D Ext (ranks P) m r H') as S. destruct S as [Sw Sn].
  { apply pairwise_nodup; [|apply NoDup_ranks]. intros q p Iq Ip N l Il. apply in_ranks in Ip; [|lia]. apply in_ranks in Iq; [|lia].
    unfold W in Il. replace ((0 <=? p) && (p <=? P)) with true in Il by lia. apply in_map_iff in Il. destruct Il as (k & E & Ik). apply in_zrange in Ik.
    pose proof (dist_in _ 1 p Gn ltac:(lia) Ip (fst (rng p)) (snd (rng p)) (surjective_pairing _)) as (p0 & p1 & p2).
    pose proof (dist_in _ 1 q Gn ltac:(lia) Iq (fst (rng q)) (snd (rng q)) (surjective_pairing _)) as (q0 & q1 & q2).
    assert (Dj : fst (rng q) <= k < fst (rng q) + snd (rng q) -> False).
    { intros Hk. apply N. symmetry. eapply dist_disjoint with (k := k); [exact Gn| |exact Ip|exact Iq|apply surjective_pairing|apply surjective_pairing|exact Ik|exact Hk]. lia. }
    split; intros Jl.
    - unfold W in Jl. replace ((0 <=? q) && (q <=? P)) with true in Jl by lia. apply in_map_iff in Jl. destruct Jl as (k' & E' & Ik'). apply in_zrange in Ik'.
      apply Dj. lia.
    - unfold R in Jl. replace ((0 <=? q) && (q <=? P)) with true in Jl by lia. apply in_flat_map in Jl. destruct Jl as (k' & Ik' & Jl). apply in_zrange in Ik'.
      apply in_map_iff in Jl. destruct Jl as (c & E' & Ic). apply in_zrange in Ic.
      destruct (element_inj g 0 k c k' l G) as [<- <-]; [repeat split; lia|repeat split; lia|]. exact (Dj Ik'). }
  split.
  - intros k Hk. destruct (dist_one (ra_n g) 1 k Gn ltac:(lia) Hk) as (p & i & n & Hp & Ed & Hi).
    assert (Er : rng p = (i, n)) by exact Ed.
    assert (I : In (ra_a g + k) (W p)).
    { unfold W. replace ((0 <=? p) && (p <=? P)) with true by lia. rewrite Er. cbn [fst snd]. apply in_map_iff. exists k. split; [reflexivity|apply in_zrange; lia]. }
    rewrite (Sw p (ra_a g + k)); [|apply in_ranks; lia|exact I].
    unfold ex. replace ((0 <=? p) && (p <=? P)) with true by lia. destruct (X p Hp m) as (f & -> & A). rewrite Er in *. cbn [fst snd] in *.
    assert (Sv : stores Z V Z.eqb (map (fun k => (ra_a g + k, f k)) (zrange i (i + n))) m (ra_a g + k) = f k).
    { apply stores_map_in. exact Hi. }
    rewrite Sv, A by exact Hi.
    assert (Z0 : m (ra_a g + k) = m (ra_a g + 0 * ra_s_array g + k)) by (f_equal; lia).
    replace (map (fun c => m (ra_a g + c * ra_s_array g + k)) (zrange 0 (ra_n_array g))) with
      ([m (ra_a g + k)] ++ map (fun r0 => (fun q => m (ra_a g + ra_s_array g + (k + q * ra_s_array g))) (Z.of_nat r0 + -1)) (seq 1 nr)).
    + exact (redval_sum nr nr (-1) (m (ra_a g + k)) (fun q => m (ra_a g + ra_s_array g + (k + q * ra_s_array g))) [m (ra_a g + k)] (le_n _) (summed_one K _)).
    + rewrite zrange_cons by lia. cbn [map app]. f_equal; [exact Z0|].
      assert (En : ra_n_array g = 1 + Z.of_nat nr) by (unfold nr; lia). rewrite En. clear. change (0 + 1) with 1.
      unfold zrange. replace (Z.to_nat (1 + Z.of_nat nr - 1)) with nr by lia. rewrite <- (seq_shift nr 0), !map_map. apply map_ext. intros q. f_equal. lia.
  - intros l Hl. apply Sn. intros p Ip I. apply in_ranks in Ip; [|lia]. unfold W in I. replace ((0 <=? p) && (p <=? P)) with true in I by lia.
    apply in_map_iff in I. destruct I as (k & E & Ik). apply in_zrange in Ik.
    pose proof (dist_in _ 1 p Gn ltac:(lia) Ip (fst (rng p)) (snd (rng p)) (surjective_pairing _)). lia.
Qed.

(* conversely, offsets beyond the int range are evaluated *)
Lemma red_loop_overflow a sr i i1 : i < i1 -> 0 <= sr -> forall fuel nr r0 m, (1 <= nr <= fuel)%nat -> -1 <= r0 ->
  2 ^ 31 <= (Z.of_nat nr + r0) * sr -> red_loop K fuel a sr i i1 nr r0 m = None.
Proof.
  intros Hi Hs. induction fuel as [|f IH]; intros nr r0 m L Hr Ho; [lia|]. destruct nr as [|nr']; [lia|]. cbn [red_loop]. set (nr := S nr') in *. cbv zeta.
  destruct (Nat.le_gt_cases nr 9) as [S|S].
  - replace (Nat.min nr 9) with nr by lia.
    assert (E : red_ints_ok sr r0 i i1 nr = false); [|rewrite E; reflexivity].
    apply not_true_iff_false. intros C. unfold red_ints_ok in C. rewrite forallb_forall in C. specialize (C i ltac:(apply in_zrange; lia)).
    rewrite forallb_forall in C. specialize (C nr ltac:(apply in_seq; unfold nr; lia)). apply andb_true_iff in C. destruct C as [C _].
    unfold int_ok in C. set (q := (Z.of_nat nr + r0) * sr) in *. clearbody q. lia.
  - destruct (red_ints_ok _ _ _ _ _); [|reflexivity]. apply IH; [lia|lia|].
    replace (Z.of_nat (nr - Nat.min nr 9) + (r0 + Z.of_nat (Nat.min nr 9))) with (Z.of_nat nr + r0) by lia. exact Ho.
Qed.
Lemma reduce_job_overflow g p m : args_ok g -> 2 <= ra_n_array g -> 2 ^ 31 <= (ra_n_array g - 2) * ra_s_array g -> 0 <= p <= P ->
  0 < snd (distribute contract (ra_n g) 1 p P) -> reduce_job K contract P g p m = None.
Proof.
  intros [Gn Gs Ga Gb] Hn Ho Hp Hs. unfold reduce_job. destruct (distribute contract (ra_n g) 1 p P) as [i n]. cbn [snd] in Hs. cbv zeta.
  rewrite red_loop_overflow; [reflexivity|lia|lia|lia|lia|]. rewrite Z2Nat.id by lia. replace (ra_n_array g - 1 + -1) with (ra_n_array g - 2) by lia. exact Ho.
Qed.
End Array.
