(* Proofs about the vector kernels of reduce_array. *)
Require Import Verif.ParticleModel.
From Coq Require Import ZArith List Bool Lia ZifyBool Permutation.
From Verif Require Import DistributeModel DistributeProofs VoxelModel VoxelProofs SortModel SortProofs SweepModel SweepProofs FieldModel SfModel SfProofs VecReduceModel.
Import ListNotations.
Open Scope Z_scope.
Ltac Zify.zify_post_hook ::= idtac.

(* what the passes leave in element k *)
Definition redsum {V} (K : num V) (g : rargs) (m : Z -> V) (k : Z) : V :=
  let nr := Z.to_nat (ra_n_array g - 1) in
  redval K nr nr (-1) (m (ra_a g + k)) (fun q => m (ra_a g + ra_s_array g + (k + q * ra_s_array g))).

Section Cover.
Context {V : Type} (K : num V).
Variable P : Z.
Hypothesis HP : 1 <= P < 2 ^ 31.
Variable g : rargs.
Hypothesis G : args_ok g. Hypothesis G1 : 1 <= ra_n_array g.
Variable rng : Z -> Z * Z.
Hypothesis Rin : forall p, 0 <= p <= P -> 0 <= fst (rng p) /\ (fst (rng p) < snd (rng p) -> snd (rng p) <= ra_n g).
Hypothesis Rdis : forall p q k, 0 <= p <= P -> 0 <= q <= P -> fst (rng p) <= k < snd (rng p) -> fst (rng q) <= k < snd (rng q) -> p = q.
Variable exec : Z -> (Z -> V) -> list (Z * V).
Hypothesis X : forall p, 0 <= p <= P -> forall m', exists f, exec p m' = map (fun k => (ra_a g + k, f k)) (zrange (fst (rng p)) (snd (rng p)))
     /\ forall k, fst (rng p) <= k < snd (rng p) -> f k = redsum K g m' k.

Lemma cover_run m r : phase_run Z V Z Z.eqb exec (fun _ => false) (ranks P) m r ->
  (forall p k, 0 <= p <= P -> fst (rng p) <= k < snd (rng p) -> r (ra_a g + k) = redsum K g m k) /\
  (forall l, (forall p k, 0 <= p <= P -> fst (rng p) <= k < snd (rng p) -> l <> ra_a g + k) -> r l = m l).
Proof.
  intros H. pose proof G as [Gn Gs Ga Gb]. set (nr := Z.to_nat (ra_n_array g - 1)).
  set (ex := fun p m' => if (0 <=? p) && (p <=? P) then exec p m' else []).
  set (W := fun p => if (0 <=? p) && (p <=? P) then map (fun k => ra_a g + k) (zrange (fst (rng p)) (snd (rng p))) else []).
  set (R := fun p => if (0 <=? p) && (p <=? P) then flat_map (fun k => map (fun c => ra_a g + c * ra_s_array g + k) (zrange 0 (ra_n_array g))) (zrange (fst (rng p)) (snd (rng p))) else []).
  assert (D : forall o m', map fst (ex o m') = W o).
  { intros o m'. unfold ex, W. destruct ((0 <=? o) && (o <=? P)) eqn:Ho; [|reflexivity]. destruct (X o ltac:(lia) m') as (f & -> & _).
    rewrite map_map. reflexivity. }
  assert (Ext : forall o m1 m2, (forall l, In l (R o) -> m1 l = m2 l) -> ex o m1 = ex o m2).
  { intros o m1 m2 Hag. unfold ex. destruct ((0 <=? o) && (o <=? P)) eqn:Ho; [|reflexivity].
    destruct (X o ltac:(lia) m1) as (f1 & -> & A1). destruct (X o ltac:(lia) m2) as (f2 & -> & A2).
    apply map_ext_in. intros k Ik. apply in_zrange in Ik. rewrite A1, A2 by exact Ik. f_equal.
    assert (Rk : forall c, 0 <= c < ra_n_array g -> m1 (ra_a g + c * ra_s_array g + k) = m2 (ra_a g + c * ra_s_array g + k)).
    { intros c Hc. apply Hag. unfold R. rewrite Ho. apply in_flat_map. exists k. split; [apply in_zrange; exact Ik|]. apply in_map_iff. exists c.
      split; [reflexivity|apply in_zrange; exact Hc]. }
    unfold redsum. cbv zeta. fold nr. apply redval_ext.
    - intros q Hq. replace (ra_a g + ra_s_array g + (k + q * ra_s_array g)) with (ra_a g + (q + 1) * ra_s_array g + k) by ring. apply Rk. unfold nr in Hq. lia.
    - specialize (Rk 0 ltac:(lia)). rewrite Z.mul_0_l, Z.add_0_r in Rk. exact Rk. }
  assert (H' : phase_run Z V Z Z.eqb ex (fun _ => false) (ranks P) m r).
  { revert H. apply phase_run_congr. intros o m' Io. apply in_ranks in Io; [|lia]. unfold ex. replace ((0 <=? o) && (o <=? P)) with true by lia. reflexivity. }
  pose proof (phase_spec Z V Z Z.eqb ex (fun _ => false) W R Z.eqb_spec D Ext (ranks P) m r H') as S. destruct S as [Sw Sn].
  { apply pairwise_nodup; [|apply NoDup_ranks]. intros q p Iq Ip N l Il. apply in_ranks in Ip; [|lia]. apply in_ranks in Iq; [|lia].
    unfold W in Il. replace ((0 <=? p) && (p <=? P)) with true in Il by lia. apply in_map_iff in Il. destruct Il as (k & E & Ik). apply in_zrange in Ik.
    destruct (Rin p Ip) as [p0 p1]. destruct (Rin q Iq) as [q0 q1].
    assert (Dj : fst (rng q) <= k < snd (rng q) -> False).
    { intros Hk. apply N. exact (Rdis q p k Iq Ip Hk Ik). }
    split; intros Jl.
    - unfold W in Jl. replace ((0 <=? q) && (q <=? P)) with true in Jl by lia. apply in_map_iff in Jl. destruct Jl as (k' & E' & Ik'). apply in_zrange in Ik'.
      apply Dj. lia.
    - unfold R in Jl. replace ((0 <=? q) && (q <=? P)) with true in Jl by lia. apply in_flat_map in Jl. destruct Jl as (k' & Ik' & Jl). apply in_zrange in Ik'.
      apply in_map_iff in Jl. destruct Jl as (c & E' & Ic). apply in_zrange in Ic.
      destruct (element_inj g 0 k c k' l G) as [<- <-]; [repeat split; lia|repeat split; lia|]. exact (Dj Ik'). }
  split.
  - intros p k Hp Hk.
    assert (I : In (ra_a g + k) (W p)).
    { unfold W. replace ((0 <=? p) && (p <=? P)) with true by lia. apply in_map_iff. exists k. split; [reflexivity|apply in_zrange; lia]. }
    rewrite (Sw p (ra_a g + k)); [|apply in_ranks; lia|exact I].
    unfold ex. replace ((0 <=? p) && (p <=? P)) with true by lia. destruct (X p Hp m) as (f & -> & A).
    assert (Sv : stores Z V Z.eqb (map (fun k => (ra_a g + k, f k)) (zrange (fst (rng p)) (snd (rng p)))) m (ra_a g + k) = f k).
    { apply stores_map_in. exact Hk. }
    rewrite Sv. apply A, Hk.
  - intros l Hl. apply Sn. intros p Ip I. apply in_ranks in Ip; [|lia]. unfold W in I. replace ((0 <=? p) && (p <=? P)) with true in I by lia.
    apply in_map_iff in I. destruct I as (k & E & Ik). apply in_zrange in Ik. exact (Hl p k Ip Ik (eq_sym E)).
Qed.
End Cover.

Section Vec.
Context {V : Type} (K : num V).
Variable contract : bool.
Variable P : Z.
Hypothesis HP : 1 <= P < 2 ^ 31.
Variable W : Z.
Hypothesis HW : 1 <= W.

Lemma vsteps_eq c : forall fuel i, (c <= fuel)%nat -> vsteps fuel W i (i + W * Z.of_nat c) = map (fun t => i + W * Z.of_nat t) (seq 0 c).
Proof.
  induction c as [|c IH]; intros fuel i L.
  - destruct fuel; cbn [vsteps seq map]; [reflexivity|]. replace (i <? i + W * Z.of_nat 0) with false by lia. reflexivity.
  - destruct fuel as [|f]; [lia|]. cbn [vsteps]. assert (0 < W * Z.of_nat (S c)) by nia.
    replace (i <? i + W * Z.of_nat (S c)) with true by lia. cbn [seq map]. f_equal; [lia|].
    replace (i + W * Z.of_nat (S c)) with ((i + W) + W * Z.of_nat c) by lia. rewrite IH by lia. rewrite <- seq_shift, map_map. apply map_ext. intros t. lia.
Qed.

Lemma vaccess_okI tot l : (W | l) -> 0 <= l -> l + W <= tot -> vaccess_ok W tot l = true.
Proof. intros D H L. unfold vaccess_ok. assert (l mod W = 0) by (apply Z.mod_divide; [lia|exact D]). lia. Qed.

Lemma mono sr a b : 0 <= sr -> a <= b -> a * sr <= b * sr. Proof. intros; nia. Qed.

(* one pass over c vectors *)
Lemma vpass_spec tot a sr r0 n : (n <= 9)%nat -> -1 <= r0 -> (W | a) -> (W | sr) -> 0 <= a -> 0 <= sr ->
  forall c i m, (W | i) -> 0 <= i -> let i1 := i + W * Z.of_nat c in i1 <= sr ->
  (Z.of_nat n + r0) * sr + i1 <= 2 ^ 31 -> a + sr + (Z.of_nat n + r0) * sr + i1 <= tot -> a + i1 <= tot ->
  exists m1, vpass K W tot a sr r0 n (map (fun t => i + W * Z.of_nat t) (seq 0 c)) m = Some m1 /\
  (forall k, i <= k < i1 -> m1 (a + k) = O_op K n (fun r => match r with O => m (a + k) | _ => m (a + sr + red_int sr r0 k r) end)) /\
  (forall l, ~ (a + i <= l < a + i1) -> m1 l = m l).
Proof.
  intros Hn Hr Da Ds Ha Hs. induction c as [|c IH]; intros i m Di Hi i1 H1 H2 H3 H4.
  - exists m. split; [reflexivity|]. split; [intros k Hk; unfold i1 in Hk; lia|reflexivity].
  - cbn [seq map vpass]. replace (i + W * Z.of_nat 0) with i by lia.
    assert (Wc : 0 <= W * Z.of_nat c) by nia.
    assert (E1 : i1 = (i + W) + W * Z.of_nat c) by (unfold i1; lia). clearbody i1.
    assert (Ok : vop K W tot a sr r0 i n m = Some (stores Z V Z.eqb
         (map (fun t => ((a + (i + t))%Z,
                 O_op K n (fun r => match r with O => m (a + (i + t))%Z | _ => m (a + sr + red_int sr r0 i r + t)%Z end))) (zrange 0 W)) m)).
    { unfold vop. rewrite vaccess_okI; [|apply Z.divide_add_r; assumption|lia|lia]. rewrite andb_true_l.
      match goal with |- (if ?b then _ else _) = _ => assert (B : b = true) end.
      { apply forallb_forall. intros r Ir. apply in_seq in Ir.
        assert (A : 0 <= (Z.of_nat r + r0) * sr) by (apply Z.mul_nonneg_nonneg; lia).
        assert (B : (Z.of_nat r + r0) * sr <= (Z.of_nat n + r0) * sr) by (apply mono; lia).
        assert (Dr : (W | (Z.of_nat r + r0) * sr)) by (apply Z.divide_mul_r; exact Ds).
        assert (Dl : (W | a + sr + red_int sr r0 i r)).
        { unfold red_int. apply Z.divide_add_r; [apply Z.divide_add_r; assumption|apply Z.divide_add_r; assumption]. }
        unfold red_int in *. set (q := (Z.of_nat r + r0) * sr) in *. clearbody q. set (q' := (Z.of_nat n + r0) * sr) in *. clearbody q'.
        rewrite vaccess_okI; [|exact Dl|lia|lia]. unfold int_ok. lia. }
      rewrite B. reflexivity. }
    rewrite Ok. clear Ok.
    match goal with |- context [stores Z V Z.eqb ?ws m] => set (m0 := stores Z V Z.eqb ws m) end.
    assert (In0 : forall k, i <= k < i + W -> m0 (a + k) = O_op K n (fun r => match r with O => m (a + k) | _ => m (a + sr + red_int sr r0 k r) end)).
    { intros k Hk. unfold m0.
      assert (E : map (fun t => ((a + (i + t))%Z, O_op K n (fun r => match r with O => m (a + (i + t))%Z | _ => m (a + sr + red_int sr r0 i r + t)%Z end))) (zrange 0 W)
        = map (fun k => (a + k, O_op K n (fun r => match r with O => m (a + k)%Z | _ => m (a + sr + red_int sr r0 k r)%Z end))) (zrange i (i + W))).
      { unfold zrange. rewrite !map_map. replace (Z.to_nat (i + W - i)) with (Z.to_nat (W - 0)) by lia. apply map_ext. intros t.
        f_equal. apply O_ext; [|exact Hn]. intros [|r] _; f_equal; unfold red_int; lia. }
      rewrite E. apply (stores_map_in (V := V) a (fun k => O_op K n (fun r => match r with O => m (a + k)%Z | _ => m (a + sr + red_int sr r0 k r)%Z end)) i (i + W) m k Hk). }
    assert (Out0 : forall l, ~ (a + i <= l < a + i + W) -> m0 l = m l).
    { intros l Hl. apply (stores_notin Z V Z.eqb Z.eqb_spec). rewrite map_map. cbn [fst]. intros I. apply in_map_iff in I. destruct I as (t & Et & It).
      apply in_zrange in It. lia. }
    destruct (IH (i + W) m0) as (m1 & Em & A & B); try lia; [apply Z.divide_add_r; [exact Di|apply Z.divide_refl]|].
    rewrite <- seq_shift, map_map. erewrite map_ext; [|intros t; replace (i + W * Z.of_nat (S t)) with (i + W + W * Z.of_nat t) by lia; reflexivity].
    exists m1. split; [exact Em|]. rewrite <- E1 in A, B. split.
    + intros k Hk. destruct (Z.lt_ge_cases k (i + W)) as [L|L].
      * rewrite B by lia. apply In0. lia.
      * rewrite A by lia. apply O_ext; [|exact Hn]. intros r Lr. destruct r as [|r]; [apply Out0; lia|]. apply Out0. unfold red_int.
        assert (0 <= (Z.of_nat (S r) + r0) * sr) by (apply Z.mul_nonneg_nonneg; lia). lia.
    + intros l Hl. rewrite B by lia. apply Out0. lia.
Qed.

Lemma vred_loop_val tot a sr i c : (W | a) -> (W | sr) -> (W | i) -> 0 <= a -> 0 <= i -> let i1 := i + W * Z.of_nat c in i1 <= sr -> 0 <= sr -> a + i1 <= tot ->
  forall fuel nr r0 m, (nr <= fuel)%nat -> -1 <= r0 ->
  (Z.of_nat nr + r0) * sr + i1 <= 2 ^ 31 -> a + sr + (Z.of_nat nr + r0) * sr + i1 <= tot ->
  exists m', vred_loop K W fuel tot a sr i i1 nr r0 m = Some m' /\
    (forall k, i <= k < i1 -> m' (a + k) = redval K fuel nr r0 (m (a + k)) (fun q => m (a + sr + (k + q * sr)))) /\
    (forall l, ~ (a + i <= l < a + i1) -> m' l = m l).
Proof.
  intros Da Ds Di Ha Hi i1 Hs Hs0 Ht. induction fuel as [|f IH]; intros nr r0 m L Hr Ho Hb.
  - assert (nr = O) by lia. subst nr. exists m. cbn [vred_loop redval]. repeat split; reflexivity.
  - destruct nr as [|nr']; [exists m; cbn [vred_loop redval]; repeat split; reflexivity|]. cbn [vred_loop redval]. set (nr := S nr') in *. cbv zeta.
    set (n := Nat.min nr 9). assert (N : (1 <= n <= 9)%nat) by (unfold n, nr; lia).
    assert (Hm : (Z.of_nat n + r0) * sr <= (Z.of_nat nr + r0) * sr) by (apply mono; lia).
    assert (Ev : vsteps (Z.to_nat (i1 - i)) W i i1 = map (fun t => i + W * Z.of_nat t) (seq 0 c)) by (apply vsteps_eq; unfold i1; nia).
    rewrite Ev.
    destruct (vpass_spec tot a sr r0 n ltac:(lia) Hr Da Ds Ha Hs0 c i m Di Hi Hs) as (m1 & E1 & A & B); try (fold i1; lia).
    rewrite E1. fold i1 in A, B.
    destruct (IH (nr - n)%nat (r0 + Z.of_nat n) m1) as (m' & E & C & D).
    { unfold nr in *; lia. } { lia. }
    { replace (Z.of_nat (nr - n) + (r0 + Z.of_nat n)) with (Z.of_nat nr + r0) by lia. exact Ho. }
    { replace (Z.of_nat (nr - n) + (r0 + Z.of_nat n)) with (Z.of_nat nr + r0) by lia. exact Hb. }
    exists m'. split; [exact E|]. split.
    + intros k Hk. rewrite C by exact Hk. apply redval_ext.
      * intros q Hq. apply B. assert (0 <= q * sr) by (apply Z.mul_nonneg_nonneg; lia). lia.
      * rewrite A by exact Hk. apply O_ext; [|lia]. intros [|r] Hr'; reflexivity.
    + intros l Hl. rewrite D, B by exact Hl. reflexivity.
Qed.

(* what the callers guarantee *)
Record vargs_ok (g : rargs) : Prop := {
  va_ok : args_ok g; va_fit : reduce_fits g; va_copies : 1 <= ra_n_array g;
  va_pos : 0 <= ra_a g; va_in : ra_a g + ra_n g <= ra_s_array g;
  va_a : (W | ra_a g); va_s : (W | ra_s_array g) }.

Lemma quot_mul_le N : 0 <= N -> W * Z.quot N W <= N.
Proof. intros H. rewrite Z.quot_div_nonneg by lia. apply Z.mul_div_le. lia. Qed.

(* the share of a pipeline consists of whole vectors *)
Lemma vshare N p i n : 0 <= N < 2 ^ 31 -> 0 <= p < P -> distribute contract N W p P = (i, n) ->
  (W | i) /\ exists c, n = W * Z.of_nat c.
Proof.
  intros HN Hp E. destruct (dist_in contract P HP N W p HN HW ltac:(lia) i n E) as (I0 & N0 & _).
  unfold distribute in E. replace (p =? P) with false in E by lia. injection E as Ei En. split; [exists (split_point contract (Z.quot N W) P p); lia|].
  set (s0 := split_point contract (Z.quot N W) P p) in *. set (s1 := split_point contract (Z.quot N W) P (p + 1)) in *. clearbody s0 s1.
  exists (Z.to_nat (s1 - s0)). assert (0 <= s1 - s0) by nia. rewrite Z2Nat.id by lia. lia.
Qed.
Lemma vlast_mul i c : vlast W i (i + W * Z.of_nat c) = i + W * Z.of_nat c.
Proof.
  unfold vlast. replace (i + W * Z.of_nat c - i + W - 1) with (W - 1 + Z.of_nat c * W) by ring. rewrite Z.div_add by lia. rewrite (Z.div_small (W - 1) W) by lia. f_equal.
Qed.

Lemma vreduce_job_val g p m : vargs_ok g -> 0 <= p < P -> forall i n, distribute contract (ra_n g) W p P = (i, n) ->
  exists f, vreduce_job K contract P W g p m = Some (map (fun k => (ra_a g + k, f k)) (zrange i (i + n))) /\
   forall k, i <= k < i + n -> f k = redsum K g m k.
Proof.
  intros [[Gn Gs Ga Gb] F G1 A0 A1 Da Ds] Hp i n E. unfold vreduce_job. rewrite E. cbv zeta.
  pose proof (dist_in contract P HP _ W p Gn HW ltac:(lia) i n E) as (I0 & I1 & I2).
  destruct (vshare _ p i n Gn Hp E) as (Di & c & Ec). unfold reduce_fits in F.
  assert (Em : ra_n_array g * ra_s_array g = ra_s_array g + (ra_n_array g - 1) * ra_s_array g) by ring.
  assert (Em2 : (ra_n_array g - 1) * ra_s_array g = ra_s_array g + (ra_n_array g - 2) * ra_s_array g) by ring.
  assert (0 <= (ra_n_array g - 1) * ra_s_array g) by (apply Z.mul_nonneg_nonneg; lia).
  assert (Ez : (Z.of_nat (Z.to_nat (ra_n_array g - 1)) + -1) * ra_s_array g = (ra_n_array g - 2) * ra_s_array g) by (rewrite Z2Nat.id by lia; ring).
  rewrite Ec in *.
  destruct (vred_loop_val (ra_n_array g * ra_s_array g) (ra_a g) (ra_s_array g) i c Da Ds Di A0 I0 ltac:(lia) ltac:(lia) ltac:(lia)
     (Z.to_nat (ra_n_array g - 1)) (Z.to_nat (ra_n_array g - 1)) (-1) m
     (le_n _) ltac:(lia) ltac:(lia) ltac:(lia)) as (m' & E' & A & _).
  rewrite E'. exists (fun k => m' (ra_a g + k)). rewrite vlast_mul. split; [reflexivity|]. intros k Hk. rewrite A by exact Hk. reflexivity.
Qed.

(* the caller's share under the scalar kernel is empty *)
Lemma host_empty N i n : distribute contract N 1 P P = (i, n) -> n = 0.
Proof. intros E. unfold distribute in E. rewrite Z.eqb_refl in E. injection E as _ En. rewrite Z.rem_1_r in En. lia. Qed.

Lemma vexec_defined g p m : vargs_ok g -> 0 <= p <= P -> vexec_job K contract P W g p m <> None.
Proof.
  intros A Hp. unfold vexec_job. destruct (Z.ltb_spec p P) as [L|L].
  - destruct (distribute contract (ra_n g) W p P) as [i n] eqn:E. destruct (vreduce_job_val g p m A ltac:(lia) i n E) as (f & -> & _). discriminate.
  - destruct (distribute contract (ra_n g) 1 p P) as [i n] eqn:E.
    destruct (reduce_job_val K contract P HP g p m (va_ok g A) (va_fit g A) (va_copies g A) Hp i n E) as (f & -> & _). discriminate.
Qed.

Lemma scalar_run g m r : args_ok g -> reduce_fits g -> 1 <= ra_n_array g -> reduce_run K contract P g m r ->
  (forall k, 0 <= k < ra_n g -> r (ra_a g + k) = redsum K g m k) /\ (forall l, ~ (ra_a g <= l < ra_a g + ra_n g) -> r l = m l).
Proof.
  intros G F G1 H. pose proof G as [Gn Gs Ga Gb].
  set (rng := fun p => let '(i, n) := distribute contract (ra_n g) 1 p P in (i, i + n)).
  assert (Rr : forall p i n, distribute contract (ra_n g) 1 p P = (i, n) -> rng p = (i, i + n)) by (intros p i n E; unfold rng; rewrite E; reflexivity).
  destruct (cover_run K P HP g G G1 rng) with (exec := reduce_exec K contract P g) (m := m) (r := r) as [A B].
  - intros p Hp. destruct (distribute contract (ra_n g) 1 p P) as [i n] eqn:E. rewrite (Rr p i n E). cbn [fst snd].
    pose proof (dist_in contract P HP _ 1 p Gn ltac:(lia) Hp i n E). lia.
  - intros p q k Hp Hq. destruct (distribute contract (ra_n g) 1 p P) as [i n] eqn:E. destruct (distribute contract (ra_n g) 1 q P) as [i' n'] eqn:E'.
    rewrite (Rr p i n E), (Rr q i' n' E'). cbn [fst snd]. intros K1 K2. eapply (dist_disjoint contract P HP) with (b := 1) (k := k); try eassumption. lia.
  - intros p Hp m'. destruct (distribute contract (ra_n g) 1 p P) as [i n] eqn:E. rewrite (Rr p i n E). cbn [fst snd].
    destruct (reduce_job_val K contract P HP g p m' G F G1 Hp i n E) as (f & Ef & Af). exists f. unfold reduce_exec. rewrite Ef. split; [reflexivity|exact Af].
  - exact H.
  - split.
    + intros k Hk. destruct (dist_one contract P HP (ra_n g) 1 k Gn ltac:(lia) Hk) as (p & i & n & Hp & Ed & Hi). apply (A p k Hp).
      rewrite (Rr p i n Ed). exact Hi.
    + intros l Hl. apply B. intros p k Hp Hk ->. destruct (distribute contract (ra_n g) 1 p P) as [i n] eqn:E. rewrite (Rr p i n E) in Hk. cbn [fst snd] in Hk.
      pose proof (dist_in contract P HP _ 1 p Gn ltac:(lia) Hp i n E). lia.
Qed.

(* the elements the vector jobs reduce are those of the whole vectors *)
Lemma vector_run g m r : vargs_ok g -> vreduce_run K contract P W g m r ->
  (forall k, 0 <= k < W * (ra_n g / W) -> r (ra_a g + k) = redsum K g m k) /\
  (forall l, ~ (ra_a g <= l < ra_a g + W * (ra_n g / W)) -> r l = m l).
Proof.
  intros Av H. pose proof Av as [G F G1 A0 A1 Da Ds]. pose proof G as [Gn Gs Ga Gb].
  assert (Qd : Z.quot (ra_n g) W = ra_n g / W) by (apply Z.quot_div_nonneg; lia).
  assert (Rm : Z.rem (ra_n g) W = ra_n g - W * (ra_n g / W)) by (rewrite Z.rem_mod_nonneg by lia; pose proof (Z.div_mod (ra_n g) W ltac:(lia)); lia).
  assert (Hl : W * (ra_n g / W) <= ra_n g) by (apply Z.mul_div_le; lia).
  set (rng := fun p => if p <? P then (let '(i, n) := distribute contract (ra_n g) W p P in (i, i + n)) else (0, 0)).
  assert (Rr : forall p i n, p < P -> distribute contract (ra_n g) W p P = (i, n) -> rng p = (i, i + n)) by (intros p i n L E; unfold rng; replace (p <? P) with true by lia; rewrite E; reflexivity).
  assert (Rh : rng P = (0, 0)) by (unfold rng; replace (P <? P) with false by lia; reflexivity).
  (* the host's share under block W starts where the whole vectors end *)
  assert (HostW : exists i, distribute contract (ra_n g) W P P = (i, Z.rem (ra_n g) W)) by (unfold distribute; rewrite Z.eqb_refl; eexists; reflexivity).
  destruct HostW as (iP & EP).
  assert (IP : iP = W * (ra_n g / W)).
  { unfold distribute in EP. injection EP as Ei. rewrite <- Ei, Qd, split_P; [reflexivity| |exact HP].
    split; [apply Z.div_pos; lia|]. apply Z.le_lt_trans with (ra_n g); [|lia]. apply Z.div_le_upper_bound; nia. }
  destruct (cover_run K P HP g G G1 rng) with (exec := vreduce_exec K contract P W g) (m := m) (r := r) as [A B].
  - intros p Hp. destruct (Z.eq_dec p P) as [->|Np]; [rewrite Rh; cbn [fst snd]; lia|].
    destruct (distribute contract (ra_n g) W p P) as [i n] eqn:E. rewrite (Rr p i n ltac:(lia) E). cbn [fst snd].
    pose proof (dist_in contract P HP _ W p Gn HW Hp i n E). lia.
  - intros p q k Hp Hq. destruct (Z.eq_dec p P) as [->|Np]; [rewrite Rh; cbn [fst snd]; lia|]. destruct (Z.eq_dec q P) as [->|Nq]; [rewrite Rh; cbn [fst snd]; lia|].
    destruct (distribute contract (ra_n g) W p P) as [i n] eqn:E. destruct (distribute contract (ra_n g) W q P) as [i' n'] eqn:E'.
    rewrite (Rr p i n ltac:(lia) E), (Rr q i' n' ltac:(lia) E'). cbn [fst snd]. intros K1 K2. eapply (dist_disjoint contract P HP) with (b := W) (k := k); eassumption.
  - intros p Hp m'. unfold vreduce_exec, vexec_job. destruct (Z.eq_dec p P) as [->|Np].
    + rewrite Rh. cbn [fst snd]. replace (P <? P) with false by lia. exists (fun _ => m' 0). split; [|lia].
      destruct (distribute contract (ra_n g) 1 P P) as [i n] eqn:E. pose proof (host_empty _ i n E) as ->.
      destruct (reduce_job_val K contract P HP g P m' G F G1 Hp i 0 E) as (f & -> & _). rewrite zrange_nil by lia. rewrite zrange_nil by lia. reflexivity.
    + replace (p <? P) with true by lia. destruct (distribute contract (ra_n g) W p P) as [i n] eqn:E. rewrite (Rr p i n ltac:(lia) E). cbn [fst snd].
      destruct (vreduce_job_val g p m' Av ltac:(lia) i n E) as (f & Ef & Af). exists f. rewrite Ef. split; [reflexivity|exact Af].
  - exact H.
  - split.
    + intros k Hk. destruct (dist_one contract P HP (ra_n g) W k Gn HW ltac:(lia)) as (p & i & n & Hp & Ed & Hi).
      assert (Np : p <> P) by (intros ->; rewrite EP in Ed; injection Ed as <- _; lia).
      apply (A p k Hp). rewrite (Rr p i n ltac:(lia) Ed). exact Hi.
    + intros l Hl'. apply B. intros p k Hp Hk ->. destruct (Z.eq_dec p P) as [->|Np]; [rewrite Rh in Hk; cbn [fst snd] in Hk; lia|].
      destruct (distribute contract (ra_n g) W p P) as [i n] eqn:E. rewrite (Rr p i n ltac:(lia) E) in Hk. cbn [fst snd] in Hk.
      destruct (vshare _ p i n Gn ltac:(lia) E) as ((t & Et) & c & Ec). pose proof (dist_in contract P HP _ W p Gn HW Hp i n E) as (I0 & I1 & I2).
      assert (i + n <= W * (ra_n g / W)); [|lia]. replace (i + n) with (W * (t + Z.of_nat c)) by (rewrite Et, Ec; ring). apply Z.mul_le_mono_nonneg_l; [lia|].
      apply Z.div_le_lower_bound; [lia|]. rewrite Et, Ec in I2. lia.
Qed.
End Vec.
