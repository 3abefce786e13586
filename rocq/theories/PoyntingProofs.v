(* Proofs about poynting_flux. *)
From Coq Require Import Reals Lra ZArith List Bool Lia ZifyBool.
From Verif Require Import VoxelModel SortModel SortProofs PoyntingModel.
Import ListNotations.
Open Scope Z_scope.
Ltac Zify.zify_post_hook ::= idtac.

Definition rsum (l : list R) : R := fold_right Rplus 0%R l.
Lemma rsum_app a b : rsum (a ++ b) = (rsum a + rsum b)%R.
Proof. unfold rsum. induction a as [|x a IH]; cbn [app fold_right]; [lra|]. rewrite IH. lra. Qed.
Lemma rsum_flat {A} (f : A -> list R) l : rsum (flat_map f l) = rsum (map (fun a => rsum (f a)) l).
Proof. induction l as [|x l IH]; [reflexivity|]. cbn [flat_map map]. rewrite rsum_app, IH. reflexivity. Qed.
Lemma rsum_const {A} (l : list A) c : rsum (map (fun _ => c) l) = (INR (length l) * c)%R.
Proof.
  induction l as [|x l IH]; [cbn; lra|]. cbn [map rsum fold_right]. fold (rsum (map (fun _ : A => c) l)). rewrite IH.
  change (length (x :: l)) with (S (length l)). rewrite S_INR. lra.
Qed.

(* reading the floats in order *)
Lemma psum_spec (v : Z -> cell) l s : (forall i, In i l -> exists x, v i = Known x) ->
  fold_left (fun o i => match o, v i with Some s, Known x => Some (s + x)%R | _, _ => None end) l (Some s) =
  Some (s + rsum (map (fun i => match v i with Known x => x | Unset => 0 end) l))%R.
Proof.
  revert s. induction l as [|i l IH]; intros s H; [cbn; f_equal; lra|]. cbn [fold_left map]. destruct (H i (or_introl eq_refl)) as (x & E). rewrite E.
  rewrite IH by (intros q Hq; apply H; right; exact Hq). cbn [rsum fold_right]. fold (rsum (map (fun i => match v i with Known x => x | Unset => 0%R end) l)). f_equal. lra.
Qed.
Lemma psum_none (v : Z -> cell) l : fold_left (fun o i => match o, v i with Some s, Known x => Some (s + x)%R | _, _ => None end) l None = None.
Proof. induction l as [|i l IH]; [reflexivity|]. cbn [fold_left]. exact IH. Qed.
Lemma psum_unset (v : Z -> cell) l i s : In i l -> v i = Unset -> fold_left (fun o i => match o, v i with Some s, Known x => Some (s + x)%R | _, _ => None end) l s = None.
Proof.
  revert s. induction l as [|q l IH]; intros s I E; [destruct I|]. cbn [fold_left]. destruct I as [->|I]; [|apply IH; assumption].
  rewrite E. destruct s; apply psum_none.
Qed.

(* the loops fill the rows one after the other *)
Section Fill.
Variables (nx ny nz : Z) (cvac e0 : R) (F : pcomp -> Z -> R).
Hypothesis Hy : 2 <= ny. Hypothesis Hz : 2 <= nz.
Notation term := (pf_term nx ny cvac e0 F).
Definition step (o : option (Z -> cell)) (jk : Z * Z) : option (Z -> cell) := match o with
     | None => None
     | Some v => let i := (fst jk - 1) * (nz - 1) + snd jk - 1 in
         if (0 <=? i) && (i <? pf_stride ny nz)
         then Some (fun l => if l =? i then Known (term (fst jk) (snd jk)) else v l) else None
     end.
Lemma fill_list (l : list (Z * Z)) : (forall jk, In jk l -> 1 <= fst jk < ny /\ 1 <= snd jk < nz) -> NoDup l -> forall v,
  exists v', fold_left step l (Some v) = Some v' /\
    (forall j k, In (j, k) l -> v' ((j - 1) * (nz - 1) + k - 1) = Known (term j k)) /\
    (forall i, (forall j k, In (j, k) l -> i <> (j - 1) * (nz - 1) + k - 1) -> v' i = v i).
Proof.
  intros H N. induction N as [|[j k] l Ni N IH]; intros v.
  - exists v. split; [reflexivity|]. split; [intros j k []|reflexivity].
  - destruct (H (j, k) (or_introl eq_refl)) as [Hj Hk]. cbn [fst snd] in Hj, Hk. cbn [fold_left]. unfold step at 2. cbn [fst snd]. cbv zeta.
    set (i := (j - 1) * (nz - 1) + k - 1).
    assert (0 <= i < pf_stride ny nz) by (unfold i, pf_stride; assert (0 <= (j - 1) * (nz - 1)) by nia; assert ((j - 1) * (nz - 1) <= (ny - 2) * (nz - 1)) by nia; nia).
    replace ((0 <=? i) && (i <? pf_stride ny nz)) with true by lia.
    destruct (IH (fun jk I => H jk (or_intror I)) (fun l0 => if l0 =? i then Known (term j k) else v l0)) as (v' & E & A & B).
    exists v'. split; [exact E|]. split.
    + intros j' k' [Q|I]; [|apply A, I]. injection Q as <- <-. rewrite B; [fold i; rewrite Z.eqb_refl; reflexivity|].
      intros j' k' I Q. apply Ni. destruct (H (j', k') (or_intror I)) as [Hj' Hk']. cbn [fst snd] in Hj', Hk'.
      assert (j' = j) by nia. assert (k' = k) by nia. subst. exact I.
    + intros q Hq. rewrite B by (intros j' k' I; apply Hq; right; exact I). replace (q =? i) with false; [reflexivity|].
      specialize (Hq j k (or_introl eq_refl)). fold i in Hq. lia.
Qed.
Lemma in_pairs j k : In (j, k) (pf_pairs ny nz) <-> 1 <= j < ny /\ 1 <= k < nz.
Proof.
  unfold pf_pairs. rewrite in_flat_map. split.
  - intros (j' & I & J). apply in_map_iff in J. destruct J as (k' & E & J). injection E as -> ->. apply in_zrange in I, J. tauto.
  - intros [A B]. exists j. split; [apply in_zrange; exact A|]. apply in_map_iff. exists k. split; [reflexivity|apply in_zrange; exact B].
Qed.
Lemma NoDup_zrange a b : NoDup (zrange a b).
Proof. unfold zrange. apply FinFun.Injective_map_NoDup; [intros x y; lia|apply seq_NoDup]. Qed.
Lemma NoDup_pairs' (l : list Z) : NoDup l -> NoDup (flat_map (fun j => map (fun k => (j, k)) (zrange 1 nz)) l).
Proof.
  intros N. induction N as [|j l Ni N IH]; [constructor|]. cbn [flat_map].
  assert (N1 : NoDup (map (fun k => (j, k)) (zrange 1 nz))) by (apply FinFun.Injective_map_NoDup; [intros x y E; injection E; auto|apply NoDup_zrange]).
  revert N1. generalize (zrange 1 nz) at 1 2. intros ks N1. induction ks as [|k ks IHk]; [exact IH|]. cbn [map app]. inversion N1 as [|? ? I1 N2]; subst.
  constructor; [|apply IHk, N2]. intros I. apply in_app_or in I. destruct I as [I|I]; [contradiction|].
  apply in_flat_map in I. destruct I as (j' & Ij & I). apply in_map_iff in I. destruct I as (k' & E & _). injection E as -> _. contradiction.
Qed.
Lemma fill_ok v : exists v', pf_fill nx ny nz cvac e0 F v = Some v' /\
  forall j k, 1 <= j < ny -> 1 <= k < nz -> v' ((j - 1) * (nz - 1) + k - 1) = Known (term j k).
Proof.
  destruct (fill_list (pf_pairs ny nz)) with (v := v) as (v' & E & A & _).
  - intros [j k] I. apply in_pairs in I. exact I.
  - apply NoDup_pairs', NoDup_zrange.
  - exists v'. split; [exact E|]. intros j k Hj Hk. apply A, in_pairs. split; assumption.
Qed.
(* the floats of the rows *)
Lemma rows_eq c : (1 <= c)%Z -> forall n, zrange 0 (Z.of_nat n * c) = flat_map (fun j => map (fun k => (j - 1) * c + k - 1) (zrange 1 (c + 1))) (zrange 1 (Z.of_nat n + 1)).
Proof.
  intros Hc. induction n as [|n IH].
  - rewrite !zrange_nil by lia. reflexivity.
  - assert (E1 : Z.of_nat (S n) * c = Z.of_nat n * c + c) by (rewrite Nat2Z.inj_succ; ring). assert (0 <= Z.of_nat n * c) by nia.
    rewrite E1. rewrite (zrange_app 0 (Z.of_nat n * c) (Z.of_nat n * c + c)) by lia. rewrite (zrange_app 1 (Z.of_nat n + 1) (Z.of_nat (S n) + 1)) by lia. rewrite flat_map_app, <- IH. f_equal.
    rewrite (zrange_cons (Z.of_nat n + 1)) by lia. rewrite (zrange_nil (Z.of_nat n + 1 + 1)) by lia. cbn [flat_map]. rewrite app_nil_r.
    unfold zrange. rewrite map_map. replace (Z.to_nat (Z.of_nat n * c + c - Z.of_nat n * c)) with (Z.to_nat (c + 1 - 1)) by lia. apply map_ext. intros k.
    replace (Z.of_nat n + 1 - 1) with (Z.of_nat n) by lia. lia.
Qed.
Lemma fill_sum v' : (forall j k, 1 <= j < ny -> 1 <= k < nz -> v' ((j - 1) * (nz - 1) + k - 1) = Known (term j k)) ->
  pf_psum (pf_stride ny nz) v' = Some (rsum (map (fun j => rsum (map (fun k => term j k) (zrange 1 nz))) (zrange 1 ny))).
Proof.
  intros H. unfold pf_psum, pf_stride.
  assert (Er : zrange 0 ((ny - 1) * (nz - 1)) = flat_map (fun j => map (fun k => (j - 1) * (nz - 1) + k - 1) (zrange 1 nz)) (zrange 1 ny)).
  { pose proof (rows_eq (nz - 1) ltac:(lia) (Z.to_nat (ny - 1))) as E. rewrite Z2Nat.id in E by lia.
    replace (nz - 1 + 1) with nz in E by lia. replace (ny - 1 + 1) with ny in E by lia. exact E. }
  rewrite Er, psum_spec.
  - f_equal. rewrite Rplus_0_l. rewrite flat_map_concat_map, concat_map, map_map, <- flat_map_concat_map, rsum_flat. f_equal. apply map_ext_in. intros j Ij. apply in_zrange in Ij.
    f_equal. rewrite map_map. apply map_ext_in. intros k Ik. apply in_zrange in Ik. rewrite H by lia. reflexivity.
  - intros i I. apply in_flat_map in I. destruct I as (j & Ij & I). apply in_map_iff in I. destruct I as (k & <- & Ik). apply in_zrange in Ij, Ik.
    exists (term j k). apply H; lia.
Qed.
End Fill.

Lemma rank_left px nx ny nz cvac e0 F r : 2 <= ny -> 2 <= nz -> 0 < px -> 0 <= r -> (px | r) ->
  pf_rank px nx ny nz cvac e0 F r = Some (Some (rsum (map (fun j => rsum (map (fun k => pf_term nx ny cvac e0 F j k) (zrange 1 nz))) (zrange 1 ny)))).
Proof.
  intros Hy Hz Hp Hr (t & Et). unfold pf_rank. assert (E : pf_ix px r = 0) by (unfold pf_ix; rewrite Et, Z.quot_mul by lia; lia). rewrite E, Z.eqb_refl.
  destruct (fill_ok nx ny nz cvac e0 F Hy Hz (new_pvec (pf_stride ny nz))) as (v' & -> & A). cbv zeta. f_equal. apply fill_sum; assumption.
Qed.
Lemma rank_right px nx ny nz cvac e0 F r : 2 <= ny -> 2 <= nz -> 0 < px -> 0 <= r -> ~ (px | r) ->
  pf_rank px nx ny nz cvac e0 F r = Some None.
Proof.
  intros Hy Hz Hp Hr N. unfold pf_rank. assert (E : pf_ix px r <> 0).
  { intros E. apply N. exists (Z.quot r px). unfold pf_ix in E. lia. }
  replace (pf_ix px r =? 0) with false by lia. cbv zeta. f_equal. assert (S : 1 <= pf_stride ny nz) by (unfold pf_stride; nia).
  apply psum_unset with (i := pf_stride ny nz - 1); [apply in_zrange; lia|].
  unfold new_pvec. replace ((0 <=? pf_stride ny nz - 1) && (4 * (pf_stride ny nz - 1) + 3 <? pf_stride ny nz)) with false by lia. reflexivity.
Qed.

Notation addo := (fun o x => match o, x with
     | None, _ | _, None => None
     | Some (Some s), Some (Some y) => Some (Some (s + y)%R)
     | _, _ => Some None
     end).
Lemma allsum_values {A} (f : A -> R) l s : fold_left addo (map (fun a => Some (Some (f a))) l) (Some (Some s)) = Some (Some (s + rsum (map f l))%R).
Proof.
  revert s. induction l as [|a l IH]; intros s; [cbn; do 2 f_equal; lra|]. cbn [map fold_left]. rewrite IH. do 2 f_equal. cbn [rsum map fold_right]. unfold rsum. lra.
Qed.
Lemma allsum_garbage l : (forall x, In x l -> x <> None) -> fold_left addo l (Some None) = Some None.
Proof.
  induction l as [|x l IH]; intros H; [reflexivity|]. cbn [fold_left]. destruct x as [x|]; [|destruct (H None (or_introl eq_refl) eq_refl)].
  apply IH. intros y I. apply H. right. exact I.
Qed.
Lemma allsum_has l : (forall x, In x l -> x <> None) -> In (Some None) l -> forall s, fold_left addo l (Some s) = Some None.
Proof.
  induction l as [|x l IH]; intros H I s; [destruct I|]. cbn [fold_left]. destruct x as [x|]; [|destruct (H None (or_introl eq_refl) eq_refl)].
  assert (H' : forall y, In y l -> y <> None) by (intros y J; apply H; right; exact J).
  destruct I as [E|I].
  - injection E as ->. destruct s; apply allsum_garbage, H'.
  - destruct s as [s|]; [destruct x as [x|]|].
    + apply IH; assumption.
    + apply allsum_garbage, H'.
    + apply allsum_garbage, H'.
Qed.
Lemma index_voxel nx ny nz x y z : pf_index nx ny x y z = voxel nx ny nz x y z.
Proof. unfold pf_index, voxel. ring. Qed.
