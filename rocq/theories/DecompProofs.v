(* The ranks of a box together carry out the field update of the undivided mesh. *)
From Coq Require Import ZArith List Bool Lia ZifyBool.
From Verif Require Import SortModel VoxelModel VoxelProofs GridModel GridProofs SweepModel FieldModel RemoteModel RemoteSpec RemoteProofs RemoteGhost RemoteSync
  DecompSpec FieldSpec FieldSweeps.
Import ListNotations.
Open Scope Z_scope.
Ltac Zify.zify_post_hook ::= idtac.

Section Layout.
Context {V : Type}.
Variable L : layout V.
Hypothesis OK : layout_ok L.

Lemma at_gplace a p q : RemoteModel.at_ a (gplace L p q) = place L a p q.
Proof. destruct a; reflexivity. Qed.
Lemma gplace_put a p q v : gplace L p (put a v q) = put a (place L a p q - RemoteModel.at_ a q + v) (gplace L p q).
Proof.
  apply cell_ext. intros b. rewrite at_gplace. unfold place. destruct (axis_eqb b a) eqn:E.
  - assert (b = a) by (destruct a, b; first [reflexivity | discriminate E]). subst b. rewrite !at_put_same. lia.
  - assert (b <> a) by (intros ->; destruct a; discriminate E). rewrite !at_put_other by assumption. rewrite at_gplace. reflexivity.
Qed.
Lemma gplace_dn a p q : gplace L p (dn a q) = dn a (gplace L p q).
Proof. unfold dn. rewrite gplace_put, at_gplace. f_equal. lia. Qed.
Lemma gplace_up a p q : gplace L p (up a q) = up a (gplace L p q).
Proof. unfold up. rewrite gplace_put, at_gplace. f_equal. lia. Qed.

(* the entry beside the face on the neighbour has the place of the ghost entry, up to a turn around the box *)
Lemma before_succ (n : Z -> Z) i : 0 <= i -> before n (Z.to_nat (i + 1)) = before n (Z.to_nat i) + n i.
Proof. intros Hi. replace (Z.to_nat (i + 1)) with (S (Z.to_nat i)) by lia. cbn [before]. rewrite Z2Nat.id by lia. reflexivity. Qed.
Lemma ghost_place {T} (f : cell -> T) a t j p q : repeats L f -> inside L p -> t = -1 \/ t = 1 -> beside L a (RemoteModel.at_ a p) t = Some j ->
  RemoteModel.at_ a q = (if t =? -1 then 0 else l_n L a (RemoteModel.at_ a p) + 1) ->
  f (gplace L (put a j p) (put a (if t =? -1 then l_n L a j else 1) q)) = f (gplace L p q).
Proof.
  intros Hf Hp Ht Ej Hq. specialize (Hp a). assert (Pg : RemoteModel.at_ a (gplace L p q) = before (l_n L a) (Z.to_nat (RemoteModel.at_ a p)) + RemoteModel.at_ a q) by (rewrite at_gplace; reflexivity). remember (RemoteModel.at_ a p) as i eqn:Ei.
  set (x := if t =? -1 then l_n L a j else 1).
  assert (Q : gplace L (put a j p) (put a x q) = put a (before (l_n L a) (Z.to_nat j) + x) (gplace L p q)).
  { apply cell_ext. intros b. rewrite at_gplace. unfold place. destruct (axis_eqb b a) eqn:E.
    - assert (b = a) by (destruct a, b; first [reflexivity | discriminate E]). subst b. rewrite !at_put_same. reflexivity.
    - assert (b <> a) by (intros ->; destruct a; discriminate E). rewrite !at_put_other by assumption. rewrite at_gplace. reflexivity. }
  rewrite Q. clear Q. unfold beside in Ej.
  destruct ((0 <=? i + t) && (i + t <? l_p L a)) eqn:E.
  - injection Ej as <-. replace (before (l_n L a) (Z.to_nat (i + t)) + x) with (RemoteModel.at_ a (gplace L p q)); [rewrite put_at; reflexivity|]. rewrite Pg, Hq. unfold x.
    destruct Ht as [-> | ->]; cbn [Z.eqb Pos.eqb].
    + pose proof (before_succ (l_n L a) (i + -1) ltac:(lia)) as S. replace (i + -1 + 1) with i in S by lia. lia.
    + rewrite before_succ by lia. lia.
  - destruct (l_per L a) eqn:Ep; [|discriminate]. injection Ej as <-. destruct Ht as [-> | ->]; cbn [Z.eqb Pos.eqb] in *.
    + assert (i = 0) as -> by lia. assert (Em : (0 + -1) mod l_p L a = l_p L a - 1) by (symmetry; apply (Z.mod_unique _ _ (-1)); lia). rewrite Em in *. unfold x.
      rewrite <- (Hf a (gplace L p q) Ep). f_equal. f_equal. rewrite Pg, Hq. unfold total. pose proof (before_succ (l_n L a) (l_p L a - 1) ltac:(lia)) as S. replace (l_p L a - 1 + 1) with (l_p L a) in S by lia. rewrite S, Em. cbn [Z.to_nat before]. lia.
    + assert (i = l_p L a - 1) by lia. assert (Em : (i + 1) mod l_p L a = 0) by (replace (i + 1) with (0 + 1 * l_p L a) by lia; rewrite Z.mod_add, Z.mod_0_l by lia; reflexivity). unfold x. rewrite Em. cbn [Z.to_nat before].
      rewrite <- (Hf a (put a (0 + 1) (gplace L p q)) Ep). rewrite put_put, at_put_same.
      replace (0 + 1 + total L a) with (RemoteModel.at_ a (gplace L p q)); [rewrite put_at; reflexivity|]. rewrite Pg, Hq. unfold total. replace (l_p L a) with (i + 1) by lia. rewrite before_succ by lia. lia.
Qed.
End Layout.

(* repeating fields stay so *)
Section Repeat.
Context {V : Type}.
Variable L : layout V.
Lemma put_swap a b v w g : a <> b -> put a v (put b w g) = put b w (put a v g).
Proof. destruct g as [[x y] z]. destruct a, b; intros H; try reflexivity; contradiction. Qed.
Lemma repeats_shift {T} (f : cell -> T) b s : repeats L f -> repeats L (fun g => f (put b (RemoteModel.at_ b g + s) g)).
Proof.
  intros Hf a g Ep. destruct (axis_eqb a b) eqn:E.
  - assert (a = b) by (destruct a, b; first [reflexivity | discriminate E]). subst b. rewrite at_put_same, put_put.
    pose proof (Hf a (put a (RemoteModel.at_ a g + s) g) Ep) as Q. rewrite at_put_same, put_put in Q. rewrite <- Q. f_equal. f_equal. lia.
  - assert (N : a <> b) by (intros ->; destruct b; discriminate E). rewrite at_put_other by congruence. rewrite put_swap by congruence.
    pose proof (Hf a (put b (RemoteModel.at_ b g + s) g) Ep) as Q. rewrite at_put_other in Q by exact N. exact Q.
Qed.
Lemma repeats_dn {T} (f : cell -> T) b : repeats L f -> repeats L (fun g => f (dn b g)).
Proof. apply (repeats_shift f b (-1)). Qed.
Lemma repeats_up {T} (f : cell -> T) b : repeats L f -> repeats L (fun g => f (up b g)).
Proof. apply (repeats_shift f b 1). Qed.
End Repeat.
