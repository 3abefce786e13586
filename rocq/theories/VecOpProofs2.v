(* Proofs for the operators of the vector classes: all lanes of all functions,
   and the functions that do not work lane by lane. *)
From Coq Require Import ZArith List String Bool Lia.
From Flocq Require Import IEEE754.Binary IEEE754.Bits.
From Verif Require Import VecOpModel VecOpPrograms4 VecOpPrograms8 VecOpPrograms16 VecOpTable VecOpSpec
  VecOpProofs VecOpWords VecOpLanes VecOpLanes4 VecOpLanes8 VecOpLanes16.
Import ListNotations.
Ltac Zify.zify_post_hook ::= idtac.
Open Scope string_scope. Open Scope list_scope. Open Scope Z_scope.

Lemma lanes_all : forall h, Forall (lane_ok h) (summary h).
Proof.
  intros []; [apply lanes_V4portable | apply lanes_V4sse | apply lanes_V4avx | apply lanes_V4avx2 | apply lanes_V4neon
    | apply lanes_V8portable | apply lanes_V8avx | apply lanes_V8avx2 | apply lanes_V16portable | apply lanes_V16avx512].
Qed.

Lemma good_sized : forall f args, good_args f args -> sized (f_params f) args.
Proof.
  intros f args H. unfold good_args in H. unfold sized. induction H as [|p a ps args [A B] H IH]; constructor; assumption.
Qed.

Lemma column_words : forall f args j, good_args f args -> Forall word (column j args).
Proof.
  intros f args j H. unfold good_args in H. induction H as [|p a ps args [A B] H IH]; constructor; [|exact IH].
  assert (N : word (nth j a 0)).
  { destruct (Nat.ltb j (List.length a)) eqn:L.
    - apply Nat.ltb_lt in L. rewrite Forall_forall in B. apply B. apply nth_In. exact L.
    - apply Nat.ltb_ge in L. rewrite nth_overflow by exact L. apply word0. }
  destruct a as [|w [|w2 a]]; [exact N| |exact N]. inversion B; assumption.
Qed.

Lemma column_length : forall f args j, good_args f args -> List.length (column j args) = List.length (f_params f).
Proof.
  intros f args j H. unfold column. rewrite map_length. unfold good_args in H.
  induction H; cbn; [reflexivity|f_equal; assumption].
Qed.

Theorem lanewise : forall F h f sp args,
  sub_from_zero F -> In f (ops h) -> assoc (lane_specs F h) (f_name f) = Some sp -> good_args f args ->
  (forall j, (j < width h)%nat -> lane_dom h (f_name f) (column j args) = true) ->
  call F (width h) f args = opts (map (fun j => sp (column j args)) (seq 0 (width h))).
Proof.
  intros F h f sp args SZ Hf Hs Hg Hd.
  pose proof (lanes_all h) as L. rewrite Forall_forall in L.
  specialize (L (f_name f, f_params f, form (width h) f)).
  assert (I : In (f_name f, f_params f, form (width h) f) (summary h))
    by (apply (in_map (fun f0 => (f_name f0, f_params f0, form (width h) f0)) (ops h) f Hf)).
  specialize (L I). cbn [lane_ok] in L. destruct (form (width h) f) as [ts|] eqn:E; [|contradiction].
  rewrite (form_ok F (width h) f ts args E (good_sized f args Hg)).
  apply opts_map_ext. intros j Hj. apply in_seq in Hj.
  apply (L F (column j args) sp SZ (column_words f args j Hg) (column_length f args j Hg)); [apply Hd; lia|exact Hs].
Qed.

(* In instead of assoc: the names are distinct *)
Lemma assoc_in {A} : forall (l : list (string * A)) n a, NoDup (map fst l) -> In (n, a) l -> assoc l n = Some a.
Proof.
  induction l as [|[m b] l IH]; intros n a D H; [contradiction|].
  cbn [map fst] in D. inversion D as [|? ? N D']; subst. cbn [assoc]. destruct H as [H|H].
  - injection H as -> ->. rewrite String.eqb_refl. reflexivity.
  - destruct (String.eqb_spec n m) as [->|]; [|apply IH; assumption].
    exfalso. apply N. apply (in_map fst l (m, a) H).
Qed.

Lemma spec_names : forall F h, map fst (lane_specs F h) = map fst (lane_specs F V4portable).
Proof. intros F []; reflexivity. Qed.

Lemma nodupb_ok : forall l, nodupb l = true -> NoDup l.
Proof.
  induction l as [|x l IH]; cbn [nodupb]; intros H; [constructor|].
  apply andb_true_iff in H. destruct H as [H1 H2]. constructor; [|apply IH; exact H2].
  intros I. apply negb_true_iff in H1. assert (existsb (String.eqb x) l = true); [|congruence].
  apply existsb_exists. exists x. split; [exact I|apply String.eqb_refl].
Qed.

Lemma spec_nodup : forall F h, NoDup (map fst (lane_specs F h)).
Proof. intros F h. rewrite spec_names. apply nodupb_ok. vm_compute. reflexivity. Qed.

Definition same_names (a b : list string) : bool :=
  nodupb a && nodupb b && Nat.eqb (List.length a) (List.length b) && forallb (fun x => existsb (String.eqb x) b) a.
Lemma same_names_ok : forall a b, same_names a b = true -> NoDup a /\ forall x, In x a <-> In x b.
Proof.
  intros a b H. unfold same_names in H.
  apply andb_true_iff in H. destruct H as [H I]. apply andb_true_iff in H. destruct H as [H L].
  apply andb_true_iff in H. destruct H as [Da Db]. apply nodupb_ok in Da, Db. apply Nat.eqb_eq in L.
  rewrite forallb_forall in I.
  assert (Inc : incl a b).
  { intros x Hx. specialize (I x Hx). apply existsb_exists in I. destruct I as (y & A & B).
    apply String.eqb_eq in B. subst. exact A. }
  split; [exact Da|]. intros x. split; [apply Inc|].
  assert (Inc2 : incl b a) by (apply NoDup_length_incl; [exact Da|lia|exact Inc]). apply Inc2.
Qed.

Theorem complete : forall F h,
  NoDup (map f_name (ops h)) /\
  (forall n, In n (map f_name (ops h)) <-> In n op_names) /\
  (forall n, In n (map fst (lane_specs F h)) <-> In n op_names).
Proof.
  intros F h.
  assert (A : same_names (map f_name (ops h)) op_names = true) by (destruct h; vm_compute; reflexivity).
  assert (B : same_names (map fst (lane_specs F h)) op_names = true)
    by (rewrite spec_names; vm_compute; reflexivity).
  apply same_names_ok in A. apply same_names_ok in B. destruct A as [A1 A2], B as [B1 B2].
  split; [exact A1|]. split; assumption.
Qed.

(* ---- any and all ------------------------------------------------------------ *)
Lemma b2w_truth : forall b, negb (b2w b =? 0) = b.
Proof. intros [|]; reflexivity. Qed.

Ltac lanes4 a := destruct a as [|? [|? [|? [|? [|? ?]]]]]; try discriminate.
Ltac lanes8 a := destruct a as [|? [|? [|? [|? [|? [|? [|? [|? [|? ?]]]]]]]]]; try discriminate.
Ltac lanes16 a := destruct a as [|? [|? [|? [|? [|? [|? [|? [|? [|? [|? [|? [|? [|? [|? [|? [|? [|? ?]]]]]]]]]]]]]]]]]; try discriminate.
Ltac lanes h a := destruct h; cbn [width] in *;
  match goal with
  | L : List.length a = 4%nat |- _ => lanes4 a
  | L : List.length a = 8%nat |- _ => lanes8 a
  | L : List.length a = 16%nat |- _ => lanes16 a
  end.

Lemma any_ok : forall F h a, List.length a = width h ->
  call_n F (width h) 1 (any_fn h) [a] = Some [[if existsb (fun w => negb (w =? 0)) a then 1 else 0]].
Proof.
  intros F h a L. lanes h a;
    cbv -[Z.eqb b2w orb negb existsb]; rewrite ?b2w_truth; cbn [existsb];
    rewrite ?orb_false_r, ?orb_assoc; reflexivity.
Qed.

Lemma all_ok : forall F h a, List.length a = width h ->
  call_n F (width h) 1 (all_fn h) [a] = Some [[if forallb (fun w => negb (w =? 0)) a then 1 else 0]].
Proof.
  intros F h a L. lanes h a;
    cbv -[Z.eqb b2w andb negb forallb]; rewrite ?b2w_truth; cbn [forallb];
    rewrite ?andb_true_r, ?andb_assoc; reflexivity.
Qed.

(* ---- splat and shuffle --------------------------------------------------------- *)

Lemma evals_copy : forall F r (i : nat -> nat) (w : nat -> Z) ks,
  (forall k, In k ks -> r "a" (i k) = Some (w k)) ->
  evals F r (map snd (map (fun k => ("b", k, Ln "a" (Ix (i k)))) ks)) = Some (map w ks).
Proof.
  induction ks as [|k ks IH]; intros H; [reflexivity|].
  cbn [map snd evals eval]. rewrite (H k (or_introl eq_refl)).
  rewrite IH by (intros l Hl; apply H; right; exact Hl). reflexivity.
Qed.

Lemma upds_copy : forall (i : nat -> nat) (w : nat -> Z) ks r,
  (forall l, ~ In l ks -> upds r (map (fun k => ("b", k, Ln "a" (Ix (i k)))) ks) (map w ks) "b" l = r "b" l) /\
  (forall l, In l ks -> upds r (map (fun k => ("b", k, Ln "a" (Ix (i k)))) ks) (map w ks) "b" l = Some (w l)).
Proof.
  induction ks as [|k ks IH]; intros r; cbn [map upds]; [split; [reflexivity|contradiction]|].
  destruct (IH (upd r "b" k (w k))) as [I1 I2]. split; intros l Hl.
  - rewrite I1 by (intros H; apply Hl; right; exact H).
    unfold upd. rewrite (proj2 (Nat.eqb_neq l k)) by (intros ->; apply Hl; left; reflexivity). reflexivity.
  - destruct (in_dec Nat.eq_dec l ks) as [H|H]; [apply I2; exact H|].
    rewrite I1 by exact H. destruct Hl as [->|Hl]; [|contradiction].
    unfold upd. rewrite Nat.eqb_refl. reflexivity.
Qed.

Lemma exec_copy : forall F (i : nat -> nat) (w : nat -> Z) ks r,
  (forall k, In k ks -> r "a" (i k) = Some (w k)) ->
  exists r', exec F r (map (fun k => [("b", k, Ln "a" (Ix (i k)))]) ks) = Some r' /\
    (forall l, ~ In l ks -> r' "b" l = r "b" l) /\ (forall l, In l ks -> r' "b" l = Some (w l)).
Proof.
  induction ks as [|k ks IH]; intros r H; cbn [map exec].
  - exists r. split; [reflexivity|]. split; [reflexivity|contradiction].
  - cbn [snd evals eval]. rewrite (H k (or_introl eq_refl)). cbn [upds].
    destruct (IH (upd r "b" k (w k))) as (r' & E & N & S).
    { intros l Hl. unfold upd. cbn [String.eqb Ascii.eqb Bool.eqb andb]. apply H. right. exact Hl. }
    exists r'. split; [exact E|]. split; intros l Hl.
    + rewrite N by (intros H2; apply Hl; right; exact H2).
      unfold upd. rewrite (proj2 (Nat.eqb_neq l k)) by (intros ->; apply Hl; left; reflexivity). reflexivity.
    + destruct (in_dec Nat.eq_dec l ks) as [H2|H2]; [apply S; exact H2|].
      rewrite N by exact H2. destruct Hl as [->|Hl]; [|contradiction].
      unfold upd. rewrite Nat.eqb_refl. reflexivity.
Qed.

Lemma opts_some {A} : forall (g : nat -> A) l, opts (map (fun j => Some (g j)) l) = Some (map g l).
Proof. induction l as [|x l IH]; [reflexivity|]. cbn [map opts]. rewrite IH. reflexivity. Qed.

Lemma bind_a : forall W (a : list Z) k, List.length a = W -> (k < W)%nat ->
  bind [("a", W)] [a] "a" k = Some (nth k a 0).
Proof.
  intros W a k L H. cbn [bind String.eqb Ascii.eqb Bool.eqb].
  rewrite (proj2 (Nat.ltb_lt k W) H). apply nth_error_nth'. lia.
Qed.

(* either form of a function that copies lanes of a to b *)
Lemma copy_fn : forall F W f (i : nat -> nat) a,
  f_params f = [("a", W)] -> f_outs f = ["b"] ->
  flat W (f_body f) = map (fun k => [("b", k, Ln "a" (Ix (i k)))]) (seq 0 W) \/
  flat W (f_body f) = [map (fun k => ("b", k, Ln "a" (Ix (i k)))) (seq 0 W)] ->
  List.length a = W -> (forall k, (k < W)%nat -> (i k < W)%nat) ->
  call F W f [a] = Some (map (fun k => [nth (i k) a 0]) (seq 0 W)).
Proof.
  intros F W f i a P O B L H. unfold call, call_n. rewrite P, O.
  assert (Q : forall k, In k (seq 0 W) -> bind [("a", W)] [a] "a" (i k) = Some (nth (i k) a 0)).
  { intros k Hk. apply in_seq in Hk. apply bind_a; [exact L|apply H; lia]. }
  destruct B as [B|B]; rewrite B.
  - destruct (exec_copy F i (fun k => nth (i k) a 0) (seq 0 W) (bind [("a", W)] [a]) Q) as (r' & E & _ & S).
    rewrite E. rewrite <- opts_some. apply opts_map_ext. intros j Hj. cbn [map opts]. rewrite (S j Hj). reflexivity.
  - cbn [exec]. rewrite (evals_copy F _ i (fun k => nth (i k) a 0) _ Q).
    rewrite <- opts_some. apply opts_map_ext. intros j Hj. cbn [map opts].
    rewrite (proj2 (upds_copy i (fun k => nth (i k) a 0) (seq 0 W) (bind [("a", W)] [a])) j Hj). reflexivity.
Qed.

Lemma perm_bits : forall i0 i1 i2 i3 k, (i0 < 4)%nat -> (i1 < 4)%nat -> (i2 < 4)%nat -> (i3 < 4)%nat -> (k < 4)%nat ->
  Z.to_nat (Z.land (Z.shiftr (Z.of_nat (i0 + i1 * 4 + i2 * 16 + i3 * 64)) (2 * Z.of_nat k)) 3)
  = nth k [i0; i1; i2; i3] 0%nat.
Proof.
  intros i0 i1 i2 i3 k H0 H1 H2 H3 Hk.
  assert (C : forall n, (n < 4)%nat -> In n [0; 1; 2; 3]%nat) by (intros n Hn; cbn; lia).
  assert (T : forallb (fun i0 => forallb (fun i1 => forallb (fun i2 => forallb (fun i3 => forallb (fun k =>
     Nat.eqb (Z.to_nat (Z.land (Z.shiftr (Z.of_nat (i0 + i1 * 4 + i2 * 16 + i3 * 64)) (2 * Z.of_nat k)) 3))
       (nth k [i0; i1; i2; i3] 0%nat)) [0; 1; 2; 3]%nat) [0; 1; 2; 3]%nat) [0; 1; 2; 3]%nat) [0; 1; 2; 3]%nat)
     [0; 1; 2; 3]%nat = true) by (vm_compute; reflexivity).
  rewrite forallb_forall in T. specialize (T i0 (C i0 H0)). rewrite forallb_forall in T. specialize (T i1 (C i1 H1)).
  rewrite forallb_forall in T. specialize (T i2 (C i2 H2)). rewrite forallb_forall in T. specialize (T i3 (C i3 H3)).
  rewrite forallb_forall in T. specialize (T k (C k Hk)). apply Nat.eqb_eq in T. exact T.
Qed.

Lemma shuf4 : forall i0 i1 i2 i3, (i0 < 4)%nat -> (i1 < 4)%nat -> (i2 < 4)%nat -> (i3 < 4)%nat ->
  flat 4 [SetV "b" (VShuf (VReg "a") (VReg "a") (i0 + i1 * 4 + i2 * 16 + i3 * 64)%nat)]
  = [map (fun k => ("b", k, Ln "a" (Ix (nth k [i0; i1; i2; i3] 0%nat)))) (seq 0 4)].
Proof.
  intros i0 i1 i2 i3 H0 H1 H2 H3.
  assert (P : forall k, (k < 4)%nat -> _) by (exact (fun k => perm_bits i0 i1 i2 i3 k H0 H1 H2 H3)).
  unfold flat. cbn [flat_map flat1 app lane_of seq map].
  rewrite !P by (repeat constructor). cbn [Nat.ltb Nat.leb lane_of nth]. reflexivity.
Qed.

Lemma splat_ok : forall F h n a, (n < width h)%nat -> List.length a = width h ->
  call F (width h) (splat_fn h n) [a] = Some (repeat [nth n a 0] (width h)).
Proof.
  intros F h n a Hn L.
  assert (S : forall n, (n < 4)%nat -> (n * (1 + 1 * 4 + 1 * 16 + 1 * 64) = n + n * 4 + n * 16 + n * 64)%nat) by (intros; lia).
  replace (repeat [nth n a 0] (width h)) with (map (fun k : nat => [nth ((fun _ => n) k) a 0]) (seq 0 (width h)))
    by (destruct h; reflexivity).
  destruct h; cbn [width splat_fn] in *;
    (apply (copy_fn F _ _ (fun _ => n) a); [reflexivity|reflexivity| |exact L|intros; exact Hn]);
    first [left; reflexivity | right; reflexivity | right].
  all: match goal with |- flat _ (f_body (?s _)) = _ => unfold s end; cbn [f_body]; rewrite S by exact Hn;
       rewrite shuf4 by exact Hn; reflexivity.
Qed.

Lemma shuffle_ok : forall F h i a, List.length i = width h -> Forall (fun k => (k < width h)%nat) i ->
  List.length a = width h ->
  call F (width h) (shuffle_fn h i) [a] = Some (map (fun k => [nth k a 0]) i).
Proof.
  intros F h i a Li Hi L.
  assert (E : map (fun k : nat => [nth k a 0]) i = map (fun k : nat => [nth (nth k i 0%nat) a 0]) (seq 0 (width h))).
  { rewrite <- Li. clear. induction i as [|x i IH]; [reflexivity|].
    cbn [List.length seq map nth]. f_equal. rewrite IH, <- seq_shift, map_map. apply map_ext. reflexivity. }
  rewrite E.
  assert (B : forall k, (k < width h)%nat -> (nth k i 0%nat < width h)%nat).
  { intros k Hk. rewrite Forall_forall in Hi. apply Hi. apply nth_In. lia. }
  apply (copy_fn F _ _ (fun k => nth k i 0%nat) a);
    [destruct h; reflexivity|destruct h; reflexivity| |exact L|exact B].
  destruct h; cbn [width shuffle_fn] in *; first [left; reflexivity | right; reflexivity | right].
  all: match goal with |- flat _ (f_body (?s _ _ _ _)) = _ => unfold s end; cbn [f_body];
       rewrite shuf4 by (apply B; repeat constructor); reflexivity.
Qed.

(* ---- constructors from scalars ---------------------------------------------------- *)
Lemma scalars_ok : forall F h fl ws, List.length ws = width h ->
  call F (width h) (scalars_fn h fl) (map (fun w => [w]) ws) = Some (map (fun w => [w]) ws).
Proof. intros F h fl ws L. destruct fl; lanes h ws; vm_compute; reflexivity. Qed.

(* ---- trilinear ---------------------------------------------------------------------- *)
Lemma trilinear_ok : forall F h f x y z w wh, trilinear_fn h = Some f -> List.length wh = width h ->
  (forall u, In u [x; y; z] -> word u /\ f_add F f1 ((u + 2 ^ 31) mod 2 ^ 32) = f_sub F f1 u) ->
  call F (width h) f [[x; y; z; w]; wh] = Some (tri_rows F x y z).
Proof.
  intros F h f x y z w wh E L H.
  assert (Q : forall u, In u [x; y; z] -> f_add F 1065353216 (Z.lxor 2147483648 u) = f_sub F 1065353216 u
     /\ f_add F 1065353216 (Z.lxor 0 u) = f_add F 1065353216 u).
  { intros u Hu. destruct (H u Hu) as [A B]. split; [|reflexivity].
    change 1065353216 with f1. rewrite <- B. rewrite Z.lxor_comm. change 2147483648 with signbit. rewrite flip_word by exact A. reflexivity. }
  destruct h; cbn [trilinear_fn] in E; try discriminate E; injection E as <-; cbn [width] in L; lanes4 wh;
    cbv -[Z.lxor f_add f_sub f_mul];
    rewrite ?(proj1 (Q x (or_introl eq_refl))), ?(proj1 (Q y (or_intror (or_introl eq_refl)))),
      ?(proj1 (Q z (or_intror (or_intror (or_introl eq_refl))))), ?Z.lxor_0_l; reflexivity.
Qed.

(* ---- conditions ------------------------------------------------------------------------ *)
Lemma bits_self : forall t g, word t -> (forall i, 0 <= i < 32 -> g i = Z.testbit t i) -> bits g = t.
Proof. intros t g T H. symmetry. apply bits_spec; [exact T|]. intros i Hi. symmetry. apply H. exact Hi. Qed.

Lemma mask_bit : forall c i, 0 <= i < 32 -> Z.testbit (mask c) i = c.
Proof.
  intros [|] i Hi; cbn [mask]; [|apply Z.testbit_0_l].
  change (2 ^ 32 - 1) with (Z.ones 32). apply Z.ones_spec_low. lia.
Qed.

Lemma nth_word : forall l j, Forall word l -> word (nth j l 0).
Proof.
  intros l j H. destruct (Nat.ltb j (List.length l)) eqn:L.
  - apply Nat.ltb_lt in L. rewrite Forall_forall in H. apply H. apply nth_In. exact L.
  - apply Nat.ltb_ge in L. rewrite nth_overflow by exact L. apply word0.
Qed.

Lemma width_gt : forall h, (1 < width h)%nat.
Proof. intros []; cbn; lia. Qed.

Lemma at_lane : forall (a : list Z) h j, List.length a = width h ->
  match a with [w] => w | _ => nth j a 0 end = nth j a 0.
Proof.
  intros a h j L. pose proof (width_gt h). destruct a as [|x [|y a]]; [reflexivity| |reflexivity].
  cbn in L. lia.
Qed.

Lemma opts_map_some {A B} (g : A -> option B) (k : A -> B) l : (forall x, In x l -> g x = Some (k x)) ->
  opts (map g l) = Some (map k l).
Proof.
  induction l as [|x l IH]; intros H; [reflexivity|]. cbn [map opts].
  rewrite (H x (or_introl eq_refl)), IH by (intros y Hy; apply H; right; exact Hy). reflexivity.
Qed.

Lemma nth_mask : forall cs j, nth j (map mask cs) 0 = mask (nth j cs false).
Proof. intros cs j. change 0 with (mask false). apply map_nth. Qed.

Definition lookup (h : hdr) (n : string) : option fn := List.find (fun f => String.eqb (f_name f) n) (ops h).

Lemma lookup_in : forall h n f, lookup h n = Some f -> In f (ops h) /\ f_name f = n.
Proof.
  intros h n f H. apply find_some in H. destruct H as [A B]. apply String.eqb_eq in B. split; assumption.
Qed.

Lemma named : forall h n f, In f (ops h) -> f_name f = n -> lookup h n = Some f.
Proof.
  intros h n f H E. unfold lookup. destruct (complete (Build_fpu (fun a _ => a) (fun a _ => a) (fun a _ => a) (fun a _ => a)
    (fun a => a) (fun a => a) (fun a => a) (fun a _ _ => a) (fun a _ _ => a) (fun a _ _ => a) (fun _ a => a) (fun _ a _ => a)) h) as [D _].
  revert D H. generalize (ops h). intros l D H. induction l as [|g l IH]; [contradiction|].
  cbn [map] in D. inversion D as [|? ? N D']; subst. cbn [List.find]. destruct H as [->|H].
  - rewrite String.eqb_refl. reflexivity.
  - destruct (String.eqb_spec (f_name g) (f_name f)) as [Q|_]; [|apply IH; assumption].
    exfalso. apply N. rewrite Q. apply in_map. exact H.
Qed.
