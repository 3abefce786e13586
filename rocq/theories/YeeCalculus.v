(* Sums over the cells, faces, edges and nodes of a box, summation by parts along an axis, and the bound of the discrete curl. *)
From Coq Require Import Reals ZArith List Bool Lia ZifyBool Lra.
From Verif Require Import SortModel SortProofs FieldModel RemoteModel ParticleSpec ParticleProofs DecompSpec.
Import ListNotations.
Open Scope Z_scope.
Ltac Zify.zify_post_hook ::= idtac.
Local Notation axis := RemoteModel.axis.
Local Notation AX := RemoteModel.AX.
Local Notation AY := RemoteModel.AY.
Local Notation AZ := RemoteModel.AZ.
Local Notation AT := RemoteModel.at_.
Local Notation sumR := ParticleSpec.sumR.

Lemma sumR_cons x l : sumR (x :: l) = (x + sumR l)%R. Proof. reflexivity. Qed.
(* ---- one axis: sum over the cells 1..n of f, or of the mean of its values at the two ends of the cell ---- *)
Definition I1 (k : bool) (n : Z) (f : Z -> R) : R := sumR (map (fun i => if k then ((f i + f (i + 1)%Z) / 2)%R else f i) (zrange 1 (n + 1))).
Lemma sumR_lin {T} (a b : R) (f g : T -> R) l : sumR (map (fun i => (a * f i + b * g i)%R) l) = (a * sumR (map f l) + b * sumR (map g l))%R.
Proof. induction l as [|x l IH]; cbn [map]; [cbn; lra|]. rewrite !sumR_cons, IH. lra. Qed.
Lemma sumR_ext_in {T} (f g : T -> R) l : (forall i, In i l -> f i = g i) -> sumR (map f l) = sumR (map g l).
Proof. intros H. f_equal. apply map_ext_in. exact H. Qed.
Lemma sumR_le {T} (f g : T -> R) l : (forall i, In i l -> (f i <= g i)%R) -> (sumR (map f l) <= sumR (map g l))%R.
Proof. induction l as [|x l IH]; intros H; cbn [map]; [cbn; lra|]. rewrite !sumR_cons. pose proof (H x (or_introl eq_refl)). assert (sumR (map f l) <= sumR (map g l))%R by (apply IH; intros; apply H; right; assumption). lra. Qed.
Lemma I1_lin (k : bool) n a b (f g : Z -> R) : I1 k n (fun i => (a * f i + b * g i)%R) = (a * I1 k n f + b * I1 k n g)%R.
Proof. unfold I1. rewrite <- sumR_lin. apply sumR_ext_in. intros i _. destruct k; field. Qed.
Lemma I1_ext (k : bool) n (f g : Z -> R) : (forall i, 1 <= i <= n + (if k then 1 else 0) -> f i = g i) -> I1 k n f = I1 k n g.
Proof. intros H. apply sumR_ext_in. intros i Hi. apply in_zrange in Hi. destruct k; rewrite ?H by lia; try reflexivity. Qed.
Lemma I1_le (k : bool) n (f g : Z -> R) : (forall i, 1 <= i <= n + (if k then 1 else 0) -> (f i <= g i)%R) -> (I1 k n f <= I1 k n g)%R.
Proof. intros H. apply sumR_le. intros i Hi. apply in_zrange in Hi. destruct k; [|apply H; lia]. pose proof (H i ltac:(lia)). pose proof (H (i + 1) ltac:(lia)). lra. Qed.
Lemma I1_tele n (f : Z -> R) : 1 <= n -> I1 false n (fun i => (f (i + 1)%Z - f i)%R) = (f (n + 1)%Z - f 1%Z)%R.
Proof.
  intros Hn. unfold I1. assert (H0 : 0 <= n) by lia. revert Hn. pattern n. apply natlike_ind; [lia| |exact H0]. clear n H0. intros m Hm IH Hm'. destruct (Z.eq_dec m 0) as [-> |N].
  - change (zrange 1 (Z.succ 0 + 1)) with [1]. cbn. change (Z.succ 0 + 1) with 2. lra.
  - replace (Z.succ m + 1) with (m + 1 + 1) by lia. rewrite (zrange_app 1 (m + 1)) by lia. rewrite map_app, ParticleProofs.sumR_app, IH by lia.
    rewrite (zrange_cons (m + 1)), (zrange_nil (m + 1 + 1)) by lia. cbn [map]. rewrite sumR_cons. cbn. lra.
Qed.

(* ---- three axes; k says on which axes the quantity sits on the planes between cells ---- *)
Section Box.
Variable N : axis -> Z.
Hypothesis Npos : forall a, 1 <= N a.
Definition S3 (k : axis -> bool) (f : cell -> R) : R :=
  I1 (k AX) (N AX) (fun x => I1 (k AY) (N AY) (fun y => I1 (k AZ) (N AZ) (fun z => f (x, y, z)))).
Definition inr (k : axis -> bool) (g : cell) : Prop := forall a, 1 <= AT a g <= N a + (if k a then 1 else 0).
Definition off (a : axis) (k : axis -> bool) : axis -> bool := fun b => if axis_eqb b a then false else k b.
Definition on (a : axis) (k : axis -> bool) : axis -> bool := fun b => if axis_eqb b a then true else k b.

Lemma S3_lin k a b (f g : cell -> R) : S3 k (fun c => (a * f c + b * g c)%R) = (a * S3 k f + b * S3 k g)%R.
Proof.
  unfold S3. rewrite <- I1_lin. apply I1_ext. intros x _. rewrite <- I1_lin. apply I1_ext. intros y _. rewrite <- I1_lin. reflexivity.
Qed.
Lemma S3_ext k (f g : cell -> R) : (forall c, inr k c -> f c = g c) -> S3 k f = S3 k g.
Proof.
  intros H. unfold S3. apply I1_ext. intros x Hx. apply I1_ext. intros y Hy. apply I1_ext. intros z Hz. apply H. intros []; cbn; assumption.
Qed.
Lemma S3_le k (f g : cell -> R) : (forall c, inr k c -> (f c <= g c)%R) -> (S3 k f <= S3 k g)%R.
Proof.
  intros H. unfold S3. apply I1_le. intros x Hx. apply I1_le. intros y Hy. apply I1_le. intros z Hz. apply H. intros []; cbn; assumption.
Qed.
Lemma S3_kind k k' f : (forall a, k a = k' a) -> S3 k f = S3 k' f.
Proof. intros H. unfold S3. rewrite !H. reflexivity. Qed.
Lemma S3_scale k a (f : cell -> R) : S3 k (fun c => (a * f c)%R) = (a * S3 k f)%R.
Proof. transitivity (S3 k (fun c => (a * f c + 0 * f c)%R)); [apply S3_ext; intros; lra|]. rewrite S3_lin. lra. Qed.
Lemma S3_add k (f g : cell -> R) : S3 k (fun c => (f c + g c)%R) = (S3 k f + S3 k g)%R.
Proof. transitivity (S3 k (fun c => (1 * f c + 1 * g c)%R)); [apply S3_ext; intros; lra|]. rewrite S3_lin. lra. Qed.
Lemma S3_sub k (f g : cell -> R) : S3 k (fun c => (f c - g c)%R) = (S3 k f - S3 k g)%R.
Proof. transitivity (S3 k (fun c => (1 * f c + (-1) * g c)%R)); [apply S3_ext; intros; lra|]. rewrite S3_lin. lra. Qed.
Lemma S3_zero k : S3 k (fun _ => 0%R) = 0%R.
Proof. transitivity (S3 k (fun c => (0 * 0)%R)); [apply S3_ext; intros; lra|]. rewrite S3_scale. lra. Qed.
Lemma S3_pos k (f : cell -> R) : (forall c, inr k c -> (0 <= f c)%R) -> (0 <= S3 k f)%R.
Proof. intros H. rewrite <- (S3_zero k). apply S3_le. exact H. Qed.

Lemma S3_half a k (f : cell -> R) : k a = true -> S3 k f = S3 (off a k) (fun g => ((f g + f (up a g)) / 2)%R).
Proof.
  intros Ha. transitivity (S3 (off a k) (fun g => (/ 2 * f g + / 2 * f (up a g))%R)); [|apply S3_ext; intros; lra].
  unfold S3. destruct a; cbn [off axis_eqb up RemoteModel.at_ put] in *.
  - rewrite Ha. unfold I1 at 1 4. apply sumR_ext_in. intros x _. match goal with |- ((?a + ?b) / 2)%R = _ => transitivity (/ 2 * a + / 2 * b)%R; [lra|] end.
    rewrite <- I1_lin. apply I1_ext. intros y _. rewrite <- I1_lin. reflexivity.
  - apply I1_ext. intros x _. rewrite Ha. unfold I1 at 1 3. apply sumR_ext_in. intros y _. match goal with |- ((?a + ?b) / 2)%R = _ => transitivity (/ 2 * a + / 2 * b)%R; [lra|] end.
    rewrite <- I1_lin. reflexivity.
  - apply I1_ext. intros x _. apply I1_ext. intros y _. rewrite Ha. unfold I1. apply sumR_ext_in. intros z _. lra.
Qed.
(* T takes the same value at the two ends of axis a *)
Definition closed (a : axis) (k : axis -> bool) (T : cell -> R) : Prop := forall g, inr k g -> AT a g = 1 -> T (put a (N a + 1) g) = T g.
Lemma S3_tele a k T : k a = false -> closed a k T -> S3 k (fun g => (T (up a g) - T g)%R) = 0%R.
Proof.
  intros Ha H.
  assert (L : forall k n (f g : Z -> R), (I1 k n f - I1 k n g)%R = I1 k n (fun i => (f i - g i)%R)).
  { intros k0 n f g. symmetry. transitivity (I1 k0 n (fun i => (1 * f i + (-1) * g i)%R)); [apply I1_ext; intros; lra|]. rewrite I1_lin. lra. }
  assert (Z0 : forall k n, I1 k n (fun _ => 0%R) = 0%R) by (intros k0 n; transitivity (I1 k0 n (fun i => (0 * 0 + 0 * 0)%R)); [apply I1_ext; intros; lra|]; rewrite I1_lin; lra).
  unfold S3. destruct a; cbn [up RemoteModel.at_ put] in *.
  - rewrite Ha. etransitivity; [apply I1_ext; intros x _; etransitivity; [apply I1_ext; intros y _; symmetry; apply L|symmetry; apply L]|].
    rewrite (I1_tele (N AX) (fun x => I1 (k AY) (N AY) (fun y => I1 (k AZ) (N AZ) (fun z => T (x, y, z)))) (Npos AX)). rewrite L. rewrite <- (Z0 (k AY) (N AY)). apply I1_ext. intros y Hy.
    rewrite L. rewrite <- (Z0 (k AZ) (N AZ)). apply I1_ext. intros z Hz. specialize (H (1, y, z)). cbn in H. rewrite H; [lra| |reflexivity]. intros []; cbn; try assumption. rewrite Ha. pose proof (Npos AX). lia.
  - rewrite <- (Z0 (k AX) (N AX)). apply I1_ext. intros x Hx. rewrite Ha. etransitivity; [apply I1_ext; intros y _; symmetry; apply L|].
    rewrite (I1_tele (N AY) (fun y => I1 (k AZ) (N AZ) (fun z => T (x, y, z))) (Npos AY)). rewrite L. rewrite <- (Z0 (k AZ) (N AZ)). apply I1_ext. intros z Hz.
    specialize (H (x, 1, z)). cbn in H. rewrite H; [lra| |reflexivity]. intros []; cbn; try assumption. rewrite Ha. pose proof (Npos AY). lia.
  - rewrite <- (Z0 (k AX) (N AX)). apply I1_ext. intros x Hx. rewrite <- (Z0 (k AY) (N AY)). apply I1_ext. intros y Hy. rewrite Ha. rewrite (I1_tele (N AZ) (fun z => T (x, y, z)) (Npos AZ)).
    specialize (H (x, y, 1)). cbn in H. rewrite H; [lra| |reflexivity]. intros []; cbn; try assumption. rewrite Ha. pose proof (Npos AZ). lia.
Qed.
Lemma dn_up a g : dn a (up a g) = g.
Proof. destruct g as [[x y] z], a; cbn; f_equal; try f_equal; lia. Qed.
Lemma up_dn a g : up a (dn a g) = g.
Proof. destruct g as [[x y] z], a; cbn; f_equal; try f_equal; lia. Qed.
Lemma up_comm a b g : up a (up b g) = up b (up a g).
Proof. destruct g as [[x y] z], a, b; reflexivity. Qed.
Lemma up_dn_comm a b g : a <> b -> up a (dn b g) = dn b (up a g).
Proof. destruct g as [[x y] z], a, b; try congruence; reflexivity. Qed.
Lemma off_on a k : k a = false -> forall b, off a (on a k) b = k b.
Proof. intros H b. unfold off, on. destruct a, b; cbn; auto. Qed.
Lemma on_a a k : on a k a = true. Proof. unfold on. destruct a; reflexivity. Qed.

(* differences: from a node plane up to the next, and from a cell down to the one before *)
Definition Du (a : axis) (e : cell -> R) (g : cell) : R := (e (up a g) - e g)%R.
Definition Db (a : axis) (h : cell -> R) (g : cell) : R := (h g - h (dn a g))%R.
Lemma by_parts a k (h e : cell -> R) : k a = false -> closed a k (fun g => (e g * (h g + h (dn a g)) / 2)%R) ->
  S3 k (fun g => (h g * Du a e g)%R) = (- S3 (on a k) (fun g => (e g * Db a h g)%R))%R.
Proof.
  intros Ha Hc. rewrite (S3_half a (on a k)) by apply on_a. rewrite (S3_kind (off a (on a k)) k) by (apply off_on; exact Ha).
  pose proof (S3_tele a k _ Ha Hc) as T. cbv beta in T. apply Rminus_diag_uniq. rewrite <- T. unfold Rminus at 1; rewrite Ropp_involutive, <- S3_add. apply S3_ext. intros g _. unfold Du, Db. rewrite dn_up. field.
Qed.
Lemma Du_bound a k (e : cell -> R) : k a = false -> (S3 k (fun g => (Du a e g * Du a e g)%R) <= 4 * S3 (on a k) (fun g => (e g * e g)%R))%R.
Proof.
  intros Ha. rewrite (S3_half a (on a k)) by apply on_a. rewrite (S3_kind (off a (on a k)) k) by (apply off_on; exact Ha). rewrite <- S3_scale. apply S3_le. intros g _. unfold Du. pose proof (Rle_0_sqr (e (up a g) + e g)). unfold Rsqr in *. lra.
Qed.
Lemma Db_bound a k (h : cell -> R) : k a = false -> closed a k (fun g => (h g * h g - h (dn a g) * h (dn a g))%R) ->
  (S3 (on a k) (fun g => (Db a h g * Db a h g)%R) <= 4 * S3 k (fun g => (h g * h g)%R))%R.
Proof.
  intros Ha Hc. rewrite (S3_half a (on a k)) by apply on_a. rewrite (S3_kind (off a (on a k)) k) by (apply off_on; exact Ha).
  pose proof (S3_tele a k _ Ha Hc) as T. cbv beta in T. rewrite <- S3_scale. rewrite <- (Rplus_0_r (S3 k (fun g => (4 * (h g * h g))%R))), <- T, <- S3_add. apply S3_le. intros g _. unfold Db. rewrite dn_up.
  pose proof (Rle_0_sqr (h g + h (dn a g))). pose proof (Rle_0_sqr (h (up a g) + h g)). unfold Rsqr in *. lra.
Qed.

(* ---- vector fields: components on edges and on faces ---- *)
Definition edge (a : axis) : axis -> bool := fun b => negb (axis_eqb b a).
Definition face_ (a : axis) : axis -> bool := fun b => axis_eqb b a.
Definition corner : axis -> bool := fun _ => true.
Variable p : axis -> R.
(* the curl of an edge field on the faces, and of a face field on the edges *)
Definition curl_up (e : axis -> cell -> R) (a : axis) (g : cell) : R := (p (next a) * Du (next a) (e (next (next a))) g - p (next (next a)) * Du (next (next a)) (e (next a)) g)%R.
Definition curl_dn (h : axis -> cell -> R) (a : axis) (g : cell) : R := (p (next a) * Db (next a) (h (next (next a))) g - p (next (next a)) * Db (next (next a)) (h (next a)) g)%R.
Definition sum3 (f : axis -> R) : R := (f AX + f AY + f AZ)%R.

(* the two curls are adjoint when on every wall the tangential e or the sum of the two values of h at the wall is 0 *)
Lemma curl_adjoint (h e : axis -> cell -> R) :
  (forall a b, b <> a -> forall c, c <> a -> c <> b -> closed b (face_ a) (fun g => (e c g * (h a g + h a (dn b g)) / 2)%R)) ->
  sum3 (fun a => S3 (face_ a) (fun g => (h a g * curl_up e a g)%R)) = sum3 (fun a => S3 (edge a) (fun g => (e a g * curl_dn h a g)%R)).
Proof.
  intros H.
  assert (P : forall a b c, b <> a -> c <> a -> c <> b -> S3 (face_ a) (fun g => (h a g * Du b (e c) g)%R) = (- S3 (edge c) (fun g => (e c g * Db b (h a) g)%R))%R).
  { intros a b c H1 H2 H3. rewrite (by_parts b (face_ a) (h a) (e c)); [f_equal; apply S3_kind; destruct a, b, c; intros []; try congruence; reflexivity| |apply H; assumption]. destruct a, b; try congruence; reflexivity. }
  assert (Q : forall a, S3 (face_ a) (fun g => (h a g * curl_up e a g)%R) =
    (p (next a) * S3 (face_ a) (fun g => h a g * Du (next a) (e (next (next a))) g) + (- p (next (next a))) * S3 (face_ a) (fun g => h a g * Du (next (next a)) (e (next a)) g))%R).
  { intros a. rewrite <- S3_lin. apply S3_ext. intros g _. unfold curl_up. ring. }
  assert (Q' : forall a, S3 (edge a) (fun g => (e a g * curl_dn h a g)%R) =
    (p (next a) * S3 (edge a) (fun g => e a g * Db (next a) (h (next (next a))) g) + (- p (next (next a))) * S3 (edge a) (fun g => e a g * Db (next (next a)) (h (next a)) g))%R).
  { intros a. rewrite <- S3_lin. apply S3_ext. intros g _. unfold curl_dn. ring. }
  unfold sum3. rewrite !Q, !Q'. cbn [next]. rewrite !P by discriminate. lra.
Qed.

Lemma curl_bound (e : axis -> cell -> R) :
  (forall a b c, b <> a -> c <> a -> c <> b -> closed b (face_ a) (fun g => (e c g * (Du c (e b) g + Du c (e b) (dn b g)) / 2)%R)) ->
  (forall b c, c <> b -> closed c (edge c) (fun g => (Db b (e b) g * (e c g + e c (dn c g)) / 2)%R)) ->
  (forall a, closed a (edge a) (fun g => (e a g * e a g - e a (dn a g) * e a (dn a g))%R)) ->
  (sum3 (fun a => S3 (face_ a) (fun g => curl_up e a g * curl_up e a g)) <= 4 * (p AX * p AX + p AY * p AY + p AZ * p AZ) * sum3 (fun a => S3 (edge a) (fun g => e a g * e a g)))%R.
Proof.
  intros H1 H2 H3.
  (* mixed terms: moved to the corners *)
  assert (X : forall a b c, b <> a -> c <> a -> c <> b -> S3 (face_ a) (fun g => (Du b (e c) g * Du c (e b) g)%R) = S3 corner (fun g => (Db b (e b) g * Db c (e c) g)%R)).
  { intros a b c N1 N2 N3. transitivity (S3 (face_ a) (fun g => (Du c (e b) g * Du b (e c) g)%R)); [apply S3_ext; intros; ring|].
    rewrite (by_parts b (face_ a) (Du c (e b)) (e c)); [|destruct a, b; try congruence; reflexivity|apply H1; assumption].
    rewrite (S3_kind (on b (face_ a)) (edge c)) by (destruct a, b, c; intros []; try congruence; reflexivity).
    transitivity (- S3 (edge c) (fun g => (e c g * Du c (Db b (e b)) g)%R))%R.
    { f_equal. apply S3_ext. intros g _. f_equal. unfold Db, Du. rewrite (up_dn_comm c b g) by congruence. ring. }
    rewrite (by_parts c (edge c) (e c) (Db b (e b))); [|destruct c; reflexivity|apply H2; assumption]. rewrite Ropp_involutive.
    apply S3_kind. destruct c; intros []; reflexivity. }
  (* squares *)
  assert (U : forall a b c, b <> a -> c <> a -> c <> b -> (S3 (face_ a) (fun g => (Du b (e c) g * Du b (e c) g)%R) <= 4 * S3 (edge c) (fun g => (e c g * e c g)%R))%R).
  { intros a b c N1 N2 N3. eapply Rle_trans; [apply Du_bound; destruct a, b; try congruence; reflexivity|]. right. f_equal. apply S3_kind. destruct a, b, c; intros []; try congruence; reflexivity. }
  assert (D : forall a, (S3 corner (fun g => (Db a (e a) g * Db a (e a) g)%R) <= 4 * S3 (edge a) (fun g => (e a g * e a g)%R))%R).
  { intros a. eapply Rle_trans; [|apply (Db_bound a (edge a) (e a)); [destruct a; reflexivity|apply H3]]. right. apply S3_kind. destruct a; intros []; reflexivity. }
  assert (C : forall a, S3 (face_ a) (fun g => (curl_up e a g * curl_up e a g)%R) = let b := next a in let c := next b in
    (p b * p b * S3 (face_ a) (fun g => Du b (e c) g * Du b (e c) g) + p c * p c * S3 (face_ a) (fun g => Du c (e b) g * Du c (e b) g) - 2 * (p b * p c) * S3 corner (fun g => Db b (e b) g * Db c (e c) g))%R).
  { intros a. cbv zeta. rewrite <- (X a (next a) (next (next a))) by (destruct a; discriminate). rewrite <- !S3_scale, <- S3_add, <- S3_sub. apply S3_ext. intros g _. unfold curl_up. ring. }
  assert (G : (0 <= p AX * p AX * S3 corner (fun g => Db AX (e AX) g * Db AX (e AX) g) + p AY * p AY * S3 corner (fun g => Db AY (e AY) g * Db AY (e AY) g) + p AZ * p AZ * S3 corner (fun g => Db AZ (e AZ) g * Db AZ (e AZ) g)
     + 2 * (p AY * p AZ) * S3 corner (fun g => Db AY (e AY) g * Db AZ (e AZ) g) + 2 * (p AZ * p AX) * S3 corner (fun g => Db AZ (e AZ) g * Db AX (e AX) g) + 2 * (p AX * p AY) * S3 corner (fun g => Db AX (e AX) g * Db AY (e AY) g))%R).
  { rewrite <- !S3_scale, <- !S3_add. apply S3_pos. intros g _. pose proof (Rle_0_sqr (p AX * Db AX (e AX) g + p AY * Db AY (e AY) g + p AZ * Db AZ (e AZ) g)). unfold Rsqr in *. lra. }
  unfold sum3. rewrite !C. cbn [next]. cbv zeta.
  pose proof (U AX AY AZ ltac:(discriminate) ltac:(discriminate) ltac:(discriminate)). pose proof (U AX AZ AY ltac:(discriminate) ltac:(discriminate) ltac:(discriminate)).
  pose proof (U AY AX AZ ltac:(discriminate) ltac:(discriminate) ltac:(discriminate)). pose proof (U AY AZ AX ltac:(discriminate) ltac:(discriminate) ltac:(discriminate)).
  pose proof (U AZ AX AY ltac:(discriminate) ltac:(discriminate) ltac:(discriminate)). pose proof (U AZ AY AX ltac:(discriminate) ltac:(discriminate) ltac:(discriminate)).
  pose proof (D AX). pose proof (D AY). pose proof (D AZ).
  assert (SQ : forall a x y, (x <= y -> p a * p a * x <= p a * p a * y)%R) by (intros a x y Hxy; apply Rmult_le_compat_l; [pose proof (Rle_0_sqr (p a)); unfold Rsqr in *; lra|exact Hxy]).
  pose proof (SQ AY _ _ H). pose proof (SQ AZ _ _ H0). pose proof (SQ AX _ _ H4). pose proof (SQ AZ _ _ H5). pose proof (SQ AX _ _ H6). pose proof (SQ AY _ _ H7).
  pose proof (SQ AX _ _ H8). pose proof (SQ AY _ _ H9). pose proof (SQ AZ _ _ H10). lra.
Qed.
End Box.
