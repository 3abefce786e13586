(* The synchronisations over the reals: what the copies agree on. *)
From Coq Require Import Reals ZArith List Bool Lia ZifyBool Lra Permutation.
From Verif Require Import SortModel SortProofs VoxelModel VoxelProofs GridModel GridProofs FieldModel RemoteModel RemoteSpec RemoteProofs RemoteSync.
Import ListNotations.
Open Scope Z_scope.
Ltac Zify.zify_post_hook ::= idtac.

(* exact arithmetic *)
Definition Rarith : rarith R := mk_rarith R Rplus Rminus Rmult Rdiv (fun x y => ((x + y) / 2)%R) (fun x y => (2 * x / y)%R) 0%R.
Fixpoint sumR {T} (f : T -> R) (l : list T) : R := match l with [] => 0%R | x :: l => (f x + sumR f l)%R end.

Lemma sumR_perm {T} (f : T -> R) l l' : Permutation l l' -> sumR f l = sumR f l'.
Proof. induction 1; cbn [sumR]; lra. Qed.
Lemma sumR_ext {T} (f g : T -> R) l : (forall x, In x l -> f x = g x) -> sumR f l = sumR g l.
Proof. induction l as [|x l IH]; intros H; [reflexivity|]. cbn. rewrite (H x) by (left; reflexivity). f_equal. apply IH. intros y Hy. apply H. right. exact Hy. Qed.
Lemma sumR_app {T} (f : T -> R) l l' : sumR f (l ++ l') = (sumR f l + sumR f l')%R.
Proof. induction l as [|x l IH]; cbn; [lra|]. rewrite IH. lra. Qed.
Lemma sumR_map {T U} (f : T -> R) (g : U -> T) l : sumR f (map g l) = sumR (fun x => f (g x)) l.
Proof. induction l as [|x l IH]; [reflexivity|]. cbn. rewrite IH. reflexivity. Qed.
Lemma sumR_flat {T U} (f : T -> R) (g : U -> list T) l : sumR f (flat_map g l) = sumR (fun x => sumR f (g x)) l.
Proof. induction l as [|x l IH]; [reflexivity|]. cbn. rewrite sumR_app, IH. reflexivity. Qed.
Lemma sumR_scale {T} (f : T -> R) k l : sumR (fun x => (k * f x)%R) l = (k * sumR f l)%R.
Proof. induction l as [|x l IH]; cbn; [lra|]. rewrite IH. lra. Qed.
Lemma sumR_one {T} (l : list T) : sumR (fun _ => 1%R) l = INR (length l).
Proof. induction l as [|x l IH]; [reflexivity|]. cbn [length]. rewrite S_INR, <- IH. cbn. lra. Qed.
Lemma sumR_pos {T} (f : T -> R) l : (forall x, In x l -> 0 < f x)%R -> l <> [] -> (0 < sumR f l)%R.
Proof.
  intros H Hl. destruct l as [|x l]; [congruence|]. cbn. assert (0 <= sumR f l)%R.
  { assert (forall y, In y l -> 0 < f y)%R as H' by (intros y Hy; apply H; right; exact Hy). clear H. induction l as [|y l IH]; cbn; [lra|]. pose proof (H' y ltac:(left; reflexivity)). assert (0 <= sumR f l)%R by (apply IH; [discriminate|intros z Hz; apply H'; right; exact Hz]). lra. }
  pose proof (H x ltac:(left; reflexivity)). lra.
Qed.

Section Sum.
Variable L : layout R.
Variable num : cell -> Z.
Variable ws : Z.
Variable G : Z -> cgrid R.
Hypothesis OK : layout_ok L.
Hypothesis HB : box L num ws G.
(* cell sizes matter except for the plain average *)
Definition sized (e : exch) : Prop := e = SyncTangENormB \/ forall a i, 0 <= i < l_p L a -> (0 < l_d L a i)%R.

(* the copies along one axis, and altogether *)
Definition along (c : comp) (a : axis) (u : Z * Z) : list (Z * Z) := u :: match other L c a u with Some v => [v] | None => [] end.
Definition every (c : comp) (l : loc) : list loc :=
  flat_map (fun uz => flat_map (fun uy => map (fun ux => shift AX (shift AY (shift AZ l uz) uy) ux) (along c AX (coord AX l))) (along c AY (coord AY l))) (along c AZ (coord AZ l)).
Lemma coords3 l ux uy uz a : coord a (shift AX (shift AY (shift AZ l uz) uy) ux) = match a with AX => ux | AY => uy | AZ => uz end.
Proof. destruct a; rewrite ?coord_shift_same; rewrite ?coord_shift_other by discriminate; rewrite ?coord_shift_same; rewrite ?coord_shift_other by discriminate; rewrite ?coord_shift_same; reflexivity. Qed.
Lemma in_every c l l' : In l' (every c l) <-> forall a, In (coord a l') (along c a (coord a l)).
Proof.
  unfold every. split.
  - intros H. apply in_flat_map in H. destruct H as (uz & Hz & H). apply in_flat_map in H. destruct H as (uy & Hy & H). apply in_map_iff in H. destruct H as (ux & <- & Hx).
    intros a. rewrite coords3. destruct a; assumption.
  - intros H. apply in_flat_map. exists (coord AZ l'). split; [apply H|]. apply in_flat_map. exists (coord AY l'). split; [apply H|]. apply in_map_iff. exists (coord AX l'). split; [|apply H].
    apply loc_ext. intros a. rewrite coords3. destruct a; reflexivity.
Qed.
Lemma along_nodup c a l : valid L c l -> NoDup (along c a (coord a l)).
Proof.
  intros Hv. unfold along, other. destruct (node_on c a) eqn:E; [|repeat constructor; intros []]. destruct (partner L a (coord a l)) as [v|] eqn:Ep; [|repeat constructor; intros []].
  pose proof (valid_ok L c l a Hv) as Hk. unfold width in Hk. rewrite E in Hk. destruct (partner_spec L OK a _ _ Hk Ep) as (_ & _ & N & _). constructor; [intros [Q|[]]; congruence|]. repeat constructor; intros [].
Qed.
Lemma NoDup_flat {T U} (f : T -> list U) l : NoDup l -> (forall x, In x l -> NoDup (f x)) -> (forall x y z, In x l -> In y l -> In z (f x) -> In z (f y) -> x = y) -> NoDup (flat_map f l).
Proof.
  induction l as [|x l IH]; intros N H D; [constructor|]. inversion N as [|? ? N1 N2]; subst. cbn [flat_map].
  assert (I : NoDup (flat_map f l)). { apply IH; [exact N2|intros y Hy; apply H; right; exact Hy|intros y y' z Hy Hy'; apply D; right; assumption]. }
  assert (Dj : forall z, In z (f x) -> ~ In z (flat_map f l)). { intros z Hz Hz'. apply in_flat_map in Hz'. destruct Hz' as (y & Hy & Hz'). assert (x = y) by (apply (D x y z); [left; reflexivity|right; exact Hy|exact Hz|exact Hz']). subst y. contradiction. }
  specialize (H x ltac:(left; reflexivity)). clear -I Dj H. induction (f x) as [|z zs IHz]; [exact I|]. inversion H as [|? ? H1 H2]; subst. cbn. constructor.
  - intros Q. apply in_app_or in Q. destruct Q as [Q|Q]; [contradiction|]. apply (Dj z ltac:(left; reflexivity) Q).
  - apply IHz; [exact H2|intros y Hy; apply Dj; right; exact Hy].
Qed.
Lemma every_nodup c l : valid L c l -> NoDup (every c l).
Proof.
  intros Hv. unfold every. apply NoDup_flat; [apply along_nodup, Hv| |].
  - intros uz Hz. apply NoDup_flat; [apply along_nodup, Hv| |].
    + intros uy Hy. apply FinFun.Injective_map_NoDup; [|apply along_nodup, Hv]. intros u v E. apply (f_equal (coord AX)) in E. rewrite !coord_shift_same in E. exact E.
    + intros u v z _ _ Q1 Q2. apply in_map_iff in Q1. destruct Q1 as (x & <- & _). apply in_map_iff in Q2. destruct Q2 as (x' & E & _). apply (f_equal (coord AY)) in E. rewrite !coords3 in E. congruence.
  - intros u v z _ _ Q1 Q2. apply in_flat_map in Q1. destruct Q1 as (y & _ & Q1). apply in_map_iff in Q1. destruct Q1 as (x & <- & _).
    apply in_flat_map in Q2. destruct Q2 as (y' & _ & Q2). apply in_map_iff in Q2. destruct Q2 as (x' & E & _). apply (f_equal (coord AZ)) in E. rewrite !coords3 in E. congruence.
Qed.
Lemma along_valid c a l u : valid L c l -> In u (along c a (coord a l)) -> valid L c (shift a l u) /\ congr (l_n L a) (l_p L a) (l_per L a) (coord a l) u.
Proof.
  intros Hv Hu. unfold along in Hu. destruct Hu as [<-|Hu]; [rewrite shift_self; split; [exact Hv|apply congr_refl]|].
  destruct (other L c a (coord a l)) as [v|] eqn:E; [|destruct Hu]. destruct Hu as [<-|[]]. split; [apply (other_spec L OK c a l v Hv E)|].
  unfold other in E. destruct (node_on c a) eqn:En; [|discriminate]. pose proof (valid_ok L c l a Hv) as Hk. unfold width in Hk. rewrite En in Hk. apply (partner_spec L OK a _ _ Hk E).
Qed.
Lemma every_copies c l : valid L c l -> copies_of L c l (every c l).
Proof.
  intros Hv. split; [apply every_nodup, Hv|]. intros l'. rewrite in_every. split.
  - intros H. assert (valid L c l') as [V1 V2].
    { apply ok_valid. intros a. destruct (along_valid c a l _ Hv (H a)) as [V' _]. apply (valid_ok L c _ a) in V'. rewrite coord_shift_same in V'. exact V'. }
    split; [exact V1|]. split; [exact V2|]. intros a. destruct (along_valid c a l _ Hv (H a)) as [_ C']. exact C'.
  - intros (H1 & H2 & H3) a. destruct (same_axis L OK c l l' a Hv (conj H1 H2) H3) as [Q|Q]; unfold along; [left; congruence|right]. rewrite Q. left. reflexivity.
Qed.
Lemma copies_perm c l cs : valid L c l -> copies_of L c l cs -> Permutation cs (every c l).
Proof.
  intros Hv [N H]. destruct (every_copies c l Hv) as [N' H']. apply NoDup_Permutation; [exact N|exact N'|]. intros x. rewrite H, H'. tauto.
Qed.

(* one phase as a weighted sum over the copies along the axis *)
Definition wt (e : exch) (a : axis) (u : Z * Z) : R := match e with SyncTangENormB => 1%R | _ => l_d L a (fst u) end.
Definition fac (e : exch) (c : comp) (k : nat) : R := match e, c with SyncJf, _ => INR k | SyncRho, Rhof => INR k | _, _ => 1%R end.
Lemma wt_pos e a u : sized e -> ok1 (l_n L a) (l_p L a) 1 u -> (0 < wt e a u)%R.
Proof. intros Hd [H _]. unfold wt. destruct Hd as [-> | Hd]; [lra|]. destruct e; try lra; apply Hd, H. Qed.
Lemma along_ok c a l u : valid L c l -> In u (along c a (coord a l)) -> ok1 (l_n L a) (l_p L a) 1 u.
Proof.
  intros Hv Hu. destruct (along_valid c a l u Hv Hu) as [V' _]. apply (valid_ok L c _ a) in V'. rewrite coord_shift_same in V'. destruct V' as [K1 K2]. split; [exact K1|]. unfold width in K2. destruct (node_on c a); lia.
Qed.
Lemma phase_sum e a W W' c l : sized e -> ghosted e = false -> fam e c = true -> phase R Rarith ws G e (two a) W W' -> valid L c l ->
  let us := along c a (coord a l) in
  val L num W' c l = (fac e c (length us) / sumR (wt e a) us * sumR (fun u => wt e a u * val L num W c (shift a l u)) us)%R.
Proof.
  intros Hd Hg Hf Hph Hv us. rewrite (phase_val Rarith L num ws G OK HB e a W W' c l Hg Hf Hph Hv).
  pose proof (fun u Hu => wt_pos e a u Hd (along_ok c a l u Hv Hu)) as Wp. unfold us. unfold along in Wp |- *. destruct (other L c a (coord a l)) as [v|] eqn:Eo.
  - pose proof (Wp _ ltac:(left; reflexivity)) as P1. pose proof (Wp v ltac:(right; left; reflexivity)) as P2. cbn [sumR length]. rewrite shift_self.
    destruct e; try discriminate Hg; cbn [mix r_avg r_add r_mul r_div Rarith wt fac] in *; rewrite ?INR_IZR_INZ; cbn [Z.of_nat Pos.of_succ_nat Pos.succ].
    + field.
    + field. lra.
    + destruct c; try discriminate Hf; cbn [fac]; rewrite ?INR_IZR_INZ; cbn [Z.of_nat Pos.of_succ_nat Pos.succ]; field; lra.
  - pose proof (Wp _ ltac:(left; reflexivity)) as P1. cbn [sumR length]. rewrite shift_self. assert (fac e c 1 = 1%R) as -> by (unfold fac; destruct e, c; reflexivity). field. lra.
Qed.
Lemma fac_mul e c i j : fac e c (i * j) = (fac e c i * fac e c j)%R.
Proof. unfold fac. destruct e; try lra; [apply mult_INR|]. destruct c; try lra. apply mult_INR. Qed.
(* the weight of a copy *)
Definition wt3 (e : exch) (l : loc) : R := (wt e AX (coord AX l) * wt e AY (coord AY l) * wt e AZ (coord AZ l))%R.
Lemma every_len c l : length (every c l) = (length (along c AX (coord AX l)) * length (along c AY (coord AY l)) * length (along c AZ (coord AZ l)))%nat.
Proof.
  unfold every. set (xs := along c AX (coord AX l)). set (ys := along c AY (coord AY l)). set (zs := along c AZ (coord AZ l)).
  assert (E : forall (f : Z * Z -> list loc) us k, (forall u, length (f u) = k) -> length (flat_map f us) = (k * length us)%nat).
  { intros f us k H. induction us as [|u us IH]; [cbn; lia|]. cbn [flat_map length]. rewrite app_length, H, IH. lia. }
  rewrite (E _ zs (length xs * length ys)%nat); [reflexivity|]. intros u. rewrite (E _ ys (length xs)); [reflexivity|]. intros v. apply map_length.
Qed.
Lemma every_sum c l (f : loc -> R) : sumR f (every c l) =
  sumR (fun uz => sumR (fun uy => sumR (fun ux => f (shift AX (shift AY (shift AZ l uz) uy) ux)) (along c AX (coord AX l))) (along c AY (coord AY l))) (along c AZ (coord AZ l)).
Proof. unfold every. rewrite sumR_flat. apply sumR_ext. intros uz _. rewrite sumR_flat. apply sumR_ext. intros uy _. apply sumR_map. Qed.
Lemma every_wt e c l : sumR (wt3 e) (every c l) = (sumR (wt e AX) (along c AX (coord AX l)) * sumR (wt e AY) (along c AY (coord AY l)) * sumR (wt e AZ) (along c AZ (coord AZ l)))%R.
Proof.
  rewrite every_sum. set (xs := along c AX (coord AX l)). set (ys := along c AY (coord AY l)). set (zs := along c AZ (coord AZ l)).
  rewrite (sumR_ext _ (fun uz => (sumR (wt e AX) xs * sumR (wt e AY) ys * wt e AZ uz)%R)); [apply sumR_scale|]. intros uz _.
  rewrite (sumR_ext _ (fun uy => (sumR (wt e AX) xs * wt e AZ uz * wt e AY uy)%R)); [rewrite sumR_scale; lra|]. intros uy _.
  rewrite (sumR_ext _ (fun ux => (wt e AY uy * wt e AZ uz * wt e AX ux)%R)); [rewrite sumR_scale; lra|]. intros ux _. unfold wt3. rewrite !coords3. lra.
Qed.
Lemma run_sum e W W' c l : sized e -> ghosted e = false -> fam e c = true -> run_phases R Rarith ws G e (phases e) W W' -> valid L c l ->
  (val L num W' c l * sumR (wt3 e) (every c l) = fac e c (length (every c l)) * sumR (fun l' => wt3 e l' * val L num W c l') (every c l))%R.
Proof.
  intros Hd Hg Hf H Hv. destruct (run3 Rarith ws G e W W' Hg H) as (W1 & W2 & W3 & P1 & P2 & P3 & E).
  assert (val L num W' c l = val L num W3 c l) as ->. { unfold val. rewrite E by (apply HB, Hv). reflexivity. }
  rewrite every_wt, every_len, !fac_mul, every_sum.
  set (xs := along c AX (coord AX l)). set (ys := along c AY (coord AY l)). set (zs := along c AZ (coord AZ l)).
  assert (Sx : (0 < sumR (wt e AX) xs)%R) by (apply sumR_pos; [intros u Hu; apply wt_pos; [exact Hd|]; apply (along_ok c AX l u Hv Hu)|discriminate]).
  assert (Sy : (0 < sumR (wt e AY) ys)%R) by (apply sumR_pos; [intros u Hu; apply wt_pos; [exact Hd|]; apply (along_ok c AY l u Hv Hu)|discriminate]).
  assert (Sz : (0 < sumR (wt e AZ) zs)%R) by (apply sumR_pos; [intros u Hu; apply wt_pos; [exact Hd|]; apply (along_ok c AZ l u Hv Hu)|discriminate]).
  assert (E3 : (val L num W3 c l * sumR (wt e AZ) zs = fac e c (length zs) * sumR (fun uz => wt e AZ uz * val L num W2 c (shift AZ l uz)) zs)%R).
  { rewrite (phase_sum e AZ W2 W3 c l Hd Hg Hf P3 Hv). fold zs. field. lra. }
  assert (E2 : forall uz, In uz zs -> (val L num W2 c (shift AZ l uz) * sumR (wt e AY) ys = fac e c (length ys) * sumR (fun uy => wt e AY uy * val L num W1 c (shift AY (shift AZ l uz) uy)) ys)%R).
  { intros uz Hz. pose proof (proj1 (along_valid c AZ l uz Hv Hz)) as Vz. rewrite (phase_sum e AY W1 W2 c _ Hd Hg Hf P2 Vz). rewrite coord_shift_other by discriminate. fold ys. field. lra. }
  assert (E1 : forall uz uy, In uz zs -> In uy ys -> (val L num W1 c (shift AY (shift AZ l uz) uy) * sumR (wt e AX) xs = fac e c (length xs) * sumR (fun ux => wt e AX ux * val L num W c (shift AX (shift AY (shift AZ l uz) uy) ux)) xs)%R).
  { intros uz uy Hz Hy. pose proof (proj1 (along_valid c AZ l uz Hv Hz)) as Vz. assert (In uy (along c AY (coord AY (shift AZ l uz)))) as Hy' by (rewrite coord_shift_other by discriminate; exact Hy).
    pose proof (proj1 (along_valid c AY _ uy Vz Hy')) as Vy. rewrite (phase_sum e AX W W1 c _ Hd Hg Hf P1 Vy). rewrite !coord_shift_other by discriminate. fold xs. field. lra. }
  set (fx := fac e c (length xs)) in *. set (fy := fac e c (length ys)) in *. set (fz := fac e c (length zs)) in *.
  set (sx := sumR (wt e AX) xs) in *. set (sy := sumR (wt e AY) ys) in *. set (sz := sumR (wt e AZ) zs) in *.
  replace (val L num W3 c l * (sx * sy * sz))%R with ((sx * sy) * (val L num W3 c l * sz))%R by lra. rewrite E3.
  replace (sx * sy * (fz * sumR (fun uz => wt e AZ uz * val L num W2 c (shift AZ l uz)) zs))%R with (fz * ((sx * sy) * sumR (fun uz => wt e AZ uz * val L num W2 c (shift AZ l uz)) zs))%R by lra.
  rewrite <- sumR_scale.
  rewrite (sumR_ext (fun x => (sx * sy * (wt e AZ x * val L num W2 c (shift AZ l x)))%R)
    (fun uz => (fx * fy * sumR (fun uy => sumR (fun ux => wt3 e (shift AX (shift AY (shift AZ l uz) uy) ux) * val L num W c (shift AX (shift AY (shift AZ l uz) uy) ux)) xs) ys)%R)).
  { rewrite sumR_scale. lra. }
  intros uz Hz. replace (sx * sy * (wt e AZ uz * val L num W2 c (shift AZ l uz)))%R with (sx * wt e AZ uz * (val L num W2 c (shift AZ l uz) * sy))%R by lra. rewrite (E2 uz Hz).
  replace (sx * wt e AZ uz * (fy * sumR (fun uy => wt e AY uy * val L num W1 c (shift AY (shift AZ l uz) uy)) ys))%R with (fy * (sx * wt e AZ uz * sumR (fun uy => wt e AY uy * val L num W1 c (shift AY (shift AZ l uz) uy)) ys))%R by lra.
  rewrite <- sumR_scale. replace (fx * fy)%R with (fy * fx)%R by lra. rewrite Rmult_assoc. f_equal. rewrite <- sumR_scale. apply sumR_ext. intros uy Hy.
  replace (sx * wt e AZ uz * (wt e AY uy * val L num W1 c (shift AY (shift AZ l uz) uy)))%R with (wt e AZ uz * wt e AY uy * (val L num W1 c (shift AY (shift AZ l uz) uy) * sx))%R by lra.
  rewrite (E1 uz uy Hz Hy). replace (wt e AZ uz * wt e AY uy * (fx * sumR (fun ux => wt e AX ux * val L num W c (shift AX (shift AY (shift AZ l uz) uy) ux)) xs))%R with (fx * (wt e AZ uz * wt e AY uy * sumR (fun ux => wt e AX ux * val L num W c (shift AX (shift AY (shift AZ l uz) uy) ux)) xs))%R by lra.
  f_equal. rewrite <- sumR_scale. apply sumR_ext. intros ux _. unfold wt3. rewrite !coords3. lra.
Qed.
Lemma run_copies e W W' c l cs : sized e -> ghosted e = false -> fam e c = true -> run_phases R Rarith ws G e (phases e) W W' -> valid L c l -> copies_of L c l cs ->
  (val L num W' c l * sumR (wt3 e) cs = fac e c (length cs) * sumR (fun l' => wt3 e l' * val L num W c l') cs)%R.
Proof.
  intros Hd Hg Hf H Hv Hc. pose proof (copies_perm c l cs Hv Hc) as Hp. rewrite (sumR_perm _ _ _ Hp), (Permutation_length Hp), (sumR_perm _ _ _ Hp). apply run_sum; assumption.
Qed.
End Sum.
