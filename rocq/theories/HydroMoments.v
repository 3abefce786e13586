(* What the particle loop adds, what the walls do, and the synchronised moments. *)
From Coq Require Import Reals Lra ZArith List Bool Lia ZifyBool.
From Verif Require Import SortModel SortProofs DistributeModel VoxelModel GridModel GridProofs FieldModel ParticleModel ParticleSpec ParticleProofs ParticleProofs2 KernelProofs MoverModel MoverProofs
  RemoteModel RemoteSpec RemoteProofs RemoteSync RemoteSum DecompSpec DecompProofs ChargeModel ChargeSpec ChargeProofs ChargeStep CurrentSpec CurrentProofs CurrentCells CurrentSync RhoSpec RhoProofs
  WallAdjust WallProofs HydroModel HydroSpec HydroProofs.
Import ListNotations.
Open Scope Z_scope.
Ltac Zify.zify_post_hook ::= idtac.
Local Notation AT := RemoteModel.at_.
Local Notation axis := RemoteModel.axis.
Local Notation sumR := ParticleSpec.sumR.

(* ---- one particle ---- *)
Lemma lorentz_norm u : lorentz u = sqrt (1 + norm2 Rnum u).
Proof. unfold lorentz, norm2. cbn [n_add n_mul Rnum]. f_equal. ring. Qed.
Lemma lorentz_pos u : (1 <= lorentz u)%R.
Proof. rewrite lorentz_norm. rewrite <- sqrt_1 at 1. apply sqrt_le_1_alt. pose proof (norm2_nonneg u). lra. Qed.
Lemma state_ok h f p : h_c h <> 0%R ->
  hydro_state Rnum (2 / 5)%R h f p = (momentum_now h f p, velocity (h_c h) (momentum_now h f p), (h_c h * (lorentz (momentum_now h f p) - 1))%R).
Proof.
  intros Hc. unfold hydro_state, momentum_now, center_one. cbn [pu]. set (u := vadd Rnum (pu p) (half_e Rnum (h_qdt h) f (pd p))). set (cb := mag_b Rnum f (pd p)).
  set (h1 := n_mul Rnum (n_half Rnum) (h_qdt h)).
  assert (EL : lorentz (boris Rnum h1 cb u) = lorentz u) by (rewrite !lorentz_norm, boris_norm; reflexivity).
  pose proof (lorentz_pos u) as Lp.
  assert (Es : sqrt (1 + (vx u * vx u + vy u * vy u + vz u * vz u)) = lorentz u) by reflexivity.
  assert (Eg : (lorentz u * lorentz u = 1 + (vx u * vx u + vy u * vy u + vz u * vz u))%R) by (unfold lorentz; apply sqrt_sqrt; nra).
  assert (EB : forall a b c, (a, b, c) = (a, b, c) :> vec R * vec R * R) by reflexivity.
  cbn [n_add n_sub n_mul n_div n_sqrt n_one n_two n_third Rnum]. cbv zeta. rewrite Es.
  match goal with |- (?a, ?b, ?c) = _ => assert (E1 : a = boris Rnum h1 cb u) end.
  { unfold boris. cbn [n_add n_sub n_mul n_div n_sqrt n_one n_third n_215 Rnum]. cbv zeta. unfold norm2. cbn [n_add n_mul Rnum]. rewrite <- !Rplus_assoc. replace (sqrt (1 + vx u * vx u + vy u * vy u + vz u * vz u)) with (lorentz u) by (unfold lorentz; f_equal; ring).
    assert (E0 : (h_qdt h / (2 * h_c h) * (h_c h / lorentz u) = h1 / lorentz u)%R) by (unfold h1; cbn [n_mul n_half Rnum]; field; split; [lra|exact Hc]).
    rewrite E0. set (v0 := (h1 / lorentz u)%R). set (b2 := (vx cb * vx cb + vy cb * vy cb + vz cb * vz cb)%R).
    assert (E3 : (v0 * (1 + 1 / 3 * (v0 * v0 * b2) * (1 + 2 / 5 * (v0 * v0 * b2))) = v0 * (1 + v0 * v0 * b2 * (1 / 3 + v0 * v0 * b2 * (2 / 15))))%R) by field.
    rewrite E3. set (v3 := (v0 * (1 + v0 * v0 * b2 * (1 / 3 + v0 * v0 * b2 * (2 / 15))))%R).
    replace (b2 * v3 * v3)%R with (b2 * (v3 * v3))%R by ring. reflexivity. }
  rewrite E1. rewrite EL. f_equal; [f_equal; unfold velocity; rewrite EL; f_equal; field; lra|].
  replace (vx u * vx u + vy u * vy u + vz u * vz u)%R with ((lorentz u - 1) * (lorentz u + 1))%R by (ring_simplify; rewrite <- Rsqr_pow2; unfold Rsqr; rewrite Eg; ring). field. lra.
Qed.
Lemma accum_ok h f p wn k : h_c h <> 0%R -> accum Rnum h (hydro_state Rnum (2 / 5)%R h f p) wn k = (wn * moment (h_q h) (h_m h) (h_c h) (momentum_now h f p) k)%R.
Proof.
  intros Hc. rewrite (state_ok h f p Hc). unfold accum, moment. cbn [n_mul Rnum]. cbv zeta. destruct k; ring.
Qed.
(* the eight nodes *)
Lemma voxels_ok nx ny nz i : hydro_voxels nx ny nz i =
  let sy := nx + 2 in let sz := (nx + 2) * (ny + 2) in
  [node sy sz i false false false; node sy sz i true false false; node sy sz i false true false; node sy sz i true true false;
   node sy sz i false false true; node sy sz i true false true; node sy sz i false true true; node sy sz i true true true].
Proof. unfold hydro_voxels, voxel, node. cbn [Z.b2z]. cbv zeta. repeat (f_equal; try ring). Qed.
Lemma weights_ok r8V w d : hydro_weights Rnum r8V w d =
  map (fun b => (8 * r8V * w * (share (fst (fst b)) (vx d) * share (snd (fst b)) (vy d) * share (snd b) (vz d)))%R)
    [(false, false, false); (true, false, false); (false, true, false); (true, true, false); (false, false, true); (true, false, true); (false, true, true); (true, true, true)].
Proof.
  unfold hydro_weights, share. cbn [n_add n_sub n_mul n_one Rnum map fst snd]. cbv zeta. repeat (f_equal; try field).
Qed.
Lemma adds_at l : forall (H : hyd * Z -> R) k v, fold_left (hydro_add Rnum) l H (k, v) = (H (k, v) + sumR (map (fun x => (ind v (fst x) * snd x k)%R) l))%R.
Proof.
  induction l as [|x l IH]; intros H k v; cbn [fold_left map]; [unfold ParticleSpec.sumR; cbn; lra|]. rewrite IH, sumR_cons. unfold hydro_add at 1. cbn [fst snd n_add Rnum]. unfold ind. destruct (v =? fst x); lra.
Qed.
Lemma one_at nx ny nz h f p k v : h_c h <> 0%R ->
  sumR (map (fun x => (ind v (fst x) * snd x k)%R) (hydro_one Rnum (2 / 5)%R nx ny nz h f p)) =
  (8 * h_r8V h * charge (nx + 2) ((nx + 2) * (ny + 2)) (ind v) (moment_of k h f p) (pi p) (pd p))%R.
Proof.
  intros Hc. unfold hydro_one. rewrite voxels_ok, weights_ok. cbv zeta. cbn [map combine fst snd]. rewrite !accum_ok by exact Hc. rewrite !sumR_cons. unfold moment_of, charge, sum_bool, ParticleSpec.sumR. cbn [fold_right]. ring.
Qed.

(* ---- the pipelines ---- *)
Lemma seg_at c P i nx ny nz h f ps H k v : h_c h <> 0%R ->
  hydro_seg Rnum (2 / 5)%R c P i nx ny nz h f ps H (k, v) =
  (H (k, v) + sumR (map (fun j => match nth_error ps (Z.to_nat j) with Some p => 8 * h_r8V h * charge (nx + 2) ((nx + 2) * (ny + 2)) (ind v) (moment_of k h f p) (pi p) (pd p) | None => 0 end)%R
     (let '(n0, n) := distribute c (Z.of_nat (length ps)) 16 i P in zrange n0 (n0 + n))))%R.
Proof.
  intros Hc. unfold hydro_seg. destruct (distribute c (Z.of_nat (length ps)) 16 i P) as [n0 n]. generalize (zrange n0 (n0 + n)). intros l. revert H.
  induction l as [|j l IH]; intros H; cbn [fold_left map]; [unfold ParticleSpec.sumR; cbn; lra|]. rewrite IH, sumR_cons.
  destruct (nth_error ps (Z.to_nat j)) as [p|]; [|lra]. rewrite adds_at, (one_at _ _ _ _ _ _ _ _ Hc). lra.
Qed.
Lemma sum_index {T} (g : T -> R) (ps : list T) : sumR (map (fun j => match nth_error ps (Z.to_nat j) with Some p => g p | None => 0%R end) (zrange 0 (Z.of_nat (length ps)))) = sumR (map g ps).
Proof.
  induction ps as [|p ps IH] using rev_ind; [reflexivity|]. rewrite app_length. cbn [length]. rewrite Nat2Z.inj_add. change (Z.of_nat 1) with 1.
  rewrite (zrange_app 0 (Z.of_nat (length ps))) by lia. rewrite !map_app, !ParticleProofs.sumR_app. rewrite (zrange_cons (Z.of_nat (length ps))), (zrange_nil (Z.of_nat (length ps) + 1)) by lia. cbn [map].
  rewrite Nat2Z.id, nth_error_app2 by lia. rewrite Nat.sub_diag. cbn [nth_error]. f_equal. rewrite <- IH. apply sum_ext. intros j Hj. apply in_zrange in Hj. rewrite nth_error_app1 by lia. reflexivity.
Qed.
Definition copies_sum (c : bool) (P : Z) (nx ny nz : Z) (f : Z -> interp) (ss : list (hcoef * list (part R))) (k : hyd) (v : Z) : R :=
  sumR (map (fun i => hydro_copy Rnum (2 / 5)%R c P nx ny nz f ss i (k, v)) (zrange 0 (P + 1))).
Lemma copy_at c P i nx ny nz f k v : forall ss H, Forall (fun s => h_c (fst s) <> 0%R) ss ->
  fold_left (fun H s => hydro_seg Rnum (2 / 5)%R c P i nx ny nz (fst s) f (snd s) H) ss H (k, v) =
  (H (k, v) + sumR (map (fun s => sumR (map (fun j => match nth_error (snd s) (Z.to_nat j) with Some p => 8 * h_r8V (fst s) * charge (nx + 2) ((nx + 2) * (ny + 2)) (ind v) (moment_of k (fst s) f p) (pi p) (pd p) | None => 0 end)%R
     (let '(n0, n) := distribute c (Z.of_nat (length (snd s))) 16 i P in zrange n0 (n0 + n)))) ss))%R.
Proof.
  induction ss as [|s ss IH]; intros H HF; cbn [fold_left map]; [unfold ParticleSpec.sumR; cbn; lra|]. inversion HF as [|s0 ss0 H1 H2]; subst s0 ss0.
  rewrite (IH _ H2), sumR_cons, (seg_at _ _ _ _ _ _ _ _ _ _ _ _ H1). lra.
Qed.
Lemma copies_at c P nx ny nz f ss k v : 1 <= P < 2 ^ 31 -> Forall (fun s => h_c (fst s) <> 0%R /\ Z.of_nat (length (snd s)) < 2 ^ 31) ss ->
  copies_sum c P nx ny nz f ss k v =
  sumR (map (fun s => sumR (map (fun p => (8 * h_r8V (fst s) * charge (nx + 2) ((nx + 2) * (ny + 2)) (ind v) (moment_of k (fst s) f p) (pi p) (pd p))%R) (snd s))) ss).
Proof.
  intros HP HF. unfold copies_sum.
  rewrite (sum_ext (fun i => hydro_copy Rnum (2 / 5)%R c P nx ny nz f ss i (k, v)) (fun i => sumR (map (fun s => sumR (map (fun j => match nth_error (snd s) (Z.to_nat j) with Some p => 8 * h_r8V (fst s) * charge (nx + 2) ((nx + 2) * (ny + 2)) (ind v) (moment_of k (fst s) f p) (pi p) (pd p) | None => 0 end)%R
     (let '(n0, n) := distribute c (Z.of_nat (length (snd s))) 16 i P in zrange n0 (n0 + n)))) ss))).
  2: { intros i _. unfold hydro_copy. rewrite copy_at; [cbn [n_zero Rnum]; lra|]. eapply Forall_impl; [|exact HF]. intros s (H1 & _). exact H1. }
  rewrite sum_swap. apply sum_ext. intros s Hs. rewrite Forall_forall in HF. destruct (HF s Hs) as (_ & Hn).
  rewrite <- (sum_index (fun p => (8 * h_r8V (fst s) * charge (nx + 2) ((nx + 2) * (ny + 2)) (ind v) (moment_of k (fst s) f p) (pi p) (pd p))%R)).
  rewrite <- (distribute_concat c (Z.of_nat (length (snd s))) 16 P) by lia. rewrite sumR_flat_map. reflexivity.
Qed.

Lemma nodup_map_in {T U} (f : T -> U) l : (forall x y, In x l -> In y l -> f x = f y -> x = y) -> NoDup l -> NoDup (map f l).
Proof.
  intros H N. induction N as [|x l N1 N2 IH]; cbn [map]; [constructor|]. constructor.
  - intros Q. apply in_map_iff in Q. destruct Q as (y & E & Hy). apply N1. rewrite <- (H y x (or_intror Hy) (or_introl eq_refl) E). exact Hy.
  - apply IH. intros a b Ha Hb. apply H; right; assumption.
Qed.

(* ---- the walls ---- *)
Section S.
Variable L : layout R.
Hypothesis OK : layout_ok L.
Variable pos : Z -> cell.
Variable num : cell -> Z.
Variable ws : Z.
Variable G : Z -> cgrid R.
Hypothesis HB : box L num ws G.
Hypothesis HI : forall r, 0 <= r < ws -> inside L (pos r) /\ num (pos r) = r.

Lemma list_twice n cs : NoDup (map (vox3 n) cs) -> forall (H : hyd * Z -> R) k v,
  fold_left (fun H c => fun k => if snd k =? vox3 n c then r_add R Rarith (H k) (H k) else H k) cs H (k, v) =
  ((if existsb (fun c => (v =? vox3 n c)%Z) cs then 2 else 1) * H (k, v))%R.
Proof.
  induction cs as [|c cs IH]; intros ND H k v; cbn [fold_left existsb]; [lra|]. inversion ND as [|x l N1 N2]; subst x l. rewrite (IH N2). cbn [snd r_add Rarith].
  destruct (v =? vox3 n c) eqn:E; cbn [orb]; [|reflexivity]. apply Z.eqb_eq in E. subst v.
  destruct (existsb (fun c0 => vox3 n c =? vox3 n c0) cs) eqn:Ex; [|lra]. exfalso. apply N1. apply existsb_exists in Ex. destruct Ex as (c0 & H0 & E0). apply Z.eqb_eq in E0. rewrite E0. apply in_map, H0.
Qed.
Definition wall2 (p : cell) (a : axis) (s : Z) (e : cell) : R :=
  match beside L a (AT a p) s with None => if AT a e =? (if s <? 0 then 1 else l_n L a (AT a p) + 1) then 2%R else 1%R | Some _ => 1%R end.
Lemma adjust_dir_at p a s H k e : inside L p -> s = -1 \/ s = 1 -> In e (nodes (size_at L p)) ->
  hydro_adjust_dir Rarith ws (G (num p)) H (a, s) (k, vox3 (size_at L p) e) = (wall2 p a s e * H (k, vox3 (size_at L p) e))%R.
Proof.
  intros Hp Hs He. unfold hydro_adjust_dir, wall2. pose proof HB as (_ & _ & _ & Sz & _). rewrite (Sz p Hp).
  pose proof (wall_codes L num ws G HB p Hp a s Hs) as Wc.
  destruct (beside L a (AT a p) s) as [j|] eqn:Eb.
  - replace ((c_bc R (G (num p)) (port a s) <? 0) || (ws <=? c_bc R (G (num p)) (port a s))) with false; [lra|].
    destruct ((c_bc R (G (num p)) (port a s) <? 0) || (ws <=? c_bc R (G (num p)) (port a s))) eqn:E; [|reflexivity]. exfalso. destruct Wc as [_ W]. assert (Some j = None) as X by (apply W; lia). discriminate X.
  - replace ((c_bc R (G (num p)) (port a s) <? 0) || (ws <=? c_bc R (G (num p)) (port a s))) with true by (destruct Wc as [W _]; specialize (W eq_refl); lia).
    replace (AT a (size_at L p)) with (l_n L a (AT a p)) by (destruct a; reflexivity). set (fc := if s <? 0 then 1 else l_n L a (AT a p) + 1).
    assert (IN3 : forall q, In q (nodes (size_at L p)) -> in3 (size_at L p) q) by (intros q Hq; apply (in3_at L (fun _ => p) 0 q); intros b; pose proof (proj1 (in_nodes _ _) Hq b); lia).
    assert (PN : forall q, In q (plane (size_at L p) a Node fc) <-> In q (nodes (size_at L p)) /\ AT a q = fc).
    { intros q. rewrite in_plane, in_nodes. cbn [wide_y wide_z]. pose proof (Hp a) as Ha. destruct OK as [_ On]. pose proof (On a _ Ha) as Na.
      assert (1 <= fc <= AT a (size_at L p) + 1) by (unfold fc; replace (AT a (size_at L p)) with (l_n L a (AT a p)) by (destruct a; reflexivity); destruct (s <? 0); lia).
      split; [intros (E & X & Y); split; [|exact E]; intros b; destruct a, b; cbn [next] in X, Y; lia|intros (Q & E); split; [exact E|split; apply Q]]. }
    rewrite list_twice.
    + replace (existsb (fun c => vox3 (size_at L p) e =? vox3 (size_at L p) c) (plane (size_at L p) a Node fc)) with (AT a e =? fc); [reflexivity|].
      destruct (existsb _ _) eqn:Ex.
      * apply existsb_exists in Ex. destruct Ex as (c & Hc & E). apply PN in Hc. destruct Hc as (Hc1 & Hc2). assert (e = c) as -> by (apply (vox3_inj (size_at L p)); [apply (size_pos L OK), Hp|apply IN3, He|apply IN3, Hc1|lia]). lia.
      * destruct (Z.eqb_spec (AT a e) fc) as [E|]; [|reflexivity]. exfalso. rewrite <- not_true_iff_false in Ex. apply Ex. apply existsb_exists. exists e. split; [apply PN; split; [exact He|exact E]|apply Z.eqb_refl].
    + apply nodup_map_in; [|apply plane_nodup]. intros x y Hx Hy E. apply PN in Hx, Hy. apply (vox3_inj (size_at L p)); [apply (size_pos L OK), Hp|apply IN3, Hx|apply IN3, Hy|exact E].
Qed.
Lemma wall_axis p a e : inside L p -> In e (nodes (size_at L p)) -> (wall2 p a (-1) e * wall2 p a 1 e = if on_wall L a (gplace L p e) then 2 else 1)%R.
Proof.
  intros Hp He. pose proof (Hp a) as Ha. pose proof (proj1 (in_nodes _ _) He a) as Hx. replace (AT a (size_at L p)) with (l_n L a (AT a p)) in Hx by (destruct a; reflexivity).
  unfold on_wall. rewrite at_gplace. unfold wall2. change (-1 <? 0) with true. change (1 <? 0) with false. cbv iota.
  pose proof (beside_none L a (AT a p) (-1) Ha (or_introl eq_refl)) as B0. pose proof (beside_none L a (AT a p) 1 Ha (or_intror eq_refl)) as B1. cbn [Z.eqb Pos.eqb] in B0, B1.
  destruct OK as [O1 O2]. pose proof (O2 a) as Hn.
  destruct (RemoteSync.place_range (l_n L a) (l_p L a) Hn 1 (AT a p, AT a e) (or_intror eq_refl) (conj Ha Hx)) as (R1 & R2 & R3). unfold B in *. cbn [fst snd] in *.
  assert (T : total L a = before (l_n L a) (Z.to_nat (l_p L a))) by reflexivity. rewrite T.
  assert (EP : place L a p e = before (l_n L a) (Z.to_nat (AT a p)) + AT a e) by reflexivity. rewrite EP.
  assert (E0 : AT a p = 0 -> AT a e = 1 -> before (l_n L a) (Z.to_nat (AT a p)) + AT a e = 1) by (intros -> ->; reflexivity).
  assert (E1 : AT a p = l_p L a - 1 -> AT a e = l_n L a (AT a p) + 1 -> before (l_n L a) (Z.to_nat (AT a p)) + AT a e = before (l_n L a) (Z.to_nat (l_p L a)) + 1).
  { intros Ei ->. pose proof (B_succ (l_n L a) (AT a p) ltac:(lia)) as S. unfold B in S. replace (AT a p + 1) with (l_p L a) in S by lia. lia. }
  pose proof (Hn (AT a p) Ha) as Ni.
  assert (R2' : before (l_n L a) (Z.to_nat (AT a p)) + AT a e = 1 -> AT a p = 0 /\ AT a e = 1) by (intros E; specialize (R2 E); injection R2; auto).
  assert (R3' : before (l_n L a) (Z.to_nat (AT a p)) + AT a e = before (l_n L a) (Z.to_nat (l_p L a)) + 1 -> AT a p = l_p L a - 1 /\ AT a e = l_n L a (AT a p) + 1)
    by (intros E; specialize (R3 E); injection R3 as X1 X2; rewrite X1; auto).
  assert (W0 : (match beside L a (AT a p) (-1) with None => if AT a e =? 1 then 2 else 1 | Some _ => 1 end = if negb (l_per L a) && (before (l_n L a) (Z.to_nat (AT a p)) + AT a e =? 1)%Z then 2 else 1)%R).
  { destruct (beside L a (AT a p) (-1)) as [j|]; destruct (l_per L a); cbn [negb andb]; try reflexivity.
    - destruct (Z.eqb_spec (before (l_n L a) (Z.to_nat (AT a p)) + AT a e) 1) as [Q|]; [|reflexivity]. exfalso. destruct B0 as [_ B0]. assert (Some j = None) as X by (apply B0; tauto). discriminate X.
    - exfalso. destruct B0 as [B0 _]. destruct (B0 eq_refl) as [X _]. discriminate X.
    - destruct B0 as [B0 _]. destruct (B0 eq_refl) as [_ X]. destruct (Z.eqb_spec (before (l_n L a) (Z.to_nat (AT a p)) + AT a e) 1) as [Q|Q]; destruct (Z.eqb_spec (AT a e) 1) as [Q1|Q1]; try reflexivity; exfalso; tauto. }
  assert (W1 : (match beside L a (AT a p) 1 with None => if AT a e =? l_n L a (AT a p) + 1 then 2 else 1 | Some _ => 1 end = if negb (l_per L a) && (before (l_n L a) (Z.to_nat (AT a p)) + AT a e =? before (l_n L a) (Z.to_nat (l_p L a)) + 1)%Z then 2 else 1)%R).
  { destruct (beside L a (AT a p) 1) as [j|]; destruct (l_per L a); cbn [negb andb]; try reflexivity.
    - destruct (Z.eqb_spec (before (l_n L a) (Z.to_nat (AT a p)) + AT a e) (before (l_n L a) (Z.to_nat (l_p L a)) + 1)) as [Q|]; [|reflexivity]. exfalso. destruct B1 as [_ B1]. assert (Some j = None) as X by (apply B1; tauto). discriminate X.
    - exfalso. destruct B1 as [B1 _]. destruct (B1 eq_refl) as [X _]. discriminate X.
    - destruct B1 as [B1 _]. destruct (B1 eq_refl) as [_ X]. destruct (Z.eqb_spec (before (l_n L a) (Z.to_nat (AT a p)) + AT a e) (before (l_n L a) (Z.to_nat (l_p L a)) + 1)) as [Q|Q]; destruct (Z.eqb_spec (AT a e) (l_n L a (AT a p) + 1)) as [Q1|Q1]; try reflexivity; exfalso; tauto. }
  rewrite W0, W1. destruct (l_per L a); cbn [negb andb]; [lra|].
  destruct (Z.eqb_spec (before (l_n L a) (Z.to_nat (AT a p)) + AT a e) 1) as [Q|Q]; destruct (Z.eqb_spec (before (l_n L a) (Z.to_nat (AT a p)) + AT a e) (before (l_n L a) (Z.to_nat (l_p L a)) + 1)) as [Q1|Q1]; cbn [orb]; try lra.
  exfalso. destruct (R2' Q), (R3' Q1). lia.
Qed.
Lemma adjust_at p H k e : inside L p -> In e (nodes (size_at L p)) ->
  hydro_adjust Rarith ws (G (num p)) H (k, vox3 (size_at L p) e) = (halves L (gplace L p e) * H (k, vox3 (size_at L p) e))%R.
Proof.
  intros Hp He. unfold hydro_adjust, six. cbn [fold_left]. rewrite !adjust_dir_at by (first [exact Hp | exact He | left; reflexivity | right; reflexivity]).
  unfold halves. rewrite <- !(wall_axis p _ e Hp He). ring.
Qed.

(* ---- all ranks ---- *)
Variable rd : vec R.
Hypothesis Hcells : equal_cells L rd.
Hypothesis Hpos : forall a i, 0 <= i < l_p L a -> (0 < l_d L a i)%R.
Lemma halves_same p q r e : same_node L (gplace L p q) (gplace L (pos r) e) = true -> halves L (gplace L (pos r) e) = halves L (gplace L p q).
Proof.
  intros Hs. apply same_node_spec in Hs; [|exact OK].
  assert (K : forall a, on_wall L a (gplace L (pos r) e) = on_wall L a (gplace L p q)).
  { intros a. unfold on_wall. destruct (l_per L a) eqn:Ea; [reflexivity|]. cbn [negb andb]. rewrite !at_gplace. specialize (Hs a). rewrite Ea in Hs. cbn [fst snd] in Hs. rewrite Hs. reflexivity. }
  unfold halves. rewrite !K. reflexivity.
Qed.
Definition hydro_ok (r : Z) (ss : list (hcoef * list (part R))) : Prop :=
  Forall (fun s => h_c (fst s) <> 0%R /\ h_r8V (fst s) = inv_8V rd /\ Z.of_nat (length (snd s)) < 2 ^ 31 /\ forall p, In p (snd s) -> in_rank L pos r (pi p)) ss.
Lemma rank_at c P r f ss k e : 0 <= r < ws -> 1 <= P < 2 ^ 31 -> hydro_ok r ss ->
  copies_sum c P (fst (fst (size_at L (pos r)))) (snd (fst (size_at L (pos r)))) (snd (size_at L (pos r))) f ss k (vox3 (size_at L (pos r)) e) =
  (vx rd * vy rd * vz rd * sumR (map (fun s => sumR (map (fun p => charge (stride_y L pos r) (stride_z L pos r) (ind (vox3 (size_at L (pos r)) e)) (moment_of k (fst s) f p) (pi p) (pd p)) (snd s))) ss))%R.
Proof.
  intros Hr HP Hs. rewrite copies_at; [|exact HP|]. 2: { eapply Forall_impl; [|exact Hs]. intros s (H1 & _ & H2 & _). split; assumption. }
  rewrite <- sum_scale. apply sum_ext. intros s Hin. unfold hydro_ok in Hs. rewrite Forall_forall in Hs. destruct (Hs s Hin) as (_ & E & _). rewrite <- sum_scale. apply sum_ext. intros p _. rewrite E. unfold inv_8V.
  change (stride_y L pos r) with (fst (fst (size_at L (pos r))) + 2). change (stride_z L pos r) with ((fst (fst (size_at L (pos r))) + 2) * (snd (fst (size_at L (pos r))) + 2)). field.
Qed.
Lemma moments_at c P f ss W W' k p q : 1 <= P < 2 ^ 31 -> (forall r, 0 <= r < ws -> hydro_ok r (ss r)) ->
  (forall r, 0 <= r < ws -> reduced c P (size_at L (pos r)) (f r) (ss r) (W r)) ->
  synchronize_hydro Rarith ws G W W' -> inside L p -> holds L Rhof p q ->
  W' (num p) (k, vox3 (size_at L p) q) = (halves L (gplace L p q) * (vx rd * vy rd * vz rd * world_moment L pos ws (at_node L (gplace L p q)) k f ss))%R.
Proof.
  intros HP Hs HW HS Hp Hq.
  set (F := fun r (l : floc) => match l with (_, v) => hydro_adjust Rarith ws (G r) (W r) (k, v) end).
  destruct (phases_show Rarith ws G k _ F (fun r => hydro_adjust Rarith ws (G r) (W r)) W' ltac:(intros r Hr v; reflexivity) HS) as (F' & HR & HF).
  pose proof HB as (Rn & _). specialize (Rn p Hp). rewrite <- (HF (num p) Rn).
  rewrite (synced_rho L OK pos num ws G HB HI rd Hcells Hpos Rhof F F' p q eq_refl HR Hp Hq). cbn [is_rhof]. rewrite Rmult_1_l. unfold world_moment. rewrite <- !over_scale.
  apply over_ext. intros r Hr. destruct (HI r Hr) as (I1 & I2). unfold rank_moment.
  transitivity (sumR (map (fun e => (halves L (gplace L p q) * (vx rd * vy rd * vz rd) * sumR (map (fun s => sumR (map (fun p0 => (A L pos r (gplace L p q) e * charge (stride_y L pos r) (stride_z L pos r) (ind (vox3 (size_at L (pos r)) e)) (moment_of k (fst s) (f r) p0) (pi p0) (pd p0))%R) (snd s))) (ss r)))%R) (nodes (size_at L (pos r))))).
  - apply sum_ext. intros e He. unfold F. rewrite <- I2 at 2. rewrite (adjust_at (pos r) (W r) k e I1 He). rewrite (HW r Hr k e). fold (copies_sum c P (fst (fst (size_at L (pos r)))) (snd (fst (size_at L (pos r)))) (snd (size_at L (pos r))) (f r) (ss r) k (vox3 (size_at L (pos r)) e)).
    rewrite (rank_at c P r (f r) (ss r) k e Hr HP (Hs r Hr)).
    rewrite (sum_ext (fun s => sumR (map (fun p0 => (A L pos r (gplace L p q) e * charge (stride_y L pos r) (stride_z L pos r) (ind (vox3 (size_at L (pos r)) e)) (moment_of k (fst s) (f r) p0) (pi p0) (pd p0))%R) (snd s)))
      (fun s => (A L pos r (gplace L p q) e * sumR (map (fun p0 => charge (stride_y L pos r) (stride_z L pos r) (ind (vox3 (size_at L (pos r)) e)) (moment_of k (fst s) (f r) p0) (pi p0) (pd p0)) (snd s)))%R)) by (intros s _; apply sum_scale).
    rewrite sum_scale. assert (EA : A L pos r (gplace L p q) e = if same_node L (gplace L p q) (gplace L (pos r) e) then 1%R else 0%R) by reflexivity. rewrite EA.
    destruct (same_node L (gplace L p q) (gplace L (pos r) e)) eqn:Es; [|lra]. rewrite (halves_same p q r e Es). ring.
  - rewrite sum_scale, sum_swap. etransitivity; [|apply Rmult_assoc]. f_equal. apply sum_ext. intros s Hin. rewrite sum_swap. apply sum_ext. intros p0 Hp0.
    specialize (Hs r Hr). unfold hydro_ok in Hs. rewrite Forall_forall in Hs. destruct (Hs s Hin) as (_ & _ & _ & Hi). apply (charge_nodes L OK pos r I1). apply Hi, Hp0.
Qed.
End S.
