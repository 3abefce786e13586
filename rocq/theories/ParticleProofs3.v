Require Import ZArith List Bool Reals Lra Lia ZifyBool.
Require Import Verif.ParticleModel Verif.ParticleSpec Verif.ParticleProofs.
Import ListNotations.
Open Scope R_scope.

Definition dist (d x : R) : R := 1 - dirR x * d.
Definition inc (d : vec R) : Prop := forall a, -1 <= vget d a <= 1.

Lemma in_cell_inc d : in_cell d <-> inc d.
Proof.
  unfold in_cell, inc. split.
  - intros (A & B & C) a. destruct a; cbn; unfold Rabs in *; repeat destruct (Rcase_abs _); lra.
  - intros H. pose proof (H AX). pose proof (H AY). pose proof (H AZ). cbn in *.
    repeat split; apply Rabs_le; lra.
Qed.

Lemma face_ratio x d : x <> 0 -> (dirR x - d) / x * Rabs x = dist d x.
Proof.
  intros N. rewrite <- dirR_abs. unfold dist. destruct (dirR_pm x) as [->| ->]; field; auto.
Qed.

(* facts about one streak that starts inside the cell *)
Lemma step_facts p disp h ax : inc (pd p) -> hstep p disp = (h, ax) ->
  0 <= h <= 1 /\
  (forall b, 2 * h * Rabs (vget disp b) <= dist (vget (pd p) b) (vget disp b)) /\
  match ax with
  | None => h = 1
  | Some a => h < 1 /\ vget disp a <> 0 /\
              2 * h * Rabs (vget disp a) = dist (vget (pd p) a) (vget disp a)
  end.
Proof.
  intros I E. pose proof (hstep_R p disp) as H. rewrite E in H.
  assert (DN : forall b, 0 <= dist (vget (pd p) b) (vget disp b)).
  { intros b. unfold dist. pose proof (I b). destruct (dirR_pm (vget disp b)) as [->| ->]; lra. }
  assert (LE : forall b c, (vget disp b = 0 \/ c <= (dirR (vget disp b) - vget (pd p) b) / vget disp b) ->
     c * Rabs (vget disp b) <= dist (vget (pd p) b) (vget disp b)).
  { intros b c [Z|L].
    - rewrite Z at 1. rewrite Rabs_R0. specialize (DN b). lra.
    - destruct (Req_EM_T (vget disp b) 0) as [Z|N]; [rewrite Z at 1; rewrite Rabs_R0; specialize (DN b); lra|].
      rewrite <- face_ratio by auto. apply Rmult_le_compat_r; [apply Rabs_pos|auto]. }
  destruct ax as [a|].
  - destruct H as (N & Hh & H1 & M).
    assert (H0 : 0 <= h).
    { rewrite Hh. pose proof (face_ratio (vget disp a) (vget (pd p) a) N) as FR.
      pose proof (Rabs_pos_lt _ N) as PL. specialize (DN a). rewrite <- FR in DN.
      assert (0 <= (dirR (vget disp a) - vget (pd p) a) / vget disp a); [|lra].
      apply Rmult_le_reg_r with (Rabs (vget disp a)); [auto|]. lra. }
    split; [lra|]. split; [intros b; apply LE, M|].
    split; [lra|]. split; [auto|]. rewrite <- face_ratio by auto. rewrite Hh. field. auto.
  - destruct H as (-> & M). split; [lra|]. split; [|reflexivity].
    intros b. replace (2 * 1) with 2 by ring. apply LE, M.
Qed.

Lemma step_inc p disp h ax : inc (pd p) -> hstep p disp = (h, ax) ->
  inc (dstep (pd p) (sstep disp h)).
Proof.
  intros I E b. destruct (step_facts _ _ _ _ I E) as (H01 & L & _).
  specialize (L b). pose proof (I b) as Ib. unfold dstep, sstep. rewrite !vget_vmap2, vget_vmap.
  unfold dist in L. rewrite <- dirR_abs in L.
  pose proof (Rabs_pos (vget disp b)) as P. rewrite <- dirR_abs in P.
  assert (0 <= h * (dirR (vget disp b) * vget disp b)) by (apply Rmult_le_pos; lra).
  destruct (dirR_pm (vget disp b)) as [E1|E1]; rewrite E1 in *; lra.
Qed.

Lemma total_jstep a v q d s : total_j a (v, jstep q d s) = 4 * q * vget s a.
Proof.
  destruct d, s, a; cbv [total_j snd jstep accumulate_streak accumulate_j app nth Nat.add Rnum n_add n_sub n_mul
     n_one vmap2 vget ParticleModel.vx ParticleModel.vy ParticleModel.vz]; field.
Qed.

Definition trav (q : R) (log : list (streak R)) (a : axis) : R :=
  sumR (map (fun e => Rabs (total_j a e)) log).
Definition strav (log : list (streak R)) (a : axis) : R := sumR (map (total_j a) log).

Lemma trav_snoc q log e a : trav q (log ++ [e]) a = trav q log a + Rabs (total_j a e).
Proof. unfold trav. rewrite map_app, sumR_app. unfold sumR. cbn. lra. Qed.
Lemma strav_snoc log e a : strav (log ++ [e]) a = strav log a + total_j a e.
Proof. unfold strav. rewrite map_app, sumR_app. unfold sumR. cbn. lra. Qed.

Lemma disp_step disp h a : vget (vmap2 Rminus disp (sstep disp h)) a = vget disp a * (1 - h).
Proof. unfold sstep. rewrite vget_vmap2, vget_vmap. ring. Qed.

Lemma trav_step q log v d disp h a : 0 <= h <= 1 ->
  trav q (log ++ [(v, jstep q d (sstep disp h))]) a +
    4 * Rabs q * Rabs (vget (vmap2 Rminus disp (sstep disp h)) a) =
  trav q log a + 4 * Rabs q * Rabs (vget disp a).
Proof.
  intros H. rewrite trav_snoc, total_jstep, disp_step. unfold sstep. rewrite vget_vmap.
  rewrite !Rabs_mult. rewrite (Rabs_right 4), (Rabs_right h), (Rabs_right (1 - h)) by lra. ring.
Qed.

Lemma strav_step q log v d disp h a :
  strav (log ++ [(v, jstep q d (sstep disp h))]) a + 4 * q * vget (vmap2 Rminus disp (sstep disp h)) a =
  strav log a + 4 * q * vget disp a.
Proof. rewrite strav_snoc, total_jstep, disp_step. unfold sstep. rewrite vget_vmap. ring. Qed.

(* The postcondition of move_p. *)
Definition stops_at (g : mesh) (real : Z -> Prop) (p' : part R) : Prop :=
  exists v f n, real v /\ (0 <= f < 6)%Z /\ pi p' = (8 * v + f)%Z /\ nbr_at g v f = Some n /\
    n <> reflect_particles /\ (n < mrangel g \/ mrangeh g < n)%Z /\
    vget (pd p') (face_axis f) = (if face_high f then 1 else -1).

Definition post (g : mesh) (real : Z -> Prop) (q : R) (p : part R) (disp : vec R) (log : list (streak R))
  (st : bool) (p' : part R) (disp' : vec R) (log' : list (streak R)) : Prop :=
  inc (pd p') /\
  (if st then stops_at g real p' else real (pi p') /\ disp' = mkv 0 0 0) /\
  (forall a, trav q log' a + 4 * Rabs q * Rabs (vget disp' a) = trav q log a + 4 * Rabs q * Rabs (vget disp a)) /\
  pw p' = pw p /\
  (forall a, exists sg, (sg = 1 \/ sg = -1) /\ vget (pu p') a = sg * vget (pu p) a /\
                        0 <= sg * vget disp' a * vget disp a) /\
  ((forall v f, nbr_at g v f <> Some reflect_particles) ->
     pu p' = pu p /\ forall a, strav log' a + 4 * q * vget disp' a = strav log a + 4 * q * vget disp a).

Lemma sq_nonneg_scale x k : 0 <= k -> 0 <= x * k * x.
Proof. intros. replace (x * k * x) with (k * (x * x)) by ring. apply Rmult_le_pos; [auto|]. apply Rle_0_sqr. Qed.

Lemma move_post fuel g real q : table_ok g real ->
  forall p disp log st p' disp' log',
  inc (pd p) -> real (pi p) ->
  move_loop Rnum fuel g q p disp log = MDone st p' disp' log' ->
  post g real q p disp log st p' disp' log'.
Proof.
  intros T. induction fuel as [|fuel IH]; intros p disp log st p' disp' log' I Rp E; [discriminate|].
  rewrite move_step in E. destruct (hstep p disp) as [h ax] eqn:Eh. cbv zeta in E.
  destruct (step_facts _ _ _ _ I Eh) as (H01 & L & Hax).
  pose proof (step_inc _ _ _ _ I Eh) as I'.
  pose proof (fun a => trav_step q log (pi p) (pd p) disp h a H01) as TS.
  pose proof (fun a => strav_step q log (pi p) (pd p) disp h a) as SS.
  pose proof (disp_step disp h) as DS.
  set (s := sstep disp h) in *. set (lg := log ++ _) in *. set (d1 := vmap2 Rminus disp s) in *.
  assert (SG : forall a, 0 <= vget d1 a * vget disp a).
  { intros a. rewrite DS. apply sq_nonneg_scale. lra. }
  destruct ax as [a|].
  2:{ apply mdone_inj in E; destruct E as (<- & <- & <- & <-).
      repeat split; cbn [pi pd pu pw]; auto.
      - apply I'.
      - apply I'.
      - subst h. unfold d1, s, sstep, vmap, vmap2. cbn [vx vy vz]. f_equal; ring.
      - intros b. exists 1. split; [auto|split; [ring|]]. specialize (SG b). lra. }
  destruct Hax as (Hlt & N & HE).
  pose proof (step_on_face _ _ _ _ Eh) as F. fold s in F.
  assert (FV : vset (dstep (pd p) s) a (dirR (vget disp a)) = dstep (pd p) s) by (apply vset_same, F).
  rewrite FV in E.
  destruct (negb (int_ok (6 * pi p))) eqn:EI; [discriminate|].
  set (fc := face_of a (dirR (vget disp a))) in *.
  pose proof (face_of_range a (dirR (vget disp a))) as FR. fold fc in FR.
  destruct (nbr_at g (pi p) fc) as [n|] eqn:EN; [|discriminate].
  destruct (T _ Rp) as (_ & TT). destruct (TT fc FR) as (n' & EN' & CC).
  rewrite EN in EN'. injection EN' as <-.
  destruct (n =? reflect_particles)%Z eqn:ER.
  - (* reflected *)
    apply IH in E; [|cbn [pd]; exact I'|cbn [pi]; exact Rp].
    destruct E as (P1 & P2 & P3 & P4 & P5 & P6). cbn [pi pd pu pw] in *.
    split; [exact P1|]. split; [exact P2|]. split; [|split; [exact P4|split]].
    + intros b. rewrite P3. rewrite <- TS. f_equal. f_equal.
      rewrite vget_vset. destruct a, b; try reflexivity; apply Rabs_Ropp.
    + intros b. destruct (P5 b) as (sg & Hsg & Hu & Hd).
      rewrite !vget_vset in Hu, Hd.
      assert (DD : forall x, 0 <= x * (vget disp b * (1 - h)) -> 0 <= x * vget disp b).
      { intros x Hx. apply Rmult_le_reg_r with (1 - h); [lra|]. lra. }
      destruct a, b; cbv beta iota in Hu, Hd; rewrite DS in Hd;
      first [ exists sg; split; [exact Hsg|]; split; [exact Hu|]; apply DD; exact Hd
            | exists (- sg); split; [lra|]; split; [rewrite Hu; ring|];
              apply DD; lra ].
    + intros NR. exfalso. apply (NR (pi p) fc). rewrite EN. f_equal. lia.
  - destruct ((n <? mrangel g) || (mrangeh g <? n))%Z eqn:EB.
    + destruct (negb (int_ok (8 * pi p)) || negb (int_ok (8 * pi p + fc)%Z)) eqn:EO; [discriminate|].
      apply mdone_inj in E; destruct E as (<- & <- & <- & <-).
      unfold post. cbn [pi pd pu pw]. split; [exact I'|]. split.
      { exists (pi p), fc, n. split; [exact Rp|]. split; [exact FR|]. split; [reflexivity|].
        split; [exact EN|]. split; [lia|]. split; [lia|]. cbn [pd].
        unfold fc. rewrite face_of_axis, face_of_high. rewrite F. apply dirR_up. }
      split; [exact TS|]. split; [reflexivity|]. split.
      { intros b. exists 1. split; [auto|split; [ring|]]. specialize (SG b). lra. }
      { intros _. split; [reflexivity|exact SS]. }
    + assert (Rn : real (n - mrangel g)%Z) by (destruct CC as [C|[C|[C|C]]]; [lia|lia|lia|exact C]).
      apply IH in E; [| |cbn [pi]; exact Rn].
      2:{ cbn [pd]. intros b. rewrite vget_vset. pose proof (I' b) as Ib.
          pose proof (dirR_pm (vget disp a)).
          destruct a, b; try exact Ib; lra. }
      destruct E as (P1 & P2 & P3 & P4 & P5 & P6). cbn [pi pd pu pw] in *.
      split; [exact P1|]. split; [exact P2|]. split; [|split; [exact P4|split]].
      * intros b. rewrite P3. apply TS.
      * intros b. destruct (P5 b) as (sg & Hsg & Hu & Hd).
        exists sg. split; [exact Hsg|]. split; [exact Hu|].
        apply Rmult_le_reg_r with (1 - h); [lra|]. rewrite DS in Hd. lra.
      * intros NR. destruct (P6 NR) as (Q1 & Q2). split; [exact Q1|].
        intros b. rewrite Q2. apply SS.
Qed.

(* ---------- termination ---------- *)
Definition pot (N : axis -> nat) (p : part R) (disp : vec R) : Prop :=
  forall a, 2 * Rabs (vget disp a) < dist (vget (pd p) a) (vget disp a) + 2 * INR (N a).

Definition dec (N : axis -> nat) (a b : axis) : nat :=
  match a, b with AX, AX | AY, AY | AZ, AZ => Nat.pred (N b) | _, _ => N b end.

Lemma dirR_scale x k : 0 < k -> dirR (x * k) = dirR x.
Proof.
  intros. unfold dirR. destruct (Rltb_spec 0 (x * k)), (Rltb_spec 0 x); try reflexivity; exfalso.
  - assert (x * k <= 0 * k) by (apply Rmult_le_compat_r; lra). lra.
  - apply n. apply Rmult_lt_0_compat; lra.
Qed.
Lemma dirR_opp x : x <> 0 -> dirR (- x) = - dirR x.
Proof. intros. unfold dirR. destruct (Rltb_spec 0 (-x)), (Rltb_spec 0 x); lra. Qed.

Lemma move_total fuel g real q : table_ok g real ->
  forall N p disp log, inc (pd p) -> real (pi p) -> pot N p disp ->
  (N AX + N AY + N AZ < fuel)%nat ->
  exists st p' disp' log', move_loop Rnum fuel g q p disp log = MDone st p' disp' log'.
Proof.
  intros T. induction fuel as [|fuel IH]; intros N p disp log I Rp P Hf; [lia|].
  rewrite move_step. destruct (hstep p disp) as [h ax] eqn:Eh. cbv zeta.
  destruct (step_facts _ _ _ _ I Eh) as (H01 & L & Hax).
  pose proof (step_inc _ _ _ _ I Eh) as I'.
  pose proof (disp_step disp h) as DS.
  set (s := sstep disp h) in *. set (lg := log ++ _) in *. set (d1 := vmap2 Rminus disp s) in *.
  destruct ax as [a|]; [|eauto 10].
  destruct Hax as (Hlt & Nz & HE).
  pose proof (step_on_face _ _ _ _ Eh) as F. fold s in F.
  assert (FV : vset (dstep (pd p) s) a (dirR (vget disp a)) = dstep (pd p) s) by (apply vset_same, F).
  rewrite FV.
  set (fc := face_of a (dirR (vget disp a))) in *.
  pose proof (face_of_range a (dirR (vget disp a))) as FR. fold fc in FR.
  destruct (T _ Rp) as (RB & TT). destruct (TT fc FR) as (n & EN & CC).
  replace (negb (int_ok (6 * pi p))) with false by (unfold int_ok; lia). rewrite EN.
  assert (NA : (1 <= N a)%nat).
  { specialize (P a). assert (Rabs (vget disp a) > 0) by (apply Rabs_pos_lt; auto).
    destruct (N a); [|lia]. cbn [INR] in P. rewrite <- HE in P.
    assert (h * Rabs (vget disp a) < 1 * Rabs (vget disp a)) by (apply Rmult_lt_compat_r; lra). lra. }
  assert (PA : 2 * Rabs (vget d1 a) < 2 + 2 * INR (Nat.pred (N a))).
  { rewrite DS, Rabs_mult, (Rabs_right (1 - h)) by lra.
    specialize (P a). rewrite <- HE in P.
    replace (INR (N a)) with (INR (Nat.pred (N a)) + 1) in P
      by (rewrite <- S_INR; f_equal; lia). lra. }
  assert (PB : forall b, 2 * Rabs (vget d1 b) <
     dist (vget (dstep (pd p) s) b) (vget d1 b) + 2 * INR (N b)).
  { intros b. specialize (P b). rewrite DS, Rabs_mult, (Rabs_right (1 - h)) by lra.
    unfold dist in *. rewrite dirR_scale by lra. unfold dstep, s, sstep. rewrite !vget_vmap2, vget_vmap.
    pose proof (dirR_abs (vget disp b)) as DA.
    replace (1 - dirR (vget disp b) * (vget (pd p) b + (vget disp b * h + vget disp b * h)))
      with (1 - dirR (vget disp b) * vget (pd p) b - 2 * h * (dirR (vget disp b) * vget disp b)) by ring.
    rewrite DA. lra. }
  assert (FU : (dec N a AX + dec N a AY + dec N a AZ < fuel)%nat) by (destruct a; cbn; lia).
  assert (D1 : vget d1 a <> 0).
  { rewrite DS. apply Rmult_integral_contrapositive. split; [auto|lra]. }
  assert (DD : dirR (vget d1 a) = dirR (vget disp a)) by (rewrite DS; apply dirR_scale; lra).
  destruct (n =? reflect_particles)%Z eqn:ER.
  - apply (IH (dec N a)); auto. intros b. cbn [pd].
    rewrite vget_vset. specialize (PB b).
    destruct a, b; cbn [dec]; try exact PB;
    (rewrite Rabs_Ropp; rewrite F; unfold dist; rewrite dirR_opp by auto; rewrite DD;
     destruct (dirR_pm (vget disp AX)) as [E1|E1], (dirR_pm (vget disp AY)) as [E2|E2],
       (dirR_pm (vget disp AZ)) as [E3|E3]; rewrite ?E1, ?E2, ?E3; lra).
  - destruct ((n <? mrangel g) || (mrangeh g <? n))%Z eqn:EB.
    + replace (negb (int_ok (8 * pi p)) || negb (int_ok (8 * pi p + fc)%Z)) with false
        by (unfold int_ok; lia). eauto 10.
    + assert (Rn : real (n - mrangel g)%Z) by (destruct CC as [C|[C|[C|C]]]; [lia|lia|lia|exact C]).
      apply (IH (dec N a)); auto.
      * cbn [pd]. intros b. rewrite vget_vset. pose proof (I' b) as Ib.
        pose proof (dirR_pm (vget disp a)). destruct a, b; try exact Ib; lra.
      * intros b. cbn [pd]. rewrite vget_vset. specialize (PB b).
        destruct a, b; cbn [dec]; try exact PB;
        (unfold dist; rewrite DD;
         destruct (dirR_pm (vget disp AX)) as [E1|E1], (dirR_pm (vget disp AY)) as [E2|E2],
           (dirR_pm (vget disp AZ)) as [E3|E3]; rewrite ?E1, ?E2, ?E3; lra).
Qed.

Lemma pot_bound p disp k : inc (pd p) -> (forall a, Rabs (vget disp a) <= INR k) ->
  pot (fun _ => S k) p disp.
Proof.
  intros I H a. specialize (H a). rewrite S_INR.
  assert (0 <= dist (vget (pd p) a) (vget disp a)).
  { unfold dist. pose proof (I a). destruct (dirR_pm (vget disp a)) as [->| ->]; lra. }
  lra.
Qed.
