Require Import ZArith List Bool Reals Lra Lia ZifyBool.
Require Import Verif.ParticleModel Verif.ParticleSpec.
Import ListNotations.
Open Scope R_scope.

Lemma Rltb_spec x y : reflect (x < y) (Rltb x y).
Proof. unfold Rltb. destruct (Rlt_dec x y); constructor; auto. Qed.
Lemma Rleb_spec x y : reflect (x <= y) (Rleb' x y).
Proof. unfold Rleb'. destruct (Rle_dec x y); constructor; auto. Qed.
Lemma Reqb_spec x y : reflect (x = y) (Reqb' x y).
Proof. unfold Reqb'. destruct (Req_EM_T x y); constructor; auto. Qed.

Lemma vget_vset {V} (v : vec V) a t b :
  vget (vset v a t) b = match a, b with AX, AX | AY, AY | AZ, AZ => t | _, _ => vget v b end.
Proof. destruct a, b; reflexivity. Qed.
Lemma vget_vmap {V W} (f : V -> W) v a : vget (vmap f v) a = f (vget v a).
Proof. destruct a; reflexivity. Qed.
Lemma vget_vmap2 {U V W} (f : U -> V -> W) u v a : vget (vmap2 f u v) a = f (vget u a) (vget v a).
Proof. destruct a; reflexivity. Qed.

Lemma sumR_app l m : sumR (l ++ m) = sumR l + sumR m.
Proof. unfold sumR. induction l; cbn; lra. Qed.

(* direction and distance *)
Definition dirR (x : R) : R := if Rltb 0 x then 1 else -1.
Lemma s_dir_get disp a : vget (s_dir Rnum disp) a = dirR (vget disp a).
Proof. destruct a; reflexivity. Qed.
Lemma dirR_pm x : dirR x = 1 \/ dirR x = -1.
Proof. unfold dirR. destruct (Rltb 0 x); auto. Qed.
Lemma dirR_abs x : dirR x * x = Rabs x.
Proof. unfold dirR. destruct (Rltb_spec 0 x); [rewrite Rabs_right|rewrite Rabs_left1]; lra. Qed.

Lemma face_dist_R dir d disp a :
  face_dist Rnum dir d disp a =
  if Reqb' (vget disp a) 0 then 34 * 10 ^ 37 else (vget dir a - vget d a) / vget disp a.
Proof. reflexivity. Qed.

Lemma big_gt2 : 2 < 34 * 10 ^ 37.
Proof. assert (1 <= 10 ^ 37) by (apply pow_R1_Rle; lra). lra. Qed.

Lemma pick_R (v : axis -> R) :
  let '(v3, ax) := pick Rnum v in
  match ax with
  | None => v3 = 2 /\ forall a, 2 <= v a
  | Some a => v3 = v a /\ v a < 2 /\ forall b, v a <= v b
  end.
Proof.
  cbv beta iota zeta delta [pick Rnum n_lt n_two fst].
  destruct (Rltb_spec (v AX) 2); cbn [fst].
  - destruct (Rltb_spec (v AY) (v AX)); cbn [fst].
    + destruct (Rltb_spec (v AZ) (v AY)); cbn [fst];
      (split; [reflexivity|split; [lra|intros []; lra]]).
    + destruct (Rltb_spec (v AZ) (v AX)); cbn [fst];
      (split; [reflexivity|split; [lra|intros []; lra]]).
  - destruct (Rltb_spec (v AY) 2); cbn [fst].
    + destruct (Rltb_spec (v AZ) (v AY)); cbn [fst];
      (split; [reflexivity|split; [lra|intros []; lra]]).
    + destruct (Rltb_spec (v AZ) 2); cbn [fst];
      [(split; [reflexivity|split; [lra|intros []; lra]])|split; [reflexivity|intros []; lra]].
Qed.

(* One pass of the loop, spelled out over the reals. *)
Definition hstep (p : part R) (disp : vec R) : R * option axis :=
  let '(v3, ax) := pick Rnum (face_dist Rnum (s_dir Rnum disp) (pd p) disp) in (v3 * / 2, ax).
Definition sstep (disp : vec R) (h : R) : vec R := vmap (fun d => d * h) disp.
Definition dstep (d s : vec R) : vec R := vmap2 Rplus d (vmap2 Rplus s s).
Definition jstep (q : R) (d s : vec R) : list R :=
  accumulate_streak Rnum q (vx s * (q * 1) * vy s * vz s * (1 / 3)) (vmap2 Rplus d s) s.

Definition face_of (a : axis) (dir : R) : Z := if Rltb 0 dir then (axis_code a + 3)%Z else axis_code a.

Lemma jstep_alt q d s :
  accumulate_streak Rnum q (q * vx s * vy s * vz s * (1 / 3)) (vmap2 Rplus d s) s = jstep q d s.
Proof. unfold jstep. f_equal. ring. Qed.

Lemma move_step fuel g q p disp log :
  move_loop Rnum (S fuel) g q p disp log =
  let '(h, ax) := hstep p disp in
  let s := sstep disp h in
  let log := log ++ [(pi p, jstep q (pd p) s)] in
  let d' := dstep (pd p) s in
  let disp' := vmap2 Rminus disp s in
  match ax with
  | None => MDone false (mkp d' (pi p) (pu p) (pw p)) disp' log
  | Some a =>
    let v0 := dirR (vget disp a) in
    let face := face_of a v0 in
    if negb (int_ok (6 * pi p)) then MUB else
    match nbr_at g (pi p) face with
    | None => MUB
    | Some n =>
      if (n =? reflect_particles)%Z then
        move_loop Rnum fuel g q (mkp (vset d' a v0) (pi p) (vset (pu p) a (- vget (pu p) a)) (pw p))
                  (vset disp' a (- vget disp' a)) log
      else if ((n <? mrangel g) || (mrangeh g <? n))%Z then
        if negb (int_ok (8 * pi p)) || negb (int_ok (8 * pi p + face)) then MUB
        else MDone true (mkp (vset d' a v0) (8 * pi p + face) (pu p) (pw p)) disp' log
      else move_loop Rnum fuel g q (mkp (vset (vset d' a v0) a (- v0)) (n - mrangel g) (pu p) (pw p)) disp' log
    end
  end.
Proof.
  cbn [move_loop]. unfold hstep.
  destruct (pick Rnum (face_dist Rnum (s_dir Rnum disp) (pd p) disp)) as [v3 ax].
  cbn [Rnum n_mul n_half n_add n_sub n_mul3 n_opp n_zero n_lt]. cbv zeta.
  rewrite jstep_alt. unfold sstep. destruct ax as [a|]; [|reflexivity].
  rewrite s_dir_get. reflexivity.
Qed.

Lemma hstep_R p disp :
  let '(h, ax) := hstep p disp in
  match ax with
  | None => h = 1 /\ forall a, vget disp a = 0 \/ 2 <= (dirR (vget disp a) - vget (pd p) a) / vget disp a
  | Some a => vget disp a <> 0 /\ h = (dirR (vget disp a) - vget (pd p) a) / vget disp a / 2 /\ h < 1 /\
      forall b, vget disp b = 0 \/ 2 * h <= (dirR (vget disp b) - vget (pd p) b) / vget disp b
  end.
Proof.
  unfold hstep. pose proof (pick_R (face_dist Rnum (s_dir Rnum disp) (pd p) disp)) as P.
  destruct (pick Rnum (face_dist Rnum (s_dir Rnum disp) (pd p) disp)) as [v3 ax].
  pose proof big_gt2 as BG. set (big := 34 * 10 ^ 37) in *.
  assert (FD : forall a, face_dist Rnum (s_dir Rnum disp) (pd p) disp a =
     if Reqb' (vget disp a) 0 then big else (dirR (vget disp a) - vget (pd p) a) / vget disp a)
   by (intros; rewrite face_dist_R, s_dir_get; reflexivity).
  destruct ax as [a|].
  - destruct P as (-> & L & M).
    assert (N : vget disp a <> 0).
    { intros E. rewrite FD in L. destruct (Reqb_spec (vget disp a) 0); lra. }
    rewrite FD in *. destruct (Reqb_spec (vget disp a) 0); [lra|].
    split; [auto|split; [reflexivity|split; [lra|]]].
    intros b. specialize (M b). rewrite FD in M.
    destruct (Reqb_spec (vget disp b) 0); [auto|right; lra].
  - destruct P as (-> & M). split; [lra|]. intros b. specialize (M b). rewrite FD in M.
    destruct (Reqb_spec (vget disp b) 0); [auto|right; lra].
Qed.

(* after a streak that ends on a face the coordinate is exactly that face's *)
Lemma step_on_face p disp h a :
  hstep p disp = (h, Some a) -> vget (dstep (pd p) (sstep disp h)) a = dirR (vget disp a).
Proof.
  intros E. pose proof (hstep_R p disp) as H. rewrite E in H. destruct H as (N & Hh & _).
  unfold dstep, sstep. rewrite !vget_vmap2, vget_vmap. rewrite Hh. field. auto.
Qed.

Lemma vset_same {V} (v : vec V) a t : vget v a = t -> vset v a t = v.
Proof. destruct v, a; cbn; intros ->; reflexivity. Qed.

(* ---------- continuity ---------- *)
Lemma streak_identity sy sz phi q v d s :
  charge sy sz phi q v (dstep d s) = charge sy sz phi q v d + flow sy sz phi (v, jstep q d s).
Proof.
  destruct d as [d1 d2 d3], s as [u1 u2 u3].
  cbv [charge flow dstep jstep accumulate_streak accumulate_j sum_bool share vmap2 vx vy vz app nth
       Rnum n_add n_sub n_mul n_one Nat.b2n Nat.add Nat.mul].
  generalize (phi (node sy sz v false false false)), (phi (node sy sz v true false false)),
    (phi (node sy sz v false true false)), (phi (node sy sz v true true false)),
    (phi (node sy sz v false false true)), (phi (node sy sz v true false true)),
    (phi (node sy sz v false true true)), (phi (node sy sz v true true true)).
  intros. field.
Qed.

Lemma face_of_range a x : (0 <= face_of a x < 6)%Z.
Proof. unfold face_of. destruct (Rltb 0 x), a; cbn; lia. Qed.
Lemma face_of_axis a x : face_axis (face_of a x) = a.
Proof. unfold face_of. destruct (Rltb 0 x), a; reflexivity. Qed.
Lemma face_of_high a x : face_high (face_of a x) = Rltb 0 x.
Proof. unfold face_of. destruct (Rltb 0 x), a; reflexivity. Qed.

(* moving to the neighbour's coordinates does not move the charge *)
Lemma charge_glue sy sz phi q v v' a (up : bool) d :
  vget d a = (if up then 1 else -1) ->
  (forall b1 b2, phi (corner_on sy sz v a up b1 b2) = phi (corner_on sy sz v' a (negb up) b1 b2)) ->
  charge sy sz phi q v' (vset d a (- vget d a)) = charge sy sz phi q v d.
Proof.
  intros E G. pose proof (G false false) as G0. pose proof (G true false) as G1.
  pose proof (G false true) as G2. pose proof (G true true) as G3. clear G.
  destruct d as [d1 d2 d3].
  destruct a, up; cbn [vget vx vy vz corner_on negb vset] in *; subst;
   cbv [charge sum_bool share vx vy vz]; rewrite G0, G1, G2, G3; field.
Qed.

Lemma flows_app sy sz phi l m : flows sy sz phi (l ++ m) = flows sy sz phi l + flows sy sz phi m.
Proof. unfold flows. rewrite map_app, sumR_app. reflexivity. Qed.

Lemma dirR_up x : dirR x = if Rltb 0 (dirR x) then 1 else -1.
Proof. destruct (dirR_pm x) as [E|E]; rewrite E; destruct (Rltb_spec 0 1), (Rltb_spec 0 (-1)); lra. Qed.

Lemma mdone_inj {V} (a a' : bool) (b b' : part V) c c' d d' :
  MDone a b c d = MDone a' b' c' d' -> a = a' /\ b = b' /\ c = c' /\ d = d'.
Proof. intros H; injection H; auto. Qed.

Lemma move_continuity fuel g q sy sz phi : glued sy sz phi g ->
  forall p disp log st p' disp' log',
  move_loop Rnum fuel g q p disp log = MDone st p' disp' log' ->
  charge sy sz phi q (voxel_of st (pi p')) (pd p') - flows sy sz phi log' =
  charge sy sz phi q (pi p) (pd p) - flows sy sz phi log.
Proof.
  intros G. induction fuel as [|fuel IH]; intros p disp log st p' disp' log' E; [discriminate|].
  rewrite move_step in E. destruct (hstep p disp) as [h ax] eqn:Eh. cbv zeta in E.
  set (s := sstep disp h) in *.
  pose proof (streak_identity sy sz phi q (pi p) (pd p) s) as SI.
  assert (FL : flows sy sz phi (log ++ [(pi p, jstep q (pd p) s)]) =
               flows sy sz phi log + flow sy sz phi (pi p, jstep q (pd p) s)).
  { rewrite flows_app. unfold flows at 2. cbn [map sumR fold_right]. ring. }
  destruct ax as [a|].
  2:{ apply mdone_inj in E; destruct E as (<- & <- & <- & <-). cbn [voxel_of pi pd]. rewrite FL, SI. ring. }
  pose proof (step_on_face _ _ _ _ Eh) as F.
  assert (FV : vset (dstep (pd p) s) a (dirR (vget disp a)) = dstep (pd p) s) by (apply vset_same, F).
  rewrite FV in E.
  destruct (negb (int_ok (6 * pi p))); [discriminate|].
  destruct (nbr_at g (pi p) (face_of a (dirR (vget disp a)))) as [n|] eqn:EN; [|discriminate].
  destruct (n =? reflect_particles)%Z eqn:ER.
  - apply IH in E. rewrite E. cbn [pi pd]. rewrite FL, SI. ring.
  - destruct ((n <? mrangel g) || (mrangeh g <? n))%Z eqn:EB.
    + destruct (negb (int_ok (8 * pi p)) || negb (int_ok (8 * pi p + _)%Z)); [discriminate|].
      apply mdone_inj in E; destruct E as (<- & <- & <- & <-). cbn [voxel_of pi pd].
      pose proof (face_of_range a (dirR (vget disp a))).
      replace ((8 * pi p + face_of a (dirR (vget disp a))) / 8)%Z with (pi p)
        by (rewrite Z.mul_comm, Z.div_add_l by lia; rewrite (Z.div_small _ 8) by lia; lia).
      rewrite FL, SI. ring.
    + apply IH in E. rewrite E. cbn [pi pd]. rewrite FL.
      replace (- dirR (vget disp a)) with (- vget (dstep (pd p) s) a) by (unfold s; rewrite F; reflexivity).
      rewrite charge_glue with (v := pi p) (up := Rltb 0 (dirR (vget disp a))).
      * rewrite SI. ring.
      * unfold s. rewrite F. apply dirR_up.
      * intros b1 b2.
        pose proof (G (pi p) (face_of a (dirR (vget disp a))) (n - mrangel g)%Z (face_of_range _ _)) as GG.
        rewrite face_of_axis, face_of_high in GG. apply GG.
        exists n. split; [exact EN|]. split; [lia|]. split; [lia|reflexivity].
Qed.
