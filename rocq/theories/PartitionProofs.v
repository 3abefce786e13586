From Coq Require Import ZArith List Bool Lia ZifyBool Permutation.
From Verif Require Import SortModel SortProofs VoxelModel VoxelProofs GridModel GridProofs.
Import ListNotations.
Open Scope Z_scope.
Ltac Zify.zify_post_hook ::= idtac.

Lemma tag_cases tag : 0 <= tag < 6 -> tag mod 3 = 0 /\ (tag = 0 \/ tag = 3) \/ tag mod 3 = 1 /\ (tag = 1 \/ tag = 4) \/ tag mod 3 = 2 /\ (tag = 2 \/ tag = 5).
Proof. intros H. six_cases tag H; vm_compute; intuition. Qed.

Lemma remote_dims_same n tag : pos3 n -> 0 <= tag < 6 ->
  (let '(_, lY, lZ) := cyc (tag mod 3) n in Z.rem (nv3 n) ((lY + 2) * (lZ + 2)) = 0) /\ remote_dims n tag (nv3 n) = n.
Proof.
  destruct n as [[nx ny] nz]. intros (H1 & H2 & H3) Ht. unfold remote_dims.
  assert (D : forall a b, 0 < b -> Z.rem (a * b) b = 0 /\ Z.quot (a * b) b = a).
  { intros a b Hb. split; [apply Z.rem_mul; lia|apply Z.quot_mul; lia]. }
  destruct (tag_cases tag Ht) as [(-> & _)|[(-> & _)|(-> & _)]]; unfold cyc, uncyc.
  - replace (nv3 (nx, ny, nz)) with ((nx + 2) * ((ny + 2) * (nz + 2))) by (cbn; unfold nv_of; ring).
    destruct (D (nx + 2) ((ny + 2) * (nz + 2)) ltac:(nia)) as (-> & ->). split; [reflexivity|]. do 2 f_equal. lia.
  - replace (nv3 (nx, ny, nz)) with ((ny + 2) * ((nz + 2) * (nx + 2))) by (cbn; unfold nv_of; ring).
    destruct (D (ny + 2) ((nz + 2) * (nx + 2)) ltac:(nia)) as (-> & ->). split; [reflexivity|]. do 2 f_equal. lia.
  - replace (nv3 (nx, ny, nz)) with ((nz + 2) * ((nx + 2) * (ny + 2))) by (cbn; unfold nv_of; ring).
    destruct (D (nz + 2) ((nx + 2) * (ny + 2)) ltac:(nia)) as (-> & ->). split; [reflexivity|]. f_equal. lia.
Qed.

Lemma join_same g tag rank : pos3 (dims g) -> 0 <= tag < 6 -> 0 <= rank < g_size g ->
  rangez g (rank + 1) - rangez g rank = nv3 (dims g) ->
  exists g', join_grid g (face_code tag) rank = Ok g' /\ same_shape g g' /\
     (forall b, g_bc g' b = if b =? face_code tag then rank else g_bc g b) /\
     (forall c f, in3 (dims g) c -> 0 <= f < 6 -> g_nbr g' (6 * vox3 (dims g) c + f) =
        if on_face (dims g) tag c && (f =? tag)
        then Some (rangez g rank + vox3 (dims g) (across (dims g) (dims g) tag c))
        else g_nbr g (6 * vox3 (dims g) c + f)).
Proof.
  intros HP Ht Hr HN. pose proof (join_spec g tag rank HP Ht Hr) as J. cbv zeta in J. rewrite HN in J.
  destruct (remote_dims_same (dims g) tag HP Ht) as (R1 & R2). rewrite R2 in J.
  destruct (cyc (tag mod 3) (dims g)) as [[lX lY] lZ]. destruct J as (_ & J). destruct (J R1) as (g' & E & S & B & N & _).
  exists g'. auto.
Qed.

(* ---- ranks and domain coordinates ---- *)
Definition rank3 (gp c : Z * Z * Z) : Z := let '(gpx, gpy, _) := gp in let '(x, y, z) := c in x + gpx * (y + gpy * z).
Definition below (gp c : Z * Z * Z) : Prop :=
  let '(gpx, gpy, gpz) := gp in let '(x, y, z) := c in 0 <= x < gpx /\ 0 <= y < gpy /\ 0 <= z < gpz.
Definition prod3 (gp : Z * Z * Z) : Z := let '(gpx, gpy, gpz) := gp in gpx * gpy * gpz.

Lemma rank3_range gp c : below gp c -> 0 <= rank3 gp c < prod3 gp.
Proof. destruct gp as [[gpx gpy] gpz], c as [[x y] z]. cbn. intros (Hx & Hy & Hz).
  assert (0 <= y + gpy * z <= gpy * gpz - 1) by nia. assert (gpx * (y + gpy * z) <= gpx * (gpy * gpz - 1)) by nia. nia.
Qed.
Lemma rank_to_index_spec gpx gpy gpz c : below (gpx, gpy, gpz) c -> rank_to_index gpx gpy (rank3 (gpx, gpy, gpz) c) = c.
Proof.
  destruct c as [[x y] z]. cbn. intros (Hx & Hy & Hz). unfold rank_to_index. cbv zeta.
  assert (Ha : 0 <= gpy * z) by nia. assert (Hb : 0 <= gpx * (y + gpy * z)) by nia.
  assert (E1 : Z.quot (x + gpx * (y + gpy * z)) gpx = y + gpy * z).
  { rewrite Z.quot_div_nonneg by lia. symmetry. apply (Z.div_unique _ _ _ x); [left; lia|ring]. }
  rewrite E1. assert (E2 : Z.quot (y + gpy * z) gpy = z).
  { rewrite Z.quot_div_nonneg by lia. symmetry. apply (Z.div_unique _ _ _ y); [left; lia|ring]. }
  rewrite E2. replace (x + gpx * (y + gpy * z) - (y + gpy * z) * gpx) with x by ring. replace (y + gpy * z - z * gpy) with y by ring. reflexivity.
Qed.
Lemma rank_to_index_onto gpx gpy gpz r : 1 <= gpx -> 1 <= gpy -> 1 <= gpz -> 0 <= r < gpx * gpy * gpz ->
  below (gpx, gpy, gpz) (rank_to_index gpx gpy r) /\ rank3 (gpx, gpy, gpz) (rank_to_index gpx gpy r) = r.
Proof.
  intros H1 H2 H3 Hr. unfold rank_to_index. cbv zeta.
  rewrite (Z.quot_div_nonneg r gpx) by lia. rewrite (Z.quot_div_nonneg (r / gpx) gpy) by (try apply Z.div_pos; lia).
  pose proof (Z.div_mod r gpx ltac:(lia)). pose proof (Z.mod_pos_bound r gpx ltac:(lia)).
  pose proof (Z.div_mod (r / gpx) gpy ltac:(lia)). pose proof (Z.mod_pos_bound (r / gpx) gpy ltac:(lia)).
  set (a := r / gpx) in *. set (b := a / gpy) in *.
  assert (0 <= a) by (apply Z.div_pos; lia). assert (0 <= b) by (apply Z.div_pos; lia).
  assert (a < gpy * gpz) by (apply Z.div_lt_upper_bound; lia). assert (b < gpz) by (apply Z.div_lt_upper_bound; lia).
  cbn. split; [lia|]. replace (a - b * gpy) with (a mod gpy) by lia. lia.
Qed.

Lemma wrap_down_spec gp : 1 <= gp -> forall fuel i, (Z.to_nat i < fuel)%nat -> 0 <= i -> wrap_down fuel gp i = i mod gp.
Proof.
  intros Hg. induction fuel as [|k IH]; intros i Hf Hi; [lia|]. cbn [wrap_down]. destruct (Z.leb_spec gp i).
  - rewrite IH by lia. rewrite <- (Z.mod_add (i - gp) 1 gp) by lia. f_equal. ring.
  - symmetry. apply Z.mod_small. lia.
Qed.
Lemma wrap_down_neg gp i : i < gp -> forall fuel, wrap_down fuel gp i = i.
Proof. intros H [|k]; [reflexivity|]. cbn [wrap_down]. replace (gp <=? i) with false by lia. reflexivity. Qed.
Lemma wrap_up_spec gp : 1 <= gp -> forall fuel i, (Z.to_nat (- i) < fuel)%nat -> i < gp -> wrap_up fuel gp i = i mod gp.
Proof.
  intros Hg. induction fuel as [|k IH]; intros i Hf Hi; [lia|]. cbn [wrap_up]. destruct (Z.ltb_spec i 0).
  - rewrite IH by lia. rewrite <- (Z.mod_add i 1 gp) by lia. f_equal. ring.
  - symmetry. apply Z.mod_small. lia.
Qed.
Lemma wrap_spec gp i : 1 <= gp -> wrap gp i = i mod gp.
Proof.
  intros Hg. unfold wrap. destruct (Z.le_gt_cases 0 i) as [H|H].
  - rewrite wrap_down_spec by lia. pose proof (Z.mod_pos_bound i gp ltac:(lia)).
    rewrite wrap_up_spec by lia. apply Z.mod_mod. lia.
  - rewrite wrap_down_neg by lia. apply wrap_up_spec; lia.
Qed.

Definition mod3 (gp c : Z * Z * Z) : Z * Z * Z :=
  let '(gpx, gpy, gpz) := gp in let '(x, y, z) := c in (x mod gpx, y mod gpy, z mod gpz).
Lemma index_to_rank_spec gpx gpy gpz c : 1 <= gpx -> 1 <= gpy -> 1 <= gpz ->
  index_to_rank gpx gpy gpz c = rank3 (gpx, gpy, gpz) (mod3 (gpx, gpy, gpz) c) /\
  below (gpx, gpy, gpz) (mod3 (gpx, gpy, gpz) c).
Proof.
  intros H1 H2 H3. destruct c as [[x y] z]. cbn [index_to_rank rank3 mod3 below]. rewrite !wrap_spec by assumption. split; [reflexivity|].
  pose proof (Z.mod_pos_bound x gpx ltac:(lia)). pose proof (Z.mod_pos_bound y gpy ltac:(lia)).
  pose proof (Z.mod_pos_bound z gpz ltac:(lia)). lia.
Qed.

(* ---- partition_periodic ---- *)
Definition torus_entry (gp n p : Z * Z * Z) (f : Z) (c : Z * Z * Z) : Z :=
  if interior n (step f c) then rank3 gp p * nv3 n + vox3 n (step f c)
  else rank3 gp (mod3 gp (step f p)) * nv3 n + vox3 n (across n n f c).

Definition torus_grid (gp n : Z * Z * Z) (p : Z * Z * Z) (g : grid) : Prop :=
  g_rank g = rank3 gp p /\ g_size g = prod3 gp /\ dims g = n /\
  (forall r, 0 <= r <= prod3 gp -> rangez g r = r * nv3 n) /\
  (forall f, 0 <= f < 6 -> g_bc g (face_code f) = rank3 gp (mod3 gp (step f p))) /\
  (forall c f, interior n c = true -> 0 <= f < 6 -> g_nbr g (6 * vox3 n c + f) = Some (torus_entry gp n p f c)) /\
  (forall c f, in3 n c -> interior n c = false -> 0 <= f < 6 -> g_nbr g (6 * vox3 n c + f) = Some (-1)).

Lemma ghost_off_face n f c : pos3 n -> interior n c = false -> on_face n f c = false.
Proof. intros HP H. destruct (on_face n f c) eqn:E; [|reflexivity]. rewrite (on_face_interior n f c HP E) in H. discriminate. Qed.
Lemma face_code_inj a b : 0 <= a < 6 -> 0 <= b < 6 -> (face_code a =? face_code b) = (a =? b).
Proof. intros Ha Hb. six_cases a Ha; six_cases b Hb; reflexivity. Qed.

Lemma partition_periodic_spec gnx gny gnz gpx gpy gpz lx ly lz p :
  1 <= gpx -> 1 <= gpy -> 1 <= gpz -> 1 <= lx -> 1 <= ly -> 1 <= lz ->
  gnx = lx * gpx -> gny = ly * gpy -> gnz = lz * gpz -> 6 * nv_of lx ly lz <= 2147483647 ->
  below (gpx, gpy, gpz) p ->
  exists g, partition_periodic (rank3 (gpx, gpy, gpz) p) (gpx * gpy * gpz)
       (repeat (nv_of lx ly lz) (Z.to_nat (gpx * gpy * gpz))) gnx gny gnz gpx gpy gpz = Ok g /\
     torus_grid (gpx, gpy, gpz) (lx, ly, lz) p g.
Proof.
  intros P1 P2 P3 L1 L2 L3 -> -> -> HN Hp. set (gp := (gpx, gpy, gpz)). set (n := (lx, ly, lz)). set (nv := nv_of lx ly lz).
  unfold partition_periodic. assert (Q1 : 1 <= lx * gpx) by nia. assert (Q2 : 1 <= ly * gpy) by nia. assert (Q3 : 1 <= lz * gpz) by nia.
  replace ((gpx <? 1) || (gpy <? 1) || (gpz <? 1) || negb (gpx * gpy * gpz =? gpx * gpy * gpz)) with false by lia.
  rewrite !Z.rem_mul, !Z.quot_mul by lia.
  replace ((lx * gpx <? 1) || (ly * gpy <? 1) || (lz * gpz <? 1) || negb (0 =? 0) || negb (0 =? 0) || negb (0 =? 0)) with false by lia.
  unfold gp. rewrite rank_to_index_spec by exact Hp. fold gp.
  destruct (size_grid_spec (rank3 gp p) (gpx * gpy * gpz) (repeat nv (Z.to_nat (gpx * gpy * gpz))) lx ly lz L1 L2 L3 HN) as (t0 & E0 & T0).
  set (rg := offsets 0 (repeat nv (Z.to_nat (gpx * gpy * gpz)) ++ [0])) in *.
  set (g0 := mk_grid _ _ _ _ _ _ _ t0) in E0. fold nv in E0. rewrite E0. cbn [bind].
  assert (HPn : pos3 n) by (cbn; lia).
  assert (RG : forall r, 0 <= r <= gpx * gpy * gpz -> rangez g0 r = r * nv).
  { intros r Hr. unfold rangez, g0. cbn [g_range]. unfold rg. rewrite offsets_repeat_all by lia. rewrite Z2Nat.id by lia. reflexivity. }
  assert (I2R : forall f, 0 <= f < 6 -> index_to_rank gpx gpy gpz (step f p) = rank3 gp (mod3 gp (step f p)) /\ 0 <= rank3 gp (mod3 gp (step f p)) < gpx * gpy * gpz).
  { intros f Hf. destruct (index_to_rank_spec gpx gpy gpz (step f p) P1 P2 P3) as (A & B). split; [exact A|]. apply (rank3_range gp), B. }
  assert (J : forall g f, same_shape g0 g -> 0 <= f < 6 -> exists g', join_grid g (face_code f) (index_to_rank gpx gpy gpz (step f p)) = Ok g' /\
     same_shape g0 g' /\ (forall b, g_bc g' b = if b =? face_code f then rank3 gp (mod3 gp (step f p)) else g_bc g b) /\
     (forall c k, in3 n c -> 0 <= k < 6 -> g_nbr g' (6 * vox3 n c + k) =
        if on_face n f c && (k =? f) then Some (rank3 gp (mod3 gp (step f p)) * nv + vox3 n (across n n f c))
        else g_nbr g (6 * vox3 n c + k))).
  { intros g f S Hf. destruct (I2R f Hf) as (-> & B). destruct S as (S1 & S2 & S3 & S4).
    assert (RG' : forall r, 0 <= r <= gpx * gpy * gpz -> rangez g r = r * nv).
    { intros r Hr. rewrite <- RG by exact Hr. unfold rangez. rewrite S4. reflexivity. }
    change (dims g0) with n in S3. destruct (join_same g f (rank3 gp (mod3 gp (step f p)))) as (g' & E & Sh & Bc & Nb).
    - rewrite S3. exact HPn.
    - exact Hf.
    - rewrite S2. exact B.
    - rewrite S3, !RG' by lia. change (nv3 n) with nv. ring.
    - rewrite S3 in *. exists g'. split; [exact E|]. split; [|split; [exact Bc|]].
      + eapply same_shape_trans; [|exact Sh]. repeat split; assumption.
      + intros c k Hc Hk. rewrite Nb by assumption. rewrite RG' by lia. reflexivity. }
  destruct p as [[px py] pz].
  destruct (J g0 0 (same_shape_refl _) ltac:(lia)) as (g1 & E1 & S1 & B1 & N1).
  destruct (J g1 1 S1 ltac:(lia)) as (g2 & E2 & S2 & B2 & N2).
  destruct (J g2 2 S2 ltac:(lia)) as (g3 & E3 & S3 & B3 & N3).
  destruct (J g3 3 S3 ltac:(lia)) as (g4 & E4 & S4 & B4 & N4).
  destruct (J g4 4 S4 ltac:(lia)) as (g5 & E5 & S5 & B5 & N5).
  destruct (J g5 5 S5 ltac:(lia)) as (g6 & E6 & S6 & B6 & N6).
  change (bcode (-1) 0 0) with (face_code 0). change (bcode 0 (-1) 0) with (face_code 1). change (bcode 0 0 (-1)) with (face_code 2).
  change (bcode 1 0 0) with (face_code 3). change (bcode 0 1 0) with (face_code 4). change (bcode 0 0 1) with (face_code 5).
  unfold step in E1, E2, E3, E4, E5, E6.
  rewrite E1. cbn [bind]. rewrite E2. cbn [bind]. rewrite E3. cbn [bind]. rewrite E4. cbn [bind]. rewrite E5. cbn [bind]. rewrite E6.
  exists g6. split; [reflexivity|]. destruct S6 as (S61 & S62 & S63 & S64).
  split; [exact S61|]. split; [exact S62|]. split; [exact S63|]. split; [|split; [|split]].
  - intros r Hr. change (nv3 n) with nv. rewrite <- (RG r Hr). unfold rangez. rewrite S64. reflexivity.
  - intros f Hf. rewrite B6, B5, B4, B3, B2, B1. six_cases f Hf; reflexivity.
  - intros c f Hc Hf. pose proof (interior_in _ _ Hc) as Hin. rewrite N6, N5, N4, N3, N2, N1 by (assumption || lia).
    assert (G0 : g_nbr g0 (6 * vox3 n c + f) = Some (if interior n (step f c) then rank3 gp (px, py, pz) * nv + vox3 n (step f c) else -1)).
    { cbn [g0 g_nbr]. rewrite T0 by assumption. unfold size_entry. fold n. rewrite Hc. cbn [andb].
      pose proof (rank3_range gp (px, py, pz) Hp) as HR. unfold prod3, gp in HR. fold gp in HR.
      unfold rg. rewrite offsets_repeat_all by lia. rewrite Z2Nat.id by lia. reflexivity. }
    rewrite G0. unfold torus_entry. rewrite <- (negb_involutive (interior n (step f c))).
    rewrite <- (on_face_step n f c HPn Hf Hc). change (nv3 n) with nv.
    six_cases f Hf; cbn [Z.eqb Pos.eqb]; rewrite ?andb_false_r, ?andb_true_r;
    match goal with |- context [on_face n ?k c] => destruct (on_face n k c) end; reflexivity.
  - intros c f Hin Hc Hf. rewrite N6, N5, N4, N3, N2, N1 by (assumption || lia).
    rewrite !(ghost_off_face n _ c HPn Hc). cbn [andb g0 g_nbr]. rewrite T0 by assumption. unfold size_entry. fold n. rewrite Hc. reflexivity.
Qed.

(* ---- global cells ---- *)
Definition mul3 (a b : Z * Z * Z) : Z * Z * Z :=
  let '(ax, ay, az) := a in let '(bx, bY, bz) := b in (ax * bx, ay * bY, az * bz).
Definition dom3 (n G : Z * Z * Z) : Z * Z * Z :=
  let '(nx, ny, nz) := n in let '(X, Y, W) := G in (X / nx, Y / ny, W / nz).
Definition loc3 (n G : Z * Z * Z) : Z * Z * Z :=
  let '(nx, ny, nz) := n in let '(X, Y, W) := G in (X mod nx + 1, Y mod ny + 1, W mod nz + 1).
Definition gid (gp n G : Z * Z * Z) : Z := rank3 gp (dom3 n G) * nv3 n + vox3 n (loc3 n G).

Lemma down1 l g X : 1 <= l -> 1 <= g -> 0 <= X < l * g ->
  let X' := (X - 1) mod (l * g) in
  (2 <= X mod l + 1 -> X' / l = X / l /\ X' mod l + 1 = X mod l + 1 - 1) /\
  (X mod l + 1 <= 1 -> X' / l = (X / l - 1) mod g /\ X' mod l + 1 = l).
Proof.
  intros Hl Hg HX X'. subst X'. pose proof (Z.div_mod X l ltac:(lia)) as D. pose proof (Z.mod_pos_bound X l ltac:(lia)) as B.
  set (q := X / l) in *. set (m := X mod l) in *. clearbody q m.
  assert (Hq : 0 <= q < g) by nia. split; intros Hm.
  - assert (0 <= l * q) by nia. rewrite (Z.mod_small (X - 1)) by lia.
    assert (q = (X - 1) / l) by (apply (Z.div_unique _ _ _ (m - 1)); [left; lia|lia]).
    assert (m - 1 = (X - 1) mod l) by (apply (Z.mod_unique _ _ q); [left; lia|lia]). lia.
  - assert (m = 0) by lia. destruct (Z.eq_dec q 0) as [E|E].
    + assert (X = 0) by (rewrite D, E; lia). rewrite H0, E. change (0 - 1) with (-1).
      assert (E1 : l * g - 1 = (-1) mod (l * g)) by (apply (Z.mod_unique _ _ (-1)); [left; nia|lia]).
      assert (E2 : g - 1 = (-1) mod g) by (apply (Z.mod_unique _ _ (-1)); [left; lia|lia]).
      rewrite <- E1, <- E2. split.
      * symmetry. apply (Z.div_unique _ _ _ (l - 1)); [left; lia|ring].
      * assert (l - 1 = (l * g - 1) mod l) by (apply (Z.mod_unique _ _ (g - 1)); [left; lia|ring]). lia.
    + rewrite (Z.mod_small (q - 1)) by lia. assert (1 <= l * q) by nia. rewrite (Z.mod_small (X - 1)) by lia. split.
      * symmetry. apply (Z.div_unique _ _ _ (l - 1)); [left; lia|lia].
      * assert (l - 1 = (X - 1) mod l) by (apply (Z.mod_unique _ _ (q - 1)); [left; lia|lia]). lia.
Qed.
Lemma up1 l g X : 1 <= l -> 1 <= g -> 0 <= X < l * g ->
  let X' := (X + 1) mod (l * g) in
  (X mod l + 1 < l -> X' / l = X / l /\ X' mod l + 1 = X mod l + 1 + 1) /\
  (l <= X mod l + 1 -> X' / l = (X / l + 1) mod g /\ X' mod l + 1 = 1).
Proof.
  intros Hl Hg HX X'. subst X'. pose proof (Z.div_mod X l ltac:(lia)) as D. pose proof (Z.mod_pos_bound X l ltac:(lia)) as B.
  set (q := X / l) in *. set (m := X mod l) in *. clearbody q m.
  assert (Hq : 0 <= q < g) by nia. assert (l * q <= l * g - l) by nia. split; intros Hm.
  - rewrite (Z.mod_small (X + 1)) by lia.
    assert (q = (X + 1) / l) by (apply (Z.div_unique _ _ _ (m + 1)); [left; lia|lia]).
    assert (m + 1 = (X + 1) mod l) by (apply (Z.mod_unique _ _ q); [left; lia|lia]). lia.
  - assert (m = l - 1) by lia. destruct (Z.eq_dec q (g - 1)) as [E|E].
    + assert (X + 1 = l * g) by (rewrite D, E, H0; ring). rewrite H1, Z.mod_same by nia. rewrite E. replace (g - 1 + 1) with g by ring.
      rewrite Z.mod_same, Z.div_0_l, Z.mod_0_l by lia. lia.
    + rewrite (Z.mod_small (q + 1)) by lia. assert (l * q <= l * g - 2 * l) by nia. rewrite (Z.mod_small (X + 1)) by lia. split.
      * symmetry. apply (Z.div_unique _ _ _ 0); [left; lia|lia].
      * assert (0 = (X + 1) mod l) by (apply (Z.mod_unique _ _ (q + 1)); [left; lia|lia]). lia.
Qed.
Lemma same1 l g X : 1 <= l -> 0 <= X < l * g -> X mod (l * g) = X.
Proof. intros. apply Z.mod_small. lia. Qed.

Lemma loc3_interior n G : pos3 n -> interior n (loc3 n G) = true.
Proof.
  destruct n as [[lx ly] lz], G as [[X Y] W]. cbn. intros (H1 & H2 & H3).
  pose proof (Z.mod_pos_bound X lx ltac:(lia)). pose proof (Z.mod_pos_bound Y ly ltac:(lia)). pose proof (Z.mod_pos_bound W lz ltac:(lia)). lia.
Qed.
Lemma dom3_below n gp G : pos3 n -> below (mul3 n gp) G -> below gp (dom3 n G).
Proof.
  destruct n as [[lx ly] lz], gp as [[gpx gpy] gpz], G as [[X Y] W]. cbn. intros (H1 & H2 & H3) (B1 & B2 & B3).
  repeat split; try (apply Z.div_pos; lia); apply Z.div_lt_upper_bound; lia.
Qed.

Lemma torus_global gp n G f : pos3 n -> pos3 gp -> below (mul3 n gp) G -> 0 <= f < 6 ->
  torus_entry gp n (dom3 n G) f (loc3 n G) = gid gp n (mod3 (mul3 n gp) (step f G)).
Proof.
  intros Hn Hg HB Hf. pose proof (loc3_interior n G Hn) as HI.
  destruct n as [[lx ly] lz], gp as [[gpx gpy] gpz], G as [[X Y] W].
  cbn [pos3 mul3 below] in Hn, Hg, HB. destruct Hn as (H1 & H2 & H3), Hg as (G1 & G2 & G3), HB as (B1 & B2 & B3).
  pose proof (Z.mod_pos_bound (X / lx) gpx ltac:(lia)).
  assert (Dx : 0 <= X / lx < gpx) by (split; [apply Z.div_pos; lia|apply Z.div_lt_upper_bound; lia]).
  assert (Dy : 0 <= Y / ly < gpy) by (split; [apply Z.div_pos; lia|apply Z.div_lt_upper_bound; lia]).
  assert (Dz : 0 <= W / lz < gpz) by (split; [apply Z.div_pos; lia|apply Z.div_lt_upper_bound; lia]).
  unfold torus_entry, gid. cbn [interior loc3] in HI.
  six_cases f Hf; unfold step, loc3, dom3, mod3, mul3, across, tr1, tr2.
  - change (0 mod 3) with 0. cbn [cyc uncyc Z.ltb Z.compare]. rewrite (same1 ly gpy Y), (same1 lz gpz W) by lia.
    rewrite (Z.mod_small (Y / ly)), (Z.mod_small (W / lz)) by lia.
    destruct (down1 lx gpx X H1 G1 B1) as (A & B). unfold interior.
    destruct (Z.leb_spec 2 (X mod lx + 1)).
    + destruct (A ltac:(lia)) as (-> & ->). match goal with |- (if ?b then _ else _) = _ => replace b with true by lia end. reflexivity.
    + destruct (B ltac:(lia)) as (-> & ->). match goal with |- (if ?b then _ else _) = _ => replace b with false by lia end. reflexivity.
  - change (1 mod 3) with 1. cbn [cyc uncyc Z.ltb Z.compare Pos.compare Pos.compare_cont]. rewrite (same1 lx gpx X), (same1 lz gpz W) by lia.
    rewrite (Z.mod_small (X / lx)), (Z.mod_small (W / lz)) by lia.
    destruct (down1 ly gpy Y H2 G2 B2) as (A & B). unfold interior.
    destruct (Z.leb_spec 2 (Y mod ly + 1)).
    + destruct (A ltac:(lia)) as (-> & ->). match goal with |- (if ?b then _ else _) = _ => replace b with true by lia end. reflexivity.
    + destruct (B ltac:(lia)) as (-> & ->). match goal with |- (if ?b then _ else _) = _ => replace b with false by lia end. reflexivity.
  - change (2 mod 3) with 2. cbn [cyc uncyc Z.ltb Z.compare Pos.compare Pos.compare_cont]. rewrite (same1 lx gpx X), (same1 ly gpy Y) by lia.
    rewrite (Z.mod_small (X / lx)), (Z.mod_small (Y / ly)) by lia.
    destruct (down1 lz gpz W H3 G3 B3) as (A & B). unfold interior.
    destruct (Z.leb_spec 2 (W mod lz + 1)).
    + destruct (A ltac:(lia)) as (-> & ->). match goal with |- (if ?b then _ else _) = _ => replace b with true by lia end. reflexivity.
    + destruct (B ltac:(lia)) as (-> & ->). match goal with |- (if ?b then _ else _) = _ => replace b with false by lia end. reflexivity.
  - change (3 mod 3) with 0. cbn [cyc uncyc Z.ltb Z.compare Pos.compare Pos.compare_cont]. rewrite (same1 ly gpy Y), (same1 lz gpz W) by lia.
    rewrite (Z.mod_small (Y / ly)), (Z.mod_small (W / lz)) by lia.
    destruct (up1 lx gpx X H1 G1 B1) as (A & B). unfold interior.
    destruct (Z.ltb_spec (X mod lx + 1) lx).
    + destruct (A ltac:(lia)) as (-> & ->). match goal with |- (if ?b then _ else _) = _ => replace b with true by lia end. reflexivity.
    + destruct (B ltac:(lia)) as (-> & ->). match goal with |- (if ?b then _ else _) = _ => replace b with false by lia end. reflexivity.
  - change (4 mod 3) with 1. cbn [cyc uncyc Z.ltb Z.compare Pos.compare Pos.compare_cont]. rewrite (same1 lx gpx X), (same1 lz gpz W) by lia.
    rewrite (Z.mod_small (X / lx)), (Z.mod_small (W / lz)) by lia.
    destruct (up1 ly gpy Y H2 G2 B2) as (A & B). unfold interior.
    destruct (Z.ltb_spec (Y mod ly + 1) ly).
    + destruct (A ltac:(lia)) as (-> & ->). match goal with |- (if ?b then _ else _) = _ => replace b with true by lia end. reflexivity.
    + destruct (B ltac:(lia)) as (-> & ->). match goal with |- (if ?b then _ else _) = _ => replace b with false by lia end. reflexivity.
  - change (5 mod 3) with 2. cbn [cyc uncyc Z.ltb Z.compare Pos.compare Pos.compare_cont]. rewrite (same1 lx gpx X), (same1 ly gpy Y) by lia.
    rewrite (Z.mod_small (X / lx)), (Z.mod_small (Y / ly)) by lia.
    destruct (up1 lz gpz W H3 G3 B3) as (A & B). unfold interior.
    destruct (Z.ltb_spec (W mod lz + 1) lz).
    + destruct (A ltac:(lia)) as (-> & ->). match goal with |- (if ?b then _ else _) = _ => replace b with true by lia end. reflexivity.
    + destruct (B ltac:(lia)) as (-> & ->). match goal with |- (if ?b then _ else _) = _ => replace b with false by lia end. reflexivity.
Qed.

(* ---- walls ---- *)
Definition at_wall (gp gn p : Z * Z * Z) (f : Z) : bool :=
  let '(gX, _, _) := cyc (f mod 3) gp in let '(nX, _, _) := cyc (f mod 3) gn in let '(pX, _, _) := cyc (f mod 3) p in
  (pX =? (if f <? 3 then 0 else gX - 1)) && (1 <? nX).

Definition open_grid (gp gn n : Z * Z * Z) (fbc pbc : Z) (p : Z * Z * Z) (g : grid) : Prop :=
  g_rank g = rank3 gp p /\ g_size g = prod3 gp /\ dims g = n /\
  (forall r, 0 <= r <= prod3 gp -> rangez g r = r * nv3 n) /\
  (forall f, 0 <= f < 6 -> g_bc g (face_code f) = if at_wall gp gn p f then fbc else rank3 gp (mod3 gp (step f p))) /\
  (forall c f, interior n c = true -> 0 <= f < 6 -> g_nbr g (6 * vox3 n c + f) =
     Some (if at_wall gp gn p f && on_face n f c then pbc else torus_entry gp n p f c)) /\
  (forall c f, in3 n c -> interior n c = false -> 0 <= f < 6 -> g_nbr g (6 * vox3 n c + f) = Some (-1)).

Lemma wall_spec fbc pbc cond tag g : pos3 (dims g) -> 0 <= tag < 6 -> -4 <= fbc <= -1 -> pbc < 0 ->
  exists g', wall cond (face_code tag) fbc pbc g = Ok g' /\ same_shape g g' /\
    (forall b, g_bc g' b = if cond && (b =? face_code tag) then fbc else g_bc g b) /\
    (forall c f, in3 (dims g) c -> 0 <= f < 6 -> g_nbr g' (6 * vox3 (dims g) c + f) =
       if cond && on_face (dims g) tag c && (f =? tag) then Some pbc else g_nbr g (6 * vox3 (dims g) c + f)).
Proof.
  intros HP Ht Hf Hp. unfold wall. destruct cond; [|exists g; split; [reflexivity|split; [apply same_shape_refl|split; reflexivity]]].
  unfold set_fbc. pose proof (face_code_ok tag Ht) as HF. change (bcode 0 0 0) with 13.
  replace ((face_code tag <? 0) || (27 <=? face_code tag) || (face_code tag =? 13) ||
    negb ((fbc =? -1) || (fbc =? -2) || (fbc =? -3) || (fbc =? -4))) with false by lia. cbn [bind].
  destruct (pbc_spec (set_bc g (face_code tag) fbc) tag pbc HP Ht Hp) as (g' & E & S & B & N & _).
  exists g'. split; [exact E|]. split; [exact S|]. split; [intros b; rewrite B; reflexivity|]. exact N.
Qed.

Lemma partition_walls_spec fbc pbc gnx gny gnz gpx gpy gpz lx ly lz p :
  -4 <= fbc <= -1 -> pbc < 0 ->
  1 <= gpx -> 1 <= gpy -> 1 <= gpz -> 1 <= lx -> 1 <= ly -> 1 <= lz ->
  gnx = lx * gpx -> gny = ly * gpy -> gnz = lz * gpz -> 6 * nv_of lx ly lz <= 2147483647 ->
  below (gpx, gpy, gpz) p ->
  exists g, partition_walls fbc pbc (rank3 (gpx, gpy, gpz) p) (gpx * gpy * gpz)
       (repeat (nv_of lx ly lz) (Z.to_nat (gpx * gpy * gpz))) gnx gny gnz gpx gpy gpz = Ok g /\
     open_grid (gpx, gpy, gpz) (gnx, gny, gnz) (lx, ly, lz) fbc pbc p g.
Proof.
  intros Hf Hpb P1 P2 P3 L1 L2 L3 E1 E2 E3 HN Hp.
  destruct (partition_periodic_spec gnx gny gnz gpx gpy gpz lx ly lz p P1 P2 P3 L1 L2 L3 E1 E2 E3 HN Hp) as (g0 & E0 & T).
  unfold partition_walls. rewrite E0. cbn [bind]. rewrite rank_to_index_spec by exact Hp.
  set (gp := (gpx, gpy, gpz)) in *. set (n := (lx, ly, lz)) in *. destruct T as (T1 & T2 & T3 & T4 & T5 & T6 & T7).
  assert (HPn : pos3 n) by (cbn; lia).
  assert (J : forall g tag cond, same_shape g0 g -> 0 <= tag < 6 -> exists g', wall cond (face_code tag) fbc pbc g = Ok g' /\
     same_shape g0 g' /\ (forall b, g_bc g' b = if cond && (b =? face_code tag) then fbc else g_bc g b) /\
    (forall c f, in3 n c -> 0 <= f < 6 -> g_nbr g' (6 * vox3 n c + f) =
       if cond && on_face n tag c && (f =? tag) then Some pbc else g_nbr g (6 * vox3 n c + f))).
  { intros g tag cond S Ht. assert (D : dims g = n) by (destruct S as (_ & _ & S & _); congruence).
    destruct (wall_spec fbc pbc cond tag g) as (g' & E & S' & B & N); rewrite ?D in *; try assumption.
    exists g'. split; [exact E|]. split; [eapply same_shape_trans; eassumption|]. split; assumption. }
  destruct p as [[px py] pz].
  change (bcode (-1) 0 0) with (face_code 0). change (bcode 0 (-1) 0) with (face_code 1). change (bcode 0 0 (-1)) with (face_code 2).
  change (bcode 1 0 0) with (face_code 3). change (bcode 0 1 0) with (face_code 4). change (bcode 0 0 1) with (face_code 5).
  change ((px =? 0) && (1 <? gnx)) with (at_wall gp (gnx, gny, gnz) (px, py, pz) 0).
  change ((py =? 0) && (1 <? gny)) with (at_wall gp (gnx, gny, gnz) (px, py, pz) 1).
  change ((pz =? 0) && (1 <? gnz)) with (at_wall gp (gnx, gny, gnz) (px, py, pz) 2).
  change ((px =? gpx - 1) && (1 <? gnx)) with (at_wall gp (gnx, gny, gnz) (px, py, pz) 3).
  change ((py =? gpy - 1) && (1 <? gny)) with (at_wall gp (gnx, gny, gnz) (px, py, pz) 4).
  change ((pz =? gpz - 1) && (1 <? gnz)) with (at_wall gp (gnx, gny, gnz) (px, py, pz) 5).
  set (aw := at_wall gp (gnx, gny, gnz) (px, py, pz)).
  destruct (J g0 0 (aw 0) (same_shape_refl _) ltac:(lia)) as (g1 & A1 & S1 & B1 & N1). rewrite A1. cbn [bind].
  destruct (J g1 3 (aw 3) S1 ltac:(lia)) as (g2 & A2 & S2 & B2 & N2). rewrite A2. cbn [bind].
  destruct (J g2 1 (aw 1) S2 ltac:(lia)) as (g3 & A3 & S3 & B3 & N3). rewrite A3. cbn [bind].
  destruct (J g3 4 (aw 4) S3 ltac:(lia)) as (g4 & A4 & S4 & B4 & N4). rewrite A4. cbn [bind].
  destruct (J g4 2 (aw 2) S4 ltac:(lia)) as (g5 & A5 & S5 & B5 & N5). rewrite A5. cbn [bind].
  destruct (J g5 5 (aw 5) S5 ltac:(lia)) as (g6 & A6 & S6 & B6 & N6). rewrite A6.
  exists g6. split; [reflexivity|]. destruct S6 as (S61 & S62 & S63 & S64).
  split; [congruence|]. split; [congruence|]. split; [congruence|]. split; [|split; [|split]].
  - intros r Hr. rewrite <- (T4 r Hr). unfold rangez. rewrite S64. reflexivity.
  - intros f Hf'. rewrite B6, B5, B4, B3, B2, B1, T5 by exact Hf'. fold aw. rewrite !face_code_inj by (exact Hf' || lia).
    six_cases f Hf'; cbn [Z.eqb Pos.eqb]; rewrite ?andb_false_r, ?andb_true_r; reflexivity.
  - intros c f Hc Hf'. pose proof (interior_in _ _ Hc) as Hin. rewrite N6, N5, N4, N3, N2, N1, T6 by (assumption || lia). fold aw.
    six_cases f Hf'; cbn [Z.eqb Pos.eqb]; rewrite ?andb_false_r, ?andb_true_r;
    match goal with |- (if ?b then _ else _) = _ => destruct b end; reflexivity.
  - intros c f Hin Hc Hf'. rewrite N6, N5, N4, N3, N2, N1 by (assumption || lia).
    rewrite !(ghost_off_face n _ c HPn Hc), !andb_false_r. cbn [andb]. apply T7; assumption.
Qed.

Lemma torus_open gp n p g fbc pbc : torus_grid gp n p g -> open_grid gp (1, 1, 1) n fbc pbc p g.
Proof.
  intros (T1 & T2 & T3 & T4 & T5 & T6 & T7).
  assert (W : forall f, at_wall gp (1, 1, 1) p f = false).
  { intros f. unfold at_wall. destruct (cyc _ gp) as [[? ?] ?], (cyc _ p) as [[? ?] ?].
    unfold cyc. destruct (f mod 3) as [|[]|]; apply andb_false_r. }
  split; [exact T1|]. split; [exact T2|]. split; [exact T3|]. split; [exact T4|]. split; [|split; [|exact T7]].
  - intros f Hf. rewrite W. apply T5, Hf.
  - intros c f Hc Hf. rewrite W. apply T6; assumption.
Qed.

(* Crossing a face and coming back through the opposite face. *)
Definition opp3 (f : Z) : Z := (f + 3) mod 6.
Lemma mod3_back gp p f : pos3 gp -> below gp p -> 0 <= f < 6 -> mod3 gp (step (opp3 f) (mod3 gp (step f p))) = p.
Proof.
  destruct gp as [[gx gy] gz], p as [[x y] z]. cbn [pos3 below]. intros (H1 & H2 & H3) (B1 & B2 & B3) Hf.
  assert (S : forall a g, 0 <= a < g -> a mod g = a) by (intros; apply Z.mod_small; lia).
  assert (U : forall a g, 0 <= a < g -> ((a - 1) mod g + 1) mod g = a).
  { intros a g Ha. rewrite Zplus_mod_idemp_l. replace (a - 1 + 1) with a by ring. apply S, Ha. }
  assert (D : forall a g, 0 <= a < g -> ((a + 1) mod g - 1) mod g = a).
  { intros a g Ha. rewrite Zminus_mod_idemp_l. replace (a + 1 - 1) with a by ring. apply S, Ha. }
  six_cases f Hf; unfold opp3; match goal with |- context [step (?k mod 6)] => let v := eval vm_compute in (k mod 6) in change (k mod 6) with v end;
  cbn [step mod3]; rewrite ?Z.mod_mod by lia; rewrite ?U, ?D by assumption; rewrite ?S by assumption; reflexivity.
Qed.
Lemma at_wall_back gp gn p f : pos3 gp -> below gp p -> 0 <= f < 6 ->
  at_wall gp gn (mod3 gp (step f p)) (opp3 f) = at_wall gp gn p f.
Proof.
  destruct gp as [[gx gy] gz], p as [[x y] z], gn as [[nx ny] nz]. cbn [pos3 below]. intros (H1 & H2 & H3) (B1 & B2 & B3) Hf.
  assert (D : forall a g, 0 <= a < g -> ((a - 1) mod g =? g - 1) = (a =? 0)).
  { intros a g Ha. destruct (Z.eq_dec a 0) as [->|].
    - replace ((0 - 1) mod g) with (g - 1) by (apply (Z.mod_unique _ _ (-1)); [left; lia|lia]). lia.
    - rewrite Z.mod_small by lia. lia. }
  assert (U : forall a g, 0 <= a < g -> ((a + 1) mod g =? 0) = (a =? g - 1)).
  { intros a g Ha. destruct (Z.eq_dec a (g - 1)) as [->|].
    - replace (g - 1 + 1) with g by ring. rewrite Z.mod_same by lia. lia.
    - rewrite Z.mod_small by lia. lia. }
  six_cases f Hf; unfold opp3; match goal with |- context [at_wall _ _ _ (?k mod 6)] => let v := eval vm_compute in (k mod 6) in change (k mod 6) with v end;
  unfold at_wall; cbn [step mod3];
  repeat match goal with |- context [?k mod 3] => let v := eval vm_compute in (k mod 3) in change (k mod 3) with v end;
  cbn [cyc]; repeat match goal with |- context [?k <? 3] => let v := eval vm_compute in (k <? 3) in change (k <? 3) with v end; cbv iota;
  rewrite ?D, ?U by assumption; reflexivity.
Qed.
