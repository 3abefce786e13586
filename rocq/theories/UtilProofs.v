From Coq Require Import ZArith List Bool String Lia ZifyBool Permutation.
From Verif Require Import UtilModel.
Import ListNotations.
Open Scope Z_scope.

(* ---------- aligned allocation ---------- *)

Lemma pow2_test a : 0 <= a -> ((a =? 0) || negb (Z.land a (a - 1) =? 0) = false <-> exists k, 0 <= k /\ a = 2 ^ k).
Proof.
  intros Ha. split.
  - intros H. apply orb_false_iff in H. destruct H as [H0 H1].
    apply Z.eqb_neq in H0. apply negb_false_iff, Z.eqb_eq in H1.
    set (k := Z.log2 a). assert (Hk : 2 ^ k <= a < 2 ^ Z.succ k) by (apply Z.log2_spec; lia).
    exists k. split; [apply Z.log2_nonneg|].
    destruct (Z.eq_dec a (2 ^ k)) as [E|E]; [exact E|exfalso].
    assert (Hk0 : 0 <= k) by apply Z.log2_nonneg.
    assert (H2 : Z.testbit a k = true) by (apply Z.bit_log2; lia).
    assert (E3 : Z.log2 (a - 1) = k) by (apply Z.log2_unique; lia).
    assert (Hp : 0 < 2 ^ k) by (apply Z.pow_pos_nonneg; lia).
    assert (H3 : Z.testbit (a - 1) k = true) by (rewrite <- E3; apply Z.bit_log2; lia).
    assert (H4 : Z.testbit (Z.land a (a - 1)) k = true) by (rewrite Z.land_spec, H2, H3; reflexivity).
    rewrite H1, Z.bits_0 in H4. discriminate.
  - intros (k & Hk & ->). assert (0 < 2 ^ k) by (apply Z.pow_pos_nonneg; lia).
    apply orb_false_iff. split; [apply Z.eqb_neq; lia|]. apply negb_false_iff, Z.eqb_eq.
    rewrite Z.sub_1_r, <- Z.ones_equiv, Z.land_ones by lia. apply Z.mod_same. lia.
Qed.

(* x with its low k bits cleared, for a 64 bit mask. *)
Lemma mask_floor x k : 0 <= x < 2 ^ 64 -> 0 <= k < 64 ->
  Z.land x (wrap64 (Z.lnot (2 ^ k - 1))) = x - x mod 2 ^ k.
Proof.
  intros Hx Hk. assert (Hp : 0 < 2 ^ k) by (apply Z.pow_pos_nonneg; lia).
  unfold wrap64. rewrite <- Z.land_ones by lia. rewrite Z.sub_1_r, <- Z.ones_equiv.
  assert (E : Z.land x (Z.land (Z.lnot (Z.ones k)) (Z.ones 64)) = Z.ldiff x (Z.ones k)).
  { apply Z.bits_inj'. intros i Hi. rewrite !Z.land_spec, Z.ldiff_spec, Z.lnot_spec by lia.
    destruct (Z.ltb_spec i 64) as [L|L].
    - rewrite (Z.ones_spec_low 64) by lia. rewrite andb_true_r. reflexivity.
    - assert (Z.testbit x i = false) as ->; [|reflexivity].
      destruct (Z.eq_dec x 0) as [->|Hx0]; [apply Z.bits_0|].
      apply Z.bits_above_log2; [lia|]. apply Z.log2_lt_pow2; [lia|].
      apply Z.lt_le_trans with (2 ^ 64); [lia|]. apply Z.pow_le_mono_r; lia. }
  rewrite E. rewrite Z.ldiff_ones_r by lia. rewrite Z.shiftl_mul_pow2, Z.shiftr_div_pow2 by lia.
  pose proof (Z.div_mod x (2 ^ k)). lia.
Qed.

Lemma load_store m p v : 0 <= v < 2 ^ 64 -> load_ptr (store_ptr m p v) p = v.
Proof.
  intros Hv. unfold load_ptr, store_ptr.
  replace (p + 0) with p by lia.
  repeat match goal with |- context[(?a <=? ?b) && (?c <? ?d)] =>
    replace ((a <=? b) && (c <? d)) with true by (symmetry; apply andb_true_iff; split; [apply Z.leb_le|apply Z.ltb_lt]; lia) end.
  replace (p - p) with 0 by lia.
  replace (p + 1 - p) with 1 by lia. replace (p + 2 - p) with 2 by lia. replace (p + 3 - p) with 3 by lia.
  replace (p + 4 - p) with 4 by lia. replace (p + 5 - p) with 5 by lia. replace (p + 6 - p) with 6 by lia.
  replace (p + 7 - p) with 7 by lia.
  change (256 ^ 0) with 1. rewrite Z.div_1_r.
  assert (S : forall k, 0 <= k -> v / 256 ^ (k + 1) = v / 256 ^ k / 256).
  { intros k Hk. rewrite Z.pow_add_r by lia. rewrite Z.pow_1_r. rewrite Z.div_div; [reflexivity|lia|lia]. }
  pose proof (S 1 ltac:(lia)) as S1. pose proof (S 2 ltac:(lia)) as S2. pose proof (S 3 ltac:(lia)) as S3.
  pose proof (S 4 ltac:(lia)) as S4. pose proof (S 5 ltac:(lia)) as S5. pose proof (S 6 ltac:(lia)) as S6.
  cbn [Z.add Pos.add Pos.succ] in S1, S2, S3, S4, S5, S6. rewrite S6, S5, S4, S3, S2, S1.
  change (256 ^ 1) with 256. clear S S1 S2 S3 S4 S5 S6.
  change (2 ^ 64) with 18446744073709551616 in Hv.
  pose proof (Z.div_mod v 256 ltac:(lia)) as D0. set (v1 := v / 256) in *.
  pose proof (Z.div_mod v1 256 ltac:(lia)) as D1. set (v2 := v1 / 256) in *.
  pose proof (Z.div_mod v2 256 ltac:(lia)) as D2. set (v3 := v2 / 256) in *.
  pose proof (Z.div_mod v3 256 ltac:(lia)) as D3. set (v4 := v3 / 256) in *.
  pose proof (Z.div_mod v4 256 ltac:(lia)) as D4. set (v5 := v4 / 256) in *.
  pose proof (Z.div_mod v5 256 ltac:(lia)) as D5. set (v6 := v5 / 256) in *.
  pose proof (Z.div_mod v6 256 ltac:(lia)) as D6. set (v7 := v6 / 256) in *.
  assert (B : forall x, 0 <= x mod 256 < 256) by (intros; apply Z.mod_pos_bound; lia).
  pose proof (B v). pose proof (B v1). pose proof (B v2). pose proof (B v3). pose proof (B v4). pose proof (B v5).
  pose proof (B v6). rewrite (Z.mod_small v7) by lia. lia.
Qed.

Lemma load_ext m m' p : (forall q, p <= q < p + 8 -> m q = m' q) -> load_ptr m p = load_ptr m' p.
Proof. intros H. unfold load_ptr. rewrite !H by lia. reflexivity. Qed.

(* The mask is one less than a power of two not below 16 and not below a. *)
Lemma align_mask_pow k : 0 <= k -> exists j, k <= j /\ 4 <= j /\ align_mask (2 ^ k) = 2 ^ j - 1.
Proof.
  intros Hk. unfold align_mask. destruct (Z.ltb_spec (2 ^ k) 16) as [H|H].
  - exists 4. assert (k < 4). { apply (Z.pow_lt_mono_r_iff 2); lia. } repeat split; lia.
  - exists k. assert (4 <= k). { apply (Z.pow_le_mono_r_iff 2); lia. } repeat split; lia.
Qed.

Lemma aligned_ok n a u m :
  1 <= n -> (exists k, 0 <= k /\ a = 2 ^ k) -> n + align_mask a + 8 < 2 ^ 64 ->
  0 <= u -> u + raw_size n a <= 2 ^ 64 ->
  exists p m', malloc_aligned (Some u) n a m = AOk p m' /\
    p mod a = 0 /\ p mod 16 = 0 /\ u <= p - 8 /\ p + n <= u + raw_size n a /\
    (forall q, q < p - 8 \/ p <= q -> m' q = m q) /\
    (forall m'', (forall q, p - 8 <= q < p -> m'' q = m' q) -> free_aligned m'' p = u).
Proof.
  intros Hn Hpow Hsz Hu Hus. pose proof Hpow as (k & Hk & Ea).
  destruct (align_mask_pow k Hk) as (j & Hkj & Hj4 & Em). rewrite <- Ea in Em.
  assert (Hp : 0 < 2 ^ j) by (apply Z.pow_pos_nonneg; lia).
  assert (Hs : raw_size n a = n + align_mask a + 8).
  { unfold raw_size, wrap64. apply Z.mod_small. lia. }
  assert (Hj : j < 64).
  { apply (Z.pow_lt_mono_r_iff 2); lia. }
  assert (H16 : 16 <= 2 ^ j). { change 16 with (2 ^ 4). apply Z.pow_le_mono_r; lia. }
  unfold malloc_aligned. rewrite (proj2 (pow2_test a ltac:(subst a; apply Z.pow_nonneg; lia)) Hpow).
  replace (n =? 0) with false by lia.
  rewrite Em. set (x := u + (2 ^ j - 1) + 8).
  assert (Hx : 0 <= x < 2 ^ 64) by (unfold x; lia).
  replace (wrap64 x) with x by (symmetry; apply Z.mod_small; exact Hx).
  rewrite mask_floor by lia.
  pose proof (Z.mod_pos_bound x (2 ^ j) Hp) as Hm. set (p := x - x mod 2 ^ j) in *.
  assert (Hpm : p mod 2 ^ j = 0).
  { unfold p. rewrite Zminus_mod_idemp_r, Z.sub_diag. apply Z.mod_0_l. lia. }
  assert (Ex : x = u + (2 ^ j - 1) + 8) by reflexivity.
  assert (Ep : p = x - x mod 2 ^ j) by reflexivity. clearbody p. clearbody x.
  assert (B1 : u <= p - 8) by lia.
  assert (B2 : p <= u + 2 ^ j - 1 + 8) by lia.
  replace ((u <=? p - 8) && (p - 8 + 8 <=? u + raw_size n a)) with true by lia.
  exists p. eexists. split; [reflexivity|].
  assert (Hdiv : forall i, 0 <= i <= j -> p mod 2 ^ i = 0).
  { intros i Hi. assert (0 < 2 ^ i) by (apply Z.pow_pos_nonneg; lia).
    apply Z.mod_divide; [lia|]. apply Z.divide_trans with (2 ^ j).
    - exists (2 ^ (j - i)). rewrite <- Z.pow_add_r by lia. f_equal. lia.
    - apply Z.mod_divide; lia. }
  split; [subst a; apply Hdiv; lia|]. split; [change 16 with (2 ^ 4); apply Hdiv; lia|].
  split; [exact B1|]. split; [lia|]. split.
  - intros q Hq. unfold store_ptr. replace ((p - 8 <=? q) && (q <? p - 8 + 8)) with false by lia. reflexivity.
  - intros m'' Hm''. unfold free_aligned. rewrite (load_ext m'' (store_ptr m (p - 8) u)).
    + apply load_store. lia.
    + intros q Hq. apply Hm''. lia.
Qed.

Lemma aligned_error raw n a m : 0 <= a -> ~ (exists k, 0 <= k /\ a = 2 ^ k) -> malloc_aligned raw n a m = AError.
Proof.
  intros Ha H. unfold malloc_aligned. destruct ((a =? 0) || negb (Z.land a (a - 1) =? 0)) eqn:E; [reflexivity|].
  exfalso. apply H. apply pow2_test; assumption.
Qed.

(* ---------- command line ---------- *)

Lemma set_nth_some {A} n (x : A) l : (n < List.length l)%nat ->
  set_nth n x l = Some (firstn n l ++ x :: skipn (S n) l).
Proof.
  revert l; induction n as [|n IH]; intros [|y l] H; cbn in *; try lia; [reflexivity|].
  rewrite IH by lia. reflexivity.
Qed.

Section StripSpec.
Variable T : Type.
Variable convert : string -> T.
Variable key : string.

(* What remains of an argument list and the value of the option. *)
Fixpoint remaining (args : list string) : list string :=
  match args with
  | [] => []
  | a :: r => if String.eqb a key then match r with [] => [] | _ :: r' => remaining r' end else a :: remaining r
  end.
Fixpoint last_value (args : list string) (d : T) : T :=
  match args with
  | [] => d
  | a :: r => if String.eqb a key then match r with [] => d | v :: r' => last_value r' (convert v) end
              else last_value r d
  end.

Lemma strip_loop_ok k : forall todo done junk fuel argc val,
  (List.length todo <= k)%nat -> (k < fuel)%nat ->
  argc = (List.length done + List.length junk + List.length todo)%nat ->
  exists junk', strip_loop T convert key fuel argc (List.length done + List.length junk) (List.length done)
      (map Some done ++ junk ++ map Some todo ++ [None]) val =
    Some (List.length (done ++ remaining todo),
          map Some (done ++ remaining todo) ++ junk' ++ [None], last_value todo val) /\
    (List.length (done ++ remaining todo) + List.length junk' = argc)%nat.
Proof.
  induction k as [k IH] using lt_wf_ind. intros todo done junk fuel argc val Hk Hf Hargc.
  destruct fuel as [|fuel]; [lia|]. cbn [strip_loop].
  destruct todo as [|s todo].
  - cbn in Hargc. replace (argc <=? List.length done + List.length junk)%nat with true by (symmetry; apply Nat.leb_le; lia).
    cbn [remaining last_value map app]. rewrite !app_nil_r. exists junk. split; [reflexivity|lia].
  - cbn [List.length] in Hargc, Hk.
    replace (argc <=? List.length done + List.length junk)%nat with false by (symmetry; apply Nat.leb_gt; lia).
    assert (E : nth_error (map Some done ++ junk ++ map Some (s :: todo) ++ [None]) (List.length done + List.length junk) = Some (Some s)).
    { rewrite nth_error_app2 by (rewrite map_length; lia). rewrite map_length.
      rewrite nth_error_app2 by lia. replace (List.length done + List.length junk - List.length done - List.length junk)%nat with 0%nat by lia.
      reflexivity. }
    rewrite E. destruct (String.eqb s key) eqn:Es; cbn [negb].
    + cbn [remaining last_value]. rewrite Es. destruct todo as [|v todo].
      * cbn in Hargc. replace (argc <=? List.length done + List.length junk + 1)%nat with true by (symmetry; apply Nat.leb_le; lia).
        destruct fuel as [|fuel]; [cbn in Hk; lia|]. cbn [strip_loop].
        replace (argc <=? List.length done + List.length junk + 2)%nat with true by (symmetry; apply Nat.leb_le; lia).
        rewrite app_nil_r. exists (junk ++ [Some s]). split; [|rewrite app_length; cbn; lia].
        rewrite <- !app_assoc. reflexivity.
      * cbn [List.length] in Hargc, Hk.
        replace (argc <=? List.length done + List.length junk + 1)%nat with false by (symmetry; apply Nat.leb_gt; lia).
        assert (E2 : nth_error (map Some done ++ junk ++ map Some (s :: v :: todo) ++ [None]) (List.length done + List.length junk + 1) = Some (Some v)).
        { rewrite nth_error_app2 by (rewrite map_length; lia). rewrite map_length.
          rewrite nth_error_app2 by lia. replace (List.length done + List.length junk + 1 - List.length done - List.length junk)%nat with 1%nat by lia.
          reflexivity. }
        rewrite E2.
        destruct (IH (List.length todo) ltac:(lia) todo done (junk ++ [Some s; Some v]) fuel argc (convert v)) as (j & Hj & Hl);
          [lia|lia|rewrite app_length; cbn; lia|].
        exists j. split; [|exact Hl].
        rewrite <- Hj. f_equal; [rewrite app_length; cbn; lia|]. rewrite <- !app_assoc. reflexivity.
    + cbn [remaining last_value]. rewrite Es.
      rewrite set_nth_some by (rewrite !app_length, !map_length; cbn; lia).
      assert (E3 : firstn (List.length done) (map Some done ++ junk ++ map Some (s :: todo) ++ [None]) = map Some done).
      { rewrite <- (map_length Some done) at 1. rewrite firstn_app, Nat.sub_diag, firstn_all. cbn. apply app_nil_r. }
      assert (E4 : exists junk', skipn (S (List.length done)) (map Some done ++ junk ++ map Some (s :: todo) ++ [None]) =
          junk' ++ map Some todo ++ [None] /\ List.length junk' = List.length junk).
      { rewrite skipn_app, map_length. rewrite skipn_all2 by (rewrite map_length; lia).
        replace (S (List.length done) - List.length done)%nat with 1%nat by lia. cbn [app].
        destruct junk as [|x junk]; cbn [app skipn map].
        - exists []. split; reflexivity.
        - exists (junk ++ [Some s]). split; [rewrite <- app_assoc; reflexivity|rewrite app_length; cbn; lia]. }
      destruct E4 as (junk' & E4 & L4). rewrite E3, E4.
      destruct (IH (List.length todo) ltac:(lia) todo (done ++ [s]) junk' fuel argc val) as (j & Hj & Hl);
        [lia|lia|rewrite app_length; cbn; lia|].
      exists j. rewrite <- app_assoc in Hj, Hl. cbn [app] in Hj, Hl. split; [|exact Hl].
      rewrite <- Hj. f_equal.
      * rewrite app_length; cbn; lia.
      * rewrite app_length; cbn; lia.
      * rewrite map_app, <- app_assoc. reflexivity.
Qed.

Lemma strip_ok args val :
  exists junk, strip_cmdline_val T convert key (List.length args) (map Some args ++ [None]) val =
    Some (List.length (remaining args), map Some (remaining args) ++ None :: junk, last_value args val) /\
    (List.length (remaining args) + List.length junk = List.length args)%nat.
Proof.
  unfold strip_cmdline_val.
  destruct (strip_loop_ok (List.length args) args [] [] (List.length args + 1) (List.length args) val) as (j & Hj & Hl); try (cbn; lia).
  cbn [app map List.length Nat.add] in Hj. rewrite Hj. cbn [app] in Hl.
  rewrite set_nth_some by (rewrite !app_length, map_length; cbn; lia).
  assert (E3 : firstn (List.length (remaining args)) (map Some (remaining args) ++ j ++ [None]) = map Some (remaining args)).
  { rewrite <- (map_length Some (remaining args)) at 1. rewrite firstn_app, Nat.sub_diag, firstn_all. cbn. apply app_nil_r. }
  rewrite E3. rewrite skipn_app, map_length, skipn_all2 by (rewrite map_length; lia).
  replace (S (List.length (remaining args)) - List.length (remaining args))%nat with 1%nat by lia. cbn [app].
  eexists. split; [reflexivity|]. rewrite skipn_length, app_length. cbn. lia.
Qed.

Lemma remaining_no_key_k k : forall args, (List.length args <= k)%nat -> ~ In key (remaining args).
Proof.
  induction k as [|k IH]; intros [|a [|v r]] H; cbn [remaining List.length] in *; try lia; try tauto.
  - destruct (String.eqb_spec a key); cbn; intuition.
  - destruct (String.eqb_spec a key) as [E|E]; [apply IH; lia|].
    intros [H0|H0]; [congruence|]. revert H0. apply (IH (v :: r)). cbn; lia.
Qed.
Lemma remaining_no_key args : ~ In key (remaining args).
Proof. apply (remaining_no_key_k (List.length args)). lia. Qed.

Lemma remaining_none args : ~ In key args -> remaining args = args /\ forall d, last_value args d = d.
Proof.
  induction args as [|a r IH]; cbn; [tauto|]. intros H.
  destruct (String.eqb_spec a key) as [E|E]; [exfalso; tauto|].
  destruct IH as [H1 H2]; [tauto|]. rewrite H1. auto.
Qed.

(* One option somewhere in the list. *)
Lemma remaining_one pre v post : ~ In key pre ->
  remaining (pre ++ key :: v :: post) = pre ++ remaining post /\
  forall d, last_value (pre ++ key :: v :: post) d = last_value post (convert v).
Proof.
  intros H. induction pre as [|a r IH]; cbn.
  - rewrite String.eqb_refl. auto.
  - destruct (String.eqb_spec a key) as [E|E]; [exfalso; apply H; left; exact E|].
    destruct IH as [H1 H2]; [intros H0; apply H; right; exact H0|]. rewrite H1. auto.
Qed.
Lemma remaining_last pre : ~ In key pre ->
  remaining (pre ++ [key]) = pre /\ forall d, last_value (pre ++ [key]) d = d.
Proof.
  intros H. induction pre as [|a r IH]; cbn.
  - rewrite String.eqb_refl. auto.
  - destruct (String.eqb_spec a key) as [E|E]; [exfalso; apply H; left; exact E|].
    destruct IH as [H1 H2]; [intros H0; apply H; right; exact H0|]. rewrite H1. auto.
Qed.
End StripSpec.

Lemma flag_loop_ok key todo : forall done junk val,
  exists junk', strip_flag_loop key (List.length todo) (List.length done + List.length junk) (List.length done)
      (map Some done ++ junk ++ map Some todo ++ [None]) val =
    Some (List.length (done ++ filter (fun s => negb (String.eqb s key)) todo),
          map Some (done ++ filter (fun s => negb (String.eqb s key)) todo) ++ junk' ++ [None],
          (val + List.length (filter (String.eqb key) todo))%nat) /\
    (List.length (done ++ filter (fun s => negb (String.eqb s key)) todo) + List.length junk' =
     List.length done + List.length junk + List.length todo)%nat.
Proof.
  induction todo as [|s todo IH]; intros done junk val.
  - cbn. rewrite !app_nil_r. exists junk. split; [f_equal; f_equal; lia|lia].
  - cbn [List.length strip_flag_loop].
    assert (E : nth_error (map Some done ++ junk ++ map Some (s :: todo) ++ [None]) (List.length done + List.length junk) = Some (Some s)).
    { rewrite nth_error_app2 by (rewrite map_length; lia). rewrite map_length.
      rewrite nth_error_app2 by lia. replace (List.length done + List.length junk - List.length done - List.length junk)%nat with 0%nat by lia.
      reflexivity. }
    rewrite E. cbn [filter]. rewrite (String.eqb_sym key s). destruct (String.eqb s key) eqn:Es; cbn [negb].
    + destruct (IH done (junk ++ [Some s]) (val + 1)%nat) as (j & Hj & Hl). exists j. split.
      * transitivity (strip_flag_loop key (List.length todo) (List.length done + List.length (junk ++ [Some s])) (List.length done)
           (map Some done ++ (junk ++ [Some s]) ++ map Some todo ++ [None]) (val + 1)).
        -- f_equal; [rewrite app_length; cbn; lia|]. rewrite <- app_assoc. reflexivity.
        -- rewrite Hj. do 2 f_equal. cbn [List.length]. lia.
      * rewrite Hl. rewrite app_length. cbn. lia.
    + rewrite set_nth_some by (rewrite !app_length, !map_length; cbn; lia).
      assert (E3 : firstn (List.length done) (map Some done ++ junk ++ map Some (s :: todo) ++ [None]) = map Some done).
      { rewrite <- (map_length Some done) at 1. rewrite firstn_app, Nat.sub_diag, firstn_all. cbn. apply app_nil_r. }
      assert (E4 : exists junk', skipn (S (List.length done)) (map Some done ++ junk ++ map Some (s :: todo) ++ [None]) =
          junk' ++ map Some todo ++ [None] /\ List.length junk' = List.length junk).
      { rewrite skipn_app, map_length. rewrite skipn_all2 by (rewrite map_length; lia).
        replace (S (List.length done) - List.length done)%nat with 1%nat by lia. cbn [app].
        destruct junk as [|x junk]; cbn [app skipn map].
        - exists []. split; reflexivity.
        - exists (junk ++ [Some s]). split; [rewrite <- app_assoc; reflexivity|rewrite app_length; cbn; lia]. }
      destruct E4 as (junk' & E4 & L4). rewrite E3, E4.
      destruct (IH (done ++ [s]) junk' val) as (j & Hj & Hl). exists j.
      rewrite <- app_assoc in Hj, Hl. cbn [app] in Hj, Hl. split.
      * rewrite <- Hj. f_equal.
        -- rewrite app_length; cbn; lia.
        -- rewrite app_length; cbn; lia.
        -- rewrite map_app, <- app_assoc. reflexivity.
      * rewrite Hl, app_length. cbn. lia.
Qed.

Lemma strip_flag_ok key args :
  let rest := filter (fun s => negb (String.eqb s key)) args in
  exists junk, strip_cmdline key (List.length args) (map Some args ++ [None]) =
    Some (List.length rest, map Some rest ++ None :: junk, List.length (filter (String.eqb key) args)) /\
    (List.length rest + List.length junk = List.length args)%nat.
Proof.
  intros rest. unfold strip_cmdline.
  destruct (flag_loop_ok key args [] [] 0) as (j & Hj & Hl).
  cbn [app map List.length Nat.add] in Hj, Hl. rewrite Hj. fold rest. fold rest in Hl.
  rewrite set_nth_some by (rewrite !app_length, map_length; cbn; lia).
  assert (E3 : firstn (List.length rest) (map Some rest ++ j ++ [None]) = map Some rest).
  { rewrite <- (map_length Some rest) at 1. rewrite firstn_app, Nat.sub_diag, firstn_all. cbn. apply app_nil_r. }
  rewrite E3. rewrite skipn_app, map_length, skipn_all2 by (rewrite map_length; lia).
  replace (S (List.length rest) - List.length rest)%nat with 1%nat by lia. cbn [app].
  eexists. split; [reflexivity|]. rewrite skipn_length, app_length. cbn. lia.
Qed.
