(* The vector move_p in binary32: the shift of the denominator and the length of a streak. *)
From Coq Require Import Reals Lra ZArith List Bool Lia.
From Flocq Require Import Core IEEE754.BinarySingleNaN.
From Verif Require Import FloatModel FloatProofs ConvProofs InjectProofs CollisionProofs VecFieldFloat ParticleModel VecPartModel VecPartSpec.
Import ListNotations.
Open Scope Z_scope.
Local Instance p32v : Prec_gt_0 24 := prec_gt_0_32.
Notation fexp32 := (FLT_exp (-149) 24).
Local Instance v32 : Valid_exp fexp32 := FLT_exp_valid (-149) 24.

Lemma RN32_half x : (bpow radix2 (-124) <= Rabs x)%R -> RN32 (x * / 2) = (RN32 x * / 2)%R.
Proof.
  intros H. unfold RN32, round, scaled_mantissa.
  assert (Nz : x <> 0%R). { intros ->. rewrite Rabs_R0 in H. pose proof (bpow_gt_0 radix2 (-124)). lra. }
  assert (E : cexp radix2 fexp32 (x * / 2) = cexp radix2 fexp32 x - 1).
  { unfold cexp. change (/ 2)%R with (bpow radix2 (-1)). rewrite mag_mult_bpow by exact Nz.
    assert (-124 < mag radix2 x) by (apply mag_gt_bpow; exact H). unfold FLT_exp. lia. }
  rewrite E. assert (S : (x * / 2 * bpow radix2 (- (cexp radix2 fexp32 x - 1)) = x * bpow radix2 (- cexp radix2 fexp32 x))%R).
  { replace (- (cexp radix2 fexp32 x - 1)) with (1 + - cexp radix2 fexp32 x) by ring. rewrite bpow_plus. change (bpow radix2 1) with 2%R. field. }
  rewrite S. unfold F2R. cbn [Defs.Fnum Defs.Fexp]. replace (bpow radix2 (cexp radix2 fexp32 x - 1)) with (bpow radix2 (cexp radix2 fexp32 x) * / 2)%R by (unfold Zminus; rewrite bpow_plus; reflexivity). symmetry. apply Rmult_assoc.
Qed.
Lemma RN32_twice a : F32 a -> RN32 (a + a) = (a + a)%R.
Proof.
  intros H. apply RN32_id. replace (a + a)%R with (a * bpow radix2 1)%R by (change (bpow radix2 1) with 2%R; ring).
  apply FLT_format_generic in H; [|exact p32v]. destruct H as [f E N X].
  apply generic_format_FLT. exists (Float radix2 (Defs.Fnum f) (Defs.Fexp f + 1)); cbn [Defs.Fnum Defs.Fexp]; [|exact N|lia].
  rewrite E. unfold F2R. cbn [Defs.Fnum Defs.Fexp]. rewrite bpow_plus. ring.
Qed.

Definition tiny32 : R := (8920298 * bpow radix2 (-146))%R.
Lemma f_tiny_ok : fin32 f_tiny tiny32 /\ Bsign f_tiny = false.
Proof.
  split; [split; [vm_compute; reflexivity|]|vm_compute; reflexivity].
  assert (E : B2SF f_tiny = SpecFloat.S754_finite false 8920298 (-146)) by (vm_compute; reflexivity).
  destruct f_tiny as [| | |s m e B]; try discriminate E. cbn [B2SF] in E. injection E as -> -> ->. unfold tiny32. cbn [B2R]. unfold F2R. reflexivity.
Qed.
Lemma tiny32_small : (0 < tiny32 < bpow radix2 (-122))%R.
Proof.
  unfold tiny32. replace (bpow radix2 (-122)) with (16777216 * bpow radix2 (-146))%R.
  - pose proof (bpow_gt_0 radix2 (-146)). split; [apply Rmult_lt_0_compat; lra|apply Rmult_lt_compat_r; lra].
  - replace (-122) with (24 + -146) by lia. rewrite bpow_plus. reflexivity.
Qed.

(* adding less than half a unit in the last place, away from zero *)
Lemma one_abs : Babs (f_of_Z 1) = f_of_Z 1.
Proof. apply B2SF_inj. vm_compute. reflexivity. Qed.
Lemma two_half : f_mul (n_two Fnum) (n_half Fnum) = n_one Fnum.
Proof. apply B2SF_inj. vm_compute. reflexivity. Qed.
Lemma absorb_pos u t : F32 u -> (bpow radix2 (-98) <= u)%R -> (0 <= t < bpow radix2 (-122))%R -> RN32 (u + t) = u.
Proof.
  intros Fu Hu Ht. pose proof (bpow_gt_0 radix2 (-98)) as Hb.
  assert (Hulp : (bpow radix2 (-121) <= ulp radix2 fexp32 u)%R).
  { rewrite ulp_neq_0 by lra. apply bpow_le. unfold cexp.
    assert (-98 < mag radix2 u) by (apply mag_gt_bpow; rewrite Rabs_pos_eq by lra; exact Hu). unfold FLT_exp. lia. }
  apply Rle_antisym.
  - unfold RN32. apply round_N_le_midp; [exact v32|exact Fu|]. rewrite succ_eq_pos by lra.
    replace (bpow radix2 (-121)) with (2 * bpow radix2 (-122))%R in Hulp by (replace (-121) with (1 + -122) by lia; rewrite bpow_plus; reflexivity). lra.
  - rewrite <- (RN32_id u Fu) at 1. apply RN32_le. lra.
Qed.
Lemma RN32_opp x : RN32 (- x) = (- RN32 x)%R.
Proof. unfold RN32. apply round_NE_opp. Qed.
Lemma F32_opp x : F32 x -> F32 (- x).
Proof. apply generic_format_opp. Qed.
Lemma Bsign_pos (x : b32) : (0 < B2R32 x)%R -> Bsign x = false.
Proof. destruct x as [s|s| |s m e B]; cbn [B2R Bsign]; try lra. destruct s; [|reflexivity]. intros H. exfalso. revert H. apply Rle_not_lt. unfold F2R. cbn [Defs.Fnum Defs.Fexp cond_Zopp].
  pose proof (bpow_gt_0 radix2 e). pose proof (IZR_lt (Z.neg m) 0 ltac:(lia)). cbn in *. nra. Qed.
Lemma Bsign_neg (x : b32) : (B2R32 x < 0)%R -> Bsign x = true.
Proof. destruct x as [s|s| |s m e B]; cbn [B2R Bsign]; try lra. destruct s; [reflexivity|]. intros H. exfalso. revert H. apply Rle_not_lt. unfold F2R. cbn [Defs.Fnum Defs.Fexp cond_Zopp].
  pose proof (bpow_gt_0 radix2 e). pose proof (IZR_lt 0 (Z.pos m) ltac:(lia)). cbn in *. nra. Qed.
Lemma fin32_opp x a : fin32 x a -> fin32 (Bopp x) (- a).
Proof. intros [F E]. split; [rewrite is_finite_Bopp; exact F|]. rewrite B2R_Bopp, E. reflexivity. Qed.
Lemma fin32_strict (x : b32) a : fin32 x a -> a <> 0%R -> is_finite_strict x = true.
Proof. intros [F E] N. destruct x as [s|s| |s m e B]; cbn in *; try congruence; try discriminate; reflexivity. Qed.

(* the denominator *)
Lemma den_ok (d : b32) a : fin32 d a -> (bpow radix2 (-99) <= Rabs a <= bpow radix2 125)%R -> o_den Fops d = f_add d d /\ fin32 (f_add d d) (a + a).
Proof.
  intros Fd Ha. pose proof (bpow_gt_0 radix2 (-99)) as Hb.
  assert (B125 : (bpow radix2 127 = 4 * bpow radix2 125)%R) by (replace 127 with (2 + 125) by lia; rewrite bpow_plus; reflexivity).
  assert (S : fin32 (f_add d d) (a + a)).
  { rewrite <- (RN32_twice a) by (eapply fin32_F; exact Fd). apply f_add_ok; try assumption.
    apply Rle_trans with (1 := Rabs_triang _ _). pose proof (bpow_gt_0 radix2 125). lra. }
  split; [|exact S].
  destruct f_tiny_ok as [Ft St]. pose proof tiny32_small as Hts.
  assert (Et : fin32 (Babs f_tiny) tiny32). { split; [rewrite is_finite_Babs; apply Ft|]. rewrite B2R_Babs. destruct Ft as [_ ->]. apply Rabs_pos_eq. lra. }
  assert (E98 : (bpow radix2 (-98) = 2 * bpow radix2 (-99))%R) by (replace (-98) with (1 + -99) by lia; rewrite bpow_plus; reflexivity).
  assert (F2 : F32 (a + a)) by (eapply fin32_F; exact S).
  cbn [o_den Fops]. unfold f_copysign.
  assert (Small : (tiny32 <= bpow radix2 125)%R). { apply Rle_trans with (bpow radix2 (-122)); [lra|]. apply bpow_le. lia. }
  assert (G : fin32 (f_add (f_add d d) (if Bsign d then Bopp (Babs f_tiny) else Babs f_tiny)) (a + a)).
  { destruct (Rle_lt_dec 0 a) as [P|N].
    - rewrite Rabs_pos_eq in Ha by exact P. rewrite (Bsign_pos d) by (destruct Fd as [_ ->]; lra).
      rewrite <- (absorb_pos (a + a) tiny32) by (assumption || lra). apply f_add_ok; try assumption.
      rewrite Rabs_pos_eq by lra. pose proof (bpow_gt_0 radix2 125). lra.
    - rewrite Rabs_left in Ha by exact N. rewrite (Bsign_neg d) by (destruct Fd as [_ ->]; lra).
      replace (a + a)%R with (- (- (a + a)))%R at 1 by ring. rewrite <- (absorb_pos (- (a + a)) tiny32) by (try apply F32_opp; assumption || lra).
      rewrite <- RN32_opp. replace (- (- (a + a) + tiny32))%R with ((a + a) + - tiny32)%R by ring. apply f_add_ok; [exact S|apply fin32_opp; exact Et|].
      rewrite Rabs_left by lra. pose proof (bpow_gt_0 radix2 125). lra. }
  assert (Nz : (a + a <> 0)%R) by (intros C; assert (a = 0%R) by lra; subst a; rewrite Rabs_R0 in Ha; lra).
  apply B2R_inj; [eapply fin32_strict; eassumption|eapply fin32_strict; eassumption|]. destruct G as [_ ->], S as [_ ->]. reflexivity.
Qed.

Lemma f_div_full (x y : b32) a b : fin32 x a -> fin32 y b -> b <> 0%R -> (Rabs (a / b) <= bpow radix2 127)%R ->
  fin32 (f_div x y) (RN32 (a / b)) /\ Bsign (f_div x y) = xorb (Bsign x) (Bsign y).
Proof.
  intros [Hx <-] [Hy <-] Hb Ho.
  pose proof (Bdiv_correct 24 128 prec_gt_0_32 prec_lt_emax_32 mode_NE x y Hb) as H.
  change (round radix2 (SpecFloat.fexp 24 128) (round_mode mode_NE)) with RN32 in H.
  rewrite no_ovf32 in H by exact Ho. destruct H as (H1 & H2 & H3). rewrite Hx in H2. split; [split; assumption|].
  apply H3. destruct (Bdiv mode_NE x y); try reflexivity. discriminate H2.
Qed.
Lemma f_mul_full (x y : b32) a b : fin32 x a -> fin32 y b -> (Rabs (a * b) <= bpow radix2 127)%R ->
  fin32 (f_mul x y) (RN32 (a * b)) /\ Bsign (f_mul x y) = xorb (Bsign x) (Bsign y).
Proof.
  intros Fx Fy Hb. split; [apply f_mul_ok; assumption|]. destruct Fx as [Hx <-], Fy as [Hy <-].
  pose proof (Bmult_correct 24 128 prec_gt_0_32 prec_lt_emax_32 mode_NE x y) as H.
  change (round radix2 (SpecFloat.fexp 24 128) (round_mode mode_NE)) with RN32 in H.
  rewrite no_ovf32 in H by exact Hb. destruct H as (H1 & H2 & H3). rewrite Hx, Hy in H2.
  apply H3. destruct (Bmult mode_NE x y); try reflexivity. discriminate H2.
Qed.

(* 1 - r and -1 - r are zero or at least 2^-24 *)
Lemma gap_ok s r a e : fin32 r a -> (Rabs a <= 1)%R -> (e = 1 \/ e = -1)%R -> fin32 s e ->
  exists v, fin32 (f_sub s r) v /\ (v = 0%R /\ a = e \/ bpow radix2 (-24) <= Rabs v)%R /\ (Rabs v <= 2)%R /\ (0 <= e * v)%R.
Proof.
  intros Fr Ha He Fs.
  assert (Ha' : (-1 <= a <= 1)%R) by (revert Ha; unfold Rabs; destruct (Rcase_abs a); lra).
  exists (RN32 (e - a)).
    assert (B2 : (Rabs (e - a) <= 2)%R) by (unfold Rabs; destruct (Rcase_abs _); destruct He; lra).
    assert (Two : (2 = bpow radix2 1)%R) by reflexivity.
    split; [apply f_sub_ok; try assumption; apply Rle_trans with (1 := B2); rewrite Two; apply bpow_le; lia|].
    split; [|split; [rewrite Two in *; apply RN32_small; [lia|exact B2]|]].
    2:{ assert (Z0 : RN32 0 = 0%R) by (unfold RN32; apply round_0; apply valid_rnd_N). destruct He as [->| ->].
        - assert (RN32 0 <= RN32 (1 - a))%R by (apply RN32_le; lra). lra.
        - assert (RN32 (-1 - a) <= RN32 0)%R by (apply RN32_le; lra). lra. }
    destruct (Rle_lt_dec (/ 2) (Rabs (e - a))) as [L|L].
    - right. apply Rle_trans with (bpow radix2 (-1)); [apply bpow_le; lia|]. unfold RN32. apply abs_round_ge_generic; [exact v32|apply valid_rnd_N| |exact L].
      apply generic_format_bpow. unfold FLT_exp. lia.
    - (* |a| > 1/2: a is a multiple of 2^-24 *)
      assert (Hm : exists m, a = (IZR m * bpow radix2 (-24))%R).
      { pose proof (fin32_F _ _ Fr) as Fa. assert (Ha2 : (/ 2 < Rabs a)%R) by (revert L; unfold Rabs; destruct (Rcase_abs (e - a)), (Rcase_abs a); destruct He; lra).
        assert (Na : a <> 0%R) by (intros ->; rewrite Rabs_R0 in Ha2; lra).
        assert (M : 0 <= mag radix2 a). { assert (-1 < mag radix2 a); [|lia]. apply mag_gt_bpow. apply Rlt_le. exact Ha2. }
        unfold generic_format in Fa. exists (Ztrunc (scaled_mantissa radix2 fexp32 a) * 2 ^ (cexp radix2 fexp32 a + 24)).
        assert (Hc : -24 <= cexp radix2 fexp32 a) by (unfold cexp, FLT_exp; lia).
        rewrite mult_IZR. change (IZR (2 ^ (cexp radix2 fexp32 a + 24))) with (IZR (radix2 ^ (cexp radix2 fexp32 a + 24))). rewrite (IZR_Zpower radix2 (cexp radix2 fexp32 a + 24)) by lia. rewrite Rmult_assoc, <- bpow_plus. replace (cexp radix2 fexp32 a + 24 + -24) with (cexp radix2 fexp32 a) by ring.
        rewrite Fa at 1. reflexivity. }
      destruct Hm as [m Hm].
      assert (He' : exists k, (e = IZR k * bpow radix2 (-24))%R).
      { assert (P : (bpow radix2 24 * bpow radix2 (-24) = 1)%R) by (rewrite <- bpow_plus; reflexivity).
        destruct He as [->| ->]; [exists (2 ^ 24)|exists (- 2 ^ 24)]; [|rewrite opp_IZR]; change (IZR (2 ^ 24)) with (bpow radix2 24); lra. }
      destruct He' as [k Hk]. assert (E : (e - a = IZR (k - m) * bpow radix2 (-24))%R) by (rewrite minus_IZR, Hk, Hm; ring).
      destruct (Z.eq_dec (k - m) 0) as [Z0|Nz]; [left; split; [rewrite E, Z0; unfold RN32; rewrite Rmult_0_l; apply round_0; apply valid_rnd_N|rewrite Z0 in E; lra]|right].
      unfold RN32. apply abs_round_ge_generic; [exact v32|apply valid_rnd_N|apply generic_format_bpow; unfold FLT_exp; lia|].
      rewrite E, Rabs_mult, (Rabs_pos_eq (bpow _ _)) by apply bpow_ge_0. rewrite <- (Rmult_1_l (bpow radix2 (-24))) at 1.
      apply Rmult_le_compat_r; [apply bpow_ge_0|]. rewrite <- abs_IZR. apply IZR_le. lia.
Qed.

(* the fraction of the displacement up to the face: half the scalar code's *)
Lemma fraction_ok (r d : b32) a b : fin32 r a -> (Rabs a <= 1)%R -> fin32 d b -> (bpow radix2 (-99) <= Rabs b <= 2)%R ->
  let s := if f_lt (f_of_Z 0) d then f_of_Z 1 else Bopp (f_of_Z 1) in
  o_sgn Fops d = s /\ f_div (f_sub (o_sgn Fops d) r) (o_den Fops d) = f_mul (f_div (f_sub s r) d) (n_half Fnum) /\
  (exists v, fin32 (f_div (f_sub s r) d) v /\ fin32 (f_mul (f_div (f_sub s r) d) (n_half Fnum)) (v * / 2)).
Proof.
  intros Fr Ha Fd Hb s.
  assert (Hb' : (bpow radix2 (-99) <= Rabs b <= bpow radix2 125)%R).
  { split; [apply Hb|]. apply Rle_trans with (1 := proj2 Hb). change 2%R with (bpow radix2 1). apply bpow_le. lia. }
  destruct (den_ok d b Fd Hb') as [Ed Fdd].
  pose proof (bpow_gt_0 radix2 (-99)) as P99.
  assert (Nb : b <> 0%R) by (intros ->; rewrite Rabs_R0 in Hb; lra).
  assert (F1 : fin32 (f_of_Z 1) 1) by (apply (fin32_Z 1); lia).
  assert (F0 : fin32 (f_of_Z 0) 0) by (apply (fin32_Z 0); lia).
  assert (Es : o_sgn Fops d = s /\ (exists e, (e = 1 \/ e = -1)%R /\ fin32 s e) /\ Bsign (f_add d d) = Bsign d).
  { unfold s. cbn [o_sgn Fops]. unfold f_copysign, f_lt. destruct Fd as [Fd Eb].
    assert (C : Bcompare (f_of_Z 0) d = Some (Rcompare 0 b)). { rewrite Bcompare_correct; [|apply F0|exact Fd]. destruct F0 as [_ ->]. rewrite Eb. reflexivity. }
    rewrite C. destruct (Rtotal_order b 0) as [N|[Z|P]]; [|contradiction|].
    - rewrite Rcompare_Gt by lra. rewrite (Bsign_neg d) by lra. split; [rewrite one_abs; reflexivity|]. split; [exists (-1)%R; split; [right; reflexivity|apply (fin32_opp _ _ F1)]|].
      apply Bsign_neg. destruct Fdd as [_ ->]. lra.
    - rewrite Rcompare_Lt by lra. rewrite (Bsign_pos d) by lra. split; [apply one_abs|]. split; [exists 1%R; split; [left; reflexivity|exact F1]|].
      apply Bsign_pos. destruct Fdd as [_ ->]. lra. }
  destruct Es as (E1 & (e & He & Fs) & Sd). rewrite E1, Ed. split; [reflexivity|].
  destruct (gap_ok s r a e Fr Ha He Fs) as (v & Fv & Hv & Hv2 & _).
  assert (Q : (Rabs (v / b) <= bpow radix2 100)%R).
  { unfold Rdiv. rewrite Rabs_mult, Rabs_inv. apply Rle_trans with (2 * / bpow radix2 (-99))%R.
    - apply Rmult_le_compat; [apply Rabs_pos|apply Rlt_le, Rinv_0_lt_compat, Rabs_pos_lt; exact Nb|exact Hv2|apply Rinv_le_contravar; [exact P99|apply Hb]].
    - rewrite <- bpow_opp. replace (- -99) with 99 by lia. replace 100 with (1 + 99) by lia. rewrite bpow_plus. apply Rle_refl. }
  assert (Q' : (Rabs (v / b) <= bpow radix2 127)%R) by (apply Rle_trans with (1 := Q); apply bpow_le; lia).
  destruct (f_div_full _ _ _ _ Fv Fd Nb Q') as [Fq Sq].
  assert (Nbb : (b + b <> 0)%R) by (intros C; apply Nb; lra).
  assert (H2 : (v / (b + b) = (v / b) * / 2)%R) by (field; split; assumption).
  assert (Q2 : (Rabs (v / (b + b)) <= bpow radix2 127)%R).
  { rewrite H2, Rabs_mult, (Rabs_pos_eq (/ 2)) by lra. pose proof (Rabs_pos (v / b)). lra. }
  destruct (f_div_full _ _ _ _ Fv Fdd Nbb Q2) as [Fl Sl].
  assert (Fh : fin32 (n_half Fnum) (/ 2)%R) by exact half32.
  assert (Hr : (Rabs (RN32 (v / b)) <= bpow radix2 100)%R) by (apply RN32_small; [lia|exact Q]).
  assert (Q3 : (Rabs (RN32 (v / b) * / 2) <= bpow radix2 127)%R).
  { rewrite Rabs_mult, (Rabs_pos_eq (/ 2)) by lra. apply Rle_trans with (bpow radix2 100); [pose proof (Rabs_pos (RN32 (v / b))); lra|apply bpow_le; lia]. }
  destruct (f_mul_full _ _ _ _ Fq Fh Q3) as [Fm Sm].
  assert (V : RN32 (v / (b + b)) = RN32 (RN32 (v / b) * / 2) /\ RN32 (RN32 (v / b) * / 2) = (RN32 (v / b) * / 2)%R).
  { rewrite H2. destruct Hv as [[-> _]|Hv].
    - unfold Rdiv. rewrite !Rmult_0_l. unfold RN32. rewrite !round_0, Rmult_0_l, round_0; try (split; reflexivity); apply valid_rnd_N.
    - assert (L : (bpow radix2 (-25) <= Rabs (v / b))%R).
      { unfold Rdiv. rewrite Rabs_mult, Rabs_inv. replace (-25) with (-24 + -1) by lia. rewrite bpow_plus.
        apply Rmult_le_compat; [apply bpow_ge_0|apply bpow_ge_0|exact Hv|]. change (bpow radix2 (-1)) with (/ 2)%R.
        apply Rinv_le_contravar; [apply Rabs_pos_lt; exact Nb|apply Hb]. }
      rewrite RN32_half. 2:{ apply Rle_trans with (2 := L). apply bpow_le. lia. }
      assert (W : RN32 (RN32 (v / b) * / 2) = (RN32 (v / b) * / 2)%R); [|split; [symmetry; exact W|exact W]].
      replace (RN32 (v / b) * / 2)%R with (RN32 (v / b * / 2)); [|apply RN32_half; apply Rle_trans with (2 := L); apply bpow_le; lia].
      apply RN32_id. unfold RN32. apply generic_format_round; [exact v32|apply valid_rnd_N]. }
  destruct V as [V W]. split; [|exists (RN32 (v / b)); split; [exact Fq|rewrite <- W; exact Fm]].
  apply B2R_Bsign_inj; [apply Fl|apply Fm| |].
  - destruct Fl as [_ ->], Fm as [_ ->]. exact V.
  - rewrite Sl, Sm, Sq, Sd. assert (Bsign (n_half Fnum) = false) by (vm_compute; reflexivity). rewrite H. destruct (Bsign (f_sub s r)), (Bsign d); reflexivity.
Qed.

Lemma far_not_lt (n y : b32) v b c C : fin32 n v -> fin32 y b -> (bpow radix2 (-24) <= Rabs v)%R -> b <> 0%R -> (Rabs b <= bpow radix2 (-90))%R -> (0 <= v * b)%R ->
  fin32 c C -> (C <= 2)%R -> f_lt (f_div n y) c = false.
Proof.
  intros Fn Fy Hv Nb Hb Hs Fc HC. pose proof (bpow_gt_0 radix2 (-24)) as P24.
  assert (Nv : v <> 0%R) by (intros ->; rewrite Rabs_R0 in Hv; lra).
  assert (L : (bpow radix2 66 <= v / b)%R).
  { assert (0 <= v / b)%R. { unfold Rdiv. replace (v * / b)%R with (v * b * (/ b * / b))%R by (field; exact Nb). apply Rmult_le_pos; [exact Hs|]. apply Rle_0_sqr. }
    rewrite <- (Rabs_pos_eq (v / b)) by assumption. unfold Rdiv. rewrite Rabs_mult, Rabs_inv. replace 66 with (-24 + 90) by lia. rewrite bpow_plus.
    apply Rmult_le_compat; try apply bpow_ge_0; [exact Hv|]. change 90 with (- (-90)). rewrite bpow_opp. apply Rinv_le_contravar; [apply Rabs_pos_lt; exact Nb|exact Hb]. }
  assert (G : (bpow radix2 66 <= RN32 (v / b))%R).
  { rewrite <- (RN32_id (bpow radix2 66)); [apply RN32_le; exact L|]. apply generic_format_bpow. unfold FLT_exp. lia. }
  assert (B66 : (2 <= bpow radix2 66)%R) by (change 2%R with (bpow radix2 1); apply bpow_le; lia).
  destruct Fn as [Gn <-], Fy as [Gy <-].
  pose proof (Bdiv_correct 24 128 prec_gt_0_32 prec_lt_emax_32 mode_NE n y Nb) as H.
  change (round radix2 (SpecFloat.fexp 24 128) (round_mode mode_NE)) with RN32 in H.
  destruct (Rlt_bool (Rabs (RN32 (B2R32 n / B2R32 y))) (bpow radix2 128)) eqn:O.
  - destruct H as (H1 & H2 & _). rewrite Gn in H2. eapply f_lt_no; [split; [exact H2|exact H1]|exact Fc|lra].
  - assert (Ov : binary_overflow 24 128 mode_NE (xorb (Bsign n) (Bsign y)) = SpecFloat.S754_infinity (xorb (Bsign n) (Bsign y))) by reflexivity.
    rewrite Ov in H.
    assert (Sx : xorb (Bsign n) (Bsign y) = false).
    { destruct (Rtotal_order (B2R32 n) 0) as [A|[A|A]]; [|contradiction|]; destruct (Rtotal_order (B2R32 y) 0) as [B|[B|B]]; try contradiction;
        try (rewrite (Bsign_neg n A)); try (rewrite (Bsign_pos n A)); try (rewrite (Bsign_neg y B)); try (rewrite (Bsign_pos y B)); try reflexivity; exfalso; revert Hs; apply Rlt_not_le; nra. }
    rewrite Sx in H. unfold f_div. destruct (Bdiv mode_NE n y) as [s|s| |s m e B]; try discriminate H. cbn [B2SF] in H. injection H as ->.
    destruct Fc as [Gc _]. destruct c; try discriminate Gc; reflexivity.
Qed.

Definition halves (x y : b32) : Prop :=
  (exists w, fin32 x w /\ fin32 y (w * / 2) /\ y = f_mul x (n_half Fnum)) \/
  (forall c C, fin32 c C -> (C <= 2)%R -> f_lt x c = false /\ f_lt y c = false).
Lemma pick_step x y c C : halves x y -> fin32 c C -> (C <= 2)%R -> fin32 (f_mul c (n_half Fnum)) (C * / 2) ->
  f_lt y (f_mul c (n_half Fnum)) = f_lt x c /\ (f_lt x c = true -> exists w, fin32 x w /\ (w <= 2)%R /\ y = f_mul x (n_half Fnum) /\ fin32 y (w * / 2)).
Proof.
  intros [(w & Fx & Fy & E)|H] Fc HC Fh.
  - destruct (f_lt x c) eqn:L.
    + apply (f_lt_ok _ _ _ _ Fx Fc) in L. split; [apply (f_lt_ok _ _ _ _ Fy Fh); lra|]. intros _. exists w. repeat split; try apply Fx; try apply Fy; try assumption. lra.
    + split; [|discriminate]. apply (f_lt_no _ _ _ _ Fy Fh). destruct (Rle_lt_dec C w) as [|N]; [lra|]. apply (f_lt_ok _ _ _ _ Fx Fc) in N. congruence.
  - destruct (H c C Fc HC) as [H1 _]. destruct (H (f_mul c (n_half Fnum)) (C * / 2)%R Fh) as [_ H2]; [|rewrite H1, H2; split; [reflexivity|discriminate]].
    destruct (Rle_lt_dec 0 C); lra.
Qed.
Lemma vpick_ok (f v : axis -> b32) : (forall a, halves (v a) (f a)) -> vpick Fnum f = (f_mul (fst (pick Fnum v)) (n_half Fnum), snd (pick Fnum v)).
Proof.
  intros H. unfold vpick, pick.
  assert (F2 : fin32 (n_two Fnum) 2) by (apply (fin32_Z 2); lia).
  assert (E1 : n_one Fnum = f_mul (n_two Fnum) (n_half Fnum)) by (symmetry; exact two_half).
  assert (F1 : fin32 (f_mul (n_two Fnum) (n_half Fnum)) (2 * / 2)). { rewrite <- E1. replace (2 * / 2)%R with 1%R by field. apply (fin32_Z 1). lia. }
  rewrite E1. cbn [fst snd n_lt Fnum].
  assert (S : forall (c : b32) C (o : option axis) a, fin32 c C -> (C <= 2)%R -> fin32 (f_mul c (n_half Fnum)) (C * / 2) -> exists c' C' o',
    (if f_lt (v a) (fst (c, o)) then (v a, Some a) else (c, o)) = (c', o') /\ fin32 c' C' /\ (C' <= 2)%R /\ fin32 (f_mul c' (n_half Fnum)) (C' * / 2) /\
    (if f_lt (f a) (fst (f_mul c (n_half Fnum), o)) then (f a, Some a) else (f_mul c (n_half Fnum), o)) = (f_mul c' (n_half Fnum), o')).
  { intros c C o a Fc HC Fh. cbn [fst]. destruct (pick_step _ _ c C (H a) Fc HC Fh) as [E G]. rewrite E. destruct (f_lt (v a) c).
    - destruct (G eq_refl) as (w & Fx & Hw & Ey & Fy). exists (v a), w, (Some a). rewrite <- Ey. auto.
    - exists c, C, o. auto. }
  destruct (S _ _ None AX F2 ltac:(lra) F1) as (c1 & C1 & o1 & P1 & G1 & L1 & K1 & Q1). cbn [fst] in P1, Q1. rewrite P1, Q1.
  destruct (S _ _ o1 AY G1 L1 K1) as (c2 & C2 & o2 & P2 & G2 & L2 & K2 & Q2). cbn [fst] in P2, Q2 |- *. rewrite P2, Q2.
  destruct (S _ _ o2 AZ G2 L2 K2) as (c3 & C3 & o3 & P3 & G3 & L3 & K3 & Q3). cbn [fst] in P3, Q3 |- *. rewrite P3, Q3. reflexivity.
Qed.


Lemma between_ok (r : b32) : f_le (Bopp (f_of_Z 1)) r = true -> f_le r (f_of_Z 1) = true -> exists a, fin32 r a /\ (-1 <= a <= 1)%R.
Proof.
  intros H1 H2. assert (Fr : is_finite r = true). { destruct r as [s|s| |]; try reflexivity; [destruct s|]; vm_compute in H1, H2; congruence. }
  exists (B2R32 r). assert (F : fin32 r (B2R32 r)) by (split; [exact Fr|reflexivity]). split; [exact F|].
  assert (F1 : fin32 (f_of_Z 1) 1) by (apply (fin32_Z 1); lia).
  apply (f_le_ok _ _ _ _ (fin32_opp _ _ F1) F) in H1. apply (f_le_ok _ _ _ _ F F1) in H2. lra.
Qed.
Lemma fin32_abs x a : fin32 x a -> fin32 (Babs x) (Rabs a).
Proof. intros [F E]. split; [rewrite is_finite_Babs; exact F|]. rewrite B2R_Babs, E. reflexivity. Qed.
Lemma moves_ok (d : b32) : f_le (Babs d) (f_of_Z 2) = true -> exists b, fin32 d b /\ (Rabs b <= 2)%R.
Proof.
  intros H. assert (Fr : is_finite d = true). { destruct d as [s|s| |]; try reflexivity; vm_compute in H; congruence. }
  exists (B2R32 d). assert (F : fin32 d (B2R32 d)) by (split; [exact Fr|reflexivity]). split; [exact F|].
  apply (f_le_ok _ _ _ _ (fin32_abs _ _ F) (fin32_Z 2 ltac:(lia))) in H. exact H.
Qed.
Lemma m99_ok : fin32 f_m99 (bpow radix2 (-99)).
Proof.
  split; [vm_compute; reflexivity|]. assert (E : B2SF f_m99 = SpecFloat.S754_finite false 8388608 (-122)) by (vm_compute; reflexivity).
  destruct f_m99 as [| | |s m e B]; try discriminate E. cbn [B2SF] in E. injection E as -> -> ->. cbn [B2R]. unfold F2R. cbn [Defs.Fnum Defs.Fexp cond_Zopp].
  replace (-99) with (23 + -122) by lia. rewrite bpow_plus. reflexivity.
Qed.
Lemma sgn_ok (d : b32) b : fin32 d b -> exists e, (e = 1 \/ e = -1)%R /\ fin32 (o_sgn Fops d) e /\ (0 <= e * b)%R /\
  fin32 (f_copysign f_tiny d) (e * tiny32) /\ (b <> 0%R -> o_sgn Fops d = (if f_lt (f_of_Z 0) d then f_of_Z 1 else Bopp (f_of_Z 1))).
Proof.
  intros Fd. assert (F1 : fin32 (f_of_Z 1) 1) by (apply (fin32_Z 1); lia). assert (F0 : fin32 (f_of_Z 0) 0) by (apply (fin32_Z 0); lia).
  pose proof tiny32_small as Ht. destruct f_tiny_ok as [Ft _]. pose proof (fin32_abs _ _ Ft) as Fa. rewrite Rabs_pos_eq in Fa by lra.
  assert (Fb : fin32 (Babs (f_of_Z 1)) 1). { pose proof (fin32_abs _ _ F1) as G. rewrite Rabs_pos_eq in G by lra. exact G. }
  exists (if Bsign d then -1 else 1)%R. cbn [o_sgn Fops]. unfold f_copysign. destruct (Bsign d) eqn:Sd.
  - split; [right; reflexivity|]. split; [apply (fin32_opp _ _ Fb)|]. split.
    + destruct (Rle_lt_dec b 0) as [|P]; [lra|]. rewrite Bsign_pos in Sd; [discriminate|]. destruct Fd as [_ ->]. exact P.
    + split; [replace (-1 * tiny32)%R with (- tiny32)%R by ring; apply (fin32_opp _ _ Fa)|].
      intros Nb. rewrite (f_lt_no _ _ _ _ F0 Fd); [rewrite one_abs; reflexivity|]. destruct (Rle_lt_dec b 0) as [|P]; [assumption|]. rewrite Bsign_pos in Sd; [discriminate|]. destruct Fd as [_ ->]. exact P.
  - split; [left; reflexivity|]. split; [exact Fb|]. 
    assert (Hb : (0 <= b)%R). { destruct (Rle_lt_dec 0 b) as [|P]; [assumption|]. rewrite Bsign_neg in Sd; [discriminate|]. destruct Fd as [_ ->]. exact P. }
    split; [lra|]. split; [rewrite Rmult_1_l; exact Fa|]. intros Nb. assert (L : f_lt (f_of_Z 0) d = true) by (apply (f_lt_ok _ _ _ _ F0 Fd); lra). rewrite L. apply one_abs.
Qed.
Lemma calm_halves r d : calm r d = true ->
  halves (if f_eq d (f_of_Z 0) then n_big Fnum else f_div (f_sub (if f_lt (f_of_Z 0) d then f_of_Z 1 else Bopp (f_of_Z 1)) r) d)
         (f_div (f_sub (o_sgn Fops d) r) (o_den Fops d)).
Proof.
  unfold calm. rewrite !andb_true_iff, orb_true_iff, !andb_true_iff. intros (((H1 & H2) & H3) & H4).
  destruct (between_ok r H1 H2) as (a & Fr & Ha). destruct (moves_ok d H3) as (b & Fd & Hb).
  assert (F0 : fin32 (f_of_Z 0) 0) by (apply (fin32_Z 0); lia). assert (F1 : fin32 (f_of_Z 1) 1) by (apply (fin32_Z 1); lia).
  assert (Ha' : (Rabs a <= 1)%R) by (unfold Rabs; destruct (Rcase_abs a); lra).
  pose proof (bpow_gt_0 radix2 (-99)) as P99.
  destruct (Rle_lt_dec (bpow radix2 (-99)) (Rabs b)) as [L|L].
  - rewrite (f_eq_no _ _ _ _ Fd F0) by (intros ->; rewrite Rabs_R0 in L; lra).
    destruct (fraction_ok r d a b Fr Ha' Fd (conj L Hb)) as (E1 & E2 & w & Fw & Fh). left. exists w. rewrite E2. auto.
  - right. intros c C Fc HC.
    assert (Ho : (-1 < a < 1)%R).
    { destruct H4 as [[A B]|B]; [|apply (f_le_ok _ _ _ _ m99_ok (fin32_abs _ _ Fd)) in B; lra].
      apply (f_lt_ok _ _ _ _ (fin32_opp _ _ F1) Fr) in A. apply (f_lt_ok _ _ _ _ Fr F1) in B. lra. }
    destruct (sgn_ok d b Fd) as (e & He & Fs & Hs & Ft & Es).
    destruct (gap_ok _ _ _ _ Fr Ha' He Fs) as (v & Fv & [[_ C1]|Hv] & Hv2 & Hv3); [destruct He; lra|].
    pose proof tiny32_small as Ht.
    assert (B90 : (bpow radix2 (-99) <= bpow radix2 (-92) /\ bpow radix2 (-122) <= bpow radix2 (-92))%R) by (split; apply bpow_le; lia).
    assert (E92 : (bpow radix2 (-90) = 4 * bpow radix2 (-92))%R) by (replace (-90) with (2 + -92) by lia; rewrite bpow_plus; reflexivity).
    assert (Big : (bpow radix2 (-90) <= bpow radix2 127)%R) by (apply bpow_le; lia).
    assert (Lb : (- bpow radix2 (-99) < b < bpow radix2 (-99))%R) by (revert L; unfold Rabs; destruct (Rcase_abs b); lra).
    assert (Fdd : fin32 (f_add d d) (b + b)).
    { rewrite <- (RN32_twice b) by (eapply fin32_F; exact Fd). apply f_add_ok; try assumption. apply Rabs_le. lra. }
    assert (Sm : (Rabs (b + b + e * tiny32) <= bpow radix2 (-90))%R) by (apply Rabs_le; destruct He as [->| ->]; lra).
    assert (Fden : fin32 (o_den Fops d) (RN32 (b + b + e * tiny32))). { cbn [o_den Fops]. apply f_add_ok; try assumption. lra. }
    assert (Rt : RN32 tiny32 = tiny32) by (apply RN32_id; eapply fin32_F; apply f_tiny_ok).
    assert (Sd : (0 < e * RN32 (b + b + e * tiny32))%R).
    { destruct He as [->| ->].
      - assert (RN32 tiny32 <= RN32 (b + b + 1 * tiny32))%R by (apply RN32_le; lra). lra.
      - assert (RN32 (b + b + -1 * tiny32) <= RN32 (- tiny32))%R by (apply RN32_le; lra). rewrite RN32_opp in H. lra. }
    split.
    + destruct (Req_dec b 0) as [->|Nb].
      * assert (E : f_eq d (f_of_Z 0) = true) by (apply (f_eq_ok _ _ _ _ Fd F0); reflexivity). rewrite E.
        assert (Hg : is_finite (n_big Fnum) = true) by (vm_compute; reflexivity).
        apply (f_lt_no _ _ (B2R32 (n_big Fnum)) C); [split; [exact Hg|reflexivity]|exact Fc|]. apply Rle_trans with (1 := HC).
        assert (G : f_le (f_of_Z 2) (n_big Fnum) = true) by (vm_compute; reflexivity).
        apply (f_le_ok _ _ 2 (B2R32 (n_big Fnum))) in G; [exact G|apply (fin32_Z 2); lia|split; [exact Hg|reflexivity]].
      * rewrite (f_eq_no _ _ _ _ Fd F0) by exact Nb. rewrite <- (Es Nb). apply (far_not_lt _ _ v b c C); try assumption; [apply Rabs_le; lra|].
        destruct He as [->| ->]; nra.
    + apply (far_not_lt _ _ v (RN32 (b + b + e * tiny32)) c C); try assumption.
      * intros Z0. rewrite Z0 in Sd. lra.
      * apply RN32_small; [lia|exact Sm].
      * destruct He as [->| ->]; nra.
Qed.
Lemma calm_pick r dr : calm3 r dr = true ->
  let dir := vmap (fun d => if f_lt (f_of_Z 0) d then f_of_Z 1 else Bopp (f_of_Z 1)) dr in
  let sgn := vmap (o_sgn Fops) dr in
  vpick Fnum (fun a => f_div (f_sub (vget sgn a) (vget r a)) (o_den Fops (vget dr a))) =
  (f_mul (fst (pick Fnum (face_dist Fnum dir r dr))) (n_half Fnum), snd (pick Fnum (face_dist Fnum dir r dr))).
Proof.
  intros Hc dir sgn. unfold calm3 in Hc. rewrite !andb_true_iff in Hc. destruct Hc as ((H1 & H2) & H3). apply vpick_ok. intros a. unfold face_dist. cbn [n_eq n_zero n_sub n_div Fnum].
  destruct a; cbn [vget dir sgn vmap vx vy vz]; apply calm_halves; assumption.
Qed.
(* an axis is picked only if its distance is less than two *)
Lemma picked (f v : axis -> b32) : (forall a, halves (v a) (f a)) -> forall a, snd (pick Fnum v) = Some a -> exists c C, fin32 c C /\ (C <= 2)%R /\ f_lt (v a) c = true.
Proof.
  intros H. unfold pick. cbn [n_lt Fnum].
  assert (F2 : fin32 (n_two Fnum) 2) by (apply (fin32_Z 2); lia).
  assert (F1 : fin32 (f_mul (n_two Fnum) (n_half Fnum)) (2 * / 2)).
  { rewrite two_half. replace (2 * / 2)%R with 1%R by field. apply (fin32_Z 1). lia. }
  set (Q := fun o : option axis => forall a, o = Some a -> exists c C, fin32 c C /\ (C <= 2)%R /\ f_lt (v a) c = true).
  assert (S : forall (c : b32) C (o : option axis) a, fin32 c C -> (C <= 2)%R -> fin32 (f_mul c (n_half Fnum)) (C * / 2) -> Q o -> exists c' C' o',
    (if f_lt (v a) (fst (c, o)) then (v a, Some a) else (c, o)) = (c', o') /\ fin32 c' C' /\ (C' <= 2)%R /\ fin32 (f_mul c' (n_half Fnum)) (C' * / 2) /\ Q o').
  { intros c C o a Fc HC Fh Ho. cbn [fst]. destruct (pick_step _ _ c C (H a) Fc HC Fh) as [E G]. destruct (f_lt (v a) c) eqn:L.
    - destruct (G eq_refl) as (w & Fx & Hw & Ey & Fy). exists (v a), w, (Some a). rewrite Ey in Fy. repeat split; try apply Fx; try apply Fy; try assumption.
      intros a' [= <-]. exists c, C. auto.
    - exists c, C, o. auto. }
  assert (Q0 : Q None) by (intros a; discriminate).
  destruct (S _ _ None AX F2 ltac:(lra) F1 Q0) as (c1 & C1 & o1 & P1 & G1 & L1 & K1 & Q1). cbn [fst n_two Fnum] in P1 |- *. rewrite P1.
  destruct (S _ _ o1 AY G1 L1 K1 Q1) as (c2 & C2 & o2 & P2 & G2 & L2 & K2 & Q2). cbn [fst] in P2 |- *. rewrite P2.
  destruct (S _ _ o2 AZ G2 L2 K2 Q2) as (c3 & C3 & o3 & P3 & G3 & L3 & K3 & Q3). cbn [fst] in P3 |- *. rewrite P3. cbn [snd]. exact Q3.
Qed.
Lemma big_no c C : fin32 c C -> (C <= 2)%R -> f_lt (n_big Fnum) c = false.
Proof.
  intros Fc HC. assert (Hg : is_finite (n_big Fnum) = true) by (vm_compute; reflexivity).
  apply (f_lt_no _ _ (B2R32 (n_big Fnum)) C); [split; [exact Hg|reflexivity]|exact Fc|]. apply Rle_trans with (1 := HC).
  assert (G : f_le (f_of_Z 2) (n_big Fnum) = true) by (vm_compute; reflexivity).
  apply (f_le_ok _ _ 2 (B2R32 (n_big Fnum))) in G; [exact G|apply (fin32_Z 2); lia|split; [exact Hg|reflexivity]].
Qed.
Lemma calm_sgn r dr a : calm3 r dr = true -> let dir := vmap (fun d => if f_lt (f_of_Z 0) d then f_of_Z 1 else Bopp (f_of_Z 1)) dr in
  snd (pick Fnum (face_dist Fnum dir r dr)) = Some a -> vget (vmap (o_sgn Fops) dr) a = vget dir a.
Proof.
  intros Hc dir Hp. unfold calm3 in Hc. rewrite !andb_true_iff in Hc. destruct Hc as ((H1 & H2) & H3).
  assert (G : forall a, calm (vget r a) (vget dr a) = true) by (intros []; assumption).
  assert (HH : forall b, halves (face_dist Fnum dir r dr b) (f_div (f_sub (vget (vmap (o_sgn Fops) dr) b) (vget r b)) (o_den Fops (vget dr b)))).
  { intros b; unfold face_dist; cbn [n_eq n_zero n_sub n_div Fnum]; destruct b; cbn [vget dir vmap vx vy vz]; apply calm_halves; assumption. }
  destruct (picked _ _ HH a Hp) as (c & C & Fc & HC & L).
  pose proof (G a) as Ga. unfold calm in Ga. rewrite !andb_true_iff in Ga. destruct Ga as ((_ & H4) & _). destruct (moves_ok _ H4) as (b & Fd & Hb).
  destruct (sgn_ok _ _ Fd) as (e & _ & _ & _ & _ & Es).
  destruct (Req_dec b 0) as [->|Nb].
  - exfalso. unfold face_dist in L. cbn [n_eq n_zero Fnum] in L. assert (E : f_eq (vget dr a) (f_of_Z 0) = true) by (apply (f_eq_ok _ _ _ _ Fd (fin32_Z 0 ltac:(lia))); reflexivity).
    rewrite E, (big_no c C Fc HC) in L. discriminate.
  - specialize (Es Nb). destruct a; exact Es.
Qed.

Lemma logs_app (log log' : list (streak b32)) i a b : map fst log = map fst log' -> map fst (log ++ [(i, a)]) = map fst (log' ++ [(i, b)]).
Proof. intros H. transitivity (map fst log ++ [i]); [apply map_app|]. rewrite H. symmetry. apply map_app. Qed.
Lemma calm_loop g q q3 qs disp0 : forall fuel r i u w dr log log', calm_run fuel g r i dr = true -> map fst log = map fst log' ->
  same_path (vmove_loop Fnum Fops fuel g q q3 disp0 (mkp r i u w) dr log) (move_loop Fnum fuel g qs (mkp r i u w) dr log').
Proof.
  induction fuel as [|fuel IH]; intros r i u w dr log log' Hc Hl; [exact I|].
  cbn [calm_run] in Hc. apply andb_prop in Hc. destruct Hc as [Hc Hn].
  pose proof (calm_pick r dr Hc) as Hp. pose proof (fun a => calm_sgn r dr a Hc) as Hg. cbv zeta in Hp, Hg.
  cbn [vmove_loop move_loop pd pi pu pw]. cbv zeta. cbn [n_sub n_div n_mul n_add n_opp n_lt n_zero n_one Fnum].
  change (s_dir Fnum dr) with (vmap (fun d => if f_lt (f_of_Z 0) d then f_of_Z 1 else Bopp (f_of_Z 1)) dr).
  set (dir := vmap (fun d => if f_lt (f_of_Z 0) d then f_of_Z 1 else Bopp (f_of_Z 1)) dr) in *.
  match goal with |- context [vpick Fnum ?F] => change (vpick Fnum F) with (vpick Fnum (fun a => f_div (f_sub (vget (vmap (o_sgn Fops) dr) a) (vget r a)) (o_den Fops (vget dr a)))) end.
  rewrite Hp. destruct (pick Fnum (face_dist Fnum dir r dr)) as [v3 ax] eqn:Ep. cbn [fst snd] in *. cbv zeta in Hn. cbv iota beta.
  set (h := f_mul v3 (n_half Fnum)) in *.
  assert (Es : vmap (fun d => f_mul h d) dr = vmap (fun d => f_mul d h) dr) by (unfold vmap; rewrite !(f_mul_comm h); reflexivity).
  rewrite Es.
  destruct ax as [a|].
  - rewrite (Hg a eq_refl).
    set (face := if f_lt (f_of_Z 0) (vget dir a) then _ else _) in *.
    destruct (int_ok (6 * i)) eqn:O6; cbn [negb]; [|exact I].
    destruct (nbr_at g i face) as [n|]; [|exact I].
    destruct (n =? reflect_particles).
    + apply IH; [exact Hn|apply logs_app; exact Hl].
    + destruct ((n <? mrangel g) || (mrangeh g <? n)).
      * destruct (negb (int_ok (8 * i)) || negb (int_ok (8 * i + face))); [exact I|]. split; [reflexivity|]. split; [reflexivity|]. split; [apply logs_app; exact Hl|reflexivity].
      * assert (Ev : vget (vset (vmap2 f_add r (vmap2 f_add (vmap (fun d => f_mul d h) dr) (vmap (fun d => f_mul d h) dr))) a (vget dir a)) a = vget dir a) by (destruct a; reflexivity).
        rewrite Ev.
        assert (E2 : forall x (y z : b32), vset (vset x a y) a z = vset x a z) by (intros x y z; destruct a; reflexivity). rewrite !E2.
        apply IH; [exact Hn|apply logs_app; exact Hl].
  - split; [reflexivity|]. split; [reflexivity|]. split; [apply logs_app; exact Hl|discriminate].
Qed.
Lemma calm_move fuel g qsp p disp : calm_run fuel g (pd p) (pi p) disp = true -> same_path (vmove_p Fnum Fops fuel g qsp p disp) (move_p Fnum fuel g qsp p disp).
Proof.
  intros H. unfold vmove_p, move_p. destruct p as [r i u w]. cbn [pd pi] in H. apply calm_loop; [exact H|reflexivity].
Qed.
