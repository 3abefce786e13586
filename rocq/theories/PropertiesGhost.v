(* C53: ghost values between ranks. *)
From Coq Require Import Reals ZArith List Bool Lia ZifyBool Lra.
From Flocq Require Import Core Mult_error IEEE754.BinarySingleNaN.
From Verif Require Import FloatModel FloatProofs ParticleModel InjectProofs SortModel VoxelModel VoxelProofs GridModel GridProofs FieldModel
  RemoteModel RemoteSpec DecompSpec RemoteProofs RemoteSum RemoteGhost PropertiesRemote.
Import ListNotations.
Open Scope Z_scope.
Ltac Zify.zify_post_hook ::= idtac.

Definition ghost_exchange (e : exch) : Prop := e = GhostTangB \/ e = GhostNormE \/ e = GhostDivB.
(* A ghost exchange among the ranks of a box can be carried out, and stores in each ghost entry beside another rank the combination of the neighbour's
   value nearest to the face and the own value nearest to the face, weighted by the cell sizes; for any arithmetic. *)
Theorem C53_ghost_values : forall V (A : rarith V) L num ws G e W, layout_ok L -> box L num ws G -> ghost_exchange e ->
  (exists W', run_phases V A ws G e (phases e) W W') /\
  forall W' p a t j c q, run_phases V A ws G e (phases e) W W' -> inside L p -> t = -1 \/ t = 1 -> beside L a (at_ a p) t = Some j -> ghost_entry L e p a t c q ->
    let dl := l_d L a (at_ a p) in let dr := l_d L a j in
    let near := at_rank L num W c (put a j p, put a (if t =? -1 then l_n L a j else 1) q) in
    let own := at_rank L num W c (p, put a (if t =? -1 then 1 else l_n L a (at_ a p)) q) in
    at_rank L num W' c (p, q) =
    r_add V A (r_mul V A (r_dbl_div V A dl (r_add V A dr dl)) near) (r_mul V A (r_div V A (r_sub V A dr dl) (r_add V A dr dl)) own).
Proof.
  intros V A L num ws G e W OK HB He. assert (Hg : ghosted e = true) by (destruct He as [-> |[-> | ->]]; reflexivity). split.
  - assert (K : forall r, 0 <= r < ws -> exists F', receive_all V A ws G e r (messages V ws G e six W) six (W r) = Some F').
    { intros r Hr. pose proof HB as (_ & _ & On & _). destruct (On r Hr) as (p & Hp & <-). apply (receive_list_ok A L num ws G OK HB e six W p six_dirs Hp). apply incl_refl. }
    exists (fun r => match receive_all V A ws G e r (messages V ws G e six W) six (W r) with Some F => F | None => W r end).
    unfold phases. rewrite Hg. econstructor; [|constructor; reflexivity]. intros r Hr. destruct (K r Hr) as (F' & EF). rewrite EF. reflexivity.
  - intros W' p a t j c q H Hp Ht Ej (Q1 & Q2 & Q3) dl dr near own.
    destruct (ghost_run A L num ws G OK HB e Hg W W' p H Hp) as [_ R]. assert (Hs : sign (- t)) by (unfold sign; lia).
    assert (Hgot : got L e p a (- t) c q). { apply (got_ghost L e Hg p a (- t) c q Hs). split; [exact Q1|]. split; [|exact Q3]. rewrite Q2. destruct Ht as [-> | ->]; reflexivity. }
    specialize (R a (- t) j c q Hs ltac:(rewrite Z.opp_involutive; exact Ej) Hgot). unfold at_rank. cbn [fst snd]. change (c, vox3 (size_at L p) q) with (locv (size_at L p) (c, q)). rewrite R.
    unfold filled, combine_. rewrite (size_box L num ws G HB) by exact Hp. pose proof HB as (_ & _ & _ & _ & Dx & _). rewrite (Dx p a Hp). cbn [fst snd].
    assert (Es : send_plane e (- t) (l_n L a j) = (if t =? -1 then l_n L a j else 1)) by (unfold send_plane; rewrite Hg; destruct Ht as [-> | ->]; reflexivity). rewrite Es.
    assert (Eo : at_ a q + - t = (if t =? -1 then 1 else l_n L a (at_ a p))) by (rewrite Q2; destruct Ht as [-> | ->]; cbn [Z.eqb Pos.eqb]; lia). rewrite Eo.
    destruct He as [-> |[-> | ->]]; reflexivity.
Qed.
Print Assumptions C53_ghost_values.

(* In exact arithmetic, a field that is affine along the axis near the face gets its exact value in the ghost entry, which lies one cell of the own size
   beyond the last own cell, whatever the neighbour's cell size; with equal sizes the ghost entry is the neighbour's value. *)
Theorem C53_exact : forall L num ws G e W W' p a t j c q, layout_ok L -> box L num ws G -> ghost_exchange e -> (forall b i, 0 <= i < l_p L b -> (0 < l_d L b i)%R) ->
  run_phases R Rarith ws G e (phases e) W W' -> inside L p -> t = -1 \/ t = 1 -> beside L a (at_ a p) t = Some j -> ghost_entry L e p a t c q ->
  let dl := l_d L a (at_ a p) in let dr := l_d L a j in
  let near := at_rank L num W c (put a j p, put a (if t =? -1 then l_n L a j else 1) q) in
  let own := at_rank L num W c (p, put a (if t =? -1 then 1 else l_n L a (at_ a p)) q) in
  (forall u v x : R, own = (u + v * x)%R -> near = (u + v * (x + IZR t * (dl / 2 + dr / 2)))%R ->
     at_rank L num W' c (p, q) = (u + v * (x + IZR t * dl))%R) /\
  (dl = dr -> at_rank L num W' c (p, q) = near).
Proof.
  intros L num ws G e W W' p a t j c q OK HB He Hd H Hp Ht Ej Hq dl dr near own.
  destruct (C53_ghost_values R Rarith L num ws G e W OK HB He) as [_ E]. specialize (E W' p a t j c q H Hp Ht Ej Hq). cbv zeta in E. cbn [r_add r_mul r_dbl_div r_div r_sub Rarith] in E. fold dl dr near own in E.
  assert (Pl : (0 < dl)%R) by (apply Hd, Hp). assert (Pr : (0 < dr)%R). { apply Hd. refine (beside_range L a _ t j (Hp a) _ Ej). exact Ht. }
  split.
  - intros u v x Eo En. rewrite E, Eo, En. field. lra.
  - intros Q. rewrite E, <- Q. field. lra.
Qed.
Print Assumptions C53_exact.

(* Single precision as in the code: with equal sizes the ghost entry is exactly the neighbour's value. *)
Lemma f_div_ok x y a b : fin32 x a -> fin32 y b -> b <> 0%R -> (Rabs (a / b) <= bpow radix2 127)%R -> fin32 (f_div x y) (RN32 (a / b)).
Proof.
  intros [Hx <-] [Hy <-] H0 Hb. pose proof (Bdiv_correct 24 128 prec_gt_0_32 prec_lt_emax_32 mode_NE x y H0) as H.
  change (round radix2 (SpecFloat.fexp 24 128) (round_mode mode_NE)) with RN32 in H. rewrite no_ovf32 in H by exact Hb. destruct H as (H1 & H2 & _). rewrite Hx in H2. split; assumption.
Qed.
Lemma equal_weights d w o dv wv ov : fin32 d dv -> (0 < dv)%R -> (dv <= bpow radix2 126)%R -> fin32 w wv -> (Rabs wv <= bpow radix2 127)%R -> fin32 o ov ->
  fin32 (f_add (f_mul (r_dbl_div b32 Farith d (f_add d d)) w) (f_mul (f_div (f_sub d d) (f_add d d)) o)) wv.
Proof.
  intros Hd P B Hw Bw Ho. cbn [r_dbl_div Farith].
  assert (E126 : (bpow radix2 127 = 2 * bpow radix2 126)%R) by (change (bpow radix2 127) with (bpow radix2 (1 + 126)); rewrite bpow_plus; reflexivity).
  assert (P127 : (0 < bpow radix2 126)%R) by apply bpow_gt_0.
  assert (G1 : (1 <= bpow radix2 126)%R) by (change 1%R with (bpow radix2 0); apply bpow_le; lia).
  assert (Fd : F32 dv) by (apply (fin32_F d), Hd).
  assert (F2 : F32 (dv + dv)).
  { replace (dv + dv)%R with (dv * bpow radix2 1)%R by (cbn; lra). apply mult_bpow_pos_exact_FLT; [exact Fd|lia]. }
  assert (A2 : fin32 (f_add d d) (dv + dv)). { pose proof (f_add_ok d d dv dv Hd Hd) as Q. rewrite RN32_id in Q by exact F2. apply Q. rewrite Rabs_right by lra. lra. }
  assert (S0 : fin32 (f_sub d d) 0). { pose proof (f_sub_ok d d dv dv Hd Hd) as Q. replace (dv - dv)%R with 0%R in Q by ring. unfold RN32 in Q. rewrite round_0 in Q by typeclasses eauto. apply Q. rewrite Rabs_R0. lra. }
  assert (L0 : fin32 (f_div (f_sub d d) (f_add d d)) 0). { pose proof (f_div_ok _ _ _ _ S0 A2 ltac:(lra)) as Q. replace (0 / (dv + dv))%R with 0%R in Q by (field; lra). unfold RN32 in Q. rewrite round_0 in Q by typeclasses eauto. apply Q. rewrite Rabs_R0. lra. }
  assert (D2 : fin64 (d_of_Z 2) 2). { pose proof (d_of_Z_ok 2) as Q. rewrite RN64_id in Q; [apply Q|]. - rewrite Rabs_right by lra. apply Rle_trans with (bpow radix2 1); [cbn; lra|apply bpow_le; lia]. - change 2%R with (bpow radix2 1). apply generic_format_bpow. vm_compute. discriminate. }
  assert (M2 : fin64 (d_mul (d_of_Z 2) (f2d d)) (dv + dv)).
  { pose proof (d_mul_ok _ _ _ _ D2 (f2d_ok d dv Hd)) as Q. replace (2 * dv)%R with (dv + dv)%R in Q by ring. rewrite RN64_id in Q by (apply F32_F64, F2). apply Q. rewrite Rabs_right by lra.
    apply Rle_trans with (bpow radix2 127); [lra|apply bpow_le; lia]. }
  assert (Q1 : fin64 (d_div (d_mul (d_of_Z 2) (f2d d)) (f2d (f_add d d))) 1).
  { pose proof (d_div_ok _ _ _ _ M2 (f2d_ok _ _ A2) ltac:(lra)) as Q. replace ((dv + dv) / (dv + dv))%R with 1%R in Q by (field; lra).
    rewrite RN64_id in Q; [apply Q|]. - rewrite Rabs_right by lra. change 1%R with (bpow radix2 0). apply bpow_le. lia. - change 1%R with (bpow radix2 0). apply generic_format_bpow. vm_compute. discriminate. }
  assert (R1 : fin32 (d2f (d_div (d_mul (d_of_Z 2) (f2d d)) (f2d (f_add d d)))) 1).
  { pose proof (d2f_ok _ _ Q1) as Q. rewrite RN32_id in Q; [apply Q|]. - rewrite Rabs_right by lra. lra. - change 1%R with (bpow radix2 0). apply generic_format_bpow. vm_compute. discriminate. }
  assert (Fw : F32 wv) by (apply (fin32_F w), Hw).
  assert (T1 : fin32 (f_mul (d2f (d_div (d_mul (d_of_Z 2) (f2d d)) (f2d (f_add d d)))) w) wv). { pose proof (f_mul_ok _ _ _ _ R1 Hw) as Q. rewrite Rmult_1_l, RN32_id in Q by exact Fw. apply Q, Bw. }
  assert (T0 : fin32 (f_mul (f_div (f_sub d d) (f_add d d)) o) 0). { pose proof (f_mul_ok _ _ _ _ L0 Ho) as Q. rewrite Rmult_0_l in Q. unfold RN32 in Q. rewrite round_0 in Q by typeclasses eauto. apply Q. rewrite Rabs_R0. lra. }
  pose proof (f_add_ok _ _ _ _ T1 T0) as Q. rewrite Rplus_0_r, RN32_id in Q by exact Fw. apply Q, Bw.
Qed.
Theorem C53_equal_cells_single : forall L num ws G e W W' p a t j c q d, layout_ok L -> box L num ws G -> ghost_exchange e ->
  run_phases b32 Farith ws G e (phases e) W W' -> inside L p -> t = -1 \/ t = 1 -> beside L a (at_ a p) t = Some j -> ghost_entry L e p a t c q ->
  l_d L a (at_ a p) = d -> l_d L a j = d -> is_finite d = true -> (0 < B2R d <= bpow radix2 126)%R ->
  let near := at_rank L num W c (put a j p, put a (if t =? -1 then l_n L a j else 1) q) in
  let own := at_rank L num W c (p, put a (if t =? -1 then 1 else l_n L a (at_ a p)) q) in
  is_finite near = true -> (Rabs (B2R near) <= bpow radix2 127)%R -> is_finite own = true ->
  is_finite (at_rank L num W' c (p, q)) = true /\ B2R (at_rank L num W' c (p, q)) = B2R near.
Proof.
  intros L num ws G e W W' p a t j c q d OK HB He H Hp Ht Ej Hq El Er Fd Bd near own Fn Bn Fo.
  destruct (C53_ghost_values b32 Farith L num ws G e W OK HB He) as [_ E]. specialize (E W' p a t j c q H Hp Ht Ej Hq). cbv zeta in E. rewrite El, Er in E. fold near own in E. rewrite E.
  apply (equal_weights d near own (B2R d) (B2R near) (B2R own)); try split; try reflexivity; try apply Bd; assumption.
Qed.
Print Assumptions C53_equal_cells_single.

(* Nothing else is changed, in particular no ghost entry at a face without neighbour. *)
Theorem C53_rest_unchanged : forall V (A : rarith V) L num ws G e W W' p c q, layout_ok L -> box L num ws G -> ghost_exchange e ->
  run_phases V A ws G e (phases e) W W' -> inside L p -> (forall a, 0 <= at_ a q <= l_n L a (at_ a p) + 1) ->
  (forall a t, t = -1 \/ t = 1 -> ghost_entry L e p a t c q -> beside L a (at_ a p) t = None) ->
  at_rank L num W' c (p, q) = at_rank L num W c (p, q).
Proof.
  intros V A L num ws G e W W' p c q OK HB He H Hp Hm Hn. assert (Hg : ghosted e = true) by (destruct He as [-> |[-> | ->]]; reflexivity).
  destruct (ghost_run A L num ws G OK HB e Hg W W' p H Hp) as [R _]. apply R; [exact Hm|]. intros a s Hs Hb Hgot. apply Hb.
  apply (got_ghost L e Hg p a s c q Hs) in Hgot. destruct Hgot as (Q1 & Q2 & Q3). apply Hn; [unfold sign in Hs; lia|]. split; [exact Q1|]. split; [|exact Q3]. rewrite Q2. destruct Hs as [-> | ->]; reflexivity.
Qed.
Print Assumptions C53_rest_unchanged.

(* Two ranks along x with 2 cells of size 1 and 1 cell of size 3: the magnetic field 10x+5 at the cell middles x = 1/2, 3/2 and 7/2 gets its value at x = 5/2 in
   the first rank's ghost entry, and at x = 1/2 - well outside the second rank's own cell, which is at 7/2 - in the second's. *)
Definition L2 : layout R := mk_layout R (fun a => match a with AX => 2 | _ => 1 end) (fun _ => false)
  (fun a i => match a with AX => if i =? 0 then 2 else 1 | _ => 1 end) (fun a i => match a with AX => if i =? 0 then 1%R else 3%R | _ => 1%R end).
Definition G2 (r : Z) : cgrid R := mk_cgrid R (if r =? 0 then (2, 1, 1) else (1, 1, 1)) (fun a => match a with AX => if r =? 0 then 1%R else 3%R | _ => 1%R end)
  (fun p => if (p =? 14) && (r =? 0) then 1 else if (p =? 12) && (r =? 1) then 0 else -1).
Lemma L2_ok : layout_ok L2.
Proof. split; [intros [| |]; cbn; lia|intros [| |] i _; cbn; try lia; destruct (i =? 0); lia]. Qed.
Lemma box2 : box L2 (at_ AX) 2 G2.
Proof.
  unfold box, inside.
  assert (I : forall p, (forall a, 0 <= at_ a p < l_p L2 a) -> p = (0, 0, 0) \/ p = (1, 0, 0)).
  { intros [[x y] z] H. pose proof (H AX). pose proof (H AY). pose proof (H AZ). cbn in *. assert (x = 0 \/ x = 1) as [-> | ->] by lia; assert (y = 0) as -> by lia; assert (z = 0) as -> by lia; tauto. }
  split; [|split; [|split; [|split; [|split]]]].
  - intros p H. destruct (I p H) as [->| ->]; cbn; lia.
  - intros p q H H' E. destruct (I p H) as [->| ->]; destruct (I q H') as [->| ->]; cbn in E; try reflexivity; lia.
  - intros r Hr. assert (r = 0 \/ r = 1) as [-> | ->] by lia; [exists (0, 0, 0)|exists (1, 0, 0)]; (split; [intros [| |]; cbn; lia|reflexivity]).
  - intros p H. destruct (I p H) as [->| ->]; reflexivity.
  - intros p a H. destruct (I p H) as [->| ->]; destruct a; reflexivity.
  - intros p a s H [-> | ->]; destruct (I p H) as [->| ->]; destruct a; cbn; lia.
Qed.
Example C53_example : forall W W', run_phases R Rarith 2 G2 GhostTangB (phases GhostTangB) W W' ->
  at_rank L2 (at_ AX) W Cby ((0, 0, 0), (2, 1, 1)) = 20%R -> at_rank L2 (at_ AX) W Cby ((1, 0, 0), (1, 1, 1)) = 40%R ->
  at_rank L2 (at_ AX) W' Cby ((0, 0, 0), (3, 1, 1)) = 30%R /\ at_rank L2 (at_ AX) W' Cby ((1, 0, 0), (0, 1, 1)) = 10%R.
Proof.
  intros W W' H E0 E1. assert (Hd : forall b i, 0 <= i < l_p L2 b -> (0 < l_d L2 b i)%R) by (intros [| |] i _; cbn; try lra; destruct (i =? 0); lra).
  assert (K0 : ghost_entry L2 GhostTangB (0, 0, 0) AX 1 Cby (3, 1, 1)) by (split; [reflexivity|]; split; [reflexivity|]; intros [| |] Hb; cbn; try lia; contradiction).
  assert (K1 : ghost_entry L2 GhostTangB (1, 0, 0) AX (-1) Cby (0, 1, 1)) by (split; [reflexivity|]; split; [reflexivity|]; intros [| |] Hb; cbn; try lia; contradiction).
  pose proof (C53_exact L2 (at_ AX) 2 G2 GhostTangB W W' (0, 0, 0) AX 1 1 Cby (3, 1, 1) L2_ok box2 (or_introl eq_refl) Hd H ltac:(intros [| |]; cbn; lia) ltac:(lia) eq_refl K0) as [A0 _].
  pose proof (C53_exact L2 (at_ AX) 2 G2 GhostTangB W W' (1, 0, 0) AX (-1) 0 Cby (0, 1, 1) L2_ok box2 (or_introl eq_refl) Hd H ltac:(intros [| |]; cbn; lia) ltac:(lia) eq_refl K1) as [A1 _].
  cbn [put at_ Z.eqb Pos.eqb l_n l_d L2] in A0, A1. split.
  - refine (eq_trans (A0 5%R 10%R (3 / 2)%R _ _) _); [change (at_rank L2 (at_ AX) W Cby ((0, 0, 0), (2, 1, 1)) = (5 + 10 * (3 / 2))%R); lra|change (at_rank L2 (at_ AX) W Cby ((1, 0, 0), (1, 1, 1)) = (5 + 10 * (3 / 2 + 1 * (1 / 2 + 3 / 2)))%R); lra|lra].
  - refine (eq_trans (A1 5%R 10%R (7 / 2)%R _ _) _); [change (at_rank L2 (at_ AX) W Cby ((1, 0, 0), (1, 1, 1)) = (5 + 10 * (7 / 2))%R); lra|change (at_rank L2 (at_ AX) W Cby ((0, 0, 0), (2, 1, 1)) = (5 + 10 * (7 / 2 + -1 * (3 / 2 + 1 / 2)))%R); lra|lra].
Qed.
