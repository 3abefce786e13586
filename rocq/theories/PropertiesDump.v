(* C70: what the dump files of src/vpic/dump.cc contain. *)
From Coq Require Import ZArith List Bool Lia ZifyBool ZifyNat.
From Verif Require Import VoxelModel CheckptModel DumpModel DumpSpec DumpProofs DumpProofs2.
Import ListNotations.
Open Scope Z_scope.
Ltac Zify.zify_post_hook ::= idtac.

(* ---- banded dumps ---- *)
(* A banded field dump whose strides divide the mesh and are all 1 or all at least 2, and whose variables are
   among the 20 words of a field: the file announces the reduced mesh, has a band for every chosen variable in
   the order of the bits, and in a band the point i, j, k holds that word of the sampled cell. *)
Theorem C70_field_bands : forall f m st bits w fl,
  mesh_ok m -> strides_ok m st -> even_strides st -> 0 <= bits < 2 ^ 20 ->
  let nx := m_nx m / s_x st in let ny := m_ny m / s_y st in let nz := m_nz m / s_z st in
  exists data cx cy cz,
    field_dump f m st band bits w fl =
      DOk (v0 1 w nx ny nz fl (-1) 0 ++ array_header 80 [nx + 2; ny + 2; nz + 2], data) /\
    Z.of_nat (length data) = pop 20 bits * ((nx + 2) * (ny + 2) * (nz + 2)) /\
    sampled (m_nx m) (s_x st) cx /\ sampled (m_ny m) (s_y st) cy /\ sampled (m_nz m) (s_z st) cz /\
    forall b i j k, (b < 20)%nat -> Z.testbit bits (Z.of_nat b) = true ->
      0 <= i < nx + 2 -> 0 <= j < ny + 2 -> 0 <= k < nz + 2 ->
      nth_error data (place (nx + 2) (ny + 2) (nz + 2) (pop b bits) i j k) =
        Some (f (20 * cell m (cx i) (cy j) (cz k) + Z.of_nat b)).
Proof.
  intros f m st bits w fl Hm Hs He Hb nx ny nz.
  destruct (even_src m st Hm Hs He) as (E1 & E2 & E3).
  destruct (band_ok f (field_words * m_nv m) field_words m st bits 24 Hm Hs) as (data & Hd & HL & Hp).
  { apply Z.le_refl. } { apply (numvars_below bits 20); [lia|lia|exact Hb]. }
  { intros b Hb1 Ht. unfold field_words. destruct (Z_lt_ge_dec (Z.of_nat b) 20) as [|Hge]; [assumption|].
    rewrite (small_bits bits 20) in Ht by (try exact Hb; lia). discriminate. }
  exists data, (src st (m_nx m) (s_x st)), (src st (m_ny m) (s_y st)), (src st (m_nz m) (s_z st)).
  split; [|split; [|split; [exact E1|split; [exact E2|split; [exact E3|]]]]].
  - unfold field_dump. destruct (strides_accept m st Hs) as (-> & -> & ->). cbv zeta.
    change total_field_variables with (Z.of_nat 24). rewrite Hd. reflexivity.
  - rewrite HL. f_equal. apply (pop_same 20 4). intros b Hr. apply (small_bits bits 20); [exact Hb|lia].
  - intros b i j k Hb1 Ht Hi Hj Hk. rewrite <- vox_cell. apply Hp; try assumption. lia.
Qed.
Print Assumptions C70_field_bands.
(* 4 by 2 by 2 cells, strides 2, the variables 0 and 5: two bands of 4 by 3 by 3 points; the point 2, 1, 1 is the
   cell 3, 1, 1 *)
Example C70_field_bands_example :
  match field_dump (fun a => a) (mkm 4 2 2) (mkst 2 2 2) band 33 (mkwr 7 0 1) (mkfl 0 0 0 0 0 0 0 0 0) with
  | DOk (_, data) => length data = 72%nat /\ nth_error data (place 4 3 3 1 2 1 1) = Some (20 * cell (mkm 4 2 2) 3 1 1 + 5)
                     /\ nth_error data (place 4 3 3 0 3 2 2) = Some (20 * cell (mkm 4 2 2) 5 3 3)
  | _ => False end.
Proof. vm_compute. repeat split; reflexivity. Qed.

(* The same for the hydro arrays, whatever the padding of a hydro_t. *)
Theorem C70_hydro_bands : forall width size h m st bits w fl id qm,
  mesh_ok m -> strides_ok m st -> even_strides st -> 14 <= width -> width * m_nv m <= size ->
  0 <= bits < 2 ^ 14 \/ (forall b, 0 <= b < 14 -> Z.testbit bits b = true) ->
  let nx := m_nx m / s_x st in let ny := m_ny m / s_y st in let nz := m_nz m / s_z st in
  exists data cx cy cz,
    hydro_dump width size h m st band bits w fl id qm =
      DOk (v0 2 w nx ny nz fl id qm ++ array_header (4 * width) [nx + 2; ny + 2; nz + 2], data) /\
    Z.of_nat (length data) = pop 14 bits * ((nx + 2) * (ny + 2) * (nz + 2)) /\
    sampled (m_nx m) (s_x st) cx /\ sampled (m_ny m) (s_y st) cy /\ sampled (m_nz m) (s_z st) cz /\
    forall b i j k, (b < 14)%nat -> Z.testbit bits (Z.of_nat b) = true ->
      0 <= i < nx + 2 -> 0 <= j < ny + 2 -> 0 <= k < nz + 2 ->
      nth_error data (place (nx + 2) (ny + 2) (nz + 2) (pop b bits) i j k) =
        Some (h (width * cell m (cx i) (cy j) (cz k) + Z.of_nat b)).
Proof.
  intros width size h m st bits w fl id qm Hm Hs He Hw Hsz Hb nx ny nz.
  destruct (even_src m st Hm Hs He) as (E1 & E2 & E3).
  destruct (band_ok h size width m st bits 14 Hm Hs) as (data & Hd & HL & Hp).
  { exact Hsz. }
  { destruct Hb as [Hb|Hb]; [apply (numvars_below bits 14); [lia|lia|exact Hb]|]. unfold numvars. rewrite bitsum_pop.
    pose proof (pop_mono 14 18 bits) as M. change (14 + 18)%nat with 32%nat in M.
    assert (E : pop 14 bits = 14) by (cbn [pop]; rewrite !Hb by lia; reflexivity). lia. }
  { intros; lia. }
  exists data, (src st (m_nx m) (s_x st)), (src st (m_ny m) (s_y st)), (src st (m_nz m) (s_z st)).
  split; [|split; [|split; [exact E1|split; [exact E2|split; [exact E3|]]]]].
  - unfold hydro_dump. destruct (strides_accept m st Hs) as (-> & -> & ->). cbv zeta.
    change total_hydro_variables with (Z.of_nat 14). rewrite Hd. reflexivity.
  - exact HL.
  - intros b i j k Hb1 Ht Hi Hj Hk. rewrite <- vox_cell. apply Hp; assumption.
Qed.
Print Assumptions C70_hydro_bands.
(* all bits set: the 14 variables *)
Example C70_hydro_bands_example :
  match hydro_dump 16 (16 * 36) (fun a => a) (mkm 2 1 1) (mkst 1 1 1) band bits_all (mkwr 7 0 1) (mkfl 0 0 0 0 0 0 0 0 0) 1 0 with
  | DOk (_, data) => length data = (14 * 36)%nat /\ nth_error data (place 4 3 3 13 2 1 1) = Some (16 * cell (mkm 2 1 1) 2 1 1 + 13)
  | _ => False end.
Proof. vm_compute. split; reflexivity. Qed.

(* Strides that do not divide the mesh, and the stride 0, are refused. *)
Theorem C70_bad_strides : forall f m st fmt bits w fl, 0 <= s_x st -> 0 <= s_y st -> 0 <= s_z st ->
  ~ ((s_x st | m_nx m) /\ (s_y st | m_ny m) /\ (s_z st | m_nz m) /\ s_x st <> 0 /\ s_y st <> 0 /\ s_z st <> 0) ->
  field_dump f m st fmt bits w fl = DErr /\
  forall width size h id qm, hydro_dump width size h m st fmt bits w fl id qm = DErr.
Proof.
  intros f m st fmt bits w fl P1 P2 P3 H.
  assert (B : forall n s, bad_stride n s = false -> s <> 0 /\ (s | n)).
  { intros n s Hb. unfold bad_stride in Hb. destruct (Z.eq_dec s 0); [lia|]. split; [assumption|]. apply Z.mod_divide; lia. }
  unfold field_dump, hydro_dump.
  destruct (bad_stride (m_nx m) (s_x st)) eqn:Bx; [split; reflexivity|].
  destruct (bad_stride (m_ny m) (s_y st)) eqn:By; [split; reflexivity|].
  destruct (bad_stride (m_nz m) (s_z st)) eqn:Bz; [split; reflexivity|].
  apply B in Bx, By, Bz. exfalso. apply H. tauto.
Qed.
Print Assumptions C70_bad_strides.
Example C70_bad_strides_example : field_dump (fun a => a) (mkm 4 2 2) (mkst 3 1 1) band 1 (mkwr 7 0 1) (mkfl 0 0 0 0 0 0 0 0 0) = DErr /\
  field_dump (fun a => a) (mkm 4 2 2) (mkst 1 0 1) band 1 (mkwr 7 0 1) (mkfl 0 0 0 0 0 0 0 0 0) = DErr.
Proof. split; reflexivity. Qed.

(* ---- strides of 1 beside others ---- *)
(* With a stride that is not 1 in some direction, the index i of a direction with stride s stands for the cell
   s i - 1, also where s is 1: the points 1 to n of that direction are the cells 0 to n-1. *)
Theorem C70_strided_points : forall f m st bits w fl,
  mesh_ok m -> strides_ok m st -> ~ (s_x st = 1 /\ s_y st = 1 /\ s_z st = 1) -> 0 <= bits < 2 ^ 20 ->
  let nx := m_nx m / s_x st in let ny := m_ny m / s_y st in let nz := m_nz m / s_z st in
  exists hdr data,
    field_dump f m st band bits w fl = DOk (hdr, data) /\
    forall b i j k, (b < 20)%nat -> Z.testbit bits (Z.of_nat b) = true ->
      0 <= i < nx + 2 -> 0 <= j < ny + 2 -> 0 <= k < nz + 2 ->
      nth_error data (place (nx + 2) (ny + 2) (nz + 2) (pop b bits) i j k) =
        Some (f (20 * cell m (strided (m_nx m) (s_x st) i) (strided (m_ny m) (s_y st) j) (strided (m_nz m) (s_z st) k) + Z.of_nat b)).
Proof.
  intros f m st bits w fl Hm Hs Hu Hb nx ny nz. apply not_unit in Hu.
  destruct (band_ok f (field_words * m_nv m) field_words m st bits 24 Hm Hs) as (data & Hd & HL & Hp).
  { apply Z.le_refl. } { apply (numvars_below bits 20); [lia|lia|exact Hb]. }
  { intros b Hb1 Ht. unfold field_words. destruct (Z_lt_ge_dec (Z.of_nat b) 20) as [|Hge]; [assumption|].
    rewrite (small_bits bits 20) in Ht by (try exact Hb; lia). discriminate. }
  exists (v0 1 w nx ny nz fl (-1) 0 ++ array_header 80 [nx + 2; ny + 2; nz + 2]), data. split.
  - unfold field_dump. destruct (strides_accept m st Hs) as (-> & -> & ->). cbv zeta.
    change total_field_variables with (Z.of_nat 24). rewrite Hd. reflexivity.
  - intros b i j k Hb1 Ht Hi Hj Hk. rewrite <- !(src_strided st) by exact Hu. rewrite <- vox_cell. apply Hp; try assumption. lia.
Qed.
Print Assumptions C70_strided_points.
(* 3 by 2 by 1 cells, strides 1, 2, 1: the points 1, 2, 3 of the row j = 1, k = 1 are the cells 0, 1, 2 of the ghost plane z = 0 *)
Example C70_strided_points_example :
  match field_dump (fun a => a / 20) (mkm 3 2 1) (mkst 1 2 1) band 1 (mkwr 7 0 1) (mkfl 0 0 0 0 0 0 0 0 0) with
  | DOk (_, data) => map (fun i => nth_error data (place 5 3 3 0 i 1 1)) [0; 1; 2; 3; 4] =
                     map (fun x => Some (cell (mkm 3 2 1) x 1 0)) [0; 0; 1; 2; 4]
  | _ => False end.
Proof. vm_compute. reflexivity. Qed.

(* So the last interior layer of a direction with stride 1 is in neither format of the file. *)
Theorem C70_last_layer_lost : forall f f' m st fmt bits w fl,
  mesh_ok m -> strides_ok m st -> ~ (s_x st = 1 /\ s_y st = 1 /\ s_z st = 1) -> 0 <= bits < 2 ^ 20 ->
  (forall x y z b, 0 <= x <= m_nx m + 1 -> 0 <= y <= m_ny m + 1 -> 0 <= z <= m_nz m + 1 -> 0 <= b < 20 ->
     ~ last_layer m st x y z -> f (20 * cell m x y z + b) = f' (20 * cell m x y z + b)) ->
  field_dump f m st fmt bits w fl = field_dump f' m st fmt bits w fl.
Proof.
  intros f f' m st fmt bits w fl Hm Hs Hu Hb H. apply not_unit in Hu. unfold field_dump, field_words.
  destruct (strides_accept m st Hs) as (-> & -> & ->). cbv zeta. rewrite Hu.
  assert (K : forall b x, 0 <= b < 20 -> In x (map (vox m st) (triples (m_nx m / s_x st + 2) (m_ny m / s_y st + 2) (m_nz m / s_z st + 2))) ->
    f (20 * x + b) = f' (20 * x + b)).
  { intros b x Hbb Hx. apply in_map_iff in Hx. destruct Hx as (((i & j) & k) & <- & Hc). apply triples_In in Hc.
    rewrite vox_cell. destruct Hm as (M1 & M2 & M3), Hs as (S1 & S2 & S3 & D1 & D2 & D3).
    assert (NU : forall s, unit_strides st = true -> s = 1) by (intros; congruence).
    assert (NL : forall n i, 1 <= n -> 0 <= i < n / 1 + 2 -> src st n 1 i <> n).
    { intros n i0 Hn Hi0. rewrite Z.div_1_r in Hi0. unfold src, off. rewrite Hu, Z.div_1_r.
      destruct (i0 =? 0) eqn:E0; [lia|]. destruct (i0 =? n + 1) eqn:E1; lia. }
    destruct Hc as (Hi & Hj & Hk). apply H; try assumption.
    - apply src_range; auto.
    - apply src_range; auto.
    - apply src_range; auto.
    - intros [(L1 & L2)|[(L1 & L2)|(L1 & L2)]]; rewrite L1 in *; eapply NL; try exact L2; assumption. }
  destruct fmt.
  - rewrite (bands_ext f f'); [reflexivity|]. intros b x Hbb Hx. apply varlist_In in Hbb. apply K; [|exact Hx].
    destruct (Z_lt_ge_dec b 20); [lia|]. rewrite (small_bits bits 20) in Hbb by (try exact Hb; lia). destruct Hbb; discriminate.
  - rewrite (whole_ext f f'); [reflexivity|]. exact K.
Qed.
Print Assumptions C70_last_layer_lost.
Example C70_last_layer_lost_example : last_layer (mkm 3 2 1) (mkst 1 2 1) 3 1 1 /\ ~ last_layer (mkm 3 2 1) (mkst 1 2 1) 2 2 0.
Proof. unfold last_layer. cbn. lia. Qed.

(* and the statement of C70_field_bands fails there: with the strides 1, 2, 1 the points are no samples *)
Theorem C70_mixed_strides_refuted : exists m st f f' bits, mesh_ok m /\ strides_ok m st /\ 0 <= bits < 2 ^ 20 /\
  (exists x y z, 1 <= x <= m_nx m /\ 1 <= y <= m_ny m /\ 1 <= z <= m_nz m /\ Z.testbit bits 0 = true /\
     f (20 * cell m x y z) <> f' (20 * cell m x y z)) /\ s_x st = 1 /\
  (forall w fl, field_dump f m st band bits w fl = field_dump f' m st band bits w fl) /\
  (forall n, 1 <= n -> ~ sampled n 1 (strided n 1)).
Proof.
  set (m := mkm 3 2 1). set (st := mkst 1 2 1). set (f := fun _ : Z => 0).
  set (f' := fun a => if a =? 20 * cell m 3 1 1 then 7 else 0).
  exists m, st, f, f', 1. split; [unfold mesh_ok, m; cbn; lia|]. split.
  { unfold strides_ok, m, st. cbn. repeat split; try lia; [exists 3|exists 1|exists 1]; reflexivity. }
  split; [lia|]. split; [exists 3, 1, 1; cbn; repeat split; try lia; discriminate|]. split; [reflexivity|]. split.
  - intros w fl. apply C70_last_layer_lost; try (unfold mesh_ok, m, st; cbn; lia).
    + unfold strides_ok, m, st. cbn. repeat split; try lia; [exists 3|exists 1|exists 1]; reflexivity.
    + intros x y z b Hx Hy Hz Hb HL. unfold f, f'. destruct (20 * cell m x y z + b =? 20 * cell m 3 1 1) eqn:E; [|reflexivity].
      exfalso. apply HL. left. split; [reflexivity|]. unfold cell, m in *. cbn [m_nx m_ny m_nz] in *. lia.
  - intros n Hn (_ & _ & Hc & _). specialize (Hc 1). rewrite Z.div_1_r in Hc. specialize (Hc ltac:(lia)).
    unfold strided in Hc. rewrite Z.div_1_r in Hc. cbn in Hc. destruct n; try lia. destruct p; cbn in Hc; lia.
Qed.
Print Assumptions C70_mixed_strides_refuted.

(* ---- variables ---- *)
(* The names of vpic.h go to bit 23 and a field has 20 words: choosing any of the bits 20 to 23 (fmat, cmat)
   reads past the end of the field array. *)
Theorem C70_high_variables : forall f m st bits b w fl, mesh_ok m -> strides_ok m st ->
  20 <= b < 24 -> Z.testbit bits b = true -> field_dump f m st band bits w fl = DOutside.
Proof.
  intros f m st bits b w fl Hm Hs Hb Ht. unfold field_dump. destruct (strides_accept m st Hs) as (-> & -> & ->). cbv zeta.
  change total_field_variables with (Z.of_nat 24). unfold field_words.
  rewrite (bands_outside f (20 * m_nv m) 20 m st bits 24 b); try assumption; try lia. reflexivity.
Qed.
Print Assumptions C70_high_variables.
(* cmat of a mesh of one cell *)
Example C70_high_variables_example : field_dump (fun a => a) (mkm 1 1 1) (mkst 1 1 1) band (2 ^ 23) (mkwr 7 0 1) (mkfl 0 0 0 0 0 0 0 0 0) = DOutside.
Proof. vm_compute. reflexivity. Qed.

(* A DumpParameters that was constructed has all bits set, and output_variables cannot clear any: its banded
   field dump always reads past the array. *)
Theorem C70_constructed_parameters : forall f m st mask w fl, mesh_ok m -> strides_ok m st -> 0 <= mask < 2 ^ 32 ->
  output_variables bits_all mask = bits_all /\ field_dump f m st band (output_variables bits_all mask) w fl = DOutside.
Proof.
  intros f m st mask w fl Hm Hs Hk.
  assert (E : output_variables bits_all mask = bits_all).
  { unfold output_variables, bits_set, bits_all. change 0xffffffff with (Z.ones 32). apply Z.bits_inj'. intros n Hn.
    rewrite Z.lor_spec. destruct (Z_lt_ge_dec n 32).
    - rewrite Z.ones_spec_low by lia. reflexivity.
    - rewrite Z.ones_spec_high by lia. cbn. apply (small_bits mask 32); [exact Hk|lia]. }
  split; [exact E|]. rewrite E. apply (C70_high_variables f m st bits_all 20); try assumption; [lia|reflexivity].
Qed.
Print Assumptions C70_constructed_parameters.
(* output_variables( electric ) *)
Example C70_constructed_parameters_example :
  field_dump (fun a => a) (mkm 1 1 1) (mkst 1 1 1) band (output_variables bits_all 7) (mkwr 7 0 1) (mkfl 0 0 0 0 0 0 0 0 0) = DOutside /\
  match field_dump (fun a => a) (mkm 1 1 1) (mkst 1 1 1) band (output_variables 0 7) (mkwr 7 0 1) (mkfl 0 0 0 0 0 0 0 0 0) with
  | DOk (_, data) => length data = 81%nat | _ => False end.
Proof. split; vm_compute; reflexivity. Qed.

(* Bits above the last variable are counted but not listed: the dump then uses entries of varlist that were
   never written.  For the fields always, *)
Theorem C70_extra_bits : forall f m st bits b w fl, mesh_ok m -> strides_ok m st ->
  (forall c, 20 <= c < 24 -> Z.testbit bits c = false) -> 24 <= b < 32 -> Z.testbit bits b = true ->
  field_dump f m st band bits w fl = DUninit.
Proof.
  intros f m st bits b w fl Hm Hs Hlow Hb Ht. unfold field_dump. destruct (strides_accept m st Hs) as (-> & -> & ->). cbv zeta.
  change total_field_variables with (Z.of_nat 24). unfold field_words.
  assert (E : numvars bits (Z.of_nat 24) = Z.of_nat (Z.to_nat (numvars bits (Z.of_nat 24)))).
  { rewrite Z2Nat.id; [reflexivity|]. unfold numvars. rewrite bitsum_pop. pose proof (pop_range 32 bits). lia. }
  assert (L : (length (varlist bits (Z.of_nat 24)) < Z.to_nat (numvars bits (Z.of_nat 24)))%nat).
  { pose proof (varlist_length 24 bits) as HL. unfold numvars. rewrite bitsum_pop.
    assert (P : pop 24 bits < pop (24 + 8) bits) by (apply (pop_more 24 8 bits (Z.to_nat b)); [lia|rewrite Z2Nat.id by lia; exact Ht]).
    change (24 + 8)%nat with 32%nat in P.
    assert (Q : pop 24 bits <= 20).
    { change 24%nat with (20 + 4)%nat. rewrite pop_same by (intros; apply Hlow; lia). pose proof (pop_range 20 bits). lia. }
    pose proof (pop_range 32 bits). lia. }
  rewrite E, bands_uninit; [reflexivity|exact L|].
  intros v x Hv Hx. apply varlist_In in Hv. apply (word_range 20 x v (m_nv m)); [|  |lia].
  - apply in_map_iff in Hx. destruct Hx as (((i & j) & k) & <- & Hc). apply triples_In in Hc. apply vox_range; try assumption; apply Hc.
  - destruct (Z_lt_ge_dec v 20); [lia|]. rewrite Hlow in Hv by lia. destruct Hv; discriminate.
Qed.
Print Assumptions C70_extra_bits.
Example C70_extra_bits_example : field_dump (fun a => a) (mkm 1 1 1) (mkst 1 1 1) band (2 ^ 31 + 7) (mkwr 7 0 1) (mkfl 0 0 0 0 0 0 0 0 0) = DUninit.
Proof. vm_compute. reflexivity. Qed.

(* for the hydro array exactly when one of its 14 variables is not chosen. *)
Theorem C70_extra_bits_hydro : forall width size h m st bits b c w fl id qm, mesh_ok m -> strides_ok m st ->
  14 <= width -> width * m_nv m <= size ->
  0 <= c < 14 -> Z.testbit bits c = false -> 14 <= b < 32 -> Z.testbit bits b = true ->
  hydro_dump width size h m st band bits w fl id qm = DUninit.
Proof.
  intros width size h m st bits b c w fl id qm Hm Hs Hw Hsz Hc Hcf Hb Ht. unfold hydro_dump.
  destruct (strides_accept m st Hs) as (-> & -> & ->). cbv zeta.
  change total_hydro_variables with (Z.of_nat 14).
  assert (E : numvars bits (Z.of_nat 14) = Z.of_nat (Z.to_nat (numvars bits (Z.of_nat 14)))).
  { rewrite Z2Nat.id; [reflexivity|]. unfold numvars. rewrite bitsum_pop. pose proof (pop_range 32 bits). lia. }
  assert (L : (length (varlist bits (Z.of_nat 14)) < Z.to_nat (numvars bits (Z.of_nat 14)))%nat).
  { pose proof (varlist_length 14 bits) as HL. unfold numvars. rewrite bitsum_pop.
    assert (P : pop 14 bits < pop (14 + 18) bits) by (apply (pop_more 14 18 bits (Z.to_nat b)); [lia|rewrite Z2Nat.id by lia; exact Ht]).
    change (14 + 18)%nat with 32%nat in P.
    assert (Q : pop 14 bits < 14).
    { assert (G : forall n, Z.of_nat n > c -> pop n bits < Z.of_nat n).
      { induction n as [|n IH]; intro Hn; [lia|]. cbn [pop]. destruct (Z.eq_dec (Z.of_nat n) c) as [->|].
        - rewrite Hcf. pose proof (pop_range n bits). lia.
        - specialize (IH ltac:(lia)). destruct (Z.testbit bits (Z.of_nat n)); lia. }
      apply (G 14%nat). lia. }
    pose proof (pop_range 32 bits). lia. }
  rewrite E, bands_uninit; [reflexivity|exact L|].
  intros v x Hv Hx. apply varlist_In in Hv. apply (word_range width x v (m_nv m)); [|lia|exact Hsz].
  apply in_map_iff in Hx. destruct Hx as (((i & j) & k) & <- & Hcc). apply triples_In in Hcc. apply vox_range; try assumption; apply Hcc.
Qed.
Print Assumptions C70_extra_bits_hydro.
(* the field mask rhof (bit 15) given to a hydro dump *)
Example C70_extra_bits_hydro_example :
  hydro_dump 16 (16 * 27) (fun a => a) (mkm 1 1 1) (mkst 1 1 1) band (2 ^ 15 + 7) (mkwr 7 0 1) (mkfl 0 0 0 0 0 0 0 0 0) 1 0 = DUninit.
Proof. vm_compute. reflexivity. Qed.

(* The material ids take two to a word (field_advance.h:157-158), so the band of bit 19, which vpic.h calls
   nmat, does not depend on the node material: two arrays that differ only in the word of ematz and nmat give
   the same file, and that file changes with fmatz and cmat. *)
Theorem C70_node_material_refuted : exists m st f f' w fl, mesh_ok m /\ strides_ok m st /\
  (forall v, 0 <= v < m_nv m -> f (20 * v + 17) <> f' (20 * v + 17)) /\
  field_dump f m st band (2 ^ 19) w fl = field_dump f' m st band (2 ^ 19) w fl /\
  exists hdr, field_dump f m st band (2 ^ 19) w fl = DOk (hdr, map (fun v => f (20 * v + 19)) (upto (m_nv m))).
Proof.
  set (m := mkm 1 1 1). set (st := mkst 1 1 1).
  set (f := fun a : Z => a). set (f' := fun a => if a mod 20 =? 17 then -1 else a).
  exists m, st, f, f', (mkwr 0 0 1), (mkfl 0 0 0 0 0 0 0 0 0).
  split; [unfold mesh_ok, m; cbn; lia|]. split.
  { unfold strides_ok, st, m. cbn. repeat split; try lia; exists 1; reflexivity. }
  split. { intros v Hv. unfold f, f'. replace ((20 * v + 17) mod 20) with 17 by (rewrite Z.add_comm, Z.mul_comm, Z.mod_add by lia; reflexivity). rewrite Z.eqb_refl. lia. }
  split; [vm_compute; reflexivity|]. eexists. vm_compute. reflexivity.
Qed.
Print Assumptions C70_node_material_refuted.

(* ---- whole structures ---- *)
(* The interleaved field dump and dump_fields write whole structures, with the same samples. *)
Theorem C70_field_interleaved : forall f m st bits w fl,
  mesh_ok m -> strides_ok m st -> even_strides st ->
  let nx := m_nx m / s_x st in let ny := m_ny m / s_y st in let nz := m_nz m / s_z st in
  exists data cx cy cz,
    field_dump f m st band_interleave bits w fl =
      DOk (v0 1 w nx ny nz fl (-1) 0 ++ array_header 80 [nx + 2; ny + 2; nz + 2], data) /\
    Z.of_nat (length data) = 20 * ((nx + 2) * (ny + 2) * (nz + 2)) /\
    sampled (m_nx m) (s_x st) cx /\ sampled (m_ny m) (s_y st) cy /\ sampled (m_nz m) (s_z st) cz /\
    forall b i j k, (b < 20)%nat -> 0 <= i < nx + 2 -> 0 <= j < ny + 2 -> 0 <= k < nz + 2 ->
      nth_error data (place (nx + 2) (ny + 2) (nz + 2) 0 i j k * 20 + b) =
        Some (f (20 * cell m (cx i) (cy j) (cz k) + Z.of_nat b)).
Proof.
  intros f m st bits w fl Hm Hs He nx ny nz.
  destruct (even_src m st Hm Hs He) as (E1 & E2 & E3). pose proof (c_pos m st Hm Hs) as (C1 & C2 & C3).
  fold nx in C1. fold ny in C2. fold nz in C3.
  set (pts := map (vox m st) (triples (nx + 2) (ny + 2) (nz + 2))).
  destruct (whole_ok f (20 * m_nv m) 20 (m_nv m) pts) as (data & Hd & HL & Hp); [lia|lia|apply pts_range; assumption|].
  exists data, (src st (m_nx m) (s_x st)), (src st (m_ny m) (s_y st)), (src st (m_nz m) (s_z st)).
  split; [|split; [|split; [exact E1|split; [exact E2|split; [exact E3|]]]]].
  - unfold field_dump, field_words. destruct (strides_accept m st Hs) as (-> & -> & ->). cbv zeta. fold nx ny nz.
    destruct (unit_strides st) eqn:U.
    + replace (upto ((nx + 2) * (ny + 2) * (nz + 2))) with pts; [rewrite Hd; reflexivity|].
      unfold pts. apply (nth_ext _ _ 0 0).
      * rewrite map_length, triples_length, upto_length. apply cube_length; lia.
      * intros n Hn. rewrite map_length, triples_length, cube_length in Hn by lia.
        set (p := Z.of_nat n). assert (Hpr : 0 <= p < (nx + 2) * (ny + 2) * (nz + 2)) by (unfold p; clear - Hn; lia).
        set (i := p mod (nx + 2)). set (j := (p / (nx + 2)) mod (ny + 2)). set (k := p / (nx + 2) / (ny + 2)).
        assert (Hi : 0 <= i < nx + 2) by (apply Z.mod_pos_bound; lia). assert (Hj : 0 <= j < ny + 2) by (apply Z.mod_pos_bound; lia).
        assert (Hk : 0 <= k < nz + 2).
        { unfold k. split; [apply Z.div_pos; [apply Z.div_pos; lia|lia]|]. apply Z.div_lt_upper_bound; [lia|]. apply Z.div_lt_upper_bound; [lia|].
          clear - Hpr. nia. }
        assert (EP : p = (k * (ny + 2) + j) * (nx + 2) + i).
        { pose proof (Z.div_mod p (nx + 2) ltac:(lia)) as A1. pose proof (Z.div_mod (p / (nx + 2)) (ny + 2) ltac:(lia)) as A2.
          fold i in A1. fold j in A2. fold k in A2. clear - A1 A2. rewrite A2 in A1. rewrite A1. ring. }
        apply nth_error_nth with (d := 0) (x := p) || idtac.
        rewrite (nth_error_nth _ _ 0 (x := p)).
        -- symmetry. apply nth_error_nth. replace n with (Z.to_nat p) by (unfold p; clear; lia). apply upto_nth. exact Hpr.
        -- rewrite nth_error_map. replace n with (Z.to_nat ((k * (ny + 2) + j) * (nx + 2) + i)) by (rewrite <- EP; unfold p; clear; lia).
           rewrite triples_nth by assumption. cbn [option_map]. f_equal. rewrite vox_cell. unfold src. rewrite U. unfold cell.
           apply unit_one in U. destruct U as (U1 & U2 & U3). rewrite EP. unfold nx, ny. rewrite U1, U2, !Z.div_1_r. ring.
    + fold pts. rewrite Hd. reflexivity.
  - rewrite HL. unfold pts. rewrite map_length, triples_length, cube_length by lia. change (Z.to_nat 20) with 20%nat.
    rewrite Nat2Z.inj_mul, Z2Nat.id by (apply cube_pos; assumption). lia.
  - intros b i j k Hb Hi Hj Hk. rewrite <- vox_cell.
    replace (place (nx + 2) (ny + 2) (nz + 2) 0 i j k * 20 + b)%nat with
      (Z.to_nat ((k * (ny + 2) + j) * (nx + 2) + i) * Z.to_nat 20 + Z.to_nat (Z.of_nat b))%nat.
    2:{ unfold place. rewrite Nat2Z.id. reflexivity. }
    rewrite (Hp _ (vox m st (i, j, k)) (Z.of_nat b)); [reflexivity| |clear - Hb; lia].
    unfold pts. rewrite nth_error_map, triples_nth by assumption. reflexivity.
Qed.
Print Assumptions C70_field_interleaved.
Example C70_field_interleaved_example :
  match field_dump (fun a => a) (mkm 4 2 2) (mkst 2 2 2) band_interleave 0 (mkwr 7 0 1) (mkfl 0 0 0 0 0 0 0 0 0) with
  | DOk (_, data) => length data = 720%nat /\ nth_error data (place 4 3 3 0 2 1 1 * 20 + 19) = Some (20 * cell (mkm 4 2 2) 3 1 1 + 19)
  | _ => False end.
Proof. vm_compute. split; reflexivity. Qed.

(* dump_fields and dump_hydro write the array as it is in memory. *)
Theorem C70_whole_arrays : forall f m w fl, mesh_ok m ->
  exists data, dump_fields f m w fl =
    DOk (v0 1 w (m_nx m) (m_ny m) (m_nz m) fl (-1) 0 ++ array_header 80 [m_nx m + 2; m_ny m + 2; m_nz m + 2], data) /\
  Z.of_nat (length data) = 20 * m_nv m /\ (forall a, 0 <= a < 20 * m_nv m -> nth_error data (Z.to_nat a) = Some (f a)) /\
  forall width size h id qm, 14 <= width -> width * m_nv m <= size ->
  exists data', dump_hydro width size h m w fl id qm =
    DOk (v0 2 w (m_nx m) (m_ny m) (m_nz m) fl id qm ++ array_header (4 * width) [m_nx m + 2; m_ny m + 2; m_nz m + 2], data') /\
  Z.of_nat (length data') = width * m_nv m /\ (forall a, 0 <= a < width * m_nv m -> nth_error data' (Z.to_nat a) = Some (h a)).
Proof.
  intros f m w fl Hm.
  assert (NV : 0 <= m_nv m) by (destruct Hm as (M1 & M2 & M3); unfold m_nv; nia).
  assert (G : forall width size mem, 1 <= width -> width * m_nv m <= size -> exists data, whole mem size width (upto (m_nv m)) = DOk data /\
    Z.of_nat (length data) = width * m_nv m /\ (forall a, 0 <= a < width * m_nv m -> nth_error data (Z.to_nat a) = Some (mem a))).
  { intros width size mem Hw Hsz. destruct (whole_ok mem size width (m_nv m) (upto (m_nv m))) as (data & Hd & HL & Hp); try assumption.
    { intros x. apply upto_In. }
    exists data. split; [exact Hd|]. split; [rewrite HL, upto_length, Nat2Z.inj_mul, !Z2Nat.id by lia; ring|].
    intros a Ha. pose proof (Z.div_mod a width ltac:(lia)) as DM. pose proof (Z.mod_pos_bound a width ltac:(lia)) as MB.
    assert (Q : 0 <= a / width < m_nv m) by (split; [apply Z.div_pos; lia|apply Z.div_lt_upper_bound; lia]).
    specialize (Hp (Z.to_nat (a / width)) (a / width) (a mod width) (upto_nth _ _ Q) MB). rewrite <- DM in Hp.
    rewrite <- Hp. f_equal. rewrite <- Z2Nat.inj_mul, <- Z2Nat.inj_add by nia. f_equal. lia. }
  destruct (G 20 (20 * m_nv m) f) as (data & Hd & HL & Hp); [lia|lia|]. exists data.
  unfold dump_fields, field_words. rewrite Hd. split; [reflexivity|]. split; [exact HL|]. split; [exact Hp|].
  intros width size h id qm Hw Hsz. destruct (G width size h) as (data' & Hd' & HL' & Hp'); [lia|exact Hsz|]. exists data'.
  unfold dump_hydro. rewrite Hd'. split; [reflexivity|]. split; [exact HL'|exact Hp'].
Qed.
Print Assumptions C70_whole_arrays.
Example C70_whole_arrays_example :
  match dump_fields (fun a => 3 * a) (mkm 1 1 1) (mkwr 7 0 1) (mkfl 0 0 0 0 0 0 0 0 0) with
  | DOk (_, data) => length data = 540%nat /\ nth_error data 539 = Some 1617 | _ => False end.
Proof. vm_compute. split; reflexivity. Qed.

(* The interleaved hydro dump has the dimensions without the ghosts, and yet starts in the ghosts: without
   strides it is the first nx ny nz elements of memory, *)
Theorem C70_hydro_interleaved : forall width size h m bits w fl id qm,
  mesh_ok m -> 14 <= width -> width * m_nv m <= size ->
  exists data, hydro_dump width size h m (mkst 1 1 1) band_interleave bits w fl id qm =
    DOk (v0 2 w (m_nx m) (m_ny m) (m_nz m) fl id qm ++ array_header (4 * width) [m_nx m; m_ny m; m_nz m], data) /\
  Z.of_nat (length data) = width * (m_nx m * m_ny m * m_nz m) /\
  forall p b, 0 <= p < m_nx m * m_ny m * m_nz m -> 0 <= b < width ->
    nth_error data (Z.to_nat p * Z.to_nat width + Z.to_nat b) = Some (h (width * p + b)).
Proof.
  intros width size h m bits w fl id qm Hm Hw Hsz. destruct Hm as (M1 & M2 & M3).
  assert (NV : 0 <= m_nx m * m_ny m * m_nz m <= m_nv m).
  { unfold m_nv. assert (0 <= m_nx m * m_ny m <= (m_nx m + 2) * (m_ny m + 2)) by nia. nia. }
  destruct (whole_ok h size width (m_nv m) (upto (m_nx m * m_ny m * m_nz m))) as (data & Hd & HL & Hp); [lia|exact Hsz| |].
  { intros x Hx. apply upto_In in Hx. lia. }
  exists data. unfold hydro_dump. cbn [s_x s_y s_z]. unfold bad_stride. rewrite !Z.mod_1_r, !Z.div_1_r. cbn [Z.eqb orb negb unit_strides s_x s_y s_z andb Pos.eqb].
  change (unit_strides (mkst 1 1 1)) with true. cbv zeta iota. rewrite Hd. split; [reflexivity|]. split.
  - rewrite HL, upto_length, Nat2Z.inj_mul, !Z2Nat.id by lia. ring.
  - intros p b Hpr Hb. apply Hp; [apply upto_nth; exact Hpr|exact Hb].
Qed.
Print Assumptions C70_hydro_interleaved.
(* 2 by 1 by 1 cells: the file has the ghosts 0, 0, 0 and 1, 0, 0 *)
Example C70_hydro_interleaved_example :
  match hydro_dump 16 (16 * 36) (fun a => a / 16) (mkm 2 1 1) (mkst 1 1 1) band_interleave 0 (mkwr 7 0 1) (mkfl 0 0 0 0 0 0 0 0 0) 1 0 with
  | DOk (_, data) => data = repeat (cell (mkm 2 1 1) 0 0 0) 16 ++ repeat (cell (mkm 2 1 1) 1 0 0) 16 | _ => False end.
Proof. vm_compute. reflexivity. Qed.

(* so that for no strides the file depends on the last interior cell. *)
Theorem C70_hydro_last_cell_refuted : forall width size h h' m st bits w fl id qm,
  mesh_ok m -> strides_ok m st -> 14 <= width ->
  (forall v b, 0 <= v -> 0 <= b < width -> v <> cell m (m_nx m) (m_ny m) (m_nz m) -> h (width * v + b) = h' (width * v + b)) ->
  hydro_dump width size h m st band_interleave bits w fl id qm = hydro_dump width size h' m st band_interleave bits w fl id qm.
Proof.
  intros width size h h' m st bits w fl id qm Hm Hs Hw H. unfold hydro_dump.
  destruct (strides_accept m st Hs) as (-> & -> & ->). cbv zeta.
  destruct Hm as (M1 & M2 & M3), Hs as (S1 & S2 & S3 & D1 & D2 & D3).
  destruct (unit_strides st) eqn:U.
  - rewrite (whole_ext h h'); [reflexivity|]. intros b x Hb Hx. apply upto_In in Hx. apply H; [lia|exact Hb|].
    apply unit_one in U. destruct U as (U1 & U2 & U3). rewrite U1, U2, U3, !Z.div_1_r in Hx. unfold cell. intro E.
    assert (m_nx m * m_ny m * m_nz m <= m_nx m + (m_nx m + 2) * (m_ny m + (m_ny m + 2) * m_nz m)); [|lia].
    assert (m_nx m * (m_ny m * m_nz m) <= (m_nx m + 2) * (m_ny m + (m_ny m + 2) * m_nz m)) by (apply Z.mul_le_mono_nonneg; nia). lia.
  - rewrite (whole_ext h h'); [reflexivity|]. intros b x Hb Hx. apply in_map_iff in Hx. destruct Hx as (((i & j) & k) & <- & Hc).
    apply triples_In in Hc. destruct Hc as (Hi & Hj & Hk).
    assert (G : forall n s i, 1 <= n -> 1 <= s -> (s | n) -> 0 <= i < n / s -> 0 <= src st n s i < n).
    { intros n s i0 Hn Hs0 (q & ->) Hi0. unfold src, off. rewrite U. rewrite Z.div_mul in * by lia.
      destruct (i0 =? 0) eqn:E0; [lia|]. destruct (i0 =? q + 1) eqn:E1; [lia|]. nia. }
    rewrite vox_cell. pose proof (G _ _ i M1 S1 D1 Hi) as G1. pose proof (G _ _ j M2 S2 D2 Hj) as G2. pose proof (G _ _ k M3 S3 D3 Hk) as G3.
    revert G1 G2 G3. generalize (src st (m_nx m) (s_x st) i) (src st (m_ny m) (s_y st) j) (src st (m_nz m) (s_z st) k). intros x y z G1 G2 G3.
    clear - H Hb G1 G2 G3 M1 M2 M3. unfold cell in *. apply H; [nia|exact Hb|].
    assert (y + (m_ny m + 2) * z < m_ny m + (m_ny m + 2) * m_nz m) by nia. nia.
Qed.
Print Assumptions C70_hydro_last_cell_refuted.
Example C70_hydro_last_cell_example : cell (mkm 2 1 1) 2 1 1 = 18 /\
  hydro_dump 16 (16 * 36) (fun a => a / 16) (mkm 2 1 1) (mkst 1 1 1) band_interleave 0 (mkwr 7 0 1) (mkfl 0 0 0 0 0 0 0 0 0) 1 0 =
  hydro_dump 16 (16 * 36) (fun a => if a / 16 =? 18 then -1 else a / 16) (mkm 2 1 1) (mkst 1 1 1) band_interleave 0 (mkwr 7 0 1) (mkfl 0 0 0 0 0 0 0 0 0) 1 0.
Proof. split; [reflexivity|]. vm_compute. reflexivity. Qed.

(* ---- particles ---- *)
(* The file announces np particles and holds every particle of the species once, in order and centred, and
   the species is left with its particles; up to 2^31 - 32768 of them. *)
Theorem C70_particles : forall (P : Type) (center : P -> P) ps m w fl id qm, Z.of_nat (length ps) <= 2 ^ 31 - 32768 ->
  dump_particles center ps m w fl id qm =
  DOk (v0 3 w (m_nx m) (m_ny m) (m_nz m) fl id qm ++ array_header 32 [Z.of_nat (length ps)], map center ps, ps).
Proof.
  intros P center ps m w fl id qm H. unfold dump_particles. change 0 with (0 * PBUF_SIZE) at 1.
  rewrite chunks_ok; [reflexivity|exact H|lia|]. rewrite Z.mul_0_l. change (Z.to_nat 0) with 0%nat. lia.
Qed.
Print Assumptions C70_particles.
Example C70_particles_example : exists h, dump_particles (fun x => x + 100) [1; 2; 3] (mkm 1 1 1) (mkwr 7 0 1) (mkfl 0 0 0 0 0 0 0 0 0) 1 0 =
  DOk (h, [101; 102; 103], [1; 2; 3]).
Proof. eexists. vm_compute. reflexivity. Qed.

(* With more (an int can count them) the loop counter overflows. *)
Theorem C70_particles_overflow : forall (P : Type) (center : P -> P) ps m w fl id qm,
  2 ^ 31 - 32768 < Z.of_nat (length ps) -> dump_particles center ps m w fl id qm = DOverflow.
Proof.
  intros P center ps m w fl id qm H. unfold dump_particles. change 0 with (0 * PBUF_SIZE) at 1.
  rewrite chunks_overflow; [reflexivity|exact H|lia|]. change (2 ^ 31) with 2147483648 in H. lia.
Qed.
Print Assumptions C70_particles_overflow.
Example C70_particles_overflow_example : forall p : Z,
  dump_particles (fun x => x) (repeat p (Z.to_nat (2 ^ 31 - 1))) (mkm 1 1 1) (mkwr 7 0 1) (mkfl 0 0 0 0 0 0 0 0 0) 1 0 = DOverflow.
Proof. intro p. apply C70_particles_overflow. rewrite repeat_length, Z2Nat.id by lia. lia. Qed.

(* ---- headers ---- *)
(* Every item of the header is at its offset, whatever follows; the header is 103 bytes long, 123 with the
   array header of a mesh and 115 with that of the particles. *)
Theorem C70_header : forall type w nx ny nz fl id qm rest,
  let l := v0 type w nx ny nz fl id qm in
  length (header_bytes l) = 103%nat /\
  (forall o s v, In (o, s, v) (layout type w nx ny nz fl id qm) ->
     at_offset (header_bytes l ++ rest) o s = v mod 2 ^ (8 * Z.of_nat s)) /\
  (forall elt dims, length (header_bytes (l ++ array_header elt dims)) = (111 + 4 * length dims)%nat) /\
  (forall elt dims n d, nth_error dims n = Some d -> 0 <= d < 2 ^ 31 ->
     at_offset (header_bytes (l ++ array_header elt dims) ++ rest) (111 + 4 * n) 4 = d) /\
  (forall elt dims, 0 <= elt < 2 ^ 31 -> at_offset (header_bytes (l ++ array_header elt dims) ++ rest) 103 4 = elt) /\
  (forall elt dims, Z.of_nat (length dims) < 2 ^ 31 ->
     at_offset (header_bytes (l ++ array_header elt dims) ++ rest) 107 4 = Z.of_nat (length dims)).
Proof.
  intros type w nx ny nz fl id qm rest l.
  assert (SA : forall a b, sizes (a ++ b) = (sizes a + sizes b)%nat).
  { intros a b. induction a as [|x a IH]; [reflexivity|]. cbn [app sizes fold_right] in *. unfold sizes in *. lia. }
  assert (SD : forall dims, sizes (map b4 dims) = (4 * length dims)%nat).
  { induction dims as [|d dims IH]; [reflexivity|]. cbn [map sizes fold_right length b4 fst] in *. unfold sizes in *. lia. }
  assert (SL : sizes l = 103%nat) by reflexivity.
  assert (LL : length l = 29%nat) by reflexivity.
  split; [rewrite header_length; reflexivity|]. split; [|split; [|split; [|split]]].
  - intros o s v Hin. apply In_nth_error in Hin. destruct Hin as (n & Hn).
    assert (Hlt : (n < 29)%nat) by (change 29%nat with (length (layout type w nx ny nz fl id qm)); apply nth_error_Some; rewrite Hn; discriminate).
    assert (G : nth_error l n = Some (s, v) /\ sizes (firstn n l) = o).
    { do 29 (destruct n as [|n]; [cbn in Hn; injection Hn as <- <- <-; split; reflexivity|]). lia. }
    destruct G as (Hv & <-). apply (header_item l n (s, v)). exact Hv.
  - intros elt dims. rewrite header_length, SA, SL. unfold array_header. rewrite SA, SD. cbn [sizes fold_right b4 fst]. lia.
  - intros elt dims n d Hd Hr.
    replace (111 + 4 * n)%nat with (sizes (firstn (31 + n) (l ++ array_header elt dims))).
    + rewrite (header_item _ (31 + n) (b4 d)); [apply Z.mod_small; change (2 ^ (8 * Z.of_nat (fst (b4 d)))) with (2 ^ 32); lia|].
      rewrite nth_error_app2 by (rewrite LL; lia). rewrite LL. replace (31 + n - 29)%nat with (2 + n)%nat by lia.
      cbn [array_header app nth_error Nat.add]. rewrite nth_error_map, Hd. reflexivity.
    + assert (Hn : (n < length dims)%nat) by (apply nth_error_Some; rewrite Hd; discriminate).
      rewrite firstn_app, LL, SA, firstn_all2 by (rewrite LL; lia). rewrite SL. replace (31 + n - 29)%nat with (2 + n)%nat by lia.
      cbn [array_header app firstn Nat.add sizes fold_right b4 fst]. fold (sizes (firstn n (map b4 dims))).
      rewrite firstn_map, SD, firstn_length_le by lia. lia.
  - intros elt dims Hr. change 103%nat with (sizes (firstn 29 (l ++ array_header elt dims))).
    rewrite (header_item _ 29 (b4 elt)); [apply Z.mod_small; change (2 ^ (8 * Z.of_nat (fst (b4 elt)))) with (2 ^ 32); lia|reflexivity].
  - intros elt dims Hr. change 107%nat with (sizes (firstn 30 (l ++ array_header elt dims))).
    rewrite (header_item _ 30 (b4 (Z.of_nat (length dims)))); [apply Z.mod_small; cbn [fst b4]; change (2 ^ (8 * Z.of_nat 4)) with (2 ^ 32); lia|reflexivity].
Qed.
Print Assumptions C70_header.
(* step 7 of rank 3 of 8: the step at the offset 31, the rank at 87, the number of ranks at 91 *)
Example C70_header_example : let h := header_bytes (v0 1 (mkwr 7 3 8) 4 2 2 (mkfl 0 0 0 0 0 0 0 0 0) (-1) 0 ++ array_header 80 [6; 4; 4]) in
  length h = 123%nat /\ at_offset h 31 4 = 7 /\ at_offset h 87 4 = 3 /\ at_offset h 91 4 = 8 /\ at_offset h 95 4 = 2 ^ 32 - 1 /\
  at_offset h 103 4 = 80 /\ at_offset h 107 4 = 3 /\ at_offset h 119 4 = 4.
Proof. vm_compute. repeat split; reflexivity. Qed.

(* The step is written as an int: from 2^31 on the header no longer tells it. *)
Theorem C70_step_truncated_refuted : exists s s', 0 <= s < s' /\ s' < 2 ^ 63 /\ forall type rank np nx ny nz fl id qm,
  header_bytes (v0 type (mkwr s rank np) nx ny nz fl id qm) = header_bytes (v0 type (mkwr s' rank np) nx ny nz fl id qm).
Proof. exists 0, (2 ^ 32). split; [lia|]. split; [lia|]. intros. reflexivity. Qed.
Print Assumptions C70_step_truncated_refuted.

(* ---- the global header ---- *)
(* For masks made of whole groups the groups listed in the .vpc file have as many elements as the dump has
   bands, and their number is the number printed. *)
Theorem C70_groups : forall bits,
  (whole_groups field_groups bits -> 0 <= bits < 2 ^ 24 ->
     elements (snd (listed field_groups bits)) = numvars bits total_field_variables /\
     fst (listed field_groups bits) = Z.of_nat (length (snd (listed field_groups bits)))) /\
  (whole_groups hydro_groups bits -> 0 <= bits < 2 ^ 14 ->
     elements (snd (listed hydro_groups bits)) = numvars bits total_hydro_variables /\
     fst (listed hydro_groups bits) = Z.of_nat (length (snd (listed hydro_groups bits)))).
Proof.
  assert (FL : forall groups bits, fst (listed groups bits) = Z.of_nat (length (snd (listed groups bits)))).
  { intros groups bits. unfold listed, bitsum_of. cbn [fst snd].
    assert (E : length (filter (bitset bits) (map fst groups)) = length (filter (fun g : Z * Z => bitset bits (fst g)) groups)).
    { induction groups as [|g gs IH]; [reflexivity|]. cbn [map filter]. destruct (bitset bits (fst g)); cbn [length]; rewrite IH; reflexivity. }
    rewrite E. assert (L : (length (filter (fun g : Z * Z => bitset bits (fst g)) groups) <= length groups)%nat).
    { clear E. induction groups as [|g gs IH]; [cbn; lia|]. cbn [filter]. destruct (bitset bits (fst g)); cbn [length]; lia. }
    lia. }
  intro bits. split; intros HW Hb; (split; [|apply FL]).
  - change total_field_variables with (Z.of_nat 24). rewrite (numvars_below bits 24) by (try lia; exact Hb).
    unfold listed. cbn [snd]. rewrite elements_filter. unfold bitset. cbn [fold_right field_groups fst snd pop Z.of_nat Pos.of_succ_nat Pos.succ].
    assert (W : forall g c b, In (g, c) field_groups -> g <= b < g + c -> Z.testbit bits b = Z.testbit bits g) by (intros g c b Hg Hr; apply (HW (g, c)); assumption).
    rewrite (W 0 3 1), (W 0 3 2), (W 4 3 5), (W 4 3 6), (W 8 3 9), (W 8 3 10), (W 12 3 13), (W 12 3 14), (W 16 3 17), (W 16 3 18), (W 20 3 21), (W 20 3 22)
      by (first [lia|unfold field_groups; cbn [In]; tauto]).
    generalize (if Z.testbit bits 0 then 1 else 0) (if Z.testbit bits 3 then 1 else 0) (if Z.testbit bits 4 then 1 else 0)
      (if Z.testbit bits 7 then 1 else 0) (if Z.testbit bits 8 then 1 else 0) (if Z.testbit bits 11 then 1 else 0)
      (if Z.testbit bits 12 then 1 else 0) (if Z.testbit bits 15 then 1 else 0) (if Z.testbit bits 16 then 1 else 0)
      (if Z.testbit bits 19 then 1 else 0) (if Z.testbit bits 20 then 1 else 0) (if Z.testbit bits 23 then 1 else 0). intros. ring.
  - change total_hydro_variables with (Z.of_nat 14). rewrite (numvars_below bits 14) by (try lia; exact Hb).
    unfold listed. cbn [snd]. rewrite elements_filter. unfold bitset. cbn [fold_right hydro_groups fst snd pop Z.of_nat Pos.of_succ_nat Pos.succ].
    assert (W : forall g c b, In (g, c) hydro_groups -> g <= b < g + c -> Z.testbit bits b = Z.testbit bits g) by (intros g c b Hg Hr; apply (HW (g, c)); assumption).
    rewrite (W 0 3 1), (W 0 3 2), (W 4 3 5), (W 4 3 6), (W 8 6 9), (W 8 6 10), (W 8 6 11), (W 8 6 12), (W 8 6 13)
      by (first [lia|unfold hydro_groups; cbn [In]; tauto]).
    generalize (if Z.testbit bits 0 then 1 else 0) (if Z.testbit bits 3 then 1 else 0) (if Z.testbit bits 4 then 1 else 0)
      (if Z.testbit bits 7 then 1 else 0) (if Z.testbit bits 8 then 1 else 0). intros. ring.
Qed.
Print Assumptions C70_groups.
(* electric and rhof: two groups, four bands *)
Example C70_groups_example : listed field_groups (7 + 2 ^ 15) = (2, [(0, 3); (15, 1)]) /\ numvars (7 + 2 ^ 15) total_field_variables = 4.
Proof. split; reflexivity. Qed.
(* a mask with part of a group: one band (ey) and no group in the header *)
Theorem C70_groups_refuted : exists bits, 0 <= bits < 2 ^ 20 /\
  elements (snd (listed field_groups bits)) <> numvars bits total_field_variables.
Proof. exists 2. split; [lia|]. vm_compute. discriminate. Qed.
Print Assumptions C70_groups_refuted.

(* ---- names and texts ---- *)
(* The names of field_dump and hydro_dump fit their buffers for steps below 10^14, whatever the directories
   and names a DumpParameters can hold; with more digits they need not. *)
Theorem C70_file_names : forall d b step rank, 0 <= d <= 127 -> 0 <= b <= 127 -> 0 <= rank < 2 ^ 31 ->
  (0 <= step < 10 ^ 14 -> name_field_dump d b step rank = DOk tt) /\
  (exists step' rank', 0 <= step' < 2 ^ 63 /\ 0 <= rank' < 2 ^ 31 /\ name_field_dump 127 127 step' rank' = DOverflow) /\
  (forall fbase ftag, 0 <= fbase <= 224 -> 0 <= step < 2 ^ 63 -> name_fields fbase ftag step rank = DOk tt) /\
  (forall fbase ftag, 254 <= fbase -> name_fields fbase ftag step rank = DOverflow).
Proof.
  intros d b step rank Hd Hb Hr.
  assert (R : 1 <= digits rank <= Z.of_nat 9 + 1) by (apply digits_bound; [change (10 ^ (Z.of_nat 9 + 1)) with 10000000000; lia|lia]).
  pose proof (digits_pos step) as DP.
  split; [|split; [|split]].
  - intro Hs. assert (S14 : 1 <= digits step <= Z.of_nat 13 + 1) by (apply digits_bound; [exact Hs|lia]).
    unfold name_field_dump, sprintf. replace (256 <? d + 3 + digits step + 1) with false by lia. cbn [dbind].
    replace (300 <? _) with false by lia. reflexivity.
  - exists (10 ^ 18), 10. split; [lia|]. split; [lia|]. vm_compute. reflexivity.
  - intros fbase ftag Hf Hs. assert (S19 : 1 <= digits step <= Z.of_nat 18 + 1).
    { apply digits_bound; [|lia]. change (10 ^ (Z.of_nat 18 + 1)) with 10000000000000000000. lia. }
    unfold name_fields, sprintf. destruct ftag; replace (256 <? _) with false by lia; reflexivity.
  - intros fbase ftag Hf. unfold name_fields, sprintf. destruct ftag; replace (256 <? _) with true by lia; reflexivity.
Qed.
Print Assumptions C70_file_names.
Example C70_file_names_example : name_field_dump 127 127 (10 ^ 14 - 1) (2 ^ 31 - 1) = DOk tt /\ name_fields 250 true 12345 0 = DOverflow.
Proof. split; vm_compute; reflexivity. Qed.

(* dump_species prints no separator between species: the file does not determine the species, however the
   numbers are printed. *)
Theorem C70_species_text_refuted : forall e i, exists l l', length l <> length l' /\ dump_species e i l = dump_species e i l'.
Proof.
  intros e i. exists [mksp [65] 0 1 1; mksp [66] 1 2 2].
  exists [mksp ([65; 32] ++ i 0 ++ [32] ++ e 1 ++ [32] ++ e 1 ++ [66]) 1 2 2]. split; [discriminate|].
  unfold dump_species. cbn [flat_map l_name l_id l_q l_m]. rewrite !app_nil_r. rewrite <- !app_assoc. reflexivity.
Qed.
Print Assumptions C70_species_text_refuted.

(* dump_materials does: with names without a newline ("names do not contain any \n", dump.cc:79) and numbers
   printed without spaces and newlines, equal files have equal texts for every item of every material. *)
Theorem C70_materials_text : forall e i l l', (forall x, plain (e x)) -> (forall x, plain (i x)) ->
  (forall m, In m l \/ In m l' -> ~ In 10 (k_name m)) ->
  dump_materials e i l = dump_materials e i l' -> map (mat_text e i) l = map (mat_text e i) l'.
Proof.
  intros e i l l' He Hi. revert l'. induction l as [|m l IH]; intros l' Hn E; destruct l' as [|m' l'].
  - reflexivity.
  - exfalso. apply (f_equal (@length Z)) in E. cbn [dump_materials flat_map] in E. rewrite !app_length in E. cbn [length] in E. lia.
  - exfalso. apply (f_equal (@length Z)) in E. cbn [dump_materials flat_map] in E. rewrite !app_length in E. cbn [length] in E. lia.
  - unfold dump_materials in E. cbn [flat_map] in E. rewrite <- !app_assoc in E. unfold nl, sp in E.
    assert (PE : forall x, ~ In 10 (e x) /\ ~ In 32 (e x)) by exact He. assert (PI : forall x, ~ In 10 (i x) /\ ~ In 32 (i x)) by exact Hi.
    apply cut_at in E; [|apply Hn; left; left; reflexivity|apply Hn; right; left; reflexivity]. destruct E as (E0 & E).
    apply cut_at in E; [|apply PI|apply PI]. destruct E as (E1 & E).
    do 9 (apply cut_at in E; [|apply PE|apply PE]; let Q := fresh "Q" in destruct E as (Q & E)).
    cbn [map]. f_equal.
    + unfold mat_text. cbn [seq map]. congruence.
    + apply IH; [|exact E]. intros k [Hk|Hk]; apply Hn; [left|right]; right; exact Hk.
Qed.
Print Assumptions C70_materials_text.
Example C70_materials_text_example : length (dump_materials (fun x => [x]) (fun x => [x]) [mkml [65; 66] 48 [49; 50; 51; 52; 53; 54; 55; 56; 57]]) = 23%nat.
Proof. reflexivity. Qed.

(* ---- the grid dump ---- *)
Theorem C70_grid : forall m bc range neighbor w fl, mesh_ok m -> 1 <= w_nproc w ->
  length bc = 27%nat -> Z.of_nat (length range) = w_nproc w + 1 -> Z.of_nat (length neighbor) = 6 * m_nv m ->
  (6 * m_nv m <= INT_MAX ->
   dump_grid m bc range neighbor w fl = DOk (v0 0 w (m_nx m) (m_ny m) (m_nz m) fl (-1) 0 ++
     array_header 4 [3; 3; 3] ++ map b4 bc ++ array_header 8 [w_nproc w + 1] ++ map b8 range ++
     array_header 8 [6; m_nx m + 2; m_ny m + 2; m_nz m + 2] ++ map b8 neighbor)) /\
  (INT_MAX < 6 * m_nv m -> dump_grid m bc range neighbor w fl = DOverflow).
Proof.
  intros m bc range neighbor w fl Hm Hp Hbc Hr Hn. unfold dump_grid.
  replace (6 * (m_nx m + 2) * (m_ny m + 2) * (m_nz m + 2)) with (6 * m_nv m) by (unfold m_nv; ring). cbv zeta. split; intro H.
  - replace (INT_MAX <? 6 * m_nv m) with false by lia.
    replace (_ || _ || _) with false by (rewrite Hbc, Hr, Hn; lia).
    rewrite (firstn_all2 bc) by lia. rewrite (firstn_all2 range) by lia. rewrite (firstn_all2 neighbor) by lia. reflexivity.
  - replace (INT_MAX <? 6 * m_nv m) with true by lia. reflexivity.
Qed.
Print Assumptions C70_grid.
Example C70_grid_example : match dump_grid (mkm 1 1 1) (repeat 0 27) [0; 27] (repeat 5 162) (mkwr 0 0 1) (mkfl 0 0 0 0 0 0 0 0 0) with
  | DOk l => length (header_bytes l) = (103 + 20 + 108 + 12 + 16 + 24 + 1296)%nat | _ => False end.
Proof. vm_compute. reflexivity. Qed.
