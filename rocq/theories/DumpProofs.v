(* Proofs about the dumps of DumpModel.v *)
From Coq Require Import ZArith List Bool Lia ZifyBool ZifyNat.
From Verif Require Import VoxelModel CheckptModel DumpModel DumpSpec.
Import ListNotations.
Open Scope Z_scope.
Ltac Zify.zify_post_hook ::= idtac.

(* ---- lists ---- *)
Lemma upto_length : forall n, length (upto n) = Z.to_nat n.
Proof. intro n. unfold upto. rewrite map_length, seq_length. reflexivity. Qed.
Lemma upto_nth : forall n i, 0 <= i < n -> nth_error (upto n) (Z.to_nat i) = Some i.
Proof.
  intros n i H. unfold upto. rewrite nth_error_map.
  replace (nth_error (seq 0 (Z.to_nat n)) (Z.to_nat i)) with (Some (Z.to_nat i)).
  - cbn. f_equal. lia.
  - symmetry. rewrite (nth_error_nth' _ 0%nat) by (rewrite seq_length; lia). rewrite seq_nth by lia. reflexivity.
Qed.
Lemma upto_In : forall n x, In x (upto n) <-> 0 <= x < n.
Proof.
  intros n x. unfold upto. rewrite in_map_iff. split.
  - intros (k & <- & Hk). apply in_seq in Hk. lia.
  - intro H. exists (Z.to_nat x). split; [lia|]. apply in_seq. lia.
Qed.
Lemma upto_succ : forall n, upto (Z.of_nat (S n)) = upto (Z.of_nat n) ++ [Z.of_nat n].
Proof. intro n. unfold upto. rewrite !Nat2Z.id, seq_S, map_app. reflexivity. Qed.

Lemma flat_map_uniform_length : forall (A B : Type) (f : A -> list B) l n,
  (forall x, In x l -> length (f x) = n) -> length (flat_map f l) = (length l * n)%nat.
Proof.
  intros A B f l n. induction l as [|x l IH]; intro H; [reflexivity|].
  cbn [flat_map length]. rewrite app_length, (H x) by (left; reflexivity).
  rewrite IH by (intros; apply H; right; assumption). lia.
Qed.
Lemma flat_map_uniform_nth : forall (A B : Type) (f : A -> list B) l n k i x,
  (forall y, In y l -> length (f y) = n) -> nth_error l k = Some x -> (i < n)%nat ->
  nth_error (flat_map f l) (k * n + i) = nth_error (f x) i.
Proof.
  intros A B f l n. induction l as [|y l IH]; intros k i x H Hk Hi.
  - destruct k; discriminate.
  - cbn [flat_map]. pose proof (H y (or_introl eq_refl)) as Hy. destruct k as [|k].
    + cbn in Hk. injection Hk as ->. apply nth_error_app1. lia.
    + cbn in Hk. rewrite nth_error_app2 by lia.
      replace (S k * n + i - length (f y))%nat with (k * n + i)%nat by lia.
      apply IH; [intros; apply H; right; assumption|exact Hk|exact Hi].
Qed.

Lemma skipn_S : forall (A : Type) n (l : list A), skipn (S n) l = tl (skipn n l).
Proof. intros A n. induction n as [|n IH]; intro l; destruct l as [|x l]; try reflexivity. cbn [skipn]. rewrite <- IH. destruct l; reflexivity. Qed.

(* ---- the loops ---- *)
Lemma triples_length : forall cx cy cz, length (triples cx cy cz) = (Z.to_nat cz * (Z.to_nat cy * Z.to_nat cx))%nat.
Proof.
  intros. unfold triples. rewrite (flat_map_uniform_length _ _ _ _ (Z.to_nat cy * Z.to_nat cx)), upto_length; [reflexivity|].
  intros k _. rewrite (flat_map_uniform_length _ _ _ _ (Z.to_nat cx)), upto_length; [reflexivity|].
  intros j _. rewrite map_length, upto_length. reflexivity.
Qed.
Lemma triples_nth : forall cx cy cz i j k, 0 <= i < cx -> 0 <= j < cy -> 0 <= k < cz ->
  nth_error (triples cx cy cz) (Z.to_nat ((k * cy + j) * cx + i)) = Some (i, j, k).
Proof.
  intros cx cy cz i j k Hi Hj Hk. unfold triples.
  replace (Z.to_nat ((k * cy + j) * cx + i)) with (Z.to_nat k * (Z.to_nat cy * Z.to_nat cx) + (Z.to_nat j * Z.to_nat cx + Z.to_nat i))%nat.
  2:{ assert (0 <= k * cy) by nia. assert (0 <= (k * cy + j) * cx) by nia.
      apply Nat2Z.inj. rewrite !Nat2Z.inj_add, !Nat2Z.inj_mul, !Z2Nat.id by lia. ring. }
  rewrite (flat_map_uniform_nth _ _ _ _ _ _ _ k).
  - rewrite (flat_map_uniform_nth _ _ _ _ _ _ _ j).
    + rewrite nth_error_map, upto_nth by lia. reflexivity.
    + intros y _. rewrite map_length, upto_length. reflexivity.
    + apply upto_nth. lia.
    + lia.
  - intros y _. rewrite (flat_map_uniform_length _ _ _ _ (Z.to_nat cx)), upto_length; [reflexivity|].
    intros z _. rewrite map_length, upto_length. reflexivity.
  - apply upto_nth. lia.
  - nia.
Qed.
Lemma triples_In : forall cx cy cz i j k, In (i, j, k) (triples cx cy cz) <-> 0 <= i < cx /\ 0 <= j < cy /\ 0 <= k < cz.
Proof.
  intros. unfold triples. split.
  - intro H. apply in_flat_map in H. destruct H as (k' & Hk & H). apply in_flat_map in H. destruct H as (j' & Hj & H).
    apply in_map_iff in H. destruct H as (i' & E & Hi). injection E as -> -> ->. rewrite upto_In in *. lia.
  - intros (Hi & Hj & Hk). apply in_flat_map. exists k. rewrite upto_In. split; [lia|].
    apply in_flat_map. exists j. rewrite upto_In. split; [lia|]. apply in_map_iff. exists i. rewrite upto_In. split; [reflexivity|lia].
Qed.

(* ---- reads ---- *)
Lemma read_all_ok : forall mem size l, (forall a, In a l -> 0 <= a < size) -> read_all mem size l = DOk (map mem l).
Proof.
  intros mem size l. induction l as [|a l IH]; intro H; [reflexivity|]. cbn [read_all map]. unfold read at 1.
  pose proof (H a (or_introl eq_refl)). replace ((0 <=? a) && (a <? size)) with true by lia. cbn [dbind].
  rewrite IH by (intros; apply H; right; assumption). reflexivity.
Qed.
Lemma read_all_outside : forall mem size l a, In a l -> ~ (0 <= a < size) -> read_all mem size l = DOutside.
Proof.
  intros mem size l. induction l as [|b l IH]; intros a Ha Hn; [destruct Ha|]. cbn [read_all]. unfold read at 1.
  destruct ((0 <=? b) && (b <? size)) eqn:E; [|reflexivity]. cbn [dbind].
  destruct Ha as [->|Ha]; [lia|]. rewrite (IH a Ha Hn). reflexivity.
Qed.
Lemma read_all_ext : forall mem mem' size l, (forall a, In a l -> mem a = mem' a) -> read_all mem size l = read_all mem' size l.
Proof.
  intros mem mem' size l. induction l as [|b l IH]; intro H; [reflexivity|]. cbn [read_all]. unfold read.
  rewrite (H b) by (left; reflexivity). rewrite IH by (intros; apply H; right; assumption). reflexivity.
Qed.

(* ---- bands ---- *)
Lemma bands_app : forall mem size width vars pts l r, bands mem size width vars pts (l ++ r) =
  dbind (bands mem size width vars pts l) (fun d => dbind (bands mem size width vars pts r) (fun e => DOk (d ++ e))).
Proof.
  intros. induction l as [|v l IH]; cbn [app bands].
  - cbn [dbind]. destruct (bands _ _ _ _ _ r); reflexivity.
  - destruct (nth_error vars (Z.to_nat v)); [|reflexivity]. destruct (read_all _ _ _); cbn [dbind]; try reflexivity.
    rewrite IH. destruct (bands mem size width vars pts l); cbn [dbind]; try reflexivity.
    destruct (bands mem size width vars pts r); cbn [dbind]; try reflexivity. rewrite app_assoc. reflexivity.
Qed.
Lemma bands_ok_ : forall mem size width vars pts n s, (s + n <= length vars)%nat ->
  (forall b x, In b (firstn n (skipn s vars)) -> In x pts -> 0 <= width * x + b < size) ->
  bands mem size width vars pts (map Z.of_nat (seq s n)) =
  DOk (flat_map (fun b => map (fun x => mem (width * x + b)) pts) (firstn n (skipn s vars))).
Proof.
  intros mem size width vars pts n. induction n as [|n IH]; intros s Hs H; [reflexivity|].
  cbn [seq map bands]. rewrite Nat2Z.id.
  destruct (skipn s vars) as [|b rest] eqn:Es.
  { apply (f_equal (@length Z)) in Es. rewrite skipn_length in Es. cbn in Es. lia. }
  assert (En : nth_error vars s = Some b).
  { rewrite <- (firstn_skipn s vars), nth_error_app2; rewrite firstn_length_le by lia; [|lia]. rewrite Nat.sub_diag, Es. reflexivity. }
  assert (Er : skipn (S s) vars = rest).
  { rewrite skipn_S, Es. reflexivity. }
  rewrite En, read_all_ok.
  2:{ intros a Ha. apply in_map_iff in Ha. destruct Ha as (x & <- & Hx). apply H; [left; reflexivity|exact Hx]. }
  cbn [dbind]. rewrite IH; rewrite ?Er; [|lia|].
  - cbn [dbind firstn flat_map]. rewrite map_map. reflexivity.
  - intros b' x Hb Hx. apply H; [right; exact Hb|exact Hx].
Qed.
Lemma bands_ok : forall mem size width vars pts n, Z.to_nat n = length vars ->
  (forall b x, In b vars -> In x pts -> 0 <= width * x + b < size) ->
  bands mem size width vars pts (upto n) = DOk (flat_map (fun b => map (fun x => mem (width * x + b)) pts) vars).
Proof.
  intros mem size width vars pts n Hn H. unfold upto. rewrite bands_ok_.
  - cbn [skipn]. rewrite Hn, firstn_all. reflexivity.
  - lia.
  - intros b x Hb Hx. cbn [skipn] in Hb. rewrite Hn, firstn_all in Hb. apply H; assumption.
Qed.

(* ---- bits ---- *)
Lemma pop_range : forall n bits, 0 <= pop n bits <= Z.of_nat n.
Proof. intros n bits. induction n as [|n IH]; cbn [pop]; [lia|]. destruct (Z.testbit bits (Z.of_nat n)); lia. Qed.
Lemma pop_filter : forall n bits, Z.of_nat (length (filter (bitset bits) (upto (Z.of_nat n)))) = pop n bits.
Proof.
  intros n bits. induction n as [|n IH]; [reflexivity|]. rewrite upto_succ, filter_app, app_length.
  cbn [filter pop]. unfold bitset at 2. destruct (Z.testbit bits (Z.of_nat n)); cbn [length]; lia.
Qed.
Lemma varlist_nth : forall n bits b, (b < n)%nat -> Z.testbit bits (Z.of_nat b) = true ->
  nth_error (varlist bits (Z.of_nat n)) (Z.to_nat (pop b bits)) = Some (Z.of_nat b).
Proof.
  intros n bits b. unfold varlist. induction n as [|n IH]; intros Hb Ht; [lia|].
  rewrite upto_succ, filter_app. pose proof (pop_filter n bits) as Hp.
  destruct (Nat.eq_dec b n) as [->|Hn].
  - rewrite nth_error_app2 by lia. cbn [filter]. change (bitset bits (Z.of_nat n)) with (Z.testbit bits (Z.of_nat n)). rewrite Ht.
    replace (Z.to_nat (pop n bits) - _)%nat with 0%nat by lia. reflexivity.
  - assert (E : nth_error (filter (bitset bits) (upto (Z.of_nat n))) (Z.to_nat (pop b bits)) = Some (Z.of_nat b)) by (apply IH; [lia|exact Ht]).
    rewrite nth_error_app1; [exact E|]. apply nth_error_Some. rewrite E. discriminate.
Qed.
Lemma varlist_In : forall bits total b, In b (varlist bits total) <-> 0 <= b < total /\ Z.testbit bits b = true.
Proof. intros. unfold varlist. rewrite filter_In, upto_In. reflexivity. Qed.
Lemma varlist_length : forall n bits, Z.of_nat (length (varlist bits (Z.of_nat n))) = pop n bits.
Proof. intros. apply pop_filter. Qed.
Lemma pop_mono : forall n k bits, pop n bits <= pop (n + k) bits.
Proof.
  intros n k bits. induction k as [|k IH]; [rewrite Nat.add_0_r; lia|]. rewrite Nat.add_succ_r. cbn [pop].
  destruct (Z.testbit bits (Z.of_nat (n + k))); lia.
Qed.
Lemma pop_more : forall n k bits b, (n <= b < n + k)%nat -> Z.testbit bits (Z.of_nat b) = true -> pop n bits < pop (n + k) bits.
Proof.
  intros n k bits b. induction k as [|k IH]; intros Hb Ht; [lia|]. rewrite Nat.add_succ_r. cbn [pop].
  destruct (Nat.eq_dec b (n + k)) as [->|]; [rewrite Ht; pose proof (pop_mono n k bits); lia|].
  specialize (IH ltac:(lia) Ht). destruct (Z.testbit bits (Z.of_nat (n + k))); lia.
Qed.
Lemma pop_same : forall n k bits, (forall b, (n <= b < n + k)%nat -> Z.testbit bits (Z.of_nat b) = false) -> pop (n + k) bits = pop n bits.
Proof.
  intros n k bits. induction k as [|k IH]; intro H; [rewrite Nat.add_0_r; lia|]. rewrite Nat.add_succ_r. cbn [pop].
  rewrite (H (n + k)%nat) by lia. rewrite IH by (intros; apply H; lia). lia.
Qed.
Lemma bitsum_pop : forall bits, bitsum bits = pop 32 bits.
Proof. intro. unfold bitsum. apply (pop_filter 32). Qed.
Lemma small_bits : forall bits n b, 0 <= bits < 2 ^ n -> 0 <= n <= b -> Z.testbit bits b = false.
Proof.
  intros bits n b Hb Hn. destruct (Z.eq_dec bits 0) as [->|]; [apply Z.testbit_0_l|].
  apply Z.bits_above_log2; [lia|]. assert (Z.log2 bits < n) by (apply Z.log2_lt_pow2; lia). lia.
Qed.

(* ---- strides ---- *)
Lemma strides_accept : forall m st, strides_ok m st ->
  bad_stride (m_nx m) (s_x st) = false /\ bad_stride (m_ny m) (s_y st) = false /\ bad_stride (m_nz m) (s_z st) = false.
Proof.
  intros m st (H1 & H2 & H3 & D1 & D2 & D3). unfold bad_stride.
  apply Z.mod_divide in D1, D2, D3; lia.
Qed.
(* the cell of an output index *)
Definition src (st : strides) (n s i : Z) : Z := if unit_strides st then i else off n s (n / s) i.
Lemma vox_cell : forall m st i j k, vox m st (i, j, k) =
  cell m (src st (m_nx m) (s_x st) i) (src st (m_ny m) (s_y st) j) (src st (m_nz m) (s_z st) k).
Proof. intros. unfold vox, src, cell, voxel. destruct (unit_strides st); reflexivity. Qed.
Lemma src_range : forall st n s i, 1 <= n -> 1 <= s -> (s | n) -> (unit_strides st = true -> s = 1) -> 0 <= i < n / s + 2 ->
  0 <= src st n s i <= n + 1.
Proof.
  intros st n s i Hn Hs (q & ->) Hu Hi. rewrite Z.div_mul in Hi by lia. unfold src.
  destruct (unit_strides st); [rewrite (Hu eq_refl) in *; lia|]. unfold off. rewrite Z.div_mul by lia.
  destruct (i =? 0) eqn:E0; [nia|]. destruct (i =? q + 1) eqn:E1; [nia|]. nia.
Qed.
Lemma src_last : forall st n s, 1 <= n -> 1 <= s -> (s | n) -> (unit_strides st = true -> s = 1) -> src st n s (n / s + 1) = n + 1.
Proof.
  intros st n s Hn Hs (q & ->) Hu. unfold src, off. rewrite Z.div_mul by lia. destruct (unit_strides st).
  - rewrite (Hu eq_refl). lia.
  - replace (q + 1 =? 0) with false by nia. rewrite Z.eqb_refl. reflexivity.
Qed.
Lemma src_sampled : forall st n s, 1 <= n -> 1 <= s -> (s | n) ->
  (unit_strides st = true /\ s = 1 \/ unit_strides st = false /\ 2 <= s) -> sampled n s (src st n s).
Proof.
  intros st n s Hn Hs (q & ->) Hu. unfold sampled, src, off. rewrite Z.div_mul by lia.
  destruct Hu as [(-> & ->)|(-> & H2)].
  - repeat split; intros; lia.
  - replace (q + 1 =? 0) with false by nia. rewrite !Z.eqb_refl. split; [reflexivity|split; [reflexivity|split]].
    + intros i Hi. replace (i =? 0) with false by lia. replace (i =? q + 1) with false by lia. nia.
    + intros i Hi. replace (i =? 0) with false by lia. replace (i =? q + 1) with false by lia.
      replace (i + 1 =? 0) with false by lia. replace (i + 1 =? q + 1) with false by lia. lia.
Qed.
Lemma unit_one : forall st, unit_strides st = true -> s_x st = 1 /\ s_y st = 1 /\ s_z st = 1.
Proof. intros st H. unfold unit_strides in H. lia. Qed.
Lemma even_src : forall m st, mesh_ok m -> strides_ok m st -> even_strides st ->
  sampled (m_nx m) (s_x st) (src st (m_nx m) (s_x st)) /\ sampled (m_ny m) (s_y st) (src st (m_ny m) (s_y st)) /\
  sampled (m_nz m) (s_z st) (src st (m_nz m) (s_z st)).
Proof.
  intros m st (M1 & M2 & M3) (S1 & S2 & S3 & D1 & D2 & D3) He.
  destruct He as [(E1 & E2 & E3)|(E1 & E2 & E3)].
  - assert (U : unit_strides st = true) by (unfold unit_strides; lia).
    repeat split; apply src_sampled; auto.
  - assert (U : unit_strides st = false) by (unfold unit_strides; lia).
    repeat split; apply src_sampled; auto.
Qed.
Lemma cell_range : forall m x y z, mesh_ok m -> 0 <= x <= m_nx m + 1 -> 0 <= y <= m_ny m + 1 -> 0 <= z <= m_nz m + 1 ->
  0 <= cell m x y z < m_nv m.
Proof.
  intros [a b c] x y z (M1 & M2 & M3) Hx Hy Hz. unfold cell, m_nv in *. cbn [m_nx m_ny m_nz] in *.
  assert (0 <= y + (b + 2) * z <= (b + 2) * (c + 2) - 1) by nia. nia.
Qed.
Lemma vox_range : forall m st i j k, mesh_ok m -> strides_ok m st -> 0 <= i < m_nx m / s_x st + 2 -> 0 <= j < m_ny m / s_y st + 2 ->
  0 <= k < m_nz m / s_z st + 2 -> 0 <= vox m st (i, j, k) < m_nv m.
Proof.
  intros m st i j k Hm Hs Hi Hj Hk. rewrite vox_cell. pose proof (unit_one st) as U.
  destruct Hm as (M1 & M2 & M3), Hs as (S1 & S2 & S3 & D1 & D2 & D3).
  apply cell_range; [repeat split; assumption| | |]; apply src_range; try assumption; intro H; apply U in H; lia.
Qed.

(* ---- arithmetic of places ---- *)
Lemma word_range : forall width x b nv size, 0 <= x < nv -> 0 <= b < width -> width * nv <= size -> 0 <= width * x + b < size.
Proof. intros. nia. Qed.
Lemma place_lt : forall cx cy cz i j k, 0 <= i < cx -> 0 <= j < cy -> 0 <= k < cz -> 0 <= (k * cy + j) * cx + i < cx * cy * cz.
Proof. intros. assert (0 <= k * cy + j < cy * cz) by nia. nia. Qed.
Lemma place_split : forall cx cy cz v i j k, 0 <= v -> 0 <= i < cx -> 0 <= j < cy -> 0 <= k < cz ->
  place cx cy cz v i j k = (Z.to_nat v * Z.to_nat (cx * cy * cz) + Z.to_nat ((k * cy + j) * cx + i))%nat.
Proof.
  intros cx cy cz v i j k Hv Hi Hj Hk. unfold place. pose proof (place_lt cx cy cz i j k Hi Hj Hk).
  assert (0 <= v * (cx * cy * cz)) by nia. replace (((v * cz + k) * cy + j) * cx + i) with (v * (cx * cy * cz) + ((k * cy + j) * cx + i)) by ring.
  apply Nat2Z.inj. rewrite Nat2Z.inj_add, Nat2Z.inj_mul, !Z2Nat.id by lia. reflexivity.
Qed.
Lemma cube_length : forall cx cy cz, 0 <= cx -> 0 <= cy -> 0 <= cz -> (Z.to_nat cz * (Z.to_nat cy * Z.to_nat cx))%nat = Z.to_nat (cx * cy * cz).
Proof. intros. assert (0 <= cx * cy) by nia. apply Nat2Z.inj. rewrite !Nat2Z.inj_mul, !Z2Nat.id by nia. ring. Qed.

Lemma cube_pos : forall cx cy cz, 2 <= cx -> 2 <= cy -> 2 <= cz -> 0 <= cx * cy * cz.
Proof. intros. nia. Qed.
Lemma place_lt_nat : forall cx cy cz i j k, 0 <= i < cx -> 0 <= j < cy -> 0 <= k < cz ->
  (Z.to_nat ((k * cy + j) * cx + i) < Z.to_nat (cx * cy * cz))%nat.
Proof. intros cx cy cz i j k Hi Hj Hk. pose proof (place_lt cx cy cz i j k Hi Hj Hk). lia. Qed.

Lemma c_pos : forall m st, mesh_ok m -> strides_ok m st ->
  2 <= m_nx m / s_x st + 2 /\ 2 <= m_ny m / s_y st + 2 /\ 2 <= m_nz m / s_z st + 2.
Proof.
  intros m st (M1 & M2 & M3) (S1 & S2 & S3 & D1 & D2 & D3).
  assert (0 <= m_nx m / s_x st) by (apply Z.div_pos; lia). assert (0 <= m_ny m / s_y st) by (apply Z.div_pos; lia).
  assert (0 <= m_nz m / s_z st) by (apply Z.div_pos; lia). lia.
Qed.

(* ---- one banded dump ---- *)
Section Banded.
Variables (mem : Z -> Z) (size width : Z) (m : mesh) (st : strides) (bits : Z) (T : nat).
Hypothesis Hm : mesh_ok m.
Hypothesis Hs : strides_ok m st.
Let cx := m_nx m / s_x st + 2. Let cy := m_ny m / s_y st + 2. Let cz := m_nz m / s_z st + 2.
Let pts := map (vox m st) (triples cx cy cz).
Hypothesis Hw : 1 <= width.
Hypothesis Hsize : width * m_nv m <= size.

Lemma pts_range : forall x, In x pts -> 0 <= x < m_nv m.
Proof using Hm Hs.
  intros x Hx. apply in_map_iff in Hx. destruct Hx as (((i & j) & k) & <- & Hc). apply triples_In in Hc.
  apply vox_range; try assumption; apply Hc.
Qed.
Lemma band_ok : (numvars bits (Z.of_nat T) = pop T bits) -> (forall b, (b < T)%nat -> Z.testbit bits (Z.of_nat b) = true -> Z.of_nat b < width) ->
  exists data, bands mem size width (varlist bits (Z.of_nat T)) pts (upto (numvars bits (Z.of_nat T))) = DOk data /\
  Z.of_nat (length data) = pop T bits * (cx * cy * cz) /\
  forall b i j k, (b < T)%nat -> Z.testbit bits (Z.of_nat b) = true -> 0 <= i < cx -> 0 <= j < cy -> 0 <= k < cz ->
    nth_error data (place cx cy cz (pop b bits) i j k) = Some (mem (width * vox m st (i, j, k) + Z.of_nat b)).
Proof.
  intros Hn Hb. assert (PP : 2 <= cx /\ 2 <= cy /\ 2 <= cz) by exact (c_pos m st Hm Hs). destruct PP as (P1 & P2 & P3). pose proof (varlist_length T bits) as HL.
  rewrite bands_ok.
  2:{ rewrite Hn, <- HL. apply Nat2Z.id. }
  2:{ intros b x Hin Hx. apply varlist_In in Hin. destruct Hin as (Hr & Ht). apply pts_range in Hx.
      apply (word_range width x b (m_nv m)); [exact Hx| |exact Hsize].
      assert (Hlt : (Z.to_nat b < T)%nat) by (clear - Hr; lia). specialize (Hb (Z.to_nat b) Hlt).
      rewrite Z2Nat.id in Hb by (clear - Hr; lia). specialize (Hb Ht). clear - Hb Hr. lia. }
  assert (LP : length pts = Z.to_nat (cx * cy * cz)).
  { unfold pts. rewrite map_length, triples_length. apply cube_length; clear - P1 P2 P3; lia. }
  assert (PC : 0 <= cx * cy * cz) by (apply cube_pos; assumption).
  eexists. split; [reflexivity|]. split.
  - rewrite (flat_map_uniform_length _ _ _ _ (Z.to_nat (cx * cy * cz))).
    + rewrite Nat2Z.inj_mul, HL, Z2Nat.id by exact PC. reflexivity.
    + intros b _. rewrite map_length. exact LP.
  - intros b i j k Hbt Ht Hi Hj Hk. pose proof (pop_range b bits) as Hpb.
    rewrite place_split by (try assumption; apply Hpb).
    rewrite (flat_map_uniform_nth _ _ _ _ _ _ _ (Z.of_nat b)).
    + unfold pts. rewrite map_map, nth_error_map, triples_nth by assumption. reflexivity.
    + intros y _. rewrite map_length. exact LP.
    + apply varlist_nth; assumption.
    + apply place_lt_nat; assumption.
Qed.
End Banded.
(* the corner of the ghosts is the last voxel *)
Lemma last_point : forall m st, mesh_ok m -> strides_ok m st ->
  In (m_nv m - 1) (map (vox m st) (triples (m_nx m / s_x st + 2) (m_ny m / s_y st + 2) (m_nz m / s_z st + 2))).
Proof.
  intros m st Hm Hs. destruct (c_pos m st Hm Hs) as (P1 & P2 & P3). apply in_map_iff.
  exists (m_nx m / s_x st + 1, m_ny m / s_y st + 1, m_nz m / s_z st + 1). split.
  - rewrite vox_cell. destruct Hm as (M1 & M2 & M3), Hs as (S1 & S2 & S3 & D1 & D2 & D3). pose proof (unit_one st) as U.
    rewrite !src_last; try assumption; try (intro H; apply U in H; apply H). unfold cell, m_nv. ring.
  - apply triples_In. lia.
Qed.
