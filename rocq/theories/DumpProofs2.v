(* Further proofs about the dumps of DumpModel.v *)
From Coq Require Import ZArith List Bool Lia ZifyBool ZifyNat.
From Verif Require Import VoxelModel CheckptModel DumpModel DumpSpec DumpProofs.
Import ListNotations.
Open Scope Z_scope.
Ltac Zify.zify_post_hook ::= idtac.

(* ---- whole structures ---- *)
Lemma whole_ok : forall mem size width nv pts, 1 <= width -> width * nv <= size -> (forall x, In x pts -> 0 <= x < nv) ->
  exists data, whole mem size width pts = DOk data /\ length data = (length pts * Z.to_nat width)%nat /\
  forall p x b, nth_error pts p = Some x -> 0 <= b < width ->
    nth_error data (p * Z.to_nat width + Z.to_nat b) = Some (mem (width * x + b)).
Proof.
  intros mem size width nv pts Hw Hs H. unfold whole. rewrite read_all_ok.
  2:{ intros a Ha. apply in_flat_map in Ha. destruct Ha as (x & Hx & Ha). apply in_map_iff in Ha. destruct Ha as (b & <- & Hb).
      apply upto_In in Hb. apply (word_range width x b nv); auto. }
  eexists. split; [reflexivity|].
  assert (U : forall x, In x pts -> length (map (fun b => width * x + b) (upto width)) = Z.to_nat width).
  { intros. rewrite map_length. apply upto_length. }
  split.
  - rewrite map_length. apply flat_map_uniform_length, U.
  - intros p x b Hp Hb. rewrite nth_error_map. rewrite (flat_map_uniform_nth _ _ _ _ _ _ _ x); [|exact U|exact Hp|lia].
    rewrite nth_error_map, upto_nth by lia. reflexivity.
Qed.

(* ---- which bits are read ---- *)
Lemma bands_outside : forall mem size width m st bits (T : nat) b, mesh_ok m -> strides_ok m st -> 1 <= width ->
  size = width * m_nv m -> (T <= 32)%nat -> width <= b < Z.of_nat T -> Z.testbit bits b = true ->
  bands mem size width (varlist bits (Z.of_nat T)) (map (vox m st) (triples (m_nx m / s_x st + 2) (m_ny m / s_y st + 2) (m_nz m / s_z st + 2)))
    (upto (numvars bits (Z.of_nat T))) = DOutside.
Proof.
  intros mem size width m st bits T b Hm Hs Hw Hsz HT Hb Ht. set (pts := map _ _).
  assert (LP : In (m_nv m - 1) pts) by (apply last_point; assumption).
  pose proof (varlist_length T bits) as HL. pose proof (pop_range T bits) as HR.
  assert (HN : pop T bits <= numvars bits (Z.of_nat T)).
  { unfold numvars. rewrite bitsum_pop. pose proof (pop_mono T (32 - T) bits) as M. replace (T + (32 - T))%nat with 32%nat in M by lia. lia. }
  assert (Hin : In b (varlist bits (Z.of_nat T))) by (apply varlist_In; split; [lia|exact Ht]).
  apply In_nth_error in Hin. destruct Hin as (n & Hn).
  assert (Hnl : (n < length (varlist bits (Z.of_nat T)))%nat) by (apply nth_error_Some; rewrite Hn; discriminate).
  remember (varlist bits (Z.of_nat T)) as vars eqn:EV. clear EV.
  assert (HG : forall k s, (s <= n < s + k)%nat -> (s + k <= length vars + (k - (length vars - s)))%nat ->
     bands mem size width vars pts (map Z.of_nat (seq s k)) = DOutside).
  { intro k. induction k as [|k IH]; intros s Hs1 _; [lia|]. cbn [seq map bands]. rewrite Nat2Z.id.
    destruct (nth_error vars s) as [v|] eqn:Ev.
    2:{ apply nth_error_None in Ev. lia. }
    destruct (Nat.eq_dec s n) as [->|Hne].
    - rewrite Hn in Ev. injection Ev as <-. erewrite read_all_outside; [reflexivity|apply in_map_iff; exists (m_nv m - 1); split; [reflexivity|exact LP]|].
      subst size. clear - Hb. nia.
    - destruct (read_all mem size (map (fun x => width * x + v) pts)) eqn:Er; cbn [dbind].
      + rewrite IH by lia. reflexivity.
      + exfalso. clear - Er. revert Er. generalize (map (fun x => width * x + v) pts). intro l. induction l as [|a l IHl]; [discriminate|].
        cbn [read_all]. unfold read. destruct ((0 <=? a) && (a <? size)); cbn [dbind]; [|discriminate].
        destruct (read_all mem size l); cbn [dbind]; try discriminate. exact IHl.
      + reflexivity.
      + exfalso. clear - Er. revert Er. generalize (map (fun x => width * x + v) pts). intro l. induction l as [|a l IHl]; [discriminate|].
        cbn [read_all]. unfold read. destruct ((0 <=? a) && (a <? size)); cbn [dbind]; [|discriminate].
        destruct (read_all mem size l); cbn [dbind]; try discriminate. exact IHl.
      + exfalso. clear - Er. revert Er. generalize (map (fun x => width * x + v) pts). intro l. induction l as [|a l IHl]; [discriminate|].
        cbn [read_all]. unfold read. destruct ((0 <=? a) && (a <? size)); cbn [dbind]; [|discriminate].
        destruct (read_all mem size l); cbn [dbind]; try discriminate. exact IHl. }
  unfold upto. apply HG; lia.
Qed.
Lemma bands_uninit : forall mem size width pts vars n, (length vars < n)%nat ->
  (forall b x, In b vars -> In x pts -> 0 <= width * x + b < size) ->
  bands mem size width vars pts (upto (Z.of_nat n)) = DUninit.
Proof.
  intros mem size width pts vars n Hn H. unfold upto. rewrite Nat2Z.id.
  replace n with (length vars + (1 + (n - length vars - 1)))%nat by lia. rewrite seq_app, map_app, bands_app.
  rewrite bands_ok_ by (try lia; cbn [skipn]; rewrite firstn_all; exact H). cbn [dbind Nat.add seq map bands].
  rewrite Nat2Z.id. replace (nth_error vars (length vars)) with (@None Z); [reflexivity|]. symmetry. apply nth_error_None. lia.
Qed.

(* ---- particles ---- *)
Lemma skipn_add : forall (A : Type) a s (l : list A), skipn (a + s) l = skipn a (skipn s l).
Proof.
  intros A a s. induction s as [|s IHs]; intro l; [rewrite Nat.add_0_r; reflexivity|].
  rewrite Nat.add_succ_r. destruct l; [rewrite !skipn_nil; reflexivity|]. cbn [skipn]. apply IHs.
Qed.
Section Particles.
Context {P : Type}.
Variable center : P -> P.
Lemma chunks_ok : forall fuel (ps : list P) k, Z.of_nat (length ps) <= 2 ^ 31 - PBUF_SIZE -> 0 <= k ->
  (length ps < fuel + Z.to_nat (k * PBUF_SIZE))%nat ->
  chunks center fuel ps (k * PBUF_SIZE) = DOk (map center (skipn (Z.to_nat (k * PBUF_SIZE)) ps)).
Proof.
  unfold PBUF_SIZE. intros fuel ps. induction fuel as [|fuel IH]; intros k HB Hk Hf.
  - cbn [chunks]. rewrite skipn_all2 by lia. reflexivity.
  - cbn [chunks]. unfold PBUF_SIZE, INT_MAX. destruct (k * 32768 <? Z.of_nat (length ps)) eqn:E; cbn [negb].
    + assert (EO : 2 ^ 31 - 1 <? k * 32768 + 32768 = false).
      { clear - E HB. apply Z.ltb_ge. change (2 ^ 31) with 2147483648 in *. assert (k < 65535) by lia. lia. }
      rewrite EO. clear EO. replace (k * 32768 + 32768) with ((k + 1) * 32768) by ring.
      rewrite IH by (clear - HB Hk Hf; lia). cbn [dbind]. rewrite <- map_app. do 2 f_equal.
      set (s := Z.to_nat (k * 32768)). set (a := Z.to_nat (Z.min _ _)).
      destruct (Z_le_gt_dec (Z.of_nat (length ps) - k * 32768) 32768) as [Hle|Hgt].
      * assert (Ea : a = (length ps - s)%nat) by (unfold a, s; clear - Hle E Hk; lia).
        rewrite firstn_all2 by (rewrite skipn_length; lia). rewrite skipn_all2 with (n := Z.to_nat ((k + 1) * 32768)) by (clear - Hle Hk; lia).
        rewrite app_nil_r. reflexivity.
      * assert (Ea : (Z.to_nat ((k + 1) * 32768) = a + s)%nat) by (unfold a, s; clear - Hgt E Hk; lia). rewrite Ea.
        rewrite <- (firstn_skipn a (skipn s ps)) at 2. f_equal.
        apply skipn_add.
    + rewrite skipn_all2 by (clear - E; lia). reflexivity.
Qed.
Lemma chunks_overflow : forall fuel (ps : list P) k, 2 ^ 31 - PBUF_SIZE < Z.of_nat (length ps) -> 0 <= k <= 65535 ->
  65536 <= Z.of_nat fuel + k -> chunks center fuel ps (k * PBUF_SIZE) = DOverflow.
Proof.
  unfold PBUF_SIZE. change (2 ^ 31) with 2147483648. intros fuel ps. induction fuel as [|fuel IH]; intros k HB Hk Hf; [lia|].
  cbn [chunks]. unfold PBUF_SIZE, INT_MAX. replace (k * 32768 <? Z.of_nat (length ps)) with true by lia. cbn [negb].
  destruct (2 ^ 31 - 1 <? k * 32768 + 32768) eqn:E; [reflexivity|]. change (2 ^ 31) with 2147483648 in E.
  replace (k * 32768 + 32768) with ((k + 1) * 32768) by ring. rewrite IH by lia. reflexivity.
Qed.
End Particles.

(* ---- headers ---- *)
Lemma le_length : forall k w, length (le k w) = k.
Proof. induction k as [|k IH]; intro w; cbn [le length]; [reflexivity|]. rewrite IH. reflexivity. Qed.
Lemma unle_le_mod : forall k w, unle (le k w) = w mod 2 ^ (8 * Z.of_nat k).
Proof.
  induction k as [|k IH]; intro w; cbn [le unle]; [rewrite Z.mod_1_r; reflexivity|]. rewrite IH.
  replace (8 * Z.of_nat (S k)) with (8 + 8 * Z.of_nat k) by lia. rewrite Z.pow_add_r by lia. change (2 ^ 8) with 256.
  rewrite Z.rem_mul_r by (try lia; apply Z.pow_pos_nonneg; lia). reflexivity.
Qed.
Lemma item_bytes_length : forall x, length (item_bytes x) = fst x.
Proof. intros. apply le_length. Qed.
Lemma item_value : forall x, unle (item_bytes x) = snd x mod 2 ^ (8 * Z.of_nat (fst x)).
Proof. intros. unfold item_bytes. rewrite unle_le_mod, Z.mod_mod; [reflexivity|]. assert (0 < 2 ^ (8 * Z.of_nat (fst x))) by (apply Z.pow_pos_nonneg; lia). lia. Qed.
Definition sizes (l : list item) : nat := fold_right (fun x n => (fst x + n)%nat) 0%nat l.
Lemma header_length : forall l, length (header_bytes l) = sizes l.
Proof. induction l as [|x l IH]; [reflexivity|]. cbn [header_bytes flat_map]. rewrite app_length, item_bytes_length. unfold header_bytes in IH. rewrite IH. reflexivity. Qed.
Lemma header_item : forall l n x rest, nth_error l n = Some x ->
  at_offset (header_bytes l ++ rest) (sizes (firstn n l)) (fst x) = snd x mod 2 ^ (8 * Z.of_nat (fst x)).
Proof.
  intro l. unfold at_offset. induction l as [|y l IH]; intros n x rest Hn; [destruct n; discriminate|].
  destruct n as [|n].
  - cbn in Hn. injection Hn as ->. cbn [firstn sizes fold_right skipn]. unfold header_bytes. cbn [flat_map].
    rewrite <- app_assoc, firstn_app, item_bytes_length, Nat.sub_diag. cbn [firstn]. rewrite app_nil_r.
    rewrite <- (item_bytes_length x) at 1. rewrite firstn_all. apply item_value.
  - cbn in Hn. cbn [firstn sizes fold_right]. unfold header_bytes. cbn [flat_map]. rewrite <- app_assoc, skipn_app, item_bytes_length.
    rewrite skipn_all2 by (rewrite item_bytes_length; lia). cbn [app]. replace (fst y + _ - fst y)%nat with (sizes (firstn n l)) by (unfold sizes; lia).
    apply IH. exact Hn.
Qed.

(* ---- printed numbers ---- *)
Lemma digits_bound_ : forall k fuel n, 0 <= n < 10 ^ (Z.of_nat k + 1) -> (k <= fuel)%nat -> 1 <= digits_ fuel n <= Z.of_nat k + 1.
Proof.
  induction k as [|k IH]; intros fuel n Hn Hf.
  - change (10 ^ (Z.of_nat 0 + 1)) with 10 in Hn. destruct fuel; cbn [digits_]; [lia|]. replace (n <? 10) with true by lia. lia.
  - destruct fuel as [|fuel]; [lia|]. cbn [digits_]. destruct (n <? 10) eqn:E; [lia|].
    assert (Hd : 0 <= n / 10 < 10 ^ (Z.of_nat k + 1)).
    { split; [apply Z.div_pos; lia|]. apply Z.div_lt_upper_bound; [lia|].
      replace (Z.of_nat (S k) + 1) with (1 + (Z.of_nat k + 1)) in Hn by lia. rewrite Z.pow_add_r in Hn by lia. change (10 ^ 1) with 10 in Hn. lia. }
    specialize (IH fuel (n / 10) Hd ltac:(lia)). lia.
Qed.
Lemma digits_bound : forall (k : nat) n, 0 <= n < 10 ^ (Z.of_nat k + 1) -> (k <= 20)%nat -> 1 <= digits n <= Z.of_nat k + 1.
Proof. intros k n Hn Hk. unfold digits. replace (n <? 0) with false by lia. apply digits_bound_; assumption. Qed.

(* ---- texts ---- *)
Lemma cut_at : forall (s : Z) (a b a' b' : list Z), ~ In s a -> ~ In s a' -> a ++ [s] ++ b = a' ++ [s] ++ b' -> a = a' /\ b = b'.
Proof.
  intros s a. induction a as [|x a IH]; intros b a' b' Ha Ha' E; destruct a' as [|y a']; cbn in E.
  - injection E as ->. split; reflexivity.
  - injection E as <- _. exfalso. apply Ha'. left. reflexivity.
  - injection E as -> _. exfalso. apply Ha. left. reflexivity.
  - injection E as -> E. destruct (IH b a' b') as (-> & ->); [intro; apply Ha; right; assumption|intro; apply Ha'; right; assumption|exact E|].
    split; reflexivity.
Qed.

(* ---- dumps that do not see a difference ---- *)
Lemma bands_ext : forall mem mem' size width vars pts vs,
  (forall b x, In b vars -> In x pts -> mem (width * x + b) = mem' (width * x + b)) ->
  bands mem size width vars pts vs = bands mem' size width vars pts vs.
Proof.
  intros mem mem' size width vars pts vs H. induction vs as [|v vs IH]; [reflexivity|]. cbn [bands].
  destruct (nth_error vars (Z.to_nat v)) as [b|] eqn:E; [|reflexivity]. apply nth_error_In in E.
  rewrite (read_all_ext mem mem'). 2:{ intros a Ha. apply in_map_iff in Ha. destruct Ha as (x & <- & Hx). apply H; assumption. }
  rewrite IH. reflexivity.
Qed.
Lemma whole_ext : forall mem mem' size width pts,
  (forall b x, 0 <= b < width -> In x pts -> mem (width * x + b) = mem' (width * x + b)) ->
  whole mem size width pts = whole mem' size width pts.
Proof.
  intros mem mem' size width pts H. unfold whole. apply read_all_ext. intros a Ha. apply in_flat_map in Ha.
  destruct Ha as (x & Hx & Ha). apply in_map_iff in Ha. destruct Ha as (b & <- & Hb). apply upto_In in Hb. apply H; assumption.
Qed.
Lemma src_strided : forall st n s i, unit_strides st = false -> src st n s i = strided n s i.
Proof. intros st n s i H. unfold src, strided, off. rewrite H. destruct (i =? 0); [reflexivity|]. destruct (i =? n / s + 1); [reflexivity|]. ring. Qed.
Lemma elements_filter : forall p (l : list (Z * Z)), elements (filter p l) = fold_right (fun g n => snd g * (if p g then 1 else 0) + n) 0 l.
Proof.
  intros p l. induction l as [|g l IH]; [reflexivity|]. cbn [filter fold_right]. destruct (p g).
  - unfold elements in *. cbn [fold_right]. lia.
  - lia.
Qed.
Lemma not_unit : forall st, ~ (s_x st = 1 /\ s_y st = 1 /\ s_z st = 1) -> unit_strides st = false.
Proof. intros st H. unfold unit_strides. lia. Qed.
Lemma numvars_small : forall bits T, (T <= 32)%nat -> 0 <= bits < 2 ^ Z.of_nat T -> numvars bits (Z.of_nat T) = pop T bits.
Proof.
  intros bits T HT Hb. unfold numvars. rewrite bitsum_pop. replace 32%nat with (T + (32 - T))%nat by lia.
  rewrite pop_same. { pose proof (pop_range T bits). lia. }
  intros b Hr. apply (small_bits bits (Z.of_nat T)); [exact Hb|lia].
Qed.
(* bits below k give the same list for every larger total *)
Lemma numvars_below : forall bits k T, (k <= T)%nat -> (T <= 32)%nat -> 0 <= bits < 2 ^ Z.of_nat k -> numvars bits (Z.of_nat T) = pop T bits.
Proof.
  intros bits k T Hk HT Hb. apply numvars_small; [exact HT|]. split; [lia|]. apply Z.lt_le_trans with (2 ^ Z.of_nat k); [lia|].
  apply Z.pow_le_mono_r; lia.
Qed.
Lemma digits_pos : forall n, 1 <= digits n.
Proof.
  assert (G : forall f n, 1 <= digits_ f n).
  { induction f as [|f IH]; intro n; cbn [digits_]; [lia|]. destruct (n <? 10); [lia|]. specialize (IH (n / 10)). lia. }
  intro n. unfold digits. destruct (n <? 0); [pose proof (G 20%nat (- n)); lia|apply G].
Qed.
