From Coq Require Import ZArith List Bool Lia ZifyBool Permutation Sorting.Sorted.
From Verif Require Import DistributeModel DistributeProofs VoxelProofs SortModel SortProofs.
Import ListNotations.
Open Scope Z_scope.

Ltac Zify.zify_post_hook ::= idtac.

(* ---- coarse prefix ---- *)
Section CP.
Context {A : Type}.
Variable G : Z -> Z -> list A.
Let step : (Z -> Z -> Z) * Z -> Z * Z -> (Z -> Z -> Z) * Z :=
  fun '(m, sum) '(r, s) =>
    (fun r' s' => if (r' =? r) && (s' =? s) then sum else m r' s', sum + m r s).
Let GG : Z * Z -> list A := fun '(r, s) => G r s.

Lemma cp_notin prs : forall m sum r s, ~ In (r, s) prs ->
  fst (fold_left step prs (m, sum)) r s = m r s.
Proof.
  induction prs as [|[r0 s0] prs IH]; intros m sum r s Hn; [reflexivity|].
  cbn [fold_left]. unfold step at 2. rewrite IH.
  - destruct (Z.eqb_spec r r0) as [->|], (Z.eqb_spec s s0) as [->|]; cbn [andb]; try reflexivity.
    exfalso. apply Hn. left. reflexivity.
  - intros H. apply Hn. right. exact H.
Qed.

Lemma cp_at : forall l1 m sum r s l2, NoDup (l1 ++ (r, s) :: l2) ->
  (forall r s, In (r, s) l1 -> m r s = Z.of_nat (length (G r s))) ->
  fst (fold_left step (l1 ++ (r, s) :: l2) (m, sum)) r s =
  sum + Z.of_nat (length (flat_map GG l1)).
Proof.
  induction l1 as [|[r0 s0] l1 IH]; intros m sum r s l2 Hnd Hm.
  - cbn [app fold_left flat_map length]. unfold step at 2. inversion_clear Hnd.
    rewrite cp_notin by assumption. rewrite !Z.eqb_refl. cbn [andb]. lia.
  - cbn [app fold_left flat_map]. unfold step at 2. inversion_clear Hnd as [|? ? Hn Hnd'].
    rewrite IH; [|exact Hnd'|].
    + rewrite (Hm r0 s0) by (left; reflexivity). rewrite app_length.
      change (GG (r0, s0)) with (G r0 s0). lia.
    + intros r' s' Hin. destruct (Z.eqb_spec r' r0) as [->|], (Z.eqb_spec s' s0) as [->|]; cbn [andb];
        try (apply Hm; right; exact Hin).
      exfalso. apply Hn. apply in_or_app. left. exact Hin.
Qed.

Lemma cp_layout prs : forall m sum, NoDup prs ->
  (forall r s, In (r, s) prs -> m r s = Z.of_nat (length (G r s))) ->
  flat_map (fun '(r, s) => enum (fst (fold_left step prs (m, sum)) r s) (G r s)) prs =
  enum sum (flat_map GG prs).
Proof.
  induction prs as [|[r0 s0] prs IH]; intros m sum Hnd Hm; [reflexivity|].
  cbn [fold_left flat_map]. unfold step at 2 4. inversion_clear Hnd as [|? ? Hn Hnd'].
  rewrite enum_app. f_equal.
  - rewrite cp_notin by assumption. rewrite !Z.eqb_refl. reflexivity.
  - rewrite IH; [|exact Hnd'|].
    + rewrite (Hm r0 s0) by (left; reflexivity). reflexivity.
    + intros r' s' Hin. destruct (Z.eqb_spec r' r0) as [->|], (Z.eqb_spec s' s0) as [->|]; cbn [andb];
        try (apply Hm; right; exact Hin).
      exfalso. apply Hn. exact Hin.
Qed.
End CP.

(* ---- V2P / P2V ---- *)

Lemma P2V_div p P vl vh : 0 <= p -> 1 <= P -> vl <= vh ->
  P2V p P vl vh = vl + (p * (vh - vl + 1) + (P - 1)) / P.
Proof. intros. unfold P2V. rewrite Z.quot_div_nonneg; nia. Qed.

Lemma P2V_le p P vl vh v : 0 <= p -> 1 <= P -> vl <= vh ->
  P2V p P vl vh <= v <-> p * (vh - vl + 1) <= (v - vl) * P.
Proof.
  intros H0 H1 H2. rewrite P2V_div by lia. set (n := p * (vh - vl + 1)).
  pose proof (Z.div_mod (n + (P - 1)) P ltac:(lia)) as E.
  pose proof (Z.mod_pos_bound (n + (P - 1)) P ltac:(lia)) as B.
  set (d := (n + (P - 1)) / P) in *. set (r := (n + (P - 1)) mod P) in *. clearbody d r n.
  split; intros H; nia.
Qed.

Lemma V2P_div v P vl vh : vl <= v -> 1 <= P -> vl <= vh ->
  V2P v P vl vh = ((v - vl) * P) / (vh - vl + 1).
Proof. intros. unfold V2P. rewrite Z.quot_div_nonneg; nia. Qed.

Lemma V2P_iff s v P vl vh : 0 <= s -> 1 <= P -> vl <= v <= vh ->
  V2P v P vl vh = s <-> P2V s P vl vh <= v < P2V (s + 1) P vl vh.
Proof.
  intros H0 H1 H2.
  assert (Hlt : v < P2V (s + 1) P vl vh <-> ~ P2V (s + 1) P vl vh <= v) by lia.
  rewrite Hlt, !P2V_le by lia. rewrite V2P_div by lia.
  assert (HV : 0 < vh - vl + 1) by lia. set (V := vh - vl + 1) in *. clearbody V.
  pose proof (Z.div_mod ((v - vl) * P) V ltac:(lia)) as E.
  pose proof (Z.mod_pos_bound ((v - vl) * P) V ltac:(lia)) as B.
  set (d := (v - vl) * P / V) in *. set (r := ((v - vl) * P) mod V) in *.
  set (w := (v - vl) * P) in *. clearbody d r w.
  split; [intros ->; nia|]. intros [Ha Hb]. nia.
Qed.

Lemma P2V_0 P vl vh : 1 <= P -> vl <= vh -> P2V 0 P vl vh = vl.
Proof.
  intros. rewrite P2V_div by lia. rewrite Z.mul_0_l, Z.add_0_l. rewrite Z.div_small; lia.
Qed.

Lemma P2V_P P vl vh : 1 <= P -> vl <= vh -> P2V P P vl vh = vh + 1.
Proof.
  intros. rewrite P2V_div by lia.
  replace (P * (vh - vl + 1) + (P - 1)) with ((P - 1) + (vh - vl + 1) * P) by ring.
  rewrite Z.div_add by lia. rewrite Z.div_small by lia. lia.
Qed.

Lemma P2V_mono s P vl vh : 0 <= s -> 1 <= P -> vl <= vh -> P2V s P vl vh <= P2V (s + 1) P vl vh.
Proof.
  intros. rewrite !P2V_div by lia. apply Z.add_le_mono_l. apply Z.div_le_mono; nia.
Qed.

Lemma V2P_range v P vl vh : 1 <= P -> vl <= v <= vh -> 0 <= V2P v P vl vh < P.
Proof.
  intros H1 H2. rewrite V2P_div by lia. split.
  - apply Z.div_pos; nia.
  - apply Z.div_lt_upper_bound; nia.
Qed.

(* ---- chunks ---- *)

Lemma chunks_concat {A} c np P (m : Z -> A) : 0 <= np < 2 ^ 31 -> 1 <= P < 2 ^ 31 ->
  flat_map (chunk c np P m) (zrange 0 P) = section m 0 np.
Proof.
  intros Hn HP.
  destruct (distribute_ok c np 1 P Hn ltac:(lia) HP) as (HB & _ & HC).
  assert (H0 : fst (distribute c np 1 0 P) = 0).
  { unfold distribute. cbn [fst]. rewrite Z.quot_1_r. rewrite split_0 by lia. reflexivity. }
  assert (HPP : fst (distribute c np 1 P P) = np).
  { pose proof (HB P ltac:(lia)) as H. destruct (distribute c np 1 P P) as [i n].
    destruct H as (_ & _ & _ & _ & _ & H). destruct (H eq_refl) as [_ ->]. cbn [fst].
    rewrite Z.mod_1_r. lia. }
  assert (Hgen : forall k, 0 <= k <= P ->
     flat_map (chunk c np P m) (zrange 0 k) = section m 0 (fst (distribute c np 1 k P))).
  { intros k Hk. destruct Hk as [Hk0 HkP]. revert Hk0 HkP. revert k.
    apply (natlike_ind (fun k => k <= P ->
      flat_map (chunk c np P m) (zrange 0 k) = section m 0 (fst (distribute c np 1 k P)))).
    - intros _. rewrite H0. unfold section. rewrite !zrange_nil by lia. reflexivity.
    - intros k Hk IH Hle. unfold Z.succ in *. rewrite (zrange_app 0 k (k + 1)) by lia.
      rewrite flat_map_app, IH by lia. rewrite (zrange_cons k (k + 1)) by lia.
      rewrite (zrange_nil (k + 1)) by lia. cbn [flat_map]. rewrite app_nil_r.
      rewrite HC by lia. pose proof (HB k ltac:(lia)) as Hb.
      unfold chunk. destruct (distribute c np 1 k P) as [i n]. cbn [fst snd].
      rewrite (section_app m 0 i (i + n)) by lia. reflexivity. }
  rewrite Hgen by lia. rewrite HPP. reflexivity.
Qed.

(* ---- bucket counting ---- *)

Lemma length_filter_range (l : list particle) lo hi : lo <= hi ->
  Z.of_nat (length (filter (fun p => (lo <=? key p) && (key p <? hi)) l)) =
  psum (fun v => cnt key v l) lo hi.
Proof.
  intros Hle. induction l as [|p l IH].
  - rewrite (psum_ext _ (fun _ => 0)) by (intros; reflexivity).
    clear Hle. unfold psum. cbn [filter length Z.of_nat].
    induction (zrange lo hi); cbn [fold_right]; lia.
  - assert (Hc : forall v, cnt key v (p :: l) = (if key p =? v then 1 else 0) + cnt key v l).
    { intros v. unfold cnt, bucket. cbn [filter]. destruct (key p =? v); cbn [length]; lia. }
    assert (Hsum : psum (fun v => cnt key v (p :: l)) lo hi =
       (if (lo <=? key p) && (key p <? hi) then 1 else 0) + psum (fun v => cnt key v l) lo hi).
    { rewrite (psum_ext _ (fun v => (if key p =? v then 1 else 0) + cnt key v l)) by (intros; apply Hc).
      clear IH Hc. revert Hle. pattern lo, hi. apply zrange_ind; clear lo hi.
      - intros lo hi H _. rewrite !psum_nil by lia.
        replace ((lo <=? key p) && (key p <? hi)) with false by lia. reflexivity.
      - intros lo hi H IH _.
        rewrite (psum_cons (fun v => (if key p =? v then 1 else 0) + cnt key v l)) by lia.
        rewrite (psum_cons (fun v => cnt key v l) lo) by lia. rewrite IH by lia.
        destruct (Z.eqb_spec (key p) lo) as [->|].
        + replace ((lo + 1 <=? lo) && (lo <? hi)) with false by lia.
          replace ((lo <=? lo) && (lo <? hi)) with true by lia. lia.
        + destruct (Z_lt_le_dec lo (key p)).
          * replace (lo + 1 <=? key p) with true by lia. replace (lo <=? key p) with true by lia.
            cbn [andb]. lia.
          * replace ((lo + 1 <=? key p) && (key p <? hi)) with false by lia.
            replace ((lo <=? key p) && (key p <? hi)) with false by lia. lia. }
    rewrite Hsum, <- IH. cbn [filter]. destruct ((lo <=? key p) && (key p <? hi)); cbn [length]; lia.
Qed.

Lemma flat_map_length {A B} (f : A -> list B) l :
  Z.of_nat (length (flat_map f l)) = fold_right (fun x s => Z.of_nat (length (f x)) + s) 0 l.
Proof. induction l as [|a l IH]; cbn [flat_map fold_right]; [reflexivity|]. rewrite app_length. lia. Qed.

Lemma section_sub {A} (m : Z -> A) n (l1 l2 l3 : list A) : 0 <= n ->
  section m 0 n = l1 ++ l2 ++ l3 ->
  section m (Z.of_nat (length l1)) (Z.of_nat (length l1) + Z.of_nat (length l2)) = l2.
Proof.
  intros Hn0 H.
  assert (Hn : Z.to_nat n = (length l1 + length l2 + length l3)%nat).
  { apply (f_equal (@length A)) in H. rewrite length_section, !app_length in H. lia. }
  rewrite (section_app m 0 (Z.of_nat (length l1)) n) in H by lia.
  rewrite (section_app m (Z.of_nat (length l1)) (Z.of_nat (length l1) + Z.of_nat (length l2)) n) in H by lia.
  assert (Hinv : forall (a b c d : list A), length a = length c -> a ++ b = c ++ d -> a = c /\ b = d).
  { clear. induction a as [|x a IH]; intros b [|y c] d Hl He; try discriminate; [auto|].
    injection He as -> He. injection Hl as Hl. destruct (IH _ _ _ Hl He) as [-> ->]. auto. }
  apply Hinv in H; [|rewrite length_section; lia]. destruct H as [_ H].
  apply Hinv in H; [|rewrite length_section; lia]. apply H.
Qed.

(* ---- one subsort ---- *)

Lemma subsort_spec vl vh P src cp0 nx s :
  let v0 := P2V s P vl vh in let v1 := P2V (s + 1) P vl vh in
  let sl := section src (cp0 s) (cp0 (s + 1)) in
  v0 <= v1 ->
  (forall p, In p sl -> v0 <= key p < v1) ->
  exists nx' w,
    subsort vl vh P src cp0 nx s =
      (nx', map (fun v => (v, cp0 s + psum (fun u => cnt key u sl) v0 v)) (zrange v0 (v1 + 1)), w) /\
    Permutation w (enum (cp0 s) (flat_map (fun v => bucket key v sl) (zrange v0 v1))) /\
    (forall v, ~ v0 <= v < v1 -> nx' v = nx v).
Proof.
  intros v0 v1 sl Hv Hk.
  unfold subsort. fold v0 v1. fold sl.
  set (c1 := count_loop key sl (clear_range v0 v1 nx)).
  assert (Hc1 : forall v, v0 <= v < v1 -> c1 v = cnt key v sl).
  { intros v Hvr. unfold c1. rewrite count_loop_spec, clear_range_spec.
    replace ((v0 <=? v) && (v <? v1)) with true by lia. lia. }
  assert (Hc1' : forall v, ~ v0 <= v < v1 -> c1 v = nx v).
  { intros v Hvr. unfold c1. rewrite count_loop_spec, clear_range_spec.
    replace ((v0 <=? v) && (v <? v1)) with false by lia.
    assert (Hz : cnt key v sl = 0); [|lia].
    unfold cnt, bucket. assert (Hf : forall q, In q sl -> (key q =? v) = false).
    { intros q Hq. specialize (Hk q Hq). lia. }
    clear -Hf. induction sl as [|q sl IH]; [reflexivity|]. cbn [filter].
    rewrite (Hf q) by (left; reflexivity). apply IH. intros q' Hq'. apply Hf. right. exact Hq'. }
  unfold prefix_loop.
  destruct (prefix_loop_gen v0 v1 c1 [] (cp0 s)) as (nx1 & Heq & Hnx1). rewrite Heq.
  assert (Hps : forall v, v <= v1 -> psum c1 v0 v = psum (fun u => cnt key u sl) v0 v).
  { intros v Hvr. apply psum_ext. intros u Hu. apply Hc1. lia. }
  pose proof (scatter_sc key sl nx1) as Hsc.
  destruct (scatter_loop key sl nx1) as [nx2 w] eqn:Hs. cbn [snd] in Hsc.
  exists nx2, w. split; [|split].
  - f_equal. f_equal. cbn [app].
    rewrite (zrange_app v0 v1 (v1 + 1)) by lia. rewrite map_app. f_equal.
    + apply map_ext_in. intros v Hv'. apply in_zrange in Hv'. rewrite Hps by lia. reflexivity.
    + rewrite (zrange_cons v1) by lia. rewrite zrange_nil by lia. cbn [map]. rewrite Hps by lia. reflexivity.
  - subst w. rewrite (sc_perm key sl nx1 (zrange v0 v1)).
    + rewrite (enum_layout (fun v => bucket key v sl) v0 v1 (cp0 s)); [reflexivity|].
      intros v Hvr. rewrite Hnx1. replace ((v0 <=? v) && (v <? v1)) with true by lia.
      rewrite Hps by lia. reflexivity.
    + apply NoDup_zrange.
    + intros p Hp. apply in_zrange. apply Hk. exact Hp.
  - intros v Hvr. unfold scatter_loop in Hs.
    assert (Hgen : forall l nx0 w0 nx2 w2, (forall p, In p l -> v0 <= key p < v1) ->
       fold_left (fun '(nx, w) p => (upd nx (key p) (nx (key p) + 1), w ++ [(nx (key p), p)])) l (nx0, w0) = (nx2, w2)
       -> nx2 v = nx0 v).
    { clear -Hvr. induction l as [|p l IH]; intros nx0 w0 nx2 w2 Hl He; cbn [fold_left] in He.
      - injection He as -> _. reflexivity.
      - apply IH in He; [|intros q Hq; apply Hl; right; exact Hq]. rewrite He.
        apply upd_other. specialize (Hl p (or_introl eq_refl)). lia. }
    rewrite (Hgen sl nx1 [] nx2 w Hk Hs). rewrite Hnx1.
    replace ((v0 <=? v) && (v <? v1)) with false by lia. apply Hc1'. exact Hvr.
Qed.

(* ---- the specification list ---- *)

Definition vsorted (vl vh : Z) (l : list particle) : list particle :=
  flat_map (fun v => bucket key v l) (zrange vl (vh + 1)).

Definition part_of (vl : Z) (l : list particle) (v : Z) : Z := psum (fun u => cnt key u l) vl v.

Lemma length_psum_map {A} (f : Z -> list A) lo hi :
  Z.of_nat (length (flat_map f (zrange lo hi))) = psum (fun v => Z.of_nat (length (f v))) lo hi.
Proof. rewrite flat_map_length. reflexivity. Qed.

Lemma filter_all {A} (f : A -> bool) l : (forall x, In x l -> f x = true) -> filter f l = l.
Proof.
  induction l as [|a l IH]; intros H; [reflexivity|]. cbn [filter].
  rewrite (H a) by (left; reflexivity). f_equal. apply IH. intros x Hx. apply H. right. exact Hx.
Qed.

Lemma filter_none {A} (f : A -> bool) l : (forall x, In x l -> f x = false) -> filter f l = [].
Proof.
  induction l as [|a l IH]; intros H; [reflexivity|]. cbn [filter].
  rewrite (H a) by (left; reflexivity). apply IH. intros x Hx. apply H. right. exact Hx.
Qed.

Lemma vsorted_length vl vh l : (forall p, In p l -> vl <= key p <= vh) -> vl <= vh + 1 ->
  part_of vl l (vh + 1) = Z.of_nat (length l).
Proof.
  intros Hk Hle. unfold part_of. rewrite <- length_filter_range by lia.
  rewrite filter_all; [reflexivity|]. intros p Hp. specialize (Hk p Hp). lia.
Qed.

Lemma bucket_flat_map {A B} (f : B -> Z) b (g : A -> list B) l :
  bucket f b (flat_map g l) = flat_map (fun x => bucket f b (g x)) l.
Proof. induction l as [|a l IH]; cbn [flat_map]; [reflexivity|]. rewrite bucket_app, IH. reflexivity. Qed.

Lemma zrange_flat (f : Z -> Z) P : 0 <= P -> (forall s, 0 <= s < P -> f s <= f (s + 1)) ->
  flat_map (fun s => zrange (f s) (f (s + 1))) (zrange 0 P) = zrange (f 0) (f P) /\ f 0 <= f P.
Proof.
  intros HP. pattern P. apply natlike_ind; [| |exact HP].
  - intros _. rewrite !zrange_nil by lia. split; [reflexivity|lia].
  - clear P HP. intros P HP IH Hm. unfold Z.succ in *. destruct IH as [IH Hle]; [intros s Hs; apply Hm; lia|].
    pose proof (Hm P ltac:(lia)).
    rewrite (zrange_app 0 P (P + 1)) by lia. rewrite flat_map_app, IH.
    rewrite (zrange_cons P) by lia. rewrite (zrange_nil (P + 1)) by lia. cbn [flat_map].
    rewrite app_nil_r. split; [|lia]. symmetry. apply zrange_app. lia.
Qed.

Lemma flat_map_flat_map {A B C} (f : B -> list C) (g : A -> list B) l :
  flat_map f (flat_map g l) = flat_map (fun x => flat_map f (g x)) l.
Proof. induction l as [|a l IH]; cbn [flat_map]; [reflexivity|]. rewrite flat_map_app, IH. reflexivity. Qed.

Section Main.
Variables (c : bool) (np vl vh nv P : Z).
Hypothesis Hnp : 0 <= np < 2 ^ 31.
Hypothesis HP : 1 <= P < 2 ^ 31.
Hypothesis Hv : 0 <= vl <= vh.
Hypothesis Hnv : vh + 1 < nv.
Variable l : list particle.
Hypothesis Hkey : forall p, In p l -> vl <= key p <= vh.
Hypothesis Hlen : Z.of_nat (length l) = np.

Let g := fun q => V2P (key q) P vl vh.
Let v_ := fun s => P2V s P vl vh.

Lemma g_range p : In p l -> 0 <= g p < P.
Proof. intros Hp. apply V2P_range; [lia|]. apply Hkey. exact Hp. Qed.

Lemma g_iff p s : In p l -> 0 <= s -> g p = s <-> v_ s <= key p < v_ (s + 1).
Proof. intros Hp Hs. apply V2P_iff; [lia|lia|]. apply Hkey. exact Hp. Qed.

Lemma v_flat k : 0 <= k <= P -> flat_map (fun s => zrange (v_ s) (v_ (s + 1))) (zrange 0 k) = zrange vl (v_ k) /\ vl <= v_ k.
Proof.
  intros Hk. pose proof (zrange_flat v_ k ltac:(lia)) as H.
  assert (E : v_ 0 = vl) by (apply P2V_0; lia). rewrite E in H. apply H.
  intros s Hs. apply P2V_mono; lia.
Qed.

Lemma v_P : v_ P = vh + 1.
Proof. apply P2V_P; lia. Qed.

Lemma cnt_g s : 0 <= s < P -> cnt g s l = psum (fun u => cnt key u l) (v_ s) (v_ (s + 1)).
Proof.
  intros Hs. rewrite <- length_filter_range by (apply P2V_mono; lia).
  unfold cnt, bucket. do 2 f_equal. apply filter_ext_in. intros p Hp.
  pose proof (g_iff p s Hp ltac:(lia)) as Hi.
  destruct (Z.eqb_spec (g p) s) as [He|Hne]; lia.
Qed.

Lemma bucket_g_key s v : 0 <= s < P -> v_ s <= v < v_ (s + 1) -> bucket key v (bucket g s l) = bucket key v l.
Proof.
  intros Hs Hvr. unfold bucket. clear Hlen.
  assert (Hgen : forall l', (forall p, In p l' -> In p l) ->
    filter (fun x => key x =? v) (filter (fun x => g x =? s) l') = filter (fun x => key x =? v) l').
  { induction l' as [|p l' IH]; intros Hin; [reflexivity|]. cbn [filter].
    pose proof (g_iff p s (Hin p (or_introl eq_refl)) ltac:(lia)) as Hi.
    specialize (IH (fun q Hq => Hin q (or_intror Hq))).
    destruct (Z.eqb_spec (g p) s) as [He|Hne].
    - cbn [filter]. rewrite IH. reflexivity.
    - destruct (Z.eqb_spec (key p) v); [exfalso; apply Hne, Hi; lia|exact IH]. }
  apply Hgen. auto.
Qed.

(* offsets of the coarse blocks *)
Definition coff (s : Z) : Z := Z.of_nat (length (flat_map (fun s => bucket g s l) (zrange 0 s))).

Lemma coff_psum s : 0 <= s <= P -> coff s = part_of vl l (v_ s).
Proof.
  intros Hs. destruct Hs as [H0 HsP]. revert H0 HsP. revert s.
  apply (natlike_ind (fun s => s <= P -> coff s = part_of vl l (v_ s))).
  - intros _. unfold coff, part_of. rewrite zrange_nil by lia. unfold v_. rewrite P2V_0 by lia.
    rewrite psum_nil by lia. reflexivity.
  - intros s Hs IH Hle. unfold Z.succ in *. unfold coff, part_of in *.
    rewrite (zrange_app 0 s (s + 1)) by lia. rewrite flat_map_app, app_length, Nat2Z.inj_add, IH by lia.
    rewrite (zrange_cons s) by lia. rewrite (zrange_nil (s + 1)) by lia. cbn [flat_map]. rewrite app_nil_r.
    change (Z.of_nat (length (bucket g s l))) with (cnt g s l). rewrite cnt_g by lia.
    symmetry. apply psum_app. pose proof (v_flat s ltac:(lia)). split; [lia|]. apply P2V_mono; lia.
Qed.

Lemma coff_P : coff P = np.
Proof.
  rewrite coff_psum by lia. rewrite v_P. rewrite vsorted_length by (auto; lia). exact Hlen.
Qed.

(* the coarse phase *)
Variable p : Z -> particle.
Hypothesis Hp : section p 0 np = l.

Let cp := coarse_prefix P (fun r => coarse_count c np vl vh P p r).

Let prs := flat_map (fun s => map (fun r => (r, s)) (zrange 0 P)) (zrange 0 P).

Lemma in_prs r s : In (r, s) prs <-> 0 <= r < P /\ 0 <= s < P.
Proof.
  unfold prs. rewrite in_flat_map. split.
  - intros (s' & Hs & Hr). apply in_map_iff in Hr. destruct Hr as (r' & Heq & Hr).
    injection Heq as -> ->. rewrite in_zrange in *. auto.
  - intros [Hr Hs]. exists s. rewrite in_zrange. split; [exact Hs|]. apply in_map_iff. exists r.
    rewrite in_zrange. auto.
Qed.

Lemma NoDup_prs_gen rs ss : NoDup rs -> NoDup ss ->
  NoDup (flat_map (fun s : Z => map (fun r : Z => (r, s)) rs) ss).
Proof.
  intros Hr. induction ss as [|s ss IH]; intros Hs; [constructor|]. cbn [flat_map].
  inversion_clear Hs as [|? ? Hns Hss].
  assert (Hnd1 : NoDup (map (fun r => (r, s)) rs)).
  { apply FinFun.Injective_map_NoDup; [|exact Hr]. intros a b E. congruence. }
  specialize (IH Hss). clear Hr. revert Hnd1.
  generalize (fun r => r : Z). intros _.
  assert (Hdis : forall x, In x (map (fun r => (r, s)) rs) -> ~ In x (flat_map (fun s0 => map (fun r => (r, s0)) rs) ss)).
  { intros x Hx Hx'. apply in_map_iff in Hx. destruct Hx as (r & <- & _).
    apply in_flat_map in Hx'. destruct Hx' as (s' & Hs' & Hx'). apply in_map_iff in Hx'.
    destruct Hx' as (r' & Heq & _). injection Heq as _ ->. contradiction. }
  revert Hdis. generalize (map (fun r => (r, s)) rs). intros l1.
  induction l1 as [|x l1 IH1]; intros Hdis Hnd1; cbn [app]; [exact IH|].
  inversion_clear Hnd1 as [|? ? Hn1 Hnd1']. constructor.
  - rewrite in_app_iff. intros [H|H]; [contradiction|]. exact (Hdis x (or_introl eq_refl) H).
  - apply IH1; [|exact Hnd1']. intros y Hy. apply Hdis. right. exact Hy.
Qed.

Let Gc := fun r s => bucket g s (chunk c np P p r).

Lemma coarse_count_G r s : coarse_count c np vl vh P p r s = Z.of_nat (length (Gc r s)).
Proof. unfold coarse_count. rewrite count_loop_spec. reflexivity. Qed.

Lemma Gc_concat s : flat_map (fun r => Gc r s) (zrange 0 P) = bucket g s l.
Proof.
  unfold Gc. rewrite <- bucket_flat_map. rewrite chunks_concat by assumption. rewrite Hp. reflexivity.
Qed.

Lemma flat_map_map_ {A B C} (f : B -> list C) (h : A -> B) m : flat_map f (map h m) = flat_map (fun x => f (h x)) m.
Proof. induction m as [|a m IH]; cbn [map flat_map]; [reflexivity|]. rewrite IH. reflexivity. Qed.

Lemma coarse_writes :
  Permutation (flat_map (coarse_sort c np vl vh P p cp) (zrange 0 P))
              (enum 0 (flat_map (fun s => bucket g s l) (zrange 0 P))).
Proof.
  assert (H1 : forall rs, (forall r, In r rs -> 0 <= r < P) -> 
    Permutation (flat_map (coarse_sort c np vl vh P p cp) rs)
      (flat_map (fun r => flat_map (fun s => enum (cp r s) (Gc r s)) (zrange 0 P)) rs)).
  { induction rs as [|r rs IH]; intros Hr; [constructor|]. cbn [flat_map].
    apply Permutation_app; [|apply IH; intros r' Hr'; apply Hr; right; exact Hr'].
    unfold coarse_sort. rewrite scatter_sc. apply sc_perm; [apply NoDup_zrange|].
    intros q Hq. apply in_zrange. apply g_range.
    rewrite <- Hp. rewrite <- (chunks_concat c np P p Hnp HP).
    apply in_flat_map. exists r. split; [|exact Hq]. apply in_zrange. apply Hr. left. reflexivity. }
  rewrite H1 by (intros r Hr; apply in_zrange in Hr; exact Hr).
  rewrite flat_map_swap.
  pose proof (cp_layout Gc prs (fun r => coarse_count c np vl vh P p r) 0
     (NoDup_prs_gen _ _ (NoDup_zrange 0 P) (NoDup_zrange 0 P))
     (fun r s _ => coarse_count_G r s)) as HL.
  change (fst (fold_left _ prs (fun r => coarse_count c np vl vh P p r, 0))) with cp in HL.
  unfold prs in HL. rewrite !flat_map_flat_map in HL.
  rewrite (flat_map_ext_in (fun s => flat_map (fun r => enum (cp r s) (Gc r s)) (zrange 0 P))
     (fun s => flat_map (fun '(r, s) => enum (cp r s) (Gc r s)) (map (fun r => (r, s)) (zrange 0 P)))).
  2:{ intros s _. rewrite flat_map_map_. reflexivity. }
  rewrite HL. apply Permutation_refl'. f_equal.
  apply flat_map_ext_in. intros s _. rewrite flat_map_map_. apply Gc_concat.
Qed.

Lemma cp0_off s : 0 <= s < P -> cp 0 s = coff s.
Proof.
  intros Hs. unfold cp, coarse_prefix.
  pose proof (cp_at Gc (flat_map (fun s => map (fun r => (r, s)) (zrange 0 P)) (zrange 0 s))
    (fun r => coarse_count c np vl vh P p r) 0 0 s
    (map (fun r => (r, s)) (zrange 1 P) ++ flat_map (fun s => map (fun r => (r, s)) (zrange 0 P)) (zrange (s + 1) P)))
    as H.
  assert (Hsplit : prs = flat_map (fun s => map (fun r => (r, s)) (zrange 0 P)) (zrange 0 s) ++
     (0, s) :: map (fun r => (r, s)) (zrange 1 P) ++ flat_map (fun s => map (fun r => (r, s)) (zrange 0 P)) (zrange (s + 1) P)).
  { assert (E : forall f : Z -> list (Z * Z), flat_map f (zrange 0 P) =
       flat_map f (zrange 0 s) ++ f s ++ flat_map f (zrange (s + 1) P)).
    { intros f. rewrite (zrange_app 0 s P) by lia. rewrite flat_map_app. f_equal.
      rewrite (zrange_cons s P) by lia. reflexivity. }
    unfold prs. rewrite E. f_equal. rewrite (zrange_cons 0 P) at 1 by lia. reflexivity. }
  rewrite <- Hsplit in H.
  change (fold_left _ (flat_map _ (zrange 0 P)) _) with
    (fold_left (fun '(m, sum) '(r, s) =>
         (fun r' s' => if (r' =? r) && (s' =? s) then sum else m r' s', sum + m r s)) prs
         (fun r => coarse_count c np vl vh P p r, 0)).
  rewrite H.
  - unfold coff. rewrite Z.add_0_l. do 2 f_equal. rewrite flat_map_flat_map.
    apply flat_map_ext_in. intros s' _. rewrite flat_map_map_. apply Gc_concat.
  - apply NoDup_prs_gen; apply NoDup_zrange.
  - intros r' s' _. apply coarse_count_G.
Qed.

Lemma cp0_all s : 0 <= s <= P -> upd (cp 0) P np s = coff s.
Proof.
  intros Hs. unfold upd. destruct (Z.eqb_spec s P) as [->|]; [symmetry; apply coff_P|].
  apply cp0_off. lia.
Qed.

Lemma aux_block aux s : 0 <= s < P ->
  section aux 0 np = flat_map (fun s => bucket g s l) (zrange 0 P) ->
  section aux (coff s) (coff (s + 1)) = bucket g s l.
Proof.
  intros Hs Haux.
  assert (E : flat_map (fun s => bucket g s l) (zrange 0 P) =
     flat_map (fun s => bucket g s l) (zrange 0 s) ++ bucket g s l ++ flat_map (fun s => bucket g s l) (zrange (s + 1) P)).
  { rewrite (zrange_app 0 s P) by lia. rewrite flat_map_app. f_equal.
    rewrite (zrange_cons s P) by lia. reflexivity. }
  rewrite E in Haux. apply section_sub in Haux; [|lia].
  replace (coff (s + 1)) with (coff s + Z.of_nat (length (bucket g s l))); [exact Haux|].
  unfold coff. rewrite (zrange_app 0 s (s + 1)) by lia. rewrite flat_map_app, app_length.
  rewrite (zrange_cons s) by lia. rewrite (zrange_nil (s + 1)) by lia. cbn [flat_map].
  rewrite app_nil_r. lia.
Qed.

Lemma fine_job src cp0 nx s : 0 <= s < P ->
  cp0 s = part_of vl l (v_ s) ->
  section src (cp0 s) (cp0 (s + 1)) = bucket g s l ->
  exists nx' w,
    subsort vl vh P src cp0 nx s =
      (nx', map (fun v => (v, part_of vl l v)) (zrange (v_ s) (v_ (s + 1) + 1)), w) /\
    Permutation w (enum (part_of vl l (v_ s)) (flat_map (fun v => bucket key v l) (zrange (v_ s) (v_ (s + 1))))).
Proof.
  intros Hs H0 Hsl.
  destruct (subsort_spec vl vh P src cp0 nx s) as (nx' & w & Heq & Hw & _).
  - apply P2V_mono; lia.
  - intros q Hq. rewrite Hsl in Hq. unfold bucket in Hq. apply filter_In in Hq. destruct Hq as [Hq Hg].
    apply Z.eqb_eq in Hg. apply g_iff; [exact Hq|lia|exact Hg].
  - exists nx', w. fold (v_ s) (v_ (s + 1)) in *. rewrite Hsl, H0 in *. split.
    + rewrite Heq. f_equal. f_equal. apply map_ext_in. intros v Hvr. apply in_zrange in Hvr.
      f_equal. unfold part_of. rewrite (psum_app _ vl (v_ s) v) by (pose proof (v_flat s ltac:(lia)); lia).
      f_equal. apply psum_ext. intros u Hu. unfold cnt. rewrite bucket_g_key by lia. reflexivity.
    + rewrite Hw. apply Permutation_refl'. f_equal. apply flat_map_ext_in. intros v Hvr.
      apply in_zrange in Hvr. apply bucket_g_key; lia.
Qed.

Lemma fine_layout :
  flat_map (fun s => enum (part_of vl l (v_ s)) (flat_map (fun v => bucket key v l) (zrange (v_ s) (v_ (s + 1)))))
    (zrange 0 P) = enum 0 (vsorted vl vh l).
Proof.
  rewrite (enum_layout (fun s => flat_map (fun v => bucket key v l) (zrange (v_ s) (v_ (s + 1)))) 0 P 0).
  - f_equal. unfold vsorted. rewrite <- flat_map_flat_map. f_equal.
    rewrite <- v_P. apply v_flat. lia.
  - intros s Hs. rewrite Z.add_0_l. rewrite <- length_psum_map. rewrite <- flat_map_flat_map.
    rewrite (proj1 (v_flat s ltac:(lia))). rewrite length_psum_map. reflexivity.
Qed.

Lemma subsorts_flat : flat_map (subsorts_of P) (zrange 0 P) = zrange 0 P.
Proof.
  assert (H : forall r, In r (zrange 0 P) -> subsorts_of P r = [r]).
  { intros r Hr. apply in_zrange in Hr. unfold subsorts_of. rewrite zrange_cons by lia.
    cbn [filter]. rewrite Z.sub_diag, Z.mod_0_l by lia. cbn [Z.eqb]. f_equal.
    apply filter_none. intros s Hs. apply in_zrange in Hs. rewrite Z.mod_small by lia. lia. }
  rewrite (flat_map_ext_in _ (fun r => [r]) _ H). clear.
  induction (zrange 0 P) as [|a m IH]; [reflexivity|]. cbn [flat_map app]. rewrite IH. reflexivity.
Qed.

Lemma length_vsorted : Z.of_nat (length (vsorted vl vh l)) = np.
Proof.
  unfold vsorted. rewrite length_psum_map. rewrite <- Hlen. apply vsorted_length; [exact Hkey|lia].
Qed.

Lemma part_below v : v <= vl -> part_of vl l v = 0.
Proof. intros H. apply psum_nil. exact H. Qed.

Lemma part_above v : vh + 1 <= v -> part_of vl l v = np.
Proof.
  intros H. rewrite <- Hlen. replace v with ((v - 1) + 1) by ring.
  apply vsorted_length; [|lia]. intros q Hq. specialize (Hkey q Hq). lia.
Qed.

Lemma partition_writes pw partition :
  (forall v x, In (v, x) pw -> x = part_of vl l v /\ 0 <= v < nv) ->
  (forall v, vl <= v <= vh -> In (v, part_of vl l v) pw) ->
  (forall v x, In (v, x) (ghost_writes np vl vh nv) -> In (v, x) pw) ->
  (forall v, 0 <= v < nv -> apply_writes pw partition v = part_of vl l v) /\
  (forall v, ~ 0 <= v < nv -> apply_writes pw partition v = partition v).
Proof.
  intros Hpw Hin Hg. split.
  - intros v Hvr. apply apply_writes_in; [intros y Hy; apply Hpw in Hy; tauto|].
    destruct (Z_lt_le_dec v vl).
    + apply Hg. rewrite part_below by lia. unfold ghost_writes. apply in_or_app. left.
      apply in_map_iff. exists v. rewrite in_zrange. split; [reflexivity|lia].
    + destruct (Z_lt_le_dec vh v).
      * apply Hg. rewrite part_above by lia. unfold ghost_writes. apply in_or_app. right.
        apply in_map_iff. exists v. rewrite in_zrange. split; [reflexivity|lia].
      * apply Hin. lia.
  - intros v Hvr. apply apply_writes_notin. intros x Hx. apply Hpw in Hx. tauto.
Qed.

Lemma ghost_ok v x : In (v, x) (ghost_writes np vl vh nv) -> x = part_of vl l v /\ 0 <= v < nv.
Proof.
  unfold ghost_writes. rewrite in_app_iff, !in_map_iff.
  intros [(u & Heq & Hu)|(u & Heq & Hu)]; injection Heq as -> <-; apply in_zrange in Hu.
  - rewrite part_below by lia. lia.
  - rewrite part_above by lia. lia.
Qed.

Lemma v_in s v : 0 <= s < P -> v_ s <= v <= v_ (s + 1) -> vl <= v <= vh + 1.
Proof.
  intros Hs Hvr. pose proof (v_flat s ltac:(lia)) as [_ H1].
  assert (H2 : v_ (s + 1) <= vh + 1).
  { unfold v_. rewrite P2V_le by lia. nia. }
  lia.
Qed.

Lemma sort_run_spec aux0 nx0 partition p' partition' :
  sort_pipeline_run c np vl vh nv P p aux0 nx0 partition p' partition' ->
  section p' 0 np = vsorted vl vh l /\
  (forall v, 0 <= v < nv -> partition' v = part_of vl l v) /\
  (forall v, ~ 0 <= v < nv -> partition' v = partition v).
Proof.
  unfold sort_pipeline_run. destruct (Z.eqb_spec P 1) as [E1|N1]; cbn [negb].
  - (* one thread *)
    destruct (fine_job p (upd (upd (fun _ => 0) 0 0) 1 np) (nx0 0) 0) as (nx' & w & Heq & Hw).
    + lia.
    + rewrite upd_other by lia. rewrite upd_same. rewrite part_below; [reflexivity|].
      unfold v_. rewrite P2V_0 by lia. lia.
    + rewrite upd_other by lia. rewrite upd_same. rewrite Z.add_0_l, upd_same. rewrite Hp.
      symmetry. apply filter_all. intros q Hq. pose proof (g_range q Hq). lia.
    + replace (subsort vl vh 1 p (upd (upd (fun _ => 0) 0 0) 1 np) (nx0 0) 0)
        with (subsort vl vh P p (upd (upd (fun _ => 0) 0 0) 1 np) (nx0 0) 0) by (rewrite E1; reflexivity).
      rewrite Heq. intros [-> ->].
      assert (Hv0 : v_ 0 = vl) by (apply P2V_0; lia).
      assert (Hv1 : v_ (0 + 1) = vh + 1) by (rewrite <- v_P; f_equal; lia).
      rewrite Hv0, Hv1 in *. rewrite part_below in Hw by lia.
      split; [|split].
      * assert (Hs : section (apply_writes w aux0) 0 np = vsorted vl vh l).
        { rewrite <- length_vsorted. apply writes_enum. exact Hw. }
        rewrite <- Hs. unfold section. apply map_ext_in. intros i Hi.
        apply apply_writes_in.
        -- intros y Hy. apply in_map_iff in Hy. destruct Hy as (j & Hj & _). congruence.
        -- apply in_map_iff. exists i. auto.
      * apply partition_writes.
        -- intros v x Hx. apply in_app_or in Hx. destruct Hx as [Hx|Hx]; [|apply ghost_ok; exact Hx].
           apply in_map_iff in Hx. destruct Hx as (u & Heq' & Hu). apply in_zrange in Hu.
           injection Heq' as -> <-. split; [reflexivity|lia].
        -- intros v Hvr. apply in_or_app. left. apply in_map_iff. exists v. rewrite in_zrange. split; [reflexivity|lia].
        -- intros v x Hx. apply in_or_app. right. exact Hx.
      * apply partition_writes.
        -- intros v x Hx. apply in_app_or in Hx. destruct Hx as [Hx|Hx]; [|apply ghost_ok; exact Hx].
           apply in_map_iff in Hx. destruct Hx as (u & Heq' & Hu). apply in_zrange in Hu.
           injection Heq' as -> <-. split; [reflexivity|lia].
        -- intros v Hvr. apply in_or_app. left. apply in_map_iff. exists v. rewrite in_zrange. split; [reflexivity|lia].
        -- intros v x Hx. apply in_or_app. right. exact Hx.
  - intros (aux & cw & fw & pw & H). cbv zeta in H. fold cp in H.
    destruct H as (Hcw & -> & Hfw & Hpw & -> & ->).
    rewrite subsorts_flat in Hfw, Hpw.
    rewrite coarse_writes in Hcw.
    assert (Haux : section (apply_writes cw aux0) 0 np = flat_map (fun s => bucket g s l) (zrange 0 P)).
    { rewrite <- coff_P. unfold coff. apply writes_enum. exact Hcw. }
    set (aux := apply_writes cw aux0) in *. set (cp0 := upd (cp 0) P np) in *.
    assert (Hjob : forall s, In s (zrange 0 P) -> exists nx' w,
      subsort vl vh P aux cp0 (nx0 s) s =
        (nx', map (fun v => (v, part_of vl l v)) (zrange (v_ s) (v_ (s + 1) + 1)), w) /\
      Permutation w (enum (part_of vl l (v_ s)) (flat_map (fun v => bucket key v l) (zrange (v_ s) (v_ (s + 1)))))).
    { intros s Hs. apply in_zrange in Hs. apply fine_job; [exact Hs| |].
      - unfold cp0. rewrite cp0_all by lia. apply coff_psum. lia.
      - unfold cp0. rewrite !cp0_all by lia. apply aux_block; [exact Hs|exact Haux]. }
    rewrite !flat_map_map_ in *.
    split.
    { rewrite <- length_vsorted. apply writes_enum. rewrite Hfw, <- fine_layout.
      clear -Hjob. induction (zrange 0 P) as [|s ss IH]; [constructor|]. cbn [flat_map].
      apply Permutation_app; [|apply IH; intros s' Hs'; apply Hjob; right; exact Hs'].
      destruct (Hjob s (or_introl eq_refl)) as (nx' & w & -> & Hw). exact Hw. }
    apply partition_writes.
    + intros v x Hx. apply (Permutation_in _ Hpw) in Hx. apply in_app_or in Hx.
      destruct Hx as [Hx|Hx]; [|apply ghost_ok; exact Hx].
      apply in_flat_map in Hx. destruct Hx as (s & Hs & Hx).
      destruct (Hjob s Hs) as (nx' & w & Heq & _). rewrite Heq in Hx. cbn [fst snd] in Hx.
      apply in_map_iff in Hx. destruct Hx as (u & Heq' & Hu). apply in_zrange in Hu.
      injection Heq' as -> <-. apply in_zrange in Hs. split; [reflexivity|].
      pose proof (v_in s v Hs ltac:(lia)). lia.
    + intros v Hvr. apply (Permutation_in _ (Permutation_sym Hpw)). apply in_or_app. left.
      apply in_flat_map. exists (V2P v P vl vh).
      assert (Hr : In (V2P v P vl vh) (zrange 0 P)) by (apply in_zrange, V2P_range; lia).
      split; [exact Hr|]. destruct (Hjob _ Hr) as (nx' & w & -> & _). cbn [fst snd].
      apply in_map_iff. exists v. split; [reflexivity|]. apply in_zrange.
      apply in_zrange in Hr.
      pose proof (proj1 (V2P_iff (V2P v P vl vh) v P vl vh ltac:(lia) ltac:(lia) ltac:(lia)) eq_refl) as Hi.
      fold (v_ (V2P v P vl vh)) (v_ (V2P v P vl vh + 1)) in Hi. lia.
    + intros v x Hx. apply (Permutation_in _ (Permutation_sym Hpw)). apply in_or_app. right. exact Hx.
Qed.
End Main.

(* ---- properties of the specification list ---- *)

Lemma perm_vsorted l vl vh : (forall p, In p l -> vl <= key p <= vh) -> Permutation l (vsorted vl vh l).
Proof.
  induction l as [|p l IH]; intros Hk.
  - unfold vsorted. rewrite flat_map_nil_all by reflexivity. constructor.
  - specialize (IH (fun q Hq => Hk q (or_intror Hq))).
    apply (Permutation_trans (perm_skip p IH)). clear IH.
    specialize (Hk p (or_introl eq_refl)). unfold vsorted.
    assert (E : forall l, flat_map (fun v => bucket key v l) (zrange vl (vh + 1)) =
       flat_map (fun v => bucket key v l) (zrange vl (key p)) ++ bucket key (key p) l ++
       flat_map (fun v => bucket key v l) (zrange (key p + 1) (vh + 1))).
    { intros l'. rewrite (zrange_app vl (key p) (vh + 1)) by lia. rewrite flat_map_app. f_equal.
      rewrite (zrange_cons (key p)) by lia. reflexivity. }
    rewrite !E.
    assert (F : forall lo hi, ~ lo <= key p < hi ->
      flat_map (fun v => bucket key v (p :: l)) (zrange lo hi) = flat_map (fun v => bucket key v l) (zrange lo hi)).
    { intros lo hi Hn. apply flat_map_ext_in. intros v Hv. apply in_zrange in Hv. unfold bucket. cbn [filter].
      replace (key p =? v) with false by lia. reflexivity. }
    rewrite !F by lia. unfold bucket at 5. cbn [filter]. rewrite Z.eqb_refl. cbn [app].
    fold (bucket key (key p) l). apply Permutation_middle.
Qed.

Lemma key_vsorted_block l v q : In q (bucket key v l) -> key q = v.
Proof. unfold bucket. intros H. apply filter_In in H. lia. Qed.

Lemma sorted_vsorted l vl vh : StronglySorted (fun a b => key a <= key b) (vsorted vl vh l).
Proof.
  unfold vsorted. generalize (vh + 1). intros hi. pattern vl, hi. apply zrange_ind; clear vl hi.
  - intros lo hi H. rewrite zrange_nil by lia. constructor.
  - intros lo hi H IH. rewrite zrange_cons by lia. cbn [flat_map].
    assert (Hb : forall q, In q (bucket key lo l) -> key q = lo) by apply key_vsorted_block.
    assert (Hrest : forall q, In q (flat_map (fun v => bucket key v l) (zrange (lo + 1) hi)) -> lo < key q).
    { intros q Hq. apply in_flat_map in Hq. destruct Hq as (v & Hv & Hq). apply in_zrange in Hv.
      apply key_vsorted_block in Hq. lia. }
    revert Hb. generalize (bucket key lo l). intros b. induction b as [|q b IHb]; intros Hb; cbn [app]; [exact IH|].
    constructor.
    + apply IHb. intros x Hx. apply Hb. right. exact Hx.
    + apply Forall_forall. intros x Hx. apply in_app_or in Hx. rewrite (Hb q) by (left; reflexivity).
      destruct Hx as [Hx|Hx]; [rewrite (Hb x) by (right; exact Hx); lia|]. specialize (Hrest x Hx). lia.
Qed.

Lemma stable_vsorted l vl vh v : (forall p, In p l -> vl <= key p <= vh) ->
  bucket key v (vsorted vl vh l) = bucket key v l.
Proof.
  intros Hk. unfold vsorted. rewrite bucket_flat_map.
  assert (Hself : forall u, bucket key v (bucket key u l) = if u =? v then bucket key v l else []).
  { intros u. unfold bucket. destruct (Z.eqb_spec u v) as [->|Hne].
    - apply filter_all. intros x Hx. apply filter_In in Hx. tauto.
    - apply filter_none. intros x Hx. apply filter_In in Hx. lia. }
  destruct (Z_lt_le_dec v vl) as [Hlt|Hge]; [|destruct (Z_lt_le_dec vh v) as [Hgt|Hle]].
  - rewrite flat_map_nil_all.
    + symmetry. apply filter_none. intros x Hx. specialize (Hk x Hx). lia.
    + intros u Hu. apply in_zrange in Hu. rewrite Hself. replace (u =? v) with false by lia. reflexivity.
  - rewrite flat_map_nil_all.
    + symmetry. apply filter_none. intros x Hx. specialize (Hk x Hx). lia.
    + intros u Hu. apply in_zrange in Hu. rewrite Hself. replace (u =? v) with false by lia. reflexivity.
  - rewrite (zrange_app vl v (vh + 1)) by lia. rewrite flat_map_app, (zrange_cons v) by lia. cbn [flat_map].
    rewrite flat_map_nil_all; [rewrite flat_map_nil_all|].
    + rewrite app_nil_r. cbn [app]. rewrite Hself, Z.eqb_refl. reflexivity.
    + intros u Hu. apply in_zrange in Hu. rewrite Hself. replace (u =? v) with false by lia. reflexivity.
    + intros u Hu. apply in_zrange in Hu. rewrite Hself. replace (u =? v) with false by lia. reflexivity.
Qed.

(* positions of voxel v in the sorted array *)
Lemma vsorted_block (m : Z -> particle) np l vl vh v k :
  (forall p, In p l -> vl <= key p <= vh) -> vl <= vh -> Z.of_nat (length l) = np ->
  section m 0 np = vsorted vl vh l ->
  (part_of vl l v <= k < part_of vl l (v + 1) <-> 0 <= k < np /\ key (m k) = v).
Proof.
  intros Hk Hle Hlen Hm.
  assert (Hnn : forall a b, 0 <= psum (fun u => cnt key u l) a b).
  { intros a b. apply psum_nonneg. intros u _. unfold cnt. lia. }
  assert (Hlv : Z.of_nat (length (vsorted vl vh l)) = np).
  { rewrite <- Hlen. rewrite <- (Permutation_length (perm_vsorted l vl vh Hk)). reflexivity. }
  (* each voxel's block *)
  assert (Hblk : forall u j, vl <= u <= vh -> part_of vl l u <= j < part_of vl l (u + 1) ->
      0 <= j < np /\ key (m j) = u).
  { intros u j Hu Hj.
    assert (E : vsorted vl vh l = flat_map (fun v => bucket key v l) (zrange vl u) ++ bucket key u l ++
       flat_map (fun v => bucket key v l) (zrange (u + 1) (vh + 1))).
    { unfold vsorted. rewrite (zrange_app vl u (vh + 1)) by lia. rewrite flat_map_app. f_equal.
      rewrite (zrange_cons u) by lia. reflexivity. }
    assert (Hl1 : Z.of_nat (length (flat_map (fun v => bucket key v l) (zrange vl u))) = part_of vl l u)
      by apply length_psum_map.
    assert (Hpl : part_of vl l (u + 1) = part_of vl l u + Z.of_nat (length (bucket key u l)))
      by (apply psum_last; lia).
    assert (Hin : In (m j) (bucket key u l)).
    { pose proof Hm as Hm'. rewrite E in Hm'. apply section_sub in Hm'; [|lia]. rewrite <- Hm'.
      unfold section. apply in_map. apply in_zrange. lia. }
    split; [|exact (key_vsorted_block _ _ _ Hin)].
    split; [pose proof (Hnn vl u); unfold part_of in *; lia|].
    apply (f_equal (fun x => Z.of_nat (length x))) in E. rewrite !app_length in E. lia. }
  assert (Htot : part_of vl l (vh + 1) = np) by (rewrite vsorted_length by (auto; lia); exact Hlen).
  assert (Hmono : forall a b, vl <= a <= b -> part_of vl l a <= part_of vl l b).
  { intros a b Hab. unfold part_of. rewrite (psum_app _ vl a b) by lia. specialize (Hnn a b). lia. }
  split.
  - intros Hkr.
    destruct (Z_lt_le_dec v vl) as [Hlt|Hge].
    { unfold part_of in Hkr. rewrite !psum_nil in Hkr by lia. lia. }
    destruct (Z_lt_le_dec vh v) as [Hgt|Hle'].
    { exfalso. unfold part_of in Hkr. rewrite psum_last in Hkr by lia.
      assert (Hz : cnt key v l = 0); [|lia].
      unfold cnt, bucket. rewrite filter_none; [reflexivity|].
      intros x Hx. specialize (Hk x Hx). lia. }
    apply Hblk; lia.
  - intros [Hkr Hkey].
    (* find the block containing k *)
    assert (Hex : exists u, vl <= u <= vh /\ part_of vl l u <= k < part_of vl l (u + 1)).
    { assert (Hgen : forall w, vl <= w -> k < part_of vl l w -> exists u, vl <= u < w /\ part_of vl l u <= k < part_of vl l (u + 1)).
      { intros w Hw. pattern w. apply (Zlt_lower_bound_ind _ vl); [|exact Hw]. clear w Hw.
        intros w IH Hw Hkw. destruct (Z.eq_dec w vl) as [->|Hne].
        - unfold part_of in Hkw. rewrite psum_nil in Hkw by lia. lia.
        - destruct (Z_lt_le_dec k (part_of vl l (w - 1))) as [Hlt|Hge].
          + destruct (IH (w - 1) ltac:(lia) Hlt) as (u & Hu & Hku). exists u. split; [lia|exact Hku].
          + exists (w - 1). split; [lia|]. replace (w - 1 + 1) with w by ring. lia. }
      destruct (Hgen (vh + 1) ltac:(lia) ltac:(lia)) as (u & Hu & Hku). exists u. split; [lia|exact Hku]. }
    destruct Hex as (u & Hu & Hku). destruct (Hblk u k Hu Hku) as [_ Hkey'].
    replace v with u by congruence. exact Hku.
Qed.
