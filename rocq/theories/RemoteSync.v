(* The synchronisations: copies agree. *)
From Coq Require Import ZArith List Bool Lia ZifyBool.
From Verif Require Import SortModel SortProofs VoxelModel VoxelProofs GridModel GridProofs FieldModel RemoteModel RemoteSpec RemoteProofs.
Import ListNotations.
Open Scope Z_scope.
Ltac Zify.zify_post_hook ::= idtac.

(* the components a synchronisation is about *)
Definition fam (e : exch) (c : comp) : bool :=
  match e, c with
  | SyncTangENormB, (Ex | Ey | Ez | Tcax | Tcay | Tcaz | Cbx | Cby | Cbz) => true
  | SyncJf, (Jfx | Jfy | Jfz) => true
  | SyncRho, (Rhof | Rhob) => true
  | _, _ => false
  end.
Lemma axis_dec (a b : axis) : a = b \/ a <> b.
Proof. destruct a, b; (left; reflexivity) || (right; discriminate). Qed.

(* ---------- places along one axis ---------- *)
Section Line.
Variable n : Z -> Z.
Variable P : Z.
Variable per : bool.
Hypothesis HP : 1 <= P.
Hypothesis Hn : forall i, 0 <= i < P -> 1 <= n i.
Definition beside1 (i s : Z) : option Z := let j := i + s in if (0 <=? j) && (j <? P) then Some j else if per then Some (j mod P) else None.
Definition partner1 (u : Z * Z) : option (Z * Z) :=
  let (i, x) := u in
  if x =? n i + 1 then match beside1 i 1 with Some j => Some (j, 1) | None => None end
  else if x =? 1 then match beside1 i (-1) with Some j => Some (j, n j + 1) | None => None end
  else None.
Definition B (i : Z) : Z := before n (Z.to_nat i).
Definition ok1 (w : Z) (u : Z * Z) : Prop := 0 <= fst u < P /\ 1 <= snd u <= n (fst u) + w.
Definition congr (u u' : Z * Z) : Prop :=
  if per then (B P | (B (fst u') + snd u') - (B (fst u) + snd u)) else B (fst u') + snd u' = B (fst u) + snd u.

Lemma B_succ i : 0 <= i -> B (i + 1) = B i + n i.
Proof. intros H. unfold B. replace (Z.to_nat (i + 1)) with (S (Z.to_nat i)) by lia. cbn [before]. rewrite Z2Nat.id by lia. reflexivity. Qed.
Lemma B_0 : B 0 = 0. Proof. reflexivity. Qed.
Lemma B_grow i j : 0 <= i <= j -> j <= P -> B i + (j - i) <= B j.
Proof.
  intros Hi. replace j with (i + Z.of_nat (Z.to_nat (j - i))) by lia. generalize (Z.to_nat (j - i)) as k. induction k as [|k IH]; intros Hj; [cbn; rewrite Z.add_0_r; lia|].
  replace (i + Z.of_nat (S k)) with ((i + Z.of_nat k) + 1) by lia. rewrite B_succ by lia. specialize (Hn (i + Z.of_nat k) ltac:(lia)). lia.
Qed.
Lemma B_step i j : 0 <= i < j -> j <= P -> B i + n i <= B j /\ (B i + n i = B j -> j = i + 1).
Proof. intros Hi Hj. pose proof (B_grow (i + 1) j ltac:(lia) Hj) as H. rewrite B_succ in H by lia. lia. Qed.
Lemma mod_up : (-1) mod P = P - 1. Proof. symmetry. apply (Z.mod_unique _ _ (-1)); lia. Qed.
Lemma mod_wrap : P mod P = 0. Proof. apply Z.mod_same. lia. Qed.
Lemma partner_ok u u' : ok1 1 u -> partner1 u = Some u' -> ok1 1 u' /\ partner1 u' = Some u /\ u' <> u /\ congr u u'.
Proof.
  destruct u as [i x], u' as [i' x']. unfold ok1, partner1, congr, beside1. cbn [fst snd]. intros [Hi Hx].
  pose proof (Hn i Hi) as Ni. pose proof (B_grow 0 i ltac:(lia) ltac:(lia)) as G0. rewrite B_0 in G0.
  destruct (x =? n i + 1) eqn:E1.
  - destruct ((0 <=? i + 1) && (i + 1 <? P)) eqn:E2.
    + intros Q. injection Q as <- <-. pose proof (Hn (i + 1) ltac:(lia)) as Nj. replace (1 =? n (i + 1) + 1) with false by lia. replace (1 =? 1) with true by reflexivity.
      replace (i + 1 + -1) with i by lia. replace ((0 <=? i) && (i <? P)) with true by lia. split; [lia|]. split; [f_equal; f_equal; lia|]. split; [intros Q; injection Q; lia|].
      rewrite B_succ by lia. destruct per; [|lia]. exists 0. lia.
    + destruct per; [|discriminate]. intros Q. injection Q as <- <-. assert (i = P - 1) by lia. replace (i + 1) with P by lia. rewrite mod_wrap. pose proof (Hn 0 ltac:(lia)) as N0.
      replace (1 =? n 0 + 1) with false by lia. replace (1 =? 1) with true by reflexivity. replace ((0 <=? 0 + -1) && (0 + -1 <? P)) with false by lia. replace (0 + -1) with (-1) by lia. rewrite mod_up.
      split; [lia|]. split; [replace (P - 1) with i by lia; f_equal; f_equal; lia|]. split; [intros Q; injection Q; lia|]. rewrite B_0. exists (-1).
      pose proof (B_succ i ltac:(lia)) as Q. replace (i + 1) with P in Q by lia. lia.
  - destruct (x =? 1) eqn:E1'; [|discriminate]. destruct ((0 <=? i + -1) && (i + -1 <? P)) eqn:E2.
    + intros Q. injection Q as <- <-. pose proof (Hn (i + -1) ltac:(lia)) as Nj. replace (n (i + -1) + 1 =? n (i + -1) + 1) with true by lia.
      replace (i + -1 + 1) with i by lia. replace ((0 <=? i) && (i <? P)) with true by lia. split; [lia|]. split; [f_equal; f_equal; lia|]. split; [intros Q; injection Q; lia|].
      pose proof (B_succ (i + -1) ltac:(lia)) as Q. replace (i + -1 + 1) with i in Q by lia. destruct per; [|lia]. exists 0. lia.
    + destruct per; [|discriminate]. intros Q. injection Q as <- <-. assert (i = 0) by lia. subst i. replace (0 + -1) with (-1) by lia. rewrite mod_up. pose proof (Hn (P - 1) ltac:(lia)) as N0.
      replace (n (P - 1) + 1 =? n (P - 1) + 1) with true by lia. replace ((0 <=? P - 1 + 1) && (P - 1 + 1 <? P)) with false by lia. replace (P - 1 + 1) with P by lia. rewrite mod_wrap.
      split; [lia|]. split; [f_equal; f_equal; lia|]. split; [intros Q; injection Q; lia|]. rewrite B_0. exists 1.
      pose proof (B_succ (P - 1) ltac:(lia)) as Q. replace (P - 1 + 1) with P in Q by lia. lia.
Qed.
Lemma congr_refl u : congr u u.
Proof. unfold congr. destruct per; [exists 0; lia|reflexivity]. Qed.
(* equal places within the box *)
Lemma place_eq w u u' : (w = 0 \/ w = 1) -> ok1 w u -> ok1 w u' -> B (fst u') + snd u' = B (fst u) + snd u -> u' = u \/ (w = 1 /\ partner1 u = Some u').
Proof.
  destruct u as [i x], u' as [i' x']. unfold ok1. cbn [fst snd]. intros Hw [Hi Hx] [Hi' Hx'] E.
  pose proof (Hn i Hi) as Ni. pose proof (Hn i' Hi') as Ni'.
  destruct (Z.lt_trichotomy i i') as [D|[D|D]].
  - destruct (B_step i i' ltac:(lia) ltac:(lia)) as [S1 S2]. right. assert (w = 1) by lia. split; [assumption|]. assert (i' = i + 1) by (apply S2; lia). subst i'.
    unfold partner1, beside1. replace (x =? n i + 1) with true by lia. replace ((0 <=? i + 1) && (i + 1 <? P)) with true by lia. f_equal. f_equal. lia.
  - subst i'. left. f_equal. lia.
  - destruct (B_step i' i ltac:(lia) ltac:(lia)) as [S1 S2]. right. assert (w = 1) by lia. split; [assumption|]. assert (i = i' + 1) by (apply S2; lia). subst i.
    unfold partner1, beside1. replace (x =? n (i' + 1) + 1) with false by lia. replace (x =? 1) with true by lia. replace (i' + 1 + -1) with i' by lia.
    replace ((0 <=? i') && (i' <? P)) with true by lia. f_equal. f_equal. lia.
Qed.
Lemma place_range w u : (w = 0 \/ w = 1) -> ok1 w u -> 1 <= B (fst u) + snd u <= B P + w /\
  (B (fst u) + snd u = 1 -> u = (0, 1)) /\ (B (fst u) + snd u = B P + 1 -> u = (P - 1, n (P - 1) + 1)).
Proof.
  destruct u as [i x]. unfold ok1. cbn [fst snd]. intros Hw [Hi Hx]. pose proof (B_grow 0 i ltac:(lia) ltac:(lia)) as G0. rewrite B_0 in G0.
  destruct (B_step i P ltac:(lia) ltac:(lia)) as [S1 S2]. split; [lia|]. split; intros Q.
  - f_equal; lia.
  - assert (P = i + 1) by (apply S2; lia). replace (P - 1) with i by lia. f_equal. lia.
Qed.
Lemma congr_iff w u u' : (w = 0 \/ w = 1) -> ok1 w u -> ok1 w u' -> congr u u' <-> (u' = u \/ (w = 1 /\ partner1 u = Some u')).
Proof.
  intros Hw H H'. split.
  - unfold congr. destruct (place_range w u Hw H) as (R1 & R2 & R3). destruct (place_range w u' Hw H') as (R1' & R2' & R3').
    pose proof (B_grow 0 P ltac:(lia) ltac:(lia)) as GP. rewrite B_0 in GP.
    destruct per eqn:Ep; [|apply place_eq; assumption]. intros [k K].
    assert (k = 0 \/ k = 1 \/ k = -1) as [->|[->| ->]] by nia.
    + apply (place_eq w); try assumption. lia.
    + right. assert (w = 1) by lia. split; [assumption|]. rewrite (R2 ltac:(lia)), (R3' ltac:(lia)). unfold partner1, beside1. pose proof (Hn 0 ltac:(lia)). replace (1 =? n 0 + 1) with false by lia.
      replace (1 =? 1) with true by reflexivity. replace ((0 <=? 0 + -1) && (0 + -1 <? P)) with false by lia. rewrite Ep. replace (0 + -1) with (-1) by lia. rewrite mod_up. reflexivity.
    + right. assert (w = 1) by lia. split; [assumption|]. rewrite (R3 ltac:(lia)), (R2' ltac:(lia)). unfold partner1, beside1. replace (n (P - 1) + 1 =? n (P - 1) + 1) with true by lia.
      replace ((0 <=? P - 1 + 1) && (P - 1 + 1 <? P)) with false by lia. rewrite Ep. replace (P - 1 + 1) with P by lia. rewrite mod_wrap. reflexivity.
  - intros [->|[-> E]]; [apply congr_refl|]. apply (partner_ok u u' H E).
Qed.
End Line.

(* ---------- the synchronisation along one axis ---------- *)
Section Sync.
Context {V : Type}.
Variable A : rarith V.
Variable L : layout V.
Variable num : cell -> Z.
Variable ws : Z.
Variable G : Z -> cgrid V.
Hypothesis OK : layout_ok L.
Hypothesis HB : box L num ws G.

Definition loc : Type := (cell * cell)%type.
Definition coord (a : axis) (l : loc) : Z * Z := (at_ a (fst l), at_ a (snd l)).
Definition shift (a : axis) (l : loc) (u : Z * Z) : loc := (put a (fst u) (fst l), put a (snd u) (snd l)).
Definition val (W : Z -> mem V) (c : comp) (l : loc) : V := W (num (fst l)) (locv (size_at L (fst l)) (c, snd l)).
Definition partner (a : axis) (u : Z * Z) : option (Z * Z) := partner1 (l_n L a) (l_p L a) (l_per L a) u.
Definition valid (c : comp) (l : loc) : Prop := inside L (fst l) /\ holds L c (fst l) (snd l).
Definition width (c : comp) (a : axis) : Z := if node_on c a then 1 else 0.
Lemma valid_ok c l a : valid c l -> ok1 (l_n L a) (l_p L a) (width c a) (coord a l).
Proof. intros [H1 H2]. split; [apply H1|apply H2]. Qed.
Lemma ok_valid c l : (forall a, ok1 (l_n L a) (l_p L a) (width c a) (coord a l)) -> valid c l.
Proof. intros H. split; intros a; apply (H a). Qed.
Lemma coord_shift_same a l u : coord a (shift a l u) = u.
Proof. unfold coord, shift. cbn [fst snd]. rewrite !at_put_same. destruct u; reflexivity. Qed.
Lemma coord_shift_other a b l u : b <> a -> coord b (shift a l u) = coord b l.
Proof. intros H. unfold coord, shift. cbn [fst snd]. rewrite !at_put_other by exact H. reflexivity. Qed.
Lemma shift_self a l : shift a l (coord a l) = l.
Proof. unfold coord, shift. cbn [fst snd]. rewrite !put_at. destruct l; reflexivity. Qed.
Lemma loc_ext l l' : (forall a, coord a l = coord a l') -> l = l'.
Proof. intros H. destruct l as [p q], l' as [p' q']. f_equal; apply cell_ext; intros a; specialize (H a); unfold coord in H; cbn in H; congruence. Qed.
Lemma shift_valid c a l u : valid c l -> ok1 (l_n L a) (l_p L a) (width c a) u -> valid c (shift a l u).
Proof.
  intros H Hu. apply ok_valid. intros b. destruct (axis_dec b a) as [->|D]; [rewrite coord_shift_same; exact Hu|rewrite coord_shift_other by exact D; apply valid_ok, H].
Qed.
Lemma shift_comm a b l u v : a <> b -> shift a (shift b l v) u = shift b (shift a l u) v.
Proof.
  intros D. apply loc_ext. intros d. destruct (axis_dec d a) as [->|Da].
  - rewrite coord_shift_same, coord_shift_other, coord_shift_same by exact D. reflexivity.
  - rewrite coord_shift_other by exact Da. destruct (axis_dec d b) as [->|Db]; [rewrite !coord_shift_same; reflexivity|]. rewrite !coord_shift_other by assumption. reflexivity.
Qed.
Lemma shift_shift a l u v : shift a (shift a l v) u = shift a l u.
Proof.
  apply loc_ext. intros d. destruct (axis_dec d a) as [->|Da]; [rewrite !coord_shift_same; reflexivity|]. rewrite !coord_shift_other by assumption. reflexivity.
Qed.
Lemma partner_spec a u u' : ok1 (l_n L a) (l_p L a) 1 u -> partner a u = Some u' ->
  ok1 (l_n L a) (l_p L a) 1 u' /\ partner a u' = Some u /\ u' <> u /\ congr (l_n L a) (l_p L a) (l_per L a) u u'.
Proof. destruct OK as [O1 O2]. apply partner_ok; [apply O1|apply O2]. Qed.

(* how a copy is combined with the other *)
Definition mix (e : exch) (c : comp) (dl dr old w : V) : V :=
  match e with
  | SyncJf => let sum := r_add V A dr dl in r_add V A (r_mul V A (r_add V A (r_div V A dl sum) (r_div V A dl sum)) old) (r_mul V A (r_add V A (r_div V A dr sum) (r_div V A dr sum)) w)
  | SyncRho => let sum := r_add V A dr dl in
      match c with
      | Rhof => r_add V A (r_mul V A (r_add V A (r_div V A dl sum) (r_div V A dl sum)) old) (r_mul V A (r_add V A (r_div V A dr sum) (r_div V A dr sum)) w)
      | _ => r_add V A (r_mul V A (r_div V A dl sum) old) (r_mul V A (r_div V A dr sum) w)
      end
  | _ => r_avg V A w old
  end.
Lemma combine_mix e g a s dr c q w F : ghosted e = false -> combine_ V A e g a s dr (c, q) w F = mix e c (c_d V g a) dr (F (locv (c_n V g) (c, q))) w.
Proof. destruct e; intros H; try discriminate; reflexivity. Qed.

Lemma got_iff e p a s c q : ghosted e = false -> fam e c = true ->
  got L e p a s c q <-> node_on c a = true /\ at_ a q = recv_plane e s (l_n L a (at_ a p)) /\ (forall b, b <> a -> 1 <= at_ b q <= l_n L b (at_ b p) + width c b).
Proof.
  intros Hg Hf. unfold got. rewrite in_addrs. split.
  - intros (g & ks & Hi & Hc & Hq). apply in_plane in Hq. rewrite !at_size in Hq. destruct Hq as (Q1 & Q2 & Q3).
    assert (node_on c a = true /\ wide_y g = width c (next a) /\ wide_z g = width c (next (next a))) as (N & Wy & Wz).
    { destruct e; try discriminate Hg; destruct a; cbn in Hi; repeat (destruct Hi as [Hi|Hi]; [injection Hi as <- <-; cbn in Hc; repeat (destruct Hc as [Hc|Hc]; [subst c; split; [reflexivity|split; reflexivity]|]); destruct Hc|]); destruct Hi. }
    split; [exact N|]. split; [exact Q1|]. intros b Hb. assert (D : b = next a \/ b = next (next a)) by (destruct a, b; tauto). rewrite Wy in Q2. rewrite Wz in Q3. destruct D as [->| ->]; assumption.
  - intros (N & Q1 & Q2). destruct (next_neq a) as [N1 N2]. pose proof (Q2 _ N1) as Qy. pose proof (Q2 _ N2) as Qz.
    assert (exists g ks, In (g, ks) (send_items e a) /\ In c ks /\ wide_y g = width c (next a) /\ wide_z g = width c (next (next a))) as (g & ks & I1 & I2 & Wy & Wz).
    { destruct e; try discriminate Hg; destruct a, c; try discriminate Hf; try discriminate N; cbn [send_items next cb e_ tca jf].
      all: first [ (exists Face; eexists; split; [left; reflexivity|]; split; [cbn; tauto|]; split; reflexivity)
                 | (exists Node; eexists; split; [left; reflexivity|]; split; [cbn; tauto|]; split; reflexivity)
                 | (exists YZedge; eexists; split; [left; reflexivity|]; split; [cbn; tauto|]; split; reflexivity)
                 | (exists YZedge; eexists; split; [right; left; reflexivity|]; split; [cbn; tauto|]; split; reflexivity)
                 | (exists ZYedge; eexists; split; [right; left; reflexivity|]; split; [cbn; tauto|]; split; reflexivity)
                 | (exists ZYedge; eexists; split; [right; right; left; reflexivity|]; split; [cbn; tauto|]; split; reflexivity) ]. }
    exists g, ks. split; [exact I1|]. split; [exact I2|]. apply in_plane. rewrite !at_size, Wy, Wz. split; [exact Q1|]. split; assumption.
Qed.
Lemma valid_meshed c l : valid c l -> meshed L (fst l) (snd l).
Proof. intros [H1 H2] a. specialize (H2 a). destruct (node_on c a); lia. Qed.

Lemma two_dirs a : dirs (two a).
Proof. intros d [<-|[<-|[]]]; [left|right]; reflexivity. Qed.
(* One phase of a synchronisation exists and does this. *)
Lemma phase_sync e a W : ghosted e = false -> exists W', phase V A ws G e (two a) W W'.
Proof.
  intros Hg. exists (fun r => match receive_all V A ws G e r (messages V ws G e (two a) W) (two a) (W r) with Some F => F | None => W r end).
  intros r Hr. destruct HB as (_ & _ & On & _). destruct (On r Hr) as (p & Hp & <-). cbn [two receive_all fst snd].
  assert (S : forall s F, sign s -> In (a, s) (two a) -> exists F', receive V A ws G e (num p) (messages V ws G e (two a) W) F a s = Some F').
  { intros s F Hs Hin. destruct (beside L a (at_ a p) (- s)) as [j|] eqn:E.
    - destruct (receive_some A L num ws G OK HB e (two a) W p F a s j (two_dirs a) Hin Hp Hs E) as (F' & E' & _). exists F'. exact E'.
    - exists F. apply (receive_none A L num ws G HB); assumption. }
  destruct (S (-1) (W (num p)) ltac:(left; reflexivity) ltac:(left; reflexivity)) as (F1 & E1). fold (two a). rewrite E1. destruct (S 1 F1 ltac:(right; reflexivity) ltac:(right; left; reflexivity)) as (F2 & E2). rewrite E2. reflexivity.
Qed.
Definition other (c : comp) (a : axis) (u : Z * Z) : option (Z * Z) := if node_on c a then partner a u else None.
Lemma phase_val e a W W' c l : ghosted e = false -> fam e c = true -> phase V A ws G e (two a) W W' -> valid c l ->
  val W' c l = match other c a (coord a l) with
               | Some u => mix e c (l_d L a (fst (coord a l))) (l_d L a (fst u)) (val W c l) (val W c (shift a l u))
               | None => val W c l end.
Proof.
  intros Hg Hf Hph Hv. pose proof (valid_meshed c l Hv) as Hm. destruct l as [p q]. destruct Hv as [Hp Hq]. cbn [fst snd] in *.
  assert (Hr : 0 <= num p < ws) by (apply HB, Hp). specialize (Hph (num p) Hr). cbn [two receive_all fst snd] in Hph. fold (two a) in Hph.
  pose proof (size_pos_at L OK a p Hp) as Pn.
  assert (Cd : c_d V (G (num p)) a = l_d L a (at_ a p)) by (apply HB, Hp).
  destruct (receive V A ws G e (num p) (messages V ws G e (two a) W) (W (num p)) a (-1)) as [F1|] eqn:E1; [|discriminate].
  destruct (receive V A ws G e (num p) (messages V ws G e (two a) W) F1 a 1) as [F2|] eqn:E2; [|discriminate]. injection Hph as Hph.
  unfold val. cbn [fst snd]. rewrite <- Hph. clear Hph.
  set (k := locv (size_at L p) (c, q)).
  (* what the first and the second receive do at this place *)
  assert (R1 : got L e p a (-1) c q -> forall j, beside L a (at_ a p) 1 = Some j ->
    F1 k = mix e c (l_d L a (at_ a p)) (l_d L a j) (W (num p) k) (val W c (shift a (p, q) (j, 1)))).
  { intros Hgot j Ej. destruct (receive_some A L num ws G OK HB e (two a) W p (W (num p)) a (-1) j (two_dirs a) ltac:(left; reflexivity) Hp ltac:(left; reflexivity) Ej) as (F' & E' & _ & H).
    rewrite E' in E1. injection E1 as ->. unfold k. rewrite (H c q Hgot), combine_mix by exact Hg. rewrite Cd, (size_box L num ws G HB p Hp). reflexivity. }
  assert (N1 : ~ got L e p a (-1) c q \/ beside L a (at_ a p) 1 = None -> F1 k = W (num p) k).
  { intros H. destruct (beside L a (at_ a p) 1) as [j|] eqn:Ej.
    - destruct H as [H|H]; [|discriminate]. destruct (receive_some A L num ws G OK HB e (two a) W p (W (num p)) a (-1) j (two_dirs a) ltac:(left; reflexivity) Hp ltac:(left; reflexivity) Ej) as (F' & E' & H' & _).
      rewrite E' in E1. injection E1 as ->. apply H'; assumption.
    - rewrite (receive_none A L num ws G HB e (two a) W p (W (num p)) a (-1) Hp ltac:(left; reflexivity) Ej) in E1. injection E1 as <-. reflexivity. }
  assert (R2 : got L e p a 1 c q -> forall j, beside L a (at_ a p) (-1) = Some j ->
    F2 k = mix e c (l_d L a (at_ a p)) (l_d L a j) (F1 k) (val W c (shift a (p, q) (j, l_n L a j + 1)))).
  { intros Hgot j Ej. destruct (receive_some A L num ws G OK HB e (two a) W p F1 a 1 j (two_dirs a) ltac:(right; left; reflexivity) Hp ltac:(right; reflexivity) Ej) as (F' & E' & _ & H).
    rewrite E' in E2. injection E2 as ->. unfold k. rewrite (H c q Hgot), combine_mix by exact Hg. rewrite Cd, (size_box L num ws G HB p Hp). unfold send_plane. cbn [Z.ltb Z.compare]. rewrite Hg. reflexivity. }
  assert (N2 : ~ got L e p a 1 c q \/ beside L a (at_ a p) (-1) = None -> F2 k = F1 k).
  { intros H. destruct (beside L a (at_ a p) (-1)) as [j|] eqn:Ej.
    - destruct H as [H|H]; [|discriminate]. destruct (receive_some A L num ws G OK HB e (two a) W p F1 a 1 j (two_dirs a) ltac:(right; left; reflexivity) Hp ltac:(right; reflexivity) Ej) as (F' & E' & H' & _).
      rewrite E' in E2. injection E2 as ->. apply H'; assumption.
    - rewrite (receive_none A L num ws G HB e (two a) W p F1 a 1 Hp ltac:(right; reflexivity) Ej) in E2. injection E2 as <-. reflexivity. }
  assert (Tr : forall b, b <> a -> 1 <= at_ b q <= l_n L b (at_ b p) + width c b) by (intros b _; apply Hq).
  rewrite (got_iff e p a (-1) c q Hg Hf) in R1, N1. rewrite (got_iff e p a 1 c q Hg Hf) in R2, N2.
  unfold recv_plane in *. cbn [Z.ltb Z.compare] in *. rewrite Hg in *.
  unfold other, coord. cbn [fst snd]. destruct (node_on c a) eqn:En.
  2: { rewrite N2 by (left; intros [Q _]; discriminate). apply N1. left. intros [Q _]. discriminate. }
  unfold partner, partner1. change (beside1 (l_p L a) (l_per L a) (at_ a p) 1) with (beside L a (at_ a p) 1). change (beside1 (l_p L a) (l_per L a) (at_ a p) (-1)) with (beside L a (at_ a p) (-1)).
  destruct (at_ a q =? l_n L a (at_ a p) + 1) eqn:X1.
  - rewrite N2 by (left; intros (_ & Q & _); lia). destruct (beside L a (at_ a p) 1) as [j|] eqn:Ej; [|apply N1; right; reflexivity].
    apply (R1 ltac:(split; [reflexivity|split; [lia|exact Tr]]) j eq_refl).
  - assert (F1 k = W (num p) k) as EF by (apply N1; left; intros (_ & Q & _); lia). destruct (at_ a q =? 1) eqn:X2.
    + destruct (beside L a (at_ a p) (-1)) as [j|] eqn:Ej; [|rewrite N2 by (right; reflexivity); exact EF]. rewrite (R2 ltac:(split; [reflexivity|split; [lia|exact Tr]]) j eq_refl), EF. reflexivity.
    + rewrite N2 by (left; intros (_ & Q & _); lia). exact EF.
Qed.

(* what is not received stays *)
Lemma phase_keep e a W W' c p q : phase V A ws G e (two a) W W' -> inside L p -> meshed L p q -> (forall s, sign s -> ~ got L e p a s c q) ->
  W' (num p) (locv (size_at L p) (c, q)) = W (num p) (locv (size_at L p) (c, q)).
Proof.
  intros Hph Hp Hm Hg. assert (Hr : 0 <= num p < ws) by (apply HB, Hp). specialize (Hph (num p) Hr). cbn [two receive_all fst snd] in Hph. fold (two a) in Hph.
  destruct (receive V A ws G e (num p) (messages V ws G e (two a) W) (W (num p)) a (-1)) as [F1|] eqn:E1; [|discriminate].
  destruct (receive V A ws G e (num p) (messages V ws G e (two a) W) F1 a 1) as [F2|] eqn:E2; [|discriminate]. injection Hph as Hph. rewrite <- Hph.
  assert (K : forall s F F', sign s -> In (a, s) (two a) -> receive V A ws G e (num p) (messages V ws G e (two a) W) F a s = Some F' -> F' (locv (size_at L p) (c, q)) = F (locv (size_at L p) (c, q))).
  { intros s F F' Hs Hin E. destruct (beside L a (at_ a p) (- s)) as [j|] eqn:Ej.
    - destruct (receive_some A L num ws G OK HB e (two a) W p F a s j (two_dirs a) Hin Hp Hs Ej) as (F'' & E' & H & _). rewrite E' in E. injection E as ->. apply H; [exact Hm|apply Hg, Hs].
    - rewrite (receive_none A L num ws G HB e (two a) W p F a s Hp Hs Ej) in E. injection E as <-. reflexivity. }
  rewrite (K 1 F1 F2 ltac:(right; reflexivity) ltac:(right; left; reflexivity) E2). apply (K (-1) (W (num p)) F1 ltac:(left; reflexivity) ltac:(left; reflexivity) E1).
Qed.
(* ---------- copies agree ---------- *)
Section Agree.
Hypothesis add_comm : forall x y, r_add V A x y = r_add V A y x.
Hypothesis avg_comm : forall x y, r_avg V A x y = r_avg V A y x.
Lemma mix_sym e c dl dr x y : ghosted e = false -> mix e c dl dr x y = mix e c dr dl y x.
Proof.
  destruct e; intros H; try discriminate; cbn [mix].
  - apply avg_comm.
  - rewrite (add_comm dr dl). apply add_comm.
  - rewrite (add_comm dr dl). destruct c; apply add_comm.
Qed.
Definition agrees (c : comp) (a : axis) (W : Z -> mem V) : Prop := forall l u, valid c l -> other c a (coord a l) = Some u -> val W c l = val W c (shift a l u).
Lemma other_spec c a l u : valid c l -> other c a (coord a l) = Some u -> valid c (shift a l u) /\ other c a u = Some (coord a l).
Proof.
  intros Hv. unfold other. destruct (node_on c a) eqn:E; [|discriminate]. intros Hu. pose proof (valid_ok c l a Hv) as Hk. unfold width in Hk. rewrite E in Hk.
  destruct (partner_spec a _ _ Hk Hu) as (K1 & K2 & _). split; [|exact K2]. apply shift_valid; [exact Hv|]. unfold width. rewrite E. exact K1.
Qed.
Lemma agrees_own e a W W' c : ghosted e = false -> fam e c = true -> phase V A ws G e (two a) W W' -> agrees c a W'.
Proof.
  intros Hg Hf Hph l u Hv Hu. destruct (other_spec c a l u Hv Hu) as [Hv' Hu']. rewrite (phase_val e a W W' c l Hg Hf Hph Hv), Hu, (phase_val e a W W' c _ Hg Hf Hph Hv'), coord_shift_same, Hu', shift_shift, shift_self. apply mix_sym, Hg.
Qed.
Lemma agrees_other e a b W W' c : a <> b -> ghosted e = false -> fam e c = true -> phase V A ws G e (two a) W W' -> agrees c b W -> agrees c b W'.
Proof.
  intros D Hg Hf Hph Ag l u Hv Hu. destruct (other_spec c b l u Hv Hu) as [Hv' Hu'].
  rewrite (phase_val e a W W' c l Hg Hf Hph Hv), (phase_val e a W W' c _ Hg Hf Hph Hv'), coord_shift_other by exact D. rewrite <- (Ag l u Hv Hu).
  destruct (other c a (coord a l)) as [v|] eqn:Ev; [|reflexivity]. f_equal. rewrite shift_comm by exact D. apply Ag; [apply (other_spec c a l v Hv Ev)|]. rewrite coord_shift_other by congruence. exact Hu.
Qed.
Lemma run3 e W W' : ghosted e = false -> run_phases V A ws G e (phases e) W W' ->
  exists W1 W2 W3, phase V A ws G e (two AX) W W1 /\ phase V A ws G e (two AY) W1 W2 /\ phase V A ws G e (two AZ) W2 W3 /\ (forall r, 0 <= r < ws -> W' r = W3 r).
Proof.
  intros Hg H. unfold phases in H. rewrite Hg in H. inversion H as [|? ? ? W1 ? P1 H1]; subst. inversion H1 as [|? ? ? W2 ? P2 H2]; subst. inversion H2 as [|? ? ? W3 ? P3 H3]; subst. inversion H3; subst. exists W1, W2, W3. auto.
Qed.
Lemma same_axis c l l' a : valid c l -> valid c l' -> same_place L l l' -> coord a l' = coord a l \/ other c a (coord a l) = Some (coord a l').
Proof.
  intros Hv Hv' Hs. specialize (Hs a). destruct OK as [O1 O2].
  assert (Hc : congr (l_n L a) (l_p L a) (l_per L a) (coord a l) (coord a l')) by exact Hs.
  apply (congr_iff _ _ _ (O1 a) (O2 a) (width c a)) in Hc; [|unfold width; destruct (node_on c a); tauto|apply valid_ok, Hv|apply valid_ok, Hv'].
  destruct Hc as [Hc|[Hw Hc]]; [left; exact Hc|right]. unfold other, width in *. destruct (node_on c a); [exact Hc|discriminate].
Qed.
Lemma all_agree e W W' c l l' : ghosted e = false -> fam e c = true -> run_phases V A ws G e (phases e) W W' ->
  valid c l -> valid c l' -> same_place L l l' -> val W' c l = val W' c l'.
Proof.
  intros Hg Hf H Hv Hv' Hs. destruct (run3 e W W' Hg H) as (W1 & W2 & W3 & P1 & P2 & P3 & E).
  assert (Ev : forall l, valid c l -> val W' c l = val W3 c l). { intros l0 [Hi _]. unfold val. rewrite E by (apply HB, Hi). reflexivity. } rewrite !Ev by assumption.
  assert (Ax : agrees c AX W3). { eapply agrees_other; [|exact Hg|exact Hf|exact P3|eapply agrees_other; [|exact Hg|exact Hf|exact P2|eapply agrees_own; [exact Hg|exact Hf|exact P1]]]; discriminate. }
  assert (Ay : agrees c AY W3). { eapply agrees_other; [|exact Hg|exact Hf|exact P3|eapply agrees_own; [exact Hg|exact Hf|exact P2]]; discriminate. }
  assert (Az : agrees c AZ W3) by (eapply agrees_own; [exact Hg|exact Hf|exact P3]).
  assert (M : forall a l0, agrees c a W3 -> valid c l0 -> coord a l0 = coord a l -> val W3 c l0 = val W3 c (shift a l0 (coord a l')) /\ valid c (shift a l0 (coord a l'))).
  { intros a l0 Ag Hv0 E0. split.
    - destruct (same_axis c l l' a Hv Hv' Hs) as [S|S]; [rewrite S, <- E0, shift_self; reflexivity|]. apply Ag; [exact Hv0|]. rewrite E0. exact S.
    - apply shift_valid; [exact Hv0|apply valid_ok, Hv']. }
  destruct (M AX l Ax Hv eq_refl) as [M1 V1]. destruct (M AY (shift AX l (coord AX l')) Ay V1 ltac:(apply coord_shift_other; discriminate)) as [M2 V2].
  destruct (M AZ (shift AY (shift AX l (coord AX l')) (coord AY l')) Az V2) as [M3 V3]; [rewrite !coord_shift_other by discriminate; reflexivity|].
  rewrite M1, M2, M3. f_equal. apply loc_ext. intros [| |]; rewrite ?coord_shift_same, ?coord_shift_other by discriminate; rewrite ?coord_shift_same, ?coord_shift_other by discriminate; rewrite ?coord_shift_same; reflexivity.
Qed.
End Agree.
Lemma got_fam e p a s c q : inside L p -> sign s -> ghosted e = false -> got L e p a s c q -> fam e c = true /\ holds L c p q.
Proof.
  intros Hp Hs Hg H. assert (Hf : fam e c = true).
  { unfold got in H. apply in_addrs in H. destruct H as (g & ks & Hi & Hc & _). destruct e; try discriminate Hg; destruct a; cbn in Hi; repeat (destruct Hi as [Hi|Hi]; [injection Hi as <- <-; cbn in Hc; repeat (destruct Hc as [<-|Hc]; [reflexivity|]); destruct Hc|]); destruct Hi. }
  split; [exact Hf|]. apply (got_iff e p a s c q Hg Hf) in H. destruct H as (N & Q & T). intros b. destruct (axis_dec b a) as [->|D]; [|apply T, D]. rewrite N, Q. pose proof (size_pos_at L OK a p Hp). unfold recv_plane. rewrite Hg. destruct Hs as [-> | ->]; cbn [Z.ltb Z.compare]; lia.
Qed.
Lemma sync_keep e W W' c p q : ghosted e = false -> run_phases V A ws G e (phases e) W W' -> inside L p -> meshed L p q -> fam e c = false \/ ~ holds L c p q ->
  W' (num p) (locv (size_at L p) (c, q)) = W (num p) (locv (size_at L p) (c, q)).
Proof.
  intros Hg H Hp Hm Hn. destruct (run3 e W W' Hg H) as (W1 & W2 & W3 & P1 & P2 & P3 & E). rewrite E by (apply HB, Hp).
  assert (K : forall a s, sign s -> ~ got L e p a s c q). { intros a s Hs Q. destruct (got_fam e p a s c q Hp Hs Hg Q) as [Q1 Q2]. destruct Hn as [Hn|Hn]; [congruence|contradiction]. }
  rewrite (phase_keep e AZ W2 W3 c p q P3 Hp Hm (K AZ)), (phase_keep e AY W1 W2 c p q P2 Hp Hm (K AY)). apply (phase_keep e AX W W1 c p q P1 Hp Hm (K AX)).
Qed.
Lemma sync_runs e W : ghosted e = false -> exists W', run_phases V A ws G e (phases e) W W'.
Proof.
  intros Hg. destruct (phase_sync e AX W Hg) as (W1 & P1). destruct (phase_sync e AY W1 Hg) as (W2 & P2). destruct (phase_sync e AZ W2 Hg) as (W3 & P3).
  exists W3. unfold phases. rewrite Hg. econstructor; [exact P1|]. econstructor; [exact P2|]. econstructor; [exact P3|]. constructor. reflexivity.
Qed.
End Sync.
