(* Invariant, mutual exclusion, progress and termination of the turnstile of MpModel. *)
From Coq Require Import ZArith List Bool Lia ZifyBool.
From Verif Require Import MpModel.
Import ListNotations.
Open Scope Z_scope.
Ltac Zify.zify_post_hook ::= idtac.

(* number of turnstiles of width d among the first k *)
Definition cnt (ws : list Z) (d : Z) (k : nat) : Z := Z.of_nat (count_occ Z.eq_dec (firstn k ws) d).
Lemma firstn_snoc {A} (l : list A) k x : nth_error l k = Some x -> firstn (S k) l = firstn k l ++ [x].
Proof.
  revert k. induction l as [|a l IH]; intros [|k] E; cbn [nth_error] in E; try discriminate.
  - injection E as ->. reflexivity.
  - cbn [firstn app]. f_equal. rewrite <- IH by exact E. reflexivity.
Qed.
Lemma cnt_S ws d k w : nth_error ws k = Some w -> cnt ws d (S k) = cnt ws d k + (if w =? d then 1 else 0).
Proof.
  intros E. unfold cnt. rewrite (firstn_snoc ws k w E), count_occ_app, Nat2Z.inj_add. f_equal. cbn [count_occ].
  destruct (Z.eq_dec w d); destruct (Z.eqb_spec w d); lia.
Qed.
Lemma cnt_mono ws d k k' : (k <= k')%nat -> cnt ws d k <= cnt ws d k'.
Proof.
  intros H. unfold cnt. replace k' with (k + (k' - k))%nat by lia. generalize (k' - k)%nat. intros j. clear H k'.
  rewrite <- (firstn_skipn k (firstn (k + j) ws)), count_occ_app, firstn_firstn, Nat.min_l by lia. lia.
Qed.
Lemma cnt_lt ws d k k' : (k < k')%nat -> nth_error ws k = Some d -> cnt ws d k + 1 <= cnt ws d k'.
Proof. intros H E. pose proof (cnt_S ws d k d E) as C. rewrite Z.eqb_refl in C. pose proof (cnt_mono ws d (S k) k'). lia. Qed.

Definition at_w (ws : list Z) (k : nat) (d : Z) : Z := match nth_error ws k with Some w => if w =? d then 1 else 0 | None => 0 end.
Definition sentn (ws : list Z) (p : nat * phase) (d : Z) : Z := cnt ws d (fst p) + (match snd p with PWait => at_w ws (fst p) d | _ => 0 end).
Definition recvn (ws : list Z) (p : nat * phase) (d : Z) : Z := cnt ws d (fst p) + (match snd p with PRecv => 0 | _ => at_w ws (fst p) d end).

Record tinv (ws : list Z) (n : Z) (s : tstate) : Prop := {
  ti_eq : forall a d, 0 <= a -> 1 <= d -> a + d < n -> chan s a (a + d) = sentn ws (pos s a) d - recvn ws (pos s (a + d)) d /\ 0 <= chan s a (a + d);
  ti_end : forall r, 0 <= r < n -> (fst (pos s r) < length ws)%nat \/ pos s r = (length ws, PRecv);
  ti_wait : forall r k w, 0 <= r < n -> pos s r = (k, PWait) -> nth_error ws k = Some w -> r + w < n }.
Lemma upd_same {A} (f : Z -> A) r x : upd f r x r = x.
Proof. unfold upd. rewrite Z.eqb_refl. reflexivity. Qed.
Lemma upd_other {A} (f : Z -> A) r x r' : r' <> r -> upd f r x r' = f r'.
Proof. intros H. unfold upd. destruct (Z.eqb_spec r' r); [contradiction|reflexivity]. Qed.
Lemma upd_case {A} (f : Z -> A) r x r' : (r' = r /\ upd f r x r' = x) \/ (r' <> r /\ upd f r x r' = f r').
Proof. unfold upd. destruct (Z.eqb_spec r' r); [left|right]; split; auto. Qed.
Lemma tinv_start ws n : tinv ws n ts_start.
Proof.
  constructor; cbn [ts_start pos chan fst].
  - intros a d _ _ _. unfold sentn, recvn. cbn [fst snd]. lia.
  - intros r _. destruct ws; [right; reflexivity|left; cbn [length]; lia].
  - intros r k w _ E. discriminate.
Qed.
Lemma nth_lt {A} (l : list A) k x : nth_error l k = Some x -> (k < length l)%nat.
Proof. intros E. apply nth_error_Some. congruence. Qed.
Lemma end_upd (ws : list Z) (s : tstate) n r p : (forall r, 0 <= r < n -> (fst (pos s r) < length ws)%nat \/ pos s r = (length ws, PRecv)) ->
  (fst p < length ws)%nat \/ p = (length ws, PRecv) ->
  forall r', 0 <= r' < n -> (fst (upd (pos s) r p r') < length ws)%nat \/ upd (pos s) r p r' = (length ws, PRecv).
Proof. intros H Hp r' Hr. destruct (upd_case (pos s) r p r') as [[_ E]|[_ E]]; rewrite E; [exact Hp|apply H, Hr]. Qed.

Lemma tinv_step eager ws n r s s' : Forall (fun w => 1 <= w) ws -> tinv ws n s -> tstep eager ws n r s s' -> tinv ws n s'.
Proof.
  intros W [IE IN IW] T. assert (Wk : forall k w, nth_error ws k = Some w -> 1 <= w).
  { intros k w E. rewrite Forall_forall in W. apply W. eapply nth_error_In, E. }
  assert (AW : forall k w d, nth_error ws k = Some w -> at_w ws k d = if w =? d then 1 else 0) by (intros k w d E; unfold at_w; rewrite E; reflexivity).
  destruct T as [r s k w Hr E Ew Lw C|r s k w Hr E Ew Lw|r s k w Hr E Ew|r s k w Hr E Ew Lw|r s k w Hr E Ew Lw|r s k w Hr E Ew Lw];
    pose proof (nth_lt _ _ _ Ew) as Lk; pose proof (Wk _ _ Ew) as W1; constructor; cbn [pos chan];
    try (apply end_upd; [exact IN|cbn [fst]; first [left; lia | destruct (Nat.eq_dec (S k) (length ws)) as [->|Ne]; [right; reflexivity|left; lia]]]).
  - intros a d Ha Hd Hn. specialize (IE a d Ha Hd Hn). unfold upd2, sentn, recvn in *.
    destruct (upd_case (pos s) r (k, PIn) a) as [[Ea ->]|[Na ->]]; destruct (upd_case (pos s) r (k, PIn) (a + d)) as [[Eb ->]|[Nb ->]]; cbn [fst snd] in *; try lia.
    + subst a. rewrite E in IE. cbn [fst snd] in IE. replace ((r =? r - w) && (r + d =? r)) with false by lia. lia.
    + rewrite <- Eb in E. rewrite E in IE. cbn [fst snd] in IE. rewrite (AW _ _ d Ew). subst r. destruct (Z.eqb_spec w d) as [->|Nw].
      * replace (a + d - d) with a in * by lia. rewrite !Z.eqb_refl. cbn [andb]. lia.
      * replace ((a =? a + d - w) && (a + d =? a + d)) with false by lia. lia.
    + replace ((a =? r - w) && (a + d =? r)) with false by lia. lia.
  - intros r' k' w' Hr'. destruct (upd_case (pos s) r (k, PIn) r') as [[_ ->]|[_ ->]]; [discriminate|apply IW, Hr'].
  - intros a d Ha Hd Hn. specialize (IE a d Ha Hd Hn). unfold sentn, recvn in *.
    destruct (upd_case (pos s) r (k, PIn) a) as [[Ea ->]|[Na ->]]; destruct (upd_case (pos s) r (k, PIn) (a + d)) as [[Eb ->]|[Nb ->]]; cbn [fst snd] in *; try lia.
    + subst a. rewrite E in IE. cbn [fst snd] in IE. lia.
    + rewrite <- Eb in E. rewrite E in IE. cbn [fst snd] in IE. rewrite (AW _ _ d Ew). destruct (Z.eqb_spec w d) as [->|Nw]; lia.
  - intros r' k' w' Hr'. destruct (upd_case (pos s) r (k, PIn) r') as [[_ ->]|[_ ->]]; [discriminate|apply IW, Hr'].
  - intros a d Ha Hd Hn. specialize (IE a d Ha Hd Hn). unfold sentn, recvn in *.
    destruct (upd_case (pos s) r (k, PSend) a) as [[Ea ->]|[Na ->]]; destruct (upd_case (pos s) r (k, PSend) (a + d)) as [[Eb ->]|[Nb ->]]; cbn [fst snd] in *; try lia.
    + subst a. rewrite E in IE. cbn [fst snd] in IE. lia.
    + rewrite <- Eb in E. rewrite E in IE. cbn [fst snd] in IE. lia.
  - intros r' k' w' Hr'. destruct (upd_case (pos s) r (k, PSend) r') as [[_ ->]|[_ ->]]; [discriminate|apply IW, Hr'].
  - intros a d Ha Hd Hn. specialize (IE a d Ha Hd Hn). unfold upd2, sentn, recvn in *.
    destruct (upd_case (pos s) r (k, PWait) a) as [[Ea ->]|[Na ->]]; destruct (upd_case (pos s) r (k, PWait) (a + d)) as [[Eb ->]|[Nb ->]]; cbn [fst snd] in *; try lia.
    + subst a. rewrite E in IE. cbn [fst snd] in IE. rewrite (AW _ _ d Ew). destruct (Z.eqb_spec w d) as [->|Nw].
      * rewrite !Z.eqb_refl. cbn [andb]. lia.
      * replace ((r =? r) && (r + d =? r + w)) with false by lia. lia.
    + rewrite <- Eb in E. rewrite E in IE. cbn [fst snd] in IE. replace ((a =? r) && (a + d =? r + w)) with false by lia. lia.
    + replace ((a =? r) && (a + d =? r + w)) with false by lia. lia.
  - intros r' k' w' Hr'. destruct (upd_case (pos s) r (k, PWait) r') as [[-> ->]|[_ ->]]; [|apply IW, Hr']. intros Ek. injection Ek as <-. rewrite Ew. intros Ew'. injection Ew' as <-. exact Lw.
  - intros a d Ha Hd Hn. specialize (IE a d Ha Hd Hn). unfold sentn, recvn in *.
    destruct (upd_case (pos s) r (S k, PRecv) a) as [[Ea ->]|[Na ->]]; destruct (upd_case (pos s) r (S k, PRecv) (a + d)) as [[Eb ->]|[Nb ->]]; cbn [fst snd] in *; try lia.
    + subst a. rewrite E in IE. cbn [fst snd] in IE. rewrite (cnt_S _ d _ _ Ew). destruct (Z.eqb_spec w d) as [->|Nw]; lia.
    + rewrite <- Eb in E. rewrite E in IE. cbn [fst snd] in IE. rewrite (AW _ _ d Ew) in IE. rewrite (cnt_S _ d _ _ Ew). lia.
  - intros r' k' w' Hr'. destruct (upd_case (pos s) r (S k, PRecv) r') as [[_ ->]|[_ ->]]; [discriminate|apply IW, Hr'].
  - intros a d Ha Hd Hn. specialize (IE a d Ha Hd Hn). unfold sentn, recvn in *.
    destruct (upd_case (pos s) r (S k, PRecv) a) as [[Ea ->]|[Na ->]]; destruct (upd_case (pos s) r (S k, PRecv) (a + d)) as [[Eb ->]|[Nb ->]]; cbn [fst snd] in *; try lia.
    + subst a. rewrite E in IE. cbn [fst snd] in IE. rewrite (AW _ _ d Ew) in IE. rewrite (cnt_S _ d _ _ Ew). lia.
    + rewrite <- Eb in E. rewrite E in IE. cbn [fst snd] in IE. rewrite (AW _ _ d Ew) in IE. rewrite (cnt_S _ d _ _ Ew). lia.
  - intros r' k' w' Hr'. destruct (upd_case (pos s) r (S k, PRecv) r') as [[_ ->]|[_ ->]]; [discriminate|apply IW, Hr'].
Qed.
Lemma tinv_exec eager ws n s l s' : Forall (fun w => 1 <= w) ws -> tinv ws n s -> texec eager ws n s l s' -> tinv ws n s'.
Proof. intros W I T. induction T as [s|s r s1 l s2 S T IH]; [exact I|]. apply IH. eapply tinv_step; eassumption. Qed.

(* rank r has got past the receive of turnstile k / has sent its message of turnstile k *)
Definition entered (s : tstate) (r : Z) (k : nat) : Prop := (k < fst (pos s r))%nat \/ (fst (pos s r) = k /\ snd (pos s r) <> PRecv).
Definition left_ (s : tstate) (r : Z) (k : nat) : Prop := (k < fst (pos s r))%nat \/ (fst (pos s r) = k /\ snd (pos s r) = PWait).
Lemma before ws n s r k w : tinv ws n s -> nth_error ws k = Some w -> 1 <= w -> 0 <= r -> r + w < n -> entered s (r + w) k -> left_ s r k.
Proof.
  intros [IE _ _] Ew W Hr Hn En. destruct (IE r w Hr W Hn) as [Eq P]. unfold entered in En. unfold left_.
  assert (Q : cnt ws w k + 1 <= recvn ws (pos s (r + w)) w).
  { unfold recvn. destruct (pos s (r + w)) as [k' ph]. cbn [fst snd] in *. destruct En as [L|[-> Np]].
    - pose proof (cnt_lt ws w k k' L Ew). unfold at_w. destruct ph; destruct (nth_error ws k'); try lia; destruct (_ =? _); lia.
    - unfold at_w. rewrite Ew, Z.eqb_refl. destruct ph; [contradiction|lia|lia|lia]. }
  assert (S : cnt ws w k + 1 <= sentn ws (pos s r) w) by lia. unfold sentn in S. destruct (pos s r) as [k' ph]. cbn [fst snd] in *.
  destruct (Nat.lt_trichotomy k k') as [L|[<-|L]]; [left; exact L| |].
  - right. split; [reflexivity|]. destruct ph; try reflexivity; lia.
  - exfalso. assert (Lk : (k' < k)%nat) by lia. pose proof (cnt_mono ws w k' k). unfold at_w in S. destruct (nth_error ws k') as [w'|] eqn:Ew'; [|destruct ph; lia].
    destruct (Z.eqb_spec w' w) as [->|]; [pose proof (cnt_lt ws w k' k Lk Ew'); destruct ph; lia|destruct ph; lia].
Qed.
Lemma left_entered s r k : left_ s r k -> entered s r k.
Proof. intros [H|[H1 H2]]; [left; exact H|right; rewrite H2; split; [exact H1|discriminate]]. Qed.
Lemma chain ws n s k w : tinv ws n s -> nth_error ws k = Some w -> 1 <= w ->
  forall j r, 0 <= r -> r + w * Z.of_nat (S j) < n -> entered s (r + w * Z.of_nat (S j)) k -> left_ s r k.
Proof.
  intros I Ew W. induction j as [|j IH]; intros r Hr Hn En.
  - replace (w * Z.of_nat 1) with w in * by lia. eapply before; eassumption.
  - apply (before ws n s r k w I Ew W Hr); [nia|]. apply left_entered. apply IH; [lia|nia|]. replace (r + w + w * Z.of_nat (S j)) with (r + w * Z.of_nat (S (S j))) by nia. exact En.
Qed.
Lemma inside_distinct ws n s k w a b : tinv ws n s -> nth_error ws k = Some w -> 1 <= w -> 0 <= a < n -> 0 <= b < n ->
  pos s a = (k, PIn) -> pos s b = (k, PIn) -> a mod w = b mod w -> a = b.
Proof.
  intros I Ew W. assert (G : forall a b, 0 <= a -> b < n -> pos s a = (k, PIn) -> pos s b = (k, PIn) -> a mod w = b mod w -> ~ a < b).
  { intros x y Hx Hy Px Py M L.
    assert (E : exists j, y = x + w * Z.of_nat (S j)).
    { exists (Z.to_nat (y / w - x / w - 1)). pose proof (Z.div_mod x w). pose proof (Z.div_mod y w). assert (x / w < y / w) by nia. nia. }
    destruct E as [j E]. assert (Le : left_ s x k).
    { apply (chain ws n s k w I Ew W j x Hx); [lia|]. rewrite <- E. right. rewrite Py. split; [reflexivity|discriminate]. }
    destruct Le as [Le|[_ Le]]; rewrite Px in Le; cbn [fst snd] in Le; [lia|discriminate]. }
  intros Ha Hb Pa Pb M. pose proof (G a b ltac:(lia) ltac:(lia) Pa Pb M). pose proof (G b a ltac:(lia) ltac:(lia) Pb Pa (eq_sym M)). lia.
Qed.
Lemma at_most ws n s k w l : tinv ws n s -> nth_error ws k = Some w -> 1 <= w -> NoDup l ->
  (forall r, In r l -> 0 <= r < n /\ pos s r = (k, PIn)) -> Z.of_nat (length l) <= w.
Proof.
  intros I Ew W N H.
  assert (N' : NoDup (map (fun r => r mod w) l)).
  { induction N as [|x l Nx N IH]; cbn [map]; constructor.
    - intros C. apply in_map_iff in C. destruct C as (y & M & Iy). destruct (H y (or_intror Iy)) as [Hy Py]. destruct (H x (or_introl eq_refl)) as [Hx Px].
      assert (y = x) by (eapply inside_distinct; eassumption). subst y. contradiction.
    - apply IH. intros r Ir. apply H. right. exact Ir. }
  assert (L : (length (map (fun r => (r mod w)%Z) l) <= length (map Z.of_nat (seq 0 (Z.to_nat w))))%nat).
  { apply NoDup_incl_length; [exact N'|]. intros x Ix. apply in_map_iff in Ix. destruct Ix as (y & <- & _). pose proof (Z.mod_pos_bound y w).
    apply in_map_iff. exists (Z.to_nat (y mod w)). split; [lia|]. apply in_seq. lia. }
  rewrite !map_length, seq_length in L. lia.
Qed.

(* ---------- progress ---------- *)
Lemma min_rank (f : Z -> nat) n : 0 < n -> exists r, 0 <= r < n /\ forall r', 0 <= r' < n -> (f r <= f r')%nat.
Proof.
  intros H. assert (G : forall m : nat, exists r, 0 <= r < Z.of_nat (S m) /\ forall r', 0 <= r' < Z.of_nat (S m) -> (f r <= f r')%nat).
  { induction m as [|m IH].
    - exists 0. split; [lia|]. intros r' Hr. assert (r' = 0) by lia. subst r'. lia.
    - destruct IH as (r & Hr & M). destruct (Nat.le_gt_cases (f r) (f (Z.of_nat (S m)))) as [L|L].
      + exists r. split; [lia|]. intros r' Hr'. destruct (Z.eq_dec r' (Z.of_nat (S m))) as [->|N]; [exact L|apply M; lia].
      + exists (Z.of_nat (S m)). split; [lia|]. intros r' Hr'. destruct (Z.eq_dec r' (Z.of_nat (S m))) as [->|N]; [lia|]. specialize (M r' ltac:(lia)). lia. }
  destruct (G (Z.to_nat (n - 1))) as (r & Hr & M). replace (Z.of_nat (S (Z.to_nat (n - 1)))) with n in * by lia. exists r. split; assumption.
Qed.
Lemma first_rank (p : Z -> bool) n : (exists r, 0 <= r < n /\ p r = true /\ forall r', 0 <= r' < r -> p r' = false) \/ (forall r, 0 <= r < n -> p r = false).
Proof.
  destruct (Z_lt_le_dec n 0) as [L|L]; [right; intros; lia|]. pattern n. apply natlike_ind; [right; intros; lia| |exact L].
  intros m Hm [(r & Hr & P & F)|F].
  - left. exists r. split; [lia|]. split; assumption.
  - destruct (p m) eqn:E.
    + left. exists m. split; [lia|]. split; [exact E|]. intros r' Hr'. apply F. lia.
    + right. intros r Hr. destruct (Z.eq_dec r m) as [->|N]; [exact E|apply F; lia].
Qed.
Definition in_phase (s : tstate) (k : nat) (q : phase -> bool) (r : Z) : bool := Nat.eqb (fst (pos s r)) k && q (snd (pos s r)).
Lemma progress ws n s : Forall (fun w => 1 <= w) ws -> tinv ws n s -> (exists r, 0 <= r < n /\ pos s r <> (length ws, PRecv)) ->
  exists r s', 0 <= r < n /\ tstep false ws n r s s'.
Proof.
  intros W I (r0 & Hr0 & N0). pose proof I as [IE IN IW]. destruct (min_rank (fun r => fst (pos s r)) n ltac:(lia)) as (rm & Hrm & M). cbn beta in M.
  set (m := fst (pos s rm)) in *.
  assert (Lm : (m < length ws)%nat). { destruct (IN r0 Hr0) as [L|E]; [pose proof (M r0 Hr0); lia|contradiction]. }
  destruct (nth_error ws m) as [w|] eqn:Ew; [|apply nth_error_None in Ew; lia].
  assert (W1 : 1 <= w) by (rewrite Forall_forall in W; apply W; eapply nth_error_In, Ew).
  assert (Ip : forall q r, in_phase s m q r = true -> exists ph, pos s r = (m, ph) /\ q ph = true).
  { intros q r H. unfold in_phase in H. apply andb_true_iff in H. destruct H as [H1 H2]. apply Nat.eqb_eq in H1. exists (snd (pos s r)). split; [|exact H2]. rewrite <- H1. apply surjective_pairing. }
  destruct (first_rank (in_phase s m (fun ph => match ph with PIn | PSend => true | _ => false end)) n) as [(r & Hr & P & _)|F1].
  { destruct (Ip _ _ P) as (ph & Ep & Q). destruct ph; try discriminate.
    - eexists r, _. split; [exact Hr|]. eapply t_body; eassumption.
    - destruct (Z_lt_le_dec (r + w) n) as [L|L]; eexists r, _; (split; [exact Hr|]); [eapply t_send|eapply t_last]; eassumption. }
  destruct (first_rank (in_phase s m (fun ph => match ph with PRecv => true | _ => false end)) n) as [(r & Hr & P & Fr)|F2].
  { destruct (Ip _ _ P) as (ph & Ep & Q). destruct ph; try discriminate. destruct (Z_lt_le_dec r w) as [L|L]; eexists r, _; (split; [exact Hr|]); [eapply t_enter; eassumption|].
    eapply t_recv; try eassumption. destruct (IE (r - w) w ltac:(lia) W1 ltac:(lia)) as [Eq _]. replace (r - w + w) with r in Eq by lia. rewrite Eq, Ep. unfold recvn, sentn. cbn [fst snd].
    pose proof (F1 (r - w) ltac:(lia)) as G1. pose proof (Fr (r - w) ltac:(lia)) as G2. unfold in_phase in G1, G2. pose proof (M (r - w) ltac:(lia)) as Mr.
    destruct (pos s (r - w)) as [k' ph]. cbn [fst snd] in *. destruct (Nat.eqb_spec k' m) as [->|Nk].
    - cbn [andb] in G1, G2. unfold at_w. rewrite Ew, Z.eqb_refl. destruct ph; try discriminate. lia.
    - assert (Lk : (m < k')%nat) by lia. pose proof (cnt_lt ws w m k' Lk Ew). unfold at_w. destruct ph; try lia. destruct (nth_error ws k'); [destruct (_ =? _)|]; lia. }
  assert (Pm : pos s rm = (m, PWait)).
  { pose proof (F1 rm Hrm) as G1. pose proof (F2 rm Hrm) as G2. unfold in_phase in G1, G2. fold m in G1, G2. rewrite Nat.eqb_refl in G1, G2. cbn [andb] in G1, G2.
    rewrite (surjective_pairing (pos s rm)). fold m. destruct (snd (pos s rm)); try discriminate. reflexivity. }
  eexists rm, _. split; [exact Hrm|]. eapply t_sent; [exact Hrm|exact Pm|exact Ew|]. right.
  pose proof (IW rm m w Hrm Pm Ew) as Hn. destruct (IE rm w ltac:(lia) W1 Hn) as [Eq Nn]. rewrite Pm in Eq. unfold sentn, recvn in Eq. cbn [fst snd] in Eq.
  pose proof (F1 (rm + w) ltac:(lia)) as G1. pose proof (F2 (rm + w) ltac:(lia)) as G2. unfold in_phase in G1, G2. pose proof (M (rm + w) ltac:(lia)) as Mr.
  destruct (pos s (rm + w)) as [k' ph]. cbn [fst snd] in *. unfold at_w in Eq. rewrite Ew, Z.eqb_refl in Eq. destruct (Nat.eqb_spec k' m) as [->|Nk].
  - cbn [andb] in G1, G2. rewrite Ew, Z.eqb_refl in Eq. destruct ph; try discriminate. lia.
  - assert (Lk : (m < k')%nat) by lia. pose proof (cnt_lt ws w m k' Lk Ew). destruct ph; try lia; destruct (nth_error ws k'); try lia; destruct (_ =? _); lia.
Qed.

(* ---------- termination ---------- *)
Definition rank_of (p : nat * phase) : Z := 4 * Z.of_nat (fst p) + (match snd p with PRecv => 0 | PIn => 1 | PSend => 2 | PWait => 3 end).
Fixpoint total (s : tstate) (m : nat) : Z := match m with O => 0 | S m => total s m + rank_of (pos s (Z.of_nat m)) end.
Lemma total_upd s r p c m : 0 <= r -> total (mk_ts (upd (pos s) r p) c) m = total s m + (if r <? Z.of_nat m then rank_of p - rank_of (pos s r) else 0).
Proof.
  intros Hr. induction m as [|m IH]; cbn [total]; [replace (r <? Z.of_nat 0) with false by lia; lia|]. rewrite IH. cbn [pos].
  destruct (upd_case (pos s) r p (Z.of_nat m)) as [[<- ->]|[N ->]].
  - replace (Z.of_nat m <? Z.of_nat m) with false by lia. replace (Z.of_nat m <? Z.of_nat (S m)) with true by lia. lia.
  - replace (r <? Z.of_nat (S m)) with (r <? Z.of_nat m) by lia. lia.
Qed.
Lemma total_step eager ws n r s s' : tstep eager ws n r s s' -> total s (Z.to_nat n) + 1 <= total s' (Z.to_nat n).
Proof. intros T. destruct T; rewrite total_upd by lia; replace (r <? Z.of_nat (Z.to_nat n)) with true by lia; rewrite H0; unfold rank_of; cbn [fst snd]; lia. Qed.
Lemma total_bound ws n s m : tinv ws n s -> Z.of_nat m <= n -> total s m <= 4 * Z.of_nat (length ws) * Z.of_nat m.
Proof.
  intros [_ IN _]. induction m as [|m IH]; intros H; cbn [total]; [lia|]. specialize (IH ltac:(lia)).
  assert (rank_of (pos s (Z.of_nat m)) <= 4 * Z.of_nat (length ws)).
  { destruct (IN (Z.of_nat m) ltac:(lia)) as [L| ->]; unfold rank_of; cbn [fst snd]; [|lia]. destruct (snd (pos s (Z.of_nat m))); lia. }
  nia.
Qed.
Lemma total_start m : total ts_start m = 0.
Proof. induction m as [|m IH]; cbn [total]; [reflexivity|]. rewrite IH. reflexivity. Qed.
Lemma total_exec eager ws n s l s' : texec eager ws n s l s' -> total s (Z.to_nat n) + Z.of_nat (length l) <= total s' (Z.to_nat n).
Proof. intros T. induction T as [s|s r s1 l s2 S T IH]; cbn [length]; [lia|]. pose proof (total_step _ _ _ _ _ _ S). lia. Qed.
Lemma step_weaker ws n r s s' eager : tstep false ws n r s s' -> tstep eager ws n r s s'.
Proof. intros T. destruct T; [eapply t_recv|eapply t_enter|eapply t_body|eapply t_send|eapply t_last|eapply t_sent]; try eassumption. destruct H2; [discriminate|right; assumption]. Qed.

(* ---------- width 0 ---------- *)
Record zinv (ws : list Z) (n : Z) (k0 : nat) (s : tstate) : Prop := {
  z_pos : forall r, 0 <= r < n -> (fst (pos s r) < k0)%nat \/ pos s r = (k0, PRecv);
  z_chan : forall r, 0 <= r < n -> chan s r r = 0 }.
Lemma zinv_step eager ws n k0 r s s' : nth_error ws k0 = Some 0 -> (forall k w, (k < k0)%nat -> nth_error ws k = Some w -> 1 <= w) ->
  zinv ws n k0 s -> tstep eager ws n r s s' -> zinv ws n k0 s'.
Proof.
  intros E0 W [ZP ZC] T.
  assert (G : forall k ph, pos s r = (k, ph) -> 0 <= r < n -> (k < k0)%nat \/ (k = k0 /\ ph = PRecv)).
  { intros k ph E Hr. destruct (ZP r Hr) as [L|Eq]; rewrite E in *; [left; exact L|injection Eq as -> ->; right; split; reflexivity]. }
  assert (PU : forall p, (fst p < k0)%nat \/ p = (k0, PRecv) -> forall r', 0 <= r' < n -> (fst (upd (pos s) r p r') < k0)%nat \/ upd (pos s) r p r' = (k0, PRecv)).
  { intros p Hp r' Hr'. destruct (upd_case (pos s) r p r') as [[_ ->]|[_ ->]]; [exact Hp|apply ZP, Hr']. }
  destruct T as [r s k w Hr E Ew Lw C|r s k w Hr E Ew Lw|r s k w Hr E Ew|r s k w Hr E Ew Lw|r s k w Hr E Ew Lw|r s k w Hr E Ew Lw];
    destruct (G _ _ E Hr) as [L|[-> Eph]]; try discriminate.
  - pose proof (W k w L Ew). constructor; cbn [pos chan]; [apply PU; left; exact L|]. intros r' Hr'. unfold upd2. replace ((r' =? r - w) && (r' =? r)) with false by lia. apply ZC, Hr'.
  - exfalso. rewrite E0 in Ew. injection Ew as <-. replace (r - 0) with r in C by lia. rewrite ZC in C by exact Hr. lia.
  - constructor; cbn [pos chan]; [apply PU; left; exact L|exact ZC].
  - exfalso. rewrite E0 in Ew. injection Ew as <-. lia.
  - constructor; cbn [pos chan]; [apply PU; left; exact L|exact ZC].
  - pose proof (W k w L Ew). constructor; cbn [pos chan]; [apply PU; left; exact L|]. intros r' Hr'. unfold upd2. replace ((r' =? r) && (r' =? r + w)) with false by lia. apply ZC, Hr'.
  - constructor; cbn [pos chan]; [|exact ZC]. apply PU. cbn [fst]. destruct (Nat.eq_dec (S k) k0) as [->|N]; [right; reflexivity|left; lia].
  - constructor; cbn [pos chan]; [|exact ZC]. apply PU. cbn [fst]. destruct (Nat.eq_dec (S k) k0) as [->|N]; [right; reflexivity|left; lia].
Qed.
Lemma zinv_exec eager ws n k0 s l s' : nth_error ws k0 = Some 0 -> (forall k w, (k < k0)%nat -> nth_error ws k = Some w -> 1 <= w) ->
  zinv ws n k0 s -> texec eager ws n s l s' -> zinv ws n k0 s'.
Proof. intros E0 W Z T. induction T as [s|s r s1 l s2 S T IH]; [exact Z|]. apply IH. eapply zinv_step; eassumption. Qed.
Lemma zinv_start ws n k0 : zinv ws n k0 ts_start.
Proof. constructor; cbn [ts_start pos chan fst]; [intros r _; destruct k0; [right; reflexivity|left; lia]|reflexivity]. Qed.
