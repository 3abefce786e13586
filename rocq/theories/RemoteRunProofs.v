(* The ranks running side by side: nothing fails, nobody waits forever, the result does not depend on the order of the turns. *)
From Coq Require Import ZArith List Bool Lia ZifyBool.
From Verif Require Import SortModel SortProofs VoxelModel VoxelProofs GridModel GridProofs FieldModel RemoteModel RemoteSpec RemoteProofs RemoteSync RemoteRun.
Import ListNotations.
Open Scope Z_scope.
Ltac Zify.zify_post_hook ::= idtac.

(* ---------- counting calls ---------- *)
Definition cop_eqb (o o' : cop) : bool :=
  match o, o' with
  | BRecv a s, BRecv b t | BSend a s, BSend b t | ERecv a s, ERecv b t | ESend a s, ESend b t => axis_eqb a b && (s =? t)
  | _, _ => false
  end.
Lemma cop_eqb_true o o' : cop_eqb o o' = true <-> o = o'.
Proof.
  destruct o as [a s|a s|a s|a s], o' as [b t|b t|b t|b t]; cbn; try (split; intros H; discriminate H).
  all: rewrite andb_true_iff, Z.eqb_eq; split; [intros [H ->]; destruct a, b; try discriminate; reflexivity|intros H; injection H as <- <-; split; [destruct a; reflexivity|reflexivity]].
Qed.
Definition dir_of (o : cop) : axis * Z := match o with BRecv a s | BSend a s | ERecv a s | ESend a s => (a, s) end.
Definition count (o : cop) (l : list cop) : nat := length (filter (cop_eqb o) l).
Lemma count_app o l l' : count o (l ++ l') = (count o l + count o l')%nat.
Proof. unfold count. rewrite filter_app, app_length. reflexivity. Qed.

(* what has been called before each call of an exchange *)
Definition before_ok (o : cop) (l : list cop) : bool :=
  Nat.eqb (count o l) 0 &&
  match o with
  | BRecv a s => Nat.eqb (count (ERecv a s) l) 0
  | BSend a s => Nat.eqb (count (ESend a s) l) 0
  | ERecv a s => Nat.eqb (count (BRecv a s) l) 1 && Nat.eqb (count (BSend a s) l) 1
  | ESend a s => Nat.eqb (count (BSend a s) l) 1 && Nat.eqb (count (BRecv a s) l) 1
  end.
Lemma block_before e i o : nth_error (calls_of e) i = Some o -> before_ok o (firstn i (calls_of e)) = true.
Proof.
  assert (H : forallb (fun i => match nth_error (calls_of e) i with Some o => before_ok o (firstn i (calls_of e)) | None => true end) (seq 0 24) = true) by (destruct e; vm_compute; reflexivity).
  intros E. rewrite forallb_forall in H. assert (i < 24)%nat. { assert (i < length (calls_of e))%nat as Q by (apply nth_error_Some; congruence). destruct e; exact Q. }
  specialize (H i ltac:(apply in_seq; lia)). rewrite E in H. exact H.
Qed.
Lemma block_signs e o : In o (calls_of e) -> sign (snd (dir_of o)).
Proof.
  assert (H : forallb (fun o => (snd (dir_of o) =? -1) || (snd (dir_of o) =? 1)) (calls_of e) = true) by (destruct e; vm_compute; reflexivity).
  rewrite forallb_forall in H. intros Hi. specialize (H o Hi). unfold sign. lia.
Qed.
Lemma block_all e o : sign (snd (dir_of o)) -> count o (calls_of e) = 1%nat.
Proof. intros H. destruct o as [a s|a s|a s|a s]; cbn in H; destruct H as [-> | ->]; destruct a, e; vm_compute; reflexivity. Qed.

Section P.
Context {V : Type}.
Variable A : rarith V.
Variable ws : Z.
Variable G : Z -> cgrid V.
Notation call := (call V).
Notation stage := (stage V).
Definition comms (l : list call) : list cop := flat_map (fun x => match x with Comm _ _ o => [o] | Local _ _ => [] end) l.
Definition exchs (es : list stage) : list exch := flat_map (fun x => match x with Exchange _ e => [e] | Work _ _ => [] end) es.
Definition cnt (cs : list call) (o : cop) (i : nat) : nat := count o (comms (firstn i cs)).
Lemma comms_app l l' : comms (l ++ l') = comms l ++ comms l'.
Proof. apply flat_map_app. Qed.
Lemma comms_block e l : comms (map (Comm V e) l) = l.
Proof. induction l as [|o l IH]; [reflexivity|]. cbn. f_equal. exact IH. Qed.
Lemma exchs_app es es' : exchs (es ++ es') = exchs es ++ exchs es'.
Proof. apply flat_map_app. Qed.
Lemma cnt_S cs o i x : nth_error cs i = Some x -> cnt cs o (S i) = (cnt cs o i + count o (comms [x]))%nat.
Proof.
  intros H. unfold cnt. assert (firstn (S i) cs = firstn i cs ++ [x]) as ->; [|rewrite comms_app, count_app; reflexivity].
  revert i H. induction cs as [|y cs IH]; intros [|i] H; try discriminate; cbn in *; [congruence|]. f_equal. apply IH, H.
Qed.
Lemma count_one o o' : count o (comms [Comm V GhostTangB o']) = if cop_eqb o o' then 1%nat else 0%nat.
Proof. cbn. unfold count. cbn. destruct (cop_eqb o o'); reflexivity. Qed.
Lemma cnt_mono cs o i j : (i <= j)%nat -> (cnt cs o i <= cnt cs o j)%nat.
Proof.
  intros H. induction H as [|j H IH]; [lia|]. destruct (nth_error cs j) as [x|] eqn:E; [rewrite (cnt_S cs o j x E); lia|].
  unfold cnt in *. apply nth_error_None in E. rewrite (firstn_all2 (n := S j)) by lia. rewrite (firstn_all2 (n := j)) in IH by lia. exact IH.
Qed.
Lemma program_app es es' : program V (es ++ es') = program V es ++ program V es'.
Proof. apply flat_map_app. Qed.
Lemma comms_all es o : sign (snd (dir_of o)) -> count o (comms (program V es)) = length (exchs es).
Proof.
  intros H. induction es as [|[e|f] es IH]; [reflexivity| |].
  - change (program V (Exchange V e :: es)) with (map (Comm V e) (calls_of e) ++ program V es). rewrite comms_app, comms_block, count_app, (block_all e o H), IH. reflexivity.
  - exact IH.
Qed.
(* the facts about the calls before call i *)
Lemma program_before es i e o : nth_error (program V es) i = Some (Comm V e o) ->
  nth_error (exchs es) (cnt (program V es) o i) = Some e /\ sign (snd (dir_of o)) /\
  (let n o' := cnt (program V es) o' i in
   match o with
   | BRecv a s => n (ERecv a s) = n (BRecv a s)
   | BSend a s => n (ESend a s) = n (BSend a s)
   | ERecv a s => n (BRecv a s) = S (n (ERecv a s)) /\ n (BSend a s) = S (n (ERecv a s))
   | ESend a s => n (BSend a s) = S (n (ESend a s)) /\ n (BRecv a s) = S (n (ESend a s))
   end).
Proof.
  revert i. induction es as [|x es IH]; intros i H; [destruct i; discriminate|].
  destruct x as [e'|f].
  - set (blk := map (Comm V e') (calls_of e')). change (program V (Exchange V e' :: es)) with (blk ++ program V es) in *. change (exchs (Exchange V e' :: es)) with (e' :: exchs es).
    destruct (le_lt_dec (length blk) i) as [Hi|Hi].
    + rewrite nth_error_app2 in H by exact Hi. destruct (IH _ H) as (H1 & H2 & H3).
      assert (C : forall o', sign (snd (dir_of o')) -> cnt (blk ++ program V es) o' i = S (cnt (program V es) o' (i - length blk))).
      { intros o' Ho. unfold cnt. rewrite firstn_app, (firstn_all2 blk (n := i)) by exact Hi. unfold blk at 1. rewrite comms_app, comms_block, count_app, (block_all e' o' Ho). reflexivity. }
      split; [rewrite C by exact H2; exact H1|]. split; [exact H2|]. destruct o as [a s|a s|a s|a s]; cbn [dir_of snd] in H2; cbv beta zeta in *; rewrite !C by exact H2; lia.
    + rewrite nth_error_app1 in H by exact Hi. unfold blk in H. rewrite nth_error_map in H. destruct (nth_error (calls_of e') i) as [o'|] eqn:E; [|discriminate]. cbn in H. injection H as -> ->.
      assert (C : forall o', cnt (blk ++ program V es) o' i = count o' (firstn i (calls_of e))).
      { intros o'. unfold cnt. rewrite firstn_app. replace (i - length blk)%nat with 0%nat by lia. cbn [firstn]. rewrite app_nil_r. unfold blk. rewrite firstn_map, comms_block. reflexivity. }
      pose proof (block_before e i o E) as B. unfold before_ok in B. apply andb_true_iff in B. destruct B as [B1 B2]. rewrite !C.
      split; [replace (count o (firstn i (calls_of e))) with 0%nat by lia; reflexivity|]. split; [apply (block_signs e), (nth_error_In _ i), E|].
      destruct o as [a s|a s|a s|a s]; cbv beta zeta; rewrite !C; lia.
  - destruct i as [|i]; [discriminate|]. cbn [program flat_map app nth_error] in H. apply (IH i H).
Qed.

(* ---------- joined ranks ---------- *)
Hypothesis HJ : joined ws G.
Lemma port_opp a s : sign s -> 26 - port a s = port a (- s).
Proof. intros [-> | ->]; destruct a; reflexivity. Qed.
Lemma peer_range r p d : peer V ws G r p = Some d -> 0 <= d < ws /\ c_bc V (G r) p = d.
Proof. unfold peer. destruct ((c_bc V (G r) p <? 0) || (ws <=? c_bc V (G r) p)) eqn:E; [discriminate|]. intros H. injection H as <-. lia. Qed.
Lemma range_peer r p d : c_bc V (G r) p = d -> 0 <= d < ws -> peer V ws G r p = Some d.
Proof. intros H Hd. unfold peer. rewrite H. replace ((d <? 0) || (ws <=? d)) with false by lia. reflexivity. Qed.
Lemma peer_joined r a s d : 0 <= r < ws -> sign s -> peer V ws G r (port a s) = Some d ->
  peer V ws G d (port a (- s)) = Some r /\ 0 <= d < ws /\ (forall b, b <> a -> at_ b (c_n V (G r)) = at_ b (c_n V (G d))).
Proof.
  intros Hr Hs H. destruct (peer_range _ _ _ H) as [Hd E]. destruct (HJ r a s Hr Hs ltac:(rewrite E; exact Hd)) as [J1 J2]. rewrite E in J1, J2.
  rewrite port_opp in J1 by exact Hs. split; [apply range_peer; assumption|]. split; [exact Hd|exact J2].
Qed.
Lemma peer_joined' r a s d : 0 <= r < ws -> sign s -> peer V ws G r (port a (- s)) = Some d ->
  peer V ws G d (port a s) = Some r /\ 0 <= d < ws /\ (forall b, b <> a -> at_ b (c_n V (G d)) = at_ b (c_n V (G r))).
Proof.
  intros Hr Hs H. assert (Hs' : sign (- s)) by (unfold sign in *; lia). destruct (peer_joined r a (- s) d Hr Hs' H) as (H1 & H2 & H3). rewrite Z.opp_involutive in H1. split; [exact H1|]. split; [exact H2|]. intros b Hb. symmetry. apply H3, Hb.
Qed.
Lemma floats_eq e n n' a : (forall b, b <> a -> at_ b n = at_ b n') -> msg_floats e n a = msg_floats e n' a.
Proof. intros H. destruct (next_neq a) as [N1 N2]. unfold msg_floats. rewrite (H _ N1), (H _ N2). reflexivity. Qed.
Lemma unpack_total f n : forall ls vs F, length ls = length vs -> exists F', unpack V f n ls vs F = Some F'.
Proof.
  induction ls as [|l ls IH]; intros [|v vs] F H; try discriminate; [exists F; reflexivity|]. cbn [unpack]. apply IH. cbn in H. lia.
Qed.
Lemma consume_ok e r d F F0 a s : (forall b, b <> a -> at_ b (c_n V (G r)) = at_ b (c_n V (G d))) -> exists F', consume V A e (G d) a s (pack V G e r F a s) F0 = Some F'.
Proof.
  intros H. destruct (next_neq a) as [N1 N2]. unfold consume, pack. set (f := recv_plane e s (at_ a (c_n V (G d)))). set (f' := send_plane e s (at_ a (c_n V (G r)))).
  assert (E : length (addrs (c_n V (G d)) a f (recv_items e a)) = length (map (fun l => F (locv (c_n V (G r)) l)) (addrs (c_n V (G r)) a f' (send_items e a)))).
  { change (recv_items e a) with (send_items e a). rewrite (addrs_moved (c_n V (G r)) (c_n V (G d)) a f' f _ (H _ N1) (H _ N2)), !map_length. reflexivity. }
  destruct (has_head e); cbn [app]; apply unpack_total; exact E.
Qed.
Lemma send_some e r F a s d : peer V ws G r (port a s) = Some d -> send V ws G e r F a s = Some (mk_msg V r d (port a s) (msg_floats e (c_n V (G r)) a) (pack V G e r F a s)).
Proof. intros H. unfold send. rewrite H. reflexivity. Qed.

(* ---------- the ranks in step ---------- *)
Definition lstate : Type := ((Z -> mem V) * (Z -> axis -> Z -> list (msg V)))%type.
(* every rank does call x, the k-th of its kind *)
Definition exec (k : nat) (x : call) (st : lstate) : lstate :=
  let (M, Lg) := st in
  match x with
  | Local _ f => (fun r => f r (M r), Lg)
  | Comm _ e (BSend a s) => (M, fun r a' s' => if cop_eqb (BSend a s) (BSend a' s') then Lg r a' s' ++ opt_list (send V ws G e r (M r) a' s') else Lg r a' s')
  | Comm _ e (ERecv a s) =>
      (fun r => match peer V ws G r (port a (- s)) with
                | None => M r
                | Some src => match nth_error (Lg src a s) k with
                              | None => M r
                              | Some m => match consume V A e (G r) a s (m_data V m) (M r) with Some F => F | None => M r end end end, Lg)
  | Comm _ _ _ => st
  end.
Definition kind (cs : list call) (i : nat) (x : call) : nat := match x with Comm _ _ o => cnt cs o i | Local _ _ => O end.
Fixpoint lock (cs : list call) (W : Z -> mem V) (i : nat) : lstate :=
  match i with
  | O => (W, fun _ _ _ => [])
  | S i => match nth_error cs i with Some x => exec (kind cs i x) x (lock cs W i) | None => lock cs W i end
  end.
Section L.
Variable es : list stage.
Variable W : Z -> mem V.
Let cs := program V es.
Notation N o i := (cnt cs o i).
Lemma cnt_comm o e o' i : nth_error cs i = Some (Comm V e o') -> N o (S i) = (N o i + if cop_eqb o o' then 1 else 0)%nat.
Proof. intros H. rewrite (cnt_S cs o i _ H). f_equal. cbn. unfold count. cbn. destruct (cop_eqb o o'); reflexivity. Qed.
Lemma cnt_local o f i : nth_error cs i = Some (Local V f) -> N o (S i) = N o i.
Proof. intros H. rewrite (cnt_S cs o i _ H). cbn. lia. Qed.
Lemma log_step i x : nth_error cs i = Some x -> ((forall e a s, x <> Comm V e (BSend a s)) /\ snd (lock cs W (S i)) = snd (lock cs W i)) \/ exists e a s, x = Comm V e (BSend a s) /\
  forall r a' s', snd (lock cs W (S i)) r a' s' = if cop_eqb (BSend a s) (BSend a' s') then snd (lock cs W i) r a' s' ++ opt_list (send V ws G e r (fst (lock cs W i) r) a' s') else snd (lock cs W i) r a' s'.
Proof.
  intros H. cbn [lock]. rewrite H. destruct (lock cs W i) as [M Lg]. destruct x as [e [a s|a s|a s|a s]|f]; cbn [exec fst snd].
  2: { right. exists e, a, s. split; reflexivity. }
  all: left; split; [intros; discriminate|reflexivity].
Qed.
Lemma eqb_refl o : cop_eqb o o = true. Proof. apply cop_eqb_true. reflexivity. Qed.
Lemma eqb_sym o o' : cop_eqb o o' = cop_eqb o' o.
Proof. destruct (cop_eqb o o') eqn:E; [apply cop_eqb_true in E; subst; symmetry; apply eqb_refl|]. destruct (cop_eqb o' o) eqn:E'; [apply cop_eqb_true in E'; subst; rewrite eqb_refl in E; discriminate|reflexivity]. Qed.
Lemma log_len r a s d i : peer V ws G r (port a s) = Some d -> length (snd (lock cs W i) r a s) = N (BSend a s) i.
Proof.
  intros Hp. induction i as [|i IH]; [reflexivity|]. destruct (nth_error cs i) as [x|] eqn:E.
  - destruct (log_step i x E) as [[Nx Q]|(e & b & t & -> & Q)].
    + rewrite Q, IH. destruct x as [e [b t|b t|b t|b t]|f]; [| |  |  |rewrite (cnt_local _ f i E); reflexivity].
      2: { exfalso. apply (Nx e b t). reflexivity. }
      all: rewrite (cnt_comm _ e _ i E); cbn [cop_eqb]; lia.
    + rewrite Q, (cnt_comm _ e _ i E), (eqb_sym (BSend a s)). destruct (cop_eqb (BSend b t) (BSend a s)) eqn:Eq; [|lia].
      apply cop_eqb_true in Eq. injection Eq as -> ->. rewrite app_length, IH, (send_some e r _ a s d Hp). reflexivity.
  - cbn [lock]. rewrite E, IH. unfold cnt. apply nth_error_None in E. rewrite !firstn_all2 by lia. reflexivity.
Qed.
Lemma log_mono r a s i j : (i <= j)%nat -> exists t, snd (lock cs W j) r a s = snd (lock cs W i) r a s ++ t.
Proof.
  intros H. induction H as [|j H (t & IH)]; [exists []; symmetry; apply app_nil_r|]. destruct (nth_error cs j) as [x|] eqn:E.
  - destruct (log_step j x E) as [[_ Q]|(e & b & u & -> & Q)]; [exists t; rewrite Q; exact IH|]. rewrite Q, IH. destruct (cop_eqb (BSend b u) (BSend a s)); [|exists t; reflexivity]. rewrite <- app_assoc. eexists. reflexivity.
  - exists t. cbn [lock]. rewrite E. exact IH.
Qed.
Lemma log_entry r a s d i k m : peer V ws G r (port a s) = Some d -> nth_error (snd (lock cs W i) r a s) k = Some m -> exists e F, nth_error (exchs es) k = Some e /\ send V ws G e r F a s = Some m.
Proof.
  intros Hp. induction i as [|i IH]; intros H; [destruct k; discriminate|]. destruct (nth_error cs i) as [x|] eqn:E.
  - destruct (log_step i x E) as [[_ Q]|(e & b & t & -> & Q)]; [rewrite Q in H; apply IH, H|]. rewrite Q in H. destruct (cop_eqb (BSend b t) (BSend a s)) eqn:Eq; [|apply IH, H].
    apply cop_eqb_true in Eq. injection Eq as -> ->. destruct (program_before es i e _ E) as (P1 & _). fold cs in P1. pose proof (log_len r a s d i Hp) as Hl.
    destruct (lt_dec k (length (snd (lock cs W i) r a s))) as [Hk|Hk]; [rewrite nth_error_app1 in H by exact Hk; apply IH, H|].
    rewrite nth_error_app2 in H by lia. rewrite (send_some e r _ a s d Hp) in H. cbn [opt_list] in H. destruct (k - length (snd (lock cs W i) r a s))%nat as [|k'] eqn:Ek; [|destruct k'; discriminate]. cbn in H. injection H as <-.
    exists e, (fst (lock cs W i) r). rewrite (send_some e r _ a s d Hp). split; [|reflexivity]. replace k with (N (BSend a s) i) by lia. exact P1.
  - cbn [lock] in H. rewrite E in H. apply IH, H.
Qed.

(* ---------- the invariant ---------- *)
Record inv (c : state V) : Prop := mk_inv {
  v_pc : forall r, 0 <= r < ws -> (s_pc V c r <= length cs)%nat;
  v_mem : forall r, 0 <= r < ws -> s_mem V c r = fst (lock cs W (s_pc V c r)) r;
  v_recv : forall r a s, 0 <= r < ws -> sign s ->
    match peer V ws G r (port a (- s)) with
    | None => s_recv V c r (port a (- s)) = None
    | Some src => (N (BRecv a s) (s_pc V c r) = N (ERecv a s) (s_pc V c r) /\ s_recv V c r (port a (- s)) = None) \/
        (N (BRecv a s) (s_pc V c r) = S (N (ERecv a s) (s_pc V c r)) /\ exists e, nth_error (exchs es) (N (ERecv a s) (s_pc V c r)) = Some e /\ s_recv V c r (port a (- s)) = Some (src, port a s, msg_floats e (c_n V (G r)) a))
    end;
  v_send : forall r a s, 0 <= r < ws -> sign s ->
    match peer V ws G r (port a s) with
    | None => s_send V c r (port a s) = None
    | Some d => (N (BSend a s) (s_pc V c r) = N (ESend a s) (s_pc V c r) /\ s_send V c r (port a s) = None) \/
        (N (BSend a s) (s_pc V c r) = S (N (ESend a s) (s_pc V c r)) /\ s_send V c r (port a s) = Some d)
    end;
  v_net : forall r a s d, 0 <= r < ws -> sign s -> peer V ws G r (port a s) = Some d ->
    filter (is_msg V r d (port a s)) (s_net V c) = skipn (N (ERecv a s) (s_pc V c d)) (snd (lock cs W (s_pc V c r)) r a s) /\ (N (ERecv a s) (s_pc V c d) <= N (BSend a s) (s_pc V c r))%nat;
  v_in : forall m, In m (s_net V c) -> exists r a s d, 0 <= r < ws /\ sign s /\ peer V ws G r (port a s) = Some d /\ is_msg V r d (port a s) m = true }.
Lemma inv_start : inv (start V W).
Proof.
  split.
  - intros r _. cbn. lia.
  - reflexivity.
  - intros r a s _ _. destruct (peer V ws G r (port a (- s))); [left; split; reflexivity|reflexivity].
  - intros r a s _ _. destruct (peer V ws G r (port a s)); [left; split; reflexivity|reflexivity].
  - intros. split; [reflexivity|cbn; lia].
  - intros m [].
Qed.
Lemma set_same {T} (f : Z -> T) r v : set_at f r v r = v.
Proof. unfold set_at. rewrite Z.eqb_refl. reflexivity. Qed.
Lemma set_other {T} (f : Z -> T) r v x : x <> r -> set_at f r v x = f x.
Proof. intros H. unfold set_at. replace (x =? r) with false by lia. reflexivity. Qed.
Lemma take_spec f : forall l, match take V f l with
  | None => filter f l = []
  | Some (m, l') => f m = true /\ filter f l = m :: filter f l' /\ (forall g, g m = false -> filter g l' = filter g l) /\ (forall x, In x l' -> In x l) end.
Proof.
  induction l as [|x l IH]; [reflexivity|]. cbn [take filter]. destruct (f x) eqn:E; [split; [exact E|split; [reflexivity|split; [intros g Hg; rewrite Hg; reflexivity|intros y Hy; right; exact Hy]]]|].
  destruct (take V f l) as [[m l']|]; [|exact IH]. destruct IH as (I1 & I2 & I3 & I4). split; [exact I1|]. split; [cbn [filter]; rewrite E; exact I2|]. split.
  - intros g Hg. cbn [filter]. rewrite (I3 g Hg). reflexivity.
  - intros y [Hy|Hy]; [left; exact Hy|right; apply I4, Hy].
Qed.
Lemma is_msg_true src dst tag m : is_msg V src dst tag m = true <-> m_src V m = src /\ m_dst V m = dst /\ m_tag V m = tag.
Proof. unfold is_msg. lia. Qed.
Lemma dir_neq a s b t : sign s -> sign t -> (a, s) <> (b, t) -> port a s <> port b t.
Proof. intros Hs Ht H Q. destruct (port_inj a s b t Hs Ht Q) as [-> ->]. apply H. reflexivity. Qed.
Lemma dir_dec (x y : axis * Z) : x = y \/ x <> y.
Proof. destruct x as [a s], y as [b t]. destruct (axis_dec a b) as [->|D]; [|right; congruence]. destruct (Z.eq_dec s t) as [->|D]; [left; reflexivity|right; congruence]. Qed.
Lemma sign_opp s : sign s -> sign (- s). Proof. unfold sign. lia. Qed.
(* counts of the other kinds do not change *)
Ltac cc E := rewrite (cnt_comm _ _ _ _ E); cbn [cop_eqb].
Lemma eqb_dir a s b t : axis_eqb a b && (s =? t) = true <-> (a, s) = (b, t).
Proof. rewrite (cop_eqb_true (BSend a s) (BSend b t)). split; intros H; injection H as <- <-; reflexivity. Qed.
Lemma lock_mem e o i r : nth_error cs i = Some (Comm V e o) -> (forall a s, o <> ERecv a s) -> fst (lock cs W (S i)) r = fst (lock cs W i) r.
Proof. intros E H. cbn [lock]. rewrite E. destruct (lock cs W i) as [M Lg]. destruct o as [a s|a s|a s|a s]; cbn [exec fst]; try reflexivity. exfalso. apply (H a s). reflexivity. Qed.
Lemma lock_log x i : nth_error cs i = Some x -> (forall e a s, x <> Comm V e (BSend a s)) -> snd (lock cs W (S i)) = snd (lock cs W i).
Proof. intros E H. destruct (log_step i x E) as [[_ Q]|(e & b & t & -> & _)]; [exact Q|]. exfalso. apply (H e b t). reflexivity. Qed.
Lemma pc_lt i x : nth_error cs i = Some x -> (S i <= length cs)%nat.
Proof. intros E. assert (i < length cs)%nat by (apply nth_error_Some; congruence). lia. Qed.

(* A call that changes no request and no message: work, and calls on faces that are not joined. *)
Lemma inv_plain c r x F : inv c -> 0 <= r < ws -> nth_error cs (s_pc V c r) = Some x ->
  F r = fst (lock cs W (S (s_pc V c r))) r -> (forall r', r' <> r -> F r' = s_mem V c r') ->
  match x with Local _ _ => True | Comm _ _ o => match o with
    | BRecv a s | ERecv a s => peer V ws G r (port a (- s)) = None
    | BSend a s | ESend a s => peer V ws G r (port a s) = None end end ->
  inv (mk_state V (past V c r) F (s_recv V c) (s_send V c) (s_net V c)).
Proof.
  intros [I1 I2 I3 I4 I5 I6] Hr E HF HF' Hx.
  assert (C : forall o, (forall e o', x = Comm V e o' -> o <> o') -> N o (S (s_pc V c r)) = N o (s_pc V c r)).
  { intros o Ho. destruct x as [e o'|f]; [|apply (cnt_local _ f), E]. rewrite (cnt_comm o e o' _ E). destruct (cop_eqb o o') eqn:Q; [|lia]. apply cop_eqb_true in Q. exfalso. apply (Ho e o' eq_refl Q). }
  split; cbn [s_pc s_mem s_recv s_send s_net]; unfold past.
  - intros r' Hr'. destruct (Z.eq_dec r' r) as [->|D]; [rewrite set_same; apply (pc_lt _ x), E|rewrite set_other by exact D; apply I1, Hr'].
  - intros r' Hr'. destruct (Z.eq_dec r' r) as [->|D]; [rewrite set_same; exact HF|rewrite set_other, HF' by exact D; apply I2, Hr'].
  - intros r' a s Hr' Hs. specialize (I3 r' a s Hr' Hs). destruct (Z.eq_dec r' r) as [->|D]; [rewrite set_same|rewrite set_other by exact D; exact I3].
    destruct (peer V ws G r (port a (- s))) as [src|] eqn:Ep; [|exact I3].
    assert (forall o, o = BRecv a s \/ o = ERecv a s -> N o (S (s_pc V c r)) = N o (s_pc V c r)) as Q. { intros o Ho. apply C. intros e o' -> ->. destruct Ho as [-> | ->]; cbn in Hx; congruence. }
    rewrite !Q by tauto. exact I3.
  - intros r' a s Hr' Hs. specialize (I4 r' a s Hr' Hs). destruct (Z.eq_dec r' r) as [->|D]; [rewrite set_same|rewrite set_other by exact D; exact I4].
    destruct (peer V ws G r (port a s)) as [d|] eqn:Ep; [|exact I4].
    assert (forall o, o = BSend a s \/ o = ESend a s -> N o (S (s_pc V c r)) = N o (s_pc V c r)) as Q. { intros o Ho. apply C. intros e o' -> ->. destruct Ho as [-> | ->]; cbn in Hx; congruence. }
    rewrite !Q by tauto. exact I4.
  - intros r' a s d Hr' Hs Hp. specialize (I5 r' a s d Hr' Hs Hp). destruct (peer_joined r' a s d Hr' Hs Hp) as (Hp' & Hd & _).
    assert (N (ERecv a s) (set_at (s_pc V c) r (S (s_pc V c r)) d) = N (ERecv a s) (s_pc V c d)) as ->.
    { destruct (Z.eq_dec d r) as [->|D]; [rewrite set_same|rewrite set_other by exact D; reflexivity]. apply C. intros e o' -> <-. cbn in Hx. congruence. }
    destruct (Z.eq_dec r' r) as [->|D]; [rewrite set_same|rewrite set_other by exact D; exact I5].
    assert (N (BSend a s) (S (s_pc V c r)) = N (BSend a s) (s_pc V c r)) as -> by (apply C; intros e o' -> <-; cbn in Hx; congruence).
    assert (snd (lock cs W (S (s_pc V c r))) r a s = snd (lock cs W (s_pc V c r)) r a s) as ->; [|exact I5].
    destruct (log_step _ x E) as [[_ Q]|(e & b & t & -> & Q)]; [rewrite Q; reflexivity|]. rewrite Q. destruct (cop_eqb (BSend b t) (BSend a s)) eqn:Eq; [|reflexivity]. apply cop_eqb_true in Eq. injection Eq as -> ->. congruence.
  - exact I6.
Qed.

(* No turn fails, and the invariant stays. *)
Lemma inv_turn c r : inv c -> 0 <= r < ws -> turn V A ws G cs c r <> Fails V /\ forall c', turn V A ws G cs c r = Goes V c' -> inv c' /\ forall r', s_pc V c' r' = set_at (s_pc V c) r (S (s_pc V c r)) r'.
Proof.
  intros I Hr. unfold turn. destruct (nth_error cs (s_pc V c r)) as [x|] eqn:E; [|split; [discriminate|intros c' Q; discriminate]].
  destruct x as [e o|f].
  2: { split; [discriminate|]. intros c' Q. injection Q as <-. split; [|reflexivity]. apply (inv_plain c r _ _ I Hr E); [|intros r' D; apply set_other, D|exact Logic.I].
       rewrite set_same. cbn [lock]. rewrite E, (v_mem c I r Hr). destruct (lock cs W (s_pc V c r)) as [M Lg]. reflexivity. }
  destruct (program_before es _ e o E) as (Ee & Hs & Hb). fold cs in Ee, Hb.
  destruct o as [a s|a s|a s|a s]; cbn [comm]; cbn [dir_of snd] in Hs; cbv beta zeta in Hb.
  - (* begin_recv_port *)
    pose proof (v_recv c I r a s Hr Hs) as R. destruct (peer V ws G r (port a (- s))) as [src|] eqn:Ep.
    2: { split; [discriminate|]. intros c' Q. injection Q as <-. split; [|reflexivity]. apply (inv_plain c r _ _ I Hr E); [|reflexivity|exact Ep]. rewrite (lock_mem e _ _ r E) by discriminate. apply (v_mem c I r Hr). }
    destruct R as [[_ R]|[R _]]; [|lia]. rewrite R. split; [discriminate|]. intros c' Q. injection Q as <-. split; [|reflexivity]. destruct I as [I1 I2 I3 I4 I5 I6].
    split; cbn [s_pc s_mem s_recv s_send s_net]; unfold past.
    + intros r' Hr'. destruct (Z.eq_dec r' r) as [->|D]; [rewrite set_same; apply (pc_lt _ _ E)|rewrite set_other by exact D; apply I1, Hr'].
    + intros r' Hr'. destruct (Z.eq_dec r' r) as [->|D]; [rewrite set_same, (lock_mem e _ _ r E) by discriminate; apply I2, Hr|rewrite set_other by exact D; apply I2, Hr'].
    + intros r' b t Hr' Ht. specialize (I3 r' b t Hr' Ht). destruct (Z.eq_dec r' r) as [->|D]; [rewrite !set_same|rewrite !set_other by exact D; exact I3].
      rewrite (cnt_comm _ e _ _ E), (cnt_comm _ e _ _ E). cbn [cop_eqb]. rewrite !Nat.add_0_r. destruct (dir_dec (b, t) (a, s)) as [Q|Q].
      * injection Q as -> ->. rewrite Ep, set_same, (proj2 (eqb_dir a s a s) eq_refl). right. split; [lia|]. exists e. split; [|reflexivity]. rewrite Hb. exact Ee.
      * rewrite set_other by (apply dir_neq; [apply sign_opp, Ht|apply sign_opp, Hs|intros Q'; apply Q; injection Q' as -> Q'; f_equal; lia]).
        destruct (axis_eqb b a && (t =? s)) eqn:Eq; [apply eqb_dir in Eq; contradiction|]. rewrite Nat.add_0_r. exact I3.
    + intros r' b t Hr' Ht. specialize (I4 r' b t Hr' Ht). destruct (Z.eq_dec r' r) as [->|D]; [rewrite !set_same|rewrite !set_other by exact D; exact I4].
      rewrite (cnt_comm _ e _ _ E), (cnt_comm _ e _ _ E). cbn [cop_eqb]. rewrite !Nat.add_0_r. exact I4.
    + intros r' b t d Hr' Ht Hp. specialize (I5 r' b t d Hr' Ht Hp).
      assert (forall y, N (ERecv b t) (set_at (s_pc V c) r (S (s_pc V c r)) y) = N (ERecv b t) (s_pc V c y)) as ->. { intros y. destruct (Z.eq_dec y r) as [->|D]; [rewrite set_same|rewrite set_other by exact D; reflexivity]. rewrite (cnt_comm _ e _ _ E). cbn [cop_eqb]. lia. }
      assert (forall y, N (BSend b t) (set_at (s_pc V c) r (S (s_pc V c r)) y) = N (BSend b t) (s_pc V c y)) as ->. { intros y. destruct (Z.eq_dec y r) as [->|D]; [rewrite set_same|rewrite set_other by exact D; reflexivity]. rewrite (cnt_comm _ e _ _ E). cbn [cop_eqb]. lia. }
      destruct (Z.eq_dec r' r) as [->|D]; [rewrite set_same|rewrite set_other by exact D; exact I5]. rewrite (lock_log _ _ E) by discriminate. exact I5.
    + exact I6.
  - (* begin_send_port *)
    pose proof (v_send c I r a s Hr Hs) as R. destruct (peer V ws G r (port a s)) as [d|] eqn:Ep.
    2: { assert (send V ws G e r (s_mem V c r) a s = None) as -> by (unfold send; rewrite Ep; reflexivity). split; [discriminate|]. intros c' Q. injection Q as <-. split; [|reflexivity].
         apply (inv_plain c r _ _ I Hr E); [|reflexivity|exact Ep]. rewrite (lock_mem e _ _ r E) by discriminate. apply (v_mem c I r Hr). }
    rewrite (send_some e r _ a s d Ep). set (m := mk_msg V r d (port a s) (msg_floats e (c_n V (G r)) a) (pack V G e r (s_mem V c r) a s)).
    destruct R as [[_ R]|[R _]]; [|lia]. rewrite R. split; [discriminate|]. intros c' Q. injection Q as <-. split; [|reflexivity]. destruct I as [I1 I2 I3 I4 I5 I6].
    split; cbn [s_pc s_mem s_recv s_send s_net]; unfold past.
    + intros r' Hr'. destruct (Z.eq_dec r' r) as [->|D]; [rewrite set_same; apply (pc_lt _ _ E)|rewrite set_other by exact D; apply I1, Hr'].
    + intros r' Hr'. destruct (Z.eq_dec r' r) as [->|D]; [rewrite set_same, (lock_mem e _ _ r E) by discriminate; apply I2, Hr|rewrite set_other by exact D; apply I2, Hr'].
    + intros r' b t Hr' Ht. specialize (I3 r' b t Hr' Ht). destruct (Z.eq_dec r' r) as [->|D]; [rewrite !set_same|rewrite !set_other by exact D; exact I3].
      rewrite (cnt_comm _ e _ _ E), (cnt_comm _ e _ _ E). cbn [cop_eqb]. rewrite !Nat.add_0_r. exact I3.
    + intros r' b t Hr' Ht. specialize (I4 r' b t Hr' Ht). destruct (Z.eq_dec r' r) as [->|D]; [rewrite !set_same|rewrite !set_other by exact D; exact I4].
      rewrite (cnt_comm _ e _ _ E), (cnt_comm _ e _ _ E). cbn [cop_eqb]. rewrite !Nat.add_0_r. destruct (dir_dec (b, t) (a, s)) as [Q|Q].
      * injection Q as -> ->. rewrite Ep, set_same, (proj2 (eqb_dir a s a s) eq_refl). right. split; [lia|]. reflexivity.
      * rewrite set_other by (apply dir_neq; assumption). destruct (axis_eqb b a && (t =? s)) eqn:Eq; [apply eqb_dir in Eq; contradiction|]. rewrite Nat.add_0_r. exact I4.
    + intros r' b t d' Hr' Ht Hp. specialize (I5 r' b t d' Hr' Ht Hp).
      assert (forall y, N (ERecv b t) (set_at (s_pc V c) r (S (s_pc V c r)) y) = N (ERecv b t) (s_pc V c y)) as ->. { intros y. destruct (Z.eq_dec y r) as [->|D]; [rewrite set_same|rewrite set_other by exact D; reflexivity]. rewrite (cnt_comm _ e _ _ E). cbn [cop_eqb]. lia. }
      rewrite filter_app. cbn [filter]. destruct (Z.eq_dec r' r) as [->|D].
      2: { rewrite set_other by exact D. assert (is_msg V r' d' (port b t) m = false) as ->. { destruct (is_msg V r' d' (port b t) m) eqn:Q; [|reflexivity]. apply is_msg_true in Q. cbn in Q. destruct Q as [Q _]. congruence. } rewrite app_nil_r. exact I5. }
      rewrite set_same, (cnt_comm _ e _ _ E). destruct (log_step _ _ E) as [[Q _]|(e' & a' & s' & Q & QL)]; [exfalso; apply (Q e a s); reflexivity|]. injection Q as <- <- <-. rewrite QL.
      destruct I5 as [I5 I5']. rewrite (eqb_sym (BSend b t)). destruct (cop_eqb (BSend a s) (BSend b t)) eqn:Eq.
      * apply cop_eqb_true in Eq. injection Eq as -> ->. assert (d' = d) by congruence. subst d'. assert (is_msg V r d (port b t) m = true) as -> by (apply is_msg_true; repeat split).
        split; [|lia]. rewrite I5, skipn_app. pose proof (log_len r b t d (s_pc V c r) Hp) as HL. replace (N (ERecv b t) (s_pc V c d) - length (snd (lock cs W (s_pc V c r)) r b t))%nat with 0%nat by lia.
        cbn [skipn]. f_equal. rewrite <- (I2 r Hr), (send_some e r _ b t d Ep). reflexivity.
      * assert (is_msg V r d' (port b t) m = false) as ->. { destruct (is_msg V r d' (port b t) m) eqn:Q; [|reflexivity]. apply is_msg_true in Q. cbn in Q. destruct Q as (_ & _ & Q). destruct (port_inj a s b t Hs Ht Q) as [-> ->]. rewrite eqb_refl in Eq. discriminate. }
        rewrite app_nil_r. split; [exact I5|lia].
    + intros m' Hm. apply in_app_or in Hm. destruct Hm as [Hm|[<-|[]]]; [apply I6, Hm|]. exists r, a, s, d. split; [exact Hr|]. split; [exact Hs|]. split; [exact Ep|]. apply is_msg_true. repeat split.
  - (* end_recv_port *)
    pose proof (v_recv c I r a s Hr Hs) as R. destruct (peer V ws G r (port a (- s))) as [src|] eqn:Ep.
    2: { split; [discriminate|]. intros c' Q. injection Q as <-. split; [|reflexivity]. apply (inv_plain c r _ _ I Hr E); [|reflexivity|exact Ep]. cbn [lock]. rewrite E, (v_mem c I r Hr). destruct (lock cs W (s_pc V c r)) as [M Lg]. cbn [exec fst]. rewrite Ep. reflexivity. }
    destruct Hb as [Hb1 Hb2]. destruct R as [[R _]|(_ & e' & Ee' & R)]; [lia|]. rewrite R. assert (e' = e) by congruence. subst e'.
    destruct (peer_joined' r a s src Hr Hs Ep) as (Hp & Hsrc & Hn).
    pose proof (take_spec (is_msg V src r (port a s)) (s_net V c)) as T. destruct (take V (is_msg V src r (port a s)) (s_net V c)) as [[m net']|]; [|split; [discriminate|intros c' Q; discriminate]].
    destruct T as (T1 & T2 & T3 & T4). destruct (v_net c I src a s r Hsrc Hs Hp) as [I5 I5']. rewrite T2 in I5.
    set (k := N (ERecv a s) (s_pc V c r)) in *.
    assert (Hk : nth_error (snd (lock cs W (s_pc V c src)) src a s) k = Some m). { rewrite <- (firstn_skipn k (snd (lock cs W (s_pc V c src)) src a s)), <- I5. pose proof (log_len src a s r (s_pc V c src) Hp) as HL. assert (length (firstn k (snd (lock cs W (s_pc V c src)) src a s)) = k) as Q.
      { rewrite firstn_length. lia. } rewrite nth_error_app2 by lia. rewrite Q, Nat.sub_diag. reflexivity. }
    (* the same message in step *)
    assert (Hm : nth_error (snd (lock cs W (s_pc V c r)) src a s) k = Some m).
    { pose proof (log_len src a s r (s_pc V c r) Hp) as HL. pose proof (log_len src a s r (s_pc V c src) Hp) as HL'. assert (k < length (snd (lock cs W (s_pc V c src)) src a s))%nat by (apply nth_error_Some; congruence).
      destruct (le_lt_dec (s_pc V c r) (s_pc V c src)) as [Q|Q].
      - destruct (log_mono src a s _ _ Q) as (t & Qt). rewrite Qt in Hk. rewrite nth_error_app1 in Hk by lia. exact Hk.
      - destruct (log_mono src a s (s_pc V c src) (s_pc V c r) ltac:(lia)) as (t & Qt). rewrite Qt, nth_error_app1 by lia. exact Hk. }
    destruct (log_entry src a s r _ _ _ Hp Hk) as (e' & F & Ee'' & Es). assert (e' = e) by congruence. subst e'. rewrite (send_some e src F a s r Hp) in Es.
    assert (m_size V m = msg_floats e (c_n V (G r)) a) as Sz by (injection Es as <-; cbn; apply floats_eq; exact Hn). rewrite Sz, Z.eqb_refl. cbn [negb].
    destruct (consume_ok e src r F (s_mem V c r) a s Hn) as (F' & EF). assert (m_data V m = pack V G e src F a s) as Dt by (injection Es as <-; reflexivity). rewrite Dt, EF.
    split; [discriminate|]. intros c' Q. injection Q as <-. split; [|reflexivity].
    assert (LM : fst (lock cs W (S (s_pc V c r))) r = F').
    { cbn [lock]. rewrite E. cbn [kind]. fold k. rewrite (v_mem c I r Hr) in EF. destruct (lock cs W (s_pc V c r)) as [M Lg]. cbn [exec fst snd] in *. rewrite Ep, Hm, Dt, EF. reflexivity. }
    destruct I as [I1 I2 I3 I4 I5a I6].
    split; cbn [s_pc s_mem s_recv s_send s_net]; unfold past.
    + intros r' Hr'. destruct (Z.eq_dec r' r) as [->|D]; [rewrite set_same; apply (pc_lt _ _ E)|rewrite set_other by exact D; apply I1, Hr'].
    + intros r' Hr'. destruct (Z.eq_dec r' r) as [->|D]; [rewrite !set_same; congruence|rewrite !set_other by exact D; apply I2, Hr'].
    + intros r' b t Hr' Ht. specialize (I3 r' b t Hr' Ht). destruct (Z.eq_dec r' r) as [->|D]; [rewrite !set_same|rewrite !set_other by exact D; exact I3].
      rewrite (cnt_comm _ e _ _ E), (cnt_comm _ e _ _ E). cbn [cop_eqb]. rewrite !Nat.add_0_r. destruct (dir_dec (b, t) (a, s)) as [Q|Q].
      * injection Q as -> ->. rewrite Ep, set_same, (proj2 (eqb_dir a s a s) eq_refl). left. split; [fold k; lia|reflexivity].
      * rewrite set_other by (apply dir_neq; [apply sign_opp, Ht|apply sign_opp, Hs|intros Q'; apply Q; injection Q' as -> Q'; f_equal; lia]).
        destruct (axis_eqb b a && (t =? s)) eqn:Eq; [apply eqb_dir in Eq; contradiction|]. rewrite Nat.add_0_r. exact I3.
    + intros r' b t Hr' Ht. specialize (I4 r' b t Hr' Ht). destruct (Z.eq_dec r' r) as [->|D]; [rewrite !set_same|rewrite !set_other by exact D; exact I4].
      rewrite (cnt_comm _ e _ _ E), (cnt_comm _ e _ _ E). cbn [cop_eqb]. rewrite !Nat.add_0_r. exact I4.
    + intros r' b t d' Hr' Ht Hp'.
      assert (forall y, N (BSend b t) (set_at (s_pc V c) r (S (s_pc V c r)) y) = N (BSend b t) (s_pc V c y)) as ->. { intros y. destruct (Z.eq_dec y r) as [->|D]; [rewrite set_same|rewrite set_other by exact D; reflexivity]. rewrite (cnt_comm _ e _ _ E). cbn [cop_eqb]. lia. }
      assert (snd (lock cs W (set_at (s_pc V c) r (S (s_pc V c r)) r')) r' b t = snd (lock cs W (s_pc V c r')) r' b t) as ->.
      { destruct (Z.eq_dec r' r) as [->|D]; [rewrite set_same, (lock_log _ _ E) by discriminate; reflexivity|rewrite set_other by exact D; reflexivity]. }
      destruct (Z.eq_dec d' r) as [->|D].
      * rewrite set_same, (cnt_comm _ e _ _ E). cbn [cop_eqb]. destruct (axis_eqb b a && (t =? s)) eqn:Eq.
        -- apply eqb_dir in Eq. injection Eq as -> ->. assert (r' = src). { destruct (peer_joined r' a s r Hr' Hs Hp') as (Q & _). congruence. } subst r'. fold k.
           assert (filter (is_msg V src r (port a s)) net' = skipn (k + 1) (snd (lock cs W (s_pc V c src)) src a s)) as Q.
           { apply (f_equal (@tl (msg V))) in I5. cbn [tl] in I5. rewrite I5. generalize (snd (lock cs W (s_pc V c src)) src a s) as ll. generalize k as kk. induction kk as [|kk IHk]; intros [|y ll]; try reflexivity. cbn [skipn Nat.add]. apply IHk. }
           split; [exact Q|]. pose proof (log_len src a s r (s_pc V c src) Hp) as HL'. assert (k < length (snd (lock cs W (s_pc V c src)) src a s))%nat by (apply nth_error_Some; congruence). lia.
        -- rewrite Nat.add_0_r. rewrite (T3 (is_msg V r' r (port b t))); [apply I5a; assumption|]. destruct (is_msg V r' r (port b t) m) eqn:Q; [|reflexivity]. apply is_msg_true in Q. apply is_msg_true in T1. destruct Q as (_ & _ & Q). destruct T1 as (_ & _ & T1).
           destruct (port_inj b t a s Ht Hs ltac:(congruence)) as [-> ->]. rewrite (proj2 (eqb_dir a s a s) eq_refl) in Eq. discriminate.
      * rewrite set_other by exact D. rewrite (T3 (is_msg V r' d' (port b t))); [apply I5a; assumption|]. destruct (is_msg V r' d' (port b t) m) eqn:Q; [|reflexivity]. apply is_msg_true in Q. apply is_msg_true in T1. destruct Q as (_ & Q & _). destruct T1 as (_ & T1 & _). congruence.
    + intros m' Hm'. apply I6, T4, Hm'.
  - (* end_send_port *)
    pose proof (v_send c I r a s Hr Hs) as R. destruct (peer V ws G r (port a s)) as [d|] eqn:Ep.
    2: { split; [discriminate|]. intros c' Q. injection Q as <-. split; [|reflexivity]. apply (inv_plain c r _ _ I Hr E); [|reflexivity|exact Ep]. rewrite (lock_mem e _ _ r E) by discriminate. apply (v_mem c I r Hr). }
    destruct Hb as [Hb1 Hb2]. destruct R as [[R _]|[_ R]]; [lia|]. rewrite R. destruct (Nat.leb _ _); [|split; [discriminate|intros c' Q; discriminate]].
    split; [discriminate|]. intros c' Q. injection Q as <-. split; [|reflexivity]. destruct I as [I1 I2 I3 I4 I5 I6].
    split; cbn [s_pc s_mem s_recv s_send s_net]; unfold past.
    + intros r' Hr'. destruct (Z.eq_dec r' r) as [->|D]; [rewrite set_same; apply (pc_lt _ _ E)|rewrite set_other by exact D; apply I1, Hr'].
    + intros r' Hr'. destruct (Z.eq_dec r' r) as [->|D]; [rewrite set_same, (lock_mem e _ _ r E) by discriminate; apply I2, Hr|rewrite set_other by exact D; apply I2, Hr'].
    + intros r' b t Hr' Ht. specialize (I3 r' b t Hr' Ht). destruct (Z.eq_dec r' r) as [->|D]; [rewrite !set_same|rewrite !set_other by exact D; exact I3].
      rewrite (cnt_comm _ e _ _ E), (cnt_comm _ e _ _ E). cbn [cop_eqb]. rewrite !Nat.add_0_r. exact I3.
    + intros r' b t Hr' Ht. specialize (I4 r' b t Hr' Ht). destruct (Z.eq_dec r' r) as [->|D]; [rewrite !set_same|rewrite !set_other by exact D; exact I4].
      rewrite (cnt_comm _ e _ _ E), (cnt_comm _ e _ _ E). cbn [cop_eqb]. rewrite !Nat.add_0_r. destruct (dir_dec (b, t) (a, s)) as [Q|Q].
      * injection Q as -> ->. rewrite Ep, set_same, (proj2 (eqb_dir a s a s) eq_refl). left. split; [lia|]. reflexivity.
      * rewrite set_other by (apply dir_neq; assumption). destruct (axis_eqb b a && (t =? s)) eqn:Eq; [apply eqb_dir in Eq; contradiction|]. rewrite Nat.add_0_r. exact I4.
    + intros r' b t d' Hr' Ht Hp. specialize (I5 r' b t d' Hr' Ht Hp).
      assert (forall y, N (ERecv b t) (set_at (s_pc V c) r (S (s_pc V c r)) y) = N (ERecv b t) (s_pc V c y)) as ->. { intros y. destruct (Z.eq_dec y r) as [->|D]; [rewrite set_same|rewrite set_other by exact D; reflexivity]. rewrite (cnt_comm _ e _ _ E). cbn [cop_eqb]. lia. }
      assert (forall y, N (BSend b t) (set_at (s_pc V c) r (S (s_pc V c r)) y) = N (BSend b t) (s_pc V c y)) as ->. { intros y. destruct (Z.eq_dec y r) as [->|D]; [rewrite set_same|rewrite set_other by exact D; reflexivity]. rewrite (cnt_comm _ e _ _ E). cbn [cop_eqb]. lia. }
      destruct (Z.eq_dec r' r) as [->|D]; [rewrite set_same|rewrite set_other by exact D; exact I5]. rewrite (lock_log _ _ E) by discriminate. exact I5.
    + exact I6.
Qed.

Lemma inv_turns n c c' : turns V A ws G cs n c c' -> inv c -> inv c'.
Proof. induction 1 as [|n c1 c2 c3 r H IH Hr Ht]; intros I; [exact I|]. apply (inv_turn c2 r (IH I) Hr), Ht. Qed.

(* ---------- nobody waits forever ---------- *)
Lemma least (f : Z -> nat) n : 0 < n -> exists r, 0 <= r < n /\ forall r', 0 <= r' < n -> (f r <= f r')%nat.
Proof.
  intros Hn. replace n with (Z.of_nat (S (Z.to_nat (n - 1)))) by lia. generalize (Z.to_nat (n - 1)) as k. induction k as [|k (r & Hr & IH)].
  - exists 0. split; [lia|]. intros r' Hr'. replace r' with 0 by lia. lia.
  - destruct (le_lt_dec (f r) (f (Z.of_nat (S k)))) as [Q|Q].
    + exists r. split; [lia|]. intros r' Hr'. destruct (Z.eq_dec r' (Z.of_nat (S k))) as [->|D]; [exact Q|]. apply IH. lia.
    + exists (Z.of_nat (S k)). split; [lia|]. intros r' Hr'. destruct (Z.eq_dec r' (Z.of_nat (S k))) as [->|D]; [lia|]. specialize (IH r' ltac:(lia)). lia.
Qed.
Lemma inv_progress c r0 : inv c -> 0 <= r0 < ws -> turn V A ws G cs c r0 <> Ended V -> exists r c', 0 <= r < ws /\ turn V A ws G cs c r = Goes V c'.
Proof.
  intros I Hr0 H0. destruct (least (s_pc V c) ws ltac:(lia)) as (r & Hr & Hl). exists r.
  assert (exists x, nth_error cs (s_pc V c r) = Some x) as (x & E).
  { destruct (nth_error cs (s_pc V c r)) as [x|] eqn:E; [exists x; reflexivity|]. exfalso. apply H0. unfold turn. apply nth_error_None in E. specialize (Hl r0 Hr0). assert (nth_error cs (s_pc V c r0) = None) as -> by (apply nth_error_None; lia). reflexivity. }
  destruct (inv_turn c r I Hr) as [NF _]. unfold turn in NF |- *. rewrite E in NF |- *. destruct x as [e o|f]; [|eexists; split; [exact Hr|reflexivity]].
  destruct (program_before es _ e o E) as (Ee & Hs & Hb). fold cs in Ee, Hb.
  destruct o as [a s|a s|a s|a s]; cbn [comm] in NF |- *; cbn [dir_of snd] in Hs; cbv beta zeta in Hb.
  - destruct (peer V ws G r (port a (- s))); [|eexists; split; [exact Hr|reflexivity]]. destruct (s_recv V c r (port a (- s))); [congruence|eexists; split; [exact Hr|reflexivity]].
  - destruct (send V ws G e r (s_mem V c r) a s); [|eexists; split; [exact Hr|reflexivity]]. destruct (s_send V c r (port a s)); [congruence|eexists; split; [exact Hr|reflexivity]].
  - pose proof (v_recv c I r a s Hr Hs) as R. destruct (peer V ws G r (port a (- s))) as [src|] eqn:Ep; [|eexists; split; [exact Hr|reflexivity]].
    destruct Hb as [Hb1 Hb2]. destruct R as [[R _]|(_ & e' & Ee' & R)]; [lia|]. rewrite R in NF |- *.
    destruct (peer_joined' r a s src Hr Hs Ep) as (Hp & Hsrc & Hn). destruct (v_net c I src a s r Hsrc Hs Hp) as [I5 _].
    pose proof (take_spec (is_msg V src r (port a s)) (s_net V c)) as T. destruct (take V (is_msg V src r (port a s)) (s_net V c)) as [[m net']|].
    + destruct (negb (m_size V m =? msg_floats e' (c_n V (G r)) a)); [congruence|]. destruct (consume V A e (G r) a s (m_data V m) (s_mem V c r)); [|congruence]. eexists; split; [exact Hr|reflexivity].
    + exfalso. rewrite T in I5. apply (f_equal (@length (msg V))) in I5. rewrite skipn_length, (log_len src a s r _ Hp) in I5. cbn in I5. pose proof (cnt_mono cs (BSend a s) _ _ (Hl src Hsrc)). lia.
  - pose proof (v_send c I r a s Hr Hs) as R. destruct (peer V ws G r (port a s)) as [d|] eqn:Ep; [|eexists; split; [exact Hr|reflexivity]].
    destruct Hb as [Hb1 Hb2]. destruct R as [[R _]|[_ R]]; [lia|]. rewrite R.
    destruct (peer_joined r a s d Hr Hs Ep) as (Hp & Hd & _). destruct (v_net c I r a s d Hr Hs Ep) as [I5 I5'].
    assert (Le : (length (filter (is_msg V r d (port a s)) (s_net V c)) <= posted V c d r (port a s))%nat).
    { rewrite I5, skipn_length, (log_len r a s d _ Ep). pose proof (cnt_mono cs (BRecv a s) _ _ (Hl d Hd)) as Mo.
      pose proof (v_recv c I d a s Hd Hs) as Rd. rewrite Hp in Rd. destruct Rd as [[Rd _]|(Rd & e' & _ & Rq)]; [lia|].
      assert (1 <= posted V c d r (port a s))%nat; [|lia]. unfold posted.
      assert (In (port a (- s)) (filter (fun p => match s_recv V c d p with Some (src, t, _) => (src =? r) && (t =? port a s) | None => false end) (zrange 0 27))) as Q.
      { apply filter_In. split; [apply in_zrange; destruct Hs as [-> | ->]; destruct a; cbn; lia|]. rewrite Rq. rewrite !Z.eqb_refl. reflexivity. }
      destruct (filter _ (zrange 0 27)); [destruct Q|cbn; lia]. }
    apply Nat.leb_le in Le. rewrite Le. eexists; split; [exact Hr|reflexivity].
Qed.

(* ---------- the number of turns ---------- *)
Definition done (c : state V) : nat := fold_right (fun r n => (s_pc V c r + n)%nat) O (zrange 0 ws).
Lemma fold_bound (f : Z -> nat) b l : (forall r, In r l -> (f r <= b)%nat) -> (fold_right (fun r n => (f r + n)%nat) O l <= b * length l)%nat.
Proof. induction l as [|x l IH]; intros H; [cbn; lia|]. cbn [fold_right length]. specialize (IH ltac:(intros r Hr; apply H; right; exact Hr)). specialize (H x ltac:(left; reflexivity)). lia. Qed.
Lemma fold_set (f g : Z -> nat) r l : NoDup l -> In r l -> (forall x, g x = set_at f r (S (f r)) x) -> fold_right (fun r n => (g r + n)%nat) O l = S (fold_right (fun r n => (f r + n)%nat) O l).
Proof.
  intros N Hi Hg. induction l as [|x l IH]; [destruct Hi|]. inversion N as [|? ? N1 N2]; subst. cbn [fold_right]. destruct Hi as [<-|Hi].
  - rewrite Hg, set_same. assert (forall l', ~ In x l' -> fold_right (fun r n => (g r + n)%nat) O l' = fold_right (fun r n => (f r + n)%nat) O l') as Q; [|rewrite (Q l N1); reflexivity].
    clear -Hg. induction l' as [|y l' IH]; intros H; [reflexivity|]. cbn [fold_right]. rewrite IH by (intros Q; apply H; right; exact Q). rewrite Hg, set_other by (intros ->; apply H; left; reflexivity). reflexivity.
  - rewrite IH by assumption. rewrite Hg, set_other by (intros ->; contradiction). lia.
Qed.
Lemma turns_done n c c' : turns V A ws G cs n c c' -> inv c -> done c' = (done c + n)%nat.
Proof.
  induction 1 as [|n c1 c2 c3 r H IH Hr Ht]; intros I; [lia|]. rewrite Nat.add_succ_r, <- (IH I). pose proof (inv_turns _ _ _ H I) as I2. destruct (inv_turn c2 r I2 Hr) as [_ Q]. destruct (Q c3 Ht) as [_ Q'].
  unfold done. apply (fold_set (s_pc V c2) (s_pc V c3) r); [apply NoDup_zrange|apply in_zrange; lia|exact Q'].
Qed.
Lemma turns_bound n c : turns V A ws G cs n (start V W) c -> (n <= length cs * Z.to_nat ws)%nat.
Proof.
  intros H. pose proof (turns_done n _ _ H inv_start) as Q. pose proof (inv_turns _ _ _ H inv_start) as I.
  assert (done (start V W) = 0)%nat as Q0. { unfold done. cbn [s_pc start]. induction (zrange 0 ws) as [|x l IH]; [reflexivity|exact IH]. }
  assert (done c <= length cs * length (zrange 0 ws))%nat as Q1. { apply fold_bound. intros r Hr. apply in_zrange in Hr. apply (v_pc c I). lia. }
  assert (length (zrange 0 ws) = Z.to_nat ws) as Q2 by (unfold zrange; rewrite map_length, seq_length; f_equal; lia). lia.
Qed.
End L.

(* ---------- the result ---------- *)
Definition ex (k : nat) (e : exch) : list cop -> lstate -> lstate := fold_left (fun st o => exec k (Comm V e o) st).
Lemma ex_app k e l l' st : ex k e (l ++ l') st = ex k e l' (ex k e l st).
Proof. apply fold_left_app. Qed.
Lemma ex_brecv k e ds st : ex k e (each BRecv ds) st = st.
Proof. revert st. induction ds as [|d ds IH]; intros [M Lg]; [reflexivity|]. apply IH. Qed.
Lemma ex_esend k e ds st : ex k e (each ESend ds) st = st.
Proof. revert st. induction ds as [|d ds IH]; intros [M Lg]; [reflexivity|]. apply IH. Qed.
Lemma ex_bsend k e ds : NoDup ds -> forall M Lg, exists Lg', ex k e (each BSend ds) (M, Lg) = (M, Lg') /\
  (forall r a s, In (a, s) ds -> Lg' r a s = Lg r a s ++ opt_list (send V ws G e r (M r) a s)) /\ (forall r a s, ~ In (a, s) ds -> Lg' r a s = Lg r a s).
Proof.
  induction ds as [|[b t] ds IH]; intros N M Lg; [exists Lg; split; [reflexivity|split; [intros ? ? ? []|reflexivity]]|]. inversion N as [|? ? N1 N2]; subst.
  cbn [each map fst snd ex fold_left exec]. destruct (IH N2 M (fun r a' s' => if cop_eqb (BSend b t) (BSend a' s') then Lg r a' s' ++ opt_list (send V ws G e r (M r) a' s') else Lg r a' s')) as (Lg' & E & H1 & H2).
  exists Lg'. split; [exact E|]. split.
  - intros r a s [Q|Q].
    + injection Q as -> ->. rewrite H2 by exact N1. rewrite (proj2 (cop_eqb_true (BSend a s) (BSend a s)) eq_refl). reflexivity.
    + rewrite H1 by exact Q. destruct (cop_eqb (BSend b t) (BSend a s)) eqn:Eq; [|reflexivity]. apply cop_eqb_true in Eq. injection Eq as -> ->. contradiction.
  - intros r a s Q. rewrite H2 by (intros Q'; apply Q; right; exact Q'). destruct (cop_eqb (BSend b t) (BSend a s)) eqn:Eq; [|reflexivity]. apply cop_eqb_true in Eq. injection Eq as -> ->. exfalso. apply Q. left. reflexivity.
Qed.
Lemma find_joined e ds W r a s src : dirs ds -> In (a, s) ds -> 0 <= src < ws -> peer V ws G src (port a s) = Some r ->
  exists m, send V ws G e src (W src) a s = Some m /\ find (fun m => (m_src V m =? src) && (m_dst V m =? r) && (m_tag V m =? port a s)) (messages V ws G e ds W) = Some m.
Proof.
  intros Hds Hi Hsrc Hp. rewrite (send_some e src (W src) a s r Hp). set (m := mk_msg V src r (port a s) (msg_floats e (c_n V (G src)) a) (pack V G e src (W src) a s)). exists m. split; [reflexivity|].
  assert (In m (messages V ws G e ds W)) as Hm. { unfold messages. apply in_flat_map. exists src. split; [apply in_zrange; lia|]. apply in_flat_map. exists (a, s). split; [exact Hi|]. cbn [fst snd]. rewrite (send_some e src (W src) a s r Hp). left. reflexivity. }
  destruct (find _ (messages V ws G e ds W)) as [m'|] eqn:Ef.
  - apply find_some in Ef. destruct Ef as [Hm' Q]. f_equal. unfold messages in Hm'. apply in_flat_map in Hm'. destruct Hm' as (r' & _ & Hm'). apply in_flat_map in Hm'. destruct Hm' as ([b t] & Hbt & Hm'). cbn [fst snd] in Hm'.
    unfold send in Hm'. destruct (peer V ws G r' (port b t)) as [d'|] eqn:Ep'; [|destruct Hm']. destruct Hm' as [<-|[]]. cbn [m_src m_dst m_tag] in Q.
    assert (r' = src) by lia. assert (d' = r) by lia. subst r' d'. destruct (port_inj b t a s (Hds _ Hbt) (Hds _ Hi) ltac:(lia)) as [-> ->]. reflexivity.
  - exfalso. pose proof (find_none _ _ Ef m Hm) as Q. cbn [m_src m_dst m_tag m] in Q. unfold m in Q. cbn [m_src m_dst m_tag] in Q. lia.
Qed.
Lemma ex_erecv k e ds0 Mb Lg : dirs ds0 ->
  (forall r a s d, 0 <= r < ws -> In (a, s) ds0 -> peer V ws G r (port a s) = Some d -> nth_error (Lg r a s) k = send V ws G e r (Mb r) a s) ->
  forall ds M, incl ds ds0 -> exists M', ex k e (each ERecv ds) (M, Lg) = (M', Lg) /\ forall r, 0 <= r < ws -> receive_all V A ws G e r (messages V ws G e ds0 Mb) ds (M r) = Some (M' r).
Proof.
  intros Hds HL. induction ds as [|[a s] ds IH]; intros M Hi; [exists M; split; reflexivity|].
  change (ex k e (each ERecv ((a, s) :: ds)) (M, Lg)) with (ex k e (each ERecv ds) (exec k (Comm V e (ERecv a s)) (M, Lg))). cbn [exec].
  match goal with |- context [ex k e _ (?m, Lg)] => set (M1 := m) end. destruct (IH M1 ltac:(intros x Hx; apply Hi; right; exact Hx)) as (M' & E & H). exists M'. split; [exact E|]. intros r Hr. cbn [receive_all fst snd].
  assert (receive V A ws G e r (messages V ws G e ds0 Mb) (M r) a s = Some (M1 r)) as ->; [|apply H, Hr].
  assert (Has : In (a, s) ds0) by (apply Hi; left; reflexivity). pose proof (Hds _ Has) as Hs. cbn [snd] in Hs.
  unfold receive, M1. destruct (peer V ws G r (port a (- s))) as [src|] eqn:Ep; [|reflexivity]. destruct (peer_joined' r a s src Hr Hs Ep) as (Hp & Hsrc & Hn).
  destruct (find_joined e ds0 Mb r a s src Hds Has Hsrc Hp) as (m & Em & Ef). rewrite Ef. rewrite (HL src a s r Hsrc Has Hp), Em.
  rewrite (send_some e src (Mb src) a s r Hp) in Em. injection Em as <-. cbn [m_size m_data].
  replace (msg_floats e (c_n V (G src)) a =? msg_floats e (c_n V (G r)) a) with true by (rewrite (floats_eq e _ _ a Hn); symmetry; apply Z.eqb_refl). cbn [negb].
  destruct (consume_ok e src r (Mb src) (M r) a s Hn) as (F' & EF). rewrite EF. exact EF.
Qed.
Lemma ex_phase k e ds l M Lg : NoDup ds -> dirs ds ->
  (l = each BRecv ds ++ each BSend ds ++ each ERecv ds ++ each ESend ds \/ l = each BSend ds ++ each BRecv ds ++ each ERecv ds ++ each ESend ds \/ l = each BRecv ds ++ each BSend ds ++ each ESend ds ++ each ERecv ds) ->
  (forall r a s d, 0 <= r < ws -> In (a, s) ds -> peer V ws G r (port a s) = Some d -> length (Lg r a s) = k) ->
  exists M' Lg', ex k e l (M, Lg) = (M', Lg') /\ phase V A ws G e ds M M' /\ (forall r a s, ~ In (a, s) ds -> Lg' r a s = Lg r a s).
Proof.
  intros N Hds Hl HL. destruct (ex_bsend k e ds N M Lg) as (Lg' & E1 & H1 & H2).
  destruct (ex_erecv k e ds M Lg' Hds) with (ds := ds) (M := M) as (M' & E2 & H3); [|intros x Hx; exact Hx|].
  { intros r a s d Hr Hi Hp. rewrite H1 by exact Hi. pose proof (HL r a s d Hr Hi Hp) as Q. rewrite nth_error_app2 by lia. rewrite Q, Nat.sub_diag, (send_some e r (M r) a s d Hp). reflexivity. }
  exists M', Lg'. split; [|split; [exact H3|exact H2]].
  destruct Hl as [-> | [-> | ->]]; rewrite !ex_app, ?ex_brecv, E1, ?ex_brecv, ?ex_esend, E2, ?ex_esend; reflexivity.
Qed.
Lemma ex_block k e M Lg : (forall r a s d, 0 <= r < ws -> sign s -> peer V ws G r (port a s) = Some d -> length (Lg r a s) = k) ->
  exists M' Lg', ex k e (calls_of e) (M, Lg) = (M', Lg') /\ run_phases V A ws G e (phases e) M M'.
Proof.
  intros HL. assert (D6 : dirs six) by (intros d Hd; cbn in Hd; repeat (destruct Hd as [<-|Hd]; [unfold sign; cbn; lia|]); destruct Hd).
  assert (N6 : NoDup six) by (repeat (constructor; [cbn; intuition discriminate|]); constructor).
  assert (N2 : forall a, NoDup (two a)) by (intros a; repeat (constructor; [cbn; intuition discriminate|]); constructor).
  destruct (ghosted e) eqn:Eg.
  - destruct (ex_phase k e six (calls_of e) M Lg N6 D6) as (M' & Lg' & E & H & _); [left; destruct e; try discriminate Eg; reflexivity|intros r a s d Hr Hi; apply (HL r a s d Hr (D6 _ Hi))|].
    exists M', Lg'. split; [exact E|]. unfold phases. rewrite Eg. econstructor; [exact H|]. constructor. reflexivity.
  - assert (exists lx, calls_of e = lx ++ sends_first AY ++ sends_first AZ /\ (lx = sends_first AX \/ lx = each BRecv (two AX) ++ each BSend (two AX) ++ each ESend (two AX) ++ each ERecv (two AX))) as (lx & El & Hlx).
    { destruct e; try discriminate Eg; cbn [calls_of]; eexists; (split; [reflexivity|]); tauto. }
    rewrite El, !ex_app.
    destruct (ex_phase k e (two AX) lx M Lg (N2 AX) (two_dirs AX)) as (M1 & L1 & E1 & P1 & K1); [destruct Hlx as [-> | ->]; [right; left; reflexivity|right; right; reflexivity]|intros r a s d Hr Hi; apply (HL r a s d Hr (two_dirs AX _ Hi))|]. rewrite E1.
    destruct (ex_phase k e (two AY) (sends_first AY) M1 L1 (N2 AY) (two_dirs AY)) as (M2 & L2 & E2 & P2 & K2); [right; left; reflexivity| |].
    { intros r a s d Hr Hi Hp. rewrite K1; [apply (HL r a s d Hr (two_dirs AY _ Hi) Hp)|]. intros Q. cbn in Hi, Q. intuition congruence. }
    rewrite E2.
    destruct (ex_phase k e (two AZ) (sends_first AZ) M2 L2 (N2 AZ) (two_dirs AZ)) as (M3 & L3 & E3 & P3 & K3); [right; left; reflexivity| |].
    { intros r a s d Hr Hi Hp. rewrite K2, K1; [apply (HL r a s d Hr (two_dirs AZ _ Hi) Hp)| |]; intros Q; cbn in Hi, Q; intuition congruence. }
    rewrite E3. exists M3, L3. split; [reflexivity|]. unfold phases. rewrite Eg. econstructor; [exact P1|]. econstructor; [exact P2|]. econstructor; [exact P3|]. constructor. reflexivity.
Qed.
Lemma lock_block es1 e es2 W j : (j <= length (calls_of e))%nat ->
  lock (program V (es1 ++ Exchange V e :: es2)) W (length (program V es1) + j) = ex (length (exchs es1)) e (firstn j (calls_of e)) (lock (program V (es1 ++ Exchange V e :: es2)) W (length (program V es1))).
Proof.
  set (cs := program V (es1 ++ Exchange V e :: es2)). set (i0 := length (program V es1)).
  assert (Ecs : cs = program V es1 ++ map (Comm V e) (calls_of e) ++ program V es2) by (unfold cs; rewrite program_app; reflexivity).
  induction j as [|j IH]; intros Hj; [rewrite Nat.add_0_r; reflexivity|]. rewrite Nat.add_succ_r. cbn [lock].
  destruct (nth_error (calls_of e) j) as [o|] eqn:Eo; [|apply nth_error_None in Eo; lia].
  assert (nth_error cs (i0 + j) = Some (Comm V e o)) as En. { rewrite Ecs, nth_error_app2 by (unfold i0; lia). replace (i0 + j - length (program V es1))%nat with j by (unfold i0; lia). rewrite nth_error_app1 by (rewrite map_length; lia). rewrite nth_error_map, Eo. reflexivity. }
  rewrite En, (IH ltac:(lia)). assert (firstn (S j) (calls_of e) = firstn j (calls_of e) ++ [o]) as ->.
  { clear -Eo. revert j Eo. induction (calls_of e) as [|y l IHl]; intros [|j] Eo; try discriminate; cbn in *; [congruence|]. f_equal. apply IHl, Eo. }
  rewrite ex_app. cbn [ex fold_left]. f_equal. cbn [kind]. unfold cnt. rewrite Ecs, firstn_app. rewrite (firstn_all2 (program V es1)) by (unfold i0; lia). replace (i0 + j - length (program V es1))%nat with j by (unfold i0; lia).
  rewrite firstn_app, map_length. replace (j - length (calls_of e))%nat with 0%nat by lia. cbn [firstn]. rewrite app_nil_r, firstn_map, comms_app, comms_block, count_app.
  rewrite (comms_all es1 o) by (apply (block_signs e), (nth_error_In _ j), Eo). pose proof (block_before e j o Eo) as B. unfold before_ok in B. apply andb_true_iff in B. destruct B as [B _]. lia.
Qed.
Lemma lock_runs W es2 : forall es1, let cs := program V (es1 ++ es2) in
  runs V A ws G es2 (fst (lock cs W (length (program V es1)))) (fst (lock cs W (length cs))).
Proof.
  induction es2 as [|x es2 IH]; intros es1 cs.
  - unfold cs. rewrite app_nil_r. constructor. reflexivity.
  - assert (Ecs : cs = program V ((es1 ++ [x]) ++ es2)) by (unfold cs; rewrite <- app_assoc; reflexivity). specialize (IH (es1 ++ [x])). cbv zeta in IH. rewrite <- Ecs in IH. destruct x as [e|f].
    + assert (El : length (program V (es1 ++ [Exchange V e])) = (length (program V es1) + length (calls_of e))%nat). { rewrite program_app, app_length. cbn [program flat_map]. rewrite app_nil_r, map_length. reflexivity. }
      rewrite El in IH. unfold cs in IH at 1. rewrite (lock_block es1 e es2 W (length (calls_of e)) (le_n _)), firstn_all in IH. fold cs in IH.
      destruct (lock cs W (length (program V es1))) as [M Lg] eqn:EL. destruct (ex_block (length (exchs es1)) e M Lg) as (M' & Lg' & Ex & Hr).
      { intros r a s d Hr Hs Hp. change Lg with (snd (M, Lg)). rewrite <- EL. unfold cs. rewrite (log_len (es1 ++ Exchange V e :: es2) W r a s d _ Hp). unfold cnt. rewrite program_app, firstn_app, firstn_all, Nat.sub_diag. cbn [firstn]. rewrite app_nil_r. apply comms_all. exact Hs. }
      rewrite Ex in IH. econstructor; [exact Hr|exact IH].
    + assert (El : length (program V (es1 ++ [Work V f])) = S (length (program V es1))). { rewrite program_app, app_length. cbn. lia. }
      rewrite El in IH. apply (r_work V A ws G f es2 _ (fst (lock cs W (S (length (program V es1)))))); [|exact IH].
      intros r Hr. cbn [lock]. assert (nth_error cs (length (program V es1)) = Some (Local V f)) as ->. { unfold cs. rewrite program_app, nth_error_app2, Nat.sub_diag by lia. reflexivity. } destruct (lock cs W (length (program V es1))) as [M Lg]. reflexivity.
Qed.
Lemma runs_ext es : forall W W1 W2, runs V A ws G es W W1 -> (forall r, 0 <= r < ws -> W2 r = W1 r) -> runs V A ws G es W W2.
Proof.
  induction es as [|x es IH]; intros W W1 W2 H E; inversion H; subst.
  - constructor. intros r Hr. rewrite E by exact Hr. auto.
  - econstructor; [eassumption|]. eapply IH; eassumption.
  - econstructor; [eassumption|]. eapply IH; eassumption.
Qed.
(* all at the end *)
Lemma inv_end es W c : inv es W c -> (forall r, 0 <= r < ws -> turn V A ws G (program V es) c r = Ended V) ->
  runs V A ws G es W (s_mem V c) /\ s_net V c = [] /\ (forall r a s, 0 <= r < ws -> sign s -> s_recv V c r (port a s) = None /\ s_send V c r (port a s) = None).
Proof.
  intros I He. assert (Hpc : forall r, 0 <= r < ws -> s_pc V c r = length (program V es)).
  { intros r Hr. specialize (He r Hr). unfold turn in He. destruct (nth_error (program V es) (s_pc V c r)) as [x|] eqn:E.
    - exfalso. destruct (inv_turn es W c r I Hr) as [_ _]. destruct x as [e o|f]; [|discriminate]. unfold comm, go in He. destruct o as [a s|a s|a s|a s].
      + destruct (peer V ws G r (port a (- s))); [|discriminate]. destruct (s_recv V c r (port a (- s))); discriminate.
      + destruct (send V ws G e r (s_mem V c r) a s); [|discriminate]. destruct (s_send V c r (port a s)); discriminate.
      + destruct (peer V ws G r (port a (- s))); [|discriminate]. destruct (s_recv V c r (port a (- s))) as [[[? ?] ?]|]; [|discriminate]. destruct (take V _ _) as [[? ?]|]; [|discriminate]. destruct (negb _); [discriminate|]. destruct (consume _ _ _ _ _ _ _ _); discriminate.
      + destruct (peer V ws G r (port a s)); [|discriminate]. destruct (s_send V c r (port a s)); [|discriminate]. destruct (Nat.leb _ _); discriminate.
    - apply nth_error_None in E. pose proof (v_pc es W c I r Hr). lia. }
  assert (Call : forall o, sign (snd (dir_of o)) -> cnt (program V es) o (length (program V es)) = length (exchs es)). { intros o Ho. unfold cnt. rewrite firstn_all. apply comms_all, Ho. }
  split; [|split].
  - apply (runs_ext es W (fst (lock (program V es) W (length (program V es))))); [exact (lock_runs W es [])|]. intros r Hr. rewrite (v_mem es W c I r Hr), (Hpc r Hr). reflexivity.
  - destruct (s_net V c) as [|m net] eqn:En; [reflexivity|]. exfalso. destruct (v_in es W c I m ltac:(rewrite En; left; reflexivity)) as (r & a & s & d & Hr & Hs & Hp & Hm).
    destruct (v_net es W c I r a s d Hr Hs Hp) as [Q _]. destruct (peer_joined r a s d Hr Hs Hp) as (_ & Hd & _). rewrite (Hpc r Hr), (Hpc d Hd) in Q. apply (f_equal (@length (msg V))) in Q. rewrite skipn_length, (log_len es W r a s d _ Hp), !Call in Q by exact Hs.
    rewrite En in Q. cbn [filter] in Q. rewrite Hm in Q. cbn [length] in Q. lia.
  - intros r a s Hr Hs. split.
    + pose proof (v_recv es W c I r a (- s) Hr (sign_opp s Hs)) as Q. rewrite Z.opp_involutive in Q. destruct (peer V ws G r (port a s)); [|exact Q]. rewrite !(Hpc r Hr), !Call in Q by (apply sign_opp, Hs). destruct Q as [[_ Q]|[Q _]]; [exact Q|lia].
    + pose proof (v_send es W c I r a s Hr Hs) as Q. destruct (peer V ws G r (port a s)); [|exact Q]. rewrite !(Hpc r Hr), !Call in Q by exact Hs. destruct Q as [[_ Q]|[Q _]]; [exact Q|lia].
Qed.
End P.
