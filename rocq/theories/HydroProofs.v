(* The exchange of the hydro array is, member by member, that of rhof. *)
From Coq Require Import Reals Lra ZArith List Bool Lia ZifyBool.
From Verif Require Import SortModel SortProofs VoxelModel GridModel FieldModel ParticleModel RemoteModel HydroModel.
Import ListNotations.
Open Scope Z_scope.
Ltac Zify.zify_post_hook ::= idtac.
Local Notation axis := RemoteModel.axis.
Local Notation AT := RemoteModel.at_.

Section Project.
Context {V : Type} (A : rarith V).
Variable ws : Z.
Variable G : Z -> cgrid V.
Notation hmem := (hyd * Z -> V).
Variable m : hyd.
Definition shows (F : mem V) (H : hmem) : Prop := forall v, F (Rhof, v) = H (m, v).

(* one node *)
Lemma read_node (f : V -> V -> V) n c (Hs : hmem) (vs : Z) ls ds (H : hmem) :
  exists H1, hydro_unpack f n (map (fun x => (x, c)) read_members ++ ls) (map (fun x => Hs (x, vs)) sent_members ++ ds) H = hydro_unpack f n ls ds H1 /\
  forall k, H1 k = if snd k =? vox3 n c then f (H k) (Hs (fst k, vs)) else H k.
Proof.
  eexists. split; [reflexivity|]. intros [k v]. cbn [fst snd]. destruct (v =? vox3 n c) eqn:E; destruct k; cbn [hyd_eqb andb fst snd]; rewrite ?E, ?andb_false_r; reflexivity.
Qed.
Lemma read_nodes (fr : addr -> V -> mem V -> V) (f : V -> V -> V) n n' (Fs : mem V) (Hs : hmem) :
  (forall c w F, fr (Rhof, c) w F = f (F (Rhof, vox3 n c)) w) -> shows Fs Hs ->
  forall cr cs F H, shows F H ->
  match unpack V fr n (flat_map (fun c => map (fun k => (k, c)) [Rhof; Rhob]) cr) (map (fun l => Fs (locv n' l)) (flat_map (fun c => map (fun k => (k, c)) [Rhof; Rhob]) cs)) F,
        hydro_unpack f n (flat_map (fun c => map (fun x => (x, c)) read_members) cr) (flat_map (fun c => map (fun x => Hs (x, vox3 n' c)) sent_members) cs) H with
  | Some F', Some H' => shows F' H'
  | None, None => True
  | _, _ => False
  end.
Proof.
  intros Hf HS. induction cr as [|c cr IH]; intros cs F H HF.
  - destruct cs as [|d cs]; [exact HF|]. cbn [flat_map map app unpack hydro_unpack sent_members]. exact I.
  - destruct cs as [|d cs]; [cbn [flat_map map app unpack hydro_unpack read_members]; exact I|].
    cbn [flat_map]. destruct (read_node f n c Hs (vox3 n' d) (flat_map (fun c => map (fun x => (x, c)) read_members) cr) (flat_map (fun c => map (fun x => Hs (x, vox3 n' c)) sent_members) cs) H) as (H1 & E1 & V1).
    rewrite E1. cbn [map app]. cbn [unpack]. apply IH. intros v. cbn [fst snd]. rewrite V1. cbn [fst snd].
    unfold locv. cbn [fst snd]. unfold floc_eqb. cbn [fst snd comp_eqb]. destruct (v =? vox3 n c) eqn:E; cbn [andb].
    + assert (v = vox3 n c) as -> by lia. rewrite Hf, HF, HS. reflexivity.
    + apply HF.
Qed.

Definition alike_msgs (W : Z -> mem V) (HW : Z -> hmem) (x y : msg V) : Prop :=
  exists r a s d, 0 <= r < ws /\ x = mk_msg V r d (port a s) (msg_floats SyncRho (c_n V (G r)) a) (pack V G SyncRho r (W r) a s) /\
    y = mk_msg V r d (port a s) (hydro_floats (c_n V (G r)) a) (hydro_pack G r (HW r) a s).
Lemma find_alike W HW (t : msg V -> bool) : (forall x y, alike_msgs W HW x y -> t x = t y) -> forall l l', Forall2 (alike_msgs W HW) l l' ->
  match find t l, find t l' with Some x, Some y => alike_msgs W HW x y | None, None => True | _, _ => False end.
Proof.
  intros Ht l l' H. induction H as [|x y l l' Hxy H IH]; [exact I|]. cbn [find]. rewrite (Ht x y Hxy). destruct (t y); [exact Hxy|exact IH].
Qed.
Lemma alike_flat {T} W HW (f g : T -> list (msg V)) l : (forall x, In x l -> Forall2 (alike_msgs W HW) (f x) (g x)) -> Forall2 (alike_msgs W HW) (flat_map f l) (flat_map g l).
Proof.
  induction l as [|x l IH]; intros H; [constructor|]. cbn [flat_map]. apply Forall2_app; [apply H; left; reflexivity|apply IH; intros y Hy; apply H; right; exact Hy].
Qed.
Lemma messages_alike W HW ds : Forall2 (alike_msgs W HW) (messages V ws G SyncRho ds W) (hydro_messages ws G ds HW).
Proof.
  unfold messages, hydro_messages. apply alike_flat. intros r Hr. apply in_zrange in Hr. apply alike_flat. intros [a s] _. unfold send, hydro_send. cbn [fst snd].
  destruct (peer V ws G r (port a s)) as [d|]; cbn [opt_list]; [|constructor]. constructor; [|constructor]. exists r, a, s, d. split; [lia|split; reflexivity].
Qed.
Lemma receive_alike W HW r ms hms a s F H : (forall r, 0 <= r < ws -> shows (W r) (HW r)) -> Forall2 (alike_msgs W HW) ms hms -> shows F H ->
  match receive V A ws G SyncRho r ms F a s, hydro_receive A ws G r hms H a s with Some F', Some H' => shows F' H' | None, None => True | _, _ => False end.
Proof.
  intros HS HM HF. unfold receive, hydro_receive. destruct (peer V ws G r (port a (- s))) as [src|]; [|exact HF].
  pose proof (find_alike W HW (fun m => (m_src V m =? src) && (m_dst V m =? r) && (m_tag V m =? port a s))
    ltac:(intros x y (r0 & a0 & s0 & d0 & _ & -> & ->); reflexivity) ms hms HM) as K.
  destruct (find _ ms) as [x|]; destruct (find _ hms) as [y|]; [|destruct K|destruct K|exact I].
  destruct K as (r0 & a0 & s0 & d0 & Hr0 & -> & ->). cbn [m_size m_data has_head].
  set (k0 := (AT (next a0) (c_n V (G r0)) + 1) * (AT (next (next a0)) (c_n V (G r0)) + 1)). set (k := (AT (next a) (c_n V (G r)) + 1) * (AT (next (next a)) (c_n V (G r)) + 1)).
  assert (E : forall b, (msg_floats SyncRho (c_n V (G r0)) a0 =? msg_floats SyncRho (c_n V (G r)) a) = b -> (hydro_floats (c_n V (G r0)) a0 =? hydro_floats (c_n V (G r)) a) = b).
  { intros b <-. unfold msg_floats, hydro_floats. fold k0 k. replace (1 + 2 * (AT (next a0) (c_n V (G r0)) + 1) * (AT (next (next a0)) (c_n V (G r0)) + 1)) with (1 + 2 * k0) by (unfold k0; ring).
    replace (1 + 2 * (AT (next a) (c_n V (G r)) + 1) * (AT (next (next a)) (c_n V (G r)) + 1)) with (1 + 2 * k) by (unfold k; ring).
    replace (1 + 14 * (AT (next a0) (c_n V (G r0)) + 1) * (AT (next (next a0)) (c_n V (G r0)) + 1)) with (1 + 14 * k0) by (unfold k0; ring).
    replace (1 + 14 * (AT (next a) (c_n V (G r)) + 1) * (AT (next (next a)) (c_n V (G r)) + 1)) with (1 + 14 * k) by (unfold k; ring). clearbody k k0. lia. }
  rewrite (E _ eq_refl). destruct (negb _); [exact I|].
  unfold pack, hydro_pack. cbn [has_head app]. unfold addrs. cbn [send_items recv_items flat_map fst snd app]. rewrite !app_nil_r.
  unfold send_plane, recv_plane. cbn [ghosted].
  apply (read_nodes (combine_ V A SyncRho (G r) a s (c_d V (G r0) a0)) (hydro_combine A (c_d V (G r) a) (c_d V (G r0) a0)) (c_n V (G r)) (c_n V (G r0)) (W r0) (HW r0)).
  - intros c w F0. reflexivity.
  - apply HS, Hr0.
  - exact HF.
Qed.
Lemma all_alike W HW r ms hms : (forall r, 0 <= r < ws -> shows (W r) (HW r)) -> Forall2 (alike_msgs W HW) ms hms -> forall ds F H, shows F H ->
  match receive_all V A ws G SyncRho r ms ds F, hydro_receive_all A ws G r hms ds H with Some F', Some H' => shows F' H' | None, None => True | _, _ => False end.
Proof.
  intros HS HM. induction ds as [|[a s] ds IH]; intros F H HF; [exact HF|]. cbn [receive_all hydro_receive_all fst snd].
  pose proof (receive_alike W HW r ms hms a s F H HS HM HF) as K.
  destruct (receive V A ws G SyncRho r ms F a s) as [F1|]; destruct (hydro_receive A ws G r hms H a s) as [H1|]; try destruct K; [|exact I]. apply IH, K.
Qed.
Lemma phase_shows ds W HW HW' : (forall r, 0 <= r < ws -> shows (W r) (HW r)) -> hydro_phase A ws G ds HW HW' ->
  exists W', phase V A ws G SyncRho ds W W' /\ forall r, 0 <= r < ws -> shows (W' r) (HW' r).
Proof.
  intros HS HP. exists (fun r => match receive_all V A ws G SyncRho r (messages V ws G SyncRho ds W) ds (W r) with Some F => F | None => W r end).
  assert (K : forall r, 0 <= r < ws -> match receive_all V A ws G SyncRho r (messages V ws G SyncRho ds W) ds (W r) with Some F' => shows F' (HW' r) | None => False end).
  { intros r Hr. pose proof (all_alike W HW r _ _ HS (messages_alike W HW ds) ds (W r) (HW r) (HS r Hr)) as K. rewrite (HP r Hr) in K. exact K. }
  split; [intros r Hr|intros r Hr]; specialize (K r Hr); destruct (receive_all _ _ _ _ _ _ _ _ _); try destruct K; [reflexivity|exact K].
Qed.
Lemma phases_show dss : forall W HW HW', (forall r, 0 <= r < ws -> shows (W r) (HW r)) -> hydro_phases A ws G dss HW HW' ->
  exists W', run_phases V A ws G SyncRho dss W W' /\ forall r, 0 <= r < ws -> shows (W' r) (HW' r).
Proof.
  induction dss as [|ds dss IH]; intros W HW HW' HS HP.
  - inversion HP as [X Y E|]; subst. exists W. split; [constructor; reflexivity|]. intros r Hr. rewrite (E r Hr). apply HS, Hr.
  - inversion HP as [|X Y Z0 HW1 Z1 H1 H2]; subst. destruct (phase_shows ds W HW HW1 HS H1) as (W1 & P1 & S1). destruct (IH W1 HW1 HW' S1 H2) as (W' & P2 & S2).
    exists W'. split; [econstructor; eassumption|exact S2].
Qed.
Lemma phases_exist dss : forall W W' HW, (forall r, 0 <= r < ws -> shows (W r) (HW r)) -> run_phases V A ws G SyncRho dss W W' -> exists HW', hydro_phases A ws G dss HW HW'.
Proof.
  induction dss as [|ds dss IH]; intros W W' HW HS HP.
  - exists HW. constructor. reflexivity.
  - inversion HP as [|X Y Z0 W1 Z1 H1 H2]; subst.
    set (HW1 := fun r => match hydro_receive_all A ws G r (hydro_messages ws G ds HW) ds (HW r) with Some F => F | None => HW r end).
    assert (K : forall r, 0 <= r < ws -> hydro_receive_all A ws G r (hydro_messages ws G ds HW) ds (HW r) = Some (HW1 r) /\ shows (W1 r) (HW1 r)).
    { intros r Hr. pose proof (all_alike W HW r _ _ HS (messages_alike W HW ds) ds (W r) (HW r) (HS r Hr)) as K. rewrite (H1 r Hr) in K. unfold HW1.
      destruct (hydro_receive_all A ws G r (hydro_messages ws G ds HW) ds (HW r)); [split; [reflexivity|exact K]|destruct K]. }
    destruct (IH W1 W' HW1 (fun r Hr => proj2 (K r Hr)) H2) as (HW' & P2). exists HW'. econstructor; [|exact P2]. intros r Hr. apply K, Hr.
Qed.
End Project.
