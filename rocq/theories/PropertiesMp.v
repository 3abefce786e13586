(* C42: message buffers.  C41: the turnstile. *)
From Coq Require Import ZArith List Bool Lia ZifyBool.
From Verif Require Import FloatModel MpModel MpProofs TurnstileProofs.
Import ListNotations.
Open Scope Z_scope.
Ltac Zify.zify_post_hook ::= idtac.

(* ---------- C42 ---------- *)
(* Whatever calls a program has made since new_mp, if all of them succeeded: *)
(* the sizes recorded are the sizes of the buffers, and a pending transfer fits the buffer it uses. *)
Theorem C42_sizes : forall n_port n_rank os ps0 ps p x,
  new_mp n_port = MpOK ps0 -> Forall (fun o => forall p sz, o = MSize p sz -> sz < 2 ^ 31) os ->
  mp_run n_rank ps0 os = MpOK ps -> nth_error ps (Z.to_nat p) = Some x -> 0 <= p ->
  Z.of_nat (length ps) = n_port /\ p < n_port /\
  b_sz x = match b_data x with None => 0 | Some d => Z.of_nat (length d) end /\ 0 <= b_sz x < 2 ^ 31 /\
  (b_pending x = true -> 1 <= b_req x <= b_sz x).
Proof.
  intros n_port n_rank os ps0 ps p x N F R E Hp. destruct (new_mp_ok _ _ N) as [A0 L0].
  assert (F' : Forall (fun o => forall p sz, o = MSize p sz -> sz <= 2147483647) os).
  { revert F. apply Forall_impl. intros o H p' sz' Eo. specialize (H p' sz' Eo). lia. }
  destruct (run_ok n_rank os ps0 ps A0 F' R) as (A & L & _). destruct (A _ _ E) as (O & O2 & Q).
  assert (nth_error ps (Z.to_nat p) <> None) as NN by congruence. apply nth_error_Some in NN.
  split; [lia|]. split; [lia|]. split; [destruct (b_data x); tauto|]. split; [|exact Q]. destruct (b_data x); lia.
Qed.
Print Assumptions C42_sizes.
Example C42_sizes_example :
  exists ps0 ps x, new_mp 27 = MpOK ps0 /\
  mp_run 4 ps0 [MSize 5 100; MFill 5 [Some 7; Some 8]; MSize 5 50; MSize 5 200; MBegin 5 150 3] = MpOK ps /\
  nth_error ps 5 = Some x /\ b_sz x = 262 /\ b_pending x = true /\ b_req x = 150 /\
  match b_data x with Some d => firstn 3 d = [Some 7; Some 8; None] | None => False end.
Proof. eexists. eexists. eexists. split; [reflexivity|]. split; [vm_compute; reflexivity|]. repeat split. Qed.

(* Along any later sequence of calls the buffers do not shrink, and as long as nothing is received or stored
   the bytes stay what they were. *)
Theorem C42_history : forall n_port n_rank os os' ps0 ps ps' p x,
  new_mp n_port = MpOK ps0 -> Forall (fun o => forall p sz, o = MSize p sz -> sz < 2 ^ 31) (os ++ os') ->
  mp_run n_rank ps0 os = MpOK ps -> mp_run n_rank ps os' = MpOK ps' -> nth_error ps p = Some x ->
  exists x', nth_error ps' p = Some x' /\ b_sz x <= b_sz x' /\
    ((forall o, In o os' -> (exists p sz, o = MSize p sz) \/ (exists p sz r, o = MBegin p sz r) \/ (exists p, o = MEndSend p)) ->
     forall d, b_data x = Some d -> exists d', b_data x' = Some (d ++ d')).
Proof.
  intros n_port n_rank os os' ps0 ps ps' p x N F R R' E. destruct (new_mp_ok _ _ N) as [A0 L0].
  assert (F' : Forall (fun o => forall p sz, o = MSize p sz -> sz <= 2147483647) (os ++ os')).
  { revert F. apply Forall_impl. intros o H p' sz' Eo. specialize (H p' sz' Eo). lia. }
  apply Forall_app in F'. destruct F' as [F1 F2].
  destruct (run_ok n_rank os ps0 ps A0 F1 R) as (A & L & _). destruct (run_ok n_rank os' ps ps' A F2 R') as (_ & _ & K).
  destruct (K p x E) as (x' & E' & S & C). exists x'. split; [exact E'|]. split; [exact S|]. intros H. apply C. apply Forall_forall. intros o I.
  destruct (H o I) as [(?&?&->)|[(?&?&?&->)|(?&->)]]; exact Logic.I.
Qed.
Print Assumptions C42_history.

(* One resize of port p, in a state reached by successful calls: exactly when it is defined and what it does. *)
Theorem C42_resize : forall n_port n_rank os ps0 ps p sz x,
  new_mp n_port = MpOK ps0 -> Forall (fun o => forall p sz, o = MSize p sz -> sz < 2 ^ 31) os ->
  mp_run n_rank ps0 os = MpOK ps -> 0 <= p < n_port -> nth_error ps (Z.to_nat p) = Some x -> 1 <= sz < 2 ^ 31 ->
  (sz <= b_sz x -> size_buffer ps p sz = MpOK ps) /\
  (b_sz x < sz -> b_pending x = false -> sz <= 1636178017 ->
     exists ps' x', size_buffer ps p sz = MpOK ps' /\ nth_error ps' (Z.to_nat p) = Some x' /\
       sz <= b_sz x' /\ 16 * b_sz x' <= 21 * sz < 16 * (b_sz x' + 1) /\
       (exists old new, b_data x' = Some (old ++ new) /\ (b_data x = Some old \/ (b_data x = None /\ old = []))) /\
       b_pending x' = false /\
       forall q, q <> Z.to_nat p -> nth_error ps' q = nth_error ps q) /\
  (b_sz x < sz -> b_pending x = true \/ 1636178017 < sz -> size_buffer ps p sz = MpUB).
Proof.
  intros n_port n_rank os ps0 ps p sz x N F R Hp E Hs. destruct (new_mp_ok _ _ N) as [A0 L0].
  assert (F' : Forall (fun o => forall p sz, o = MSize p sz -> sz <= 2147483647) os).
  { revert F. apply Forall_impl. intros o H p' sz' Eo. specialize (H p' sz' Eo). lia. }
  destruct (run_ok n_rank os ps0 ps A0 F' R) as (A & L & _).
  assert (Hp' : 0 <= p < Z.of_nat (length ps)) by lia.
  rewrite (size_spec ps p sz A Hp' ltac:(lia) x E).
  refine (conj _ (conj _ _)).
  - intros H. replace (sz <=? b_sz x) with true by lia. reflexivity.
  - intros H Pn Hsz. replace (sz <=? b_sz x) with false by lia. rewrite Pn. replace (1636178017 <? sz) with false by lia. cbn [orb].
    assert (G : sz <= 21 * sz / 16 /\ 16 * (21 * sz / 16) <= 21 * sz < 16 * (21 * sz / 16 + 1)) by (Z.to_euclidean_division_equations; lia).
    set (q := 21 * sz / 16) in *. clearbody q. eexists. eexists. split; [reflexivity|]. rewrite nth_set_port by exact Hp'. rewrite Nat.eqb_refl. split; [reflexivity|].
    cbn [b_sz b_data b_pending]. split; [lia|]. split; [lia|]. split; [|split; [reflexivity|]].
    + destruct (b_data x) as [d|]; eexists; eexists; (split; [reflexivity|]); [left; reflexivity|right; split; reflexivity].
    + intros k Hk. rewrite nth_set_port by exact Hp'. replace (Nat.eqb k (Z.to_nat p)) with false by (symmetry; apply Nat.eqb_neq; exact Hk). reflexivity.
  - intros H B. replace (sz <=? b_sz x) with false by lia. replace ((1636178017 <? sz) || b_pending x) with true by (destruct B as [->| ]; lia). reflexivity.
Qed.
Print Assumptions C42_resize.
Example C42_resize_example : exists ps0 ps x, new_mp 2 = MpOK ps0 /\ mp_run 1 ps0 [MSize 1 16; MFill 1 [Some 3]; MSize 1 32] = MpOK ps /\
  nth_error ps 1 = Some x /\ b_sz x = 42 /\ b_data x = Some (Some 3 :: repeat None 41).
Proof. eexists. eexists. eexists. split; [reflexivity|]. split; [vm_compute; reflexivity|]. repeat split. Qed.
(* The two undefined cases occur. *)
Theorem C42_resize_refuted : exists ps0, new_mp 1 = MpOK ps0 /\
  mp_run 1 ps0 [MSize 0 1636178018] = MpUB /\ mp_run 1 ps0 [MSize 0 4; MBegin 0 4 0; MSize 0 8] = MpUB.
Proof. eexists. split; [reflexivity|]. split; vm_compute; reflexivity. Qed.
Print Assumptions C42_resize_refuted.

(* Port numbers: resizing takes any port in [0,n_port) and reports the others, except n_port itself, for which it leaves
   the arrays; starting and ending a transfer report it. *)
Theorem C42_ports : forall n_rank (ps : ports) p sz peer msg,
  (p < 0 \/ Z.of_nat (length ps) < p \/ sz < 1 -> size_buffer ps p sz = MpError) /\
  (p = Z.of_nat (length ps) -> 1 <= sz -> size_buffer ps p sz = MpUB) /\
  (p < 0 \/ Z.of_nat (length ps) <= p -> begin_comm n_rank ps p sz peer = MpError /\ end_recv ps p msg = MpError /\
     end_send ps p = MpError /\ buffer_of ps p = MpError).
Proof.
  intros n_rank ps p sz peer msg. refine (conj _ (conj _ _)).
  - intros H. unfold size_buffer. replace ((p <? 0) || (Z.of_nat (length ps) <? p) || (sz <? 1)) with true by lia. reflexivity.
  - intros -> H. unfold size_buffer. replace ((Z.of_nat (length ps) <? 0) || (Z.of_nat (length ps) <? Z.of_nat (length ps)) || (sz <? 1)) with false by lia.
    rewrite Nat2Z.id. replace (nth_error ps (length ps)) with (@None port); [reflexivity|]. symmetry. apply nth_error_None. lia.
  - intros H. unfold begin_comm, end_recv, end_send, buffer_of. replace ((p <? 0) || (Z.of_nat (length ps) <=? p)) with true by lia. repeat split.
Qed.
Print Assumptions C42_ports.
Theorem C42_port_check_refuted : exists ps, new_mp 27 = MpOK ps /\ size_buffer ps 27 100 <> MpError /\ (forall ps', size_buffer ps 27 100 <> MpOK ps').
Proof. eexists. split; [reflexivity|]. split; [|intros ps']; vm_compute; discriminate. Qed.
Print Assumptions C42_port_check_refuted.

(* Receiving: in a state reached by successful calls, a posted receive completes exactly when the message has
   the posted size, and then the buffer starts with the message, keeps its other bytes, and can be used again. *)
Theorem C42_receive : forall n_port n_rank os ps0 ps p x msg,
  new_mp n_port = MpOK ps0 -> Forall (fun o => forall p sz, o = MSize p sz -> sz < 2 ^ 31) os ->
  mp_run n_rank ps0 os = MpOK ps -> 0 <= p < n_port -> nth_error ps (Z.to_nat p) = Some x -> b_pending x = true ->
  (Z.of_nat (length msg) <> b_req x -> end_recv ps p msg = MpError) /\
  (Z.of_nat (length msg) = b_req x -> exists ps' x' d rest, end_recv ps p msg = MpOK ps' /\ b_data x = Some d /\ nth_error ps' (Z.to_nat p) = Some x' /\
     b_data x' = Some (map Some msg ++ rest) /\ b_sz x' = b_sz x /\ b_pending x' = false /\
     (exists over, length over = length msg /\ d = over ++ rest) /\
     forall q, q <> Z.to_nat p -> nth_error ps' q = nth_error ps q).
Proof.
  intros n_port n_rank os ps0 ps p x msg N F R Hp E Pn. destruct (new_mp_ok _ _ N) as [A0 L0].
  assert (F' : Forall (fun o => forall p sz, o = MSize p sz -> sz <= 2147483647) os).
  { revert F. apply Forall_impl. intros o H p' sz' Eo. specialize (H p' sz' Eo). lia. }
  destruct (run_ok n_rank os ps0 ps A0 F' R) as (A & L & _). assert (Hp' : 0 <= p < Z.of_nat (length ps)) by lia.
  destruct (A _ _ E) as (O & O2 & Q). specialize (Q Pn). destruct (b_data x) as [d|] eqn:D; [|lia].
  unfold end_recv. replace ((p <? 0) || (Z.of_nat (length ps) <=? p)) with false by lia. rewrite E, Pn, D. cbn [negb]. split; intros H.
  - destruct (b_req x <? Z.of_nat (length msg)); [reflexivity|]. replace (b_req x =? Z.of_nat (length msg)) with false by lia. reflexivity.
  - replace (b_req x <? Z.of_nat (length msg)) with false by lia. replace (b_req x =? Z.of_nat (length msg)) with true by lia.
    eexists. eexists. exists d. eexists. split; [reflexivity|]. split; [reflexivity|]. rewrite nth_set_port by exact Hp'. rewrite Nat.eqb_refl. split; [reflexivity|].
    cbn [b_data b_sz b_pending]. split; [reflexivity|]. split; [reflexivity|]. split; [reflexivity|]. split.
    + exists (firstn (length msg) d). split; [rewrite firstn_length; lia|]. symmetry. apply firstn_skipn.
    + intros k Hk. rewrite nth_set_port by exact Hp'. replace (Nat.eqb k (Z.to_nat p)) with false by (symmetry; apply Nat.eqb_neq; exact Hk). reflexivity.
Qed.
Print Assumptions C42_receive.
Example C42_receive_example : exists ps0 ps, new_mp 3 = MpOK ps0 /\ mp_run 2 ps0 [MSize 2 3; MBegin 2 2 1; MEndRecv 2 [10; 20]] = MpOK ps /\
  buffer_of ps 2 = MpOK (Some [Some 10; Some 20; None]) /\
  mp_run 2 ps0 [MSize 2 3; MBegin 2 2 1; MEndRecv 2 [10]] = MpError /\ mp_run 2 ps0 [MSize 2 3; MBegin 2 4 1] = MpError.
Proof. eexists. eexists. split; [reflexivity|]. split; [vm_compute; reflexivity|]. repeat split. Qed.

(* ---------- C41 ---------- *)
(* n ranks pass turnstiles of widths ws one after the other, in any order of steps, whether or not a send returns before its
   message is received.  pos s r = (k, PIn): rank r is in the guarded section of turnstile k. *)
Theorem C41_at_most : forall eager ws n steps s k w inside,
  (forall w, In w ws -> 1 <= w) -> texec eager ws n ts_start steps s -> nth_error ws k = Some w -> NoDup inside ->
  (forall r, In r inside -> 0 <= r < n /\ pos s r = (k, PIn)) ->
  Z.of_nat (length inside) <= w.
Proof.
  intros eager ws n steps s k w l W T Ew N H. assert (W' : Forall (fun w => 1 <= w) ws) by (apply Forall_forall; exact W).
  eapply at_most; [eapply tinv_exec; [exact W'|apply tinv_start|exact T]|exact Ew| |exact N|exact H]. apply W. eapply nth_error_In, Ew.
Qed.
Print Assumptions C41_at_most.
(* Order: when rank r+w is in the section (or beyond it), rank r has left it and sent its message. *)
Theorem C41_order : forall eager ws n steps s k w r k' ph,
  (forall w, In w ws -> 1 <= w) -> texec eager ws n ts_start steps s -> nth_error ws k = Some w -> 0 <= r -> r + w < n ->
  pos s (r + w) = (k', ph) -> ((k < k')%nat \/ (k' = k /\ ph <> PRecv)) ->
  exists k'' ph', pos s r = (k'', ph') /\ ((k < k'')%nat \/ (k'' = k /\ ph' = PWait)).
Proof.
  intros eager ws n steps s k w r k' ph W T Ew Hr Hn E H. assert (W' : Forall (fun w => 1 <= w) ws) by (apply Forall_forall; exact W).
  exists (fst (pos s r)), (snd (pos s r)). split; [apply surjective_pairing|].
  apply (before ws n s r k w); [eapply tinv_exec; [exact W'|apply tinv_start|exact T]|exact Ew|apply W; eapply nth_error_In, Ew|exact Hr|exact Hn|]. unfold entered. rewrite E. exact H.
Qed.
Print Assumptions C41_order.
(* No deadlock: as long as a rank has not passed all turnstiles some rank can move ... *)
Theorem C41_progress : forall eager ws n steps s r,
  (forall w, In w ws -> 1 <= w) -> texec eager ws n ts_start steps s -> 0 <= r < n -> pos s r <> (length ws, PRecv) ->
  exists r' s', 0 <= r' < n /\ tstep eager ws n r' s s'.
Proof.
  intros eager ws n steps s r W T Hr Np. assert (W' : Forall (fun w => 1 <= w) ws) by (apply Forall_forall; exact W).
  destruct (progress ws n s W' ltac:(eapply tinv_exec; [exact W'|apply tinv_start|exact T]) ltac:(exists r; split; assumption)) as (r' & s' & Hr' & S).
  exists r', s'. split; [exact Hr'|]. apply step_weaker, S.
Qed.
Print Assumptions C41_progress.
(* ... and there are at most 4 steps for each rank and turnstile, so every rank gets through all of them: an execution either has
   taken every rank through, or can be continued until it has. *)
Theorem C41_finishes : forall eager ws n steps s,
  (forall w, In w ws -> 1 <= w) -> 0 <= n -> texec eager ws n ts_start steps s ->
  Z.of_nat (length steps) <= 4 * Z.of_nat (length ws) * n /\
  exists steps' s', texec eager ws n s steps' s' /\ forall r, 0 <= r < n -> pos s' r = (length ws, PRecv).
Proof.
  intros eager ws n steps s W Hn T. assert (W' : Forall (fun w => 1 <= w) ws) by (apply Forall_forall; exact W).
  assert (B : forall s, tinv ws n s -> total s (Z.to_nat n) <= 4 * Z.of_nat (length ws) * n).
  { intros s0 I. pose proof (total_bound ws n s0 (Z.to_nat n) I ltac:(lia)) as H. replace (Z.of_nat (Z.to_nat n)) with n in H by lia. exact H. }
  assert (I : tinv ws n s) by (eapply tinv_exec; [exact W'|apply tinv_start|exact T]).
  split.
  - pose proof (total_exec _ _ _ _ _ _ T) as H. rewrite total_start in H. pose proof (B s I). lia.
  - clear T steps. assert (G : forall m : nat, forall s, tinv ws n s -> 4 * Z.of_nat (length ws) * n - total s (Z.to_nat n) <= Z.of_nat m ->
      exists steps' s', texec eager ws n s steps' s' /\ forall r, 0 <= r < n -> pos s' r = (length ws, PRecv)).
    { induction m as [|m IH]; intros s0 I0 H.
      all: destruct (first_rank (fun r => match pos s0 r with (k, PRecv) => negb (Nat.eqb k (length ws)) | _ => true end) n) as [(r & Hr & P & _)|F].
      2,4: exists [], s0; split; [constructor|]; intros r Hr; specialize (F r Hr); cbn beta in F; destruct (pos s0 r) as [k ph]; destruct ph; try discriminate;
           apply negb_false_iff, Nat.eqb_eq in F; rewrite F; reflexivity.
      all: assert (Np : pos s0 r <> (length ws, PRecv)) by (intros Ep; cbn beta in P; rewrite Ep, Nat.eqb_refl in P; discriminate).
      all: destruct (progress ws n s0 W' I0 ltac:(exists r; split; assumption)) as (r' & s1 & Hr' & S); apply (step_weaker _ _ _ _ _ eager) in S.
      all: pose proof (total_step _ _ _ _ _ _ S) as Ts; assert (I1 : tinv ws n s1) by (eapply tinv_step; eassumption); pose proof (B s1 I1).
      - exfalso. lia.
      - destruct (IH s1 I1 ltac:(lia)) as (st & s2 & T2 & Fin). exists (r' :: st), s2. split; [econstructor; eassumption|exact Fin]. }
    apply (G (Z.to_nat (4 * Z.of_nat (length ws) * n - total s (Z.to_nat n))) s I). pose proof (B s I). lia.
Qed.
Print Assumptions C41_finishes.
(* A turnstile of width 0 lets nobody in: every rank waits for a message from itself, and nobody passes it. *)
Theorem C41_width0 : forall eager ws n k0 steps s r,
  nth_error ws k0 = Some 0 -> (forall k w, (k < k0)%nat -> nth_error ws k = Some w -> 1 <= w) ->
  texec eager ws n ts_start steps s -> 0 <= r < n -> (fst (pos s r) < k0)%nat \/ pos s r = (k0, PRecv).
Proof.
  intros eager ws n k0 steps s r E0 W T Hr. eapply z_pos; [|exact Hr]. eapply zinv_exec; [exact E0|exact W|apply zinv_start|exact T].
Qed.
Print Assumptions C41_width0.
(* Three ranks, one turnstile of width 2: ranks 0 and 1 are inside, rank 2 has to wait for rank 0. *)
Example C41_example : exists s, texec false [2] 3 ts_start [0; 1] s /\ pos s 0 = (O, PIn) /\ pos s 1 = (O, PIn) /\ (forall s', ~ tstep true [2] 3 2 s s') /\
  exists s1, texec false [2] 3 s [0; 0; 2] s1 /\ pos s1 0 = (O, PWait) /\ pos s1 1 = (O, PIn) /\ pos s1 2 = (O, PIn).
Proof.
  eexists. split; [|split; [|split; [|split]]].
  - econstructor; [eapply (t_enter _ _ _ _ _ O 2); [lia|reflexivity|reflexivity|lia]|]. econstructor; [eapply (t_enter _ _ _ _ _ O 2); [lia|reflexivity|reflexivity|lia]|]. constructor.
  - reflexivity.
  - reflexivity.
  - intros s' T. inversion T as [r s0 k w Hr Ep Ew L C|r s0 k w Hr Ep Ew L|r s0 k w Hr Ep Ew|r s0 k w Hr Ep Ew L|r s0 k w Hr Ep Ew L|r s0 k w Hr Ep Ew L]; subst;
      cbn in Ep; try discriminate; injection Ep as <-; cbn in Ew; injection Ew as <-; first [lia | cbn in C; discriminate | cbn in C; lia].
  - eexists. split; [|split; [|split]].
    + econstructor; [eapply (t_body _ _ _ _ _ O 2); [lia|reflexivity|reflexivity]|]. econstructor; [eapply (t_send _ _ _ _ _ O 2); [lia|reflexivity|reflexivity|lia]|].
      econstructor; [eapply (t_recv _ _ _ _ _ O 2); [lia|reflexivity|reflexivity|lia|reflexivity]|]. constructor.
    + reflexivity.
    + reflexivity.
    + reflexivity.
Qed.
