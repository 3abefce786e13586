(* Invariants of the thread dispatcher. *)
From Coq Require Import ZArith List Bool Lia ZifyBool.
From Verif Require Import ThreadModel.
Import ListNotations.
Open Scope Z_scope.
Ltac Zify.zify_post_hook ::= idtac.

(* ---------- what the host's position means for worker i ---------- *)
Inductive view : Type := VNotYet | VSpin | VNormal | VHold | VSig | VUnl | VHaltHold | VHaltSig | VHaltUnl | VJoin | VGone.
Definition one (i wid : Z) (v : view) : view := if i =? wid then v else VNormal.
Definition halting (i b : Z) (v : view) : view := if i <? b then VGone else if i =? b then v else VNormal.
Definition view_of (h : hpc) (i : Z) : view :=
  match h with
  | HBoot b => if i <? b then VNormal else VNotYet
  | HBootSpin b => if i <? b then VNormal else if i =? b then VSpin else VNotYet
  | HHold _ _ _ wid => one i wid VHold
  | HSig _ _ _ wid => one i wid VSig
  | HUnl _ _ _ wid => one i wid VUnl
  | HHalt b => if i <? b then VGone else VNormal
  | HHaltHold b => halting i b VHaltHold
  | HHaltSig b => halting i b VHaltSig
  | HHaltUnl b => halting i b VHaltUnl
  | HJoin b => halting i b VJoin
  | HDone => VGone
  | _ => VNormal
  end.
Definition free_ok (w : wpc) (x : pstate) : bool :=
  match w, x with WWaiting, SLEEP | WWoken, SLEEP | WWoken, EXECUTE => true | _, _ => false end.
Definition wokb (v : view) (w : wpc) (x : pstate) (m : option owner) : bool :=
  match v with
  | VNotYet => match w, m with WNew, None => true | _, _ => false end
  | VSpin => match m, w, x with
             | None, WLock, ACK | Some ByWorker, WSwitch, ACK | Some ByWorker, WSetSleep, ACK | Some ByWorker, WWait, SLEEP
             | None, WWaiting, SLEEP | None, WWoken, SLEEP | Some ByWorker, WSwitch, SLEEP | Some ByWorker, WSetSleep, SLEEP => true
             | _, _, _ => false end
  | VNormal => match m with
               | Some ByWorker => match w, x with
                                  | WSwitch, SLEEP | WSwitch, EXECUTE | WRun, EXECUTE | WFlag, EXECUTE
                                  | WSetSleep, SLEEP | WSetSleep, EXECUTE | WWait, SLEEP => true
                                  | _, _ => false end
               | None => free_ok w x
               | _ => false end
  | VHold | VHaltHold => match m with Some ByHost => free_ok w x | _ => false end
  | VSig => match m, w, x with Some ByHost, WWaiting, EXECUTE | Some ByHost, WWoken, EXECUTE => true | _, _, _ => false end
  | VUnl => match m, w, x with Some ByHost, WWoken, EXECUTE => true | _, _, _ => false end
  | VHaltSig => match m, w, x with Some ByHost, WWaiting, TERMINATE | Some ByHost, WWoken, TERMINATE => true | _, _, _ => false end
  | VHaltUnl => match m, w, x with Some ByHost, WWoken, TERMINATE => true | _, _, _ => false end
  | VJoin => match m, w, x with None, WWoken, TERMINATE | Some ByWorker, WSwitch, TERMINATE | None, WDead, TERMINATE => true | _, _, _ => false end
  | VGone => match m, w, x with None, WDead, TERMINATE => true | _, _, _ => false end
  end.
Definition wok (s : tstate) (i : Z) : Prop := wokb (view_of (hp s) i) (wp s i) (st s i) (mtx s i) = true.
Definition holding (w : wpc) (x : pstate) : bool :=
  match x with EXECUTE => match w with WWaiting | WWoken | WSwitch | WRun | WFlag => true | _ => false end | _ => false end.

Lemma set_same {A} (f : Z -> A) i x : set f i x i = x.
Proof. unfold set. rewrite Z.eqb_refl. reflexivity. Qed.
Lemma set_other {A} (f : Z -> A) i x k : k <> i -> set f i x k = f k.
Proof. intros H. unfold set. destruct (Z.eqb_spec k i); [contradiction|reflexivity]. Qed.

Ltac proj := cbn [set_hp set_next set_busy set_calls set_disp set_wp set_st set_tk set_mtx set_dn emit hp next_id busy calls disp wp st tk mtx dn log].

Lemma wok_wstep i s s' : wok s i -> wstep i s s' -> wok s' i /\ hp s' = hp s /\ next_id s' = next_id s /\ busy s' = busy s /\ calls s' = calls s /\ disp s' = disp s /\ tk s' = tk s /\
  (forall k, k <> i -> wp s' k = wp s k /\ st s' k = st s k /\ mtx s' k = mtx s k).
Proof.
  intros W T. unfold wok in *. destruct T as [E M|E X|E X|E X|E|E|E|E|E|E M]; proj; (split; [|repeat split; try (rewrite set_other by assumption; reflexivity)]);
    rewrite ?set_same; rewrite ?E, ?M, ?X in W; try (destruct X as [X|X]; rewrite X in *);
    destruct (view_of (hp s) i); try (destruct (st s i)); try (destruct (mtx s i) as [[|]|]); cbn in *; congruence.
Qed.

Definition hrange (n W : Z) (s : tstate) : Prop :=
  match hp s with
  | HBoot i => 0 <= i <= W /\ busy s = false
  | HBootSpin i => 0 <= i < W /\ busy s = false
  | HReady => True
  | HLoop _ _ id => 0 <= id <= W /\ busy s = true
  | HTry _ _ id => 0 <= id < W /\ busy s = true
  | HHold _ _ id wid | HSig _ _ id wid | HUnl _ _ id wid => 0 <= id < W /\ 0 <= wid < W /\ busy s = true
  | HHost id | HHostDone id => id = W /\ W < n /\ busy s = true
  | HWait id => 0 <= id <= n /\ busy s = true
  | HHalt id => 0 <= id <= W /\ busy s = false
  | HHaltHold id | HHaltSig id | HHaltUnl id | HJoin id => 0 <= id < W /\ busy s = false
  | HDone => busy s = false
  | HError | HUB => False
  end.
Record ctl (n D : Z) (s : tstate) : Prop := {
  c_range : hrange n (n - D) s;
  c_next : 0 <= next_id s /\ (next_id s < n - D \/ next_id s = 0);
  c_wok : forall i, 0 <= i < n - D -> wok s i }.
Definition broken (s : tstate) : Prop := hp s = HError \/ hp s = HUB.

Lemma ctl_boot n D prog : n - D >= 0 -> ctl n D (boot_state prog).
Proof.
  intros H. constructor; cbn [boot_state hp next_id].
  - unfold hrange. cbn. lia.
  - lia.
  - intros i Hi. unfold wok. cbn [boot_state hp wp st mtx view_of]. replace (i <? 0) with false by lia. reflexivity.
Qed.
Lemma wok_same s s' i : view_of (hp s') i = view_of (hp s) i -> wp s' i = wp s i -> st s' i = st s i -> mtx s' i = mtx s i -> wok s i -> wok s' i.
Proof. unfold wok. intros -> -> -> ->. trivial. Qed.
Ltac views := unfold view_of, one, halting in *; repeat match goal with
  | |- context [?a =? ?b] => destruct (Z.eqb_spec a b); try lia
  | |- context [?a <? ?b] => destruct (Z.ltb_spec a b); try lia
  end.
(* all but one index are as before, and the one is checked *)
Lemma wok_but n D s s' i0 : (forall i, 0 <= i < n - D -> wok s i) ->
  (forall i, 0 <= i < n - D -> i <> i0 -> view_of (hp s') i = view_of (hp s) i /\ wp s' i = wp s i /\ st s' i = st s i /\ mtx s' i = mtx s i) ->
  (0 <= i0 < n - D -> wok s' i0) -> forall i, 0 <= i < n - D -> wok s' i.
Proof.
  intros W O C i Hi. destruct (Z.eq_dec i i0) as [->|N]; [apply C, Hi|]. destruct (O i Hi N) as (A & B & C' & D'). apply (wok_same s); auto.
Qed.
Lemma signal_proj s i : hp (signal s i) = hp s /\ next_id (signal s i) = next_id s /\ busy (signal s i) = busy s /\ calls (signal s i) = calls s /\ disp (signal s i) = disp s /\
  st (signal s i) = st s /\ tk (signal s i) = tk s /\ mtx (signal s i) = mtx s /\ dn (signal s i) = dn s /\ log (signal s i) = log s /\
  (forall k, k <> i -> wp (signal s i) k = wp s k) /\ wp (signal s i) i = match wp s i with WWaiting => WWoken | w => w end.
Proof.
  unfold signal. destruct (wp s i) eqn:E; proj; repeat split; rewrite ?set_same; try assumption; try reflexivity; intros k Nk; apply set_other, Nk.
Qed.
Ltac wsolve s i := destruct (wp s i); destruct (st s i); destruct (mtx s i) as [[|]|]; cbn in *; congruence.

Lemma ctl_host n D s s' : D = 0 \/ D = 1 -> 1 <= n <= MAX_PIPELINE -> ctl n D s -> hstep n D s s' -> broken s' \/ ctl n D s'.
Proof.
  unfold MAX_PIPELINE. intros HD Hn [R Nx W] T. unfold hrange in R.
  assert (Keep : forall s', hp s' = hp s -> wp s' = wp s -> st s' = st s -> mtx s' = mtx s -> forall i, 0 <= i < n - D -> wok s' i).
  { intros s0 A B C E i Hi. apply (wok_same s); [rewrite A|rewrite B|rewrite C|rewrite E|apply W, Hi]; reflexivity. }
  assert (Views : forall s', (forall i, 0 <= i < n - D -> view_of (hp s') i = view_of (hp s) i) -> wp s' = wp s -> st s' = st s -> mtx s' = mtx s -> forall i, 0 <= i < n - D -> wok s' i).
  { intros s0 A B C E i Hi. apply (wok_same s); [apply A, Hi|rewrite B|rewrite C|rewrite E|apply W, Hi]; reflexivity. }
  destruct T as [i E L1 L2|i E L1 L2|i E X|i E L|sz str cs E C B|sz str cs E C B|sz str id E L1 L2|sz str id E L1 L2 O|sz str id E L1 DN L2 O|sz str id E L1 DN|id E|id E
    |sz str id E M|sz str id E M|sz str id wid E X|sz str id wid E X|sz str id wid E X|sz str id wid E|sz str id wid E|cs E C|cs E C B|cs E C B|id E L X|id E L|cs E C B|cs E C B
    |id E L M|id E|id E|id E|id E X|id E L M|id i E L Hi M|c cs E C Nc]; rewrite E in R;
    try (left; unfold broken; proj; tauto); right; constructor; unfold hrange; proj; rewrite ?E; try (lia || tauto || exact Nx || solve [destruct R; repeat split; (assumption || lia)] || solve [destruct R as (? & ? & ?); repeat split; (assumption || lia)]);
    try (apply Views; [intros j Hj; proj; rewrite E; views; reflexivity|reflexivity|reflexivity|reflexivity]).
  - apply (wok_but n D s _ i W); proj; rewrite ?E; [|intros Hi; unfold wok; proj; rewrite !set_same; views; reflexivity].
    intros j Hj Nj. rewrite !set_other by exact Nj. repeat split. views; reflexivity.
  - apply (wok_but n D s _ i W); proj; rewrite ?E; [intros j Hj Nj; repeat split; views; reflexivity|]. intros Hi. specialize (W i Hi). unfold wok in *. proj. rewrite E in W. rewrite X in *.
    revert W. views. wsolve s i.
  - destruct (n - D <=? next_id s + 1) eqn:Q; lia.
  - destruct (n - D <=? next_id s + 1) eqn:Q; lia.
  - apply (wok_but n D s _ (next_id s) W); proj; rewrite ?E; [intros j Hj Nj; rewrite !set_other by exact Nj; repeat split; views; reflexivity|].
    intros Hi. specialize (W _ Hi). unfold wok in *. proj. rewrite set_same. rewrite E in W. rewrite M in W. revert W. views. wsolve s (next_id s).
  - apply (wok_but n D s _ wid W); proj; rewrite ?E; [intros j Hj Nj; rewrite !set_other by exact Nj; repeat split; views; reflexivity|].
    intros Hi. specialize (W _ Hi). unfold wok in *. proj. rewrite set_same. rewrite E in W. rewrite X in W. revert W. views. destruct (wp s wid); destruct (mtx s wid) as [[|]|]; cbn; congruence.
  - apply (wok_but n D s _ wid W); proj; rewrite ?E; [intros j Hj Nj; rewrite !set_other by exact Nj; repeat split; views; reflexivity|].
    intros Hi. specialize (W _ Hi). unfold wok in *. proj. rewrite set_same. rewrite E in W. revert W. views. wsolve s wid.
  - destruct (signal_proj s wid) as (_ & _ & P3 & _). rewrite P3. lia || tauto.
  - destruct (signal_proj s wid) as (_ & P2 & _). rewrite P2. exact Nx.
  - destruct (signal_proj s wid) as (P1 & P2 & P3 & P4 & P5 & P6 & P7 & P8 & P9 & P10 & P11 & P12).
    apply (wok_but n D s _ wid W); proj; rewrite ?E; [intros j Hj Nj; rewrite P6, P8, P11 by exact Nj; repeat split; views; reflexivity|].
    intros Hi. specialize (W _ Hi). unfold wok in *. proj. rewrite P6, P8, P12. rewrite E in W. revert W. views. wsolve s wid.
  - apply (wok_but n D s _ wid W); proj; rewrite ?E; [intros j Hj Nj; rewrite !set_other by exact Nj; repeat split; views; reflexivity|].
    intros Hi. specialize (W _ Hi). unfold wok in *. proj. rewrite set_same. rewrite E in W. revert W. views. wsolve s wid.
  - apply (wok_but n D s _ id W); proj; rewrite ?E; [intros j Hj Nj; rewrite !set_other by exact Nj; repeat split; views; reflexivity|].
    intros Hi. specialize (W _ Hi). unfold wok in *. proj. rewrite set_same. rewrite E in W. rewrite M in W. revert W. views. wsolve s id.
  - apply (wok_but n D s _ id W); proj; rewrite ?E; [intros j Hj Nj; rewrite !set_other by exact Nj; repeat split; views; reflexivity|].
    intros Hi. specialize (W _ Hi). unfold wok in *. proj. rewrite set_same. rewrite E in W. revert W. views. wsolve s id.
  - destruct (signal_proj s id) as (_ & _ & P3 & _). rewrite P3. lia || tauto.
  - destruct (signal_proj s id) as (_ & P2 & _). rewrite P2. exact Nx.
  - destruct (signal_proj s id) as (P1 & P2 & P3 & P4 & P5 & P6 & P7 & P8 & P9 & P10 & P11 & P12).
    apply (wok_but n D s _ id W); proj; rewrite ?E; [intros j Hj Nj; rewrite P6, P8, P11 by exact Nj; repeat split; views; reflexivity|].
    intros Hi. specialize (W _ Hi). unfold wok in *. proj. rewrite P6, P8, P12. rewrite E in W. revert W. views. wsolve s id.
  - apply (wok_but n D s _ id W); proj; rewrite ?E; [intros j Hj Nj; rewrite !set_other by exact Nj; repeat split; views; reflexivity|].
    intros Hi. specialize (W _ Hi). unfold wok in *. proj. rewrite set_same. rewrite E in W. revert W. views. wsolve s id.
  - apply (wok_but n D s _ id W); proj; rewrite ?E; [intros j Hj Nj; repeat split; views; reflexivity|]. intros Hi. specialize (W id Hi). unfold wok in *. proj. rewrite E in W. rewrite X in *.
    revert W. views. destruct (st s id); destruct (mtx s id) as [[|]|]; cbn in *; congruence.
Qed.
