(* Every job of a dispatch is in one place. *)
From Coq Require Import ZArith List Bool Lia ZifyBool.
From Verif Require Import ThreadModel ThreadSpec ThreadProofs.
Import ListNotations.
Open Scope Z_scope.
Ltac Zify.zify_post_hook ::= idtac.

Inductive jstat : Type := JNone | JHeld (i : Z) | JHost | JDone.
(* number of jobs handed out, by the host's position *)
Definition handed (n : Z) (h : hpc) : Z :=
  match h with
  | HLoop _ _ id | HTry _ _ id | HHold _ _ id _ => id
  | HSig _ _ id _ | HUnl _ _ id _ => id + 1
  | HHost id | HHostDone id => id + 1
  | _ => n
  end.
Definition ev_of (d : nat) (j off : Z) (w : wpc) : list event :=
  match w with WRun => [EvStart d j off] | WFlag => [EvStart d j off; EvFinish d j] | _ => [] end.
Definition params (h : hpc) (sz str : Z) : Prop :=
  match h with HLoop a b _ | HTry a b _ | HHold a b _ _ | HSig a b _ _ | HUnl a b _ _ => a = sz /\ b = str | _ => True end.
Record jobs (n D : Z) (s : tstate) (e : nat) (m : list event) (sz str : Z) (js : Z -> jstat) : Prop := {
  j_held : forall j i, 0 <= j < n -> js j = JHeld i ->
    0 <= i < n - D /\ holding (wp s i) (st s i) = true /\ tk s i = mk_task e j (j * sz * str) /\
    filter (of_job j) m = ev_of e j (j * sz * str) (wp s i) /\ dn s j = false;
  j_none : forall j, 0 <= j < n -> js j = JNone -> filter (of_job j) m = [];
  j_done : forall j, 0 <= j < n -> js j = JDone -> filter (of_job j) m = [EvStart e j (j * sz * str); EvFinish e j] /\ dn s j = true;
  j_host : forall j, 0 <= j < n -> js j = JHost -> dn s j = false /\ j = n - D /\
    ((hp s = HHost j /\ filter (of_job j) m = [EvStart e j (j * sz * str)]) \/ (hp s = HHostDone j /\ filter (of_job j) m = [EvStart e j (j * sz * str); EvFinish e j]));
  j_inv : forall i, 0 <= i < n - D -> holding (wp s i) (st s i) = true -> 0 <= t_job (tk s i) < n /\ js (t_job (tk s i)) = JHeld i;
  j_num : forall j, 0 <= j < n -> (js j = JNone <-> handed n (hp s) <= j);
  j_out : forall j, ~ 0 <= j < n -> filter (of_job j) m = [];
  j_wait : forall id j, hp s = HWait id -> 0 <= j < id -> js j = JDone;
  j_try : forall sz str id, hp s = HTry sz str id \/ (exists wid, hp s = HHold sz str id wid) -> dn s id = false;
  j_hostid : forall id, hp s = HHost id \/ hp s = HHostDone id -> js id = JHost;
  j_par : params (hp s) sz str;
  j_ev : forall x, In x m -> x = EvStrag \/ exists j, of_job j x = true }.

(* the log, by whether a dispatch is under way *)
Inductive logged (n D : Z) (s : tstate) : Prop :=
| l_idle : busy s = false -> complete n (disp s) (log s) -> (forall i, 0 <= i < n - D -> holding (wp s i) (st s i) = false) -> logged n D s
| l_busy : forall e l m sz str js, busy s = true -> disp s = S e -> log s = l ++ EvDispatch e sz str :: m -> complete n e l -> jobs n D s e m sz str js -> logged n D s.

Lemma filter_snoc {A} (p : A -> bool) l x : filter p (l ++ [x]) = filter p l ++ (if p x then [x] else []).
Proof. rewrite filter_app. reflexivity. Qed.

(* a change that does not touch the jobs *)
Lemma jobs_same n D s s' e m sz str js : jobs n D s e m sz str js ->
  (forall i, 0 <= i < n - D -> holding (wp s' i) (st s' i) = holding (wp s i) (st s i) /\
     (holding (wp s i) (st s i) = true -> tk s' i = tk s i /\ ev_of e (t_job (tk s i)) (t_job (tk s i) * sz * str) (wp s' i) = ev_of e (t_job (tk s i)) (t_job (tk s i) * sz * str) (wp s i))) ->
  (forall j, 0 <= j < n -> js j <> JNone -> dn s' j = dn s j) ->
  (forall j, 0 <= j < n -> handed n (hp s') <= j <-> handed n (hp s) <= j) ->
  (forall id, hp s' = HHost id <-> hp s = HHost id) -> (forall id, hp s' = HHostDone id <-> hp s = HHostDone id) ->
  (forall id j, hp s' = HWait id -> 0 <= j < id -> js j = JDone) ->
  (forall sz str id, hp s' = HTry sz str id \/ (exists wid, hp s' = HHold sz str id wid) -> dn s' id = false) ->
  params (hp s') sz str -> jobs n D s' e m sz str js.
Proof.
  intros [J1 J2 J3 J4 J5 J6 J7 J8 J9 J9' J10 J11] HW HD HN H1 H2 HJ HT HP. constructor; auto.
  - intros j i Hj E. destruct (J1 j i Hj E) as (A & B & C & F & G). destruct (HW i A) as [W1 W2]. destruct (W2 B) as [W3 W4].
    split; [exact A|]. split; [congruence|]. split; [congruence|]. split; [|rewrite HD; [exact G|exact Hj|rewrite E; discriminate]].
    rewrite F. rewrite C in W4. cbn [t_job] in W4. congruence.
  - intros j Hj E. destruct (J3 j Hj E) as [A B]. split; [exact A|]. rewrite HD; [exact B|exact Hj|rewrite E; discriminate].
  - intros j Hj E. destruct (J4 j Hj E) as (A & A2 & B). split; [rewrite HD; [exact A|exact Hj|rewrite E; discriminate]|]. split; [exact A2|]. rewrite H1, H2. exact B.
  - intros i Hi Hh. destruct (HW i Hi) as [W1 W2]. rewrite W1 in Hh. destruct (W2 Hh) as [W3 _]. rewrite W3. apply J5; assumption.
  - intros j Hj. rewrite HN by exact Hj. apply J6, Hj.
  - intros id. rewrite H1, H2. apply J9'.
Qed.

(* ---------- steps of the workers ---------- *)
Lemma logged_wstep n D i s s' : 0 <= i < n - D -> wok s i -> logged n D s -> wstep i s s' -> logged n D s'.
Proof.
  intros Hi W L T. unfold wok in W.
  destruct L as [B C H|e l m sz str js B Ed El Cl J].
  - (* idle: the worker holds no job *)
    pose proof (H i Hi) as Hh.
    destruct T as [E M|E X|E X|E X|E|E|E|E|E|E M]; rewrite ?E in Hh;
      try (rewrite X in Hh; discriminate);
      try (apply l_idle; proj; [exact B|exact C|]; intros k Hk; destruct (Z.eq_dec k i) as [->|N]; rewrite ?set_same, ?(set_other _ _ _ _ N); [|apply H, Hk]; rewrite ?E in *).
    + destruct (st s i); destruct (mtx s i) as [[|]|]; destruct (view_of (hp s) i); cbn in *; congruence.
    + rewrite X. reflexivity.
    + destruct X as [X|X]; rewrite X; reflexivity.
    + exfalso. rewrite E in W. destruct (st s i); destruct (mtx s i) as [[|]|]; destruct (view_of (hp s) i); cbn in *; congruence.
    + destruct (st s i); reflexivity.
    + reflexivity.
    + destruct (st s i); destruct (mtx s i) as [[|]|]; destruct (view_of (hp s) i); cbn in *; congruence.
    + destruct (st s i); destruct (mtx s i) as [[|]|]; destruct (view_of (hp s) i); cbn in *; congruence.
    + destruct (st s i); destruct (mtx s i) as [[|]|]; destruct (view_of (hp s) i); cbn in *; congruence.
  - (* a worker's own move leaves the host and the other workers alone *)
    assert (Quiet : forall s', hp s' = hp s -> busy s' = busy s -> disp s' = disp s -> tk s' = tk s -> dn s' = dn s -> log s' = log s ->
       (forall k, k <> i -> wp s' k = wp s k /\ st s' k = st s k) -> holding (wp s' i) (st s' i) = holding (wp s i) (st s i) ->
       (holding (wp s i) (st s i) = true -> forall j o, ev_of e j o (wp s' i) = ev_of e j o (wp s i)) -> logged n D s').
    { intros s0 A1 A2 A3 A4 A5 A6 A7 A8 A9. apply (l_busy n D s0 e l m sz str js); try congruence. pose proof J as [J1 J2 J3 J4 J5 J6 J7 J8 J9 J9' J10 J11].
      apply (jobs_same n D s); try rewrite A1; try rewrite A5; try tauto; try assumption.
      intros k Hk. rewrite A4. destruct (Z.eq_dec k i) as [->|N]; [split; [exact A8|intros Hh; split; [reflexivity|apply A9, Hh]]|].
      destruct (A7 k N) as [-> ->]. split; [reflexivity|]. intros _. split; reflexivity. }
    assert (Busy : forall w', wp s i = WSwitch /\ w' = WRun \/ wp s i = WRun /\ w' = WFlag -> st s i = EXECUTE ->
       let j := t_job (tk s i) in
       logged n D (emit (set_wp s i w') (match w' with WRun => EvStart (t_disp (tk s i)) j (t_off (tk s i)) | _ => EvFinish (t_disp (tk s i)) j end))).
    { intros w' Hw X j. pose proof J as [J1 J2 J3 J4 J5 J6 J7 J8 J9 J9' J10 J11].
      assert (Hh : holding (wp s i) (st s i) = true) by (rewrite X; destruct Hw as [[-> _]|[-> _]]; reflexivity).
      destruct (J5 i Hi Hh) as [Hj Ej]. fold j in Hj, Ej. destruct (J1 j i Hj Ej) as (_ & _ & Et & Ef & Edn).
      set (ev := match w' with WRun => _ | _ => _ end).
      assert (Oj : forall k, of_job k ev = (k =? j)) by (intros k; subst ev; destruct Hw as [[_ ->]|[_ ->]]; reflexivity).
      assert (Fo : forall k, k <> j -> filter (of_job k) (m ++ [ev]) = filter (of_job k) m).
      { intros k Nk. rewrite filter_snoc, Oj. replace (k =? j) with false by lia. apply app_nil_r. }
      assert (Fj : filter (of_job j) (m ++ [ev]) = ev_of e j (j * sz * str) w').
      { rewrite filter_snoc, Oj, Z.eqb_refl, Ef. subst ev. rewrite Et. destruct Hw as [[-> ->]|[-> ->]]; reflexivity. }
      assert (Ho : holding w' EXECUTE = true) by (destruct Hw as [[_ ->]|[_ ->]]; reflexivity).
      apply (l_busy n D _ e l (m ++ [ev]) sz str js); proj; [exact B|exact Ed|rewrite El, <- app_assoc; reflexivity|exact Cl|].
      constructor; proj; try assumption.
      - intros k a Hk Ek. destruct (J1 k a Hk Ek) as (A1 & A2 & A3 & A4 & A5). destruct (Z.eq_dec a i) as [->|Na].
        + rewrite set_same. assert (k = j) by (unfold j; rewrite A3; reflexivity). subst k. rewrite X. repeat split; try assumption; lia.
        + rewrite set_other by exact Na. assert (k <> j) by (intros ->; congruence). rewrite Fo by assumption. repeat split; try assumption; lia.
      - intros k Hk Ek. rewrite Fo by (intros ->; congruence). apply J2; assumption.
      - intros k Hk Ek. rewrite Fo by (intros ->; congruence). apply J3; assumption.
      - intros k Hk Ek. rewrite Fo by (intros ->; congruence). apply J4; assumption.
      - intros a Ha. destruct (Z.eq_dec a i) as [->|Na]; [rewrite set_same|rewrite set_other by exact Na; apply J5, Ha]. intros _. split; assumption.
      - intros k Hk. rewrite Fo by (intros ->; contradiction). apply J7, Hk.
      - intros x Ix. apply in_app_or in Ix. destruct Ix as [Ix|[<-|[]]]; [apply J11, Ix|right]. exists j. rewrite Oj. apply Z.eqb_refl. }
    destruct T as [E M|E X|E X|E X|E|E|E|E|E|E M]; rewrite ?E in W;
      try (apply Quiet; proj; try reflexivity; [intros k Nk; rewrite ?(set_other _ _ _ _ Nk); split; reflexivity|rewrite ?set_same, ?E|rewrite ?set_same, ?E; try (intros _; reflexivity)]).
    + destruct (st s i); destruct (mtx s i) as [[|]|]; destruct (view_of (hp s) i); cbn in *; congruence.
    + rewrite X. reflexivity.
    + apply (Busy WRun); [left; split; [exact E|reflexivity]|exact X].
    + destruct X as [X|X]; rewrite X; reflexivity.
    + apply (Busy WFlag); [right; split; [exact E|reflexivity]|]. destruct (st s i); destruct (mtx s i) as [[|]|]; destruct (view_of (hp s) i); cbn in *; congruence.
    + (* the flag *)
      pose proof J as [J1 J2 J3 J4 J5 J6 J7 J8 J9 J9' J10 J11]. set (j := t_job (tk s i)).
      assert (X : st s i = EXECUTE) by (destruct (st s i); destruct (mtx s i) as [[|]|]; destruct (view_of (hp s) i); cbn in *; congruence).
      assert (Hh : holding (wp s i) (st s i) = true) by (rewrite X, E; reflexivity).
      destruct (J5 i Hi Hh) as [Hj Ej]. fold j in Hj, Ej. destruct (J1 j i Hj Ej) as (_ & _ & Et & Ef & Edn). rewrite E in Ef. cbn [ev_of] in Ef.
      apply (l_busy n D _ e l m sz str (set js j JDone)); proj; try assumption.
      constructor; proj; try assumption.
      * intros k a Hk. unfold set at 1. destruct (Z.eqb_spec k j) as [->|Nk]; [discriminate|]. intros Ek. destruct (J1 k a Hk Ek) as (A1 & A2 & A3 & A4 & A5).
        assert (a <> i) by (intros ->; apply Nk; unfold j; rewrite A3; reflexivity). rewrite !set_other by assumption. repeat split; try assumption; lia.
      * intros k Hk. unfold set at 1. destruct (Z.eqb_spec k j) as [->|Nk]; [discriminate|apply J2, Hk].
      * intros k Hk. unfold set at 1. destruct (Z.eqb_spec k j) as [->|Nk]; [rewrite set_same; intros _; split; [exact Ef|reflexivity]|]. rewrite set_other by exact Nk. apply J3, Hk.
      * intros k Hk. unfold set at 1. destruct (Z.eqb_spec k j) as [->|Nk]; [discriminate|]. rewrite set_other by exact Nk. apply J4, Hk.
      * intros a Ha. destruct (Z.eq_dec a i) as [->|Na]; [rewrite set_same, X; discriminate|]. rewrite (set_other (wp s)) by exact Na. intros Hh'. destruct (J5 a Ha Hh') as [A1 A2]. split; [exact A1|].
        rewrite set_other; [exact A2|]. intros Eq. rewrite Eq in A2. congruence.
      * intros k Hk. unfold set. destruct (Z.eqb_spec k j) as [->|Nk]; [|apply J6, Hk]. split; [discriminate|]. intros Hle. apply J6 in Hle; [congruence|exact Hj].
      * intros id k Ew Hk. unfold set. destruct (k =? j); [reflexivity|]. eapply J8; eassumption.
      * intros sz' str' id Hh'. unfold set. destruct (Z.eqb_spec id j) as [->|Nk]; [|eapply J9, Hh'].
        exfalso. assert (handed n (hp s) <= j) by (destruct Hh' as [->|[wid ->]]; cbn [handed]; lia). apply J6 in H; [congruence|exact Hj].
      * intros id Hid. rewrite set_other; [apply J9', Hid|]. intros ->. specialize (J9' j Hid). congruence.
    + destruct (st s i); reflexivity.
    + destruct (st s i); destruct (mtx s i) as [[|]|]; destruct (view_of (hp s) i); cbn in *; congruence.
    + destruct (st s i); reflexivity.
    + destruct (st s i); reflexivity.
Qed.

(* ---------- steps of the host ---------- *)
Lemma holding_wake x : holding WWoken x = holding WWaiting x.
Proof. destruct x; reflexivity. Qed.
Lemma signal_holding s i k : holding (wp (signal s i) k) (st (signal s i) k) = holding (wp s k) (st s k) /\ forall e j o, ev_of e j o (wp (signal s i) k) = ev_of e j o (wp s k).
Proof.
  destruct (signal_proj s i) as (_ & _ & _ & _ & _ & P6 & _ & _ & _ & _ & P11 & P12). rewrite P6. destruct (Z.eq_dec k i) as [->|N].
  - rewrite P12. destruct (wp s i); split; reflexivity.
  - rewrite P11 by exact N. split; reflexivity.
Qed.
Ltac sg E Stay := try tauto; rewrite ?E; cbn [handed params]; try (apply Stay; reflexivity); try (intros; discriminate); try (intros; split; discriminate);
  try (intros; tauto); try (intros; lia); try (intros ? ? ? [F|[? F]]; discriminate); try (intros ? _; right; reflexivity).
Lemma logged_hstep n D s s' : D = 0 \/ D = 1 -> 1 <= n <= MAX_PIPELINE -> ctl n D s -> logged n D s -> hstep n D s s' -> broken s' \/ logged n D s'.
Proof.
  unfold MAX_PIPELINE. intros HD Hn [R Nx W] L T. unfold hrange in R.
  (* while idle *)
  assert (Idle : busy s = false -> forall s', busy s' = false -> disp s' = disp s -> (log s' = log s \/ log s' = log s ++ [EvStrag] \/ log s' = log s ++ [EvHalted]) ->
     (forall i, 0 <= i < n - D -> holding (wp s i) (st s i) = false -> holding (wp s' i) (st s' i) = false) -> logged n D s').
  { intros B s0 B0 D0 L0 H0. destruct L as [_ C H|e l m sz str js B1]; [|congruence]. apply l_idle; [exact B0| |].
    - rewrite D0. destruct L0 as [-> | [-> | ->]]; [exact C|apply c_strag, C|apply c_halt, C].
    - intros i Hi. apply H0, H; exact Hi. }
  (* while busy, without touching the jobs *)
  assert (Same : busy s = true -> forall s', busy s' = true -> disp s' = disp s -> log s' = log s -> 
     (forall i, 0 <= i < n - D -> holding (wp s' i) (st s' i) = holding (wp s i) (st s i) /\ tk s' i = tk s i /\ forall e j o, ev_of e j o (wp s' i) = ev_of e j o (wp s i)) ->
     (forall j, 0 <= j < n -> handed n (hp s) <= j \/ dn s' j = dn s j) ->
     (forall j, 0 <= j < n -> handed n (hp s') <= j <-> handed n (hp s) <= j) ->
     (forall id, hp s' <> HHost id /\ hp s <> HHost id) -> (forall id, hp s' <> HHostDone id /\ hp s <> HHostDone id) ->
     (forall id, hp s' = HWait id -> id = 0 \/ (hp s = HWait (id - 1) /\ dn s (id - 1) = true /\ id <= n)) ->
     (forall sz str id, hp s' = HTry sz str id \/ (exists wid, hp s' = HHold sz str id wid) -> dn s' id = false \/ (dn s' = dn s /\ (hp s = HTry sz str id \/ (exists wid, hp s = HHold sz str id wid)))) ->
     (forall sz str, params (hp s) sz str -> params (hp s') sz str) -> logged n D s').
  { intros B s0 B0 D0 L0 A1 A2 A3 A4 A5 A6 A7 A8. destruct L as [B1 _ _|e l m sz str js _ Ed El Cl J]; [congruence|].
    apply (l_busy n D s0 e l m sz str js); try congruence. pose proof J as [J1 J2 J3 J4 J5 J6 J7 J8 J9 J9' J10 J11].
    apply (jobs_same n D s); try assumption.
    - intros i Hi. destruct (A1 i Hi) as (X1 & X2 & X3). split; [exact X1|]. intros _. split; [exact X2|apply X3].
    - intros j Hj Nj. destruct (A2 j Hj) as [Hk|Hk]; [|exact Hk]. apply J6 in Hk; [contradiction|exact Hj].
    - intros id. specialize (A4 id). tauto.
    - intros id. specialize (A5 id). tauto.
    - intros id j Eh Hj. destruct (A6 id Eh) as [->|(E1 & E2 & E3)]; [lia|]. destruct (Z.eq_dec j (id - 1)) as [->|Nj]; [|eapply J8; [exact E1|lia]].
      assert (Hj' : 0 <= id - 1 < n) by lia. destruct (js (id - 1)) as [|i| |] eqn:Ej; [|  | |reflexivity].
      + apply J6 in Ej; [|exact Hj']. rewrite E1 in Ej. cbn [handed] in Ej. lia.
      + destruct (J1 _ _ Hj' Ej) as (_ & _ & _ & _ & F). congruence.
      + destruct (J4 _ Hj' Ej) as (F & _). congruence.
    - intros sz' str' id Hh. destruct (A7 _ _ _ Hh) as [F|[F1 F2]]; [exact F|]. rewrite F1. eapply J9, F2.
    - apply A8. exact J10. }
  assert (Stay : forall s0, wp s0 = wp s -> st s0 = st s -> tk s0 = tk s -> forall i, 0 <= i < n - D -> holding (wp s0 i) (st s0 i) = holding (wp s i) (st s i) /\ tk s0 i = tk s i /\ forall e j o, ev_of e j o (wp s0 i) = ev_of e j o (wp s i)).
  { intros s0 -> -> -> i _. repeat split. }
  destruct T as [i E L1 L2|i E L1 L2|i E X|i E L0|sz str cs E C B|sz str cs E C B|sz str id E L1 L2|sz str id E L1 L2 O|sz str id E L1 DN L2 O|sz str id E L1 DN|id E|id E
    |sz str id E M|sz str id E M|sz str id wid E X|sz str id wid E X|sz str id wid E X|sz str id wid E|sz str id wid E|cs E C|cs E C B|cs E C B|id E L0 X|id E L0|cs E C B|cs E C B
    |id E L0 M|id E|id E|id E|id E X|id E L0 M|id i E L0 Hi M|c cs E C Nc]; rewrite E in R;
    try (left; unfold broken; proj; tauto); right.
  - apply (Idle (proj2 R)); proj; try tauto. intros k Hk Hh. unfold set. destruct (Z.eqb_spec k i); [reflexivity|exact Hh].
  - apply (Idle (proj2 R)); proj; tauto.
  - apply (Idle (proj2 R)); proj; tauto.
  - (* dispatch *)
    destruct L as [_ Cl H|e l m sz' str' js B1]; [|congruence].
    apply (l_busy n D _ (disp s) (log s) [] sz str (fun _ => JNone)); proj; try reflexivity; [exact Cl|]. constructor; proj; try reflexivity; try discriminate; try (intros; discriminate).
    + intros i Hi Hh. rewrite H in Hh by exact Hi. discriminate.
    + intros j Hj. cbn [handed]. split; [lia|reflexivity].
    + intros sz' str' id [F|[wid F]]; discriminate.
    + intros id [F|F]; discriminate.
    + cbn [params]. split; reflexivity.
    + intros x [].
  - (* next job of the loop *)
    apply (Same (proj2 R)); proj; sg E Stay.
    + intros j Hj. unfold set. destruct (Z.eqb_spec j id) as [->|]; [left; lia|right; reflexivity].
    + intros sz' str' id' [F|[wid F]]; [|discriminate]. injection F as <- <- <-. rewrite set_same. left. reflexivity.
  - (* the host's own job *)
    destruct L as [B1 _ _|e l m sz' str' js _ Ed El Cl J]; [destruct R; congruence|]. pose proof J as [J1 J2 J3 J4 J5 J6 J7 J8 J9 J9' J10 J11].
    rewrite E in J6, J10. cbn [handed params] in J6, J10. destruct J10 as [<- <-]. assert (Id : 0 <= id < n /\ id = n - D) by lia. destruct Id as [Hid Ei].
    assert (Nid : js id = JNone) by (apply J6; lia). rewrite Ed. cbn [Nat.pred]. set (ev := EvStart e id (id * sz * str)).
    assert (Fo : forall k, k <> id -> filter (of_job k) (m ++ [ev]) = filter (of_job k) m).
    { intros k Nk. rewrite filter_snoc. cbn [of_job ev]. replace (k =? id) with false by lia. apply app_nil_r. }
    apply (l_busy n D _ e l (m ++ [ev]) sz str (set js id JHost)); proj; [apply R|exact Ed|rewrite El, <- app_assoc; reflexivity|exact Cl|].
    constructor; proj.
    + intros k a Hk. unfold set at 1. destruct (Z.eqb_spec k id) as [->|Nk]; [discriminate|]. intros Ek. rewrite Fo, set_other by exact Nk. apply J1; assumption.
    + intros k Hk. unfold set. destruct (Z.eqb_spec k id) as [->|Nk]; [discriminate|]. rewrite Fo by exact Nk. apply J2, Hk.
    + intros k Hk. unfold set at 1. destruct (Z.eqb_spec k id) as [->|Nk]; [discriminate|]. rewrite Fo, set_other by exact Nk. apply J3, Hk.
    + intros k Hk. unfold set at 1. destruct (Z.eqb_spec k id) as [->|Nk].
      * intros _. rewrite set_same. split; [reflexivity|]. split; [exact Ei|]. left. split; [reflexivity|]. rewrite filter_snoc. cbn [of_job ev]. rewrite Z.eqb_refl, J2 by assumption. reflexivity.
      * intros Ek. exfalso. destruct (J4 k Hk Ek) as (_ & _ & [[F _]|[F _]]); congruence.
    + intros a Ha Hh. destruct (J5 a Ha Hh) as [A1 A2]. split; [exact A1|]. rewrite set_other; [exact A2|]. intros Eq. rewrite Eq in A2. congruence.
    + intros k Hk. cbn [handed]. unfold set. destruct (Z.eqb_spec k id) as [->|Nk]; [split; [discriminate|lia]|]. rewrite J6 by exact Hk. lia.
    + intros k Hk. rewrite Fo by lia. apply J7, Hk.
    + intros a b F. discriminate.
    + intros a b c [F|[wid F]]; discriminate.
    + intros a [F|F]; [injection F as <-|discriminate]. apply set_same.
    + cbn [params]. trivial.
    + intros x Ix. apply in_app_or in Ix. destruct Ix as [Ix|[<-|[]]]; [apply J11, Ix|right]. exists id. cbn [of_job ev]. apply Z.eqb_refl.
  - apply (Same (proj2 R)); proj; sg E Stay.
  - (* the host finishes its job *)
    destruct R as (Ri & Rn & Rb). destruct L as [B1 _ _|e l m sz' str' js _ Ed El Cl J]; [congruence|]. pose proof J as [J1 J2 J3 J4 J5 J6 J7 J8 J9 J9' J10 J11].
    assert (Hid : 0 <= id < n) by lia. pose proof (J9' id (or_introl E)) as Jid. destruct (J4 id Hid Jid) as (F1 & F2 & [[_ F3]|[F3 _]]); [|congruence].
    rewrite Ed. cbn [Nat.pred]. set (ev := EvFinish e id).
    assert (Fo : forall k, k <> id -> filter (of_job k) (m ++ [ev]) = filter (of_job k) m).
    { intros k Nk. rewrite filter_snoc. cbn [of_job ev]. replace (k =? id) with false by lia. apply app_nil_r. }
    apply (l_busy n D _ e l (m ++ [ev]) sz' str' js); proj; [exact Rb|exact Ed|rewrite El, <- app_assoc; reflexivity|exact Cl|].
    constructor; proj.
    + intros k a Hk Ek. rewrite Fo by (intros ->; congruence). apply J1; assumption.
    + intros k Hk Ek. rewrite Fo by (intros ->; congruence). apply J2; assumption.
    + intros k Hk Ek. rewrite Fo by (intros ->; congruence). apply J3; assumption.
    + intros k Hk Ek. destruct (J4 k Hk Ek) as (G1 & G2 & _). split; [exact G1|]. split; [exact G2|]. assert (Eq : k = id) by lia. rewrite Eq. right. split; [reflexivity|].
      rewrite filter_snoc, F3. cbn [of_job ev]. rewrite Z.eqb_refl. reflexivity.
    + exact J5.
    + intros k Hk. rewrite J6 by exact Hk. rewrite E. cbn [handed]. reflexivity.
    + intros k Hk. rewrite Fo by lia. apply J7, Hk.
    + intros a b F. discriminate.
    + intros a b c [F|[wid F]]; discriminate.
    + intros a [F|F]; [discriminate|injection F as <-; exact Jid].
    + cbn [params]. trivial.
    + intros x Ix. apply in_app_or in Ix. destruct Ix as [Ix|[<-|[]]]; [apply J11, Ix|right]. exists id. cbn [of_job ev]. apply Z.eqb_refl.
  - (* and sets its flag *)
    destruct R as (Ri & Rn & Rb). destruct L as [B1 _ _|e l m sz' str' js _ Ed El Cl J]; [congruence|]. pose proof J as [J1 J2 J3 J4 J5 J6 J7 J8 J9 J9' J10 J11].
    assert (Hid : 0 <= id < n) by lia. pose proof (J9' id (or_intror E)) as Jid. destruct (J4 id Hid Jid) as (F1 & F2 & [[F3 _]|[_ F3]]); [congruence|].
    apply (l_busy n D _ e l m sz' str' (set js id JDone)); proj; try assumption.
    constructor; proj.
    + intros k a Hk. unfold set at 1. destruct (Z.eqb_spec k id) as [->|Nk]; [discriminate|]. intros Ek. rewrite set_other by exact Nk. apply J1; assumption.
    + intros k Hk. unfold set. destruct (Z.eqb_spec k id) as [->|Nk]; [discriminate|]. apply J2, Hk.
    + intros k Hk. unfold set at 1. destruct (Z.eqb_spec k id) as [->|Nk]; [intros _; rewrite set_same; split; [exact F3|reflexivity]|]. rewrite set_other by exact Nk. apply J3, Hk.
    + intros k Hk. unfold set at 1. destruct (Z.eqb_spec k id) as [->|Nk]; [discriminate|]. intros Ek. exfalso. destruct (J4 k Hk Ek) as (_ & G & _). lia.
    + intros a Ha Hh. destruct (J5 a Ha Hh) as [A1 A2]. split; [exact A1|]. rewrite set_other; [exact A2|]. intros Eq. rewrite Eq in A2. congruence.
    + intros k Hk. cbn [handed]. unfold set. destruct (Z.eqb_spec k id) as [->|Nk]; [split; [discriminate|lia]|]. rewrite J6 by exact Hk. rewrite E. cbn [handed]. lia.
    + exact J7.
    + intros a b F. discriminate.
    + intros a b c [F|[wid F]]; discriminate.
    + intros a [F|F]; discriminate.
    + cbn [params]. trivial.
    + exact J11.
  - apply (Same (proj2 R)); proj; sg E Stay.
  - apply (Same (proj2 R)); proj; sg E Stay.
    intros sz' str' id' [F|[wid F]]; [discriminate|]. injection F as <- <- <- <-. right. split; [reflexivity|left; reflexivity].
  - (* a job is given to a sleeping worker *)
    destruct R as (Ri & Rw & Rb). destruct L as [B1 _ _|e l m sz' str' js _ Ed El Cl J]; [congruence|]. pose proof J as [J1 J2 J3 J4 J5 J6 J7 J8 J9 J9' J10 J11].
    rewrite E in J6, J10. cbn [handed params] in J6, J10. destruct J10 as [<- <-]. assert (Hid : 0 <= id < n) by lia.
    assert (Nid : js id = JNone) by (apply J6; lia). rewrite Ed. cbn [Nat.pred].
    assert (Ws : wp s wid = WWaiting \/ wp s wid = WWoken).
    { specialize (W wid Rw). unfold wok in W. rewrite E, X in W. cbn [view_of] in W. unfold one in W. rewrite Z.eqb_refl in W. destruct (wp s wid); destruct (mtx s wid) as [[|]|]; cbn in W; try discriminate; tauto. }
    assert (Ew : forall j o, ev_of e j o (wp s wid) = []) by (intros; destruct Ws as [-> | ->]; reflexivity).
    apply (l_busy n D _ e l m sz str (set js id (JHeld wid))); proj; try assumption.
    constructor; proj.
    + intros k a Hk. unfold set at 1. destruct (Z.eqb_spec k id) as [->|Nk].
      * intros F. injection F as <-. rewrite !set_same. split; [exact Rw|]. split; [destruct Ws as [-> | ->]; reflexivity|]. split; [reflexivity|]. rewrite Ew. split; [apply J2; assumption|].
        apply (J9 sz str). right. exists wid. exact E.
      * intros Ek. destruct (J1 k a Hk Ek) as (A1 & A2 & A3 & A4 & A5). assert (a <> wid) by (intros ->; rewrite X in A2; discriminate).
        rewrite !(set_other _ wid) by assumption. repeat split; try assumption; lia.
    + intros k Hk. unfold set. destruct (Z.eqb_spec k id) as [->|Nk]; [discriminate|]. apply J2, Hk.
    + intros k Hk. unfold set. destruct (Z.eqb_spec k id) as [->|Nk]; [discriminate|]. apply J3, Hk.
    + intros k Hk. unfold set. destruct (Z.eqb_spec k id) as [->|Nk]; [discriminate|]. intros Ek. exfalso. destruct (J4 k Hk Ek) as (_ & _ & [[F _]|[F _]]); congruence.
    + intros a Ha. destruct (Z.eq_dec a wid) as [->|Na]; [rewrite !set_same; cbn [t_job]; rewrite ?set_same; intros _; split; [lia|reflexivity]|].
      rewrite (set_other (st s)), (set_other (tk s)) by exact Na. intros Hh. destruct (J5 a Ha Hh) as [A1 A2]. split; [exact A1|]. rewrite set_other; [exact A2|]. intros Eq. rewrite Eq in A2. congruence.
    + intros k Hk. cbn [handed]. unfold set. destruct (Z.eqb_spec k id) as [->|Nk]; [split; [discriminate|lia]|]. rewrite J6 by exact Hk. lia.
    + exact J7.
    + intros a b F. discriminate.
    + intros a b c [F|[w F]]; discriminate.
    + intros a [F|F]; discriminate.
    + cbn [params]. split; reflexivity.
    + exact J11.
  - apply (Same (proj2 (proj2 R))); proj; sg E Stay.
    intros sz' str' id' [F|[w F]]; [|discriminate]. injection F as <- <- <-. right. split; [reflexivity|right; exists wid; reflexivity].
  - destruct (signal_proj s wid) as (P1 & P2 & P3 & P4 & P5 & P6 & P7 & P8 & P9 & P10 & P11 & P12).
    apply (Same (proj2 (proj2 R))); proj; rewrite ?P3, ?P5, ?P7, ?P9, ?P10; sg E Stay.
    intros i Hi. destruct (signal_holding s wid i) as [A1 A2]. split; [exact A1|]. split; [reflexivity|exact A2].
  - apply (Same (proj2 (proj2 R))); proj; sg E Stay.
  - (* the caller's own work *)
    destruct L as [B1 Cl H|e l m sz' str' js B1 Ed El Cl J].
    + apply (Idle B1); proj; tauto.
    + apply (l_busy n D _ e l (m ++ [EvStrag]) sz' str' js); proj; [exact B1|exact Ed|rewrite El, <- app_assoc; reflexivity|exact Cl|].
      assert (Fo : forall k, filter (of_job k) (m ++ [EvStrag]) = filter (of_job k) m) by (intros k; rewrite filter_snoc; cbn [of_job]; apply app_nil_r).
      pose proof J as [J1 J2 J3 J4 J5 J6 J7 J8 J9 J9' J10 J11]. constructor; proj; try assumption; try (intros k; rewrite Fo; auto).
      * intros x Ix. apply in_app_or in Ix. destruct Ix as [Ix|[<-|[]]]; [apply J11, Ix|left; reflexivity].
  - apply (Same B); proj; sg E Stay.
    intros k F. injection F as <-. left. reflexivity.
  - apply (Same (proj2 R)); proj; sg E Stay.
    intros k F. injection F as <-. right. replace (id + 1 - 1) with id by lia. repeat split; [exact X|lia].
  - (* wait returns *)
    destruct R as [Ri Rb]. destruct L as [B1 _ _|e l m sz' str' js _ Ed El Cl J]; [congruence|]. pose proof J as [J1 J2 J3 J4 J5 J6 J7 J8 J9 J9' J10 J11].
    assert (Dn : forall j, 0 <= j < n -> js j = JDone) by (intros j Hj; apply (J8 id); [exact E|lia]).
    apply l_idle; proj; [reflexivity| |].
    + rewrite Ed. cbn [Nat.pred]. rewrite El, <- app_assoc. cbn [app]. apply c_block; [exact Cl|]. split; [|exact J11]. intros j. unfold within.
      destruct (Z_lt_le_dec j 0) as [Lj|Lj]; [replace (0 <=? j) with false by lia; apply J7; lia|]. destruct (Z_lt_le_dec j n) as [Lj'|Lj'];
        [replace ((0 <=? j) && (j <? n)) with true by lia; apply J3; [lia|apply Dn; lia]|replace ((0 <=? j) && (j <? n)) with false by lia; apply J7; lia].
    + intros i Hi. destruct (holding (wp s i) (st s i)) eqn:Hh; [|reflexivity]. destruct (J5 i Hi Hh) as [A1 A2]. rewrite Dn in A2 by exact A1. discriminate.
  - apply (Idle B); proj; tauto.
  - apply (Idle (proj2 R)); proj; tauto.
  - apply (Idle (proj2 R)); proj; try tauto. intros k Hk Hh. unfold set. destruct (Z.eqb_spec k id); [destruct (wp s k); reflexivity|exact Hh].
  - destruct (signal_proj s id) as (P1 & P2 & P3 & P4 & P5 & P6 & P7 & P8 & P9 & P10 & P11 & P12).
    apply (Idle (proj2 R)); proj; rewrite ?P3, ?P5, ?P10; try tauto. intros k Hk Hh. destruct (signal_holding s id k) as [-> _]. exact Hh.
  - apply (Idle (proj2 R)); proj; tauto.
  - apply (Idle (proj2 R)); proj; tauto.
  - apply (Idle (proj2 R)); proj; tauto.
Qed.
