(* The calls made, absence of errors, and completion. *)
From Coq Require Import ZArith List Bool Lia ZifyBool.
From Verif Require Import ThreadModel ThreadSpec ThreadProofs ThreadJobs.
Import ListNotations.
Open Scope Z_scope.
Ltac Zify.zify_post_hook ::= idtac.

Ltac hcases T := destruct T as [i E L1 L2|i E L1 L2|i E X|i E L0|sz str cs E C B|sz str cs E C B|sz str id E L1 L2|sz str id E L1 L2 O|sz str id E L1 DN L2 O|sz str id E L1 DN|id E|id E
    |sz str id E M|sz str id E M|sz str id wid E X|sz str id wid E X|sz str id wid E X|sz str id wid E|sz str id wid E|cs E C|cs E C B|cs E C B|id E L0 X|id E L0|cs E C B|cs E C B
    |id E L0 M|id E|id E|id E|id E X|id E L0 M|id i E L0 Hi M|c cs E C Nc].

(* ---------- control and log invariants together ---------- *)
Definition inv (n D : Z) (s : tstate) : Prop := ctl n D s /\ logged n D s.
Lemma broken_stays n D s s' : broken s -> step n D s s' -> broken s'.
Proof.
  intros Br [T|i Hi T].
  - exfalso. hcases T; unfold broken in Br; rewrite E in Br; destruct Br; discriminate.
  - destruct T; unfold broken in *; proj; exact Br.
Qed.
Lemma inv_step n D s s' : D = 0 \/ D = 1 -> 1 <= n <= MAX_PIPELINE -> inv n D s -> step n D s s' -> broken s' \/ inv n D s'.
Proof.
  intros HD Hn [C L] [T|i Hi T].
  - destruct (ctl_host n D s s' HD Hn C T) as [B|C']; [left; exact B|]. destruct (logged_hstep n D s s' HD Hn C L T) as [B|L']; [left; exact B|right; split; assumption].
  - right. pose proof C as [R Nx W]. destruct (wok_wstep i s s' (W i Hi) T) as (W' & H1 & H2 & H3 & H4 & H5 & H6 & H7). split.
    + constructor; [unfold hrange in *; rewrite H1, H3; exact R|rewrite H2; exact Nx|]. intros k Hk. destruct (Z.eq_dec k i) as [->|N]; [exact W'|].
      destruct (H7 k N) as (A & B & C'). apply (wok_same s); [rewrite H1; reflexivity|exact A|exact B|exact C'|apply W, Hk].
    + exact (logged_wstep n D i s s' Hi (W i Hi) L T).
Qed.
Lemma inv_boot n D prog : D = 0 \/ D = 1 -> 1 <= n -> inv n D (boot_state prog).
Proof.
  intros HD Hn. split; [apply ctl_boot; lia|]. apply l_idle; [reflexivity|apply c_nil|]. intros i Hi. reflexivity.
Qed.
Lemma inv_reach n D prog s : D = 0 \/ D = 1 -> 1 <= n <= MAX_PIPELINE -> reach n D prog s -> broken s \/ inv n D s.
Proof.
  intros HD Hn R. induction R as [|s s' R IH T]; [right; apply inv_boot; lia|]. destruct IH as [B|I]; [left; eapply broken_stays; eassumption|eapply inv_step; eassumption].
Qed.

(* ---------- the calls ---------- *)
Fixpoint ndisp (cs : list call) : nat := match cs with [] => O | CDispatch _ _ :: cs => S (ndisp cs) | _ :: cs => ndisp cs end.
Lemma expected_app d a b : expected d (a ++ b) = expected d a ++ expected (d + ndisp a) b.
Proof.
  revert d. induction a as [|c a IH]; intros d; cbn [app ndisp]; [rewrite Nat.add_0_r; reflexivity|]. destruct c; cbn [expected app ndisp]; rewrite IH; try reflexivity. do 3 f_equal. lia.
Qed.
Lemma ndisp_app a b : ndisp (a ++ b) = (ndisp a + ndisp b)%nat.
Proof. induction a as [|c a IH]; [reflexivity|]. destruct c; cbn [app ndisp]; lia. Qed.
Definition pending (s : tstate) : list event :=
  match hp s with
  | HWait _ => [EvReturn (Nat.pred (disp s))]
  | HHalt _ | HHaltHold _ | HHaltSig _ | HHaltUnl _ | HJoin _ => [EvHalted]
  | _ => []
  end.
Definition called (prog : list call) (s : tstate) : Prop :=
  exists ex, prog = ex ++ calls s /\ filter own (log s) ++ pending s = expected 0 ex /\ disp s = ndisp ex.
Lemma called_step n D prog s s' : called prog s -> step n D s s' -> broken s' \/ called prog s'.
Proof.
  intros (ex & P & L & N) T.
  assert (Keep : calls s' = calls s -> disp s' = disp s -> filter own (log s') ++ pending s' = filter own (log s) ++ pending s -> broken s' \/ called prog s').
  { intros A B C. right. exists ex. rewrite A, B, C. repeat split; assumption. }
  assert (One : forall c, calls s = c :: calls s' -> filter own (log s') ++ pending s' = (filter own (log s) ++ pending s) ++ expected (disp s) [c] ->
     disp s' = (disp s + ndisp [c])%nat -> broken s' \/ called prog s').
  { intros c A B C. right. exists (ex ++ [c]). rewrite <- app_assoc. cbn [app]. rewrite <- A. split; [exact P|]. rewrite B, expected_app, L, N. split; [reflexivity|]. rewrite ndisp_app, C, N. reflexivity. }
  destruct T as [T|i Hi T].
  - hcases T; try (left; unfold broken; proj; tauto);
      try (destruct (signal_proj s wid) as (P1 & P2 & P3 & P4 & P5 & P6 & P7 & P8 & P9 & P10 & P11 & P12));
      try (destruct (signal_proj s id) as (P1 & P2 & P3 & P4 & P5 & P6 & P7 & P8 & P9 & P10 & P11 & P12));
      try (apply Keep; unfold pending; proj; rewrite ?P4, ?P5, ?P10, ?filter_snoc, ?E; cbn [own]; rewrite ?app_nil_r; reflexivity);
      (eapply One; unfold pending; proj; [exact C|rewrite ?filter_snoc, ?E; cbn [own expected]; rewrite ?app_nil_r; reflexivity|cbn [ndisp]; lia]).
  - destruct T; apply Keep; unfold pending; proj; rewrite ?filter_snoc; cbn [own]; rewrite ?app_nil_r; reflexivity.
Qed.
Lemma called_reach n D prog s : reach n D prog s -> broken s \/ called prog s.
Proof.
  intros R. induction R as [|s s' R IH T]; [right; exists []; repeat split|]. destruct IH as [B|I]; [left; eapply broken_stays; eassumption|eapply called_step; eassumption].
Qed.

(* ---------- programs without errors ---------- *)
Definition offs_ok (n sz str : Z) : Prop := forall id, 0 <= id < n -> - 2 ^ 31 <= id * sz < 2 ^ 31 /\ - 2 ^ 31 <= id * sz * str < 2 ^ 31.
Fixpoint wf (n : Z) (b : bool) (cs : list call) : Prop :=
  match cs with
  | [] => True
  | CDispatch sz str :: cs => b = false /\ offs_ok n sz str /\ wf n true cs
  | CStrag :: cs => wf n b cs
  | CWait :: cs => b = true /\ wf n false cs
  | CHalt :: cs => b = false /\ cs = []
  end.
Definition wfs (n : Z) (s : tstate) : Prop :=
  match hp s with
  | HWait _ => wf n false (calls s)
  | HHalt _ | HHaltHold _ | HHaltSig _ | HHaltUnl _ | HJoin _ | HDone => calls s = []
  | HLoop sz str _ | HTry sz str _ | HHold sz str _ _ | HSig sz str _ _ | HUnl sz str _ _ => offs_ok n sz str /\ wf n true (calls s)
  | HError | HUB => False
  | _ => wf n (busy s) (calls s)
  end.
Lemma offs_off n sz str id : offs_ok n sz str -> 0 <= id < n -> off_ok id sz str = true.
Proof. intros O H. destruct (O id H) as [A B]. change (2 ^ 31) with 2147483648 in *. unfold off_ok, int_ok. set (x := id * sz) in *. set (y := x * str) in *. clearbody x y. lia. Qed.
Lemma wfs_step n D s s' : D = 0 \/ D = 1 -> 1 <= n <= MAX_PIPELINE -> ctl n D s -> wfs n s -> step n D s s' -> wfs n s'.
Proof.
  unfold MAX_PIPELINE. intros HD Hn [R Nx W] F [T|i Hi T].
  - unfold hrange in R. unfold wfs in F. hcases T; rewrite E in R, F; try rewrite C in F; unfold wfs; proj; cbn [wf] in F; try tauto; try discriminate; try (destruct F; congruence).
    + unfold MAX_PIPELINE in L2. lia.
    + destruct F as [F _]. unfold MAX_PIPELINE in L2. destruct L2 as [L2|L2]; [lia|]. rewrite (offs_off n) in L2 by (exact F || lia). discriminate.
    + rewrite (proj2 R). exact (proj2 F).
    + rewrite (proj2 R). exact (proj2 F).
    + rewrite E. exact F.
    + specialize (W wid (proj1 (proj2 R))). unfold wok in W. rewrite E, X in W. cbn [view_of] in W. unfold one in W. rewrite Z.eqb_refl in W. destruct (wp s wid); destruct (mtx s wid) as [[|]|]; discriminate.
    + destruct (signal_proj s wid) as (_ & _ & _ & -> & _). exact F.
    + rewrite E. exact F.
    + destruct (signal_proj s id) as (_ & _ & _ & -> & _). exact F.
    + apply M. specialize (W i Hi). unfold wok in W. rewrite E in W. cbn [view_of] in W. replace (i <? id) with true in W by lia. destruct (mtx s i) as [[|]|]; [discriminate|discriminate|reflexivity].
  - destruct (wok_wstep i s s' (W i Hi) T) as (_ & H1 & _ & H3 & H4 & _). unfold wfs in *. rewrite H1, H3, H4. exact F.
Qed.
Lemma wfs_reach n D prog s : D = 0 \/ D = 1 -> 1 <= n <= MAX_PIPELINE -> wf n false prog -> reach n D prog s -> inv n D s /\ wfs n s.
Proof.
  intros HD Hn F R. induction R as [|s s' R IH T]; [split; [apply inv_boot; lia|exact F]|]. destruct IH as [I G]. pose proof (wfs_step n D s s' HD Hn (proj1 I) G T) as G'.
  split; [|exact G']. destruct (inv_step n D s s' HD Hn I T) as [B|I']; [|exact I']. exfalso. unfold wfs in G'. destruct B as [B|B]; rewrite B in G'; exact G'.
Qed.

(* ---------- completion ---------- *)
Lemma steps_trans n D a b c : steps n D a b -> steps n D b c -> steps n D a c.
Proof. intros H. induction H as [|a a1 b T H IH]; [trivial|]. intros K. econstructor; [exact T|apply IH, K]. Qed.
Definition host_holds (h : hpc) : bool := match h with HHold _ _ _ _ | HSig _ _ _ _ | HUnl _ _ _ _ | HHaltHold _ | HHaltSig _ | HHaltUnl _ => true | _ => false end.
Definition settled (w : wpc) : bool := match w with WNew | WWaiting | WDead => true | _ => false end.
Definition wrank (w : wpc) : nat := match w with WLock | WWoken => 7 | WSwitch => 6 | WRun => 5 | WFlag => 4 | WSetSleep => 3 | WWait => 2 | _ => 0 end.
(* the host has not moved, and only worker i has *)
Definition only (i : Z) (s s' : tstate) : Prop :=
  hp s' = hp s /\ next_id s' = next_id s /\ busy s' = busy s /\ calls s' = calls s /\ disp s' = disp s /\
  forall k, k <> i -> wp s' k = wp s k /\ st s' k = st s k /\ mtx s' k = mtx s k.
Lemma view_free h i : host_holds h = false -> match view_of h i with VHold | VSig | VUnl | VHaltHold | VHaltSig | VHaltUnl => False | _ => True end.
Proof. intros H. destruct h; try discriminate; cbn [view_of]; unfold halting; repeat match goal with |- context [if ?b then _ else _] => destruct b end; exact I. Qed.
Lemma settle_one n D i : D = 0 \/ D = 1 -> 1 <= n <= MAX_PIPELINE -> 0 <= i < n - D -> forall m s, (wrank (wp s i) <= m)%nat -> inv n D s -> host_holds (hp s) = false ->
  exists s', steps n D s s' /\ inv n D s' /\ only i s s' /\ settled (wp s' i) = true.
Proof.
  intros HD Hn Hi. induction m as [|m IH]; intros s Hm I Hh.
  - exists s. split; [constructor|]. split; [exact I|]. split; [repeat split|]. destruct (wp s i); cbn [wrank] in Hm; try lia; reflexivity.
  - destruct (settled (wp s i)) eqn:Se; [exists s; split; [constructor|]; split; [exact I|]; split; [repeat split|exact Se]|].
    assert (Go : exists s1, wstep i s s1 /\ (wrank (wp s1 i) < wrank (wp s i))%nat).
    { pose proof I as [[_ _ W] _]. specialize (W i Hi). unfold wok in W. pose proof (view_free (hp s) i Hh) as V. destruct (wp s i) eqn:E; try discriminate.
      - eexists. split; [apply w_lock; [exact E|]|proj; rewrite set_same; cbn; lia]. destruct (view_of (hp s) i); destruct (mtx s i) as [[|]|]; destruct (st s i); cbn in *; congruence || contradiction.
      - destruct (st s i) eqn:X; eexists; (split; [first [apply w_idle; [exact E|tauto] | apply w_exec; assumption | apply w_term; assumption]|proj; rewrite set_same; cbn; lia]).
      - eexists. split; [apply w_fin, E|proj; rewrite set_same; cbn; lia].
      - eexists. split; [apply w_flag, E|proj; rewrite set_same; cbn; lia].
      - eexists. split; [apply w_sleep, E|proj; rewrite set_same; cbn; lia].
      - eexists. split; [apply w_wait, E|proj; rewrite set_same; cbn; lia].
      - eexists. split; [apply w_relock; [exact E|]|proj; rewrite set_same; cbn; lia]. destruct (view_of (hp s) i); destruct (mtx s i) as [[|]|]; destruct (st s i); cbn in *; congruence || contradiction. }
    destruct Go as (s1 & T & Lt). pose proof I as [[_ _ W] _]. destruct (wok_wstep i s s1 (W i Hi) T) as (_ & H1 & H2 & H3 & H4 & H5 & _ & H7).
    assert (I1 : inv n D s1).
    { destruct (inv_step n D s s1 HD Hn I (by_worker n D s s1 i Hi T)) as [B|I1]; [|exact I1]. exfalso. pose proof I as [[R _ _] _]. unfold hrange in R. destruct B as [B|B]; rewrite H1 in B; rewrite B in R; exact R. }
    destruct (IH s1 ltac:(lia) I1 ltac:(rewrite H1; exact Hh)) as (s2 & S2 & I2 & (O1 & O2 & O3 & O4 & O5 & O6) & Se2).
    exists s2. split; [econstructor; [eapply by_worker; eassumption|exact S2]|]. split; [exact I2|]. split; [|exact Se2]. unfold only. repeat split; try congruence;
      destruct (O6 k H) as (A1 & A2 & A3); destruct (H7 k H) as (B1 & B2 & B3); congruence.
Qed.
Definition same_host (s s' : tstate) : Prop := hp s' = hp s /\ next_id s' = next_id s /\ busy s' = busy s /\ calls s' = calls s /\ disp s' = disp s.
Lemma settle_all n D s : D = 0 \/ D = 1 -> 1 <= n <= MAX_PIPELINE -> inv n D s -> host_holds (hp s) = false ->
  exists s', steps n D s s' /\ inv n D s' /\ same_host s s' /\ forall i, 0 <= i < n - D -> settled (wp s' i) = true.
Proof.
  intros HD Hn I Hh. assert (G : forall m : nat, Z.of_nat m <= n - D -> exists s', steps n D s s' /\ inv n D s' /\ same_host s s' /\ forall i, 0 <= i < Z.of_nat m -> settled (wp s' i) = true).
  { induction m as [|m IH]; intros Hm; [exists s; split; [constructor|]; split; [exact I|]; split; [repeat split|lia]|].
    destruct (IH ltac:(lia)) as (s1 & S1 & I1 & (A1 & A2 & A3 & A4 & A5) & Se1).
    destruct (settle_one n D (Z.of_nat m) HD Hn ltac:(lia) _ s1 (le_n _) I1 ltac:(rewrite A1; exact Hh)) as (s2 & S2 & I2 & (B1 & B2 & B3 & B4 & B5 & B6) & Se2).
    exists s2. split; [eapply steps_trans; eassumption|]. split; [exact I2|]. split; [repeat split; congruence|]. intros i Hi. destruct (Z.eq_dec i (Z.of_nat m)) as [->|N]; [exact Se2|].
    destruct (B6 i N) as (-> & _). apply Se1. lia. }
  destruct (G (Z.to_nat (n - D)) ltac:(lia)) as (s' & A & B & C & E). exists s'. split; [exact A|]. split; [exact B|]. split; [exact C|]. intros i Hi. apply E. lia.
Qed.

(* how much the host has still to do *)
Definition hm (n W : Z) (s : tstate) : Z :=
  let K := 12 * W + 2 * n + 20 in
  K * Z.of_nat (length (calls s)) +
  match hp s with
  | HBoot i => 2 * (W - i) + 1 | HBootSpin i => 2 * (W - i)
  | HLoop _ _ id => 5 * (W - id) + 3
  | HTry _ _ id | HHold _ _ id _ => 5 * (W - id) + 2
  | HSig _ _ id _ => 5 * (W - id) + 1 | HUnl _ _ id _ => 5 * (W - id)
  | HHost _ => 2 | HHostDone _ => 1
  | HWait id => n - id + 1
  | HHalt id => 6 * (W - id) + 1 | HHaltHold id => 6 * (W - id) | HHaltSig id => 6 * (W - id) - 1 | HHaltUnl id => 6 * (W - id) - 2 | HJoin id => 6 * (W - id) - 3
  | _ => 0
  end.
Definition final (s : tstate) : Prop := (hp s = HReady /\ calls s = []) \/ hp s = HDone.
Section Progress.
Variables (n D : Z).
Hypotheses (HD : D = 0 \/ D = 1) (Hn : 1 <= n <= MAX_PIPELINE).
Definition good (s : tstate) : Prop := inv n D s /\ wfs n s.
Lemma good_step s s' : good s -> step n D s s' -> good s'.
Proof.
  intros [I G] T. pose proof (wfs_step n D s s' HD Hn (proj1 I) G T) as G'. split; [|exact G'].
  destruct (inv_step n D s s' HD Hn I T) as [B|I']; [|exact I']. exfalso. unfold wfs in G'. destruct B as [B|B]; rewrite B in G'; exact G'.
Qed.
Lemma good_steps s s' : good s -> steps n D s s' -> good s'.
Proof. intros G T. induction T as [|s s1 s2 S T IH]; [exact G|]. apply IH. eapply good_step; eassumption. Qed.
Lemma settle s : good s -> host_holds (hp s) = false -> exists s', steps n D s s' /\ good s' /\ same_host s s' /\ forall i, 0 <= i < n - D -> settled (wp s' i) = true.
Proof.
  intros G Hh. destruct (settle_all n D s HD Hn (proj1 G) Hh) as (s' & S & _ & Sh & Se). exists s'. split; [exact S|]. split; [eapply good_steps; eassumption|]. split; assumption.
Qed.
Lemma hm_same s s' : same_host s s' -> hm n (n - D) s' = hm n (n - D) s.
Proof. intros (A & _ & _ & B & _). unfold hm. rewrite A, B. reflexivity. Qed.
Lemma normal_settled s i : good s -> 0 <= i < n - D -> view_of (hp s) i = VNormal -> settled (wp s i) = true -> wp s i = WWaiting /\ st s i = SLEEP /\ mtx s i = None.
Proof.
  intros [[[_ _ W] _] _] Hi V Se. specialize (W i Hi). unfold wok in W. rewrite V in W. destruct (wp s i); destruct (st s i); destruct (mtx s i) as [[|]|]; cbn in *; try discriminate; repeat split.
Qed.
(* one step of the host that makes progress *)
Lemma one_step s s' : good s -> hstep n D s s' -> hm n (n - D) s' < hm n (n - D) s -> exists s', steps n D s s' /\ good s' /\ hm n (n - D) s' < hm n (n - D) s.
Proof. intros G T L. exists s'. split; [econstructor; [apply by_host, T|constructor]|]. split; [|exact L]. eapply good_step; [exact G|apply by_host, T]. Qed.
Lemma after s s1 : steps n D s s1 -> same_host s s1 -> (exists s', steps n D s1 s' /\ good s' /\ hm n (n - D) s' < hm n (n - D) s1) -> exists s', steps n D s s' /\ good s' /\ hm n (n - D) s' < hm n (n - D) s.
Proof. intros S Sh (s' & A & B & C). exists s'. split; [eapply steps_trans; eassumption|]. split; [exact B|]. rewrite (hm_same s s1 Sh) in C. exact C. Qed.
Lemma try_progress s sz str id : good s -> hp s = HTry sz str id -> exists s', steps n D s s' /\ good s' /\ hm n (n - D) s' < hm n (n - D) s.
Proof.
  intros G E. destruct (settle s G ltac:(rewrite E; reflexivity)) as (s1 & S1 & G1 & Sh & Se). pose proof Sh as (A1 & A2 & A3 & A4 & A5). apply (after s s1 S1 Sh).
  rewrite E in A1. pose proof G1 as [[[R Nx W] _] _]. unfold hrange in R. rewrite A1 in R. set (w := next_id s1) in *. assert (Hw : 0 <= w < n - D) by lia.
  destruct (normal_settled s1 w G1 Hw ltac:(rewrite A1; reflexivity) (Se w Hw)) as (Ew & Ex & Em).
  pose proof (h_try n D s1 sz str id A1 Em) as T. set (s2 := set_next _ _) in T. assert (G2 : good s2) by (eapply good_step; [exact G1|apply by_host, T]).
  pose proof (h_assign n D s2 sz str id w eq_refl Ex) as T2. set (s3 := set_hp _ _) in T2.
  exists s3. split; [econstructor; [apply by_host, T|econstructor; [apply by_host, T2|constructor]]|]. split; [eapply good_step; [exact G2|apply by_host, T2]|].
  unfold hm. rewrite A1. subst s3 s2. proj. lia.
Qed.
Lemma host_progress s : good s -> final s \/ exists s', steps n D s s' /\ good s' /\ hm n (n - D) s' < hm n (n - D) s.
Proof.
  intros G. pose proof G as [[[R Nx W] Lg] F]. unfold hrange in R. unfold wfs in F. unfold MAX_PIPELINE in Hn. assert (HW : 0 <= n - D) by lia.
  destruct (hp s) as [i|i| |sz str id|sz str id|sz str id wid|sz str id wid|sz str id wid|id|id|id|id|id|id|id|id| | | ] eqn:E; try contradiction; try (left; right; exact E).
  - right. destruct (Z_lt_le_dec i (n - D)) as [L|L].
    + eapply one_step; [exact G|eapply h_boot; [exact E|exact L|unfold MAX_PIPELINE; lia]|]. unfold hm. proj. rewrite E. lia.
    + eapply one_step; [exact G|eapply h_booted; [exact E|exact L]|]. unfold hm. proj. rewrite E. lia.
  - right. destruct (settle s G ltac:(rewrite E; reflexivity)) as (s1 & S1 & G1 & Sh & Se). pose proof Sh as (A1 & A2 & A3 & A4 & A5). apply (after s s1 S1 Sh). rewrite E in A1.
    assert (X : st s1 i = SLEEP).
    { pose proof G1 as [[[_ _ W1] _] _]. destruct R as [R _]. specialize (W1 i R). specialize (Se i R). unfold wok in W1. rewrite A1 in W1. cbn [view_of] in W1. replace (i <? i) with false in W1 by lia. rewrite Z.eqb_refl in W1.
      destruct (wp s1 i); destruct (st s1 i); destruct (mtx s1 i) as [[|]|]; cbn in *; congruence. }
    eapply one_step; [exact G1|eapply h_boot_ack; [exact A1|exact X]|]. unfold hm. proj. rewrite A1. lia.
  - destruct (calls s) as [|c cs] eqn:C; [left; left; split; assumption|right]. destruct c; cbn [wf] in F.
    + eapply one_step; [exact G|eapply h_disp; [exact E|exact C|apply F]|]. unfold hm. proj. rewrite E, C. cbn [length]. rewrite Nat2Z.inj_succ. nia.
    + eapply one_step; [exact G|eapply h_strag; [exact E|exact C]|]. unfold hm. proj. rewrite E, C. cbn [length]. rewrite Nat2Z.inj_succ. nia.
    + eapply one_step; [exact G|eapply h_wait; [exact E|exact C|apply F]|]. unfold hm. proj. rewrite E, C. cbn [length]. rewrite Nat2Z.inj_succ. nia.
    + eapply one_step; [exact G|eapply h_halt; [exact E|exact C|apply F]|]. unfold hm. proj. rewrite E, C. cbn [length]. rewrite Nat2Z.inj_succ. nia.
  - right. destruct R as [R Rb]. destruct (Z_lt_le_dec id (n - D)) as [L|L].
    + eapply one_step; [exact G|eapply h_loop; [exact E|exact L|unfold MAX_PIPELINE; lia|apply (offs_off n); [apply F|lia]]|]. unfold hm. proj. rewrite E. lia.
    + destruct HD as [D0|D1].
      * eapply one_step; [exact G|eapply h_loop_end; [exact E|exact L|exact D0]|]. unfold hm. proj. rewrite E. lia.
      * eapply one_step; [exact G|eapply h_loop_host; [exact E|exact L|lia|unfold MAX_PIPELINE; lia|apply (offs_off n); [apply F|lia]]|]. unfold hm. proj. rewrite E. lia.
  - right. eapply try_progress; eassumption.
  - right. destruct (st s wid) eqn:X.
    + eapply one_step; [exact G|eapply h_assign; [exact E|exact X]|]. unfold hm. proj. rewrite E. lia.
    + pose proof (h_hold_no n D s sz str id wid E (or_introl X)) as T. set (s1 := set_hp _ _) in T. assert (G1 : good s1) by (eapply good_step; [exact G|apply by_host, T]).
      destruct (try_progress s1 sz str id G1 eq_refl) as (s2 & S2 & G2 & L2). exists s2. split; [econstructor; [apply by_host, T|exact S2]|]. split; [exact G2|].
      replace (hm n (n - D) s) with (hm n (n - D) s1); [exact L2|]. unfold hm. subst s1. proj. rewrite E. reflexivity.
    + exfalso. pose proof (h_hold_term n D s sz str id wid E X) as T. pose proof (good_step _ _ G (by_host _ _ _ _ T)) as [_ B]. exact B.
    + pose proof (h_hold_no n D s sz str id wid E (or_intror X)) as T. set (s1 := set_hp _ _) in T. assert (G1 : good s1) by (eapply good_step; [exact G|apply by_host, T]).
      destruct (try_progress s1 sz str id G1 eq_refl) as (s2 & S2 & G2 & L2). exists s2. split; [econstructor; [apply by_host, T|exact S2]|]. split; [exact G2|].
      replace (hm n (n - D) s) with (hm n (n - D) s1); [exact L2|]. unfold hm. subst s1. proj. rewrite E. reflexivity.
  - right. eapply one_step; [exact G|eapply h_sig; exact E|]. destruct (signal_proj s wid) as (_ & _ & _ & P4 & _). unfold hm. proj. rewrite E, P4. lia.
  - right. eapply one_step; [exact G|eapply h_unl; exact E|]. unfold hm. proj. rewrite E. lia.
  - right. eapply one_step; [exact G|eapply h_host; exact E|]. unfold hm. proj. rewrite E. lia.
  - right. eapply one_step; [exact G|eapply h_host_done; exact E|]. unfold hm. proj. rewrite E. lia.
  - right. destruct (Z_lt_le_dec id n) as [L|L]; [|eapply one_step; [exact G|eapply h_wait_end; [exact E|exact L]|]; unfold hm; proj; rewrite E; lia].
    destruct (settle s G ltac:(rewrite E; reflexivity)) as (s1 & S1 & G1 & Sh & Se). pose proof Sh as (A1 & A2 & A3 & A4 & A5). apply (after s s1 S1 Sh). rewrite E in A1.
    assert (X : dn s1 id = true).
    { pose proof G1 as [[[R1 _ _] L1] _]. unfold hrange in R1. rewrite A1 in R1. destruct L1 as [B _ _|e l m sz str js _ _ _ _ J]; [destruct R1; congruence|].
      pose proof J as [J1 J2 J3 J4 J5 J6 J7 J8 J9 J9' J10 J11]. assert (Hid : 0 <= id < n) by lia. destruct (js id) as [|i| |] eqn:Ej.
      - apply J6 in Ej; [|exact Hid]. rewrite A1 in Ej. cbn [handed] in Ej. lia.
      - exfalso. destruct (J1 id i Hid Ej) as (Hi & Hh & _). destruct (normal_settled s1 i G1 Hi ltac:(rewrite A1; reflexivity) (Se i Hi)) as (Ew & Ex & _). rewrite Ew, Ex in Hh. discriminate.
      - exfalso. destruct (J4 id Hid Ej) as (_ & _ & [[Q _]|[Q _]]); congruence.
      - apply (J3 id Hid Ej). }
    eapply one_step; [exact G1|eapply h_wait_next; [exact A1|exact L|exact X]|]. unfold hm. proj. rewrite A1. lia.
  - right. destruct R as [R Rb]. destruct (Z_lt_le_dec id (n - D)) as [L|L].
    + destruct (settle s G ltac:(rewrite E; reflexivity)) as (s1 & S1 & G1 & Sh & Se). pose proof Sh as (A1 & A2 & A3 & A4 & A5). apply (after s s1 S1 Sh). rewrite E in A1.
      assert (Hi : 0 <= id < n - D) by lia. destruct (normal_settled s1 id G1 Hi ltac:(rewrite A1; cbn [view_of]; replace (id <? id) with false by lia; reflexivity) (Se id Hi)) as (Ew & Ex & Em).
      eapply one_step; [exact G1|eapply h_halt_lock; [exact A1|exact L|exact Em]|]. unfold hm. proj. rewrite A1. lia.
    + eapply one_step; [exact G|eapply h_halt_end; [exact E|exact L|]|].
      * intros i Hi. specialize (W i Hi). unfold wok in W. rewrite E in W. cbn [view_of] in W. replace (i <? id) with true in W by lia. destruct (mtx s i) as [[|]|]; [discriminate|discriminate|reflexivity].
      * unfold hm. proj. rewrite E. lia.
  - right. eapply one_step; [exact G|eapply h_halt_set; exact E|]. unfold hm. proj. rewrite E. lia.
  - right. eapply one_step; [exact G|eapply h_halt_sig; exact E|]. destruct (signal_proj s id) as (_ & _ & _ & P4 & _). unfold hm. proj. rewrite E, P4. lia.
  - right. eapply one_step; [exact G|eapply h_halt_unl; exact E|]. unfold hm. proj. rewrite E. lia.
  - right. destruct (settle s G ltac:(rewrite E; reflexivity)) as (s1 & S1 & G1 & Sh & Se). pose proof Sh as (A1 & A2 & A3 & A4 & A5). apply (after s s1 S1 Sh). rewrite E in A1.
    assert (X : wp s1 id = WDead).
    { pose proof G1 as [[[_ _ W1] _] _]. destruct R as [R _]. specialize (W1 id R). specialize (Se id R). unfold wok in W1. rewrite A1 in W1. cbn [view_of] in W1. unfold halting in W1. replace (id <? id) with false in W1 by lia. rewrite Z.eqb_refl in W1.
      destruct (wp s1 id); destruct (st s1 id); destruct (mtx s1 id) as [[|]|]; cbn in *; congruence. }
    eapply one_step; [exact G1|eapply h_join; [exact A1|exact X]|]. unfold hm. proj. rewrite A1. lia.
Qed.
Lemma hm_nonneg s : good s -> 0 <= hm n (n - D) s.
Proof.
  intros [[[R _ _] _] _]. unfold hrange in R. unfold MAX_PIPELINE in Hn. assert (0 <= n - D) by lia. unfold hm. assert (0 <= (12 * (n - D) + 2 * n + 20) * Z.of_nat (length (calls s))) by nia.
  set (k := _ * _) in *. clearbody k. destruct (hp s); lia.
Qed.
Lemma finish : forall m : nat, forall s, good s -> hm n (n - D) s <= Z.of_nat m -> exists s', steps n D s s' /\ good s' /\ final s'.
Proof.
  induction m as [|m IH]; intros s G L; destruct (host_progress s G) as [F|(s1 & S1 & G1 & L1)]; try (exists s; split; [constructor|]; split; assumption).
  - pose proof (hm_nonneg s1 G1). lia.
  - destruct (IH s1 G1 ltac:(lia)) as (s2 & S2 & G2 & F2). exists s2. split; [eapply steps_trans; eassumption|]. split; assumption.
Qed.
End Progress.
