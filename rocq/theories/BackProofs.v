(* Proofs about the serial and OpenMP back ends. *)
From Coq Require Import ZArith List Bool FinFun Lia ZifyBool.
From Verif Require Import ThreadModel ThreadSpec ThreadLive BackModel BackSpec.
Import ListNotations.
Open Scope Z_scope.
Ltac Zify.zify_post_hook ::= idtac.

Lemma pending_app b a c : pending_after b (a ++ c) = pending_after (pending_after b a) c.
Proof. revert b. induction a as [|x a IH]; intro b; [reflexivity|]. destruct x; cbn [app pending_after]; apply IH. Qed.
Lemma dispatches_app a c : dispatches (a ++ c) = (dispatches a + dispatches c)%nat.
Proof. induction a as [|x a IH]; [reflexivity|]. destruct x; cbn [app dispatches]; rewrite IH; lia. Qed.
Lemma expected_app d a c : expected d (a ++ c) = expected d a ++ expected (d + dispatches a) c.
Proof.
  revert d. induction a as [|x a IH]; intro d; cbn [app expected dispatches]; [rewrite Nat.add_0_r; reflexivity|].
  destruct x; cbn [app expected dispatches]; rewrite IH; f_equal; f_equal; f_equal; lia.
Qed.

Lemma ids_In n j : In j (ids n) <-> 0 <= j < n.
Proof.
  unfold ids. rewrite in_map_iff. split.
  - intros (k & <- & K). apply in_seq in K. lia.
  - intro H. exists (Z.to_nat j). split; [lia|]. apply in_seq. lia.
Qed.
Lemma ids_NoDup n : NoDup (ids n).
Proof. unfold ids. apply Injective_map_NoDup; [intros x y; lia|apply seq_NoDup]. Qed.

(* a loop over distinct jobs *)
Lemma jobs_filter d sz str j l : NoDup l -> filter (of_job j) (flat_map (fun id => [EvStart d id (id * sz * str); EvFinish d id]) l) =
  if existsb (Z.eqb j) l then [EvStart d j (j * sz * str); EvFinish d j] else [].
Proof.
  induction l as [|a l IH]; intro ND; [reflexivity|]. inversion ND as [|? ? NI ND']; subst.
  cbn [flat_map app filter of_job existsb]. specialize (IH ND'). destruct (Z.eqb_spec j a) as [-> |NE].
  - cbn [orb]. rewrite IH. replace (existsb (Z.eqb a) l) with false; [reflexivity|]. symmetry.
    destruct (existsb (Z.eqb a) l) eqn:E; [|reflexivity]. apply existsb_exists in E. destruct E as (x & X & Y). apply Z.eqb_eq in Y. subst x. contradiction.
  - exact IH.
Qed.
Lemma within_ids n j : existsb (Z.eqb j) (ids n) = within n j.
Proof.
  destruct (existsb (Z.eqb j) (ids n)) eqn:E.
  - apply existsb_exists in E. destruct E as (x & X & Y). apply Z.eqb_eq in Y. subst x. apply ids_In in X. symmetry. unfold within. lia.
  - destruct (within n j) eqn:W; [|reflexivity]. assert (existsb (Z.eqb j) (ids n) = true); [|congruence].
    apply existsb_exists. exists j. split; [apply ids_In; unfold within in W; lia|apply Z.eqb_refl].
Qed.
Lemma serial_block n d sz str : block_ok n d sz str (serial_jobs n d sz str).
Proof.
  split.
  - intro j. unfold serial_jobs. rewrite jobs_filter by apply ids_NoDup. rewrite within_ids. reflexivity.
  - intros e H. right. unfold serial_jobs in H. apply in_flat_map in H. destruct H as (id & _ & [<- |[<- |[]]]); exists id; cbn [of_job]; apply Z.eqb_refl.
Qed.
Lemma block_snoc_strag n d sz str m : block_ok n d sz str m -> block_ok n d sz str (m ++ [EvStrag]).
Proof.
  intros [A B]. split.
  - intro j. rewrite filter_app. cbn [filter of_job]. rewrite app_nil_r. apply A.
  - intros e H. apply in_app_iff in H. destruct H as [H|[<- |[]]]; [apply B, H|left; reflexivity].
Qed.
Lemma own_jobs m : (forall e, In e m -> exists j, of_job j e = true) -> filter own m = [].
Proof.
  induction m as [|e m IH]; intro H; [reflexivity|]. cbn [filter]. destruct (H e (or_introl eq_refl)) as (j & J).
  destruct e; cbn [of_job] in J; try discriminate; cbn [own]; apply IH; intros x X; apply H; right; exact X.
Qed.

(* ---- serial ---- *)
(* what the events up to now are *)
Definition so_far (n : Z) (b : bool) (d : nat) (l : list event) : Prop :=
  if b then exists e l0 sz str m, d = S e /\ l = l0 ++ EvDispatch e sz str :: m /\ complete n e l0 /\ block_ok n e sz str m else complete n d l.
Lemma offs_ok_all n sz str : offs_ok n sz str -> forallb (fun id => off_ok id sz str) (ids n) = true.
Proof. intro H. apply forallb_forall. intros id I. apply ids_In in I. specialize (H id). unfold off_ok, int_ok in *. lia. Qed.
Lemma serial_ok n cs : forall b d l0, wf n b cs -> so_far n b d l0 ->
  exists l, serial_run n true b d cs = (SOk, l) /\ filter own l = expected d cs /\ so_far n (pending_after b cs) (d + dispatches cs) (l0 ++ l).
Proof.
  induction cs as [|c cs IH]; intros b d l0 W S0.
  - exists []. rewrite app_nil_r, Nat.add_0_r. do 2 (split; [reflexivity|]). exact S0.
  - destruct c as [sz str| | |]; cbn [wf] in W; cbn [serial_run expected pending_after dispatches negb].
    + destruct W as (-> & O & W). rewrite (offs_ok_all _ _ _ O).
      destruct (IH true (S d) (l0 ++ EvDispatch d sz str :: serial_jobs n d sz str) W) as (l & R & E & S1).
      { cbn [so_far] in S0 |- *. exists d, l0, sz, str, (serial_jobs n d sz str). do 2 (split; [reflexivity|]). split; [exact S0|apply serial_block]. }
      exists ((EvDispatch d sz str :: serial_jobs n d sz str) ++ l). rewrite R. split; [reflexivity|]. split.
      * rewrite filter_app. cbn [filter own]. rewrite own_jobs, E; [reflexivity|].
        intros e H. unfold serial_jobs in H. apply in_flat_map in H. destruct H as (id & _ & [<- |[<- |[]]]); exists id; cbn [of_job]; apply Z.eqb_refl.
      * rewrite app_assoc. replace (d + S (dispatches cs))%nat with (S d + dispatches cs)%nat by lia. exact S1.
    + destruct (IH b d (l0 ++ [EvStrag]) W) as (l & R & E & S1).
      { unfold so_far in *. destruct b.
        - destruct S0 as (e & l1 & sz & str & m & -> & -> & C & B). exists e, l1, sz, str, (m ++ [EvStrag]). split; [reflexivity|].
          split; [rewrite <- app_assoc; reflexivity|]. split; [exact C|apply block_snoc_strag, B].
        - apply c_strag, S0. }
      exists (EvStrag :: l). rewrite R. split; [reflexivity|]. split; [cbn [filter own]; rewrite E; reflexivity|].
      change (EvStrag :: l) with ([EvStrag] ++ l). rewrite app_assoc. exact S1.
    + destruct W as (-> & W). destruct (IH false d (l0 ++ [EvReturn (Nat.pred d)]) W) as (l & R & E & S1).
      { cbn [so_far] in *. destruct S0 as (e & l1 & sz & str & m & -> & -> & C & B). cbn [Nat.pred]. rewrite <- app_assoc. cbn [app]. apply c_block; assumption. }
      exists (EvReturn (Nat.pred d) :: l). rewrite R. split; [reflexivity|]. split; [cbn [filter own]; rewrite E; reflexivity|].
      change (EvReturn (Nat.pred d) :: l) with ([EvReturn (Nat.pred d)] ++ l). rewrite app_assoc. exact S1.
    + destruct W as (-> & ->). exists [EvHalted]. split; [reflexivity|]. split; [reflexivity|]. cbn [so_far pending_after dispatches] in *. rewrite Nat.add_0_r. apply c_halt, S0.
Qed.

(* ---- OpenMP ---- *)
Definition no_halt (cs : list call) : Prop := ~ In CHalt cs.
(* the same arguments for all pipelines, or arguments of one byte *)
Definition shared_args (cs : list call) : Prop := forall sz str, In (CDispatch sz str) cs -> str = 0 \/ sz = 1.
Lemma omp_off_shared sz str j : str = 0 \/ sz = 1 -> omp_off sz str j = j * sz * str.
Proof. unfold omp_off. intros [-> | ->]; ring. Qed.
Definition job_events (d : nat) (sz str j : Z) (x : ojob) : list event :=
  match x with JTodo => [] | JRun => [EvStart d j (j * sz * str)] | JDone => [EvStart d j (j * sz * str); EvFinish d j] end.
Definition region_ok (n : Z) (d : nat) (sz str : Z) (jobs : Z -> ojob) (m : list event) : Prop :=
  (forall j, filter (of_job j) m = if within n j then job_events d sz str j (jobs j) else []) /\
  (forall e, In e m -> exists j, of_job j e = true).
Definition oinv (n : Z) (prog : list call) (s : ostate) : Prop :=
  exists executed, prog = executed ++ o_calls s /\ filter own (o_log s) = expected 0 executed /\ o_disp s = dispatches executed /\
    wf n (pending_after false executed) (o_calls s) /\
    match o_reg s with
    | None => (forall j, o_job s j = JTodo) /\ so_far n (pending_after false executed) (o_disp s) (o_log s)
    | Some (sz, str) => pending_after false executed = true /\
        exists e l m, (str = 0 \/ sz = 1) /\ o_disp s = S e /\ o_log s = l ++ EvDispatch e sz str :: m /\ complete n e l /\ region_ok n e sz str (o_job s) m
    end.
Lemma own_snoc l e : filter own (l ++ [e]) = filter own l ++ (if own e then [e] else []).
Proof. rewrite filter_app. cbn [filter]. destruct (own e); reflexivity. Qed.

Lemma region_step n d sz str jobs m j x ev : 0 <= j < n -> region_ok n d sz str jobs m -> of_job j ev = true ->
  (forall i, i <> j -> of_job i ev = false) ->
  job_events d sz str j (jobs j) ++ [ev] = job_events d sz str j x -> region_ok n d sz str (set jobs j x) (m ++ [ev]).
Proof.
  intros J [A B] E N X. split.
  - intro i. rewrite filter_app. cbn [filter]. rewrite A. unfold set. destruct (Z.eqb_spec i j) as [-> |NE].
    + rewrite E. replace (within n j) with true by (unfold within; lia). exact X.
    + rewrite (N i NE), app_nil_r. reflexivity.
  - intros e H. apply in_app_iff in H. destruct H as [H|[<- |[]]]; [apply B, H|exists j; exact E].
Qed.

Lemma oinv_reach n T prog s : wf n false prog -> no_halt prog -> shared_args prog -> oreach n T prog s -> oinv n prog s.
Proof.
  intros W NH SA R. induction R as [|s s' R IH ST].
  - exists []. do 3 (split; [reflexivity|]). split; [exact W|]. split; [reflexivity|apply c_nil].
  - destruct IH as (ex & P & F & D & W1 & I). destruct ST as [sz str cs G C|sz str j G J TD L|j J RN|sz str G AD|cs G C|cs G C]; unfold oinv; cbn [o_calls o_disp o_reg o_job o_log].
    + rewrite G in I. rewrite C in *. cbn [wf] in W1. destruct W1 as (PF & O & W1). rewrite PF in I. destruct I as [JT SF]. cbn [so_far] in SF.
      exists (ex ++ [CDispatch sz str]). split; [rewrite <- app_assoc; exact P|]. split; [rewrite own_snoc, F, expected_app, <- D; reflexivity|].
      split; [rewrite dispatches_app, <- D; cbn [dispatches]; lia|]. rewrite pending_app, PF. cbn [pending_after]. split; [exact W1|]. split; [reflexivity|].
      exists (o_disp s), (o_log s), []. split; [apply SA; rewrite P; apply in_app_iff; right; left; reflexivity|]. split; [reflexivity|]. split; [reflexivity|]. split; [exact SF|].
      split; [intro j; cbn [filter job_events]; destruct (within n j); reflexivity|intros e []].
    + rewrite G in *. destruct I as (PA & e & l & m & SH & E & EL & CO & RG). exists ex. split; [exact P|]. split; [rewrite own_snoc; cbn [own]; rewrite app_nil_r; exact F|].
      split; [exact D|]. split; [exact W1|]. split; [exact PA|]. exists e, l, (m ++ [EvStart (Nat.pred (o_disp s)) j (omp_off sz str j)]). split; [exact SH|].
      split; [exact E|]. split; [rewrite EL, <- app_assoc; reflexivity|]. split; [exact CO|]. rewrite E. cbn [Nat.pred]. rewrite (omp_off_shared _ _ _ SH).
      apply region_step; [exact J|exact RG|cbn [of_job]; apply Z.eqb_refl|intros i NE; cbn [of_job]; apply Z.eqb_neq, NE|]. rewrite TD. reflexivity.
    + destruct (o_reg s) as [[sz str]|] eqn:G; [|destruct I as [JT _]; rewrite JT in RN; discriminate].
      destruct I as (PA & e & l & m & SH & E & EL & CO & RG). exists ex. split; [exact P|]. split; [rewrite own_snoc; cbn [own]; rewrite app_nil_r; exact F|].
      split; [exact D|]. split; [exact W1|]. split; [exact PA|]. exists e, l, (m ++ [EvFinish (Nat.pred (o_disp s)) j]). split; [exact SH|].
      split; [exact E|]. split; [rewrite EL, <- app_assoc; reflexivity|]. split; [exact CO|]. rewrite E. cbn [Nat.pred].
      apply region_step; [exact J|exact RG|cbn [of_job]; apply Z.eqb_refl|intros i NE; cbn [of_job]; apply Z.eqb_neq, NE|]. rewrite RN. reflexivity.
    + rewrite G in I. destruct I as (PA & e & l & m & SH & E & EL & CO & [RA RB]). exists ex. do 3 (split; [assumption|]). split; [exact W1|]. split; [reflexivity|].
      rewrite PA. cbn [so_far]. exists e, l, sz, str, m. split; [exact E|]. split; [exact EL|]. split; [exact CO|]. split; [|intros ev H; right; apply RB, H].
      intro j. rewrite RA. destruct (within n j) eqn:WI; [|reflexivity]. rewrite AD by (unfold within in WI; lia). reflexivity.
    + rewrite G in I. rewrite C in *. cbn [wf] in W1. destruct I as [JT SF]. exists (ex ++ [CStrag]). split; [rewrite <- app_assoc; exact P|].
      split; [rewrite own_snoc, F, expected_app, <- D; reflexivity|]. split; [rewrite dispatches_app, <- D; cbn [dispatches]; lia|]. rewrite pending_app. cbn [pending_after].
      split; [exact W1|]. split; [exact JT|]. unfold so_far in *. destruct (pending_after false ex).
      * destruct SF as (e & l1 & sz & str & m & E & -> & CO & B). exists e, l1, sz, str, (m ++ [EvStrag]). split; [exact E|].
        split; [rewrite <- app_assoc; reflexivity|]. split; [exact CO|apply block_snoc_strag, B].
      * apply c_strag, SF.
    + rewrite G in I. rewrite C in *. cbn [wf] in W1. destruct W1 as [PT W1]. rewrite PT in I. destruct I as [JT SF]. exists (ex ++ [CWait]). split; [rewrite <- app_assoc; exact P|].
      split; [rewrite own_snoc, F, expected_app, <- D; reflexivity|]. split; [rewrite dispatches_app, <- D; cbn [dispatches]; lia|]. rewrite pending_app, PT. cbn [pending_after].
      split; [exact W1|]. split; [exact JT|]. cbn [so_far] in *. destruct SF as (e & l1 & sz & str & m & -> & -> & CO & B). cbn [Nat.pred]. rewrite <- app_assoc. cbn [app].
      apply c_block; assumption.
Qed.

(* no deadlock *)
Definition weight (x : ojob) : nat := match x with JTodo => 2 | JRun => 1 | JDone => 0 end%nat.
Definition load (jobs : Z -> ojob) (l : list Z) : nat := list_sum (map (fun j => weight (jobs j)) l).
Lemma load_other jobs j x l : ~ In j l -> load (set jobs j x) l = load jobs l.
Proof.
  intro N. unfold load. f_equal. apply map_ext_in. intros i I. unfold set. destruct (Z.eqb_spec i j) as [-> |]; [contradiction|reflexivity].
Qed.
Lemma load_set jobs j x l : NoDup l -> In j l -> (load (set jobs j x) l + weight (jobs j) = load jobs l + weight x)%nat.
Proof.
  induction l as [|a l IH]; intros ND I; [destruct I|]. inversion ND as [|? ? NI ND']; subst. unfold load in *. cbn [map list_sum fold_right].
  destruct (Z.eq_dec a j) as [-> |NE].
  - pose proof (load_other jobs j x l NI) as L. unfold load in L. change (fold_right Nat.add 0%nat) with list_sum. rewrite L. unfold set at 1. rewrite Z.eqb_refl. lia.
  - destruct I as [I|I]; [contradiction|]. specialize (IH ND' I). change (fold_right Nat.add 0%nat) with list_sum. unfold set at 1. apply Z.eqb_neq in NE. rewrite NE. lia.
Qed.
Lemma pick (jobs : Z -> ojob) l : (forall j, In j l -> jobs j = JDone) \/ (exists j, In j l /\ jobs j = JRun) \/
  (exists j, In j l /\ jobs j = JTodo) /\ filter (fun j => is_run (jobs j)) l = [].
Proof.
  induction l as [|a l IH]; [left; intros j []|]. destruct (jobs a) eqn:E.
  - destruct IH as [A|[(j & J & R)|[(j & J & TD) N]]].
    + right. right. split; [exists a; split; [left; reflexivity|exact E]|]. cbn [filter]. rewrite E. cbn [is_run].
      clear - A. induction l as [|b l IH]; [reflexivity|]. cbn [filter]. rewrite (A b) by (left; reflexivity). cbn [is_run]. apply IH. intros j J. apply A. right. exact J.
    + right. left. exists j. split; [right; exact J|exact R].
    + right. right. split; [exists j; split; [right; exact J|exact TD]|]. cbn [filter]. rewrite E. exact N.
  - right. left. exists a. split; [left; reflexivity|exact E].
  - destruct IH as [A|[(j & J & R)|[(j & J & TD) N]]].
    + left. intros j [<- |J]; [exact E|apply A, J].
    + right. left. exists j. split; [right; exact J|exact R].
    + right. right. split; [exists j; split; [right; exact J|exact TD]|]. cbn [filter]. rewrite E. exact N.
Qed.
Lemma region_ends n T k : (1 <= T)%nat -> forall s x, o_reg s = Some x -> (load (o_job s) (ids n) <= k)%nat ->
  exists s', osteps n T s s' /\ o_calls s' = o_calls s /\ o_reg s' = None.
Proof.
  intro HT. induction k as [|k IH]; intros s [sz str] G L.
  - exists (mk_ostate (o_calls s) (o_disp s) None (fun _ => JTodo) (o_log s)). split; [|split; reflexivity].
    eapply os_step; [|apply os_refl]. apply (o_join n T s sz str G). intros j J. apply ids_In in J. clear - L J.
    induction (ids n) as [|a l IHl]; [destruct J|]. unfold load in L. cbn [map list_sum fold_right] in L. destruct J as [-> |J].
    + destruct (o_job s j); cbn [weight] in L; [lia|lia|reflexivity].
    + apply IHl; [unfold load; change (fold_right Nat.add 0%nat) with list_sum in L; lia|exact J].
  - destruct (pick (o_job s) (ids n)) as [A|[(j & J & R)|[(j & J & TD) N]]].
    + exists (mk_ostate (o_calls s) (o_disp s) None (fun _ => JTodo) (o_log s)). split; [|split; reflexivity].
      eapply os_step; [|apply os_refl]. apply (o_join n T s sz str G). intros j J. apply A, ids_In, J.
    + assert (Jn : 0 <= j < n) by (apply ids_In, J). pose proof (load_set (o_job s) j JDone (ids n) (ids_NoDup n) J) as LS. rewrite R in LS. cbn [weight] in LS.
      destruct (IH (mk_ostate (o_calls s) (o_disp s) (o_reg s) (set (o_job s) j JDone) (o_log s ++ [EvFinish (Nat.pred (o_disp s)) j])) (sz, str) G ltac:(cbn [o_job]; lia)) as (s' & S & C & Q).
      exists s'. split; [eapply os_step; [apply (o_finish n T s j Jn R)|exact S]|]. split; assumption.
    + assert (Jn : 0 <= j < n) by (apply ids_In, J). pose proof (load_set (o_job s) j JRun (ids n) (ids_NoDup n) J) as LS. rewrite TD in LS. cbn [weight] in LS.
      destruct (IH (mk_ostate (o_calls s) (o_disp s) (o_reg s) (set (o_job s) j JRun) (o_log s ++ [EvStart (Nat.pred (o_disp s)) j (omp_off sz str j)])) (sz, str) G ltac:(cbn [o_job]; lia)) as (s' & S & C & Q).
      exists s'. split; [eapply os_step; [apply (o_start n T s sz str j G Jn TD); unfold running; rewrite N; cbn [length]; lia|exact S]|]. split; assumption.
Qed.
Lemma osteps_trans n T a b c : osteps n T a b -> osteps n T b c -> osteps n T a c.
Proof. intros A B. induction A as [|s s1 s2 X A IH]; [exact B|]. eapply os_step; [exact X|apply IH, B]. Qed.
Lemma omp_finish n T cs : (1 <= T)%nat -> forall s, o_calls s = cs -> no_halt cs -> exists s', osteps n T s s' /\ o_calls s' = [] /\ o_reg s' = None.
Proof.
  intro HT. induction cs as [|c cs IH]; intros s C NH.
  - destruct (o_reg s) as [x|] eqn:G; [|exists s; split; [apply os_refl|split; assumption]].
    destruct (region_ends n T _ HT s x G (le_n _)) as (s' & S & C' & Q). exists s'. split; [exact S|]. split; [congruence|exact Q].
  - assert (X : exists s1, osteps n T s s1 /\ o_calls s1 = c :: cs /\ o_reg s1 = None).
    { destruct (o_reg s) as [x|] eqn:G; [|exists s; split; [apply os_refl|split; assumption]].
      destruct (region_ends n T _ HT s x G (le_n _)) as (s' & S & C' & Q). exists s'. split; [exact S|]. split; [congruence|exact Q]. }
    destruct X as (s1 & S1 & C1 & G1). assert (NH' : no_halt cs) by (intro H; apply NH; right; exact H).
    assert (Y : exists s2, ostep n T s1 s2 /\ o_calls s2 = cs).
    { destruct c as [sz str| | |].
      - eexists. split; [apply (o_fork n T s1 sz str cs G1 C1)|reflexivity].
      - eexists. split; [apply (o_strag n T s1 cs G1 C1)|reflexivity].
      - eexists. split; [apply (o_wait n T s1 cs G1 C1)|reflexivity].
      - exfalso. apply NH. left. reflexivity. }
    destruct Y as (s2 & S2 & C2). destruct (IH s2 C2 NH') as (s' & S & C' & Q). exists s'. split; [|split; assumption].
    apply (osteps_trans _ _ _ _ _ S1). eapply os_step; eassumption.
Qed.

(* ---- the calls of jobs in a complete history are determined by the caller's own events ---- *)
Fixpoint args_of (d : nat) (l : list event) : option (Z * Z) :=
  match l with [] => None | EvDispatch d' sz str :: l => if Nat.eqb d d' then Some (sz, str) else args_of d l | _ :: l => args_of d l end.
Definition due (n : Z) (j off : Z) (x : option (Z * Z)) : nat :=
  match x with Some (sz, str) => if within n j && (off =? j * sz * str) then 1%nat else 0%nat | None => 0%nat end.
Lemma args_app d a b : args_of d (a ++ b) = match args_of d a with Some x => Some x | None => args_of d b end.
Proof. induction a as [|e a IH]; [reflexivity|]. destruct e; cbn [app args_of]; try exact IH. destruct (Nat.eqb d d0); [reflexivity|exact IH]. Qed.
Lemma args_own d l : args_of d (filter own l) = args_of d l.
Proof. induction l as [|e l IH]; [reflexivity|]. destruct e; cbn [filter own args_of]; rewrite ?IH; reflexivity. Qed.
Lemma block_no_args n e sz str m d : block_ok n e sz str m -> args_of d m = None.
Proof.
  intros [_ B]. induction m as [|x m IH]; [reflexivity|]. assert (IH' : args_of d m = None) by (apply IH; intros y Y; apply B; right; exact Y).
  destruct (B x (or_introl eq_refl)) as [-> |(j & J)]; [exact IH'|]. destruct x; cbn [of_job] in J; try discriminate; exact IH'.
Qed.
Lemma filter_filter_starts d j off m : filter (is_start d j off) m = filter (is_start d j off) (filter (of_job j) m).
Proof.
  induction m as [|e m IH]; [reflexivity|]. cbn [filter]. destruct e as [?| | | |d' j' o'|d' j']; cbn [is_start of_job]; try exact IH.
  - destruct (Z.eqb_spec j j') as [-> |NE]; cbn [filter is_start]; rewrite ?Z.eqb_refl, ?andb_true_r, ?andb_false_r; cbn [andb]; [|exact IH].
    destruct (Nat.eqb d d' && (off =? o')); rewrite IH; reflexivity.
  - destruct (j =? j'); cbn [filter is_start]; exact IH.
Qed.
Lemma complete_starts n D l : complete n D l -> (forall d, (D <= d)%nat -> args_of d l = None) /\ (forall d j off, starts d j off l = due n j off (args_of d l)).
Proof.
  intro C. induction C as [|D l sz str m C [I1 I2] B|D l C [I1 I2]|D l C [I1 I2]].
  - split; intros; reflexivity.
  - pose proof (fun d => block_no_args n D sz str m d B) as NA. split.
    + intros d L. rewrite args_app, (I1 d) by lia. cbn [args_of]. replace (Nat.eqb d D) with false by (symmetry; apply Nat.eqb_neq; lia).
      rewrite args_app, NA. reflexivity.
    + intros d j off. unfold starts in *. rewrite filter_app. cbn [filter is_start]. rewrite filter_app. cbn [filter is_start]. rewrite app_nil_r, app_length, I2.
      rewrite args_app. cbn [args_of]. rewrite args_app, NA. cbn [args_of].
      rewrite filter_filter_starts, (proj1 B j). destruct (Nat.eqb_spec d D) as [-> |NE].
      * rewrite (I1 D) by lia. cbn [due]. destruct (within n j); cbn [filter is_start length andb]; [|reflexivity]. rewrite Nat.eqb_refl, Z.eqb_refl. cbn [andb].
        destruct (off =? j * sz * str); reflexivity.
      * replace (match args_of d l with Some x => Some x | None => None end) with (args_of d l) by (destruct (args_of d l); reflexivity).
        destruct (within n j); cbn [filter is_start length]; [|lia]. apply Nat.eqb_neq in NE. rewrite NE. cbn [andb length]. lia.
  - split; intros; unfold starts in *; rewrite ?filter_app, ?args_app; cbn [filter is_start args_of]; rewrite ?app_nil_r.
    + rewrite I1 by assumption. reflexivity.
    + rewrite I2. destruct (args_of d l); reflexivity.
  - split; intros; unfold starts in *; rewrite ?filter_app, ?args_app; cbn [filter is_start args_of]; rewrite ?app_nil_r.
    + rewrite I1 by assumption. reflexivity.
    + rewrite I2. destruct (args_of d l); reflexivity.
Qed.
Lemma complete_same n D l D' l' : complete n D l -> complete n D' l' -> filter own l = filter own l' -> forall d j off, starts d j off l = starts d j off l'.
Proof.
  intros C C' E d j off. rewrite (proj2 (complete_starts _ _ _ C)), (proj2 (complete_starts _ _ _ C')). rewrite <- (args_own d l), <- (args_own d l'), E. reflexivity.
Qed.
