(* Proofs about how often a run does what, that ranks agree, and about restarts. *)
From Coq Require Import ZArith List Bool Lia ZifyBool.
From Verif Require Import ScheduleModel ScheduleSpec.
Import ListNotations.
Open Scope Z_scope.
Ltac Zify.zify_post_hook ::= idtac.

(* ---- intervals ---- *)
Lemma due_on i n : 0 <= n -> (due i n = true <-> on_interval i n).
Proof.
  intros Hn. unfold due, on_interval. rewrite andb_true_iff, Z.ltb_lt, Z.eqb_eq. split.
  - intros [Hi H]. split; [exact Hi|]. exists (Z.quot n i). pose proof (Z.quot_rem n i ltac:(lia)). rewrite H in *. lia.
  - intros [Hi (m & ->)]. split; [exact Hi|]. apply Z.rem_mul. lia.
Qed.
Lemma due_off i n : 0 <= n -> (due i n = false <-> ~ on_interval i n).
Proof. intros Hn. rewrite <- due_on by exact Hn. destruct (due i n); intuition congruence. Qed.
Lemma ceil_step i n : 0 < i -> 0 <= n -> (n + 1 + i - 1) / i = (n + i - 1) / i + (if Z.rem n i =? 0 then 1 else 0).
Proof.
  intros Hi Hn. rewrite Z.rem_mod_nonneg by lia.
  pose proof (Z.div_mod n i ltac:(lia)) as E. pose proof (Z.mod_pos_bound n i ltac:(lia)) as B.
  set (q := n / i) in *. set (r := n mod i) in *. clearbody q r.
  replace (n + 1 + i - 1) with (r + (q + 1) * i) by lia. rewrite Z.div_add, Z.div_small by lia.
  destruct (Z.eqb_spec r 0) as [->|Hr].
  - replace (n + i - 1) with (i - 1 + q * i) by lia. rewrite Z.div_add, Z.div_small by lia. lia.
  - replace (n + i - 1) with (r - 1 + (q + 1) * i) by lia. rewrite Z.div_add, Z.div_small by lia. lia.
Qed.
Lemma steps_on_step i n : 0 <= n -> steps_on i (n + 1) = steps_on i n + (if due i n then 1 else 0).
Proof. intros Hn. unfold steps_on, due. destruct (Z.ltb_spec 0 i) as [Hi|Hi]; cbn; [apply ceil_step; assumption|reflexivity]. Qed.
Lemma steps_on_0 i : steps_on i 0 = 0.
Proof. unfold steps_on. destruct (Z.ltb_spec 0 i); [apply Z.div_small; lia|reflexivity]. Qed.

(* ---- counting ---- *)
Lemma occ_app k a b : occurrences k (a ++ b) = occurrences k a + occurrences k b.
Proof. unfold occurrences. rewrite filter_app, app_length. lia. Qed.
Lemma occ_when k b l : occurrences k (when b l) = if b then occurrences k l else 0.
Proof. destruct b; reflexivity. Qed.
Lemma occ_msg k l : call_eqb k Message = false -> occurrences k (msg l) = 0.
Proof. intros H. unfold msg. destruct (l_rank l =? 0); [unfold occurrences; cbn; rewrite H|]; reflexivity. Qed.
Lemma occ_none {A} k (f : A -> list call) l : (forall a, In a l -> occurrences k (f a) = 0) -> occurrences k (flat_map f l) = 0.
Proof. induction l as [|a l IH]; cbn; intros H; [reflexivity|]. rewrite occ_app, H, IH by auto. reflexivity. Qed.
Lemma occ_single k (f : nat -> list call) s v : forall l, NoDup l -> In s l -> occurrences k (f s) = v -> (forall t, t <> s -> occurrences k (f t) = 0) ->
  occurrences k (flat_map f l) = v.
Proof.
  induction l as [|a l IH]; cbn; intros Hn Hi Hv H0; [contradiction|]. inversion_clear Hn. rewrite occ_app. destruct Hi as [->|Hi].
  - rewrite Hv, occ_none; [lia|]. intros t Ht. apply H0. intros ->. contradiction.
  - rewrite H0, IH by (auto; intros ->; contradiction). reflexivity.
Qed.
Lemma map_flat (f : nat -> call) l : map f l = flat_map (fun s => [f s]) l.
Proof. induction l; cbn; congruence. Qed.
Lemma occ_map_none k (f : nat -> call) l : (forall s, call_eqb k (f s) = false) -> occurrences k (map f l) = 0.
Proof. intros H. rewrite map_flat. apply occ_none. intros s _. unfold occurrences. cbn. rewrite H. reflexivity. Qed.
Lemma occ_map_one (f : nat -> call) s l : (forall t, call_eqb (f s) (f t) = Nat.eqb s t) -> NoDup l -> In s l -> occurrences (f s) (map f l) = 1.
Proof.
  intros H Hn Hi. rewrite map_flat. apply occ_single with (s := s); auto.
  - unfold occurrences. cbn. rewrite H, PeanoNat.Nat.eqb_refl. reflexivity.
  - intros t Ht. unfold occurrences. cbn. rewrite H. destruct (Nat.eqb_spec s t); [congruence|reflexivity].
Qed.
Lemma occ_rounds k f v n : (forall r, occurrences k (f r) = v) -> occurrences k (rounds n f) = Z.max 0 n * v.
Proof.
  intros H. unfold rounds. replace (Z.max 0 n) with (Z.of_nat (length (seq 0 (Z.to_nat n)))) by (rewrite seq_length; lia).
  induction (seq 0 (Z.to_nat n)) as [|a l IH]; [reflexivity|]. cbn [flat_map]. rewrite occ_app, H, IH. cbn [length]. lia.
Qed.
Lemma seq_end m : seq 0 (S m) = seq 0 m ++ [m].
Proof. rewrite seq_S. reflexivity. Qed.
Lemma occ_reported k f n : (forall r, occurrences k (f r) = if reported n r then 1 else 0) -> occurrences k (rounds n f) = Z.min 2 (Z.max 0 n).
Proof.
  intros H. unfold rounds.
  assert (X : forall m, Z.of_nat m <= Z.max 0 n -> occurrences k (flat_map (fun r => f (Z.of_nat r)) (seq 0 m)) =
     (if (m =? 0)%nat then 0 else 1) + (if (Z.of_nat m =? n) && (2 <=? n) then 1 else 0)).
  { induction m as [|m IH]; intros Hm.
    - cbn [seq flat_map]. change (occurrences k []) with 0. replace ((Z.of_nat 0 =? n) && (2 <=? n)) with false by lia. reflexivity.
    - rewrite seq_end, flat_map_app, occ_app, IH by lia. cbn [flat_map]. rewrite app_nil_r, H. unfold reported.
      replace (S m =? 0)%nat with false by lia.
      replace ((Z.of_nat m =? n) && (2 <=? n)) with false by lia.
      destruct (PeanoNat.Nat.eqb_spec m 0); destruct (Z.eqb_spec (Z.of_nat m) 0); destruct (Z.eqb_spec (Z.of_nat m) (n - 1)); cbn [orb]; try lia;
        destruct (Z.eqb_spec (Z.of_nat (S m)) n); destruct (Z.leb_spec 2 n); cbn [andb]; lia. }
  rewrite X by lia. destruct (PeanoNat.Nat.eqb_spec (Z.to_nat n) 0); destruct (Z.eqb_spec (Z.of_nat (Z.to_nat n)) n); destruct (Z.leb_spec 2 n); cbn [andb]; lia.
Qed.

Ltac cnt := repeat (rewrite ?occ_app, ?occ_when, ?occ_msg by reflexivity).
Lemma occ_sort_gate k c l n : (forall s, call_eqb k (SortP s) = false) -> call_eqb k Message = false ->
  occurrences k (flat_map (fun s => when (due (c_sort c s) n) (msg l ++ [SortP s])) (c_species c)) = 0.
Proof.
  intros H1 H2. apply occ_none. intros s _. rewrite occ_when, occ_app, occ_msg by exact H2. unfold occurrences. cbn. rewrite H1. destruct (due _ _); reflexivity.
Qed.
Lemma occ_drop_gate k c l : (forall s, call_eqb k (DropMovers s) = false) -> call_eqb k Message = false ->
  occurrences k (flat_map (fun s => when (negb (l_nm l s =? 0) && l_verbose l) [Message] ++ [DropMovers s]) (c_species c)) = 0.
Proof.
  intros H1 H2. apply occ_none. intros s _. rewrite occ_app, occ_when. unfold occurrences. cbn. rewrite H1, H2. destruct (_ && _); reflexivity.
Qed.
Definition is_species_call (k : call) : bool := match k with SortP _ | AdvanceP _ | DropMovers _ | AccRho _ | UncenterP _ => true | _ => false end.

(* the count of a call that is not per species, in one step *)
Lemma occ_step k c l n : call_eqb k Message = false -> is_species_call k = false ->
  occurrences k (advance_calls c l n) =
    (if some (c_species c) then occurrences k [ClearAcc; ReduceAcc; UnloadAcc; LoadInterp] else 0) +
    (if c_collide c then occurrences k [Collisions] else 0) + (if c_emit c then occurrences k [Emit] else 0) +
    occurrences k [UserCollisions; UserInject; ClearJf; SyncJf; UserCurrent; HalfAdvanceB; AdvanceE; UserField; HalfAdvanceB; IncStep; UserDiag] +
    Z.max 0 (c_comm_round c) * occurrences k [BoundaryP] +
    (if due (c_div_e c) n then occurrences k [ClearRhof; SyncRho] + Z.max 0 (c_div_e_round c) * occurrences k [DivEErr; CleanE] + Z.min 2 (Z.max 0 (c_div_e_round c)) * occurrences k [RmsE] else 0) +
    (if due (c_div_b c) n then Z.max 0 (c_div_b_round c) * occurrences k [DivBErr; CleanB] + Z.min 2 (Z.max 0 (c_div_b_round c)) * occurrences k [RmsB] else 0) +
    (if due (c_sync c) n then occurrences k [SyncTangENormB] else 0) +
    (if due (c_status c) (n + 1) then occurrences k [Profile] else 0).
Proof.
  intros Hm Hs. unfold advance_calls. repeat rewrite occ_app.
  rewrite occ_sort_gate, occ_drop_gate by (exact Hm || (intros; destruct k; reflexivity || discriminate)).
  rewrite occ_map_none by (intros; destruct k; reflexivity || discriminate).
  repeat rewrite occ_when. repeat rewrite occ_app. rewrite (occ_msg k l Hm).
  rewrite occ_map_none by (intros; destruct k; reflexivity || discriminate).
  rewrite (occ_rounds k (fun _ => [BoundaryP]) (occurrences k [BoundaryP])) by reflexivity.
  set (fe := fun r : Z => [DivEErr] ++ when (reported (c_div_e_round c) r) ([RmsE] ++ msg l) ++ [CleanE]).
  set (fb := fun r : Z => [DivBErr] ++ when (reported (c_div_b_round c) r) ([RmsB] ++ msg l) ++ [CleanB]).
  assert (Ee : occurrences k (rounds (c_div_e_round c) fe) = Z.max 0 (c_div_e_round c) * occurrences k [DivEErr; CleanE] + Z.min 2 (Z.max 0 (c_div_e_round c)) * occurrences k [RmsE]).
  { destruct (call_eqb k RmsE) eqn:Er.
    - rewrite (occ_reported k fe).
      + destruct k; try discriminate Er. cbn. lia.
      + intros r. unfold fe. rewrite !occ_app, occ_when, occ_app, (occ_msg k l Hm). destruct k; try discriminate Er. destruct (reported _ r); reflexivity.
    - rewrite (occ_rounds k fe (occurrences k [DivEErr; CleanE])).
      + replace (occurrences k [RmsE]) with 0 by (unfold occurrences; cbn; rewrite Er; reflexivity). lia.
      + intros r. unfold fe. rewrite !occ_app, occ_when, occ_app, (occ_msg k l Hm).
        change [DivEErr; CleanE] with ([DivEErr] ++ [CleanE]). rewrite occ_app.
        replace (occurrences k [RmsE]) with 0 by (unfold occurrences; cbn; rewrite Er; reflexivity). destruct (reported _ r); lia. }
  assert (Eb : occurrences k (rounds (c_div_b_round c) fb) = Z.max 0 (c_div_b_round c) * occurrences k [DivBErr; CleanB] + Z.min 2 (Z.max 0 (c_div_b_round c)) * occurrences k [RmsB]).
  { destruct (call_eqb k RmsB) eqn:Er.
    - rewrite (occ_reported k fb).
      + destruct k; try discriminate Er. cbn. lia.
      + intros r. unfold fb. rewrite !occ_app, occ_when, occ_app, (occ_msg k l Hm). destruct k; try discriminate Er. destruct (reported _ r); reflexivity.
    - rewrite (occ_rounds k fb (occurrences k [DivBErr; CleanB])).
      + replace (occurrences k [RmsB]) with 0 by (unfold occurrences; cbn; rewrite Er; reflexivity). lia.
      + intros r. unfold fb. rewrite !occ_app, occ_when, occ_app, (occ_msg k l Hm).
        change [DivBErr; CleanB] with ([DivBErr] ++ [CleanB]). rewrite occ_app.
        replace (occurrences k [RmsB]) with 0 by (unfold occurrences; cbn; rewrite Er; reflexivity). destruct (reported _ r); lia. }
  rewrite Ee, Eb.
  change [ClearAcc; ReduceAcc; UnloadAcc; LoadInterp] with ([ClearAcc] ++ [ReduceAcc] ++ [UnloadAcc] ++ [LoadInterp]).
  change [UserCollisions; UserInject; ClearJf; SyncJf; UserCurrent; HalfAdvanceB; AdvanceE; UserField; HalfAdvanceB; IncStep; UserDiag]
    with ([UserCollisions] ++ [UserInject] ++ [ClearJf] ++ [SyncJf] ++ [UserCurrent; HalfAdvanceB; AdvanceE; UserField; HalfAdvanceB] ++ [IncStep] ++ [UserDiag]).
  change [ClearRhof; SyncRho] with ([ClearRhof] ++ [SyncRho]).
  repeat rewrite occ_app.
  destruct (some (c_species c)), (c_collide c), (c_emit c), (due (c_div_e c) n), (due (c_div_b c) n), (due (c_sync c) n), (due (c_status c) (n + 1)); lia.
Qed.
(* the count of a call of one species, in one step *)
Lemma occ_step_species k c l n s : NoDup (c_species c) -> In s (c_species c) ->
  k = SortP s \/ k = AdvanceP s \/ k = DropMovers s \/ k = AccRho s ->
  occurrences k (advance_calls c l n) = match k with SortP _ => if due (c_sort c s) n then 1 else 0 | AccRho _ => if due (c_div_e c) n then 1 else 0 | _ => 1 end.
Proof.
  intros Hn Hi Hk. unfold advance_calls. repeat rewrite occ_app.
  assert (Hm : call_eqb k Message = false) by (destruct Hk as [->|[->|[->| ->]]]; reflexivity).
  assert (R1 : forall b l', occurrences k (when b l') = if b then occurrences k l' else 0) by (intros; apply occ_when).
  assert (Re : forall num, occurrences k (rounds num (fun r => [DivEErr] ++ when (reported num r) ([RmsE] ++ msg l) ++ [CleanE])) = 0).
  { intros num. rewrite (occ_rounds k _ 0); [lia|]. intros r. rewrite !occ_app, occ_when, occ_app, (occ_msg k l Hm).
    destruct Hk as [->|[->|[->| ->]]]; destruct (reported _ r); reflexivity. }
  assert (Rb : forall num, occurrences k (rounds num (fun r => [DivBErr] ++ when (reported num r) ([RmsB] ++ msg l) ++ [CleanB])) = 0).
  { intros num. rewrite (occ_rounds k _ 0); [lia|]. intros r. rewrite !occ_app, occ_when, occ_app, (occ_msg k l Hm).
    destruct Hk as [->|[->|[->| ->]]]; destruct (reported _ r); reflexivity. }
  assert (Rc : occurrences k (rounds (c_comm_round c) (fun _ => [BoundaryP])) = 0).
  { rewrite (occ_rounds k _ 0); [lia|]. intros _. destruct Hk as [->|[->|[->| ->]]]; reflexivity. }
  repeat rewrite occ_when. repeat rewrite occ_app. rewrite (occ_msg k l Hm), Re, Rb, Rc.
  assert (Eq1 : forall (a : call), occurrences k [a] = if call_eqb k a then 1 else 0) by (intros a; unfold occurrences; cbn; destruct (call_eqb k a); reflexivity).
  destruct Hk as [->|[->|[->| ->]]].
  - rewrite (occ_single (SortP s) _ s (if due (c_sort c s) n then 1 else 0)); auto.
    + rewrite occ_drop_gate, !occ_map_none by (intros; reflexivity). cbn.
      destruct (some (c_species c)), (c_collide c), (c_emit c), (due (c_div_e c) n), (due (c_div_b c) n), (due (c_sync c) n), (due (c_status c) (n + 1)); cbn; lia.
    + rewrite occ_when, occ_app, (occ_msg _ l Hm), Eq1. cbn. rewrite PeanoNat.Nat.eqb_refl. reflexivity.
    + intros t Ht. rewrite occ_when, occ_app, (occ_msg _ l Hm), Eq1. cbn. destruct (Nat.eqb_spec s t); [congruence|]. destruct (due _ _); reflexivity.
  - rewrite occ_sort_gate, occ_drop_gate, (occ_map_none _ AccRho), (occ_map_one AdvanceP) by (auto || (intros; reflexivity)). cbn.
    destruct (some (c_species c)), (c_collide c), (c_emit c), (due (c_div_e c) n), (due (c_div_b c) n), (due (c_sync c) n), (due (c_status c) (n + 1)); cbn; lia.
  - rewrite (occ_single (DropMovers s) (fun s => when (negb (l_nm l s =? 0) && l_verbose l) [Message] ++ [DropMovers s]) s 1); auto.
    + rewrite occ_sort_gate, !occ_map_none by (intros; reflexivity). cbn.
      destruct (some (c_species c)), (c_collide c), (c_emit c), (due (c_div_e c) n), (due (c_div_b c) n), (due (c_sync c) n), (due (c_status c) (n + 1)); cbn; lia.
    + rewrite occ_app, occ_when, !Eq1. cbn. rewrite PeanoNat.Nat.eqb_refl. destruct (_ && _); reflexivity.
    + intros t Ht. rewrite occ_app, occ_when, !Eq1. cbn. destruct (Nat.eqb_spec s t); [congruence|]. destruct (_ && _); reflexivity.
  - rewrite occ_sort_gate, occ_drop_gate, (occ_map_none _ AdvanceP), (occ_map_one AccRho) by (auto || (intros; reflexivity)). cbn.
    destruct (some (c_species c)), (c_collide c), (c_emit c), (due (c_div_e c) n), (due (c_div_b c) n), (due (c_sync c) n), (due (c_status c) (n + 1)); cbn; lia.
Qed.

(* ---- the main loop ---- *)
Fixpoint concat_steps (c : config) (l : Z -> local) (n : Z) (m : nat) : list call :=
  match m with O => [] | S m' => advance_calls c (l n) n ++ concat_steps c l (n + 1) m' end.
Lemma loop_steps c l : 0 < c_num_step c -> forall fuel n, c_num_step c - n <= Z.of_nat fuel ->
  main_loop fuel c l n = (concat_steps c l n (Z.to_nat (c_num_step c - n)), Z.max n (c_num_step c), true).
Proof.
  intros HN. induction fuel as [|f IH]; intros n Hf; cbn [main_loop]; unfold finished.
  - replace (0 <? c_num_step c) with true by lia. replace (c_num_step c <=? n) with true by lia. cbn.
    replace (Z.to_nat (c_num_step c - n)) with O by lia. rewrite Z.max_l by lia. reflexivity.
  - replace (0 <? c_num_step c) with true by lia. cbn [andb]. destruct (Z.leb_spec (c_num_step c) n) as [H|H].
    + replace (Z.to_nat (c_num_step c - n)) with O by lia. rewrite Z.max_l by lia. reflexivity.
    + rewrite IH by lia. replace (Z.to_nat (c_num_step c - n)) with (S (Z.to_nat (c_num_step c - (n + 1)))) by lia. cbn [concat_steps].
      rewrite !Z.max_r by lia. reflexivity.
Qed.
Lemma loop_forever c l : c_num_step c <= 0 -> forall fuel n, main_loop fuel c l n = (concat_steps c l n fuel, n + Z.of_nat fuel, false).
Proof.
  intros HN. induction fuel as [|f IH]; intros n; cbn [main_loop]; unfold finished; replace (0 <? c_num_step c) with false by lia; cbn [andb].
  - rewrite Z.add_0_r. reflexivity.
  - rewrite IH. cbn [concat_steps]. f_equal. f_equal. lia.
Qed.
Lemma concat_app c l : forall a b n, concat_steps c l n (a + b) = concat_steps c l n a ++ concat_steps c l (n + Z.of_nat a) b.
Proof.
  induction a as [|a IH]; intros b n; cbn [concat_steps Nat.add]; [rewrite Z.add_0_r; reflexivity|].
  rewrite IH, app_assoc. do 2 f_equal. lia.
Qed.
Lemma sum_steps k c l v i : (forall n, 0 <= n -> occurrences k (advance_calls c (l n) n) = if due i n then v else 0) ->
  forall m n, 0 <= n -> occurrences k (concat_steps c l n m) = v * (steps_on i (n + Z.of_nat m) - steps_on i n).
Proof.
  intros H. induction m as [|m IH]; intros n Hn; cbn [concat_steps].
  - rewrite Z.add_0_r. change (occurrences k []) with 0. lia.
  - rewrite occ_app, H, IH by lia. rewrite steps_on_step by lia. replace (n + Z.of_nat (S m)) with (n + 1 + Z.of_nat m) by lia. destruct (due i n); lia.
Qed.
Lemma sum_const k c l v : (forall n, 0 <= n -> occurrences k (advance_calls c (l n) n) = v) ->
  forall m n, 0 <= n -> occurrences k (concat_steps c l n m) = v * Z.of_nat m.
Proof.
  intros H. induction m as [|m IH]; intros n Hn; cbn [concat_steps]; [change (occurrences k []) with 0; lia|]. rewrite occ_app, H, IH by lia. lia.
Qed.

(* ---- ranks ---- *)
Lemma coll_msg l : filter collective (msg l) = [].
Proof. unfold msg. destruct (l_rank l =? 0); reflexivity. Qed.
Lemma coll_when b l : filter collective (when b l) = when b (filter collective l).
Proof. destruct b; reflexivity. Qed.
Lemma coll_flat {A} (f : A -> list call) l : filter collective (flat_map f l) = flat_map (fun a => filter collective (f a)) l.
Proof. induction l as [|a l IH]; cbn; [reflexivity|]. rewrite filter_app, IH. reflexivity. Qed.
Lemma flat_ext {A} (f g : A -> list call) l : (forall a, f a = g a) -> flat_map f l = flat_map g l.
Proof. intros H. induction l as [|a l IH]; cbn; [reflexivity|]. rewrite H, IH. reflexivity. Qed.
Lemma coll_rounds n f g : (forall r, filter collective (f r) = filter collective (g r)) -> filter collective (rounds n f) = filter collective (rounds n g).
Proof. intros H. unfold rounds. rewrite !coll_flat. apply flat_ext. intros a. apply H. Qed.
Lemma coll_step c l l' n : filter collective (advance_calls c l n) = filter collective (advance_calls c l' n).
Proof.
  unfold advance_calls. repeat rewrite filter_app.
  repeat rewrite coll_when. repeat rewrite filter_app. rewrite !coll_msg.
  assert (E1 : filter collective (flat_map (fun s => when (due (c_sort c s) n) (msg l ++ [SortP s])) (c_species c)) =
    filter collective (flat_map (fun s => when (due (c_sort c s) n) (msg l' ++ [SortP s])) (c_species c))).
  { rewrite !coll_flat. apply flat_ext. intros s. rewrite !coll_when, !filter_app, !coll_msg. reflexivity. }
  assert (E2 : filter collective (flat_map (fun s => when (negb (l_nm l s =? 0) && l_verbose l) [Message] ++ [DropMovers s]) (c_species c)) =
    filter collective (flat_map (fun s => when (negb (l_nm l' s =? 0) && l_verbose l') [Message] ++ [DropMovers s]) (c_species c))).
  { rewrite !coll_flat. apply flat_ext. intros s. rewrite !filter_app, !coll_when. destruct (_ && _), (_ && _); reflexivity. }
  rewrite E1, E2.
  rewrite (coll_rounds (c_div_e_round c) (fun r => [DivEErr] ++ when (reported (c_div_e_round c) r) ([RmsE] ++ msg l) ++ [CleanE])
     (fun r => [DivEErr] ++ when (reported (c_div_e_round c) r) ([RmsE] ++ msg l') ++ [CleanE]))
    by (intros r; rewrite !filter_app, !coll_when, !filter_app, !coll_msg; reflexivity).
  rewrite (coll_rounds (c_div_b_round c) (fun r => [DivBErr] ++ when (reported (c_div_b_round c) r) ([RmsB] ++ msg l) ++ [CleanB])
     (fun r => [DivBErr] ++ when (reported (c_div_b_round c) r) ([RmsB] ++ msg l') ++ [CleanB]))
    by (intros r; rewrite !filter_app, !coll_when, !filter_app, !coll_msg; reflexivity).
  reflexivity.
Qed.
Lemma coll_init c l l' : filter collective (initialize_calls c l) = filter collective (initialize_calls c l').
Proof. unfold initialize_calls. repeat rewrite filter_app. rewrite !coll_msg, !coll_when. repeat rewrite filter_app. rewrite !coll_msg. reflexivity. Qed.
Lemma coll_loop c l l' : forall fuel n, filter collective (fst (fst (main_loop fuel c l n))) = filter collective (fst (fst (main_loop fuel c l' n))) /\
  snd (fst (main_loop fuel c l n)) = snd (fst (main_loop fuel c l' n)) /\ snd (main_loop fuel c l n) = snd (main_loop fuel c l' n).
Proof.
  induction fuel as [|f IH]; intros n; cbn; destruct (finished (c_num_step c) n); cbn; auto.
  destruct (IH (n + 1)) as (E1 & E2 & E3). destruct (main_loop f c l (n + 1)) as [[a b] d], (main_loop f c l' (n + 1)) as [[a' b'] d']. cbn in *.
  rewrite !filter_app, E1, (coll_step c (l n) (l' n) n). auto.
Qed.

(* ---- restarts ---- *)
Lemma occ_in k l : In k l -> call_eqb k k = true -> 1 <= occurrences k l.
Proof.
  intros H E. unfold occurrences. assert (In k (filter (call_eqb k) l)) by (apply filter_In; auto). destruct (filter (call_eqb k) l); [contradiction|]. cbn [length]. lia.
Qed.
Lemma occ_inc l : Z.of_nat (length (filter is_inc l)) = occurrences IncStep l.
Proof. unfold occurrences. rewrite (filter_ext is_inc (call_eqb IncStep)); [reflexivity|]. intros []; reflexivity. Qed.
Lemma step_body c l n : exists body, advance_calls c l n = body ++ [UserDiag] /\ ~ In UserDiag body /\ occurrences IncStep body = 1.
Proof.
  assert (H1 : occurrences UserDiag (advance_calls c l n) = 1).
  { rewrite occ_step by reflexivity. unfold occurrences. cbn [filter call_eqb length].
    destruct (some (c_species c)), (c_collide c), (c_emit c), (due (c_div_e c) n), (due (c_div_b c) n), (due (c_sync c) n), (due (c_status c) (n + 1)); lia. }
  assert (H2 : occurrences IncStep (advance_calls c l n) = 1).
  { rewrite occ_step by reflexivity. unfold occurrences. cbn [filter call_eqb length].
    destruct (some (c_species c)), (c_collide c), (c_emit c), (due (c_div_e c) n), (due (c_div_b c) n), (due (c_sync c) n), (due (c_status c) (n + 1)); lia. }
  assert (X : exists body, advance_calls c l n = body ++ [UserDiag]) by (unfold advance_calls; eexists; rewrite !app_assoc; reflexivity).
  destruct X as (body & E). exists body. split; [exact E|]. rewrite E, occ_app in H1, H2.
  change (occurrences UserDiag [UserDiag]) with 1 in H1. change (occurrences IncStep [UserDiag]) with 0 in H2. split; [|lia].
  intros Hi. pose proof (occ_in UserDiag body Hi eq_refl). lia.
Qed.
Lemma split_at_diag c l : forall m n pre rest, concat_steps c l n m = pre ++ UserDiag :: rest ->
  exists j, (j < m)%nat /\ rest = concat_steps c l (n + Z.of_nat j + 1) (m - j - 1) /\ occurrences IncStep pre = Z.of_nat j + 1.
Proof.
  induction m as [|m IH]; intros n pre rest E; cbn [concat_steps] in E; [destruct pre; discriminate|].
  destruct (step_body c (l n) n) as (body & Eb & Hd & Hi). rewrite Eb, <- app_assoc in E. cbn [app] in E.
  assert (K : pre = body /\ rest = concat_steps c l (n + 1) m \/ exists p, pre = body ++ UserDiag :: p /\ concat_steps c l (n + 1) m = p ++ UserDiag :: rest).
  { destruct (app_eq_app _ _ _ _ E) as (q & [[A B]|[A B]]).
    - destruct q as [|k q]; cbn in B; [injection B as B2; left; rewrite app_nil_r in A; auto|]. injection B as B1 B2.
      exfalso. apply Hd. rewrite A. apply in_or_app. right. left. congruence.
    - destruct q as [|k q]; cbn in B; [injection B as B2; left; rewrite app_nil_r in A; auto|]. injection B as B1 B2.
      right. exists q. subst k. auto. }
  destruct K as [(-> & ->)|(p & -> & E2)].
  - exists O. split; [lia|]. split; [|lia]. f_equal; lia.
  - destruct (IH _ _ _ E2) as (j & Hj & -> & Ho). exists (S j). split; [lia|]. split; [f_equal; lia|].
    rewrite occ_app. change (UserDiag :: p) with ([UserDiag] ++ p). rewrite occ_app, Hi, Ho. change (occurrences IncStep [UserDiag]) with 0. lia.
Qed.
Lemma exists_reg l : existsb is_reg l = true <-> In Register l.
Proof.
  rewrite existsb_exists. split; [intros (x & Hx & E); destruct x; try discriminate; exact Hx|intros H; exists Register; auto].
Qed.
Lemma occ_init k c l : is_species_call k = false -> call_eqb k Message = false ->
  occurrences k (initialize_calls c l) = occurrences k [UserInit; SyncTangENormB; DivBErr; RmsB; CleanB; CurlB; ClearRhof; SyncRho; ComputeRhob; DivEErr; RmsE; CleanE; SyncTangENormB; UserDiag; Profile]
    + if some (c_species c) then occurrences k [LoadInterp] else 0.
Proof.
  intros Hs Hm. unfold initialize_calls. repeat rewrite occ_app. rewrite occ_when. repeat rewrite occ_app. rewrite (occ_msg k l Hm).
  rewrite !occ_map_none by (intros; destruct k; reflexivity || discriminate).
  change [UserInit; SyncTangENormB; DivBErr; RmsB; CleanB; CurlB; ClearRhof; SyncRho; ComputeRhob; DivEErr; RmsE; CleanE; SyncTangENormB; UserDiag; Profile]
    with ([UserInit] ++ [SyncTangENormB] ++ [DivBErr; RmsB] ++ [CleanB] ++ [CurlB] ++ [ClearRhof] ++ [SyncRho; ComputeRhob] ++ [DivEErr; RmsE] ++ [CleanE] ++ [SyncTangENormB] ++ [UserDiag] ++ [Profile]).
  repeat rewrite occ_app. destruct (some (c_species c)); lia.
Qed.
Lemma init_no k c l : is_species_call k = false -> call_eqb k Message = false -> call_eqb k k = true ->
  occurrences k [UserInit; SyncTangENormB; DivBErr; RmsB; CleanB; CurlB; ClearRhof; SyncRho; ComputeRhob; DivEErr; RmsE; CleanE; SyncTangENormB; UserDiag; Profile; LoadInterp] = 0 ->
  ~ In k (initialize_calls c l).
Proof.
  intros Hs Hm Hk H0 Hi. pose proof (occ_in k _ Hi Hk) as X. rewrite occ_init in X by assumption.
  change [UserInit; SyncTangENormB; DivBErr; RmsB; CleanB; CurlB; ClearRhof; SyncRho; ComputeRhob; DivEErr; RmsE; CleanE; SyncTangENormB; UserDiag; Profile; LoadInterp]
    with ([UserInit; SyncTangENormB; DivBErr; RmsB; CleanB; CurlB; ClearRhof; SyncRho; ComputeRhob; DivEErr; RmsE; CleanE; SyncTangENormB; UserDiag; Profile] ++ [LoadInterp]) in H0.
  rewrite occ_app in H0. assert (0 <= occurrences k [LoadInterp]) by (unfold occurrences; lia).
  assert (0 <= occurrences k [UserInit; SyncTangENormB; DivBErr; RmsB; CleanB; CurlB; ClearRhof; SyncRho; ComputeRhob; DivEErr; RmsE; CleanE; SyncTangENormB; UserDiag; Profile]) by (unfold occurrences; lia).
  destruct (some (c_species c)); lia.
Qed.
Lemma restart c l fuel trace rest : 0 < c_num_step c <= Z.of_nat fuel ->
  fst (fst (main_scratch fuel c l)) = trace ++ UserDiag :: rest -> In Register trace ->
  main_restore fuel c l trace = Some (rest, c_num_step c, true).
Proof.
  intros HN E Hr. unfold main_restore. rewrite (proj2 (exists_reg trace) Hr). unfold main_scratch in E. rewrite (loop_steps c l) in E by lia. cbn [fst] in E.
  destruct (app_eq_app _ _ _ _ E) as (q & [[A B]|[A B]]).
  - exfalso. apply (init_no Register c (l (-1))); try reflexivity. rewrite A. apply in_or_app. left. exact Hr.
  - destruct q as [|k q]; cbn in B; [discriminate|]. injection B as B1 B2.
    destruct (split_at_diag c l _ _ _ _ B2) as (j & Hj & -> & Ho).
    rewrite occ_inc, A, occ_app. change (k :: q) with ([k] ++ q). rewrite occ_app, Ho, <- B1, occ_init by reflexivity.
    replace (if some (c_species c) then occurrences IncStep [LoadInterp] else 0) with 0 by (destruct (some (c_species c)); reflexivity).
    cbn [occurrences filter call_eqb length]. change (occurrences IncStep [Register]) with 0.
    unfold occurrences; cbn [filter call_eqb length].
    replace (Z.of_nat 0 + 0 + (0 + (Z.of_nat j + 1))) with (Z.of_nat j + 1) by lia.
    rewrite (loop_steps c l) by lia. rewrite Z.max_r by lia. do 3 f_equal. f_equal; lia.
Qed.
(* the first diagnostics *)
Lemma initial_split c l : exists a b, initialize_calls c l = a ++ UserDiag :: b /\ ~ In UserDiag a.
Proof.
  assert (Hi : In UserDiag (initialize_calls c l)) by (unfold initialize_calls; repeat (apply in_or_app; right; try (left; reflexivity)); fail || idtac; apply in_or_app; left; left; reflexivity).
  assert (X : forall (q : list call), In UserDiag q -> exists a b, q = a ++ UserDiag :: b /\ ~ In UserDiag a).
  { induction q as [|k q IH]; [intros []|]. intros H. destruct (call_eqb UserDiag k) eqn:E.
    - destruct k; try discriminate. exists [], q. split; [reflexivity|intros []].
    - destruct H as [->|H]; [discriminate|]. destruct (IH H) as (a & b & -> & Ha). exists (k :: a), b. split; [reflexivity|]. intros [->|Y]; [discriminate|contradiction]. }
  apply X. exact Hi.
Qed.
