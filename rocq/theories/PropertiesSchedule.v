(* C71: the order of operations of a run. *)
From Coq Require Import ZArith List Bool Lia ZifyBool.
From Verif Require Import ScheduleModel ScheduleSpec ScheduleProofs ScheduleProofs2.
Import ListNotations.
Open Scope Z_scope.
Ltac Zify.zify_post_hook ::= idtac.

(* initialize leaves, from any state, everything ready for step 0: every operation finds what it assumes *)
Theorem C71_initialize : forall c l x, NoDup (c_species c) ->
  exists y, execs (c_species c) (initialize_calls c l) x = Some y /\ ready (c_species c) 0 y.
Proof.
  intros c l x Hn. destruct (h_init (c_species c) Hn c l eq_refl x I) as (y & E & R). exists y. split; [exact E|]. apply ready_iff. exact R.
Qed.
Print Assumptions C71_initialize.
(* a step from a state ready for step n: no operation finds its inputs at another time than it assumes, and the state
   is ready for step n + 1, whatever the species, intervals, rounds, models and whatever the movers left *)
Theorem C71_step : forall c l n x, NoDup (c_species c) -> ready (c_species c) n x ->
  exists y, execs (c_species c) (advance_calls c l n) x = Some y /\ ready (c_species c) (n + 1) y.
Proof.
  intros c l n x Hn Hr. apply ready_iff in Hr. destruct (h_step (c_species c) Hn c l n eq_refl x Hr) as (y & E & R).
  exists y. split; [exact E|]. apply ready_iff. exact R.
Qed.
Print Assumptions C71_step.
(* a whole run from scratch, however many steps of it are looked at *)
Theorem C71_run : forall c l fuel x, NoDup (c_species c) ->
  exists y, execs (c_species c) (fst (fst (main_scratch fuel c l))) x = Some y /\ ready (c_species c) (snd (fst (main_scratch fuel c l))) y.
Proof.
  intros c l fuel x Hn. destruct (h_scratch (c_species c) Hn c l fuel eq_refl x I) as (y & E & R). exists y. split; [exact E|]. apply ready_iff. exact R.
Qed.
Print Assumptions C71_run.

(* every step does these once (B in two halves), for each species and at all *)
Theorem C71_once_a_step : forall c l n, NoDup (c_species c) -> let cs := advance_calls c l n in
  (forall s, In s (c_species c) -> occurrences (AdvanceP s) cs = 1 /\ occurrences (DropMovers s) cs = 1) /\
  (forall k, In k [UserCollisions; UserInject; ClearJf; SyncJf; UserCurrent; AdvanceE; UserField; IncStep; UserDiag] -> occurrences k cs = 1) /\
  occurrences HalfAdvanceB cs = 2 /\ occurrences BoundaryP cs = Z.max 0 (c_comm_round c) /\
  (forall k, In k [ClearAcc; ReduceAcc; UnloadAcc; LoadInterp] -> occurrences k cs = match c_species c with [] => 0 | _ => 1 end) /\
  occurrences Collisions cs = (if c_collide c then 1 else 0) /\ occurrences Emit cs = (if c_emit c then 1 else 0).
Proof.
  intros c l n Hn cs. unfold cs.
  assert (Hs : some (c_species c) = match c_species c with [] => false | _ => true end) by (destruct (c_species c); reflexivity).
  repeat split.
  - rewrite (occ_step_species _ c l n s) by auto. reflexivity.
  - rewrite (occ_step_species _ c l n s) by auto. reflexivity.
  - intros k Hk. repeat (destruct Hk as [<-|Hk]; [rewrite occ_step by reflexivity; unfold occurrences; cbn [filter call_eqb length];
      destruct (some (c_species c)), (c_collide c), (c_emit c), (due (c_div_e c) n), (due (c_div_b c) n), (due (c_sync c) n), (due (c_status c) (n + 1)); lia|]). contradiction.
  - rewrite occ_step by reflexivity; unfold occurrences; cbn [filter call_eqb length].
    destruct (some (c_species c)), (c_collide c), (c_emit c), (due (c_div_e c) n), (due (c_div_b c) n), (due (c_sync c) n), (due (c_status c) (n + 1)); lia.
  - rewrite occ_step by reflexivity; unfold occurrences; cbn [filter call_eqb length].
    destruct (some (c_species c)), (c_collide c), (c_emit c), (due (c_div_e c) n), (due (c_div_b c) n), (due (c_sync c) n), (due (c_status c) (n + 1)); lia.
  - intros k Hk. repeat (destruct Hk as [<-|Hk]; [rewrite occ_step by reflexivity; unfold occurrences; cbn [filter call_eqb length]; rewrite Hs;
      destruct (c_species c), (c_collide c), (c_emit c), (due (c_div_e c) n), (due (c_div_b c) n), (due (c_sync c) n), (due (c_status c) (n + 1)); lia|]). contradiction.
  - rewrite occ_step by reflexivity; unfold occurrences; cbn [filter call_eqb length].
    destruct (some (c_species c)), (c_collide c), (c_emit c), (due (c_div_e c) n), (due (c_div_b c) n), (due (c_sync c) n), (due (c_status c) (n + 1)); lia.
  - rewrite occ_step by reflexivity; unfold occurrences; cbn [filter call_eqb length].
    destruct (some (c_species c)), (c_collide c), (c_emit c), (due (c_div_e c) n), (due (c_div_b c) n), (due (c_sync c) n), (due (c_status c) (n + 1)); lia.
Qed.
Print Assumptions C71_once_a_step.
Ltac count_gate := rewrite occ_step by reflexivity; unfold occurrences; cbn [filter call_eqb length].
(* sorting, cleaning, sharing: at the steps on their interval, before the step is counted, and at no others *)
Theorem C71_on_interval : forall c l n, NoDup (c_species c) -> 0 <= n -> let cs := advance_calls c l n in
  (forall s, In s (c_species c) -> (on_interval (c_sort c s) n -> occurrences (SortP s) cs = 1) /\ (~ on_interval (c_sort c s) n -> occurrences (SortP s) cs = 0)) /\
  (on_interval (c_div_e c) n ->
     occurrences ClearRhof cs = 1 /\ (forall s, In s (c_species c) -> occurrences (AccRho s) cs = 1) /\ occurrences SyncRho cs = 1 /\
     occurrences DivEErr cs = Z.max 0 (c_div_e_round c) /\ occurrences CleanE cs = Z.max 0 (c_div_e_round c) /\ occurrences RmsE cs = Z.min 2 (Z.max 0 (c_div_e_round c))) /\
  (~ on_interval (c_div_e c) n -> forall k, In k [ClearRhof; SyncRho; DivEErr; CleanE; RmsE] -> occurrences k cs = 0) /\
  (on_interval (c_div_b c) n ->
     occurrences DivBErr cs = Z.max 0 (c_div_b_round c) /\ occurrences CleanB cs = Z.max 0 (c_div_b_round c) /\ occurrences RmsB cs = Z.min 2 (Z.max 0 (c_div_b_round c))) /\
  (~ on_interval (c_div_b c) n -> forall k, In k [DivBErr; CleanB; RmsB] -> occurrences k cs = 0) /\
  (on_interval (c_sync c) n -> occurrences SyncTangENormB cs = 1) /\ (~ on_interval (c_sync c) n -> occurrences SyncTangENormB cs = 0) /\
  (on_interval (c_status c) (n + 1) -> occurrences Profile cs = 1) /\ (~ on_interval (c_status c) (n + 1) -> occurrences Profile cs = 0).
Proof.
  intros c l n Hn H0 cs. unfold cs.
  split.
  { intros s Hs. rewrite (occ_step_species _ c l n s) by auto. rewrite <- due_on by exact H0. destruct (due (c_sort c s) n); split; intros; congruence. }
  split.
  { intros H. apply due_on in H; [|exact H0].
    split; [count_gate; rewrite H; destruct (some (c_species c)), (c_collide c), (c_emit c), (due (c_div_b c) n), (due (c_sync c) n), (due (c_status c) (n + 1)); lia|].
    split; [intros s Hs; rewrite (occ_step_species _ c l n s) by auto; rewrite H; reflexivity|].
    repeat split; (count_gate; rewrite H; destruct (some (c_species c)), (c_collide c), (c_emit c), (due (c_div_b c) n), (due (c_sync c) n), (due (c_status c) (n + 1)); lia). }
  split.
  { intros H k Hk. apply due_off in H; [|exact H0].
    repeat (destruct Hk as [<-|Hk]; [count_gate; rewrite H; destruct (some (c_species c)), (c_collide c), (c_emit c), (due (c_div_b c) n), (due (c_sync c) n), (due (c_status c) (n + 1)); lia|]). contradiction. }
  split.
  { intros H. apply due_on in H; [|exact H0].
    repeat split; (count_gate; rewrite H; destruct (some (c_species c)), (c_collide c), (c_emit c), (due (c_div_e c) n), (due (c_sync c) n), (due (c_status c) (n + 1)); lia). }
  split.
  { intros H k Hk. apply due_off in H; [|exact H0].
    repeat (destruct Hk as [<-|Hk]; [count_gate; rewrite H; destruct (some (c_species c)), (c_collide c), (c_emit c), (due (c_div_e c) n), (due (c_sync c) n), (due (c_status c) (n + 1)); lia|]). contradiction. }
  repeat split; intros H.
  - apply due_on in H; [|exact H0]. count_gate; rewrite H; destruct (some (c_species c)), (c_collide c), (c_emit c), (due (c_div_e c) n), (due (c_div_b c) n), (due (c_status c) (n + 1)); lia.
  - apply due_off in H; [|exact H0]. count_gate; rewrite H; destruct (some (c_species c)), (c_collide c), (c_emit c), (due (c_div_e c) n), (due (c_div_b c) n), (due (c_status c) (n + 1)); lia.
  - apply due_on in H; [|lia]. count_gate; rewrite H; destruct (some (c_species c)), (c_collide c), (c_emit c), (due (c_div_e c) n), (due (c_div_b c) n), (due (c_sync c) n); lia.
  - apply due_off in H; [|lia]. count_gate; rewrite H; destruct (some (c_species c)), (c_collide c), (c_emit c), (due (c_div_e c) n), (due (c_div_b c) n), (due (c_sync c) n); lia.
Qed.
Print Assumptions C71_on_interval.
(* sorting comes before anything that reads or moves a particle *)
Theorem C71_sort_first : forall c l n, exists a b, advance_calls c l n = a ++ b /\
  (forall k, In k a -> k = Message \/ exists s, k = SortP s /\ In s (c_species c)) /\ (forall s, ~ In (SortP s) b).
Proof.
  intros c l n. unfold advance_calls. eexists _, _. split; [reflexivity|]. split.
  - intros k Hk. apply in_flat_map in Hk. destruct Hk as (s & Hs & Hk). destruct (due (c_sort c s) n); [|contradiction]. cbn in Hk. apply in_app_or in Hk.
    destruct Hk as [Hk|[<-|[]]]; [|right; exists s; auto]. left. unfold msg in Hk. destruct (l_rank l =? 0); [destruct Hk as [<-|[]]; reflexivity|contradiction].
  - intros s Hi.
    match type of Hi with In _ ?b => assert (X : occurrences (SortP s) b = 0) end.
    { repeat rewrite occ_app. repeat rewrite occ_when. repeat rewrite occ_app. rewrite (occ_msg (SortP s) l) by reflexivity.
      rewrite occ_drop_gate, !occ_map_none by (intros; reflexivity).
      rewrite !(occ_rounds (SortP s) _ 0) by (intros r; repeat rewrite occ_app; repeat rewrite occ_when; repeat rewrite occ_app; rewrite ?(occ_msg (SortP s) l) by reflexivity;
        try (match goal with |- context [reported ?a r] => destruct (reported a r) end); reflexivity).
      unfold occurrences. cbn [filter call_eqb length].
      destruct (some (c_species c)), (c_collide c), (c_emit c), (due (c_div_e c) n), (due (c_div_b c) n), (due (c_sync c) n), (due (c_status c) (n + 1)); lia. }
    pose proof (occ_in _ _ Hi ltac:(cbn; apply PeanoNat.Nat.eqb_refl)). lia.
Qed.
Print Assumptions C71_sort_first.

(* the loop of main: with num_step positive it ends, after num_step - step steps if any are left *)
Theorem C71_loop_ends : forall c l step fuel, 0 < c_num_step c -> c_num_step c - step <= Z.of_nat fuel -> 0 <= step ->
  snd (main_loop fuel c l step) = true /\ snd (fst (main_loop fuel c l step)) = Z.max step (c_num_step c) /\
  occurrences IncStep (fst (fst (main_loop fuel c l step))) = Z.max 0 (c_num_step c - step).
Proof.
  intros c l step fuel HN Hf Hs. rewrite (loop_steps c l HN fuel step Hf). cbn [fst snd]. repeat split.
  rewrite (sum_const IncStep c l 1) by (try exact Hs; intros n _; count_gate;
    destruct (some (c_species c)), (c_collide c), (c_emit c), (due (c_div_e c) n), (due (c_div_b c) n), (due (c_sync c) n), (due (c_status c) (n + 1)); lia). lia.
Qed.
Print Assumptions C71_loop_ends.
(* with num_step zero or negative it does not *)
Theorem C71_loop_forever : forall c l step fuel, c_num_step c <= 0 ->
  snd (main_loop fuel c l step) = false /\ snd (fst (main_loop fuel c l step)) = step + Z.of_nat fuel.
Proof. intros c l step fuel H. rewrite (loop_forever c l H). auto. Qed.
Print Assumptions C71_loop_forever.
(* what a run of num_step steps does in all *)
Theorem C71_totals : forall c l fuel, NoDup (c_species c) -> 0 < c_num_step c <= Z.of_nat fuel ->
  let cs := fst (fst (main_scratch fuel c l)) in let n := c_num_step c in
  (forall s, In s (c_species c) -> occurrences (SortP s) cs = steps_on (c_sort c s) n /\ occurrences (AdvanceP s) cs = n) /\
  occurrences CleanE cs = 1 + Z.max 0 (c_div_e_round c) * steps_on (c_div_e c) n /\
  occurrences CleanB cs = 1 + Z.max 0 (c_div_b_round c) * steps_on (c_div_b c) n /\
  occurrences SyncTangENormB cs = 2 + steps_on (c_sync c) n /\ occurrences UserDiag cs = 1 + n.
Proof.
  intros c l fuel Hn HN cs n. unfold cs, n, main_scratch. rewrite (loop_steps c l) by lia. cbn [fst]. rewrite Z.sub_0_r.
  assert (N : Z.of_nat (Z.to_nat (c_num_step c)) = c_num_step c) by lia.
  assert (Hi : forall k, call_eqb k Register = false -> occurrences k (initialize_calls c (l (-1)) ++ [Register] ++ concat_steps c l 0 (Z.to_nat (c_num_step c))) =
     occurrences k (initialize_calls c (l (-1))) + occurrences k (concat_steps c l 0 (Z.to_nat (c_num_step c)))).
  { intros k Hk. rewrite !occ_app. replace (occurrences k [Register]) with 0 by (unfold occurrences; cbn; rewrite Hk; reflexivity). lia. }
  assert (Hsp : forall k, (exists s, k = SortP s \/ k = AdvanceP s) -> occurrences k (initialize_calls c (l (-1))) = 0).
  { intros k (s & Hk). unfold initialize_calls. repeat rewrite occ_app. rewrite occ_when. repeat rewrite occ_app.
    rewrite (occ_msg k) by (destruct Hk as [->| ->]; reflexivity). rewrite !occ_map_none by (destruct Hk as [->| ->]; reflexivity).
    unfold occurrences. destruct Hk as [->| ->]; destruct (some (c_species c)); reflexivity. }
  split; [|repeat split].
  - intros s Hs. rewrite !Hi by reflexivity. rewrite !Hsp by eauto. split.
    + rewrite (sum_steps (SortP s) c l 1 (c_sort c s)) by (try lia; intros m Hm; rewrite (occ_step_species _ c (l m) m s) by auto; reflexivity). rewrite steps_on_0, N, ?Z.add_0_l. lia.
    + rewrite (sum_const (AdvanceP s) c l 1) by (try lia; intros m Hm; rewrite (occ_step_species _ c (l m) m s) by auto; reflexivity). lia.
  - rewrite Hi, occ_init by reflexivity.
    rewrite (sum_steps CleanE c l (Z.max 0 (c_div_e_round c)) (c_div_e c)) by (try lia; intros m Hm; count_gate;
      destruct (some (c_species c)), (c_collide c), (c_emit c), (due (c_div_e c) m), (due (c_div_b c) m), (due (c_sync c) m), (due (c_status c) (m + 1)); lia).
    rewrite steps_on_0, N, ?Z.add_0_l. unfold occurrences. cbn [filter call_eqb length]. destruct (some (c_species c)); lia.
  - rewrite Hi, occ_init by reflexivity.
    rewrite (sum_steps CleanB c l (Z.max 0 (c_div_b_round c)) (c_div_b c)) by (try lia; intros m Hm; count_gate;
      destruct (some (c_species c)), (c_collide c), (c_emit c), (due (c_div_e c) m), (due (c_div_b c) m), (due (c_sync c) m), (due (c_status c) (m + 1)); lia).
    rewrite steps_on_0, N, ?Z.add_0_l. unfold occurrences. cbn [filter call_eqb length]. destruct (some (c_species c)); lia.
  - rewrite Hi, occ_init by reflexivity.
    rewrite (sum_steps SyncTangENormB c l 1 (c_sync c)) by (try lia; intros m Hm; count_gate;
      destruct (some (c_species c)), (c_collide c), (c_emit c), (due (c_div_e c) m), (due (c_div_b c) m), (due (c_sync c) m), (due (c_status c) (m + 1)); lia).
    rewrite steps_on_0, N, ?Z.add_0_l. unfold occurrences. cbn [filter call_eqb length]. destruct (some (c_species c)); lia.
  - rewrite Hi, occ_init by reflexivity.
    rewrite (sum_const UserDiag c l 1) by (try lia; intros m Hm; count_gate;
      destruct (some (c_species c)), (c_collide c), (c_emit c), (due (c_div_e c) m), (due (c_div_b c) m), (due (c_sync c) m), (due (c_status c) (m + 1)); lia).
    unfold occurrences. cbn [filter call_eqb length]. destruct (some (c_species c)); lia.
Qed.
Print Assumptions C71_totals.

(* ranks call the operations that exchange messages in the same order, whatever their rank, verbosity and leftover
   movers, at every step of the run, and leave the loop together *)
Theorem C71_ranks_agree : forall c l l' fuel,
  filter collective (fst (fst (main_scratch fuel c l))) = filter collective (fst (fst (main_scratch fuel c l'))) /\
  snd (main_scratch fuel c l) = snd (main_scratch fuel c l') /\ snd (fst (main_scratch fuel c l)) = snd (fst (main_scratch fuel c l')).
Proof.
  intros c l l' fuel. unfold main_scratch. destruct (coll_loop c l l' fuel 0) as (E1 & E2 & E3).
  destruct (main_loop fuel c l 0) as [[a b] d], (main_loop fuel c l' 0) as [[a' b'] d']. cbn [fst snd] in *.
  split; [|auto]. repeat rewrite filter_app. rewrite (coll_init c (l (-1)) (l' (-1))), E1. reflexivity.
Qed.
Print Assumptions C71_ranks_agree.

(* a run restored from a checkpoint written by user_diagnostics at the end of any step, the last one included, does
   exactly what the uninterrupted run did after that call *)
Theorem C71_restart : forall c l fuel trace rest, 0 < c_num_step c <= Z.of_nat fuel ->
  fst (fst (main_scratch fuel c l)) = trace ++ UserDiag :: rest -> In Register trace ->
  main_restore fuel c l trace = Some (rest, c_num_step c, true).
Proof. exact restart. Qed.
Print Assumptions C71_restart.
(* that needs the pointer registered: the diagnostics of initialize come before it, in every run *)
Theorem C71_initial_checkpoint_refuted : forall c l fuel, exists trace rest,
  fst (fst (main_scratch fuel c l)) = trace ++ UserDiag :: rest /\ ~ In UserDiag trace /\
  forall fuel' c' l', main_restore fuel' c' l' trace = None.
Proof.
  intros c l fuel. destruct (initial_split c (l (-1))) as (a & b & E & Ha).
  exists a. unfold main_scratch. destruct (main_loop fuel c l 0) as [[cs e] d]. cbn [fst].
  exists (b ++ [Register] ++ cs). split; [rewrite E, <- app_assoc; reflexivity|]. split; [exact Ha|].
  intros. unfold main_restore. destruct (existsb is_reg a) eqn:X; [|reflexivity].
  apply exists_reg in X. exfalso. apply (init_no Register c (l (-1))); try reflexivity. rewrite E. apply in_or_app. left. exact X.
Qed.
Print Assumptions C71_initial_checkpoint_refuted.

(* Examples: two species, one sorted every 2 steps; clean E every 3 steps, 2 rounds; share every 2; 5 steps *)
Definition ex_cfg : config := mkcf [1%nat; 0%nat] (fun s => if Nat.eqb s 0 then 2 else 0) true false 5 3 2 3 2 0 2 2.
Definition ex_loc (r : Z) (n : Z) : local := mklo r true (fun s => if n =? 3 then r else 0).
Example C71_step_example : advance_calls ex_cfg (ex_loc 1 3) 3 =
  [ClearAcc; Collisions; UserCollisions; AdvanceP 1; AdvanceP 0; UserInject; ReduceAcc; BoundaryP; BoundaryP; BoundaryP;
   Message; DropMovers 1; Message; DropMovers 0; ClearJf; UnloadAcc; SyncJf; UserCurrent; HalfAdvanceB; AdvanceE; UserField; HalfAdvanceB;
   ClearRhof; AccRho 1; AccRho 0; SyncRho; DivEErr; RmsE; CleanE; DivEErr; RmsE; CleanE; LoadInterp; IncStep; Profile; UserDiag].
Proof. reflexivity. Qed.
Example C71_run_example :
  match execs [1%nat; 0%nat] (fst (fst (main_scratch 9 ex_cfg (ex_loc 1)))) (mkt 7 1 2 (fun _ => 3) (fun _ => 4) (fun _ => true) None AccUnknown JfUnknown RhoUnknown false false false false) with
  | Some y => t_step y = 5 /\ t_e y = 10 /\ t_b y = 10 /\ t_pos y 1%nat = 10 /\ t_mom y 1%nat = 9 /\ t_interp y = Some 10 | None => False end.
Proof. vm_compute. repeat split. Qed.
Example C71_once_a_step_example : occurrences HalfAdvanceB (advance_calls ex_cfg (ex_loc 0 0) 0) = 2.
Proof. reflexivity. Qed.
Example C71_on_interval_example : map (fun n => occurrences RmsE (advance_calls ex_cfg (ex_loc 0 n) n)) [0; 1; 2; 3; 4] = [2; 0; 0; 2; 0].
Proof. reflexivity. Qed.
(* contracts that are broken by other orders: no current shared; the interpolators loaded before sharing; E before B *)
Example C71_contract_example1 : execs [0%nat] (initialize_calls (mkcf [0%nat] (fun _ => 0) false false 5 3 2 0 2 0 2 2) (ex_loc 1 0) ++
  [ClearAcc; UserCollisions; AdvanceP 0; UserInject; ReduceAcc; BoundaryP; DropMovers 0; ClearJf; UnloadAcc; UserCurrent])
  (mkt 0 0 0 (fun _ => 0) (fun _ => 0) (fun _ => false) None AccUnknown JfUnknown RhoUnknown false false false false) = None.
Proof. reflexivity. Qed.
Example C71_contract_example2 : execs [0%nat] (initialize_calls (mkcf [0%nat] (fun _ => 0) false false 5 3 2 0 2 0 2 2) (ex_loc 1 0) ++ [SyncTangENormB; ClearAcc; UserCollisions; AdvanceP 0])
  (mkt 0 0 0 (fun _ => 0) (fun _ => 0) (fun _ => false) None AccUnknown JfUnknown RhoUnknown false false false false) = None.
Proof. reflexivity. Qed.
Example C71_sort_first_example : firstn 3 (advance_calls ex_cfg (ex_loc 0 4) 4) = [Message; SortP 0; ClearAcc].
Proof. reflexivity. Qed.
Example C71_loop_example : let r := main_loop 9 ex_cfg (ex_loc 0) 3 in snd r = true /\ snd (fst r) = 5 /\ occurrences IncStep (fst (fst r)) = 2.
Proof. vm_compute. auto. Qed.
Example C71_forever_example : snd (main_loop 20 (mkcf [] (fun _ => 0) false false 0 3 2 3 2 0 2 2) (ex_loc 0) 0) = false.
Proof. reflexivity. Qed.
Example C71_totals_example : let cs := fst (fst (main_scratch 9 ex_cfg (ex_loc 0))) in
  occurrences (SortP 0) cs = 3 /\ occurrences CleanE cs = 5 /\ occurrences SyncTangENormB cs = 5 /\ occurrences UserDiag cs = 6.
Proof. vm_compute. auto. Qed.
Example C71_ranks_example : length (fst (fst (main_scratch 9 ex_cfg (ex_loc 0)))) <> length (fst (fst (main_scratch 9 ex_cfg (ex_loc 1)))) /\
  filter collective (fst (fst (main_scratch 9 ex_cfg (ex_loc 0)))) = filter collective (fst (fst (main_scratch 9 ex_cfg (ex_loc 1)))).
Proof. vm_compute. split; [discriminate|reflexivity]. Qed.
(* restored after 4 steps: one is left; after the last: none *)
Example C71_restart_example : let cs := fst (fst (main_scratch 9 ex_cfg (ex_loc 1))) in
  match main_restore 9 ex_cfg (ex_loc 1) (firstn (length cs - 1) cs) with Some (r, e, b) => r = [] /\ e = 5 /\ b = true | None => False end.
Proof. vm_compute. auto. Qed.
