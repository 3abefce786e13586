(* C85: which checkpoints a run can continue from, and how that run ends. *)
From Coq Require Import ZArith List Bool Permutation Lia.
From Verif Require Import CheckptModel CheckptProofs LifeModel PropertiesLife RestartModel.
Import ListNotations.
Open Scope Z_scope.
Ltac Zify.zify_post_hook ::= idtac.

Lemma destroyed_move : forall phi m, destroyed (move_sim phi m) = map phi (destroyed m).
Proof.
  intros phi m. unfold destroyed, move_sim, move_pool. cbn [m_entropy m_sync m_grid m_mp m_this m_materials m_fields m_species m_bcs m_emitters m_cops p_pool p_rng].
  repeat (rewrite ?map_app; cbn [map]). destruct (m_fields m) as [[[[f i] a] h]|]; reflexivity.
Qed.
Definition keeps (phi : Z -> Z) (a : statics) : Prop :=
  phi (a_serial a) = a_serial a /\ phi (a_thread a) = a_thread a /\ phi (a_world a) = a_world a /\ phi (a_main a) = a_main a.
Lemma parts_move : forall phi a l, keeps phi a -> map phi (flat_map (part_objects a) l) = flat_map (part_objects a) l.
Proof.
  intros phi a l (K1 & K2 & K3 & _). induction l as [|p l IH]; [reflexivity|]. cbn [flat_map]. rewrite map_app, IH.
  destruct p; cbn; rewrite ?K1, ?K2, ?K3; reflexivity.
Qed.

(* a checkpoint of a step, restored at whatever addresses: the continued run ends as the run that wrote it would *)
Theorem C85_from_a_step : forall phi t a e s g mp this deck, NoDup (addresses a e s g mp this deck) -> ~ In 0 (addresses a e s g mp this deck) -> keeps phi a ->
  (lost deck = [] -> exists s', restored_run InStep phi t a e s g mp this deck = Ended (Done s') /\ s_booted s' = false /\ s_reg s' = []) /\
  (lost deck <> [] -> restored_run InStep phi t a e s g mp this deck = Ended Error).
Proof.
  intros phi t a e s g mp this deck N Z0 K. destruct (everything_nodup t a e s g mp this deck N Z0) as [Na Za].
  destruct (registers_ok _ (mks true false [] 1) eq_refl eq_refl Na Za) as (s1 & E1 & M1 & B1 & U1). cbn [s_reg map app] in M1.
  pose proof (everything_perm t a e s g mp this deck) as P. rewrite <- M1 in P.
  assert (E : at_checkpt InStep t a e s g mp this deck = Done s1).
  { unfold at_checkpt. cbn [boot s_booted and_then]. exact E1. }
  unfold restored_run. rewrite E.
  destruct (find_obj (s_reg s1) (a_main a)) eqn:F.
  2:{ apply find_obj_none in F. elim F. rewrite M1. unfold everything. rewrite !in_app_iff. cbn. tauto. }
  set (m := fold_left define deck (new_sim e s g mp this)) in *.
  assert (Q : Permutation (map n_obj (s_reg (restored_registry phi s1)))
    (([a_main a] ++ destroyed (move_sim phi m) ++ flat_map (part_objects a) (halts t)) ++ map phi (lost deck))).
  { unfold restored_registry. cbn [s_reg]. rewrite map_map. cbn [n_obj]. rewrite <- (map_map n_obj phi). rewrite destroyed_move.
    rewrite <- (parts_move phi a (halts t) K). apply (Permutation_map phi) in P. rewrite !map_app in P. cbn [map] in P.
    rewrite (proj2 (proj2 (proj2 K))) in P. exact P. }
  destruct (unregisters_ok _ (restored_registry phi s1) (map phi (lost deck)) eq_refl eq_refl Q) as (s2 & E2 & P2 & B2 & U2).
  rewrite E2. cbn [and_then]. unfold halt. rewrite B2, U2. cbn [negb]. split.
  - intro L. rewrite L in P2. apply Permutation_sym, Permutation_nil in P2. destruct (s_reg s2) eqn:R; [|discriminate P2].
    eexists. split; [reflexivity|]. cbn. auto.
  - intro L. destruct (s_reg s2) eqn:R; [|reflexivity]. cbn in P2. apply Permutation_nil in P2. apply map_eq_nil in P2. contradiction.
Qed.
Print Assumptions C85_from_a_step.

(* so the continued run and the first run agree: both end without error or both in one *)
Theorem C85_same_ending : forall phi t a e s g mp this deck, NoDup (addresses a e s g mp this deck) -> ~ In 0 (addresses a e s g mp this deck) -> keeps phi a ->
  restored_run InStep phi t a e s g mp this deck = Ended Error <-> whole_run t a e s g mp this deck = Error.
Proof.
  intros phi t a e s g mp this deck N Z0 K. destruct (C85_from_a_step phi t a e s g mp this deck N Z0 K) as [A B].
  destruct (C84_end_of_run t a e s g mp this deck N Z0) as (_ & C & D).
  destruct (lost deck) as [|x l].
  - destruct (A eq_refl) as (s1 & -> & _). destruct (C eq_refl) as (s2 & -> & _). split; discriminate.
  - rewrite B, D by discriminate. tauto.
Qed.
Print Assumptions C85_same_ending.

(* a checkpoint of the diagnostics at the end of initialize is written before main registers &simulation: whatever the deck, the run that
   restores it uses a NULL simulation *)
Theorem C85_from_initialize : forall phi t a e s g mp this deck, NoDup (addresses a e s g mp this deck) -> ~ In 0 (addresses a e s g mp this deck) ->
  restored_run InInitialize phi t a e s g mp this deck = NullSimulation.
Proof.
  intros phi t a e s g mp this deck N Z0. destruct (everything_nodup t a e s g mp this deck N Z0) as [Na Za].
  unfold everything in Na, Za. rewrite !app_assoc in Na, Za.
  assert (A : ~ In (a_main a) ((flat_map (part_objects a) (boots t) ++ constructed e s g mp this) ++ flat_map created deck)).
  { intro I. apply NoDup_remove_2 in Na. rewrite app_nil_r in Na. contradiction. }
  apply nodup_left in Na.
  destruct (registers_ok _ (mks true false [] 1) eq_refl eq_refl Na) as (s1 & E1 & M1 & B1 & U1).
  { intro I. apply Za. apply in_or_app. left. exact I. }
  unfold restored_run, at_checkpt. cbn [boot s_booted and_then]. rewrite app_nil_r. rewrite app_assoc. rewrite E1.
  replace (find_obj (s_reg s1) (a_main a)) with (@None node); [reflexivity|].
  symmetry. apply find_obj_none. rewrite M1. exact A.
Qed.
Print Assumptions C85_from_initialize.
Theorem C85_every_checkpoint_refuted : exists w phi t a e s g mp this deck, NoDup (addresses a e s g mp this deck) /\ ~ In 0 (addresses a e s g mp this deck) /\
  keeps phi a /\ lost deck = [] /\ restored_run w phi t a e s g mp this deck = NullSimulation.
Proof.
  exists InInitialize, (fun x => x), Pthreads, ex_statics, {| p_pool := 10; p_rng := [11; 12] |}, {| p_pool := 13; p_rng := [14; 15] |}, 16, 17, 18, ex_deck.
  split; [cbn; repeat (constructor; [cbn; intuition discriminate|]); constructor|]. split; [cbn; intuition discriminate|]. split; [repeat split|].
  split; [reflexivity|vm_compute; reflexivity].
Qed.
Print Assumptions C85_every_checkpoint_refuted.

(* the deck of C84 restored at addresses 1000 higher *)
Definition ex_phi (x : Z) : Z := if x <? 10 then x else x + 1000.
Definition ex_restored w t d := restored_run w ex_phi t ex_statics {| p_pool := 10; p_rng := [11; 12] |} {| p_pool := 13; p_rng := [14; 15] |} 16 17 18 d.
Example C85_example_step : forall t, exists n, ex_restored InStep t ex_deck = Ended (Done (mks false false [] n)).
Proof. intro t. destruct t; eexists; vm_compute; reflexivity. Qed.
Example C85_example_hard_sphere : forall t, ex_restored InStep t (ex_deck ++ [NewCollision 30 (Some 31)]) = Ended Error.
Proof. intro t. destruct t; vm_compute; reflexivity. Qed.
Example C85_example_initialize : forall t, ex_restored InInitialize t ex_deck = NullSimulation.
Proof. intro t. destruct t; vm_compute; reflexivity. Qed.
