(* Proofs about histories of the checkpoint registry. *)
From Coq Require Import ZArith List Bool Lia ZifyBool.
From Verif Require Import CheckptModel CheckptSpec CheckptProofs.
Import ListNotations.
Open Scope Z_scope.
Ltac Zify.zify_post_hook ::= idtac.

(* p has been registered and not been unregistered since *)
Definition live (cs : list call) (p : Z) : Prop :=
  p <> 0 /\ exists a ck rs an b, cs = a ++ Register p ck rs an :: b /\ ~ In (Unregister p) b.

Lemma live_snoc cs c p : live (cs ++ [c]) p <->
  p <> 0 /\ ((exists ck rs an, c = Register p ck rs an) \/ (live cs p /\ c <> Unregister p)).
Proof.
  split.
  - intros (P0 & a & ck & rs & an & b & E & N). split; [exact P0|].
    destruct b as [|y b0] using rev_ind.
    + left. apply app_inj_tail in E. destruct E as [_ E]. exists ck, rs, an. exact E.
    + clear IHb0. rewrite app_comm_cons, app_assoc in E. apply app_inj_tail in E. destruct E as [E1 E2]. right. split.
      * split; [exact P0|]. exists a, ck, rs, an, b0. split; [exact E1|]. intros I. apply N. apply in_or_app. left. exact I.
      * intros K. apply N. apply in_or_app. right. left. congruence.
  - intros (P0 & [(ck & rs & an & ->)|[(_ & a & ck & rs & an & b & -> & N) Hc]]); (split; [exact P0|]).
    + exists cs, ck, rs, an, []. split; [reflexivity|]. intros [].
    + exists a, ck, rs, an, (b ++ [c]). split; [rewrite <- app_assoc; reflexivity|]. intros I. apply in_app_or in I.
      destruct I as [I|[I|[]]]; [contradiction|congruence].
Qed.
Definition reach (cs : list call) : service := run booted_service cs.
Lemma reach_good cs : Z.of_nat (length cs) < 2 ^ 64 - 1 -> good (reach cs).
Proof. intros B. apply run_good; [exact boot_good|]. cbn [booted_service s_next]. lia. Qed.
Lemma reach_next cs : Z.of_nat (length cs) < 2 ^ 64 - 1 -> 1 <= s_next (reach cs) <= 1 + Z.of_nat (length cs).
Proof. intros B. destruct (run_good cs booted_service boot_good) as [_ H]; [cbn [booted_service s_next]; lia|]. exact H. Qed.
Lemma reach_snoc cs c : reach (cs ++ [c]) = step (reach cs) c.
Proof. unfold reach. rewrite run_app. reflexivity. Qed.
Lemma remove_obj reg p : NoDup (map n_obj reg) -> ~ In p (map n_obj (remove_first reg p)).
Proof.
  induction reg as [|m r IH]; cbn [remove_first map In]; [tauto|]. intros H. inversion H; subst.
  destruct (n_obj m =? p) eqn:E; [replace p with (n_obj m) by lia; assumption|]. cbn [map In]. intros [K|K]; [lia|]. exact (IH H3 K).
Qed.

Lemma live_reg cs p : Z.of_nat (length cs) < 2 ^ 64 - 1 -> In p (map n_obj (s_reg (reach cs))) <-> live cs p.
Proof.
  induction cs as [|c cs IH] using rev_ind; intros B.
  - cbn. split; [intros []|]. intros (_ & a & ck & rs & an & b & E & _). destruct a; discriminate E.
  - rewrite app_length in B. cbn [length] in B. specialize (IH ltac:(lia)). pose proof (reach_good cs ltac:(lia)) as G.
    rewrite reach_snoc, live_snoc, <- IH. set (s := reach cs) in *. clearbody s.
    destruct c as [q ck rs an|q]; unfold step.
    + unfold register. rewrite (g_booted s G), (g_idle s G). cbn [negb orb].
      destruct (q =? 0) eqn:E0.
      { split.
        - intros I. pose proof I as I'. apply in_map_iff in I'. destruct I' as (n & En & In_). destruct (g_each s G n In_). split; [lia|]. right. split; [exact I|congruence].
        - intros (P0 & [(a1 & a2 & a3 & K)|[K _]]); [injection K as -> _ _ _; lia|exact K]. }
      destruct (find_obj (s_reg s) q) eqn:F.
      { apply find_obj_some in F. destruct F as [Fi Fe]. split.
        - intros I. pose proof I as I'. apply in_map_iff in I'. destruct I' as (m & En & In_). destruct (g_each s G m In_). split; [lia|]. right. split; [exact I|congruence].
        - intros (P0 & [(a1 & a2 & a3 & K)|[K _]]); [injection K as K _ _ _; rewrite <- K, <- Fe; apply in_map; exact Fi|exact K]. }
      cbn [s_reg]. rewrite map_app, in_app_iff. cbn [map In n_obj]. split.
      * intros [I|[<-|[]]]; [|split; [lia|left; do 3 eexists; reflexivity]].
        pose proof I as I'. apply in_map_iff in I'. destruct I' as (m & En & In_). destruct (g_each s G m In_). split; [lia|]. right. split; [exact I|congruence].
      * intros (P0 & [(a1 & a2 & a3 & K)|[K _]]); [injection K as -> _ _ _; right; left; reflexivity|left; exact K].
    + unfold unregister. rewrite (g_booted s G), (g_idle s G). cbn [negb orb].
      destruct (find_obj (s_reg s) q) eqn:F.
      * cbn [s_reg]. split.
        -- intros I. assert (Iq : p <> q) by (intros ->; exact (remove_obj _ _ (g_objs s G) I)).
           apply in_map_iff in I. destruct I as (m & En & In_). apply in_remove in In_. destruct (g_each s G m In_). split; [lia|]. right.
           split; [rewrite <- En; apply in_map; exact In_|congruence].
        -- intros (P0 & [(a1 & a2 & a3 & K)|[K N]]); [discriminate K|]. apply in_map_iff in K. destruct K as (m & <- & Im). apply in_map.
           apply in_remove_other; [exact Im|congruence].
      * apply find_obj_none in F. split.
        -- intros I. pose proof I as I'. apply in_map_iff in I'. destruct I' as (m & En & In_). destruct (g_each s G m In_). split; [lia|]. right.
           split; [exact I|]. intros K. injection K as ->. contradiction.
        -- intros (P0 & [(a1 & a2 & a3 & K)|[K N]]); [discriminate K|exact K].
Qed.

(* an identifier that is below the next one and not in use is never used again *)
Definition retired (s : service) (i : Z) : Prop := i < s_next s /\ ~ In i (map n_id (s_reg s)).
Lemma step_retired s c i : good s -> s_next s < 2 ^ 64 - 1 -> retired s i -> retired (step s c) i.
Proof.
  intros G B [L N]. pose proof (g_next s G). destruct c as [q ck rs an|q]; unfold step.
  - unfold register. rewrite (g_booted s G), (g_idle s G). cbn [negb orb]. destruct (q =? 0); [split; assumption|].
    destruct (find_obj (s_reg s) q); [split; assumption|].
    assert (W : word (s_next s + 1) = s_next s + 1) by (unfold word; apply Z.mod_small; lia).
    split; cbn [s_next s_reg]; [rewrite W; lia|]. rewrite map_app, in_app_iff. cbn [map In n_id]. intros [I|[I|[]]]; [contradiction|lia].
  - unfold unregister. rewrite (g_booted s G), (g_idle s G). cbn [negb orb]. destruct (find_obj (s_reg s) q); [|split; assumption].
    split; cbn [s_next s_reg]; [exact L|]. intros I. apply N. apply in_map_iff in I. destruct I as (m & <- & Im). apply in_map. exact (in_remove _ _ _ Im).
Qed.
Lemma run_retired ds : forall s i, good s -> s_next s + Z.of_nat (length ds) < 2 ^ 64 -> retired s i -> retired (run s ds) i.
Proof.
  induction ds as [|d ds IH]; intros s i G B R; cbn [run fold_left length] in *; [exact R|].
  destruct (step_good s d G ltac:(lia)) as [G' N]. apply IH; [exact G'|lia|]. apply step_retired; [exact G|lia|exact R].
Qed.
Lemma remove_id reg n : NoDup (map n_obj reg) -> NoDup (map n_id reg) -> In n reg -> ~ In (n_id n) (map n_id (remove_first reg (n_obj n))).
Proof.
  induction reg as [|m r IH]; cbn [remove_first map In]; [tauto|]. intros H K I. inversion H; subst. inversion K; subst.
  destruct I as [->|I].
  - rewrite Z.eqb_refl. assumption.
  - destruct (n_obj m =? n_obj n) eqn:E.
    + exfalso. apply H2. replace (n_obj m) with (n_obj n) by lia. apply in_map. exact I.
    + cbn [map In]. intros [Q|Q]; [|exact (IH H3 H5 I Q)]. apply H4. rewrite Q. apply in_map. exact I.
Qed.
Lemma object_id_some s p i : good s -> object_id s p = Done i -> i <> 0 -> exists n, In n (s_reg s) /\ n_obj n = p /\ n_id n = i.
Proof.
  intros G E Hi. unfold object_id in E. rewrite (g_booted s G) in E. cbn [negb] in E.
  destruct (find_obj (s_reg s) p) as [n|] eqn:F; injection E as E; [|lia]. apply find_obj_some in F. destruct F. exists n. tauto.
Qed.
Lemma object_id_in s n : good s -> In n (s_reg s) -> object_id s (n_obj n) = Done (n_id n).
Proof. intros G I. unfold object_id. rewrite (g_booted s G), (find_obj_in _ n (g_objs s G) I). reflexivity. Qed.
Lemma object_ptr_in s n : good s -> In n (s_reg s) -> object_ptr s (n_id n) = Done (n_obj n).
Proof. intros G I. unfold object_ptr. rewrite (g_booted s G), (find_id_in _ n (g_ids s G) I). reflexivity. Qed.
Lemma run_reused ds : forall s p i q, good s -> s_next s + Z.of_nat (length ds) < 2 ^ 64 -> object_id s p = Done i -> i <> 0 ->
  In (Unregister p) ds -> object_id (run s ds) q <> Done i.
Proof.
  induction ds as [|d ds IH]; intros s p i q G B E Hi I; [destruct I|]. cbn [run fold_left length] in *.
  destruct (step_good s d G ltac:(lia)) as [G' N].
  assert (D : d = Unregister p \/ d <> Unregister p).
  { destruct d as [a b c e|a]; [right; discriminate|]. destruct (Z.eq_dec a p) as [->|]; [left; reflexivity|right; congruence]. }
  destruct D as [->|D].
  - destruct (object_id_some s p i G E Hi) as (n & In_ & Eo & Ei).
    assert (R : retired (step s (Unregister p)) i).
    { unfold step, unregister. rewrite (g_booted s G), (g_idle s G). cbn [negb orb]. rewrite <- Eo, (find_obj_in _ n (g_objs s G) In_).
      pose proof (g_each s G n In_). split; cbn [s_next s_reg]; [lia|]. rewrite <- Ei. exact (remove_id _ n (g_objs s G) (g_ids s G) In_). }
    pose proof (run_retired ds _ i G' ltac:(lia) R) as [_ R']. intros K.
    pose proof (run_good ds _ G' ltac:(lia)) as [G'' _]. destruct (object_id_some _ q i G'' K Hi) as (m & Im & _ & Em).
    apply R'. rewrite <- Em. apply in_map. exact Im.
  - destruct I as [->|I]; [contradiction D; reflexivity|]. apply (IH (step s d) p i q); [exact G'|lia| |exact Hi|exact I].
    apply step_stable; assumption.
Qed.
