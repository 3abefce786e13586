(* Intrusive lists of species, materials, boundary handlers, collision operators and
   emitters. *)
From Coq Require Import ZArith List Bool String Lia ZifyBool Permutation.
From Verif Require Import UtilModel.
Import ListNotations.
Open Scope Z_scope.

(* The nodes l, in this order, are what a walk from p meets. *)
Fixpoint chain (h : heap) (p : option Z) (l : list Z) : Prop :=
  match l with
  | [] => p = None
  | a :: r => p = Some a /\ chain h (next (h a)) r
  end.

Lemma chain_walk h l : forall p fuel, chain h p l -> (List.length l <= fuel)%nat -> walk fuel h p = Some l.
Proof.
  induction l as [|a r IH]; intros p fuel H Hf; cbn in *.
  - subst p. destruct fuel; reflexivity.
  - destruct H as [-> H]. destruct fuel as [|f]; [lia|]. cbn. rewrite (IH _ f H) by lia. reflexivity.
Qed.
Lemma chain_find h cond l : forall p fuel, chain h p l -> (List.length l <= fuel)%nat ->
  find_first fuel h cond p = Some (find (fun a => cond (h a)) l).
Proof.
  induction l as [|a r IH]; intros p fuel H Hf; cbn in *.
  - subst p. destruct fuel; reflexivity.
  - destruct H as [-> H]. destruct fuel as [|f]; [lia|]. cbn. destruct (cond (h a)); [reflexivity|].
    apply IH; [exact H|lia].
Qed.
Lemma chain_upd h n a l : forall p, chain h p l -> ~ In a l -> chain (upd h a n) p l.
Proof.
  induction l as [|b r IH]; intros p H Ha; cbn in *; [exact H|].
  destruct H as [-> H]. split; [reflexivity|].
  assert (E : upd h a n b = h b) by (unfold upd; replace (b =? a) with false by lia; reflexivity).
  rewrite E. apply IH; [exact H|tauto].
Qed.

Lemma upd_same h a n : upd h a n a = n.
Proof. unfold upd. rewrite Z.eqb_refl. reflexivity. Qed.
Lemma upd_other h a n b : b <> a -> upd h a n b = h b.
Proof. intros H. unfold upd. replace (b =? a) with false by lia. reflexivity. Qed.

(* Nodes l (last defined first) numbered by f. *)
Definition numbered (f : Z -> Z) (h : heap) (l : list Z) : Prop :=
  forall k a, nth_error (rev l) k = Some a -> id (h a) = f (Z.of_nat k).

Lemma numbered_push f h a l nm g nx : numbered f h l -> ~ In a l ->
  numbered f (upd h a (mk_node nm (f (Z.of_nat (List.length l))) g nx)) (a :: l).
Proof.
  intros H Ha k b Hb. cbn [rev] in Hb.
  destruct (Nat.lt_ge_cases k (List.length l)) as [L|L].
  - rewrite nth_error_app1 in Hb by (rewrite rev_length; exact L).
    assert (In b l) by (apply in_rev; eapply nth_error_In; exact Hb).
    rewrite upd_other by (intros ->; tauto). apply H. exact Hb.
  - rewrite nth_error_app2 in Hb by (rewrite rev_length; exact L). rewrite rev_length in Hb.
    destruct (k - List.length l)%nat as [|i] eqn:E; [|destruct i; discriminate].
    cbn in Hb. injection Hb as <-. rewrite upd_same. cbn. f_equal. lia.
Qed.

Lemma numbered_head f h a l : numbered f h (a :: l) -> id (h a) = f (Z.of_nat (List.length l)).
Proof.
  intros H. apply H. cbn. rewrite nth_error_app2 by (rewrite rev_length; lia).
  rewrite rev_length, Nat.sub_diag. reflexivity.
Qed.

(* ---- species and materials ---- *)

(* What holds of a list of species or materials built so far from heap h0. *)
Record good (h0 h : heap) (p : option Z) (l : list Z) : Prop := {
  g_chain : chain h p l;
  g_num : numbered (fun k => k) h l;
  g_nodup : NoDup l;
  g_names : NoDup (map (fun a => name (h a)) l);
  g_keep : forall a, name (h a) = name (h0 a) /\ grid_of (h a) = grid_of (h0 a);
  g_rest : forall a, ~ In a l -> h a = h0 a
}.

Lemma good_nil h0 : good h0 h0 None [].
Proof.
  split; [reflexivity| |constructor|constructor|intros a; split; reflexivity|reflexivity].
  intros k a H. destruct k; discriminate.
Qed.

Lemma good_num h0 h p l : good h0 h p l -> num_ids h p = Z.of_nat (List.length l).
Proof.
  intros G. destruct l as [|a l]; pose proof (g_chain _ _ _ _ G) as C; cbn in C.
  - subst p. reflexivity.
  - destruct C as [-> _]. cbn [num_ids]. rewrite (numbered_head _ _ _ _ (g_num _ _ _ _ G)). cbn [List.length]. lia.
Qed.

Lemma find_name_none h p l fuel nm : chain h p l -> (List.length l <= fuel)%nat ->
  find_name fuel h nm p = Some None -> ~ In nm (map (fun a => name (h a)) l).
Proof.
  intros C Hf H. unfold find_name in H. rewrite (chain_find _ _ l) in H by assumption.
  injection H as H. intros Hin. apply in_map_iff in Hin. destruct Hin as (a & <- & Ha).
  apply find_none with (x := a) in H; [|exact Ha]. cbv beta in H. rewrite String.eqb_refl in H. discriminate.
Qed.

Lemma good_push h0 h p l a fuel : good h0 h p l -> (List.length l <= fuel)%nat ->
  find_name fuel h (name (h a)) p = Some None ->
  good h0 (upd h a (mk_node (name (h a)) (num_ids h p) (grid_of (h a)) p)) (Some a) (a :: l).
Proof.
  intros G Hf Hn. pose proof (find_name_none _ _ _ _ _ (g_chain _ _ _ _ G) Hf Hn) as Hnm.
  assert (Ha : ~ In a l).
  { intros H. apply Hnm. apply in_map_iff. exists a. split; [reflexivity|exact H]. }
  rewrite (good_num _ _ _ _ G). split.
  - cbn [chain]. split; [reflexivity|]. rewrite upd_same. cbn [next]. apply chain_upd; [apply G|exact Ha].
  - apply (numbered_push (fun k => k)); [apply G|exact Ha].
  - constructor; [exact Ha|apply G].
  - cbn [map]. rewrite upd_same. cbn [name]. constructor.
    + erewrite map_ext_in; [exact Hnm|]. intros b Hb. cbv beta. rewrite upd_other; [reflexivity|intros ->; tauto].
    + erewrite map_ext_in; [apply (g_names _ _ _ _ G)|]. intros b Hb. cbv beta.
      rewrite upd_other; [reflexivity|intros ->; tauto].
  - intros b. destruct (Z.eq_dec b a) as [->|E].
    + rewrite upd_same. cbn. apply (g_keep _ _ _ _ G).
    + rewrite upd_other by exact E. apply (g_keep _ _ _ _ G).
  - intros b Hb. cbn in Hb. rewrite upd_other by (intros ->; tauto). apply (g_rest _ _ _ _ G). tauto.
Qed.

Lemma append_all_good app h0 :
  (forall fuel_n h p l a h' p', good h0 h p l -> (List.length l <= fuel_n)%nat ->
     app fuel_n h a p = Some (h', p') -> good h0 h' p' (a :: l)) ->
  forall ops fuel h p l h' p', good h0 h p l -> (List.length l + List.length ops <= fuel)%nat ->
  append_all (app fuel) ops h p = Some (h', p') -> good h0 h' p' (rev ops ++ l).
Proof.
  intros Hs. induction ops as [|a r IH]; intros fuel h p l h' p' G Hf H; cbn in *.
  - injection H as <- <-. exact G.
  - destruct (app fuel h a p) as [[h1 p1]|] eqn:E; [|discriminate].
    rewrite <- app_assoc. cbn. apply (IH fuel h1 p1 (a :: l)).
    + eapply Hs; [exact G| |exact E]. lia.
    + cbn. lia.
    + exact H.
Qed.

Lemma append_species_good h0 fuel h p l a h' p' : good h0 h p l -> (List.length l <= fuel)%nat ->
  append_species fuel h a p = Some (h', p') -> good h0 h' p' (a :: l).
Proof.
  intros G Hf H. unfold append_species in H. destruct (next (h a)); [discriminate|].
  destruct (find_name fuel h (name (h a)) p) as [[?|]|] eqn:E; try discriminate.
  destruct (match p with None => true | Some b => grid_of (h a) =? grid_of (h b) end); [|discriminate].
  injection H as <- <-. eapply good_push; eassumption.
Qed.
Lemma append_material_good h0 fuel h p l a h' p' : good h0 h p l -> (List.length l <= fuel)%nat ->
  append_material fuel h a p = Some (h', p') -> good h0 h' p' (a :: l).
Proof.
  intros G Hf H. unfold append_material in H. destruct (next (h a)); [discriminate|].
  destruct (find_name fuel h (name (h a)) p) as [[?|]|] eqn:E; try discriminate.
  destruct (32768 <=? num_ids h p); [discriminate|].
  injection H as <- <-. eapply good_push; eassumption.
Qed.

(* The lookups on a good list. *)
Lemma find_unique (f : Z -> bool) l a : In a l -> f a = true -> (forall b, In b l -> f b = true -> b = a) ->
  find f l = Some a.
Proof.
  induction l as [|b r IH]; cbn; [tauto|]. intros Hin Ha Hu. destruct (f b) eqn:E.
  - f_equal. apply Hu; [left; reflexivity|exact E].
  - apply IH; [|exact Ha|intros c Hc; apply Hu; right; exact Hc].
    destruct Hin as [->|H]; [congruence|exact H].
Qed.
Lemma nodup_map_inj {A B} (f : A -> B) l a b : NoDup (map f l) -> In a l -> In b l -> f a = f b -> a = b.
Proof.
  induction l as [|c r IH]; cbn; [tauto|]. intros H. inversion H as [|? ? Hn Hr]; subst.
  intros [->|Ha] [->|Hb] E; try reflexivity.
  - exfalso. apply Hn. rewrite E. apply in_map. exact Hb.
  - exfalso. apply Hn. rewrite <- E. apply in_map. exact Ha.
  - apply IH; assumption.
Qed.

Lemma good_lookup h0 h p ops k a fuel : good h0 h p (rev ops) -> (List.length ops <= fuel)%nat ->
  nth_error ops k = Some a ->
  id (h a) = Z.of_nat k /\ find_name fuel h (name (h0 a)) p = Some (Some a) /\
  find_id fuel h (Z.of_nat k) p = Some (Some a) /\ walk fuel h p = Some (rev ops).
Proof.
  intros G Hf Hk. assert (Hf' : (List.length (rev ops) <= fuel)%nat) by (rewrite rev_length; exact Hf).
  assert (Hid : forall j b, nth_error ops j = Some b -> id (h b) = Z.of_nat j).
  { intros j b Hj. apply (g_num _ _ _ _ G). rewrite rev_involutive. exact Hj. }
  assert (Hin : In a (rev ops)) by (apply in_rev; rewrite rev_involutive; eapply nth_error_In; exact Hk).
  split; [apply Hid; exact Hk|]. split; [|split].
  - unfold find_name. rewrite (chain_find _ _ (rev ops)); [|apply G|exact Hf']. f_equal.
    destruct (g_keep _ _ _ _ G a) as [En _]. apply find_unique; [exact Hin|apply String.eqb_eq; exact En|].
    intros b Hb Eb. apply String.eqb_eq in Eb.
    eapply (nodup_map_inj (fun a => name (h a))); [apply G|exact Hb|exact Hin|congruence].
  - unfold find_id. rewrite (chain_find _ _ (rev ops)); [|apply G|exact Hf']. f_equal.
    apply find_unique; [exact Hin|cbv beta; rewrite (Hid k a Hk); apply Z.eqb_refl|].
    intros b Hb Eb. apply in_rev, In_nth_error in Hb. destruct Hb as (j & Hj).
    cbv beta in Eb. rewrite (Hid j b Hj) in Eb. assert (j = k) by lia. subst j. congruence.
  - apply chain_walk; [apply G|exact Hf'].
Qed.

Lemma species_ids ops h0 h p fuel : (List.length ops <= fuel)%nat ->
  append_all (append_species fuel) ops h0 None = Some (h, p) ->
  NoDup (map (fun a => name (h0 a)) ops) /\ num_ids h p = Z.of_nat (List.length ops) /\
  forall k a, nth_error ops k = Some a ->
    id (h a) = Z.of_nat k /\ find_name fuel h (name (h0 a)) p = Some (Some a) /\
    find_id fuel h (Z.of_nat k) p = Some (Some a) /\ walk fuel h p = Some (rev ops).
Proof.
  intros Hf H. assert (G : good h0 h p (rev ops ++ [])).
  { eapply append_all_good; [|apply good_nil| |exact H]; [|cbn; lia].
    intros. eapply append_species_good; eassumption. }
  rewrite app_nil_r in G. split; [|split].
  - pose proof (g_names _ _ _ _ G) as N. rewrite map_rev in N. apply NoDup_rev in N. rewrite rev_involutive in N.
    erewrite map_ext; [exact N|]. intros a. symmetry. apply (g_keep _ _ _ _ G).
  - rewrite (good_num _ _ _ _ G), rev_length. reflexivity.
  - intros k a Hk. eapply good_lookup; eassumption.
Qed.
Lemma material_ids ops h0 h p fuel : (List.length ops <= fuel)%nat ->
  append_all (append_material fuel) ops h0 None = Some (h, p) ->
  NoDup (map (fun a => name (h0 a)) ops) /\ num_ids h p = Z.of_nat (List.length ops) /\
  Z.of_nat (List.length ops) <= 32768 /\
  forall k a, nth_error ops k = Some a ->
    id (h a) = Z.of_nat k /\ find_name fuel h (name (h0 a)) p = Some (Some a) /\
    find_id fuel h (Z.of_nat k) p = Some (Some a) /\ walk fuel h p = Some (rev ops).
Proof.
  intros Hf H. assert (G : good h0 h p (rev ops ++ [])).
  { eapply append_all_good; [|apply good_nil| |exact H]; [|cbn; lia].
    intros. eapply append_material_good; eassumption. }
  rewrite app_nil_r in G. split; [|split; [|split]].
  - pose proof (g_names _ _ _ _ G) as N. rewrite map_rev in N. apply NoDup_rev in N. rewrite rev_involutive in N.
    erewrite map_ext; [exact N|]. intros a. symmetry. apply (g_keep _ _ _ _ G).
  - rewrite (good_num _ _ _ _ G), rev_length. reflexivity.
  - assert (B : forall ops fuel h p l h' p', good h0 h p l -> (List.length l + List.length ops <= fuel)%nat ->
      append_all (append_material fuel) ops h p = Some (h', p') -> Z.of_nat (List.length l) <= 32768 ->
      Z.of_nat (List.length l + List.length ops) <= 32768).
    { clear. induction ops as [|a r IH]; intros fuel h p l h' p' G Hf H Hl; cbn [List.length append_all] in *; [lia|].
      destruct (append_material fuel h a p) as [[h1 p1]|] eqn:E; [|discriminate].
      assert (Hf1 : (List.length l <= fuel)%nat) by lia.
      pose proof (append_material_good _ _ _ _ _ _ _ _ G Hf1 E) as G1.
      assert (num_ids h p < 32768).
      { unfold append_material in E. destruct (next (h a)); [discriminate|].
        destruct (find_name fuel h (name (h a)) p) as [[?|]|]; try discriminate.
        destruct (Z.leb_spec 32768 (num_ids h p)); [discriminate|assumption]. }
      rewrite (good_num _ _ _ _ G) in H0.
      pose proof (IH fuel h1 p1 (a :: l) h' p' G1) as I. cbn [List.length] in I.
      specialize (I ltac:(lia) H ltac:(lia)). lia. }
    apply (B ops fuel h0 None [] h p (good_nil h0)); [cbn; lia|exact H|cbn; lia].
  - intros k a Hk. eapply good_lookup; eassumption.
Qed.

(* A new object with a new name on the same grid is accepted. *)
Lemma species_accepted ops h0 h p fuel a : (List.length ops <= fuel)%nat ->
  append_all (append_species fuel) ops h0 None = Some (h, p) ->
  ~ In (name (h0 a)) (map (fun b => name (h0 b)) ops) -> next (h0 a) = None ->
  (forall b, In b ops -> grid_of (h0 a) = grid_of (h0 b)) ->
  exists h' p', append_species fuel h a p = Some (h', p').
Proof.
  intros Hf H Hn Hx Hg. assert (G : good h0 h p (rev ops ++ [])).
  { eapply append_all_good; [|apply good_nil| |exact H]; [|cbn; lia].
    intros. eapply append_species_good; eassumption. }
  rewrite app_nil_r in G. unfold append_species.
  assert (Ha : ~ In a (rev ops)).
  { intros Hin. apply Hn. apply in_rev in Hin. apply (in_map (fun b => name (h0 b))) in Hin. exact Hin. }
  rewrite (g_rest _ _ _ _ G a Ha), Hx.
  unfold find_name. rewrite (chain_find _ _ (rev ops)); [|apply G|rewrite rev_length; exact Hf].
  assert (E : find (fun a0 => (name (h a0) =? name (h0 a))%string) (rev ops) = None).
  { destruct (find _ _) as [b|] eqn:E; [exfalso|reflexivity]. apply find_some in E. destruct E as [Hb Eb].
    apply String.eqb_eq in Eb. destruct (g_keep _ _ _ _ G b) as [Kb _]. apply Hn. rewrite <- Eb, Kb.
    apply in_rev in Hb. apply (in_map (fun b => name (h0 b))) in Hb. exact Hb. }
  rewrite E. pose proof (g_chain _ _ _ _ G) as C.
  destruct (rev ops) as [|b r] eqn:Er; cbn in C.
  - subst p. eauto.
  - destruct C as [-> _]. destruct (g_keep _ _ _ _ G b) as [_ Kb].
    assert (In b ops) by (apply in_rev; rewrite Er; left; reflexivity).
    rewrite Kb, (Hg b H0), Z.eqb_refl. eauto.
Qed.

(* ---- boundary handlers ---- *)

Record pgood (h0 h : heap) (p : option Z) (l : list Z) : Prop := {
  pg_chain : chain h p l;
  pg_num : numbered (fun k => - 3 - k) h l;
  pg_rest : forall a, ~ In a l -> h a = h0 a
}.
Lemma pgood_num h0 h p l : pgood h0 h p l -> num_particle_bc h p = Z.of_nat (List.length l).
Proof.
  intros G. destruct l as [|a l]; pose proof (pg_chain _ _ _ _ G) as C; cbn in C.
  - subst p. reflexivity.
  - destruct C as [-> _]. cbn [num_particle_bc]. rewrite (numbered_head _ _ _ _ (pg_num _ _ _ _ G)). cbn [List.length]. lia.
Qed.
Lemma pgood_push h0 h p l a h' p' : pgood h0 h p l -> ~ In a l ->
  append_particle_bc h a p = Some (h', p') -> pgood h0 h' p' (a :: l).
Proof.
  intros G Ha H. unfold append_particle_bc in H. destruct (next (h a)); [discriminate|].
  injection H as <- <-. rewrite (pgood_num _ _ _ _ G). split.
  - cbn [chain]. split; [reflexivity|]. rewrite upd_same. cbn [next]. apply chain_upd; [apply G|exact Ha].
  - apply (numbered_push (fun k => -3 - k)); [apply G|exact Ha].
  - intros b Hb. cbn in Hb. rewrite upd_other by (intros ->; tauto). apply (pg_rest _ _ _ _ G). tauto.
Qed.
Lemma pbc_all h0 : forall ops h p l h' p', pgood h0 h p l -> NoDup (rev ops ++ l) ->
  append_all append_particle_bc ops h p = Some (h', p') -> pgood h0 h' p' (rev ops ++ l).
Proof.
  induction ops as [|a r IH]; intros h p l h' p' G N H; cbn in *.
  - injection H as <- <-. exact G.
  - destruct (append_particle_bc h a p) as [[h1 p1]|] eqn:E; [|discriminate].
    rewrite <- app_assoc in *. cbn in *. apply (IH h1 p1 (a :: l)); [|exact N|exact H].
    eapply pgood_push; [exact G| |exact E]. apply NoDup_remove_2 in N. intros Hl. apply N. apply in_app_iff. right. exact Hl.
Qed.

Lemma table_loop h : forall nodes tab, (forall a, In a nodes -> 0 <= - id (h a) - 3 < 32) ->
  NoDup (map (fun a => id (h a)) nodes) ->
  exists tab', handler_table_loop h nodes tab = Some tab' /\
    (forall a, In a nodes -> tab' (- id (h a) - 3) = Some a) /\
    (forall k, (forall a, In a nodes -> k <> - id (h a) - 3) -> tab' k = tab k).
Proof.
  induction nodes as [|a r IH]; intros tab Hb Hn; cbn [handler_table_loop].
  - exists tab. split; [reflexivity|]. split; [intros a []|reflexivity].
  - pose proof (Hb a (or_introl eq_refl)) as Ha.
    replace ((0 <=? - id (h a) - 3) && (- id (h a) - 3 <? 32)) with true by lia.
    cbn in Hn. inversion Hn as [|? ? Hn1 Hn2]; subst.
    destruct (IH (fun i => if i =? - id (h a) - 3 then Some a else tab i)) as (t & Et & H1 & H2).
    + intros b Hin. apply Hb. right. exact Hin.
    + exact Hn2.
    + exists t. split; [exact Et|]. split.
      * intros b [<-|Hin]; [|apply H1; exact Hin]. rewrite H2; [rewrite Z.eqb_refl; reflexivity|].
        intros b Hin E. apply Hn1. apply in_map_iff. exists b. split; [lia|exact Hin].
      * intros k Hk. rewrite H2; [|intros b Hin; apply Hk; right; exact Hin].
        pose proof (Hk a (or_introl eq_refl)). replace (k =? - id (h a) - 3) with false by lia. reflexivity.
Qed.

Lemma handler_ids ops h0 h p fuel : (List.length ops <= fuel)%nat -> NoDup ops ->
  append_all append_particle_bc ops h0 None = Some (h, p) ->
  num_particle_bc h p = Z.of_nat (List.length ops) /\ walk fuel h p = Some (rev ops) /\
  (forall k a, nth_error ops k = Some a -> id (h a) = -3 - Z.of_nat k) /\
  ((List.length ops <= 32)%nat -> exists tab, handler_table fuel h p = Some tab /\
     forall a, In a ops -> tab (- id (h a) - 3) = Some a) /\
  ((32 < List.length ops)%nat -> handler_table fuel h p = None).
Proof.
  intros Hf Hn H. assert (G : pgood h0 h p (rev ops ++ [])).
  { eapply pbc_all; [|rewrite app_nil_r; apply NoDup_rev; exact Hn|exact H].
    split; [reflexivity| |reflexivity]. intros k a Hk. destruct k; discriminate. }
  rewrite app_nil_r in G. pose proof (pgood_num _ _ _ _ G) as En. rewrite rev_length in En.
  assert (Ew : walk fuel h p = Some (rev ops)).
  { apply chain_walk; [apply G|rewrite rev_length; exact Hf]. }
  assert (Hid : forall k a, nth_error ops k = Some a -> id (h a) = -3 - Z.of_nat k).
  { intros k a Hk. apply (pg_num _ _ _ _ G). rewrite rev_involutive. exact Hk. }
  split; [exact En|]. split; [exact Ew|]. split; [exact Hid|]. unfold handler_table. rewrite En, Ew. split.
  - intros L. replace (32 <? Z.of_nat (List.length ops)) with false by lia.
    destruct (table_loop h (rev ops) (fun _ => None)) as (t & Et & Ht & _).
    + intros a Ha. apply in_rev in Ha. apply In_nth_error in Ha. destruct Ha as (k & Hk).
      rewrite (Hid k a Hk). assert (k < List.length ops)%nat by (apply nth_error_Some; congruence). lia.
    + rewrite map_rev. apply NoDup_rev. apply NoDup_nth_error. rewrite map_length. intros i j Hi E.
      rewrite !nth_error_map in E.
      destruct (nth_error ops i) as [a|] eqn:Ea; [|apply nth_error_None in Ea; lia].
      destruct (nth_error ops j) as [b|] eqn:Eb; [|discriminate].
      cbn in E. injection E as E. rewrite (Hid i a Ea), (Hid j b Eb) in E. lia.
    + exists t. split; [exact Et|]. intros a Ha. apply Ht. apply in_rev. rewrite rev_involutive. exact Ha.
  - intros L. replace (32 <? Z.of_nat (List.length ops)) with true by lia. reflexivity.
Qed.

(* Appending the only handler a second time. *)
Lemma self_loop (h : heap) a : next (h a) = Some a -> forall fuel, walk fuel h (Some a) = None.
Proof. intros H. induction fuel as [|f IH]; cbn; [reflexivity|]. rewrite H, IH. reflexivity. Qed.

Definition fresh_heap : heap := fun _ => mk_node EmptyString 0 0 None.

Lemma handler_twice a : exists h p, append_all append_particle_bc [a; a] fresh_heap None = Some (h, p) /\
  forall fuel, walk fuel h p = None.
Proof.
  eexists. eexists. unfold append_all, append_particle_bc. change (next (fresh_heap a)) with (@None Z).
  cbv iota beta. rewrite upd_same. cbn [next]. split; [reflexivity|].
  apply self_loop. rewrite upd_same. reflexivity.
Qed.
Lemma collision_twice a : exists h p, append_all append_collision_op [a; a] fresh_heap None = Some (h, p) /\
  forall fuel, walk fuel h p = None.
Proof.
  eexists. eexists. unfold append_all, append_collision_op. change (next (fresh_heap a)) with (@None Z).
  cbv iota beta. rewrite upd_same. cbn [next]. split; [reflexivity|].
  apply self_loop. rewrite upd_same. reflexivity.
Qed.

Lemma collision_all : forall ops h p l h' p', chain h p l -> NoDup (rev ops ++ l) ->
  append_all append_collision_op ops h p = Some (h', p') -> chain h' p' (rev ops ++ l).
Proof.
  induction ops as [|a r IH]; intros h p l h' p' G N H; cbn in *.
  - injection H as <- <-. exact G.
  - unfold append_collision_op at 1 in H. destruct (next (h a)); [discriminate|].
    rewrite <- app_assoc in *. cbn in *. eapply (IH _ _ (a :: l)); [|exact N|exact H].
    cbn [chain]. split; [reflexivity|]. rewrite upd_same. cbn [next]. apply chain_upd; [exact G|].
    apply NoDup_remove_2 in N. intros Hl. apply N. apply in_app_iff. right. exact Hl.
Qed.

Lemma collision_once ops h0 h p fuel : (List.length ops <= fuel)%nat -> NoDup ops ->
  append_all append_collision_op ops h0 None = Some (h, p) -> walk fuel h p = Some (rev ops).
Proof.
  intros Hf N H. apply chain_walk; [|rewrite rev_length; exact Hf].
  rewrite <- (app_nil_r (rev ops)). eapply collision_all; [|rewrite app_nil_r; apply NoDup_rev; exact N|exact H]. reflexivity.
Qed.

(* Emitters may be appended again: the list stays finite and has each of them once. *)
Lemma emitter_all fuel : forall ops h p l h' p', chain h p l -> NoDup l ->
  (List.length l + List.length ops <= fuel)%nat ->
  append_all (append_emitter fuel) ops h p = Some (h', p') ->
  exists l', chain h' p' l' /\ NoDup l' /\ (forall a, In a l' <-> In a l \/ In a ops) /\
    (List.length l' <= List.length l + List.length ops)%nat.
Proof.
  induction ops as [|e r IH]; intros h p l h' p' C N Hf H; cbn in *.
  - injection H as <- <-. exists l. split; [exact C|]. split; [exact N|]. split; [|lia]. intros a; tauto.
  - destruct (append_emitter fuel h e p) as [[h1 p1]|] eqn:E; [|discriminate].
    unfold append_emitter in E. rewrite (chain_walk _ l) in E by (assumption || lia).
    destruct (existsb (Z.eqb e) l) eqn:Ex.
    + injection E as <- <-. destruct (IH h p l h' p' C N ltac:(lia) H) as (l' & C' & N' & I' & L').
      exists l'. split; [exact C'|]. split; [exact N'|]. split; [|lia]. intros a. rewrite I'.
      apply existsb_exists in Ex. destruct Ex as (x & Hx & Exx). apply Z.eqb_eq in Exx. subst x.
      split; [tauto|]. intros [Ha|[<-|Ha]]; tauto.
    + assert (He : ~ In e l).
      { intros Hin. assert (existsb (Z.eqb e) l = true) by (apply existsb_exists; exists e; split; [exact Hin|apply Z.eqb_refl]). congruence. }
      destruct (next (h e)); [discriminate|]. injection E as <- <-.
      eapply (IH _ _ (e :: l) h' p') in H.
      * destruct H as (l' & C' & N' & I' & L'). exists l'. split; [exact C'|]. split; [exact N'|]. split; [|cbn in L'; lia]. intros a. rewrite I'. cbn. tauto.
      * cbn [chain]. split; [reflexivity|]. rewrite upd_same. cbn [next]. apply chain_upd; assumption.
      * constructor; assumption.
      * cbn; lia.
Qed.

Lemma emitter_ok ops h0 h p fuel : (List.length ops <= fuel)%nat ->
  append_all (append_emitter fuel) ops h0 None = Some (h, p) ->
  exists l, walk fuel h p = Some l /\ NoDup l /\ forall a, In a l <-> In a ops.
Proof.
  intros Hf H. destruct (emitter_all fuel ops h0 None [] h p) as (l & C & N & I & L);
    [reflexivity|constructor|cbn; lia|exact H|].
  exists l. split; [apply chain_walk; [exact C|cbn in L; lia]|]. split; [exact N|]. intros a. rewrite I. cbn. tauto.
Qed.
