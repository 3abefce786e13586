(* Proofs about the checkpoint registry and file format. *)
From Coq Require Import ZArith List Bool Lia ZifyBool.
From Verif Require Import CheckptModel CheckptSpec.
Import ListNotations.
Open Scope Z_scope.
Ltac Zify.zify_post_hook ::= idtac.

(* ---- registry ---- *)
Record good (s : service) : Prop := {
  g_booted : s_booted s = true;
  g_idle : s_busy s = false;
  g_next : 1 <= s_next s;
  g_objs : NoDup (map n_obj (s_reg s));
  g_ids : NoDup (map n_id (s_reg s));
  g_each : forall n, In n (s_reg s) -> n_obj n <> 0 /\ 1 <= n_id n < s_next s }.

Lemma find_obj_none reg p : find_obj reg p = None <-> ~ In p (map n_obj reg).
Proof.
  unfold find_obj. induction reg as [|n r IH]; cbn [find map In]; [tauto|].
  destruct (n_obj n =? p) eqn:E.
  - split; [discriminate|]. intros H. exfalso. apply H. left. lia.
  - rewrite IH. split; intros H; [intros [K|K]; [lia|contradiction]|tauto].
Qed.
Lemma find_obj_in reg n : NoDup (map n_obj reg) -> In n reg -> find_obj reg (n_obj n) = Some n.
Proof.
  unfold find_obj. induction reg as [|m r IH]; cbn [find map In]; [tauto|]. intros H I. inversion H; subst.
  destruct I as [->|I]; [rewrite Z.eqb_refl; reflexivity|].
  destruct (n_obj m =? n_obj n) eqn:E; [|apply IH; assumption].
  exfalso. apply H2. replace (n_obj m) with (n_obj n) by lia. apply in_map. exact I.
Qed.
Lemma find_id_none reg i : find_id reg i = None <-> ~ In i (map n_id reg).
Proof.
  unfold find_id. induction reg as [|n r IH]; cbn [find map In]; [tauto|].
  destruct (n_id n =? i) eqn:E.
  - split; [discriminate|]. intros H. exfalso. apply H. left. lia.
  - rewrite IH. split; intros H; [intros [K|K]; [lia|contradiction]|tauto].
Qed.
Lemma find_id_in reg n : NoDup (map n_id reg) -> In n reg -> find_id reg (n_id n) = Some n.
Proof.
  unfold find_id. induction reg as [|m r IH]; cbn [find map In]; [tauto|]. intros H I. inversion H; subst.
  destruct I as [->|I]; [rewrite Z.eqb_refl; reflexivity|].
  destruct (n_id m =? n_id n) eqn:E; [|apply IH; assumption].
  exfalso. apply H2. replace (n_id m) with (n_id n) by lia. apply in_map. exact I.
Qed.
Lemma find_obj_some reg p n : find_obj reg p = Some n -> In n reg /\ n_obj n = p.
Proof. unfold find_obj. intros H. apply find_some in H. split; [tauto|lia]. Qed.
Lemma find_id_some reg p n : find_id reg p = Some n -> In n reg /\ n_id n = p.
Proof. unfold find_id. intros H. apply find_some in H. split; [tauto|lia]. Qed.

Lemma in_remove reg p n : In n (remove_first reg p) -> In n reg.
Proof.
  induction reg as [|m r IH]; cbn [remove_first In]; [tauto|]. destruct (n_obj m =? p); cbn [In]; tauto.
Qed.
Lemma remove_nodup {B} (f : node -> B) reg p : NoDup (map f reg) -> NoDup (map f (remove_first reg p)).
Proof.
  induction reg as [|m r IH]; cbn [remove_first map]; [intros H; exact H|]. intros H. inversion H; subst.
  destruct (n_obj m =? p); [assumption|]. cbn [map]. constructor; [|apply IH; assumption].
  intros I. apply H2. apply in_map_iff in I. destruct I as (x & E & Hx). rewrite <- E. apply in_map. exact (in_remove _ _ _ Hx).
Qed.
Lemma in_remove_other reg p n : In n reg -> n_obj n <> p -> In n (remove_first reg p).
Proof.
  induction reg as [|m r IH]; cbn [remove_first In]; [tauto|]. intros [->|I] H.
  - replace (n_obj n =? p) with false by lia. left. reflexivity.
  - destruct (n_obj m =? p); [exact I|]. right. apply IH; assumption.
Qed.

Lemma nodup_snoc {A} (l : list A) x : NoDup l -> ~ In x l -> NoDup (l ++ [x]).
Proof.
  induction l as [|a l IH]; cbn [app In]; intros H K; [constructor; [intros []|constructor]|].
  inversion H; subst. constructor; [|apply IH; [assumption|tauto]]. rewrite in_app_iff. cbn [In]. intros [I|[I|[]]]; [contradiction|]. subst. tauto.
Qed.

Lemma step_good s c : good s -> s_next s < 2 ^ 64 - 1 -> good (step s c) /\ s_next s <= s_next (step s c) <= s_next s + 1.
Proof.
  intros G B. pose proof (g_next s G) as N. destruct c as [p ck rs an|p]; unfold step.
  - unfold register. rewrite (g_booted s G), (g_idle s G). cbn [negb orb]. destruct (p =? 0) eqn:E0; [split; [exact G|lia]|].
    destruct (find_obj (s_reg s) p) eqn:F; [split; [exact G|lia]|]. apply find_obj_none in F.
    assert (W : word (s_next s + 1) = s_next s + 1) by (unfold word; apply Z.mod_small; lia).
    rewrite W. split; [|cbn [s_next]; lia].
    constructor; cbn [s_booted s_busy s_reg s_next]; try reflexivity; [lia| | |].
    + rewrite map_app. apply nodup_snoc; [apply G|exact F].
    + rewrite map_app. apply nodup_snoc; [apply G|]. intros I. apply in_map_iff in I. destruct I as (x & E & Hx).
      pose proof (g_each s G x Hx). cbn [n_id] in E. lia.
    + intros n I. apply in_app_or in I. destruct I as [I|[<-|[]]]; [pose proof (g_each s G n I); lia|].
      cbn [n_obj n_id]. lia.
  - unfold unregister. rewrite (g_booted s G), (g_idle s G). cbn [negb orb].
    destruct (find_obj (s_reg s) p) eqn:F; [|split; [exact G|lia]]. split; [|cbn [s_next]; lia].
    constructor; cbn [s_booted s_busy s_reg s_next]; try reflexivity; [exact N| | |].
    + apply remove_nodup. apply G.
    + apply remove_nodup. apply G.
    + intros m I. apply (g_each s G). exact (in_remove _ _ _ I).
Qed.
Lemma run_good cs : forall s, good s -> s_next s + Z.of_nat (length cs) < 2 ^ 64 ->
  good (run s cs) /\ s_next s <= s_next (run s cs) <= s_next s + Z.of_nat (length cs).
Proof.
  induction cs as [|c cs IH]; intros s G B; cbn [run fold_left length] in *; [split; [exact G|lia]|].
  destruct (step_good s c G ltac:(lia)) as [G' N]. destruct (IH (step s c) G' ltac:(lia)) as [G'' N'].
  split; [exact G''|]. fold (run (step s c) cs) in *. lia.
Qed.
Definition booted_service : service := mks true false [] 1.
Lemma boot_good : good booted_service.
Proof. constructor; cbn [booted_service s_booted s_busy s_next s_reg map]; try reflexivity; [constructor|constructor|intros n []]. Qed.
Lemma run_app s a b : run s (a ++ b) = run (run s a) b.
Proof. unfold run. apply fold_left_app. Qed.

Lemma find_app {A} (f : A -> bool) (l m : list A) : find f (l ++ m) = match find f l with Some x => Some x | None => find f m end.
Proof. induction l as [|x l IH]; cbn [find app]; [reflexivity|]. destruct (f x); [reflexivity|exact IH]. Qed.
(* a live object keeps its identifier *)
Lemma step_stable s c p i : good s -> object_id s p = Done i -> i <> 0 -> c <> Unregister p -> object_id (step s c) p = Done i.
Proof.
  intros G E Hi Hc. unfold object_id in *. rewrite (g_booted s G) in E. cbn [negb] in E.
  destruct (find_obj (s_reg s) p) as [n|] eqn:F; [|injection E as E; lia]. injection E as E. apply find_obj_some in F. destruct F as [I Ep].
  destruct c as [q ck rs an|q]; unfold step.
  - unfold register. rewrite (g_booted s G), (g_idle s G). cbn [negb orb].
    assert (K : match find_obj (s_reg s) p with Some n0 => n_id n0 | None => 0 end = i)
      by (rewrite <- Ep, (find_obj_in _ n (g_objs s G) I); exact E).
    destruct (q =? 0); [rewrite (g_booted s G); cbn [negb]; f_equal; exact K|].
    destruct (find_obj (s_reg s) q) eqn:F; [rewrite (g_booted s G); cbn [negb]; f_equal; exact K|].
    cbn [s_booted negb s_reg]. unfold find_obj in *. rewrite find_app.
    rewrite <- Ep in *. pose proof (find_obj_in _ n (g_objs s G) I) as L. unfold find_obj in L. rewrite L. f_equal. exact E.
  - unfold unregister. rewrite (g_booted s G), (g_idle s G). cbn [negb orb].
    destruct (find_obj (s_reg s) q) eqn:F.
    + cbn [s_booted negb s_reg]. rewrite <- Ep, find_obj_in; [f_equal; exact E|apply remove_nodup; apply G|].
      apply in_remove_other; [exact I|]. intros K. apply Hc. congruence.
    + rewrite (g_booted s G). cbn [negb]. rewrite <- Ep, (find_obj_in _ n (g_objs s G) I). f_equal. exact E.
Qed.
Lemma run_stable cs : forall s p i, good s -> s_next s + Z.of_nat (length cs) < 2 ^ 64 -> object_id s p = Done i -> i <> 0 ->
  ~ In (Unregister p) cs -> object_id (run s cs) p = Done i.
Proof.
  induction cs as [|c cs IH]; intros s p i G B E Hi Hn; cbn [run fold_left length] in *; [exact E|].
  destruct (step_good s c G ltac:(lia)) as [G' N]. apply IH; [exact G'|lia| |exact Hi|].
  - apply step_stable; [exact G|exact E|exact Hi|]. intros ->. apply Hn. left. reflexivity.
  - intros I. apply Hn. right. exact I.
Qed.

(* ---- bytes ---- *)
Lemma le_length k : forall w, length (le k w) = k.
Proof. induction k as [|k IH]; intros w; cbn [le length]; [reflexivity|]. rewrite IH. reflexivity. Qed.
Lemma unle_le k : forall w, 0 <= w < 256 ^ Z.of_nat k -> unle (le k w) = w.
Proof.
  induction k as [|k IH]; intros w H; cbn [le unle]; [change (256 ^ Z.of_nat 0) with 1 in H; lia|].
  rewrite Nat2Z.inj_succ, Z.pow_succ_r in H by lia.
  rewrite IH.
  - pose proof (Z.div_mod w 256 ltac:(lia)). lia.
  - split; [apply Z.div_pos; lia|]. apply Z.div_lt_upper_bound; lia.
Qed.

Opaque le.
Section Read.
Variable junk : nat -> Z.
Variable yr : symbols.
Variable shape : Z -> list kind.
Variable alloc : nat -> Z.

Lemma take_exact b : forall r j, take junk (length b) (b ++ r, j) = (b, (r, j)).
Proof.
  induction b as [|x b IH]; intros r j; cbn [length take app]; [reflexivity|]. cbn [fst snd]. rewrite IH. reflexivity.
Qed.
Lemma get_word_exact w r j : is_word w -> get_word junk (le 8 w ++ r, j) = (w, (r, j)).
Proof.
  intros H. unfold get_word. replace 8%nat with (length (le 8 w)) at 1 by apply le_length. rewrite take_exact. f_equal.
  apply unle_le. change (256 ^ Z.of_nat 8) with (2 ^ 64). exact H.
Qed.
Lemma take_elts_exact sz es : Forall (fun e => length e = sz) es -> forall r j,
  take_elts junk (length es) sz (concat es ++ r, j) = (es, (r, j)).
Proof.
  induction 1 as [|e es He Hes IH]; intros r j; cbn [length take_elts concat app]; [reflexivity|].
  rewrite <- app_assoc. rewrite <- He at 1. rewrite take_exact, IH. reflexivity.
Qed.

Variable yw : symbols.
Variable old : list node.

Lemma no_zero b : ~ In 0 b -> existsb (Z.eqb 0) b = false.
Proof.
  intros H. destruct (existsb (Z.eqb 0) b) eqn:E; [|reflexivity]. apply existsb_exists in E. destruct E as (x & I & E).
  exfalso. apply H. replace 0 with x by lia. exact I.
Qed.
Lemma get_str_ok s r j : wf_str s -> get_str junk (flat (put_str s) ++ r, j) = Ok s (r, j).
Proof.
  intros H. destruct s as [b|]; unfold put_str, flat; cbn [flat_map bytes_of app]; unfold get_str.
  - rewrite <- !app_assoc. rewrite get_word_exact by (unfold is_word, M_str; lia).
    change (M_str =? M_nostr) with false. change (M_str =? M_str) with true. cbn [negb].
    destruct H as [H0 H1]. rewrite get_word_exact by (unfold is_word; lia).
    replace (Z.of_nat (length b) =? 2 ^ 64 - 1) with false by lia. rewrite Nat2Z.id, app_nil_l, take_exact, no_zero by exact H0. reflexivity.
  - rewrite <- !app_assoc. rewrite get_word_exact by (unfold is_word, M_nostr; lia). reflexivity.
Qed.
Lemma flat_app a b : flat (a ++ b) = flat a ++ flat b. Proof. apply flat_map_app. Qed.
Lemma get_sym_ok a r j : wf_sym yw yr a -> get_sym junk yr (flat (put_sym yw a) ++ r, j) = Ok (newsym yw yr a) (r, j).
Proof.
  intros H. unfold put_sym, newsym. fold (by_name yw a). destruct (a =? 0) eqn:E0.
  - cbn [flat flat_map bytes_of app]. unfold get_sym. rewrite <- app_assoc. rewrite get_word_exact by (unfold is_word, M_nosym; lia). reflexivity.
  - destruct H as [H|[Hw Hn]]; [lia|]. destruct (by_name yw a) eqn:E.
    + destruct (Hn eq_refl) as (A & B & C). change (flat (?x :: ?l)) with (bytes_of x ++ flat l). cbn [bytes_of].
      rewrite flat_app, <- !app_assoc. unfold get_sym. rewrite get_word_exact by (unfold is_word, M_namesym; lia).
      change (M_namesym =? M_nosym) with false. change (M_namesym =? M_namesym) with true. cbn match.
      rewrite get_str_ok by exact A. rewrite get_str_ok by exact B. cbv zeta.
      replace (find_saddr yr (sym_name yw a) =? 0) with false by lia. reflexivity.
    + cbn [flat flat_map bytes_of app]. unfold get_sym. rewrite <- !app_assoc.
      rewrite get_word_exact by (unfold is_word, M_addrsym; lia).
      change (M_addrsym =? M_nosym) with false. change (M_addrsym =? M_namesym) with false. change (M_addrsym =? M_addrsym) with true. cbn match.
      rewrite get_word_exact by exact Hw. reflexivity.
Qed.
Lemma get_fptr_ok i r j : is_word i -> i <> 0 ->
  get_fptr junk (le 8 M_ptr ++ le 8 i ++ r, j) = Ok i (r, j).
Proof.
  intros H H0. unfold get_fptr. rewrite get_word_exact by (unfold is_word, M_ptr; lia).
  change (M_ptr =? M_noptr) with false. change (M_ptr =? M_ptr) with true. cbn [negb]. rewrite get_word_exact by exact H.
  replace (i =? 0) with false by lia. reflexivity.
Qed.
Lemma get_noptr_ok r j : get_fptr junk (le 8 M_noptr ++ r, j) = Ok 0 (r, j).
Proof. unfold get_fptr. rewrite get_word_exact by (unfold is_word, M_noptr; lia). reflexivity. Qed.

Lemma put_data_flat es : flat (map Plain es) = concat es.
Proof. induction es as [|e es IH]; cbn [map flat flat_map bytes_of concat]; [reflexivity|]. f_equal. exact IH. Qed.
Lemma all_nil es : Forall (fun e : list Z => Z.of_nat (length e) = 0) es -> es = repeat [] (length es) /\ concat es = [].
Proof.
  induction 1 as [|e es He Hes IH]; [split; reflexivity|]. cbn [length repeat concat].
  destruct e; [|cbn in He; lia]. destruct IH as [E1 E2]. split; [f_equal; exact E1|exact E2].
Qed.

Lemma get_data_ok sz str max align es cs r j seen :
  wf_val yw yr old seen (VData sz str max align es) -> put_data sz str max align es = Some cs ->
  get_data junk (flat cs ++ r, j) = Ok (VData sz str max align es) (r, j).
Proof.
  intros (W1 & W2 & W3 & W4 & Ha & Hs & Hn & Hm & Hf) E. unfold put_data in E. cbv zeta in E.
  replace ((max <? Z.of_nat (length es)) || (str <? sz)) with false in E by lia. injection E as <-.
  unfold flat at 1. cbn [flat_map bytes_of]. change (flat_map bytes_of (map Plain es)) with (flat (map Plain es)). rewrite put_data_flat.
  rewrite <- !app_assoc. unfold get_data.
  rewrite get_word_exact by (unfold is_word, M_data; lia). change (M_data =? M_data) with true. cbn [negb].
  rewrite !get_word_exact by (unfold is_word in *; lia).
  replace ((max <? Z.of_nat (length es)) || (str <? sz)) with false by lia.
  replace (negb (align =? 0) && negb (Z.land align (align - 1) =? 0)) with false
    by (destruct Ha as [Ha|Ha]; rewrite Ha; [reflexivity|]; destruct (align =? 0); reflexivity).
  cbv zeta. unfold is_word in *.
  assert (Hw : word (max * str) = max * str) by (unfold word; apply Z.mod_small; nia). rewrite Hw.
  destruct ((Z.of_nat (length es) =? 0) || (sz =? 0)) eqn:E0.
  - apply orb_true_iff in E0. rewrite Nat2Z.id. destruct E0 as [E0|E0].
    + assert (length es = O) by lia. destruct es; [reflexivity|discriminate].
    + replace sz with 0 in Hf by lia. destruct (all_nil es Hf) as [E1 E2]. rewrite E2. cbn [app]. rewrite <- E1. reflexivity.
  - apply orb_false_iff in E0. assert (1 <= sz) by lia. assert (1 <= Z.of_nat (length es)) by lia.
    assert (0 < max * str) by nia. replace (max * str =? 0) with false by lia.
    assert ((Z.of_nat (length es) - 1) * str + sz <= max * str) by nia.
    replace (max * str <? (Z.of_nat (length es) - 1) * str + sz) with false by lia.
    rewrite Nat2Z.id, take_elts_exact; [reflexivity|]. eapply Forall_impl; [|exact Hf]. cbn beta. intros e He. lia.
Qed.

(* the registry while an object is restored gives every already restored object its new address *)
Definition gives (reg : list node) (seen : list node) : Prop :=
  forall p, In p (map n_obj seen) -> reanimate_fptr reg (id_of old p) = Some (newptr alloc old p).
Hypothesis old_ids : forall n, In n old -> is_word (n_id n) /\ n_id n <> 0 /\ n_obj n <> 0.

Lemma put_ptr_flat p cs : put_ptr old p = Some cs ->
  (p = 0 /\ flat cs = le 8 M_noptr) \/
  (p <> 0 /\ flat cs = le 8 M_ptr ++ le 8 (id_of old p) /\ is_word (id_of old p) /\ id_of old p <> 0).
Proof.
  unfold put_ptr, id_of. destruct (p =? 0) eqn:E0.
  - intros E. injection E as <-. left. split; [lia|]. cbn [flat flat_map bytes_of]. apply app_nil_r.
  - destruct (find_obj old p) as [n|] eqn:F; [|discriminate]. intros E. injection E as <-. right. split; [lia|].
    apply find_obj_some in F. destruct F as [I _]. destruct (old_ids n I). split; [|tauto].
    cbn [flat flat_map bytes_of]. rewrite app_nil_r. reflexivity.
Qed.

Lemma get_val_ok reg seen v cs r j : gives reg seen -> wf_val yw yr old seen v -> put_val yw old v = Some cs ->
  get_val junk yr reg (kind_of v) (flat cs ++ r, j) = Ok (restored_val yw yr alloc old v) (r, j).
Proof.
  intros Hg Hv Hp. destruct v as [b|sz str max align es|s|p|p|a]; cbn [put_val kind_of restored_val get_val wf_val] in *.
  - injection Hp as <-. cbn [flat flat_map bytes_of]. rewrite app_nil_r, take_exact. reflexivity.
  - exact (get_data_ok sz str max align es cs r j seen Hv Hp).
  - injection Hp as <-. rewrite get_str_ok by exact Hv. reflexivity.
  - unfold get_ptr. destruct (put_ptr_flat p cs Hp) as [[-> ->]|(N & -> & W & Z0)].
    + rewrite get_noptr_ok. reflexivity.
    + rewrite <- app_assoc, get_fptr_ok by assumption. rewrite Hg by (destruct Hv; [contradiction|assumption]). reflexivity.
  - destruct (put_ptr_flat p cs Hp) as [[-> ->]|(N & -> & W & Z0)].
    + rewrite get_noptr_ok. unfold id_of. destruct (find_obj old 0) as [n|] eqn:F; [|reflexivity].
      apply find_obj_some in F. destruct F as [I E]. destruct (old_ids n I) as (_ & _ & K). contradiction.
    + rewrite <- app_assoc, get_fptr_ok by assumption. reflexivity.
  - injection Hp as <-. rewrite get_sym_ok by exact Hv. reflexivity.
Qed.
Lemma get_vals_ok reg seen vs : gives reg seen -> Forall (wf_val yw yr old seen) vs -> forall cs r j, put_vals yw old vs = Some cs ->
  get_vals junk yr reg (map kind_of vs) (flat cs ++ r, j) = Ok (map (restored_val yw yr alloc old) vs) (r, j).
Proof.
  intros Hg. induction 1 as [|v vs Hv Hvs IH]; intros cs r j E; cbn [put_vals map get_vals] in *; [injection E as <-; reflexivity|].
  destruct (put_val yw old v) as [a|] eqn:Ea; [|discriminate]. destruct (put_vals yw old vs) as [b|] eqn:Eb; [|discriminate].
  injection E as <-. rewrite flat_app, <- app_assoc. rewrite (get_val_ok reg seen v a _ _ Hg Hv Ea). rewrite (IH b r j eq_refl). reflexivity.
Qed.

Lemma get_node_ok reg seen o cs r j : length reg = length seen -> gives (reg ++ [mkn (n_obj (fst (fst o))) (newsym yw yr (n_ck (fst (fst o)))) (newsym yw yr (n_rs (fst (fst o)))) (newsym yw yr (n_an (fst (fst o)))) (n_id (fst (fst o)))]) seen ->
  wf_object yw yr shape old seen o -> put_node yw old (fst (fst o)) (snd (fst o)) (snd o) = Some cs ->
  exists cs', cs = Mark M_node [M_node; M_end] :: cs' /\ get_node junk yr shape alloc reg (flat cs' ++ r, j) = Ok (restored_object yw yr alloc old (length seen) o) (r, j).
Proof.
  intros L Hg Hw E. destruct o as [[n link] vs]. cbn [fst snd] in *. unfold wf_object in Hw.
  destruct Hw as ((W1 & W0 & W2 & W3 & W4 & W5 & I0 & W6 & S1 & S2 & S3 & C0 & R0) & Sh & Hv). unfold put_node in E.
  replace (n_ck n =? 0) with false in E by lia. destruct (put_vals yw old vs) as [c|] eqn:Ec; [|discriminate]. injection E as <-.
  eexists. split; [reflexivity|]. match goal with |- context [flat (?x :: ?l)] => change (flat (x :: l)) with (bytes_of x ++ flat l) end.
  cbn [bytes_of]. rewrite !flat_app, <- !app_assoc. unfold get_node. rewrite !get_word_exact by assumption.
  rewrite !get_sym_ok by assumption. replace (newsym yw yr (n_rs n) =? 0) with false by lia. rewrite Sh.
  rewrite (get_vals_ok _ seen vs Hg Hv c r j Ec). rewrite L. reflexivity.
Qed.

Fixpoint restored_from (k : nat) (os : list object) : list (node * list val) :=
  match os with [] => [] | o :: r => restored_object yw yr alloc old k o :: restored_from (S k) r end.
Lemma restored_from_length os : forall k, length (restored_from k os) = length os.
Proof. induction os as [|o os IH]; intros k; cbn [restored_from length]; [reflexivity|]. rewrite IH. reflexivity. Qed.
Lemma restored_from_app a b : forall k, restored_from k (a ++ b) = restored_from k a ++ restored_from (k + length a) b.
Proof.
  induction a as [|o a IH]; intros k; cbn [restored_from length app]; [rewrite Nat.add_0_r; reflexivity|].
  rewrite IH. do 2 f_equal. f_equal. lia.
Qed.
Lemma fst_restored k o : fst (restored_object yw yr alloc old k o) =
  mkn (alloc k) (newsym yw yr (n_ck (node_of o))) (newsym yw yr (n_rs (node_of o))) (newsym yw yr (n_an (node_of o))) (n_id (node_of o)).
Proof. destruct o as [[n l] vs]. reflexivity. Qed.

Lemma find_restored t os : NoDup (map n_obj (map node_of os)) -> NoDup (map n_id (map node_of os)) -> forall k n, In n (map node_of os) ->
  exists m, find_id (map fst (restored_from k os) ++ t) (n_id n) = Some m /\ n_obj m = alloc (k + position (map node_of os) (n_obj n)).
Proof.
  induction os as [|o os IH]; cbn [map In restored_from app position]; [intros _ _ k n []|]. intros Ho Hi k n I.
  inversion Ho; subst. inversion Hi; subst. rewrite fst_restored. unfold find_id. cbn [find n_id].
  destruct I as [E|I].
  - rewrite E, !Z.eqb_refl. eexists. split; [reflexivity|]. cbn [n_obj]. f_equal. lia.
  - destruct (n_id (node_of o) =? n_id n) eqn:E1.
    { exfalso. apply H3. replace (n_id (node_of o)) with (n_id n) by lia. apply in_map. exact I. }
    destruct (n_obj (node_of o) =? n_obj n) eqn:E2.
    { exfalso. apply H1. replace (n_obj (node_of o)) with (n_obj n) by lia. apply in_map. exact I. }
    destruct (IH H2 H4 (S k) n I) as (m & Em & Ea). exists m. split; [exact Em|]. rewrite Ea. f_equal. lia.
Qed.
Lemma position_app a b p : In p (map n_obj a) -> position (a ++ b) p = position a p.
Proof.
  induction a as [|n a IH]; cbn [map In position app]; [intros []|]. intros H. destruct (n_obj n =? p) eqn:E; [reflexivity|].
  rewrite IH; [reflexivity|]. destruct H; [lia|assumption].
Qed.
Lemma nodup_app_l {A} (a b : list A) : NoDup (a ++ b) -> NoDup a.
Proof.
  induction a as [|x a IH]; cbn [app]; intros H; [constructor|]. inversion H; subst. constructor; [|apply IH; assumption].
  intros I. apply H2. apply in_or_app. left. exact I.
Qed.

Hypothesis alloc_ok : forall k, alloc k <> 0.
Hypothesis old_objs : NoDup (map n_obj old).
Hypothesis old_idsd : NoDup (map n_id old).

Lemma gives_done t a b : old = map node_of (a ++ b) -> gives (map fst (restored_from 0 a) ++ t) (map node_of a).
Proof.
  intros E p I. apply in_map_iff in I. destruct I as (n & <- & I).
  assert (Io : In n old) by (rewrite E, map_app; apply in_or_app; left; exact I).
  destruct (old_ids n Io) as (_ & N0 & O0). unfold id_of. rewrite (find_obj_in old n old_objs Io). unfold reanimate_fptr.
  replace (n_id n =? 0) with false by lia.
  pose proof old_objs as D1. pose proof old_idsd as D2. rewrite E, !map_app in D1, D2. apply nodup_app_l in D1, D2.
  destruct (find_restored t a D1 D2 O n I) as (m & -> & Ea). cbn [Nat.add] in Ea.
  replace (n_obj m =? 0) with false by (rewrite Ea; pose proof (alloc_ok (position (map node_of a) (n_obj n))); lia).
  f_equal. rewrite Ea. unfold newptr. replace (n_obj n =? 0) with false by lia. f_equal.
  rewrite E, map_app. symmetry. apply position_app. apply in_map. exact I.
Qed.

Lemma put_vals_some seen vs : incl seen old -> Forall (wf_val yw yr old seen) vs -> exists cs, put_vals yw old vs = Some cs.
Proof.
  intros Hi. induction 1 as [|v vs Hv Hvs [cs IH]]; cbn [put_vals]; [eexists; reflexivity|]. rewrite IH.
  assert (X : exists c, put_val yw old v = Some c).
  { assert (Y : forall p l, incl l old -> p = 0 \/ In p (map n_obj l) -> exists c, put_ptr old p = Some c).
    { intros p l Hl [->|I]; unfold put_ptr; [eexists; reflexivity|]. destruct (p =? 0); [eexists; reflexivity|].
      apply in_map_iff in I. destruct I as (n & <- & I). rewrite (find_obj_in old n old_objs (Hl n I)). eexists. reflexivity. }
    destruct v as [b|sz str max align es|s|p|p|a]; cbn [put_val wf_val] in *; try (eexists; reflexivity).
    - unfold put_data. cbv zeta. replace ((max <? Z.of_nat (length es)) || (str <? sz)) with false by lia. eexists. reflexivity.
    - exact (Y p seen Hi Hv).
    - exact (Y p old (fun x H => H) Hv). }
  destruct X as [c ->]. eexists. reflexivity.
Qed.

Lemma nodes_ok b : forall a, old = map node_of (a ++ b) ->
  (forall k o, nth_error b k = Some o -> wf_object yw yr shape old (firstn (length a + k) old) o) ->
  exists cs, put_nodes yw old b = Some cs /\ forall r j,
    get_nodes junk yr shape alloc (S (length b)) (map fst (restored_from 0 a)) (flat (cs ++ [Mark M_end [M_node; M_end]]) ++ r, j)
    = Ok (restored_from (length a) b) (r, j).
Proof.
  induction b as [|o b IH]; intros a E H.
  - exists []. split; [reflexivity|]. intros r j. cbn [app length get_nodes flat flat_map bytes_of]. rewrite app_nil_r.
    rewrite get_word_exact by (unfold is_word, M_end; lia). reflexivity.
  - pose proof (H O o eq_refl) as Hw. rewrite Nat.add_0_r in Hw.
    assert (Fn : firstn (length a) old = map node_of a).
    { rewrite E, map_app, <- (map_length node_of a). rewrite firstn_app, firstn_all, Nat.sub_diag, firstn_O, app_nil_r. reflexivity. }
    rewrite Fn in Hw.
    destruct (IH (a ++ [o])) as (cs & Ec & Hcs).
    { rewrite E, <- app_assoc. reflexivity. }
    { intros k o' Ho'. rewrite app_length. cbn [length]. replace (length a + 1 + k)%nat with (length a + S k)%nat by lia. apply H. exact Ho'. }
    destruct o as [[n link] vs]. cbn [put_nodes]. rewrite Ec.
    assert (P : exists c, put_node yw old n link vs = Some c).
    { unfold put_node. destruct (put_vals_some (map node_of a) (if n_ck n =? 0 then [] else vs)) as [c ->].
      - intros x I. rewrite E, map_app. apply in_or_app. left. exact I.
      - destruct (n_ck n =? 0); [constructor|]. cbn [wf_object] in Hw. tauto.
      - eexists. reflexivity. }
    destruct P as [c Ep]. rewrite Ep. eexists. split; [reflexivity|]. intros r j. rewrite <- app_assoc, flat_app, <- app_assoc.
    destruct (get_node_ok (map fst (restored_from 0 a)) (map node_of a) ((n, link), vs) c
      (flat (cs ++ [Mark M_end [M_node; M_end]]) ++ r) j) as (c' & -> & G).
    { rewrite !map_length, restored_from_length. reflexivity. }
    { exact (gives_done _ a _ E). }
    { exact Hw. }
    { exact Ep. }
    match goal with |- context [flat (?x :: ?l)] => change (flat (x :: l)) with (bytes_of x ++ flat l) end. cbn [bytes_of].
    rewrite <- app_assoc. cbn [length]. set (f := S (length b)) in *. cbn [get_nodes]. rewrite get_word_exact by (unfold is_word, M_node; lia).
    change (M_node =? M_end) with false. change (M_node =? M_node) with true. cbn [negb]. rewrite G.
    rewrite map_length in *.
    replace (map fst (restored_from 0 a) ++ [fst (restored_object yw yr alloc old (length a) (n, link, vs))])
      with (map fst (restored_from 0 (a ++ [(n, link, vs)]))) by (rewrite restored_from_app, map_app; reflexivity).
    rewrite Hcs. rewrite app_length. cbn [length restored_from]. rewrite Nat.add_1_r. reflexivity.
Qed.
End Read.

Lemma nth_restored yw yr alloc old os : forall k i o, nth_error os i = Some o ->
  nth_error (restored_from yr alloc yw old k os) i = Some (restored_object yw yr alloc old (k + i) o).
Proof.
  induction os as [|x os IH]; intros k [|i] o H; cbn [nth_error restored_from] in *; try discriminate.
  - injection H as ->. rewrite Nat.add_0_r. reflexivity.
  - rewrite (IH (S k) i o H). do 2 f_equal. lia.
Qed.
Lemma roundtrip junk yw yr shape alloc os next : wf_objects yw yr shape os -> is_word next -> (forall k, alloc k <> 0) ->
  exists cs, checkpoint yw next os = Some cs /\ forall extra,
    restore junk yr shape alloc (S (length os)) (flat cs ++ extra)
    = Ok (next, restored_from yr alloc yw (map node_of os) 0 os) (extra, O).
Proof.
  intros (Ho & Hi & Hw) Hn Ha. 
  change (checkpoint yw next os) with (match put_nodes yw (map node_of os) os with
    None => None | Some cs => Some (Plain (le 8 next) :: cs ++ [Mark M_end [M_node; M_end]]) end).
  destruct (nodes_ok junk yr shape alloc yw (map node_of os)) with (b := os) (a := @nil object) as (cs & -> & G).
  - intros n I. apply in_map_iff in I. destruct I as (o & <- & I). apply In_nth_error in I. destruct I as [k I].
    specialize (Hw k o I). destruct o as [[n l] vs]. unfold wf_object, wf_node in Hw. cbn [node_of fst] in *. tauto.
  - exact Ha.
  - exact Ho.
  - exact Hi.
  - reflexivity.
  - exact Hw.
  - eexists. split; [reflexivity|]. intros extra.
    match goal with |- context [flat (?x :: ?l)] => change (flat (x :: l)) with (bytes_of x ++ flat l) end. cbn [bytes_of].
    unfold restore. rewrite <- app_assoc, get_word_exact by exact Hn. cbn [restored_from map length] in G. rewrite G. reflexivity.
Qed.
