(* C30: the object registry.  C31: saving and restoring.  C32: damaged and truncated files.
   /repo/src/util/checkpt/checkpt.cc *)
From Coq Require Import ZArith List Bool Lia ZifyBool.
From Verif Require Import CheckptModel CheckptSpec CheckptProofs CheckptRegistry CheckptFaults.
Import ListNotations.
Open Scope Z_scope.
Opaque le.
Ltac Zify.zify_post_hook ::= idtac.

(* ---- C30 ----
   After any sequence cs of fewer than 2^64-1 calls (reach cs: the service after it; live cs p: p was
   registered and not unregistered since). *)
Theorem C30_registry : forall cs, Z.of_nat (length cs) < 2 ^ 64 - 1 ->
  (forall p, live cs p -> exists i, 0 < i < 2 ^ 64 /\ object_id (reach cs) p = Done i /\ object_ptr (reach cs) i = Done p) /\
  (forall p, ~ live cs p -> object_id (reach cs) p = Done 0) /\
  (forall p q i, live cs p -> live cs q -> object_id (reach cs) p = Done i -> object_id (reach cs) q = Done i -> p = q) /\
  (forall i p, object_ptr (reach cs) i = Done p -> p <> 0 -> live cs p /\ object_id (reach cs) p = Done i).
Proof.
  intros cs B. pose proof (reach_good cs B) as G. pose proof (reach_next cs B) as N.
  assert (L : forall p, live cs p -> exists n, In n (s_reg (reach cs)) /\ n_obj n = p).
  { intros p H. apply (live_reg cs p B) in H. apply in_map_iff in H. destruct H as (n & E & I). exists n. tauto. }
  split; [|split; [|split]].
  - intros p H. destruct (L p H) as (n & I & <-). exists (n_id n). pose proof (g_each _ G n I).
    split; [lia|]. split; [exact (object_id_in _ n G I)|exact (object_ptr_in _ n G I)].
  - intros p H. unfold object_id. rewrite (g_booted _ G). cbn [negb]. destruct (find_obj (s_reg (reach cs)) p) as [n|] eqn:F; [|reflexivity].
    exfalso. apply H. apply (live_reg cs p B). apply find_obj_some in F. destruct F as [I <-]. apply in_map. exact I.
  - intros p q i Hp Hq Ep Eq. destruct (L p Hp) as (n & I & <-). destruct (L q Hq) as (m & J & <-).
    pose proof (object_ptr_in _ n G I) as A. pose proof (object_ptr_in _ m G J) as C.
    rewrite (object_id_in _ n G I) in Ep. rewrite (object_id_in _ m G J) in Eq. congruence.
  - intros i p E P0. unfold object_ptr in E. rewrite (g_booted _ G) in E. cbn [negb] in E.
    destruct (find_id (s_reg (reach cs)) i) as [n|] eqn:F; injection E as E; [|lia]. apply find_id_some in F. destruct F as [I Ei].
    split; [apply (live_reg cs p B); rewrite <- E; apply in_map; exact I|]. rewrite <- E, <- Ei. exact (object_id_in _ n G I).
Qed.
Print Assumptions C30_registry.
(* the identifier stays as long as the object is not unregistered, and then is never used again *)
Theorem C30_identifier_stable : forall cs ds p i, Z.of_nat (length (cs ++ ds)) < 2 ^ 64 - 1 ->
  object_id (reach cs) p = Done i -> i <> 0 -> ~ In (Unregister p) ds -> object_id (reach (cs ++ ds)) p = Done i.
Proof.
  intros cs ds p i B E Hi N. rewrite app_length in B. unfold reach. rewrite run_app.
  pose proof (reach_next cs ltac:(lia)). apply run_stable; [apply reach_good; lia|fold (reach cs); lia|exact E|exact Hi|exact N].
Qed.
Print Assumptions C30_identifier_stable.
Theorem C30_identifier_never_reused : forall cs ds p q i, Z.of_nat (length (cs ++ ds)) < 2 ^ 64 - 1 ->
  object_id (reach cs) p = Done i -> i <> 0 -> In (Unregister p) ds -> object_id (reach (cs ++ ds)) q <> Done i.
Proof.
  intros cs ds p q i B E Hi N. rewrite app_length in B. unfold reach. rewrite run_app.
  pose proof (reach_next cs ltac:(lia)). apply run_reused with (p := p); [apply reach_good; lia|fold (reach cs); lia|exact E|exact Hi|exact N].
Qed.
Print Assumptions C30_identifier_never_reused.
(* exactly the invalid calls are errors; an error leaves the service unchanged *)
Theorem C30_invalid_calls : forall cs, Z.of_nat (length cs) < 2 ^ 64 - 1 -> let s := reach cs in
  (forall p ck rs an, register s p ck rs an = Error <-> p = 0 \/ live cs p) /\
  (forall p, unregister s p = Error <-> ~ live cs p) /\
  (halt s = Error <-> exists p, live cs p) /\ boot s = Error /\
  (forall p ck rs an, register s p ck rs an = Error -> step s (Register p ck rs an) = s) /\
  (forall p, unregister s p = Error -> step s (Unregister p) = s).
Proof.
  intros cs B s. pose proof (reach_good cs B) as G. fold s in G.
  assert (L : forall p, find_obj (s_reg s) p = None <-> ~ live cs p).
  { intros p. rewrite find_obj_none. pose proof (live_reg cs p B) as K. fold s in K. tauto. }
  split; [|split; [|split; [|split; [|split]]]].
  - intros p ck rs an. unfold register. rewrite (g_booted s G), (g_idle s G). cbn [negb orb]. destruct (p =? 0) eqn:E; [split; [left; lia|reflexivity]|].
    specialize (L p). destruct (find_obj (s_reg s) p) eqn:F.
    + split; [intros _; right|reflexivity]. pose proof (live_reg cs p B) as K. fold s in K. apply K. apply find_obj_some in F. destruct F as [I <-]. apply in_map. exact I.
    + split; [discriminate|]. intros [K|K]; [lia|]. destruct L as [L _]. elim (L eq_refl K).
  - intros p. unfold unregister. rewrite (g_booted s G), (g_idle s G). cbn [negb orb]. specialize (L p).
    destruct (find_obj (s_reg s) p); [|tauto]. split; [discriminate|]. intros K. apply L in K. discriminate K.
  - unfold halt. rewrite (g_booted s G), (g_idle s G). cbn [negb]. pose proof (fun p => live_reg cs p B) as K. fold s in K.
    destruct (s_reg s) as [|n r] eqn:E; split; try discriminate.
    + intros [p H]. apply K in H. destruct H.
    + intros _. exists (n_obj n). apply K. left. reflexivity.
    + reflexivity.
  - unfold boot. rewrite (g_booted s G). reflexivity.
  - intros p ck rs an E. unfold step. rewrite E. reflexivity.
  - intros p E. unfold step. rewrite E. reflexivity.
Qed.
Print Assumptions C30_invalid_calls.
(* before boot every call is an error *)
Theorem C30_not_booted : forall s, s_booted s = false ->
  (forall p ck rs an, register s p ck rs an = Error) /\ (forall p, unregister s p = Error) /\
  (forall p, object_id s p = Error) /\ (forall i, object_ptr s i = Error) /\ halt s = Error.
Proof. intros s H. unfold register, unregister, object_id, object_ptr, halt. rewrite H. repeat split. Qed.
Print Assumptions C30_not_booted.
Definition C30_history : list call := [Register 100 1 2 3; Register 200 1 2 3; Unregister 100; Register 300 1 2 3; Register 200 1 2 3; Register 100 1 2 3].
Example C30_registry_example :
  map (object_id (reach C30_history)) [100; 200; 300; 400] = [Done 4; Done 2; Done 3; Done 0] /\
  map (object_ptr (reach C30_history)) [1; 2; 3; 4; 5] = [Done 0; Done 200; Done 300; Done 100; Done 0] /\
  register (reach C30_history) 300 1 2 3 = Error /\ unregister (reach C30_history) 400 = Error.
Proof. vm_compute. repeat split. Qed.
Example C30_identifier_stable_example : object_id (reach (firstn 2 C30_history)) 200 = Done 2 /\ object_id (reach C30_history) 200 = Done 2.
Proof. vm_compute. split; reflexivity. Qed.
Example C30_identifier_never_reused_example : object_id (reach (firstn 2 C30_history)) 100 = Done 1 /\ object_ptr (reach C30_history) 1 = Done 0.
Proof. vm_compute. split; reflexivity. Qed.
(* the bound is needed: after 2^64-1 registrations the counter wraps to the identifier 0 *)
Theorem C30_wraparound_refuted : exists s s', good s /\ register s 7 0 0 0 = Done s' /\
  object_id s' 7 = Done (2 ^ 64 - 1) /\ exists s'', register s' 8 0 0 0 = Done s'' /\ object_id s'' 8 = Done 0.
Proof.
  exists (mks true false [] (2 ^ 64 - 1)). eexists. split; [|split; [reflexivity|split; [reflexivity|eexists; split; reflexivity]]].
  constructor; cbn [s_booted s_busy s_next s_reg map]; try reflexivity; [lia|constructor|constructor|intros n []].
Qed.
Print Assumptions C30_wraparound_refuted.

(* ---- C31 ----
   os: the registered objects in order with their contents; yw, yr: the symbol tables of the saving and
   the restoring process; alloc k: where the restoring process puts the k-th object; extra: anything
   following in the file; junk: irrelevant bytes beyond the end of the file. *)
Theorem C31_roundtrip : forall junk yw yr shape alloc os next,
  wf_objects yw yr shape os -> is_word next -> (forall k, alloc k <> 0) ->
  exists cs, checkpoint yw next os = Some cs /\ forall extra, exists rs,
    restore junk yr shape alloc (S (length os)) (flat cs ++ extra) = Ok (next, rs) (extra, O) /\
    length rs = length os /\
    (forall k n link vs, nth_error os k = Some (n, link, vs) ->
       nth_error rs k = Some (mkn (alloc k) (newsym yw yr (n_ck n)) (newsym yw yr (n_rs n)) (newsym yw yr (n_an n)) (n_id n),
                              map (restored_val yw yr alloc (map node_of os)) vs)) /\
    (* stored identifiers lead to the new objects when they are looked up afterwards *)
    (forall k n link vs, nth_error os k = Some (n, link, vs) ->
       reanimate_fptr (map fst rs) (id_of (map node_of os) (n_obj n)) = Some (alloc k) /\
       newptr alloc (map node_of os) (n_obj n) = alloc k).
Proof.
  intros junk yw yr shape alloc os next H Hn Ha. destruct (roundtrip junk yw yr shape alloc os next H Hn Ha) as (cs & E & R).
  exists cs. split; [exact E|]. intros extra. eexists. split; [apply R|]. split; [apply restored_from_length|]. split.
  - intros k n link vs K. rewrite (nth_restored yw yr alloc _ os O k _ K). reflexivity.
  - intros k n link vs K. destruct H as (Ho & Hi & Hw).
    assert (W : forall m, In m (map node_of os) -> is_word (n_id m) /\ n_id m <> 0 /\ n_obj m <> 0).
    { intros m I. apply in_map_iff in I. destruct I as (o & <- & I). apply In_nth_error in I. destruct I as [k' I].
      specialize (Hw k' o I). destruct o as [[m l] v]. unfold wf_object, wf_node in Hw. cbn [node_of fst] in *. tauto. }
    assert (In_ : In n (map node_of os)) by (apply nth_error_In in K; apply (in_map node_of) in K; exact K).
    assert (P : position (map node_of os) (n_obj n) = k).
    { clear - Ho K. revert k K. induction os as [|o os IH]; intros [|k] K; cbn [nth_error map position] in *; try discriminate.
      - injection K as ->. cbn [node_of fst]. rewrite Z.eqb_refl. reflexivity.
      - inversion Ho; subst. destruct (n_obj (node_of o) =? n_obj n) eqn:E; [|f_equal; apply IH; assumption].
        exfalso. apply H1. replace (n_obj (node_of o)) with (n_obj n) by lia. apply nth_error_In in K. apply (in_map node_of) in K. apply (in_map n_obj) in K. exact K. }
    assert (Q : newptr alloc (map node_of os) (n_obj n) = alloc k).
    { unfold newptr. destruct (W n In_) as (_ & _ & N0). replace (n_obj n =? 0) with false by lia. rewrite P. reflexivity. }
    split; [|exact Q].
    pose proof (gives_done yr alloc yw (map node_of os) W Ha Ho Hi [] os []) as G. rewrite !app_nil_r in G.
    rewrite (G eq_refl (n_obj n)); [rewrite Q; reflexivity|]. apply in_map. exact In_.
Qed.
Print Assumptions C31_roundtrip.
(* a plain pointer to an object registered later: the restore fails *)
Theorem C31_later_pointer_fails : forall junk yw yr shape alloc next a n link v1 p v2 t cs,
  let os := a ++ (n, link, v1 ++ VPtr p :: v2) :: t in let old := map node_of os in
  NoDup (map n_obj old) -> NoDup (map n_id old) -> (forall m, In m old -> is_word (n_id m) /\ n_id m <> 0 /\ n_obj m <> 0) ->
  is_word next -> (forall k, alloc k <> 0) ->
  (forall k o, nth_error a k = Some o -> wf_object yw yr shape old (firstn k old) o) ->
  wf_node yw yr n link -> shape (newsym yw yr (n_rs n)) = map kind_of (v1 ++ VPtr p :: v2) ->
  Forall (wf_val yw yr old (map node_of a)) v1 ->
  In p (map n_obj (map node_of t)) -> checkpoint yw next os = Some cs ->
  forall f extra, restore junk yr shape alloc (length a + S f) (flat cs ++ extra) = Fail.
Proof.
  intros junk yw yr shape alloc next a n link v1 p v2 t cs os old Ho Hi Hd Hn Ha Hw Hh Sh Hv Hp E f extra.
  change (checkpoint yw next os) with (match put_nodes yw old os with
    None => None | Some cs => Some (Plain (le 8 next) :: cs ++ [Mark M_end [M_node; M_end]]) end) in E.
  destruct (put_nodes yw old os) as [c|] eqn:Ec; [|discriminate E]. injection E as <-. rewrite flat_cons, flat_app. cbn [bytes_of].
  unfold restore. rewrite <- !app_assoc, get_word_exact by exact Hn.
  rewrite (later_fails junk yr shape alloc yw old Hd Ha Ho Hi a n link v1 p v2 t c eq_refl Hw Hh Sh Hv Hp Ec). reflexivity.
Qed.
Print Assumptions C31_later_pointer_fails.

(* an example: three objects; addresses 500, 501, 502 are exported functions, at 900.. in the restoring process *)
Definition C31_yw : symbols := mk_symbols (fun a => if (500 <=? a) && (a <? 503) then Some [a - 400] else None) (fun a => Some [47; 98])
  (fun n => match n with [x] => x + 400 | _ => 0 end).
Definition C31_yr : symbols := mk_symbols (fun _ => None) (fun _ => None) (fun n => match n with [x] => x + 800 | _ => 0 end).
Definition C31_shape (a : Z) : list kind := if a =? 901 then [KRaw 3; KStr; KStr] else if a =? 902 then [KData; KPtr; KPtr; KFptr; KSym] else [].
Definition C31_alloc (k : nat) : Z := 7000 + Z.of_nat k * 16.
Definition C31_objects : list object :=
  [ (mkn 1000 500 501 0 1, 0, [VRaw [1; 2; 3]; VStr (Some [104; 105]); VStr None]);
    (mkn 2000 500 502 0 2, 1000, [VData 2 4 5 16 [[1; 2]; [3; 4]]; VPtr 1000; VPtr 0; VFptr 3000; VSym 501]);
    (mkn 3000 500 502 0 5, 2000, [VData 1 1 1 0 []; VPtr 2000; VPtr 1000; VFptr 3000; VSym 0]) ].
Example C31_roundtrip_example :
  match checkpoint C31_yw 6 C31_objects with
  | Some cs => restore (fun _ => 170) C31_yr C31_shape C31_alloc 4 (flat cs)
      = Ok (6, [ (mkn 7000 900 901 0 1, [VRaw [1; 2; 3]; VStr (Some [104; 105]); VStr None]);
                 (mkn 7016 900 902 0 2, [VData 2 4 5 16 [[1; 2]; [3; 4]]; VPtr 7000; VPtr 0; VFptr 5; VSym 901]);
                 (mkn 7032 900 902 0 5, [VData 1 1 1 0 []; VPtr 7016; VPtr 7000; VFptr 5; VSym 0]) ]) ([], O)
  | None => False end.
Proof. vm_compute. reflexivity. Qed.
Ltac in_nodes := cbn; repeat (first [left; reflexivity | right]); fail.
Example C31_wf_example : wf_objects C31_yw C31_yr C31_shape C31_objects.
Proof.
  split; [|split]; [repeat constructor; cbn; lia|repeat constructor; cbn; lia|].
  assert (S1 : wf_sym C31_yw C31_yr 500) by (right; split; [unfold is_word; lia|cbn; intros _; repeat split; try lia; intros [K|[]] || intros [K|[K|[]]]; lia]).
  assert (S2 : wf_sym C31_yw C31_yr 501) by (right; split; [unfold is_word; lia|cbn; intros _; repeat split; try lia; intros [K|[]] || intros [K|[K|[]]]; lia]).
  assert (S3 : wf_sym C31_yw C31_yr 502) by (right; split; [unfold is_word; lia|cbn; intros _; repeat split; try lia; intros [K|[]] || intros [K|[K|[]]]; lia]).
  assert (S0 : wf_sym C31_yw C31_yr 0) by (left; reflexivity).
  assert (V : forall b s, b = [1; 2; 3] -> s = [104; 105] -> Forall is_byte b /\ wf_str (Some s)).
  { intros b s -> ->. split; [repeat constructor; unfold is_byte; lia|]. cbn. split; [intros [K|[K|[]]]; lia|lia]. }
  destruct (V _ _ eq_refl eq_refl) as [V1 V2].
  intros [|[|[|k]]] o E; cbn in E; [injection E as <-|injection E as <-|injection E as <-|destruct k; discriminate E].
  - split; [|split].
    + unfold wf_node, is_word. cbn. repeat split; try lia; assumption.
    + reflexivity.
    + constructor; [exact V1|]. constructor; [exact V2|]. constructor; [exact I|constructor].
  - split; [|split].
    + unfold wf_node, is_word. cbn. repeat split; try lia; assumption.
    + reflexivity.
    + constructor; [|constructor; [|constructor; [|constructor; [|constructor; [|constructor]]]]].
      * cbn. unfold is_word. repeat split; try lia. repeat constructor.
      * right. cbn. tauto.
      * left. reflexivity.
      * right. cbn. tauto.
      * exact S2.
  - split; [|split].
    + unfold wf_node, is_word. cbn. repeat split; try lia; assumption.
    + reflexivity.
    + constructor; [|constructor; [|constructor; [|constructor; [|constructor; [|constructor]]]]].
      * cbn. unfold is_word. repeat split; try lia. constructor.
      * right. cbn. tauto.
      * right. cbn. tauto.
      * right. cbn. tauto.
      * exact S0.
Qed.
(* Species hold a plain pointer to the next one of their list (species_advance.cc:28 CHECKPT_PTR(sp->next))
   and append_species (species_advance.cc:94-108) puts a species in front of the list.  Created as 1000, 2000
   but appended as 2000, 1000: 1000->next = 2000, registered later. *)
Theorem C31_species_order_refuted : exists cs,
  checkpoint C31_yw 3 [ (mkn 1000 500 501 0 1, 0, [VPtr 2000]); (mkn 2000 500 501 0 2, 0, [VPtr 0]) ] = Some cs /\
  forall junk f, restore junk C31_yr (fun _ => [KPtr]) C31_alloc (S f) (flat cs) = Fail.
Proof.
  destruct (checkpoint C31_yw 3 [ (mkn 1000 500 501 0 1, 0, [VPtr 2000]); (mkn 2000 500 501 0 2, 0, [VPtr 0]) ]) as [cs|] eqn:Ecs; [|discriminate Ecs].
  exists cs. split; [reflexivity|]. intros junk f. rewrite <- (app_nil_r (flat cs)).
  apply (C31_later_pointer_fails junk C31_yw C31_yr (fun _ => [KPtr]) C31_alloc 3 [] (mkn 1000 500 501 0 1) 0 [] 2000 [] [(mkn 2000 500 501 0 2, 0, [VPtr 0])] cs) with (f := f) (extra := []).
  - repeat constructor; cbn; lia.
  - repeat constructor; cbn; lia.
  - cbn. unfold is_word. intros m [<-|[<-|[]]]; cbn; lia.
  - unfold is_word. lia.
  - intros k. unfold C31_alloc. lia.
  - intros [|k] o E; discriminate E.
  - destruct C31_wf_example as (_ & _ & W). pose proof (W O _ eq_refl) as [W1 _]. exact W1.
  - reflexivity.
  - constructor.
  - cbn. tauto.
  - exact Ecs.
Qed.
Print Assumptions C31_species_order_refuted.
(* a pointer of an object to itself silently keeps the old address *)
Theorem C31_self_pointer_refuted : exists cs,
  checkpoint C31_yw 2 [ (mkn 1000 500 501 0 1, 0, [VPtr 1000]) ] = Some cs /\
  restore (fun _ => 0) C31_yr (fun _ => [KPtr]) C31_alloc 2 (flat cs) = Ok (2, [(mkn 7000 900 901 0 1, [VPtr 1000])]) ([], O).
Proof. eexists. split; [reflexivity|]. vm_compute. reflexivity. Qed.
Print Assumptions C31_self_pointer_refuted.

(* ---- C32 ---- *)
(* No proper prefix of a checkpoint is restored from its own bytes: a restore that completes has used
   at least one byte that never was in the file. *)
Theorem C32_truncated : forall yw yr shape alloc os next cs p q,
  wf_objects yw yr shape os -> is_word next -> (forall k, alloc k <> 0) -> checkpoint yw next os = Some cs ->
  flat cs = p ++ q -> q <> [] ->
  forall junk fuel x r j, restore junk yr shape alloc fuel p = Ok x (r, j) -> (0 < j)%nat.
Proof.
  intros yw yr shape alloc os next cs p q H Hn Ha E Ef Hq junk fuel x r j R.
  destruct (roundtrip junk yw yr shape alloc os next H Hn Ha) as (cs' & E' & R'). assert (cs' = cs) by congruence. subst cs'.
  specialize (R' []). rewrite app_nil_r, Ef in R'. exact (truncated yr shape alloc _ _ _ _ _ _ _ _ _ _ Hq R' R).
Qed.
Print Assumptions C32_truncated.
(* Any framing word replaced by a word other than those the reader accepts there: error. *)
Theorem C32_damaged_marker : forall junk yw yr shape alloc os next a w legal b w',
  wf_objects yw yr shape os -> is_word next -> (forall k, alloc k <> 0) ->
  checkpoint yw next os = Some (a ++ Mark w legal :: b) -> ~ In w' legal -> is_word w' ->
  forall extra, restore junk yr shape alloc (S (length os)) (flat (a ++ Mark w' legal :: b) ++ extra) = Fail.
Proof.
  intros junk yw yr shape alloc os next a w legal b w' (Ho & Hi & Hw) Hn Ha E N W extra.
  pose proof (broken_split a w w' legal b N W) as B. set (x := a ++ Mark w' legal :: b) in *. clearbody x.
  change (checkpoint yw next os) with (match put_nodes yw (map node_of os) os with
    None => None | Some cs => Some (Plain (le 8 next) :: cs ++ [Mark M_end [M_node; M_end]]) end) in E.
  destruct (put_nodes yw (map node_of os) os) as [c|] eqn:Ec; [|discriminate E]. injection E as E. rewrite <- E in B.
  apply broken_plain in B. destruct B as (x' & B & ->). rewrite flat_cons. cbn [bytes_of].
  unfold restore. rewrite <- !app_assoc, get_word_exact by exact Hn.
  assert (D : forall m, In m (map node_of os) -> is_word (n_id m) /\ n_id m <> 0 /\ n_obj m <> 0).
  { intros m I. apply in_map_iff in I. destruct I as (o & <- & I). apply In_nth_error in I. destruct I as [k' I].
    specialize (Hw k' o I). destruct o as [[m l] v]. unfold wf_object, wf_node in Hw. cbn [node_of fst] in *. tauto. }
  pose proof (broken_nodes junk yr shape alloc yw (map node_of os) D Ha Ho Hi os [] eq_refl Hw c x' extra O Ec B) as K.
  cbn [restored_from map] in K. rewrite K. reflexivity.
Qed.
Print Assumptions C32_damaged_marker.
Definition C32_objects : list object := [ (mkn 1000 500 501 0 1, 0, [VRaw [1; 2; 3; 4]]) ].
Definition C32_shape (a : Z) : list kind := [KRaw 4].
Definition C32_file : list Z := match checkpoint C31_yw 2 C32_objects with Some cs => flat cs | None => [] end.
Example C32_truncated_example : length C32_file = 170%nat /\
  restore (fun _ => 0) C31_yr C32_shape C31_alloc 9 C32_file = Ok (2, [(mkn 7000 900 901 0 1, [VRaw [1; 2; 3; 4]])]) ([], O) /\
  restore (fun _ => 0) C31_yr C32_shape C31_alloc 9 (firstn 169 C32_file) = Ok (2, [(mkn 7000 900 901 0 1, [VRaw [1; 2; 3; 4]])]) ([], 1%nat) /\
  restore (fun _ => 0) C31_yr C32_shape C31_alloc 9 (firstn 162 C32_file) = Fail.
Proof. vm_compute. repeat split. Qed.
Example C32_damaged_marker_example : match checkpoint C31_yw 2 C32_objects with
  | Some (x :: Mark w l :: t) => w = M_node /\ restore (fun _ => 0) C31_yr C32_shape C31_alloc 2 (flat (x :: Mark 1 l :: t)) = Fail
  | _ => False end.
Proof. vm_compute. split; reflexivity. Qed.
(* The end of the file is not detected: the file without its last twelve bytes restores the four bytes
   that happen to be in memory. *)
Theorem C32_truncation_undetected_refuted : exists junk,
  restore junk C31_yr C32_shape C31_alloc 2 (firstn 158 C32_file) = Ok (2, [(mkn 7000 900 901 0 1, [VRaw [9; 9; 9; 9]])]) ([], 12%nat).
Proof. exists (fun k => nth k ([9; 9; 9; 9] ++ le 8 M_end) 0). vm_compute. reflexivity. Qed.
Print Assumptions C32_truncation_undetected_refuted.
(* A node marker replaced by the other accepted word drops the objects that follow, silently. *)
Theorem C32_end_marker_refuted : exists x l t,
  checkpoint C31_yw 2 C32_objects = Some (x :: Mark M_node l :: t) /\
  exists r, restore (fun _ => 0) C31_yr C32_shape C31_alloc 2 (flat (x :: Mark M_end l :: t)) = Ok (2, []) (r, O).
Proof. do 3 eexists. split; [reflexivity|]. eexists. vm_compute. reflexivity. Qed.
Print Assumptions C32_end_marker_refuted.
(* Damage in the sizes of a data block is not detected: max_ele*str_ele wraps around and the element
   is stored beyond the allocated block. *)
Theorem C32_sizes_refuted : exists sz str n max align, sz <= str /\ n <= max /\ 0 < sz /\
  forall junk, get_data junk (le 8 M_data ++ le 8 sz ++ le 8 str ++ le 8 n ++ le 8 max ++ le 8 align, O) = Undef.
Proof.
  exists 1, (2 ^ 32), 2, (2 ^ 32 + 1), 0. split; [lia|]. split; [lia|]. split; [lia|]. intros junk. vm_compute. reflexivity.
Qed.
Print Assumptions C32_sizes_refuted.
