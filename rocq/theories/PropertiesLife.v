(* C84: what a run leaves registered, and whether its end is an error. *)
From Coq Require Import ZArith List Bool Permutation Lia.
From Verif Require Import CheckptModel CheckptProofs LifeModel.
Import ListNotations.
Open Scope Z_scope.
Ltac Zify.zify_post_hook ::= idtac.

(* every address of the run: a definite object each, none NULL *)
Definition addresses (a : statics) (e s : pool) (g mp this : Z) (deck : list create) : list Z :=
  [a_serial a; a_thread a; a_world a; a_main a] ++ (p_pool e :: p_rng e) ++ (p_pool s :: p_rng s) ++ [g; mp; this] ++
  flat_map (fun c => match c with
    | NewMaterial p | NewSpecies p | NewBc p | NewEmitter p => [p]
    | NewFields f i a h => [f; i; a; h]
    | NewCollision p None => [p] | NewCollision p (Some q) => [p; q] end) deck.
(* parameters of collision operators, and the arrays of every define_field_array but the last *)
Definition params (deck : list create) : list Z := flat_map (fun c => match c with NewCollision _ (Some q) => [q] | _ => [] end) deck.
Definition field_sets (deck : list create) : list (list Z) := flat_map (fun c => match c with NewFields f i a h => [[f; i; a; h]] | _ => [] end) deck.
Definition lost (deck : list create) : list Z := params deck ++ concat (removelast (field_sets deck)).

Lemma registers_ok : forall l s, s_booted s = true -> s_busy s = false -> NoDup (map n_obj (s_reg s) ++ l) -> ~ In 0 l ->
  exists s', registers s l = Done s' /\ map n_obj (s_reg s') = map n_obj (s_reg s) ++ l /\ s_booted s' = true /\ s_busy s' = false.
Proof.
  intros l; induction l as [|p l IH]; intros s B U N Z0.
  - exists s. rewrite app_nil_r. auto.
  - cbn [registers]. unfold register. rewrite B, U. cbn [negb orb].
    destruct (Z.eqb_spec p 0) as [->|Np]; [elim Z0; left; reflexivity|].
    assert (F : find_obj (s_reg s) p = None).
    { apply find_obj_none. intro I. apply NoDup_remove_2 in N. apply N. apply in_or_app. left. exact I. }
    rewrite F. destruct (IH (mks true false (s_reg s ++ [mkn p 0 0 0 (s_next s)]) (word (s_next s + 1)))) as (s' & E & M & R); try reflexivity.
    + cbn [s_reg]. rewrite map_app. cbn. rewrite <- app_assoc. exact N.
    + intro I. apply Z0. right. exact I.
    + exists s'. split; [exact E|]. rewrite M. cbn [s_reg]. rewrite map_app, <- app_assoc. split; [reflexivity|exact R].
Qed.
Lemma nodup_left : forall (l r : list Z), NoDup (l ++ r) -> NoDup l.
Proof.
  intros l r; induction l as [|x l IH]; intros N; [constructor|]. cbn in N. apply NoDup_cons_iff in N. destruct N as [A B].
  constructor; [intro I; apply A; apply in_or_app; left; exact I|apply IH; exact B].
Qed.
Lemma remove_first_perm : forall reg p l, Permutation (map n_obj reg) (p :: l) -> Permutation (map n_obj (remove_first reg p)) l.
Proof.
  intros reg p l P.
  assert (G : forall reg, In p (map n_obj reg) -> Permutation (p :: map n_obj (remove_first reg p)) (map n_obj reg)).
  { clear reg P. intros reg; induction reg as [|n reg IH]; intros I; [destruct I|]. cbn [remove_first map].
    destruct (Z.eqb_spec (n_obj n) p) as [->|N]; [reflexivity|]. cbn [map]. etransitivity; [apply perm_swap|]. constructor. apply IH.
    destruct I as [I|I]; [contradiction|exact I]. }
  apply (Permutation_cons_inv (a := p)). etransitivity; [|exact P]. apply G. apply (Permutation_in p (Permutation_sym P)). left. reflexivity.
Qed.
Lemma unregisters_ok : forall l s r, s_booted s = true -> s_busy s = false -> Permutation (map n_obj (s_reg s)) (l ++ r) ->
  exists s', unregisters s l = Done s' /\ Permutation (map n_obj (s_reg s')) r /\ s_booted s' = true /\ s_busy s' = false.
Proof.
  intros l; induction l as [|p l IH]; intros s r B U P.
  - exists s. auto.
  - cbn [unregisters]. unfold unregister. rewrite B, U. cbn [negb orb].
    destruct (find_obj (s_reg s) p) as [n|] eqn:F.
    + apply IH; try reflexivity. cbn [s_reg]. apply remove_first_perm. exact P.
    + apply find_obj_none in F. elim F. apply (Permutation_in p (Permutation_sym P)). left. reflexivity.
Qed.
Definition quad (o : option (Z * Z * Z * Z)) : list (list Z) := match o with Some (f, i, a, h) => [[f; i; a; h]] | None => [] end.
Lemma perm_count : forall l l' : list Z, (forall x, count_occ Z.eq_dec l x = count_occ Z.eq_dec l' x) -> Permutation l l'.
Proof. intros l l' H. apply (Permutation_count_occ Z.eq_dec). exact H. Qed.
Definition one (y x : Z) : nat := if Z.eq_dec y x then 1 else 0.
Lemma count_cons : forall y l x, count_occ Z.eq_dec (y :: l) x = (one y x + count_occ Z.eq_dec l x)%nat.
Proof. intros y l x. unfold one. cbn. destruct (Z.eq_dec y x); reflexivity. Qed.
Lemma count_nil : forall x, count_occ Z.eq_dec [] x = 0%nat.
Proof. reflexivity. Qed.
Ltac counts := repeat (rewrite ?count_occ_app, ?count_cons, ?count_nil in *; cbn [app] in *).
Lemma deck_perm : forall deck m,
  Permutation (destroyed m ++ flat_map created deck)
    (destroyed (fold_left define deck m) ++ params deck ++ concat (removelast (quad (m_fields m) ++ field_sets deck))).
Proof.
  intros deck; induction deck as [|c deck IH]; intros m.
  - cbn. rewrite !app_nil_r. destruct (m_fields m) as [[[[f i] a] h]|]; cbn; rewrite ?app_nil_r; reflexivity.
  - cbn [fold_left flat_map]. specialize (IH (define m c)). rewrite (Permutation_count_occ Z.eq_dec) in IH. apply perm_count. intro x. specialize (IH x).
    set (last := destroyed (fold_left define deck (define m c))) in *. clearbody last.
    destruct c as [p|f i a h|p|p|p|p q]; cbn [params field_sets flat_map app] in *; fold (params deck) (field_sets deck) in *;
      unfold destroyed in *; cbn [define m_entropy m_sync m_grid m_mp m_this m_materials m_fields m_species m_bcs m_emitters m_cops quad created] in *.
    + counts. lia.
    + destruct (m_fields m) as [[[[f' i'] a'] h']|]; cbn [quad app] in *.
      * change (removelast ([f'; i'; a'; h'] :: [f; i; a; h] :: field_sets deck)) with ([f'; i'; a'; h'] :: removelast ([f; i; a; h] :: field_sets deck)).
        cbn [concat]. counts. lia.
      * counts. lia.
    + counts. lia.
    + counts. lia.
    + counts. lia.
    + destruct q as [q|]; counts; lia.
Qed.

(* everything the run registers, and what that leaves for the lost objects *)
Definition everything t a e s g mp this deck : list Z :=
  flat_map (part_objects a) (boots t) ++ constructed e s g mp this ++ flat_map created deck ++ [a_main a].
Lemma everything_nodup : forall t a e s g mp this deck, NoDup (addresses a e s g mp this deck) -> ~ In 0 (addresses a e s g mp this deck) ->
  NoDup (everything t a e s g mp this deck) /\ ~ In 0 (everything t a e s g mp this deck).
Proof.
  intros t a e s g mp this deck N Z0. set (all := everything t a e s g mp this deck).
  assert (Pa : exists r, Permutation (addresses a e s g mp this deck) (all ++ r)).
  { exists (match t with OpenMP => [a_serial a; a_thread a] | _ => [] end). apply perm_count. intro x. unfold all, everything, addresses, constructed.
    assert (C : count_occ Z.eq_dec (flat_map created deck) x = count_occ Z.eq_dec (flat_map (fun c => match c with
      | NewMaterial p | NewSpecies p | NewBc p | NewEmitter p => [p] | NewFields f i a h => [f; i; a; h]
      | NewCollision p None => [p] | NewCollision p (Some q) => [p; q] end) deck) x).
    { clear. induction deck as [|c deck IH]; [reflexivity|]. cbn [flat_map]. rewrite !count_occ_app, IH. f_equal.
      destruct c as [p|f i a h|p|p|p|p [q|]]; try reflexivity. cbn [created]. counts. lia. }
    rewrite ?count_occ_app. rewrite C. destruct t; cbn [boots flat_map part_objects app]; counts; lia. }
  destruct Pa as (r & Pa).
  split; [apply (Permutation_NoDup Pa) in N; exact (nodup_left _ _ N)|].
  intro I; apply Z0; apply (Permutation_in 0 (Permutation_sym Pa)); apply in_or_app; left; exact I.
Qed.
Lemma everything_perm : forall t a e s g mp this deck, Permutation (everything t a e s g mp this deck)
  (([a_main a] ++ destroyed (fold_left define deck (new_sim e s g mp this)) ++ flat_map (part_objects a) (halts t)) ++ lost deck).
Proof.
  intros t a e s g mp this deck. set (m := fold_left define deck (new_sim e s g mp this)).
  pose proof (deck_perm deck (new_sim e s g mp this)) as D. fold m in D. cbn [quad new_sim m_fields app] in D. fold (lost deck) in D.
    rewrite (Permutation_count_occ Z.eq_dec) in D. apply perm_count. intro x. specialize (D x).
    rewrite !count_occ_app in D. unfold destroyed at 1 in D. unfold new_sim in D.
    cbn [m_entropy m_sync m_grid m_mp m_this m_materials m_fields m_species m_bcs m_emitters m_cops] in D.
    unfold everything, constructed. unfold lost in *. clear - D. destruct t; cbn [boots halts flat_map part_objects app]; counts; lia.
Qed.

(* for every way to thread and every deck whose objects have different addresses: no call of the service fails before its halt, what is
   then still registered is what the deck lost, and the run ends without error exactly if nothing is lost *)
Theorem C84_end_of_run : forall t a e s g mp this deck, NoDup (addresses a e s g mp this deck) -> ~ In 0 (addresses a e s g mp this deck) ->
  (exists s', until_halt t a e s g mp this deck = Done s' /\ Permutation (map n_obj (s_reg s')) (lost deck)) /\
  (lost deck = [] -> exists s', whole_run t a e s g mp this deck = Done s' /\ s_booted s' = false /\ s_reg s' = []) /\
  (lost deck <> [] -> whole_run t a e s g mp this deck = Error).
Proof.
  intros t a e s g mp this deck N Z0.
  destruct (everything_nodup t a e s g mp this deck N Z0) as [Na Za].
  destruct (registers_ok _ (mks true false [] 1) eq_refl eq_refl Na Za) as (s1 & E1 & M1 & B1 & U1). cbn [s_reg map app] in M1.
  pose proof (everything_perm t a e s g mp this deck) as P. rewrite <- M1 in P.
  destruct (unregisters_ok _ s1 (lost deck) B1 U1 P) as (s2 & E2 & P2 & B2 & U2).
  assert (E : until_halt t a e s g mp this deck = Done s2).
  { unfold until_halt. cbn [boot s_booted and_then]. fold (everything t a e s g mp this deck). rewrite E1. cbn [and_then]. exact E2. }
  split; [exists s2; split; [exact E|exact P2]|]. unfold whole_run. rewrite E. cbn [and_then]. unfold halt. rewrite B2, U2. cbn [negb]. split.
  - intro L. rewrite L in P2. apply Permutation_sym, Permutation_nil in P2. destruct (s_reg s2) eqn:R; [|discriminate P2].
    eexists. split; [reflexivity|]. cbn. auto.
  - intro L. destruct (s_reg s2) eqn:R; [|reflexivity]. cbn in P2. apply Permutation_nil in P2. contradiction.
Qed.
Print Assumptions C84_end_of_run.

(* nothing is lost by a deck that defines its fields at most once and has no collision operator with parameters of their own *)
Theorem C84_normal_end : forall t a e s g mp this deck, NoDup (addresses a e s g mp this deck) -> ~ In 0 (addresses a e s g mp this deck) ->
  (forall p q, ~ In (NewCollision p (Some q)) deck) -> (length (field_sets deck) <= 1)%nat ->
  exists s', whole_run t a e s g mp this deck = Done s' /\ s_booted s' = false /\ s_reg s' = [].
Proof.
  intros t a e s g mp this deck N Z0 C F. apply C84_end_of_run; [exact N|exact Z0|]. unfold lost.
  replace (params deck) with (@nil Z).
  - destruct (field_sets deck) as [|x [|y l]]; [reflexivity|reflexivity|cbn in F; lia].
  - clear N Z0 F. induction deck as [|c deck IH]; [reflexivity|]. cbn [params flat_map]. unfold params in IH. rewrite <- IH.
    + destruct c as [p|f i x h|p|p|p|p [q|]]; try reflexivity. elim (C p q). left. reflexivity.
    + intros p q I. apply (C p q). right. exact I.
Qed.
Print Assumptions C84_normal_end.

(* with hard_sphere, large_angle_coulomb or any model that has parameters every run ends in the error "halt called with some objects
   still registered": deleting the operator does not unregister its parameters *)
Theorem C84_collision_params : forall t a e s g mp this deck p q, NoDup (addresses a e s g mp this deck) -> ~ In 0 (addresses a e s g mp this deck) ->
  In (NewCollision p (Some q)) deck -> whole_run t a e s g mp this deck = Error.
Proof.
  intros t a e s g mp this deck p q N Z0 I. apply C84_end_of_run; [exact N|exact Z0|]. intro L. apply app_eq_nil in L. destruct L as [L _].
  assert (J : In q (params deck)) by (apply in_flat_map; exists (NewCollision p (Some q)); split; [exact I|left; reflexivity]). rewrite L in J. exact J.
Qed.
Print Assumptions C84_collision_params.

(* halt_services works in the reverse order of boot_services with pthreads, in both orders of MPI and threads; the services that register
   themselves always do; with OpenMP the helper is booted and never halted *)
Theorem C84_reverse_order : forall t, (t <> OpenMP -> halts t = rev (boots t)) /\
  (forall p, In p (halts t) -> In p (boots t)) /\ NoDup (boots t) /\ NoDup (halts t) /\
  hd_error (boots t) = Some Checkpt /\ hd_error (rev (halts t)) = Some Checkpt /\
  (forall a, flat_map (part_objects a) (halts t) = rev (flat_map (part_objects a) (boots t))).
Proof.
  intro t. destruct t; repeat split; try congruence; try reflexivity; cbn; try tauto;
    repeat (constructor; [cbn; intuition discriminate|]); try constructor.
Qed.
Print Assumptions C84_reverse_order.
Theorem C84_openmp_refuted : exists t, In Omp (boots t) /\ ~ In Omp (halts t) /\ halts t <> rev (boots t).
Proof. exists OpenMP. cbn. repeat split; [tauto|intuition discriminate|discriminate]. Qed.
Print Assumptions C84_openmp_refuted.

(* two pools of two generators, two materials, fields, a species, a boundary condition, an emitter and an operator without parameters; then
   the same with a hard sphere operator; then fields defined twice *)
Definition ex_statics : statics := {| a_serial := 1; a_thread := 2; a_world := 3; a_main := 4 |}.
Definition ex_deck : list create := [NewMaterial 20; NewMaterial 21; NewFields 22 23 24 25; NewSpecies 26; NewBc 27; NewCollision 28 None; NewEmitter 29].
Definition ex_run t d := whole_run t ex_statics {| p_pool := 10; p_rng := [11; 12] |} {| p_pool := 13; p_rng := [14; 15] |} 16 17 18 d.
Definition ex_left t d := match until_halt t ex_statics {| p_pool := 10; p_rng := [11; 12] |} {| p_pool := 13; p_rng := [14; 15] |} 16 17 18 d with
  | Done s => Some (map n_obj (s_reg s)) | Error => None end.
Theorem C84_normal_end_always_refuted : exists t a e s g mp this deck, NoDup (addresses a e s g mp this deck) /\ ~ In 0 (addresses a e s g mp this deck) /\
  (length (field_sets deck) <= 1)%nat /\ whole_run t a e s g mp this deck = Error.
Proof.
  exists Pthreads, ex_statics, {| p_pool := 10; p_rng := [11; 12] |}, {| p_pool := 13; p_rng := [14; 15] |}, 16, 17, 18, (ex_deck ++ [NewCollision 30 (Some 31)]).
  split; [cbn; repeat (constructor; [cbn; intuition discriminate|]); constructor|]. split; [cbn; intuition discriminate|]. split; [cbn; lia|vm_compute; reflexivity].
Qed.
Print Assumptions C84_normal_end_always_refuted.
Example C84_example_normal : forall t, exists n, ex_run t ex_deck = Done (mks false false [] n).
Proof. intro t. destruct t; eexists; vm_compute; reflexivity. Qed.
Example C84_example_hard_sphere : forall t, ex_run t (ex_deck ++ [NewCollision 30 (Some 31)]) = Error /\ ex_left t (ex_deck ++ [NewCollision 30 (Some 31)]) = Some [31].
Proof. intro t. destruct t; split; vm_compute; reflexivity. Qed.
Example C84_example_fields_twice : forall t, ex_run t (ex_deck ++ [NewFields 32 33 34 35]) = Error /\ ex_left t (ex_deck ++ [NewFields 32 33 34 35]) = Some [22; 23; 24; 25].
Proof. intro t. destruct t; split; vm_compute; reflexivity. Qed.
