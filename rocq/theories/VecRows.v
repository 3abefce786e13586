(* The functions of VecSpec.v do what they have to: from a symbolic run of each. *)
From Coq Require Import ZArith List String Bool Lia.
From Verif Require Import VecModel VecPrograms4 VecPrograms8 VecPrograms16 VecSpec VecProofs.
Import ListNotations.
Open Scope string_scope. Open Scope list_scope.
Ltac Zify.zify_post_hook ::= idtac.

(* ---- accesses against the frame ---- *)
Definition inb (o : nat) (l : list nat) : bool := existsb (Nat.eqb o) l.
Definition frame_ok (us : list access) (f : list (string * nat * nat)) : bool :=
  forallb (fun u => existsb (fun x => String.eqb (snd (fst u)) (fst (fst x)) &&
      Nat.eqb (Nat.modulo (snd (fst x)) (fst (fst u))) 0 && Nat.ltb 0 (fst (fst u)) &&
      forallb (fun o => Nat.ltb o (snd x)) (snd u)) f) us &&
  forallb (fun x => (Nat.eqb (snd (fst x)) 1 ||
        existsb (fun u => String.eqb (snd (fst u)) (fst (fst x)) && Nat.eqb (fst (fst u)) (snd (fst x))) us) &&
      forallb (fun o => existsb (fun u => String.eqb (snd (fst u)) (fst (fst x)) && inb o (snd u)) us) (seq 0 (snd x))) f.

Lemma frame_framed word (a : string -> Z) (m : mem word) us f : frame_ok us f = true ->
  framed a m f <-> Forall (okacc word a m) us.
Proof.
  unfold frame_ok. rewrite andb_true_iff, !forallb_forall. intros [H1 H2]. split.
  - intros HF. rewrite Forall_forall. intros [[al p] l] Hu. specialize (H1 _ Hu). apply existsb_exists in H1.
    destruct H1 as ([[q AL] n] & Hx & H1). cbn [fst snd] in H1.
    apply andb_true_iff in H1. destruct H1 as [H1 Ho]. apply andb_true_iff in H1. destruct H1 as [H1 Hp].
    apply andb_true_iff in H1. destruct H1 as [H1 Hd].
    apply String.eqb_eq in H1. subst q. apply Nat.eqb_eq in Hd. apply Nat.ltb_lt in Hp.
    destruct (HF p AL n Hx) as [G1 G2]. split; cbn [fst snd].
    + unfold aligned. apply Z.eqb_eq. apply Nat.mod_divides in Hd; [|lia]. destruct Hd as [c ->].
      destruct c as [|c]; [rewrite Nat.mul_0_r, Zmod_0_r in G1; rewrite G1; apply Zmod_0_l|].
      apply Z.mod_divide in G1; [|lia]. apply Z.mod_divide; [lia|].
      destruct G1 as [k ->]. exists (k * Z.of_nat (S c))%Z. rewrite Nat2Z.inj_mul. ring.
    + rewrite Forall_forall. intros o Hi. rewrite forallb_forall in Ho. apply G2. apply Nat.ltb_lt. exact (Ho o Hi).
  - intros HU p AL n Hx. rewrite Forall_forall in HU. specialize (H2 _ Hx). cbn [fst snd] in H2.
    apply andb_true_iff in H2. destruct H2 as [H2 H3]. split.
    + apply orb_true_iff in H2. destruct H2 as [H2|H2].
      * apply Nat.eqb_eq in H2. subst AL. apply Z.mod_1_r.
      * apply existsb_exists in H2. destruct H2 as ([[al q] l] & Hu & H2). cbn [fst snd] in H2.
        apply andb_true_iff in H2. destruct H2 as [E1 E2]. apply String.eqb_eq in E1. apply Nat.eqb_eq in E2. subst q al.
        destruct (HU _ Hu) as [G _]. cbn [fst snd] in G. apply Z.eqb_eq in G. exact G.
    + intros o Ho. rewrite forallb_forall in H3. specialize (H3 o ltac:(apply in_seq; lia)).
      apply existsb_exists in H3. destruct H3 as ([[al q] l] & Hu & H3). cbn [fst snd] in H3.
      apply andb_true_iff in H3. destruct H3 as [E1 E2]. apply String.eqb_eq in E1. subst q.
      unfold inb in E2. apply existsb_exists in E2. destruct E2 as (o' & Hi & E2). apply Nat.eqb_eq in E2. subst o'.
      destruct (HU _ Hu) as [_ G]. cbn [fst snd] in G. rewrite Forall_forall in G. exact (G o Hi).
Qed.

(* the words of memory *)
Definition rd_of {word} (a : string -> Z) (m : mem word) (p : string) (o : nat) : cell word :=
  match m (addr a (p, o)) with Some c => c | None => None end.
Lemma holds_rd word (a : string -> Z) (m : mem word) l : Forall (okacc word a m) (uses l) ->
  Forall (holds word a m (rd_of a m)) (reads l).
Proof.
  rewrite !Forall_forall. intros H x Hx. apply in_flat_map in Hx. destruct Hx as (t & Ht & Hx).
  assert (Hu : In x (uses l)) by (apply in_flat_map; exists t; split; [exact Ht|apply in_or_app; left; exact Hx]).
  destruct (H x Hu) as [_ G]. intros o Ho. rewrite Forall_forall in G. specialize (G o Ho).
  unfold rd_of, addr. cbn [fst snd]. destruct (m (a (snd (fst x)) + Z.of_nat o)%Z); [reflexivity|congruence].
Qed.

(* ---- loads ---- *)
Definition load_check (f : vfun) : Prop :=
  frame_ok (uses (code f)) (frame f) = true /\ ordered (code f) = true /\
  forallb (fun x => forallb (fun k => existsb (fun y => String.eqb (fst k) (fst (fst y)) && Nat.ltb (snd k) (snd y)) (frame f)) (snd x)) (lanes f) = true /\
  forall word (zero : word) rd s,
    match srun word zero rd (code f) s with
    | Ok (s', w) => Some (map (fun x => get (fst x) s') (lanes f), w)
    | _ => None
    end = Some (map (fun x => map (fun k => rd (fst k) (snd k)) (snd x)) (lanes f), []).

Lemma load_checked f : load_check f -> is_load f.
Proof.
  intros (Hf & Ho & Hl & Hs) word zero a s m.
  pose proof (frame_framed word a m _ _ Hf) as HF. split.
  - rewrite HF. rewrite run_ok. reflexivity.
  - intros s' m' H. assert (Hu : Forall (okacc word a m) (uses (code f))) by (apply (run_ok word zero a (code f) s m); eauto).
    pose proof (Hs word zero (rd_of a m) s) as H1.
    destruct (srun word zero (rd_of a m) (code f) s) as [[s1 w]| |] eqn:Es; try discriminate H1. injection H1 as H2 ->.
    rewrite (run_sym word zero a (rd_of a m) (code f) s m Ho Hu (holds_rd word a m _ Hu) s1 [] Es) in H.
    injection H as <- <-. split; [reflexivity|]. intros x src Hx.
    assert (E : get x s1 = map (fun k => rd_of a m (fst k) (snd k)) src).
    { clear -H2 Hx. induction (lanes f) as [|[y d] l IH]; [destruct Hx|]. cbn [map fst snd] in H2. injection H2 as E1 E2.
      destruct Hx as [E|Hx]; [injection E as -> ->; exact E1|exact (IH E2 Hx)]. }
    rewrite E, map_map. apply map_ext_in. intros [p o] Hk. unfold rd_of. cbn [fst snd].
    rewrite forallb_forall in Hl. specialize (Hl _ Hx). rewrite forallb_forall in Hl. specialize (Hl _ Hk).
    apply existsb_exists in Hl. destruct Hl as ([[q al] n] & Hy & Hl). cbn [fst snd] in Hl.
    apply andb_true_iff in Hl. destruct Hl as [E1 E2]. apply String.eqb_eq in E1. apply Nat.ltb_lt in E2. subst q.
    destruct (proj2 HF Hu p al n Hy) as [_ G]. specialize (G o E2).
    destruct (m (addr a (p, o))); [reflexivity|congruence].
Qed.

(* ---- stores ---- *)
Definition keq (k k' : string * nat) : bool := String.eqb (fst k) (fst k') && Nat.eqb (snd k) (snd k').
Lemma keq_spec k k' : keq k k' = true <-> k = k'.
Proof.
  unfold keq. rewrite andb_true_iff, String.eqb_eq, Nat.eqb_eq. destruct k, k'. cbn. split; [intros [-> ->]; reflexivity|].
  intros E. injection E as -> ->. tauto.
Qed.
Fixpoint nodupb (l : list (string * nat)) : bool :=
  match l with [] => true | k :: l => negb (existsb (keq k) l) && nodupb l end.
Lemma nodupb_spec l : nodupb l = true -> NoDup l.
Proof.
  induction l as [|k l IH]; intros H; [constructor|]. cbn in H. apply andb_true_iff in H. destruct H as [H1 H2].
  constructor; [|exact (IH H2)]. intros Hi. apply negb_true_iff in H1.
  assert (E : existsb (keq k) l = true) by (apply existsb_exists; exists k; split; [exact Hi|apply keq_spec; reflexivity]).
  congruence.
Qed.
Section Look.
Context {T : Type}.
Fixpoint look (k : string * nat) (l : list (string * nat * T)) : option T :=
  match l with [] => None | x :: l => if keq k (fst x) then Some (snd x) else look k l end.
Lemma look_in k c l : look k l = Some c -> In (k, c) l.
Proof.
  induction l as [|[k' c'] l IH]; intros H; [discriminate|]. cbn [look fst snd] in H. destruct (keq k k') eqn:E.
  - apply keq_spec in E. subst k'. injection H as ->. left. reflexivity.
  - right. exact (IH H).
Qed.
End Look.

Definition store_check (f : vfun) : Prop :=
  frame_ok (uses (code f)) (frame f) = true /\ ordered (code f) = true /\ reads (code f) = [] /\
  forall word (zero : word) c,
    match srun word zero (fun _ _ => None) (code f) (args f c) with
    | Ok (_, w) => Some (nodupb (map fst w), forallb (fun k => existsb (keq k) (places f)) (map fst w),
                         map (fun x => map (fun k => look k w) (snd x)) (lanes f))
    | _ => None
    end = Some (true, true, map (fun x => map (fun i => Some (c (fst x) i)) (seq 0 (List.length (snd x)))) (lanes f)).

Lemma store_checked f : store_check f -> is_store f.
Proof.
  intros (Hf & Ho & Hr & Hs) word zero a c m.
  pose proof (frame_framed word a m _ _ Hf) as HF. split.
  - rewrite HF. rewrite run_ok. reflexivity.
  - intros s' m' H HA. assert (Hu : Forall (okacc word a m) (uses (code f))) by (apply (run_ok word zero a (code f) (args f c) m); eauto).
    pose proof (Hs word zero c) as Hc.
    destruct (srun word zero (fun _ _ => None) (code f) (args f c)) as [[s1 w]| |] eqn:H1; try discriminate Hc.
    assert (Hn : nodupb (map fst w) = true) by congruence.
    assert (Hp : forallb (fun k => existsb (keq k) (places f)) (map fst w) = true) by congruence.
    assert (Hw : map (fun x => map (fun k => look k w) (snd x)) (lanes f) =
      map (fun x => map (fun i => Some (c (fst x) i)) (seq 0 (List.length (snd x)))) (lanes f)) by congruence.
    clear Hc.
    assert (Hh : Forall (holds word a m (fun _ _ => None)) (reads (code f))) by (rewrite Hr; constructor).
    rewrite (run_sym word zero a _ (code f) _ m Ho Hu Hh s1 w H1) in H. injection H as <- <-.
    apply nodupb_spec in Hn. rewrite forallb_forall in Hp.
    assert (Hin : forall x, In x w -> In (fst x) (places f)).
    { intros x Hx. specialize (Hp (fst x) (in_map fst _ _ Hx)). apply existsb_exists in Hp. destruct Hp as (k & Hk & E).
      apply keq_spec in E. rewrite E. exact Hk. }
    assert (Hd : forall x y, In x w -> In y w -> (a (fst (fst x)) + Z.of_nat (snd (fst x)) = a (fst (fst y)) + Z.of_nat (snd (fst y)))%Z -> fst x = fst y).
    { intros x y Hx Hy E. apply HA; [exact (Hin x Hx)|exact (Hin y Hy)|exact E]. }
    split.
    + intros x dst i k Hx Hi.
      assert (E : map (fun k => look k w) dst = map (fun i => Some (c x i)) (seq 0 (List.length dst))).
      { clear -Hw Hx. induction (lanes f) as [|[y d] l IH]; [destruct Hx|]. cbn [map fst snd] in Hw. injection Hw as E1 E2.
        destruct Hx as [E|Hx]; [injection E as -> ->; exact E1|exact (IH E2 Hx)]. }
      assert (L : look k w = Some (c x i)).
      { pose proof (f_equal (fun l => nth_error l i) E) as E'. cbn beta in E'.
        rewrite (map_nth_error _ _ _ Hi) in E'.
        assert (Hl : (i < List.length dst)%nat) by (apply nth_error_Some; rewrite Hi; discriminate).
        rewrite (map_nth_error _ i (seq 0 (List.length dst)) (d := i)) in E'; [injection E' as ->; reflexivity|].
        rewrite (nth_error_nth' _ 0%nat) by (rewrite seq_length; exact Hl). rewrite seq_nth by exact Hl. reflexivity. }
      apply look_in in L. destruct k as [p o]. unfold addr. cbn [fst snd]. apply (final_at word a m w p o); assumption.
    + intros z Hz. apply final_other. intros x Hx. exact (Hz (fst x) (Hin x Hx)).
Qed.

Ltac one_load := apply load_checked; split; [vm_compute; reflexivity|split; [vm_compute; reflexivity|split; [vm_compute; reflexivity|]]];
  intros word zero rd s; vm_compute; reflexivity.
Ltac one_store := apply store_checked; split; [vm_compute; reflexivity|split; [vm_compute; reflexivity|split; [vm_compute; reflexivity|]]];
  intros word zero c; vm_compute; reflexivity.

Lemma all_loads : Forall is_load load_funs.
Proof. unfold load_funs. repeat (constructor; [one_load|]). constructor. Qed.
Lemma all_stores : Forall is_store store_funs.
Proof. unfold store_funs. repeat (constructor; [one_store|]). constructor. Qed.

