(* The transposes and swaps of registers and the clears, copies and swaps of memory of
   VecSpec.v do what they have to: from a symbolic run of each. *)
From Coq Require Import ZArith List String Bool Lia.
From Verif Require Import VecModel VecPrograms4 VecPrograms8 VecPrograms16 VecSpec VecProofs VecRows.
Import ListNotations.
Open Scope string_scope. Open Scope list_scope.
Ltac Zify.zify_post_hook ::= idtac.

(* ---- registers only ---- *)
Lemma transpose_checked code xs : (forall word (zero : word) a c m, let n := List.length xs in
    match run word zero a code (map (fun x => (x, map (c x) (seq 0 n))) xs) m with
    | Ok (s', m') => Some (map (fun x => get x s') xs, m') | _ => None end =
    Some (map (fun i => map (fun j => c (nth j xs "") i) (seq 0 n)) (seq 0 n), m)) -> is_transpose code xs.
Proof.
  intros H word zero a c m n. specialize (H word zero a c m). cbv zeta in H. fold n in H.
  destruct (run _ _ _ _ _ _) as [[s' m']| |]; try discriminate H. injection H as H1 H2. exists s'. subst m'. split; [reflexivity|].
  intros i Hi. apply (f_equal (fun l => nth i l (get "" s'))) in H1. rewrite (map_nth (fun x => get x s') xs "") in H1. rewrite H1.
  rewrite (nth_indep _ _ (map (fun j => c (nth j xs "") 0) (seq 0 n))) by (rewrite map_length, seq_length; exact Hi).
  rewrite (map_nth (fun i => map (fun j => c (nth j xs "") i) (seq 0 n)) (seq 0 n) 0), seq_nth by exact Hi. reflexivity.
Qed.
Lemma all_transposes : Forall (fun f => is_transpose (fst f) (snd f)) transposes.
Proof.
  unfold transposes.
  repeat (constructor; [apply transpose_checked; intros word zero a c m; vm_compute; reflexivity|]).
  constructor.
Qed.
Lemma all_swaps : Forall (fun f => is_swap (fst f) (snd f)) swaps_reg.
Proof.
  unfold swaps_reg.
  repeat (constructor; [intros word zero a c m; eexists; split; [vm_compute; reflexivity|split; vm_compute; reflexivity]|]).
  constructor.
Qed.

(* ---- loads after stores, for places that do not overlap ---- *)
Section Apart.
Variables (word : Type) (zero : word) (a : string -> Z) (K : list place) (rd : string -> nat -> cell word).
Hypothesis HK : apart a K.
Definition val (w : list (string * nat * cell word)) (p : string) (o : nat) : cell word :=
  match look (p, o) w with Some c => c | None => rd p o end.
Fixpoint srun2 (l : list stmt) (s : env word) (w : list (string * nat * cell word)) :=
  match l with
  | [] => Ok (s, w)
  | t :: l => bind (exec1 word zero (sld word (val w)) s t) (fun '(s, w1) => srun2 l s (rev (flat word w1) ++ w))
  end.
Definition known (m m0 : mem word) (w : list (string * nat * cell word)) : Prop :=
  (forall k, In k K -> m (addr a k) = Some (val w (fst k) (snd k))) /\
  (forall z, (forall k, In k K -> z <> addr a k) -> m z = m0 z).
Lemma known_final m m0 l : forall w, (forall x, In x l -> In (fst x) K) -> known m m0 w -> known (final word a m l) m0 (rev l ++ w).
Proof.
  revert m. induction l as [|[[p o] c] l IH]; intros m w Hl Hk; [exact Hk|].
  cbn [final rev]. rewrite <- app_assoc. apply IH; [intros x Hx; apply Hl; right; exact Hx|].
  pose proof (Hl _ (or_introl eq_refl)) as Hp. cbn [fst] in Hp. destruct Hk as [H1 H2]. split.
  - intros k Hi. unfold put. fold (addr a (p, o)). cbn [app]. unfold val. cbn [look fst snd].
    change (a p + Z.of_nat o)%Z with (addr a (p, o)).
    destruct (Z.eqb_spec (addr a k) (addr a (p, o))) as [E|E].
    + apply HK in E; [|exact Hi|exact Hp]. subst k. cbn [fst snd].
      rewrite (proj2 (keq_spec (p, o) (p, o)) eq_refl). reflexivity.
    + destruct (keq (fst k, snd k) (p, o)) eqn:Ek; [apply keq_spec in Ek; destruct k; cbn in Ek; congruence|]. apply H1. exact Hi.
  - intros z Hz. unfold put. change (a p + Z.of_nat o)%Z with (addr a (p, o)).
    destruct (Z.eqb_spec z (addr a (p, o))) as [E|E]; [exfalso; exact (Hz _ Hp E)|exact (H2 z Hz)].
Qed.
Definition within (us : list access) : Prop := forall u o, In u us -> In o (snd u) -> In (snd (fst u), o) K.
Lemma run_sym2 m0 l : forall s w m, within (uses l) -> Forall (okacc word a m) (uses l) -> known m m0 w ->
  forall s' w', srun2 l s w = Ok (s', w') -> exists m', run word zero a l s m = Ok (s', m') /\ known m' m0 w'.
Proof.
  induction l as [|t l IH]; intros s w m HW Hu Hk s' w' H; cbn [srun2 run] in *.
  - injection H as <- <-. eauto.
  - unfold uses in Hu. cbn [flat_map] in Hu. apply Forall_app in Hu. destruct Hu as [Hu1 Hu2].
    apply Forall_app in Hu1. destruct Hu1 as [Hr Hw].
    assert (W1 : within (reads_t t)) by (intros u o Hi; apply HW, in_flat_map; exists t; split; [left; reflexivity|apply in_or_app; left; exact Hi]).
    assert (W2 : within (writes_t t)) by (intros u o Hi; apply HW, in_flat_map; exists t; split; [left; reflexivity|apply in_or_app; right; exact Hi]).
    assert (W3 : within (uses l)) by (intros u o Hi; apply HW; unfold uses; cbn [flat_map]; apply in_or_app; right; exact Hi).
    rewrite (exec1_ld word zero (load word a m) (sld word (val w)) s t).
    2:{ intros x Hx. rewrite Forall_forall in Hr. destruct (proj2 (load_ok word a m x) (Hr x Hx)) as [r E]. rewrite E.
        unfold sld. f_equal. eapply load_words; [exact E|]. intros o Ho. exact (proj1 Hk _ (W1 x o Hx Ho)). }
    destruct (exec1 word zero (sld word (val w)) s t) as [[s1 w1]| |] eqn:E; cbn [bind] in *; try discriminate.
    pose proof (keys_exec1 word zero _ _ _ _ _ E) as Hkey. rewrite <- Hkey in Hw, W2.
    rewrite (stores_final word a m w1 Hw). cbn [bind]. eapply IH; [exact W3| | |exact H].
    + rewrite Forall_forall in *. intros x Hx. apply okacc_final; [rewrite Forall_forall; exact Hw|exact (Hu2 x Hx)].
    + apply known_final; [|exact Hk]. intros x Hx. apply in_flat_key in Hx. destruct Hx as (y & Hy & E1 & E2).
      specialize (W2 y _ Hy E2). rewrite E1 in W2. destruct x as [[p o] c]. exact W2.
Qed.
End Apart.

(* n words at p and n words at q *)
Definition span (p : string) (n : nat) : list place := map (fun o => (p, o)) (seq 0 n).
Lemma in_span k p n : In k (span p n) <-> fst k = p /\ (snd k < n)%nat.
Proof.
  unfold span. rewrite in_map_iff. split.
  - intros (o & <- & Ho). apply in_seq in Ho. cbn. split; [reflexivity|lia].
  - destruct k as [q o]. cbn. intros [-> Ho]. exists o. split; [reflexivity|apply in_seq; lia].
Qed.
Lemma block_span (a : string -> Z) p n y : block (a p) n y <-> exists k, In k (span p n) /\ y = addr a k.
Proof.
  unfold block. split.
  - intros H. exists (p, Z.to_nat (y - a p)). split; [apply in_span; cbn [fst snd]; split; [reflexivity|lia]|unfold addr; cbn [fst snd]; lia].
  - intros (k & Hk & ->). apply in_span in Hk. destruct Hk as [<- Hk]. unfold addr. lia.
Qed.
Definition insideb (us : list access) (K : list place) : bool :=
  forallb (fun u => forallb (fun o => existsb (keq (snd (fst u), o)) K) (snd u)) us.
Lemma insideb_within us K : insideb us K = true -> within K us.
Proof.
  unfold insideb. rewrite forallb_forall. intros H u o Hu Ho. specialize (H u Hu). rewrite forallb_forall in H.
  specialize (H o Ho). apply existsb_exists in H. destruct H as (k & Hk & E). apply keq_spec in E. rewrite E. exact Hk.
Qed.

(* the words of K after a run, and those before *)
Definition effect {word} (zero : word) (code : list stmt) (K : list place) rd s : option (list (cell word)) :=
  match srun2 word zero rd code s [] with
  | Ok (_, w) => Some (map (fun k => val word rd w (fst k) (snd k)) K)
  | _ => None
  end.
Lemma effect_run word (zero : word) a code K f s m s' m' F :
  apart a K -> frame_ok (uses code) f = true -> insideb (uses code) K = true ->
  (forall k, In k K -> exists al n, In (fst k, al, n) f /\ (snd k < n)%nat) ->
  (forall rd, effect zero code K rd s = Some (map (F rd) K)) ->
  run word zero a code s m = Ok (s', m') ->
  (forall k, In k K -> m' (addr a k) = Some (F (rd_of a m) k)) /\
  (forall z, (forall k, In k K -> z <> addr a k) -> m' z = m z).
Proof.
  intros HA Hf Hi HK He H.
  assert (Hu : Forall (okacc word a m) (uses code)) by (apply (run_ok word zero a code s m); eauto).
  pose proof (proj2 (frame_framed word a m _ _ Hf) Hu) as HF.
  specialize (He (rd_of a m)). unfold effect in He.
  destruct (srun2 word zero (rd_of a m) code s []) as [[s1 w]| |] eqn:E; try discriminate He. injection He as He.
  assert (Hk : known word a K (rd_of a m) m m []).
  { split; [|reflexivity]. intros k Hk. destruct (HK k Hk) as (al & n & Hin & Hn). destruct (HF _ _ _ Hin) as [_ G].
    specialize (G _ Hn). unfold val. cbn [look]. unfold rd_of.
    replace (fst k, snd k) with k in * by (destruct k; reflexivity).
    destruct (m (addr a k)); [reflexivity|congruence]. }
  destruct (run_sym2 word zero a K (rd_of a m) HA m code s [] m (insideb_within _ _ Hi) Hu Hk _ _ E) as (m1 & H1 & K1 & K2).
  rewrite H1 in H. injection H as <- <-. split; [|exact K2].
  intros k Hin. rewrite (K1 k Hin). f_equal. revert Hin. clear -He. revert k.
  induction K as [|k0 K IH]; intros k Hin; [destruct Hin|]. cbn [map] in He. injection He as E1 E2.
  destruct Hin as [<-|Hin]; [exact E1|exact (IH E2 k Hin)].
Qed.
Lemma rd_some word a (m : mem word) k : m (addr a k) <> None -> Some (rd_of a m (fst k) (snd k)) = m (addr a k).
Proof. unfold rd_of. replace (fst k, snd k) with k by (destruct k; reflexivity). destruct (m (addr a k)); congruence. Qed.

Definition other (p q : string) (k : place) : place := if String.eqb (fst k) p then (q, snd k) else (p, snd k).

Lemma clear_checked code n al : frame_ok (uses code) [("p", al, n)] = true -> insideb (uses code) (span "p" n) = true ->
  (forall word (zero : word) rd s, effect zero code (span "p" n) rd s = Some (map (fun _ => Some zero) (span "p" n))) ->
  is_clear code n al.
Proof.
  intros Hf Hi He word zero a s m. split; [rewrite (frame_framed word a m _ _ Hf), run_ok; reflexivity|].
  intros s' m' H y.
  assert (HA : apart a (span "p" n)).
  { intros k k' H1 H2 E. apply in_span in H1. apply in_span in H2. destruct k, k'. cbn in *. destruct H1 as [-> _], H2 as [-> _].
    unfold addr in E. cbn in E. f_equal. lia. }
  destruct (effect_run word zero a code (span "p" n) _ s m s' m' (fun _ _ => Some zero) HA Hf Hi) as [G1 G2];
    [|intros rd; apply He|exact H|].
  - intros k Hk. apply in_span in Hk. exists al, n. split; [left; f_equal; f_equal; symmetry; tauto|tauto].
  - split; intros Hb.
    + apply (block_span a "p") in Hb. destruct Hb as (k & Hk & ->). exact (G1 k Hk).
    + apply G2. intros k Hk E. apply Hb. apply (block_span a "p"). eauto.
Qed.

Section Two.
Variables (p q : string) (n al : nat) (code : list stmt).
Hypothesis Hpq : String.eqb p q = false.
Let K := span p n ++ span q n.
Hypothesis Hf : frame_ok (uses code) [(p, al, n); (q, al, n)] = true.
Hypothesis Hi : insideb (uses code) K = true.
Lemma two_apart a : (forall y, ~ (block (a p) n y /\ block (a q) n y)) -> apart a K.
Proof.
  intros H k k' H1 H2 E. unfold K in *. apply in_app_iff in H1. apply in_app_iff in H2.
  assert (S : forall x k k', In k (span x n) -> In k' (span x n) -> addr a k = addr a k' -> k = k').
  { intros x [u v] [u' v'] G1 G2 G3. apply in_span in G1. apply in_span in G2. cbn in *. destruct G1 as [-> _], G2 as [-> _].
    unfold addr in G3. cbn in G3. f_equal. lia. }
  destruct H1 as [H1|H1], H2 as [H2|H2]; [exact (S _ _ _ H1 H2 E)| | |exact (S _ _ _ H1 H2 E)]; exfalso;
    apply (H (addr a k)); split; apply (block_span a); eauto.
Qed.
Lemma two_frame k : In k K -> exists al' n', In (fst k, al', n') [(p, al, n); (q, al, n)] /\ (snd k < n')%nat.
Proof.
  unfold K. intros Hk. apply in_app_iff in Hk. exists al, n.
  destruct Hk as [Hk|Hk]; apply in_span in Hk; destruct Hk as [-> Hk]; (split; [cbn; tauto|exact Hk]).
Qed.
Lemma in_K_p y a : block (a p) n y -> exists o, (o < n)%nat /\ y = addr a (p, o) /\ In (p, o) K /\ In (q, o) K /\ (a q + (y - a p))%Z = addr a (q, o).
Proof.
  intros H. exists (Z.to_nat (y - a p)). unfold block in H. unfold addr, K. cbn [fst snd]. rewrite !in_app_iff, !in_span. cbn [fst snd].
  repeat split; try lia; [left|right]; split; try reflexivity; lia.
Qed.
Lemma in_K_q y a : block (a q) n y -> exists o, (o < n)%nat /\ y = addr a (q, o) /\ In (p, o) K /\ In (q, o) K /\ (a p + (y - a q))%Z = addr a (p, o).
Proof.
  intros H. exists (Z.to_nat (y - a q)). unfold block in H. unfold addr, K. cbn [fst snd]. rewrite !in_app_iff, !in_span. cbn [fst snd].
  repeat split; try lia; [left|right]; split; try reflexivity; lia.
Qed.
Lemma out_K y a : ~ block (a p) n y -> ~ block (a q) n y -> forall k, In k K -> y <> addr a k.
Proof.
  intros H1 H2 k Hk E. unfold K in Hk. apply in_app_iff in Hk.
  destruct Hk as [Hk|Hk]; [apply H1|apply H2]; apply (block_span a); eauto.
Qed.
Lemma two_ok word (a : string -> Z) (m : mem word) k zero s r : run word zero a code s m = Ok r -> In k K -> m (addr a k) <> None.
Proof.
  intros H Hk. assert (Hu : Forall (okacc word a m) (uses code)) by (apply (run_ok word zero a code s m); eauto).
  pose proof (proj2 (frame_framed word a m _ _ Hf) Hu) as HF. destruct (two_frame k Hk) as (al' & n' & G1 & G2).
  destruct (HF _ _ _ G1) as [_ G]. specialize (G _ G2). destruct k. exact G.
Qed.
Lemma copy_checked :
  (forall word (zero : word) rd s, effect zero code K rd s = Some (map (fun k => rd q (snd k)) K)) ->
  is_copy code p q n al.
Proof.
  intros He word zero a s m. split; [rewrite (frame_framed word a m _ _ Hf), run_ok; reflexivity|].
  intros s' m' H Hd y.
  destruct (effect_run word zero a code K _ s m s' m' (fun rd k => rd q (snd k)) (two_apart a Hd) Hf Hi two_frame (fun rd => He word zero rd s) H) as [G1 G2].
  split.
  - intros Hb. destruct (in_K_p y a Hb) as (o & Ho & -> & Kp & Kq & E). rewrite E, (G1 _ Kp). cbn [snd].
    exact (rd_some word a m (q, o) (two_ok _ _ _ (q, o) _ _ _ H Kq)).
  - intros Hb. destruct (Z_le_dec (a q) y) as [L1|L1]; [destruct (Z_lt_dec y (a q + Z.of_nat n)) as [L2|L2]|].
    + destruct (in_K_q y a (conj L1 L2)) as (o & Ho & -> & Kp & Kq & E). rewrite (G1 _ Kq). cbn [snd].
      exact (rd_some word a m (q, o) (two_ok _ _ _ (q, o) _ _ _ H Kq)).
    + apply G2. apply out_K; [exact Hb|unfold block; lia].
    + apply G2. apply out_K; [exact Hb|unfold block; lia].
Qed.
Lemma swap_checked :
  (forall word (zero : word) rd s, effect zero code K rd s = Some (map (fun k => let k' := other p q k in rd (fst k') (snd k')) K)) ->
  is_swap_mem code p q n al.
Proof.
  intros He word zero a s m. split; [rewrite (frame_framed word a m _ _ Hf), run_ok; reflexivity|].
  intros s' m' H Hd y.
  destruct (effect_run word zero a code K _ s m s' m' (fun rd k => let k' := other p q k in rd (fst k') (snd k')) (two_apart a Hd) Hf Hi two_frame (fun rd => He word zero rd s) H) as [G1 G2].
  split; [|split].
  - intros Hb. destruct (in_K_p y a Hb) as (o & Ho & -> & Kp & Kq & E). rewrite E, (G1 _ Kp). unfold other. cbn [fst snd].
    rewrite String.eqb_refl. exact (rd_some word a m (q, o) (two_ok _ _ _ (q, o) _ _ _ H Kq)).
  - intros Hb. destruct (in_K_q y a Hb) as (o & Ho & -> & Kp & Kq & E). rewrite E, (G1 _ Kq). unfold other. cbn [fst snd].
    rewrite String.eqb_sym, Hpq. exact (rd_some word a m (p, o) (two_ok _ _ _ (p, o) _ _ _ H Kp)).
  - intros H1 H2. apply G2. apply out_K; assumption.
Qed.
End Two.

Lemma all_clears : Forall (fun f => let '(c, n, al) := f in is_clear c n al) clears.
Proof.
  unfold clears. repeat (constructor; [apply clear_checked; [vm_compute; reflexivity|vm_compute; reflexivity|];
    intros word zero rd s; vm_compute; reflexivity|]). constructor.
Qed.
Lemma all_copies : Forall (fun f => let '(c, p, q, n, al) := f in is_copy c p q n al) copies.
Proof.
  unfold copies. repeat (constructor; [apply copy_checked; [vm_compute; reflexivity|vm_compute; reflexivity|];
    intros word zero rd s; vm_compute; reflexivity|]). constructor.
Qed.
Lemma all_swaps_mem : Forall (fun f => let '(c, p, q, n, al) := f in is_swap_mem c p q n al) swaps_mem.
Proof.
  unfold swaps_mem. repeat (constructor; [apply swap_checked; [vm_compute; reflexivity|vm_compute; reflexivity|vm_compute; reflexivity|];
    intros word zero rd s; vm_compute; reflexivity|]). constructor.
Qed.

(* A program uses no pointer but those of its accesses. *)
Lemma run_ptrs word (zero : word) a a' l : forall s m, (forall u, In u (uses l) -> a (snd (fst u)) = a' (snd (fst u))) ->
  run word zero a l s m = run word zero a' l s m.
Proof.
  induction l as [|t l IH]; intros s m H; [reflexivity|]. cbn [run].
  assert (H1 : forall u, In u (reads_t t) -> a (snd (fst u)) = a' (snd (fst u)))
    by (intros u Hu; apply H; unfold uses; cbn [flat_map]; apply in_or_app; left; apply in_or_app; left; exact Hu).
  assert (H2 : forall u, In u (writes_t t) -> a (snd (fst u)) = a' (snd (fst u)))
    by (intros u Hu; apply H; unfold uses; cbn [flat_map]; apply in_or_app; left; apply in_or_app; right; exact Hu).
  assert (H3 : forall u, In u (uses l) -> a (snd (fst u)) = a' (snd (fst u)))
    by (intros u Hu; apply H; unfold uses; cbn [flat_map]; apply in_or_app; right; exact Hu).
  rewrite (exec1_ld word zero (load word a m) (load word a' m) s t)
    by (intros x Hx; unfold load, aligned; rewrite (H1 x Hx); reflexivity).
  destruct (exec1 word zero (load word a' m) s t) as [[s1 w]| |] eqn:E; cbn [bind]; try reflexivity.
  rewrite <- (keys_exec1 word zero _ _ _ _ _ E) in H2.
  assert (S : stores_all word a m w = stores_all word a' m w).
  { clear -H2. revert m. induction w as [|[[n p] ws] w IH]; intros m; [reflexivity|]. cbn [stores_all].
    assert (store word a m n p ws = store word a' m n p ws) as ->.
    { unfold store, aligned. rewrite (H2 (n, p, map fst ws) (or_introl eq_refl) : a p = a' p). reflexivity. }
    destruct (store word a' m n p ws) as [m1| |]; cbn [bind]; try reflexivity. apply IH.
    intros u Hu. apply H2. right. exact Hu. }
  rewrite S. destruct (stores_all word a' m w) as [m1| |]; cbn [bind]; try reflexivity. apply IH. exact H3.
Qed.
