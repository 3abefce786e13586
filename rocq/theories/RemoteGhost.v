(* What the ghost exchanges leave in the field arrays. *)
From Coq Require Import ZArith List Bool Lia ZifyBool.
From Verif Require Import SortModel VoxelModel VoxelProofs GridModel GridProofs FieldModel RemoteModel RemoteSpec RemoteProofs.
Import ListNotations.
Open Scope Z_scope.
Ltac Zify.zify_post_hook ::= idtac.

Lemma ghosted_cases e : ghosted e = true -> e = GhostTangB \/ e = GhostNormE \/ e = GhostDivB.
Proof. destruct e; try discriminate; tauto. Qed.

Section Ghost.
Context {V : Type}.
Variable A : rarith V.
Variable L : layout V.
Variable num : cell -> Z.
Variable ws : Z.
Variable G : Z -> cgrid V.
Hypothesis OK : layout_ok L.
Hypothesis HB : box L num ws G.
Variable e : exch.
Hypothesis He : ghosted e = true.
Notation sz p := (size_at L p).

Lemma got_ghost p a s c q : sign s -> got L e p a s c q <->
  ghost_comp e a c = true /\ at_ a q = (if s <? 0 then l_n L a (at_ a p) + 1 else 0) /\
  (forall b, b <> a -> 1 <= at_ b q <= l_n L b (at_ b p) + (if node_on c b then 1 else 0)).
Proof.
  intros Hs. unfold got. rewrite in_addrs. destruct (next_neq a) as [N1 N2].
  assert (T : forall P : axis -> Prop, (forall b, b <> a -> P b) <-> P (next a) /\ P (next (next a))).
  { intros P. split; [intros H; split; apply H; assumption|]. intros [H1 H2] b Hb. assert (b = next a \/ b = next (next a)) as [-> | ->] by (destruct a, b; tauto); assumption. }
  rewrite (T (fun b => 1 <= at_ b q <= l_n L b (at_ b p) + (if node_on c b then 1 else 0))).
  assert (R : recv_plane e s (l_n L a (at_ a p)) = (if s <? 0 then l_n L a (at_ a p) + 1 else 0)) by (unfold recv_plane; rewrite He; reflexivity).
  split.
  - intros (g & ks & Hi & Hc & Hq). apply in_plane in Hq. rewrite !at_size in Hq. rewrite R in Hq. destruct Hq as (Q1 & Q2 & Q3).
    destruct e; try discriminate He; destruct a; cbn [send_items next In] in Hi; repeat destruct Hi as [Hi|Hi]; try contradiction; injection Hi as <- <-; destruct Hc as [<-|[]];
      (split; [reflexivity|]); (split; [exact Q1|]); (split; [exact Q2|exact Q3]).
  - intros (Hg & Q1 & Q2 & Q3).
    assert (Hx : exists g, In (g, [c]) (send_items e a) /\ wide_y g = (if node_on c (next a) then 1 else 0) /\ wide_z g = (if node_on c (next (next a)) then 1 else 0)).
    { destruct e; try discriminate He; destruct a, c; try discriminate Hg; cbn [send_items next];
        (eexists; split; [first [left; reflexivity | right; left; reflexivity]|split; reflexivity]). }
    destruct Hx as (g & Hi & Ey & Ez). exists g, [c]. split; [exact Hi|]. split; [left; reflexivity|]. apply in_plane. rewrite !at_size, R, Ey, Ez. repeat split; assumption || apply Q2 || apply Q3.
Qed.
Lemma ghost_centred a c : ghost_comp e a c = true -> node_on c a = false.
Proof. destruct e; try discriminate He; destruct a, c; intros H; first [reflexivity | discriminate H]. Qed.
Lemma got_apart p a s a' s' c q : inside L p -> sign s -> sign s' -> got L e p a s c q -> got L e p a' s' c q -> (a, s) = (a', s').
Proof.
  intros Hp Hs Hs' H H'. apply got_ghost in H; [|exact Hs]. apply got_ghost in H'; [|exact Hs']. destruct H as (K & H1 & H2), H' as (K' & H1' & H2').
  pose proof (size_pos_at L OK a p Hp) as Pa.
  assert (D : a = a' \/ a <> a') by (destruct a, a'; (left; reflexivity) || (right; discriminate)). destruct D as [<-|D].
  - f_equal. destruct Hs as [-> | ->], Hs' as [-> | ->]; cbn [Z.ltb Z.compare] in *; lia.
  - specialize (H2' a D). rewrite (ghost_centred a c K) in H2'. destruct Hs as [-> | ->]; cbn [Z.ltb Z.compare] in *; lia.
Qed.
(* the value beside the ghost entry is no ghost entry *)
Lemma got_own p a s a' s' c q : inside L p -> sign s -> sign s' -> got L e p a s c q -> ~ got L e p a' s' c (put a (at_ a q + s) q).
Proof.
  intros Hp Hs Hs' H H'. apply got_ghost in H; [|exact Hs]. apply got_ghost in H'; [|exact Hs']. destruct H as (K & H1 & H2), H' as (K' & H1' & H2').
  pose proof (size_pos_at L OK a p Hp) as Pa.
  assert (D : a' = a \/ a' <> a) by (destruct a, a'; (left; reflexivity) || (right; discriminate)). destruct D as [->|D].
  - rewrite at_put_same in H1'. destruct Hs as [-> | ->], Hs' as [-> | ->]; cbn [Z.ltb Z.compare] in *; lia.
  - rewrite at_put_other in H1' by exact D. pose proof (size_pos_at L OK a' p Hp). specialize (H2 a' D). rewrite (ghost_centred a' c K') in H2. destruct Hs' as [-> | ->]; cbn [Z.ltb Z.compare] in *; lia.
Qed.
Lemma got_meshed p a s c q : inside L p -> sign s -> got L e p a s c q -> meshed L p q /\ meshed L p (put a (at_ a q + s) q).
Proof.
  intros Hp Hs H. apply got_ghost in H; [|exact Hs]. destruct H as (K & H1 & H2). pose proof (size_pos_at L OK a p Hp) as Pa.
  split; intros b; (assert (D : b = a \/ b <> a) by (destruct a, b; (left; reflexivity) || (right; discriminate)); destruct D as [->|D]).
  - destruct Hs as [-> | ->]; cbn [Z.ltb Z.compare] in *; lia.
  - specialize (H2 b D). destruct (node_on c b); lia.
  - rewrite at_put_same. destruct Hs as [-> | ->]; cbn [Z.ltb Z.compare] in *; lia.
  - rewrite at_put_other by exact D. specialize (H2 b D). destruct (node_on c b); lia.
Qed.

(* what is stored in ghost entry q of component c *)
Definition filled (W : Z -> mem V) (p : cell) (a : axis) (s j : Z) (c : comp) (q : cell) : V :=
  combine_ V A e (G (num p)) a s (l_d L a j) (c, q) (W (num (put a j p)) (locv (sz (put a j p)) (c, put a (send_plane e s (l_n L a j)) q))) (W (num p)).
Lemma receive_list all (W : Z -> mem V) p : dirs all -> inside L p -> forall ds F F',
  NoDup ds -> incl ds all ->
  receive_all V A ws G e (num p) (messages V ws G e all W) ds F = Some F' ->
  (forall c q, meshed L p q -> (forall a s, In (a, s) ds -> beside L a (at_ a p) (- s) <> None -> ~ got L e p a s c q) -> F' (locv (sz p) (c, q)) = F (locv (sz p) (c, q))) /\
  (forall a s j c q, In (a, s) ds -> beside L a (at_ a p) (- s) = Some j -> got L e p a s c q ->
     F' (locv (sz p) (c, q)) = combine_ V A e (G (num p)) a s (l_d L a j) (c, q) (W (num (put a j p)) (locv (sz (put a j p)) (c, put a (send_plane e s (l_n L a j)) q))) F).
Proof.
  intros Hall Hp. induction ds as [|[a s] ds IH]; intros F F' ND Hin H; cbn [receive_all fst snd] in H.
  - injection H as <-. split; [reflexivity|intros ? ? ? ? ? []].
  - inversion ND as [|? ? ND1 ND2]; subst. assert (Ia : In (a, s) all) by (apply Hin; left; reflexivity). assert (Hs : sign s) by (apply (Hall (a, s)), Ia).
    assert (Hin' : incl ds all) by (intros x Hx; apply Hin; right; exact Hx).
    destruct (receive V A ws G e (num p) (messages V ws G e all W) F a s) as [F1|] eqn:E1; [|discriminate].
    destruct (IH F1 F' ND2 Hin' H) as [I1 I2]. destruct (beside L a (at_ a p) (- s)) as [j|] eqn:Ej.
    + destruct (receive_some A L num ws G OK HB e all W p F a s j Hall Ia Hp Hs Ej) as (F2 & E2 & R1 & R2). rewrite E1 in E2. injection E2 as <-. split.
      * intros c q Hq Hn. rewrite I1; [apply R1; [exact Hq|]|exact Hq|].
        -- apply (Hn a s (or_introl eq_refl)). rewrite Ej. discriminate.
        -- intros a' s' Hd. apply Hn. right. exact Hd.
      * intros a' s' j' c q [E|Hd] Ej' Hg.
        -- injection E as <- <-. rewrite Ej in Ej'. injection Ej' as <-. destruct (got_meshed p a s c q Hp Hs Hg) as [M _]. rewrite I1; [apply R2, Hg|exact M|].
           intros a' s' Hd _ Hg'. assert (Hs' : sign s') by (apply (Hall (a', s')), Hin', Hd). assert ((a, s) = (a', s')) as Q by (eapply got_apart; eassumption). rewrite Q in ND1. contradiction.
        -- assert (Hs' : sign s') by (apply (Hall (a', s')), Hin', Hd). rewrite (I2 a' s' j' c q Hd Ej' Hg). destruct (got_meshed p a' s' c q Hp Hs' Hg) as [M M'].
           unfold combine_. rewrite (size_box L num ws G HB) by exact Hp. cbn [fst snd]. assert (Eo : F1 (locv (sz p) (c, put a' (at_ a' q + s') q)) = F (locv (sz p) (c, put a' (at_ a' q + s') q))) by (apply R1; [exact M'|eapply got_own; eassumption]).
           rewrite Eo. destruct (ghosted_cases e He) as [-> |[-> | ->]]; reflexivity.
    + rewrite (receive_none A L num ws G HB e all W p F a s Hp Hs Ej) in E1. injection E1 as <-. split.
      * intros c q Hq Hn. apply I1; [exact Hq|]. intros a' s' Hd. apply Hn. right. exact Hd.
      * intros a' s' j' c q [E|Hd] Ej' Hg; [injection E as <- <-; rewrite Ej in Ej'; discriminate|]. apply (I2 a' s' j' c q Hd Ej' Hg).
Qed.
Lemma six_dirs : dirs six.
Proof. intros d H. cbn in H. unfold sign. repeat destruct H as [<-|H]; cbn; auto. contradiction. Qed.
Lemma six_nodup : NoDup six.
Proof. repeat (constructor; [cbn; intuition discriminate|]). constructor. Qed.
Lemma in_six a s : sign s -> In (a, s) six.
Proof. intros [-> | ->]; destruct a; cbn; tauto. Qed.

Lemma ghost_run W W' p : run_phases V A ws G e (phases e) W W' -> inside L p ->
  (forall c q, meshed L p q -> (forall a s, sign s -> beside L a (at_ a p) (- s) <> None -> ~ got L e p a s c q) -> W' (num p) (locv (sz p) (c, q)) = W (num p) (locv (sz p) (c, q))) /\
  (forall a s j c q, sign s -> beside L a (at_ a p) (- s) = Some j -> got L e p a s c q -> W' (num p) (locv (sz p) (c, q)) = filled W p a s j c q).
Proof.
  intros H Hp. unfold phases in H. rewrite He in H. inversion H as [|ds dss W0 W1 W2 Hph Hr]; subst. inversion Hr as [W3 W4 Hend|]; subst.
  assert (Rg : 0 <= num p < ws) by (apply HB, Hp). rewrite (Hend _ Rg). specialize (Hph _ Rg).
  destruct (receive_list six W p six_dirs Hp six (W (num p)) (W1 (num p)) six_nodup (fun x h => h) Hph) as [R1 R2]. split.
  - intros c q Hq Hn. apply R1; [exact Hq|]. intros a s Hd. apply Hn. apply (six_dirs (a, s)), Hd.
  - intros a s j c q Hs Ej Hg. apply R2; [apply in_six, Hs|exact Ej|exact Hg].
Qed.
(* the exchange does not fail *)
Lemma receive_list_ok all (W : Z -> mem V) p : dirs all -> inside L p -> forall ds F, incl ds all ->
  exists F', receive_all V A ws G e (num p) (messages V ws G e all W) ds F = Some F'.
Proof.
  intros Hall Hp. induction ds as [|[a s] ds IH]; intros F Hin; [exists F; reflexivity|]. cbn [receive_all fst snd].
  assert (Ia : In (a, s) all) by (apply Hin; left; reflexivity). assert (Hs : sign s) by (apply (Hall (a, s)), Ia). assert (Hin' : incl ds all) by (intros x Hx; apply Hin; right; exact Hx).
  destruct (beside L a (at_ a p) (- s)) as [j|] eqn:Ej.
  - destruct (receive_some A L num ws G OK HB e all W p F a s j Hall Ia Hp Hs Ej) as (F2 & -> & _). apply IH, Hin'.
  - rewrite (receive_none A L num ws G HB e all W p F a s Hp Hs Ej). apply IH, Hin'.
Qed.
End Ghost.
