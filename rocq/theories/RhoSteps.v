(* The advances of E and B leave rhob alone and do not read it: they advance the other fields of the whole mesh even while the copies of rhob differ. *)
From Coq Require Import Reals ZArith List Bool Lia ZifyBool.
From Verif Require Import SortModel VoxelModel VoxelProofs GridModel GridProofs SweepModel FieldModel FieldSpec FieldSweeps
  RemoteModel RemoteSpec RemoteProofs RemoteGhost DecompSpec DecompProofs DecompSteps ChargeSpec ChargeProofs PropertiesDecomp.
Import ListNotations.
Open Scope Z_scope.
Ltac Zify.zify_post_hook ::= idtac.
Local Notation AT := RemoteModel.at_.
Local Notation put := RemoteModel.put.

Section Rank.
Context {V : Type}.
Variable RAr : rarith V.
Variable L : layout V.
Variable num : cell -> Z.
Variable ws : Z.
Variable G : Z -> cgrid V.
Hypothesis OK : layout_ok L.
Hypothesis HB : box L num ws G.
Hypothesis Ev : even_sizes L.
Hypothesis Cw : clear_weights RAr L.
Variable F : gfield V.
Hypothesis Fr : field_repeats L F.

(* the arrays hold the field, except perhaps rhob *)
Definition holds_but (W : Z -> mem V) : Prop :=
  forall c p q, c <> Rhob -> inside L p -> holds L c p q -> W (num p) (c, vox3 (size_at L p) q) = F c (gplace L p q).
Lemma ghost_not_rhob e a c : ghost_comp e a c = true -> c <> Rhob.
Proof. intros H ->. destruct e, a; discriminate H. Qed.
Lemma near_but e W W1 p Gh B : ghosted e = true -> inside L p -> holds_but W -> run_phases V RAr ws G e (phases e) W W1 ->
  ghosts_from L num F e W1 p Gh -> ghost_list (ghosts_of e (l_n L AX (AT AX p)) (l_n L AY (AT AY p)) (l_n L AZ (AT AZ p))) Gh ->
  with_ghosts Gh (W (num p)) B ->
  (forall c q, c <> Rhob -> holds L c p q -> B (c, vox3 (size_at L p) q) = F c (gplace L p q)) /\
  (forall a t c q, t = -1 \/ t = 1 -> ghost_entry L e p a t c q -> B (c, vox3 (size_at L p) q) = F c (gplace L p q)).
Proof.
  intros Hg Hp HF Hr Gf [_ Gl] [Bi Bo]. split.
  - intros c q Nc Hq. rewrite Bo; [apply HF; assumption|]. intros Hin. apply in_map_iff in Hin. destruct Hin as ([[c' v] x] & E & Hin). cbn [fst] in E. injection E as -> ->.
    apply Gl in Hin. apply (ghosts_of_face L OK) in Hin; [|assumption|assumption|eapply held_in_mesh; eassumption].
    destruct Hin as (a & Ga & Ha). apply ghost_comp_off in Ga. specialize (Hq a). rewrite Ga in Hq. lia.
  - intros a t c q Ht Hq. specialize (Gf a t c q Ht Hq). destruct (beside L a (AT a p) t) as [j|] eqn:Ej.
    + rewrite (Bi _ _ Gf). destruct (ghost_run RAr L num ws G OK HB e Hg W W1 p Hr Hp) as [_ R].
      pose proof Hq as (Q1 & Q2 & Q3). assert (Hs : sign (- t)) by (unfold sign; lia).
      assert (Hgot : got L e p a (- t) c q). { apply (got_ghost L e Hg p a (- t) c q Hs). split; [exact Q1|]. split; [|exact Q3]. rewrite Q2. destruct Ht as [-> | ->]; reflexivity. }
      specialize (R a (- t) j c q Hs ltac:(rewrite Z.opp_involutive; exact Ej) Hgot). change (c, vox3 (size_at L p) q) with (locv (size_at L p) (c, q)). rewrite R.
      unfold filled, combine_. rewrite (size_box L num ws G HB) by exact Hp. pose proof HB as (_ & _ & _ & _ & Dx & _). rewrite (Dx p a Hp). cbn [fst snd].
      assert (Hj : 0 <= j < l_p L a) by (apply (beside_range L a (AT a p) t j (Hp a) Ht Ej)).
      assert (Hp' : inside L (put a j p)). { intros b. destruct (axis_dec b a) as [-> | N]; [rewrite at_put_same; exact Hj|rewrite at_put_other by exact N; apply Hp]. }
      rewrite (Ev a j (AT a p) Hj (Hp a)).
      assert (Es : send_plane e (- t) (l_n L a j) = (if t =? -1 then l_n L a j else 1)) by (unfold send_plane; rewrite Hg; destruct Ht as [-> | ->]; reflexivity). rewrite Es.
      assert (Hnear : holds L c (put a j p) (put a (if t =? -1 then l_n L a j else 1) q)).
      { intros b. destruct OK as [_ On]. pose proof (On a j Hj). destruct (axis_dec b a) as [-> | N].
        - rewrite !at_put_same. rewrite (ghost_comp_off _ _ _ Q1). destruct (t =? -1); lia.
        - rewrite !at_put_other by exact N. apply Q3, N. }
      assert (E : W (num (put a j p)) (locv (size_at L (put a j p)) (c, put a (if t =? -1 then l_n L a j else 1) q)) = F c (gplace L p q)).
      { change (locv (size_at L (put a j p)) (c, put a (if t =? -1 then l_n L a j else 1) q)) with (c, vox3 (size_at L (put a j p)) (put a (if t =? -1 then l_n L a j else 1) q)).
        rewrite (HF c (put a j p) _ (ghost_not_rhob e a c Q1) Hp' Hnear). apply (ghost_place L (F c) a t j p q (Fr c) Hp Ht Ej Q2). }
      rewrite <- E. destruct e; try discriminate Hg; apply Cw; apply Hp.
    + exact (Bi _ _ Gf).
Qed.

(* rhob overwritten with that of the field *)
Definition patch (p : cell) (m : mem V) : mem V :=
  fun l => match fst l with Rhob => F Rhob (gplace L p (entry_of (size_at L p) (snd l))) | _ => m l end.
Lemma patch_holds p m : inside L p -> (forall c q, c <> Rhob -> holds L c p q -> m (c, vox3 (size_at L p) q) = F c (gplace L p q)) ->
  forall c q, holds L c p q -> patch p m (c, vox3 (size_at L p) q) = F c (gplace L p q).
Proof.
  intros Hp H c q Hq. destruct c; try (unfold patch; cbn [fst snd]; apply H; [discriminate|exact Hq]). unfold patch. cbn [fst snd]. rewrite entry_vox; [reflexivity| |].
  - destruct OK as [_ On]. pose proof (On AX _ (Hp AX)). pose proof (On AY _ (Hp AY)). pose proof (On AZ _ (Hp AZ)). cbn. lia.
  - pose proof (Hq AX) as X. pose proof (Hq AY) as Y. pose proof (Hq AZ) as Z_. cbn [node_on] in X, Y, Z_. destruct q as [[x y] z]. cbn in *. unfold in_mesh. lia.
Qed.
Lemma patch_other p m c v : c <> Rhob -> patch p m (c, v) = m (c, v).
Proof. intros H. destruct c; try reflexivity. contradiction. Qed.

Variable A : arith V.
Variable gm : gmats V.
Variable mt : cell -> mats V.
Variable fma : cell -> bool.
Variable P : cell -> Z.
Hypothesis Fit : fits V L P.
Hypothesis Al : alike V L mt gm.

Lemma sweep_but s wall W W2 : match s with AdvanceB _ | AdvanceE _ => True | _ => False end -> holds_but W ->
  (forall e, ghosts_used V s = Some e -> walls_of V L e F wall) -> on_ranks V RAr A L num ws G mt fma P s wall W W2 ->
  (forall c p q, c <> Rhob -> inside L p -> holds L c p q -> W2 (num p) (c, vox3 (size_at L p) q) = g_sweep A gm F s c (gplace L p q)) /\
  (forall p v, inside L p -> W2 (num p) (Rhob, v) = W (num p) (Rhob, v)).
Proof.
  intros Hs HF Hw H. destruct Al as [Mr Sm].
  assert (Pos : forall p, inside L p -> 1 <= l_n L AX (AT AX p) /\ 1 <= l_n L AY (AT AY p) /\ 1 <= l_n L AZ (AT AZ p)) by (intros p Hp; destruct OK as [_ O]; split; [|split]; apply O, Hp).
  destruct s as [k|k|k|k|k|k|k]; try contradiction; cbn [on_ranks g_sweep] in *.
  - assert (K : forall p, inside L p -> faraday V (l_n L AX (AT AX p)) (l_n L AY (AT AY p)) (l_n L AZ (AT AZ p)) A k (W (num p)) (W2 (num p))).
    { intros p Hp. destruct (Pos p Hp) as (X & Y & Z_), (Fit p Hp) as [F1 F2]. eapply advance_b_spec; [..|apply H, Hp]; assumption. }
    split.
    + intros c p q Nc Hp Hq. rewrite <- (patch_other p (W2 (num p)) c _ Nc).
      apply (rank_faraday L F A k p (patch p (W (num p))) (patch_holds p _ Hp (fun c q Nc => HF c p q Nc Hp))); [|exact Hq].
      destruct (K p Hp) as (O & K'). split; [|exact K']. intros c' v Hc. specialize (O c' v Hc). destruct c'; try exact O. reflexivity.
    + intros p v Hp. destruct (K p Hp) as (O & _). apply O. cbn. intuition discriminate.
  - destruct H as (W1 & Gh & Hr & Hp').
    assert (K : forall p, inside L p -> exists B, with_ghosts (Gh p) (W (num p)) B /\
      (forall c q, c <> Rhob -> holds L c p q -> B (c, vox3 (size_at L p) q) = F c (gplace L p q)) /\ ghosts_ok L F p B GhostTangB /\
      ampere V (l_n L AX (AT AX p)) (l_n L AY (AT AY p)) (l_n L AZ (AT AZ p)) A (mt p) k B (W2 (num p))).
    { intros p Hp. destruct (Pos p Hp) as (X & Y & Z_), (Fit p Hp) as [F1 F2]. destruct (Hp' p Hp) as (Gl & Gf & Rn).
      eapply advance_e_spec in Rn; try eassumption. destruct Rn as (B & Hb & Am). exists B. split; [exact Hb|].
      destruct (near_but GhostTangB W W1 p (Gh p) B eq_refl Hp HF Hr) as [N1 N2]; [|exact Gl|exact Hb|split; [exact N1|split; [exact N2|exact Am]]].
      intros a t c q Ht Hq. specialize (Gf a t c q Ht Hq). destruct (beside L a (AT a p) t) eqn:E; [exact Gf|]. apply Gf. exact (Hw GhostTangB eq_refl p a t c q Hp Ht E Hq). }
    split.
    + intros c p q Nc Hp Hq. rewrite <- (patch_other p (W2 (num p)) c _ Nc). destruct (K p Hp) as (B & Hb & B1 & B2 & Am).
      apply (rank_ampere L F A gm k p (mt p) (Sm p Hp) (patch p B) (patch_holds p _ Hp B1)); [| |exact Hq].
      * intros a t c' q' Ht Hq'. rewrite patch_other; [exact (B2 a t c' q' Ht Hq')|]. exact (ghost_not_rhob _ _ _ (proj1 Hq')).
      * destruct Am as (O & K'). split; [|exact K']. intros c' v Hc. specialize (O c' v Hc). destruct c'; try exact O. reflexivity.
    + intros p v Hp. destruct (K p Hp) as (B & Hb & _ & _ & (O & _)). rewrite O by (cbn; intuition discriminate). destruct Hb as [_ Hb]. apply Hb.
      intros Hin. apply in_map_iff in Hin. destruct Hin as ([[c' v'] x] & E & Hin). cbn [fst] in E. injection E as -> ->. destruct (Hp' p Hp) as ((_ & Gl) & _). apply Gl in Hin.
      unfold ghosts_of, ghost_tang_b in Hin. intuition discriminate.
Qed.
End Rank.
