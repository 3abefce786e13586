(* A sweep with blocks of lanes has no outcome that the scalar sweep has not. *)
From Coq Require Import ZArith List Bool Permutation Lia.
From Verif Require Import SortModel SweepModel SweepProofs FieldProofs VecFieldModel.
Import ListNotations.
Open Scope Z_scope.
Ltac Zify.zify_post_hook ::= idtac.

Section VSim.
Context {loc val op lane : Type}.
Variable loc_eqb : loc -> loc -> bool.
Hypothesis loc_eqb_spec : forall a b, reflect (a = b) (loc_eqb a b).
Variable exec : op -> (loc -> val) -> list (loc * val).
Variable host : op -> bool.
Variable puts : list (lane -> (loc -> val) -> list (loc * val)).
Local Notation stores := (SweepModel.stores loc val loc_eqb).
Local Notation mem := (loc -> val).
Local Notation racy := (SweepModel.racy loc val op loc_eqb exec host).
Local Notation vracy := (VecFieldModel.vracy loc val op lane loc_eqb exec host puts).
Local Notation vop := (VecFieldModel.vop op lane).

Lemma stores_app (a b : list (loc * val)) m : stores (a ++ b) m = stores b (stores a m).
Proof. unfold SweepModel.stores. apply fold_left_app. Qed.

Lemma stores_ext ws (m m' : mem) : (forall l, m l = m' l) -> forall l, stores ws m l = stores ws m' l.
Proof.
  revert m m'. induction ws as [|[l0 v] ws IH]; intros m m' H; [exact H|].
  intros l. apply IH. intros l'. unfold store. cbn. destruct (loc_eqb l' l0); auto.
Qed.

Lemma stores_found ws l v m : NoDup (map fst ws) -> In (l, v) ws -> stores ws m l = v.
Proof.
  revert m. induction ws as [|[l0 v0] ws IH]; intros m Hn Hi; [destruct Hi|].
  cbn [map fst] in Hn. inversion_clear Hn as [|? ? Hl Hn']. destruct Hi as [He|Hi].
  - injection He as -> ->.
    change (stores ws (store loc val loc_eqb m l v) l = v).
    rewrite (stores_notin loc val loc_eqb loc_eqb_spec) by exact Hl.
    unfold store. destruct (loc_eqb_spec l l); congruence.
  - apply (IH (store loc val loc_eqb m l0 v0)); assumption.
Qed.

Lemma stores_perm ws ws' m : NoDup (map fst ws) -> Permutation ws ws' ->
  forall l, stores ws m l = stores ws' m l.
Proof.
  intros Hn HP l.
  assert (Hn' : NoDup (map fst ws')) by (eapply Permutation_NoDup; [apply Permutation_map; exact HP|exact Hn]).
  destruct (in_dec (fun a b => reflect_dec _ _ (loc_eqb_spec a b)) l (map fst ws)) as [Hi|Hi].
  - apply in_map_iff in Hi. destruct Hi as ([l' v] & Hl & Hi). cbn in Hl. subst l'.
    rewrite (stores_found ws l v) by assumption. symmetry. apply stores_found; [assumption|].
    eapply Permutation_in; eassumption.
  - rewrite !(stores_notin loc val loc_eqb loc_eqb_spec); [reflexivity| |exact Hi].
    intros H. apply Hi. eapply Permutation_in; [apply Permutation_sym, Permutation_map; exact HP|exact H].
Qed.

Lemma flat_map_swap {X Y T} (f : X -> Y -> list T) xs ys :
  Permutation (flat_map (fun x => flat_map (fun y => f x y) ys) xs)
    (flat_map (fun y => flat_map (fun x => f x y) xs) ys).
Proof.
  induction xs as [|x xs IH]; cbn [flat_map].
  - induction ys as [|y ys IHy]; [constructor|]. cbn [flat_map app]. exact IHy.
  - rewrite IH. clear IH. induction ys as [|y ys IHy]; [constructor|]. cbn [flat_map].
    rewrite <- IHy. rewrite <- !app_assoc. apply Permutation_app_head.
    rewrite !app_assoc. apply Permutation_app_tail. apply Permutation_app_comm.
Qed.

(* What a lane stores: written back values wb and the stores of the scalar operations. *)
Variable wb : lane -> list loc.
Variable scal : lane -> list op.
Variable owner : loc -> lane.
Hypothesis lane_stores : forall ln s, Permutation (flat_map (fun p => p ln s) puts)
  (map (fun l => (l, s l)) (wb ln) ++ flat_map (fun o => exec o s) (scal ln)).
Hypothesis lane_nodup : forall ln s, NoDup (map fst (flat_map (fun p => p ln s) puts)).
Hypothesis lane_owner : forall ln s w, In w (flat_map (fun p => p ln s) puts) -> owner (fst w) = ln.
Hypothesis lane_host : forall ln o, In o (scal ln) -> host o = false.

(* Locations that nothing but write-backs stores to. *)
Variable const : loc -> Prop.
Definition op_ok (o : op) : Prop := forall s w, In w (exec o s) -> ~ const (fst w).
Definition vop_ok (v : vop) : Prop :=
  match v with
  | Scal o => op_ok o
  | Block ls => NoDup ls /\ forall ln, In ln ls ->
      (forall l, In l (wb ln) -> const l) /\ (forall o, In o (scal ln) -> op_ok o)
  end.

Definition expand1 (v : vop) : list op := match v with Scal o => [o] | Block ls => flat_map scal ls end.
Definition expand (vs : list vop) : list op := flat_map expand1 vs.

Definition cov (hs gs : list mem) : Prop :=
  forall m, In m hs -> exists g, In g gs /\ forall l, m l = g l.


Lemma cov_step hs gs m g m' g' : cov (m :: hs) (g :: gs) -> (forall l, m' l = g' l) ->
  cov (m' :: m :: hs) (g' :: g :: gs).
Proof.
  intros H He m0 [->|Hi]; [exists g'; split; [left; reflexivity|exact He]|].
  destruct (H m0 Hi) as (g0 & Hg & Hl). exists g0. split; [right; exact Hg|exact Hl].
Qed.
Lemma cov_incl hs gs m' g' gs' : cov hs gs -> incl gs (g' :: gs') -> (forall l, m' l = g' l) ->
  cov (m' :: hs) (g' :: gs').
Proof.
  intros H Hi He m0 [->|Hm]; [exists g'; split; [left; reflexivity|exact He]|].
  destruct (H m0 Hm) as (g0 & Hg & Hl). exists g0. split; [apply Hi, Hg|exact Hl].
Qed.

(* Operations all reading through s, in turn: the memories passed. *)
Fixpoint hist (os : list op) (s : mem) (g : mem) (gs : list mem) : list mem :=
  match os with [] => gs | o :: os => hist os s (stores (exec o s) g) (g :: gs) end.

Lemma hist_incl os s : forall g gs, incl (g :: gs) (stores (flat_map (fun o => exec o s) os) g :: hist os s g gs).
Proof.
  induction os as [|o os IH]; intros g gs; cbn [hist flat_map]; [apply incl_refl|].
  rewrite stores_app. intros x Hx. apply IH. right. exact Hx.
Qed.

Lemma racy_lane os s : forall gs gh g b r hs',
  (forall l, exists m', In m' (g :: gs) /\ s l = m' l) ->
  (forall o, In o os -> host o = false) ->
  racy (hist os s g gs) (hist os s g gh) (stores (flat_map (fun o => exec o s) os) g) b r hs' ->
  racy gs gh g (os ++ b) r hs'.
Proof.
  induction os as [|o os IH]; intros gs gh g b r hs' Hs Hh H; cbn [app]; [exact H|].
  apply racy_cons with (s := s).
  - rewrite (Hh o) by (left; reflexivity). exact Hs.
  - apply IH.
    + intros l. destruct (Hs l) as (m' & Hm & He). exists m'. split; [right; exact Hm|exact He].
    + intros o' Ho'. apply Hh. right. exact Ho'.
    + cbn [hist flat_map] in H. rewrite stores_app in H. exact H.
Qed.

Definition scal_stores (qs : list (lane * mem)) : list (loc * val) :=
  flat_map (fun q => flat_map (fun o => exec o (snd q)) (scal (fst q))) qs.

Lemma racy_block qs : forall gs gh g,
  (forall q l, In q qs -> exists m', In m' (g :: gs) /\ snd q l = m' l) ->
  exists gs' gh', incl (g :: gs) (stores (scal_stores qs) g :: gs') /\
    incl (g :: gh) (stores (scal_stores qs) g :: gh') /\
    forall b r hs', racy gs' gh' (stores (scal_stores qs) g) b r hs' ->
      racy gs gh g (flat_map scal (map fst qs) ++ b) r hs'.
Proof.
  induction qs as [|[ln s] qs IH]; intros gs gh g Hs.
  - exists gs, gh. split; [apply incl_refl|]. split; [apply incl_refl|]. intros b r hs' H. exact H.
  - cbn [scal_stores flat_map fst snd map]. rewrite stores_app.
    set (g1 := stores (flat_map (fun o => exec o s) (scal ln)) g).
    pose proof (hist_incl (scal ln) s g gs) as I1. pose proof (hist_incl (scal ln) s g gh) as I2.
    fold g1 in I1, I2.
    destruct (IH (hist (scal ln) s g gs) (hist (scal ln) s g gh) g1) as (gs' & gh' & J1 & J2 & K).
    { intros q l Hq. destruct (Hs q l (or_intror Hq)) as (m' & Hm & He). exists m'. split; [apply I1, Hm|exact He]. }
    exists gs', gh'. split; [exact (incl_tran I1 J1)|]. split; [exact (incl_tran I2 J2)|].
    intros b r hs' H. rewrite <- app_assoc. apply racy_lane with (s := s).
    + intros l. apply (Hs (ln, s) l (or_introl eq_refl)).
    + apply lane_host.
    + apply K. exact H.
Qed.

Definition lane_flat (qs : list (lane * mem)) : list (loc * val) :=
  flat_map (fun q => flat_map (fun p => p (fst q) (snd q)) puts) qs.

Lemma block_flat qs : Permutation (block_stores loc val lane puts qs) (lane_flat qs).
Proof. unfold block_stores, lane_flat. apply flat_map_swap. Qed.

Lemma lane_flat_nodup qs : NoDup (map fst qs) -> NoDup (map fst (lane_flat qs)).
Proof.
  induction qs as [|[ln s] qs IH]; intros H; cbn [lane_flat flat_map map]; [constructor|].
  cbn [map fst] in H. inversion_clear H as [|? ? Hn Hd]. rewrite map_app.
  apply nodup_app; [apply lane_nodup|apply IH; exact Hd|].
  cbn [fst snd]. intros l Hl Hl'. apply in_map_iff in Hl. destruct Hl as (w & <- & Hw).
  apply in_map_iff in Hl'. destruct Hl' as (w' & He & Hw'). apply in_flat_map in Hw'.
  destruct Hw' as (q & Hq & Hw'). apply Hn. apply lane_owner in Hw. apply lane_owner in Hw'.
  rewrite <- Hw, <- He, Hw'. apply in_map. exact Hq.
Qed.

Lemma stores_back ws (m : mem) : (forall w, In w ws -> m (fst w) = snd w) -> forall l, stores ws m l = m l.
Proof.
  intros H l. destruct (in_dec (fun a b => reflect_dec _ _ (loc_eqb_spec a b)) l (map fst ws)) as [Hi|Hi].
  - revert m H Hi. induction ws as [|[l0 v0] ws IH]; intros m H Hi; [destruct Hi|].
    change (stores ws (store loc val loc_eqb m l0 v0) l = m l).
    assert (E : forall l', store loc val loc_eqb m l0 v0 l' = m l').
    { intros l'. unfold store. destruct (loc_eqb_spec l' l0); [|reflexivity]. subst l'.
      symmetry. exact (H (l0, v0) (or_introl eq_refl)). }
    rewrite (stores_ext ws _ m E). clear E.
    destruct (in_dec (fun a b => reflect_dec _ _ (loc_eqb_spec a b)) l (map fst ws)) as [Hi'|Hi'].
    + apply IH; [|exact Hi']. intros w Hw. apply H. right. exact Hw.
    + apply (stores_notin loc val loc_eqb loc_eqb_spec). exact Hi'.
  - apply (stores_notin loc val loc_eqb loc_eqb_spec). exact Hi.
Qed.

Lemma const_exec os s (m : mem) l : const l -> (forall o, In o os -> op_ok o) ->
  stores (flat_map (fun o => exec o s) os) m l = m l.
Proof.
  intros Hc Ho. apply (stores_notin loc val loc_eqb loc_eqb_spec). intros Hi.
  apply in_map_iff in Hi. destruct Hi as (w & <- & Hw). apply in_flat_map in Hw.
  destruct Hw as (o & Hio & Hw). exact (Ho o Hio s w Hw Hc).
Qed.

Lemma lanes_stores qs : forall m g : mem, (forall l, m l = g l) ->
  (forall q, In q qs -> (forall l, In l (wb (fst q)) -> const l /\ snd q l = m l) /\
                        (forall o, In o (scal (fst q)) -> op_ok o)) ->
  forall l, stores (lane_flat qs) m l = stores (scal_stores qs) g l.
Proof.
  induction qs as [|[ln s] qs IH]; intros m g He Hq; [exact He|].
  cbn [lane_flat scal_stores flat_map fst snd]. rewrite !stores_app.
  destruct (Hq (ln, s) (or_introl eq_refl)) as [Hw Ho]. cbn [fst snd] in Hw, Ho.
  assert (E : forall l, stores (flat_map (fun p => p ln s) puts) m l =
                        stores (flat_map (fun o => exec o s) (scal ln)) g l).
  { intros l. rewrite (stores_perm _ _ m (lane_nodup ln s) (lane_stores ln s)). rewrite stores_app.
    apply stores_ext. intros l'. rewrite stores_back; [apply He|].
    intros w Hi. apply in_map_iff in Hi. destruct Hi as (l0 & <- & Hi). cbn. symmetry. apply Hw. exact Hi. }
  apply IH; [exact E|]. intros q Hiq. destruct (Hq q (or_intror Hiq)) as [Hw' Ho']. split; [|exact Ho'].
  intros l Hl. destruct (Hw' l Hl) as [Hc Hs]. split; [exact Hc|]. rewrite Hs, E, He.
  symmetry. apply const_exec; assumption.
Qed.

Lemma block_mem qs (m g : mem) : NoDup (map fst qs) -> (forall l, m l = g l) ->
  (forall q, In q qs -> (forall l, In l (wb (fst q)) -> const l /\ snd q l = m l) /\
                        (forall o, In o (scal (fst q)) -> op_ok o)) ->
  forall l, stores (block_stores loc val lane puts qs) m l = stores (scal_stores qs) g l.
Proof.
  intros Hn He Hq l. rewrite (stores_perm _ (lane_flat qs)).
  - apply lanes_stores; assumption.
  - eapply Permutation_NoDup; [apply Permutation_map, Permutation_sym, block_flat|].
    apply lane_flat_nodup. exact Hn.
  - apply block_flat.
Qed.

Lemma scal_const qs (g : mem) l : const l -> (forall q, In q qs -> forall o, In o (scal (fst q)) -> op_ok o) ->
  stores (scal_stores qs) g l = g l.
Proof.
  intros Hc Ho. apply (stores_notin loc val loc_eqb loc_eqb_spec). intros Hi.
  apply in_map_iff in Hi. destruct Hi as (w & <- & Hw). apply in_flat_map in Hw.
  destruct Hw as (q & Hq & Hw). apply in_flat_map in Hw. destruct Hw as (o & Hio & Hw).
  exact (Ho q Hq o Hio (snd q) w Hw Hc).
Qed.

Lemma vracy_sim hs hh m ops r hs1 : vracy hs hh m ops r hs1 -> Forall vop_ok ops ->
  (forall l m0, const l -> In m0 hs -> m0 l = m l) ->
  forall gs gh g, (forall l, m l = g l) -> cov (m :: hs) (g :: gs) -> cov (m :: hh) (g :: gh) ->
  (forall l m0, const l -> In m0 hs1 -> m0 l = r l) /\
  exists r' gs1, racy gs gh g (expand ops) r' gs1 /\ (forall l, r l = r' l) /\ cov (r :: hs1) (r' :: gs1).
Proof.
  induction 1 as [hs hh m|hs hh m o ops s r hs1 Hs Hr IH|hs hh m qs ops r hs1 Hs Hr IH];
    intros Hok Hc gs gh g He C1 C2.
  - split; [exact Hc|]. exists g, gs. split; [constructor|]. split; assumption.
  - inversion_clear Hok as [|? ? Ho Hok'].
    assert (E : forall l, stores (exec o s) m l = stores (exec o s) g l) by (apply stores_ext; exact He).
    assert (K : forall l, const l -> stores (exec o s) m l = m l).
    { intros l Hl. apply (stores_notin loc val loc_eqb loc_eqb_spec). intros Hi.
      apply in_map_iff in Hi. destruct Hi as (w & <- & Hw). exact (Ho s w Hw Hl). }
    destruct (IH Hok') with (gs := g :: gs) (gh := g :: gh) (g := stores (exec o s) g) as [Q (r' & gs1 & Hr' & Hl & Hcv)].
    + intros l m0 Hl [<-|Hi]; rewrite (K l Hl); [reflexivity|apply Hc; assumption].
    + exact E.
    + apply cov_step; [exact C1|exact E].
    + apply cov_step; [exact C2|exact E].
    + split; [exact Q|]. exists r', gs1. split; [|split; assumption].
      change (racy gs gh g (o :: expand ops) r' gs1). apply racy_cons with (s := s); [|exact Hr'].
      intros l. destruct (Hs l) as (m' & Hm & Hsl). destruct (host o).
      * destruct (C2 m' Hm) as (g0 & Hg & Hgl). exists g0. split; [exact Hg|congruence].
      * destruct (C1 m' Hm) as (g0 & Hg & Hgl). exists g0. split; [exact Hg|congruence].
  - inversion_clear Hok as [|? ? Ho Hok']. destruct Ho as [Hn Hlanes].
    assert (Hq : forall q, In q qs -> (forall l, In l (wb (fst q)) -> const l /\ snd q l = m l) /\
                        (forall o, In o (scal (fst q)) -> op_ok o)).
    { intros q Hi. destruct (Hlanes (fst q) (in_map fst _ _ Hi)) as [Hw Ho]. split; [|exact Ho].
      intros l Hl. split; [apply Hw, Hl|]. destruct (Hs q l Hi) as (m' & [<-|Hm] & ->); [reflexivity|].
      apply Hc; [apply Hw, Hl|exact Hm]. }
    destruct (racy_block qs gs gh g) as (gs' & gh' & I1 & I2 & K).
    { intros q l Hi. destruct (Hs q l Hi) as (m' & Hm & Hsl). destruct (C1 m' Hm) as (g0 & Hg & Hgl).
      exists g0. split; [exact Hg|congruence]. }
    pose proof (block_mem qs m g Hn He Hq) as E.
    destruct (IH Hok') with (gs := gs') (gh := gh') (g := stores (scal_stores qs) g) as [Q (r' & gs1 & Hr' & Hl & Hcv)].
    + intros l m0 Hl Hi. rewrite E, scal_const; [|exact Hl|intros q Hiq; apply Hq; exact Hiq]. rewrite <- He.
      destruct Hi as [<-|Hi]; [reflexivity|apply Hc; assumption].
    + exact E.
    + eapply cov_incl; [exact C1|exact I1|exact E].
    + eapply cov_incl; [exact C2|exact I2|exact E].
    + split; [exact Q|]. exists r', gs1. split; [|split; assumption].
      cbn [expand flat_map expand1]. apply K. exact Hr'.
Qed.

Lemma expand_perm a b : Permutation a b -> Permutation (expand a) (expand b).
Proof. apply Permutation_flat_map. Qed.

Lemma forall_perm (Q : vop -> Prop) a b : Permutation a b -> Forall Q a -> Forall Q b.
Proof. intros HP H. rewrite Forall_forall in *. intros x Hx. apply H. eapply Permutation_in; [symmetry; exact HP|exact Hx]. Qed.

Lemma cov_refl hs : cov hs hs.
Proof. intros m Hm. exists m. split; [exact Hm|reflexivity]. Qed.

Lemma vphase_sim ops m r : vphase_run loc val op lane loc_eqb exec host puts ops m r -> Forall vop_ok ops ->
  exists r', phase_run loc val op loc_eqb exec host (expand ops) m r' /\ forall l, r l = r' l.
Proof.
  intros (ops' & hs' & HP & Hr) Hok.
  destruct (vracy_sim _ _ _ _ _ _ Hr (forall_perm _ _ _ HP Hok)) with (gs := @nil mem) (gh := @nil mem) (g := m)
    as [_ (r' & gs1 & Hr' & Hl & _)]; try (apply cov_refl || reflexivity).
  { intros l m0 _ []. }
  exists r'. split; [|exact Hl]. exists (expand ops'), gs1. split; [apply expand_perm, HP|exact Hr'].
Qed.

Lemma vsplit_sim Q G H m r : vsplit_run loc val op lane loc_eqb exec host puts Q G H m r ->
  Forall vop_ok Q -> Forall vop_ok G -> Forall vop_ok H ->
  exists r', split_run loc val op loc_eqb exec host (expand Q) (expand G) (expand H) m r' /\ forall l, r l = r' l.
Proof.
  intros (Q1 & Q2 & L1 & L2 & m1 & hs1 & hs2 & HQ & P1 & R1 & P2 & R2) OQ OG OH.
  pose proof (forall_perm _ _ _ HQ OQ) as OQ'. apply Forall_app in OQ'. destruct OQ' as [O1 O2].
  assert (OL1 : Forall vop_ok L1)
    by (apply (forall_perm _ (Q1 ++ G)); [symmetry; exact P1|apply Forall_app; split; assumption]).
  assert (OL2 : Forall vop_ok L2)
    by (apply (forall_perm _ (Q2 ++ H)); [symmetry; exact P2|apply Forall_app; split; assumption]).
  destruct (vracy_sim _ _ _ _ _ _ R1 OL1) with (gs := @nil mem) (gh := @nil mem) (g := m)
    as [C1 (g1 & gs1 & Hr1 & Hl1 & Hc1)]; try (apply cov_refl || reflexivity).
  { intros l m0 _ []. }
  destruct (vracy_sim _ _ _ _ _ _ R2 OL2 C1) with (gs := gs1) (gh := @nil mem) (g := g1)
    as [_ (r' & gs2 & Hr2 & Hl2 & _)]; [exact Hl1|exact Hc1| |].
  { intros m0 [<-|[]]. exists g1. split; [left; reflexivity|exact Hl1]. }
  exists r'. split; [|exact Hl2].
  exists (expand Q1), (expand Q2), (expand L1), (expand L2), g1, gs1, gs2.
  repeat split; try assumption.
  - unfold expand. rewrite <- flat_map_app. apply expand_perm, HQ.
  - unfold expand at 2 3. rewrite <- flat_map_app. apply expand_perm, P1.
  - unfold expand at 2 3. rewrite <- flat_map_app. apply expand_perm, P2.
Qed.
End VSim.

(* Runs exist: every lane may read the memory as it is when the block starts. *)
Section VExist.
Context {loc val op lane : Type}.
Variable loc_eqb : loc -> loc -> bool.
Variable exec : op -> (loc -> val) -> list (loc * val).
Variable host : op -> bool.
Variable puts : list (lane -> (loc -> val) -> list (loc * val)).

Lemma vracy_exists ops : forall hs hh m, exists r hs', vracy loc val op lane loc_eqb exec host puts hs hh m ops r hs'.
Proof.
  induction ops as [|[o|ls] ops IH]; intros hs hh m.
  - exists m, hs. constructor.
  - destruct (IH (m :: hs) (m :: hh) (stores loc val loc_eqb (exec o m) m)) as (r & hs' & H).
    exists r, hs'. econstructor; [|exact H]. intros l. exists m. split; [left; reflexivity|reflexivity].
  - destruct (IH (m :: hs) (m :: hh) (stores loc val loc_eqb
      (block_stores loc val lane puts (map (fun ln => (ln, m)) ls)) m)) as (r & hs' & H).
    exists r, hs'. replace ls with (map fst (map (fun ln => (ln, m)) ls)) at 1
      by (rewrite map_map; cbn; apply map_id).
    econstructor; [|exact H]. intros q l Hq. apply in_map_iff in Hq. destruct Hq as (ln & <- & _).
    exists m. split; [left; reflexivity|reflexivity].
Qed.

Lemma vphase_exists ops m : exists r, vphase_run loc val op lane loc_eqb exec host puts ops m r.
Proof.
  destruct (vracy_exists ops [] [] m) as (r & hs' & H). exists r, ops, hs'. split; [reflexivity|exact H].
Qed.

Lemma vsplit_exists Q G H m : exists r, vsplit_run loc val op lane loc_eqb exec host puts Q G H m r.
Proof.
  destruct (vracy_exists (Q ++ G) [] [] m) as (m1 & hs1 & H1).
  destruct (vracy_exists H hs1 [] m1) as (r & hs2 & H2).
  exists r, Q, [], (Q ++ G), H, m1, hs1, hs2. rewrite app_nil_r. repeat split; try reflexivity; assumption.
Qed.
End VExist.
