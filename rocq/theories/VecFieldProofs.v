From Coq Require Import ZArith List Bool Permutation Lia Reals Lra.
From Verif Require Import DistributeModel VoxelModel VoxelProofs SortModel SweepModel SweepProofs FieldModel FieldSpec
  FieldProofs FieldSweeps FieldFinal FieldBoundaryModel FieldCoefs VecFieldModel VecSweepProofs.
Import ListNotations.
Open Scope Z_scope.
Ltac Zify.zify_post_hook ::= idtac.

(* ---- the passes of a vector loop ---- *)
Lemma passes_concat {T} (W : nat) : forall n (l : list T), length l = (n * W)%nat -> concat (passes n W l) = l.
Proof.
  induction n as [|n IH]; intros l H; cbn [passes concat].
  - destruct l; [reflexivity|discriminate H].
  - rewrite IH; [apply firstn_skipn|]. rewrite skipn_length. lia.
Qed.

Lemma blocks_concat {T} W c (l : list T) : (0 < W)%nat -> length l = (c * W)%nat -> concat (blocks W l) = l.
Proof.
  intros HW H. unfold blocks. rewrite H, Nat.div_mul by lia. apply passes_concat. exact H.
Qed.

Lemma passes_part {T} (W : nat) : forall n (l : list T) b, In b (passes n W l) -> exists a c, l = a ++ b ++ c.
Proof.
  induction n as [|n IH]; intros l b H; cbn [passes] in H; [destruct H|].
  destruct H as [<-|H]; [exists [], (skipn W l); symmetry; apply firstn_skipn|].
  destruct (IH _ _ H) as (a & c & E). exists (firstn W l ++ a), c. rewrite <- app_assoc, <- E.
  symmetry. apply firstn_skipn.
Qed.

Lemma nodup_mid {T} (a b c : list T) : NoDup (a ++ b ++ c) -> NoDup b.
Proof.
  intros H. induction a as [|x a IH]; [|inversion_clear H; auto].
  cbn [app] in H. induction b as [|y b IHb]; [constructor|]. cbn [app] in H. inversion_clear H as [|? ? Hy Hn].
  constructor; [|auto]. intros Hi. apply Hy. apply in_or_app. left. exact Hi.
Qed.

Lemma nodup_flat_part {S T} (f : S -> list T) l a : NoDup (flat_map f l) -> In a l -> NoDup (f a).
Proof.
  intros H Ha. apply in_split in Ha. destruct Ha as (l1 & l2 & ->).
  rewrite flat_map_app in H. cbn [flat_map] in H. exact (nodup_mid _ _ _ H).
Qed.

Lemma walk_length next n : forall s, length (walk next n s) = n.
Proof. induction n as [|n IH]; intros s; cbn [walk length]; [reflexivity|rewrite IH; reflexivity]. Qed.

(* A pipeline is given a multiple of 16 voxels. *)
Lemma job_length c next nx ny nz x0 x1 y0 y1 z0 z1 p P : p < P ->
  exists d, length (job_walk c next nx ny nz x0 x1 y0 y1 z0 z1 16 p P) = (d * 16)%nat.
Proof.
  intros Hp. unfold job_walk, distribute_voxels. cbv zeta. rewrite walk_length.
  destruct (Z.ltb_spec p P); [|lia].
  set (a := split_point _ _ _ _). set (b := split_point _ _ _ _).
  exists (Z.to_nat (a - b)). lia.
Qed.

Section VField.
Variable V : Type.
Variables (nx ny nz : Z) (contract : bool) (P : Z).
Hypothesis Hx : 1 <= nx. Hypothesis Hy : 1 <= ny. Hypothesis Hz : 1 <= nz.
Hypothesis Hn : nx * ny * nz < 2 ^ 31.
Hypothesis HP : 1 <= P < 2 ^ 31.
Variable W : nat.
Hypothesis HW : (0 < W)%nat.
Hypothesis HW16 : Nat.divide W 16.
Notation vox := (voxel nx ny nz).

Lemma expand_scal {op lane} (scal : lane -> list op) (l : list op) : expand scal (map Scal l) = l.
Proof. induction l as [|o l IH]; [reflexivity|]. cbn [map expand flat_map expand1 app]. f_equal. exact IH. Qed.

Lemma expand_blocks {op lane} (scal : lane -> list op) ls : expand scal (map Block ls) = flat_map scal (concat ls).
Proof.
  induction ls as [|b ls IH]; [reflexivity|]. cbn [map expand flat_map expand1 concat].
  rewrite flat_map_app. f_equal. exact IH.
Qed.

Lemma vpipelines_expand lo body :
  expand (fun v => pipe_ops V (body v)) (vpipelines V nx ny nz contract P W lo body) =
  pipe_ops V (pipelines V nx ny nz contract P lo body).
Proof.
  unfold vpipelines, pipelines. induction (ranks P) as [|p l IH]; [reflexivity|].
  cbn [flat_map]. unfold expand, pipe_ops in *. rewrite flat_map_app, map_app, IH. f_equal. clear IH.
  set (js := job_walk _ _ _ _ _ _ _ _ _ _ _ _ _ _).
  assert (E : forall f : Z -> list (fop V), flat_map (fun s : vstate => let '(v, _, _, _) := s in f v) js =
     flat_map f (map (fun s : vstate => let '(v, _, _, _) := s in v) js)).
  { intros f. rewrite flat_map_concat_map, (flat_map_concat_map f), map_map. f_equal. apply map_ext.
    intros [[[v x] y] z]. reflexivity. }
  rewrite E. destruct (Z.ltb_spec p P) as [H|H].
  - change (flat_map (expand1 (fun v => map (pair false) (body v)))) with (expand (fun v => map (pair false) (body v))).
    rewrite (expand_blocks (fun v => map (pair false) (body v))).
    destruct (job_length contract (next_stencil nx ny nz lo nx lo ny) nx ny nz lo nx lo ny lo nz p P H) as (d & Hd).
    destruct HW16 as (e & He). fold js in Hd.
    rewrite (blocks_concat W (d * e)); [|exact HW|rewrite map_length, Hd, <- Nat.mul_assoc, <- He; reflexivity].
    rewrite !flat_map_concat_map, concat_map, (map_map body). reflexivity.
  - exact (expand_scal (fun v => map (pair false) (body v)) _).
Qed.

Lemma visits_nodup lo : lo = 1 \/ lo = 2 -> NoDup (visits_of nx ny nz contract P lo) /\
  (forall v x y z, In (v, x, y, z) (visits_of nx ny nz contract P lo) <->
     (lo <= x <= nx /\ lo <= y <= ny /\ lo <= z <= nz /\ v = vox x y z)).
Proof.
  intros Hlo. apply stencil_cover; try lia.
  assert (0 <= nx - lo + 1 <= nx) by lia. assert (0 <= ny - lo + 1 <= ny) by lia.
  assert (0 <= nz - lo + 1 <= nz) by lia.
  assert ((nx - lo + 1) * (ny - lo + 1) <= nx * ny) by (apply Z.mul_le_mono_nonneg; lia).
  assert (0 <= (nx - lo + 1) * (ny - lo + 1)) by (apply Z.mul_nonneg_nonneg; lia).
  assert ((nx - lo + 1) * (ny - lo + 1) * (nz - lo + 1) <= nx * ny * nz) by (apply Z.mul_le_mono_nonneg; lia).
  lia.
Qed.

Definition in_pipe (lo v : Z) : Prop :=
  exists x y z, lo <= x <= nx /\ lo <= y <= ny /\ lo <= z <= nz /\ v = vox x y z.

Lemma vpipelines_in lo body w : lo = 1 \/ lo = 2 -> In w (vpipelines V nx ny nz contract P W lo body) ->
  (exists ls, w = Block ls /\ NoDup ls /\ forall v, In v ls -> in_pipe lo v) \/
  (exists o v, w = Scal (false, o) /\ in_pipe lo v /\ In o (body v)).
Proof.
  intros Hlo H. unfold vpipelines in H. apply in_flat_map in H. destruct H as (p & Hp & H). cbv zeta in H.
  destruct (visits_nodup lo Hlo) as [Hnd Hin]. unfold visits_of in Hnd, Hin.
  pose proof (nodup_flat_part _ _ p Hnd Hp) as Hj. cbv beta in Hj.
  set (js := job_walk _ _ _ _ _ _ _ _ _ _ _ _ _ _) in *.
  assert (Hjs : forall v x y z, In (v, x, y, z) js -> lo <= x <= nx /\ lo <= y <= ny /\ lo <= z <= nz /\ v = vox x y z).
  { intros v x y z Hs. apply Hin. apply in_flat_map. exists p. split; assumption. }
  clear Hnd Hin. clearbody js.
  assert (Hp0 : forall v, In v (map (fun s : vstate => let '(v, _, _, _) := s in v) js) -> in_pipe lo v).
  { intros v Hv. apply in_map_iff in Hv. destruct Hv as ([[[v' x] y] z] & <- & Hs). exists x, y, z.
    apply Hjs. exact Hs. }
  destruct (p <? P).
  - left. apply in_map_iff in H. destruct H as (ls & <- & Hl). exists ls. split; [reflexivity|].
    apply passes_part in Hl. destruct Hl as (a & c & E). split.
    + apply (nodup_mid a ls c). rewrite <- E. clear E Hp0 Hp.
      induction js as [|[[[v x] y] z] js IH]; [constructor|]. cbn [map]. inversion_clear Hj as [|? ? Hv Hj'].
      constructor; [|apply IH; [exact Hj'|intros; apply Hjs; right; assumption]].
      intros Hi. apply in_map_iff in Hi. destruct Hi as ([[[v' x'] y'] z'] & -> & Hi).
      pose proof (Hjs v x y z (or_introl eq_refl)) as (h1 & h2 & h3 & h4).
      pose proof (Hjs v x' y' z' (or_intror Hi)) as (g1 & g2 & g3 & g4).
      apply Hv. assert (E : (x, y, z) = (x', y', z')).
      { apply (voxel_inj nx ny nz); try lia; try (unfold in_mesh; lia). }
      injection E as -> -> ->. exact Hi.
    + intros v Hv. apply Hp0. rewrite E. apply in_or_app. right. apply in_or_app. left. exact Hv.
  - right. apply in_map_iff in H. destruct H as (o & <- & Ho). apply in_map_iff in Ho.
    destruct Ho as (o' & <- & Ho). apply in_flat_map in Ho. destruct Ho as (v & Hv & Ho).
    exists o', v. split; [reflexivity|]. split; [apply Hp0; exact Hv|exact Ho].
Qed.

(* ---- refinement for a kernel on this mesh ---- *)
Section Kernel.
Variable exec : top V -> (floc -> V) -> list (floc * V).
Variable puts : list (Z -> (floc -> V) -> list (floc * V)).
Variable wb : Z -> list floc.
Variable const : floc -> Prop.
Variable body : Z -> list (fop V).
Variable lo : Z.
Hypothesis Hlo : lo = 1 \/ lo = 2.
Hypothesis Hst : forall v s, Permutation (flat_map (fun p => p v s) puts)
  (map (fun l => (l, s l)) (wb v) ++ flat_map (fun o => exec o s) (pipe_ops V (body v))).
Hypothesis Hnd : forall v s, NoDup (map fst (flat_map (fun p => p v s) puts)).
Hypothesis Hown : forall v s w, In w (flat_map (fun p => p v s) puts) -> snd (fst w) = v.
Hypothesis Hwb : forall v l, in_pipe lo v -> In l (wb v) -> const l.
Hypothesis Hbody : forall v o b s w, In o (body v) -> In w (exec (b, o) s) -> ~ const (fst w).

Lemma pipe_ok : Forall (vop_ok exec wb (fun v => pipe_ops V (body v)) const) (vpipelines V nx ny nz contract P W lo body).
Proof.
  apply Forall_forall. intros w Hw. destruct (vpipelines_in lo body w Hlo Hw) as [(ls & -> & Hl & Hi)|(o & v & -> & Hv & Ho)].
  - split; [exact Hl|]. intros v Hv. split.
    + intros l Hll. exact (Hwb v l (Hi v Hv) Hll).
    + intros o Ho s w Hw'. apply in_map_iff in Ho. destruct Ho as (o' & <- & Ho). exact (Hbody v o' false s w Ho Hw').
  - intros s w Hw'. exact (Hbody v o false s w Ho Hw').
Qed.

Lemma scal_ok (l : list (top V)) : (forall o s w, In o l -> In w (exec o s) -> ~ const (fst w)) ->
  Forall (vop_ok exec wb (fun v => pipe_ops V (body v)) const) (vscal V l).
Proof.
  intros H. apply Forall_forall. intros w Hw. apply in_map_iff in Hw. destruct Hw as (o & <- & Ho).
  intros s w' Hw'. exact (H o s w' Ho Hw').
Qed.

Lemma body_host v o : In o (pipe_ops V (body v)) -> fst o = false.
Proof. intros H. apply in_map_iff in H. destruct H as (o' & <- & _). reflexivity. Qed.

Lemma vfree_refines rest m r :
  (forall o s w, In o (pipe_ops V rest) -> In w (exec o s) -> ~ const (fst w)) ->
  vphase_run floc V (top V) Z floc_eqb exec fst puts
    (vpipelines V nx ny nz contract P W lo body ++ vscal V (pipe_ops V rest)) m r ->
  exists r', phase_run floc V (top V) floc_eqb exec fst
    (pipe_ops V (pipelines V nx ny nz contract P lo body ++ rest)) m r' /\ forall l, r l = r' l.
Proof.
  intros Hr H.
  destruct (vphase_sim floc_eqb floc_eqb_spec exec fst puts wb (fun v => pipe_ops V (body v)) snd Hst Hnd Hown body_host
    const _ _ _ H) as (r' & H' & E).
  { apply Forall_app. split; [apply pipe_ok|apply scal_ok; exact Hr]. }
  exists r'. split; [|exact E]. unfold expand in H'. rewrite flat_map_app in H'.
  change (flat_map (expand1 (fun v => pipe_ops V (body v)))) with (expand (fun v => pipe_ops V (body v))) in H'.
  rewrite vpipelines_expand in H'. unfold vscal in H'. rewrite expand_scal in H'.
  unfold pipe_ops in *. rewrite map_app. exact H'.
Qed.

Lemma vghost_refines leftover exterior G m r :
  (forall o s w, In o (pipe_ops V leftover) -> In w (exec o s) -> ~ const (fst w)) ->
  (forall o s w, In o (host_ops V exterior) -> In w (exec o s) -> ~ const (fst w)) ->
  (forall o s w, In o (host_ops V (ghost_ops G)) -> In w (exec o s) -> ~ const (fst w)) ->
  vghost_run V exec puts (vpipelines V nx ny nz contract P W lo body) leftover exterior G m r ->
  exists r', split_run floc V (top V) floc_eqb exec fst
    (pipe_ops V (pipelines V nx ny nz contract P lo body ++ leftover)) (host_ops V (ghost_ops G)) (host_ops V exterior) m r' /\
    forall l, r l = r' l.
Proof.
  intros Hl He Hg H.
  destruct (vsplit_sim floc_eqb floc_eqb_spec exec fst puts wb (fun v => pipe_ops V (body v)) snd Hst Hnd Hown body_host
    const _ _ _ _ _ H) as (r' & H' & E).
  { apply Forall_app. split; [apply pipe_ok|apply scal_ok; exact Hl]. }
  { apply scal_ok. exact Hg. }
  { apply scal_ok. exact He. }
  exists r'. split; [|exact E]. unfold vscal in H'.
  rewrite !(expand_scal (fun v => pipe_ops V (body v))) in H'.
  replace (pipe_ops V (pipelines V nx ny nz contract P lo body ++ leftover))
    with (expand (fun v => pipe_ops V (body v)) (vpipelines V nx ny nz contract P W lo body ++ map Scal (pipe_ops V leftover)));
    [exact H'|].
  unfold expand. rewrite flat_map_app.
  change (flat_map (expand1 (fun v => pipe_ops V (body v)))) with (expand (fun v => pipe_ops V (body v))).
  rewrite vpipelines_expand, expand_scal. unfold pipe_ops. rewrite map_app. reflexivity.
Qed.
End Kernel.

Ltac vops_in H :=
  repeat match type of H with
  | In _ (_ ++ _) => apply in_app_or in H; destruct H as [H|H]
  | In _ (for_ _ _ _) => apply in_for in H; destruct H as (? & _ & H); cbv beta zeta in H
  | In _ (map _ _) => apply in_map_iff in H; destruct H as (? & <- & H)
  | In _ _ => cbn [In] in H
  | _ \/ _ => destruct H as [<-|H]
  | False => destruct H
  end.
(* goal: forall o s w, In o ops -> In w (exec o s) -> ~ const (fst w) *)
Ltac vtouch :=
  let o := fresh "o" in let s := fresh "s" in let w := fresh "w" in let H := fresh "H" in let Hw := fresh "Hw" in
  intros o s w H Hw; unfold pipe_ops, host_ops in H; vops_in H; cbn in Hw;
  repeat (destruct Hw as [<-|Hw]; [cbn; intuition discriminate|]); destruct Hw.

Lemma ghost_touch (exec : top V -> (floc -> V) -> list (floc * V)) (const : floc -> Prop) ok G :
  (forall b c v x s, exec (b, GHOST c v x) s = [((c, v), x)]) ->
  ghost_list ok G -> (forall c v, ok c v -> ~ const (c, v)) ->
  forall o s w, In o (host_ops V (ghost_ops G)) -> In w (exec o s) -> ~ const (fst w).
Proof.
  intros He [_ HG] Hc o s w Ho Hw. apply in_map_iff in Ho. destruct Ho as (o' & <- & Ho).
  apply in_map_iff in Ho. destruct Ho as ([[c v] x] & <- & Hi). cbn [fst snd] in Hw.
  rewrite He in Hw. destruct Hw as [<-|[]]. apply Hc. exact (HG c v x Hi).
Qed.

Section Instances.
Variable A : arith V.
Variable mt : mats V.
Variable k : coefs V.

Ltac own3 := intros v s w Hw; cbn in Hw; repeat (destruct Hw as [<-|Hw]; [reflexivity|]); destruct Hw.
Ltac nd3 := intros v s; cbn; repeat (constructor; [cbn; intuition congruence|]); constructor.

Lemma vadvance_b_sim m r : (forall a x y, a_sub A a (a_sub A x y) = a_add A a (a_sub A y x)) ->
  vadvance_b_run V A mt k nx ny nz contract P W m r ->
  exists r', advance_b_run V A mt k nx ny nz contract P m r' /\ forall l, r l = r' l.
Proof.
  intros HA H.
  apply (vfree_refines (texec V A mt k) (vb_puts V A k nx ny) (fun _ => []) (fun _ => False) (b_body V nx ny) 1);
    try (intros; tauto); try assumption; try lia.
  - intros v s. cbn. unfold v_fnms. rewrite !HA. reflexivity.
  - nd3.
  - own3.
Qed.


Definition saved_e (l : floc) : Prop := fst l = DivE \/ fst l = Rhob.
Definition saved_c (l : floc) : Prop := fst l = Rhob.
Definition saved_b (l : floc) : Prop := fst l = DivB /\ in_pipe 2 (snd l).

Lemma perm_e {T} (a b c d e f g h : T) : Permutation [a; b; c; d; e; f; g; h] [d; h; e; a; f; b; g; c].
Proof.
  apply (Permutation_cons_app [d; h; e] [f; b; g; c]). apply (Permutation_cons_app [d; h; e; f] [g; c]).
  apply (Permutation_cons_app [d; h; e; f; g] []). apply perm_skip. cbn.
  apply (Permutation_cons_app [h] [f; g]). apply (Permutation_cons_app [h] [g]). apply (Permutation_cons_app [h] []).
  reflexivity.
Qed.

Ltac body3 := let v := fresh "v" in let Ho := fresh "Ho" in let Hw := fresh "Hw" in
  intros v o b s w Ho Hw; cbn in Ho; repeat (destruct Ho as [<-|Ho];
    [cbn in Hw; repeat (destruct Hw as [<-|Hw]; [cbn; intuition discriminate|]); destruct Hw|]); destruct Ho.

Lemma vadvance_e_sim G m r : ghost_list (ghost_tang_b nx ny nz) G ->
  vadvance_e_run V A mt k nx ny nz contract P W G m r ->
  exists r', advance_e_run V A mt k nx ny nz contract P G m r' /\ forall l, r l = r' l.
Proof.
  intros HG H.
  apply (vghost_refines (texec V A mt k) (ve_puts V A mt k nx ny) (fun v => [(DivE, v); (Rhob, v)]) saved_e
    (e_body V nx ny UPDATE_EX UPDATE_EY UPDATE_EZ) 2); try assumption; try lia; unfold saved_e.
  - intros v s. apply perm_e.
  - nd3.
  - own3.
  - intros v l _ [<-|[<-|[]]]; cbn; tauto.
  - body3.
  - unfold advance_e_leftover. vtouch.
  - unfold advance_e_exterior. vtouch.
  - apply (ghost_touch (texec V A mt k) saved_e (ghost_tang_b nx ny nz) G); [reflexivity|exact HG|].
    unfold ghost_tang_b, saved_e. cbn. intuition congruence.
Qed.

Lemma vcurl_b_sim G m r : ghost_list (ghost_tang_b nx ny nz) G ->
  vcurl_b_run V A mt k nx ny nz contract P W G m r ->
  exists r', curl_b_run V A mt k nx ny nz contract P G m r' /\ forall l, r l = r' l.
Proof.
  intros HG H.
  apply (vghost_refines (texec V A mt k) (vcurl_puts V A mt k nx ny) (fun v => [(Rhob, v)]) saved_c
    (e_body V nx ny CURL_EX CURL_EY CURL_EZ) 2); try assumption; try lia; unfold saved_c.
  - intros v s. cbn. apply (Permutation_cons_app [_] [_; _]). apply (Permutation_cons_app [_] [_]).
    apply (Permutation_cons_app [_] []). reflexivity.
  - nd3.
  - own3.
  - intros v l _ [<-|[]]; cbn; tauto.
  - body3.
  - unfold advance_e_leftover. vtouch.
  - unfold advance_e_exterior. vtouch.
  - apply (ghost_touch (texec V A mt k) saved_c (ghost_tang_b nx ny nz) G); [reflexivity|exact HG|].
    unfold ghost_tang_b, saved_c. cbn. intuition congruence.
Qed.

Lemma ghost_not_inside v d : in_pipe 2 v -> ~ on_ghost nx ny nz d v.
Proof.
  intros (x & y & z & h1 & h2 & h3 & ->) (x' & y' & z' & g1 & g2 & g3 & E & Hd).
  assert (Ep : (x, y, z) = (x', y', z')) by (apply (voxel_inj nx ny nz); try lia; unfold in_mesh; lia).
  injection Ep as <- <- <-. lia.
Qed.

Lemma vclean_div_b_sim G m r :
  (forall x y, a_add A x y = a_add A y x) -> (forall x y, a_mul A x y = a_mul A y x) ->
  ghost_list (ghost_div_b nx ny nz) G ->
  vclean_div_b_run V A mt k nx ny nz contract P W G m r ->
  exists r', clean_div_b_run V A mt k nx ny nz contract P G m r' /\ forall l, r l = r' l.
Proof.
  intros Ha Hm HG H.
  apply (vghost_refines (texec V A mt k) (vclean_puts V A k nx ny) (fun v => [(DivB, v)]) saved_b
    (clean_body V nx ny) 2); try assumption; try lia; unfold saved_b.
  - intros v s. cbn. unfold v_fma.
    rewrite (Ha _ (s (Cbx, v))), (Ha _ (s (Cby, v))), (Ha _ (s (Cbz, v))).
    rewrite (Hm _ (px k)), (Hm _ (py k)), (Hm _ (pz k)).
    apply (Permutation_cons_app [_] [_; _]). apply (Permutation_cons_app [_] [_]).
    apply (Permutation_cons_app [_] []). reflexivity.
  - nd3.
  - own3.
  - intros v l Hv [<-|[]]; cbn; tauto.
  - body3.
  - unfold clean_b_leftover. vtouch.
  - unfold clean_b_exterior. vtouch.
  - apply (ghost_touch (texec V A mt k) saved_b (ghost_div_b nx ny nz) G); [reflexivity|exact HG|].
    unfold ghost_div_b, saved_b. cbn. intros c v (_ & d & _ & Hg) (_ & Hi). exact (ghost_not_inside v d Hi Hg).
Qed.

Lemma vruns_exist G m :
  (exists r, vadvance_b_run V A mt k nx ny nz contract P W m r) /\
  (exists r, vadvance_e_run V A mt k nx ny nz contract P W G m r) /\
  (exists r, vcurl_b_run V A mt k nx ny nz contract P W G m r) /\
  (exists r, vclean_div_b_run V A mt k nx ny nz contract P W G m r).
Proof.
  split; [apply vphase_exists|]. repeat split; apply vsplit_exists.
Qed.
End Instances.
End VField.

Section VVac.
Variable k : coefs R.
Variable mc : mcoef R.
Variables (nx ny nz : Z) (contract : bool) (P : Z).
Hypothesis Hx : 1 <= nx. Hypothesis Hy : 1 <= ny. Hypothesis Hz : 1 <= nz.
Hypothesis Hn : nx * ny * nz < 2 ^ 31.
Hypothesis HP : 1 <= P < 2 ^ 31.
Variable W : nat.
Hypothesis HW : (0 < W)%nat.
Hypothesis HW16 : Nat.divide W 16.

Ltac own3 := intros v s w Hw; cbn in Hw; repeat (destruct Hw as [<-|Hw]; [reflexivity|]); destruct Hw.
Ltac nd3 := intros v s; cbn; repeat (constructor; [cbn; intuition congruence|]); constructor.
Ltac body3 := let v := fresh "v" in let Ho := fresh "Ho" in let Hw := fresh "Hw" in
  intros v o b s w Ho Hw; cbn in Ho; repeat (destruct Ho as [<-|Ho];
    [cbn in Hw; repeat (destruct Hw as [<-|Hw]; [cbn; intuition discriminate|]); destruct Hw|]); destruct Ho.
Ltac vops_in H :=
  repeat match type of H with
  | In _ (_ ++ _) => apply in_app_or in H; destruct H as [H|H]
  | In _ (for_ _ _ _) => apply in_for in H; destruct H as (? & _ & H); cbv beta zeta in H
  | In _ (map _ _) => apply in_map_iff in H; destruct H as (? & <- & H)
  | In _ _ => cbn [In] in H
  | _ \/ _ => destruct H as [<-|H]
  | False => destruct H
  end.
Ltac vtouch :=
  let o := fresh "o" in let s := fresh "s" in let w := fresh "w" in let H := fresh "H" in let Hw := fresh "Hw" in
  intros o s w H Hw; unfold pipe_ops, host_ops in H; vops_in H; cbn in Hw;
  repeat (destruct Hw as [<-|Hw]; [cbn; intuition discriminate|]); destruct Hw.

Lemma vvac_advance_e_sim G m r : ghost_list (ghost_tang_b nx ny nz) G ->
  vvac_advance_e_run k mc nx ny nz contract P W G m r ->
  exists r', vac_advance_e_run k mc nx ny nz contract P G m r' /\ forall l, r l = r' l.
Proof.
  intros HG H.
  apply (vghost_refines R nx ny nz contract P Hx Hy Hz Hn HP W HW HW16 (vac_texec k mc) (vve_puts k mc nx ny)
    (fun v => [(DivE, v); (Rhob, v)]) saved_e
    (e_body R nx ny UPDATE_EX UPDATE_EY UPDATE_EZ) 2); try assumption; try lia; unfold saved_e.
  - intros v s. apply perm_e.
  - nd3.
  - own3.
  - intros v l _ [<-|[<-|[]]]; cbn; tauto.
  - body3.
  - unfold advance_e_leftover. vtouch.
  - unfold advance_e_exterior. vtouch.
  - apply (ghost_touch R (vac_texec k mc) saved_e (ghost_tang_b nx ny nz) G); [reflexivity|exact HG|].
    unfold ghost_tang_b, saved_e. cbn. intuition congruence.
Qed.

Lemma vvac_curl_b_sim G m r : ghost_list (ghost_tang_b nx ny nz) G ->
  vvac_curl_b_run k mc nx ny nz contract P W G m r ->
  exists r', vac_curl_b_run k mc nx ny nz contract P G m r' /\ forall l, r l = r' l.
Proof.
  intros HG H.
  apply (vghost_refines R nx ny nz contract P Hx Hy Hz Hn HP W HW HW16 (vac_texec k mc) (vvcurl_puts k mc nx ny)
    (fun v => [(Rhob, v)]) saved_c
    (e_body R nx ny CURL_EX CURL_EY CURL_EZ) 2); try assumption; try lia; unfold saved_c.
  - intros v s. cbn. apply (Permutation_cons_app [_] [_; _]). apply (Permutation_cons_app [_] [_]).
    apply (Permutation_cons_app [_] []). reflexivity.
  - nd3.
  - own3.
  - intros v l _ [<-|[]]; cbn; tauto.
  - body3.
  - unfold advance_e_leftover. vtouch.
  - unfold advance_e_exterior. vtouch.
  - apply (ghost_touch R (vac_texec k mc) saved_c (ghost_tang_b nx ny nz) G); [reflexivity|exact HG|].
    unfold ghost_tang_b, saved_c. cbn. intuition congruence.
Qed.
End VVac.
