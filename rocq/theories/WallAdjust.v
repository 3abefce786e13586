(* The adjustments at the walls of a rank against those of the undivided mesh. *)
From Coq Require Import ZArith List Bool Lia ZifyBool.
From Verif Require Import SortModel VoxelModel VoxelProofs GridModel SweepModel FieldProofs FieldModel FieldSpec FieldSweeps FieldBoundaryModel FieldPhysics
  RemoteModel RemoteSpec DecompSpec RemoteProofs RemoteGhost DecompProofs DecompSteps LocalModel LocalSpec LocalProofs WallSpec WallProofs.
Import ListNotations.
Open Scope Z_scope.
Ltac Zify.zify_post_hook ::= idtac.
Local Notation AT := RemoteModel.at_.

Definition face_of (f : face) : axis * Z := match f with XM => (AX, -1) | YM => (AY, -1) | ZM => (AZ, -1) | XP => (AX, 1) | YP => (AY, 1) | ZP => (AZ, 1) end.
Lemma face_sign f : snd (face_of f) = -1 \/ snd (face_of f) = 1.
Proof. destruct f; cbn; auto. Qed.
Lemma face_onto a t : t = -1 \/ t = 1 -> exists f, face_of f = (a, t).
Proof. intros [-> | ->]; destruct a; [exists XM|exists YM|exists ZM|exists XP|exists YP|exists ZP]; reflexivity. Qed.

Lemma some_inj {T} (x y : T) : Some x = Some y -> x = y.
Proof. congruence. Qed.
Section Adjust.
Context {V : Type}.
Variable RAr : rarith V.
Variable zero : V.
Variable L : layout V.
Variable num : cell -> Z.
Variable ws : Z.
Variable G : Z -> cgrid V.
Hypothesis OK : layout_ok L.
Hypothesis HB : box L num ws G.
(* The adjustment that follows each sweep, the last call of the wrappers in /repo/src/field_advance/standard/pipeline: local_adjust_norm_b advance_b_pipeline.cc:124 and
   clean_div_b_pipeline.cc:327, local_adjust_tang_e advance_e_pipeline.cc:330 and clean_div_e_pipeline.cc:114, local_adjust_div_e compute_div_e_err_pipeline.cc:172,
   local_adjust_rhob compute_rhob_pipeline.cc:173 (the vacuum_ variants alike); compute_div_b_err has none. *)
Definition rank_adjust (s : sweep V) (p : cell) (F : mem V) : option (mem V) :=
  let nx := l_n L AX (AT AX p) in let ny := l_n L AY (AT AY p) in let nz := l_n L AZ (AT AZ p) in
  let bc f := c_bc V (G (num p)) (port (fst (face_of f)) (snd (face_of f))) in
  match s with
  | AdvanceB _ | CleanB _ => adjust_norm_b V zero nx ny nz bc ws F
  | AdvanceE _ | CleanE _ => adjust_tang_e V zero nx ny nz bc ws F
  | DivEErr _ => adjust_div_e V zero nx ny nz bc ws F
  | BoundCharge _ => adjust_rhob V RAr ws (G (num p)) F
  | DivBErr _ => Some F
  end.

Section One.
Variable p : cell.
Hypothesis Hp : inside L p.
Notation nx := (l_n L AX (AT AX p)).
Notation ny := (l_n L AY (AT AY p)).
Notation nz := (l_n L AZ (AT AZ p)).
Definition side_at (a : axis) (t : Z) : Z := if t =? -1 then 1 else l_n L a (AT a p) + 1.
Definition hit (s : sweep V) (c : comp) (q : cell) : Prop :=
  exists a t, (t = -1 \/ t = 1) /\ beside L a (AT a p) t = None /\ AT a q = side_at a t /\ kept_zero s a c (c_bc V (G (num p)) (port a t)) = true /\ holds L c p q.
Definition on_side (f : face) (c : comp) (l : floc) : Prop := exists q, l = (c, vox3 (size_at L p) q) /\ holds L c p q /\ AT (fst (face_of f)) q = side_at (fst (face_of f)) (snd (face_of f)).
Lemma on_side3 f c l : on_side f c l <-> exists x y z, l = (c, voxel nx ny nz x y z) /\
  (1 <= x <= nx + (if node_on c AX then 1 else 0) /\ 1 <= y <= ny + (if node_on c AY then 1 else 0) /\ 1 <= z <= nz + (if node_on c AZ then 1 else 0)) /\ AT (fst (face_of f)) (x, y, z) = side_at (fst (face_of f)) (snd (face_of f)).
Proof.
  unfold on_side. split.
  - intros ([[x y] z] & E & H & S). exists x, y, z. split; [exact E|]. split; [|exact S]. pose proof (H AX); pose proof (H AY); pose proof (H AZ). cbn [RemoteModel.at_] in *. tauto.
  - intros (x & y & z & E & (X & Y & Z_) & S). exists (x, y, z). split; [exact E|]. split; [|exact S]. intros [| |]; cbn [RemoteModel.at_]; assumption.
Qed.
Lemma pos3 : 1 <= nx /\ 1 <= ny /\ 1 <= nz.
Proof. destruct OK as [_ On]. split; [|split]; apply On, Hp. Qed.
Ltac loops := pose proof pos3 as (Nx & Ny & Nz); intros; rewrite ?on_side3; unfold face_loop, node_loop, yz_edge_loop, zy_edge_loop, side_at; match goal with f : face |- _ => destruct f end; cbn [face_of fst snd cbn_ e_Y e_Z tca_Y tca_Z cb node_on e_ RemoteModel.at_ Z.eqb Pos.eqb];
  rewrite ?in_app_iff, !in_xyz.
Lemma locs_norm_b f l : In l (face_loop nx ny nz f (fun x y z => [(cbn_ f, voxel nx ny nz x y z)])) <-> on_side f (cb (fst (face_of f))) l.
Proof. loops; (split; [intros (x & y & z & X & Y & Z_ & [<- |[]]); exists x, y, z; repeat split; try lia | intros (x & y & z & -> & (X & Y & Z_) & S); exists x, y, z; cbn [In]; intuition lia]). Qed.
Lemma locs_div_e f l : In l (node_loop nx ny nz f (fun x y z => [(DivE, voxel nx ny nz x y z)])) <-> on_side f DivE l.
Proof. loops; (split; [intros (x & y & z & X & Y & Z_ & [<- |[]]); exists x, y, z; repeat split; try lia | intros (x & y & z & -> & (X & Y & Z_) & S); exists x, y, z; cbn [In]; intuition lia]). Qed.
Definition tang (a : axis) : list comp := match a with AX => [Ey; Tcay; Ez; Tcaz] | AY => [Ez; Tcaz; Ex; Tcax] | AZ => [Ex; Tcax; Ey; Tcay] end.
Lemma locs_tang_e f l : In l (yz_edge_loop nx ny nz f (fun x y z => [(e_Y f, voxel nx ny nz x y z); (tca_Y f, voxel nx ny nz x y z)]) ++
              zy_edge_loop nx ny nz f (fun x y z => [(e_Z f, voxel nx ny nz x y z); (tca_Z f, voxel nx ny nz x y z)])) <-> exists c, In c (tang (fst (face_of f))) /\ on_side f c l.
Proof.
  split.
  - pose proof pos3 as (Nx & Ny & Nz). unfold yz_edge_loop, zy_edge_loop. destruct f; cbn [e_Y e_Z tca_Y tca_Z fst snd face_of]; rewrite in_app_iff, !in_xyz; intros [(x & y & z & X & Y & Z_ & [<- |[<- |[]]])|(x & y & z & X & Y & Z_ & [<- |[<- |[]]])]; match goal with |- context [on_side _ _ (?d, _)] => exists d end; (split; [cbn [tang In]; tauto|]);
      rewrite on_side3; exists x, y, z; unfold side_at; cbn [face_of fst snd node_on RemoteModel.at_ Z.eqb Pos.eqb]; repeat split; lia.
  - intros (c & Hc & H). revert H. rewrite on_side3. intros (x & y & z & -> & (X & Y & Z_) & S). pose proof pos3 as (Nx & Ny & Nz). unfold yz_edge_loop, zy_edge_loop. destruct f; cbn [e_Y e_Z tca_Y tca_Z fst snd face_of] in *; rewrite in_app_iff, !in_xyz;
    cbn [face_of fst snd tang In] in *; unfold side_at in S; cbn [RemoteModel.at_ Z.eqb Pos.eqb] in S; (destruct Hc as [<- |[<- |[<- |[<- |[]]]]]; [left|left|right|right]); cbn [node_on] in *;
      exists x, y, z; cbn [In]; intuition lia.
Qed.

(* the walls of the rank *)
Lemma wall_codes a t : t = -1 \/ t = 1 -> (beside L a (AT a p) t = None <-> c_bc V (G (num p)) (port a t) < 0 \/ ws <= c_bc V (G (num p)) (port a t)).
Proof.
  intros Ht. pose proof HB as (Rn & _ & _ & _ & _ & Bc). specialize (Bc p a t Hp Ht). destruct (beside L a (AT a p) t) as [j|] eqn:E.
  - split; [discriminate|]. intros H. exfalso. assert (Hj : inside L (put a j p)) by (apply inside_put; [exact Hp|exact (beside_range L a (AT a p) t j (Hp a) Ht E)]).
    specialize (Rn _ Hj). lia.
  - split; [intros _; exact Bc|reflexivity].
Qed.
Lemma mesh_inj c q c' q' : (forall a, 0 <= AT a q <= l_n L a (AT a p) + 1) -> holds L c' p q' -> (c, vox3 (size_at L p) q) = (c', vox3 (size_at L p) q') -> c = c' /\ q = q'.
Proof. intros H H' E. injection E as -> E. split; [reflexivity|]. apply (vox_inj L OK p q q' Hp H); [|exact E]. exact (held_in_mesh L c' p q' Hp H'). Qed.
(* rhob *)
Lemma act_list x ls (F : mem V) k : fold_left (fun F l => fun k => if floc_eqb k (locv (size_at L p) l) then act V RAr x (F k) else F k) ls F k =
  match x with Keep => F k | Zero => if existsb (fun l => floc_eqb k (locv (size_at L p) l)) ls then r_zero V RAr else F k
  | Twice => fold_left (fun F l => fun k => if floc_eqb k (locv (size_at L p) l) then act V RAr Twice (F k) else F k) ls F k end.
Proof.
  destruct x; [|reflexivity|]; revert F; induction ls as [|l ls IH]; intros F; cbn [fold_left existsb]; try reflexivity; rewrite IH.
  - destruct (existsb _ ls); destruct (floc_eqb k (locv (size_at L p) l)); reflexivity.
  - cbn [act]. destruct (floc_eqb k (locv (size_at L p) l)); reflexivity.
Qed.
Definition node_of (a : axis) (t : Z) (k : floc) : Prop := exists q, k = (Rhob, vox3 (size_at L p) q) /\ holds L Rhob p q /\ AT a q = side_at a t.
Lemma adjust_rhob_ok ds F F' : (forall d, In d ds -> snd d = -1 \/ snd d = 1) -> adjust V RAr ws Rhob (G (num p)) ds F = Some F' -> forall k,
  ((exists a t, In (a, t) ds /\ beside L a (AT a p) t = None /\ c_bc V (G (num p)) (port a t) = -1 /\ node_of a t k) -> F' k = r_zero V RAr) /\
  ((forall a t, In (a, t) ds -> beside L a (AT a p) t = None -> c_bc V (G (num p)) (port a t) = -1 -> ~ node_of a t k) -> F' k = F k) /\
  (F k = r_zero V RAr -> F' k = r_zero V RAr).
Proof.
  revert F. induction ds as [|[a t] ds IH]; intros F Hd H k; cbn [adjust] in H.
  - injection H as <-. split; [intros (a & t & [] & _)|]. split; [reflexivity|tauto].
  - destruct (adjust_dir V RAr ws Rhob (G (num p)) (a, t) F) as [F1|] eqn:E1; [|discriminate].
    assert (Ht : t = -1 \/ t = 1) by (apply (Hd (a, t)); left; reflexivity).
    destruct (IH F1 ltac:(intros d Hin; apply Hd; right; exact Hin) H k) as (I1 & I2 & I3).
    assert (S : (beside L a (AT a p) t = None -> c_bc V (G (num p)) (port a t) = -1 -> node_of a t k -> F1 k = r_zero V RAr) /\
                ((beside L a (AT a p) t = None -> c_bc V (G (num p)) (port a t) = -1 -> ~ node_of a t k) -> F1 k = F k) /\ (F k = r_zero V RAr -> F1 k = r_zero V RAr)).
    { pose proof (wall_codes a t Ht) as Wc. unfold adjust_dir in E1. pose proof HB as (_ & _ & _ & Sz & _). rewrite (Sz p Hp) in E1.
      destruct ((c_bc V (G (num p)) (port a t) <? 0) || (ws <=? c_bc V (G (num p)) (port a t))) eqn:W.
      - destruct (adjust_action Rhob (c_bc V (G (num p)) (port a t))) as [x|] eqn:Ex_; [|discriminate]. apply some_inj in E1. subst F1. rewrite act_list.
        assert (Q : (x = Zero /\ c_bc V (G (num p)) (port a t) = -1) \/ (x = Keep /\ c_bc V (G (num p)) (port a t) <> -1)).
        { unfold adjust_action in Ex_. destruct (c_bc V (G (num p)) (port a t)) as [|z|z]; try discriminate. destruct z as [[z|z|]|[z|[z|z|]|]|]; try discriminate; injection Ex_ as <-; [right|right|right|left]; (split; [reflexivity|]); congruence || reflexivity. }
        destruct Q as [[-> Hb]|[-> Hb]]; [|split; [congruence|split; [reflexivity|tauto]]].
        destruct (existsb _ _) eqn:Ee.
        + split; [reflexivity|]. split; [|reflexivity]. intros Nn. exfalso. apply existsb_exists in Ee. destruct Ee as ([c q] & Hin & Ek). apply (reflect_iff _ _ (floc_eqb_spec _ _)) in Ek. subst k.
          apply (Nn ltac:(apply Wc; lia) Hb). apply in_addrs in Hin. destruct Hin as (g & ks & Hi & Hc & Hq). cbn [adjust_items In] in Hi. destruct Hi as [Hi|[]]. injection Hi as <- <-. cbn [In] in Hc. destruct Hc as [<- |[]].
          apply in_plane in Hq. destruct Hq as (Q1 & Q2 & Q3). rewrite !at_size in *. cbn [wide_y wide_z] in *. exists q. split; [reflexivity|]. split; [|rewrite Q1; unfold side_at; destruct Ht as [-> | ->]; reflexivity].
          intros d. pose proof pos3 as (Nx & Ny & Nz). destruct a, d; cbn [next node_on] in *; try lia; rewrite Q1; destruct Ht as [-> | ->]; cbn; lia.
        + split; [|split; [reflexivity|tauto]]. intros _ _ (q & -> & Hq & Ha). exfalso.
          apply not_true_iff_false in Ee. apply Ee. apply existsb_exists. exists (Rhob, q). split; [|apply (reflect_iff _ _ (floc_eqb_spec _ _)); reflexivity].
          apply in_addrs. exists Node, [Rhob]. split; [left; reflexivity|]. split; [left; reflexivity|]. apply in_plane. rewrite !at_size. split; [rewrite Ha; unfold side_at; destruct Ht as [-> | ->]; reflexivity|].
          cbn [wide_y wide_z]. pose proof (Hq AX); pose proof (Hq AY); pose proof (Hq AZ). destruct a; cbn [next node_on] in *; lia.
      - injection E1 as <-. split; [intros Hb; apply Wc in Hb; lia|]. split; [reflexivity|tauto]. }
    destruct S as (S1 & S2 & S3). split; [|split; [|intros Hz; apply I3, S3, Hz]].
    + intros (a' & t' & [Q|Q] & Hb & Hc & Hn); [injection Q as <- <-; apply I3, S1; assumption|]. apply I1. exists a', t'. tauto.
    + intros Hn. rewrite I2; [apply S2; intros Hb Hc; apply (Hn a t); [left; reflexivity|exact Hb|exact Hc]|]. intros a' t' Hin. apply Hn. right. exact Hin.
Qed.

Hypothesis Hzero : r_zero V RAr = zero.
Lemma rank_adjust_ok s F F' : (forall a t, t = -1 \/ t = 1 -> beside L a (AT a p) t = None -> c_bc V (G (num p)) (port a t) < 0) -> rank_adjust s p F = Some F' -> forall c q,
  (hit s c q -> F' (c, vox3 (size_at L p) q) = zero) /\
  ((forall a, 0 <= AT a q <= l_n L a (AT a p) + 1) -> ~ hit s c q -> F' (c, vox3 (size_at L p) q) = F (c, vox3 (size_at L p) q)).
Proof.
  intros Neg H c q.
  assert (Key : forall acts skips locs (mem_ : axis -> list comp), (forall a b, True -> forall c, kept_zero s a c b = true <-> In c (mem_ a) /\ In b acts) -> (forall b, In b acts -> b < 0) ->
    (forall f l, In l (locs f) <-> exists c, In c (mem_ (fst (face_of f))) /\ on_side f c l) ->
    adjust_all V zero (fun f => c_bc V (G (num p)) (port (fst (face_of f)) (snd (face_of f)))) ws acts skips locs faces F = Some F' ->
    (hit s c q -> F' (c, vox3 (size_at L p) q) = zero) /\ ((forall a, 0 <= AT a q <= l_n L a (AT a p) + 1) -> ~ hit s c q -> F' (c, vox3 (size_at L p) q) = F (c, vox3 (size_at L p) q))).
  { intros acts skips locs mem_ Hk Hneg Hl Ha. split.
    - intros (a & t & Ht & Hb & Hq & Hz & Hh). destruct (face_onto a t Ht) as [f Ef]. apply Hk in Hz; [|exact I]. destruct Hz as [Hc Hin].
      eapply (adjust_zeroes V zero _ ws acts skips locs faces F F' _ f Ha); [destruct f; cbn; tauto|rewrite Ef; exact Hin|rewrite Ef; apply Neg; assumption|].
      apply Hl. rewrite Ef. exists c. split; [exact Hc|]. exists q. rewrite Ef. tauto.
    - intros Hm Hn. eapply (adjust_unchanged V zero _ ws acts skips locs faces F F' _ Ha). intros f _ Hb Hin. apply Hl in Hin. destruct Hin as (c' & Hc' & q' & E & Hq' & Ha').
      apply mesh_inj in E; [|exact Hm|exact Hq']. destruct E as [<- <-]. apply Hn. exists (fst (face_of f)), (snd (face_of f)). split; [apply face_sign|].
      split; [apply wall_codes; [apply face_sign|left; apply Hneg, Hb]|]. split; [exact Ha'|]. split; [|exact Hq']. apply Hk; [exact I|]. tauto. }
  destruct s as [k|k|k|k|k|k|k]; cbn [rank_adjust] in H.
  - apply (Key [symmetric_fields] [anti_symmetric_fields; pmc_fields; absorb_fields] _ (fun a => [cb a])) in H; [exact H| | |].
    + intros a b _ c0. unfold symmetric_fields. destruct a, c0; cbn; intuition (try discriminate; lia).
    + unfold symmetric_fields. cbn. lia.
    + intros f l. rewrite locs_norm_b by assumption. cbn [In]. split; [intros X; eexists; split; [left; reflexivity|exact X]|intros (c' & [<- |[]] & X); exact X].
  - apply (Key [anti_symmetric_fields] [symmetric_fields; pmc_fields; absorb_fields] _ tang) in H; [exact H| | |].
    + intros a b _ c0. unfold anti_symmetric_fields. destruct a, c0; cbn; intuition (try discriminate; lia).
    + unfold anti_symmetric_fields. cbn. lia.
    + intros f l. apply locs_tang_e; assumption.
  - apply (Key [anti_symmetric_fields; absorb_fields] [symmetric_fields; pmc_fields] _ (fun _ => [DivE])) in H; [exact H| | |].
    + intros a b _ c0. unfold anti_symmetric_fields, absorb_fields. destruct c0; cbn; intuition (try discriminate; lia).
    + unfold anti_symmetric_fields, absorb_fields. cbn. lia.
    + intros f l. rewrite locs_div_e by assumption. cbn [In]. split; [intros X; eexists; split; [left; reflexivity|exact X]|intros (c' & [<- |[]] & X); exact X].
  - unfold adjust_rhob in H. destruct (adjust_rhob_ok six F F' (fun d Hd => six_dirs d Hd) H (c, vox3 (size_at L p) q)) as (R1 & R2 & _). split.
    + intros (a & t & Ht & Hb & Hq & Hz & Hh). rewrite <- Hzero. apply R1. exists a, t. destruct c; try discriminate Hz. cbn in Hz. split; [destruct Ht as [-> | ->], a; cbn; tauto|]. split; [exact Hb|]. split; [lia|]. exists q. tauto.
    + intros Hm Hn. apply R2. intros a t Hin Hb Hc (q' & E & Hq' & Ha). apply mesh_inj in E; [|exact Hm|exact Hq']. destruct E as [-> <-]. apply Hn. exists a, t. pose proof (six_dirs _ Hin). cbn in H0. unfold sign in H0. cbn [kept_zero]. rewrite Hc. tauto.
  - injection H as <-. split; [intros (a & t & _ & _ & _ & Hz & _); discriminate|reflexivity].
  - apply (Key [symmetric_fields] [anti_symmetric_fields; pmc_fields; absorb_fields] _ (fun a => [cb a])) in H; [exact H| | |].
    + intros a b _ c0. unfold symmetric_fields. destruct a, c0; cbn; intuition (try discriminate; lia).
    + unfold symmetric_fields. cbn. lia.
    + intros f l. rewrite locs_norm_b by assumption. cbn [In]. split; [intros X; eexists; split; [left; reflexivity|exact X]|intros (c' & [<- |[]] & X); exact X].
  - apply (Key [anti_symmetric_fields] [symmetric_fields; pmc_fields; absorb_fields] _ tang) in H; [exact H| | |].
    + intros a b _ c0. unfold anti_symmetric_fields. destruct a, c0; cbn; intuition (try discriminate; lia).
    + unfold anti_symmetric_fields. cbn. lia.
    + intros f l. apply locs_tang_e; assumption.
Qed.
End One.
End Adjust.
