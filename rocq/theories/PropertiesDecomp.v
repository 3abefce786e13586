(* C54: the field update does not depend on how the mesh is divided among ranks. *)
From Coq Require Import Reals ZArith List Bool Lia ZifyBool Lra.
From Verif Require Import SortModel VoxelModel VoxelProofs GridModel GridProofs SweepModel FieldModel FieldSpec FieldSweeps FieldBoundaryModel FieldPhysics FieldFinal
  RemoteModel RemoteSpec DecompSpec RemoteProofs RemoteGhost DecompProofs RemoteSum PropertiesRemote DecompSteps.
Import ListNotations.
Open Scope Z_scope.
Ltac Zify.zify_post_hook ::= idtac.

(* ---- what the ranks do ---- *)
Section Ranks.
Variable V : Type.
Variable RAr : rarith V.            (* arithmetic of the exchanges *)
Variable A : arith V.               (* arithmetic of the sweeps *)
Variable L : layout V.
Variable num : cell -> Z.
Variable ws : Z.
Variable G : Z -> cgrid V.
Variable mt : cell -> mats V.       (* the material arrays of the rank at p *)
Variable fma : cell -> bool.        (* how its compiler contracts the block arithmetic, and its number of pipelines *)
Variable P : cell -> Z.
Notation nx p := (l_n L AX (at_ AX p)).
Notation ny p := (l_n L AY (at_ AY p)).
Notation nz p := (l_n L AZ (at_ AZ p)).

(* Every rank carries out [run p Gh m r] after ghost exchange e has brought it the ghost values Gh.  [wall p] are the locations of the ghost values that
   have no rank beside them, with the values put there; any values for an exchange-free sweep. *)
Definition with_exchange (e : exch) (wall : cell -> list (floc * V)) (run : cell -> list (floc * V) -> mem V -> mem V -> Prop) (W W2 : Z -> mem V) : Prop :=
  exists W1 Gh, run_phases V RAr ws G e (phases e) W W1 /\
  forall p, inside L p ->
    ghost_list (ghosts_of e (nx p) (ny p) (nz p)) (Gh p) /\
    (forall a t c q, t = -1 \/ t = 1 -> ghost_entry L e p a t c q ->
       match beside L a (at_ a p) t with
       | Some _ => In ((c, vox3 (size_at L p) q), W1 (num p) (c, vox3 (size_at L p) q)) (Gh p)
       | None => forall x, In ((c, vox3 (size_at L p) q), x) (wall p) -> In ((c, vox3 (size_at L p) q), x) (Gh p) end) /\
    run p (Gh p) (W (num p)) (W2 (num p)).
Definition on_ranks (s : sweep V) (wall : cell -> list (floc * V)) (W W2 : Z -> mem V) : Prop :=
  match s with
  | AdvanceB k => forall p, inside L p -> advance_b_run V A (mt p) k (nx p) (ny p) (nz p) (fma p) (P p) (W (num p)) (W2 (num p))
  | AdvanceE k => with_exchange GhostTangB wall (fun p Gh => advance_e_run V A (mt p) k (nx p) (ny p) (nz p) (fma p) (P p) Gh) W W2
  | DivEErr k => with_exchange GhostNormE wall (fun p Gh => div_e_err_run V A (mt p) k (nx p) (ny p) (nz p) (fma p) (P p) Gh) W W2
  | BoundCharge k => with_exchange GhostNormE wall (fun p Gh => rhob_run V A (mt p) k (nx p) (ny p) (nz p) (fma p) (P p) Gh) W W2
  | DivBErr k => forall p, inside L p -> div_b_err_run V A (mt p) k (nx p) (ny p) (nz p) (fma p) (P p) (W (num p)) (W2 (num p))
  | CleanB k => with_exchange GhostDivB wall (fun p Gh => clean_div_b_run V A (mt p) k (nx p) (ny p) (nz p) (fma p) (P p) Gh) W W2
  | CleanE k => forall p, inside L p -> clean_div_e_run V A (mt p) k (nx p) (ny p) (nz p) (fma p) (P p) (W (num p)) (W2 (num p))
  end.
Definition ghosts_used (s : sweep V) : option exch :=
  match s with AdvanceE _ => Some GhostTangB | DivEErr _ | BoundCharge _ => Some GhostNormE | CleanB _ => Some GhostDivB | _ => None end.
(* The values at the walls are those the whole field has beyond the walls. *)
Definition walls_of (e : exch) (F : gfield V) (wall : cell -> list (floc * V)) : Prop :=
  forall p a t c q, inside L p -> t = -1 \/ t = 1 -> beside L a (at_ a p) t = None -> ghost_entry L e p a t c q ->
    In ((c, vox3 (size_at L p) q), F c (gplace L p q)) (wall p).
Definition fits : Prop := forall p, inside L p -> nx p * ny p * nz p < 2 ^ 31 /\ 1 <= P p < 2 ^ 31.
Definition alike (gm : gmats V) : Prop := mats_repeat L gm /\ forall p, inside L p -> same_mats L gm p (mt p).
Inductive runs : list (sweep V) -> (Z -> mem V) -> (Z -> mem V) -> Prop :=
| runs_nil : forall W, runs [] W W
| runs_cons : forall s ss W W1 W2, on_ranks s (fun _ => []) W W1 -> runs ss W1 W2 -> runs (s :: ss) W W2.
End Ranks.
(* Equal cell sizes along each axis, and weights computed from them that give the neighbour's value; true in exact arithmetic for sizes other than 0. *)
Theorem C54_clear_weights_exact : forall L : layout R, (forall a i, 0 <= i < l_p L a -> l_d L a i <> 0%R) -> clear_weights Rarith L.
Proof. intros L H a i w o Hi. cbn. specialize (H a i Hi). field. lra. Qed.
Print Assumptions C54_clear_weights_exact.

(* One sweep: if the arrays of the ranks hold the field F, then afterwards they hold the field that the sweep makes of F on the undivided mesh. *)
Theorem C54_sweep : forall V RAr A L num ws G mt fma P gm F s wall W W2,
  layout_ok L -> box L num ws G -> even_sizes L -> clear_weights RAr L -> fits V L P -> alike V L mt gm ->
  field_repeats L F -> holds_field L num F W -> (forall e, ghosts_used V s = Some e -> walls_of V L e F wall) ->
  on_ranks V RAr A L num ws G mt fma P s wall W W2 ->
  holds_field L num (g_sweep A gm F s) W2 /\ field_repeats L (g_sweep A gm F s).
Proof.
  intros V RAr A L num ws G mt fma P gm F s wall W W2 OK HB Ev Cw Fit [Mr Sm] Fr HF Hw H.
  assert (Pos : forall p, inside L p -> 1 <= l_n L AX (at_ AX p) /\ 1 <= l_n L AY (at_ AY p) /\ 1 <= l_n L AZ (at_ AZ p)) by (intros p Hp; destruct OK as [_ O]; split; [|split]; apply O, Hp).
  assert (K : forall e run, ghosted e = true -> ghosts_used V s = Some e -> with_exchange V RAr L num ws G e wall run W W2 ->
    forall p, inside L p -> exists Gh, ghost_list (ghosts_of e (l_n L AX (at_ AX p)) (l_n L AY (at_ AY p)) (l_n L AZ (at_ AZ p))) Gh /\ run p Gh (W (num p)) (W2 (num p)) /\
      forall B, with_ghosts Gh (W (num p)) B -> (forall c q, holds L c p q -> B (c, vox3 (size_at L p) q) = F c (gplace L p q)) /\ ghosts_ok L F p B e).
  { intros e run Hg Hu (W1 & Gh & Hr & Hp') p Hp. destruct (Hp' p Hp) as (Gl & Gf & Rn). exists (Gh p). split; [exact Gl|]. split; [exact Rn|].
    intros B HBg. apply (near_values RAr L num ws G OK HB Ev Cw F Fr e W W1 p (Gh p) B Hg Hp HF Hr); [|exact Gl|exact HBg].
    intros a t c q Ht Hq. specialize (Gf a t c q Ht Hq). destruct (beside L a (at_ a p) t) eqn:E; [exact Gf|]. apply Gf. exact (Hw e Hu p a t c q Hp Ht E Hq). }
  assert (Q : forall Gf : gfield V, (forall p, inside L p -> holds_here L p Gf (W2 (num p))) -> holds_field L num Gf W2) by (intros Gf HG c p q Hp Hq; apply HG; assumption).
  destruct s as [k|k|k|k|k|k|k]; cbn [on_ranks g_sweep] in *.
  - split; [|apply rep_advance_b; assumption]. apply Q. intros p Hp. destruct (Pos p Hp) as (X & Y & Z_), (Fit p Hp) as [F1 F2].
    apply (rank_faraday L F A k p (W (num p))); [intros c q Hq; apply HF; assumption|]. eapply advance_b_spec; [..|apply H, Hp]; assumption.
  - split; [|apply rep_advance_e; assumption]. apply Q. intros p Hp. destruct (Pos p Hp) as (X & Y & Z_), (Fit p Hp) as [F1 F2].
    destruct (K GhostTangB _ eq_refl eq_refl H p Hp) as (Gh & Gl & Rn & Bk). eapply advance_e_spec in Rn; try eassumption. destruct Rn as (B & Hb & Am).
    destruct (Bk B Hb) as [B1 B2]. eapply rank_ampere; [exact (Sm p Hp)|exact B1|exact B2|exact Am].
  - split; [|apply rep_div_e_err; assumption]. apply Q. intros p Hp. destruct (Pos p Hp) as (X & Y & Z_), (Fit p Hp) as [F1 F2].
    destruct (K GhostNormE _ eq_refl eq_refl H p Hp) as (Gh & Gl & Rn & Bk). eapply div_e_err_spec in Rn; try eassumption. destruct Rn as (B & Hb & Am).
    destruct (Bk B Hb) as [B1 B2]. eapply rank_gauss_e; [exact (Sm p Hp)|exact B1|exact B2|exact Am].
  - split; [|apply rep_rhob; assumption]. apply Q. intros p Hp. destruct (Pos p Hp) as (X & Y & Z_), (Fit p Hp) as [F1 F2].
    destruct (K GhostNormE _ eq_refl eq_refl H p Hp) as (Gh & Gl & Rn & Bk). eapply rhob_spec in Rn; try eassumption. destruct Rn as (B & Hb & Am).
    destruct (Bk B Hb) as [B1 B2]. eapply rank_rhob; [exact (Sm p Hp)|exact B1|exact B2|exact Am].
  - split; [|apply rep_div_b_err; assumption]. apply Q. intros p Hp. destruct (Pos p Hp) as (X & Y & Z_), (Fit p Hp) as [F1 F2].
    apply (rank_gauss_b L F A k p (W (num p))); [intros c q Hq; apply HF; assumption|]. eapply div_b_err_spec; [..|apply H, Hp]; assumption.
  - split; [|apply rep_clean_b; assumption]. apply Q. intros p Hp. destruct (Pos p Hp) as (X & Y & Z_), (Fit p Hp) as [F1 F2].
    destruct (K GhostDivB _ eq_refl eq_refl H p Hp) as (Gh & Gl & Rn & Bk). eapply clean_div_b_spec in Rn; try eassumption. destruct Rn as (B & Hb & Am).
    destruct (Bk B Hb) as [B1 B2]. eapply rank_marder_b; [exact B1|exact B2|exact Am].
  - split; [|apply rep_clean_e; assumption]. apply Q. intros p Hp. destruct (Pos p Hp) as (X & Y & Z_), (Fit p Hp) as [F1 F2].
    apply (rank_marder_e L F A gm k p (mt p) (Sm p Hp) (W (num p))); [intros c q Hq; apply HF; assumption|]. eapply clean_div_e_spec; [..|apply H, Hp]; assumption.
Qed.
Print Assumptions C54_sweep.

(* Any sequence of sweeps on a box without walls: the ranks end with the field of the undivided mesh. *)
Theorem C54_run : forall V RAr A L num ws G mt fma P gm ss F W W2,
  layout_ok L -> box L num ws G -> even_sizes L -> clear_weights RAr L -> fits V L P -> alike V L mt gm -> (forall a, l_per L a = true) ->
  field_repeats L F -> holds_field L num F W -> runs V RAr A L num ws G mt fma P ss W W2 ->
  holds_field L num (fold_left (g_sweep A gm) ss F) W2.
Proof.
  intros V RAr A L num ws G mt fma P gm ss. induction ss as [|s ss IH]; intros F W W2 OK HB Ev Cw Fit Al Pe Fr HF H; inversion H; subst; cbn [fold_left]; [exact HF|].
  destruct (C54_sweep V RAr A L num ws G mt fma P gm F s (fun _ => []) W W1 OK HB Ev Cw Fit Al Fr HF) as [Q1 Q2]; [|assumption|].
  - intros e _ p a t c q _ _ Hn. exfalso. unfold beside in Hn. rewrite Pe in Hn. destruct ((0 <=? at_ a p + t) && (at_ a p + t <? l_p L a)); discriminate.
  - eapply IH; eassumption.
Qed.
Print Assumptions C54_run.

(* So two ways of dividing the same mesh end with the same value wherever both hold one. *)
Theorem C54_layouts_agree : forall V RAr A gm ss F L num ws G mt fma P W W2 L' num' ws' G' mt' fma' P' W' W2',
  layout_ok L -> box L num ws G -> even_sizes L -> clear_weights RAr L -> fits V L P -> alike V L mt gm -> (forall a, l_per L a = true) ->
  layout_ok L' -> box L' num' ws' G' -> even_sizes L' -> clear_weights RAr L' -> fits V L' P' -> alike V L' mt' gm -> (forall a, l_per L' a = true) ->
  field_repeats L F -> field_repeats L' F -> holds_field L num F W -> holds_field L' num' F W' ->
  runs V RAr A L num ws G mt fma P ss W W2 -> runs V RAr A L' num' ws' G' mt' fma' P' ss W' W2' ->
  forall c p q p' q', inside L p -> holds L c p q -> inside L' p' -> holds L' c p' q' -> gplace L p q = gplace L' p' q' ->
  W2 (num p) (c, vox3 (size_at L p) q) = W2' (num' p') (c, vox3 (size_at L' p') q').
Proof.
  intros V RAr A gm ss F L num ws G mt fma P W W2 L' num' ws' G' mt' fma' P' W' W2' OK HB Ev Cw Fit Al Pe OK' HB' Ev' Cw' Fit' Al' Pe' Fr Fr' HF HF' H H' c p q p' q' Hp Hq Hp' Hq' E.
  rewrite (C54_run V RAr A L num ws G mt fma P gm ss F W W2 OK HB Ev Cw Fit Al Pe Fr HF H c p q Hp Hq).
  rewrite (C54_run V RAr A L' num' ws' G' mt' fma' P' gm ss F W' W2' OK' HB' Ev' Cw' Fit' Al' Pe' Fr' HF' H' c p' q' Hp' Hq'). rewrite E. reflexivity.
Qed.
Print Assumptions C54_layouts_agree.

(* The constants of the sweeps depend on the local cell counts only through which of them are 1. *)
Theorem C54_same_constants : forall g g' frac dmp,
  (1 < gnx g <-> 1 < gnx g') -> (1 < gny g <-> 1 < gny g') -> (1 < gnz g <-> 1 < gnz g') ->
  rdx g = rdx g' -> rdy g = rdy g' -> rdz g = rdz g' -> cvac g = cvac g' -> dt g = dt g' -> eps0 g = eps0 g' ->
  advance_b_coefs g frac = advance_b_coefs g' frac /\ advance_e_coefs g dmp = advance_e_coefs g' dmp /\ div_coefs g = div_coefs g' /\
  rhob_coefs g = rhob_coefs g' /\ marder_coefs g = marder_coefs g'.
Proof.
  intros g g' frac dmp X Y Z_ E1 E2 E3 E4 E5 E6.
  assert (T : forall n n' a, (1 < n <-> 1 < n') -> if_thick n a = if_thick n' a).
  { intros n n' a H. unfold if_thick. destruct (Z.ltb_spec 1 n), (Z.ltb_spec 1 n'); try reflexivity; lia. }
  unfold advance_b_coefs, advance_e_coefs, div_coefs, rhob_coefs, marder_coefs, alphadt. rewrite E1, E2, E3, E4, E5, E6.
  rewrite !(T (gnx g) (gnx g')), !(T (gny g) (gny g')), !(T (gnz g) (gnz g')) by assumption. repeat split; reflexivity.
Qed.
Print Assumptions C54_same_constants.

(* Gauss's law at every node of the box, those on the faces between ranks included: one advance of E in lossless materials changes div D by
   -dt/eps0 div J, up to the damping of the divergence of tca. *)
Definition g_div_node (k : coefs R) (F : gfield R) (cx cy cz : comp) (g : cell) : R :=
  (px k * (F cx g - F cx (dn AX g)) + py k * (F cy g - F cy (dn AY g)) + pz k * (F cz g - F cz (dn AZ g)))%R.
Theorem C54_gauss_every_node : forall L num ws G mt fma P gm gr dmp F wall W W2,
  layout_ok L -> box L num ws G -> even_sizes L -> (forall a i, 0 <= i < l_p L a -> l_d L a i <> 0%R) -> fits R L P -> alike R L mt gm ->
  (forall p, inside L p -> lossless gr (mt p)) ->
  field_repeats L F -> holds_field L num F W -> walls_of R L GhostTangB F wall ->
  on_ranks R Rarith RA L num ws G mt fma P (AdvanceE (advance_e_coefs gr dmp)) wall W W2 ->
  exists F', holds_field L num F' W2 /\ field_repeats L F' /\ forall g,
    (g_div_d R RA gm (div_coefs gr) F' g = g_div_d R RA gm (div_coefs gr) F g - dt gr / eps0 gr * g_div_node (div_coefs gr) F Jfx Jfy Jfz g
       - dmp * g_div_node (div_coefs gr) F Tcax Tcay Tcaz g)%R /\
    (g_div_node (div_coefs gr) F' Tcax Tcay Tcaz g = - dmp * g_div_node (div_coefs gr) F Tcax Tcay Tcaz g)%R.
Proof.
  intros L num ws G mt fma P gm gr dmp F wall W W2 OK HB Ev Hd Fit Al Lo Fr HF Hw H.
  destruct (C54_sweep R Rarith RA L num ws G mt fma P gm F (AdvanceE (advance_e_coefs gr dmp)) wall W W2 OK HB Ev (C54_clear_weights_exact L Hd) Fit Al Fr HF ltac:(intros e E; injection E as <-; exact Hw) H) as [H1 H2].
  exists (g_sweep RA gm F (AdvanceE (advance_e_coefs gr dmp))). split; [exact H1|]. split; [exact H2|].
  assert (I0 : inside L (0, 0, 0)) by (intros a; destruct OK as [O _]; specialize (O a); destruct a; cbn; lia).
  specialize (Lo _ I0). destruct Al as [_ Al]. destruct (Al _ I0) as [Et _].
  intros [[x y] z]. cbn [g_sweep]. unfold g_div_d, g_div_node, g_dx, g_dy, g_dz, g_advance_e, g_e, g_tca, gmat, dn. cbn [put at_].
  rewrite <- !Et. cbn [RA a_add a_sub a_mul].
  rewrite !lossless_e by (first [apply lossless_coefs; exact Lo | apply (lossless_coefs gr (mt (0,0,0)) _ Lo)]).
  unfold g_curl_x, g_curl_y, g_curl_z, dn, advance_e_coefs, div_coefs, RA; cbn [px py pz cj damp a_add a_sub a_mul put at_].
  rewrite !if_thick_scale. split; ring.
Qed.
Print Assumptions C54_gauss_every_node.

(* The ranks can carry out every sweep, so runs of any sequence exist from any arrays. *)
Lemma floc_dec (a b : floc) : {a = b} + {a <> b}.
Proof. decide equality; [apply Z.eq_dec|decide equality]. Qed.
Lemma pick {T} (R : Z -> T -> Prop) (d : T) n : (forall r, 0 <= r < n -> exists m, R r m) -> exists W : Z -> T, forall r, 0 <= r < n -> R r (W r).
Proof.
  intros H. assert (K : forall k : nat, Z.of_nat k <= n -> exists W : Z -> T, forall r, 0 <= r < Z.of_nat k -> R r (W r)).
  { induction k as [|k IH]; intros Hk; [exists (fun _ => d); lia|]. destruct IH as (W & HW); [lia|]. destruct (H (Z.of_nat k)) as (m & Hm); [lia|].
    exists (fun r => if r =? Z.of_nat k then m else W r). intros r Hr. destruct (Z.eqb_spec r (Z.of_nat k)) as [-> | N]; [exact Hm|apply HW; lia]. }
  destruct (Z_le_gt_dec 0 n) as [Hn|Hn]; [|exists (fun _ => d); lia]. destruct (K (Z.to_nat n)) as (W & HW); [lia|]. exists W. intros r Hr. apply HW. lia.
Qed.
Theorem C54_runs_exist : forall V RAr A L num ws G mt fma P s W, layout_ok L -> box L num ws G -> exists W2, on_ranks V RAr A L num ws G mt fma P s (fun _ => []) W W2.
Proof.
  intros V RAr A L num ws G mt fma P s W OK HB.
  assert (Ch : forall run : cell -> mem V -> mem V -> Prop, (forall p m, exists r, run p m r) -> exists W2, forall p, inside L p -> run p (W (num p)) (W2 (num p))).
  { intros run Hr. destruct (pick (fun r m => forall p, inside L p -> num p = r -> run p (W r) m) (W 0) ws) as (W2 & H2).
    - intros r Rr. pose proof HB as (_ & In_ & On & _). destruct (On r Rr) as (p & Hp & <-). destruct (Hr p (W (num p))) as (m & Hm). exists m.
      intros p' Hp' E. rewrite (In_ p' p Hp' Hp E). exact Hm.
    - exists W2. intros p Hp. apply H2; [apply HB, Hp|exact Hp|reflexivity]. }
  assert (Gx : forall e (run : cell -> list (floc * V) -> mem V -> mem V -> Prop), ghosted e = true -> (forall p Gh m, exists r, run p Gh m r) ->
             exists W2, with_exchange V RAr L num ws G e (fun _ => []) run W W2).
  { intros e run Hg Hr.
    assert (X : exists W1, run_phases V RAr ws G e (phases e) W W1).
    { assert (K : forall r, 0 <= r < ws -> exists F', receive_all V RAr ws G e r (messages V ws G e six W) six (W r) = Some F').
      { intros r Rr. pose proof HB as (_ & _ & On & _). destruct (On r Rr) as (p & Hp & <-). apply (receive_list_ok RAr L num ws G OK HB e six W p six_dirs Hp). apply incl_refl. }
      exists (fun r => match receive_all V RAr ws G e r (messages V ws G e six W) six (W r) with Some F => F | None => W r end).
      unfold phases. rewrite Hg. econstructor; [|constructor; reflexivity]. intros r Rr. destruct (K r Rr) as (F' & EF). rewrite EF. reflexivity. }
    destruct X as (W1 & HW1).
    set (locs := fun p => nodup floc_dec (flat_map (fun d => map (locv (size_at L p)) (addrs (size_at L p) (fst d) (recv_plane e (snd d) (l_n L (fst d) (at_ (fst d) p))) (send_items e (fst d)))) six)).
    set (Gh := fun p => map (fun l => (l, W1 (num p) l)) (locs p)).
    destruct (Ch (fun p m r => run p (Gh p) m r)) as (W2 & H2); [intros p m; apply Hr|].
    exists W2, W1, Gh. split; [exact HW1|]. intros p Hp. split; [|split; [|apply H2, Hp]].
    - split.
      + unfold Gh. rewrite map_map. cbn [fst]. rewrite map_id. apply NoDup_nodup.
      + intros c v x Hin. unfold Gh in Hin. apply in_map_iff in Hin. destruct Hin as (l & E & Hl). injection E as -> _. unfold locs in Hl. apply nodup_In in Hl.
        apply in_flat_map in Hl. destruct Hl as ((a & t) & Hd & Hl). apply in_map_iff in Hl. destruct Hl as ((c' & q) & E & Hq). injection E as -> <-. cbn [fst snd] in Hq |- *.
        pose proof (six_dirs (a, t) Hd) as Ht. cbn [snd] in Ht. apply (got_ghost L e Hg p a t c q Ht) in Hq. destruct Hq as (Q1 & Q2 & Q3).
        assert (Og : on_ghost (l_n L AX (at_ AX p)) (l_n L AY (at_ AY p)) (l_n L AZ (at_ AZ p)) (match a with AX => 0 | AY => 1 | AZ => 2 end) (vox3 (size_at L p) q)).
        { assert (M : forall b, 0 <= at_ b q <= l_n L b (at_ b p) + 1).
          { intros b. destruct OK as [_ O]. pose proof (O b _ (Hp b)). destruct (axis_dec b a) as [-> | N]; [destruct (t <? 0); lia|]. specialize (Q3 b N). destruct (node_on c b); lia. }
          pose proof (M AX); pose proof (M AY); pose proof (M AZ). destruct q as [[qx qy] qz]. exists qx, qy, qz. cbn [at_] in *. repeat (split; [assumption|]). split; [reflexivity|].
          destruct a; cbn [at_] in Q2; destruct (t <? 0); tauto. }
        destruct e; try discriminate Hg; destruct a, c; try discriminate Q1; cbn [ghosts_of];
          unfold ghost_tang_b, ghost_norm_e, ghost_div_b; try tauto; (split; [reflexivity|]); eexists; (split; [|exact Og]); tauto.
    - intros a t c q Ht (Q1 & Q2 & Q3). destruct (beside L a (at_ a p) t) eqn:E; [|intros x []].
      unfold Gh. apply (in_map (fun l => (l, W1 (num p) l))). unfold locs. apply nodup_In. apply in_flat_map. exists (a, - t). split; [destruct Ht as [-> | ->], a; cbn; tauto|].
      cbn [fst snd]. change (c, vox3 (size_at L p) q) with (locv (size_at L p) (c, q)). apply in_map. apply (got_ghost L e Hg p a (- t) c q); [unfold sign; lia|].
      split; [exact Q1|]. split; [|exact Q3]. rewrite Q2. destruct Ht as [-> | ->]; reflexivity. }
  destruct s as [k|k|k|k|k|k|k]; cbn [on_ranks].
  - apply (Ch (fun p => advance_b_run V A (mt p) k (l_n L AX (at_ AX p)) (l_n L AY (at_ AY p)) (l_n L AZ (at_ AZ p)) (fma p) (P p))). intros p m. apply (runs_exist V A (mt p) k _ _ _ (fma p) (P p) [] m).
  - apply Gx; [reflexivity|]. intros p Gh m. apply (runs_exist V A (mt p) k (l_n L AX (at_ AX p)) (l_n L AY (at_ AY p)) (l_n L AZ (at_ AZ p)) (fma p) (P p) Gh m).
  - apply Gx; [reflexivity|]. intros p Gh m. apply (runs_exist V A (mt p) k (l_n L AX (at_ AX p)) (l_n L AY (at_ AY p)) (l_n L AZ (at_ AZ p)) (fma p) (P p) Gh m).
  - apply Gx; [reflexivity|]. intros p Gh m. apply (runs_exist V A (mt p) k (l_n L AX (at_ AX p)) (l_n L AY (at_ AY p)) (l_n L AZ (at_ AZ p)) (fma p) (P p) Gh m).
  - apply (Ch (fun p => div_b_err_run V A (mt p) k (l_n L AX (at_ AX p)) (l_n L AY (at_ AY p)) (l_n L AZ (at_ AZ p)) (fma p) (P p))). intros p m. apply (runs_exist V A (mt p) k _ _ _ (fma p) (P p) [] m).
  - apply Gx; [reflexivity|]. intros p Gh m. apply (runs_exist V A (mt p) k (l_n L AX (at_ AX p)) (l_n L AY (at_ AY p)) (l_n L AZ (at_ AZ p)) (fma p) (P p) Gh m).
  - apply (Ch (fun p => clean_div_e_run V A (mt p) k (l_n L AX (at_ AX p)) (l_n L AY (at_ AY p)) (l_n L AZ (at_ AZ p)) (fma p) (P p))). intros p m. apply (runs_exist V A (mt p) k _ _ _ (fma p) (P p) [] m).
Qed.
Print Assumptions C54_runs_exist.

(* Two cells along x, joined end to end, on one rank and on two. *)
Definition La (k : Z) : layout R := mk_layout R (fun a => match a with AX => k | _ => 1 end) (fun _ => true) (fun a _ => match a with AX => 2 / k | _ => 1 end) (fun _ _ => 1%R).
Definition Ga (k : Z) (r : Z) : cgrid R := mk_cgrid R (2 / k, 1, 1) (fun _ => 1%R) (fun p => if (p =? 12) || (p =? 14) then (r + 1) mod k else r).
Lemma La_ok k : k = 1 \/ k = 2 -> layout_ok (La k).
Proof. intros [-> | ->]; (split; [intros [| |]; cbn; lia|intros [| |] i _; cbn; lia]). Qed.
Lemma La_box k : k = 1 \/ k = 2 -> box (La k) (at_ AX) k (Ga k).
Proof.
  intros Hk. unfold box, inside.
  assert (I : forall p, (forall a, 0 <= at_ a p < l_p (La k) a) -> p = (0, 0, 0) \/ k = 2 /\ p = (1, 0, 0)).
  { intros [[x y] z] H. pose proof (H AX). pose proof (H AY). pose proof (H AZ). cbn in *. assert (y = 0) as -> by lia; assert (z = 0) as -> by lia. assert (x = 0 \/ k = 2 /\ x = 1) as [-> | [-> ->]] by lia; tauto. }
  split; [|split; [|split; [|split; [|split]]]].
  - intros p H. apply (H AX).
  - intros p q H H' E. destruct (I p H) as [->| [-> ->]]; destruct (I q H') as [->| [K ->]]; cbn in E; try reflexivity; lia.
  - intros r Hr. exists (r, 0, 0). split; [intros [| |]; cbn; lia|reflexivity].
  - intros p H. destruct (I p H) as [->| [_ ->]]; reflexivity.
  - intros p a H. reflexivity.
  - intros p a s H Hs. destruct (I p H) as [-> | [-> ->]].
    + destruct Hk as [-> | ->]; destruct Hs as [-> | ->]; destruct a; vm_compute; intuition congruence.
    + destruct Hs as [-> | ->]; destruct a; vm_compute; intuition congruence.
Qed.
(* a field that alternates along x, and the arrays that hold it *)
Definition Fa : gfield R := fun c g => match c with Ey => IZR (at_ AX g mod 2) | _ => 0%R end.
Definition Wa (k : Z) (r : Z) : mem R := fun l => match fst l with Ey => IZR ((snd l mod (2 / k + 2) + r) mod 2) | _ => 0%R end.
Lemma Fa_rep k : k = 1 \/ k = 2 -> field_repeats (La k) Fa.
Proof.
  intros Hk c a [[x y] z] _. unfold Fa. destruct c; try reflexivity. destruct a; cbn [at_ put]; [|reflexivity..].
  assert (total (La k) AX = 2) as -> by (destruct Hk as [-> | ->]; reflexivity). replace (x + 2) with (x + 1 * 2) by lia. rewrite Z.mod_add by lia. reflexivity.
Qed.
Lemma Wa_holds k : k = 1 \/ k = 2 -> holds_field (La k) (at_ AX) Fa (Wa k).
Proof.
  intros Hk c [[px_ py_] pz_] [[x y] z] Hp Hq. pose proof (Hq AX) as Qx. pose proof (Hp AX) as Px. cbn [at_ La l_n l_p] in Qx, Px.
  unfold Wa, Fa. cbn [fst snd]. destruct c; try reflexivity. change (1 <= x <= 2 / k + 1) in Qx. unfold gplace, place. cbn [at_ La l_n].
  assert (E : vox3 (size_at (La k) (px_, py_, pz_)) (x, y, z) = x + (2 / k + 2) * (y + 3 * z)).
  { unfold vox3, size_at. cbn [at_ La l_n]. unfold voxel. ring. }
  rewrite E. rewrite (Z.mul_comm (2 / k + 2)), Z.mod_add by (destruct Hk as [-> | ->]; cbn; lia).
  rewrite (Z.mod_small x) by lia. f_equal. f_equal. destruct Hk as [-> | ->].
  - assert (px_ = 0) as -> by lia. cbn. lia.
  - assert (px_ = 0 \/ px_ = 1) as [-> | ->] by lia; [change (x + 0 = 0 + x)|change (x + 1 = 1 + x)]; lia.
Qed.
Definition mca : mcoef R := (mk_mcoef R 1 1 1 1 1 1 1 1 1 1 1 1 1)%R.
Definition mta : mats R := mk_mats R (fun _ => 0) (fun _ => 0) (fun _ => 0) (fun _ => 0) (fun _ => 0) (fun _ => 0) (fun _ => 0) (fun _ => mca).
Definition gma : gmats R := mk_gmats R (fun _ => 0) (fun _ => 0) (fun _ => 0) (fun _ => 0) (fun _ => 0) (fun _ => 0) (fun _ => 0) (fun _ => mca).
Lemma alike_a k : alike R (La k) (fun _ => mta) gma.
Proof. split; [repeat split|]. intros p _. split; [reflexivity|]. intros q _. repeat split. Qed.
Lemma fits_a k : k = 1 \/ k = 2 -> fits R (La k) (fun _ => 4).
Proof. intros Hk p Hp. cbn [La l_n]. destruct Hk as [-> | ->]; vm_compute; intuition congruence. Qed.

(* Two ranks of one cell, advance of B and then of E with the constants of the undivided mesh: Cbz becomes 0 - (0 - 1) = 1 in the first cell and -1 in the
   second; Ey at the first face needs Cbz of the other rank, 1 + (0 - (1 - -1)) = -1. *)
Definition ka : coefs R := (mk_coefs R 1 1 1 1 0)%R.
Example C54_example : forall k, k = 1 \/ k = 2 ->
  (exists W2, runs R Rarith RA (La k) (at_ AX) k (Ga k) (fun _ => mta) (fun _ => false) (fun _ => 4) [AdvanceB ka; AdvanceE ka] (Wa k) W2) /\
  forall W2, runs R Rarith RA (La k) (at_ AX) k (Ga k) (fun _ => mta) (fun _ => false) (fun _ => 4) [AdvanceB ka; AdvanceE ka] (Wa k) W2 ->
  W2 0 (Cbz, voxel (2 / k) 1 1 1 1 1) = 1%R /\ W2 0 (Ey, voxel (2 / k) 1 1 1 1 1) = (-1)%R.
Proof.
  intros k Hk. split.
  - destruct (C54_runs_exist R Rarith RA (La k) (at_ AX) k (Ga k) (fun _ => mta) (fun _ => false) (fun _ => 4) (AdvanceB ka) (Wa k) (La_ok k Hk) (La_box k Hk)) as (W1 & H1).
    destruct (C54_runs_exist R Rarith RA (La k) (at_ AX) k (Ga k) (fun _ => mta) (fun _ => false) (fun _ => 4) (AdvanceE ka) W1 (La_ok k Hk) (La_box k Hk)) as (W2 & H2).
    exists W2. econstructor; [exact H1|]. econstructor; [exact H2|]. constructor.
  - intros W2 H.
    assert (X : holds_field (La k) (at_ AX) (fold_left (g_sweep RA gma) [AdvanceB ka; AdvanceE ka] Fa) W2).
    { eapply (C54_run R Rarith RA (La k) (at_ AX) k (Ga k) (fun _ => mta) (fun _ => false) (fun _ => 4) gma _ Fa (Wa k) W2);
        [apply La_ok, Hk|apply La_box, Hk|intros a i j _ _; reflexivity|apply C54_clear_weights_exact; intros a i _; cbn; lra|apply fits_a, Hk|apply alike_a|reflexivity|apply Fa_rep, Hk|apply Wa_holds, Hk|exact H]. }
    assert (I0 : inside (La k) (0, 0, 0)) by (intros [| |]; cbn; lia).
    assert (Q : forall c, holds (La k) c (0, 0, 0) (1, 1, 1)) by (intros c [| |]; cbn [at_ La l_n]; destruct Hk as [-> | ->]; cbn; destruct c; cbn; lia).
    split.
    + refine (eq_trans (X Cbz (0, 0, 0) (1, 1, 1) I0 (Q _)) _). cbv -[IZR Rplus Rminus Rmult Ropp]. lra.
    + refine (eq_trans (X Ey (0, 0, 0) (1, 1, 1) I0 (Q _)) _). cbv -[IZR Rplus Rminus Rmult Ropp]. lra.
Qed.
(* With the constants that each rank works out from its own cell counts the two do not agree: a rank of one cell along x drops the x derivatives
   although the mesh has two.  The same field is held before, and Cbz of the first cell is 1 on one rank and 0 on two. *)
Theorem C54_thin_layer_refuted : exists W W', holds_field (La 1) (at_ AX) Fa W /\ holds_field (La 2) (at_ AX) Fa W' /\
  let k n := advance_b_coefs (mk_rgrid n 1 1 1%R 1%R 1%R 1%R 1%R 1%R) 1%R in
  (exists W2, on_ranks R Rarith RA (La 1) (at_ AX) 1 (Ga 1) (fun _ => mta) (fun _ => false) (fun _ => 4) (AdvanceB (k 2)) (fun _ => []) W W2) /\
  (exists W2, on_ranks R Rarith RA (La 2) (at_ AX) 2 (Ga 2) (fun _ => mta) (fun _ => false) (fun _ => 4) (AdvanceB (k 1)) (fun _ => []) W' W2) /\
  forall W2 W2', on_ranks R Rarith RA (La 1) (at_ AX) 1 (Ga 1) (fun _ => mta) (fun _ => false) (fun _ => 4) (AdvanceB (k 2)) (fun _ => []) W W2 ->
  on_ranks R Rarith RA (La 2) (at_ AX) 2 (Ga 2) (fun _ => mta) (fun _ => false) (fun _ => 4) (AdvanceB (k 1)) (fun _ => []) W' W2' ->
  gplace (La 1) (0, 0, 0) (1, 1, 1) = gplace (La 2) (0, 0, 0) (1, 1, 1) /\
  W2 0 (Cbz, vox3 (size_at (La 1) (0, 0, 0)) (1, 1, 1)) = 1%R /\ W2' 0 (Cbz, vox3 (size_at (La 2) (0, 0, 0)) (1, 1, 1)) = 0%R.
Proof.
  exists (Wa 1), (Wa 2). split; [apply Wa_holds; tauto|]. split; [apply Wa_holds; tauto|]. cbv zeta.
  split; [apply C54_runs_exist; [apply La_ok; tauto|apply La_box; tauto]|]. split; [apply C54_runs_exist; [apply La_ok; tauto|apply La_box; tauto]|].
  assert (K : forall k n W2, k = 1 \/ k = 2 -> on_ranks R Rarith RA (La k) (at_ AX) k (Ga k) (fun _ => mta) (fun _ => false) (fun _ => 4) (AdvanceB (advance_b_coefs (mk_rgrid n 1 1 1%R 1%R 1%R 1%R 1%R 1%R) 1%R)) (fun _ => []) (Wa k) W2 ->
    W2 0 (Cbz, vox3 (size_at (La k) (0, 0, 0)) (1, 1, 1)) = if_thick n 1%R).
  { intros k n W2 Hk H.
    destruct (C54_sweep R Rarith RA (La k) (at_ AX) k (Ga k) (fun _ => mta) (fun _ => false) (fun _ => 4) gma Fa (AdvanceB (advance_b_coefs (mk_rgrid n 1 1 1%R 1%R 1%R 1%R 1%R 1%R) 1%R)) (fun _ => []) (Wa k) W2) as [X _];
      [apply La_ok, Hk|apply La_box, Hk|intros a i j _ _; reflexivity|apply C54_clear_weights_exact; intros a i _; cbn; lra|apply fits_a, Hk|apply alike_a|apply Fa_rep, Hk|apply Wa_holds, Hk|discriminate|exact H|].
    assert (I0 : inside (La k) (0, 0, 0)) by (intros [| |]; cbn; lia).
    assert (Q : holds (La k) Cbz (0, 0, 0) (1, 1, 1)) by (intros [| |]; cbn [at_ La l_n]; destruct Hk as [-> | ->]; cbn; lia).
    refine (eq_trans (X Cbz (0, 0, 0) (1, 1, 1) I0 Q) _). cbn [g_sweep]. unfold g_advance_b, advance_b_coefs, Fa, gplace, place, up. cbn. unfold if_thick. destruct (1 <? n); lra. }
  intros W2 W2' H H'. split; [reflexivity|]. rewrite (K 1 2 W2 ltac:(tauto) H), (K 2 1 W2' ltac:(tauto) H'). split; reflexivity.
Qed.
Print Assumptions C54_thin_layer_refuted.
