(* boundary_p: what happens to the movers, the exchange between ranks, the injection. *)
From Flocq Require Import Core IEEE754.BinarySingleNaN.
Require Import Reals Lra.
Require Import ZArith List Bool Lia ZifyBool Permutation Sorting.Sorted.
Require Import Verif.FloatModel Verif.FloatProofs Verif.ConvProofs.
Require Import Verif.SortModel Verif.SortProofs Verif.ParticleModel Verif.MoverModel Verif.RemoveProofs.
Import ListNotations.
Open Scope Z_scope.

Section B.
Context {V : Type} (K : num V).

(* ---------- packing ---------- *)

(* The fate of the particle listed by mover m. *)
Definition fate_of (b : bgrid) (sp : Z) (ps : list (part V)) (m : mover (V := V)) : option (fate (V := V)) :=
  match nth_error ps (Z.to_nat (m_i m)) with Some p => dispatch K b sp p m | None => None end.

Definition movers_ok (s : spec (V := V)) : Prop :=
  StronglySorted Z.lt (map m_i (s_pm s)) /\
  (forall i, In i (map m_i (s_pm s)) -> 0 <= i < Z.of_nat (length (s_p s))).

Lemma remove_loop_acc {A} : forall idx (ps : list A) a,
  remove_loop ps idx a = match remove_loop ps idx [] with Some (g, p) => Some (a ++ g, p) | None => None end.
Proof.
  induction idx as [|i idx IH]; intros ps a; cbn [remove_loop]; [rewrite app_nil_r; reflexivity|].
  destruct (remove_at ps i) as [[y q]|]; [|reflexivity]. rewrite (IH q (a ++ [y])), (IH q ([] ++ [y])).
  destruct (remove_loop q idx []) as [[g p]|]; [|reflexivity]. rewrite <- app_assoc. reflexivity.
Qed.

Lemma pack_loop_spec b sp : forall ms ps out, Sgt (map m_i ms) ->
  (forall i, In i (map m_i ms) -> 0 <= i < Z.of_nat (length ps)) ->
  (forall m, In m ms -> fate_of b sp ps m <> None) ->
  exists fs g ps', pack_loop K b sp ps ms out = Some (out ++ fs, ps') /\
    map Some fs = map (fate_of b sp ps) ms /\
    remove_loop ps (map m_i ms) [] = Some (g, ps').
Proof.
  induction ms as [|m ms IH]; intros ps out HS HB HF; cbn [pack_loop map].
  - exists [], [], ps. rewrite app_nil_r. repeat split; reflexivity.
  - apply StronglySorted_inv in HS. destruct HS as (HS & F). rewrite Forall_forall in F.
    destruct (remove_at_spec ps (m_i m) (HB _ (or_introl eq_refl))) as (x & ps1 & E & Ex & P & L & Kp).
    rewrite E. pose proof (HF m (or_introl eq_refl)) as Hm. unfold fate_of in Hm at 1. rewrite Ex in Hm.
    destruct (dispatch K b sp x m) as [f|] eqn:Ed; [|congruence].
    assert (Same : forall m', In m' ms -> fate_of b sp ps1 m' = fate_of b sp ps m').
    { intros m' Hm'. unfold fate_of. rewrite Kp; [reflexivity|].
      specialize (F (m_i m') (in_map m_i _ _ Hm')). pose proof (HB (m_i m') (or_intror (in_map m_i _ _ Hm'))). lia. }
    destruct (IH ps1 (out ++ [f]) HS) as (fs & g & ps' & E' & Ef & Er).
    { intros j Hj. specialize (F j Hj). pose proof (HB j (or_intror Hj)). pose proof (HB (m_i m) (or_introl eq_refl)). lia. }
    { intros m' Hm'. rewrite Same by exact Hm'. apply HF. right; exact Hm'. }
    exists (f :: fs), (x :: g), ps'. rewrite <- app_assoc in E'. split; [exact E'|]. split.
    + cbn [map]. f_equal.
      * unfold fate_of. rewrite Ex. symmetry. exact Ed.
      * rewrite Ef. apply map_ext_in, Same.
    + cbn [remove_loop]. rewrite E.
      rewrite (remove_loop_acc _ _ [x]), Er. reflexivity.
Qed.

(* Fates, species by species: outs k lists the fates of species sp+k in program order. *)
Inductive packed (b : bgrid) : Z -> list (spec (V := V)) -> list (list (fate (V := V))) -> list (spec (V := V)) -> Prop :=
| packed_nil sp : packed b sp [] [] []
| packed_cons sp s ss fs ps' outs ss' :
    map Some fs = map (fate_of b sp (s_p s)) (rev (s_pm s)) ->
    Permutation ps' (others (s_p s) (map m_i (s_pm s))) ->
    packed b (sp + 1) ss outs ss' ->
    packed b sp (s :: ss) (fs :: outs) (mk_spec (s_q s) ps' [] :: ss').

Lemma pack_species_spec b : forall ss sp,
  Forall movers_ok ss ->
  (forall k s m, nth_error ss k = Some s -> In m (s_pm s) -> fate_of b (sp + Z.of_nat k) (s_p s) m <> None) ->
  exists outs ss', pack_species K b sp ss = Some (concat outs, ss') /\ packed b sp ss outs ss'.
Proof.
  induction ss as [|s ss IH]; intros sp HM HF; cbn [pack_species].
  - exists [], []. split; [reflexivity|constructor].
  - inversion HM as [|s0 ss0 H1 H2]; subst. destruct H1 as (HS & HB).
    destruct (pack_loop_spec b sp (rev (s_pm s)) (s_p s) []) as (fs & g & ps' & E & Ef & Er).
    + rewrite map_rev. apply Slt_rev, HS.
    + intros i Hi. rewrite map_rev in Hi. apply HB, in_rev, Hi.
    + intros m Hm. apply in_rev in Hm. pose proof (HF 0%nat s m eq_refl Hm) as Q. rewrite Z.add_0_r in Q. exact Q.
    + rewrite E. destruct (IH (sp + 1) H2) as (outs & ss' & E' & P').
      { intros k s1 m Hk Hm. pose proof (HF (S k) s1 m Hk Hm) as Q. replace (sp + Z.of_nat (S k)) with (sp + 1 + Z.of_nat k) in Q by lia. exact Q. }
      rewrite E'. exists (fs :: outs), (mk_spec (s_q s) ps' [] :: ss'). split; [reflexivity|]. constructor; [exact Ef| |exact P'].
      rewrite map_rev in Er. destruct (remove_movers_spec (s_p s) _ HS HB) as (p2 & E2 & P2 & _).
      unfold remove_movers in E2. rewrite Er in E2. injection E2 as _ <-. exact P2.
Qed.

Lemma map_Some_length {A B} (l : list A) (f : B -> option A) l' : map Some l = map f l' -> length l = length l'.
Proof. intros H. apply (f_equal (@length _)) in H. rewrite !map_length in H. exact H. Qed.

Definition total_nm (ss : list (spec (V := V))) : nat := fold_right (fun s n => (length (s_pm s) + n)%nat) 0%nat ss.
Lemma packed_length b sp ss outs ss' : packed b sp ss outs ss' -> length (concat outs) = total_nm ss.
Proof.
  induction 1 as [|sp s ss fs ps' outs ss' Ef P H IH]; [reflexivity|]. cbn [concat total_nm fold_right].
  rewrite app_length, IH. apply map_Some_length in Ef. rewrite Ef, rev_length. reflexivity.
Qed.

(* at most one injector per mover in every buffer *)
Lemma sends_le f l : (length (sends (V := V) f l) <= length l)%nat.
Proof.
  induction l as [|x l IH]; [cbn; lia|]. unfold sends in *. cbn [flat_map length]. rewrite app_length.
  destruct x as [p|g i|k p m g|p]; cbn [length]; try lia. destruct (f =? g); cbn [length]; lia.
Qed.
Lemma locals_le pbc l : (forall k p m f, (length (pbc k p m f) <= 1)%nat) -> (length (locals (V := V) pbc l) <= length l)%nat.
Proof.
  intros H. induction l as [|x l IH]; [cbn; lia|]. unfold locals in *. cbn [flat_map length]. rewrite app_length.
  destruct x as [p|g i|k p m g|p]; cbn [length]; try lia. specialize (H k p m g). lia.
Qed.

(* a sent particle *)
Lemma sent_inv b sp p m f ij : 0 <= mrangeh (b_mesh b) -> dispatch K b sp p m = Some (Sent f ij) ->
  let v := Z.shiftr (pi p) 3 in
  f = Z.land (pi p) 7 /\ 0 <= f < 6 /\ shared b f = true /\
  exists nn, nbr_at (b_mesh b) v f = Some nn /\ nn <> absorb_particles /\ 0 <= nn /\
    ~ (mrangel (b_mesh b) <= nn <= mrangeh (b_mesh b)) /\
    ij_sp ij = sp /\ ij_disp ij = m_disp m /\ pu (ij_p ij) = pu p /\ pw (ij_p ij) = pw p /\
    pi (ij_p ij) = nn - nthz (b_range b) (nthz (b_bc b) f) /\
    vget (pd (ij_p ij)) (face_ax f) = face_dir K f /\
    (forall a, a <> face_ax f -> vget (pd (ij_p ij)) a = vget (pd p) a).
Proof.
  intros HR. unfold dispatch. cbv zeta. destruct (nbr_at (b_mesh b) (Z.shiftr (pi p) 3) (Z.land (pi p) 7)) as [nn|] eqn:En; [|discriminate].
  destruct (Z.eqb_spec nn absorb_particles); [discriminate|].
  destruct ((0 <=? nn) && (nn <? mrangel (b_mesh b)) || (mrangeh (b_mesh b) <? nn) && (nn <=? nthz (b_range b) (b_size b))) eqn:Es.
  - destruct ((Z.land (pi p) 7 <? 6) && shared b (Z.land (pi p) 7)) eqn:Eh; [|discriminate].
    intros H. injection H as <- <-. apply andb_prop in Eh. destruct Eh as (E1 & E2).
    assert (0 <= Z.land (pi p) 7) by (apply Z.land_nonneg; lia).
    split; [reflexivity|]. split; [lia|]. split; [exact E2|]. exists nn. split; [exact En|]. split; [assumption|].
    cbn [ij_sp ij_disp ij_p pu pw pi pd].
    split; [lia|]. split; [lia|]. repeat (split; [reflexivity|]).
    split; [destruct (face_ax _); reflexivity|].
    intros a Ha. destruct (face_ax (Z.land (pi p) 7)), a; try reflexivity; contradiction Ha; reflexivity.
  - destruct ((0 <=? - nn - 3) && (- nn - 3 <? b_nb b)); discriminate.
Qed.

(* ---------- the exchange ---------- *)

Definition opp (f : Z) : Z := (f + 3) mod 6.
Definition faces : list Z := [0; 1; 2; 3; 4; 5].

(* Topologies that agree: a rank's partner across a shared face has that rank across the opposite
   face. *)
Definition reciprocal (n : Z) (B : Z -> bgrid) : Prop :=
  forall r f, 0 <= r < n -> 0 <= f < 6 ->
  b_rank (B r) = r /\ b_size (B r) = n /\
  (shared (B r) f = true -> nthz (b_bc (B (nthz (b_bc (B r)) f))) (opp f) = r).

Lemma in_faces f : In f faces <-> 0 <= f < 6.
Proof. cbn. lia. Qed.

Lemma shared_partner n B r f : reciprocal n B -> 0 <= r < n -> 0 <= f < 6 -> shared (B r) f = true ->
  let s := nthz (b_bc (B r)) f in 0 <= s < n /\ s <> r /\ shared (B s) (opp f) = true /\ nthz (b_bc (B s)) (opp f) = r.
Proof.
  intros R Hr Hf Hs. cbv zeta. destruct (R r f Hr Hf) as (E1 & E2 & E3). specialize (E3 Hs).
  unfold shared in Hs. rewrite E1, E2 in Hs. set (s := nthz (b_bc (B r)) f) in *.
  assert (H : 0 <= s < n /\ s <> r) by lia. destruct H as (H1 & H2). split; [exact H1|]. split; [exact H2|]. split; [|exact E3].
  destruct (R s f H1 Hf) as (F1 & F2 & _). unfold shared. rewrite F1, F2, E3. lia.
Qed.

Lemma received_eq n B (out : Z -> list (fate (V := V))) r f : reciprocal n B -> 0 <= r < n -> 0 <= f < 6 -> shared (B r) f = true ->
  received B out r f = sends (opp f) (out (nthz (b_bc (B r)) f)).
Proof.
  intros R Hr Hf Hs. destruct (shared_partner n B r f R Hr Hf Hs) as (H1 & H2 & H3 & H4).
  unfold received. cbv zeta. set (s := nthz (b_bc (B r)) f) in *.
  assert (C : forall f', 0 <= f' < 6 -> f2b f' = f2rb f -> f' = opp f).
  { intros f' Hf' E. apply in_faces in Hf, Hf'. cbn in Hf, Hf'.
    repeat (destruct Hf as [<-|Hf]; [|]); try contradiction; repeat (destruct Hf' as [<-|Hf']; [|]); try contradiction; try reflexivity; discriminate. }
  assert (C' : f2b (opp f) = f2rb f).
  { apply in_faces in Hf. cbn in Hf. repeat (destruct Hf as [<-|Hf]; [|]); try contradiction; reflexivity. }
  assert (HO : In (opp f) faces) by (apply in_faces; unfold opp; apply Z.mod_pos_bound; lia).
  change [0; 1; 2; 3; 4; 5] with faces.
  assert (N : NoDup faces) by (repeat constructor; cbn; lia).
  assert (G : forall l, NoDup l -> (forall x, In x l -> 0 <= x < 6) ->
    flat_map (fun f' => if shared (B s) f' && (nthz (b_bc (B s)) f' =? r) && (f2b f' =? f2rb f) then sends f' (out s) else []) l =
    if existsb (Z.eqb (opp f)) l then sends (opp f) (out s) else []).
  { induction l as [|x l IH]; intros NL HL; [reflexivity|]. apply NoDup_cons_iff in NL. destruct NL as (Nx & NL). cbn [flat_map existsb].
    rewrite IH by (auto; intros y Hy; apply HL; right; exact Hy).
    destruct (Z.eqb_spec (opp f) x) as [<-|Ne].
    - rewrite H3, H4, C'. rewrite !Z.eqb_refl. cbn [andb orb].
      replace (existsb (Z.eqb (opp f)) l) with false; [apply app_nil_r|].
      symmetry. apply not_true_is_false. intros Q. apply existsb_exists in Q. destruct Q as (y & Hy & Ey).
      apply Z.eqb_eq in Ey. subst y. contradiction.
    - cbn [orb]. replace (f2b x =? f2rb f) with false; [rewrite andb_false_r; reflexivity|].
      symmetry. apply Z.eqb_neq. intros Q. apply Ne. symmetry. apply C; [apply HL; left; reflexivity|exact Q]. }
  rewrite G by (auto; intros x Hx; apply in_faces, Hx).
  replace (existsb (Z.eqb (opp f)) faces) with true; [reflexivity|].
  symmetry. apply existsb_exists. exists (opp f). split; [exact HO|apply Z.eqb_refl].
Qed.

(* all (rank, face) pairs with a shared face *)
Definition shared_pairs (n : Z) (B : Z -> bgrid) : list (Z * Z) :=
  filter (fun '(r, f) => shared (B r) f) (list_prod (zrange 0 n) faces).

Lemma in_shared_pairs n B r f : In (r, f) (shared_pairs n B) <-> 0 <= r < n /\ 0 <= f < 6 /\ shared (B r) f = true.
Proof. unfold shared_pairs. rewrite filter_In, in_prod_iff, in_zrange, in_faces. tauto. Qed.

Lemma NoDup_prod {A C} (l : list A) (k : list C) : NoDup l -> NoDup k -> NoDup (list_prod l k).
Proof.
  intros Hl Hk. induction Hl as [|x l Hx Hl IH]; [constructor|]. cbn [list_prod].
  apply nodup_app; [|exact IH|].
  - apply FinFun.Injective_map_NoDup; [intros y z E; injection E as E; exact E|exact Hk].
  - intros [y z] H1 H2. apply in_map_iff in H1. destruct H1 as (w & E & _). injection E as -> _.
    apply in_prod_iff in H2. tauto.
Qed.

Lemma exchange_conserves n B (out : Z -> list (fate (V := V))) : reciprocal n B ->
  Permutation (flat_map (fun '(r, f) => received B out r f) (shared_pairs n B))
              (flat_map (fun '(r, f) => sends f (out r)) (shared_pairs n B)).
Proof.
  intros R. set (L := shared_pairs n B).
  set (phi := fun '(r, f) => (nthz (b_bc (B r)) f, opp f) : Z * Z).
  assert (OO : forall f, 0 <= f < 6 -> opp (opp f) = f).
  { intros f Hf. apply in_faces in Hf. cbn in Hf. repeat (destruct Hf as [<-|Hf]; [|]); try contradiction; reflexivity. }
  assert (OB : forall f, 0 <= opp f < 6) by (intros; unfold opp; apply Z.mod_pos_bound; lia).
  assert (IN : forall x, In x L -> In (phi x) L /\ phi (phi x) = x).
  { intros [r f] H. apply in_shared_pairs in H. destruct H as (H1 & H2 & H3).
    destruct (shared_partner n B r f R H1 H2 H3) as (K1 & K2 & K3 & K4). unfold phi. split.
    - apply in_shared_pairs. split; [exact K1|]. split; [apply OB|exact K3].
    - rewrite K4, OO by exact H2. reflexivity. }
  assert (NL : NoDup L).
  { apply NoDup_filter, NoDup_prod; [apply NoDup_zrange|repeat constructor; cbn; lia]. }
  assert (PL : Permutation (map phi L) L).
  { apply NoDup_Permutation; [|exact NL|].
    - assert (G : forall l, NoDup l -> incl l L -> NoDup (map phi l)).
      { induction l as [|x l IH]; intros N I; [constructor|]. inversion N; subst. cbn [map]. constructor.
        - rewrite in_map_iff. intros (y & E & Hy). apply H1. replace x with y; [exact Hy|].
          rewrite <- (proj2 (IN y (I y (or_intror Hy)))), E. apply IN, I. left; reflexivity.
        - apply IH; [assumption|]. intros y Hy. apply I. right; exact Hy. }
      apply G; [exact NL|apply incl_refl].
    - intros x. rewrite in_map_iff. split.
      + intros (y & <- & Hy). apply IN, Hy.
      + intros Hx. exists (phi x). split; apply IN, Hx. }
  transitivity (flat_map (fun '(r, f) => sends f (out r)) (map phi L)).
  - rewrite !flat_map_concat_map, map_map. erewrite map_ext_in; [apply Permutation_refl|].
    intros [r f] H. apply in_shared_pairs in H. destruct H as (H1 & H2 & H3). unfold phi. apply (received_eq n); assumption.
  - apply Permutation_flat_map, PL.
Qed.

(* ---------- injection ---------- *)

Definition of_species (k : Z) (l : list (injector (V := V))) : list (injector (V := V)) :=
  filter (fun ij => ij_sp ij =? k) l.
(* p is what move_p makes of the injected particle *)
Definition moved (fuel : nat) (g : mesh) (q : V) (ij : injector (V := V)) (p : part V) : Prop :=
  exists st disp log, move_p K fuel g q (ij_p ij) (ij_disp ij) = MDone st p disp log.

Definition grew (fuel : nat) (g : mesh) (l : list (injector (V := V))) (k : nat) (s s' : spec (V := V)) : Prop :=
  s_q s' = s_q s /\
  (exists qs, s_p s' = s_p s ++ qs /\ Forall2 (moved fuel g (s_q s)) (of_species (Z.of_nat k) l) qs) /\
  (length (s_pm s') <= length (s_pm s) + length (of_species (Z.of_nat k) l))%nat /\
  (movers_ok s -> movers_ok s').

Lemma grew_refl fuel g k s : grew fuel g [] k s s.
Proof.
  split; [reflexivity|]. split; [exists []; rewrite app_nil_r; split; [reflexivity|constructor]|]. split; [cbn; lia|auto].
Qed.
Lemma grew_trans fuel g l1 l2 k a b c : grew fuel g l1 k a b -> grew fuel g l2 k b c -> grew fuel g (l1 ++ l2) k a c.
Proof.
  intros (Q1 & (p1 & E1 & F1) & L1 & M1) (Q2 & (p2 & E2 & F2) & L2 & M2).
  split; [congruence|]. split; [exists (p1 ++ p2)|].
  - rewrite E2, E1, app_assoc. split; [reflexivity|]. unfold of_species. rewrite filter_app. apply Forall2_app; [exact F1|].
    rewrite <- Q1. exact F2.
  - unfold of_species in *. rewrite filter_app, app_length. split; [lia|auto].
Qed.

Lemma Slt_snoc l x : StronglySorted Z.lt l -> (forall y, In y l -> y < x) -> StronglySorted Z.lt (l ++ [x]).
Proof.
  induction 1 as [|a l H IH F]; intros B; cbn [app]; [repeat constructor|]. constructor.
  - apply IH. intros y Hy. apply B. right; exact Hy.
  - rewrite Forall_app. split; [exact F|]. constructor; [|constructor]. apply B. left; reflexivity.
Qed.

Lemma inject_one_spec fuel g ss ij ss' log : inject_one K fuel g ss ij = Some (ss', log) ->
  length ss' = length ss /\
  (forall k s, nth_error ss k = Some s -> exists s', nth_error ss' k = Some s' /\ grew fuel g [ij] k s s').
Proof.
  unfold inject_one. destruct (Z.ltb_spec (ij_sp ij) 0) as [|Hi]; [discriminate|].
  destruct (nth_error ss (Z.to_nat (ij_sp ij))) as [s0|] eqn:E0; [|discriminate].
  destruct (move_p K fuel g (s_q s0) (ij_p ij) (ij_disp ij)) as [st p disp lg| |] eqn:Em; try discriminate.
  intros H. injection H as <- <-.
  assert (HL : (Z.to_nat (ij_sp ij) < length ss)%nat) by (apply nth_error_Some; congruence).
  split; [apply put_length, HL|]. intros k s Hk. rewrite put_nth by exact HL.
  destruct (Nat.eqb_spec k (Z.to_nat (ij_sp ij))) as [->|Ne].
  - rewrite E0 in Hk. injection Hk as <-. eexists. split; [reflexivity|].
    unfold grew, of_species. cbn [filter s_q s_p s_pm]. replace (ij_sp ij =? Z.of_nat (Z.to_nat (ij_sp ij))) with true by lia.
    split; [reflexivity|]. split; [|split].
    + exists [p]. split; [reflexivity|]. constructor; [|constructor]. exists st, disp, lg. exact Em.
    + destruct st; [rewrite app_length|]; cbn [length]; lia.
    + unfold movers_ok. cbn [s_p s_pm]. rewrite app_length. cbn [length]. intros (M1 & M2). destruct st.
      * rewrite map_app. cbn [map m_i]. split; [apply Slt_snoc; [exact M1|]; intros y Hy; specialize (M2 y Hy); lia|].
        intros i Hi'. apply in_app_iff in Hi'. destruct Hi' as [Hi'|[<-|[]]]; [specialize (M2 i Hi'); lia|lia].
      * split; [exact M1|]. intros i Hi'. specialize (M2 i Hi'). lia.
  - exists s. split; [exact Hk|]. destruct (grew_refl fuel g k s) as (A1 & A2 & A3 & A4).
    unfold grew, of_species in *. cbn [filter] in *. replace (ij_sp ij =? Z.of_nat k) with false by lia. auto.
Qed.

Lemma inject_all_spec fuel g : forall l ss ss' log, inject_all K fuel g ss l = Some (ss', log) ->
  length ss' = length ss /\
  (forall k s, nth_error ss k = Some s -> exists s', nth_error ss' k = Some s' /\ grew fuel g l k s s').
Proof.
  induction l as [|ij l IH]; intros ss ss' log; cbn [inject_all].
  - intros H. injection H as <- <-. split; [reflexivity|]. intros k s Hk. exists s. split; [exact Hk|apply grew_refl].
  - destruct (inject_one K fuel g ss ij) as [[s1 l1]|] eqn:E1; [|discriminate].
    destruct (inject_all K fuel g s1 l) as [[s2 l2]|] eqn:E2; [|discriminate].
    intros H. injection H as <- <-. apply inject_one_spec in E1. destruct E1 as (L1 & H1).
    apply IH in E2. destruct E2 as (L2 & H2). split; [congruence|]. intros k s Hk.
    destruct (H1 k s Hk) as (sa & Ha & Ga). destruct (H2 k sa Ha) as (sb & Hb & Gb).
    exists sb. split; [exact Hb|]. change (ij :: l) with ([ij] ++ l). apply (grew_trans _ _ _ _ _ _ sa); assumption.
Qed.

(* ---------- counting over the world ---------- *)

Definition total_np (ss : list (spec (V := V))) : Z := fold_right (fun s n => Z.of_nat (length (s_p s)) + n) 0 ss.
Definition count (f : fate (V := V) -> bool) (l : list (fate (V := V))) : Z := Z.of_nat (length (filter f l)).
Definition is_sent (x : fate (V := V)) : bool := match x with Sent _ _ => true | _ => false end.

Lemma count_split l : Z.of_nat (length l) = count (fun x => negb (is_sent x)) l + count is_sent l.
Proof.
  unfold count. induction l as [|x l IH]; [reflexivity|]. cbn [length filter].
  destruct (is_sent x); cbn [negb length] in *; rewrite ?Nat2Z.inj_succ; lia.
Qed.
Lemma others_length {A} (ps : list A) idx : NoDup idx -> (forall i, In i idx -> 0 <= i < Z.of_nat (length ps)) ->
  Z.of_nat (length (others ps idx)) = Z.of_nat (length ps) - Z.of_nat (length idx).
Proof.
  intros N B. pose proof (Permutation_length (listed_others ps idx N B)) as L. rewrite app_length in L.
  assert (LI : length (listed ps idx) = length idx).
  { clear - B. induction idx as [|i idx IH]; [reflexivity|]. cbn [listed flat_map]. rewrite app_length. fold (listed ps idx).
    rewrite IH by (intros j Hj; apply B; right; exact Hj).
    pose proof (B i (or_introl eq_refl)). destruct (nth_error ps (Z.to_nat i)) eqn:E; [reflexivity|].
    apply nth_error_None in E. lia. }
  lia.
Qed.

Lemma packed_total b sp ss outs ss' : Forall movers_ok ss -> packed b sp ss outs ss' ->
  total_np ss' = total_np ss - Z.of_nat (length (concat outs)).
Proof.
  intros M H. induction H as [|sp s ss fs ps' outs ss' Ef P H IH]; [reflexivity|].
  inversion M as [|x y (M1 & M2) M3]; subst. specialize (IH M3). cbn [concat total_np fold_right s_p]. rewrite app_length.
  fold (total_np ss) (total_np ss'). rewrite IH, (Permutation_length P), others_length by (auto using Slt_nodup).
  apply map_Some_length in Ef. rewrite Ef, rev_length, map_length. lia.
Qed.

Lemma total_np_cons s ss : total_np (s :: ss) = Z.of_nat (length (s_p s)) + total_np ss.
Proof. reflexivity. Qed.
Lemma total_np_put s : forall ss k s0, nth_error ss k = Some s0 ->
  total_np (put ss k s) = total_np ss - Z.of_nat (length (s_p s0)) + Z.of_nat (length (s_p s)).
Proof.
  induction ss as [|x ss IH]; intros [|k] s0 E; try discriminate; cbn [nth_error] in E.
  - injection E as ->. unfold put. cbn [firstn skipn app]. rewrite !total_np_cons. lia.
  - specialize (IH k s0 E). unfold put in *. cbn [firstn skipn app]. rewrite !total_np_cons. cbn [skipn] in IH. lia.
Qed.
Lemma inject_total_np fuel g : forall l ss ss' log, inject_all K fuel g ss l = Some (ss', log) ->
  total_np ss' = total_np ss + Z.of_nat (length l).
Proof.
  induction l as [|ij l IH]; intros ss ss' log; cbn [inject_all].
  - intros H. injection H as <- _. cbn. lia.
  - destruct (inject_one K fuel g ss ij) as [[s1 l1]|] eqn:E1; [|discriminate].
    destruct (inject_all K fuel g s1 l) as [[s2 l2]|] eqn:E2; [|discriminate].
    intros H. injection H as <- _. apply IH in E2. rewrite E2. unfold inject_one in E1.
    destruct (ij_sp ij <? 0); [discriminate|]. destruct (nth_error ss (Z.to_nat (ij_sp ij))) as [s0|] eqn:E0; [|discriminate].
    destruct (move_p K fuel g (s_q s0) (ij_p ij) (ij_disp ij)); try discriminate. injection E1 as <- _.
    erewrite total_np_put by exact E0. cbn [s_p]. rewrite app_length. cbn [length]. lia.
Qed.

Fixpoint sumZ (l : list Z) : Z := match l with [] => 0 | x :: l => x + sumZ l end.
Lemma length_flat_map {A C} (f : A -> list C) l : Z.of_nat (length (flat_map f l)) = sumZ (map (fun x => Z.of_nat (length (f x))) l).
Proof. induction l as [|x l IH]; [reflexivity|]. cbn [flat_map map sumZ]. rewrite app_length. lia. Qed.
Lemma sumZ_map_ext {A} (f g : A -> Z) l : (forall x, In x l -> f x = g x) -> sumZ (map f l) = sumZ (map g l).
Proof.
  induction l as [|x l IH]; intros H; [reflexivity|]. cbn [map sumZ]. rewrite H by (left; reflexivity).
  rewrite IH; [reflexivity|]. intros y Hy. apply H. right; exact Hy.
Qed.
Lemma sumZ_map_add {A} (f g : A -> Z) l : sumZ (map (fun x => f x + g x) l) = sumZ (map f l) + sumZ (map g l).
Proof. induction l as [|x l IH]; [reflexivity|]. cbn [map sumZ]. lia. Qed.

(* the sends through the shared faces are all the sends, when nothing is sent elsewhere *)
Lemma sends_all b (l : list (fate (V := V))) :
  (forall f ij, In (Sent f ij) l -> 0 <= f < 6 /\ shared b f = true) ->
  sumZ (map (fun f => if shared b f then Z.of_nat (length (sends f l)) else 0) faces) = count is_sent l.
Proof.
  induction l as [|x l IH]; intros H.
  - unfold count. cbn [sends flat_map length filter faces map sumZ].
    change (Z.of_nat 0) with 0. assert (Q : forall c : bool, (if c then 0 else 0) = 0) by (intros []; reflexivity). rewrite !Q. reflexivity.
  - specialize (IH (fun f ij Hin => H f ij (or_intror Hin))).
    destruct x as [p|g i|k p m g|p]; try exact IH.
    destruct (H g i (or_introl eq_refl)) as (Hg & Hs).
    assert (E : forall f, Z.of_nat (length (sends f (Sent g i :: l))) = (if f =? g then 1 else 0) + Z.of_nat (length (sends f l))).
    { intros f. unfold sends. cbn [flat_map]. rewrite app_length. destruct (f =? g); cbn [length]; lia. }
    assert (C : count is_sent (Sent g i :: l) = 1 + count is_sent l) by (unfold count; cbn [filter is_sent length]; lia).
    rewrite C, <- IH.
    transitivity (sumZ (map (fun f => (if f =? g then 1 else 0) + (if shared b f then Z.of_nat (length (sends f l)) else 0)) faces)).
    + apply sumZ_map_ext. intros f _. rewrite E. destruct (shared b f) eqn:Ef; [reflexivity|].
      destruct (Z.eqb_spec f g) as [->|]; [congruence|reflexivity].
    + rewrite sumZ_map_add. f_equal. unfold faces. cbn [map sumZ].
      assert (Hc : In g faces) by (apply in_faces, Hg). cbn in Hc. destruct Hc as [<-|[<-|[<-|[<-|[<-|[<-|[]]]]]]]; reflexivity.
Qed.

Lemma pairs_sum n B (h : Z -> Z -> Z) :
  sumZ (map (fun '(r, f) => h r f) (shared_pairs n B)) =
  sumZ (map (fun r => sumZ (map (fun f => if shared (B r) f then h r f else 0) faces)) (zrange 0 n)).
Proof.
  unfold shared_pairs. induction (zrange 0 n) as [|r l IH]; [reflexivity|]. cbn [list_prod map sumZ].
  rewrite filter_app, map_app.
  assert (SA : forall a b, sumZ (a ++ b) = sumZ a + sumZ b) by (induction a as [|z a IHa]; intros c; cbn [app sumZ]; [reflexivity|rewrite IHa; lia]).
  rewrite SA, IH. f_equal. clear. induction faces as [|f fs IH]; [reflexivity|]. cbn [map filter].
  destruct (shared (B r) f); cbn [map sumZ]; rewrite IH; reflexivity.
Qed.

Lemma world_count n B (out : Z -> list (fate (V := V))) (SS SS' SS'' : Z -> list (spec (V := V)))
      (outs : Z -> list (list (fate (V := V)))) (loc : Z -> list (injector (V := V))) fuel log :
  reciprocal n B ->
  (forall r, 0 <= r < n ->
     Forall movers_ok (SS r) /\ packed (B r) 0 (SS r) (outs r) (SS' r) /\ out r = concat (outs r) /\
     (forall f ij, In (Sent f ij) (out r) -> 0 <= f < 6 /\ shared (B r) f = true) /\
     inject_all K fuel (b_mesh (B r)) (SS' r) (injection_order (B r) (loc r) (received B out r)) = Some (SS'' r, log r)) ->
  sumZ (map (fun r => total_np (SS'' r)) (zrange 0 n)) =
  sumZ (map (fun r => total_np (SS r)) (zrange 0 n))
  - sumZ (map (fun r => count (fun x => negb (is_sent x)) (out r)) (zrange 0 n))
  + sumZ (map (fun r => Z.of_nat (length (loc r))) (zrange 0 n)).
Proof.
  intros R H.
  set (S1 := sumZ (map (fun r => count is_sent (out r)) (zrange 0 n))).
  assert (E0 : sumZ (map (fun r => sumZ (map (fun f => if shared (B r) f then Z.of_nat (length (received B out r f)) else 0) faces)) (zrange 0 n)) = S1).
  { rewrite <- (pairs_sum n B (fun r f => Z.of_nat (length (received B out r f)))).
    pose proof (Permutation_length (exchange_conserves n B out R)) as P. apply (f_equal Z.of_nat) in P.
    rewrite !length_flat_map in P.
    transitivity (sumZ (map (fun x : Z * Z => Z.of_nat (length (let '(r, f) := x in received B out r f))) (shared_pairs n B))).
    { apply sumZ_map_ext. intros [r f] _. reflexivity. }
    rewrite P.
    transitivity (sumZ (map (fun '(r, f) => Z.of_nat (length (sends f (out r)))) (shared_pairs n B))).
    { apply sumZ_map_ext. intros [r f] _. reflexivity. }
    rewrite (pairs_sum n B (fun r f => Z.of_nat (length (sends f (out r))))).
    unfold S1. apply sumZ_map_ext. intros r Hr. apply in_zrange in Hr.
    apply sends_all. apply H. exact Hr. }
  assert (E1 : forall r, 0 <= r < n -> total_np (SS'' r) =
     total_np (SS r) - count (fun x => negb (is_sent x)) (out r) - count is_sent (out r) + Z.of_nat (length (loc r)) +
     sumZ (map (fun f => if shared (B r) f then Z.of_nat (length (received B out r f)) else 0) faces)).
  { intros r Hr. destruct (H r Hr) as (M & P & O & _ & I). apply inject_total_np in I. rewrite I.
    rewrite (packed_total _ _ _ _ _ M P), <- O.
    assert (C : Z.of_nat (length (out r)) = count (fun x => negb (is_sent x)) (out r) + count is_sent (out r)).
    { apply count_split. }
    rewrite C. unfold injection_order. rewrite app_length, rev_length, Nat2Z.inj_add, length_flat_map.
    assert (E : sumZ (map (fun x => Z.of_nat (length (if shared (B r) x then rev (received B out r x) else []))) [0; 1; 2; 3; 4; 5]) =
      sumZ (map (fun f => if shared (B r) f then Z.of_nat (length (received B out r f)) else 0) faces)).
    { apply sumZ_map_ext. intros f _. destruct (shared (B r) f); [rewrite rev_length|]; reflexivity. }
    rewrite E. lia. }
  set (g1 := fun r => total_np (SS r) - count (fun x => negb (is_sent x)) (out r) - count is_sent (out r) + Z.of_nat (length (loc r))).
  rewrite (sumZ_map_ext _ (fun r => g1 r + sumZ (map (fun f => if shared (B r) f then Z.of_nat (length (received B out r f)) else 0) faces)))
    by (intros r Hr; apply in_zrange in Hr; unfold g1; rewrite E1 by exact Hr; lia).
  rewrite sumZ_map_add, E0. unfold S1, g1. clear.
  induction (zrange 0 n) as [|r l IH]; [reflexivity|]. cbn [map sumZ]. lia.
Qed.

(* ---------- capacities ---------- *)
End B.

Lemma exact_scale m c e n : 0 <= n -> fin64 c (IZR m * bpow radix2 e)%R -> 0 < m -> m * n <= 2 ^ 53 -> n <= 2 ^ 53 -> -1074 <= e <= 0 ->
  fin64 (d_mul c (d_of_Z n)) (IZR (m * n) * bpow radix2 e)%R.
Proof.
  intros Hn Hc Hm Hb Hn' He.
  assert (E : (IZR (m * n) * bpow radix2 e = IZR m * bpow radix2 e * IZR n)%R) by (rewrite mult_IZR; ring).
  rewrite <- (RN64_exact (m * n) e) by lia. rewrite E. apply d_mul_ok; [exact Hc|apply fin64_Z; lia|].
  rewrite <- E. apply (mb_le (m * n) e 53); lia.
Qed.
Lemma scaled_trunc k m n c : 0 <= k <= 4 -> 0 < m <= 5 -> 0 <= n <= 2 ^ 40 -> fin64 c (IZR m * bpow radix2 (- k))%R ->
  d_trunc (d_add (d_of_Z n) (d_mul c (d_of_Z n))) = n + m * n / 2 ^ k.
Proof.
  intros Hk Hm Hn Hc.
  assert (P : 0 < 2 ^ k) by (apply Z.pow_pos_nonneg; lia).
  assert (P16 : 2 ^ k <= 16) by (change 16 with (2 ^ 4); apply Z.pow_le_mono_r; lia).
  assert (MN : 0 <= m * n <= 5 * 2 ^ 40) by nia. assert (KN : 0 <= 2 ^ k * n <= 16 * 2 ^ 40) by nia.
  pose proof (exact_scale m c (- k) n ltac:(lia) Hc ltac:(lia) ltac:(lia) ltac:(lia) ltac:(lia)) as H1.
  pose proof (fin64_Z n ltac:(lia)) as H0.
  assert (BB : (bpow radix2 k * bpow radix2 (- k) = 1)%R) by (rewrite <- bpow_plus; replace (k + - k) with 0 by lia; reflexivity).
  assert (E : (IZR n + IZR (m * n) * bpow radix2 (- k) = IZR (2 ^ k * n + m * n) * bpow radix2 (- k))%R).
  { rewrite plus_IZR, (mult_IZR (2 ^ k)), <- pow_R by lia.
    replace (IZR n) with (bpow radix2 k * bpow radix2 (- k) * IZR n)%R at 1 by (rewrite BB; ring). ring. }
  assert (S : 0 <= 2 ^ k * n + m * n <= 2 ^ 53) by lia.
  assert (H2 : fin64 (d_add (d_of_Z n) (d_mul c (d_of_Z n))) (IZR (2 ^ k * n + m * n) * bpow radix2 (- k))%R).
  { rewrite <- (RN64_exact _ (- k)) by lia. rewrite <- E. apply d_add_ok; [exact H0|exact H1|]. rewrite E. apply (mb_le _ _ 53); lia. }
  rewrite (d_trunc_ok _ _ (proj2 H2)).
  assert (D : (IZR (2 ^ k * n + m * n) * bpow radix2 (- k) = IZR (2 ^ k * n + m * n) / IZR (2 ^ k))%R).
  { unfold Rdiv. f_equal. rewrite <- pow_R by lia. rewrite bpow_opp. reflexivity. }
  rewrite D. rewrite Ztrunc_div by lia. rewrite Z.quot_div_nonneg by lia.
  replace (2 ^ k * n + m * n) with (m * n + n * 2 ^ k) by ring. rewrite Z.div_add by lia. lia.
Qed.

Lemma grow_eq n : 0 <= n <= 2 ^ 40 -> grow n = n + 5 * n / 16.
Proof.
  intros Hn. unfold grow. apply (scaled_trunc 4 5 n); try lia.
  split; [vm_compute; reflexivity|].
  assert (H : B2SF (d_div (d_of_Z 5) (d_of_Z 16)) = SpecFloat.S754_finite false 5629499534213120 (-54)) by (vm_compute; reflexivity).
  rewrite <- (SF2R_B2SF 53 1024), H. cbn -[bpow IZR]. unfold F2R; cbn -[bpow IZR].
  change (-54) with (-50 + -4). rewrite bpow_plus. 
  assert (Q : (IZR 5629499534213120 * bpow radix2 (-50) = 5)%R).
  { change 5629499534213120 with (5 * 2 ^ 50). rewrite mult_IZR, <- pow_R, Rmult_assoc, <- bpow_plus by lia. cbn. ring. }
  rewrite <- Rmult_assoc, Q. reflexivity.
Qed.
Lemma shrink_eq n : 0 <= n <= 2 ^ 40 -> shrink n = n + n / 8.
Proof.
  intros Hn. unfold shrink. replace (n + n / 8) with (n + 1 * n / 2 ^ 3) by (rewrite Z.mul_1_l; reflexivity).
  apply (scaled_trunc 3 1 n); try lia. rewrite Rmult_1_l. apply (const64 _ (-55)). vm_compute. reflexivity.
Qed.

Lemma new_max_np_enough np max_np inj : 0 <= np -> 0 <= inj -> np + inj <= 1636178017 ->
  np + inj <= new_max_np np max_np inj /\ (new_max_np np max_np inj <= Z.max max_np 2147483647).
Proof.
  intros H1 H2 H3. unfold new_max_np. cbv zeta.
  destruct (Z.ltb_spec max_np (np + inj)).
  - rewrite grow_eq by lia. split; Z.to_euclidean_division_equations; lia.
  - unfold MIN_NP. destruct ((128 <? max_np) && (np + inj <? Z.shiftr max_np 1)) eqn:E.
    + rewrite shrink_eq by lia. apply andb_prop in E. destruct E as (E1 & E2).
      rewrite Z.shiftr_div_pow2 in E2 by lia. change (2 ^ 1) with 2 in E2.
      split; Z.to_euclidean_division_equations; lia.
    + lia.
Qed.
Lemma new_max_nm_enough nm max_nm inj : 0 <= nm -> 0 <= inj -> nm + inj <= 1636178017 ->
  nm + inj <= new_max_nm nm max_nm inj /\ max_nm <= new_max_nm nm max_nm inj <= Z.max max_nm 2147483647.
Proof.
  intros H1 H2 H3. unfold new_max_nm. cbv zeta.
  destruct (Z.ltb_spec max_nm (nm + inj)).
  - rewrite grow_eq by lia. split; Z.to_euclidean_division_equations; lia.
  - lia.
Qed.
