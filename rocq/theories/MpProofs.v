(* Proofs about the message buffers and the turnstile. *)
From Coq Require Import ZArith Reals List Bool Lia ZifyBool.
From Flocq Require Import Core BinarySingleNaN.
From Verif Require Import FloatModel FloatProofs DistributeProofs ConvProofs BoundaryProofs MpModel.
Import ListNotations.
Open Scope Z_scope.
Ltac Zify.zify_post_hook ::= idtac.

(* ---------- buffers ---------- *)
Lemma enlarged_val sz : 0 <= sz <= 2 ^ 40 -> d_trunc (d_mul (d_of_Z sz) resize_factor) = 21 * sz / 16.
Proof.
  intros H.
  assert (C : fin64 resize_factor (21 * bpow radix2 (- 4))%R).
  { split; [vm_compute; reflexivity|].
    assert (E : B2SF resize_factor = SpecFloat.S754_finite false 5910974510923776 (-52)) by (vm_compute; reflexivity).
    rewrite <- (SF2R_B2SF 53 1024), E. cbn -[bpow IZR]. unfold F2R; cbn -[bpow IZR].
    change (-52) with (-48 + -4). rewrite bpow_plus, <- Rmult_assoc. f_equal.
    change 5910974510923776 with (21 * 2 ^ 48). rewrite mult_IZR, <- pow_R, Rmult_assoc, <- bpow_plus by lia. cbn. ring. }
  pose proof (fin64_Z sz ltac:(lia)) as H0.
  assert (E : (IZR sz * (21 * bpow radix2 (- 4)) = IZR (21 * sz) * bpow radix2 (- 4))%R) by (rewrite mult_IZR; ring).
  assert (H2 : fin64 (d_mul (d_of_Z sz) resize_factor) (IZR (21 * sz) * bpow radix2 (- 4))%R).
  { rewrite <- (RN64_exact _ (- 4)) by lia. rewrite <- E. apply d_mul_ok; [exact H0|exact C|]. rewrite E. apply (mb_le _ _ 53); lia. }
  rewrite (d_trunc_ok _ _ (proj2 H2)).
  assert (D : (IZR (21 * sz) * bpow radix2 (- 4) = IZR (21 * sz) / IZR (2 ^ 4))%R) by (unfold Rdiv; f_equal; rewrite <- pow_R by lia; rewrite bpow_opp; reflexivity).
  rewrite D. rewrite Ztrunc_div by lia. rewrite Z.quot_div_nonneg by lia. reflexivity.
Qed.
Lemma enlarged_spec sz : 0 <= sz <= 2147483647 -> enlarged sz = if sz <=? 1636178017 then Some (21 * sz / 16) else None.
Proof.
  intros H. unfold enlarged. cbv zeta. rewrite enlarged_val by lia.
  destruct (Z.leb_spec sz 1636178017) as [L|L]; destruct (Z.leb_spec (21 * sz / 16) 2147483647) as [M|M]; try reflexivity; exfalso;
    Z.to_euclidean_division_equations; lia.
Qed.

(* A buffer is absent with size 0, or as long as recorded; a pending request fits. *)
Definition port_ok (x : port) : Prop :=
  match b_data x with None => b_sz x = 0 | Some d => b_sz x = Z.of_nat (length d) /\ 1 <= b_sz x end /\
  b_sz x <= 2147483647 /\ (b_pending x = true -> 1 <= b_req x <= b_sz x).
Lemma nth_set_port ps p x k : 0 <= p < Z.of_nat (length ps) -> nth_error (set_port ps p x) k = if Nat.eqb k (Z.to_nat p) then Some x else nth_error ps k.
Proof.
  unfold set_port. intros H. assert (L : (Z.to_nat p < length ps)%nat) by lia. clear H. generalize dependent (Z.to_nat p). clear p. intros j. revert j k.
  induction ps as [|a l IH]; intros [|j] k H; cbn [length] in H; try lia.
  - cbn [firstn skipn app]. destruct k; reflexivity.
  - cbn [firstn app]. destruct k as [|k]; [reflexivity|]. cbn [nth_error Nat.eqb]. rewrite <- IH by lia. reflexivity.
Qed.
Lemma set_port_length ps p x : 0 <= p < Z.of_nat (length ps) -> length (set_port ps p x) = length ps.
Proof. intros H. unfold set_port. rewrite app_length. cbn [length]. rewrite firstn_length, skipn_length. lia. Qed.
Definition all_ok (ps : ports) : Prop := forall k x, nth_error ps k = Some x -> port_ok x.
Lemma all_ok_set ps p x : 0 <= p < Z.of_nat (length ps) -> all_ok ps -> port_ok x -> all_ok (set_port ps p x).
Proof. intros H A X k y. rewrite nth_set_port by exact H. destruct (Nat.eqb k (Z.to_nat p)); [intros E; injection E as <-; exact X|apply A]. Qed.
Lemma new_mp_ok n ps : new_mp n = MpOK ps -> all_ok ps /\ Z.of_nat (length ps) = n.
Proof.
  unfold new_mp. destruct (n <? 1) eqn:E; [discriminate|]. intros H. injection H as <-. rewrite repeat_length. split; [|lia].
  intros k x I. apply nth_error_In in I. apply repeat_spec in I. subst x. unfold port_ok. cbn [b_data b_sz b_req b_pending]. split; [reflexivity|]. split; [lia|discriminate].
Qed.
Lemma port_at (ps : ports) p : 0 <= p < Z.of_nat (length ps) -> exists x, nth_error ps (Z.to_nat p) = Some x.
Proof. intros H. destruct (nth_error ps (Z.to_nat p)) as [x|] eqn:E; [exists x; reflexivity|]. apply nth_error_None in E. lia. Qed.

(* contents: the bytes of b are those of a followed by others *)
Definition keeps (a b : port) : Prop :=
  b_sz a <= b_sz b /\ forall d, b_data a = Some d -> exists d', b_data b = Some (d ++ d').
Lemma keeps_refl a : keeps a a.
Proof. split; [lia|]. intros d E. exists []. rewrite app_nil_r. exact E. Qed.

Lemma size_spec ps p sz : all_ok ps -> 0 <= p < Z.of_nat (length ps) -> 1 <= sz <= 2147483647 -> forall x, nth_error ps (Z.to_nat p) = Some x ->
  size_buffer ps p sz =
    if sz <=? b_sz x then MpOK ps
    else if (1636178017 <? sz) || b_pending x then MpUB
    else MpOK (set_port ps p (mk_port (Some (match b_data x with Some d => d | None => [] end ++ repeat None (Z.to_nat (21 * sz / 16 - b_sz x)))) (21 * sz / 16) (b_req x) false)).
Proof.
  intros A Hp Hs x E. unfold size_buffer. replace ((p <? 0) || (Z.of_nat (length ps) <? p) || (sz <? 1)) with false by lia. rewrite E.
  destruct (sz <=? b_sz x) eqn:L; [reflexivity|]. rewrite enlarged_spec by lia. destruct (A _ _ E) as (O & _ & Q).
  destruct (Z.leb_spec sz 1636178017) as [S|S]; [|replace (1636178017 <? sz) with true by lia; reflexivity]. replace (1636178017 <? sz) with false by lia. cbn [orb].
  assert (G : sz <= 21 * sz / 16) by (Z.to_euclidean_division_equations; lia).
  destruct (b_data x) as [d|] eqn:D.
  - destruct (b_pending x); [reflexivity|]. replace (21 * sz / 16 <? b_sz x) with false by lia. do 5 f_equal. destruct O as [O _]. rewrite firstn_all2 by lia. reflexivity.
  - rewrite O. destruct (b_pending x) eqn:Pn; [specialize (Q eq_refl); lia|]. rewrite Z.sub_0_r. reflexivity.
Qed.
Lemma step_ok n_rank ps o ps' : all_ok ps -> (forall p sz, o = MSize p sz -> sz <= 2147483647) -> mp_step n_rank ps o = MpOK ps' ->
  all_ok ps' /\ length ps' = length ps /\
  forall k x, nth_error ps k = Some x -> exists x', nth_error ps' k = Some x' /\ b_sz x <= b_sz x' /\
    (match o with MSize _ _ | MBegin _ _ _ | MEndSend _ => keeps x x' | _ => True end).
Proof.
  intros A Hsz H. destruct o as [p sz|p sz peer|p msg|p|p d]; cbn [mp_step] in H.
  - assert (Hp : 0 <= p < Z.of_nat (length ps) /\ 1 <= sz).
    { unfold size_buffer in H. destruct ((p <? 0) || (Z.of_nat (length ps) <? p) || (sz <? 1)) eqn:B; [discriminate|].
      destruct (nth_error ps (Z.to_nat p)) eqn:E; [|discriminate]. assert (nth_error ps (Z.to_nat p) <> None) as N by congruence. apply nth_error_Some in N. lia. }
    destruct Hp as [Hp Hs]. destruct (port_at ps p Hp) as [x E]. rewrite (size_spec ps p sz A Hp (conj Hs (Hsz p sz eq_refl)) x E) in H.
    assert (G : sz <= 21 * sz / 16) by (Z.to_euclidean_division_equations; lia).
    destruct (sz <=? b_sz x) eqn:L.
    + injection H as <-. split; [exact A|]. split; [reflexivity|]. intros k y Ey. exists y. split; [exact Ey|]. split; [lia|apply keeps_refl].
    + destruct ((1636178017 <? sz) || b_pending x) eqn:B; [discriminate|].
      assert (B2 : 21 * sz / 16 <= 2147483647) by (Z.to_euclidean_division_equations; lia). set (q := 21 * sz / 16) in *. clearbody q. injection H as <-. destruct (A _ _ E) as (O & _ & Q).
      split; [|split].
      * apply all_ok_set; [exact Hp|exact A|]. unfold port_ok. cbn [b_data b_sz b_req b_pending]. rewrite app_length, repeat_length.
        split; [|split; [exact B2|discriminate]]. revert O; destruct (b_data x) as [d|]; intros O; [destruct O; lia|cbn [length]; lia].
      * apply set_port_length, Hp.
      * intros k y Ey. rewrite nth_set_port by exact Hp. destruct (Nat.eqb_spec k (Z.to_nat p)) as [->|N].
        -- rewrite E in Ey. injection Ey as <-. eexists. split; [reflexivity|]. cbn [b_sz]. split; [lia|]. split; [cbn [b_sz]; lia|].
           intros d Ed. rewrite Ed. eexists. reflexivity.
        -- exists y. split; [exact Ey|]. split; [lia|apply keeps_refl].
  - unfold begin_comm in H. destruct ((p <? 0) || (Z.of_nat (length ps) <=? p)) eqn:B; [discriminate|]. assert (Hp : 0 <= p < Z.of_nat (length ps)) by lia.
    destruct (port_at ps p Hp) as [x E]. rewrite E in H. destruct ((sz <? 1) || (b_sz x <? sz) || (peer <? 0) || (n_rank <=? peer)) eqn:C; [discriminate|]. injection H as <-.
    destruct (A _ _ E) as (O & O2 & Q). split; [apply all_ok_set; [exact Hp|exact A|]|split; [apply set_port_length, Hp|]].
    + unfold port_ok. cbn [b_data b_sz b_req b_pending]. split; [exact O|]. split; [exact O2|lia].
    + intros k y Ey. rewrite nth_set_port by exact Hp. destruct (Nat.eqb_spec k (Z.to_nat p)) as [->|N].
      * rewrite E in Ey. injection Ey as <-. eexists. split; [reflexivity|]. cbn [b_sz]. split; [lia|]. split; [cbn [b_sz]; lia|].
        intros d Ed. exists []. rewrite app_nil_r. exact Ed.
      * exists y. split; [exact Ey|]. split; [lia|apply keeps_refl].
  - unfold end_recv in H. destruct ((p <? 0) || (Z.of_nat (length ps) <=? p)) eqn:B; [discriminate|]. assert (Hp : 0 <= p < Z.of_nat (length ps)) by lia.
    destruct (port_at ps p Hp) as [x E]. rewrite E in H. destruct (b_pending x) eqn:Pn; [cbn [negb] in H|discriminate]. destruct (b_data x) as [d|] eqn:D; [|discriminate].
    destruct (b_req x <? Z.of_nat (length msg)); [discriminate|]. destruct (b_req x =? Z.of_nat (length msg)) eqn:C; [|discriminate]. injection H as <-.
    destruct (A _ _ E) as (O & O2 & Q). specialize (Q Pn). rewrite D in O. split; [apply all_ok_set; [exact Hp|exact A|]|split; [apply set_port_length, Hp|]].
    + unfold port_ok. cbn [b_data b_sz b_req b_pending]. rewrite app_length, map_length, skipn_length. split; [lia|]. split; [exact O2|discriminate].
    + intros k y Ey. rewrite nth_set_port by exact Hp. destruct (Nat.eqb_spec k (Z.to_nat p)) as [->|N].
      * rewrite E in Ey. injection Ey as <-. eexists. split; [reflexivity|]. cbn [b_sz]. split; [lia|trivial].
      * exists y. split; [exact Ey|]. split; [lia|trivial].
  - unfold end_send in H. destruct ((p <? 0) || (Z.of_nat (length ps) <=? p)) eqn:B; [discriminate|]. assert (Hp : 0 <= p < Z.of_nat (length ps)) by lia.
    destruct (port_at ps p Hp) as [x E]. rewrite E in H. destruct (b_pending x) eqn:Pn; [cbn [negb] in H|discriminate]. injection H as <-.
    destruct (A _ _ E) as (O & O2 & Q). split; [apply all_ok_set; [exact Hp|exact A|]|split; [apply set_port_length, Hp|]].
    + unfold port_ok. cbn [b_data b_sz b_req b_pending]. split; [exact O|]. split; [exact O2|discriminate].
    + intros k y Ey. rewrite nth_set_port by exact Hp. destruct (Nat.eqb_spec k (Z.to_nat p)) as [->|N].
      * rewrite E in Ey. injection Ey as <-. eexists. split; [reflexivity|]. cbn [b_sz]. split; [lia|]. split; [cbn [b_sz]; lia|].
        intros d Ed. exists []. rewrite app_nil_r. exact Ed.
      * exists y. split; [exact Ey|]. split; [lia|apply keeps_refl].
  - unfold fill in H. destruct ((p <? 0) || (Z.of_nat (length ps) <=? p)) eqn:B; [discriminate|]. assert (Hp : 0 <= p < Z.of_nat (length ps)) by lia.
    destruct (port_at ps p Hp) as [x E]. rewrite E in H. destruct (b_data x) as [o|] eqn:D; [|discriminate].
    destruct ((length d <=? length o)%nat && negb (b_pending x)) eqn:C; [|discriminate]. injection H as <-. apply andb_true_iff in C. destruct C as [C Pn]. apply Nat.leb_le in C.
    destruct (A _ _ E) as (O & O2 & Q). rewrite D in O. split; [apply all_ok_set; [exact Hp|exact A|]|split; [apply set_port_length, Hp|]].
    + unfold port_ok. cbn [b_data b_sz b_req b_pending]. rewrite app_length, skipn_length. split; [lia|]. split; [exact O2|exact Q].
    + intros k y Ey. rewrite nth_set_port by exact Hp. destruct (Nat.eqb_spec k (Z.to_nat p)) as [->|N].
      * rewrite E in Ey. injection Ey as <-. eexists. split; [reflexivity|]. cbn [b_sz]. split; [lia|trivial].
      * exists y. split; [exact Ey|]. split; [lia|trivial].
Qed.
Lemma run_ok n_rank os : forall ps ps', all_ok ps -> Forall (fun o => forall p sz, o = MSize p sz -> sz <= 2147483647) os -> mp_run n_rank ps os = MpOK ps' ->
  all_ok ps' /\ length ps' = length ps /\
  forall k x, nth_error ps k = Some x -> exists x', nth_error ps' k = Some x' /\ b_sz x <= b_sz x' /\
    (Forall (fun o => match o with MSize _ _ | MBegin _ _ _ | MEndSend _ => True | _ => False end) os -> keeps x x').
Proof.
  induction os as [|o os IH]; intros ps ps' A F H; cbn [mp_run] in H.
  - injection H as <-. split; [exact A|]. split; [reflexivity|]. intros k x E. exists x. split; [exact E|]. split; [lia|intros _; apply keeps_refl].
  - destruct (mp_step n_rank ps o) as [ps1| |] eqn:S; try discriminate. apply Forall_cons_iff in F. destruct F as [F1 F2].
    destruct (step_ok n_rank ps o ps1 A F1 S) as (A1 & L1 & K1). destruct (IH ps1 ps' A1 F2 H) as (A2 & L2 & K2).
    split; [exact A2|]. split; [congruence|]. intros k x E. destruct (K1 k x E) as (x1 & E1 & S1 & C1). destruct (K2 k x1 E1) as (x2 & E2 & S2 & C2).
    exists x2. split; [exact E2|]. split; [lia|]. intros Q. apply Forall_cons_iff in Q. destruct Q as [Q1 Q2]. specialize (C2 Q2).
    assert (C1' : keeps x x1) by (destruct o; tauto). destruct C1' as [_ C1']. destruct C2 as [_ C2]. split; [lia|].
    intros d Ed. destruct (C1' d Ed) as [d' Ed']. destruct (C2 _ Ed') as [d'' Ed'']. exists (d' ++ d''). rewrite Ed'', app_assoc. reflexivity.
Qed.
