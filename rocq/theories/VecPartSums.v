(* The increments of the vector kernels as sums, and the blocks as the shares of the pipelines. *)
From Coq Require Import ZArith List Bool Reals Lra Lia.
From Verif Require Import SortModel SortProofs DistributeModel DistributeProofs VoxelModel ParticleModel MoverModel ChargeModel HydroModel
  VecPartModel VecPartSpec VecPartProofs.
Import ListNotations.
Ltac Zify.zify_post_hook ::= idtac.
Open Scope R_scope.

Definition sumR {A} (f : A -> R) (l : list A) : R := fold_right (fun x s => f x + s) 0 l.
Lemma sumR_cons {A} (f : A -> R) x l : sumR f (x :: l) = f x + sumR f l.
Proof. reflexivity. Qed.
Lemma sumR_app {A} (f : A -> R) l l' : sumR f (l ++ l') = sumR f l + sumR f l'.
Proof. induction l; cbn [sumR fold_right app] in *; fold (sumR f) in *; [unfold sumR; lra|]. unfold sumR in *. lra. Qed.
Lemma sumR_ext {A} (f g : A -> R) l : (forall x, In x l -> f x = g x) -> sumR f l = sumR g l.
Proof. intros H. induction l as [|x l IH]; [reflexivity|]. cbn. fold (sumR f l) (sumR g l). rewrite (H x (or_introl eq_refl)), IH; [reflexivity|]. intros y Hy. apply H. right; exact Hy. Qed.
Lemma sumR_map {A B} (f : B -> R) (h : A -> B) l : sumR f (map h l) = sumR (fun x => f (h x)) l.
Proof. induction l as [|x l IH]; [reflexivity|]. cbn. fold (sumR f (map h l)). rewrite IH. reflexivity. Qed.
Lemma sumR_flat_map {A B} (f : B -> R) (h : A -> list B) l : sumR f (flat_map h l) = sumR (fun x => sumR f (h x)) l.
Proof. induction l as [|x l IH]; [reflexivity|]. cbn [flat_map]. rewrite sumR_app, IH. reflexivity. Qed.
Lemma sumR_plus {A} (f g : A -> R) l : sumR (fun x => f x + g x) l = sumR f l + sumR g l.
Proof. induction l as [|x l IH]; cbn; [lra|]. fold (sumR f l) (sumR g l) (sumR (fun x => f x + g x) l). rewrite IH. lra. Qed.
Lemma sumR_zero {A} (l : list A) : sumR (fun _ => 0) l = 0.
Proof. induction l as [|x l IH]; cbn; [reflexivity|]. fold (sumR (fun _ : A => 0) l). rewrite IH. lra. Qed.
Lemma sumR_swap {A B} (f : A -> B -> R) l l' : sumR (fun x => sumR (f x) l') l = sumR (fun y => sumR (fun x => f x y) l) l'.
Proof.
  induction l as [|x l IH]; cbn [sumR fold_right]; [symmetry; apply sumR_zero|].
  fold (sumR (fun x => sumR (f x) l') l). rewrite IH. rewrite <- sumR_plus. reflexivity.
Qed.

(* ---------- streaks and increments as sums ---------- *)

Definition at_streak (n : Z) (k : nat) (s : streak R) : R := if (n =? fst s)%Z then nth k (snd s) 0 else 0.
Definition at_incr (n : Z) (k : nat) (x : incr R) : R :=
  let '(v, o, w) := x in if (n =? v)%Z && (Nat.leb o k && Nat.ltb k (o + length w)) then nth (k - o) w 0 else 0.

Lemma acc_streaks_sum l : forall a n k, acc_streaks Rnum l a n k = a n k + sumR (at_streak n k) l.
Proof.
  induction l as [|[v j] l IH]; intros a n k; [cbn; unfold sumR; cbn; lra|].
  unfold acc_streaks in *. cbn [fold_left]. rewrite IH. cbn [sumR fold_right]. fold (sumR (at_streak n k) l). unfold at_streak at 2. cbn [fst snd n_add n_zero Rnum].
  destruct (n =? v)%Z; lra.
Qed.
Lemma apply_incrs_sum l : forall a n k, apply_incrs Rnum l a n k = a n k + sumR (at_incr n k) l.
Proof.
  induction l as [|[[v o] w] l IH]; intros a n k; [cbn; unfold sumR; cbn; lra|].
  unfold apply_incrs in *. cbn [fold_left]. rewrite IH. cbn [sumR fold_right]. fold (sumR (at_incr n k) l). unfold apply_incr. cbn [n_add n_zero Rnum].
  change (at_incr n k (v, o, w)) with (if (n =? v)%Z && (Nat.leb o k && Nat.ltb k (o + length w)) then nth (k - o) w 0 else 0).
  destruct (_ && _); lra.
Qed.

Lemma nth_piece o c (row : list R) k : (o <= k < o + c)%nat -> nth (k - o) (firstn c (skipn o row)) 0 = nth k row 0.
Proof.
  intros H. replace k with (o + (k - o))%nat at 2 by lia. rewrite <- (firstn_skipn o row) at 2.
  destruct (Nat.le_gt_cases (length row) o) as [L|L].
  - rewrite skipn_all2 by exact L. rewrite firstn_nil, app_nil_r. rewrite (nth_overflow (firstn o row)) by (rewrite firstn_length; lia). destruct (k - o)%nat; reflexivity.
  - rewrite app_nth2 by (rewrite firstn_length; lia). rewrite firstn_length. replace (o + (k - o) - Nat.min o (length row))%nat with (k - o)%nat by lia.
    rewrite <- (firstn_skipn c (skipn o row)) at 2.
    destruct (Nat.lt_ge_cases (k - o) (length (firstn c (skipn o row)))) as [M|M].
    + rewrite app_nth1 by exact M. reflexivity.
    + rewrite (nth_overflow (firstn _ _)) by exact M. rewrite app_nth2 by exact M. rewrite firstn_length in *.
      assert (length (skipn o row) <= k - o)%nat by lia. rewrite nth_overflow; [reflexivity|]. rewrite skipn_length. lia.
Qed.
(* one group of one lane *)
Lemma at_piece n k v o c row : at_incr n k (v, o, firstn c (skipn o row)) = if (n =? v)%Z && (Nat.leb o k && Nat.ltb k (o + c)) then nth k row 0 else 0.
Proof.
  unfold at_incr. destruct (n =? v)%Z; cbn [andb]; [|reflexivity]. destruct (Nat.leb_spec o k) as [L|L]; cbn [andb]; [|reflexivity].
  rewrite firstn_length.
  destruct (Nat.ltb_spec k (o + c)) as [M|M].
  - destruct (Nat.ltb_spec k (o + Nat.min c (length (skipn o row)))) as [N|N].
    + apply nth_piece. lia.
    + rewrite nth_overflow; [reflexivity|]. rewrite skipn_length in N. lia.
  - destruct (Nat.ltb_spec k (o + Nat.min c (length (skipn o row)))) as [N|N]; [lia|reflexivity].
Qed.

(* groups that hold every word below w once *)
Definition covers (gs : list (nat * nat)) (w : nat) : Prop :=
  forall (k : nat) (x : R), sumR (fun g => if Nat.leb (fst g) k && Nat.ltb k (fst g + snd g) then x else 0) gs = if Nat.ltb k w then x else 0.
Ltac cover_tac := intros k x; cbn [sumR fold_right fst snd];
  repeat match goal with |- context[Nat.leb ?a ?b] => destruct (Nat.leb_spec a b) | |- context[Nat.ltb ?a ?b] => destruct (Nat.ltb_spec a b) end;
  cbn [andb]; try lra; exfalso; lia.
Lemma covers_j k : In k [2; 3; 4]%nat -> covers (groups_j k) (acc_words k).
Proof. intros [<-|[<-|[<-|[]]]]; unfold covers, groups_j, acc_words; cover_tac. Qed.
Lemma covers_h k : In k [2; 3; 4]%nat -> covers (groups_h k) 16.
Proof. intros [<-|[<-|[<-|[]]]]; unfold covers, groups_h; cover_tac. Qed.

Lemma vincs_sum gs w ls n k : covers gs w -> (forall l, In l ls -> (w <= k)%nat -> nth k (snd l) 0 = 0) ->
  sumR (at_incr n k) (vincs gs ls) = sumR (at_streak n k) ls.
Proof.
  intros Hc Hz. unfold vincs. rewrite sumR_flat_map.
  rewrite (sumR_ext _ (fun g => sumR (fun l => if (n =? fst l)%Z then if Nat.leb (fst g) k && Nat.ltb k (fst g + snd g) then nth k (snd l) 0 else 0 else 0) ls)).
  2:{ intros g _. rewrite sumR_map. apply sumR_ext. intros l _. rewrite at_piece. destruct (n =? fst l)%Z; reflexivity. }
  rewrite sumR_swap. apply sumR_ext. intros l Hl. unfold at_streak. destruct (n =? fst l)%Z; [|apply sumR_zero].
  rewrite Hc. destruct (Nat.ltb_spec k w) as [L|L]; [reflexivity|]. symmetry. apply Hz; assumption.
Qed.
Lemma vincs_inside (V : Type) gs w ls : (forall g, In g gs -> (fst g + snd g <= w)%nat) -> forall x, In x (vincs (V := V) gs ls) -> inside w x.
Proof.
  intros H x Hx. unfold vincs in Hx. apply in_flat_map in Hx. destruct Hx as (g & Hg & Hx). apply in_map_iff in Hx. destruct Hx as (l & <- & _).
  unfold inside. rewrite firstn_length. specialize (H g Hg). lia.
Qed.
Lemma vincs_at (V : Type) gs ls : forall x, In x (vincs (V := V) gs ls) -> In (fst (fst x)) (map fst ls).
Proof.
  intros x Hx. unfold vincs in Hx. apply in_flat_map in Hx. destruct Hx as (g & Hg & Hx). apply in_map_iff in Hx. destruct Hx as (l & <- & Hl).
  cbn [fst]. apply in_map. exact Hl.
Qed.

(* ---------- blocks and shares ---------- *)

Lemma blocks_concat {A} W : forall n (l : list A), concat (blocks W n l) = firstn (n * W) l.
Proof.
  induction n as [|n IH]; intros l; [reflexivity|]. cbn [blocks concat]. rewrite IH.
  replace (S n * W)%nat with (W + n * W)%nat by lia.
  rewrite <- (firstn_skipn W l) at 3.
  destruct (Nat.le_gt_cases W (length l)) as [L|L].
  - rewrite firstn_app, firstn_length. replace (W + n * W - Nat.min W (length l))%nat with (n * W)%nat by lia.
    rewrite (firstn_all2 (firstn W l)) by (rewrite firstn_length; lia). reflexivity.
  - rewrite (skipn_all2 l) by lia. rewrite firstn_nil, !app_nil_r. rewrite (firstn_all2 (firstn W l)); [reflexivity|]. rewrite firstn_length. lia.
Qed.
Lemma blocks_length {A} W : forall n (l : list A), (n * W <= length l)%nat -> Forall (fun b => length b = W) (blocks W n l).
Proof.
  induction n as [|n IH]; intros l H; constructor; [rewrite firstn_length; lia|]. apply IH. rewrite skipn_length. lia.
Qed.
Lemma vblocks_share {A} k c P rank (ps : list A) : In k [2; 3; 4]%nat -> (0 <= rank < P)%Z -> (P < 2 ^ 31)%Z -> (Z.of_nat (length ps) < 2 ^ 31)%Z ->
  let '(n0, n) := distribute c (Z.of_nat (length ps)) 16 rank P in
  concat (vblocks k c P rank ps) = firstn (Z.to_nat n) (skipn (Z.to_nat n0) ps) /\ Forall (fun b => length b = 2 ^ k)%nat (vblocks k c P rank ps).
Proof.
  intros Hk Hr HP Hn.
  destruct (distribute_ok c (Z.of_nat (length ps)) 16 P ltac:(lia) ltac:(lia) ltac:(lia)) as (H & _ & _).
  specialize (H rank ltac:(lia)). unfold vblocks. destruct (distribute c (Z.of_nat (length ps)) 16 rank P) as [n0 n].
  destruct H as (Hn0 & Hn1 & Hle & _ & Hdiv & _). specialize (Hdiv (proj2 Hr)). destruct Hdiv as [m Hm].
  assert (E : (Z.to_nat (Z.shiftr n (Z.of_nat k)) * 2 ^ k)%nat = Z.to_nat n).
  { rewrite Z.shiftr_div_pow2 by lia.
    assert (Ek : exists r, (16 = r * 2 ^ Z.of_nat k /\ Z.of_nat (2 ^ k) = 2 ^ Z.of_nat k)%Z).
    { destruct Hk as [<-|[<-|[<-|[]]]]; [exists 4%Z|exists 2%Z|exists 1%Z]; split; reflexivity. }
    destruct Ek as (r & Er & E2). assert (Hp : (0 < 2 ^ Z.of_nat k)%Z) by (apply Z.pow_pos_nonneg; lia).
    rewrite Hm, Er. rewrite Z.mul_assoc, Z.div_mul by lia.
    apply Nat2Z.inj. rewrite Nat2Z.inj_mul, E2, Z2Nat.id, Z2Nat.id; try nia. }
  rewrite blocks_concat, E. split; [reflexivity|]. apply blocks_length. rewrite E, skipn_length. lia.
Qed.

(* ---------- advance_p ---------- *)

Section Advance.
Variable X : vops R.
Hypothesis HX : exact_ops X.
Variables (fuel : nat) (g : mesh) (qdt : R) (cdt : vec R) (q : R) (fs : Z -> interp (V := R)) (kept : Z -> bool).
Let lane_of (p : part R) := adv_lane Rnum X qdt cdt q (fs (pi p)) p.
Let row_of (p : part R) : Z * list R := (pi p, l_row (lane_of p)).
(* the condition of the agreement of the two move_p *)
Definition leaves_clear (p : part R) : Prop :=
  let u := push_u Rnum qdt (fs (pi p)) p in
  let s := displacement Rnum cdt u in
  inbnds Rnum (vadd Rnum (vadd Rnum (pd p) s) s) = false -> off_faces (pd p) s.

Lemma lane_clear p : leaves_clear p -> l_out (lane_of p) = true -> off_faces (pd (l_p (lane_of p))) (l_disp (lane_of p)).
Proof.
  unfold leaves_clear, lane_of, adv_lane. rewrite lane_push_eq, lane_disp_eq by exact HX. cbv zeta. change (vmap2 (n_add Rnum)) with (vadd Rnum).
  rewrite lane_out_eq. destruct (inbnds Rnum _); cbn [negb l_out l_p l_disp pd]; [discriminate|]. intros H _. apply H. reflexivity.
Qed.

Definition same_step (a : option (list (part R) * list (mover (V := R)) * list (incr R))) (b : option (list (part R) * list (mover (V := R)) * list (streak R))) : Prop :=
  match a, b with
  | Some (ps, pm, inc), Some (ps', pm', lg) => ps = ps' /\ pm = pm' /\ forall n k, sumR (at_incr n k) inc = sumR (at_streak n k) lg
  | None, None => True
  | _, _ => False
  end.

Lemma move_outbnd_list : forall ps i, Forall leaves_clear ps ->
  match move_outbnd Rnum X fuel g q kept i (map lane_of ps), advance_list Rnum fuel g qdt cdt q fs kept i ps with
  | Some (a, m, lg), Some (a', m', lg') => a = a' /\ m = m' /\
      (forall n k, sumR (at_streak n k) (map row_of ps) + sumR (at_streak n k) lg = sumR (at_streak n k) lg')
  | None, None => True
  | _, _ => False
  end.
Proof.
  induction ps as [|p ps IH]; intros i HF; [cbn; repeat split; intros; unfold sumR; cbn; lra|].
  inversion HF as [|? ? Hp HF']; subst. specialize (IH (i + 1)%Z HF').
  cbn [map move_outbnd advance_list].
  destruct (l_out (lane_of p)) eqn:EO.
  - destruct (adv_lane_out X HX fuel g qdt cdt q (fs (pi p)) p EO) as [Ea Er]. rewrite Ea. fold (lane_of p).
    pose proof (vmove_p_same X HX fuel g q (l_p (lane_of p)) (l_disp (lane_of p)) (lane_clear p Hp EO)) as S.
    destruct (vmove_p Rnum X fuel g q _ _) as [st p' d lg| |], (move_p Rnum fuel g q _ _) as [st' p'' d' lg'| |]; cbn [same_move] in S; try contradiction; try exact I.
    destruct S as (-> & -> & -> & Hd).
    destruct (move_outbnd _ _ _ _ _ _ _ _) as [[[a m] l]|], (advance_list _ _ _ _ _ _ _ _ _ _) as [[[a' m'] l']|]; try contradiction; try exact I.
    destruct IH as (-> & -> & IH).
    assert (Hz : forall n k, at_streak n k (row_of p) = 0).
    { intros n k. unfold at_streak, row_of. cbn [fst snd]. unfold lane_of. rewrite Er. destruct (n =? pi p)%Z; [|reflexivity]. apply nth_repeat. }
    assert (HS : forall n k, sumR (at_streak n k) (row_of p :: map row_of ps) + sumR (at_streak n k) (lg' ++ l) = sumR (at_streak n k) (lg' ++ l')).
    { intros n k. cbn [sumR fold_right]. fold (sumR (at_streak n k) (map row_of ps)). rewrite Hz, !sumR_app, <- IH. lra. }
    destruct st'; [rewrite (Hd eq_refl); destruct (kept i)|]; repeat split; exact HS.
  - destruct (adv_lane_in X HX fuel g qdt cdt q (fs (pi p)) p EO) as (j & d & Ea & Er & Hj). rewrite Ea. fold (lane_of p).
    destruct (move_outbnd _ _ _ _ _ _ _ _) as [[[a m] l]|], (advance_list _ _ _ _ _ _ _ _ _ _) as [[[a' m'] l']|]; try contradiction; try exact I.
    destruct IH as (-> & -> & IH). repeat split. intros n k.
    cbn [sumR fold_right app]. fold (sumR (at_streak n k) (map row_of ps)) (sumR (at_streak n k) l) (sumR (at_streak n k) l'). rewrite <- IH.
    replace (at_streak n k (row_of p)) with (at_streak n k (pi p, j)); [lra|].
    unfold at_streak, row_of, lane_of. cbn [fst snd]. rewrite Er. destruct (n =? pi p)%Z; [|reflexivity].
    destruct (Nat.lt_ge_cases k 12).
    + rewrite app_nth1 by lia. reflexivity.
    + rewrite app_nth2 by lia. rewrite nth_overflow by lia. rewrite Hj. symmetry. change [0; 0; 0; 0] with (repeat 0 4). apply nth_repeat.
Qed.

Lemma row_tail p : forall k, (12 <= k)%nat -> nth k (l_row (lane_of p)) 0 = 0.
Proof.
  intros k Hk. unfold lane_of. destruct (l_out (adv_lane Rnum X qdt cdt q (fs (pi p)) p)) eqn:EO.
  - destruct (adv_lane_out X HX fuel g _ _ _ _ _ EO) as [_ ->]. apply nth_repeat.
  - destruct (adv_lane_in X HX fuel g _ _ _ _ _ EO) as (j & d & _ & -> & Hj). rewrite app_nth2 by lia. change [0; 0; 0; 0] with (repeat 0 4). apply nth_repeat.
Qed.

(* streaks written by the move_p of a block have twelve words *)
Lemma vstreak_len V (K : num V) q' q3 mid s : length (vstreak K q' q3 mid s) = 12%nat.
Proof. reflexivity. Qed.
Lemma vmove_loop_len fu : forall g q0 q3 d0 p dr log, Forall (fun s => length (snd s) = 12%nat) log ->
  match vmove_loop Rnum X fu g q0 q3 d0 p dr log with MDone _ _ _ lg => Forall (fun s => length (snd s) = 12%nat) lg | _ => True end.
Proof.
  induction fu as [|fu IH]; intros g0 q0 q3 d0 p dr log HF; [exact I|]. cbn [vmove_loop].
  destruct (vpick Rnum _) as [s [a|]].
  2:{ apply Forall_app. split; [exact HF|]. constructor; [apply vstreak_len|constructor]. }
  destruct (negb _); [exact I|]. destruct (nbr_at _ _ _); [|exact I].
  assert (HF' : forall x, length (snd x) = 12%nat -> Forall (fun s : streak R => length (snd s) = 12%nat) (log ++ [x])).
  { intros x Hx. apply Forall_app. split; [exact HF|]. constructor; [exact Hx|constructor]. }
  destruct (_ =? _)%Z; [apply IH, HF'; apply vstreak_len|]. destruct (_ || _); [destruct (_ || _); [exact I|apply HF', vstreak_len]|].
  apply IH, HF'. apply vstreak_len.
Qed.
Lemma move_outbnd_len : forall ls i, match move_outbnd Rnum X fuel g q kept i ls with Some (_, _, lg) => Forall (fun s => length (snd s) = 12%nat) lg | None => True end.
Proof.
  induction ls as [|l ls IH]; intros i; [constructor|]. cbn [move_outbnd]. specialize (IH (i + 1)%Z).
  destruct (l_out l).
  - pose proof (vmove_loop_len fuel g (q * pw (l_p l)) (1 / 3 * (q * pw (l_p l))) (l_disp l) (l_p l) (l_disp l) [] (Forall_nil _)) as L.
    unfold vmove_p. cbn [n_mul n_third Rnum]. destruct (vmove_loop _ _ _ _ _ _ _ _ _ _) as [st p' d lg| |]; [|exact I|exact I].
    destruct (move_outbnd _ _ _ _ _ _ _ _) as [[[a m] lg']|]; [|exact I].
    destruct st; [destruct (kept i)|]; apply Forall_app; split; assumption.
  - destruct (move_outbnd _ _ _ _ _ _ _ _) as [[[a m] lg']|]; [exact IH|exact I].
Qed.
Lemma streak_incrs_sum lg n k : Forall (fun s : streak R => length (snd s) = 12%nat) lg -> sumR (at_incr n k) (flat_map streak_incrs lg) = sumR (at_streak n k) lg.
Proof.
  intros HF. rewrite sumR_flat_map. apply sumR_ext. intros s Hs. unfold streak_incrs.
  rewrite (vincs_sum (groups_j 2) 12 [s] n k (covers_j 2 (or_introl eq_refl))).
  - unfold sumR. cbn. lra.
  - intros l [<-|[]] Hk. apply nth_overflow. rewrite Forall_forall in HF. rewrite (HF s Hs). exact Hk.
Qed.

Lemma vadvance_block_same k ps i : In k [2; 3; 4]%nat -> Forall leaves_clear ps ->
  same_step (vadvance_block Rnum X k fuel g qdt cdt q fs kept i ps) (advance_list Rnum fuel g qdt cdt q fs kept i ps).
Proof.
  intros Hk HF. unfold vadvance_block. fold lane_of.
  change (map (fun p => adv_lane Rnum X qdt cdt q (fs (pi p)) p) ps) with (map lane_of ps).
  pose proof (move_outbnd_list ps i HF) as H. pose proof (move_outbnd_len (map lane_of ps) i) as L.
  destruct (move_outbnd _ _ _ _ _ _ _ _) as [[[a m] lg]|], (advance_list _ _ _ _ _ _ _ _ _ _) as [[[a' m'] lg']|]; try contradiction; try exact I.
  destruct H as (-> & -> & H). cbn [same_step]. repeat split. intros n w. rewrite sumR_app, streak_incrs_sum by exact L. rewrite <- H. f_equal.
  rewrite (vincs_sum _ (acc_words k)); [|apply covers_j; exact Hk|].
  - rewrite map_map. rewrite !sumR_map. apply sumR_ext. intros p _. reflexivity.
  - intros l Hl Hw. rewrite map_map in Hl. apply in_map_iff in Hl. destruct Hl as (p & <- & _). cbn [snd]. apply row_tail.
    destruct Hk as [<-|[<-|[<-|[]]]]; cbn in Hw; lia.
Qed.

Lemma advance_list_app ps : forall i ps', advance_list Rnum fuel g qdt cdt q fs kept i (ps ++ ps') =
  match advance_list Rnum fuel g qdt cdt q fs kept i ps, advance_list Rnum fuel g qdt cdt q fs kept (i + Z.of_nat (length ps)) ps' with
  | Some (a, m, l), Some (a', m', l') => Some (a ++ a', m ++ m', l ++ l')
  | _, _ => None
  end.
Proof.
  induction ps as [|p ps IH]; intros i ps'.
  - cbn. rewrite Z.add_0_r. destruct (advance_list _ _ _ _ _ _ _ _ _ _) as [[[a m] l]|]; reflexivity.
  - cbn [app advance_list]. rewrite IH. replace (i + 1 + Z.of_nat (length ps))%Z with (i + Z.of_nat (length (p :: ps)))%Z by (cbn [length]; lia).
    destruct (advance_one _ _ _ _ _ _ _ _) as [st p' d lg| |]; [|reflexivity|reflexivity].
    destruct (advance_list _ _ _ _ _ _ _ _ (i + 1) ps) as [[[a m] l]|]; [|reflexivity].
    destruct (advance_list _ _ _ _ _ _ _ _ _ ps') as [[[a' m'] l']|].
    + destruct st; [destruct (kept i)|]; rewrite <- app_assoc; reflexivity.
    + destruct st; [destruct (kept i)|]; reflexivity.
Qed.

Lemma vadvance_blocks_same k : In k [2; 3; 4]%nat -> forall bs i, Forall (Forall leaves_clear) bs ->
  same_step (vadvance_blocks Rnum X k fuel g qdt cdt q fs kept i bs) (advance_list Rnum fuel g qdt cdt q fs kept i (concat bs)).
Proof.
  intros Hk. induction bs as [|b bs IH]; intros i HF; [cbn; repeat split; intros; reflexivity|].
  inversion HF as [|? ? Hb HF']; subst. cbn [vadvance_blocks concat]. rewrite advance_list_app.
  pose proof (vadvance_block_same k b i Hk Hb) as HB. specialize (IH (i + Z.of_nat (length b))%Z HF').
  destruct (vadvance_block _ _ _ _ _ _ _ _ _ _ _ _) as [[[a m] inc]|], (advance_list _ _ _ _ _ _ _ _ _ b) as [[[a' m'] l]|]; cbn [same_step] in HB; try contradiction; try exact I.
  destruct HB as (-> & -> & HB).
  destruct (vadvance_blocks _ _ _ _ _ _ _ _ _ _ _ _) as [[[a m] inc']|], (advance_list _ _ _ _ _ _ _ _ _ (concat bs)) as [[[a2 m2] l2]|]; cbn [same_step] in IH; try contradiction; try exact I.
  destruct IH as (-> & -> & IH). cbn [same_step]. repeat split. intros n w. rewrite !sumR_app, HB, IH. reflexivity.
Qed.

Lemma groups_j_in k gr : In k [2; 3; 4]%nat -> In gr (groups_j k) -> (fst gr + snd gr <= acc_words k)%nat.
Proof. intros [<-|[<-|[<-|[]]]] H; cbn in H; repeat (destruct H as [<-|H]; [cbn; lia|]); contradiction. Qed.
Lemma streak_inside (lg : list (streak R)) w x : (12 <= w)%nat -> In x (flat_map streak_incrs lg) -> inside w x.
Proof.
  intros Hw H. apply in_flat_map in H. destruct H as (s & _ & H). unfold streak_incrs in H.
  assert (inside 12 x). { eapply vincs_inside; [|exact H]. intros gr Hg. apply (groups_j_in 2 gr (or_introl eq_refl) Hg). }
  destruct x as [[v o] l]. unfold inside in *. lia.
Qed.
Lemma vadvance_inside k : In k [2; 3; 4]%nat -> forall bs i ps pm inc,
  vadvance_blocks Rnum X k fuel g qdt cdt q fs kept i bs = Some (ps, pm, inc) -> forall x, In x inc -> inside (acc_words k) x.
Proof.
  intros Hk. induction bs as [|b bs IH]; intros i ps pm inc; cbn [vadvance_blocks]; [intros E; inversion E; contradiction|].
  unfold vadvance_block. destruct (move_outbnd _ _ _ _ _ _ _ _) as [[[a m] lg]|]; [|discriminate].
  destruct (vadvance_blocks _ _ _ _ _ _ _ _ _ _ _ _) as [[[a' m'] inc']|] eqn:E2; [|discriminate].
  intros E; inversion E; subst. intros x Hx. apply in_app_or in Hx. destruct Hx as [Hx|Hx]; [|eapply IH; eassumption].
  apply in_app_or in Hx. destruct Hx as [Hx|Hx].
  - eapply vincs_inside; [|exact Hx]. intros gr. apply groups_j_in. exact Hk.
  - apply (streak_inside lg); [|exact Hx]. destruct Hk as [<-|[<-|[<-|[]]]]; cbn; lia.
Qed.
End Advance.

(* ---------- shares ---------- *)

Lemma range_nth {A B} (ps : list A) (F : B -> A -> B) : forall n n0 (b : B), (0 <= n0)%Z -> (n0 + Z.of_nat n <= Z.of_nat (length ps))%Z ->
  fold_left (fun b k => match nth_error ps (Z.to_nat k) with Some p => F b p | None => b end) (zrange n0 (n0 + Z.of_nat n)) b =
  fold_left F (firstn n (skipn (Z.to_nat n0) ps)) b.
Proof.
  induction n as [|n IH]; intros n0 b H0 H.
  - rewrite zrange_nil by lia. reflexivity.
  - rewrite zrange_cons by lia. cbn [fold_left].
    destruct (nth_error ps (Z.to_nat n0)) as [p|] eqn:E.
    + replace (n0 + Z.of_nat (S n))%Z with ((n0 + 1) + Z.of_nat n)%Z by lia. rewrite IH by lia.
      assert (S1 : skipn (Z.to_nat n0) ps = p :: skipn (Z.to_nat (n0 + 1)) ps).
      { replace (Z.to_nat (n0 + 1)) with (S (Z.to_nat n0)) by lia. clear - E. revert ps E. induction (Z.to_nat n0) as [|m IHm]; intros ps E; destruct ps as [|x ps]; try discriminate.
        - injection E as ->. reflexivity.
        - cbn [nth_error] in E. cbn [skipn]. apply IHm. exact E. }
      rewrite S1. reflexivity.
    + apply nth_error_None in E. lia.
Qed.

(* the shares of the pipelines in turn, and the host's last ones, are the whole list *)
Lemma skipn_plus {A} : forall m n (l : list A), skipn n (skipn m l) = skipn (m + n) l.
Proof. induction m as [|m IH]; intros n l; [reflexivity|]. destruct l; [rewrite !skipn_nil; reflexivity|]. cbn [skipn plus]. apply IH. Qed.
Lemma shares_cover {A} k c P (ps : list A) : In k [2; 3; 4]%nat -> (1 <= P < 2 ^ 31)%Z -> (Z.of_nat (length ps) < 2 ^ 31)%Z ->
  flat_map (fun rank => concat (vblocks k c P rank ps)) (zrange 0 P) ++
  skipn (Z.to_nat (fst (distribute c (Z.of_nat (length ps)) 16 P P))) ps = ps.
Proof.
  intros Hk HP Hn.
  assert (G : forall m, (0 <= Z.of_nat m <= P)%Z -> flat_map (fun rank => concat (vblocks k c P rank ps)) (zrange 0 (Z.of_nat m)) ++
     skipn (Z.to_nat (fst (distribute c (Z.of_nat (length ps)) 16 (Z.of_nat m) P))) ps = ps).
  { destruct (distribute_ok c (Z.of_nat (length ps)) 16 P ltac:(lia) ltac:(lia) ltac:(lia)) as (H1 & _ & H3).
    induction m as [|m IH]; intros Hm.
    - cbn [zrange]. rewrite zrange_nil by lia. cbn [flat_map app].
      assert (E : fst (distribute c (Z.of_nat (length ps)) 16 (Z.of_nat 0) P) = 0%Z).
      { unfold distribute. cbn [fst]. change (Z.of_nat 0) with 0%Z. rewrite split_0; [reflexivity| |lia].
        rewrite Z.quot_div_nonneg by lia. pose proof (Z.div_le_upper_bound (Z.of_nat (length ps)) 16 (Z.of_nat (length ps)) ltac:(lia) ltac:(lia)).
        pose proof (Z.div_pos (Z.of_nat (length ps)) 16 ltac:(lia) ltac:(lia)). lia. }
      rewrite E. reflexivity.
    - rewrite Nat2Z.inj_succ in *. unfold Z.succ in *. rewrite (zrange_app 0 (Z.of_nat m) (Z.of_nat m + 1)) by lia.
      rewrite (zrange_cons (Z.of_nat m)), (zrange_nil (Z.of_nat m + 1)) by lia. rewrite flat_map_app. cbn [flat_map]. rewrite app_nil_r.
      rewrite <- app_assoc. rewrite <- (IH ltac:(lia)) at 4. f_equal.
      pose proof (vblocks_share k c P (Z.of_nat m) ps Hk ltac:(lia) ltac:(lia) Hn) as S. specialize (H1 (Z.of_nat m) ltac:(lia)). specialize (H3 (Z.of_nat m) ltac:(lia)).
      destruct (distribute c (Z.of_nat (length ps)) 16 (Z.of_nat m) P) as [n0 n]. cbn [fst snd] in *. destruct S as [-> _]. rewrite H3.
      rewrite Z2Nat.inj_add by lia. rewrite <- skipn_plus. apply firstn_skipn. }
  specialize (G (Z.to_nat P) ltac:(lia)). rewrite Z2Nat.id in G by lia. exact G.
Qed.

(* ---------- energy_p ---------- *)

Lemma fold_plus l : forall a, fold_left Rplus l a = a + sumR (fun x => x) l.
Proof. induction l as [|x l IH]; intros a; cbn; [lra|]. rewrite IH. fold (sumR (fun x => x) l). lra. Qed.
Lemma fold_plus_map {A} (f : A -> R) l : forall a, fold_left (fun a x => a + f x) l a = a + sumR f l.
Proof. induction l as [|x l IH]; intros a; cbn; [lra|]. rewrite IH. fold (sumR f l). lra. Qed.
Lemma sum_combine {A} (f : A -> R) : forall en b, length en = length b ->
  sumR (fun x => x) (map (fun x => fst x + f (snd x)) (combine en b)) = sumR (fun x => x) en + sumR f b.
Proof.
  induction en as [|e en IH]; intros [|p b] H; cbn in H; try discriminate; [cbn; lra|]. cbn [combine map].
  cbn [sumR fold_right fst snd]. fold (sumR (fun x => x) (map (fun x => fst x + f (snd x)) (combine en b))) (sumR (fun x => x) en) (sumR f b). rewrite IH by lia. lra.
Qed.
Lemma venergy_sum X (HX : exact_ops X) W c m fs bs : Forall (fun b => length b = W) bs ->
  venergy Rnum 0 Rplus (fun x => x) W c m fs bs = sumR (fun p => energy_one Rnum c m (fs (pi p)) p) (concat bs).
Proof.
  intros HF. unfold venergy. set (f := fun p => energy_one Rnum c m (fs (pi p)) p).
  assert (G : forall bs en, Forall (fun b : list (part R) => length b = W) bs -> length en = W ->
    let r := fold_left (fun en b => map (fun x => fst x + energy_lane Rnum c m (fs (pi (snd x))) (snd x)) (combine en b)) bs en in
    length r = W /\ sumR (fun x => x) r = sumR (fun x => x) en + sumR f (concat bs)).
  { clear - HX. induction bs as [|b bs IH]; intros en HF He; cbn [fold_left concat]; [split; [exact He|unfold sumR at 3; cbn; lra]|].
    inversion HF; subst. cbv zeta.
    match goal with |- context[fold_left ?F bs ?e1] => set (e' := e1) end.
    destruct (IH e') as [L S]; [assumption|unfold e'; rewrite map_length, combine_length; lia|]. cbv zeta in L, S.
    split; [exact L|]. rewrite S. unfold e'.
    rewrite (map_ext _ (fun x => fst x + f (snd x))) by (intros x; unfold f; rewrite (energy_lane_eq); reflexivity).
    rewrite sum_combine by lia. rewrite sumR_app. lra. }
  destruct (G bs (repeat 0 W) HF (repeat_length 0 W)) as [L S]. cbv zeta in L, S.
  assert (Z : sumR (fun x => x) (repeat 0 W) = 0). { clear. induction W; cbn; [reflexivity|]. fold (sumR (fun x => x) (repeat 0 W)). lra. }
  rewrite Z in S. destruct (fold_left _ bs (repeat 0 W)) as [|e en].
  - assert (S' : 0 = 0 + sumR f (concat bs)) by exact S. fold f. lra.
  - rewrite fold_plus. cbn [sumR fold_right] in S. fold (sumR (fun x => x) en) in S. fold f. lra.
Qed.

(* ---------- accumulate_hydro_p ---------- *)

Definition at_hydro (n : Z) (m : hyd) (x : Z * (hyd -> R)) : R := if (n =? fst x)%Z then snd x m else 0.
Lemma hydro_add_sum l : forall H m n, fold_left (hydro_add Rnum) l H (m, n) = H (m, n) + sumR (at_hydro n m) l.
Proof.
  induction l as [|[v w] l IH]; intros H m n; [cbn; unfold sumR; cbn; lra|]. cbn [fold_left]. rewrite IH. cbn [sumR fold_right]. fold (sumR (at_hydro n m) l).
  unfold hydro_add, at_hydro at 2. cbn [fst snd n_add Rnum]. destruct (n =? v)%Z; lra.
Qed.
Lemma vhydro_voxels_eq nx ny nz i : vhydro_voxels nx ny i = hydro_voxels nx ny nz i.
Proof. unfold vhydro_voxels, hydro_voxels, voxel, sz_of, sy_of. cbv zeta. repeat (apply f_equal2; [ring|]). reflexivity. Qed.
Lemma hydro_row_word h s w m : nth (hyd_word m) (hydro_row Rnum h s w) 0 = accum Rnum h s w m.
Proof. destruct s as [[u v] ke]. destruct m; cbn; ring. Qed.
Lemma hydro_row_pad h s w k : (14 <= k)%nat -> nth k (hydro_row Rnum h s w) 0 = 0.
Proof.
  destruct s as [[u v] ke]. intros H. destruct (Nat.eq_dec k 14) as [->|]; [reflexivity|]. destruct (Nat.eq_dec k 15) as [->|]; [reflexivity|].
  apply nth_overflow. cbn. lia.
Qed.
Section Hydro.
Variable X : vops R.
Hypothesis HX : exact_ops X.
Variables (nx ny nz : Z) (h : hcoef (V := R)) (fs : Z -> interp (V := R)).

Definition corner_row (p : part R) (c : nat) : Z * list R :=
  (nth c (vhydro_voxels nx ny (pi p)) 0%Z, hydro_row Rnum h (hydro_lane Rnum X h (fs (pi p)) p) (nth c (hydro_lane_weights Rnum (h_r8V h) (pw p) (pd p)) 0)).
Lemma vhydro_sum k bs n w : In k [2; 3; 4]%nat ->
  sumR (at_incr n w) (vhydro Rnum X k nx ny h fs bs) = sumR (fun p => sumR (fun c => at_streak n w (corner_row p c)) (seq 0 8)) (concat bs).
Proof.
  intros Hk. unfold vhydro. rewrite sumR_flat_map.
  assert (B : forall b, sumR (at_incr n w) (vhydro_block Rnum X k nx ny h fs b) = sumR (fun p => sumR (fun c => at_streak n w (corner_row p c)) (seq 0 8)) b).
  { intros b. unfold vhydro_block. rewrite sumR_flat_map.
    rewrite (sumR_ext _ (fun c => sumR (fun p => at_streak n w (corner_row p c)) b)).
    - apply sumR_swap.
    - intros c _. rewrite (vincs_sum _ 16); [|apply covers_h; exact Hk|].
      + rewrite sumR_map. reflexivity.
      + intros l Hl Hw. apply in_map_iff in Hl. destruct Hl as (p & <- & _). cbn [snd]. apply hydro_row_pad. lia. }
  rewrite (sumR_ext _ _ _ (fun b _ => B b)). clear B. induction bs as [|b bs IH]; [reflexivity|]. cbn [concat]. rewrite sumR_app.
  rewrite sumR_cons, IH. reflexivity.
Qed.
Lemma corner_sum p n m : sumR (fun c => at_streak n (hyd_word m) (corner_row p c)) (seq 0 8) = sumR (at_hydro n m) (hydro_one Rnum (2 / 5) nx ny nz h fs p).
Proof.
  unfold hydro_one. rewrite sumR_map. unfold corner_row. rewrite (vhydro_voxels_eq nx ny nz), (hydro_lane_eq X HX).
  change (hydro_lane_weights Rnum (h_r8V h) (pw p) (pd p)) with (hydro_weights Rnum (h_r8V h) (pw p) (pd p)).
  set (st := hydro_state Rnum (2 / 5) h (fs (pi p)) p).
  assert (Lv : length (hydro_voxels nx ny nz (pi p)) = 8%nat) by reflexivity.
  assert (Lw : length (hydro_weights Rnum (h_r8V h) (pw p) (pd p)) = 8%nat) by reflexivity.
  destruct (hydro_voxels nx ny nz (pi p)) as [|v0 [|v1 [|v2 [|v3 [|v4 [|v5 [|v6 [|v7 [|]]]]]]]]]; try discriminate Lv.
  destruct (hydro_weights Rnum (h_r8V h) (pw p) (pd p)) as [|w0 [|w1 [|w2 [|w3 [|w4 [|w5 [|w6 [|w7 [|]]]]]]]]]; try discriminate Lw.
  cbn [seq combine sumR fold_right fst snd nth]. unfold at_streak, at_hydro. cbn [fst snd]. rewrite !hydro_row_word. reflexivity.
Qed.
Lemma fold_hydro_sum ps : forall H m n, fold_left (fun H p => fold_left (hydro_add Rnum) (hydro_one Rnum (2 / 5) nx ny nz h fs p) H) ps H (m, n) =
  H (m, n) + sumR (fun p => sumR (at_hydro n m) (hydro_one Rnum (2 / 5) nx ny nz h fs p)) ps.
Proof.
  induction ps as [|p ps IH]; intros H m n; [cbn; unfold sumR; cbn; lra|]. cbn [fold_left]. rewrite IH, hydro_add_sum. cbn [sumR fold_right].
  fold (sumR (fun p => sumR (at_hydro n m) (hydro_one Rnum (2 / 5) nx ny nz h fs p)) ps). lra.
Qed.
Lemma vhydro_inside k bs : In k [2; 3; 4]%nat -> forall x, In x (vhydro Rnum X k nx ny h fs bs) -> inside 16 x.
Proof.
  intros Hk x Hx. unfold vhydro in Hx. apply in_flat_map in Hx. destruct Hx as (b & _ & Hx). unfold vhydro_block in Hx. apply in_flat_map in Hx. destruct Hx as (c & _ & Hx).
  eapply vincs_inside; [|exact Hx]. intros gr Hg. destruct Hk as [<-|[<-|[<-|[]]]]; cbn in Hg; repeat (destruct Hg as [<-|Hg]; [cbn; lia|]); contradiction.
Qed.
End Hydro.
