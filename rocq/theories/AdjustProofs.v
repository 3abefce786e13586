(* local_adjust_jf, local_adjust_rhof and local_adjust_rhob, place by place. *)
From Coq Require Import ZArith List Bool Lia ZifyBool Permutation.
From Verif Require Import SortModel VoxelModel VoxelProofs GridModel FieldProofs FieldModel RemoteModel RemoteSpec RemoteProofs AdjustSpec.
Import ListNotations.
Open Scope Z_scope.
Ltac Zify.zify_post_hook ::= idtac.

Definition what (k : source) : comp := match k with Current => Jfx | FreeCharge => Rhof | BoundCh => Rhob end.
Section P.
Context {V : Type}.
Variable A : rarith V.
Variable ws : Z.
Variable g : cgrid V.
Hypothesis Pn : forall b, 1 <= at_ b (c_n V g).
Hypothesis Z0 : r_add V A (r_zero V A) (r_zero V A) = r_zero V A.
Notation n := (c_n V g).
Definition in_arr (q : cell) : Prop := forall b, 0 <= at_ b q <= at_ b n + 1.
Lemma vox3_inj q q' : in_arr q -> in_arr q' -> vox3 n q = vox3 n q' -> q = q'.
Proof.
  intros H H' E. pose proof (Pn AX). pose proof (Pn AY). pose proof (Pn AZ). pose proof (H AX); pose proof (H AY); pose proof (H AZ). pose proof (H' AX); pose proof (H' AY); pose proof (H' AZ).
  destruct q as [[x y] z], q' as [[x' y'] z'], n as [[nx ny] nz]. cbn [at_] in *. cbn [vox3] in E.
  apply (voxel_inj nx ny nz x y z x' y' z'); unfold in_mesh; tauto || lia.
Qed.
Lemma fold_act x ls : forall (F : mem V) c q, in_arr q -> NoDup ls -> (forall c' q', In (c', q') ls -> in_arr q') ->
  fold_left (fun F l => fun k => if floc_eqb k (locv n l) then act V A x (F k) else F k) ls F (c, vox3 n q) =
  if existsb (fun l => floc_eqb (c, vox3 n q) (locv n l)) ls then act V A x (F (c, vox3 n q)) else F (c, vox3 n q).
Proof.
  induction ls as [|[c' q'] ls IH]; intros F c q Hq N Hl; [reflexivity|]. cbn [fold_left existsb]. inversion N as [|? ? N1 N2]; subst.
  rewrite IH by (auto; intros; eapply Hl; right; eassumption). match goal with |- context [existsb ?f ls] => destruct (existsb f ls) eqn:E end.
  - rewrite orb_true_r. destruct (floc_eqb_spec (c, vox3 n q) (locv n (c', q'))) as [Q|]; [|reflexivity]. exfalso.
    unfold locv in Q. cbn [fst snd] in Q. injection Q as <- Q. apply vox3_inj in Q; [|exact Hq|eapply Hl; left; reflexivity]. subst q'.
    apply existsb_exists in E. destruct E as ([c2 q2] & Hin & E). apply (reflect_iff _ _ (floc_eqb_spec _ _)) in E. unfold locv in E. cbn [fst snd] in E. injection E as <- E.
    apply vox3_inj in E; [|exact Hq|eapply Hl; right; exact Hin]. subst q2. contradiction.
  - rewrite orb_false_r. reflexivity.
Qed.
Lemma bool_iff (b1 b2 : bool) : (b1 = true <-> b2 = true) -> b1 = b2.
Proof. destruct b1, b2; intuition congruence. Qed.
(* the list of places a face adjusts *)
Lemma items_nodup' k a : NoDup (comps_of (adjust_items (what k) a)).
Proof. destruct k, a; cbn; repeat constructor; cbn; intuition discriminate. Qed.
Lemma listed k a s c q : s = -1 \/ s = 1 -> in_arr q ->
  existsb (fun l => floc_eqb (c, vox3 n q) (locv n l)) (addrs n a (if s <? 0 then 1 else at_ a n + 1) (adjust_items (what k) a)) =
  belongs k c a && held_at g c q && in_plane_of g (a, s) q.
Proof.
  intros Hs Hq. apply bool_iff. rewrite existsb_exists. unfold held_at, in_plane_of. cbn [forallb fst snd].
  pose proof (Pn AX). pose proof (Pn AY). pose proof (Pn AZ). split.
  - intros ([c' q'] & Hin & E). apply (reflect_iff _ _ (floc_eqb_spec _ _)) in E. unfold locv in E. cbn [fst snd] in E. injection E as <- E.
    apply in_addrs in Hin. destruct Hin as (r & ks & Hi & Hc & Hp). apply in_plane in Hp. destruct Hp as (P1 & P2 & P3).
    assert (q = q').
    { apply vox3_inj; [exact Hq| |exact E]. intros b. assert (wide_y r = 0 \/ wide_y r = 1) by (destruct r; cbn; tauto). assert (wide_z r = 0 \/ wide_z r = 1) by (destruct r; cbn; tauto).
      destruct Hs as [-> | ->]; cbn [Z.ltb Z.compare] in P1; destruct a, b; cbn [next] in *; lia. }
    subst q'. destruct k; cbn [what adjust_items In] in Hi; repeat (destruct Hi as [Hi|Hi]; [injection Hi as <- <-; cbn [In] in Hc; destruct Hc as [<- |[]]|]); try contradiction;
      cbn [wide_y wide_z] in *; destruct Hs as [-> | ->]; cbn [Z.ltb Z.compare] in *; destruct a; cbn [next jf belongs node_on] in *; lia.
  - intros H2. assert (C : exists r ks, In (r, ks) (adjust_items (what k) a) /\ In c ks /\ wide_y r = (if node_on c (next a) then 1 else 0) /\ wide_z r = (if node_on c (next (next a)) then 1 else 0)).
    { destruct k, a; cbn [what adjust_items belongs next jf] in *; destruct c; cbn [node_on andb] in *; try discriminate H2;
        first [ eexists YZedge, _; split; [left; reflexivity|]; cbn; tauto | eexists ZYedge, _; split; [right; left; reflexivity|]; cbn; tauto | eexists Node, _; split; [left; reflexivity|]; cbn; tauto]. }
    destruct C as (r & ks & Hi & Hc & Wy & Wz). exists (c, q). split; [|apply (reflect_iff _ _ (floc_eqb_spec _ _)); reflexivity].
    apply in_addrs. exists r, ks. split; [exact Hi|]. split; [exact Hc|]. apply in_plane. rewrite Wy, Wz.
    destruct Hs as [-> | ->]; cbn [Z.ltb Z.compare] in *; destruct a; cbn [next] in *; lia.
Qed.
Definition effect (k : source) (d : axis * Z) (v : V) : V := if wall_code g d =? -1 then r_zero V A else match k with BoundCh => v | _ => r_add V A v v end.
Definition concerns (k : source) (c : comp) (q : cell) (d : axis * Z) : bool := is_wall ws g d && belongs k c (fst d) && held_at g c q && in_plane_of g d q.
Lemma dir_ok k a s F F' : s = -1 \/ s = 1 -> adjust_dir V A ws (what k) g (a, s) F = Some F' ->
  (is_wall ws g (a, s) = true -> -4 <= wall_code g (a, s) <= -1) /\
  forall c q, in_arr q -> F' (c, vox3 n q) = if concerns k c q (a, s) then effect k (a, s) (F (c, vox3 n q)) else F (c, vox3 n q).
Proof.
  intros Hs. unfold adjust_dir, concerns, is_wall, effect, wall_code. cbn [fst snd]. set (b := c_bc V g (port a s)). destruct ((b <? 0) || (ws <=? b)) eqn:W.
  2:{ intros E. injection E as <-. split; [discriminate|]. reflexivity. }
  destruct (adjust_action (what k) b) as [x|] eqn:E; [|discriminate]. intros Q.
  assert (Hx : -4 <= b <= -1 /\ x = if b =? -1 then Zero else match k with BoundCh => Keep | _ => Twice end).
  { unfold adjust_action in E. destruct b as [|z|z]; try discriminate. destruct z as [[z|z|]|[z|[z|z|]|]|]; try discriminate; injection E as <-; (split; [lia|]); destruct k; reflexivity. }
  destruct Hx as [Hb Hx]. split; [intros _; exact Hb|]. intros c q Hq. cbn [andb].
  assert (Q' := f_equal (fun o => match o with Some f => f (c, vox3 n q) | None => F (c, vox3 n q) end) Q). cbv beta iota in Q'. rewrite <- Q'. rewrite fold_act.
  - rewrite (listed k a s c q Hs Hq). destruct (belongs k c a && held_at g c q && in_plane_of g (a, s) q); [|reflexivity]. subst x. destruct (b =? -1); [reflexivity|]. destruct k; reflexivity.
  - exact Hq.
  - apply addrs_nodup, items_nodup'.
  - intros c' q' Hin. apply in_addrs in Hin. destruct Hin as (r & ks & _ & _ & Hp). apply in_plane in Hp. destruct Hp as (P1 & P2 & P3).
    pose proof (Pn AX). pose proof (Pn AY). pose proof (Pn AZ). assert (wide_y r = 0 \/ wide_y r = 1) by (destruct r; cbn; tauto). assert (wide_z r = 0 \/ wide_z r = 1) by (destruct r; cbn; tauto).
    intros b'. destruct Hs as [-> | ->]; cbn [Z.ltb Z.compare] in P1; destruct a, b'; cbn [next] in *; lia.
Qed.
Lemma adjust_ok k : forall ds F F', (forall d, In d ds -> snd d = -1 \/ snd d = 1) -> adjust V A ws (what k) g ds F = Some F' ->
  (forall d, In d ds -> is_wall ws g d = true -> -4 <= wall_code g d <= -1) /\
  forall c q, in_arr q -> F' (c, vox3 n q) = fold_left (fun v d => effect k d v) (filter (concerns k c q) ds) (F (c, vox3 n q)).
Proof.
  induction ds as [|[a s] ds IH]; intros F F' Hd; cbn [adjust].
  - intros E. injection E as <-. split; [intros ? []|reflexivity].
  - destruct (adjust_dir V A ws (what k) g (a, s) F) as [F1|] eqn:E1; [|discriminate]. intros E.
    apply dir_ok in E1; [|apply (Hd (a, s)); left; reflexivity]. destruct E1 as [K1 V1].
    apply IH in E; [|intros d Hin; apply Hd; right; exact Hin]. destruct E as [K2 V2]. split; [intros d [<- |Hin]; auto|].
    intros c q Hq. rewrite V2 by exact Hq. rewrite V1 by exact Hq. cbn [filter]. destruct (concerns k c q (a, s)); reflexivity.
Qed.
Lemma adjust_defined k : forall ds F, (forall d, In d ds -> is_wall ws g d = true -> -4 <= wall_code g d <= -1) -> exists F', adjust V A ws (what k) g ds F = Some F'.
Proof.
  induction ds as [|[a s] ds IH]; intros F H; cbn [adjust]; [exists F; reflexivity|].
  assert (D : exists F1, adjust_dir V A ws (what k) g (a, s) F = Some F1).
  { pose proof (H (a, s) (or_introl eq_refl)) as Q. unfold is_wall, wall_code in Q. cbn [fst snd] in Q. unfold adjust_dir. destruct ((c_bc V g (port a s) <? 0) || (ws <=? c_bc V g (port a s))); [|eexists; reflexivity].
    specialize (Q eq_refl). assert (C : c_bc V g (port a s) = -4 \/ c_bc V g (port a s) = -3 \/ c_bc V g (port a s) = -2 \/ c_bc V g (port a s) = -1) by lia.
    destruct C as [C|[C|[C|C]]]; rewrite C; cbn [adjust_action]; eexists; reflexivity. }
  destruct D as [F1 ->]. apply IH. intros d Hin. apply H. right. exact Hin.
Qed.
Lemma effects_value k ds : forall v, fold_left (fun v d => effect k d v) ds v = wall_value g (r_zero V A) (r_add V A) k ds v.
Proof.
  assert (IZ : forall m, Nat.iter m (fun v => r_add V A v v) (r_zero V A) = r_zero V A) by (induction m as [|m IHm]; [reflexivity|]; unfold Nat.iter in *; cbn [nat_rect]; rewrite IHm; exact Z0).
  assert (IR : forall m v, Nat.iter m (fun v => r_add V A v v) (r_add V A v v) = Nat.iter (S m) (fun v => r_add V A v v) v) by (induction m as [|m IHm]; intros v; [reflexivity|]; unfold Nat.iter in *; cbn [nat_rect] in *; rewrite IHm; reflexivity).
  unfold wall_value. induction ds as [|d ds IH]; intros v; cbn [fold_left existsb length].
  - destruct k; reflexivity.
  - rewrite IH. unfold effect. destruct (wall_code g d =? -1); cbn [orb].
    + match goal with |- context [existsb ?f ds] => destruct (existsb f ds) end; [reflexivity|]. destruct k; try apply IZ; reflexivity.
    + match goal with |- context [existsb ?f ds] => destruct (existsb f ds) end; [reflexivity|]. destruct k; try apply IR; reflexivity.
Qed.
Lemma value_perm k ds ds' v : Permutation ds ds' -> wall_value g (r_zero V A) (r_add V A) k ds v = wall_value g (r_zero V A) (r_add V A) k ds' v.
Proof.
  intros P. unfold wall_value. rewrite (Permutation_length P). replace (existsb (fun d => wall_code g d =? -1) ds) with (existsb (fun d => wall_code g d =? -1) ds'); [reflexivity|].
  apply bool_iff. rewrite !existsb_exists. split; intros (d & Hin & Hd); exists d; (split; [|exact Hd]); eapply Permutation_in; [apply Permutation_sym, P|exact Hin|exact P|exact Hin].
Qed.
Lemma filter_perm {T} (f : T -> bool) l l' : Permutation l l' -> Permutation (filter f l) (filter f l').
Proof. induction 1; cbn [filter]; repeat match goal with |- context [f ?x] => destruct (f x) end; eauto using Permutation. Qed.
Lemma six_sides d : In d six -> snd d = -1 \/ snd d = 1.
Proof. cbn. intuition (subst; cbn; auto). Qed.
Lemma adjust_spec k F : (walls_known ws g <-> exists F', adjust V A ws (what k) g six F = Some F') /\
  forall F', adjust V A ws (what k) g six F = Some F' -> forall c q, in_arr q ->
    F' (c, vox3 n q) = wall_value g (r_zero V A) (r_add V A) k (walls_through ws g k c q) (F (c, vox3 n q)).
Proof.
  split; [split|].
  - intros H. apply adjust_defined. intros [a s] Hin Hw. apply H; [exact (six_sides _ Hin)|exact Hw].
  - intros [F' E]. apply adjust_ok in E; [|exact six_sides]. destruct E as [E _]. intros a s Hs Hw. apply E; [|exact Hw]. destruct Hs as [-> | ->], a; cbn; tauto.
  - intros F' E c q Hq. apply adjust_ok in E; [|exact six_sides]. destruct E as [_ E]. rewrite (E c q Hq), effects_value. apply value_perm. unfold walls_through. apply filter_perm.
    unfold six. apply perm_skip. apply perm_trans with [(AX, 1); (AY, -1); (AZ, -1); (AY, 1); (AZ, 1)].
    + apply Permutation_sym. apply perm_trans with [(AY, -1); (AX, 1); (AZ, -1); (AY, 1); (AZ, 1)]; [apply perm_swap|]. apply perm_skip. apply perm_swap.
    + do 2 apply perm_skip. apply perm_swap.
Qed.
End P.
