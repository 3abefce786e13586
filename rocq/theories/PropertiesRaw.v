(* C82: raw injection of particles. *)
From Coq Require Import ZArith List Bool Lia ZifyBool Sorted.
From Flocq Require Import Core IEEE754.BinarySingleNaN.
Require Import Verif.FloatModel Verif.FloatProofs Verif.SortModel Verif.VoxelModel Verif.ParticleModel Verif.GridModel Verif.InjectModel Verif.InjectProofs Verif.PropertiesInject Verif.RawModel.
Import ListNotations.
Open Scope Z_scope.
Ltac Zify.zify_post_hook ::= idtac.

(* Raw injection of a list of particles is defined if and only if there is room for all of them, and appends them in order. *)
Theorem C82_raw : forall M ps (s : store_of M), Z.of_nat (length (s_p s)) <= s_max_np s ->
  (Z.of_nat (length (s_p s) + length ps) <= s_max_np s -> inject_raw_all s ps = Ok (mk_store (s_p s ++ ps) (s_max_np s) (s_pm s) (s_max_nm s))) /\
  (s_max_np s < Z.of_nat (length (s_p s) + length ps) -> inject_raw_all s ps = UB).
Proof.
  intros M. induction ps as [|p ps IH]; intros [sp mp sm mm] H; cbn [s_p s_max_np s_pm s_max_nm] in *.
  - cbn [length]. split; [intros _; rewrite app_nil_r; reflexivity|lia].
  - cbn [length inject_raw_all]. unfold inject_raw. cbn [s_p s_max_np s_pm s_max_nm]. destruct (Z.of_nat (length sp) <? mp) eqn:E.
    + cbn [bind]. specialize (IH (mk_store (sp ++ [p]) mp sm mm)). cbn [s_p s_max_np s_pm s_max_nm] in IH. rewrite app_length in IH. cbn [length] in IH. destruct IH as [I1 I2]; [lia|].
      split; intro L; [rewrite I1 by lia; rewrite <- app_assoc; reflexivity|apply I2; lia].
    + cbn [bind]. split; [lia|reflexivity].
Qed.
Print Assumptions C82_raw.

(* With displacement: the particles are stored in order as move_p leaves them, and the movers still in use are appended with the index of
   their particle. *)
Definition moved {M} (move : part b32 -> M -> bool * part b32 * M) (x : part b32 * M) : bool * part b32 * M := move (fst x) (snd x).
Fixpoint movers {M} (move : part b32 -> M -> bool * part b32 * M) (k : Z) (ps : list (part b32 * M)) : list (M * Z) :=
  match ps with [] => [] | x :: r => let '(busy, _, m) := moved move x in (if busy then [(m, k)] else []) ++ movers move (k + 1) r end.
Theorem C82_raw_move : forall M (move : part b32 -> M -> bool * part b32 * M) ps (s : store_of M), 
  Z.of_nat (length (s_p s) + length ps) <= s_max_np s -> Z.of_nat (length (s_pm s) + length ps) <= s_max_nm s ->
  inject_raw_move_all move s ps =
    Ok (mk_store (s_p s ++ map (fun x => snd (fst (moved move x))) ps) (s_max_np s) (s_pm s ++ movers move (Z.of_nat (length (s_p s))) ps) (s_max_nm s)).
Proof.
  intros M move. induction ps as [|[p m] ps IH]; intros [sp mp sm mm] H1 H2; cbn [s_p s_max_np s_pm s_max_nm length] in *.
  - cbn. rewrite !app_nil_r. reflexivity.
  - cbn [inject_raw_move_all]. unfold inject_raw_move. cbn [s_p s_max_np s_pm s_max_nm].
    replace (Z.of_nat (length sp) <? mp) with true by lia. replace (Z.of_nat (length sm) <? mm) with true by lia. cbn [negb].
    cbn [map movers]. unfold moved at 1 3. cbn [fst snd]. destruct (move p m) as [[busy p'] m'] eqn:E. cbn [bind fst snd].
    specialize (IH (mk_store (sp ++ [p']) mp (sm ++ if busy then [(m', Z.of_nat (length (sp ++ [p])) - 1)] else []) mm)). cbn [s_p s_max_np s_pm s_max_nm] in IH.
    rewrite IH; [|rewrite app_length; cbn [length]; lia|rewrite app_length; destruct busy; cbn [length]; lia].
    rewrite !app_length. cbn [length]. replace (Z.of_nat (length sp + 1) - 1) with (Z.of_nat (length sp)) by lia. replace (Z.of_nat (length sp + 1)) with (Z.of_nat (length sp) + 1) by lia.
    rewrite <- !app_assoc. reflexivity.
Qed.
Print Assumptions C82_raw_move.

(* The boundary exchange wants the movers in the order of their particles: injection keeps them so, each with a particle of its own. *)
Definition in_order {M} (s : store_of M) : Prop := StronglySorted Z.lt (map snd (s_pm s)) /\ Forall (fun i => 0 <= i < Z.of_nat (length (s_p s))) (map snd (s_pm s)).
Lemma sorted_snoc : forall l b, StronglySorted Z.lt l -> Forall (fun i => i < b) l -> StronglySorted Z.lt (l ++ [b]).
Proof.
  induction l as [|a l IH]; intros b S F; cbn [app]; [repeat constructor|]. apply StronglySorted_inv in S. destruct S as [S A]. apply Forall_cons_iff in F. destruct F as [F1 F2].
  constructor; [apply IH; assumption|]. apply Forall_app. split; [exact A|]. constructor; [exact F1|constructor].
Qed.
Theorem C82_order : forall M (move : part b32 -> M -> bool * part b32 * M) ps (s s' : store_of M), in_order s -> inject_raw_move_all move s ps = Ok s' -> in_order s'.
Proof.
  intros M move. induction ps as [|[p m] ps IH]; intros s s' I H; cbn [inject_raw_move_all] in H; [injection H as <-; exact I|].
  destruct (inject_raw_move move s p m) as [s1| |] eqn:E; try discriminate. cbn [bind] in H. apply (IH s1); [|exact H]. clear IH H.
  unfold inject_raw_move in E. destruct (negb _); [discriminate|]. destruct (negb _); [discriminate|]. destruct (move p m) as [[busy p'] m']. injection E as <-. destruct I as [S F].
  unfold in_order. cbn [s_p s_pm]. rewrite map_app, !app_length. cbn [length].
  assert (F' : Forall (fun i => 0 <= i < Z.of_nat (length (s_p s) + 1)) (map snd (s_pm s))) by (eapply Forall_impl; [|exact F]; cbv beta; intros; lia).
  destruct busy; cbn [map snd]; [|rewrite app_nil_r; split; assumption]. split.
  - apply sorted_snoc; [exact S|]. eapply Forall_impl; [|exact F]. cbv beta. intros; lia.
  - apply Forall_app. split; [exact F'|]. constructor; [lia|constructor].
Qed.
Print Assumptions C82_order.

(* inject_particle without age stores what the raw variant stores for some particle of the same momentum and weight, when the position is on
   this rank and there is room. *)
Theorem C82_same_store : forall M (move : part b32 -> M -> bool * part b32 * M) d (s s' : store_of M) x y z u w,
  accepts d x y z = true -> inject move d s x y z u w false None = Ok s' -> exists p, pu p = u /\ pw p = w /\ inject_raw s p = Ok s'.
Proof.
  intros M move d s s' x y z u w A H. unfold inject in H. rewrite A in H. cbn [negb] in H. destruct (s_max_np s <=? Z.of_nat (length (s_p s))) eqn:E; [discriminate|].
  destruct (place (d_x d) x) as [cx| |]; try discriminate. destruct (place (d_y d) y) as [cy| |]; try discriminate. destruct (place (d_z d) z) as [cz| |]; try discriminate. cbn [bind] in H.
  injection H as <-. eexists. unfold inject_raw. replace (Z.of_nat (length (s_p s)) <? s_max_np s) with true by lia.
  match goal with |- context [s_p s ++ [?q]] => instantiate (1 := q) end. cbn [pu pw]. repeat split; reflexivity.
Qed.
Print Assumptions C82_same_store.

(* As its comment warns, nothing checks the room: a full species, or full movers, are overrun. *)
Theorem C82_full_refuted : exists (s : store_of unit) p, Z.of_nat (length (s_p s)) <= s_max_np s /\ Z.of_nat (length (s_pm s)) <= s_max_nm s /\
  inject_raw s p = UB /\ inject_raw_move (fun p m => (true, p, m)) s p tt = UB /\
  inject_raw_move (fun p m => (true, p, m)) (mk_store [] 1 [] 0) p tt = UB.
Proof.
  pose (o := f_of_Z 0). exists (mk_store [mkp (mkv o o o) 0 (mkv o o o) o] 1 [] 5), (mkp (mkv o o o) 0 (mkv o o o) o). cbn. repeat split; lia.
Qed.
Print Assumptions C82_full_refuted.

Example raw_example : forall p q : part b32, inject_raw_move_all (fun p m => (m, p, m)) (mk_store [p] 4 [(true, 0)] 4) [(q, false); (p, true); (q, true)] =
  Ok (mk_store [p; q; p; q] 4 [(true, 0); (true, 2); (true, 3)] 4).
Proof. intros. reflexivity. Qed.
