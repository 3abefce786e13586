(* Proofs about the operators of the vector classes: every function is run
   once on names instead of words, which gives for every lane of a result an
   expression over the lanes of the arguments. *)
From Coq Require Import ZArith List String Bool Lia.
From Verif Require Import VecOpModel.
Import ListNotations.
Ltac Zify.zify_post_hook ::= idtac.
Open Scope string_scope. Open Scope list_scope. Open Scope nat_scope.

Definition ix_dec (a b : ix) : {a = b} + {a <> b}.
Proof. decide equality; apply Nat.eq_dec. Defined.
Definition pred_dec (a b : pred) : {a = b} + {a <> b}.
Proof. decide equality. Defined.
Definition op1_dec (a b : op1) : {a = b} + {a <> b}.
Proof. decide equality; apply string_dec. Defined.
Definition op2_dec (a b : op2) : {a = b} + {a <> b}.
Proof. decide equality; first [apply string_dec | apply pred_dec]. Defined.
Definition op3_dec (a b : op3) : {a = b} + {a <> b}.
Proof. decide equality. Defined.
Definition sx_dec (a b : sx) : {a = b} + {a <> b}.
Proof.
  decide equality; first [apply string_dec | apply Z.eq_dec | apply ix_dec | apply op1_dec | apply op2_dec | apply op3_dec].
Defined.

(* ---- running on names ----------------------------------------------------- *)
Definition senv := list (string * nat * sx).
Fixpoint find (s : senv) (x : string) (k : nat) : option sx :=
  match s with
  | [] => None
  | (y, l, e) :: s => if String.eqb x y && Nat.eqb k l then Some e else find s x k
  end.
Fixpoint subst (s : senv) (e : sx) : option sx :=
  match e with
  | Ln x (Ix k) => find s x k
  | Ln x J => None
  | Cst w => Some (Cst w)
  | U1 o e => match subst s e with Some a => Some (U1 o a) | None => None end
  | B2 o e f => match subst s e, subst s f with Some a, Some b => Some (B2 o a b) | _, _ => None end
  | T3 o e f g => match subst s e, subst s f, subst s g with
                  | Some a, Some b, Some c => Some (T3 o a b c) | _, _, _ => None end
  | Cond c t e => match subst s c, subst s t, subst s e with
                  | Some a, Some b, Some d => Some (Cond a b d) | _, _, _ => None end
  end.
Fixpoint substs (s : senv) (st : step) : option step :=
  match st with
  | [] => Some []
  | (x, k, e) :: st => match subst s e, substs s st with
                       | Some e', Some st' => Some ((x, k, e') :: st') | _, _ => None end
  end.
Fixpoint sexec (s : senv) (ss : list step) : option (senv * list sx) :=
  match ss with
  | [] => Some (s, [])
  | st :: ss => match substs s st with
                | Some st' => match sexec (rev st' ++ s) ss with
                              | Some (s', obs) => Some (s', map snd st' ++ obs)
                              | None => None end
                | None => None end
  end.
Definition sinit (ps : list (string * nat)) : senv :=
  flat_map (fun p => map (fun k => (fst p, k, Ln (fst p) (Ix k))) (seq 0 (snd p))) ps.

Section S.
Variable F : fpu.
Variable r0 : env.

Definition inv (r : env) (s : senv) : Prop :=
  forall x k, match find s x k with
              | Some e => exists w, eval F r0 e = Some w /\ r x k = Some w
              | None => r x k = None
              end.

Lemma subst_ok : forall r s e e', inv r s -> subst s e = Some e' -> eval F r e = eval F r0 e'.
Proof.
  intros r s e; induction e as [x k|w|o e IH|o e IHe f IHf|o e IHe f IHf g IHg|c IHc t IHt e IHe];
    intros e' Hi Hs; cbn [subst] in Hs.
  - destruct k as [k|]; [|discriminate]. specialize (Hi x k). rewrite Hs in Hi.
    destruct Hi as (w & A & B). cbn [eval]. rewrite B. symmetry; exact A.
  - injection Hs as <-. reflexivity.
  - destruct (subst s e) as [a|]; [|discriminate]. injection Hs as <-. cbn [eval].
    rewrite (IH a Hi eq_refl). reflexivity.
  - destruct (subst s e) as [a|]; [|discriminate]. destruct (subst s f) as [b|]; [|discriminate].
    injection Hs as <-. cbn [eval]. rewrite (IHe a Hi eq_refl), (IHf b Hi eq_refl). reflexivity.
  - destruct (subst s e) as [a|]; [|discriminate]. destruct (subst s f) as [b|]; [|discriminate].
    destruct (subst s g) as [c|]; [|discriminate].
    injection Hs as <-. cbn [eval]. rewrite (IHe a Hi eq_refl), (IHf b Hi eq_refl), (IHg c Hi eq_refl). reflexivity.
  - destruct (subst s c) as [a|]; [|discriminate]. destruct (subst s t) as [b|]; [|discriminate].
    destruct (subst s e) as [d|]; [|discriminate].
    injection Hs as <-. cbn [eval]. rewrite (IHc a Hi eq_refl), (IHt b Hi eq_refl), (IHe d Hi eq_refl). reflexivity.
Qed.

Lemma find_app : forall a b x k,
  find (a ++ b) x k = match find a x k with Some e => Some e | None => find b x k end.
Proof.
  induction a as [|[[y l] e] a IH]; intros b x k; cbn [app find]; [reflexivity|].
  destruct (String.eqb x y && Nat.eqb k l); [reflexivity|apply IH].
Qed.

Lemma upds_inv : forall st st' r1 s1 ws,
  inv r1 s1 ->
  map (fun p => fst p) st = map (fun p => fst p) st' ->
  Forall2 (fun p w => eval F r0 (snd p) = Some w) st' ws ->
  inv (upds r1 st ws) (rev st' ++ s1).
Proof.
  induction st as [|[[x k] e] st IH]; intros st' r1 s1 ws Hi Hm Hw.
  - destruct st' as [|]; [|discriminate]. cbn. destruct ws; exact Hi.
  - destruct st' as [|[[x' k'] e'] st']; [discriminate|].
    cbn [map fst] in Hm. injection Hm as <- <- Hm.
    inversion Hw as [|? w ? ws' E Hw']; subst. cbn [snd] in E.
    cbn [upds rev]. rewrite <- app_assoc. cbn [app].
    apply IH; [|exact Hm|exact Hw'].
    intros y l. cbn [find]. unfold upd.
    destruct (String.eqb y x && Nat.eqb l k).
    + exists w; split; [exact E|reflexivity].
    + apply Hi.
Qed.

Lemma substs_keys : forall s st st', substs s st = Some st' ->
  map (fun p => fst p) st = map (fun p => fst p) st'.
Proof.
  induction st as [|[[x k] e] st IH]; intros st' H; cbn [substs] in H.
  - injection H as <-. reflexivity.
  - destruct (subst s e); [|discriminate]. destruct (substs s st) as [t|]; [|discriminate].
    injection H as <-. cbn. f_equal. apply IH. reflexivity.
Qed.

Lemma evals_ok : forall r s st st', inv r s -> substs s st = Some st' ->
  match evals F r (map snd st) with
  | Some ws => Forall2 (fun p w => eval F r0 (snd p) = Some w) st' ws
  | None => exists e, In e (map snd st') /\ eval F r0 e = None
  end.
Proof.
  intros r s; induction st as [|[[x k] e] st IH]; intros st' Hi H; cbn [substs] in H.
  - injection H as <-. constructor.
  - destruct (subst s e) as [e'|] eqn:E; [|discriminate].
    destruct (substs s st) as [t|] eqn:T; [|discriminate].
    injection H as <-. cbn [map snd evals].
    rewrite (subst_ok r s e e' Hi E). specialize (IH t Hi eq_refl).
    destruct (eval F r0 e') as [w|] eqn:V.
    + destruct (evals F r (map snd st)) as [ws|].
      * constructor; [exact V|exact IH].
      * destruct IH as (e1 & A & B). exists e1. split; [right; exact A|exact B].
    + exists e'. split; [left; reflexivity|exact V].
Qed.

Lemma exec_ok : forall ss r s s' obs, inv r s -> sexec s ss = Some (s', obs) ->
  match exec F r ss with
  | Some r' => inv r' s' /\ Forall (fun e => eval F r0 e <> None) obs
  | None => exists e, In e obs /\ eval F r0 e = None
  end.
Proof.
  induction ss as [|st ss IH]; intros r s s' obs Hi H; cbn [sexec] in H.
  - injection H as <- <-. cbn. split; [exact Hi|constructor].
  - destruct (substs s st) as [st'|] eqn:T; [|discriminate].
    destruct (sexec (rev st' ++ s) ss) as [[s1 o1]|] eqn:X; [|discriminate].
    injection H as <- <-. cbn [exec].
    pose proof (evals_ok r s st st' Hi T) as V.
    destruct (evals F r (map snd st)) as [ws|].
    + pose proof (upds_inv st st' r s ws Hi (substs_keys s st st' T) V) as Hi'.
      specialize (IH _ _ _ _ Hi' X).
      destruct (exec F (upds r st ws) ss) as [r'|].
      * destruct IH as [A B]. split; [exact A|]. apply Forall_app. split; [|exact B].
        clear -V. induction V as [|p w l ws E V IHV]; constructor; [congruence|exact IHV].
      * destruct IH as (e & A & B). exists e. split; [apply in_or_app; right; exact A|exact B].
    + destruct V as (e & A & B). exists e. split; [apply in_or_app; left; exact A|exact B].
Qed.
End S.

(* ---- the same expression in every lane ------------------------------------ *)

(* an expression that is always defined on lanes that are *)
Fixpoint total (lanes : string -> nat -> bool) (e : sx) : bool :=
  match e with
  | Ln x (Ix k) => lanes x k
  | Ln x J => false
  | Cst _ => true
  | U1 o e => match o with INeg => false | _ => total lanes e end
  | B2 o e f => match o with
                | IAdd | ISub | IMul | IDiv | IMod | IShl | IShr => false
                | _ => total lanes e && total lanes f end
  | T3 _ e f g => total lanes e && total lanes f && total lanes g
  | Cond c t e => total lanes c && total lanes t && total lanes e
  end.
Definition has (ps : list (string * nat)) (x : string) (k : nat) : bool :=
  existsb (fun p => String.eqb x (fst p) && Nat.ltb k (snd p)) ps.

(* lane 0 of the vector arguments made the lane j *)
Fixpoint lift (W : nat) (ps : list (string * nat)) (e : sx) : sx :=
  match e with
  | Ln x (Ix 0) => if existsb (fun p => String.eqb x (fst p) && Nat.eqb (snd p) 1) ps then e else Ln x J
  | Ln _ _ => e
  | Cst w => Cst w
  | U1 o e => U1 o (lift W ps e)
  | B2 o e f => B2 o (lift W ps e) (lift W ps f)
  | T3 o e f g => T3 o (lift W ps e) (lift W ps f) (lift W ps g)
  | Cond c t e => Cond (lift W ps c) (lift W ps t) (lift W ps e)
  end.

(* vector arguments in lane j, scalar ones in lane 0 *)
Fixpoint proper (W : nat) (ps : list (string * nat)) (e : sx) : bool :=
  match e with
  | Ln x J => existsb (fun p => String.eqb x (fst p) && Nat.eqb (snd p) W) ps
  | Ln x (Ix k) => Nat.eqb k 0 && existsb (fun p => String.eqb x (fst p) && Nat.eqb (snd p) 1) ps
  | Cst _ => true
  | U1 _ e => proper W ps e
  | B2 _ e f => proper W ps e && proper W ps f
  | T3 _ e f g => proper W ps e && proper W ps f && proper W ps g
  | Cond c t e => proper W ps c && proper W ps t && proper W ps e
  end.

Definition opt_sx_eqb (a : option sx) (b : sx) : bool :=
  match a with Some a => if sx_dec a b then true else false | None => false end.

Fixpoint nodupb (l : list string) : bool :=
  match l with [] => true | x :: l => negb (existsb (String.eqb x) l) && nodupb l end.

(* the expressions of the results in a lane, if they are the same in all *)
Definition form (W : nat) (f : fn) : option (list sx) :=
  match sexec (sinit (f_params f)) (flat W (f_body f)) with
  | Some (s, obs) =>
      match opts (map (fun x => find s x 0) (f_outs f)) with
      | Some es =>
          let ts := map (lift W (f_params f)) es in
          let fin := flat_map (fun j => map (sx_at j) ts) (seq 0 W) in
          if forallb (proper W (f_params f)) ts
             && forallb (fun j => forallb (fun p => opt_sx_eqb (find s (fst p) j) (sx_at j (snd p)))
                                          (combine (f_outs f) ts)) (seq 0 W)
             && forallb (fun o => total (has (f_params f)) o || existsb (fun e => if sx_dec e o then true else false) fin) obs
             && forallb (fun p => Nat.eqb (snd p) W || Nat.eqb (snd p) 1) (f_params f)
             && nodupb (map fst (f_params f)) && Nat.ltb 1 W
          then Some ts else None
      | None => None
      end
  | None => None
  end.

(* the lane of an expression, from the words of the arguments in it *)
Definition cenv (ps : list (string * nat)) (c : list Z) : env :=
  fun x _ => match List.find (fun p => String.eqb x (fst (fst p))) (combine ps c) with
             | Some p => Some (snd p) | None => None end.

(* ---- what that says of a call ---------------------------------------------- *)
Lemma opts_map_ext {A B} (f g : A -> option B) l :
  (forall x, In x l -> f x = g x) -> opts (map f l) = opts (map g l).
Proof.
  intros H. f_equal. apply map_ext_in. exact H.
Qed.

Lemma opts_none {A B} (f : A -> option B) l x : In x l -> f x = None -> opts (map f l) = None.
Proof.
  induction l as [|y l IH]; cbn; [easy|]. intros [<-|H] E.
  - rewrite E. reflexivity.
  - rewrite (IH H E). destruct (f y); reflexivity.
Qed.

Lemma opts_find : forall s xs es, opts (map (fun x => find s x 0) xs) = Some es -> List.length es = List.length xs.
Proof.
  induction xs as [|x xs IH]; intros es H; cbn in H.
  - injection H as <-. reflexivity.
  - destruct (find s x 0); [|discriminate].
    destruct (opts (map (fun x0 => find s x0 0) xs)) as [l|]; [|discriminate].
    injection H as <-. cbn. f_equal. apply IH. reflexivity.
Qed.

Definition sized (ps : list (string * nat)) (args : list (list Z)) : Prop :=
  Forall2 (fun p a => List.length a = snd p) ps args.

Lemma bind_some : forall ps args x k, sized ps args ->
  has ps x k = true -> nodupb (map fst ps) = true -> exists w, bind ps args x k = Some w.
Proof.
  induction ps as [|[y n] ps IH]; intros args x k Hs H Hd; [discriminate|].
  inversion Hs as [|? a ? args' L Hs']; subst. cbn [snd] in L.
  cbn [bind]. cbn [has existsb fst snd] in H.
  cbn [map fst nodupb] in Hd. apply andb_true_iff in Hd. destruct Hd as [Hn Hd].
  destruct (String.eqb x y) eqn:E.
  - apply String.eqb_eq in E. subst y. cbn [andb] in H.
    assert (K : Nat.ltb k n = true).
    { destruct (Nat.ltb k n); [reflexivity|]. cbn [orb] in H. exfalso.
      clear -H Hn. unfold has in H. induction ps as [|[z m] ps IH]; [discriminate|].
      cbn [existsb fst map snd] in H, Hn.
      destruct (String.eqb x z); cbn in *; [discriminate|]. apply IH; assumption. }
    rewrite K. apply Nat.ltb_lt in K. rewrite <- L in K.
    destruct (nth_error a k) eqn:N; [eexists; reflexivity|]. apply nth_error_None in N. lia.
  - cbn [andb orb] in H. apply IH; assumption.
Qed.

Lemma find_map_seq : forall y ks x k (s : senv),
  find (map (fun k0 => (y, k0, Ln y (Ix k0))) ks ++ s) x k =
  if String.eqb x y && existsb (Nat.eqb k) ks then Some (Ln y (Ix k)) else find s x k.
Proof.
  induction ks as [|j ks IH]; intros x k s; cbn [map app find existsb].
  - rewrite andb_false_r. reflexivity.
  - rewrite IH. destruct (String.eqb x y); cbn [andb]; [|reflexivity].
    destruct (Nat.eqb k j) eqn:E; cbn [orb]; [|reflexivity].
    apply Nat.eqb_eq in E. subst. reflexivity.
Qed.

Lemma existsb_seq : forall k a n, existsb (Nat.eqb k) (seq a n) = Nat.leb a k && Nat.ltb k (a + n).
Proof.
  intros k a n. apply eq_true_iff_eq. rewrite existsb_exists, andb_true_iff, Nat.leb_le, Nat.ltb_lt.
  split.
  - intros (x & A & B). apply in_seq in A. apply Nat.eqb_eq in B. lia.
  - intros H. exists k. split; [apply in_seq; lia|apply Nat.eqb_refl].
Qed.

Lemma inv_init : forall F ps args, sized ps args -> nodupb (map fst ps) = true ->
  inv F (bind ps args) (bind ps args) (sinit ps).
Proof.
  intros F ps args Hs Hd x k.
  assert (G : match find (sinit ps) x k with
              | Some e => e = Ln x (Ix k) /\ has ps x k = true
              | None => bind ps args x k = None end).
  { revert args Hs. induction ps as [|[y n] ps IH]; intros args Hs.
    - reflexivity.
    - inversion Hs as [|? a ? args' L Hs']; subst. cbn [snd] in L.
      cbn [map fst nodupb] in Hd. apply andb_true_iff in Hd. destruct Hd as [Hn Hd].
      cbn [sinit flat_map fst snd]. rewrite find_map_seq, existsb_seq. cbn [Nat.leb andb Nat.add].
      cbn [bind has existsb fst snd].
      destruct (String.eqb x y) eqn:E; cbn [andb orb].
      + apply String.eqb_eq in E. subst y.
        destruct (Nat.ltb k n) eqn:K; [split; reflexivity|].
        assert (N : find (flat_map (fun p => map (fun k0 => (fst p, k0, Ln (fst p) (Ix k0))) (seq 0 (snd p))) ps) x k = None).
        { clear -Hn. induction ps as [|[z m] ps IH]; [reflexivity|].
          cbn [flat_map fst snd map existsb] in *.
          rewrite find_map_seq. destruct (String.eqb x z); [discriminate|]. cbn [andb]. apply IH. exact Hn. }
        rewrite N. reflexivity.
      + specialize (IH Hd args' Hs'). unfold sinit in IH. exact IH. }
  destruct (find (sinit ps) x k) as [e|]; [|exact G].
  destruct G as [-> G]. cbn [eval].
  destruct (bind_some ps args x k Hs G Hd) as (w & B).
  exists w. split; exact B.
Qed.

Lemma total_ok : forall F ps args e, sized ps args -> nodupb (map fst ps) = true ->
  total (has ps) e = true -> eval F (bind ps args) e <> None.
Proof.
  intros F ps args e Hs Hd. induction e as [x k|w|o e IH|o e IHe f IHf|o e IHe f IHf g IHg|c IHc t IHt e IHe];
    cbn [total eval]; intros H.
  - destruct k; [|discriminate]. destruct (bind_some ps args x k Hs H Hd) as (w & ->). discriminate.
  - discriminate.
  - assert (T : total (has ps) e = true) by (destruct o; congruence).
    specialize (IH T). destruct (eval F (bind ps args) e) as [a|]; [|congruence].
    destruct o; try discriminate.
  - assert (T : total (has ps) e && total (has ps) f = true) by (destruct o; congruence).
    apply andb_true_iff in T. destruct T as [T1 T2]. specialize (IHe T1). specialize (IHf T2).
    destruct (eval F (bind ps args) e) as [a|]; [|congruence].
    destruct (eval F (bind ps args) f) as [b|]; [|congruence].
    destruct o; discriminate.
  - apply andb_true_iff in H. destruct H as [H T3]. apply andb_true_iff in H. destruct H as [T1 T2].
    specialize (IHe T1). specialize (IHf T2). specialize (IHg T3).
    destruct (eval F (bind ps args) e) as [a|]; [|congruence].
    destruct (eval F (bind ps args) f) as [b|]; [|congruence].
    destruct (eval F (bind ps args) g) as [d|]; [|congruence].
    destruct o; discriminate.
  - apply andb_true_iff in H. destruct H as [H T3]. apply andb_true_iff in H. destruct H as [T1 T2].
    specialize (IHc T1). specialize (IHt T2). specialize (IHe T3).
    destruct (eval F (bind ps args) c) as [a|]; [|congruence].
    destruct (a =? 0)%Z; assumption.
Qed.

(* the words of the arguments in lane j *)
Definition col (j : nat) (args : list (list Z)) : list Z :=
  map (fun a => match a with [w] => w | _ => nth j a 0%Z end) args.

Lemma lane_env : forall W ps args x j k, sized ps args -> nodupb (map fst ps) = true -> 1 < W -> j < W ->
  (k = j /\ existsb (fun p => String.eqb x (fst p) && Nat.eqb (snd p) W) ps = true) \/
  (k = 0 /\ existsb (fun p => String.eqb x (fst p) && Nat.eqb (snd p) 1) ps = true) ->
  forall l, bind ps args x k = cenv ps (col j args) x l.
Proof.
  intros W ps args x j k Hs Hd HW Hj H l. revert args Hs H Hd.
  induction ps as [|[y n] ps IH]; intros args Hs H Hd.
  - destruct H as [[_ H]|[_ H]]; discriminate.
  - inversion Hs as [|? a ? args' L Hs']; subst. cbn [snd] in L.
    cbn [map fst nodupb] in Hd. apply andb_true_iff in Hd. destruct Hd as [Hn Hd].
    unfold cenv. cbn [col map combine List.find fst snd bind].
    cbn [existsb fst snd] in H.
    destruct (String.eqb x y) eqn:E.
    + apply String.eqb_eq in E. subst y. cbn [andb] in H.
      assert (N : forall m, existsb (fun p => String.eqb x (fst p) && Nat.eqb (snd p) m) ps = false).
      { intros m. clear -Hn. induction ps as [|[z q] ps IH]; [reflexivity|].
        cbn [map existsb fst snd] in *. destruct (String.eqb x z); cbn in *; [discriminate|]. apply IH. exact Hn. }
      rewrite !N, !orb_false_r in H.
      cbn [snd].
      destruct H as [[-> H]|[-> H]]; apply Nat.eqb_eq in H; subst n.
      * assert (K : Nat.ltb j W = true) by (apply Nat.ltb_lt; lia).
        rewrite K. destruct a as [|w [|w2 a]]; [cbn in *; lia|cbn in *; lia|].
        apply nth_error_nth'. lia.
      * destruct a as [|w [|w2 a]]; [discriminate| |discriminate]. reflexivity.
    + cbn [andb orb] in H. exact (IH args' Hs' H Hd).
Qed.

Lemma lane_eval : forall F W ps args j t, sized ps args -> nodupb (map fst ps) = true -> 1 < W -> j < W ->
  proper W ps t = true ->
  eval F (bind ps args) (sx_at j t) = eval F (cenv ps (col j args)) (sx_at 0 t).
Proof.
  intros F W ps args j t Hs Hd HW Hj.
  induction t as [x k|w|o e IH|o e IHe f IHf|o e IHe f IHf g IHg|c IHc t IHt e IHe];
    cbn [proper sx_at eval]; intros H.
  - destruct k as [k|]; cbn [ix_at].
    + apply andb_true_iff in H. destruct H as [K H]. apply Nat.eqb_eq in K. subst k.
      apply (lane_env W ps args x j 0 Hs Hd HW Hj). right. split; [reflexivity|exact H].
    + apply (lane_env W ps args x j j Hs Hd HW Hj). left. split; [reflexivity|exact H].
  - reflexivity.
  - rewrite IH by exact H. reflexivity.
  - apply andb_true_iff in H. destruct H. rewrite IHe, IHf by assumption. reflexivity.
  - apply andb_true_iff in H. destruct H as [H ?]. apply andb_true_iff in H. destruct H.
    rewrite IHe, IHf, IHg by assumption. reflexivity.
  - apply andb_true_iff in H. destruct H as [H ?]. apply andb_true_iff in H. destruct H.
    rewrite IHc, IHt, IHe by assumption. reflexivity.
Qed.

Lemma map_combine {A B C} (g : A -> C) (h : B -> C) : forall (l : list A) (m : list B),
  List.length l = List.length m -> (forall p, In p (combine l m) -> g (fst p) = h (snd p)) -> map g l = map h m.
Proof.
  induction l as [|a l IH]; intros [|b m] L H; try discriminate; [reflexivity|].
  cbn. f_equal.
  - apply (H (a, b)). left; reflexivity.
  - apply IH; [cbn in L; lia|]. intros p Hp. apply H. right; exact Hp.
Qed.

Theorem form_ok : forall F W f ts args, form W f = Some ts -> sized (f_params f) args ->
  call F W f args =
  opts (map (fun j => opts (map (fun t => eval F (cenv (f_params f) (col j args)) (sx_at 0 t)) ts)) (seq 0 W)).
Proof.
  intros F W f ts args H Hs. unfold form in H.
  destruct (sexec (sinit (f_params f)) (flat W (f_body f))) as [[s obs]|] eqn:X; [|discriminate].
  destruct (opts (map (fun x => find s x 0) (f_outs f))) as [es|] eqn:O; [|discriminate].
  match type of H with (if ?c then _ else _) = _ => destruct c eqn:C; [|discriminate] end.
  injection H as <-.
  apply andb_true_iff in C. destruct C as [C HW]. apply Nat.ltb_lt in HW.
  apply andb_true_iff in C. destruct C as [C Hd].
  apply andb_true_iff in C. destruct C as [C _].
  apply andb_true_iff in C. destruct C as [C Hobs].
  apply andb_true_iff in C. destruct C as [Hp Hfin].
  rewrite forallb_forall in Hp, Hfin, Hobs.
  set (ts := map (lift W (f_params f)) es) in *.
  assert (Len : List.length (f_outs f) = List.length ts).
  { unfold ts. rewrite map_length. symmetry. exact (opts_find s _ es O). }
  set (r0 := bind (f_params f) args).
  assert (R : opts (map (fun j => opts (map (fun t => eval F (cenv (f_params f) (col j args)) (sx_at 0 t)) ts)) (seq 0 W))
            = opts (map (fun j => opts (map (fun t => eval F r0 (sx_at j t)) ts)) (seq 0 W))).
  { apply opts_map_ext. intros j Hj. apply in_seq in Hj. apply opts_map_ext. intros t Ht. symmetry.
    apply (lane_eval F W); try assumption; [lia|]. apply Hp. exact Ht. }
  rewrite R. unfold call, call_n.
  pose proof (exec_ok F r0 (flat W (f_body f)) r0 (sinit (f_params f)) s obs (inv_init F _ _ Hs Hd) X) as E.
  fold r0.
  destruct (exec F r0 (flat W (f_body f))) as [r'|].
  - destruct E as [Hi _]. apply opts_map_ext. intros j Hj. f_equal.
    specialize (Hfin j Hj). rewrite forallb_forall in Hfin.
    apply map_combine; [exact Len|]. intros [x t] Hxt. specialize (Hfin (x, t) Hxt). cbn [fst snd] in Hfin |- *.
    specialize (Hi x j). destruct (find s x j) as [e|]; [|discriminate].
    cbn [opt_sx_eqb] in Hfin. destruct (sx_dec e (sx_at j t)) as [->|]; [|discriminate].
    destruct Hi as (w & A & B). rewrite A, B. reflexivity.
  - destruct E as (e & He & Hn). specialize (Hobs e He). apply orb_true_iff in Hobs. destruct Hobs as [T|T].
    + exfalso. exact (total_ok F _ _ e Hs Hd T Hn).
    + apply existsb_exists in T. destruct T as (e1 & A & B). destruct (sx_dec e1 e) as [->|]; [|discriminate].
      apply in_flat_map in A. destruct A as (j & Hj & A). apply in_map_iff in A. destruct A as (t & <- & Ht).
      symmetry. apply (opts_none _ _ j Hj). apply (opts_none _ _ t Ht). exact Hn.
Qed.
