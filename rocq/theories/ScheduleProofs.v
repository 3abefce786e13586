(* Proofs about the schedule of a run. *)
From Coq Require Import ZArith List Bool Lia ZifyBool.
From Verif Require Import ScheduleModel ScheduleSpec.
Import ListNotations.
Open Scope Z_scope.
Ltac Zify.zify_post_hook ::= idtac.

Lemma some_iff {A} (l : list A) : some l = true <-> l <> [].
Proof. destruct l; cbn; split; congruence. Qed.

Section H.
Variable sp : list nat.
Hypothesis Hnd : NoDup sp.
Definition hoare (P : times -> Prop) (l : list call) (Q : times -> Prop) : Prop :=
  forall x, P x -> exists y, execs sp l x = Some y /\ Q y.

Lemma execs_app : forall a b x, execs sp (a ++ b) x = match execs sp a x with Some y => execs sp b y | None => None end.
Proof using. induction a as [|k a IH]; intros b x; [reflexivity|]. cbn. destruct (exec sp k x); [apply IH|reflexivity]. Qed.
Lemma h_app P Q R a b : hoare P a Q -> hoare Q b R -> hoare P (a ++ b) R.
Proof using. intros H1 H2 x Hx. destruct (H1 x Hx) as (y & E1 & Hy). destruct (H2 y Hy) as (z & E2 & Hz). exists z. rewrite execs_app, E1. auto. Qed.
Lemma h_nil (P Q : times -> Prop) : (forall x, P x -> Q x) -> hoare P [] Q.
Proof using. intros H x Hx. exists x. split; [reflexivity|auto]. Qed.
Lemma h_one (P Q : times -> Prop) k : (forall x, P x -> exists y, exec sp k x = Some y /\ Q y) -> hoare P [k] Q.
Proof using. intros H x Hx. destruct (H x Hx) as (y & E & Hy). exists y. cbn. rewrite E. auto. Qed.
Lemma h_msg P l : hoare P (msg l) P.
Proof using. unfold msg. destruct (l_rank l =? 0); [apply h_one|apply h_nil; auto]. intros x Hx. exists x. auto. Qed.
Lemma h_when (P Q : times -> Prop) b l : (b = true -> hoare P l Q) -> (b = false -> forall x, P x -> Q x) -> hoare P (when b l) Q.
Proof using. destruct b; cbn; intros H1 H2; [auto|apply h_nil; auto]. Qed.
Lemma h_weak (P P' Q : times -> Prop) l : (forall x, P' x -> P x) -> hoare P l Q -> hoare P' l Q.
Proof using. intros H1 H2 x Hx. auto. Qed.
Lemma h_post (P Q Q' : times -> Prop) l : (forall x, Q x -> Q' x) -> hoare P l Q -> hoare P l Q'.
Proof using. intros H1 H2 x Hx. destruct (H2 x Hx) as (y & E & Hy). eauto. Qed.
Lemma h_fold {A} (f : A -> list call) P : forall l, (forall a, In a l -> hoare P (f a) P) -> hoare P (flat_map f l) P.
Proof using.
  induction l as [|a l IH]; cbn; intros H; [apply h_nil; auto|].
  eapply h_app; [apply H; left; reflexivity|apply IH; intros; apply H; right; assumption].
Qed.
Lemma h_rounds f P n : (forall r, hoare P (f r) P) -> hoare P (rounds n f) P.
Proof using. intros H. unfold rounds. apply h_fold. intros; apply H. Qed.
(* one call per species, with those done so far *)
Lemma h_each (f : nat -> list call) (P : list nat -> times -> Prop) :
  (forall s d, In s sp -> ~ In s d -> hoare (P d) (f s) (P (s :: d))) ->
  forall l d, NoDup l -> (forall s, In s l -> In s sp /\ ~ In s d) -> hoare (P d) (flat_map f l) (P (rev l ++ d)).
Proof using.
  intros Hs. induction l as [|s l IH]; intros d Hn Hd; cbn; [apply h_nil; auto|].
  inversion_clear Hn. eapply h_app; [apply Hs; apply Hd; left; reflexivity|].
  rewrite <- app_assoc. apply IH; [assumption|]. intros t Ht. split; [apply Hd; right; exact Ht|].
  intros [<-|X]; [contradiction|]. apply (Hd t); [right; exact Ht|exact X].
Qed.
Lemma map_flat (f : nat -> call) l : map f l = flat_map (fun s => [f s]) l.
Proof using. induction l; cbn; congruence. Qed.

(* all but the particles *)
Definition base (n e b : Z) (x : times) : Prop :=
  t_step x = n /\ t_e x = e /\ t_b x = b /\ t_rhob x = true /\ t_curl x = true.
Definition parts (q : Z) (x : times) : Prop := forall s, In s sp -> t_pos x s = q /\ t_mom x s = q - 1.
Definition quiet (x : times) : Prop := forall s, In s sp -> t_movers x s = false.
Definition acc (a : acc_state) (x : times) : Prop := sp <> [] -> t_acc x = a.
Definition itp (t : Z) (x : times) : Prop := sp <> [] -> t_interp x = Some t.
Definition cur (t : Z) (x : times) : Prop := t_jf x = JfShared (if some sp then Some t else None).

Lemma some_ne : some sp = true <-> sp <> [].
Proof using. apply some_iff. Qed.
Lemma at_time_ok x t : parts t x -> at_time sp x t (-1) = true.
Proof using. intros H. apply forallb_forall. intros s Hs. destruct (H s Hs). lia. Qed.
Lemma quiet_ok x : quiet x -> no_movers sp x = true.
Proof using. intros H. apply forallb_forall. intros s Hs. rewrite (H s Hs). reflexivity. Qed.
Lemma acc_ok x a : acc a x -> a <> AccUnknown -> acc_is x a || negb (some sp) = true.
Proof using.
  intros H Ha. destruct (some sp) eqn:E; [|apply orb_true_r]. unfold acc_is. rewrite H by (apply some_ne; exact E).
  destruct a; congruence || reflexivity.
Qed.

Definition ready0 n x := base n (2*n) (2*n) x /\ parts (2*n) x /\ quiet x /\ itp (2*n) x.
Lemma ready_iff n x : ready sp n x <-> ready0 n x.
Proof using.
  unfold ready, ready0, base, parts, quiet, itp. split.
  - intros (A & B & C & D & E & F & G). repeat split; auto; intros; try (apply D; assumption).
  - intros ((A & B & C & F & G) & D & E & I). repeat split; auto; intros; try (apply D; assumption); apply E; assumption.
Qed.

Ltac one := apply h_one; intros x Hx; cbn [exec].
Ltac fin := eexists; split; [reflexivity|].
(* particles: species of d advanced *)
Definition adv (n : Z) (d : list nat) (x : times) : Prop :=
  base n (2*n) (2*n) x /\ itp (2*n) x /\ acc AccOpen x /\
  forall s, In s sp -> (In s d -> t_pos x s = 2*n+2 /\ t_mom x s = 2*n+1) /\ (~ In s d -> t_pos x s = 2*n /\ t_mom x s = 2*n-1 /\ t_movers x s = false).
Lemma h_advance n : hoare (fun x => ready0 n x /\ acc AccOpen x) (map AdvanceP sp)
  (fun x => base n (2*n) (2*n) x /\ parts (2*n+2) x /\ acc AccOpen x).
Proof using Hnd.
  rewrite map_flat.
  eapply h_weak with (P := adv n []); [|eapply h_post; [|apply (h_each _ (adv n)) with (l := sp) (d := [])]].
  - intros x ((B & P & Q & I) & A). repeat split; try apply B; auto; intros; try contradiction; try (apply P; assumption).
  - intros x (B & I & A & H). split; [exact B|]. split; [|exact A]. intros s Hs.
    destruct (H s Hs) as [H1 _]. specialize (H1 ltac:(rewrite app_nil_r; apply -> in_rev; exact Hs)). lia.
  - intros s d Hs Hd. one. destruct Hx as (B & I & A & H).
    assert (Hne : sp <> []) by (intros E; rewrite E in Hs; contradiction).
    destruct (H s Hs) as [_ H2]. destruct (H2 Hd) as (Hp & Hm & Hq). destruct B as (B1 & B2 & B3 & B4 & B5).
    unfold acc_is, interp_at. rewrite (A Hne), (I Hne), Hp, Hm, Hq, B2, !Z.eqb_refl. cbn.
    fin. split; [|split; [|split]].
    + repeat split; auto.
    + exact I.
    + exact A.
    + intros t Ht. cbn. unfold setf. destruct (Nat.eqb_spec t s) as [->|Ne].
      * split; [intros _; lia|]. intros X. exfalso. apply X. left. reflexivity.
      * destruct (H t Ht) as [K1 K2]. split; [intros [X|X]; [congruence|auto]|intros X; apply K2; intros Y; apply X; right; exact Y].
  - exact Hnd.
  - intros s Hs. split; [exact Hs|intros []].
Qed.

(* free charge: species of d accumulated *)
Definition rho (n t : Z) (d : list nat) (mom : nat -> Z) (x : times) : Prop :=
  t_step x = n /\ t_e x = t /\ t_b x = t /\ t_curl x = true /\ quiet x /\ (forall s, In s sp -> t_pos x s = t /\ t_mom x s = mom s) /\ t_rho x = RhoOpen t d.
Definition rhofull (n t : Z) (mom : nat -> Z) (x : times) : Prop :=
  t_step x = n /\ t_e x = t /\ t_b x = t /\ t_curl x = true /\ quiet x /\ (forall s, In s sp -> t_pos x s = t /\ t_mom x s = mom s) /\ t_rho x = RhoFull t.
Definition plain (n t : Z) (mom : nat -> Z) (x : times) : Prop :=
  t_step x = n /\ t_e x = t /\ t_b x = t /\ t_curl x = true /\ quiet x /\ (forall s, In s sp -> t_pos x s = t /\ t_mom x s = mom s).
Definition rb (b : bool) (x : times) : Prop := t_rhob x = b.
Lemma in_existsb s l : In s l -> existsb (Nat.eqb s) l = true.
Proof using. intros H. apply existsb_exists. exists s. split; [exact H|apply PeanoNat.Nat.eqb_refl]. Qed.
Lemma notin_existsb s l : ~ In s l -> existsb (Nat.eqb s) l = false.
Proof using. intros H. destruct (existsb (Nat.eqb s) l) eqn:E; [|reflexivity]. apply existsb_exists in E. destruct E as (t & Ht & E). apply PeanoNat.Nat.eqb_eq in E. congruence. Qed.
Lemma h_rho n t mom b : hoare (fun x => plain n t mom x /\ rb b x) ([ClearRhof] ++ map AccRho sp ++ [SyncRho]) (fun x => rhofull n t mom x /\ rb b x).
Proof using Hnd.
  eapply h_app with (Q := fun x => rho n t [] mom x /\ rb b x).
  - one. destruct Hx as ((A & B & C & K & D & E) & R). fin. rewrite B. repeat split; auto; apply E; assumption.
  - rewrite map_flat. eapply h_app with (Q := fun x => rho n t (rev sp ++ []) mom x /\ rb b x).
    + apply (h_each _ (fun d x => rho n t d mom x /\ rb b x)); [|exact Hnd|intros s Hs; split; [exact Hs|intros []]].
      intros s d Hs Hd. one. destruct Hx as ((A & B & C & K & D & E & F) & R). rewrite F.
      destruct (E s Hs) as [E1 E2]. rewrite E1, Z.eqb_refl, (D s Hs), notin_existsb by exact Hd. cbn.
      fin. repeat split; auto; apply E; assumption.
    + one. destruct Hx as ((A & B & C & K & D & E & F) & R). rewrite F.
      assert (X : all_species sp (fun s => existsb (Nat.eqb s) (rev sp ++ [])) = true).
      { apply forallb_forall. intros s Hs. apply in_existsb. rewrite app_nil_r. apply -> in_rev. exact Hs. }
      rewrite X. fin. repeat split; auto; apply E; assumption.
Qed.
Lemma h_err_e n t mom : hoare (fun x => rhofull n t mom x /\ rb true x) [DivEErr] (fun x => rhofull n t mom x /\ rb true x /\ t_erre x = true).
Proof using.
  one. destruct Hx as ((A & B & C & K & D & E & F) & R). rewrite R, F, B, Z.eqb_refl. fin. repeat split; auto; apply E; assumption.
Qed.
Lemma h_rms_e n t mom : hoare (fun x => rhofull n t mom x /\ rb true x /\ t_erre x = true) [RmsE] (fun x => rhofull n t mom x /\ rb true x /\ t_erre x = true).
Proof using. one. destruct Hx as (A & R & E). rewrite E. fin. auto. Qed.
Lemma h_clean_e n t mom : hoare (fun x => rhofull n t mom x /\ rb true x /\ t_erre x = true) [CleanE] (fun x => rhofull n t mom x /\ rb true x).
Proof using. one. destruct Hx as ((A & B & C & K & D & E & F) & R & G). rewrite G. fin. repeat split; auto; apply E; assumption. Qed.
Lemma h_err_b n t mom b : hoare (fun x => plain n t mom x /\ rb b x) [DivBErr] (fun x => plain n t mom x /\ rb b x /\ t_errb x = true).
Proof using. one. destruct Hx as ((A & B & C & K & D & E) & R). fin. repeat split; auto; apply E; assumption. Qed.
Lemma h_rms_b n t mom b : hoare (fun x => plain n t mom x /\ rb b x /\ t_errb x = true) [RmsB] (fun x => plain n t mom x /\ rb b x /\ t_errb x = true).
Proof using. one. destruct Hx as (A & R & E). rewrite E. fin. auto. Qed.
Lemma h_clean_b n t mom b : hoare (fun x => plain n t mom x /\ rb b x /\ t_errb x = true) [CleanB] (fun x => plain n t mom x /\ rb b x).
Proof using. one. destruct Hx as ((A & B & C & K & D & E) & R & G). rewrite G. fin. repeat split; auto; apply E; assumption. Qed.
Lemma h_sync n t mom b : hoare (fun x => plain n t mom x /\ rb b x) [SyncTangENormB] (fun x => plain n t mom x /\ rb b x).
Proof using. one. destruct Hx as ((A & B & C & K & D & E) & R). rewrite B, C, Z.eqb_refl. fin. repeat split; auto; apply E; assumption. Qed.
Lemma full_plain n t mom x : rhofull n t mom x -> plain n t mom x.
Proof using. intros (A & B & C & K & D & E & F). repeat split; auto; apply E; assumption. Qed.
Lemma h_load n t mom : hoare (fun x => plain n t mom x /\ rb true x) (when (some sp) [LoadInterp]) (fun x => plain n t mom x /\ rb true x /\ itp t x).
Proof using.
  apply h_when; intros Hs.
  - one. destruct Hx as ((A & B & C & K & D & E) & R). rewrite B, C, Z.eqb_refl. fin. repeat split; auto; apply E; assumption.
  - intros x (A & R). split; [exact A|]. split; [exact R|]. intros X. apply some_ne in X. congruence.
Qed.

Lemma h_particles c l n : c_species c = sp -> hoare (ready0 n)
  (flat_map (fun s => when (due (c_sort c s) n) (msg l ++ [SortP s])) sp ++
   when (some sp) [ClearAcc] ++ when (c_collide c) [Collisions] ++ [UserCollisions] ++ map AdvanceP sp ++
   when (c_emit c) [Emit] ++ [UserInject] ++ when (some sp) [ReduceAcc] ++ rounds (c_comm_round c) (fun _ => [BoundaryP]) ++
   flat_map (fun s => when (negb (l_nm l s =? 0) && l_verbose l) [Message] ++ [DropMovers s]) sp)
  (fun x => base n (2*n) (2*n) x /\ parts (2*n+2) x /\ quiet x /\ acc AccReduced x).
Proof using Hnd.
  intros Hc.
  eapply h_app with (Q := ready0 n).
  { apply h_fold. intros s Hs. apply h_when; [|auto]. intros _. eapply h_app; [apply h_msg|].
    one. destruct Hx as (B & P & Q & I). rewrite (Q s Hs). fin. repeat split; try apply B; auto; apply P; assumption. }
  eapply h_app with (Q := fun x => ready0 n x /\ acc AccOpen x).
  { apply h_when; intros Hs.
    - one. destruct Hx as (B & P & Q & I). fin. repeat split; try apply B; auto; apply P; assumption.
    - intros x Hx. split; [exact Hx|]. intros X. apply some_ne in X. congruence. }
  assert (Hcol : forall k, k = Collisions \/ k = UserCollisions -> hoare (fun x => ready0 n x /\ acc AccOpen x) [k] (fun x => ready0 n x /\ acc AccOpen x)).
  { intros k Hk. apply h_one. intros x ((B & P & Q & I) & A). exists x. split; [|repeat split; try apply B; auto; apply P; assumption].
    destruct B as (B1 & B2 & B3 & B4 & B5). destruct Hk as [->| ->]; cbn [exec]; rewrite B2, B3, quiet_ok, at_time_ok, Z.eqb_refl by assumption; reflexivity. }
  eapply h_app; [apply h_when; [intros _; apply Hcol; auto|intros _ x Hx; exact Hx]|].
  eapply h_app; [apply Hcol; auto|].
  eapply h_app; [apply h_advance|].
  assert (Hem : forall k, k = Emit \/ k = UserInject -> hoare (fun x => base n (2*n) (2*n) x /\ parts (2*n+2) x /\ acc AccOpen x) [k] (fun x => base n (2*n) (2*n) x /\ parts (2*n+2) x /\ acc AccOpen x)).
  { intros k Hk. apply h_one. intros x (B & P & A). destruct B as (B1 & B2 & B3 & B4 & B5).
    destruct Hk as [->| ->]; cbn [exec]; rewrite B2, at_time_ok, (acc_ok x AccOpen) by (assumption || discriminate); fin; repeat split; auto; apply P; assumption. }
  eapply h_app; [apply h_when; [intros _; apply Hem; auto|intros _ x Hx; exact Hx]|].
  eapply h_app; [apply Hem; auto|].
  eapply h_app with (Q := fun x => base n (2*n) (2*n) x /\ parts (2*n+2) x /\ acc AccReduced x).
  { apply h_when; intros Hs.
    - one. destruct Hx as (B & P & A). unfold acc_is. rewrite A by (apply some_ne; exact Hs). fin. repeat split; try apply B; auto; apply P; assumption.
    - intros x (B & P & A). split; [exact B|]. split; [exact P|]. intros X. apply some_ne in X. congruence. }
  eapply h_app with (Q := fun x => base n (2*n) (2*n) x /\ parts (2*n+2) x /\ acc AccReduced x).
  { apply h_rounds. intros _. one. destruct Hx as (B & P & A). destruct B as (B1 & B2 & B3 & B4 & B5).
    rewrite B2, at_time_ok, (acc_ok x AccReduced) by (assumption || discriminate). fin. repeat split; auto; apply P; assumption. }
  eapply h_weak; [|eapply h_post; [|apply (h_each _ (fun d x => base n (2*n) (2*n) x /\ parts (2*n+2) x /\ acc AccReduced x /\ forall s, In s d -> t_movers x s = false)) with (l := sp) (d := [])]].
  - intros x (B & P & A). repeat split; try apply B; auto; try (apply P; assumption). intros s [].
  - intros x (B & P & A & M). split; [exact B|]. split; [exact P|]. split; [|exact A]. intros s Hs. apply M. rewrite app_nil_r. apply -> in_rev. exact Hs.
  - intros s d Hs Hd. eapply h_app; [apply h_when; [intros _; one; fin; exact Hx|intros _ x Hx; exact Hx]|].
    one. destruct Hx as (B & P & A & M). fin. split; [repeat split; try apply B; assumption|]. split; [exact P|]. split; [exact A|].
    intros t [<-|Ht]; cbn; unfold setf; [rewrite PeanoNat.Nat.eqb_refl; reflexivity|]. destruct (Nat.eqb t s); [reflexivity|apply M; exact Ht].
  - exact Hnd.
  - intros s Hs. split; [exact Hs|intros []].
Qed.

Lemma h_fields n : hoare (fun x => base n (2*n) (2*n) x /\ parts (2*n+2) x /\ quiet x /\ acc AccReduced x)
  ([ClearJf] ++ when (some sp) [UnloadAcc] ++ [SyncJf] ++ [UserCurrent; HalfAdvanceB; AdvanceE; UserField; HalfAdvanceB])
  (fun x => plain n (2*n+2) (fun _ => 2*n+1) x /\ rb true x).
Proof using.
  eapply h_app with (Q := fun x => base n (2*n) (2*n) x /\ parts (2*n+2) x /\ quiet x /\ acc AccReduced x /\ t_jf x = JfClear).
  { one. destruct Hx as (B & P & Q & A). fin. repeat split; try apply B; auto; apply P; assumption. }
  eapply h_app with (Q := fun x => base n (2*n) (2*n) x /\ parts (2*n+2) x /\ quiet x /\ t_jf x = if some sp then JfLoaded (2*n+1) else JfClear).
  { apply h_when; intros Hs; rewrite Hs.
    - one. destruct Hx as (B & P & Q & A & J). destruct B as (B1 & B2 & B3 & B4 & B5). unfold acc_is.
      rewrite J, B2, A, quiet_ok, at_time_ok by (assumption || apply some_ne; exact Hs). fin. repeat split; auto; apply P; assumption.
    - intros x (B & P & Q & A & J). auto. }
  eapply h_app with (Q := fun x => base n (2*n) (2*n) x /\ parts (2*n+2) x /\ quiet x /\ cur (2*n+1) x).
  { one. destruct Hx as (B & P & Q & J). rewrite J. unfold cur. destruct (some sp); cbn; fin; repeat split; try apply B; auto; apply P; assumption. }
  assert (Hj : forall x, cur (2*n+1) x -> match t_jf x with JfShared (Some t) => t =? 2*n+1 | JfShared None => true | _ => false end = true).
  { intros x J. rewrite J. destruct (some sp); [apply Z.eqb_refl|reflexivity]. }
  set (M := fun e b x => base n e b x /\ parts (2*n+2) x /\ quiet x).
  change [UserCurrent; HalfAdvanceB; AdvanceE; UserField; HalfAdvanceB] with ([UserCurrent] ++ [HalfAdvanceB] ++ [AdvanceE] ++ [UserField] ++ [HalfAdvanceB]).
  eapply h_app with (Q := fun x => M (2*n) (2*n) x /\ cur (2*n+1) x).
  { one. destruct Hx as (B & P & Q & J). destruct B as (B1 & B2 & B3 & B4 & B5). rewrite B2, Hj by exact J. fin. repeat split; auto; apply P; assumption. }
  eapply h_app with (Q := fun x => M (2*n) (2*n+1) x /\ cur (2*n+1) x).
  { one. destruct Hx as ((B & P & Q) & J). destruct B as (B1 & B2 & B3 & B4 & B5). rewrite B2, B3, Z.eqb_refl. fin. repeat split; auto; apply P; assumption. }
  eapply h_app with (Q := M (2*n+2) (2*n+1)).
  { one. destruct Hx as ((B & P & Q) & J). destruct B as (B1 & B2 & B3 & B4 & B5). rewrite B2, B3, B5, Z.eqb_refl, Hj by exact J. fin. repeat split; auto; apply P; assumption. }
  eapply h_app with (Q := M (2*n+2) (2*n+1)).
  { one. destruct Hx as (B & P & Q). destruct B as (B1 & B2 & B3 & B4 & B5). rewrite B2, B3. replace (2*n+2 =? 2*n+1+1) with true by lia. fin. repeat split; auto; apply P; assumption. }
  one. destruct Hx as (B & P & Q). destruct B as (B1 & B2 & B3 & B4 & B5). rewrite B2, B3. replace (2*n+2 =? 2*n+1+1) with true by lia. rewrite orb_true_r. fin.
  repeat split; cbn [upd_b t_step t_e t_b t_pos t_mom t_movers t_rhob t_curl]; auto; try lia; destruct (P s ltac:(assumption)); lia.
Qed.

Lemma h_tail c l n : c_species c = sp -> hoare (fun x => plain n (2*n+2) (fun _ => 2*n+1) x /\ rb true x)
  (when (due (c_div_e c) n) (msg l ++ [ClearRhof] ++ map AccRho sp ++ [SyncRho] ++
     rounds (c_div_e_round c) (fun r => [DivEErr] ++ when (reported (c_div_e_round c) r) ([RmsE] ++ msg l) ++ [CleanE])) ++
  when (due (c_div_b c) n) (msg l ++ rounds (c_div_b_round c) (fun r => [DivBErr] ++ when (reported (c_div_b_round c) r) ([RmsB] ++ msg l) ++ [CleanB])) ++
  when (due (c_sync c) n) (msg l ++ [SyncTangENormB] ++ msg l) ++
  when (some sp) [LoadInterp] ++ [IncStep] ++ when (due (c_status c) (n + 1)) (msg l ++ [Profile]) ++ [UserDiag]) (ready0 (n + 1)).
Proof using Hnd.
  intros Hc. set (W := fun x => plain n (2*n+2) (fun _ => 2*n+1) x /\ rb true x).
  eapply h_app with (Q := W).
  { apply h_when; [|auto]. intros _. eapply h_app; [apply h_msg|].
    rewrite 2 app_assoc. eapply h_app; [rewrite <- app_assoc; apply h_rho|].
    eapply h_post with (Q := fun x => rhofull n (2*n+2) (fun _ => 2*n+1) x /\ rb true x).
    { intros x (A & R). split; [apply full_plain; exact A|exact R]. }
    apply h_rounds. intros r. eapply h_app; [apply h_err_e|].
    eapply h_app; [|apply h_clean_e]. apply h_when; [|auto]. intros _. eapply h_app; [apply h_rms_e|apply h_msg]. }
  eapply h_app with (Q := W).
  { apply h_when; [|auto]. intros _. eapply h_app; [apply h_msg|].
    apply h_rounds. intros r. eapply h_app; [apply h_err_b|].
    eapply h_app; [|apply h_clean_b]. apply h_when; [|auto]. intros _. eapply h_app; [apply h_rms_b|apply h_msg]. }
  eapply h_app with (Q := W).
  { apply h_when; [|auto]. intros _. eapply h_app; [apply h_msg|]. eapply h_app; [apply h_sync|apply h_msg]. }
  eapply h_app; [apply h_load|].
  eapply h_app with (Q := ready0 (n+1)).
  { one. destruct Hx as ((A & B & C & K & D & E) & R & I).
    assert (P : parts (2*n+2) x) by (intros s Hs; destruct (E s Hs); lia).
    rewrite A, B, C, Z.eqb_refl, at_time_ok, quiet_ok by assumption. replace (2 * n + 2 =? 2 * (n + 1)) with true by lia. cbn. fin.
    unfold ready0. replace (2 * (n + 1)) with (2*n+2) by lia. repeat split; auto; apply P; assumption. }
  eapply h_app with (Q := ready0 (n+1)).
  { apply h_when; [|auto]. intros _. eapply h_app; [apply h_msg|]. one. fin. exact Hx. }
  one. destruct Hx as (B & P & Q & I). destruct B as (B1 & B2 & B3 & B4 & B5).
  rewrite B1, B2, B3, !Z.eqb_refl, at_time_ok, quiet_ok by assumption.
  replace (interp_at x (2 * (n + 1)) || negb (some sp)) with true; [fin; repeat split; auto; apply P; assumption|].
  destruct (some sp) eqn:Es; [|rewrite orb_true_r; reflexivity]. unfold interp_at. rewrite I by (apply some_ne; exact Es). rewrite Z.eqb_refl. reflexivity.
Qed.

Lemma h_step c l n : c_species c = sp -> hoare (ready0 n) (advance_calls c l n) (ready0 (n + 1)).
Proof using Hnd.
  intros Hc. unfold advance_calls. rewrite Hc.
  pose proof (h_app _ _ _ _ _ (h_particles c l n Hc) (h_app _ _ _ _ _ (h_fields n) (h_tail c l n Hc))) as X.
  rewrite <- !app_assoc in X. rewrite <- ?app_assoc. exact X.
Qed.

Lemma h_init c l : c_species c = sp -> hoare (fun _ => True) (initialize_calls c l) (ready0 0).
Proof using Hnd.
  intros Hc. unfold initialize_calls. rewrite Hc.
  set (P0 := fun (cb : bool) (b : bool) x => t_step x = 0 /\ t_e x = 0 /\ t_b x = 0 /\ (cb = true -> t_curl x = true) /\ quiet x /\ (forall s, In s sp -> t_pos x s = 0 /\ t_mom x s = 0) /\ rb b x).
  assert (HP : forall b x, P0 true b x <-> plain 0 0 (fun _ => 0) x /\ rb b x).
  { intros b x. split; [intros (A & B & C & K & D & E & R)|intros ((A & B & C & K & D & E) & R)]; repeat split; auto; apply E; assumption. }
  eapply h_app with (Q := P0 false false). { one. fin. repeat split; auto. }
  eapply h_app; [apply h_msg|].
  eapply h_app with (Q := P0 false false).
  { one. destruct Hx as (A & B & C & K & D & E & R). rewrite B, C. fin. repeat split; auto; try apply E; assumption || discriminate. }
  eapply h_app; [apply h_msg|]. eapply h_app; [apply h_msg|].
  eapply h_app with (Q := fun x => P0 false false x /\ t_errb x = true).
  { intros x (A & B & C & K & D & E & R). cbn. fin. repeat split; auto; try apply E; assumption || discriminate. }
  eapply h_app; [apply h_msg|].
  eapply h_app with (Q := P0 false false).
  { one. destruct Hx as ((A & B & C & K & D & E & R) & G). rewrite G. fin. repeat split; auto; try apply E; assumption || discriminate. }
  eapply h_app; [apply h_msg|].
  eapply h_app with (Q := P0 true false).
  { one. destruct Hx as (A & B & C & K & D & E & R). rewrite B, C. fin. repeat split; auto; try apply E; assumption || discriminate. }
  eapply h_app; [apply h_msg|].
  rewrite app_assoc. replace [SyncRho; ComputeRhob] with ([SyncRho] ++ [ComputeRhob]) by reflexivity.
  rewrite <- (app_assoc [SyncRho]). rewrite (app_assoc _ [SyncRho]). rewrite <- (app_assoc [ClearRhof]).
  eapply h_app; [eapply h_weak with (P := fun x => plain 0 0 (fun _ => 0) x /\ rb false x); [intros x Hx; apply HP; exact Hx|apply h_rho]|].
  eapply h_app with (Q := fun x => rhofull 0 0 (fun _ => 0) x /\ rb true x).
  { one. destruct Hx as ((A & B & C & K & D & E & F) & R). rewrite F, B. fin. repeat split; auto; apply E; assumption. }
  eapply h_app; [apply h_msg|].
  replace [DivEErr; RmsE] with ([DivEErr] ++ [RmsE]) by reflexivity.
  eapply h_app; [eapply h_app; [apply h_err_e|apply h_rms_e]|].
  eapply h_app; [apply h_msg|].
  eapply h_app; [eapply h_post; [|apply h_clean_e]; intros x (A & R); exact (conj (full_plain _ _ _ _ A) R)|].
  eapply h_app; [apply h_msg|]. eapply h_app; [apply h_sync|]. eapply h_app; [apply h_msg|].
  eapply h_app with (Q := fun x => plain 0 0 (fun _ => 0) x /\ rb true x /\ itp 0 x).
  { apply h_when; intros Hs.
    - eapply h_app; [apply h_msg|]. pose proof (h_load 0 0 (fun _ => 0)) as X. rewrite Hs in X. exact X.
    - intros x (A & R). split; [exact A|]. split; [exact R|]. intros X. apply some_ne in X. congruence. }
  eapply h_app with (Q := ready0 0).
  { rewrite map_flat.
    eapply h_weak; [|eapply h_post; [|apply (h_each _ (fun d x => base 0 0 0 x /\ quiet x /\ itp 0 x /\ forall s, In s sp -> t_pos x s = 0 /\ (In s d -> t_mom x s = -1) /\ (~ In s d -> t_mom x s = 0))) with (l := sp) (d := [])]].
    - intros x ((A & B & C & K & D & E) & R & I). repeat split; auto; intros; try contradiction; apply E; assumption.
    - intros x (B & Q & I & H). split; [exact B|]. split; [|split; assumption]. intros s Hs. destruct (H s Hs) as (H1 & H2 & _).
      split; [exact H1|]. apply H2. rewrite app_nil_r. apply -> in_rev. exact Hs.
    - intros s d Hs Hd. one. destruct Hx as (B & Q & I & H). destruct (H s Hs) as (H1 & _ & H2).
      unfold interp_at. rewrite I, H1, (H2 Hd) by (intros E; rewrite E in Hs; contradiction). cbn. fin.
      split; [repeat split; apply B|]. split; [exact Q|]. split; [exact I|]. intros t Ht. cbn. unfold setf.
      destruct (H t Ht) as (K1 & K2 & K3). split; [exact K1|]. destruct (Nat.eqb_spec t s) as [->|Ne].
      + split; [intros _; reflexivity|]. intros X. exfalso. apply X. left. reflexivity.
      + split; [intros [X|X]; [congruence|auto]|intros X; apply K3; intros Y; apply X; right; exact Y].
    - exact Hnd.
    - intros s Hs. split; [exact Hs|intros []]. }
  eapply h_app; [apply h_msg|].
  eapply h_app with (Q := ready0 0).
  { one. destruct Hx as (B & P & Q & I). destruct B as (B1 & B2 & B3 & B4 & B5).
    rewrite B1, B2, B3, !Z.eqb_refl, at_time_ok, quiet_ok by assumption.
    replace (interp_at x (2 * 0) || negb (some sp)) with true; [fin; repeat split; auto; apply P; assumption|].
    destruct (some sp) eqn:Es; [|rewrite orb_true_r; reflexivity]. unfold interp_at. rewrite I by (apply some_ne; exact Es). reflexivity. }
  eapply h_app; [apply h_msg|]. one. fin. exact Hx.
Qed.

Lemma h_loop c l : c_species c = sp -> forall fuel n, hoare (ready0 n) (fst (fst (main_loop fuel c l n))) (ready0 (snd (fst (main_loop fuel c l n)))).
Proof using Hnd.
  intros Hc. induction fuel as [|f IH]; intros n; cbn; destruct (finished (c_num_step c) n); cbn; try (apply h_nil; auto; fail).
  specialize (IH (n + 1)). destruct (main_loop f c l (n + 1)) as [[cs e] b]. cbn in *. eapply h_app; [apply h_step; exact Hc|exact IH].
Qed.
Lemma h_scratch c l fuel : c_species c = sp -> hoare (fun _ => True) (fst (fst (main_scratch fuel c l))) (ready0 (snd (fst (main_scratch fuel c l)))).
Proof using Hnd.
  intros Hc. unfold main_scratch. pose proof (h_loop c l Hc fuel 0) as X. destruct (main_loop fuel c l 0) as [[cs e] b]. cbn [fst snd] in *.
  eapply h_app; [apply h_init; exact Hc|]. eapply h_app; [one; fin; exact Hx|exact X].
Qed.
End H.
