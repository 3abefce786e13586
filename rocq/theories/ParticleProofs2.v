Require Import ZArith List Bool Reals Lra Lia ZifyBool.
Require Import Verif.VoxelModel Verif.VoxelProofs Verif.ParticleModel Verif.ParticleSpec Verif.ParticleProofs.
Import ListNotations.
Open Scope R_scope.

(* ---------- node-wise continuity ---------- *)

Lemma adjoining_glued sy sz phi g : adjoining sy sz g -> glued sy sz phi g.
Proof.
  intros A v f v' Hf P b1 b2. pose proof (A v f v' Hf P) as ->. f_equal.
  destruct (face_axis f), (face_high f), b1, b2; cbn [corner_on node negb Z.b2z stride]; unfold node; cbn [Z.b2z]; lia.
Qed.

Lemma apply_adds_sum (l : list (Z * R)) rho n :
  apply_adds Rnum l rho n = rho n + sumR (map (fun e => ind n (fst e) * snd e) l).
Proof.
  revert rho. unfold apply_adds. induction l as [|[v t] l IH]; intros rho; cbn [fold_left map sumR fold_right].
  - lra.
  - rewrite IH. cbn [fst snd Rnum n_add]. fold (sumR (map (fun e => ind n (fst e) * snd e) l)).
    unfold ind at 2. destruct (n =? v)%Z; lra.
Qed.

Lemma acc_streaks_sum (l : list (streak R)) a n k :
  acc_streaks Rnum l a n k = a n k + sumR (map (fun e => ind n (fst e) * nth k (snd e) 0) l).
Proof.
  revert a. unfold acc_streaks. induction l as [|[v j] l IH]; intros a; cbn [fold_left map sumR fold_right].
  - lra.
  - rewrite IH. cbn [fst snd Rnum n_add n_zero]. fold (sumR (map (fun e => ind n (fst e) * nth k (snd e) 0) l)).
    unfold ind at 2. destruct (n =? v)%Z; lra.
Qed.

Lemma ind_shift n m v v' : (n - m = v - v')%Z -> ind n v = ind m v'.
Proof. intros. unfold ind. replace (n =? v)%Z with (m =? v')%Z by lia. reflexivity. Qed.

(* what the code's deposition adds at node n *)
Lemma rho_adds_charge sy sz qsp r8V p n :
  sumR (map (fun e => ind n (fst e) * snd e) (rho_adds Rnum sy sz qsp r8V p)) =
  8 * r8V * charge sy sz (ind n) (qsp * pw p) (pi p) (pd p).
Proof.
  destruct p as [[d1 d2 d3] v u w].
  cbv [rho_adds corners weights combine map fold_right sumR fst snd pi pd pw vx vy vz Rnum n_add n_sub n_mul
       charge sum_bool share].
  rewrite (ind_shift n n v (node sy sz v false false false)) by (unfold node; cbn [Z.b2z]; lia).
  rewrite (ind_shift n n (v+1)%Z (node sy sz v true false false)) by (unfold node; cbn [Z.b2z]; lia).
  rewrite (ind_shift n n (v+sy)%Z (node sy sz v false true false)) by (unfold node; cbn [Z.b2z]; lia).
  rewrite (ind_shift n n (v+sy+1)%Z (node sy sz v true true false)) by (unfold node; cbn [Z.b2z]; lia).
  rewrite (ind_shift n n (v+sz)%Z (node sy sz v false false true)) by (unfold node; cbn [Z.b2z]; lia).
  rewrite (ind_shift n n (v+sz+1)%Z (node sy sz v true false true)) by (unfold node; cbn [Z.b2z]; lia).
  rewrite (ind_shift n n (v+sz+sy)%Z (node sy sz v false true true)) by (unfold node; cbn [Z.b2z]; lia).
  rewrite (ind_shift n n (v+sz+sy+1)%Z (node sy sz v true true true)) by (unfold node; cbn [Z.b2z]; lia).
  field.
Qed.

Lemma divj_streaks sy sz rd dt a log n : dt <> 0 ->
  dt * divj sy sz rd (unload Rnum sy sz (unload_coef rd dt) (acc_streaks Rnum log a)) n =
  dt * divj sy sz rd (unload Rnum sy sz (unload_coef rd dt) a) n
  - vx rd * vy rd * vz rd * flows sy sz (ind n) log.
Proof.
  intros Hdt. revert a. induction log as [|[v j] log IH]; intros a.
  - unfold flows, sumR. cbn [acc_streaks fold_left map fold_right]. ring.
  - unfold acc_streaks. cbn [fold_left]. fold (acc_streaks Rnum log).
    change (fold_left _ log ?x) with (acc_streaks Rnum log x).
    rewrite IH. clear IH.
    unfold flows. cbn [map sumR fold_right]. fold (sumR (map (flow sy sz (ind n)) log)).
    set (F := sumR _).
    match goal with |- dt * divj _ _ _ (unload _ _ _ _ ?x) _ - _ = _ =>
      assert (EA : forall m k, x m k = a m k + ind m v * nth k j 0) by
        (intros; cbn [Rnum n_add n_zero]; unfold ind; destruct (m =? v)%Z; lra);
      set (a1 := x) in * end. clearbody a1.
    cbv [divj unload unload_coef vx vy vz Rnum n_add n_mul]. rewrite !EA.
    cbv [flow sum_bool Nat.b2n Nat.add Nat.mul].
    destruct rd as [r1 r2 r3].
    repeat match goal with |- context [ind ?m v] =>
      lazymatch m with n => fail | _ => idtac end;
      let k := constr:((n - m)%Z) in
      rewrite (ind_shift m n v (v + (n - m))%Z) by lia end.
    replace (v + (n - (n - 1)))%Z with (node sy sz v true false false) by (unfold node; cbn [Z.b2z]; lia).
    replace (v + (n - (n - sy)))%Z with (node sy sz v false true false) by (unfold node; cbn [Z.b2z]; lia).
    replace (v + (n - (n - sz)))%Z with (node sy sz v false false true) by (unfold node; cbn [Z.b2z]; lia).
    replace (v + (n - (n - sy - sz)))%Z with (node sy sz v false true true) by (unfold node; cbn [Z.b2z]; lia).
    replace (v + (n - (n - 1 - sz)))%Z with (node sy sz v true false true) by (unfold node; cbn [Z.b2z]; lia).
    replace (v + (n - (n - 1 - sy)))%Z with (node sy sz v true true false) by (unfold node; cbn [Z.b2z]; lia).
    replace (v + (n - (n - sy - 1)))%Z with (node sy sz v true true false) by (unfold node; cbn [Z.b2z]; lia).
    replace (v + (n - (n - sz - 1)))%Z with (node sy sz v true false true) by (unfold node; cbn [Z.b2z]; lia).
    replace (v + (n - (n - 1 - sy - sz)))%Z with (node sy sz v true true true) by (unfold node; cbn [Z.b2z]; lia).
    replace (v + (n - (n - sy - 1 - sz)))%Z with (node sy sz v true true true) by (unfold node; cbn [Z.b2z]; lia).
    replace (v + (n - (n - sz - 1 - sy)))%Z with (node sy sz v true true true) by (unfold node; cbn [Z.b2z]; lia).
    replace (v + (n - (n - sy - sz - 1)))%Z with (node sy sz v true true true) by (unfold node; cbn [Z.b2z]; lia).
    replace (v + (n - (n - sz - sy)))%Z with (node sy sz v false true true) by (unfold node; cbn [Z.b2z]; lia).
    rewrite (ind_shift n n v (node sy sz v false false false)) by (unfold node; cbn [Z.b2z]; lia).
    field. exact Hdt.
Qed.
