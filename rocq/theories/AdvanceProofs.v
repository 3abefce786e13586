(* advance_p's in-cell branch against move_p; injection always succeeds on a well-formed table. *)
Require Import Reals Lra.
Require Import ZArith List Bool Lia ZifyBool.
Require Import Verif.ParticleModel Verif.ParticleSpec Verif.ParticleProofs Verif.ParticleProofs2 Verif.ParticleProofs3.
Require Import Verif.MoverModel Verif.RemoveProofs Verif.BoundaryProofs.
Import ListNotations.
Open Scope R_scope.

Lemma in_cell_iff d : in_cell d <-> inc d.
Proof.
  unfold in_cell, inc. split.
  - intros (X & Y & Z) a. unfold Rabs in *. destruct a; cbn [vget]; destruct (Rcase_abs (vx d)), (Rcase_abs (vy d)), (Rcase_abs (vz d)); lra.
  - intros H. pose proof (H AX). pose proof (H AY). pose proof (H AZ). cbn [vget] in *. unfold Rabs.
    destruct (Rcase_abs (vx d)), (Rcase_abs (vy d)), (Rcase_abs (vz d)); lra.
Qed.

Lemma inbnds_inc v : inbnds Rnum v = true -> inc v.
Proof.
  unfold inbnds. cbn [n_le n_one n_opp Rnum]. intros H. repeat (apply andb_prop in H; destruct H as [H ?]).
  assert (L : forall x y, Rleb' x y = true -> x <= y) by (intros x y Q; destruct (Rleb_spec x y); [assumption|discriminate]).
  repeat match goal with H : Rleb' _ _ = true |- _ => apply L in H end.
  intros []; cbn [vget]; lra.
Qed.

Lemma hstep_inside p s : inc (vmap2 Rplus (vmap2 Rplus (pd p) s) s) -> hstep p s = (1, None).
Proof.
  intros I. pose proof (hstep_R p s) as H. destruct (hstep p s) as [h [a|]].
  - exfalso. destruct H as (N & Hh & H1 & _). specialize (I a). rewrite !vget_vmap2 in I.
    pose proof (face_ratio (vget s a) (vget (pd p) a) N) as F. pose proof (Rabs_pos_lt _ N) as PL.
    unfold dist in F. pose proof (dirR_abs (vget s a)) as DA.
    assert (E : (dirR (vget s a) - vget (pd p) a) / vget s a = 2 * h) by lra. rewrite E in F.
    destruct (dirR_pm (vget s a)) as [D|D]; rewrite D in *; nra.
  - destruct H as (-> & _). reflexivity.
Qed.

Lemma advance_is_move k g qdt cdt qsp f p :
  let u := push_u Rnum qdt f p in
  advance_one Rnum (S k) g qdt cdt qsp f p =
  move_p Rnum (S k) g qsp (mkp (pd p) (pi p) u (pw p)) (displacement Rnum cdt u).
Proof.
  cbv zeta. unfold advance_one. cbv zeta. set (u := push_u Rnum qdt f p). set (s := displacement Rnum cdt u).
  destruct (inbnds Rnum (vadd Rnum (vadd Rnum (pd p) s) s)) eqn:E; [|reflexivity].
  apply inbnds_inc in E. unfold move_p. rewrite move_step.
  rewrite hstep_inside by exact E. cbv zeta. cbn [pi pd pu pw app].
  assert (S1 : sstep s 1 = s).
  { unfold sstep, vmap. destruct s as [s1 s2 s3]. cbn [vx vy vz]. f_equal; ring. }
  rewrite S1. f_equal.
  - f_equal. unfold dstep, vadd, vmap2. cbn [vx vy vz n_add Rnum]. f_equal; ring.
  - unfold vmap2. cbn [n_zero Rnum]. f_equal; ring.
  - f_equal. f_equal. rewrite <- jstep_alt. unfold vadd. cbn [n_mul n_add n_third Rnum].
    replace (pw p * qsp) with (qsp * pw p) by ring. reflexivity.
Qed.

Lemma inject_total fuel g real k : forall l ss, table_ok g real -> (3 * S k < fuel)%nat ->
  Forall (fun ij => (0 <= ij_sp ij < Z.of_nat (length ss))%Z /\ in_cell (pd (ij_p ij)) /\ real (pi (ij_p ij)) /\
                    forall a, Rabs (vget (ij_disp ij) a) <= INR k) l ->
  exists ss' log, inject_all Rnum fuel g ss l = Some (ss', log).
Proof.
  induction l as [|ij l IH]; intros ss T F H; cbn [inject_all].
  - exists ss, []. reflexivity.
  - inversion H as [|x y H1 H2]; subst. destruct H1 as (S & I & R & D).
    assert (E1 : exists s1 l1, inject_one Rnum fuel g ss ij = Some (s1, l1) /\ length s1 = length ss).
    { unfold inject_one. replace (ij_sp ij <? 0)%Z with false by lia.
      destruct (nth_error ss (Z.to_nat (ij_sp ij))) as [s|] eqn:Es; [|apply nth_error_None in Es; lia].
      destruct (move_total fuel g real (n_mul Rnum (s_q s) (pw (ij_p ij))) T (fun _ => Datatypes.S k) (ij_p ij) (ij_disp ij) [])
        as (st & p' & d' & l' & E).
      - apply in_cell_iff, I.
      - exact R.
      - apply pot_bound; [apply in_cell_iff, I|exact D].
      - lia.
      - unfold move_p. rewrite E. eexists _, _. split; [reflexivity|]. apply put_length. lia. }
    destruct E1 as (s1 & l1 & E1 & L1). rewrite E1.
    destruct (IH s1 T F) as (s2 & l2 & E2).
    { rewrite L1. exact H2. }
    rewrite E2. eexists _, _. reflexivity.
Qed.
