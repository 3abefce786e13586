(* The field side of a whole step: from the synchronised currents to the synchronised charge densities. *)
From Coq Require Import Reals Lra ZArith List Bool Lia ZifyBool.
From Verif Require Import SortModel GridModel VoxelModel ParticleModel ParticleSpec ParticleProofs MoverModel
  SweepModel FieldModel FieldSpec FieldSweeps FieldBoundaryModel FieldPhysics FieldFinal
  RemoteModel RemoteSpec RemoteProofs DecompSpec DecompProofs DecompSteps PropertiesDecomp ChargeModel ChargeSpec ChargeProofs CurrentSpec CurrentProofs RhoSpec RhoProofs.
Import ListNotations.
Open Scope Z_scope.
Ltac Zify.zify_post_hook ::= idtac.
Local Notation sumR := ParticleSpec.sumR.
Local Notation axis := RemoteModel.axis.
Local Notation AT := RemoteModel.at_.
Local Notation put := RemoteModel.put.

Section W.
Variable L : layout R.
Variable pos : Z -> cell.
Variable ws : Z.
Lemma at_node_left a g g' : l_per L a = true -> at_node L (put a (AT a g + total L a) g) g' = at_node L g g'.
Proof.
  intros Ha. unfold at_node.
  assert (E : forall b, same_along L b (put a (AT a g + total L a) g) g' = same_along L b g g').
  { intros b. unfold same_along. destruct (axis_eqb a b) eqn:E.
    - assert (a = b) by (destruct a, b; first [reflexivity | discriminate E]). subst b. rewrite Ha, at_put_same.
      destruct (Z.eq_dec (total L a) 0) as [E0|N0]; [rewrite E0; f_equal; f_equal; lia|].
      replace (AT a g' - (AT a g + total L a)) with (AT a g' - AT a g + (-1) * total L a) by lia. rewrite Z.mod_add by exact N0. reflexivity.
    - rewrite at_put_other by (intros ->; destruct a; discriminate E). reflexivity. }
  rewrite !E. reflexivity.
Qed.
Lemma particle_ext Phi Psi r q u p : (forall g, Phi g = Psi g) -> particle_charge L pos Phi r q u p = particle_charge L pos Psi r q u p.
Proof. intros H. unfold particle_charge. apply charge_ext. intros b1 b2 b3. unfold seen. apply H. Qed.
Lemma world_ext Phi Psi SS : (forall g, Phi g = Psi g) -> world_charge L pos ws Phi SS = world_charge L pos ws Psi SS.
Proof.
  intros H. unfold world_charge, over_ranks. apply sum_ext. intros r _. unfold rank_charge. apply sum_ext. intros s _. unfold species_charge. apply sum_ext. intros i _.
  destruct (nth_error (s_p s) i); [apply particle_ext, H|reflexivity].
Qed.
Lemma listed_ext Phi Psi r ss : (forall g, Phi g = Psi g) -> listed_charge L pos Phi r ss = listed_charge L pos Psi r ss.
Proof.
  intros H. unfold listed_charge. apply sum_ext. intros s _. apply sum_ext. intros m _. destruct (nth_error (s_p s) (Z.to_nat (m_i m))); [apply particle_ext, H|reflexivity].
Qed.
End W.

(* Ampere's law in lossless materials at each node, for a field of the whole mesh *)
Lemma field_gauss L mt gm gr dmp F : layout_ok L -> alike R L mt gm -> (forall p, inside L p -> lossless gr (mt p)) -> forall g,
  (g_div_d R RA gm (div_coefs gr) (g_advance_e R RA gm (advance_e_coefs gr dmp) F) g =
   g_div_d R RA gm (div_coefs gr) F g - dt gr / eps0 gr * g_div_node (div_coefs gr) F Jfx Jfy Jfz g - dmp * g_div_node (div_coefs gr) F Tcax Tcay Tcaz g)%R.
Proof.
  intros OK Al Lo.
  assert (I0 : inside L (0, 0, 0)) by (intros a; destruct OK as [O _]; specialize (O a); destruct a; cbn; lia).
  specialize (Lo _ I0). destruct Al as [_ Al]. destruct (Al _ I0) as [Et _].
  intros [[x y] z]. unfold g_div_d, g_div_node, g_dx, g_dy, g_dz, g_advance_e, g_e, g_tca, gmat, dn. cbn [RemoteModel.put RemoteModel.at_].
  rewrite <- !Et. cbn [RA a_add a_sub a_mul].
  rewrite !lossless_e by (first [apply lossless_coefs; exact Lo | apply (lossless_coefs gr (mt (0,0,0)) _ Lo)]).
  unfold g_curl_x, g_curl_y, g_curl_z, dn, advance_e_coefs, div_coefs, RA; cbn [px py pz cj damp a_add a_sub a_mul RemoteModel.put RemoteModel.at_].
  rewrite !if_thick_scale. ring.
Qed.
