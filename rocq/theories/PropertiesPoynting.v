(* C74: what the Poynting flux diagnostic returns. *)
From Coq Require Import Reals Lra ZArith List Bool Lia ZifyBool.
From Verif Require Import VoxelModel SortModel SortProofs PoyntingModel PoyntingProofs.
Import ListNotations.
Open Scope Z_scope.
Ltac Zify.zify_post_hook ::= idtac.

Definition fsum (l : list R) : R := fold_right Rplus 0%R l.
(* x component of E x cB on the plane between the first two cells of row (y,z), the magnetic field interpolated to it *)
Definition Sx (nx ny nz : Z) (F : pcomp -> Z -> R) (y z : Z) : R :=
  let at' c x := F c (voxel nx ny nz x y z) in
  (at' Pey 2%Z * ((at' Pcbz 1%Z + at' Pcbz 2%Z) / 2) - at' Pez 2%Z * ((at' Pcby 1%Z + at' Pcby 2%Z) / 2))%R.

Lemma term_Sx nx ny nz cvac e0 F j k : pf_term nx ny cvac e0 F j k = (Sx nx ny nz F (j + 1) (k + 1) / (cvac * cvac * e0 * e0))%R.
Proof. unfold pf_term, Sx. cbv zeta. rewrite !(index_voxel nx ny nz). unfold Rdiv. f_equal. lra. Qed.
Lemma map_shift {A} (f : Z -> A) n : map (fun k => f (k + 1)) (zrange 1 n) = map f (zrange 2 (n + 1)).
Proof. unfold zrange. rewrite !map_map. replace (n + 1 - 2) with (n - 1) by lia. apply map_ext. intros t. f_equal. lia. Qed.
Lemma fsum_div {A} (f : A -> R) d l : fsum (map (fun a => f a / d)%R l) = (fsum (map f l) / d)%R.
Proof. unfold fsum. induction l as [|a l IH]; cbn [map fold_right]; [unfold Rdiv; lra|]. rewrite IH. unfold Rdiv. lra. Qed.

(* With the box not divided along x (px = 1), ny and nz at least 2 and cvac, e0 not 0: the flux is the mean over all ranks
   and over the rows 2..ny, 2..nz of each of them of (E x cB)_x / (cvac e0)^2. *)
Theorem C74_flux : forall py pz nx ny nz cvac e0 F,
  1 <= py -> 1 <= pz -> 2 <= ny -> 2 <= nz -> (ny - 1) * (nz - 1) < 2 ^ 31 -> (ny - 1) * (nz - 1) * py * pz < 2 ^ 64 ->
  cvac <> 0%R -> e0 <> 0%R ->
  poynting 1 py pz nx ny nz cvac e0 F =
  Flux (Rdiv (fsum (map (fun r => fsum (map (fun y => fsum (map (fun z => (Sx nx ny nz (F r) y z / (cvac * cvac * e0 * e0))%R) (zrange 2 (nz + 1)))) (zrange 2 (ny + 1)))) (zrange 0 (py * pz))))
        (IZR (ny - 1) * IZR (nz - 1) * IZR py * IZR pz)).
Proof.
  intros py pz nx ny nz cvac e0 F Hp Hq Hy Hz H31 H64 Hc He. unfold poynting.
  replace ((1 =? 0) || negb (pf_stride ny nz <? 2 ^ 31)) with false by (unfold pf_stride; lia).
  destruct (Req_EM_T (cvac * cvac * e0 * e0) 0) as [Z0|_].
  { exfalso. repeat (apply Rmult_integral in Z0; destruct Z0 as [Z0|Z0]; [|contradiction]). contradiction. }
  replace (1 * py * pz) with (py * pz) by ring.
  set (f := fun r => rsum (map (fun j => rsum (map (fun k => pf_term nx ny cvac e0 (F r) j k) (zrange 1 nz))) (zrange 1 ny))).
  assert (E : map (fun r => pf_rank 1 nx ny nz cvac e0 (F r) r) (zrange 0 (py * pz)) = map (fun r => Some (Some (f r))) (zrange 0 (py * pz))).
  { apply map_ext_in. intros r Ir. apply in_zrange in Ir. apply rank_left; try lia. exists r. ring. }
  rewrite E. unfold pf_allsum. rewrite allsum_values, Rplus_0_l. cbv zeta.
  assert (0 < (ny - 1) * (nz - 1)) by nia. assert (0 < (ny - 1) * (nz - 1) * py) by nia. assert (0 < (ny - 1) * (nz - 1) * py * pz) by nia.
  unfold pf_stride. rewrite Z.mod_small by lia. replace ((ny - 1) * (nz - 1) * py * pz =? 0) with false by lia. f_equal. rewrite !mult_IZR. f_equal.
  unfold fsum. fold (rsum (map f (zrange 0 (py * pz)))). unfold rsum. f_equal. apply map_ext. intros r. unfold f. unfold rsum.
  rewrite <- (map_shift (fun y => fold_right Rplus 0%R (map (fun z => (Sx nx ny nz (F r) y z / (cvac * cvac * e0 * e0))%R) (zrange 2 (nz + 1)))) ny).
  f_equal. apply map_ext. intros j. f_equal. rewrite <- (map_shift (fun z => (Sx nx ny nz (F r) (j + 1) z / (cvac * cvac * e0 * e0))%R) nz).
  apply map_ext. intros k. apply term_Sx.
Qed.
Print Assumptions C74_flux.

(* The two factors of each product belong to one point: for a mesh that samples fields on the staggered places of the Yee
   grid, with cB varying linearly along x, the value of row (y,z) is ey cbz at (x0+dx, y-1/2, z-1) minus ez cby at
   (x0+dx, y-1, z-1/2): one cell inside the left boundary. *)
Theorem C74_centered : forall nx ny nz (dx : R) (EY EZ BY BZ : R -> R -> R -> R) (F : pcomp -> Z -> R) y z,
  (forall b c, BY (dx / 2)%R b c + BY (3 * dx / 2)%R b c = 2 * BY dx b c)%R -> (forall b c, BZ (dx / 2)%R b c + BZ (3 * dx / 2)%R b c = 2 * BZ dx b c)%R ->
  (forall x, F Pey (voxel nx ny nz x y z) = EY (IZR (x - 1) * dx) (IZR y - 1/2) (IZR z - 1))%R ->
  (forall x, F Pez (voxel nx ny nz x y z) = EZ (IZR (x - 1) * dx) (IZR y - 1) (IZR z - 1/2))%R ->
  (forall x, F Pcby (voxel nx ny nz x y z) = BY ((IZR (x - 1) + 1/2) * dx) (IZR y - 1) (IZR z - 1/2))%R ->
  (forall x, F Pcbz (voxel nx ny nz x y z) = BZ ((IZR (x - 1) + 1/2) * dx) (IZR y - 1/2) (IZR z - 1))%R ->
  Sx nx ny nz F y z = (EY dx (IZR y - 1/2) (IZR z - 1) * BZ dx (IZR y - 1/2) (IZR z - 1) - EZ dx (IZR y - 1) (IZR z - 1/2) * BY dx (IZR y - 1) (IZR z - 1/2))%R.
Proof.
  intros nx ny nz dx EY EZ BY BZ F y z Ly Lz Hey Hez Hby Hbz. unfold Sx. cbv zeta. rewrite Hey, Hez, !Hby, !Hbz.
  change (2 - 1) with 1. change (1 - 1) with 0. rewrite Rmult_1_l.
  replace ((0 + 1 / 2) * dx)%R with (dx / 2)%R by lra. replace ((1 + 1 / 2) * dx)%R with (3 * dx / 2)%R by lra. rewrite Ly, Lz. lra.
Qed.
Print Assumptions C74_centered.

(* A field that is the same everywhere: the flux is (ey cbz - ez cby)/(cvac e0)^2, so 1 for a wave at its peak in units with
   cvac = 1. *)
Theorem C74_uniform : forall py pz nx ny nz cvac e0 (F : Z -> pcomp -> Z -> R) ey ez cby cbz,
  1 <= py -> 1 <= pz -> 2 <= ny -> 2 <= nz -> (ny - 1) * (nz - 1) < 2 ^ 31 -> (ny - 1) * (nz - 1) * py * pz < 2 ^ 64 ->
  cvac <> 0%R -> e0 <> 0%R ->
  (forall r v, F r Pey v = ey /\ F r Pez v = ez /\ F r Pcby v = cby /\ F r Pcbz v = cbz) ->
  poynting 1 py pz nx ny nz cvac e0 F = Flux ((ey * cbz - ez * cby) / (cvac * cvac * e0 * e0))%R.
Proof.
  intros py pz nx ny nz cvac e0 F ey ez cby cbz Hp Hq Hy Hz H31 H64 Hc He U. rewrite C74_flux by assumption. f_equal.
  set (q := ((ey * cbz - ez * cby) / (cvac * cvac * e0 * e0))%R).
  assert (N : forall a b, a <= b -> INR (length (zrange a b)) = IZR (b - a)).
  { intros a b L. unfold zrange. rewrite map_length, seq_length, INR_IZR_INZ, Z2Nat.id by lia. reflexivity. }
  assert (Q : forall r y z, (Sx nx ny nz (F r) y z / (cvac * cvac * e0 * e0))%R = q).
  { intros r y z. unfold Sx, q. cbv zeta. unfold Rdiv. f_equal. repeat match goal with |- context [F r ?c ?v] => destruct (U r v) as (-> & -> & -> & ->) || (rewrite (proj1 (U r v))) || (rewrite (proj1 (proj2 (U r v)))) || (rewrite (proj1 (proj2 (proj2 (U r v))))) || (rewrite (proj2 (proj2 (proj2 (U r v))))) end. lra. }
  erewrite (map_ext (fun r => _)).
  2:{ intros r. erewrite (map_ext (fun y => _)). 2:{ intros y. erewrite (map_ext (fun z => _)); [|intros z; apply Q]. exact (rsum_const (zrange 2 (nz + 1)) q). }
      exact (rsum_const (zrange 2 (ny + 1)) _). }
  assert (C := fun c => rsum_const (zrange 0 (py * pz)) c : fsum (map (fun _ => c) (zrange 0 (py * pz))) = _). rewrite C. rewrite !N by nia.
  replace (nz + 1 - 2) with (nz - 1) by lia. replace (ny + 1 - 2) with (ny - 1) by lia. rewrite Z.sub_0_r, mult_IZR.
  field. repeat split; apply not_0_IZR; lia.
Qed.
Print Assumptions C74_uniform.

(* The claim of the comment, "compute the flux at the left boundary", fails in three ways.
   First, memset clears stride bytes of an array of stride floats: whenever the box is divided along x the ranks that do not
   touch the left boundary add floats that were never set, whatever the fields are. *)
Theorem C74_unset_floats : forall px py pz nx ny nz cvac e0 F,
  2 <= px -> 1 <= py -> 1 <= pz -> 2 <= ny -> 2 <= nz -> (ny - 1) * (nz - 1) < 2 ^ 31 -> cvac <> 0%R -> e0 <> 0%R ->
  poynting px py pz nx ny nz cvac e0 F = Garbage.
Proof.
  intros px py pz nx ny nz cvac e0 F Hx Hp Hq Hy Hz H31 Hc He. unfold poynting.
  replace ((px =? 0) || negb (pf_stride ny nz <? 2 ^ 31)) with false by (unfold pf_stride; lia).
  destruct (Req_EM_T (cvac * cvac * e0 * e0) 0) as [Z0|_].
  { exfalso. repeat (apply Rmult_integral in Z0; destruct Z0 as [Z0|Z0]; [|contradiction]). contradiction. }
  unfold pf_allsum. rewrite allsum_has; [reflexivity| |].
  - intros x I. apply in_map_iff in I. destruct I as (r & <- & Ir). apply in_zrange in Ir.
    destruct (Znumtheory.Zdivide_dec px r) as [D|D]; [rewrite rank_left by (lia || exact D)|rewrite rank_right by (lia || exact D)]; discriminate.
  - apply in_map_iff. exists 1. split; [apply rank_right; try lia|apply in_zrange; nia].
    intros (t & Et). assert (t = 0 \/ t <> 0) as [->|Nt] by lia; nia.
Qed.
Print Assumptions C74_unset_floats.
Theorem C74_unset_floats_refuted : exists px py pz nx ny nz cvac e0, 1 <= px /\ 1 <= py /\ 1 <= pz /\ 1 <= nx /\ 2 <= ny /\ 2 <= nz /\
  forall F, ~ exists x, poynting px py pz nx ny nz cvac e0 F = Flux x.
Proof.
  exists 2, 1, 1, 4, 4, 4, 1%R, 1%R. repeat split; try lia. intros F (x & E). rewrite C74_unset_floats in E; try lia; try lra. discriminate E.
Qed.
Print Assumptions C74_unset_floats_refuted.

(* Second, on meshes with one cell along y or z (2D decks) nothing is summed and the result is 0/0, whatever the fields. *)
Theorem C74_thin : forall px py pz nx ny nz cvac e0 F,
  1 <= px -> 1 <= py -> 1 <= pz -> 1 <= ny -> 1 <= nz -> ny = 1 \/ nz = 1 -> poynting px py pz nx ny nz cvac e0 F = Nan.
Proof.
  intros px py pz nx ny nz cvac e0 F Hx Hp Hq Hy Hz T. unfold poynting.
  assert (S : pf_stride ny nz = 0) by (unfold pf_stride; destruct T as [-> | ->]; ring).
  rewrite S. replace ((px =? 0) || negb (0 <? 2 ^ 31)) with false by lia. destruct (Req_EM_T (cvac * cvac * e0 * e0) 0); [reflexivity|].
  assert (E : map (fun r => pf_rank px nx ny nz cvac e0 (F r) r) (zrange 0 (px * py * pz)) = map (fun r => Some (Some 0%R)) (zrange 0 (px * py * pz))).
  { apply map_ext. intros r. unfold pf_rank. rewrite S.
    assert (Fl : pf_fill nx ny nz cvac e0 (F r) (new_pvec 0) = Some (new_pvec 0)).
    { unfold pf_fill. replace (pf_pairs ny nz) with (@nil (Z * Z)); [reflexivity|]. unfold pf_pairs. destruct T as [-> | ->].
      - rewrite (zrange_nil 1 1) by lia. reflexivity.
      - symmetry. rewrite (zrange_nil 1 1) by lia. cbn [map]. induction (zrange 1 ny); [reflexivity|]. cbn [flat_map app]. exact IHl. }
    rewrite Fl. destruct (pf_ix px r =? 0); reflexivity. }
  rewrite E. unfold pf_allsum. rewrite allsum_values. reflexivity.
Qed.
Print Assumptions C74_thin.
Theorem C74_thin_refuted : exists px py pz nx ny nz cvac e0, 1 <= px /\ 1 <= py /\ 1 <= pz /\ 1 <= nx /\ 1 <= ny /\ 1 <= nz /\ cvac <> 0%R /\ e0 <> 0%R /\
  forall F, ~ exists x, poynting px py pz nx ny nz cvac e0 F = Flux x.
Proof.
  exists 1, 1, 1, 64, 64, 1, 1%R, 1%R. repeat split; try lia; try lra. intros F (x & E). rewrite C74_thin in E; try lia. discriminate E.
Qed.
Print Assumptions C74_thin_refuted.

(* Third, the first row along y and along z of every rank is left out: a field that is nonzero only there has flux 0,
   although its (E x cB)_x is not 0 in (ny + nz - 1) of the ny nz rows. *)
Theorem C74_first_row_refuted : exists F, forall py pz nx ny nz,
  1 <= py -> 1 <= pz -> 1 <= nx -> 2 <= ny -> 2 <= nz -> (ny - 1) * (nz - 1) < 2 ^ 31 -> (ny - 1) * (nz - 1) * py * pz < 2 ^ 64 ->
  poynting 1 py pz nx ny nz 1 1 (F nx ny nz) = Flux 0 /\
  forall r y z, 1 <= y <= ny -> 1 <= z <= nz -> (Sx nx ny nz (F nx ny nz r) y z = if (y =? 1) || (z =? 1) then 1 else 0)%R.
Proof.
  exists (fun nx ny nz r c v => match c with
     | Pey | Pcbz => if ((v / (nx + 2)) mod (ny + 2) =? 1) || (v / ((nx + 2) * (ny + 2)) =? 1) then 1%R else 0%R
     | _ => 0%R end).
  intros py pz nx ny nz Hp Hq Hx Hy Hz H31 H64.
  set (F := fun r c v => _).
  assert (V : forall x y z, 0 <= x < nx + 2 -> 0 <= y < ny + 2 -> (voxel nx ny nz x y z / (nx + 2)) mod (ny + 2) = y /\ voxel nx ny nz x y z / ((nx + 2) * (ny + 2)) = z).
  { intros x y z Ix Iy. rewrite <- Z.div_div by lia. assert (E : voxel nx ny nz x y z / (nx + 2) = y + (ny + 2) * z).
    { unfold voxel. rewrite Z.mul_comm, Z.div_add by lia. rewrite Z.div_small by lia. ring. }
    rewrite E. split; [rewrite Z.mul_comm, Z.mod_add, Z.mod_small by lia; reflexivity|rewrite Z.mul_comm, Z.div_add, Z.div_small by lia; ring]. }
  assert (S : forall r y z, 1 <= y <= ny -> 1 <= z <= nz -> (Sx nx ny nz (F r) y z = if (y =? 1) || (z =? 1) then 1 else 0)%R).
  { intros r y z Iy Iz. unfold Sx, F. cbv zeta beta. destruct (V 1 y z ltac:(lia) ltac:(lia)) as [-> ->]. destruct (V 2 y z ltac:(lia) ltac:(lia)) as [-> ->].
    destruct ((y =? 1) || (z =? 1)); lra. }
  split; [|exact S]. rewrite C74_flux by (try lia; lra). f_equal.
  assert (Z0 : forall l : list R, (forall x, In x l -> x = 0%R) -> fsum l = 0%R).
  { induction l as [|x l IH]; intros H; [reflexivity|]. unfold fsum in *. cbn [fold_right]. rewrite (H x (or_introl eq_refl)), IH; [lra|]. intros w I. apply H. right. exact I. }
  rewrite Z0; [unfold Rdiv; lra|]. intros x I. apply in_map_iff in I. destruct I as (r & <- & _). apply Z0. intros x I. apply in_map_iff in I. destruct I as (y & <- & Iy).
  apply in_zrange in Iy. apply Z0. intros x I. apply in_map_iff in I. destruct I as (z & <- & Iz). apply in_zrange in Iz. rewrite S by lia.
  replace ((y =? 1) || (z =? 1)) with false by lia. unfold Rdiv. lra.
Qed.
Print Assumptions C74_first_row_refuted.

(* A single rank with 2 x 2 x 3 cells: ey = 2, cbz = 3 in one row, nothing elsewhere *)
Example C74_flux_example :
  poynting 1 1 1 2 2 3 1 1 (fun _ c v => if v =? voxel 2 2 3 2 2 3 then match c with Pey => 2 | Pcbz => 3 | _ => 0 end else 0)%R = Flux (3 / 2).
Proof.
  rewrite C74_flux by (lia || lra). f_equal. cbn [Z.add Z.mul Pos.add Pos.succ Pos.mul zrange Z.sub Z.to_nat Pos.to_nat map seq fsum fold_right].
  vm_compute zrange. cbn [map fsum fold_right]. unfold Sx. cbv zeta. cbn. lra.
Qed.
Example C74_uniform_example : poynting 1 2 3 5 4 4 1 7 (fun _ c _ => match c with Pey | Pcbz => 7 | _ => 0 end)%R = Flux 1.
Proof.
  rewrite C74_uniform with (ey := 7%R) (ez := 0%R) (cby := 0%R) (cbz := 7%R) by (lia || lra || (intros; repeat split)). f_equal. lra.
Qed.
