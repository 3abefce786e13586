(* The tables the domain set-up builds belong to one mesh. *)
From Coq Require Import Reals ZArith List Bool Lia ZifyBool.
From Verif Require Import GridModel GridProofs PartitionProofs TopologyProofs VoxelModel VoxelProofs SortModel ParticleModel ParticleSpec MoverModel FieldModel RemoteModel RemoteSpec DecompSpec ChargeSpec.
Import ListNotations.
Open Scope Z_scope.
Ltac Zify.zify_post_hook ::= idtac.
Local Notation AT := RemoteModel.at_.
Local Notation axis := RemoteModel.axis.

(* gp ranks along each axis with n cells each; per: the ends of the axis are joined.  Below gn is the width of the walled box: walls are only put
   where it is more than one cell. *)
Definition box_layout (gp n : Z * Z * Z) (per : axis -> bool) (d : axis -> Z -> R) : layout R :=
  mk_layout R (fun a => AT a gp) per (fun a _ => AT a n) d.

Lemma before_const k i : before (fun _ => k) i = k * Z.of_nat i.
Proof. induction i as [|i IH]; cbn [before]; [lia|]. rewrite IH. lia. Qed.

Section Box.
Variables (gpx gpy gpz : Z) (gn n : Z * Z * Z) (fbc pbc nb : Z) (G : Z -> grid) (per : axis -> bool) (d : axis -> Z -> R).
Hypothesis Hper : forall a, per a = negb (1 <? AT a gn).
Let gp := (gpx, gpy, gpz).
Hypothesis Hn : pos3 n.
Hypothesis Hgp : pos3 gp.
Hypothesis Hfbc : fbc < 0.
Hypothesis Hpbc : pbc < 0.
Hypothesis HG : forall p, below gp p -> open_grid gp gn n fbc pbc p (G (rank3 gp p)).
Let L := box_layout gp n per d.
Let pos (r : Z) := rank_to_index gpx gpy r.

Lemma pos_rank p : below gp p -> pos (rank3 gp p) = p.
Proof. apply rank_to_index_spec. Qed.
Lemma size_box p : size_at L p = n.
Proof. unfold size_at, L, box_layout, l_n. destruct n as [[a b] c]. reflexivity. Qed.
Lemma place_box a p q : 0 <= AT a p -> place L a p q = AT a n * AT a p + AT a q.
Proof. intros H. unfold place, L, box_layout, l_n. rewrite before_const. rewrite Z2Nat.id by exact H. reflexivity. Qed.
Lemma total_box a : total L a = AT a n * AT a gp.
Proof.
  unfold total, L, box_layout, l_n, l_p. rewrite before_const. rewrite Z2Nat.id; [reflexivity|].
  destruct Hgp as (H1 & H2 & H3). destruct a; cbn; lia.
Qed.
Lemma below_at p : below gp p <-> (forall a, 0 <= AT a p < AT a gp).
Proof.
  destruct p as [[x y] z]. cbn. split.
  - intros (H1 & H2 & H3) b. destruct b; cbn; lia.
  - intros H. pose proof (H RemoteModel.AX). pose proof (H RemoteModel.AY). pose proof (H RemoteModel.AZ). cbn in *. lia.
Qed.
Lemma real_interior p q : real_cell L p q <-> interior n q = true.
Proof.
  unfold real_cell, L, box_layout, l_n. destruct n as [[nx ny] nz], q as [[x y] z]. cbn. split.
  - intros H. pose proof (H RemoteModel.AX). pose proof (H RemoteModel.AY). pose proof (H RemoteModel.AZ). cbn in *. lia.
  - intros H a. destruct a; cbn; lia.
Qed.
Lemma axis_step a f c : 0 <= f < 6 -> AT a (step f c) = AT a c + (if axis_eqb (axis_of f) a then side_of f else 0).
Proof. destruct c as [[x y] z]. intros Hf. six_cases f Hf; destruct a; cbn; lia. Qed.
Lemma at_mod3 a c : AT a (mod3 gp c) = AT a c mod AT a gp.
Proof. destruct c as [[x y] z]. destruct a; reflexivity. Qed.
(* what a step through a face does to the cell and to the rank's position *)
Lemma at_across a f c : 0 <= f < 6 -> interior n c = true -> interior n (step f c) = false ->
  if axis_eqb (axis_of f) a then AT a c = (if f <? 3 then 1 else AT a n) /\ AT a (across n n f c) = (if f <? 3 then AT a n else 1)
  else AT a (across n n f c) = AT a c.
Proof.
  destruct n as [[nx ny] nz], c as [[x y] z]. intros Hf. destruct Hn as (N1 & N2 & N3).
  six_cases f Hf; destruct a; cbn; intros I1 I2; try reflexivity; lia.
Qed.
Lemma no_wall f p : 0 <= f < 6 -> at_wall gp gn p f = false -> l_per L (axis_of f) = false ->
  AT (axis_of f) p <> (if f <? 3 then 0 else AT (axis_of f) gp - 1).
Proof.
  unfold L, box_layout, l_per. rewrite Hper. destruct gn as [[gx gy] gz], p as [[x y] z]. intros Hf. unfold gp.
  six_cases f Hf; cbn; lia.
Qed.

Lemma next_box p f c : below gp p -> 0 <= f < 6 -> interior n c = true -> (at_wall gp gn p f && on_face n f c) = false ->
  let p' := if interior n (step f c) then p else mod3 gp (step f p) in
  let c' := if interior n (step f c) then step f c else across n n f c in
  below gp p' /\ interior n c' = true /\ next_cell L (axis_of f) (side_of f) p c p' c'.
Proof.
  intros Hp Hf Hc Hw. cbv zeta. pose proof (on_face_step n f c Hn Hf Hc) as S.
  destruct (interior n (step f c)) eqn:I.
  - split; [exact Hp|]. split; [exact I|]. intros a. cbv zeta.
    pose proof (proj1 (below_at p) Hp a) as Ba. rewrite !place_box by lia. rewrite (axis_step a f c Hf).
    replace (_ - _) with 0 by ring. destruct (l_per L a); [exists 0; ring|reflexivity].
  - pose proof (mod3_below gp gn n fbc pbc G Hgp HG (step f p)) as Hp'. split; [exact Hp'|].
    rewrite S in Hw. cbn [negb] in Hw. rewrite andb_true_r in Hw.
    split; [apply across_interior; [exact Hn|exact Hf|exact S]|].
    intros a. cbv zeta. pose proof (proj1 (below_at p) Hp a) as Ba. pose proof (proj1 (below_at _) Hp' a) as Ba'.
    rewrite !place_box by lia. rewrite total_box.
    pose proof (at_across a f c Hf Hc I) as A. rewrite at_mod3, (axis_step a f p Hf).
    assert (PG : 1 <= AT a gp) by lia.
    destruct (axis_eqb (axis_of f) a) eqn:E.
    + assert (EA : axis_of f = a) by (destruct (axis_of f), a; (reflexivity || discriminate)).
      destruct A as (A1 & A2). rewrite A1, A2. set (m := AT a p + side_of f) in *.
      replace (_ - _) with (AT a n * (m mod AT a gp - m)) by (unfold m, side_of; destruct (f <? 3); ring).
      destruct (l_per L a) eqn:P.
      * exists (- (m / AT a gp)). pose proof (Z.div_mod m (AT a gp) ltac:(lia)). nia.
      * pose proof (no_wall f p Hf Hw) as W. rewrite EA in W. specialize (W P). rewrite Z.mod_small; [ring|].
        unfold m, side_of. destruct (f <? 3); lia.
    + rewrite A, Z.add_0_r, Z.mod_small by lia. replace (_ - _) with 0 by ring. destruct (l_per L a); [exists 0; ring|reflexivity].
Qed.

Lemma box_wired : wired L pos (prod3 gp) (fun r => r * nv3 n) (fun r => bgrid_of nb (G r)).
Proof.
  pose proof (rank_onto gp gn n fbc pbc G Hgp HG) as RO.
  split; [|split; [|split; [|split]]].
  - intros r Hr. destruct (RO r Hr) as (p & Hp & <-). rewrite pos_rank by exact Hp. intros a. apply (proj1 (below_at p)), Hp.
  - lia.
  - intros r Hr. rewrite size_box. unfold nv3, nv_of. destruct n as [[nx ny] nz]. ring.
  - intros r Hr. destruct (RO r Hr) as (p & Hp & <-). destruct (HG p Hp) as (G1 & G2 & G3 & G4 & _).
    destruct (range_of gp gn n fbc pbc G HG p Hp) as (R1 & R2 & R3).
    cbn [bgrid_of b_rank b_size b_mesh b_range mesh_of mrangel mrangeh]. rewrite G1, G2, R1, R2.
    repeat (split; [reflexivity || ring|]). intros s Hs. apply (G4 s). lia.
  - intros r v f e Hr Hf En He. destruct (RO r Hr) as (p & Hp & <-). rewrite pos_rank by exact Hp. rewrite size_box.
    destruct (HG p Hp) as (G1 & G2 & G3 & G4 & G5 & G6 & G7).
    destruct (range_of gp gn n fbc pbc G HG p Hp) as (R1 & R2 & R3).
    cbn [bgrid_of b_mesh] in En. pose proof (nbr_at_inv _ _ _ _ Hf En) as Hv. rewrite R3 in Hv.
    rewrite nbr_at_mesh in En by (rewrite ?R3; assumption). destruct (vox3_surj n v Hn Hv) as (c & Hc & <-).
    destruct (interior n c) eqn:I; [|rewrite (G7 c f Hc I Hf) in En; injection En as <-; lia].
    rewrite (G6 c f I Hf) in En. destruct (at_wall gp gn p f && on_face n f c) eqn:W; [injection En as <-; lia|].
    destruct (next_box p f c Hp Hf I W) as (N1 & N2 & N3).
    set (p' := if interior n (step f c) then p else mod3 gp (step f p)) in *.
    set (c' := if interior n (step f c) then step f c else across n n f c) in *.
    exists c, (rank3 gp p'), c'. rewrite pos_rank by exact N1. rewrite size_box.
    split; [reflexivity|]. split; [apply real_interior, I|]. split; [apply rank3_range, N1|].
    split; [injection En as <-; unfold torus_entry, p', c'; destruct (interior n (step f c)); reflexivity|].
    split; [apply real_interior, N2|]. split; [exact N3|].
    intros NE. rewrite nthz_bc by exact Hf. rewrite (G5 f Hf).
    pose proof (on_face_step n f c Hn Hf I) as S. unfold p' in *. destruct (interior n (step f c)); [contradiction NE; reflexivity|].
    rewrite S in W. cbn [negb] in W. rewrite andb_true_r in W. rewrite W. reflexivity.
Qed.
Lemma box_layout_ok : layout_ok L.
Proof.
  destruct n as [[nx ny] nz]. destruct Hn as (N1 & N2 & N3), Hgp as (P1 & P2 & P3).
  split; intros a; [|intros i _]; destruct a; cbn; lia.
Qed.
Lemma box_closed : (forall p f, below gp p -> 0 <= f < 6 -> at_wall gp gn p f = true -> pbc = reflect_particles) -> closed (prod3 gp) (fun r => bgrid_of nb (G r)).
Proof.
  intros HC r v f e Hr Hf En. destruct (rank_onto gp gn n fbc pbc G Hgp HG r Hr) as (p & Hp & <-).
  destruct (HG p Hp) as (G1 & G2 & G3 & G4 & G5 & G6 & G7). destruct (range_of gp gn n fbc pbc G HG p Hp) as (R1 & R2 & R3).
  cbn [bgrid_of b_mesh] in En. pose proof (nbr_at_inv _ _ _ _ Hf En) as Hv. rewrite R3 in Hv.
  rewrite nbr_at_mesh in En by (rewrite ?R3; assumption). destruct (vox3_surj n v Hn Hv) as (c & Hc & <-).
  destruct (interior n c) eqn:I; [|rewrite (G7 c f Hc I Hf) in En; injection En as <-; left; reflexivity].
  rewrite (G6 c f I Hf) in En. destruct (at_wall gp gn p f && on_face n f c) eqn:W.
  - injection En as <-. left. apply andb_prop in W. exact (HC p f Hp Hf (proj1 W)).
  - right. injection En as <-. destruct (next_box p f c Hp Hf I W) as (N1 & N2 & _). unfold torus_entry.
    destruct (interior n (step f c)); pose proof (rank3_range gp _ N1) as RR; pose proof (vox3_range n _ Hn (interior_in _ _ N2)) as VV; nia.
Qed.
End Box.
