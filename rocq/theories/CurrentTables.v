(* The grids the domain set-up builds form one box for the field exchanges. *)
From Coq Require Import Reals ZArith List Bool Lia ZifyBool.
From Verif Require Import GridModel GridProofs PartitionProofs TopologyProofs SortModel RemoteModel RemoteSpec ChargeTables.
Import ListNotations.
Open Scope Z_scope.
Ltac Zify.zify_post_hook ::= idtac.
Local Notation AT := RemoteModel.at_.
Local Notation axis := RemoteModel.axis.

(* what the field exchanges use of a grid: its cells, cell sizes (h, the same for all ranks) and boundary codes; partition.cc:40-87 sets them *)
Definition cgrid_of (h : axis -> R) (g : grid) : cgrid R := mk_cgrid R (dims g) h (g_bc g).

Section Box.
Variables (gpx gpy gpz : Z) (gn n : Z * Z * Z) (fbc pbc : Z) (G : Z -> grid) (per : axis -> bool) (h : axis -> R).
Hypothesis Hper : forall a, per a = negb (1 <? AT a gn).
Let gp := (gpx, gpy, gpz).
Hypothesis Hgp : pos3 gp.
Hypothesis Hfbc : fbc < 0.
Hypothesis HG : forall p, below gp p -> open_grid gp gn n fbc pbc p (G (rank3 gp p)).
Let L := box_layout gp n per (fun a _ => h a).

(* the face on side s of axis a *)
Definition face_at (a : axis) (s : Z) : Z := (match a with RemoteModel.AX => 0 | RemoteModel.AY => 1 | RemoteModel.AZ => 2 end) + (if s =? 1 then 3 else 0).

Lemma port_face a s : s = -1 \/ s = 1 -> 0 <= face_at a s < 6 /\ face_code (face_at a s) = port a s.
Proof. intros [-> | ->]; destruct a; split; try reflexivity; cbn; lia. Qed.

Lemma box_fields : box L (rank3 gp) (gpx * gpy * gpz) (fun r => cgrid_of h (G r)).
Proof.
  pose proof (below_at gpx gpy gpz) as BA. fold gp in BA.
  assert (BI : forall p, inside L p <-> below gp p) by (intros p; symmetry; apply BA).
  assert (BO : forall p, inside L p -> open_grid gp gn n fbc pbc p (G (rank3 gp p))) by (intros p Hp; apply HG, BI, Hp).
  split; [|split; [|split; [|split; [|split]]]].
  - intros p Hp. apply (rank3_range gp p), BI, Hp.
  - intros p q Hp Hq E. rewrite <- (pos_rank gpx gpy gpz p), <- (pos_rank gpx gpy gpz q) by (apply BI; assumption). fold gp. rewrite E. reflexivity.
  - intros r Hr. assert (Hr' : 0 <= r < prod3 gp) by exact Hr. destruct (rank_onto gp gn n fbc pbc G Hgp HG r Hr') as (p & Bp & E). exists p. split; [apply BI, Bp|exact E].
  - intros p Hp. destruct (BO p Hp) as (_ & _ & D & _). cbn [cgrid_of c_n]. rewrite D. unfold size_at, L, box_layout, l_n. destruct n as [[? ?] ?]. reflexivity.
  - reflexivity.
  - intros p a s Hp Hs. destruct (port_face a s Hs) as (F1 & F2). cbn [cgrid_of c_bc]. rewrite <- F2.
    destruct (BO p Hp) as (_ & _ & _ & _ & Hb & _). rewrite (Hb _ F1). pose proof (proj1 (BI p) Hp) as Bp.
    unfold beside, L, box_layout, l_p, l_per. rewrite Hper.
    destruct p as [[x y] z], gn as [[ux uy] uz]. destruct Hgp as (G1 & G2 & G3). cbn in Bp. destruct Bp as (Bx & By & Bz).
    destruct Hs as [-> | ->]; destruct a;
    match goal with |- context [face_at ?b ?s] => let k := eval vm_compute in (face_at b s) in change (face_at b s) with k end;
    unfold at_wall, gp;
    match goal with |- context [?k mod 3] => let v := eval vm_compute in (k mod 3) in change (k mod 3) with v end;
    match goal with |- context [?k <? 3] => let v := eval vm_compute in (k <? 3) in change (k <? 3) with v end;
    cbn -[Z.modulo Z.add Z.sub rank3 Z.ltb Z.leb Z.eqb];
    match goal with
    | |- match (if ?c then Some ?j else if negb (1 <? ?w) then _ else None) with _ => _ end =>
      destruct c eqn:C;
      [|destruct (1 <? w) eqn:W; cbn [negb]]
    end;
    match goal with
    | |- context [if ?b then fbc else _] => let E := fresh "E" in destruct b eqn:E
    end; try (left; exact Hfbc); try (exfalso; lia);
    rewrite ?(Z.mod_small x gpx), ?(Z.mod_small y gpy), ?(Z.mod_small z gpz) by lia; try rewrite Z.mod_small by lia; repeat f_equal; lia.
Qed.
End Box.
