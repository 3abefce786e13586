(* C43, C44: messages pair up, ranks never hang, copies agree. *)
From Coq Require Import Reals ZArith List Bool Lia ZifyBool Lra Permutation.
From Flocq Require Import IEEE754.BinarySingleNaN.
From Verif Require Import FloatModel DistributeModel ParticleModel SortModel SortProofs VoxelModel VoxelProofs GridModel GridProofs FieldModel
  RemoteModel RemoteSpec RemoteProofs RemoteSync RemoteSum RemoteRun RemoteRunProofs.
Import ListNotations.
Open Scope Z_scope.
Ltac Zify.zify_post_hook ::= idtac.

(* ---------- C43 ---------- *)
(* Every message finds its receive: the rank d that r sends to through face (a,s) waits for a message from r, with the tag r puts on it, on the
   opposite port, and of that size. *)
Theorem C43_send_has_receive : forall V ws (G : Z -> cgrid V) e r a s F m,
  joined ws G -> 0 <= r < ws -> s = -1 \/ s = 1 -> send V ws G e r F a s = Some m ->
  let d := m_dst V m in
  0 <= d < ws /\ m_src V m = r /\ m_tag V m = port a s /\
  (* begin_recv_port( i, j, k, size, g ) of d, with port BOUNDARY(-i,-j,-k) = 26 - BOUNDARY(i,j,k) *)
  c_bc V (G d) (26 - m_tag V m) = r /\ m_size V m = msg_floats e (c_n V (G d)) a.
Proof.
  intros V ws G e r a s F m HJ Hr Hs Hm. unfold send in Hm. destruct (peer V ws G r (port a s)) as [d|] eqn:Ep; [|discriminate]. injection Hm as <-. cbn [m_dst m_src m_tag m_size].
  destruct (peer_range ws G r _ d Ep) as [Hd Eb]. destruct (HJ r a s Hr Hs ltac:(lia)) as [J1 J2]. rewrite Eb in J1, J2. split; [exact Hd|]. split; [reflexivity|]. split; [reflexivity|]. split; [exact J1|]. apply floats_eq. exact J2.
Qed.
Print Assumptions C43_send_has_receive.
(* Every receive finds its message, and only that one: among all faces of all ranks there is exactly one that sends to rank r with the tag r
   waits for on port 26 - t from the source it waits for. *)
Theorem C43_receive_has_one_send : forall V ws (G : Z -> cgrid V) r a s,
  joined ws G -> 0 <= r < ws -> s = -1 \/ s = 1 -> 0 <= c_bc V (G r) (26 - port a s) < ws ->
  let src := c_bc V (G r) (26 - port a s) in
  c_bc V (G src) (port a s) = r /\
  (forall r' a' s', 0 <= r' < ws -> s' = -1 \/ s' = 1 -> c_bc V (G r') (port a' s') = r -> r' = src -> port a' s' = port a s -> a' = a /\ s' = s) /\
  (forall e, msg_floats e (c_n V (G src)) a = msg_floats e (c_n V (G r)) a).
Proof.
  intros V ws G r a s HJ Hr Hs Hb src. rewrite (port_opp a s Hs) in Hb. assert (Hs' : - s = -1 \/ - s = 1) by lia. destruct (HJ r a (- s) Hr Hs' Hb) as [J1 J2].
  unfold src. rewrite (port_opp a s Hs). rewrite (port_opp a (- s) Hs'), Z.opp_involutive in J1. split; [exact J1|]. split.
  - intros r' a' s' _ Hs2 _ _ Q. apply port_inj in Q; assumption.
  - intros e. symmetry. apply floats_eq. exact J2.
Qed.
Print Assumptions C43_receive_has_one_send.
Lemma flat_len {A B} (f : A -> list B) l k : (forall x, length (f x) = k) -> length (flat_map f l) = (k * length l)%nat.
Proof. intros H. induction l as [|x l IH]; [cbn; lia|]. cbn [flat_map length]. rewrite app_length, H, IH. lia. Qed.
Lemma zrange_len a b : length (zrange a b) = Z.to_nat (b - a).
Proof. unfold zrange. rewrite map_length, seq_length. reflexivity. Qed.
Lemma cells_len x0 x1 y0 y1 z0 z1 : length (cells x0 x1 y0 y1 z0 z1) = (Z.to_nat (x1 + 1 - x0) * Z.to_nat (y1 + 1 - y0) * Z.to_nat (z1 + 1 - z0))%nat.
Proof.
  unfold cells. rewrite (flat_len _ _ (Z.to_nat (x1 + 1 - x0) * Z.to_nat (y1 + 1 - y0))%nat); [rewrite zrange_len; reflexivity|]. intros z.
  rewrite (flat_len _ _ (Z.to_nat (x1 + 1 - x0))); [rewrite zrange_len; reflexivity|]. intros y. rewrite map_length, zrange_len. reflexivity.
Qed.
Lemma plane_len n a g f : 0 <= at_ (next a) n -> 0 <= at_ (next (next a)) n -> Z.of_nat (length (plane n a g f)) = (at_ (next a) n + wide_y g) * (at_ (next (next a)) n + wide_z g).
Proof.
  destruct n as [[nx ny] nz]. intros H1 H2. destruct a, g; cbn [plane next at_ wide_y wide_z] in *; rewrite cells_len, !Nat2Z.inj_mul, !Z2Nat.id by lia; ring_simplify; ring.
Qed.
Lemma addrs_len n a f items : 0 <= at_ (next a) n -> 0 <= at_ (next (next a)) n ->
  Z.of_nat (length (addrs n a f items)) = fold_right (fun it s => (at_ (next a) n + wide_y (fst it)) * (at_ (next (next a)) n + wide_z (fst it)) * Z.of_nat (length (snd it)) + s) 0 items.
Proof.
  intros H1 H2. induction items as [|[g ks] items IH]; [reflexivity|]. cbn [fold_right fst snd]. rewrite <- IH, <- (plane_len n a g f H1 H2), <- Nat2Z.inj_mul, <- Nat2Z.inj_add. f_equal.
  unfold addrs. cbn [flat_map fst snd]. rewrite app_length. f_equal. rewrite (flat_len _ _ (length ks)) by (intros; apply map_length). apply Nat.mul_comm.
Qed.
(* The packing loops write exactly as many floats as the size given to begin_send_port and begin_recv_port, and the unpacking loops read as many. *)
Theorem C43_sizes : forall V (G : Z -> cgrid V) e r F a s, (forall b, 0 <= at_ b (c_n V (G r))) ->
  Z.of_nat (length (pack V G e r F a s)) = msg_floats e (c_n V (G r)) a /\
  (if has_head e then 1 else 0) + Z.of_nat (length (addrs (c_n V (G r)) a (recv_plane e s (at_ a (c_n V (G r)))) (recv_items e a))) = msg_floats e (c_n V (G r)) a.
Proof.
  intros V G e r F a s Hn. unfold pack. rewrite app_length, map_length, Nat2Z.inj_add, !addrs_len by apply Hn.
  generalize (Hn (next a)) (Hn (next (next a))). unfold msg_floats. generalize (at_ (next a) (c_n V (G r))) (at_ (next (next a)) (c_n V (G r))). intros y z _ _.
  destruct e; cbn [has_head send_items recv_items fold_right fst snd length wide_y wide_z]; split; change (Z.of_nat 0) with 0; change (Z.of_nat 1) with 1; change (Z.of_nat 2) with 2; ring.
Qed.
Print Assumptions C43_sizes.
(* Ranks that run the same stages, their calls interleaved in any way: no call ever fails (no request is begun twice or waited for without having
   been begun, every message has the expected size, no loop reads past its data); as long as one rank is not through, some rank can go on; there
   are at most ws times the number of calls turns; and when all are through, no message and no request is left and the fields are those of doing the
   stages one after the other. *)
Theorem C43_ranks_go_through : forall V (A : rarith V) ws (G : Z -> cgrid V) es W n c,
  joined ws G -> turns V A ws G (program V es) n (start V W) c ->
  (forall r, 0 <= r < ws -> turn V A ws G (program V es) c r <> Fails V) /\
  (forall r, 0 <= r < ws -> turn V A ws G (program V es) c r <> Ended V -> exists r' c', 0 <= r' < ws /\ turn V A ws G (program V es) c r' = Goes V c') /\
  (n <= length (program V es) * Z.to_nat ws)%nat /\
  ((forall r, 0 <= r < ws -> turn V A ws G (program V es) c r = Ended V) ->
     runs V A ws G es W (s_mem V c) /\ s_net V c = [] /\
     forall r a s, 0 <= r < ws -> s = -1 \/ s = 1 -> s_recv V c r (port a s) = None /\ s_send V c r (port a s) = None).
Proof.
  intros V A ws G es W n c HJ H. pose proof (inv_turns A ws G HJ es W n _ _ H (inv_start A ws G es W)) as I.
  split; [intros r Hr; apply (inv_turn A ws G HJ es W c r I Hr)|]. split; [intros r Hr; apply (inv_progress A ws G HJ es W c r I Hr)|]. split; [apply (turns_bound A ws G HJ es W n c H)|].
  intros He. destruct (inv_end A ws G HJ es W c I He) as (E1 & E2 & E3). split; [exact E1|]. split; [exact E2|exact E3].
Qed.
Print Assumptions C43_ranks_go_through.
(* Boxes of ranks as partition_periodic_box and the like build them are joined, also when a rank is its own neighbour or two share two faces. *)
Theorem C43_box_is_joined : forall V (L : layout V) num ws G, layout_ok L -> box L num ws G -> joined ws G.
Proof.
  intros V L num ws G OK HB r a s Hr Hs Hb. assert (HB0 := HB). destruct HB0 as (_ & _ & On & Sz & _ & Bc). destruct (On r Hr) as (p & Hp & <-). pose proof (Bc p a s Hp Hs) as B.
  destruct (beside L a (at_ a p) s) as [j|] eqn:Ej; [|lia]. rewrite B in *. assert (Hj : 0 <= j < l_p L a) by (apply (beside_range L a (at_ a p) s j (Hp a) Hs Ej)).
  assert (Hp' : inside L (put a j p)) by (apply inside_put; assumption). pose proof (beside_back L a (at_ a p) s j (Hp a) Hs Ej) as Eb.
  split.
  - rewrite (port_opp a s Hs). assert (Hs' : - s = -1 \/ - s = 1) by lia. pose proof (Bc _ a (- s) Hp' Hs') as B'. rewrite at_put_same, Eb, put_put, put_at in B'. exact B'.
  - intros b Hb'. rewrite (Sz _ Hp), (Sz _ Hp'), !at_size, at_put_other by exact Hb'. reflexivity.
Qed.
Print Assumptions C43_box_is_joined.

(* --- concrete cases, with integers for values --- *)
Definition Zarith : rarith Z := mk_rarith Z Z.add Z.sub Z.mul Z.div (fun x y => (x + y) / 2) (fun x y => 2 * x / y) 0.
(* let the first rank that can go on, up to k times *)
Fixpoint first_goes (G : Z -> cgrid Z) ws cs (c : state Z) (rs : list Z) : option (state Z) :=
  match rs with [] => None | r :: rs => match turn Z Zarith ws G cs c r with Goes _ c' => Some c' | _ => first_goes G ws cs c rs end end.
Fixpoint drive (G : Z -> cgrid Z) ws cs (k : nat) (c : state Z) : nat * state Z :=
  match k with O => (O, c) | S k => match first_goes G ws cs c (zrange 0 ws) with Some c' => let (n, c2) := drive G ws cs k c' in (S n, c2) | None => (O, c) end end.
Lemma turns_left G ws cs n : forall c1 c2 c3 r, 0 <= r < ws -> turn Z Zarith ws G cs c1 r = Goes Z c2 -> turns Z Zarith ws G cs n c2 c3 -> turns Z Zarith ws G cs (S n) c1 c3.
Proof. intros c1 c2 c3 r Hr H T. revert c1 H. induction T as [|n c2 c4 c5 r' T IH Hr' H']; intros c1 H; [econstructor; [constructor|exact Hr|exact H]|]. econstructor; [apply IH, H|exact Hr'|exact H']. Qed.
Lemma drive_turns G ws cs k : forall c, let (n, c') := drive G ws cs k c in turns Z Zarith ws G cs n c c'.
Proof.
  induction k as [|k IH]; intros c; [constructor|]. cbn [drive]. destruct (first_goes G ws cs c (zrange 0 ws)) as [c'|] eqn:E; [|constructor].
  specialize (IH c'). destruct (drive G ws cs k c') as [n c2]. assert (exists r, 0 <= r < ws /\ turn Z Zarith ws G cs c r = Goes Z c') as (r & Hr & Ht).
  { assert (H : forall rs, (forall r, In r rs -> 0 <= r < ws) -> first_goes G ws cs c rs = Some c' -> exists r, 0 <= r < ws /\ turn Z Zarith ws G cs c r = Goes Z c').
    { induction rs as [|r rs IHr]; intros Hrs Q; [discriminate|]. cbn in Q. destruct (turn Z Zarith ws G cs c r) eqn:Et; try (apply IHr; [intros; apply Hrs; right; assumption|exact Q]). injection Q as <-. exists r. split; [apply Hrs; left; reflexivity|exact Et]. }
    apply (H (zrange 0 ws)); [intros r Hr; apply in_zrange in Hr; lia|exact E]. }
  apply (turns_left G ws cs n c c' c2 r Hr Ht IH).
Qed.
(* two ranks sharing both x faces, each its own neighbour along y, reflecting in z *)
Definition Gpair (r : Z) : cgrid Z := mk_cgrid Z (if r =? 0 then (1, 2, 1) else (2, 2, 1)) (fun _ => 1)
  (fun p => if (p =? 12) || (p =? 14) then 1 - r else if (p =? 10) || (p =? 16) then r else -1).
Definition Wpair (r : Z) : mem Z := fun l => 100 * r + snd l.
Definition stages : list (stage Z) := [Exchange Z GhostTangB; Exchange Z SyncTangENormB; Exchange Z SyncJf].
Example C43_example : joined 2 Gpair /\ exists c, turns Z Zarith 2 Gpair (program Z stages) 144 (start Z Wpair) c /\ (forall r, 0 <= r < 2 -> turn Z Zarith 2 Gpair (program Z stages) c r = Ended Z) /\
  (* normal B on the face x=2 of rank 0, which is the face x=1 of rank 1: the average of 17 and 121 *)
  s_mem Z c 0 (Cbx, vox3 (1, 2, 1) (2, 1, 1)) = 69 /\ s_mem Z c 1 (Cbx, vox3 (2, 2, 1) (1, 1, 1)) = 69.
Proof.
  split.
  - intros r a s Hr Hs H. assert (r = 0 \/ r = 1) as [-> | ->] by lia; destruct Hs as [-> | ->]; destruct a; cbn in H |- *; try lia; (split; [reflexivity|]); intros [| |] Hb; try reflexivity; contradiction.
  - pose proof (drive_turns Gpair 2 (program Z stages) 200 (start Z Wpair)) as H.
    assert (E : (let (n, c) := drive Gpair 2 (program Z stages) 200 (start Z Wpair) in (n, map (s_pc Z c) [0; 1], s_mem Z c 0 (Cbx, vox3 (1, 2, 1) (2, 1, 1)), s_mem Z c 1 (Cbx, vox3 (2, 2, 1) (1, 1, 1)))) = (144%nat, [72; 72]%nat, 69, 69)) by (vm_compute; reflexivity).
    destruct (drive Gpair 2 (program Z stages) 200 (start Z Wpair)) as [n c]. injection E as -> E1 E2 E3 E4. exists c. split; [exact H|]. split; [|split; assumption].
    intros r Hr. assert (r = 0 \/ r = 1) as [-> | ->] by lia; unfold turn; [rewrite E1|rewrite E2]; reflexivity.
Qed.
(* One rank joined to itself on all sides. *)
Definition Gself (r : Z) : cgrid Z := mk_cgrid Z (1, 1, 1) (fun _ => 1) (fun _ => 0).
Example C43_example_self : joined 1 Gself /\ exists c, turns Z Zarith 1 Gself (program Z stages) 72 (start Z Wpair) c /\ turn Z Zarith 1 Gself (program Z stages) c 0 = Ended Z.
Proof.
  split.
  - intros r a s Hr Hs H. cbn in *. split; [lia|]. reflexivity.
  - pose proof (drive_turns Gself 1 (program Z stages) 100 (start Z Wpair)) as H.
    assert (E : (let (n, c) := drive Gself 1 (program Z stages) 100 (start Z Wpair) in (n, s_pc Z c 0)) = (72%nat, 72%nat)) by (vm_compute; reflexivity).
    destruct (drive Gself 1 (program Z stages) 100 (start Z Wpair)) as [n c]. injection E as -> E1. exists c. split; [exact H|]. unfold turn. rewrite E1. reflexivity.
Qed.
(* Without equal transverse sizes the exchange fails in mp_end_recv. *)
Definition Gbad (r : Z) : cgrid Z := mk_cgrid Z (if r =? 0 then (1, 1, 1) else (1, 2, 1)) (fun _ => 1) (fun p => if (p =? 12) || (p =? 14) then 1 - r else -1).
Theorem C43_unequal_faces_refuted : exists (G : Z -> cgrid Z) W n c,
  (forall r a s, 0 <= r < 2 -> s = -1 \/ s = 1 -> 0 <= c_bc Z (G r) (port a s) < 2 -> c_bc Z (G (c_bc Z (G r) (port a s))) (26 - port a s) = r) /\
  turns Z Zarith 2 G (program Z [Exchange Z SyncJf]) n (start Z W) c /\ turn Z Zarith 2 G (program Z [Exchange Z SyncJf]) c 1 = Fails Z.
Proof.
  exists Gbad, Wpair. pose proof (drive_turns Gbad 2 (program Z [Exchange Z SyncJf]) 8 (start Z Wpair)) as H.
  assert (E : (let (n, c) := drive Gbad 2 (program Z [Exchange Z SyncJf]) 8 (start Z Wpair) in match turn Z Zarith 2 Gbad (program Z [Exchange Z SyncJf]) c 1 with Fails _ => true | _ => false end) = true) by (vm_compute; reflexivity).
  destruct (drive Gbad 2 (program Z [Exchange Z SyncJf]) 8 (start Z Wpair)) as [n c]. exists n, c. split.
  - intros r a s Hr Hs Hb. assert (r = 0 \/ r = 1) as [-> | ->] by lia; destruct Hs as [-> | ->]; destruct a; cbn in Hb |- *; lia.
  - split; [exact H|]. destruct (turn Z Zarith 2 Gbad (program Z [Exchange Z SyncJf]) c 1); try discriminate. reflexivity.
Qed.
Print Assumptions C43_unequal_faces_refuted.
(* If a face leads to a rank whose opposite face does not lead back, the exchange hangs: rank 1 is through and rank 0 waits for ever. *)
Definition Ghang (r : Z) : cgrid Z := mk_cgrid Z (1, 1, 1) (fun _ => 1) (fun p => if (r =? 0) && (p =? 14) then 1 else -1).
Theorem C43_one_sided_refuted : exists (G : Z -> cgrid Z) W n c,
  turns Z Zarith 2 G (program Z [Exchange Z SyncJf]) n (start Z W) c /\ turn Z Zarith 2 G (program Z [Exchange Z SyncJf]) c 0 = Waits Z /\ turn Z Zarith 2 G (program Z [Exchange Z SyncJf]) c 1 = Ended Z.
Proof.
  exists Ghang, Wpair. pose proof (drive_turns Ghang 2 (program Z [Exchange Z SyncJf]) 100 (start Z Wpair)) as H.
  assert (E : (let (n, c) := drive Ghang 2 (program Z [Exchange Z SyncJf]) 100 (start Z Wpair) in match turn Z Zarith 2 Ghang (program Z [Exchange Z SyncJf]) c 0, turn Z Zarith 2 Ghang (program Z [Exchange Z SyncJf]) c 1 with Waits _, Ended _ => true | _, _ => false end) = true) by (vm_compute; reflexivity).
  destruct (drive Ghang 2 (program Z [Exchange Z SyncJf]) 100 (start Z Wpair)) as [n c]. exists n, c. split; [exact H|].
  destruct (turn Z Zarith 2 Ghang (program Z [Exchange Z SyncJf]) c 0); try discriminate; destruct (turn Z Zarith 2 Ghang (program Z [Exchange Z SyncJf]) c 1); try discriminate; split; reflexivity.
Qed.
Print Assumptions C43_one_sided_refuted.

(* ---------- C44 ---------- *)
(* the members synchronised by synchronize_tang_e_norm_b, synchronize_jf and synchronize_rho *)
Definition synced (e : exch) (c : comp) : Prop :=
  match e with
  | SyncTangENormB => In c [Ex; Ey; Ez; Tcax; Tcay; Tcaz; Cbx; Cby; Cbz]
  | SyncJf => In c [Jfx; Jfy; Jfz]
  | SyncRho => In c [Rhof; Rhob]
  | _ => False
  end.
Lemma synced_fam e c : synced e c <-> ghosted e = false /\ fam e c = true.
Proof. destruct e, c; cbn; intuition discriminate. Qed.
(* the value of member c at entry q of the rank at position p *)
Definition at_rank {V} (L : layout V) (num : cell -> Z) (W : Z -> mem V) (c : comp) (l : cell * cell) : V := W (num (fst l)) (c, vox3 (size_at L (fst l)) (snd l)).
(* Each synchronisation can be carried out, and leaves every copy of a value, on whichever ranks, the same as every other; for any arithmetic whose
   addition is symmetric, so for rounded arithmetic too. *)
Theorem C44_copies_agree : forall V (A : rarith V) L num ws G e c,
  (forall x y, r_add V A x y = r_add V A y x) -> (forall x y, r_avg V A x y = r_avg V A y x) ->
  layout_ok L -> box L num ws G -> synced e c -> forall W,
  (exists W', run_phases V A ws G e (phases e) W W') /\
  forall W' p q p' q', run_phases V A ws G e (phases e) W W' -> inside L p -> holds L c p q -> inside L p' -> holds L c p' q' -> same_place L (p, q) (p', q') ->
    at_rank L num W' c (p, q) = at_rank L num W' c (p', q').
Proof.
  intros V A L num ws G e c Ha Hv OK HB Hs W. apply synced_fam in Hs. destruct Hs as [Hg Hf]. split; [apply (sync_runs A L num ws G OK HB e W Hg)|].
  intros W' p q p' q' H Hp Hq Hp' Hq' Hs. apply (all_agree A L num ws G OK HB Ha Hv e W W' c (p, q) (p', q') Hg Hf H (conj Hp Hq) (conj Hp' Hq') Hs).
Qed.
Print Assumptions C44_copies_agree.
(* single precision as in the code: sums and products of floats rounded to float, the average 0.5*(w1+w2) formed in double *)
Definition Farith : rarith b32 := mk_rarith b32 f_add f_sub f_mul f_div (fun x y => d2f (d_mul d_half (d_add (f2d x) (f2d y)))) (fun x y => d2f (d_div (d_mul (d_of_Z 2) (f2d x)) (f2d y))) (f_of_Z 0).
Lemma Bplus_comm prec emax (p : FLX.Prec_gt_0 prec) (q : Prec_lt_emax prec emax) x y : @Bplus prec emax p q mode_NE x y = Bplus mode_NE y x.
Proof.
  destruct x as [sx|sx| |sx mx ex bx], y as [sy|sy| |sy my ey by0]; try reflexivity; try (destruct sx, sy; reflexivity).
  unfold Bplus. rewrite (Z.min_comm ex ey). cbv zeta. unfold Fplus_naive. rewrite Z.add_comm. reflexivity.
Qed.
Theorem C44_copies_agree_single : forall L num ws G e c, layout_ok L -> box L num ws G -> synced e c -> forall W W' p q p' q',
  run_phases b32 Farith ws G e (phases e) W W' -> inside L p -> holds L c p q -> inside L p' -> holds L c p' q' -> same_place L (p, q) (p', q') ->
  at_rank L num W' c (p, q) = at_rank L num W' c (p', q').
Proof.
  intros L num ws G e c OK HB Hs W W' p q p' q' H. refine (proj2 (C44_copies_agree b32 Farith L num ws G e c _ _ OK HB Hs W) W' p q p' q' H).
  - intros x y. apply Bplus_comm.
  - intros x y. cbn [r_avg Farith]. unfold d_add. rewrite Bplus_comm. reflexivity.
Qed.
Print Assumptions C44_copies_agree_single.
(* Not so if the compiler contracts  lw*f->jf + rw*w  to a fused multiply-add and the two ranks have cells of different size: with the
   sizes 1 and 2 and the values 1 and 3 the two copies end up different. *)
Definition contracted (dl dr x w : b32) : b32 :=
  let sum := f_add dr dl in let rw := f_div dr sum in let lw := f_div dl sum in f_fma (f_add lw lw) x (f_mul (f_add rw rw) w).
Theorem C44_contracted_refuted : exists dl dr x w : b32, is_finite (contracted dl dr x w) = true /\ is_finite (contracted dr dl w x) = true /\ B2SF (contracted dl dr x w) <> B2SF (contracted dr dl w x).
Proof. exists (f_of_Z 1), (f_of_Z 2), (f_of_Z 1), (f_of_Z 3). split; [vm_compute; reflexivity|]. split; [vm_compute; reflexivity|]. vm_compute. discriminate. Qed.
Print Assumptions C44_contracted_refuted.

(* Tangential E, normal B and the curl: the plain average of all copies there were, in exact arithmetic. *)
Theorem C44_average : forall L num ws G c W W' p q cs, layout_ok L -> box L num ws G -> synced SyncTangENormB c ->
  run_phases R Rarith ws G SyncTangENormB (phases SyncTangENormB) W W' -> inside L p -> holds L c p q -> copies_of L c (p, q) cs ->
  (at_rank L num W' c (p, q) = sumR (at_rank L num W c) cs / INR (length cs))%R.
Proof.
  intros L num ws G c W W' p q cs OK HB Hs H Hp Hq Hc. apply synced_fam in Hs. destruct Hs as [Hg Hf].
  pose proof (run_copies L num ws G OK HB SyncTangENormB W W' c (p, q) cs (or_introl eq_refl) Hg Hf H (conj Hp Hq) Hc) as E.
  assert (K : forall l, wt3 L SyncTangENormB l = 1%R) by (intros l; unfold wt3, wt; lra).
  rewrite (sumR_ext (wt3 L SyncTangENormB) (fun _ => 1%R)), sumR_one, (sumR_ext _ (val L num W c)) in E by (intros; rewrite K; lra). cbn [fac] in E.
  assert (Hne : (0 < INR (length cs))%R). { apply lt_0_INR. destruct cs as [|x cs]; [|cbn; lia]. destruct Hc as [_ Hc]. assert (In (p, q) (@nil (cell * cell))) as Q; [|destruct Q]. apply Hc. split; [exact Hp|]. split; [exact Hq|]. intros a. destruct (l_per L a); [exists 0; lia|reflexivity]. }
  rewrite Rmult_1_l in E. assert (E' : (at_rank L num W' c (p, q) * INR (length cs) = sumR (at_rank L num W c) cs)%R) by exact E. rewrite <- E'. field. lra.
Qed.
Print Assumptions C44_average.
(* the volume of the cells of the rank at p *)
Definition volume (L : layout R) (l : cell * cell) : R := (l_d L AX (at_ AX (fst l)) * l_d L AY (at_ AY (fst l)) * l_d L AZ (at_ AZ (fst l)))%R.
(* Current and charge.  Each copy holds the part deposited on its own rank, per volume of its own cells: charge at node = copy times volume / number of copies
   of the node's volume.  After the synchronisation every copy x satisfies  x times the sum of the volumes = number of copies times the volume-weighted
   sum for jf and rhof, and  x times the sum of the volumes = the volume-weighted sum  for rhob, which already refers to the whole volume. *)
Theorem C44_weighted_sum : forall L num ws G e c W W' p q cs, layout_ok L -> box L num ws G -> (forall a i, 0 <= i < l_p L a -> (0 < l_d L a i)%R) ->
  e = SyncJf \/ e = SyncRho -> synced e c ->
  run_phases R Rarith ws G e (phases e) W W' -> inside L p -> holds L c p q -> copies_of L c (p, q) cs ->
  let k := match c with Rhob => 1%R | _ => INR (length cs) end in
  (at_rank L num W' c (p, q) * sumR (volume L) cs = k * sumR (fun l => volume L l * at_rank L num W c l) cs)%R.
Proof.
  intros L num ws G e c W W' p q cs OK HB Hd He Hs H Hp Hq Hc k. apply synced_fam in Hs. destruct Hs as [Hg Hf].
  pose proof (run_copies L num ws G OK HB e W W' c (p, q) cs (or_intror Hd) Hg Hf H (conj Hp Hq) Hc) as E.
  assert (K : forall l, wt3 L e l = volume L l) by (intros l; unfold wt3, wt, volume, coord; destruct He as [-> | ->]; reflexivity).
  rewrite (sumR_ext (wt3 L e) (volume L)), (sumR_ext (fun l' => (wt3 L e l' * val L num W c l')%R) (fun l => (volume L l * at_rank L num W c l)%R)) in E by (intros; rewrite K; reflexivity).
  assert (fac e c (length cs) = k) as Ek by (unfold k; destruct He as [-> | ->]; destruct c; try discriminate Hf; reflexivity). rewrite Ek in E. exact E.
Qed.
Print Assumptions C44_weighted_sum.
(* Nothing else is changed. *)
Theorem C44_rest_unchanged : forall V (A : rarith V) L num ws G e W W' c p q, layout_ok L -> box L num ws G ->
  e = SyncTangENormB \/ e = SyncJf \/ e = SyncRho -> run_phases V A ws G e (phases e) W W' -> inside L p -> (forall a, 0 <= at_ a q <= l_n L a (at_ a p) + 1) ->
  ~ synced e c \/ ~ holds L c p q -> at_rank L num W' c (p, q) = at_rank L num W c (p, q).
Proof.
  intros V A L num ws G e W W' c p q OK HB He H Hp Hm Hn. assert (Hg : ghosted e = false) by (destruct He as [-> |[-> | ->]]; reflexivity).
  apply (sync_keep A L num ws G OK HB e W W' c p q Hg H Hp Hm). destruct Hn as [Hn|Hn]; [left|right; exact Hn]. destruct (fam e c) eqn:Ef; [|reflexivity]. exfalso. apply Hn, synced_fam. split; assumption.
Qed.
Print Assumptions C44_rest_unchanged.
(* Four ranks in a square, joined to each other only: a node in the middle is shared by four ranks; its four rhof values add up. *)
Definition L4 : layout R := mk_layout R (fun a => match a with AZ => 1 | _ => 2 end) (fun _ => false) (fun _ _ => 1) (fun _ _ => 1%R).
Definition num4 (p : cell) : Z := at_ AX p + 2 * at_ AY p.
Definition G4 (r : Z) : cgrid R := mk_cgrid R (1, 1, 1) (fun _ => 1%R)
  (fun p => if p =? 12 then (if r mod 2 =? 1 then r - 1 else -1) else if p =? 14 then (if r mod 2 =? 0 then r + 1 else -1)
            else if p =? 10 then (if 2 <=? r then r - 2 else -1) else if p =? 16 then (if r <? 2 then r + 2 else -1) else -1).
Definition middle : list (cell * cell) := [((0, 0, 0), (2, 2, 1)); ((1, 0, 0), (1, 2, 1)); ((0, 1, 0), (2, 1, 1)); ((1, 1, 0), (1, 1, 1))].
Lemma L4_ok : layout_ok L4.
Proof. split; [intros [| |]; cbn; lia|intros a i _; cbn; lia]. Qed.
Lemma box4 : box L4 num4 4 G4.
Proof.
  unfold box, inside, num4.
  assert (I : forall p, (forall a, 0 <= at_ a p < l_p L4 a) -> p = (0, 0, 0) \/ p = (1, 0, 0) \/ p = (0, 1, 0) \/ p = (1, 1, 0)).
  { intros [[x y] z] H. pose proof (H AX). pose proof (H AY). pose proof (H AZ). cbn in *. assert (x = 0 \/ x = 1) as [-> | ->] by lia; assert (y = 0 \/ y = 1) as [-> | ->] by lia; assert (z = 0) as -> by lia; tauto. }
  split; [|split; [|split; [|split; [|split]]]].
  - intros p H. destruct (I p H) as [->|[->|[->| ->]]]; cbn; lia.
  - intros p q H H' E. destruct (I p H) as [->|[->|[->| ->]]]; destruct (I q H') as [->|[->|[->| ->]]]; cbn in E; try reflexivity; lia.
  - intros r Hr. assert (r = 0 \/ r = 1 \/ r = 2 \/ r = 3) as [-> |[-> |[-> | ->]]] by lia; [exists (0, 0, 0)|exists (1, 0, 0)|exists (0, 1, 0)|exists (1, 1, 0)]; (split; [intros [| |]; cbn; lia|reflexivity]).
  - reflexivity.
  - reflexivity.
  - intros p a s H [-> | ->]; destruct (I p H) as [->|[->|[->| ->]]]; destruct a; cbn; lia.
Qed.
Lemma middle_copies c : c = Rhof \/ c = Rhob -> copies_of L4 c ((0, 0, 0), (2, 2, 1)) middle.
Proof.
  intros Hc. split; [unfold middle; repeat (constructor; [cbn; intuition discriminate|]); constructor|]. intros [[[x y] z] [[i j] k]]. split.
  - unfold middle. cbn [In]. intros Q. repeat (destruct Q as [Q|Q]; [injection Q as <- <- <- <- <- <-; split; [intros [| |]; cbn; lia|]; split; [destruct Hc as [-> | ->]; intros [| |]; cbn; lia|intros [| |]; reflexivity]|]). destruct Q.
  - intros (H1 & H2 & H3). pose proof (H1 AX) as X1. pose proof (H1 AY) as Y1. pose proof (H1 AZ) as Z1. pose proof (H3 AX) as X3. pose proof (H3 AY) as Y3. pose proof (H3 AZ) as Z3. cbn [fst snd at_ l_p L4] in X1, Y1, Z1. unfold place in *. cbn [l_per L4 fst snd at_] in X3, Y3, Z3.
    assert (z = 0) as -> by lia. assert (x = 0 \/ x = 1) as [-> | ->] by lia; assert (y = 0 \/ y = 1) as [-> | ->] by lia; cbn -[Z.add] in X3, Y3, Z3; change (before (fun _ : Z => 1) (Pos.to_nat 1)) with 1 in *; unfold middle; cbn [In];
      [left|right; right; left|right; left|right; right; right; left]; match goal with |- (_, (?u, ?v, ?w)) = _ => assert (i = u) as -> by lia; assert (j = v) as -> by lia; assert (k = w) as -> by lia; reflexivity end.
Qed.
Example C44_example : forall W W', run_phases R Rarith 4 G4 SyncRho (phases SyncRho) W W' ->
  (forall l, In l middle -> at_rank L4 num4 W Rhof l = INR (S (Z.to_nat (num4 (fst l))))) ->
  (forall l, In l middle -> at_rank L4 num4 W' Rhof l = 10%R).
Proof.
  intros W W' H HW. assert (E0 : at_rank L4 num4 W' Rhof ((0, 0, 0), (2, 2, 1)) = 10%R).
  { pose proof (C44_weighted_sum L4 num4 4 G4 SyncRho Rhof W W' (0, 0, 0) (2, 2, 1) middle L4_ok box4 ltac:(intros; cbn; lra) ltac:(right; reflexivity) ltac:(cbn; tauto) H ltac:(intros [| |]; cbn; lia) ltac:(intros [| |]; cbn; lia) (middle_copies Rhof (or_introl eq_refl))) as E.
    cbv zeta in E. rewrite (sumR_ext (fun l => (volume L4 l * at_rank L4 num4 W Rhof l)%R) (fun l => INR (S (Z.to_nat (num4 (fst l)))))) in E by (intros l Hl; rewrite (HW l Hl); unfold volume; cbn [l_d L4]; lra).
    rewrite (sumR_ext (volume L4) (fun _ => 1%R)), sumR_one in E by (intros; unfold volume; cbn [l_d L4]; lra). unfold middle in E. cbn [sumR length fst] in E. unfold num4 in E. cbn [at_] in E. change (Z.to_nat (0 + 2 * 0)) with 0%nat in E. change (Z.to_nat (1 + 2 * 0)) with 1%nat in E. change (Z.to_nat (0 + 2 * 1)) with 2%nat in E. change (Z.to_nat (1 + 2 * 1)) with 3%nat in E. cbn [INR] in E.
    change (at_rank L4 num4 W' Rhof ((0, 0, 0), (2, 2, 1))%Z * (1 + 1 + 1 + 1) = (1 + 1 + 1 + 1) * (1 + (1 + 1 + (1 + 1 + 1 + (1 + 1 + 1 + 1 + 0)))))%R in E. lra. }
  intros l Hl. rewrite <- E0. symmetry. destruct l as [p q]. destruct (middle_copies Rhof (or_introl eq_refl)) as [_ Hc]. apply Hc in Hl. destruct Hl as (H1 & H2 & H3).
  refine (proj2 (C44_copies_agree R Rarith L4 num4 4 G4 SyncRho Rhof _ _ L4_ok box4 ltac:(cbn; tauto) W) W' (0, 0, 0) (2, 2, 1) p q H _ _ H1 H2 H3).
  - intros; cbn; lra.
  - intros; cbn; lra.
  - intros [| |]; cbn; lia.
  - intros [| |]; cbn; lia.
Qed.
