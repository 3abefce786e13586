(* C16 - C18: mover bookkeeping, removal by back-filling, boundary exchange. *)
Require Import Reals Lra QArith.
Require Import ZArith List Bool Lia ZifyBool Permutation Sorting.Sorted.
Require Import Verif.FloatModel Verif.VoxelModel Verif.DistributeModel Verif.SortModel Verif.SortProofs.
Require Import Verif.ParticleModel Verif.ParticleSpec.
Require Import Verif.MoverModel Verif.MoverProofs Verif.RemoveProofs Verif.BoundaryProofs Verif.AdvanceProofs.
Import ListNotations.
Open Scope Z_scope.

(* ---- C16 ---- *)

(* hit k = Some m: particle k ended its move at a domain boundary and its mover is m; idx m is the
   particle index stored in a mover; ws: the mover stores of all pipelines in the order in which
   they reach memory (any interleaving); mem: the mover array before.  Afterwards the first nm
   entries of the array are the movers L: strictly increasing indices, at most max_nm of them;
   together with the ignored particles they are all the particles that hit; nothing past the
   capacity is written. *)
Theorem C16_mover_list : forall {M} (hit : Z -> option M) (idx : M -> Z) c np max_nm P mem ws,
  0 <= np < 2 ^ 31 -> 0 <= max_nm < 2 ^ 31 -> 1 <= P < 2 ^ 31 ->
  (forall k m, hit k = Some m -> idx m = k) ->
  Permutation ws (flat_map (seg_writes hit c np max_nm P) (zrange 0 (P + 1))) ->
  exists L, let '(mem', nm) := advance_movers hit c np max_nm P mem ws in
    let ignored := flat_map (fun r => snd (seg_run hit c np max_nm P r)) (zrange 0 (P + 1)) in
    nm = Z.of_nat (length L) /\ nm <= max_nm /\
    (forall j, (j < length L)%nat -> mem' (Z.of_nat j) = nth_error L j) /\
    StronglySorted Z.lt (map idx L) /\
    Permutation (map idx L ++ ignored) (filter (fun k => match hit k with Some _ => true | None => false end) (zrange 0 np)) /\
    (forall j, max_nm <= j -> mem' j = mem j).
Proof.
  intros M hit idx c np max_nm P mem ws H1 H2 H3 HI HW. exists (kept_all hit c np max_nm P).
  pose proof (advance_movers_spec hit c np max_nm P H1 H2 H3 mem ws HW) as A.
  destruct (advance_movers hit c np max_nm P mem ws) as [mem' nm]. cbv zeta. destruct A as (A1 & A2 & A3 & A4).
  destruct (kept_sorted hit c np max_nm P H1 H2 H3 idx HI) as (_ & S).
  pose proof (kept_lost_perm hit c np max_nm P H1 H2 H3 idx HI) as Q.
  repeat split; assumption.
Qed.
Print Assumptions C16_mover_list.

(* The sub-buffers: every store is inside the array and no two stores (of any pipelines) hit the
   same entry; and the host, when it has room for its stragglers, never ignores one. *)
Theorem C16_segments : forall {M} (hit : Z -> option M) c np max_nm P,
  0 <= np < 2 ^ 31 -> 0 <= max_nm < 2 ^ 31 -> 1 <= P < 2 ^ 31 ->
  let ws := flat_map (seg_writes hit c np max_nm P) (zrange 0 (P + 1)) in
  (forall i m, In (i, m) ws -> 0 <= i < max_nm) /\ NoDup (map fst ws) /\
  (np mod 16 <= max_nm -> snd (seg_run hit c np max_nm P P) = []).
Proof.
  intros M hit c np max_nm P H1 H2 H3. cbv zeta. split; [|split].
  - intros i m H. apply (writes_bounds hit c np max_nm P H2 H3 i m H).
  - apply all_nodup; assumption.
  - intros H. apply (host_never_ignores hit c np max_nm P H1 H2 H3 H).
Qed.
Print Assumptions C16_segments.

(* 40 particles, 3 pipelines + host, 12 movers; every third particle hits.  Pipelines 0 and 1 have
   16 particles and 0 and 4 movers... *)
Example C16_example :
  let hit k := if k mod 3 =? 0 then Some k else None in
  let ws := flat_map (seg_writes hit false 40 12 3) (zrange 0 4) in
  let '(mem, nm) := advance_movers hit false 40 12 3 (fun _ => None) ws in
  (nm, map mem (zrange 0 nm), flat_map (fun r => snd (seg_run hit false 40 12 3 r)) (zrange 0 4)) =
  (3, [Some 33; Some 36; Some 39], [0; 3; 6; 9; 12; 15; 18; 21; 24; 27; 30]).
Proof. vm_compute. reflexivity. Qed.
Example C16_example_room :
  let hit k := if k mod 3 =? 0 then Some k else None in
  let ws := flat_map (seg_writes hit false 40 40 3) (zrange 0 4) in
  let '(mem, nm) := advance_movers hit false 40 40 3 (fun _ => None) (rev ws) in
  (nm, map mem (zrange 0 nm)) = (14, map (fun k => Some (3 * k)) (zrange 0 14)).
Proof. vm_compute. reflexivity. Qed.

(* ---- C17 ---- *)

(* the particles at the listed positions, last position first *)
Theorem C17_backfill_removal : forall {A} (ps : list A) idx,
  StronglySorted Z.lt idx -> (forall i, In i idx -> 0 <= i < Z.of_nat (length ps)) ->
  exists gone kept, remove_movers ps idx = Some (gone, kept) /\
    map Some gone = map (fun i => nth_error ps (Z.to_nat i)) (rev idx) /\
    Permutation ps (gone ++ kept) /\
    Z.of_nat (length kept) = Z.of_nat (length ps) - Z.of_nat (length idx).
Proof.
  intros A ps idx HS HB. unfold remove_movers.
  destruct (remove_loop_spec (rev idx) ps [] (Slt_rev _ HS)) as (g & ps' & E & Pk & P & L).
  { intros i Hi. apply HB, in_rev, Hi. }
  destruct (remove_movers_spec ps idx HS HB) as (p2 & E2 & _ & L2). unfold remove_movers in E2. rewrite E in E2. injection E2 as _ E2.
  exists g, ps'. split; [exact E|]. split; [exact Pk|]. split; [exact P|]. subst p2. exact L2.
Qed.
Print Assumptions C17_backfill_removal.

(* Which particles remain: those at unlisted positions. *)
Theorem C17_survivors : forall {A} (ps : list A) idx gone kept,
  StronglySorted Z.lt idx -> (forall i, In i idx -> 0 <= i < Z.of_nat (length ps)) ->
  remove_movers ps idx = Some (gone, kept) ->
  Permutation kept (flat_map (fun k => if existsb (Z.eqb (Z.of_nat k)) idx then []
                                       else match nth_error ps k with Some x => [x] | None => [] end) (seq 0 (length ps))).
Proof.
  intros A ps idx gone kept HS HB E. destruct (remove_movers_spec ps idx HS HB) as (p2 & E2 & P & _).
  rewrite E in E2. injection E2 as _ ->. exact P.
Qed.
Print Assumptions C17_survivors.

(* The leftovers removed by advance.cc deposit, in that order, at the voxel they left (i >> 3). *)
Theorem C17_leftovers_deposit : forall {V} (K : num V) nx ny nz q r8V ps idx,
  StronglySorted Z.lt idx -> (forall i, In i idx -> 0 <= i < Z.of_nat (length ps)) ->
  exists gone kept, drop_leftovers K nx ny nz q r8V ps idx =
      Some (flat_map (fun p => rhob_adds K nx ny nz q r8V (mkp (pd p) (pi p / 8) (pu p) (pw p))) gone, kept) /\
    map Some gone = map (fun i => nth_error ps (Z.to_nat i)) (rev idx) /\ Permutation ps (gone ++ kept).
Proof.
  intros V K nx ny nz q r8V ps idx HS HB. destruct (C17_backfill_removal ps idx HS HB) as (g & k & E & Pk & P & _).
  exists g, k. unfold drop_leftovers. rewrite E. split; [|split; assumption]. f_equal. f_equal.
  rewrite !flat_map_concat_map. f_equal. apply map_ext. intros p. unfold unshift. rewrite Z.shiftr_div_pow2 by lia. reflexivity.
Qed.
Print Assumptions C17_leftovers_deposit.

(* The order of the indices matters: with a repeated index a particle that was not listed goes. *)
Theorem C17_unsorted_refuted : exists (ps : list Z) idx gone kept,
  (forall i, In i idx -> 0 <= i < Z.of_nat (length ps)) /\
  remove_movers ps idx = Some (gone, kept) /\ exists x, In x gone /\ ~ In (Some x) (map (fun i => nth_error ps (Z.to_nat i)) idx).
Proof.
  exists [10; 11; 12], [0; 0], [10; 12], [11]. split; [cbn; intros i Hi; lia|]. split; [reflexivity|].
  exists 12. split; [right; left; reflexivity|]. cbn. intros [H|[H|[]]]; discriminate.
Qed.
Print Assumptions C17_unsorted_refuted.

Example C17_example : remove_movers [10; 11; 12; 13; 14; 15] [1; 4; 5] = Some ([15; 14; 11], [10; 13; 12]).
Proof. reflexivity. Qed.

(* ---- C18 ---- *)

(* Packing: with sorted in-range movers whose particles have a defined fate, boundary_p gives each
   mover exactly one fate - outs lists them species by species, in program order (movers last to
   first) - and keeps exactly the particles that had no mover. *)
Theorem C18_every_mover_has_one_fate : forall {V} (K : num V) b ss,
  Forall (fun s => StronglySorted Z.lt (map m_i (s_pm s)) /\
                   forall i, In i (map m_i (s_pm s)) -> 0 <= i < Z.of_nat (length (s_p s))) ss ->
  (forall k s m, nth_error ss k = Some s -> In m (s_pm s) -> fate_of K b (Z.of_nat k) (s_p s) m <> None) ->
  exists outs ss', pack_species K b 0 ss = Some (concat outs, ss') /\ length outs = length ss /\ length ss' = length ss /\
    (forall k s, nth_error ss k = Some s -> exists fs s', nth_error outs k = Some fs /\ nth_error ss' k = Some s' /\
       map Some fs = map (fate_of K b (Z.of_nat k) (s_p s)) (rev (s_pm s)) /\
       s_pm s' = [] /\ s_q s' = s_q s /\ Permutation (s_p s') (others (s_p s) (map m_i (s_pm s)))).
Proof.
  intros V K b ss HM HF. destruct (pack_species_spec K b ss 0 HM HF) as (outs & ss' & E & P).
  exists outs, ss'. split; [exact E|]. clear E HM HF.
  assert (G : forall sp ss outs ss', packed K b sp ss outs ss' -> length outs = length ss /\ length ss' = length ss /\
    (forall k s, nth_error ss k = Some s -> exists fs s', nth_error outs k = Some fs /\ nth_error ss' k = Some s' /\
       map Some fs = map (fate_of K b (sp + Z.of_nat k) (s_p s)) (rev (s_pm s)) /\
       s_pm s' = [] /\ s_q s' = s_q s /\ Permutation (s_p s') (others (s_p s) (map m_i (s_pm s))))).
  { clear. induction 1 as [|sp s ss fs ps' outs ss' Ef P H (I1 & I2 & I3)]; [split; [reflexivity|split; [reflexivity|intros []; discriminate]]|].
    split; [cbn; lia|]. split; [cbn; lia|]. intros [|k] s0 Hk; cbn [nth_error] in *.
    - injection Hk as <-. exists fs. eexists. rewrite Z.add_0_r. repeat (split; [reflexivity|]). split; [exact Ef|].
      repeat (split; [reflexivity|]). exact P.
    - destruct (I3 k s0 Hk) as (f0 & s' & H1 & H2 & H3 & H4). exists f0, s'. split; [exact H1|]. split; [exact H2|]. split; [|exact H4].
      replace (sp + Z.of_nat (S k)) with (sp + 1 + Z.of_nat k) by lia. exact H3. }
  apply (G 0 ss outs ss' P).
Qed.
Print Assumptions C18_every_mover_has_one_fate.

(* When a fate is defined and what it is: absorbed at the voxel it left; sent through the face it
   hit, which is shared, on the matching opposite face (dir) of the voxel that the table names,
   numbered relative to the owner of that face; everything else unchanged. *)
Theorem C18_fates : forall {V} (K : num V) b sp (p : part V) m v f, 0 <= v -> 0 <= f < 6 -> pi p = 8 * v + f ->
  0 <= mrangeh (b_mesh b) ->
  forall nn, nbr_at (b_mesh b) v f = Some nn ->
  let here := mkp (pd p) v (pu p) (pw p) in
  (nn = -2 -> dispatch K b sp p m = Some (Absorbed here)) /\
  (0 <= nn -> ~ (mrangel (b_mesh b) <= nn <= mrangeh (b_mesh b)) -> nn <= nthz (b_range b) (b_size b) -> shared b f = true ->
   exists ij, dispatch K b sp p m = Some (Sent f ij) /\ ij_sp ij = sp /\ ij_disp ij = m_disp m /\
     pu (ij_p ij) = pu p /\ pw (ij_p ij) = pw p /\
     pi (ij_p ij) = nn - nthz (b_range b) (nthz (b_bc b) f) /\
     pd (ij_p ij) = vset (pd p) (face_axis f) (if face_high f then n_opp K (n_one K) else n_one K)) /\
  (nn <= -3 -> - nn - 3 < b_nb b -> dispatch K b sp p m = Some (Custom (- nn - 3) here m f)) /\
  (nn <= -3 -> b_nb b <= - nn - 3 -> dispatch K b sp p m = Some (Dropped here)).
Proof.
  intros V K b sp p m v f Hv Hf Hp HR nn En. cbv zeta. unfold dispatch. cbv zeta. rewrite Hp.
  assert (E1 : Z.shiftr (8 * v + f) 3 = v) by (rewrite Z.shiftr_div_pow2 by lia; change (2 ^ 3) with 8; Z.to_euclidean_division_equations; lia).
  assert (E2 : Z.land (8 * v + f) 7 = f).
  { change 7 with (Z.ones 3). rewrite Z.land_ones by lia. change (2 ^ 3) with 8. Z.to_euclidean_division_equations; lia. }
  rewrite E1, E2, En. unfold absorb_particles. split; [|split; [|split]].
  - intros ->. reflexivity.
  - intros H0 H1 H2 Hs. replace (nn =? -2) with false by lia.
    replace ((0 <=? nn) && (nn <? mrangel (b_mesh b)) || (mrangeh (b_mesh b) <? nn) && (nn <=? nthz (b_range b) (b_size b))) with true by lia.
    rewrite Hs. replace (f <? 6) with true by lia. cbn [andb]. eexists. split; [reflexivity|].
    cbn [ij_p ij_sp ij_disp pu pw pi pd]. repeat (split; [reflexivity|]).
    assert (C : f = 0 \/ f = 1 \/ f = 2 \/ f = 3 \/ f = 4 \/ f = 5) by lia.
    destruct C as [-> |[-> |[-> |[-> |[-> | ->]]]]]; reflexivity.
  - intros H0 H1. replace (nn =? -2) with false by lia.
    replace ((0 <=? nn) && (nn <? mrangel (b_mesh b)) || (mrangeh (b_mesh b) <? nn) && (nn <=? nthz (b_range b) (b_size b))) with false by lia.
    replace ((0 <=? - nn - 3) && (- nn - 3 <? b_nb b)) with true by lia. reflexivity.
  - intros H0 H1. replace (nn =? -2) with false by lia.
    replace ((0 <=? nn) && (nn <? mrangel (b_mesh b)) || (mrangeh (b_mesh b) <? nn) && (nn <=? nthz (b_range b) (b_size b))) with false by lia.
    replace ((0 <=? - nn - 3) && (- nn - 3 <? b_nb b)) with false by lia. reflexivity.
Qed.
Print Assumptions C18_fates.

(* Absorbed particles deposit, in program order, their bound charge (C13_bound_charge) at the voxel
   they left, and no other fate deposits anything. *)
Theorem C18_absorbed_charge : forall {V} (K : num V) nx ny nz q r8V (l1 l2 : list fate) p,
  absorbed_adds K nx ny nz q r8V (l1 ++ Absorbed p :: l2) =
    absorbed_adds K nx ny nz q r8V l1 ++ rhob_adds K nx ny nz q r8V p ++ absorbed_adds K nx ny nz q r8V l2 /\
  ((forall p, ~ In (Absorbed p) l1) -> absorbed_adds K nx ny nz q r8V l1 = []).
Proof.
  intros V K nx ny nz q r8V l1 l2 p. unfold absorbed_adds. split; [rewrite flat_map_app; reflexivity|].
  intros H. induction l1 as [|x l IH]; [reflexivity|]. cbn [flat_map]. rewrite IH by (intros p0 Hp; apply (H p0); right; exact Hp).
  destruct x; try reflexivity. exfalso. eapply H. left. reflexivity.
Qed.
Print Assumptions C18_absorbed_charge.

(* A table that agrees with the topology: behind a shared face lies a voxel of its owner.  Then the
   injector's voxel is one of the owner's voxels 0 .. range[s+1]-range[s]-1. *)
Theorem C18_sent_to_owner : forall {V} (K : num V) b sp (p : part V) m f ij,
  0 <= mrangeh (b_mesh b) ->
  (forall v f nn, 0 <= f < 6 -> shared b f = true -> nbr_at (b_mesh b) v f = Some nn -> 0 <= nn ->
     ~ (mrangel (b_mesh b) <= nn <= mrangeh (b_mesh b)) ->
     let s := nthz (b_bc b) f in nthz (b_range b) s <= nn < nthz (b_range b) (s + 1)) ->
  dispatch K b sp p m = Some (Sent f ij) ->
  let s := nthz (b_bc b) f in
  0 <= s < b_size b /\ s <> b_rank b /\
  0 <= pi (ij_p ij) < nthz (b_range b) (s + 1) - nthz (b_range b) s.
Proof.
  intros V K b sp p m f ij HR HT E. destruct (sent_inv K b sp p m f ij HR E) as (_ & Hf & Hs & nn & En & _ & H0 & H1 & _ & _ & _ & _ & Ei & _).
  cbv zeta. specialize (HT _ f nn Hf Hs En H0 H1). cbv zeta in HT. unfold shared in Hs. lia.
Qed.
Print Assumptions C18_sent_to_owner.

(* The exchange.  Ranks 0..n-1, each knowing its own number and the world size; partners across a
   shared face agree (reciprocal).  The injectors received over all ranks and shared faces are
   exactly the injectors sent, each once; rank r gets on face f what its partner sent through the
   opposite face. *)
Theorem C18_exchange : forall {V} n B (out : Z -> list (fate (V := V))),
  (forall r f, 0 <= r < n -> 0 <= f < 6 -> b_rank (B r) = r /\ b_size (B r) = n /\
     (shared (B r) f = true -> nthz (b_bc (B (nthz (b_bc (B r)) f))) ((f + 3) mod 6) = r)) ->
  let pairs := filter (fun '(r, f) => shared (B r) f) (list_prod (zrange 0 n) [0; 1; 2; 3; 4; 5]) in
  Permutation (flat_map (fun '(r, f) => received B out r f) pairs) (flat_map (fun '(r, f) => sends f (out r)) pairs) /\
  (forall r f, 0 <= r < n -> 0 <= f < 6 -> shared (B r) f = true ->
     received B out r f = sends ((f + 3) mod 6) (out (nthz (b_bc (B r)) f))).
Proof.
  intros V n B out R. split; [exact (exchange_conserves n B out R)|].
  intros r f Hr Hf Hs. exact (received_eq n B out r f R Hr Hf Hs).
Qed.
Print Assumptions C18_exchange.

(* Injection: species k gets, appended in injection order, what move_p makes of each injector of
   species k; nothing else changes; the movers added point at the new particles, in order, so the
   mover list is again sorted and in range. *)
Theorem C18_injection : forall {V} (K : num V) fuel g l ss ss' log,
  inject_all K fuel g ss l = Some (ss', log) ->
  length ss' = length ss /\
  (forall k s, nth_error ss k = Some s -> exists s' qs, nth_error ss' k = Some s' /\
     let mine := filter (fun ij => ij_sp ij =? Z.of_nat k) l in
     s_q s' = s_q s /\ s_p s' = s_p s ++ qs /\
     Forall2 (fun ij p => exists st disp lg, move_p K fuel g (s_q s) (ij_p ij) (ij_disp ij) = MDone st p disp lg) mine qs /\
     (length (s_pm s') <= length (s_pm s) + length mine)%nat /\
     (movers_ok s -> movers_ok s')).
Proof.
  intros V K fuel g l ss ss' log E. destruct (inject_all_spec K fuel g l ss ss' log E) as (L & H). split; [exact L|].
  intros k s Hk. destruct (H k s Hk) as (s' & Hk' & Q & (qs & P1 & P2) & P3 & P4). exists s', qs.
  split; [exact Hk'|]. cbv zeta. split; [exact Q|]. split; [exact P1|]. split; [exact P2|]. split; [exact P3|exact P4].
Qed.
Print Assumptions C18_injection.

(* ... and it succeeds (exact arithmetic) for injectors with valid species, position and voxel. *)
Theorem C18_injection_succeeds : forall fuel g real k l ss,
  table_ok g real -> (3 * S k < fuel)%nat ->
  Forall (fun ij => 0 <= ij_sp ij < Z.of_nat (length ss) /\ in_cell (pd (ij_p ij)) /\ real (pi (ij_p ij)) /\
                    forall a, (Rabs (vget (ij_disp ij) a) <= INR k)%R) l ->
  exists ss' log, inject_all Rnum fuel g ss l = Some (ss', log).
Proof. intros. eapply inject_total; eassumption. Qed.
Print Assumptions C18_injection_succeeds.

(* Particle count over the world after one round = before - absorbed - custom - dropped + what the
   custom handlers re-injected. *)
Theorem C18_world_count : forall {V} (K : num V) n B (out : Z -> list (fate (V := V))) (SS SS' SS'' : Z -> list (spec (V := V)))
      (outs : Z -> list (list (fate (V := V)))) (loc : Z -> list (injector (V := V))) fuel log,
  reciprocal n B ->
  (forall r, 0 <= r < n ->
     Forall movers_ok (SS r) /\ packed K (B r) 0 (SS r) (outs r) (SS' r) /\ out r = concat (outs r) /\
     (forall f ij, In (Sent f ij) (out r) -> 0 <= f < 6 /\ shared (B r) f = true) /\
     inject_all K fuel (b_mesh (B r)) (SS' r) (injection_order (B r) (loc r) (received B out r)) = Some (SS'' r, log r)) ->
  sumZ (map (fun r => total_np (SS'' r)) (zrange 0 n)) =
  sumZ (map (fun r => total_np (SS r)) (zrange 0 n))
  - sumZ (map (fun r => count (fun x => negb (is_sent x)) (out r)) (zrange 0 n))
  + sumZ (map (fun r => Z.of_nat (length (loc r))) (zrange 0 n)).
Proof. intros V K n B out SS SS' SS'' outs loc fuel log R H. exact (world_count K n B out SS SS' SS'' outs loc fuel log R H). Qed.
Print Assumptions C18_world_count.

(* Buffers: each send buffer and the local injector buffer hold one entry per mover of all species,
   and never more than that many entries are put there (handlers return at most one injector). *)
Theorem C18_buffers : forall {V} (K : num V) b ss outs ss' pbc f,
  packed K b 0 ss outs ss' -> (forall k p m g, (length (pbc k p m g) <= 1)%nat) ->
  let nm := fold_right (fun s n => (length (s_pm s) + n)%nat) 0%nat ss in
  (length (sends f (concat outs)) <= nm)%nat /\ (length (locals pbc (concat outs)) <= nm)%nat.
Proof.
  intros V K b ss outs ss' pbc f P HB. cbv zeta. pose proof (packed_length K b 0 ss outs ss' P) as L.
  unfold total_nm in L. rewrite <- L. split; [apply sends_le|apply locals_le, HB].
Qed.
Print Assumptions C18_buffers.

(* Capacities after the resize: room for every particle and mover that can be injected, as long as
   the enlarged size fits an int (np+inj <= 1636178017); the enlargement is exactly 5n/16. *)
Theorem C18_capacity : forall np max_np nm max_nm inj, 0 <= np -> 0 <= nm -> 0 <= inj ->
  np + inj <= 1636178017 -> nm + inj <= 1636178017 ->
  np + inj <= new_max_np np max_np inj <= Z.max max_np 2147483647 /\
  nm + inj <= new_max_nm nm max_nm inj <= Z.max max_nm 2147483647 /\
  (max_np < np + inj -> new_max_np np max_np inj = (np + inj) + 5 * (np + inj) / 16).
Proof.
  intros np max_np nm max_nm inj H1 H2 H3 H4 H5.
  pose proof (new_max_np_enough np max_np inj H1 H3 H4). pose proof (new_max_nm_enough nm max_nm inj H2 H3 H5).
  split; [lia|]. split; [lia|]. intros H6. unfold new_max_np. cbv zeta. replace (max_np <? np + inj) with true by lia.
  apply grow_eq. lia.
Qed.
Print Assumptions C18_capacity.
Theorem C18_capacity_overflow_refuted : 2147483647 < new_max_np 1636178018 0 0.
Proof. vm_compute. reflexivity. Qed.
Print Assumptions C18_capacity_overflow_refuted.

(* Two ranks joined through both x faces (periodic), one cell each (3x3x3 voxels, cell 13). *)
Definition ex_nbr (lo : Z) (other : Z) : list Z :=
  let t := repeat (-1) 162 in
  let t := put t (6 * 13 + 0) (other + 13) in let t := put t (6 * 13 + 3) (other + 13) in
  put (put t (6 * 13 + 1) (-2)) (6 * 13 + 4) (-3).
Definition ex_b (r : Z) : bgrid :=
  if r =? 0 then mk_bgrid (mk_mesh (ex_nbr 0 27) 0 26) [1; -1; -1; 1; -1; -1] [0; 27; 54] 0 2 1
  else mk_bgrid (mk_mesh (ex_nbr 27 0) 27 53) [0; -1; -1; 0; -1; -1] [0; 27; 54] 1 2 1.
Example C18_example_reciprocal : reciprocal 2 ex_b.
Proof.
  intros r f Hr Hf. assert (C : r = 0 \/ r = 1) by lia.
  assert (D : f = 0 \/ f = 1 \/ f = 2 \/ f = 3 \/ f = 4 \/ f = 5) by lia.
  destruct C as [-> | ->]; destruct D as [-> |[-> |[-> |[-> |[-> | ->]]]]]; vm_compute; repeat split; discriminate || reflexivity.
Qed.
(* rank 0: of four particles, 1 was absorbed, 2 leaves through the high x face, 3 goes to handler 0 *)
Definition ex_s : spec (V := Q) :=
  let z := mkv 0%Q 0%Q 0%Q in
  mk_spec 1%Q [mkp z 13 z 1%Q; mkp z (8 * 13 + 1) z 2%Q; mkp (mkv 1 0 0)%Q (8 * 13 + 3) z 3%Q; mkp z (8 * 13 + 4) z 4%Q]
    [mk_mover z 1; mk_mover (mkv (1#4) 0 0)%Q 2; mk_mover z 3].
Example C18_example : match pack_species Qnum (ex_b 0) 0 [ex_s] with
  | Some (l, ss) =>
      map s_p ss = [[mkp (mkv 0 0 0)%Q 13 (mkv 0 0 0)%Q 1%Q]] /\ length l = 3%nat /\
      sends 3 l = [mk_inj (mkp (mkv (-1) 0 0)%Q 13 (mkv 0 0 0)%Q 3%Q) (mkv (1#4) 0 0)%Q 0] /\
      received ex_b (fun r => if r =? 0 then l else []) 1 0 = sends 3 l /\
      match inject_all Qnum 9 (b_mesh (ex_b 1)) [mk_spec 1%Q [] []] (sends 3 l) with
      | Some (ss, _) => map s_p ss = [[mkp (mkv (-1#2) 0 0)%Q 13 (mkv 0 0 0)%Q 3%Q]]
      | None => False end
  | None => False end.
Proof. vm_compute. repeat split. Qed.

(* Where the code relies on the topology: a neighbour entry equal to range[world_size] (one past the
   last voxel of the world) is accepted and sent as voxel number nv of the last rank; and an entry
   of another rank behind a face that is not shared has no send buffer (None: uninitialized). *)
Theorem C18_past_the_end_refuted : exists b (p : part Q) m ij,
  dispatch Qnum b 0 p m = Some (Sent 3 ij) /\
  pi (ij_p ij) = nthz (b_range b) (b_size b) - nthz (b_range b) (nthz (b_bc b) 3).
Proof.
  exists (mk_bgrid (mk_mesh (put (ex_nbr 0 27) (6 * 13 + 3) 54) 0 26) [1; -1; -1; 1; -1; -1] [0; 27; 54] 0 2 1).
  exists (mkp (mkv 1 0 0)%Q (8 * 13 + 3) (mkv 0 0 0)%Q 3%Q), (mk_mover (mkv 0 0 0)%Q 0).
  eexists. split; vm_compute; reflexivity.
Qed.
Print Assumptions C18_past_the_end_refuted.
Theorem C18_unshared_face_refuted : exists b (p : part Q) m,
  nbr_at (b_mesh b) 13 3 = Some 40 /\ pi p = 8 * 13 + 3 /\ shared b 3 = false /\ dispatch Qnum b 0 p m = None.
Proof.
  exists (mk_bgrid (mk_mesh (ex_nbr 0 27) 0 26) [1; -1; -1; -1; -1; -1] [0; 27; 54] 0 2 1).
  exists (mkp (mkv 1 0 0)%Q (8 * 13 + 3) (mkv 0 0 0)%Q 3%Q), (mk_mover (mkv 0 0 0)%Q 0).
  repeat split; vm_compute; reflexivity.
Qed.
Print Assumptions C18_unshared_face_refuted.
