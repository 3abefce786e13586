(* C69: what the checkpt and restore functions of the objects of a simulation write and read *)
From Coq Require Import ZArith List Bool String Lia ZifyBool.
From Verif Require Import CheckptModel CheckptSpec CheckptProofs SaveModel SaveSpec SaveProofs SaveFile.
Import ListNotations.
Open Scope string_scope.
Open Scope list_scope.
Open Scope Z_scope.
Ltac Zify.zify_post_hook ::= idtac.

(* ---- C69 ----
   l: the objects of a simulation in the order of registration, pw: the saving process, pr: the restoring
   one, yw, yr: their symbol tables, alloc k: where the restoring process puts the k-th object, fresh:
   where it puts arrays, what: the types of the restore functions, extra: anything following in the file. *)
Theorem C69_round_trip : forall junk yw yr fresh alloc pw pr what l next,
  simulation yw yr pw what l -> process_ok pw -> fresh <> 0 -> (forall k, alloc k <> 0) -> is_word next ->
  (forall s, In s l -> agrees pw pr (sv_type s) = true) ->
  let old := map sv_node l in
  exists os cs rs fs, contents pw l = SOk os /\ checkpoint yw next os = Some cs /\
    (forall extra, load junk yr fresh pr what alloc (S (List.length l)) (flat cs ++ extra) = Ok (next, rs) (extra, O)) /\
    reanimate_all (map fst rs) rs = Some fs /\ List.length fs = List.length l /\
    forall k s, nth_error l k = Some s -> exists o1 o2, let n := sv_node s in
      nth_error rs k = Some (mkn (alloc k) (newsym yw yr (n_ck n)) (newsym yw yr (n_rs n)) (newsym yw yr (n_an n)) (n_id n), (sv_type s, o1)) /\
      sames (newptr alloc old) (id_of old) (newsym yw yr) (kept (sv_type s) (sv_obj s)) o1 /\
      nth_error fs k = Some (sv_type s, o2) /\
      sames (newptr alloc old) (id_of old) (newsym yw yr) (finally (sv_type s) (sv_obj s)) o2.
Proof.
  intros junk yw yr fresh alloc pw pr what l next H1 H2 H3 H4 H5 Ha old.
  destruct (saved_and_loaded junk yw yr fresh alloc pw pr what l next H1 H2 H3 H4 H5) as (os & cs & rs & fs & E1 & E2 & E3 & E4 & E5 & E6 & E7).
  exists os, cs, rs, fs. split; [exact E1|]. split; [exact E2|]. split.
  { intros extra. rewrite E3. rewrite (proj2 (forallb_forall _ l)); [reflexivity|exact Ha]. }
  split; [exact E4|]. split; [exact E6|]. exact E7.
Qed.
Print Assumptions C69_round_trip.
(* In another process - another rank or number of ranks, another number of pipelines - the restore stops
   with an error as soon as the first object that depends on it is read; never is it wrong silently. *)
Theorem C69_other_process : forall junk yw yr fresh alloc pw pr what l next,
  simulation yw yr pw what l -> process_ok pw -> fresh <> 0 -> (forall k, alloc k <> 0) -> is_word next ->
  (exists s, In s l /\ agrees pw pr (sv_type s) = false) ->
  exists os cs, contents pw l = SOk os /\ checkpoint yw next os = Some cs /\
    forall extra, load junk yr fresh pr what alloc (S (List.length l)) (flat cs ++ extra) = Fail.
Proof.
  intros junk yw yr fresh alloc pw pr what l next H1 H2 H3 H4 H5 (s & I & Ha).
  destruct (saved_and_loaded junk yw yr fresh alloc pw pr what l next H1 H2 H3 H4 H5) as (os & cs & rs & fs & E1 & E2 & E3 & _).
  exists os, cs. split; [exact E1|]. split; [exact E2|]. intros extra. rewrite E3.
  destruct (forallb _ l) eqn:F; [|reflexivity]. rewrite forallb_forall in F. rewrite (F s I) in Ha. discriminate Ha.
Qed.
Print Assumptions C69_other_process.
(* Every pointer a restored object holds leads to the restored object, whatever the type: what [same] says. *)
Theorem C69_members : forall ptr ident fn o o' m c, sames ptr ident fn o o' -> get m o = Some c ->
  exists c', get m o' = Some c' /\
    (forall b, c = CRaw b -> c' = CRaw b) /\ (forall q, c = CRef q -> c' = CRef (ptr q)) /\
    (forall q, c = CFref q -> c' = CFref (ident q)) /\ (forall a, c = CFun a -> c' = CFun (fn a)) /\
    (forall a s, c = CStr a s -> exists a', c' = CStr a' s /\ (a' = 0 <-> s = None)) /\
    (forall a al cap b, c = COwn a al cap [("", CRaw b)] -> exists a', c' = COwn a' al cap [("", CRaw b)] /\ (a' = 0 <-> cap = 0)).
Proof.
  intros ptr ident fn o o' m c S. induction S as [|n d d' l l' Hd Hl IH]; cbn [get]; intros G; [discriminate|].
  destruct (m =? n)%string; [|exact (IH G)]. injection G as ->. exists d'. split; [reflexivity|].
  inversion Hd; subst; repeat split; intros; try discriminate; try congruence.
  - match goal with K : COwn _ _ _ _ = COwn _ _ _ _ |- _ => injection K as <- <- <- -> end.
    match goal with K : sames _ _ _ [_] _ |- _ => inversion K; subst end.
    match goal with K : sames _ _ _ [] _ |- _ => inversion K; subst end.
    match goal with K : same _ _ _ (CRaw _) _ |- _ => inversion K; subst end. eexists. split; [reflexivity|assumption].
  - match goal with K : CStr _ _ = CStr _ _ |- _ => injection K as <- <- end. eexists. split; [reflexivity|assumption].
Qed.
Print Assumptions C69_members.
Lemma sames_inv ptr ident fn n c l o : sames ptr ident fn ((n, c) :: l) o ->
  exists c' l', o = (n, c') :: l' /\ same ptr ident fn c c' /\ sames ptr ident fn l l'.
Proof. intros H. inversion H; subst. do 2 eexists. split; [reflexivity|]. split; assumption. Qed.
Lemma same_own_inv ptr ident fn a al cap x bl c : same ptr ident fn (COwn a al cap (x :: bl)) c ->
  exists a' bl', c = COwn a' al cap bl' /\ sames ptr ident fn (x :: bl) bl'.
Proof. intros H. inversion H; subst. do 2 eexists. split; [reflexivity|assumption]. Qed.
(* The two spare material coefficients (sfa.cc:104) are not saved: the restored array ends behind the last. *)
Theorem C69_spare_coefficients : forall yw yr pw what l k s ptr ident fn o, simulation yw yr pw what l ->
  nth_error l k = Some s -> sv_type s = OFieldArray ->
  sames ptr ident fn (finally (sv_type s) (sv_obj s)) o ->
  exists a b a', let n_mc := int_at "n_mc" (params (sv_obj s)) in
    get "mc" (params (sv_obj s)) = Some (COwn a 128 (64 * (n_mc + 2)) [("", CRaw b)]) /\
    get "mc" (params o) = Some (COwn a' 128 (64 * n_mc) [("", CRaw b)]) /\ int_at "n_mc" (params o) = n_mc.
Proof.
  intros yw yr pw what l k s ptr ident fn o (_ & _ & Hs) E T S. destruct (Hs k s E) as (_ & _ & I & _). rewrite T in *.
  revert S. generalize dependent (sv_obj s). intros obj. cbn [finally instance]. intros (Hn & H & Hm) S.
  cbn [app] in H.
  apply is_a_cons in H. destruct H as (c1 & o1 & -> & M1 & H). apply is_a_cons in H. destruct H as (c2 & o2 & -> & M2 & H).
  apply is_a_cons in H. destruct H as (c3 & o3 & -> & (ap & bl & -> & Lb & Wa) & H).
  unfold params in *. cbn [get String.eqb Ascii.eqb Bool.eqb] in *.
  apply is_a_cons in Hm. destruct Hm as (d1 & b1 & -> & (am & b & E1 & Lm & _ & _ & _ & _) & Hm).
  apply is_a_cons in Hm. destruct Hm as (d2 & b2 & -> & (bn & -> & Ln) & Hm).
  apply is_a_cons in Hm. destruct Hm as (d3 & b3 & -> & (bd & -> & Ld) & Hm). apply is_a_nil in Hm. subst b3.
  unfold int_at in *. cbn [get String.eqb Ascii.eqb Bool.eqb] in *. subst d1.
  exists am, b. unfold kept in S. cbn [get put String.eqb Ascii.eqb Bool.eqb] in S.
  apply sames_inv in S. destruct S as (e1 & l1 & -> & _ & S). apply sames_inv in S. destruct S as (e2 & l2 & -> & _ & S).
  apply sames_inv in S. destruct S as (e3 & l3 & -> & Q & _). apply same_own_inv in Q. destruct Q as (a3 & bl3 & -> & Q).
  apply sames_inv in Q. destruct Q as (f1 & m1 & -> & P1 & Q). apply sames_inv in Q. destruct Q as (f2 & m2 & -> & P2 & _).
  apply same_own_inv in P1. destruct P1 as (a4 & bl4 & -> & P1). apply sames_inv in P1. destruct P1 as (g & m3 & -> & P1 & P3).
  inversion P1; subst. inversion P2; subst. inversion P3; subst.
  exists a4. cbn [get String.eqb Ascii.eqb Bool.eqb]. split; [reflexivity|]. split; [|reflexivity].
  do 2 f_equal. lia.
Qed.
Print Assumptions C69_spare_coefficients.

(* ---- a concrete simulation: one rank, one pipeline, two voxels, one material, one species with two
   particles, a pool of two generators; user_global begins with the address of the species ---- *)
Definition C69_yw : symbols := mk_symbols (fun a => if (500 <=? a) && (a <? 1000) then Some [a / 100; a mod 100 + 1] else None)
  (fun a => Some [47; 98]) (fun n => match n with [x; y] => x * 100 + y - 1 | _ => 0 end).
Definition C69_yr : symbols := mk_symbols (fun _ => None) (fun _ => None) (fun n => match n with [x; y] => 5000 + x * 100 + y - 1 | _ => 0 end).
Definition C69_types : list otype :=
  [OSerial; OThread; OCollective; ORng; ORng; ORngPool; OMp; OGrid; OVpic; OMain; OMaterial; OFieldArray; OSpecies].
Definition C69_code (t : otype) : Z :=
  match t with OSerial => 0 | OThread => 1 | OCollective => 2 | ORng => 3 | ORngPool => 4 | OMp => 5 | OGrid => 6 | OVpic => 7
             | OMain => 8 | OMaterial => 9 | OFieldArray => 10 | OSpecies => 11 | _ => 12 end.
Definition C69_what (a : Z) : option otype := find (fun t => a =? 5600 + C69_code t) C69_types.
Definition C69_alloc (k : nat) : Z := 70000 + 64 * Z.of_nat k.
Definition C69_at (k : nat) : Z := 1000 + 16 * Z.of_nat k.
Definition C69_p : process := mkproc 0 1 1 1.
Definition C69_e : env := mke 80 72 48 56 8 2 1.
Definition C69_zero (n : nat) : cell := CRaw (repeat 0 n).
Definition C69_array (a al : Z) (b : list Z) : cell := COwn a al (zlen b) [("", CRaw b)].
Definition C69_parts (t : otype) (i : nat) : block :=
  match t with
  | ORng => [("state", CRaw (repeat (Z.of_nat i) 1408)); ("n", CRaw (le 4 200)); ("pad", C69_zero 12)]
  | ORngPool => [("rng", COwn 2000 0 16 [("", CRef (C69_at 3)); ("", CRef (C69_at 4))]); ("n_rng", CRaw (le 4 2)); ("pad", C69_zero 4)]
  | OMp => let buf := COwn 2048 128 3 [("", CRaw [1; 2; 3])] in let none := COwn 0 128 0 [("", CRaw [])] in
      [("n_port", CRaw (le 4 2)); ("pad", C69_zero 4); ("rbuf", COwn 2100 0 16 [("", buf); ("", none)]);
       ("sbuf", COwn 2120 0 16 [("", none); ("", none)]); ("rbuf_sz", COwn 2140 0 8 [("", CRaw (le 4 3)); ("", CRaw (le 4 0))]);
       ("sbuf_sz", COwn 2160 0 8 [("", CRaw (le 4 0)); ("", CRaw (le 4 0))]);
       ("rreq_sz", C69_array 2180 0 (repeat 0 8)); ("sreq_sz", C69_array 2200 0 (repeat 0 8));
       ("rreq", C69_array 2220 0 (repeat 0 16)); ("sreq", C69_array 2240 0 (repeat 0 16))]
  | OGrid => [("units, time, mesh", C69_zero 112); ("nv", CRaw (le 4 2)); ("bc", C69_zero 108);
       ("range", C69_array 2304 16 (le 8 0 ++ le 8 2)); ("neighbor", COwn 0 128 0 []); ("rangel, rangeh", C69_zero 16); ("mp", CRef (C69_at 6))]
  | OVpic => [("settings", CRaw (repeat 7 (Z.to_nat 7192))); ("entropy", CRef (C69_at 5)); ("sync_entropy", CRef (C69_at 5)); ("grid", CRef (C69_at 7));
       ("material_list", CFref (C69_at 10)); ("field_array", CFref (C69_at 11)); ("interpolator_array", CFref 0);
       ("accumulator_array", CFref 0); ("hydro_array", CFref 0); ("species_list", CFref (C69_at 12)); ("particle_bc_list", CFref 0);
       ("emitter_list", CFref 0); ("collision_op_list", CFref 0); ("user_global", CRaw (le 8 (C69_at 12) ++ repeat 0 (Z.to_nat 16376)))]
  | OMain => [("simulation", CRef (C69_at 8))]
  | OMaterial => [("name", CStr 2400 (Some [118; 97; 99])); ("coefficients", C69_zero 48); ("id", C69_zero 8); ("next", CRef 0)]
  | OFieldArray => [("f", C69_array 2560 128 (repeat 3 160)); ("g", CRef (C69_at 7));
       ("params", COwn 2816 0 16 [("mc", COwn 3072 128 192 [("", CRaw (repeat 9 64))]); ("n_mc", CRaw (le 4 1)); ("damp", C69_zero 4)])]
       ++ map (fun k => (k, CFun 900)) kernels
  | OSpecies => [("name", CStr 3300 (Some [101])); ("q, m", C69_zero 8); ("np", CRaw (le 4 2)); ("max_np", CRaw (le 4 4));
       ("p", COwn 3328 128 128 [("", CRaw (repeat 5 64))]); ("nm", CRaw (le 4 0)); ("max_nm", CRaw (le 4 3));
       ("pm", COwn 3584 128 48 [("", CRaw [])]); ("last_sorted", C69_zero 8); ("sort_interval, sort_out_of_place", C69_zero 8);
       ("partition", C69_array 3712 128 (repeat 1 12)); ("g", CRef (C69_at 7)); ("id", C69_zero 8); ("next", CRef 0)]
  | _ => []
  end.
Definition C69_saved (i : nat) (t : otype) : saved :=
  mksaved (mkn (C69_at i) (500 + C69_code t) (600 + C69_code t) (match t with OVpic => 700 | _ => 0 end) (Z.of_nat i + 1)) 77 t C69_e (C69_parts t i).
Fixpoint C69_number (i : nat) (ts : list otype) : list saved :=
  match ts with [] => [] | t :: r => C69_saved i t :: C69_number (S i) r end.
Definition C69_objects : list saved := C69_number 0 C69_types.

Lemma C69_symbol a : 500 <= a < 1000 -> wf_sym C69_yw C69_yr a /\ newsym C69_yw C69_yr a = a + 5000.
Proof.
  intros H. pose proof (Z.div_mod a 100 ltac:(lia)) as D. pose proof (Z.mod_pos_bound a 100 ltac:(lia)) as M.
  assert (E : by_name C69_yw a = true).
  { unfold by_name, C69_yw. cbn [find_saddr sym_name sym_addr]. replace ((500 <=? a) && (a <? 1000)) with true by lia. cbn [find_saddr sym_addr]. lia. }
  assert (F : find_saddr C69_yr (sym_name C69_yw a) = a + 5000).
  { unfold C69_yw, C69_yr. cbn [find_saddr sym_name sym_addr]. replace ((500 <=? a) && (a <? 1000)) with true by lia. cbn [find_saddr sym_addr]. lia. }
  split.
  - right. split; [unfold is_word; lia|]. intros _. split; [|split; [|lia]].
    + unfold C69_yw. cbn [sym_name]. replace ((500 <=? a) && (a <? 1000)) with true by lia. cbn [wf_str In List.length].
      split; [|lia]. intros [K|[K|[]]]; [|lia]. assert (5 <= a / 100) by (apply Z.div_le_lower_bound; lia). lia.
    + cbn. split; [intros [K|[K|[]]]; lia|lia].
  - unfold newsym. rewrite E, F. replace (a =? 0) with false by lia. reflexivity.
Qed.
Lemma C69_code_range t : 0 <= C69_code t <= 12. Proof. destruct t; cbn; lia. Qed.
Lemma C69_number_nth ts : forall i k s, nth_error (C69_number i ts) k = Some s -> exists t, nth_error ts k = Some t /\ s = C69_saved (i + k) t.
Proof.
  induction ts as [|t ts IH]; intros i [|k] s H; cbn [C69_number nth_error] in *; try discriminate.
  - injection H as <-. exists t. rewrite Nat.add_0_r. split; reflexivity.
  - destruct (IH (S i) k s H) as (u & E & ->). exists u. split; [exact E|]. f_equal. lia.
Qed.
Ltac C69_in := first [left; reflexivity | right; vm_compute; repeat (first [left; reflexivity | right]); fail].
Ltac C69_arr := do 2 eexists; split; [reflexivity|]; vm_compute; repeat split; (reflexivity || discriminate || (let K := fresh in intros K; discriminate K)).
Ltac C69_member := first
  [ eexists; split; [reflexivity|reflexivity]
  | eexists; split; [reflexivity|C69_in]
  | eexists; split; [reflexivity|apply C69_symbol; lia]
  | C69_arr
  | right; split; [C69_arr|reflexivity]
  | left; reflexivity
  | do 2 eexists; split; [reflexivity|]; split; [vm_compute; split; (reflexivity || discriminate)|]; vm_compute; split; [intuition discriminate|reflexivity]
  | do 2 eexists; split; [reflexivity|]; split; [reflexivity|]; vm_compute; split; (reflexivity || discriminate)].
Ltac C69_isa := repeat (constructor; [split; [reflexivity|C69_member]|]); constructor.
Example C69_simulation_example : simulation C69_yw C69_yr C69_p C69_what C69_objects.
Proof.
  split; [|split].
  - repeat (constructor; [vm_compute; intuition discriminate|]). constructor.
  - repeat (constructor; [vm_compute; intuition discriminate|]). constructor.
  - intros k s E. destruct (C69_number_nth _ _ _ _ E) as (t & Et & ->). cbn [Nat.add].
    assert (K : (k < 13)%nat) by (change 13%nat with (List.length C69_types); apply nth_error_Some; rewrite Et; discriminate).
    split; [|split; [|split]].
    + unfold C69_saved, wf_node, is_word, C69_at. cbn [sv_node sv_link n_obj n_ck n_rs n_an n_id].
      pose proof (C69_code_range t). destruct (C69_symbol (500 + C69_code t) ltac:(lia)) as [A1 B1].
      destruct (C69_symbol (600 + C69_code t) ltac:(lia)) as [A2 B2]. rewrite B2.
      assert (A3 : wf_sym C69_yw C69_yr (match t with OVpic => 700 | _ => 0 end) /\ 0 <= match t with OVpic => 700 | _ => 0 end < 2 ^ 64)
        by (destruct t; cbv iota; (split; [left; reflexivity|lia]) || (split; [apply C69_symbol; lia|lia])).
      repeat split; try lia; try assumption; apply A3.
    + cbn [sv_node sv_type C69_saved n_rs]. pose proof (C69_code_range t). rewrite (proj2 (C69_symbol (600 + C69_code t) ltac:(lia))).
      do 13 (destruct k as [|k]; [injection Et as <-; reflexivity|]). lia.
    + clear E K.
      do 3 (destruct k as [|k]; [injection Et as <-; reflexivity|]).
      do 2 (destruct k as [|k]; [injection Et as <-; C69_isa|]).
      destruct k as [|k]; [injection Et as <-|].
      { do 3 eexists. split; [reflexivity|]. split; [reflexivity|]. split; [reflexivity|]. split; [vm_compute; split; [discriminate|reflexivity]|].
        do 2 eexists. split; [reflexivity|]. split; [reflexivity|]. split; [vm_compute; split; [discriminate|reflexivity]|]. split; [discriminate|].
        intros [|[|i]] x Ex; cbn in Ex; [injection Ex as <-|injection Ex as <-|destruct i; discriminate]; (split; [reflexivity|C69_member]). }
      destruct k as [|k]; [injection Et as <-|].
      { do 10 eexists. split; [reflexivity|]. cbv zeta. split; [reflexivity|]. split; [reflexivity|].
        split; [vm_compute; split; [discriminate|reflexivity]|]. split; [reflexivity|]. split; [reflexivity|].
        split; [|split; [|split; [C69_arr|split; [C69_arr|split; C69_arr]]]].
        - split.
          + do 2 eexists. split; [reflexivity|]. split; [reflexivity|]. split; [vm_compute; split; [discriminate|reflexivity]|]. split; [discriminate|].
            intros x [<-|[<-|[]]]; (split; [reflexivity|C69_member]).
          + do 2 eexists. split; [reflexivity|]. split; [reflexivity|]. split; [vm_compute; split; [discriminate|reflexivity]|]. split; [discriminate|].
            intros [|[|i]] x Ex; cbn in Ex; [injection Ex as <-|injection Ex as <-|destruct i; discriminate]; (split; [reflexivity|]);
              intros sz Es; injection Es as <-; C69_arr.
        - split.
          + do 2 eexists. split; [reflexivity|]. split; [reflexivity|]. split; [vm_compute; split; [discriminate|reflexivity]|]. split; [discriminate|].
            intros x [<-|[<-|[]]]; (split; [reflexivity|C69_member]).
          + do 2 eexists. split; [reflexivity|]. split; [reflexivity|]. split; [vm_compute; split; [discriminate|reflexivity]|]. split; [discriminate|].
            intros [|[|i]] x Ex; cbn in Ex; [injection Ex as <-|injection Ex as <-|destruct i; discriminate]; (split; [reflexivity|]);
              intros sz Es; injection Es as <-; C69_arr. }
      destruct k as [|k]; [injection Et as <-|].
      { split; [vm_compute; split; [discriminate|reflexivity]|]. split; [vm_compute; split; [discriminate|reflexivity]|]. C69_isa. }
      do 3 (destruct k as [|k]; [injection Et as <-; C69_isa|]).
      destruct k as [|k]; [injection Et as <-|].
      { split; [vm_compute; discriminate|]. split; C69_isa. }
      destruct k as [|k]; [injection Et as <-; C69_isa|]. destruct k; discriminate Et.
    + do 13 (destruct k as [|k]; [injection Et as <-; (reflexivity || (vm_compute; discriminate))|]). lia.
Qed.
(* the file of the concrete simulation, and what a process that puts it elsewhere reads from it *)
Definition C69_file : list Z :=
  match contents C69_p C69_objects with SOk os => match checkpoint C69_yw 14 os with Some cs => flat cs | None => [] end | _ => [] end.
Definition C69_run (pr : process) : option (list (otype * block)) :=
  match load (fun _ => 0) C69_yr 4096 pr C69_what C69_alloc 14 C69_file with
  | Ok (14, rs) ([], O) => reanimate_all (map fst rs) rs
  | _ => None
  end.
Definition C69_member (k : nat) (m : string) : option cell :=
  match C69_run C69_p with Some fs => match nth_error fs k with Some (_, o) => get m o | None => None end | None => None end.
Example C69_round_trip_example :
  option_map (map fst) (C69_run C69_p) = Some C69_types /\
  C69_member 5 "rng" = Some (COwn 4096 0 16 [("", CRef (C69_alloc 3)); ("", CRef (C69_alloc 4))]) /\
  C69_member 6 "rbuf" = Some (COwn 4096 0 16 [("", COwn 4096 128 3 [("", CRaw [1; 2; 3])]); ("", COwn 0 128 0 [("", CRaw [])])]) /\
  C69_member 7 "neighbor" = Some (CRaw (repeat 0 8)) /\ C69_member 7 "mp" = Some (CRef (C69_alloc 6)) /\
  C69_member 8 "species_list" = Some (CRef (C69_alloc 12)) /\ C69_member 8 "emitter_list" = Some (CRef 0) /\
  C69_member 8 "grid" = Some (CRef (C69_alloc 7)) /\ C69_member 11 "advance_b" = Some (CFun 5900) /\
  C69_member 12 "name" = Some (CStr 4096 (Some [101])) /\
  C69_member 12 "p" = Some (COwn 4096 128 128 [("", CRaw (repeat 5 64))]) /\
  C69_member 12 "pm" = Some (COwn 4096 128 48 [("", CRaw [])]).
Proof. vm_compute. repeat split. Qed.
Example C69_other_process_example :
  map C69_run [mkproc 1 1 1 1; mkproc 0 2 1 1; mkproc 0 1 2 1; mkproc 0 1 1 2] = [None; None; None; None] /\
  load (fun _ => 0) C69_yr 4096 (mkproc 0 1 1 2) C69_what C69_alloc 14 C69_file = Fail.
Proof. vm_compute. split; reflexivity. Qed.
Example C69_members_example : exists c', C69_member 10 "name" = Some (CStr c' (Some [118; 97; 99])) /\ c' <> 0.
Proof. exists 4096. vm_compute. split; [reflexivity|discriminate]. Qed.
Example C69_spare_coefficients_example :
  get "mc" (params (C69_parts OFieldArray 11)) = Some (COwn 3072 128 192 [("", CRaw (repeat 9 64))]) /\
  match C69_run C69_p with Some fs => option_map (fun o => get "mc" (params (snd o))) (nth_error fs 11) | None => None end
  = Some (Some (COwn 4096 128 64 [("", CRaw (repeat 9 64))])).
Proof. vm_compute. split; reflexivity. Qed.
(* so not every restored object is the saved one: a field cell with the material identifier n_mc (a material
   defined after the field array, field_advance/standard/sfa.cc:97-105) reads inside the array before and
   behind its end after a restart *)
Theorem C69_same_size_refuted : exists k s fs o, nth_error C69_objects k = Some s /\ C69_run C69_p = Some fs /\
  nth_error fs k = Some (sv_type s, o) /\
  ~ sames (newptr C69_alloc (map sv_node C69_objects)) (id_of (map sv_node C69_objects)) (newsym C69_yw C69_yr) (sv_obj s) o.
Proof.
  exists 11%nat, (C69_saved 11 OFieldArray).
  destruct (C69_run C69_p) as [fs|] eqn:E; [|exfalso; revert E; vm_compute; discriminate].
  assert (F : option_map (fun o => (fst o, get "mc" (params (snd o)))) (nth_error fs 11) = Some (OFieldArray, Some (COwn 4096 128 64 [("", CRaw (repeat 9 64))]))).
  { transitivity (match C69_run C69_p with Some fs => option_map (fun o => (fst o, get "mc" (params (snd o)))) (nth_error fs 11) | None => None end);
      [rewrite E; reflexivity|vm_compute; reflexivity]. }
  destruct (nth_error fs 11) as [[t o]|] eqn:N; [|discriminate F]. cbn [option_map fst snd] in F. injection F as -> F.
  exists fs, o. split; [reflexivity|]. split; [reflexivity|]. split; [exact N|]. intros S. revert S F.
  cbn [sv_obj C69_saved C69_parts app]. intros S F.
  apply sames_inv in S. destruct S as (e1 & l1 & -> & _ & S). apply sames_inv in S. destruct S as (e2 & l2 & -> & _ & S).
  apply sames_inv in S. destruct S as (e3 & l3 & -> & Q & _). apply same_own_inv in Q. destruct Q as (a3 & bl3 & -> & Q).
  apply sames_inv in Q. destruct Q as (f1 & m1 & -> & P1 & _). apply same_own_inv in P1. destruct P1 as (a4 & bl4 & -> & _).
  unfold params in F. cbn [get String.eqb Ascii.eqb Bool.eqb] in F. discriminate F.
Qed.
Print Assumptions C69_same_size_refuted.
(* Only declared pointers are translated: the address of the species a deck keeps in user_global is, after a
   restart, still the address in the saving process. *)
Theorem C69_user_pointer_refuted : exists b, C69_member 8 "user_global" = Some (CRaw b) /\
  unle (firstn 8 b) = C69_at 12 /\ C69_at 12 <> newptr C69_alloc (map sv_node C69_objects) (C69_at 12) /\
  forall k, (k < 13)%nat -> C69_alloc k <> unle (firstn 8 b).
Proof.
  exists (le 8 (C69_at 12) ++ repeat 0 (Z.to_nat 16376)). split; [vm_compute; reflexivity|]. split; [vm_compute; reflexivity|].
  split; [vm_compute; discriminate|]. intros k _. change (unle (firstn 8 (le 8 (C69_at 12) ++ repeat 0 (Z.to_nat 16376)))) with (C69_at 12).
  unfold C69_alloc, C69_at. lia.
Qed.
Print Assumptions C69_user_pointer_refuted.
