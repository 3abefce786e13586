(* Each restore function reads exactly what the checkpt function wrote. *)
From Coq Require Import ZArith List Bool String Lia ZifyBool.
From Verif Require Import CheckptModel CheckptSpec CheckptProofs SaveModel SaveSpec.
Import ListNotations.
Open Scope string_scope.
Open Scope list_scope.
Open Scope Z_scope.
Ltac Zify.zify_post_hook ::= idtac.

Lemma zlen_app a b : zlen (a ++ b) = zlen a + zlen b.
Proof. unfold zlen. rewrite app_length. lia. Qed.
Lemma zlen_pos b : 0 <= zlen b. Proof. unfold zlen. lia. Qed.
Lemma zlen_le k w : zlen (le k w) = Z.of_nat k.
Proof. unfold zlen. rewrite le_length. reflexivity. Qed.

Definition raws (bl : block) : block := map (fun x => (fst x, CRaw (image (snd x)))) bl.
Definition fits (l : layout) (bl : block) : Prop := l = map (fun x => (fst x, zlen (image (snd x)))) bl.
Lemma images_cons x bl : images (x :: bl) = image (snd x) ++ images bl.
Proof. reflexivity. Qed.
Lemma size_fits l bl : fits l bl -> size_of l = zlen (images bl).
Proof.
  intros ->. induction bl as [|x bl IH]; cbn [map size_of fold_right]; [reflexivity|].
  rewrite images_cons, zlen_app. cbn [snd]. unfold size_of in IH. rewrite IH. reflexivity.
Qed.
Lemma to_nat_zlen b : Z.to_nat (zlen b) = List.length b. Proof. unfold zlen. lia. Qed.
Lemma cut_fits l bl : fits l bl -> cut l (images bl) = raws bl.
Proof.
  intros ->. induction bl as [|x bl IH]; cbn [map cut raws]; [reflexivity|].
  rewrite images_cons. rewrite to_nat_zlen.
  rewrite firstn_app, firstn_all, Nat.sub_diag, firstn_O, app_nil_r.
  rewrite skipn_app, skipn_all, Nat.sub_diag. cbn [app skipn fst snd]. f_equal. exact IH.
Qed.
Lemma cut_n_raws w bl : (forall x, In x bl -> fst x = "" /\ zlen (image (snd x)) = w) -> cut_n (List.length bl) w (images bl) = raws bl.
Proof.
  induction bl as [|x bl IH]; intros H; cbn [List.length cut_n raws map]; [reflexivity|].
  rewrite images_cons. destruct (H x (or_introl eq_refl)) as [En Ew]. replace (Z.to_nat w) with (List.length (image (snd x))) by (rewrite <- Ew, to_nat_zlen; reflexivity).
  rewrite firstn_app, firstn_all, Nat.sub_diag, firstn_O, app_nil_r.
  rewrite skipn_app, skipn_all, Nat.sub_diag. cbn [app skipn fst snd]. rewrite En. f_equal. apply IH. intros z I. apply H. right. exact I.
Qed.
Lemma zlen_same w bl : (forall x, In x bl -> zlen (image (snd x)) = w) -> zlen (images bl) = Z.of_nat (List.length bl) * w.
Proof.
  induction bl as [|x bl IH]; intros H; [reflexivity|]. rewrite images_cons, zlen_app, (H x (or_introl eq_refl)), IH; [|intros z I; apply H; right; exact I].
  cbn [List.length]. lia.
Qed.
Lemma word_id w : is_word w -> word w = w.
Proof. intros H. unfold word. apply Z.mod_small. exact H. Qed.

Section Objects.
Variable junk : nat -> Z.
Variable yr yw : symbols.
Variable fresh : Z.
Variable alloc : nat -> Z.
Variable old seen reg : list node.
Hypothesis fresh_ok : fresh <> 0.
Hypothesis old_ids : forall n, In n old -> is_word (n_id n) /\ n_id n <> 0 /\ n_obj n <> 0.
Hypothesis reg_ok : gives alloc old reg seen.
Let wf := wf_val yw yr old seen.

Definition io {A} (w : wres) (r : rd A) (a : A) : Prop :=
  exists vs, w = WOk vs /\ Forall wf vs /\
    forall cs k j, put_vals yw old vs = Some cs -> r reg (flat cs ++ k, j) = Ok a (k, j).

Lemma put_vals_app a b cs : put_vals yw old (a ++ b) = Some cs ->
  exists c d, put_vals yw old a = Some c /\ put_vals yw old b = Some d /\ cs = c ++ d.
Proof.
  revert cs. induction a as [|v a IH]; intros cs H; cbn [app put_vals] in *; [exists [], cs; repeat split; assumption|].
  destruct (put_val yw old v) as [x|]; [|discriminate]. destruct (put_vals yw old (a ++ b)) as [z|] eqn:E; [|discriminate].
  destruct (IH z eq_refl) as (c & d & -> & Ed & ->). injection H as <-. exists (x ++ c), d. repeat split; [exact Ed|apply app_assoc].
Qed.
Lemma io_ret {A} (a : A) : io (WOk []) (ret a) a.
Proof. exists []. repeat split; [constructor|]. intros cs k j E. injection E as <-. reflexivity. Qed.
Lemma io_bind {A B} w1 w2 (r : rd A) (K : A -> rd B) a b : io w1 r a -> io w2 (K a) b -> io (wseq w1 w2) (bind r K) b.
Proof.
  intros (v1 & -> & F1 & R1) (v2 & -> & F2 & R2). exists (v1 ++ v2). repeat split; [apply Forall_app; split; assumption|].
  intros cs k j E. destruct (put_vals_app _ _ _ E) as (c & d & Ec & Ed & ->). unfold bind.
  rewrite flat_app, <- app_assoc. rewrite (R1 c _ j Ec). exact (R2 d k j Ed).
Qed.
Lemma io_map {A B} w (r : rd A) (K : A -> rd B) a b : io w r a -> K a = ret b -> io w (bind r K) b.
Proof.
  intros (v1 & -> & F1 & R1) E. exists v1. repeat split; [exact F1|].
  intros cs k j Ec. unfold bind. rewrite (R1 cs k j Ec), E. reflexivity.
Qed.
Lemma io_val v : wf v -> io (WOk [v]) (val_of junk yr (kind_of v)) (restored_val yw yr alloc old v).
Proof.
  intros W. exists [v]. repeat split; [constructor; [exact W|constructor]|]. intros cs k j E. cbn [put_vals] in E.
  destruct (put_val yw old v) as [c|] eqn:Ec; [|discriminate]. injection E as <-. rewrite app_nil_r.
  unfold val_of. exact (get_val_ok junk yr (fun _ => []) alloc yw old old_ids reg seen v c k j reg_ok W Ec).
Qed.
Lemma io_data sz str al b : is_word sz -> is_word str -> is_word al -> Z.land al (al - 1) = 0 \/ al = 0 -> sz <= str -> zlen b = sz ->
  io (WOk [VData sz str 1 al [b]]) (r_data junk yr) (al, str, b).
Proof.
  intros W1 W2 W3 P L E. unfold r_data. refine (io_map _ _ _ _ _ (io_val (VData sz str 1 al [b]) _) _).
  - unfold wf, wf_val. cbn [List.length]. unfold is_word in *. repeat split; try lia; try tauto. constructor; [exact E|constructor].
  - cbn [restored_val]. rewrite Z.mul_1_l, (word_id str W2). reflexivity.
Qed.
Definition align_ok (al : Z) : Prop := is_word al /\ (Z.land al (al - 1) = 0 \/ al = 0).
Lemma io_struct al l bl : align_ok al -> fits l bl -> is_word (size_of l) -> io (w_struct al bl) (r_struct junk yr l) (raws bl).
Proof.
  intros [A1 A2] F S. pose proof (size_fits _ _ F) as E. unfold w_struct, r_struct. rewrite <- E. cbv zeta.
  refine (io_map _ _ _ _ _ (io_data (size_of l) (size_of l) al (images bl) S S A1 A2 (Z.le_refl _) (eq_sym E)) _).
  cbv beta iota. rewrite <- E, Z.eqb_refl. cbn [andb]. rewrite (cut_fits l bl F). reflexivity.
Qed.
Lemma w_data_ok a al0 cap bl sz str al : (a = 0 -> cap = 0) -> is_word sz -> is_word str -> sz <= str -> str <= cap -> zlen (images bl) = sz ->
  w_data (Some (COwn a al0 cap bl)) sz str al = WOk [VData sz str 1 al [images bl]].
Proof.
  intros N W1 W2 L1 L2 E. unfold w_data. rewrite (word_id sz W1), (word_id str W2). unfold is_word in *.
  replace ((a =? 0) && (0 <? sz)) with false by (destruct (a =? 0) eqn:E0; [rewrite N in * by lia|]; lia).
  replace (str <? sz) with false by lia. replace (zlen (images bl) <? sz) with false by lia.
  rewrite <- E, to_nat_zlen, firstn_all. reflexivity.
Qed.
Lemma io_arr a al cap b sz str m s : align_ok al -> (a = 0 -> cap = 0) -> is_word str -> 0 <= sz <= str -> str <= cap -> zlen b = sz ->
  io (w_data (Some (COwn a al cap [("", CRaw b)])) sz str al) (r_arr junk yr fresh m s)
     (put m (COwn (addr_of fresh str) al str [("", CRaw b)]) s).
Proof.
  intros [A1 A2] N W L1 L2 E. assert (W1 : is_word sz) by (unfold is_word in *; lia).
  assert (I : images [("", CRaw b)] = b) by (unfold images; cbn [flat_map snd image]; apply app_nil_r).
  rewrite w_data_ok; try assumption; try lia; [|rewrite I; exact E]. rewrite I.
  unfold r_arr. refine (io_map _ _ _ _ _ (io_data sz str al b W1 W A1 A2 _ E) _); [lia|]. reflexivity.
Qed.
Lemma io_arr_of a cap bl w m s : a <> 0 -> 0 < w -> is_word cap -> cap = Z.of_nat (List.length bl) * w ->
  (forall x, In x bl -> fst x = "" /\ zlen (image (snd x)) = w) ->
  io (w_data (Some (COwn a 0 cap bl)) cap cap 0) (r_arr_of junk yr fresh w m s) (put m (COwn (addr_of fresh cap) 0 cap (raws bl)) s).
Proof.
  intros N Hw W E H. assert (L : zlen (images bl) = cap) by (rewrite (zlen_same w bl), E by (intros x I; apply H; exact I); reflexivity).
  rewrite w_data_ok; try assumption; try lia.
  unfold r_arr_of. refine (io_map _ _ _ _ _ (io_data cap cap 0 (images bl) W W _ _ (Z.le_refl _) L) _); [unfold is_word; lia|right; reflexivity|].
  cbv beta iota. rewrite L. replace (cap / w) with (Z.of_nat (List.length bl)) by (rewrite E, Z.div_mul; lia).
  rewrite Nat2Z.id, cut_n_raws by exact H. reflexivity.
Qed.
Lemma io_str a t m s : wf_str t -> io (w_str (Some (CStr a t))) (r_str junk yr fresh m s) (put m (CStr (match t with None => 0 | Some _ => fresh end) t) s).
Proof. intros W. cbn [w_str]. unfold r_str. refine (io_map _ _ _ _ _ (io_val (VStr t) W) _). reflexivity. Qed.
Lemma io_ptr q m s : q = 0 \/ In q (map n_obj seen) -> io (w_ptr (Some (CRef q))) (r_ptr junk yr m s) (put m (CRef (newptr alloc old q)) s).
Proof. intros W. cbn [w_ptr]. unfold r_ptr. refine (io_map _ _ _ _ _ (io_val (VPtr q) W) _). reflexivity. Qed.
Lemma io_fptr q m s : q = 0 \/ In q (map n_obj old) -> io (w_fptr (Some (CFref q))) (r_fptr junk yr m s) (put m (CFref (id_of old q)) s).
Proof. intros W. cbn [w_fptr]. unfold r_fptr. refine (io_map _ _ _ _ _ (io_val (VFptr q) W) _). reflexivity. Qed.
Lemma io_sym a m s : wf_sym yw yr a -> io (w_sym (Some (CFun a))) (r_sym junk yr m s) (put m (CFun (newsym yw yr a)) s).
Proof. intros W. cbn [w_sym]. unfold r_sym. refine (io_map _ _ _ _ _ (io_val (VSym a) W) _). reflexivity. Qed.

Lemma le_bytes k : forall w, Forall is_byte (le k w).
Proof.
  induction k as [|k IH]; intros w; [constructor|]. change (le (S k) w) with (w mod 256 :: le k (w / 256)). constructor; [|apply IH].
  unfold is_byte. pose proof (Z.mod_pos_bound w 256). lia.
Qed.
Lemma int_le v : - 2 ^ 31 <= v < 2 ^ 31 -> int_of (le 4 (v mod 2 ^ 32)) = v.
Proof.
  intros H. unfold int_of. rewrite unle_le by (change (256 ^ Z.of_nat 4) with (2 ^ 32); apply Z.mod_pos_bound; lia). cbv zeta.
  destruct (Z.ltb_spec v 0).
  - replace (v mod 2 ^ 32) with (v + 2 ^ 32); [destruct (v + 2 ^ 32 <? 2 ^ 31) eqn:E; lia|].
    apply Z.mod_unique with (q := -1); lia.
  - rewrite Z.mod_small by lia. destruct (v <? 2 ^ 31) eqn:E; lia.
Qed.
Lemma io_int v : - 2 ^ 31 <= v < 2 ^ 31 -> io (w_int v) (r_int junk yr) v.
Proof.
  intros H. unfold w_int, r_int.
  refine (io_map _ (val_of junk yr (KRaw 4)) _ _ _ _ _).
  - change (KRaw 4) with (KRaw (List.length (le 4 0))).
    replace (List.length (le 4 0)) with (List.length (le 4 (v mod 2 ^ 32))) by (rewrite !le_length; reflexivity).
    apply (io_val (VRaw (le 4 (v mod 2 ^ 32)))). apply le_bytes.
  - cbn [restored_val]. rewrite (int_le v H). reflexivity.
Qed.

(* if( s->m ) RESTORE_ALIGNED( s->m ) *)
Lemma unle8 a : is_word a -> unle (le 8 a) = a.
Proof. intros H. apply unle_le. exact H. Qed.
Lemma io_maybe used al c m s : align_ok al -> member_ok yw yr old seen (MMaybe used al) c -> used < 2 ^ 64 ->
  get m s = Some (CRaw (image c)) ->
  exists d, io (w_if (Some c) (w_data (Some c) used used al)) (r_if m (r_arr junk yr fresh m) s) (put m d s) /\
    same (newptr alloc old) (id_of old) (newsym yw yr) c d.
Proof.
  intros A H U G. cbn [member_ok] in H. destruct H as [->|[(a & b & -> & Eb & L & C & Wa & N) P]].
  - exists (CRaw [0; 0; 0; 0; 0; 0; 0; 0]). split; [|constructor]. cbn [w_if image]. unfold r_if. rewrite G. cbn [image].
    rewrite (unle8 0) by (unfold is_word; lia). cbn [Z.eqb].
    replace (put m (CRaw [0; 0; 0; 0; 0; 0; 0; 0]) s) with s; [apply io_ret|].
    symmetry. revert G. cbn [image]. change (le 8 0) with [0; 0; 0; 0; 0; 0; 0; 0]. clear. induction s as [|[k c] s IH]; cbn [get put]; [discriminate|].
    destruct (String.eqb m k) eqn:E; intros G; [injection G as <-; reflexivity|]. f_equal. apply IH. exact G.
  - exists (COwn (addr_of fresh used) al used [("", CRaw b)]). cbn [w_if image]. unfold r_if. rewrite G. cbn [image].
    rewrite (unle8 a Wa). replace (a =? 0) with false by lia. split.
    + apply io_arr; try assumption; try (unfold is_word in *; lia).
    + apply same_own; [repeat constructor|]. unfold addr_of. destruct (used =? 0) eqn:E; split; intros; try lia.
Qed.

Lemma is_a_cons n m d o : is_a yw yr old seen ((n, m) :: d) o ->
  exists c o', o = (n, c) :: o' /\ member_ok yw yr old seen m c /\ is_a yw yr old seen d o'.
Proof. intros H. inversion H as [|x [n' c] l l' [E M] F]; subst. cbn [fst snd] in *. subst. exists c, l'. repeat split; assumption. Qed.
Lemma is_a_nil o : is_a yw yr old seen [] o -> o = [].
Proof. intros H. inversion H. reflexivity. Qed.

Local Notation Same := (same (newptr alloc old) (id_of old) (newsym yw yr)).
Local Notation Sames := (sames (newptr alloc old) (id_of old) (newsym yw yr)).
Definition restores (t : otype) (pw pr : process) (e : env) (o : block) : Prop :=
  exists o', io (checkpt_of t pw e o) (restore_of junk yr fresh t pr) o' /\ Sames (kept t o) o'.

Ltac members := repeat match goal with
  | H : is_a _ _ _ _ ((_, _) :: _) _ |- _ =>
      let c := fresh "c" in let o := fresh "o" in let M := fresh "M" in apply is_a_cons in H; destruct H as (c & o & -> & M & H)
  | H : is_a _ _ _ _ [] _ |- _ => apply is_a_nil in H; subst
  end.
Ltac kinds := repeat match goal with
  | M : member_ok _ _ _ _ (MPlain _) _ |- _ => let b := fresh "b" in let L := fresh "L" in destruct M as (b & -> & L)
  | M : member_ok _ _ _ _ (MArr _ _ _) _ |- _ =>
      let a := fresh "a" in let b := fresh "b" in let L := fresh "L" in let R := fresh "R" in let C := fresh "C" in let W := fresh "W" in
      let N := fresh "N" in destruct M as (a & b & -> & L & R & C & W & N)
  | M : member_ok _ _ _ _ MName _ |- _ => let a := fresh "a" in let s := fresh "s" in let W := fresh "W" in let W' := fresh "W" in
      destruct M as (a & s & -> & W & W')
  | M : member_ok _ _ _ _ MObj _ |- _ => let q := fresh "q" in let W := fresh "W" in destruct M as (q & -> & W)
  | M : member_ok _ _ _ _ MFobj _ |- _ => let q := fresh "q" in let W := fresh "W" in destruct M as (q & -> & W)
  | M : member_ok _ _ _ _ MFunc _ |- _ => let a := fresh "a" in let W := fresh "W" in destruct M as (a & -> & W)
  | M : member_ok _ _ _ _ (MPar _) _ |- _ =>
      let a := fresh "a" in let bl := fresh "bl" in let W := fresh "W" in let L := fresh "L" in destruct M as (a & bl & -> & L & W)
  end.
Ltac getput := cbn [get put set_params sub raws map fst snd String.eqb Ascii.eqb Bool.eqb image].
Lemma addr_null cap : addr_of fresh cap = 0 <-> cap = 0.
Proof. unfold addr_of. destruct (cap =? 0) eqn:E; split; intros; try lia. Qed.
Lemma str_null (s : option (list Z)) : match s with None => 0 | Some _ => fresh end = 0 <-> s = None.
Proof. destruct s; split; intros; try congruence; try lia. Qed.
Ltac sames_tac := repeat first [apply sames_nil | apply sames_cons | apply same_raw | apply same_ref | apply same_fref | apply same_fun
  | apply same_str; apply str_null | apply same_own; [|first [apply addr_null | split; intros; lia]] ].
Ltac fits_tac := unfold fits; cbn [map fst snd image]; rewrite ?zlen_le;
  repeat match goal with H : zlen _ = _ |- _ => rewrite H end; reflexivity.
Ltac al_tac := split; [unfold is_word; lia|first [left; reflexivity | right; reflexivity]].
Ltac prim := first
  [ apply io_struct; [al_tac | fits_tac | unfold is_word; cbn; lia]
  | apply io_ptr; assumption | apply io_fptr; assumption | apply io_sym; assumption | apply io_str; assumption
  | apply io_arr; [al_tac | tauto | unfold is_word in *; lia | lia | lia | lia] ].
Ltac step := eapply io_bind; [prim | getput].
Ltac all := repeat step; prim.

Lemma r_rng pw pr e o : is_a yw yr old seen [("state", MPlain 1408); ("n", MPlain 4); ("pad", MPlain 12)] o -> restores ORng pw pr e o.
Proof.
  intros H. members. kinds. eexists. split.
  - cbn [checkpt_of restore_of]. unfold checkpt_rng, restore_rng. all.
  - cbn [kept get]. getput. sames_tac.
Qed.
Lemma r_material pw pr e o : instance yw yr old seen pw e OMaterial o -> restores OMaterial pw pr e o.
Proof.
  intros H. cbn [instance] in H. members. kinds. eexists. split.
  - cbn [checkpt_of restore_of]. unfold checkpt_material, restore_material. getput. all.
  - cbn [kept get]. getput. sames_tac.
Qed.

Ltac level2 := match goal with H : is_a _ _ _ _ _ (params _) |- _ => revert H end; members; kinds; let H := fresh "H" in intros H; kinds; cbn [params get String.eqb Ascii.eqb Bool.eqb] in *; members; kinds.
Ltac ints := unfold int_at in *; cbn [get String.eqb Ascii.eqb Bool.eqb] in *.
Ltac sizes := repeat match goal with |- context [size_of ?l] => let v := eval vm_compute in (size_of l) in change (size_of l) with v end.
Ltac finish := cbn [kept get String.eqb Ascii.eqb Bool.eqb]; getput; sizes; sames_tac.

Lemma r_vpic pw pr e o : instance yw yr old seen pw e OVpic o -> restores OVpic pw pr e o.
Proof.
  intros H. cbn [instance] in H. members. kinds. eexists. split.
  - cbn [checkpt_of restore_of]. unfold checkpt_vpic, restore_vpic. getput. all.
  - finish.
Qed.
Lemma r_main pw pr e o : instance yw yr old seen pw e OMain o -> restores OMain pw pr e o.
Proof.
  intros H. cbn [instance] in H. members. kinds. eexists. split.
  - cbn [checkpt_of restore_of]. unfold checkpt_main, restore_main. getput. all.
  - finish.
Qed.
Lemma r_interpolator pw pr e o : instance yw yr old seen pw e OInterpolator o -> restores OInterpolator pw pr e o.
Proof.
  intros H. cbn [instance] in H. members. kinds. eexists. split.
  - cbn [checkpt_of restore_of]. unfold checkpt_interpolator_array, restore_interpolator_array, w_arr. getput. all.
  - finish.
Qed.
Lemma r_species pw pr e o : instance yw yr old seen pw e OSpecies o -> restores OSpecies pw pr e o.
Proof.
  intros H. cbn [instance] in H. members. ints. kinds. eexists. split.
  - cbn [checkpt_of restore_of]. unfold checkpt_species, restore_species, w_arr, int_at. getput. 
    rewrite !(Z.mul_comm _ 32), !(Z.mul_comm _ 16), !(Z.mul_comm _ 4). all.
  - finish.
Qed.
Lemma r_absorb pw pr e o : instance yw yr old seen pw e OAbsorbTally o -> restores OAbsorbTally pw pr e o.
Proof.
  intros [H H2]. level2. eexists. split.
  - cbn [checkpt_of restore_of]. unfold checkpt_absorb_tally, restore_absorb_tally, checkpt_particle_bc, restore_particle_bc, w_arr. getput.
    rewrite !(Z.mul_comm _ 4). all.
  - finish.
Qed.
Lemma r_reflux pw pr e o : instance yw yr old seen pw e OReflux o -> restores OReflux pw pr e o.
Proof.
  intros [H H2]. level2. eexists. split.
  - cbn [checkpt_of restore_of]. unfold checkpt_maxwellian_reflux, restore_maxwellian_reflux, checkpt_particle_bc, restore_particle_bc, w_arr. getput.
    rewrite !(Z.mul_comm _ 4). all.
  - finish.
Qed.
Lemma r_langmuir pw pr e o : instance yw yr old seen pw e OChildLangmuir o -> restores OChildLangmuir pw pr e o.
Proof.
  intros [H H2]. revert H2. members. ints. intros H2. level2. eexists. split.
  - cbn [checkpt_of restore_of]. unfold checkpt_child_langmuir, restore_child_langmuir, checkpt_emitter, restore_emitter, w_arr, int_at. getput.
    rewrite !(Z.mul_comm _ 4). all.
  - finish.
Qed.
Lemma r_langevin pw pr e o : instance yw yr old seen pw e OLangevin o -> restores OLangevin pw pr e o.
Proof.
  intros [H H2]. level2. eexists. split.
  - cbn [checkpt_of restore_of]. unfold checkpt_langevin, restore_langevin, checkpt_collision_op, restore_collision_op. getput. all.
  - finish.
Qed.
Lemma r_unary pw pr e o : instance yw yr old seen pw e OUnary o -> restores OUnary pw pr e o.
Proof.
  intros [H H2]. level2. eexists. split.
  - cbn [checkpt_of restore_of]. unfold checkpt_unary, restore_unary, checkpt_collision_op, restore_collision_op. getput. all.
  - finish.
Qed.
Lemma r_binary pw pr e o : instance yw yr old seen pw e OBinary o -> restores OBinary pw pr e o.
Proof.
  intros [H H2]. level2. eexists. split.
  - cbn [checkpt_of restore_of]. unfold checkpt_binary, restore_binary, checkpt_collision_op, restore_collision_op. getput. all.
  - finish.
Qed.
Lemma r_takizuka pw pr e o : instance yw yr old seen pw e OTakizukaAbe o -> restores OTakizukaAbe pw pr e o.
Proof.
  intros [H H2]. level2. eexists. split.
  - cbn [checkpt_of restore_of]. unfold checkpt_takizuka_abe, restore_takizuka_abe, checkpt_collision_op, restore_collision_op. getput. all.
  - finish.
Qed.
Lemma r_hard pw pr e o : instance yw yr old seen pw e OHardSphere o -> restores OHardSphere pw pr e o.
Proof.
  intros H. cbn [instance] in H. members. kinds. eexists. split.
  - cbn [checkpt_of restore_of]. unfold checkpt_hard_sphere, restore_hard_sphere. all.
  - finish.
Qed.
Lemma r_coulomb pw pr e o : instance yw yr old seen pw e OLargeAngleCoulomb o -> restores OLargeAngleCoulomb pw pr e o.
Proof.
  intros H. cbn [instance] in H. members. kinds. eexists. split.
  - cbn [checkpt_of restore_of]. unfold checkpt_large_angle_coulomb, restore_large_angle_coulomb. all.
  - finish.
Qed.
Lemma r_field pw pr e o : instance yw yr old seen pw e OFieldArray o -> restores OFieldArray pw pr e o.
Proof.
  intros (H0 & H & H2). cbn [map kernels app] in H. revert H0 H2. members. kinds. intros H0 H2. cbn [params get String.eqb Ascii.eqb Bool.eqb] in *. 
  members. ints. kinds. eexists. split.
  - cbn [checkpt_of restore_of]. unfold checkpt_field_array, restore_field_array, checkpt_kernels, restore_kernels, w_arr, int_at. getput.
    rewrite ?(Z.mul_comm _ 64). all.
  - cbn [kept get String.eqb Ascii.eqb Bool.eqb]; getput; sizes.
    match goal with |- context [64 * (?n + 2) - 128] => replace (64 * (n + 2) - 128) with (64 * n) by lia end. sames_tac.
Qed.

Lemma r_grid pw pr e o : instance yw yr old seen pw e OGrid o -> restores OGrid pw pr e o.
Proof.
  intros (H0 & H1 & H). members. ints. kinds. cbn [int_at get String.eqb Ascii.eqb Bool.eqb] in *.
  cbn [checkpt_of restore_of restores]. unfold restores. cbn [checkpt_of restore_of kept get String.eqb Ascii.eqb Bool.eqb].
  unfold checkpt_grid, restore_grid, w_arr, int_at. getput.
  match goal with M : member_ok _ _ _ _ (MMaybe _ 16) ?c |- _ => pose proof M as MR; set (cr := c) in * end.
  match goal with M : member_ok _ _ _ _ (MMaybe _ 128) ?c |- _ => pose proof M as MN; set (cn := c) in * end.
  assert (W8 : forall used al c, member_ok yw yr old seen (MMaybe used al) c -> zlen (image c) = 8).
  { intros used al c [->|[(a & b' & -> & _) _]]; cbn [image]; apply zlen_le. }
  pose proof (W8 _ _ _ MR) as LR. pose proof (W8 _ _ _ MN) as LN.
  pose proof (fun s => io_maybe _ _ _ "range" s (ltac:(al_tac) : align_ok 16) MR ltac:(lia)) as IR.
  pose proof (fun s => io_maybe _ _ _ "neighbor" s (ltac:(al_tac) : align_ok 128) MN ltac:(lia)) as IN.
  match goal with |- context [w_struct 0 ?b] => set (o := b) in *; destruct (IR (raws o) eq_refl) as (d1 & I1 & S1) end.
  assert (G : get "neighbor" (put "range" d1 (raws o)) = Some (CRaw (image cn))) by reflexivity.
  destruct (IN _ G) as (d2 & I2 & S2).
  eexists. split.
  - eapply io_bind; [apply io_struct; [al_tac| |unfold is_word; cbn; lia]|].
    + unfold o, fits. cbn [map fst snd]. rewrite LR, LN. cbn [image]. rewrite ?zlen_le.
      repeat match goal with H : zlen _ = _ |- _ => rewrite H end. reflexivity.
    + cbv beta. rewrite (Z.mul_comm (pr_size pw + 1) 8). eapply io_bind; [exact I1|]. cbv beta.
      match goal with |- context [6 * int_of ?z * 8] => replace (6 * int_of z * 8) with (48 * int_of z) by lia end. eapply io_bind; [exact I2|]. cbv beta. prim.
  - subst o. getput. repeat first [apply sames_nil | apply sames_cons | apply same_raw | apply same_ref | assumption].
Qed.

Lemma r_accumulator pw pr e o : instance yw yr old seen pw e OAccumulator o ->
  Z.max (pr_serial pr) (pr_thread pr) = Z.max (pr_serial pw) (pr_thread pw) -> restores OAccumulator pw pr e o.
Proof.
  intros (H0 & H) Hp. members. ints. kinds. eexists. split.
  - cbn [checkpt_of restore_of]. unfold checkpt_accumulator_array, restore_accumulator_array, w_arr, n_copies, int_at. getput.
    step. step. eapply io_map; [prim|]. getput.
    match goal with |- (if negb ?c then _ else _) = _ => replace c with true by lia end. reflexivity.
  - finish.
Qed.
Lemma r_hydro pw pr e o : instance yw yr old seen pw e OHydro o ->
  Z.max (pr_serial pr) (pr_thread pr) = Z.max (pr_serial pw) (pr_thread pw) -> restores OHydro pw pr e o.
Proof.
  intros (H0 & H) Hp. members. ints. kinds. eexists. split.
  - cbn [checkpt_of restore_of]. unfold checkpt_hydro_array, restore_hydro_array, w_arr, n_copies, int_at. getput.
    step. step. eapply io_map; [prim|]. getput.
    match goal with |- (if negb ?c then _ else _) = _ => replace c with true by lia end. reflexivity.
  - finish.
Qed.
Definition is_int (v : Z) : Prop := - 2 ^ 31 <= v < 2 ^ 31.
Lemma r_collective p e : is_int (pr_rank p) -> is_int (pr_size p) -> restores OCollective p p e [].
Proof.
  intros H1 H2. exists []. split; [|constructor]. cbn [checkpt_of restore_of]. unfold checkpt_collective, restore_collective.
  eapply io_bind; [apply io_int; exact H1|]. cbv beta. eapply io_map; [apply io_int; exact H2|]. cbv beta.
  rewrite !Z.eqb_refl. reflexivity.
Qed.
Lemma r_serial p e : is_int (pr_serial p) -> restores OSerial p p e [].
Proof.
  intros H1. exists []. split; [|constructor]. cbn [checkpt_of restore_of]. unfold checkpt_serial, restore_serial.
  eapply io_map; [apply io_int; exact H1|]. cbv beta. rewrite !Z.eqb_refl. reflexivity.
Qed.
Lemma r_thread p e : is_int (pr_thread p) -> restores OThread p p e [].
Proof.
  intros H1. exists []. split; [|constructor]. cbn [checkpt_of restore_of]. unfold checkpt_thread, restore_thread.
  eapply io_map; [apply io_int; exact H1|]. cbv beta. rewrite !Z.eqb_refl. reflexivity.
Qed.

(* loops *)
Lemma io_for w r (st : nat -> block) n : forall i,
  (forall k, (i <= k < i + n)%nat -> io (w k) (r k (st k)) (st (S k))) -> io (w_for n i w) (r_for n i r (st i)) (st (i + n)%nat).
Proof.
  induction n as [|n IH]; intros i H; cbn [w_for r_for].
  - rewrite Nat.add_0_r. apply io_ret.
  - eapply io_bind; [apply H; lia|]. cbv beta. replace (i + S n)%nat with (S i + n)%nat by lia. apply IH. intros k Hk. apply H. lia.
Qed.
Definition fin (c : cell) : cell :=
  match c with COwn _ al cap bl => COwn (addr_of fresh cap) al cap bl | CRef q => CRef (newptr alloc old q) | c => c end.
Definition mix (k : nat) (bl : block) : block := map (fun x => (fst x, fin (snd x))) (firstn k bl) ++ raws (skipn k bl).
Lemma mix_0 bl : mix 0 bl = raws bl. Proof. reflexivity. Qed.
Lemma mix_all bl : mix (List.length bl) bl = map (fun x => (fst x, fin (snd x))) bl.
Proof. unfold mix. rewrite firstn_all, skipn_all. apply app_nil_r. Qed.
Lemma set_mix k bl x : nth_error bl k = Some x ->
  nth_error (mix k bl) k = Some (fst x, CRaw (image (snd x))) /\
  firstn k (mix k bl) ++ (fst x, fin (snd x)) :: skipn (S k) (mix k bl) = mix (S k) bl.
Proof.
  intros H. destruct (nth_error_split bl k H) as (l1 & l2 & -> & L). subst k.
  assert (F : firstn (List.length l1) (l1 ++ x :: l2) = l1).
  { rewrite firstn_app, firstn_all, Nat.sub_diag, firstn_O. apply app_nil_r. }
  assert (S1 : skipn (List.length l1) (l1 ++ x :: l2) = x :: l2).
  { rewrite skipn_app, skipn_all, Nat.sub_diag. reflexivity. }
  assert (F2 : firstn (S (List.length l1)) (l1 ++ x :: l2) = l1 ++ [x]).
  { replace (l1 ++ x :: l2) with ((l1 ++ [x]) ++ l2) by (rewrite <- app_assoc; reflexivity).
    replace (S (List.length l1)) with (List.length (l1 ++ [x])) by (rewrite app_length; cbn [List.length]; lia).
    rewrite firstn_app, firstn_all, Nat.sub_diag, firstn_O. apply app_nil_r. }
  assert (S2 : skipn (S (List.length l1)) (l1 ++ x :: l2) = l2).
  { replace (l1 ++ x :: l2) with ((l1 ++ [x]) ++ l2) by (rewrite <- app_assoc; reflexivity).
    replace (S (List.length l1)) with (List.length (l1 ++ [x])) by (rewrite app_length; cbn [List.length]; lia).
    rewrite skipn_app, skipn_all, Nat.sub_diag. reflexivity. }
  unfold mix. rewrite F, S1, F2, S2. set (m1 := map (fun x => (fst x, fin (snd x))) l1).
  assert (Lm : List.length m1 = List.length l1) by apply map_length. rewrite <- Lm. cbn [raws map].
  split.
  - rewrite nth_error_app2, Nat.sub_diag by lia. reflexivity.
  - rewrite firstn_app, firstn_all, Nat.sub_diag, firstn_O, app_nil_r.
    fold (raws l2). change ((fst x, CRaw (image (snd x))) :: raws l2) with ([(fst x, CRaw (image (snd x)))] ++ raws l2).
    rewrite app_assoc. replace (S (List.length m1)) with (List.length (m1 ++ [(fst x, CRaw (image (snd x)))])) by (rewrite app_length; cbn [List.length]; lia).
    rewrite skipn_app, skipn_all, Nat.sub_diag. cbn [skipn app]. unfold m1. rewrite map_app. rewrite <- app_assoc. reflexivity.
Qed.

Lemma width_ptr c : member_ok yw yr old seen MObj c -> zlen (image c) = 8.
Proof. intros (q & -> & _). apply zlen_le. Qed.
Lemma sames_fin bl : (forall x, In x bl -> Same (snd x) (fin (snd x))) -> Sames bl (map (fun x => (fst x, fin (snd x))) bl).
Proof.
  induction bl as [|[n c] bl IH]; intros H; cbn [map fst snd]; constructor; [apply (H (n, c)); left; reflexivity|].
  apply IH. intros x I. apply H. right. exact I.
Qed.
Lemma set_elt_ok m k a al cap bl x s : get m s = Some (COwn a al cap (mix k bl)) -> nth_error bl k = Some x ->
  set_elt m k (fin (snd x)) s = Some (put m (COwn a al cap (mix (S k) bl)) s).
Proof.
  intros G N. unfold set_elt. rewrite G. destruct (set_mix k bl x N) as [-> E]. rewrite E. reflexivity.
Qed.
Lemma r_rng_pool pw pr e o : instance yw yr old seen pw e ORngPool o -> restores ORngPool pw pr e o.
Proof.
  intros (rng & n_rng & pad & -> & L1 & L2 & N1 & (a & bl & -> & Lb & Wa & A0 & P)).
  assert (P' : forall x, In x bl -> fst x = "" /\ member_ok yw yr old seen MObj (snd x)).
  { intros x I. apply In_nth_error in I. destruct I as [i I]. exact (P i x I). }
  set (n := int_of n_rng) in *. set (A := addr_of fresh (8 * n)).
  set (st := fun k => [("rng", COwn A 0 (8 * n) (mix k bl)); ("n_rng", CRaw n_rng); ("pad", CRaw pad)]).
  exists (st (Z.to_nat n)). split.
  - cbn [checkpt_of restore_of]. unfold checkpt_rng_pool, restore_rng_pool, w_arr, int_at. getput. fold n.
    eapply io_bind; [prim|]. getput. rewrite (Z.mul_comm n 8).
    eapply io_bind; [apply io_arr_of; [exact A0|lia|unfold is_word; lia|lia|]|].
    + intros x I. destruct (P' x I) as [E M]. split; [exact E|]. apply width_ptr. exact M.
    + getput. fold n. change (Z.to_nat n) with (0 + Z.to_nat n)%nat at 3.
      change (io (w_for (Z.to_nat n) 0 (fun i => w_ptr (elt (Some (COwn a 0 (8 * n) bl)) i)))
        (r_for (Z.to_nat n) 0 (fun i s => r_elt_ptr junk yr "rng" i s) (st 0%nat)) (st (0 + Z.to_nat n)%nat)).
      apply io_for. intros k Hk. destruct (nth_error bl k) as [x|] eqn:Ex; [|apply nth_error_None in Ex; lia].
      destruct (P k x Ex) as [En (q & Eq & Wq)]. unfold elt. cbn [sub]. rewrite Ex. cbn [option_map]. rewrite Eq. cbn [w_ptr].
      unfold r_elt_ptr. refine (io_map _ _ _ _ _ (io_val (VPtr q) Wq) _). cbn [restored_val].
      change (CRef (newptr alloc old q)) with (fin (CRef q)). rewrite <- Eq.
      rewrite (set_elt_ok "rng" k A 0 (8 * n) bl x (st k) eq_refl Ex). reflexivity.
  - unfold st. replace (Z.to_nat n) with (List.length bl) by lia. rewrite mix_all. cbn [kept get String.eqb Ascii.eqb Bool.eqb].
    apply sames_cons; [|sames_tac]. apply same_own; [|apply addr_null]. apply sames_fin. intros x I. destruct (P' x I) as [_ (q & -> & _)]. constructor.
Qed.

Lemma width_arr used cap al c : array_ok used cap al c -> zlen (image c) = 8.
Proof. intros (a & b & -> & _). apply zlen_le. Qed.
Lemma array_fin used cap al c : array_ok used cap al c -> Same c (fin c).
Proof. intros (a & b & -> & _). cbn [fin]. sames_tac. Qed.
Lemma r_mp pw pr e o : instance yw yr old seen pw e OMp o -> restores OMp pw pr e o.
Proof.
  intros (n_port & pad & rbuf & sbuf & rbuf_sz & sbuf_sz & rreq_sz & sreq_sz & rreq & sreq & -> & H). cbv zeta in H.
  destruct H as (L1 & L2 & N1 & Er & Eb & (Ri & Rp) & (Si & Sp) & K1 & K2 & K3 & K4).
  set (n := int_of n_port) in *.
  assert (F8 : is_word (8 * n)) by (unfold is_word; clear - N1; lia). assert (F4 : is_word (4 * n)) by (unfold is_word; clear - N1; lia).
  assert (Fe : is_word (n * e_req e)) by (unfold is_word; clear - N1 Er Eb; split; [apply Z.mul_nonneg_nonneg; lia|exact Eb]).
  destruct K1 as (a1 & b1 & -> & Lb1 & B1 & C1 & W1 & Z1), K2 as (a2 & b2 & -> & Lb2 & B2 & C2 & W2 & Z2),
    K3 as (a3 & b3 & -> & Lb3 & B3 & C3 & W3 & Z3), K4 as (a4 & b4 & -> & Lb4 & B4 & C4 & W4 & Z4).
  destruct Ri as (ri & rib & -> & Lri & Wri & Nri & Iri), Si as (si & sib & -> & Lsi & Wsi & Nsi & Isi).
  destruct Rp as (rp & rpb & -> & Lrp & Wrp & Nrp & Irp), Sp as (sp & spb & -> & Lsp & Wsp & Nsp & Isp).
  assert (Q8 : forall bl : block, Z.of_nat (List.length bl) = n -> 8 * n = Z.of_nat (List.length bl) * 8) by (intros bl ->; apply Z.mul_comm).
  assert (Q4 : forall bl : block, Z.of_nat (List.length bl) = n -> 4 * n = Z.of_nat (List.length bl) * 4) by (intros bl ->; apply Z.mul_comm).
  assert (SZ : forall k (ib : block), Z.of_nat (List.length ib) = n ->
    (forall x, In x ib -> fst x = "" /\ exists b, snd x = CRaw b /\ zlen b = 4) -> (k < Z.to_nat n)%nat ->
    forall a, exists s, elt (Some (COwn a 0 (4 * n) ib)) k = Some (CRaw s)).
  { intros k ib Ln I Hk a. unfold elt. cbn [sub]. destruct (nth_error ib k) as [x|] eqn:Ex; [|apply nth_error_None in Ex; lia].
    cbn [option_map]. destruct (I x (nth_error_In _ _ Ex)) as [_ (b & -> & _)]. exists b. reflexivity. }
  assert (BUF : forall (ib pb : block) a, Z.of_nat (List.length ib) = n -> Z.of_nat (List.length pb) = n ->
    (forall x, In x ib -> fst x = "" /\ exists b, snd x = CRaw b /\ zlen b = 4) ->
    (forall i x, nth_error pb i = Some x -> fst x = "" /\ (forall s, elt (Some (COwn a 0 (4 * n) ib)) i = Some (CRaw s) -> array_ok (int_of s) (int_of s) 128 (snd x))) ->
    forall x, In x pb -> fst x = "" /\ exists u, array_ok u u 128 (snd x)).
  { intros ib pb a Li Lp Ii Ip x I. apply In_nth_error in I. destruct I as [i I]. destruct (Ip i x I) as [E F]. split; [exact E|].
    assert (Hi : (i < List.length pb)%nat) by (apply nth_error_Some; congruence).
    destruct (SZ i ib Li Ii ltac:(lia) a) as [s Es]. exists (int_of s). exact (F s Es). }
  pose proof (BUF rib rpb ri Lri Lrp Iri Irp) as RB. pose proof (BUF sib spb si Lsi Lsp Isi Isp) as SB.
  set (raw_i := fun ib : block => raws ib).
  set (st := fun k => [("n_port", CRaw n_port); ("pad", CRaw pad); ("rbuf", COwn (addr_of fresh (8 * n)) 0 (8 * n) (mix k rpb));
    ("sbuf", COwn (addr_of fresh (8 * n)) 0 (8 * n) (mix k spb)); ("rbuf_sz", COwn (addr_of fresh (4 * n)) 0 (4 * n) (raws rib));
    ("sbuf_sz", COwn (addr_of fresh (4 * n)) 0 (4 * n) (raws sib)); ("rreq_sz", COwn (addr_of fresh (4 * n)) 0 (4 * n) [("", CRaw b1)]);
    ("sreq_sz", COwn (addr_of fresh (4 * n)) 0 (4 * n) [("", CRaw b2)]); ("rreq", COwn (addr_of fresh (n * e_req e)) 0 (n * e_req e) [("", CRaw b3)]);
    ("sreq", COwn (addr_of fresh (n * e_req e)) 0 (n * e_req e) [("", CRaw b4)])]).
  exists (st (Z.to_nat n)). split.
  - cbn [checkpt_of restore_of]. unfold checkpt_mp, restore_mp, w_arr, int_at. getput. fold n.
    eapply io_bind; [prim|]. getput. rewrite (Z.mul_comm n 8), (Z.mul_comm n 4).
    eapply io_bind; [apply io_arr_of; [exact Nrp|reflexivity|exact F8|apply Q8; exact Lrp|]|].
    { intros x I. destruct (RB x I) as [E [u M]]. split; [exact E|]. exact (width_arr _ _ _ _ M). }
    getput. eapply io_bind; [apply io_arr_of; [exact Nsp|reflexivity|exact F8|apply Q8; exact Lsp|]|].
    { intros x I. destruct (SB x I) as [E [u M]]. split; [exact E|]. exact (width_arr _ _ _ _ M). }
    getput. eapply io_bind; [apply io_arr_of; [exact Nri|reflexivity|exact F4|apply Q4; exact Lri|]|].
    { intros x I. destruct (Iri x I) as [E (b & -> & M)]. split; [exact E|exact M]. }
    getput. eapply io_bind; [apply io_arr_of; [exact Nsi|reflexivity|exact F4|apply Q4; exact Lsi|]|].
    { intros x I. destruct (Isi x I) as [E (b & -> & M)]. split; [exact E|exact M]. }
    getput. eapply io_bind; [apply io_arr; [al_tac|exact (proj1 Z1)|exact F4|exact B1|apply Z.le_refl|exact Lb1]|].
    getput. eapply io_bind; [apply io_arr; [al_tac|exact (proj1 Z2)|exact F4|exact B2|apply Z.le_refl|exact Lb2]|].
    getput. eapply io_bind; [apply io_arr; [al_tac|exact (proj1 Z3)|exact Fe|exact B3|apply Z.le_refl|exact Lb3]|].
    getput. eapply io_bind; [apply io_arr; [al_tac|exact (proj1 Z4)|exact Fe|exact B4|apply Z.le_refl|exact Lb4]|].
    getput. fold n.
    match goal with |- io (w_for _ _ ?w) (r_for _ _ ?r _) _ => change (io (w_for (Z.to_nat n) 0 w) (r_for (Z.to_nat n) 0 r (st 0%nat)) (st (0 + Z.to_nat n)%nat)) end.
    apply io_for. intros k Hk.
    assert (PORT : forall m ms a ia pb ib o0, get ms o0 = Some (COwn ia 0 (4 * n) ib) -> get m o0 = Some (COwn a 0 (8 * n) pb) ->
      Z.of_nat (List.length ib) = n -> Z.of_nat (List.length pb) = n ->
      (forall x, In x ib -> fst x = "" /\ exists b, snd x = CRaw b /\ zlen b = 4) ->
      (forall i x, nth_error pb i = Some x -> fst x = "" /\ (forall s, elt (Some (COwn ia 0 (4 * n) ib)) i = Some (CRaw s) -> array_ok (int_of s) (int_of s) 128 (snd x))) ->
      forall A s, get m s = Some (COwn A 0 (8 * n) (mix k pb)) ->
      io (w_port m ms o0 k) (r_elt_arr junk yr fresh m k s) (put m (COwn A 0 (8 * n) (mix (S k) pb)) s)).
    { intros m ms a ia pb ib o0 Gs Gm Li Lp Ii Ip A s G. unfold w_port, int_elt. rewrite Gs.
      destruct (SZ k ib Li Ii ltac:(lia) ia) as [t Et]. rewrite Et.
      rewrite Gm. destruct (nth_error pb k) as [x|] eqn:Ex; [|apply nth_error_None in Ex; lia].
      destruct (Ip k x Ex) as [_ F]. destruct (F t Et) as (ca & cb & Ec & Lc & Bc & Cc & Wc & Zc).
      unfold elt. cbn [sub]. rewrite Ex. cbn [option_map]. rewrite Ec. unfold w_arr. rewrite Z.mul_1_r.
      assert (Ecb : images [("", CRaw cb)] = cb) by (unfold images; cbn [flat_map snd image]; apply app_nil_r).
      rewrite w_data_ok; [|tauto|unfold is_word; lia|unfold is_word; lia|lia|lia|rewrite Ecb; exact Lc]. rewrite Ecb.
      unfold r_elt_arr. refine (io_map _ _ _ _ _ (io_data (int_of t) (int_of t) 128 cb _ _ _ _ _ Lc) _);
        [unfold is_word; lia|unfold is_word; lia|unfold is_word; lia|left; reflexivity|lia|].
      cbv beta iota. change (COwn (addr_of fresh (int_of t)) 128 (int_of t) [("", CRaw cb)]) with (fin (COwn ca 128 (int_of t) [("", CRaw cb)])).
      rewrite <- Ec. rewrite (set_elt_ok m k A 0 (8 * n) pb x s G Ex). reflexivity. }
    eapply io_bind.
    + apply (PORT "rbuf" "rbuf_sz" rp ri rpb rib); try reflexivity; assumption.
    + cbv beta. refine (PORT "sbuf" "sbuf_sz" sp si spb sib _ _ _ _ _ _ _ _ _ _); try reflexivity; assumption.
  - unfold st. replace (mix (Z.to_nat n) rpb) with (mix (List.length rpb) rpb) by (f_equal; lia).
    replace (mix (Z.to_nat n) spb) with (mix (List.length spb) spb) by (f_equal; lia). rewrite !mix_all. cbn [kept get String.eqb Ascii.eqb Bool.eqb].
    assert (RI : forall ib, (forall x, In x ib -> fst x = "" /\ exists b, snd x = CRaw b /\ zlen b = 4) -> Sames ib (raws ib)).
    { induction ib as [|[k c] ib IH]; intros I; cbn [raws map fst snd]; [constructor|]. 
      destruct (I (k, c) (or_introl eq_refl)) as [_ (b & E & _)]. cbn [snd] in E. subst c. cbn [image]. constructor; [constructor|].
      apply IH. intros x J. apply I. right. exact J. }
    repeat first [apply sames_nil | apply sames_cons | apply same_raw | apply RI; assumption | apply same_own; [|apply addr_null]].
    + apply sames_fin. intros x I. destruct (RB x I) as [_ [u M]]. exact (array_fin _ _ _ _ M).
    + apply sames_fin. intros x I. destruct (SB x I) as [_ [u M]]. exact (array_fin _ _ _ _ M).
Qed.

(* the restoring process is set up as the saving one was *)
Lemma all_types t p e o : is_int (pr_rank p) -> is_int (pr_size p) -> is_int (pr_serial p) -> is_int (pr_thread p) ->
  instance yw yr old seen p e t o -> restores t p p e o.
Proof.
  intros I1 I2 I3 I4 H. destruct t.
  - cbn in H. subst. apply r_collective; assumption.
  - cbn in H. subst. apply r_serial; assumption.
  - cbn in H. subst. apply r_thread; assumption.
  - apply r_mp; assumption.
  - apply r_rng; assumption.
  - apply r_rng_pool; assumption.
  - apply r_grid; assumption.
  - apply r_vpic; assumption.
  - apply r_main; assumption.
  - apply r_material; assumption.
  - apply r_field; assumption.
  - apply r_interpolator; assumption.
  - apply r_accumulator; [assumption|reflexivity].
  - apply r_hydro; [assumption|reflexivity].
  - apply r_species; assumption.
  - apply r_absorb; assumption.
  - apply r_reflux; assumption.
  - apply r_langmuir; assumption.
  - apply r_langevin; assumption.
  - apply r_unary; assumption.
  - apply r_binary; assumption.
  - apply r_takizuka; assumption.
  - apply r_hard; assumption.
  - apply r_coulomb; assumption.
Qed.
End Objects.
