(* A whole file of objects. *)
From Coq Require Import ZArith List Bool String Lia ZifyBool.
From Verif Require Import CheckptModel CheckptSpec CheckptProofs SaveModel SaveSpec SaveProofs.
Import ListNotations.
Open Scope string_scope.
Open Scope list_scope.
Open Scope Z_scope.
Ltac Zify.zify_post_hook ::= idtac.

(* the checks of the restore functions are the only use they make of the process *)
Lemma other_process junk yr fresh t pw pr reg s o s' : restore_of junk yr fresh t pw reg s = Ok o s' ->
  restore_of junk yr fresh t pr reg s = if agrees pw pr t then Ok o s' else Fail.
Proof.
  destruct t; cbn [restore_of agrees]; intros H; try exact H.
  - revert H. unfold restore_collective, bind. destruct (r_int junk yr reg s) as [rank u| | |]; try discriminate.
    destruct (r_int junk yr reg u) as [size v| | |]; try discriminate. intros H.
    destruct (size =? pr_size pw) eqn:E1; [|discriminate]. destruct (rank =? pr_rank pw) eqn:E2; [|discriminate]. cbn [negb] in H.
    apply Z.eqb_eq in E1, E2. subst. rewrite (Z.eqb_sym (pr_rank pr)), (Z.eqb_sym (pr_size pr)).
    destruct (pr_rank pw =? pr_rank pr), (pr_size pw =? pr_size pr); cbn [negb andb]; reflexivity || exact H.
  - revert H. unfold restore_serial, bind. destruct (r_int junk yr reg s) as [n u| | |]; try discriminate. intros H.
    destruct (pr_serial pw =? n) eqn:E1; [|discriminate]. apply Z.eqb_eq in E1. subst n. destruct (pr_serial pr =? pr_serial pw); [exact H|reflexivity].
  - revert H. unfold restore_thread, bind. destruct (r_int junk yr reg s) as [n u| | |]; try discriminate. intros H.
    destruct (pr_thread pw =? n) eqn:E1; [|discriminate]. apply Z.eqb_eq in E1. subst n. destruct (pr_thread pr =? pr_thread pw); [exact H|reflexivity].
  - revert H. unfold restore_accumulator_array, bind. destruct (r_struct _ _ _ reg s) as [a u| | |]; try discriminate.
    destruct (r_arr _ _ _ _ a reg u) as [b v| | |]; try discriminate. destruct (r_ptr _ _ _ b reg v) as [c w| | |]; try discriminate. intros H.
    destruct (int_at "n_pipeline" c =? _) eqn:E1; [|discriminate]. apply Z.eqb_eq in E1. rewrite E1, (Z.eqb_sym (Z.max (pr_serial pr) _)).
    destruct (_ =? _); [exact H|reflexivity].
  - revert H. unfold restore_hydro_array, bind. destruct (r_struct _ _ _ reg s) as [a u| | |]; try discriminate.
    destruct (r_arr _ _ _ _ a reg u) as [b v| | |]; try discriminate. destruct (r_ptr _ _ _ b reg v) as [c w| | |]; try discriminate. intros H.
    destruct (int_at "n_pipeline" c =? _) eqn:E1; [|discriminate]. apply Z.eqb_eq in E1. rewrite E1, (Z.eqb_sym (Z.max (pr_serial pr) _)).
    destruct (_ =? _); [exact H|reflexivity].
Qed.

Definition bare (s : saved) : object := (sv_node s, sv_link s, []).
Section File.
Variable junk : nat -> Z.
Variable yr yw : symbols.
Variable fresh : Z.
Variable alloc : nat -> Z.
Variable p pr : process.
Variable what : Z -> option otype.
Variable old : list node.
Hypothesis fresh_ok : fresh <> 0.
Hypothesis alloc_ok : forall k, alloc k <> 0.
Hypothesis p_ok : process_ok p.
Hypothesis old_ids : forall n, In n old -> is_word (n_id n) /\ n_id n <> 0 /\ n_obj n <> 0.
Hypothesis old_objs : NoDup (map n_obj old).
Hypothesis old_idsd : NoDup (map n_id old).

Definition nodes_from (k : nat) (a : list saved) : list node := map fst (restored_from yr alloc yw old k (map bare a)).
Definition new_node (k : nat) (s : saved) : node :=
  let n := sv_node s in mkn (alloc k) (newsym yw yr (n_ck n)) (newsym yw yr (n_rs n)) (newsym yw yr (n_an n)) (n_id n).
Lemma nodes_from_length k a : List.length (nodes_from k a) = List.length a.
Proof. unfold nodes_from. rewrite map_length, restored_from_length, map_length. reflexivity. Qed.
Lemma nodes_from_snoc a s : nodes_from 0 (a ++ [s]) = nodes_from 0 a ++ [new_node (List.length a) s].
Proof. unfold nodes_from. rewrite map_app, restored_from_app, map_app, map_length. reflexivity. Qed.
Lemma bare_nodes a : map node_of (map bare a) = map sv_node a.
Proof. rewrite map_map. reflexivity. Qed.

Lemma nodes_load b : forall a, old = map sv_node (a ++ b) ->
  (forall k s, nth_error b k = Some s -> savable yw yr p what old (firstn (List.length a + k) old) s) ->
  exists os cs rs, contents p b = SOk os /\ map node_of os = map sv_node b /\ put_nodes yw old os = Some cs /\
    (List.length rs = List.length b /\ forall k s, nth_error b k = Some s -> exists o', nth_error rs k = Some (new_node (List.length a + k) s, (sv_type s, o')) /\
       sames (newptr alloc old) (id_of old) (newsym yw yr) (kept (sv_type s) (sv_obj s)) o') /\
    forall r j, load_nodes junk yr fresh pr what alloc (S (List.length b)) (nodes_from 0 a) (flat (cs ++ [Mark M_end [M_node; M_end]]) ++ r, j)
      = if forallb (fun s => agrees p pr (sv_type s)) b then Ok rs (r, j) else Fail.
Proof.
  induction b as [|s b IH]; intros a E H.
  - exists [], [], []. split; [reflexivity|]. split; [reflexivity|]. split; [reflexivity|]. split; [split; [reflexivity|intros [|k] s Hs; discriminate]|].
    intros r j. cbn [app List.length load_nodes flat flat_map bytes_of]. rewrite app_nil_r.
    rewrite get_word_exact by (unfold is_word, M_end; lia). reflexivity.
  - pose proof (H O s eq_refl) as Hw. rewrite Nat.add_0_r in Hw.
    assert (Fn : firstn (List.length a) old = map sv_node a).
    { rewrite E, map_app, <- (map_length sv_node a). rewrite firstn_app, firstn_all, Nat.sub_diag, firstn_O, app_nil_r. reflexivity. }
    rewrite Fn in Hw. destruct Hw as (Wn & Ty & Inst & Ran).
    destruct (IH (a ++ [s])) as (os & cs & rs & Eo & En & Ec & (Lr & Hr) & Hcs).
    { rewrite E, <- app_assoc. reflexivity. }
    { intros k s' Hs'. rewrite app_length. cbn [List.length]. replace (List.length a + 1 + k)%nat with (List.length a + S k)%nat by lia. apply H. exact Hs'. }
    set (n := sv_node s) in *. set (reg := nodes_from 0 a ++ [mkn (n_obj n) (newsym yw yr (n_ck n)) (newsym yw yr (n_rs n)) (newsym yw yr (n_an n)) (n_id n)]).
    assert (Gv : gives alloc old reg (map sv_node a)).
    { unfold reg, nodes_from. rewrite <- (bare_nodes a). apply (gives_done yr alloc yw old old_ids alloc_ok old_objs old_idsd _ (map bare a) (map bare (s :: b))).
      rewrite <- map_app, bare_nodes. exact E. }
    destruct p_ok as (I1 & I2 & I3 & I4).
    destruct (all_types junk yr yw fresh alloc old (map sv_node a) reg fresh_ok old_ids Gv (sv_type s) p (sv_env s) (sv_obj s) I1 I2 I3 I4 Inst)
      as (o' & (vs & Ew & Fv & Rd) & Sm).
    destruct (put_vals_some yr yw old old_objs (map sv_node a) vs) as [cv Ev].
    { intros x I. rewrite E, map_app. apply in_or_app. left. exact I. }
    { exact Fv. }
    pose proof Wn as (W1 & W0 & W2 & W3 & W4 & W5 & I0 & W6 & S1 & S2 & S3 & C0 & R0).
    exists ((n, sv_link s, vs) :: os). cbn [contents put_nodes]. rewrite Ew, Eo. unfold put_node at 1.
    replace (n_ck n =? 0) with false by lia. rewrite Ev, Ec.
    eexists. exists ((new_node (List.length a) s, (sv_type s, o')) :: rs).
    split; [reflexivity|]. split; [cbn [map node_of fst]; rewrite En; reflexivity|]. split; [reflexivity|]. split.
    { split; [cbn [List.length]; rewrite Lr; reflexivity|]. intros [|k] s' Hs'; cbn [nth_error] in *.
      - injection Hs' as <-. rewrite Nat.add_0_r. exists o'. split; [reflexivity|exact Sm].
      - destruct (Hr k s' Hs') as (o2 & E2 & Sm2). exists o2. rewrite app_length in E2. cbn [List.length] in E2.
        replace (List.length a + S k)%nat with (List.length a + 1 + k)%nat by lia. split; assumption. }
    intros r j. rewrite <- app_assoc.
    match goal with |- context [flat ((?x :: ?l) ++ ?m)] => change (flat ((x :: l) ++ m)) with (bytes_of x ++ flat (l ++ m)) end. cbn [bytes_of].
    rewrite <- app_assoc. cbn [List.length]. set (f := S (List.length b)) in *. cbn [load_nodes].
    rewrite get_word_exact by (unfold is_word, M_node; lia).
    change (M_node =? M_end) with false. change (M_node =? M_node) with true. cbn [negb].
    set (tail := flat (cs ++ [Mark M_end [M_node; M_end]]) ++ r).
    assert (G : forall k c, load_node junk yr fresh pr what alloc (nodes_from 0 a)
      (flat (Plain (le 8 (n_obj n) ++ le 8 (n_ck n) ++ le 8 (n_rs n) ++ le 8 (n_an n) ++ le 8 (n_id n) ++ le 8 (sv_link s)) ::
         put_sym yw (n_ck n) ++ put_sym yw (n_rs n) ++ put_sym yw (n_an n) ++ cv) ++ k, c)
      = if agrees p pr (sv_type s) then Ok (new_node (List.length a) s, (sv_type s, o')) (k, c) else Fail).
    { intros k c. match goal with |- context [flat (?x :: ?l)] => change (flat (x :: l)) with (bytes_of x ++ flat l) end. cbn [bytes_of].
      rewrite !flat_app, <- !app_assoc. unfold load_node. rewrite !get_word_exact by assumption.
      rewrite !(get_sym_ok junk yr yw) by assumption. rewrite Ty. fold reg. rewrite (other_process _ _ _ _ p pr _ _ _ _ (Rd cv k c Ev)).
      rewrite nodes_from_length. destruct (agrees p pr (sv_type s)); reflexivity. }
    specialize (G tail j). unfold tail in *.
    match type of G with load_node _ _ _ _ _ _ _ (flat ?l ++ _, _) = _ => 
      match goal with |- context [load_node _ _ _ _ _ _ _ (?z, j)] => replace z with (flat l ++ flat (cs ++ [Mark M_end [M_node; M_end]]) ++ r) end end.
    2:{ rewrite (app_assoc (flat _)), <- flat_app. reflexivity. }
    rewrite G. cbn [forallb]. destruct (agrees p pr (sv_type s)); [|reflexivity]. cbn [fst andb].
    rewrite <- nodes_from_snoc. rewrite Hcs. destruct (forallb _ b); reflexivity.
Qed.
End File.

Lemma gives_null alloc old reg q : gives alloc old reg old -> (q = 0 \/ In q (map n_obj old)) ->
  (forall n, In n old -> n_obj n <> 0) ->
  reanimate_fptr reg (id_of old q) = Some (newptr alloc old q).
Proof.
  intros G [->|I] N; [|apply G; exact I]. unfold id_of, find_obj.
  destruct (find _ old) as [n|] eqn:F; [|reflexivity]. apply find_some in F. destruct F as [I F]. specialize (N n I). lia.
Qed.
Lemma reanimate_step reg m v i q : get m v = Some (CFref i) -> reanimate_fptr reg i = Some q ->
  reanimate reg m (Some v) = Some (put m (CRef q) v).
Proof. intros H E. unfold reanimate. rewrite H, E. reflexivity. Qed.
Lemma vpic_alive yw yr alloc old reg seen p e o o' : instance yw yr old seen p e OVpic o -> gives alloc old reg old ->
  (forall n, In n old -> n_obj n <> 0) -> sames (newptr alloc old) (id_of old) (newsym yw yr) o o' ->
  exists o2, reanimate_vpic reg o' = Some o2 /\ sames (newptr alloc old) (id_of old) (newsym yw yr) (alive o) o2.
Proof.
  intros I G N S. cbn [instance] in I. unfold is_a in I.
  repeat match goal with H : Forall2 _ (_ :: _) _ |- _ => inversion H; clear H; subst | H : Forall2 _ [] _ |- _ => inversion H; clear H; subst end.
  repeat match goal with H : fst _ = fst ?y /\ _ |- _ => destruct y; cbn [fst snd member_ok] in H; destruct H as [<- H] end.
  repeat match goal with H : exists _, _ /\ _ |- _ => destruct H as (? & -> & H) end.
  repeat match goal with H : sames _ _ _ (_ :: _) _ |- _ => inversion H; clear H; subst | H : sames _ _ _ [] _ |- _ => inversion H; clear H; subst end.
  repeat match goal with H : same _ _ _ _ _ |- _ => inversion H; clear H; subst end.
  repeat match goal with H : ?q = 0 \/ In ?q (map n_obj old) |- _ => pose proof (gives_null alloc old reg q G H N); clear H end.
  eexists. split.
  - unfold reanimate_vpic.
    do 9 (erewrite reanimate_step; [|reflexivity|eassumption]; cbn [put String.eqb Ascii.eqb Bool.eqb]).
    reflexivity.
  - unfold alive. cbn [map fst snd]. repeat constructor.
Qed.

Lemma reanimate_all_ok reg rs : forall fs : list (otype * block), List.length fs = List.length rs ->
  (forall k n t o, nth_error rs k = Some (n, (t, o)) -> exists o2, nth_error fs k = Some (t, o2) /\
     (if n_an n =? 0 then Some o else match t with OVpic => reanimate_vpic reg o | _ => None end) = Some o2) ->
  reanimate_all reg rs = Some fs.
Proof.
  induction rs as [|[n [t o]] rs IH]; intros [|f fs] L H; try discriminate; cbn [reanimate_all]; [reflexivity|].
  destruct (H O n t o eq_refl) as (o2 & Ef & ->). cbn [nth_error] in Ef. injection Ef as ->.
  rewrite (IH fs); [reflexivity|cbn [List.length] in L; lia|].
  intros k m u v E. exact (H (S k) m u v E).
Qed.
Lemma nth_ext_error {A} (l : list A) : forall m, (forall k, nth_error l k = nth_error m k) -> l = m.
Proof.
  induction l as [|x l IH]; intros [|y m] H; [reflexivity|discriminate (H O)|discriminate (H O)|].
  pose proof (H O) as H0. injection H0 as ->. f_equal. apply IH. intros k. exact (H (S k)).
Qed.
Lemma choose {A B} (P : nat -> A -> B -> Prop) (l : list A) : (forall k x, nth_error l k = Some x -> exists y, P k x y) ->
  exists m, List.length m = List.length l /\ forall k x, nth_error l k = Some x -> exists y, nth_error m k = Some y /\ P k x y.
Proof.
  revert P. induction l as [|x l IH]; intros P H; [exists []; split; [reflexivity|intros [|k] x E; discriminate]|].
  destruct (H O x eq_refl) as [y Hy]. destruct (IH (fun k => P (S k)) (fun k => H (S k))) as (m & L & Hm).
  exists (y :: m). split; [cbn [List.length]; lia|]. intros [|k] z E; cbn [nth_error] in *; [injection E as <-; exists y; tauto|exact (Hm k z E)].
Qed.

Theorem saved_and_loaded junk yw yr fresh alloc p pr what l next :
  simulation yw yr p what l -> process_ok p -> fresh <> 0 -> (forall k, alloc k <> 0) -> is_word next ->
  let old := map sv_node l in
  exists os cs rs fs, contents p l = SOk os /\ checkpoint yw next os = Some cs /\
    (forall extra, load junk yr fresh pr what alloc (S (List.length l)) (flat cs ++ extra) =
       if forallb (fun s => agrees p pr (sv_type s)) l then Ok (next, rs) (extra, O) else Fail) /\
    reanimate_all (map fst rs) rs = Some fs /\ List.length rs = List.length l /\ List.length fs = List.length l /\
    forall k s, nth_error l k = Some s -> exists o1 o2,
      nth_error rs k = Some (new_node yr yw alloc k s, (sv_type s, o1)) /\
      sames (newptr alloc old) (id_of old) (newsym yw yr) (kept (sv_type s) (sv_obj s)) o1 /\
      nth_error fs k = Some (sv_type s, o2) /\
      sames (newptr alloc old) (id_of old) (newsym yw yr) (finally (sv_type s) (sv_obj s)) o2.
Proof.
  intros (No & Ni & Hs) Hp Hf Ha Hn old.
  assert (Ids : forall n, In n old -> is_word (n_id n) /\ n_id n <> 0 /\ n_obj n <> 0).
  { intros n I. apply in_map_iff in I. destruct I as (s & <- & I). apply In_nth_error in I. destruct I as [k I].
    destruct (Hs k s I) as (W & _). unfold wf_node in W. tauto. }
  destruct (nodes_load junk yr yw fresh alloc p pr what old Hf Ha Hp Ids No Ni l [] eq_refl) as (os & cs & rs & Eo & En & Ec & (Lr & Hr) & G).
  { intros k s E. exact (Hs k s E). }
  cbn [List.length Nat.add] in Hr.
  assert (Er : map fst rs = nodes_from yr yw alloc old 0 l).
  { apply nth_ext_error. intros k. destruct (nth_error l k) as [s|] eqn:E.
    - destruct (Hr k s E) as (o' & E' & _). rewrite (map_nth_error fst k rs E'). cbn [fst]. symmetry.
      unfold nodes_from. erewrite map_nth_error by (apply nth_restored; apply map_nth_error; exact E). reflexivity.
    - apply nth_error_None in E. rewrite (proj2 (nth_error_None _ _)), (proj2 (nth_error_None _ _)); [reflexivity| |].
      + rewrite nodes_from_length. exact E.
      + rewrite map_length, Lr. exact E. }
  assert (Gv : gives alloc old (map fst rs) old).
  { rewrite Er. unfold nodes_from. rewrite <- (app_nil_r (map fst _)). unfold old at 3. rewrite <- (bare_nodes l).
    apply (gives_done yr alloc yw old Ids Ha No Ni [] (map bare l) []). rewrite app_nil_r, bare_nodes. reflexivity. }
  destruct (choose (fun k s f => exists o1 o2, f = (sv_type s, o2) /\ nth_error rs k = Some (new_node yr yw alloc k s, (sv_type s, o1)) /\
      sames (newptr alloc old) (id_of old) (newsym yw yr) (kept (sv_type s) (sv_obj s)) o1 /\
      sames (newptr alloc old) (id_of old) (newsym yw yr) (finally (sv_type s) (sv_obj s)) o2 /\
      (if n_an (new_node yr yw alloc k s) =? 0 then Some o1 else match sv_type s with OVpic => reanimate_vpic (map fst rs) o1 | _ => None end) = Some o2) l)
    as (fs & Lf & Hfs).
  { intros k s E. destruct (Hr k s E) as (o1 & E1 & S1). destruct (Hs k s E) as (_ & _ & I & An).
    assert (D : sv_type s = OVpic \/ (match sv_type s with OVpic => true | _ => false end = false /\ finally (sv_type s) (sv_obj s) = kept (sv_type s) (sv_obj s)))
      by (destruct (sv_type s); (left; reflexivity) || (right; split; reflexivity)).
    destruct D as [D|[D F]].
    - rewrite D in An. pose proof S1 as S1'. rewrite D in I, S1'.
      assert (Ko : kept OVpic (sv_obj s) = sv_obj s) by (unfold kept; destruct (get "params" (sv_obj s)) as [[]|]; reflexivity).
      rewrite Ko in S1'.
      destruct (vpic_alive yw yr alloc old (map fst rs) _ _ _ _ o1 I Gv (fun n J => proj2 (proj2 (Ids n J))) S1') as (o2 & E2 & S2).
      eexists. exists o1, o2. split; [reflexivity|]. split; [exact E1|]. split; [exact S1|]. rewrite D. split; [exact S2|].
      cbn [new_node n_an]. replace (newsym yw yr (n_an (sv_node s)) =? 0) with false by lia. exact E2.
    - rewrite D in An. eexists. exists o1, o1. split; [reflexivity|]. split; [exact E1|]. split; [exact S1|].
      split; [rewrite F; exact S1|]. cbn [new_node n_an]. rewrite An. reflexivity. }
  exists os, (Plain (le 8 next) :: cs ++ [Mark M_end [M_node; M_end]]), rs, fs. split; [exact Eo|]. split.
  { change (checkpoint yw next os) with (match put_nodes yw (map node_of os) os with
      None => None | Some cs => Some (Plain (le 8 next) :: cs ++ [Mark M_end [M_node; M_end]]) end).
    rewrite En. fold old. rewrite Ec. reflexivity. }
  split.
  { intros extra. match goal with |- context [flat (?x :: ?l)] => change (flat (x :: l)) with (bytes_of x ++ flat l) end. cbn [bytes_of].
    unfold load. rewrite <- app_assoc, get_word_exact by exact Hn. change (@nil node) with (nodes_from yr yw alloc old 0 []). rewrite G. destruct (forallb _ l); reflexivity. }
  split.
  { apply reanimate_all_ok; [lia|]. intros k n t o E.
    destruct (nth_error l k) as [s|] eqn:El; [|apply nth_error_None in El; rewrite (proj2 (nth_error_None rs k)) in E by lia; discriminate].
    destruct (Hfs k s El) as (f & Ef & o1 & o2 & -> & E1 & _ & _ & R). rewrite E in E1. injection E1 as -> -> ->. exists o2. split; assumption. }
  split; [exact Lr|]. split; [exact Lf|]. intros k s E. destruct (Hfs k s E) as (f & Ef & o1 & o2 & -> & E1 & S1 & S2 & _).
  exists o1, o2. repeat split; assumption.
Qed.
