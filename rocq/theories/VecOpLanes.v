(* Every function of every header, in one lane. *)
From Coq Require Import ZArith List String Bool Ascii Lia.
From Flocq Require Import IEEE754.Binary IEEE754.Bits.
From Verif Require Import VecOpModel VecOpTable VecOpSpec VecOpProofs VecOpWords.
Import ListNotations.
Ltac Zify.zify_post_hook ::= idtac.
Open Scope Z_scope.

Fixpoint assoc {A} (l : list (string * A)) (n : string) : option A :=
  match l with [] => None | (m, a) :: l => if String.eqb n m then Some a else assoc l n end.

Definition lane_ok (h : hdr) (q : string * list (string * nat) * option (list sx)) : Prop :=
  let '(n, ps, o) := q in
  match o with
  | Some ts => forall F c sp, sub_from_zero F -> Forall word c -> List.length c = List.length ps ->
      lane_dom h n c = true -> assoc (lane_specs F h) n = Some sp ->
      opts (map (fun t => eval F (cenv ps c) (sx_at 0 t)) ts) = sp c
  | None => False
  end.

Definition summary (h : hdr) : list (string * list (string * nat) * option (list sx)) :=
  map (fun f => (f_name f, f_params f, form (width h) f)) (ops h).

Ltac go :=
  match goal with
  | |- lane_ok _ _ =>
    let F := fresh "F" in let c := fresh "c" in let sp := fresh "sp" in
    intros F c sp SZ HW HL HD HS;
    cbv [lane_specs map app int_ops int_tests float_ops float_tests math1 math2 assoc String.append
         String.eqb Ascii.eqb Bool.eqb fst snd fused portable] in HS;
    injection HS as <-;
    cbv [lane_dom] in HD;
    destruct c as [|a [|b [|d [|? ?]]]]; try discriminate HL; clear HL;
    cbv [opts map eval cenv sx_at ix_at List.find combine fst snd String.eqb Ascii.eqb Bool.eqb]
  end.

Lemma val1 : val 1 = 1.
Proof. reflexivity. Qed.
Lemma feq_zero_l : forall a, feq 0 a = feq a 0.
Proof. intros a. apply feq_sym. Qed.
Lemma land_mask : forall a b, Z.land (mask a) (mask b) = mask (a && b).
Proof. intros [|] [|]; reflexivity. Qed.
Lemma lor_mask : forall a b, Z.lor (mask a) (mask b) = mask (a || b).
Proof. intros [|] [|]; reflexivity. Qed.
Lemma wnot_mask : forall a, wnot (mask a) = mask (negb a).
Proof. intros [|]; reflexivity. Qed.

(* a word given by its bits *)
Ltac wd := first [assumption | apply word_ones | apply word_land; wd | apply word_lor; wd | apply word_lxor; wd | apply word_wnot; wd].
Ltac bitwise :=
  f_equal; f_equal; apply bits_spec;
  [ wd
  | let i := fresh "i" in let Hi := fresh "Hi" in
    intros i Hi; rewrite ?Z.lor_spec, ?Z.land_spec, ?Z.lxor_spec; rewrite ?(wnot_bit _ i Hi);
    repeat match goal with |- context [Z.testbit ?x i] => destruct (Z.testbit x i) end; reflexivity ].

Ltac words :=
  repeat match goal with
  | H : Forall word (_ :: _) |- _ => let A := fresh "A" in let B := fresh "B" in
      inversion H as [|? ? A B]; subst; clear H
  | H : Forall word [] |- _ => clear H
  end.

Ltac fin :=
  words;
  cbv [eval1 eval2 eval3 on1 on2 on3 one option_map ftruth newton_rcp newton_rsqrt f1 fhalf];
  change sint with val; change of_sint with int_result;
  change 4294967295 with ones; fold wnot;
  repeat match goal with |- context [Z.lxor ?a ones] => change (Z.lxor a ones) with (wnot a) end;
  rewrite ?neg_b2w, ?b2m_mask, ?fcmp_lt, ?fcmp_gt, ?fcmp_eq, ?fcmp_ne, ?fcmp_le, ?fcmp_ge, ?val1;
  rewrite ?wnot_mask, ?land_mask, ?lor_mask;
  first
  [ reflexivity
  | match goal with |- context [int_result ?z] => destruct (int_result z); reflexivity end
  | bitwise
  | match goal with
    | |- context [if ?b =? 0 then None else int_result _] =>
        rewrite (eqb0_val b) by assumption; destruct (val b =? 0);
        [reflexivity | match goal with |- context [int_result ?z] => destruct (int_result z); reflexivity end]
    | A : word ?a, B : word ?b |- context [int_result (Z.rem (val ?a) (val ?b))] =>
        rewrite (rem_word a b A B); change (- 2 ^ 31) with (-2147483648);
        match goal with |- match ?x with _ => _ end = _ => destruct x; reflexivity end
    | A : word ?a, B : word ?b |- context [Z.shiftl ?a ?b] =>
        rewrite (shl_word a b A B); change (Z.pow_pos 2 32) with (2 ^ 32);
        match goal with |- match ?x with _ => _ end = _ => destruct x; reflexivity end
    | A : word ?a, B : word ?b |- context [Z.shiftr (val ?a) ?b] =>
        rewrite (shr_word a b A B); change (Z.pow_pos 2 32) with (2 ^ 32);
        match goal with |- match ?x with _ => _ end = _ => destruct x; reflexivity end
    | A : word ?a, B : word ?b |- context [mask (?a =? ?b)] => rewrite (eqb_val a b A B); reflexivity
    | A : word ?a, B : word ?b |- context [mask (negb (?a =? ?b))] => rewrite (eqb_val a b A B); reflexivity
    | A : word ?a, B : word ?b |- context [negb (?a =? 0)] => rewrite (eqb0_val a A), (eqb0_val b B); reflexivity
    | A : word ?a |- Some [mask (?a =? 0)] = Some [mask (val ?a =? 0)] => rewrite (eqb0_val a A); reflexivity
    | A : word ?a |- Some [wnot ?a] = _ => rewrite <- (not_word a A); reflexivity
    | A : word ?a |- context [int_result (Z.abs (val ?a))] =>
        change (val 0) with 0; rewrite (abs_word a A); reflexivity
    | |- context [feq 0 ?a] => rewrite (feq_zero_l a); reflexivity
    | A : word ?a, SZ : sub_from_zero ?F |- Some [f_sub ?F 0 ?a] = _ =>
        match goal with D : _ && _ = true |- _ =>
          let D1 := fresh "D" in let D2 := fresh "D" in
          apply andb_true_iff in D; destruct D as [D1 D2];
          rewrite (SZ a A); [reflexivity | |];
          [ intros ->; discriminate D1 | destruct (nan a); [discriminate D2 | reflexivity] ]
        end
    | |- Some [Z.land (wnot 2147483648) ?a] = _ =>
        change (wnot 2147483648) with 2147483647; rewrite Z.land_comm, (abs_land a); reflexivity
    | |- Some [Z.land ?a 2147483647] = _ => rewrite (abs_land a); reflexivity
    | A : word ?a, B : word ?b |- Some [Z.lor (Z.land 2147483648 ?b) (Z.land (wnot 2147483648) ?a)] = _ =>
        change 2147483648 with signbit; rewrite (copysign_word a b A B); reflexivity
    | A : word ?a, D : negb _ = true |- context [if ?a =? 0 then Some ones else Some 0] =>
        rewrite (not_word_float a A); [destruct (feq a 0); reflexivity | intros ->; discriminate D]
    | A : word ?a, B : word ?b, D : _ && _ = true |- context [if b2w (flt ?b 0) =? 0 then Some (Z.land ?a _) else _] =>
        let D1 := fresh "D" in let D2 := fresh "D" in
        let N := fresh "N" in let M := fresh "M" in
        apply andb_true_iff in D; destruct D as [D1 D2];
        assert (N : b <> 2 ^ 31) by (intros ->; discriminate D1);
        assert (M : nan b = false) by (destruct (nan b); [discriminate D2 | reflexivity]);
        change (Z.pow_pos 2 31) with (2 ^ 31); rewrite <- (copysign_cond a b A B N M);
        destruct (b2w (flt b 0) =? 0); reflexivity
    | D : (?a =? ?b) = true |- Some [Z.land ?a (wnot ?b)] = _ =>
        apply Z.eqb_eq in D; subst a; bitwise
    | |- context [fneqord ?a ?b] =>
        match goal with D : _ && _ = true |- _ =>
          let D1 := fresh "D" in let D2 := fresh "D" in
          apply andb_true_iff in D; destruct D as [D1 D2];
          apply negb_true_iff in D1; apply negb_true_iff in D2;
          rewrite ?fneqord_word by (assumption || reflexivity); rewrite ?land_mask, ?lor_mask; reflexivity
        end
    | A : word ?a |- Some [Z.lxor ?a signbit] = _ => rewrite (flip_word a A); reflexivity
    end
  | idtac ].

Ltac all_lanes h :=
  let s := eval vm_compute in (summary h) in
  assert (E : summary h = s) by (vm_compute; reflexivity); rewrite E; clear E;
  repeat (apply Forall_cons; [go; fin|]); apply Forall_nil.
