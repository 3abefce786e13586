From Coq Require Import ZArith List Bool Ascii String Lia ZifyBool.
From Verif Require Import ModifyModel ModifySpec.
Import ListNotations.
Open Scope string_scope.
Open Scope list_scope.
Open Scope Z_scope.
Ltac Zify.zify_post_hook ::= idtac.

Lemma is_space_white : forall c, is_space c = true <-> white c.
Proof. intro c. unfold is_space, white. cbn [In]. lia. Qed.
Lemma is_digit_digit : forall c, is_digit c = true <-> digit c.
Proof. intro c. unfold is_digit, digit. lia. Qed.
Lemma is_newline_eq : forall c, is_newline c = true <-> c = "010"%char.
Proof.
  intro c. unfold is_newline. split; [intro H|intros ->; reflexivity]. rewrite <- (ascii_nat_embedding c). assert (E : nat_of_ascii c = 10%nat) by lia. rewrite E. reflexivity.
Qed.

Lemma number_app1 : forall ds c, number (ds ++ [c]) = 10 * number ds + (Z.of_nat (nat_of_ascii c) - 48).
Proof.
  induction ds as [|a ds IH]; intro c; [cbn; lia|]. cbn [number app]. rewrite IH, app_length. cbn [List.length].
  replace (Z.of_nat (List.length ds + 1)) with (Z.of_nat (List.length ds) + 1) by lia. rewrite Z.pow_add_r by lia. lia.
Qed.
Lemma number_app : forall a b, number (a ++ b) = number a * 10 ^ Z.of_nat (List.length b) + number b.
Proof.
  induction a as [|x a IH]; intro b; [cbn; lia|]. cbn [number app]. rewrite IH, app_length, Nat2Z.inj_add, Z.pow_add_r by lia. lia.
Qed.

Lemma read_digits_app : forall ds v some rest, Forall digit ds -> match rest with [] => True | c :: _ => ~ digit c end ->
  read_digits v some (ds ++ rest) = if some || negb (Nat.eqb (List.length ds) 0) then Some (v * 10 ^ Z.of_nat (List.length ds) + number ds) else None.
Proof.
  induction ds as [|c ds IH]; intros v some rest F R.
  - cbn [app List.length number Nat.eqb negb]. rewrite orb_false_r. replace (v * 10 ^ Z.of_nat 0 + 0) with v by (cbn; lia).
    destruct rest as [|c r]; [reflexivity|]. cbn [read_digits]. destruct (is_digit c) eqn:E; [|reflexivity]. apply is_digit_digit in E. contradiction.
  - inversion_clear F as [|? ? Hc Hd]. cbn [app read_digits]. apply is_digit_digit in Hc. rewrite Hc. rewrite (IH _ _ _ Hd R). cbn [orb List.length Nat.eqb negb]. rewrite orb_true_r. cbn [number]. unfold digit_of.
    f_equal. rewrite Nat2Z.inj_succ, Z.pow_succ_r by lia. lia.
Qed.
Lemma read_digits_inv : forall l v some w, read_digits v some l = Some w ->
  exists ds rest, l = ds ++ rest /\ Forall digit ds /\ match rest with [] => True | c :: _ => ~ digit c end /\ (some = false -> ds <> []) /\ w = v * 10 ^ Z.of_nat (List.length ds) + number ds.
Proof.
  induction l as [|c r IH]; intros v some w H; cbn [read_digits] in H.
  - exists [], []. destruct some; [|discriminate]. injection H as <-. repeat split; auto; try discriminate. cbn. lia.
  - destruct (is_digit c) eqn:E.
    + destruct (IH _ _ _ H) as (ds & rest & -> & F & R & _ & W). exists (c :: ds), rest. apply is_digit_digit in E. repeat split; auto; try discriminate.
      rewrite W. cbn [List.length number]. unfold digit_of. rewrite Nat2Z.inj_succ, Z.pow_succ_r by lia. lia.
    + exists [], (c :: r). destruct some; [|discriminate]. injection H as <-. repeat split; auto; try discriminate; [|cbn; lia].
      intro D. apply is_digit_digit in D. congruence.
Qed.

Lemma skip_literal_app : forall f l, skip_literal f (f ++ l) = Some l.
Proof. induction f as [|a f IH]; intro l; [reflexivity|]. cbn [app skip_literal]. rewrite Ascii.eqb_refl. apply IH. Qed.
Lemma skip_literal_inv : forall f l r, skip_literal f l = Some r -> l = f ++ r.
Proof.
  induction f as [|a f IH]; intros l r H; cbn [skip_literal] in H; [injection H as <-; reflexivity|]. destruct l as [|b l]; [discriminate|].
  destruct (Ascii.eqb a b) eqn:E; [|discriminate]. apply Ascii.eqb_eq in E. subst b. cbn [app]. f_equal. apply IH, H.
Qed.
Lemma skip_space_app : forall ws l, Forall white ws -> match l with [] => True | c :: _ => ~ white c end -> skip_space (ws ++ l) = l.
Proof.
  induction ws as [|c ws IH]; intros l F R.
  - destruct l as [|c r]; [reflexivity|]. cbn [app skip_space]. destruct (is_space c) eqn:E; [|reflexivity]. apply is_space_white in E. contradiction.
  - inversion_clear F as [|? ? Hc Hd]. cbn [app skip_space]. apply is_space_white in Hc. rewrite Hc. apply IH; assumption.
Qed.
Lemma skip_space_inv : forall l, exists ws, l = ws ++ skip_space l /\ Forall white ws /\ match skip_space l with [] => True | c :: _ => ~ white c end.
Proof.
  induction l as [|c r (ws & E & F & R)]; [exists []; repeat split; auto|]. cbn [skip_space]. destruct (is_space c) eqn:S.
  - exists (c :: ws). apply is_space_white in S. cbn [app]. repeat split; auto. congruence.
  - exists []. repeat split; auto. intro W. apply is_space_white in W. congruence.
Qed.
Lemma skip_space_twice : forall l, skip_space (skip_space l) = skip_space l.
Proof. intro l. destruct (skip_space_inv l) as (ws & _ & _ & R). apply (skip_space_app []); [constructor|exact R]. Qed.

Lemma digit_not_white : forall c, digit c -> ~ white c.
Proof. intros c. unfold digit, white. cbn [In]. lia. Qed.
Lemma digit_not_sign : forall c, digit c -> Ascii.eqb c "-" = false /\ Ascii.eqb c "+" = false.
Proof. intros c H. split; apply Ascii.eqb_neq; intros ->; unfold digit in H; cbn in H; lia. Qed.

Definition in_intb (v : Z) : bool := (- 2 ^ 31 <=? v) && (v <? 2 ^ 31).
Lemma says_itest : forall name v line, says name v line -> itest name line = if in_intb v then Match v else Undefined.
Proof.
  intros name v line (ws & sg & ds & rest & -> & W & N & F & R & C). unfold itest. rewrite skip_literal_app. unfold scan_d. rewrite skip_space_twice.
  destruct ds as [|d ds]; [contradiction|]. assert (Hd : digit d) by (inversion F; assumption). destruct (digit_not_sign d Hd) as [S1 S2].
  pose proof (read_digits_app (d :: ds) 0 false rest F R) as RD. cbn [List.length Nat.eqb negb orb] in RD. rewrite Z.mul_0_l, Z.add_0_l in RD.
  destruct C as [[[-> | ->] ->] | [-> ->]].
  - rewrite skip_space_app; [|exact W|cbn [app]; apply digit_not_white, Hd]. cbn [app] in *. rewrite S1, S2, RD. reflexivity.
  - rewrite skip_space_app; [|exact W|cbn [app]; unfold white; cbn; lia]. cbn [app] in *. cbn [Ascii.eqb]. change (Ascii.eqb "+" "-") with false. change (Ascii.eqb "+" "+") with true. cbv iota. rewrite RD. reflexivity.
  - rewrite skip_space_app; [|exact W|cbn [app]; unfold white; cbn; lia]. cbn [app] in *. change (Ascii.eqb "-" "-") with true. cbv iota. rewrite RD. reflexivity.
Qed.
Lemma itest_says : forall name line, itest name line <> No_match -> exists v, says name v line.
Proof.
  intros name line H. unfold itest in H. destruct (skip_literal _ line) as [l|] eqn:E; [|contradiction]. apply skip_literal_inv in E. subst line.
  unfold scan_d in H. rewrite skip_space_twice in H. destruct (skip_space_inv l) as (ws & El & W & R). remember (skip_space l) as m eqn:Em. clear Em. subst l.
  destruct m as [|c m]; [contradiction|]. destruct (Ascii.eqb c "-") eqn:S1; [|destruct (Ascii.eqb c "+") eqn:S2].
  - apply Ascii.eqb_eq in S1. subst c. destruct (read_digits 0 false m) as [v|] eqn:RD; [|contradiction].
    destruct (read_digits_inv _ _ _ _ RD) as (ds & rest & -> & F & Rr & N & ->). exists (- number ds). exists ws, ["-"%char], ds, rest. do 5 (split; [auto|]). right. split; reflexivity.
  - apply Ascii.eqb_eq in S2. subst c. destruct (read_digits 0 false m) as [v|] eqn:RD; [|contradiction].
    destruct (read_digits_inv _ _ _ _ RD) as (ds & rest & -> & F & Rr & N & ->). exists (number ds). exists ws, ["+"%char], ds, rest. do 5 (split; [auto|]). left. split; [right; reflexivity|reflexivity].
  - destruct (read_digits 0 false (c :: m)) as [v|] eqn:RD; [|contradiction].
    destruct (read_digits_inv _ _ _ _ RD) as (ds & rest & Ed & F & Rr & N & ->). exists (number ds). exists ws, [], ds, rest. cbn [app]. rewrite <- Ed. do 5 (split; [auto|]). left. split; [left; reflexivity|reflexivity].
Qed.
Lemma says_unique : forall name v w line, says name v line -> says name w line -> v = w.
Proof.
  intros name v w line (ws & sg & ds & rest & E1 & W & N & F & R & C) (ws' & sg' & ds' & rest' & E2 & W' & N' & F' & R' & C').
  rewrite E1 in E2. apply app_inv_head in E2. clear E1.
  destruct ds as [|d ds]; [contradiction|]. destruct ds' as [|d' ds']; [contradiction|].
  assert (Hd : digit d) by (inversion F; assumption). assert (Hd' : digit d') by (inversion F'; assumption).
  pose proof (read_digits_app (d :: ds) 0 false rest F R) as RD. pose proof (read_digits_app (d' :: ds') 0 false rest' F' R') as RD'.
  assert (Q : forall sg x (xs rest : list ascii), digit x -> (sg = [] \/ sg = ["+"%char]) \/ sg = ["-"%char] -> match sg ++ (x :: xs) ++ rest with [] => True | c :: _ => ~ white c end).
  { intros s x xs rs Hx [[-> | ->] | ->]; cbn [app]; [apply digit_not_white, Hx| |]; unfold white; cbn; lia. }
  assert (E3 : sg ++ (d :: ds) ++ rest = sg' ++ (d' :: ds') ++ rest').
  { rewrite <- (skip_space_app ws (sg ++ (d :: ds) ++ rest) W), E2, skip_space_app; try assumption; [reflexivity| |]; apply Q; try assumption; intuition. }
  destruct (digit_not_sign d Hd) as [S1 S2]. destruct (digit_not_sign d' Hd') as [S1' S2']. apply Ascii.eqb_neq in S1, S2, S1', S2'.
  assert (T : forall a b : list ascii, a = b -> read_digits 0 false a = read_digits 0 false b) by (intros; subst; reflexivity).
  destruct C as [[[-> | ->] ->] | [-> ->]], C' as [[[-> | ->] ->] | [-> ->]]; cbn [app] in *; try (injection E3; intros; congruence); try congruence;
    [apply T in E3|apply (f_equal (@tl _)) in E3; cbn [tl] in E3; apply T in E3|apply (f_equal (@tl _)) in E3; cbn [tl] in E3; apply T in E3]; cbn [app] in RD, RD'; rewrite RD, RD' in E3; cbn [List.length Nat.eqb negb orb] in E3; rewrite !Z.mul_0_l, !Z.add_0_l in E3; congruence.
Qed.

(* successive lines of a text *)
Lemma chunks_line : forall body room cur r, ~ In "010"%char body -> (List.length body < room)%nat ->
  chunks room cur (body ++ "010"%char :: r) = (rev cur ++ body ++ ["010"%char]) :: chunks 126 [] r.
Proof.
  induction body as [|c body IH]; intros room cur r NI L.
  - cbn [app chunks]. change (is_newline "010") with true. cbn [orb rev app]. reflexivity.
  - cbn [app chunks]. assert (E : is_newline c = false). { destruct (is_newline c) eqn:E; [|reflexivity]. apply is_newline_eq in E. subst. exfalso. apply NI. left. reflexivity. }
    cbn [List.length] in L. rewrite E. replace (Nat.eqb room 1) with false by (symmetry; apply Nat.eqb_neq; lia). cbn [orb].
    rewrite IH; [|intro; apply NI; right; assumption|lia]. cbn [rev app]. rewrite <- app_assoc. reflexivity.
Qed.
Lemma fgets_lines : forall lines, (forall l, In l lines -> text_line l /\ (List.length l <= 126)%nat) -> fgets_all (List.concat lines) = lines.
Proof.
  unfold fgets_all. induction lines as [|l lines IH]; intro H; [reflexivity|]. destruct (H l (or_introl eq_refl)) as [(body & -> & NI) L]. rewrite app_length in L. cbn [List.length] in L.
  cbn [List.concat]. rewrite <- app_assoc. cbn [app]. rewrite chunks_line by (assumption || lia). cbn [rev app]. f_equal. apply IH. intros; apply H; right; assumption.
Qed.
(* no line is longer than 126, and the lines make up the file *)
Lemma chunks_ok : forall l room cur, (1 <= room)%nat -> (List.length cur + room = 126)%nat -> List.concat (chunks room cur l) = rev cur ++ l /\ Forall (fun x => (List.length x <= 126)%nat /\ x <> []) (chunks room cur l).
Proof.
  induction l as [|c r IH]; intros room cur R L; cbn [chunks].
  - destruct cur as [|a cur]; [split; [reflexivity|constructor]|]. cbn [List.concat]. split; [reflexivity|]. constructor; [|constructor]. rewrite rev_length. split; [lia|]. intro E. apply (f_equal (@List.length _)) in E. rewrite rev_length in E. discriminate.
  - destruct (is_newline c || Nat.eqb room 1) eqn:E.
    + destruct (IH 126%nat [] ltac:(lia) ltac:(reflexivity)) as [I1 I2]. cbn [List.concat]. rewrite I1. cbn [rev]. split; [rewrite <- !app_assoc; reflexivity|].
      constructor; [|exact I2]. rewrite app_length, rev_length. cbn [List.length]. split; [lia|]. intro E'. apply app_eq_nil in E'. destruct E'. discriminate.
    + apply orb_false_iff in E. destruct E as [_ E]. apply Nat.eqb_neq in E. destruct (IH (pred room) (c :: cur) ltac:(lia) ltac:(cbn [List.length]; lia)) as [I1 I2]. rewrite I1. cbn [rev]. rewrite <- app_assoc. split; [reflexivity|exact I2].
Qed.

(* a line starts with one name at most *)
Lemma starts : forall name c n v line, list_ascii_of_string name = c :: n -> says name v line -> exists r, line = c :: r.
Proof. intros name c n v line E (ws & sg & ds & rest & -> & _). rewrite E. cbn [app]. eauto. Qed.
Lemma itest_other : forall name c n b r, list_ascii_of_string name = c :: n -> c <> b -> itest name (b :: r) = No_match.
Proof. intros name c n b r E N. unfold itest. rewrite E. cbn [skip_literal]. apply Ascii.eqb_neq in N. rewrite N. reflexivity. Qed.
