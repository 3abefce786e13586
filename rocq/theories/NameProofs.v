From Coq Require Import ZArith List Bool Ascii String Lia ZifyBool.
From Verif Require Import NameModel ModifySpec ModifyProofs.
Import ListNotations.
Open Scope string_scope.
Open Scope list_scope.
Open Scope Z_scope.
Ltac Zify.zify_post_hook ::= idtac.

Lemma digit_char_ok : forall d, 0 <= d < 10 -> digit (digit_char d) /\ Z.of_nat (nat_of_ascii (digit_char d)) - 48 = d.
Proof. intros d H. unfold digit_char, digit. rewrite nat_ascii_embedding by lia. lia. Qed.
Lemma digits_ok : forall f n, 0 <= n < 10 ^ Z.of_nat f -> Forall digit (digits f n) /\ number (digits f n) = n.
Proof.
  induction f as [|f IH]; intros n H; [cbn in *; split; [constructor|lia]|]. cbn [digits]. destruct (n <? 10) eqn:E.
  - destruct (digit_char_ok n ltac:(lia)) as [A B]. split; [constructor; [exact A|constructor]|]. cbn [number List.length]. rewrite B. cbn. lia.
  - pose proof (Z.mod_pos_bound n 10 ltac:(lia)) as MB. pose proof (Z.div_mod n 10 ltac:(lia)) as DM.
    destruct (digit_char_ok (n mod 10) ltac:(lia)) as [A B]. rewrite Nat2Z.inj_succ, Z.pow_succ_r in H by lia.
    destruct (IH (n / 10)) as [C D]; [split; [apply Z.div_pos; lia|apply Z.div_lt_upper_bound; lia]|].
    split; [apply Forall_app; split; [exact C|constructor; [exact A|constructor]]|]. rewrite number_app1, D, B. lia.
Qed.
Lemma digits_length : forall k f n, 0 <= n < 10 ^ Z.of_nat k -> (1 <= k)%nat -> (List.length (digits f n) <= k)%nat.
Proof.
  induction k as [|k IH]; intros f n H K; [lia|]. destruct f as [|f]; [cbn; lia|]. cbn [digits]. destruct (n <? 10) eqn:E; [cbn [List.length]; lia|].
  rewrite app_length. cbn [List.length]. rewrite Nat2Z.inj_succ, Z.pow_succ_r in H by lia.
  destruct k as [|k]; [cbn in H; lia|]. assert (List.length (digits f (n / 10)) <= S k)%nat by (apply IH; [split; [apply Z.div_pos; lia|apply Z.div_lt_upper_bound; lia]|lia]). lia.
Qed.
Definition long (n : Z) : Prop := - 2 ^ 63 <= n < 2 ^ 63.
Lemma decimal_ok : forall n, long n -> exists ds, ds <> [] /\ Forall digit ds /\ ((0 <= n /\ decimal n = ds /\ number ds = n) \/ (n < 0 /\ decimal n = "-"%char :: ds /\ number ds = - n)).
Proof.
  intros n H. unfold long in H. unfold decimal. assert (P : 10 ^ Z.of_nat 20 = 100000000000000000000) by reflexivity. destruct (n <? 0) eqn:E.
  - destruct (digits_ok 20 (- n)) as [A B]; [rewrite P; clear P; lia|]. exists (digits 20 (- n)). split; [intro Z; rewrite Z in B; cbn [number] in B; clear P; lia|]. split; [exact A|]. right. split; [lia|]. split; [reflexivity|exact B].
  - destruct (digits_ok 20 n) as [A B]; [rewrite P; clear P; lia|]. exists (digits 20 n). split; [|split; [exact A|left; split; [lia|split; [reflexivity|exact B]]]].
    cbn [digits]. destruct (n <? 10); [discriminate|]. intro Z. apply app_eq_nil in Z. destruct Z. discriminate.
Qed.
Lemma decimal_inj : forall a b, long a -> long b -> decimal a = decimal b -> a = b.
Proof.
  intros a b A B E. destruct (decimal_ok a A) as (da & Na & Fa & Ha). destruct (decimal_ok b B) as (db & Nb & Fb & Hb).
  destruct da as [|x da]; [contradiction|]. destruct db as [|y db]; [contradiction|].
  assert (Dx : digit x) by (inversion Fa; assumption). assert (Dy : digit y) by (inversion Fb; assumption).
  destruct (digit_not_sign x Dx) as [Sx _]. destruct (digit_not_sign y Dy) as [Sy _]. apply Ascii.eqb_neq in Sx, Sy.
  destruct Ha as [(_ & Ea & Va)|(_ & Ea & Va)], Hb as [(_ & Eb & Vb)|(_ & Eb & Vb)]; rewrite Ea, Eb in E.
  - rewrite E in Va. lia.
  - injection E; intros; congruence.
  - injection E; intros; congruence.
  - apply (f_equal (@tl _)) in E. cbn [tl] in E. rewrite E in Va. lia.
Qed.
Lemma decimal_chars : forall n c, long n -> In c (decimal n) -> digit c \/ c = "-"%char.
Proof.
  intros n c H I. destruct (decimal_ok n H) as (ds & _ & F & [(_ & E & _)|(_ & E & _)]); rewrite E in I; rewrite Forall_forall in F; [left; apply F, I|]. destruct I as [<-|I]; [right; reflexivity|left; apply F, I].
Qed.
Lemma decimal_no_dot : forall n, long n -> ~ In "."%char (decimal n) /\ ~ In "/"%char (decimal n).
Proof. intros n H. split; intro I; (destruct (decimal_chars n _ H I) as [D|D]; [unfold digit in D; cbn in D; lia|discriminate]). Qed.
Lemma decimal_length : forall k n, 0 <= n < 10 ^ Z.of_nat k -> (1 <= k)%nat -> (List.length (decimal n) <= k)%nat.
Proof. intros k n H K. unfold decimal. replace (n <? 0) with false by lia. apply digits_length; assumption. Qed.
Lemma decimal_length_int : forall n, - 2 ^ 31 <= n < 2 ^ 31 -> (List.length (decimal n) <= 11)%nat.
Proof.
  intros n H. assert (P : 10 ^ Z.of_nat 10 = 10000000000) by reflexivity. unfold decimal. destruct (n <? 0) eqn:E.
  - assert (L : (List.length (digits 20 (- n)) <= 10)%nat) by (apply digits_length; [rewrite P; clear P|]; lia). cbn [List.length]. lia.
  - assert (L : (List.length (digits 20 n) <= 10)%nat) by (apply digits_length; [rewrite P; clear P|]; lia). lia.
Qed.

(* the part behind the last c *)
Lemma last_sep : forall (c : ascii) a b d e, ~ In c d -> ~ In c e -> a ++ [c] ++ d = b ++ [c] ++ e -> a = b /\ d = e.
Proof.
  intros c a b d e Nd Ne. revert b. induction a as [|x a IH]; intros [|y b] E; cbn [app] in E.
  - injection E as E. split; [reflexivity|exact E].
  - injection E as -> E. exfalso. apply Nd. rewrite E. apply in_or_app. right. left. reflexivity.
  - injection E as -> E. exfalso. apply Ne. rewrite <- E. apply in_or_app. right. left. reflexivity.
  - injection E as -> E. destruct (IH b E) as [-> ->]. split; reflexivity.
Qed.
Lemma sprintf_some : forall n l f, sprintf_to n l = Some f <-> f = l /\ (List.length l < n)%nat.
Proof. intros n l f. unfold sprintf_to. destruct (Nat.ltb (List.length l) n) eqn:E; [apply Nat.ltb_lt in E|apply Nat.ltb_ge in E]; (split; [|intros [-> L]]); try discriminate; try reflexivity; [intro H; injection H as <-; auto|lia]. Qed.
Lemma sprintf_none : forall n l, sprintf_to n l = None <-> (n <= List.length l)%nat.
Proof. intros n l. unfold sprintf_to. destruct (Nat.ltb (List.length l) n) eqn:E; [apply Nat.ltb_lt in E|apply Nat.ltb_ge in E]; split; try discriminate; try reflexivity; lia. Qed.
Lemma dotted : forall a b r r', long r -> long r' -> a ++ chars "." ++ decimal r = b ++ chars "." ++ decimal r' -> a = b /\ r = r'.
Proof.
  intros a b r r' L L' E. apply (last_sep "."%char) in E; try apply decimal_no_dot; try assumption. destruct E as [-> E]. split; [reflexivity|apply decimal_inj; assumption].
Qed.
Lemma dotted2 : forall a b s s' r r', long s -> long s' -> long r -> long r' -> a ++ chars "." ++ decimal s ++ chars "." ++ decimal r = b ++ chars "." ++ decimal s' ++ chars "." ++ decimal r' -> a = b /\ s = s' /\ r = r'.
Proof.
  intros a b s s' r r' A B C D E.
  assert (E' : (a ++ chars "." ++ decimal s) ++ chars "." ++ decimal r = (b ++ chars "." ++ decimal s') ++ chars "." ++ decimal r') by (rewrite <- !app_assoc; exact E).
  apply dotted in E'; try assumption. destruct E' as [E' ->]. apply dotted in E'; try assumption. intuition.
Qed.
