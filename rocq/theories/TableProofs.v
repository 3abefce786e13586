From Coq Require Import ZArith List Bool Ascii String Lia.
From Verif Require Import NameModel ModifySpec NameProofs TableModel TableSpec.
Import ListNotations.
Open Scope string_scope.
Open Scope list_scope.
Open Scope Z_scope.
Ltac Zify.zify_post_hook ::= idtac.

Lemma split_none : forall c l cur, ~ In c l -> split c cur l = [cur ++ l].
Proof.
  intros c l; induction l as [|x t IH]; intros cur H; cbn; [rewrite app_nil_r; reflexivity|].
  destruct (Ascii.eqb_spec x c) as [->|N]; [elim H; left; reflexivity|].
  rewrite IH by (intro; apply H; right; assumption). rewrite <- app_assoc. reflexivity.
Qed.
Lemma split_at : forall c a b cur, ~ In c a -> split c cur (a ++ c :: b) = (cur ++ a) :: split c [] b.
Proof.
  intros c a; induction a as [|x t IH]; intros b cur H; cbn.
  - rewrite Ascii.eqb_refl, app_nil_r. reflexivity.
  - destruct (Ascii.eqb_spec x c) as [->|N]; [elim H; left; reflexivity|].
    rewrite IH by (intro; apply H; right; assumption). rewrite <- app_assoc. reflexivity.
Qed.
Lemma split_lines : forall ls r, Forall (fun l => ~ In newline l) ls ->
  lines (List.concat (map (fun l => l ++ [newline]) ls) ++ r) = ls ++ lines r.
Proof.
  intros ls r F. induction ls as [|l ls IH]; [reflexivity|]. apply Forall_cons_iff in F. destruct F as [F G].
  cbn [map List.concat app]. unfold lines in *. rewrite <- !app_assoc. cbn [app]. change (ascii_of_nat 10) with newline in *.
  rewrite split_at by exact F. cbn [app]. f_equal. apply IH. exact G.
Qed.
Lemma split_words : forall ws w0, ~ In (ascii_of_nat 32) w0 -> Forall (fun w => ~ In (ascii_of_nat 32) w) ws ->
  split (ascii_of_nat 32) [] (w0 ++ List.concat (map (fun w => ascii_of_nat 32 :: w) ws)) = w0 :: ws.
Proof.
  intros ws; induction ws as [|w ws IH]; intros w0 H F.
  - cbn. rewrite app_nil_r. rewrite split_none by exact H. reflexivity.
  - apply Forall_cons_iff in F. destruct F as [F G]. cbn [map List.concat]. cbn [app].
    rewrite split_at by exact H. cbn [app]. f_equal. apply IH; assumption.
Qed.
Lemma filter_words : forall ws, Forall word ws -> filter (fun w : list ascii => match w with [] => false | _ => true end) ws = ws.
Proof.
  intros ws F. induction ws as [|w ws IH]; [reflexivity|]. apply Forall_cons_iff in F. destruct F as [(F & _) G]. cbn.
  destruct w; [elim F; reflexivity|]. rewrite IH by exact G. reflexivity.
Qed.
Lemma words_of : forall w0 ws, word w0 -> Forall word ws ->
  words (w0 ++ List.concat (map (fun w => ascii_of_nat 32 :: w) ws)) = w0 :: ws.
Proof.
  intros w0 ws H F. unfold words. rewrite split_words; [|apply H|].
  - apply (filter_words (w0 :: ws)). constructor; assumption.
  - eapply Forall_impl; [|exact F]. intros w (_ & N & _). exact N.
Qed.
Lemma word_decimal : forall n, long n -> word (decimal n).
Proof.
  intros n H. split.
  - destruct (decimal_ok n H) as (ds & N & _ & [(_ & -> & _)|(_ & -> & _)]); [exact N|discriminate].
  - split; intro I; destruct (decimal_chars n _ H I) as [D|D]; try discriminate D; unfold digit in D; change (nat_of_ascii (ascii_of_nat 32)) with 32%nat in D; change (nat_of_ascii (ascii_of_nat 10)) with 10%nat in D; lia.
Qed.
Lemma word_no_newline : forall w0 ws, word w0 -> Forall word ws ->
  ~ In newline (w0 ++ List.concat (map (fun w => ascii_of_nat 32 :: w) ws)).
Proof.
  intros w0 ws H F I. apply in_app_or in I. destruct I as [I|I]; [apply H in I; exact I|].
  apply in_concat in I. destruct I as (x & I & J). apply in_map_iff in I. destruct I as (w & <- & I).
  destruct J as [J|J]; [discriminate J|]. rewrite Forall_forall in F. apply (F w I) in J. exact J.
Qed.

Section Dump.
Context {V : Type}.
Variable fmt : V -> list ascii.

Definition row (d : dump V) : list ascii := decimal (d_step d) ++
  List.concat (map (fun w => ascii_of_nat 32 :: w) (map (fun i => fmt (d_field d i)) (seq 0 6) ++ map (fun s => fmt (snd s)) (d_species d))).
Definition layout (names : list (list ascii)) : list ascii :=
  chars "% step ex ey ez bx by bz" ++ List.concat (map (fun w => ascii_of_nat 32 :: w) (map (fun n => [quote] ++ n ++ [quote]) names)).

Lemma fold_print : forall (ts : list (list ascii)) u, fold_left on_file (map Print ts) (Some u) = Some (u ++ List.concat ts).
Proof.
  intros ts; induction ts as [|t ts IH]; intros u; cbn; [rewrite app_nil_r; reflexivity|]. rewrite IH, <- app_assoc. reflexivity.
Qed.
Lemma fold_particles : forall sp u,
  fold_left on_file (flat_map (fun s : list ascii * V => AllSum 1 :: [Print (chars " " ++ fmt (snd s))]) sp) (Some u) =
  Some (u ++ List.concat (map (fun w => ascii_of_nat 32 :: w) (map (fun s => fmt (snd s)) sp))).
Proof.
  intros sp; induction sp as [|s sp IH]; intros u; cbn; [rewrite app_nil_r; reflexivity|].
  cbn in IH. rewrite IH, <- app_assoc. reflexivity.
Qed.
Lemma fold_names : forall (sp : list (list ascii * V)) u,
  fold_left on_file (map (fun s => Print (chars " " ++ [quote] ++ fst s ++ [quote])) sp) (Some u) =
  Some (u ++ List.concat (map (fun w => ascii_of_nat 32 :: w) (map (fun n => [quote] ++ n ++ [quote]) (map fst sp)))).
Proof.
  intros sp; induction sp as [|s sp IH]; intros u; cbn; [rewrite app_nil_r; reflexivity|].
  cbn in IH. rewrite IH, <- app_assoc. reflexivity.
Qed.
Lemma dump_append : forall a dt u d, a <> 0 -> dump_file fmt a dt (Some u) d = Some (u ++ row d ++ [newline]).
Proof.
  intros a dt u d H. unfold dump_file, dump_energies. cbn [negb]. rewrite (proj2 (Z.eqb_neq a 0) H).
  rewrite Z.eqb_refl. cbn [negb andb app]. cbn [fold_left on_file]. rewrite !fold_left_app. cbn [fold_left on_file]. rewrite fold_particles.
  cbn [fold_left on_file]. f_equal. unfold row. rewrite map_app, concat_app. cbn. rewrite ?app_nil_r. do 8 (rewrite <- ?app_assoc; cbn [app]). reflexivity.
Qed.
Lemma dump_append_new : forall a dt d, a <> 0 -> dump_file fmt a dt None d = Some (row d ++ [newline]).
Proof. intros a dt d H. change (dump_file fmt a dt None d) with (dump_file fmt a dt None d).
  transitivity (dump_file fmt a dt (Some []) d); [|rewrite dump_append by exact H; reflexivity].
  unfold dump_file, dump_energies. cbn [negb]. rewrite (proj2 (Z.eqb_neq a 0) H). reflexivity.
Qed.
Lemma dump_new : forall dt f d, dump_file fmt 0 dt f d =
  Some (List.concat (map (fun l => l ++ [newline]) [chars "% Layout"; layout (map fst (d_species d)); chars "% timestep = " ++ fmt dt; row d])).
Proof.
  intros dt f d. unfold dump_file, dump_energies, header. cbn [negb]. rewrite !Z.eqb_refl. cbn [negb andb app].
  cbn [fold_left on_file]. rewrite !fold_left_app. rewrite fold_names. cbn [fold_left on_file]. rewrite !fold_left_app. cbn [fold_left on_file]. rewrite fold_particles.
  cbn [fold_left on_file]. f_equal. unfold row, layout. rewrite map_app, concat_app.
  cbn [map List.concat seq]. rewrite ?app_nil_r. 
  do 12 (rewrite <- ?app_assoc; cbn [app chars list_ascii_of_string]). reflexivity.
Qed.
Lemma table_text : forall dt f d more, table fmt dt f d more =
  Some (List.concat (map (fun l => l ++ [newline])
    ([chars "% Layout"; layout (map fst (d_species d)); chars "% timestep = " ++ fmt dt] ++ map row (d :: more)))).
Proof.
  intros dt f d more. unfold table. rewrite dump_new.
  assert (A : forall ms u, fold_left (dump_file fmt 1 dt) ms (Some u) = Some (u ++ List.concat (map (fun l => l ++ [newline]) (map row ms)))).
  { intros ms; induction ms as [|m ms IH]; intros u; [cbn; rewrite app_nil_r; reflexivity|].
    cbn [fold_left]. rewrite dump_append by discriminate. rewrite IH. cbn [map List.concat]. rewrite <- !app_assoc. reflexivity. }
  rewrite A. f_equal. cbn [map List.concat app]. do 6 (rewrite <- ?app_assoc; cbn [app List.concat]). reflexivity.
Qed.
Hypothesis fmt_word : forall v, word (fmt v).
Lemma row_words : forall d, long (d_step d) ->
  words (row d) = decimal (d_step d) :: map (fun i => fmt (d_field d i)) (seq 0 6) ++ map (fun s => fmt (snd s)) (d_species d).
Proof.
  intros d H. apply words_of; [apply word_decimal; exact H|]. apply Forall_app. split; apply Forall_forall; intros w I; apply in_map_iff in I;
    destruct I as (x & <- & _); apply fmt_word.
Qed.
Lemma row_line : forall d, long (d_step d) -> ~ In newline (row d).
Proof.
  intros d H. apply word_no_newline; [apply word_decimal; exact H|]. apply Forall_app. split; apply Forall_forall; intros w I; apply in_map_iff in I;
    destruct I as (x & <- & _); apply fmt_word.
Qed.
Lemma layout_line : forall names, Forall (fun n => ~ In newline n) names -> ~ In newline (layout names).
Proof.
  intros names F I. apply in_app_or in I. destruct I as [I|I]; [vm_compute in I; intuition discriminate|].
  apply in_concat in I. destruct I as (x & I & J). apply in_map_iff in I. destruct I as (w & <- & I). apply in_map_iff in I. destruct I as (n & <- & I).
  cbn [app In] in J. destruct J as [J|[J|J]]; [discriminate J|discriminate J|]. apply in_app_or in J. destruct J as [J|[J|[]]]; [|discriminate J].
  rewrite Forall_forall in F. exact (F n I J).
Qed.
Lemma quoted_word : forall n, ~ In newline n -> ~ In (ascii_of_nat 32) n -> word ([quote] ++ n ++ [quote]).
Proof.
  intros n A B. split; [discriminate|]. split; intro I; cbn [app In] in I; destruct I as [I|I]; try discriminate I; apply in_app_or in I; destruct I as [I|[I|[]]]; try discriminate I; tauto.
Qed.
Lemma layout_words : forall names, Forall (fun n => ~ In newline n /\ ~ In (ascii_of_nat 32) n) names ->
  words (layout names) = map chars ["%"; "step"; "ex"; "ey"; "ez"; "bx"; "by"; "bz"] ++ map (fun n => [quote] ++ n ++ [quote]) names.
Proof.
  intros names F. unfold layout.
  replace (chars "% step ex ey ez bx by bz") with
    (chars "%" ++ List.concat (map (fun w => ascii_of_nat 32 :: w) (map chars ["step"; "ex"; "ey"; "ez"; "bx"; "by"; "bz"]))) by reflexivity.
  rewrite <- app_assoc, <- concat_app, <- map_app. rewrite words_of; [reflexivity| |].
  - split; [discriminate|]. split; intros [I|[]]; discriminate I.
  - apply Forall_app. split.
    + apply Forall_forall. intros w I. repeat (destruct I as [<-|I]; [split; [discriminate|split; intro J; vm_compute in J; intuition discriminate]|]). destruct I.
    + apply Forall_forall. intros w I. apply in_map_iff in I. destruct I as (n & <- & I). rewrite Forall_forall in F. apply quoted_word; apply (F n I).
Qed.
Lemma table_lines : forall dt f d more, Forall (fun n => ~ In newline n) (map fst (d_species d)) -> Forall (fun m => long (d_step m)) (d :: more) ->
  exists text, table fmt dt f d more = Some text /\
  lines text = [chars "% Layout"; layout (map fst (d_species d)); chars "% timestep = " ++ fmt dt] ++ map row (d :: more) ++ [[]].
Proof.
  intros dt f d more Hn Hl. rewrite table_text. eexists. split; [reflexivity|].
  match goal with |- lines ?t = _ => rewrite <- (app_nil_r t) end. rewrite split_lines; [rewrite <- app_assoc; reflexivity|].
  apply Forall_app. split.
  - constructor; [intro I; vm_compute in I; intuition discriminate|]. constructor; [apply layout_line; exact Hn|].
    constructor; [|constructor]. intro I. apply in_app_or in I. destruct I as [I|I]; [vm_compute in I; intuition discriminate|].
    apply fmt_word in I. exact I.
  - apply Forall_forall. intros l I. apply in_map_iff in I. destruct I as (m & <- & I). apply row_line. rewrite Forall_forall in Hl. apply Hl. exact I.
Qed.
End Dump.
