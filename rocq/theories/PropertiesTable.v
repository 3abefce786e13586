(* C83: the table of energies that dump_energies writes. *)
From Coq Require Import ZArith List Bool Ascii String Lia.
From Verif Require Import NameModel NameProofs TableModel TableSpec TableProofs.
Import ListNotations.
Open Scope string_scope.
Open Scope list_scope.
Open Scope Z_scope.
Ltac Zify.zify_post_hook ::= idtac.

(* a dump with append = 0 and any number of dumps that append: whatever was in the file before, a reader finds three lines of header and
   one line per dump, in order, and in the line of a dump the step, the six field energies and the energy of each species.  fmt is the
   text %e prints for a double: never empty, without space and newline *)
Theorem C83_table : forall (V : Type) (fmt : V -> list ascii) dt f d more,
  (forall v, word (fmt v)) -> Forall (fun s => ~ In (ascii_of_nat 10) (fst s)) (d_species d) -> Forall (fun m => - 2 ^ 63 <= d_step m < 2 ^ 63) (d :: more) ->
  exists text lay rows, table fmt dt f d more = Some text /\
    lines text = chars "% Layout" :: lay :: (chars "% timestep = " ++ fmt dt) :: rows ++ [[]] /\
    Forall2 (fun m r => words r = decimal (d_step m) :: map (fun i => fmt (d_field m i)) [0; 1; 2; 3; 4; 5]%nat ++ map (fun s => fmt (snd s)) (d_species m))
      (d :: more) rows /\
    (Forall (fun s => ~ In (ascii_of_nat 32) (fst s)) (d_species d) ->
       words lay = map chars ["%"; "step"; "ex"; "ey"; "ez"; "bx"; "by"; "bz"] ++ map (fun s => [ascii_of_nat 34] ++ fst s ++ [ascii_of_nat 34]) (d_species d)).
Proof.
  intros V fmt dt f d more Hw Hn Hl.
  destruct (table_lines fmt Hw dt f d more) as (text & E & L).
  - apply Forall_map. exact Hn.
  - exact Hl.
  - exists text, (layout (map fst (d_species d))), (map (row fmt) (d :: more)). split; [exact E|]. split; [exact L|]. split.
    + clear E L Hn. induction Hl as [|m ms Hm Hms IH]; [constructor|]. cbn [map]. constructor; [apply (row_words fmt Hw m Hm)|exact IH].
    + intro Hs. rewrite layout_words, map_map; [reflexivity|]. apply Forall_map. apply Forall_forall. intros s I. rewrite Forall_forall in Hn, Hs. split; auto.
Qed.
Print Assumptions C83_table.

(* so, with the same species at every dump and no space in a name, each column stands under its heading: the words of a row are one
   fewer than those of the layout line, which starts with %, and the value of species number j is in the column of its name *)
Theorem C83_columns : forall (V : Type) (fmt : V -> list ascii) dt f d more,
  (forall v, word (fmt v)) -> Forall (fun s => ~ In (ascii_of_nat 10) (fst s) /\ ~ In (ascii_of_nat 32) (fst s)) (d_species d) ->
  Forall (fun m => - 2 ^ 63 <= d_step m < 2 ^ 63 /\ map fst (d_species m) = map fst (d_species d)) (d :: more) ->
  exists text lay, table fmt dt f d more = Some text /\ nth_error (lines text) 1 = Some lay /\
  forall k m, nth_error (d :: more) k = Some m -> exists r, nth_error (lines text) (3 + k) = Some r /\
    List.length (words lay) = S (List.length (words r)) /\
    nth_error (words r) 0 = Some (decimal (d_step m)) /\
    (forall i name, nth_error (map chars ["ex"; "ey"; "ez"; "bx"; "by"; "bz"]) i = Some name ->
       nth_error (words lay) (2 + i) = Some name /\ nth_error (words r) (1 + i) = Some (fmt (d_field m i))) /\
    (forall j name v, nth_error (d_species m) j = Some (name, v) ->
       nth_error (words lay) (8 + j) = Some ([ascii_of_nat 34] ++ name ++ [ascii_of_nat 34]) /\ nth_error (words r) (7 + j) = Some (fmt v)).
Proof.
  intros V fmt dt f d more Hw Hn Hl.
  destruct (C83_table V fmt dt f d more Hw) as (text & lay & rows & E & L & R & W).
  - eapply Forall_impl; [|exact Hn]. intros s [A _]. exact A.
  - eapply Forall_impl; [|exact Hl]. intros s [A _]. exact A.
  - specialize (W ltac:(eapply Forall_impl; [|exact Hn]; intros s [_ A]; exact A)).
    exists text, lay. split; [exact E|]. split; [rewrite L; reflexivity|].
    intros k m Hk.
    assert (Hr : exists r, nth_error rows k = Some r /\
      words r = decimal (d_step m) :: map (fun i => fmt (d_field m i)) [0; 1; 2; 3; 4; 5]%nat ++ map (fun s => fmt (snd s)) (d_species m)).
    { clear - R Hk. revert k Hk. induction R as [|x y xs ys P R IH]; intros k Hk; [destruct k; discriminate|].
      destruct k as [|k]; [injection Hk as <-; exists y; split; [reflexivity|exact P]|]. exact (IH k Hk). }
    destruct Hr as (r & Hr & P). exists r. split.
    { rewrite L. cbn [nth_error Nat.add]. rewrite nth_error_app1; [exact Hr|]. apply nth_error_Some. rewrite Hr. discriminate. }
    assert (S : map fst (d_species m) = map fst (d_species d)).
    { rewrite Forall_forall in Hl. apply (Hl m). apply nth_error_In in Hk. exact Hk. }
    rewrite W, P. split.
    { cbn [map List.length app]. rewrite !map_length. apply (f_equal (@List.length _)) in S. rewrite !map_length in S. lia. }
    split; [reflexivity|]. split.
    { intros i name Hi. do 6 (destruct i as [|i]; [cbn in Hi; injection Hi as <-; split; reflexivity|]). destruct i; discriminate Hi. }
    intros j name v Hj. split.
    + cbn [nth_error map app Nat.add].
      assert (N : nth_error (map fst (d_species d)) j = Some name) by (rewrite <- S; apply (map_nth_error fst j (d_species m) Hj)).
      rewrite <- (map_map fst (fun n => ascii_of_nat 34 :: n ++ [ascii_of_nat 34])). exact (map_nth_error (fun n => ascii_of_nat 34 :: n ++ [ascii_of_nat 34]) j _ N).
    + cbn [nth_error map app Nat.add]. apply (map_nth_error (fun s => fmt (snd s)) j _ Hj).
Qed.
Print Assumptions C83_columns.

(* the row of a dump tells its step and the text of every energy *)
Theorem C83_rows_tell : forall (V : Type) (fmt : V -> list ascii) a dt u d u' d' t,
  (forall v, word (fmt v)) -> - 2 ^ 63 <= d_step d < 2 ^ 63 -> - 2 ^ 63 <= d_step d' < 2 ^ 63 -> a <> 0 -> u = u' ->
  dump_file fmt a dt (Some u) d = Some t -> dump_file fmt a dt (Some u') d' = Some t ->
  d_step d = d_step d' /\ (forall i, (i < 6)%nat -> fmt (d_field d i) = fmt (d_field d' i)) /\
  map (fun s => fmt (snd s)) (d_species d) = map (fun s => fmt (snd s)) (d_species d').
Proof.
  intros V fmt a dt u d u' d' t Hw H H' Ha <- E E'. rewrite dump_append in E, E' by exact Ha.
  assert (R : row fmt d = row fmt d').
  { assert (Q : u ++ row fmt d ++ [newline] = u ++ row fmt d' ++ [newline]) by congruence. apply app_inv_head in Q. apply app_inv_tail in Q. exact Q. }
  apply (f_equal words) in R. rewrite !row_words in R by assumption. cbn [map seq app] in R. injection R as R0 R1 R2 R3 R4 R5 R6 R7.
  split; [exact (decimal_inj _ _ H H' R0)|]. split; [|exact R7].
  intros i Hi. do 6 (destruct i as [|i]; [assumption|]). lia.
Qed.
Print Assumptions C83_rows_tell.

(* a dump that appends keeps the text there is and adds one line; where there is no file it makes one without header *)
Theorem C83_append : forall (V : Type) (fmt : V -> list ascii) a dt f d,
  (forall v, word (fmt v)) -> - 2 ^ 63 <= d_step d < 2 ^ 63 -> a <> 0 ->
  exists r, dump_file fmt a dt f d = Some (match f with Some u => u | None => [] end ++ r ++ [ascii_of_nat 10]) /\ ~ In (ascii_of_nat 10) r /\
    words r = decimal (d_step d) :: map (fun i => fmt (d_field d i)) [0; 1; 2; 3; 4; 5]%nat ++ map (fun s => fmt (snd s)) (d_species d).
Proof.
  intros V fmt a dt f d Hw H Ha. exists (row fmt d). split; [|split; [apply (row_line fmt Hw d H)|apply (row_words fmt Hw d H)]].
  destruct f as [u|]; [apply dump_append; exact Ha|apply dump_append_new; exact Ha].
Qed.
Print Assumptions C83_append.

Definition is_sum (c : call) : bool := match c with AllSum _ => true | _ => false end.

(* every rank takes part in the same collective sums, in the same order: rank 0, whose file opened, and all others, whatever append is and
   whether the file closes; the other ranks do nothing else *)
Theorem C83_collectives : forall (V : Type) (fmt : V -> list ascii) rank opens closes a dt d, rank <> 0 \/ opens = true ->
  filter is_sum (dump_energies fmt rank true opens closes a dt d) = AllSum 6 :: repeat (AllSum 1) (List.length (d_species d)) /\
  (rank <> 0 -> filter is_sum (dump_energies fmt rank true opens closes a dt d) = dump_energies fmt rank true opens closes a dt d).
Proof.
  intros V fmt rank opens closes a dt d H.
  assert (P : forall (g : list ascii * V -> list call) sp, (forall s, filter is_sum (g s) = []) ->
    filter is_sum (flat_map (fun s => AllSum 1 :: g s) sp) = repeat (AllSum 1) (List.length sp)).
  { intros g sp Hg. induction sp as [|s sp IH]; [reflexivity|]. cbn [flat_map]. rewrite filter_app, IH. cbn. rewrite Hg. reflexivity. }
  assert (N : forall sp : list (list ascii * V), filter is_sum (map (fun s => Print (chars " " ++ [quote] ++ fst s ++ [quote])) sp) = []).
  { intros sp. induction sp as [|s sp IH]; [reflexivity|exact IH]. }
  unfold dump_energies. cbn [negb]. destruct (Z.eqb_spec rank 0) as [E|E].
  - split; [|intro C; contradiction]. destruct H as [H|H]; [contradiction|]. rewrite H. cbn [andb negb]. rewrite !filter_app.
    rewrite (P (fun s => [Print (chars " " ++ fmt (snd s))])) by reflexivity.
    destruct (a =? 0); cbn [filter app is_sum].
    + unfold header. rewrite !filter_app, N. cbn [filter is_sum app]. destruct closes; cbn; rewrite app_nil_r; reflexivity.
    + destruct closes; cbn; rewrite app_nil_r; reflexivity.
  - cbn [andb app]. split; intros; rewrite ?app_nil_r.
    + cbn [filter is_sum]. rewrite (P (fun _ => [])) by reflexivity. reflexivity.
    + cbn [filter is_sum]. rewrite (P (fun _ => [])) by reflexivity. f_equal.
      induction (d_species d) as [|s sp IH]; [reflexivity|]. cbn. f_equal. exact IH.
Qed.
Print Assumptions C83_collectives.

(* where the file does not open rank 0 exits before its first sum, while every other rank waits in one; without a name every rank exits *)
Theorem C83_failures : forall (V : Type) (fmt : V -> list ascii) rank opens closes a dt d,
  dump_energies fmt rank false opens closes a dt d = [Exit] /\
  dump_energies fmt 0 true false closes a dt d = [Open (negb (a =? 0)); Exit] /\
  (rank <> 0 -> exists l, dump_energies fmt rank true false closes a dt d = AllSum 6 :: l) /\
  (forall l, dump_energies fmt 0 true true false a dt d = l -> exists m, l = m ++ [Close; Exit] /\ ~ In Exit m).
Proof.
  intros V fmt rank opens closes a dt d. repeat split.
  - intro H. unfold dump_energies. cbn [negb]. rewrite (proj2 (Z.eqb_neq rank 0) H). cbn. eexists. reflexivity.
  - intros l <-. unfold dump_energies. cbn [negb Z.eqb andb]. eexists. split.
    + change ([Print [newline]; Close] ++ [Exit]) with ([Print [newline]] ++ [Close; Exit]). rewrite !app_assoc. reflexivity.
    + intro I. rewrite <- !app_assoc in I.
      apply in_app_or in I. destruct I as [I|I]; [destruct I as [I|[]]; discriminate I|].
      apply in_app_or in I. destruct I as [I|I].
      { destruct (a =? 0); [|destruct I]. unfold header in I. apply in_app_or in I. destruct I as [I|I]; [destruct I as [I|[]]; discriminate I|].
        apply in_app_or in I. destruct I as [I|I]; [apply in_map_iff in I; destruct I as (x & I & _); discriminate I|].
        destruct I as [I|[I|[]]]; discriminate I. }
      apply in_app_or in I. destruct I as [I|I]; [destruct I as [I|[]]; discriminate I|].
      apply in_app_or in I. destruct I as [I|I]; [destruct I as [I|[]]; discriminate I|].
      apply in_app_or in I. destruct I as [I|I]; [destruct I as [I|[]]; discriminate I|].
      apply in_app_or in I. destruct I as [I|I]; [|destruct I as [I|[]]; discriminate I].
      apply in_flat_map in I. destruct I as (x & _ & [I|[I|[]]]); discriminate I.
Qed.
Print Assumptions C83_failures.

(* a species defined between two dumps goes to the head of the list, and its energies then stand in the column headed with the name of
   the species before it *)
Theorem C83_late_species_refuted : exists (fmt : Z -> list ascii) dt d d' text lay r, (forall v, - 10 < v < 10 -> word (fmt v)) /\
  d_species d' = append_species (chars "ion", 8) (d_species d) /\ d_species d = [(chars "electron", 7)] /\
  table fmt dt None d [d'] = Some text /\ nth_error (lines text) 1 = Some lay /\ nth_error (lines text) 4 = Some r /\
  nth_error (words lay) 8 = Some ([ascii_of_nat 34] ++ chars "electron" ++ [ascii_of_nat 34]) /\ nth_error (words r) 7 = Some (fmt 8).
Proof.
  exists decimal, 1, {| d_step := 0; d_field := Z.of_nat; d_species := [(chars "electron", 7)] |},
    {| d_step := 1; d_field := Z.of_nat; d_species := append_species (chars "ion", 8) [(chars "electron", 7)] |}.
  do 3 eexists. split; [intros v H; apply word_decimal; split; [|]; (assert (2 ^ 63 = 9223372036854775808) by reflexivity; lia)|].
  do 2 (split; [reflexivity|]). do 3 (split; [vm_compute; reflexivity|]). split; vm_compute; reflexivity.
Qed.
Print Assumptions C83_late_species_refuted.

(* a space in a name adds a heading: the layout line then has two words more than a row *)
Theorem C83_space_in_name_refuted : exists (fmt : Z -> list ascii) dt d text lay r,
  d_species d = [(chars "hot electron", 7)] /\ table fmt dt None d [] = Some text /\ nth_error (lines text) 1 = Some lay /\ nth_error (lines text) 3 = Some r /\
  List.length (words lay) = S (S (List.length (words r))).
Proof.
  exists decimal, 1, {| d_step := 0; d_field := Z.of_nat; d_species := [(chars "hot electron", 7)] |}. do 3 eexists.
  split; [reflexivity|]. do 3 (split; [vm_compute; reflexivity|]). vm_compute. reflexivity.
Qed.
Print Assumptions C83_space_in_name_refuted.

(* two species, two dumps, over a file that held something else *)
Definition ex_dump (n : Z) : dump Z := {| d_step := n; d_field := fun i => Z.of_nat i + n; d_species := [(chars "i", 30 + n); (chars "e", 40 + n)] |}.
Definition lf : string := String newline EmptyString.
Definition q : string := String quote EmptyString.
Example C83_example_file : table decimal 5 (Some (chars "old text")) (ex_dump 0) [ex_dump 10] =
  Some (chars ("% Layout" ++ lf ++ "% step ex ey ez bx by bz " ++ q ++ "i" ++ q ++ " " ++ q ++ "e" ++ q ++ lf ++ "% timestep = 5" ++ lf ++
    "0 0 1 2 3 4 5 30 40" ++ lf ++ "10 10 11 12 13 14 15 40 50" ++ lf))%string.
Proof. vm_compute. reflexivity. Qed.
Example C83_example_words : option_map (fun t => map (fun l => List.length (words l)) (lines t)) (table decimal 5 None (ex_dump 0) [ex_dump 10]) =
  Some [2; 10; 4; 9; 9; 0]%nat.
Proof. vm_compute. reflexivity. Qed.
Example C83_example_ranks : filter is_sum (dump_energies decimal 0 true true true 0 5 (ex_dump 0)) = [AllSum 6; AllSum 1; AllSum 1] /\
  dump_energies decimal 3 true true true 0 5 (ex_dump 0) = [AllSum 6; AllSum 1; AllSum 1].
Proof. split; vm_compute; reflexivity. Qed.
Example C83_example_failure : dump_energies decimal 0 true false true 1 5 (ex_dump 0) = [Open true; Exit].
Proof. vm_compute. reflexivity. Qed.
