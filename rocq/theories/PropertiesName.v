(* C80: the names of the files of a run. *)
From Coq Require Import ZArith List Bool Ascii String Lia ZifyBool.
From Verif Require Import NameModel ModifySpec ModifyProofs NameProofs.
Import ListNotations.
Open Scope string_scope.
Open Scope list_scope.
Open Scope Z_scope.
Ltac Zify.zify_post_hook ::= idtac.

Definition int (n : Z) : Prop := - 2 ^ 31 <= n < 2 ^ 31.
Definition rank_ok (n : Z) : Prop := 0 <= n < 2 ^ 31.
Definition step_ok (n : Z) : Prop := 0 <= n < 2 ^ 63.

(* The text of a number is its digits without loss: "-" and the digits of its absolute value, and distinct numbers have distinct texts. *)
Theorem C80_decimal : forall n, - 2 ^ 63 <= n < 2 ^ 63 -> exists ds, ds <> [] /\ Forall digit ds /\
  ((0 <= n /\ decimal n = ds /\ number ds = n) \/ (n < 0 /\ decimal n = "-"%char :: ds /\ number ds = - n)).
Proof. exact decimal_ok. Qed.
Print Assumptions C80_decimal.

(* A run restored with --restore base.tag opens on every rank the file that checkpt( base, tag ) wrote on that rank. *)
Theorem C80_restore_opens_checkpoint : forall base tag rank f, checkpt_name base tag rank = Some f ->
  restore_name (base ++ list_ascii_of_string "." ++ decimal tag) rank = Some f.
Proof. intros base tag rank f H. unfold restore_name. rewrite <- !app_assoc. exact H. Qed.
Print Assumptions C80_restore_opens_checkpoint.

(* No two checkpoints or tagged dumps share a file: the name gives back base, step and rank. *)
Theorem C80_apart : forall base base' s s' rank rank' f, int rank -> int rank' ->
  (int s -> int s' -> checkpt_name base s rank = Some f -> checkpt_name base' s' rank' = Some f -> base = base' /\ s = s' /\ rank = rank') /\
  (forall ftag ftag', ftag <> 0 -> ftag' <> 0 -> step_ok s -> step_ok s' -> dump_name base ftag s rank = Some f -> dump_name base' ftag' s' rank' = Some f -> base = base' /\ s = s' /\ rank = rank') /\
  (dump_name base 0 s rank = Some f -> dump_name base' 0 s' rank' = Some f -> base = base' /\ rank = rank') /\
  (grid_name base rank = Some f -> grid_name base' rank' = Some f -> base = base' /\ rank = rank').
Proof.
  intros base base' s s' rank rank' f R R'. unfold int, step_ok in *. split; [|split; [|split]].
  - intros S S' A B. apply sprintf_some in A, B. destruct A as [-> _], B as [B _]. apply dotted2 in B; unfold long; try lia. exact B.
  - intros ftag ftag' N N' S S' A B. unfold dump_name in A, B. replace (ftag =? 0) with false in A by lia. replace (ftag' =? 0) with false in B by lia. cbn [negb] in A, B.
    apply sprintf_some in A, B. destruct A as [-> _], B as [B _]. apply dotted2 in B; unfold long; try lia. exact B.
  - intros A B. apply sprintf_some in A, B. destruct A as [-> _], B as [B _]. apply dotted in B; unfold long; try lia. exact B.
  - intros A B. apply sprintf_some in A, B. destruct A as [-> _], B as [B _]. apply dotted in B; unfold long; try lia. exact B.
Qed.
Print Assumptions C80_apart.

(* field_dump and hydro_dump: the step is the one of the caller, or that of the run when the caller gives -1; names of files without a slash
   give back directory, file, step and rank. *)
Theorem C80_parallel_apart : forall dir dir' file file' u u' s s' rank rank' f, int rank -> int rank' -> - 2 ^ 63 <= u < 2 ^ 63 -> - 2 ^ 63 <= u' < 2 ^ 63 -> step_ok s -> step_ok s' ->
  ~ In "/"%char file -> ~ In "/"%char file' ->
  parallel_name dir file u s rank = Some f -> parallel_name dir' file' u' s' rank' = Some f ->
  dir = dir' /\ file = file' /\ rank = rank' /\ (u <> -1 -> u' <> -1 -> u = u') /\ (u = -1 -> u' = -1 -> s = s') /\ (u = -1 -> u' <> -1 -> s = u').
Proof.
  intros dir dir' file file' u u' s s' rank rank' f R R' U U' S S' NF NF' A B. unfold int, step_ok in *. unfold parallel_name in A, B.
  set (a := dump_step u s) in *. set (b := dump_step u' s') in *.
  assert (La : long a) by (unfold a, dump_step, long; destruct (u =? -1); lia). assert (Lb : long b) by (unfold b, dump_step, long; destruct (u' =? -1); lia).
  destruct (time_dir dir a); [|discriminate]. destruct (time_dir dir' b); [|discriminate].
  apply sprintf_some in A, B. destruct A as [-> _], B as [B _].
  assert (E : (dir ++ chars "/T." ++ decimal a ++ chars "/" ++ file) ++ chars "." ++ decimal a ++ chars "." ++ decimal rank = (dir' ++ chars "/T." ++ decimal b ++ chars "/" ++ file') ++ chars "." ++ decimal b ++ chars "." ++ decimal rank').
  { rewrite <- !app_assoc. exact B. }
  apply dotted2 in E; unfold long; try assumption; try lia. destruct E as (E & EV & ->).
  assert (E' : (dir ++ chars "/T." ++ decimal a) ++ ["/"%char] ++ file = (dir' ++ chars "/T." ++ decimal b) ++ ["/"%char] ++ file') by (rewrite <- !app_assoc; exact E).
  apply last_sep in E'; try assumption. destruct E' as [E' ->]. rewrite EV, !app_assoc in E'. apply app_inv_tail in E'. apply app_inv_tail in E'.
  split; [exact E'|]. split; [reflexivity|]. split; [reflexivity|]. unfold a, b, dump_step in EV. destruct (u =? -1) eqn:Z1, (u' =? -1) eqn:Z2; lia.
Qed.
Print Assumptions C80_parallel_apart.

(* The bases for which no store leaves the array, whatever the step and the rank; baseDir and baseFileName are arrays of 128, so at most
   127 characters. *)
Theorem C80_fits : forall base dir file tag s rank, rank_ok rank ->
  ((List.length base <= 232)%nat -> int tag -> checkpt_name base tag rank <> None) /\
  ((List.length base <= 244)%nat -> restore_name base rank <> None /\ grid_name base rank <> None) /\
  ((List.length base <= 224)%nat -> step_ok s -> forall ftag, dump_name base ftag s rank <> None) /\
  ((List.length base <= 251)%nat -> header_name base <> None) /\
  ((List.length dir <= 127)%nat -> (List.length file <= 127)%nat -> 0 <= s < 10 ^ 14 -> parallel_name dir file (-1) s rank <> None).
Proof.
  intros base dir file tag s rank R. unfold rank_ok in R. pose proof (decimal_length 10 rank ltac:(change (10 ^ Z.of_nat 10) with 10000000000; lia) ltac:(lia)) as LR.
  split; [|split; [|split; [|split]]].
  - intros L T H. pose proof (decimal_length_int tag T) as LT. apply sprintf_none in H. rewrite !app_length in H. cbn [List.length chars list_ascii_of_string] in H. lia.
  - intro L. split; intro H; apply sprintf_none in H; rewrite !app_length in H; cbn [List.length chars list_ascii_of_string] in H; lia.
  - intros L S ftag H. unfold step_ok in S. pose proof (decimal_length 19 s ltac:(change (10 ^ Z.of_nat 19) with 10000000000000000000; lia) ltac:(lia)) as LS. unfold dump_name in H. destruct (negb (ftag =? 0)); apply sprintf_none in H; rewrite !app_length in H; cbn [List.length chars list_ascii_of_string] in H; lia.
  - intros L H. apply sprintf_none in H. rewrite !app_length in H. cbn [List.length chars list_ascii_of_string] in H. lia.
  - intros Ld Lf S H. pose proof (decimal_length 14 s ltac:(change (10 ^ Z.of_nat 14) with (10 ^ 14); lia) ltac:(lia)) as LS. unfold parallel_name, dump_step in H. change (-1 =? -1) with true in H. cbv iota zeta in H.
    destruct (time_dir dir s) eqn:E; [|unfold time_dir in E; apply sprintf_none in E; rewrite !app_length in E; cbn [List.length chars list_ascii_of_string] in E; lia].
    apply sprintf_none in H. rewrite !app_length in H. cbn [List.length chars list_ascii_of_string] in H. lia.
Qed.
Print Assumptions C80_fits.

(* Nothing checks the length: each bound is sharp. *)
Theorem C80_overflow_refuted : exists b233 b245 b225 b252 b127 tag s rank, (List.length b233, List.length b245, List.length b225, List.length b252, List.length b127) = (233, 245, 225, 252, 127)%nat /\
  int tag /\ step_ok s /\ rank_ok rank /\
  checkpt_name b233 tag rank = None /\ restore_name b245 rank = None /\ grid_name b245 rank = None /\ dump_name b225 1 s rank = None /\ header_name b252 = None /\ parallel_name b127 b127 (-1) (10 ^ 14) rank = None.
Proof.
  exists (repeat "a"%char 233), (repeat "a"%char 245), (repeat "a"%char 225), (repeat "a"%char 252), (repeat "a"%char 127), (- 2 ^ 31), (2 ^ 63 - 1), (2 ^ 31 - 1).
  split; [reflexivity|]. unfold int, step_ok, rank_ok. do 3 (split; [lia|]). do 5 (split; [vm_compute; reflexivity|]). vm_compute. reflexivity.
Qed.
Print Assumptions C80_overflow_refuted.

(* Untagged names share files: dump_grid and an untagged dump of the same base, a tagged dump and a grid of another base. *)
Theorem C80_shared_refuted : exists base base' s rank f, base <> base' /\ grid_name base rank = dump_name base 0 s rank /\ dump_name base 1 s rank = Some f /\ grid_name base' rank = Some f.
Proof. exists (list_ascii_of_string "a"), (list_ascii_of_string "a.1"), 1, 2, (list_ascii_of_string "a.1.2"). split; [discriminate|]. repeat split; vm_compute; reflexivity. Qed.
Print Assumptions C80_shared_refuted.

Example name_example : checkpt_name (list_ascii_of_string "run/chk") (-7) 12 = Some (list_ascii_of_string "run/chk.-7.12") /\
  parallel_name (list_ascii_of_string "fields") (list_ascii_of_string "f") (-1) 1200 3 = Some (list_ascii_of_string "fields/T.1200/f.1200.3") /\
  parallel_name (list_ascii_of_string "fields") (list_ascii_of_string "f") 5 1200 3 = Some (list_ascii_of_string "fields/T.5/f.5.3") /\ header_name (list_ascii_of_string "g") = Some (list_ascii_of_string "g.vpc").
Proof. repeat split; vm_compute; reflexivity. Qed.
