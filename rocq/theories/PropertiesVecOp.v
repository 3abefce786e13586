(* C72: the operators of the vector classes compute in every lane what the
   operators of the scalar types compute. *)
From Coq Require Import ZArith List String Bool Lia Reals Lra.
From Flocq Require IEEE754.BinarySingleNaN.
From Flocq Require Import Core IEEE754.Binary IEEE754.Bits.
From Verif Require Import VecOpModel VecOpPrograms4 VecOpPrograms8 VecOpPrograms16 VecOpTable VecOpSpec
  VecOpProofs VecOpWords VecOpLanes VecOpIEEE VecOpReal VecOpProofs2.
Import ListNotations.
Ltac Zify.zify_post_hook ::= idtac.
Open Scope string_scope. Open Scope list_scope. Open Scope Z_scope.

Notation ne := (ieee32 BinarySingleNaN.mode_NE).

(* Every function of every header, for every fpu in which 0 - a is -a for a
   neither +0 nor a NaN, for all arguments: the call is undefined exactly if
   the scalar operation is undefined in some lane, and else each lane of each
   result is what the scalar operation gives.  lane_dom names the lanes left
   out. *)
Theorem C72_lanewise : forall F h f sp args,
  sub_from_zero F -> In f (ops h) -> In (f_name f, sp) (lane_specs F h) -> good_args f args ->
  (forall j, (j < width h)%nat -> lane_dom h (f_name f) (column j args) = true) ->
  call F (width h) f args = opts (map (fun j => sp (column j args)) (seq 0 (width h))).
Proof.
  intros F h f sp args SZ Hf Hs Hg Hd. apply lanewise; try assumption.
  apply assoc_in; [apply spec_nodup|exact Hs].
Qed.
Print Assumptions C72_lanewise.

(* -7 / 2, INT_MAX, -3 % 2 ...: the int division of the AVX2 header; and a
   lane with a zero divisor makes the call undefined *)
Example C72_lanewise_ex :
  match lookup V8avx2 "int /" with
  | Some f =>
      call ne 8 f [[2 ^ 32 - 7; 7; 2 ^ 31 - 1; 100; 0; 1; 2; 3]; [2; 2 ^ 32 - 2; 1; 7; 5; 1; 1; 2]]
        = Some [[2 ^ 32 - 3]; [2 ^ 32 - 3]; [2 ^ 31 - 1]; [14]; [0]; [1]; [2]; [1]] /\
      call ne 8 f [[1; 1; 1; 1; 1; 1; 1; 1]; [1; 1; 1; 1; 1; 0; 1; 1]] = None /\
      call ne 8 f [[2 ^ 31; 1; 1; 1; 1; 1; 1; 1]; [2 ^ 32 - 1; 1; 1; 1; 1; 1; 1; 1]] = None
  | None => False
  end.
Proof. vm_compute. repeat split. Qed.
(* 1.5f + 2.25f and its like in the AVX-512 header *)
Example C72_lanewise_ex2 :
  match lookup V16avx512 "float +=" with
  | Some f => call ne 16 f [repeat 1069547520 16; repeat 1074790400 16] = Some (repeat [1081081856] 16)
  | None => False
  end.
Proof. vm_compute. reflexivity. Qed.

(* Every header has the same 104 functions, each once, and each of them has
   one specification. *)
Theorem C72_complete : forall F h,
  NoDup (map f_name (ops h)) /\ NoDup (map fst (lane_specs F h)) /\
  (forall n, In n (map f_name (ops h)) <-> In n op_names) /\
  (forall n, In n (map fst (lane_specs F h)) <-> In n op_names).
Proof.
  intros F h. destruct (complete F h) as (A & B & C).
  split; [exact A|]. split; [apply spec_nodup|]. split; assumption.
Qed.
Print Assumptions C72_complete.
Example C72_complete_ex : List.length op_names = 104%nat /\ List.length (ops V4neon) = 104%nat.
Proof. split; reflexivity. Qed.

(* any and all *)
Theorem C72_any_all : forall F h a, List.length a = width h ->
  (exists r, call_n F (width h) 1 (any_fn h) [a] = Some [[r]] /\ (r = 0 \/ r = 1) /\
     (r = 1 <-> exists w, In w a /\ w <> 0)) /\
  (exists r, call_n F (width h) 1 (all_fn h) [a] = Some [[r]] /\ (r = 0 \/ r = 1) /\
     (r = 1 <-> forall w, In w a -> w <> 0)).
Proof.
  intros F h a L. split.
  - eexists. split; [apply any_ok; exact L|].
    destruct (existsb (fun w => negb (w =? 0)) a) eqn:E.
    + split; [right; reflexivity|]. split; [|reflexivity]. intros _. apply existsb_exists in E.
      destruct E as (w & I & N). exists w. split; [exact I|]. apply negb_true_iff, Z.eqb_neq in N. exact N.
    + split; [left; reflexivity|]. split; [discriminate|]. intros (w & I & N).
      assert (existsb (fun w => negb (w =? 0)) a = true); [|congruence].
      apply existsb_exists. exists w. split; [exact I|]. apply negb_true_iff, Z.eqb_neq. exact N.
  - eexists. split; [apply all_ok; exact L|].
    destruct (forallb (fun w => negb (w =? 0)) a) eqn:E.
    + split; [right; reflexivity|]. split; [|reflexivity]. intros _ w I. rewrite forallb_forall in E.
      specialize (E w I). apply negb_true_iff, Z.eqb_neq in E. exact E.
    + split; [left; reflexivity|]. split; [discriminate|]. intros H.
      assert (forallb (fun w => negb (w =? 0)) a = true); [|congruence].
      apply forallb_forall. intros w I. apply negb_true_iff, Z.eqb_neq. apply H. exact I.
Qed.
Print Assumptions C72_any_all.
Example C72_any_all_ex :
  call_n ne 8 1 (any_fn V8avx) [[0; 0; 0; 0; 0; 0; 0; 5]] = Some [[1]] /\
  call_n ne 8 1 (all_fn V8avx) [[1; 2; 3; 4; 5; 6; 0; 8]] = Some [[0]].
Proof. split; vm_compute; reflexivity. Qed.

(* splat<n>( a ): lane n everywhere; shuffle<i0,...>( a ): lane ik in lane k *)
Theorem C72_splat : forall F h n a, (n < width h)%nat -> List.length a = width h ->
  call F (width h) (splat_fn h n) [a] = Some (repeat [nth n a 0] (width h)).
Proof. exact splat_ok. Qed.
Print Assumptions C72_splat.
Example C72_splat_ex : call ne 4 (splat_fn V4sse 2) [[10; 11; 12; 13]] = Some [[12]; [12]; [12]; [12]].
Proof. vm_compute. reflexivity. Qed.

Theorem C72_shuffle : forall F h i a, List.length i = width h -> Forall (fun k => (k < width h)%nat) i ->
  List.length a = width h ->
  call F (width h) (shuffle_fn h i) [a] = Some (map (fun k => [nth k a 0]) i).
Proof. exact shuffle_ok. Qed.
Print Assumptions C72_shuffle.
Example C72_shuffle_ex :
  call ne 4 (shuffle_fn V4avx [3; 0; 2; 2]%nat) [[10; 11; 12; 13]] = Some [[13]; [10]; [12]; [12]].
Proof. vm_compute. reflexivity. Qed.

(* the constructors from one scalar per lane put them in order *)
Theorem C72_from_scalars : forall F h fl ws, List.length ws = width h ->
  call F (width h) (scalars_fn h fl) (map (fun w => [w]) ws) = Some (map (fun w => [w]) ws).
Proof. exact scalars_ok. Qed.
Print Assumptions C72_from_scalars.
Example C72_from_scalars_ex :
  call ne 8 (scalars_fn V8avx2 false) (map (fun w => [w]) [9; 8; 7; 6; 5; 4; 3; 2])
  = Some [[9]; [8]; [7]; [6]; [5]; [4]; [3]; [2]].
Proof. vm_compute. reflexivity. Qed.

(* trilinear: the eight weights of the corners of a cell, computed in the same
   order by all headers that have it.  The SSE ones add 1 and the flipped x
   where the others subtract. *)
Theorem C72_trilinear : forall F h f x y z w wh, trilinear_fn h = Some f -> List.length wh = width h ->
  (forall u, In u [x; y; z] -> word u /\ f_add F f1 ((u + 2 ^ 31) mod 2 ^ 32) = f_sub F f1 u) ->
  call F (width h) f [[x; y; z; w]; wh] = Some (tri_rows F x y z).
Proof. exact trilinear_ok. Qed.
Print Assumptions C72_trilinear.
(* x = 0.5, y = -0.25, z = 0: the weights of (0,0,0) and (0,0,1) are 0.625 *)
Example C72_trilinear_ex :
  (forall h, width h = 4%nat -> trilinear_fn h <> None) /\
  match trilinear_fn V4sse with
  | Some f => call ne 4 f [[1056964608; 3196059648; 0; 77]; [1; 2; 3; 4]]
      = Some [[1059061760; 1059061760]; [1072693248; 1072693248]; [1052770304; 1052770304]; [1066401792; 1066401792]]
  | None => False
  end.
Proof. split; [intros []; cbn; discriminate|vm_compute; reflexivity]. Qed.

(* Conditions, which the comparisons give as masks: merge picks, czero and
   notczero clear. *)
Theorem C72_select : forall F h f cs args, sub_from_zero F -> In f (ops h) -> good_args f (map mask cs :: args) ->
  (forall ts es, f_name f = "merge" -> args = [ts; es] -> List.length ts = width h -> List.length es = width h ->
     List.length cs = width h ->
     call F (width h) f (map mask cs :: args)
     = Some (map (fun j => [if nth j cs false then nth j ts 0 else nth j es 0]) (seq 0 (width h)))) /\
  (forall ts, f_name f = "notczero" -> args = [ts] -> List.length ts = width h -> List.length cs = width h ->
     call F (width h) f (map mask cs :: args)
     = Some (map (fun j => [if nth j cs false then nth j ts 0 else 0]) (seq 0 (width h)))) /\
  (forall ts, f_name f = "czero" -> args = [ts] -> List.length ts = width h -> List.length cs = width h ->
     call F (width h) f (map mask cs :: args)
     = Some (map (fun j => [if nth j cs false then 0 else nth j ts 0]) (seq 0 (width h)))).
Proof.
  intros F h f cs args SZ Hf Hg.
  assert (G : forall sp, In (f_name f, sp) (lane_specs F h) -> In (f_name f) ["merge"; "notczero"; "czero"] ->
     call F (width h) f (map mask cs :: args) = opts (map (fun j => sp (column j (map mask cs :: args))) (seq 0 (width h)))).
  { intros sp Hs Hn. apply C72_lanewise; try assumption. intros j _.
    destruct Hn as [<-|[<-|[<-|[]]]]; destruct h; reflexivity. }
  assert (WD : Forall (Forall word) (map mask cs :: args)).
  { clear - Hg. unfold good_args in Hg. induction Hg as [|p a ps as_ [A B] H IH]; constructor; assumption. }
  split; [|split].
  - intros ts es N -> Lt Le Lc.
    eassert (S : In ("merge", _) (lane_specs F h)).
    { unfold lane_specs. do 3 (apply in_or_app; right). apply in_or_app; left. do 15 right. left. reflexivity. }
    rewrite <- N in S. rewrite (G _ S) by (rewrite N; cbn; auto). apply opts_map_some. intros j _.
    unfold column. cbn [map]. rewrite (at_lane _ h j) by (rewrite map_length; exact Lc).
    rewrite (at_lane ts h j Lt), (at_lane es h j Le), nth_mask. cbn [on3]. f_equal. f_equal.
    inversion WD as [|? ? _ WD1]; subst. inversion WD1 as [|? ? W1 WD2]; subst. inversion WD2 as [|? ? W2 _]; subst.
    destruct (nth j cs false); apply bits_self; try (apply nth_word; assumption); intros i Hi; rewrite mask_bit by exact Hi; reflexivity.
  - intros ts N -> Lt Lc.
    eassert (S : In ("notczero", _) (lane_specs F h)).
    { unfold lane_specs. do 3 (apply in_or_app; right). apply in_or_app; left. do 14 right. left. reflexivity. }
    rewrite <- N in S. rewrite (G _ S) by (rewrite N; cbn; auto). apply opts_map_some. intros j _.
    unfold column. cbn [map]. rewrite (at_lane _ h j) by (rewrite map_length; exact Lc).
    rewrite (at_lane ts h j Lt), nth_mask. cbn [on2]. f_equal. f_equal.
    inversion WD as [|? ? _ WD1]; subst. inversion WD1 as [|? ? W1 WD2]; subst.
    destruct (nth j cs false); apply bits_self; try (apply nth_word; assumption); try apply word0;
      intros i Hi; rewrite mask_bit by exact Hi; [apply andb_true_r|rewrite andb_false_r, Z.testbit_0_l; reflexivity].
  - intros ts N -> Lt Lc.
    eassert (S : In ("czero", _) (lane_specs F h)).
    { unfold lane_specs. do 3 (apply in_or_app; right). apply in_or_app; left. do 13 right. left. reflexivity. }
    rewrite <- N in S. rewrite (G _ S) by (rewrite N; cbn; auto). apply opts_map_some. intros j _.
    unfold column. cbn [map]. rewrite (at_lane _ h j) by (rewrite map_length; exact Lc).
    rewrite (at_lane ts h j Lt), nth_mask. cbn [on2]. f_equal. f_equal.
    inversion WD as [|? ? _ WD1]; subst. inversion WD1 as [|? ? W1 WD2]; subst.
    destruct (nth j cs false); apply bits_self; try (apply nth_word; assumption); try apply word0;
      intros i Hi; rewrite mask_bit by exact Hi; cbn [negb]; [rewrite andb_false_r, Z.testbit_0_l; reflexivity|apply andb_true_r].
Qed.
Print Assumptions C72_select.
Example C72_select_ex :
  match lookup V4neon "merge" with
  | Some f => call ne 4 f [map mask [true; false; false; true]; [1; 2; 3; 4]; [5; 6; 7; 8]] = Some [[1]; [6]; [7]; [4]]
  | None => False
  end.
Proof. vm_compute. reflexivity. Qed.

(* the comparisons of floats are those of reals; with a NaN all but != fail *)
Theorem C72_compare : forall a b,
  (finite a = true -> finite b = true ->
     (flt a b = true <-> (real a < real b)%R) /\ (feq a b = true <-> real a = real b)) /\
  (nan a || nan b = true -> flt a b = false /\ feq a b = false).
Proof. intros a b. split; [apply compare_real|apply compare_nan]. Qed.
Print Assumptions C72_compare.
Example C72_compare_ex : flt 3221225472 1065353216 = true /\ feq 2147483648 0 = true /\ nan 2143289344 = true.
Proof. repeat split; vm_compute; reflexivity. Qed.

(* What is asked of the fpu holds of IEEE arithmetic in every rounding mode. *)
Theorem C72_ieee : forall m, sub_from_zero (ieee32 m) /\
  (forall u, word u -> nan u = false -> f_add (ieee32 m) f1 ((u + 2 ^ 31) mod 2 ^ 32) = f_sub (ieee32 m) f1 u) /\
  (forall a b, finite a = true -> finite b = true ->
     (bpow radix2 (-126) <= Rabs (real a * real b))%R -> (Rabs (real a * real b) < bpow radix2 127)%R ->
     rounded (f_mul ne a b) (real a * real b)).
Proof.
  intros m. split; [apply ieee32_sub|]. split; [apply ieee32_flip|apply ieee32_mul_rounded].
Qed.
Print Assumptions C72_ieee.
Example C72_ieee_ex : f_sub ne 0 1069547520 = 3217031168 /\ f_sub ne f1 3217031168 = 1075838976.
Proof. split; vm_compute; reflexivity. Qed.

(* rcp and rsqrt of the headers that start from an estimate: one step of
   Newton's method leaves 5.5 and 6 units of 2^-24. *)
Theorem C72_rcp_accuracy : forall F h f a j, sub_from_zero F -> portable h = false ->
  In f (ops h) -> f_name f = "rcp" -> good_args f [a] -> List.length a = width h -> (j < width h)%nat ->
  rcp_ops F (match h with V4avx2 => true | _ => false end) (nth j a 0) (f_rcpe F (nth j a 0)) ->
  exists rows r, call F (width h) f [a] = Some rows /\ nth_error rows j = Some [r] /\
    (Rabs (real r * real (nth j a 0%Z) - 1) <= 11 / 2 * / 16777216)%R.
Proof.
  intros F h f a j SZ P Hf N Hg L Hj A.
  eassert (S : In ("rcp", _) (lane_specs F h)).
  { unfold lane_specs. do 7 (apply in_or_app; right). apply in_or_app; left. do 25 right. left. reflexivity. }
  rewrite <- N in S. pose proof (C72_lanewise F h f _ [a] SZ Hf S Hg) as Q.
  rewrite Q by (intros i _; rewrite N; destruct h; reflexivity).
  erewrite (opts_map_some _ (fun j => [newton_rcp F (match h with V4avx2 => true | _ => false end) (nth j a 0) (f_rcpe F (nth j a 0))])).
  - do 2 eexists. split; [reflexivity|]. split.
    + rewrite nth_error_map, (nth_error_nth' (seq 0 (width h)) 0%nat) by (rewrite seq_length; exact Hj).
      rewrite seq_nth by exact Hj. reflexivity.
    + cbn [Nat.add]. apply rcp_acc. exact A.
  - intros i _. unfold column. cbn [map]. rewrite (at_lane a h i L). cbn [on1]. rewrite P. reflexivity.
Qed.
Print Assumptions C72_rcp_accuracy.

Theorem C72_rsqrt_accuracy : forall F h f a j, sub_from_zero F -> portable h = false ->
  In f (ops h) -> f_name f = "rsqrt" -> good_args f [a] -> List.length a = width h -> (j < width h)%nat ->
  rsqrt_ops F (match h with V4avx2 => true | _ => false end) (nth j a 0) (f_rsqrte F (nth j a 0)) ->
  exists rows r, call F (width h) f [a] = Some rows /\ nth_error rows j = Some [r] /\
    (Rabs (real r * sqrt (real (nth j a 0%Z)) - 1) <= 6 * / 16777216)%R.
Proof.
  intros F h f a j SZ P Hf N Hg L Hj A.
  eassert (S : In ("rsqrt", _) (lane_specs F h)).
  { unfold lane_specs. do 7 (apply in_or_app; right). apply in_or_app; left. do 26 right. left. reflexivity. }
  rewrite <- N in S. pose proof (C72_lanewise F h f _ [a] SZ Hf S Hg) as Q.
  rewrite Q by (intros i _; rewrite N; destruct h; reflexivity).
  erewrite (opts_map_some _ (fun j => [newton_rsqrt F (match h with V4avx2 => true | _ => false end) (nth j a 0) (f_rsqrte F (nth j a 0))])).
  - do 2 eexists. split; [reflexivity|]. split.
    + rewrite nth_error_map, (nth_error_nth' (seq 0 (width h)) 0%nat) by (rewrite seq_length; exact Hj).
      rewrite seq_nth by exact Hj. reflexivity.
    + cbn [Nat.add]. apply rsqrt_acc. exact A.
  - intros i _. unfold column. cbn [map]. rewrite (at_lane a h i L). cbn [on1]. rewrite P. reflexivity.
Qed.
Print Assumptions C72_rsqrt_accuracy.

(* the bits of a closed real *)
Lemma real_of : forall w m e, B2FF 24 128 (b32_of_bits w) = F754_finite false m e -> real w = (IZR (Zpos m) * bpow radix2 e)%R.
Proof.
  intros w m e H. unfold real. destruct (b32_of_bits w) as [s|s|s p q|s p x q]; try discriminate H.
  injection H as -> -> ->. reflexivity.
Qed.
Lemma rounded_by : forall r x d, (Rabs d <= / 16777216)%R -> (real r = x * (1 + d))%R -> rounded r x.
Proof. intros r x d A B. exists d. split; assumption. Qed.

(* 1/3 with a poor estimate, 0.33333981 (2e-5 off): rcp of the SSE header
   gives the float nearest to 1/3; and what the accuracy theorem asks holds *)
Definition poor : fpu :=
  {| f_add := f_add ne; f_sub := f_sub ne; f_mul := f_mul ne; f_div := f_div ne; f_sqrt := f_sqrt ne;
     f_rsqrte := f_rsqrte ne; f_rcpe := fun _ => 1051372421; f_fmadd := f_fmadd ne; f_fmsub := f_fmsub ne;
     f_fnmadd := f_fnmadd ne; f_fun := f_fun ne; f_fun2 := f_fun2 ne |}.
Example C72_rcp_accuracy_ex_call :
  match lookup V4sse "rcp" with
  | Some f => call poor 4 f [repeat 1077936128 4] = Some (repeat [1051372203] 4)
  | None => False
  end.
Proof. vm_compute. reflexivity. Qed.

Example C72_rcp_accuracy_ex : rcp_ops poor false 1077936128 (f_rcpe poor 1077936128).
Proof.
  assert (Wm : f_mul poor 1051372421 1051372421 = 1038323839) by (vm_compute; reflexivity).
  assert (Wa : f_mul poor 1077936128 1038323839 = 1051372639) by (vm_compute; reflexivity).
  assert (Wp : f_add poor 1051372421 1051372421 = 1059761029) by (vm_compute; reflexivity).
  assert (Ws : f_sub poor 1059761029 1051372639 = 1051372203) by (vm_compute; reflexivity).
  unfold rcp_ops. cbn [poor f_rcpe]. fold poor. rewrite Wm, Wa, Wp, Ws.
  rewrite (real_of 1077936128 12582912 (-22)) by (vm_compute; reflexivity).
  rewrite (real_of 1051372421 11185029 (-25)) by (vm_compute; reflexivity).
  rewrite (real_of 1059761029 11185029 (-24)) by (vm_compute; reflexivity).
  rewrite (real_of 1038323839 14913663 (-27)) by (vm_compute; reflexivity).
  rewrite (real_of 1051372639 11185247 (-25)) by (vm_compute; reflexivity).
  cbn [bpow Z.pow_pos Pos.iter Z.mul Pos.mul radix2 radix_val].
  split; [lra|]. split; [exists (33555087 / 33554432 - 1)%R; split; [unfold est; apply Rabs_le; lra|lra]|].
  split; [lra|].
  split; [apply (rounded_by _ _ (14913663 * / 134217728 / (11185029 * / 33554432 * (11185029 * / 33554432)) - 1));
    [apply Rabs_le; lra|rewrite (real_of 1038323839 14913663 (-27)) by (vm_compute; reflexivity);
     cbn [bpow Z.pow_pos Pos.iter Z.mul Pos.mul radix2 radix_val]; lra]|].
  split.
  - apply (rounded_by _ _ (11185247 * / 33554432 / (12582912 * / 4194304 * (14913663 * / 134217728)) - 1));
    [apply Rabs_le; lra|rewrite (real_of 1051372639 11185247 (-25)) by (vm_compute; reflexivity);
     cbn [bpow Z.pow_pos Pos.iter Z.mul Pos.mul radix2 radix_val]; lra].
  - apply (rounded_by _ _ 0); [rewrite Rabs_R0; lra|rewrite (real_of 1051372203 11184811 (-25)) by (vm_compute; reflexivity);
     cbn [bpow Z.pow_pos Pos.iter Z.mul Pos.mul radix2 radix_val]; lra].
Qed.

(* rsqrt of 4 in the NEON header, whose estimate here is exact *)
Example C72_rsqrt_accuracy_ex :
  match lookup V4neon "rsqrt" with
  | Some f => call ne 4 f [repeat 1082130432 4] = Some (repeat [1056964608] 4)
  | None => False
  end.
Proof. vm_compute. reflexivity. Qed.

(* Every exception that lane_dom makes is needed: the claim for all lanes is
   false of these headers and functions, of IEEE arithmetic too. *)
Theorem C72_departures_refuted : forall h n, In (h, n) departures ->
  exists f sp args, In f (ops h) /\ f_name f = n /\ In (n, sp) (lane_specs ne h) /\ good_args f args /\
    call ne (width h) f args <> opts (map (fun j => sp (column j args)) (seq 0 (width h))).
Proof.
  set (wit := fun h n => map (fun w => repeat w (width h))
     (if String.eqb n "float !" then [2 ^ 31] else if String.eqb n "float unary-" then [0]
      else if String.eqb n "copysign" then [f1; 2 ^ 31] else if String.eqb n "clear_bits" then [1; 0]
      else if String.eqb n "float &&" then [2143289344; f1] else [2143289344; 0])).
  set (good := fun (ps : list (string * nat)) (args : list (list Z)) =>
     Nat.eqb (List.length ps) (List.length args) &&
     forallb (fun q => Nat.eqb (List.length (snd q)) (snd (fst q)) && forallb (fun w => (0 <=? w) && (w <? 2 ^ 32)) (snd q))
       (combine ps args)).
  assert (Good : forall f args, good (f_params f) args = true -> good_args f args).
  { intros f. unfold good_args. generalize (f_params f). clear. intros ps. induction ps as [|p ps IH]; intros [|a args] H;
      try discriminate H; constructor.
    - unfold good in H. cbn [combine forallb fst snd] in H. apply andb_true_iff in H. destruct H as [_ H].
      apply andb_true_iff in H. destruct H as [H _]. apply andb_true_iff in H. destruct H as [H1 H2].
      split; [apply Nat.eqb_eq; exact H1|]. rewrite forallb_forall in H2. apply Forall_forall. intros w Hw.
      specialize (H2 w Hw). apply andb_true_iff in H2. unfold word. lia.
    - apply IH. unfold good in *. cbn [combine forallb fst snd List.length Nat.eqb] in H.
      apply andb_true_iff in H. destruct H as [H1 H]. apply andb_true_iff in H. destruct H as [_ H].
      rewrite H1, H. reflexivity. }
  set (ok := fun (p : hdr * string) =>
     match lookup (fst p) (snd p), assoc (lane_specs ne (fst p)) (snd p) with
     | Some f, Some sp => good (f_params f) (wit (fst p) (snd p)) &&
         match call ne (width (fst p)) f (wit (fst p) (snd p)),
               opts (map (fun j => sp (column j (wit (fst p) (snd p)))) (seq 0 (width (fst p)))) with
         | Some x, Some y => if list_eq_dec (list_eq_dec Z.eq_dec) x y then false else true
         | _, _ => false end
     | _, _ => false end).
  assert (A : forallb ok departures = true) by (vm_compute; reflexivity).
  assert (AI : forall (l : list (string * lspec)) n s, assoc l n = Some s -> In (n, s) l).
  { induction l as [|[m b] l IH]; intros n s H; [discriminate H|]. cbn [assoc] in H.
    destruct (String.eqb_spec n m) as [->|_]; [injection H as ->; left; reflexivity|right; apply IH; exact H]. }
  intros h n I. rewrite forallb_forall in A. specialize (A (h, n) I). unfold ok in A. cbn [fst snd] in A.
  destruct (lookup h n) as [f|] eqn:Ef; [|discriminate A]. destruct (assoc (lane_specs ne h) n) as [sp|] eqn:Es; [|discriminate A].
  apply andb_true_iff in A. destruct A as [G A].
  exists f, sp, (wit h n). destruct (lookup_in h n f Ef) as [If Nf].
  split; [exact If|]. split; [exact Nf|]. split; [apply AI; exact Es|]. split; [apply Good; exact G|].
  destruct (call ne (width h) f (wit h n)) as [x|]; [|discriminate A].
  destruct (opts (map (fun j => sp (column j (wit h n))) (seq 0 (width h)))) as [y|]; [|discriminate A].
  destruct (list_eq_dec (list_eq_dec Z.eq_dec) x y) as [|N]; [discriminate A|]. congruence.
Qed.
Print Assumptions C72_departures_refuted.
Example C72_departures_ex : List.length departures = 22%nat /\
  match lookup V8avx "float !=" with
  | Some f => call ne 8 f [repeat 2143289344 8; repeat 0 8] = Some (repeat [0] 8)
  | None => False
  end.
Proof. split; [reflexivity|vm_compute; reflexivity]. Qed.

(* and no other exception is made: without one of these pairs every lane counts *)
Theorem C72_departures_only : forall h n c, ~ In (h, n) departures -> lane_dom h n c = true.
Proof.
  intros h n c H. assert (K : lane_dom h n c = true \/ In (h, n) departures).
  { assert (D : forall m, n = m \/ n <> m) by (intros m; destruct (string_dec n m); [left|right]; assumption).
    destruct (D "float !") as [->|N1]; [destruct h; try (left; reflexivity); right; cbn; tauto|].
    destruct (D "float !=") as [->|N2]; [destruct h; try (left; reflexivity); right; cbn; tauto|].
    destruct (D "float &&") as [->|N3]; [destruct h; try (left; reflexivity); right; cbn; tauto|].
    destruct (D "float ||") as [->|N4]; [destruct h; try (left; reflexivity); right; cbn; tauto|].
    destruct (D "float unary-") as [->|N5]; [destruct h; try (left; reflexivity); right; cbn; tauto|].
    destruct (D "copysign") as [->|N6]; [destruct h; try (left; reflexivity); right; cbn; tauto|].
    destruct (D "clear_bits") as [->|N7]; [destruct h; try (left; reflexivity); right; cbn; tauto|].
    left. unfold lane_dom.
    destruct h;
    repeat (match goal with
    | |- (match ?x with EmptyString => _ | String _ _ => _ end) = true => destruct x
    | |- (match ?x with Ascii.Ascii _ _ _ _ _ _ _ _ => _ end) = true => destruct x
    | |- (if ?x then _ else _) = true => destruct x
    end; try reflexivity; try congruence). }
  destruct K as [K|K]; [exact K|contradiction].
Qed.
Print Assumptions C72_departures_only.

(* rcp of 0 is an infinity in the portable headers and a NaN in the others,
   of IEEE arithmetic with the best of estimates. *)
Theorem C72_rcp_of_zero_refuted : exists h f rows r,
  In f (ops h) /\ f_name f = "rcp" /\ call ne (width h) f [repeat 0 (width h)] = Some rows /\ In [r] rows /\ nan r = true.
Proof.
  destruct (lookup V4sse "rcp") as [f|] eqn:E; [|vm_compute in E; discriminate].
  exists V4sse, f, (repeat [2143289344] 4), 2143289344. destruct (lookup_in _ _ _ E) as [A B].
  split; [exact A|]. split; [exact B|]. split; [|split; [left; reflexivity|vm_compute; reflexivity]].
  assert (X : match lookup V4sse "rcp" with Some f => call ne 4 f [repeat 0 4] | None => None end
     = Some (repeat [2143289344] 4)) by (vm_compute; reflexivity).
  rewrite E in X. exact X.
Qed.
Print Assumptions C72_rcp_of_zero_refuted.
Example C72_rcp_of_zero_ex :
  match lookup V4portable "rcp" with
  | Some f => call ne 4 f [repeat 0 4] = Some (repeat [2139095040] 4) | None => False end.
Proof. vm_compute. reflexivity. Qed.
