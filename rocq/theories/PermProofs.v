(* randperm, shuffle and the splitting of words for the normal generators *)
From Coq Require Import ZArith List Bool Lia ZifyBool Permutation FinFun.
From Verif Require Import RngModel RngProofs ConvProofs.
Import ListNotations.
Open Scope Z_scope.

Definition zseq (n : Z) : list Z := map Z.of_nat (seq 0 (Z.to_nat n)).

Lemma set_at_nth l : forall i x k, (i < length l)%nat ->
  nthZ (set_at l i x) k = if (k =? i)%nat then x else nthZ l k.
Proof.
  unfold nthZ. induction l as [|y l IH]; intros [|i] x [|k] H; cbn in *; try lia; try reflexivity.
  apply IH. lia.
Qed.

Lemma swap_at_nth l i j k : (i < length l)%nat -> (j < length l)%nat ->
  nthZ (swap_at l i j) k = if (k =? j)%nat then nthZ l i else if (k =? i)%nat then nthZ l j else nthZ l k.
Proof.
  intros Hi Hj. unfold swap_at. rewrite set_at_nth by (rewrite set_at_length; exact Hj).
  destruct (Nat.eqb_spec k j); [reflexivity|]. rewrite set_at_nth by exact Hi. reflexivity.
Qed.
Lemma swap_at_length l i j : length (swap_at l i j) = length l.
Proof. unfold swap_at. rewrite !set_at_length. reflexivity. Qed.

Lemma swap_at_perm l i j : (i < length l)%nat -> (j < length l)%nat -> Permutation l (swap_at l i j).
Proof.
  intros Hi Hj. apply (Permutation_nth l (swap_at l i j) 0). cbv zeta. split; [apply swap_at_length|].
  exists (fun k => if (k =? j)%nat then i else if (k =? i)%nat then j else k).
  split; [|split].
  - intros k Hk. cbv beta. destruct (Nat.eqb_spec k j), (Nat.eqb_spec k i); lia.
  - intros k k' Hk Hk'. cbv beta.
    destruct (Nat.eqb_spec k j), (Nat.eqb_spec k i), (Nat.eqb_spec k' j), (Nat.eqb_spec k' i); lia.
  - intros k Hk. change (nth k (swap_at l i j) 0) with (nthZ (swap_at l i j) k). rewrite swap_at_nth by assumption.
    destruct (Nat.eqb_spec k j); [reflexivity|]. destruct (Nat.eqb_spec k i); reflexivity.
Qed.

Lemma set_at_app pre : forall t i x, set_at (pre ++ t) (length pre + i) x = pre ++ set_at t i x.
Proof. induction pre as [|y pre IH]; intros t i x; cbn; [reflexivity|]. rewrite IH. reflexivity. Qed.
Lemma nthZ_app pre t i : nthZ (pre ++ t) (length pre + i) = nthZ t i.
Proof. unfold nthZ. rewrite app_nth2_plus. reflexivity. Qed.
Lemma swap_at_app pre t i j : swap_at (pre ++ t) (length pre + i) (length pre + j) = pre ++ swap_at t i j.
Proof. unfold swap_at. rewrite !nthZ_app, !set_at_app. reflexivity. Qed.

Lemma draw_done d i n ws : forall j r, 0 < d -> Forall word ws -> perm_draw d i n ws = Done j r ->
  i <= j < n /\ Forall word r /\ (length r < length ws)%nat.
Proof.
  induction ws as [|a ws IH]; intros j r Hd Hw H; cbn [perm_draw] in H; [discriminate|].
  inversion Hw as [|? ? Ha Hr]; subst.
  destruct (negb _) in H; [discriminate|]. destruct (Z.leb_spec n (i + a / d)).
  - destruct (IH j r Hd Hr H) as (A & B & C). cbn. split; [exact A|]. split; [exact B|]. lia.
  - injection H as <- <-. unfold word in Ha. pose proof (Z.div_pos a d ltac:(lia) Hd). cbn. split; [lia|]. split; [exact Hr|lia].
Qed.

(* accepted numbers are i plus a quotient *)
Lemma d_pos m : 1 <= m < 2 ^ 31 -> 2 <= (2 ^ 32 - 1) / m.
Proof. intros H. apply Z.div_le_lower_bound; lia. Qed.

Lemma loop_tail k : forall i n pre t ws y rest, Z.of_nat (length pre) = i -> Z.of_nat (length t) = Z.of_nat k + 1 ->
  n = i + Z.of_nat k + 1 -> n < 2 ^ 31 -> Forall word ws -> perm_loop k i n (pre ++ t) ws = Done y rest ->
  exists t', y = pre ++ t' /\ Permutation t t' /\ (length rest + k <= length ws)%nat /\ Forall word rest.
Proof.
  induction k as [|k IH]; intros i n pre t ws y rest Hp Ht Hn Hb Hw H; cbn [perm_loop] in H.
  - injection H as <- <-. exists t. split; [reflexivity|]. split; [reflexivity|]. split; [lia|exact Hw].
  - cbv zeta in H. pose proof (d_pos (n - i) ltac:(lia)) as Hd. set (d := (2 ^ 32 - 1) / (n - i)) in *. clearbody d.
    destruct (perm_draw d i n ws) as [| |j r] eqn:E; try discriminate.
    destruct (draw_done d i n ws j r ltac:(lia) Hw E) as (J & Wr & L).
    replace (Z.to_nat i) with (length pre + 0)%nat in H by lia.
    replace (Z.to_nat j) with (length pre + Z.to_nat (j - i))%nat in H by lia.
    rewrite swap_at_app in H.
    assert (Lt : (0 < length t)%nat) by lia. assert (Lj : (Z.to_nat (j - i) < length t)%nat) by lia.
    pose proof (swap_at_perm t 0 (Z.to_nat (j - i)) Lt Lj) as P.
    destruct (swap_at t 0 (Z.to_nat (j - i))) as [|h t1] eqn:Es.
    { apply Permutation_length in P. cbn in P. lia. }
    change (pre ++ h :: t1) with (pre ++ [h] ++ t1) in H. rewrite app_assoc in H.
    pose proof (Permutation_length P) as PL. cbn in PL.
    destruct (IH (i + 1) n (pre ++ [h]) t1 r y rest) as (t' & Y & P' & L' & W'); try assumption; try lia.
    { rewrite app_length. cbn. lia. }
    exists (h :: t'). split; [rewrite Y, <- app_assoc; reflexivity|]. split.
    + rewrite P. apply perm_skip. exact P'.
    + split; [lia|exact W'].
Qed.

Lemma zseq_length n : 0 <= n -> Z.of_nat (length (zseq n)) = n.
Proof. intros. unfold zseq. rewrite map_length, seq_length. lia. Qed.
Lemma zseq_nodup n : NoDup (zseq n).
Proof. apply Injective_map_NoDup; [intros x y E; lia|apply seq_NoDup]. Qed.
Lemma zseq_in n x : In x (zseq n) <-> 0 <= x < n.
Proof.
  unfold zseq. rewrite in_map_iff. split.
  - intros (k & <- & Hk). apply in_seq in Hk. lia.
  - intros H. exists (Z.to_nat x). split; [lia|]. apply in_seq. lia.
Qed.

Lemma randperm_ok n ws y rest : 0 <= n < 2 ^ 31 -> Forall word ws -> randperm n ws = Done y rest ->
  Permutation (zseq n) y /\ Forall word rest.
Proof.
  intros Hn Hw H. unfold randperm in H. fold (zseq n) in H. destruct (Z.eq_dec n 0) as [->|N].
  - cbn in H. injection H as <- <-. split; [reflexivity|exact Hw].
  - change (zseq n) with ([] ++ zseq n) in H.
    destruct (loop_tail (Z.to_nat (n - 1)) 0 n [] (zseq n) ws y rest) as (t' & -> & P & _ & W); try assumption; try lia.
    { reflexivity. } { rewrite zseq_length; lia. }
    split; assumption.
Qed.

(* no overflow up to 2^30 *)
Lemma quot_bound m a d : 2 <= m <= 2 ^ 30 -> word a -> d = (2 ^ 32 - 1) / m -> 0 <= a / d < 2 * m.
Proof.
  intros Hm Ha ->. unfold word in Ha.
  assert (H3 : 3 <= (2 ^ 32 - 1) / m) by (apply Z.div_le_lower_bound; lia).
  pose proof (Z.div_mod (2 ^ 32 - 1) m ltac:(lia)). pose proof (Z.mod_pos_bound (2 ^ 32 - 1) m ltac:(lia)).
  set (d := (2 ^ 32 - 1) / m) in *. clearbody d.
  split; [apply Z.div_pos; lia|]. apply Z.div_lt_upper_bound; [lia|].
  assert (m * 3 <= m * d) by (apply Z.mul_le_mono_nonneg_l; lia). lia.
Qed.

Lemma draw_no_undef d i n ws : 0 <= i < n - 1 -> n <= 2 ^ 30 -> d = (2 ^ 32 - 1) / (n - i) -> Forall word ws ->
  perm_draw d i n ws <> Undef.
Proof.
  intros Hi Hn Hd. induction ws as [|a ws IH]; intros Hw H; cbn [perm_draw] in H; [discriminate|].
  inversion Hw as [|? ? Ha Hr]; subst.
  pose proof (quot_bound (n - i) a _ ltac:(lia) Ha eq_refl) as B. set (d := (2 ^ 32 - 1) / (n - i)) in *.
  assert (E : in_int (a / d) && in_int (i + a / d) = true) by (unfold in_int; lia).
  rewrite E in H. cbn [negb] in H. destruct (n <=? i + a / d); [exact (IH Hr H)|discriminate].
Qed.

Lemma loop_no_undef k : forall i n x ws, n = i + Z.of_nat k + 1 -> 0 <= i -> n <= 2 ^ 30 -> Forall word ws ->
  perm_loop k i n x ws <> Undef.
Proof.
  induction k as [|k IH]; intros i n x ws Hn Hi Hb Hw H; cbn [perm_loop] in H; [discriminate|].
  cbv zeta in H. destruct (perm_draw _ i n ws) as [| |j r] eqn:E; [discriminate| |].
  - revert E. apply draw_no_undef; try lia. assumption.
  - apply draw_done in E; [|pose proof (d_pos (n - i) ltac:(lia)); lia|exact Hw]. destruct E as (_ & Wr & _).
    revert H. apply IH; try lia. assumption.
Qed.
Lemma randperm_no_undef n ws : 0 <= n <= 2 ^ 30 -> Forall word ws -> randperm n ws <> Undef.
Proof.
  intros Hn Hw. unfold randperm. destruct (Z.eq_dec n 0) as [->|N]; [cbn; discriminate|].
  apply loop_no_undef; try lia. assumption.
Qed.

(* each offset is hit by exactly d words *)
Lemma draw_count m o : 2 <= m < 2 ^ 31 -> 0 <= o < m ->
  cardinal (fun a => word a /\ a / ((2 ^ 32 - 1) / m) = o) ((2 ^ 32 - 1) / m).
Proof.
  intros Hm Ho. pose proof (d_pos m ltac:(lia)) as Hd.
  pose proof (Z.div_mod (2 ^ 32 - 1) m ltac:(lia)). pose proof (Z.mod_pos_bound (2 ^ 32 - 1) m ltac:(lia)).
  set (d := (2 ^ 32 - 1) / m) in *. clearbody d.
  apply (cardinal_iff (fun u => o * d <= u < o * d + d)).
  - intros u. unfold word. split.
    + intros Hu. split; [nia|]. symmetry. apply (Z.div_unique u d o (u - o * d)); lia.
    + intros [Hu E]. pose proof (Z.div_mod u d ltac:(lia)). pose proof (Z.mod_pos_bound u d ltac:(lia)). nia.
  - pose proof (cardinal_interval (o * d) (o * d + d) ltac:(lia)) as C.
    replace (o * d + d - o * d) with d in C by lia. exact C.
Qed.
(* rejected words: fewer than half of all *)
Lemma reject_count m : 2 <= m < 2 ^ 31 ->
  cardinal (fun a => word a /\ m <= a / ((2 ^ 32 - 1) / m)) (2 ^ 32 - m * ((2 ^ 32 - 1) / m)) /\
  2 * (2 ^ 32 - m * ((2 ^ 32 - 1) / m)) <= 2 ^ 32.
Proof.
  intros Hm. pose proof (d_pos m ltac:(lia)) as Hd.
  pose proof (Z.div_mod (2 ^ 32 - 1) m ltac:(lia)). pose proof (Z.mod_pos_bound (2 ^ 32 - 1) m ltac:(lia)).
  set (d := (2 ^ 32 - 1) / m) in *. clearbody d. split; [|lia].
  apply (cardinal_iff (fun u => m * d <= u < 2 ^ 32)).
  - intros u. unfold word. split.
    + intros Hu. split; [nia|]. apply Z.div_le_lower_bound; lia.
    + intros [Hu E]. split; [|lia]. pose proof (Z.mul_div_le u d ltac:(lia)). nia.
  - apply cardinal_interval. nia.
Qed.

(* product of the numbers of words over the draws for sizes k+1, ..., 2 *)
Fixpoint ways (k : nat) : Z :=
  match k with O => 1 | S k' => (2 ^ 32 - 1) / (Z.of_nat k + 1) * ways k' end.

Lemma nth_split_unique (t : list Z) x : NoDup t -> In x t ->
  exists j, (j < length t)%nat /\ nthZ t j = x /\ forall j', (j' < length t)%nat -> nthZ t j' = x -> j' = j.
Proof.
  intros N I. apply (In_nth _ _ 0) in I. destruct I as (j & Hj & E). exists j. split; [exact Hj|]. split; [exact E|].
  intros j' Hj' E'. apply (proj1 (NoDup_nth t 0) N); try assumption. unfold nthZ in E'. rewrite E, E'. reflexivity.
Qed.

Lemma swap_head t j : (j < length t)%nat -> exists r, swap_at t 0 j = nthZ t j :: r.
Proof.
  intros Hj. assert (H0 : (0 < length t)%nat) by lia.
  destruct (swap_at t 0 j) as [|h r] eqn:E.
  - pose proof (swap_at_length t 0 j). rewrite E in H. cbn in H. lia.
  - exists r. f_equal. assert (H : nthZ (swap_at t 0 j) 0 = h) by (rewrite E; reflexivity).
    rewrite swap_at_nth in H by assumption. destruct j; cbn in H; symmetry; exact H.
Qed.

Lemma perm_count k : forall i n pre t q, Z.of_nat (length pre) = i -> Z.of_nat (length t) = Z.of_nat k + 1 ->
  n = i + Z.of_nat k + 1 -> n <= 2 ^ 30 -> NoDup t -> Permutation t q ->
  cardinal (fun ws => Forall word ws /\ length ws = k /\ perm_loop k i n (pre ++ t) ws = Done (pre ++ q) []) (ways k).
Proof.
  induction k as [|k IH]; intros i n pre t q Hp Ht Hn Hb Nd Pm.
  - exists [[]]. split; [repeat constructor; intros []|]. split; [reflexivity|]. intros ws. split.
    + intros [<-|[]]. split; [constructor|]. split; [reflexivity|]. cbn [perm_loop].
      destruct t as [|x [|y t]]; cbn in Ht; try lia.
      apply Permutation_length_1_inv in Pm. subst. reflexivity.
    + intros (_ & L & _). destruct ws; [left; reflexivity|discriminate].
  - destruct q as [|x q].
    { apply Permutation_length in Pm. cbn in Pm. lia. }
    assert (Ix : In x t) by (apply Permutation_in with (x :: q); [symmetry; exact Pm|left; reflexivity]).
    destruct (nth_split_unique t x Nd Ix) as (j & Hj & Ej & Uj).
    destruct (swap_head t j Hj) as (t1 & Es). rewrite Ej in Es.
    assert (H0 : (0 < length t)%nat) by lia.
    pose proof (swap_at_perm t 0 j H0 Hj) as P1. rewrite Es in P1.
    pose proof (Permutation_length P1) as L1. cbn in L1.
    assert (P2 : Permutation t1 q).
    { apply (Permutation_cons_inv (a := x)). rewrite <- P1. exact Pm. }
    assert (N1 : NoDup t1).
    { apply (Permutation_NoDup P1) in Nd. inversion Nd; assumption. }
    assert (Lp : Z.of_nat (length (pre ++ [x])) = i + 1) by (rewrite app_length; cbn; lia).
    pose proof (IH (i + 1) n (pre ++ [x]) t1 q Lp ltac:(lia) ltac:(lia) Hb N1 P2) as C.
    pose proof (draw_count (n - i) (Z.of_nat j) ltac:(lia) ltac:(lia)) as D.
    pose proof (cardinal_cons _ _ _ _ D C) as CC. cbn [ways].
    replace (Z.of_nat (S k) + 1) with (n - i) by lia.
    eapply cardinal_iff; [|exact CC]. intros [|a ws]; cbv beta.
    + split; [intros []|]. intros (_ & L & _). discriminate.
    + cbn [perm_loop]. cbv zeta. pose proof (d_pos (n - i) ltac:(lia)) as Hd.
      assert (Hq : word a -> 0 <= a / ((2 ^ 32 - 1) / (n - i)) < 2 * (n - i)).
      { intros Wa. apply quot_bound; [lia|exact Wa|reflexivity]. }
      set (d := (2 ^ 32 - 1) / (n - i)) in *. clearbody d.
      assert (Ii : word a -> in_int (a / d) && in_int (i + a / d) = true).
      { intros Wa. specialize (Hq Wa). unfold in_int. lia. }
      split.
      * intros [[Wa Ea] (Ww & Lw & Hl)]. split; [constructor; assumption|]. split; [cbn; lia|].
        cbn [perm_draw]. rewrite (Ii Wa), Ea. cbn [negb].
        destruct (Z.leb_spec n (i + Z.of_nat j)); [lia|].
        replace (Z.to_nat i) with (length pre + 0)%nat by lia.
        replace (Z.to_nat (i + Z.of_nat j)) with (length pre + j)%nat by lia.
        rewrite swap_at_app, Es.
        change (pre ++ x :: t1) with (pre ++ [x] ++ t1). change (pre ++ x :: q) with (pre ++ [x] ++ q).
        rewrite !app_assoc. exact Hl.
      * intros (Ww & Lw & Hl). inversion Ww as [|? ? Wa Wr]; subst a l. cbn in Lw.
        cbn [perm_draw] in Hl. rewrite (Ii Wa) in Hl. cbn [negb] in Hl.
        destruct (Z.leb_spec n (i + x0 / d)) as [R|R].
        -- exfalso. destruct (perm_draw d i n ws) as [| |j' r] eqn:E; try discriminate.
           destruct (draw_done d i n ws j' r ltac:(lia) Wr E) as (J & Wr' & L).
           replace (Z.to_nat i) with (length pre + 0)%nat in Hl by lia.
           replace (Z.to_nat j') with (length pre + Z.to_nat (j' - i))%nat in Hl by lia.
           rewrite swap_at_app in Hl.
           destruct (swap_head t (Z.to_nat (j' - i)) ltac:(lia)) as (t2 & E2). rewrite E2 in Hl.
           pose proof (swap_at_length t 0 (Z.to_nat (j' - i))) as SL. rewrite E2 in SL. cbn in SL.
           change (pre ++ nthZ t (Z.to_nat (j' - i)) :: t2) with (pre ++ [nthZ t (Z.to_nat (j' - i))] ++ t2) in Hl.
           rewrite app_assoc in Hl. apply loop_tail in Hl; try lia; try assumption.
           ++ destruct Hl as (_ & _ & _ & L' & _). cbn in L'. lia.
           ++ rewrite app_length. cbn. lia.
        -- specialize (Hq Wa). set (j' := x0 / d) in *.
           replace (Z.to_nat i) with (length pre + 0)%nat in Hl by lia.
           replace (Z.to_nat (i + j')) with (length pre + Z.to_nat j')%nat in Hl by lia.
           rewrite swap_at_app in Hl.
           destruct (swap_head t (Z.to_nat j') ltac:(lia)) as (t2 & E2). rewrite E2 in Hl.
           pose proof (swap_at_length t 0 (Z.to_nat j')) as SL. rewrite E2 in SL. cbn in SL.
           change (pre ++ nthZ t (Z.to_nat j') :: t2) with (pre ++ [nthZ t (Z.to_nat j')] ++ t2) in Hl.
           rewrite app_assoc in Hl. pose proof Hl as Hl'. apply loop_tail in Hl; try lia; try assumption.
           2:{ rewrite app_length. cbn. lia. }
           destruct Hl as (t' & Y & _). rewrite <- app_assoc in Y. apply app_inv_head in Y. cbn [app] in Y.
           injection Y as Yx Yq.
           assert (Ej' : Z.to_nat j' = j) by (apply Uj; [lia|symmetry; exact Yx]).
           split; [split; [exact Wa|lia]|]. split; [exact Wr|]. split; [lia|].
           rewrite Ej' in *. rewrite Es in E2. injection E2 as Ex Et. rewrite <- Ex, <- Et in Hl'.
           change (pre ++ x :: q) with (pre ++ [x] ++ q) in Hl'. rewrite app_assoc in Hl'. exact Hl'.
Qed.

Lemma randperm_uniform n q : 1 <= n <= 2 ^ 30 -> Permutation (zseq n) q ->
  cardinal (fun ws => Forall word ws /\ Z.of_nat (length ws) = n - 1 /\ randperm n ws = Done q [])
           (ways (Z.to_nat (n - 1))).
Proof.
  intros Hn P. unfold randperm. fold (zseq n).
  eapply cardinal_iff; [|apply (perm_count (Z.to_nat (n - 1)) 0 n [] (zseq n) q); try lia; try assumption].
  - intros ws. cbv beta. cbn [app]. split; intros (A & B & C); (split; [exact A|]; split; [lia|exact C]).
  - reflexivity.
  - rewrite zseq_length; lia.
  - apply zseq_nodup.
Qed.

(* ---------- shuffle ---------- *)
Lemma shuffle_d_pos m : 1 <= m < 2 ^ 64 -> 1 <= shuffle_d m < 2 ^ 32.
Proof.
  intros Hm. unfold shuffle_d, u32.
  pose proof (Z.div_mod (2 ^ 64 - 1) m ltac:(lia)) as E. pose proof (Z.mod_pos_bound (2 ^ 64 - 1) m ltac:(lia)).
  assert (Q : 1 <= (2 ^ 64 - 1) / m) by (apply Z.div_le_lower_bound; lia).
  set (D := (2 ^ 64 - 1) / m) in *. set (r := (2 ^ 64 - 1) mod m) in *. clearbody D r.
  pose proof (Z.mod_pos_bound D (2 ^ 32) ltac:(lia)). split; [|lia].
  destruct (Z.eq_dec (D mod 2 ^ 32) 0) as [Z0|]; [|lia]. exfalso.
  pose proof (Z.div_mod D (2 ^ 32) ltac:(lia)) as E2. set (k := D / 2 ^ 32) in *. clearbody k.
  assert (Dk : D = 2 ^ 32 * k) by lia.
  assert (K1 : 1 <= k) by lia.
  assert (R : r = 2 ^ 32 * (2 ^ 32 - m * k) - 1) by (rewrite Dk in E; lia).
  assert (M : m * k <= 2 ^ 32 - 1) by nia.
  assert (m <= 2 ^ 32 - 1) by nia. nia.
Qed.

Lemma shuffle_draw_ok d i n ws : d <> 0 -> shuffle_draw d i n ws <> Undef /\
  forall j r, 0 <= n < 2 ^ 64 -> shuffle_draw d i n ws = Done j r -> 0 <= j < n.
Proof.
  intros Hd. induction ws as [|a ws IH]; cbn [shuffle_draw]; [split; [discriminate|intros; discriminate]|].
  destruct (Z.eqb_spec d 0); [contradiction|]. cbv zeta. destruct (Z.leb_spec n (u64 (i + u32 a / d))).
  - exact IH.
  - split; [discriminate|]. intros j r Hn E. injection E as <- _. split; [|assumption].
    unfold u64. apply Z.mod_pos_bound. lia.
Qed.

Definition swapped (m : mem) (pi pj len : Z) (q : Z) : Z :=
  if (pi <=? q) && (q <? pi + len) then m (q - pi + pj)
  else if (pj <=? q) && (q <? pj + len) then m (q - pj + pi) else m q.

Lemma swap_bytes_spec k : forall off m pi pj sz q, pi = pj \/ pi + sz <= pj \/ pj + sz <= pi -> 0 <= off ->
  off + Z.of_nat k <= sz ->
  swap_bytes k off m pi pj q = swapped m (pi + off) (pj + off) (Z.of_nat k) q.
Proof.
  induction k as [|k IH]; intros off m pi pj sz q Hd Ho Hk; cbn [swap_bytes].
  - unfold swapped. destruct (Z.leb_spec (pi + off) q), (Z.ltb_spec q (pi + off + Z.of_nat 0)); cbn [andb];
      try (exfalso; lia); destruct (Z.leb_spec (pj + off) q), (Z.ltb_spec q (pj + off + Z.of_nat 0)); cbn [andb];
      try (exfalso; lia); reflexivity.
  - cbv zeta. rewrite (IH _ _ pi pj sz) by (assumption || lia). unfold swapped, put.
    repeat match goal with |- context[?a <=? ?b] => destruct (Z.leb_spec a b) end;
    repeat match goal with |- context[?a <? ?b] => destruct (Z.ltb_spec a b) end; cbn [andb];
    repeat match goal with |- context[?a =? ?b] => destruct (Z.eqb_spec a b) end;
    try (exfalso; lia); try reflexivity; f_equal; lia.
Qed.

Lemma swap_elem_spec w m pi pj q : pi = pj \/ pi + w <= pj \/ pj + w <= pi -> 0 <= w ->
  swap_elem w m pi pj q = swapped m pi pj w q.
Proof.
  intros Hd Hw. unfold swap_elem, store_bytes, load_bytes, swapped.
  repeat match goal with |- context[?a <=? ?b] => destruct (Z.leb_spec a b) end;
  repeat match goal with |- context[?a <? ?b] => destruct (Z.ltb_spec a b) end; cbn [andb];
  try (exfalso; lia); try reflexivity; f_equal; lia.
Qed.

Lemma shuffle_swap_spec sz str m i j q : 1 <= sz <= str ->
  shuffle_swap sz str m i j q = swapped m (i * str) (j * str) sz q.
Proof.
  intros H. assert (D : i * str = j * str \/ i * str + sz <= j * str \/ j * str + sz <= i * str).
  { assert (i = j \/ i + 1 <= j \/ j + 1 <= i) as [->|[L|L]] by lia; [lia|right; left|right; right];
      apply (Z.mul_le_mono_nonneg_r _ _ str) in L; lia. }
  unfold shuffle_swap. destruct (_ && _).
  - apply swap_elem_spec; lia.
  - rewrite (swap_bytes_spec _ _ _ _ _ sz) by lia. rewrite !Z.add_0_r, Z2Nat.id by lia. reflexivity.
Qed.

Definition arranged (sz str n : Z) (m m' : mem) (s : list Z) : Prop :=
  (forall e k, 0 <= e < n -> 0 <= k < sz -> m' (e * str + k) = m (nthZ s (Z.to_nat e) * str + k)) /\
  (forall q, (forall e k, 0 <= e < n -> 0 <= k < sz -> q <> e * str + k) -> m' q = m q).

Lemma arranged_swap sz str n m m' s i j : 1 <= sz <= str -> Z.of_nat (length s) = n -> 0 <= i < n -> 0 <= j < n ->
  arranged sz str n m m' s -> arranged sz str n m (shuffle_swap sz str m' i j) (swap_at s (Z.to_nat i) (Z.to_nat j)).
Proof.
  intros Hs Hl Hi Hj [A B]. split.
  - intros e k He Hk. rewrite shuffle_swap_spec by exact Hs. rewrite swap_at_nth by lia. unfold swapped.
    destruct (Nat.eqb_spec (Z.to_nat e) (Z.to_nat j)) as [Ej|Ej].
    + assert (e = j) by lia. subst e. destruct (Z.eq_dec i j) as [->|N].
      * destruct (Z.leb_spec (j * str) (j * str + k)); [|lia]. destruct (Z.ltb_spec (j * str + k) (j * str + sz)); [|lia].
        cbn [andb]. replace (j * str + k - j * str + j * str) with (j * str + k) by lia. apply A; lia.
      * assert (F : (i * str <=? j * str + k) && (j * str + k <? i * str + sz) = false).
        { destruct (Z.leb_spec (i * str) (j * str + k)), (Z.ltb_spec (j * str + k) (i * str + sz)); cbn; try reflexivity.
          exfalso. nia. }
        rewrite F. destruct (Z.leb_spec (j * str) (j * str + k)); [|lia].
        destruct (Z.ltb_spec (j * str + k) (j * str + sz)); [|lia].
        cbn [andb]. replace (j * str + k - j * str + i * str) with (i * str + k) by lia. apply A; lia.
    + destruct (Nat.eqb_spec (Z.to_nat e) (Z.to_nat i)) as [Ei|Ei].
      * assert (e = i) by lia. subst e. destruct (Z.leb_spec (i * str) (i * str + k)); [|lia].
        destruct (Z.ltb_spec (i * str + k) (i * str + sz)); [|lia]. cbn [andb].
        replace (i * str + k - i * str + j * str) with (j * str + k) by lia. apply A; lia.
      * assert (F : forall c, e <> c -> (c * str <=? e * str + k) && (e * str + k <? c * str + sz) = false).
        { intros c Nc. destruct (Z.leb_spec (c * str) (e * str + k)), (Z.ltb_spec (e * str + k) (c * str + sz)); cbn; try reflexivity.
          exfalso. nia. }
        rewrite !F by lia. apply A; lia.
  - intros q Hq. rewrite shuffle_swap_spec by exact Hs. unfold swapped.
    assert (F : forall c, 0 <= c < n -> (c * str <=? q) && (q <? c * str + sz) = false).
    { intros c Hc. destruct (Z.leb_spec (c * str) q), (Z.ltb_spec q (c * str + sz)); cbn; try reflexivity.
      exfalso. apply (Hq c (q - c * str)); lia. }
    rewrite !F by assumption. apply B. exact Hq.
Qed.

Lemma shuffle_loop_ok k : forall i n sz str m0 m ws s, 1 <= sz <= str -> 0 <= i -> i + Z.of_nat k < n -> n < 2 ^ 64 ->
  Permutation (zseq n) s -> arranged sz str n m0 m s ->
  shuffle_loop k i n sz str m ws <> Undef /\
  forall m' rest, shuffle_loop k i n sz str m ws = Done m' rest ->
    exists s', Permutation (zseq n) s' /\ arranged sz str n m0 m' s'.
Proof.
  induction k as [|k IH]; intros i n sz str m0 m ws s Hs Hi Hk Hn P A; cbn [shuffle_loop].
  - split; [discriminate|]. intros m' rest E. injection E as <- _. exists s. auto.
  - pose proof (shuffle_d_pos (n - i) ltac:(lia)) as Hd.
    destruct (shuffle_draw_ok (shuffle_d (n - i)) i n ws ltac:(lia)) as [U V].
    destruct (shuffle_draw (shuffle_d (n - i)) i n ws) as [| |j r]; [split; [discriminate|intros; discriminate]|contradiction|].
    pose proof (V j r ltac:(lia) eq_refl) as Hj.
    assert (L : Z.of_nat (length s) = n).
    { apply Permutation_length in P. rewrite <- P. apply zseq_length. lia. }
    apply (IH (i + 1) n sz str m0 _ r (swap_at s (Z.to_nat i) (Z.to_nat j))); try assumption; try lia.
    + rewrite P. apply swap_at_perm; lia.
    + apply arranged_swap; try assumption; lia.
Qed.

Lemma zseq_nth n e : 0 <= e < n -> nthZ (zseq n) (Z.to_nat e) = e.
Proof.
  intros H. unfold nthZ, zseq. rewrite (nth_indep _ 0 (Z.of_nat 0)) by (rewrite map_length, seq_length; lia).
  rewrite map_nth, seq_nth by lia. lia.
Qed.

Lemma shuffle_ok sz str n m ws : 0 <= sz <= str -> 0 <= n < 2 ^ 64 ->
  shuffle sz str n m ws <> Undef /\
  forall m' rest, shuffle sz str n m ws = Done m' rest ->
    exists s, Permutation (zseq n) s /\ arranged sz str n m m' s.
Proof.
  intros Hs Hn.
  assert (A0 : arranged sz str n m m (zseq n)).
  { split; [|reflexivity]. intros e k He Hk. rewrite zseq_nth by exact He. reflexivity. }
  unfold shuffle. destruct ((n <? 2) || (sz =? 0)) eqn:E.
  - split; [discriminate|]. intros m' rest H. injection H as <- _. exists (zseq n). split; [reflexivity|exact A0].
  - apply (shuffle_loop_ok (Z.to_nat (n - 1)) 0 n sz str m m ws (zseq n)); try lia; [reflexivity|exact A0].
Qed.

Lemma shuffle_two sz str m w : 1 <= sz <= str -> 0 <= w < 2 ^ 64 ->
  exists m', shuffle sz str 2 m [w] = Done m' [] /\
  forall q, m' q = if w mod 2 ^ 32 =? 2 ^ 32 - 1 then swapped m 0 str sz q else m q.
Proof.
  intros Hs Hw. unfold shuffle. destruct (Z.eqb_spec sz 0); [lia|]. cbn [Z.ltb Z.compare Pos.compare Pos.compare_cont orb].
  change (Z.to_nat (2 - 1)) with 1%nat. cbn [shuffle_loop]. change (shuffle_d (2 - 0)) with (2 ^ 32 - 1).
  cbn [shuffle_draw]. change (2 ^ 32 - 1 =? 0) with false. cbv iota zeta. unfold u32.
  pose proof (Z.mod_pos_bound w (2 ^ 32) ltac:(lia)) as B. set (a := w mod 2 ^ 32) in *. clearbody a.
  destruct (Z.eqb_spec a (2 ^ 32 - 1)) as [->|N].
  - rewrite Z.div_same by lia. change (2 <=? u64 (0 + 1)) with false. cbv iota.
    eexists. split; [reflexivity|]. intros q. rewrite shuffle_swap_spec by exact Hs.
    change (u64 (0 + 1)) with 1. rewrite Z.mul_1_l. reflexivity.
  - rewrite Z.div_small by lia. change (2 <=? u64 (0 + 0)) with false. cbv iota.
    eexists. split; [reflexivity|]. intros q. rewrite shuffle_swap_spec by exact Hs.
    change (u64 (0 + 0)) with 0. unfold swapped. destruct (_ && _); f_equal; lia.
Qed.

(* offsets of the first draw for n elements: how many of the 2^32 low halves give offset o *)
Lemma shuffle_count m o : 1 <= m < 2 ^ 64 -> 0 <= o ->
  cardinal (fun a => word a /\ a / shuffle_d m = o)
           (Z.max 0 (Z.min (2 ^ 32) ((o + 1) * shuffle_d m) - o * shuffle_d m)).
Proof.
  intros Hm Ho. pose proof (shuffle_d_pos m Hm) as Hd. set (d := shuffle_d m) in *. clearbody d.
  assert (D : forall a, word a /\ a / d = o <-> o * d <= a < Z.max (o * d) (Z.min (2 ^ 32) ((o + 1) * d))).
  { intros a. unfold word. split.
    - intros [Ha E]. pose proof (Z.div_mod a d ltac:(lia)). pose proof (Z.mod_pos_bound a d ltac:(lia)). nia.
    - intros Ha. split; [nia|]. symmetry. apply (Z.div_unique a d o (a - o * d)); lia. }
  eapply cardinal_iff; [intros a; symmetry; apply D|].
  replace (Z.max 0 (Z.min (2 ^ 32) ((o + 1) * d) - o * d)) with (Z.max (o * d) (Z.min (2 ^ 32) ((o + 1) * d)) - o * d) by lia.
  apply cardinal_interval. lia.
Qed.

(* after the first step element 0 is not touched again *)
Lemma shuffle_swap_other sz str m i j q : 1 <= sz <= str -> 1 <= i -> 1 <= j -> q < str -> shuffle_swap sz str m i j q = m q.
Proof.
  intros Hs Hi Hj Hq. rewrite shuffle_swap_spec by exact Hs. unfold swapped.
  destruct (Z.leb_spec (i * str) q); [nia|]. destruct (Z.leb_spec (j * str) q); [nia|]. reflexivity.
Qed.
Lemma shuffle_draw_ge d i n ws : forall j r, 0 < d -> 0 <= i -> i + 2 ^ 32 < 2 ^ 64 -> shuffle_draw d i n ws = Done j r ->
  i <= j /\ exists a, word a /\ j = i + a / d.
Proof.
  induction ws as [|a ws IH]; intros j r Hd Hi Hb H; cbn [shuffle_draw] in H; [discriminate|].
  destruct (Z.eqb_spec d 0); [lia|]. cbv zeta in H. destruct (n <=? _); [exact (IH j r Hd Hi Hb H)|].
  injection H as <- _. pose proof (Z.mod_pos_bound a (2 ^ 32) ltac:(lia)) as B. fold (u32 a) in B.
  pose proof (Z.div_pos (u32 a) d ltac:(lia) Hd). pose proof (Z.div_le_upper_bound (u32 a) d (u32 a) Hd ltac:(nia)).
  unfold u64. rewrite Z.mod_small by lia. split; [lia|]. exists (u32 a). split; [exact B|reflexivity].
Qed.
Lemma shuffle_rest k : forall i n sz str m ws m' rest q, 1 <= sz <= str -> 1 <= i -> i + Z.of_nat k < n -> n < 2 ^ 63 -> q < str ->
  shuffle_loop k i n sz str m ws = Done m' rest -> m' q = m q.
Proof.
  induction k as [|k IH]; intros i n sz str m ws m' rest q Hs Hi Hk Hn Hq H; cbn [shuffle_loop] in H.
  - injection H as <- _. reflexivity.
  - pose proof (shuffle_d_pos (n - i) ltac:(lia)) as Hd.
    destruct (shuffle_draw (shuffle_d (n - i)) i n ws) as [| |j r] eqn:E; try discriminate.
    apply shuffle_draw_ge in E; [|lia|lia|lia]. destruct E as [J _].
    apply (IH _ _ _ _ _ _ _ _ q) in H; try assumption; try lia. rewrite H. apply shuffle_swap_other; lia.
Qed.

Lemma shuffle_six sz str m ws m' rest : 1 <= sz <= str -> shuffle sz str 6 m ws = Done m' rest ->
  (forall k, 0 <= k < sz -> m' k = m k) \/ (forall k, 0 <= k < sz -> m' k = m (str + k)).
Proof.
  intros Hs H. unfold shuffle in H. destruct (Z.eqb_spec sz 0); [lia|]. cbn [Z.ltb Z.compare Pos.compare Pos.compare_cont orb] in H.
  change (Z.to_nat (6 - 1)) with 5%nat in H. remember 4%nat as k4 eqn:K4.
  replace 5%nat with (S k4) in H by (subst; reflexivity). cbn [shuffle_loop] in H.
  destruct (shuffle_draw (shuffle_d (6 - 0)) 0 6 ws) as [| |j r] eqn:E; try discriminate.
  assert (D : shuffle_d (6 - 0) = 2863311530) by reflexivity. rewrite D in E.
  apply shuffle_draw_ge in E; [|lia|lia|lia]. destruct E as (J & a & Wa & Ea).
  assert (J2 : j < 2). { unfold word in Wa. rewrite Ea. apply Z.lt_le_trans with 2; [|lia]. apply Z.div_lt_upper_bound; lia. }
  assert (R : forall q, q < str -> m' q = shuffle_swap sz str m 0 j q).
  { intros q Hq. apply (shuffle_rest _ _ _ _ _ _ _ _ _ q) in H; try assumption; try lia. }
  assert (j = 0 \/ j = 1) as [->| ->] by lia; [left|right]; intros k Hk; rewrite R by lia;
    rewrite shuffle_swap_spec by exact Hs; unfold swapped.
  - destruct (_ && _); f_equal; lia.
  - destruct (Z.leb_spec (0 * str) k); [|lia]. destruct (Z.ltb_spec k (0 * str + sz)); [|lia]. cbn [andb]. f_equal. lia.
Qed.

(* ---------- normal generators ---------- *)
Lemma land_pow2 a k : 0 <= k -> Z.land a (2 ^ k) = 2 ^ k * ((a / 2 ^ k) mod 2).
Proof.
  intros Hk. rewrite <- Z.testbit_spec' by exact Hk.
  apply Z.bits_inj'. intros i Hi. rewrite Z.land_spec, Z.pow2_bits_eqb by lia.
  destruct (Z.eqb_spec k i) as [->|N].
  - destruct (Z.testbit a i); cbn [Z.b2z andb]; [rewrite Z.mul_1_r, Z.pow2_bits_true by lia|rewrite Z.mul_0_r, Z.bits_0]; reflexivity.
  - rewrite andb_false_r. destruct (Z.testbit a k); cbn [Z.b2z].
    + rewrite Z.mul_1_r, Z.pow2_bits_false by lia. reflexivity.
    + rewrite Z.mul_0_r, Z.bits_0. reflexivity.
Qed.

Lemma frandn_parts a : word a ->
  frandn_s a = a mod 2 /\ frandn_i a = (a / 2) mod 64 /\
  frandn_j a = 256 * ((a / 256 + (a / 128) mod 2) mod 2 ^ 24).
Proof.
  intros Ha. unfold frandn_s, frandn_i, frandn_j. split; [|split].
  - change 1 with (Z.ones 1). rewrite Z.land_ones by lia. reflexivity.
  - rewrite Z.shiftr_land. change (Z.shiftr 126 1) with (Z.ones 6). rewrite Z.land_ones, Z.shiftr_div_pow2 by lia. reflexivity.
  - change 128 with (2 ^ 7) at 1. rewrite land_pow2 by lia. unfold u32. change 255 with (2 ^ 8 - 1).
    rewrite (mask_floor 32 a 8) by (unfold word in Ha; lia). rewrite Z.shiftl_mul_pow2 by lia.
    change (2 ^ 7) with 128. change (2 ^ 1) with 2. change (2 ^ 8) with 256.
    pose proof (Z.mod_pos_bound (a / 128) 2 ltac:(lia)). rewrite (Z.mod_small (128 * _ * 2)) by lia.
    pose proof (Z.div_mod a 256 ltac:(lia)). replace (a - a mod 256 + 128 * ((a / 128) mod 2) * 2) with
      (256 * (a / 256 + (a / 128) mod 2)) by lia.
    change (2 ^ 32) with (256 * 2 ^ 24). rewrite Z.mul_mod_distr_l by lia. reflexivity.
Qed.

Lemma frandn_count s i k : 0 <= s < 2 -> 0 <= i < 64 -> 0 <= k < 2 ^ 24 ->
  cardinal (fun a => word a /\ frandn_s a = s /\ frandn_i a = i /\ frandn_j a = 256 * k) 2.
Proof.
  intros Hs Hi Hk.
  set (x := s + 2 * i + 256 * k). set (k' := if k =? 0 then 2 ^ 24 - 1 else k - 1).
  set (y := s + 2 * i + 128 + 256 * k').
  assert (Hk' : 0 <= k' < 2 ^ 24) by (unfold k'; destruct (Z.eqb_spec k 0); lia).
  apply (cardinal_iff (fun a => a = x \/ a = y)).
  - intros a. split.
    + intros [->| ->]; (split; [unfold word, x, y; lia|]).
      * assert (W : word x) by (unfold word, x; lia). destruct (frandn_parts x W) as (-> & -> & ->).
        assert (E1 : x / 2 = i + 128 * k) by (unfold x; symmetry; apply (Z.div_unique _ _ _ s); lia).
        assert (E2 : x / 256 = k) by (unfold x; symmetry; apply (Z.div_unique _ _ _ (s + 2 * i)); lia).
        assert (E3 : x / 128 = 2 * k) by (unfold x; symmetry; apply (Z.div_unique _ _ _ (s + 2 * i)); lia).
        rewrite E1, E2, E3. split; [unfold x; symmetry; apply (Z.mod_unique _ _ (i + 128 * k)); lia|].
        split; [symmetry; apply (Z.mod_unique _ _ (2 * k)); lia|].
        rewrite (Z.mul_comm 2 k), Z.mod_mul, Z.add_0_r, Z.mod_small by lia. reflexivity.
      * assert (W : word y) by (unfold word, y; lia). destruct (frandn_parts y W) as (-> & -> & ->).
        assert (E1 : y / 2 = i + 64 + 128 * k') by (unfold y; symmetry; apply (Z.div_unique _ _ _ s); lia).
        assert (E2 : y / 256 = k') by (unfold y; symmetry; apply (Z.div_unique _ _ _ (s + 2 * i + 128)); lia).
        assert (E3 : y / 128 = 2 * k' + 1) by (unfold y; symmetry; apply (Z.div_unique _ _ _ (s + 2 * i)); lia).
        rewrite E1, E2, E3. split; [unfold y; symmetry; apply (Z.mod_unique _ _ (i + 64 + 128 * k')); lia|].
        split; [symmetry; apply (Z.mod_unique _ _ (2 * k' + 1)); lia|].
        replace ((2 * k' + 1) mod 2) with 1 by (apply (Z.mod_unique _ _ k'); lia).
        unfold k'. destruct (Z.eqb_spec k 0) as [->|N]; [reflexivity|].
        replace (k - 1 + 1) with k by lia. rewrite Z.mod_small by lia. reflexivity.
    + intros (W & Es & Ei & Ej). destruct (frandn_parts a W) as (Fs & Fi & Fj). rewrite Fs in Es. rewrite Fi in Ei. rewrite Fj in Ej.
      unfold word in W.
      assert (A0 : a = 2 * (a / 2) + s) by (pose proof (Z.div_mod a 2 ltac:(lia)); lia).
      assert (A1 : a / 2 = 64 * (a / 128) + i).
      { pose proof (Z.div_mod (a / 2) 64 ltac:(lia)) as D. rewrite Z.div_div in D by lia. change (2 * 64) with 128 in D. lia. }
      assert (A2 : a / 128 = 2 * (a / 256) + (a / 128) mod 2).
      { pose proof (Z.div_mod (a / 128) 2 ltac:(lia)) as D. rewrite Z.div_div in D by lia. change (128 * 2) with 256 in D. lia. }
      pose proof (Z.mod_pos_bound (a / 128) 2 ltac:(lia)). set (b := (a / 128) mod 2) in *.
      assert (Ub : 0 <= a / 256 < 2 ^ 24) by (split; [apply Z.div_pos; lia|apply Z.div_lt_upper_bound; lia]).
      set (h := a / 256) in *. clearbody h b.
      assert (Ek : (h + b) mod 2 ^ 24 = k) by lia.
      assert (b = 0 \/ b = 1) as [->| ->] by lia.
      * left. rewrite Z.add_0_r, Z.mod_small in Ek by lia. unfold x. lia.
      * right. unfold y, k'. destruct (Z.eq_dec h (2 ^ 24 - 1)) as [->|Nh].
        -- change ((2 ^ 24 - 1 + 1) mod 2 ^ 24) with 0 in Ek. rewrite <- Ek. cbn [Z.eqb]. lia.
        -- rewrite Z.mod_small in Ek by lia. destruct (Z.eqb_spec k 0); lia.
  - change 2 with (1 + 1). apply cardinal_or; [|apply cardinal_one|apply cardinal_one].
    intros u -> E. unfold x, y, k' in E. destruct (Z.eqb_spec k 0); lia.
Qed.

Lemma drandn_parts a : 0 <= a < 2 ^ 64 ->
  drandn_s a = a mod 2 /\ drandn_i a = (a / 2) mod 256 /\
  drandn_j a = 1024 * ((a / 1024 + 2 * ((a / 1024) mod 2)) mod 2 ^ 54).
Proof.
  intros Ha. unfold drandn_s, drandn_i, drandn_j. split; [|split].
  - change 1 with (Z.ones 1). rewrite Z.land_ones by lia. reflexivity.
  - rewrite Z.shiftr_land. change (Z.shiftr 510 1) with (Z.ones 8). rewrite Z.land_ones, Z.shiftr_div_pow2 by lia. reflexivity.
  - change 1024 with (2 ^ 10) at 1. rewrite land_pow2 by lia. unfold u64. change 1023 with (2 ^ 10 - 1).
    rewrite (mask_floor 64 a 10) by lia. rewrite Z.shiftl_mul_pow2 by lia.
    change (2 ^ 10) with 1024. change (2 ^ 1) with 2.
    pose proof (Z.mod_pos_bound (a / 1024) 2 ltac:(lia)). rewrite (Z.mod_small (1024 * _ * 2)) by lia.
    pose proof (Z.div_mod a 1024 ltac:(lia)). replace (a - a mod 1024 + 1024 * ((a / 1024) mod 2) * 2) with
      (1024 * (a / 1024 + 2 * ((a / 1024) mod 2))) by lia.
    change (2 ^ 64) with (1024 * 2 ^ 54). rewrite Z.mul_mod_distr_l by lia. reflexivity.
Qed.

(* q -> q + 2 (q mod 2) mod 2^54 is a bijection *)
Lemma odd_rot q k : 0 <= q < 2 ^ 54 -> 0 <= k < 2 ^ 54 ->
  (q + 2 * (q mod 2)) mod 2 ^ 54 = k <-> q = (k - 2 * (k mod 2)) mod 2 ^ 54.
Proof.
  intros Hq Hk.
  assert (F : forall v c, 0 <= v < 2 ^ 54 -> c = 1 \/ c = -1 ->
     (v + 2 * c * (v mod 2)) mod 2 ^ 54 mod 2 = v mod 2).
  { intros v c Hv Hc. rewrite <- Znumtheory.Zmod_div_mod; [|lia|lia|exists (2 ^ 53); reflexivity].
    replace (v + 2 * c * (v mod 2)) with (v + (c * (v mod 2)) * 2) by lia. apply Z.mod_add. lia. }
  split.
  - intros <-. rewrite (Z.mul_comm 2 (q mod 2)) at 1. 
    assert (P : ((q + 2 * (q mod 2)) mod 2 ^ 54) mod 2 = q mod 2).
    { pose proof (F q 1 Hq (or_introl eq_refl)) as E. rewrite Z.mul_1_r in E. exact E. }
    rewrite (Z.mul_comm (q mod 2) 2). rewrite P. rewrite Zminus_mod_idemp_l.
    replace (q + 2 * (q mod 2) - 2 * (q mod 2)) with q by lia. rewrite Z.mod_small by exact Hq. reflexivity.
  - intros ->. assert (P : ((k - 2 * (k mod 2)) mod 2 ^ 54) mod 2 = k mod 2).
    { pose proof (F k (-1) Hk (or_intror eq_refl)) as E. replace (k + 2 * -1 * (k mod 2)) with (k - 2 * (k mod 2)) in E by lia. exact E. }
    rewrite P. rewrite Zplus_mod_idemp_l. replace (k - 2 * (k mod 2) + 2 * (k mod 2)) with k by lia.
    apply Z.mod_small. exact Hk.
Qed.

Lemma drandn_count s i k : 0 <= s < 2 -> 0 <= i < 256 -> 0 <= k < 2 ^ 54 ->
  cardinal (fun a => 0 <= a < 2 ^ 64 /\ drandn_s a = s /\ drandn_i a = i /\ drandn_j a = 1024 * k) 2.
Proof.
  intros Hs Hi Hk. set (q := (k - 2 * (k mod 2)) mod 2 ^ 54).
  assert (Hq : 0 <= q < 2 ^ 54) by (apply Z.mod_pos_bound; lia).
  assert (Rq : (q + 2 * (q mod 2)) mod 2 ^ 54 = k) by (apply odd_rot; [exact Hq|exact Hk|reflexivity]).
  apply (cardinal_iff (fun a => a = s + 2 * i + 1024 * q \/ a = s + 2 * i + 512 + 1024 * q)).
  - intros a. split.
    + intros H. assert (exists b, 0 <= b < 2 /\ a = s + 2 * i + 512 * b + 1024 * q) as (b & Hb & E).
      { destruct H as [->| ->]; [exists 0|exists 1]; lia. }
      clear H. assert (W : 0 <= a < 2 ^ 64) by lia. split; [exact W|]. destruct (drandn_parts a W) as (-> & -> & ->).
      assert (E1 : a / 2 = i + 256 * b + 512 * q) by (symmetry; apply (Z.div_unique _ _ _ s); lia).
      assert (E2 : a / 1024 = q) by (symmetry; apply (Z.div_unique _ _ _ (s + 2 * i + 512 * b)); lia).
      rewrite E1, E2, Rq. split; [symmetry; apply (Z.mod_unique _ _ (i + 256 * b + 512 * q)); lia|].
      split; [symmetry; apply (Z.mod_unique _ _ (b + 2 * q)); lia|reflexivity].
    + intros (W & Es & Ei & Ej). destruct (drandn_parts a W) as (Fs & Fi & Fj). rewrite Fs in Es. rewrite Fi in Ei. rewrite Fj in Ej.
      assert (A0 : a = 2 * (a / 2) + s) by (pose proof (Z.div_mod a 2 ltac:(lia)); lia).
      assert (A1 : a / 2 = 256 * (a / 512) + i).
      { pose proof (Z.div_mod (a / 2) 256 ltac:(lia)) as D. rewrite Z.div_div in D by lia. change (2 * 256) with 512 in D. lia. }
      assert (A2 : a / 512 = 2 * (a / 1024) + (a / 512) mod 2).
      { pose proof (Z.div_mod (a / 512) 2 ltac:(lia)) as D. rewrite Z.div_div in D by lia. change (512 * 2) with 1024 in D. lia. }
      pose proof (Z.mod_pos_bound (a / 512) 2 ltac:(lia)).
      assert (Uh : 0 <= a / 1024 < 2 ^ 54) by (split; [apply Z.div_pos; lia|apply Z.div_lt_upper_bound; lia]).
      assert (E : a / 1024 = q) by (apply odd_rot; [exact Uh|exact Hk|lia]). lia.
  - apply (cardinal_or (fun a => a = s + 2 * i + 1024 * q) (fun a => a = s + 2 * i + 512 + 1024 * q) 1 1); [|apply cardinal_one|apply cardinal_one].
    intros u -> E. lia.
Qed.
