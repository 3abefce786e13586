(* C66: the memory operations of the vector classes. *)
From Coq Require Import ZArith List String Bool Lia.
From Verif Require Import VecModel VecPrograms4 VecPrograms8 VecPrograms16 VecSpec VecProofs VecRows VecMoves.
Import ListNotations.
Open Scope string_scope. Open Scope list_scope.
Ltac Zify.zify_post_hook ::= idtac.

(* Every load: defined exactly when the pointers are aligned as listed and the listed words
   can be accessed; then each lane is the word of its place and memory is unchanged. *)
Theorem C66_loads f : In f load_funs -> is_load f.
Proof. exact (proj1 (Forall_forall is_load load_funs) all_loads f). Qed.
Print Assumptions C66_loads.

(* Every store. *)
Theorem C66_stores f : In f store_funs -> is_store f.
Proof. exact (proj1 (Forall_forall is_store store_funs) all_stores f). Qed.
Print Assumptions C66_stores.

Theorem C66_transposes code xs : In (code, xs) transposes -> is_transpose code xs.
Proof. exact (proj1 (Forall_forall _ transposes) all_transposes (code, xs)). Qed.
Print Assumptions C66_transposes.

Theorem C66_swaps code n : In (code, n) swaps_reg -> is_swap code n.
Proof. exact (proj1 (Forall_forall _ swaps_reg) all_swaps (code, n)). Qed.
Print Assumptions C66_swaps.

Theorem C66_clear_copy_swap :
  (forall code n al, In (code, n, al) clears -> is_clear code n al) /\
  (forall code p q n al, In (code, p, q, n, al) copies -> is_copy code p q n al) /\
  (forall code p q n al, In (code, p, q, n, al) swaps_mem -> is_swap_mem code p q n al).
Proof.
  split; [|split].
  - intros code n al. exact (proj1 (Forall_forall _ clears) all_clears (code, n, al)).
  - intros code p q n al. exact (proj1 (Forall_forall _ copies) all_copies (code, p, q, n, al)).
  - intros code p q n al. exact (proj1 (Forall_forall _ swaps_mem) all_swaps_mem (code, p, q, n, al)).
Qed.
Print Assumptions C66_clear_copy_swap.

Ltac listed := repeat first [left; match goal with |- ?x = ?y => constr_eq x y; exact eq_refl end | right].

(* A pointer to a member of an array of structures: base, words of a structure, member. *)
Definition member (base stride off : Z) (nv : Z) (z : Z) : Prop :=
  exists v, (0 <= v < nv /\ z = base + stride * v + off)%Z.
(* The call is defined if alignment divides base, stride and member and the words touched
   are words of the structure. *)
Theorem C66_members word (zero : word) f a m s c base stride off nv :
  (forall z, base <= z < base + stride * nv -> m z <> None)%Z -> (0 <= off)%Z ->
  (forall p al n, In (p, al, n) (frame f) -> member base stride off nv (a p) /\
    (base mod Z.of_nat al = 0 /\ stride mod Z.of_nat al = 0 /\ off mod Z.of_nat al = 0 /\ off + Z.of_nat n <= stride)%Z) ->
  (In f load_funs -> exists r, run word zero a (code f) s m = Ok r) /\
  (In f store_funs -> exists r, run word zero a (code f) (args f c) m = Ok r).
Proof.
  intros Hm Ho Hf.
  assert (F : framed a m (frame f)).
  { intros p al n Hin. destruct (Hf p al n Hin) as [(v & Hv & E) (H1 & H2 & H3 & H4)]. rewrite E. split.
    - destruct (Nat.eq_dec al 0) as [->|Hal].
      + cbn in H1, H2, H3. rewrite Zmod_0_r in *. subst. lia.
      + apply Z.mod_divide in H1; [|lia]. apply Z.mod_divide in H2; [|lia]. apply Z.mod_divide in H3; [|lia].
        apply Z.mod_divide; [lia|]. apply Z.divide_add_r; [apply Z.divide_add_r; [exact H1|]|exact H3].
        apply Z.divide_mul_l. exact H2.
    - intros o Hlt. apply Hm. unfold addr. cbn [fst snd]. rewrite E. nia. }
  split; intros H.
  - apply (proj1 (C66_loads f H word zero a s m)). exact F.
  - apply (proj1 (C66_stores f H word zero a c m)). exact F.
Qed.
Print Assumptions C66_members.

(* The loads and stores of the 4- and 8-wide kernels on the members ex, cbx, tcax and jfx of
   field_t (field_advance.h:152-160: 20 words, array aligned to 128 bytes): alignment and
   extent are within the conditions of C66_members. *)
Definition field_use (f : vfun) : bool :=
  forallb (fun x => (Nat.eqb (snd (fst x)) 1 || Nat.eqb (snd (fst x)) 4) && Nat.leb (snd x) 4) (frame f).
Definition field_kernels : list vfun :=
  [mk_vfun sse_load_4x2_tr (tr a4 (abc 2)) (each a4 1 2); mk_vfun sse_load_4x3_tr (tr a4 (abc 3)) (each a4 4 4);
   mk_vfun sse_load_4x4_tr (tr a4 (abc 4)) (each a4 4 4); mk_vfun sse_store_4x3_tr (tr a4 (abc 3)) (each a4 1 3);
   mk_vfun sse_store_4x4_tr (tr a4 (abc 4)) (each a4 4 4); mk_vfun avx_load_8x2_tr (tr a8 (abc 2)) (each a8 1 2);
   mk_vfun avx_load_8x3_tr (tr a8 (abc 3)) (each a8 1 3); mk_vfun avx_load_8x4_tr (tr a8 (abc 4)) (each a8 4 4);
   mk_vfun avx_store_8x3_tr (tr a8 (abc 3)) (each a8 1 3); mk_vfun avx_store_8x4_tr (tr a8 (abc 4)) (each a8 4 4)].
Theorem C66_field_members_defined word (zero : word) f a m s c base off nv :
  field_use f = true ->
  (base mod 32 = 0)%Z -> In off [0; 4; 8; 12]%Z -> (forall z, base <= z < base + 20 * nv -> m z <> None)%Z ->
  (forall p, In p (map (fun x => fst (fst x)) (frame f)) -> member base 20 off nv (a p)) ->
  (In f load_funs -> exists r, run word zero a (code f) s m = Ok r) /\
  (In f store_funs -> exists r, run word zero a (code f) (args f c) m = Ok r).
Proof.
  intros Hu Hb Ho Hm Hp. apply (C66_members word zero f a m s c base 20 off nv Hm).
  - cbn in Ho. lia.
  - intros p al n Hx. unfold field_use in Hu. rewrite forallb_forall in Hu. specialize (Hu _ Hx). cbn [fst snd] in Hu.
    split; [apply Hp, in_map_iff; exists (p, al, n); split; [reflexivity|exact Hx]|].
    apply andb_true_iff in Hu. destruct Hu as [H1 H2]. apply Nat.leb_le in H2. apply orb_true_iff in H1.
    assert (base mod 4 = 0)%Z.
    { apply Z.mod_divide; [lia|]. apply Z.mod_divide in Hb; [|lia]. apply (Z.divide_trans _ 32); [exists 8%Z; lia|exact Hb]. }
    destruct H1 as [H1|H1]; apply Nat.eqb_eq in H1; subst al; cbn [Z.of_nat Pos.of_succ_nat Pos.succ].
    + rewrite !Z.mod_1_r. cbn in Ho. lia.
    + split; [assumption|]. cbn in Ho.
      destruct Ho as [<-|[<-|[<-|[<-|[]]]]]; (split; [reflexivity|split; [reflexivity|lia]]).
Qed.
Print Assumptions C66_field_members_defined.
Theorem C66_field_kernels : forall f, In f field_kernels -> (In f load_funs \/ In f store_funs) /\ field_use f = true.
Proof.
  assert (H : Forall (fun f => (In f load_funs \/ In f store_funs) /\ field_use f = true) field_kernels).
  { unfold field_kernels, load_funs, store_funs.
    repeat (constructor; [split; [first [solve [left; listed] | solve [right; listed]]|reflexivity]|]).
    constructor. }
  exact (proj1 (Forall_forall _ _) H).
Qed.
Print Assumptions C66_field_kernels.

(* The 16-wide kernels with AVX-512 load the members of field_t with loads that need 64-byte
   alignment: no call with two adjoining voxels is defined, and the loads of ex and of cbx of
   one voxel (advance_b_pipeline_v16.cc:79-89) are never both defined. *)
Definition avx512_field_loads : list vfun :=
  [mk_vfun avx512_load_16x2_tr (tr a16 (firstn 2 b00)) (each a16 16 16);
   mk_vfun avx512_load_16x3_tr (tr a16 (firstn 3 b00)) (each a16 16 16);
   mk_vfun avx512_load_16x4_tr (tr a16 (firstn 4 b00)) (each a16 16 16)].
Lemma avx512_aligned word (zero : word) f a s m r p : In f avx512_field_loads -> In p a16 ->
  run word zero a (code f) s m = Ok r -> (a p mod 16 = 0)%Z.
Proof.
  intros Hf Hp Hr.
  assert (L : In f load_funs) by (unfold avx512_field_loads in Hf; cbn [In] in Hf; destruct Hf as [<-|[<-|[<-|[]]]]; unfold load_funs; listed).
  destruct (C66_loads f L word zero a s m) as [H _]. pose proof (proj2 H (ex_intro _ r Hr)) as F.
  assert (E : frame f = each a16 16 16) by (unfold avx512_field_loads in Hf; cbn [In] in Hf; destruct Hf as [<-|[<-|[<-|[]]]]; reflexivity).
  destruct (F p 16%nat 16%nat) as [G _]; [rewrite E; unfold each; apply in_map_iff; exists p; split; [reflexivity|exact Hp]|exact G].
Qed.
Theorem C66_avx512_field_loads_fault word (zero : word) f f' : In f avx512_field_loads -> In f' avx512_field_loads ->
  (forall a s m base off v, (a "a00" = base + 20 * v + off)%Z -> (a "a01" = base + 20 * (v + 1) + off)%Z ->
     forall r, run word zero a (code f) s m <> Ok r) /\
  (forall a a' s m s' m' base v, (a "a00" = base + 20 * v)%Z -> (a' "a00" = base + 20 * v + 4)%Z ->
     forall r r', ~ (run word zero a (code f) s m = Ok r /\ run word zero a' (code f') s' m' = Ok r')).
Proof.
  intros Hf Hf'. split.
  - intros a s m base off v E1 E2 r H.
    pose proof (avx512_aligned _ _ f _ _ _ _ "a00" Hf (or_introl eq_refl) H) as A0.
    pose proof (avx512_aligned _ _ f _ _ _ _ "a01" Hf (or_intror (or_introl eq_refl)) H) as A1.
    rewrite E1 in A0. rewrite E2 in A1. apply Z.mod_divide in A0; [|lia]. apply Z.mod_divide in A1; [|lia].
    destruct A0 as [x Hx], A1 as [y Hy]. lia.
  - intros a a' s m s' m' base v E1 E2 r r' [H H'].
    pose proof (avx512_aligned _ _ f _ _ _ _ "a00" Hf (or_introl eq_refl) H) as A0.
    pose proof (avx512_aligned _ _ f' _ _ _ _ "a00" Hf' (or_introl eq_refl) H') as A1.
    rewrite E1 in A0. rewrite E2 in A1. apply Z.mod_divide in A0; [|lia]. apply Z.mod_divide in A1; [|lia].
    destruct A0 as [x Hx], A1 as [y Hy]. lia.
Qed.
Print Assumptions C66_avx512_field_loads_fault.

(* A memory of n words from address 0 for the examples: word z is z. *)
Definition flat_mem (n : Z) : mem Z := fun z => if ((0 <=? z) && (z <? n))%Z then Some (Some z) else None.
(* pointers 32 apart *)
Definition ptr32 (p : string) : Z :=
  (32 * match find (fun x => String.eqb (snd x) p) (number (a16 ++ a8 ++ ["p"; "a"; "b"; "dst"; "src"])) with
        | Some (k, _) => Z.of_nat k | None => 0 end)%Z.

(* store_4x8_tr of v4_neon.h:627-654 is no store of the words that load_4x8_tr of the same
   header loads: word 4 of a0 gets lane 2 of b00. *)
Theorem C66_neon_store_4x8_tr_refuted :
  exists (a : string -> Z) (c : string -> nat -> cell Z) (m m' : mem Z) s',
    In (mk_vfun neon_load_4x8_tr (tr_p ["a0"; "a2"] b00) (each ["a0"; "a2"] 1 16)) load_funs /\
    run Z 0%Z a neon_store_4x8_tr (map (fun x => (x, map (c x) (seq 0 4))) b00) m = Ok (s', m') /\
    apart a (flat_map snd (tr_p ["a0"; "a2"] b00)) /\
    In ("b04", [("a0", 4%nat); ("a0", 12%nat); ("a2", 4%nat); ("a2", 12%nat)]) (tr_p ["a0"; "a2"] b00) /\
    m' (addr a ("a0", 4%nat)) = Some (c "b00" 2%nat) /\ c "b00" 2%nat <> c "b04" 0%nat.
Proof.
  exists (fun p => if String.eqb p "a0" then 0%Z else 16%Z),
    (fun x l => Some (Z.of_nat l + (if String.eqb x "b00" then 0 else 100))%Z), (flat_mem 32).
  eexists. eexists. split; [unfold load_funs; listed|].
  split; [vm_compute; reflexivity|]. split; [|split; [cbn; tauto|split; [reflexivity|discriminate]]].
  intros k k' H H' E. assert (G : forall k, In k (flat_map snd (tr_p ["a0"; "a2"] b00)) -> (fst k = "a0" \/ fst k = "a2") /\ (snd k < 16)%nat).
  { clear. intros k H. vm_compute in H. repeat (destruct H as [<-|H]; [split; [cbn; auto|cbn; lia]|]). destruct H. }
  destruct (G k H) as [[G1|G1] G2], (G k' H') as [[G3|G3] G4]; destruct k as [p o], k' as [p' o']; cbn [fst snd] in *; subst;
    unfold addr in E; cbn [fst snd String.eqb Ascii.eqb Bool.eqb] in E; (f_equal; lia) || lia.
Qed.
Print Assumptions C66_neon_store_4x8_tr_refuted.

(* load_4x8_tr of v4_neon.h:399-445 takes what stands after the first particle at a0 for the
   second particle; a1 and a3 are not used. *)
Theorem C66_neon_load_4x8_tr_ignores word (zero : word) a a' s m : a "a0" = a' "a0" -> a "a2" = a' "a2" ->
  run word zero a neon_load_4x8_tr s m = run word zero a' neon_load_4x8_tr s m.
Proof.
  intros E0 E2. apply run_ptrs. intros u Hu. vm_compute in Hu.
  repeat (destruct Hu as [<-|Hu]; [first [exact E0|exact E2]|]). destruct Hu.
Qed.
Print Assumptions C66_neon_load_4x8_tr_ignores.

(* swap( v, v ) of the portable headers (xor of the words, v4_portable.h:181-187) clears v. *)
Definition with_itself (t : stmt) : stmt := match t with Sw n _ i _ j => Sw n "a" i "a" j | t => t end.
Theorem C66_portable_swap_itself_refuted :
  exists (v : list (cell Z)) s', run Z 0%Z (fun _ => 0%Z) (map with_itself p4_swap) [("a", v)] (flat_mem 0) = Ok (s', flat_mem 0) /\
    get "a" s' <> v.
Proof. exists [Some 5; Some 6; Some 7; Some 8]%Z. eexists. split; [vm_compute; reflexivity|vm_compute; discriminate]. Qed.
Print Assumptions C66_portable_swap_itself_refuted.

(* ---- examples ---- *)
(* SSE load_4x4_tr of four particles' first four words *)
Example C66_ex_load :
  match run Z 0%Z ptr32 sse_load_4x4_tr [] (flat_mem 1000) with
  | Ok (s, _) => map (fun x => get x s) ["a"; "b"; "c"; "d"]
  | _ => [] end =
  map (fun k => map (fun l => Some (ptr32 l + k)%Z) a4) [0; 1; 2; 3]%Z.
Proof. vm_compute. reflexivity. Qed.
Example C66_ex_misaligned :
  run Z 0%Z (fun p => ptr32 p + 2)%Z sse_load_4x4_tr [] (flat_mem 1000) = Misaligned /\
  exists r, run Z 0%Z (fun p => ptr32 p + 2)%Z neon_load_4x4_tr [] (flat_mem 1000) = Ok r.
Proof. split; [vm_compute; reflexivity|eexists; vm_compute; reflexivity]. Qed.
(* NEON load_4x2_tr reads two words more than it returns *)
Example C66_ex_neon_4x2 :
  (exists r, run Z 0%Z (fun _ => 0%Z) sse_load_4x2_tr [] (flat_mem 2) = Ok r) /\
  run Z 0%Z (fun _ => 0%Z) neon_load_4x2_tr [] (flat_mem 2) = OutOfBounds.
Proof. split; [eexists; vm_compute; reflexivity|vm_compute; reflexivity]. Qed.
(* 16 particles with AVX-512: load_16x8_tr_p takes pairs of particles *)
Example C66_ex_particles :
  match run Z 0%Z (fun p => match find (fun x => String.eqb (snd x) p) (number a00) with Some (k, _) => 16 * Z.of_nat k | None => 0 end)%Z
          avx512_load_16x8_tr_p [] (flat_mem 128) with
  | Ok (s, _) => map (fun x => get x s) b00 | _ => [] end =
  map (fun k => map (fun l => Some (8 * Z.of_nat l + k)%Z) (seq 0 16)) [0; 1; 2; 3; 4; 5; 6; 7]%Z.
Proof. vm_compute. reflexivity. Qed.
Example C66_ex_store :
  match run Z 0%Z ptr32 avx_store_8x4_tr (map (fun x => (fst x, map (fun l => Some (100 * Z.of_nat (S (fst (snd x))) + Z.of_nat l)%Z) (seq 0 8)))
          [("a", (0%nat, tt)); ("b", (1%nat, tt)); ("c", (2%nat, tt)); ("d", (3%nat, tt))]) (flat_mem 1000) with
  | Ok (_, m) => map (fun o => m (ptr32 "a5" + o)%Z) [0; 1; 2; 3; 4]%Z | _ => [] end =
  [Some (Some 105); Some (Some 205); Some (Some 305); Some (Some 405); Some (Some (ptr32 "a5" + 4))]%Z.
Proof. vm_compute. reflexivity. Qed.
Example C66_ex_transpose : forall c m, exists s', run Z 0%Z (fun _ => 0%Z) avx512_transpose
    (map (fun x => (x, map (c x) (seq 0 16))) a16) m = Ok (s', m) /\ get "a03" s' = map (fun p => c p 3%nat) a16.
Proof. intros c m. eexists. split; vm_compute; reflexivity. Qed.
Example C66_ex_swap_mem :
  match run Z 0%Z (fun p => if String.eqb p "a" then 0 else 4)%Z sse_swap_4x1 [] (flat_mem 9) with
  | Ok (_, m) => map m [0; 1; 2; 3; 4; 5; 6; 7; 8]%Z | _ => [] end =
  map (fun z => Some (Some z)) [4; 5; 6; 7; 0; 1; 2; 3; 8]%Z.
Proof. vm_compute. reflexivity. Qed.
Example C66_ex_avx512 : run Z 0%Z (fun p => match find (fun x => String.eqb (snd x) p) (number a16) with Some (k, _) => 20 * Z.of_nat k | None => 0 end)%Z
    avx512_load_16x3_tr [] (flat_mem 1000) = Misaligned.
Proof. vm_compute. reflexivity. Qed.
