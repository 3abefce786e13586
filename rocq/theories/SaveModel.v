(* What the checkpt functions of the registered objects write and what their restore functions do with
   it, on top of the primitives of CheckptModel.v.

   An object in memory is a list of named members (a block).  A member is a cell: plain bytes, a pointer
   to memory owned by the object (with that memory's contents), a string, a pointer to another
   registered object, the same still held as a stored identifier, or the address of a function.  In a
   restored structure every member is plain bytes (what was in the file, old addresses included) until
   the restore function overwrites it.  Simplifications: plain members between pointers are taken
   together with the padding; the addresses of newly allocated arrays are not told apart, only null and
   not null ([fresh]); alignment of addresses is not modelled; pointers are 8 bytes, int is 4 bytes,
   least significant byte first. *)
From Coq Require Import ZArith List Bool String.
From Verif Require Import CheckptModel.
Import ListNotations.
Open Scope string_scope.
Open Scope list_scope.
Open Scope Z_scope.

Inductive cell : Type :=
  | CRaw (b : list Z)
  | COwn (addr align cap : Z) (bl : list (string * cell))  (* cap: bytes allocated; bl: what is in use *)
  | CStr (addr : Z) (s : option (list Z))
  | CRef (p : Z)
  | CFref (p : Z)
  | CFun (a : Z).
Definition block : Type := list (string * cell).

(* the bytes of a member in memory *)
Definition image (c : cell) : list Z :=
  match c with
  | CRaw b => b
  | COwn a _ _ _ | CStr a _ => le 8 a
  | CRef p | CFref p => le 8 p
  | CFun a => le 8 a
  end.
Definition images (bl : block) : list Z := flat_map (fun x => image (snd x)) bl.
Definition zlen (b : list Z) : Z := Z.of_nat (List.length b).
Fixpoint get (n : string) (bl : block) : option cell :=
  match bl with [] => None | (m, c) :: r => if String.eqb n m then Some c else get n r end.
Fixpoint put (n : string) (c : cell) (bl : block) : block :=
  match bl with [] => [] | (m, d) :: r => if String.eqb n m then (m, c) :: r else (m, d) :: put n c r end.
(* an int *)
Definition int_of (b : list Z) : Z := let u := unle b in if u <? 2 ^ 31 then u else u - 2 ^ 32.
Definition int_at (n : string) (bl : block) : Z := match get n bl with Some (CRaw b) => int_of b | _ => 0 end.

(* What the functions use besides the object itself: sizeof of the types that depend on the build,
   nv of the grid the object refers to (ia->g->nv), num_species of its species list; and of the
   process: world_rank, world_size, serial.n_pipeline, thread.n_pipeline. *)
Record env : Type := mke { e_field : Z; e_interp : Z; e_accum : Z; e_hydro : Z; e_req : Z;
                           e_nv : Z; e_nsp : Z }.
Record process : Type := mkproc { pr_rank : Z; pr_size : Z; pr_serial : Z; pr_thread : Z }.

(* ---- writing ---- *)
Inductive wres : Type := WOk (vs : list val) | WError | WUndef.
Definition wseq (a b : wres) : wres :=
  match a with WOk u => match b with WOk v => WOk (u ++ v) | e => e end | e => e end.
Notation "a ;; b" := (wseq a b) (at level 61, right associativity).

(* CHECKPT_ALIGNED( p, 1, al ) of a structure, checkpt.h:290-293 (CHECKPT: al = 0, line 301) *)
Definition w_struct (al : Z) (bl : block) : wres :=
  let sz := zlen (images bl) in WOk [VData sz sz 1 al [images bl]].
(* checkpt_data( p, sz, str, 1, 1, al ), checkpt.cc:380-405.  WUndef: fewer than sz bytes are there. *)
Definition w_data (c : option cell) (sz str al : Z) : wres :=
  match c with
  | Some (COwn a _ _ bl) =>
      let sz := word sz in let str := word str in
      if (a =? 0) && (0 <? sz) then WError else
      if str <? sz then WError else
      if zlen (images bl) <? sz then WUndef else
      WOk [VData sz str 1 al [firstn (Z.to_nat sz) (images bl)]]
  | _ => WUndef
  end.
(* CHECKPT_ALIGNED( p, n, al ) of an array with elements of esz bytes *)
Definition w_arr (c : option cell) (esz n al : Z) : wres := w_data c (n * esz) (n * esz) al.
(* CHECKPT_STR, CHECKPT_PTR, CHECKPT_FPTR, CHECKPT_SYM, checkpt.h:302-305 *)
Definition w_str (c : option cell) : wres := match c with Some (CStr _ s) => WOk [VStr s] | _ => WUndef end.
Definition w_ptr (c : option cell) : wres := match c with Some (CRef p) => WOk [VPtr p] | _ => WUndef end.
Definition w_fptr (c : option cell) : wres := match c with Some (CFref p) => WOk [VFptr p] | _ => WUndef end.
Definition w_sym (c : option cell) : wres := match c with Some (CFun a) => WOk [VSym a] | _ => WUndef end.
(* CHECKPT_VAL( int, v ), checkpt.h:295-299 *)
Definition w_int (v : Z) : wres := WOk [VRaw (le 4 (v mod 2 ^ 32))].
(* if( p ) ... on a pointer member *)
Definition w_if (c : option cell) (w : wres) : wres :=
  match c with Some c => if unle (image c) =? 0 then WOk [] else w | None => WUndef end.
Definition sub (c : option cell) : option block := match c with Some (COwn _ _ _ bl) => Some bl | _ => None end.
(* p[i] of an array of pointers *)
Definition elt (c : option cell) (i : nat) : option cell :=
  match sub c with Some bl => option_map snd (nth_error bl i) | None => None end.
Fixpoint w_for (n : nat) (i : nat) (f : nat -> wres) : wres :=
  match n with O => WOk [] | S n' => wseq (f i) (w_for n' (S i) f) end.

(* ---- reading ---- *)
Definition rd (A : Type) : Type := list node -> cursor -> res A.
Definition ret {A} (a : A) : rd A := fun _ s => Ok a s.
Definition fail {A} : rd A := fun _ _ => Fail.
Definition undef {A} : rd A := fun _ _ => Undef.
Definition bind {A B} (r : rd A) (k : A -> rd B) : rd B := fun reg s =>
  match r reg s with Ok a s => k a reg s | Fail => Fail | Undef => Undef | Looping => Looping end.
Notation "x <- r ;; k" := (bind r (fun x => k)) (at level 61, r at next level, right associativity).

(* the structures: member names and sizes *)
Definition layout : Type := list (string * Z).
Fixpoint cut (l : layout) (b : list Z) : block :=
  match l with [] => [] | (m, n) :: r => (m, CRaw (firstn (Z.to_nat n) b)) :: cut r (skipn (Z.to_nat n) b) end.
Definition size_of (l : layout) : Z := fold_right (fun x s => snd x + s) 0 l.
(* an array of n elements of w bytes *)
Fixpoint cut_n (n : nat) (w : Z) (b : list Z) : block :=
  match n with O => [] | S n' => ("", CRaw (firstn (Z.to_nat w) b)) :: cut_n n' w (skipn (Z.to_nat w) b) end.

Section Reader.
Variable junk : nat -> Z.
Variable y : symbols.
Variable fresh : Z.          (* the address of newly allocated memory *)

Definition val_of (k : kind) : rd val := fun reg s => get_val junk y reg k s.
(* restore_data, checkpt.cc:407-431, when one element was written: alignment, bytes allocated, bytes read *)
Definition r_data : rd (Z * Z * list Z) :=
  v <- val_of KData ;;
  match v with VData sz str max al [b] => ret (al, word (max * str), b) | _ => undef end.
Definition addr_of (cap : Z) : Z := if cap =? 0 then 0 else fresh.
(* RESTORE( s ) of a structure.  Undef: the memory allocated is smaller or larger than the structure. *)
Definition r_struct (l : layout) : rd block :=
  d <- r_data ;; let '(_, cap, b) := d in
  if (cap =? size_of l) && (zlen b =? size_of l) then ret (cut l b) else undef.
(* RESTORE_ALIGNED( s->m ) of an array that is not looked into *)
Definition r_arr (m : string) (s : block) : rd block :=
  d <- r_data ;; let '(al, cap, b) := d in ret (put m (COwn (addr_of cap) al cap [("", CRaw b)]) s).
(* RESTORE( s->m ) of an array of elements of w bytes *)
Definition r_arr_of (w : Z) (m : string) (s : block) : rd block :=
  d <- r_data ;; let '(al, cap, b) := d in
  ret (put m (COwn (addr_of cap) al cap (cut_n (Z.to_nat (zlen b / w)) w b)) s).
(* a string is put in memory of its own; NULL for none, checkpt.cc:449-474 *)
Definition r_str (m : string) (s : block) : rd block :=
  v <- val_of KStr ;;
  match v with VStr t => ret (put m (CStr (match t with None => 0 | Some _ => fresh end) t) s) | _ => undef end.
Definition r_ptr (m : string) (s : block) : rd block :=
  v <- val_of KPtr ;; match v with VPtr p => ret (put m (CRef p) s) | _ => undef end.
Definition r_fptr (m : string) (s : block) : rd block :=
  v <- val_of KFptr ;; match v with VFptr p => ret (put m (CFref p) s) | _ => undef end.
Definition r_sym (m : string) (s : block) : rd block :=
  v <- val_of KSym ;; match v with VSym a => ret (put m (CFun a) s) | _ => undef end.
Definition r_int : rd Z :=
  v <- val_of (KRaw 4) ;; match v with VRaw b => ret (int_of b) | _ => undef end.
(* if( s->m ) ... : the member still holds the address of the saving process *)
Definition r_if (m : string) (r : block -> rd block) (s : block) : rd block :=
  match get m s with Some c => if unle (image c) =? 0 then ret s else r s | None => undef end.
(* s->m[i] = ... .  Undef: outside the array *)
Definition set_elt (m : string) (i : nat) (c : cell) (s : block) : option block :=
  match get m s with
  | Some (COwn a al cap bl) =>
      match nth_error bl i with
      | Some (k, _) => Some (put m (COwn a al cap (firstn i bl ++ (k, c) :: skipn (S i) bl)) s)
      | None => None
      end
  | _ => None
  end.
Definition r_elt_ptr (m : string) (i : nat) (s : block) : rd block :=
  v <- val_of KPtr ;;
  match v with VPtr p => match set_elt m i (CRef p) s with Some s => ret s | None => undef end | _ => undef end.
Definition r_elt_arr (m : string) (i : nat) (s : block) : rd block :=
  d <- r_data ;; let '(al, cap, b) := d in
  match set_elt m i (COwn (addr_of cap) al cap [("", CRaw b)]) s with Some s => ret s | None => undef end.
Fixpoint r_for (n : nat) (i : nat) (f : nat -> block -> rd block) (s : block) : rd block :=
  match n with O => ret s | S n' => s <- f i s ;; r_for n' (S i) f s end.

(* ---- the objects ---- *)

(* collective_t: DMPPolicy.h:40-60 (RelayPolicy.h the same) *)
Definition checkpt_collective (p : process) : wres := w_int (pr_rank p) ;; w_int (pr_size p).
Definition restore_collective (p : process) : rd block :=
  rank <- r_int ;; size <- r_int ;;
  if negb (size =? pr_size p) then fail else if negb (rank =? pr_rank p) then fail else ret [].
(* pipelines_serial.cc:12-26, pipelines_thread.cc:80-94 *)
Definition checkpt_serial (p : process) : wres := w_int (pr_serial p).
Definition restore_serial (p : process) : rd block :=
  n <- r_int ;; if negb (pr_serial p =? n) then fail else ret [].
Definition checkpt_thread (p : process) : wres := w_int (pr_thread p).
Definition restore_thread (p : process) : rd block :=
  n <- r_int ;; if negb (pr_thread p =? n) then fail else ret [].

(* mp_t: DMPPolicy.h:20-26, 62-89 *)
Definition mp_t : layout :=
  [("n_port", 4); ("pad", 4); ("rbuf", 8); ("sbuf", 8); ("rbuf_sz", 8); ("sbuf_sz", 8); ("rreq_sz", 8); ("sreq_sz", 8);
   ("rreq", 8); ("sreq", 8)].
Definition int_elt (m : string) (i : nat) (s : block) : option Z :=
  match elt (get m s) i with Some (CRaw b) => Some (int_of b) | _ => None end.
Definition w_port (m m_sz : string) (mp : block) (port : nat) : wres :=
  match int_elt m_sz port mp with Some n => w_arr (elt (get m mp) port) 1 n 128 | None => WUndef end.
Definition checkpt_mp (e : env) (mp : block) : wres :=
  let n := int_at "n_port" mp in
  w_struct 0 mp ;;
  w_arr (get "rbuf" mp) 8 n 0 ;; w_arr (get "sbuf" mp) 8 n 0 ;;
  w_arr (get "rbuf_sz" mp) 4 n 0 ;; w_arr (get "sbuf_sz" mp) 4 n 0 ;;
  w_arr (get "rreq_sz" mp) 4 n 0 ;; w_arr (get "sreq_sz" mp) 4 n 0 ;;
  w_arr (get "rreq" mp) (e_req e) n 0 ;; w_arr (get "sreq" mp) (e_req e) n 0 ;;
  w_for (Z.to_nat n) 0 (fun port => w_port "rbuf" "rbuf_sz" mp port ;; w_port "sbuf" "sbuf_sz" mp port).
Definition restore_mp : rd block :=
  mp <- r_struct mp_t ;;
  mp <- r_arr_of 8 "rbuf" mp ;; mp <- r_arr_of 8 "sbuf" mp ;;
  mp <- r_arr_of 4 "rbuf_sz" mp ;; mp <- r_arr_of 4 "sbuf_sz" mp ;;
  mp <- r_arr "rreq_sz" mp ;; mp <- r_arr "sreq_sz" mp ;;
  mp <- r_arr "rreq" mp ;; mp <- r_arr "sreq" mp ;;
  r_for (Z.to_nat (int_at "n_port" mp)) 0 (fun port mp => mp <- r_elt_arr "rbuf" port mp ;; r_elt_arr "sbuf" port mp) mp.

(* rng_t: rng_private.h:190-205, rng.cc:7-17.  The size of the generator's state is that of the
   default exponent 11213 (lines 31-33, 173). *)
Definition rng_t : layout := [("state", 1408); ("n", 4); ("pad", 12)].
Definition checkpt_rng (r : block) : wres := w_struct 128 r.
Definition restore_rng : rd block := r_struct rng_t.
(* rng_pool_t: rng.h:13-16, rng_pool.cc:6-22 *)
Definition rng_pool_t : layout := [("rng", 8); ("n_rng", 4); ("pad", 4)].
Definition checkpt_rng_pool (rp : block) : wres :=
  w_struct 0 rp ;; w_arr (get "rng" rp) 8 (int_at "n_rng" rp) 0 ;;
  w_for (Z.to_nat (int_at "n_rng" rp)) 0 (fun n => w_ptr (elt (get "rng" rp) n)).
Definition restore_rng_pool : rd block :=
  rp <- r_struct rng_pool_t ;; rp <- r_arr_of 8 "rng" rp ;;
  r_for (Z.to_nat (int_at "n_rng" rp)) 0 (fun n rp => r_elt_ptr "rng" n rp) rp.

(* grid_t: grid.h:73-131, grid_structors.cc:16-32 *)
Definition grid_t : layout :=
  [("units, time, mesh", 112); ("nv", 4); ("bc", 108); ("range", 8); ("neighbor", 8); ("rangel, rangeh", 16); ("mp", 8)].
Definition checkpt_grid (p : process) (g : block) : wres :=
  w_struct 0 g ;;
  w_if (get "range" g) (w_arr (get "range" g) 8 (pr_size p + 1) 16) ;;
  w_if (get "neighbor" g) (w_arr (get "neighbor" g) 8 (6 * int_at "nv" g) 128) ;;
  w_ptr (get "mp" g).
Definition restore_grid : rd block :=
  g <- r_struct grid_t ;; g <- r_if "range" (r_arr "range") g ;; g <- r_if "neighbor" (r_arr "neighbor") g ;;
  r_ptr "mp" g.

(* vpic_simulation: vpic.h:124-202, vpic.cc:24-71 *)
Definition vpic_t : layout :=
  [("settings", 7192); ("entropy", 8); ("sync_entropy", 8); ("grid", 8); ("material_list", 8); ("field_array", 8);
   ("interpolator_array", 8); ("accumulator_array", 8); ("hydro_array", 8); ("species_list", 8); ("particle_bc_list", 8);
   ("emitter_list", 8); ("collision_op_list", 8); ("user_global", 16384)].
Definition checkpt_vpic (v : block) : wres :=
  w_struct 0 v ;; w_ptr (get "entropy" v) ;; w_ptr (get "sync_entropy" v) ;; w_ptr (get "grid" v) ;;
  w_fptr (get "material_list" v) ;; w_fptr (get "field_array" v) ;; w_fptr (get "interpolator_array" v) ;;
  w_fptr (get "accumulator_array" v) ;; w_fptr (get "hydro_array" v) ;; w_fptr (get "species_list" v) ;;
  w_fptr (get "particle_bc_list" v) ;; w_fptr (get "emitter_list" v) ;; w_fptr (get "collision_op_list" v).
Definition restore_vpic : rd block :=
  v <- r_struct vpic_t ;; v <- r_ptr "entropy" v ;; v <- r_ptr "sync_entropy" v ;; v <- r_ptr "grid" v ;;
  v <- r_fptr "material_list" v ;; v <- r_fptr "field_array" v ;; v <- r_fptr "interpolator_array" v ;;
  v <- r_fptr "accumulator_array" v ;; v <- r_fptr "hydro_array" v ;; v <- r_fptr "species_list" v ;;
  v <- r_fptr "particle_bc_list" v ;; v <- r_fptr "emitter_list" v ;; r_fptr "collision_op_list" v.
(* REANIMATE_FPTR, checkpt.h:319; None: ERROR *)
Definition reanimate (reg : list node) (m : string) (v : option block) : option block :=
  match v with
  | None => None
  | Some v => match get m v with
              | Some (CFref i) => match reanimate_fptr reg i with Some p => Some (put m (CRef p) v) | None => None end
              | _ => None
              end
  end.
Definition reanimate_vpic (reg : list node) (v : block) : option block :=
  reanimate reg "collision_op_list" (reanimate reg "emitter_list" (reanimate reg "particle_bc_list"
  (reanimate reg "species_list" (reanimate reg "hydro_array" (reanimate reg "accumulator_array"
  (reanimate reg "interpolator_array" (reanimate reg "field_array" (reanimate reg "material_list" (Some v))))))))).
(* the variable simulation of deck/main.cc:16, 24-38 *)
Definition checkpt_main (m : block) : wres := w_ptr (get "simulation" m).
Definition restore_main : rd block := r_ptr "simulation" [("simulation", CRaw [])].

(* material_t: material.h:12-20, material.cc:15-30 *)
Definition material_t : layout := [("name", 8); ("coefficients", 48); ("id", 8); ("next", 8)].
Definition checkpt_material (m : block) : wres := w_struct 0 m ;; w_str (get "name" m) ;; w_ptr (get "next" m).
Definition restore_material : rd block := m <- r_struct material_t ;; m <- r_str "name" m ;; r_ptr "next" m.

(* field_array_t: field_advance.h:170-229, field_advance.cc:16-58, sfa_private.h:12-30, sfa.cc:161-187 *)
Definition kernels : list string :=
  ["delete_fa"; "advance_b"; "advance_e"; "energy_f"; "clear_jf"; "synchronize_jf"; "clear_rhof"; "synchronize_rho";
   "compute_rhob"; "compute_curl_b"; "synchronize_tang_e_norm_b"; "compute_div_e_err"; "compute_rms_div_e_err";
   "clean_div_e"; "compute_div_b_err"; "compute_rms_div_b_err"; "clean_div_b"].
Definition field_array_t : layout := [("f", 8); ("g", 8); ("params", 8)] ++ map (fun k => (k, 8)) kernels.
Definition sfa_params_t : layout := [("mc", 8); ("n_mc", 4); ("damp", 4)].
Definition checkpt_kernels (fa : block) : wres :=
  w_sym (get "delete_fa" fa) ;; w_sym (get "advance_b" fa) ;; w_sym (get "advance_e" fa) ;; w_sym (get "energy_f" fa) ;;
  w_sym (get "clear_jf" fa) ;; w_sym (get "synchronize_jf" fa) ;; w_sym (get "clear_rhof" fa) ;;
  w_sym (get "synchronize_rho" fa) ;; w_sym (get "compute_rhob" fa) ;; w_sym (get "compute_curl_b" fa) ;;
  w_sym (get "synchronize_tang_e_norm_b" fa) ;; w_sym (get "compute_div_e_err" fa) ;;
  w_sym (get "compute_rms_div_e_err" fa) ;; w_sym (get "clean_div_e" fa) ;; w_sym (get "compute_div_b_err" fa) ;;
  w_sym (get "compute_rms_div_b_err" fa) ;; w_sym (get "clean_div_b" fa).
Definition restore_kernels (fa : block) : rd block :=
  fa <- r_sym "delete_fa" fa ;; fa <- r_sym "advance_b" fa ;; fa <- r_sym "advance_e" fa ;; fa <- r_sym "energy_f" fa ;;
  fa <- r_sym "clear_jf" fa ;; fa <- r_sym "synchronize_jf" fa ;; fa <- r_sym "clear_rhof" fa ;;
  fa <- r_sym "synchronize_rho" fa ;; fa <- r_sym "compute_rhob" fa ;; fa <- r_sym "compute_curl_b" fa ;;
  fa <- r_sym "synchronize_tang_e_norm_b" fa ;; fa <- r_sym "compute_div_e_err" fa ;;
  fa <- r_sym "compute_rms_div_e_err" fa ;; fa <- r_sym "clean_div_e" fa ;; fa <- r_sym "compute_div_b_err" fa ;;
  fa <- r_sym "compute_rms_div_b_err" fa ;; r_sym "clean_div_b" fa.
Definition checkpt_field_array (e : env) (fa : block) : wres :=
  match sub (get "params" fa) with
  | None => WUndef
  | Some p =>
      w_struct 0 fa ;; w_arr (get "f" fa) (e_field e) (e_nv e) 128 ;; w_ptr (get "g" fa) ;;
      w_struct 0 p ;; w_arr (get "mc" p) 64 (int_at "n_mc" p) 128 ;;
      checkpt_kernels fa
  end.
(* s->params = p; the structure p was allocated by restore_data *)
Definition set_params (l : layout) (p s : block) : block := put "params" (COwn fresh 0 (size_of l) p) s.
Definition restore_field_array : rd block :=
  fa <- r_struct field_array_t ;; fa <- r_arr "f" fa ;; fa <- r_ptr "g" fa ;;
  p <- r_struct sfa_params_t ;; p <- r_arr "mc" p ;;
  restore_kernels (set_params sfa_params_t p fa).

(* interpolator_array_t, accumulator_array_t, hydro_array_t: sf_interface.h:76-80, 125-131, 194-200,
   interpolator_array.cc:6-21, accumulator_array.cc:13-62, hydro_array.cc:13-65 *)
Definition interpolator_array_t : layout := [("i", 8); ("g", 8)].
Definition checkpt_interpolator_array (e : env) (ia : block) : wres :=
  w_struct 0 ia ;; w_arr (get "i" ia) (e_interp e) (e_nv e) 128 ;; w_ptr (get "g" ia).
Definition restore_interpolator_array : rd block :=
  ia <- r_struct interpolator_array_t ;; ia <- r_arr "i" ia ;; r_ptr "g" ia.
Definition accumulator_array_t : layout := [("a", 8); ("n_pipeline", 4); ("stride", 4); ("g", 8)].
Definition hydro_array_t : layout := [("h", 8); ("n_pipeline", 4); ("stride", 4); ("g", 8)].
Definition n_copies (m : block) : Z := (int_at "n_pipeline" m + 1) * int_at "stride" m.
Definition checkpt_accumulator_array (e : env) (aa : block) : wres :=
  w_struct 0 aa ;; w_arr (get "a" aa) (e_accum e) (n_copies aa) 128 ;; w_ptr (get "g" aa).
Definition restore_accumulator_array (p : process) : rd block :=
  aa <- r_struct accumulator_array_t ;; aa <- r_arr "a" aa ;; aa <- r_ptr "g" aa ;;
  if negb (int_at "n_pipeline" aa =? Z.max (pr_serial p) (pr_thread p)) then fail else ret aa.
Definition checkpt_hydro_array (e : env) (ha : block) : wres :=
  w_struct 0 ha ;; w_arr (get "h" ha) (e_hydro e) (n_copies ha) 128 ;; w_ptr (get "g" ha).
Definition restore_hydro_array (p : process) : rd block :=
  ha <- r_struct hydro_array_t ;; ha <- r_arr "h" ha ;; ha <- r_ptr "g" ha ;;
  if negb (int_at "n_pipeline" ha =? Z.max (pr_serial p) (pr_thread p)) then fail else ret ha.

(* species_t: species_advance_aos.h:54-94, species_advance.cc:15-43.  particle_t has 32 bytes,
   particle_mover_t 16 (lines 21-40). *)
Definition species_t : layout :=
  [("name", 8); ("q, m", 8); ("np", 4); ("max_np", 4); ("p", 8); ("nm", 4); ("max_nm", 4); ("pm", 8); ("last_sorted", 8);
   ("sort_interval, sort_out_of_place", 8); ("partition", 8); ("g", 8); ("id", 8); ("next", 8)].
Definition checkpt_species (e : env) (sp : block) : wres :=
  w_struct 0 sp ;; w_str (get "name" sp) ;;
  w_data (get "p" sp) (int_at "np" sp * 32) (int_at "max_np" sp * 32) 128 ;;
  w_data (get "pm" sp) (int_at "nm" sp * 16) (int_at "max_nm" sp * 16) 128 ;;
  w_arr (get "partition" sp) 4 (e_nv e + 1) 128 ;; w_ptr (get "g" sp) ;; w_ptr (get "next" sp).
Definition restore_species : rd block :=
  sp <- r_struct species_t ;; sp <- r_str "name" sp ;; sp <- r_arr "p" sp ;; sp <- r_arr "pm" sp ;;
  sp <- r_arr "partition" sp ;; sp <- r_ptr "g" sp ;; r_ptr "next" sp.

(* particle_bc_t: boundary_private.h:36-42, boundary.cc:6-23 *)
Definition particle_bc_t : layout := [("params", 8); ("interact", 8); ("delete_pbc", 8); ("id", 8); ("next", 8)].
Definition checkpt_particle_bc (b : block) : wres :=
  w_struct 0 b ;; w_sym (get "interact" b) ;; w_sym (get "delete_pbc" b) ;; w_ptr (get "next" b).
Definition restore_particle_bc (l : layout) (p : block) : rd block :=
  b <- r_struct particle_bc_t ;; b <- r_sym "interact" (set_params l p b) ;; b <- r_sym "delete_pbc" b ;; r_ptr "next" b.
(* absorb_tally.cc:12-16, 31-50; tally is an array of int *)
Definition absorb_tally_t : layout := [("sp_list", 8); ("fa", 8); ("tally", 8)].
Definition checkpt_absorb_tally (e : env) (b : block) : wres :=
  match sub (get "params" b) with
  | None => WUndef
  | Some a => w_struct 0 a ;; w_ptr (get "sp_list" a) ;; w_ptr (get "fa" a) ;; w_arr (get "tally" a) 4 (e_nsp e) 0 ;;
              checkpt_particle_bc b
  end.
Definition restore_absorb_tally : rd block :=
  a <- r_struct absorb_tally_t ;; a <- r_ptr "sp_list" a ;; a <- r_ptr "fa" a ;; a <- r_arr "tally" a ;;
  restore_particle_bc absorb_tally_t a.
(* maxwellian_reflux.cc:46-51, 180-201 *)
Definition maxwellian_reflux_t : layout := [("sp_list", 8); ("rng", 8); ("ut_para", 8); ("ut_perp", 8)].
Definition checkpt_maxwellian_reflux (e : env) (b : block) : wres :=
  match sub (get "params" b) with
  | None => WUndef
  | Some a => w_struct 0 a ;; w_ptr (get "sp_list" a) ;; w_ptr (get "rng" a) ;;
              w_arr (get "ut_para" a) 4 (e_nsp e) 0 ;; w_arr (get "ut_perp" a) 4 (e_nsp e) 0 ;; checkpt_particle_bc b
  end.
Definition restore_maxwellian_reflux : rd block :=
  a <- r_struct maxwellian_reflux_t ;; a <- r_ptr "sp_list" a ;; a <- r_ptr "rng" a ;;
  a <- r_arr "ut_para" a ;; a <- r_arr "ut_perp" a ;; restore_particle_bc maxwellian_reflux_t a.

(* emitter_t: emitter_private.h:18-25, emitter.cc:6-25; child_langmuir.cc:8-19, 143-166 *)
Definition emitter_t : layout :=
  [("params", 8); ("emit", 8); ("delete_e", 8); ("component", 8); ("n_component", 4); ("pad", 4); ("next", 8)].
Definition child_langmuir_t : layout := [("sp", 8); ("ia", 8); ("fa", 8); ("aa", 8); ("rng", 8); ("constants", 24)].
Definition checkpt_emitter (b : block) : wres :=
  w_struct 0 b ;; w_sym (get "emit" b) ;; w_sym (get "delete_e" b) ;;
  w_arr (get "component" b) 4 (int_at "n_component" b) 128 ;; w_ptr (get "next" b).
Definition restore_emitter (l : layout) (p : block) : rd block :=
  b <- r_struct emitter_t ;; b <- r_sym "emit" (set_params l p b) ;; b <- r_sym "delete_e" b ;; b <- r_arr "component" b ;;
  r_ptr "next" b.
Definition checkpt_child_langmuir (b : block) : wres :=
  match sub (get "params" b) with
  | None => WUndef
  | Some a => w_struct 0 a ;; w_ptr (get "sp" a) ;; w_ptr (get "ia" a) ;; w_ptr (get "fa" a) ;; w_ptr (get "aa" a) ;;
              w_ptr (get "rng" a) ;; checkpt_emitter b
  end.
Definition restore_child_langmuir : rd block :=
  a <- r_struct child_langmuir_t ;; a <- r_ptr "sp" a ;; a <- r_ptr "ia" a ;; a <- r_ptr "fa" a ;; a <- r_ptr "aa" a ;;
  a <- r_ptr "rng" a ;; restore_emitter child_langmuir_t a.

(* collision_op_t: collision_private.h:16-21, collision.cc:6-24 *)
Definition collision_op_t : layout := [("params", 8); ("apply", 8); ("delete_cop", 8); ("next", 8)].
Definition checkpt_collision_op (b : block) : wres :=
  w_struct 0 b ;; w_sym (get "apply" b) ;; w_sym (get "delete_cop" b) ;; w_ptr (get "next" b).
Definition restore_collision_op (l : layout) (p : block) : rd block :=
  b <- r_struct collision_op_t ;; b <- r_sym "apply" (set_params l p b) ;; b <- r_sym "delete_cop" b ;; r_ptr "next" b.
(* langevin.h:6-13, langevin.cc:24-47 *)
Definition langevin_t : layout := [("sp", 8); ("rp", 8); ("kT, nu, interval", 16)].
Definition checkpt_langevin (b : block) : wres :=
  match sub (get "params" b) with
  | None => WUndef
  | Some a => w_struct 0 a ;; w_ptr (get "sp" a) ;; w_ptr (get "rp" a) ;; checkpt_collision_op b
  end.
Definition restore_langevin : rd block :=
  a <- r_struct langevin_t ;; a <- r_ptr "sp" a ;; a <- r_ptr "rp" a ;; restore_collision_op langevin_t a.
(* unary.h:6-16, unary.cc:25-56; MAX_PIPELINE is 272 (pipelines.h:10) *)
Definition unary_t : layout :=
  [("name", 8); ("rate_constant", 8); ("collision", 8); ("params", 8); ("sp", 8); ("rp", 8); ("interval, n_large_pr", 1096)].
Definition checkpt_unary (b : block) : wres :=
  match sub (get "params" b) with
  | None => WUndef
  | Some a => w_struct 0 a ;; w_str (get "name" a) ;; w_sym (get "rate_constant" a) ;; w_sym (get "collision" a) ;;
              w_ptr (get "params" a) ;; w_ptr (get "sp" a) ;; w_ptr (get "rp" a) ;; checkpt_collision_op b
  end.
Definition restore_unary : rd block :=
  a <- r_struct unary_t ;; a <- r_str "name" a ;; a <- r_sym "rate_constant" a ;; a <- r_sym "collision" a ;;
  a <- r_ptr "params" a ;; a <- r_ptr "sp" a ;; a <- r_ptr "rp" a ;; restore_collision_op unary_t a.
(* binary.h:6-18, binary.cc:37-69 *)
Definition binary_t : layout :=
  [("name", 8); ("rate_constant", 8); ("collision", 8); ("params", 8); ("spi", 8); ("spj", 8); ("rp", 8); ("sample", 8);
   ("interval, n_large_pr", 1096)].
Definition checkpt_binary (b : block) : wres :=
  match sub (get "params" b) with
  | None => WUndef
  | Some a => w_struct 0 a ;; w_str (get "name" a) ;; w_sym (get "rate_constant" a) ;; w_sym (get "collision" a) ;;
              w_ptr (get "params" a) ;; w_ptr (get "spi" a) ;; w_ptr (get "spj" a) ;; w_ptr (get "rp" a) ;;
              checkpt_collision_op b
  end.
Definition restore_binary : rd block :=
  a <- r_struct binary_t ;; a <- r_str "name" a ;; a <- r_sym "rate_constant" a ;; a <- r_sym "collision" a ;;
  a <- r_ptr "params" a ;; a <- r_ptr "spi" a ;; a <- r_ptr "spj" a ;; a <- r_ptr "rp" a ;; restore_collision_op binary_t a.
(* takizuka_abe.h:6-14, takizuka_abe.cc:14-36 *)
Definition takizuka_abe_t : layout := [("name", 8); ("spi", 8); ("spj", 8); ("rp", 8); ("interval", 8); ("cvar0", 8)].
Definition checkpt_takizuka_abe (b : block) : wres :=
  match sub (get "params" b) with
  | None => WUndef
  | Some a => w_struct 0 a ;; w_str (get "name" a) ;; w_ptr (get "spi" a) ;; w_ptr (get "spj" a) ;; w_ptr (get "rp" a) ;;
              checkpt_collision_op b
  end.
Definition restore_takizuka_abe : rd block :=
  a <- r_struct takizuka_abe_t ;; a <- r_str "name" a ;; a <- r_ptr "spi" a ;; a <- r_ptr "spj" a ;; a <- r_ptr "rp" a ;;
  restore_collision_op takizuka_abe_t a.
(* hard_sphere.cc:5-10, 347-359; large_angle_coulomb.cc:5-10, 195-207 *)
Definition hard_sphere_t : layout := [("constants", 44)].
Definition large_angle_coulomb_t : layout := [("constants", 48)].
Definition checkpt_hard_sphere (b : block) : wres := w_struct 0 b.
Definition restore_hard_sphere : rd block := r_struct hard_sphere_t.
Definition checkpt_large_angle_coulomb (b : block) : wres := w_struct 0 b.
Definition restore_large_angle_coulomb : rd block := r_struct large_angle_coulomb_t.

(* every type of object that is registered (all uses of REGISTER_OBJECT in src and deck) *)
Inductive otype : Type :=
  | OCollective | OSerial | OThread | OMp | ORng | ORngPool | OGrid | OVpic | OMain | OMaterial | OFieldArray
  | OInterpolator | OAccumulator | OHydro | OSpecies | OAbsorbTally | OReflux | OChildLangmuir | OLangevin | OUnary
  | OBinary | OTakizukaAbe | OHardSphere | OLargeAngleCoulomb.
Definition checkpt_of (t : otype) (p : process) (e : env) (o : block) : wres :=
  match t with
  | OCollective => checkpt_collective p | OSerial => checkpt_serial p | OThread => checkpt_thread p
  | OMp => checkpt_mp e o | ORng => checkpt_rng o | ORngPool => checkpt_rng_pool o | OGrid => checkpt_grid p o
  | OVpic => checkpt_vpic o | OMain => checkpt_main o | OMaterial => checkpt_material o
  | OFieldArray => checkpt_field_array e o | OInterpolator => checkpt_interpolator_array e o
  | OAccumulator => checkpt_accumulator_array e o | OHydro => checkpt_hydro_array e o | OSpecies => checkpt_species e o
  | OAbsorbTally => checkpt_absorb_tally e o | OReflux => checkpt_maxwellian_reflux e o
  | OChildLangmuir => checkpt_child_langmuir o | OLangevin => checkpt_langevin o | OUnary => checkpt_unary o
  | OBinary => checkpt_binary o | OTakizukaAbe => checkpt_takizuka_abe o | OHardSphere => checkpt_hard_sphere o
  | OLargeAngleCoulomb => checkpt_large_angle_coulomb o
  end.
Definition restore_of (t : otype) (p : process) : rd block :=
  match t with
  | OCollective => restore_collective p | OSerial => restore_serial p | OThread => restore_thread p
  | OMp => restore_mp | ORng => restore_rng | ORngPool => restore_rng_pool | OGrid => restore_grid
  | OVpic => restore_vpic | OMain => restore_main | OMaterial => restore_material
  | OFieldArray => restore_field_array | OInterpolator => restore_interpolator_array
  | OAccumulator => restore_accumulator_array p | OHydro => restore_hydro_array p | OSpecies => restore_species
  | OAbsorbTally => restore_absorb_tally | OReflux => restore_maxwellian_reflux
  | OChildLangmuir => restore_child_langmuir | OLangevin => restore_langevin | OUnary => restore_unary
  | OBinary => restore_binary | OTakizukaAbe => restore_takizuka_abe | OHardSphere => restore_hard_sphere
  | OLargeAngleCoulomb => restore_large_angle_coulomb
  end.

(* ---- the file: checkpt.cc:275-328 with these restore functions ---- *)
Variable p : process.                 (* the restoring process *)
Variable what : Z -> option otype.    (* which restore function is at an address *)
Variable alloc : nat -> Z.            (* address returned by the k-th restore function *)
Definition load_node (reg : list node) (s : cursor) : res (node * (otype * block)) :=
  let '(obj, s) := get_word junk s in let '(_, s) := get_word junk s in let '(_, s) := get_word junk s in
  let '(_, s) := get_word junk s in let '(id, s) := get_word junk s in let '(_, s) := get_word junk s in
  match get_sym junk y s with
  | Ok ck s => match get_sym junk y s with
    | Ok rs s => match get_sym junk y s with
      | Ok an s =>
          match what rs with
          | None => Undef                        (* not the address of a restore function *)
          | Some t => match restore_of t p (reg ++ [mkn obj ck rs an id]) s with
                      | Ok o s => Ok (mkn (alloc (List.length reg)) ck rs an id, (t, o)) s
                      | Fail => Fail | Undef => Undef | Looping => Looping end
          end
      | Fail => Fail | Undef => Undef | Looping => Looping end
    | Fail => Fail | Undef => Undef | Looping => Looping end
  | Fail => Fail | Undef => Undef | Looping => Looping end.
Fixpoint load_nodes (fuel : nat) (reg : list node) (s : cursor) : res (list (node * (otype * block))) :=
  match fuel with
  | O => Looping
  | S f =>
      let '(h, s) := get_word junk s in
      if h =? M_end then Ok [] s else
      if negb (h =? M_node) then Fail else
      match load_node reg s with
      | Ok o s => match load_nodes f (reg ++ [fst o]) s with
                  | Ok os s => Ok (o :: os) s | Fail => Fail | Undef => Undef | Looping => Looping end
      | Fail => Fail | Undef => Undef | Looping => Looping end
  end.
Definition load (fuel : nat) (file : list Z) : res (Z * list (node * (otype * block))) :=
  let '(next, s) := get_word junk (file, O) in
  match load_nodes fuel [] s with
  | Ok os s => Ok (next, os) s | Fail => Fail | Undef => Undef | Looping => Looping end.
(* reanimate_objects, checkpt.cc:330-346: only vpic_simulation has a reanimate function; None: ERROR *)
Fixpoint reanimate_all (reg : list node) (os : list (node * (otype * block))) : option (list (otype * block)) :=
  match os with
  | [] => Some []
  | (n, (t, o)) :: r =>
      match (if n_an n =? 0 then Some o else match t with OVpic => reanimate_vpic reg o | _ => None end), reanimate_all reg r with
      | Some o, Some l => Some ((t, o) :: l)
      | _, _ => None
      end
  end.
End Reader.

(* checkpt_objects, checkpt.cc:239-273, with these checkpt functions.  One saved object: its node, the
   raw link word of the node, its type, what its functions use besides, and its members. *)
Record saved : Type := mksaved { sv_node : node; sv_link : Z; sv_type : otype; sv_env : env; sv_obj : block }.
Inductive saves : Type := SOk (os : list object) | SError | SUndef.
Fixpoint contents (p : process) (l : list saved) : saves :=
  match l with
  | [] => SOk []
  | s :: r =>
      match checkpt_of (sv_type s) p (sv_env s) (sv_obj s) with
      | WOk vs => match contents p r with SOk os => SOk ((sv_node s, sv_link s, vs) :: os) | e => e end
      | WError => SError
      | WUndef => SUndef
      end
  end.
