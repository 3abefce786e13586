(* Which objects a simulation has, from the declarations of the structures and the functions that create
   them, and what it means that a restored object is the saved one. *)
From Coq Require Import ZArith List Bool String.
From Verif Require Import CheckptModel CheckptSpec SaveModel.
Import ListNotations.
Open Scope string_scope.
Open Scope list_scope.
Open Scope Z_scope.

(* Declared kinds of members.  An array: bytes in use, bytes allocated, alignment. *)
Inductive mty : Type :=
  | MPlain (n : Z)
  | MArr (used cap align : Z)
  | MMaybe (used align : Z)            (* an array not allocated before some step of the set-up *)
  | MName | MObj | MFobj | MFunc
  | MPar (sz : Z).                     (* a structure of sz bytes of its own *)
Definition decl : Type := list (string * mty).

Section Instances.
Variable yw yr : symbols.
Variable old seen : list node.

Definition array_ok (used cap align : Z) (c : cell) : Prop :=
  exists a b, c = COwn a align cap [("", CRaw b)] /\ zlen b = used /\ 0 <= used <= cap /\ cap < 2 ^ 64 /\ is_word a /\
    (a = 0 <-> cap = 0).
Definition member_ok (m : mty) (c : cell) : Prop :=
  match m with
  | MPlain n => exists b, c = CRaw b /\ zlen b = n
  | MArr used cap align => array_ok used cap align c
  | MMaybe used align => c = COwn 0 align 0 [] \/ (array_ok used used align c /\ 0 < used)
  | MName => exists a s, c = CStr a s /\ is_word a /\ wf_str s
  | MObj => exists p, c = CRef p /\ (p = 0 \/ In p (map n_obj seen))
  | MFobj => exists p, c = CFref p /\ (p = 0 \/ In p (map n_obj old))
  | MFunc => exists a, c = CFun a /\ wf_sym yw yr a
  | MPar sz => exists a bl, c = COwn a 0 sz bl /\ zlen (images bl) = sz /\ is_word a
  end.
Definition is_a (d : decl) (o : block) : Prop := Forall2 (fun f x => fst f = fst x /\ member_ok (snd f) (snd x)) d o.
Definition params (o : block) : block := match get "params" o with Some (COwn _ _ _ bl) => bl | _ => [] end.
(* an array of n pointers, each satisfying P *)
Definition pointers (n : Z) (P : nat -> cell -> Prop) (c : cell) : Prop :=
  exists a bl, c = COwn a 0 (8 * n) bl /\ Z.of_nat (List.length bl) = n /\ is_word a /\ a <> 0 /\
    forall i x, nth_error bl i = Some x -> fst x = "" /\ P i (snd x).
Definition ints (n : Z) (c : cell) : Prop :=
  exists a bl, c = COwn a 0 (4 * n) bl /\ Z.of_nat (List.length bl) = n /\ is_word a /\ a <> 0 /\
    forall x, In x bl -> fst x = "" /\ exists b, snd x = CRaw b /\ zlen b = 4.

Variable p : process.
Variable e : env.
(* every object of type t there can be *)
Definition instance (t : otype) (o : block) : Prop :=
  match t with
  | OCollective | OSerial | OThread => o = []
  | ORng => is_a [("state", MPlain 1408); ("n", MPlain 4); ("pad", MPlain 12)] o
  (* new_rng_pool, rng_pool.cc:26-40 *)
  | ORngPool => exists rng n_rng pad, o = [("rng", rng); ("n_rng", CRaw n_rng); ("pad", CRaw pad)] /\
      zlen n_rng = 4 /\ zlen pad = 4 /\ 1 <= int_of n_rng < 2 ^ 31 /\ pointers (int_of n_rng) (fun _ => member_ok MObj) rng
  (* new_mp, DMPPolicy.h:195-211, and mp_size_{recv,send}_buffer, 237-285 *)
  | OMp => exists n_port pad rbuf sbuf rbuf_sz sbuf_sz rreq_sz sreq_sz rreq sreq,
      o = [("n_port", CRaw n_port); ("pad", CRaw pad); ("rbuf", rbuf); ("sbuf", sbuf); ("rbuf_sz", rbuf_sz); ("sbuf_sz", sbuf_sz);
           ("rreq_sz", rreq_sz); ("sreq_sz", sreq_sz); ("rreq", rreq); ("sreq", sreq)] /\
      let n := int_of n_port in
      zlen n_port = 4 /\ zlen pad = 4 /\ 1 <= n < 2 ^ 31 /\ 0 < e_req e /\ n * e_req e < 2 ^ 64 /\
      let buffers (b sz : cell) := ints n sz /\ pointers n (fun i c => forall s, elt (Some sz) i = Some (CRaw s) ->
          array_ok (int_of s) (int_of s) 128 c) b in
      buffers rbuf rbuf_sz /\ buffers sbuf sbuf_sz /\
      array_ok (4 * n) (4 * n) 0 rreq_sz /\ array_ok (4 * n) (4 * n) 0 sreq_sz /\
      array_ok (n * e_req e) (n * e_req e) 0 rreq /\ array_ok (n * e_req e) (n * e_req e) 0 sreq
  (* new_grid, size_grid: range and neighbor are allocated by size_grid, ops.cc:42, 56 *)
  | OGrid => 0 <= int_at "nv" o < 2 ^ 31 /\ 0 <= pr_size p < 2 ^ 31 /\
      is_a [("units, time, mesh", MPlain 112); ("nv", MPlain 4); ("bc", MPlain 108);
            ("range", MMaybe (8 * (pr_size p + 1)) 16); ("neighbor", MMaybe (48 * int_at "nv" o) 128);
            ("rangel, rangeh", MPlain 16); ("mp", MObj)] o
  | OVpic => is_a [("settings", MPlain 7192); ("entropy", MObj); ("sync_entropy", MObj); ("grid", MObj); ("material_list", MFobj);
      ("field_array", MFobj); ("interpolator_array", MFobj); ("accumulator_array", MFobj); ("hydro_array", MFobj);
      ("species_list", MFobj); ("particle_bc_list", MFobj); ("emitter_list", MFobj); ("collision_op_list", MFobj);
      ("user_global", MPlain 16384)] o
  | OMain => is_a [("simulation", MObj)] o
  | OMaterial => is_a [("name", MName); ("coefficients", MPlain 48); ("id", MPlain 8); ("next", MObj)] o
  (* new_standard_field_array, sfa.cc:189-217, 103-105: two coefficients more than materials are allocated *)
  | OFieldArray => let n_mc := int_at "n_mc" (params o) in 0 <= n_mc /\
      is_a ([("f", MArr (e_nv e * e_field e) (e_nv e * e_field e) 128); ("g", MObj); ("params", MPar 16)]
            ++ map (fun k => (k, MFunc)) kernels) o /\
      is_a [("mc", MArr (64 * n_mc) (64 * (n_mc + 2)) 128); ("n_mc", MPlain 4); ("damp", MPlain 4)] (params o)
  | OInterpolator => is_a [("i", MArr (e_nv e * e_interp e) (e_nv e * e_interp e) 128); ("g", MObj)] o
  | OAccumulator => let n := (int_at "n_pipeline" o + 1) * int_at "stride" o * e_accum e in
      int_at "n_pipeline" o = Z.max (pr_serial p) (pr_thread p) /\
      is_a [("a", MArr n n 128); ("n_pipeline", MPlain 4); ("stride", MPlain 4); ("g", MObj)] o
  | OHydro => let n := (int_at "n_pipeline" o + 1) * int_at "stride" o * e_hydro e in
      int_at "n_pipeline" o = Z.max (pr_serial p) (pr_thread p) /\
      is_a [("h", MArr n n 128); ("n_pipeline", MPlain 4); ("stride", MPlain 4); ("g", MObj)] o
  (* species(), species_advance.cc:110-155; the arrays grow in boundary_p.cc:486-560 *)
  | OSpecies =>
      is_a [("name", MName); ("q, m", MPlain 8); ("np", MPlain 4); ("max_np", MPlain 4);
            ("p", MArr (32 * int_at "np" o) (32 * int_at "max_np" o) 128); ("nm", MPlain 4); ("max_nm", MPlain 4);
            ("pm", MArr (16 * int_at "nm" o) (16 * int_at "max_nm" o) 128); ("last_sorted", MPlain 8);
            ("sort_interval, sort_out_of_place", MPlain 8); ("partition", MArr (4 * (e_nv e + 1)) (4 * (e_nv e + 1)) 128);
            ("g", MObj); ("id", MPlain 8); ("next", MObj)] o
  (* absorb_tally.cc:60-75, maxwellian_reflux.cc:206-225: one entry for each species there was *)
  | OAbsorbTally =>
      is_a [("params", MPar 24); ("interact", MFunc); ("delete_pbc", MFunc); ("id", MPlain 8); ("next", MObj)] o /\
      is_a [("sp_list", MObj); ("fa", MObj); ("tally", MArr (4 * e_nsp e) (4 * e_nsp e) 0)] (params o)
  | OReflux =>
      is_a [("params", MPar 32); ("interact", MFunc); ("delete_pbc", MFunc); ("id", MPlain 8); ("next", MObj)] o /\
      is_a [("sp_list", MObj); ("rng", MObj); ("ut_para", MArr (4 * e_nsp e) (4 * e_nsp e) 0);
            ("ut_perp", MArr (4 * e_nsp e) (4 * e_nsp e) 0)] (params o)
  (* size_emitter, emitter.cc:84-97 *)
  | OChildLangmuir =>
      is_a [("params", MPar 64); ("emit", MFunc); ("delete_e", MFunc);
            ("component", MArr (4 * int_at "n_component" o) (4 * int_at "n_component" o) 128); ("n_component", MPlain 4); ("pad", MPlain 4);
            ("next", MObj)] o /\
      is_a [("sp", MObj); ("ia", MObj); ("fa", MObj); ("aa", MObj); ("rng", MObj); ("constants", MPlain 24)] (params o)
  | OLangevin => is_a [("params", MPar 32); ("apply", MFunc); ("delete_cop", MFunc); ("next", MObj)] o /\
      is_a [("sp", MObj); ("rp", MObj); ("kT, nu, interval", MPlain 16)] (params o)
  | OUnary => is_a [("params", MPar 1144); ("apply", MFunc); ("delete_cop", MFunc); ("next", MObj)] o /\
      is_a [("name", MName); ("rate_constant", MFunc); ("collision", MFunc); ("params", MObj); ("sp", MObj); ("rp", MObj);
            ("interval, n_large_pr", MPlain 1096)] (params o)
  | OBinary => is_a [("params", MPar 1160); ("apply", MFunc); ("delete_cop", MFunc); ("next", MObj)] o /\
      is_a [("name", MName); ("rate_constant", MFunc); ("collision", MFunc); ("params", MObj); ("spi", MObj); ("spj", MObj);
            ("rp", MObj); ("sample", MPlain 8); ("interval, n_large_pr", MPlain 1096)] (params o)
  | OTakizukaAbe => is_a [("params", MPar 48); ("apply", MFunc); ("delete_cop", MFunc); ("next", MObj)] o /\
      is_a [("name", MName); ("spi", MObj); ("spj", MObj); ("rp", MObj); ("interval", MPlain 8); ("cvar0", MPlain 8)] (params o)
  | OHardSphere => is_a [("constants", MPlain 44)] o
  | OLargeAngleCoulomb => is_a [("constants", MPlain 48)] o
  end.
End Instances.

(* A restored object is the saved one: plain members have the same bytes; arrays, strings and structures
   of its own are new memory with the same contents, alignment and size; pointers lead to the restored
   object that was pointed to, stored identifiers are those of the object pointed to; functions are found
   under their new address.  No member is left with an address of the saving process, save null. *)
Section Same.
Variable ptr ident fn : Z -> Z.      (* new address of an object, its identifier, new address of a function *)
Inductive same : cell -> cell -> Prop :=
  | same_raw b : same (CRaw b) (CRaw b)
  | same_own a a' al cap bl bl' : sames bl bl' -> (a' = 0 <-> cap = 0) -> same (COwn a al cap bl) (COwn a' al cap bl')
  | same_null al : same (COwn 0 al 0 []) (CRaw [0; 0; 0; 0; 0; 0; 0; 0])
  | same_str a a' s : (a' = 0 <-> s = None) -> same (CStr a s) (CStr a' s)
  | same_ref q : same (CRef q) (CRef (ptr q))
  | same_fref q : same (CFref q) (CFref (ident q))
  | same_fun a : same (CFun a) (CFun (fn a))
with sames : block -> block -> Prop :=
  | sames_nil : sames [] []
  | sames_cons n c c' l l' : same c c' -> sames l l' -> sames ((n, c) :: l) ((n, c') :: l').
End Same.
(* the two spare material coefficients (128 bytes) are not saved *)
Definition kept (t : otype) (o : block) : block :=
  match t, get "params" o with
  | OFieldArray, Some (COwn a al cap p) =>
      match get "mc" p with
      | Some (COwn a' al' cap' mc) => put "params" (COwn a al cap (put "mc" (COwn a' al' (cap' - 128) mc) p)) o
      | _ => o
      end
  | _, _ => o
  end.

(* ---- a whole simulation ---- *)
Section File.
Variable yw yr : symbols.
Variable p : process.
Variable what : Z -> option otype.
(* s can be saved when the objects [seen] have been registered before it: the checkpoint service knows
   its functions, its restore function is that of its type, it is an object of that type, and only
   vpic_simulation is registered with a reanimate function *)
Definition savable (old seen : list node) (s : saved) : Prop :=
  wf_node yw yr (sv_node s) (sv_link s) /\ what (newsym yw yr (n_rs (sv_node s))) = Some (sv_type s) /\
  instance yw yr old seen p (sv_env s) (sv_type s) (sv_obj s) /\
  (if match sv_type s with OVpic => true | _ => false end then newsym yw yr (n_an (sv_node s)) <> 0 else n_an (sv_node s) = 0).
(* all objects in the order in which they were registered; CRef pointers lead to earlier ones *)
Definition simulation (l : list saved) : Prop :=
  let old := map sv_node l in
  NoDup (map n_obj old) /\ NoDup (map n_id old) /\ forall k s, nth_error l k = Some s -> savable old (firstn k old) s.
End File.
Definition process_ok (p : process) : Prop :=
  let int v := - 2 ^ 31 <= v < 2 ^ 31 in int (pr_rank p) /\ int (pr_size p) /\ int (pr_serial p) /\ int (pr_thread p).
(* the object once its stored identifiers are pointers again *)
Definition alive (o : block) : block := map (fun x => (fst x, match snd x with CFref q => CRef q | c => c end)) o.
Definition finally (t : otype) (o : block) : block := match t with OVpic => alive o | _ => kept t o end.
(* the restoring process pr is set up for an object of type t as the saving process pw was *)
Definition agrees (pw pr : process) (t : otype) : bool :=
  match t with
  | OCollective => (pr_rank pr =? pr_rank pw) && (pr_size pr =? pr_size pw)
  | OSerial => pr_serial pr =? pr_serial pw
  | OThread => pr_thread pr =? pr_thread pw
  | OAccumulator | OHydro => Z.max (pr_serial pr) (pr_thread pr) =? Z.max (pr_serial pw) (pr_thread pw)
  | _ => true
  end.
