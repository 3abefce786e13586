(* Model of the binary dumps: /repo/src/vpic/dump.cc, dumpmacros.h, src/util/bitfield.h, the variable
   tables of src/vpic/vpic.h.  Opening and closing files, directories and messages are left out; every
   write is taken to succeed. *)
From Coq Require Import ZArith List Bool Lia.
From Verif Require Import VoxelModel CheckptModel.
Import ListNotations.
Open Scope Z_scope.

(* DErr: ERROR; DOutside: a read outside an array; DUninit: use of memory never written; DOverflow: signed
   overflow or a text longer than its buffer *)
Inductive dout (A : Type) : Type := DOk (a : A) | DErr | DOutside | DUninit | DOverflow.
Arguments DOk {A}. Arguments DErr {A}. Arguments DOutside {A}. Arguments DUninit {A}. Arguments DOverflow {A}.
Definition dbind {A B} (d : dout A) (f : A -> dout B) : dout B :=
  match d with DOk a => f a | DErr => DErr | DOutside => DOutside | DUninit => DUninit | DOverflow => DOverflow end.

(* 0, 1, ..., n-1: a loop of size_t *)
Definition upto (n : Z) : list Z := map Z.of_nat (seq 0 (Z.to_nat n)).

(* ---- BitField, bitfield.h:4-96: 32 bits ---- *)
Definition bits_all : Z := 0xffffffff.                         (* default argument of the constructor, line 8 *)
Definition bits_set (bits mask : Z) : Z := Z.lor bits mask.    (* lines 15-17 *)
Definition bitset (bits i : Z) : bool := Z.testbit bits i.     (* lines 45-48, i < 32 *)
Definition bitsum (bits : Z) : Z := Z.of_nat (length (filter (bitset bits) (upto 32))).     (* lines 81-89 *)
Definition bitsum_of (bits : Z) (ix : list Z) : Z := Z.of_nat (length (filter (bitset bits) ix)).   (* lines 69-77 *)
(* DumpParameters::output_variables, vpic.h:102-104 *)
Definition output_variables (bits mask : Z) : Z := bits_set bits mask.

(* ---- headers ---- *)
(* one item: bytes and value; WRITE converts to the type of that size, dumpmacros.h:66-69 *)
Definition item : Type := (nat * Z)%type.
Definition item_bytes (x : item) : list Z := le (fst x) (snd x mod 2 ^ (8 * Z.of_nat (fst x))).
Definition b1 (v : Z) : item := (1%nat, v).      (* char *)
Definition b2 (v : Z) : item := (2%nat, v).      (* short *)
Definition b4 (v : Z) : item := (4%nat, v).      (* int, float *)
Definition b8 (v : Z) : item := (8%nat, v).      (* int64_t, double *)
(* floats as their bit patterns: grid->dt, {dx,dy,dz}out, grid->{x,y,z}0, cvac, eps0 *)
Record floats : Type := mkfl { h_dt : Z; h_dx : Z; h_dy : Z; h_dz : Z; h_x0 : Z; h_y0 : Z; h_z0 : Z; h_cvac : Z; h_eps0 : Z }.
(* who writes: step, rank, number of ranks *)
Record writer : Type := mkwr { w_step : Z; w_rank : Z; w_nproc : Z }.
(* WRITE_HEADER_V0, dumpmacros.h:7-43 *)
Definition v0 (type : Z) (w : writer) (nxout nyout nzout : Z) (f : floats) (sp_id q_m : Z) : list item :=
  [b1 8; b1 2; b1 4; b1 4; b1 8; b2 0xcafe; b4 0xdeadbeef; b4 0x3f800000; b8 0x3ff0000000000000;
   b4 0; b4 type;
   b4 (w_step w); b4 nxout; b4 nyout; b4 nzout;
   b4 (h_dt f); b4 (h_dx f); b4 (h_dy f); b4 (h_dz f); b4 (h_x0 f); b4 (h_y0 f); b4 (h_z0 f); b4 (h_cvac f); b4 (h_eps0 f);
   b4 0; b4 (w_rank w); b4 (w_nproc w);
   b4 sp_id; b4 q_m].
(* WRITE_ARRAY_HEADER, lines 47-51 *)
Definition array_header (elt : Z) (dims : list Z) : list item :=
  [b4 elt; b4 (Z.of_nat (length dims))] ++ map b4 dims.
Definition header_bytes (l : list item) : list Z := flat_map item_bytes l.

(* ---- meshes ---- *)
Record mesh : Type := mkm { m_nx : Z; m_ny : Z; m_nz : Z }.
Definition m_nv (m : mesh) : Z := (m_nx m + 2) * (m_ny m + 2) * (m_nz m + 2).
Record strides : Type := mkst { s_x : Z; s_y : Z; s_z : Z }.
(* the loops over k, j, i, i fastest *)
Definition triples (cx cy cz : Z) : list (Z * Z * Z) :=
  flat_map (fun k => flat_map (fun j => map (fun i => (i, j, k)) (upto cx)) (upto cy)) (upto cz).
(* remainder( n, stride ) != 0, dump.cc:576-581, 761-766 with vpic.h:654: std::remainder of two doubles that hold the
   integers is 0 exactly when the stride divides n; it is a NaN for the stride 0 *)
Definition bad_stride (n s : Z) : bool := (s =? 0) || negb (n mod s =? 0).
(* ioff, dump.cc:656-658, 693-695, 822-824, 855-857 *)
Definition off (n s nout i : Z) : Z := if i =? 0 then 0 else if i =? nout + 1 then n + 1 else i * s - 1.
Definition unit_strides (st : strides) : bool := (s_x st =? 1) && (s_y st =? 1) && (s_z st =? 1).
(* the voxel of an output point: lines 639-644 without strides, 655-660 with *)
Definition vox (m : mesh) (st : strides) (c : Z * Z * Z) : Z :=
  let '(i, j, k) := c in
  if unit_strides st then voxel (m_nx m) (m_ny m) (m_nz m) i j k
  else voxel (m_nx m) (m_ny m) (m_nz m) (off (m_nx m) (s_x st) (m_nx m / s_x st) i)
             (off (m_ny m) (s_y st) (m_ny m / s_y st) j) (off (m_nz m) (s_z st) (m_nz m / s_z st) k).

(* ---- arrays of structures as 32-bit words: width words to a structure, one structure to a voxel ---- *)
Section Array.
Variable mem : Z -> Z.        (* contents of the array *)
Variable size : Z.            (* words allocated *)
Definition read (a : Z) : dout Z := if (0 <=? a) && (a <? size) then DOk (mem a) else DOutside.
Fixpoint read_all (l : list Z) : dout (list Z) :=
  match l with [] => DOk [] | a :: r => dbind (read a) (fun x => dbind (read_all r) (fun y => DOk (x :: y))) end.
(* varlist, dump.cc:625-630, 802-806: room for numvars entries, filled with the set bits below total *)
Definition varlist (bits total : Z) : list Z := filter (bitset bits) (upto total).
Definition numvars (bits total : Z) : Z := Z.min (bitsum bits) total.
(* the loops over v, k, j, i, dump.cc:635-667, 808-829 *)
Fixpoint bands (width : Z) (vars : list Z) (pts : list Z) (vs : list Z) : dout (list Z) :=
  match vs with
  | [] => DOk []
  | v :: r =>
      match nth_error vars (Z.to_nat v) with
      | None => DUninit                                            (* varlist[v] was never written *)
      | Some b => dbind (read_all (map (fun x => width * x + b) pts)) (fun d =>
                  dbind (bands width vars pts r) (fun e => DOk (d ++ e)))
      end
  end.
(* fileIO.write( &f( ioff, joff, koff ), 1 ) *)
Definition whole (width : Z) (pts : list Z) : dout (list Z) := read_all (flat_map (fun x => map (fun b => width * x + b) (upto width)) pts).
End Array.

(* a dump file: the items before the data and the words of the data *)
Definition dumped : Type := (list item * list Z)%type.
Inductive format : Type := band | band_interleave.          (* vpic.h:92-95 *)
Definition total_field_variables : Z := 24.                 (* vpic.h:52 *)
Definition total_hydro_variables : Z := 14.                 (* vpic.h:75 *)
Definition field_words : Z := 20.                           (* sizeof(field_t)/4, field_advance.h:152-160 *)

(* field_dump, dump.cc:533-706; f: the array of grid->nv fields *)
Definition field_dump (f : Z -> Z) (m : mesh) (st : strides) (fmt : format) (bits : Z) (w : writer) (fl : floats) : dout dumped :=
  if bad_stride (m_nx m) (s_x st) then DErr else if bad_stride (m_ny m) (s_y st) then DErr else
  if bad_stride (m_nz m) (s_z st) then DErr else
  let nx := m_nx m / s_x st in let ny := m_ny m / s_y st in let nz := m_nz m / s_z st in
  let size := field_words * m_nv m in
  let pts := map (vox m st) (triples (nx + 2) (ny + 2) (nz + 2)) in
  let hdr := v0 1 w nx ny nz fl (-1) 0 ++ array_header (4 * field_words) [nx + 2; ny + 2; nz + 2] in
  match fmt with
  | band => dbind (bands f size field_words (varlist bits total_field_variables) pts (upto (numvars bits total_field_variables)))
                  (fun d => DOk (hdr, d))
  | band_interleave =>
      if unit_strides st then dbind (whole f size field_words (upto ((nx + 2) * (ny + 2) * (nz + 2)))) (fun d => DOk (hdr, d))
      else dbind (whole f size field_words pts) (fun d => DOk (hdr, d))
  end.

(* hydro_dump, dump.cc:708-868; h: the array of the host's hydro copy, width words to a hydro_t (14 and the
   padding, sf_interface.h:185-192), at least grid->nv of them *)
Definition hydro_dump (width size : Z) (h : Z -> Z) (m : mesh) (st : strides) (fmt : format) (bits : Z) (w : writer) (fl : floats)
  (sp_id q_m : Z) : dout dumped :=
  if bad_stride (m_nx m) (s_x st) then DErr else if bad_stride (m_ny m) (s_y st) then DErr else
  if bad_stride (m_nz m) (s_z st) then DErr else
  let nx := m_nx m / s_x st in let ny := m_ny m / s_y st in let nz := m_nz m / s_z st in
  match fmt with
  | band =>
      let pts := map (vox m st) (triples (nx + 2) (ny + 2) (nz + 2)) in
      let hdr := v0 2 w nx ny nz fl sp_id q_m ++ array_header (4 * width) [nx + 2; ny + 2; nz + 2] in
      dbind (bands h size width (varlist bits total_hydro_variables) pts (upto (numvars bits total_hydro_variables)))
            (fun d => DOk (hdr, d))
  | band_interleave =>                                               (* lines 835-862: dim is nxout, nyout, nzout *)
      let pts := map (vox m st) (triples nx ny nz) in
      let hdr := v0 2 w nx ny nz fl sp_id q_m ++ array_header (4 * width) [nx; ny; nz] in
      if unit_strides st then dbind (whole h size width (upto (nx * ny * nz))) (fun d => DOk (hdr, d))
      else dbind (whole h size width pts) (fun d => DOk (hdr, d))
  end.

(* dump_fields, dump.cc:181-219: all of the array *)
Definition dump_fields (f : Z -> Z) (m : mesh) (w : writer) (fl : floats) : dout dumped :=
  let dims := [m_nx m + 2; m_ny m + 2; m_nz m + 2] in
  dbind (whole f (field_words * m_nv m) field_words (upto (m_nv m)))
        (fun d => DOk (v0 1 w (m_nx m) (m_ny m) (m_nz m) fl (-1) 0 ++ array_header (4 * field_words) dims, d)).

(* dump_hydro, dump.cc:221-271 *)
Definition dump_hydro (width size : Z) (h : Z -> Z) (m : mesh) (w : writer) (fl : floats) (sp_id q_m : Z) : dout dumped :=
  let dims := [m_nx m + 2; m_ny m + 2; m_nz m + 2] in
  dbind (whole h size width (upto (m_nv m)))
        (fun d => DOk (v0 2 w (m_nx m) (m_ny m) (m_nz m) fl sp_id q_m ++ array_header (4 * width) dims, d)).

(* ---- dump_particles, dump.cc:273-336 ---- *)
Definition PBUF_SIZE : Z := 32768.
Definition INT_MAX : Z := 2 ^ 31 - 1.
Section Particles.
Context {P : Type}.
Variable center : P -> P.        (* what center_p does to a particle: C14, C67 *)
(* the loop of lines 324-329 with the buffer: n is the number left of iterations; buf_start is an int *)
Fixpoint chunks (fuel : nat) (ps : list P) (buf_start : Z) : dout (list P) :=
  let sp_np := Z.of_nat (length ps) in
  match fuel with
  | O => DOk []
  | S n =>
      if negb (buf_start <? sp_np) then DOk [] else
      let np := Z.min (sp_np - buf_start) PBUF_SIZE in
      let buf := firstn (Z.to_nat np) (skipn (Z.to_nat buf_start) ps) in         (* COPY *)
      if INT_MAX <? buf_start + PBUF_SIZE then DOverflow else
      dbind (chunks n ps (buf_start + PBUF_SIZE)) (fun r => DOk (map center buf ++ r))
  end.
(* what is written, and the particle list of the species afterwards *)
Definition dump_particles (ps : list P) (m : mesh) (w : writer) (fl : floats) (sp_id q_m : Z) : dout (list item * list P * list P) :=
  dbind (chunks (S (length ps)) ps 0)
        (fun d => DOk (v0 3 w (m_nx m) (m_ny m) (m_nz m) fl sp_id q_m ++ array_header 32 [Z.of_nat (length ps)], d, ps)).
End Particles.

(* ---- dump_grid, dump.cc:138-179: bc (27 ints), range (nproc+1), neighbor (6 nv) ---- *)
Definition dump_grid (m : mesh) (bc range neighbor : list Z) (w : writer) (fl : floats) : dout (list item) :=
  let prod := 6 * (m_nx m + 2) * (m_ny m + 2) * (m_nz m + 2) in
  if INT_MAX <? prod then DOverflow else                                          (* dim[0]*dim[1]*dim[2]*dim[3] is an int *)
  if (Z.of_nat (length range) <? w_nproc w + 1) || (Z.of_nat (length neighbor) <? prod) || (Z.of_nat (length bc) <? 27) then DOutside else
  DOk (v0 0 w (m_nx m) (m_ny m) (m_nz m) fl (-1) 0 ++
       array_header 4 [3; 3; 3] ++ map b4 (firstn 27 bc) ++
       array_header 8 [w_nproc w + 1] ++ map b8 (firstn (Z.to_nat (w_nproc w + 1)) range) ++
       array_header 8 [6; m_nx m + 2; m_ny m + 2; m_nz m + 2] ++ map b8 (firstn (Z.to_nat prod) neighbor)).

(* ---- the tables of the global header, vpic.h:55, 78 and dump.cc:342-371: first bit and number of elements
   of each group; the name is left out ---- *)
Definition field_groups : list (Z * Z) :=
  [(0, 3); (3, 1); (4, 3); (7, 1); (8, 3); (11, 1); (12, 3); (15, 1); (16, 3); (19, 1); (20, 3); (23, 1)].
Definition hydro_groups : list (Z * Z) := [(0, 3); (3, 1); (4, 3); (7, 1); (8, 6)].
(* global_header, dump.cc:472-487, 507-520: number of groups printed, and the groups *)
Definition listed (groups : list (Z * Z)) (bits : Z) : Z * list (Z * Z) :=
  (Z.min (bitsum_of bits (map fst groups)) (Z.of_nat (length groups)), filter (fun g => bitset bits (fst g)) groups).

(* ---- file names: sprintf into a buffer; lengths of the parts.  dump.cc:140-147, 186-194 (fname[256]),
   541-559, 717-735 (timeDir[256], filename[300]).  digits: characters of a printed integer, sign included ---- *)
Fixpoint digits_ (fuel : nat) (n : Z) : Z := match fuel with O => 1 | S f => if n <? 10 then 1 else 1 + digits_ f (n / 10) end.
Definition digits (n : Z) : Z := if n <? 0 then 1 + digits_ 20 (- n) else digits_ 20 n.
Definition sprintf (buf len : Z) : dout unit := if buf <? len + 1 then DOverflow else DOk tt.       (* and the final NUL *)
Definition name_fields (fbase : Z) (ftag : bool) (step rank : Z) : dout unit :=
  sprintf 256 (if ftag then fbase + 1 + digits step + 1 + digits rank else fbase + 1 + digits rank).
Definition name_field_dump (baseDir baseFileName step rank : Z) : dout unit :=
  dbind (sprintf 256 (baseDir + 3 + digits step)) (fun _ =>
  sprintf 300 (baseDir + 3 + digits step + 1 + baseFileName + 1 + digits step + 1 + digits rank)).

(* ---- dump_species, dump.cc:81-95: the text of the file; e, i: how a float and an int are printed ---- *)
Record sp_line : Type := mksp { l_name : list Z; l_id : Z; l_q : Z; l_m : Z }.
Definition dump_species (e i : Z -> list Z) (l : list sp_line) : list Z :=
  flat_map (fun s => l_name s ++ [32] ++ i (l_id s) ++ [32] ++ e (l_q s) ++ [32] ++ e (l_m s)) l.
(* dump_materials, dump.cc:96-112: nine coefficients *)
Record mat_line : Type := mkml { k_name : list Z; k_id : Z; k_c : list Z }.
Definition nl : Z := 10.
Definition sp : Z := 32.
Definition dump_materials (e i : Z -> list Z) (l : list mat_line) : list Z :=
  flat_map (fun m => let c n := e (nth n (k_c m) 0) in
    k_name m ++ [nl] ++ i (k_id m) ++ [nl] ++
    c 0%nat ++ [sp] ++ c 1%nat ++ [sp] ++ c 2%nat ++ [nl] ++
    c 3%nat ++ [sp] ++ c 4%nat ++ [sp] ++ c 5%nat ++ [nl] ++
    c 6%nat ++ [sp] ++ c 7%nat ++ [sp] ++ c 8%nat ++ [nl]) l.
