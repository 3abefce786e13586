(* The ten headers of the vector classes and what each of them defines. *)
From Coq Require Import List String.
From Verif Require Import VecOpModel VecOpPrograms4 VecOpPrograms8 VecOpPrograms16.
Import ListNotations.

(* src/util/v4/v4.h:11-30, src/util/v8/v8.h and src/util/v16/v16.h include one
   of the headers each, by USE_V4_SSE, USE_V4_AVX, ... *)
Inductive hdr := V4portable | V4sse | V4avx | V4avx2 | V4neon
               | V8portable | V8avx | V8avx2 | V16portable | V16avx512.
Definition hdrs : list hdr :=
  [V4portable; V4sse; V4avx; V4avx2; V4neon; V8portable; V8avx; V8avx2; V16portable; V16avx512].

(* the number of lanes: "int i[4]" (v4_sse.h:131), "int i[8]" (v8_avx.h), "int i[16]" *)
Definition width (h : hdr) : nat :=
  match h with
  | V4portable | V4sse | V4avx | V4avx2 | V4neon => 4
  | V8portable | V8avx | V8avx2 => 8
  | V16portable | V16avx512 => 16
  end.

(* the functions that work lane by lane *)
Definition ops (h : hdr) : list fn :=
  match h with
  | V4portable => ops_v4_portable | V4sse => ops_v4_sse | V4avx => ops_v4_avx
  | V4avx2 => ops_v4_avx2 | V4neon => ops_v4_neon
  | V8portable => ops_v8_portable | V8avx => ops_v8_avx | V8avx2 => ops_v8_avx2
  | V16portable => ops_v16_portable | V16avx512 => ops_v16_avx512
  end.

(* any() and all(), v4_sse.h:150-158 and alike *)
Definition any_fn (h : hdr) : fn :=
  match h with
  | V4portable => any_v4_portable | V4sse => any_v4_sse | V4avx => any_v4_avx
  | V4avx2 => any_v4_avx2 | V4neon => any_v4_neon
  | V8portable => any_v8_portable | V8avx => any_v8_avx | V8avx2 => any_v8_avx2
  | V16portable => any_v16_portable | V16avx512 => any_v16_avx512
  end.
Definition all_fn (h : hdr) : fn :=
  match h with
  | V4portable => all_v4_portable | V4sse => all_v4_sse | V4avx => all_v4_avx
  | V4avx2 => all_v4_avx2 | V4neon => all_v4_neon
  | V8portable => all_v8_portable | V8avx => all_v8_avx | V8avx2 => all_v8_avx2
  | V16portable => all_v16_portable | V16avx512 => all_v16_avx512
  end.

(* splat<n>, v4_sse.h:160-168 and alike *)
Definition splat_fn (h : hdr) : nat -> fn :=
  match h with
  | V4portable => splat_v4_portable | V4sse => splat_v4_sse | V4avx => splat_v4_avx
  | V4avx2 => splat_v4_avx2 | V4neon => splat_v4_neon
  | V8portable => splat_v8_portable | V8avx => splat_v8_avx | V8avx2 => splat_v8_avx2
  | V16portable => splat_v16_portable | V16avx512 => splat_v16_avx512
  end.

(* shuffle<i0,i1,...>, v4_sse.h:170-178 and alike *)
Definition shuffle_fn (h : hdr) (i : list nat) : fn :=
  let k n := nth n i 0 in
  match h with
  | V4portable => shuffle_v4_portable (k 0) (k 1) (k 2) (k 3)
  | V4sse => shuffle_v4_sse (k 0) (k 1) (k 2) (k 3)
  | V4avx => shuffle_v4_avx (k 0) (k 1) (k 2) (k 3)
  | V4avx2 => shuffle_v4_avx2 (k 0) (k 1) (k 2) (k 3)
  | V4neon => shuffle_v4_neon (k 0) (k 1) (k 2) (k 3)
  | V8portable => shuffle_v8_portable (k 0) (k 1) (k 2) (k 3) (k 4) (k 5) (k 6) (k 7)
  | V8avx => shuffle_v8_avx (k 0) (k 1) (k 2) (k 3) (k 4) (k 5) (k 6) (k 7)
  | V8avx2 => shuffle_v8_avx2 (k 0) (k 1) (k 2) (k 3) (k 4) (k 5) (k 6) (k 7)
  | V16portable => shuffle_v16_portable (k 0) (k 1) (k 2) (k 3) (k 4) (k 5) (k 6) (k 7)
                     (k 8) (k 9) (k 10) (k 11) (k 12) (k 13) (k 14) (k 15)
  | V16avx512 => shuffle_v16_avx512 (k 0) (k 1) (k 2) (k 3) (k 4) (k 5) (k 6) (k 7)
                     (k 8) (k 9) (k 10) (k 11) (k 12) (k 13) (k 14) (k 15)
  end.

(* the constructors from as many scalars as there are lanes: false for the
   class of ints (v4_sse.h:532-539), true for the class of floats
   (v4_sse.h:915-918), and alike *)
Definition scalars_fn (h : hdr) (fl : bool) : fn :=
  match h, fl with
  | V4portable, false => int_from_scalars_v4_portable | V4portable, true => float_from_scalars_v4_portable
  | V4sse, false => int_from_scalars_v4_sse | V4sse, true => float_from_scalars_v4_sse
  | V4avx, false => int_from_scalars_v4_avx | V4avx, true => float_from_scalars_v4_avx
  | V4avx2, false => int_from_scalars_v4_avx2 | V4avx2, true => float_from_scalars_v4_avx2
  | V4neon, false => int_from_scalars_v4_neon | V4neon, true => float_from_scalars_v4_neon
  | V8portable, false => int_from_scalars_v8_portable | V8portable, true => float_from_scalars_v8_portable
  | V8avx, false => int_from_scalars_v8_avx | V8avx, true => float_from_scalars_v8_avx
  | V8avx2, false => int_from_scalars_v8_avx2 | V8avx2, true => float_from_scalars_v8_avx2
  | V16portable, false => int_from_scalars_v16_portable | V16portable, true => float_from_scalars_v16_portable
  | V16avx512, false => int_from_scalars_v16_avx512 | V16avx512, true => float_from_scalars_v16_avx512
  end.

(* trilinear(), only in the headers of four lanes: v4_portable.h:1254-1267,
   v4_sse.h:1325-1351 and alike *)
Definition trilinear_fn (h : hdr) : option fn :=
  match h with
  | V4portable => Some trilinear_v4_portable | V4sse => Some trilinear_v4_sse | V4avx => Some trilinear_v4_avx
  | V4avx2 => Some trilinear_v4_avx2 | V4neon => Some trilinear_v4_neon
  | _ => None
  end.
