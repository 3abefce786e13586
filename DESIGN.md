# Formal model of VPIC (lanl/vpic): design and trusted base

The code in /repo is read as text; nothing is built or run. The model and the
proofs are in `rocq/theories` (Coq 8.16.1, with Flocq for IEEE arithmetic).

## Layout

* `*Model.v` (and `SweepModel.v`, `RemoteRun.v`): transcription of C++ functions.
  Every definition cites file and lines in /repo and states its simplifications.
* `*Spec.v`: small specification vocabulary used by the statements, independent of
  the model's helpers.
* `*Proofs.v` and the other files without "Model", "Spec" or "Properties": lemmas.
* `Properties*.v`: the property theorems `Cnn_...`, each followed by `Print
  Assumptions` and an `Example` with a concrete case meeting the hypotheses.
  `..._refuted` theorems are witnesses against a statement one might expect.

## Conventions

* C `int`, `int64_t`, `size_t` are `Z`. Where a product or sum can leave its type,
  the model either wraps (unsigned) or has a distinct undefined outcome (signed);
  where it cannot for any reachable value, the theorem's hypotheses say why.
* Arrays are lists or functions of the index. Access outside an array, reading
  uninitialised memory, conversion of a value that does not fit, and waiting for a
  request never begun are distinct outcomes (`UB`, `MUB`, `Undef`, `HUB`, ...).
* `ERROR((...))` is the outcome `None`, `Err` or `Error`: the program ends there.
* Floating point: kernels are written once over a record of operations (`num`,
  `arith`, `rarith`) and instantiated with the reals (conservation laws), the
  rationals (to run examples) and IEEE binary32/binary64 (rounding statements and
  witnesses). Statements for an arbitrary operation record hold for rounded
  arithmetic too. No contraction into fused multiply-add is assumed except where a
  flag `contract` says that both cases are covered.
* Parallelism: pipeline jobs of a sweep run in any order and may read any value
  a location had since the sweep began (`SweepModel.v`); threads of the dispatcher
  interleave step by step under sequentially consistent memory (`ThreadModel.v`);
  ranks interleave call by call (`RemoteRun.v`, `MpModel.v`).

## Trusted base

* the Coq kernel (coqc 8.16.1); no kernel check is switched off;
* what `Print Assumptions` lists for each theorem: see "Assumptions" below. Only
  axioms of Coq's standard library occur (the real numbers' and classical logic);
* the transcription of the C++ sources, which is by hand;
* C++ semantics as far as used: two's complement unsigned arithmetic, truncating
  integer division, IEEE single and double with round to nearest even, LP64 sizes,
  little-endian bytes in the random generator and the checkpoint file;
* sequential consistency of the dispatcher's memory (its flags are volatile ints,
  not atomics, which the language calls a race: see C40);
* MPI: messages of one source, destination and tag are delivered once, in order; a
  synchronous send completes only after its receive was posted;
* pthread mutexes and condition variables behave as POSIX specifies, and succeed;
* malloc returns a block of the size asked for or NULL; dladdr succeeds.

## What is modelled

| sources (under /repo/src) | model file |
|---|---|
| grid/grid.h (VOXEL, BOUNDARY, DISTRIBUTE_VOXELS, NEXT_VOXEL), sfa_private.h (INIT_STENCIL, NEXT_STENCIL) | VoxelModel |
| util/pipelines/pipelines.h (DISTRIBUTE) | DistributeModel, FloatModel |
| species_advance/standard/pipeline/sort_p_pipeline.cc, sort_p.cc | SortModel |
| field_advance/standard/pipeline/{advance_b,advance_e,compute_curl_b,compute_div_b_err,compute_div_e_err,compute_rhob,clean_div_b,clean_div_e}_pipeline.{h,cc} | FieldModel on SweepModel |
| field_advance/standard/local.cc (local_ghost_tang_b, local_ghost_norm_e, local_ghost_div_b) | LocalModel |
| field_advance/standard/local.cc (local_adjust_norm_b, _tang_e, _div_e, _jf, _rhof, _rhob), sfa.cc (coefficients), vacuum_* kernels, compute_rms_div_{e,b}_err | FieldBoundaryModel, RemoteModel, WallAdjust |
| field_advance/standard/remote.cc, grid/grid_comm.cc | RemoteModel, RemoteRun |
| grid/ops.cc, grid/partition.cc | GridModel |
| species_advance/standard/{move_p.cc,rho_p.cc}, pipeline/{advance_p,center_p,uncenter_p,energy_p}_pipeline.cc | ParticleModel, MoverModel |
| boundary/boundary_p.cc, vpic/advance.cc (advance_p of all species, rounds, removal of movers) | MoverModel, ChargeModel |
| vpic/advance.cc, vpic/initialize.cc (order of all calls), deck/main.cc | ScheduleModel |
| boundary/absorb_tally.cc, species_advance/species_advance.cc (ids) | TallyModel, UtilModel |
| boundary/maxwellian_reflux.cc | RefluxModel |
| vpic/misc.cc (inject_particle), emitter/child_langmuir.cc | InjectModel |
| collision/{hard_sphere,large_angle_coulomb}.cc, pipeline/{binary,unary,takizuka_abe,langevin}_pipeline.cc | CollisionModel |
| vpic/diagnostics.cc | PoyntingModel |
| deck/wrapper.h (region and emitter macros) | RegionModel |
| src/vpic/vpic.h (uniform, define_species) | HelperModel |
| file names of deck/main.cc and src/vpic/dump.cc | NameModel |
| util/profile/profile.cc (update_profile), util/profile/profile.h (TOC) | ProfileModel |
| src/vpic/vpic.h (inject_particle_raw) | RawModel |
| src/vpic/dump.cc (dump_energies) | TableModel |
| util/boot.cc, deck/main.cc, vpic/vpic.cc (constructor, destructor) with the delete_ functions | LifeModel, RestartModel |
| deck/main.cc (report of the time) | ElapsedModel |
| src/vpic/misc.cc (modify) | ModifyModel |
| src/vpic/vpic.h (courant_length, define_units, define_timestep), grid/partition.cc (rdx), coefficients of advance_e and advance_b | CourantModel |
| src/util/pipelines/pipelines_serial.cc, pipelines_exec_omp.h | BackModel |
| sf_interface/{accumulator_array,clear_array,reduce_array,unload_accumulator,interpolator_array} and pipelines | SfModel, VecReduceModel (vector reduce kernels) |
| util/checkpt/checkpt.cc, checkpt_io.h | CheckptModel |
| the checkpt_, restore_ and reanimate_ functions of all files (24 types) | SaveModel |
| vpic/dump.cc, vpic/dumpmacros.h, util/bitfield.h, tables of vpic/vpic.h | DumpModel |
| util/rng/*.{cc,h} except the tables' contents | RngModel |
| util/util_base.{h,cc} (allocation, command line, lists), material.cc, boundary.cc, collision.cc, emitter.cc (lists) | UtilModel |
| util/mp/DMPPolicy.h (buffers), mp.h (turnstile) | MpModel |
| field_advance/standard/pipeline: V4, V8, V16 files of advance_b, advance_e, compute_curl_b, clean_div_b and the vacuum kernels | VecFieldModel |
| util/v4 (portable, sse, avx, avx2, neon), util/v8, util/v16: load, store, stream, clear, copy, swap, transpose | VecModel, VecPrograms4, VecPrograms8, VecPrograms16 |
| the same headers: all operators, conditions, any, all, splat, shuffle, merge, mathematical functions, trilinear | VecOpModel, VecOpPrograms4, VecOpPrograms8, VecOpPrograms16, VecOpTable |
| species_advance/standard: move_p.cc with V4, V4, V8, V16 files of advance_p, center_p, uncenter_p, energy_p, hydro_p, move_outbnd_v4.inc | VecPartModel |
| util/pipelines/pipelines_thread.cc, pipelines_exec_pth.h | ThreadModel |

Remarks where the code does something one might not expect and the model follows
it: derivatives along an axis are dropped when the *local* cell count is 1; the
vacuum kernels always use material coefficient 0; `compute_rms_div_b_err` multiplies
by eps0 like its electric counterpart; a conducting or dispersive medium where
charge is set only prints a warning; C65 takes the loads of the kernels as defined, for
the AVX-512 versions on `field_t` they are not (C66).

## What is not modelled

* util/v4/v4_altivec.h and the variants v4/v8/v16_portable_v1.h, which nothing includes
  (the variants _v0 are copies of the portable headers); the operators `[]` and `()` of the vector classes (they give a
  reference to a lane);
* `util/mp/RelayPolicy.h` and `util/io/P2P*` (host/accelerator relay);
* the text of the .vpc file apart from its groups,
  the other helpers of `vpic.h`, the rest of `deck/`,
  `sample/`, `utilities/`;
* the link boundary handler (link.cc), which no registered boundary condition calls;
* the transcendental part of the normal and exponential generators (expf, logf and the
  contents of the ziggurat tables) and the trigonometry of Takizuka-Abe;
* the wall clock, logging, endian swapping of dumps.

## Properties: what is modelled and how it is proved

| id | model | proof |
|----|-------|-------|
| C01 | VOXEL and both decoding idioms on Z | division uniqueness |
| C02 | DISTRIBUTE with binary64 rounding of each operation, with and without fma | error bound on `t*P+0.5`, monotonicity of rounding |
| C03 | DISTRIBUTE_VOXELS and the two increment macros | iteration invariant from linear position to coordinates, C02 |
| C04 | address arithmetic of util_malloc_aligned | bit lemmas |
| C05 | coarse count, prefix sums, coarse sort, subsort, any interleaving of the stores of a phase | invariants on cursors, stable-sort specification |
| C06 | legacy sort, both modes, fuelled cycle loop | invariant and termination measure |
| C07 | partition left by the sorts | direct, with witnesses for the gaps |
| C08, C10 | sweeps and divergence over R | ring identities on the result of C09 |
| C09 | every sweep as operations run in any order with stale reads | footprint disjointness, counting of locations |
| C11, C12 | move_p over R with neighbour table, number of passes bounded | induction on streaks |
| C13 | accumulate_rho_p, accumulate_rhob over R | ring, case analysis on node position |
| C14 | Boris push, center_p, uncenter_p over R | field identities, sqrt |
| C15 | energy_p per-pipeline sums | C02 and sums over a partition |
| C16 | mover segments, host segment, compaction, any interleaving | list induction |
| C17 | back-filling removal | list induction, permutation |
| C18 | boundary_p: classify, send, receive, inject | multiset accounting over ranks |
| C19, C20, C21 | size_grid, join_grid, partition_*: tables as functions | case analysis on faces, modular arithmetic |
| C22 | inject_particle in binary64/binary32 | rounding monotonicity, order reasoning |
| C23, C24, C51 | state machines with an out-of-bounds outcome | invariants, witnesses |
| C25 | collision kernels over R | nsatz-style identities |
| C26 | pairing loops as lists of index pairs | counting |
| C27 | candidate index from a 32-bit word | arithmetic, witness |
| C28 | striping loops, thinning decisions | arithmetic |
| C29 | decay and drive over R | algebra of exp |
| C30-C32 | registry, checkpoint and restore as byte streams | invariants, parser/printer round trip, witnesses |
| C33-C36 | conversions, buffer cursor, parity adjustment, seeds | Flocq rounding, bit lemmas |
| C37, C38 | randperm, shuffle over streams of words | permutation invariants, counting |
| C39 | bit splitting of frandn and drandn | bit arithmetic |
| C40 | dispatcher as a transition system | inductive invariants, ranking function for progress |
| C41 | turnstile as a transition system | inductive invariant, progress |
| C42 | buffer table | invariant over call sequences |
| C43 | exchanges run call by call by all ranks in any order | simulation by phases |
| C44 | exchange passes on arrays of arbitrary values | algebra per pass, symmetry of the operations |
| C45, C46 | accumulator and interpolator arrays | sums, ring |
| C47, C48 | weight sums, diffusion step | counting, nra |
| C49 | coefficient formulas over R | analysis with exp and sinh |
| C50 | linked lists on a heap | induction |
| C52 | argv functions | list induction |
| C53 | ghost exchanges on arrays of arbitrary values | footprints of the receives, field, Flocq rounding |
| C54 | the sweeps of all ranks of a box with their ghost exchanges, without the local boundary adjustments | the update of one undivided mesh, places of the whole mesh, repetition along joined axes |
| C55 | the loops of the three routines, point by point on one array | mesh positions, discrete boundary conditions, Faraday step of C54's undivided mesh, one way wave |
| C56 | the sweeps of all ranks of a box with walls: exchange, local_ghost routine, sweep, local adjustment | one undivided mesh with walls: values beyond the walls, members kept zero, places of the whole mesh |
| C57 | the face loops of the three routines in program order on one array | walls through an entry, conductors, doubling once per wall |
| C58 | the portable macro, word by word, and the loop of sfmt_next; the SSE2 macro is not modelled separately (its byte shifts are those of the specification) | the recursion on 128-bit numbers, successive states as one sequence |
| C59 | advance_all (particle loop of advance_p for every species), rounds of boundary_p on all ranks, drop_all (removal of left-over movers); emitters and user injection are not in the step; local injections of handlers are arbitrary | charge per node of the whole mesh via places of the layout, tables of one mesh, charge moved along edges |
| C60 | the step of C59, unload_accumulator_array (C45) into cleared arrays, the phases of synchronize_jf on all ranks (C44) without local_adjust_jf (C57: it changes only entries on walls), the E update on all ranks (C54/C56) | one current density of the whole mesh, its backward difference divergence at a node, charge at a node as pairing with the node's indicator |
| C61 | accumulate_rho_p and accumulate_rhob (C13) as additions to the arrays of the ranks, the phases of synchronize_rho on all ranks (C44) without the local adjustments (C57: walls only), the step of C60, the sweeps of C54, compute_rhob; user injection and the cleaning pass between are not in the step | densities of the whole mesh from the charge at the nodes (C59), Gauss's law error as computed, steps as a relation between particles and arrays |
| C62 | the scalar particle loop of hydro_p on the segments of DISTRIBUTE, each on its own copy; ADJUST_HYDRO on the six faces; the packing, message sizes, weights and unpacking of the three phases on all ranks; the reduction of the copies is C45; 0.4f is the real 2/5 in the exact theorems | moment of a particle from its charge, mass and momentum, sharing as for charge (C13), sum over all ranks at a node of the mesh, wall volumes |
| C63 | the momentum part of the scalar particle loops of advance_p and center_p (push_u, center_one, displacement, advance_one of ParticleModel), real arithmetic: rounding is not treated here (C14) | multilinear E and B at the position, gamma, the implicit rotation equation, angle by atan against q B / gamma |
| C64 | REDUCE_EN and its vacuum version on the voxel walks of C02 for every pipeline, the sum over pipelines and ranks; the steps of the fields are those of C56 (g_step on the whole mesh, C56_run carries them to the ranks); real arithmetic | sums over the places of the whole mesh with their parts of a cell; summation by parts on a mesh with joined axes and walls (YeeCalculus); the growing mode above the Courant limit |
| C65 | passes of W lanes over the voxel walks of C02, loads of a pass before its stores, interleaved with other pipelines and the host's scalar remainder; the lane formulas in the order of the vector text | a generic simulation: a race-free run of blocks is a run of the scalar operations (VecSweepProofs), the formulas agree (VecFieldProofs); binary32 laws by Flocq |
| C66 | the bodies of the memory operations as programs over registers and memory (VecPrograms4/8/16, transcribed mechanically from the headers), one statement per intrinsic or loop step; intrinsics as functions on lanes from their documentation; a word is an opaque value, so float and int loads are alike; Misaligned and OutOfBounds are outcomes | places of the lanes by pointer and offset, alignment and words per pointer (tables of VecSpec), checked against a symbolic run of each function |
| C67 | one lane of each kernel as a function of a particle and its interpolator, blocks of 2^k particles from DISTRIBUTE, increments as (element, first word, words), move_outbnd lane after lane; copysign, the shifted denominator, rsqrt, rcp are parameters (exact_ops) in real arithmetic and Flocq operations in binary32; fused multiply-add is not distinguished from two operations | the scalar loops of C11-C15, C59, C62 on the pipeline's share; sums of increments (VecPartSums); Flocq for the binary32 path |
| C68 | interact, creation and set_reflux_temp in any arithmetic, the random numbers as arguments (their generators: C39), the handler inside the boundary_p and move_p of C11, C18 | momentum, flight time and spatial displacement as in the literature (RefluxSpec), cumulative law of the normal momentum; Flocq for binary32 |
| C69 | an object as its members: plain bytes, owned arrays with address, alignment, capacity and contents, strings, pointers, identifiers, functions; checkpt functions as lists of values, restore functions as readers of bytes over the file format of C31; structure sizes and member sizes as on the 64-bit machines supported; allocation always succeeds, one address stands for all new arrays | declared members of each type (instance), relation same between saved and restored members (SaveSpec) |
| C70 | arrays of structures as 32-bit words with their allocated size (reads outside are a distinct outcome, so are unwritten varlist entries and overflow), headers as items of bytes and value, the loops of the two formats with and without strides, the chunk loop of dump_particles, texts with any number format; opening, closing and failing writes are left out, floats of the header are bit patterns | positions in the data given by the announced dimensions, sampled cells, offsets table, little endian integers |
| C71 | the calls of advance, initialize and main as lists of events for any configuration; what a call does is its contract, times counted in half steps (ScheduleSpec), user functions and models are single events that respect theirs; timers and the text of messages are left out; the file and the restore are C31 and C69 | contracts from the comments of advance.cc and the headers, ready state, intervals as multiples |
| C72 | every operator and function of the ten headers as a program over 32-bit words: assignments to one lane or all, loops over lanes, expressions of int and float operations; a lane is one word that the int and the float class both see (the unions of the headers); int overflow, division by zero and undefined shifts are a distinct outcome, as is reading a lane never set; the float operations are parameters (any fpu), their IEEE instance from Flocq; an intrinsic is the operation it is documented to do in each lane; the exact transcription was made by a script from the text of the headers and read over | scalar operators on words (VecOpSpec): values of ints, bits, order of reals; no use of the programs |
| C73 | one vector operation of a LOOP is W loads and stores of consecutive floats, undefined when unaligned (the arrays start 128-byte aligned) or outside the array; int overflow of the index as in C45; a lane of a vector sum is the float sum (C72); jobs as in C45, the caller runs the scalar kernel with rank N_PIPELINE | each pass equals the scalar pass on whole vectors, shares of DISTRIBUTE with block W, race freedom of the jobs |
| C74 | poynting_flux on all ranks at once over R: pvec as floats that are known or never set (memset counted in bytes), stores checked against its size, the loops as a fold, allsum as a sum in which one unset float spoils the result, division by zero a distinct outcome; roundings left out, all ranks have the same mesh | NoDup of the index map of the loops, rows concatenated, sums over ranks |
| C75 | region macros over an arbitrary coordinate type: an axis is the function h -> x0 + dx*(h/2), in double (axis_d) or exact (axis_r); the loops carry the walking pointers _f++ and _n += 6; stores are checked against the array; count and fill pass of the emitters with a checked array; COMPONENT_ID with int overflow a distinct outcome; region and field equations are pure functions of x, y, z; set_point_region_bc is left out because it does not compile (missing semicolons, wrapper.h:179-184) | last store to a place by disjointness of the voxels, case split over the eight cell centres, Flocq computation of two coordinates for the ranks |
| C76 | uniform in IEEE double without contraction into fma, over the 64-bit word of the generator; conversion of a double outside size_t is undefined, size_t to int wraps; malloc itself is left out | error of each rounding with gradual underflow, the midpoint argument at the ends, distance of 2n/25 from the next integer |
| C77 | serial: a function of the calls; OpenMP: iterations started and finished in any order by a team of any size, implicit barrier at the end of the region, the wait as a barrier of a team of one; calls and events are those of C40, so one specification serves all; booting, checkpoint registration and NULL functions are left out | invariants over the history of events, a measure for progress, histories determined by the caller's own events |
| C78 | courant_length, the time step of a deck and the coefficients of the update in IEEE double and float without contraction; the box starts at 0, so that gx1-gx0 is lx; the update itself in exact arithmetic (C64) with the rounded coefficients | relative error of each operation, 40 units in double and 17 in float; witness for cfl = 1 by computation |
| C79 | fgets as pieces of at most 126 characters, sscanf with literal, white space and %d on lists of characters; a number beyond int is undefined; %le is any partial function; fields behind EXTEND_MODIFY and messages left out | inversion of the scanner, first letters of the names differ |
| C80 | sprintf on lists of characters into arrays of fixed length, a store beyond the array is None; decimal text of a long | digits read back, splitting at the last dot or slash, lengths of decimal texts |
| C81 | timers with IEEE double times and int counts, overflow of a count and conversion of a double beyond int undefined; names, mean time per call and text of the report left out | monotonicity of rounding for the sums, error of three roundings for a percentage |
| C82 | species arrays of C22 and C23, a store beyond them undefined; move_p is any function of particle and displacement; charge left behind not recorded | induction on the list of particles |
| C83 | the calls of one rank in order (open, print, collective sum, close, exit) and the text they leave; how %e prints and the energies are inputs; errors of vfprintf left out | splitting of the text at newlines and spaces inverts the printing |
| C84 | the calls of register_object and unregister_object of a run from scratch, in order, on the service of C30; a simulation is the addresses its pointers lead to; restored runs, errors of define_ functions and objects a deck makes by other means left out | counting addresses: registered = unregistered + lost; induction on the deck |
| C85 | the registry at the checkpoint is the file; restoring maps every address by any function that keeps the static ones; a simulation that stays NULL is a distinct outcome; contents of objects are C31 and C69 | permutations of addresses mapped, C84 |
| C86 | int arithmetic with overflow and a double beyond int as a distinct outcome; the readings of the clock are inputs | bounds of truncating division, uniqueness of mixed radix digits |

## Testing against wrong programs

`seeded/LOG.jsonl` records edits of the model that a realistic bug would make, and
which theorems then fail. They are run in a scratch copy: the edited file and all
files that depend on it are rebuilt, a proof that fails is replaced by an admitted
one and the build goes on, and the `Cnn_` theorems that fail or rest on a failed lemma are
listed. When an edit made a claim false and no theorem failed, the theorem was
tightened or a theorem was added, as the log says.

## Assumptions

Output of `Print Assumptions` for each theorem, grouped by what it lists.

### Closed under the global context

* C01: `C01_voxel_decode`, `C01_voxel_in_range`, `C01_voxel_injective`, `C01_voxel_onto`
* C04: `C04_aligned_in_bounds`, `C04_bad_alignment_stops`, `C04_wrapping_size_refuted`
* C05: `C05_subsort_scratch_private`
* C06: `C06_legacy_out_of_place_stable`, `C06_legacy_sort_correct`
* C07: `C07_legacy_empty_stale_refuted`, `C07_legacy_partition_fresh`
* C12: `C12_index_decodes`
* C13: `C13_nodes`
* C17: `C17_backfill_removal`, `C17_leftovers_deposit`, `C17_survivors`, `C17_unsorted_refuted`
* C18: `C18_absorbed_charge`, `C18_buffers`, `C18_every_mover_has_one_fate`, `C18_exchange`, `C18_fates`, `C18_injection`, `C18_past_the_end_refuted`, `C18_sent_to_owner`, `C18_unshared_face_refuted`, `C18_world_count`
* C19: `C19_bad_size`, `C19_ids_disjoint`, `C19_neighbours`, `C19_symmetric`
* C20: `C20_mismatch_error`, `C20_mismatch_undetected_refuted`, `C20_nothing_else`, `C20_there_and_back`
* C21: `C21_bad_args`, `C21_faces`, `C21_open_walk`, `C21_periodic_walk`, `C21_ranks`, `C21_tiling`, `C21_topology_agrees`
* C22: `C22_voxel_is_interior`
* C24: `C24_first_right`, `C24_later_wrong`, `C24_right_without_movers`, `C24_weights`
* C25: `C25_one_sided`
* C26: `C26_one_species`, `C26_shuffle`, `C26_shuffle_defined`, `C26_shuffle_uniform`, `C26_two_species`
* C27: `C27_in_voxel`, `C27_large_voxel_refuted`, `C27_pair_count`, `C27_pair_count_refuted`, `C27_small_voxels`, `C27_uniform`
* C28: `C28_striping`
* C30: `C30_identifier_never_reused`, `C30_identifier_stable`, `C30_invalid_calls`, `C30_not_booted`, `C30_registry`, `C30_wraparound_refuted`
* C31: `C31_later_pointer_fails`, `C31_roundtrip`, `C31_self_pointer_refuted`, `C31_species_order_refuted`
* C32: `C32_damaged_marker`, `C32_end_marker_refuted`, `C32_sizes_refuted`, `C32_truncated`, `C32_truncation_undetected_refuted`
* C33: `C33_integer_range`, `C33_signed_equidistributed`
* C34: `C34_no_byte_twice`, `C34_one_draw`
* C35: `C35_adjust`, `C35_seed_certified`
* C36: `C36_pool_sizes_differ_refuted`, `C36_states_distinct`, `C36_sync_seeds_same`, `C36_sync_unsync_disjoint`, `C36_unsync_seeds_distinct`
* C37: `C37_draw_uniform`, `C37_no_overflow`, `C37_overflow_refuted`, `C37_permutation`, `C37_rejections`, `C37_uniform`
* C38: `C38_offset_counts`, `C38_shuffle_permutes`, `C38_six_elements`, `C38_two_elements`, `C38_uniform_refuted`
* C39: `C39_drandn_masks_refuted`, `C39_drandn_split`, `C39_drandn_uniform`, `C39_frandn_split`, `C39_frandn_uniform`, `C39_frandn_wraps`, `C39_table_in_bounds`
* C40: `C40_calls`, `C40_completes`, `C40_each_job_once`, `C40_flag_race_refuted`, `C40_halted`, `C40_misuse`, `C40_no_error`, `C40_other_setting_refuted`
* C41: `C41_at_most`, `C41_finishes`, `C41_order`, `C41_progress`, `C41_width0`
* C43: `C43_box_is_joined`, `C43_one_sided_refuted`, `C43_ranks_go_through`, `C43_receive_has_one_send`, `C43_send_has_receive`, `C43_sizes`, `C43_unequal_faces_refuted`
* C44: `C44_copies_agree`, `C44_rest_unchanged`
* C50: `C50_collision_once`, `C50_collision_twice_circular`, `C50_emitters`, `C50_handler_ids`, `C50_handler_ids_not_builtin`, `C50_handler_twice_circular`, `C50_material_ids`, `C50_species_accepted`, `C50_species_ids`
* C51: `C51_absorb`, `C51_any_order_refuted`, `C51_counts`, `C51_others`
* C52: `C52_strip_flag`, `C52_strip_meaning`, `C52_strip_value`
* C53: `C53_ghost_values`, `C53_rest_unchanged`
* C55: `C55_defined`, `C55_ghosts`, `C55_thin_absorbing_refuted`, `C55_twice_refuted`
* C56: `C56_walls_kept`
* C57: `C57_bound_charges`, `C57_charges`, `C57_currents`, `C57_defined`
* C58: `C58_inside`, `C58_recursion`, `C58_sequence`
* C59: `C59_tables`
* C62: `C62_copies_agree`, `C62_sizes`
* C66: `C66_avx512_field_loads_fault`, `C66_clear_copy_swap`, `C66_field_kernels`, `C66_field_members_defined`, `C66_loads`, `C66_members`, `C66_neon_load_4x8_tr_ignores`, `C66_neon_store_4x8_tr_refuted`, `C66_portable_swap_itself_refuted`, `C66_stores`, `C66_swaps`, `C66_transposes`
* C68: `C68_arrays`, `C68_replaced`
* C69: `C69_code_range`, `C69_members`, `C69_number_nth`, `C69_other_process`, `C69_round_trip`, `C69_same_size_refuted`, `C69_spare_coefficients`, `C69_symbol`, `C69_user_pointer_refuted`
* C70: `C70_bad_strides`, `C70_constructed_parameters`, `C70_extra_bits`, `C70_extra_bits_hydro`, `C70_field_bands`, `C70_field_interleaved`, `C70_file_names`, `C70_grid`, `C70_groups`, `C70_groups_refuted`, `C70_header`, `C70_high_variables`, `C70_hydro_bands`, `C70_hydro_interleaved`, `C70_hydro_last_cell_refuted`, `C70_last_layer_lost`, `C70_materials_text`, `C70_mixed_strides_refuted`, `C70_node_material_refuted`, `C70_particles`, `C70_particles_overflow`, `C70_species_text_refuted`, `C70_step_truncated_refuted`, `C70_strided_points`, `C70_whole_arrays`
* C71: `C71_initial_checkpoint_refuted`, `C71_initialize`, `C71_loop_ends`, `C71_loop_forever`, `C71_on_interval`, `C71_once_a_step`, `C71_ranks_agree`, `C71_restart`, `C71_run`, `C71_sort_first`, `C71_step`, `C71_totals`
* C75: `C75_component_decodes`, `C75_leave_unchanged`, `C75_point_field`, `C75_point_material`, `C75_region_bc`, `C75_region_field`, `C75_region_field_uniform`, `C75_region_material`, `C75_region_material_exact`, `C75_surface_emitter`, `C75_volume_emitter`
* C77: `C77_omp`, `C77_omp_caller_last`, `C77_omp_completes`, `C77_omp_running`, `C77_omp_stride_refuted`, `C77_same_calls`, `C77_serial`, `C77_serial_misuse`, `C77_thread_caller_last_refuted`
* C79: `C79_comment_name_refuted`, `C79_defined`, `C79_file`, `C79_intervals`, `C79_long_line_refuted`, `C79_pieces`
* C80: `C80_apart`, `C80_decimal`, `C80_fits`, `C80_overflow_refuted`, `C80_parallel_apart`, `C80_restore_opens_checkpoint`, `C80_shared_refuted`
* C82: `C82_order`, `C82_raw`, `C82_raw_move`
* C83: `C83_append`, `C83_collectives`, `C83_columns`, `C83_failures`, `C83_late_species_refuted`, `C83_rows_tell`, `C83_space_in_name_refuted`, `C83_table`
* C84: `C84_collision_params`, `C84_end_of_run`, `C84_normal_end`, `C84_normal_end_always_refuted`, `C84_openmp_refuted`, `C84_reverse_order`
* C85: `C85_every_checkpoint_refuted`, `C85_from_a_step`, `C85_from_initialize`, `C85_same_ending`
* C86: `C86_breakdown`, `C86_defined`, `C86_report`

### `ClassicalDedekindReals.sig_forall_dec`

* C24: `C24_total`

### `Classical_Prop.classic`

* C55: `C55_again`

### `ClassicalDedekindReals.sig_forall_dec`, `FunctionalExtensionality.functional_extensionality_dep`

* C28: `C28_heavier_fraction`
* C44: `C44_average`, `C44_weighted_sum`
* C48: `C48_stable_coefficients`
* C53: `C53_exact`
* C54: `C54_clear_weights_exact`, `C54_same_constants`
* C55: `C55_meaning`, `C55_one_dimension_refuted`, `C55_one_way`, `C55_outgoing`
* C56: `C56_same_constants`
* C60: `C60_boxes`
* C64: `C64_bounds`, `C64_courant_needed`, `C64_stable`, `C64_work`
* C74: `C74_centered`, `C74_first_row_refuted`, `C74_flux`, `C74_thin`, `C74_thin_refuted`, `C74_uniform`, `C74_unset_floats`, `C74_unset_floats_refuted`
* C75: `C75_component_refuted`, `C75_ranks_agree`, `C75_region_field_refuted`, `C75_region_material_refuted`

### `ClassicalDedekindReals.sig_forall_dec`, `ClassicalDedekindReals.sig_not_dec`, `FunctionalExtensionality.functional_extensionality_dep`

* C11: `C11_advance_is_move`, `C11_move_continuity`, `C11_node_continuity`
* C12: `C12_move_ends`, `C12_move_stays_in_cell`
* C13: `C13_bound_charge`, `C13_deposition`
* C14: `C14_boris_norm`, `C14_centring_reversible`, `C14_rotation_preserves_momentum`
* C18: `C18_injection_succeeds`
* C25: `C25_coulomb`, `C25_coulomb_angle`, `C25_fluid`, `C25_hard_sphere`, `C25_hard_sphere_angle`, `C25_takizuka_abe`, `C25_takizuka_abe_angle`, `C25_takizuka_abe_one_sided`
* C29: `C29_no_friction`
* C45: `C45_summed_is_sum`
* C49: `C49_relaxation_exists`
* C59: `C59_closed`, `C59_round`, `C59_step`
* C60: `C60_currents`, `C60_step`
* C61: `C61_bound`, `C61_free`
* C62: `C62_particle`, `C62_physics`
* C63: `C63_advance`, `C63_centre`, `C63_displacement`, `C63_no_magnetic_field`, `C63_push`, `C63_reversible`
* C67: `C67_move_p`, `C67_newton`
* C68: `C68_aging`, `C68_charge`, `C68_inward`, `C68_late_species_refuted`, `C68_wall_not_touched`

### `ClassicalDedekindReals.sig_forall_dec`, `ClassicalDedekindReals.sig_not_dec`, `Classical_Prop.classic`, `FunctionalExtensionality.functional_extensionality_dep`

* C02: `C02_collision_ranges_exact_cover`, `C02_distribute_balanced`, `C02_distribute_exact_cover`
* C03: `C03_next_voxel_walk_covers_box`, `C03_stencil_walk_covers_box`
* C05: `C05_runs_exist`, `C05_sort_correct`, `C05_sort_deterministic`
* C07: `C07_pipeline_last_entry_refuted`, `C07_pipeline_partition_fresh`
* C08: `C08_div_b_preserved`, `C08_symmetric_boundary_refuted`
* C09: `C09_advance_b`, `C09_advance_e`, `C09_clean_div_b`, `C09_clean_div_e`, `C09_compute_curl_b`, `C09_compute_div_b_err`, `C09_compute_div_e_err`, `C09_compute_rhob`, `C09_deterministic`, `C09_no_location_twice`, `C09_runs_exist`
* C10: `C10_gauss_error_carried`, `C10_gauss_step`
* C12: `C12_float_in_cell_refuted`
* C15: `C15_kinetic_energy`, `C15_nonnegative`
* C16: `C16_mover_list`, `C16_segments`
* C18: `C18_capacity`, `C18_capacity_overflow_refuted`
* C22: `C22_acceptance`, `C22_edges`, `C22_lands_in_a_cell`, `C22_nan_refuted`, `C22_one_rank`
* C23: `C23_capacity`, `C23_full_list_refuted`, `C23_no_room`, `C23_within_bounds`
* C24: `C24_weights_refuted`
* C25: `C25_comoving_refuted`
* C28: `C28_always`, `C28_lighter_updated`, `C28_nan_rate_refuted`, `C28_never`, `C28_unary_visits`
* C29: `C29_composition`, `C29_ensemble`, `C29_fixed_point`, `C29_relaxation`
* C33: `C33_double_equidistributed`, `C33_double_intervals`, `C33_double_values`, `C33_float_equidistributed`, `C33_float_intervals`, `C33_float_values`
* C42: `C42_history`, `C42_port_check_refuted`, `C42_ports`, `C42_receive`, `C42_resize`, `C42_resize_refuted`, `C42_sizes`
* C44: `C44_contracted_refuted`, `C44_copies_agree_single`
* C45: `C45_clear`, `C45_current`, `C45_hydro`, `C45_reduce`, `C45_reduce_overflow_refuted`, `C45_runs_exist`, `C45_unload`
* C46: `C46_edges_faces`, `C46_load`, `C46_multilinear`, `C46_no_overshoot`
* C47: `C47_rms_div_b_weights`, `C47_rms_div_e_weights`, `C47_rms_sum_deterministic`
* C48: `C48_clean_field_unchanged`, `C48_diffusion_step`, `C48_error_does_not_grow`, `C48_single_cell_refuted`
* C49: `C49_ampere`, `C49_bounds`, `C49_exact_relaxation`, `C49_limits`, `C49_vacuum_same`
* C53: `C53_equal_cells_single`
* C54: `C54_gauss_every_node`, `C54_layouts_agree`, `C54_run`, `C54_runs_exist`, `C54_sweep`, `C54_thin_layer_refuted`
* C56: `C56_layouts_agree`, `C56_mixed_walls_refuted`, `C56_run`, `C56_step`, `C56_steps_exist`
* C60: `C60_gauss`
* C61: `C61_gauss`, `C61_run`, `C61_start`
* C62: `C62_copies_agree_single`, `C62_pipelines`, `C62_world`
* C63: `C63_angle`
* C64: `C64_energy`, `C64_run`, `C64_vacuum`
* C65: `C65_advance_b`, `C65_advance_e`, `C65_clean_div_b`, `C65_compute_curl_b`, `C65_runs_exist`, `C65_same_as_scalar`, `C65_single_precision`, `C65_vacuum`
* C67: `C67_advance`, `C67_center`, `C67_energy`, `C67_hydro`, `C67_move_p_binary32`, `C67_on_face_refuted`, `C67_shares`, `C67_shift_absorbed`
* C68: `C68_flt_min_absorbed`, `C68_flux_weighted`, `C68_inward_binary32`, `C68_nan_refuted`
* C72: `C72_any_all`, `C72_compare`, `C72_complete`, `C72_departures_only`, `C72_departures_refuted`, `C72_from_scalars`, `C72_ieee`, `C72_lanewise`, `C72_rcp_accuracy`, `C72_rcp_of_zero_refuted`, `C72_rsqrt_accuracy`, `C72_select`, `C72_shuffle`, `C72_splat`, `C72_trilinear`
* C73: `C73_accumulators`, `C73_hydro`, `C73_runs_exist`, `C73_same_as_scalar`, `C73_stragglers`, `C73_stragglers_refuted`, `C73_unpadded_refuted`
* C75: `C75_ranks_refuted`
* C76: `C76_species_movers`, `C76_species_refuted`, `C76_species_sizes`, `C76_uniform_accurate`, `C76_uniform_closed`, `C76_uniform_degenerate_refuted`, `C76_uniform_dropped_refuted`, `C76_uniform_open`, `C76_uniform_open_refuted`
* C78: `C78_coefficients`, `C78_courant_length`, `C78_single_cell_refuted`, `C78_stable`, `C78_whole_length_refuted`
* C81: `C81_counts`, `C81_no_time_refuted`, `C81_percent`, `C81_update`
* C82: `C82_full_refuted`, `C82_same_store`

