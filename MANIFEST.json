{
 "claims": [
  {
   "property": "C01",
   "status": "proved",
   "theorems": [
    "C01_voxel_in_range",
    "C01_voxel_injective",
    "C01_voxel_onto",
    "C01_voxel_decode"
   ],
   "note": "Integer model; both decoding idioms in the code."
  },
  {
   "property": "C02",
   "status": "proved",
   "theorems": [
    "C02_distribute_exact_cover",
    "C02_distribute_balanced",
    "C02_collision_ranges_exact_cover"
   ],
   "note": "IEEE double rounding modelled with Flocq in R, both with and without fma contraction; N < 2^31 as in the code's int."
  },
  {
   "property": "C03",
   "status": "proved",
   "theorems": [
    "C03_stencil_walk_covers_box",
    "C03_next_voxel_walk_covers_box"
   ],
   "note": "Both increment macros; empty boxes included."
  },
  {
   "property": "C04",
   "status": "proved",
   "theorems": [
    "C04_aligned_in_bounds",
    "C04_bad_alignment_stops",
    "C04_wrapping_size_refuted"
   ],
   "note": "Positive theorem under the no-wrap bound on the size; a witness shows the wrap without it."
  },
  {
   "property": "C05",
   "status": "proved",
   "theorems": [
    "C05_sort_correct",
    "C05_sort_deterministic",
    "C05_subsort_scratch_private",
    "C05_runs_exist"
   ],
   "note": "Every run of the parallel sort (any thread count 1..256, any order of the stores inside a parallel phase)."
  },
  {
   "property": "C06",
   "status": "proved",
   "theorems": [
    "C06_legacy_sort_correct",
    "C06_legacy_out_of_place_stable"
   ],
   "note": "Both modes, with an explicit bound on the number of loop trips."
  },
  {
   "property": "C07",
   "status": "proved",
   "theorems": [
    "C07_pipeline_partition_fresh",
    "C07_pipeline_last_entry_refuted",
    "C07_legacy_empty_stale_refuted",
    "C07_legacy_partition_fresh"
   ],
   "note": "Freshness proved for voxels 0..nv-1; the two gaps named in the statement (entry nv, empty species in the legacy sort) have witnesses."
  },
  {
   "property": "C08",
   "status": "proved",
   "theorems": [
    "C08_div_b_preserved",
    "C08_symmetric_boundary_refuted"
   ],
   "note": "Exact arithmetic. Proved for every cell without a face on a symmetric_fields boundary; the boundary routine zeroes normal B there and a witness shows div B going from 0 to -1/2."
  },
  {
   "property": "C09",
   "status": "proved",
   "theorems": [
    "C09_advance_b",
    "C09_advance_e",
    "C09_compute_curl_b",
    "C09_compute_div_e_err",
    "C09_compute_rhob",
    "C09_clean_div_e",
    "C09_compute_div_b_err",
    "C09_clean_div_b",
    "C09_no_location_twice",
    "C09_deterministic",
    "C09_runs_exist"
   ],
   "note": "Any arithmetic (so also rounded single precision), any mesh, any pipeline count, any schedule of the parallel part with ghosts arriving before the exterior part. The scalar pipelines; V4/V8/V16 variants are not modelled."
  },
  {
   "property": "C10",
   "status": "proved",
   "theorems": [
    "C10_gauss_step",
    "C10_gauss_error_carried"
   ],
   "note": "Any lossless materials; radiation damping included, its divergence term vanishes when damping is off. Interior nodes 2..n."
  },
  {
   "property": "C11",
   "status": "proved",
   "theorems": [
    "C11_move_continuity",
    "C11_node_continuity",
    "C11_advance_is_move"
   ],
   "note": "Exact (real) arithmetic, any neighbour table meeting table_ok, any number of crossings and reflections within the fuel shown sufficient in C12_move_ends."
  },
  {
   "property": "C12",
   "status": "proved",
   "theorems": [
    "C12_move_stays_in_cell",
    "C12_move_ends",
    "C12_index_decodes",
    "C12_float_in_cell_refuted"
   ],
   "note": "Exact arithmetic; a witness computed with IEEE single precision shows a coordinate 1+2^-23 after a stop at a domain face, so the rounded statement is false."
  },
  {
   "property": "C13",
   "status": "proved",
   "theorems": [
    "C13_deposition",
    "C13_nodes",
    "C13_bound_charge"
   ],
   "note": "Exact arithmetic for the totals; the doubled nodes are stated by node coordinates, not by the code's sequence of if statements."
  },
  {
   "property": "C14",
   "status": "proved",
   "theorems": [
    "C14_rotation_preserves_momentum",
    "C14_boris_norm",
    "C14_centring_reversible"
   ],
   "note": "Exact arithmetic. The rotation coefficient series is arbitrary: the norm is preserved whatever polynomial the code uses."
  },
  {
   "property": "C15",
   "status": "proved",
   "theorems": [
    "C15_kinetic_energy",
    "C15_nonnegative"
   ],
   "note": "Exact arithmetic, scalar pipelines."
  },
  {
   "property": "C16",
   "status": "proved",
   "theorems": [
    "C16_mover_list",
    "C16_segments"
   ],
   "note": "Any interleaving of the stores of all pipelines; both with and without fma contraction in the work split."
  },
  {
   "property": "C17",
   "status": "proved",
   "theorems": [
    "C17_backfill_removal",
    "C17_survivors",
    "C17_leftovers_deposit",
    "C17_unsorted_refuted"
   ],
   "note": "Witness shows that a repeated index removes a particle that was not listed."
  },
  {
   "property": "C18",
   "status": "proved",
   "theorems": [
    "C18_every_mover_has_one_fate",
    "C18_fates",
    "C18_absorbed_charge",
    "C18_sent_to_owner",
    "C18_exchange",
    "C18_injection",
    "C18_injection_succeeds",
    "C18_world_count",
    "C18_buffers",
    "C18_capacity",
    "C18_capacity_overflow_refuted",
    "C18_past_the_end_refuted",
    "C18_unshared_face_refuted"
   ],
   "note": "Message layer taken to deliver each message to the receive with the same source, destination and tag. Custom handlers are arbitrary functions. Witnesses record where the code accepts a neighbour table that disagrees with the topology and where the enlarged capacity overflows."
  },
  {
   "property": "C19",
   "status": "proved",
   "theorems": [
    "C19_neighbours",
    "C19_symmetric",
    "C19_ids_disjoint",
    "C19_bad_size"
   ],
   "note": "Voxel counts gathered from all ranks are an input. 6*nv above INT_MAX is an undefined outcome of the model; the theorems assume it does not happen."
  },
  {
   "property": "C20",
   "status": "proved",
   "theorems": [
    "C20_there_and_back",
    "C20_nothing_else",
    "C20_mismatch_error",
    "C20_mismatch_undetected_refuted"
   ],
   "note": "Two different grids; a rank joined to itself is covered by C21. The code's compatibility test is characterised exactly and a witness shows a mismatch it does not report."
  },
  {
   "property": "C21",
   "status": "proved",
   "theorems": [
    "C21_ranks",
    "C21_tiling",
    "C21_periodic_walk",
    "C21_open_walk",
    "C21_faces",
    "C21_topology_agrees",
    "C21_bad_args"
   ],
   "note": "Integer part of the partition for periodic, metal and absorbing boxes; also shown: the resulting tables meet the hypotheses of C11, C12 and C18."
  },
  {
   "property": "C22",
   "status": "proved",
   "theorems": [
    "C22_lands_in_a_cell",
    "C22_voxel_is_interior",
    "C22_acceptance",
    "C22_edges",
    "C22_one_rank",
    "C22_nan_refuted"
   ],
   "note": "Cell computation executed in IEEE double/float without fma contraction. Finite positions, float edges in order; a NaN position is shown to reach undefined behaviour. Edges of neighbouring domains are shared bit for bit; that rounding keeps the edge sequence in order is a hypothesis of C22_one_rank."
  },
  {
   "property": "C23",
   "status": "proved",
   "theorems": [
    "C23_capacity",
    "C23_within_bounds",
    "C23_no_room",
    "C23_full_list_refuted"
   ],
   "note": "The mover list is respected exactly when a slot is free; a witness shows the out-of-bounds store when it is full."
  },
  {
   "property": "C24",
   "status": "proved",
   "theorems": [
    "C24_weights",
    "C24_first_right",
    "C24_right_without_movers",
    "C24_later_wrong",
    "C24_total",
    "C24_weights_refuted"
   ],
   "note": "Weights of all emitted particles are given exactly; the first is right, later ones carry the age of their predecessor (witness in binary32)."
  },
  {
   "property": "C25",
   "status": "proved",
   "theorems": [
    "C25_hard_sphere",
    "C25_coulomb",
    "C25_takizuka_abe",
    "C25_one_sided",
    "C25_takizuka_abe_one_sided",
    "C25_fluid",
    "C25_hard_sphere_angle",
    "C25_coulomb_angle",
    "C25_takizuka_abe_angle",
    "C25_comoving_refuted"
   ],
   "note": "Kernels over the reals with the guard constant as a parameter; cosine and sine of the Takizuka-Abe angle enter as a point of the unit circle. Momenta are u/c per particle mass, so the energy statement is the non-relativistic one. The NaN of comoving partners is a binary32 witness."
  },
  {
   "property": "C26",
   "status": "proved",
   "theorems": [
    "C26_two_species",
    "C26_one_species",
    "C26_shuffle",
    "C26_shuffle_defined",
    "C26_shuffle_uniform"
   ],
   "note": "Pair lists and Fisher-Yates shuffle as executed; the pairing does not depend on the kernel."
  },
  {
   "property": "C27",
   "status": "proved",
   "theorems": [
    "C27_in_voxel",
    "C27_small_voxels",
    "C27_uniform",
    "C27_large_voxel_refuted",
    "C27_pair_count",
    "C27_pair_count_refuted"
   ],
   "note": "Exact condition for all counts, with the failing count 65536 as witness; pair counts in int with overflow as a separate outcome."
  },
  {
   "property": "C28",
   "status": "proved",
   "theorems": [
    "C28_striping",
    "C28_unary_visits",
    "C28_never",
    "C28_always",
    "C28_lighter_updated",
    "C28_heavier_fraction",
    "C28_nan_rate_refuted"
   ],
   "note": "Striping and thresholds in integers and binary32; the fraction of heavier-particle updates in exact arithmetic. A NaN rate is shown to collide in the binary loop."
  },
  {
   "property": "C29",
   "status": "proved",
   "theorems": [
    "C29_fixed_point",
    "C29_composition",
    "C29_relaxation",
    "C29_ensemble",
    "C29_no_friction"
   ],
   "note": "Exact arithmetic over the reals; the random draw enters through its variance."
  },
  {
   "property": "C30",
   "status": "proved",
   "theorems": [
    "C30_registry",
    "C30_identifier_stable",
    "C30_identifier_never_reused",
    "C30_invalid_calls",
    "C30_not_booted",
    "C30_wraparound_refuted"
   ],
   "note": "All call sequences shorter than 2^64-1, the wrap-around of the counter is refuted separately."
  },
  {
   "property": "C31",
   "status": "proved",
   "theorems": [
    "C31_roundtrip",
    "C31_later_pointer_fails",
    "C31_species_order_refuted",
    "C31_self_pointer_refuted"
   ],
   "note": "Contents modelled as sequences of raw bytes, data blocks, strings, pointers, identifiers and symbols; the pointer conditions are exact (later pointer fails, self pointer stale)."
  },
  {
   "property": "C32",
   "status": "proved",
   "theorems": [
    "C32_truncated",
    "C32_damaged_marker",
    "C32_truncation_undetected_refuted",
    "C32_end_marker_refuted",
    "C32_sizes_refuted"
   ],
   "note": "Positive theorems for damaged markers and truncation, witnesses for the undetected damage."
  },
  {
   "property": "C33",
   "status": "proved",
   "theorems": [
    "C33_float_values",
    "C33_double_values",
    "C33_float_intervals",
    "C33_double_intervals",
    "C33_float_equidistributed",
    "C33_double_equidistributed",
    "C33_integer_range",
    "C33_signed_equidistributed"
   ],
   "note": "Every word; float operations executed with IEEE rounding. The closed generators give half weight to the two end points, as documented in the code."
  },
  {
   "property": "C34",
   "status": "proved",
   "theorems": [
    "C34_one_draw",
    "C34_no_byte_twice"
   ],
   "note": "Any sequence of draws of 1, 2, 4 and 8 bytes from any cursor."
  },
  {
   "property": "C35",
   "status": "proved",
   "theorems": [
    "C35_adjust",
    "C35_seed_certified"
   ],
   "note": "Any parity vector with a nonzero word; the full period itself (a property of the SFMT parameters) is not proved, only its parity certificate."
  },
  {
   "property": "C36",
   "status": "proved",
   "theorems": [
    "C36_unsync_seeds_distinct",
    "C36_sync_seeds_same",
    "C36_sync_unsync_disjoint",
    "C36_states_distinct",
    "C36_pool_sizes_differ_refuted"
   ],
   "note": "Also the resulting generator states are distinct. For pools of different sizes different user seeds can collide (witness)."
  },
  {
   "property": "C37",
   "status": "proved",
   "theorems": [
    "C37_permutation",
    "C37_uniform",
    "C37_draw_uniform",
    "C37_rejections",
    "C37_no_overflow",
    "C37_overflow_refuted"
   ],
   "note": "Uniformity over whole permutations, counted over sequences of accepted words. Overflow witness for n = 2^31-1."
  },
  {
   "property": "C38",
   "status": "proved",
   "theorems": [
    "C38_shuffle_permutes",
    "C38_two_elements",
    "C38_offset_counts",
    "C38_six_elements",
    "C38_uniform_refuted"
   ],
   "note": "Byte-level memory model; both copy variants."
  },
  {
   "property": "C39",
   "status": "proved",
   "theorems": [
    "C39_frandn_split",
    "C39_table_in_bounds",
    "C39_frandn_uniform",
    "C39_frandn_wraps",
    "C39_drandn_split",
    "C39_drandn_uniform",
    "C39_drandn_masks_refuted"
   ],
   "note": "Only the bit splitting and table bounds; the rejection test with expf/logf is not modelled."
  },
  {
   "property": "C40",
   "status": "proved",
   "theorems": [
    "C40_each_job_once",
    "C40_calls",
    "C40_no_error",
    "C40_completes",
    "C40_halted",
    "C40_misuse",
    "C40_other_setting_refuted",
    "C40_flag_race_refuted"
   ],
   "note": "Interleaving semantics of pthread back end with sequentially consistent memory and spurious wake-ups; every program of calls, n from 1 to MAX_PIPELINE, dispatch-to-host 0 or 1. C40_other_setting_refuted: with dispatch-to-host 2 the wait never returns. C40_flag_race_refuted: the completion flags are read and written without a common mutex, so the sequential consistency used here is an assumption on the machine and compiler. Completion is proved as: from every reachable state a completed state is reachable; fairness of the scheduler is not modelled."
  },
  {
   "property": "C41",
   "status": "proved",
   "theorems": [
    "C41_at_most",
    "C41_order",
    "C41_progress",
    "C41_finishes",
    "C41_width0"
   ],
   "note": "All interleavings of all ranks over any sequence of turnstiles of widths >= 1, for sends that return early or only on receipt; C41_width0 shows that width 0 blocks every rank."
  },
  {
   "property": "C42",
   "status": "proved",
   "theorems": [
    "C42_sizes",
    "C42_history",
    "C42_resize",
    "C42_resize_refuted",
    "C42_ports",
    "C42_port_check_refuted",
    "C42_receive"
   ],
   "note": "All sequences of successful calls since new_mp; undefined cases (port = n_port, requests above 1636178017 bytes, resizing under a pending request) are a separate outcome, with witnesses in the _refuted theorems."
  },
  {
   "property": "C43",
   "status": "proved",
   "theorems": [
    "C43_send_has_receive",
    "C43_receive_has_one_send",
    "C43_sizes",
    "C43_ranks_go_through",
    "C43_box_is_joined",
    "C43_unequal_faces_refuted",
    "C43_one_sided_refuted"
   ],
   "note": "The exchange calls are run by an operational model with any interleaving of the ranks' calls. MPI is assumed to deliver messages of the same source, destination and tag in order and without loss. Message sizes are assumed below 2^31 bytes. One-sided joins hang and unequal face sizes fail: the two refuted witnesses."
  },
  {
   "property": "C44",
   "status": "proved",
   "theorems": [
    "C44_copies_agree",
    "C44_copies_agree_single",
    "C44_contracted_refuted",
    "C44_average",
    "C44_weighted_sum",
    "C44_rest_unchanged"
   ],
   "note": "Agreement is proved for every arithmetic with symmetric addition, so for binary32 as written; the average and the weighted sums are proved over the reals. C44_contracted_refuted: with fused multiply-add contraction and unequal cell sizes the copies differ."
  },
  {
   "property": "C45",
   "status": "proved",
   "theorems": [
    "C45_clear",
    "C45_reduce",
    "C45_summed_is_sum",
    "C45_reduce_overflow_refuted",
    "C45_unload",
    "C45_current",
    "C45_hydro",
    "C45_runs_exist"
   ],
   "note": "All interleavings of the pipeline jobs; overflow of the reduce offset on large meshes with many pipelines refuted separately. Scalar pipelines only."
  },
  {
   "property": "C46",
   "status": "proved",
   "theorems": [
    "C46_load",
    "C46_multilinear",
    "C46_edges_faces",
    "C46_no_overshoot"
   ],
   "note": "Real arithmetic; the loading theorem holds for any arithmetic. Scalar pipeline only."
  },
  {
   "property": "C47",
   "status": "proved",
   "theorems": [
    "C47_rms_div_e_weights",
    "C47_rms_sum_deterministic",
    "C47_rms_div_b_weights"
   ],
   "note": "Weights in eighths. compute_rms_div_b_err counts each cell once."
  },
  {
   "property": "C48",
   "status": "proved",
   "theorems": [
    "C48_diffusion_step",
    "C48_stable_coefficients",
    "C48_error_does_not_grow",
    "C48_clean_field_unchanged",
    "C48_single_cell_refuted"
   ],
   "note": "Away from symmetric_fields boundaries; the single-cell mesh gives NaN coefficients in binary32 (witness)."
  },
  {
   "property": "C49",
   "status": "proved",
   "theorems": [
    "C49_bounds",
    "C49_exact_relaxation",
    "C49_relaxation_exists",
    "C49_ampere",
    "C49_limits",
    "C49_vacuum_same"
   ],
   "note": "Exact arithmetic; vacuum kernels compared for material id 0 everywhere."
  },
  {
   "property": "C50",
   "status": "proved",
   "theorems": [
    "C50_species_ids",
    "C50_species_accepted",
    "C50_material_ids",
    "C50_handler_ids",
    "C50_handler_ids_not_builtin",
    "C50_handler_twice_circular",
    "C50_collision_twice_circular",
    "C50_collision_once",
    "C50_emitters"
   ],
   "note": "Heap of list nodes with explicit next pointers."
  },
  {
   "property": "C51",
   "status": "proved",
   "theorems": [
    "C51_counts",
    "C51_absorb",
    "C51_others",
    "C51_any_order_refuted"
   ],
   "note": "C51_counts and C51_absorb give the exact behaviour for histories in which every absorbed species was defined before its handler and no counter is at 2^31-1; C51_others: other handlers and counters are untouched; C51_any_order_refuted is the history in which a later species is counted outside the array."
  },
  {
   "property": "C52",
   "status": "proved",
   "theorems": [
    "C52_strip_value",
    "C52_strip_meaning",
    "C52_strip_flag"
   ],
   "note": "Any argument list and any conversion function."
  },
  {
   "property": "C53",
   "status": "proved",
   "theorems": [
    "C53_ghost_values",
    "C53_exact",
    "C53_equal_cells_single",
    "C53_rest_unchanged"
   ],
   "note": "Proved over boxes of ranks with layer-dependent sizes for any arithmetic; exactness for affine fields over R; equal-size case in binary32 for values up to 2^127."
  },
  {
   "property": "C54",
   "status": "proved",
   "theorems": [
    "C54_clear_weights_exact",
    "C54_sweep",
    "C54_run",
    "C54_layouts_agree",
    "C54_same_constants",
    "C54_gauss_every_node",
    "C54_runs_exist",
    "C54_thin_layer_refuted"
   ],
   "note": "field sweeps of ranks with ghost exchanges equal the undivided mesh's; refuted for one-cell-thick ranks with their own constants; walls: values assumed given; arithmetic abstract, Gauss over R"
  },
  {
   "property": "C55",
   "status": "proved",
   "theorems": [
    "C55_ghosts",
    "C55_defined",
    "C55_meaning",
    "C55_one_way",
    "C55_outgoing",
    "C55_again",
    "C55_twice_refuted",
    "C55_thin_absorbing_refuted",
    "C55_one_dimension_refuted"
   ],
   "note": "Point-by-point loops with the stores of earlier points visible; the arithmetic is arbitrary for C55_ghosts, exact for the meaning of the values."
  },
  {
   "property": "C56",
   "status": "proved",
   "theorems": [
    "C56_step",
    "C56_run",
    "C56_layouts_agree",
    "C56_same_constants",
    "C56_walls_kept",
    "C56_steps_exist",
    "C56_mixed_walls_refuted"
   ],
   "note": "one condition per wall of the mesh; constants of the absorbing wall common to all ranks (C56_same_constants); two cells at absorbing walls where normal E is used"
  },
  {
   "property": "C57",
   "status": "proved",
   "theorems": [
    "C57_currents",
    "C57_charges",
    "C57_bound_charges",
    "C57_defined"
   ],
   "note": "Complete for the three routines. The synchronisation between ranks that follows them is C44."
  },
  {
   "property": "C58",
   "status": "proved",
   "theorems": [
    "C58_recursion",
    "C58_inside",
    "C58_sequence"
   ],
   "note": "Complete for the portable update. The SSE2 macro itself is not modelled; its instructions are the 128-bit shifts of the specification."
  },
  {
   "property": "C59",
   "status": "proved",
   "theorems": [
    "C59_round",
    "C59_step",
    "C59_closed",
    "C59_tables"
   ],
   "note": "Exact arithmetic. Emitters, user injection and collisions between the advance and the rounds are not part of the step; what the boundary handlers inject is arbitrary. The deposit of the removed charge in rhob and the conversion of the moved charge into currents are separate properties."
  },
  {
   "property": "C60",
   "status": "proved",
   "theorems": [
    "C60_currents",
    "C60_step",
    "C60_gauss",
    "C60_boxes"
   ],
   "note": "Exact arithmetic, equal cell sizes. Without local_adjust_jf, which changes entries on walls only (C57): with walls C60_currents describes the currents before that adjustment. Emitters, injection and current sources added by the deck are outside the step. C60_gauss is for lossless materials on axes that are joined or thicker than one cell per rank."
  },
  {
   "property": "C61",
   "status": "proved",
   "theorems": [
    "C61_free",
    "C61_bound",
    "C61_gauss",
    "C61_start",
    "C61_run"
   ],
   "note": "C61_gauss, C61_start and C61_run are for boxes with all axes joined; C61_free and C61_bound for all boxes. Real arithmetic."
  },
  {
   "property": "C62",
   "status": "proved",
   "theorems": [
    "C62_particle",
    "C62_pipelines",
    "C62_world",
    "C62_copies_agree",
    "C62_copies_agree_single",
    "C62_sizes",
    "C62_physics"
   ],
   "note": "Moments in exact arithmetic with equal cells; copies agree in any arithmetic with symmetric addition (binary32 included). The copies of the pipelines are taken as reduced by C45."
  },
  {
   "property": "C63",
   "status": "proved",
   "theorems": [
    "C63_push",
    "C63_centre",
    "C63_no_magnetic_field",
    "C63_reversible",
    "C63_angle",
    "C63_displacement",
    "C63_advance"
   ],
   "note": "Boris equation, no work, reversibility, angle error bound, displacement; real arithmetic."
  },
  {
   "property": "C64",
   "status": "proved",
   "theorems": [
    "C64_energy",
    "C64_vacuum",
    "C64_work",
    "C64_bounds",
    "C64_stable",
    "C64_run",
    "C64_courant_needed"
   ],
   "note": "Real arithmetic. C64_energy and C64_vacuum are about the sums as computed on the ranks; C64_work, C64_bounds and C64_stable about the field steps on the whole mesh; C64_run joins both through C56_run. Absorbing walls (-4), conductivity and field damping are left out of the balance (they lose energy); user injection between the steps is not modelled. C64_courant_needed shows that the bound on the time step cannot be dropped."
  },
  {
   "property": "C65",
   "status": "proved",
   "theorems": [
    "C65_advance_b",
    "C65_advance_e",
    "C65_compute_curl_b",
    "C65_clean_div_b",
    "C65_vacuum",
    "C65_same_as_scalar",
    "C65_runs_exist",
    "C65_single_precision"
   ],
   "note": "Vector kernels of width 4, 8, 16 against the scalar sweeps: same memory for every interleaving. Arithmetic arbitrary (fma as product and sum); advance_b needs a-(x-y)=a+(y-x), in binary32 true unless a is -0. The vacuum kernels in real arithmetic."
  },
  {
   "property": "C66",
   "status": "proved",
   "theorems": [
    "C66_loads",
    "C66_stores",
    "C66_transposes",
    "C66_swaps",
    "C66_clear_copy_swap",
    "C66_members",
    "C66_field_members_defined",
    "C66_field_kernels",
    "C66_avx512_field_loads_fault",
    "C66_neon_store_4x8_tr_refuted",
    "C66_neon_load_4x8_tr_ignores",
    "C66_portable_swap_itself_refuted"
   ],
   "note": "loads, stores, transposes, swaps, clears and copies of all headers but v4_altivec.h; NEON store_4x8_tr is refuted, the AVX-512 loads of field members are shown undefined"
  },
  {
   "property": "C67",
   "status": "proved",
   "theorems": [
    "C67_move_p",
    "C67_shares",
    "C67_advance",
    "C67_center",
    "C67_energy",
    "C67_hydro",
    "C67_newton",
    "C67_move_p_binary32",
    "C67_shift_absorbed",
    "C67_on_face_refuted"
   ],
   "note": "Vector particle kernels equal the scalar loops (exact arithmetic, every width, pipeline and word); move_p path also bit for bit in binary32; differs on a face with zero displacement (C67_on_face_refuted)."
  },
  {
   "property": "C68",
   "status": "proved",
   "theorems": [
    "C68_replaced",
    "C68_inward",
    "C68_aging",
    "C68_wall_not_touched",
    "C68_charge",
    "C68_flux_weighted",
    "C68_inward_binary32",
    "C68_flt_min_absorbed",
    "C68_arrays",
    "C68_late_species_refuted",
    "C68_nan_refuted"
   ],
   "note": "binary32 statements are about the normal momentum and FLT_MIN; ageing, wall and charge statements are in exact arithmetic. Late species and NaN temperature: refuted with witnesses."
  },
  {
   "property": "C69",
   "status": "proved",
   "theorems": [
    "C69_round_trip",
    "C69_other_process",
    "C69_members",
    "C69_spare_coefficients",
    "C69_symbol",
    "C69_code_range",
    "C69_number_nth",
    "C69_same_size_refuted",
    "C69_user_pointer_refuted"
   ],
   "note": "Finding: sfa.cc allocates two material coefficients more than it saves, so the restored array is shorter (C69_same_size_refuted); addresses in user_global are stale after a restart (C69_user_pointer_refuted). RelayPolicy.h, a copy of the DMPPolicy.h functions for another machine, is not modelled."
  },
  {
   "property": "C70",
   "status": "proved",
   "theorems": [
    "C70_field_bands",
    "C70_hydro_bands",
    "C70_bad_strides",
    "C70_strided_points",
    "C70_last_layer_lost",
    "C70_mixed_strides_refuted",
    "C70_high_variables",
    "C70_constructed_parameters",
    "C70_extra_bits",
    "C70_extra_bits_hydro",
    "C70_node_material_refuted",
    "C70_field_interleaved",
    "C70_whole_arrays",
    "C70_hydro_interleaved",
    "C70_hydro_last_cell_refuted",
    "C70_particles",
    "C70_particles_overflow",
    "C70_header",
    "C70_step_truncated_refuted",
    "C70_groups",
    "C70_groups_refuted",
    "C70_file_names",
    "C70_species_text_refuted",
    "C70_materials_text",
    "C70_grid"
   ],
   "note": "statements that fail in the code are given as theorems on what it does instead (strided_points, last_layer_lost, high_variables, extra_bits, hydro_last_cell) or as refuted witnesses"
  },
  {
   "property": "C71",
   "status": "proved",
   "theorems": [
    "C71_initialize",
    "C71_step",
    "C71_run",
    "C71_once_a_step",
    "C71_on_interval",
    "C71_sort_first",
    "C71_loop_ends",
    "C71_loop_forever",
    "C71_totals",
    "C71_ranks_agree",
    "C71_restart",
    "C71_initial_checkpoint_refuted"
   ],
   "note": "Order of calls of advance, initialize and main against contracts in half-step times, for every configuration; interval and round counts, agreement of ranks, termination, restart. Refuted part: a checkpoint in the initial diagnostics leaves the simulation pointer NULL on restore."
  },
  {
   "property": "C72",
   "status": "proved",
   "theorems": [
    "C72_lanewise",
    "C72_complete",
    "C72_any_all",
    "C72_splat",
    "C72_shuffle",
    "C72_from_scalars",
    "C72_trilinear",
    "C72_select",
    "C72_compare",
    "C72_ieee",
    "C72_rcp_accuracy",
    "C72_rsqrt_accuracy",
    "C72_departures_refuted",
    "C72_departures_only",
    "C72_rcp_of_zero_refuted"
   ],
   "note": "All lane by lane functions of the ten headers for any float arithmetic with 0 - a = -a (a not +0 nor NaN), proved of IEEE single in every rounding mode. 22 pairs of header and function depart from the scalar operation in certain lanes; they are excluded by lane_dom and each is refuted with a witness. Accuracy of rcp and rsqrt is relative to stated bounds on the estimate and on each rounding. v4_altivec.h is not modelled."
  },
  {
   "property": "C73",
   "status": "proved",
   "theorems": [
    "C73_same_as_scalar",
    "C73_accumulators",
    "C73_hydro",
    "C73_runs_exist",
    "C73_stragglers",
    "C73_stragglers_refuted",
    "C73_unpadded_refuted"
   ],
   "note": "accumulator and hydro arrays of every vector build; the two refutations show what the padding is needed for"
  },
  {
   "property": "C74",
   "status": "proved",
   "theorems": [
    "C74_flux",
    "C74_centered",
    "C74_uniform",
    "C74_unset_floats",
    "C74_unset_floats_refuted",
    "C74_thin",
    "C74_thin_refuted",
    "C74_first_row_refuted"
   ],
   "note": "proved over the reals for one rank along x; the general claim of the comment is refuted in three ways"
  },
  {
   "property": "C75",
   "status": "proved",
   "theorems": [
    "C75_point_material",
    "C75_leave_unchanged",
    "C75_point_field",
    "C75_region_material",
    "C75_region_material_exact",
    "C75_region_material_refuted",
    "C75_region_bc",
    "C75_region_field",
    "C75_region_field_uniform",
    "C75_region_field_refuted",
    "C75_ranks_agree",
    "C75_ranks_refuted",
    "C75_volume_emitter",
    "C75_surface_emitter",
    "C75_component_decodes",
    "C75_component_refuted"
   ],
   "note": "proved; departures shown: C75_region_material_refuted (leave_unchanged for the volume still overwrites the interior), C75_region_field_refuted (equations evaluated one cell too far), C75_ranks_refuted (two ranks disagree on a shared plane in double), C75_component_refuted (COMPONENT_ID overflow beyond 2^26 voxels). set_point_region_bc does not compile and is not modelled."
  },
  {
   "property": "C76",
   "status": "proved",
   "theorems": [
    "C76_uniform_closed",
    "C76_uniform_accurate",
    "C76_uniform_open",
    "C76_uniform_open_refuted",
    "C76_uniform_dropped_refuted",
    "C76_uniform_degenerate_refuted",
    "C76_species_sizes",
    "C76_species_movers",
    "C76_species_refuted"
   ],
   "note": "closed interval and accuracy for all words; the open interval of the comment refuted with witnesses; sizes of a species, with the failure at 2^31"
  },
  {
   "property": "C77",
   "status": "proved",
   "theorems": [
    "C77_serial",
    "C77_serial_misuse",
    "C77_omp",
    "C77_omp_running",
    "C77_omp_completes",
    "C77_omp_caller_last",
    "C77_thread_caller_last_refuted",
    "C77_same_calls",
    "C77_omp_stride_refuted"
   ],
   "note": "all orders of the iterations and all team sizes; the stride of the OpenMP macro and the place of the caller's share with threads refuted with witnesses"
  },
  {
   "property": "C78",
   "status": "proved",
   "theorems": [
    "C78_courant_length",
    "C78_coefficients",
    "C78_stable",
    "C78_whole_length_refuted",
    "C78_single_cell_refuted"
   ],
   "note": "the update is exact with the rounded coefficients of the code; the growth of rounding errors inside the update is not part of it"
  },
  {
   "property": "C79",
   "status": "proved",
   "theorems": [
    "C79_file",
    "C79_defined",
    "C79_intervals",
    "C79_pieces",
    "C79_comment_name_refuted",
    "C79_long_line_refuted"
   ],
   "note": "%le is left abstract; opening the file and the messages are not modelled"
  },
  {
   "property": "C80",
   "status": "proved",
   "theorems": [
    "C80_decimal",
    "C80_restore_opens_checkpoint",
    "C80_apart",
    "C80_parallel_apart",
    "C80_fits",
    "C80_overflow_refuted",
    "C80_shared_refuted"
   ],
   "note": "the strings are free of NUL; whether the files can be opened is not modelled"
  },
  {
   "property": "C81",
   "status": "proved",
   "theorems": [
    "C81_update",
    "C81_counts",
    "C81_percent",
    "C81_no_time_refuted"
   ],
   "note": "the clock gives arbitrary times; the text of the report is not modelled"
  },
  {
   "property": "C82",
   "status": "proved",
   "theorems": [
    "C82_raw",
    "C82_raw_move",
    "C82_order",
    "C82_same_store",
    "C82_full_refuted"
   ],
   "note": "move_p is any function of the particle and its displacement; the charge left behind is not recorded"
  },
  {
   "property": "C83",
   "status": "proved",
   "theorems": [
    "C83_table",
    "C83_columns",
    "C83_rows_tell",
    "C83_append",
    "C83_collectives",
    "C83_failures",
    "C83_late_species_refuted",
    "C83_space_in_name_refuted"
   ],
   "note": "The text %e prints is an input of the model, assumed to be one word; the other text, the file and the order of the calls are modelled."
  },
  {
   "property": "C84",
   "status": "proved",
   "theorems": [
    "C84_end_of_run",
    "C84_normal_end",
    "C84_collision_params",
    "C84_reverse_order",
    "C84_openmp_refuted",
    "C84_normal_end_always_refuted"
   ],
   "note": "runs from scratch only; the functions an object registers with play no part, objects a deck registers by other means than define_ are left out"
  },
  {
   "property": "C85",
   "status": "proved",
   "theorems": [
    "C85_from_a_step",
    "C85_same_ending",
    "C85_from_initialize",
    "C85_every_checkpoint_refuted"
   ],
   "note": "same program on both sides; contents of the objects are those of C31 and C69"
  },
  {
   "property": "C86",
   "status": "proved",
   "theorems": [
    "C86_breakdown",
    "C86_defined",
    "C86_report"
   ],
   "note": "the clock and the text of the report are not modelled"
  }
 ]
}