{"id": "C01", "title": "Voxel numbering is a bijection", "statement": "For a local mesh of nx*ny*nz cells with its one-cell ghost layer, the voxel index assigned to a cell address is different for different addresses, lies in [0,(nx+2)(ny+2)(nz+2)), every index in that range is used, and the address can be recovered from the index by the division/remainder steps the charge-deposition and link-output code uses.", "quantifier": "all mesh sizes nx,ny,nz >= 1 and all cell addresses including ghosts", "why_tests_cant": "Needs every mesh size and every cell, not a sample of meshes.", "anchors": ["src/grid/grid.h VOXEL", "src/species_advance/standard/rho_p.cc accumulate_rhob", "src/boundary/link.cc link_boundary"]}
{"id": "C02", "title": "Work splitting covers a range exactly once", "statement": "Splitting N items in blocks of b over P workers plus the host (worker number P) gives ranges that are pairwise disjoint, together cover exactly 0..N-1, are in ascending order, start at a multiple of b, have sizes that are multiples of b for the workers, and leave exactly N mod b items to the host. This holds with the split points computed in IEEE-754 double precision as the code does.", "quantifier": "all N in [0,2^31), all block sizes b >= 1, all worker counts P >= 1 supported by the program, all worker ranks", "why_tests_cant": "Split points come from rounded floating point products; a single (N,b,P) where rounding goes the wrong way would skip or duplicate particles, and the input space is ~2^31 * P.", "anchors": ["src/util/util_base.h DISTRIBUTE", "src/collision/pipeline/unary_pipeline.cc", "src/collision/pipeline/langevin_pipeline.cc"]}
{"id": "C03", "title": "Voxel work splitting visits each voxel exactly once", "statement": "For every box of voxels, every bundle size and every pipeline count, walking from the assigned first voxel with the increment rule for the assigned number of voxels visits, over all pipelines plus the host, each voxel of the box exactly once and nothing outside the box, and the running linear index always equals the voxel index of the running coordinates.", "quantifier": "all boxes x0..x1,y0..y1,z0..z1 inside a mesh, bundle sizes, pipeline counts", "why_tests_cant": "Unbounded family of boxes and pipeline counts.", "anchors": ["src/grid/grid.h DISTRIBUTE_VOXELS", "src/grid/grid.h NEXT_VOXEL", "src/field_advance/standard/pipeline/advance_b_pipeline.cc"]}
{"id": "C04", "title": "Aligned allocation is in bounds, aligned and reversible", "statement": "An aligned allocation of n bytes with power-of-two alignment a returns an address that is a multiple of a, whose n bytes and whose hidden bookkeeping word both lie inside the block obtained from the system allocator, and freeing it hands exactly that block back.", "quantifier": "all n >= 1, all power-of-two alignments accepted, all addresses the system allocator may return", "why_tests_cant": "Depends on the address returned by the allocator, which a test does not control.", "anchors": ["src/util/util_base.cc util_malloc_aligned", "src/util/util_base.cc util_free_aligned", "src/util/util_base.h POW2_CEIL"]}
{"id": "C05", "title": "Particle sort is a correct stable sort with a correct voxel partition", "statement": "After a parallel sort the particle array is a permutation of what it was, particles are in ascending voxel order, the order of particles inside a voxel does not depend on anything but the input order, and partition[v]..partition[v+1] delimit exactly the particles of voxel v for every voxel up to the last cell of the mesh. This holds for every number of threads and the result is the same for every number of threads.", "quantifier": "all particle lists whose voxels are in the interior index range, all meshes, all thread counts 1..256", "why_tests_cant": "All input lists, all thread counts; a histogram race or off-by-one only shows for particular bucket boundaries.", "anchors": ["src/species_advance/standard/pipeline/sort_p_pipeline.cc sort_p_pipeline", "coarse_count_pipeline_scalar", "coarse_sort_pipeline_scalar", "subsort_pipeline_scalar"]}
{"id": "C06", "title": "Legacy serial sort is correct and terminates", "statement": "The legacy serial sort, both out of place and in place (cycle chasing), terminates, yields a permutation of the input in ascending voxel order and fills the partition so that partition[v]..partition[v+1] delimit voxel v for every voxel.", "quantifier": "all particle lists with voxel indices in range, all meshes, both modes", "why_tests_cant": "Termination and correctness of in-place cycle chasing must hold for all permutations.", "anchors": ["src/species_advance/standard/sort_p.cc sort_p (VPIC_USE_LEGACY_SORT)"]}
{"id": "C07", "title": "Partition freshness after sorting", "statement": "When a species reports that it was sorted at the current step, its voxel partition describes its current particles. This is true of the parallel sort for voxels up to the last mesh cell; the entry past the last voxel is never written by the parallel sort, and the legacy sort marks an empty species as freshly sorted while leaving the old partition in place.", "quantifier": "all species states (previous partition contents, particle counts)", "why_tests_cant": "Requires reasoning over histories: a species that had particles, was sorted, and then lost them all.", "anchors": ["src/species_advance/standard/sort_p.cc sort_p", "src/species_advance/standard/pipeline/sort_p_pipeline.cc sort_p_pipeline", "src/collision/binary.cc apply_binary_collision_model"]}
{"id": "C08", "title": "Magnetic field advance preserves the discrete divergence of B", "statement": "Advancing the magnetic field by any fraction of a step leaves the discrete divergence of B in every cell exactly unchanged (in exact arithmetic), for any electric field, any cell sizes and time step, including meshes that are one cell thick in some directions. The local boundary conditions applied afterwards keep it so in every cell that has no face on a symmetric_fields boundary; next to such a boundary the divergence can change.", "quantifier": "all fields, all mesh sizes, all cells, all coefficients", "why_tests_cant": "Universally quantified over fields on all grids.", "anchors": ["src/field_advance/standard/pipeline/advance_b_pipeline.cc advance_b_pipeline", "src/field_advance/standard/pipeline/advance_b_pipeline.h", "src/field_advance/standard/pipeline/compute_div_b_err_pipeline.cc"]}
{"id": "C09", "title": "Field sweeps update each field component exactly once", "statement": "In the magnetic and electric field advances, the divergence-cleaning sweeps and the divergence-error sweeps, the parallel interior sweep together with the leftover and boundary sweeps of the host touch every face, edge or node of the local mesh exactly once, touch nothing else, and the result does not depend on the number of pipelines or the order in which they run.", "quantifier": "all mesh sizes, all pipeline counts, all execution orders", "why_tests_cant": "Coverage of boundary cases for every mesh size, including size one, with every interleaving.", "anchors": ["src/field_advance/standard/pipeline/advance_e_pipeline.cc", "src/field_advance/standard/pipeline/advance_b_pipeline.cc", "src/field_advance/standard/pipeline/clean_div_b_pipeline.cc", "src/field_advance/standard/pipeline/clean_div_e_pipeline.cc", "src/field_advance/standard/pipeline/compute_div_e_err_pipeline.cc"]}
{"id": "C10", "title": "Electric field advance obeys Gauss's law given charge continuity", "statement": "In vacuum (single lossless material, no radiation damping), one electric field advance changes the divergence of eps*E at each interior node by exactly minus dt times the discrete divergence of the current, so that if the current satisfies the discrete continuity equation the Gauss-law error is carried along unchanged.", "quantifier": "all fields, currents and meshes", "why_tests_cant": "Identity over all real-valued fields.", "anchors": ["src/field_advance/standard/pipeline/advance_e_pipeline.cc", "src/field_advance/standard/pipeline/compute_div_e_err_pipeline.cc"]}
{"id": "C11", "title": "Particle push conserves charge", "statement": "Moving a particle along its displacement, however many cell faces it crosses, reflects from or stops at, deposits currents whose discrete divergence equals the change of the particle's trilinear charge deposition at every node (discrete continuity equation), in exact arithmetic.", "quantifier": "all start cells, positions, displacements, neighbour tables with reflecting, periodic and absorbing faces, and any number of segments", "why_tests_cant": "All trajectories; a sign or corner mistake in one of the twelve deposited currents only shows for particular geometries.", "anchors": ["src/species_advance/standard/move_p.cc move_p", "src/species_advance/standard/rho_p.cc accumulate_rho_p", "src/sf_interface/pipeline/unload_accumulator_pipeline.cc"]}
{"id": "C12", "title": "Moved particles stay inside their cell", "statement": "After a move the particle's cell-relative coordinates are within [-1,1] and its voxel is a real local cell (or, when the move stops at a domain face, the voxel and face code can be recovered exactly from the encoded index), and the displacement left over plus the displacement travelled add up to the requested displacement up to reflections.", "quantifier": "all positions in the cell, all displacements, all neighbour tables", "why_tests_cant": "Unbounded displacement/cell combinations.", "anchors": ["src/species_advance/standard/move_p.cc move_p", "src/vpic/advance.cc", "src/boundary/boundary_p.cc"]}
{"id": "C13", "title": "Charge deposition adds up to the particle charge", "statement": "Depositing a particle adds a total of exactly q*w/V to the free charge density over its eight corner nodes, with non-negative weights for particles inside the cell; the bound-charge variant doubles the weight of a node once for each mesh boundary plane it lies on and for no other node.", "quantifier": "all positions, weights, charges, cells, meshes", "why_tests_cant": "All positions and all cells adjacent to mesh faces, edges, corners, including one-cell meshes.", "anchors": ["src/species_advance/standard/rho_p.cc accumulate_rho_p", "accumulate_rhob"]}
{"id": "C14", "title": "Boris rotation preserves momentum magnitude and centring is reversible", "statement": "With zero electric field the momentum update changes only the direction of the momentum, never its magnitude, for any magnetic field; un-centring and re-centring a particle list with the same fields are exact inverses of each other (exact arithmetic).", "quantifier": "all momenta, fields, charges, masses and time steps", "why_tests_cant": "Real-valued identity.", "anchors": ["src/species_advance/standard/pipeline/advance_p_pipeline.cc", "src/species_advance/standard/pipeline/center_p_pipeline.cc", "src/species_advance/standard/pipeline/uncenter_p_pipeline.cc"]}
{"id": "C15", "title": "Kinetic energy diagnostic", "statement": "The kinetic energy summed over all pipelines equals the sum over all particles of m*w*(gamma-1) for the centred momentum, whatever the number of pipelines (exact arithmetic), and is never negative for non-negative weights and mass.", "quantifier": "all particle lists, all pipeline counts", "why_tests_cant": "All particle lists and splits.", "anchors": ["src/species_advance/standard/pipeline/energy_p_pipeline.cc"]}
{"id": "C16", "title": "Mover bookkeeping of the particle advance", "statement": "After the particle advance the list of unfinished movers has strictly increasing distinct particle indices, never exceeds its capacity, and every particle that left its cell for a domain boundary is either on that list or counted as ignored; the private sub-buffers of the pipelines and of the host never overlap or overflow.", "quantifier": "all particle counts, mover capacities, pipeline counts, and all patterns of boundary hits", "why_tests_cant": "Depends on which particles hit boundaries in which pipeline; overflow only at capacity edges.", "anchors": ["src/species_advance/standard/pipeline/advance_p_pipeline.cc advance_p_pipeline"]}
{"id": "C17", "title": "Removing particles by back-filling loses nothing else", "statement": "When the particles named by the mover list are removed by copying the last particle into the hole, processing movers from last to first, exactly the listed particles disappear and every other particle survives exactly once - provided mover indices are strictly increasing; and each removed unfinished particle deposits its charge at the voxel it left.", "quantifier": "all particle arrays and all strictly increasing mover index lists", "why_tests_cant": "All subsets of indices, including ones near the end of the array.", "anchors": ["src/vpic/advance.cc advance", "src/boundary/boundary_p.cc boundary_p"]}
{"id": "C18", "title": "Boundary exchange conserves particles", "statement": "In one round of boundary processing every particle on a mover list is absorbed (its charge added to the bound charge), handed to a custom boundary handler, sent to exactly the neighbour that owns the adjoining voxel, or dropped with a warning; the receiver injects exactly the particles sent to it with the position on the matching opposite face; buffers are large enough for everything received. If the neighbour table and the domain topology agree no particle is lost, duplicated or sent outside the message buffers.", "quantifier": "all ranks, topologies, particle lists, mover lists", "why_tests_cant": "Needs all distributions of particles over faces and ranks and all buffer sizes.", "anchors": ["src/boundary/boundary_p.cc boundary_p"]}
{"id": "C19", "title": "Neighbour table of a single domain", "statement": "After sizing a grid, the neighbour of an interior cell across a face is the adjacent cell if there is one and the reflecting wall otherwise; neighbour relations between cells are symmetric; the global ids of different ranks never overlap.", "quantifier": "all mesh sizes on all ranks", "why_tests_cant": "All meshes.", "anchors": ["src/grid/ops.cc size_grid"]}
{"id": "C20", "title": "Joining domains is reciprocal", "statement": "When two ranks join a face of their grids of matching face sizes, stepping across the face from a boundary cell and stepping back returns to the same cell, and no neighbour entry other than those of that face changes; a mismatch of face sizes is reported as an error.", "quantifier": "all mesh sizes, all faces, all rank pairs", "why_tests_cant": "All meshes/faces.", "anchors": ["src/grid/ops.cc join_grid"]}
{"id": "C21", "title": "Box partition has the right global topology", "statement": "Partitioning a box over gpx*gpy*gpz ranks gives each rank a distinct domain coordinate, covers the global box without gaps or overlaps, and connects domains as a torus for periodic boxes and as an open box with walls for metal and absorbing boxes: opposite neighbours agree with each other, so walking from any global cell in any direction visits the global mesh in order.", "quantifier": "all decompositions and ranks", "why_tests_cant": "All decompositions and ranks, including a single rank neighbouring itself.", "anchors": ["src/grid/partition.cc partition_periodic_box", "partition_absorbing_box", "partition_metal_box", "RANK_TO_INDEX", "INDEX_TO_RANK"]}
{"id": "C22", "title": "Injected particles land in a valid cell on exactly one rank", "statement": "A particle injected at a position inside the local domain is placed in an interior cell with cell coordinates in [-1,1], with the cell computed in IEEE double precision as in the code; over all ranks of a partitioned box a position is accepted by exactly one rank when it is in the half-open global box, and the global upper wall is accepted exactly when that wall is not joined to a neighbour.", "quantifier": "all finite positions, all domains, all cell counts", "why_tests_cant": "Rounding at cell faces and far walls.", "anchors": ["src/vpic/misc.cc inject_particle"]}
{"id": "C23", "title": "Aging an injected particle respects mover capacity", "statement": "Injecting an aged particle never writes beyond the mover list. The code only prints a warning when the list is full and writes anyway, so this holds exactly when a free mover slot is left.", "quantifier": "all species states", "why_tests_cant": "Needs the full-list state; memory corruption is silent in tests.", "anchors": ["src/vpic/misc.cc inject_particle"]}
{"id": "C24", "title": "Emitted particle weights", "statement": "Each particle emitted from a face in one call carries the Child-Langmuir weight of that face, so the emitted charge per face is n_emit*weight. In the code the weight variable is reused for the random ageing, so it holds exactly for the first particle of a face (or when movers are exhausted) and fails for later ones.", "quantifier": "all emission counts per face, fields, random draws", "why_tests_cant": "Statistical output hides the wrong weights; needs all random streams.", "anchors": ["src/emitter/child_langmuir.cc emit_child_langmuir EMIT_PARTICLES"]}
{"id": "C25", "title": "Elastic collision kernels conserve momentum and energy", "statement": "A hard-sphere, large-angle Coulomb or Takizuka-Abe collision that updates both partners leaves total momentum unchanged and leaves the magnitude of the relative momentum unchanged, for every random draw (exact arithmetic; with the smallest-normal guard constant the squared relative momentum may shrink by at most 3/2 of that constant); updating one partner leaves the other untouched. The Takizuka-Abe kernel has no guard for partners with equal momenta and yields NaN for them when the scattering width is zero.", "quantifier": "all momenta, masses, random draws", "why_tests_cant": "All random draws and vectors.", "anchors": ["src/collision/hard_sphere.cc COMPUTE_MOMENTUM_TRANSFER", "src/collision/large_angle_coulomb.cc", "src/collision/pipeline/takizuka_abe_pipeline.cc"]}
{"id": "C26", "title": "Takizuka-Abe pairing", "statement": "In each voxel, every particle of the more numerous species takes part in exactly one collision and every particle of the other in floor or ceiling of the ratio; within one species every particle collides exactly once except the three particles of the odd triple which collide with each other twice each; a lone particle does not collide. All pairs are made of particles of the same voxel, and different pipelines never touch the same voxel.", "quantifier": "all particle counts, shuffles, pipeline counts", "why_tests_cant": "All counts and parities.", "anchors": ["src/collision/pipeline/takizuka_abe_pipeline.cc takizuka_abe_pipeline_scalar"]}
{"id": "C27", "title": "Binary collision candidate sampling stays in the voxel", "statement": "Candidate indices drawn from a random word are always inside the voxel's particle range and all indices are equally likely, when the number n of the species' particles in the voxel satisfies (2^32-1) mod n < (2^32-1) div n, which includes every n up to 65535; for any other n (65536 is the first) some random word selects a particle beyond the voxel. The number of pairs, computed in int, does not overflow for up to 46340 particles of one species and does for 46341.", "quantifier": "all random words, all particle counts", "why_tests_cant": "The bad draws have probability ~2^-16 at counts of 65536 and above.", "anchors": ["src/collision/pipeline/binary_pipeline.cc binary_pipeline_scalar"]}
{"id": "C28", "title": "Collision striping and thinning", "statement": "Every voxel up to the last mesh cell is processed by exactly one pipeline and every particle is tested exactly once by unary models, independent of pipeline count; a zero rate never collides, a probability of at least one always does; the lighter-weight partner is always updated.", "quantifier": "all meshes, pipeline counts, random draws", "why_tests_cant": "All counts/draws.", "anchors": ["src/collision/pipeline/binary_pipeline.cc", "src/collision/pipeline/unary_pipeline.cc"]}
{"id": "C29", "title": "Langevin thermostat has the bath temperature as fixed point", "statement": "The decay and drive used by the Langevin operator satisfy decay^2*T+drive^2=T for T=kT/(mc), compose correctly over consecutive intervals, and give no change at zero collision frequency.", "quantifier": "all nu, kT, m, dt, interval", "why_tests_cant": "Real-analysis identity.", "anchors": ["src/collision/pipeline/langevin_pipeline.cc apply_langevin_pipeline"]}
{"id": "C30", "title": "Checkpoint object registry", "statement": "Under any sequence of registrations and unregistrations every live object has a unique non-zero id that never changes while it is registered and is never reused, lookup by id and by pointer are mutually inverse on live objects, and invalid calls are reported as errors without changing the registry.", "quantifier": "all sequences of registry operations", "why_tests_cant": "All histories.", "anchors": ["src/util/checkpt/checkpt.cc register_object", "unregister_object", "object_id", "object_ptr"]}
{"id": "C31", "title": "Checkpoint and restore round trip", "statement": "Restoring a checkpoint of any set of registered objects recreates objects with the same ids, contents, strings and pointers-to-objects (including null), provided every plain pointer refers to an object registered earlier; a pointer to an object registered later makes the restore fail with an error, which appending species in another order than they were created triggers, and a pointer of an object to itself keeps its stale old value.", "quantifier": "all object graphs and contents", "why_tests_cant": "All graphs and contents.", "anchors": ["src/util/checkpt/checkpt.cc checkpt_objects", "restore_objects", "checkpt_data", "restore_data", "checkpt_str", "restore_str", "checkpt_ptr", "restore_ptr", "src/species_advance/species_advance.cc append_species"]}
{"id": "C32", "title": "Corrupt or truncated checkpoints", "statement": "Replacing any framing word of a checkpoint by a word the reader does not accept at that place makes the restore report an error, and a restore of any proper prefix of a checkpoint either does not complete or has used bytes that never were in the file. The end of the file itself is not detected: there are truncated files that restore to data that was never written; a node marker turned into the end marker silently drops objects; damaged sizes make restore_data store beyond the allocated block.", "quantifier": "all files (prefixes and single-word corruptions)", "why_tests_cant": "All truncation points.", "anchors": ["src/util/checkpt/checkpt_io.h checkpt_read", "src/util/checkpt/checkpt.cc restore_data"]}
{"id": "C33", "title": "Random number conversions stay in their advertised interval", "statement": "For every generator word the uniform generators return values inside the documented open/half-open/closed interval on the documented lattice, integer generators return non-negative values in range, and all lattice points are reached by equally many words.", "quantifier": "all 2^32 / 2^64 words", "why_tests_cant": "Endpoints are hit with probability 2^-24..2^-53.", "anchors": ["src/util/rng/rng_private.h conv_frand", "src/util/rng/rng.cc"]}
{"id": "C34", "title": "Generator buffer is never over-read", "statement": "For every sequence of calls of generators of all widths, each draw reads bytes inside the state block, aligned to its width, the block is regenerated exactly when exhausted and no byte is used twice.", "quantifier": "all sequences of draws of mixed widths", "why_tests_cant": "All histories of mixed-width draws.", "anchors": ["src/util/rng/rng_private.h RNG_NEXT", "src/util/rng/rng.cc"]}
{"id": "C35", "title": "Seeding certifies the period", "statement": "After seeding or adjusting, the generator state satisfies the parity condition that certifies the full period, adjusting changes at most one bit, and adjusting an already certified state changes nothing.", "quantifier": "all generator states", "why_tests_cant": "All 2^11264 states.", "anchors": ["src/util/rng/rng.cc adjust_rng"]}
{"id": "C36", "title": "Distinct seeds for distinct generators", "statement": "In a pool every generator on every rank gets a different seed, and pools seeded with different user seeds get disjoint seeds, as long as the products fit in an int; synchronised pools get the same seeds on all ranks, different from every unsynchronised seed.", "quantifier": "all ranks, pool sizes, seeds", "why_tests_cant": "All combinations.", "anchors": ["src/util/rng/rng_pool.cc seed_rng_pool"]}
{"id": "C37", "title": "Random permutation", "statement": "The permutation generator always returns a permutation, and each of its index draws is uniform: every index is produced by the same number of accepted random words.", "quantifier": "all n, all random streams", "why_tests_cant": "All streams; uniformity is a counting statement over all words.", "anchors": ["src/util/rng/rng.cc randperm"]}
{"id": "C38", "title": "In-place shuffle", "statement": "The shuffle only permutes its elements. It is not uniform: because 64-bit quantities are kept in 32-bit variables, e.g. two elements are exchanged for exactly one of the 2^32 words.", "quantifier": "all arrays, all random streams", "why_tests_cant": "A single word out of 2^32 swaps.", "anchors": ["src/util/rng/rng.cc shuffle"]}
{"id": "C39", "title": "Normal generator table index and sign handling", "statement": "The index/lattice split of a random word used by the normal generators is a function of disjoint bits and the lattice value is non-negative and below its bound. For the single precision generator the combined value can wrap to zero for words with all high bits set and bit 7 set; for the double precision generator the masks overlap.", "quantifier": "all 2^32 / 2^64 words", "why_tests_cant": "Failure set has measure ~2^-25.", "anchors": ["src/util/rng/rng.cc frandn", "src/util/rng/rng.cc drandn", "src/util/rng/frandn_table.cc"]}
{"id": "C40", "title": "Thread dispatcher runs every job exactly once", "statement": "For every interleaving of host and worker threads, a dispatch followed by a wait runs each of the n pipeline jobs exactly once plus the host job exactly once, wait returns only after all of them have finished, no two dispatches overlap, and shutdown terminates all workers - with the dispatch-to-host setting 0 or 1.", "quantifier": "all interleavings, all thread counts, all sequences of dispatches", "why_tests_cant": "Interleavings.", "anchors": ["src/util/pipelines/pipelines_thread.cc thread_dispatch", "thread_wait", "pipeline_mgr", "parallel_execute"]}
{"id": "C41", "title": "Turnstile admits at most n ranks at a time and does not deadlock", "statement": "With a turnstile of width n >= 1 at most n ranks are inside the guarded section at once, every rank eventually enters, and ranks r and r+n enter in order; width 0 deadlocks.", "quantifier": "all rank counts, widths, schedules", "why_tests_cant": "All schedules.", "anchors": ["src/util/mp/mp.h BEGIN_TURNSTILE END_TURNSTILE"]}
{"id": "C42", "title": "Message buffers", "statement": "Resizing a send or receive buffer never shrinks it and preserves its contents, a receive completes only with the size that was posted, a port number equal to the number of ports is wrongly accepted by the bounds check.", "quantifier": "all sizes, ports, call sequences", "why_tests_cant": "Histories and the single out-of-range port.", "anchors": ["src/util/mp/DMPPolicy.h mp_size_recv_buffer", "mp_size_send_buffer"]}
{"id": "C43", "title": "Port numbering pairs sends with receives", "statement": "For every pair of joined ranks and every direction, the message a rank sends through a face is received by the neighbour on the opposite face with the same tag and size, every posted receive has exactly one matching send, also when a rank is its own neighbour or two ranks share two faces. Ranks that run the same exchanges never fail or hang under any interleaving of their calls, and leave no request or message behind; a face that is joined on one side only makes the exchange hang, and unequal sizes make it fail.", "quantifier": "all topologies", "why_tests_cant": "All topologies incl. self-joins.", "anchors": ["src/grid/grid_comm.cc", "src/field_advance/standard/remote.cc"]}
{"id": "C44", "title": "Shared-face synchronisation makes copies agree", "statement": "After synchronising tangential E and normal B every copy of a shared value on all ranks is identical and equal to the average of the previous copies; synchronising current and charge yields the volume-weighted sum of all contributions in every copy (for equal cells the plain sum for the free current and charge, the mean for the bound charge); every other entry is unchanged. The copies stay identical in single precision as written, but not if the compiler contracts the weighted sum to a fused multiply-add and the cell sizes differ. Includes nodes shared by four or eight ranks, by doing x, y, z in turn.", "quantifier": "all rank layouts, all values", "why_tests_cant": "All values/layouts.", "anchors": ["src/field_advance/standard/remote.cc synchronize_tang_e_norm_b", "synchronize_jf", "synchronize_rho"]}
{"id": "C45", "title": "Accumulator clear, reduce and unload", "statement": "Clearing zeroes every accumulator that particle motion inside the mesh can touch in every pipeline's copy; reducing adds the copies of all pipelines into the host copy, each exactly once, for every pipeline count for which the int offset of the last copy fits (otherwise every working pipeline overflows); unloading adds to each current component exactly the four quarter-face contributions adjacent to its edge; over a whole cycle each current component receives exactly the deposits lying on its edge and the ghost cells stay zero.", "quantifier": "all meshes, pipeline counts, accumulator contents", "why_tests_cant": "All pipeline counts/meshes.", "anchors": ["src/sf_interface/accumulator_array.cc", "src/sf_interface/pipeline/clear_array_pipeline.cc", "src/sf_interface/pipeline/reduce_array_pipeline.cc", "src/sf_interface/pipeline/unload_accumulator_pipeline.cc"]}
{"id": "C46", "title": "Interpolator reproduces edge and face values", "statement": "The interpolated E at each cell edge centre line equals the E stored on that edge and the interpolated B on each cell face equals the stored face value; inside the cell the result is the multilinear blend, so it never exceeds the stored extremes.", "quantifier": "all fields, all positions in the cell", "why_tests_cant": "Real-valued identity.", "anchors": ["src/sf_interface/pipeline/interpolator_array_pipeline.cc", "src/species_advance/standard/pipeline/advance_p_pipeline.cc"]}
{"id": "C47", "title": "RMS divergence error weights", "statement": "The weights used to average the electric divergence error over nodes sum to the number of cells, each node is counted once, with weight halved for each mesh face it lies on.", "quantifier": "all mesh sizes", "why_tests_cant": "All sizes.", "anchors": ["src/field_advance/standard/pipeline/compute_rms_div_e_err_pipeline.cc"]}
{"id": "C48", "title": "Marder cleaning is well defined and dissipative", "statement": "The divergence-cleaning pass of B changes the divergence error by a discrete diffusion step with a coefficient within the stability bound, leaves an already divergence-free field unchanged, and its coefficient is finite unless the mesh is a single cell (nx=ny=nz=1) where it divides zero by zero.", "quantifier": "all meshes and fields", "why_tests_cant": "All fields.", "anchors": ["src/field_advance/standard/pipeline/clean_div_b_pipeline.cc", "src/field_advance/standard/pipeline/compute_div_b_err_pipeline.cc"]}
{"id": "C49", "title": "Material update coefficients", "statement": "For every material the conductivity coefficients satisfy 0 <= decay <= 1 and drive >= 0, give the exact exponential relaxation of dE/dt = (c curl B - J - sigma E)/eps for constant sources over one step, and have the right limits at zero and infinite conductivity; a single-material run with the vacuum kernels gives the same fields as the general kernels.", "quantifier": "all eps, mu, sigma > = 0 and dt", "why_tests_cant": "Real analysis; both kernels.", "anchors": ["src/field_advance/standard/sfa.cc create_sfa_params", "src/field_advance/standard/pipeline/vacuum_advance_e_pipeline.cc"]}
{"id": "C50", "title": "Identifiers of species, materials and boundary handlers", "statement": "Species and materials get ids 0,1,2,... in order of definition, names are unique, lookup by name or id finds the one defined, ids are stable; particle boundary handlers get ids -3,-4,... which never collide with the built-in reflect and absorb codes and index the handler list correctly. Appending the same handler or collision operator twice makes the list circular.", "quantifier": "all definition sequences", "why_tests_cant": "Histories.", "anchors": ["src/species_advance/species_advance.cc append_species", "src/material/material.cc append_material", "src/boundary/boundary.cc append_particle_bc", "src/collision/collision.cc append_collision_op"]}
{"id": "C51", "title": "Absorb tally counts every absorbed particle in bounds", "statement": "The tally handler counts each absorbed particle under its species. The counter array is sized when the handler is created, so this holds exactly for species defined before the handler; a species defined later is counted outside the array, and the int counter overflows at the 2^31-th absorption.", "quantifier": "all orders of definitions and absorption events", "why_tests_cant": "Depends on definition order; silent memory corruption.", "anchors": ["src/boundary/absorb_tally.cc absorb_tally", "interact_absorb_tally"]}
{"id": "C52", "title": "Command line stripping", "statement": "Reading an option removes exactly that option (and its value) from the argument list, preserves the order of the remaining arguments, returns the last given value or the default, and never reads beyond the list; an option given last without value is treated as absent.", "quantifier": "all argument vectors", "why_tests_cant": "All vectors.", "anchors": ["src/util/util_base.cc strip_cmdline", "STRIP_CMDLINE"]}
{"id": "C53", "title": "Ghost values between ranks", "statement": "A ghost exchange among the ranks of a box (tangential B, normal E, div B error) can be carried out and stores in every ghost entry beside another rank the size-weighted combination of the neighbour's nearest value and the own nearest value: exactly the neighbour's value when the cells have the same size (in single precision too), the exact value of a field affine along the axis for any sizes; every other entry, in particular ghost entries at faces without neighbour, is unchanged.", "quantifier": "all boxes of ranks with layer-dependent cell counts and sizes, periodic or not, all field contents, any arithmetic for the formula", "why_tests_cant": "Many ranks, unequal sizes and self-joined ranks.", "anchors": ["src/field_advance/standard/remote.cc begin_remote_ghost_tang_b", "end_remote_ghost_tang_b", "end_remote_ghost_norm_e", "end_remote_ghost_div_b"]}
{"id": "C54", "title": "The field update does not depend on the division into ranks", "statement": "If the arrays of the ranks of a box hold a field of the whole mesh, then after any of the sweeps (advance of B and E, the two divergence errors, bound charge, the two cleaning passes), each with its ghost exchange, they hold the field that one undivided mesh would have; so any sequence of sweeps on two divisions of a periodic mesh ends with equal values at equal places, copies on shared faces included, and Gauss's law is advanced at every node of the box including those between ranks. The sweeps can always be carried out. The constants each rank works out are the same for all divisions unless some rank is one cell thick: it then drops the derivatives along that axis even though the mesh has more cells.", "quantifier": "all boxes of ranks with equal cell sizes, all sequences of sweeps, all fields, materials, numbers of pipelines, any arithmetic whose ghost weights give the neighbour's value", "why_tests_cant": "Needs all divisions of all meshes.", "anchors": ["src/field_advance/standard/remote.cc", "src/field_advance/standard/pipeline/*.cc", "src/grid/partition.cc"]}
{"id": "C55", "title": "Field values beyond a wall", "statement": "The routines that fill the ghost entries beyond faces without a neighbour (tangential B, normal E, error of div B) give each such entry the value its boundary condition asks for, worked out from the array before the routine, whatever the order of faces and points, and change nothing else: no change across a conducting wall, zero at a symmetry plane or magnetic wall, a straight line for E and zero for div B at an absorbing wall, and for B there the one way wave equation, exact for a linear wave leaving at c times 1.03527618. They end the run exactly for boundary conditions other than these four. Not so: the factor in one dimension is not 1, a second call in a step changes absorbing ghosts again, and with one cell between absorbing walls E beyond one wall depends on what was left beyond the other.", "quantifier": "all meshes of at least one cell per direction (two along an axis with an absorbing wall for E), all boundary conditions, all field contents", "why_tests_cant": "All combinations of conditions on six faces; memory of the absorbing wall.", "anchors": ["src/field_advance/standard/local.cc local_ghost_tang_b", "local_ghost_norm_e", "local_ghost_div_b"]}
{"id": "C56", "title": "The field update with walls does not depend on the division into ranks", "statement": "If the arrays of the ranks of a box with conducting, symmetry, magnetic or absorbing walls hold a field of the whole mesh, then after any of the sweeps, each with its ghost exchange, the values beyond the walls from the local routines and the adjustment at the walls, they hold the field that one undivided mesh with the same walls would have, the tangential B beyond the walls, which the absorbing wall reads again, included; so any sequence of sweeps on two divisions of one mesh ends with equal values at equal places. Every step can be carried out. What a wall stands for (tangential E zero on a conductor, normal B zero on a symmetry plane, Gauss error zero on conductors and absorbing walls) holds after each step. If two ranks give the same wall different boundary conditions, their copies of a shared edge come to differ.", "quantifier": "all boxes of ranks with equal cell sizes, all combinations of joined axes and walls, all sequences of sweeps, all fields, materials and numbers of pipelines", "why_tests_cant": "Needs all divisions of all meshes with all wall types.", "anchors": ["src/field_advance/standard/local.cc", "src/field_advance/standard/remote.cc", "src/field_advance/standard/pipeline/*.cc"]}
{"id": "C57", "title": "Currents and charges on the walls", "statement": "local_adjust_jf, local_adjust_rhof and local_adjust_rhob change exactly the entries that lie on walls of the rank: the current components along the wall and the free charge become 0 if one of the walls through the entry is a conductor and are otherwise doubled once for each wall through it (so four times on an edge and eight times at a corner of three such walls); the bound charge becomes 0 on conductors and stays as it is elsewhere. The routines end the run exactly when a wall has a boundary condition other than the four known ones.", "quantifier": "all meshes of at least one cell per direction, all boundary codes and world sizes, all field contents, any arithmetic with 0+0=0", "why_tests_cant": "All combinations of walls at faces, edges and corners.", "anchors": ["src/field_advance/standard/local.cc local_adjust_jf", "local_adjust_rhof", "local_adjust_rhob"]}
{"id": "C58", "title": "The generator state advances by the SFMT-11213 recursion", "statement": "The vectors of successive states of a random number generator form one sequence satisfying the recursion of SFMT-11213 on 128-bit numbers, with the whole-number shifts that the SSE2 code does with byte shift instructions and the portable code with pairs of word shifts; every vector is computed from the old or new vectors the recursion names. The update reads and writes only the 352 words of the state and leaves 32-bit words.", "quantifier": "all states", "why_tests_cant": "State space of 11264 bits; the two code variants are never compiled together.", "anchors": ["src/util/rng/rng_private.h SFMT", "sfmt_next"]}
{"id": "C59", "title": "Charge of all particles at every node of the mesh over a whole particle step", "statement": "Take any division of the mesh into ranks whose neighbour tables, voxel ranges and face partners belong to one mesh (the tables built by the domain set-up do, periodic and with walls). Over a whole particle step - advance_p of every species on every rank, any number of rounds of boundary_p, removal of what is left - the charge of all particles, shared among the nodes of the whole mesh and paired with any function of the nodes, changes by exactly the charge moved along mesh edges by the recorded streaks, plus what handlers inject, less the particles that stopped at boundary conditions and those removed at the end. Species charges are kept and mover lists end empty. Where only neighbours and reflecting walls occur nothing is lost on the way, and the total charge changes only by the particles removed after the last round.", "quantifier": "all layouts, node functions, particle populations, interpolated fields, numbers of rounds, mover storage limits", "why_tests_cant": "Quantifies over populations and all divisions; a particle lost or counted twice at one corner of ranks is a small local effect.", "anchors": ["src/vpic/advance.cc:47-101", "src/boundary/boundary_p.cc boundary_p", "src/species_advance/standard/advance_p.cc", "src/species_advance/standard/move_p.cc", "src/grid/partition.cc"]}
{"id": "C60", "title": "Currents of all ranks carry the charge of the particles, and Gauss's law holds over a step", "statement": "On any division of a mesh into ranks, when every rank unloads the streaks of its particles into its cleared current arrays and synchronize_jf has run, the arrays hold one current density of the whole mesh, equal in all copies, crossing no outer face, whose divergence at every node of the mesh times the time step is the charge the streaks took away from the node, per volume. For a whole particle step of a world that keeps its particles (periodic, or with walls that reflect them; the grids of the domain set-up are such) this is the change of the charge of the particles shared among the nodes, less what is removed at the end, and all particles are again in cells of their ranks. The E update of the divided mesh then changes the divergence of D at every node by exactly this charge per volume over eps0, less the damping term: Gauss's law is kept at every node. (With walls: for the currents before local_adjust_jf, which changes entries on walls only.)", "quantifier": "all layouts with equal cell sizes, all populations, interpolated fields, numbers of rounds and of pipelines, all field contents and lossless materials", "why_tests_cant": "Charge conservation to rounding at every node for every division; a current missed on one shared edge is a small local effect.", "anchors": ["src/vpic/advance.cc:47-125", "src/sf_interface/pipeline/unload_accumulator_pipeline.cc", "src/field_advance/standard/remote.cc synchronize_jf", "src/species_advance/standard/move_p.cc", "src/field_advance/standard/pipeline/advance_e_pipeline.cc", "src/grid/partition.cc"]}
{"id": "C61", "title": "Charge densities of all ranks, and Gauss's law over a run", "statement": "On any division of a mesh with equal cells into ranks: after clear_rhof, accumulate_rho_p of every species on every rank and the exchange of synchronize_rho, rhof is at every copy of every node the charge all particles of all ranks bring to the node, per cell volume. The charge of the particles removed at the end of a particle step, which accumulate_rhob adds to rhob doubled at the faces of the rank, is after the exchange added once at every copy of every node (twice on a wall, four times on an edge of walls, eight times at a corner: half volumes). On a box whose axes are all joined, a whole step - particles, currents, both B half steps, E in lossless materials, new densities - leaves the error of Gauss's law that compute_div_e_err finds at every copy of every node as it was, up to the damping term; the initialisation of rhob makes it 0; so a run without damping keeps it at 0 for any number of steps. The exchanges are those of synchronize_rho without local_adjust_rhof and local_adjust_rhob, which change entries on walls only (C57).", "quantifier": "all layouts with equal cell sizes, all populations, interpolated fields, numbers of rounds, pipelines and steps, all field contents and lossless materials", "why_tests_cant": "An error of one node in one copy grows slowly and is hidden by the divergence cleaning.", "anchors": ["src/vpic/advance.cc:47-146", "src/vpic/initialize.cc:32-39", "src/species_advance/standard/rho_p.cc", "src/field_advance/standard/remote.cc synchronize_rho", "src/field_advance/standard/compute_rhob.cc", "src/field_advance/standard/compute_div_e_err.cc"]}
{"id": "C62", "title": "Hydro moments of all ranks", "statement": "accumulate_hydro_p adds, at the eight nodes of each particle's cell, the particle's charge, current, momentum, kinetic energy and stress - computed from the momentum brought to the time of the position as center_p would - shared among the nodes as its charge is; each particle is counted exactly once for any number of pipelines. After the reduction of the pipelines' copies and synchronize_hydro_array (doubling on walls and three phases of messages), every copy of every node on every rank holds the moments of all particles of all ranks at the node, per volume of the node (a half, a quarter, an eighth of a cell on walls, edges and corners of the box). The exchange can always be carried out and leaves all copies equal, in single precision as well; kinetic energies are not negative, velocities are below c and the stress is symmetric.", "quantifier": "all layouts with equal cell sizes (copies agree: all layouts and arithmetics), populations, interpolated fields, numbers of pipelines and species", "why_tests_cant": "All populations and divisions; the dumps are compared by eye, and an error at one shared node or wall looks like noise.", "anchors": ["src/species_advance/standard/pipeline/hydro_p_pipeline.cc", "src/sf_interface/hydro_array.cc synchronize_hydro_array", "src/vpic/dump.cc dump_hydro"]}
{"id": "C63", "title": "The momentum update is the Boris scheme", "statement": "advance_p adds half the electric impulse q E at the particle's position, turns the momentum about the magnetic field there and adds the other half: with the momenta u- and u+ between the two kicks, u+ - u- = t (u- + u+) x B and |u+| = |u-|, where t is the fifth-order tangent of a = q|B|/gamma divided by |B|. The turned angle differs from the exact 2a by at most 3/7 a^7 for a up to 1/2. center_p kicks once and turns by half. Without magnetic field the momentum changes by exactly the impulse 2qE, and the update with the opposite time step leads back. A particle that stays in its cell moves by twice cdt u/gamma of its new momentum.", "quantifier": "all interpolated fields, positions, momenta, coefficients (real arithmetic)", "why_tests_cant": "A wrong sign, a lost kick or a wrong series coefficient changes orbits slowly and passes a run that only looks stable.", "anchors": ["src/species_advance/standard/pipeline/advance_p_pipeline.cc:89-170", "src/species_advance/standard/pipeline/center_p_pipeline.cc"]}
{"id": "C64", "title": "Field energy on any division into ranks, its conservation and the Courant limit", "statement": "energy_f returns for each component of E and cB, on any division of the mesh into ranks, with any number of pipelines and on every rank, eps0/2 times the volume of a cell times the sum of eps E^2 (of cB^2/mu) over the places of the whole mesh, each counted once with the part of a cell it has (half on a wall, a quarter on an edge where two walls meet); vacuum_energy_f gives the same where there is one material. One time step of the fields (half B, E, half B) with materials without conductivity, joined ends, conducting walls, symmetry planes and magnetic walls changes a quadratic form - the energy with cB^2 replaced by the product of cB half a step earlier and later - by exactly minus the work of the mean E on the currents. The form lies between 1-theta of the energy and the energy, theta being the squared Courant number times the largest 1/(mu eps); so without currents and below the Courant limit the energy the ranks report stays below 1/(1-theta) of its initial value for any number of steps. Above the limit it passes every bound.", "quantifier": "all layouts, materials, field values, walls -1/-2/-3, numbers of pipelines and of time steps (real arithmetic)", "why_tests_cant": "Energy histories are watched for blow-up; double counting on shared planes, a wrong ghost at one kind of wall or a wrong half step shows as slow drift in some division only.", "anchors": ["src/field_advance/standard/pipeline/energy_f_pipeline.cc", "src/field_advance/standard/pipeline/energy_f_pipeline.h:49-67", "src/field_advance/standard/pipeline/vacuum_energy_f_pipeline.h", "src/vpic/advance.cc:121-137"]}
{"id": "C65", "title": "Field sweeps with vector kernels", "statement": "With the 4-, 8- and 16-wide kernels each pipeline takes its share of the voxels in passes of W lanes, loads every lane of a pass before it stores any, and the remaining voxels are left to the scalar loop of the host. For any number of pipelines, any interleaving of passes and stores and any mesh size, advance_b, advance_e, compute_curl_b, clean_div_b leave exactly the memory that the scalar pipelines leave (same formulas, every place updated once, no race), and so do the vacuum kernels for one material. In single precision this needs x+y=y+x, which holds, and for advance_b that a-(x-y)=a+(y-x), which holds unless a is minus zero: there the vector kernel may give plus zero.", "quantifier": "all mesh sizes, field values, materials, numbers of pipelines, widths 4, 8, 16 and interleavings of the pipelines' passes and the host", "why_tests_cant": "Lost or doubled voxels depend on the remainder of the share modulo the width, and lanes of one pass may read what another lane writes; a run on one mesh shows none of it.", "anchors": ["src/field_advance/standard/pipeline/advance_b_pipeline_v4.cc", "src/field_advance/standard/pipeline/advance_e_pipeline_v8.cc", "src/field_advance/standard/pipeline/clean_div_b_pipeline_v16.cc", "src/field_advance/standard/pipeline/vacuum_advance_e_pipeline_v4.cc", "src/util/pipelines/pipelines_exec_pth.h:21-60"]}
{"id": "C66", "title": "Memory operations of the vector classes", "statement": "The loads, stores, transposes, swaps, clears and copies of v4, v8 and v16 - portable, SSE, AVX, AVX2, NEON and AVX-512, 186 functions - are defined exactly when their pointers have the alignment and the accessible words listed for them. A load gives lane l of vector k word k of pointer l (or the layout of its name) and leaves memory alone; a store to places that do not overlap writes exactly those words; a transpose exchanges lane and vector numbers. Calls on the members of arrays of structures are defined when the alignment divides base, structure and member, which holds for the 4- and 8-wide kernels on field_t. Not so: the AVX-512 loads the 16-wide field kernels use are undefined for any two adjoining voxels; store_4x8_tr of the NEON header does not store what load_4x8_tr loads, which itself ignores two of its pointers; the portable swap of a vector with itself clears it.", "quantifier": "all memory contents, register contents (including undefined lanes), addresses, word types", "why_tests_cant": "The wide versions run only on machines that have them, and a test on aligned buffers does not see alignment or reads past the end; a permuted lane shows only for distinct values in all places.", "anchors": ["src/util/v4/v4_sse.h", "src/util/v4/v4_neon.h:627-654", "src/util/v8/v8_avx.h", "src/util/v16/v16_avx512.h:682-760", "src/field_advance/standard/pipeline/advance_b_pipeline_v16.cc:79-110", "src/field_advance/field_advance.h:152-160"]}
{"id": "C67", "title": "Particle loops with vector kernels", "statement": "With the 4-, 8- and 16-wide kernels each pipeline takes its share of the particles in blocks of W lanes and the host takes the rest with the scalar loop: every particle is taken once. In exact arithmetic the vector advance_p leaves the same particles, the same stored movers and the same value in every word of every accumulator as the scalar loop on that share; center_p, uncenter_p, energy_p and accumulate_hydro_p give the same particles, energy and hydro moments; no increment leaves its structure and padding words stay. The vector move_p makes the same streaks through the same voxels with the same outcome as the scalar one, provided the particle is off the faces in directions in which it does not move; in binary32 it is bit for bit the same path when displacements on a face are at least 2^-99 (the shift of the denominator is absorbed by rounding). On a face with zero displacement the vector version crosses the face, or reverses the momentum at a reflecting one, and the scalar one does not. The Newton step of rsqrt and rcp squares the relative error of the estimate.", "quantifier": "all meshes and boundary tables, particles, fields, charges, numbers of pipelines and particles, widths 4, 8, 16, numbers of face crossings, binary32 values", "why_tests_cant": "Each width is compiled on its own machine and compared with another run only to rounding; a wrong shuffle in one current component, a lane left out or a remainder of the share shows up as noise in the currents.", "anchors": ["src/species_advance/standard/move_p.cc:24-211", "src/species_advance/standard/pipeline/advance_p_pipeline_v4.cc", "src/species_advance/standard/pipeline/advance_p_pipeline_v8.cc", "src/species_advance/standard/pipeline/advance_p_pipeline_v16.cc", "src/species_advance/standard/pipeline/move_outbnd_v4.inc", "src/species_advance/standard/pipeline/energy_p_pipeline_v8.cc", "src/species_advance/standard/pipeline/hydro_p_pipeline_v4.cc"]}
{"id": "C68", "title": "Refluxing particle walls", "statement": "A particle that reaches a maxwellian_reflux wall is replaced by exactly one of the same species, weight, voxel and position, for any face and any species the handler has temperatures for. Its momentum across the wall points inward with size sqrt(2 e) ut_para, so its law is the flux out of a Maxwellian (distribution 1-exp(-x^2/2ut^2)); along the wall it is ut_perp times two normal numbers on the other axes in cyclic order. It travels along its new momentum for the time the old particle had left (up to the FLT_MIN under the root), does not come to a wall of that axis again in that step when c dt is at most the cell size, and no charge is lost or gained at the wall. In binary32 the normal momentum is still finite and inward and FLT_MIN is absorbed unless |u|^2 < 2^-101. Species defined after the handler are accesses outside its arrays, and a NaN temperature is accepted.", "quantifier": "all faces, particles, displacements, cell sizes, temperatures, random numbers, neighbour tables, orders of set-up calls; binary32 values", "why_tests_cant": "A wrong sign or permutation on one face, or a displacement in the wrong units, only shows on decks with that wall and unequal cells, as slow loss of particles or charge; sampling errors look like noise.", "anchors": ["src/boundary/maxwellian_reflux.cc:57-178", "src/boundary/maxwellian_reflux.cc:211-241", "src/boundary/boundary_p.cc:314-352"]}
{"id": "C69", "title": "Checkpoint of a whole simulation", "statement": "For each of the 24 types of objects a simulation registers - pipelines and collective, generators and pools, communicator buffers, grid, the simulation itself, materials, field, interpolator, accumulator and hydro arrays, species, boundary handlers, emitters, collision models - the restore function reads exactly what its checkpt function wrote and rebuilds the object: same plain bytes, arrays with the same contents, alignment and capacity in new memory, every pointer to the restored object it pointed to, every function at its new address, absent arrays and null pointers still absent. A file of all of them is read to its last byte, and reanimation turns the nine forward pointers of vpic_simulation into pointers to restored objects. A process with another rank, number of ranks or number of pipelines gets an error. Not kept are the two spare material coefficients and the meaning of addresses a deck keeps in user_global.", "quantifier": "all objects of each type (sizes, contents, null or not), numbers and orders of objects in which pointers lead back, addresses and symbol tables of both processes, bytes following in the file", "why_tests_cant": "A member left out, restored in another order or with the wrong kind of pointer shows only after a restart that happens to use it, often as old memory that still looks right.", "anchors": ["src/vpic/vpic.cc:18-112", "src/grid/grid_structors.cc:17-41", "src/species_advance/species_advance.cc:15-43", "src/field_advance/standard/sfa.cc:97-105", "src/field_advance/standard/sfa.cc:161-187", "src/util/mp/DMPPolicy.h:40-89", "src/collision/binary.cc:37-80"]}
{"id": "C70", "title": "A dump file holds the chosen values of the chosen cells at the places its header announces", "statement": "For every mesh, every strides dividing it that are all 1 or all at least 2 and every choice of variables among the words of the structure: field_dump and hydro_dump in banded format write the 123 bytes of header and array header with each item at its fixed offset and, variable after variable in bit order, exactly the chosen word of the boundary cells and of interior cells one stride apart; the interleaved field dump, dump_fields and dump_hydro write whole structures likewise; strides that do not divide (or 0) give an error. dump_particles writes the header count and every particle once, in order and centred, and leaves the species as it was, for at most 2^31 - 32768 particles (beyond that an int overflows). dump_grid writes bc, range and neighbor whole (product of dimensions within an int). The material text determines every printed item; file names fit for steps below 10^14. Where the code departs from this the failure is exact: a stride of 1 beside another stride shifts that direction into the ghosts and loses the last interior layer; the bits 20 to 23 read past the array, and every constructed DumpParameters has them set; bits above the last variable use uninitialised entries of varlist; bit 19 (nmat) does not hold the node material; the interleaved hydro dump is the first nx ny nz elements of the ghosted array and never holds the last cell; the step is truncated to 32 bits; part of a group is not announced; the species text is ambiguous.", "quantifier": "for all meshes, strides, masks, array contents, padding sizes, particle lists, ranks, steps and header values", "why_tests_cant": "Output is checked by looking at plots of one configuration; shifted layers, overreads by four words and ambiguous texts do not show there.", "anchors": ["src/vpic/dump.cc:81-112", "src/vpic/dump.cc:138-336", "src/vpic/dump.cc:533-868", "src/vpic/dump.cc:472-520", "src/vpic/dumpmacros.h:7-69", "src/util/bitfield.h:8-96", "src/vpic/vpic.h:39-118"]}
{"id": "C71", "title": "A time step calls its operations in an order in which each finds its inputs at the time it assumes", "statement": "For every set of species, sort, cleaning, sharing and status interval, number of rounds, collision and emission models and whatever movers are left: initialize leaves E, B and positions at time 0, momenta half a step earlier and the interpolators loaded; each advance from such a state at step n calls every operation under the conditions its comments state (accumulators cleared before and reduced after the advance, movers processed before the currents are unloaded, currents shared before E is advanced with them and with B at the half step, charge complete before its error, errors fresh before cleaning, interpolators loaded after the last change of the fields) and ends in the same state at step n + 1. Sorting, cleaning and sharing happen exactly at the steps on their interval with the requested number of rounds, and sorting before anything else; a run of num_step steps does ceil(num_step / interval) of them. The loop of main ends after num_step - step steps if num_step is positive and never otherwise. All ranks call the operations that exchange messages in the same order whatever their rank, verbosity and leftover movers. A run restored from a checkpoint written at the end of any step does exactly what the uninterrupted run did afterwards. A checkpoint written by the diagnostics of initialize cannot be resumed: the pointer to the simulation is registered only later and is NULL after the restore.", "quantifier": "for all configurations, local data of the ranks, steps and lengths of the run", "why_tests_cant": "A wrong order is first order accurate instead of second or leaves stale data in rare configurations; intervals, rounds and checkpoints combine in too many ways to test.", "anchors": ["src/vpic/advance.cc:15-207", "src/vpic/initialize.cc:4-64", "deck/main.cc:13-121", "src/util/profile/profile.h:46-66"]}
{"id": "C72", "title": "Operators of the vector classes compute lane by lane the operation of the scalar type", "statement": "For each of the ten vector headers (4 lanes: portable, SSE, AVX, AVX2, NEON; 8 lanes: portable, AVX, AVX2; 16 lanes: portable, AVX-512), each of the 104 operators and functions that work lane by lane, all arguments and any float arithmetic in which 0 - a is -a for a neither +0 nor a NaN: the call is undefined exactly if the scalar int operation is undefined in some lane, and otherwise every lane of every result (also what op= and ++ leave in their operand) is that of the scalar operation, a condition being all ones or zero. All headers define the same functions, each once. any and all say whether some or every lane is not zero; splat, shuffle and the constructors from scalars put the lanes where their parameters say; trilinear gives the eight corner weights, in the same order of operations everywhere; merge, czero and notczero select by a mask; comparisons of finite floats are those of the reals and fail but for != with a NaN. rcp and rsqrt from an estimate good to 1.5 * 2^-12 are good to 5.5 and 6 times 2^-24. The statement fails, with witnesses, for exactly 22 pairs of header and function: ! of -0 where the bits are tested as int, != && || with NaNs in the 8-lane AVX headers, unary minus of +0 computed as 0 - a, copysign with a sign that is -0 or a NaN where b < 0 is tested, and clear_bits of NEON, whose operands are exchanged; rcp of 0 is a NaN where Newton's method is used and an infinity elsewhere.", "quantifier": "for all headers, functions, lane contents, shuffle indices and float arithmetics", "why_tests_cant": "Each machine runs one or two of the headers; the tests of the vector classes use a few values per operator and no NaN, -0 or overflow.", "anchors": ["src/util/v4/v4_portable.h:1-1271", "src/util/v4/v4_sse.h:1-1357", "src/util/v4/v4_avx.h:1-1317", "src/util/v4/v4_avx2.h:1-1536", "src/util/v4/v4_neon.h:1-1613", "src/util/v8/v8_portable.h:1-1781", "src/util/v8/v8_avx.h:1-1682", "src/util/v8/v8_avx2.h:1-1872", "src/util/v16/v16_portable.h:1-4247", "src/util/v16/v16_avx512.h:1-2863"]}
{"id": "C73", "title": "Vector reduce kernels leave what the scalar one leaves", "statement": "For the 4, 8 and 16 lane kernels of reduce_array, any mesh and numbers of copies and pipelines within the int range: with the padded accumulator and hydro structures of each build every access is aligned and inside the array and no index overflows, and every execution leaves in every float exactly what every execution of the scalar kernel leaves, whatever the number of pipelines of either: the reduction is deterministic, each float of an interior cell is a sum of the values of all copies, nothing else changes. It relies on the padding: with 12 floats per accumulator the 16 lane kernel makes unaligned accesses, and for a float count that is no multiple of the lanes the last floats are never reduced, since the caller's scalar clean-up has an empty share.", "quantifier": "for all arithmetics, meshes, copies, numbers of pipelines, interleavings and array contents", "why_tests_cant": "The kernels run on one vector build at a time, and lost stragglers or unaligned accesses need a structure size or mesh the tests do not have.", "anchors": ["src/sf_interface/pipeline/reduce_array_pipeline_v4.cc:10-165", "src/sf_interface/pipeline/reduce_array_pipeline_v8.cc:10-165", "src/sf_interface/pipeline/reduce_array_pipeline_v16.cc:10-165", "src/sf_interface/pipeline/reduce_array_pipeline.cc:176-233", "src/util/pipelines/pipelines_exec_pth.h:16-69", "src/sf_interface/sf_interface.h:20-52"]}
{"id": "C74", "title": "What the Poynting flux diagnostic returns", "statement": "For every mesh with at least two cells along y and z, every number of ranks along y and z, one rank along x and nonzero cvac and e0, poynting_flux returns the mean over all ranks and over the rows 2..ny, 2..nz of each of (E x cB)_x/(cvac e0)^2, with the magnetic field interpolated to the place of the electric field one cell inside the left boundary; a uniform field gives exactly its own value. It is not the flux at the left boundary in general: whenever there are two or more ranks along x, the ranks off the boundary sum floats that were never set (memset clears stride bytes, not floats), on meshes one cell thick along y or z the result is 0/0, and the first row of each rank along y and z is never counted.", "quantifier": "for all meshes, numbers of ranks, fields and normalisations, over the reals", "why_tests_cant": "The diagnostic is only compared by eye in decks; fresh memory from the allocator is usually zero, which hides the missing clearing.", "anchors": ["src/vpic/diagnostics.cc:13-81", "src/util/util_base.h:208-209"]}
{"id": "C75", "title": "Region macros of a deck set what their comments say, except two", "statement": "For every region equation, coordinates, mesh and previous contents: no region macro stores outside the field or neighbour array; set_point_region_material and set_point_region_field set exactly the members whose own location on the Yee mesh is inside the region, fields to the equation at that location; set_region_material with a volume material gives it to all interior members, the surface material to all surface members and leaves the rest alone; set_region_bc sets exactly the faces between inside cells, of inside cells towards outside ones and of outside cells towards inside ones; the emitter macros fill exactly the array they size, with each inside cell (each face of an outside cell towards an inside one) once, in a code the emitters decode, on ranks of up to 2^26 voxels. Without rounding two ranks treat the voxels they share alike. Departures shown: with leave_unchanged for the volume the interior gets the surface material; set_region_field sets the right components but evaluates the equations one cell too far along every axis where the component sits at a node; in double two ranks can disagree on the material of a shared plane; COMPONENT_ID overflows on larger ranks.", "quantifier": "for all regions, equations, meshes, coordinates and array contents", "why_tests_cant": "Decks check the result by eye on one mesh; a shift by one cell of an initial field and a disagreement in the last bit of a coordinate look like noise.", "anchors": ["deck/wrapper.h:71-148", "deck/wrapper.h:190-417", "src/emitter/emitter.h:15-29", "src/emitter/emitter.cc:92-98", "src/grid/grid.h:16", "src/grid/grid.h:84-92", "src/grid/partition.cc:58-78", "src/field_advance/field_advance.h:44-62", "src/material/material.cc:72-75", "src/boundary/boundary.cc:79-84"]}
{"id": "C76", "title": "uniform returns a number of the closed interval, and the species of a deck get the sizes it asks for", "statement": "uniform( rng, low, high ) lies in [low, high] for every word of the generator whenever high-low is at least 2^-52 of the larger end, and it is within a few units in the last place of the exact point. It lies strictly inside when low is 0, but in general the interval is not open, as its comment says and its FIXME doubts: 1 and 2 are both returned for (1,2), so that a deck that loads its rank with uniform( x0, x1 ) can lose a particle to the right neighbour. define_species allocates max(1,np) particles and max(1,nm) movers and records these capacities for whole numbers below 2^31, with max(4368, 2np/25) movers when nm is negative; at 2^31 the recorded capacity is negative.", "quantifier": "all words of the generator, all finite ends that are not almost equal; all sizes below 2^31", "why_tests_cant": "the ends are returned for a few of 2^52 draws, and the sizes beyond int are never used in a test", "anchors": ["src/vpic/vpic.h:496-517", "src/vpic/vpic.h:596-602", "src/species_advance/species_advance.cc:111-145", "src/util/rng/rng_private.h:290-298"]}
{"id": "C77", "title": "The serial and OpenMP back ends run the jobs that the thread dispatcher runs", "statement": "For every program that waits for each dispatch, the serial dispatcher and the OpenMP loop run each of the n jobs of each dispatch exactly once, with the same arguments as the thread dispatcher of C40, between the dispatch and the return of the wait; the serial one stops with an error exactly at a dispatch or halt while busy, a wait while not busy and a call after the halt; the OpenMP loop completes with any team of at least one thread. With OpenMP the caller's share is done after all jobs, with threads it may be done beside them. With one argument structure per pipeline the OpenMP macro would pass the wrong structure, because it scales the offset by the size twice; all calls in the code share one structure.", "quantifier": "all numbers of pipelines, team sizes, programs of calls and orders of the iterations", "why_tests_cant": "the order of OpenMP iterations varies from run to run and no test has a stride", "anchors": ["src/util/pipelines/pipelines_serial.cc:30-66", "src/util/pipelines/pipelines_exec_omp.h:18-95", "src/util/pipelines/pipelines_exec_pth.h:14-67"]}
{"id": "C78", "title": "The time step from courant_length keeps the field update stable, but not at the whole length", "statement": "For a box whose inverse cell sizes are between 2^-40 and 2^40 and that has an axis of more than one cell, courant_length returns 1/sqrt of the sum of (n/l)^2 over the axes with more than one cell, to 40*2^-53 relative. If the deck sets the step to cfl*courant_length/c in double with cfl between 2^-10 and 1 - 2^-19 and c between 2^-40 and 2^40, then after all roundings to float of c, the step, the inverse cell sizes and the products, the coefficients px, py, pz of advance_e have px^2 + py^2 + pz^2 < 1, the coefficients of the half advances of B are exactly half of them, and the energy of the fields in vacuum without currents stays below a fixed multiple of its start for every mesh and any number of steps. With cfl = 1 this fails: 2 cells over 29 with c = 11 give a coefficient above 1 and fields that pass every bound. A box of a single cell has an infinite Courant length.", "quantifier": "all boxes, cell counts, light speeds and fractions in the stated ranges, all ranks' cell counts up to those of the box, all meshes, fields and numbers of steps", "why_tests_cant": "Whether the rounded coefficients stay below the limit depends on the last bits of five roundings; a run shows the slow growth of one bit of excess only after very many steps.", "anchors": ["src/vpic/vpic.h:658-665", "src/vpic/vpic.h:338-349", "src/grid/partition.cc:65-67", "src/field_advance/standard/pipeline/advance_e_pipeline.h:24-26", "src/field_advance/standard/pipeline/advance_b_pipeline.h:26-28", "sample/cygnus:84"]}
{"id": "C79", "title": "The file given to modify sets what its lines say", "statement": "For a file whose lines have at most 126 characters with their newline, modify leaves the settings that the lines say one after the other: a line that starts with num_step, checkpt_interval, hydro_interval, field_interval or particle_interval, white space (or none), a sign or none and digits sets that one setting to the number (an interval below 0 becomes 0), a line that starts with quota and something %le reads sets the quota, every other line changes nothing. The outcome is undefined if and only if a line gives an integer setting a number that int cannot hold. For any file the intervals stay at 0 or above. Two expectations fail: the name num_steps of the comment is ignored, and a line of more than 126 characters goes on in a second piece that is read as a line of its own.", "quantifier": "all files, settings, and conversions %le", "why_tests_cant": "A test tries a few files; indented lines, wrong names and the tail of a long line are ignored or obeyed without a message.", "anchors": ["src/vpic/misc.cc:98-170"]}
{"id": "C80", "title": "Names of checkpoint and dump files", "statement": "A run restored with --restore base.tag opens on every rank the file that checkpt(base,tag) wrote on that rank. The names of checkpoints and of tagged dumps give back base, tag or step, and rank, so no two share a file; the names of field_dump and hydro_dump give back directory, file name (without slash), step and rank. No store leaves the arrays if the base has at most 232 characters (checkpoint), 244 (restore, grid), 224 (dump) or 251 (global header), and for field_dump and hydro_dump for any baseDir and baseFileName that fit their arrays and steps below 10^14. Each bound is sharp: one character more, or the step 10^14, overruns the array for some tag, step and rank. Untagged names do share files.", "quantifier": "all bases, directories, tags, steps and ranks", "why_tests_cant": "A test uses short names and few ranks; an overrun needs a long path together with many digits, and a clash of names silently overwrites data.", "anchors": ["deck/main.cc:47-54", "deck/main.cc:84-85", "src/vpic/dump.cc:140-147", "src/vpic/dump.cc:186-195", "src/vpic/dump.cc:228-251", "src/vpic/dump.cc:279-296", "src/vpic/dump.cc:411-412", "src/vpic/dump.cc:538-558", "src/vpic/dump.cc:713-734", "src/vpic/vpic.h:114-116"]}
{"id": "C81", "title": "Profile timers count every call and report shares between 0 and 100 percent", "statement": "update_profile adds the time and the calls of each timer since the last update to its totals and clears them, so over any run of TOC and update_profile the current and total count of a timer together grow by exactly its calls. For times that are zero or between 2^-60 and 2^60 seconds, at most 2^50 timers, counts in the range of int and a total time above zero the report is defined, lists the timers that were called in the order of the table, and each percentage is between 0 and 100 and within 0.500001 of the share of the timer in the (rounded) sum. The guard against division by zero covers the sum since the last update only: calls that took no measurable time since the start make the total 0/0 and the conversion of a NaN to int undefined.", "quantifier": "all tables of timers, all sequences of TOC and update_profile", "why_tests_cant": "A clock that does not advance during the first interval is rare, and rounding of shares depends on the times measured.", "anchors": ["src/util/profile/profile.cc:11-69", "src/util/profile/profile.h:58-64", "src/util/profile/profile.h:76-80"]}
{"id": "C82", "title": "Raw injection of particles", "statement": "inject_particle_raw of a list of particles, one after the other, is defined if and only if the species has room for all of them, and appends them in order. The variant with displacement, given room for the particles and a mover each, appends the particles as move_p leaves them, in order, and the movers still in use, each with the index of its particle; movers that were in strictly increasing order of their particles and pointed at existing particles stay so. inject_particle without age stores what the raw variant stores for a particle of the same momentum and weight. Nothing checks the room: a full species or a full mover list is overrun, as the comment warns.", "quantifier": "all species arrays, lists of particles, and outcomes of move_p", "why_tests_cant": "A test injects few particles into a large species; the overrun corrupts other memory without a message.", "anchors": ["src/vpic/vpic.h:540-576"]}
{"id": "C83", "title": "Table of energies: columns under their headings and the same sums on every rank", "statement": "A call of dump_energies with append 0 and any calls that append after it leave, whatever the file held before, three lines of header and one line per call in order; the words of a line are the step, the six field energies and the energy of each species, and when every call sees the same species, whose names hold no space or newline, each value stands in the column of its name. An appending call keeps the text and adds one line (without header if there was no file), and a line tells step and printed energies. Every rank takes part in the same sequence of collective sums, one of six values and one per species, and ranks other than 0 do nothing else. If the file does not open, rank 0 exits before its first sum while the others wait in theirs. A species defined between two dumps goes to the head of the list, so that its energy stands under the name of another one, and a space in a name adds a heading.", "quantifier": "all steps, species, energies, sequences of dumps and ranks; %e printing any word", "why_tests_cant": "A test reads one table of a deck with fixed species; a column that changes its meaning raises no error, and a rank that leaves a sum out hangs only on several ranks.", "anchors": ["src/vpic/dump.cc:37-77", "src/util/io/StandardIOPolicy.h:63-130", "src/species_advance/species_advance.cc:94-108"]}
{"id": "C84", "title": "End of a run: what is still registered when the checkpoint service halts", "statement": "From boot_services to halt_services of a run from scratch, for each way to thread and any sequence of define_ calls of the deck with all objects at different addresses, no call of the checkpoint service fails before its halt; what is then still registered are exactly the parameters of collision operators that are objects of their own and the arrays of every define_field_array but the last, and the run ends without error if and only if there are none of these. So a deck that defines its fields once and uses no such operator ends normally, while every run with hard_sphere, hard_sphere_fluid, large_angle_coulomb or large_angle_coulomb_fluid, whose parameters are registered and never unregistered, ends in the error that objects are still registered. With pthreads the services are halted in the reverse order of their boot, in both settings; with OpenMP the helper is booted and never halted.", "quantifier": "all decks made of define_ calls, all three threading settings", "why_tests_cant": "The error comes after the last step and the message of a normal exit, when the results are already on disk; it needs a deck with one of these operators run to its end.", "anchors": ["src/util/boot.cc:14-89", "deck/main.cc:64-151", "src/vpic/vpic.cc:74-126", "src/collision/unary.cc:58-67", "src/collision/binary.cc:71-81", "src/collision/hard_sphere.cc:398", "src/util/checkpt/checkpt.cc:114-130"]}
{"id": "C85", "title": "Which checkpoints a run can continue from", "statement": "A run that restores a checkpoint written in user_diagnostics of a step, with the objects at whatever new addresses, unregisters exactly the restored objects and ends as the run that wrote it: without error if the deck lost no object (no collision parameters, fields defined once), else in the error of C84. A checkpoint written in the user_diagnostics call at the end of initialize (step 0) is written before main registers &simulation, so that for every deck the run that restores it is left with a NULL simulation and calls its members.", "quantifier": "all decks made of define_ calls, all three threading settings, all addresses of restored objects", "why_tests_cant": "Decks usually checkpoint after step 0 only; a checkpoint of step 0 is written without complaint and fails when it is needed.", "anchors": ["deck/main.cc:16", "deck/main.cc:35-39", "deck/main.cc:70-104", "src/vpic/initialize.cc:58-60", "src/util/checkpt/checkpt.cc:239-325"]}
{"id": "C86", "title": "Report of the time a run took", "statement": "The weeks, days, hours, minutes and seconds that main prints are defined exactly if the elapsed time is finite and its whole seconds fit int, no intermediate product or difference overflows, and they are the unique way to write these seconds with days below 7, hours below 24, minutes and seconds below 60; if the clock was set back during the run every part is the opposite of the part for the opposite time.", "quantifier": "all elapsed times", "why_tests_cant": "The carry between units shows only in runs of days or weeks.", "anchors": ["deck/main.cc:117-137"]}
