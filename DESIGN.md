# Formal model of SixTrackLib in Rocq: design

Source: /repo (SixTrackLib, pinned commit). The code is read as text; nothing is built or run.
All Rocq files are in `rocq/theories`, logical name `Verif`.

## Method

* The model is a set of total, computable Gallina functions, one per modelled C/C++ function.
  Each definition has a comment citing the file and lines it models and every simplification.
* Numeric attribute values (`double`) are handled at two levels:
  * *generic*: an arbitrary type `T` with an arbitrary record of operations (`+`, `*`, `sqrt`, `<`, ...).
    Theorems proved here hold bit for bit for IEEE doubles, because nothing is assumed of the operations
    (turn composition, independence, opt = plain kernels, copy laws, loss bookkeeping, ...).
  * *real*: the same functions instantiated with Coq's real numbers `R`. Theorems about physics/algebra
    (drift composition, energy consistency, symplecticity, interpolation, ...) are proved here, rounding is
    not modelled.
* Integers: `Z`, with explicit wrap-around where the property is about overflow.
* Memory: a managed buffer is modelled as a base address and a list of 8-byte words (slot size 8, the
  library default); out-of-range or misaligned access is a distinct error outcome (`None`).
* Each property's statement is in a `Properties*.v` file, with `Print Assumptions` and an `Example`
  showing that the hypotheses are met by a concrete non-trivial case.
* Where the code violates a property, the violation is proved (`..._refuted`) and listed under *Findings*;
  the part that does hold is proved beside it.

## Properties: what is modelled and how it is proved

| id | model | proof idea |
|----|-------|------------|
| C01 | managed buffer words, add_object, object index | abstraction function buffer -> list of abstract objects; add refines list append, a write to a word of an object changes this word of the list; induction over histories of additions, writes, removals and operations that keep the objects |
| C02, C03 | remap of header/slots/objects/dataptrs/garbage | refinement: abstract contents read from relocated+remapped words equal the old ones |
| C04, C05 | reserve (managed + generic) | section moves preserve words modulo shift; failure path refuted where it corrupts |
| C06 | section offsets, well-formedness invariant | invariant over init/reserve/add/clear |
| C07 | clear | invariant + equality with fresh buffer up to zeroed slots |
| C08 | get_const_object | off-by-one refuted; exactness below the bound proved |
| C09 | normalise + init from bytes | corollary of C02 (relocation both ways) |
| C10 | mem pool | invariant over operation lists |
| C11 | gcd/lcm loops | well-founded recursion, Z.gcd/Z.lcm |
| C12 | assign-address items on word memories | frame lemma, commutation, permutation of item list |
| C13 | compare_less | lexicographic order on 8 fields |
| C14, C15 | particle sets as 21 attribute arrays | pointwise lemmas, generic T |
| C16 | global index lookup over list of sets | induction on the list |
| C17 | min/max loops | fold invariants |
| C18, C19, C20, C35 | tracking loops over an arbitrary element map | induction on turns/elements |
| C21, C22 | kernels: strides, work-items, local copies | permutation/partition of index sets, locality |
| C23 | elem-by-elem loop with output store | loop simulation |
| C24, C25, C26 | elem-by-elem config arithmetic | div/mod |
| C27, C28 | beam monitor index, output preparation | div/mod, refutation of particle order |
| C29 | aperture maps | case analysis; float instance via Flocq binary64 for NaN |
| C30-C34 | element maps over R | field/ring, Coquelicot derivatives for Jacobians |
| C36 | debug register on Z with bit operations | bit lemmas |
| C37 | multipole setters, factorial | list update lemmas; refutation of factorial 11 |
| C38 | interpolation prepare/evaluate | Thomas algorithm invariant, derivatives |
| C39 | tricub coefficients (transcribed) | ring on each corner |
| C40 | buffer store state machine with heap of live buffers | invariant, refutation for copy assignment |
| C41 | decimal printing/parsing of ids, ordering | induction on digits |
| C42 | flag operations | bit lemmas |
| C43 | reference attributes through the tracking loops | relation preserved by every element map, induction over turns |
| C44, C45 | duplicate detection (merge sort), clear and preset of sets | sortedness/permutation of the merge sort; pointwise array lemmas |
| C46 | BeamMonitor_has_turn_stored against the stores of a tracked history | div/mod, history lemma of C27 |
| C47 | stored buffers of a track job over a heap of buffers | invariant over histories; refuted for job copy/move assignment |
| C48 | RF multipole kick over R | Coquelicot derivatives of the potential; refuted energy kick |
| C49 | clear/preset settings, build-time map modes | case analysis, real identities |
| C50 | boost, inverse boost, slices, field routine over R | matrix inverse by nsatz, definedness of the continued fraction |
| C51 | Gaussian field over R | derivatives of the closed form of the round field; symmetry of the Faddeeva routine |
| C52 | 4D beam-beam kick over R | closed form of the kick; witness for the velocity |
| C53 | propagation of the sigma matrix over R | half-angle identities; derivatives |
| C54 | the copy loop over the entries of the source buffer, add_copy of every element | the words and arrays read from the source are those of its objects; induction over the range with C01, C05 |
| C55 | num_slots, num_dataptrs of every element with 64-bit wrap-around | sizes of the stored object; induction over the range |
| C56 | string objects: bytes inside words, add, copy, assign, append, clear, lengths | a byte write is a word write to an object (C01); induction over characters, then over sequences of operations |
| C57 | node controllers: list of nodes, default and selected pointers, id text array, flags | refinement to a list with a chosen index; induction over calls |
| C58 | particle sets of a CPU job: choice of sets, offsets, the three ways of tracking, reset, selectParticleSet | induction over index lists and sets; schedules of C21; refutations for counts, invalid sets, reset and select |
| C59 | particle sets in buffers (add, copy, get/set values, counts) and the tables of their addresses (prepare, store, remap, compare, clear) | over the reachable buffers of C01-C03; induction over the objects; refutations for compare and clear on buffers with other objects |
| C60 | differences and maxima of particle sets and buffers, clearing | arrays over any arithmetic, maxima over the reals; induction over the particles and the objects; refutations for maxima when the destination has another size and for whole buffers |
| C61 | device arguments: reserving, sending, remapping on the device, receiving | refinement to lists of objects: invariant (the block on the device is a remapped image of the objects) over histories of transfers and writes; refutations for arguments used for several buffers or raw memory, for region updates and for unreported remap failures |
| C62 | the older job (C, Python): choice of sets, constructors, reset, tracking; assigning another output buffer (both jobs) | reuse of C58 (tracking) and of the setup lemmas of C26/C28; the assignment is shown to be a new setup for the number of turns; refutations for single indices, empty sets, stale totals and late first turns |
| C63 | kernel configurations (setters, update, default configurations), thread numbers of CUDA grids, sizes of OpenCL launches | arithmetic of rounding and of mixed radix numbers with explicit 32 and 64 bit wrap-around; combined with the launches of C21; refutations for thread counts, totals, two and three dimensions, stale grids and ignored group sizes |
| C64 | jobs on a device: construction of arguments from buffers, reset of a CUDA job, push and collect | invariant over the five parts of the job on top of C61; exact conditions for what a reset leaves on the device and reports; refinement of histories; refutations for particles missing after a successful reset, lost failures and assignments replaced by transfers |
| C65 | array objects of buffer_array_object.h on the memory block of a buffer | the words of an array object as a view of a list of elements; every operation refines the list operation; induction over the appended elements for the rollback; refutations of append, append of several and removal of several elements |
| C66 | X_new and X_add of all beam elements, on the model of Buffer_add_object | for every call: the words handed to Buffer_add_object are those of the wanted element, then the theorems on adding objects; tests on doubles as tests on bit patterns, proved equal to Flocq's comparisons; refutations for 6D beam-beam elements, line densities, new q-Gaussians and field maps with huge planes |
| C67 | BeamElements_add_new_to_buffer on the models of the calls that create elements and of lines in buffers | one element: the call for its kind with the sizes read from the line, then C66's lemmas; induction over the line; statuses of beam-beam, space-charge, monitor, aperture and dipole edge elements are inverted, so the theorem on whole lines leaves them out and refutations show the consequences |
| C68 | BeamMonitor_insert_end_of_turn_monitors (both forms) on the models of BeamMonitor_new and of writing into objects of a buffer | the new monitor is C66's default monitor, its fields are set by four writes; the turns recorded follow from the specification of monitors used in C27 and C46 |
| C69 | BeamElements_clear_object and clear_buffer as the sequence of stores of the X_clear functions into the buffer | every store is a user's write of C01 (no pointer word is touched) for elements without arrays and field maps; loop induction over the objects; the lost array addresses by example |
| C70 | can_add_object of Buffer.v (buffer.h 1395-1485) on the buffers of C01 | the answer against has_room (counts and limits of the sections), then add_object on the invariant of C01 with room; no-memory case from C05's lemma; the reported missing numbers are refuted |
| C71 | Buffer_new_detailed with the flag MEMPOOL; buffers made by it are now among the reachable buffers of all buffer properties | capacity arithmetic, then induction over the list of requests with the room of C70; two and more garbage entries are refuted |
| C72 | compute_arch.h/.c: ids of OpenCL nodes and their texts, with the decimal input and output of C20; descriptions of nodes on a heap of character blocks with bounds, every call of malloc succeeding or not | case analysis for the order; uniqueness of canonical decimal texts for printing and reading; the heap before, the released blocks and the new blocks behind it for reserve, make and the descriptions an OpenCL context makes; the exchange of two lengths in make is refuted |
| C73 | base_context.cpp/.h: the list of OpenCL nodes, the regular expression and its iterator as a search over the text, sort, unique and binary search, the descriptions on the heap of C72; platforms and devices, getenv and malloc are arguments | the search equals cutting the text at its separators (induction on its length); sortedness and membership of sort and unique; ownership of the list of descriptions as a permutation of handed-over and freed blocks |
| C74 | argument.cpp: OpenCL arguments as blocks of words with an address of their own; the context and the outcome of each command are arguments of every call; commands outside of a cl::Buffer fail | refinement to lists of objects over all histories, with the buffers of C01 to C03 and the remapping of C04; induction over the regions of an update; refutations by examples |
| C75 | base_context.cpp: programs, kernels, their parameters, times, work sizes and feature flags of an OpenCL context, selection of a node; file system, compiler and commands are arguments of every call | invariant of all reachable contexts; per-kernel refinement of every history to a fold over its own calls; times over the reals; refutations by examples |
| C76 | context.cpp/.h, track_job_cl.cpp: roles of kernels, assignment of arguments by position, tracking calls of the context and the loop over the sets of a job, on the contexts of C75; a launch is recorded as kernel, arguments and work items; outcomes of commands are arguments | refinement of every history to a view (buffers, set, number of particles) by an invariant on the parameters of every kernel; refutations by examples |
| C77 | context.cpp, base_context.cpp: constructors, default programs and kernels, switching of optimised tracking and debug mode, selection of nodes, on the contexts of C75 and C76; an installation is a file system with the kernel files and a compiler that accepts them | invariant of contexts without a node (every default program id refers to the text of the right file) kept by every history, then the kernels enabled one by one; partial: the constructor with a node id, selection by id or text (slot size), programs lost on AMD nodes and the fall-back to a default AMD node are refuted |

## Where the model is

Model files (definitions with citations), under `rocq/theories`:

| file | source modelled |
|------|-----------------|
| `Num.v`, `Particle.v` | the 21 attributes of one particle; number operations as a record |
| `Energy.v` | `particles.h`: energy, add_to_energy, update_delta (one particle) |
| `Elements.v` | `be_*/track.h`: all 18 element maps, `track/track.h` 182-584 (dispatcher with the build-time switches) |
| `Interp.v` | `internal/math_interpol.h`: linear and cubic interpolation |
| `TriCub.v`, `TriCubCoefs.v` | `be_tricub/track.h`, `coefficients.h` (generated transcription by `tools/gen_tricub.py`) |
| `BeamFields.v` | `be_beamfields/*.h`: Faddeeva routine, Gaussian fields, 4D, 6D, space charge |
| `Aperture.v`, `Defaults.v`, `Strengths.v` | setters, copies, clear/preset of elements; multipole strength accessors |
| `Binary64.v` | IEEE-754 binary64 instance of the number operations (Flocq) |
| `Track.v`, `Kernels.v`, `Threads.v` | `track/track.h` 586-822, `track.c`, kernel loops, schedules of work-items |
| `EbeConfig.v`, `Output.v` | `output/elem_by_elem_config.h`, `output/output_buffer.*`, `be_monitor/output_buffer.*`, `be_monitor.h`, the part of `track/track_job_base.cpp` that prepares output |
| `ParticleSet.v`, `ParticleIds.v` | `particles.h` copy/clear/preset, `particles/particles.c` min/max, duplicate search, index lookup (generated in part by `tools/gen_pset.py`) |
| `MBuf.v`, `Buffer.v`, `MemPool.v`, `Alignment.v` | `buffer/managed_buffer*.h`, `buffer/buffer*.{h,c}`, `buffer/mem_pool.*`, `buffer/alignment*` |
| `Lines.v` | `beam_elements.h` 222-514, 970-998, 1230-1538 (sizes and copies of lines), `num_slots`, `add_copy` of the elements |
| `Strings.v` | `buffer/buffer_string_object.h` |
| `BufferArray.v` | `buffer/buffer_array_object.h` |
| `Assign.v` | `buffer/assign_address_item*.h`, assignment items of `track_job_base.cpp` |
| `BufferStore.v` | `track/track_job_buffer_store.*`, stored buffers of `track_job_base.cpp` |
| `DebugReg.v` | `control/debug_register.h` |
| `NodeId.v` | `control/node_id.*` |
| `NodeCtrl.v` | `control/node_controller_base.cpp` (not printing, not the derived CUDA class) |
| `JobTrack.v` | particle sets of `track/track_job_base.cpp` (doSetParticleSetIndices, reset, selectParticleSet), tracking of `track/track_job_cpu.cpp` |
| `OldJob.v` | `internal/track_job_base.{h,cpp}` (doSetParticleSetIndices, constructors, reset), `internal/track_job_cpu.cpp` (tracking, by reference to `JobTrack.v`), doAssignNewOutputBuffer of both jobs |
| `LaunchConfig.v` | `control/kernel_config_base.cpp`, `cuda/control/kernel_config.cpp`, `cuda/control/default_kernel_config.c`, `cuda/cuda_tools.h`, addCudaKernelConfig, OpenCL: runKernel, calculateKernelNumWorkItems, group sizes, the sizes used by track_until etc. |
| `ParticlesBuf.v` | `particles.h` (add, add_copy, get/set of a value, counts of a buffer), `particles/particles_addr.h`, `particles/particles_addr.c` (except the debug variants) |
| `ParticleDiff.v` | `particles.h` 3128-3416 and 3828-4029: differences, maxima, same structure, clearing (a buffer is the list of its objects; iteration over the object index is a list fold; the loop of the maximum over a buffer, which does not end inside the object list, gives None) |
| `DeviceArg.v` | `control/argument_base.cpp`, `control/controller_base.cpp` 51-247, `cuda/control/argument.cpp`, `cuda/control/controller.cpp` (send, receive, remap): transfers to and from a device (a device is one block of words, with the results of cudaMalloc and cudaMemcpy as arguments; C and C++ handle of a buffer are one) |
| `DeviceJob.v` | `track/track_job_ctrl_arg_base.cpp` (doCollect, doPush), `track/track_job_base.cpp` (collect, push), `cuda/track/track_job.cpp` 1167-1760 (reset), `cuda/control/argument.cpp` 43-122: jobs on a device (what the base class does on the host during a reset is an argument; no debug register, no stored buffers) |
| `ElementAdd.v` | X_new and X_add of `be_drift.c`, `be_multipole.c`, `be_cavity.c`, `be_xyshift.c`, `be_srotation.c`, `be_dipedge.c`, `be_limit/*.c`, `be_rfmultipole.c`, `be_monitor.c`, `be_beamfields.c`, `be_tricub.c` and the presets and setters of the headers they use (the product of doubles, c_q and the aperture limits are arguments) |
| `ElementNew.v` | `beam_elements.h` 1033-1228, 1488-1512: add_single_new_to_buffer, add_new_to_buffer |
| `EndOfTurn.v` | `be_monitor.c` 295-436: end-of-turn monitors; int64 overflow is undefined |
| `LineClear.v` | `beam_elements.h` 788-966, 1540-1559 and the `X_clear` functions of the elements |
| `ComputeNode.v` | `common/context/compute_arch.h` 24-29, 273-279, 288-425, `compute_arch.c` 77-275, 337-500, 504-625, `opencl/internal/base_context.cpp` 2575-2600 (the C library: sscanf, snprintf, strncpy and the heap as functions) |
| `OclNodes.v` | `opencl/internal/base_context.cpp` 490-586 (default node, availability), 2392-2811, 2855-2905, `base_context.h` 277-350 (std::regex with the given expression, std::sort, std::unique and std::binary_search by their contracts; the recursion depth of std::regex is not modelled) |
| `OclArg.v` | `opencl/internal/argument.cpp` 27-515, the remapping kernels `managed_buffer_remap.cl` and `managed_buffer_remap_debug.cl` (exceptions of the OpenCL C++ wrapper, profiling and attachTo are not modelled) |
| `OclContext.v` | `opencl/internal/base_context.cpp` 54-106, 659-801, 880-2390, 2939-3197, `base_context.h` 940-1124 (without the lists of nodes, which are in `OclNodes.v`, printing, and the queue and buffers of OpenCL) |
| `OclTrack.v` | `opencl/internal/context.cpp` 323-1531 and 1661-1713, 1803-2025 (without the set-up, see `OclSetup.v`, and the C interface, 2411-2859), `opencl/context.h` 63-70, 261-283, `internal/track_job_cl.cpp` 1445-1634 |
| `OclSetup.v` | `opencl/internal/context.cpp` 52-319, 1476-1506, 1533-1613, 1634-1657, 1672-1801, 1869-1881, 2008-2018, 2027-2410, `opencl/internal/base_context.cpp` 733-801, 1078-1099, 2083-2105 for derived contexts |
| `Transfer.v` | collect/push/clear flags of `track/track_job_base.*` and `track_job_cpu.cpp` |

Specifications used in the statements are in `*Spec.v`, `BufferUser.v`, `TrackSpec.v`; theorems in
`Properties*.v`; everything else is proof.

### Not modelled

* OpenCL and CUDA back ends (apart from `DeviceArg.v`, `OclArg.v`, `OclNodes.v`, `OclContext.v`, `OclTrack.v` and `OclSetup.v`), `simd/`, `mpfr4/`, the
  Python bindings, the rest of the older jobs in `common/internal/track_job_base.*` (stored buffers, assignments, copies), the rest of the
  controllers (`control/*controller*`, `arch_info`), names, ids and copies of kernel configurations, arguments of
  OpenCL contexts.
* q-Gaussian normalisation (`internal/math_qgauss.h`, factor c_q): an argument of the model.
* the debug variants of `particles_addr.h`; file names and I/O errors of `fopen`/`fwrite`/`fread`
  (assumed to succeed), allocation failure inside `AssignAddressItem_add_copy`.
* C++ exceptions, performance, memory consistency of real devices, floating-point contraction.

## Trusted base

* Coq 8.16.1: the kernel, `vm_compute`, and the standard library. Libraries used: Coquelicot (derivatives),
  Flocq (binary64), and through Coquelicot the ssreflect part of mathcomp. No axiom is added in this
  development; no kernel check is switched off; there is no `Admitted`.
* The reading of the code. The model is tied to the source only by the citations in the comments.
* Modelling decisions that could hide an error:
  * doubles are an arbitrary type (theorems hold for any arithmetic), real numbers (physics; no rounding),
    or binary64 (C29, and the tests of C66);
  * 64-bit signed ids, turns and indices are unbounded integers; sizes and addresses in buffers wrap
    modulo 2^64 where the property is about it;
  * managed buffers have slot size 8 (the default) and are sequences of 8-byte words; byte strings whose
    length is no multiple of 8 occur in `store_bytes` and `ext_read` only;
  * memory is separate blocks: the caller's arrays do not overlap the buffer;
  * `malloc` is an arbitrary oracle returning 0 or a suitable address; contents of fresh memory arbitrary;
  * concurrency: one action is one element map on one particle, or one assignment item, executed atomically;
  * out-of-bounds access, division by zero and dangling pointers are the outcome `None`/`Undef`, excluded
    or exhibited by the theorems.

### Print Assumptions

`Print Assumptions` stands below every theorem in the `Properties*.v` files. All axioms listed are
those of the standard library: the real numbers (`ClassicalDedekindReals.sig_forall_dec`,
`ClassicalDedekindReals.sig_not_dec`), `functional_extensionality_dep`, and excluded middle
(`Classical_Prop.classic`), the last two through the theory of reals. Grouped by what is listed
(generated by `tools/gen_assumptions.py`):

<!-- assumptions: begin -->
**No axioms (closed under the global context)** (535 theorems):

C18_staged_tracking, C18_total, C19_lost_frozen_until_turn, C19_lost_frozen_line, C19_lost_frozen_element, C19_lost_frozen_elem_by_elem_refuted, C20_bookkeeping, C20_past_unchanged, C35_line_split, C35_line_is_one_turn, C35_line_split_refuted, C43_reference_kept, C24_injective, C24_in_capacity, C24_every_index_used, C24_recovered, C24_capacity, C24_rejected, C24_index_rejected, C25_in_capacity, C25_share, C25_keeps_latest, C14_single, C14_single_failure, C14_range, C14_range_failure, C14_set, C14_set_failure, C14_outside_refuted, C14_range_outside_refuted, C15_load_store, C15_store_load, C15_loaded, C15_negative_refuted, C16_found, C16_injective, C16_onto, C16_outside, C17_set, C17_set_empty, C17_buffer, C17_buffer_none, C17_sets, C17_sets_bad, C17_at_element, C17_at_turn, C17_id_no_check_refuted, C17_id_no_check_partial, C44_distinct, C44_duplicate, C45_clear, C45_clear_range, C45_preset, C21_particle, C21_output, C21_defined, C21_launch, C21_launch_output, C21_launch_defined, C22_kernel, C22_launch, C22_buffer, C22_debug_runs, C22_debug_rejects, C22_debug_refuted, C22_line_check_refuted, C36_store_get, C36_raise, C36_raise_any, C36_highest, C36_reset_refuted, C36_reset_all, C01_add, C01_history, C01_performs, C01_write, C01_defined, C01_room, C01_grows, C01_returns, C01_reserved_refuted, C02_remap, C02_remap_iff, C02_copy, C02_empty_array_refuted, C03_at_place, C03_twice, C04_reserve, C04_defined, C04_grows, C04_overflow_refuted, C04_capacity_refuted, C05_no_memory, C05_add_no_memory, C05_too_small, C05_same, C05_objects, C05_add_objects, C05_add_unchanged, C05_reserve_refuted, C05_add_refuted, C06_layout, C07_clear, C07_reset, C07_additions, C07_limits_refuted, C08_get, C08_number, C08_end_refuted, C09_write, C09_round_trip, C09_normalised, C09_normalised_round_trip, C09_read, C09_same_address_refuted, C09_address_zero_refuted, C10_block, C10_blocks, C10_append, C10_reserve, C10_remaining, C10_clear_aligned_refuted, C11_gcd, C11_common, C11_common_of_several, C11_overflow_refuted, C11_list_refuted, C11_log2_refuted, C12_assign, C12_status, C12_any_order, C12_work_items, C12_raw, C12_source_refuted, C12_offset_refuted, C13_order, C13_equal, C13_added, C13_kept, C13_nothing_else, C13_all_found, C13_once, C13_no_duplicates, C13_keys, C13_remove_partial, C13_remove_refuted, C13_range_refuted, C23_same_dynamics, C23_record, C23_disabled_refuted, C26_job, C26_job_none, C26_element_range, C26_element_range_refuted, C26_init_refuted, C26_init_preset_refuted, C27_inside, C27_collision, C27_distinct, C27_not_sampled, C27_not_kept, C27_record, C27_particle_ordered_partial, C27_particle_ordered_refuted, C28_until_turn, C28_elem_by_elem, C28_line, C28_defined, C28_prepare, C28_assign_iff, C28_job, C28_job_monitors, C28_trailing_refuted, C28_late_start_refuted, C28_stale_refuted, C28_particle_ordered_refuted, C46_has_turn_stored, C46_not_sampled, C46_future, C46_last_refuted, C29_frame, C29_setters, C37_bal_value, C37_copy, C37_all_bal_refuted, C37_rf_copy, C37_rf_all_phases_refuted, C41_text, C41_parse, C41_round_trip, C41_array_round_trip, C41_invalid, C41_failure_unchanged, C41_order, C41_compare, C41_setters, C41_compare_null, C41_extract, C41_extract_id, C41_format_partial, C41_format_truncation_refuted, C41_format_range_refuted, C41_format_arch_refuted, C41_compare_null_refuted, C42_independent, C42_history, C42_queries, C42_collect, C42_push, C42_single, C42_cpu, C42_reset_clears, C40_ownership_partial, C40_no_leak, C40_frame, C40_copy, C40_copy_assign_refuted, C40_moved_from_refuted, C40_take_exposed_refuted, C47_stored_buffers, C47_ids_distinct, C47_id_range, C47_copy_assign_refuted, C47_move_assign_refuted, C47_reserve_refuted, C49_switched_off, C49_skip_profile_refuted, C54_copy_partial, C54_room_partial, C54_memory_partial, C54_field_status, C54_beam_beam_6d, C54_never_copied, C55_parameters_partial, C55_reserve_partial, C55_no_slots_refuted, C54_field_refuted, C54_beam_beam_6d_refuted, C54_silent_refuted, C56_add, C56_new_from, C56_required, C56_add_long, C56_read, C56_assign, C56_assign_no, C56_append, C56_append_no, C56_clear, C56_sync, C56_history, C56_copy, C56_add_refuted, C56_copy_refuted, C56_copy_same_refuted, C57_defined, C57_history, C57_selected, C57_distinct, C57_find, C57_find_text, C57_flags_refuted, C57_failure_refuted, C57_unselect_refuted, C57_clear_refuted, C57_negative_refuted, C58_selected, C58_counts, C58_run, C58_run_default, C58_defined, C58_output, C58_not_prepared, C58_no_sets, C58_session, C58_reset, C58_reset_same, C58_reset_other, C58_default_counts_refuted, C58_invalid_refuted, C58_reset_refuted, C58_select, C58_select_refuted, C59_new, C59_add, C59_copy, C59_find, C59_counts, C59_get, C59_set, C59_prepare, C59_prepare_any, C59_store, C59_store_one, C59_store_mismatch, C59_store_stops, C59_address, C59_assign_to, C59_copy_over, C59_remap, C59_stays, C59_compare, C59_clear, C59_clear_one, C59_add_row, C59_copy_row, C59_compare_self_refuted, C59_clear_refuted, C60_difference, C60_difference_other, C60_same_structure, C60_buffers, C60_clear, C60_max_beyond_refuted, C60_buffer_max_refuted, C61_history, C61_defined, C61_send_iff, C61_receive_iff, C61_back, C61_other_buffer_refuted, C61_raw_refuted, C61_overflow_refuted, C61_update_refuted, C61_remap_unreported_refuted, C62_selected, C62_run, C62_run_default, C62_one_set_refuted, C62_reset, C62_assign, C62_assign_late, C62_assign_none, C62_empty_set_refuted, C62_reset_total_refuted, C62_assign_refuted, C62_assign_turns_refuted, C62_newer_status_refuted, C63_set_fails, C63_set_only, C63_set_one, C63_set_array, C63_set_array_other, C63_clear, C63_reset, C63_grid, C63_grid_defined, C63_ids, C63_configure, C63_track, C63_configure_assign, C63_cl_items, C63_cl_track, C63_cl_set, C63_totals, C63_threads_refuted, C63_total_refuted, C63_dimensions_refuted, C63_array_refuted, C63_needs_update_refuted, C63_stale_refuted, C63_large_refuted, C63_stride_refuted, C63_arguments_refuted, C63_fetch_refuted, C63_cl_group_refuted, C64_reset, C64_reset_all_arrive, C64_history, C64_push, C64_collect, C64_round_trip, C64_particles_missing_refuted, C64_failure_lost_refuted, C64_assignment_refuted, C65_new, C65_add, C65_copy, C65_required, C65_read, C65_element, C65_clear, C65_remove_last, C65_remove_last_empty, C65_history, C65_remove_none, C65_remove_all, C65_append_refused, C65_append_num, C65_append_refuted, C65_remove_num_refuted, C65_append_num_refuted, C65_remove_num_spill_refuted, C66_add_partial, C66_fields_partial, C66_room_partial, C66_memory_partial, C66_refused, C66_beam_beam_6d, C66_line_density, C66_q_gauss_new, C66_beam_beam_6d_refuted, C66_line_density_refuted, C66_q_gauss_new_refuted, C66_plane_refuted, C67_new_partial, C67_room_partial, C67_memory_partial, C67_status, C67_stops, C67_line_refuted, C67_silent_refuted, C68_append_partial, C68_room, C68_memory, C68_turns, C68_elsewhere, C68_position, C68_position_refuted, C69_clear_partial, C69_again, C69_as_new, C69_interpolated_refuted, C69_moved_refuted, C70_answer, C70_yes, C70_no, C70_missing_wraps, C70_missing_refuted, C71_new_partial, C71_garbage_refuted, C71_planned, C72_order, C72_order_refuted, C72_to_string, C72_to_string_unset, C72_round_trip, C72_from_string, C72_large_refuted, C72_unknown_arch_refuted, C72_negative_arch_refuted, C72_reserve, C72_free, C72_make_partial, C72_make_refuted, C72_device, C72_text, C72_print_partial, C72_print_refuted, C73_all, C73_ids, C73_available_partial, C73_empty_name_refuted, C73_find, C73_find_text, C73_find_no_id, C73_page, C73_default_partial, C73_default_none_refuted, C73_default_unnamed_refuted, C73_large_refuted, C74_history, C74_defined, C74_write_iff, C74_read_iff, C74_refers, C74_size, C74_construct, C74_update, C74_raw, C74_raw_construct, C74_reported, C74_read_back_refuted, C74_unwritten_refuted, C74_raw_connected_refuted, C74_remap_unreported_refuted, C74_debug_refuted, C75_add_code, C75_add_file, C75_programs_kept, C75_kernels, C75_find, C75_enable, C75_kernels_kept, C75_arguments, C75_argument_out_of_range, C75_reset_arguments, C75_reset_argument, C75_reset_arguments_refuted, C75_enable_again, C75_enable_again_refuted, C75_run, C75_run_unknown, C75_work_items, C75_run_overflow_refuted, C75_work_group_size, C75_flags, C75_set_flag, C75_flag_change_refuted, C75_flag_text, C75_flag_text_absent, C75_select_iff, C75_select, C75_select_once, C75_failed_select_refuted, C75_no_options_refuted, C75_debug_refuted, C75_missing_file_refuted, C75_clear, C75_report, C76_prepare, C76_history, C76_job, C76_selected_not_first_refuted, C76_single_set_refuted, C76_elem_items_refuted, C76_work_group_size_refuted, C76_no_kernel, C76_set_kernel, C76_line_kernel_refuted, C76_failed_set_refuted, C76_beam_beam, C76_beam_beam_refuted, C76_refused, C76_some_kernels, C77_new, C77_history, C77_other, C77_ready, C77_addresses, C77_addresses_refused, C77_node_id_refuted, C77_select_other_refuted, C77_amd_programs_lost_refuted, C77_default_amd_refuted.

**`ClassicalDedekindReals.sig_forall_dec`** (4 theorems):

C37_rf_phase_n, C37_rf_phase_refuted, C37_rf_all_phase_n_refuted, C37_rf_phase_s_refuted.

**`ClassicalDedekindReals.sig_forall_dec`, `ClassicalDedekindReals.sig_not_dec`, `FunctionalExtensionality.functional_extensionality_dep`** (1 theorems):

C31_consistent.

**`ClassicalDedekindReals.sig_forall_dec`, `ClassicalDedekindReals.sig_not_dec`, `Classical_Prop.classic`, `FunctionalExtensionality.functional_extensionality_dep`** (100 theorems):

C30_compose, C30_inverse, C30_straight, C30_straight_exact, C30_time_exact, C30_time, C30_lattice, C31_add_energy, C31_set_delta, C31_reported_energy_partial, C31_mass_ratio_refuted, C31_cavity, C31_tracking, C32_kick, C32_straight, C32_gradient, C33_rotation, C33_rotation_is, C33_shift, C34_element, C34_lattice, C29_rect, C29_rect_symmetric, C29_ellipse, C29_ellipse_copy, C29_rect_copy, C29_rect_ellipse, C29_ellipse_axes, C29_rect_ellipse_add, C29_rect_ellipse_clear, C29_rect_ellipse_copy_partial, C29_global, C29_degenerate_refuted, C29_rect_ellipse_setter_refuted, C29_rect_ellipse_copy_refuted, C29_conditional_refuted, C29_rect_double, C29_global_double, C29_nonfinite_double, C29_rect_ellipse_nonfinite_double, C29_ellipse_double, C29_overflow_double_refuted, C29_underflow_double_refuted, C37_knl_value, C37_ksl_value, C37_index_refused, C37_all_values, C37_arrays, C37_field, C37_coefficient, C37_eleven_refuted, C37_above_twenty_refuted, C37_wrap_refuted, C37_rf_knl, C37_rf_values, C37_rf_value_refuted, C37_rf_ksl_refuted, C37_rf_all_ksl_refuted, C39_corners, C39_unique, C39_kick, C39_smooth, C39_defined, C39_outside_refuted, C38_index, C38_extrapolate, C38_linear, C38_linear_table, C38_cubic, C38_cubic_profile, C38_outside, C38_last_step_refuted, C38_end_refuted, C38_not_a_knot_refuted, C38_slope_refuted, C48_transverse, C48_energy, C48_one_potential_partial, C48_one_potential_refuted, C49_defaults_partial, C49_dipole_edge_refuted, C49_space_charge_flag_refuted, C50_boost_inverse, C50_no_charge, C50_defined, C51_round_partial, C51_centre_refuted, C51_symmetric, C52_beam_beam_partial, C52_beam_beam_refuted, C53_axes, C53_axes_round, C53_derivatives_partial, C60_zero, C60_max, C60_max_misses_refuted, C66_float_tests, C66_limits_squared, C75_times, C75_longest_refuted.
<!-- assumptions: end -->

## Findings: where the code violates the property

Each is a theorem `..._refuted` with a concrete witness (or a statement in the theorem named).

* **Buffers.** `get_object` accepts the index equal to the number of objects (C08_end). Remapping fails when the
  last object ends with an empty array (C02_empty_array). Space reserved beforehand is not enough for an
  addition because reserve refuses unchanged limits (C01_reserved). Limits near 2^64 wrap around
  (C04_overflow). `Buffer_reserve_capacity` leaves a stale object address (C04_capacity). A failed reserve
  destroys the garbage section header (C05_reserve), a failed add leaves a stale address (C05_add). Reset
  forgets the limits (C07_limits). A file normalised to the address it is loaded at, or to 0, is not
  usable (C09_same_address, C09_address_zero); `Buffer_read_from_file` returns the inverted status (C09_read).
* **Memory pool, alignment.** `MemPool_clear_to_aligned_position` hands out memory beyond the block
  (C10_clear_aligned). The lcm overflows although the result fits (C11_overflow); the list version ignores
  its operands (C11_list); log2_floor(3) is wrong (C11_log2).
* **Address assignment.** An unresolvable source is assigned as 0 with success (C12_source); an offset near
  2^64 passes the bounds test (C12_offset); removing one item removes all items of the same pair of buffers
  (C13_remove); the begin/end accessors give empty ranges (C13_range).
* **Particle sets.** A copy to a destination index outside the set goes to the source index (C14_outside,
  C14_range_outside); negative indices are undefined behaviour (C15_negative); the id range without
  duplicate check starts from an element number (C17_id_no_check).
* **Tracking.** Element-by-element tracking moves lost particles (C19_lost_frozen_elem_by_elem); a disabled
  map fails without marking the particle (C23_disabled); line tracking in parts (C35_line_split); the debug
  kernels check wrong bounds and disagree on non-particle objects (C22_debug, C22_line_check).
* **Output.** `ElemByElemConfig_init` compares a turn number with an element id (C26_init,
  C26_init_preset); particle-ordered monitors overwrite records (C27_particle_ordered, C28_particle_ordered);
  set-up fails for legitimate lines (C28_trailing, C28_late_start); the largest element id is too small when an
  object that is no beam element lies between elements (C26_element_range); monitors keep stale output
  (C28_stale); has_turn_stored is wrong for the last turns (C46_last).
* **Apertures.** Degenerate ellipses accept everything on an axis (C29_degenerate), the rect-ellipse setter
  and copy keep a stale product (C29_rect_ellipse_setter, _copy), the conditional check compares the drift
  length with the literal 1 (C29_conditional), the product of half axes over/underflows (C29_overflow_double,
  C29_underflow_double).
* **Optics.** The energy of particles with a mass ratio different from 1 (C31_mass_ratio); RF multipole energy
  kicks lack 1/(n+1) (C48_one_potential); the default DipoleEdge kicks (C49_dipole_edge); the space-charge
  `enabled` flag is never read (C49_space_charge_flag); with space charge skipped, SCInterpolatedProfile
  loses particles (C49_skip_profile); the round-beam field has the wrong gradient at the centre
  (C51_centre); the 4D beam-beam kick uses beta0/rvv instead of beta0*rvv (C52_beam_beam).
* **Interpolation.** Particles outside the tricubic grid are kicked with unrelated data (C39_outside); line
  densities read beyond the table (C38_end, C38_last_step), the not-a-knot end is never written
  (C38_not_a_knot), the slope of the linear interpolation is zero inside the table (C38_slope).
* **Strengths.** Wrong factorials for indices 11 and 21 (C37_eleven, C37_above_twenty), wrap-around (C37_wrap),
  set_all_bal does nothing (C37_all_bal), RF setters write the wrong entries or refuse valid ones
  (C37_rf_*).
* **Control.** Resetting the architecture status clears the error flags (C36_reset); node ids are printed
  truncated, cut to 32 bit, or not parsed back (C41_format_*), comparing two NULL ids is not 0 (C41_compare_null).
* **Buffer stores.** Copy assignment between owning and lending stores, moved-from stores, taking an exposed
  buffer (C40_*); job copy/move assignment leaves the number and the list of stored buffers inconsistent,
  reserve is inverted (C47_*).
* **Beam lines.** Copying a beam-beam or space-charge element returns 1 when it succeeds and 0 when it fails, so the
  copy of a line stops behind the first one, or reports success although elements are missing (C54_field_status,
  C54_field, C54_silent); BeamBeam6D_type_id returns the type id of the 4D element, so the copy of a 6D beam-beam
  element is a 4D one (C54_beam_beam_6d); interpolated space charge and field maps are never copied (C54_never_copied); coasting and
  interpolated space charge and field maps are counted with no slots (C55_no_slots).
* **Strings.** A text with one character too many is stored without its terminating 0 (C56_add); a copy has one
  character more than the original (C56_copy); copying a string inside its own buffer reads freed memory when
  the buffer grows (C56_copy_same).
* **Node controllers.** Nodes keep saying that they are selected after another one was selected (C57_flags); a
  failed change loses the selection (C57_failure); unselectNode() and unselectNode( index ) differ about the
  default node (C57_unselect); after clear() the default node is a pointer to freed memory and the old id text is
  still reported (C57_clear); generated device ids collide with negative ids (C57_negative).  Debug builds abort
  in every direct change of the node when unselecting is not allowed (assertion in doRemoveNodeFromSelection).
* **Maxima of particle sets.** `Particles_get_max_value` looks at as many particles of the source as the destination
  has: it misses the others (C60_max_misses) or reads beyond the arrays (C60_max_beyond).  The loop over a buffer
  advances the end pointer instead of the iterator and does not end inside the object list (C60_buffer_max).
* **Device arguments.** An argument keeps referring to the first buffer when another one is sent that fits into its
  memory: receive() overwrites the first one (C61_other_buffer); after a C++ buffer, sending raw memory leaves the
  buffer referred to, and receive() overwrites it (C61_raw); with two raw regions receive() writes beyond the end of
  the first one (C61_overflow).  updateRegion changes the memory of the host instead of that of the device
  (C61_update).  Outside of debug mode a failing remap on the device is not reported (C61_remap_unreported).
* **Address tables.** Comparing a table whose first object is no row with itself gives -1 (C59_compare_self); clearing
  the addresses of a buffer reports success as soon as one object is a row (C59_clear).  After a failed addition of a
  row, preparing a table goes on with the next object; the result reports it (C59_prepare_any).
* **Jobs.** A job made without set indices tracks set 0 but reports no particles (C58_default_counts); one made for
  a set which does not exist is set up without error, as if for set 0, and cannot track (C58_invalid); resetting a
  job with another particles buffer forgets its sets (C58_reset); selectParticleSet with C++ buffers passes the
  output buffer as particles buffer, after the job deleted it if it owns it (C58_select).
* **Older jobs.** Making a job for one set by its index reads through a null pointer plus an offset for every index
  but 0 (C62_one_set); an empty set among those asked for makes the setup fail (C62_empty_set); resetting for sets
  that do not exist keeps the former total of particles (C62_reset_total).
* **Another output buffer (both jobs).** The number of turns is passed where the last turn is expected: if the
  particles start at turn t0, the last t0 turns are not covered any more (C62_assign_turns), or the configuration
  is lost while the job claims to have it and tracking element by element fails (C62_assign), or the assignment
  fails (C62_assign_none).  The newer job reports the opposite status for C++ buffers (C62_newer_status).
* **Kernel configurations.** The number of blocks computed for a track kernel is set as the number of work items and
  divided by the group size again, so there are fewer threads than particles; the loops of the kernels make up for it
  (C63_threads, C63_track).  totalNumWorkItems is always 0 (C63_total); the settings for two and three dimensions
  test for dimension one (C63_dimensions); arrays with zeros are accepted (C63_array); a configuration never needs
  an update, so a changed one is launched with the old grid (C63_needs_update, C63_stale); 2^32 blocks give an
  empty grid or a stride of 0 (C63_large, C63_stride); addCudaKernelConfig forgets the number of arguments
  (C63_arguments); OpenCL tracking ignores the group size set for the kernel (C63_cl_group).
- A reset of a CUDA job reports success although the particles did not reach the device: the status stays that of the
  address table, and later pushes cannot repair it (C64_particles_missing).  When an output buffer is needed or given,
  failures of the elements and of the kernels are lost (C64_failure_lost).  The addresses of the output that kernels
  assign to monitors on the device are replaced by the host's when the elements are pushed, and appear on the host when
  the elements are collected (C64_assignment).  Read, not stated: tracking on CUDA uses the first particle set only; the
  non-reset path joins statuses with &&, so that nothing is sent; the element by element output is assigned with the
  kernel of the monitors.
* **Arrays of elements (C65).** Every accepted `append_element` writes the bytes over the first element, records the end
  of the new element as its begin, and the array then reports length 0 (C65_append).  `append_num_elements` therefore
  accepts more elements than the capacity holds (C65_append_num).  `remove_last_num_elements` of some but not all
  elements reports success and leaves the number of elements (C65_remove_num); it clears as many bytes too many as the
  element before the first removed one has, and so overwrites the next object of the buffer (C65_remove_num_spill).
* **Creating elements (C66).** `BeamBeam6D_new` and `_add` store the type id of the 4D element (C66_beam_beam_6d_refuted).
  `LineDensityProfileData_add` stores the step width as z0 and leaves the step 1 (C66_line_density_refuted).
  `SCQGaussProfile_new` stores an uninitialised min_sigma_diff (C66_q_gauss_new_refuted).  `TriCubData_new/_add` multiply
  nx and ny as signed numbers, undefined for huge planes even with nz = 0 (C66_plane_refuted).  `TriCubData_clear`
  always reports failure (an assertion in `_preset` fails in debug builds).
* **Default elements for a line (C67).** `BeamElements_add_new_to_buffer` stops with status 1 behind the first beam-beam or
  space-charge element, monitor, aperture or dipole edge it has created (C67_stops, C67_line_refuted), and reports success
  when such an element could not be created (C67_silent_refuted).
* **End-of-turn monitors (C68).** By position, monitors cannot be put into an empty line: position 0 is always refused
  (C68_position_refuted); any position but the end is refused by design.
* **Clearing a line (C69).** Clearing a multipole, RF multipole or beam-beam element overwrites the address of its array with 0, although
  the buffer still lists it as a pointer: the line can no longer be copied, moved or extended (C69_moved_refuted). Interpolated
  space charge is not cleared at all (C69_interpolated_refuted). Clearing a field map always reports failure.
* **Set-up of OpenCL contexts (C77).** The constructor with a node id decides on optimised tracking after it has set up the
  programs: on nodes that are not AMD it looks for the optimised kernels in the program without them, and every tracking call
  fails (C77_node_id_refuted). Selecting a node by id or text never assigns the slot sizes (C77_select_other_refuted).
  Selecting an AMD node with optimised tracking switched on drops the programs of the user (C77_amd_programs_lost_refuted).
  A text for which no node is found makes the constructor take the default node, with optimised tracking even if that
  is AMD (C77_default_amd_refuted). Seen besides: assign_addresses passes the slot size of the destination for the source (C77_addresses)
  as well; the debug kernel that clears beam monitors never writes its status flag.
* **OpenCL tracking (C76).** A job whose selected particle set is not the first of its sets does not track each set once
  (C76_selected_not_first_refuted), a job of one set tracks the selected set instead (C76_single_set_refuted). Element by
  element tracking of a given set is launched for the number of particles of the selected one (C76_elem_items_refuted). The
  work group size set for a kernel is not used (C76_work_group_size_refuted). The id of the kernel of track_line is only
  found if track_until has a kernel (C76_line_kernel_refuted). A refused assignment of a particle set is in part carried
  out (C76_failed_set_refuted). Once the flags of beam-beam elements have a value, which the constructor gives them if the
  build options do, enable, skip and disable have no effect (C76_beam_beam_refuted).
* **OpenCL contexts (C75).** If one program cannot be built for a node, selecting it fails but the node stays selected, and
  no other one can be selected until the context is cleared (C75_failed_select_refuted). Programs without options are never
  built (C75_no_options_refuted). Changing the debug mode registers the default program twice (C75_debug_refuted); a missing
  file of the default program is reported as success (C75_missing_file_refuted). Enabling a kernel again does not give its
  id (C75_enable_again_refuted); whether the program has a kernel of that name at all is not looked at. Values and const
  pointers stay assigned when all parameters are reset (C75_reset_arguments_refuted). A feature flag cannot be changed
  (C75_flag_change_refuted). The longest time of runs that took no measurable time is DBL_MIN (C75_longest_refuted). The
  rounded number of work items overflows to 0 close to 2^64 (C75_run_overflow_refuted).
* **OpenCL arguments (C74).** Reading transfers as many bytes as the argument has, not as many as were written: a buffer
  that is smaller than the argument cannot be read back into itself (C74_read_back_refuted). Reading an argument to which
  nothing was written overwrites the buffer before the failure is seen (C74_unwritten_refuted). Writing raw memory leaves
  the argument connected to the earlier buffer (C74_raw_connected_refuted). Without the debug kernel a failing remap is not
  reported (C74_remap_unreported_refuted). `selectNode` with an id, a text or two numbers does not assign the status flag to
  the remapping kernel, unlike `selectNode` with an index, and the transfer assigns it to the wrong parameter
  (argument.cpp 411-416): in debug mode no write succeeds then (C74_debug_refuted). The constructors from a buffer ignore
  the result of the transfer; it can be seen from the connection (C74_construct).
* **The OpenCL nodes on offer (C73).** With the name of the variable given as "" the value of SIXTRACKLIB_DEVICES decides
  that there is a list of ids, but the ids are read from a variable named "": no node is on offer (C73_empty_name_refuted).
  After a list that names no existing node the default id is read behind the end of an empty vector
  (C73_default_none_refuted). A first device without a name is on offer but is not the default node
  (C73_default_unnamed_refuted). An id with a number of 2^31 or more is undefined behaviour (C73_large_refuted).
  Platforms without devices are not counted, so that the platform number is not that of OpenCL (C73_all).
* **Descriptions of OpenCL nodes (C72).** `ComputeNodeInfo_make` passes the lengths of platform and name to
  `ComputeNodeInfo_reserve` in the wrong order (compute_arch.c 459-460): the description is right exactly if both texts have
  the same length (C72_make_partial); otherwise the longer one is written behind the end of its block or is not terminated,
  and a description without platform is refused (C72_make_refuted). The OpenCL context does not use this call: its own
  descriptions are right (C72_device). Unset ids are not equal to themselves (C72_order_refuted); numbers of 2^31 and more
  are printed but cannot be read or are cut (C72_large_refuted); an unknown architecture is printed with an empty name
  (C72_unknown_arch_refuted); `ComputeNodeInfo_print_to_str` succeeds without room for the NUL (C72_print_refuted).
* **Planning buffers (C70, C71).** After a no `Buffer_can_add_object` reports 2^64 - k where k is missing (C70_missing_wraps,
  C70_missing_refuted). `Buffer_new_detailed` allocates 8 bytes for a garbage entry that takes 16: with two or more entries
  no buffer is ever made (C71_garbage_refuted).

Seen in the code, not stated as theorems: `apply_addr_offset` starts the garbage loop at
the section header; the GPU version of MOVE_VALUES starts one element too far;
`get_beam_monitor_indices` fails spuriously; the OpenCL context measures the source of assigned
addresses with the slot size of the destination, and its list of optional features names a space-charge
flag that no element reads; the OpenCL job reports success although assigning its particles failed.

## Testing the theorems

`tools/mutate.py` edits the model in a scratch copy, rebuilds, replaces failing proofs by `Admitted` there and
reports the theorems that depend on them; `seeded/LOG.jsonl` has one line per wrong program.
