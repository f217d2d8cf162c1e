{
 "C01": {
  "note": "For every reachable buffer and history. That an addition succeeds while memory lasts is proved for buffers that were only added to and for additions with room; false in general (C01_reserved_refuted, finding).",
  "status": "proved"
 },
 "C02": {
  "note": "For buffers without an empty array at the end of the last object; with one, remapping fails (C02_empty_array_refuted, finding). C02_remap_iff is the exact condition.",
  "status": "proved"
 },
 "C03": {
  "note": "",
  "status": "proved"
 },
 "C04": {
  "note": "For limits whose length fits into 64 bit; beyond that the request wraps around (C04_overflow_refuted). Buffer_reserve_capacity on its own breaks access by index (C04_capacity_refuted).",
  "status": "proved"
 },
 "C05": {
  "note": "Lack of memory, too small and unchanged limits: nothing changes. A failed addition to a buffer that was only added to changes nothing. Any failed reserve/add: the objects are unchanged. False for the rest of the buffer in general: the garbage section header is lost (C05_reserve_refuted), the address is stale (C05_add_refuted).",
  "status": "partial"
 },
 "C06": {
  "note": "All buffers reachable by successful operations.",
  "status": "proved"
 },
 "C07": {
  "note": "The plain reset sets the section limits to 0 (C07_limits_refuted).",
  "status": "proved"
 },
 "C08": {
  "note": "Exact below the number of objects and above it; false for the index equal to the number of objects (C08_end_refuted, finding).",
  "status": "partial"
 },
 "C09": {
  "note": "Proved for every load address other than the one the file was written for; false for that one (C09_same_address_refuted) and for normalisation to 0 (C09_address_zero_refuted); Buffer_read_from_file returns the inverted result (C09_read).",
  "status": "partial"
 },
 "C10": {
  "note": "init, reserve, clear, append. MemPool_clear_to_aligned_position hands out memory beyond the block (C10_clear_aligned_refuted, finding).",
  "status": "proved"
 },
 "C11": {
  "note": "Two to eight operands whose product fits into 64 bit; false when only the least common multiple fits (C11_overflow_refuted) and for calculate_commonN (C11_list_refuted).",
  "status": "partial"
 },
 "C12": {
  "note": "For all reachable buffers, item lists and schedules; destination and source indices in range (the documented precondition). An unresolvable source is silently assigned as 0 and an offset close to 2^64 escapes the bounds test (both refuted, findings). Item loop atomic per item.",
  "status": "proved"
 },
 "C13": {
  "note": "Order, equality, add and find proved for all jobs; removal loses every item of the same pair of buffers, and the begin/end accessors give empty ranges (refuted, findings).",
  "status": "partial"
 },
 "C14": {
  "note": "In-range requests and most out-of-range requests proved; false for destination indices outside the set, which are replaced by the source index (refuted, finding).",
  "status": "partial"
 },
 "C15": {
  "note": "In-range indices; negative indices are undefined behaviour (C15_negative_refuted, finding).",
  "status": "proved"
 },
 "C16": {
  "note": "int64 as unbounded integers.",
  "status": "proved"
 },
 "C17": {
  "note": "Proved for the functions reporting all attributes, element ids and turns; false for the id range without duplicate check (refuted, finding), which holds if the first particle's element number equals its id.",
  "status": "partial"
 },
 "C18": {
  "note": "For every number type, configuration and lattice; the model of the C loops provably never runs out of fuel.",
  "status": "proved"
 },
 "C19": {
  "note": "Proved for until-turn, line and single-element tracking; false for element-by-element tracking (refuted, finding).",
  "status": "partial"
 },
 "C20": {
  "note": "Relative to the step relation of TrackSpec.v.",
  "status": "proved"
 },
 "C21": {
  "note": "For every schedule interleaving the actions of the particles at element granularity (one action = one element on one particle, atomic) and every order of work-items. The output memory is schedule independent when the particles have distinct records (distinct ids, turn-ordered monitors covering the ids); particle-ordered monitors collide, see C27.",
  "status": "proved"
 },
 "C22": {
  "note": "For every per-particle function. The debug variants agree on valid arguments; they disagree on a set index naming a non-particle object (refuted, finding), and the line debug kernel checks the wrong bound (refuted, finding).",
  "status": "proved"
 },
 "C23": {
  "note": "Proved for active particles and element maps that mark failures as lost; a particle in a disabled element map fails without being marked (C23_disabled_refuted). The record theorem covers every element a particle reaches and every turn that is still kept.",
  "status": "partial"
 },
 "C24": {
  "note": "int64 modelled as unbounded integers.",
  "status": "proved"
 },
 "C25": {
  "note": "Including an arbitrary history of stores.",
  "status": "proved"
 },
 "C26": {
  "note": "Proved for the configuration of a track job; the element range it is made from contains every object that counts if these are contiguous (C26_element_range), not otherwise (C26_element_range_refuted); false for the stand-alone ElemByElemConfig_init (C26_init_refuted, C26_init_preset_refuted).",
  "status": "partial"
 },
 "C27": {
  "note": "Proved for turn-ordered monitors, in all tracking histories; particle-ordered monitors are right exactly for one particle or as many stores as particles (C27_particle_ordered_partial, refuted otherwise).",
  "status": "partial"
 },
 "C28": {
  "note": "Frame, sizes, definedness and the set-up of the output proved for all lines and histories under the stated hypothesis on idle monitors; without it false (C28_stale_refuted); set-up fails for legitimate lines (C28_trailing_refuted, C28_late_start_refuted).",
  "status": "partial"
 },
 "C29": {
  "note": "Over the reals: exact for rectangles, ellipses and rect-ellipses set up by the library with non-zero half axes, and for the global limit. In IEEE double precision: exact for rectangles and the global limit including non-finite values, within a relative margin of 8*2^-53 for ellipses of moderate size, non-finite coordinates rejected. Refuted: zero half axes are accepted and let outside particles pass, rect-ellipse setters and copy leave a stale product, the conditional check ignores the configured length, overflow/underflow of the product of half axes in doubles.",
  "status": "partial"
 },
 "C30": {
  "note": "Over the reals, both drifts, plus the straight-line description and the split of a drift inside a lattice with aperture checks. Rounding is not modelled.",
  "status": "proved"
 },
 "C31": {
  "note": "Over the reals: energy and delta updates, the cavity, and consistency along any tracking. The reported energy grows by dE only when the mass ratio is 1 (refuted otherwise, finding).",
  "status": "partial"
 },
 "C32": {
  "note": "Over the reals, all orders; the coefficients are those stored (see C37 for the scaling by factorials).",
  "status": "proved"
 },
 "C33": {
  "note": "Over the reals.",
  "status": "proved"
 },
 "C34": {
  "note": "Over the reals: every optical element and any number of turns through any lattice of them, with or without aperture checks, at every point from which the particle survives; exact drifts need forward motion, rotations the cosine and sine of one angle.",
  "status": "proved"
 },
 "C35": {
  "note": "Proved for elements that mark the particle lost on failure (all but build-time disabled maps and TriCubData); refuted for those.",
  "status": "partial"
 },
 "C36": {
  "note": "For all statuses but INT_MIN (signed overflow in the code). DebugReg_reset_arch_status also clears the error flags (refuted, finding).",
  "status": "proved"
 },
 "C37": {
  "note": "Over the reals, for every order: knl/ksl value setters round-trip and change nothing else (C37_knl_value, C37_ksl_value), indices above the order are refused, the array setters set all strengths and the tracked kick is the field of exactly these strengths up to order 10 (C37_arrays, C37_field), the stored coefficient is v/k! for k <= 20 except 11. The full statement is false: index 11 is scaled by 10!, index 21 by 20!+1, index 2^63 wraps to the dipole strength, setting all coefficients does nothing, and most RF multipole setters write the wrong entries (the _refuted theorems). Not covered: rounding in doubles.",
  "status": "partial"
 },
 "C38": {
  "note": "Over the reals. Linear: chord between neighbours, table values at all abscissas, slope (C38_linear, C38_linear_table). Cubic: one C2 function through all table values whose value and derivatives are what the routines return, with natural, prescribed or proportional (parameter >= -1) second derivative at the ends (C38_cubic, C38_cubic_profile); zero outside (C38_outside). Missing because false of the code: the last interval of the declared range (C38_last_step_refuted, C38_end_refuted), the not-a-knot end (C38_not_a_knot_refuted) and the extended linear derivative (C38_slope_refuted).",
  "status": "partial"
 },
 "C39": {
  "note": "Over the reals. The 64 coefficients reproduce all 64 corner data (C39_corners) and are the only ones that do (C39_unique); the kick is minus the gradient of the potential of the cell that contains the particle (C39_kick, also for mirrored axes); value and all stored derivatives of neighbouring cells agree on the shared face (C39_smooth); no out-of-bounds read inside the grid (C39_defined). A particle outside the grid is kicked with data of unrelated grid points (C39_outside_refuted). The energy kick carries the charge, the momentum kicks do not.",
  "status": "proved"
 },
 "C40": {
  "note": "Proved for every program that keeps the stated rules (moved-from stores are not read, lent buffers outlive their use, a non-owning store is not copy-assigned to an owning one): no memory error, coherence of the pointers, unique ownership, no leak. The unrestricted property is false of the code: copy assignment, moved-from stores and taking ownership of an already exposed buffer are refuted with witnesses.",
  "status": "partial"
 },
 "C41": {
  "note": "The text of every valid 64-bit node id is canonical decimal and parses back to the same platform and device, through std::string and through character arrays (C41_text, C41_parse, C41_round_trip, C41_array_round_trip), invalid ids and failures change nothing, the order is a strict total order on (platform, device), and ids are found in configuration strings. False for the formatted conversion (to_string with a format): truncated last digit, 32-bit cut-off and architecture prefixes (the _refuted theorems); C41_format_partial says when it is right.",
  "status": "partial"
 },
 "C42": {
  "note": "All sixteen flags are independent under set, unset and test (C42_independent); after any history of enable, disable and set calls the flags are those of five independent switches and the queries return them (C42_history, C42_queries); collecting and pushing transfer exactly the parts that are wanted, available and whose transfer works, and report exactly these (C42_collect, C42_push, C42_single, C42_cpu); resetting clears exactly the structures asked for whose buffers change (C42_reset_clears). The transfer of one argument is an oracle (works or fails).",
  "status": "proved"
 },
 "C43": {
  "note": "",
  "status": "proved"
 },
 "C44": {
  "note": "Recursion proved to terminate within the model's fuel.",
  "status": "proved"
 },
 "C45": {
  "note": "",
  "status": "proved"
 },
 "C46": {
  "note": "Proved for all turns below the number of tracked turns; the next turn is wrongly reported (C46_last_refuted).",
  "status": "partial"
 },
 "C47": {
  "note": "Refinement of a table of stored buffers for every history of one job. Copy and move assignment of jobs break the count (refuted), reserve never reserves (refuted).",
  "status": "proved"
 },
 "C48": {
  "note": "Over the reals. The transverse kicks are the gradient of the potential for every order (C48_transverse); the exact energy kick for every order is C48_energy; it is the time derivative of the same potential for order 0 (C48_one_potential_partial). From order 1 on the full claim is false of the code: each component of the energy kick lacks the factor 1/(n+1) (C48_one_potential_refuted).",
  "status": "partial"
 },
 "C49": {
  "note": "Over the reals, for consistent active particles inside the global aperture. All element types with default settings but the dipole edge and TriCub pass particles unchanged (C49_defaults_partial); switched-off beam-beam elements and skipped maps too (C49_switched_off). False of the code for: a default dipole edge (its r43 is 1, C49_dipole_edge_refuted), the enabled flag of space-charge elements (never read, C49_space_charge_flag_refuted), the interpolated profile when space charge is skipped (particle lost, C49_skip_profile_refuted). SCQGaussProfile_clear leaves min_sigma_diff unset: a positive value is assumed.",
  "status": "partial"
 },
 "C50": {
  "note": "Boost and inverse boost; neutral 6D element; all beam-field elements are defined for every real particle (C50_defined).",
  "status": "proved"
 },
 "C51": {
  "note": "Maxwell equations proved for round beams away from the centre; symmetries and definedness for all beams. Refuted at the centre of round beams. Missing: Maxwell equations for elliptical beams, whose complex error function is a truncated series in the code.",
  "status": "partial"
 },
 "C52": {
  "note": "Proved for particles with the velocity of the reference particle; refuted for others (the code divides by the velocity ratio instead of multiplying).",
  "status": "partial"
 },
 "C53": {
  "note": "Axes and sizes proved for all matrices (exact away from round beams, error bounded by the threshold otherwise). Derivatives proved away from round beams; the derivative of the sine only where it is at least the threshold or the covariance is zero (in between the code uses an approximation).",
  "status": "partial"
 },
 "C54": {
  "note": "Proved for lines without beam-beam and space-charge elements and field maps: exact copies in order, status 0 exactly when the whole range is copied, success with room (address kept) or memory. For 4D/6D beam-beam, coasting and q-gaussian space charge the code returns the inverted status (refuted); a 6D beam-beam element is copied as a 4D one (refuted); interpolated space charge and field maps are never copied (refuted). Source and destination are different buffers.",
  "status": "partial"
 },
 "C55": {
  "note": "Proved for all element types except coasting and interpolated space charge and field maps, for which the code counts no slots (C55_no_slots_refuted); reserving the computed numbers is enough to copy the line.",
  "status": "partial"
 },
 "C56": {
  "note": "Everything for texts of at most max_length characters, and every sequence of operations. Refuted: a text of max_length + 1 characters is accepted without a terminating zero; a copy has one character more than the original; copying inside the same buffer reads freed memory when it grows.",
  "status": "partial"
 },
 "C57": {
  "note": "The whole property for non-negative ids and histories without clear(). Refuted: marks in the node information, failed changes keeping the selection, unselecting without index, clear(), negative ids.",
  "status": "partial"
 },
 "C58": {
  "note": "Proved: choice of sets, counts and offsets, the three ways of tracking (each particle as alone, frame, status), outputs as those of some schedule, sessions, failures, reset. Refuted: counts of a job without indices, invalid indices, reset with another buffer, selectParticleSet with C++ buffers.",
  "status": "partial"
 },
 "C59": {
  "note": "Sets added (from arrays, empty, copied), found, counted, read and written; tables prepared (also when allocations fail: the call succeeds exactly if every object got its row), stored, remapped after moves, compared, cleared, rows added, copied and turned back into particle sets; over all reachable buffers. Beyond the claim: buffers that are no tables compare as unequal to themselves and clearing reports success when objects are no rows (refuted variants).",
  "status": "proved"
 },
 "C60": {
  "note": "Differences (any arithmetic), their vanishing (reals), same structure, differences of buffers and clearing are proved in full; the maximum is proved among as many particles as the destination has, and the full claim is refuted (C60_max_misses_refuted, C60_max_beyond_refuted, C60_buffer_max_refuted).",
  "status": "partial"
 },
 "C61": {
  "note": "Holds for histories of buffer transfers with remapping (CUDA arguments; C and C++ interface). Proved: the refinement to lists of objects over all histories, definedness of all transfers, exact conditions of success, and that an argument used for one buffer gives back to it. Refuted: arguments used for several buffers, for raw memory after buffers or for several raw regions give back to the wrong place; region updates do not reach the device; remap failures on the device are unreported outside of debug mode. Not covered: transfers without remapping, raw transfers beyond the refutations, OpenCL arguments.",
  "status": "partial"
 },
 "C62": {
  "note": "Proved: choice of sets and counts, definedness, tracking exactly the chosen sets, reset equal to a new job, assignment of another output buffer equal to a new job if the particles start at turn 0 (and what it is equal to for any first turn). Refuted: the constructor with one index (undefined for every index but 0), empty sets, totals after a reset for missing sets, and the assignment for particles that start later. Not covered: an output buffer which the job has already, copies of jobs.",
  "status": "partial"
 },
 "C63": {
  "note": "Proved: setters store what was given or fail without effect; the grid of an update; numbering of the threads; tracking with the default grid or an OpenCL launch tracks every particle once. Refuted of the code: one thread per particle, totals of work items, settings of two and three dimensions, asking for updates, grids of 2^32 blocks, number of arguments, group size chosen for OpenCL tracking kernels. Missing: names, ids and copies of configurations.",
  "status": "partial"
 },
 "C64": {
  "note": "Reset, push and collect of a job with five distinct buffers are modelled in full; the debug register, stored user buffers and the OpenCL job are not; the host part of reset is an argument. \"Reset reports success only if everything is on the device\" is refuted (C64_particles_missing_refuted, C64_failure_lost_refuted), so is the independence of kernel assignments from transfers (C64_assignment_refuted).",
  "status": "partial"
 },
 "C65": {
  "note": "Adding (empty, with elements, as a copy), reading, clearing, removing the last or all elements, refusals and rollback proved for all arrays, with a history theorem; appending elements and removing some of several elements are refuted of the code for every array (C65_append_refuted, C65_remove_num_refuted) or by example.",
  "status": "partial"
 },
 "C66": {
  "note": "All X_new/X_add calls of the beam elements, on the model of Buffer_add_object: what is stored, refused, and when calls succeed. Partial: false for 6D beam-beam elements, LineDensityProfileData_add and SCQGaussProfile_new (what they store instead is proved) and undefined for field maps with nx*ny >= 2^63.",
  "status": "partial"
 },
 "C67": {
  "note": "For lines of drifts, multipoles, RF multipoles, cavities, shifts, rotations, field maps and their elements: new elements are created in order, of the same kind and size with default values and zero arrays, status 0 exactly if for all (C67_new_partial), with room or memory for all (C67_room_partial, C67_memory_partial). For 4D beam-beam (with data size at least 11), coasting and interpolated space-charge, monitor, aperture and dipole edge elements one element is created correctly but the status is 1 on success and 0 on failure (C67_status), so that the work on a line ends behind the first of them (C67_stops, C67_line_refuted) or a failure is reported as success (C67_silent_refuted). Missing: 6D beam-beam and new q-Gaussian elements, which are created wrongly (C66).",
  "status": "partial"
 },
 "C68": {
  "note": "With room or memory the wanted monitors are appended, the other objects unchanged, status success (C68_room, C68_memory); if the first monitor fits, success is reported exactly if all are there (C68_append_partial); after any number of turns up to the target they hold exactly the turns asked for (C68_turns); other places are refused without effect (C68_elsewhere, C68_position). False for an empty line by position (C68_position_refuted). Missing: what happens when the first monitor cannot be created and the second one is tried.",
  "status": "partial"
 },
 "C69": {
  "note": "All lines of elements without arrays (and field maps) in any buffer, any history: values, places, other objects, order of the buffer, idempotence, equality with new elements. Refuted: multipoles and beam-beam elements lose the address of their arrays and with it the buffer can no longer be moved, copied or extended (C69_moved_refuted); interpolated space charge is not cleared (C69_interpolated_refuted).",
  "status": "partial"
 },
 "C70": {
  "note": "Answer, yes and no parts for all reachable buffers and objects. Refuted: after a no the missing numbers are reported modulo 2^64 with the wrong sign (C70_missing_wraps says what is reported).",
  "status": "partial"
 },
 "C71": {
  "note": "All limits with at most one garbage entry; the list part has no restriction but sizes below 2^63. Refuted: with two or more garbage entries no buffer is made. Missing: data stores other than the memory pool (the only one the code has).",
  "status": "partial"
 },
 "C72": {
  "note": "Order, texts, reading back, reserve, free and the descriptions the OpenCL context makes are proved for all inputs and allocation outcomes. ComputeNodeInfo_make is right exactly when platform and name have the same length (the code exchanges the two lengths); unset ids, numbers from 2^31, unknown architectures and the exactly filled array are refuted.",
  "status": "partial"
 },
 "C73": {
  "note": "All nodes, the ids read from any text, the selection, lookup and pages proved; the default node for named devices. Refuted: a variable name given as \"\", the default id without a node on offer, a first device without a name, numbers of 2^31 or more.",
  "status": "partial"
 },
 "C74": {
  "note": "Proved for all histories that start from a new argument and buffers with full arrays, with any outcomes of the commands, and reading only after a successful write. Refuted: reading back into a smaller buffer, reading before a write, the connection after raw writes, unreported failures of the remapping kernel without debug mode, writing in debug mode after selecting a node by id or text.",
  "status": "partial"
 },
 "C75": {
  "note": "Proved for all reachable contexts and all histories, with any answers of file system, compiler and commands. Refuted: failed selections leave the node selected, programs without options are never built, enabling again is refused, values survive a reset of all parameters, flags cannot be changed, default program registered twice in debug mode, missing default file reported as success, longest time of runs without measurable time, overflow of the number of work items.",
  "status": "partial"
 },
 "C76": {
  "note": "Proved for all histories of calls on a context with all kernels set up, in normal and debug mode, and for jobs whose selected set comes first. Refuted: jobs whose selected set is not the first, work items of element by element tracking of a given set, use of the work group size, id of the track_line kernel, refused assignments of a set, changes of the beam-beam flags.",
  "status": "partial"
 },
 "C77": {
  "note": "Proved for the constructors with index, text and two numbers and for any history before selecting a node by index: all kernels of the library for the choices made, slot sizes and flags. Refuted: constructor with a node id (C77_node_id_refuted), slot sizes after selection by id or text (C77_select_other_refuted), programs of the user on AMD nodes (C77_amd_programs_lost_refuted), fall-back to an AMD default node (C77_default_amd_refuted).",
  "status": "partial"
 }
}