{
 "claims": [
  {
   "property": "C01",
   "status": "proved",
   "theorems": [
    "C01_add",
    "C01_history",
    "C01_performs",
    "C01_write",
    "C01_defined",
    "C01_room",
    "C01_grows",
    "C01_returns",
    "C01_reserved_refuted"
   ],
   "note": "For every reachable buffer and history. That an addition succeeds while memory lasts is proved for buffers that were only added to and for additions with room; false in general (C01_reserved_refuted, finding)."
  },
  {
   "property": "C02",
   "status": "proved",
   "theorems": [
    "C02_remap",
    "C02_remap_iff",
    "C02_copy",
    "C02_empty_array_refuted"
   ],
   "note": "For buffers without an empty array at the end of the last object; with one, remapping fails (C02_empty_array_refuted, finding). C02_remap_iff is the exact condition."
  },
  {
   "property": "C03",
   "status": "proved",
   "theorems": [
    "C03_at_place",
    "C03_twice"
   ],
   "note": ""
  },
  {
   "property": "C04",
   "status": "proved",
   "theorems": [
    "C04_reserve",
    "C04_defined",
    "C04_grows",
    "C04_overflow_refuted",
    "C04_capacity_refuted"
   ],
   "note": "For limits whose length fits into 64 bit; beyond that the request wraps around (C04_overflow_refuted). Buffer_reserve_capacity on its own breaks access by index (C04_capacity_refuted)."
  },
  {
   "property": "C05",
   "status": "partial",
   "theorems": [
    "C05_no_memory",
    "C05_add_no_memory",
    "C05_too_small",
    "C05_same",
    "C05_objects",
    "C05_add_objects",
    "C05_add_unchanged",
    "C05_reserve_refuted",
    "C05_add_refuted"
   ],
   "note": "Lack of memory, too small and unchanged limits: nothing changes. A failed addition to a buffer that was only added to changes nothing. Any failed reserve/add: the objects are unchanged. False for the rest of the buffer in general: the garbage section header is lost (C05_reserve_refuted), the address is stale (C05_add_refuted)."
  },
  {
   "property": "C06",
   "status": "proved",
   "theorems": [
    "C06_layout"
   ],
   "note": "All buffers reachable by successful operations."
  },
  {
   "property": "C07",
   "status": "proved",
   "theorems": [
    "C07_clear",
    "C07_reset",
    "C07_additions",
    "C07_limits_refuted"
   ],
   "note": "The plain reset sets the section limits to 0 (C07_limits_refuted)."
  },
  {
   "property": "C08",
   "status": "partial",
   "theorems": [
    "C08_get",
    "C08_number",
    "C08_end_refuted"
   ],
   "note": "Exact below the number of objects and above it; false for the index equal to the number of objects (C08_end_refuted, finding)."
  },
  {
   "property": "C09",
   "status": "partial",
   "theorems": [
    "C09_write",
    "C09_round_trip",
    "C09_normalised",
    "C09_normalised_round_trip",
    "C09_read",
    "C09_same_address_refuted",
    "C09_address_zero_refuted"
   ],
   "note": "Proved for every load address other than the one the file was written for; false for that one (C09_same_address_refuted) and for normalisation to 0 (C09_address_zero_refuted); Buffer_read_from_file returns the inverted result (C09_read)."
  },
  {
   "property": "C10",
   "status": "proved",
   "theorems": [
    "C10_block",
    "C10_blocks",
    "C10_append",
    "C10_reserve",
    "C10_remaining",
    "C10_clear_aligned_refuted"
   ],
   "note": "init, reserve, clear, append. MemPool_clear_to_aligned_position hands out memory beyond the block (C10_clear_aligned_refuted, finding)."
  },
  {
   "property": "C11",
   "status": "partial",
   "theorems": [
    "C11_gcd",
    "C11_common",
    "C11_common_of_several",
    "C11_overflow_refuted",
    "C11_list_refuted",
    "C11_log2_refuted"
   ],
   "note": "Two to eight operands whose product fits into 64 bit; false when only the least common multiple fits (C11_overflow_refuted) and for calculate_commonN (C11_list_refuted)."
  },
  {
   "property": "C12",
   "status": "proved",
   "theorems": [
    "C12_assign",
    "C12_status",
    "C12_any_order",
    "C12_work_items",
    "C12_raw",
    "C12_source_refuted",
    "C12_offset_refuted"
   ],
   "note": "For all reachable buffers, item lists and schedules; destination and source indices in range (the documented precondition). An unresolvable source is silently assigned as 0 and an offset close to 2^64 escapes the bounds test (both refuted, findings). Item loop atomic per item."
  },
  {
   "property": "C13",
   "status": "partial",
   "theorems": [
    "C13_order",
    "C13_equal",
    "C13_added",
    "C13_kept",
    "C13_nothing_else",
    "C13_all_found",
    "C13_once",
    "C13_no_duplicates",
    "C13_keys",
    "C13_remove_partial",
    "C13_remove_refuted",
    "C13_range_refuted"
   ],
   "note": "Order, equality, add and find proved for all jobs; removal loses every item of the same pair of buffers, and the begin/end accessors give empty ranges (refuted, findings)."
  },
  {
   "property": "C14",
   "status": "partial",
   "theorems": [
    "C14_single",
    "C14_single_failure",
    "C14_range",
    "C14_range_failure",
    "C14_set",
    "C14_set_failure",
    "C14_outside_refuted",
    "C14_range_outside_refuted"
   ],
   "note": "In-range requests and most out-of-range requests proved; false for destination indices outside the set, which are replaced by the source index (refuted, finding)."
  },
  {
   "property": "C15",
   "status": "proved",
   "theorems": [
    "C15_load_store",
    "C15_store_load",
    "C15_loaded",
    "C15_negative_refuted"
   ],
   "note": "In-range indices; negative indices are undefined behaviour (C15_negative_refuted, finding)."
  },
  {
   "property": "C16",
   "status": "proved",
   "theorems": [
    "C16_found",
    "C16_injective",
    "C16_onto",
    "C16_outside"
   ],
   "note": "int64 as unbounded integers."
  },
  {
   "property": "C17",
   "status": "partial",
   "theorems": [
    "C17_set",
    "C17_set_empty",
    "C17_buffer",
    "C17_buffer_none",
    "C17_sets",
    "C17_sets_bad",
    "C17_at_element",
    "C17_at_turn",
    "C17_id_no_check_refuted",
    "C17_id_no_check_partial"
   ],
   "note": "Proved for the functions reporting all attributes, element ids and turns; false for the id range without duplicate check (refuted, finding), which holds if the first particle's element number equals its id."
  },
  {
   "property": "C18",
   "status": "proved",
   "theorems": [
    "C18_staged_tracking",
    "C18_total"
   ],
   "note": "For every number type, configuration and lattice; the model of the C loops provably never runs out of fuel."
  },
  {
   "property": "C19",
   "status": "partial",
   "theorems": [
    "C19_lost_frozen_until_turn",
    "C19_lost_frozen_line",
    "C19_lost_frozen_element",
    "C19_lost_frozen_elem_by_elem_refuted"
   ],
   "note": "Proved for until-turn, line and single-element tracking; false for element-by-element tracking (refuted, finding)."
  },
  {
   "property": "C20",
   "status": "proved",
   "theorems": [
    "C20_bookkeeping",
    "C20_past_unchanged"
   ],
   "note": "Relative to the step relation of TrackSpec.v."
  },
  {
   "property": "C21",
   "status": "proved",
   "theorems": [
    "C21_particle",
    "C21_output",
    "C21_defined",
    "C21_launch",
    "C21_launch_output",
    "C21_launch_defined"
   ],
   "note": "For every schedule interleaving the actions of the particles at element granularity (one action = one element on one particle, atomic) and every order of work-items. The output memory is schedule independent when the particles have distinct records (distinct ids, turn-ordered monitors covering the ids); particle-ordered monitors collide, see C27."
  },
  {
   "property": "C22",
   "status": "proved",
   "theorems": [
    "C22_kernel",
    "C22_launch",
    "C22_buffer",
    "C22_debug_runs",
    "C22_debug_rejects",
    "C22_debug_refuted",
    "C22_line_check_refuted"
   ],
   "note": "For every per-particle function. The debug variants agree on valid arguments; they disagree on a set index naming a non-particle object (refuted, finding), and the line debug kernel checks the wrong bound (refuted, finding)."
  },
  {
   "property": "C23",
   "status": "partial",
   "theorems": [
    "C23_same_dynamics",
    "C23_record",
    "C23_disabled_refuted"
   ],
   "note": "Proved for active particles and element maps that mark failures as lost; a particle in a disabled element map fails without being marked (C23_disabled_refuted). The record theorem covers every element a particle reaches and every turn that is still kept."
  },
  {
   "property": "C24",
   "status": "proved",
   "theorems": [
    "C24_injective",
    "C24_in_capacity",
    "C24_every_index_used",
    "C24_recovered",
    "C24_capacity",
    "C24_rejected",
    "C24_index_rejected"
   ],
   "note": "int64 modelled as unbounded integers."
  },
  {
   "property": "C25",
   "status": "proved",
   "theorems": [
    "C25_in_capacity",
    "C25_share",
    "C25_keeps_latest"
   ],
   "note": "Including an arbitrary history of stores."
  },
  {
   "property": "C26",
   "status": "partial",
   "theorems": [
    "C26_job",
    "C26_job_none",
    "C26_element_range",
    "C26_element_range_refuted",
    "C26_init_refuted",
    "C26_init_preset_refuted"
   ],
   "note": "Proved for the configuration of a track job; the element range it is made from contains every object that counts if these are contiguous (C26_element_range), not otherwise (C26_element_range_refuted); false for the stand-alone ElemByElemConfig_init (C26_init_refuted, C26_init_preset_refuted)."
  },
  {
   "property": "C27",
   "status": "partial",
   "theorems": [
    "C27_inside",
    "C27_collision",
    "C27_distinct",
    "C27_not_sampled",
    "C27_not_kept",
    "C27_record",
    "C27_particle_ordered_partial",
    "C27_particle_ordered_refuted"
   ],
   "note": "Proved for turn-ordered monitors, in all tracking histories; particle-ordered monitors are right exactly for one particle or as many stores as particles (C27_particle_ordered_partial, refuted otherwise)."
  },
  {
   "property": "C28",
   "status": "partial",
   "theorems": [
    "C28_until_turn",
    "C28_elem_by_elem",
    "C28_line",
    "C28_defined",
    "C28_prepare",
    "C28_assign_iff",
    "C28_job",
    "C28_job_monitors",
    "C28_trailing_refuted",
    "C28_late_start_refuted",
    "C28_stale_refuted",
    "C28_particle_ordered_refuted"
   ],
   "note": "Frame, sizes, definedness and the set-up of the output proved for all lines and histories under the stated hypothesis on idle monitors; without it false (C28_stale_refuted); set-up fails for legitimate lines (C28_trailing_refuted, C28_late_start_refuted)."
  },
  {
   "property": "C29",
   "status": "partial",
   "theorems": [
    "C29_frame",
    "C29_rect",
    "C29_rect_symmetric",
    "C29_ellipse",
    "C29_ellipse_copy",
    "C29_rect_copy",
    "C29_rect_ellipse",
    "C29_setters",
    "C29_ellipse_axes",
    "C29_rect_ellipse_add",
    "C29_rect_ellipse_clear",
    "C29_rect_ellipse_copy_partial",
    "C29_global",
    "C29_degenerate_refuted",
    "C29_rect_ellipse_setter_refuted",
    "C29_rect_ellipse_copy_refuted",
    "C29_conditional_refuted",
    "C29_rect_double",
    "C29_global_double",
    "C29_nonfinite_double",
    "C29_rect_ellipse_nonfinite_double",
    "C29_ellipse_double",
    "C29_overflow_double_refuted",
    "C29_underflow_double_refuted"
   ],
   "note": "Over the reals: exact for rectangles, ellipses and rect-ellipses set up by the library with non-zero half axes, and for the global limit. In IEEE double precision: exact for rectangles and the global limit including non-finite values, within a relative margin of 8*2^-53 for ellipses of moderate size, non-finite coordinates rejected. Refuted: zero half axes are accepted and let outside particles pass, rect-ellipse setters and copy leave a stale product, the conditional check ignores the configured length, overflow/underflow of the product of half axes in doubles."
  },
  {
   "property": "C30",
   "status": "proved",
   "theorems": [
    "C30_compose",
    "C30_inverse",
    "C30_straight",
    "C30_straight_exact",
    "C30_time_exact",
    "C30_time",
    "C30_lattice"
   ],
   "note": "Over the reals, both drifts, plus the straight-line description and the split of a drift inside a lattice with aperture checks. Rounding is not modelled."
  },
  {
   "property": "C31",
   "status": "partial",
   "theorems": [
    "C31_add_energy",
    "C31_set_delta",
    "C31_consistent",
    "C31_reported_energy_partial",
    "C31_mass_ratio_refuted",
    "C31_cavity",
    "C31_tracking"
   ],
   "note": "Over the reals: energy and delta updates, the cavity, and consistency along any tracking. The reported energy grows by dE only when the mass ratio is 1 (refuted otherwise, finding)."
  },
  {
   "property": "C32",
   "status": "proved",
   "theorems": [
    "C32_kick",
    "C32_straight",
    "C32_gradient"
   ],
   "note": "Over the reals, all orders; the coefficients are those stored (see C37 for the scaling by factorials)."
  },
  {
   "property": "C33",
   "status": "proved",
   "theorems": [
    "C33_rotation",
    "C33_rotation_is",
    "C33_shift"
   ],
   "note": "Over the reals."
  },
  {
   "property": "C34",
   "status": "proved",
   "theorems": [
    "C34_element",
    "C34_lattice"
   ],
   "note": "Over the reals: every optical element and any number of turns through any lattice of them, with or without aperture checks, at every point from which the particle survives; exact drifts need forward motion, rotations the cosine and sine of one angle."
  },
  {
   "property": "C35",
   "status": "partial",
   "theorems": [
    "C35_line_split",
    "C35_line_is_one_turn",
    "C35_line_split_refuted"
   ],
   "note": "Proved for elements that mark the particle lost on failure (all but build-time disabled maps and TriCubData); refuted for those."
  },
  {
   "property": "C36",
   "status": "proved",
   "theorems": [
    "C36_store_get",
    "C36_raise",
    "C36_raise_any",
    "C36_highest",
    "C36_reset_refuted",
    "C36_reset_all"
   ],
   "note": "For all statuses but INT_MIN (signed overflow in the code). DebugReg_reset_arch_status also clears the error flags (refuted, finding)."
  },
  {
   "property": "C37",
   "status": "partial",
   "theorems": [
    "C37_knl_value",
    "C37_ksl_value",
    "C37_index_refused",
    "C37_bal_value",
    "C37_all_values",
    "C37_arrays",
    "C37_field",
    "C37_coefficient",
    "C37_copy",
    "C37_eleven_refuted",
    "C37_above_twenty_refuted",
    "C37_all_bal_refuted",
    "C37_wrap_refuted",
    "C37_rf_knl",
    "C37_rf_values",
    "C37_rf_phase_n",
    "C37_rf_copy",
    "C37_rf_value_refuted",
    "C37_rf_ksl_refuted",
    "C37_rf_all_ksl_refuted",
    "C37_rf_phase_refuted",
    "C37_rf_all_phase_n_refuted",
    "C37_rf_all_phases_refuted",
    "C37_rf_phase_s_refuted"
   ],
   "note": "Over the reals, for every order: knl/ksl value setters round-trip and change nothing else (C37_knl_value, C37_ksl_value), indices above the order are refused, the array setters set all strengths and the tracked kick is the field of exactly these strengths up to order 10 (C37_arrays, C37_field), the stored coefficient is v/k! for k <= 20 except 11. The full statement is false: index 11 is scaled by 10!, index 21 by 20!+1, index 2^63 wraps to the dipole strength, setting all coefficients does nothing, and most RF multipole setters write the wrong entries (the _refuted theorems). Not covered: rounding in doubles."
  },
  {
   "property": "C38",
   "status": "partial",
   "theorems": [
    "C38_index",
    "C38_extrapolate",
    "C38_linear",
    "C38_linear_table",
    "C38_cubic",
    "C38_cubic_profile",
    "C38_outside",
    "C38_last_step_refuted",
    "C38_end_refuted",
    "C38_not_a_knot_refuted",
    "C38_slope_refuted"
   ],
   "note": "Over the reals. Linear: chord between neighbours, table values at all abscissas, slope (C38_linear, C38_linear_table). Cubic: one C2 function through all table values whose value and derivatives are what the routines return, with natural, prescribed or proportional (parameter >= -1) second derivative at the ends (C38_cubic, C38_cubic_profile); zero outside (C38_outside). Missing because false of the code: the last interval of the declared range (C38_last_step_refuted, C38_end_refuted), the not-a-knot end (C38_not_a_knot_refuted) and the extended linear derivative (C38_slope_refuted)."
  },
  {
   "property": "C39",
   "status": "proved",
   "theorems": [
    "C39_corners",
    "C39_unique",
    "C39_kick",
    "C39_smooth",
    "C39_defined",
    "C39_outside_refuted"
   ],
   "note": "Over the reals. The 64 coefficients reproduce all 64 corner data (C39_corners) and are the only ones that do (C39_unique); the kick is minus the gradient of the potential of the cell that contains the particle (C39_kick, also for mirrored axes); value and all stored derivatives of neighbouring cells agree on the shared face (C39_smooth); no out-of-bounds read inside the grid (C39_defined). A particle outside the grid is kicked with data of unrelated grid points (C39_outside_refuted). The energy kick carries the charge, the momentum kicks do not."
  },
  {
   "property": "C40",
   "status": "partial",
   "theorems": [
    "C40_ownership_partial",
    "C40_no_leak",
    "C40_frame",
    "C40_copy",
    "C40_copy_assign_refuted",
    "C40_moved_from_refuted",
    "C40_take_exposed_refuted"
   ],
   "note": "Proved for every program that keeps the stated rules (moved-from stores are not read, lent buffers outlive their use, a non-owning store is not copy-assigned to an owning one): no memory error, coherence of the pointers, unique ownership, no leak. The unrestricted property is false of the code: copy assignment, moved-from stores and taking ownership of an already exposed buffer are refuted with witnesses."
  },
  {
   "property": "C41",
   "status": "partial",
   "theorems": [
    "C41_text",
    "C41_parse",
    "C41_round_trip",
    "C41_array_round_trip",
    "C41_invalid",
    "C41_failure_unchanged",
    "C41_order",
    "C41_compare",
    "C41_setters",
    "C41_compare_null",
    "C41_extract",
    "C41_extract_id",
    "C41_format_partial",
    "C41_format_truncation_refuted",
    "C41_format_range_refuted",
    "C41_format_arch_refuted",
    "C41_compare_null_refuted"
   ],
   "note": "The text of every valid 64-bit node id is canonical decimal and parses back to the same platform and device, through std::string and through character arrays (C41_text, C41_parse, C41_round_trip, C41_array_round_trip), invalid ids and failures change nothing, the order is a strict total order on (platform, device), and ids are found in configuration strings. False for the formatted conversion (to_string with a format): truncated last digit, 32-bit cut-off and architecture prefixes (the _refuted theorems); C41_format_partial says when it is right."
  },
  {
   "property": "C42",
   "status": "proved",
   "theorems": [
    "C42_independent",
    "C42_history",
    "C42_queries",
    "C42_collect",
    "C42_push",
    "C42_single",
    "C42_cpu",
    "C42_reset_clears"
   ],
   "note": "All sixteen flags are independent under set, unset and test (C42_independent); after any history of enable, disable and set calls the flags are those of five independent switches and the queries return them (C42_history, C42_queries); collecting and pushing transfer exactly the parts that are wanted, available and whose transfer works, and report exactly these (C42_collect, C42_push, C42_single, C42_cpu); resetting clears exactly the structures asked for whose buffers change (C42_reset_clears). The transfer of one argument is an oracle (works or fails)."
  },
  {
   "property": "C43",
   "status": "proved",
   "theorems": [
    "C43_reference_kept"
   ],
   "note": ""
  },
  {
   "property": "C44",
   "status": "proved",
   "theorems": [
    "C44_distinct",
    "C44_duplicate"
   ],
   "note": "Recursion proved to terminate within the model's fuel."
  },
  {
   "property": "C45",
   "status": "proved",
   "theorems": [
    "C45_clear",
    "C45_clear_range",
    "C45_preset"
   ],
   "note": ""
  },
  {
   "property": "C46",
   "status": "partial",
   "theorems": [
    "C46_has_turn_stored",
    "C46_not_sampled",
    "C46_future",
    "C46_last_refuted"
   ],
   "note": "Proved for all turns below the number of tracked turns; the next turn is wrongly reported (C46_last_refuted)."
  },
  {
   "property": "C47",
   "status": "proved",
   "theorems": [
    "C47_stored_buffers",
    "C47_ids_distinct",
    "C47_id_range",
    "C47_copy_assign_refuted",
    "C47_move_assign_refuted",
    "C47_reserve_refuted"
   ],
   "note": "Refinement of a table of stored buffers for every history of one job. Copy and move assignment of jobs break the count (refuted), reserve never reserves (refuted)."
  },
  {
   "property": "C48",
   "status": "partial",
   "theorems": [
    "C48_transverse",
    "C48_energy",
    "C48_one_potential_partial",
    "C48_one_potential_refuted"
   ],
   "note": "Over the reals. The transverse kicks are the gradient of the potential for every order (C48_transverse); the exact energy kick for every order is C48_energy; it is the time derivative of the same potential for order 0 (C48_one_potential_partial). From order 1 on the full claim is false of the code: each component of the energy kick lacks the factor 1/(n+1) (C48_one_potential_refuted)."
  },
  {
   "property": "C49",
   "status": "partial",
   "theorems": [
    "C49_defaults_partial",
    "C49_dipole_edge_refuted",
    "C49_switched_off",
    "C49_skip_profile_refuted",
    "C49_space_charge_flag_refuted"
   ],
   "note": "Over the reals, for consistent active particles inside the global aperture. All element types with default settings but the dipole edge and TriCub pass particles unchanged (C49_defaults_partial); switched-off beam-beam elements and skipped maps too (C49_switched_off). False of the code for: a default dipole edge (its r43 is 1, C49_dipole_edge_refuted), the enabled flag of space-charge elements (never read, C49_space_charge_flag_refuted), the interpolated profile when space charge is skipped (particle lost, C49_skip_profile_refuted). SCQGaussProfile_clear leaves min_sigma_diff unset: a positive value is assumed."
  },
  {
   "property": "C50",
   "status": "proved",
   "theorems": [
    "C50_boost_inverse",
    "C50_no_charge",
    "C50_defined"
   ],
   "note": "Boost and inverse boost; neutral 6D element; all beam-field elements are defined for every real particle (C50_defined)."
  },
  {
   "property": "C51",
   "status": "partial",
   "theorems": [
    "C51_round_partial",
    "C51_centre_refuted",
    "C51_symmetric"
   ],
   "note": "Maxwell equations proved for round beams away from the centre; symmetries and definedness for all beams. Refuted at the centre of round beams. Missing: Maxwell equations for elliptical beams, whose complex error function is a truncated series in the code."
  },
  {
   "property": "C52",
   "status": "partial",
   "theorems": [
    "C52_beam_beam_partial",
    "C52_beam_beam_refuted"
   ],
   "note": "Proved for particles with the velocity of the reference particle; refuted for others (the code divides by the velocity ratio instead of multiplying)."
  },
  {
   "property": "C53",
   "status": "partial",
   "theorems": [
    "C53_axes",
    "C53_axes_round",
    "C53_derivatives_partial"
   ],
   "note": "Axes and sizes proved for all matrices (exact away from round beams, error bounded by the threshold otherwise). Derivatives proved away from round beams; the derivative of the sine only where it is at least the threshold or the covariance is zero (in between the code uses an approximation)."
  },
  {
   "property": "C54",
   "status": "partial",
   "theorems": [
    "C54_copy_partial",
    "C54_room_partial",
    "C54_memory_partial",
    "C54_field_status",
    "C54_beam_beam_6d",
    "C54_never_copied",
    "C54_field_refuted",
    "C54_beam_beam_6d_refuted",
    "C54_silent_refuted"
   ],
   "note": "Proved for lines without beam-beam and space-charge elements and field maps: exact copies in order, status 0 exactly when the whole range is copied, success with room (address kept) or memory. For 4D/6D beam-beam, coasting and q-gaussian space charge the code returns the inverted status (refuted); a 6D beam-beam element is copied as a 4D one (refuted); interpolated space charge and field maps are never copied (refuted). Source and destination are different buffers."
  },
  {
   "property": "C55",
   "status": "partial",
   "theorems": [
    "C55_parameters_partial",
    "C55_reserve_partial",
    "C55_no_slots_refuted"
   ],
   "note": "Proved for all element types except coasting and interpolated space charge and field maps, for which the code counts no slots (C55_no_slots_refuted); reserving the computed numbers is enough to copy the line."
  },
  {
   "property": "C56",
   "status": "partial",
   "theorems": [
    "C56_add",
    "C56_new_from",
    "C56_required",
    "C56_add_long",
    "C56_read",
    "C56_assign",
    "C56_assign_no",
    "C56_append",
    "C56_append_no",
    "C56_clear",
    "C56_sync",
    "C56_history",
    "C56_copy",
    "C56_add_refuted",
    "C56_copy_refuted",
    "C56_copy_same_refuted"
   ],
   "note": "Everything for texts of at most max_length characters, and every sequence of operations. Refuted: a text of max_length + 1 characters is accepted without a terminating zero; a copy has one character more than the original; copying inside the same buffer reads freed memory when it grows."
  },
  {
   "property": "C57",
   "status": "partial",
   "theorems": [
    "C57_defined",
    "C57_history",
    "C57_selected",
    "C57_distinct",
    "C57_find",
    "C57_find_text",
    "C57_flags_refuted",
    "C57_failure_refuted",
    "C57_unselect_refuted",
    "C57_clear_refuted",
    "C57_negative_refuted"
   ],
   "note": "The whole property for non-negative ids and histories without clear(). Refuted: marks in the node information, failed changes keeping the selection, unselecting without index, clear(), negative ids."
  },
  {
   "property": "C58",
   "status": "partial",
   "theorems": [
    "C58_selected",
    "C58_counts",
    "C58_run",
    "C58_run_default",
    "C58_defined",
    "C58_output",
    "C58_not_prepared",
    "C58_no_sets",
    "C58_session",
    "C58_reset",
    "C58_reset_same",
    "C58_reset_other",
    "C58_default_counts_refuted",
    "C58_invalid_refuted",
    "C58_reset_refuted",
    "C58_select",
    "C58_select_refuted"
   ],
   "note": "Proved: choice of sets, counts and offsets, the three ways of tracking (each particle as alone, frame, status), outputs as those of some schedule, sessions, failures, reset. Refuted: counts of a job without indices, invalid indices, reset with another buffer, selectParticleSet with C++ buffers."
  },
  {
   "property": "C59",
   "status": "proved",
   "theorems": [
    "C59_new",
    "C59_add",
    "C59_copy",
    "C59_find",
    "C59_counts",
    "C59_get",
    "C59_set",
    "C59_prepare",
    "C59_prepare_any",
    "C59_store",
    "C59_store_one",
    "C59_store_mismatch",
    "C59_store_stops",
    "C59_address",
    "C59_assign_to",
    "C59_copy_over",
    "C59_remap",
    "C59_stays",
    "C59_compare",
    "C59_clear",
    "C59_clear_one",
    "C59_add_row",
    "C59_copy_row",
    "C59_compare_self_refuted",
    "C59_clear_refuted"
   ],
   "note": "Sets added (from arrays, empty, copied), found, counted, read and written; tables prepared (also when allocations fail: the call succeeds exactly if every object got its row), stored, remapped after moves, compared, cleared, rows added, copied and turned back into particle sets; over all reachable buffers. Beyond the claim: buffers that are no tables compare as unequal to themselves and clearing reports success when objects are no rows (refuted variants)."
  },
  {
   "property": "C60",
   "status": "partial",
   "theorems": [
    "C60_difference",
    "C60_difference_other",
    "C60_zero",
    "C60_max",
    "C60_same_structure",
    "C60_buffers",
    "C60_clear",
    "C60_max_misses_refuted",
    "C60_max_beyond_refuted",
    "C60_buffer_max_refuted"
   ],
   "note": "Differences (any arithmetic), their vanishing (reals), same structure, differences of buffers and clearing are proved in full; the maximum is proved among as many particles as the destination has, and the full claim is refuted (C60_max_misses_refuted, C60_max_beyond_refuted, C60_buffer_max_refuted)."
  },
  {
   "property": "C61",
   "status": "partial",
   "theorems": [
    "C61_history",
    "C61_defined",
    "C61_send_iff",
    "C61_receive_iff",
    "C61_back",
    "C61_other_buffer_refuted",
    "C61_raw_refuted",
    "C61_overflow_refuted",
    "C61_update_refuted",
    "C61_remap_unreported_refuted"
   ],
   "note": "Holds for histories of buffer transfers with remapping (CUDA arguments; C and C++ interface). Proved: the refinement to lists of objects over all histories, definedness of all transfers, exact conditions of success, and that an argument used for one buffer gives back to it. Refuted: arguments used for several buffers, for raw memory after buffers or for several raw regions give back to the wrong place; region updates do not reach the device; remap failures on the device are unreported outside of debug mode. Not covered: transfers without remapping, raw transfers beyond the refutations, OpenCL arguments."
  },
  {
   "property": "C62",
   "status": "partial",
   "theorems": [
    "C62_selected",
    "C62_run",
    "C62_run_default",
    "C62_one_set_refuted",
    "C62_reset",
    "C62_assign",
    "C62_assign_late",
    "C62_assign_none",
    "C62_empty_set_refuted",
    "C62_reset_total_refuted",
    "C62_assign_refuted",
    "C62_assign_turns_refuted",
    "C62_newer_status_refuted"
   ],
   "note": "Proved: choice of sets and counts, definedness, tracking exactly the chosen sets, reset equal to a new job, assignment of another output buffer equal to a new job if the particles start at turn 0 (and what it is equal to for any first turn). Refuted: the constructor with one index (undefined for every index but 0), empty sets, totals after a reset for missing sets, and the assignment for particles that start later. Not covered: an output buffer which the job has already, copies of jobs."
  },
  {
   "property": "C63",
   "status": "partial",
   "theorems": [
    "C63_set_fails",
    "C63_set_only",
    "C63_set_one",
    "C63_set_array",
    "C63_set_array_other",
    "C63_clear",
    "C63_reset",
    "C63_grid",
    "C63_grid_defined",
    "C63_ids",
    "C63_configure",
    "C63_track",
    "C63_configure_assign",
    "C63_cl_items",
    "C63_cl_track",
    "C63_cl_set",
    "C63_totals",
    "C63_threads_refuted",
    "C63_total_refuted",
    "C63_dimensions_refuted",
    "C63_array_refuted",
    "C63_needs_update_refuted",
    "C63_stale_refuted",
    "C63_large_refuted",
    "C63_stride_refuted",
    "C63_arguments_refuted",
    "C63_fetch_refuted",
    "C63_cl_group_refuted"
   ],
   "note": "Proved: setters store what was given or fail without effect; the grid of an update; numbering of the threads; tracking with the default grid or an OpenCL launch tracks every particle once. Refuted of the code: one thread per particle, totals of work items, settings of two and three dimensions, asking for updates, grids of 2^32 blocks, number of arguments, group size chosen for OpenCL tracking kernels. Missing: names, ids and copies of configurations."
  },
  {
   "property": "C64",
   "status": "partial",
   "theorems": [
    "C64_reset",
    "C64_reset_all_arrive",
    "C64_history",
    "C64_push",
    "C64_collect",
    "C64_round_trip",
    "C64_particles_missing_refuted",
    "C64_failure_lost_refuted",
    "C64_assignment_refuted"
   ],
   "note": "Reset, push and collect of a job with five distinct buffers are modelled in full; the debug register, stored user buffers and the OpenCL job are not; the host part of reset is an argument. \"Reset reports success only if everything is on the device\" is refuted (C64_particles_missing_refuted, C64_failure_lost_refuted), so is the independence of kernel assignments from transfers (C64_assignment_refuted)."
  },
  {
   "property": "C65",
   "status": "partial",
   "theorems": [
    "C65_new",
    "C65_add",
    "C65_copy",
    "C65_required",
    "C65_read",
    "C65_element",
    "C65_clear",
    "C65_remove_last",
    "C65_remove_last_empty",
    "C65_history",
    "C65_remove_none",
    "C65_remove_all",
    "C65_append_refused",
    "C65_append_num",
    "C65_append_refuted",
    "C65_remove_num_refuted",
    "C65_append_num_refuted",
    "C65_remove_num_spill_refuted"
   ],
   "note": "Adding (empty, with elements, as a copy), reading, clearing, removing the last or all elements, refusals and rollback proved for all arrays, with a history theorem; appending elements and removing some of several elements are refuted of the code for every array (C65_append_refuted, C65_remove_num_refuted) or by example."
  },
  {
   "property": "C66",
   "status": "partial",
   "theorems": [
    "C66_add_partial",
    "C66_fields_partial",
    "C66_room_partial",
    "C66_memory_partial",
    "C66_refused",
    "C66_beam_beam_6d",
    "C66_line_density",
    "C66_q_gauss_new",
    "C66_beam_beam_6d_refuted",
    "C66_line_density_refuted",
    "C66_q_gauss_new_refuted",
    "C66_plane_refuted",
    "C66_float_tests",
    "C66_limits_squared"
   ],
   "note": "All X_new/X_add calls of the beam elements, on the model of Buffer_add_object: what is stored, refused, and when calls succeed. Partial: false for 6D beam-beam elements, LineDensityProfileData_add and SCQGaussProfile_new (what they store instead is proved) and undefined for field maps with nx*ny >= 2^63."
  },
  {
   "property": "C67",
   "status": "partial",
   "theorems": [
    "C67_new_partial",
    "C67_room_partial",
    "C67_memory_partial",
    "C67_status",
    "C67_stops",
    "C67_line_refuted",
    "C67_silent_refuted"
   ],
   "note": "For lines of drifts, multipoles, RF multipoles, cavities, shifts, rotations, field maps and their elements: new elements are created in order, of the same kind and size with default values and zero arrays, status 0 exactly if for all (C67_new_partial), with room or memory for all (C67_room_partial, C67_memory_partial). For 4D beam-beam (with data size at least 11), coasting and interpolated space-charge, monitor, aperture and dipole edge elements one element is created correctly but the status is 1 on success and 0 on failure (C67_status), so that the work on a line ends behind the first of them (C67_stops, C67_line_refuted) or a failure is reported as success (C67_silent_refuted). Missing: 6D beam-beam and new q-Gaussian elements, which are created wrongly (C66)."
  },
  {
   "property": "C68",
   "status": "partial",
   "theorems": [
    "C68_append_partial",
    "C68_room",
    "C68_memory",
    "C68_turns",
    "C68_elsewhere",
    "C68_position",
    "C68_position_refuted"
   ],
   "note": "With room or memory the wanted monitors are appended, the other objects unchanged, status success (C68_room, C68_memory); if the first monitor fits, success is reported exactly if all are there (C68_append_partial); after any number of turns up to the target they hold exactly the turns asked for (C68_turns); other places are refused without effect (C68_elsewhere, C68_position). False for an empty line by position (C68_position_refuted). Missing: what happens when the first monitor cannot be created and the second one is tried."
  },
  {
   "property": "C69",
   "status": "partial",
   "theorems": [
    "C69_clear_partial",
    "C69_again",
    "C69_as_new",
    "C69_interpolated_refuted",
    "C69_moved_refuted"
   ],
   "note": "All lines of elements without arrays (and field maps) in any buffer, any history: values, places, other objects, order of the buffer, idempotence, equality with new elements. Refuted: multipoles and beam-beam elements lose the address of their arrays and with it the buffer can no longer be moved, copied or extended (C69_moved_refuted); interpolated space charge is not cleared (C69_interpolated_refuted)."
  },
  {
   "property": "C70",
   "status": "partial",
   "theorems": [
    "C70_answer",
    "C70_yes",
    "C70_no",
    "C70_missing_wraps",
    "C70_missing_refuted"
   ],
   "note": "Answer, yes and no parts for all reachable buffers and objects. Refuted: after a no the missing numbers are reported modulo 2^64 with the wrong sign (C70_missing_wraps says what is reported)."
  },
  {
   "property": "C71",
   "status": "partial",
   "theorems": [
    "C71_new_partial",
    "C71_garbage_refuted",
    "C71_planned"
   ],
   "note": "All limits with at most one garbage entry; the list part has no restriction but sizes below 2^63. Refuted: with two or more garbage entries no buffer is made. Missing: data stores other than the memory pool (the only one the code has)."
  },
  {
   "property": "C72",
   "status": "partial",
   "theorems": [
    "C72_order",
    "C72_order_refuted",
    "C72_to_string",
    "C72_to_string_unset",
    "C72_round_trip",
    "C72_from_string",
    "C72_large_refuted",
    "C72_unknown_arch_refuted",
    "C72_negative_arch_refuted",
    "C72_reserve",
    "C72_free",
    "C72_make_partial",
    "C72_make_refuted",
    "C72_device",
    "C72_text",
    "C72_print_partial",
    "C72_print_refuted"
   ],
   "note": "Order, texts, reading back, reserve, free and the descriptions the OpenCL context makes are proved for all inputs and allocation outcomes. ComputeNodeInfo_make is right exactly when platform and name have the same length (the code exchanges the two lengths); unset ids, numbers from 2^31, unknown architectures and the exactly filled array are refuted."
  },
  {
   "property": "C73",
   "status": "partial",
   "theorems": [
    "C73_all",
    "C73_ids",
    "C73_available_partial",
    "C73_empty_name_refuted",
    "C73_find",
    "C73_find_text",
    "C73_find_no_id",
    "C73_page",
    "C73_default_partial",
    "C73_default_none_refuted",
    "C73_default_unnamed_refuted",
    "C73_large_refuted"
   ],
   "note": "All nodes, the ids read from any text, the selection, lookup and pages proved; the default node for named devices. Refuted: a variable name given as \"\", the default id without a node on offer, a first device without a name, numbers of 2^31 or more."
  },
  {
   "property": "C74",
   "status": "partial",
   "theorems": [
    "C74_history",
    "C74_defined",
    "C74_write_iff",
    "C74_read_iff",
    "C74_refers",
    "C74_size",
    "C74_construct",
    "C74_update",
    "C74_raw",
    "C74_raw_construct",
    "C74_reported",
    "C74_read_back_refuted",
    "C74_unwritten_refuted",
    "C74_raw_connected_refuted",
    "C74_remap_unreported_refuted",
    "C74_debug_refuted"
   ],
   "note": "Proved for all histories that start from a new argument and buffers with full arrays, with any outcomes of the commands, and reading only after a successful write. Refuted: reading back into a smaller buffer, reading before a write, the connection after raw writes, unreported failures of the remapping kernel without debug mode, writing in debug mode after selecting a node by id or text."
  },
  {
   "property": "C75",
   "status": "partial",
   "theorems": [
    "C75_add_code",
    "C75_add_file",
    "C75_programs_kept",
    "C75_kernels",
    "C75_find",
    "C75_enable",
    "C75_kernels_kept",
    "C75_arguments",
    "C75_argument_out_of_range",
    "C75_reset_arguments",
    "C75_reset_argument",
    "C75_reset_arguments_refuted",
    "C75_enable_again",
    "C75_enable_again_refuted",
    "C75_times",
    "C75_longest_refuted",
    "C75_run",
    "C75_run_unknown",
    "C75_work_items",
    "C75_run_overflow_refuted",
    "C75_work_group_size",
    "C75_flags",
    "C75_set_flag",
    "C75_flag_change_refuted",
    "C75_flag_text",
    "C75_flag_text_absent",
    "C75_select_iff",
    "C75_select",
    "C75_select_once",
    "C75_failed_select_refuted",
    "C75_no_options_refuted",
    "C75_debug_refuted",
    "C75_missing_file_refuted",
    "C75_clear",
    "C75_report"
   ],
   "note": "Proved for all reachable contexts and all histories, with any answers of file system, compiler and commands. Refuted: failed selections leave the node selected, programs without options are never built, enabling again is refused, values survive a reset of all parameters, flags cannot be changed, default program registered twice in debug mode, missing default file reported as success, longest time of runs without measurable time, overflow of the number of work items."
  },
  {
   "property": "C76",
   "status": "partial",
   "theorems": [
    "C76_prepare",
    "C76_history",
    "C76_job",
    "C76_selected_not_first_refuted",
    "C76_single_set_refuted",
    "C76_elem_items_refuted",
    "C76_work_group_size_refuted",
    "C76_no_kernel",
    "C76_set_kernel",
    "C76_line_kernel_refuted",
    "C76_failed_set_refuted",
    "C76_beam_beam",
    "C76_beam_beam_refuted",
    "C76_refused",
    "C76_some_kernels"
   ],
   "note": "Proved for all histories of calls on a context with all kernels set up, in normal and debug mode, and for jobs whose selected set comes first. Refuted: jobs whose selected set is not the first, work items of element by element tracking of a given set, use of the work group size, id of the track_line kernel, refused assignments of a set, changes of the beam-beam flags."
  },
  {
   "property": "C77",
   "status": "partial",
   "theorems": [
    "C77_new",
    "C77_history",
    "C77_other",
    "C77_ready",
    "C77_addresses",
    "C77_addresses_refused",
    "C77_node_id_refuted",
    "C77_select_other_refuted",
    "C77_amd_programs_lost_refuted",
    "C77_default_amd_refuted"
   ],
   "note": "Proved for the constructors with index, text and two numbers and for any history before selecting a node by index: all kernels of the library for the choices made, slot sizes and flags. Refuted: constructor with a node id (C77_node_id_refuted), slot sizes after selection by id or text (C77_select_other_refuted), programs of the user on AMD nodes (C77_amd_programs_lost_refuted), fall-back to an AMD default node (C77_default_amd_refuted)."
  }
 ]
}
