#!/usr/bin/env python3
# Generates /verif/properties.jsonl (kept as a script so that entries stay valid JSON).
import json, os
P = []
def p(title, statement, quantifier, why, anchors):
    P.append(dict(id="C%02d" % (len(P)+1), title=title, statement=statement,
                  quantifier=quantifier, why_tests_cant=why, anchors=anchors))
B="sixtracklib/common/"
p("Adding objects preserves all earlier objects",
  "After any sequence of successful object additions to a buffer, every object added earlier is still found at the index at which it was added, with the same type id, the same size, the same plain data, and pointer members that lead to data arrays with the same contents; no object is lost, reordered or duplicated.",
  "every initial buffer layout, every sequence of additions (types, sizes, attribute counts and contents), every choice of reallocation address",
  "Object sequences, sizes and relocation addresses are unbounded; tests only sample a few layouts and never choose the allocator's addresses.",
  [B+"buffer/buffer_generic.h: NS(Buffer_add_object_generic)", B+"buffer.h: NS(Buffer_add_object)", B+"buffer/managed_buffer_minimal.h: NS(ManagedBuffer_get_const_object)"])
p("Remapping a relocated buffer preserves its contents",
  "If the raw bytes of a valid buffer are copied to any other suitably aligned address and remapped there, remap succeeds and the buffer exposes exactly the same objects (type ids, sizes, plain data, attribute arrays) as before, with every internal pointer now pointing into the new location.",
  "every valid buffer content and every pair of old/new base addresses",
  "Absolute addresses are chosen by the allocator/OS/device; tests see only a handful of offsets and layouts.",
  [B+"buffer/managed_buffer_remap.h: NS(ManagedBuffer_remap)", B+"buffer/managed_buffer_remap.h: NS(ManagedBuffer_remap_section_dataptrs)", B+"buffer/buffer_generic.h: NS(Buffer_remap_generic)"])
p("Remap is idempotent",
  "Remapping a buffer that is already mapped to its current address succeeds and leaves every byte unchanged; after any successful remap the buffer reports that it needs no further remapping.",
  "every valid buffer at every address",
  "Ranges over all buffer contents and addresses.",
  [B+"buffer/managed_buffer_remap.h: NS(ManagedBuffer_remap)", B+"buffer/managed_buffer_minimal.h: NS(ManagedBuffer_needs_remapping)"])
p("Reserving capacity preserves contents",
  "A successful reserve (growing objects, slots, data pointers, garbage limits) leaves the number of objects, every object's type, size and contents unchanged and leaves room for at least the requested numbers.",
  "every valid buffer, every tuple of requested limits, every reallocation address",
  "The section moves depend on the combination of all current and requested sizes; the product space is unbounded.",
  [B+"buffer/buffer_generic.h: NS(Buffer_reserve_generic)", B+"buffer/managed_buffer.h: NS(ManagedBuffer_reserve)"])
p("A failed reserve or add leaves the buffer unchanged",
  "If a reserve request or an object addition is rejected, the buffer contents (objects, sizes, pointers, counters) are exactly what they were before the call.",
  "every valid buffer and every rejected request",
  "Failure paths depend on which of several section moves fails; tests rarely reach the partial-failure paths.",
  [B+"buffer/managed_buffer.h: NS(ManagedBuffer_reserve)", B+"buffer/buffer_generic.h: NS(Buffer_add_object_generic)"])
p("Buffer sections and objects never overlap and stay in bounds",
  "In every buffer reachable through the API the header, the slots, objects, data-pointer and garbage sections are pairwise disjoint and inside the buffer, and the storage ranges of distinct objects are disjoint and inside the slots section.",
  "every sequence of API operations",
  "Memory-layout invariant over all histories; a test only sees the layouts it builds.",
  [B+"buffer/managed_buffer.h: NS(ManagedBuffer_init)", B+"buffer/managed_buffer.h: NS(ManagedBuffer_reserve)", B+"buffer/buffer_generic.h"])
p("Reset empties a buffer without shrinking it",
  "After a clear the buffer holds no objects and its limits, address and capacity are unchanged; after a reset with given limits it holds no objects and has these limits if they fit into the capacity, and otherwise nothing has changed; whatever is added afterwards is all the buffer holds.",
  "every reachable buffer and every following sequence of additions",
  "Ranges over all histories before and after the reset.",
  [B+"buffer/buffer_generic.h: NS(Buffer_reset_generic)", B+"buffer/managed_buffer.h: NS(ManagedBuffer_clear)"])
p("Object access by index is exact",
  "Asking a buffer for the object at index i returns the i-th object when i is below the number of objects and nothing otherwise.",
  "every valid buffer and every index",
  "Boundary behaviour for every buffer size.",
  [B+"buffer/managed_buffer_minimal.h: NS(ManagedBuffer_get_const_object)", B+"buffer/buffer_generic.h: NS(Buffer_get_const_object)"])
p("Saved buffers load back identically",
  "Writing a buffer to a file normalised to any base address and initialising a buffer from the file's bytes at any other address yields a buffer with the same objects and contents.",
  "every valid buffer, every normalisation address, every load address",
  "Unbounded contents and addresses.",
  [B+"buffer/buffer.c: NS(Buffer_write_to_file_normalized_addr)", B+"buffer/buffer.c: NS(Buffer_read_from_file)", B+"buffer/managed_buffer_remap.h"])
p("Memory pool blocks are aligned, in range and disjoint",
  "Every block successfully appended to a memory pool starts at a multiple of the requested alignment, lies inside the pool's capacity and overlaps no earlier block; a rejected append changes nothing; the remaining size never underflows.",
  "every pool capacity/chunk size/base address and every sequence of append, reserve and clear requests",
  "Sequences of requests with arbitrary sizes and alignments are unbounded.",
  [B+"buffer/mem_pool.c", B+"buffer/mem_pool.h: NS(MemPool_append_aligned)"])
p("Common alignment is a common multiple",
  "The common alignment of two (or more) positive alignments is divisible by each of them, and the least one is no larger than any other common multiple.",
  "all pairs (tuples) of positive 64-bit alignments whose least common multiple is representable",
  "2^128 input pairs; the loop has to terminate with the right value for all of them.",
  [B+"buffer/alignment.h: NS(Alignment_calculate_common)", B+"buffer/alignment.c", B+"internal/tools.h: NS(greatest_common_divisor)"])
p("Address assignment writes exactly the designated pointer",
  "Executing an address-assignment item stores the address of the designated source object (plus offset) in the designated pointer member of the destination object and changes no other byte; processing a list of items with pairwise distinct destinations gives the same result in any order and for any distribution over work-items.",
  "every buffer pair, every item list, every work-item stride and execution order",
  "Schedules and item lists are unbounded.",
  [B+"buffer/assign_address_item.h", B+"buffer/assign_address_item_kernel_impl.h: NS(AssignAddressItem_perform_address_assignment)"])
p("Address-assignment items are totally ordered by their keys",
  "The less-than comparison of address-assignment items is a strict total order consistent with item equality, so sorting and binary search over items are well defined, and every item added to a job is found again.",
  "all pairs/triples of items",
  "Order laws range over all triples of 8-field records.",
  [B+"buffer/assign_address_item.h: NS(AssignAddressItem_compare_less)", B+"track/track_job_base.cpp: add_assign_address_item"])
p("Copying particles copies every attribute and nothing else",
  "Copying one particle, a range, or a whole set transfers all 21 attributes of exactly the selected particles and leaves every other particle of the destination unchanged; requests outside either set change nothing and are reported as failures.",
  "all particle sets, sizes and index ranges",
  "Sizes and index ranges unbounded; a dropped attribute or off-by-one only shows on particular combinations.",
  [B+"particles.h: NS(Particles_copy_single)", B+"particles.h: NS(Particles_copy_range)", B+"particles.h: NS(Particles_copy)"])
p("Single-particle buffers round-trip",
  "Extracting a particle into a local one-particle set and writing it back, with no change in between, leaves the particle set unchanged, and extracting after writing returns what was written.",
  "all particle sets and all in-range indices",
  "Aliasing of 21 attribute arrays over all sizes.",
  [B+"particles.h: NS(Particles_copy_from_generic_addr_data)", B+"particles.h: NS(Particles_copy_to_generic_addr_data)", B+"particles.h: NS(Particles_init_from_flat_arrays)"])
p("Global particle indices map one-to-one onto particles of the sets",
  "For a list of particle sets, every global index below the total number of particles designates exactly one particle (set, local index), distinct indices designate distinct particles, every particle is designated by some index, and indices beyond the total designate nothing.",
  "every list of particle sets (including empty sets and foreign objects in between) and every index",
  "Unbounded lists and indices.",
  [B+"particles.h: NS(BufferIndex_get_index_object_by_global_index)", B+"particles.h: NS(BufferIndex_get_total_num_of_particles_in_range)"])
p("Reported min/max attributes are tight bounds",
  "The minimum and maximum particle id, element id and turn reported for a particle set bound the corresponding attribute of every particle in the set and are attained by some particle.",
  "all particle sets and all attribute values",
  "Unbounded sets and values.",
  [B+"particles.h: NS(Particles_find_min_max_attributes)", B+"particles.h: NS(Particles_get_min_max_particle_id_value_no_duplicate_check)"])
p("Tracking in stages equals tracking at once",
  "Tracking a particle until turn n and then until turn m (m >= n) gives bit for bit the same particle as tracking it directly until turn m.",
  "every beam line, every particle, all n <= m",
  "Quantifies over all lattices, particles and turn numbers.",
  [B+"track/track.h: NS(Track_particle_until_turn_objs)", B+"track/track_kernel_impl.h"])
p("Lost particles are frozen",
  "A particle that is marked as lost is never changed by any of the tracking functions: all its coordinates and the element and turn at which it was lost stay as they were.",
  "every lattice, every lost particle, every tracking mode",
  "Quantifies over lattices, histories and tracking modes.",
  [B+"track/track.h: NS(Track_particle_beam_element_obj)", B+"track/track.h: NS(Track_particle_until_turn_objs)", B+"track/track.h: NS(Track_particle_element_by_element_until_turn_objs)", B+"track/track.h: NS(Track_particle_line_objs)"])
p("Turn and element bookkeeping is exact",
  "After tracking until turn n an active particle is at turn n, at the element id it started from and at s = 0; a particle lost on the way carries the turn and the element index at which it was lost; a particle already at or beyond turn n is unchanged.",
  "every lattice, particle and target turn",
  "Loop-exit conditions for all lattices and turn counts.",
  [B+"track/track.h: NS(Track_particle_until_turn_objs)", B+"track/track.h: NS(Track_particle_increment_at_turn)"])
p("Particles are tracked independently of each other and of the schedule",
  "Tracking a particle set gives, for every particle, exactly the result of tracking it alone; the result does not depend on how particles are distributed over work-items (start index, stride) nor on the order or interleaving in which the work-items run.",
  "every lattice, particle set, work-item count/stride and execution order",
  "Schedules are unbounded and not controllable from tests.",
  [B+"track/track_kernel_impl.h", B+"track/track.c: NS(Track_all_particles_until_turn)"])
p("Optimised kernels equal plain kernels",
  "The kernels which copy a particle into local memory, track the copy and write it back give the same particle set, bit for bit, as the kernels operating directly on the particle set.",
  "every lattice, particle set, particle index and target turn",
  "All inputs; equality has to hold for every attribute.",
  [B+"track/track_kernel_opt_impl.h", B+"track/track_kernel_impl.h"])
p("Element-by-element tracking does not perturb the dynamics and records it",
  "Element-by-element tracking leaves every active particle in the same final state as plain tracking until the same turn, and the output record for (particle, turn, element) holds the particle's state just before that element in that turn.",
  "every lattice, particle, turn range and output configuration",
  "Quantifies over trajectories; equality of two loops.",
  [B+"track/track.h: NS(Track_particle_element_by_element_until_turn_objs)", B+"output/elem_by_elem_config.h"])
p("Element-by-element storage indices are collision free and invertible",
  "Within a configuration, distinct (particle id, element id, turn) triples in range map to distinct output indices inside the output capacity, every index below the capacity is used, and the particle id, element id and turn recovered from an index are the ones it was computed from.",
  "all configurations and all triples",
  "Unbounded configuration sizes.",
  [B+"output/elem_by_elem_config.h: NS(ElemByElemConfig_get_particles_store_index_details)", B+"output/elem_by_elem_config.h: NS(ElemByElemConfig_get_at_turn_from_store_index)"])
p("Rolling element-by-element output keeps the latest turns",
  "With rolling output every accepted triple maps inside the capacity, and two triples share an index only if they agree in particle and element and their turns differ by a multiple of the number of stored turns; so after any number of turns the output holds the most recent ones.",
  "all configurations and turn numbers",
  "Turn numbers unbounded.",
  [B+"output/elem_by_elem_config.h: NS(ElemByElemConfig_get_particles_store_index_details)"])
p("Element-by-element configuration covers the requested turns",
  "A configuration set up for tracking element by element until turn N covers every turn from the smallest initial turn of the particles up to N-1, every tracked particle and every element, and the output buffer prepared for it is large enough.",
  "all particle sets, lattices and target turns",
  "Depends on combinations of min turn, min element id and N.",
  [B+"output/elem_by_elem_config.c: NS(ElemByElemConfig_init)", B+"output/elem_by_elem_output_buffer.c"])
p("Beam monitor storage indices are collision free",
  "For a beam monitor, distinct (particle, stored turn) pairs go to distinct positions inside its output particle set, in both turn-ordered and particle-ordered layout; turns before the start, off the skip pattern, or beyond the stores of a non-rolling monitor are not stored; rolling monitors overwrite exactly the record num_stores samples earlier.",
  "all monitor settings, particles and turns",
  "Unbounded settings; collisions appear only for particular shapes.",
  [B+"be_monitor/track.h: NS(BeamMonitor_get_store_particle_index)", B+"be_monitor/be_monitor.h"])
p("Tracking never writes outside the prepared output",
  "During tracking every write to an output buffer (element-by-element or beam monitor) goes to an existing particle slot of the output particle set assigned for it.",
  "every lattice, configuration, particle, turn",
  "Memory safety over all runs.",
  [B+"be_monitor/track.h: NS(Track_particle_beam_monitor)", B+"track/track.h: NS(Track_particle_element_by_element_until_turn_objs)", B+"be_monitor/output_buffer.c"])
p("Aperture checks remove exactly the particles outside",
  "After an aperture element an active particle is still active iff its transverse position satisfies the aperture's inequality (rectangle: closed box; ellipse: closed ellipse; rect-ellipse: both; global limit: open box), a lost particle stays lost, nothing but the state changes, and non-finite coordinates are never accepted.",
  "all apertures and all positions (including non-finite floating point values)",
  "Continuous input space, boundary cases and NaN.",
  [B+"be_limit/track.h"])
p("Drifts compose and invert",
  "Tracking through a drift of length L1 and then one of length L2 equals tracking through one of length L1+L2, in both the expanded and the exact drift, and a drift of length -L undoes one of length L; the particle moves along a straight line with its slopes and arrives after the time its velocity needs for that line (to second order in the slopes in the expanded drift).",
  "all particles with physical momenta and all lengths",
  "Continuous inputs; an algebraic law.",
  [B+"be_drift/track.h: NS(Track_particle_drift)", B+"be_drift/track.h: NS(Track_particle_drift_exact)"])
p("Energy updates keep the longitudinal variables consistent",
  "Adding energy dE to a particle or setting its relative momentum deviation leaves delta, psigma, rpp, rvv describing one and the same particle momentum: the particle's energy grows by exactly dE, rpp = 1/(1+delta), rvv = beta/beta0 and zeta/rvv is kept.",
  "all particles with consistent coordinates and all admissible energy changes",
  "Continuous inputs and nonlinear relations between redundant variables.",
  [B+"particles.h: NS(Particles_add_to_energy_value)", B+"particles.h: NS(Particles_update_delta_value)", B+"particles.h: NS(Particles_get_energy_value)", B+"be_cavity/track.h"])
p("Thin multipoles give the complex multipole kick",
  "A thin multipole changes px and py by -chi*Re and chi*Im of the sum over n of (k_n + i s_n)/n! (x + i y)^n (plus the curvature terms), leaves x, y, s, delta and all other coordinates unchanged, and the kick is the gradient of a potential.",
  "all orders, coefficients and positions",
  "All polynomial orders and all real inputs.",
  [B+"be_multipole/track.h: NS(Track_particle_multipole)"])
p("Rotations and shifts are invertible and orthogonal",
  "Rotating by an angle and then by its negative, or shifting by (dx,dy) and then by (-dx,-dy), restores the particle; rotations preserve x^2+y^2 and px^2+py^2 and compose additively in the angle.",
  "all angles, shifts and particles",
  "Continuous inputs.",
  [B+"be_srotation/track.h", B+"be_xyshift/track.h"])
p("Lattice maps are symplectic",
  "The transverse phase-space map of the drift (fixed energy), multipole, dipole edge, rotation and shift elements, and of any sequence of them, preserves the symplectic form (its Jacobian J satisfies J^T S J = S).",
  "all elements, all lattices built from them, all phase-space points",
  "A derivative identity at every phase-space point and for every lattice.",
  [B+"be_drift/track.h", B+"be_multipole/track.h", B+"be_dipedge/track.h", B+"be_srotation/track.h", B+"be_xyshift/track.h"])
p("Line tracking composes",
  "Tracking a particle through elements [a,b) and then [b,c) gives the same particle as tracking it through [a,c), and tracking through the whole line with finish-turn equals tracking for one more turn.",
  "every lattice, split point and particle",
  "All lattices and split points.",
  [B+"track/track.h: NS(Track_particle_line_objs)"])
p("Status and error flags in the debug register are independent",
  "Storing a status in a debug register and reading it back returns the same status, storing a status never changes the error flags, and raising n error flags sets exactly the n lowest error flags while keeping the stored status.",
  "all 64-bit registers, all statuses, all n",
  "2^64 registers times 2^32 statuses.",
  [B+"control/debug_register.h"])
p("Multipole strengths round-trip and are scaled by factorials",
  "Setting knl[k] / ksl[k] and reading it back returns the value, changes no other coefficient, and the strength used in tracking is knl[k]/k!.",
  "all orders, indices and values",
  "All orders and indices.",
  [B+"be_multipole/be_multipole.h", B+"internal/math_factorial.h"])
p("Interpolated line densities are smooth and hit their table values",
  "Linear and cubic interpolation return the tabulated value at every abscissa of the table; linear interpolation is between neighbouring values; the cubic interpolation is twice continuously differentiable with the second derivative prescribed by the boundary condition.",
  "all tables, spacings and abscissas",
  "Tables of every length and real values.",
  [B+"internal/math_interpol.h"])
p("Tri-cubic interpolation matches value and derivatives at all eight cell corners",
  "The polynomial built from the 64 corner data (value, 3 first, 3 mixed second and the mixed third derivative at 8 corners) reproduces all 64 data at the corners; the kick applied to the particle is the gradient of that polynomial.",
  "all 64-vectors of corner data",
  "A 64x64 linear identity for all real vectors.",
  [B+"be_tricub/coefficients.h: NS(tricub_construct_coefs)", B+"be_tricub/track.h: NS(Track_particle_tricub)"])
p("Stored-buffer ownership is consistent",
  "Throughout any sequence of set, copy, move, reset and clear operations on a buffer store, the exposed buffer pointer is null or refers to a live buffer, and an owned buffer is exactly the exposed one.",
  "every operation sequence on stores",
  "Histories of copies and moves are unbounded.",
  [B+"track/track_job_buffer_store.cpp"])
p("Node ids survive text conversion",
  "The textual form of a valid node id parses back to the same platform and device id; ordering of node ids is a strict total order on (platform, device).",
  "all 64-bit platform and device ids",
  "2^128 ids.",
  [B+"control/node_id.cpp"])
p("Transfer and clear flags are independent",
  "Setting, unsetting and testing one collect/push flag of a track job never affects any other flag, and a job collects exactly the parts whose flags are set and available.",
  "all flag sets",
  "All combinations of flags and histories.",
  [B+"track/track_job_base.hpp: IsCollectFlagSet", B+"track/track_job_base.cpp", B+"track/track_job_cpu.cpp"])
p("Tracking never changes the reference attributes of a particle",
  "No tracking function changes q0, mass0, beta0, gamma0, p0c, chi, charge_ratio or the id of a particle, nor the number or the sizes of the output particle sets.",
  "every lattice, particle, tracking mode and build configuration",
  "All element sequences of all lengths.",
  [B+"track/track.h: NS(Track_particle_beam_element_obj_dispatcher)", B+"be_beamfields/track.h", B+"be_tricub/track.h"])
p("Duplicate particle ids are detected",
  "Asking for the particle id range of a set with duplicate check succeeds exactly when no two particles carry the same id (up to sign), and then reports the exact smallest and largest id; debug and release builds agree.",
  "all non-empty particle sets",
  "A recursive in-place merge sort over arbitrary arrays: all lengths and orders.",
  [B+"particles/particles.c: NS(Particles_get_min_max_particle_id)", B+"particles/particles.c: NS(Particles_particle_id_recursive_merge_sort)"])
p("Clearing and presetting particle sets reaches every particle and no other",
  "Clearing a set or a range zeroes all attributes of exactly the selected particles; presetting marks every particle active with unset ids.",
  "all particle sets and index ranges",
  "Unbounded sizes and ranges.",
  [B+"particles.h: NS(Particles_clear_range)", B+"particles.h: NS(Particles_preset_values)"])
p("A beam monitor reports correctly which turns are stored",
  "For every turn that has been tracked, asking a beam monitor whether the turn is stored answers yes exactly when the turn is one of its samples, is kept, and no later tracked sample has taken its place.",
  "all monitor settings, turns and numbers of tracked turns",
  "All combinations of start, skip, number of stores, rolling and turn.",
  [B+"be_monitor/be_monitor.h: NS(BeamMonitor_has_turn_stored)", B+"be_monitor/be_monitor.h: NS(BeamMonitor_stored_num_particles)"])
p("Stored buffers keep their ids",
  "Every buffer a user adds to a track job gets an id that was never handed out before; the id leads to that buffer (the lent one, or a buffer the job owns with the content handed over) until it is removed and to nothing afterwards; adding and removing other buffers never changes what an id leads to, and the reported number of stored buffers is the number of buffers not yet removed.",
  "every history of adding, removing and writing stored buffers",
  "Histories are unbounded.",
  [B+"track/track_job_base.cpp: add_stored_buffer, remove_stored_buffer, ptr_stored_buffer", B+"track/track_job_buffer_store.cpp"])
p("The kicks of an RF multipole derive from one potential",
  "The transverse kicks of an RF multipole are minus chi times the gradient of one potential at the arrival time of the particle, and its energy kick is that of a cavity minus charge times p0c times the rate of change of the same potential.",
  "all orders, strengths, phases, frequencies and consistent particles",
  "Real analysis over all orders and strengths.",
  [B+"be_rfmultipole/track.h: NS(Track_particle_rf_multipole)"])
p("Elements with default settings and switched-off elements change nothing",
  "A beam element freshly created or cleared through the API, one whose enabled flag is off, or one whose map is skipped at build time, passes every active particle inside the aperture unchanged.",
  "all element types, particles and build configurations",
  "All particles, orders and configurations.",
  [B+"be_dipedge/be_dipedge.h: NS(DipoleEdge_clear)", B+"be_beamfields/be_beamfields.h: NS(SCCoasting_clear)", B+"be_limit/be_limit_rect.h: NS(LimitRect_clear)", B+"track/track.h"])
p("The 6D beam-beam element leaves the beam alone without an opposing charge",
  "The change to the collision frame and back is the identity for every particle moving forward in both frames, and a 6D beam-beam element whose slices carry no charge and whose subtracted kicks are zero passes every such particle unchanged; beam-beam and Gaussian space-charge elements give a result for every particle.",
  "all crossing angles with positive cosine, crossing planes, numbers of slices, particles",
  "Real identities over all angles and coordinates.",
  [B+"be_beamfields/track.h: NS(Track_particle_beam_beam_6d)", B+"be_beamfields/be_beamfields.h: NS(BeamBeam6D_boost), NS(BeamBeam6D_inv_boost)"])
p("The beam field obeys Maxwell's equations",
  "The transverse field used for beam-beam and space-charge kicks is defined everywhere, has divergence charge density over vacuum permittivity and no curl, is mirror symmetric, and does not depend on which plane is called horizontal.",
  "all beam sizes, positions",
  "Real analysis at every point.",
  [B+"be_beamfields/gauss_fields.h: NS(get_transv_field_gauss_round), NS(get_transv_field_gauss_ellip), NS(get_Ex_Ey_Gx_Gy_gauss)"])
p("The 4D beam-beam kick is the Lorentz force of the opposing beam",
  "A 4D beam-beam element changes only the transverse momenta, by the field of the opposing beam times the charges, with the velocity factors computed from the velocity of the tracked particle and that of the opposing beam.",
  "all beam parameters and consistent particles",
  "All momenta and beam parameters.",
  [B+"be_beamfields/track.h: NS(Track_particle_beam_beam_4d)"])
p("The 6D beam-beam element sees the opposing beam with the right sizes and axes",
  "The rotated axes and sizes used for each slice reproduce the covariance matrix of the opposing beam propagated to the collision point, and the longitudinal derivatives used for the energy kick are the derivatives of these axes and sizes.",
  "all sigma matrices, collision points and thresholds",
  "Real analysis over all matrices.",
  [B+"be_beamfields/be_beamfields.h: NS(BeamBeam6D_propagate_Sigma_matrix)"])
p("Copying a beam line copies every element exactly or reports that it did not",
  "Copying a range of beam elements from one buffer into another appends exact copies of the elements with all their arrays, in order, and leaves the objects that were there unchanged; the status is zero exactly when the whole range was copied, and with enough room reserved the copy succeeds without moving the destination.",
  "all beam lines, ranges, destination buffers and allocation outcomes",
  "All line lengths, element types, array sizes and points at which an allocation fails.",
  [B+"beam_elements.h: NS(BeamElements_copy_to_buffer), NS(BeamElements_copy_single_to_buffer)", B+"be_multipole/be_multipole.c: NS(Multipole_add_copy)", B+"be_beamfields/be_beamfields.c: NS(BeamBeam4D_add_copy)"])
p("The buffer requirements computed for a beam line are exact",
  "The numbers of objects, slots and data pointers computed for a beam line are exactly what storing the line takes, so a buffer with these limits reserved takes a copy of the line without reallocation.",
  "all beam lines and ranges",
  "All line lengths, element types and array sizes.",
  [B+"beam_elements.h: NS(BeamElements_calc_buffer_parameters_for_line), NS(BeamElements_calc_buffer_parameters_for_object)", B+"be_beamfields/be_beamfields.h: NS(SCCoasting_num_slots)"])
p("Strings in a buffer hold exactly the text put into them",
  "Adding a string stores its text with a terminating zero behind the other objects, which are kept; assigning, appending, clearing and synchronising the length of strings, in any order and on any of the strings of a buffer, leaves every string with the text these operations give and all other objects unchanged; a text that does not fit is refused without any change; the reported lengths are those of the text; a copy equals the original.",
  "all buffers, texts, capacities and sequences of operations",
  "All lengths around the capacity, all positions inside a word, all sequences of operations and all other contents of the buffer.",
  ["sixtracklib/common/buffer/buffer_string_object.h: NS(BufferStringObj_add), NS(BufferStringObj_assign_cstring), NS(BufferStringObj_append_cstring), NS(BufferStringObj_clear), NS(BufferStringObj_sync_length), NS(BufferStringObj_add_copy)"])
p("The selected compute node is always an available one",
  "After any sequence of adding nodes, setting the default node, selecting, changing and unselecting, the controller reports the nodes that were added, with distinct ids and consecutive indices; at most one is selected, it is one of them, and the reported id text is its text; a selection succeeds exactly when the node exists, is another one than the selected one and changing is allowed; unselecting by index falls back to the default node when so configured; a node is found by its ids and by its text exactly when it exists.",
  "all sequences of calls, node ids, platform names and flag settings",
  "All sequences of calls; single calls from a fresh controller do not show stale selections.",
  ["sixtracklib/common/control/node_controller_base.cpp: NodeControllerBase::selectNode, NodeControllerBase::changeSelectedNode, NodeControllerBase::unselectNode, NodeControllerBase::doAppendAvailableNodeInfoBase, NodeControllerBase::doFindAvailableNodesIndex"])
p("A track job tracks exactly the particle sets it was given, each particle as if alone",
  "A job made or reset for a list of particle set indices takes those that name a set with particles, in ascending order and each once, and reports where their particles are; asking it to track until a turn, element by element or along a part of the line changes exactly the particles of these sets, each the way it would be tracked alone, and reports success exactly when all particles succeed; other objects in the buffer never change, in any sequence of requests; without sets or prepared output it fails and changes nothing.",
  "all particle buffers, lists of set indices, lines, tracking requests and sequences of requests",
  "All lists of indices with repetitions, empty sets and objects of other kinds, and all sequences of requests.",
  ["sixtracklib/common/track/track_job_base.cpp: TrackJobBase::doSetParticleSetIndices, TrackJobBase::reset, TrackJobBase::selectParticleSet", "sixtracklib/common/track/track_job_cpu.cpp: TrackJobCpu::trackUntil, TrackJobCpu::trackElemByElem, TrackJobCpu::trackLine"])
p("Particle sets in a buffer hold what is put in, and the address table says where",
  "A particle set added to or copied into a buffer holds exactly the given values and leaves all other objects unchanged; reading and writing the value of a particle concerns this value of this set only; the reported numbers of sets and particles are those of the buffer. The prepared and stored address table has one row for each object, with the number of particles and, for every attribute, the address at which the values of the particles lie one after the other; objects without particles have a row without addresses; when the block moves, moving the addresses by the same distance makes the table right again; tables compare equal exactly if they are.",
  "all buffers, particle sets, attributes, particles, address tables and histories of additions, writes and moves in between",
  "All numbers and sizes of sets, all mixtures with other objects, all attributes and all distances by which a block can move.",
  ["sixtracklib/common/particles.h: NS(Particles_add), NS(Particles_add_copy), NS(Particles_buffer_get_total_num_of_particles)", "sixtracklib/common/particles/particles_addr.h: NS(Particles_buffer_store_all_addresses), NS(ParticlesAddr_remap_addresses), NS(ParticlesAddr_managed_buffer_all_compare)", "sixtracklib/common/particles/particles_addr.c: NS(ParticlesAddr_prepare_buffer_based_on_particles_buffer)"])
p("Comparing particle sets shows exactly where they differ",
  "The difference of two particle sets of the same size holds, for every attribute of every particle, the difference of the values, so it vanishes exactly if the sets are equal; the maximum of a set is, for every attribute, the value of largest absolute value, with the first position it occurs at; two buffers have the same structure exactly if they hold particle sets of the same sizes in the same order, and their difference is that of their sets; clearing a buffer sets all attributes of all particles to zero and leaves other objects alone; sets or buffers that do not fit leave the result unchanged.",
  "all particle sets, buffers and values",
  "All values of 21 attributes of any number of particles: a test sees only the attributes it happens to make different.",
  ["sixtracklib/common/particles.h: NS(Particles_calculate_difference), NS(Particles_get_max_value), NS(Particles_buffers_have_same_structure), NS(Particles_buffers_calculate_difference), NS(Particles_buffer_get_max_value), NS(Particles_buffer_clear_particles)"])
p("Objects sent to a device argument stay there and come back",
  "After any sequence of sending buffers to a device argument, receiving into buffers, kernels writing values on the device and the user writing values into the buffers, through the C or the C++ interface and with any failing transfers or allocations, the device holds the objects of the buffer sent last as changed by the kernels since, with pointers valid there, and a buffer received into holds the same objects with pointers valid on the host; transfers never access memory outside of the blocks; they succeed exactly when the controller is able to, the copy succeeds and the memory suffices; an argument used for one buffer only gives its data back to it when no destination is named.",
  "all buffers, controllers, allocation and copy outcomes and sequences of transfers and writes",
  "All sequences of transfers of buffers of different sizes, with failures in between, and all addresses at which the blocks can lie.",
  ["sixtracklib/common/control/argument_base.cpp: ArgumentBase::send, ArgumentBase::receive, ArgumentBase::doUpdateRegions", "sixtracklib/common/control/controller_base.cpp: ControllerBase::send, ControllerBase::receive", "sixtracklib/cuda/control/argument.cpp: CudaArgument::doReserveArgumentBuffer", "sixtracklib/cuda/control/controller.cpp: CudaController::doSend, CudaController::doReceive, CudaController::doRemapCObjectsBufferArg"])
p("The job of the C and Python interface tracks the sets it was given, and keeps recording with another output buffer",
  "A job (older interface) made or reset for a list of particle set indices has those that name particle sets, ascending and each once, and reports their numbers of particles; tracking in any of the three ways changes exactly the particles of these sets, each as if alone, with success exactly when all succeed; a reset job is what a new job would be, whatever it was before. A job that is given another output buffer becomes what a new job for that buffer would be: the same turns, elements and monitors are recorded.",
  "all particle buffers, lists of set indices, lines, output buffers, tracking requests and earlier states of the job",
  "All lists of indices, all first turns of the particles and all mixtures of monitors with element by element output.",
  ["sixtracklib/common/internal/track_job_base.h: TrackJobBase::doSetParticleSetIndices, TrackJobBase::reset", "sixtracklib/common/internal/track_job_base.cpp: TrackJobBase::doReset, TrackJobBase::doAssignNewOutputBuffer", "sixtracklib/common/internal/track_job_cpu.cpp: TrackJobCpu::TrackJobCpu, TrackJobCpu::trackUntil", "sixtracklib/common/track/track_job_base.cpp: TrackJobBaseNew::doAssignNewOutputBuffer"])
p("Kernel configurations lead to launches that cover all work",
  "Setting the numbers of work items, offsets, group sizes or preferred multiples of a kernel configuration stores the values given and nothing else, or fails and changes nothing; values are read back as given. An update turns the configuration into a grid with the group sizes as threads per block and the least numbers of blocks that hold the work items; it is needed, and asked for, after every change. The threads of a grid have the numbers 0, 1, 2, ... once each. The default configuration for tracking launches at least one thread per particle and, in any order of its threads, every particle is tracked exactly once. OpenCL launches use the group size chosen for the kernel and the least multiple of it that holds the work items.",
  "all configurations, sequences of settings, dimensions, numbers of particles, grids and orders of threads",
  "All dimensions, sizes that do not divide each other, and all orders in which the threads of a grid can run.",
  ["sixtracklib/common/control/kernel_config_base.cpp: KernelConfigBase::setNumWorkItems, KernelConfigBase::setWorkGroupSizes, KernelConfigBase::update", "sixtracklib/cuda/control/kernel_config.cpp: CudaKernelConfig::doUpdate", "sixtracklib/cuda/control/default_kernel_config.c: NS(CudaKernelConfig_configure_generic_track_kernel)", "sixtracklib/cuda/cuda_tools.h: NS(Cuda_get_1d_thread_id)", "sixtracklib/opencl/internal/base_context.cpp: ClContextBase::runKernel, ClContextBase::calculateKernelNumWorkItems"])
p("A job on a device: what is pushed is there, what is collected is here, and a reset sends everything",
  "After a reset of a job on a device every part of it (particles, beam elements, output, particle addresses, configuration) is on the device as it is on the host, or is not there; when all transfers succeed everything that is needed is there and the status is that of the steps on the host. In any later sequence of pushes, collects, kernels writing on the device and the user writing into the buffers, with any failures: a push reports a part if and only if it was asked for and the transfer can be done, the device then has the host's objects of it, and nothing else changes; a collect reports a part if and only if it was asked for and the transfer can be done, the host then has the device's objects of it, and nothing else changes; no transfer accesses memory outside of the blocks.",
  "all jobs, buffers, flags, controllers, allocation and copy outcomes and sequences of pushes, collects and writes",
  "All combinations of flags and of failing allocations and copies, in all orders.",
  ["sixtracklib/common/track/track_job_ctrl_arg_base.cpp: TrackJobCtrlArgBase::doCollect, TrackJobCtrlArgBase::doPush", "sixtracklib/common/track/track_job_base.cpp: TrackJobBaseNew::collect, TrackJobBaseNew::push", "sixtracklib/cuda/track/track_job.cpp: CudaTrackJob::doResetCudaImpl, CudaTrackJob::doPrepareParticlesStructuresCudaImpl, CudaTrackJob::doPrepareBeamElementsStructuresCudaImpl, CudaTrackJob::doPrepareOutputStructuresCudaImpl", "sixtracklib/cuda/control/argument.cpp: CudaArgument::CudaArgument"])
p("Arrays of elements in buffers hold what was put into them",
  "An array object added to a buffer, empty, with given elements or as a copy of an array of another buffer, is placed behind the other objects, which are kept, and holds exactly these elements with the limits asked for; the calls that read it give its limits, the numbers of elements and bytes and, for every element, where it begins and ends and its bytes; clearing it, removing the last element or the last elements and appending elements changes the list of elements accordingly and nothing else in the buffer; what does not fit is refused and changes nothing, also if it is noticed only after some of several elements were appended.",
  "all buffers, arrays, elements, limits and sequences of operations",
  "All numbers and sizes of elements and all limits; errors in the list of offsets show only later or with several elements.",
  ["sixtracklib/common/buffer/buffer_array_object.h: NS(BufferArrayObj_new), NS(BufferArrayObj_add), NS(BufferArrayObj_add_copy), NS(BufferArrayObj_append_element), NS(BufferArrayObj_append_num_elements), NS(BufferArrayObj_remove_last_element), NS(BufferArrayObj_remove_last_num_elements), NS(BufferArrayObj_clear)"])
p("Creating an element in a buffer creates that element",
  "A call that creates a beam element with default values (new) or given values (add) appends exactly one object: of the type of the element, with the fields as given or the documented defaults, derived fields (squared half axes, the normalisation of the q-Gaussian) computed from the given ones, and copies of the given arrays; the other objects are unchanged and the returned pointer is the address of the new object. A call whose parameters are out of range returns NULL and changes nothing; a call that fails for want of memory keeps the objects; with room, or with memory for a buffer that was only added to, a call succeeds.",
  "all buffers, elements, parameter values, arrays, allocation outcomes and contents of uninitialised memory",
  "All values of the parameters including NaN, signed zeros and huge sizes, all earlier contents of the buffer and of the stack.",
  ["sixtracklib/common/be_drift/be_drift.c: NS(Drift_new), NS(Drift_add)", "sixtracklib/common/be_multipole/be_multipole.c: NS(Multipole_new), NS(Multipole_add)", "sixtracklib/common/be_beamfields/be_beamfields.c: NS(BeamBeam6D_new), NS(SCQGaussProfile_new), NS(LineDensityProfileData_add)", "sixtracklib/common/be_tricub/be_tricub.c: NS(TriCubData_new), NS(TriCubData_add)", "sixtracklib/common/be_monitor/be_monitor.c: NS(BeamMonitor_add)"])
p("Default elements for a beam line",
  "Creating new elements in a buffer for a range of elements of a beam line gives, for each of them in order, a default element of the same kind and size (order of multipoles, data sizes of beam-beam elements and field maps), with zero arrays; objects that were there and the line are unchanged; the status is 0 exactly if every element got its new element; with room within the limits, or with memory for a buffer that was only added to, all are created.",
  "all buffers, beam lines, ranges, allocation outcomes and contents of uninitialised memory",
  "All mixtures of element kinds and all points at which memory can run out.",
  ["sixtracklib/common/beam_elements.h: NS(BeamElements_add_new_to_buffer), NS(BeamElements_add_single_new_to_buffer)"])
p("End-of-turn monitors record the turns asked for",
  "Asking for monitors at the end of a line, with a first turn, a number of turns to be recorded turn by turn, a target turn and a number of turns to skip, appends one monitor for the turn by turn range and one for every skip-th turn behind it below the target (each only if there is something to record), leaves the other elements as they are and reports success exactly if all wanted monitors are there. After any number of turns up to the target these monitors hold, among the turns tracked, exactly the turns asked for: none was overwritten. At any other place than the end of the line nothing is done and failure is reported.",
  "all lines, turn numbers, places, allocation outcomes and contents of uninitialised memory, all numbers of turns tracked",
  "All combinations of turn numbers, with ranges that do not divide evenly, and all points at which memory can run out.",
  ["sixtracklib/common/be_monitor/be_monitor.c: NS(BeamMonitor_insert_end_of_turn_monitors), NS(BeamMonitor_insert_end_of_turn_monitors_at_pos)"])
p("Clearing a beam line gives default elements",
  "Clearing the elements of a buffer gives every element the values of a new element of its kind and leaves objects that are no beam elements as they are. No object moves, changes its kind or its size; the buffer stays in order: it can be copied, saved, moved and extended as before. Clearing twice is clearing once.",
  "all buffers reachable by any history, all lines and all values of the elements",
  "All kinds of elements in all orders, between other objects, with any values, and everything that may be done with the buffer afterwards.",
  ["sixtracklib/common/beam_elements.h: NS(BeamElements_clear_object), NS(BeamElements_clear_buffer)", "sixtracklib/common/be_tricub/be_tricub.h: NS(TriCubData_clear)", "sixtracklib/common/be_multipole/be_multipole.h: NS(Multipole_clear)"])
p("Asking whether an object fits is answered correctly",
  "For every buffer and every object the question whether the object can be added is answered with yes exactly if it fits within the limits of the buffer. After a yes adding it succeeds whatever the state of memory, the buffer stays where it is with the same limits, and it then has the reported numbers of objects, slots and pointers. After a no adding it without further memory and without spare capacity fails and changes nothing, and the reported numbers say what is missing.",
  "all buffers reachable by any history, all objects with any arrays, all states of memory",
  "All fill states of the three tables and all sizes of objects and arrays; the reported numbers matter only in the failing case.",
  ["sixtracklib/common/buffer.h: NS(Buffer_can_add_object), NS(Buffer_predict_required_num_slots)", "sixtracklib/common/buffer/managed_buffer.h: NS(ManagedBuffer_predict_required_num_slots)"])
p("A buffer made for a list of objects takes them all",
  "A buffer created with given limits is empty and in order and has these limits, or is not created for want of memory. If the limits are those of a list of objects, all of them can be added in turn in any state of memory: no call fails, the buffer is never moved, and it holds the objects in order.",
  "all limits, lists of objects with any arrays, and states of memory",
  "All lists of objects and all limits, with memory failing at any point.",
  ["sixtracklib/common/buffer/buffer.c: NS(Buffer_new_detailed), NS(Buffer_allocate_generic)", "sixtracklib/common/buffer/buffer_generic.h: NS(Buffer_reset_detailed_generic)"])
p("Ids and descriptions of OpenCL nodes are kept, compared and printed faithfully",
  "Comparing two node ids gives their order by platform and device and 0 exactly for equal ids. The text of an id in each of the three formats, when it fits into the array given, is the decimal text of its numbers behind the number or name of the architecture; reading that text gives the id and the architecture back; a text that cannot be read changes nothing. Making a description of a node from four texts gives copies of exactly these texts, releases the old ones and touches nothing else on the heap; if an allocation fails the description is as before and nothing is lost.",
  "all ids, texts, formats, architectures, array sizes, lengths of the four texts, earlier contents of the description and allocation outcomes",
  "All lengths of the texts relative to each other, all numbers up to the limits of the types and every allocation failing or not.",
  ["sixtracklib/common/context/compute_arch.h: NS(ComputeNodeId_compare), NS(ComputeNodeId_are_equal), NS(ComputeNodeId_is_valid), NS(ComputeNodeInfo_is_valid)", "sixtracklib/common/context/compute_arch.c: NS(ComputeNodeId_from_string_with_format), NS(ComputeNodeId_to_string_with_format), NS(ComputeNodeInfo_reserve), NS(ComputeNodeInfo_make), NS(ComputeNodeInfo_free), NS(ComputeNodeInfo_print_to_str)"])
p("The OpenCL nodes on offer are the devices present, restricted as the environment asks",
  "Every device of every platform is one node with its own id, counted by platform and device, and no other node is listed. Without a value in the environment variable, or with 'all', all nodes are on offer; with 'first' only the first one; with a list of ids separated by commas or semicolons exactly the listed nodes that exist, each once and in order, whatever else the text contains. Each node comes with its description, and nothing else is left on the heap. Looking up an id or its text gives the place of the node in the list, or the number of nodes; the ids can be fetched in pages. The default node is the first one on offer.",
  "all platforms and devices with any names, all values of the variable, names of the variable, pages and outcomes of the allocations",
  "All texts a user may put into the variable and all installations, with memory failing at any point.",
  ["sixtracklib/opencl/internal/base_context.cpp: ClContextBase::GetAllAvailableNodes, ClContextBase::GetAllowedNodesFromEnvVariable, ClContextBase::GetAvailableNodes, ClContextBase::findAvailableNodesIndex, ClContextBase::defaultNodeId", "sixtracklib/opencl/internal/base_context.h: ClContextBase::NUM_AVAILABLE_NODES, ClContextBase::GET_AVAILABLE_NODES"])
p("OpenCL arguments hold the objects of the buffer written to them and give them back",
  "After a buffer was written to an OpenCL argument with success the argument holds the objects of the buffer, with pointers that are right on the device, and is connected to the buffer. Reading it into any buffer makes the objects of that buffer those on the device, including what kernels and updates of regions changed meanwhile; a failed read changes nothing. Updating a list of regions writes them in order up to the first that does not fit and succeeds exactly if all were written. Raw memory of exactly the size of the argument is written and read back unchanged. The calls succeed exactly when a node is selected, the commands and the remapping kernel succeed and the data fit.",
  "all buffers reachable by any history, all sequences of writes, reads, kernels, updates and changes by the user, all states of the context and outcomes of the commands",
  "All interleavings of transfers of different buffers with failures at any command, and all contents and sizes.",
  ["sixtracklib/opencl/internal/argument.cpp: ClArgument::write, ClArgument::read, ClArgument::updateRegions, ClArgument::doWriteAndRemapCObjBufferBaseImpl, ClArgument::doReadAndRemapCObjBufferBaseImpl", "sixtracklib/opencl/kernels/managed_buffer_remap.cl: NS(ManagedBuffer_remap_opencl)"])
p("Programs, kernels, arguments, times and flags of an OpenCL context keep what was put into them",
  "A program added to a context gets the next id and can be read back under it, with source, options and path, until the context is cleared or its default programs are set up again. Enabling a kernel succeeds exactly if a node is selected, the program is or can be compiled and has no kernel of that name; every kernel belongs to a compiled program, keeps its id and data until the context is cleared, and is found by its name. A parameter of a kernel holds what was assigned to it last. Counter, last, average, shortest and longest time of a kernel are those of its profiled runs since the last reset. A run uses the smallest multiple of the work group size that covers the request. A feature flag keeps the value first given to it. Selecting a node succeeds exactly if none is selected, every program can be built for it and the remapping kernel has the parameters needed; afterwards every program is compiled and the remapping kernel ready.",
  "all sequences of calls on a context, all sources, options, names, files, flags, outcomes of the compiler and of every command, changing from call to call",
  "All histories of programs, kernels, selections and runs, with the compiler or a run failing at any point.",
  ["sixtracklib/opencl/internal/base_context.cpp: ClContextBase::addProgramCode, ClContextBase::addProgramFile, ClContextBase::compileProgram, ClContextBase::enableKernel, ClContextBase::findKernelByName, ClContextBase::runKernel, ClContextBase::selectNode, ClContextBase::setFeatureFlag, ClContextBase::featureFlagReprAsCStr, ClContextBase::resetKernelArguments, ClContextBase::clear, ClContextBase::calculateKernelNumWorkItems", "sixtracklib/opencl/internal/base_context.h: ClContextBase::KernelData, ClContextBase::ProgramData"])
p("OpenCL tracking calls execute the kernels asked for with the arguments assigned last",
  "Once all kernels and arguments are set up, every call of a context or of an OpenCL track job that tracks, assigns or clears outputs or fetches addresses executes exactly the kernels called for, in order and once each, with the buffers, particle set, turns and indices assigned last and at least one work item per particle, reports success exactly if the commands succeed and the kernels raise no error flag, and leaves the selected set and all assignments as they were. A job tracks each of its particle sets once. Without a node or a kernel with enough parameters nothing is executed or changed and failure is reported. Switching beam-beam elements on, to skip or off takes effect.",
  "all histories of assignments, selections of particle sets, work group sizes and calls, all numbers of sets and particles, outcomes of the commands and error flags",
  "All orders of assignments and calls on one context with any sets, with commands failing at any point.",
  ["sixtracklib/opencl/internal/context.cpp: ClContext::assign_particles_arg, ClContext::assign_particle_set_arg, ClContext::assign_beam_elements_arg, ClContext::track_until, ClContext::track_elem_by_elem, ClContext::track_line, ClContext::assign_beam_monitor_output, ClContext::clear_beam_monitor_output, ClContext::assign_elem_by_elem_output, ClContext::fetch_particles_addr, ClContext::enable_beam_beam_tracking", "sixtracklib/opencl/internal/track_job_cl.cpp: TrackJobCl::track, TrackJobCl::trackElemByElem, TrackJobCl::trackLine"])
p("OpenCL contexts are set up with the kernels of the library for the choices made",
  "On a complete installation, creating an OpenCL context for a node, or selecting a node for a context that has none, succeeds and gives a context in which every task of tracking, remapping and assigning addresses has its kernel: the one of the library's name for the choices last made of optimised tracking and debug mode, compiled from the file that contains it, with the slot size bound and, in debug mode, the status flags. Optimised tracking is not used on AMD nodes. This holds whatever was switched, added, cleared or initialised again before, and assigning the buffers then makes the context ready for tracking. Programs added by the user stay.",
  "all installations, numbers of nodes, directories, options and feature flags, all histories of choices before a node is selected, all nodes and ways to select one",
  "All orders of switching, adding and clearing before the selection, for every way to select a node.",
  ["sixtracklib/opencl/internal/context.cpp: ClContext::ClContext, ClContext::doInitDefaultProgramsPrivImpl, ClContext::doInitDefaultKernelsPrivImpl, ClContext::enable_optimized_tracking, ClContext::disable_optimized_tracking, ClContext::doSelectNode, ClContext::doAssignSlotSizeArg, ClContext::doAssignStatusFlagsArg", "sixtracklib/opencl/internal/base_context.cpp: ClContextBase::selectNode, ClContextBase::clear, ClContextBase::reinit_default_programs, ClContextBase::enableDebugMode"])
os.chdir(os.path.dirname(os.path.abspath(__file__))+"/..")
with open("properties.jsonl","w") as f:
    for x in P: f.write(json.dumps(x)+"\n")
print(len(P))
