(* Specification vocabulary for C77: the kernels of the library for tracking on OpenCL devices, and an installation
   that has them. *)
From Coq Require Import Ascii String ZArith Bool List.
From Verif Require Import Num NodeId OclContext OclTrack OclTrackSpec OclSetup.
Import ListNotations.
Local Open Scope Z_scope.

(* /repo/sixtracklib/opencl/kernels: the file with the kernel of each role, by optimised tracking and debug mode *)
Definition file_of (opt dbg : bool) (k : role) : string :=
  match k, opt, dbg with
  | (KUntil | KElem | KLine), false, false => "track_particles.cl"
  | (KUntil | KElem | KLine), false, true => "track_particles_debug.cl"
  | (KUntil | KElem | KLine), true, false => "track_particles_optimized_priv_particles.cl"
  | (KUntil | KElem | KLine), true, true => "track_particles_optimized_priv_particles_debug.cl"
  | (KAsgMon | KClrMon), _, false => "be_monitors_assign_out_buffer.cl"
  | (KAsgMon | KClrMon), _, true => "be_monitors_assign_out_buffer_debug.cl"
  | KAsgElem, _, false => "elem_by_elem_assign_out_buffer.cl"
  | KAsgElem, _, true => "elem_by_elem_assign_out_buffer_debug.cl"
  | KFetch, _, _ => "fetch_particles_addr.cl"
  end.
(* the name of the kernel in that file, behind the prefix of the library *)
Definition name_of (opt dbg : bool) (k : role) : string :=
  match k, opt, dbg with
  | KUntil, false, false => "Track_particles_until_turn_opencl"
  | KUntil, false, true => "Track_particles_until_turn_debug_opencl"
  | KUntil, true, false => "Track_particles_until_turn_opt_pp_opencl"
  | KUntil, true, true => "Track_particles_until_turn_opt_pp_debug_opencl"
  | KElem, false, false => "Track_particles_elem_by_elem_opencl"
  | KElem, false, true => "Track_particles_elem_by_elem_debug_opencl"
  | KElem, true, false => "Track_particles_elem_by_elem_opt_pp_opencl"
  | KElem, true, true => "Track_particles_elem_by_elem_opt_pp_debug_opencl"
  | KLine, false, false => "Track_particles_line_opencl"
  | KLine, false, true => "Track_particles_line_debug_opencl"
  | KLine, true, false => "Track_particles_line_opt_pp_opencl"
  | KLine, true, true => "Track_particles_line_opt_pp_debug_opencl"
  | KAsgMon, _, false => "BeamMonitor_assign_out_buffer_from_offset_opencl"
  | KAsgMon, _, true => "BeamMonitor_assign_out_buffer_from_offset_debug_opencl"
  | KClrMon, _, false => "BeamMonitor_clear_all_line_obj_opencl"
  | KClrMon, _, true => "BeamMonitor_clear_all_line_obj_debug_opencl"
  | KAsgElem, _, false => "ElemByElem_assign_out_buffer_from_offset_opencl"
  | KAsgElem, _, true => "ElemByElem_assign_out_buffer_from_offset_debug_opencl"
  | KFetch, _, _ => "Particles_buffer_store_all_addresses_opencl"
  end.
Definition remap_file_of (dbg : bool) : string := if dbg then "managed_buffer_remap_debug.cl" else "managed_buffer_remap.cl".
Definition remap_name_of (dbg : bool) : string := if dbg then "ManagedBuffer_remap_debug_opencl" else "ManagedBuffer_remap_opencl".
Definition addr_file : string := "assign_address_item.cl".
Definition addr_name_of : string := "AssignAddressItem_process_managed_buffer_opencl".

(* numbers of parameters: in debug mode all kernels but the one that fetches addresses have one more for the status
   flags *)
Definition params (dbg : bool) (k : role) : Z :=
  Z.of_nat (arity k) + match k with KFetch => 0 | _ => if dbg then 1 else 0 end.

(* a readable file has this kernel with this number of parameters *)
Definition provides (e : env) (dir : chars) (file name : string) (n : Z) : Prop :=
  exists src, e_file e (dir ++ lit file) = Some src /\ src <> [] /\ i_nargs (e_info e src (e_prefix e ++ lit name)) = n.
(* the library is installed below [dir], and devices accept every program *)
Record Installed (e : env) (dir : chars) : Prop := mkInstalled {
  in_kernels : forall opt dbg k, provides e dir (file_of opt dbg k) (name_of opt dbg k) (params dbg k);
  in_remap : forall dbg, provides e dir (remap_file_of dbg) (remap_name_of dbg) (if dbg then 3 else 2);
  in_addr : provides e dir addr_file addr_name_of 8;
  in_build : forall node src opts, fst (fst (e_build e node src opts)) = BuildSuccess;
  in_flag : e_flag e = true }.

(* the kernel with this id has this name, and is made from this file *)
Definition Made {T} (e : env) (dir : chars) (file name : string) (id : Z) (c : ctx T) : Prop :=
  exists r, nthz (c_kers T c) id = Some r /\
    k_name T r = e_prefix e ++ lit name /\
    prog_source T (k_prog T r) c = e_file e (dir ++ lit file) /\
    prog_compiled T (k_prog T r) c = true.
(* every role has the kernel of its name, made from the file that has it *)
Definition Library {T} (e : env) (dir : chars) (opt dbg : bool) (t : tctx T) : Prop :=
  forall k, Made e dir (file_of opt dbg k) (name_of opt dbg k) (t_id T t k) (t_ctx T t).

(* the optimised kernels and debug mode chosen by a history: the last choice counts *)
Definition chosen (h : list pop) (opt dbg : bool) : bool * bool :=
  fold_left (fun x o => match o with POpt b => (b, snd x) | PDebug b => (fst x, b) | _ => x end) h (opt, dbg).
(* programs a user adds need options (C75_no_options_refuted); the default ones are used where none are given *)
Definition pop_ok (o : pop) : Prop := match o with PAdd _ opts | PAddFile _ opts _ => opts <> [] | _ => True end.

(* status flags in their place, in debug mode *)
Definition flag_place (k : role) : option Z := match k with KFetch => None | k => Some (Z.of_nat (arity k)) end.

(* a context set up for tracking: all kernels, those for remapping and assigning addresses, the slot size as last
   argument of the kernels for tracking, and the status flags behind it *)
Record SetUp {T} (e : env) (dir : chars) (opt dbg : bool) (flags : Z) (s : setup T) : Prop := mkSetUp {
  su_kernels : Kernels (s_t T s);
  su_library : Library e dir opt dbg (s_t T s);
  su_remap : Made e dir (remap_file_of dbg) (remap_name_of dbg) (remap_kernel T (s_ctx T s)) (s_ctx T s);
  su_addr : Made e dir addr_file addr_name_of (s_aker T s) (s_ctx T s);
  su_aargs : exists r, nthz (c_kers T (s_ctx T s)) (s_aker T s) = Some r /\ k_nargs T r = 8 /\ zlen (k_bound T r) = 8;
  su_debug : c_debug T (s_ctx T s) = dbg;
  su_slot : forall k, ker_bound T (t_id T (s_t T s) k) (Z.of_nat (arity k) - 1) (s_ctx T s) = Some (BValue 8);
  su_flags : dbg = true -> forall k j, flag_place k = Some j -> ker_bound T (t_id T (s_t T s) k) j (s_ctx T s) = Some (BBuffer flags) }.
