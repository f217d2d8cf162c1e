(* Model of the set-up of a ClContext: its constructors, its default programs and kernels, and the choices made
   before a node is selected (/repo/sixtracklib/opencl/internal/context.cpp and base_context.cpp).
   Simplifications: as in OclContext.v and OclTrack.v; the build options that define feature flags, whether the
   platform of a node is AMD, and the index of the node found for an id or a text are arguments; the id of the
   track_until kernel, which the constructors leave unset, is an argument ([junk]); assertions are left out. *)
From Coq Require Import Ascii String ZArith Bool List.
From Verif Require Import Num NodeId OclContext OclTrack.
Import ListNotations.
Local Open Scope Z_scope.

Section Setup.
Variable T : Type.
Variable N : NumOps T.
Local Notation ctx := (ctx T).
Local Notation tctx := (tctx T).

(* opencl/context.h 261-283: members of ClContext with the ids of the programs *)
Record setup := mkS { s_t : tctx; s_opt : bool; s_prog : role -> Z; s_aprog : Z; s_aker : Z }.
Definition s_ctx (s : setup) : ctx := t_ctx T (s_t s).
Definition s_with (c : ctx) (s : setup) : setup :=
  mkS (t_with T c (s_t s)) (s_opt s) (s_prog s) (s_aprog s) (s_aker s).
Definition s_with_t (t : tctx) (s : setup) : setup := mkS t (s_opt s) (s_prog s) (s_aprog s) (s_aker s).
Definition s_with_opt (b : bool) (s : setup) : setup := mkS (s_t s) b (s_prog s) (s_aprog s) (s_aker s).

(* ---- default programs ---- *)
(* context.cpp 2079-2092: options of all programs *)
Definition common_options (e : env) (c : ctx) : chars :=
  (if is_empty (c_opts T c) then [] else c_opts T c ++ lit " ")
  ++ flag_repr T (lit "_GPUCODE") (lit "-D") (lit "=") c ++ lit " "
  ++ flag_repr T (lit "SIXTRL_BUFFER_ARGPTR_DEC") (lit "-D") (lit "=") c ++ lit " "
  ++ flag_repr T (lit "SIXTRL_BUFFER_DATAPTR_DEC") (lit "-D") (lit "=") c ++ lit " "
  ++ lit "-I" ++ e_include e.
(* context.cpp 2094-2112: options of the tracking programs *)
Definition optional_features : list chars :=
  [lit "SIXTRL_TRACK_BEAMBEAM4D"; lit "SIXTRL_TRACK_BEAMBEAM6D"; lit "SIXTRL_TRACK_SPACECHARGE"; lit "SIXTRL_TRACK_TRICUB";
   lit "SIXTRL_APERTURE_CHECK_AT_DRIFT"; lit "SIXTRL_APERTURE_CHECK_MIN_DRIFT_LENGTH";
   lit "SIXTRL_APERTURE_X_LIMIT"; lit "SIXTRL_APERTURE_Y_LIMIT"].
Definition feature_options (c : ctx) : chars :=
  flat_map (fun f => if has_feature_flag T f c then flag_repr T f (lit "-D") (lit "=") c ++ lit " " else []) optional_features.
Definition memory_options (space : chars) : chars :=
  lit "-DSIXTRL_PARTICLE_ARGPTR_DEC=" ++ space ++ lit " -DSIXTRL_PARTICLE_DATAPTR_DEC=" ++ space ++ lit " ".
(* context.cpp 2115-2137 *)
Definition track_options (opt : bool) (e : env) (c : ctx) : chars :=
  common_options e c ++ lit " " ++ feature_options c ++ lit " "
  ++ memory_options (if opt then lit "__private" else lit "__global").
Definition other_options (e : env) (c : ctx) : chars := common_options e c ++ lit " " ++ memory_options (lit "__global").

(* context.cpp 2049-2077: names of the files *)
Definition ending (dbg : bool) : chars := if dbg then lit "_debug.cl" else lit ".cl".

(* context.cpp 2027-2200: doInitDefaultProgramsPrivImpl; the program that fetches addresses may be missing *)
Definition init_track_progs (e : env) (s : setup) : setup * bool :=
  let c := s_ctx s in
  let dbg := c_debug T c in let dir := c_dir T c in
  let '(c1, track) := add_file T e (dir ++ lit "track_particles" ++ ending dbg) (track_options false e c) false c in
  let '(c2, track_opt) := add_file T e (dir ++ lit "track_particles_optimized_priv_particles" ++ ending dbg)
                            (track_options true e c) false c1 in
  let '(c3, mon) := add_file T e (dir ++ lit "be_monitors_assign_out_buffer" ++ ending dbg) (other_options e c) false c2 in
  let '(c4, elem) := add_file T e (dir ++ lit "elem_by_elem_assign_out_buffer" ++ ending dbg) (other_options e c) false c3 in
  let '(c5, paddr) := add_file T e (dir ++ lit "fetch_particles_addr.cl") (other_options e c) false c4 in
  let '(c6, addr) := add_file T e (dir ++ lit "assign_address_item.cl") (other_options e c) false c5 in
  if negb (track =? ILLEGAL) && negb (track_opt =? ILLEGAL) && negb (mon =? ILLEGAL) && negb (elem =? ILLEGAL)
     && negb (addr =? ILLEGAL)
  then
    let t := if s_opt s then track_opt else track in
    (mkS (t_with T c6 (s_t s)) (s_opt s)
       (fun k => match k with KUntil | KElem | KLine => t | KAsgMon | KClrMon => mon | KAsgElem => elem | KFetch => paddr end)
       addr (s_aker s), true)
  else (s_with c6 s, false).

(* ---- default kernels ---- *)
(* context.cpp 2214-2227 and likewise for the other kernels: their names *)
Definition kernel_name (e : env) (opt dbg : bool) (k : role) : chars :=
  let o := if opt then lit "_opt_pp" else [] in
  let d := if dbg then lit "_debug" else [] in
  e_prefix e ++
  match k with
  | KUntil => lit "Track_particles_until_turn" ++ o ++ d
  | KElem => lit "Track_particles_elem_by_elem" ++ o ++ d
  | KLine => lit "Track_particles_line" ++ o ++ d
  | KAsgMon => lit "BeamMonitor_assign_out_buffer_from_offset" ++ d
  | KClrMon => lit "BeamMonitor_clear_all_line_obj" ++ d
  | KAsgElem => lit "ElemByElem_assign_out_buffer_from_offset" ++ d
  | KFetch => lit "Particles_buffer_store_all_addresses"
  end ++ lit "_opencl".
Definition addr_name (e : env) : chars := e_prefix e ++ lit "AssignAddressItem_process_managed_buffer_opencl".

(* context.cpp 2210-2237 and likewise for the other kernels. Ids are unsigned: the test >= 0 always succeeds.
   set_..._kernel_id stores the program of the kernel as well, which is the one stored already *)
Definition init_kernel (e : env) (k : role) (s : setup) : setup * bool :=
  let '(c, id) := enable T N e (kernel_name e (s_opt s) (c_debug T (s_ctx s)) k) (s_prog s k) (s_ctx s) in
  let '(t, st) := set_kid T k id (t_with T c (s_t s)) in (s_with_t t s, st =? 0).
(* the kernels after the first: left out if their program is missing *)
Fixpoint init_each (e : env) (l : list role) (s : setup) : setup * bool :=
  match l with
  | [] => (s, true)
  | k :: l =>
      if s_prog s k <? num_progs T (s_ctx s)
      then let '(s, ok) := init_kernel e k s in if ok then init_each e l s else (s, false)
      else init_each e l s
  end.
(* context.cpp 1481-1506: set_assign_addresses_kernel_id; 2390-2406: the kernel that assigns addresses *)
Definition init_addr (e : env) (s : setup) : setup * bool :=
  if negb (s_aprog s =? ILLEGAL) && (s_aprog s <? num_progs T (s_ctx s)) then
    let '(c, id) := enable T N e (addr_name e) (s_aprog s) (s_ctx s) in
    let s := s_with c s in
    if id =? ILLEGAL then (s, true)
    else if has_node T c && (id <? num_kers T c) && (ker_prog T id c <? num_progs T c)
         then (mkS (s_t s) (s_opt s) (s_prog s) (ker_prog T id c) id, true)
         else (s, false)
  else (s, true).
(* context.cpp 2202-2410: doInitDefaultKernelsPrivImpl *)
Definition init_track_kers (e : env) (s : setup) : setup * bool :=
  if has_node T (s_ctx s) && (s_prog s KUntil <? num_progs T (s_ctx s)) then
    let '(s, ok) := init_each e [KUntil; KElem; KLine; KAsgMon; KClrMon; KAsgElem; KFetch] s in
    if ok then init_addr e s else (s, false)
  else (s, false).

(* context.cpp 1791-1795: doInitDefaultPrograms *)
Definition init_all_progs (e : env) (s : setup) : setup * bool :=
  let '(c, ok) := init_progs T e (s_ctx s) in
  if ok then init_track_progs e (s_with c s) else (s_with c s, false).
(* context.cpp 1797-1801: doInitDefaultKernels *)
Definition init_all_kers (e : env) (s : setup) : setup * bool :=
  let '(c, ok) := init_kers T N e (s_ctx s) in
  if ok then init_track_kers e (s_with c s) else (s_with c s, false).

(* ---- choices before a node is selected ---- *)
(* base_context.cpp 1094-1099: clear *)
Definition s_clear (e : env) (s : setup) : setup := fst (init_all_progs e (s_with (do_clear T (s_ctx s)) s)).
(* base_context.cpp 1078-1092: reinit_default_programs *)
Definition s_reinit (e : env) (s : setup) : setup :=
  if has_node T (s_ctx s) then s else fst (init_all_kers e (fst (init_all_progs e (s_clear e s)))).
(* context.cpp 1634-1657: enable_optimized_tracking, disable_optimized_tracking *)
Definition set_opt (e : env) (b : bool) (s : setup) : setup :=
  if negb (Bool.eqb (s_opt s) b) && negb (has_node T (s_ctx s))
  then fst (init_all_kers e (fst (init_all_progs e (s_with_opt b (s_clear e s)))))
  else s.
(* base_context.cpp 2083-2105: enableDebugMode, disableDebugMode *)
Definition s_debug (e : env) (b : bool) (s : setup) : setup :=
  if negb (Bool.eqb (c_debug T (s_ctx s)) b) && negb (has_node T (s_ctx s))
  then fst (init_all_progs e (s_clear e (s_with (with_debug T b (s_ctx s)) s)))
  else s.
(* context.cpp 1672-1713: enable_, skip_, disable_beam_beam_tracking with the value of the flags *)
Definition s_bb (e : env) (v : chars) (s : setup) : setup :=
  if has_node T (s_ctx s) then s
  else s_reinit e (s_with (set_feature_flag T BB6 v (set_feature_flag T BB4 v (s_ctx s))) s).

(* ---- selecting a node ---- *)
Variable amd : Z -> bool.
(* context.cpp 1717-1727: doSelectNode *)
Definition s_do_select (e : env) (i : Z) (s : setup) : setup * bool :=
  let s := if s_opt s && amd i then set_opt e false s else s in
  let '(c, ok) := do_select T e i (s_ctx s) in (s_with c s, ok).
(* context.cpp 1869-1881: doAssignStatusFlagsArg; 2008-2018: doAssignSlotSizeArg *)
Definition s_assign_flags (flags : Z) (s : setup) : setup * bool :=
  let '(c, ok) := assign_flags T flags (s_ctx s) in
  if ok then let '(t, st) := assign_status T flags (t_with T c (s_t s)) in (s_with_t t s, st =? 0) else (s_with c s, false).
Definition s_assign_slots (s : setup) : setup * bool :=
  let '(c, ok) := assign_slot_size T (s_ctx s) in
  if ok then let '(t, st) := assign_slots T (t_with T c (s_t s)) in (s_with_t t s, st =? 0) else (s_with c s, false).
(* base_context.cpp 733-754: selectNode with an index *)
Definition s_select_index (e : env) (flags i : Z) (s : setup) : setup * bool :=
  let '(s, ok) := s_do_select e i s in
  if ok then
    let '(s, ok) := init_all_kers e s in
    if ok then
      let '(s, ok) := s_assign_slots s in
      if ok then s_assign_flags flags s else (s, false)
    else (s, false)
  else (s, false).
(* base_context.cpp 756-801: selectNode with an id, two numbers or a text *)
Definition s_select_other (e : env) (i : Z) (s : setup) : setup * bool :=
  let '(s, ok) := s_do_select e i s in
  if ok then init_all_kers e s else (s, false).

(* ---- constructors ---- *)
(* context.cpp 1741-1789: doInitDefaultFeatureFlagsPrivImpl; [feats]: the flags defined when building the library *)
Definition set_feats (feats : list (chars * chars)) (c : ctx) : ctx :=
  fold_left (fun c f => set_feature_flag T (fst f) (snd f) c) feats c.
(* context.cpp 52-74 and likewise in the other constructors: the members *)
Definition blank (e : env) (nodes : Z) (dir opts : chars) (junk : Z) : setup :=
  mkS (mkT T (new_ctx T e nodes dir opts) 0 0 0 (fun k => match k with KUntil => junk | _ => ILLEGAL end)) false (fun _ => ILLEGAL)
    ILLEGAL ILLEGAL.
(* context.cpp 52-78: the constructor without a node *)
Definition new_setup (e : env) (nodes : Z) (dir opts : chars) (junk : Z) (feats : list (chars * chars)) : setup :=
  let s := blank e nodes dir opts junk in fst (init_track_progs e (s_with (set_feats feats (s_ctx s)) s)).
(* context.cpp 120-134, 177-191, 246-260, 304-318: the end of the other constructors, for the node with index [i];
   no virtual functions *)
Definition ctor_select (e : env) (flags i : Z) (s : setup) : setup :=
  let '(c, ok) := do_select T e i (s_ctx s) in
  let s := s_with c s in
  if ok then
    let s := s_with (fst (init_kers T N e (s_ctx s))) s in
    let s := fst (init_track_kers e s) in
    s_with_t (fst (assign_status T flags (fst (assign_config_index T 0 (fst (assign_slots T (s_t s))))))) s
  else s.
(* context.cpp 80-135 (index), 194-261 (text, [i]: index found, [i']: index selected), 263-319 (platform and device):
   the choice of the tracking program is made first *)
Definition new_select (e : env) (nodes : Z) (dir opts : chars) (junk : Z) (feats : list (chars * chars)) (flags i i' : Z) : setup :=
  let s := s_with_opt (negb (amd i)) (blank e nodes dir opts junk) in
  ctor_select e flags i' (fst (init_track_progs e (s_with (set_feats feats (s_ctx s)) s))).
(* context.cpp 137-192: the constructor with a node id: the choice is made after the programs are set up *)
Definition new_select_id (e : env) (nodes : Z) (dir opts : chars) (junk : Z) (feats : list (chars * chars)) (flags i : Z) : setup :=
  ctor_select e flags i (s_with_opt (negb (amd i)) (new_setup e nodes dir opts junk feats)).

(* ---- histories before a node is selected ---- *)
Inductive pop : Set :=
| POpt (b : bool) | PDebug (b : bool) | PBeamBeam (v : chars) | PFlag (s v : chars) | PAdd (source options : chars)
| PAddFile (path options : chars) (rel : bool) | PClear | PReinit.
Definition pstep (e : env) (s : setup) (o : pop) : setup :=
  match o with
  | POpt b => set_opt e b s
  | PDebug b => s_debug e b s
  | PBeamBeam v => s_bb e v s
  | PFlag f v => s_with (set_feature_flag T f v (s_ctx s)) s
  | PAdd src opts => s_with (fst (add_code T e src opts (s_ctx s))) s
  | PAddFile path opts rel => s_with (fst (add_file T e path opts rel (s_ctx s))) s
  | PClear => s_clear e s
  | PReinit => s_reinit e s
  end.
Definition psteps (e : env) (h : list pop) (s : setup) : setup := fold_left (pstep e) h s.

(* ---- addresses ---- *)
(* context.cpp 1476-1479: assign_addresses_kernel_id; 1533-1613: assign_addresses. Slot sizes are those of the
   buffers; ARCH_ILLEGAL_BUFFER_ID is 0; [ok]: all three arguments belong to the context and hold C-object buffers. The size given for the source
   is the one of the destination *)
Definition assign_addresses (o : outcome) (ok : bool) (items n islot dest dslot did src sid : Z) (s : setup)
    : setup * list (list bound * Z) * Z :=
  let id := s_aker s in
  if negb (id =? ILLEGAL) && negb (did =? 0) && negb (sid =? 0) && ok then
    if n =? 0 then (s, [], 0)
    else if (0 <? islot) && (0 <? dslot) && (8 <=? ker_nargs T id (s_ctx s)) then
      let put i a c := match assign_arg T id i a c with Some c => c | None => c end in
      let c := put 7 (AValue sid) (put 6 (AValue dslot) (put 5 (AArgument src) (put 4 (AValue did)
                 (put 3 (AValue dslot) (put 2 (AArgument dest) (put 1 (AValue islot) (put 0 (AArgument items) (s_ctx s)))))))) in
      let w := ker_wgs T id c in
      let args := match nthz (c_kers T c) id with Some r => k_bound T r | None => [] end in
      let '(c, done) := run_default T N o id n c in
      (s_with c s, if done then [(args, run_items n w)] else [], if done then 0 else -1)
    else (s, [], -1)
  else (s, [], -1).
End Setup.
