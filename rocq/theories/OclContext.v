(* Model of the programs, kernels, kernel arguments, timings and feature flags held by an OpenCL
   context (/repo/sixtracklib/opencl/internal/base_context.cpp and base_context.h).
   Simplifications: the OpenCL installation, its compiler and the file system are arguments ([env]) of
   every call and may answer differently in every call; the OpenCL C++ wrapper is built without
   exceptions (the default of cmake/SetupOpenCL.cmake 153-174), so a failing constructor is not noticed;
   kernel data and kernel objects, which are always pushed and cleared together, are one list;
   numbers of programs, kernels and runs stay below 2^32 and 2^64; the messages on std::cerr in debug
   mode are left out. *)
From Coq Require Import Ascii String ZArith Bool List.
From Verif Require Import Num NodeId.
Import ListNotations.
Local Open Scope Z_scope.

(* control/definitions.h 16-17, 259-263, 432-435: ids are 32 bit and unsigned *)
Definition ILLEGAL : Z := 4294967295.

Definition is_empty (s : chars) : bool := match s with [] => true | _ => false end.
Fixpoint chars_eqb (a b : chars) : bool :=
  match a, b with
  | [], [] => true
  | x :: a, y :: b => Ascii.eqb x y && chars_eqb a b
  | _, _ => false
  end.

(* v[i] *)
Definition nthz {A} (l : list A) (i : Z) : option A :=
  if i <? 0 then None else nth_error l (Z.to_nat i).
Fixpoint mod_nth {A} (f : A -> A) (n : nat) (l : list A) {struct l} : list A :=
  match l with
  | [] => []
  | x :: l => match n with O => f x :: l | S n => x :: mod_nth f n l end
  end.
Definition modz {A} (f : A -> A) (i : Z) (l : list A) : list A :=
  if i <? 0 then l else mod_nth f (Z.to_nat i) l.
Definition zlen {A} (l : list A) : Z := Z.of_nat (length l).

(* base_context.h 940-967: ProgramData *)
Record program : Set := mkProg {
  p_path : chars; p_source : chars; p_options : chars; p_report : chars;
  p_kernels : list Z; p_compiled : bool }.

(* what OpenCL has stored for a parameter of a kernel *)
Inductive bound : Set :=
| BUnset | BDefault | BArg (a : Z) | BRaw (a size : Z) | BBuffer (a : Z) | BValue (v : Z).

(* base_context.h 69-85 *)
Definition ARG_NONE : Z := 0.
Definition ARG_VALUE : Z := 1.
Definition ARG_RAW : Z := 2.
Definition ARG_ARGUMENT : Z := 16.
Definition ARG_BUFFER : Z := 32.
Definition ARG_INVALID : Z := 4294967295.

(* outcome of building a program: cl_build_status, whether build returned CL_SUCCESS, build log *)
Inductive bstatus : Set := BuildNone | BuildError | BuildSuccess.
(* what OpenCL reports about a kernel *)
Record kinfo : Set := mkInfo { i_nargs : Z; i_max : Z; i_pref : Z; i_local : Z }.
(* the run of a kernel: whether enqueueing and flushing succeeded, and start and end if the four
   profiling queries succeeded *)
Record outcome : Set := mkOut { r_ok : bool; r_times : option (Z * Z) }.

Record env : Set := mkEnv {
  e_file : chars -> option chars;                       (* content of readable files *)
  e_build : Z -> chars -> chars -> bstatus * bool * chars;  (* node, source, options *)
  e_info : chars -> chars -> kinfo;                     (* source and name of the kernel *)
  e_flag : bool;                       (* writing the status flags to a new node succeeds *)
  e_prefix : chars; e_include : chars  (* SIXTRL_C99_NAMESPACE_PREFIX_STR, PATH_TO_SIXTRL_INCLUDE_DIR *)
}.

Section Context.
Variable T : Type.
Variable N : NumOps T.

(* base_context.h 969-1124: KernelData *)
Record kernel := mkKer {
  k_name : chars; k_prog : Z; k_nargs : Z; k_wgs : Z; k_max : Z; k_pref : Z; k_local : Z;
  k_count : Z; k_last_wgs : Z; k_last_items : Z;
  k_tmin : T; k_tmax : T; k_tlast : T; k_tsum : T;
  k_ptrs : list Z; k_types : list Z; k_bound : list bound }.

(* std::numeric_limits< double >::max() and min() *)
Definition dbl_max : T := nofZ N ((2 ^ 53 - 1) * 2 ^ 971).
Definition dbl_min : T := ndiv N (nofZ N 1) (nofZ N (2 ^ 1022)).

(* base_context.h 973-993 with base_context.cpp 1418-1454: the kernel data made by enableKernel *)
Definition new_kernel (name : chars) (prog : Z) (i : kinfo) : kernel :=
  mkKer name prog (i_nargs i) 0 (i_max i) (i_pref i) (i_local i) 0 0 0 dbl_max dbl_min (nzero N) (nzero N)
    (repeat 0 (Z.to_nat (i_nargs i))) (repeat ARG_NONE (Z.to_nat (i_nargs i)))
    (repeat BUnset (Z.to_nat (i_nargs i))).

Definition k_with_args (ptrs types : list Z) (b : list bound) (k : kernel) : kernel :=
  mkKer (k_name k) (k_prog k) (k_nargs k) (k_wgs k) (k_max k) (k_pref k) (k_local k) (k_count k)
    (k_last_wgs k) (k_last_items k) (k_tmin k) (k_tmax k) (k_tlast k) (k_tsum k) ptrs types b.
Definition k_with_wgs (w : Z) (k : kernel) : kernel :=
  mkKer (k_name k) (k_prog k) (k_nargs k) w (k_max k) (k_pref k) (k_local k) (k_count k)
    (k_last_wgs k) (k_last_items k) (k_tmin k) (k_tmax k) (k_tlast k) (k_tsum k) (k_ptrs k) (k_types k) (k_bound k).
Definition k_with_last (w n : Z) (k : kernel) : kernel :=
  mkKer (k_name k) (k_prog k) (k_nargs k) (k_wgs k) (k_max k) (k_pref k) (k_local k) (k_count k)
    w n (k_tmin k) (k_tmax k) (k_tlast k) (k_tsum k) (k_ptrs k) (k_types k) (k_bound k).
Definition k_with_times (c : Z) (mn mx l s : T) (k : kernel) : kernel :=
  mkKer (k_name k) (k_prog k) (k_nargs k) (k_wgs k) (k_max k) (k_pref k) (k_local k) c
    (k_last_wgs k) (k_last_items k) mn mx l s (k_ptrs k) (k_types k) (k_bound k).

(* base_context.h 1021-1034: setKernelArg *)
Definition set_kernel_arg (type i ptr : Z) (k : kernel) : kernel :=
  if i <? zlen (k_ptrs k)
  then k_with_args (modz (fun _ => ptr) i (k_ptrs k)) (modz (fun _ => type) i (k_types k)) (k_bound k) k
  else k.
(* cl::Kernel::setArg: an index beyond the parameters is refused; the size of the value fits
   (simplification) *)
Definition cl_set_arg (i : Z) (b : bound) (k : kernel) : kernel :=
  k_with_args (k_ptrs k) (k_types k) (modz (fun _ => b) i (k_bound k)) k.

(* base_context.h 1003-1019: resetArguments *)
Definition reset_arguments (n : Z) (k : kernel) : kernel :=
  mkKer (k_name k) (k_prog k) n (k_wgs k) (k_max k) (k_pref k) (k_local k) (k_count k)
    (k_last_wgs k) (k_last_items k) (k_tmin k) (k_tmax k) (k_tlast k) (k_tsum k)
    (repeat 0 (Z.to_nat n)) (repeat ARG_NONE (Z.to_nat n)) (k_bound k).

(* base_context.h 1036-1045: resetTiming *)
Definition reset_timing (k : kernel) : kernel :=
  k_with_times 0 dbl_max dbl_min (nzero N) (nzero N) k.
(* base_context.h 1047-1063: addExecTime *)
Definition add_exec_time (t : T) (k : kernel) : kernel :=
  if nleb N (nzero N) t then
    k_with_times (k_count k + 1)
      (if nltb N t (k_tmin k) then t else k_tmin k)
      (if nltb N (k_tmax k) t then t else k_tmax k)
      t (nadd N (k_tsum k) t) k
  else k.
(* base_context.h 1065-1070: avgExecTime *)
Definition k_avg (k : kernel) : T :=
  if 0 <? k_count k then ndiv N (k_tsum k) (nofZ N (k_count k)) else nzero N.

(* base_context.h 1195-1222: the members of a context; [c_cl] holds the source texts of the
   cl::Program objects; the selected node is -1 if there is none *)
Record ctx := mkCtx {
  c_nodes : Z; c_sel : Z; c_progs : list program; c_cl : list chars; c_kers : list kernel;
  c_rprog : Z; c_rker : Z; c_flags : list (chars * chars);
  c_dir : chars; c_opts : chars; c_debug : bool }.

Definition with_progs (ps : list program) (c : ctx) : ctx :=
  mkCtx (c_nodes c) (c_sel c) ps (c_cl c) (c_kers c) (c_rprog c) (c_rker c) (c_flags c) (c_dir c) (c_opts c) (c_debug c).
Definition with_cl (cl : list chars) (c : ctx) : ctx :=
  mkCtx (c_nodes c) (c_sel c) (c_progs c) cl (c_kers c) (c_rprog c) (c_rker c) (c_flags c) (c_dir c) (c_opts c) (c_debug c).
Definition with_kers (ks : list kernel) (c : ctx) : ctx :=
  mkCtx (c_nodes c) (c_sel c) (c_progs c) (c_cl c) ks (c_rprog c) (c_rker c) (c_flags c) (c_dir c) (c_opts c) (c_debug c).
Definition with_sel (s : Z) (c : ctx) : ctx :=
  mkCtx (c_nodes c) s (c_progs c) (c_cl c) (c_kers c) (c_rprog c) (c_rker c) (c_flags c) (c_dir c) (c_opts c) (c_debug c).
Definition with_remap (p k : Z) (c : ctx) : ctx :=
  mkCtx (c_nodes c) (c_sel c) (c_progs c) (c_cl c) (c_kers c) p k (c_flags c) (c_dir c) (c_opts c) (c_debug c).
Definition with_flags (f : list (chars * chars)) (c : ctx) : ctx :=
  mkCtx (c_nodes c) (c_sel c) (c_progs c) (c_cl c) (c_kers c) (c_rprog c) (c_rker c) f (c_dir c) (c_opts c) (c_debug c).
Definition with_debug (b : bool) (c : ctx) : ctx :=
  mkCtx (c_nodes c) (c_sel c) (c_progs c) (c_cl c) (c_kers c) (c_rprog c) (c_rker c) (c_flags c) (c_dir c) (c_opts c) b.

(* base_context.cpp 659-664: hasSelectedNode *)
Definition has_node (c : ctx) : bool := (0 <=? c_sel c) && (c_sel c <? c_nodes c).

(* ---- feature flags ---- *)
(* std::map::find *)
Fixpoint find_flag (s : chars) (f : list (chars * chars)) : option chars :=
  match f with
  | [] => None
  | (k, v) :: f => if chars_eqb k s then Some v else find_flag s f
  end.
(* base_context.cpp 2192-2206: has_feature_flag *)
Definition has_feature_flag (s : chars) (c : ctx) : bool :=
  negb (is_empty s) && match find_flag s (c_flags c) with Some _ => true | None => false end.
(* base_context.cpp 2262-2296: feature_flag; None is the null pointer *)
Definition feature_flag (s : chars) (c : ctx) : option chars :=
  if is_empty s then None else find_flag s (c_flags c).
(* base_context.cpp 2298-2317: set_feature_flag; std::map::emplace keeps an existing element *)
Definition set_feature_flag (s v : chars) (c : ctx) : ctx :=
  if is_empty s then c
  else match find_flag s (c_flags c) with
       | Some _ => c
       | None => with_flags (c_flags c ++ [(s, v)]) c
       end.
(* base_context.cpp 2173-2176: num_feature_flags *)
Definition num_flags (c : ctx) : Z := zlen (c_flags c).
(* base_context.cpp 2319-2351: feature_flag_repr *)
Definition flag_repr (s prefix sep : chars) (c : ctx) : chars :=
  if has_feature_flag s c
  then match feature_flag s c with Some v => prefix ++ s ++ sep ++ v | None => [] end
  else [].
(* base_context.cpp 2353-2361: feature_flag_repr_required_capacity *)
Definition flag_repr_capacity (s prefix sep : chars) (c : ctx) : Z :=
  let r := flag_repr s prefix sep c in if is_empty r then 0 else zlen r + 1.
(* base_context.cpp 2363-2390: feature_flag_repr_as_cstr into an array of the given capacity (with
   its old content): status and new content *)
Definition flag_repr_as_cstr (out : chars) (s prefix sep : chars) (c : ctx) : Z * chars :=
  let cap := zlen out in
  if 0 <? cap then
    let r := flag_repr s prefix sep c in
    if negb (is_empty r) && (zlen r <? cap)
    then (0, r ++ repeat zero (length out - length r))
    else (-1, repeat zero (length out))
  else (-1, out).

(* base_context.cpp 2965-2979: doInitDefaultFeatureFlagsBaseImpl *)
Definition init_flags (c : ctx) : ctx :=
  set_feature_flag (lit "SIXTRL_BUFFER_DATAPTR_DEC") (lit "__global")
    (set_feature_flag (lit "SIXTRL_BUFFER_ARGPTR_DEC") (lit "__private")
       (set_feature_flag (lit "_GPUCODE") (lit "1") c)).

(* ---- programs ---- *)
Fixpoint drop_spaces (s : chars) : chars :=
  match s with
  | [] => []
  | a :: r => if is_space a then drop_spaces r else s
  end.
(* base_context.cpp 3126-3153: the build log without white space at both ends *)
Definition trim (s : chars) : chars :=
  let r := drop_spaces (rev (drop_spaces (rev s))) in
  match r with [a] => if Ascii.eqb a zero then [] else r | _ => r end.

(* base_context.cpp 3073-3197: doCompileProgramBaseImpl *)
Definition do_compile (e : env) (c : ctx) (source : chars) (p : program) : program * bool :=
  if has_node c && negb (p_compiled p) && match p_kernels p with [] => true | _ => false end
     && negb (is_empty (p_options p)) then
    let '(status, ret, log) := e_build e (c_sel c) source (p_options p) in
    let report := match status, ret with BuildNone, false => p_report p | _, _ => trim log end in
    match status with
    | BuildSuccess => (mkProg (p_path p) (p_source p) (p_options p) report (p_kernels p) true, true)
    | BuildError => (mkProg (p_path p) (p_source p) (p_options p) report (p_kernels p) false, false)
    | BuildNone => (mkProg (p_path p) (p_source p) (p_options p) [] (p_kernels p) false, false)
    end
  else (p, false).

(* base_context.cpp 1134-1166: addProgramCode *)
Definition add_code (e : env) (source options : chars) (c : ctx) : ctx * Z :=
  if is_empty source then (c, ILLEGAL)
  else
    let id := zlen (c_progs c) in
    let p := mkProg [] source options [] [] false in
    if has_node c then
      let c := with_cl (c_cl c ++ [source]) c in
      (with_progs (c_progs c ++ [fst (do_compile e c source p)]) c, id)
    else (with_progs (c_progs c ++ [p]) c, id).

(* base_context.cpp 1196-1250: addProgramFile; [rel] is PROGRAM_PATH_RELATIVE *)
Definition add_file (e : env) (path options : chars) (rel : bool) (c : ctx) : ctx * Z :=
  let full := if is_empty path then [] else if rel then c_dir c ++ path else path in
  if is_empty full then (c, ILLEGAL)
  else match e_file e full with
       | None => (c, ILLEGAL)
       | Some source =>
         if is_empty source then (c, ILLEGAL)
         else
           let opts := if is_empty options then c_opts c else options in
           let '(c, id) := add_code e source opts c in
           (with_progs (modz (fun p => mkProg full (p_source p) (p_options p) (p_report p) (p_kernels p) (p_compiled p))
                          id (c_progs c)) c, id)
       end.

(* base_context.cpp 1261-1278: compileProgram *)
Definition compile (e : env) (id : Z) (c : ctx) : ctx * bool :=
  if has_node c && (id <? zlen (c_progs c)) && (zlen (c_cl c) =? zlen (c_progs c)) then
    match nthz (c_cl c) id, nthz (c_progs c) id with
    | Some source, Some p =>
        let '(p, ok) := do_compile e c source p in (with_progs (modz (fun _ => p) id (c_progs c)) c, ok)
    | _, _ => (c, false)
    end
  else (c, false).

(* base_context.cpp 1280-1336: reading the data of a program; None is the null pointer *)
Definition prog_source (id : Z) (c : ctx) : option chars := option_map p_source (nthz (c_progs c) id).
Definition prog_path (id : Z) (c : ctx) : option chars := option_map p_path (nthz (c_progs c) id).
Definition prog_options (id : Z) (c : ctx) : option chars := option_map p_options (nthz (c_progs c) id).
Definition prog_report (id : Z) (c : ctx) : option chars := option_map p_report (nthz (c_progs c) id).
Definition prog_has_path (id : Z) (c : ctx) : bool :=
  match nthz (c_progs c) id with Some p => negb (is_empty (p_path p)) | None => false end.
Definition prog_compiled (id : Z) (c : ctx) : bool :=
  match nthz (c_progs c) id with Some p => p_compiled p | None => false end.
(* base_context.cpp 1338-1341 *)
Definition num_progs (c : ctx) : Z := zlen (c_progs c).

(* ---- kernels ---- *)
(* base_context.cpp 1379-1398: some kernel of the list has this name *)
Definition name_taken (ids : list Z) (name : chars) (c : ctx) : bool :=
  existsb (fun i => match nthz (c_kers c) i with
                    | Some k => negb (is_empty (k_name k)) && chars_eqb (k_name k) name
                    | None => false
                    end) ids.

(* base_context.cpp 1350-1460: enableKernel *)
Definition enable (e : env) (name : chars) (id : Z) (c : ctx) : ctx * Z :=
  if has_node c && negb (is_empty name) && (id <? zlen (c_cl c)) then
    let was := prog_compiled id c in
    let '(c, now) := if was then (c, false) else compile e id c in
    let compiled := was || now in
    match nthz (c_progs c) id, nthz (c_cl c) id with
    | Some p, Some source =>
      let add := if now then true else compiled && negb (name_taken (p_kernels p) name c) in
      if add then
        let kid := zlen (c_kers c) in
        let c := with_kers (c_kers c ++ [new_kernel name id (e_info e source name)]) c in
        (with_progs (modz (fun p => mkProg (p_path p) (p_source p) (p_options p) (p_report p)
                                       (p_kernels p ++ [kid]) (p_compiled p)) id (c_progs c)) c, kid)
      else (c, ILLEGAL)
    | _, _ => (c, ILLEGAL)
    end
  else (c, ILLEGAL).

(* base_context.cpp 1462-1500: findKernelByName *)
Fixpoint find_from (i : Z) (name : chars) (np : Z) (ks : list kernel) : Z :=
  match ks with
  | [] => ILLEGAL
  | k :: ks => if (k_prog k <? np) && chars_eqb (k_name k) name then i else find_from (i + 1) name np ks
  end.
Definition find_kernel (name : chars) (c : ctx) : Z :=
  if is_empty name then ILLEGAL else find_from 0 name (num_progs c) (c_kers c).

(* base_context.cpp 2031-2038 *)
Definition num_kers (c : ctx) : Z := zlen (c_kers c).

(* base_context.cpp 1525-1649: reading the data of a kernel *)
Definition ker (id : Z) (c : ctx) : option kernel := if has_node c then nthz (c_kers c) id else None.
Definition ker_name (id : Z) (c : ctx) : option chars := option_map k_name (ker id c).
Definition ker_get (f : kernel -> Z) (id : Z) (c : ctx) : Z :=
  match ker id c with Some k => f k | None => 0 end.
Definition ker_wgs : Z -> ctx -> Z := ker_get (fun k => Z.min (k_wgs k) (k_max k)).
Definition ker_max : Z -> ctx -> Z := ker_get k_max.
Definition ker_pref : Z -> ctx -> Z := ker_get k_pref.
Definition ker_local : Z -> ctx -> Z := ker_get k_local.
Definition ker_nargs : Z -> ctx -> Z := ker_get k_nargs.
Definition ker_prog (id : Z) (c : ctx) : Z := match ker id c with Some k => k_prog k | None => ILLEGAL end.

Definition upd_ker (f : kernel -> kernel) (id : Z) (c : ctx) : ctx := with_kers (modz f id (c_kers c)) c.

(* base_context.cpp 1600-1621: setKernelWorkGroupSize *)
Definition set_wgs (id w : Z) (c : ctx) : ctx * bool :=
  match ker id c with
  | Some k => if w <=? k_max k then (upd_ker (k_with_wgs w) id c, true) else (c, false)
  | None => (c, false)
  end.

(* ---- arguments of kernels ---- *)
Inductive karg : Set := AArgument (a : Z) | ARaw (a size : Z) | ARawConst (a size : Z) | ABuffer (a : Z) | AValue (v : Z).
Definition arg_type (a : karg) : Z :=
  match a with AArgument _ => ARG_ARGUMENT | ARaw _ _ | ARawConst _ _ => ARG_RAW | ABuffer _ => ARG_BUFFER | AValue _ => ARG_VALUE end.
Definition arg_ptr (a : karg) : Z :=
  match a with AArgument a | ARaw a _ | ABuffer a => a | ARawConst _ _ | AValue _ => 0 end.
Definition arg_bound (a : karg) : bound :=
  match a with AArgument a => BArg a | ARaw a s | ARawConst a s => BRaw a s | ABuffer a => BBuffer a | AValue v => BValue v end.

(* base_context.cpp 1704-1769, base_context.h 759-774: assignKernelArgument, ...RawPtr, ...ClBuffer,
   ...Value; None: std::vector::at throws, or an access outside of the vector *)
Definition assign_arg (id i : Z) (a : karg) (c : ctx) : option ctx :=
  if id <? num_kers c
  then Some (upd_ker (fun k => cl_set_arg i (arg_bound a) (set_kernel_arg (arg_type a) i (arg_ptr a) k)) id c)
  else None.

(* base_context.cpp 1771-1801: resetKernelArguments; only parameters with a pointer are overwritten
   in OpenCL *)
Fixpoint reset_bound (ptrs : list Z) (b : list bound) : list bound :=
  match ptrs, b with
  | p :: ptrs, x :: b => (if p =? 0 then x else BDefault) :: reset_bound ptrs b
  | _, _ => b
  end.
Definition reset_args (id : Z) (c : ctx) : ctx :=
  if id <? num_kers c
  then upd_ker (fun k => reset_arguments (k_nargs k) (k_with_args (k_ptrs k) (k_types k) (reset_bound (k_ptrs k) (k_bound k)) k)) id c
  else c.

(* base_context.cpp 1803-1813: resetSingleKernelArgument; None: std::terminate *)
Definition reset_arg (id i : Z) (c : ctx) : option ctx :=
  if id <? num_kers c
  then Some (upd_ker (fun k => set_kernel_arg ARG_NONE i 0 (cl_set_arg i BDefault k)) id c)
  else None.

(* base_context.cpp 1671-1702: ptrKernelArgument (0 is the null pointer), kernelArgumentType *)
Definition ker_arg_ptr (id i : Z) (c : ctx) : Z :=
  match nthz (c_kers c) id with
  | Some k => if i <? k_nargs k then match nthz (k_ptrs k) i with Some p => p | None => 0 end else 0
  | None => 0
  end.
Definition ker_arg_type (id i : Z) (c : ctx) : Z :=
  match nthz (c_kers c) id with
  | Some k => if i <? k_nargs k then match nthz (k_types k) i with Some t => t | None => ARG_INVALID end else ARG_INVALID
  | None => ARG_INVALID
  end.
(* what the kernel gets when it runs *)
Definition ker_bound (id i : Z) (c : ctx) : option bound :=
  match nthz (c_kers c) id with Some k => nthz (k_bound k) i | None => None end.

(* ---- running kernels ---- *)
(* base_context.cpp 1815-1840: calculateKernelNumWorkItems *)
Definition calc_items (id n : Z) (c : ctx) : Z :=
  let w := ker_wgs id c in
  let w := if w =? 0 then ker_pref id c else w in
  if 0 <? w then
    let t := (n / w) * w in
    if t <? n then (t + w) mod 2 ^ 64 else t
  else n.

(* base_context.cpp 1861-1871 *)
Definition run_items (n w : Z) : Z :=
  if w =? 0 then n else (((n + w - 1) mod 2 ^ 64) / w * w) mod 2 ^ 64.
(* base_context.cpp 1901-1908 *)
Definition run_time (s e : Z) : T :=
  if s <=? e then nmul N (ndec N 1 (-9)) (nofZ N (e - s)) else nzero N.

(* base_context.cpp 1850-1916: runKernel *)
Definition run (o : outcome) (id n w : Z) (c : ctx) : ctx * bool :=
  if id <? num_kers c then
    (match r_times o with
     | Some (s, e) => upd_ker (fun k => k_with_last w (run_items n w) (add_exec_time (run_time s e) k)) id c
     | None => c
     end, r_ok o)
  else (c, false).
(* base_context.cpp 1842-1848 *)
Definition run_default (o : outcome) (id n : Z) (c : ctx) : ctx * bool := run o id n (ker_wgs id c) c.

(* base_context.cpp 1651-1659, 1918-1972: counters and times *)
Definition ker_count (id : Z) (c : ctx) : Z := match nthz (c_kers c) id with Some k => k_count k | None => 0 end.
Definition last_wgs (id : Z) (c : ctx) : Z := match nthz (c_kers c) id with Some k => k_last_wgs k | None => 0 end.
Definition last_items (id : Z) (c : ctx) : Z := match nthz (c_kers c) id with Some k => k_last_items k | None => 0 end.
Definition ker_time (f : kernel -> T) (id : Z) (c : ctx) : T :=
  match nthz (c_kers c) id with Some k => f k | None => nzero N end.
(* base_context.cpp 1974-1985 *)
Definition reset_exec (id : Z) (c : ctx) : ctx := if id <? num_kers c then upd_ker reset_timing id c else c.

(* ---- the remapping kernel ---- *)
(* base_context.cpp 1502-1523, 2000-2005 *)
Definition has_remap_prog (c : ctx) : bool := c_rprog c <? num_progs c.
Definition has_remap (c : ctx) : bool := has_node c && (c_rker c <? num_kers c).
Definition remap_prog (c : ctx) : Z := if has_remap_prog c then c_rprog c else ILLEGAL.
Definition remap_kernel (c : ctx) : Z := if has_remap c then c_rker c else ILLEGAL.
(* base_context.cpp 2007-2029: set_remapping_kernel_id *)
Definition set_remap (id : Z) (c : ctx) : ctx * bool :=
  if has_node c then
    match nthz (c_kers c) id with
    | Some k => if k_prog k <? num_progs c then (with_remap (k_prog k) id c, true) else (c, false)
    | None => (c, false)
    end
  else (c, false).

(* base_context.cpp 2986-3026: doInitDefaultProgramsBaseImpl. The id is unsigned: the test >= 0
   succeeds for the illegal id as well *)
Definition default_options (e : env) (c : ctx) : chars :=
  (if is_empty (c_opts c) then [] else c_opts c ++ lit " ")
  ++ flag_repr (lit "_GPUCODE") (lit "-D") (lit "=") c ++ lit " "
  ++ flag_repr (lit "SIXTRL_BUFFER_ARGPTR_DEC") (lit "-D") (lit "=") c ++ lit " "
  ++ flag_repr (lit "SIXTRL_BUFFER_DATAPTR_DEC") (lit "-D") (lit "=") c ++ lit " "
  ++ lit "-I " ++ e_include e.
Definition remap_file (c : ctx) : chars :=
  c_dir c ++ (if c_debug c then lit "managed_buffer_remap_debug.cl" else lit "managed_buffer_remap.cl").
Definition init_progs (e : env) (c : ctx) : ctx * bool :=
  let '(c', id) := add_file e (remap_file c) (default_options e c) false c in
  (with_remap id (c_rker c') c', true).

(* base_context.cpp 3033-3066: doInitDefaultKernelsBaseImpl *)
Definition remap_name (e : env) (c : ctx) : chars :=
  e_prefix e ++ (if c_debug c then lit "ManagedBuffer_remap_debug_opencl" else lit "ManagedBuffer_remap_opencl").
Definition init_kers (e : env) (c : ctx) : ctx * bool :=
  if has_node c && (c_rprog c <? num_progs c) then
    let '(c, id) := enable e (remap_name e c) (c_rprog c) c in set_remap id c
  else (c, false).

(* base_context.cpp 2939-2958: doClearBaseImpl; the id of the remapping program is kept *)
Definition do_clear (c : ctx) : ctx :=
  mkCtx (c_nodes c) (-1) [] [] [] (c_rprog c) ILLEGAL (c_flags c) (c_dir c) (c_opts c) (c_debug c).
(* base_context.cpp 1094-1099: clear *)
Definition clear (e : env) (c : ctx) : ctx := fst (init_progs e (do_clear c)).
(* base_context.cpp 2083-2105: enableDebugMode, disableDebugMode *)
Definition set_debug (e : env) (b : bool) (c : ctx) : ctx :=
  if negb (Bool.eqb (c_debug c) b) && negb (has_node c)
  then fst (init_progs e (clear e (with_debug b c)))
  else c.
(* base_context.cpp 1078-1092: reinit_default_programs *)
Definition reinit (e : env) (c : ctx) : ctx * bool :=
  if has_node c then (c, false) else (fst (init_kers e (fst (init_progs e (clear e c)))), true).

(* ---- selecting a node ---- *)
(* base_context.cpp 1024-1042: every program is built for the node *)
Fixpoint build_all (e : env) (c : ctx) (ps : list program) : list program * bool :=
  match ps with
  | [] => ([], true)
  | p :: ps =>
      let '(p, ok) := do_compile e c (p_source p) (mkProg (p_path p) (p_source p) (p_options p) [] [] false) in
      let '(ps, oks) := build_all e c ps in (p :: ps, ok && oks)
  end.
(* base_context.cpp 986-1046: doSelectNodeBaseImpl *)
Definition do_select (e : env) (i : Z) (c : ctx) : ctx * bool :=
  if negb (has_node c) && (i <? c_nodes c) && e_flag e then
    let c := with_sel i (with_kers [] c) in
    let '(ps, ok) := build_all e c (c_progs c) in
    (with_progs ps (with_cl (map p_source (c_progs c)) c), ok)
  else (c, false).

(* base_context.cpp 930-967: doAssignSlotSizeArgBaseImpl with BUFFER_DEFAULT_SLOT_SIZE = 8 *)
Definition assign_slot_size (c : ctx) : ctx * bool :=
  if has_remap c then
    if 2 <=? ker_nargs (c_rker c) c
    then (match assign_arg (c_rker c) 1 (AValue 8) c with Some c => c | None => c end, true)
    else (c, false)
  else (c, true).
(* base_context.cpp 880-921: doAssignStatusFlagsArgBaseImpl; [flags] is the buffer of the flags *)
Definition assign_flags (flags : Z) (c : ctx) : ctx * bool :=
  if has_remap c then
    let n := ker_nargs (c_rker c) c in
    if 2 <=? n then
      if c_debug c then
        if 2 <? n
        then (match assign_arg (c_rker c) (n - 1) (ABuffer flags) c with Some c => c | None => c end, true)
        else (c, false)
      else (c, true)
    else (c, false)
  else (c, true).

(* base_context.cpp 733-754: selectNode with an index *)
Definition select_index (e : env) (flags i : Z) (c : ctx) : ctx * bool :=
  let '(c, ok) := do_select e i c in
  if ok then
    let '(c, ok) := init_kers e c in
    if ok then
      let '(c, ok) := assign_slot_size c in
      if ok then assign_flags flags c else (c, false)
    else (c, false)
  else (c, false).
(* base_context.cpp 756-801: selectNode with an id, two numbers or a text; [i] is the index found,
   numAvailableNodes if there is none *)
Definition select_other (e : env) (i : Z) (c : ctx) : ctx * bool :=
  let '(c, ok) := do_select e i c in
  if ok then init_kers e c else (c, false).

(* base_context.cpp 54-106: the constructor without a node *)
Definition new_ctx (e : env) (nodes : Z) (dir opts : chars) : ctx :=
  fst (init_progs e (init_flags (mkCtx nodes (-1) [] [] [] ILLEGAL ILLEGAL [] dir opts false))).

(* ---- histories ---- *)
Inductive op : Set :=
| OAddCode (source options : chars) | OAddFile (path options : chars) (rel : bool)
| OCompile (id : Z) | OEnable (name : chars) (id : Z) | OSetWgs (id w : Z)
| OAssign (id i : Z) (a : karg) | OResetArgs (id : Z) | OResetArg (id i : Z)
| ORun (o : outcome) (id n w : Z) | OResetExec (id : Z) | OSetRemap (id : Z)
| OSetFlag (s v : chars) | OSelectIndex (flags i : Z) | OSelectOther (i : Z)
| OClear | ODebug (b : bool) | OReinit.

Definition b2z (b : bool) : Z := if b then 1 else 0.

(* the context afterwards and the returned value; None: the call does not return *)
Definition step (e : env) (o : op) (c : ctx) : option (ctx * Z) :=
  match o with
  | OAddCode s p => Some (add_code e s p c)
  | OAddFile f p rel => Some (add_file e f p rel c)
  | OCompile id => let '(c, b) := compile e id c in Some (c, b2z b)
  | OEnable n id => Some (enable e n id c)
  | OSetWgs id w => let '(c, b) := set_wgs id w c in Some (c, b2z b)
  | OAssign id i a => option_map (fun c => (c, 0)) (assign_arg id i a c)
  | OResetArgs id => Some (reset_args id c, 0)
  | OResetArg id i => option_map (fun c => (c, 0)) (reset_arg id i c)
  | ORun o id n w => let '(c, b) := run o id n w c in Some (c, b2z b)
  | OResetExec id => Some (reset_exec id c, 0)
  | OSetRemap id => let '(c, b) := set_remap id c in Some (c, b2z b)
  | OSetFlag s v => Some (set_feature_flag s v c, 0)
  | OSelectIndex f i => let '(c, b) := select_index e f i c in Some (c, b2z b)
  | OSelectOther i => let '(c, b) := select_other e i c in Some (c, b2z b)
  | OClear => Some (clear e c, 0)
  | ODebug b => Some (set_debug e b c, 0)
  | OReinit => let '(c, b) := reinit e c in Some (c, b2z b)
  end.

Fixpoint steps (h : list (env * op)) (c : ctx) : option ctx :=
  match h with
  | [] => Some c
  | (e, o) :: h => match step e o c with Some (c, _) => steps h c | None => None end
  end.

End Context.
