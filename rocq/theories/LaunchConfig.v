(* Configurations of kernels and the grids they are launched with.
   sixtracklib/common/control/kernel_config_base.cpp, cuda/control/kernel_config.cpp,
   cuda/control/default_kernel_config.c, cuda/cuda_tools.h, and the launches of
   opencl/internal/base_context.cpp and context.cpp.

   Simplifications: the name, the id, the architecture and the shared memory of a
   configuration are left out.  size_type is a number in [0, 2^64), the members of dim3
   numbers in [0, 2^32); products that may leave the range are reduced explicitly.  The
   status is true for ARCH_STATUS_SUCCESS.  SIXTRL_ASSERT is disabled.  None: undefined
   behaviour, an array that is read or written outside of its bounds. *)
From Coq Require Import ZArith List Bool.
Import ListNotations.
Local Open Scope Z_scope.

Definition wrap32 (z : Z) : Z := z mod 2 ^ 32.
Definition wrap64 (z : Z) : Z := z mod 2 ^ 64.

(* three numbers: an array of length 3, or a dim3 *)
Record three := Three { tx : Z; ty : Z; tz : Z }.
Definition at3 (t : three) (i : Z) : Z := if i =? 0 then tx t else if i =? 1 then ty t else tz t.
Definition put3 (t : three) (i v : Z) : three :=
  if i =? 0 then Three v (ty t) (tz t) else if i =? 1 then Three (tx t) v (tz t)
  else Three (tx t) (ty t) v.
Definition same3 (v : Z) : three := Three v v v.

(* kernel_config_base.hpp 303-317, cuda/control/kernel_config.hpp: m_blocks,
   m_threads_per_block, m_warp_size *)
Record conf := Conf {
  k_items_dim : Z; k_items : three; k_offsets : three;
  k_groups_dim : Z; k_groups : three; k_pref : three;
  k_args : Z; k_needs : bool; k_blocks : three; k_threads : three; k_warp : Z }.

Definition with_items c v := Conf (k_items_dim c) v (k_offsets c) (k_groups_dim c) (k_groups c)
  (k_pref c) (k_args c) (k_needs c) (k_blocks c) (k_threads c) (k_warp c).
Definition with_offsets c v := Conf (k_items_dim c) (k_items c) v (k_groups_dim c) (k_groups c)
  (k_pref c) (k_args c) (k_needs c) (k_blocks c) (k_threads c) (k_warp c).
Definition with_groups c v := Conf (k_items_dim c) (k_items c) (k_offsets c) (k_groups_dim c) v
  (k_pref c) (k_args c) (k_needs c) (k_blocks c) (k_threads c) (k_warp c).
Definition with_pref c v := Conf (k_items_dim c) (k_items c) (k_offsets c) (k_groups_dim c)
  (k_groups c) v (k_args c) (k_needs c) (k_blocks c) (k_threads c) (k_warp c).
Definition with_grid c b t := Conf (k_items_dim c) (k_items c) (k_offsets c) (k_groups_dim c)
  (k_groups c) (k_pref c) (k_args c) (k_needs c) b t (k_warp c).
Definition with_needs c f := Conf (k_items_dim c) (k_items c) (k_offsets c) (k_groups_dim c)
  (k_groups c) (k_pref c) (k_args c) f (k_blocks c) (k_threads c) (k_warp c).

(* kernel_config_base.cpp 813-860: doResetBaseImpl; the dimensions are 0 unless in 1..3 *)
Definition reset (c : conf) (items_dim groups_dim : Z) : conf :=
  Conf (if (0 <? items_dim) && (items_dim <=? 3) then items_dim else 0) (same3 0) (same3 0)
    (if (0 <? groups_dim) && (groups_dim <=? 3) then groups_dim else 0) (same3 0) (same3 0)
    (k_args c) (k_needs c) (k_blocks c) (k_threads c) (k_warp c).

(* kernel_config_base.cpp 22-35 and cuda/control/kernel_config.cpp 29-52; the members of a
   dim3 are 1 *)
Definition new_conf (items_dim groups_dim warp : Z) : conf :=
  reset (Conf 0 (same3 0) (same3 0) 0 (same3 0) (same3 0) 0 false (same3 1) (same3 1)
           (if 0 <? warp then warp else 32)) items_dim groups_dim.

(* cuda/control/kernel_config.cpp 54-78: with a name and a number of arguments *)
Definition new_named_conf (args items_dim groups_dim warp : Z) : conf :=
  let c := new_conf items_dim groups_dim warp in
  Conf (k_items_dim c) (k_items c) (k_offsets c) (k_groups_dim c) (k_groups c) (k_pref c)
    args (k_needs c) (k_blocks c) (k_threads c) (k_warp c).

(* cuda/control/controller.cpp 804-827 with 829-870: the configuration that
   addCudaKernelConfig( name, num_arguments, grid_dim ) appends, on a node with this warp size *)
Definition added_conf (num_arguments grid_dim warp : Z) : conf :=
  let c := new_conf grid_dim grid_dim 32 in
  if k_warp c =? warp then c else
  Conf (k_items_dim c) (k_items c) (k_offsets c) (k_groups_dim c) (k_groups c) (k_pref c)
    (k_args c) (k_needs c) (k_blocks c) (k_threads c) (if 0 <? warp then warp else k_warp c).

(* kernel_config_base.cpp 178-208, 315-321, 415-420, 536-542 *)
Definition num_items (c : conf) (i : Z) : Z := if i <? k_items_dim c then at3 (k_items c) i else 0.
Definition item_offset (c : conf) (i : Z) : Z :=
  if i <? k_items_dim c then at3 (k_offsets c) i else 0.
Definition group_size (c : conf) (i : Z) : Z := if i <? k_groups_dim c then at3 (k_groups c) i else 0.
Definition pref_multiple (c : conf) (i : Z) : Z :=
  if i <? k_groups_dim c then at3 (k_pref c) i else 1.

Definition total_items (c : conf) : Z :=
  fold_left (fun total i => wrap64 (total * at3 (k_items c) (Z.of_nat i)))
    (seq 0 (Z.to_nat (k_items_dim c))) 0.

(* the three tables set in the same way: kernel_config_base.cpp 236-287, 349-395, 457-508 and
   570-622.  [dim]: the dimension that is tested, [two] and [three_]: the dimensions that
   the versions with two and three values ask for; [pos]: values have to be positive *)
Definition fits (pos : bool) (vals : list Z) : bool :=
  forallb (fun v => negb pos || (0 <? v)) vals.

Definition set1 (pos : bool) (dim : Z) (t : three) (a : Z) : three * bool :=
  if (dim =? 1) && fits pos [a] then (Three a (ty t) (tz t), true) else (t, false).
Definition set2 (pos : bool) (asked dim : Z) (t : three) (a b : Z) : three * bool :=
  if (dim =? asked) && fits pos [a; b] then (Three a b (tz t), true) else (t, false).
Definition set3 (pos : bool) (asked dim : Z) (t : three) (a b c : Z) : three * bool :=
  if (dim =? asked) && fits pos [a; b; c] then (Three a b c, true) else (t, false).

(* kernel_config_base.cpp 289-311, 510-532: the loop stores all values; the status is
   ( total_num > 0 ), false, which is ARCH_STATUS_SUCCESS, when total_num is 0 *)
Fixpoint copy_all (dim i : nat) (vals : list Z) (t : three) : option three :=
  match dim with
  | O => Some t
  | S dim => match vals with
             | v :: vals => copy_all dim (S i) vals (put3 t (Z.of_nat i) v)
             | [] => None
             end
  end.

Definition product_status (dim : Z) (vals : list Z) : bool :=
  let total := fold_left (fun total v => wrap64 (total * v)) (firstn (Z.to_nat dim) vals) 0 in
  (if 0 <? total then 1 else 0) =? 0.

Definition setn (dim : Z) (t : three) (n : Z) (vals : option (list Z)) : option (three * bool) :=
  match vals with
  | Some vs =>
    if dim =? n then
      match copy_all (Z.to_nat dim) 0 vs t with
      | Some t' => Some (t', product_status dim vs)
      | None => None
      end
    else Some (t, false)
  | None => Some (t, false)
  end.

(* kernel_config_base.cpp 397-411: offsets from an array, no null test *)
Definition setn_offsets (dim : Z) (t : three) (n : Z) (vals : option (list Z))
  : option (three * bool) :=
  if dim =? n then
    match vals with
    | Some vs => match copy_all (Z.to_nat dim) 0 vs t with Some t' => Some (t', true) | None => None end
    | None => if dim =? 0 then Some (t, true) else None
    end
  else Some (t, false).

(* kernel_config_base.cpp 624-647: success is overwritten in every step of the loop *)
Definition setn_pref (dim : Z) (t : three) (n : Z) (vals : option (list Z))
  : option (three * bool) :=
  match vals with
  | Some vs =>
    if dim =? n then
      match copy_all (Z.to_nat dim) 0 vs t with
      | Some t' => Some (t', fold_left (fun _ v => 0 <? v) (firstn (Z.to_nat dim) vs) true)
      | None => None
      end
    else Some (t, false)
  | None => Some (t, false)
  end.

(* the calls that set a table *)
Inductive table := Items | Offsets | Groups | Pref.
Inductive values := V1 (a : Z) | V2 (a b : Z) | V3 (a b c : Z) | VN (n : Z) (vs : option (list Z)).

Definition get_table (k : table) (c : conf) : three :=
  match k with Items => k_items c | Offsets => k_offsets c | Groups => k_groups c | Pref => k_pref c end.
Definition put_table (k : table) (c : conf) (t : three) : conf :=
  match k with Items => with_items c t | Offsets => with_offsets c t
             | Groups => with_groups c t | Pref => with_pref c t end.
Definition table_dim (k : table) (c : conf) : Z :=
  match k with Items | Offsets => k_items_dim c | Groups | Pref => k_groups_dim c end.
(* the dimension tested by the versions with two and three values *)
Definition asked2 (k : table) : Z := match k with Pref => 2 | _ => 1 end.
Definition asked3 (k : table) : Z := match k with Pref => 3 | _ => 1 end.
Definition positive (k : table) : bool := match k with Offsets => false | _ => true end.

(* setNumWorkItems, setWorkItemOffset, setWorkGroupSizes, setPreferredWorkGroupMultiple *)
Definition set (k : table) (v : values) (c : conf) : option (conf * bool) :=
  let t := get_table k c in
  let d := table_dim k c in
  let r := match v with
    | V1 x => Some (set1 (positive k) d t x)
    | V2 x y => Some (set2 (positive k) (asked2 k) d t x y)
    | V3 x y z => Some (set3 (positive k) (asked3 k) d t x y z)
    | VN n vs => match k with
                 | Items | Groups => setn d t n vs
                 | Offsets => setn_offsets d t n vs
                 | Pref => setn_pref d t n vs
                 end
    end in
  match r with Some (t', st) => Some (put_table k c t', st) | None => None end.

(* kernel_config_base.cpp 740-770: clear; only the used part of the tables *)
Definition clear_part (dim v : Z) (t : three) : three :=
  Three (if 0 <? dim then v else tx t) (if 1 <? dim then v else ty t) (if 2 <? dim then v else tz t).
Definition clear (c : conf) : conf :=
  Conf (k_items_dim c) (clear_part (k_items_dim c) 0 (k_items c))
    (clear_part (k_items_dim c) 0 (k_offsets c))
    (k_groups_dim c) (clear_part (k_groups_dim c) 0 (k_groups c))
    (clear_part (k_groups_dim c) 1 (k_pref c)) 0 false (k_blocks c) (k_threads c) (k_warp c).

(* cuda/control/kernel_config.cpp 172-233: doUpdate; one step of the loop *)
Definition axis (dim i items group : Z) : option (Z * Z) :=
  if i <? dim then
    if (group =? 0) || (items =? 0) then None
    else Some (items / group + (if items mod group =? 0 then 0 else 1), group)
  else Some (1, 1).

Definition cuda_do_update (c : conf) : conf * bool :=
  let d := k_items_dim c in
  if (0 <? d) && (k_groups_dim c =? d) then
    match axis d 0 (num_items c 0) (group_size c 0),
          axis d 1 (num_items c 1) (group_size c 1),
          axis d 2 (num_items c 2) (group_size c 2) with
    | Some (b0, t0), Some (b1, t1), Some (b2, t2) =>
      (with_grid c (Three (wrap32 b0) (wrap32 b1) (wrap32 b2))
                   (Three (wrap32 t0) (wrap32 t1) (wrap32 t2)),
       (0 <? wrap64 (wrap64 (b0 * b1) * b2)) && (0 <? wrap64 (wrap64 (t0 * t1) * t2)))
    | _, _, _ => (c, false)
    end
  else (c, false).

(* kernel_config_base.cpp 667-677: update *)
Definition update (c : conf) : conf * bool :=
  let (c, st) := cuda_do_update c in
  (if st then with_needs c false else c, st).

(* cuda/control/kernel_config.cpp 142-150, 235-260: what a launch reads, and the totals; the
   products of the members of a dim3 are computed with 32 bits *)
Definition grid_of (c : conf) : option (three * three) :=
  if k_needs c then None else Some (k_blocks c, k_threads c).
Definition volume32 (t : three) : Z := wrap32 (wrap32 (tx t * ty t) * tz t).
Definition total_blocks (c : conf) : Z := if k_needs c then 0 else volume32 (k_blocks c).
Definition total_threads_per_block (c : conf) : Z := if k_needs c then 0 else volume32 (k_threads c).
Definition total_threads (c : conf) : Z := wrap64 (total_blocks c * total_threads_per_block c).

(* default_kernel_config.c: set the number of work items, the group size and the preferred
   multiple, then update; 80-91 and the same lines of the other functions *)
Definition then_set (k : table) (a : Z) (r : conf * bool) : conf * bool :=
  let (c, st) := r in
  if st then
    match set k (V1 a) c with Some r => r | None => r end
  else r.
Definition configure_1d (c : conf) (items group warp : Z) : conf * bool :=
  let (c, st) := then_set Pref warp (then_set Groups group (then_set Items items (c, true))) in
  if st then update c else (c, false).

(* default_kernel_config.c 198-241: configure_generic_track_kernel, called by the
   configurations of track_until, track_elem_by_elem and track_line (24-52).  [warp]: the warp
   size of the node, None: no node or no configuration *)
Definition configure_track (c : conf) (warp : option Z) (num_particles threads_per_block : Z)
  : conf * bool :=
  match warp with
  | Some w =>
    if 0 <? threads_per_block then
      let blocks := num_particles / threads_per_block in
      let blocks := if wrap64 (blocks * threads_per_block) <? num_particles
                    then wrap64 (blocks + 1) else blocks in
      let blocks := if blocks =? 0 then 1 else blocks in
      configure_1d c blocks threads_per_block w
    else (c, false)
  | None => (c, false)
  end.

(* default_kernel_config.c 55-92: configure_fetch_particles_addresses_kernel *)
Definition configure_fetch (c : conf) (warp : option Z) (num_sets threads_per_block : Z)
  : conf * bool :=
  match warp with
  | Some w =>
    if 0 <? threads_per_block then
      let blocks := num_sets / threads_per_block in
      let blocks := if wrap64 (blocks * threads_per_block) <? num_sets
                    then wrap64 (blocks + 1) else blocks in
      configure_1d c blocks threads_per_block w
    else (c, false)
  | None => (c, false)
  end.

(* default_kernel_config.c 94-162: configure_assign_output_to_beam_monitors_kernel (which
   ignores the number of monitors) and ..._to_elem_by_elem_config_kernel *)
Definition configure_assign (c : conf) (warp : option Z) (threads_per_block : Z) : conf * bool :=
  match warp with
  | Some w => if 0 <? threads_per_block then configure_1d c 1 threads_per_block w else (c, false)
  | None => (c, false)
  end.

(* default_kernel_config.c 165-195: configure_assign_address_kernel *)
Definition configure_assign_address (c : conf) (warp : option Z) : conf * bool :=
  match warp with Some w => configure_1d c 1 1 w | None => (c, false) end.

(* cuda/cuda_tools.h 77-100, 162-182: the number of a thread in the grid.  [t], [b]: thread and
   block index, [grid], [block]: the numbers of blocks and of threads per block *)
Definition thread_id (t b grid block : three) : Z :=
  let per_block := volume32 block in
  let id := tx t in
  let temp := tx block in
  let id := wrap64 (id + wrap64 (ty t * temp)) in
  let temp := wrap64 (temp * ty block) in
  let id := wrap64 (id + wrap64 (temp * tz t)) in
  let temp := per_block in
  let id := wrap64 (id + wrap64 (tx b * temp)) in
  let temp := wrap64 (temp * tx grid) in
  let id := wrap64 (id + wrap64 (ty b * temp)) in
  let temp := wrap64 (temp * ty grid) in
  wrap64 (id + wrap64 (tz b * temp)).

(* cuda/cuda_tools.h 194-222: the number of threads, as the kernels compute it *)
Definition thread_stride (grid block : three) : Z := wrap64 (volume32 grid * volume32 block).

(* what a launch with a grid runs: one thread for every thread index and block index *)
Definition below (n : Z) : list Z := map Z.of_nat (seq 0 (Z.to_nat n)).
Definition indices (t : three) : list three :=
  flat_map (fun z => flat_map (fun y => map (fun x => Three x y z) (below (tx t)))
    (below (ty t))) (below (tz t)).
Definition grid_ids (grid block : three) : list Z :=
  flat_map (fun b => map (fun t => thread_id t b grid block) (indices block)) (indices grid).

(* ---------------------------------------------------------------------- *)
(* OpenCL: opencl/internal/base_context.h 970-1120, the data of one kernel; the numbers of
   work-items are those of the dimension 0 *)
Record clk := Clk { cl_wg : Z; cl_max : Z; cl_pref : Z; cl_last_wg : Z; cl_last_items : Z }.

(* base_context.cpp 1428-1455: a new kernel, with the answers of getWorkGroupInfo *)
Definition cl_new (max pref : Z) : clk := Clk 0 max pref 0 0.

(* base_context.cpp 1566-1584, 1600-1621 *)
Definition cl_work_group_size (k : clk) : Z := Z.min (cl_wg k) (cl_max k).
Definition cl_set_work_group_size (k : clk) (wg : Z) : clk * bool :=
  if wg <=? cl_max k then (Clk wg (cl_max k) (cl_pref k) (cl_last_wg k) (cl_last_items k), true)
  else (k, false).

(* base_context.cpp 1814-1840: calculateKernelNumWorkItems *)
Definition cl_calculate (k : clk) (n : Z) : Z :=
  let wg := cl_work_group_size k in
  let wg := if wg =? 0 then cl_pref k else wg in
  if 0 <? wg then
    let threads := wrap64 (n / wg * wg) in
    if threads <? n then wrap64 (threads + wg) else threads
  else n.

(* base_context.cpp 1850-1916: runKernel with a group size.  Result: the global and the local
   size given to the queue (local 0: NullRange).  [ok]: the queue accepts and runs it;
   [prof]: the profiling information is available *)
Definition cl_run (k : clk) (n wg : Z) (ok prof : bool) : clk * (Z * Z) * bool :=
  let items := if wg =? 0 then n else wrap64 (wrap64 (n + wg - 1) / wg * wg) in
  (if prof then Clk (cl_wg k) (cl_max k) (cl_pref k) wg items else k, (items, wg), ok).

(* base_context.cpp 1842-1848: runKernel without one *)
Definition cl_run_default (k : clk) (n : Z) (ok prof : bool) : clk * (Z * Z) * bool :=
  cl_run k n (cl_work_group_size k) ok prof.

(* opencl/internal/context.cpp 709-750 and the other tracking calls: the kernel is run with the
   group size of its last execution *)
Definition cl_track (k : clk) (n : Z) (ok prof : bool) : clk * (Z * Z) * bool :=
  cl_run k n (cl_last_wg k) ok prof.
