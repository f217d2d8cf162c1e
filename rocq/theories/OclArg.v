(* Arguments of OpenCL kernels and the transfer of buffers and raw memory to and from them.
   sixtracklib/opencl/internal/argument.cpp, kernels/managed_buffer_remap.cl,
   managed_buffer_remap_debug.cl.

   Simplifications: the C++ buffer and its C API pointer are one buffer of the list v_bufs, named by
   its position; raw memory, sizes and offsets are whole words. A cl::Buffer is a block of words with
   an address that stays the same, or none when its creation failed. The context and the outcomes of
   the OpenCL commands are an argument of every call; a command that fails changes nothing and does
   not throw. Commands outside of a cl::Buffer fail (OpenCL 1.2, 5.2.2: CL_INVALID_VALUE).
   None: undefined behaviour. *)
From Coq Require Import ZArith List Bool.
From Verif Require Import MBuf MemPool Buffer DeviceArg.
Import ListNotations.
Local Open Scope Z_scope.

(* the remapping kernel of the context: none, ManagedBuffer_remap_opencl with two parameters, or
   ManagedBuffer_remap_debug_opencl with three, whose last one is the buffer of the status flag, if
   that has been assigned (base_context.cpp 876-918: doAssignStatusFlagsArgBaseImpl) *)
Inductive kernel := NoKernel | Plain | Debug (assigned : bool).

(* the context: null or not, with a selected node (context and queue) or not, its remapping kernel,
   and the outcomes of the commands: writing and reading the status flag, writing and reading the
   argument, running the kernel *)
Record ocl := Ocl { x_ctx : bool; x_node : bool; x_kernel : kernel;
  x_put_flag : bool; x_get_flag : bool; x_put : bool; x_get : bool; x_run : bool }.

(* argument.h: m_cl_buffer, m_arg_size, m_ptr_cobj_buffer *)
Record clarg := CA { ca_dev : option mem; ca_size : Z; ca_buf : option nat }.
Record oworld := OW { v_bufs : list buffer; v_arg : clarg }.

Definition has_queue (x : ocl) : bool := x_ctx x && x_node x.
(* base_context.cpp 1516-1522: has_remapping_kernel *)
Definition has_kernel (x : ocl) : bool :=
  x_node x && match x_kernel x with NoKernel => false | _ => true end.

(* a cl::Buffer of n bytes; none when its creation fails *)
Definition cl_buffer (hp : heap) (n : Z) : option mem :=
  let p := h_malloc hp n in if p =? 0 then None else Some (device_block hp p n).

(* argument.cpp 27-35: without a size; 100-125: with a size *)
Definition cl_new : clarg := CA None 0 None.
Definition cl_new_size (x : ocl) (hp : heap) (n : Z) : clarg :=
  if (0 <? n) && has_queue x && has_kernel x then CA (cl_buffer hp n) n None else cl_new.

(* enqueueWriteBuffer, enqueueReadBuffer: None is an error *)
Definition put_words (ok : bool) (d : option mem) (off : Z) (ws : list Z) : option mem :=
  match d with
  | Some m => if ok && (0 <=? off) && (0 <? Z.of_nat (length ws)) &&
                 (off + 8 * Z.of_nat (length ws) <=? 8 * Z.of_nat (length (mwords m)))
              then wrn m (mbase m + off) ws else None
  | None => None
  end.
Definition get_words (ok : bool) (d : option mem) (n : Z) : option (list Z) :=
  match d with
  | Some m => if ok && (0 <? n) && (n <=? 8 * Z.of_nat (length (mwords m)))
              then rdn m (mbase m) (Z.to_nat (n / 8)) else None
  | None => None
  end.

(* argument.cpp 127-159: with raw memory; a null pointer is None *)
Definition cl_new_raw (x : ocl) (hp : heap) (ws : option (list Z)) : clarg :=
  match ws with
  | Some ws =>
      let n := 8 * Z.of_nat (length ws) in
      if (0 <? n) && has_queue x && has_kernel x
      then let d := cl_buffer hp n in
           CA (match put_words (x_put x) d 0 ws with Some m => Some m | None => d end) n None
      else cl_new
  | None => cl_new
  end.

(* argument.cpp 439-466: the kernel is run by one work item; the debug kernel without its last
   parameter cannot be run (CL_INVALID_KERNEL_ARGS). The result is the status of write and the
   block. managed_buffer_remap_debug.cl 15-45: the flag is 0 exactly on success. *)
Definition run_remap (x : ocl) (m : mem) : option (bool * mem) :=
  match x_kernel x with
  | NoKernel => Some (false, m)
  | Plain => if x_run x then '(_, m') <- mb_remap m (mbase m) ;; Some (true, m') else Some (false, m)
  | Debug a =>
      if x_run x && a
      then '(ok, m') <- mb_remap m (mbase m) ;; Some (x_get_flag x && ok, m')
      else Some (false, m)
  end.

(* argument.cpp 367-479: doWriteAndRemapCObjBufferBaseImpl of buffer i (171-181: write) *)
Definition cl_write (x : ocl) (i : nat) (w : oworld) : option (bool * oworld) :=
  b <- nth_error (v_bufs w) i ;;
  let a := v_arg w in
  let n := data_size (b_h b) in
  if has_queue x && has_kernel x && (0 <? n) && (n <=? ca_size a) && x_put_flag x
  then
    ws <- buffer_words b ;;
    match put_words (x_put x) (ca_dev a) 0 ws with
    | None => Some (false, w)
    | Some m =>
        '(ok, m) <- run_remap x m ;;
        Some (ok, OW (v_bufs w) (CA (Some m) (ca_size a) (if ok then Some i else ca_buf a)))
    end
  else Some (false, w).

(* argument.cpp 37-98: with a buffer; the result of the transfer is not looked at *)
Definition cl_new_buffer (x : ocl) (hp : heap) (bs : list buffer) (i : nat) : option oworld :=
  b <- nth_error bs i ;;
  let n := data_size (b_h b) in
  if (0 <? n) && has_queue x && has_kernel x
  then '(_, w) <- cl_write x i (OW bs (CA (cl_buffer hp n) n None)) ;; Some w
  else Some (OW bs cl_new).

(* argument.cpp 481-515: doReadAndRemapCObjBufferBaseImpl into buffer j (231-241: read) *)
Definition cl_read (x : ocl) (j : nat) (w : oworld) : option (bool * oworld) :=
  b <- nth_error (v_bufs w) j ;;
  let a := v_arg w in
  let h := b_h b in
  if has_queue x && (0 <? ca_size a) && (ca_size a <=? data_capacity h)
  then
    match get_words (x_get x) (ca_dev a) (ca_size a) with
    | None => Some (false, w)
    | Some ws =>
        m <- wrn (b_mem b) (data_addr h) ws ;;
        '(ok, b) <- buf_remap (Buffer h (b_pool b) m) ;;
        Some (ok, OW (put (v_bufs w) j b) (if ok then CA (ca_dev a) (ca_size a) (Some j) else a))
    end
  else Some (false, w).

(* argument.cpp 183-205 and 207-229: write and read of raw memory of exactly the size of the argument *)
Definition cl_write_raw (x : ocl) (ws : option (list Z)) (w : oworld) : bool * oworld :=
  let a := v_arg w in
  match ws with
  | Some ws =>
      if (0 <? Z.of_nat (length ws)) && (8 * Z.of_nat (length ws) =? ca_size a) && has_queue x
      then match put_words (x_put x) (ca_dev a) 0 ws with
           | Some m => (true, OW (v_bufs w) (CA (Some m) (ca_size a) (ca_buf a)))
           | None => (false, w)
           end
      else (false, w)
  | None => (false, w)
  end.
Definition cl_read_raw (x : ocl) (n : Z) (w : oworld) : option (list Z) :=
  let a := v_arg w in
  if (0 <? n) && (n =? ca_size a) && has_queue x then get_words (x_get x) (ca_dev a) n else None.

(* argument.cpp 317-365: doUpdateRegions (243-259: updateRegion, updateRegions): the words at a byte
   offset, one region after the other; a null pointer is None *)
Fixpoint cl_regions (x : ocl) (l : list (Z * option (list Z))) (w : oworld) : bool * oworld :=
  match l with
  | [] => (true, w)
  | (off, ws) :: l =>
      match ws with
      | Some ws =>
          let n := 8 * Z.of_nat (length ws) in
          let a := v_arg w in
          if (n =? 0) || (ca_size a <? (off + n) mod 2 ^ 64) then (false, w)
          else match put_words (x_put x) (ca_dev a) off ws with
               | Some m => cl_regions x l (OW (v_bufs w) (CA (Some m) (ca_size a) (ca_buf a)))
               | None => (false, w)
               end
      | None => (false, w)
      end
  end.
Definition cl_update (x : ocl) (l : list (Z * option (list Z))) (w : oworld) : bool * oworld :=
  match l with
  | [] => (false, w)
  | _ :: _ => if (0 <? ca_size (v_arg w)) && has_queue x then cl_regions x l w else (false, w)
  end.
