(* Arguments on a device and the transfer of buffers and raw memory to and from them.
   sixtracklib/common/control/argument_base.cpp, controller_base.cpp (send, receive, remap),
   sixtracklib/cuda/control/argument.cpp, controller.cpp (doSend, doReceive,
   doRemapCObjectsBuffer...), cuda/kernels/managed_buffer_remap.cu.

   Simplifications: the C++ buffer and its C API pointer are one buffer of the list w_bufs,
   named by its position; raw memory is a list of regions of whole words with their
   addresses, named by position, and a raw pointer is the begin of a region.  The
   device is one block of words, or none.  A device is an argument of every call: the
   addresses cudaMalloc gives (0: failure) with the contents of fresh memory, and whether
   cudaMemcpy succeeds; a failing cudaMemcpy changes nothing.  SIXTRL_ASSERT is disabled.
   The status is true for ARCH_STATUS_SUCCESS.  None: undefined behaviour, an access outside
   of a block or region. *)
From Coq Require Import ZArith List Bool.
From Verif Require Import MBuf MemPool Buffer.
Import ListNotations.
Local Open Scope Z_scope.

(* controller_base.hpp: the flags of the controller, whether it has the kernels that remap
   (debug and not), and whether it is in debug mode *)
Record ctrl := Ctrl { c_send : bool; c_recv : bool; c_run : bool;
                      c_kernel : bool; c_debug_kernel : bool; c_debug : bool }.

(* controller_base.cpp 51-58: readyForRemap *)
Definition ready_for_remap (c : ctrl) : bool :=
  c_run c && ((negb (c_debug c) && c_kernel c) || (c_debug c && c_debug_kernel c)).

(* argument_base.hpp 190-202 and m_arg_buffer of cuda/argument.hpp; the pointers are names *)
Record arg := Arg {
  a_raw : option nat; a_cxx : option nat; a_c : option nat;
  a_size : Z; a_cap : Z; a_has : bool; a_dev : option mem }.

Record world := World { w_bufs : list buffer; w_raws : list mem; w_arg : arg }.

Record device := Device { d_heap : heap; d_copy : bool }.

(* cuda/control/argument.cpp 29-36: a new argument *)
Definition new_arg : arg := Arg None None None 0 0 false None.

Definition set_raw (a : arg) (p : option nat) : arg :=
  Arg p (a_cxx a) (a_c a) (a_size a) (a_cap a) (a_has a) (a_dev a).
Definition set_size (a : arg) (n : Z) : arg :=
  Arg (a_raw a) (a_cxx a) (a_c a) n (a_cap a) (a_has a) (a_dev a).
Definition set_dev (a : arg) (m : mem) : arg :=
  Arg (a_raw a) (a_cxx a) (a_c a) (a_size a) (a_cap a) (a_has a) (Some m).
Definition set_has (a : arg) : arg :=
  Arg (a_raw a) (a_cxx a) (a_c a) (a_size a) (a_cap a) true (a_dev a).
Definition set_arg (w : world) (a : arg) : world := World (w_bufs w) (w_raws w) a.

Definition same (p : option nat) (i : nat) : bool :=
  match p with Some j => Nat.eqb j i | None => false end.
Definition given (p : option nat) : bool := match p with Some _ => true | None => false end.

(* argument_base.cpp 550-565: doSetBufferRef *)
Definition set_buffer_ref (a : arg) (i : nat) : arg :=
  Arg (a_raw a) (Some i) (Some i) (a_size a) (a_cap a) (a_has a) (a_dev a).

(* 567-570: doResetPtrCxxBuffer *)
Definition reset_cxx (a : arg) : arg :=
  Arg (a_raw a) None (a_c a) (a_size a) (a_cap a) (a_has a) (a_dev a).

(* 572-597: doSetPtrCBuffer; with a pointer to another buffer (or none) the C++ buffer is forgotten *)
Definition set_c (a : arg) (p : option nat) : arg :=
  let cxx := match a_cxx a, p with
             | Some j, Some i => if Nat.eqb j i then Some j else None
             | _, _ => None
             end in
  Arg (a_raw a) cxx p (a_size a) (a_cap a) (a_has a) (a_dev a).

(* cuda/control/argument.cpp 212-227: doDeleteCudaArgumentBuffer *)
Definition delete_device (a : arg) : arg := Arg None None None 0 0 (a_has a) None.

(* a fresh block of n bytes at address p *)
Definition device_block (hp : heap) (p n : Z) : mem :=
  Mem p (map (h_junk hp) (seq 0 (Z.to_nat (n / 8)))).

(* 229-251: doResetCudaArgumentBuffer with the block at address p <> 0 *)
Definition reset_device (hp : heap) (a : arg) (p n : Z) : arg :=
  let old := match a_dev a with Some m => mbase m | None => 0 end in
  if old =? p then a
  else
    let a := match a_dev a with Some _ => delete_device a | None => a end in
    if 0 <? n then Arg (a_raw a) (a_cxx a) (a_c a) (a_size a) n (a_has a) (Some (device_block hp p n)) else a.

(* 262-295: doReserveArgumentBufferCudaBaseImpl, 299-319: CudaAllocArgBuffer *)
Definition reserve_arg (hp : heap) (a : arg) (n : Z) : bool * arg :=
  let '(ok, a) :=
    if a_cap a <? n then
      let p := if 0 <? n then h_malloc hp n else 0 in
      if p =? 0 then (false, a) else (true, reset_device hp a p n)
    else (true, a) in
  (ok, if ok then set_has a else a).

(* cuda controller.cpp 874-906 and 1414-1440: doSend, PerformSendOperation of the words ws at
   address src *)
Definition do_send (dv : device) (a : arg) (src : Z) (ws : list Z) : option (bool * arg) :=
  match a_dev a with
  | Some m =>
    if a_has a && negb (mbase m =? 0) && negb (src =? 0) && negb (mbase m =? src) &&
       (0 <? 8 * Z.of_nat (length ws)) && d_copy dv
    then m' <- wrn m (mbase m) ws ;; Some (true, set_dev a m')
    else Some (false, a)
  | None => Some (false, a)
  end.

(* cuda controller.cpp 976-1006 and 1041-1095: doRemapCObjectsBufferArg; the kernel without
   debug mode gives no status *)
Definition do_remap (c : ctrl) (a : arg) : option (bool * arg) :=
  match a_dev a with
  | Some m =>
    if c_run c && given (a_c a) && a_has a && (0 <? a_cap a) &&
       (if c_debug c then c_debug_kernel c else c_kernel c)
    then '(ok, m') <- mb_remap m (mbase m) ;; Some (if c_debug c then ok else true, set_dev a m')
    else Some (false, a)
  | None => Some (false, a)
  end.

(* the bytes of a buffer *)
Definition buffer_words (b : buffer) : option (list Z) :=
  if data_size (b_h b) mod 8 =? 0
  then rdn (b_mem b) (data_addr (b_h b)) (Z.to_nat (data_size (b_h b) / 8)) else None.

(* controller_base.cpp 81-113 and 115-145: send of a C or a C++ buffer *)
Definition ctrl_send (c : ctrl) (dv : device) (a : arg) (b : buffer) (remap : bool) : option (bool * arg) :=
  let h := b_h b in
  if c_send c && ready_for_remap c && given (a_c a) && (0 <? a_cap a) && negb (data_addr h =? 0) &&
     (0 <? data_size h) && (data_size h <=? a_cap a)
  then
    ws <- buffer_words b ;;
    '(ok, a) <- do_send dv a (data_addr h) ws ;;
    if ok && remap then do_remap c a else Some (ok, a)
  else Some (false, a).

(* controller_base.cpp 60-79: send of raw memory *)
Definition ctrl_send_raw (c : ctrl) (dv : device) (a : arg) (r : mem) : option (bool * arg) :=
  let n := 8 * Z.of_nat (length (mwords r)) in
  if c_send c && ready_for_remap c && given (a_raw a) && (0 <? a_cap a) && negb (mbase r =? 0) &&
     (0 <? n) && (n <=? a_cap a)
  then do_send dv a (mbase r) (mwords r)
  else Some (false, a).

(* argument_base.cpp 47-111 (C++ buffer, cxx = true) and 113-173 (C buffer): send buffer i *)
Definition send_buffer (cx : option ctrl) (dv : device) (cxx : bool) (i : nat) (remap : bool) (w : world)
  : option (bool * world) :=
  b <- nth_error (w_bufs w) i ;;
  match cx with
  | None => Some (false, w)
  | Some c =>
    let a := if given (a_raw (w_arg w)) then set_raw (w_arg w) None else w_arg w in
    let n := data_size (b_h b) in
    let '(ok, updated, a) :=
      if a_cap a <? n then let '(r, a) := reserve_arg (d_heap dv) a n in (r, r, a) else (true, false, a) in
    if ok : bool then
      let set := updated || (if cxx then negb (given (a_cxx a)) || negb (given (a_c a)) else negb (given (a_c a))) in
      let a := if set then (if cxx then set_buffer_ref a i else set_c a (Some i)) else a in
      '(s, a) <- ctrl_send c dv a b remap ;;
      Some (s, set_arg w (if s then set_size a n else a))
    else Some (false, set_arg w a)
  end.

(* argument_base.cpp 183-252: send of the raw region r *)
Definition send_raw (cx : option ctrl) (dv : device) (r : nat) (w : world) : option (bool * world) :=
  m <- nth_error (w_raws w) r ;;
  let n := 8 * Z.of_nat (length (mwords m)) in
  match cx with
  | None => Some (false, w)
  | Some c =>
    if negb (mbase m =? 0) && (0 <? n) then
      let a := w_arg w in
      let a := if given (a_cxx a) then reset_cxx a else if given (a_c a) then set_c a None else a in
      let '(updated, a) := if a_cap a <? n then reserve_arg (d_heap dv) a n else (false, a) in
      if n <=? a_cap a then
        let a := if updated || negb (given (a_raw a)) then set_raw a (Some r) else a in
        '(s, a) <- ctrl_send_raw c dv a m ;;
        Some (s, set_arg w (if s then set_size a n else a))
      else Some (false, set_arg w a)
    else Some (false, w)
  end.

(* cuda controller.cpp 908-940, 1442-1468: doReceive, PerformReceiveOperation: the words that
   arrive, None inside when the transfer fails *)
Definition do_receive (dv : device) (a : arg) (dest : Z) : option (option (list Z)) :=
  match a_dev a with
  | Some m =>
    if a_has a && negb (mbase m =? 0) && negb (mbase m =? dest) && d_copy dv
    then ws <- (if a_size a mod 8 =? 0 then rdn m (mbase m) (Z.to_nat (a_size a / 8)) else None) ;; Some (Some ws)
    else Some None
  | None => Some None
  end.

Definition put {T : Type} (l : list T) (i : nat) (x : T) : list T :=
  firstn i l ++ match skipn i l with [] => [] | _ :: r => x :: r end.

(* argument_base.cpp 270-299, controller_base.cpp 183-213 and 215-247: receive into buffer j *)
Definition receive_buffer (cx : option ctrl) (dv : device) (j : nat) (remap : bool) (w : world)
  : option (bool * world) :=
  b <- nth_error (w_bufs w) j ;;
  let a := w_arg w in
  let h := b_h b in
  match cx with
  | None => Some (false, w)
  | Some c =>
    if given (a_c a) && c_recv c && (0 <? a_size a) && (a_size a <=? data_capacity h) && negb (data_addr h =? 0)
    then
      r <- do_receive dv a (data_addr h) ;;
      match r with
      | None => Some (false, w)
      | Some ws =>
        m <- wrn (b_mem b) (data_addr h) ws ;;
        let b := Buffer h (b_pool b) m in
        '(ok, b) <- (if remap then buf_remap b else Some (true, b)) ;;
        Some (ok, World (put (w_bufs w) j b) (w_raws w) a)
      end
    else Some (false, w)
  end.

(* argument_base.cpp 310-326, controller_base.cpp 145-178: receive into the raw region r; cap
   bytes is what the caller says the region has.  When the argument uses a buffer the region
   is remapped as one *)
Definition receive_raw (cx : option ctrl) (dv : device) (r : nat) (cap : Z) (w : world) : option (bool * world) :=
  old <- nth_error (w_raws w) r ;;
  let a := w_arg w in
  match cx with
  | None => Some (false, w)
  | Some c =>
    if (a_size a <=? cap) && c_recv c && (0 <? a_size a) && negb (mbase old =? 0) then
      x <- do_receive dv a (mbase old) ;;
      match x with
      | None => Some (false, w)
      | Some ws =>
        m <- wrn old (mbase old) ws ;;
        '(ok, m) <- (if given (a_c a) then mb_remap m (mbase m) else Some (true, m)) ;;
        Some (ok, World (w_bufs w) (put (w_raws w) r m) a)
      end
    else Some (false, w)
  end.

(* argument_base.cpp 26-47: send again what the argument refers to *)
Definition send_again (cx : option ctrl) (dv : device) (remap : bool) (w : world) : option (bool * world) :=
  match a_cxx (w_arg w), a_c (w_arg w), a_raw (w_arg w) with
  | Some i, _, _ => send_buffer cx dv true i remap w
  | None, Some i, _ => send_buffer cx dv false i remap w
  | None, None, Some r => send_raw cx dv r w
  | None, None, None => Some (false, w)
  end.

(* 254-275: receive into what the argument refers to *)
Definition receive_back (cx : option ctrl) (dv : device) (remap : bool) (w : world) : option (bool * world) :=
  match a_cxx (w_arg w), a_c (w_arg w), a_raw (w_arg w) with
  | Some i, _, _ => receive_buffer cx dv i remap w
  | None, Some i, _ => receive_buffer cx dv i remap w
  | None, None, Some r => receive_raw cx dv r (a_size (w_arg w)) w
  | None, None, None => Some (false, w)
  end.

(* 461-526: doUpdateRegions: the words vs at byte offset off, one region after the other; the
   memory written is that of the host *)
Fixpoint update_regions (l : list (Z * list Z)) (w : world) : option (bool * world) :=
  match l with
  | [] => Some (true, w)
  | (off, vs) :: l =>
    let n := 8 * Z.of_nat (length vs) in
    let a := w_arg w in
    if (n =? 0) || (a_size a <? u64 (off + n)) then Some (false, w)
    else
      match (match a_cxx a with Some i => Some i | None => a_c a end), a_raw a with
      | Some i, _ =>
        b <- nth_error (w_bufs w) i ;;
        if data_addr (b_h b) =? 0 then Some (false, w)
        else
          m <- wrn (b_mem b) (data_addr (b_h b) + off) vs ;;
          update_regions l (World (put (w_bufs w) i (Buffer (b_h b) (b_pool b) m)) (w_raws w) a)
      | None, Some r =>
        old <- nth_error (w_raws w) r ;;
        m <- wrn old (mbase old + off) vs ;;
        update_regions l (World (w_bufs w) (put (w_raws w) r m) a)
      | None, None => Some (false, w)
      end
  end.

(* 461-470: with at least one region *)
Definition update_arg (l : list (Z * list Z)) (w : world) : option (bool * world) :=
  match l with [] => Some (false, w) | _ => update_regions l w end.
