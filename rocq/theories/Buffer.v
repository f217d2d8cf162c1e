(* The user-level buffer: a handle, the memory pool it owns and the managed memory block.
   sixtracklib/common/buffer.h, buffer/buffer_generic.h, buffer/buffer.c.

   Conventions as in MBuf.v.  The slot size of the handle is 8.  A memory state holds the
   one block in which the data of the buffer lives.  When the pool is reallocated the old
   block is freed: only the new one is kept, so an access through a stale address is None.
   What malloc returns is an argument of the operation (struct heap): the address for a
   number of bytes (0 = failure) and the unspecified contents of the fresh block.
   int results 0 / -1 are true / false.  OpenCL and CUDA datastores are not modelled. *)
From Coq Require Import ZArith List Bool.
From Verif Require Import MBuf Alignment MemPool.
Import ListNotations.
Local Open Scope Z_scope.

Record heap := Heap { h_malloc : Z -> Z; h_junk : nat -> Z }.

(* buffer_type.h 195-209: struct Buffer without slot_length *)
Record handle := Handle {
  data_addr : Z; data_size : Z; header_size : Z; data_capacity : Z;
  object_addr : Z; num_objects : Z; ds_flags : Z; ds_addr : Z }.

Record buffer := Buffer { b_h : handle; b_pool : pool; b_mem : mem }.

(* buffer_type.h: SIXTRL_BUFFER_* flags *)
Definition F_USES : Z := 1.
Definition F_OWNS : Z := 2.
Definition F_APPENDS : Z := 4.
Definition F_CLEAR : Z := 8.
Definition F_DELETES : Z := 16.
Definition F_REMAPPING : Z := 32.
Definition F_RESIZE : Z := 64.
Definition F_MEMPOOL : Z := 65536.

(* buffer.h 542-548: Buffer_check_for_flags *)
Definition has_flags (h : handle) (f : Z) : bool := Z.land (ds_flags h) f =? f.

(* buffer.h 560-645: the predicates on the flags *)
Definition owns_datastore h := has_flags h F_OWNS.
Definition has_datastore h := negb (ds_addr h =? 0).
Definition uses_datastore h := has_datastore h && has_flags h F_USES.
Definition allow_clear h := has_flags h (F_CLEAR + F_USES).
Definition allow_append h := has_flags h (F_APPENDS + F_USES).
Definition allow_delete h := has_flags h (F_DELETES + F_USES).
Definition allow_modify h := allow_clear h && (allow_append h || allow_delete h).
Definition allow_remapping h := has_flags h F_REMAPPING.
Definition allow_resize h := has_flags h (F_RESIZE + F_USES + F_OWNS).
Definition uses_mempool h := has_flags h (F_USES + F_MEMPOOL).

(* the handle after the fields data_size, object_addr and num_objects were set *)
Definition set_view (h : handle) (size oaddr nobj : Z) : handle :=
  Handle (data_addr h) size (header_size h) (data_capacity h) oaddr nobj (ds_flags h)
    (ds_addr h).

Definition set_num_objects (h : handle) (n : Z) : handle :=
  set_view h (data_size h) (object_addr h) n.

(* buffer.h 1350-1374 / buffer_generic.h 214-238: Buffer_clear *)
Definition buf_clear (b : buffer) (zero : bool) : option (bool * buffer) :=
  let h := b_h b in
  if has_datastore h && allow_clear h then
    m <- mb_clear (b_mem b) (data_addr h) zero ;;
    Some (true, Buffer (set_num_objects h 0) (b_pool b) m)
  else Some (false, b).

(* buffer.h 1018-1060 / buffer_generic.h 250-305: Buffer_reset_detailed *)
Definition buf_reset_detailed (b : buffer) (nobj nslots ndata ngarb : Z)
  : option (bool * buffer) :=
  let h := b_h b in
  if uses_datastore h && allow_modify h && allow_clear h then
    '(ok, len, m) <- mb_init (b_mem b) (data_addr h) nobj nslots ndata ngarb
                       (data_capacity h) ;;
    match ok : bool, len with
    | true, Some len =>
      o <- objects_index_begin m (data_addr h) ;;
      Some (true, Buffer (set_view h len o 0) (b_pool b) m)
    | _, _ => Some (false, Buffer h (b_pool b) m)
    end
  else Some (false, b).

(* buffer_generic.h 242-246: Buffer_reset *)
Definition buf_reset (b : buffer) : option (bool * buffer) := buf_reset_detailed b 0 0 0 0.

(* buffer_generic.h 319-373: Buffer_remap *)
Definition buf_remap (b : buffer) : option (bool * buffer) :=
  let h := b_h b in
  if allow_remapping h then
    let a := data_addr h in
    h0 <- rd (b_mem b) a ;;
    if negb (h0 =? 0) && (h0 =? a) then Some (true, b)
    else if negb (h0 =? 0) && negb (a =? 0) then
      '(ok, m) <- mb_remap (b_mem b) a ;;
      if ok : bool then
        n0 <- rd m a ;; n1 <- rd m (a + 8) ;; n2 <- rd m (a + 16) ;;
        o <- section_data m a OBJECTS_ID ;;
        n <- section_num m a OBJECTS_ID ;;
        Some (true, Buffer (Handle n0 n1 n2 (data_capacity h) o n (ds_flags h) (ds_addr h))
                      (b_pool b) m)
      else Some (false, Buffer h (b_pool b) m)
    else Some (false, b)
  else Some (false, b).

(* buffer.h 1244-1283 / buffer_generic.h 375-433: Buffer_refresh *)
Definition buf_refresh (b : buffer) : option (bool * buffer) :=
  let h := b_h b in
  if has_datastore h && allow_remapping h then
    let a := data_addr h in
    if negb (a =? 0) && (a mod 8 =? 0) then
      nr <- needs_remapping (b_mem b) a ;;
      '(ok, m) <- (if nr : bool then mb_remap (b_mem b) a else Some (true, b_mem b)) ;;
      if ok : bool then
        size <- buffer_length m a ;;
        o <- objects_index_begin m a ;;
        n <- section_num m a OBJECTS_ID ;;
        Some (true, Buffer (Handle a size (header_size h)
                              (if data_capacity h <? size then size else data_capacity h)
                              o n (ds_flags h) (ds_addr h)) (b_pool b) m)
      else Some (false, Buffer h (b_pool b) m)
    else Some (false, b)
  else Some (false, b).

(* the block of a pool that was just allocated: fresh words, the first prev_size bytes
   copied from the previous block (mem_pool.c 207-216) *)
Definition fresh_block (hp : heap) (q : pool) (copied : list Z) : mem :=
  let n := Z.to_nat (p_capacity q / 8) in
  Mem (p_begin q) (firstn n copied ++ map (h_junk hp) (seq (length copied) (n - length copied))).

(* MemPool_reserve_aligned together with the contents of the block *)
Definition block_reserve (hp : heap) (p : pool) (m : mem) (ncap : Z) : bool * pool * mem :=
  let '(changed, q) := pool_reserve_aligned (h_malloc hp) p ncap 8 in
  (changed, q,
   if changed then
     fresh_block hp q (if p_begin p =? 0 then [] else firstn (Z.to_nat (p_size p / 8)) (mwords m))
   else m).

(* buffer.h 1105-1143 / buffer_generic.h 437-573: Buffer_reserve_capacity *)
Definition buf_reserve_capacity (hp : heap) (b : buffer) (ncap : Z) : option (bool * buffer) :=
  let h := b_h b in
  if uses_datastore h && allow_resize h && owns_datastore h then
    if (data_capacity h <? ncap) && uses_mempool h then
      let p := b_pool b in
      let cur := p_size p in
      let missing := ncap - (if cur <=? ncap then cur else ncap) in
      if 0 <? missing then
        let '(changed, q, m) := block_reserve hp p (b_mem b) ncap in
        if missing <=? remaining_bytes q then
          '(ok, m) <- (if (p_begin q =? p_begin p) && negb changed then Some (true, m)
                       else mb_remap m (p_begin q)) ;;
          if ok : bool then
            '(r, q) <- pool_append_aligned q missing 8 ;;
            if alloc_valid r then
              o <- section_ptr m (p_begin q) OBJECTS_ID ;;
              m <- set_zero m (r_ptr r) (r_length r) ;;
              Some (true, Buffer (Handle (p_begin q) (data_size h) (header_size h) (p_size q)
                                    o (num_objects h) (ds_flags h) (ds_addr h)) q m)
            else Some (true, Buffer h q m)
          else Some (false, Buffer h q m)
        else Some (false, Buffer h q m)
      else Some (true, b)
    else Some (false, b)
  else Some (false, b).

(* buffer.h 1063-1103 / buffer_generic.h 575-669: Buffer_reserve *)
Definition buf_reserve (hp : heap) (b : buffer) (nobj nslots ndata ngarb : Z)
  : option (bool * buffer) :=
  let h := b_h b in
  if uses_datastore h && allow_modify h then
    let a := data_addr h in
    xo <- section_max_num (b_mem b) a OBJECTS_ID ;;
    xs <- section_max_num (b_mem b) a SLOTS_ID ;;
    xd <- section_max_num (b_mem b) a DATAPTRS_ID ;;
    xg <- section_max_num (b_mem b) a GARBAGE_ID ;;
    if negb (nobj =? xo) || negb (nslots =? xs) || negb (ndata =? xd) || negb (ngarb =? xg)
    then
      requ <- calc_buffer_length (b_mem b) a nobj nslots ndata ngarb ;;
      '(ok, b) <- (if data_capacity h <? requ then buf_reserve_capacity hp b requ
                   else Some (true, b)) ;;
      let h := b_h b in
      if (ok : bool) && negb (data_capacity h <? requ) then
        let a := data_addr h in
        '(ok, len, m) <- mb_reserve (b_mem b) a nobj nslots ndata ngarb (data_capacity h) ;;
        match ok : bool, len with
        | true, Some len =>
          o <- objects_index_begin m a ;;
          n <- section_num m a OBJECTS_ID ;;
          Some (true, Buffer (set_view h len o n) (b_pool b) m)
        | _, _ => Some (false, Buffer h (b_pool b) m)
        end
      else Some (ok, b)
    else Some (false, b)
  else Some (false, b).

(* ------------------------------------------------------------------ *)
(* Memory of the caller, byte addressed: the source of the arrays an object points to.
   It is disjoint from the buffer (assumption of the model). *)
Definition ext_mem := Z -> option Z.

(* k bytes at a as a little-endian number *)
Fixpoint ext_word (e : ext_mem) (a : Z) (k : nat) : option Z :=
  match k with
  | O => Some 0
  | S k => b <- e a ;; r <- ext_word e (a + 1) k ;; Some (b + 256 * r)
  end.

(* n full words at a *)
Fixpoint ext_words (e : ext_mem) (a : Z) (n : nat) : option (list Z) :=
  match n with
  | O => Some []
  | S k => w <- ext_word e a 8 ;; r <- ext_words e (a + 8) k ;; Some (w :: r)
  end.

(* n bytes at a as words, the last one filled up with zero bytes *)
Definition ext_read (e : ext_mem) (a n : Z) : option (list Z) :=
  ws <- ext_words e a (Z.to_nat (n / 8)) ;;
  if n mod 8 =? 0 then Some ws
  else w <- ext_word e (a + 8 * (n / 8)) (Z.to_nat (n mod 8)) ;; Some (ws ++ [w]).

(* the first n bytes of the words ws, stored at a: the bytes of the last word beyond n
   keep their old value *)
Definition store_bytes (m : mem) (a : Z) (ws : list Z) (n : Z) : option mem :=
  m <- wrn m a (firstn (Z.to_nat (n / 8)) ws) ;;
  if n mod 8 =? 0 then Some m
  else
    w <- nth_error ws (Z.to_nat (n / 8)) ;;
    let a' := a + 8 * (n / 8) in
    old <- rd m a' ;;
    let k := 256 ^ (n mod 8) in
    wr m a' (old / k * k + w mod k).

(* one attribute of an object: offset of the pointer in the object, size of one value,
   number of values *)
Record attr := Attr { at_offset : Z; at_size : Z; at_count : Z }.

(* buffer_generic.h 925-974: the loop over the data pointers.  stored: begin of the stored
   object; dest: where the next array goes; out: where the next data pointer is listed *)
Fixpoint add_dataptrs (l : list attr) (e : ext_mem) (m : mem) (stored dest out : Z)
  : option mem :=
  match l with
  | [] => Some m
  | x :: r =>
    let size := u64 (at_count x * at_size x) in
    let extent := slot_based size in
    let slot := stored + at_offset x in
    src <- rd m slot ;;
    m <- (if negb (src =? 0) then ws <- ext_read e src size ;; wrn m dest ws
          else set_zero m dest extent) ;;
    m <- wr m slot dest ;;
    m <- wr m out slot ;;
    add_dataptrs r e m stored (dest + extent) (out + 8)
  end.

(* buffer_generic.h 713-1009: Buffer_add_object.  obj: the bytes of the object as words.
   Result: address of the entry in the object index, 0 = NULL *)
Definition buf_add_object (hp : heap) (b : buffer) (e : ext_mem) (obj : list Z)
  (osize type_id : Z) (attrs : list attr) : option (Z * buffer) :=
  let h := b_h b in
  if (0 <? osize) && allow_append h then
    let a := data_addr h in
    let m := b_mem b in
    cs <- section_num m a SLOTS_ID ;;
    xs <- section_max_num m a SLOTS_ID ;;
    co <- section_num m a OBJECTS_ID ;;
    xo <- section_max_num m a OBJECTS_ID ;;
    cd <- section_num m a DATAPTRS_ID ;;
    xd <- section_max_num m a DATAPTRS_ID ;;
    xg <- section_max_num m a GARBAGE_ID ;;
    let ro := u64 (co + 1) in
    let rd' := u64 (cd + Z.of_nat (length attrs)) in
    let add := predict_num_slots osize (map (fun x => (at_size x, at_count x)) attrs) in
    let rs := u64 (cs + add) in
    '(ok, b) <- (if (xo <? ro) || (xs <? rs) || (xd <? rd')
                 then buf_reserve hp b ro rs rd' xg else Some (true, b)) ;;
    if ok : bool then
      let h := b_h b in
      let a := data_addr h in
      let m := b_mem b in
      sz <- section_size m a SLOTS_ID ;;
      sp <- section_ptr m a SLOTS_ID ;;
      let stored := sp + sz in
      op <- section_ptr m a OBJECTS_ID ;;
      if stored =? 0 then Some (0, b) else
      m <- store_bytes m stored obj osize ;;
      if op =? 0 then Some (0, Buffer h (b_pool b) m) else
      osz <- section_size m a OBJECTS_ID ;;
      let dobj := op + osz in
      m <- wrn m dobj [stored; type_id; u64 (add * 8)] ;;
      m <- (match attrs with
            | [] => Some m
            | _ =>
              dsz <- section_size m a DATAPTRS_ID ;;
              dp <- section_ptr m a DATAPTRS_ID ;;
              m <- add_dataptrs attrs e m stored (stored + slot_based osize) (dp + dsz) ;;
              set_section_num m a DATAPTRS_ID rd'
            end) ;;
      m <- set_section_num m a SLOTS_ID rs ;;
      m <- set_section_num m a OBJECTS_ID ro ;;
      Some (dobj, Buffer (set_num_objects h ro) (b_pool b) m)
    else Some (0, b)
  else Some (0, b).

(* buffer.h 874-894: Buffer_get_num_of_objects: read from the memory block *)
Definition buf_num_objects (b : buffer) : option Z :=
  section_num (b_mem b) (data_addr (b_h b)) OBJECTS_ID.

(* buffer_generic.h 1235-1256: Buffer_get_const_object; result 0 = NULL *)
Definition buf_get_object (b : buffer) (i : Z) : option Z :=
  n <- buf_num_objects b ;;
  let p := object_addr (b_h b) in
  Some (if negb (p =? 0) && (i <=? n) then p + 24 * i else 0).

(* buffer.h 1395-1485: Buffer_can_add_object.  Result: success and the three reported
   numbers (requirements on success, otherwise the "missing" numbers) *)
Definition can_add_object (b : buffer) (osize : Z) (attrs : list (Z * Z))
  : option (bool * option (Z * Z * Z)) :=
  let h := b_h b in
  if allow_append h && (0 <? osize) then
    let a := data_addr h in
    let m := b_mem b in
    xs <- section_max_num m a SLOTS_ID ;;
    xo <- section_max_num m a OBJECTS_ID ;;
    xd <- section_max_num m a DATAPTRS_ID ;;
    co <- section_num m a OBJECTS_ID ;;
    cd <- section_num m a DATAPTRS_ID ;;
    cs <- section_num m a SLOTS_ID ;;
    let ro := u64 (co + 1) in
    let rd' := u64 (cd + Z.of_nat (length attrs)) in
    let rs := u64 (cs + predict_num_slots osize attrs) in
    if (ro <=? xo) && (rs <=? xs) && (rd' <=? xd) then Some (true, Some (ro, rs, rd'))
    else Some (false, Some (if ro <=? xo then 0 else u64 (xo - ro),
                            if rs <=? xs then 0 else u64 (xs - rs),
                            if rd' <=? xd then 0 else u64 (xd - rd')))
  else Some (false, None).

(* buffer_generic.h 1184-1230: Buffer_init_on_flat_memory_detailed on memory m at address
   a; h: the handle before *)
Definition init_on_flat_memory (h : handle) (m : mem) (a cap nobj nslots ndata ngarb : Z)
  : option (bool * handle * mem) :=
  '(ok, len, m) <- mb_init m a nobj nslots ndata ngarb cap ;;
  match ok : bool, len with
  | true, Some len =>
    n <- section_num m a OBJECTS_ID ;;
    o <- section_data m a OBJECTS_ID ;;
    Some (true, Handle a len (header_size h) cap o n
                  (F_APPENDS + F_USES + F_CLEAR + F_DELETES + F_REMAPPING) a, m)
  | _, _ => Some (false, h, m)
  end.

(* buffer.h 509-529: Buffer_preset (all fields but the slot length) *)
Definition preset_handle : handle := Handle 0 0 0 0 0 0 0 0.

(* buffer.c 36-141: Buffer_allocate_generic with the flag MEMPOOL.  The struct MemPool
   itself is at address pool_addr (0: its malloc failed); None inside = NULL result *)
Definition buf_allocate (hp : heap) (pool_addr cap flags : Z) : option (option buffer) :=
  let requ := if 128 <=? cap then cap else 128 in
  if Z.land flags F_MEMPOOL =? F_MEMPOOL then
    let p := pool_set_chunk pool_preset 8 in
    let '(changed, p, m) := block_reserve hp p (Mem 0 []) requ in
    if negb (pool_addr =? 0) && changed then
      '(r, p) <- pool_append_aligned p requ 8 ;;
      if alloc_valid r then
        m <- set_zero m (r_ptr r) (r_length r) ;;
        '(ok, h, m) <- init_on_flat_memory preset_handle m (r_ptr r) (r_length r) 0 0 0 0 ;;
        if ok : bool then
          Some (Some (Buffer (Handle (data_addr h) (data_size h) (header_size h)
                               (data_capacity h) (object_addr h) (num_objects h)
                               (Z.lor flags (F_USES + F_OWNS + F_MEMPOOL + F_APPENDS + F_CLEAR +
                                             F_REMAPPING + F_RESIZE)) pool_addr) p m))
        else Some None
      else Some None
    else Some None
  else Some None.

(* buffer.c 286-302: Buffer_new *)
Definition buf_new (hp : heap) (pool_addr cap : Z) : option (option buffer) :=
  r <- buf_allocate hp pool_addr cap F_MEMPOOL ;;
  match r with
  | None => Some None
  | Some b => '(ok, b) <- buf_reset b ;; Some (if ok : bool then Some b else None)
  end.

(* buffer.c 304-352: Buffer_new_detailed; the size of a garbage entry is taken as 8 *)
Definition buf_new_detailed (hp : heap) (pool_addr nobj nslots ndata ngarb flags : Z)
  : option (option buffer) :=
  let requ := u64 (64 + 16 + nslots * 8 + 16 + nobj * 24 + 16 + ndata * 8 + 16 + ngarb * 8 + 8) in
  r <- buf_allocate hp pool_addr requ flags ;;
  match r with
  | None => Some None
  | Some b => '(ok, b) <- buf_reset_detailed b nobj nslots ndata ngarb ;;
              Some (if ok : bool then Some b else None)
  end.

(* buffer.c 407-454: Buffer_new_from_copy *)
Definition buf_new_from_copy (hp : heap) (pool_addr : Z) (o : buffer)
  : option (option buffer) :=
  let h := b_h o in
  if (0 <? data_capacity h) && negb (data_addr h =? 0) then
    r <- buf_new hp pool_addr (data_capacity h) ;;
    match r with
    | None => Some None
    | Some b =>
      if 0 <? data_size h then
        ws <- (if data_size h mod 8 =? 0
               then rdn (b_mem o) (data_addr h) (Z.to_nat (data_size h / 8)) else None) ;;
        m <- wrn (b_mem b) (data_addr (b_h b)) ws ;;
        '(ok, b) <- buf_refresh (Buffer (b_h b) (b_pool b) m) ;;
        Some (if ok : bool then Some b else None)
      else Some (Some b)
    end
  else Some None.

(* buffer.c 660-679: Buffer_write_to_fp; the file as words.  fwrite is assumed to write
   everything.  None inside: false returned, nothing written *)
Definition buf_write (b : buffer) : option (option (list Z)) :=
  let h := b_h b in
  if negb (data_addr h =? 0) && (0 <? data_size h) then
    ws <- (if data_size h mod 8 =? 0
           then rdn (b_mem b) (data_addr h) (Z.to_nat (data_size h / 8)) else None) ;;
    Some (Some ws)
  else Some None.

(* buffer.c 681-732: Buffer_write_to_fp_normalized_addr: result, file written, buffer *)
Definition buf_write_normalized (b : buffer) (norm : Z)
  : option (bool * option (list Z) * buffer) :=
  let h := b_h b in
  let cur := data_addr h in
  if negb (cur =? 0) && (0 <? data_size h) then
    '(ok, m) <- (if negb (cur =? norm) then apply_addr_offset (b_mem b) cur (norm - cur)
                 else Some (true, b_mem b)) ;;
    let b := Buffer h (b_pool b) m in
    if ok : bool then
      ws <- (if data_size h mod 8 =? 0
             then rdn m cur (Z.to_nat (data_size h / 8)) else None) ;;
      nr <- (if has_datastore h && allow_remapping h then needs_remapping m cur
             else Some false) ;;
      if nr : bool then
        '(ok, b) <- buf_remap b ;; Some (ok, Some ws, b)
      else Some (true, Some ws, b)
    else Some (false, None, b)
  else Some (false, None, b).

(* buffer.c 465-541: Buffer_read_from_file of a file with the words f.  fopen and fread
   are assumed to succeed.  The result is the C value: the variable success is a bool, so
   assigning -1 makes it true and 0 false *)
Definition buf_read (hp : heap) (b : buffer) (f : list Z) : option (bool * buffer) :=
  let h := b_h b in
  let size := 8 * Z.of_nat (length f) in
  if allow_clear h && allow_modify h && (0 <? size) then
    '(ok, b) <- (if size <=? data_capacity h then Some (true, b)
                 else buf_reserve_capacity hp b size) ;;
    let h := b_h b in
    if size <=? data_capacity h then
      m <- wrn (b_mem b) (data_addr h) f ;;
      '(ok, b) <- buf_remap (Buffer h (b_pool b) m) ;;
      Some (negb ok, b)
    else Some (false, b)
  else Some (false, b).

(* buffer.c 543-606: Buffer_new_from_file *)
Definition buf_new_from_file (hp : heap) (pool_addr : Z) (f : list Z)
  : option (option buffer) :=
  let size := 8 * Z.of_nat (length f) in
  if 0 <? size then
    r <- buf_new hp pool_addr size ;;
    match r with
    | None => Some None
    | Some b =>
      m <- wrn (b_mem b) (data_addr (b_h b)) f ;;
      '(ok, b) <- buf_remap (Buffer (b_h b) (b_pool b) m) ;;
      Some (if ok : bool then Some b else None)
    end
  else Some None.

(* buffer_generic.h 1013-1170: Buffer_init_from_data into a buffer that uses a datastore
   (1066-1163); src: the block at address begin with the data.  The in-place case
   (no datastore) is init_in_place below.
   Line 1107: success = MemPool_reserve_aligned(...), so success is 0 only when the pool
   was not reallocated. *)
Definition buf_init_from_data (hp : heap) (b : buffer) (src : mem) (begin : Z)
  : option (bool * buffer * mem) :=
  if begin =? 0 then Some (false, b, src) else
  nr <- needs_remapping src begin ;;
  '(ok, src) <- (if nr : bool then mb_remap src begin else Some (true, src)) ;;
  if negb ok then Some (false, b, src) else
  len <- buffer_length src begin ;;
  let h := b_h b in
  if uses_datastore h && allow_clear h && allow_modify h then
    '(ok, b) <-
      (if data_capacity h <? len then
         if owns_datastore h && allow_resize h && uses_mempool h then
           let '(changed, p, m) := block_reserve hp (pool_clear (b_pool b)) (b_mem b) len in
           if changed : bool then Some (false, Buffer h p m)
           else
             '(r, p) <- pool_append_aligned p len 8 ;;
             if alloc_valid r
             then Some (true, Buffer (Handle (r_ptr r) 0 (header_size h) (r_length r)
                                        (object_addr h) (num_objects h) (ds_flags h)
                                        (ds_addr h)) p m)
             else Some (true, Buffer h p m)
         else Some (false, b)
       else Some (true, b)) ;;
    let h := b_h b in
    if (ok : bool) && (len <=? data_capacity h) then
      let a := data_addr h in
      ws <- (if len mod 8 =? 0 then rdn src begin (Z.to_nat (len / 8)) else None) ;;
      m <- wrn (b_mem b) a ws ;;
      nr <- needs_remapping m a ;;
      '(ok, m) <- (if nr : bool then mb_remap m a else Some (true, m)) ;;
      if ok : bool then
        o <- objects_index_begin src begin ;;
        n <- section_num src begin OBJECTS_ID ;;
        Some (true, Buffer (Handle a len (header_size h) (data_capacity h) o n
                              (Z.lor (ds_flags h) (F_APPENDS + F_REMAPPING)) (ds_addr h))
                      (b_pool b) m, src)
      else Some (true, Buffer h (b_pool b) m, src)
    else Some (ok, b, src)
  else Some (false, b, src).

(* buffer_generic.h 1046-1064 with buffer.c 382-405 (Buffer_new_on_data): a buffer on top
   of the memory of the caller *)
Definition buf_init_in_place (m : mem) (begin maxlen : Z) : option (option buffer) :=
  if begin =? 0 then Some None else
  nr <- needs_remapping m begin ;;
  '(ok, m) <- (if nr : bool then mb_remap m begin else Some (true, m)) ;;
  if negb ok then Some None else
  len <- buffer_length m begin ;;
  o <- objects_index_begin m begin ;;
  n <- section_num m begin OBJECTS_ID ;;
  Some (Some (Buffer (Handle begin len 0 maxlen o n
                        (F_USES + F_APPENDS + F_CLEAR + F_REMAPPING) 0) pool_preset m)).
