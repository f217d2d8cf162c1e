(* The memory pool: one malloc'ed block out of which chunks are handed out in order.
   sixtracklib/common/buffer/mem_pool.{h,c}.  The model keeps the fields of struct MemPool
   (addresses as integers, 0 = NULL); the result of malloc( n ) is an argument
   (malloc : bytes -> address, 0 = failure).  The contents of the block are not part of
   this file: Buffer.v describes what MemPool_reserve_aligned copies. *)
From Coq Require Import ZArith List Bool.
From Verif Require Import MBuf Alignment.
Import ListNotations.
Local Open Scope Z_scope.

(* mem_pool.h 61-80: struct MemPool *)
Record pool := Pool {
  p_buffer : Z; p_begin : Z; p_offset : Z; p_capacity : Z; p_size : Z; p_chunk : Z }.

(* mem_pool.h 22-40: struct AllocResult *)
Record alloc_result := AllocResult { r_ptr : Z; r_offset : Z; r_length : Z }.

Definition U64_MAX : Z := 2 ^ 64 - 1.

(* mem_pool.h 277-296: MemPool_preset *)
Definition pool_preset : pool := Pool 0 0 0 0 0 0.

(* mem_pool.h 298-307: MemPool_set_chunk_size *)
Definition pool_set_chunk (p : pool) (c : Z) : pool :=
  Pool (p_buffer p) (p_begin p) (p_offset p) (p_capacity p) (p_size p) c.

Definition pool_set_size (p : pool) (s : Z) : pool :=
  Pool (p_buffer p) (p_begin p) (p_offset p) (p_capacity p) s (p_chunk p).

(* mem_pool.c 71-79: the number of bytes asked of malloc by MemPool_init_aligned *)
Definition init_bytes (capacity chunk align : Z) : Z :=
  let requested := u64 (align + (if chunk <? capacity then capacity else chunk)) in
  let calc := requested / chunk * chunk in
  if calc <? requested then u64 (calc + chunk) else calc.

(* mem_pool.c 56-110: MemPool_init_aligned *)
Definition pool_init_aligned (malloc : Z -> Z) (capacity chunk align : Z) : pool :=
  if (0 <? chunk) && (0 <? align) then
    let cap := init_bytes capacity chunk align in
    let buf := malloc cap in
    if buf =? 0 then pool_preset
    else
      let md := buf mod align in
      let off := if md =? 0 then 0 else align - md in
      Pool buf (buf + off) off (if 0 <? off then u64 (cap - off) else cap) 0 chunk
  else pool_preset.

(* mem_pool.c 177-235: MemPool_reserve_aligned; the boolean is the result
   has_been_changed.  The copied bytes are [prev_begin, prev_begin + prev_size) *)
Definition pool_reserve_aligned (malloc : Z -> Z) (p : pool) (ncap align : Z) : bool * pool :=
  if (p_capacity p <? ncap) && (0 <? p_chunk p) then
    let q := pool_init_aligned malloc ncap (p_chunk p) align in
    if p_buffer q =? 0 then (false, p)
    else (true, if negb (p_begin p =? 0) && (0 <? p_size p)
                then pool_set_size q (p_size p) else q)
  else (false, p).

(* mem_pool.h 348-352: MemPool_clear *)
Definition pool_clear (p : pool) : pool := pool_set_size p 0.

(* mem_pool.c 114-173: MemPool_clear_to_aligned_position *)
Definition pool_clear_to_aligned (p : pool) (align : Z) : option (bool * pool) :=
  let bcap := u64 (p_capacity p + p_offset p) in
  let q := pool_clear p in
  if (0 <? align) && (0 <? p_chunk p) && negb (p_buffer p =? 0) then
    ua <- c_lcm align (p_chunk p) ;;
    if ua =? 0 then Some (false, q)
    else if bcap <? ua then
      let md := p_buffer p mod ua in
      if md =? 0 then Some (false, q)
      else
        let off := ua - md in
        Some (true,
              if off <? bcap
              then Pool (p_buffer q) (p_buffer p + off) (p_offset q) (bcap - off) 0 (p_chunk q)
              else Pool (p_buffer q) 0 (p_offset q) 0 0 (p_chunk q))
    else Some (false, q)
  else Some (false, q).

(* mem_pool.h 422-470: MemPool_get_next_begin_offset; a zero alignment is a division by
   zero (None) *)
Definition next_begin_offset (p : pool) (align : Z) : option Z :=
  ua <- common2 align (p_chunk p) ;;
  if ua =? 0 then None else
  let md := (p_begin p + p_size p) mod ua in
  let off := if md =? 0 then 0 else ua - md in
  let t := if negb (off =? 0) && (p_size p <? U64_MAX - off) then p_size p + off
           else p_size p in
  Some (if t <=? p_capacity p then t else U64_MAX).

(* mem_pool.h 474-483: MemPool_get_remaining_bytes *)
Definition remaining_bytes (p : pool) : Z :=
  u64 (p_capacity p - p_size p) / p_chunk p * p_chunk p.

(* mem_pool.h 496-550: MemPool_append_aligned; MemPool_append is the case align = 1 *)
Definition pool_append_aligned (p : pool) (num align : Z) : option (alloc_result * pool) :=
  next <- next_begin_offset p align ;;
  let none := (AllocResult 0 0 0, p) in
  if negb (p_begin p =? 0) && (0 <? num) && negb (next =? U64_MAX) && (0 <? p_chunk p) then
    let add := num / p_chunk p * p_chunk p in
    let add := if add <? num then u64 (add + p_chunk p) else add in
    if next <? U64_MAX - add then
      let ns := next + add in
      if ns <=? p_capacity p
      then Some (AllocResult (p_begin p + next) next add, pool_set_size p ns)
      else Some none
    else Some none
  else Some none.

Definition pool_append (p : pool) (num : Z) : option (alloc_result * pool) :=
  pool_append_aligned p num 1.

(* mem_pool.h 180-192: AllocResult_valid *)
Definition alloc_valid (r : alloc_result) : bool := negb (r_ptr r =? 0) && (0 <? r_length r).
