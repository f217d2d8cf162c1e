(* Beam monitors at the end of a line:
   sixtracklib/common/be_monitor/be_monitor.c 295-403 and 405-436.

   Turns are int64 numbers; an overflow is undefined (None).  hps and st are the heaps and the
   contents of the uninitialised struct on the stack in the calls of BeamMonitor_new.  The
   buffer is not NULL; the SIXTRL_ASSERTs are not modelled. *)
From Coq Require Import ZArith List Bool.
From Verif Require Import MBuf MemPool Buffer ElementAdd ElementNew.
Import ListNotations.
Local Open Scope Z_scope.

(* an int64 result, or undefined *)
Definition int64_result (z : Z) : option Z := if (- 2 ^ 63 <=? z) && (z <? 2 ^ 63) then Some z else None.

(* be_monitor.h 677-684, 686-693, 695-702, 704-712: BeamMonitor_set_num_stores, set_start,
   set_skip and set_is_rolling: field k of the monitor at address a *)
Definition set_field (b : buffer) (a k v : Z) : option buffer :=
  m <- wr (b_mem b) (a + 8 * k) (v mod 2 ^ 64) ;;
  Some (Buffer (b_h b) (b_pool b) m).

(* be_monitor.c 346-352 and 374-392: a new monitor; its number of stores, start, skip and
   is_rolling are computed (fields) and set if there is one.  false: no monitor *)
Definition new_monitor (F : floats) (hp : heap) (b : buffer) (stack : nat -> Z)
  (fields : option (Z * Z * Z * bool)) : option (bool * buffer) :=
  '(a, b1) <- new_element F hp b stack NewMonitor ;;
  if a =? 0 then Some (false, b1) else
  '(num_stores, start, skip, rolling) <- fields ;;
  b2 <- set_field b1 a 0 num_stores ;;
  b3 <- set_field b2 a 1 start ;;
  b4 <- set_field b3 a 2 skip ;;
  b5 <- set_field b4 a 6 (if rolling : bool then 1 else 0) ;;
  Some (true, b5).

(* be_monitor.c 377-387: the fields of the second monitor *)
Definition second_fields (target out skip : Z) : option (Z * Z * Z * bool) :=
  num_stores <- int64_result (target - out) ;;
  let skip := if skip <? 1 then 1 else skip in
  let num_stores :=
    if 1 <? skip then
      (if Z.rem num_stores skip =? 0 then Z.quot num_stores skip else Z.quot num_stores skip + 1)
    else num_stores in
  Some (num_stores, out, skip, true).

(* buffer.h 777-804: Buffer_get_objects_end_addr *)
Definition objects_end (b : buffer) : Z :=
  let a := object_addr (b_h b) in
  if a =? 0 then 0 else a + 24 * num_objects (b_h b).

(* be_monitor.c 295-403: BeamMonitor_insert_end_of_turn_monitors; prev: address of prev_node *)
Definition insert_monitors (F : floats) (hps : nat -> heap) (st : nat -> nat -> Z) (b : buffer)
  (start num target skip prev : Z) : option (Z * buffer) :=
  let ibegin := object_addr (b_h b) in
  let iend := objects_end b in
  if negb (prev =? iend) then Some (-1, b) else
  if negb (ibegin =? 0) && negb (iend =? 0) && (0 <=? iend - ibegin) &&
     ((prev =? 0) || ((0 <=? prev - ibegin) && (0 <=? iend - prev)))
  then
    out <- int64_result (start + num) ;;
    '(ok1, b1) <- (if 0 <? num then new_monitor F (hps 0%nat) b (st 0%nat) (Some (num, start, 1, false))
                   else Some (true, b)) ;;
    '(ok2, b2) <- (if out <? target then new_monitor F (hps 1%nat) b1 (st 1%nat) (second_fields target out skip)
                   else Some (true, b1)) ;;
    Some (if ok1 && ok2 then 0 else -1, b2)
  else Some (-1, b).

(* be_monitor.c 405-436: BeamMonitor_insert_end_of_turn_monitors_at_pos *)
Definition insert_monitors_at (F : floats) (hps : nat -> heap) (st : nat -> nat -> Z) (b : buffer)
  (start num target skip pos : Z) : option (Z * buffer) :=
  if pos =? 0 then insert_monitors F hps st b start num target skip 0
  else
    n <- buf_num_objects b ;;
    if pos <=? n then insert_monitors F hps st b start num target skip (object_addr (b_h b) + 24 * pos)
    else Some (-1, b).
