(* Copying a beam line from one buffer into another one:
   sixtracklib/common/beam_elements.h, and the functions num_slots, num_dataptrs, attributes_*
   and add_copy of the elements.

   The elements that are copied lie in the block m (the memory of the source buffer); the
   block of the destination is another one (the arguments are SIXTRL_RESTRICT).  An element
   with no array is given to Buffer_add_object as it is, with arrays together with their
   offset, size and number of values.  Beam-beam elements are compiled in
   (SIXTRL_DISABLE_BEAM_BEAM is not defined).  hps k is the heap at the k-th addition. *)
From Coq Require Import ZArith List Bool.
From Verif Require Import MBuf MemPool Buffer.
Import ListNotations.
Local Open Scope Z_scope.

(* internal/objects_type_id.h 18-53 *)
Definition T_DRIFT := 2.
Definition T_DRIFT_EXACT := 3.
Definition T_MULTIPOLE := 4.
Definition T_CAVITY := 5.
Definition T_XYSHIFT := 6.
Definition T_SROTATION := 7.
Definition T_BB4D := 8.
Definition T_BB6D := 9.
Definition T_MONITOR := 10.
Definition T_LIMIT_RECT := 11.
Definition T_LIMIT_ELLIPSE := 12.
Definition T_SC_COASTING := 13.
Definition T_SC_QGAUSS := 14.
Definition T_LIMIT_RECT_ELLIPSE := 16.
Definition T_DIPEDGE := 24.
Definition T_RF_MULTIPOLE := 256.
Definition T_SC_INTERPOLATED := 257.
Definition T_TRICUB_DATA := 260.
Definition T_TRICUB := 261.

(* the byte of the block at address a; None: outside of the block *)
Definition mem_byte (m : mem) : ext_mem := fun a =>
  let d := a - mbase m in
  if (0 <=? d) && (d <? 8 * Z.of_nat (length (mwords m)))
  then Some (nth (Z.to_nat (d / 8)) (mwords m) 0 / 256 ^ (d mod 8) mod 256)
  else None.

(* a word as int64 *)
Definition int64 (w : Z) : Z := if w <? 2 ^ 63 then w else w - 2 ^ 64.

(* 2 * order + 2 as int64, converted to buffer_size_t; signed overflow is undefined *)
Definition two_order (o : Z) : option Z :=
  let n := 2 * o + 2 in
  if (- 2 ^ 63 <=? n) && (n <? 2 ^ 63) then Some (u64 n) else None.

(* be_multipole.h 397-404: Multipole_bal_length; order is the first field *)
Definition mp_bal_length (order : Z) : option Z :=
  let o := int64 order in if 0 <=? o then two_order o else Some 0.

(* be_rfmultipole.h 500-516: RFMultipole_bal_length, RFMultipole_phase_length *)
Definition rf_length (order : Z) : option Z := two_order (int64 order).

(* sizeof( data ) / slot size, rounded up: the end of every num_slots function *)
Definition slots_of (bytes : Z) : Z :=
  let n := bytes / 8 in if u64 (n * 8) <? bytes then u64 (n + 1) else n.
(* num_slots of the elements without arrays, e.g. be_drift.h 332-344 *)
Definition struct_slots (size : Z) : Z := slots_of (slot_based size).

(* be_multipole.h 318-341: Multipole_num_slots *)
Definition mp_num_slots (m : mem) (a : Z) : option Z :=
  order <- rd m a ;;
  n <- mp_bal_length order ;;
  Some (slots_of (u64 (slot_based 40 + slot_based (u64 (n * 8))))).

(* be_rfmultipole.h 408-435: RFMultipole_num_slots *)
Definition rf_num_slots (m : mem) (a : Z) : option Z :=
  order <- rd m a ;;
  n <- rf_length order ;;
  Some (slots_of (u64 (u64 (slot_based 48 + slot_based (u64 (8 * n))) + slot_based (u64 (8 * n))))).

(* be_beamfields.h 1617-1643 and 1864-1890: BeamBeam4D_num_slots, BeamBeam6D_num_slots;
   the first field is the size of the data *)
Definition bb_num_slots (m : mem) (a : Z) : option Z :=
  size <- rd m a ;; Some (slots_of (u64 (slot_based 16 + u64 (size * 8)))).

(* be_beamfields.h 2434-2452: SCCoasting_num_slots and 3771-3789:
   SCInterpolatedProfile_num_slots.  The test that should be about slot_size is about
   num_slots, which is 0 *)
Definition sc_num_slots (size : Z) : Z :=
  let num_slots := 0 in if 0 <? num_slots then struct_slots size else num_slots.

(* be_tricub.h 570-590: TriCubData_num_slots( NULL, slot_size ) *)
Definition tricub_data_num_slots_null : Z := 0.

(* beam_elements.h 222-514: BeamElements_calc_buffer_parameters_for_object.  Result: the
   return value and the numbers of objects, slots and data pointers to be added *)
Definition calc_object (m : mem) (obj : Z) : option (Z * (Z * Z * Z)) :=
  if obj =? 0 then Some (-1, (0, 0, 0)) else
  a <- rd m obj ;;
  t <- rd m (obj + 8) ;;
  let plain size := Some (0, (1, struct_slots size, 0)) in
  if t =? T_DRIFT then plain 8
  else if t =? T_DRIFT_EXACT then plain 8
  else if t =? T_MULTIPOLE then (n <- mp_num_slots m a ;; Some (0, (1, n, 1)))
  else if t =? T_RF_MULTIPOLE then (n <- rf_num_slots m a ;; Some (0, (1, n, 2)))
  else if t =? T_XYSHIFT then plain 16
  else if t =? T_SROTATION then plain 16
  else if t =? T_CAVITY then plain 24
  else if t =? T_BB4D then (n <- bb_num_slots m a ;; Some (0, (1, n, 1)))
  else if t =? T_BB6D then (n <- bb_num_slots m a ;; Some (0, (1, n, 1)))
  else if t =? T_SC_COASTING then Some (0, (1, sc_num_slots 72, 0))
  else if t =? T_SC_QGAUSS then plain 88
  else if t =? T_SC_INTERPOLATED then Some (0, (1, sc_num_slots 80, 0))
  else if t =? T_MONITOR then plain 64
  else if t =? T_LIMIT_RECT then plain 32
  else if t =? T_LIMIT_ELLIPSE then plain 24
  else if t =? T_LIMIT_RECT_ELLIPSE then plain 40
  else if t =? T_DIPEDGE then plain 16
  else if t =? T_TRICUB then plain 64
  else if t =? T_TRICUB_DATA then Some (0, (1, tricub_data_num_slots_null, 1))
  else Some (-1, (0, 0, 0)).

(* beam_elements.h 970-998: BeamElements_calc_buffer_parameters_for_line, the loop over n
   objects; the three numbers are added to *)
Fixpoint calc_loop (m : mem) (it : Z) (n : nat) (acc : Z * Z * Z) : option (Z * (Z * Z * Z)) :=
  match n with
  | O => Some (0, acc)
  | S k =>
    '(ret, (o, s, d)) <- calc_object m it ;;
    let '(ao, as_, ad) := acc in
    if ret =? 0 then calc_loop m (it + 24) k (u64 (ao + o), u64 (as_ + s), u64 (ad + d))
    else Some (ret, acc)
  end.

(* number of objects of the range; None: the loop it != end would leave the block *)
Definition range_length (it fin : Z) : option nat :=
  let d := fin - it in
  if (0 <=? d) && (d mod 24 =? 0) then Some (Z.to_nat (d / 24)) else None.

Definition calc_line (m : mem) (it fin : Z) (acc : Z * Z * Z) : option (Z * (Z * Z * Z)) :=
  if (it =? 0) || (fin =? 0) then Some (-1, acc) else
  n <- range_length it fin ;; calc_loop m it n acc.

(* Buffer_add_object( buffer, orig, size, type, arrays ) and Object_get_begin_addr of its
   result (0 for NULL) *)
Definition add_from (hp : heap) (b : buffer) (m : mem) (orig size t : Z) (attrs : list attr)
  : option (Z * buffer) :=
  ws <- rdn m orig (Z.to_nat (size / 8)) ;;
  '(r, b') <- buf_add_object hp b (mem_byte m) ws size t attrs ;;
  a <- (if r =? 0 then Some 0 else rd (b_mem b') r) ;;
  Some (a, b').

(* add_copy of the elements without arrays: be_drift.c 139-158 and 291-310, be_cavity.c 141,
   be_dipedge.c 145, be_limit_*.c, be_monitor.c 274, be_srotation.c 137, be_xyshift.c 138,
   be_tricub.c 467-483, be_beamfields.c 804-825 and 1024-1046 *)
Definition plain_add_copy (hp : heap) (b : buffer) (m : mem) (orig size t : Z) :=
  if orig =? 0 then Some (0, b) else add_from hp b m orig size t [].

(* be_multipole.c 263-312: Multipole_add_copy; bal_addr is at byte 32 *)
Definition mp_add_copy (hp : heap) (b : buffer) (m : mem) (orig : Z) :=
  if orig =? 0 then Some (0, b) else
  order <- rd m orig ;;
  n <- mp_bal_length order ;;
  add_from hp b m orig 40 T_MULTIPOLE [Attr 32 8 n].

(* be_rfmultipole.c 239-282: RFMultipole_add_copy; attributes_counts (60-82) fails for a
   negative order; bal_addr is at byte 32, phase_addr at byte 40 *)
Definition rf_add_copy (hp : heap) (b : buffer) (m : mem) (orig : Z) :=
  if orig =? 0 then Some (0, b) else
  order <- rd m orig ;;
  if int64 order <? 0 then Some (0, b) else
  n <- rf_length order ;;
  add_from hp b m orig 48 T_RF_MULTIPOLE [Attr 32 8 n; Attr 40 8 n].

(* be_beamfields.h 1851-1855: BeamBeam6D_type_id returns the type id of the 4D element *)
Definition bb6d_type_id : Z := T_BB4D.

(* be_beamfields.c 277-320 and 580-621: BeamBeam4D_add_copy, BeamBeam6D_add_copy *)
Definition bb_add_copy (hp : heap) (b : buffer) (m : mem) (orig t : Z) :=
  if orig =? 0 then Some (0, b) else
  n <- rd m orig ;;
  add_from hp b m orig 16 t [Attr 8 8 n].

(* be_tricub.c 284-331: TriCubData_add_copy.  status is GENERAL_FAILURE and num_dataptrs is 0
   when they are tested *)
Definition tricub_data_add_copy (b : buffer) : option (Z * buffer) := Some (0, b).

(* ( NULL != p ) ? 0 : -1  and  NULL != p *)
Definition st_sign (a : Z) : Z := if a =? 0 then -1 else 0.
Definition st_bool (a : Z) : Z := if a =? 0 then 0 else 1.

Definition with_status (st : Z -> Z) (r : option (Z * buffer)) : option (Z * buffer) :=
  '(a, b) <- r ;; Some (st a, b).

(* beam_elements.h 1230-1486: BeamElements_copy_single_to_buffer *)
Definition copy_single (hp : heap) (b : buffer) (m : mem) (obj : Z) : option (Z * buffer) :=
  if obj =? 0 then Some (-1, b) else
  a <- rd m obj ;;
  t <- rd m (obj + 8) ;;
  let plain size := with_status st_sign (plain_add_copy hp b m a size t) in
  if t =? T_DRIFT then plain 8
  else if t =? T_DRIFT_EXACT then plain 8
  else if t =? T_MULTIPOLE then with_status st_sign (mp_add_copy hp b m a)
  else if t =? T_RF_MULTIPOLE then with_status st_sign (rf_add_copy hp b m a)
  else if t =? T_XYSHIFT then plain 16
  else if t =? T_SROTATION then plain 16
  else if t =? T_CAVITY then plain 24
  else if t =? T_BB4D then with_status st_bool (bb_add_copy hp b m a T_BB4D)
  else if t =? T_BB6D then with_status st_bool (bb_add_copy hp b m a bb6d_type_id)
  else if t =? T_SC_COASTING then with_status st_bool (plain_add_copy hp b m a 72 t)
  else if t =? T_SC_QGAUSS then with_status st_bool (plain_add_copy hp b m a 88 t)
  else if t =? T_MONITOR then plain 64
  else if t =? T_LIMIT_RECT then plain 32
  else if t =? T_LIMIT_ELLIPSE then plain 24
  else if t =? T_LIMIT_RECT_ELLIPSE then plain 40
  else if t =? T_DIPEDGE then plain 16
  else if t =? T_TRICUB then plain 64
  else if t =? T_TRICUB_DATA then with_status st_sign (tricub_data_add_copy b)
  else Some (-1, b).

(* beam_elements.h 1524-1534: the loop of copy_to_buffer; result: the value that ended the
   loop (0 when it ran to the end) *)
Fixpoint copy_loop (hps : nat -> heap) (b : buffer) (m : mem) (it : Z) (n : nat)
  : option (Z * buffer) :=
  match n with
  | O => Some (0, b)
  | S k =>
    '(ret, b') <- copy_single (hps O) b m it ;;
    if ret =? 0 then copy_loop (fun i => hps (S i)) b' m (it + 24) k
    else Some (ret, b')
  end.

(* beam_elements.h 1514-1538: BeamElements_copy_to_buffer *)
Definition copy_to_buffer (hps : nat -> heap) (b : buffer) (m : mem) (it fin : Z)
  : option (Z * buffer) :=
  if (it =? 0) || (fin =? 0) then Some (-1, b) else
  n <- range_length it fin ;;
  let success := if 0 <? fin - it then 0 else -1 in
  '(ret, b') <- copy_loop hps b m it n ;;
  Some (Z.lor success ret, b').
