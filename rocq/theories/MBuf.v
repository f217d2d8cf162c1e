(* The managed buffer: a block of memory that holds its own header, the object slots,
   the object index, the list of data pointers and the garbage list.
   sixtracklib/common/buffer/managed_buffer_minimal.h, managed_buffer_remap.h,
   managed_buffer.h.

   Memory: a block is its base address and its content as 8-byte words.  An access
   outside the block, or at an address not a multiple of 8 away from the base, is None
   (undefined behaviour).  The slot size is 8 (BUFFER_DEFAULT_SLOT_SIZE), so the
   parameter slot_size of the C functions is dropped and its tests against 0 are
   satisfied.  SIXTRL_ASSERT is disabled (release build).  Sizes and addresses are
   uint64: u64 marks every computation on them that may wrap around.  Offsets added to a
   pointer are not reduced: they leave the block (None) before they wrap. *)
From Coq Require Import ZArith List Bool.
Import ListNotations.
Local Open Scope Z_scope.

Definition u64 (z : Z) : Z := z mod 2 ^ 64.

Definition bind {A B : Type} (m : option A) (f : A -> option B) : option B :=
  match m with Some a => f a | None => None end.
Notation "x <- a ;; b" := (bind a (fun x => b))
  (at level 60, a at next level, right associativity).
Notation "' p <- a ;; b" := (bind a (fun x => match x with p => b end))
  (at level 60, p pattern, a at next level, right associativity).

Record mem := Mem { mbase : Z; mwords : list Z }.

(* list update at position n; unchanged when n is beyond the end *)
Fixpoint lupd (l : list Z) (n : nat) (v : Z) : list Z :=
  match l, n with
  | [], _ => []
  | _ :: r, O => v :: r
  | a :: r, S k => a :: lupd r k v
  end.

(* position of address a in the block *)
Definition widx (m : mem) (a : Z) : option nat :=
  let d := a - mbase m in
  if (0 <=? d) && (d mod 8 =? 0) && (d / 8 <? Z.of_nat (length (mwords m)))
  then Some (Z.to_nat (d / 8)) else None.

(* *a *)
Definition rd (m : mem) (a : Z) : option Z :=
  i <- widx m a ;; nth_error (mwords m) i.

(* *a = v *)
Definition wr (m : mem) (a v : Z) : option mem :=
  i <- widx m a ;; Some (Mem (mbase m) (lupd (mwords m) i v)).

(* n words from address a on *)
Fixpoint rdn (m : mem) (a : Z) (n : nat) : option (list Z) :=
  match n with
  | O => Some []
  | S k => w <- rd m a ;; r <- rdn m (a + 8) k ;; Some (w :: r)
  end.

Fixpoint wrn (m : mem) (a : Z) (ws : list Z) : option mem :=
  match ws with
  | [] => Some m
  | w :: r => m' <- wr m a w ;; wrn m' (a + 8) r
  end.

(* definitions.h 658-678, SIXTRACKLIB_SET_VALUES (host: memset) of n bytes with 0;
   only byte counts that are a multiple of 8 are modelled (all calls on a managed buffer
   satisfy this) *)
Definition set_zero (m : mem) (a n : Z) : option mem :=
  if (0 <=? n) && (n mod 8 =? 0) then wrn m a (repeat 0 (Z.to_nat (n / 8))) else None.

(* definitions.h 591-655, SIXTRACKLIB_MOVE_VALUES (host compiler: memmove) of n bytes;
   multiples of 8 as above *)
Definition move_values (m : mem) (dst src n : Z) : option mem :=
  if (0 <=? n) && (n mod 8 =? 0) then
    ws <- rdn m src (Z.to_nat (n / 8)) ;; wrn m dst ws
  else None.

(* section ids, managed_buffer.h 448-451 *)
Definition SLOTS_ID : Z := 3.
Definition OBJECTS_ID : Z := 4.
Definition DATAPTRS_ID : Z := 5.
Definition GARBAGE_ID : Z := 6.

(* managed_buffer_minimal.h 311-323: get_slot_based_length *)
Definition slot_based (n : Z) : Z :=
  let r := n mod 8 in if r =? 0 then n else u64 (n + (8 - r)).

(* managed_buffer_minimal.h 327-392: get_section_entity_size *)
Definition entity_size (id : Z) : Z :=
  if id =? 3 then 8 else if id =? 4 then 24 else if id =? 5 then 8
  else if id =? 6 then 16 else 0.

(* managed_buffer_minimal.h 396-422: get_section_header_length *)
Definition SECTION_HEADER : Z := 16.

(* managed_buffer_minimal.h 426-464: get_header_length; b = 0 is a NULL pointer *)
Definition header_length (m : mem) (b : Z) : option Z :=
  h <- (if b =? 0 then Some 0 else rd m (b + 8 * 2)) ;;
  Some (if h =? 0 then 64 else h).

(* managed_buffer_minimal.h 468-502: get_buffer_length *)
Definition buffer_length (m : mem) (b : Z) : option Z :=
  if b =? 0 then Some 0 else rd m (b + 8 * 1).

(* managed_buffer_minimal.h 506-540: get_const_ptr_to_section (also get_ptr_to_section) *)
Definition section_ptr (m : mem) (b id : Z) : option Z :=
  if b =? 0 then Some 0 else rd m (b + 8 * id).

(* managed_buffer_minimal.h 544-565: get_const_ptr_to_section_data *)
Definition section_data (m : mem) (b id : Z) : option Z :=
  p <- section_ptr m b id ;; Some (if p =? 0 then 0 else p + SECTION_HEADER).

(* managed_buffer_minimal.h 629-649: get_section_max_size *)
Definition section_max_size (m : mem) (b id : Z) : option Z :=
  p <- section_ptr m b id ;; if p =? 0 then Some 0 else rd m p.

(* managed_buffer_minimal.h 733-766: get_section_num_entities *)
Definition section_num (m : mem) (b id : Z) : option Z :=
  p <- section_ptr m b id ;; if p =? 0 then Some 0 else rd m (p + 8).

(* managed_buffer_minimal.h 653-691: get_section_size *)
Definition section_size (m : mem) (b id : Z) : option Z :=
  n <- section_num m b id ;; Some (u64 (SECTION_HEADER + u64 (n * entity_size id))).

(* managed_buffer_minimal.h 569-590: get_const_ptr_to_section_end *)
Definition section_end (m : mem) (b id : Z) : option Z :=
  p <- section_ptr m b id ;;
  if p =? 0 then Some 0 else (s <- section_size m b id ;; Some (p + s)).

(* managed_buffer_minimal.h 695-729: get_section_max_num_entities *)
Definition section_max_num (m : mem) (b id : Z) : option Z :=
  x <- section_max_size m b id ;;
  Some ((if SECTION_HEADER <=? x then x - SECTION_HEADER else 0) / entity_size id).

(* managed_buffer_minimal.h 796-808: get_const_objects_index_begin *)
Definition objects_index_begin (m : mem) (b : Z) : option Z := section_data m b OBJECTS_ID.

(* managed_buffer_minimal.h 770-782: get_const_object; the result is a pointer, 0 = NULL.
   The comparison is <= *)
Definition mb_get_object (m : mem) (b i : Z) : option Z :=
  p <- objects_index_begin m b ;;
  n <- section_num m b OBJECTS_ID ;;
  Some (if negb (b =? 0) && (i <=? n) then p + 24 * i else 0).

(* managed_buffer_minimal.h 866-892:
   get_object_begin_addr_by_index_filter_by_type_id; type id 0 is
   SIXTRL_OBJECT_TYPE_UNDEFINED *)
Definition begin_addr_by_type (m : mem) (b i type_id : Z) : option Z :=
  p <- objects_index_begin m b ;;
  n <- section_num m b OBJECTS_ID ;;
  if negb (p =? 0) && negb (type_id =? 0) && (i <? n) then
    t <- rd m (p + 24 * i + 8) ;;
    if t =? type_id then rd m (p + 24 * i) else Some 0
  else Some 0.

(* managed_buffer_minimal.h 925-942: needs_remapping *)
Definition needs_remapping (m : mem) (b : Z) : option bool :=
  h <- rd m b ;; Some (negb (h =? b) && negb (h =? 0)).

(* ------------------------------------------------------------------ *)
(* managed_buffer_remap.h                                               *)

(* 122-135: perform_addr_shift; the int64 offset is converted to uint64 *)
Definition addr_shift (a off : Z) : Z := u64 (a + off).

(* 139-176: get_addr_offset; None inside = failure.  The difference of the two unsigned
   addresses is kept as an exact integer: it is only used in addr_shift (modulo 2^64) and
   compared with 0. *)
Definition addr_offset (m : mem) (b : Z) : option (option Z) :=
  if negb (b =? 0) && (b mod 8 =? 0) then
    s <- rd m b ;; Some (Some (b - s))
  else Some None.

(* 180-300: remap_header.  The five entries of the array offsets are equal in the only
   call (remap, 659-663): one argument.  Result: success and memory. *)
Definition remap_header (m : mem) (b off : Z) : option (bool * mem) :=
  if b =? 0 then Some (false, m) else
  o <- addr_offset m b ;;
  match o with
  | None => Some (false, m)
  | Some o' =>
    if negb (o' =? off) then Some (true, m)
    else if off =? 0 then Some (true, m)
    else
      h0 <- rd m b ;;
      let r0 := addr_shift h0 off in
      if negb (r0 =? 0) && (r0 =? b) then
        h3 <- rd m (b + 8 * SLOTS_ID) ;;
        h4 <- rd m (b + 8 * OBJECTS_ID) ;;
        h5 <- rd m (b + 8 * DATAPTRS_ID) ;;
        h6 <- rd m (b + 8 * GARBAGE_ID) ;;
        let r3 := addr_shift h3 off in
        let r4 := addr_shift h4 off in
        let r5 := addr_shift h5 off in
        let r6 := addr_shift h6 off in
        if negb (r3 =? 0) && negb (r4 =? 0) && negb (r5 =? 0) && negb (r6 =? 0) then
          m <- wr m b r0 ;;
          m <- wr m (b + 8 * SLOTS_ID) r3 ;;
          m <- wr m (b + 8 * OBJECTS_ID) r4 ;;
          m <- wr m (b + 8 * DATAPTRS_ID) r5 ;;
          m <- wr m (b + 8 * GARBAGE_ID) r6 ;;
          Some (true, m)
        else Some (false, m)
      else Some (true, m)
  end.

(* 304-341: remap_section_slots *)
Definition remap_slots (m : mem) (b : Z) : option bool :=
  if negb (b =? 0) && (b mod 8 =? 0) then
    p <- section_ptr m b SLOTS_ID ;;
    if p =? 0 then Some false else
    c <- rd m p ;; n <- rd m (p + 8) ;;
    Some (u64 (n * entity_size SLOTS_ID) <=? c)
  else Some false.

(* 403-448: the loop of remap_section_objects over n objects, the first at it *)
Fixpoint remap_objects_loop (n : nat) (m : mem) (it off sbegin send minv : Z)
  : option (bool * mem) :=
  match n with
  | O => Some (true, m)
  | S k =>
    size <- rd m (it + 16) ;;
    let obj_offset := slot_based size in
    a <- rd m it ;;
    let r := addr_shift a off in
    if (r <? sbegin) || (send <? r) || (r <? minv) then Some (false, m)
    else
      m' <- wr m it r ;;
      remap_objects_loop k m' (it + 24) off sbegin send (u64 (r + obj_offset))
  end.

(* 345-452: remap_section_objects *)
Definition remap_objects (m : mem) (b off : Z) : option (bool * mem) :=
  if b =? 0 then Some (false, m) else
  p <- section_ptr m b OBJECTS_ID ;;
  mx <- section_max_size m b OBJECTS_ID ;;
  sz <- section_size m b OBJECTS_ID ;;
  d <- section_data m b OBJECTS_ID ;;
  n <- section_num m b OBJECTS_ID ;;
  if negb (p =? 0) && (sz <=? mx) then
    if 0 <? n then
      sb <- section_data m b SLOTS_ID ;;
      se <- section_end m b SLOTS_ID ;;
      remap_objects_loop (Z.to_nat n) m d off sb se sb
    else Some (true, m)
  else Some (false, m).

(* 514-549: the loop of remap_section_dataptrs *)
Fixpoint remap_dataptrs_loop (n : nat) (m : mem) (it off sbegin send : Z)
  : option (bool * mem) :=
  match n with
  | O => Some (true, m)
  | S k =>
    a <- rd m it ;;
    let rp := addr_shift a off in
    ra <- (if rp =? 0 then Some 0 else (v <- rd m rp ;; Some (addr_shift v off))) ;;
    if negb (rp =? 0) && negb (ra =? 0) && (sbegin <=? rp) && (rp <? send) &&
       (sbegin <=? ra) && (ra <? send) then
      m1 <- wr m rp ra ;;
      m2 <- wr m1 it rp ;;
      remap_dataptrs_loop k m2 (it + 8) off sbegin send
    else Some (false, m)
  end.

(* 456-553: remap_section_dataptrs *)
Definition remap_dataptrs (m : mem) (b off : Z) : option (bool * mem) :=
  if b =? 0 then Some (false, m) else
  d <- section_data m b DATAPTRS_ID ;;
  n <- section_num m b DATAPTRS_ID ;;
  sz <- section_size m b DATAPTRS_ID ;;
  mx <- section_max_size m b DATAPTRS_ID ;;
  if negb (d =? 0) && (sz <=? mx) then
    if 0 <? n then
      sb <- section_data m b SLOTS_ID ;;
      se <- section_end m b SLOTS_ID ;;
      remap_dataptrs_loop (Z.to_nat n) m d off sb se
    else Some (true, m)
  else Some (false, m).

(* 612-636: the loop of remap_section_garbage; a garbage range is two words *)
Fixpoint remap_garbage_loop (n : nat) (m : mem) (it off sbegin send : Z)
  : option (bool * mem) :=
  match n with
  | O => Some (true, m)
  | S k =>
    a <- rd m it ;;
    let r := addr_shift a off in
    if (sbegin <=? r) && (r <? send) then
      m' <- wr m it r ;; remap_garbage_loop k m' (it + 16) off sbegin send
    else Some (false, m)
  end.

(* 557-640: remap_section_garbage *)
Definition remap_garbage (m : mem) (b off : Z) : option (bool * mem) :=
  if negb (b =? 0) && (b mod 8 =? 0) then
    d <- section_data m b GARBAGE_ID ;;
    n <- section_num m b GARBAGE_ID ;;
    sz <- section_size m b GARBAGE_ID ;;
    mx <- section_max_size m b GARBAGE_ID ;;
    if negb (d =? 0) && (sz <=? mx) then
      if 0 <? n then
        sb <- section_data m b SLOTS_ID ;;
        se <- section_end m b SLOTS_ID ;;
        remap_garbage_loop (Z.to_nat n) m d off sb se
      else Some (true, m)
    else Some (false, m)
  else Some (false, m).

(* 644-681: remap; true = 0 (success).  The statuses of the five steps are combined by
   |= : all steps run, success only if all succeed *)
Definition mb_remap (m : mem) (b : Z) : option (bool * mem) :=
  o <- addr_offset m b ;;
  match o with
  | None => Some (false, m)
  | Some off =>
    if off =? 0 then Some (true, m) else
    '(s1, m) <- remap_header m b off ;;
    s2 <- remap_slots m b ;;
    '(s3, m) <- remap_objects m b off ;;
    '(s4, m) <- remap_dataptrs m b off ;;
    '(s5, m) <- remap_garbage m b off ;;
    Some (s1 && s2 && s3 && s4 && s5, m)
  end.

(* 734-752: the garbage loop of apply_addr_offset *)
Fixpoint apply_garbage_loop (n : nat) (m : mem) (it off : Z) : option (bool * mem) :=
  match n with
  | O => Some (true, m)
  | S k =>
    a <- rd m it ;;
    let r := addr_shift a off in
    if r =? 0 then Some (false, m)
    else m' <- wr m it r ;; apply_garbage_loop k m' (it + 16) off
  end.

(* 766-793: the data pointer loop of apply_addr_offset *)
Fixpoint apply_dataptrs_loop (n : nat) (m : mem) (it off : Z) : option (bool * mem) :=
  match n with
  | O => Some (true, m)
  | S k =>
    sp <- rd m it ;;
    v <- rd m sp ;;
    let ra := addr_shift v off in
    let rp := addr_shift sp off in
    if negb (ra =? 0) && negb (rp =? 0) then
      m1 <- wr m sp ra ;; m2 <- wr m1 it rp ;; apply_dataptrs_loop k m2 (it + 8) off
    else Some (false, m)
  end.

(* 807-826: the object loop of apply_addr_offset *)
Fixpoint apply_objects_loop (n : nat) (m : mem) (it off : Z) : option (bool * mem) :=
  match n with
  | O => Some (true, m)
  | S k =>
    a <- rd m it ;;
    let r := addr_shift a off in
    if r =? 0 then Some (false, m)
    else m' <- wr m it r ;; apply_objects_loop k m' (it + 24) off
  end.

(* 683-877: apply_addr_offset.  The garbage loop starts at the section header, not at
   its data (726-728) *)
Definition apply_addr_offset (m : mem) (b off : Z) : option (bool * mem) :=
  if negb (b =? 0) && (b mod 8 =? 0) then
    nr <- needs_remapping m b ;;
    if nr then Some (false, m)
    else if off =? 0 then Some (true, m)
    else
      no <- section_num m b OBJECTS_ID ;;
      nd <- section_num m b DATAPTRS_ID ;;
      ng <- section_num m b GARBAGE_ID ;;
      '(s, m) <- (if 0 <? ng then
                    it <- section_ptr m b GARBAGE_ID ;;
                    apply_garbage_loop (Z.to_nat ng) m it off
                  else Some (true, m)) ;;
      '(s, m) <- (if s && (0 <? nd) then
                    it <- section_data m b DATAPTRS_ID ;;
                    apply_dataptrs_loop (Z.to_nat nd) m it off
                  else Some (s, m)) ;;
      '(s, m) <- (if s && (0 <? no) then
                    it <- section_data m b OBJECTS_ID ;;
                    apply_objects_loop (Z.to_nat no) m it off
                  else Some (s, m)) ;;
      if s : bool then
        h0 <- rd m b ;;
        h3 <- rd m (b + 8 * SLOTS_ID) ;;
        h4 <- rd m (b + 8 * OBJECTS_ID) ;;
        h5 <- rd m (b + 8 * DATAPTRS_ID) ;;
        h6 <- rd m (b + 8 * GARBAGE_ID) ;;
        let r0 := addr_shift h0 off in
        let r3 := addr_shift h3 off in
        let r4 := addr_shift h4 off in
        let r5 := addr_shift h5 off in
        let r6 := addr_shift h6 off in
        if negb (r0 =? 0) && negb (r3 =? 0) && negb (r4 =? 0) && negb (r5 =? 0) &&
           negb (r6 =? 0) then
          m <- wr m b r0 ;;
          m <- wr m (b + 8 * SLOTS_ID) r3 ;;
          m <- wr m (b + 8 * OBJECTS_ID) r4 ;;
          m <- wr m (b + 8 * DATAPTRS_ID) r5 ;;
          m <- wr m (b + 8 * GARBAGE_ID) r6 ;;
          Some (true, m)
        else Some (false, m)
      else Some (false, m)
  else Some (false, m).

(* ------------------------------------------------------------------ *)
(* managed_buffer.h                                                     *)

(* 139-171: calculate_section_size *)
Definition calc_section_size (id n : Z) : Z := u64 (u64 (n * entity_size id) + SECTION_HEADER).

(* 175-212: get_section_offset *)
Definition section_offset (m : mem) (b id : Z) : option Z :=
  if b =? 0 then Some 0 else
  hi <- rd m (b + 8 * id) ;; h0 <- rd m b ;;
  Some (if h0 <=? hi then hi - h0 else 0).

(* 216-236: set_section_num_entities *)
Definition set_section_num (m : mem) (b id n : Z) : option mem :=
  p <- section_ptr m b id ;; if p =? 0 then Some m else wr m (p + 8) n.

(* 240-260: set_section_max_size *)
Definition set_section_max_size (m : mem) (b id n : Z) : option mem :=
  p <- section_ptr m b id ;; if p =? 0 then Some m else wr m p n.

(* 264-331: predict_required_num_slots; attrs = the pairs (obj_attr_sizes[ ii ],
   obj_attr_counts[ ii ]).  The correction 311-317 never applies: every term of the sum
   is a multiple of 8 *)
Definition predict_num_slots (obj_size : Z) (attrs : list (Z * Z)) : Z :=
  if 0 <? obj_size then
    let s := fold_left (fun acc a => u64 (acc + slot_based (u64 (fst a * snd a)))) attrs
                       (slot_based obj_size) in
    let md := s mod 8 in
    let s := match attrs with [] => s | _ => if md =? 0 then s else u64 (s + (8 - md)) end in
    s / 8
  else 0.

(* 335-371: calculate_buffer_length *)
Definition calc_buffer_length (m : mem) (b nobj nslots ndata ngarb : Z) : option Z :=
  h <- header_length m b ;;
  Some (u64 (u64 (u64 (u64 (h + calc_section_size SLOTS_ID nslots) +
        calc_section_size OBJECTS_ID nobj) + calc_section_size DATAPTRS_ID ndata) +
        calc_section_size GARBAGE_ID ngarb)).

(* 375-413: can_reserve *)
Definition can_reserve (m : mem) (b nobj nslots ndata ngarb maxlen : Z) : option bool :=
  len <- calc_buffer_length m b nobj nslots ndata ngarb ;;
  cs <- section_num m b SLOTS_ID ;;
  co <- section_num m b OBJECTS_ID ;;
  cd <- section_num m b DATAPTRS_ID ;;
  cg <- section_num m b GARBAGE_ID ;;
  Some ((len <=? maxlen) && (cs <=? nslots) && (co <=? nobj) && (cd <=? ndata) &&
        (cg <=? ngarb)).

(* The three blocks 605-660 (garbage), 664-718 (data pointers), 722-777 (objects) of
   reserve: move one section of size csize from offset coff to offset noff.  prev_end is
   the end of what is in use in the section before it.  Result: finished, memory. *)
Definition move_section (m : mem) (b coff csize noff extent prev_end : Z)
  : option (bool * mem) :=
  if noff =? coff then Some (true, m)
  else if coff <? noff then
    let src := b + coff in
    let dst := b + noff in
    m <- move_values m dst src csize ;;
    let fill := noff - coff in
    m <- set_zero m src (if csize <? fill then csize else fill) ;;
    m <- (if csize <? extent then set_zero m (dst + csize) (extent - csize) else Some m) ;;
    Some (true, m)
  else if prev_end <=? noff then
    m <- move_values m (b + noff) (b + coff) csize ;; Some (true, m)
  else Some (false, m).

(* 417-836: reserve.  Result: success, the value written to *ptr_new_buffer_length (None:
   not written), memory *)
Definition mb_reserve (m : mem) (b nobj nslots ndata ngarb maxlen : Z)
  : option (bool * option Z * mem) :=
  xs <- section_max_num m b SLOTS_ID ;;
  cs <- section_num m b SLOTS_ID ;;
  xo <- section_max_num m b OBJECTS_ID ;;
  co <- section_num m b OBJECTS_ID ;;
  xd <- section_max_num m b DATAPTRS_ID ;;
  cd <- section_num m b DATAPTRS_ID ;;
  xg <- section_max_num m b GARBAGE_ID ;;
  cg <- section_num m b GARBAGE_ID ;;
  len <- buffer_length m b ;;
  if negb (b =? 0) && (0 <? len) && (len <=? maxlen) && (co <=? nobj) && (cs <=? nslots) &&
     (cd <=? ndata) && (cg <=? ngarb) then
    if negb (nobj =? xo) || negb (nslots =? xs) || negb (ndata =? xd) || negb (ngarb =? xg)
    then
      hl <- header_length m b ;;
      let eo := calc_section_size OBJECTS_ID nobj in
      let es := calc_section_size SLOTS_ID nslots in
      let ed := calc_section_size DATAPTRS_ID ndata in
      let eg := calc_section_size GARBAGE_ID ngarb in
      let nlen := u64 (u64 (u64 (u64 (hl + es) + eo) + ed) + eg) in
      if nlen <=? maxlen then
        cso <- section_offset m b SLOTS_ID ;;
        css <- section_size m b SLOTS_ID ;;
        let nso := hl in
        coo <- section_offset m b OBJECTS_ID ;;
        cos <- section_size m b OBJECTS_ID ;;
        let noo := u64 (nso + es) in
        cdo <- section_offset m b DATAPTRS_ID ;;
        cds <- section_size m b DATAPTRS_ID ;;
        let ndo := u64 (noo + eo) in
        cgo <- section_offset m b GARBAGE_ID ;;
        cgs <- section_size m b GARBAGE_ID ;;
        let ngo := u64 (ndo + ed) in
        '(fg, m) <- move_section m b cgo cgs ngo eg (u64 (cdo + cds)) ;;
        '(fd, m) <- (if fg : bool
                     then move_section m b cdo cds ndo ed (u64 (coo + cos))
                     else Some (ndo =? cdo, m)) ;;
        '(fo, m) <- (if fg && fd
                     then move_section m b coo cos noo eo (u64 (cso + css))
                     else Some (noo =? coo, m)) ;;
        if (nso =? cso) && fd && fo && fg then
          m <- (if css <? es then set_zero m (b + nso + css) (es - css) else Some m) ;;
          m <- wr m (b + 8 * 1) nlen ;;
          m <- wr m (b + 8 * SLOTS_ID) (b + nso) ;;
          m <- wr m (b + 8 * OBJECTS_ID) (b + noo) ;;
          m <- wr m (b + 8 * DATAPTRS_ID) (b + ndo) ;;
          m <- wr m (b + 8 * GARBAGE_ID) (b + ngo) ;;
          m <- set_section_max_size m b SLOTS_ID es ;;
          m <- set_section_max_size m b OBJECTS_ID eo ;;
          m <- set_section_max_size m b DATAPTRS_ID ed ;;
          m <- set_section_max_size m b GARBAGE_ID eg ;;
          Some (true, Some nlen, m)
        else Some (false, Some nlen, m)
      else Some (false, Some nlen, m)
    else Some (true, Some len, m)
  else Some (false, None, m).

(* 840-964: init.  Result: success, required length (None: not written), memory *)
Definition mb_init (m : mem) (b nobj nslots ndata ngarb maxlen : Z)
  : option (bool * option Z * mem) :=
  if b =? 0 then Some (false, None, m) else
  hl <- header_length m b ;;
  let xs := calc_section_size SLOTS_ID nslots in
  let xo := calc_section_size OBJECTS_ID nobj in
  let xd := calc_section_size DATAPTRS_ID ndata in
  let xg := calc_section_size GARBAGE_ID ngarb in
  let len := u64 (u64 (u64 (u64 (hl + xs) + xo) + xd) + xg) in
  if len <=? maxlen then
    let so := hl in
    let oo := u64 (so + xs) in
    let do := u64 (oo + xo) in
    let go := u64 (do + xd) in
    m <- set_zero m b len ;;
    m <- wr m b b ;;
    m <- wr m (b + 8 * 1) len ;;
    m <- wr m (b + 8 * 2) hl ;;
    m <- wr m (b + 8 * 3) (b + so) ;;
    m <- wr m (b + 8 * 4) (b + oo) ;;
    m <- wr m (b + 8 * 5) (b + do) ;;
    m <- wr m (b + 8 * 6) (b + go) ;;
    m <- set_section_max_size m b SLOTS_ID xs ;;
    m <- set_section_num m b SLOTS_ID 0 ;;
    m <- set_section_max_size m b OBJECTS_ID xo ;;
    m <- set_section_num m b OBJECTS_ID 0 ;;
    m <- set_section_max_size m b DATAPTRS_ID xd ;;
    m <- set_section_num m b DATAPTRS_ID 0 ;;
    m <- set_section_max_size m b GARBAGE_ID xg ;;
    m <- set_section_num m b GARBAGE_ID 0 ;;
    Some (true, Some len, m)
  else Some (false, Some len, m).

(* 968-1099: clear.  Object_preset (buffer_object.h) and BufferGarbage_preset set all
   words of an entry to 0 *)
Definition mb_clear (m : mem) (b : Z) (zero : bool) : option mem :=
  if negb (b =? 0) && (b mod 8 =? 0) then
    no <- section_num m b OBJECTS_ID ;;
    nd <- section_num m b DATAPTRS_ID ;;
    ns <- section_num m b SLOTS_ID ;;
    ng <- section_num m b GARBAGE_ID ;;
    m <- (if zero then
            d <- section_data m b OBJECTS_ID ;;
            m <- wrn m d (repeat 0 (Z.to_nat (3 * no))) ;;
            d <- section_data m b GARBAGE_ID ;;
            m <- wrn m d (repeat 0 (Z.to_nat (2 * ng))) ;;
            d <- section_data m b DATAPTRS_ID ;;
            m <- wrn m d (repeat 0 (Z.to_nat nd)) ;;
            d <- section_data m b SLOTS_ID ;;
            wrn m d (repeat 0 (Z.to_nat ns))
          else Some m) ;;
    m <- set_section_num m b SLOTS_ID 0 ;;
    m <- set_section_num m b OBJECTS_ID 0 ;;
    m <- set_section_num m b DATAPTRS_ID 0 ;;
    set_section_num m b GARBAGE_ID 0
  else Some m.
