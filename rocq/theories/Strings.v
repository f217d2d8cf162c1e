(* Strings stored in buffers: sixtracklib/common/buffer/buffer_string_object.h.

   A string object is the struct BufferStringObj (24-30): begin_addr, length, capacity, at
   the address p in the memory of its buffer, followed by the characters.  A C string given
   as argument is the list of its characters without the terminating 0; a null pointer is
   None.  The arguments do not overlap with the memory of the buffer (SIXTRL_RESTRICT).
   SIXTRL_ASSERT is disabled (release build).  str_obj is not NULL. *)
From Coq Require Import ZArith List Bool.
From Verif Require Import MBuf MemPool Buffer Lines.
Import ListNotations.
Local Open Scope Z_scope.

(* internal/objects_type_id.h 48 *)
Definition T_CSTRING := 65538.

(* byte r of the word w set to v *)
Definition set_byte (w r v : Z) : Z := w + (v - w / 256 ^ r mod 256) * 256 ^ r.

(* *( char* )a = v *)
Definition wrb (m : mem) (a v : Z) : option mem :=
  let d := a - mbase m in
  let aw := mbase m + 8 * (d / 8) in
  w <- rd m aw ;; wr m aw (set_byte w (d mod 8) v).

(* definitions.h 583-584, 674-675: SIXTRACKLIB_COPY_VALUES( char, a, l, n ) and
   SIXTRACKLIB_SET_VALUES( char, a, n, 0 ) *)
Fixpoint wrbs (m : mem) (a : Z) (l : list Z) : option mem :=
  match l with
  | [] => Some m
  | c :: r => m' <- wrb m a c ;; wrbs m' (a + 1) r
  end.
Definition zero_chars (m : mem) (a n : Z) : option mem := wrbs m a (repeat 0 (Z.to_nat n)).

(* 332-353: get_cstring_length (strlen) of a string in the block m; None: the string is not
   terminated inside the block *)
Fixpoint cstr_len (m : mem) (a : Z) (fuel : nat) : option Z :=
  match fuel with
  | O => None
  | S k => c <- mem_byte m a ;; if c =? 0 then Some 0 else n <- cstr_len m (a + 1) k ;; Some (n + 1)
  end.
Definition strlen (m : mem) (a : Z) : option Z := cstr_len m a (8 * length (mwords m)).

(* 421-453: get_begin_addr, get_capacity; the field length *)
Definition str_begin (m : mem) (p : Z) : option Z := rd m p.
Definition str_field_length (m : mem) (p : Z) : option Z := rd m (p + 8).
Definition str_capacity (m : mem) (p : Z) : option Z := rd m (p + 16).

(* 455-488: get_length *)
Definition str_length (m : mem) (p : Z) : option Z :=
  s <- str_begin m p ;;
  if 0 <? s then
    l <- str_field_length m p ;; c <- str_capacity m p ;; Some (if l <? c then l else 0)
  else Some 0.

(* 490-508: get_max_length *)
Definition str_max_length (m : mem) (p : Z) : option Z :=
  c <- str_capacity m p ;; s <- str_begin m p ;;
  Some (if (1 <? c) && (0 <? s) then c - 1 else 0).

(* 510-529: get_available_length *)
Definition str_available (m : mem) (p : Z) : option Z :=
  c <- str_capacity m p ;; l <- str_length m p ;; s <- str_begin m p ;;
  let requ := u64 (l + 1) in
  Some (if (requ <? c) && (0 <? s) then c - requ else 0).

(* 676-682: set_length; 668-674: set_capacity *)
Definition str_set_length (m : mem) (p l : Z) : option mem := wr m (p + 8) l.
Definition str_set_capacity (m : mem) (p c : Z) : option mem := wr m (p + 16) c.

(* 531-551: clear *)
Definition str_clear (m : mem) (p : Z) : option mem :=
  l <- str_length m p ;; c <- str_capacity m p ;; s <- str_begin m p ;;
  if (0 <? s) && (0 <? l) && (l <? c) then
    m <- zero_chars m s l ;; str_set_length m p 0
  else Some m.

(* 553-573: sync_length *)
Definition str_sync_length (m : mem) (p : Z) : option mem :=
  c <- str_capacity m p ;; s <- str_begin m p ;;
  if negb (s =? 0) && (0 <? c) then
    n <- strlen m s ;; if n <? c then str_set_length m p n else Some m
  else Some m.

(* 575-612: assign_cstring; result: the address of the characters or 0 *)
Definition str_assign (m : mem) (p : Z) (src : option (list Z)) : option (Z * mem) :=
  out <- str_begin m p ;; c <- str_capacity m p ;;
  match src with
  | Some l =>
    if negb (out =? 0) && (1 <? c) then
      let n := Z.of_nat (length l) in
      if n <? c then
        m <- wrbs m out l ;;
        m <- zero_chars m (out + n) (c - n) ;;
        m <- str_set_length m p n ;;
        Some (out, m)
      else Some (0, m)
    else Some (0, m)
  | None => Some (0, m)
  end.

(* 614-657: append_cstring *)
Definition str_append (m : mem) (p : Z) (src : option (list Z)) : option (Z * mem) :=
  out <- str_begin m p ;; c <- str_capacity m p ;; cur <- str_length m p ;;
  match src with
  | Some l =>
    if negb (out =? 0) && (cur <? c) then
      let n := u64 (cur + Z.of_nat (length l)) in
      if n <? c then
        m <- wrbs m (out + cur) l ;;
        m <- zero_chars m (out + n) (c - n) ;;
        m <- str_set_length m p n ;;
        Some (out, m)
      else Some (0, m)
    else Some (0, m)
  | None => Some (0, m)
  end.

Definition with_mem (b : buffer) (m : mem) : buffer := Buffer (b_h b) (b_pool b) m.

(* 713-731: get_required_num_slots; 733-741: get_required_num_dataptrs is 1 *)
Definition str_required_slots (max_length : Z) : Z :=
  u64 (slot_based 24 + slot_based (u64 (max_length + 1))) / 8.

(* 784-813: new; the fields are given, begin_addr is 0; result: address of the object or 0 *)
Definition str_new (hp : heap) (b : buffer) (max_length : Z) : option (Z * buffer) :=
  let capacity := u64 (max_length + 1) in
  '(r, b') <- buf_add_object hp b (fun _ => None) [0; 0; capacity] 24 T_CSTRING [Attr 0 1 capacity] ;;
  a <- (if r =? 0 then Some 0 else rd (b_mem b') r) ;;
  Some (a, b').

(* 814-873: add.  [alive b']: whether the characters of the argument can still be read when
   the buffer has become b' (they may be in the buffer itself) *)
Definition str_add_from (alive : buffer -> bool) (hp : heap) (b : buffer) (src : option (list Z))
    (max_length : Z) : option (Z * buffer) :=
  let capacity := u64 (max_length + 1) in
  let l := match src with Some l => l | None => [] end in
  let n := Z.of_nat (length l) in
  let null := match src with Some _ => false | None => true end in
  if negb null && (0 <? n) && (n <=? capacity) then
    '(p, b') <- str_new hp b max_length ;;
    if p =? 0 then Some (0, b') else
    out <- str_begin (b_mem b') p ;;
    m <- (if alive b' then wrbs (b_mem b') out l else None) ;;
    m <- zero_chars m (out + n) (capacity - n) ;;
    m <- str_set_length m p n ;;
    m <- str_set_capacity m p capacity ;;
    Some (p, with_mem b' m)
  else if (0 <? capacity) && (null || (n =? 0)) then
    '(p, b') <- str_new hp b max_length ;;
    if p =? 0 then Some (0, b') else
    out <- str_begin (b_mem b') p ;;
    m <- zero_chars (b_mem b') out capacity ;;
    m <- str_set_capacity m p capacity ;;
    Some (p, with_mem b' m)
  else Some (0, b).

Definition str_add := str_add_from (fun _ => true).

(* 907-919: new_from_cstring *)
Definition str_new_from_cstring (hp : heap) (b : buffer) (src : option (list Z)) : option (Z * buffer) :=
  str_add hp b src (match src with Some l => Z.of_nat (length l) | None => 0 end).

(* n characters at a *)
Fixpoint chars (m : mem) (a : Z) (n : nat) : option (list Z) :=
  match n with
  | O => Some []
  | S k => c <- mem_byte m a ;; r <- chars m (a + 1) k ;; Some (c :: r)
  end.

(* 921-930: add_copy of the string at p in the block m of another buffer; the capacity is
   passed as max_length *)
Definition str_add_copy (hp : heap) (b : buffer) (m : mem) (p : Z) : option (Z * buffer) :=
  s <- str_begin m p ;; c <- str_capacity m p ;;
  if s =? 0 then str_add hp b None c else
  n <- strlen m s ;; l <- chars m s (Z.to_nat n) ;; str_add hp b (Some l) c.

(* ... and of a string in the buffer itself: when the buffer moves to another block the old
   one is freed *)
Definition str_add_copy_same (hp : heap) (b : buffer) (p : Z) : option (Z * buffer) :=
  s <- str_begin (b_mem b) p ;; c <- str_capacity (b_mem b) p ;;
  if s =? 0 then str_add hp b None c else
  n <- strlen (b_mem b) s ;; l <- chars (b_mem b) s (Z.to_nat n) ;;
  str_add_from (fun b' => data_addr (b_h b') =? data_addr (b_h b)) hp b (Some l) c.
