(* Arrays of elements stored in buffers: sixtracklib/common/buffer/buffer_array_object.h.

   An array object is the struct BufferArrayObj (22-31) at the address p in the memory of its
   buffer: begin_addr, offset_addr, num_elements, max_num_elements, capacity, slot_size,
   base_type_id, followed by the bytes of the elements (capacity bytes) and by the list of
   offsets (max_num_elements + 1 words).  The caller's memory does not overlap with the
   buffer (SIXTRL_RESTRICT).  SIXTRL_ASSERT is disabled (release build).  array is not NULL.
   Offsets are read and written at multiples of 8 from the begin of the block.  The functions
   buffer_array_object.c only forwards are not repeated. *)
From Coq Require Import ZArith List Bool.
From Verif Require Import MBuf MemPool Buffer Lines Strings.
Import ListNotations.
Local Open Scope Z_scope.

(* internal/objects_type_id.h 49 *)
Definition T_ARRAY := 65539.

(* managed_buffer_minimal.h 311-323: get_slot_based_length for any slot size *)
Definition round_up (n slot : Z) : Z :=
  let r := if 0 <? slot then n mod slot else 0 in
  if r =? 0 then n else u64 (n + (slot - r)).

(* 443-458, 552-598: get_begin_addr, get_element_offset_list_begin_addr, get_num_elements,
   get_max_num_elements, get_capacity, get_slot_size, get_type_id *)
Definition arr_begin (m : mem) (p : Z) : option Z := rd m p.
Definition arr_list (m : mem) (p : Z) : option Z := rd m (p + 8).
Definition arr_num (m : mem) (p : Z) : option Z := rd m (p + 16).
Definition arr_max (m : mem) (p : Z) : option Z := rd m (p + 24).
Definition arr_capacity (m : mem) (p : Z) : option Z := rd m (p + 32).
Definition arr_slot (m : mem) (p : Z) : option Z := rd m (p + 40).
Definition arr_type (m : mem) (p : Z) : option Z := rd m (p + 48).

(* 507-516, 536-549: get_element_offset *)
Definition arr_offset (m : mem) (p i : Z) : option Z :=
  l <- arr_list m p ;; n <- arr_num m p ;;
  if negb (l =? 0) && (i <=? n) then rd m (l + 8 * i) else Some 0.

(* 568-574: get_length *)
Definition arr_length (m : mem) (p : Z) : option Z :=
  n <- arr_num m p ;; arr_offset m p n.

(* 602-636: get_element_begin_addr *)
Definition arr_element_begin (m : mem) (p i : Z) : option Z :=
  s <- arr_begin m p ;; l <- arr_list m p ;; o <- rd m (l + 8 * i) ;; Some (u64 (s + o)).

(* 638-676: get_element_length *)
Definition arr_element_length (m : mem) (p i : Z) : option Z :=
  l <- arr_list m p ;;
  o <- rd m (l + 8 * i) ;; e <- rd m (l + 8 * u64 (i + 1)) ;;
  Some (if o <=? e then e - o else 0).

(* 678-695: get_element_end_addr *)
Definition arr_element_end (m : mem) (p i : Z) : option Z :=
  s <- arr_element_begin m p i ;;
  if 0 <? s then n <- arr_element_length m p i ;; Some (u64 (s + n)) else Some s.

(* 715-729, 740-762: set_num_elements, set_max_num_elements,
   set_capacity, set_slot_size, set_type_id *)
Definition arr_set_num (m : mem) (p v : Z) : option mem := wr m (p + 16) v.
Definition arr_set_max (m : mem) (p v : Z) : option mem := wr m (p + 24) v.
Definition arr_set_capacity (m : mem) (p v : Z) : option mem := wr m (p + 32) v.
Definition arr_set_slot (m : mem) (p v : Z) : option mem := wr m (p + 40) v.
Definition arr_set_type (m : mem) (p v : Z) : option mem := wr m (p + 48) v.

(* 764-780: set_element_offset *)
Definition arr_set_offset (m : mem) (p i v : Z) : option mem :=
  l <- arr_list m p ;; wr m (l + 8 * i) v.

(* set_element_offset( array, i, 0 ) for n indices beginning with i *)
Fixpoint arr_zero_offsets (m : mem) (p i : Z) (n : nat) : option mem :=
  match n with
  | O => Some m
  | S k => m <- arr_set_offset m p i 0 ;; arr_zero_offsets m p (i + 1) k
  end.

(* 784-815: clear *)
Definition arr_clear (m : mem) (p : Z) : option mem :=
  n <- arr_num m p ;;
  if 0 <? n then
    s <- arr_begin m p ;; l <- arr_length m p ;;
    m <- arr_zero_offsets m p 0 (Z.to_nat (n + 1)) ;;
    m <- (if negb (s =? 0) then zero_chars m s l else Some m) ;;
    arr_set_num m p 0
  else Some m.

(* 817-868: append_element; src: the bytes of the element or a null pointer, size: their
   number.  Result: success *)
Definition arr_append (m : mem) (p : Z) (src : option (list Z)) (size : Z) : option (bool * mem) :=
  slot <- arr_slot m p ;;
  if (0 <? size) && (0 <? slot) then
    n <- arr_num m p ;; l <- arr_length m p ;; c <- arr_capacity m p ;;
    let el := round_up size slot in
    let nl := u64 (el + l) in
    mx <- arr_max m p ;;
    if (el mod slot =? 0) && (nl <=? c) && (n <? mx) then
      m <- (match src with
            | Some bytes => s <- arr_begin m p ;; wrbs m s bytes
            | None => Some m
            end) ;;
      m <- arr_set_offset m p n nl ;;
      m <- arr_set_num m p (u64 (n + 1)) ;;
      Some (true, m)
    else Some (false, m)
  else Some (false, m).

(* 902-908: the loop of append_num_elements; it ends when an element is not appended.
   fuel: a bound for the number of elements that can be appended *)
Fixpoint arr_append_loop (fuel : nat) (m : mem) (p size k : Z) : option (bool * mem) :=
  if k <=? 0 then Some (true, m) else
  match fuel with
  | O => None
  | S f =>
    '(ok, m) <- arr_append m p None size ;;
    if ok : bool then arr_append_loop f m p size (k - 1) else Some (false, m)
  end.

(* 870-950: append_num_elements *)
Definition arr_append_num (m : mem) (p size k : Z) : option (bool * mem) :=
  n <- arr_num m p ;; mx <- arr_max m p ;;
  if u64 (n + k) <=? mx then
    l <- arr_length m p ;; s <- arr_begin m p ;;
    let e := if s =? 0 then 0 else s + l in
    '(ok, m) <- arr_append_loop (S (Z.to_nat (mx - n))) m p size k ;;
    if ok : bool then Some (true, m) else
    l' <- arr_length m p ;; n' <- arr_num m p ;;
    m <- (if n <? n' then arr_zero_offsets m p (n + 1) (Z.to_nat (n' - n)) else Some m) ;;
    m <- (if l <? l' then zero_chars m e (l' - l) else Some m) ;;
    m <- (if n <? n' then m <- arr_set_num m p n ;; arr_set_offset m p n l else Some m) ;;
    Some (false, m)
  else Some (false, m).

(* 952-993: remove_last_element *)
Definition arr_remove_last (m : mem) (p : Z) : option (bool * mem) :=
  n <- arr_num m p ;;
  if 0 <? n then
    a <- arr_element_begin m p (n - 1) ;; l <- arr_element_length m p (n - 1) ;;
    m <- (if (0 <? l) && negb (a =? 0) then zero_chars m a l else Some m) ;;
    m <- arr_set_offset m p n 0 ;;
    m <- arr_set_num m p (n - 1) ;;
    Some (true, m)
  else Some (false, m).

(* 995-1050: remove_last_num_elements *)
Definition arr_remove_num (m : mem) (p k : Z) : option (bool * mem) :=
  n <- arr_num m p ;;
  if (0 <? k) && (k <=? n) then
    let n' := n - k in
    if 0 <? n' then
      l <- arr_length m p ;; l' <- arr_offset m p (n' - 1) ;;
      m <- (if l' <? l then a <- arr_element_begin m p n' ;; zero_chars m a (l - l') else Some m) ;;
      m <- arr_zero_offsets m p (n' + 1) (Z.to_nat k) ;;
      Some (true, m)
    else m <- arr_clear m p ;; Some (true, m)
  else Some (false, m).

(* 1055-1085: get_required_num_slots for slot size 8; 1087-1097: get_required_num_dataptrs is 2 *)
Definition arr_required_slots (mx c : Z) : Z :=
  let s := slot_based 56 in
  let s := if 0 <? c then u64 (s + slot_based c) else s in
  u64 (s + slot_based (u64 (8 * u64 (mx + 1)))) / 8.

(* 1137-1173: new; result: address of the object or 0 *)
Definition arr_new (hp : heap) (b : buffer) (mx c ty : Z) : option (Z * buffer) :=
  '(r, b') <- buf_add_object hp b (fun _ => None) [0; 0; 0; mx; c; 8; ty] 56 T_ARRAY
                [Attr 0 1 c; Attr 8 8 (u64 (mx + 1))] ;;
  a <- (if r =? 0 then Some 0 else rd (b_mem b') r) ;;
  Some (a, b').

(* a list written as words *)
Fixpoint wrws (m : mem) (a : Z) (l : list Z) : option mem :=
  match l with
  | [] => Some m
  | w :: r => m' <- wr m a w ;; wrws m' (a + 8) r
  end.

(* 1175-1256: add.  data, offs: the caller's bytes and offsets: how many of them can be read,
   None for a null pointer; the bytes and offsets are asked for after the object was added *)
Definition arr_add (hp : heap) (b : buffer)
    (data : option (buffer -> Z -> option (list Z))) (offs : option (buffer -> Z -> option (list Z)))
    (n mx c slot ty : Z) : option (Z * buffer) :=
  '(p, b') <- arr_new hp b mx c ty ;;
  if p =? 0 then Some (0, b') else
  m <- arr_set_max (b_mem b') p mx ;;
  m <- arr_set_capacity m p c ;;
  m <- arr_set_slot m p slot ;;
  m <- arr_set_type m p ty ;;
  match (if (n <=? mx) && (0 <? n) then offs else None) with
  | Some fo =>
    lst <- arr_list m p ;;
    o <- fo (with_mem b' m) (n + 1) ;;
    let l := nth (Z.to_nat n) o 0 in
    m <- wrws m lst o ;;
    m <- (match data with
          | Some fd =>
            if l <=? c then
              s <- arr_begin m p ;;
              d <- fd (with_mem b' m) l ;;
              m <- wrbs m s d ;;
              if l <? c then zero_chars m (s + l) (c - l) else Some m
            else Some m
          | None => Some m
          end) ;;
    m <- arr_set_num m p n ;;
    Some (p, with_mem b' m)
  | None =>
    match data with
    | Some fd =>
      if 0 <? c then
        s <- arr_begin m p ;;
        d <- fd (with_mem b' m) c ;;
        m <- wrbs m s d ;;
        Some (p, with_mem b' m)
      else Some (p, with_mem b' m)
    | None => Some (p, with_mem b' m)
    end
  end.

(* n words at a *)
Fixpoint words_at (m : mem) (a : Z) (n : nat) : option (list Z) :=
  match n with
  | O => Some []
  | S k => w <- rd m a ;; r <- words_at m (a + 8) k ;; Some (w :: r)
  end.

(* 1258-1271: add_copy of the array at p in the block m of another buffer *)
Definition arr_add_copy (hp : heap) (b : buffer) (m : mem) (p : Z) : option (Z * buffer) :=
  s <- arr_begin m p ;; l <- arr_list m p ;;
  n <- arr_num m p ;; mx <- arr_max m p ;; c <- arr_capacity m p ;; slot <- arr_slot m p ;;
  ty <- arr_type m p ;;
  arr_add hp b
    (if s =? 0 then None else Some (fun _ k => chars m s (Z.to_nat k)))
    (if l =? 0 then None else Some (fun _ k => words_at m l (Z.to_nat k)))
    n mx c slot ty.
