(* Address assignment items and the track job's collection of them.
   sixtracklib/common/buffer/assign_address_item.h,
   assign_address_item_kernel_impl.h, sixtracklib/common/track/track_job_base.cpp.

   Conventions of MBuf.v: memory blocks of 8-byte words, None for an access outside the
   block, slot size 8, u64 for sums that may wrap around. *)
From Coq Require Import ZArith List Bool.
From Verif Require Import MBuf.
Import ListNotations.
Local Open Scope Z_scope.

(* assign_address_item.h 34-45 (the members in the order of the struct) *)
Record item := Item {
  dest_buffer : Z; src_buffer : Z; dest_type : Z; src_type : Z;
  dest_index : Z; src_index : Z; dest_offset : Z; src_offset : Z }.

(* assign_address_item.h 17-25 *)
Definition NO_BUFFER : Z := 2 ^ 64 - 1.
(* internal/objects_type_id.h 46 *)
Definition TYPE_ITEM : Z := 65536.

(* status values, control/definitions.h *)
Definition SUCCESS : Z := 0.
Definition FAILURE : Z := -1.

(* assign_address_item.h 786-814: dest_is_on_raw_memory, src_is_on_raw_memory; the item is
   not NULL.  X_is_on_buffer is the negation *)
Definition dest_raw (it : item) : bool := (dest_buffer it =? NO_BUFFER) && (dest_index it =? 0).
Definition src_raw (it : item) : bool := (src_buffer it =? NO_BUFFER) && (src_index it =? 0).

(* buffer_object.h: Object_get_begin_addr, get_type_id, get_size of the entry at p *)
Definition entry (m : mem) (p : Z) : option (Z * Z * Z) :=
  if p =? 0 then Some (0, 0, 0) else
  a <- rd m p ;; t <- rd m (p + 8) ;; n <- rd m (p + 16) ;; Some (a, t, n).

(* the common part of the two functions below: the address of the word at offset off of
   object number i, 0 if there is none that is suitable.  ptr_addr % slot_size and
   ptr_addr % ADDR_SIZE are the same test *)
Definition locate (m : mem) (b i off t : Z) : option Z :=
  p <- mb_get_object m b i ;;
  ' (a, t', n) <- entry m p ;;
  let q := u64 (a + off) in
  Some (if negb (p =? 0) && negb (a =? 0) && (q mod 8 =? 0) && (u64 (off + 8) <=? n) && (t' =? t)
        then q else 0).

(* assign_address_item.h 881-941: dest_pointer_from_managed_buffer; 0 is NULL *)
Definition dest_pointer (m : mem) (b : Z) (it : item) : option Z :=
  if negb (dest_raw it) && negb (b =? 0)
  then locate m b (dest_index it) (dest_offset it) (dest_type it) else Some 0.

(* assign_address_item.h 943-971: dest_pointer_from_raw_memory *)
Definition dest_pointer_raw (b : Z) (it : item) : Z :=
  if dest_raw it && negb (b =? 0) then u64 (b + dest_offset it) else 0.

(* assign_address_item.h 973-1033: src_pointer_addr_from_managed_buffer *)
Definition src_address (m : mem) (b : Z) (it : item) : option Z :=
  if negb (src_raw it) && negb (b =? 0)
  then locate m b (src_index it) (src_offset it) (src_type it) else Some 0.

(* assign_address_item.h 1035-1061: src_pointer_addr_from_raw_memory *)
Definition src_address_raw (b : Z) (it : item) : Z :=
  if src_raw it && negb (b =? 0) then u64 (b + src_offset it) else 0.

(* assign_address_item.h 676-720: *dest_ptr = src_addr unless dest_ptr is NULL *)
Definition store (m : mem) (p v : Z) : option (Z * mem) :=
  if p =? 0 then Some (FAILURE, m) else m' <- wr m p v ;; Some (SUCCESS, m').

(* assign_fixed_addr_on_managed_buffer, assign_fixed_addr_on_raw_memory *)
Definition assign_fixed (m : mem) (b : Z) (it : item) (v : Z) : option (Z * mem) :=
  p <- dest_pointer m b it ;; store m p v.
Definition assign_fixed_raw (m : mem) (b : Z) (it : item) (v : Z) : option (Z * mem) :=
  store m (dest_pointer_raw b it) v.

(* assign_address_item.h 639-672: perform_assignment_on_managed_buffer, _on_raw_memory *)
Definition perform (dm : mem) (db : Z) (sm : mem) (sb : Z) (it : item) : option (Z * mem) :=
  v <- src_address sm sb it ;; assign_fixed dm db it v.
Definition perform_raw (dm : mem) (db sb : Z) (it : item) : option (Z * mem) :=
  assign_fixed_raw dm db it (src_address_raw sb it).

(* the item at address a: eight words *)
Definition item_at (m : mem) (a : Z) : option item :=
  w0 <- rd m a ;; w1 <- rd m (a + 8) ;; w2 <- rd m (a + 16) ;; w3 <- rd m (a + 24) ;;
  w4 <- rd m (a + 32) ;; w5 <- rd m (a + 40) ;; w6 <- rd m (a + 48) ;; w7 <- rd m (a + 56) ;;
  Some (Item w0 w1 w2 w3 w4 w5 w6 w7).

(* assign_address_item.h 863-870: const_from_managed_buffer; None is NULL *)
Definition item_of (m : mem) (b i : Z) : option (option item) :=
  p <- mb_get_object m b i ;;
  ' (a, t, n) <- entry m p ;;
  if negb (p =? 0) && (t =? TYPE_ITEM) && (64 <=? n)
  then it <- item_at m a ;; Some (Some it) else Some None.

(* The body of the loop of assign_address_item_kernel_impl.h 57-88 for item number idx: the
   item buffer (am, ab), the destination (dm, db) with its id, the source (sm, sb) with its
   id; sm = None: the source is the same memory as the destination *)
Record args := Args { am : mem; ab : Z; db : Z; did : Z; sm : option mem; sb : Z; sid : Z }.

Definition step (g : args) (idx : Z) (st : Z * mem) : option (Z * mem) :=
  let dm := snd st in
  o <- item_of (am g) (ab g) idx ;;
  match o with
  | None => Some st
  | Some it =>
      if (src_buffer it =? sid g) && (dest_buffer it =? did g) then
        v <- (if src_raw it then Some (src_address_raw (sb g) it)
              else src_address (match sm g with Some m => m | None => dm end) (sb g) it) ;;
        ' (s, dm') <- (if dest_raw it then assign_fixed_raw dm (db g) it v
                       else assign_fixed dm (db g) it v) ;;
        Some (Z.lor (fst st) s, dm')
      else Some st
  end.

(* assign_address_item_kernel_impl.h 26-91: idx from start in steps of stride; fuel bounds
   the number of iterations, None when it is used up *)
Fixpoint loop (fuel : nat) (g : args) (num idx stride : Z) (st : Z * mem) : option (Z * mem) :=
  match fuel with
  | O => if idx <? num then None else Some st
  | S k => if idx <? num then st' <- step g idx st ;; loop k g num (idx + stride) stride st'
           else Some st
  end.

Definition kernel (g : args) (start stride : Z) (dm : mem) : option (Z * mem) :=
  n <- section_num (am g) (ab g) OBJECTS_ID ;;
  loop (Z.to_nat (n - start)) g n start stride (SUCCESS, dm).

(* assign_address_item.h 1092-1153: compare_less, in the nesting of the source *)
Definition less (a b : item) : bool :=
  if dest_buffer a <? dest_buffer b then true
  else if dest_buffer a =? dest_buffer b then
    if src_buffer a <? src_buffer b then true
    else if src_buffer a =? src_buffer b then
      if dest_type a <? dest_type b then true
      else if dest_type a =? dest_type b then
        if src_type a <? src_type b then true
        else if src_type a =? src_type b then
          if dest_index a <? dest_index b then true
          else if dest_index a =? dest_index b then
            if src_index a <? src_index b then true
            else if src_index a =? src_index b then
              if dest_offset a <? dest_offset b then true
              else if dest_offset a =? dest_offset b then src_offset a <? src_offset b
              else false
            else false
          else false
        else false
      else false
    else false
  else false.

(* assign_address_item.h 1155-1172: are_equal; 1174-1181 are_not_equal is its negation *)
Definition equal (a b : item) : bool :=
  (dest_buffer a =? dest_buffer b) && (src_buffer a =? src_buffer b) &&
  (dest_type a =? dest_type b) && (src_type a =? src_type b) &&
  (dest_index a =? dest_index b) && (src_index a =? src_index b) &&
  (dest_offset a =? dest_offset b) && (src_offset a =? src_offset b).

(* ------------------------------------------------------------------ *)
(* The collection of a track job: m_assign_address_items, a map from the pair of buffer ids
   to a buffer with the items, and m_assign_item_keys, a sorted vector of the keys.  The
   map is a list of pairs, a buffer the list of its items (their representation is that of
   Buffer.v; AssignAddressItem_add_copy is assumed to succeed) *)
Definition key := (Z * Z)%type.
Record job := Job { j_items : list (key * list item); j_keys : list key }.

Definition key_of (it : item) : key := (dest_buffer it, src_buffer it).
Definition key_eqb (a b : key) : bool := (fst a =? fst b) && (snd a =? snd b).
(* cmp_key_fn, e.g. track_job_base.cpp 2871-2877 *)
Definition key_less (a b : key) : bool :=
  (fst a <? fst b) || ((fst a =? fst b) && (snd a <? snd b)).

(* m_assign_address_items.find *)
Definition find_key (l : list (key * list item)) (k : key) : option (list item) :=
  match find (fun x => key_eqb (fst x) k) l with Some x => Some (snd x) | None => None end.
(* replacing the buffer found *)
Definition put_key (l : list (key * list item)) (k : key) (b : list item) : list (key * list item) :=
  map (fun x => if key_eqb (fst x) k then (k, b) else x) l.
(* m_assign_address_items.erase *)
Definition erase_key (l : list (key * list item)) (k : key) : list (key * list item) :=
  filter (fun x => negb (key_eqb (fst x) k)) l.

(* the first position of an equal item; the number of items if there is none *)
Fixpoint index_of (l : list item) (it : item) : nat :=
  match l with [] => O | x :: r => if equal x it then O else S (index_of r it) end.

(* track_job_base.cpp 1575-1631: do_find_assign_address_item; MAX if the key is unknown *)
Definition SIZE_MAX : Z := 2 ^ 64 - 1.
Definition job_find (j : job) (it : item) : Z :=
  match find_key (j_items j) (key_of it) with
  | Some l => Z.of_nat (index_of l it)
  | None => SIZE_MAX
  end.

(* track_job_base.cpp 942-957: num_assign_items *)
Definition job_num (j : job) (k : key) : Z :=
  match find_key (j_items j) k with Some l => Z.of_nat (length l) | None => 0 end.

(* track_job_base.cpp 889-897: has_assign_address_item *)
Definition job_has (j : job) (it : item) : bool := job_find j it <? job_num j (key_of it).

(* track_job_base.cpp 1633-1649: do_get_assign_address_item *)
Definition job_get (j : job) (k : key) (i : Z) : option item :=
  match find_key (j_items j) k with
  | Some l => if i <? Z.of_nat (length l) then nth_error l (Z.to_nat i) else None
  | None => None
  end.

(* std::sort of the keys after push_back: insertion sort (only the result matters) *)
Fixpoint insert_key (k : key) (l : list key) : list key :=
  match l with [] => [k] | x :: r => if key_less k x then k :: l else x :: insert_key k r end.
Definition sort_keys (l : list key) : list key := fold_right insert_key [] l.

(* 2883-2895: push_back and sort if needed *)
Definition add_key (l : list key) (k : key) : list key :=
  let need := match rev l with [] => false | x :: _ => negb (key_less x k) end in
  if need then sort_keys (l ++ [k]) else l ++ [k].

(* track_job_base.cpp 2854-2956: do_add_assign_address_item; the index of the item *)
Definition job_add (j : job) (it : item) : Z * job :=
  let k := key_of it in
  match find_key (j_items j) k with
  | None => (0, Job (j_items j ++ [(k, [it])]) (add_key (j_keys j) k))
  | Some l =>
      if job_find j it <? Z.of_nat (length l) then (job_find j it, j)
      else (Z.of_nat (length l), Job (put_key (j_items j) k (l ++ [it])) (j_keys j))
  end.

(* std::lower_bound and erase *)
Fixpoint erase_first (k : key) (l : list key) : list key :=
  match l with [] => [] | x :: r => if key_less x k then x :: erase_first k r else r end.

(* track_job_base.cpp 2958-3045: do_remove_assign_address_item.  The items that are to stay
   are appended to the current buffer; new_buffer, still empty, takes its place *)
Definition job_remove (j : job) (k : key) (i : Z) : Z * job :=
  match find_key (j_items j) k with
  | Some l =>
      if i <? Z.of_nat (length l) then
        let new_buffer : list item := [] in
        let items := put_key (j_items j) k new_buffer in
        (SUCCESS, if Z.of_nat (length new_buffer) =? 0
                  then Job (erase_key items k) (erase_first k (j_keys j))
                  else Job items (j_keys j))
      else (FAILURE, j)
  | None => (FAILURE, j)
  end.

(* track_job_base.cpp 870-880: remove_assign_address_item *)
Definition job_remove_item (j : job) (it : item) : Z * job :=
  job_remove j (key_of it) (job_find j it).

(* track_job_base.cpp 1113-1123: total_num_assign_items *)
Definition job_total (j : job) : Z :=
  fold_right (fun x n => Z.of_nat (length (snd x)) + n) 0 (j_items j).

(* track_job_base.cpp 1070-1091: assign_items_begin, assign_items_end: number of items in
   front of the position returned *)
Definition job_items_begin (j : job) (k : key) : option Z :=
  match find_key (j_items j) k with Some _ => Some 0 | None => None end.
Definition job_items_end (j : job) (k : key) : option Z :=
  match find_key (j_items j) k with Some _ => Some 0 | None => None end.
(* 1093-1111: assign_item_dest_src_begin, _end: number of keys in front of the position *)
Definition job_keys_end (j : job) : Z :=
  if (length (j_keys j) =? 0)%nat then Z.of_nat (length (j_items j)) else 0.
