(* What a user does with buffers and what they see.  The definitions below use the layout
   of MBufSpec.v and the operations of the model as calls, nothing of the proofs. *)
From Coq Require Import ZArith List Bool.
From Verif Require Import MBuf MBufSpec MemPool Buffer BufferSpec.
Import ListNotations.
Local Open Scope Z_scope.

(* malloc: 0 or an address with n bytes behind it inside the address space *)
Definition good_heap (hp : heap) : Prop :=
  forall n, h_malloc hp n <> 0 -> 0 < h_malloc hp n /\ h_malloc hp n + n < 2 ^ 64.

(* malloc does not fail for requests up to this size *)
Definition memory_up_to (hp : heap) (size : Z) : Prop :=
  forall n, 0 < n <= size -> h_malloc hp n <> 0.

(* the objects of a buffer *)
Definition objects (b : buffer) : list (Z * list cell) := content (b_mem b).

Definition section_id (id : Z) : Prop := 3 <= id <= 6.   (* slots, objects, data pointers, garbage *)
Definition entry_size (id : Z) : Z :=
  if id =? 3 then 8 else if id =? 4 then 24 else if id =? 5 then 8 else 16.
(* number of entries for which the section has room *)
Definition sec_limit (m : mem) (id : Z) : Z := (sec_room m id - 16) / entry_size id.
(* address of the first byte behind the used slots *)
Definition used_end (m : mem) : Z := stored_base m + 8 * (sec_pos m 3 + 2 + sec_count m 3).

(* no pointer of an object leads to the end of the used slots (such a pointer belongs to an
   empty array at the end of the last object) *)
Definition no_end_pointer (m : mem) : Prop :=
  forall a, In a (data_pointers m) -> word_at m a < used_end m.

(* the block is in order *)
Record layout_ok (m : mem) : Prop := Layout {
  lay_base : 0 < stored_base m /\ stored_base m mod 8 = 0;
  (* the sections are behind the header of 64 bytes and inside the buffer *)
  lay_in : forall id, section_id id ->
    64 <= 8 * sec_pos m id /\ 8 * sec_pos m id + sec_room m id <= word m 1 /\
    word m 1 <= 8 * Z.of_nat (length (mwords m));
  lay_disjoint : forall id id', section_id id -> section_id id' -> id <> id' ->
    disjoint (8 * sec_pos m id) (sec_room m id) (8 * sec_pos m id') (sec_room m id');
  (* the entries fit into their section *)
  lay_fit : forall id, section_id id ->
    0 <= sec_count m id /\ 16 + entry_size id * sec_count m id <= sec_room m id;
  (* the objects are inside the used slots and share no byte *)
  lay_obj : forall i, 0 <= i < sec_count m 4 ->
    stored_base m + 8 * (sec_pos m 3 + 2) <= obj_begin m i /\
    0 < obj_size m i /\ obj_begin m i mod 8 = 0 /\ obj_size m i mod 8 = 0 /\
    obj_begin m i + obj_size m i <= used_end m;
  lay_objs : forall i j, 0 <= i < sec_count m 4 -> 0 <= j < sec_count m 4 -> i <> j ->
    disjoint (obj_begin m i) (obj_size m i) (obj_begin m j) (obj_size m j);
  (* the pointers are in the used slots and lead into them *)
  lay_ptr : forall a, In a (data_pointers m) ->
    stored_base m + 8 * (sec_pos m 3 + 2) <= a /\ a + 8 <= used_end m /\
    stored_base m + 8 * (sec_pos m 3 + 2) <= word_at m a <= used_end m }.

(* a call of Buffer_add_object *)
Record request := Request {
  rq_mem : ext_mem; rq_obj : list Z; rq_size : Z; rq_type : Z; rq_attrs : list attr }.

Definition add (hp : heap) (b : buffer) (q : request) : option (Z * buffer) :=
  buf_add_object hp b (rq_mem q) (rq_obj q) (rq_size q) (rq_type q) (rq_attrs q).

(* the request is proper and the sizes stay below 2^64 *)
Definition request_ok (b : buffer) (q : request) : Prop :=
  call_ok (rq_mem q) (rq_obj q) (rq_size q) (rq_attrs q) /\
  data_size (b_h b) + 8 * (object_words (rq_size q) (rq_attrs q) + 3 + Z.of_nat (length (rq_attrs q)))
    + 32 < 2 ^ 64.

(* the entry of the list of objects that the request is to give *)
Definition stored_as (q : request) (o : Z * list cell) : Prop :=
  exists ow arrs, object_data (rq_mem q) (rq_obj q) (rq_size q) (rq_attrs q) ow arrs /\
    o = (rq_type q, expected_object ow (rq_attrs q) arrs).

(* every array of the request has at least one byte *)
Definition full_arrays (q : request) : Prop := forall x, In x (rq_attrs q) -> 0 < attr_bytes x.

Definition limits_ok (no ns nd ng : Z) : Prop :=
  0 <= no /\ 0 <= ns /\ 0 <= nd /\ 0 <= ng /\ 8 * (16 + ns + 3 * no + nd + 2 * ng) + 32 < 2 ^ 64.

(* ... of a new buffer *)
Definition new_limits_ok (no ns nd ng : Z) : Prop :=
  limits_ok no ns nd ng /\ 8 * (16 + ns + 3 * no + nd + 2 * ng) + 72 < 2 ^ 64.

(* operations that keep the objects *)
Inductive keeps : buffer -> buffer -> Prop :=
| k_reserve hp b no ns nd ng b' : good_heap hp -> limits_ok no ns nd ng ->
    buf_reserve hp b no ns nd ng = Some (true, b') -> keeps b b'
| k_refresh b r b' : buf_refresh b = Some (r, b') -> keeps b b'
| k_remap b r b' : buf_remap b = Some (r, b') -> keeps b b'
| k_copy hp pa b b' : good_heap hp -> pa <> 0 -> data_capacity (b_h b) + 64 < 2 ^ 64 ->
    buf_new_from_copy hp pa b = Some (Some b') -> keeps b b'
| k_file hp pa b f b' : good_heap hp -> pa <> 0 -> data_size (b_h b) + 64 < 2 ^ 64 ->
    buf_write b = Some (Some f) ->
    (forall b0, buf_new hp pa (data_size (b_h b)) = Some (Some b0) ->
       data_addr (b_h b0) <> data_addr (b_h b)) ->
    buf_new_from_file hp pa f = Some (Some b') -> keeps b b'
| k_norm b n f b' : 0 < n -> n mod 8 = 0 -> n + data_size (b_h b) < 2 ^ 64 ->
    buf_write_normalized b n = Some (true, f, b') -> keeps b b'.

(* operations that remove all objects *)
Inductive empties : buffer -> buffer -> Prop :=
| e_clear b z r b' : buf_clear b z = Some (r, b') -> empties b b'
| e_reset b b' : buf_reset b = Some (true, b') -> empties b b'
| e_reset_detailed b no ns nd ng b' : limits_ok no ns nd ng ->
    buf_reset_detailed b no ns nd ng = Some (true, b') -> empties b b'.

(* the user sets word k of object number i to v, through the address of the object; a word
   that is a pointer to an array is not written *)
Inductive writes : buffer -> nat -> nat -> Z -> buffer -> Prop :=
| w_word b i k v t cells w m' : nth_error (objects b) i = Some (t, cells) ->
    nth_error cells k = Some (Raw w) -> 0 <= v < 2 ^ 64 ->
    wr (b_mem b) (obj_begin (b_mem b) (Z.of_nat i) + 8 * Z.of_nat k) v = Some m' ->
    writes b i k v (Buffer (b_h b) (b_pool b) m').

(* the buffers that arise from a new one, adding only objects with P *)
Inductive reachable (P : request -> Prop) : buffer -> Prop :=
| r_new hp pa cap b : good_heap hp -> pa <> 0 -> cap + 64 < 2 ^ 64 ->
    buf_new hp pa cap = Some (Some b) -> reachable P b
| r_add hp b q r b' : reachable P b -> good_heap hp -> request_ok b q -> P q ->
    add hp b q = Some (r, b') -> r <> 0 -> reachable P b'
| r_keep b b' : reachable P b -> keeps b b' -> reachable P b'
| r_empty b b' : reachable P b -> empties b b' -> reachable P b'
| r_write b i k v b' : reachable P b -> writes b i k v b' -> reachable P b'
| r_detailed hp pa no ns nd ng flags b : good_heap hp -> pa <> 0 -> new_limits_ok no ns nd ng ->
    Z.land flags F_MEMPOOL = F_MEMPOOL ->
    buf_new_detailed hp pa no ns nd ng flags = Some (Some b) -> reachable P b.

Definition any (q : request) : Prop := True.

(* from b to b' by adding the objects of the requests, with any operations that keep the
   objects in between *)
Inductive additions : buffer -> list request -> buffer -> Prop :=
| a_nil b : additions b [] b
| a_add b l b1 hp q r b2 : additions b l b1 -> good_heap hp -> request_ok b1 q ->
    add hp b1 q = Some (r, b2) -> r <> 0 -> additions b (l ++ [q]) b2
| a_keep b l b1 b2 : additions b l b1 -> keeps b1 b2 -> additions b l b2.

(* the list l with x in place n *)
Definition replace {T : Type} (l : list T) (n : nat) (x : T) : list T :=
  firstn n l ++ match skipn n l with [] => [] | _ :: r => x :: r end.

(* what a user does with the objects of a buffer *)
Inductive action := DoAdd (q : request) | DoWrite (i k : nat) (v : Z) | DoEmpty.

(* from b to b' by these actions, with any operations that keep the objects in between *)
Inductive performs : buffer -> list action -> buffer -> Prop :=
| p_nil b : performs b [] b
| p_add b l b1 hp q r b2 : performs b l b1 -> good_heap hp -> request_ok b1 q ->
    add hp b1 q = Some (r, b2) -> r <> 0 -> performs b (l ++ [DoAdd q]) b2
| p_write b l b1 i k v b2 : performs b l b1 -> writes b1 i k v b2 ->
    performs b (l ++ [DoWrite i k v]) b2
| p_empty b l b1 b2 : performs b l b1 -> empties b1 b2 -> performs b (l ++ [DoEmpty]) b2
| p_keep b l b1 b2 : performs b l b1 -> keeps b1 b2 -> performs b l b2.

(* ... and what that should do with a list of objects *)
Inductive effect : list (Z * list cell) -> action -> list (Z * list cell) -> Prop :=
| ef_add os q o : stored_as q o -> effect os (DoAdd q) (os ++ [o])
| ef_write os i k v t cells : nth_error os i = Some (t, cells) ->
    effect os (DoWrite i k v) (replace os i (t, replace cells k (Raw v)))
| ef_empty os : effect os DoEmpty [].

Inductive effects : list (Z * list cell) -> list action -> list (Z * list cell) -> Prop :=
| es_nil os : effects os [] os
| es_snoc os l os1 a os2 : effects os l os1 -> effect os1 a os2 -> effects os (l ++ [a]) os2.

(* there is room for the object within the limits of the sections *)
Definition has_room (b : buffer) (q : request) : Prop :=
  let m := b_mem b in
  sec_count m 3 + object_words (rq_size q) (rq_attrs q) <= sec_limit m 3 /\
  sec_count m 4 + 1 <= sec_limit m 4 /\
  sec_count m 5 + Z.of_nat (length (rq_attrs q)) <= sec_limit m 5.

(* buffers that, since they were new or last reset, were only ever added to: the limits are
   those of the contents *)
Inductive added_only : buffer -> Prop :=
| ao_new hp pa cap b : good_heap hp -> pa <> 0 -> cap + 64 < 2 ^ 64 ->
    buf_new hp pa cap = Some (Some b) -> added_only b
| ao_add hp b q r b' : added_only b -> good_heap hp -> request_ok b q -> full_arrays q ->
    add hp b q = Some (r, b') -> r <> 0 -> added_only b'
| ao_write b i k v b' : added_only b -> writes b i k v b' -> added_only b'
| ao_reset b b' : reachable full_arrays b -> buf_reset b = Some (true, b') -> added_only b'.

(* m' holds the bytes of the buffer m *)
Definition copy_of (m m' : mem) : Prop :=
  (forall i, 0 <= 8 * i < word m 1 -> word m' i = word m i) /\
  word m 1 <= 8 * Z.of_nat (length (mwords m')).

(* of slots, objects, data pointers and garbage entries *)
Definition counts (m : mem) : list Z := map (sec_count m) [3; 4; 5; 6].
Definition limits (m : mem) : list Z := map (sec_limit m) [3; 4; 5; 6].

(* the length in bytes of a block with these limits *)
Definition length_for (no ns nd ng : Z) : Z := 8 * (16 + ns + 3 * no + nd + 2 * ng).

(* the three words of an object index entry at address p: begin, type, length in bytes *)
Definition entry_at (b : buffer) (p begin t size : Z) : Prop :=
  word_at (b_mem b) p = begin /\ word_at (b_mem b) (p + 8) = t /\ word_at (b_mem b) (p + 16) = size.
