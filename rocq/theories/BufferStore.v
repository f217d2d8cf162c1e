(** Buffer stores of track jobs and the stored buffers a job manages.
    Models sixtracklib/common/track/track_job_buffer_store.cpp (whole file) and
    the stored-buffer functions of sixtracklib/common/track/track_job_base.cpp
    (1193-1330, 1540-1572, 2797-2853).

    Simplifications.  A buffer is one heap object with a content (a list of
    words); a C++ buffer and its C part are the same object, because st::Buffer
    derives from the C struct (buffer.hpp 55-60), so getCApiPtr() is the
    identity on addresses.  The address 0 is the null pointer.  The address a
    [new] returns is an argument: the allocator may reuse freed addresses.
    Failure of [new] (std::bad_alloc) is not modelled.  [None] is a memory
    error: a double deletion, a use of a deleted buffer, or a breach of the
    allocator's contract. *)
From Coq Require Import ZArith Bool List Lia.
Import ListNotations.
Local Open Scope Z_scope.

Definition obnd {A B : Type} (x : option A) (f : A -> option B) : option B :=
  match x with Some a => f a | None => None end.

(** The heap of buffer objects: [None] at an address = no live buffer there. *)
Definition bheap := Z -> option (list Z).

Definition hset (h : bheap) (a : Z) (v : option (list Z)) : bheap :=
  fun x => if x =? a then v else h x.

(** [new st::Buffer(...)] (track_job_buffer_store.cpp 93, 115, 137, 221, 300;
    buffer.hpp 373-402): the allocator returns a non-null address that is not
    in use. *)
Definition h_new (a : Z) (v : list Z) (h : bheap) : option bheap :=
  if a =? 0 then None
  else match h a with Some _ => None | None => Some (hset h a (Some v)) end.

(** [delete] of a buffer (destructor of std::unique_ptr, Buffer_delete). *)
Definition h_free (a : Z) (h : bheap) : option bheap :=
  match h a with Some _ => Some (hset h a None) | None => None end.

(** A buffer store: m_ptr_cxx_buffer, m_ptr_c99_buffer, m_own_buffer
    (track_job_buffer_store.h 92-96). *)
Record bstore := mkStore { s_cxx : Z; s_c99 : Z; s_own : Z }.

(** The initialisers of every constructor (44-45, 53-54, 62-63, 70-71, 78-79). *)
Definition bs_empty : bstore := mkStore 0 0 0.

(** [m_own_buffer.reset( p )] / [m_own_buffer = std::move( ... )]: the old
    object, if any, is deleted (std::unique_ptr). *)
Definition drop_own (own : Z) (h : bheap) : option bheap :=
  if own =? 0 then Some h else h_free own h.

(** active (165-180); the assertion is modelled in [BufferStoreSpec]. *)
Definition bs_active (s : bstore) : bool := negb (s_c99 s =? 0).

(** owns_buffer (182-186). *)
Definition bs_owns (s : bstore) : bool := bs_active s && negb (s_own s =? 0).

(** ptr_buffer (188-197). *)
Definition bs_ptr (s : bstore) : Z := s_c99 s.

(** ptr_cxx_buffer (199-208). *)
Definition bs_ptr_cxx (s : bstore) : Z := s_cxx s.

(** clear (210-215). *)
Definition bs_clear (s : bstore) (h : bheap) : option (bstore * bheap) :=
  obnd (drop_own (s_own s) h) (fun h => Some (bs_empty, h)).

(** The implicit destructor: deletes the owned buffer. *)
Definition bs_destroy (s : bstore) (h : bheap) : option bheap := drop_own (s_own s) h.

(** reset( capacity, flags ) (217-233); [v] is the content of the new buffer. *)
Definition bs_reset_cap (a : Z) (v : list Z) (s : bstore) (h : bheap) : option (bstore * bheap) :=
  obnd (h_new a v h) (fun h =>
  obnd (drop_own (s_own s) h) (fun h =>
  Some (mkStore a a a, h))).

(** reset( cxx_buffer, take_ownership ) (235-253); calling getCApiPtr (242) on
    a deleted buffer is a memory error. *)
Definition bs_reset_cxx (b : Z) (take : bool) (s : bstore) (h : bheap) : option (bstore * bheap) :=
  if negb (b =? 0) && negb (s_cxx s =? b) then
    obnd (h b) (fun _ =>
    obnd (drop_own (s_own s) h) (fun h =>
    Some (mkStore b b (if take then b else 0), h)))
  else Some (s, h).

(** reset( c99_buffer, take_ownership, delete_ptr_after_move ) (255-283), with
    MAKE_FROM_CBUFFER_AND_TAKE_OWNERSHIP (buffer.hpp 373-402): a new buffer at
    [a] takes over the content, the given one is left preset (blank) and, if
    asked, deleted. *)
Definition bs_reset_c (b : Z) (take del : bool) (a : Z) (s : bstore) (h : bheap)
  : option (bstore * bheap) :=
  if negb (b =? 0) && negb (s_c99 s =? b) then
    if take then
      obnd (h b) (fun v =>
      obnd (h_new a v h) (fun h =>
      let h := hset h b (Some []) in
      obnd (if del then h_free b h else Some h) (fun h =>
      obnd (drop_own (s_own s) h) (fun h =>
      Some (mkStore a a a, h)))))
    else
      obnd (drop_own (s_own s) h) (fun h => Some (mkStore 0 b 0, h))
  else Some (s, h).

(** reset( std::unique_ptr && ) (285-293); [b] is what the pointer holds. *)
Definition bs_reset_uniq (b : Z) (s : bstore) (h : bheap) : option (bstore * bheap) :=
  obnd (drop_own (s_own s) h) (fun h => Some (mkStore b b b, h)).

(** reset( Buffer && ) (295-306): a new buffer at [a] takes over the content. *)
Definition bs_reset_move (b : Z) (a : Z) (s : bstore) (h : bheap) : option (bstore * bheap) :=
  if negb (b =? s_cxx s) then
    obnd (h b) (fun v =>
    obnd (h_new a v h) (fun h =>
    let h := hset h b (Some []) in
    obnd (drop_own (s_own s) h) (fun h =>
    Some (mkStore a a a, h))))
  else Some (s, h).

(** The overloads of [reset]; the constructors (41-82) are [reset] on an empty
    store. *)
Inductive reset_op :=
| RCap (a : Z) (v : list Z)
| RCxx (b : Z) (take : bool)
| RC (b : Z) (take del : bool) (a : Z)
| RUniq (b : Z)
| RMove (b a : Z).

(** Dispatch over the [reset] overloads (217-306). *)
Definition bs_reset (r : reset_op) (s : bstore) (h : bheap) : option (bstore * bheap) :=
  match r with
  | RCap a v => bs_reset_cap a v s h
  | RCxx b take => bs_reset_cxx b take s h
  | RC b take del a => bs_reset_c b take del a s h
  | RUniq b => bs_reset_uniq b s h
  | RMove b a => bs_reset_move b a s h
  end.

(** Copy constructor (84-103). *)
Definition bs_copy_ctor (a : Z) (o : bstore) (h : bheap) : option (bstore * bheap) :=
  if bs_owns o then
    obnd (h (s_own o)) (fun v =>
    obnd (h_new a v h) (fun h => Some (mkStore a a a, h)))
  else Some (mkStore (s_cxx o) (s_c99 o) 0, h).

(** Move constructor (105-125): the owned pointer is moved first, so
    [other.owns_buffer()] is false afterwards and the pointers are copied.
    Result: (new store, source after the move). *)
Definition bs_move_ctor (o : bstore) : bstore * bstore :=
  (mkStore (s_cxx o) (s_c99 o) (s_own o), mkStore (s_cxx o) (s_c99 o) 0).

(** Copy assignment of two different stores (127-150). *)
Definition bs_copy_assign (a : Z) (s rhs : bstore) (h : bheap) : option (bstore * bheap) :=
  if bs_owns rhs then
    obnd (h (s_own rhs)) (fun v =>
    obnd (h_new a v h) (fun h =>
    obnd (drop_own (s_own s) h) (fun h =>
    Some (mkStore a a a, h))))
  else Some (mkStore (s_cxx rhs) (s_c99 rhs) (s_own s), h).

(** Move assignment of two different stores (152-163).  Result: (target,
    source after the move, heap). *)
Definition bs_move_assign (s rhs : bstore) (h : bheap) : option (bstore * bstore * bheap) :=
  obnd (drop_own (s_own s) h) (fun h =>
  Some (mkStore (s_cxx rhs) (s_c99 rhs) (s_own rhs),
        mkStore (s_cxx rhs) (s_c99 rhs) 0, h)).

(** ** A pool of stores and the code using it. *)

(** What a program can do with stores: the caller's own buffers, construction,
    reset, clear, copies, moves, destruction.  Stores are numbered in the order
    of their construction. *)
Inductive store_op :=
| CNew (a : Z) (v : list Z)
| CFree (a : Z)
| CWrite (a : Z) (v : list Z)
| SNew (r : reset_op)
| SReset (i : nat) (r : reset_op)
| SClear (i : nat)
| SDestroy (i : nat)
| SCopyNew (j : nat) (a : Z)
| SMoveNew (j : nat)
| SCopy (i j : nat) (a : Z)
| SMove (i j : nat).

(** [None] in the list: a destroyed store. *)
Record pool := mkPool { p_heap : bheap; p_stores : list (option bstore) }.

Fixpoint upd_nth {A : Type} (i : nat) (x : A) (l : list A) : list A :=
  match l, i with
  | [], _ => []
  | _ :: r, O => x :: r
  | y :: r, S k => y :: upd_nth k x r
  end.

(** The store with number [i], if it exists and is not destroyed. *)
Definition pget (p : pool) (i : nat) : option bstore :=
  match nth_error (p_stores p) i with Some (Some s) => Some s | _ => None end.

Definition pset (p : pool) (i : nat) (s : option bstore) (h : bheap) : pool :=
  mkPool h (upd_nth i s (p_stores p)).

Definition padd (p : pool) (s : bstore) (h : bheap) : pool :=
  mkPool h (p_stores p ++ [Some s]).

(** One step of a program using stores: the caller's steps act on the heap, all
    others call the member functions above. *)
Definition pool_step (p : pool) (op : store_op) : option pool :=
  match op with
  | CNew a v => obnd (h_new a v (p_heap p)) (fun h => Some (mkPool h (p_stores p)))
  | CFree a => obnd (h_free a (p_heap p)) (fun h => Some (mkPool h (p_stores p)))
  | CWrite a v =>
      obnd (p_heap p a) (fun _ => Some (mkPool (hset (p_heap p) a (Some v)) (p_stores p)))
  | SNew r =>
      obnd (bs_reset r bs_empty (p_heap p)) (fun '(s, h) => Some (padd p s h))
  | SReset i r =>
      obnd (pget p i) (fun s =>
      obnd (bs_reset r s (p_heap p)) (fun '(s, h) => Some (pset p i (Some s) h)))
  | SClear i =>
      obnd (pget p i) (fun s =>
      obnd (bs_clear s (p_heap p)) (fun '(s, h) => Some (pset p i (Some s) h)))
  | SDestroy i =>
      obnd (pget p i) (fun s =>
      obnd (bs_destroy s (p_heap p)) (fun h => Some (pset p i None h)))
  | SCopyNew j a =>
      obnd (pget p j) (fun o =>
      obnd (bs_copy_ctor a o (p_heap p)) (fun '(s, h) => Some (padd p s h)))
  | SMoveNew j =>
      obnd (pget p j) (fun o =>
      let '(s, o') := bs_move_ctor o in
      Some (padd (pset p j (Some o') (p_heap p)) s (p_heap p)))
  | SCopy i j a =>
      obnd (pget p i) (fun s => obnd (pget p j) (fun rhs =>
      if Nat.eqb i j then Some p
      else obnd (bs_copy_assign a s rhs (p_heap p)) (fun '(s, h) => Some (pset p i (Some s) h))))
  | SMove i j =>
      obnd (pget p i) (fun s => obnd (pget p j) (fun rhs =>
      if Nat.eqb i j then Some p
      else obnd (bs_move_assign s rhs (p_heap p)) (fun '(s, rhs, h) =>
           Some (pset (pset p i (Some s) h) j (Some rhs) h))))
  end.

Fixpoint pool_run (p : pool) (ops : list store_op) : option pool :=
  match ops with
  | [] => Some p
  | op :: r => obnd (pool_step p op) (fun p => pool_run p r)
  end.

Definition pool_start : pool := mkPool (fun _ => None) [].

(** ** Stored buffers of a job (track_job_base.cpp). *)

(** m_stored_buffers and m_num_stored_buffers. *)
Record sjob := mkSJob { j_stores : list bstore; j_num : Z }.

(** ARCH_MIN_USER_DEFINED_BUFFER_ID, ARCH_ILLEGAL_BUFFER_ID
    (control/definitions.h 134-160). *)
Definition MIN_USER_ID : Z := 1024.
Definition ILLEGAL_ID : Z := 0.

Definition nstores (j : sjob) : Z := Z.of_nat (length (j_stores j)).

(** num_stored_buffers (1217-1228). *)
Definition sj_num (j : sjob) : Z := j_num j.

(** has_stored_buffers (1212-1215). *)
Definition sj_has (j : sjob) : bool := 0 <? sj_num j.

(** min_stored_buffer_id (1230-1234). *)
Definition sj_min_id (j : sjob) : Z := if sj_has j then MIN_USER_ID else ILLEGAL_ID.

(** max_stored_buffer_id (1236-1248). *)
Definition sj_max_id (j : sjob) : Z :=
  let m := sj_min_id j in
  if negb (m =? ILLEGAL_ID) then m + nstores j - 1 else m.

(** The range test of do_get_ptr_buffer_store (1545-1551) and
    do_remove_stored_buffer (2815-2821). *)
Definition sj_in_range (j : sjob) (id : Z) : bool :=
  let m := sj_min_id j in
  negb (m =? ILLEGAL_ID) && negb (id =? ILLEGAL_ID) && (m <=? id) && (id <? m + nstores j).

(** do_get_ptr_buffer_store (1540-1559). *)
Definition sj_get (j : sjob) (id : Z) : option bstore :=
  if sj_in_range j id then nth_error (j_stores j) (Z.to_nat (id - sj_min_id j)) else None.

(** ptr_stored_buffer (1302-1315), 0 = null. *)
Definition sj_ptr (j : sjob) (id : Z) : Z :=
  match sj_get j id with Some s => bs_ptr s | None => 0 end.

(** ptr_stored_cxx_buffer (1282-1300). *)
Definition sj_ptr_cxx (j : sjob) (id : Z) : Z :=
  match sj_get j id with Some s => bs_ptr_cxx s | None => 0 end.

(** owns_stored_buffer (1250-1256). *)
Definition sj_owns (j : sjob) (id : Z) : bool :=
  match sj_get j id with Some s => bs_owns s | None => false end.

(** do_push_stored_buffer, do_collect_stored_buffer of the base class
    (2837-2853): true = success. *)
Definition sj_transfer (j : sjob) (id : Z) : bool :=
  match sj_get j id with Some _ => true | None => false end.

(** add_stored_buffer (track_job_base.hpp 1210-1217: constructs a temporary
    store) and do_add_stored_buffer (track_job_base.cpp 2797-2809): an empty
    store is appended (a reallocation of the vector moves every store and
    destroys the moved-from ones, which changes nothing), the handle is
    move-assigned to it and destroyed. *)
Definition sj_add (r : reset_op) (j : sjob) (h : bheap) : option (Z * sjob * bheap) :=
  obnd (bs_reset r bs_empty h) (fun '(t, h) =>
  let id := MIN_USER_ID + nstores j in
  let num := if bs_active t then j_num j + 1 else j_num j in
  obnd (bs_move_assign bs_empty t h) (fun '(s, t, h) =>
  obnd (bs_destroy t h) (fun h =>
  Some (id, mkSJob (j_stores j ++ [s]) num, h)))).

(** do_remove_stored_buffer (2811-2835). *)
Definition sj_remove (id : Z) (j : sjob) (h : bheap) : option (bool * sjob * bheap) :=
  if sj_in_range j id then
    let i := Z.to_nat (id - sj_min_id j) in
    obnd (nth_error (j_stores j) i) (fun s =>
    if bs_active s then
      obnd (bs_clear s h) (fun '(s, h) =>
      Some (true, mkSJob (upd_nth i s (j_stores j)) (j_num j - 1), h))
    else Some (true, j, h))
  else Some (false, j, h).

(** The destructor of m_stored_buffers. *)
Fixpoint sj_destroy (l : list bstore) (h : bheap) : option bheap :=
  match l with
  | [] => Some h
  | s :: r => obnd (bs_destroy s h) (fun h => sj_destroy r h)
  end.

(** The stored-buffer part of the copy constructor (1787, 1802): every store is
    copy-constructed; [addrs] are the addresses the allocator hands out. *)
Fixpoint sj_copy_stores (addrs : list Z) (l : list bstore) (h : bheap)
  : option (list bstore * bheap) :=
  match l, addrs with
  | [], _ => Some ([], h)
  | s :: r, a :: ar =>
      obnd (bs_copy_ctor a s h) (fun '(t, h) =>
      obnd (sj_copy_stores ar r h) (fun '(tr, h) => Some (t :: tr, h)))
  | _ :: _, [] => None
  end.

Definition sj_copy_ctor (addrs : list Z) (o : sjob) (h : bheap) : option (sjob * bheap) :=
  obnd (sj_copy_stores addrs (j_stores o) h) (fun '(l, h) => Some (mkSJob l (j_num o), h)).

(** The stored-buffer part of the copy assignment (1914-2047): the counter is
    copied, m_stored_buffers is not mentioned. *)
Definition sj_copy_assign (j rhs : sjob) : sjob := mkSJob (j_stores j) (j_num rhs).

(** The stored-buffer part of the move assignment (2050-2130): the old stores
    are destroyed and the vector is taken over, the counter is not mentioned. *)
Definition sj_move_assign (j rhs : sjob) (h : bheap) : option (sjob * bheap) :=
  obnd (sj_destroy (j_stores j) h) (fun h => Some (mkSJob (j_stores rhs) (j_num j), h)).

(** reserve_stored_buffers_capacity (1199-1210) on the vector's capacity:
    (success, new capacity). *)
Definition sj_reserve (capacity current : Z) : bool * Z :=
  if capacity <? current then (true, Z.max capacity current) else (false, current).
