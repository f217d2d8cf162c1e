(* What the user of a buffer sees of its contents.  Nothing here depends on the functions
   of the model but the type of a memory block; the layout is that of the comment in
   managed_buffer_minimal.h 1-40 and of struct Object (buffer_object.h 24-30):

   word 0 base address, 1 length in bytes, 3..6 addresses of the sections (slots, objects,
   data pointers, garbage); a section begins with its maximal length in bytes and the number
   of its entries; the entry of an object is its address, its type id and its length in
   bytes; the entry of a data pointer is the address of a word in the slots that is itself
   an address. *)
From Coq Require Import ZArith List Bool.
From Verif Require Import MBuf.
Import ListNotations.
Local Open Scope Z_scope.

(* word number i of a block *)
Definition word (m : mem) (i : Z) : Z := nth (Z.to_nat i) (mwords m) 0.

(* the base address the block was last set up for *)
Definition stored_base (m : mem) : Z := word m 0.

(* word number at which section id begins, relative to the stored base *)
Definition sec_pos (m : mem) (id : Z) : Z := (word m id - stored_base m) / 8.
(* number of entries in the section *)
Definition sec_count (m : mem) (id : Z) : Z := word m (sec_pos m id + 1).
(* largest length of the section in bytes, its header of 16 bytes included *)
Definition sec_room (m : mem) (id : Z) : Z := word m (sec_pos m id).

Definition zseq (n : Z) : list Z := map Z.of_nat (seq 0 (Z.to_nat n)).

(* one word of an object: a value, or a pointer shown as the distance in bytes from the
   begin of the object *)
Inductive cell := Raw (w : Z) | Ptr (q : Z).

(* addresses of the words that hold an address *)
Definition data_pointers (m : mem) : list Z :=
  map (fun j => word m (sec_pos m 5 + 2 + j)) (zseq (sec_count m 5)).

Definition obj_begin (m : mem) (i : Z) : Z := word m (sec_pos m 4 + 2 + 3 * i).
Definition obj_type (m : mem) (i : Z) : Z := word m (sec_pos m 4 + 2 + 3 * i + 1).
Definition obj_size (m : mem) (i : Z) : Z := word m (sec_pos m 4 + 2 + 3 * i + 2).

(* the word of the block at address a (in terms of the stored base) *)
Definition word_at (m : mem) (a : Z) : Z := word m ((a - stored_base m) / 8).

Definition obj_cell (m : mem) (i a : Z) : cell :=
  if existsb (Z.eqb a) (data_pointers m) then Ptr (word_at m a - obj_begin m i)
  else Raw (word_at m a).

Definition obj_cells (m : mem) (i : Z) : list cell :=
  map (fun k => obj_cell m i (obj_begin m i + 8 * k)) (zseq (obj_size m i / 8)).

(* the objects in the order of their index: type id and data *)
Definition content (m : mem) : list (Z * list cell) :=
  map (fun i => (obj_type m i, obj_cells m i)) (zseq (sec_count m 4)).

(* the bytes [a, a + n) and [a', a' + n') have no byte in common *)
Definition disjoint (a n a' n' : Z) : Prop := a + n <= a' \/ a' + n' <= a.
