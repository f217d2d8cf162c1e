(* What copying a beam line should do.  The elements are told apart by their type ids
   (internal/objects_type_id.h); an element consists of its words and of the arrays that
   its pointers lead to. *)
From Coq Require Import ZArith List Bool.
From Verif Require Import MBuf MBufSpec MemPool Buffer BufferSpec BufferUser.
Import ListNotations.
Local Open Scope Z_scope.

(* type id and size in bytes of the elements *)
Definition element_sizes : list (Z * Z) :=
  [(2, 8); (3, 8);            (* drifts: length *)
   (4, 40);                   (* multipole: order, length, hxl, hyl, pointer to strengths *)
   (5, 24);                   (* cavity: voltage, frequency, lag *)
   (6, 16); (7, 16);          (* shift: dx, dy; rotation: cos, sin *)
   (8, 16); (9, 16);          (* beam-beam 4D and 6D: data size, pointer to the data *)
   (10, 64);                  (* monitor: 8 fields *)
   (11, 32); (12, 24); (16, 40); (* apertures: rectangle, ellipse, both *)
   (13, 72); (14, 88);        (* space charge: coasting, q-gaussian *)
   (24, 16);                  (* dipole edge: r21, r43 *)
   (256, 48);                 (* rf multipole: order, voltage, frequency, lag, two pointers *)
   (257, 80);                 (* space charge, interpolated *)
   (260, 104);                (* field map: 12 fields, pointer to the table *)
   (261, 64)].                (* element with a field map *)

Definition element_size (t : Z) : option Z :=
  match find (fun p => fst p =? t) element_sizes with Some p => Some (snd p) | None => None end.

(* the arrays of an element with the words ow: where the pointer is, size and number of the
   values *)
Definition element_arrays (t : Z) (ow : list Z) : list attr :=
  if t =? 4 then [Attr 32 8 (2 * wnth ow 0 + 2)]
  else if t =? 256 then [Attr 32 8 (2 * wnth ow 0 + 2); Attr 40 8 (2 * wnth ow 0 + 2)]
  else if (t =? 8) || (t =? 9) then [Attr 8 8 (wnth ow 0)]
  else if t =? 260 then [Attr 96 8 (8 * wnth ow 2 * wnth ow 5 * wnth ow 8)]
  else [].

Definition words64 (ws : list Z) : Prop := Forall (fun w => 0 <= w < 2 ^ 64) ws.

(* the object o of a buffer is an element: its words are followed by its arrays, which its
   pointers lead to and which are not empty *)
Definition is_element (o : Z * list cell) : Prop :=
  exists size ow arrs,
    element_size (fst o) = Some size /\ 8 * wcount ow = size /\ words64 ow /\
    Forall2 (fun x a => wcount a = at_count x /\ 0 < at_count x /\ words64 a)
      (element_arrays (fst o) ow) arrs /\
    snd o = expected_object ow (element_arrays (fst o) ow) arrs.

(* beam-beam and space-charge elements *)
Definition field_types : list Z := [8; 9; 13; 14; 257].

(* number of words and number of pointers of an object *)
Definition words_in (o : Z * list cell) : Z := Z.of_nat (length (snd o)).
Definition is_ptr (c : cell) : bool := match c with Ptr _ => true | Raw _ => false end.
Definition pointers_in (o : Z * list cell) : Z := Z.of_nat (length (filter is_ptr (snd o))).

Definition total (f : Z * list cell -> Z) (l : list (Z * list cell)) : Z :=
  fold_right (fun o n => f o + n) 0 l.

(* the objects number i, i + 1, ..., j - 1 *)
Definition range {T} (l : list T) (i j : nat) : list T := firstn (j - i) (skipn i l).

(* address of the entry of object number i, as the user of the buffer gets it *)
Definition entry_addr (b : buffer) (i : nat) : Z := object_addr (b_h b) + 24 * Z.of_nat i.

(* the destination stays below 2^64 bytes *)
Definition fits (b : buffer) (l : list (Z * list cell)) : Prop :=
  data_size (b_h b) + 8 * (total words_in l + 3 * Z.of_nat (length l) + total pointers_in l) + 32
    < 2 ^ 64.

(* there is room for the objects within the limits of the sections *)
Definition has_room_for (b : buffer) (l : list (Z * list cell)) : Prop :=
  let m := b_mem b in
  sec_count m 3 + total words_in l <= sec_limit m 3 /\
  sec_count m 4 + Z.of_nat (length l) <= sec_limit m 4 /\
  sec_count m 5 + total pointers_in l <= sec_limit m 5.
