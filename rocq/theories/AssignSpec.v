(* The words in which the theorems on address assignment items are stated. *)
From Coq Require Import ZArith List Bool Permutation.
From Verif Require Import MBuf MBufSpec MemPool Buffer BufferSpec BufferUser Assign.
Import ListNotations.
Local Open Scope Z_scope.

(* an item as it is stored in a buffer *)
Definition stored_item (it : item) : Z * list cell :=
  (65536, map Raw [dest_buffer it; src_buffer it; dest_type it; src_type it;
                   dest_index it; src_index it; dest_offset it; src_offset it]).

(* a buffer with these items and nothing else *)
Definition holds (b : buffer) (its : list item) : Prop := objects b = map stored_item its.

(* a is the address of the word at distance off in object number i of type t *)
Definition place (m : mem) (i t off a : Z) : Prop :=
  0 <= i < sec_count m 4 /\ obj_type m i = t /\ 0 <= off /\ off mod 8 = 0 /\
  off + 8 <= obj_size m i /\ a = obj_begin m i + off.

(* destination and source of an item *)
Definition goes_to (m : mem) (it : item) (a : Z) : Prop :=
  place m (dest_index it) (dest_type it) (dest_offset it) a.
Definition comes_from (m : mem) (it : item) (a : Z) : Prop :=
  place m (src_index it) (src_type it) (src_offset it) a.

(* the index is that of an object, the offset is not close to 2^64 *)
Definition in_range (m : mem) (i off : Z) : Prop :=
  0 <= i < sec_count m 4 /\ 0 <= off /\ off + 8 < 2 ^ 64.

(* the items of the list that belong to these two buffers *)
Definition matching (did sid : Z) (its : list item) : list item :=
  filter (fun it => (dest_buffer it =? did) && (src_buffer it =? sid)) its.

(* the destinations, as the user gives them *)
Definition dest (it : item) : Z * Z := (dest_index it, dest_offset it).

(* the call of the kernel for the items in ba, the destination bd, the source bs; with None
   the source is the destination *)
Definition source (bd : buffer) (bs : option buffer) : buffer :=
  match bs with Some b => b | None => bd end.
Definition call (ba bd : buffer) (bs : option buffer) (did sid : Z) : args :=
  Args (b_mem ba) (data_addr (b_h ba)) (data_addr (b_h bd)) did
    (match bs with Some b => Some (b_mem b) | None => None end)
    (data_addr (b_h (source bd bs))) sid.

(* single items of the kernel executed one after the other in the order given: any
   interleaving of the work-items, whose loops take the items one by one *)
Fixpoint in_order (g : args) (order : list Z) (st : Z * mem) : option (Z * mem) :=
  match order with [] => Some st | i :: r => st' <- step g i st ;; in_order g r st' end.

(* the kernel started once for each work-item, one after the other *)
Fixpoint launch (g : args) (stride : Z) (items : list Z) (st : Z * mem) : option (Z * mem) :=
  match items with
  | [] => Some st
  | i :: r => ' (s, m) <- kernel g i stride (snd st) ;; launch g stride r (Z.lor (fst st) s, m)
  end.
