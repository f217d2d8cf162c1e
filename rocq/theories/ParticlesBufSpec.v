(* What a particle set in a buffer is, and what the table of the addresses of a buffer of
   particles should hold. *)
From Coq Require Import ZArith List Bool.
From Verif Require Import MBuf MBufSpec MemPool Buffer BufferSpec BufferUser LinesSpec StringsSpec.
Import ListNotations.
Local Open Scope Z_scope.

(* 21 attributes, in the order of the struct: q0, mass0, beta0, gamma0, p0c, s, x, y, px, py,
   zeta, psigma, delta, rpp, rvv, chi, charge_ratio, particle_id, at_element_id, at_turn,
   state *)
Definition NUM := 21.

(* a set of n particles: the number, the pointers to the columns, and the columns, one behind
   the other *)
Definition particle_set (n : Z) (cols : list (list Z)) : Z * list cell :=
  (1, Raw n :: map (fun a => Ptr (176 + 8 * n * a)) (zseq NUM) ++ map Raw (concat cols)).

(* 21 columns with n values each *)
Definition columns (n : Z) (cols : list (list Z)) : Prop :=
  0 <= n < 2 ^ 63 /\ Z.of_nat (length cols) = NUM /\ Forall (fun c => wcount c = n /\ words64 c) cols.

(* object number i of b is this particle set *)
Definition set_at (b : buffer) (i : nat) (n : Z) (cols : list (list Z)) : Prop :=
  nth_error (objects b) i = Some (particle_set n cols) /\ columns n cols.

(* the value of attribute a of particle j *)
Definition value (cols : list (list Z)) (a : nat) (j : Z) : Z := wnth (nth a cols []) j.

(* the columns with the value of attribute a of particle j changed to v *)
Definition put (cols : list (list Z)) (a : nat) (j v : Z) : list (list Z) :=
  replace cols a (replace (nth a cols []) (Z.to_nat j) v).

(* every object with the type of particle sets is one *)
Definition proper_sets (b : buffer) : Prop :=
  forall i t cells, nth_error (objects b) i = Some (t, cells) -> t = 1 ->
    exists n cols, set_at b i n cols.

(* object o is no particle set, or one without particles *)
Definition no_particles (o : Z * list cell) : Prop := fst o <> 1 \/ words_in o <= 22.

(* the number of particles of an object: 0 if it is no particle set *)
Definition particles_in (o : Z * list cell) : Z :=
  if fst o =? 1 then match snd o with Raw n :: _ => n | _ => 0 end else 0.

Definition some_in (o : Z * list cell) : bool := 0 <? particles_in o.

(* the sizes stay below 2^64 when a set of n particles is added; there is room for it *)
Definition set_words (n : Z) : Z := 22 + 21 * n.
Definition set_fits (b : buffer) (n : Z) : Prop :=
  data_size (b_h b) + 8 * (set_words n + 3 + 21) + 32 < 2 ^ 64.
Definition set_room (b : buffer) (n : Z) : Prop :=
  let m := b_mem b in
  sec_count m 3 + set_words n <= sec_limit m 3 /\ sec_count m 4 + 1 <= sec_limit m 4 /\
  sec_count m 5 + 21 <= sec_limit m 5.

(* b' is what b becomes when an object with Q is to be added; p is the result of the call: the
   address of the new object, or 0 for a failure *)
Record added_object (hp : heap) (b : buffer) (p : Z) (b' : buffer) (Q : Z * list cell -> Prop)
    (mem : Z) (has_room : Prop) : Prop := AddedObject {
  ad_new : p <> 0 -> (exists o, Q o /\ objects b' = objects b ++ [o]) /\
    p = place b' (length (objects b)) /\ reachable any b';
  ad_fail : p = 0 -> no_end_pointer (b_mem b) -> objects b' = objects b;
  ad_room : has_room -> p <> 0 /\ data_addr (b_h b') = data_addr (b_h b);
  ad_mem : added_only b -> memory_up_to hp (data_size (b_h b) + mem + 16) -> p <> 0 }.

(* ... an object without empty arrays *)
Definition keeps_full (b : buffer) (p : Z) (b' : buffer) : Prop :=
  p <> 0 -> (reachable full_arrays b -> reachable full_arrays b') /\ (added_only b -> added_only b').

(* ------------------------------------------------------------------ *)
(* the table *)

(* a row: number of particles and 21 addresses *)
Definition row (n : Z) (addrs : list Z) : Z * list cell := (512, map Raw (n :: addrs)).
Definition is_row (o : Z * list cell) : Prop :=
  exists n addrs, o = row n addrs /\ words64 (n :: addrs) /\ Z.of_nat (length addrs) = NUM.

(* the object cannot be taken for a row *)
Definition no_row (o : Z * list cell) : Prop := fst o <> 512 \/ words_in o < 22.

(* where the columns of the particle set number i of b are *)
Definition addresses (b : buffer) (i : nat) (n : Z) : list Z :=
  map (fun a => place b i + 176 + 8 * n * a) (zseq NUM).

Definition zeros : list Z := repeat 0 21.

(* the row of an object in a new table *)
Definition new_row (o : Z * list cell) : Z * list cell := row (particles_in o) zeros.

(* r is the row that belongs to object number i of b *)
Definition row_for (b : buffer) (i : nat) (r : Z * list cell) : Prop :=
  (exists n cols, 0 < n /\ set_at b i n cols /\ r = row n (addresses b i n)) \/
  (exists o, nth_error (objects b) i = Some o /\ no_particles o /\ r = row 0 zeros).

(* bt is the table of b *)
Definition table_of (b : buffer) (bt : buffer) : Prop :=
  length (objects bt) = length (objects b) /\
  forall i r, nth_error (objects bt) i = Some r -> row_for b i r.

(* from b to b' by operations that leave the objects where they are in the block (which may
   move): adding objects, changing words other than the first one of an object, and operations
   that keep the objects *)
Inductive later : buffer -> buffer -> Prop :=
| l_same b : later b b
| l_add b b1 hp q r b2 : later b b1 -> good_heap hp -> request_ok b1 q ->
    add hp b1 q = Some (r, b2) -> r <> 0 -> later b b2
| l_write b b1 i k v b2 : later b b1 -> writes b1 i k v b2 -> k <> O -> later b b2
| l_keep b b1 b2 : later b b1 -> keeps b1 b2 -> later b b2.

(* number of bytes by which the address of the block has changed *)
Definition moved (b b' : buffer) : Z := data_addr (b_h b') - data_addr (b_h b).
