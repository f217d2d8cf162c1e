(* What adding an object to a buffer should do, in terms of bytes and words.  Nothing here
   depends on the functions of the model (only on the types attr and ext_mem: the caller's
   description of the object and the caller's memory). *)
From Coq Require Import ZArith List Bool.
From Verif Require Import MBuf MBufSpec Buffer.
Import ListNotations.
Local Open Scope Z_scope.

(* number of words that n bytes take *)
Definition words_of (n : Z) : Z := (n + 7) / 8.

Definition wnth (ws : list Z) (k : Z) : Z := nth (Z.to_nat k) ws 0.
Definition wcount (ws : list Z) : Z := Z.of_nat (length ws).

(* byte number j of a list of words (little endian) *)
Definition byte (ws : list Z) (j : Z) : Z := wnth ws (j / 8) / 256 ^ (j mod 8) mod 256.

(* the words ow hold the n bytes that the words obj begin with (whole words are the same) *)
Definition same_bytes (n : Z) (obj ow : list Z) : Prop :=
  wcount ow = words_of n /\ (forall j, 0 <= j < n -> byte ow j = byte obj j) /\
  forall k, 0 <= k -> 8 * k + 8 <= n -> wnth ow k = wnth obj k.

(* the words ws are the n bytes at the address src of the caller's memory, filled up with
   zeros; a null pointer stands for zeros *)
Definition array_of (e : ext_mem) (src n : Z) (ws : list Z) : Prop :=
  wcount ws = words_of n /\ Forall (fun w => 0 <= w < 2 ^ 64) ws /\
  forall j, 0 <= j < 8 * words_of n ->
    if negb (src =? 0) && (j <? n) then e (src + j) = Some (byte ws j) else byte ws j = 0.

Definition attr_bytes (x : attr) : Z := at_count x * at_size x.

(* number of words the object and its arrays take *)
Definition object_words (osize : Z) (attrs : list attr) : Z :=
  fold_right (fun x n => words_of (attr_bytes x) + n) (words_of osize) attrs.

(* the call describes an object: pointers at distinct aligned places inside it, arrays that
   can be read *)
Record call_ok (e : ext_mem) (obj : list Z) (osize : Z) (attrs : list attr) : Prop := CallOk {
  call_size : 0 < osize;
  call_words : words_of osize <= wcount obj;
  call_range : Forall (fun w => 0 <= w < 2 ^ 64) obj;
  call_offsets : forall x, In x attrs ->
    0 <= at_offset x /\ at_offset x mod 8 = 0 /\ at_offset x + 8 <= osize;
  call_distinct : NoDup (map at_offset attrs);
  call_counts : forall x, In x attrs -> 0 <= at_size x /\ 0 <= at_count x;
  call_sources : forall x, In x attrs -> forall j, 0 <= j < attr_bytes x ->
    wnth obj (at_offset x / 8) <> 0 ->
    exists v, e (wnth obj (at_offset x / 8) + j) = Some v /\ 0 <= v < 256 }.

(* distance in bytes from the begin of the object to each array, the first one being at d *)
Fixpoint starts (d : Z) (arrs : list (list Z)) : list Z :=
  match arrs with
  | [] => []
  | a :: r => d :: starts (d + 8 * wcount a) r
  end.

(* the object in the buffer: its words, the pointers replaced by pointers to the copies of
   the arrays, which follow it in order *)
Definition expected_object (ow : list Z) (attrs : list attr) (arrs : list (list Z)) : list cell :=
  let ptrs := combine (map at_offset attrs) (starts (8 * wcount ow) arrs) in
  map (fun k => match find (fun p => fst p =? 8 * k) ptrs with
                | Some p => Ptr (snd p)
                | None => Raw (wnth ow k)
                end) (zseq (wcount ow))
  ++ map Raw (concat arrs).

(* ow and arrs are the words of the object and the arrays of the call *)
Definition object_data (e : ext_mem) (obj : list Z) (osize : Z) (attrs : list attr)
  (ow : list Z) (arrs : list (list Z)) : Prop :=
  same_bytes osize obj ow /\
  Forall2 (fun x ws => array_of e (wnth obj (at_offset x / 8)) (attr_bytes x) ws) attrs arrs.
