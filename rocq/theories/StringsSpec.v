(* What a string in a buffer is. *)
From Coq Require Import ZArith List Bool.
From Verif Require Import MBuf MBufSpec MemPool Buffer BufferSpec BufferUser LinesSpec Strings.
Import ListNotations.
Local Open Scope Z_scope.

Definition len (s : list Z) : Z := Z.of_nat (length s).

(* a text: characters other than 0 *)
Definition text (s : list Z) : Prop := Forall (fun c => 0 < c < 256) s.

(* the object o is a string that holds the text s, in cap characters, all those behind the
   text being 0 (at least one) *)
Definition holds_text (o : Z * list cell) (cap : Z) (s : list Z) : Prop :=
  exists ws, o = (65538, Ptr 24 :: Raw (len s) :: Raw cap :: map Raw ws) /\
    words64 ws /\ wcount ws = words_of cap /\ cap < 2 ^ 64 /\
    text s /\ len s < cap /\
    forall j, 0 <= j < cap -> byte ws j = nth (Z.to_nat j) s 0.

(* whatever operations b can come from, b' can come from the same kind of operations *)
Definition same_history (b b' : buffer) : Prop :=
  (forall P, reachable P b -> reachable P b') /\ (added_only b -> added_only b').

(* the text of an argument: a null pointer stands for the empty text *)
Definition text_of (src : option (list Z)) : list Z := match src with Some s => s | None => [] end.

(* the sizes stay below 2^64 when a string with cap characters is added *)
Definition string_fits (b : buffer) (cap : Z) : Prop :=
  data_size (b_h b) + 8 * (words_of cap + 7) + 32 < 2 ^ 64.

(* room for it within the limits of the sections *)
Definition string_room (b : buffer) (cap : Z) : Prop :=
  let m := b_mem b in
  sec_count m 3 + (words_of cap + 3) <= sec_limit m 3 /\
  sec_count m 4 + 1 <= sec_limit m 4 /\ sec_count m 5 + 1 <= sec_limit m 5.

(* the address of object number i *)
Definition place (b : buffer) (i : nat) : Z := obj_begin (b_mem b) (Z.of_nat i).

(* b' is b with the text s in the string object number i *)
Definition new_text (b : buffer) (i : nat) (b' : buffer) (cap : Z) (s : list Z) : Prop :=
  same_history b b' /\ exists o', holds_text o' cap s /\ objects b' = replace (objects b) i o'.

(* operations on strings, and the text after them; the argument is a text *)
Inductive sop := SAssign (src : option (list Z)) | SAppend (src : option (list Z)) | SClear | SSync.
Definition fits (n cap : Z) : bool := n <? cap.
Definition text_after (cap : Z) (s : list Z) (op : sop) : list Z :=
  match op with
  | SAssign (Some t) => if (1 <? cap) && fits (len t) cap then t else s
  | SAppend (Some t) => if fits (len s + len t) cap then s ++ t else s
  | SAssign None | SAppend None | SSync => s
  | SClear => []
  end.
Definition sop_ok (op : sop) : Prop :=
  match op with
  | SAssign (Some t) | SAppend (Some t) => text t /\ len t < 2 ^ 63
  | _ => True
  end.
(* the call *)
Definition do_sop (b : buffer) (i : nat) (op : sop) : option buffer :=
  match op with
  | SAssign src => '(_, m) <- str_assign (b_mem b) (place b i) src ;; Some (with_mem b m)
  | SAppend src => '(_, m) <- str_append (b_mem b) (place b i) src ;; Some (with_mem b m)
  | SClear => m <- str_clear (b_mem b) (place b i) ;; Some (with_mem b m)
  | SSync => m <- str_sync_length (b_mem b) (place b i) ;; Some (with_mem b m)
  end.

(* a sequence of operations on the strings of a buffer; T i: the text of string number i and
   the number of its characters *)
Fixpoint do_sops (b : buffer) (l : list (nat * sop)) : option buffer :=
  match l with [] => Some b | (i, op) :: r => b' <- do_sop b i op ;; do_sops b' r end.
Definition texts := nat -> option (Z * list Z).
Definition text_step (T : texts) (x : nat * sop) : texts := fun k =>
  match T k with
  | Some (cap, s) => if Nat.eqb k (fst x) then Some (cap, text_after cap s (snd x)) else Some (cap, s)
  | None => None
  end.
Definition hold_texts (b : buffer) (T : texts) : Prop :=
  forall i cap s, T i = Some (cap, s) -> cap < 2 ^ 63 /\
    exists o, nth_error (objects b) i = Some o /\ holds_text o cap s.
