(* What an array of elements in a buffer is. *)
From Coq Require Import ZArith List Bool.
From Verif Require Import MBuf MBufSpec MemPool Buffer BufferSpec BufferUser Lines LinesSpec Strings StringsSpec
  BufferArray.
Import ListNotations.
Local Open Scope Z_scope.

(* an element: its bytes *)
Definition element := list Z.
Definition bytes_ok (e : element) : Prop := Forall (fun v => 0 <= v < 256) e.

(* the limits of an array: number of elements, number of bytes, slot size, type *)
Record shape := Shape { sh_max : Z; sh_cap : Z; sh_slot : Z; sh_type : Z }.
Definition shape_ok (s : shape) : Prop :=
  0 <= sh_max s /\ 0 <= sh_cap s /\ 0 <= sh_slot s < 2 ^ 64 /\ 0 <= sh_type s < 2 ^ 64 /\
  sh_cap s + 8 * sh_max s + 128 < 2 ^ 64.

(* all bytes of the elements, one element after the other *)
Definition all_bytes (es : list element) : list Z := concat es.

(* where element number k begins *)
Definition begins (es : list element) (k : nat) : Z := len (all_bytes (firstn k es)).

(* the object o is an array with the limits s that holds the elements es: the bytes of the
   elements one after the other and the list of their begins and ends; what is not used is 0 *)
Definition holds_array (o : Z * list cell) (s : shape) (es : list element) : Prop :=
  shape_ok s /\ len (all_bytes es) <= sh_cap s /\ Z.of_nat (length es) <= sh_max s /\
  Forall bytes_ok es /\
  exists data offs,
    o = (65539, Ptr 56 :: Ptr (56 + 8 * words_of (sh_cap s)) ::
           map Raw ([Z.of_nat (length es); sh_max s; sh_cap s; sh_slot s; sh_type s] ++ data ++ offs)) /\
    words64 data /\ wcount data = words_of (sh_cap s) /\ wcount offs = sh_max s + 1 /\
    (forall j, 0 <= j < sh_cap s -> byte data j = nth (Z.to_nat j) (all_bytes es) 0) /\
    (forall k, (k <= length es)%nat -> nth k offs 0 = begins es k) /\
    (forall k, (length es < k)%nat -> nth k offs 0 = 0).

(* b' is b with array number i holding the elements es *)
Definition new_array (b : buffer) (i : nat) (b' : buffer) (s : shape) (es : list element) : Prop :=
  same_history b b' /\ exists o', holds_array o' s es /\ objects b' = replace (objects b) i o'.

(* the sizes stay below 2^64 when an array is added *)
Definition array_words (s : shape) : Z := words_of (sh_cap s) + (sh_max s + 1) + 7.
Definition array_fits (b : buffer) (s : shape) : Prop :=
  data_size (b_h b) + 8 * (array_words s + 5) + 32 < 2 ^ 64.

(* room for it within the limits of the sections *)
Definition array_room (b : buffer) (s : shape) : Prop :=
  let m := b_mem b in
  sec_count m 3 + array_words s <= sec_limit m 3 /\
  sec_count m 4 + 1 <= sec_limit m 4 /\ sec_count m 5 + 2 <= sec_limit m 5.

(* n bytes of the memory block m, beginning at a *)
Definition bytes_at (m : mem) (a : Z) (l : list Z) : Prop :=
  forall j, 0 <= j < len l -> mem_byte m (a + j) = Some (nth (Z.to_nat j) l 0).

(* what the caller passes for the elements es: their bytes, the begins of the elements and
   the end of the last one; for no elements either no bytes or c zero bytes *)
Definition given (es : list element) (c : Z)
    (data offs : option (buffer -> Z -> option (list Z))) : Prop :=
  match es with
  | [] => data = None \/ exists fd, data = Some fd /\ forall b, fd b c = Some (repeat 0 (Z.to_nat c))
  | _ => exists fd fo, data = Some fd /\ offs = Some fo /\
      (forall b, fo b (Z.of_nat (length es) + 1) = Some (map (begins es) (List.seq 0 (length es + 1)))) /\
      (forall b, fd b (len (all_bytes es)) = Some (all_bytes es))
  end.

(* operations on an array and the elements afterwards *)
Inductive aop := AClear | ARemoveLast.
Definition do_aop (b : buffer) (i : nat) (op : aop) : option buffer :=
  match op with
  | AClear => m <- arr_clear (b_mem b) (place b i) ;; Some (with_mem b m)
  | ARemoveLast => '(_, m) <- arr_remove_last (b_mem b) (place b i) ;; Some (with_mem b m)
  end.
Definition elements_after (es : list element) (op : aop) : list element :=
  match op with AClear => [] | ARemoveLast => removelast es end.

(* a sequence of operations on the arrays of a buffer; T i: limits and elements of array
   number i *)
Fixpoint do_aops (b : buffer) (l : list (nat * aop)) : option buffer :=
  match l with [] => Some b | (i, op) :: r => b' <- do_aop b i op ;; do_aops b' r end.
Definition arrays := nat -> option (shape * list element).
Definition array_step (T : arrays) (x : nat * aop) : arrays := fun k =>
  match T k with
  | Some (s, es) => if Nat.eqb k (fst x) then Some (s, elements_after es (snd x)) else Some (s, es)
  | None => None
  end.
Definition hold_arrays (b : buffer) (T : arrays) : Prop :=
  forall i s es, T i = Some (s, es) -> exists o, nth_error (objects b) i = Some o /\ holds_array o s es.
