(* Theorems for C65: arrays of elements in buffers.  The words used in the statements are
   those of BufferArraySpec.v, StringsSpec.v, BufferUser.v and MBufSpec.v. *)
From Coq Require Import ZArith List Bool Lia.
From Verif Require Import MBuf MBufSpec MemPool Buffer BufferSpec BufferUser BufferProofs BufferAddMem BufferReach BufferProps
  BufferExample Lines LinesSpec Strings StringsSpec StringsProofs BufferArray BufferArraySpec BufferArrayProofs
  BufferArrayOps BufferArrayAdd.
Import ListNotations.
Local Open Scope Z_scope.

Lemma arr_full mx c ty : 0 <= mx -> 0 < c -> full_arrays (arrq mx c ty).
Proof. intros Hm Hc x [<-|[<-|[]]]; unfold attr_bytes; cbn [at_count at_size]; lia. Qed.

(* A new array is added behind the other objects, which are kept; it has the limits asked
   for and no elements, and its address is returned.  With room, or with memory in a buffer
   that was only ever added to, this succeeds; a failed call keeps the objects. *)
Theorem C65_new : forall hp b mx c ty, reachable full_arrays b -> good_heap hp ->
  shape_ok (Shape mx c 8 ty) -> 0 < c -> array_fits b (Shape mx c 8 ty) ->
  exists p b', arr_new hp b mx c ty = Some (p, b') /\
    (p <> 0 -> p = place b' (length (objects b)) /\ reachable full_arrays b' /\
      (added_only b -> added_only b') /\
      exists o, holds_array o (Shape mx c 8 ty) [] /\ objects b' = objects b ++ [o]) /\
    (p = 0 -> objects b' = objects b) /\
    (array_room b (Shape mx c 8 ty) -> p <> 0 /\ data_addr (b_h b') = data_addr (b_h b)) /\
    (added_only b -> memory_up_to hp (data_size (b_h b) + 8 * (array_words (Shape mx c 8 ty) + 5) + 16) -> p <> 0).
Proof.
  intros hp b mx c ty R Hh SO Hc F. pose proof SO as (S1 & _). cbn [sh_max] in S1.
  destruct (arr_new_ok full_arrays hp b mx c ty R Hh SO F (arr_full mx c ty S1 Hc)) as (p & b' & E & H1 & H2 & H3 & H4).
  exists p, b'. split; [exact E|]. split; [|split; [intros Hp; apply H2; [exact Hp|now apply reach_no_end]|auto]].
  intros Hp. destruct (H1 Hp) as (X1 & X2 & X3 & ws & _ & X4 & V). split; [exact X1|]. split; [exact X2|].
  split; [auto|]. exists (arr_obj (words_of c) ws). split; [exact (view_holds _ _ _ V)|exact X4].
Qed.
Print Assumptions C65_new.

(* ... and the same for an array that is added together with its elements. *)
Theorem C65_add : forall hp b data offs s es, reachable full_arrays b -> good_heap hp ->
  shape_ok s -> 0 < sh_cap s -> Z.of_nat (length es) <= sh_max s -> len (all_bytes es) <= sh_cap s ->
  Forall bytes_ok es -> array_fits b s -> given es (sh_cap s) data offs ->
  exists p b', arr_add hp b data offs (Z.of_nat (length es)) (sh_max s) (sh_cap s) (sh_slot s) (sh_type s) = Some (p, b') /\
    (p <> 0 -> p = place b' (length (objects b)) /\ reachable full_arrays b' /\
      (added_only b -> added_only b') /\
      exists o, holds_array o s es /\ objects b' = objects b ++ [o]) /\
    (p = 0 -> objects b' = objects b) /\
    (array_room b s -> p <> 0 /\ data_addr (b_h b') = data_addr (b_h b)) /\
    (added_only b -> memory_up_to hp (data_size (b_h b) + 8 * (array_words s + 5) + 16) -> p <> 0).
Proof.
  intros hp b data offs [mx c sl ty] es R Hh SO Hc Hn Hl Hb F G. pose proof SO as (S1 & _).
  cbn [sh_max sh_cap sh_slot sh_type] in *.
  destruct (arr_add_ok full_arrays hp b data offs mx c sl ty es R Hh SO Hn Hl Hb F (arr_full mx c ty S1 Hc) G)
    as (p & b' & E & H1 & H2 & H3 & H4).
  exists p, b'. split; [exact E|]. split; [|split; [intros Hp; apply H2; [exact Hp|now apply reach_no_end]|auto]].
  intros Hp. destruct (H1 Hp) as (X1 & X2 & X3 & X4). auto.
Qed.
Print Assumptions C65_add.

(* A copy of an array of another buffer has the same limits and the same elements. *)
Theorem C65_copy : forall hp b bs i o s es, reachable any bs -> nth_error (objects bs) i = Some o ->
  holds_array o s es -> reachable full_arrays b -> good_heap hp -> 0 < sh_cap s -> array_fits b s ->
  exists p b', arr_add_copy hp b (b_mem bs) (place bs i) = Some (p, b') /\
    (p <> 0 -> p = place b' (length (objects b)) /\ reachable full_arrays b' /\
      (added_only b -> added_only b') /\
      exists o', holds_array o' s es /\ objects b' = objects b ++ [o']) /\
    (p = 0 -> objects b' = objects b) /\
    (array_room b s -> p <> 0 /\ data_addr (b_h b') = data_addr (b_h b)) /\
    (added_only b -> memory_up_to hp (data_size (b_h b) + 8 * (array_words s + 5) + 16) -> p <> 0).
Proof.
  intros hp b bs i o s es Rs O H R Hh Hc F. pose proof H as ((S1 & _) & _).
  destruct (arr_copy_ok full_arrays hp b bs i o s es R Hh Rs O H F (arr_full _ _ _ S1 Hc)) as (p & b' & E & H1 & H2 & H3 & H4).
  exists p, b'. split; [exact E|]. split; [|split; [intros Hp; apply H2; [exact Hp|now apply reach_no_end]|auto]].
  intros Hp. destruct (H1 Hp) as (X1 & X2 & X3 & X4). auto.
Qed.
Print Assumptions C65_copy.

(* The number of words asked for beforehand is the number an array object takes. *)
Theorem C65_required : forall o s es, holds_array o s es ->
  arr_required_slots (sh_max s) (sh_cap s) = words_in o.
Proof. exact required_ok. Qed.
Print Assumptions C65_required.

(* The calls that read an array give its limits, the number of its elements and of all
   their bytes ... *)
Theorem C65_read : forall b i o s es, reachable any b -> nth_error (objects b) i = Some o -> holds_array o s es ->
  arr_num (b_mem b) (place b i) = Some (Z.of_nat (length es)) /\
  arr_max (b_mem b) (place b i) = Some (sh_max s) /\
  arr_capacity (b_mem b) (place b i) = Some (sh_cap s) /\
  arr_slot (b_mem b) (place b i) = Some (sh_slot s) /\
  arr_type (b_mem b) (place b i) = Some (sh_type s) /\
  arr_length (b_mem b) (place b i) = Some (len (all_bytes es)) /\
  arr_begin (b_mem b) (place b i) = Some (place b i + 56).
Proof. exact fields_ok. Qed.
Print Assumptions C65_read.

(* ... and for every element where it begins and ends, and its bytes are there. *)
Theorem C65_element : forall b i o s es k e, reachable any b -> nth_error (objects b) i = Some o ->
  holds_array o s es -> nth_error es k = Some e ->
  exists a, arr_element_begin (b_mem b) (place b i) (Z.of_nat k) = Some a /\
    arr_element_length (b_mem b) (place b i) (Z.of_nat k) = Some (len e) /\
    arr_element_end (b_mem b) (place b i) (Z.of_nat k) = Some (a + len e) /\
    arr_offset (b_mem b) (place b i) (Z.of_nat k) = Some (begins es k) /\
    a = place b i + 56 + begins es k /\ bytes_at (b_mem b) a e.
Proof. exact element_ok. Qed.
Print Assumptions C65_element.

(* Clearing an array and removing its last element change nothing else. *)
Theorem C65_clear : forall b i o s es, reachable any b -> nth_error (objects b) i = Some o -> holds_array o s es ->
  exists m', arr_clear (b_mem b) (place b i) = Some m' /\ new_array b i (with_mem b m') s [].
Proof. exact arr_clear_ok. Qed.
Print Assumptions C65_clear.

Theorem C65_remove_last : forall b i o s es e, reachable any b -> nth_error (objects b) i = Some o ->
  holds_array o s (es ++ [e]) ->
  exists m', arr_remove_last (b_mem b) (place b i) = Some (true, m') /\ new_array b i (with_mem b m') s es.
Proof. exact remove_last_ok. Qed.
Print Assumptions C65_remove_last.

(* There is nothing to remove from an array without elements. *)
Theorem C65_remove_last_empty : forall b i o s, reachable any b -> nth_error (objects b) i = Some o ->
  holds_array o s [] -> arr_remove_last (b_mem b) (place b i) = Some (false, b_mem b).
Proof. exact remove_last_empty. Qed.
Print Assumptions C65_remove_last_empty.

(* Any sequence of these two operations on any of the arrays of a buffer: afterwards every
   array holds the elements that the operations on it give; all other objects are kept. *)
Theorem C65_history : forall l b T, reachable any b -> hold_arrays b T -> Forall (fun x => T (fst x) <> None) l ->
  exists b', do_aops b l = Some b' /\ same_history b b' /\ hold_arrays b' (fold_left array_step l T) /\
    length (objects b') = length (objects b) /\
    forall k, T k = None -> nth_error (objects b') k = nth_error (objects b) k.
Proof. exact aops_ok. Qed.
Print Assumptions C65_history.

(* Removing several elements: more than there are, or none, is refused; all of them can be
   removed. *)
Theorem C65_remove_none : forall b i o s es k, reachable any b -> nth_error (objects b) i = Some o ->
  holds_array o s es -> k <= 0 \/ Z.of_nat (length es) < k ->
  arr_remove_num (b_mem b) (place b i) k = Some (false, b_mem b).
Proof. exact remove_num_none. Qed.
Print Assumptions C65_remove_none.

Theorem C65_remove_all : forall b i o s es, reachable any b -> nth_error (objects b) i = Some o ->
  holds_array o s es -> es <> [] ->
  exists m', arr_remove_num (b_mem b) (place b i) (Z.of_nat (length es)) = Some (true, m') /\
    new_array b i (with_mem b m') s [].
Proof. exact remove_num_all. Qed.
Print Assumptions C65_remove_all.

(* An element is refused, and nothing changed, if the array has its maximal number of
   elements or if the element, padded to the slot size, does not fit. *)
Theorem C65_append_refused : forall b i o s es src size, reachable any b -> nth_error (objects b) i = Some o ->
  holds_array o s es -> sh_cap s < 2 ^ 62 -> sh_slot s < 2 ^ 62 -> 0 <= size < 2 ^ 62 ->
  (forall l, src = Some l -> bytes_ok l /\ len l = size) ->
  size = 0 \/ sh_slot s = 0 \/ Z.of_nat (length es) = sh_max s \/
    (0 < size /\ 0 < sh_slot s /\ sh_cap s < len (all_bytes es) + padded size (sh_slot s)) ->
  arr_append (b_mem b) (place b i) src size = Some (false, b_mem b).
Proof.
  intros b i o s es src size R O H Hc Ht Hs Hl HF.
  destruct (Z.eq_dec size 0) as [E|E]; [apply (append_nothing b i o s es); auto|].
  destruct (Z.eq_dec (sh_slot s) 0) as [E2|E2]; [apply (append_nothing b i o s es); auto|].
  pose proof H as ((_ & _ & S3 & _) & _).
  apply (append_full b i o s es); auto; try lia.
Qed.
Print Assumptions C65_append_refused.

(* Appending several elements of the same size: if this fails the array is as before; if it
   succeeds there are so many elements more. *)
Theorem C65_append_num : forall b i o s es size k, reachable any b -> nth_error (objects b) i = Some o ->
  holds_array o s es -> sh_cap s < 2 ^ 62 -> 0 < sh_slot s < 2 ^ 62 -> 0 < size < 2 ^ 62 -> 0 <= k < 2 ^ 64 ->
  exists ok m', arr_append_num (b_mem b) (place b i) size k = Some (ok, m') /\
    (ok = false -> new_array b i (with_mem b m') s es) /\
    (ok = true -> arr_num m' (place b i) = Some (Z.of_nat (length es) + k)) /\
    (len (all_bytes es) + padded size (sh_slot s) <= sh_cap s -> Z.of_nat (length es) + k <= sh_max s -> ok = true) /\
    (sh_max s < Z.of_nat (length es) + k -> ok = false).
Proof. exact append_num_ok. Qed.
Print Assumptions C65_append_num.

(* Every element that is accepted goes wrong: its bytes are written over the beginning of
   the first element, its begin is recorded behind its end, and the array has length 0
   afterwards.  Whatever the appended element is taken to be, the array does not hold the
   elements it held before followed by it. *)
Theorem C65_append_refuted : forall b i o s es l, reachable any b -> nth_error (objects b) i = Some o ->
  holds_array o s es -> sh_cap s < 2 ^ 62 -> 0 < sh_slot s < 2 ^ 62 -> bytes_ok l -> 0 < len l ->
  Z.of_nat (length es) < sh_max s -> len (all_bytes es) + padded (len l) (sh_slot s) <= sh_cap s ->
  exists m', arr_append (b_mem b) (place b i) (Some l) (len l) = Some (true, m') /\
    arr_num m' (place b i) = Some (Z.of_nat (length es) + 1) /\
    arr_length m' (place b i) = Some 0 /\
    arr_offset m' (place b i) (Z.of_nat (length es)) = Some (len (all_bytes es) + padded (len l) (sh_slot s)) /\
    bytes_at m' (place b i + 56) l /\
    forall o' es', nth_error (objects (with_mem b m')) i = Some o' -> ~ holds_array o' s (es ++ es').
Proof. exact append_wrong. Qed.
Print Assumptions C65_append_refuted.

(* Removing some but not all elements reports success, but leaves the number of elements as
   it was; the array has length 0 afterwards. *)
Theorem C65_remove_num_refuted : forall b i o s es k, reachable any b -> nth_error (objects b) i = Some o ->
  holds_array o s es -> 0 < k < Z.of_nat (length es) ->
  let n' := (length es - Z.to_nat k)%nat in
  begins es n' + (len (all_bytes es) - begins es (n' - 1)) <= sh_cap s ->
  exists m', arr_remove_num (b_mem b) (place b i) k = Some (true, m') /\
    arr_num m' (place b i) = Some (Z.of_nat (length es)) /\ arr_length m' (place b i) = Some 0.
Proof. exact remove_num_some. Qed.
Print Assumptions C65_remove_num_refuted.

(* ------------------------------------------------------------------ *)
(* Behind the two objects of x2: an array with two elements of 8 bytes, one full with two
   elements of 32 bytes, and an array without elements. *)
Definition src (es : list element) : option (buffer -> Z -> option (list Z)) := Some (fun _ _ => Some (all_bytes es)).
Definition ofs (es : list element) : option (buffer -> Z -> option (list Z)) :=
  Some (fun _ _ => Some (map (begins es) (List.seq 0 (length es + 1)))).
Definition ea : list element := [[1; 2; 3; 4; 5; 6; 7; 8]; [11; 12; 13; 14; 15; 16; 17; 18]].
Definition eb : list element := [repeat 1 32; repeat 2 32].
Definition sa : shape := Shape 8 32 8 7.
Definition sb : shape := Shape 2 64 8 7.
Definition sc : shape := Shape 1 8 8 7.
Definition xa : buffer := snd (get (0, no_buffer) (arr_add (heap_at 65536) x2 (src ea) (ofs ea) 2 8 32 8 7)).
Definition xb : buffer := snd (get (0, no_buffer) (arr_add (heap_at 131072) xa (src eb) (ofs eb) 2 2 64 8 7)).
Definition xc : buffer := snd (get (0, no_buffer) (arr_new (heap_at 262144) xb 1 8 7)).

Lemma src_given e es c : given (e :: es) c (src (e :: es)) (ofs (e :: es)).
Proof. do 2 eexists. split; [reflexivity|]. split; [reflexivity|]. split; intros b; reflexivity. Qed.

Ltac small_bytes := repeat (match goal with |- Forall _ _ => constructor | |- bytes_ok _ => constructor | |- _ <= _ < _ => lia end).
Lemma ea_bytes : Forall bytes_ok ea. Proof. unfold ea. small_bytes. Qed.
Lemma eb_bytes : Forall bytes_ok eb. Proof. unfold eb. cbn [repeat]. small_bytes. Qed.
Lemma sa_ok : shape_ok sa. Proof. unfold shape_ok, sa. cbn [sh_max sh_cap sh_slot sh_type]. lia. Qed.
Lemma sb_ok : shape_ok sb. Proof. unfold shape_ok, sb. cbn [sh_max sh_cap sh_slot sh_type]. lia. Qed.
Lemma sc_ok : shape_ok sc. Proof. unfold shape_ok, sc. cbn [sh_max sh_cap sh_slot sh_type]. lia. Qed.
Lemma x2_full : reachable full_arrays x2. Proof. exact (added_full _ x2_added). Qed.

Lemma xa_ok : reachable full_arrays xa /\ added_only xa /\ exists o, holds_array o sa ea /\ objects xa = objects x2 ++ [o].
Proof.
  assert (E : exists p, arr_add (heap_at 65536) x2 (src ea) (ofs ea) 2 8 32 8 7 = Some (p, xa) /\ p <> 0).
  { eexists. split; [vm_compute; reflexivity|]. discriminate. }
  destruct E as (p & E & Hp).
  destruct (C65_add (heap_at 65536) x2 (src ea) (ofs ea) sa ea x2_full ltac:(good) sa_ok ltac:(reflexivity)
    ltac:(vm_compute; discriminate) ltac:(vm_compute; discriminate) ea_bytes ltac:(vm_compute; reflexivity)
    (src_given _ _ _)) as (p' & b' & E' & H & _).
  assert (X : Some (p', b') = Some (p, xa)) by (rewrite <- E'; exact E).
  assert (p' = p) as -> by congruence. assert (b' = xa) as -> by congruence.
  destruct (H Hp) as (_ & R & A & o). split; [exact R|]. split; [exact (A x2_added)|exact o].
Qed.

Lemma xb_ok : reachable full_arrays xb /\ added_only xb /\ exists o, holds_array o sb eb /\ objects xb = objects xa ++ [o].
Proof.
  assert (E : exists p, arr_add (heap_at 131072) xa (src eb) (ofs eb) 2 2 64 8 7 = Some (p, xb) /\ p <> 0).
  { eexists. split; [vm_compute; reflexivity|]. discriminate. }
  destruct E as (p & E & Hp). destruct xa_ok as (Ra & Aa & _).
  destruct (C65_add (heap_at 131072) xa (src eb) (ofs eb) sb eb Ra ltac:(good) sb_ok ltac:(reflexivity)
    ltac:(vm_compute; discriminate) ltac:(vm_compute; discriminate) eb_bytes ltac:(vm_compute; reflexivity)
    (src_given _ _ _)) as (p' & b' & E' & H & _).
  assert (X : Some (p', b') = Some (p, xb)) by (rewrite <- E'; exact E).
  assert (p' = p) as -> by congruence. assert (b' = xb) as -> by congruence.
  destruct (H Hp) as (_ & R & A & o). split; [exact R|]. split; [exact (A Aa)|exact o].
Qed.

Lemma xc_ok : reachable full_arrays xc /\ added_only xc /\ exists o, holds_array o sc [] /\ objects xc = objects xb ++ [o].
Proof.
  assert (E : exists p, arr_new (heap_at 262144) xb 1 8 7 = Some (p, xc) /\ p <> 0).
  { eexists. split; [vm_compute; reflexivity|]. discriminate. }
  destruct E as (p & E & Hp). destruct xb_ok as (Rb & Ab & _).
  destruct (C65_new (heap_at 262144) xb 1 8 7 Rb ltac:(good) sc_ok ltac:(reflexivity) ltac:(vm_compute; reflexivity))
    as (p' & b' & E' & H & _).
  assert (X : Some (p', b') = Some (p, xc)) by (rewrite <- E'; exact E).
  assert (p' = p) as -> by congruence. assert (b' = xc) as -> by congruence.
  destruct (H Hp) as (_ & R & A & o). split; [exact R|]. split; [exact (A Ab)|exact o].
Qed.

Lemma xc_arrays : reachable any xc /\ (exists o, nth_error (objects xc) 2 = Some o /\ holds_array o sa ea) /\
  (exists o, nth_error (objects xc) 3 = Some o /\ holds_array o sb eb) /\
  exists o, nth_error (objects xc) 4 = Some o /\ holds_array o sc [].
Proof.
  destruct xc_ok as (R & _ & oc & Hc & Ec). destruct xb_ok as (_ & _ & ob & Hb & Eb).
  destruct xa_ok as (_ & _ & oa & Ha & Ea).
  assert (length (objects x2) = 2%nat) as L by (vm_compute; reflexivity).
  rewrite Ec, Eb, Ea, <- !app_assoc. rewrite !nth_error_app2 by lia. rewrite L. cbn [Nat.sub app nth_error].
  split; [eapply reachable_mono; [|exact R]; exact (fun _ _ => Logic.I)|].
  split; [exists oa; auto|]. split; [exists ob; auto|]. exists oc; auto.
Qed.

(* the last element of the first array removed, the second array cleared *)
Example C65_example : exists b', do_aops xc [(2%nat, ARemoveLast); (3%nat, AClear)] = Some b' /\
  (exists o, nth_error (objects b') 2 = Some o /\ holds_array o sa [[1; 2; 3; 4; 5; 6; 7; 8]]) /\
  (exists o, nth_error (objects b') 3 = Some o /\ holds_array o sb []) /\
  nth_error (objects b') 4 = nth_error (objects xc) 4.
Proof.
  destruct xc_arrays as (R & (oa & Oa & Ha) & (ob & Ob & Hb) & _).
  set (T := fun k => if Nat.eqb k 2 then Some (sa, ea) else if Nat.eqb k 3 then Some (sb, eb) else None : option (shape * list element)).
  destruct (C65_history [(2%nat, ARemoveLast); (3%nat, AClear)] xc T R) as (b' & E & _ & HT & L & N).
  - intros i s es. unfold T. destruct (Nat.eqb_spec i 2) as [->|].
    + intros X. assert (s = sa) as -> by congruence. assert (es = ea) as -> by congruence. eauto.
    + destruct (Nat.eqb_spec i 3) as [->|]; [|discriminate].
      intros X. assert (s = sb) as -> by congruence. assert (es = eb) as -> by congruence. eauto.
  - repeat constructor; unfold T; discriminate.
  - exists b'. split; [exact E|]. split; [exact (HT 2%nat sa [[1; 2; 3; 4; 5; 6; 7; 8]] eq_refl)|].
    split; [exact (HT 3%nat sb [] eq_refl)|]. exact (N 4%nat eq_refl).
Qed.

(* the append that goes wrong *)
Example C65_append_example : exists b i o es l, reachable any b /\ nth_error (objects b) i = Some o /\
  holds_array o sa es /\ es <> [] /\ bytes_ok l /\ 0 < len l /\ Z.of_nat (length es) < sh_max sa /\
  len (all_bytes es) + padded (len l) (sh_slot sa) <= sh_cap sa.
Proof.
  destruct xc_arrays as (R & (oa & Oa & Ha) & _). exists xc, 2%nat, oa, ea, [9].
  split; [exact R|]. split; [exact Oa|]. split; [exact Ha|]. split; [discriminate|]. split; [small_bytes|].
  split; [reflexivity|]. split; [reflexivity|]. vm_compute. discriminate.
Qed.

(* More elements than fit into the array are appended with success. *)
Theorem C65_append_num_refuted : exists b i o s es size k m', reachable any b /\
  nth_error (objects b) i = Some o /\ holds_array o s es /\
  sh_cap s < len (all_bytes es) + k * padded size (sh_slot s) /\
  arr_append_num (b_mem b) (place b i) size k = Some (true, m').
Proof.
  destruct xc_arrays as (R & (oa & Oa & Ha) & _).
  destruct (C65_append_num xc 2 oa sa ea 8 6 R Oa Ha) as (ok & m' & E & _ & _ & T & _); try (cbn [sa sh_cap sh_slot]; lia).
  exists xc, 2%nat, oa, sa, ea, 8, 6, m'. split; [exact R|]. split; [exact Oa|]. split; [exact Ha|].
  split; [vm_compute; reflexivity|]. rewrite E, T; [reflexivity|vm_compute; discriminate|vm_compute; discriminate].
Qed.
Print Assumptions C65_append_num_refuted.

(* Removing the last one of two elements from a full array overwrites the object that
   follows it in the buffer. *)
Theorem C65_remove_num_spill_refuted : exists b i o s es m', reachable any b /\
  nth_error (objects b) i = Some o /\ holds_array o s es /\ length es = 2%nat /\
  arr_remove_num (b_mem b) (place b i) 1 = Some (true, m') /\
  rd (b_mem b) (place b (S i)) <> rd m' (place b (S i)).
Proof.
  destruct xc_arrays as (R & _ & (ob & Ob & Hb) & _). exists xc, 3%nat, ob, sb, eb.
  assert (G : exists m', arr_remove_num (b_mem xc) (place xc 3) 1 = Some (true, m') /\ rd m' (place xc 4) = Some 0).
  { assert (X : match arr_remove_num (b_mem xc) (place xc 3) 1 with Some (true, m) => rd m (place xc 4) | _ => None end = Some 0)
      by (vm_compute; reflexivity).
    destruct (arr_remove_num (b_mem xc) (place xc 3) 1) as [([|], m)|]; [|discriminate X|discriminate X]. exists m. auto. }
  destruct G as (m' & G1 & G2). exists m'. split; [exact R|]. split; [exact Ob|]. split; [exact Hb|].
  split; [reflexivity|]. split; [exact G1|]. rewrite G2. vm_compute. discriminate.
Qed.
Print Assumptions C65_remove_num_spill_refuted.
