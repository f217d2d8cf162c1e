(* Theorems for C56: texts in buffers.  The words used in the statements are those of
   StringsSpec.v, BufferUser.v and MBufSpec.v. *)
From Coq Require Import ZArith List Bool Lia.
From Verif Require Import MBuf MBufSpec MemPool Buffer BufferSpec BufferUser BufferProofs BufferAddMem BufferReach BufferProps
  BufferExample Lines LinesSpec Strings StringsSpec StringsProofs.
Import ListNotations.
Local Open Scope Z_scope.

(* A string (a null pointer standing for the empty text) that has at most max characters is
   added behind the other objects, which are kept; the address of the new string object is
   returned.  With room, or with memory in a buffer that was only ever added to, this
   succeeds; a failed call keeps the objects. *)
Theorem C56_add : forall hp b src max, reachable full_arrays b -> good_heap hp -> text (text_of src) ->
  0 <= max -> len (text_of src) <= max -> max + 1 < 2 ^ 64 -> string_fits b (max + 1) ->
  exists p b', str_add hp b src max = Some (p, b') /\
    (p <> 0 -> p = place b' (length (objects b)) /\ reachable full_arrays b' /\
      (added_only b -> added_only b') /\
      exists o, holds_text o (max + 1) (text_of src) /\ objects b' = objects b ++ [o]) /\
    (p = 0 -> objects b' = objects b) /\
    (string_room b (max + 1) -> p <> 0 /\ data_addr (b_h b') = data_addr (b_h b)) /\
    (added_only b -> memory_up_to hp (data_size (b_h b) + 8 * (words_of (max + 1) + 7) + 16) -> p <> 0).
Proof.
  intros hp b src max R Hh T Hm Hl H64 F.
  destruct (str_add_ok full_arrays hp b src max R Hh T Hm Hl H64 F) as (p & b' & E & H1 & H2 & H3 & H4).
  { intros x [<-|[]]. unfold attr_bytes. cbn [at_count at_size]. lia. }
  exists p, b'. split; [exact E|]. split; [exact H1|]. split; [|auto].
  intros Hp. apply H2; [exact Hp|]. now apply reach_no_end.
Qed.
Print Assumptions C56_add.

(* Without a length the string gets as much space as its characters need. *)
Theorem C56_new_from : forall hp b src, reachable full_arrays b -> good_heap hp -> text (text_of src) ->
  len (text_of src) + 1 < 2 ^ 64 -> string_fits b (len (text_of src) + 1) ->
  exists p b', str_new_from_cstring hp b src = Some (p, b') /\
    (p <> 0 -> p = place b' (length (objects b)) /\ reachable full_arrays b' /\
      exists o, holds_text o (len (text_of src) + 1) (text_of src) /\ objects b' = objects b ++ [o]) /\
    (p = 0 -> objects b' = objects b) /\
    (string_room b (len (text_of src) + 1) -> p <> 0).
Proof.
  intros hp b src R Hh T H64 F.
  destruct (C56_add hp b src (len (text_of src)) R Hh T) as (p & b' & E & H1 & H2 & H3 & _); auto;
    try (unfold len; lia).
  exists p, b'. split.
  - rewrite <- E. unfold str_new_from_cstring. destruct src; reflexivity.
  - split; [|split; [exact H2|]]. + intros Hp. destruct (H1 Hp) as (X1 & X2 & _ & X3). auto.
    + intros Hr. apply (H3 Hr).
Qed.
Print Assumptions C56_new_from.

(* The number of words asked for beforehand is the number a string object takes. *)
Theorem C56_required : forall o max s, 0 <= max -> max + 40 < 2 ^ 64 -> holds_text o (max + 1) s ->
  str_required_slots max = words_in o.
Proof.
  intros o max s Hm H64 (ws & -> & _ & L & _). unfold words_in. cbn [snd length]. rewrite map_length.
  unfold wcount in L. unfold str_required_slots. change (slot_based 24) with 24. unfold u64.
  rewrite (Z.mod_small (max + 1)) by lia.
  pose proof (words_of_bounds (max + 1) ltac:(lia)). rewrite slot_based_ok by lia.
  rewrite Z.mod_small by lia. rewrite Z.add_comm. change 24 with (3 * 8) at 1.
  rewrite (Z.mul_comm 8), Z.div_add, Z.div_mul by lia. lia.
Qed.
Print Assumptions C56_required.

(* A text that is longer than the characters reserved for it is refused. *)
Theorem C56_add_long : forall hp b s max, 0 <= max -> max + 1 < len s -> max + 1 < 2 ^ 64 ->
  str_add hp b (Some s) max = Some (0, b).
Proof. exact str_add_long. Qed.
Print Assumptions C56_add_long.

(* The string is where the object says, followed by 0; its length, the length it can grow to
   and what is left. *)
Theorem C56_read : forall b i o cap s, reachable any b -> nth_error (objects b) i = Some o ->
  holds_text o cap s ->
  str_begin (b_mem b) (place b i) = Some (place b i + 24) /\
  (forall j, 0 <= j < cap -> mem_byte (b_mem b) (place b i + 24 + j) = Some (nth (Z.to_nat j) s 0)) /\
  strlen (b_mem b) (place b i + 24) = Some (len s) /\
  str_length (b_mem b) (place b i) = Some (len s) /\
  str_max_length (b_mem b) (place b i) = Some (cap - 1) /\
  str_available (b_mem b) (place b i) = Some (cap - 1 - len s) /\
  str_capacity (b_mem b) (place b i) = Some cap.
Proof.
  intros b i o cap s R O H. destruct (read_text b i o cap s R O H) as (E1 & E2 & E3).
  destruct (lengths_ok b i o cap s R O H) as (E4 & E5 & E6 & E7). auto 10.
Qed.
Print Assumptions C56_read.

(* Assigning a text replaces the text and nothing else, if it fits. *)
Theorem C56_assign : forall b i o cap s t, reachable any b -> nth_error (objects b) i = Some o ->
  holds_text o cap s -> text t -> 1 < cap -> len t < cap ->
  exists m', str_assign (b_mem b) (place b i) (Some t) = Some (place b i + 24, m') /\
    new_text b i (with_mem b m') cap t.
Proof. exact assign_ok. Qed.
Print Assumptions C56_assign.

(* ... otherwise the result is a null pointer and nothing changes. *)
Theorem C56_assign_no : forall b i o cap s src, reachable any b -> nth_error (objects b) i = Some o ->
  holds_text o cap s -> (forall t, src = Some t -> cap <= Z.max 1 (len t)) ->
  str_assign (b_mem b) (place b i) src = Some (0, b_mem b).
Proof. exact assign_no. Qed.
Print Assumptions C56_assign_no.

Theorem C56_append : forall b i o cap s t, reachable any b -> nth_error (objects b) i = Some o ->
  holds_text o cap s -> text t -> len s + len t < cap ->
  exists m', str_append (b_mem b) (place b i) (Some t) = Some (place b i + 24, m') /\
    new_text b i (with_mem b m') cap (s ++ t).
Proof. exact append_ok. Qed.
Print Assumptions C56_append.

Theorem C56_append_no : forall b i o cap s src, reachable any b -> nth_error (objects b) i = Some o ->
  holds_text o cap s -> (forall t, src = Some t -> cap <= len s + len t < 2 ^ 64) ->
  str_append (b_mem b) (place b i) src = Some (0, b_mem b).
Proof. exact append_no. Qed.
Print Assumptions C56_append_no.

Theorem C56_clear : forall b i o cap s, reachable any b -> nth_error (objects b) i = Some o ->
  holds_text o cap s ->
  exists m', str_clear (b_mem b) (place b i) = Some m' /\ new_text b i (with_mem b m') cap [].
Proof. exact clear_ok. Qed.
Print Assumptions C56_clear.

(* After the characters were written directly (whatever length l is stored), sync_length
   finds the length of the text. *)
Theorem C56_sync : forall b i l cap ws s, reachable any b ->
  nth_error (objects b) i = Some (65538, Ptr 24 :: Raw l :: Raw cap :: map Raw ws) -> words64 ws ->
  wcount ws = words_of cap -> cap < 2 ^ 64 -> text s -> len s < cap ->
  (forall j, 0 <= j <= len s -> byte ws j = nth (Z.to_nat j) s 0) ->
  exists m', str_sync_length (b_mem b) (place b i) = Some m' /\ same_history b (with_mem b m') /\
    objects (with_mem b m') =
      replace (objects b) i (65538, Ptr 24 :: Raw (len s) :: Raw cap :: map Raw ws).
Proof. intros b i l cap ws s R O W. apply (sync_ok b i l cap ws s). split; [exact R|split; [exact O|exact W]]. Qed.
Print Assumptions C56_sync.

(* Any sequence of these operations on any of the strings of a buffer: afterwards every
   string holds the text that the operations on it give, and all other objects are kept. *)
Theorem C56_history : forall l b T, reachable any b -> hold_texts b T ->
  Forall (fun x => sop_ok (snd x) /\ T (fst x) <> None) l ->
  exists b', do_sops b l = Some b' /\ same_history b b' /\ hold_texts b' (fold_left text_step l T) /\
    length (objects b') = length (objects b) /\
    forall k, T k = None -> nth_error (objects b') k = nth_error (objects b) k.
Proof. exact sops_ok. Qed.
Print Assumptions C56_history.

(* A copy of a string of another buffer holds the same text; it has room for one more
   character. *)
Theorem C56_copy : forall hp b bs i o cap s, reachable any bs -> nth_error (objects bs) i = Some o ->
  holds_text o cap s -> reachable full_arrays b -> good_heap hp -> cap + 1 < 2 ^ 64 ->
  string_fits b (cap + 1) ->
  exists p b', str_add_copy hp b (b_mem bs) (place bs i) = Some (p, b') /\
    (p <> 0 -> p = place b' (length (objects b)) /\ reachable full_arrays b' /\
      exists o', holds_text o' (cap + 1) s /\ objects b' = objects b ++ [o']) /\
    (p = 0 -> objects b' = objects b).
Proof.
  intros hp b bs i o cap s Rs O H R Hh H64 F. rewrite (copy_eq hp b bs i o cap s Rs O H).
  assert (HL : text s /\ 0 <= len s < cap).
  { destruct H as (ws & _ & _ & _ & _ & T & L & _). split; [exact T|]. unfold len in *. lia. }
  destruct HL as (T & L).
  destruct (C56_add hp b (Some s) cap R Hh T ltac:(lia) ltac:(cbn [text_of]; lia) H64 F)
    as (p & b' & E & H1 & H2 & _).
  exists p, b'. split; [exact E|]. split; [|exact H2]. intros Hp. destruct (H1 Hp) as (A & B & _ & C). auto.
Qed.
Print Assumptions C56_copy.

(* ------------------------------------------------------------------ *)
(* The text "hello" in 11 characters behind the two objects of x2, changed to "hello you". *)
Definition s1 : list Z := [104; 101; 108; 108; 111].
Definition xt : buffer := snd (get (0, no_buffer) (str_add (heap_at 65536) x2 (Some s1) 10)).

Lemma s1_text : text s1. Proof. repeat constructor. Qed.
Lemma x2_full : reachable full_arrays x2. Proof. exact (added_full _ x2_added). Qed.

Lemma xt_ok : exists p, str_add (heap_at 65536) x2 (Some s1) 10 = Some (p, xt) /\ p <> 0 /\
  reachable any xt /\ added_only xt /\ exists o, holds_text o 11 s1 /\ objects xt = objects x2 ++ [o].
Proof.
  assert (E : exists p, str_add (heap_at 65536) x2 (Some s1) 10 = Some (p, xt) /\ p <> 0).
  { eexists. split; [vm_compute; reflexivity|]. discriminate. }
  destruct E as (p & E & Hp).
  destruct (C56_add (heap_at 65536) x2 (Some s1) 10 x2_full ltac:(good) s1_text ltac:(lia)
    ltac:(vm_compute; discriminate) ltac:(lia) ltac:(vm_compute; reflexivity)) as (p' & b' & E' & H & _).
  rewrite E in E'. assert (p' = p) as -> by congruence. assert (b' = xt) as -> by congruence.
  destruct (H Hp) as (_ & R & A & o). exists p. split; [exact E|]. split; [exact Hp|]. split; [|split; [|exact o]].
  - eapply reachable_mono; [|exact R]. exact (fun _ _ => Logic.I).
  - exact (A x2_added).
Qed.

Example C56_example : exists b', do_sops xt [(2%nat, SAppend (Some [32; 121; 111; 117]))] = Some b' /\
  exists o, nth_error (objects b') 2 = Some o /\ holds_text o 11 (s1 ++ [32; 121; 111; 117]) /\
    nth_error (objects b') 1 = nth_error (objects x2) 1.
Proof.
  destruct xt_ok as (p & _ & _ & R & _ & o & H & Eo).
  set (T := fun k => if Nat.eqb k 2 then Some (11, s1) else None : option (Z * list Z)).
  destruct (C56_history [(2%nat, SAppend (Some [32; 121; 111; 117]))] xt T R) as (b' & E & _ & HT & L & N).
  - intros i cap s. unfold T. destruct (Nat.eqb_spec i 2) as [->|]; [|discriminate]. intros X.
    assert (cap = 11) as -> by congruence. assert (s = s1) as -> by congruence. split; [lia|].
    exists o. split; [|exact H]. rewrite Eo. assert (length (objects x2) = 2%nat) as L by (vm_compute; reflexivity).
    rewrite nth_error_app2 by lia. rewrite L. reflexivity.
  - repeat constructor; try lia. unfold T. discriminate.
  - exists b'. split; [exact E|]. destruct (HT 2%nat 11 (s1 ++ [32; 121; 111; 117]) eq_refl) as (_ & o' & O' & H').
    exists o'. split; [exact O'|]. split; [exact H'|].
    rewrite (N 1%nat eq_refl), Eo. assert (length (objects x2) = 2%nat) as L2 by (vm_compute; reflexivity).
    now rewrite nth_error_app1 by lia.
Qed.

(* ------------------------------------------------------------------ *)
(* A text with exactly max + 1 characters is accepted by add, but there is no place for the
   terminating 0: the length is reported as 0 and reading the C string runs into what
   follows the object. *)
Theorem C56_add_refuted : exists hp b s max p b', reachable full_arrays b /\ good_heap hp /\ text s /\
  0 <= max < len s /\ str_add hp b (Some s) max = Some (p, b') /\ p <> 0 /\
  str_length (b_mem b') p = Some 0 /\ strlen (b_mem b') (p + 24) <> Some (len s).
Proof.
  exists (heap_at 65536), x2, [49; 50; 51; 52; 53; 54; 55; 56], 7. eexists. eexists.
  split; [exact x2_full|]. split; [good|]. split; [repeat constructor|].
  split; [split; [lia|vm_compute; reflexivity]|]. split; [vm_compute; reflexivity|].
  split; [discriminate|]. split; [vm_compute; reflexivity|]. vm_compute. discriminate.
Qed.
Print Assumptions C56_add_refuted.

(* A copy does not have the capacity of the original. *)
Theorem C56_copy_refuted : exists hp b bs i o cap s p b' c, reachable any bs /\
  nth_error (objects bs) i = Some o /\ holds_text o cap s /\ reachable full_arrays b /\ good_heap hp /\
  str_add_copy hp b (b_mem bs) (place bs i) = Some (p, b') /\ p <> 0 /\
  str_capacity (b_mem b') p = Some c /\ c <> cap.
Proof.
  destruct xt_ok as (p0 & _ & _ & R & _ & o & H & Eo).
  exists (heap_at 131072), x2, xt, 2%nat, o, 11, s1.
  assert (G : exists p b', str_add_copy (heap_at 131072) x2 (b_mem xt) (place xt 2) = Some (p, b') /\ p <> 0 /\
    str_capacity (b_mem b') p = Some 12).
  { eexists. eexists. split; [vm_compute; reflexivity|]. split; [discriminate|vm_compute; reflexivity]. }
  destruct G as (p & b' & G1 & G2 & G3). exists p, b', 12. split; [exact R|].
  split. { rewrite Eo. assert (length (objects x2) = 2%nat) as L by (vm_compute; reflexivity).
    rewrite nth_error_app2 by lia. rewrite L. reflexivity. }
  split; [exact H|]. split; [exact x2_full|]. split; [good|]. split; [exact G1|]. split; [exact G2|].
  split; [exact G3|]. lia.
Qed.
Print Assumptions C56_copy_refuted.

(* Copying a string inside its own buffer reads freed memory when the buffer has to grow. *)
Theorem C56_copy_same_refuted : exists hp b i o cap s, reachable any b /\ good_heap hp /\ added_only b /\
  nth_error (objects b) i = Some o /\ holds_text o cap s /\ string_fits b (cap + 1) /\
  memory_up_to hp 100000 /\ str_add_copy_same hp b (place b i) = None.
Proof.
  destruct xt_ok as (p0 & _ & _ & R & A & o & H & Eo).
  exists (heap_at 131072), xt, 2%nat, o, 11, s1. split; [exact R|]. split; [good|]. split; [exact A|].
  split. { rewrite Eo. assert (length (objects x2) = 2%nat) as L by (vm_compute; reflexivity).
    rewrite nth_error_app2 by lia. rewrite L. reflexivity. }
  split; [exact H|]. split; [vm_compute; reflexivity|]. split; [apply heap_at_memory; lia|].
  vm_compute. reflexivity.
Qed.
Print Assumptions C56_copy_same_refuted.
