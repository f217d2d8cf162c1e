(* Theorems for C01-C09: buffers.  The words used in the statements are those of
   BufferUser.v, BufferSpec.v and MBufSpec.v; the concrete buffers x0..x3 are those of
   BufferExample.v. *)
From Coq Require Import ZArith List Bool Lia.
From Verif Require Import MBuf MBufSpec MemPool Buffer BufferSpec BufferUser BufferReach BufferProps BufferAdded
  BufferExample.
Import ListNotations.
Local Open Scope Z_scope.

(* ------------------------------------------------------------------ *)
(* C01: a successful addition puts the object at the end of the list of objects and keeps
   all others: types, sizes, words and what the pointers lead to. *)
Theorem C01_add : forall hp b q r b', reachable any b -> good_heap hp -> request_ok b q ->
  add hp b q = Some (r, b') -> r <> 0 ->
  exists o, stored_as q o /\ objects b' = objects b ++ [o].
Proof. exact add_one. Qed.
Print Assumptions C01_add.

(* Any history of additions, reserves, refreshes, remaps, copies and file round trips. *)
Theorem C01_history : forall b l b', reachable any b -> additions b l b' ->
  exists os, Forall2 stored_as l os /\ objects b' = objects b ++ os.
Proof. exact add_many. Qed.
Print Assumptions C01_history.

(* In full: whatever sequence of additions, writes to words of objects and removals of all
   objects, mixed with operations that keep the objects (reserve, refresh, remap, copy, file
   round trips), the buffer holds the list of objects that this sequence should give. *)
Theorem C01_performs : forall b l b', reachable any b -> performs b l b' ->
  effects (objects b) l (objects b').
Proof. intros b l b' H P. exact (proj2 (performs_ok b l b' H P)). Qed.
Print Assumptions C01_performs.

(* Writing a word of an object through its address changes this word only. *)
Theorem C01_write : forall b i k v t cells w, reachable any b ->
  nth_error (objects b) i = Some (t, cells) -> nth_error cells k = Some (Raw w) -> 0 <= v < 2 ^ 64 ->
  exists b', writes b i k v b' /\ objects b' = replace (objects b) i (t, replace cells k (Raw v)).
Proof.
  intros b i k v t cells w H Ho Hc Hv. destruct (write_defined b i k v t cells w H Ho Hc Hv) as (b' & W).
  exists b'. split; [exact W|]. destruct (write_one b i k v b' H W) as (t' & cells' & N & ->).
  rewrite Ho in N. assert (t' = t) as -> by congruence. assert (cells' = cells) as -> by congruence. reflexivity.
Qed.
Print Assumptions C01_write.

(* The call never touches memory it should not touch. *)
Theorem C01_defined : forall hp b q, reachable any b -> good_heap hp -> request_ok b q ->
  exists r b', add hp b q = Some (r, b').
Proof. exact add_defined. Qed.
Print Assumptions C01_defined.

(* With room for the object the addition succeeds and the buffer stays where it is. *)
Theorem C01_room : forall hp b q, reachable any b -> good_heap hp -> request_ok b q ->
  has_room b q ->
  exists r b', add hp b q = Some (r, b') /\ r <> 0 /\ data_addr (b_h b') = data_addr (b_h b).
Proof. exact add_with_room. Qed.
Print Assumptions C01_room.

(* A buffer that was only ever added to takes every further object while memory lasts. *)
Theorem C01_grows : forall hp b q, added_only b -> good_heap hp ->
  memory_up_to hp (data_size (b_h b) +
    8 * (object_words (rq_size q) (rq_attrs q) + 3 + Z.of_nat (length (rq_attrs q))) + 16) ->
  request_ok b q -> exists r b', add hp b q = Some (r, b') /\ r <> 0.
Proof. exact add_fresh. Qed.
Print Assumptions C01_grows.

(* The value returned is the entry of the new object. *)
Theorem C01_returns : forall hp b q r b', reachable any b -> good_heap hp -> request_ok b q ->
  add hp b q = Some (r, b') -> r <> 0 ->
  buf_get_object b' (Z.of_nat (length (objects b))) = Some r.
Proof. exact add_returns. Qed.
Print Assumptions C01_returns.

Example C01_example : reachable any x2 /\ additions x0 [q1; q2] x2 /\
  map (fun o => (fst o, length (snd o))) (objects x2) = [(7, 4%nat); (9, 4%nat)].
Proof.
  split; [exact (added_any _ x2_added)|]. split; [|vm_compute; reflexivity].
  destruct x1_add as (r1 & H1 & E1), x2_add as (r2 & H2 & E2).
  apply (a_add x0 [q1] x1 (heap_at 16384) q2 r2); [|good| |assumption|assumption].
  - apply (a_add x0 [] x0 (heap_at 8192) q1 r1); [constructor|good| |assumption|assumption].
    apply q1_ok. vm_compute. reflexivity.
  - split; [exact q2_call|vm_compute; reflexivity].
Qed.
Example C01_write_example : exists b', writes x2 1 0 77 b' /\
  map (fun o => nth_error (snd o) 0) (objects b') = [nth_error (snd (nth 0 (objects x2) (0, []))) 0; Some (Raw 77)] /\
  performs x0 [DoAdd q1; DoAdd q2; DoWrite 1 0 77] b'.
Proof.
  assert (W : exists b', writes x2 1 0 77 b' /\
    map (fun o => nth_error (snd o) 0) (objects b') = [nth_error (snd (nth 0 (objects x2) (0, []))) 0; Some (Raw 77)]).
  { eexists. split; [eapply w_word; [vm_compute; reflexivity|vm_compute; reflexivity|split; [discriminate|reflexivity]|vm_compute; reflexivity]|].
    vm_compute. reflexivity. }
  destruct W as (b' & W & E). exists b'. split; [exact W|]. split; [exact E|].
  apply (p_write x0 [DoAdd q1; DoAdd q2] x2); [|exact W].
  destruct x1_add as (r1 & H1 & E1), x2_add as (r2 & H2 & E2).
  apply (p_add x0 [DoAdd q1] x1 (heap_at 16384) q2 r2); [|good| |assumption|assumption].
  - apply (p_add x0 [] x0 (heap_at 8192) q1 r1); [constructor|good| |assumption|assumption].
    apply q1_ok. vm_compute. reflexivity.
  - split; [exact q2_call|vm_compute; reflexivity].
Qed.
Example C01_grows_example : exists r b', add (heap_at 65536) x2 q1 = Some (r, b') /\ r <> 0.
Proof.
  apply C01_grows; [exact x2_added|good| |apply q1_ok; vm_compute; reflexivity].
  apply heap_at_memory; [lia|vm_compute; reflexivity].
Qed.
Example C01_room_example : reachable any (reserved (heap_at 65536) x2 4 40 4 0) /\
  has_room (reserved (heap_at 65536) x2 4 40 4 0) q1.
Proof.
  split; [|vm_compute; repeat split; discriminate].
  apply (r_keep _ x2); [exact (added_any _ x2_added)|].
  apply (k_reserve (heap_at 65536) _ 4 40 4 0); [good| |vm_compute; reflexivity].
  repeat split; try lia; reflexivity.
Qed.

(* Not every addition succeeds although there is memory: when more slots but no entries
   were reserved, the limits cannot be rearranged. *)
Theorem C01_reserved_refuted : exists b hp q b', reachable any b /\ good_heap hp /\
  request_ok b q /\ full_arrays q /\ memory_up_to hp 1000000 /\ add hp b q = Some (0, b').
Proof.
  exists xr, (heap_at 65536), q1. eexists. split; [exact xr_reach|]. split; [good|].
  split; [apply q1_ok; vm_compute; reflexivity|]. split; [exact q1_full|].
  split; [apply heap_at_memory; lia|]. vm_compute. reflexivity.
Qed.

(* ------------------------------------------------------------------ *)
(* C02: the bytes of the buffer at any other address (m'), remapped there. *)
Theorem C02_remap : forall b m', reachable full_arrays b -> copy_of (b_mem b) m' ->
  0 < mbase m' -> mbase m' mod 8 = 0 -> mbase m' + data_size (b_h b) < 2 ^ 64 ->
  exists m'', mb_remap m' (mbase m') = Some (true, m'') /\
    content m'' = objects b /\ layout_ok m'' /\ stored_base m'' = mbase m' /\
    mbase m'' = mbase m' /\ length (mwords m'') = length (mwords m') /\
    (forall i, data_size (b_h b) <= 8 * i -> word m'' i = word m' i).
Proof.
  intros b m' H C P1 P2 P3.
  destruct (remap_copy b m' (reachable_mono _ _ b (fun _ _ => I) H) C P1 P2 P3)
    as (t & m'' & E & T & K & X & Y & Z). exists m''.
  assert (t = true) as -> by (apply T; right; now apply reach_no_end).
  destruct (K eq_refl) as (K1 & K2 & K3 & _). auto 8.
Qed.
Print Assumptions C02_remap.

(* In full, with empty arrays: exactly when no pointer leads to the end of the used slots. *)
Theorem C02_remap_iff : forall b m', reachable any b -> copy_of (b_mem b) m' ->
  0 < mbase m' -> mbase m' mod 8 = 0 -> mbase m' + data_size (b_h b) < 2 ^ 64 ->
  exists t m'', mb_remap m' (mbase m') = Some (t, m'') /\
    (t = true <-> mbase m' = data_addr (b_h b) \/ no_end_pointer (b_mem b)) /\
    (t = true -> content m'' = objects b /\ layout_ok m'' /\ stored_base m'' = mbase m').
Proof.
  intros b m' H C P1 P2 P3. destruct (remap_copy b m' H C P1 P2 P3) as (t & m'' & E & T & K & _).
  exists t, m''. split; [exact E|]. split; [exact T|]. intros ->.
  destruct (K eq_refl) as (K1 & K2 & K3 & _). auto.
Qed.
Print Assumptions C02_remap_iff.

(* The copy of a buffer has the same objects. *)
Theorem C02_copy : forall hp pa b, reachable any b -> no_end_pointer (b_mem b) -> good_heap hp ->
  pa <> 0 -> data_capacity (b_h b) + 64 < 2 ^ 64 ->
  memory_up_to hp (Z.max (data_capacity (b_h b)) 128 + 16) ->
  exists b', buf_new_from_copy hp pa b = Some (Some b') /\ objects b' = objects b /\
    reachable any b'.
Proof. exact copy_ok. Qed.
Print Assumptions C02_copy.

Example C02_example : reachable full_arrays x2 /\ copy_of (b_mem x2) (Mem 1600 (mwords (b_mem x2))) /\
  exists m'', mb_remap (Mem 1600 (mwords (b_mem x2))) 1600 = Some (true, m'') /\
    mwords m'' <> mwords (b_mem x2) /\ content m'' = objects x2.
Proof.
  split; [exact (added_full _ x2_added)|]. split.
  { split; [reflexivity|]. vm_compute. discriminate. }
  eexists. split; [vm_compute; reflexivity|]. split; [vm_compute; discriminate|].
  vm_compute. reflexivity.
Qed.

(* A buffer whose last object ends with an empty array can not be copied or remapped. *)
Theorem C02_empty_array_refuted : exists b hp, reachable any b /\ good_heap hp /\
  memory_up_to hp 1000000 /\ buf_new_from_copy hp 64 b = Some None /\
  (exists m'', mb_remap (Mem 65536 (mwords (b_mem b))) 65536 = Some (false, m'')).
Proof.
  exists x3, (heap_at 65536). split; [exact x3_reach|]. split; [good|].
  split; [apply heap_at_memory; lia|]. split; [vm_compute; reflexivity|].
  eexists. vm_compute. reflexivity.
Qed.

(* ------------------------------------------------------------------ *)
(* C03 *)
Theorem C03_at_place : forall b, reachable any b ->
  mb_remap (b_mem b) (data_addr (b_h b)) = Some (true, b_mem b) /\
  buf_remap b = Some (true, b) /\
  needs_remapping (b_mem b) (data_addr (b_h b)) = Some false.
Proof. exact remap_self. Qed.
Print Assumptions C03_at_place.

Theorem C03_twice : forall b m' m'', reachable any b -> copy_of (b_mem b) m' ->
  0 < mbase m' -> mbase m' mod 8 = 0 -> mbase m' + data_size (b_h b) < 2 ^ 64 ->
  mb_remap m' (mbase m') = Some (true, m'') ->
  needs_remapping m'' (mbase m') = Some false /\ mb_remap m'' (mbase m') = Some (true, m'').
Proof.
  intros b m' m'' H C P1 P2 P3 E.
  destruct (remap_copy b m' H C P1 P2 P3) as (t & m2 & E2 & _ & K & _).
  rewrite E in E2. assert (t = true) as -> by congruence. assert (m2 = m'') as -> by congruence.
  apply (K eq_refl).
Qed.
Print Assumptions C03_twice.

Example C03_example : reachable any x3 /\ buf_remap x3 = Some (true, x3).
Proof. split; [exact x3_reach|]. apply C03_at_place. exact x3_reach. Qed.

(* ------------------------------------------------------------------ *)
(* C04: a successful reserve keeps the objects and sets the limits as requested.  *)
Theorem C04_reserve : forall hp b no ns nd ng b', reachable any b -> good_heap hp ->
  limits_ok no ns nd ng -> buf_reserve hp b no ns nd ng = Some (true, b') ->
  objects b' = objects b /\ counts (b_mem b') = counts (b_mem b) /\
  limits (b_mem b') = [ns; no; nd; ng] /\ layout_ok (b_mem b').
Proof. exact reserve_done. Qed.
Print Assumptions C04_reserve.

Theorem C04_defined : forall hp b no ns nd ng, reachable any b -> good_heap hp ->
  limits_ok no ns nd ng -> exists r b', buf_reserve hp b no ns nd ng = Some (r, b').
Proof. exact reserve_defined. Qed.
Print Assumptions C04_defined.

(* A request that raises limits succeeds while memory lasts. *)
Theorem C04_grows : forall hp b no ns nd ng, reachable any b -> good_heap hp ->
  limits_ok no ns nd ng ->
  Forall2 Z.le (limits (b_mem b)) [ns; no; nd; ng] -> limits (b_mem b) <> [ns; no; nd; ng] ->
  no_end_pointer (b_mem b) -> memory_up_to hp (length_for no ns nd ng + 16) ->
  exists b', buf_reserve hp b no ns nd ng = Some (true, b').
Proof. exact reserve_grows. Qed.
Print Assumptions C04_grows.

Example C04_example : reachable any x2 /\ limits_ok 2 9 2 0 /\
  limits (b_mem x2) = [8; 2; 2; 0] /\ no_end_pointer (b_mem x2) /\
  exists b', buf_reserve (heap_at 65536) x2 2 9 2 0 = Some (true, b').
Proof.
  split; [exact (added_any _ x2_added)|]. split; [apply xs_reserve|].
  split; [vm_compute; reflexivity|]. split; [apply reach_no_end; exact (added_full _ x2_added)|].
  exists xs. apply xs_reserve.
Qed.

(* Limits beyond 2^61 are accepted and silently wrap around: the request is reported as
   fulfilled. *)
Theorem C04_overflow_refuted : exists hp b ns b', reachable any b /\ good_heap hp /\
  buf_reserve hp b 2 ns 2 0 = Some (true, b') /\ 2 ^ 61 < ns < 2 ^ 64 /\ sec_limit (b_mem b') 3 = 20.
Proof.
  exists (heap_at 65536), x2, (2 ^ 61 + 20). eexists.
  split; [exact (added_any _ x2_added)|]. split; [good|]. split; [vm_compute; reflexivity|].
  split; [split; reflexivity|vm_compute; reflexivity].
Qed.

(* After a successful Buffer_reserve_capacity the first object is not found any more. *)
Theorem C04_capacity_refuted : exists hp b n b' p, reachable full_arrays b /\ good_heap hp /\
  buf_reserve_capacity hp b n = Some (true, b') /\ buf_get_object b' 0 = Some p /\
  forall begin t size, entry_at b' p begin t size -> begin <> obj_begin (b_mem b') 0.
Proof.
  exists (heap_at 65536), x2, 1000. eexists. eexists.
  split; [exact (added_full _ x2_added)|]. split; [good|]. split; [vm_compute; reflexivity|].
  split; [vm_compute; reflexivity|]. intros begin t size (H & _). rewrite <- H. vm_compute. discriminate.
Qed.

(* ------------------------------------------------------------------ *)
(* C05: a request that fails for lack of memory changes nothing; neither does one whose
   limits are below what is in use, or the same as before (which also counts as failed). *)
Theorem C05_no_memory : forall hp b no ns nd ng, reachable any b -> good_heap hp ->
  limits_ok no ns nd ng -> (forall n, h_malloc hp n = 0) ->
  p_capacity (b_pool b) < length_for no ns nd ng ->
  buf_reserve hp b no ns nd ng = Some (false, b).
Proof. exact reserve_no_memory. Qed.
Print Assumptions C05_no_memory.

Theorem C05_add_no_memory : forall hp b q, reachable any b -> good_heap hp -> request_ok b q ->
  (forall n, h_malloc hp n = 0) -> ~ has_room b q ->
  p_capacity (b_pool b) < length_for (sec_count (b_mem b) 4 + 1)
    (sec_count (b_mem b) 3 + object_words (rq_size q) (rq_attrs q))
    (sec_count (b_mem b) 5 + Z.of_nat (length (rq_attrs q))) (sec_limit (b_mem b) 6) ->
  add hp b q = Some (0, b).
Proof. exact add_no_memory. Qed.
Print Assumptions C05_add_no_memory.

Theorem C05_too_small : forall hp b no ns nd ng, reachable any b -> good_heap hp ->
  limits_ok no ns nd ng -> length_for no ns nd ng <= data_capacity (b_h b) ->
  ~ Forall2 Z.le (counts (b_mem b)) [ns; no; nd; ng] ->
  buf_reserve hp b no ns nd ng = Some (false, b).
Proof. exact reserve_too_small. Qed.
Print Assumptions C05_too_small.

Theorem C05_same : forall hp b no ns nd ng, reachable any b -> good_heap hp ->
  limits_ok no ns nd ng -> limits (b_mem b) = [ns; no; nd; ng] ->
  buf_reserve hp b no ns nd ng = Some (false, b).
Proof. exact reserve_same. Qed.
Print Assumptions C05_same.

(* Every failed request leaves all objects as they were (unless an empty array at the end
   of the buffer makes the move to a new block impossible). *)
Theorem C05_objects : forall hp b no ns nd ng b', reachable any b -> good_heap hp ->
  limits_ok no ns nd ng ->
  no_end_pointer (b_mem b) \/ length_for no ns nd ng <= data_capacity (b_h b) ->
  buf_reserve hp b no ns nd ng = Some (false, b') ->
  objects b' = objects b /\ data_addr (b_h b') = mbase (b_mem b') /\
  data_addr (b_h b') = stored_base (b_mem b') /\ data_size (b_h b') = word (b_mem b') 1.
Proof. exact reserve_failed. Qed.
Print Assumptions C05_objects.

Theorem C05_add_objects : forall hp b q b', reachable any b -> good_heap hp -> request_ok b q ->
  no_end_pointer (b_mem b) -> add hp b q = Some (0, b') ->
  objects b' = objects b /\ data_addr (b_h b') = mbase (b_mem b') /\
  data_addr (b_h b') = stored_base (b_mem b') /\ data_size (b_h b') = word (b_mem b') 1.
Proof. exact add_failed. Qed.
Print Assumptions C05_add_objects.

(* With a buffer that was only added to since it was made or reset, a failed addition changes
   nothing. *)
Theorem C05_add_unchanged : forall hp b q b', added_only b -> good_heap hp -> request_ok b q ->
  add hp b q = Some (0, b') -> b' = b.
Proof.
  intros hp b q b' AO Hh RQ E. destruct (add_added hp b q AO Hh RQ) as (r & b2 & E2 & H).
  rewrite E in E2. assert (r = 0) as -> by congruence. rewrite <- (H eq_refl). congruence.
Qed.
Print Assumptions C05_add_unchanged.

Example C05_example : reachable any x2 /\ good_heap heap_none /\ (forall n, h_malloc heap_none n = 0) /\
  request_ok x2 q1 /\ ~ has_room x2 q1 /\ add heap_none x2 q1 = Some (0, x2) /\
  p_capacity (b_pool x2) < length_for 4 40 4 0 /\
  buf_reserve heap_none x2 4 40 4 0 = Some (false, x2) /\
  buf_reserve (heap_at 65536) x2 1 8 2 0 = Some (false, x2).
Proof.
  split; [exact (added_any _ x2_added)|]. split; [exact heap_none_good|].
  split; [reflexivity|]. split; [apply q1_ok; vm_compute; reflexivity|].
  split. { intros (_ & X & _). vm_compute in X. now apply X. }
  repeat split; vm_compute; reflexivity.
Qed.
Example C05_objects_example : exists b' b'',
  buf_reserve (heap_at 131072) xs 2 8 6 0 = Some (false, b') /\ limits_ok 2 8 6 0 /\
  no_end_pointer (b_mem xs) /\ b_mem b' <> b_mem xs /\ objects b' = objects xs /\
  add (heap_at 65536) xr q1 = Some (0, b'').
Proof.
  eexists. eexists. split; [vm_compute; reflexivity|]. split; [repeat split; try lia; reflexivity|].
  split; [apply reach_no_end; exact xs_reach|]. split; [vm_compute; discriminate|].
  split; vm_compute; reflexivity.
Qed.

(* But not everything stays: the reserve fails and leaves a buffer that is not in order
   (the length of the garbage section is 0). *)
Theorem C05_reserve_refuted : exists hp b no ns nd ng b', reachable full_arrays b /\ good_heap hp /\
  memory_up_to hp 1000000 /\ limits_ok no ns nd ng /\
  buf_reserve hp b no ns nd ng = Some (false, b') /\
  limits (b_mem b') <> limits (b_mem b) /\ ~ layout_ok (b_mem b').
Proof.
  exists (heap_at 131072), xs, 2, 8, 6, 0. eexists.
  split; [exact xs_reach|]. split; [good|]. split; [apply heap_at_memory; lia|].
  split; [repeat split; try lia; reflexivity|]. split; [vm_compute; reflexivity|].
  split; [vm_compute; discriminate|]. intros L. pose proof (lay_fit _ L 6) as (H & H2); [split; discriminate|].
  vm_compute in H2. now apply H2.
Qed.

(* An addition fails and leaves a buffer whose address is not that of its block (the old
   block was freed). *)
Theorem C05_add_refuted : exists hp b q b', reachable any b /\ good_heap hp /\
  memory_up_to hp 1000000 /\ request_ok b q /\ add hp b q = Some (0, b') /\
  data_addr (b_h b') <> mbase (b_mem b').
Proof.
  exists (heap_at 65536), x3, q1. eexists. split; [exact x3_reach|]. split; [good|].
  split; [apply heap_at_memory; lia|]. split; [apply q1_ok; vm_compute; reflexivity|].
  split; [vm_compute; reflexivity|]. vm_compute. discriminate.
Qed.

(* ------------------------------------------------------------------ *)
(* C06 *)
Theorem C06_layout : forall b, reachable any b ->
  layout_ok (b_mem b) /\ data_addr (b_h b) = stored_base (b_mem b) /\
  data_addr (b_h b) = mbase (b_mem b) /\
  data_size (b_h b) = word (b_mem b) 1 /\ data_size (b_h b) <= data_capacity (b_h b) /\
  data_capacity (b_h b) <= 8 * Z.of_nat (length (mwords (b_mem b))).
Proof. exact in_order. Qed.
Print Assumptions C06_layout.

Example C06_example : reachable any x3 /\ length (objects x3) = 3%nat /\
  obj_begin (b_mem x3) 1 = 32880 /\ obj_size (b_mem x3) 1 = 32.
Proof. split; [exact x3_reach|]. vm_compute. auto. Qed.

(* ------------------------------------------------------------------ *)
(* C07 *)
Theorem C07_clear : forall b z, reachable any b -> exists b', buf_clear b z = Some (true, b') /\
  objects b' = [] /\ limits (b_mem b') = limits (b_mem b) /\ counts (b_mem b') = [0; 0; 0; 0] /\
  data_addr (b_h b') = data_addr (b_h b) /\ data_capacity (b_h b') = data_capacity (b_h b).
Proof. exact cleared. Qed.
Print Assumptions C07_clear.

Theorem C07_reset : forall b no ns nd ng, reachable any b -> limits_ok no ns nd ng ->
  if length_for no ns nd ng <=? data_capacity (b_h b) then
    exists b', buf_reset_detailed b no ns nd ng = Some (true, b') /\ objects b' = [] /\
      limits (b_mem b') = [ns; no; nd; ng] /\ counts (b_mem b') = [0; 0; 0; 0] /\
      data_addr (b_h b') = data_addr (b_h b) /\ data_capacity (b_h b') = data_capacity (b_h b)
  else buf_reset_detailed b no ns nd ng = Some (false, b).
Proof. exact reset_done. Qed.
Print Assumptions C07_reset.

(* What is added afterwards is all there is. *)
Theorem C07_additions : forall b b1 l b', reachable any b -> empties b b1 -> additions b1 l b' ->
  Forall2 stored_as l (objects b').
Proof.
  intros b b1 l b' H E A. destruct (emptied b b1 H E) as (N & _).
  destruct (add_many b1 l b' (r_empty _ _ _ H E) A) as (os & F & O). rewrite O, N. exact F.
Qed.
Print Assumptions C07_additions.

Example C07_example : exists b' b'' r c, buf_clear x2 true = Some (true, b') /\
  reachable any x2 /\ empties x2 b' /\
  buf_reset x2 = Some (true, b'') /\ empties x2 b'' /\
  add (heap_at 65536) b' q2 = Some (r, c) /\ r <> 0 /\ additions b' [q2] c /\
  length (objects c) = 1%nat.
Proof.
  destruct (C07_clear x2 true (added_any _ x2_added)) as (b' & E & _).
  assert (b' = snd (get (false, no_buffer) (buf_clear x2 true))) as -> by (now rewrite E).
  eexists. eexists. eexists. eexists.
  split; [exact E|]. split; [exact (added_any _ x2_added)|]. split; [exact (e_clear _ _ _ _ E)|].
  split; [vm_compute; reflexivity|]. split; [apply e_reset; vm_compute; reflexivity|].
  assert (A : exists r c, add (heap_at 65536) (snd (get (false, no_buffer) (buf_clear x2 true))) q2
    = Some (r, c) /\ r <> 0 /\ length (objects c) = 1%nat).
  { eexists. eexists. split; [vm_compute; reflexivity|]. split; [discriminate|vm_compute; reflexivity]. }
  split; [vm_compute; reflexivity|]. split; [discriminate|].
  split; [|vm_compute; reflexivity].
  eapply (a_add _ [] _ (heap_at 65536) q2); [constructor|good| |vm_compute; reflexivity|discriminate].
  split; [exact q2_call|vm_compute; reflexivity].
Qed.

(* The plain reset keeps the memory of the buffer, but not the limits of its sections. *)
Theorem C07_limits_refuted : exists b b', reachable any b /\ buf_reset b = Some (true, b') /\
  limits (b_mem b') <> limits (b_mem b) /\ data_capacity (b_h b') = data_capacity (b_h b).
Proof.
  exists x2. eexists. split; [exact (added_any _ x2_added)|]. split; [vm_compute; reflexivity|].
  split; [vm_compute; discriminate|vm_compute; reflexivity].
Qed.

(* ------------------------------------------------------------------ *)
(* C08 *)
Theorem C08_get : forall b i, reachable any b -> 0 <= i ->
  exists p, buf_get_object b i = Some p /\
  (i < Z.of_nat (length (objects b)) -> p <> 0 /\
     exists begin t size, entry_at b p begin t size /\
       begin = obj_begin (b_mem b) i /\ size = obj_size (b_mem b) i /\
       nth_error (objects b) (Z.to_nat i) = Some (t, obj_cells (b_mem b) i) /\
       stored_base (b_mem b) + 8 * sec_pos (b_mem b) 4 + 16 <= p /\
       p + 24 <= stored_base (b_mem b) + 8 * sec_pos (b_mem b) 4 + sec_room (b_mem b) 4) /\
  (Z.of_nat (length (objects b)) < i -> p = 0).
Proof. exact get_object_ok. Qed.
Print Assumptions C08_get.

Theorem C08_number : forall b, reachable any b ->
  buf_num_objects b = Some (Z.of_nat (length (objects b))) /\
  sec_count (b_mem b) 4 = Z.of_nat (length (objects b)).
Proof. exact num_objects_ok. Qed.
Print Assumptions C08_number.

Example C08_example : reachable any x2 /\ length (objects x2) = 2%nat /\
  buf_get_object x2 1 = Some 16568 /\ buf_get_object x2 3 = Some 0.
Proof. split; [exact (added_any _ x2_added)|]. vm_compute. auto. Qed.

(* The index equal to the number of objects is not rejected; the address returned is the
   begin of the next section. *)
Theorem C08_end_refuted : exists b p, reachable any b /\
  buf_get_object b (Z.of_nat (length (objects b))) = Some p /\ p <> 0 /\
  stored_base (b_mem b) + 8 * sec_pos (b_mem b) 4 + sec_room (b_mem b) 4 <= p.
Proof.
  exists x2. eexists. split; [exact (added_any _ x2_added)|]. split; [vm_compute; reflexivity|].
  split; vm_compute; discriminate.
Qed.

(* ------------------------------------------------------------------ *)
(* C09 *)
Theorem C09_write : forall b, reachable any b -> exists f, buf_write b = Some (Some f) /\
  8 * Z.of_nat (length f) = data_size (b_h b).
Proof. exact write_ok. Qed.
Print Assumptions C09_write.

Theorem C09_round_trip : forall hp pa b f, reachable any b -> no_end_pointer (b_mem b) ->
  good_heap hp -> pa <> 0 -> data_size (b_h b) + 64 < 2 ^ 64 ->
  memory_up_to hp (Z.max (data_size (b_h b)) 128 + 16) ->
  (forall b0, buf_new hp pa (data_size (b_h b)) = Some (Some b0) ->
     data_addr (b_h b0) <> data_addr (b_h b)) ->
  buf_write b = Some (Some f) ->
  exists b', buf_new_from_file hp pa f = Some (Some b') /\ objects b' = objects b /\
    reachable any b'.
Proof. exact file_round_trip. Qed.
Print Assumptions C09_round_trip.

Theorem C09_normalised : forall b n, reachable any b -> no_end_pointer (b_mem b) ->
  0 < n -> n mod 8 = 0 -> n + data_size (b_h b) < 2 ^ 64 ->
  exists f b', buf_write_normalized b n = Some (true, Some f, b') /\
    objects b' = objects b /\ reachable any b' /\
    8 * Z.of_nat (length f) = data_size (b_h b) /\
    (* the file holds a block for the base address n *)
    (let m := Mem n f in content m = objects b /\ layout_ok m /\ stored_base m = n).
Proof. exact normalised_ok. Qed.
Print Assumptions C09_normalised.

Theorem C09_normalised_round_trip : forall hp pa b n f b', reachable any b ->
  no_end_pointer (b_mem b) -> 0 < n -> n mod 8 = 0 -> n + data_size (b_h b) < 2 ^ 64 ->
  buf_write_normalized b n = Some (true, Some f, b') ->
  good_heap hp -> pa <> 0 -> data_size (b_h b) + 64 < 2 ^ 64 ->
  memory_up_to hp (Z.max (data_size (b_h b)) 128 + 16) ->
  (forall b0, buf_new hp pa (data_size (b_h b)) = Some (Some b0) -> data_addr (b_h b0) <> n) ->
  exists b2, buf_new_from_file hp pa f = Some (Some b2) /\ objects b2 = objects b /\
    layout_ok (b_mem b2) /\ buf_num_objects b2 = Some (Z.of_nat (length (objects b))).
Proof. exact normalised_round_trip. Qed.
Print Assumptions C09_normalised_round_trip.

(* Reading into an existing buffer; the result false is what the function returns on
   success. *)
Theorem C09_read : forall hp b0 b f, reachable any b0 -> reachable any b ->
  no_end_pointer (b_mem b) -> data_size (b_h b) <= data_capacity (b_h b0) ->
  data_addr (b_h b0) <> data_addr (b_h b) -> buf_write b = Some (Some f) ->
  exists r b', buf_read hp b0 f = Some (r, b') /\ objects b' = objects b /\ layout_ok (b_mem b') /\
    buf_num_objects b' = Some (Z.of_nat (length (objects b))) /\ r = false.
Proof. exact read_ok. Qed.
Print Assumptions C09_read.

Definition f2 : list Z := get [] (get None (buf_write x2)).

Example C09_example : reachable any x2 /\ no_end_pointer (b_mem x2) /\ buf_write x2 = Some (Some f2) /\
  exists b', buf_new_from_file (heap_at 32768) 64 f2 = Some (Some b') /\ objects b' = objects x2.
Proof.
  split; [exact (added_any _ x2_added)|].
  split; [apply reach_no_end; exact (added_full _ x2_added)|].
  split; [vm_compute; reflexivity|].
  destruct (C09_round_trip (heap_at 32768) 64 x2 f2) as (b' & E & O & _); eauto.
  - exact (added_any _ x2_added).
  - apply reach_no_end; exact (added_full _ x2_added).
  - good.
  - discriminate.
  - vm_compute. reflexivity.
  - apply heap_at_memory; [lia|vm_compute; reflexivity].
  - intros b0 E. assert (X : buf_new (heap_at 32768) 64 (data_size (b_h x2)) =
      Some (Some (get no_buffer (get None (buf_new (heap_at 32768) 64 256))))) by (vm_compute; reflexivity).
    rewrite X in E. assert (b0 = get no_buffer (get None (buf_new (heap_at 32768) 64 256))) as -> by congruence.
    vm_compute. discriminate.
Qed.

(* When the new block happens to be at the address the file was written for, the buffer
   keeps the view of an empty buffer and the first object is not found. *)
Theorem C09_same_address_refuted : exists hp b f b' p, reachable full_arrays b /\ good_heap hp /\
  memory_up_to hp 1000000 /\ buf_write b = Some (Some f) /\
  buf_new_from_file hp 64 f = Some (Some b') /\ data_size (b_h b') <> word (b_mem b') 1 /\
  buf_get_object b' 0 = Some p /\
  forall begin t size, entry_at b' p begin t size -> begin <> obj_begin (b_mem b') 0.
Proof.
  exists (heap_at 16384), x2, f2. eexists. eexists.
  split; [exact (added_full _ x2_added)|]. split; [good|]. split; [apply heap_at_memory; lia|].
  split; [vm_compute; reflexivity|]. split; [vm_compute; reflexivity|].
  split; [vm_compute; discriminate|]. split; [vm_compute; reflexivity|].
  intros begin t size (H & _). rewrite <- H. vm_compute. discriminate.
Qed.

(* Writing the file for the base address 0 fails
   and destroys the contents of the buffer. *)
Theorem C09_address_zero_refuted : exists b r f b', reachable full_arrays b /\
  buf_write_normalized b 0 = Some (r, f, b') /\ r = false /\ objects b' <> objects b.
Proof.
  exists x2. eexists. eexists. eexists. split; [exact (added_full _ x2_added)|].
  split; [vm_compute; reflexivity|]. split; [reflexivity|]. vm_compute. discriminate.
Qed.
