(* C70: asking whether an object fits.  C71: buffers of a planned size. *)
From Coq Require Import ZArith List Bool Lia.
From Verif Require Import MBuf MBufSpec MemPool Buffer BufferSpec BufferUser BufferProps BufferExample
  BufferPlanSpec BufferPlanProofs.
Import ListNotations.
Local Open Scope Z_scope.

(* The answer is always given, and it is yes if and only if the object fits into the buffer
   within its limits. *)
Theorem C70_answer : forall b q, reachable any b -> request_ok b q ->
  exists ok n, can_add b q = Some (ok, Some n) /\ (ok = true <-> has_room b q).
Proof.
  intros b q HR RQ. destruct (can_add_all b q HR RQ) as (E & _). cbv zeta in E. rewrite E.
  pose proof (fits_iff b q) as F. destruct (_ && _ && _); do 2 eexists; (split; [reflexivity|exact F]).
Qed.
Print Assumptions C70_answer.

(* After a yes the object can be added, whatever malloc does: the buffer stays where it is,
   with the same limits, and has then the reported numbers of objects, slots and pointers. *)
Theorem C70_yes : forall hp b q no ns nd, reachable any b -> good_heap hp -> request_ok b q ->
  can_add b q = Some (true, Some (no, ns, nd)) ->
  exists r b' o, add hp b q = Some (r, b') /\ r <> 0 /\ data_addr (b_h b') = data_addr (b_h b) /\
    limits (b_mem b') = limits (b_mem b) /\ stored_as q o /\ objects b' = objects b ++ [o] /\
    sec_count (b_mem b') 4 = no /\ sec_count (b_mem b') 3 = ns /\ sec_count (b_mem b') 5 = nd.
Proof.
  intros hp b q no ns nd HR Hh RQ C. destruct (can_add_all b q HR RQ) as (E & _). cbv zeta in E. rewrite C in E.
  destruct (_ && _ && _) eqn:F; [|discriminate]. apply fits_iff in F. injection E as E1 E2 E3.
  destruct (add_room hp b q HR Hh RQ F) as (r & b' & o & Ea & Hr & _ & A1 & _ & L & K & S & O).
  exists r, b', o. unfold counts in K. cbn [map] in K. injection K as K3 K4 K5 K6.
  repeat (split; [assumption|]). split; [|split]; congruence.
Qed.
Print Assumptions C70_yes.

(* After a no the object can be added only if the buffer can get larger: without memory and
   without spare capacity the call fails and changes nothing. *)
Theorem C70_no : forall hp b q n, reachable any b -> good_heap hp -> request_ok b q ->
  can_add b q = Some (false, n) -> (forall k, h_malloc hp k = 0) ->
  p_capacity (b_pool b) < length_for (sec_count (b_mem b) 4 + 1)
    (sec_count (b_mem b) 3 + object_words (rq_size q) (rq_attrs q))
    (sec_count (b_mem b) 5 + Z.of_nat (length (rq_attrs q))) (sec_limit (b_mem b) 6) ->
  add hp b q = Some (0, b).
Proof.
  intros hp b q n HR Hh RQ C HM P. apply add_no_memory; try assumption.
  destruct (can_add_all b q HR RQ) as (E & _). cbv zeta in E. rewrite C in E.
  intros F. apply fits_iff in F. rewrite F in E. discriminate.
Qed.
Print Assumptions C70_no.

(* x2 is full, in xr there is no entry for another object, and in a buffer with room for one
   object the first one fits *)
Definition plan1 : buffer := get no_buffer (get None (buf_new_detailed (heap_at 4096) 64 2 8 2 0 F_MEMPOOL)).

Lemma plan1_new : buf_new_detailed (heap_at 4096) 64 2 8 2 0 F_MEMPOOL = Some (Some plan1).
Proof. vm_compute. reflexivity. Qed.

Lemma plan1_reach : reachable any plan1.
Proof.
  apply (r_detailed any (heap_at 4096) 64 2 8 2 0 F_MEMPOOL); [good|discriminate| |reflexivity|exact plan1_new].
  split; [|reflexivity]. repeat split; try discriminate. 
Qed.

Example C70_example :
  can_add plan1 q1 = Some (true, Some (1, 4, 1)) /\ request_ok plan1 q1 /\
  can_add x2 q1 = Some (false, Some (2 ^ 64 - 1, 2 ^ 64 - 4, 2 ^ 64 - 1)) /\ request_ok x2 q1 /\
  (exists r b', add (heap_at 65536) x2 q1 = Some (r, b') /\ r <> 0) /\
  (exists r b', r <> 0 /\ add heap_none plan1 q1 = Some (r, b')) /\
  add heap_none x2 q1 = Some (0, x2).
Proof.
  split; [vm_compute; reflexivity|]. split; [split; [exact q1_call|vm_compute; reflexivity]|].
  split; [vm_compute; reflexivity|]. split; [split; [exact q1_call|vm_compute; reflexivity]|].
  split; [do 2 eexists; split; [vm_compute; reflexivity|discriminate]|].
  split; [do 2 eexists; split; [|vm_compute; reflexivity]; discriminate|].
  vm_compute. reflexivity.
Qed.

(* After a no the three numbers are to tell what is missing.  Where nothing is missing the
   number is 0, where k is missing it is 2^64 - k instead of k. *)
Theorem C70_missing_wraps : forall b q no ns nd, reachable any b -> request_ok b q ->
  can_add b q = Some (false, Some (no, ns, nd)) ->
  let m := b_mem b in
  let o := excess (sec_count m 4 + 1) (sec_limit m 4) in
  let s := excess (sec_count m 3 + object_words (rq_size q) (rq_attrs q)) (sec_limit m 3) in
  let d := excess (sec_count m 5 + Z.of_nat (length (rq_attrs q))) (sec_limit m 5) in
  no = (if o =? 0 then 0 else 2 ^ 64 - o) /\ ns = (if s =? 0 then 0 else 2 ^ 64 - s) /\
  nd = (if d =? 0 then 0 else 2 ^ 64 - d) /\ 0 < o + s + d.
Proof.
  intros b q no ns nd HR RQ C m o s d. destruct (can_add_all b q HR RQ) as (E & B4 & B3 & B5 & N4 & N3 & N5).
  cbv zeta in *. rewrite C in E. fold m in E, B4, B3, B5, N4, N3, N5.
  assert (G : forall x l, 0 <= l < 2 ^ 61 -> 0 <= x < 2 ^ 62 ->
    (if x <=? l then 0 else (l - x) mod 2 ^ 64) = (if excess x l =? 0 then 0 else 2 ^ 64 - excess x l)).
  { clear. intros x l Hl Hx. unfold excess. destruct (Z.leb_spec x l).
    - rewrite Z.max_l by lia. reflexivity.
    - rewrite Z.max_r by lia. rewrite (proj2 (Z.eqb_neq _ _)) by lia.
      replace (l - x) with ((2 ^ 64 - (x - l)) + (-1) * 2 ^ 64) by ring. rewrite Z.mod_add by discriminate.
      apply Z.mod_small. lia. }
  destruct (_ && _ && _) eqn:F; [discriminate|]. injection E as E1 E2 E3.
  rewrite E1, E2, E3. unfold o, s, d.
  split; [apply G; [exact B4|clear - N4; lia]|].
  split; [apply G; [exact B3|clear - N3; lia]|].
  split; [apply G; [exact B5|exact N5]|].
  assert (NF : ~ has_room b q) by (rewrite <- fits_iff; fold m; rewrite F; discriminate).
  unfold has_room in NF. cbv zeta in NF. fold m in NF. unfold excess. clear - NF. lia.
Qed.
Print Assumptions C70_missing_wraps.

Theorem C70_missing_refuted : exists b q no ns nd, reachable any b /\ request_ok b q /\
  can_add b q = Some (false, Some (no, ns, nd)) /\
  excess (sec_count (b_mem b) 4 + 1) (sec_limit (b_mem b) 4) = 1 /\ no = 2 ^ 64 - 1.
Proof.
  exists x2, q1, (2 ^ 64 - 1), (2 ^ 64 - 4), (2 ^ 64 - 1).
  split; [exact (added_any _ x2_added)|]. split; [split; [exact q1_call|vm_compute; reflexivity]|].
  split; [vm_compute; reflexivity|]. split; vm_compute; reflexivity.
Qed.
Print Assumptions C70_missing_refuted.

(* A new buffer with given limits is empty and has these limits, if at most one entry for
   garbage is asked for and the memory is there. *)
Theorem C71_new_partial : forall hp pa no ns nd ng flags, good_heap hp -> pa <> 0 -> new_limits_ok no ns nd ng ->
  Z.land flags F_MEMPOOL = F_MEMPOOL -> ng <= 1 ->
  (h_malloc hp (length_for no ns nd ng + 16 - 8 * ng) = 0 /\ buf_new_detailed hp pa no ns nd ng flags = Some None) \/
  (exists b, buf_new_detailed hp pa no ns nd ng flags = Some (Some b) /\ objects b = [] /\
     limits (b_mem b) = [ns; no; nd; ng] /\ layout_ok (b_mem b)).
Proof.
  intros hp pa no ns nd ng flags Hh Hp L Hf G. pose proof (new_detailed_all hp pa no ns nd ng flags Hh Hp L Hf) as N.
  destruct (Z.eqb_spec (h_malloc hp (length_for no ns nd ng + 16 - 8 * ng)) 0) as [M|M]; [left; auto|right].
  rewrite (proj2 (Z.leb_le ng 1) G) in N. destruct N as (b & E & HR & O & Li & _). exists b.
  repeat (split; [assumption|]). now destruct (in_order b HR).
Qed.
Print Assumptions C71_new_partial.

(* With two or more entries for garbage the memory asked for is too small: no buffer is made,
   however much memory there is. *)
Theorem C71_garbage_refuted : forall hp pa no ns nd ng flags, good_heap hp -> pa <> 0 -> new_limits_ok no ns nd ng ->
  Z.land flags F_MEMPOOL = F_MEMPOOL -> 2 <= ng ->
  buf_new_detailed hp pa no ns nd ng flags = Some None.
Proof.
  intros hp pa no ns nd ng flags Hh Hp L Hf G. pose proof (new_detailed_all hp pa no ns nd ng flags Hh Hp L Hf) as N.
  destruct (h_malloc hp _ =? 0); [exact N|]. rewrite (proj2 (Z.leb_gt ng 1)) in N by lia. exact N.
Qed.
Print Assumptions C71_garbage_refuted.

(* Into a buffer that is made for a list of objects all of them can be added, in any state of
   the memory: no call fails, the buffer stays where it is, and it holds the objects in order. *)
Theorem C71_planned : forall hp pa l ng flags b hps, good_heap hp -> pa <> 0 ->
  let no := Z.of_nat (length l) in let ns := slots_for l in let nd := pointers_for l in
  new_limits_ok no ns nd ng -> 2 * length_for no ns nd ng < 2 ^ 64 ->
  Z.land flags F_MEMPOOL = F_MEMPOOL ->
  buf_new_detailed hp pa no ns nd ng flags = Some (Some b) ->
  Forall (fun q => call_ok (rq_mem q) (rq_obj q) (rq_size q) (rq_attrs q)) l ->
  (forall n, good_heap (hps n)) ->
  exists b', adds hps b l = Some b' /\ data_addr (b_h b') = data_addr (b_h b) /\
    limits (b_mem b') = limits (b_mem b) /\ Forall2 stored_as l (objects b').
Proof.
  intros hp pa l ng flags b hps Hh Hp no ns nd L L2 Hf E HC Hhs.
  pose proof (new_detailed_all hp pa no ns nd ng flags Hh Hp L Hf) as N.
  destruct (h_malloc hp _ =? 0); [congruence|]. destruct (ng <=? 1); [|congruence].
  destruct N as (b0 & E0 & HR & O & Li & Co & Ds). assert (b0 = b) as -> by congruence.
  unfold limits, counts in Li, Co. cbn [map] in Li, Co. injection Li as L3 L4 L5 L6. injection Co as K3 K4 K5 K6.
  destruct L as ((P1 & P2 & P3 & P4 & _) & _).
  destruct (adds_ok l hps b HR Hhs HC) as (b' & os & Ea & _ & A1 & LL & F & Ob).
  - rewrite Ds. fold ns nd. clear - L2 P1 P2 P3 P4. unfold length_for in *. lia.
  - rewrite K3, L3. fold ns. lia.
  - rewrite K4, L4. fold no. lia.
  - rewrite K5, L5. fold nd. lia.
  - exists b'. rewrite Ob, O. repeat split; assumption.
Qed.
Print Assumptions C71_planned.

Example C71_example :
  let l := [q1; q2; q0] in
  new_limits_ok (Z.of_nat (length l)) (slots_for l) (pointers_for l) 0 /\
  (exists b b', buf_new_detailed (heap_at 4096) 64 (Z.of_nat (length l)) (slots_for l) (pointers_for l) 0 F_MEMPOOL =
     Some (Some b) /\ adds (fun _ => heap_none) b l = Some b' /\ length (objects b') = 3%nat) /\
  Forall (fun q => call_ok (rq_mem q) (rq_obj q) (rq_size q) (rq_attrs q)) l /\ good_heap heap_none.
Proof.
  cbv zeta. split; [split; [repeat split; discriminate|reflexivity]|].
  split; [|split; [|exact heap_none_good]].
  2:{ constructor; [exact q1_call|]. constructor; [exact q2_call|]. constructor; [exact q0_call|constructor]. }
  exists (get no_buffer (get None (buf_new_detailed (heap_at 4096) 64 3 10 3 0 F_MEMPOOL))).
  exists (get no_buffer (adds (fun _ => heap_none)
    (get no_buffer (get None (buf_new_detailed (heap_at 4096) 64 3 10 3 0 F_MEMPOOL))) [q1; q2; q0])).
  split; [vm_compute; reflexivity|]. split; vm_compute; reflexivity.
Qed.
