(* Theorems for C12 and C13: address assignment items.  The words of the statements are
   those of AssignSpec.v, BufferUser.v and MBufSpec.v. *)
From Coq Require Import ZArith List Bool Lia Permutation Sorted.
From Verif Require Import MBuf MBufSpec MemPool Buffer BufferSpec BufferUser BufferExample BufferProps
  Assign AssignSpec AssignProofs AssignProps AssignOrder.
Import ListNotations.
Local Open Scope Z_scope.

(* ------------------------------------------------------------------ *)
(* C12: the items in ba are executed for the destination bd and the source (bs, or bd itself):
   every destination word holds the address of its source afterwards and no other word of
   the block is changed.  The objects keep place, type and size; when no destination is a
   data pointer of the buffer itself, the buffer stays in order. *)
Theorem C12_assign : forall ba bd bs did sid its,
  reachable any ba -> holds ba its -> reachable any bd -> reachable any (source bd bs) ->
  did <> NO_BUFFER -> sid <> NO_BUFFER ->
  (forall it, In it (matching did sid its) ->
     (exists a, goes_to (b_mem bd) it a) /\ (exists v, comes_from (b_mem (source bd bs)) it v)) ->
  NoDup (map dest (matching did sid its)) ->
  exists m', kernel (call ba bd bs did sid) 0 1 (b_mem bd) = Some (0, m') /\
    mbase m' = mbase (b_mem bd) /\ length (mwords m') = length (mwords (b_mem bd)) /\
    (forall it a v, In it (matching did sid its) -> goes_to (b_mem bd) it a ->
       comes_from (b_mem (source bd bs)) it v -> word_at m' a = v) /\
    (forall j, 0 <= j ->
       (forall it, In it (matching did sid its) -> ~ goes_to (b_mem bd) it (stored_base (b_mem bd) + 8 * j)) ->
       word m' j = word (b_mem bd) j) /\
    sec_count m' 4 = sec_count (b_mem bd) 4 /\
    (forall i, 0 <= i < sec_count m' 4 -> obj_begin m' i = obj_begin (b_mem bd) i /\
       obj_type m' i = obj_type (b_mem bd) i /\ obj_size m' i = obj_size (b_mem bd) i) /\
    ((forall it a, In it (matching did sid its) -> goes_to (b_mem bd) it a -> ~ In a (data_pointers (b_mem bd))) ->
       layout_ok m' /\ data_pointers m' = data_pointers (b_mem bd)).
Proof.
  intros ba bd bs did sid its Ra Ha Rd Rs Nd Ns Hall Hnd.
  assert (Rng : forall it, In it (matching did sid its) ->
    in_range (b_mem bd) (dest_index it) (dest_offset it) /\
    in_range (b_mem (source bd bs)) (src_index it) (src_offset it)).
  { intros it Hit. destruct (Hall it Hit) as ((a & Ga) & (v & Gv)).
    destruct (reach_irepr bd Rd) as (dA & I1 & _), (reach_irepr _ Rs) as (sA & J1 & _). split.
    - exact (place_in_range bd dA I1 _ _ _ _ Ga).
    - exact (place_in_range _ sA J1 _ _ _ _ Gv). }
  destruct (effect ba bd bs did sid its Ra Ha Rd Rs Nd Ns Rng Hnd)
    as (s & m' & E & _ & (_ & Hs) & X1 & X2 & X3 & X4 & X5 & X6 & X7).
  rewrite Hs in E by (intros it Hit; now destruct (Hall it Hit)).
  exists m'. split; [exact E|]. split; [exact X1|]. split; [exact X2|]. split; [|auto].
  intros it a v Hit Hg. now apply (X3 it a Hit Hg).
Qed.
Print Assumptions C12_assign.

(* In general: the call succeeds exactly if all destinations exist; a destination whose
   source does not exist is set to 0. *)
Theorem C12_status : forall ba bd bs did sid its,
  reachable any ba -> holds ba its -> reachable any bd -> reachable any (source bd bs) ->
  did <> NO_BUFFER -> sid <> NO_BUFFER ->
  (forall it, In it (matching did sid its) ->
     in_range (b_mem bd) (dest_index it) (dest_offset it) /\
     in_range (b_mem (source bd bs)) (src_index it) (src_offset it)) ->
  NoDup (map dest (matching did sid its)) ->
  exists s m', kernel (call ba bd bs did sid) 0 1 (b_mem bd) = Some (s, m') /\
    (s = 0 \/ s = -1) /\
    (s = 0 <-> forall it, In it (matching did sid its) -> exists a, goes_to (b_mem bd) it a) /\
    mbase m' = mbase (b_mem bd) /\ length (mwords m') = length (mwords (b_mem bd)) /\
    (forall it a, In it (matching did sid its) -> goes_to (b_mem bd) it a ->
       (forall v, comes_from (b_mem (source bd bs)) it v -> word_at m' a = v) /\
       ((forall v, ~ comes_from (b_mem (source bd bs)) it v) -> word_at m' a = 0)) /\
    (forall j, 0 <= j ->
       (forall it, In it (matching did sid its) -> ~ goes_to (b_mem bd) it (stored_base (b_mem bd) + 8 * j)) ->
       word m' j = word (b_mem bd) j).
Proof.
  intros ba bd bs did sid its Ra Ha Rd Rs Nd Ns Rng Hnd.
  destruct (effect ba bd bs did sid its Ra Ha Rd Rs Nd Ns Rng Hnd)
    as (s & m' & E & X0 & X1 & X2 & X3 & X4 & X5 & _).
  exists s, m'. auto 8.
Qed.
Print Assumptions C12_status.

(* The items may be executed in any order, e.g. by any interleaving of work-items. *)
Theorem C12_any_order : forall ba bd bs did sid its order,
  reachable any ba -> holds ba its -> reachable any bd -> reachable any (source bd bs) ->
  did <> NO_BUFFER -> sid <> NO_BUFFER ->
  (forall it, In it (matching did sid its) ->
     in_range (b_mem bd) (dest_index it) (dest_offset it) /\
     in_range (b_mem (source bd bs)) (src_index it) (src_offset it)) ->
  NoDup (map dest (matching did sid its)) ->
  Permutation order (zseq (Z.of_nat (length its))) ->
  exists st, kernel (call ba bd bs did sid) 0 1 (b_mem bd) = Some st /\
    in_order (call ba bd bs did sid) order (0, b_mem bd) = Some st.
Proof. intros. now apply any_order with (its := its). Qed.
Print Assumptions C12_any_order.

(* Any number of work-items, each with its own start, gives the result of one. *)
Theorem C12_work_items : forall ba bd bs did sid its stride items,
  reachable any ba -> holds ba its -> reachable any bd -> reachable any (source bd bs) ->
  did <> NO_BUFFER -> sid <> NO_BUFFER ->
  (forall it, In it (matching did sid its) ->
     in_range (b_mem bd) (dest_index it) (dest_offset it) /\
     in_range (b_mem (source bd bs)) (src_index it) (src_offset it)) ->
  NoDup (map dest (matching did sid its)) -> 0 < stride -> Permutation items (zseq stride) ->
  exists st, kernel (call ba bd bs did sid) 0 1 (b_mem bd) = Some st /\
    launch (call ba bd bs did sid) stride items (0, b_mem bd) = Some st.
Proof. intros. now apply any_launch with (its := its). Qed.
Print Assumptions C12_work_items.

(* Destination in raw memory: the word at the offset from the begin is set. *)
Theorem C12_raw : forall dm sb it j, dest_buffer it = NO_BUFFER -> dest_index it = 0 ->
  src_buffer it = NO_BUFFER -> src_index it = 0 -> 0 < mbase dm ->
  dest_offset it = 8 * j -> 0 <= j < Z.of_nat (length (mwords dm)) ->
  mbase dm + 8 * Z.of_nat (length (mwords dm)) < 2 ^ 64 ->
  0 < sb -> 0 <= src_offset it -> sb + src_offset it < 2 ^ 64 ->
  exists m', perform_raw dm (mbase dm) sb it = Some (0, m') /\ mbase m' = mbase dm /\
    length (mwords m') = length (mwords dm) /\ word m' j = sb + src_offset it /\
    (forall k, 0 <= k -> k <> j -> word m' k = word dm k).
Proof.
  intros dm sb it j D1 D2 S1 S2 B O J T P Q U. assert (J' : 0 <= j < MBufMem.wlen dm) by exact J.
  unfold perform_raw, assign_fixed_raw, src_address_raw, dest_pointer_raw, src_raw, dest_raw.
  rewrite D1, D2, S1, S2, !Z.eqb_refl. cbn [andb].
  rewrite (proj2 (Z.eqb_neq (mbase dm) 0)), (proj2 (Z.eqb_neq sb 0)) by lia. cbn [negb].
  unfold store. rewrite O. rewrite !MBufMem.u64_id by lia.
  rewrite (proj2 (Z.eqb_neq (mbase dm + 8 * j) 0)) by lia.
  rewrite (MBufMem.wr_ok dm _ j) by (auto; lia). cbn [bind]. eexists. split; [reflexivity|].
  split; [reflexivity|]. pose proof (MBufMem.mupd_wlen dm j (sb + src_offset it)) as W.
  unfold MBufMem.wlen in W. split; [lia|]. split.
  - rewrite MBufMem.word_mupd by lia. now rewrite Z.eqb_refl.
  - intros k K Hk. rewrite MBufMem.word_mupd by lia. now rewrite (proj2 (Z.eqb_neq k j)).
Qed.
Print Assumptions C12_raw.

(* a buffer with items *)
Definition qi (it : item) : request :=
  Request ext [dest_buffer it; src_buffer it; dest_type it; src_type it;
               dest_index it; src_index it; dest_offset it; src_offset it] 64 65536 [].
Definition i1 : item := Item 1 2 7 9 0 1 0 8.
Definition i2 : item := Item 1 2 9 3 1 2 16 0.
Definition i3 : item := Item 5 2 7 9 0 1 0 8.
(* a type that is not there; an offset close to 2^64 *)
Definition i4 : item := Item 1 2 7 8 0 1 0 8.
Definition i5 : item := Item 1 2 9 9 1 1 (2 ^ 64 - 8) 8.
Definition y0 : buffer := get no_buffer (get None (buf_new (heap_at 131072) 64 0)).
Definition y1 : buffer := added (heap_at 262144) y0 (qi i1).
Definition y2 : buffer := added (heap_at 524288) y1 (qi i2).
Definition y3 : buffer := added (heap_at 131072) y2 (qi i3).
Definition z4 : buffer := added (heap_at 262144) y0 (qi i4).
Definition z5 : buffer := added (heap_at 262144) y0 (qi i5).

Lemma qi_call it : Forall (fun w => 0 <= w < 2 ^ 64) (rq_obj (qi it)) ->
  call_ok (rq_mem (qi it)) (rq_obj (qi it)) (rq_size (qi it)) (rq_attrs (qi it)).
Proof.
  intros H. split.
  - reflexivity.
  - destruct it. vm_compute. discriminate.
  - exact H.
  - intros x [].
  - constructor.
  - intros x [].
  - intros x [].
Qed.
Lemma reach_add b hp q : reachable any b -> good_heap hp -> request_ok b q ->
  (exists r, r <> 0 /\ add hp b q = Some (r, added hp b q)) -> reachable any (added hp b q).
Proof. intros H G Q (r & Hr & E). apply (r_add _ hp b q r); auto. exact Logic.I. Qed.
Ltac item_added := apply reach_add; [|good|split; [apply qi_call; repeat constructor;
    (vm_compute; discriminate) || reflexivity|vm_compute; reflexivity]
  |eexists; split; [|vm_compute; reflexivity]; discriminate].
Lemma y0_reach : reachable any y0.
Proof.
  apply (r_new any (heap_at 131072) 64 0); [good|discriminate|reflexivity|vm_compute; reflexivity].
Qed.
Lemma y1_reach : reachable any y1. Proof. unfold y1. item_added. exact y0_reach. Qed.
Lemma y2_reach : reachable any y2. Proof. unfold y2. item_added. exact y1_reach. Qed.
Lemma y3_reach : reachable any y3. Proof. unfold y3. item_added. exact y2_reach. Qed.
Lemma z4_reach : reachable any z4. Proof. unfold z4. item_added. exact y0_reach. Qed.
Lemma z5_reach : reachable any z5. Proof. unfold z5. item_added. exact y0_reach. Qed.

Lemma place_at m i t off : (0 <=? i) && (i <? sec_count m 4) && (obj_type m i =? t) && (0 <=? off) &&
  (off mod 8 =? 0) && (off + 8 <=? obj_size m i) = true -> exists a, place m i t off a.
Proof.
  rewrite !andb_true_iff, !Z.leb_le, !Z.eqb_eq, Z.ltb_lt. intros H. exists (obj_begin m i + off).
  unfold place. tauto.
Qed.

Example C12_example : holds y3 [i1; i2; i3] /\ matching 1 2 [i1; i2; i3] = [i1; i2] /\
  (forall it, In it [i1; i2] ->
     (exists a, goes_to (b_mem x2) it a) /\ (exists v, comes_from (b_mem x3) it v)) /\
  NoDup (map dest [i1; i2]) /\
  exists m', kernel (call y3 x2 (Some x3) 1 2) 0 1 (b_mem x2) = Some (0, m') /\
    mwords m' <> mwords (b_mem x2) /\
    launch (call y3 x2 (Some x3) 1 2) 2 [1; 0] (0, b_mem x2) = Some (0, m').
Proof.
  split; [vm_compute; reflexivity|].
  split; [vm_compute; reflexivity|].
  split; [|split].
  - intros it [<-|[<-|[]]]; split; (apply place_at; vm_compute; reflexivity).
  - repeat constructor; cbn; intuition discriminate.
  - eexists. split; [vm_compute; reflexivity|]. split; [vm_compute; discriminate|]. vm_compute. reflexivity.
Qed.
Example C12_example_reach : reachable any y3 /\ reachable any x2 /\ reachable any x3.
Proof.
  split; [exact y3_reach|]. split; [exact (added_any _ x2_added)|exact x3_reach].
Qed.

(* A source that does not exist is not reported: the destination is set to 0, the call
   succeeds. *)
Theorem C12_source_refuted : exists ba bd bs it m',
  reachable any ba /\ holds ba [it] /\ reachable any bd /\ reachable any bs /\
  matching 1 2 [it] = [it] /\ in_range (b_mem bs) (src_index it) (src_offset it) /\
  (forall v, ~ comes_from (b_mem bs) it v) /\
  kernel (call ba bd (Some bs) 1 2) 0 1 (b_mem bd) = Some (0, m') /\
  exists a, goes_to (b_mem bd) it a /\ word_at (b_mem bd) a <> 0 /\ word_at m' a = 0.
Proof.
  exists z4, x2, x3, i4. eexists. split; [exact z4_reach|]. split; [vm_compute; reflexivity|].
  split; [exact (added_any _ x2_added)|]. split; [exact x3_reach|]. split; [reflexivity|].
  split; [vm_compute; repeat split; discriminate|]. split.
  - intros v (_ & H & _). vm_compute in H. discriminate.
  - split; [vm_compute; reflexivity|]. exists (obj_begin (b_mem x2) 0). split; [vm_compute; repeat split; discriminate || reflexivity|].
    split; vm_compute; [discriminate|reflexivity].
Qed.

(* The test of the offset wraps around: with an offset of 2^64 - 8 the word in front of the
   object, here the last one of the object before it, is overwritten. *)
Theorem C12_offset_refuted : exists ba bd it m' k,
  reachable any ba /\ holds ba [it] /\ reachable any bd /\ matching 1 2 [it] = [it] /\
  0 <= dest_index it < sec_count (b_mem bd) 4 /\ (forall a, ~ goes_to (b_mem bd) it a) /\
  kernel (call ba bd None 1 2) 0 1 (b_mem bd) = Some (0, m') /\
  stored_base (b_mem bd) + 8 * k < obj_begin (b_mem bd) (dest_index it) /\
  word m' k <> word (b_mem bd) k.
Proof.
  exists z5, x2, i5. eexists. exists 13. split; [exact z5_reach|]. split; [vm_compute; reflexivity|].
  split; [exact (added_any _ x2_added)|]. split; [reflexivity|].
  split; [vm_compute; split; [discriminate|reflexivity]|]. split.
  - intros a (_ & _ & _ & _ & H & _). vm_compute in H. now apply H.
  - split; [vm_compute; reflexivity|]. split; vm_compute; [reflexivity|discriminate].
Qed.

(* ------------------------------------------------------------------ *)
(* C13: less is a strict total order, and equality is equality of all members. *)
Theorem C13_order : (forall a, less a a = false) /\
  (forall a b c, less a b = true -> less b c = true -> less a c = true) /\
  (forall a b, less a b = true \/ less b a = true \/ a = b) /\
  (forall a b, less a b = true -> less b a = false).
Proof. repeat split; [exact less_irrefl|exact less_trans|exact less_total|exact less_asym]. Qed.
Print Assumptions C13_order.

Theorem C13_equal : forall a b, (equal a b = true <-> a = b) /\
  equal a b = negb (less a b) && negb (less b a).
Proof.
  intros a b. split; [apply equal_iff|].
  destruct (less_total a b) as [H|[H| ->]].
  - rewrite H. cbn [negb andb]. destruct (equal a b) eqn:E; [|reflexivity]. apply equal_iff in E as ->.
    now rewrite less_irrefl in H.
  - rewrite H. cbn [negb]. rewrite andb_false_r. destruct (equal a b) eqn:E; [|reflexivity]. apply equal_iff in E as ->.
    now rewrite less_irrefl in H.
  - rewrite less_irrefl. now apply equal_iff.
Qed.
Print Assumptions C13_equal.

(* An item added to a job, whatever was in it before, is found under the index returned. *)
Theorem C13_added : forall j it i j', job_add j it = (i, j') ->
  job_has j' it = true /\ job_find j' it = i /\ 0 <= i < job_num j' (dest_buffer it, src_buffer it) /\
  job_get j' (dest_buffer it, src_buffer it) i = Some it.
Proof. intros j it i j' H. destruct (added_index j it i j' H) as (A & B & C & D). auto. Qed.
Print Assumptions C13_added.

(* The items that were there before keep their places and no others appear. *)
Theorem C13_kept : forall j it k i x, 0 <= i -> job_get j k i = Some x ->
  job_get (snd (job_add j it)) k i = Some x.
Proof. exact added_keeps. Qed.
Print Assumptions C13_kept.
Theorem C13_nothing_else : forall j it x,
  job_has (snd (job_add j it)) x = true <-> x = it \/ job_has j x = true.
Proof. exact added_only_one. Qed.
Print Assumptions C13_nothing_else.

(* After adding a list of items: exactly those are found, each is stored once. *)
Theorem C13_all_found : forall its x, job_has (add_all its) x = true <-> In x its.
Proof. exact add_all_has. Qed.
Print Assumptions C13_all_found.
Theorem C13_once : forall j it, job_reach j ->
  job_total (snd (job_add j it)) = job_total j + (if job_has j it then 0 else 1).
Proof. exact job_total_add. Qed.
Print Assumptions C13_once.
Theorem C13_no_duplicates : forall j k i i' x, job_reach j -> 0 <= i -> 0 <= i' ->
  job_get j k i = Some x -> job_get j k i' = Some x ->
  i = i' /\ (dest_buffer x, src_buffer x) = k.
Proof.
  intros j k i i' x H Hi Hi'. rewrite !get_iff by assumption. intros E E'.
  destruct (reach_items j k H) as (N & K). split.
  - enough (Z.to_nat i = Z.to_nat i') by lia. apply (proj1 (NoDup_nth_error (items_of j k)) N).
    + apply nth_error_Some. congruence.
    + congruence.
  - apply K. eapply nth_error_In. exact E.
Qed.
Print Assumptions C13_no_duplicates.

(* The pairs of buffers are kept in increasing order, each once. *)
Theorem C13_keys : forall j, job_reach j ->
  StronglySorted (fun a b => fst a < fst b \/ (fst a = fst b /\ snd a < snd b)) (j_keys j) /\
  (forall k, In k (j_keys j) <-> 0 < job_num j k).
Proof.
  intros j H. destruct (reach_inv j H) as [J1 J2 J3 J4 J5]. split.
  - clear - J4. induction J4 as [|x l Hs IH Hf]; constructor; [assumption|].
    rewrite Forall_forall in *. intros y Hy. now apply key_less_spec, Hf.
  - intros k. unfold job_num. destruct (find_key (j_items j) k) as [l|] eqn:E.
    + apply find_in in E; [|assumption]. destruct (J2 k l E) as (_ & Hl). split; [intros _|intros _].
      * destruct l; [congruence|cbn [length]; lia].
      * eapply Permutation_in; [symmetry; exact J5|]. change k with (fst (k, l)). now apply in_map.
    + apply find_none in E. split; [|lia]. intros Hk. exfalso. apply E. eapply Permutation_in; eassumption.
Qed.
Print Assumptions C13_keys.

(* Removing: the items of other pairs of buffers are kept, the item is gone. *)
Theorem C13_remove_partial : forall j it j', job_remove_item j it = (SUCCESS, j') ->
  job_has j it = true /\ job_has j' it = false /\
  (forall x, (dest_buffer x, src_buffer x) <> (dest_buffer it, src_buffer it) -> job_has j' x = job_has j x).
Proof.
  intros j it j' H. unfold job_remove_item in H.
  assert (Hf : 0 <= job_find j it).
  { unfold job_find, SIZE_MAX. destruct (find_key (j_items j) (key_of it)); [lia|]. vm_compute. discriminate. }
  destruct (removed j _ _ j' H Hf) as (A & B & C). split; [|split].
  - unfold job_has. now apply Z.ltb_lt.
  - destruct (job_has j' it) eqn:E; [|reflexivity]. apply has_iff' in E. now rewrite B in E.
  - intros x Hx. apply eq_true_iff_eq. rewrite !has_iff'. now rewrite A.
Qed.
Print Assumptions C13_remove_partial.

Example C13_example : less i1 i2 = true /\ less i2 i1 = false /\ less i2 i3 = true /\
  job_reach (add_all [i3; i1; i2; i1]) /\ job_total (add_all [i3; i1; i2; i1]) = 3 /\
  job_find (add_all [i3; i1; i2; i1]) i2 = 1 /\ j_keys (add_all [i3; i1; i2; i1]) = [(1, 2); (5, 2)] /\
  fst (job_remove_item (add_all [i3; i1; i2; i1]) i1) = SUCCESS.
Proof. repeat split; try (vm_compute; reflexivity). apply add_all_reach. Qed.

(* Removing one item removes all others of the same pair of buffers, too. *)
Theorem C13_remove_refuted : exists j a b j', job_reach j /\ a <> b /\ job_has j b = true /\
  job_remove_item j a = (SUCCESS, j') /\ job_has j' b = false.
Proof.
  exists (add_all [i1; i2]), i1, i2. eexists. split; [apply add_all_reach|]. split; [discriminate|].
  split; [reflexivity|]. split; [vm_compute; reflexivity|reflexivity].
Qed.
(* The range of items and the range of keys that a job hands out are empty. *)
Theorem C13_range_refuted : exists j k, job_reach j /\ 0 < job_num j k /\
  job_items_begin j k = job_items_end j k /\ j_keys j <> [] /\ job_keys_end j = 0.
Proof.
  exists (add_all [i1; i2]), (1, 2). split; [apply add_all_reach|]. split; [reflexivity|].
  split; [reflexivity|]. split; [discriminate|reflexivity].
Qed.
