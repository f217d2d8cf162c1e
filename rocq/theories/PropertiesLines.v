(* C54: copying a beam line from one buffer to another; C55: the numbers of objects, slots
   and data pointers of a beam line. *)
From Coq Require Import ZArith List Bool Lia.
From Verif Require Import MBuf MBufSpec MBufMem MBufAbs MemPool Buffer BufferSpec BufferUser BufferProofs
  BufferAddMem BufferReach BufferProps BufferExample Lines LinesSpec LinesProofs LinesCopy LinesCalc.
Import ListNotations.
Local Open Scope Z_scope.

Local Notation line bs i j := (range (objects bs) i j).

(* elements of the line that are copied with a status: no beam-beam or space-charge
   elements, no field maps *)
Definition plain_line (l : list (Z * list cell)) : Prop :=
  Forall is_element l /\ Forall (fun o => ~ In (fst o) (260 :: field_types)) l.

Lemma plain_copyable l : plain_line l -> Forall copyable l /\ Forall signed_type l.
Proof.
  intros (H1 & H2). rewrite Forall_forall in H1, H2.
  split; apply Forall_forall; intros o Ho; specialize (H1 o Ho); specialize (H2 o Ho);
    unfold field_types in H2; cbn [In] in H2.
  - split; [assumption|]. lia.
  - unfold signed_type. cbn [existsb]. rewrite !orb_false_iff, !Z.eqb_neq. lia.
Qed.

(* ------------------------------------------------------------------ *)
(* C54 *)

(* Copying the elements number i, ..., j - 1 of one buffer into another one: the copy has no
   undefined behaviour whatever malloc does, the elements that were copied are the first ones
   of the line with all their arrays, the objects that were there before are unchanged, and
   the status is 0 exactly when the whole line was copied. *)
Theorem C54_copy_partial : forall bs i j b hps, reachable any bs -> reachable full_arrays b ->
  (i < j <= length (objects bs))%nat -> plain_line (line bs i j) ->
  (forall k, good_heap (hps k)) -> fits b (line bs i j) ->
  exists st b' n, copy_to_buffer hps b (b_mem bs) (entry_addr bs i) (entry_addr bs j) = Some (st, b') /\
    (n <= length (line bs i j))%nat /\ objects b' = objects b ++ firstn n (line bs i j) /\
    (st = 0 <-> n = length (line bs i j)) /\ (st = 0 \/ st = -1).
Proof.
  intros bs i j b hps HB HR Hij HP Hh HF. destruct (plain_copyable _ HP) as (C1 & C2).
  destruct (copy_line_ok bs i j b hps HB Hij C1 C2 Hh HR HF) as (st & b' & n & E & X1 & X2 & X3 & X4 & _).
  exists st, b', n. auto.
Qed.
Print Assumptions C54_copy_partial.

(* With enough room within the limits of the destination, the line is copied and no address
   in the destination changes. *)
Theorem C54_room_partial : forall bs i j b hps, reachable any bs -> reachable full_arrays b ->
  (i < j <= length (objects bs))%nat -> plain_line (line bs i j) ->
  (forall k, good_heap (hps k)) -> fits b (line bs i j) -> has_room_for b (line bs i j) ->
  exists b', copy_to_buffer hps b (b_mem bs) (entry_addr bs i) (entry_addr bs j) = Some (0, b') /\
    objects b' = objects b ++ line bs i j /\ data_addr (b_h b') = data_addr (b_h b).
Proof.
  intros bs i j b hps HB HR Hij HP Hh HF HRm. destruct (plain_copyable _ HP) as (C1 & C2).
  destruct (copy_line_ok bs i j b hps HB Hij C1 C2 Hh HR HF)
    as (st & b' & n & E & X1 & X2 & X3 & X4 & _ & X5 & _).
  destruct (X5 HRm) as (-> & Y). exists b'. split; [assumption|]. split; [|assumption].
  rewrite (proj1 X3 eq_refl), firstn_all in X2. assumption.
Qed.
Print Assumptions C54_room_partial.

(* A line is copied into a buffer that is only added to as long as malloc gives memory. *)
Theorem C54_memory_partial : forall bs i j b hps, reachable any bs -> added_only b ->
  (i < j <= length (objects bs))%nat -> plain_line (line bs i j) ->
  (forall k, good_heap (hps k)) -> fits b (line bs i j) ->
  (forall k, memory_up_to (hps k) (data_size (b_h b) +
     8 * (total words_in (line bs i j) + 3 * Z.of_nat (length (line bs i j)) +
          total pointers_in (line bs i j)) + 16)) ->
  exists b', copy_to_buffer hps b (b_mem bs) (entry_addr bs i) (entry_addr bs j) = Some (0, b') /\
    objects b' = objects b ++ line bs i j.
Proof.
  intros bs i j b hps HB AO Hij HP Hh HF HM. destruct (plain_copyable _ HP) as (C1 & C2).
  destruct (copy_line_ok bs i j b hps HB Hij C1 C2 Hh (added_reach _ AO) HF)
    as (st & b' & n & E & X1 & X2 & X3 & X4 & _ & _ & X5).
  rewrite (X5 AO HM) in *. exists b'. split; [assumption|].
  rewrite (proj1 X3 eq_refl), firstn_all in X2. assumption.
Qed.
Print Assumptions C54_memory_partial.

Lemma field_copy bs i o b hp : reachable any bs -> reachable full_arrays b ->
  nth_error (objects bs) i = Some o -> is_element o -> In (fst o) [8; 9; 13; 14] ->
  good_heap hp -> fits b [o] ->
  exists st b', copy_single hp b (b_mem bs) (entry_addr bs i) = Some (st, b') /\
    (st = 1 /\ objects b' = objects b ++ [copied o] \/ st = 0 /\ objects b' = objects b) /\
    (has_room_for b [o] -> st = 1).
Proof.
  intros HB HR HO HE HI Hh HF. destruct (reachable_inv _ _ HR) as (Ab & Ib & Vb & _).
  assert (HC : copyable o) by (split; [assumption|]; cbn [In] in HI; lia).
  destruct (copy_one bs i o hp b Ab HB HO HC Hh HR Ib Vb) as (r & b' & E & P1 & P2 & P3 & _).
  { unfold fits in HF. unfold cost. cbn [total fold_right length] in HF. lia. }
  assert (S1 : st_for (fst o) r = st_bool r).
  { unfold st_for. cbn [In] in HI. destruct HI as [<-|[<-|[<-|[<-|[]]]]]; reflexivity. }
  rewrite S1 in E. exists (st_bool r), b'. split; [assumption|]. unfold st_bool in *.
  destruct (Z.eqb_spec r 0) as [->|N].
  - split; [right; auto|]. intros X. now apply P3 in X.
  - split; [left; split; [reflexivity|now apply P1]|]. auto.
Qed.

(* One beam-beam or space-charge element (4D, coasting, q-gaussian): it is copied or not,
   but the status is 1 when it was copied and 0 when it was not. *)
Theorem C54_field_status : forall bs i o b hp, reachable any bs -> reachable full_arrays b ->
  nth_error (objects bs) i = Some o -> is_element o -> In (fst o) [8; 13; 14] ->
  good_heap hp -> fits b [o] ->
  exists st b', copy_single hp b (b_mem bs) (entry_addr bs i) = Some (st, b') /\
    (st = 1 /\ objects b' = objects b ++ [o] \/ st = 0 /\ objects b' = objects b) /\
    (has_room_for b [o] -> st = 1).
Proof.
  intros bs i o b hp HB HR HO HE HI Hh HF.
  destruct (field_copy bs i o b hp HB HR HO HE ltac:(cbn [In] in *; tauto) Hh HF) as (st & b' & E & H1 & H2).
  assert (X : copied o = o).
  { destruct o as [t c]. cbn [In fst] in HI. destruct HI as [<-|[<-|[<-|[]]]]; reflexivity. }
  rewrite X in H1. exists st, b'. auto.
Qed.
Print Assumptions C54_field_status.

(* The copy of a 6D beam-beam element (type id 9) is a 4D beam-beam element (type id 8) with
   the same words, and the status is the one of the other field elements. *)
Theorem C54_beam_beam_6d : forall bs i o b hp, reachable any bs -> reachable full_arrays b ->
  nth_error (objects bs) i = Some o -> is_element o -> fst o = 9 ->
  good_heap hp -> fits b [o] ->
  exists st b', copy_single hp b (b_mem bs) (entry_addr bs i) = Some (st, b') /\
    (st = 1 /\ objects b' = objects b ++ [(8, snd o)] \/ st = 0 /\ objects b' = objects b) /\
    (has_room_for b [o] -> st = 1).
Proof.
  intros bs i o b hp HB HR HO HE HI Hh HF.
  destruct (field_copy bs i o b hp HB HR HO HE ltac:(cbn [In]; lia) Hh HF) as (st & b' & E & H1 & H2).
  unfold copied, copied_type in H1. rewrite HI in H1. exists st, b'. auto.
Qed.
Print Assumptions C54_beam_beam_6d.

(* Interpolated space charge and field maps are never copied. *)
Theorem C54_never_copied : forall bs i o b hp, reachable any bs ->
  nth_error (objects bs) i = Some o -> In (fst o) [257; 260] ->
  copy_single hp b (b_mem bs) (entry_addr bs i) = Some (-1, b).
Proof. intros bs i o b hp HB HO HI. exact (copy_single_never hp b bs i o HB HO HI). Qed.
Print Assumptions C54_never_copied.

(* ------------------------------------------------------------------ *)
(* C55 *)

(* The numbers computed for a line are its number of elements, words and pointers, added to
   the numbers that were there. *)
Theorem C55_parameters_partial : forall bs i j no ns nd, reachable any bs ->
  (i <= j <= length (objects bs))%nat -> Forall is_element (line bs i j) ->
  Forall (fun o => ~ In (fst o) [13; 257; 260]) (line bs i j) -> 0 <= no -> 0 <= ns -> 0 <= nd ->
  no + Z.of_nat (j - i) < 2 ^ 64 -> ns + total words_in (line bs i j) < 2 ^ 64 ->
  nd + total pointers_in (line bs i j) < 2 ^ 64 ->
  calc_line (b_mem bs) (entry_addr bs i) (entry_addr bs j) (no, ns, nd) =
    Some (0, (no + Z.of_nat (length (line bs i j)), ns + total words_in (line bs i j),
              nd + total pointers_in (line bs i j))).
Proof.
  intros bs i j no ns nd HB Hij H1 H2 X1 X2 X3 X4 X5 X6. rewrite range_len by assumption.
  apply calc_line_ok; auto. rewrite Forall_forall in H1, H2. apply Forall_forall. intros o Ho. specialize (H1 o Ho).
  specialize (H2 o Ho). cbn [In] in H2. split; [assumption|lia].
Qed.
Print Assumptions C55_parameters_partial.

(* Reserving what was computed is enough: copying then succeeds without reallocation. *)
Theorem C55_reserve_partial : forall bs i j b hp no ns nd ng b1 hps,
  reachable any bs -> reachable full_arrays b -> (i < j <= length (objects bs))%nat ->
  plain_line (line bs i j) -> good_heap hp -> (forall k, good_heap (hps k)) ->
  calc_line (b_mem bs) (entry_addr bs i) (entry_addr bs j)
    (sec_count (b_mem b) 4, sec_count (b_mem b) 3, sec_count (b_mem b) 5) = Some (0, (no, ns, nd)) ->
  fits b (line bs i j) -> limits_ok no ns nd ng -> buf_reserve hp b no ns nd ng = Some (true, b1) ->
  fits b1 (line bs i j) ->
  exists b', copy_to_buffer hps b1 (b_mem bs) (entry_addr bs i) (entry_addr bs j) = Some (0, b') /\
    objects b' = objects b ++ line bs i j /\ data_addr (b_h b') = data_addr (b_h b1).
Proof.
  intros bs i j b hp no ns nd ng b1 hps HB HR Hij HP Hh Hhs EC HF HL ER HF1.
  assert (HRa : reachable any b) by (eapply reachable_mono; [|exact HR]; exact (fun _ _ => Logic.I)).
  destruct (reserve_done hp b no ns nd ng b1 HRa Hh HL ER) as (O1 & C1 & L1 & _).
  assert (HR1 : reachable full_arrays b1).
  { apply (r_keep _ b b1 HR). exact (k_reserve hp b no ns nd ng b1 Hh HL ER). }
  destruct (reachable_inv _ _ HR) as (Ab & Ib & Vb & _).
  pose proof (bi_repr _ _ Ib) as R. pose proof (ok_bounds Ab (re_ok _ _ _ R)) as (Bc & Bo & Bd & Bg).
  pose proof (total_nonneg words_in (line bs i j) words_in_nonneg).
  pose proof (total_nonneg pointers_in (line bs i j) pointers_in_nonneg).
  assert (Lr : length (line bs i j) = (j - i)%nat) by (apply range_len; lia).
  unfold fits in HF. rewrite (bi_dsize _ _ Ib) in HF. unfold tot in HF.
  assert (K : sec_count (b_mem b) 4 = zlen (a_objs Ab) /\ sec_count (b_mem b) 3 = zlen (a_cells Ab) /\
              sec_count (b_mem b) 5 = zlen (a_dps Ab)).
  { rewrite !(sec_count_ok _ _ _ R) by auto. repeat split. }
  destruct K as (K1 & K2 & K3).
  rewrite (C55_parameters_partial bs i j) in EC; try assumption; try lia; try apply HP.
  2:{ destruct HP as (_ & HP). rewrite Forall_forall in HP. apply Forall_forall. intros o Ho X. apply (HP o Ho).
      unfold field_types. cbn [In] in *. tauto. }
  assert (En : no = zlen (a_objs Ab) + Z.of_nat (length (line bs i j)) /\
    ns = zlen (a_cells Ab) + total words_in (line bs i j) /\
    nd = zlen (a_dps Ab) + total pointers_in (line bs i j)) by (repeat split; congruence).
  destruct En as (-> & -> & ->).
  assert (HRm : has_room_for b1 (line bs i j)).
  { unfold counts in C1. unfold limits in L1. cbn [map] in C1, L1. unfold has_room_for. cbv zeta.
    injection C1 as C13 C14 C15 _. injection L1 as L13 L14 L15 _.
    rewrite C13, C14, C15, L13, L14, L15, K1, K2, K3. lia. }
  rewrite <- O1. apply C54_room_partial; assumption.
Qed.
Print Assumptions C55_reserve_partial.

(* Coasting and interpolated space charge and field maps: no slots are counted. *)
Theorem C55_no_slots_refuted : forall bs i o, reachable any bs -> nth_error (objects bs) i = Some o ->
  is_element o -> In (fst o) [13; 257; 260] ->
  exists d, calc_object (b_mem bs) (entry_addr bs i) = Some (0, (1, 0, d)) /\ 9 <= words_in o.
Proof. exact calc_object_wrong. Qed.
Print Assumptions C55_no_slots_refuted.

(* ------------------------------------------------------------------ *)
(* a line of a drift, a multipole with 4 strengths, a drift, a 4D beam-beam element with
   2 values and a coasting space-charge element *)
Definition e_drift := Request ext [42] 8 2 [].
Definition e_mult := Request ext [1; 5; 6; 7; 1000] 40 4 [Attr 32 8 4].
Definition e_bb := Request ext [2; 1000] 16 8 [Attr 8 8 2].
Definition e_sc := Request ext [1; 2; 3; 4; 5; 6; 7; 8; 9] 72 13 [].

Definition l1 := added (heap_at 8192) x0 e_drift.
Definition l2 := added (heap_at 16384) l1 e_mult.
Definition l3 := added (heap_at 32768) l2 e_drift.
Definition l4 := added (heap_at 65536) l3 e_bb.
Definition l5 := added (heap_at 131072) l4 e_drift.
Definition l6 := added (heap_at 262144) l5 e_sc.

Lemma no_attr_call ws n t : n = wcount ws -> 0 < n -> words64 ws ->
  call_ok (rq_mem (Request ext ws (8 * n) t [])) ws (8 * n) [].
Proof.
  intros -> H W. split; try (intros x []); try lia.
  - unfold words_of. rewrite Z.add_comm, (Z.mul_comm 8), Z.div_add by lia. change (7 / 8) with 0. lia.
  - exact W.
  - constructor.
Qed.

Ltac w64 := repeat (constructor; [split; [vm_compute; discriminate|reflexivity]|]); constructor.

Lemma e_drift_call : call_ok (rq_mem e_drift) (rq_obj e_drift) (rq_size e_drift) (rq_attrs e_drift).
Proof. apply (no_attr_call [42] 1 2); [reflexivity|reflexivity|w64]. Qed.
Lemma e_sc_call : call_ok (rq_mem e_sc) (rq_obj e_sc) (rq_size e_sc) (rq_attrs e_sc).
Proof. apply (no_attr_call [1; 2; 3; 4; 5; 6; 7; 8; 9] 9 13); [reflexivity|reflexivity|w64]. Qed.
Lemma e_mult_call : call_ok (rq_mem e_mult) (rq_obj e_mult) (rq_size e_mult) (rq_attrs e_mult).
Proof.
  split.
  - reflexivity.
  - vm_compute. discriminate.
  - repeat constructor; (vm_compute; discriminate) || reflexivity.
  - one_attr. cbn. repeat split; lia.
  - cbn. constructor; [auto|constructor].
  - one_attr. lia.
  - intros x [<-|[]] j Hj _. change (attr_bytes (Attr 32 8 4)) with 32 in Hj.
    change (wnth (rq_obj e_mult) (at_offset (Attr 32 8 4) / 8)) with 1000. apply ext_some. lia.
Qed.
Lemma e_bb_call : call_ok (rq_mem e_bb) (rq_obj e_bb) (rq_size e_bb) (rq_attrs e_bb).
Proof.
  split.
  - reflexivity.
  - vm_compute. discriminate.
  - repeat constructor; (vm_compute; discriminate) || reflexivity.
  - one_attr. cbn. repeat split; lia.
  - cbn. constructor; [auto|constructor].
  - one_attr. lia.
  - intros x [<-|[]] j Hj _. change (attr_bytes (Attr 8 8 2)) with 16 in Hj.
    change (wnth (rq_obj e_bb) (at_offset (Attr 8 8 2) / 8)) with 1000. apply ext_some. lia.
Qed.

Ltac step h prev q b b' call :=
  let E := fresh in
  assert (E : exists r, r <> 0 /\ add h b q = Some (r, b'))
    by (eexists; split; [|vm_compute; reflexivity]; discriminate);
  destruct E as (r & Hr & E);
  apply (ao_add h b q r b' prev); [good|split; [exact call|vm_compute; reflexivity]| |exact E|exact Hr];
  intros x Hx; cbn [rq_attrs In q] in Hx; repeat (destruct Hx as [<-|Hx]; [reflexivity|]); destruct Hx.

Lemma l1_added : added_only l1. Proof. step (heap_at 8192) x0_added e_drift x0 l1 e_drift_call. Qed.
Lemma l2_added : added_only l2. Proof. step (heap_at 16384) l1_added e_mult l1 l2 e_mult_call. Qed.
Lemma l3_added : added_only l3. Proof. step (heap_at 32768) l2_added e_drift l2 l3 e_drift_call. Qed.
Lemma l4_added : added_only l4. Proof. step (heap_at 65536) l3_added e_bb l3 l4 e_bb_call. Qed.
Lemma l5_added : added_only l5. Proof. step (heap_at 131072) l4_added e_drift l4 l5 e_drift_call. Qed.
Lemma l6_added : added_only l6. Proof. step (heap_at 262144) l5_added e_sc l5 l6 e_sc_call. Qed.

Definition strengths : list Z :=
  [17289017621348018664; 17867739004052632048; 18446460386757245432; 506097522914230528].
Definition heaps (k : nat) : heap := heap_at (1048576 * (Z.of_nat k + 1)).
(* the destination with room for 10 objects *)
Definition xt := reserved (heap_at 524288) x2 10 100 10 0.

Lemma l6_objects : objects l6 =
  [(2, [Raw 42]);
   (4, [Raw 1; Raw 5; Raw 6; Raw 7; Ptr 40] ++ map Raw strengths);
   (2, [Raw 42]);
   (8, [Raw 2; Ptr 16] ++ map Raw (firstn 2 strengths));
   (2, [Raw 42]);
   (13, map Raw [1; 2; 3; 4; 5; 6; 7; 8; 9])].
Proof. vm_compute. reflexivity. Qed.

Lemma is_drift : is_element (2, [Raw 42]).
Proof.
  exists 8, [42], []. split; [reflexivity|]. split; [reflexivity|]. split; [w64|].
  split; [constructor|reflexivity].
Qed.
Lemma is_mult : is_element (4, [Raw 1; Raw 5; Raw 6; Raw 7; Ptr 40] ++ map Raw strengths).
Proof.
  exists 40, [1; 5; 6; 7; 0], [strengths]. split; [reflexivity|]. split; [reflexivity|]. split; [w64|].
  split; [|reflexivity]. constructor; [|constructor]. split; [reflexivity|]. split; [reflexivity|w64].
Qed.
Lemma is_bb : is_element (8, [Raw 2; Ptr 16] ++ map Raw (firstn 2 strengths)).
Proof.
  exists 16, [2; 0], [firstn 2 strengths]. split; [reflexivity|]. split; [reflexivity|]. split; [w64|].
  split; [|reflexivity]. constructor; [|constructor]. split; [reflexivity|]. split; [reflexivity|w64].
Qed.
Lemma is_sc : is_element (13, map Raw [1; 2; 3; 4; 5; 6; 7; 8; 9]).
Proof.
  exists 72, [1; 2; 3; 4; 5; 6; 7; 8; 9], []. split; [reflexivity|]. split; [reflexivity|].
  split; [w64|]. split; [constructor|reflexivity].
Qed.

Lemma plain_l6 : plain_line (line l6 0 3).
Proof.
  rewrite l6_objects. unfold range. cbn [Nat.sub skipn firstn]. split.
  - constructor; [exact is_drift|]. constructor; [exact is_mult|]. constructor; [exact is_drift|constructor].
  - repeat (constructor; [cbn [fst In field_types]; lia|]). constructor.
Qed.

Lemma heaps_good k : good_heap (heaps (k mod 8)).
Proof.
  apply heap_at_good. pose proof (Nat.mod_upper_bound k 8 ltac:(lia)).
  assert (1048576 * 9 < 2 ^ 32) by reflexivity. lia.
Qed.

(* The hypotheses of C54_copy, C54_memory and C55_parameters hold for the first three elements
   of l6 and the destination x2; those of C54_room and C55_reserve for xt. *)
Example C54_example : reachable any l6 /\ added_only x2 /\ plain_line (line l6 0 3) /\
  fits x2 (line l6 0 3) /\ length (objects l6) = 6%nat /\ length (objects x2) = 2%nat /\
  (forall k, memory_up_to (heaps (k mod 8)) 1000) /\
  buf_reserve (heap_at 524288) x2 10 100 10 0 = Some (true, xt) /\
  has_room_for xt (line l6 0 3) /\ fits xt (line l6 0 3) /\
  exists b', copy_to_buffer (fun k => heaps (k mod 8)) x2 (b_mem l6) (entry_addr l6 0) (entry_addr l6 3)
      = Some (0, b') /\ objects b' = objects x2 ++ firstn 3 (objects l6).
Proof.
  split; [exact (added_any _ l6_added)|]. split; [exact x2_added|]. split; [exact plain_l6|].
  split; [vm_compute; reflexivity|]. split; [vm_compute; reflexivity|]. split; [vm_compute; reflexivity|].
  split; [intros k; apply heap_at_memory; lia|]. split; [vm_compute; reflexivity|].
  split; [vm_compute; repeat split; discriminate|]. split; [vm_compute; reflexivity|].
  destruct (C54_memory_partial l6 0 3 x2 (fun k => heaps (k mod 8)) (added_any _ l6_added) x2_added)
    as (b' & E & O).
  - vm_compute. lia.
  - exact plain_l6.
  - intros k. apply heaps_good.
  - vm_compute. reflexivity.
  - intros k. apply heap_at_memory; [lia|]. vm_compute. reflexivity.
  - exists b'. split; [exact E|]. exact O.
Qed.
Print Assumptions C54_example.

(* The line of the beam-beam element and the drift behind it: status 1, the drift is missing,
   although there is room. *)
Theorem C54_field_refuted : exists bs i j b hps b', reachable any bs /\ reachable full_arrays b /\
  (i < j <= length (objects bs))%nat /\ Forall is_element (line bs i j) /\ fits b (line bs i j) /\
  has_room_for b (line bs i j) /\ (forall k, good_heap (hps k)) /\
  copy_to_buffer hps b (b_mem bs) (entry_addr bs i) (entry_addr bs j) = Some (1, b') /\
  objects b' = objects b ++ firstn 1 (line bs i j) /\ length (line bs i j) = 2%nat.
Proof.
  exists l6, 3%nat, 5%nat, xt, (fun k => heaps (k mod 8)),
    (snd (get (0, no_buffer) (copy_to_buffer (fun k => heaps (k mod 8)) xt (b_mem l6) (entry_addr l6 3) (entry_addr l6 5)))).
  split; [exact (added_any _ l6_added)|]. split.
  { apply (r_keep _ x2); [exact (added_full _ x2_added)|].
    apply (k_reserve (heap_at 524288) x2 10 100 10 0); [good| |vm_compute; reflexivity].
    repeat split; try lia; reflexivity. }
  split; [vm_compute; lia|]. split.
  { rewrite l6_objects. unfold range. cbn [Nat.sub skipn firstn].
    constructor; [exact is_bb|]. constructor; [exact is_drift|constructor]. }
  split; [vm_compute; reflexivity|]. split; [vm_compute; repeat split; discriminate|].
  split; [intros k; apply heaps_good|]. split; [vm_compute; reflexivity|].
  split; vm_compute; reflexivity.
Qed.
Print Assumptions C54_field_refuted.

(* A line of one 6D beam-beam element is copied with room and memory, but the copy is another
   element. *)
Definition e_bb6 := Request ext (rq_obj e_bb) (rq_size e_bb) 9 (rq_attrs e_bb).
Definition m4 := added (heap_at 65536) l3 e_bb6.

Theorem C54_beam_beam_6d_refuted : exists bs i o b hp b', reachable any bs /\ reachable full_arrays b /\
  nth_error (objects bs) i = Some o /\ is_element o /\ fst o = 9 /\ good_heap hp /\
  fits b [o] /\ has_room_for b [o] /\
  copy_single hp b (b_mem bs) (entry_addr bs i) = Some (1, b') /\
  objects b' = objects b ++ [(8, snd o)].
Proof.
  assert (M : added_only m4) by (step (heap_at 65536) l3_added e_bb6 l3 m4 e_bb_call).
  exists m4, 3%nat, (9, [Raw 2; Ptr 16] ++ map Raw (firstn 2 strengths)), xt, (heaps 0),
    (snd (get (0, no_buffer) (copy_single (heaps 0) xt (b_mem m4) (entry_addr m4 3)))).
  split; [exact (added_any _ M)|]. split.
  { apply (r_keep _ x2); [exact (added_full _ x2_added)|].
    apply (k_reserve (heap_at 524288) x2 10 100 10 0); [good| |vm_compute; reflexivity].
    repeat split; try lia; reflexivity. }
  split; [vm_compute; reflexivity|]. split.
  { exists 16, [2; 0], [firstn 2 strengths]. split; [reflexivity|]. split; [reflexivity|]. split; [w64|].
    split; [|reflexivity]. constructor; [|constructor]. split; [reflexivity|]. split; [reflexivity|w64]. }
  split; [reflexivity|]. split; [exact (heaps_good 0)|].
  split; [vm_compute; reflexivity|]. split; [vm_compute; repeat split; discriminate|].
  split; vm_compute; reflexivity.
Qed.
Print Assumptions C54_beam_beam_6d_refuted.

(* Without memory the beam-beam element is not copied and the status is 0. *)
Theorem C54_silent_refuted : exists bs i j b hps, reachable any bs /\ reachable full_arrays b /\
  (i < j <= length (objects bs))%nat /\ Forall is_element (line bs i j) /\ fits b (line bs i j) /\
  (forall k, good_heap (hps k)) /\
  copy_to_buffer hps b (b_mem bs) (entry_addr bs i) (entry_addr bs j) = Some (0, b).
Proof.
  exists l6, 3%nat, 4%nat, x2, (fun _ => heap_none).
  split; [exact (added_any _ l6_added)|]. split; [exact (added_full _ x2_added)|].
  split; [vm_compute; lia|]. split.
  { rewrite l6_objects. unfold range. cbn [Nat.sub skipn firstn]. constructor; [exact is_bb|constructor]. }
  split; [vm_compute; reflexivity|]. split; [intros k; exact heap_none_good|].
  vm_compute. reflexivity.
Qed.
Print Assumptions C54_silent_refuted.

Example C55_example : calc_line (b_mem l6) (entry_addr l6 0) (entry_addr l6 5) (0, 0, 0) = Some (0, (5, 16, 2)) /\
  limits_ok 10 100 10 0 /\
  nth_error (objects l6) 5 = Some (13, map Raw [1; 2; 3; 4; 5; 6; 7; 8; 9]) /\
  is_element (13, map Raw [1; 2; 3; 4; 5; 6; 7; 8; 9]) /\
  calc_line (b_mem l6) (entry_addr l6 0) (entry_addr l6 6) (0, 0, 0) = Some (0, (6, 16, 2)).
Proof.
  split; [vm_compute; reflexivity|]. split; [repeat split; try lia; reflexivity|].
  split; [rewrite l6_objects; reflexivity|]. split; [exact is_sc|]. vm_compute. reflexivity.
Qed.
