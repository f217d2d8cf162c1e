(* C67: creating, in a buffer, default elements for the elements of a beam line. *)
From Coq Require Import ZArith List Bool Lia.
From Verif Require Import MBuf MBufSpec MBufMem MBufAbs MemPool Buffer BufferSpec BufferUser BufferProofs
  BufferAddMem BufferReach BufferProps BufferExample Lines LinesSpec LinesProofs LinesCopy PropertiesLines
  ElementAdd ElementAddSpec ElementAddProofs PropertiesElementAdd ElementNew ElementNewSpec ElementNewProofs.
Import ListNotations.
Local Open Scope Z_scope.

Local Notation line bs i j := (range (objects bs) i j).

(* the size of the data of a 4D beam-beam element is at least 11 *)
Definition data_sizes (l : list (Z * list cell)) : Prop :=
  Forall (fun o => fst o = 8 -> 11 <= number o 0) l.

Lemma creatable_reported l : Forall is_element l -> Forall reported l -> Forall creatable l.
Proof.
  intros H1 H2. rewrite Forall_forall in *. intros o Ho. specialize (H1 o Ho). specialize (H2 o Ho).
  unfold reported, reported_types in H2. cbn [In] in H2. split; [exact H1|]. lia.
Qed.

Lemma creatable_inverted o : is_element o -> In (fst o) inverted_types -> data_sizes [o] -> creatable o.
Proof.
  intros H1 H2 H3. unfold inverted_types in H2. cbn [In] in H2. split; [exact H1|]. split; [lia|]. split; [lia|].
  exact (Forall_inv H3).
Qed.

Lemma inverted_status (o : Z * list cell) r : In (fst o) inverted_types -> status_for (fst o) r = st_bool r.
Proof.
  unfold inverted_types. cbn [In]. intros H. unfold status_for.
  repeat (destruct H as [<-|H]; [reflexivity|]). destruct H.
Qed.

Lemma new_line F bs i j b hps st : doubles F -> limits_squared F -> reachable any bs -> reachable full_arrays b ->
  (i < j <= length (objects bs))%nat -> Forall is_element (line bs i j) ->
  Forall (fun o => In (fst o) reported_types) (line bs i j) ->
  (forall k, good_heap (hps k)) -> fits b (line bs i j) ->
  exists r b' n, add_new_to_buffer F hps st b (b_mem bs) (entry_addr bs i) (entry_addr bs j) = Some (r, b') /\
    (n <= length (line bs i j))%nat /\ objects b' = objects b ++ map (blank F) (firstn n (line bs i j)) /\
    (r = 0 <-> n = length (line bs i j)) /\ (r = 0 \/ r = -1) /\
    (has_room_for b (line bs i j) -> r = 0 /\ data_addr (b_h b') = data_addr (b_h b)) /\
    (added_only b -> (forall k, memory_up_to (hps k) (data_size (b_h b) + line_cost (line bs i j) + 16)) -> r = 0).
Proof.
  intros DF LS HB HR Hij HE HT Hh HF. rewrite new_to_buffer_eq by (assumption || lia).
  destruct (reachable_inv _ _ HR) as (Ab & Ib & Vb & _). set (l := line bs i j) in *.
  assert (Ll : length l = (j - i)%nat) by (apply range_len; lia).
  destruct (new_loop_ok F bs DF LS HB l 0 i b Ab hps st) as [(b' & n & E & N1 & N2 & N3 & N4)|(b' & Ab' & E & N1 & N2)];
    auto using creatable_reported.
  { intros k o Hk. rewrite <- Hk. symmetry. apply range_nth. rewrite <- Ll. apply nth_error_Some. congruence. }
  - rewrite Nat.add_0_r, Ll in E. exists (-1), b', n. split; [exact E|]. split; [lia|]. split; [exact N2|].
    split; [lia|]. split; [auto|]. split; [now intros X|]. intros AO MM. now elim N4.
  - rewrite Nat.add_0_r, Ll in E. cbn [new_loop] in E. exists 0, b', (length l). split; [exact E|]. split; [lia|].
    rewrite firstn_all. split; [exact N1|]. split; [tauto|]. split; [auto|]. split; [|auto].
    intros X. split; [reflexivity|]. destruct N2 as (_ & _ & _ & _ & _ & _ & _ & N2 & _).
    destruct (N2 []) as (_ & _ & _ & Y); [now rewrite app_nil_r|exact Y].
Qed.

(* For a line of drifts, multipoles, cavities, shifts, rotations and field maps: no undefined
   behaviour, whatever malloc does and whatever is on the stack; the new objects are default
   elements for the first elements of the line, of the same kinds and sizes; the other objects
   are unchanged; the status is 0 exactly if there is a new element for every element of the
   line. *)
Theorem C67_new_partial : forall F bs i j b hps st, doubles F -> limits_squared F ->
  reachable any bs -> reachable full_arrays b ->
  (i < j <= length (objects bs))%nat -> Forall is_element (line bs i j) ->
  Forall (fun o => In (fst o) reported_types) (line bs i j) ->
  (forall k, good_heap (hps k)) -> fits b (line bs i j) ->
  exists r b' n, add_new_to_buffer F hps st b (b_mem bs) (entry_addr bs i) (entry_addr bs j) = Some (r, b') /\
    (n <= length (line bs i j))%nat /\ objects b' = objects b ++ map (blank F) (firstn n (line bs i j)) /\
    (r = 0 <-> n = length (line bs i j)) /\ (r = 0 \/ r = -1).
Proof.
  intros F bs i j b hps st DF LS HB HR Hij HE HT Hh HF.
  destruct (new_line F bs i j b hps st DF LS HB HR Hij HE HT Hh HF) as (r & b' & n & E & X1 & X2 & X3 & X4 & _).
  exists r, b', n. auto.
Qed.
Print Assumptions C67_new_partial.

(* With room within the limits of the buffer all elements are created and nothing moves. *)
Theorem C67_room_partial : forall F bs i j b hps st, doubles F -> limits_squared F ->
  reachable any bs -> reachable full_arrays b ->
  (i < j <= length (objects bs))%nat -> Forall is_element (line bs i j) ->
  Forall (fun o => In (fst o) reported_types) (line bs i j) ->
  (forall k, good_heap (hps k)) -> fits b (line bs i j) -> has_room_for b (line bs i j) ->
  exists b', add_new_to_buffer F hps st b (b_mem bs) (entry_addr bs i) (entry_addr bs j) = Some (0, b') /\
    objects b' = objects b ++ map (blank F) (line bs i j) /\ data_addr (b_h b') = data_addr (b_h b).
Proof.
  intros F bs i j b hps st DF LS HB HR Hij HE HT Hh HF Rm.
  destruct (new_line F bs i j b hps st DF LS HB HR Hij HE HT Hh HF) as (r & b' & n & E & X1 & X2 & X3 & _ & X5 & _).
  destruct (X5 Rm) as (-> & Y). rewrite (proj1 X3 eq_refl), firstn_all in X2. exists b'. auto.
Qed.
Print Assumptions C67_room_partial.

(* In a buffer that is only added to all elements are created as long as malloc gives memory. *)
Theorem C67_memory_partial : forall F bs i j b hps st, doubles F -> limits_squared F ->
  reachable any bs -> added_only b ->
  (i < j <= length (objects bs))%nat -> Forall is_element (line bs i j) ->
  Forall (fun o => In (fst o) reported_types) (line bs i j) ->
  (forall k, good_heap (hps k)) -> fits b (line bs i j) ->
  (forall k, memory_up_to (hps k) (data_size (b_h b) +
     8 * (total words_in (line bs i j) + 3 * Z.of_nat (length (line bs i j)) +
          total pointers_in (line bs i j)) + 16)) ->
  exists b', add_new_to_buffer F hps st b (b_mem bs) (entry_addr bs i) (entry_addr bs j) = Some (0, b') /\
    objects b' = objects b ++ map (blank F) (line bs i j).
Proof.
  intros F bs i j b hps st DF LS HB AO Hij HE HT Hh HF MM.
  destruct (new_line F bs i j b hps st DF LS HB (added_reach _ AO) Hij HE HT Hh HF)
    as (r & b' & n & E & X1 & X2 & X3 & _ & _ & X6).
  assert (r = 0) as -> by exact (X6 AO MM). rewrite (proj1 X3 eq_refl), firstn_all in X2. exists b'. auto.
Qed.
Print Assumptions C67_memory_partial.

(* One beam-beam or space-charge element, monitor, aperture or dipole edge: the new element is
   the wanted one, but the status is 1 if it was created and 0 if not. *)
Theorem C67_status : forall F bs i o b hp stack, doubles F -> limits_squared F ->
  reachable any bs -> reachable full_arrays b -> nth_error (objects bs) i = Some o -> is_element o ->
  In (fst o) inverted_types -> data_sizes [o] -> good_heap hp -> fits b [o] ->
  exists r b', add_single_new F hp b stack (b_mem bs) (entry_addr bs i) = Some (r, b') /\
    (r = 1 /\ objects b' = objects b ++ [blank F o] \/ r = 0 /\ objects b' = objects b) /\
    (has_room_for b [o] -> r = 1).
Proof.
  intros F bs i o b hp stack DF LS HB HR HO HE HT HS Hh HF. destruct (reachable_inv _ _ HR) as (Ab & Ib & Vb & _).
  destruct (new_one F bs i o hp b Ab stack DF LS HB HO (creatable_inverted o HE HT HS) Hh HR Ib Vb)
    as (r & b' & E & P1 & P2 & P3 & _).
  { unfold fits in HF. unfold cost. cbn [total fold_right length] in HF. lia. }
  rewrite (inverted_status o r HT) in E. exists (st_bool r), b'. split; [exact E|]. unfold st_bool.
  destruct (Z.eqb_spec r 0) as [->|N].
  - split; [right; auto|]. intros X. now apply P3 in X.
  - split; [left; split; [reflexivity|now apply P1]|]. auto.
Qed.
Print Assumptions C67_status.

(* So the first such element that is created ends the work on the line: the elements behind
   it get no new element, even with room for all of them. *)
Theorem C67_stops : forall F bs i j b hps st before o behind, doubles F -> limits_squared F ->
  reachable any bs -> reachable full_arrays b ->
  (i < j <= length (objects bs))%nat -> line bs i j = before ++ o :: behind ->
  Forall is_element (line bs i j) -> Forall (fun o => In (fst o) reported_types) before ->
  In (fst o) inverted_types -> data_sizes [o] ->
  (forall k, good_heap (hps k)) -> fits b (line bs i j) -> has_room_for b (line bs i j) ->
  exists b', add_new_to_buffer F hps st b (b_mem bs) (entry_addr bs i) (entry_addr bs j) = Some (1, b') /\
    objects b' = objects b ++ map (blank F) (before ++ [o]).
Proof.
  intros F bs i j b hps st l1 o l2 DF LS HB HR Hij HL HE HT HI HS Hh HF Rm.
  rewrite new_to_buffer_eq by (assumption || lia).
  destruct (reachable_inv _ _ HR) as (Ab & Ib & Vb & _).
  assert (Ll : length (line bs i j) = (j - i)%nat) by (apply range_len; lia).
  assert (NT : forall k x, nth_error (line bs i j) k = Some x -> nth_error (objects bs) (i + k) = Some x).
  { intros k x Hk. rewrite <- Hk. symmetry. apply range_nth. rewrite <- Ll. apply nth_error_Some. congruence. }
  rewrite HL in *. apply Forall_app in HE. destruct HE as (HE1 & HE2).
  assert (Lj : (j - i = length l1 + S (length l2))%nat) by (rewrite <- Ll, app_length; reflexivity). rewrite Lj.
  assert (HF' : data_size (b_h b) + line_cost (l1 ++ o :: l2) + 32 < 2 ^ 64) by exact HF.
  rewrite line_cost_app, line_cost_cons in HF'. pose proof (line_cost_nonneg l2). pose proof (line_cost_nonneg l1).
  assert (C0 : 0 <= cost o).
  { unfold cost. pose proof (words_in_nonneg o). pose proof (pointers_in_nonneg o). lia. }
  destruct (new_loop_ok F bs DF LS HB l1 (S (length l2)) i b Ab hps st) as [(b' & n & E & N1 & N2 & N3 & N4)|(b' & Ab' & E & N1 & N2)];
    auto using creatable_reported.
  { intros k x Hk. apply NT. rewrite nth_error_app1; [exact Hk|]. apply nth_error_Some. congruence. }
  { lia. }
  { elim N3. exact (room_prefix b Ab l1 (o :: l2) Ib Vb Rm). }
  pose proof (room_after b b' Ab Ab' l1 (o :: l2) Ib Vb N2 Rm) as Rm'.
  destruct N2 as (HR' & Ib' & Vb' & _ & _ & _ & Dz & _ & _).
  assert (HO : nth_error (objects bs) (i + length l1) = Some o).
  { apply NT. rewrite nth_error_app2, Nat.sub_diag by lia. reflexivity. }
  destruct (new_one F bs (i + length l1) o (hps (length l1 + 0)%nat) b' Ab' (st (length l1 + 0)%nat) DF LS HB HO)
    as (r & b2 & E2 & P1 & _ & P3 & _); auto.
  { apply creatable_inverted; [|assumption|assumption]. exact (Forall_inv HE2). }
  { lia. }
  assert (Hr : r <> 0) by (apply P3; exact (room_prefix b' Ab' [o] l2 Ib' Vb' Rm')).
  rewrite (inverted_status o r HI) in E2. unfold st_bool in E2. rewrite (proj2 (Z.eqb_neq r 0) Hr) in E2.
  rewrite E. cbn [new_loop]. rewrite E2. cbn [bind]. change (1 =? 0) with false. cbn iota.
  exists b2. split; [reflexivity|]. destruct (P1 Hr) as (_ & O2 & _). rewrite O2, N1, map_app, app_assoc. reflexivity.
Qed.
Print Assumptions C67_stops.

(* ------------------------------------------------------------------ *)
Definition l7 := added (heap_at 524288) l6 e_drift.
Lemma l7_added : added_only l7. Proof. step (heap_at 524288) l6_added e_drift l6 l7 e_drift_call. Qed.
Definition garbage (k j : nat) : Z := 77.
Definition hps (k : nat) : heap := heaps (k mod 8).

Lemma l7_objects : objects l7 = objects l6 ++ [(2, [Raw 42])].
Proof. vm_compute. reflexivity. Qed.

Lemma fx_doubles : doubles fx.
Proof.
  split; [split; [vm_compute; discriminate|reflexivity]|]. split; [split; [vm_compute; discriminate|reflexivity]|].
  intros x y. split; [vm_compute; discriminate|reflexivity].
Qed.

Lemma xt_full : reachable full_arrays xt.
Proof.
  apply (r_keep _ x2); [exact (added_full _ x2_added)|].
  apply (k_reserve (heap_at 524288) x2 10 100 10 0); [good| |vm_compute; reflexivity].
  repeat split; try lia; reflexivity.
Qed.

(* A drift, a multipole and a drift. *)
Example C67_example : doubles fx /\ limits_squared fx /\ reachable any l7 /\ added_only x2 /\
  (0 < 3 <= length (objects l7))%nat /\ Forall is_element (line l7 0 3) /\
  Forall (fun o => In (fst o) reported_types) (line l7 0 3) /\
  (forall k, good_heap (hps k)) /\ fits x2 (line l7 0 3) /\
  (forall k, memory_up_to (hps k) (data_size (b_h x2) + 8 * (total words_in (line l7 0 3) +
     3 * Z.of_nat (length (line l7 0 3)) + total pointers_in (line l7 0 3)) + 16)) /\
  map (blank fx) (line l7 0 3) =
    [(2, [Raw 0]); (4, map Raw [1; 0; 0; 0] ++ [Ptr 40] ++ map Raw [0; 0; 0; 0]); (2, [Raw 0])] /\
  reachable full_arrays xt /\ fits xt (line l7 5 7) /\ has_room_for xt (line l7 5 7) /\
  Forall is_element (line l7 5 7) /\ map fst (line l7 5 7) = [13; 2].
Proof.
  split; [exact fx_doubles|]. split; [exact fx_limits|]. split; [exact (added_any _ l7_added)|]. split; [exact x2_added|].
  split; [rewrite l7_objects, l6_objects; cbn; lia|]. split; [|split; [|split; [|split; [|split; [|split; [|split; [|split; [|split; [|split]]]]]]]]].
  - rewrite l7_objects, l6_objects. unfold range. cbn [Nat.sub skipn firstn app].
    constructor; [exact is_drift|]. constructor; [exact is_mult|]. constructor; [exact is_drift|constructor].
  - rewrite l7_objects, l6_objects. unfold range. cbn [Nat.sub skipn firstn app].
    repeat (constructor; [cbn; tauto|]). constructor.
  - intros k. apply heaps_good.
  - vm_compute. reflexivity.
  - intros k. apply heap_at_memory; [lia|]. vm_compute. reflexivity.
  - vm_compute. reflexivity.
  - exact xt_full.
  - vm_compute. reflexivity.
  - vm_compute. repeat split; discriminate.
  - rewrite l7_objects, l6_objects. unfold range. cbn [Nat.sub skipn firstn app].
    constructor; [exact is_sc|]. constructor; [exact is_drift|constructor].
  - vm_compute. reflexivity.
Qed.
Print Assumptions C67_example.

(* A space-charge element and a drift: the drift is missing although there is room. *)
Theorem C67_line_refuted : exists F bs i j b hps st b', doubles F /\ limits_squared F /\ reachable any bs /\
  reachable full_arrays b /\ (i < j <= length (objects bs))%nat /\ Forall is_element (line bs i j) /\
  fits b (line bs i j) /\ has_room_for b (line bs i j) /\ (forall k, good_heap (hps k)) /\
  add_new_to_buffer F hps st b (b_mem bs) (entry_addr bs i) (entry_addr bs j) = Some (1, b') /\
  objects b' = objects b ++ map (blank F) (firstn 1 (line bs i j)) /\ length (line bs i j) = 2%nat.
Proof.
  destruct C67_example as (X1 & X2 & X3 & _ & _ & _ & _ & X4 & _ & _ & _ & X5 & X6 & X7 & X8 & X9).
  destruct (C67_stops fx l7 5 7 xt hps garbage [] (13, map Raw [1; 2; 3; 4; 5; 6; 7; 8; 9]) [(2, [Raw 42])])
    as (b' & E & O); auto.
  - cbn. tauto.
  - constructor; [cbn [fst]; lia|constructor].
  - exists fx, l7, 5%nat, 7%nat, xt, hps, garbage, b'. split; [exact X1|]. split; [exact X2|]. split; [exact X3|].
    split; [exact X5|]. split; [rewrite l7_objects, l6_objects; cbn; lia|]. split; [exact X8|]. split; [exact X6|].
    split; [exact X7|]. split; [exact X4|]. split; [exact E|].
    rewrite O. split; [f_equal|]; rewrite l7_objects, l6_objects; reflexivity.
Qed.
Print Assumptions C67_line_refuted.

(* Without memory nothing is created for the space-charge element and the status is 0. *)
Theorem C67_silent_refuted : exists F bs i j b hps st, doubles F /\ limits_squared F /\ reachable any bs /\
  reachable full_arrays b /\ (i < j <= length (objects bs))%nat /\ Forall is_element (line bs i j) /\
  fits b (line bs i j) /\ (forall k, good_heap (hps k)) /\
  add_new_to_buffer F hps st b (b_mem bs) (entry_addr bs i) (entry_addr bs j) = Some (0, b).
Proof.
  exists fx, l7, 5%nat, 6%nat, x2, (fun _ => heap_none), garbage.
  split; [exact fx_doubles|]. split; [exact fx_limits|]. split; [exact (added_any _ l7_added)|].
  split; [exact (added_full _ x2_added)|]. split; [rewrite l7_objects, l6_objects; cbn; lia|]. split.
  { rewrite l7_objects, l6_objects. unfold range. cbn [Nat.sub skipn firstn app]. constructor; [exact is_sc|constructor]. }
  split; [vm_compute; reflexivity|]. split; [intros k; exact heap_none_good|]. vm_compute. reflexivity.
Qed.
Print Assumptions C67_silent_refuted.
