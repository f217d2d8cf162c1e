(* C68: beam monitors for the end of every turn. *)
From Coq Require Import ZArith List Bool Lia.
From Verif Require Import MBuf MBufSpec MBufMem MBufAbs MemPool Buffer BufferSpec BufferUser BufferProofs
  BufferAddMem BufferReach BufferProps BufferExample Lines LinesSpec LinesProofs LinesCopy PropertiesLines
  ElementAdd ElementAddSpec ElementAddProofs PropertiesElementAdd ElementNew ElementNewSpec ElementNewProofs
  PropertiesElementNew Elements MonitorSpec EndOfTurn EndOfTurnSpec EndOfTurnProofs.
Import ListNotations.
Local Open Scope Z_scope.

(* Monitors added behind the last element of a line: no undefined behaviour, whatever malloc
   does and whatever is on the stack, if the first one fits; the new objects are the wanted
   monitors, or the first of them; the others are unchanged; success is reported exactly if
   all wanted monitors are there. *)
Theorem C68_append_partial : forall F hps st b start num target skip, (forall k, good_heap (hps k)) ->
  limits_squared F -> reachable full_arrays b ->
  int64_number (start + num) -> target - (start + num) < 2 ^ 63 ->
  data_size (b_h b) + 176 + 32 < 2 ^ 64 ->
  num <= 0 \/ has_room_for b (first_monitor start num) ->
  exists r b' n, insert_monitors F hps st b start num target skip (objects_end b) = Some (r, b') /\
    (n <= length (end_of_turn start num target skip))%nat /\
    objects b' = objects b ++ firstn n (end_of_turn start num target skip) /\
    (r = 0 <-> n = length (end_of_turn start num target skip)) /\ (r = 0 \/ r = -1).
Proof.
  intros F hps st b start num target skip Hh LS HR HN HT HD HF.
  destruct (insert_ok F hps st b start num target skip Hh LS HR HN HT HD) as (r & b' & n & X).
  destruct X as (X1 & X2 & X3 & X4 & X5 & _); [tauto|]. exists r, b', n. auto.
Qed.
Print Assumptions C68_append_partial.

(* With room within the limits all wanted monitors are there and nothing moves. *)
Theorem C68_room : forall F hps st b start num target skip, (forall k, good_heap (hps k)) ->
  limits_squared F -> reachable full_arrays b ->
  int64_number (start + num) -> target - (start + num) < 2 ^ 63 ->
  data_size (b_h b) + 176 + 32 < 2 ^ 64 -> has_room_for b (end_of_turn start num target skip) ->
  exists b', insert_monitors F hps st b start num target skip (objects_end b) = Some (0, b') /\
    objects b' = objects b ++ end_of_turn start num target skip /\ data_addr (b_h b') = data_addr (b_h b).
Proof.
  intros F hps st b start num target skip Hh LS HR HN HT HD HF.
  destruct (insert_ok F hps st b start num target skip Hh LS HR HN HT HD) as (r & b' & n & X).
  destruct X as (X1 & X2 & X3 & X4 & _ & X5 & _).
  { destruct (reachable_inv _ _ HR) as (Ab & Ib & Vb & _). right. left. exact (room_prefix b Ab _ _ Ib Vb HF). }
  destruct (X5 HF) as (-> & Y). rewrite (proj1 X4 eq_refl), firstn_all in X3. exists b'. auto.
Qed.
Print Assumptions C68_room.

(* The same for a buffer that was only added to, as long as malloc gives memory. *)
Theorem C68_memory : forall F hps st b start num target skip, (forall k, good_heap (hps k)) ->
  limits_squared F -> added_only b ->
  int64_number (start + num) -> target - (start + num) < 2 ^ 63 ->
  data_size (b_h b) + 176 + 32 < 2 ^ 64 ->
  (forall k, memory_up_to (hps k) (data_size (b_h b) + 176 + 16)) ->
  exists b', insert_monitors F hps st b start num target skip (objects_end b) = Some (0, b') /\
    objects b' = objects b ++ end_of_turn start num target skip.
Proof.
  intros F hps st b start num target skip Hh LS AO HN HT HD HM.
  destruct (insert_ok F hps st b start num target skip Hh LS (added_reach _ AO) HN HT HD) as (r & b' & n & X).
  destruct X as (X1 & X2 & X3 & X4 & _ & _ & X5).
  { right. right. split; [exact AO|]. eapply memory_le; [|apply (HM 0%nat)]. lia. }
  rewrite (X5 AO HM) in *. rewrite (proj1 X4 eq_refl), firstn_all in X3. exists b'. auto.
Qed.
Print Assumptions C68_memory.

(* What these monitors have stored after n turns, n at most the target (or the end of the
   turn by turn range): the turns asked for, and no others. *)
Theorem C68_turns : forall start num target skip n t, int64_number start -> 0 <= num -> int64_number num ->
  int64_number target -> int64_number skip -> int64_number (start + num) -> target - (start + num) < 2 ^ 63 ->
  n <= Z.max target (start + num) -> 0 <= t < n ->
  recorded (end_of_turn start num target skip) n t <-> to_record start num skip t.
Proof. exact turns_ok. Qed.
Print Assumptions C68_turns.

(* Nothing is done anywhere else than behind the last element. *)
Theorem C68_elsewhere : forall F hps st b start num target skip prev, reachable any b -> prev <> objects_end b ->
  insert_monitors F hps st b start num target skip prev = Some (-1, b).
Proof. exact insert_else. Qed.
Print Assumptions C68_elsewhere.

(* With a position: it is the number of elements or nothing is done. *)
Theorem C68_position : forall F hps st b start num target skip pos, reachable any b -> 0 <= pos ->
  (pos = Z.of_nat (length (objects b)) -> 0 < pos ->
     insert_monitors_at F hps st b start num target skip pos =
     insert_monitors F hps st b start num target skip (objects_end b)) /\
  (pos <> Z.of_nat (length (objects b)) ->
     insert_monitors_at F hps st b start num target skip pos = Some (-1, b)).
Proof.
  intros F hps st b start num target skip pos HR Hp. destruct (objects_end_ok b HR) as (E & N0 & N1).
  assert (BN : buf_num_objects b = Some (Z.of_nat (length (objects b)))).
  { exact (proj1 (num_objects_ok b HR)). }
  unfold insert_monitors_at. rewrite BN. split.
  - intros -> H. rewrite (proj2 (Z.eqb_neq _ _)) by lia. cbn [bind]. rewrite Z.leb_refl. f_equal. rewrite E. reflexivity.
  - intros H. destruct (Z.eqb_spec pos 0) as [->|NZ]; [apply insert_else; [exact HR|lia]|]. cbn [bind].
    destruct (pos <=? _); [|reflexivity]. apply insert_else; [exact HR|]. rewrite E. unfold entry_addr. lia.
Qed.
Print Assumptions C68_position.

(* So no monitors come into an empty line by position, although its end is the position 0. *)
Theorem C68_position_refuted : forall F hps st b start num target skip, reachable any b -> objects b = [] ->
  insert_monitors_at F hps st b start num target skip (Z.of_nat (length (objects b))) = Some (-1, b).
Proof.
  intros F hps st b start num target skip HR HO. rewrite HO. cbn [length]. unfold insert_monitors_at.
  change (Z.of_nat 0 =? 0) with true. cbn iota. apply insert_else; [exact HR|]. destruct (objects_end_ok b HR). lia.
Qed.
Print Assumptions C68_position_refuted.

(* ------------------------------------------------------------------ *)
(* 5 turns from turn 10, then every third one below 30 *)
Example C68_example : (forall k, good_heap (hps k)) /\ limits_squared fx /\ added_only x2 /\ reachable full_arrays xt /\
  int64_number (10 + 5) /\ data_size (b_h x2) + 176 + 32 < 2 ^ 64 /\ data_size (b_h xt) + 176 + 32 < 2 ^ 64 /\
  (forall k, memory_up_to (hps k) (data_size (b_h x2) + 176 + 16)) /\
  has_room_for xt (end_of_turn 10 5 30 3) /\ objects x0 = [] /\ reachable any x0 /\
  map (fun o => (fst o, firstn 3 (snd o))) (end_of_turn 10 5 30 3) =
    [(10, map Raw [5; 10; 1]); (10, map Raw [5; 15; 3])] /\
  to_record 10 5 3 14 /\ to_record 10 5 3 27 /\ ~ to_record 10 5 3 28 /\ ~ to_record 10 5 3 9.
Proof.
  split; [intros k; apply heaps_good|]. split; [exact fx_limits|]. split; [exact x2_added|]. split; [exact xt_full|].
  split; [split; reflexivity || discriminate|]. split; [vm_compute; reflexivity|]. split; [vm_compute; reflexivity|].
  split; [intros k; apply heap_at_memory; [lia|]; vm_compute; reflexivity|].
  split; [vm_compute; repeat split; discriminate|]. split; [vm_compute; reflexivity|]. split; [exact (added_any _ x0_added)|].
  split; [vm_compute; reflexivity|]. unfold to_record, each. change (Z.max 1 3) with 3.
  split; [left; lia|]. split; [right; split; [lia|reflexivity]|]. split.
  - intros [H|(_ & H)]; [lia|]. vm_compute in H. discriminate.
  - lia.
Qed.
Print Assumptions C68_example.
