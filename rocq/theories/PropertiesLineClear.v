(* C69: clearing the elements of a beam line. *)
From Coq Require Import ZArith List Bool Lia.
From Verif Require Import MBuf MBufSpec MBufMem MBufAbs MemPool Buffer BufferSpec BufferUser BufferProofs
  BufferAddMem BufferReach BufferProps BufferExample Lines LinesSpec LinesProofs LinesCopy PropertiesLines
  ElementAdd ElementAddSpec ElementAddProofs PropertiesElementAdd ElementNew ElementNewSpec ElementNewProofs
  PropertiesElementNew LineClear LineClearSpec LineClearProofs.
Import ListNotations.
Local Open Scope Z_scope.

(* Clearing a line without elements that have arrays (a field map may have one): no undefined
   behaviour; every element has its default values, whatever it was; other objects are
   unchanged; no object moves, and the buffer is in order. *)
Theorem C69_clear_partial : forall F b, doubles F -> limits_squared F -> 0 <= f_cq F one < 2 ^ 64 ->
  reachable any b -> is_line (objects b) -> (forall o, In o (objects b) -> ~ In (fst o) lost_types) ->
  exists b', clear_line F b = Some b' /\ objects b' = map (cleared_object F) (objects b) /\
    b_h b' = b_h b /\ (forall P, reachable P b -> reachable P b') /\ (added_only b -> added_only b') /\
    forall i, (i < length (objects b))%nat ->
      obj_begin (b_mem b') (Z.of_nat i) = obj_begin (b_mem b) (Z.of_nat i).
Proof.
  intros F b DF LS CQ HR HL HT.
  destruct (clear_line_ok F DF LS CQ b HR HL) as (b' & E & [K1 K2 K3 K4] & O).
  { apply Forall_forall. exact HT. }
  exists b'. auto 10.
Qed.
Print Assumptions C69_clear_partial.

(* Clearing twice is clearing once. *)
Theorem C69_again : forall F b b', doubles F -> limits_squared F -> 0 <= f_cq F one < 2 ^ 64 ->
  reachable any b -> is_line (objects b) -> (forall o, In o (objects b) -> ~ In (fst o) lost_types) ->
  clear_line F b = Some b' ->
  exists b'', clear_line F b' = Some b'' /\ objects b'' = objects b'.
Proof.
  intros F b b' DF LS CQ HR HL HT E.
  destruct (clear_line_ok F DF LS CQ b HR HL) as (b1 & E1 & [K1 K2 K3 K4] & O1).
  { apply Forall_forall. exact HT. }
  assert (b1 = b') as -> by congruence.
  assert (HL' : is_line (objects b')).
  { rewrite O1. unfold is_line in *. rewrite Forall_forall in *. intros o Ho. apply in_map_iff in Ho as (o1 & <- & Ho1).
    apply (cleared_element F DF CQ); auto. }
  destruct (clear_line_ok F DF LS CQ b' (K2 _ HR) HL') as (b2 & E2 & _ & O2).
  { apply Forall_forall. rewrite O1. intros o Ho. apply in_map_iff in Ho as (o1 & <- & Ho1).
    rewrite cleared_type. now apply HT. }
  exists b2. split; [exact E2|]. rewrite O2, O1, map_map. apply map_ext. intros o. apply cleared_again.
Qed.
Print Assumptions C69_again.

(* A cleared element of one of these types is what X_new creates (C67). *)
Theorem C69_as_new : forall F o, In (fst o) plain_types -> cleared_object F o = blank F o.
Proof. exact cleared_blank. Qed.
Print Assumptions C69_as_new.

(* ------------------------------------------------------------------ *)
(* a drift, space charge, a field map of one cell and interpolated space charge *)
Definition e_map := Request ext [1; 2; 1; 3; 4; 1; 5; 6; 1; 7; 8; 9; 1000] 104 260 [Attr 96 8 8].
Definition e_si := Request ext [1; 2; 3; 4; 5; 6; 0; 8; 9; 1] 80 257 [].
Definition k1 := added (heap_at 8192) x0 e_drift.
Definition k2 := added (heap_at 16384) k1 e_sc.
Definition k3 := added (heap_at 32768) k2 e_map.
Definition k4 := added (heap_at 65536) k3 e_si.

Lemma e_map_call : call_ok (rq_mem e_map) (rq_obj e_map) (rq_size e_map) (rq_attrs e_map).
Proof.
  split.
  - reflexivity.
  - vm_compute. discriminate.
  - repeat constructor; (vm_compute; discriminate) || reflexivity.
  - one_attr. cbn. repeat split; lia.
  - cbn. constructor; [auto|constructor].
  - one_attr. lia.
  - intros x [<-|[]] j Hj _. change (attr_bytes (Attr 96 8 8)) with 64 in Hj.
    change (wnth (rq_obj e_map) (at_offset (Attr 96 8 8) / 8)) with 1000. apply ext_some. lia.
Qed.
Lemma e_si_call : call_ok (rq_mem e_si) (rq_obj e_si) (rq_size e_si) (rq_attrs e_si).
Proof. apply (no_attr_call [1; 2; 3; 4; 5; 6; 0; 8; 9; 1] 10 257); [reflexivity|reflexivity|w64]. Qed.

Lemma k1_added : added_only k1. Proof. step (heap_at 8192) x0_added e_drift x0 k1 e_drift_call. Qed.
Lemma k2_added : added_only k2. Proof. step (heap_at 16384) k1_added e_sc k1 k2 e_sc_call. Qed.
Lemma k3_added : added_only k3. Proof. step (heap_at 32768) k2_added e_map k2 k3 e_map_call. Qed.
Lemma k4_added : added_only k4. Proof. step (heap_at 65536) k3_added e_si k3 k4 e_si_call. Qed.

Definition table : list Z := Eval vm_compute in
  map (fun c => match c with Raw w => w | Ptr _ => 0 end) (skipn 13 (snd (nth 2 (objects k3) (0, [])))).

Lemma k4_objects : objects k4 = [(2, [Raw 42]); (13, map Raw [1; 2; 3; 4; 5; 6; 7; 8; 9]);
  (260, map Raw [1; 2; 1; 3; 4; 1; 5; 6; 1; 7; 8; 9] ++ [Ptr 104] ++ map Raw table);
  (257, map Raw [1; 2; 3; 4; 5; 6; 0; 8; 9; 1])].
Proof. vm_compute. reflexivity. Qed.

Lemma k4_line : is_line (objects k4).
Proof.
  rewrite k4_objects. repeat (constructor; [intros _|]); [exact is_drift|exact is_sc| | |constructor].
  - exists 104, [1; 2; 1; 3; 4; 1; 5; 6; 1; 7; 8; 9; 0], [table]. split; [reflexivity|]. split; [reflexivity|].
    split; [w64|]. split; [|reflexivity]. constructor; [|constructor]. split; [reflexivity|]. split; [reflexivity|w64].
  - exists 80, [1; 2; 3; 4; 5; 6; 0; 8; 9; 1], []. split; [reflexivity|]. split; [reflexivity|]. split; [w64|].
    split; [constructor|reflexivity].
Qed.

Example C69_example : doubles fx /\ limits_squared fx /\ 0 <= f_cq fx one < 2 ^ 64 /\ added_only k4 /\ reachable any k4 /\
  is_line (objects k4) /\ (forall o, In o (objects k4) -> ~ In (fst o) lost_types) /\
  map (cleared_object fx) (objects k4) = [(2, [Raw 0]);
    (13, map Raw [zero; one; one; one; zero; zero; zero; tiny; 1]);
    (260, map Raw [0; 0; 1; 0; 0; 1; 0; 0; 1; 0; 0; 0] ++ [Ptr 104] ++ repeat (Raw 0) 8);
    (257, map Raw [1; 2; 3; 4; 5; 6; 0; 8; 9; 1])].
Proof.
  split; [exact fx_doubles|]. split; [exact fx_limits|]. split; [split; [vm_compute; discriminate|reflexivity]|].
  split; [exact k4_added|]. split; [exact (added_any _ k4_added)|]. split; [exact k4_line|]. split.
  - rewrite k4_objects. intros o Ho X. repeat (destruct Ho as [<-|Ho]; [vm_compute in X; intuition discriminate|]). destruct Ho.
  - rewrite k4_objects. vm_compute. reflexivity.
Qed.
Print Assumptions C69_example.

(* Interpolated space charge is not cleared: its object differs from a new element before and
   after. *)
Theorem C69_interpolated_refuted : exists b b' cells, added_only b /\ nth_error (objects b) 3 = Some (257, cells) /\
  clear_line fx b = Some b' /\ nth_error (objects b') 3 = Some (257, cells) /\ blank fx (257, cells) <> (257, cells).
Proof.
  destruct C69_example as (X1 & X2 & X3 & X4 & X5 & X6 & X7 & X8).
  destruct (C69_clear_partial fx k4 X1 X2 X3 X5 X6 X7) as (b' & E & O & _).
  exists k4, b', (map Raw [1; 2; 3; 4; 5; 6; 0; 8; 9; 1]). split; [exact X4|]. split; [rewrite k4_objects; reflexivity|].
  split; [exact E|]. split; [rewrite O, X8; reflexivity|]. vm_compute. discriminate.
Qed.
Print Assumptions C69_interpolated_refuted.

(* A line with a multipole: the address of its strengths is lost.  Before, the line can be
   copied and another element can be added; afterwards neither is possible. *)
Theorem C69_moved_refuted : exists b b', added_only b /\ (exists cells, nth_error (objects b) 1 = Some (4, cells)) /\
  (exists c, buf_new_from_copy (heap_at 524288) 64 b = Some (Some c) /\ objects c = objects b) /\
  (exists r c, add (heap_at 524288) b e_drift = Some (r, c) /\ r <> 0) /\
  clear_line fx b = Some b' /\
  buf_new_from_copy (heap_at 524288) 64 b' = Some None /\
  (exists c, add (heap_at 524288) b' e_drift = Some (0, c)).
Proof.
  exists l3, (get no_buffer (clear_line fx l3)). split; [exact l3_added|].
  split; [eexists; vm_compute; reflexivity|].
  split; [eexists (get no_buffer (get None (buf_new_from_copy (heap_at 524288) 64 l3))); split; vm_compute; reflexivity|].
  split; [exists (fst (get (0, no_buffer) (add (heap_at 524288) l3 e_drift))), (added (heap_at 524288) l3 e_drift);
          split; [vm_compute; reflexivity|vm_compute; discriminate]|].
  split; [vm_compute; reflexivity|]. split; [vm_compute; reflexivity|].
  exists (added (heap_at 524288) (get no_buffer (clear_line fx l3)) e_drift). vm_compute. reflexivity.
Qed.
Print Assumptions C69_moved_refuted.
