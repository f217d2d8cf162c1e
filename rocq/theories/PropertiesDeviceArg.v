(* C61: device arguments hold the objects that were sent, and give them back. *)
From Coq Require Import ZArith List Bool Lia.
From Verif Require Import MBuf MBufSpec MemPool Buffer BufferSpec BufferProofs BufferUser BufferExample
  DeviceArg DeviceArgSpec DeviceArgProofs.
Import ListNotations.
Local Open Scope Z_scope.

(* Whatever is sent, received and written, in any order and with any failures: the objects of the
   buffers and those on the device are the ones the events say. *)
Theorem C61_history w es w' : start w -> steps w es w' ->
  effects1 (hosts w, None) es (hosts w', held w').
Proof.
  intros S H. destruct (steps_ok _ _ _ (start_inv _ S) H) as (_ & E).
  destruct S as (Ea & _). unfold held at 1 in E. rewrite Ea in E. exact E.
Qed.

Lemma start_refs w : start w -> forall P : nat -> Prop,
  (forall p, a_c (w_arg w) = Some p -> P p) /\ (forall p, a_cxx (w_arg w) = Some p -> P p).
Proof. intros (E & _) P. rewrite E. split; discriminate. Qed.

(* transfers in a world that was reached are defined: no access outside of a block *)
Theorem C61_defined w es w' cx dv cxx i : start w -> steps w es w' -> device_ok dv w' -> (i < length (hosts w'))%nat ->
  (exists r w2, send_buffer cx dv cxx i true w' = Some (r, w2)) /\
  (exists r w2, receive_buffer cx dv i true w' = Some (r, w2)) /\
  (exists r w2, receive_back cx dv true w' = Some (r, w2)) /\
  (exists r w2, send_again cx dv true w' = Some (r, w2)).
Proof.
  intros S H D L. pose proof (start_inv _ S) as W0. destruct (steps_ok _ _ _ W0 H) as (W & _).
  destruct (start_refs w S (fun p => (p < length (w_bufs w))%nat)) as (R1 & R2).
  destruct (refers_ok _ _ _ _ W0 R1 R2 H (sent_len _ _ _ W0 H)) as (Q1 & Q2).
  rewrite <- (steps_len _ _ _ W0 H) in Q1, Q2.
  assert (SD : forall x j, (j < length (w_bufs w'))%nat -> exists r w2, send_buffer cx dv x j true w' = Some (r, w2)).
  { intros x j Lj. destruct (nth_error (w_bufs w') j) as [b|] eqn:Eb; [|apply nth_error_None in Eb; lia].
    destruct (send_ok cx dv x j w' b W D Eb) as (r & w2 & E & _). eauto. }
  assert (RD : forall j, (j < length (w_bufs w'))%nat -> exists r w2, receive_buffer cx dv j true w' = Some (r, w2)).
  { intros j Lj. destruct (nth_error (w_bufs w') j) as [b|] eqn:Eb; [|apply nth_error_None in Eb; lia].
    destruct (receive_ok cx dv j w' b W Eb) as (r & w2 & E & _). eauto. }
  unfold hosts in L. rewrite map_length in L. split; [auto|]. split; [auto|].
  unfold receive_back, send_again. rewrite (wi_raw _ W).
  destruct (a_cxx (w_arg w')) as [p|] eqn:Ex; [specialize (Q2 p eq_refl); split; [apply RD; exact Q2|apply SD; exact Q2]|].
  destruct (a_c (w_arg w')) as [p|] eqn:Ec; [specialize (Q1 p eq_refl); split; [apply RD; exact Q1|apply SD; exact Q1]|].
  split; eauto.
Qed.

(* sending succeeds exactly when the controller can do it, the copy succeeds and the device has,
   or gives, enough memory *)
Theorem C61_send_iff w es w' cx dv cxx i b r w2 : start w -> steps w es w' -> device_ok dv w' ->
  nth_error (w_bufs w') i = Some b -> send_buffer cx dv cxx i true w' = Some (r, w2) ->
  (r = true <-> can_send cx /\ d_copy dv = true /\
     (data_size (b_h b) <= a_cap (w_arg w') \/ h_malloc (d_heap dv) (data_size (b_h b)) <> 0)).
Proof.
  intros S H D Hb E. destruct (steps_ok _ _ _ (start_inv _ S) H) as (W & _).
  destruct (send_ok cx dv cxx i w' b W D Hb) as (r' & w3 & E' & _ & _ & _ & _ & _ & T & _).
  rewrite E in E'. assert (r' = r) as -> by congruence. exact T.
Qed.

(* receiving succeeds exactly when the controller can do it, the device holds objects, they fit
   into the buffer, and the copy succeeds *)
Theorem C61_receive_iff w es w' cx dv j b r w2 : start w -> steps w es w' ->
  nth_error (w_bufs w') j = Some b -> receive_buffer cx dv j true w' = Some (r, w2) ->
  (r = true <-> can_receive cx /\ d_copy dv = true /\ held w' <> None /\
     a_size (w_arg w') <= data_capacity (b_h b)).
Proof.
  intros S H Hb E. destruct (steps_ok _ _ _ (start_inv _ S) H) as (W & _).
  destruct (receive_ok cx dv j w' b W Hb) as (r' & w3 & E' & _ & _ & _ & _ & _ & T).
  rewrite E in E'. assert (r' = r) as -> by congruence. exact T.
Qed.

(* an argument used for one buffer only: receiving without saying where is receiving there *)
Theorem C61_back w es w' i cx dv : start w -> steps w es w' -> only_sent i es -> held w' <> None ->
  receive_back cx dv true w' = receive_buffer cx dv i true w'.
Proof.
  intros S H O Hh. pose proof (start_inv _ S) as W0. destruct (steps_ok _ _ _ W0 H) as (W & _).
  destruct (start_refs w S (fun p => p = i)) as (R1 & R2).
  destruct (refers_ok (fun p => p = i) _ _ _ W0 R1 R2 H O) as (Q1 & Q2).
  destruct (Z_lt_le_dec 0 (a_size (w_arg w'))) as [Ls|Ls]; [|rewrite held_none in Hh by (exact W || lia); congruence].
  destruct (wi_image _ W Ls) as (Hc & _). unfold receive_back.
  destruct (a_cxx (w_arg w')) as [p|] eqn:Ex; [rewrite (Q2 p eq_refl); reflexivity|].
  destruct (a_c (w_arg w')) as [p|] eqn:Ec; [rewrite (Q1 p eq_refl); reflexivity|]. congruence.
Qed.

(* two buffers, a controller that can do all, a device with memory at an address of its own *)
Definition ex_ctrl : option ctrl := Some (Ctrl true true true true true false).
Definition ex_device : device := Device (heap_at 131072) true.
Definition ex_world : world := World [x2; x1] [] new_arg.
Definition no_world : world := World [] [] new_arg.
Definition after (o : option (bool * world)) : world := snd (get (false, no_world) o).

Lemma ex_start : start ex_world.
Proof.
  split; [reflexivity|]. intros b [<-|[<-|[]]]; apply added_full; [exact x2_added|exact x1_added].
Qed.


Definition ex1 : world := after (send_buffer ex_ctrl ex_device true 0 true ex_world).
Definition set_device_word (w : world) (p v : Z) : world :=
  match a_dev (w_arg w) with
  | Some m => World (w_bufs w) (w_raws w) (set_dev (w_arg w) (get m (wr m p v)))
  | None => w
  end.
Definition ex2 : world := set_device_word ex1 (131072 + 112 + 16) 6.
Definition ex3 : world := after (receive_buffer ex_ctrl ex_device 0 true ex2).
Definition ex4 : world := after (send_buffer ex_ctrl ex_device false 1 true ex3).
Definition ex5 : world := after (receive_buffer ex_ctrl ex_device 0 true ex4).

Lemma heap_at_device a w : 0 < a < 2 ^ 32 -> a mod 8 = 0 ->
  (forall b, In b (w_bufs w) -> a <> data_addr (b_h b)) -> (forall m, a_dev (w_arg w) = Some m -> a <> mbase m) ->
  device_ok (Device (heap_at a) true) w.
Proof.
  intros Ha Hm Hb Hd. split; [now apply heap_at_good|]. cbn [d_heap]. intros n Hn.
  assert (h_malloc (heap_at a) n = a) as ->. { unfold heap_at in *. cbn [h_malloc] in *. destruct (n <? 1048576); congruence. }
  auto.
Qed.

(* the second buffer needs no new memory, a device without any will do *)
Definition ex_device0 : device := Device heap_none true.
Lemma heap_none_device w : device_ok ex_device0 w.
Proof. split; [apply heap_none_good|]. intros n Hn. cbn in Hn. congruence. Qed.

Lemma ex_device_ok : device_ok ex_device ex_world.
Proof.
  apply heap_at_device; [split; reflexivity|reflexivity| |discriminate].
  intros b [<-|[<-|[]]]; vm_compute; discriminate.
Qed.

(* send, a kernel sets a word, receive; then another buffer, received into the first *)
Example C61_example :
  start ex_world /\
  steps ex_world [Sent 0 true; DeviceSet 1 2 6; Received 0 true; Sent 1 true; Received 0 true] ex5 /\
  hosts ex5 = [objects x1; objects x1] /\ held ex5 = Some (objects x1) /\
  nth_error (hosts ex3) 0 = Some [nth 0 (objects x2) (0, []); (9, [Raw 1; Ptr 24; Raw 6; Raw 319951120])].
Proof.
  split; [exact ex_start|]. split; [|split; [vm_compute; reflexivity|split; vm_compute; reflexivity]].
  change [Sent 0 true; DeviceSet 1 2 6; Received 0 true; Sent 1 true; Received 0 true] with
    (((((([] ++ [Sent 0 true]) ++ [DeviceSet 1 2 6]) ++ [Received 0 true]) ++ [Sent 1 true]) ++ [Received 0 true])).
  assert (S1 : step ex_world (Sent 0 true) ex1).
  { apply (s_send ex_ctrl ex_device true); [exact ex_device_ok|vm_compute; reflexivity]. }
  assert (S2 : step ex1 (DeviceSet 1 2 6) ex2).
  { apply s_device. unfold ex2, set_device_word. destruct (a_dev (w_arg ex1)) as [m|] eqn:E; [|vm_compute in E; discriminate E].
    assert (E' : a_dev (w_arg ex1) = Some (Mem 131072 (match a_dev (w_arg ex1) with Some m => mwords m | None => [] end)))
      by (vm_compute; reflexivity).
    assert (Em : m = Mem 131072 (match a_dev (w_arg ex1) with Some m => mwords m | None => [] end)) by congruence.
    apply (dw ex1 1 2 6 m 9 [Raw 1; Ptr 24; Raw 5; Raw 319951120] 5).
    - vm_compute. reflexivity.
    - exact E.
    - rewrite Em. vm_compute. reflexivity.
    - reflexivity.
    - split; [discriminate|reflexivity].
    - rewrite Em. vm_compute. reflexivity. }
  assert (S3 : step ex2 (Received 0 true) ex3) by (apply (s_receive ex_ctrl ex_device); vm_compute; reflexivity).
  assert (S4 : step ex3 (Sent 1 true) ex4).
  { apply (s_send ex_ctrl ex_device0 false); [apply heap_none_device|vm_compute; reflexivity]. }
  assert (S5 : step ex4 (Received 0 true) ex5) by (apply (s_receive ex_ctrl ex_device); vm_compute; reflexivity).
  repeat (eapply ss_snoc; [|eassumption]). apply ss_nil.
Qed.

(* "receive without saying where gives the objects back to the buffer that was sent last" is false:
   the argument keeps referring to the first buffer as long as its memory suffices, and that one is
   overwritten *)
Theorem C61_other_buffer_refuted : exists w es w1 w2,
  start w /\ steps w es w1 /\ es = [Sent 0 true; Sent 1 true] /\
  receive_back ex_ctrl ex_device true w1 = Some (true, w2) /\
  nth_error (hosts w2) 0 <> nth_error (hosts w1) 0 /\
  nth_error (hosts w2) 0 = nth_error (hosts w1) 1.
Proof.
  exists ex_world, [Sent 0 true; Sent 1 true], (after (send_buffer ex_ctrl ex_device true 1 true ex1)),
    (after (receive_back ex_ctrl ex_device true (after (send_buffer ex_ctrl ex_device true 1 true ex1)))).
  split; [exact ex_start|]. split.
  - change [Sent 0 true; Sent 1 true] with (([] ++ [Sent 0 true]) ++ [Sent 1 true]).
    eapply ss_snoc; [eapply ss_snoc; [apply ss_nil|]|].
    + apply (s_send ex_ctrl ex_device true); [exact ex_device_ok|vm_compute; reflexivity].
    + apply (s_send ex_ctrl ex_device0 true); [apply heap_none_device|vm_compute; reflexivity].
  - split; [reflexivity|]. split; [vm_compute; reflexivity|]. split; [vm_compute; discriminate|vm_compute; reflexivity].
Qed.

(* "after raw memory was sent, receiving without saying where changes only raw memory" is false: the
   argument still refers to the buffer of an earlier transfer, which is overwritten *)
Theorem C61_raw_refuted : exists w w1 w2 w3 r,
  start w /\ step w (Sent 0 true) w1 /\
  send_raw ex_ctrl ex_device 0 w1 = Some (true, w2) /\ hosts w2 = hosts w /\
  receive_back ex_ctrl ex_device true w2 = Some (r, w3) /\
  w_raws w3 = w_raws w2 /\ b_mem (nth 0 (w_bufs w3) x0) <> b_mem (nth 0 (w_bufs w2) x0).
Proof.
  set (w := World [x2] [Mem 9000 [0; 2; 3]] new_arg).
  set (w1 := after (send_buffer ex_ctrl ex_device true 0 true w)).
  set (w2 := after (send_raw ex_ctrl ex_device 0 w1)).
  exists w, w1, w2, (after (receive_back ex_ctrl ex_device true w2)), false.
  split.
  { split; [reflexivity|]. intros b [<-|[]]. apply added_full. exact x2_added. }
  split.
  { apply (s_send ex_ctrl ex_device true); [|vm_compute; reflexivity].
    apply heap_at_device; [split; reflexivity|reflexivity| |discriminate]. intros b [<-|[]]; vm_compute; discriminate. }
  split; [vm_compute; reflexivity|]. split; [vm_compute; reflexivity|]. split; [vm_compute; reflexivity|].
  split; [vm_compute; reflexivity|vm_compute; discriminate].
Qed.

(* "receiving back raw memory that was sent is defined" is false: the argument refers to the first,
   shorter region and the words of the second are written over its end *)
Theorem C61_overflow_refuted : exists w w1 w2 w3,
  start w /\ step w (Sent 0 true) w1 /\
  send_raw ex_ctrl ex_device 0 w1 = Some (true, w2) /\
  send_raw ex_ctrl ex_device 1 w2 = Some (true, w3) /\
  receive_back ex_ctrl ex_device true w3 = None.
Proof.
  set (w := World [x2] [Mem 9000 [5]; Mem 9500 [1; 2; 3]] new_arg).
  set (w1 := after (send_buffer ex_ctrl ex_device false 0 true w)).
  set (w2 := after (send_raw ex_ctrl ex_device 0 w1)).
  exists w, w1, w2, (after (send_raw ex_ctrl ex_device 1 w2)).
  split.
  { split; [reflexivity|]. intros b [<-|[]]. apply added_full. exact x2_added. }
  split.
  { apply (s_send ex_ctrl ex_device false); [|vm_compute; reflexivity].
    apply heap_at_device; [split; reflexivity|reflexivity| |discriminate]. intros b [<-|[]]; vm_compute; discriminate. }
  split; [vm_compute; reflexivity|]. split; vm_compute; reflexivity.
Qed.

(* "a successful update of a region of the argument changes what the device holds" is false: the
   buffer of the host is changed *)
Theorem C61_update_refuted : exists w w1 w2 off v,
  start w /\ step w (Sent 0 true) w1 /\
  update_arg [(off, [v])] w1 = Some (true, w2) /\
  held w2 = held w1 /\ a_dev (w_arg w2) = a_dev (w_arg w1) /\ hosts w2 <> hosts w1.
Proof.
  exists ex_world, ex1, (after (update_arg [(128, [6])] ex1)), 128, 6.
  split; [exact ex_start|]. split.
  { apply (s_send ex_ctrl ex_device true); [exact ex_device_ok|vm_compute; reflexivity]. }
  split; [vm_compute; reflexivity|]. split; [vm_compute; reflexivity|]. split; [vm_compute; reflexivity|vm_compute; discriminate].
Qed.

(* "a buffer that was sent with success arrives" is false for buffers with an empty array at their
   end, outside of debug mode: the failing remap on the device is not reported, a pointer there
   keeps the address of the host, and receiving is undefined *)
Theorem C61_remap_unreported_refuted : exists w w1,
  w_arg w = new_arg /\ (forall b, In b (w_bufs w) -> reachable any b) /\ device_ok ex_device w /\
  send_buffer ex_ctrl ex_device true 0 true w = Some (true, w1) /\
  held w1 <> nth_error (hosts w) 0 /\
  receive_buffer ex_ctrl ex_device 0 true w1 = None.
Proof.
  set (w := World [x3] [] new_arg).
  exists w, (after (send_buffer ex_ctrl ex_device true 0 true w)).
  split; [reflexivity|]. split; [intros b [<-|[]]; exact x3_reach|].
  split; [apply heap_at_device; [split; reflexivity|reflexivity| |discriminate]; intros b [<-|[]]; vm_compute; discriminate|].
  split; [vm_compute; reflexivity|]. split; [vm_compute; discriminate|vm_compute; reflexivity].
Qed.

Print Assumptions C61_history.
Print Assumptions C61_defined.
Print Assumptions C61_send_iff.
Print Assumptions C61_receive_iff.
Print Assumptions C61_back.
Print Assumptions C61_other_buffer_refuted.
Print Assumptions C61_raw_refuted.
Print Assumptions C61_overflow_refuted.
Print Assumptions C61_update_refuted.
Print Assumptions C61_remap_unreported_refuted.
