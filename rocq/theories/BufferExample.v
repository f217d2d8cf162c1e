(* Concrete buffers: a new one, two objects with arrays added to it, a third object with an
   empty array.  They show that the hypotheses of the theorems in PropertiesBuffer.v can be
   met, and are the witnesses of the findings there. *)
From Coq Require Import ZArith List Bool Lia.
From Verif Require Import MBuf MBufSpec MemPool Buffer BufferSpec BufferUser.
Import ListNotations.
Local Open Scope Z_scope.

(* malloc gives the address a for every request below 2^20 bytes; fresh words are 77 *)
Definition heap_at (a : Z) : heap := Heap (fun n => if n <? 1048576 then a else 0) (fun _ => 77).
Definition heap_none : heap := Heap (fun _ => 0) (fun _ => 0).

(* the caller's memory: 100 bytes at address 1000 *)
Definition ext (a : Z) : option Z :=
  if (1000 <=? a) && (a <? 1100) then Some (a mod 256) else None.

(* two doubles at 1000 *)
Definition q1 : request := Request ext [2; 1000] 16 7 [Attr 8 8 2].
(* 20 bytes with an array of 4 bytes at 1040 *)
Definition q2 : request := Request ext [1; 1040; 5] 20 9 [Attr 8 4 1].
(* an empty array *)
Definition q0 : request := Request ext [0; 0] 16 3 [Attr 8 8 0].

Definition no_buffer : buffer := Buffer preset_handle pool_preset (Mem 0 []).
Definition get {A} (d : A) (o : option A) : A := match o with Some x => x | None => d end.
Definition added hp b q : buffer := snd (get (0, no_buffer) (add hp b q)).
Definition reserved hp b no ns nd ng : buffer :=
  snd (get (false, no_buffer) (buf_reserve hp b no ns nd ng)).

Definition x0 : buffer := get no_buffer (get None (buf_new (heap_at 4096) 64 0)).
Definition x1 : buffer := added (heap_at 8192) x0 q1.
Definition x2 : buffer := added (heap_at 16384) x1 q2.
Definition x3 : buffer := added (heap_at 32768) x2 q0.
(* slots reserved, but no entries for objects *)
Definition xr : buffer := reserved (heap_at 8192) x0 0 100 0 0.
Definition xs : buffer := reserved (heap_at 65536) x2 2 9 2 0.

Lemma heap_at_good a : 0 < a < 2 ^ 32 -> good_heap (heap_at a).
Proof.
  intros H n. unfold heap_at. cbn [h_malloc]. destruct (n <? 1048576) eqn:E; [|lia].
  apply Z.ltb_lt in E. intros _. split; [lia|].
  assert (2 ^ 32 + 1048576 < 2 ^ 64) by reflexivity. lia.
Qed.

Lemma heap_none_good : good_heap heap_none.
Proof. intros n H. cbn in H. lia. Qed.

Lemma heap_at_memory a size : 0 < a -> size < 1048576 -> memory_up_to (heap_at a) size.
Proof.
  intros H H' n Hn. unfold heap_at. cbn [h_malloc]. rewrite (proj2 (Z.ltb_lt n 1048576)) by lia. lia.
Qed.

Ltac good := apply heap_at_good; split; reflexivity.

Lemma ext_some a : 1000 <= a < 1100 -> exists v, ext a = Some v /\ 0 <= v < 256.
Proof.
  intros H. unfold ext. rewrite (proj2 (Z.leb_le _ _)), (proj2 (Z.ltb_lt _ _)) by lia.
  exists (a mod 256). split; [reflexivity|]. apply Z.mod_pos_bound. lia.
Qed.

Ltac one_attr := intros x [<-|[]]; cbn [at_offset at_size at_count].

Lemma q1_call : call_ok (rq_mem q1) (rq_obj q1) (rq_size q1) (rq_attrs q1).
Proof.
  split.
  - reflexivity.
  - vm_compute. discriminate.
  - repeat constructor; (vm_compute; discriminate) || reflexivity.
  - one_attr. cbn. repeat split; lia.
  - cbn. constructor; [auto|constructor].
  - one_attr. lia.
  - intros x [<-|[]] j Hj _. change (attr_bytes (Attr 8 8 2)) with 16 in Hj.
    change (wnth (rq_obj q1) (at_offset (Attr 8 8 2) / 8)) with 1000. apply ext_some. lia.
Qed.

Lemma q2_call : call_ok (rq_mem q2) (rq_obj q2) (rq_size q2) (rq_attrs q2).
Proof.
  split.
  - reflexivity.
  - vm_compute. discriminate.
  - repeat constructor; (vm_compute; discriminate) || reflexivity.
  - one_attr. cbn. repeat split; lia.
  - cbn. constructor; [auto|constructor].
  - one_attr. lia.
  - intros x [<-|[]] j Hj _. change (attr_bytes (Attr 8 4 1)) with 4 in Hj.
    change (wnth (rq_obj q2) (at_offset (Attr 8 4 1) / 8)) with 1040. apply ext_some. lia.
Qed.

Lemma q0_call : call_ok (rq_mem q0) (rq_obj q0) (rq_size q0) (rq_attrs q0).
Proof.
  split.
  - reflexivity.
  - vm_compute. discriminate.
  - repeat constructor; (vm_compute; discriminate) || reflexivity.
  - one_attr. cbn. repeat split; lia.
  - cbn. constructor; [auto|constructor].
  - one_attr. lia.
  - intros x [<-|[]] j Hj. change (attr_bytes (Attr 8 8 0)) with 0 in Hj. lia.
Qed.

Lemma q1_full : full_arrays q1. Proof. intros x [<-|[]]. reflexivity. Qed.
Lemma q2_full : full_arrays q2. Proof. intros x [<-|[]]. reflexivity. Qed.

Lemma x0_new : buf_new (heap_at 4096) 64 0 = Some (Some x0).
Proof. vm_compute. reflexivity. Qed.
Lemma x1_add : exists r, r <> 0 /\ add (heap_at 8192) x0 q1 = Some (r, x1).
Proof. eexists. split; [|vm_compute; reflexivity]. discriminate. Qed.
Lemma x2_add : exists r, r <> 0 /\ add (heap_at 16384) x1 q2 = Some (r, x2).
Proof. eexists. split; [|vm_compute; reflexivity]. discriminate. Qed.
Lemma x3_add : exists r, r <> 0 /\ add (heap_at 32768) x2 q0 = Some (r, x3).
Proof. eexists. split; [|vm_compute; reflexivity]. discriminate. Qed.

Lemma x0_added : added_only x0.
Proof. eapply ao_new; [| | |exact x0_new]; [good|discriminate|reflexivity]. Qed.
Lemma x1_added : added_only x1.
Proof.
  destruct x1_add as (r & Hr & E). eapply ao_add; [exact x0_added| | |exact q1_full|exact E|exact Hr];
    [good|]. split; [exact q1_call|vm_compute; reflexivity].
Qed.
Lemma x2_added : added_only x2.
Proof.
  destruct x2_add as (r & Hr & E). eapply ao_add; [exact x1_added| | |exact q2_full|exact E|exact Hr];
    [good|]. split; [exact q2_call|vm_compute; reflexivity].
Qed.

Lemma added_full b : added_only b -> reachable full_arrays b.
Proof.
  induction 1; [eapply r_new|eapply r_add|eapply r_write|eapply r_empty]; eauto. now apply e_reset.
Qed.

Lemma added_any b : added_only b -> reachable any b.
Proof.
  intros H. apply added_full in H.
  induction H; [eapply r_new|eapply r_add|eapply r_keep|eapply r_empty|eapply r_write|eapply r_detailed]; eauto. exact I.
Qed.

Lemma x3_reach : reachable any x3.
Proof.
  destruct x3_add as (r & Hr & E). eapply r_add; [exact (added_any _ x2_added)| | |exact I|exact E|exact Hr];
    [good|]. split; [exact q0_call|vm_compute; reflexivity].
Qed.

Lemma q1_ok b : data_size (b_h b) < 2 ^ 32 -> request_ok b q1.
Proof.
  intros H. split; [exact q1_call|]. change (object_words (rq_size q1) (rq_attrs q1)) with 4.
  change (Z.of_nat (length (rq_attrs q1))) with 1. assert (2 ^ 32 + 8 * (4 + 3 + 1) + 32 < 2 ^ 64) by reflexivity. lia.
Qed.

Lemma xr_reserve : limits_ok 0 100 0 0 /\ buf_reserve (heap_at 8192) x0 0 100 0 0 = Some (true, xr).
Proof. split; [|vm_compute; reflexivity]. repeat split; try lia; reflexivity. Qed.
Lemma xr_reach : reachable any xr.
Proof.
  apply (r_keep _ x0); [exact (added_any _ x0_added)|].
  eapply k_reserve; [|apply xr_reserve|apply xr_reserve]. good.
Qed.

Lemma xs_reserve : limits_ok 2 9 2 0 /\ buf_reserve (heap_at 65536) x2 2 9 2 0 = Some (true, xs).
Proof. split; [|vm_compute; reflexivity]. repeat split; try lia; reflexivity. Qed.
Lemma xs_reach : reachable full_arrays xs.
Proof.
  apply (r_keep _ x2); [exact (added_full _ x2_added)|].
  eapply k_reserve; [|apply xs_reserve|apply xs_reserve]. good.
Qed.
