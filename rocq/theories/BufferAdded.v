(* Additions to buffers that were only added to. *)
From Coq Require Import ZArith List Bool Lia.
From Verif Require Import Tac MBuf MBufSpec MBufMem MBufAbs MBufReserve MemPool Buffer BufferSpec BufferProofs BufferReserve
  BufferAddMem BufferAdd BufferAddLoop BufferAddMain BufferWrite BufferUser BufferReach BufferProps.
Import ListNotations.
Local Open Scope Z_scope.

(* an addition to a buffer that was only added to: done, or nothing changes *)
Lemma add_added hp b q : added_only b -> good_heap hp -> request_ok b q ->
  exists r b', add hp b q = Some (r, b') /\ (r = 0 -> b' = b).
Proof.
  intros H Hh (HC & Hov). destruct (added_inv b H) as (A & I & V & F & X1 & X2 & X3).
  destruct (add_all hp b A (rq_mem q) (rq_obj q) (rq_size q) (rq_type q) (rq_attrs q) Hh I V HC Hov)
    as (r & b2 & E & _ & T2 & _ & T4 & T5). exists r, b2. split; [exact E|]. intros Hr.
  pose proof (call_size _ _ _ _ HC). pose proof (call_counts _ _ _ _ HC) as Hc.
  pose proof (object_words_eq (rq_size q) (rq_attrs q)).
  pose proof (attr_words_nonneg _ Hc). pose proof (words_of_bounds (rq_size q) ltac:(lia)).
  pose proof (zlen_nonneg (rq_attrs q)). pose proof (zlen_nonneg (a_objs A)).
  pose proof (zlen_nonneg (a_dps A)). pose proof (zlen_nonneg (a_cells A)).
  destruct (T5 Hr) as (_ & _ & _ & NR).
  match type of T4 with ?a < ?b -> ?c < ?b -> ?m = 0 -> _ -> _ =>
    destruct (Z_lt_le_dec a b) as [L1|L1]; [destruct (Z_lt_le_dec c b) as [L2|L2]; [destruct (Z.eq_dec m 0) as [M|M]|]|] end.
  - now apply T4.
  - exfalso. revert Hr. apply T2. right. split; [lia|]. split; [lia|]. split; [lia|]. split; [|auto]. right. right. auto.
  - exfalso. revert Hr. apply T2. right. split; [lia|]. split; [lia|]. split; [lia|]. split; [|auto]. right. left. exact L2.
  - exfalso. revert Hr. apply T2. right. split; [lia|]. split; [lia|]. split; [lia|]. split; [|auto]. left. exact L1.
Qed.
