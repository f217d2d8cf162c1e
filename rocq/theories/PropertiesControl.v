(* Theorems for C36: the debug register.  [register r]: a 64-bit unsigned value.  Bits 0-31
   hold the status, bits 32-63 the error flags. *)
From Coq Require Import ZArith Bool Lia.
From Verif Require Import DebugReg DebugRegProofs.
Local Open Scope Z_scope.

(* all 32-bit statuses but INT_MIN, for which the C code overflows *)
Theorem C36_store_get : forall reg s, register reg -> - 2 ^ 31 < s < 2 ^ 31 ->
  exists r, store_arch_status reg s = Some r /\ get_stored_arch_status r = Some s /\
    register r /\ forall i, 32 <= i -> Z.testbit r i = Z.testbit reg i.
Proof. exact store_get. Qed.
Print Assumptions C36_store_get.

(* raising n error flags on a register without error flags: the status bits are kept, and
   exactly the n lowest flags are set *)
Theorem C36_raise : forall n s i, 0 <= s < 2 ^ 32 -> (n <= 32)%nat -> 0 <= i ->
  Z.testbit (raise_flags n s) i = if i <? 32 then Z.testbit s i else i <? 32 + Z.of_nat n.
Proof. exact raise_bits. Qed.
Print Assumptions C36_raise.

(* on any register: raising never clears a flag, never changes the status, and a register
   whose highest flag is set stays as it is *)
Theorem C36_raise_any : forall r, register r ->
  (forall i, 0 <= i -> Z.testbit r i = true -> Z.testbit (raise_next_error_flag r) i = true) /\
  (forall i, 0 <= i < 32 -> Z.testbit (raise_next_error_flag r) i = Z.testbit r i) /\
  (2 ^ 63 <= r -> raise_next_error_flag r = r).
Proof.
  intros r Hr. split; [|split].
  - intros i. now apply raise_keeps.
  - intros i. now apply raise_low.
  - now apply raise_full.
Qed.
Print Assumptions C36_raise_any.

Theorem C36_highest : forall r, 0 < r < 2 ^ 64 -> get_highest_set_flag r = 2 ^ Z.log2 r.
Proof. exact highest. Qed.
Print Assumptions C36_highest.

(* resetting the status clears the error flags as well (finding) *)
Theorem C36_reset_refuted : exists reg i, register reg /\ 32 <= i < 64 /\
  Z.testbit reg i = true /\ Z.testbit (reset_arch_status reg) i = false.
Proof. exists (raise_flags 1 5), 32. unfold register. split; vm_compute; [split; [discriminate|reflexivity]|]. repeat split; discriminate. Qed.
Print Assumptions C36_reset_refuted.

Theorem C36_reset_all : forall reg, register reg -> reset_arch_status reg = 0.
Proof.
  intros reg _. unfold reset_arch_status.
  replace (not32 STATUS_BITMASK) with 0 by reflexivity. apply Z.land_0_r.
Qed.
Print Assumptions C36_reset_all.

Example C36_case : exists r, store_arch_status (raise_flags 3 0) (-7) = Some r /\
  get_stored_arch_status r = Some (-7) /\ Z.shiftr r 32 = 7.
Proof. eexists. split; [vm_compute; reflexivity|]. split; vm_compute; reflexivity. Qed.
Example C36_case_raise : Z.testbit (raise_flags 3 9) 34 = true /\ Z.testbit (raise_flags 3 9) 35 = false.
Proof. split; reflexivity. Qed.
