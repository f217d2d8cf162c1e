(* C68: the monitors for the turns to be recorded at the end of a line. *)
From Coq Require Import ZArith List Bool.
From Verif Require Import MBuf MBufSpec Elements MonitorSpec.
Import ListNotations.
Local Open Scope Z_scope.

Definition int64_number (z : Z) : Prop := - 2 ^ 63 <= z < 2 ^ 63.

(* a monitor in a buffer, without output and with particle ids -1; turn ordered *)
Definition monitor_object (num_stores start skip : Z) (rolling : bool) : Z * list cell :=
  (10, map Raw [num_stores mod 2 ^ 64; start mod 2 ^ 64; skip mod 2 ^ 64; 0; 2 ^ 64 - 1; 2 ^ 64 - 1;
                if rolling then 1 else 0; 1]).

Definition each (skip : Z) : Z := Z.max 1 skip.

(* the monitor for every one of the turns start, ..., start + num - 1 *)
Definition first_monitor (start num : Z) : list (Z * list cell) :=
  if 0 <? num then [monitor_object num start 1 false] else [].

(* the monitor for every skip-th turn from then on, below target *)
Definition second_monitor (out target skip : Z) : list (Z * list cell) :=
  if out <? target
  then [monitor_object ((target - out + each skip - 1) / each skip) out (each skip) true] else [].

Definition end_of_turn (start num target skip : Z) : list (Z * list cell) :=
  first_monitor start num ++ second_monitor (start + num) target skip.

(* the monitor stored in an object *)
Definition word_of (c : cell) : Z := match c with Raw w => w | Ptr _ => 0 end.
Definition number64 (w : Z) : Z := if w <? 2 ^ 63 then w else w - 2 ^ 64.
Definition monitor_of (o : Z * list cell) : monitor :=
  let w k := word_of (nth k (snd o) (Raw 0)) in
  mkMonitor (number64 (w 0%nat)) (number64 (w 1%nat)) (number64 (w 2%nat)) None
    (number64 (w 4%nat)) (number64 (w 5%nat)) (w 6%nat =? 1) (w 7%nat =? 1).

(* after n turns, turn t is stored by one of the monitors *)
Definition recorded (l : list (Z * list cell)) (n t : Z) : Prop :=
  exists o i, In o l /\ sample (monitor_of o) t i /\ still_stored (monitor_of o) n i.

(* the turns that are to be recorded *)
Definition to_record (start num skip t : Z) : Prop :=
  start <= t < start + num \/ start + num <= t /\ (t - (start + num)) mod each skip = 0.
