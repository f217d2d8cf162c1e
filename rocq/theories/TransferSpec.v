(* Collect settings as five independent switches; which parts a transfer should reach. *)
From Coq Require Import ZArith List Bool.
From Verif Require Import Transfer.
Import ListNotations.
Local Open Scope Z_scope.

(* bit k of a set of flags *)
Definition bit (f k : Z) : bool := Z.testbit f k.

Record switches := mkSw { sw_particles : bool; sw_belems : bool; sw_output : bool; sw_debug : bool; sw_addr : bool }.
Definition sw_initial : switches := mkSw true false true false false.
Definition sw_op (o : flag_op) (s : switches) : switches :=
  match o with
  | EnableParticles => mkSw true (sw_belems s) (sw_output s) (sw_debug s) (sw_addr s)
  | DisableParticles => mkSw false (sw_belems s) (sw_output s) (sw_debug s) (sw_addr s)
  | EnableBeamElements => mkSw (sw_particles s) true (sw_output s) (sw_debug s) (sw_addr s)
  | DisableBeamElements => mkSw (sw_particles s) false (sw_output s) (sw_debug s) (sw_addr s)
  | EnableOutput => mkSw (sw_particles s) (sw_belems s) true (sw_debug s) (sw_addr s)
  | DisableOutput => mkSw (sw_particles s) (sw_belems s) false (sw_debug s) (sw_addr s)
  | SetFlags f => mkSw (bit f 0) (bit f 1) (bit f 2) (bit f 3) (bit f 4)
  end.

(* a set of flags means these switches and nothing else *)
Definition means (f : Z) (s : switches) : Prop :=
  0 <= f < 32 /\ bit f 0 = sw_particles s /\ bit f 1 = sw_belems s /\ bit f 2 = sw_output s /\
  bit f 3 = sw_debug s /\ bit f 4 = sw_addr s.

(* a part was fetched from the device (sent to the device): exactly when wanted and possible *)
Definition fetched {V} (want : bool) (p p' : part V) : Prop :=
  device p' = device p /\ avail p' = avail p /\ works p' = works p /\
  host p' = if want && avail p && works p then device p else host p.
Definition sent {V} (want : bool) (p p' : part V) : Prop :=
  host p' = host p /\ avail p' = avail p /\ works p' = works p /\
  device p' = if want && avail p && works p then host p else device p.
Definition possible {V} (p : part V) : bool := avail p && works p.
