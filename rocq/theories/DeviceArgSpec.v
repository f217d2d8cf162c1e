(* What a user of device arguments expects: buffers are lists of objects, and so is what the
   device holds. *)
From Coq Require Import ZArith List Bool.
From Verif Require Import MBuf MBufSpec MemPool Buffer BufferSpec BufferUser DeviceArg.
Import ListNotations.
Local Open Scope Z_scope.

Definition object : Type := Z * list cell.

(* the objects of the buffers *)
Definition hosts (w : world) : list (list object) := map objects (w_bufs w).

(* the objects on the device *)
Definition held (w : world) : option (list object) :=
  if 0 <? a_size (w_arg w) then option_map content (a_dev (w_arg w)) else None.

(* the device gives memory inside the address space, aligned to words, at addresses other than
   those of the buffers and of the memory in use *)
Definition device_ok (dv : device) (w : world) : Prop :=
  good_heap (d_heap dv) /\
  forall n, h_malloc (d_heap dv) n <> 0 ->
    h_malloc (d_heap dv) n mod 8 = 0 /\
    (forall b, In b (w_bufs w) -> h_malloc (d_heap dv) n <> data_addr (b_h b)) /\
    (forall m, a_dev (w_arg w) = Some m -> h_malloc (d_heap dv) n <> mbase m).

(* a kernel sets word k of object number i on the device to v; a word that is a pointer is not
   written *)
Inductive device_writes : world -> nat -> nat -> Z -> world -> Prop :=
| dw w i k v m t cells x m' : 0 < a_size (w_arg w) -> a_dev (w_arg w) = Some m ->
    nth_error (content m) i = Some (t, cells) -> nth_error cells k = Some (Raw x) -> 0 <= v < 2 ^ 64 ->
    wr m (obj_begin m (Z.of_nat i) + 8 * Z.of_nat k) v = Some m' ->
    device_writes w i k v (World (w_bufs w) (w_raws w) (set_dev (w_arg w) m')).

(* the user sets a word of an object of buffer j *)
Inductive host_writes : world -> nat -> nat -> nat -> Z -> world -> Prop :=
| hw w j i k v b b' : nth_error (w_bufs w) j = Some b -> writes b i k v b' ->
    host_writes w j i k v (World (replace (w_bufs w) j b') (w_raws w) (w_arg w)).

(* buffer i was sent, with this status; the device data was received into buffer j, with this
   status; ... *)
Inductive event :=
| Sent (i : nat) (ok : bool) | Received (j : nat) (ok : bool)
| DeviceSet (i k : nat) (v : Z) | HostSet (j i k : nat) (v : Z).

(* through the C or the C++ interface (cxx), with any controller; transfers remap *)
Inductive step : world -> event -> world -> Prop :=
| s_send cx dv cxx i w r w' : device_ok dv w -> send_buffer cx dv cxx i true w = Some (r, w') ->
    step w (Sent i r) w'
| s_receive cx dv j w r w' : receive_buffer cx dv j true w = Some (r, w') -> step w (Received j r) w'
| s_device w i k v w' : device_writes w i k v w' -> step w (DeviceSet i k v) w'
| s_host w j i k v w' : host_writes w j i k v w' -> step w (HostSet j i k v) w'.

Inductive steps : world -> list event -> world -> Prop :=
| ss_nil w : steps w [] w
| ss_snoc w es w1 e w2 : steps w es w1 -> step w1 e w2 -> steps w (es ++ [e]) w2.

(* a new argument, and buffers as they arise by use of the library *)
Definition start (w : world) : Prop :=
  w_arg w = new_arg /\
  forall b, In b (w_bufs w) -> reachable full_arrays b.

(* What the events should do with the objects of the buffers and those on the device.  A failed
   transfer to the device leaves there what was, or nothing. *)
Inductive effect1 : list (list object) * option (list object) -> event -> list (list object) * option (list object) -> Prop :=
| e_sent hs d i os : nth_error hs i = Some os -> effect1 (hs, d) (Sent i true) (hs, Some os)
| e_not_sent hs d i d' : d' = d \/ d' = None -> effect1 (hs, d) (Sent i false) (hs, d')
| e_received hs os j : (j < length hs)%nat -> effect1 (hs, Some os) (Received j true) (replace hs j os, Some os)
| e_not_received hs d j : effect1 (hs, d) (Received j false) (hs, d)
| e_device hs os i k v t cells : nth_error os i = Some (t, cells) ->
    effect1 (hs, Some os) (DeviceSet i k v) (hs, Some (replace os i (t, replace cells k (Raw v))))
| e_host hs d j os i k v t cells : nth_error hs j = Some os -> nth_error os i = Some (t, cells) ->
    effect1 (hs, d) (HostSet j i k v) (replace hs j (replace os i (t, replace cells k (Raw v))), d).

Inductive effects1 : list (list object) * option (list object) -> list event -> list (list object) * option (list object) -> Prop :=
| ee_nil s : effects1 s [] s
| ee_snoc s es s1 e s2 : effects1 s es s1 -> effect1 s1 e s2 -> effects1 s (es ++ [e]) s2.

(* the controller can transfer to the device and remap there; ... from the device *)
Definition can_send (cx : option ctrl) : Prop :=
  exists c, cx = Some c /\ c_send c = true /\ c_run c = true /\
    (if c_debug c then c_debug_kernel c else c_kernel c) = true.
Definition can_receive (cx : option ctrl) : Prop := exists c, cx = Some c /\ c_recv c = true.

(* buffer i is the only one that was sent *)
Definition only_sent (i : nat) (es : list event) : Prop :=
  forall k ok, In (Sent k ok) es -> k = i.
