(* What a user of a job on a device expects: for each of its buffers there are the objects on
   the host and those on the device. *)
From Coq Require Import ZArith List Bool.
From Verif Require Import MBuf MBufSpec MemPool Buffer BufferSpec BufferUser DeviceArg DeviceArgSpec DeviceJob.
Import ListNotations.
Local Open Scope Z_scope.

Definition on_host (j : djob) (r : role) : list object :=
  match nth_error (dj_bufs j) (pos r) with Some b => objects b | None => [] end.
Definition on_device (j : djob) (r : role) : option (list object) :=
  match arg_of j r with Some a => held (world_of j a) | None => None end.
Definition view (j : djob) (r : role) : list object * option (list object) := (on_host j r, on_device j r).

(* the devices give memory inside the address space, aligned to words, at addresses other than
   those of the buffers and of the device memory of the job *)
Definition devices_ok (dvs : role -> device) (j : djob) : Prop :=
  forall r, good_heap (d_heap (dvs r)) /\
    forall n, h_malloc (d_heap (dvs r)) n <> 0 ->
      h_malloc (d_heap (dvs r)) n mod 8 = 0 /\
      (forall b, In b (dj_bufs j) -> h_malloc (d_heap (dvs r)) n <> data_addr (b_h b)) /\
      (forall a m, In (Some a) (dj_args j) -> a_dev a = Some m -> h_malloc (d_heap (dvs r)) n <> mbase m).

(* a set of transfers as the bits of a number *)
Definition bit (r : role) : Z := match r with Parts => 0 | Elems => 1 | Out => 2 | _ => 4 end.
Definition named (flags : Z) (r : role) : bool :=
  match r with Conf => false | _ => Z.testbit flags (bit r) end.

(* push and collect with what they were asked for and what they reported; a kernel or the user sets a
   word that is not a pointer *)
Inductive jevent :=
| Pushed (asked done : Z) | Collected (asked done : Z)
| OnDevice (r : role) (i k : nat) (v : Z) | OnHost (r : role) (i k : nat) (v : Z).

Inductive jstep : djob -> jevent -> djob -> Prop :=
| j_push cx dvs fl j res j' : devices_ok dvs j -> push cx dvs fl j = Some (res, j') -> jstep j (Pushed fl res) j'
| j_collect cx dvs fl j res j' : collect cx dvs fl j = Some (res, j') -> jstep j (Collected fl res) j'
| j_device j r a i k v w : arg_of j r = Some a -> device_writes (world_of j a) i k v w ->
    jstep j (OnDevice r i k v) (put_world j r w)
| j_host j r i k v b b' : nth_error (dj_bufs j) (pos r) = Some b -> writes b i k v b' ->
    jstep j (OnHost r i k v) (DJob (replace (dj_bufs j) (pos r) b') (dj_args j) (dj_has j)).

Inductive jsteps : djob -> list jevent -> djob -> Prop :=
| js_nil j : jsteps j [] j
| js_snoc j es j1 e j2 : jsteps j es j1 -> jstep j1 e j2 -> jsteps j (es ++ [e]) j2.

(* five buffers as they arise by use of the library *)
Definition job_buffers (bufs : list buffer) : Prop :=
  length bufs = 5%nat /\ forall b, In b bufs -> reachable full_arrays b.

(* the devices of a reset: none of the memory is in use; the configuration is sent twice *)
Definition reset_devices (dvs : role -> device) (again : device) (bufs : list buffer) : Prop :=
  devices_ok dvs (cleared bufs) /\ device_ok again (World bufs [] new_arg) /\
  forall n k, h_malloc (d_heap again) n <> 0 -> h_malloc (d_heap again) n <> h_malloc (d_heap (dvs Conf)) k.

(* the buffer of part r reaches the device: the controller is ready, there is memory, and the
   transfer succeeds; the configuration is sent once more *)
Definition arrives (cx : option ctrl) (dv : device) (b : buffer) : Prop :=
  can_send cx /\ d_copy dv = true /\ h_malloc (d_heap dv) (data_size (b_h b)) <> 0.
Definition reaches (cx : option ctrl) (dvs : role -> device) (bufs : list buffer) (r : role) : Prop :=
  exists b, nth_error bufs (pos r) = Some b /\ arrives cx (dvs r) b.
Definition resent (cx : option ctrl) (dvs : role -> device) (again : device) (bufs : list buffer) : Prop :=
  exists b, nth_error bufs (pos Conf) = Some b /\ can_send cx /\ d_copy again = true /\
    (h_malloc (d_heap (dvs Conf)) (data_size (b_h b)) <> 0 \/ h_malloc (d_heap again) (data_size (b_h b)) <> 0).
Definition host_objects (bufs : list buffer) (r : role) : list object :=
  match nth_error bufs (pos r) with Some b => objects b | None => [] end.
(* there is output to be written, or a buffer for it was given *)
Definition wanted (h : host) : bool := need_ebe h || need_mon h || given_out h.

(* a job: reset with any outcome, then used *)
Inductive job : djob -> Prop :=
| a_job cx dvs again h bufs st j es j' : job_buffers bufs -> reset_devices dvs again bufs ->
    reset cx dvs again h bufs = Some (st, j) -> jsteps j es j' -> job j'.

Definition set_word (os : list object) (i k : nat) (v : Z) : list object :=
  match nth_error os i with
  | Some (t, cells) => replace os i (t, replace cells k (Raw v))
  | None => os
  end.

(* What an event does to what is on the host and on the device, for the part r of the job. *)
Definition does (e : jevent) (r : role) (before after : list object * option (list object)) : Prop :=
  let '(h, d) := before in
  let '(h', d') := after in
  match e with
  | Pushed asked done => h' = h /\
      (named done r = true -> named asked r = true /\ d' = Some h) /\
      (named done r = false -> named asked r = true -> d' = d \/ d' = None) /\
      (named asked r = false -> d' = d)
  | Collected asked done => d' = d /\
      (named done r = true -> named asked r = true /\ d = Some h') /\
      (named done r = false -> h' = h)
  | OnDevice q i k v =>
      h' = h /\ if Nat.eqb (pos q) (pos r) then exists os, d = Some os /\ d' = Some (set_word os i k v) else d' = d
  | OnHost q i k v =>
      d' = d /\ if Nat.eqb (pos q) (pos r) then h' = set_word h i k v else h' = h
  end.

(* the buffer of part r fits into the device memory of the job, or there is more; what is on the
   device fits into the buffer *)
Definition room (dv : device) (j : djob) (r : role) : Prop :=
  exists a b, arg_of j r = Some a /\ nth_error (dj_bufs j) (pos r) = Some b /\
    (data_size (b_h b) <= a_cap a \/ h_malloc (d_heap dv) (data_size (b_h b)) <> 0).
Definition fits_back (j : djob) (r : role) : Prop :=
  exists a b, arg_of j r = Some a /\ nth_error (dj_bufs j) (pos r) = Some b /\ a_size a <= data_capacity (b_h b).

(* a history: events, each with what it does *)
Inductive happened : (role -> list object * option (list object)) -> list jevent ->
    (role -> list object * option (list object)) -> Prop :=
| ha_nil v v' : (forall r, v' r = v r) -> happened v [] v'
| ha_snoc v es v1 e v2 : happened v es v1 -> (forall r, does e r (v1 r) (v2 r)) -> happened v (es ++ [e]) v2.
