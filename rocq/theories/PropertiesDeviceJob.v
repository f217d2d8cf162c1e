(* C64: a job on a device: reset, push, collect. *)
From Coq Require Import ZArith List Bool Lia.
From Verif Require Import MBuf MBufSpec MemPool Buffer BufferSpec BufferProofs BufferUser BufferReach BufferExample
  DeviceArg DeviceArgSpec DeviceArgProofs PropertiesDeviceArg DeviceJob DeviceJobSpec DeviceJobProofs.
Import ListNotations.
Local Open Scope Z_scope.

Lemma job_buffers_fine bufs : job_buffers bufs -> length bufs = 5%nat /\ forall b, In b bufs -> fine b.
Proof.
  intros (L & R). split; [exact L|]. intros b Hb. destruct (reachable_inv _ _ (R b Hb)) as (A & I & V & F). exists A. auto.
Qed.

Lemma reset_facts cx dvs again h bufs st j : job_buffers bufs -> reset_devices dvs again bufs ->
  reset cx dvs again h bufs = Some (st, j) -> fresh bufs j.
Proof.
  intros B D E. destruct (job_buffers_fine _ B) as (L & F). destruct (reset_ok cx dvs again h bufs L F D) as (st' & j' & E' & X & _).
  assert (j' = j) as -> by congruence. exact X.
Qed.

Lemma job_jinv j : job j -> jinv j.
Proof.
  intros H. destruct H as [cx dvs again h bufs st j es j' B D E S].
  destruct (reset_facts _ _ _ _ _ _ _ B D E) as (J & _). apply (jsteps_ok _ _ _ J S).
Qed.

(* A reset never leaves the host's objects changed, and every part is on the device as it is on the
   host, or is not there; which parts are there, which pointers the job has and when success is
   reported depends on the transfers and the steps on the host in this way. *)
Theorem C64_reset cx dvs again h bufs : job_buffers bufs -> reset_devices dvs again bufs ->
  exists st j, reset cx dvs again h bufs = Some (st, j) /\
    (forall r, on_host j r = host_objects bufs r /\ (on_device j r = Some (on_host j r) \/ on_device j r = None)) /\
    (on_device j Addr <> None <-> h_parts h = true /\ has_addr h = true /\ reaches cx dvs bufs Addr) /\
    (on_device j Parts <> None <-> on_device j Addr <> None /\ reaches cx dvs bufs Parts) /\
    (on_device j Elems <> None <-> on_device j Addr <> None /\ h_elems h = true /\ reaches cx dvs bufs Elems) /\
    (on_device j Out <> None <-> wanted h = true /\ h_output h = true /\ has_out h = true /\
       (has_conf h = true -> resent cx dvs again bufs) /\ reaches cx dvs bufs Out) /\
    (has j Parts = true <-> on_device j Elems <> None /\ h_kernels h = true) /\ has j Elems = has j Parts /\
    has j Out = has_out h /\ has j Addr = has_addr h /\
    (wanted h = false -> (st = true <-> on_device j Elems <> None /\ h_kernels h = true)) /\
    (wanted h = true -> (st = true <-> on_device j Out <> None /\
       (need_ebe h = true -> h_ebe h = true /\ has_conf h = true /\ k_ebe h = true) /\
       (need_mon h = true -> h_mon h = true /\ on_device j Elems <> None /\ k_mon h = true))).
Proof.
  intros B D. destruct (job_buffers_fine _ B) as (L & F).
  destruct (reset_ok cx dvs again h bufs L F D) as (st & j & E & (J & Bj & FR) & X). exists st, j. split; [exact E|]. split; [|exact X].
  intros r. assert (Y : on_host j r = host_objects bufs r) by (unfold on_host, host_objects; rewrite Bj; reflexivity).
  rewrite Y. auto.
Qed.

(* when all transfers succeed, the status is that of the steps on the host, and after a success
   everything that is needed is on the device *)
Theorem C64_reset_all_arrive cx dvs again h bufs st j : job_buffers bufs -> reset_devices dvs again bufs ->
  reset cx dvs again h bufs = Some (st, j) ->
  (forall r, reaches cx dvs bufs r) -> resent cx dvs again bufs ->
  h_parts h = true -> has_addr h = true -> h_elems h = true -> h_kernels h = true ->
  on_device j Parts = Some (on_host j Parts) /\ on_device j Elems = Some (on_host j Elems) /\
  on_device j Addr = Some (on_host j Addr) /\
  (wanted h = true -> h_output h = true -> has_out h = true -> on_device j Out = Some (on_host j Out)) /\
  (wanted h = false -> st = true) /\
  (wanted h = true -> (st = true <-> h_output h = true /\ has_out h = true /\
     (need_ebe h = true -> h_ebe h = true /\ has_conf h = true /\ k_ebe h = true) /\
     (need_mon h = true -> h_mon h = true /\ k_mon h = true))).
Proof.
  intros B D E R RS H1 H2 H3 H4. destruct (C64_reset cx dvs again h bufs B D) as (st' & j' & E' & HO & XA & XP & XE & XO & _ & _ & _ & _ & S0 & S1).
  assert (st' = st /\ j' = j) as (-> & ->) by (split; congruence). clear E'.
  assert (IA : on_device j Addr <> None) by (apply XA; auto).
  assert (IP : on_device j Parts <> None) by (apply XP; auto).
  assert (IE : on_device j Elems <> None) by (apply XE; auto).
  assert (GET : forall r, on_device j r <> None -> on_device j r = Some (on_host j r)) by (intros r Hr; destruct (HO r) as (_ & [X|X]); congruence).
  split; [apply GET; exact IP|]. split; [apply GET; exact IE|]. split; [apply GET; exact IA|].
  split; [intros; apply GET, XO; auto 10|]. split; [intros W; apply (S0 W); auto|].
  intros W. rewrite (S1 W), XO. split.
  - intros ((_ & Y1 & Y2 & _) & Y3 & Y4). split; [exact Y1|]. split; [exact Y2|]. split; [exact Y3|]. intros Y. apply Y4 in Y. tauto.
  - intros (Y1 & Y2 & Y3 & Y4). split; [auto 10|]. split; [exact Y3|]. intros Y. apply Y4 in Y. tauto.
Qed.

(* Whatever is pushed, collected and written, in any order and with any failures: what is on the
   host and on the device is what the events say. *)
Theorem C64_history cx dvs again h bufs st j es j' : job_buffers bufs -> reset_devices dvs again bufs ->
  reset cx dvs again h bufs = Some (st, j) -> jsteps j es j' ->
  happened (view j) es (view j').
Proof.
  intros B D E S. destruct (reset_facts _ _ _ _ _ _ _ B D E) as (J & _). apply (jsteps_ok _ _ _ J S).
Qed.

(* push: defined; only what was asked for is reported; a part that is on the device is reported if
   and only if it was asked for and the transfer can be done *)
Theorem C64_push cx dvs fl j : job j -> devices_ok dvs j ->
  exists res j', push cx dvs fl j = Some (res, j') /\
    (forall n, 0 <= n -> Z.testbit res n = true -> Z.testbit fl n = true) /\
    (forall r, r = Parts \/ r = Elems \/ r = Out -> on_device j r <> None -> has j r = true ->
       (named res r = true <-> named fl r = true /\ can_send cx /\ d_copy (dvs r) = true /\ room (dvs r) j r)) /\
    (forall r, named res r = true -> on_device j' r = Some (on_host j r)).
Proof.
  intros H D. destruct (push_ok cx dvs fl j (job_jinv _ H) D) as (res & j' & E & J & _ & _ & DO & I & T).
  exists res, j'. split; [exact E|]. split; [|split; [exact I|]].
  - intros n Hn Ht. pose proof (DO Parts) as D1. pose proof (DO Elems) as D2. pose proof (DO Out) as D3.
    unfold does, view, named, bit in D1, D2, D3. destruct (T n Hn Ht) as [->|[->| ->]]; tauto.
  - intros r Hr. specialize (DO r). unfold does, view in DO. tauto.
Qed.

(* collect: the same; the host's objects are then those on the device *)
Theorem C64_collect cx dvs fl j : job j ->
  exists res j', collect cx dvs fl j = Some (res, j') /\
    (forall n, 0 <= n -> Z.testbit res n = true -> Z.testbit fl n = true) /\
    (forall r, r <> Conf -> on_device j r <> None -> has j r = true ->
       (named res r = true <-> named fl r = true /\ can_receive cx /\ d_copy (dvs r) = true /\ fits_back j r)) /\
    (forall r, named res r = true -> on_device j r = Some (on_host j' r)).
Proof.
  intros H. destruct (collect_ok cx dvs fl j (job_jinv _ H)) as (res & j' & E & J & _ & DO & I & T).
  exists res, j'. split; [exact E|]. split; [|split; [exact I|]].
  - intros n Hn Ht. pose proof (DO Parts) as D1. pose proof (DO Elems) as D2. pose proof (DO Out) as D3. pose proof (DO Addr) as D4.
    unfold does, view, named, bit in D1, D2, D3, D4. destruct (T n Hn Ht) as [->|[->|[->| ->]]]; tauto.
  - intros r Hr. specialize (DO r). unfold does, view in DO. tauto.
Qed.

(* a part that was pushed and then collected, both with success, is on the host as before *)
Theorem C64_round_trip cx1 dvs1 f1 cx2 dvs2 f2 j r1 j1 r2 j2 r : job j -> devices_ok dvs1 j ->
  push cx1 dvs1 f1 j = Some (r1, j1) -> collect cx2 dvs2 f2 j1 = Some (r2, j2) ->
  named r1 r = true -> named r2 r = true -> on_host j2 r = on_host j r.
Proof.
  intros H D E1 E2 N1 N2. destruct (push_ok cx1 dvs1 f1 j (job_jinv _ H) D) as (x & y & E & J & _ & _ & DO & _).
  assert (x = r1 /\ y = j1) as (-> & ->) by (split; congruence).
  destruct (collect_ok cx2 dvs2 f2 j1 J) as (x & y & E' & J' & _ & DO' & _).
  assert (x = r2 /\ y = j2) as (-> & ->) by (split; congruence).
  specialize (DO r). specialize (DO' r). unfold does, view in DO, DO'. destruct DO as (_ & X & _). destruct DO' as (_ & Y & _).
  apply X in N1. apply Y in N2. destruct N1 as (_ & N1). destruct N2 as (_ & N2). congruence.
Qed.

(* ------------------------------------------------------------------ *)
(* a job with five buffers *)
Definition ex_bufs : list buffer := [x2; x1; x2; x1; x1].
Definition dev_at (a : Z) : device := Device (heap_at a) true.
Definition ex_dvs (r : role) : device :=
  match r with
  | Parts => dev_at 131072 | Elems => dev_at 262144 | Out => dev_at 393216 | Addr => dev_at 524288 | Conf => dev_at 655360
  end.
Definition no_memory : device := Device heap_none true.
Definition ex_host (out : bool) : host :=
  Host true true true true true true true true out out out out out true.
Definition after_reset (o : option (bool * djob)) : djob := snd (get (false, cleared []) o).
Definition after_flags (o : option (Z * djob)) : djob := snd (get (0, cleared []) o).

Lemma ex_job_buffers : job_buffers ex_bufs.
Proof.
  split; [reflexivity|].
  intros b [<-|[<-|[<-|[<-|[<-|[]]]]]]; apply added_full; (exact x2_added || exact x1_added).
Qed.

Lemma dev_at_ok a (P : Z -> Prop) : 0 < a < 2 ^ 32 -> P a -> good_heap (d_heap (dev_at a)) /\
  forall n, h_malloc (d_heap (dev_at a)) n <> 0 -> P (h_malloc (d_heap (dev_at a)) n).
Proof.
  intros Ha HP. split; [now apply heap_at_good|]. cbn [d_heap dev_at heap_at h_malloc]. intros n Hn.
  destruct (n <? 1048576); [exact HP|congruence].
Qed.

Lemma ex_bufs_addr a : a <> 16384 -> a <> 8192 -> forall b, In b ex_bufs -> a <> data_addr (b_h b).
Proof.
  intros H1 H2.
  assert (E2 : data_addr (b_h x2) = 16384) by (vm_compute; reflexivity). assert (E1 : data_addr (b_h x1) = 8192) by (vm_compute; reflexivity).
  intros b [<-|[<-|[<-|[<-|[<-|[]]]]]]; rewrite ?E1, ?E2; assumption.
Qed.

Definition good_devices (dvs : role -> device) : Prop :=
  forall r, dvs r = no_memory \/ exists a, dvs r = dev_at a /\ 0 < a < 2 ^ 32 /\ a mod 8 = 0 /\ a <> 16384 /\ a <> 8192.

Lemma good_devices_reset dvs : good_devices dvs -> reset_devices dvs no_memory ex_bufs.
Proof.
  intros G. split; [|split].
  - intros r. destruct (G r) as [->|(a & -> & H1 & H2 & H3 & H4)].
    + split; [apply heap_none_good|]. intros n Hn. cbn in Hn. congruence.
    + apply (dev_at_ok a (fun x => x mod 8 = 0 /\ (forall b, In b (dj_bufs (cleared ex_bufs)) -> x <> data_addr (b_h b)) /\
        forall a0 m, In (Some a0) (dj_args (cleared ex_bufs)) -> a_dev a0 = Some m -> x <> mbase m)); [exact H1|].
      split; [exact H2|]. split; [apply ex_bufs_addr; assumption|]. intros b m [X|[X|[X|[X|[X|[]]]]]]; discriminate X.
  - apply heap_none_device.
  - intros n k Hn. cbn in Hn. congruence.
Qed.

Lemma ex_dvs_good : good_devices ex_dvs.
Proof.
  intros r. right. destruct r; cbn [ex_dvs]; eexists; (split; [reflexivity|]); (split; [split; reflexivity|]); split; try reflexivity; split; lia.
Qed.

Lemma no_memory_ok j : devices_ok (fun _ => no_memory) j.
Proof. intros r. split; [apply heap_none_good|]. intros n Hn. cbn in Hn. congruence. Qed.

Definition ej0 : djob := after_reset (reset ex_ctrl ex_dvs no_memory (ex_host true) ex_bufs).
(* a kernel sets the third word of the second particles object *)
Definition dev_set (j : djob) (r : role) (p v : Z) : djob :=
  match arg_of j r with
  | Some a => put_world j r (set_device_word (world_of j a) p v)
  | None => j
  end.
Definition ej1 : djob := dev_set ej0 Parts (131072 + 112 + 16) 6.
Definition ej2 : djob := after_flags (collect ex_ctrl ex_dvs 17 ej1).
Definition ej3 : djob := after_flags (push ex_ctrl (fun _ => no_memory) 3 ej2).

Lemma set_device_step j r a p v i k m t cells x m' : arg_of j r = Some a -> 0 < a_size a -> a_dev a = Some m ->
  nth_error (content m) i = Some (t, cells) -> nth_error cells k = Some (Raw x) -> 0 <= v < 2 ^ 64 ->
  p = obj_begin m (Z.of_nat i) + 8 * Z.of_nat k -> wr m p v = Some m' ->
  jstep j (OnDevice r i k v) (dev_set j r p v).
Proof.
  intros Ea Hs Hm Ho Hk Hv Hp Hw. unfold dev_set. rewrite Ea. unfold set_device_word. cbn [world_of w_arg]. rewrite Hm.
  apply (j_device j r a i k v); [exact Ea|]. rewrite Hw. cbn [get]. subst p.
  exact (dw (world_of j a) i k v m t cells x m' Hs Hm Ho Hk Hv Hw).
Qed.

(* reset; a kernel writes into the particles; collect; push *)
Example C64_example :
  job ej3 /\ jsteps ej0 [OnDevice Parts 1 2 6; Collected 17 17; Pushed 3 3] ej3 /\
  reset ex_ctrl ex_dvs no_memory (ex_host true) ex_bufs = Some (true, ej0) /\
  (forall r, on_device ej0 r = Some (on_host ej0 r)) /\
  on_host ej3 Parts = [nth 0 (objects x2) (0, []); (9, [Raw 1; Ptr 24; Raw 6; Raw 319951120])] /\
  on_host ej0 Parts = objects x2 /\ on_device ej3 Parts = Some (on_host ej3 Parts).
Proof.
  assert (R : reset ex_ctrl ex_dvs no_memory (ex_host true) ex_bufs = Some (true, ej0)) by (vm_compute; reflexivity).
  assert (S : jsteps ej0 [OnDevice Parts 1 2 6; Collected 17 17; Pushed 3 3] ej3).
  { change [OnDevice Parts 1 2 6; Collected 17 17; Pushed 3 3] with
      ((([] ++ [OnDevice Parts 1 2 6]) ++ [Collected 17 17]) ++ [Pushed 3 3]).
    apply js_snoc with ej2; [apply js_snoc with ej1; [apply js_snoc with ej0; [apply js_nil|]|]|].
    - unfold ej1. eapply set_device_step; try (vm_compute; reflexivity). vm_compute. split; [discriminate|reflexivity].
    - apply (j_collect ex_ctrl ex_dvs). vm_compute. reflexivity.
    - apply (j_push ex_ctrl (fun _ => no_memory)); [apply no_memory_ok|]. vm_compute. reflexivity. }
  split; [|split; [exact S|split; [exact R|]]].
  - exact (a_job ex_ctrl ex_dvs no_memory (ex_host true) ex_bufs true ej0 _ ej3 ex_job_buffers (good_devices_reset _ ex_dvs_good) R S).
  - split; [intros r; destruct r; vm_compute; reflexivity|]. split; [vm_compute; reflexivity|]. split; vm_compute; reflexivity.
Qed.

(* ------------------------------------------------------------------ *)
(* "after a reset that reports success the particles are on the device" is false: the status stays
   that of the address table when there is no memory for the particles *)
Definition no_parts (r : role) : device := match r with Parts => no_memory | _ => ex_dvs r end.
Definition er0 : djob := after_reset (reset ex_ctrl no_parts no_memory (ex_host false) ex_bufs).
Theorem C64_particles_missing_refuted : exists cx dvs again h bufs j,
  job_buffers bufs /\ reset_devices dvs again bufs /\ reset cx dvs again h bufs = Some (true, j) /\
  on_device j Parts = None /\ on_host j Parts <> [] /\
  (forall fl dvs' res j', devices_ok dvs' j -> push cx dvs' fl j = Some (res, j') -> named res Parts = false).
Proof.
  exists ex_ctrl, no_parts, no_memory, (ex_host false), ex_bufs, er0.
  split; [exact ex_job_buffers|]. split.
  { apply good_devices_reset. intros r. destruct r; [left; reflexivity|exact (ex_dvs_good Elems)|exact (ex_dvs_good Out)|exact (ex_dvs_good Addr)|exact (ex_dvs_good Conf)]. }
  split; [vm_compute; reflexivity|]. split; [vm_compute; reflexivity|]. split; [vm_compute; discriminate|].
  intros fl dvs' res j' D E. unfold push, do_push, and_then in E. cbn [bind] in E. unfold push_one at 1 in E.
  assert (N : arg_of er0 Parts = None) by (vm_compute; reflexivity). rewrite N in E. cbn [bind] in E.
  unfold push_one in E. generalize dependent (Z.land fl PUSH_ALL). intros f E.
  destruct (arg_of er0 Elems) as [a1|]; cbn [bind] in E.
  1: destruct (flag_set f (flag Elems) && given (a_c a1) && has er0 Elems); cbn [bind] in E.
  1: destruct (send_buffer ex_ctrl (dvs' Elems) false (pos Elems) true (world_of er0 a1)) as [(s1, w1)|]; [|discriminate E]; cbn [bind] in E.
  1: generalize dependent (put_world er0 Elems w1); intros j1 E.
  1: destruct (arg_of j1 Out) as [a2|]; cbn [bind] in E.
  all: repeat match type of E with
    | context [bind (send_buffer ?a ?b ?c ?d ?e ?f) _] => destruct (send_buffer a b c d e f) as [(?, ?)|]; [|discriminate E]
    | context [match arg_of ?j Out with _ => _ end] => destruct (arg_of j Out)
    | context [if ?b then _ else _] => lazymatch type of b with bool => destruct b end
    end; cbn [bind] in E.
  all: repeat match type of E with
    | context [bind (send_buffer ?a ?b ?c ?d ?e ?f) _] => destruct (send_buffer a b c d e f) as [(?, ?)|]; [|discriminate E]
    | context [if ?b then _ else _] => lazymatch type of b with bool => destruct b end
    end; cbn [bind] in E.
  all: assert (R := f_equal (fun o => match o with Some (x, _) => x | None => 0 end) E); cbv beta iota in R; rewrite <- R; vm_compute; reflexivity.
Qed.

(* "a reset that reports success prepared everything": false when an output buffer is given, the
   status of the earlier steps is lost *)
Definition bad_host : host := Host true false false true true true true true false false true true false true.
Theorem C64_failure_lost_refuted : exists cx dvs again h bufs j,
  job_buffers bufs /\ reset_devices dvs again bufs /\ reset cx dvs again h bufs = Some (true, j) /\
  h_elems h = false /\ h_kernels h = false /\ on_device j Elems = None /\ on_device j Out <> None.
Proof.
  exists ex_ctrl, ex_dvs, no_memory, bad_host, ex_bufs, (after_reset (reset ex_ctrl ex_dvs no_memory bad_host ex_bufs)).
  split; [exact ex_job_buffers|]. split; [exact (good_devices_reset _ ex_dvs_good)|]. split; [vm_compute; reflexivity|].
  split; [reflexivity|]. split; [reflexivity|]. split; [vm_compute; reflexivity|vm_compute; discriminate].
Qed.

(* "what a kernel assigned on the device (the address of the output of a monitor) stays there, and
   does not appear on the host": false, pushing the elements replaces it by the host's word, and
   collecting them brings it to the host *)
Definition word_of (os : list object) (i k : nat) : option cell :=
  match nth_error os i with Some (_, cells) => nth_error cells k | None => None end.
Definition em0 : djob := after_reset (reset ex_ctrl ex_dvs no_memory (ex_host true) ex_bufs).
Definition em1 : djob := dev_set em0 Elems (262144 + 80) 393264.
Theorem C64_assignment_refuted : exists j j1 j2 jc v,
  job j /\ jstep j (OnDevice Elems 0 0 v) j1 /\
  jstep j1 (Pushed 2 2) j2 /\ jstep j1 (Collected 2 2) jc /\
  match on_device j1 Elems with Some os => word_of os 0 0 = Some (Raw v) | None => False end /\
  match on_device j2 Elems with Some os => word_of os 0 0 = word_of (on_host j Elems) 0 0 | None => False end /\
  word_of (on_host j Elems) 0 0 <> Some (Raw v) /\
  word_of (on_host jc Elems) 0 0 = Some (Raw v).
Proof.
  exists em0, em1, (after_flags (push ex_ctrl (fun _ => no_memory) 2 em1)), (after_flags (collect ex_ctrl ex_dvs 2 em1)), 393264.
  split.
  { apply (a_job ex_ctrl ex_dvs no_memory (ex_host true) ex_bufs true em0 [] em0 ex_job_buffers (good_devices_reset _ ex_dvs_good)); [vm_compute; reflexivity|constructor]. }
  split. { unfold em1. eapply set_device_step; try (vm_compute; reflexivity). vm_compute. split; [discriminate|reflexivity]. }
  split. { apply (j_push ex_ctrl (fun _ => no_memory)); [apply no_memory_ok|]. vm_compute. reflexivity. }
  split. { apply (j_collect ex_ctrl ex_dvs). vm_compute. reflexivity. }
  split; [vm_compute; reflexivity|]. split; [vm_compute; reflexivity|]. split; [vm_compute; discriminate|vm_compute; reflexivity].
Qed.

Print Assumptions C64_reset.
Print Assumptions C64_reset_all_arrive.
Print Assumptions C64_history.
Print Assumptions C64_push.
Print Assumptions C64_collect.
Print Assumptions C64_round_trip.
Print Assumptions C64_particles_missing_refuted.
Print Assumptions C64_failure_lost_refuted.
Print Assumptions C64_assignment_refuted.
