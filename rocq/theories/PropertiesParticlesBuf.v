(* Theorems for C59: particle sets in buffers, and the table with the addresses of their
   attributes.  The words used in the statements are those of ParticlesBufSpec.v,
   StringsSpec.v, LinesSpec.v, BufferUser.v and MBufSpec.v. *)
From Coq Require Import ZArith List Bool Lia.
From Verif Require Import MBuf MBufSpec MemPool Buffer BufferSpec BufferUser BufferReach BufferProps
  BufferExample BufferWrite Lines LinesSpec Strings StringsSpec StringsProofs ParticlesBuf ParticlesBufSpec ParticlesBufProofs ParticlesBufPrepare
  ParticlesBufTable.
Import ListNotations.
Local Open Scope Z_scope.

(* A new set of n particles is stored behind the other objects, all its attributes being 0. *)
Theorem C59_new : forall hp b n, reachable any b -> good_heap hp -> 0 <= n < 2 ^ 63 -> set_fits b n ->
  exists p b', particles_new hp b n = Some (p, b') /\
    added_object hp b p b' (fun o => o = particle_set n (repeat (repeat 0 (Z.to_nat n)) 21))
      (8 * (set_words n + 24)) (set_room b n) /\
    (0 < n -> keeps_full b p b') /\ columns n (repeat (repeat 0 (Z.to_nat n)) 21).
Proof. exact particles_new_ok. Qed.
Print Assumptions C59_new.

(* Adding a set from the caller's arrays (21 addresses, 0 for none) stores the values of these
   arrays. *)
Theorem C59_add : forall hp b e n ptrs, reachable any b -> good_heap hp ->
  length ptrs = 21%nat -> 0 <= n < 2 ^ 63 -> words64 ptrs ->
  (forall src, In src ptrs -> src <> 0 -> forall k, 0 <= k < 8 * n ->
     exists x, e (src + k) = Some x /\ 0 <= x < 256) ->
  set_fits b n ->
  exists p b', particles_add hp b e n ptrs = Some (p, b') /\
    added_object hp b p b' (fun o => exists cols, o = particle_set n cols /\ columns n cols /\
        Forall2 (fun src c => array_of e src (8 * n) c) ptrs cols)
      (8 * (set_words n + 24)) (set_room b n) /\
    (0 < n -> keeps_full b p b').
Proof. exact particles_add_ok. Qed.
Print Assumptions C59_add.

(* The copy of a set is the same set, with its pointers to its own columns. *)
Theorem C59_copy : forall hp b bs i n cols, reachable any bs -> set_at bs i n cols ->
  reachable any b -> good_heap hp -> set_fits b n ->
  exists p b', particles_add_copy hp b (b_mem bs) (place bs i) = Some (p, b') /\
    added_object hp b p b' (fun o => o = particle_set n cols) (8 * (set_words n + 24)) (set_room b n) /\
    (0 < n -> keeps_full b p b').
Proof. exact particles_copy_ok. Qed.
Print Assumptions C59_copy.

(* By its number every set with particles is found; nothing is found for other objects. *)
Theorem C59_find : forall b i, reachable any b ->
  (forall n cols, set_at b i n cols -> 0 < n ->
     particles_at (b_mem b) (data_addr (b_h b)) (Z.of_nat i) = Some (place b i) /\ place b i <> 0 /\
     rd (b_mem b) (place b i) = Some n) /\
  (forall o, nth_error (objects b) i = Some o -> no_particles o ->
     particles_at (b_mem b) (data_addr (b_h b)) (Z.of_nat i) = Some 0).
Proof.
  intros b i R. split.
  - intros n cols S Hn. split; [now apply (find_set b i n cols)|].
    split; [|apply (set_read b i n cols R S)]. destruct S as (O & _).
    destruct (particle_set n cols) as [t cells]. pose proof (place_facts b i t cells R O). lia.
  - intros o O N. now apply (find_none b i o).
Qed.
Print Assumptions C59_find.

(* The numbers of sets and of particles of a buffer; a buffer is one of particles exactly if
   it has objects and each of them is a set with particles. *)
Theorem C59_counts : forall b, reachable any b -> proper_sets b ->
  num_blocks b = Some (Z.of_nat (length (filter some_in (objects b)))) /\
  total_particles b = Some (total particles_in (objects b)) /\
  exists y, is_particles_buffer b = Some y /\
    (y = true <-> objects b <> [] /\ forall o, In o (objects b) -> 0 < particles_in o).
Proof.
  intros b R PS. split; [now apply num_blocks_ok|]. split; [now apply total_ok|].
  eexists. split; [apply (is_particles_ok b R PS)|]. rewrite andb_true_iff, forallb_forall. split.
  - intros (H1 & H2). split; [intros X; rewrite X in H1; discriminate|].
    intros o Ho. specialize (H2 o Ho). unfold some_in in H2. now apply Z.ltb_lt.
  - intros (H1 & H2). split; [destruct (objects b); [congruence|reflexivity]|].
    intros o Ho. apply Z.ltb_lt. now apply H2.
Qed.
Print Assumptions C59_counts.

(* Reading a value of a particle. *)
Theorem C59_get : forall b i n cols a j, reachable any b -> set_at b i n cols -> (a < 21)%nat -> 0 <= j < n ->
  p_get (b_mem b) (place b i) a j = Some (value cols a j).
Proof. exact get_ok. Qed.
Print Assumptions C59_get.

(* Writing a value changes this value of this set and nothing else. *)
Theorem C59_set : forall b i n cols a j v, reachable any b -> set_at b i n cols -> (a < 21)%nat -> 0 <= j < n ->
  0 <= v < 2 ^ 64 ->
  exists m', p_set (b_mem b) (place b i) a j v = Some m' /\
    objects (with_mem b m') = replace (objects b) i (particle_set n (put cols a j v)) /\
    columns n (put cols a j v) /\ same_history b (with_mem b m') /\
    later b (with_mem b m') /\ (forall k, (k < length (objects b))%nat -> place (with_mem b m') k = place b k) /\
    (forall a' j', 0 <= j' -> value (put cols a j v) a' j' =
       if Nat.eqb a' a && (j' =? j) then v else value cols a' j').
Proof.
  intros b i n cols a j v R S Ha Hj Hv. destruct (set_ok b i n cols a j v R S Ha Hj Hv) as (m' & E & Eo & C & H & W).
  exists m'. split; [exact E|]. split; [exact Eo|]. split; [exact C|]. split; [exact H|].
  assert (LT : later b (with_mem b m')).
  { apply (l_write b b i (cellno n a j) v); [apply l_same|exact W|unfold cellno; lia]. }
  split; [exact LT|]. split.
  { intros k Hk.
    destruct (later_facts _ _ LT R) as (_ & X). destruct (X k Hk) as (Y & _).
    change (data_addr (b_h (with_mem b m'))) with (data_addr (b_h b)) in Y. lia. }
  intros a' j' Hj'. apply (value_put n); auto. apply S.
Qed.
Print Assumptions C59_set.

(* ------------------------------------------------------------------ *)
(* the table of addresses *)

(* Preparing gives a table with one row for each object, with the number of particles and no
   addresses, whatever was in the table before. *)
Theorem C59_prepare : forall hps bt bp, reachable any bp -> proper_sets bp -> (forall k, good_heap (hps k)) ->
  reachable full_arrays bt -> (added_only bt \/ objects bt <> []) ->
  data_size (b_h bt) + 200 * Z.of_nat (length (objects bp)) + 32 < 2 ^ 64 ->
  (forall k, memory_up_to (hps k) (data_size (b_h bt) + 200 * Z.of_nat (length (objects bp)) + 16)) ->
  exists bt', prepare hps bt bp = Some (0, bt') /\ objects bt' = map new_row (objects bp) /\ added_only bt'.
Proof. exact prepare_ok. Qed.
Print Assumptions C59_prepare.

(* When some rows cannot be allocated the call says so: it succeeds exactly if every object got
   its row. *)
Theorem C59_prepare_any : forall hps bt bp, reachable any bp -> proper_sets bp -> (forall k, good_heap (hps k)) ->
  reachable full_arrays bt -> (added_only bt \/ objects bt <> []) ->
  data_size (b_h bt) + 200 * Z.of_nat (length (objects bp)) + 32 < 2 ^ 64 ->
  exists st bt', prepare hps bt bp = Some (st, bt') /\ (st = 0 \/ st = -1) /\ added_only bt' /\
    (st = 0 <-> objects bt' = map new_row (objects bp)) /\ (st = 0 <-> length (objects bt') = length (objects bp)).
Proof. exact prepare_any. Qed.
Print Assumptions C59_prepare_any.

Example C59_prepare_any_example : exists bt', prepare (fun _ => heap_none) x0 x2 = Some (-1, bt') /\ objects bt' = [].
Proof. eexists. split; [vm_compute; reflexivity|vm_compute; reflexivity]. Qed.

(* Storing all addresses makes it the table of the buffer. *)
Theorem C59_store : forall bt bp, reachable any bt -> reachable any bp -> proper_sets bp ->
  length (objects bt) = length (objects bp) -> objects bp <> [] -> Forall is_row (objects bt) ->
  exists bt', store_all bt bp = Some (0, bt') /\ table_of bp bt' /\ same_history bt bt'.
Proof. exact store_all_ok. Qed.
Print Assumptions C59_store.

(* Storing those of one object changes its row and no other one. *)
Theorem C59_store_one : forall bt bp i r, reachable any bt -> nth_error (objects bt) i = Some r -> is_row r ->
  reachable any bp -> proper_sets bp -> (i < length (objects bp))%nat ->
  exists bt' r', store_one bt bp (Z.of_nat i) = Some (0, bt') /\ row_for bp i r' /\
    objects bt' = replace (objects bt) i r' /\ same_history bt bt'.
Proof.
  intros bt bp i r R O IR RP PS Hi. destruct (store_row bt bp i r R O IR RP PS Hi) as (bt' & r' & E & X1 & X2 & X3 & _).
  exists bt', r'. auto.
Qed.
Print Assumptions C59_store_one.

(* With another number of objects, or without any, nothing is stored and the call reports it. *)
Theorem C59_store_mismatch : forall bt bp, reachable any bt -> reachable any bp ->
  length (objects bt) <> length (objects bp) \/ objects bp = [] -> store_all bt bp = Some (-1, bt).
Proof. exact store_all_other. Qed.
Print Assumptions C59_store_mismatch.

(* Objects of the table that are no rows are never written: the call stops at the first of
   them and reports it. *)
Theorem C59_store_stops : forall bt bp z o, reachable any bt -> reachable any bp -> proper_sets bp ->
  length (objects bt) = length (objects bp) ->
  (forall k r, nth_error (objects bt) k = Some r -> is_row r \/ no_row r) ->
  nth_error (objects bt) z = Some o -> no_row o ->
  (forall k r, nth_error (objects bt) k = Some r -> (k < z)%nat -> is_row r) ->
  exists bt', store_all bt bp = Some (-1, bt') /\ same_history bt bt' /\
    length (objects bt') = length (objects bt) /\
    (forall k, (k < z)%nat -> exists r, nth_error (objects bt') k = Some r /\ row_for bp k r) /\
    (forall k, (z <= k)%nat -> nth_error (objects bt') k = nth_error (objects bt) k).
Proof. exact store_all_stops. Qed.
Print Assumptions C59_store_stops.

(* The table of a buffer that has particles in object number i: at the address in the row are
   the values of the particles, one after the other. *)
Theorem C59_address : forall bp bt i n cols, reachable any bp -> set_at bp i n cols -> 0 < n -> table_of bp bt ->
  exists addrs, nth_error (objects bt) i = Some (row n addrs) /\ length addrs = 21%nat /\
    forall a j, (a < 21)%nat -> 0 <= j < n -> rd (b_mem bp) (nth a addrs 0 + 8 * j) = Some (value cols a j).
Proof.
  intros bp bt i n cols R S Hn (L & T). pose proof S as (O & C).
  assert (Hi : (i < length (objects bt))%nat) by (rewrite L; apply nth_error_Some; congruence).
  destruct (nth_error (objects bt) i) as [r|] eqn:Nr; [|apply nth_error_None in Nr; lia].
  destruct (T i r Nr) as [(n' & cols' & _ & (O' & C') & ->)|(o & O' & N & _)].
  - assert (n' = n) as -> by (apply (set_unique n' cols' n cols); congruence).
    exists (addresses bp i n). split; [reflexivity|]. rewrite addresses_eq, set_ptrs_len. split; [reflexivity|].
    intros a j Ha Hj. rewrite (nth_error_nth _ _ 0 (set_ptrs_nth bp i n a Ha)).
    now apply (set_read bp i n cols R S).
  - exfalso. assert (o = particle_set n cols) as -> by congruence.
    destruct (set_nth n cols C) as (_ & _ & _ & W). destruct N as [N|N]; [now apply N|].
    rewrite W in N. unfold set_words in N. lia.
Qed.
Print Assumptions C59_address.

(* A particle set object made from a row, anywhere (ms: the block it is in), has the number and the
   pointers of the set the row belongs to: it reads the values of that set.  Nothing else in its
   block changes. *)
Theorem C59_assign_to : forall bp bt i n cols ms p, reachable any bp -> reachable any bt -> set_at bp i n cols -> 0 < n ->
  table_of bp bt -> p <> 0 ->
  (forall k, 0 <= k < 22 -> widx ms (p + 8 * k) <> None) ->
  exists pa m', paddr_at (b_mem bt) (data_addr (b_h bt)) (Z.of_nat i) = Some pa /\
    pa_assign_to ms p (b_mem bt) pa = Some m' /\ length (mwords m') = length (mwords ms) /\ rd m' p = Some n /\
    (forall a, (a < 21)%nat -> exists q, rd m' (p + 8 + 8 * Z.of_nat a) = Some q /\
       forall j, 0 <= j < n -> rd (b_mem bp) (q + 8 * j) = Some (value cols a j)) /\
    (forall x, x < p \/ p + 176 <= x -> rd m' x = rd ms x).
Proof.
  intros bp bt i n cols ms p RP RT S Hn (TL & TR) Hp W. pose proof S as (OS & C).
  assert (Hi : (i < length (objects bt))%nat).
  { rewrite TL. apply nth_error_Some. rewrite OS. discriminate. }
  destruct (nth_error (objects bt) i) as [r|] eqn:O; [|apply nth_error_None in O; lia].
  assert (r = row n (addresses bp i n)) as ->.
  { destruct (TR i r O) as [(n' & cols' & Hn' & (S' & C') & ->)|(o & Oo & NP & _)].
    - assert (E : particle_set n' cols' = particle_set n cols) by congruence.
      assert (n' = n) as -> by (unfold particle_set in E; congruence). reflexivity.
    - exfalso. assert (o = particle_set n cols) as -> by congruence. destruct (set_nth n cols C) as (_ & _ & _ & X).
      destruct NP as [NP|NP]; [apply NP; reflexivity|]. rewrite X in NP. unfold set_words in NP. lia. }
  destruct (assign_row bp bt i n cols ms p RP RT S Hn O Hp W) as (m' & E & _ & L & R & F).
  exists (place bt i), m'. split.
  { exact (row_place bt i (n :: addresses bp i n) RT O eq_refl). }
  destruct (set_read bp i n cols RP S) as (R0 & R1 & R2).
  split; [exact E|]. split; [exact L|]. split.
  { specialize (R 0 ltac:(lia)). rewrite Z.mul_0_r, !Z.add_0_r in R. rewrite R. exact R0. }
  split; [|exact F]. intros a Ha. exists (place bp i + (176 + 8 * n * Z.of_nat a)). split.
  - specialize (R (1 + Z.of_nat a) ltac:(lia)).
    replace (p + 8 + 8 * Z.of_nat a) with (p + 8 * (1 + Z.of_nat a)) by lia. rewrite R.
    replace (place bp i + 8 * (1 + Z.of_nat a)) with (place bp i + (8 + 8 * Z.of_nat a)) by lia. apply R1. exact Ha.
  - intros j Hj. exact (R2 a j Ha Hj).
Qed.
Print Assumptions C59_assign_to.

(* Copying a row over another one: the 22 words are those of the source, nothing else changes. *)
Theorem C59_copy_over : forall m dest ms src, dest <> 0 -> src <> 0 ->
  (forall k, 0 <= k < 22 -> widx m (dest + 8 * k) <> None) ->
  (forall k, 0 <= k < 22 -> exists w, rd ms (src + 8 * k) = Some w) ->
  exists m', pa_copy m dest ms src = Some m' /\ length (mwords m') = length (mwords m) /\
    (forall k, 0 <= k < 22 -> rd m' (dest + 8 * k) = rd ms (src + 8 * k)) /\
    (forall x, x < dest \/ dest + 176 <= x -> rd m' x = rd m x).
Proof.
  intros m dest ms src Hd Hs W R. destruct (copy_fields ms src dest 22 0 m) as (m' & E & B & L & RD & F).
  - intros a Ha. apply R. lia.
  - intros a Ha. apply W. lia.
  - exists m'. unfold pa_copy. rewrite (proj2 (Z.eqb_neq dest 0)), (proj2 (Z.eqb_neq src 0)) by lia. cbn [orb].
    change (0 :: p_offsets) with (offs 0 22). split; [exact E|]. split; [exact L|]. split; [|intros x Hx; apply F; lia].
    intros k Hk. specialize (RD (Z.to_nat k) ltac:(lia)). rewrite Z2Nat.id in RD by lia. exact RD.
Qed.
Print Assumptions C59_copy_over.

Example C59_copy_over_example :
  let m := Mem 65536 (map Z.of_nat (List.seq 0 50)) in
  (forall k, 0 <= k < 22 -> widx m (65536 + 8 * 3 + 8 * k) <> None) /\
  pa_copy m (65536 + 8 * 3) m (65536 + 8 * 25) =
  Some (Mem 65536 (map Z.of_nat (List.seq 0 3 ++ List.seq 25 22 ++ List.seq 25 25))).
Proof.
  split; [|vm_compute; reflexivity]. intros k Hk. unfold widx. cbn [mbase mwords].
  replace (65536 + 8 * 3 + 8 * k - 65536) with ((3 + k) * 8) by lia. rewrite Z.mod_mul, Z.div_mul by lia.
  rewrite (proj2 (Z.leb_le 0 _)), (proj2 (Z.ltb_lt _ _)) by (rewrite ?map_length, ?seq_length; lia). discriminate.
Qed.

(* When the block of the particles moves (by adding objects, reserving space, loading it
   elsewhere and so on, the values being changed in between or not), moving the addresses of the
   table by the same distance gives the rows for the buffer as it is now. *)
Theorem C59_remap : forall bp bp' bt, reachable any bp -> later bp bp' -> reachable any bt -> table_of bp bt ->
  Z.abs (moved bp bp') < 2 ^ 63 ->
  exists bt', remap_all bt (moved bp bp') = Some bt' /\ same_history bt bt' /\
    length (objects bt') = length (objects bt) /\
    forall i r, nth_error (objects bt') i = Some r -> row_for bp' i r.
Proof. exact remap_table. Qed.
Print Assumptions C59_remap.

(* While the block stays where it is and no objects are added, the table stays right, whatever
   values are written. *)
Theorem C59_stays : forall bp bp' bt, reachable any bp -> later bp bp' -> table_of bp bt ->
  moved bp bp' = 0 -> length (objects bp') = length (objects bp) -> table_of bp' bt.
Proof.
  intros bp bp' bt R LT (L & T) M L'. destruct (later_facts _ _ LT R) as (_ & X). split; [congruence|].
  intros i r Hr. assert (Hi : (i < length (objects bp))%nat) by (rewrite <- L; apply nth_error_Some; congruence).
  destruct (X i Hi) as (P & S1 & S2). unfold moved in M. assert (place bp' i = place bp i) as Pl by lia.
  destruct (T i r Hr) as [(n & cols & Hn & S & ->)|(o & O & N & ->)].
  - destruct (S1 n cols S) as (cols' & S'). left. exists n, cols'. split; [exact Hn|]. split; [exact S'|].
    unfold addresses. now rewrite Pl.
  - destruct (S2 o O N) as (o' & O' & N'). right. eauto.
Qed.
Print Assumptions C59_stays.

(* Tables are compared: 0 exactly for equal ones, 1 and -1 depending on the order of the
   arguments. *)
Theorem C59_compare : forall bl br, reachable any bl -> reachable any br ->
  Forall is_row (objects bl) -> Forall is_row (objects br) ->
  exists c, compare_all bl br = Some c /\ compare_all br bl = Some (- c) /\ (c = 0 \/ c = 1 \/ c = -1) /\
    (c = 0 <-> objects bl = objects br) /\
    ((length (objects br) < length (objects bl))%nat -> c = 1).
Proof. exact compare_all_ok. Qed.
Print Assumptions C59_compare.

(* Clearing removes the addresses of all rows; the numbers of particles stay, and so do other
   objects.  It reports success if there is at least one row. *)
Theorem C59_clear : forall b, reachable any b ->
  (forall k r, nth_error (objects b) k = Some r -> is_row r \/ no_row r) ->
  exists st b', clear_all b = Some (st, b') /\ same_history b b' /\ length (objects b') = length (objects b) /\
    (st = 0 <-> exists k r, nth_error (objects b) k = Some r /\ is_row r) /\ (st = 0 \/ st = -1) /\
    (forall k n addrs, nth_error (objects b) k = Some (row n addrs) -> is_row (row n addrs) ->
       nth_error (objects b') k = Some (row n zeros)) /\
    (forall k r, nth_error (objects b) k = Some r -> no_row r -> nth_error (objects b') k = Some r).
Proof. exact clear_all_ok. Qed.
Print Assumptions C59_clear.

Theorem C59_clear_one : forall b i n addrs, reachable any b -> nth_error (objects b) i = Some (row n addrs) ->
  is_row (row n addrs) ->
  exists b', clear_one b (Z.of_nat i) = Some (0, b') /\ same_history b b' /\
    objects b' = replace (objects b) i (row n zeros).
Proof. exact clear_one_ok. Qed.
Print Assumptions C59_clear_one.

(* A row that is added or copied is stored behind the other objects. *)
Theorem C59_add_row : forall hp b n addrs, reachable any b -> good_heap hp -> words64 (n :: addrs) ->
  Z.of_nat (length addrs) = NUM -> data_size (b_h b) + 200 + 32 < 2 ^ 64 ->
  exists p b', paddr_add hp b n addrs = Some (p, b') /\
    added_object hp b p b' (fun o => o = row n addrs) 200 (has_room_for b [row n addrs]) /\ keeps_full b p b'.
Proof.
  intros hp b n addrs R Hh W L F. destruct (paddr_add_ok hp b n addrs R Hh W L F) as (p & b' & E & A & K & _). eauto.
Qed.
Print Assumptions C59_add_row.

Theorem C59_copy_row : forall hp b bs i n addrs, reachable any bs -> nth_error (objects bs) i = Some (row n addrs) ->
  words64 (n :: addrs) -> Z.of_nat (length addrs) = NUM ->
  reachable any b -> good_heap hp -> data_size (b_h b) + 200 + 32 < 2 ^ 64 ->
  exists p b', paddr_add_copy hp b (b_mem bs) (place bs i) = Some (p, b') /\
    added_object hp b p b' (fun o => o = row n addrs) 200 (has_room_for b [row n addrs]) /\ keeps_full b p b'.
Proof. exact row_copy_ok. Qed.
Print Assumptions C59_copy_row.

(* ------------------------------------------------------------------ *)
(* two objects that are no particles, and a set of two particles *)
Definition px : buffer := snd (get (0, no_buffer) (particles_new (heap_at 65536) x2 2)).

Lemma px_ok : exists p, particles_new (heap_at 65536) x2 2 = Some (p, px) /\ p <> 0 /\
  reachable any px /\ objects px = objects x2 ++ [particle_set 2 (repeat [0; 0] 21)] /\
  columns 2 (repeat [0; 0] 21).
Proof.
  destruct (C59_new (heap_at 65536) x2 2 (added_any _ x2_added)) as (p & b' & E & A & _ & C);
    [good|lia|vm_compute; reflexivity|].
  change (repeat (repeat 0 (Z.to_nat 2)) 21) with (repeat [0; 0] 21) in *.
  assert (px = b') as EP by (unfold px; rewrite E; reflexivity).
  assert (Hp : p <> 0).
  { apply (ad_mem _ _ _ _ _ _ _ A); [exact x2_added|]. apply heap_at_memory; [lia|vm_compute; reflexivity]. }
  destruct (ad_new _ _ _ _ _ _ _ A Hp) as ((o & -> & Eo) & _ & R). rewrite EP. exists p. auto 10.
Qed.

Local Opaque px.

Lemma px_proper : proper_sets px.
Proof.
  destruct px_ok as (_ & _ & _ & _ & Eo & C). intros i t cells O ->. rewrite Eo in O.
  assert (E2 : exists a b, objects x2 = [a; b] /\ fst a <> 1 /\ fst b <> 1).
  { eexists. eexists. split; [vm_compute; reflexivity|]. split; discriminate. }
  destruct E2 as (a & b & E2 & Na & Nb). rewrite E2 in O. cbn [app] in O.
  exists 2, (repeat [0; 0] 21). split; [|exact C]. rewrite Eo, E2. cbn [app].
  destruct i as [|[|[|i]]]; cbn [nth_error] in *.
  - assert (a = (1, cells)) as -> by congruence. now destruct Na.
  - assert (b = (1, cells)) as -> by congruence. now destruct Nb.
  - reflexivity.
  - destruct i; discriminate O.
Qed.

Lemma new_rows b : reachable any b -> proper_sets b -> Forall is_row (map new_row (objects b)).
Proof.
  intros R PS. apply Forall_forall. intros r Hr. apply in_map_iff in Hr as (o & <- & Ho).
  exists (particles_in o), zeros. split; [reflexivity|]. split; [|reflexivity]. apply zeros_ok.
  apply In_nth_error in Ho as (k & Ho). pose proof (particles_le b k o PS Ho) as (P1 & P2).
  destruct o as [t cells]. pose proof (place_facts b k t cells R Ho). unfold words_in in P2. cbn [snd] in P2. lia.
Qed.

(* its table: prepared, stored; and the value of attribute 7 (y) of particle 1, written
   through the set, is found at the address in the table *)
Example C59_example : exists bt0 bt m addrs,
  prepare (fun _ => heap_at 131072) x0 px = Some (0, bt0) /\ store_all bt0 px = Some (0, bt) /\ table_of px bt /\
  p_set (b_mem px) (place px 2) 7 1 4242 = Some m /\
  nth_error (objects bt) 2 = Some (row 2 addrs) /\ rd m (nth 7 addrs 0 + 8 * 1) = Some 4242.
Proof.
  destruct px_ok as (p & _ & _ & R & Eo & C).
  destruct (C59_prepare (fun _ => heap_at 131072) x0 px R px_proper) as (bt0 & E0 & Eb & A0).
  { intros _. good. }
  { apply added_full, x0_added. }
  { left. exact x0_added. }
  { vm_compute. reflexivity. }
  { intros _. apply heap_at_memory; [lia|vm_compute; reflexivity]. }
  destruct (C59_store bt0 px (added_any _ A0) R px_proper) as (bt & E1 & T & _).
  { rewrite Eb, map_length. reflexivity. }
  { rewrite Eo. destruct (objects x2); discriminate. }
  { rewrite Eb. exact (new_rows px R px_proper). }
  assert (S : set_at px 2 2 (repeat [0; 0] 21)).
  { split; [|exact C]. rewrite Eo. assert (length (objects x2) = 2%nat) as L by (vm_compute; reflexivity).
    rewrite nth_error_app2, L by lia. reflexivity. }
  destruct (C59_set px 2 2 _ 7 1 4242 R S ltac:(lia) ltac:(lia) ltac:(lia)) as (m & Em & Eo' & C' & H & LT & Pl & V).
  set (pm := with_mem px m) in *. assert (RM : reachable any pm) by (apply H; exact R).
  assert (S2 : set_at pm 2 2 (put (repeat [0; 0] 21) 7 1 4242)).
  { split; [|exact C']. rewrite Eo'. apply (nth_replace_same _ _ _ _ (proj1 S)). }
  assert (TM : table_of pm bt).
  { apply (C59_stays px pm bt R LT T); [apply Z.sub_diag|rewrite Eo', replace_length; reflexivity]. }
  destruct (C59_address pm bt 2 2 _ RM S2 ltac:(lia) TM) as (addrs & Ea & La & Va).
  exists bt0, bt, m, addrs. split; [exact E0|]. split; [exact E1|]. split; [exact T|]. split; [exact Em|].
  split; [exact Ea|]. change (b_mem pm) with m in Va. rewrite (Va 7%nat 1) by lia. rewrite V by lia. reflexivity.
Qed.

(* Comparing does not tell apart tables and other buffers: a buffer whose first object is no
   row compares as smaller than itself. *)
Theorem C59_compare_self_refuted : exists b, added_only b /\ objects b <> [] /\ compare_all b b = Some (-1).
Proof.
  exists x2. split; [exact x2_added|]. split; [vm_compute; discriminate|vm_compute; reflexivity].
Qed.
Print Assumptions C59_compare_self_refuted.

(* Clearing the addresses of a buffer in which an object is no row reports success all the
   same, as soon as another one is a row. *)
Theorem C59_clear_refuted : exists b o, added_only b /\ In o (objects b) /\ no_row o /\
  exists b', clear_all b = Some (0, b').
Proof.
  destruct (C59_add_row (heap_at 65536) x2 3 zeros (added_any _ x2_added)) as (p & b & E & A & K).
  { good. }
  { apply zeros_ok. lia. }
  { reflexivity. }
  { vm_compute. reflexivity. }
  assert (Hp : p <> 0).
  { apply (ad_mem _ _ _ _ _ _ _ A); [exact x2_added|]. apply heap_at_memory; [lia|vm_compute; reflexivity]. }
  destruct (ad_new _ _ _ _ _ _ _ A Hp) as ((o & -> & Eo) & _ & R). destruct (K Hp) as (_ & A2).
  assert (E2 : exists a a2, objects x2 = [a; a2] /\ fst a <> 512 /\ fst a2 <> 512).
  { eexists. eexists. split; [vm_compute; reflexivity|]. split; discriminate. }
  destruct E2 as (a & a2 & E2 & Na & Na2). rewrite E2 in Eo. cbn [app] in Eo.
  assert (IR : is_row (row 3 zeros)) by (exists 3, zeros; split; [reflexivity|]; split; [apply zeros_ok; lia|reflexivity]).
  exists b, a. split; [apply A2, x2_added|]. split; [rewrite Eo; now left|]. split; [now left|].
  destruct (C59_clear b R) as (st & b' & Ec & _ & _ & (_ & Hs) & _).
  - intros k r Hr. rewrite Eo in Hr. destruct k as [|[|[|k]]]; cbn [nth_error] in Hr.
    + right. left. congruence.
    + right. left. congruence.
    + left. assert (r = row 3 zeros) as -> by congruence. exact IR.
    + destruct k; discriminate Hr.
  - exists b'. rewrite Ec. rewrite Hs; [reflexivity|]. exists 2%nat, (row 3 zeros). rewrite Eo. split; [reflexivity|exact IR].
Qed.
Print Assumptions C59_clear_refuted.
