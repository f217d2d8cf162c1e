(* Theorems for C14-C17, C44, C45: particle sets. *)
From Coq Require Import ZArith List Bool Lia.
From Verif Require Import Num Particle Elements Track ParticleSet ParticleSetProofs ParticleIds
  ParticleSpec ParticleIdsProofs ExampleNum.
Import ListNotations.
Local Open Scope Z_scope.

(* C14: copying one particle.  pset_at gives all 21 attributes of a particle. *)
Theorem C14_single : forall T (dest src : pset T) di si q, pset_wf dest -> pset_wf src ->
  0 <= di < ps_num dest -> pset_at src si = Some q ->
  exists d', copy_single dest di src si = Some (d', SUCCESS) /\ pset_wf d' /\
    ps_num d' = ps_num dest /\
    forall j, pset_at d' j = if j =? di then Some q else pset_at dest j.
Proof. intros. now apply copy_single_spec. Qed.
Print Assumptions C14_single.

Theorem C14_single_failure : forall T (dest src : pset T) di si,
  (~ (0 <= si < ps_num src) \/ di = ps_num dest) ->
  copy_single dest di src si = Some (dest, FAILURE).
Proof. intros. now apply copy_single_fail. Qed.
Print Assumptions C14_single_failure.

(* Copying a range. *)
Theorem C14_range : forall T (dest src : pset T) ss se ds, pset_wf dest -> pset_wf src ->
  0 <= ss <= se -> se <= ps_num src -> 0 <= ds < ps_num dest -> ds + (se - ss) <= ps_num dest ->
  exists d', copy_range dest src ss se ds = Some (d', SUCCESS) /\ pset_wf d' /\
    ps_num d' = ps_num dest /\
    forall j, pset_at d' j =
      if (ds <=? j) && (j <? ds + (se - ss)) then pset_at src (ss + (j - ds)) else pset_at dest j.
Proof. intros. now apply copy_range_spec. Qed.
Print Assumptions C14_range.

Theorem C14_range_failure : forall T (dest src : pset T) ss se ds,
  (~ (0 <= ss <= se /\ se <= ps_num src) \/
   (0 <= ds < ps_num dest /\ ps_num dest < ds + (se - ss))) ->
  copy_range dest src ss se ds = Some (dest, FAILURE).
Proof. intros. now apply copy_range_fail. Qed.
Print Assumptions C14_range_failure.

(* Copying a whole set makes the destination equal to the source. *)
Theorem C14_set : forall T (dest src : pset T), pset_wf dest -> pset_wf src ->
  ps_num src = ps_num dest -> 0 < ps_num src -> copy_set dest src = Some (src, SUCCESS).
Proof. intros. now apply copy_set_spec. Qed.
Print Assumptions C14_set.

Theorem C14_set_failure : forall T (dest src : pset T),
  (ps_num src <> ps_num dest \/ ps_num src <= 0) -> copy_set dest src = Some (dest, FAILURE).
Proof. intros. now apply copy_set_fail. Qed.
Print Assumptions C14_set_failure.

(* Not every request outside the destination fails: a destination index below 0 or
   beyond the number of particles is silently replaced by the source index. *)
Theorem C14_outside_refuted : exists (dest src d' : pset Z) di si,
  pset_wf dest /\ pset_wf src /\ ~ (0 <= di < ps_num dest) /\
  copy_single dest di src si = Some (d', SUCCESS) /\ d' <> dest.
Proof.
  exists (pset_of [zpart; zpart]), (pset_of [set_x 9 zpart; set_x 8 zpart]), (pset_of [zpart; set_x 8 zpart]), 5, 1.
  split; [apply pset_of_wf|]. split; [apply pset_of_wf|]. split; [cbn; lia|].
  split; [vm_compute; reflexivity|]. intros H. apply (f_equal (fun p => nth 1 (ps_x p) 0)) in H.
  cbn in H. discriminate.
Qed.
Print Assumptions C14_outside_refuted.

Theorem C14_range_outside_refuted : exists (dest src d' : pset Z) ss se ds,
  pset_wf dest /\ pset_wf src /\ ~ (0 <= ds < ps_num dest) /\
  copy_range dest src ss se ds = Some (d', SUCCESS) /\ d' <> dest.
Proof.
  exists (pset_of [zpart; zpart]), (pset_of [set_x 9 zpart; set_x 8 zpart]), (pset_of [set_x 9 zpart; zpart]), 0, 1, 7.
  split; [apply pset_of_wf|]. split; [apply pset_of_wf|]. split; [cbn; lia|].
  split; [vm_compute; reflexivity|]. intros H. apply (f_equal (fun p => nth 0 (ps_x p) 0)) in H.
  cbn in H. discriminate.
Qed.
Print Assumptions C14_range_outside_refuted.

Definition pset_case : pset Z := pset_of [zpart; set_x 5 zpart; set_px 6 zpart].

Example C14_case : pset_wf pset_case /\ ps_num pset_case = 3 /\
  pset_at pset_case 1 = Some (set_x 5 zpart) /\
  exists d', copy_single pset_case 2 pset_case 1 = Some (d', SUCCESS) /\
    pset_at d' 2 = Some (set_x 5 zpart) /\ pset_at d' 0 = Some zpart.
Proof.
  split; [apply pset_of_wf|]. split; [reflexivity|]. split; [vm_compute; reflexivity|].
  eexists. split; [vm_compute; reflexivity|]. split; vm_compute; reflexivity.
Qed.

(* C15: loading particle i into a local one-particle set (as the optimised kernels
   do) and storing it back changes nothing ... *)
Theorem C15_load_store : forall T (zero : T) (p : pset T) i, pset_wf p -> 0 <= i < ps_num p ->
  exists loc loc', init_from_flat_arrays 1 (repeat zero 17) (repeat 0 4) = Some loc /\
    copy_from_generic loc 0 p i = Some (loc', SUCCESS) /\
    copy_to_generic p i loc' 0 = Some (p, SUCCESS).
Proof. intros. now apply round_trip. Qed.
Print Assumptions C15_load_store.

(* ... and storing a local particle and loading it again returns it; the other
   particles are untouched. *)
Theorem C15_store_load : forall T (zero : T) (p : pset T) i loc, pset_wf p ->
  0 <= i < ps_num p -> pset_wf loc -> ps_num loc = 1 ->
  exists p' loc0, copy_to_generic p i loc 0 = Some (p', SUCCESS) /\
    (forall j, j <> i -> pset_at p' j = pset_at p j) /\
    init_from_flat_arrays 1 (repeat zero 17) (repeat 0 4) = Some loc0 /\
    copy_from_generic loc0 0 p' i = Some (loc, SUCCESS).
Proof. intros. now apply store_load. Qed.
Print Assumptions C15_store_load.

(* The loaded set holds the particle that was asked for. *)
Theorem C15_loaded : forall T (zero : T) (p : pset T) i q, pset_wf p -> pset_at p i = Some q ->
  exists loc loc', init_from_flat_arrays 1 (repeat zero 17) (repeat 0 4) = Some loc /\
    copy_from_generic loc 0 p i = Some (loc', SUCCESS) /\ pset_wf loc' /\
    ps_num loc' = 1 /\ pset_at loc' 0 = Some q.
Proof.
  intros T zero p i q Hw Hq. destruct (load_local zero p i q Hw Hq) as (loc & E1 & E2).
  exists loc, (pset_of [q]). split; [exact E1|]. split; [exact E2|].
  split; [apply pset_of_wf|]. split; [reflexivity|]. now rewrite pset_at_of.
Qed.
Print Assumptions C15_loaded.

(* Negative indices pass the range check: the access is outside the arrays. *)
Theorem C15_negative_refuted : exists (p loc : pset Z), pset_wf p /\ pset_wf loc /\
  copy_from_generic loc 0 p (-1) = None.
Proof.
  exists pset_case, (pset_of [zpart]). split; [apply pset_of_wf|]. split; [apply pset_of_wf|].
  vm_compute; reflexivity.
Qed.
Print Assumptions C15_negative_refuted.

Example C15_case : pset_wf pset_case /\ 0 <= 2 < ps_num pset_case /\
  pset_wf (pset_of [set_y 11 zpart]) /\ ps_num (pset_of [set_y 11 zpart]) = 1.
Proof. split; [apply pset_of_wf|]. split; [cbn; lia|]. split; [apply pset_of_wf|reflexivity]. Qed.

(* C16: (position of the set, index of its first particle) for a global index.  Every
   index from the offset up to the total designates a particle of a set ... *)
Theorem C16_found : forall T (objs : list (pobj T)) off g, objs_wf objs ->
  off <= g < off + total_num objs ->
  exists pos p j, global_lookup g off objs = (pos, g - j) /\ aget objs pos = Some (Part p) /\
    0 <= j < ps_num p.
Proof. intros. now apply lookup_found. Qed.
Print Assumptions C16_found.

(* ... different indices different particles ... *)
Theorem C16_injective : forall T (objs : list (pobj T)) off g1 g2 pos o1 o2, objs_wf objs ->
  off <= g1 < off + total_num objs -> off <= g2 < off + total_num objs ->
  global_lookup g1 off objs = (pos, o1) -> global_lookup g2 off objs = (pos, o2) ->
  g1 - o1 = g2 - o2 -> g1 = g2.
Proof. intros. eapply lookup_inj; eauto. Qed.
Print Assumptions C16_injective.

(* ... every particle of every set is designated ... *)
Theorem C16_onto : forall T (objs : list (pobj T)) off pos p j, objs_wf objs ->
  aget objs pos = Some (Part p) -> 0 <= j < ps_num p ->
  exists g, off <= g < off + total_num objs /\ global_lookup g off objs = (pos, g - j).
Proof. intros. eapply lookup_onto; eauto. Qed.
Print Assumptions C16_onto.

(* ... and other indices give the end of the range. *)
Theorem C16_outside : forall T (objs : list (pobj T)) off g, objs_wf objs ->
  ~ (off <= g < off + total_num objs) ->
  global_lookup g off objs = (Z.of_nat (length objs), off + total_num objs).
Proof. intros. now apply lookup_out. Qed.
Print Assumptions C16_outside.

Definition objs_case : list (pobj Z) := [Other; Part (pset_of [zpart]); Part (pset_of []); Other; Part pset_case].

Lemma objs_case_wf : objs_wf objs_case.
Proof.
  intros p H. cbn in H. destruct H as [H|[H|[H|[H|[H|[]]]]]]; try discriminate;
    injection H as <-; apply pset_of_wf.
Qed.

Example C16_case : objs_wf objs_case /\ total_num objs_case = 4 /\
  global_lookup 12 10 objs_case = (4, 11) /\ global_lookup 14 10 objs_case = (5, 14).
Proof. split; [apply objs_case_wf|]. split; [reflexivity|]. split; vm_compute; reflexivity. Qed.

(* C17: the reported values are the exact ranges (particle ids without sign). *)
Theorem C17_set : forall T (p : pset T), pset_wf p -> 0 < ps_num p -> int64_values (member p) ->
  exists m, get_min_max p = Some (m, SUCCESS) /\ ranges_of (member p) m.
Proof. intros. now apply get_min_max_ok. Qed.
Print Assumptions C17_set.

Theorem C17_set_empty : forall T (p : pset T), ps_num p <= 0 ->
  get_min_max p = Some (minmax_init, FAILURE).
Proof. intros. now apply get_min_max_empty. Qed.
Print Assumptions C17_set_empty.

(* over all sets of a buffer *)
Theorem C17_buffer : forall T (objs : list (pobj T)) p0, objs_wf objs ->
  (forall p, In (Part p) objs -> 0 < ps_num p) -> In (Part p0) objs ->
  int64_values (member_buffer objs) ->
  exists m, get_min_max_buffer objs = Some (m, SUCCESS) /\ ranges_of (member_buffer objs) m.
Proof. intros T objs p0 H1 H2 H3 H4. exact (get_min_max_buffer_ok objs p0 H1 H2 H3 H4). Qed.
Print Assumptions C17_buffer.

Theorem C17_buffer_none : forall T (objs : list (pobj T)), (forall p, ~ In (Part p) objs) ->
  get_min_max_buffer objs = Some (minmax_init, FAILURE).
Proof. intros. now apply get_min_max_buffer_none. Qed.
Print Assumptions C17_buffer_none.

(* over a list of sets *)
Theorem C17_sets : forall T (objs : list (pobj T)) idx, idx <> [] ->
  (forall i, In i idx -> exists p, aget objs i = Some (Part p) /\ pset_wf p /\ 0 < ps_num p) ->
  int64_values (member_sets objs idx) ->
  exists m, get_min_max_sets objs idx = Some (m, SUCCESS) /\ ranges_of (member_sets objs idx) m.
Proof. intros. now apply get_min_max_sets_ok. Qed.
Print Assumptions C17_sets.

(* an index that designates no particle set is an error *)
Theorem C17_sets_bad : forall T (objs : list (pobj T)) idx i,
  (forall j, In j idx -> j <> Z.of_nat (length objs)) -> objs_wf objs ->
  In i idx -> (forall p, aget objs i <> Some (Part p)) ->
  exists m, get_min_max_sets objs idx = Some (m, -1).
Proof. intros T objs idx i H1 H2 H3 H4. exact (get_min_max_sets_bad objs idx i H1 H2 H3 H4). Qed.
Print Assumptions C17_sets_bad.

(* the functions for one attribute *)
Theorem C17_at_element : forall T (p : pset T), pset_wf p -> 0 < ps_num p ->
  exists lo hi, get_min_max_at_element p = Some (Some (lo, hi), SUCCESS) /\
    range_of (member p) (@p_at_element_id T) lo hi.
Proof. intros. now apply at_element_ok. Qed.
Print Assumptions C17_at_element.

Theorem C17_at_turn : forall T (p : pset T), pset_wf p -> 0 < ps_num p ->
  exists lo hi, get_min_max_at_turn p = Some (Some (lo, hi), SUCCESS) /\
    range_of (member p) (@p_at_turn T) lo hi.
Proof. intros. now apply at_turn_ok. Qed.
Print Assumptions C17_at_turn.

(* The id range used to size beam monitors starts from the first particle's element
   number: it can exclude a particle and include ids no particle has. *)
Theorem C17_id_no_check_refuted : exists (p : pset Z) lo hi,
  pset_wf p /\ 0 < ps_num p /\ (forall q, member p q -> 0 <= p_particle_id q) /\
  get_min_max_id_no_check p = Some (Some (lo, hi), SUCCESS) /\
  (exists q, member p q /\ ~ (lo <= p_particle_id q <= hi)) /\
  (forall q, member p q -> p_particle_id q <> lo).
Proof.
  exists (pset_of [zpart]), 0, 0.
  assert (M : forall q, member (pset_of [zpart]) q -> q = zpart).
  { intros q H. apply member_of in H. destruct H as [H|[]]. now symmetry. }
  split; [apply pset_of_wf|]. split; [cbn; lia|]. split.
  { intros q H. apply M in H. subst q. cbn. lia. }
  split; [vm_compute; reflexivity|]. split.
  - exists zpart. split; [exists 0; vm_compute; reflexivity|]. cbn. lia.
  - intros q H. apply M in H. subst q. cbn. lia.
Qed.
Print Assumptions C17_id_no_check_refuted.

Theorem C17_id_no_check_partial : forall T (p : pset T) q, pset_wf p -> pset_at p 0 = Some q ->
  p_at_element_id q = p_particle_id q ->
  exists lo hi, get_min_max_id_no_check p = Some (Some (lo, hi), SUCCESS) /\
    range_of (member p) (@p_particle_id T) lo hi.
Proof. intros T p q H1 H2 H3. exact (no_check_ok p q H1 H2 H3). Qed.
Print Assumptions C17_id_no_check_partial.

Example C17_case : exists m, get_min_max (pset_of [zpart; set_at_turn 3 zpart; set_at_element_id 8 zpart]) =
  Some (m, SUCCESS) /\ mm_min_pid m = 7 /\ mm_max_turn m = 3 /\ mm_max_elem m = 8 /\
  int64_values (member (pset_of [zpart; set_at_turn 3 zpart; set_at_element_id 8 zpart])).
Proof.
  eexists. split; [vm_compute; reflexivity|]. split; [reflexivity|]. split; [reflexivity|].
  split; [reflexivity|]. intros q H. apply member_of in H.
  destruct H as [<-|[<-|[<-|[]]]]; vm_compute; repeat split; discriminate.
Qed.

(* C44: duplicate particle ids are detected, in release and debug builds alike, and
   without duplicates the range of the ids is exact. *)
Theorem C44_distinct : forall T debug (p : pset T), pset_wf p -> 0 < ps_num p -> distinct_ids p ->
  exists lo hi, get_min_max_id debug p = Ok (Some (lo, hi), SUCCESS) /\
    range_of (member p) (fun q => Z.abs (p_particle_id q)) lo hi.
Proof. intros T debug p H1 H2. exact (proj1 (get_min_max_id_ok debug p H1 H2)). Qed.
Print Assumptions C44_distinct.

Theorem C44_duplicate : forall T debug (p : pset T), pset_wf p -> 0 < ps_num p -> ~ distinct_ids p ->
  get_min_max_id debug p = Ok (None, FAILURE).
Proof. intros T debug p H1 H2. exact (proj2 (get_min_max_id_ok debug p H1 H2)). Qed.
Print Assumptions C44_duplicate.

Example C44_case :
  get_min_max_id false (pset_of [zpart; set_particle_id (-2) zpart; set_particle_id 5 zpart]) =
    Ok (Some (2, 7), SUCCESS) /\
  get_min_max_id true (pset_of [zpart; set_particle_id 2 zpart; set_particle_id (-7) zpart]) =
    Ok (None, FAILURE) /\
  distinct_ids (pset_of [zpart; set_particle_id 2 zpart]) /\
  ~ distinct_ids (pset_of [zpart; set_particle_id (-7) zpart]).
Proof.
  split; [vm_compute; reflexivity|]. split; [vm_compute; reflexivity|]. split.
  - intros i j q r Hi Hj E. rewrite pset_at_of in Hi, Hj.
    destruct (Z.eq_dec i 0) as [->|]; [|destruct (Z.eq_dec i 1) as [->|];
      [|rewrite aget_none in Hi by (cbn [length]; lia); discriminate]];
    (destruct (Z.eq_dec j 0) as [->|]; [|destruct (Z.eq_dec j 1) as [->|];
      [|rewrite aget_none in Hj by (cbn [length]; lia); discriminate]]); auto;
    cbn in Hi, Hj; injection Hi as <-; injection Hj as <-; vm_compute in E; discriminate.
  - intros H. discriminate (H 0 1 zpart (set_particle_id (-7) zpart) eq_refl eq_refl eq_refl).
Qed.

(* C45: clearing and presetting particle sets. *)
Theorem C45_clear : forall T (z : T) (p : pset T), pset_wf p ->
  exists p', clear z p = Some p' /\ pset_wf p' /\ ps_num p' = ps_num p /\
    forall j, 0 <= j < ps_num p -> pset_at p' j =
      Some (mkParticle z z z z z z z z z z z z z z z z z 0 0 0 0).
Proof. intros. now apply clear_spec. Qed.
Print Assumptions C45_clear.

Theorem C45_clear_range : forall T (z : T) (p : pset T) a b, pset_wf p -> 0 <= a <= b ->
  b <= ps_num p ->
  exists p', clear_range z p a b = Some p' /\ pset_wf p' /\ ps_num p' = ps_num p /\
    forall j, pset_at p' j =
      if (a <=? j) && (j <? b)
      then Some (mkParticle z z z z z z z z z z z z z z z z z 0 0 0 0) else pset_at p j.
Proof. intros. now apply clear_range_spec. Qed.
Print Assumptions C45_clear_range.

Theorem C45_preset : forall T (z : T) (p : pset T), pset_wf p ->
  exists p', preset_values z p = Some p' /\ pset_wf p' /\ ps_num p' = ps_num p /\
    forall j, 0 <= j < ps_num p -> pset_at p' j =
      Some (mkParticle z z z z z z z z z z z z z z z z z (-1) (-1) (-1) 1).
Proof. intros. now apply preset_spec. Qed.
Print Assumptions C45_preset.

Example C45_case : pset_wf pset_case /\ 0 <= 1 <= 2 /\ 2 <= ps_num pset_case.
Proof. split; [apply pset_of_wf|]. split; [lia|]. cbn. lia. Qed.
