From Coq Require Import ZArith List Bool Lia Permutation.
From Verif Require Import Tac MBuf MBufSpec MBufMem MBufAbs MBufRemap MemPool Buffer BufferSpec
  BufferUser BufferProofs BufferReach BufferProps Assign AssignSpec AssignProofs.
Import ListNotations.
Local Open Scope Z_scope.

Section Places.
Variables (b : buffer) (A : abs).
Hypothesis Iv : binv b A.
Let B := data_addr (b_h b).
Let R : repr (mbase (b_mem b)) (b_mem b) A := bi_repr _ _ Iv.

Lemma base_pos : B <> 0.
Proof using Iv. unfold B. rewrite (bi_addr _ _ Iv). pose proof (re_base _ _ _ (bi_repr _ _ Iv)) as (P & _). lia. Qed.

Lemma place_found i t off a : place (b_mem b) i t off a -> found B A i off t = a /\ a <> 0 /\
  off + 8 < 2 ^ 64 /\ 0 <= i < zlen (a_objs A).
Proof using Iv R.
  intros (Hi & Ht & Ho & Hm & Hs & ->).
  destruct (obj_nth _ _ _ R i Hi) as (s & n & t' & E & Eb & Et & Es).
  pose proof (re_ok _ _ _ R) as OK. pose proof (chain_nth _ _ _ _ _ _ _ (ok_chain _ OK) E) as (X1 & X2 & X3).
  pose proof (re_base _ _ _ R) as (P & Q & T). pose proof (ok_bounds A OK) as (Bc & Bo & Bd & Bg).
  unfold tot in T. rewrite Eb, Es, Et in *. subst t'. unfold B. rewrite (bi_addr _ _ Iv).
  rewrite (sec_count_ok _ _ _ R) in Hi by auto. change (snum A 4) with (zlen (a_objs A)) in Hi.
  unfold found. rewrite E, Hm, Z.eqb_refl. rewrite leb_true by lia. rewrite Z.eqb_refl. cbn [andb]. lia.
Qed.

Lemma found_place i t off : 0 <= i < zlen (a_objs A) -> 0 <= off -> found B A i off t <> 0 ->
  place (b_mem b) i t off (found B A i off t).
Proof using Iv R.
  intros Hi Ho Hf. assert (Hi' : 0 <= i < sec_count (b_mem b) 4).
  { rewrite (sec_count_ok _ _ _ R) by auto. exact Hi. }
  destruct (obj_nth _ _ _ R i Hi') as (s & n & t' & E & Eb & Et & Es).
  unfold found in *. rewrite E in *.
  destruct (off mod 8 =? 0) eqn:E1; cbn [andb] in *; [|congruence].
  destruct (off + 8 <=? 8 * n) eqn:E2; cbn [andb] in *; [|congruence].
  destruct (t' =? t) eqn:E3; [|congruence].
  apply Z.eqb_eq in E1, E3. apply Z.leb_le in E2. unfold place. rewrite Eb, Et, Es.
  unfold B. rewrite (bi_addr _ _ Iv). auto 8.
Qed.

Lemma in_range_objs i off : in_range (b_mem b) i off ->
  0 <= i < zlen (a_objs A) /\ 0 <= off /\ off + 8 < 2 ^ 64.
Proof using Iv R. intros (H & H'). rewrite (sec_count_ok _ _ _ R) in H by auto. auto. Qed.

Lemma place_in_range i t off a : place (b_mem b) i t off a -> in_range (b_mem b) i off.
Proof using Iv R.
  intros H. destruct (place_found _ _ _ _ H) as (_ & _ & X & _). destruct H as (Y & _ & Z & _).
  split; auto.
Qed.
End Places.

(* the slots that are no data pointers may be changed *)
Definition recell (m : mem) (cs : list cell) : list cell :=
  map (fun kc => match snd kc with Ptr q => Ptr q | Raw _ => Raw (word m (10 + Z.of_nat (fst kc))) end)
    (combine (seq 0 (length cs)) cs).

Lemma combine_seq {T} (l : list T) : forall n k, nth_error (combine (seq n (length l)) l) k =
  option_map (fun c => ((n + k)%nat, c)) (nth_error l k).
Proof.
  induction l as [|a l IH]; intros n k; cbn [length seq combine].
  - destruct k; reflexivity.
  - destruct k; cbn [nth_error option_map]; [now rewrite Nat.add_0_r|]. rewrite IH.
    destruct (nth_error l k); cbn [option_map]; [|reflexivity]. do 2 f_equal. lia.
Qed.

Lemma recell_nth m cs k : nth_error (recell m cs) k =
  option_map (fun c => match c with Ptr q => Ptr q | Raw _ => Raw (word m (10 + Z.of_nat k)) end) (nth_error cs k).
Proof.
  unfold recell. rewrite nth_error_map, combine_seq. destruct (nth_error cs k); reflexivity.
Qed.

Lemma recell_length m cs : length (recell m cs) = length cs.
Proof. unfold recell. rewrite map_length, combine_length, seq_length. lia. Qed.

Lemma repr_slots B m A m' : repr B m A -> wlen m' = wlen m ->
  (forall j, 0 <= j -> ~ (10 <= j < 10 + zlen (a_cells A)) -> word m' j = word m j) ->
  (forall k, In k (a_dps A) -> word m' (10 + k) = word m (10 + k)) ->
  repr B m' (Abs (a_ms A) (a_mo A) (a_md A) (a_mg A) (recell m' (a_cells A)) (a_objs A) (a_dps A)).
Proof.
  intros R Hw Hf Hd. pose proof (re_ok _ _ _ R) as OK. set (A' := Abs _ _ _ _ _ _ _).
  assert (ZC : zlen (a_cells A') = zlen (a_cells A)) by (unfold zlen; cbn [a_cells A']; now rewrite recell_length).
  assert (SP : forall id, spos A' id = spos A id) by reflexivity.
  assert (SM : forall id, smax A' id = smax A id) by reflexivity.
  assert (SN : forall id, snum A' id = snum A id).
  { intros id. unfold snum. destruct (id =? 3); [exact ZC|reflexivity]. }
  pose proof (ok_bounds A OK) as (Bc & Bo & Bd & Bg).
  pose proof (layout A OK) as (L3 & L4 & L5 & L6 & Lt & N3 & N4 & N5 & N6).
  assert (OK' : ok A').
  { destruct OK. split; try assumption.
    - now rewrite ZC.
    - rewrite ZC. assumption.
    - intros k. cbn [a_dps A']. rewrite ok_ptr. cbn [a_cells A']. rewrite recell_nth. split; intros (H1 & q & H2); split; auto.
      + exists q. now rewrite H2.
      + destruct (nth_error (a_cells A) (Z.to_nat k)) as [[w|q']|]; try discriminate. eauto.
    - intros k q. rewrite ZC. cbn [a_cells A']. rewrite recell_nth. intros H.
      destruct (nth_error (a_cells A) k) as [[w|q']|] eqn:E; try discriminate. cbn [option_map] in H.
      apply (ok_target k). congruence. }
  assert (H' : hrepr B m' A).
  { apply (hrepr_frame B m); [exact (re_h _ _ _ R)|assumption|]. intros j Hj Hh. apply Hf; [assumption|].
    destruct Hh as [Hh|(id & Hs & Hh)]; [lia|].
    secs Hs; cbn [SLOTS_ID OBJECTS_ID DATAPTRS_ID GARBAGE_ID] in *; lia. }
  split.
  - destruct H'. split; auto.
    intros id Hid. rewrite SN. now apply hr_num.
  - intros k c. cbn [a_cells A']. rewrite recell_nth.
    destruct (nth_error (a_cells A) k) as [[w|q]|] eqn:E; cbn [option_map]; intros X.
    + injection X as <-. reflexivity.
    + injection X as <-. rewrite Hd.
      * rewrite (re_cell _ _ _ R _ _ E). reflexivity.
      * apply (ok_ptr _ OK). split; [lia|]. exists q. now rewrite Nat2Z.id.
    + discriminate.
  - intros i s n t E. cbn [a_objs A'] in E. rewrite SP. rewrite !Hf by lia. now apply (re_obj _ _ _ R).
  - intros j k E. cbn [a_dps A'] in E. rewrite SP.
    rewrite Hf by lia. now apply (re_dp _ _ _ R).
Qed.

Section Call.
Variables (ba bd : buffer) (bs : option buffer) (did sid : Z) (its : list item).
Hypothesis Ra : reachable any ba.
Hypothesis Ha : holds ba its.
Hypothesis Rd : reachable any bd.
Hypothesis Rs : reachable any (source bd bs).
Hypothesis Nd : did <> NO_BUFFER.
Hypothesis Ns : sid <> NO_BUFFER.
Hypothesis Rng : forall it, In it (matching did sid its) ->
  in_range (b_mem bd) (dest_index it) (dest_offset it) /\
  in_range (b_mem (source bd bs)) (src_index it) (src_offset it).

Lemma setup : exists dA sA, binv bd dA /\ irepr (data_addr (b_h bd)) (b_mem bd) dA /\
  binv (source bd bs) sA /\ irepr (data_addr (b_h (source bd bs))) (b_mem (source bd bs)) sA /\
  (bs = None -> sA = dA) /\ data_addr (b_h bd) <> 0 /\ data_addr (b_h (source bd bs)) <> 0 /\
  forall it, In it (matching did sid its) -> ranged dA sA it.
Proof using Rd Rs Rng.
  destruct (reach_irepr bd Rd) as (dA & I1 & I2 & _).
  assert (exists sA, binv (source bd bs) sA /\ irepr (data_addr (b_h (source bd bs))) (b_mem (source bd bs)) sA /\
    (bs = None -> sA = dA)) as (sA & J1 & J2 & J3).
  { clear Rng Ha. destruct bs as [b|]; cbn [source] in *.
    - destruct (reach_irepr b Rs) as (sA & J1 & J2 & _). exists sA. split; [assumption|]. split; [assumption|discriminate].
    - exists dA. auto. }
  exists dA, sA. split; [assumption|]. split; [assumption|]. split; [assumption|]. split; [assumption|].
  split; [assumption|]. split; [exact (base_pos bd dA I1)|]. split; [exact (base_pos _ sA J1)|].
  intros it Hi. destruct (Rng it Hi) as (X & Y).
  destruct (in_range_objs bd dA I1 _ _ X) as (X1 & X2 & X3), (in_range_objs _ sA J1 _ _ Y) as (Y1 & Y2 & Y3).
  unfold ranged. auto 8.
Qed.

Lemma whole : idxs (Z.to_nat (Z.of_nat (length its) - 0)) (Z.of_nat (length its)) 0 1 =
  zseq (Z.of_nat (length its)).
Proof using.
  clear. rewrite Z.sub_0_r, Nat2Z.id. unfold zseq. rewrite Nat2Z.id. set (n := length its).
  assert (G : forall k s, (k + s <= n)%nat ->
    idxs k (Z.of_nat (k + s)) (Z.of_nat s) 1 = map Z.of_nat (seq s k)).
  { induction k as [|k IH]; intros s Hk; [reflexivity|]. cbn [idxs seq map].
    replace (Z.of_nat s <? Z.of_nat (S k + s)) with true by (symmetry; apply Z.ltb_lt; lia). f_equal.
    replace (Z.of_nat s + 1) with (Z.of_nat (S s)) by lia.
    replace (S k + s)%nat with (k + S s)%nat by lia. apply IH. lia. }
  specialize (G n 0%nat ltac:(lia)). now rewrite Nat.add_0_r in G.
Qed.

Lemma zseq_in n i : In i (zseq n) <-> 0 <= i < n.
Proof using.
  clear. unfold zseq. rewrite in_map_iff. split.
  - intros (k & <- & Hk). apply in_seq in Hk. lia.
  - intros Hj. exists (Z.to_nat i). split; [lia|]. apply in_seq. lia.
Qed.

Lemma zseq_nodup n : NoDup (zseq n).
Proof using. unfold zseq. apply FinFun.Injective_map_NoDup; [intros a b; lia|apply seq_NoDup]. Qed.

(* any order *)
Lemma any_order order : NoDup (map dest (matching did sid its)) ->
  Permutation order (zseq (Z.of_nat (length its))) ->
  exists st, kernel (call ba bd bs did sid) 0 1 (b_mem bd) = Some st /\
    in_order (call ba bd bs did sid) order (0, b_mem bd) = Some st.
Proof using Ra Ha Rd Rs Nd Ns Rng.
  intros Hnd P. destruct setup as (dA & sA & I1 & I2 & J1 & J2 & Sm & D0 & S0 & Rg).
  rewrite (kernel_ok ba bd bs its did sid dA sA Ra Ha J2 Sm Nd Ns D0 S0 Rg) by (auto; lia).
  eexists. split; [reflexivity|].
  assert (Ho : forall i, In i order -> 0 <= i < Z.of_nat (length its)).
  { intros i Hi. apply zseq_in. eapply Permutation_in; eassumption. }
  rewrite (in_order_ok ba bd bs its did sid dA sA Ra Ha J2 Sm Nd Ns D0 S0 Rg) by (auto; now left).
  f_equal. rewrite whole.
  apply run_perm; auto.
  - intros i k. now apply (acts_slots bd bs its did sid dA sA Rg).
  - now left.
  - eapply Permutation_NoDup; [apply Permutation_sym; exact P|apply zseq_nodup].
  - eapply (matching_distinct bd bs its did sid dA sA Rg); [exact I2|assumption|]. intros i Hi. now apply Ho.
Qed.

(* any number of work-items, in any order *)
Lemma any_launch stride items : NoDup (map dest (matching did sid its)) -> 0 < stride ->
  Permutation items (zseq stride) ->
  exists st, kernel (call ba bd bs did sid) 0 1 (b_mem bd) = Some st /\
    launch (call ba bd bs did sid) stride items (0, b_mem bd) = Some st.
Proof using Ra Ha Rd Rs Nd Ns Rng.
  intros Hnd Hs P. destruct setup as (dA & sA & I1 & I2 & J1 & J2 & Sm & D0 & S0 & Rg).
  rewrite (kernel_ok ba bd bs its did sid dA sA Ra Ha J2 Sm Nd Ns D0 S0 Rg) by (auto; lia).
  eexists. split; [reflexivity|].
  rewrite (launch_ok ba bd bs its did sid dA sA Ra Ha J2 Sm Nd Ns D0 S0 Rg); auto.
  2:{ intros i Hi. apply (Permutation_in _ P), zseq_in in Hi. lia. }
  2:{ now left. }
  f_equal. rewrite whole. pose proof (all_idxs_perm its stride items Hs P) as Q.
  apply run_perm; auto.
  - intros i k. now apply (acts_slots bd bs its did sid dA sA Rg).
  - now left.
  - eapply Permutation_NoDup; [apply Permutation_sym; exact Q|apply zseq_nodup].
  - eapply (matching_distinct bd bs its did sid dA sA Rg); [exact I2|assumption|].
    intros i Hi. apply (Permutation_in _ Q), zseq_in in Hi. lia.
Qed.

(* the effect *)
Lemma effect : NoDup (map dest (matching did sid its)) ->
  exists s m', kernel (call ba bd bs did sid) 0 1 (b_mem bd) = Some (s, m') /\
    (s = 0 \/ s = -1) /\
    (s = 0 <-> forall it, In it (matching did sid its) -> exists a, goes_to (b_mem bd) it a) /\
    mbase m' = mbase (b_mem bd) /\ length (mwords m') = length (mwords (b_mem bd)) /\
    (forall it a, In it (matching did sid its) -> goes_to (b_mem bd) it a ->
       (forall v, comes_from (b_mem (source bd bs)) it v -> word_at m' a = v) /\
       ((forall v, ~ comes_from (b_mem (source bd bs)) it v) -> word_at m' a = 0)) /\
    (forall j, 0 <= j ->
       (forall it, In it (matching did sid its) -> ~ goes_to (b_mem bd) it (stored_base (b_mem bd) + 8 * j)) ->
       word m' j = word (b_mem bd) j) /\
    sec_count m' 4 = sec_count (b_mem bd) 4 /\
    (forall i, 0 <= i < sec_count m' 4 -> obj_begin m' i = obj_begin (b_mem bd) i /\
       obj_type m' i = obj_type (b_mem bd) i /\ obj_size m' i = obj_size (b_mem bd) i) /\
    ((forall it a, In it (matching did sid its) -> goes_to (b_mem bd) it a -> ~ In a (data_pointers (b_mem bd))) ->
       layout_ok m' /\ data_pointers m' = data_pointers (b_mem bd)).
Proof using Ra Ha Rd Rs Nd Ns Rng.
  intros Hnd. destruct setup as (dA & sA & I1 & I2 & J1 & J2 & Sm & D0 & S0 & Rg).
  rewrite (kernel_ok ba bd bs its did sid dA sA Ra Ha J2 Sm Nd Ns D0 S0 Rg) by (auto; lia).
  rewrite whole. set (l := zseq (Z.of_nat (length its))). set (ac := acts bd bs its did sid dA sA).
  destruct (run ac l (0, b_mem bd)) as [s m'] eqn:E. exists s, m'. split; [reflexivity|].
  pose proof (bi_repr _ _ I1) as R. pose proof (re_ok _ _ _ R) as OK.
  pose proof (ok_bounds dA OK) as (Bc & Bo & Bd & Bg).
  pose proof (layout dA OK) as (L3 & L4 & L5 & L6 & Lt & N3 & N4 & N5 & N6).
  pose proof (re_len _ _ _ R) as L.
  assert (SB : stored_base (b_mem bd) = data_addr (b_h bd)).
  { unfold stored_base. rewrite (re_0 _ _ _ R). symmetry. exact (bi_addr _ _ I1). }
  assert (Sl : forall i k, In i l -> put_at (ac i) k -> 0 <= k < wlen (b_mem bd)).
  { intros i k. now apply (acts_slots bd bs its did sid dA sA Rg). }
  assert (Sl' : forall i k v, ac i = Put k v -> exists it, nth_error its (Z.to_nat i) = Some it /\
    In it (matching did sid its) /\ goes_to (b_mem bd) it (stored_base (b_mem bd) + 8 * k) /\
    10 <= k < 10 + zlen (a_cells dA)).
  { intros i k v Hp. destruct (acts_put bd bs its did sid dA sA Rg i k v (b_mem bd) I2 Hp) as
      (it & E1 & E2 & E3 & E4 & E5 & k' & -> & Hk). exists it. split; [assumption|]. split; [assumption|].
    split; [|lia]. unfold goes_to. rewrite SB, <- E4. destruct (Rg it E2) as (G1 & G2 & _).
    apply (found_place bd dA I1); auto. }
  assert (Wh : forall it, In it (matching did sid its) -> exists i, In i l /\ nth_error its (Z.to_nat i) = Some it /\
    ac i = if target bd dA it =? 0 then Fail else Put ((target bd dA it - data_addr (b_h bd)) / 8) (value bd bs sA it)).
  { intros it Hit. unfold matching in Hit. apply filter_In in Hit as (Hin & Hm).
    apply In_nth_error in Hin as (n & Hn). exists (Z.of_nat n). split.
    - apply zseq_in. assert (nth_error its n <> None) as X by congruence. apply nth_error_Some in X. lia.
    - rewrite Nat2Z.id. split; [assumption|]. unfold ac, acts. rewrite Nat2Z.id, Hn, Hm. reflexivity. }
  pose proof (run_status ac l (0, b_mem bd) ltac:(now left)) as St. rewrite E in St. cbn [fst] in St.
  assert (Ds : distinct ac l).
  { eapply (matching_distinct bd bs its did sid dA sA Rg); [exact I2|assumption|]. intros i Hi. apply zseq_in in Hi. lia. }
  destruct (run_mem ac l (0, b_mem bd) Sl) as (B1 & W1). rewrite E in B1, W1. cbn [snd] in B1, W1.
  assert (Oth : forall j, 0 <= j ->
    (forall it, In it (matching did sid its) -> ~ goes_to (b_mem bd) it (stored_base (b_mem bd) + 8 * j)) ->
    word m' j = word (b_mem bd) j).
  { intros j Hj Hno. pose proof (run_other ac l (0, b_mem bd) j Sl Hj) as X. rewrite E in X. apply X.
    intros i Hi (v & Hp). destruct (Sl' i j v Hp) as (it & _ & Hm & Hg & _). exact (Hno it Hm Hg). }
  assert (Hdr : forall j, 0 <= j -> ~ (10 <= j < 10 + zlen (a_cells dA)) -> word m' j = word (b_mem bd) j).
  { intros j Hj Hno. pose proof (run_other ac l (0, b_mem bd) j Sl Hj) as X. rewrite E in X. apply X.
    intros i Hi (v & Hp). destruct (Sl' i j v Hp) as (it & _ & Hm & Hg & Hr). lia. }
  assert (SB' : stored_base m' = stored_base (b_mem bd)) by (unfold stored_base; apply Hdr; lia).
  assert (SP4 : sec_pos m' 4 = sec_pos (b_mem bd) 4) by (unfold sec_pos; rewrite SB', Hdr by lia; reflexivity).
  assert (SPe : sec_pos (b_mem bd) 4 = spos dA 4) by (apply (sec_pos_ok _ _ _ R); auto).
  assert (C4 : sec_count m' 4 = sec_count (b_mem bd) 4).
  { unfold sec_count. rewrite SP4, Hdr by lia. reflexivity. }
  split; [|split; [|split; [assumption|split; [unfold wlen in W1; lia|split; [|split; [assumption|split; [assumption|split]]]]]]].
  - destruct (existsb _ l); auto.
  - split.
    + intros Hs it Hit. destruct (Wh it Hit) as (i & Hi & _ & Ei). destruct (target bd dA it =? 0) eqn:Et.
      * exfalso. assert (X : existsb (fun i0 => match ac i0 with Fail => true | _ => false end) l = true).
        { apply existsb_exists. exists i. rewrite Ei. auto. }
        rewrite X in St. lia.
      * apply Z.eqb_neq in Et. exists (target bd dA it). destruct (Rg it Hit) as (G1 & G2 & _).
        now apply (found_place bd dA I1).
    + intros Hall. destruct (existsb _ l) eqn:X; [|assumption]. exfalso.
      apply existsb_exists in X as (i & Hi & Ei). destruct (ac i) eqn:Ea; try discriminate.
      unfold ac, acts in Ea. destruct (nth_error its (Z.to_nat i)) as [it|] eqn:En; [|discriminate].
      destruct ((dest_buffer it =? did) && (src_buffer it =? sid)) eqn:Em; [|discriminate].
      assert (Hit : In it (matching did sid its)).
      { apply filter_In. split; [eapply nth_error_In; eassumption|assumption]. }
      destruct (Hall it Hit) as (a & Hg). destruct (place_found bd dA I1 _ _ _ _ Hg) as (F & Fn & _).
      fold (target bd dA it) in F. rewrite F, (eqb_false a 0 Fn) in Ea. discriminate.
  - intros it a Hit Hg. destruct (place_found bd dA I1 _ _ _ _ Hg) as (F & Fn & _). fold (target bd dA it) in F.
    destruct (Wh it Hit) as (i & Hi & Hn & Ei). rewrite F, (eqb_false a 0 Fn) in Ei.
    pose proof (run_put ac l (0, b_mem bd) i _ _ Sl (zseq_nodup _) Ds Hi Ei) as X. rewrite E in X. cbn [snd] in X.
    assert (WA : word_at m' a = value bd bs sA it) by (unfold word_at; rewrite SB', SB; exact X).
    destruct (Rg it Hit) as (_ & _ & _ & G4 & G5 & _). split.
    + intros v Hv. rewrite WA. now destruct (place_found _ sA J1 _ _ _ _ Hv).
    + intros Hno. rewrite WA. destruct (Z.eq_dec (value bd bs sA it) 0) as [e|n]; [assumption|exfalso].
      apply (Hno (value bd bs sA it)). now apply (found_place _ sA J1).
  - intros i Hi. rewrite C4, (sec_count_ok _ _ _ R) in Hi by auto.
    unfold obj_begin, obj_type, obj_size. rewrite SP4, !Hdr by lia. auto.
  - intros Hno.
    assert (Hd : forall k, In k (a_dps dA) -> word m' (10 + k) = word (b_mem bd) (10 + k)).
    { intros k Hk. pose proof Hk as Hk'. apply (ok_ptr _ OK) in Hk' as (Hk0 & _). apply Oth; [lia|].
      intros it Hit Hg. apply (Hno it _ Hit Hg). apply (in_dps _ _ _ R). exists k. split; [assumption|].
      unfold stored_base. rewrite (re_0 _ _ _ R). lia. }
    pose proof (repr_slots _ _ _ m' R W1 Hdr Hd) as R'. split.
    + eapply layout_of. exact R'.
    + rewrite (data_pointers_ok _ _ _ R), (data_pointers_ok _ _ _ R'). reflexivity.
Qed.
End Call.
