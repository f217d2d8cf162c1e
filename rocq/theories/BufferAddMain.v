(* Buffer_add_object: the stored object is the expected one, everything else unchanged. *)
From Coq Require Import ZArith List Bool Lia.
From Verif Require Import MBuf Alignment MemPool Buffer BufferSpec MBufSpec MBufMem MBufAbs MBufRemap
  MBufReserve MBufInit BufferProofs BufferReserve BufferAddMem BufferAdd BufferAddLoop.
Import ListNotations.
Local Open Scope Z_scope.

Lemma predict_ok osize attrs : 0 < osize -> counts_ok attrs ->
  8 * object_words osize attrs < 2 ^ 64 ->
  predict_num_slots osize (map (fun x => (at_size x, at_count x)) attrs) = object_words osize attrs.
Proof.
  intros Ho HC Hov. rewrite object_words_eq in *.
  pose proof (words_of_bounds osize ltac:(lia)) as (W0 & W1).
  pose proof (attr_words_nonneg attrs HC) as Wn.
  unfold predict_num_slots. rewrite ltb_true by assumption. rewrite slot_based_ok by lia.
  assert (F : forall l acc, counts_ok l -> 0 <= acc -> 8 * (acc + attr_words l) < 2 ^ 64 ->
    fold_left (fun acc a => u64 (acc + slot_based (u64 (fst a * snd a))))
      (map (fun x => (at_size x, at_count x)) l) (8 * acc) = 8 * (acc + attr_words l)).
  { clear. induction l as [|x l IH]; intros acc HC Ha Hov; cbn [map fold_left].
    - cbn [attr_words fold_right]. now rewrite Z.add_0_r.
    - destruct (HC x ltac:(now left)) as (C1 & C2).
      pose proof (attr_bytes_nonneg x C1 C2) as Cb.
      pose proof (words_of_bounds _ Cb) as (W0 & W1).
      assert (HCl : counts_ok l) by (intros y Hy; apply HC; now right).
      pose proof (attr_words_nonneg l HCl).
      assert (Ew : attr_words (x :: l) = words_of (attr_bytes x) + attr_words l) by reflexivity.
      rewrite Ew in *. cbn [fst snd].
      replace (at_size x * at_count x) with (attr_bytes x) by (unfold attr_bytes; ring).
      rewrite (u64_id (attr_bytes x)), slot_based_ok, u64_id by lia.
      replace (8 * acc + 8 * words_of (attr_bytes x)) with (8 * (acc + words_of (attr_bytes x))) by lia.
      rewrite IH by (assumption || lia). lia. }
  rewrite F by (assumption || lia).
  replace (8 * (words_of osize + attr_words attrs) mod 8) with 0
    by (rewrite Z.mul_comm, Z.mod_mul; lia).
  change (0 =? 0) with true.
  destruct attrs; cbn [map]; rewrite Z.mul_comm, Z.div_mul by lia; reflexivity.
Qed.

Section Put.
Variables (b : buffer) (A : abs) (e : ext_mem) (obj : list Z) (osize t : Z) (attrs : list attr).
Hypothesis I : binv b A.
Hypothesis V : bview b A.
Hypothesis HC : call_ok e obj osize attrs.
Local Notation m := (b_mem b).
Local Notation B := (mbase (b_mem b)).
Local Notation s := (zlen (a_cells A)).
Hypothesis Rs : s + object_words osize attrs <= a_ms A.
Hypothesis Ro : zlen (a_objs A) + 1 <= a_mo A.
Hypothesis Rd : zlen (a_dps A) + zlen attrs <= a_md A.

Definition put_object : option (Z * buffer) :=
  let add := object_words osize attrs in
  let h := b_h b in
  let a := data_addr h in
  sz <- section_size m a SLOTS_ID ;;
  sp <- section_ptr m a SLOTS_ID ;;
  let stored := sp + sz in
  op <- section_ptr m a OBJECTS_ID ;;
  if stored =? 0 then Some (0, b) else
  m <- store_bytes m stored obj osize ;;
  if op =? 0 then Some (0, Buffer h (b_pool b) m) else
  osz <- section_size m a OBJECTS_ID ;;
  let dobj := op + osz in
  m <- wrn m dobj [stored; t; u64 (add * 8)] ;;
  m <- (match attrs with
        | [] => Some m
        | _ =>
          dsz <- section_size m a DATAPTRS_ID ;;
          dp <- section_ptr m a DATAPTRS_ID ;;
          m <- add_dataptrs attrs e m stored (stored + slot_based osize) (dp + dsz) ;;
          set_section_num m a DATAPTRS_ID (zlen (a_dps A) + zlen attrs)
        end) ;;
  m <- set_section_num m a SLOTS_ID (s + add) ;;
  m <- set_section_num m a OBJECTS_ID (zlen (a_objs A) + 1) ;;
  Some (dobj, Buffer (set_num_objects h (zlen (a_objs A) + 1)) (b_pool b) m).

Lemma hdr_free A0 j : ok A0 ->
  (10 <= j < spos A0 4 \/ spos A0 4 + 2 <= j < spos A0 5 \/ spos A0 5 + 2 <= j < spos A0 6) ->
  ~ hdrword A0 j.
Proof.
  intros Hok Hj [H|(id & Hid & H)].
  - pose proof (ok_bounds A0 Hok). unfold spos in Hj. cbn [Z.eqb Pos.eqb] in Hj. lia.
  - pose proof (ok_bounds A0 Hok). unfold spos in *. secs Hid; cbn [Z.eqb Pos.eqb] in *; lia.
Qed.

Lemma put_ok : exists ow arrs b',
  put_object = Some (B + 8 * (spos A 4 + 2 + 3 * zlen (a_objs A)), b') /\
  object_data e obj osize attrs ow arrs /\
  binv b' (aadd A t ow attrs arrs) /\ bview b' (aadd A t ow attrs arrs) /\
  mbase (b_mem b') = B /\ wcount ow = words_of osize /\ length attrs = length arrs /\
  sumw arrs = attr_words attrs.
Proof.
  pose proof (bi_facts b A I) as (P & Q & T16 & Tw & Cw & Cw' & Sz & Se & Sw).
  pose proof (bi_repr _ _ I) as R. pose proof (re_h _ _ _ R) as H.
  pose proof (hr_ok _ _ _ H) as Hok. pose proof (hr_base _ _ _ H) as (_ & _ & Top).
  pose proof (ok_bounds A Hok) as (Bc & Bo & Bd & Bg).
  destruct HC as [Hsz Hwd Hrg Hoff Hdis Hcnt Hsrc].
  pose proof (words_of_bounds osize ltac:(lia)) as (W0 & W1).
  assert (W1' : 1 <= words_of osize) by lia.
  assert (HCn : counts_ok attrs) by exact Hcnt.
  pose proof (attr_words_nonneg attrs HCn) as Wn.
  rewrite object_words_eq in *.
  pose proof (zlen_nonneg attrs) as Ln.
  assert (S3 : spos A 3 = 8) by reflexivity.
  assert (S4 : spos A 4 = 10 + a_ms A) by reflexivity.
  assert (S5 : spos A 5 = 12 + a_ms A + 3 * a_mo A) by reflexivity.
  assert (S6 : spos A 6 = 14 + a_ms A + 3 * a_mo A + a_md A) by reflexivity.
  assert (St : tot A = 16 + a_ms A + 3 * a_mo A + a_md A + 2 * a_mg A) by reflexivity.
  unfold put_object. cbv zeta. rewrite (bi_addr _ _ I). rewrite !object_words_eq.
  unfold SLOTS_ID, OBJECTS_ID, DATAPTRS_ID.
  rewrite (section_size_ok _ _ H), !(section_ptr_ok _ _ H) by auto. cbn [bind].
  change (entity_size 3) with 8. change (snum A 3) with s.
  replace (B + 8 * spos A 3 + (16 + 8 * s)) with (B + 8 * (10 + s)) by lia.
  rewrite eqb_false by lia.
  destruct (store_bytes_ok m (B + 8 * (10 + s)) (10 + s) obj osize) as (m1 & ow & E1 & P1 & SB & FW);
    try assumption; try lia.
  rewrite E1. cbn [bind]. rewrite eqb_false by lia.
  pose proof (mput_base _ _ _ _ _ P1) as B1. pose proof (mput_len _ _ _ _ _ P1) as L1.
  assert (Wow : wcount ow = words_of osize) by apply SB.
  assert (H1 : hrepr (mbase m1) m1 A).
  { rewrite B1. apply (hrepr_frame _ m); auto. intros j Hj Hh. apply (mput_out _ _ _ _ _ _ P1); [assumption|].
    intros Hin. revert Hh. apply hdr_free; [assumption|]. lia. }
  assert (X : section_size m1 B 4 = Some (16 + 24 * zlen (a_objs A)))
    by (rewrite <- B1; apply (section_size_ok _ _ H1); auto).
  rewrite X. cbn [bind]. clear X.
  rewrite (u64_id (_ * 8)) by lia.
  destruct (wrn_ok [B + 8 * (10 + s); t; (words_of osize + attr_words attrs) * 8] m1
    (B + 8 * spos A 4 + (16 + 24 * zlen (a_objs A))) (spos A 4 + 2 + 3 * zlen (a_objs A)))
    as (m2 & E2 & P2); try lia.
  { intros _. cbn [length]. lia. }
  rewrite E2. cbn [bind]. cbn [length] in P2.
  pose proof (mput_base _ _ _ _ _ P2) as B2. pose proof (mput_len _ _ _ _ _ P2) as L2.
  assert (H2 : hrepr (mbase m2) m2 A).
  { rewrite B2. apply (hrepr_frame _ m1); auto. intros j Hj Hh.
    apply (mput_out _ _ _ _ _ _ P2); [assumption|].
    intros Hin. revert Hh. apply hdr_free; [assumption|]. lia. }
  (* the words of the object in m2 *)
  assert (GO : forall k, 0 <= k < words_of osize -> word m2 (10 + s + k) = wnth ow k).
  { intros k Hk. rewrite (mput_out _ _ _ _ _ _ P2) by lia. rewrite (mput_in _ _ _ _ _ _ P1) by lia.
    f_equal. lia. }
  (* the loop; also right for no data pointers *)
  assert (LOOP : exists m3 arrs,
    (match attrs with
        | [] => Some m2
        | _ =>
          dsz <- section_size m2 B 5 ;;
          dp <- section_ptr m2 B 5 ;;
          m <- add_dataptrs attrs e m2 (B + 8 * (10 + s)) (B + 8 * (10 + s) + slot_based osize) (dp + dsz) ;;
          set_section_num m B 5 (zlen (a_dps A) + zlen attrs)
        end) = Some m3 /\
    Forall2 (fun x ws => array_of e (wnth obj (at_offset x / 8)) (attr_bytes x) ws) attrs arrs /\
    mbase m3 = B /\ wlen m3 = wlen m /\
    (forall n x, nth_error attrs n = Some x ->
       word m3 (10 + s + at_offset x / 8) = B + 8 * (10 + s + words_of osize + sumw (firstn n arrs))) /\
    (forall k w, nth_error (concat arrs) k = Some w ->
       word m3 (10 + s + words_of osize + Z.of_nat k) = w) /\
    (forall n x, nth_error attrs n = Some x ->
       word m3 (spos A 5 + 2 + zlen (a_dps A) + Z.of_nat n) = B + 8 * (10 + s + at_offset x / 8)) /\
    word m3 (spos A 5 + 1) = zlen (a_dps A) + zlen attrs /\
    (forall j, 0 <= j -> (forall x, In x attrs -> j <> 10 + s + at_offset x / 8) ->
       ~ (10 + s + words_of osize <= j < 10 + s + words_of osize + attr_words attrs) ->
       ~ (spos A 5 + 2 + zlen (a_dps A) <= j < spos A 5 + 2 + zlen (a_dps A) + zlen attrs) ->
       j <> spos A 5 + 1 -> word m3 j = word m2 j) /\
    sumw arrs = attr_words attrs).
  { assert (N5 : word m2 (spos A 5 + 1) = zlen (a_dps A)) by (rewrite (hr_num _ _ _ H2) by auto; reflexivity).
    destruct attrs as [|x0 r0] eqn:Ea.
    - exists m2, []. split; [reflexivity|]. split; [constructor|]. split; [congruence|].
      split; [congruence|]. split; [intros n x Hn; now destruct n|].
      split; [intros n x Hn; now destruct n|]. split; [intros n x Hn; now destruct n|].
      split; [rewrite N5; unfold zlen at 3; cbn [length]; lia|].
      split; [auto|]. reflexivity.
    - assert (X1 : section_size m2 B 5 = Some (16 + 8 * zlen (a_dps A)))
        by (rewrite <- B1, <- B2; apply (section_size_ok _ _ H2); auto).
      assert (X2 : section_ptr m2 B 5 = Some (B + 8 * spos A 5))
        by (rewrite <- B1, <- B2; apply (section_ptr_ok _ _ H2); auto).
      rewrite X1, X2. cbn [bind]. rewrite <- Ea in *. clear x0 r0 Ea.
      rewrite slot_based_ok by lia.
      assert (B2' : mbase m2 = B) by congruence.
      assert (SRC : forall x, In x attrs -> word m2 (10 + s + at_offset x / 8) = wnth obj (at_offset x / 8)).
      { intros x Hx. destruct (Hoff x Hx) as (O1 & O2 & O3). apply mod8_eq in O2.
        rewrite GO by lia. apply FW; lia. }
      destruct (add_dataptrs_ok e (10 + s) (words_of osize) ltac:(lia) attrs m2
        (10 + s + words_of osize) (spos A 5 + 2 + zlen (a_dps A)))
        as (m3 & arrs & E3 & F3 & B3 & L3 & Ga & Gb & Gc & Gd & Gs); try assumption; try lia.
      { intros x Hx. destruct (Hoff x Hx) as (O1 & O2 & O3). split; [lia|]. split; [lia|]. lia. }
      { intros x Hx j Hj. rewrite SRC by assumption. apply Hsrc; assumption. }
      rewrite B2' in *.
      replace (B + 8 * (10 + s) + 8 * words_of osize) with (B + 8 * (10 + s + words_of osize)) by lia.
      replace (B + 8 * spos A 5 + (16 + 8 * zlen (a_dps A)))
        with (B + 8 * (spos A 5 + 2 + zlen (a_dps A))) by lia.
      rewrite E3. cbn [bind].
      assert (Keep : forall j, 0 <= j < 8 -> word m3 j = word m j).
      { intros j Hj. rewrite Gd; try lia.
        - rewrite (mput_out _ _ _ _ _ _ P2) by lia. now rewrite (mput_out _ _ _ _ _ _ P1) by lia.
        - intros x Hx. destruct (Hoff x Hx) as (O1 & O2 & O3). apply mod8_eq in O2. lia. }
      rewrite (set_section_num_ok m A R m3 5) by (auto; congruence).
      eexists _, arrs. split; [reflexivity|].
      split; [eapply Forall2_impl_in; [|exact F3]; cbn beta; intros x l Hx Hl; now rewrite SRC in Hl|].
      split; [now rewrite mupd_base|]. split; [rewrite mupd_wlen; congruence|].
      split; [|split; [|split; [|split; [|split]]]].
      + intros n x Hn. destruct (Hoff x (nth_error_In _ _ Hn)) as (O1 & O2 & O3). apply mod8_eq in O2.
        rewrite word_mupd by lia. rewrite eqb_false by lia. now apply Ga.
      + intros k w Hk. assert (K : (k < length (concat arrs))%nat) by (apply nth_error_Some; congruence).
        unfold sumw, zlen at 1 in Gs.
        rewrite word_mupd by lia. rewrite eqb_false by lia. now apply Gb.
      + intros n x Hn. assert (K : (n < length attrs)%nat) by (apply nth_error_Some; congruence).
        assert (Z.of_nat n < zlen attrs) by (unfold zlen; lia).
        rewrite word_mupd by lia. rewrite eqb_false by lia. now apply Gc.
      + rewrite word_mupd by lia. now rewrite Z.eqb_refl.
      + intros j Hj Hx Hd Ho Hn. rewrite word_mupd by lia. rewrite eqb_false by lia.
        apply Gd; assumption.
      + exact Gs. }
  destruct LOOP as (m3 & arrs & E3 & F3 & B3 & L3 & Ga & Gb & Gc & G5 & Gd & Gs).
  rewrite E3. cbn [bind].
  assert (OFF : forall x, In x attrs -> 10 + s <= 10 + s + at_offset x / 8 < 10 + s + words_of osize).
  { intros x Hx. destruct (Hoff x Hx) as (O1 & O2 & O3). apply mod8_eq in O2. lia. }
  assert (Keep : forall j, 0 <= j < 8 -> word m3 j = word m j).
  { intros j Hj. rewrite Gd; try lia.
    - rewrite (mput_out _ _ _ _ _ _ P2) by lia. now rewrite (mput_out _ _ _ _ _ _ P1) by lia.
    - intros x Hx. specialize (OFF x Hx). lia. }
  rewrite (set_section_num_ok m A R m3 3) by auto. cbn [bind].
  rewrite (set_section_num_ok m A R _ 4).
  2:{ now rewrite mupd_base. } 2:{ now rewrite mupd_wlen. } 2:{ auto. }
  2:{ intros j Hj. rewrite word_mupd by lia. rewrite eqb_false by lia. auto. }
  cbn [bind].
  set (m5 := mupd (mupd m3 (spos A 3 + 1) (s + (words_of osize + attr_words attrs)))
               (spos A 4 + 1) (zlen (a_objs A) + 1)).
  assert (B5 : mbase m5 = B) by (unfold m5; now rewrite !mupd_base).
  assert (L5 : wlen m5 = wlen m) by (unfold m5; now rewrite !mupd_wlen).
  assert (LA : length attrs = length arrs) by (clear - F3; induction F3; cbn [length]; congruence).
  assert (G5' : forall j, 0 <= j -> word m5 j = if j =? spos A 4 + 1 then zlen (a_objs A) + 1
     else if j =? spos A 3 + 1 then s + (words_of osize + attr_words attrs) else word m3 j).
  { intros j Hj. unfold m5. now rewrite !word_mupd by (rewrite ?mupd_wlen; lia). }
  pose proof (expected_length ow attrs arrs) as EL. rewrite Wow, Gs in EL.
  assert (HO' : forall x, In x attrs ->
    0 <= at_offset x /\ at_offset x mod 8 = 0 /\ at_offset x + 8 <= 8 * wcount ow).
  { intros x Hx. destruct (Hoff x Hx) as (O1 & O2 & O3). rewrite Wow.
    split; [lia|]. split; [lia|]. lia. }
  assert (OK' : ok (aadd A t ow attrs arrs)).
  { apply aadd_ok; auto; lia. }
  set (A' := aadd A t ow attrs arrs) in *.
  assert (Esp : forall id, spos A' id = spos A id) by reflexivity.
  assert (Emx : forall id, smax A' id = smax A id) by reflexivity.
  assert (Etot : tot A' = tot A) by reflexivity.
  (* the words that are as before *)
  assert (OLD : forall j, 0 <= j ->
    (j < 8 \/ j = 8 \/ 10 <= j < 10 + s \/ j = spos A 4 \/
     spos A 4 + 2 <= j < spos A 4 + 2 + 3 * zlen (a_objs A) \/ j = spos A 5 \/
     spos A 5 + 2 <= j < spos A 5 + 2 + zlen (a_dps A) \/ j = spos A 6 \/ j = spos A 6 + 1) ->
    word m5 j = word m j).
  { intros j Hj Hc. rewrite G5' by assumption. rewrite eqb_false, eqb_false by lia.
    rewrite Gd; try lia.
    - rewrite (mput_out _ _ _ _ _ _ P2) by lia. now rewrite (mput_out _ _ _ _ _ _ P1) by lia.
    - intros x Hx. specialize (OFF x Hx). lia. }
  assert (R5 : repr B m5 A').
  { split.
    - split.
      + exact OK'.
      + split; [lia|]. split; [assumption|]. rewrite Etot. lia.
      + rewrite Etot. lia.
      + rewrite OLD by lia. apply (hr_0 _ _ _ H).
      + rewrite OLD by lia. rewrite Etot. apply (hr_1 _ _ _ H).
      + rewrite OLD by lia. apply (hr_2 _ _ _ H).
      + intros id Hid. rewrite OLD by (secs Hid; lia). rewrite Esp. now apply (hr_sec _ _ _ H).
      + intros id Hid. rewrite Esp, Emx. rewrite OLD by (secs Hid; lia). now apply (hr_max _ _ _ H).
      + intros id Hid. rewrite Esp.
        secs Hid.
        * rewrite G5' by lia. rewrite eqb_false, Z.eqb_refl by lia.
          change (snum A' 3) with (zlen (a_cells A')). unfold A'. cbn [aadd a_cells].
          rewrite zlen_app, zlen_map. lia.
        * rewrite G5' by lia. rewrite Z.eqb_refl.
          change (snum A' 4) with (zlen (a_objs A')). unfold A'. cbn [aadd a_objs].
          rewrite zlen_app. reflexivity.
        * rewrite G5' by lia. rewrite eqb_false, eqb_false by lia. rewrite G5.
          change (snum A' 5) with (zlen (a_dps A')). unfold A'. cbn [aadd a_dps].
          rewrite zlen_app, zlen_map. reflexivity.
        * rewrite OLD by lia. rewrite (hr_num _ _ _ H) by auto. reflexivity.
    - intros k c Hk. destruct (Nat.lt_ge_cases k (length (a_cells A))) as [L|L].
      + unfold A' in Hk. rewrite aadd_cells_lo in Hk by assumption.
        rewrite OLD by (unfold zlen; lia). now apply (re_cell _ _ _ R).
      + replace k with (length (a_cells A) + (k - length (a_cells A)))%nat in Hk by lia.
        unfold A' in Hk. rewrite aadd_cells_hi in Hk.
        destruct (nth_error (expected_object ow attrs arrs) (k - length (a_cells A))) as [c0|] eqn:Ec; [|discriminate].
        apply (expected_cases ow attrs arrs LA Hdis HO') in Ec.
        rewrite Nat2Z.inj_sub in Ec by assumption. change (Z.of_nat (length (a_cells A))) with s in Ec.
        destruct Ec as [(n & x & Hx & Ek & ->)|[(Hlt & Hno & ->)|(j & w & Ek & Hj & ->)]];
          cbn [option_map abs_cell] in Hk.
        * pose proof (OFF x (nth_error_In _ _ Hx)) as OX.
          replace (10 + Z.of_nat k) with (10 + s + at_offset x / 8) by lia.
          rewrite G5' by lia. rewrite eqb_false, eqb_false by lia. rewrite (Ga n x Hx).
          assert (Ec : Ptr (s + 8 * (wcount ow + sumw (firstn n arrs)) / 8) = c) by congruence.
          rewrite <- Ec, (Z.mul_comm 8 (wcount ow + _)), Z.div_mul by lia. cbn [cellval]. lia.
        * assert (Ec : c = Raw (wnth ow (Z.of_nat k - s))) by congruence.
          rewrite Ec. cbn [cellval]. rewrite Wow in Hlt.
          unfold zlen in Hlt. rewrite G5' by lia. unfold zlen in S4.
          rewrite eqb_false, eqb_false by (unfold zlen in *; lia).
          rewrite Gd; try (unfold zlen in *; lia).
          -- replace (10 + Z.of_nat k) with (10 + s + (Z.of_nat k - s)) by lia.
             apply GO. unfold zlen in *. lia.
          -- intros x Hx Ex. apply (Hno x Hx). destruct (Hoff x Hx) as (O1 & O2 & O3).
             apply mod8_eq in O2. lia.
        * assert (Ec : c = Raw w) by congruence. rewrite Ec. cbn [cellval].
          assert (K : (j < length (concat arrs))%nat) by (apply nth_error_Some; congruence).
          unfold sumw, zlen at 1 in Gs.
          replace (10 + Z.of_nat k) with (10 + s + words_of osize + Z.of_nat j) by lia.
          rewrite G5' by lia. rewrite eqb_false, eqb_false by lia. now apply Gb.
    - intros i s0 n0 t0 Hi. rewrite Esp.
      destruct (Nat.lt_ge_cases i (length (a_objs A))) as [L|L].
      + assert (Hi' : nth_error (a_objs A) i = Some (s0, n0, t0)).
        { unfold A' in Hi. cbn [aadd a_objs] in Hi. now rewrite nth_error_app1 in Hi. }
        assert (Z.of_nat i < zlen (a_objs A)) by (unfold zlen; lia).
        rewrite !OLD by lia. now apply (re_obj _ _ _ R).
      + assert (i = length (a_objs A)) as ->.
        { assert (i < length (a_objs A'))%nat by (apply nth_error_Some; congruence).
          unfold A' in *. cbn [aadd a_objs] in *. rewrite app_length in *. cbn [length] in *. lia. }
        assert (Hi' : (s, zlen (expected_object ow attrs arrs), t) = (s0, n0, t0)).
        { unfold A' in Hi. cbn [aadd a_objs] in Hi. rewrite nth_error_app2 in Hi by lia.
          rewrite Nat.sub_diag in Hi. cbn [nth_error] in Hi. congruence. }
        change (Z.of_nat (length (a_objs A))) with (zlen (a_objs A)).
        assert (Gm : forall d, 0 <= d < 3 -> word m5 (spos A 4 + 2 + 3 * zlen (a_objs A) + d) =
          nth (Z.to_nat d) [B + 8 * (10 + s); t; (words_of osize + attr_words attrs) * 8] 0).
        { intros d Hd. rewrite G5' by lia. rewrite eqb_false, eqb_false by lia.
          rewrite Gd; try lia.
          - rewrite (mput_in _ _ _ _ _ _ P2) by lia. do 2 f_equal. lia.
          - intros x Hx. specialize (OFF x Hx). lia. }
        replace (spos A 4 + 2 + 3 * zlen (a_objs A)) with (spos A 4 + 2 + 3 * zlen (a_objs A) + 0) at 1 by lia.
        rewrite !Gm by lia.
        assert (s = s0 /\ zlen (expected_object ow attrs arrs) = n0 /\ t = t0) as (D1 & D2 & D3).
        { pose proof (f_equal (fun p => fst (fst p)) Hi'). pose proof (f_equal (fun p => snd (fst p)) Hi').
          pose proof (f_equal snd Hi'). cbn [fst snd] in *. auto. }
        rewrite <- D1, <- D2, <- D3, EL.
        change (Z.to_nat 0) with O. change (Z.to_nat 1) with 1%nat. change (Z.to_nat 2) with 2%nat.
        cbn [nth]. split; [lia|]. split; [reflexivity|]. lia.
    - intros j k Hj. rewrite Esp.
      destruct (Nat.lt_ge_cases j (length (a_dps A))) as [L|L].
      + assert (Hj' : nth_error (a_dps A) j = Some k).
        { unfold A' in Hj. cbn [aadd a_dps] in Hj. now rewrite nth_error_app1 in Hj. }
        assert (Z.of_nat j < zlen (a_dps A)) by (unfold zlen; lia).
        rewrite OLD by lia. now apply (re_dp _ _ _ R).
      + unfold A' in Hj. cbn [aadd a_dps] in Hj. rewrite nth_error_app2 in Hj by assumption.
        rewrite nth_error_map in Hj.
        destruct (nth_error attrs (j - length (a_dps A))) as [x|] eqn:Ex; [|discriminate].
        cbn [option_map] in Hj. assert (Ek : k = s + at_offset x / 8) by congruence.
        assert (K : (j - length (a_dps A) < length attrs)%nat) by (apply nth_error_Some; congruence).
        pose proof (Gc _ x Ex) as Gx.
        assert (Z.of_nat (j - length (a_dps A)) < zlen attrs) by (unfold zlen; lia).
        replace (spos A 5 + 2 + Z.of_nat j)
          with (spos A 5 + 2 + zlen (a_dps A) + Z.of_nat (j - length (a_dps A))) by (unfold zlen; lia).
        rewrite G5' by lia. rewrite eqb_false, eqb_false by lia. rewrite Gx. lia. }
  exists ow, arrs. eexists. split; [f_equal; f_equal; lia|].
  split; [split; assumption|]. split; [|split; [|split; [|auto]]].
  - destruct I. split; cbn [b_h b_pool b_mem data_addr data_size data_capacity num_objects ds_addr set_num_objects];
      try congruence; try lia; try assumption.
    + change (data_addr (b_h b) = mbase m5). congruence.
    + rewrite B5. exact R5.
    + change (zlen (a_objs A) + 1 = zlen (a_objs A ++ [(s, zlen (expected_object ow attrs arrs), t)])).
      now rewrite zlen_app.
  - unfold bview in *. cbn [b_h b_mem set_num_objects object_addr]. rewrite B5. exact V.
  - exact B5.
Qed.
End Put.

(* ------------------------------------------------------------------ *)
Section Add.
Variables (hp : heap) (b : buffer) (A : abs) (e : ext_mem) (obj : list Z) (osize t : Z) (attrs : list attr).
Hypothesis Hh : heap_ok hp.
Hypothesis I : binv b A.
Hypothesis V : bview b A.
Hypothesis HC : call_ok e obj osize attrs.
Local Notation add := (object_words osize attrs).
Hypothesis Hov : data_size (b_h b) + 8 * (add + 3 + zlen attrs) + 32 < 2 ^ 64.
Local Notation s := (zlen (a_cells A)).
Local Notation rs := (zlen (a_cells A) + object_words osize attrs).
Local Notation ro := (zlen (a_objs A) + 1).
Local Notation rd' := (zlen (a_dps A) + zlen attrs).

(* there is room for the object in every section *)
Definition room : Prop := rs <= a_ms A /\ ro <= a_mo A /\ rd' <= a_md A.

(* every section is to keep its size or to grow, and the memory for it is there *)
Definition growable : Prop :=
  a_ms A <= rs /\ a_mo A <= ro /\ a_md A <= rd' /\
  memory_for hp b A (8 * tot (resize A rs ro rd' (a_mg A))) /\
  (data_capacity (b_h b) < 8 * tot (resize A rs ro rd' (a_mg A)) -> remappable A).

Lemma add_all : exists r b', buf_add_object hp b e obj osize t attrs = Some (r, b') /\
  (r <> 0 -> exists ow arrs A', object_data e obj osize attrs ow arrs /\
     binv b' A' /\ bview b' A' /\
     acontent A' = acontent A ++ [(t, expected_object ow attrs arrs)] /\
     a_objs A' = a_objs A ++ [(zlen (a_cells A), zlen (expected_object ow attrs arrs), t)] /\
     r = mbase (b_mem b') + 8 * (spos A' 4 + 2 + 3 * zlen (a_objs A)) /\
     a_cells A' = a_cells A ++ map (abs_cell s) (expected_object ow attrs arrs) /\
     wcount ow = words_of osize /\ length arrs = length attrs /\ sumw arrs = attr_words attrs /\
     zlen (a_dps A') = rd' /\ a_mg A' = a_mg A /\
     (room -> a_ms A' = a_ms A /\ a_mo A' = a_mo A /\ a_md A' = a_md A) /\
     (~ room -> a_ms A' = rs /\ a_mo A' = ro /\ a_md A' = rd')) /\
  (room \/ growable -> r <> 0) /\
  (room -> mbase (b_mem b') = mbase (b_mem b)) /\
  (data_capacity (b_h b) < 8 * tot (resize A rs ro rd' (a_mg A)) ->
   p_capacity (b_pool b) < 8 * tot (resize A rs ro rd' (a_mg A)) ->
   h_malloc hp (round8 (8 * tot (resize A rs ro rd' (a_mg A))) + 8) = 0 -> ~ room ->
   r = 0 /\ b' = b) /\
  (r = 0 -> exists b1, buf_reserve hp b ro rs rd' (a_mg A) = Some (false, b1) /\ b' = b1 /\ ~ room).
Proof.
  pose proof (bi_facts b A I) as (P & Q & T16 & Tw & Cw & Cw' & Sz & Se & Sw).
  pose proof (bi_repr _ _ I) as R. pose proof (re_h _ _ _ R) as H.
  pose proof (hr_ok _ _ _ H) as Hok.
  pose proof (ok_bounds A Hok) as (Bc & Bo & Bd & Bg).
  pose proof (bi_flags _ _ I) as FL. pose proof (bi_ds _ _ I) as DS.
  pose proof (call_size _ _ _ _ HC) as Hsz. pose proof (call_counts _ _ _ _ HC) as Hcnt.
  pose proof (words_of_bounds osize ltac:(lia)) as (W0 & W1).
  pose proof (attr_words_nonneg attrs Hcnt) as Wn.
  pose proof (object_words_eq osize attrs) as Ow.
  pose proof (zlen_nonneg attrs) as Ln. rewrite (bi_dsize _ _ I) in Hov.
  assert (St : tot A = 16 + a_ms A + 3 * a_mo A + a_md A + 2 * a_mg A) by reflexivity.
  unfold buf_add_object. rewrite ltb_true by assumption.
  rewrite fl_append by assumption. cbn [andb]. rewrite (bi_addr _ _ I).
  unfold SLOTS_ID, OBJECTS_ID, DATAPTRS_ID, GARBAGE_ID.
  rewrite !(section_num_ok _ _ H), !(section_max_num_ok _ _ H) by auto. cbn [bind].
  change (smax A 3) with (a_ms A). change (smax A 4) with (a_mo A).
  change (smax A 5) with (a_md A). change (smax A 6) with (a_mg A).
  change (snum A 3) with s. change (snum A 4) with (zlen (a_objs A)).
  change (snum A 5) with (zlen (a_dps A)).
  rewrite predict_ok by (assumption || lia).
  change (Z.of_nat (length attrs)) with (zlen attrs).
  rewrite !u64_id by lia.
  (* the second half *)
  assert (FIN : forall b1 ms1 mo1 md1 (A1 := resize A ms1 mo1 md1 (a_mg A)),
    binv b1 A1 -> bview b1 A1 -> rs <= ms1 -> ro <= mo1 -> rd' <= md1 ->
    exists r b', put_object b1 A1 e obj osize t attrs = Some (r, b') /\ r <> 0 /\
      mbase (b_mem b') = mbase (b_mem b1) /\
      exists ow arrs A', object_data e obj osize attrs ow arrs /\
      binv b' A' /\ bview b' A' /\
      acontent A' = acontent A ++ [(t, expected_object ow attrs arrs)] /\
      a_objs A' = a_objs A ++ [(zlen (a_cells A), zlen (expected_object ow attrs arrs), t)] /\
      r = mbase (b_mem b') + 8 * (spos A' 4 + 2 + 3 * zlen (a_objs A)) /\
      a_cells A' = a_cells A ++ map (abs_cell s) (expected_object ow attrs arrs) /\
      wcount ow = words_of osize /\ length arrs = length attrs /\ sumw arrs = attr_words attrs /\
      zlen (a_dps A') = rd' /\ a_mg A' = a_mg A /\
      (a_ms A' = ms1 /\ a_mo A' = mo1 /\ a_md A' = md1)).
  { intros b1 ms1 mo1 md1 A1 I1 V1 R1 R2 R3.
    destruct (put_ok b1 A1 e obj osize t attrs I1 V1 HC) as
      (ow & arrs & b' & E1 & OD & Ib & Vb & Bb & Wo & LA & Sw1); try assumption.
    pose proof (bi_facts b1 A1 I1) as (P1 & _).
    assert (OK1 : ok A1) by apply (re_ok _ _ _ (bi_repr _ _ I1)).
    pose proof (ok_bounds A1 OK1).
    assert (spos A1 4 = 10 + a_ms A1) by reflexivity.
    eexists _, b'. split; [exact E1|]. split; [unfold A1 in *; cbn [resize a_ms] in *; lia|].
    split; [exact Bb|].
    exists ow, arrs, (aadd A1 t ow attrs arrs). split; [assumption|]. split; [assumption|].
    split; [assumption|]. split; [|split; [|split; [|split]]].
    - rewrite aadd_content; auto.
      + apply (call_distinct _ _ _ _ HC).
      + intros x Hx. destruct (call_offsets _ _ _ _ HC x Hx) as (O1 & O2 & O3).
        rewrite Wo. split; [lia|]. split; [lia|]. lia.
    - reflexivity.
    - rewrite Bb. reflexivity.
    - reflexivity.
    - split; [auto|]. split; [auto|]. split; [auto|]. split; [|auto].
      unfold aadd. cbn [a_dps A1 resize]. rewrite zlen_app, zlen_map. reflexivity. }
  destruct ((a_mo A <? ro) || (a_ms A <? rs) || (a_md A <? rd')) eqn:Egrow.
  - assert (NR : ~ room).
    { intros (X1 & X2 & X3). apply orb_prop in Egrow as [Egrow|Egrow].
      - apply orb_prop in Egrow as [Egrow|Egrow]; apply Z.ltb_lt in Egrow; lia.
      - apply Z.ltb_lt in Egrow; lia. }
    assert (NE : resize A rs ro rd' (a_mg A) <> A).
    { intros EA. apply NR. pose proof (f_equal a_ms EA) as X1. pose proof (f_equal a_mo EA) as X2.
      pose proof (f_equal a_md EA) as X3. unfold resize in X1, X2, X3. cbn [a_ms a_mo a_md] in X1, X2, X3.
      unfold room. lia. }
    assert (Et : tot (resize A rs ro rd' (a_mg A)) = 16 + rs + 3 * ro + rd' + 2 * a_mg A) by reflexivity.
    destruct (buf_reserve_all hp b A Hh I ro rs rd' (a_mg A)) as (r1 & b1 & E1 & T1 & T2 & T3 & T4 & T5);
      try lia.
    rewrite E1. cbn [bind]. destruct r1.
    + destruct (T1 eq_refl) as (I1 & V1 & F1).
      destruct (FIN b1 rs ro rd' I1 V1) as (r & b' & E2 & Rn & Bb & X); try lia.
      unfold put_object in E2. cbv zeta in E2. unfold SLOTS_ID, OBJECTS_ID, DATAPTRS_ID in E2.
      cbn [resize a_cells a_objs a_dps] in E2.
      rewrite u64_id in E2 by lia.
      exists r, b'. split; [rewrite <- E2; reflexivity|].
      split; [destruct X as (ow & arrs & A' & X); intros _; exists ow, arrs, A'; tauto|]. split; [auto|].
      split; [tauto|]. split; [|congruence].
      intros C1 C2 C3 _. destruct (T4 C1 C2 C3). discriminate.
    + exists 0, b1. split; [reflexivity|]. split; [congruence|].
      split; [|split; [tauto|split]].
      * intros [X|(G1 & G2 & G3 & G4 & G5)]; [tauto|].
        assert (false = true) by (apply T2; auto; lia). discriminate.
      * intros C1 C2 C3 _. destruct (T4 C1 C2 C3) as (_ & ->). auto.
      * intros _. exists b1. auto.
  - apply orb_false_elim in Egrow as (Egrow & E3). apply orb_false_elim in Egrow as (E1 & E2).
    apply Z.ltb_ge in E1, E2, E3. cbn [bind].
    assert (I1 : binv b (resize A (a_ms A) (a_mo A) (a_md A) (a_mg A))) by (rewrite resize_same; exact I).
    assert (V1 : bview b (resize A (a_ms A) (a_mo A) (a_md A) (a_mg A))) by (rewrite resize_same; exact V).
    destruct (FIN b (a_ms A) (a_mo A) (a_md A) I1 V1) as (r & b' & E4 & Rn & Bb & X); try lia.
    unfold put_object in E4. cbv zeta in E4. unfold SLOTS_ID, OBJECTS_ID, DATAPTRS_ID in E4.
    cbn [resize a_cells a_objs a_dps] in E4.
    rewrite u64_id in E4 by lia. rewrite (bi_addr _ _ I) in E4.
    assert (RM : room) by (unfold room; lia).
    exists r, b'. rewrite (bi_addr _ _ I). split; [rewrite <- E4; reflexivity|].
    split; [destruct X as (ow & arrs & A' & X); intros _; exists ow, arrs, A'; tauto|]. split; [auto|].
    split; [auto|]. split; [tauto|congruence].
Qed.
End Add.
