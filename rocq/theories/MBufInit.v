(* Setting up an empty block and emptying one. *)
From Coq Require Import ZArith List Bool Lia.
From Verif Require Import MBuf MBufSpec MBufMem MBufAbs MBufRemap MBufReserve.
Import ListNotations.
Local Open Scope Z_scope.

Definition empty (ms mo md mg : Z) : abs := Abs ms mo md mg [] [] [].

Lemma empty_ok ms mo md mg : 0 <= ms -> 0 <= mo -> 0 <= md -> 0 <= mg -> ok (empty ms mo md mg).
Proof.
  intros. split; cbn [empty a_ms a_mo a_md a_mg a_cells a_objs a_dps chain]; auto; unfold zlen;
    cbn [length]; try lia.
  - constructor.
  - intros k. split; [intros []|]. intros (_ & q & Hq). now destruct (Z.to_nat k).
  - intros k q Hq. now destruct k.
Qed.

Ltac side VS := repeat (apply VS; [|rewrite ?mupd_wlen; lia]); auto.

Section Init.
Variables (m : mem) (ms mo md mg maxlen : Z).
Local Notation B := (mbase m).
Hypothesis Hb : 0 < B.
Hypothesis Hal : B mod 8 = 0.
Hypothesis Hcap : maxlen <= 8 * wlen m.
Hypothesis Htop : B + maxlen < 2 ^ 64.
Hypothesis Hhl : header_length m B = Some 64.
Hypothesis Hms : 0 <= ms. Hypothesis Hmo : 0 <= mo. Hypothesis Hmd : 0 <= md.
Hypothesis Hmg : 0 <= mg.
Local Notation A' := (empty ms mo md mg).
Hypothesis Hov : 8 * tot A' < 2 ^ 64.

Lemma epos : spos A' 3 = 8 /\ spos A' 4 = 10 + ms /\ spos A' 5 = 12 + ms + 3 * mo /\
  spos A' 6 = 14 + ms + 3 * mo + md /\ tot A' = 16 + ms + 3 * mo + md + 2 * mg.
Proof. unfold spos, tot, empty; cbn [Z.eqb Pos.eqb a_ms a_mo a_md a_mg]. lia. Qed.

Lemma mb_init_fail : maxlen < 8 * tot A' ->
  mb_init m B mo ms md mg maxlen = Some (false, Some (8 * tot A'), m).
Proof.
  intros Hno. pose proof epos as (S3 & S4 & S5 & S6 & St).
  unfold mb_init. rewrite eqb_false by lia. rewrite Hhl. cbn [bind].
  unfold SLOTS_ID, OBJECTS_ID, DATAPTRS_ID, GARBAGE_ID.
  rewrite !calc_section_size_ok
    by (auto; try lia; unfold entity_size; cbn [Z.eqb Pos.eqb]; lia).
  unfold entity_size. cbn [Z.eqb Pos.eqb].
  rewrite (u64_id (64 + _)) by lia. rewrite (u64_id (_ + (16 + 24 * mo))) by lia.
  rewrite (u64_id (_ + (16 + 8 * md))) by lia. rewrite (u64_id (_ + (16 + 16 * mg))) by lia.
  replace (64 + (16 + 8 * ms) + (16 + 24 * mo) + (16 + 8 * md) + (16 + 16 * mg)) with (8 * tot A')
    by lia.
  now rewrite leb_false by lia.
Qed.

Lemma mb_init_ok : 8 * tot A' <= maxlen ->
  exists m', mb_init m B mo ms md mg maxlen = Some (true, Some (8 * tot A'), m') /\
    repr B m' A' /\ mbase m' = B /\ wlen m' = wlen m.
Proof.
  intros Hfit. pose proof epos as (S3 & S4 & S5 & S6 & St).
  unfold mb_init. rewrite eqb_false by lia. rewrite Hhl. cbn [bind].
  unfold SLOTS_ID, OBJECTS_ID, DATAPTRS_ID, GARBAGE_ID.
  rewrite !calc_section_size_ok
    by (auto; try lia; unfold entity_size; cbn [Z.eqb Pos.eqb]; lia).
  unfold entity_size. cbn [Z.eqb Pos.eqb].
  rewrite (u64_id (64 + _)) by lia. rewrite (u64_id (_ + (16 + 24 * mo))) by lia.
  rewrite (u64_id (_ + (16 + 8 * md))) by lia. rewrite (u64_id (_ + (16 + 16 * mg))) by lia.
  replace (64 + (16 + 8 * ms) + (16 + 24 * mo) + (16 + 8 * md) + (16 + 16 * mg)) with (8 * tot A')
    by lia.
  rewrite leb_true by lia.
  replace (64 + (16 + 8 * ms) + (16 + 24 * mo) + (16 + 8 * md)) with (8 * spos A' 6) by lia.
  replace (64 + (16 + 8 * ms) + (16 + 24 * mo)) with (8 * spos A' 5) by lia.
  replace (64 + (16 + 8 * ms)) with (8 * spos A' 4) by lia.
  replace (16 + 16 * mg) with (8 * (2 + 2 * mg)) by lia.
  replace (16 + 8 * md) with (8 * (2 + md)) by lia.
  replace (16 + 24 * mo) with (8 * (2 + 3 * mo)) by lia.
  replace (16 + 8 * ms) with (8 * (2 + ms)) by lia.
  destruct (set_zero_ok m B 0 (8 * tot A') (tot A')) as (m1 & E1 & P1); try lia.
  rewrite E1. cbn [bind]. clear E1.
  pose proof (mput_base _ _ _ _ _ P1) as B1. pose proof (mput_len _ _ _ _ _ P1) as W1.
  rewrite (wr_ok m1 B 0) by lia. cbn [bind].
  replace (B + 64) with (B + 8 * spos A' 3) by lia.
  repeat match goal with
  | |- context [wr ?m2 (B + 8 * ?i) ?v] =>
      rewrite (wr_ok m2 (B + 8 * i) i v) by (rewrite ?mupd_base, ?mupd_wlen; lia); cbn [bind]
  end.
  match goal with |- context [set_section_max_size ?x] => set (m5 := x) end.
  assert (B5 : mbase m5 = B) by (unfold m5; rewrite !mupd_base; exact B1).
  assert (W5 : wlen m5 = wlen m) by (unfold m5; rewrite !mupd_wlen; exact W1).
  assert (V : forall j, 0 <= j -> word m5 j =
    if j =? 6 then B + 8 * spos A' 6 else if j =? 5 then B + 8 * spos A' 5
    else if j =? 4 then B + 8 * spos A' 4 else if j =? 3 then B + 8 * spos A' 3
    else if j =? 2 then 64 else if j =? 1 then 8 * tot A' else if j =? 0 then B
    else word m1 j).
  { intros j Hj. unfold m5. rewrite !word_mupd; rewrite ?mupd_wlen; try lia; reflexivity. }
  clearbody m5.
  assert (SB : forall id, secid id -> 8 <= spos A' id /\ spos A' id + 1 < tot A')
    by (intros id Hid; secs Hid; lia).
  assert (SP : forall m6 id, mbase m6 = B -> wlen m6 = wlen m ->
    (forall j, 0 <= j < 8 -> word m6 j = word m5 j) -> secid id ->
    section_ptr m6 B id = Some (B + 8 * spos A' id)).
  { intros m6 id Hb' Hw Hs Hid. unfold section_ptr. rewrite eqb_false by lia.
    rewrite (rd_ok m6 _ id) by (secs Hid; lia). rewrite Hs by (secs Hid; lia).
    f_equal. rewrite V by (secs Hid; lia); secs Hid; reflexivity. }
  assert (SX : forall m6 id v, mbase m6 = B -> wlen m6 = wlen m ->
    (forall j, 0 <= j < 8 -> word m6 j = word m5 j) -> secid id ->
    set_section_max_size m6 B id v = Some (mupd m6 (spos A' id) v)).
  { intros. unfold set_section_max_size. pose proof (SB id ltac:(assumption)).
    rewrite SP by assumption. cbn [bind]. rewrite eqb_false by lia. apply wr_ok; lia. }
  assert (SN : forall m6 id v, mbase m6 = B -> wlen m6 = wlen m ->
    (forall j, 0 <= j < 8 -> word m6 j = word m5 j) -> secid id ->
    set_section_num m6 B id v = Some (mupd m6 (spos A' id + 1) v)).
  { intros. unfold set_section_num. pose proof (SB id ltac:(assumption)).
    rewrite SP by assumption. cbn [bind]. rewrite eqb_false by lia. apply wr_ok; lia. }
  assert (VS : forall m6 i v, (forall j, 0 <= j < 8 -> word m6 j = word m5 j) -> 8 <= i < wlen m6 ->
     forall j, 0 <= j < 8 -> word (mupd m6 i v) j = word m5 j).
  { intros. rewrite word_mupd by lia. rewrite eqb_false by lia. auto. }
  pose proof (SB 3 secid3). pose proof (SB 4 secid4). pose proof (SB 5 secid5).
  pose proof (SB 6 secid6).
  rewrite SX by (auto; rewrite ?mupd_wlen; auto). cbn [bind].
  rewrite SN; [|assumption|now rewrite ?mupd_wlen|side VS|auto]. cbn [bind].
  rewrite SX; [|assumption|now rewrite ?mupd_wlen|side VS|auto]. cbn [bind].
  rewrite SN; [|assumption|now rewrite ?mupd_wlen|side VS|auto]. cbn [bind].
  rewrite SX; [|assumption|now rewrite ?mupd_wlen|side VS|auto]. cbn [bind].
  rewrite SN; [|assumption|now rewrite ?mupd_wlen|side VS|auto]. cbn [bind].
  rewrite SX; [|assumption|now rewrite ?mupd_wlen|side VS|auto]. cbn [bind].
  rewrite SN; [|assumption|now rewrite ?mupd_wlen|side VS|auto]. cbn [bind].
  clear SX SN VS SP.
  match goal with |- context [Some (true, _, ?x)] => set (m6 := x) end.
  assert (B6 : mbase m6 = B) by (unfold m6; rewrite !mupd_base; exact B5).
  assert (W6 : wlen m6 = wlen m) by (unfold m6; rewrite !mupd_wlen; exact W5).
  assert (V' : forall j, 0 <= j -> word m6 j =
    if j =? spos A' 6 + 1 then 0 else if j =? spos A' 6 then 8 * (2 + 2 * mg)
    else if j =? spos A' 5 + 1 then 0 else if j =? spos A' 5 then 8 * (2 + md)
    else if j =? spos A' 4 + 1 then 0 else if j =? spos A' 4 then 8 * (2 + 3 * mo)
    else if j =? spos A' 3 + 1 then 0 else if j =? spos A' 3 then 8 * (2 + ms)
    else word m5 j).
  { intros j Hj. unfold m6. rewrite !word_mupd; rewrite ?mupd_wlen; try lia; reflexivity. }
  clearbody m6. exists m6. split; [reflexivity|]. split; [|auto].
  assert (Hok : ok A') by now apply empty_ok.
  split.
  - split.
    + exact Hok.
    + split; [exact Hb|]. split; [exact Hal|]. lia.
    + lia.
    + rewrite V', !eqb_false by lia. rewrite V by lia. reflexivity.
    + rewrite V', !eqb_false by lia. rewrite V by lia. reflexivity.
    + rewrite V', !eqb_false by lia. rewrite V by lia. reflexivity.
    + intros id Hid. rewrite V', !eqb_false by (secs Hid; lia).
      rewrite V by (secs Hid; lia). secs Hid; reflexivity.
    + intros id Hid. rewrite V' by (secs Hid; lia).
      secs Hid; rewrite ?eqb_false by lia; rewrite Z.eqb_refl;
        unfold entity_size, smax, empty; cbn [Z.eqb Pos.eqb a_ms a_mo a_md a_mg]; lia.
    + intros id Hid. rewrite V' by (secs Hid; lia).
      secs Hid; rewrite ?eqb_false by lia; rewrite Z.eqb_refl; reflexivity.
  - intros k c Hk. now destruct k.
  - intros k s n t Hk. now destruct k.
  - intros k c Hk. now destruct k.
Qed.
End Init.

Section Clear.
Variables (m : mem) (A : abs).
Hypothesis R : repr (mbase m) m A.
Local Notation B := (mbase m).
Local Notation A' := (empty (a_ms A) (a_mo A) (a_md A) (a_mg A)).

Lemma set_section_num_ok m1 id v : mbase m1 = B -> wlen m1 = wlen m -> secid id ->
  (forall j, 0 <= j < 8 -> word m1 j = word m j) ->
  set_section_num m1 B id v = Some (mupd m1 (spos A id + 1) v).
Proof.
  intros Hb Hw Hid Hs. pose proof (re_h _ _ _ R) as H.
  pose proof (hr_base _ _ _ H) as (P & Q & T). pose proof (hr_len _ _ _ H) as Hlen.
  pose proof (spos_bounds A id (hr_ok _ _ _ H) Hid).
  unfold set_section_num, section_ptr. rewrite eqb_false by lia.
  rewrite (rd_ok m1 _ id) by (secs Hid; lia). cbn [bind].
  rewrite Hs by (secs Hid; lia). rewrite (hr_sec _ _ _ H) by assumption.
  rewrite eqb_false by lia. apply wr_ok; lia.
Qed.

Lemma mb_clear_ok z : exists m', mb_clear m B z = Some m' /\ repr B m' A' /\
  mbase m' = B /\ wlen m' = wlen m.
Proof.
  pose proof (re_h _ _ _ R) as H. pose proof (hr_ok _ _ _ H) as Hok.
  pose proof (ok_bounds A Hok) as (Bc & Bo & Bd & Bg).
  pose proof (layout A Hok) as (L3 & L4 & L5 & L6 & Lt & N3 & N4 & N5 & N6).
  pose proof (hr_base _ _ _ H) as (P & Q & T). pose proof (hr_len _ _ _ H) as Hlen.
  unfold mb_clear. rewrite (B_nz _ _ H), Q. change (0 =? 0) with true. cbn [negb andb].
  unfold SLOTS_ID, OBJECTS_ID, DATAPTRS_ID, GARBAGE_ID.
  rewrite !(section_num_ok _ _ H) by auto. cbn [bind]. rewrite N3, N4, N5, N6.
  assert (exists m1, (if z then
      d <- section_data m B 4 ;;
      m0 <- wrn m d (repeat 0 (Z.to_nat (3 * zlen (a_objs A)))) ;;
      d <- section_data m0 B 6 ;;
      m0 <- wrn m0 d (repeat 0 (Z.to_nat (2 * 0))) ;;
      d <- section_data m0 B 5 ;;
      m0 <- wrn m0 d (repeat 0 (Z.to_nat (zlen (a_dps A)))) ;;
      d <- section_data m0 B 3 ;;
      wrn m0 d (repeat 0 (Z.to_nat (zlen (a_cells A))))
    else Some m) = Some m1 /\ hrepr B m1 A /\ mbase m1 = B /\ wlen m1 = wlen m)
    as (m1 & E1 & H1 & B1 & W1).
  { destruct z; [|exists m; auto].
    assert (Z0 : forall m1 id n, hrepr B m1 A -> mbase m1 = B -> wlen m1 = wlen m -> secid id ->
      0 <= n -> 8 * n <= entity_size id * smax A id ->
      exists m2, wrn m1 (B + 8 * (spos A id + 2)) (repeat 0 (Z.to_nat n)) = Some m2 /\
        hrepr B m2 A /\ mbase m2 = B /\ wlen m2 = wlen m).
    { intros m1 id n Hr Hb Hw Hid Hn Hl. pose proof (spos_bounds A id Hok Hid) as (X1 & X2 & X3 & X4 & X5).
      destruct (wrn_ok (repeat 0 (Z.to_nat n)) m1 (B + 8 * (spos A id + 2)) (spos A id + 2))
        as (m2 & E2 & P2); try lia.
      - rewrite repeat_length. intros _. lia.
      - exists m2. rewrite repeat_length in P2. split; [exact E2|].
        pose proof (mput_base _ _ _ _ _ P2). pose proof (mput_len _ _ _ _ _ P2).
        split; [|split; congruence]. apply (hrepr_frame _ m1); auto. intros j Hj Hh.
        apply (mput_out _ _ _ _ _ _ P2); [assumption|].
        intros C. destruct Hh as [Hh|(id' & Hid' & Hh)]; [lia|].
        secs Hid; secs Hid'; unfold entity_size, smax in *; cbn [Z.eqb Pos.eqb] in *; lia. }
    assert (SD : forall m1 id, hrepr B m1 A -> mbase m1 = B -> secid id ->
      section_data m1 B id = Some (B + 8 * (spos A id + 2))).
    { intros m1 id Hr Hb Hid. rewrite <- Hb in Hr |- *. now apply section_data_ok. }
    rewrite SD by auto. cbn [bind].
    destruct (Z0 m 4 (3 * zlen (a_objs A))) as (m1 & E1 & H1 & B1 & W1); auto; try lia.
    { unfold entity_size, smax; cbn [Z.eqb Pos.eqb]; lia. }
    rewrite E1. cbn [bind]. rewrite SD by auto. cbn [bind].
    destruct (Z0 m1 6 (2 * 0)) as (m2 & E2 & H2 & B2 & W2); auto; try lia.
    { unfold entity_size, smax; cbn [Z.eqb Pos.eqb]; lia. }
    rewrite E2. cbn [bind]. rewrite SD by auto. cbn [bind].
    destruct (Z0 m2 5 (zlen (a_dps A))) as (m3 & E3 & H3 & B3 & W3); auto; try lia.
    { unfold entity_size, smax; cbn [Z.eqb Pos.eqb]; lia. }
    rewrite E3. cbn [bind]. rewrite SD by auto. cbn [bind].
    destruct (Z0 m3 3 (zlen (a_cells A))) as (m4 & E4 & H4 & B4 & W4); auto; try lia.
    { unfold entity_size, smax; cbn [Z.eqb Pos.eqb]; lia. }
    exists m4. auto. }
  rewrite E1. cbn [bind]. clear E1.
  assert (Hs : forall j, 0 <= j < 8 -> j <> 7 -> word m1 j = word m j).
  { intros j Hj Hn. assert (j = 0 \/ j = 1 \/ j = 2 \/ secid j) as [-> | [-> | [-> | Hid]]]
      by (unfold secid; lia).
    - now rewrite (hr_0 _ _ _ H1), (hr_0 _ _ _ H).
    - now rewrite (hr_1 _ _ _ H1), (hr_1 _ _ _ H).
    - now rewrite (hr_2 _ _ _ H1), (hr_2 _ _ _ H).
    - now rewrite (hr_sec _ _ _ H1), (hr_sec _ _ _ H) by assumption. }
  assert (SN : forall m6 id v, mbase m6 = B -> wlen m6 = wlen m -> secid id ->
    (forall j, 0 <= j < 7 -> word m6 j = word m1 j) ->
    set_section_num m6 B id v = Some (mupd m6 (spos A id + 1) v)).
  { intros m6 id v Hb Hw Hid Hs6.
    pose proof (spos_bounds A id (hr_ok _ _ _ H) Hid).
    unfold set_section_num, section_ptr. rewrite eqb_false by lia.
    rewrite (rd_ok m6 _ id) by (secs Hid; lia). cbn [bind].
    rewrite Hs6 by (secs Hid; lia). rewrite (hr_sec _ _ _ H1) by assumption.
    rewrite eqb_false by lia. apply wr_ok; lia. }
  assert (VS : forall m6 i v, (forall j, 0 <= j < 7 -> word m6 j = word m1 j) -> 8 <= i < wlen m6 ->
     forall j, 0 <= j < 7 -> word (mupd m6 i v) j = word m1 j).
  { intros. rewrite word_mupd by lia. rewrite eqb_false by lia. auto. }
  rewrite SN by auto. cbn [bind].
  rewrite SN; [|assumption|now rewrite ?mupd_wlen|auto|side VS]. cbn [bind].
  rewrite SN; [|assumption|now rewrite ?mupd_wlen|auto|side VS]. cbn [bind].
  rewrite SN; [|assumption|now rewrite ?mupd_wlen|auto|side VS].
  clear SN VS.
  eexists. split; [reflexivity|].
  match goal with |- repr B ?x _ /\ _ => set (m6 := x) end.
  assert (B6 : mbase m6 = B) by (unfold m6; rewrite !mupd_base; exact B1).
  assert (W6 : wlen m6 = wlen m) by (unfold m6; rewrite !mupd_wlen; exact W1).
  assert (V' : forall j, 0 <= j -> word m6 j =
    if j =? spos A 6 + 1 then 0 else if j =? spos A 5 + 1 then 0
    else if j =? spos A 4 + 1 then 0 else if j =? spos A 3 + 1 then 0 else word m1 j).
  { intros j Hj. unfold m6. rewrite !word_mupd; rewrite ?mupd_wlen; try lia; reflexivity. }
  clearbody m6. split; [|auto].
  assert (SP : forall id, spos A' id = spos A id) by reflexivity.
  assert (ST : tot A' = tot A) by reflexivity.
  split.
  - split.
    + apply empty_ok; lia.
    + split; [exact P|]. split; [exact Q|]. lia.
    + lia.
    + rewrite V', !eqb_false by lia. apply (hr_0 _ _ _ H1).
    + rewrite V', !eqb_false by lia. rewrite ST. apply (hr_1 _ _ _ H1).
    + rewrite V', !eqb_false by lia. apply (hr_2 _ _ _ H1).
    + intros id Hid. rewrite V', !eqb_false by (secs Hid; lia). now apply (hr_sec _ _ _ H1).
    + intros id Hid. rewrite SP, V', !eqb_false by (secs Hid; lia). now apply (hr_max _ _ _ H1).
    + intros id Hid. rewrite SP, V' by (secs Hid; lia).
      secs Hid; rewrite ?eqb_false by lia; rewrite Z.eqb_refl; reflexivity.
  - intros k c Hk. now destruct k.
  - intros k s n t Hk. now destruct k.
  - intros k c Hk. now destruct k.
Qed.
End Clear.
