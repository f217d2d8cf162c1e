(* Changing the maxima of the sections, setting up and clearing a block. *)
From Coq Require Import ZArith List Bool Lia.
From Verif Require Import MBuf MBufSpec MBufMem MBufAbs MBufRemap.
Import ListNotations.
Local Open Scope Z_scope.

(* the same contents with other maxima *)
Definition resize (A : abs) (ms mo md mg : Z) : abs :=
  Abs ms mo md mg (a_cells A) (a_objs A) (a_dps A).

Definition fits (A : abs) (ms mo md mg : Z) : Prop :=
  zlen (a_cells A) <= ms /\ zlen (a_objs A) <= mo /\ zlen (a_dps A) <= md /\ 0 <= mg.

Lemma resize_ok A ms mo md mg : ok A -> fits A ms mo md mg -> ok (resize A ms mo md mg).
Proof. intros [] (?&?&?&?). split; cbn [resize a_ms a_mo a_md a_mg a_cells a_objs a_dps]; auto. Qed.

Lemma resize_content A ms mo md mg : acontent (resize A ms mo md mg) = acontent A.
Proof. reflexivity. Qed.

Lemma resize_same A : resize A (a_ms A) (a_mo A) (a_md A) (a_mg A) = A.
Proof. now destruct A. Qed.

Lemma mput_in m m' i f n j : mput m m' i f n -> 0 <= j -> i <= j < i + n -> word m' j = f (j - i).
Proof.
  intros (_ & _ & H) Hj Hi. rewrite H by assumption.
  now rewrite leb_true, ltb_true by lia.
Qed.
Lemma mput_out m m' i f n j : mput m m' i f n -> 0 <= j -> ~ (i <= j < i + n) -> word m' j = word m j.
Proof.
  intros (_ & _ & H) Hj Hi. rewrite H by assumption.
  destruct (Z.leb_spec i j), (Z.ltb_spec j (i + n)); cbn [andb]; auto; lia.
Qed.
Lemma mput_base m m' i f n : mput m m' i f n -> mbase m' = mbase m.
Proof. now intros (? & _). Qed.
Lemma mput_len m m' i f n : mput m m' i f n -> wlen m' = wlen m.
Proof. now intros (_ & ? & _). Qed.

(* one section moves from word c to word n; z words are in use, x words are reserved *)
Lemma move_section_ok m c z n x pe :
  0 <= c -> 0 <= n -> 2 <= z -> z <= x -> c + z <= wlen m -> n + x <= wlen m ->
  (n < c -> pe <= 8 * n) ->
  exists m', move_section m (mbase m) (8 * c) (8 * z) (8 * n) (8 * x) pe = Some (true, m') /\
    (forall k, 0 <= k < z -> word m' (n + k) = word m (c + k)) /\
    frame m m' (fun j => if n <? c then n <= j < n + z else c <= j < n + x /\ n <> c).
Proof.
  intros Hc Hn Hz Hx Hlc Hln Hpe. unfold move_section.
  destruct (Z.eqb_spec (8 * n) (8 * c)) as [E|E].
  { assert (n = c) by lia. subst n. exists m. split; [reflexivity|]. split; [auto|].
    split; [reflexivity|]. split; [reflexivity|]. reflexivity. }
  destruct (Z.ltb_spec (8 * c) (8 * n)) as [L|L].
  - destruct (move_ok m (mbase m + 8 * n) (mbase m + 8 * c) n c (8 * z) z) as (m1 & E1 & P1);
      try lia.
    rewrite E1. cbn [bind].
    pose proof (mput_base _ _ _ _ _ P1) as B1. pose proof (mput_len _ _ _ _ _ P1) as W1.
    set (f := if 8 * z <? 8 * n - 8 * c then z else n - c).
    assert (Hf : 0 <= f <= n - c /\ f <= z).
    { unfold f. destruct (Z.ltb_spec (8 * z) (8 * n - 8 * c)); lia. }
    replace (if 8 * z <? 8 * n - 8 * c then 8 * z else 8 * n - 8 * c) with (8 * f)
      by (unfold f; destruct (8 * z <? 8 * n - 8 * c); lia).
    clearbody f.
    destruct (set_zero_ok m1 (mbase m + 8 * c) c (8 * f) f) as (m2 & E2 & P2); try lia.
    rewrite E2. cbn [bind].
    pose proof (mput_base _ _ _ _ _ P2) as B2. pose proof (mput_len _ _ _ _ _ P2) as W2.
    assert (exists m3, (if 8 * z <? 8 * x
      then set_zero m2 (mbase m + 8 * n + 8 * z) (8 * x - 8 * z) else Some m2) = Some m3 /\
      mput m2 m3 (n + z) (fun _ => 0) (x - z)) as (m3 & E3 & P3).
    { destruct (Z.ltb_spec (8 * z) (8 * x)).
      - apply set_zero_ok; lia.
      - exists m2. split; [reflexivity|]. replace (x - z) with 0 by lia. apply mput_0. }
    rewrite E3. cbn [bind].
    pose proof (mput_base _ _ _ _ _ P3) as B3. pose proof (mput_len _ _ _ _ _ P3) as W3.
    exists m3. split; [reflexivity|]. split; [|split; [congruence|split; [congruence|]]].
    + intros k Hk. rewrite (mput_out _ _ _ _ _ _ P3) by lia.
      rewrite (mput_out _ _ _ _ _ _ P2) by lia.
      rewrite (mput_in _ _ _ _ _ _ P1) by lia. f_equal. lia.
    + intros j Hj HP. rewrite ltb_false in HP by lia.
      rewrite (mput_out _ _ _ _ _ _ P3) by lia.
      rewrite (mput_out _ _ _ _ _ _ P2) by lia.
      now rewrite (mput_out _ _ _ _ _ _ P1) by lia.
  - rewrite leb_true by (apply Hpe; lia).
    destruct (move_ok m (mbase m + 8 * n) (mbase m + 8 * c) n c (8 * z) z) as (m1 & E1 & P1);
      try lia.
    rewrite E1. cbn [bind]. exists m1. split; [reflexivity|].
    split; [|split; [apply (mput_base _ _ _ _ _ P1)|split; [apply (mput_len _ _ _ _ _ P1)|]]].
    + intros k Hk. rewrite (mput_in _ _ _ _ _ _ P1) by lia. f_equal. lia.
    + intros j Hj HP. rewrite ltb_true in HP by lia. now rewrite (mput_out _ _ _ _ _ _ P1) by lia.
Qed.

Lemma move_section_stuck m c z n x pe : n < c -> 8 * n < pe ->
  move_section m (mbase m) (8 * c) (8 * z) (8 * n) (8 * x) pe = Some (false, m).
Proof.
  intros. unfold move_section. rewrite eqb_false, ltb_false, leb_false by lia. reflexivity.
Qed.

Lemma calc_section_size_ok id n : secid id -> 0 <= n -> 16 + entity_size id * n < 2 ^ 64 ->
  calc_section_size id n = 16 + entity_size id * n.
Proof.
  intros Hid Hn Hl. pose proof (entity_pos id Hid). unfold calc_section_size, SECTION_HEADER.
  rewrite (u64_id (n * entity_size id)) by nia. rewrite u64_id by nia. lia.
Qed.

(* number of words in use in section id *)
Definition zuse (A : abs) (id : Z) : Z := 2 + entity_size id / 8 * snum A id.

Section Reserve.
Variables (m : mem) (A : abs) (ms mo md mg maxlen : Z).
Hypothesis R : repr (mbase m) m A.
Local Notation B := (mbase m).
Hypothesis Hcap : maxlen <= 8 * wlen m.
Hypothesis Htop : B + maxlen < 2 ^ 64.
(* the requested length does not wrap around *)
Hypothesis Hms : 0 <= ms. Hypothesis Hmo : 0 <= mo. Hypothesis Hmd : 0 <= md.
Hypothesis Hmg : 0 <= mg.
Local Notation A' := (resize A ms mo md mg).
Hypothesis Hov : 8 * tot A' < 2 ^ 64.

(* each section can be moved on its own: it grows or what is in use before it leaves room *)
Definition movable : Prop :=
  forall id, secid id -> id <> 3 -> spos A' id < spos A id ->
    spos A (id - 1) + zuse A (id - 1) <= spos A' id.

Lemma spos' : spos A' 3 = 8 /\ spos A' 4 = 10 + ms /\ spos A' 5 = 12 + ms + 3 * mo /\
  spos A' 6 = 14 + ms + 3 * mo + md /\ tot A' = 16 + ms + 3 * mo + md + 2 * mg.
Proof. unfold spos, tot, resize; cbn [Z.eqb Pos.eqb a_ms a_mo a_md a_mg]. lia. Qed.

Lemma zuse_eq : zuse A 3 = 2 + zlen (a_cells A) /\ zuse A 4 = 2 + 3 * zlen (a_objs A) /\
  zuse A 5 = 2 + zlen (a_dps A) /\ zuse A 6 = 2.
Proof.
  unfold zuse, snum, entity_size; cbn [Z.eqb Pos.eqb].
  change (8 / 8) with 1. change (24 / 8) with 3. change (16 / 8) with 2. lia.
Qed.

Definition same_max : Prop := mo = a_mo A /\ ms = a_ms A /\ md = a_md A /\ mg = a_mg A.

Lemma mb_reserve_ok : fits A ms mo md mg -> 8 * tot A <= maxlen -> 8 * tot A' <= maxlen ->
  movable ->
  exists m', mb_reserve m B mo ms md mg maxlen = Some (true, Some (8 * tot A'), m') /\
    repr B m' A' /\ mbase m' = B /\ wlen m' = wlen m /\
    (forall j, tot A <= j -> tot A' <= j -> word m' j = word m j).
Proof.
  intros Hfit Hcur Hnew Hmov. pose proof (re_h _ _ _ R) as H. pose proof (hr_ok _ _ _ H) as Hok.
  pose proof (ok_bounds A Hok) as (Bc & Bo & Bd & Bg).
  pose proof (layout A Hok) as (L3 & L4 & L5 & L6 & Lt & N3 & N4 & N5 & N6).
  pose proof spos' as (S3 & S4 & S5 & S6 & St). pose proof zuse_eq as (U3 & U4 & U5 & U6).
  pose proof (hr_base _ _ _ H) as (P & Q & T). pose proof (hr_len _ _ _ H) as Hlen.
  destruct Hfit as (F1 & F2 & F3 & F4).
  unfold mb_reserve, SLOTS_ID, OBJECTS_ID, DATAPTRS_ID, GARBAGE_ID.
  rewrite !(section_max_num_ok _ _ H), !(section_num_ok _ _ H), (buffer_length_ok _ _ H),
    (header_length_ok _ _ H) by auto. cbn [bind].
  rewrite N3, N4, N5, N6. rewrite (B_nz _ _ H). rewrite ltb_true, !leb_true by lia.
  cbn [negb andb].
  assert (X : forall id, secid id -> smax A id = if id =? 3 then a_ms A else if id =? 4 then a_mo A
    else if id =? 5 then a_md A else a_mg A) by reflexivity.
  rewrite !X by auto. cbn [Z.eqb Pos.eqb]. clear X.
  destruct (negb (mo =? a_mo A) || negb (ms =? a_ms A) || negb (md =? a_md A) ||
            negb (mg =? a_mg A)) eqn:Esame.
  2:{ apply orb_false_elim in Esame as (Esame & E4). apply orb_false_elim in Esame as (Esame & E3).
      apply orb_false_elim in Esame as (E1 & E2). apply negb_false_iff in E1, E2, E3, E4.
      apply Z.eqb_eq in E1, E2, E3, E4.
      assert (EA : A' = A) by (rewrite E1, E2, E3, E4; apply resize_same). rewrite EA.
      exists m. split; [reflexivity|]. auto. }
  clear Esame.
  rewrite !calc_section_size_ok
    by (auto; try lia; unfold entity_size; cbn [Z.eqb Pos.eqb]; lia).
  unfold entity_size. cbn [Z.eqb Pos.eqb].
  rewrite (u64_id (64 + _)) by lia. rewrite (u64_id (_ + (16 + 24 * mo))) by lia.
  rewrite (u64_id (_ + (16 + 8 * md))) by lia. rewrite (u64_id (_ + (16 + 16 * mg))) by lia.
  replace (64 + (16 + 8 * ms) + (16 + 24 * mo) + (16 + 8 * md) + (16 + 16 * mg)) with (8 * tot A')
    by lia.
  rewrite leb_true by lia.
  rewrite !(section_offset_ok _ _ H), !(section_size_ok _ _ H) by auto. cbn [bind].
  unfold entity_size. cbn [Z.eqb Pos.eqb]. rewrite N3, N4, N5, N6, L3.
  rewrite !(u64_id (8 * spos A _ + _)) by lia. rewrite (u64_id (8 * 8 + _)) by lia.
  rewrite ?(u64_id (64 + (16 + 8 * ms))) by lia.
  rewrite ?(u64_id (64 + (16 + 8 * ms) + (16 + 24 * mo))) by lia.
  rewrite ?(u64_id (64 + (16 + 8 * ms) + (16 + 24 * mo) + (16 + 8 * md))) by lia.
  replace (64 + (16 + 8 * ms) + (16 + 24 * mo) + (16 + 8 * md)) with (8 * spos A' 6) by lia.
  replace (64 + (16 + 8 * ms) + (16 + 24 * mo)) with (8 * spos A' 5) by lia.
  replace (64 + (16 + 8 * ms)) with (8 * spos A' 4) by lia.
  replace (16 + 16 * 0) with (8 * 2) by lia.
  replace (16 + 16 * mg) with (8 * (2 + 2 * mg)) by lia.
  replace (16 + 8 * zlen (a_dps A)) with (8 * zuse A 5) by lia.
  replace (16 + 8 * md) with (8 * (2 + md)) by lia.
  replace (16 + 24 * zlen (a_objs A)) with (8 * zuse A 4) by lia.
  replace (16 + 24 * mo) with (8 * (2 + 3 * mo)) by lia.
  replace (16 + 8 * zlen (a_cells A)) with (8 * zuse A 3) by lia.
  replace (16 + 8 * ms) with (8 * (2 + ms)) by lia.
  pose proof (Hmov 4 secid4 ltac:(lia)) as M4. pose proof (Hmov 5 secid5 ltac:(lia)) as M5.
  pose proof (Hmov 6 secid6 ltac:(lia)) as M6. cbn [Z.sub Z.add Z.opp Z.pos_sub Pos.pred_double] in M4, M5, M6.
  change (4 - 1) with 3 in *. change (5 - 1) with 4 in *. change (6 - 1) with 5 in *.
  destruct (move_section_ok m (spos A 6) 2 (spos A' 6) (2 + 2 * mg) (8 * spos A 5 + 8 * zuse A 5))
    as (m1 & E1 & G1 & (B1 & W1 & O1)); try lia.
  rewrite E1. cbn [bind andb]. clear E1. rewrite <- B1.
  destruct (move_section_ok m1 (spos A 5) (zuse A 5) (spos A' 5) (2 + md)
    (8 * spos A 4 + 8 * zuse A 4)) as (m2 & E2 & G2 & (B2 & W2 & O2)); try lia.
  rewrite E2. cbn [bind andb]. clear E2. rewrite <- B2.
  destruct (move_section_ok m2 (spos A 4) (zuse A 4) (spos A' 4) (2 + 3 * mo)
    (8 * 8 + 8 * zuse A 3)) as (m3 & E3 & G3 & (B3 & W3 & O3)); try lia.
  rewrite E3. cbn [bind andb]. clear E3. rewrite <- B3.
  replace (match 8 * 8 with Z.pos q => (64 =? q)%positive | _ => false end) with true by reflexivity.
  cbn [andb].
  assert (exists m4, (if 8 * zuse A 3 <? 8 * (2 + ms)
    then set_zero m3 (mbase m3 + 64 + 8 * zuse A 3) (8 * (2 + ms) - 8 * zuse A 3)
    else Some m3) = Some m4 /\ mput m3 m4 (8 + zuse A 3) (fun _ => 0) (2 + ms - zuse A 3))
    as (m4 & E4 & P4).
  { destruct (Z.ltb_spec (8 * zuse A 3) (8 * (2 + ms))).
    - apply set_zero_ok; lia.
    - exists m3. split; [reflexivity|]. replace (2 + ms - zuse A 3) with 0 by lia. apply mput_0. }
  rewrite E4. cbn [bind]. clear E4.
  pose proof (mput_base _ _ _ _ _ P4) as B4. pose proof (mput_len _ _ _ _ _ P4) as W4.
  rewrite <- B4.
  (* what the moves leave: header words, cells, and the three moved sections *)
  assert (V0 : forall j, 0 <= j < 8 + zuse A 3 -> word m4 j = word m j).
  { intros j Hj. rewrite (mput_out _ _ _ _ _ _ P4) by lia.
    rewrite O3, O2, O1; try lia; auto;
      [destruct (Z.ltb_spec (spos A' 6) (spos A 6)); lia
      |destruct (Z.ltb_spec (spos A' 5) (spos A 5)); lia
      |destruct (Z.ltb_spec (spos A' 4) (spos A 4)); lia]. }
  assert (V4 : forall k, 0 <= k < zuse A 4 -> word m4 (spos A' 4 + k) = word m (spos A 4 + k)).
  { intros k Hk. rewrite (mput_out _ _ _ _ _ _ P4) by lia. rewrite G3 by assumption.
    rewrite O2, O1; try lia; auto;
      [destruct (Z.ltb_spec (spos A' 6) (spos A 6)); lia
      |destruct (Z.ltb_spec (spos A' 5) (spos A 5)); lia]. }
  assert (V5 : forall k, 0 <= k < zuse A 5 -> word m4 (spos A' 5 + k) = word m (spos A 5 + k)).
  { intros k Hk. rewrite (mput_out _ _ _ _ _ _ P4) by lia. 
    rewrite O3; [|lia|destruct (Z.ltb_spec (spos A' 4) (spos A 4)); lia].
    rewrite G2 by assumption.
    rewrite O1; try lia; auto. destruct (Z.ltb_spec (spos A' 6) (spos A 6)); lia. }
  assert (V6 : forall k, 0 <= k < 2 -> word m4 (spos A' 6 + k) = word m (spos A 6 + k)).
  { intros k Hk. rewrite (mput_out _ _ _ _ _ _ P4) by lia. 
    rewrite O3; [|lia|destruct (Z.ltb_spec (spos A' 4) (spos A 4)); lia].
    rewrite O2; [|lia|destruct (Z.ltb_spec (spos A' 5) (spos A 5)); lia].
    now rewrite G1 by assumption. }
  assert (VF : forall j, tot A <= j -> tot A' <= j -> word m4 j = word m j).
  { intros j Hj Hj'. rewrite (mput_out _ _ _ _ _ _ P4) by lia.
    rewrite O3, O2, O1; try lia; auto;
      [destruct (Z.ltb_spec (spos A' 6) (spos A 6)); lia
      |destruct (Z.ltb_spec (spos A' 5) (spos A 5)); lia
      |destruct (Z.ltb_spec (spos A' 4) (spos A 4)); lia]. }
  assert (B4m : mbase m4 = B) by congruence. assert (W4m : wlen m4 = wlen m) by congruence.
  clear G1 G2 G3 O1 O2 O3 P4. clear B1 B2 B3 B4 W1 W2 W3 W4. clear m1 m2 m3.
  rewrite B4m.
  (* the header *)
  replace (B + 64) with (B + 8 * spos A' 3) by lia.
  repeat match goal with
  | |- context [wr ?m (B + 8 * ?i) ?v] =>
      rewrite (wr_ok m (B + 8 * i) i v) by (rewrite ?mupd_base, ?mupd_wlen; lia);
      cbn [bind]
  end.
  match goal with |- context [set_section_max_size ?x] => set (m5 := x) end.
  assert (B5 : mbase m5 = B) by (unfold m5; rewrite !mupd_base; exact B4m).
  assert (W5 : wlen m5 = wlen m) by (unfold m5; rewrite !mupd_wlen; exact W4m).
  assert (V : forall j, 0 <= j -> word m5 j =
    if j =? 6 then B + 8 * spos A' 6 else if j =? 5 then B + 8 * spos A' 5
    else if j =? 4 then B + 8 * spos A' 4 else if j =? 3 then B + 8 * spos A' 3
    else if j =? 1 then 8 * tot A' else word m4 j).
  { intros j Hj. unfold m5. rewrite !word_mupd; rewrite ?mupd_wlen; try lia; reflexivity. }
  clearbody m5.
  assert (SP : forall m6 id v, mbase m6 = B -> wlen m6 = wlen m ->
    (forall j, 0 <= j < 8 -> word m6 j = word m5 j) -> secid id ->
    set_section_max_size m6 (B) id v = Some (mupd m6 (spos A' id) v)).
  { intros m6 id v Hb Hw Hs Hid. unfold set_section_max_size, section_ptr.
    rewrite eqb_false by lia.
    rewrite (rd_ok m6 _ id) by (secs Hid; lia). cbn [bind].
    rewrite Hs by (secs Hid; lia).
    assert (word m5 id = B + 8 * spos A' id) as -> by (rewrite V by (secs Hid; lia); secs Hid; reflexivity).
    assert (8 <= spos A' id < tot A') by (secs Hid; lia).
    rewrite eqb_false by lia. apply wr_ok; lia. }
  assert (VS : forall m6 i v, (forall j, 0 <= j < 8 -> word m6 j = word m5 j) -> 8 <= i < wlen m6 ->
     forall j, 0 <= j < 8 -> word (mupd m6 i v) j = word m5 j).
  { intros. rewrite word_mupd by lia. rewrite eqb_false by lia. auto. }
  rewrite SP by (auto; lia). cbn [bind].
  rewrite SP; [|assumption|now rewrite mupd_wlen|apply VS; [auto|lia]|auto]. cbn [bind].
  rewrite SP; [|assumption|now rewrite !mupd_wlen|
    apply VS; [apply VS; [auto|lia]|rewrite ?mupd_wlen; lia]|auto]. cbn [bind].
  rewrite SP; [|assumption|now rewrite !mupd_wlen|
    apply VS; [apply VS; [apply VS; [auto|lia]|rewrite ?mupd_wlen; lia]|rewrite ?mupd_wlen; lia]|auto].
  cbn [bind]. clear SP VS.
  match goal with |- context [Some (true, _, ?x)] => set (m6 := x) end.
  assert (B6 : mbase m6 = B) by (unfold m6; rewrite !mupd_base; exact B5).
  assert (W6 : wlen m6 = wlen m) by (unfold m6; rewrite !mupd_wlen; exact W5).
  assert (V' : forall j, 0 <= j -> word m6 j =
    if j =? spos A' 6 then 8 * (2 + 2 * mg) else if j =? spos A' 5 then 8 * (2 + md)
    else if j =? spos A' 4 then 8 * (2 + 3 * mo) else if j =? spos A' 3 then 8 * (2 + ms)
    else word m5 j).
  { intros j Hj. unfold m6. rewrite !word_mupd; rewrite ?mupd_wlen; try lia; reflexivity. }
  clearbody m6. exists m6. split; [reflexivity|]. split; [|split; [exact B6|split; [exact W6|]]].
  2:{ intros j Hj Hj'. rewrite V', V, !eqb_false by lia. now apply VF. }
  split.
  - split.
    + apply resize_ok; [assumption|]. unfold fits. auto.
    + split; [exact P|]. split; [exact Q|]. lia.
    + lia.
    + rewrite V', V, !eqb_false by lia. rewrite V0 by lia. apply (hr_0 _ _ _ H).
    + rewrite V', !eqb_false by lia. rewrite V by lia. reflexivity.
    + rewrite V', V, !eqb_false by lia. rewrite V0 by lia. apply (hr_2 _ _ _ H).
    + intros id Hid. rewrite V', !eqb_false by (secs Hid; lia).
      rewrite V by (secs Hid; lia). secs Hid; reflexivity.
    + intros id Hid. rewrite V' by (secs Hid; lia).
      secs Hid; rewrite ?eqb_false by lia; rewrite Z.eqb_refl;
        unfold entity_size, smax, resize; cbn [Z.eqb Pos.eqb a_ms a_mo a_md a_mg]; lia.
    + intros id Hid. rewrite V', V, !eqb_false by (secs Hid; lia).
      change (snum A' id) with (snum A id). rewrite <- (hr_num _ _ _ H id Hid).
      secs Hid; [rewrite V0 by lia; rewrite S3, L3; reflexivity|apply V4; lia|apply V5; lia|apply V6; lia].
  - intros k c Hk. cbn [resize a_cells] in Hk.
    assert (k < length (a_cells A))%nat by (apply nth_error_Some; congruence).
    unfold zlen in *. rewrite V', V, !eqb_false by lia. rewrite V0 by lia. now apply (re_cell _ _ _ R).
  - intros i s n t Hi. cbn [resize a_objs] in Hi.
    assert (i < length (a_objs A))%nat by (apply nth_error_Some; congruence).
    unfold zlen in *. destruct (re_obj _ _ _ R i s n t Hi) as (X & Y & Z1).
    rewrite !V', !V, !eqb_false by lia.
    replace (spos A' 4 + 2 + 3 * Z.of_nat i + 1) with (spos A' 4 + (2 + 3 * Z.of_nat i + 1)) by lia.
    replace (spos A' 4 + 2 + 3 * Z.of_nat i + 2) with (spos A' 4 + (2 + 3 * Z.of_nat i + 2)) by lia.
    replace (spos A' 4 + 2 + 3 * Z.of_nat i) with (spos A' 4 + (2 + 3 * Z.of_nat i)) by lia.
    rewrite !V4 by lia. rewrite !Z.add_assoc. auto.
  - intros j k Hj. cbn [resize a_dps] in Hj.
    assert (j < length (a_dps A))%nat by (apply nth_error_Some; congruence).
    unfold zlen in *. rewrite V', V, !eqb_false by lia.
    replace (spos A' 5 + 2 + Z.of_nat j) with (spos A' 5 + (2 + Z.of_nat j)) by lia.
    rewrite V5 by lia. rewrite Z.add_assoc. now apply (re_dp _ _ _ R).
Qed.
(* it fails in all other cases *)
Lemma mb_reserve_fail :
  ~ (fits A ms mo md mg /\ 8 * tot A <= maxlen /\ 8 * tot A' <= maxlen /\ movable) ->
  exists l m', mb_reserve m B mo ms md mg maxlen = Some (false, l, m') /\
    frame m m' (fun j => spos A 5 + zuse A 5 <= j).
Proof.
  intros Hno. pose proof (re_h _ _ _ R) as H. pose proof (hr_ok _ _ _ H) as Hok.
  pose proof (ok_bounds A Hok) as (Bc & Bo & Bd & Bg).
  pose proof (layout A Hok) as (L3 & L4 & L5 & L6 & Lt & N3 & N4 & N5 & N6).
  pose proof spos' as (S3 & S4 & S5 & S6 & St). pose proof zuse_eq as (U3 & U4 & U5 & U6).
  pose proof (hr_base _ _ _ H) as (P & Q & T). pose proof (hr_len _ _ _ H) as Hlen.
  assert (FR : frame m m (fun j => spos A 5 + zuse A 5 <= j))
    by (split; [reflexivity|]; split; [reflexivity|]; reflexivity).
  unfold mb_reserve, SLOTS_ID, OBJECTS_ID, DATAPTRS_ID, GARBAGE_ID.
  rewrite !(section_max_num_ok _ _ H), !(section_num_ok _ _ H), (buffer_length_ok _ _ H),
    (header_length_ok _ _ H) by auto. cbn [bind].
  rewrite N3, N4, N5, N6. rewrite (B_nz _ _ H). cbn [negb andb].
  destruct (Z.ltb_spec 0 (8 * tot A)); [|lia].
  destruct (Z.leb_spec (8 * tot A) maxlen) as [C1|C1]; cbn [andb]; [|eauto].
  destruct (Z.leb_spec (zlen (a_objs A)) mo) as [C2|C2]; cbn [andb]; [|eauto].
  destruct (Z.leb_spec (zlen (a_cells A)) ms) as [C3|C3]; cbn [andb]; [|eauto].
  destruct (Z.leb_spec (zlen (a_dps A)) md) as [C4|C4]; cbn [andb]; [|eauto].
  destruct (Z.leb_spec 0 mg) as [C5|C5]; cbn [andb]; [|eauto].
  assert (X : forall id, secid id -> smax A id = if id =? 3 then a_ms A else if id =? 4 then a_mo A
    else if id =? 5 then a_md A else a_mg A) by reflexivity.
  rewrite !X by auto. cbn [Z.eqb Pos.eqb]. clear X.
  destruct (negb (mo =? a_mo A) || negb (ms =? a_ms A) || negb (md =? a_md A) ||
            negb (mg =? a_mg A)) eqn:Esame.
  2:{ exfalso. apply orb_false_elim in Esame as (Esame & E4). apply orb_false_elim in Esame as (Esame & E3).
      apply orb_false_elim in Esame as (E1 & E2). apply negb_false_iff in E1, E2, E3, E4.
      apply Z.eqb_eq in E1, E2, E3, E4. apply Hno. split; [split; auto|]. split; [assumption|].
      split; [lia|]. intros id Hid _ Hlt. secs Hid; lia. }
  clear Esame.
  rewrite !calc_section_size_ok
    by (auto; try lia; unfold entity_size; cbn [Z.eqb Pos.eqb]; lia).
  unfold entity_size. cbn [Z.eqb Pos.eqb].
  rewrite (u64_id (64 + _)) by lia. rewrite (u64_id (_ + (16 + 24 * mo))) by lia.
  rewrite (u64_id (_ + (16 + 8 * md))) by lia. rewrite (u64_id (_ + (16 + 16 * mg))) by lia.
  replace (64 + (16 + 8 * ms) + (16 + 24 * mo) + (16 + 8 * md) + (16 + 16 * mg)) with (8 * tot A')
    by lia.
  destruct (Z.leb_spec (8 * tot A') maxlen) as [C6|C6]; [|eauto].
  rewrite !(section_offset_ok _ _ H), !(section_size_ok _ _ H) by auto. cbn [bind].
  unfold entity_size. cbn [Z.eqb Pos.eqb]. rewrite N3, N4, N5, N6, L3.
  rewrite !(u64_id (8 * spos A _ + _)) by lia. rewrite (u64_id (8 * 8 + _)) by lia.
  rewrite ?(u64_id (64 + (16 + 8 * ms))) by lia.
  rewrite ?(u64_id (64 + (16 + 8 * ms) + (16 + 24 * mo))) by lia.
  rewrite ?(u64_id (64 + (16 + 8 * ms) + (16 + 24 * mo) + (16 + 8 * md))) by lia.
  replace (64 + (16 + 8 * ms) + (16 + 24 * mo) + (16 + 8 * md)) with (8 * spos A' 6) by lia.
  replace (64 + (16 + 8 * ms) + (16 + 24 * mo)) with (8 * spos A' 5) by lia.
  replace (64 + (16 + 8 * ms)) with (8 * spos A' 4) by lia.
  replace (16 + 16 * 0) with (8 * 2) by lia.
  replace (16 + 16 * mg) with (8 * (2 + 2 * mg)) by lia.
  replace (16 + 8 * zlen (a_dps A)) with (8 * zuse A 5) by lia.
  replace (16 + 8 * md) with (8 * (2 + md)) by lia.
  replace (16 + 24 * zlen (a_objs A)) with (8 * zuse A 4) by lia.
  replace (16 + 24 * mo) with (8 * (2 + 3 * mo)) by lia.
  replace (16 + 8 * zlen (a_cells A)) with (8 * zuse A 3) by lia.
  replace (16 + 8 * ms) with (8 * (2 + ms)) by lia.
  assert (D : forall id, secid id -> id <> 3 ->
    spos A (id - 1) + zuse A (id - 1) <= spos A' id \/ ~ (spos A' id < spos A id) \/
    spos A' id < spos A id /\ spos A' id < spos A (id - 1) + zuse A (id - 1)).
  { intros. lia. }
  pose proof (D 4 secid4 ltac:(lia)) as M4. pose proof (D 5 secid5 ltac:(lia)) as M5.
  pose proof (D 6 secid6 ltac:(lia)) as M6. clear D.
  change (4 - 1) with 3 in *. change (5 - 1) with 4 in *. change (6 - 1) with 5 in *.
  destruct (Z_lt_dec (spos A' 6) (spos A 6)) as [D6|D6];
    [destruct (Z_lt_dec (spos A' 6) (spos A 5 + zuse A 5)) as [D6'|D6']|].
  1:{ rewrite move_section_stuck by lia. cbn [bind andb]. rewrite andb_false_r. eauto. }
  all: destruct (move_section_ok m (spos A 6) 2 (spos A' 6) (2 + 2 * mg)
         (8 * spos A 5 + 8 * zuse A 5)) as (m1 & E1 & G1 & (B1 & W1 & O1)); try lia;
    rewrite E1; cbn [bind andb]; clear E1; rewrite <- B1;
    (destruct (Z_lt_dec (spos A' 5) (spos A 5)) as [D5|D5];
     [destruct (Z_lt_dec (spos A' 5) (spos A 4 + zuse A 4)) as [D5'|D5']|];
     [rewrite move_section_stuck by lia; cbn [bind andb]; rewrite ?andb_false_r; cbn [andb];
      eexists _, m1; split; [reflexivity|]; split; [assumption|]; split; [assumption|];
      intros j Hj Hn; apply O1; [assumption|]; rewrite ?ltb_true, ?ltb_false by lia; lia| |]);
    destruct (move_section_ok m1 (spos A 5) (zuse A 5) (spos A' 5) (2 + md)
      (8 * spos A 4 + 8 * zuse A 4)) as (m2 & E2 & G2 & (B2 & W2 & O2)); try lia;
    rewrite E2; cbn [bind andb]; clear E2; rewrite <- B2;
    (destruct (Z_lt_dec (spos A' 4) (spos A 4)) as [D4|D4];
     [destruct (Z_lt_dec (spos A' 4) (8 + zuse A 3)) as [D4'|D4']|];
     [exfalso; lia| |]);
    exfalso; apply Hno;
    (split; [split; auto|]; split; [assumption|]; split; [assumption|]);
    intros id Hid Hn3 Hlt; secs Hid;
      change (4 - 1) with 3 in *; change (5 - 1) with 4 in *; change (6 - 1) with 5 in *; lia.
Qed.

Lemma mb_reserve_dec :
  {fits A ms mo md mg /\ 8 * tot A <= maxlen /\ 8 * tot A' <= maxlen /\ movable} +
    {~ (fits A ms mo md mg /\ 8 * tot A <= maxlen /\ 8 * tot A' <= maxlen /\ movable)}.
Proof.
  assert (DM : {movable} + {~ movable}).
    { destruct (Z_lt_dec (spos A' 4) (spos A 4)) as [X4|X4],
        (Z_le_dec (spos A 3 + zuse A 3) (spos A' 4)) as [Y4|Y4],
        (Z_lt_dec (spos A' 5) (spos A 5)) as [X5|X5],
        (Z_le_dec (spos A 4 + zuse A 4) (spos A' 5)) as [Y5|Y5],
        (Z_lt_dec (spos A' 6) (spos A 6)) as [X6|X6],
        (Z_le_dec (spos A 5 + zuse A 5) (spos A' 6)) as [Y6|Y6];
      first [ left; intros id Hid Hn3 Hlt; secs Hid;
        change (4 - 1) with 3 in *; change (5 - 1) with 4 in *; change (6 - 1) with 5 in *; lia
      | right; intros C;
        pose proof (C 4 secid4 ltac:(lia)); pose proof (C 5 secid5 ltac:(lia));
        pose proof (C 6 secid6 ltac:(lia)); 
        change (4 - 1) with 3 in *; change (5 - 1) with 4 in *; change (6 - 1) with 5 in *; lia ]. }
    destruct DM; [|right; tauto].
    unfold fits.
    destruct (Z_le_dec (zlen (a_cells A)) ms), (Z_le_dec (zlen (a_objs A)) mo),
      (Z_le_dec (zlen (a_dps A)) md), (Z_le_dec 0 mg), (Z_le_dec (8 * tot A) maxlen),
      (Z_le_dec (8 * tot A') maxlen); first [left; tauto|right; tauto].
Qed.

Lemma mb_reserve_inv r l m' : mb_reserve m B mo ms md mg maxlen = Some (r, l, m') ->
  r = true ->
  fits A ms mo md mg /\ 8 * tot A' <= maxlen /\ l = Some (8 * tot A') /\
  repr B m' A' /\ mbase m' = B /\ wlen m' = wlen m.
Proof.
  intros E ->.
  destruct mb_reserve_dec as [(D1 & D2 & D3 & D4)|D].
  - destruct (mb_reserve_ok D1 D2 D3 D4) as (m2 & E2 & R2 & B2 & W2 & _).
    rewrite E2 in E. injection E as <- <-. auto 10.
  - destruct (mb_reserve_fail D) as (l2 & m2 & E2 & _). rewrite E2 in E. discriminate.
Qed.
End Reserve.
