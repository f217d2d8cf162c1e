(* Arrays of elements in buffers. *)
From Coq Require Import ZArith List Bool Lia.
From Verif Require Import Tac MBuf MBufSpec MBufMem MBufAbs MBufRemap MemPool Buffer BufferSpec BufferUser
  BufferProofs BufferWrite BufferReach BufferProps Lines LinesSpec LinesProofs Strings StringsSpec StringsProofs
  BufferArray BufferArraySpec.
Import ListNotations.
Local Open Scope Z_scope.

(* ---------------- the words of an array object ---------------- *)

(* dw: number of words of the data *)
Definition arr_obj (dw : Z) (ws : list Z) : Z * list cell :=
  (65539, Ptr 56 :: Ptr (56 + 8 * dw) :: map Raw ws).

Definition at_arr (b : buffer) (i : nat) (dw : Z) (ws : list Z) : Prop :=
  reachable any b /\ nth_error (objects b) i = Some (arr_obj dw ws) /\ words64 ws.

Definition arr_to (b : buffer) (i : nat) (m' : mem) (dw : Z) (ws : list Z) : Prop :=
  at_arr (with_mem b m') i dw ws /\ objects (with_mem b m') = replace (objects b) i (arr_obj dw ws) /\
  place (with_mem b m') i = place b i /\ same_history b (with_mem b m').

Lemma arr_to_refl b i dw ws : at_arr b i dw ws -> arr_to b i (b_mem b) dw ws.
Proof.
  intros (R & O & W). unfold arr_to. rewrite with_mem_same. split; [split; auto|].
  split; [symmetry; apply replace_same; auto|]. split; [reflexivity|]. split; auto.
Qed.

Lemma arr_to_trans b i m dw ws m' dw' ws' : arr_to b i m dw ws ->
  arr_to (with_mem b m) i m' dw' ws' -> arr_to b i m' dw' ws'.
Proof.
  intros (A1 & B1 & C1 & H1) (A2 & B2 & C2 & H2). rewrite with_mem_twice in *.
  unfold arr_to. split; auto. split; [rewrite B2, B1; apply replace_twice|].
  split; [congruence|]. exact (history_trans _ _ _ H1 H2).
Qed.

Lemma arr_cell dw ws k : 0 <= k < wcount ws ->
  nth_error (snd (arr_obj dw ws)) (2 + Z.to_nat k) = Some (Raw (wnth ws k)).
Proof.
  intros Hk. unfold arr_obj. cbn [snd plus nth_error]. rewrite nth_error_map.
  unfold wnth, wcount in *. rewrite (nth_error_nth' ws 0) by lia. reflexivity.
Qed.

Lemma arr_pointers b i dw ws : at_arr b i dw ws -> 
  arr_begin (b_mem b) (place b i) = Some (place b i + 56) /\
  arr_list (b_mem b) (place b i) = Some (place b i + 56 + 8 * dw) /\ 0 < place b i /\
  exists x, place b i = mbase (b_mem b) + 8 * x /\ 10 <= x /\ x + 2 + wcount ws <= wlen (b_mem b).
Proof.
  intros (R & O & W). unfold arr_begin, arr_list, place.
  destruct (read_cell b i _ _ 0 (Ptr 56) R O eq_refl) as (E0 & x & Ex & X1 & X2 & X3).
  destruct (read_cell b i _ _ 1 (Ptr (56 + 8 * dw)) R O eq_refl) as (E1 & _).
  change (8 * Z.of_nat 0) with 0 in E0. rewrite Z.add_0_r in E0.
  change (8 * Z.of_nat 1) with 8 in E1. rewrite Z.add_assoc in E1. split; [exact E0|]. split; [exact E1|]. split; [lia|].
  exists x. cbn [length] in X2. rewrite map_length in X2. unfold wcount. lia.
Qed.

Lemma rd_word b i dw ws k : at_arr b i dw ws -> 0 <= k < wcount ws ->
  rd (b_mem b) (place b i + 16 + 8 * k) = Some (wnth ws k).
Proof.
  intros (R & O & W) Hk. pose proof (arr_cell dw ws k Hk) as Hc. unfold place.
  destruct (read_cell b i _ _ _ _ R O Hc) as (E & _).
  rewrite Nat2Z.inj_add, Z2Nat.id in E by lia. rewrite <- E. f_equal. lia.
Qed.

Definition set_word (ws : list Z) (k v : Z) : list Z := replace ws (Z.to_nat k) v.

Lemma set_word_nth ws k v x : 0 <= k < wcount ws -> 0 <= x ->
  wnth (set_word ws k v) x = if x =? k then v else wnth ws x.
Proof. intros Hk Hx. unfold set_word, wcount in *. rewrite wnth_replace by lia. now rewrite Z2Nat.id by lia. Qed.

Lemma set_word_count ws k v : wcount (set_word ws k v) = wcount ws.
Proof. unfold set_word, wcount. now rewrite replace_length. Qed.

Lemma set_word_byte ws k v x : 0 <= k < wcount ws -> 0 <= x -> (x < 8 * k \/ 8 * k + 8 <= x) ->
  byte (set_word ws k v) x = byte ws x.
Proof.
  intros Hk Hx H. unfold byte. pose proof (Z.div_mod x 8 ltac:(lia)). pose proof (Z.mod_pos_bound x 8 ltac:(lia)).
  rewrite set_word_nth by lia. rewrite (proj2 (Z.eqb_neq (x / 8) k)) by lia. reflexivity.
Qed.

Lemma wr_word b i dw ws k v : at_arr b i dw ws -> 0 <= k < wcount ws -> 0 <= v < 2 ^ 64 ->
  exists m', wr (b_mem b) (place b i + 16 + 8 * k) v = Some m' /\ arr_to b i m' dw (set_word ws k v).
Proof.
  intros (R & O & W) Hk Hv. pose proof (arr_cell dw ws k Hk) as Hc. unfold place.
  destruct (write_word b i _ _ _ _ _ R O Hc Hv) as (m' & E' & R' & O' & B' & P' & SH).
  rewrite Nat2Z.inj_add, Z2Nat.id in E' by lia. exists m'. split.
  { rewrite <- E'. f_equal. lia. }
  assert (Er : replace (snd (arr_obj dw ws)) (2 + Z.to_nat k) (Raw v) = snd (arr_obj dw (set_word ws k v))).
  { unfold arr_obj, set_word. cbn [snd]. rewrite replace_map. reflexivity. }
  assert (O2 : objects (with_mem b m') = replace (objects b) i (arr_obj dw (set_word ws k v))).
  { rewrite O'. f_equal. unfold arr_obj. f_equal. exact Er. }
  split; [|split; [exact O2|split; [exact P'|exact SH]]].
  split; [exact R'|]. split; [|apply replace_forall; [exact W|exact Hv]].
  rewrite O2. eapply nth_replace_same; eauto.
Qed.

Lemma wr_byte b i dw ws j v : at_arr b i dw ws -> 0 <= j < 8 * wcount ws -> 0 <= v < 256 ->
  exists m', wrb (b_mem b) (place b i + 16 + j) v = Some m' /\ arr_to b i m' dw (put_byte ws j v).
Proof.
  intros A Hj Hv. pose proof (arr_pointers _ _ _ _ A) as (_ & _ & _ & x & Ex & X1 & X2).
  pose proof (Z.div_mod j 8 ltac:(lia)) as D. pose proof (Z.mod_pos_bound j 8 ltac:(lia)) as M.
  assert (Hk : 0 <= j / 8 < wcount ws) by lia.
  pose proof (rd_word _ _ _ _ _ A Hk) as E.
  assert (W : words64 ws) by apply A. pose proof (wnth_range ws (j / 8) W) as Rw.
  assert (Rv : 0 <= set_byte (wnth ws (j / 8)) (j mod 8) v < 2 ^ 64) by (apply set_byte_range; lia).
  destruct (wr_word b i dw ws _ _ A Hk Rv) as (m' & E' & T). exists m'. split; [|exact T].
  unfold wrb.
  assert (Ea : place b i + 16 + 8 * (j / 8) = mbase (b_mem b) + 8 * ((place b i + 16 + j - mbase (b_mem b)) / 8) /\
               (place b i + 16 + j - mbase (b_mem b)) mod 8 = j mod 8).
  { rewrite Ex. replace (mbase (b_mem b) + 8 * x + 16 + j - mbase (b_mem b)) with (j + (x + 2) * 8) by lia.
    rewrite Z.div_add, Z.mod_add by lia. split; [|reflexivity]. lia. }
  destruct Ea as (Ea & Em). rewrite <- Ea, E. cbn [bind]. rewrite Em. exact E'.
Qed.

Lemma put_byte_word ws j v k : 0 <= j < 8 * wcount ws -> 0 <= k -> k <> j / 8 -> wnth (put_byte ws j v) k = wnth ws k.
Proof.
  intros Hj Hk H. pose proof (Z.div_mod j 8 ltac:(lia)). pose proof (Z.mod_pos_bound j 8 ltac:(lia)).
  unfold put_byte, wcount in *. rewrite wnth_replace by lia. rewrite Z2Nat.id by lia.
  now rewrite (proj2 (Z.eqb_neq k (j / 8))).
Qed.

Lemma wr_bytes cs : forall b i dw ws j, at_arr b i dw ws -> 0 <= j ->
  j + len cs <= 8 * wcount ws -> bytes_ok cs ->
  exists m' ws', wrbs (b_mem b) (place b i + 16 + j) cs = Some m' /\ arr_to b i m' dw ws' /\
    wcount ws' = wcount ws /\
    (forall x, 0 <= x -> byte ws' x =
      if (j <=? x) && (x <? j + len cs) then nth (Z.to_nat (x - j)) cs 0 else byte ws x) /\
    (forall k, 0 <= k -> (8 * k + 8 <= j \/ j + len cs <= 8 * k) -> wnth ws' k = wnth ws k).
Proof.
  unfold len. induction cs as [|v cs IH]; intros b i dw ws j A Hj HL HF.
  - exists (b_mem b), ws. split; [reflexivity|]. split; [now apply arr_to_refl|]. split; [reflexivity|].
    split; [|auto]. intros x Hx. change (Z.of_nat (length (@nil Z))) with 0.
    destruct (Z.leb_spec j x); destruct (Z.ltb_spec x (j + 0)); cbn [andb]; auto. lia.
  - cbn [length] in HL. rewrite Nat2Z.inj_succ in HL. apply Forall_cons_iff in HF as (Hv & HF).
    destruct (wr_byte b i dw ws j v A ltac:(lia) Hv) as (m1 & E1 & M1).
    assert (W : words64 ws) by apply A.
    destruct (put_byte_ok ws j v W ltac:(lia) Hv) as (W1 & C1 & B1).
    pose proof M1 as (A1 & O1 & P1 & _).
    destruct (IH (with_mem b m1) i dw (put_byte ws j v) (j + 1) A1 ltac:(lia) ltac:(lia) HF)
      as (m2 & ws2 & E2 & M2 & C2 & B2 & K2).
    exists m2, ws2. split.
    { cbn [wrbs]. rewrite E1. cbn [bind]. rewrite P1 in E2. rewrite with_mem_mem in E2.
      replace (place b i + 16 + j + 1) with (place b i + 16 + (j + 1)) by lia. exact E2. }
    split; [eapply arr_to_trans; eauto|]. split; [lia|]. split.
    + intros x Hx. rewrite B2, B1 by lia. cbn [length]. rewrite Nat2Z.inj_succ.
      destruct (Z.eqb_spec x j) as [->|Hne].
      * replace (j + 1 <=? j) with false by (symmetry; apply Z.leb_gt; lia). cbn [andb].
        replace (j <=? j) with true by (symmetry; apply Z.leb_le; lia).
        replace (j <? j + Z.succ (Z.of_nat (length cs))) with true by (symmetry; apply Z.ltb_lt; lia).
        cbn [andb]. rewrite Z.sub_diag. reflexivity.
      * destruct (Z.leb_spec (j + 1) x); destruct (Z.ltb_spec x (j + 1 + Z.of_nat (length cs)));
          destruct (Z.leb_spec j x); destruct (Z.ltb_spec x (j + Z.succ (Z.of_nat (length cs))));
          cbn [andb]; try reflexivity; try lia.
        replace (Z.to_nat (x - j)) with (S (Z.to_nat (x - (j + 1)))) by lia. reflexivity.
    + intros k Hk H. cbn [length] in H. rewrite Nat2Z.inj_succ in H.
      pose proof (Z.div_mod j 8 ltac:(lia)). pose proof (Z.mod_pos_bound j 8 ltac:(lia)).
      rewrite K2; [apply put_byte_word; lia|lia|destruct H; [left|right]; lia].
Qed.

Lemma zero_bytes b i dw ws j n : at_arr b i dw ws -> 0 <= j -> 0 <= n -> j + n <= 8 * wcount ws ->
  exists m' ws', zero_chars (b_mem b) (place b i + 16 + j) n = Some m' /\ arr_to b i m' dw ws' /\
    wcount ws' = wcount ws /\
    (forall x, 0 <= x -> byte ws' x = if (j <=? x) && (x <? j + n) then 0 else byte ws x) /\
    (forall k, 0 <= k -> (8 * k + 8 <= j \/ j + n <= 8 * k) -> wnth ws' k = wnth ws k).
Proof.
  intros A Hj Hn HL. unfold zero_chars.
  assert (LR : len (repeat 0 (Z.to_nat n)) = n) by (unfold len; rewrite repeat_length; lia).
  destruct (wr_bytes (repeat 0 (Z.to_nat n)) b i dw ws j A Hj ltac:(lia) (zeros_bytes _))
    as (m' & ws' & E & M & C & B & K). rewrite LR in B, K.
  exists m', ws'. split; [exact E|]. split; [exact M|]. split; [exact C|]. split; [|exact K].
  intros x Hx. rewrite B by auto. rewrite nth_zeros. reflexivity.
Qed.

(* the list of offsets written at once *)
Lemma wr_words l : forall b i dw ws k, at_arr b i dw ws -> 0 <= k -> k + wcount l <= wcount ws -> words64 l ->
  exists m' ws', wrws (b_mem b) (place b i + 16 + 8 * k) l = Some m' /\ arr_to b i m' dw ws' /\
    wcount ws' = wcount ws /\
    (forall x, 0 <= x -> wnth ws' x =
      if (k <=? x) && (x <? k + wcount l) then nth (Z.to_nat (x - k)) l 0 else wnth ws x).
Proof.
  unfold wcount. induction l as [|v l IH]; intros b i dw ws k A Hk HL HF.
  - exists (b_mem b), ws. split; [reflexivity|]. split; [now apply arr_to_refl|]. split; [reflexivity|].
    intros x Hx. change (Z.of_nat (length (@nil Z))) with 0.
    destruct (Z.leb_spec k x); destruct (Z.ltb_spec x (k + 0)); cbn [andb]; auto. lia.
  - cbn [length] in HL. rewrite Nat2Z.inj_succ in HL. apply Forall_cons_iff in HF as (Hv & HF).
    assert (Hk' : 0 <= k < wcount ws) by (unfold wcount; lia).
    destruct (wr_word b i dw ws k v A Hk' Hv) as (m1 & E1 & M1).
    pose proof M1 as (A1 & O1 & P1 & _). pose proof (set_word_count ws k v) as C1. unfold wcount in C1.
    destruct (IH (with_mem b m1) i dw (set_word ws k v) (k + 1) A1 ltac:(lia) ltac:(lia) HF)
      as (m2 & ws2 & E2 & M2 & C2 & B2).
    exists m2, ws2. split.
    { cbn [wrws]. rewrite E1. cbn [bind]. rewrite P1 in E2. rewrite with_mem_mem in E2.
      replace (place b i + 16 + 8 * k + 8) with (place b i + 16 + 8 * (k + 1)) by lia. exact E2. }
    split; [eapply arr_to_trans; eauto|]. split; [lia|].
    intros x Hx. rewrite B2 by lia. rewrite (set_word_nth ws k v x Hk' Hx). cbn [length]. rewrite Nat2Z.inj_succ.
    destruct (Z.eqb_spec x k) as [->|Hne].
    + replace (k + 1 <=? k) with false by (symmetry; apply Z.leb_gt; lia). cbn [andb].
      replace (k <=? k) with true by (symmetry; apply Z.leb_le; lia).
      replace (k <? k + Z.succ (Z.of_nat (length l))) with true by (symmetry; apply Z.ltb_lt; lia).
      cbn [andb]. rewrite Z.sub_diag. reflexivity.
    + destruct (Z.leb_spec (k + 1) x); destruct (Z.ltb_spec x (k + 1 + Z.of_nat (length l)));
        destruct (Z.leb_spec k x); destruct (Z.ltb_spec x (k + Z.succ (Z.of_nat (length l))));
        cbn [andb]; try reflexivity; try lia.
      replace (Z.to_nat (x - k)) with (S (Z.to_nat (x - (k + 1)))) by lia. reflexivity.
Qed.

(* ---------------- the fields ---------------- *)

Section Fields.
Variables (b : buffer) (i : nat) (dw : Z) (ws : list Z).
Hypothesis A : at_arr b i dw ws.

Lemma field k : 0 <= k < 5 -> 5 <= wcount ws -> rd (b_mem b) (place b i + 16 + 8 * k) = Some (wnth ws k).
Proof. intros. apply (rd_word _ _ _ _ _ A). lia. Qed.

Lemma num_ok : 5 <= wcount ws -> arr_num (b_mem b) (place b i) = Some (wnth ws 0).
Proof. intros H. pose proof (field 0 ltac:(lia) H) as E. rewrite Z.mul_0_r, Z.add_0_r in E. exact E. Qed.
Lemma max_ok : 5 <= wcount ws -> arr_max (b_mem b) (place b i) = Some (wnth ws 1).
Proof. intros H. pose proof (field 1 ltac:(lia) H) as E. replace (place b i + 16 + 8 * 1) with (place b i + 24) in E by lia. exact E. Qed.
Lemma capacity_ok : 5 <= wcount ws -> arr_capacity (b_mem b) (place b i) = Some (wnth ws 2).
Proof. intros H. pose proof (field 2 ltac:(lia) H) as E. replace (place b i + 16 + 8 * 2) with (place b i + 32) in E by lia. exact E. Qed.
Lemma slot_ok : 5 <= wcount ws -> arr_slot (b_mem b) (place b i) = Some (wnth ws 3).
Proof. intros H. pose proof (field 3 ltac:(lia) H) as E. replace (place b i + 16 + 8 * 3) with (place b i + 40) in E by lia. exact E. Qed.
Lemma type_ok : 5 <= wcount ws -> arr_type (b_mem b) (place b i) = Some (wnth ws 4).
Proof. intros H. pose proof (field 4 ltac:(lia) H) as E. replace (place b i + 16 + 8 * 4) with (place b i + 48) in E by lia. exact E. Qed.

Lemma list_rd k : 0 <= dw -> 0 <= k -> 5 + dw + k < wcount ws ->
  rd (b_mem b) (place b i + 56 + 8 * dw + 8 * k) = Some (wnth ws (5 + dw + k)).
Proof.
  intros Hd Hk H. rewrite <- (rd_word _ _ _ _ (5 + dw + k) A) by lia. f_equal. lia.
Qed.

Lemma set_num_ok v : 5 <= wcount ws -> 0 <= v < 2 ^ 64 ->
  exists m', arr_set_num (b_mem b) (place b i) v = Some m' /\ arr_to b i m' dw (set_word ws 0 v).
Proof.
  intros H Hv. destruct (wr_word b i dw ws 0 v A ltac:(lia) Hv) as (m' & E & T).
  rewrite Z.mul_0_r, Z.add_0_r in E. eauto.
Qed.

Lemma set_field_ok k v : 0 <= k < 5 -> 5 <= wcount ws -> 0 <= v < 2 ^ 64 ->
  exists m', wr (b_mem b) (place b i + (16 + 8 * k)) v = Some m' /\ arr_to b i m' dw (set_word ws k v).
Proof.
  intros Hk H Hv. destruct (wr_word b i dw ws k v A ltac:(lia) Hv) as (m' & E & T).
  rewrite <- Z.add_assoc in E. eauto.
Qed.

Lemma set_offset_ok k v : 0 <= dw -> 0 <= k -> 5 + dw + k < wcount ws -> 0 <= v < 2 ^ 64 ->
  exists m', arr_set_offset (b_mem b) (place b i) k v = Some m' /\ arr_to b i m' dw (set_word ws (5 + dw + k) v).
Proof.
  intros Hd Hk H Hv. destruct (wr_word b i dw ws (5 + dw + k) v A ltac:(lia) Hv) as (m' & E & T).
  exists m'. split; [|exact T]. unfold arr_set_offset.
  destruct (arr_pointers _ _ _ _ A) as (_ & -> & _). cbn [bind]. rewrite <- E. f_equal. lia.
Qed.

Lemma offset_ok k : 0 <= dw -> 0 <= k -> 5 + dw + k < wcount ws ->
  arr_offset (b_mem b) (place b i) k = Some (if k <=? wnth ws 0 then wnth ws (5 + dw + k) else 0).
Proof.
  intros Hd Hk H. unfold arr_offset. destruct (arr_pointers _ _ _ _ A) as (_ & -> & Pp & _). cbn [bind].
  rewrite num_ok by lia. cbn [bind]. rewrite (proj2 (Z.eqb_neq (place b i + 56 + 8 * dw) 0)) by lia. cbn [negb andb].
  destruct (k <=? wnth ws 0); [|reflexivity]. apply list_rd; auto.
Qed.

Lemma length_ok : 0 <= dw -> 0 <= wnth ws 0 -> 5 + dw + wnth ws 0 < wcount ws ->
  arr_length (b_mem b) (place b i) = Some (wnth ws (5 + dw + wnth ws 0)).
Proof.
  intros Hd Hn H. unfold arr_length. rewrite num_ok by lia. cbn [bind]. rewrite offset_ok by lia.
  now rewrite (proj2 (Z.leb_le (wnth ws 0) (wnth ws 0))) by lia.
Qed.
End Fields.

Lemma zero_offsets_ok n : forall b i dw ws k, at_arr b i dw ws -> 0 <= dw -> 0 <= k ->
  5 + dw + k + Z.of_nat n <= wcount ws ->
  exists m' ws', arr_zero_offsets (b_mem b) (place b i) k n = Some m' /\ arr_to b i m' dw ws' /\
    wcount ws' = wcount ws /\
    forall x, 0 <= x -> wnth ws' x =
      if (5 + dw + k <=? x) && (x <? 5 + dw + k + Z.of_nat n) then 0 else wnth ws x.
Proof.
  induction n as [|n IH]; intros b i dw ws k A Hd Hk H.
  - exists (b_mem b), ws. split; [reflexivity|]. split; [now apply arr_to_refl|]. split; [reflexivity|].
    intros x Hx. change (Z.of_nat 0) with 0.
    destruct (Z.leb_spec (5 + dw + k) x); destruct (Z.ltb_spec x (5 + dw + k + 0)); cbn [andb]; auto. lia.
  - rewrite Nat2Z.inj_succ in H.
    destruct (set_offset_ok b i dw ws A k 0 Hd Hk ltac:(lia) ltac:(lia)) as (m1 & E1 & M1).
    pose proof M1 as (A1 & _ & P1 & _). pose proof (set_word_count ws (5 + dw + k) 0) as C1.
    destruct (IH (with_mem b m1) i dw (set_word ws (5 + dw + k) 0) (k + 1) A1 Hd ltac:(lia) ltac:(lia))
      as (m2 & ws2 & E2 & M2 & C2 & B2).
    exists m2, ws2. split.
    { cbn [arr_zero_offsets]. rewrite E1. cbn [bind]. rewrite P1, with_mem_mem in E2. exact E2. }
    split; [eapply arr_to_trans; eauto|]. split; [lia|].
    intros x Hx. rewrite B2 by lia. rewrite set_word_nth by lia. rewrite Nat2Z.inj_succ.
    destruct (Z.eqb_spec x (5 + dw + k)) as [->|Hne].
    + rewrite (proj2 (Z.leb_le (5 + dw + k) (5 + dw + k))), (proj2 (Z.ltb_lt (5 + dw + k) (5 + dw + k + Z.succ (Z.of_nat n)))) by lia.
      cbn [andb]. destruct (_ && _); reflexivity.
    + destruct (Z.leb_spec (5 + dw + (k + 1)) x); destruct (Z.ltb_spec x (5 + dw + (k + 1) + Z.of_nat n));
        destruct (Z.leb_spec (5 + dw + k) x); destruct (Z.ltb_spec x (5 + dw + k + Z.succ (Z.of_nat n)));
        cbn [andb]; try reflexivity; lia.
Qed.

Lemma arr_top b i dw ws : at_arr b i dw ws -> place b i + 16 + 8 * wcount ws < 2 ^ 64.
Proof.
  intros A. destruct (arr_pointers _ _ _ _ A) as (_ & _ & _ & x & Ex & X1 & X2).
  destruct A as (R & _ & _). destruct (reachable_inv _ _ R) as (A & I & _).
  pose proof (bi_top _ _ I) as T. pose proof (bi_len _ _ I) as L.
  pose proof (Z.div_mod (p_capacity (b_pool b)) 8 ltac:(lia)).
  pose proof (Z.mod_pos_bound (p_capacity (b_pool b)) 8 ltac:(lia)). lia.
Qed.

(* ---------------- the words of an array that holds elements ---------------- *)

Definition off_value (es : list element) (k : Z) : Z :=
  if k <=? Z.of_nat (length es) then begins es (Z.to_nat k) else 0.

Record view (ws : list Z) (s : shape) (es : list element) : Prop := View {
  v_shape : shape_ok s;
  v_cap : len (all_bytes es) <= sh_cap s;
  v_num : Z.of_nat (length es) <= sh_max s;
  v_bytes : Forall bytes_ok es;
  v_64 : words64 ws;
  v_count : wcount ws = 5 + words_of (sh_cap s) + (sh_max s + 1);
  v_0 : wnth ws 0 = Z.of_nat (length es);
  v_1 : wnth ws 1 = sh_max s;
  v_2 : wnth ws 2 = sh_cap s;
  v_3 : wnth ws 3 = sh_slot s;
  v_4 : wnth ws 4 = sh_type s;
  v_data : forall j, 0 <= j < sh_cap s -> byte ws (40 + j) = nth (Z.to_nat j) (all_bytes es) 0;
  v_offs : forall k, 0 <= k <= sh_max s -> wnth ws (5 + words_of (sh_cap s) + k) = off_value es k }.

Lemma wnth_app1 l r k : 0 <= k < wcount l -> wnth (l ++ r) k = wnth l k.
Proof. unfold wnth, wcount. intros H. apply app_nth1. lia. Qed.
Lemma wnth_app2 l r k : wcount l <= k -> wnth (l ++ r) k = wnth r (k - wcount l).
Proof. unfold wnth, wcount. intros H. rewrite app_nth2 by lia. f_equal. lia. Qed.
Lemma wcount_app l r : wcount (l ++ r) = wcount l + wcount r.
Proof. unfold wcount. rewrite app_length. lia. Qed.

Lemma byte_shift ws ws' d j : 0 <= j -> 0 <= d -> wnth ws (d + j / 8) = wnth ws' (j / 8) ->
  byte ws (8 * d + j) = byte ws' j.
Proof.
  intros Hj Hd E. unfold byte. replace (8 * d + j) with (j + d * 8) by lia.
  rewrite Z.div_add, Z.mod_add by lia. rewrite Z.add_comm, E. reflexivity.
Qed.

Lemma words_of_nonneg n : 0 <= n -> 0 <= words_of n.
Proof. intros. unfold words_of. apply Z.div_pos; lia. Qed.

Lemma holds_view o s es : holds_array o s es ->
  exists ws, o = arr_obj (words_of (sh_cap s)) ws /\ view ws s es.
Proof.
  intros (SO & HC & HN & HB & data & offs & -> & W & Cd & Co & D & O1 & O2).
  pose proof SO as (S1 & S2 & S3 & S4 & S5).
  pose proof (words_of_nonneg _ S2) as Hd. pose proof (words_of_le _ S2) as Hd8.
  set (hdr := [Z.of_nat (length es); sh_max s; sh_cap s; sh_slot s; sh_type s]).
  exists (hdr ++ data ++ offs). split; [reflexivity|].
  assert (Ch : wcount hdr = 5) by reflexivity.
  assert (OV : forall k, 0 <= k -> wnth offs k = off_value es k).
  { intros k Hk. unfold wnth, off_value. destruct (Z.leb_spec k (Z.of_nat (length es))).
    - apply O1. lia.
    - apply O2. lia. }
  assert (RB : forall k, 0 <= off_value es k < 2 ^ 64).
  { intros k. unfold off_value. destruct (k <=? _); [|lia]. unfold begins, all_bytes in *.
    pose proof (len_nonneg (concat (firstn (Z.to_nat k) es))).
    assert (len (concat (firstn (Z.to_nat k) es)) <= len (concat es)).
    { rewrite <- (firstn_skipn (Z.to_nat k) es) at 2. rewrite concat_app. unfold len. rewrite app_length. lia. }
    lia. }
  split; auto.
  - unfold words64 in *. rewrite !Forall_app. split; [|split; [exact W|]].
    + repeat constructor; lia.
    + apply Forall_forall. intros w Hw. destruct (In_nth _ _ 0 Hw) as (k & Hk & <-).
      specialize (OV (Z.of_nat k) ltac:(lia)). unfold wnth in OV. rewrite Nat2Z.id in OV. rewrite OV. apply RB.
  - rewrite !wcount_app. lia.
  - intros j Hj. change 40 with (8 * 5).
    pose proof (Z.div_mod j 8 ltac:(lia)). pose proof (Z.mod_pos_bound j 8 ltac:(lia)).
    rewrite (byte_shift _ data) by (try lia;
      rewrite wnth_app2, wnth_app1 by lia; f_equal; lia).
    apply D. lia.
  - intros k Hk. rewrite wnth_app2 by lia. rewrite wnth_app2 by lia. rewrite <- OV by lia. f_equal. lia.
Qed.

Lemma five ws : 5 <= wcount ws -> ws = [wnth ws 0; wnth ws 1; wnth ws 2; wnth ws 3; wnth ws 4] ++ skipn 5 ws.
Proof.
  unfold wcount, wnth. intros H. destruct ws as [|a [|c [|d [|e [|f r]]]]]; cbn [length] in H; try lia. reflexivity.
Qed.

Lemma view_holds ws s es : view ws s es -> holds_array (arr_obj (words_of (sh_cap s)) ws) s es.
Proof.
  intros [SO HC HN HB W C V0 V1 V2 V3 V4 D O]. pose proof SO as (S1 & S2 & S3 & S4 & S5).
  pose proof (words_of_nonneg _ S2) as Hd. pose proof (words_of_le _ S2) as Hd8.
  split; [exact SO|]. split; [exact HC|]. split; [exact HN|]. split; [exact HB|].
  set (dw := words_of (sh_cap s)) in *.
  exists (firstn (Z.to_nat dw) (skipn 5 ws)), (skipn (Z.to_nat dw) (skipn 5 ws)).
  assert (E : ws = [wnth ws 0; wnth ws 1; wnth ws 2; wnth ws 3; wnth ws 4] ++
    firstn (Z.to_nat dw) (skipn 5 ws) ++ skipn (Z.to_nat dw) (skipn 5 ws)).
  { rewrite firstn_skipn. apply five. lia. }
  rewrite V0, V1, V2, V3, V4 in E.
  set (data := firstn (Z.to_nat dw) (skipn 5 ws)) in *.
  set (offs := skipn (Z.to_nat dw) (skipn 5 ws)) in *.
  assert (Cd : wcount data = dw).
  { unfold data, wcount in *. rewrite firstn_length, skipn_length. lia. }
  assert (Co : wcount offs = sh_max s + 1).
  { unfold offs, wcount in *. rewrite !skipn_length. lia. }
  assert (Ch : wcount [Z.of_nat (length es); sh_max s; sh_cap s; sh_slot s; sh_type s] = 5) by reflexivity.
  assert (WD : forall k, 0 <= k < dw -> wnth ws (5 + k) = wnth data k).
  { intros k Hk. rewrite E, wnth_app2, wnth_app1 by lia. f_equal. lia. }
  assert (WO : forall k, 0 <= k -> wnth ws (5 + dw + k) = wnth offs k).
  { intros k Hk. rewrite E, wnth_app2, wnth_app2 by lia. f_equal. lia. }
  split; [|split; [|split; [exact Cd|split; [exact Co|split; [|split]]]]].
  - unfold arr_obj. rewrite E at 1. reflexivity.
  - unfold words64 in *. rewrite E in W. rewrite !Forall_app in W. apply W.
  - intros j Hj. rewrite <- D by lia. change 40 with (8 * 5). symmetry. apply byte_shift; try lia.
    apply WD. pose proof (Z.div_mod j 8 ltac:(lia)). pose proof (Z.mod_pos_bound j 8 ltac:(lia)). lia.
  - intros k Hk. specialize (O (Z.of_nat k) ltac:(lia)). rewrite WO in O by lia.
    unfold wnth, off_value in O. rewrite Nat2Z.id in O. rewrite O.
    now rewrite (proj2 (Z.leb_le (Z.of_nat k) (Z.of_nat (length es)))) by lia.
  - intros k Hk. destruct (Z.le_gt_cases (Z.of_nat k) (sh_max s)) as [L|L].
    + specialize (O (Z.of_nat k) ltac:(lia)). rewrite WO in O by lia.
      unfold wnth, off_value in O. rewrite Nat2Z.id in O. rewrite O.
      now rewrite (proj2 (Z.leb_gt (Z.of_nat k) (Z.of_nat (length es)))) by lia.
    + apply nth_overflow. unfold wcount in Co. lia.
Qed.

Lemma arr_to_holds b i m' s es ws : arr_to b i m' (words_of (sh_cap s)) ws -> view ws s es ->
  new_array b i (with_mem b m') s es.
Proof.
  intros (_ & O & _ & H) V. split; [exact H|]. exists (arr_obj (words_of (sh_cap s)) ws).
  split; [now apply view_holds|exact O].
Qed.

Lemma holds_at_arr b i o s es : reachable any b -> nth_error (objects b) i = Some o -> holds_array o s es ->
  exists ws, at_arr b i (words_of (sh_cap s)) ws /\ view ws s es.
Proof.
  intros R O H. destruct (holds_view o s es H) as (ws & -> & V). exists ws. split; [|exact V].
  split; [exact R|]. split; [exact O|apply (v_64 _ _ _ V)].
Qed.

(* ---------------- lists of elements ---------------- *)

Lemma len_app a c : len (a ++ c) = len a + len c.
Proof. unfold len. rewrite app_length. lia. Qed.

Lemma begins_0 es : begins es 0 = 0.
Proof. reflexivity. Qed.
Lemma begins_all es : begins es (length es) = len (all_bytes es).
Proof. unfold begins. now rewrite firstn_all. Qed.
Lemma begins_S es k e : nth_error es k = Some e -> begins es (S k) = begins es k + len e.
Proof.
  intros H. unfold begins, all_bytes.
  assert (E : firstn (S k) es = firstn k es ++ [e]).
  { revert k H. induction es as [|x es IH]; intros [|k] H; try discriminate.
    - cbn in *. congruence.
    - cbn [firstn app]. f_equal. apply IH. exact H. }
  rewrite E, concat_app, len_app. cbn [concat]. now rewrite app_nil_r.
Qed.
Lemma begins_le es k : begins es k <= len (all_bytes es).
Proof.
  unfold begins, all_bytes. rewrite <- (firstn_skipn k es) at 2. rewrite concat_app, len_app.
  pose proof (len_nonneg (concat (skipn k es))). lia.
Qed.
Lemma begins_nonneg es k : 0 <= begins es k.
Proof. apply len_nonneg. Qed.
Lemma begins_app es e k : (k <= length es)%nat -> begins (es ++ e) k = begins es k.
Proof.
  intros H. unfold begins. rewrite firstn_app. replace (k - length es)%nat with 0%nat by lia.
  now rewrite firstn_O, app_nil_r.
Qed.
Lemma all_bytes_app es e : all_bytes (es ++ [e]) = all_bytes es ++ e.
Proof. unfold all_bytes. rewrite concat_app. cbn [concat]. now rewrite app_nil_r. Qed.

Lemma element_nth es k e j : nth_error es k = Some e -> 0 <= j < len e ->
  nth (Z.to_nat (begins es k + j)) (all_bytes es) 0 = nth (Z.to_nat j) e 0.
Proof.
  intros H Hj. unfold begins, all_bytes.
  destruct (nth_error_split es k H) as (l1 & l2 & -> & L).
  rewrite firstn_app, <- L, Nat.sub_diag, firstn_all, firstn_O, app_nil_r.
  rewrite concat_app. cbn [concat]. unfold len in *. rewrite app_nth2 by lia.
  rewrite app_nth1 by lia. f_equal. lia.
Qed.

(* ---------------- reading ---------------- *)

Lemma off_value_in es k : (k <= length es)%nat -> off_value es (Z.of_nat k) = begins es k.
Proof. intros. unfold off_value. rewrite (proj2 (Z.leb_le _ _)) by lia. now rewrite Nat2Z.id. Qed.

Lemma view_facts ws s es : view ws s es -> 5 <= wcount ws /\ 0 <= words_of (sh_cap s) /\
  sh_cap s <= 8 * words_of (sh_cap s) /\ 0 <= len (all_bytes es) <= sh_cap s /\
  Z.of_nat (length es) <= sh_max s /\ sh_cap s + 8 * sh_max s + 128 < 2 ^ 64.
Proof.
  intros V. pose proof (v_count _ _ _ V). pose proof (v_shape _ _ _ V) as (S1 & S2 & S3 & S4 & S5).
  pose proof (words_of_nonneg _ S2). pose proof (words_of_le _ S2). pose proof (v_cap _ _ _ V).
  pose proof (v_num _ _ _ V). pose proof (len_nonneg (all_bytes es)). lia.
Qed.

Lemma view_length b i ws s es : at_arr b i (words_of (sh_cap s)) ws -> view ws s es ->
  arr_length (b_mem b) (place b i) = Some (len (all_bytes es)).
Proof.
  intros A V. destruct (view_facts _ _ _ V) as (F1 & F2 & F3 & F4 & F5 & F6).
  pose proof (v_0 _ _ _ V) as V0. pose proof (v_count _ _ _ V).
  rewrite (length_ok b i _ ws A) by lia. rewrite V0, (v_offs _ _ _ V) by lia.
  rewrite off_value_in, begins_all by lia. reflexivity.
Qed.

Lemma rd_byte b i dw ws j : at_arr b i dw ws -> 0 <= j < 8 * wcount ws ->
  mem_byte (b_mem b) (place b i + 16 + j) = Some (byte ws j).
Proof.
  intros A Hj. destruct (arr_pointers _ _ _ _ A) as (_ & _ & _ & x & Ex & X1 & X2).
  pose proof (Z.div_mod j 8 ltac:(lia)) as D. pose proof (Z.mod_pos_bound j 8 ltac:(lia)) as M.
  assert (Hk : 0 <= j / 8 < wcount ws) by lia. pose proof (rd_word _ _ _ _ _ A Hk) as E.
  rewrite Ex in *. rewrite (rd_ok _ _ (x + 2 + j / 8)) in E by lia.
  replace (mbase (b_mem b) + 8 * x + 16 + j) with (mbase (b_mem b) + 8 * (x + 2 + j / 8) + j mod 8) by lia.
  rewrite mem_byte_ok by lia. f_equal. unfold byte. do 2 f_equal. congruence.
Qed.

Lemma element_ok b i o s es k e : reachable any b -> nth_error (objects b) i = Some o -> holds_array o s es ->
  nth_error es k = Some e ->
  exists a, arr_element_begin (b_mem b) (place b i) (Z.of_nat k) = Some a /\
    arr_element_length (b_mem b) (place b i) (Z.of_nat k) = Some (len e) /\
    arr_element_end (b_mem b) (place b i) (Z.of_nat k) = Some (a + len e) /\
    arr_offset (b_mem b) (place b i) (Z.of_nat k) = Some (begins es k) /\
    a = place b i + 56 + begins es k /\
    bytes_at (b_mem b) a e.
Proof.
  intros R O H He. destruct (holds_at_arr b i o s es R O H) as (ws & A & V).
  destruct (view_facts _ _ _ V) as (F1 & F2 & F3 & F4 & F5 & F6).
  pose proof (v_0 _ _ _ V) as V0. pose proof (v_count _ _ _ V) as C.
  assert (Hk : (k < length es)%nat) by (apply nth_error_Some; congruence).
  pose proof (begins_S es k e He) as BS. pose proof (begins_le es (S k)) as BL.
  pose proof (begins_nonneg es k) as B0. pose proof (len_nonneg e) as E0.
  pose proof (arr_top _ _ _ _ A) as T. destruct (arr_pointers _ _ _ _ A) as (P1 & P2 & P3 & _).
  set (dw := words_of (sh_cap s)) in *.
  exists (place b i + 56 + begins es k).
  assert (EB : arr_element_begin (b_mem b) (place b i) (Z.of_nat k) = Some (place b i + 56 + begins es k)).
  { unfold arr_element_begin. rewrite P1, P2. cbn [bind].
    rewrite (list_rd b i dw ws A) by lia. cbn [bind]. unfold dw. rewrite (v_offs _ _ _ V) by lia.
    rewrite off_value_in by lia. unfold u64. rewrite Z.mod_small by lia. reflexivity. }
  assert (EL : arr_element_length (b_mem b) (place b i) (Z.of_nat k) = Some (len e)).
  { unfold arr_element_length. rewrite P2. cbn [bind].
    rewrite (list_rd b i dw ws A) by lia. cbn [bind]. unfold u64. rewrite Z.mod_small by lia.
    rewrite (list_rd b i dw ws A) by lia. cbn [bind]. unfold dw. rewrite !(v_offs _ _ _ V) by lia.
    replace (Z.of_nat k + 1) with (Z.of_nat (S k)) by lia. rewrite !off_value_in by lia. rewrite BS.
    rewrite (proj2 (Z.leb_le _ _)) by lia. f_equal. lia. }
  split; [exact EB|]. split; [exact EL|]. split.
  { unfold arr_element_end. rewrite EB. cbn [bind]. rewrite (proj2 (Z.ltb_lt 0 _)) by lia. rewrite EL. cbn [bind].
    unfold u64. rewrite Z.mod_small by lia. reflexivity. }
  split.
  { rewrite (offset_ok b i dw ws A) by lia. rewrite V0, (proj2 (Z.leb_le _ _)) by lia. unfold dw.
    rewrite (v_offs _ _ _ V) by lia. rewrite off_value_in by lia. reflexivity. }
  split; [reflexivity|]. intros j Hj.
  replace (place b i + 56 + begins es k + j) with (place b i + 16 + (40 + (begins es k + j))) by lia.
  rewrite (rd_byte b i dw ws) by (auto; lia). f_equal. rewrite (v_data _ _ _ V) by lia. now apply element_nth.
Qed.

Lemma fields_ok b i o s es : reachable any b -> nth_error (objects b) i = Some o -> holds_array o s es ->
  arr_num (b_mem b) (place b i) = Some (Z.of_nat (length es)) /\
  arr_max (b_mem b) (place b i) = Some (sh_max s) /\
  arr_capacity (b_mem b) (place b i) = Some (sh_cap s) /\
  arr_slot (b_mem b) (place b i) = Some (sh_slot s) /\
  arr_type (b_mem b) (place b i) = Some (sh_type s) /\
  arr_length (b_mem b) (place b i) = Some (len (all_bytes es)) /\
  arr_begin (b_mem b) (place b i) = Some (place b i + 56).
Proof.
  intros R O H. destruct (holds_at_arr b i o s es R O H) as (ws & A & V).
  destruct (view_facts _ _ _ V) as (F1 & _).
  rewrite (num_ok _ _ _ _ A F1), (max_ok _ _ _ _ A F1), (capacity_ok _ _ _ _ A F1), (slot_ok _ _ _ _ A F1),
    (type_ok _ _ _ _ A F1), (v_0 _ _ _ V), (v_1 _ _ _ V), (v_2 _ _ _ V), (v_3 _ _ _ V), (v_4 _ _ _ V).
  rewrite (view_length _ _ _ _ _ A V). destruct (arr_pointers _ _ _ _ A) as (-> & _). auto 10.
Qed.
