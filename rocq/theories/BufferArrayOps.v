(* Arrays of elements in buffers: the operations. *)
From Coq Require Import ZArith List Bool Lia.
From Verif Require Import Tac MBuf MBufSpec MBufMem MBufAbs MBufRemap MemPool Buffer BufferSpec BufferUser
  BufferProofs BufferWrite BufferReach BufferProps Lines LinesSpec LinesProofs Strings StringsSpec StringsProofs
  BufferArray BufferArraySpec BufferArrayProofs.
Import ListNotations.
Local Open Scope Z_scope.

Lemma same_array b i o s es : nth_error (objects b) i = Some o -> holds_array o s es -> new_array b i b s es.
Proof.
  intros O H. split; [split; auto|]. exists o. split; [exact H|]. symmetry. now apply replace_same.
Qed.

(* ---------------- clear ---------------- *)

Lemma clear_view b i ws s es : at_arr b i (words_of (sh_cap s)) ws -> view ws s es ->
  exists m' ws', arr_clear (b_mem b) (place b i) = Some m' /\ arr_to b i m' (words_of (sh_cap s)) ws' /\ view ws' s [].
Proof.
  intros A V. destruct (view_facts _ _ _ V) as (F1 & F2 & F3 & F4 & F5 & F6).
  pose proof (v_0 _ _ _ V) as V0. pose proof (v_count _ _ _ V) as C.
  set (dw := words_of (sh_cap s)) in *.
  unfold arr_clear. rewrite (num_ok _ _ _ _ A F1). cbn [bind]. rewrite V0.
  destruct (Z.ltb_spec 0 (Z.of_nat (length es))) as [Hn|Hn].
  - destruct (arr_pointers _ _ _ _ A) as (P1 & P2 & P3 & _). rewrite P1. cbn [bind].
    rewrite (view_length _ _ _ _ _ A V). cbn [bind].
    destruct (zero_offsets_ok (Z.to_nat (Z.of_nat (length es) + 1)) b i dw ws 0 A F2 ltac:(lia) ltac:(lia))
      as (m1 & ws1 & E1 & M1 & C1 & O1). rewrite E1. cbn [bind].
    rewrite (proj2 (Z.eqb_neq (place b i + 56) 0)) by lia. cbn [negb].
    pose proof M1 as (A1 & _ & Q1 & _).
    destruct (zero_bytes (with_mem b m1) i dw ws1 40 (len (all_bytes es)) A1 ltac:(lia) ltac:(lia) ltac:(lia))
      as (m2 & ws2 & E2 & M2 & C2 & B2 & K2).
    rewrite Q1, with_mem_mem in E2. replace (place b i + 16 + 40) with (place b i + 56) in E2 by lia.
    rewrite E2. cbn [bind]. pose proof (arr_to_trans _ _ _ _ _ _ _ _ M1 M2) as M12.
    pose proof M12 as (A2 & _ & Q2 & _).
    destruct (set_num_ok (with_mem b m2) i dw ws2 A2 0 ltac:(lia) ltac:(lia)) as (m3 & E3 & M3).
    rewrite Q2, with_mem_mem in E3. rewrite E3.
    pose proof (arr_to_trans _ _ _ _ _ _ _ _ M12 M3) as M.
    exists m3, (set_word ws2 0 0). split; [reflexivity|]. split; [exact M|].
    assert (BY : forall j, 0 <= j < sh_cap s -> byte ws1 (40 + j) = byte ws (40 + j)).
    { intros j Hj. unfold byte. f_equal. f_equal. rewrite O1 by (apply Z.div_pos; lia).
      assert ((40 + j) / 8 < 5 + dw).
      { apply Z.div_lt_upper_bound; lia. }
      rewrite (proj2 (Z.leb_gt (5 + dw + 0) _)) by lia. reflexivity. }
    assert (HW : forall k, 1 <= k < 5 -> wnth (set_word ws2 0 0) k = wnth ws k).
    { intros k Hk. rewrite set_word_nth by lia. rewrite (proj2 (Z.eqb_neq k 0)) by lia. rewrite K2 by lia.
      rewrite O1 by lia. rewrite (proj2 (Z.leb_gt (5 + dw + 0) k)) by lia. reflexivity. }
    split; try (rewrite HW by lia).
    + apply (v_shape _ _ _ V).
    + unfold len. cbn. lia.
    + cbn [length]. lia.
    + constructor.
    + destruct M as ((_ & _ & W) & _). exact W.
    + rewrite set_word_count. fold dw. lia.
    + rewrite set_word_nth by lia. reflexivity.
    + apply (v_1 _ _ _ V).
    + apply (v_2 _ _ _ V).
    + apply (v_3 _ _ _ V).
    + apply (v_4 _ _ _ V).
    + intros j Hj. rewrite set_word_byte by lia. rewrite B2 by lia.
      destruct (Z.leb_spec 40 (40 + j)); [|lia].
      destruct (Z.ltb_spec (40 + j) (40 + len (all_bytes es))); cbn [andb].
      * destruct (Z.to_nat j); reflexivity.
      * rewrite BY, (v_data _ _ _ V) by lia. rewrite !nth_overflow; [reflexivity|cbn; lia|unfold len in *; lia].
    + intros k Hk. fold dw. rewrite set_word_nth by lia. rewrite (proj2 (Z.eqb_neq (5 + dw + k) 0)) by lia.
      rewrite K2 by lia. rewrite O1 by lia. rewrite (proj2 (Z.leb_le (5 + dw + 0) (5 + dw + k))) by lia. cbn [andb].
      unfold off_value. destruct (Z.ltb_spec (5 + dw + k) (5 + dw + 0 + Z.of_nat (Z.to_nat (Z.of_nat (length es) + 1)))).
      * cbn [length]. unfold begins. rewrite firstn_nil. destruct (_ <=? _); reflexivity.
      * unfold dw. rewrite (v_offs _ _ _ V) by lia. unfold off_value.
        rewrite (proj2 (Z.leb_gt k (Z.of_nat (length es)))) by lia. cbn [length].
        rewrite (proj2 (Z.leb_gt k (Z.of_nat 0))) by lia. reflexivity.
  - assert (es = []) as -> by (destruct es; [reflexivity|cbn [length] in Hn; lia]).
    exists (b_mem b), ws. split; [reflexivity|]. split; [now apply arr_to_refl|exact V].
Qed.

Lemma arr_clear_ok b i o s es : reachable any b -> nth_error (objects b) i = Some o -> holds_array o s es ->
  exists m', arr_clear (b_mem b) (place b i) = Some m' /\ new_array b i (with_mem b m') s [].
Proof.
  intros R O H. destruct (holds_at_arr b i o s es R O H) as (ws & A & V).
  destruct (clear_view _ _ _ _ _ A V) as (m' & ws' & E & T & V'). exists m'. split; [exact E|].
  exact (arr_to_holds _ _ _ _ _ _ T V').
Qed.

(* ---------------- remove_last_element ---------------- *)

Lemma remove_last_ok b i o s es e : reachable any b -> nth_error (objects b) i = Some o ->
  holds_array o s (es ++ [e]) ->
  exists m', arr_remove_last (b_mem b) (place b i) = Some (true, m') /\ new_array b i (with_mem b m') s es.
Proof.
  intros R O H. destruct (holds_at_arr b i o s _ R O H) as (ws & A & V).
  destruct (view_facts _ _ _ V) as (F1 & F2 & F3 & F4 & F5 & F6).
  pose proof (v_0 _ _ _ V) as V0. pose proof (v_count _ _ _ V) as C.
  assert (HL : Z.of_nat (length (es ++ [e])) = Z.of_nat (length es) + 1) by (rewrite app_length; cbn [length]; lia).
  assert (He : nth_error (es ++ [e]) (length es) = Some e) by (rewrite nth_error_app2, Nat.sub_diag by lia; reflexivity).
  destruct (element_ok b i o s _ _ e R O H He) as (a & EB & EL & _ & _ & Ea & _).
  rewrite begins_app, begins_all in Ea by lia.
  rewrite all_bytes_app, len_app in F4. pose proof (len_nonneg e) as L0. pose proof (len_nonneg (all_bytes es)) as L1.
  destruct (arr_pointers _ _ _ _ A) as (_ & _ & Pp & _).
  set (dw := words_of (sh_cap s)) in *. rewrite HL in F5, V0.
  unfold arr_remove_last. rewrite (num_ok _ _ _ _ A F1). cbn [bind]. rewrite V0.
  rewrite (proj2 (Z.ltb_lt 0 _)) by lia.
  replace (Z.of_nat (length es) + 1 - 1) with (Z.of_nat (length es)) by lia. rewrite EB, EL. cbn [bind].
  assert (Z1 : exists m1 ws1, (if (0 <? len e) && negb (a =? 0) then zero_chars (b_mem b) a (len e) else Some (b_mem b)) = Some m1 /\
    arr_to b i m1 dw ws1 /\ wcount ws1 = wcount ws /\
    (forall x, 0 <= x -> byte ws1 x = if (40 + len (all_bytes es) <=? x) && (x <? 40 + len (all_bytes es) + len e) then 0 else byte ws x) /\
    (forall k, 0 <= k -> (k < 5 \/ 5 + dw <= k) -> wnth ws1 k = wnth ws k)).
  { destruct (Z.ltb_spec 0 (len e)) as [Hp|Hp]; cbn [andb].
    - rewrite (proj2 (Z.eqb_neq a 0)) by lia. cbn [negb].
      destruct (zero_bytes b i dw ws (40 + len (all_bytes es)) (len e) A ltac:(lia) ltac:(lia) ltac:(lia))
        as (m1 & ws1 & E1 & M1 & C1 & B1 & K1).
      exists m1, ws1. split; [rewrite <- E1; f_equal; lia|]. split; [exact M1|]. split; [exact C1|]. split; [exact B1|].
      intros k Hk HK. apply K1; lia.
    - exists (b_mem b), ws. split; [reflexivity|]. split; [now apply arr_to_refl|]. split; [reflexivity|].
      split; [|auto]. intros x Hx.
      destruct (Z.leb_spec (40 + len (all_bytes es)) x); destruct (Z.ltb_spec x (40 + len (all_bytes es) + len e));
        cbn [andb]; try reflexivity; lia. }
  destruct Z1 as (m1 & ws1 & E1 & M1 & C1 & B1 & K1). rewrite E1. cbn [bind].
  pose proof M1 as (A1 & _ & Q1 & _).
  destruct (set_offset_ok (with_mem b m1) i dw ws1 A1 (Z.of_nat (length es) + 1) 0 F2 ltac:(lia) ltac:(lia) ltac:(lia)) as (m2 & E2 & M2).
  rewrite Q1, with_mem_mem in E2. rewrite E2. cbn [bind].
  pose proof (arr_to_trans _ _ _ _ _ _ _ _ M1 M2) as M12. pose proof M12 as (A2 & _ & Q2 & _).
  set (k0 := 5 + dw + (Z.of_nat (length es) + 1)) in *.
  pose proof (set_word_count ws1 k0 0) as C2.
  destruct (set_num_ok (with_mem b m2) i dw (set_word ws1 k0 0) A2 (Z.of_nat (length es)) ltac:(lia) ltac:(lia)) as (m3 & E3 & M3).
  rewrite Q2, with_mem_mem in E3. rewrite E3. cbn [bind].
  pose proof (arr_to_trans _ _ _ _ _ _ _ _ M12 M3) as M. exists m3. split; [reflexivity|].
  apply (arr_to_holds _ _ _ _ _ _ M).
  set (ws3 := set_word (set_word ws1 k0 0) 0 (Z.of_nat (length es))) in *.
  assert (HW : forall k, 1 <= k < 5 -> wnth ws3 k = wnth ws k).
  { intros k Hk. unfold ws3. rewrite !set_word_nth by lia. rewrite (proj2 (Z.eqb_neq k 0)), (proj2 (Z.eqb_neq k k0)) by lia.
    apply K1; lia. }
  split; try (rewrite HW by lia).
  - apply (v_shape _ _ _ V).
  - lia.
  - lia.
  - pose proof (v_bytes _ _ _ V) as VB. rewrite Forall_app in VB. apply VB.
  - destruct M as ((_ & _ & W) & _). exact W.
  - unfold ws3. rewrite !set_word_count. fold dw. lia.
  - unfold ws3. rewrite set_word_nth by lia. reflexivity.
  - apply (v_1 _ _ _ V).
  - apply (v_2 _ _ _ V).
  - apply (v_3 _ _ _ V).
  - apply (v_4 _ _ _ V).
  - intros j Hj. unfold ws3. rewrite !set_word_byte by lia. rewrite B1 by lia.
    destruct (Z.leb_spec (40 + len (all_bytes es)) (40 + j));
      destruct (Z.ltb_spec (40 + j) (40 + len (all_bytes es) + len e)); cbn [andb].
    + rewrite nth_overflow; [reflexivity|unfold len in *; lia].
    + rewrite (v_data _ _ _ V) by lia. rewrite all_bytes_app.
      rewrite !nth_overflow; [reflexivity|unfold len in *; lia|rewrite app_length; unfold len in *; lia].
    + rewrite (v_data _ _ _ V) by lia. rewrite all_bytes_app, app_nth1 by (unfold len in *; lia). reflexivity.
    + lia.
  - intros k Hk. fold dw. unfold ws3. rewrite !set_word_nth by lia. rewrite (proj2 (Z.eqb_neq (5 + dw + k) 0)) by lia.
    destruct (Z.eqb_spec (5 + dw + k) k0) as [E|E].
    + unfold off_value. rewrite (proj2 (Z.leb_gt k (Z.of_nat (length es)))) by lia. reflexivity.
    + rewrite K1 by lia. unfold dw. rewrite (v_offs _ _ _ V) by lia. unfold off_value. rewrite HL.
      destruct (Z.leb_spec k (Z.of_nat (length es))).
      * rewrite (proj2 (Z.leb_le k (Z.of_nat (length es) + 1))) by lia. apply begins_app. lia.
      * rewrite (proj2 (Z.leb_gt k (Z.of_nat (length es) + 1))) by lia. reflexivity.
Qed.

Lemma remove_last_empty b i o s : reachable any b -> nth_error (objects b) i = Some o ->
  holds_array o s [] -> arr_remove_last (b_mem b) (place b i) = Some (false, b_mem b).
Proof.
  intros R O H. destruct (fields_ok b i o s [] R O H) as (E & _). unfold arr_remove_last. rewrite E. reflexivity.
Qed.

(* ---------------- remove_last_num_elements ---------------- *)

Lemma remove_num_none b i o s es k : reachable any b -> nth_error (objects b) i = Some o ->
  holds_array o s es -> k <= 0 \/ Z.of_nat (length es) < k ->
  arr_remove_num (b_mem b) (place b i) k = Some (false, b_mem b).
Proof.
  intros R O H Hk. destruct (fields_ok b i o s es R O H) as (E & _). unfold arr_remove_num. rewrite E. cbn [bind].
  destruct (Z.ltb_spec 0 k); destruct (Z.leb_spec k (Z.of_nat (length es))); cbn [andb]; try reflexivity. lia.
Qed.

Lemma remove_num_all b i o s es : reachable any b -> nth_error (objects b) i = Some o ->
  holds_array o s es -> es <> [] ->
  exists m', arr_remove_num (b_mem b) (place b i) (Z.of_nat (length es)) = Some (true, m') /\
    new_array b i (with_mem b m') s [].
Proof.
  intros R O H He. destruct (fields_ok b i o s es R O H) as (E & _).
  destruct (arr_clear_ok b i o s es R O H) as (m' & EC & N). exists m'. split; [|exact N].
  assert (L : 0 < Z.of_nat (length es)) by (destruct es; [congruence|cbn [length]; lia]).
  unfold arr_remove_num. rewrite E. cbn [bind]. rewrite (proj2 (Z.ltb_lt 0 _)), (proj2 (Z.leb_le _ _)) by lia. cbn [andb].
  rewrite Z.sub_diag. rewrite (proj2 (Z.ltb_ge 0 0)) by lia. rewrite EC. reflexivity.
Qed.

(* ---------------- append_element ---------------- *)

(* whatever the words are, as long as the fields and the offsets make sense *)
Lemma append_step b i dw ws (src : option (list Z)) size : at_arr b i dw ws -> 0 <= dw -> 5 + dw <= wcount ws ->
  0 <= wnth ws 0 -> 5 + dw + wnth ws 0 < wcount ws -> wnth ws 2 <= 8 * dw -> 
  (forall l, src = Some l -> bytes_ok l /\ len l = size) ->
  0 < size < 2 ^ 62 -> 0 < wnth ws 3 < 2 ^ 62 -> wnth ws (5 + dw + wnth ws 0) < 2 ^ 62 -> 
  let n := wnth ws 0 in
  let el := round_up size (wnth ws 3) in
  let nl := el + wnth ws (5 + dw + n) in
  size <= el < size + wnth ws 3 /\ el mod wnth ws 3 = 0 /\
  ((nl <= wnth ws 2 /\ n < wnth ws 1 -> 
    exists m' ws', arr_append (b_mem b) (place b i) src size = Some (true, m') /\
    arr_to b i m' dw ws' /\ wcount ws' = wcount ws /\
    wnth ws' 0 = n + 1 /\ wnth ws' (5 + dw + n) = nl /\
    (forall k, 1 <= k -> (k < 5 \/ 5 + dw <= k \/ src = None) -> k <> 5 + dw + n -> wnth ws' k = wnth ws k) /\
    (forall j, 0 <= j < 8 * dw -> byte ws' (40 + j) =
       match src with Some l => if j <? size then nth (Z.to_nat j) l 0 else byte ws (40 + j)
                    | None => byte ws (40 + j) end)) /\
   (wnth ws 2 < nl \/ wnth ws 1 <= n -> arr_append (b_mem b) (place b i) src size = Some (false, b_mem b))).
Proof.
  intros A Hd HC Hn HO HD Hs Hz Ht Hl n el nl. change (wnth ws 0) with n in Hn, HO, Hl.
  assert (W : words64 ws) by apply A.
  pose proof (wnth_range ws (5 + dw + n) W) as RL. pose proof (wnth_range ws 0 W) as R0. change (wnth ws 0) with n in R0. pose proof (wnth_range ws 1 W) as R1.
  pose proof (Z.mod_pos_bound size (wnth ws 3) ltac:(lia)) as MB.
  pose proof (Z.div_mod size (wnth ws 3) ltac:(lia)) as DM.
  assert (EL : size <= el < size + wnth ws 3 /\ el mod wnth ws 3 = 0).
  { unfold el, round_up. rewrite (proj2 (Z.ltb_lt 0 (wnth ws 3))) by lia.
    destruct (Z.eqb_spec (size mod wnth ws 3) 0) as [E|E]; [lia|].
    unfold u64. rewrite Z.mod_small by lia. split; [lia|].
    apply Z.mod_divide; [lia|]. exists (size / wnth ws 3 + 1). lia. }
  destruct EL as (EL & EM). split; [exact EL|]. split; [exact EM|].
  assert (U : u64 (el + wnth ws (5 + dw + n)) = nl) by (unfold u64, nl; apply Z.mod_small; lia).
  split.
  - intros (Hc & Hm). unfold arr_append. rewrite (slot_ok _ _ _ _ A) by lia. cbn [bind].
    rewrite (proj2 (Z.ltb_lt 0 size)), (proj2 (Z.ltb_lt 0 (wnth ws 3))) by lia. cbn [andb].
    rewrite (num_ok _ _ _ _ A) by lia. cbn [bind]. rewrite (length_ok _ _ _ _ A) by lia. cbn [bind].
    rewrite (capacity_ok _ _ _ _ A), (max_ok _ _ _ _ A) by lia. cbn [bind]. cbv zeta. fold n. fold el.
    rewrite U, EM. rewrite (proj2 (Z.eqb_eq 0 0)), (proj2 (Z.leb_le nl _)), (proj2 (Z.ltb_lt n _)) by lia. cbn [andb].
    assert (Z1 : exists m1 ws1, match src with Some bytes => s <- arr_begin (b_mem b) (place b i) ;; wrbs (b_mem b) s bytes | None => Some (b_mem b) end = Some m1 /\
      arr_to b i m1 dw ws1 /\ wcount ws1 = wcount ws /\
      (forall k, 0 <= k -> (k < 5 \/ 5 + dw <= k \/ src = None) -> wnth ws1 k = wnth ws k) /\
      (forall j, 0 <= j < 8 * dw -> byte ws1 (40 + j) =
        match src with Some l => if j <? size then nth (Z.to_nat j) l 0 else byte ws (40 + j) | None => byte ws (40 + j) end)).
    { destruct src as [l|].
      - destruct (Hs l eq_refl) as (Hb & Hlen). destruct (arr_pointers _ _ _ _ A) as (-> & _). cbn [bind].
        destruct (wr_bytes l b i dw ws 40 A ltac:(lia) ltac:(lia) Hb) as (m1 & ws1 & E1 & M1 & C1 & B1 & K1).
        exists m1, ws1. split; [rewrite <- E1; f_equal; lia|]. split; [exact M1|]. split; [exact C1|]. split.
        + intros k Hk HK. assert (k < 5 \/ 5 + dw <= k) by (destruct HK as [HK|[HK|HK]]; [auto|auto|discriminate HK]).
          apply K1; lia.
        + intros j Hj. rewrite B1 by lia. rewrite Hlen. rewrite (proj2 (Z.leb_le 40 (40 + j))) by lia. cbn [andb].
          replace (40 + j - 40) with j by lia.
          destruct (Z.ltb_spec (40 + j) (40 + size)); destruct (Z.ltb_spec j size); try reflexivity; lia.
      - exists (b_mem b), ws. split; [reflexivity|]. split; [now apply arr_to_refl|]. auto. }
    destruct Z1 as (m1 & ws1 & E1 & M1 & C1 & K1 & B1). cbn [bind] in E1. rewrite E1. cbn [bind].
    pose proof M1 as (A1 & _ & Q1 & _).
    destruct (set_offset_ok (with_mem b m1) i dw ws1 A1 n nl Hd Hn ltac:(lia) ltac:(lia)) as (m2 & E2 & M2).
    rewrite Q1, with_mem_mem in E2. rewrite E2. cbn [bind].
    pose proof (arr_to_trans _ _ _ _ _ _ _ _ M1 M2) as M12. pose proof M12 as (A2 & _ & Q2 & _).
    pose proof (set_word_count ws1 (5 + dw + n) nl) as C2.
    assert (U1 : u64 (n + 1) = n + 1) by (unfold u64; apply Z.mod_small; lia). rewrite U1.
    destruct (set_num_ok (with_mem b m2) i dw _ A2 (n + 1) ltac:(lia) ltac:(lia)) as (m3 & E3 & M3).
    rewrite Q2, with_mem_mem in E3. rewrite E3. cbn [bind].
    pose proof (arr_to_trans _ _ _ _ _ _ _ _ M12 M3) as M.
    exists m3. eexists. split; [reflexivity|]. split; [exact M|]. split; [rewrite !set_word_count; lia|].
    split; [rewrite set_word_nth by lia; reflexivity|]. split.
    { rewrite set_word_nth by lia. rewrite (proj2 (Z.eqb_neq (5 + dw + n) 0)) by lia. rewrite set_word_nth by lia.
      now rewrite Z.eqb_refl. }
    split.
    { intros k Hk HK Hne. rewrite !set_word_nth by lia. rewrite (proj2 (Z.eqb_neq k 0)), (proj2 (Z.eqb_neq k (5 + dw + n))) by lia.
      apply K1; [lia|exact HK]. }
    { intros j Hj. rewrite !set_word_byte by lia. apply B1. lia. }
  - intros HF. unfold arr_append. rewrite (slot_ok _ _ _ _ A) by lia. cbn [bind].
    rewrite (proj2 (Z.ltb_lt 0 size)), (proj2 (Z.ltb_lt 0 (wnth ws 3))) by lia. cbn [andb].
    rewrite (num_ok _ _ _ _ A) by lia. cbn [bind]. rewrite (length_ok _ _ _ _ A) by lia. cbn [bind].
    rewrite (capacity_ok _ _ _ _ A), (max_ok _ _ _ _ A) by lia. cbn [bind]. cbv zeta. fold n. fold el.
    rewrite U, EM. rewrite (proj2 (Z.eqb_eq 0 0)) by lia. cbn [andb].
    destruct (Z.leb_spec nl (wnth ws 2)); destruct (Z.ltb_spec n (wnth ws 1)); cbn [andb]; try reflexivity. lia.
Qed.

Definition padded (size slot : Z) : Z := (size + (slot - 1)) / slot * slot.

Lemma round_padded size slot : 0 < size < 2 ^ 62 -> 0 < slot < 2 ^ 62 -> round_up size slot = padded size slot.
Proof.
  intros Hs Ht. unfold round_up, padded. rewrite (proj2 (Z.ltb_lt 0 slot)) by lia.
  pose proof (Z.div_mod size slot ltac:(lia)) as DM. pose proof (Z.mod_pos_bound size slot ltac:(lia)) as MB.
  destruct (Z.eqb_spec (size mod slot) 0) as [E|E].
  - assert (D : (size + (slot - 1)) / slot = size / slot).
    { symmetry. apply Z.div_unique with (slot - 1); lia. }
    rewrite D. lia.
  - unfold u64. rewrite Z.mod_small by lia.
    assert (D : (size + (slot - 1)) / slot = size / slot + 1).
    { symmetry. apply Z.div_unique with (size mod slot - 1); lia. }
    rewrite D. lia.
Qed.

Lemma append_full b i o s es src size : reachable any b -> nth_error (objects b) i = Some o ->
  holds_array o s es -> sh_cap s < 2 ^ 62 -> 0 < sh_slot s < 2 ^ 62 -> 0 < size < 2 ^ 62 ->
  (forall l, src = Some l -> bytes_ok l /\ len l = size) ->
  Z.of_nat (length es) = sh_max s \/ sh_cap s < len (all_bytes es) + padded size (sh_slot s) ->
  arr_append (b_mem b) (place b i) src size = Some (false, b_mem b).
Proof.
  intros R O H Hc Ht Hs Hsrc HF. destruct (holds_at_arr b i o s es R O H) as (ws & A & V).
  destruct (view_facts _ _ _ V) as (F1 & F2 & F3 & F4 & F5 & F6).
  pose proof (v_0 _ _ _ V) as V0. pose proof (v_1 _ _ _ V) as V1. pose proof (v_2 _ _ _ V) as V2.
  pose proof (v_3 _ _ _ V) as V3. pose proof (v_count _ _ _ V) as C.
  assert (VL : wnth ws (5 + words_of (sh_cap s) + wnth ws 0) = len (all_bytes es)).
  { rewrite V0, (v_offs _ _ _ V), off_value_in, begins_all by lia. reflexivity. }
  destruct (append_step b i _ ws src size A F2) as (_ & _ & _ & G); try lia; [exact Hsrc|].
  apply G. rewrite VL, V0, V1, V2, V3. rewrite round_padded by lia. lia.
Qed.

Lemma append_nothing b i o s es src size : reachable any b -> nth_error (objects b) i = Some o ->
  holds_array o s es -> size = 0 \/ sh_slot s = 0 ->
  arr_append (b_mem b) (place b i) src size = Some (false, b_mem b).
Proof.
  intros R O H HF. destruct (fields_ok b i o s es R O H) as (_ & _ & _ & E & _).
  unfold arr_append. rewrite E. cbn [bind].
  destruct (Z.ltb_spec 0 size); destruct (Z.ltb_spec 0 (sh_slot s)); cbn [andb]; try reflexivity. lia.
Qed.

(* an accepted element *)
Lemma append_accepted b i o s es l : reachable any b -> nth_error (objects b) i = Some o ->
  holds_array o s es -> sh_cap s < 2 ^ 62 -> 0 < sh_slot s < 2 ^ 62 -> bytes_ok l -> 0 < len l ->
  Z.of_nat (length es) < sh_max s -> len (all_bytes es) + padded (len l) (sh_slot s) <= sh_cap s ->
  exists m' ws, arr_append (b_mem b) (place b i) (Some l) (len l) = Some (true, m') /\
    arr_to b i m' (words_of (sh_cap s)) ws /\ wcount ws = 5 + words_of (sh_cap s) + (sh_max s + 1) /\
    wnth ws 0 = Z.of_nat (length es) + 1 /\
    wnth ws (5 + words_of (sh_cap s) + Z.of_nat (length es)) = len (all_bytes es) + padded (len l) (sh_slot s) /\
    wnth ws (5 + words_of (sh_cap s) + (Z.of_nat (length es) + 1)) = 0 /\
    (forall j, 0 <= j < sh_cap s -> byte ws (40 + j) =
       if j <? len l then nth (Z.to_nat j) l 0 else nth (Z.to_nat j) (all_bytes es) 0) /\
    words64 ws.
Proof.
  intros R O H Hc Ht Hb Hl Hn HF. destruct (holds_at_arr b i o s es R O H) as (ws & A & V).
  destruct (view_facts _ _ _ V) as (F1 & F2 & F3 & F4 & F5 & F6).
  pose proof (v_0 _ _ _ V) as V0. pose proof (v_1 _ _ _ V) as V1. pose proof (v_2 _ _ _ V) as V2.
  pose proof (v_3 _ _ _ V) as V3. pose proof (v_count _ _ _ V) as C.
  assert (PL : len l <= padded (len l) (sh_slot s)).
  { unfold padded. pose proof (Z.div_mod (len l + (sh_slot s - 1)) (sh_slot s) ltac:(lia)).
    pose proof (Z.mod_pos_bound (len l + (sh_slot s - 1)) (sh_slot s) ltac:(lia)). lia. }
  assert (VL : wnth ws (5 + words_of (sh_cap s) + wnth ws 0) = len (all_bytes es)).
  { rewrite V0, (v_offs _ _ _ V), off_value_in, begins_all by lia. reflexivity. }
  set (dw := words_of (sh_cap s)) in *.
  destruct (append_step b i dw ws (Some l) (len l) A F2) as (_ & _ & G & _); try lia.
  { intros l0 E. assert (l0 = l) as -> by congruence. auto. }
  cbv zeta in G. rewrite V3, VL, V0, V1, V2 in G. rewrite round_padded in G by lia.
  destruct G as (m' & ws' & E & T & C' & W0 & WN & WK & BY); [lia|].
  exists m', ws'. split; [exact E|]. split; [exact T|]. split; [lia|]. split; [exact W0|]. split; [lia|]. split.
  { rewrite WK by lia. unfold dw. rewrite (v_offs _ _ _ V) by lia. unfold off_value.
    rewrite (proj2 (Z.leb_gt _ _)) by lia. reflexivity. }
  split; [|destruct T as ((_ & _ & W) & _); exact W].
  intros j Hj. rewrite BY by lia. destruct (j <? len l); [reflexivity|]. apply (v_data _ _ _ V). lia.
Qed.

(* ---------------- append_num_elements ---------------- *)

Lemma append_loop_ok fuel : forall b i dw ws size k mx, at_arr b i dw ws -> 0 <= dw ->
  wcount ws = 5 + dw + (mx + 1) -> wnth ws 1 = mx -> 0 <= wnth ws 0 <= mx -> mx < 2 ^ 62 ->
  wnth ws 2 <= 8 * dw -> wnth ws 2 < 2 ^ 62 -> 0 < size < 2 ^ 62 -> 0 < wnth ws 3 < 2 ^ 62 ->
  wnth ws (5 + dw + wnth ws 0) <= wnth ws 2 ->
  (forall x, wnth ws 0 < x <= mx -> wnth ws (5 + dw + x) = 0) ->
  (Z.to_nat (mx - wnth ws 0) < fuel)%nat -> 0 <= k ->
  exists ok m' ws', arr_append_loop fuel (b_mem b) (place b i) size k = Some (ok, m') /\
    arr_to b i m' dw ws' /\ wcount ws' = wcount ws /\
    wnth ws 0 <= wnth ws' 0 <= mx /\
    (ok = true -> wnth ws' 0 = wnth ws 0 + k) /\
    (round_up size (wnth ws 3) + wnth ws (5 + dw + wnth ws 0) <= wnth ws 2 /\ wnth ws 0 + k <= mx -> ok = true) /\
    (forall x, 1 <= x < 5 + dw + wnth ws 0 -> wnth ws' x = wnth ws x) /\
    (wnth ws' 0 = wnth ws 0 -> forall x, 0 <= x -> wnth ws' x = wnth ws x) /\
    (forall x, wnth ws' 0 < x <= mx -> wnth ws' (5 + dw + x) = 0) /\
    (wnth ws 0 < wnth ws' 0 -> wnth ws' (5 + dw + wnth ws' 0) = 0 \/ mx < wnth ws' 0).
Proof.
  induction fuel as [|fuel IH]; intros b i dw ws size k mx A Hd HC V1 V0 Hm H2 H2' Hs H3 HL HZ HF Hk; [lia|].
  cbn [arr_append_loop]. destruct (Z.leb_spec k 0) as [Hk0|Hk0].
  - exists true, (b_mem b), ws. split; [reflexivity|]. split; [now apply arr_to_refl|]. split; [reflexivity|].
    split; [lia|]. split; [lia|]. split; [auto|]. split; [auto|]. split; [auto|]. split; [exact HZ|]. lia.
  - destruct (append_step b i dw ws None size A Hd) as (ER & _ & G1 & G2); try lia; [discriminate|].
    set (n := wnth ws 0) in *. set (el := round_up size (wnth ws 3)) in *.
    destruct (Z.le_gt_cases (el + wnth ws (5 + dw + n)) (wnth ws 2)) as [L1|L1];
      [destruct (Z.lt_ge_cases n mx) as [L2|L2]|].
    + destruct G1 as (m1 & ws1 & E1 & M1 & C1 & W0 & WN & WK & BY); [lia|].
      rewrite E1. cbn [bind]. pose proof M1 as (A1 & _ & Q1 & _).
      assert (T0 : forall x, 1 <= x < 5 -> wnth ws1 x = wnth ws x) by (intros x Hx; apply WK; lia).
      assert (TN : wnth ws1 (5 + dw + (n + 1)) = 0) by (rewrite WK by lia; apply HZ; lia).
      assert (RN : 0 <= wnth ws (5 + dw + n)) by (apply wnth_range; apply A).
      pose proof (T0 1 ltac:(lia)) as T1. pose proof (T0 2 ltac:(lia)) as T2. pose proof (T0 3 ltac:(lia)) as T3.
      assert (HZ1 : forall x, wnth ws1 0 < x <= mx -> wnth ws1 (5 + dw + x) = 0).
      { rewrite W0. intros x Hx. rewrite WK by (auto; lia). apply HZ. lia. }
      assert (HL1 : wnth ws1 (5 + dw + wnth ws1 0) <= wnth ws1 2) by (rewrite W0, TN; lia).
      destruct (IH (with_mem b m1) i dw ws1 size (k - 1) mx A1 Hd ltac:(lia) ltac:(lia) ltac:(lia) Hm ltac:(lia) ltac:(lia) Hs
        ltac:(lia) HL1 HZ1 ltac:(lia) ltac:(lia)) as (ok & m2 & ws2 & E2 & M2 & C2 & R2 & K2 & S2 & P2 & N2 & Z2 & X2).
      rewrite Q1, with_mem_mem in E2. rewrite W0 in *.
      exists ok, m2, ws2. split; [exact E2|]. split; [exact (arr_to_trans _ _ _ _ _ _ _ _ M1 M2)|]. split; [lia|].
      split; [lia|]. split; [intros Ho; rewrite (K2 Ho); lia|]. split.
      { intros (S3 & S4). apply S2. rewrite !T0 by lia. fold el. rewrite TN.
        lia. }
      split.
      { intros x Hx. rewrite P2 by lia. destruct (Z.eq_dec x 0); [lia|].
        apply WK; [lia|auto|lia]. }
      split; [lia|]. split; [exact Z2|].
      intros _. destruct (Z.eq_dec (wnth ws2 0) (n + 1)) as [E|E].
      * left. rewrite E. rewrite (N2 E) by lia. exact TN.
      * destruct (X2 ltac:(lia)); auto.
    + rewrite G2 by lia. cbn [bind]. exists false, (b_mem b), ws. split; [reflexivity|].
      split; [now apply arr_to_refl|]. split; [reflexivity|]. split; [lia|]. split; [discriminate|].
      split; [lia|]. split; [auto|]. split; [auto|]. split; [exact HZ|]. lia.
    + rewrite G2 by lia. cbn [bind]. exists false, (b_mem b), ws. split; [reflexivity|].
      split; [now apply arr_to_refl|]. split; [reflexivity|]. split; [lia|]. split; [discriminate|].
      split; [lia|]. split; [auto|]. split; [auto|]. split; [exact HZ|]. lia.
Qed.

Lemma byte_words ws ws' j : 0 <= j -> wnth ws (j / 8) = wnth ws' (j / 8) -> byte ws j = byte ws' j.
Proof. intros _ E. unfold byte. now rewrite E. Qed.

(* words that agree with those of an array from the second on, the number of elements being right *)
Lemma view_same ws ws' s es : view ws s es -> words64 ws' -> wcount ws' = wcount ws ->
  (forall x, 0 <= x < wcount ws -> wnth ws' x = wnth ws x) -> view ws' s es.
Proof.
  intros V W C E. destruct (view_facts _ _ _ V) as (F1 & F2 & F3 & F4 & F5 & F6). pose proof (v_count _ _ _ V) as C0.
  pose proof (v_shape _ _ _ V) as (S1 & S2 & _).
  destruct V as [U1 U2 U3 U4 U5 U6 U7 U8 U9 U10 U11 UD UO]. split; auto; try (rewrite E by lia; assumption).
  - lia.
  - intros j Hj. rewrite <- UD by lia. apply byte_words; [lia|]. apply E.
    pose proof (Z.div_mod (40 + j) 8 ltac:(lia)). pose proof (Z.mod_pos_bound (40 + j) 8 ltac:(lia)). lia.
  - intros k Hk. rewrite <- UO by lia. apply E. lia.
Qed.

Lemma append_num_ok b i o s es size k : reachable any b -> nth_error (objects b) i = Some o ->
  holds_array o s es -> sh_cap s < 2 ^ 62 -> 0 < sh_slot s < 2 ^ 62 -> 0 < size < 2 ^ 62 -> 0 <= k < 2 ^ 64 ->
  exists ok m', arr_append_num (b_mem b) (place b i) size k = Some (ok, m') /\
    (ok = false -> new_array b i (with_mem b m') s es) /\
    (ok = true -> arr_num m' (place b i) = Some (Z.of_nat (length es) + k)) /\
    (len (all_bytes es) + padded size (sh_slot s) <= sh_cap s -> Z.of_nat (length es) + k <= sh_max s -> ok = true) /\
    (sh_max s < Z.of_nat (length es) + k -> ok = false).
Proof.
  intros R O H Hc Ht Hs Hk. destruct (holds_at_arr b i o s es R O H) as (ws & A & V).
  destruct (view_facts _ _ _ V) as (F1 & F2 & F3 & F4 & F5 & F6).
  pose proof (v_0 _ _ _ V) as V0. pose proof (v_1 _ _ _ V) as V1. pose proof (v_2 _ _ _ V) as V2.
  pose proof (v_3 _ _ _ V) as V3. pose proof (v_count _ _ _ V) as C.
  assert (VL : wnth ws (5 + words_of (sh_cap s) + Z.of_nat (length es)) = len (all_bytes es)).
  { rewrite (v_offs _ _ _ V), off_value_in, begins_all by lia. reflexivity. }
  assert (VZ : forall x, Z.of_nat (length es) < x <= sh_max s -> wnth ws (5 + words_of (sh_cap s) + x) = 0).
  { intros x Hx. rewrite (v_offs _ _ _ V) by lia. unfold off_value. rewrite (proj2 (Z.leb_gt _ _)) by lia. reflexivity. }
  unfold arr_append_num. rewrite (num_ok _ _ _ _ A F1), (max_ok _ _ _ _ A F1). cbn [bind]. rewrite V0, V1.
  rewrite (view_length _ _ _ _ _ A V). destruct (arr_pointers _ _ _ _ A) as (P1 & _). rewrite P1. cbn [bind].
  set (dw := words_of (sh_cap s)) in *. set (n := Z.of_nat (length es)) in *.
  destruct (append_loop_ok (S (Z.to_nat (sh_max s - n))) b i dw ws size k (sh_max s)) as
    (ok & m1 & ws1 & E1 & M1 & C1 & R1 & K1 & S1 & Q1 & N1 & Z1 & X1);
    try (rewrite ?V0, ?V1, ?V2, ?V3, ?VL; lia); auto.
  { rewrite V0. exact VZ. }
  rewrite V0, V2, V3, VL in S1. rewrite round_padded in S1 by lia. rewrite V0 in *.
  destruct (Z.leb_spec (u64 (n + k)) (sh_max s)) as [U|U].
  - rewrite E1. cbn [bind]. destruct ok.
    + exists true, m1. split; [reflexivity|]. split; [discriminate|]. split.
      { intros _. pose proof M1 as (A1 & _ & P & _). rewrite <- P. 
        change (arr_num m1) with (arr_num (b_mem (with_mem b m1))). rewrite (num_ok _ _ _ _ A1) by lia.
        now rewrite (K1 eq_refl). }
      split; [auto|]. specialize (K1 eq_refl). lia.
    + pose proof M1 as (A1 & _ & P & _).
      pose proof (num_ok _ _ _ _ A1 ltac:(lia)) as EN1. pose proof (length_ok _ _ _ _ A1 F2 ltac:(lia) ltac:(lia)) as EL1.
      rewrite P, with_mem_mem in EN1, EL1. rewrite EL1, EN1. cbn [bind].
      destruct (Z.ltb_spec n (wnth ws1 0)) as [L|L].
      * destruct (zero_offsets_ok (Z.to_nat (wnth ws1 0 - n)) (with_mem b m1) i dw ws1 (n + 1) A1 F2 ltac:(lia) ltac:(lia))
          as (m2 & ws2 & E2 & M2 & C2 & O2). rewrite P, with_mem_mem in E2. rewrite E2. cbn [bind].
        destruct (X1 L) as [X|X]; [|lia]. rewrite X. rewrite (proj2 (Z.ltb_ge (len (all_bytes es)) 0)) by lia. cbn [bind].
        pose proof (arr_to_trans _ _ _ _ _ _ _ _ M1 M2) as M12. pose proof M12 as (A2 & _ & P2 & _).
        destruct (set_num_ok (with_mem b m2) i dw ws2 A2 n ltac:(lia) ltac:(lia)) as (m3 & E3 & M3).
        rewrite P2, with_mem_mem in E3. rewrite E3. cbn [bind].
        pose proof (arr_to_trans _ _ _ _ _ _ _ _ M12 M3) as M13. pose proof M13 as (A3 & _ & P3 & _).
        destruct (set_offset_ok (with_mem b m3) i dw _ A3 n (len (all_bytes es)) F2 ltac:(lia)) as (m4 & E4 & M4).
        { rewrite set_word_count. lia. }
        { lia. }
        rewrite P3, with_mem_mem in E4. rewrite E4. cbn [bind].
        pose proof (arr_to_trans _ _ _ _ _ _ _ _ M13 M4) as M14.
        exists false, m4. split; [reflexivity|]. split; [|split; [discriminate|]].
        { intros _. apply (arr_to_holds _ _ _ _ _ _ M14). apply (view_same ws); [exact V|apply M14|rewrite !set_word_count; lia|].
          intros x Hx. rewrite set_word_nth by (rewrite ?set_word_count; lia).
          destruct (Z.eqb_spec x (5 + dw + n)) as [->|X2]; [symmetry; exact VL|].
          rewrite set_word_nth by lia. destruct (Z.eqb_spec x 0) as [->|X3]; [symmetry; exact V0|].
          rewrite O2 by lia.
          destruct (Z.lt_ge_cases x (5 + dw + n)) as [X4|X4].
          - rewrite (proj2 (Z.leb_gt (5 + dw + (n + 1)) x)) by lia. cbn [andb]. apply Q1. lia.
          - rewrite (proj2 (Z.leb_le (5 + dw + (n + 1)) x)) by lia. cbn [andb].
            pose proof (VZ (x - 5 - dw) ltac:(lia)) as VZx. replace (5 + dw + (x - 5 - dw)) with x in VZx by lia.
            destruct (Z.ltb_spec x (5 + dw + (n + 1) + Z.of_nat (Z.to_nat (wnth ws1 0 - n)))) as [X5|X5]; [congruence|].
            pose proof (Z1 (x - 5 - dw) ltac:(lia)) as Z1x. replace (5 + dw + (x - 5 - dw)) with x in Z1x by lia. congruence. }
        split; [|auto]. intros L1 L2. apply S1. lia.
      * assert (EN : wnth ws1 0 = n) by lia. rewrite EN in *.
        assert (EL : wnth ws1 (5 + dw + n) = len (all_bytes es)) by (rewrite N1 by lia; exact VL).
        rewrite EL, (proj2 (Z.ltb_ge (len (all_bytes es)) (len (all_bytes es)))) by lia. cbn [bind].
        exists false, m1. split; [reflexivity|]. split; [|split; [discriminate|]].
        { intros _. apply (arr_to_holds _ _ _ _ _ _ M1). apply (view_same ws); [exact V|apply M1|lia|].
          intros x Hx. apply N1; [reflexivity|lia]. }
        split; [|auto]. intros L1 L2. apply S1. lia.
  - exists false, (b_mem b). split; [reflexivity|]. rewrite with_mem_same. split; [intros _; now apply same_array with o|].
    split; [discriminate|]. split; [|auto]. intros _ L. unfold u64 in U. rewrite Z.mod_small in U by lia. lia.
Qed.

(* ---------------- remove_last_num_elements: a part of the elements ---------------- *)

Lemma remove_num_some b i o s es k : reachable any b -> nth_error (objects b) i = Some o ->
  holds_array o s es -> 0 < k < Z.of_nat (length es) ->
  let n' := (length es - Z.to_nat k)%nat in
  begins es n' + (len (all_bytes es) - begins es (n' - 1)) <= sh_cap s ->
  exists m', arr_remove_num (b_mem b) (place b i) k = Some (true, m') /\
    arr_num m' (place b i) = Some (Z.of_nat (length es)) /\ arr_length m' (place b i) = Some 0.
Proof.
  intros R O H Hk n' HB. destruct (holds_at_arr b i o s es R O H) as (ws & A & V).
  destruct (view_facts _ _ _ V) as (F1 & F2 & F3 & F4 & F5 & F6).
  pose proof (v_0 _ _ _ V) as V0. pose proof (v_count _ _ _ V) as C.
  assert (Hn' : (0 < n' < length es)%nat) by (unfold n'; lia).
  destruct (nth_error es n') as [e|] eqn:He; [|apply nth_error_None in He; lia].
  destruct (element_ok b i o s es n' e R O H He) as (a & EB & _ & _ & _ & Ea & _).
  set (dw := words_of (sh_cap s)) in *.
  unfold arr_remove_num. rewrite (num_ok _ _ _ _ A F1). cbn [bind]. rewrite V0.
  rewrite (proj2 (Z.ltb_lt 0 k)), (proj2 (Z.leb_le k _)) by lia. cbn [andb].
  replace (Z.of_nat (length es) - k) with (Z.of_nat n') by (unfold n'; lia).
  rewrite (proj2 (Z.ltb_lt 0 (Z.of_nat n'))) by lia. rewrite (view_length _ _ _ _ _ A V). cbn [bind].
  rewrite (offset_ok b i dw ws A) by lia. rewrite V0, (proj2 (Z.leb_le (Z.of_nat n' - 1) _)) by lia. cbn [bind].
  unfold dw at 1 2. rewrite !(v_offs _ _ _ V) by lia. replace (Z.of_nat n' - 1) with (Z.of_nat (n' - 1)) by lia.
  rewrite off_value_in by lia. rewrite EB.
  set (l' := begins es (n' - 1)) in *. pose proof (begins_nonneg es (n' - 1)) as N1. pose proof (begins_le es (n' - 1)) as N2.
  pose proof (begins_nonneg es n') as N3. fold l' in N1, N2.
  assert (Z1 : exists m1 ws1, (if l' <? len (all_bytes es) then a0 <- Some a;; zero_chars (b_mem b) a0 (len (all_bytes es) - l') else Some (b_mem b)) = Some m1 /\
    arr_to b i m1 dw ws1 /\ wcount ws1 = wcount ws /\ (forall x, 0 <= x -> (x < 5 \/ 5 + dw <= x) -> wnth ws1 x = wnth ws x)).
  { destruct (Z.ltb_spec l' (len (all_bytes es))) as [L|L].
    - cbn [bind]. destruct (zero_bytes b i dw ws (40 + begins es n') (len (all_bytes es) - l') A ltac:(lia) ltac:(lia) ltac:(lia))
        as (m1 & ws1 & E1 & M1 & C1 & B1 & K1).
      exists m1, ws1. split; [rewrite <- E1; f_equal; lia|]. split; [exact M1|]. split; [exact C1|].
      intros x Hx HX. apply K1; lia.
    - exists (b_mem b), ws. split; [reflexivity|]. split; [now apply arr_to_refl|]. auto. }
  destruct Z1 as (m1 & ws1 & E1 & M1 & C1 & K1). rewrite E1. cbn [bind].
  pose proof M1 as (A1 & _ & P & _).
  destruct (zero_offsets_ok (Z.to_nat k) (with_mem b m1) i dw ws1 (Z.of_nat n' + 1) A1 F2 ltac:(lia) ltac:(lia))
    as (m2 & ws2 & E2 & M2 & C2 & O2). rewrite P, with_mem_mem in E2. rewrite E2. cbn [bind].
  pose proof (arr_to_trans _ _ _ _ _ _ _ _ M1 M2) as M. pose proof M as (A2 & _ & P2 & _).
  assert (W0 : wnth ws2 0 = Z.of_nat (length es)).
  { rewrite O2 by lia. rewrite (proj2 (Z.leb_gt _ 0)) by lia. cbn [andb]. rewrite K1 by lia. exact V0. }
  pose proof (num_ok _ _ _ _ A2 ltac:(lia)) as EN2. pose proof (length_ok _ _ _ _ A2 F2 ltac:(lia) ltac:(lia)) as EL2.
  rewrite P2, with_mem_mem in EN2, EL2.
  exists m2. split; [reflexivity|]. rewrite EN2, EL2, W0. split; [reflexivity|]. f_equal. rewrite O2 by lia.
  rewrite (proj2 (Z.leb_le _ _)), (proj2 (Z.ltb_lt _ _)) by lia. reflexivity.
Qed.
