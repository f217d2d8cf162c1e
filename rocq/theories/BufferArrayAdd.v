(* Arrays of elements in buffers: adding arrays. *)
From Coq Require Import ZArith List Bool Lia.
From Verif Require Import Tac MBuf MBufSpec MBufMem MBufAbs MBufRemap MemPool Buffer BufferSpec BufferUser
  BufferProofs BufferAddMem BufferWrite BufferReach BufferProps Lines LinesSpec LinesProofs Strings StringsSpec StringsProofs
  BufferArray BufferArraySpec BufferArrayProofs BufferArrayOps.
Import ListNotations.
Local Open Scope Z_scope.

Definition arrq (mx c ty : Z) : request :=
  Request (fun _ => None) [0; 0; 0; mx; c; 8; ty] 56 T_ARRAY [Attr 0 1 c; Attr 8 8 (mx + 1)].

Lemma words_of_8 n : 0 <= n -> words_of (n * 8) = n.
Proof. intros. unfold words_of. symmetry. apply Z.div_unique with 7; lia. Qed.

Lemma arrq_words mx c ty slot : 0 <= mx ->
  object_words 56 [Attr 0 1 c; Attr 8 8 (mx + 1)] = array_words (Shape mx c slot ty).
Proof.
  intros H. unfold object_words, attr_bytes, array_words. cbn [fold_right at_count at_size sh_max sh_cap].
  rewrite Z.mul_1_r, words_of_8 by lia. change (words_of 56) with 7. lia.
Qed.

Lemma arrq_ok b mx c ty : shape_ok (Shape mx c 8 ty) -> array_fits b (Shape mx c 8 ty) -> request_ok b (arrq mx c ty).
Proof.
  intros (S1 & S2 & S3 & S4 & S5) F. cbn [sh_max sh_cap sh_slot sh_type] in *. split.
  - split; cbn [arrq rq_size rq_obj rq_attrs rq_mem].
    + lia.
    + vm_compute. discriminate.
    + repeat constructor; lia.
    + intros x [<-|[<-|[]]]; cbn [at_offset]; repeat split; lia.
    + cbn. constructor; [intros [E|[]]; lia|constructor; [auto|constructor]].
    + intros x [<-|[<-|[]]]; cbn [at_size at_count]; lia.
    + intros x [<-|[<-|[]]] j Hj N; exfalso; apply N; reflexivity.
  - unfold array_fits in F. cbn [arrq rq_size rq_attrs]. rewrite (arrq_words mx c ty 8) by lia.
    cbn [length]. change (Z.of_nat 2) with 2. lia.
Qed.

Lemma seven (ow : list Z) a b c d e f g : wcount ow = 7 -> wnth ow 0 = a -> wnth ow 1 = b -> wnth ow 2 = c ->
  wnth ow 3 = d -> wnth ow 4 = e -> wnth ow 5 = f -> wnth ow 6 = g -> ow = [a; b; c; d; e; f; g].
Proof.
  unfold wcount, wnth. intros L <- <- <- <- <- <- <-.
  destruct ow as [|x0 [|x1 [|x2 [|x3 [|x4 [|x5 [|x6 [|x7 ow]]]]]]]]; cbn [length] in L; try lia. reflexivity.
Qed.

Lemma byte_zero_word ws k : words64 ws -> 0 <= k < wcount ws ->
  (forall j, 8 * k <= j < 8 * k + 8 -> byte ws j = 0) -> wnth ws k = 0.
Proof.
  intros W Hk H. pose proof (wnth_range ws k W) as R.
  assert (B : forall r, 0 <= r < 8 -> wnth ws k / 256 ^ r mod 256 = 0).
  { intros r Hr. specialize (H (8 * k + r) ltac:(lia)). unfold byte in H.
    replace (8 * k + r) with (r + k * 8) in H by lia. rewrite Z.div_add, Z.mod_add in H by lia.
    rewrite (Z.div_small r 8), (Z.mod_small r 8) in H by lia. exact H. }
  pose proof (B 0 ltac:(lia)) as B0. pose proof (B 1 ltac:(lia)) as B1. pose proof (B 2 ltac:(lia)) as B2.
  pose proof (B 3 ltac:(lia)) as B3. pose proof (B 4 ltac:(lia)) as B4. pose proof (B 5 ltac:(lia)) as B5.
  pose proof (B 6 ltac:(lia)) as B6. pose proof (B 7 ltac:(lia)) as B7. clear B H.
  set (w := wnth ws k) in *. clearbody w. clear - R B0 B1 B2 B3 B4 B5 B6 B7.
  assert (S : forall v, v mod 256 = 0 -> v = 256 * (v / 256)) by (intros v Hv; pose proof (Z.div_mod v 256 ltac:(lia)); lia).
  change (256 ^ 0) with 1 in B0. rewrite Z.div_1_r in B0.
  change (256 ^ 1) with 256 in B1.
  assert (D : forall r, 0 <= r -> w / 256 ^ (r + 1) = w / 256 ^ r / 256).
  { intros r Hr. rewrite Z.pow_add_r by lia. change (256 ^ 1) with 256. rewrite Z.div_div; [reflexivity| |lia].
    pose proof (pow256 r Hr). lia. }
  pose proof (D 1 ltac:(lia)) as D2. pose proof (D 2 ltac:(lia)) as D3. pose proof (D 3 ltac:(lia)) as D4.
  pose proof (D 4 ltac:(lia)) as D5. pose proof (D 5 ltac:(lia)) as D6. pose proof (D 6 ltac:(lia)) as D7.
  pose proof (D 7 ltac:(lia)) as D8.
  change (1 + 1) with 2 in *. change (2 + 1) with 3 in *. change (3 + 1) with 4 in *. change (4 + 1) with 5 in *.
  change (5 + 1) with 6 in *. change (6 + 1) with 7 in *. change (7 + 1) with 8 in *.
  assert (E8 : w / 256 ^ 8 = 0) by (change (256 ^ 8) with (2 ^ 64); apply Z.div_small; lia).
  change (256 ^ 1) with 256 in D2.
  apply S in B0, B1, B2, B3, B4, B5, B6, B7. lia.
Qed.

Lemma arrq_stored mx c ty o : shape_ok (Shape mx c 8 ty) -> stored_as (arrq mx c ty) o ->
  exists ws, o = arr_obj (words_of c) ws /\ view ws (Shape mx c 8 ty) [].
Proof.
  intros SO (ow & arrs & (SB & F) & ->). cbn [arrq rq_size rq_obj rq_attrs rq_mem rq_type] in *.
  pose proof SO as (S1 & S2 & S3 & S4 & S5). cbn [sh_max sh_cap sh_slot sh_type] in *.
  destruct SB as (W & _ & Full).
  assert (ow = [0; 0; 0; mx; c; 8; ty]) as ->.
  { apply seven; [exact W| | | | | | |]; rewrite Full by lia; reflexivity. }
  inversion F as [|x data at' arrs' HA F' E1 E2]; subst. inversion F' as [|x2 offs at2 arrs2 HO F2 E1 E2]; subst.
  inversion F2; subst. clear F F' F2.
  cbn [at_offset] in HA, HO. change (wnth [0; 0; 0; mx; c; 8; ty] (0 / 8)) with 0 in HA.
  change (wnth [0; 0; 0; mx; c; 8; ty] (8 / 8)) with 0 in HO.
  destruct HA as (C & W64 & Hb). destruct HO as (Co & Wo & Ho).
  unfold attr_bytes in *. cbn [at_count at_size] in *. rewrite Z.mul_1_r in *. rewrite words_of_8 in * by lia.
  change (negb (0 =? 0)) with false in Hb, Ho. cbn [andb] in Hb, Ho.
  assert (ZO : forall k, 0 <= k <= mx -> wnth offs k = 0).
  { intros k Hk. apply byte_zero_word; [exact Wo|lia|]. intros j Hj. apply Ho. lia. }
  set (hdr := [0; mx; c; 8; ty]).
  exists (hdr ++ data ++ offs). split.
  { unfold expected_object, arr_obj, T_ARRAY. cbn [map at_offset starts combine concat].
    rewrite app_nil_r. f_equal. change (8 * wcount [0; 0; 0; mx; c; 8; ty]) with 56. rewrite C.
    rewrite !map_app. reflexivity. }
  assert (Ch : wcount hdr = 5) by reflexivity.
  pose proof (words_of_nonneg _ S2) as Hd. pose proof (words_of_le _ S2) as Hd8.
  split; cbn [sh_max sh_cap sh_slot sh_type]; auto.
  - unfold words64 in *. rewrite !Forall_app. split; [repeat constructor; lia|]. split; [exact W64|exact Wo].
  - rewrite !wcount_app. lia.
  - intros j Hj. change 40 with (8 * 5).
    pose proof (Z.div_mod j 8 ltac:(lia)). pose proof (Z.mod_pos_bound j 8 ltac:(lia)).
    rewrite (byte_shift _ data); [|lia|lia|rewrite wnth_app2, wnth_app1 by lia; f_equal; lia].
    rewrite Hb by lia. destruct (Z.to_nat j); reflexivity.
  - intros k Hk. rewrite wnth_app2 by lia. rewrite wnth_app2 by lia.
    replace (5 + words_of c + k - wcount hdr - wcount data) with k by lia. rewrite ZO by lia.
    unfold off_value, begins. rewrite firstn_nil. destruct (_ <=? _); reflexivity.
Qed.

(* the state after arr_new *)
Lemma arr_new_ok P hp b mx c ty : reachable P b -> good_heap hp -> shape_ok (Shape mx c 8 ty) ->
  array_fits b (Shape mx c 8 ty) -> P (arrq mx c ty) ->
  exists p b1, arr_new hp b mx c ty = Some (p, b1) /\
    (p <> 0 -> p = place b1 (length (objects b)) /\ reachable P b1 /\
      (0 < c -> added_only b -> added_only b1) /\
      exists ws, at_arr b1 (length (objects b)) (words_of c) ws /\
        objects b1 = objects b ++ [arr_obj (words_of c) ws] /\ view ws (Shape mx c 8 ty) []) /\
    (p = 0 -> no_end_pointer (b_mem b) -> objects b1 = objects b) /\
    (array_room b (Shape mx c 8 ty) -> p <> 0 /\ data_addr (b_h b1) = data_addr (b_h b)) /\
    (added_only b -> memory_up_to hp (data_size (b_h b) + 8 * (array_words (Shape mx c 8 ty) + 5) + 16) -> p <> 0).
Proof.
  intros RP Hh SO F HP. pose proof SO as (S1 & S2 & S3 & S4 & S5). cbn [sh_max sh_cap sh_slot sh_type] in *.
  assert (R : reachable any b) by (eapply reachable_mono; [|exact RP]; exact (fun _ _ => Logic.I)).
  pose proof (arrq_ok b mx c ty SO F) as RQ.
  destruct (add_defined hp b (arrq mx c ty) R Hh RQ) as (r & b1 & E).
  assert (SR : array_room b (Shape mx c 8 ty) -> r <> 0 /\ data_addr (b_h b1) = data_addr (b_h b)).
  { intros HR. destruct (add_with_room hp b (arrq mx c ty) R Hh RQ) as (r2 & b2 & E2 & N2 & D2).
    - unfold has_room. cbn [arrq rq_size rq_attrs]. rewrite (arrq_words mx c ty 8) by lia. cbn [length]. change (Z.of_nat 2) with 2.
      unfold array_room in HR. cbv zeta in HR |- *. exact HR.
    - rewrite E in E2. assert (r = r2) by congruence. assert (b1 = b2) as -> by congruence. split; congruence. }
  assert (AR : added_only b -> memory_up_to hp (data_size (b_h b) + 8 * (array_words (Shape mx c 8 ty) + 5) + 16) -> r <> 0).
  { intros AO MM. destruct (add_fresh hp b (arrq mx c ty) AO Hh) as (r2 & b2 & E2 & N2); [|exact RQ|congruence].
    cbn [arrq rq_size rq_attrs]. rewrite (arrq_words mx c ty 8) by lia. cbn [length]. change (Z.of_nat 2) with 2.
    replace (array_words (Shape mx c 8 ty) + 3 + 2) with (array_words (Shape mx c 8 ty) + 5) by lia. exact MM. }
  assert (EN : arr_new hp b mx c ty = (a <- (if r =? 0 then Some 0 else rd (b_mem b1) r) ;; Some (a, b1))).
  { unfold arr_new, u64. rewrite (Z.mod_small (mx + 1)) by lia. unfold add in E. cbn [arrq rq_size rq_attrs rq_mem rq_obj rq_type] in E.
    rewrite E. reflexivity. }
  destruct (Z.eq_dec r 0) as [->|Hr].
  - exists 0, b1. split; [rewrite EN; reflexivity|]. split; [congruence|]. split.
    { intros _ NE. apply (add_failed hp b (arrq mx c ty) b1 R Hh RQ NE E). }
    split; [intros HR; destruct (SR HR); congruence|exact AR].
  - pose proof (add_entry hp b (arrq mx c ty) r b1 R Hh RQ E Hr) as RD.
    destruct (add_one hp b (arrq mx c ty) r b1 R Hh RQ E Hr) as (o & So & Eo).
    destruct (arrq_stored mx c ty o SO So) as (ws & -> & V).
    assert (RP1 : reachable P b1) by (eapply r_add; eauto).
    assert (R1 : reachable any b1) by (eapply r_add; eauto; exact Logic.I).
    assert (A : at_arr b1 (length (objects b)) (words_of c) ws).
    { split; [exact R1|]. split; [|apply (v_64 _ _ _ V)]. rewrite Eo, nth_error_app2 by lia. now rewrite Nat.sub_diag. }
    destruct (arr_pointers _ _ _ _ A) as (_ & _ & Pp & _).
    exists (place b1 (length (objects b))), b1.
    split; [rewrite EN, (proj2 (Z.eqb_neq r 0) Hr), RD; reflexivity|].
    split.
    { intros _. split; [reflexivity|]. split; [exact RP1|]. split.
      - intros Hc AO. eapply ao_add; eauto. intros x [<-|[<-|[]]]; unfold attr_bytes; cbn [at_count at_size]; lia.
      - exists ws. auto. }
    split; [lia|]. split; [|intros; lia]. intros HR. split; [lia|]. apply (SR HR).
Qed.

(* the other fields set *)
Lemma set_fields_ok b i ws mx c slot ty : at_arr b i (words_of c) ws -> view ws (Shape mx c 8 ty) [] ->
  0 <= slot < 2 ^ 64 ->
  exists m' ws', (m <- arr_set_max (b_mem b) (place b i) mx ;; m <- arr_set_capacity m (place b i) c ;;
     m <- arr_set_slot m (place b i) slot ;; arr_set_type m (place b i) ty) = Some m' /\
    arr_to b i m' (words_of c) ws' /\ view ws' (Shape mx c slot ty) [].
Proof.
  intros A V Hs. destruct (view_facts _ _ _ V) as (F1 & F2 & F3 & F4 & F5 & F6).
  pose proof (v_shape _ _ _ V) as (S1 & S2 & S3 & S4 & S5). cbn [sh_max sh_cap sh_slot sh_type] in *.
  destruct (set_field_ok b i _ ws A 1 mx ltac:(lia) F1 ltac:(lia)) as (m1 & E1 & M1).
  pose proof M1 as (A1 & _ & P1 & _). pose proof (set_word_count ws 1 mx) as C1.
  destruct (set_field_ok (with_mem b m1) i _ _ A1 2 c ltac:(lia) ltac:(lia) ltac:(lia)) as (m2 & E2 & M2).
  pose proof (arr_to_trans _ _ _ _ _ _ _ _ M1 M2) as M12. pose proof M12 as (A2 & _ & P2 & _).
  pose proof (set_word_count (set_word ws 1 mx) 2 c) as C2.
  destruct (set_field_ok (with_mem b m2) i _ _ A2 3 slot ltac:(lia) ltac:(lia) ltac:(lia)) as (m3 & E3 & M3).
  pose proof (arr_to_trans _ _ _ _ _ _ _ _ M12 M3) as M13. pose proof M13 as (A3 & _ & P3 & _).
  pose proof (set_word_count (set_word (set_word ws 1 mx) 2 c) 3 slot) as C3.
  destruct (set_field_ok (with_mem b m3) i _ _ A3 4 ty ltac:(lia) ltac:(lia) ltac:(lia)) as (m4 & E4 & M4).
  pose proof (arr_to_trans _ _ _ _ _ _ _ _ M13 M4) as M14.
  rewrite P1, with_mem_mem in E2. rewrite P2, with_mem_mem in E3. rewrite P3, with_mem_mem in E4.
  change (16 + 8 * 1) with 24 in E1. change (16 + 8 * 2) with 32 in E2. change (16 + 8 * 3) with 40 in E3.
  change (16 + 8 * 4) with 48 in E4.
  exists m4. eexists. split.
  { unfold arr_set_max, arr_set_capacity, arr_set_slot, arr_set_type.
    rewrite E1. cbn [bind]. rewrite E2. cbn [bind]. rewrite E3. cbn [bind]. exact E4. }
  split; [exact M14|].
  set (ws4 := set_word (set_word (set_word (set_word ws 1 mx) 2 c) 3 slot) 4 ty) in *.
  assert (W : forall x, 0 <= x -> x <> 3 -> wnth ws4 x = wnth ws x).
  { intros x Hx Hne. unfold ws4. rewrite !set_word_nth by lia.
    pose proof (v_1 _ _ _ V). pose proof (v_2 _ _ _ V). pose proof (v_4 _ _ _ V). cbn [sh_max sh_cap sh_type] in *.
    destruct (Z.eqb_spec x 4) as [->|]; [congruence|]. destruct (Z.eqb_spec x 3) as [->|]; [congruence|].
    destruct (Z.eqb_spec x 2) as [->|]; [congruence|]. destruct (Z.eqb_spec x 1) as [->|]; [congruence|]. reflexivity. }
  assert (CW : wcount ws4 = wcount ws) by (unfold ws4; rewrite !set_word_count; reflexivity).
  destruct V as [U1 U2 U3 U4 U5 U6 U7 U8 U9 U10 U11 UD UO]. cbn [sh_max sh_cap sh_slot sh_type] in *.
  split; cbn [sh_max sh_cap sh_slot sh_type]; auto; try (rewrite W by lia; assumption).
  - unfold shape_ok. cbn [sh_max sh_cap sh_slot sh_type]. lia.
  - apply M14.
  - lia.
  - unfold ws4. rewrite !set_word_nth by lia. reflexivity.
  - intros j Hj. rewrite <- UD by lia. apply byte_words; [lia|].
    pose proof (Z.div_mod (40 + j) 8 ltac:(lia)). pose proof (Z.mod_pos_bound (40 + j) 8 ltac:(lia)). apply W; lia.
  - intros k Hk. rewrite <- UO by lia. apply W; lia.
Qed.

Lemma begins_le es k : 0 <= begins es k <= len (all_bytes es).
Proof.
  unfold begins, all_bytes. split; [apply len_nonneg|].
  rewrite <- (firstn_skipn k es) at 2. rewrite concat_app. unfold len. rewrite app_length. lia.
Qed.

Lemma begins_all es : begins es (length es) = len (all_bytes es).
Proof. unfold begins. now rewrite firstn_all. Qed.

Lemma all_bytes_ok es : Forall bytes_ok es -> bytes_ok (all_bytes es).
Proof. unfold bytes_ok, all_bytes. induction 1; cbn [concat]; [constructor|]. apply Forall_app. auto. Qed.

Definition fill_given (b : buffer) (p : Z) (o d : list Z) (n l c : Z) : option mem :=
  lst <- arr_list (b_mem b) p ;;
  m <- wrws (b_mem b) lst o ;;
  s <- arr_begin m p ;;
  m <- wrbs m s d ;;
  m <- (if l <? c then zero_chars m (s + l) (c - l) else Some m) ;;
  arr_set_num m p n.

Lemma fill_ok b i ws s es : at_arr b i (words_of (sh_cap s)) ws -> view ws s [] ->
  Z.of_nat (length es) <= sh_max s -> len (all_bytes es) <= sh_cap s -> Forall bytes_ok es ->
  exists m' ws', fill_given b (place b i) (map (begins es) (List.seq 0 (length es + 1))) (all_bytes es)
      (Z.of_nat (length es)) (len (all_bytes es)) (sh_cap s) = Some m' /\
    arr_to b i m' (words_of (sh_cap s)) ws' /\ view ws' s es.
Proof.
  intros A V Hn Hl Hb. destruct (view_facts _ _ _ V) as (F1 & F2 & F3 & F4 & F5 & F6).
  pose proof (v_count _ _ _ V) as CW. pose proof (v_shape _ _ _ V) as (S1 & S2 & _).
  pose proof (len_nonneg (all_bytes es)) as Hl0.
  set (c := sh_cap s) in *. set (n := Z.of_nat (length es)) in *. set (l := len (all_bytes es)) in *.
  set (dw := words_of c) in *. set (o := map (begins es) (List.seq 0 (length es + 1))).
  assert (Co : wcount o = n + 1) by (unfold wcount, o; rewrite map_length, seq_length; lia).
  assert (Wo : words64 o).
  { apply Forall_forall. intros w Hw. apply in_map_iff in Hw as (k & <- & _). pose proof (begins_le es k).
    unfold l in *. lia. }
  assert (No : forall k, 0 <= k <= n -> nth (Z.to_nat k) o 0 = begins es (Z.to_nat k)).
  { intros k Hk. rewrite (nth_indep o 0 (begins es 0)) by (unfold o; rewrite map_length, seq_length; lia).
    unfold o. rewrite map_nth, seq_nth by lia. reflexivity. }
  pose proof (proj1 (proj2 (arr_pointers _ _ _ _ A))) as EL.
  destruct (wr_words o b i dw ws (5 + dw) A ltac:(lia) ltac:(lia) Wo) as (m1 & ws1 & E1 & M1 & C1 & K1).
  pose proof M1 as (A1 & _ & P1 & _).
  destruct (arr_pointers _ _ _ _ A1) as (EB & _ & _). rewrite P1, with_mem_mem in EB.
  destruct (wr_bytes (all_bytes es) (with_mem b m1) i dw ws1 40 A1 ltac:(lia)) as (m2 & ws2 & E2 & M2 & C2 & B2 & K2);
    [fold l; lia|now apply all_bytes_ok|].
  pose proof (arr_to_trans _ _ _ _ _ _ _ _ M1 M2) as M12. pose proof M12 as (A2 & _ & P2 & _).
  rewrite P1, with_mem_mem in E2. fold l in B2, K2.
  assert (Z3 : exists m3 ws3, (if l <? c then zero_chars m2 (place b i + 56 + l) (c - l) else Some m2) = Some m3 /\
     arr_to b i m3 dw ws3 /\ wcount ws3 = wcount ws2 /\
     (forall x, 0 <= x -> byte ws3 x = if (40 + l <=? x) && (x <? 40 + c) then 0 else byte ws2 x) /\
     (forall k, 0 <= k -> (8 * k + 8 <= 40 \/ 40 + c <= 8 * k) -> wnth ws3 k = wnth ws2 k)).
  { destruct (Z.ltb_spec l c) as [Hlc|Hlc].
    - destruct (zero_bytes (with_mem b m2) i dw ws2 (40 + l) (c - l) A2 ltac:(lia) ltac:(lia) ltac:(lia))
        as (m3 & ws3 & E3 & M3 & C3 & B3 & K3).
      rewrite P2, with_mem_mem in E3. exists m3, ws3.
      split; [rewrite <- E3; f_equal; lia|]. split; [exact (arr_to_trans _ _ _ _ _ _ _ _ M12 M3)|].
      split; [exact C3|]. split.
      + intros x Hx. rewrite B3 by lia. now replace (40 + l + (c - l)) with (40 + c) by lia.
      + intros k Hk Hd. apply K3; lia.
    - exists m2, ws2. split; [reflexivity|]. split; [exact M12|]. split; [reflexivity|]. split; [|reflexivity].
      intros x Hx. destruct (Z.leb_spec (40 + l) x); destruct (Z.ltb_spec x (40 + c)); cbn [andb]; auto. lia. }
  destruct Z3 as (m3 & ws3 & E3 & M3 & C3 & B3 & K3). pose proof M3 as (A3 & _ & P3 & _).
  destruct (set_num_ok (with_mem b m3) i dw ws3 A3 n ltac:(lia) ltac:(lia)) as (m4 & E4 & M4).
  rewrite P3, with_mem_mem in E4.
  exists m4, (set_word ws3 0 n). split.
  { unfold fill_given. rewrite EL. cbn [bind].
    replace (place b i + 56 + 8 * dw) with (place b i + 16 + 8 * (5 + dw)) by lia.
    rewrite E1. cbn [bind]. rewrite EB. cbn [bind].
    replace (place b i + 56) with (place b i + 16 + 40) by lia. rewrite E2. cbn [bind].
    replace (place b i + 16 + 40 + l) with (place b i + 56 + l) by lia. rewrite E3. cbn [bind]. exact E4. }
  split; [exact (arr_to_trans _ _ _ _ _ _ _ _ M3 M4)|].
  assert (HW : forall x, 1 <= x < 5 -> wnth (set_word ws3 0 n) x = wnth ws x).
  { intros x Hx. rewrite set_word_nth by lia. rewrite (proj2 (Z.eqb_neq x 0)) by lia.
    rewrite K3, K2, K1 by lia. rewrite (proj2 (Z.leb_gt (5 + dw) x)) by lia. reflexivity. }
  destruct V as [U1 U2 U3 U4 U5 U6 U7 U8 U9 U10 U11 UD UO]. fold c in U2, U6, U9, UD, UO. fold dw in U6, UO.
  split; auto; fold c; fold l; fold n; try lia; try (rewrite HW by lia; assumption).
  - apply M4.
  - rewrite set_word_count. fold dw. lia.
  - rewrite set_word_nth by lia. reflexivity.
  - intros j Hj.
    rewrite (byte_words _ ws3); [|lia|].
    2:{ pose proof (Z.div_mod (40 + j) 8 ltac:(lia)). pose proof (Z.mod_pos_bound (40 + j) 8 ltac:(lia)).
        rewrite set_word_nth by lia. rewrite (proj2 (Z.eqb_neq _ 0)) by lia. reflexivity. }
    rewrite B3 by lia. rewrite (proj2 (Z.ltb_lt (40 + j) (40 + c))) by lia. rewrite andb_true_r.
    destruct (Z.leb_spec (40 + l) (40 + j)) as [G|G].
    + symmetry. apply nth_overflow. unfold l, len in G. lia.
    + rewrite B2 by lia. rewrite (proj2 (Z.leb_le 40 (40 + j))), (proj2 (Z.ltb_lt (40 + j) (40 + l))) by lia.
      cbn [andb]. now replace (40 + j - 40) with j by lia.
  - intros k Hk. fold dw. rewrite set_word_nth by lia. rewrite (proj2 (Z.eqb_neq _ 0)) by lia.
    rewrite K3 by lia. rewrite K2 by lia. rewrite K1 by lia. rewrite Co.
    rewrite (proj2 (Z.leb_le (5 + dw) (5 + dw + k))) by lia. cbn [andb]. unfold off_value. fold n.
    destruct (Z.leb_spec k n) as [G|G].
    + rewrite (proj2 (Z.ltb_lt (5 + dw + k) (5 + dw + (n + 1)))) by lia.
      replace (5 + dw + k - (5 + dw)) with k by lia. apply No. lia.
    + rewrite (proj2 (Z.ltb_ge (5 + dw + k) (5 + dw + (n + 1)))) by lia.
      rewrite UO by lia. unfold off_value. cbn [length]. rewrite (proj2 (Z.leb_gt k (Z.of_nat 0))) by lia. reflexivity.
Qed.

Lemma zero_data b i ws s : at_arr b i (words_of (sh_cap s)) ws -> view ws s [] ->
  exists m' ws', wrbs (b_mem b) (place b i + 56) (repeat 0 (Z.to_nat (sh_cap s))) = Some m' /\
    arr_to b i m' (words_of (sh_cap s)) ws' /\ view ws' s [].
Proof.
  intros A V. destruct (view_facts _ _ _ V) as (F1 & F2 & F3 & F4 & F5 & F6).
  pose proof (v_count _ _ _ V) as CW. pose proof (v_shape _ _ _ V) as (S1 & S2 & _).
  destruct (zero_bytes b i _ ws 40 (sh_cap s) A ltac:(lia) ltac:(lia) ltac:(lia)) as (m & ws' & E & M & C & B & K).
  exists m, ws'. split; [unfold zero_chars in E; rewrite <- E; f_equal; lia|]. split; [exact M|].
  destruct V as [U1 U2 U3 U4 U5 U6 U7 U8 U9 U10 U11 UD UO].
  split; auto; try (rewrite K by lia; assumption).
  - apply M.
  - lia.
  - intros j Hj. rewrite B by lia. rewrite <- (UD j Hj). destruct (_ && _); [|reflexivity].
    rewrite UD by lia. destruct (Z.to_nat j); reflexivity.
  - intros k Hk. rewrite K by lia. now apply UO.
Qed.

Lemma arr_add_ok P hp b data offs mx c slot ty es : reachable P b -> good_heap hp ->
  shape_ok (Shape mx c slot ty) -> Z.of_nat (length es) <= mx -> len (all_bytes es) <= c -> Forall bytes_ok es ->
  array_fits b (Shape mx c slot ty) -> P (arrq mx c ty) -> given es c data offs ->
  exists p b', arr_add hp b data offs (Z.of_nat (length es)) mx c slot ty = Some (p, b') /\
    (p <> 0 -> p = place b' (length (objects b)) /\ reachable P b' /\
      (0 < c -> added_only b -> added_only b') /\
      exists o, holds_array o (Shape mx c slot ty) es /\ objects b' = objects b ++ [o]) /\
    (p = 0 -> no_end_pointer (b_mem b) -> objects b' = objects b) /\
    (array_room b (Shape mx c slot ty) -> p <> 0 /\ data_addr (b_h b') = data_addr (b_h b)) /\
    (added_only b -> memory_up_to hp (data_size (b_h b) + 8 * (array_words (Shape mx c slot ty) + 5) + 16) -> p <> 0).
Proof.
  intros RP Hh SO Hn Hl Hb F HP G. pose proof SO as (S1 & S2 & S3 & S4 & S5).
  cbn [sh_max sh_cap sh_slot sh_type] in S1, S2, S3, S4, S5.
  assert (SO8 : shape_ok (Shape mx c 8 ty)).
  { unfold shape_ok. cbn [sh_max sh_cap sh_slot sh_type]. lia. }
  destruct (arr_new_ok P hp b mx c ty RP Hh SO8 F HP) as (p & b1 & EN & N1 & N2 & N3 & N4).
  destruct (Z.eq_dec p 0) as [->|Hp].
  { exists 0, b1. split; [unfold arr_add; rewrite EN; reflexivity|]. split; [congruence|]. split; [exact N2|].
    split; [exact N3|exact N4]. }
  destruct (N1 Hp) as (Ep & RP1 & AO1 & ws & A & Eo & V). set (i := length (objects b)) in *.
  destruct (set_fields_ok b1 i ws mx c slot ty A V S3) as (m2 & ws2 & E2 & M2 & V2).
  pose proof M2 as (A2 & _ & P2 & _).
  assert (FIN : forall m3 ws3, arr_to b1 i m3 (words_of c) ws3 -> view ws3 (Shape mx c slot ty) es ->
    arr_add hp b data offs (Z.of_nat (length es)) mx c slot ty = Some (p, with_mem b1 m3) ->
    exists p b', arr_add hp b data offs (Z.of_nat (length es)) mx c slot ty = Some (p, b') /\
    (p <> 0 -> p = place b' i /\ reachable P b' /\
      (0 < c -> added_only b -> added_only b') /\
      exists o, holds_array o (Shape mx c slot ty) es /\ objects b' = objects b ++ [o]) /\
    (p = 0 -> no_end_pointer (b_mem b) -> objects b' = objects b) /\
    (array_room b (Shape mx c slot ty) -> p <> 0 /\ data_addr (b_h b') = data_addr (b_h b)) /\
    (added_only b -> memory_up_to hp (data_size (b_h b) + 8 * (array_words (Shape mx c slot ty) + 5) + 16) -> p <> 0)).
  { intros m3 ws3 M3 V3 EA. exists p, (with_mem b1 m3). split; [exact EA|].
    pose proof M3 as (A3 & OB & P3 & HI). 
    split.
    - intros _. split; [congruence|]. destruct HI as [H1 H2].
      split; [now apply H1|]. split; [intros Hc AO; apply H2; auto|].
      exists (arr_obj (words_of c) ws3). split.
      + apply view_holds in V3. exact V3.
      + rewrite OB, Eo. unfold i. apply replace_last.
    - split; [congruence|]. split; [exact N3|exact N4]. }
  assert (UN : arr_add hp b data offs (Z.of_nat (length es)) mx c slot ty =
     match (if (Z.of_nat (length es) <=? mx) && (0 <? Z.of_nat (length es)) then offs else None) with
     | Some fo =>
       lst <- arr_list m2 p ;;
       o <- fo (with_mem b1 m2) (Z.of_nat (length es) + 1) ;;
       let l := nth (Z.to_nat (Z.of_nat (length es))) o 0 in
       m <- wrws m2 lst o ;;
       m <- (match data with
          | Some fd =>
            if l <=? c then
              s <- arr_begin m p ;;
              d <- fd (with_mem b1 m) l ;;
              m <- wrbs m s d ;;
              if l <? c then zero_chars m (s + l) (c - l) else Some m
            else Some m
          | None => Some m
          end) ;;
       m <- arr_set_num m p (Z.of_nat (length es)) ;;
       Some (p, with_mem b1 m)
     | None =>
       match data with
       | Some fd =>
         if 0 <? c then
           s <- arr_begin m2 p ;;
           d <- fd (with_mem b1 m2) c ;;
           m <- wrbs m2 s d ;;
           Some (p, with_mem b1 m)
         else Some (p, with_mem b1 m2)
       | None => Some (p, with_mem b1 m2)
       end
     end).
  { unfold arr_add. rewrite EN. cbn [bind]. rewrite (proj2 (Z.eqb_neq p 0) Hp).
    rewrite <- Ep in E2. 
    destruct (arr_set_max (b_mem b1) p mx) as [q1|]; cbn [bind] in E2 |- *; [|discriminate E2].
    destruct (arr_set_capacity q1 p c) as [q2|]; cbn [bind] in E2 |- *; [|discriminate E2].
    destruct (arr_set_slot q2 p slot) as [q3|]; cbn [bind] in E2 |- *; [|discriminate E2].
    rewrite E2. reflexivity. }
  destruct es as [|e es].
  - cbn [length] in UN, FIN |- *. change (0 <? Z.of_nat 0) with false in UN. rewrite andb_false_r in UN.
    cbn [given] in G. destruct G as [ -> | (fd & -> & Gd) ].
    + refine (FIN m2 ws2 M2 V2 _). rewrite UN. reflexivity.
    + destruct (Z.ltb_spec 0 c) as [Hc|Hc].
      * destruct (zero_data (with_mem b1 m2) i ws2 (Shape mx c slot ty) A2 V2) as (m3 & ws3 & E3 & M3 & V3).
        cbn [sh_cap] in E3, M3. rewrite P2, with_mem_mem in E3.
        apply (FIN m3 ws3); [exact (arr_to_trans _ _ _ _ _ _ _ _ M2 M3)|exact V3|].
        rewrite UN. destruct (arr_pointers _ _ _ _ A2) as (EB & _ & _). rewrite P2, with_mem_mem in EB.
        rewrite Ep, EB. cbn [bind]. rewrite Gd. cbn [bind]. rewrite E3. reflexivity.
      * apply (FIN m2 ws2 M2 V2). rewrite UN. reflexivity.
  - cbn [given] in G. destruct G as (fd & fo & -> & -> & Go & Gd).
    destruct (fill_ok (with_mem b1 m2) i ws2 (Shape mx c slot ty) (e :: es) A2 V2 Hn Hl Hb) as (m3 & ws3 & E3 & M3 & V3).
    cbn [sh_cap] in E3, M3. rewrite P2 in E3.
    apply (FIN m3 ws3); [exact (arr_to_trans _ _ _ _ _ _ _ _ M2 M3)|exact V3|].
    rewrite UN, (proj2 (Z.leb_le _ mx)) by lia. rewrite (proj2 (Z.ltb_lt 0 (Z.of_nat (length (e :: es))))) by (cbn [length]; lia).
    cbn [andb]. clear UN FIN. unfold fill_given in E3. rewrite with_mem_mem in E3. rewrite Ep.
    set (q := place b1 i) in *. set (es1 := e :: es) in *.
    destruct (arr_list m2 q) as [lst|]; cbn [bind] in E3 |- *; [|discriminate E3].
    rewrite Go. cbn [bind]. cbv zeta.
    set (o := map (begins es1) (List.seq 0 (length es1 + 1))) in *.
    assert (EL : nth (Z.to_nat (Z.of_nat (length es1))) o 0 = len (all_bytes es1)).
    { rewrite Nat2Z.id. rewrite (nth_indep o 0 (begins es1 0)) by (unfold o; rewrite map_length, seq_length; lia).
      unfold o. rewrite map_nth, seq_nth by lia. cbn [Nat.add]. apply begins_all. }
    rewrite EL.
    destruct (wrws m2 lst o) as [m4|]; cbn [bind] in E3 |- *; [|discriminate E3].
    rewrite (proj2 (Z.leb_le _ c)) by exact Hl.
    destruct (arr_begin m4 q) as [sb|]; cbn [bind] in E3 |- *; [|discriminate E3].
    rewrite Gd. cbn [bind].
    destruct (wrbs m4 sb (all_bytes es1)) as [m5|]; cbn [bind] in E3 |- *; [|discriminate E3].
    destruct (if len (all_bytes es1) <? c then zero_chars m5 (sb + len (all_bytes es1)) (c - len (all_bytes es1)) else Some m5)
      as [m6|]; cbn [bind] in E3 |- *; [|discriminate E3].
    rewrite E3. reflexivity.
Qed.

Lemma words_at_ok m a : forall l d, (forall k, (k < length l)%nat -> rd m (a + 8 * Z.of_nat (d + k)) = Some (nth k l 0)) ->
  words_at m (a + 8 * Z.of_nat d) (length l) = Some l.
Proof.
  induction l as [|w l IH]; intros d H; [reflexivity|]. cbn [length words_at].
  pose proof (H 0%nat ltac:(cbn [length]; lia)) as H0. rewrite Nat.add_0_r in H0. rewrite H0. cbn [bind nth].
  replace (a + 8 * Z.of_nat d + 8) with (a + 8 * Z.of_nat (S d)) by lia.
  rewrite IH; [reflexivity|]. intros k Hk. specialize (H (S k) ltac:(cbn [length]; lia)).
  replace (S d + k)%nat with (d + S k)%nat by lia. exact H.
Qed.

Lemma copy_given c i o s es : reachable any c -> nth_error (objects c) i = Some o -> holds_array o s es ->
  exists sp lp, arr_begin (b_mem c) (place c i) = Some sp /\ arr_list (b_mem c) (place c i) = Some lp /\
    given es (sh_cap s) (if sp =? 0 then None else Some (fun _ k => chars (b_mem c) sp (Z.to_nat k)))
      (if lp =? 0 then None else Some (fun _ k => words_at (b_mem c) lp (Z.to_nat k))).
Proof.
  intros R O H. destruct (holds_at_arr c i o s es R O H) as (ws & A & V).
  destruct (view_facts _ _ _ V) as (F1 & F2 & F3 & F4 & F5 & F6). pose proof (v_count _ _ _ V) as C.
  pose proof (v_shape _ _ _ V) as (S1 & S2 & _).
  destruct (arr_pointers _ _ _ _ A) as (EB & EL & Pp & _).
  exists (place c i + 56), (place c i + 56 + 8 * words_of (sh_cap s)). split; [exact EB|]. split; [exact EL|].
  rewrite !(proj2 (Z.eqb_neq _ 0)) by lia.
  assert (BY : forall t, len t <= sh_cap s -> (forall j, 0 <= j < len t -> nth (Z.to_nat j) (all_bytes es) 0 = nth (Z.to_nat j) t 0) ->
    chars (b_mem c) (place c i + 56) (length t) = Some t).
  { intros t Ht E. apply chars_ok. intros j Hj. replace (place c i + 56 + j) with (place c i + 16 + (40 + j)) by lia.
    rewrite (rd_byte _ _ _ _ _ A) by lia. f_equal. rewrite (v_data _ _ _ V) by lia. apply E. lia. }
  destruct es as [|e es].
  - right. eexists. split; [reflexivity|]. intros b0. cbv beta. clear b0.
    pose proof (BY (repeat 0 (Z.to_nat (sh_cap s)))) as B. unfold len in B. rewrite repeat_length in B. apply B; [lia|].
    intros j _. rewrite nth_zeros. destruct (Z.to_nat j); reflexivity.
  - cbn [given]. set (es1 := e :: es) in *. do 2 eexists. split; [reflexivity|]. split; [reflexivity|]. split; intros b0.
    + cbv beta. replace (place c i + 56 + 8 * words_of (sh_cap s)) with (place c i + 56 + 8 * words_of (sh_cap s) + 8 * Z.of_nat 0) by lia.
      set (l := map (begins es1) (List.seq 0 (length es1 + 1))).
      replace (Z.to_nat (Z.of_nat (length es1) + 1)) with (length l) by (unfold l; rewrite map_length, seq_length; lia).
      apply words_at_ok. intros k Hk. assert (Hk2 : (k < length es1 + 1)%nat) by (unfold l in Hk; rewrite map_length, seq_length in Hk; lia).
      rewrite Nat.add_0_l.
      rewrite (list_rd _ _ _ _ A) by lia. rewrite (v_offs _ _ _ V) by lia. f_equal. unfold off_value.
      rewrite (proj2 (Z.leb_le _ _)) by lia. rewrite Nat2Z.id.
      rewrite (nth_indep l 0 (begins es1 0)) by exact Hk. unfold l. rewrite map_nth, seq_nth by lia. reflexivity.
    + cbv beta. unfold len at 1. rewrite Nat2Z.id. apply BY; [lia|reflexivity].
Qed.

Lemma arr_copy_ok P hp b c i o s es : reachable P b -> good_heap hp ->
  reachable any c -> nth_error (objects c) i = Some o -> holds_array o s es ->
  array_fits b s -> P (arrq (sh_max s) (sh_cap s) (sh_type s)) ->
  exists p b', arr_add_copy hp b (b_mem c) (place c i) = Some (p, b') /\
    (p <> 0 -> p = place b' (length (objects b)) /\ reachable P b' /\
      (0 < sh_cap s -> added_only b -> added_only b') /\
      exists o, holds_array o s es /\ objects b' = objects b ++ [o]) /\
    (p = 0 -> no_end_pointer (b_mem b) -> objects b' = objects b) /\
    (array_room b s -> p <> 0 /\ data_addr (b_h b') = data_addr (b_h b)) /\
    (added_only b -> memory_up_to hp (data_size (b_h b) + 8 * (array_words s + 5) + 16) -> p <> 0).
Proof.
  intros RP Hh R O H F HP. destruct (copy_given c i o s es R O H) as (sp & lp & E1 & E2 & G).
  destruct (fields_ok c i o s es R O H) as (F1 & F2 & F3 & F4 & F5 & _ & _).
  pose proof H as (SO & Hc & Hn & Hb & _). destruct s as [mx cp sl ty]. cbn [sh_max sh_cap sh_slot sh_type] in *.
  destruct (arr_add_ok P hp b _ _ mx cp sl ty es RP Hh SO Hn Hc Hb F HP G) as (p & b' & E & K).
  exists p, b'. split; [|exact K]. unfold arr_add_copy. rewrite E1, E2. cbn [bind]. rewrite F1, F2, F3, F4, F5. cbn [bind]. exact E.
Qed.

(* the number of words asked for beforehand *)
Lemma required_ok o s es : holds_array o s es -> arr_required_slots (sh_max s) (sh_cap s) = words_in o.
Proof.
  intros ((S1 & S2 & _ & _ & S5) & _ & _ & _ & data & offs & -> & _ & Cd & Co & _).
  unfold words_in. cbn [snd length]. rewrite map_length, !app_length. cbn [length]. unfold wcount in Cd, Co.
  unfold arr_required_slots. cbv zeta. change (slot_based 56) with 56. unfold u64.
  pose proof (words_of_bounds (sh_cap s) S2) as B.
  rewrite (Z.mod_small (sh_max s + 1)) by lia. rewrite (Z.mod_small (8 * (sh_max s + 1))) by lia.
  replace (8 * (sh_max s + 1)) with ((sh_max s + 1) * 8) by lia.
  rewrite (slot_based_ok ((sh_max s + 1) * 8)); [|lia|rewrite words_of_8; lia]. rewrite words_of_8 by lia.
  destruct (Z.ltb_spec 0 (sh_cap s)) as [H|H].
  - rewrite slot_based_ok by lia. rewrite (Z.mod_small (56 + _)) by lia. rewrite Z.mod_small by lia.
    replace (56 + 8 * words_of (sh_cap s) + 8 * (sh_max s + 1)) with ((7 + words_of (sh_cap s) + (sh_max s + 1)) * 8) by lia.
    rewrite Z.div_mul by lia. lia.
  - assert (sh_cap s = 0) as E by lia. rewrite E in *. change (words_of 0) with 0 in *. rewrite Z.mod_small by lia.
    replace (56 + 8 * (sh_max s + 1)) with ((7 + (sh_max s + 1)) * 8) by lia. rewrite Z.div_mul by lia. lia.
Qed.

(* sequences of operations *)
Lemma aop_one b i o s es op : reachable any b -> nth_error (objects b) i = Some o -> holds_array o s es ->
  exists b', do_aop b i op = Some b' /\ new_array b i b' s (elements_after es op).
Proof.
  intros R O H. destruct op; cbn [do_aop elements_after].
  - destruct (arr_clear_ok b i o s es R O H) as (m & E & N). exists (with_mem b m). rewrite E. split; [reflexivity|exact N].
  - destruct es as [|e0 es0].
    + rewrite (remove_last_empty b i o s R O H). cbn [bind]. rewrite with_mem_same. exists b. split; [reflexivity|].
      exact (same_array b i o s [] O H).
    + destruct (exists_last (l := e0 :: es0) ltac:(discriminate)) as (es & e & E). rewrite E in *.
      destruct (remove_last_ok b i o s es e R O H) as (m & Em & N). rewrite Em. cbn [bind].
      exists (with_mem b m). split; [reflexivity|]. rewrite removelast_last. exact N.
Qed.

Lemma aops_ok l : forall b T, reachable any b -> hold_arrays b T -> Forall (fun x => T (fst x) <> None) l ->
  exists b', do_aops b l = Some b' /\ same_history b b' /\ hold_arrays b' (fold_left array_step l T) /\
    length (objects b') = length (objects b) /\
    forall k, T k = None -> nth_error (objects b') k = nth_error (objects b) k.
Proof.
  induction l as [|(i, op) l IH]; intros b T R HT HF.
  - exists b. split; [reflexivity|]. split; [split; auto|]. auto.
  - apply Forall_cons_iff in HF as (Hn & HF). cbn [fst snd] in Hn.
    destruct (T i) as [(s, es)|] eqn:ET; [|congruence].
    destruct (HT i s es ET) as (o & O & H).
    destruct (aop_one b i o s es op R O H) as (b1 & E1 & SH & o' & H' & Eo).
    assert (Li : (i < length (objects b))%nat) by (apply nth_error_Some; congruence).
    destruct (IH b1 (array_step T (i, op))) as (b2 & E2 & SH2 & HT2 & L2 & N2).
    + destruct SH as (SH & _). auto.
    + intros k s' es' Ek. unfold array_step in Ek. cbn [fst snd] in Ek.
      destruct (T k) as [(sk, ek)|] eqn:Tk; [|discriminate].
      rewrite Eo, replace_nth by exact Li. destruct (Nat.eqb_spec k i) as [->|Hne].
      * rewrite ET in Tk. assert (sk = s) as -> by congruence. assert (ek = es) as -> by congruence.
        assert (s' = s) as -> by congruence. assert (es' = elements_after es op) as -> by congruence.
        exists o'. auto.
      * assert (s' = sk) as -> by congruence. assert (es' = ek) as -> by congruence. apply (HT k sk ek Tk).
    + eapply Forall_impl; [|exact HF]. intros (j, op'). cbn [fst snd]. intros N'.
      unfold array_step. cbn [fst snd]. destruct (T j) as [(cj, sj)|]; [|congruence].
      destruct (Nat.eqb j i); discriminate.
    + exists b2. cbn [do_aops]. rewrite E1. cbn [bind]. split; [exact E2|].
      split; [exact (history_trans _ _ _ SH SH2)|]. split; [exact HT2|]. split.
      * rewrite L2, Eo. apply replace_length.
      * intros k Tk. rewrite N2; [|unfold array_step; now rewrite Tk].
        rewrite Eo, replace_nth by exact Li. destruct (Nat.eqb_spec k i) as [->|]; [congruence|reflexivity].
Qed.

(* after an accepted append *)
Lemma append_wrong b i o s es l : reachable any b -> nth_error (objects b) i = Some o ->
  holds_array o s es -> sh_cap s < 2 ^ 62 -> 0 < sh_slot s < 2 ^ 62 -> bytes_ok l -> 0 < len l ->
  Z.of_nat (length es) < sh_max s -> len (all_bytes es) + padded (len l) (sh_slot s) <= sh_cap s ->
  exists m', arr_append (b_mem b) (place b i) (Some l) (len l) = Some (true, m') /\
    arr_num m' (place b i) = Some (Z.of_nat (length es) + 1) /\
    arr_length m' (place b i) = Some 0 /\
    arr_offset m' (place b i) (Z.of_nat (length es)) = Some (len (all_bytes es) + padded (len l) (sh_slot s)) /\
    bytes_at m' (place b i + 56) l /\
    forall o' es', nth_error (objects (with_mem b m')) i = Some o' -> ~ holds_array o' s (es ++ es').
Proof.
  intros R O H Hc Ht Hb Hl Hn HF.
  destruct (append_accepted b i o s es l R O H Hc Ht Hb Hl Hn HF) as (m' & ws & E & M & C & W0 & W1 & W2 & B & W64).
  pose proof H as ((S1 & S2 & _) & HC & HN & _).
  pose proof (words_of_nonneg _ S2) as D. pose proof (words_of_le _ S2) as D8. pose proof (len_nonneg (all_bytes es)) as L0.
  assert (PL : 0 < padded (len l) (sh_slot s) /\ len l <= padded (len l) (sh_slot s)).
  { unfold padded. pose proof (Z.div_mod (len l + (sh_slot s - 1)) (sh_slot s) ltac:(lia)).
    pose proof (Z.mod_pos_bound (len l + (sh_slot s - 1)) (sh_slot s) ltac:(lia)). lia. }
  pose proof M as (A & OB & PE & _).
  assert (OF : forall k, 0 <= k -> k <= Z.of_nat (length es) + 1 ->
    arr_offset m' (place b i) k = Some (wnth ws (5 + words_of (sh_cap s) + k))).
  { intros k Hk Hk1. pose proof (offset_ok _ _ _ _ A k ltac:(lia) Hk ltac:(lia)) as EO.
    rewrite PE, with_mem_mem, W0 in EO. rewrite EO. now rewrite (proj2 (Z.leb_le k _)) by lia. }
  assert (EN : arr_num m' (place b i) = Some (Z.of_nat (length es) + 1)).
  { pose proof (num_ok _ _ _ _ A ltac:(lia)) as EN. rewrite PE, with_mem_mem in EN. congruence. }
  exists m'. split; [exact E|]. split; [exact EN|]. split.
  { unfold arr_length. rewrite EN. cbn [bind]. rewrite OF by lia. now rewrite W2. }
  split; [rewrite OF by lia; now rewrite W1|]. split.
  { intros j Hj. pose proof (rd_byte _ _ _ _ (40 + j) A ltac:(lia)) as EB. rewrite PE, with_mem_mem in EB.
    replace (place b i + 16 + (40 + j)) with (place b i + 56 + j) in EB by lia. rewrite EB. f_equal.
    rewrite B by lia. now rewrite (proj2 (Z.ltb_lt j (len l))) by lia. }
  intros o' es' O' H'. destruct (holds_at_arr _ _ _ _ _ (proj1 A) O' H') as (ws' & A' & V').
  assert (EO : arr_obj (words_of (sh_cap s)) ws = arr_obj (words_of (sh_cap s)) ws').
  { destruct A as (_ & A & _). destruct A' as (_ & A' & _). congruence. }
  pose proof (v_offs _ _ _ V' (Z.of_nat (length es)) ltac:(lia)) as X.
  pose proof (offset_ok _ _ _ _ A' (Z.of_nat (length es)) ltac:(lia) ltac:(lia)) as Y.
  rewrite (v_count _ _ _ V') in Y. specialize (Y ltac:(lia)). rewrite PE, with_mem_mem in Y.
  rewrite OF in Y by lia. rewrite W1, (v_0 _ _ _ V'), X in Y.
  rewrite (proj2 (Z.leb_le _ (Z.of_nat (length (es ++ es'))))) in Y by (rewrite app_length; lia).
  unfold off_value in Y. rewrite (proj2 (Z.leb_le _ (Z.of_nat (length (es ++ es'))))) in Y by (rewrite app_length; lia).
  rewrite Nat2Z.id in Y. unfold begins in Y. rewrite firstn_app, Nat.sub_diag, firstn_O, app_nil_r, firstn_all in Y.
  assert (len (all_bytes es) + padded (len l) (sh_slot s) = len (all_bytes es)) by congruence. lia.
Qed.
