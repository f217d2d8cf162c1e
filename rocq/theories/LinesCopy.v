(* Copying a range of elements. *)
From Coq Require Import ZArith List Bool Lia.
From Verif Require Import Tac MBuf MBufSpec MBufMem MBufAbs MemPool Buffer BufferSpec BufferUser
  BufferProofs BufferAddMem BufferAdd BufferAddLoop BufferAddMain BufferReach BufferProps
  Lines LinesSpec LinesProofs.
Import ListNotations.
Local Open Scope Z_scope.

(* the value returned for an element of type t whose copy is at address a *)
Definition st_for (t a : Z) : Z := if existsb (Z.eqb t) [8; 9; 13; 14] then st_bool a else st_sign a.

(* type id of the copy of an element of type t; the copy of the element o *)
Definition copied_type (t : Z) : Z := if t =? 9 then 8 else t.
Definition copied (o : Z * list cell) : Z * list cell := (copied_type (fst o), snd o).

(* the entry of object number i *)
Lemma entry_words bs A i s n t : binv bs A -> bview bs A -> nth_error (a_objs A) i = Some (s, n, t) ->
  entry_addr bs i <> 0 /\ rd (b_mem bs) (entry_addr bs i) = Some (mbase (b_mem bs) + 80 + 8 * s) /\
  rd (b_mem bs) (entry_addr bs i + 8) = Some t.
Proof.
  intros I V H. pose proof (bi_repr _ _ I) as R. pose proof (re_ok _ _ _ R) as OK.
  pose proof (ok_bounds A OK) as (Bc & Bo & Bd & Bg). pose proof (re_len _ _ _ R) as Ln.
  pose proof (re_base _ _ _ R) as (B1 & _).
  destruct (re_obj _ _ _ R _ _ _ _ H) as (W0 & W1 & _).
  assert (i < length (a_objs A))%nat by (apply nth_error_Some; congruence).
  unfold entry_addr. rewrite V. assert (L4 : spos A 4 = 10 + a_ms A) by reflexivity.
  assert (Hi : spos A 4 + 2 + 3 * Z.of_nat i + 2 < wlen (b_mem bs)) by (unfold tot, zlen in *; lia).
  split; [lia|]. split.
  - rewrite <- W0. apply rd_ok; lia.
  - rewrite <- W1. apply rd_ok; lia.
Qed.

Section One.
Variables (bs : buffer) (A : abs).
Hypothesis I : binv bs A.
Hypothesis V : bview bs A.
Local Notation m := (b_mem bs).
Local Notation B := (mbase (b_mem bs)).
Variables (i : nat) (s n t : Z).
Hypothesis HN : nth_error (a_objs A) i = Some (s, n, t).
Variables (size : Z) (ow : list Z) (arrs : list (list Z)).
Hypothesis HS : element_size t = Some size.
Hypothesis HW : 8 * wcount ow = size.
Hypothesis H64 : words64 ow.
Local Notation at_ := (element_arrays t ow).
Hypothesis HF : Forall2 (fun x a => wcount a = at_count x /\ 0 < at_count x /\ words64 a) at_ arrs.
Local Notation E := (expected_object ow at_ arrs).
Hypothesis HE : map (rel_cell s) (slice (a_cells A) s n) = E.
Hypothesis NT : t <> 257 /\ t <> 260.

Let a := B + 80 + 8 * s.

Lemma a_nz : (a =? 0) = false.
Proof.
  pose proof (src_bounds bs A I i s n t HN ow arrs HF HE). apply Z.eqb_neq. unfold a. lia.
Qed.

Lemma rd_first : rd m a = Some (wnth ow 0).
Proof.
  pose proof (src_bounds bs A I i s n t HN ow arrs HF HE).
  rewrite <- (src_first bs A I i s n t HN size ow arrs HS HW HF HE). apply rd_ok; unfold a; lia.
Qed.

(* arrays have less than 2^61 words *)
Lemma small_array x : In x at_ -> at_count x < 2 ^ 61 /\ 0 < at_count x.
Proof using I HN HE HF HS.
  clear NT. intros Hx. apply In_nth_error in Hx as (k & Hk).
  destruct (array_at t size ow arrs HS HF k x Hk) as (ar & X1 & X2 & X3 & _). split; [|assumption].
  pose proof (src_bounds bs A I i s n t HN ow arrs HF HE) as (S1 & S2 & S3 & S4 & S5 & S6 & S7 & S8).
  assert (wcount ar <= sumw arrs).
  { clear - X1. revert k X1. induction arrs as [|y l IH]; intros k X1; [now destruct k|].
    rewrite sumw_cons. destruct k as [|k]; cbn [nth_error] in X1.
    - assert (y = ar) as -> by congruence. pose proof (sumw_nonneg l). unfold wcount, zlen. lia.
    - specialize (IH k X1). unfold zlen. lia. }
  assert (0 <= wcount ow) by (unfold wcount; lia). lia.
Qed.

Lemma two_order_ok o : 0 <= o < 2 ^ 61 -> int64 o = o /\ two_order o = Some (2 * o + 2).
Proof using.
  clear. intros H. split.
  - unfold int64. assert (E1 : (o <? 2 ^ 63) = true) by (apply Z.ltb_lt; lia). now rewrite E1.
  - unfold two_order. assert (E1 : (- 2 ^ 63 <=? 2 * o + 2) = true) by (apply Z.leb_le; lia).
    assert (E2 : (2 * o + 2 <? 2 ^ 63) = true) by (apply Z.ltb_lt; lia). cbv zeta. rewrite E1, E2.
    cbn [andb]. now rewrite u64_id by lia.
Qed.

Lemma copy_single_eq hp b : copy_single hp b m (entry_addr bs i) =
  with_status (st_for t) (add_from hp b m a size (copied_type t) at_).
Proof.
  destruct (entry_words bs A i s n t I V HN) as (E0 & E1 & E2).
  unfold copy_single. assert (Ez : (entry_addr bs i =? 0) = false) by now apply Z.eqb_neq.
  rewrite Ez, E1. cbn [bind]. rewrite E2. cbn [bind]. fold a.
  pose proof rd_first as RF. pose proof a_nz as NZ. pose proof small_array as SA.
  pose proof (wnth_range ow 0 H64) as WR.
  pose proof (element_cases t size HS) as C.
  destruct C as [C|[(-> & ->)|[(-> & ->)|[(-> & ->)|[(-> & ->)|(-> & ->)]]]]].
  - rewrite (plain_arrays t size) by assumption. clear SA HE HF.
    unfold plain_list in C. cbn [In] in C. unfold plain_add_copy. rewrite NZ.
    repeat (destruct C as [C|C]; [injection C as <- <-; try reflexivity; exfalso; lia|]). destruct C.
  - change (4 =? T_DRIFT) with false. change (4 =? T_DRIFT_EXACT) with false.
    change (4 =? T_MULTIPOLE) with true. cbn iota. unfold mp_add_copy. rewrite NZ, RF. cbn [bind].
    change (element_arrays 4 ow) with [Attr 32 8 (2 * wnth ow 0 + 2)] in *.
    specialize (SA _ (or_introl eq_refl)). cbn [at_count] in SA.
    destruct (two_order_ok (wnth ow 0) ltac:(lia)) as (X1 & X2). unfold mp_bal_length. cbv zeta.
    rewrite X1, X2. assert (P : (0 <=? wnth ow 0) = true) by (apply Z.leb_le; lia). rewrite P.
    reflexivity.
  - change (256 =? T_DRIFT) with false. change (256 =? T_DRIFT_EXACT) with false.
    change (256 =? T_MULTIPOLE) with false. change (256 =? T_RF_MULTIPOLE) with true. cbn iota.
    unfold rf_add_copy. rewrite NZ, RF. cbn [bind].
    change (element_arrays 256 ow) with [Attr 32 8 (2 * wnth ow 0 + 2); Attr 40 8 (2 * wnth ow 0 + 2)] in *.
    specialize (SA _ (or_introl eq_refl)). cbn [at_count] in SA.
    destruct (two_order_ok (wnth ow 0) ltac:(lia)) as (X1 & X2). unfold rf_length.
    rewrite X1, X2. assert (P : (wnth ow 0 <? 0) = false) by (apply Z.ltb_ge; lia). rewrite P.
    reflexivity.
  - change (with_status st_bool (bb_add_copy hp b m a 8) =
      with_status st_bool (add_from hp b m a 16 8 [Attr 8 8 (wnth ow 0)])).
    unfold bb_add_copy. rewrite NZ, RF. reflexivity.
  - change (with_status st_bool (bb_add_copy hp b m a 8) =
      with_status st_bool (add_from hp b m a 16 8 [Attr 8 8 (wnth ow 0)])).
    unfold bb_add_copy. rewrite NZ, RF. reflexivity.
  - exfalso. lia.
Qed.

Let o : Z * list cell := (copied_type t, E).
Let cost := words_in o + 3 + pointers_in o.

Lemma o_words : words_in o = object_words size at_.
Proof.
  rewrite (request_words t size ow arrs HS HW HF). unfold words_in, o. cbn [snd].
  apply expected_length.
Qed.
Lemma o_ptrs : pointers_in o = zlen at_.
Proof.
  unfold pointers_in, o. cbn [snd]. apply (ptr_count t size ow arrs HS HW HF).
Qed.

(* what one copy does *)
Lemma copy_one_inv hp b Ab : good_heap hp -> reachable full_arrays b -> binv b Ab -> bview b Ab ->
  data_size (b_h b) + 8 * cost + 32 < 2 ^ 64 ->
  exists r b', copy_single hp b m (entry_addr bs i) = Some (st_for t r, b') /\
    (r <> 0 -> reachable full_arrays b' /\ objects b' = objects b ++ [o] /\
       exists Ab', binv b' Ab' /\ bview b' Ab' /\
         zlen (a_cells Ab') = zlen (a_cells Ab) + words_in o /\
         zlen (a_objs Ab') = zlen (a_objs Ab) + 1 /\
         zlen (a_dps Ab') = zlen (a_dps Ab) + pointers_in o /\
         data_size (b_h b') <= data_size (b_h b) + 8 * cost /\
         (has_room_for b [o] -> a_ms Ab' = a_ms Ab /\ a_mo Ab' = a_mo Ab /\ a_md Ab' = a_md Ab /\
            data_addr (b_h b') = data_addr (b_h b)) /\
         (added_only b -> added_only b')) /\
    (r = 0 -> objects b' = objects b) /\
    (has_room_for b [o] -> r <> 0) /\
    (added_only b -> memory_up_to hp (data_size (b_h b) + 8 * cost + 16) -> r <> 0).
Proof.
  intros Hh HR Ib Vb HD.
  destruct (src_read bs A I i s n t HN size ow arrs HW HF HE) as (ws & RW & W1 & W2).
  set (q := Request (mem_byte m) ws size (copied_type t) at_).
  pose proof (copy_call bs A I i s n t HN size ow arrs HS HW H64 HF HE ws W1 W2) as CC.
  pose proof o_words as OW. pose proof o_ptrs as OP.
  assert (RQ : request_ok b q).
  { split; [exact CC|]. unfold q. cbn [rq_size rq_attrs]. fold (zlen at_).
    rewrite <- OW, <- OP. fold cost. lia. }
  assert (HRa : reachable any b) by (eapply reachable_mono; [|exact HR]; exact (fun _ _ => Logic.I)).
  assert (FA : full_arrays q) by exact (request_full bs t size ow arrs HS HF ws).
  destruct (add_defined hp b q HRa Hh RQ) as (r & b' & Ea).
  assert (Eb : buf_add_object hp b (mem_byte m) ws size (copied_type t) at_ = Some (r, b')) by exact Ea.
  assert (RM : has_room_for b [o] <-> has_room b q).
  { unfold has_room_for, has_room. cbv zeta. unfold q. cbn [rq_size rq_attrs].
    fold (zlen at_). rewrite <- OW, <- OP. cbn [total fold_right length]. rewrite !Z.add_0_r. tauto. }
  destruct (Z.eq_dec r 0) as [->|Hr].
  - (* failed *)
    exists 0, b'. split.
    { rewrite copy_single_eq. unfold add_from. unfold a. rewrite RW. cbn [bind]. rewrite Eb. reflexivity. }
    split; [congruence|]. split.
    { intros _. apply (add_failed hp b q b' HRa Hh RQ); [now apply reach_no_end|exact Ea]. }
    split.
    { intros HR2. apply RM in HR2. destruct (add_with_room hp b q HRa Hh RQ HR2) as (r2 & b2 & E2 & N2 & _).
      rewrite Ea in E2. congruence. }
    { intros AO MM. destruct (add_fresh hp b q AO Hh) as (r2 & b2 & E2 & N2); [|exact RQ|congruence].
      unfold q. cbn [rq_size rq_attrs]. fold (zlen at_). rewrite <- OW, <- OP. exact MM. }
  - destruct RQ as (RQ1 & RQ2).
    destruct (add_all hp b Ab (rq_mem q) (rq_obj q) (rq_size q) (rq_type q) (rq_attrs q) Hh Ib Vb RQ1 RQ2)
      as (r2 & b2 & E2 & T & T2 & T3 & _).
    unfold add in Ea. rewrite Ea in E2. assert (r = r2) as <- by congruence.
    assert (b' = b2) as <- by congruence.
    destruct (T Hr) as (ow' & arrs' & A' & OD & I' & V' & C' & O' & R' & Ce & Wo & LA & SW & Zd & Mg & Ro & Nr).
    clear T E2.
    assert (Eo : (copied_type t, expected_object ow' at_ arrs') = o).
    { assert (X : (t, expected_object ow' at_ arrs') = (t, E)).
      { apply (copy_stored bs A I i s n t HN size ow arrs HS HW H64 HF HE ws W1 W2).
        exists ow', arrs'. split; [exact OD|reflexivity]. }
      unfold o. congruence. }
    change (rq_type q) with (copied_type t) in *. change (rq_attrs q) with at_ in *. change (rq_size q) with size in *.
    rewrite Eo in C'.
    assert (LE : zlen (expected_object ow' at_ arrs') = words_in o).
    { rewrite <- Eo. reflexivity. }
    assert (NA : nth_error (a_objs A') (length (a_objs Ab)) =
      Some (zlen (a_cells Ab), zlen (expected_object ow' at_ arrs'), copied_type t)).
    { rewrite O', nth_error_app2 by lia. now rewrite Nat.sub_diag. }
    set (r' := mbase (b_mem b') + 80 + 8 * zlen (a_cells Ab)).
    assert (RD : rd (b_mem b') r = Some r').
    { rewrite R'. pose proof (entry_words b' A' _ _ _ _ I' V' NA) as (_ & X & _).
      unfold entry_addr in X. rewrite V' in X. fold r' in X. rewrite <- X. f_equal. unfold zlen. lia. }
    pose proof (re_base _ _ _ (bi_repr _ _ I')) as (Bp & _). pose proof (zlen_nonneg (a_cells Ab)).
    assert (N' : r' <> 0) by (unfold r'; lia).
    exists r', b'. split.
    { rewrite copy_single_eq. unfold add_from. unfold a. rewrite RW. cbn [bind]. rewrite Eb. cbn [bind].
      assert (Rz : (r =? 0) = false) by now apply Z.eqb_neq. rewrite Rz, RD. reflexivity. }
    split; [|split; [congruence|split; [intros; assumption|intros; assumption]]].
    intros _. split.
    { apply (r_add _ hp b q r b' HR Hh (conj RQ1 RQ2) FA Ea Hr). }
    split; [now rewrite (objects_eq _ _ Ib), (objects_eq _ _ I')|].
    exists A'. split; [assumption|]. split; [assumption|].
    assert (Zc : zlen (a_cells A') = zlen (a_cells Ab) + words_in o)
      by (rewrite Ce, zlen_app, zlen_map, LE; lia).
    assert (Zo : zlen (a_objs A') = zlen (a_objs Ab) + 1) by (rewrite O', zlen_app; reflexivity).
    assert (Zp : zlen (a_dps A') = zlen (a_dps Ab) + pointers_in o) by (rewrite Zd, OP; reflexivity).
    split; [assumption|]. split; [assumption|]. split; [assumption|].
    assert (DR : room Ab size at_ \/ ~ room Ab size at_).
    { unfold room. destruct (Z_le_dec (zlen (a_cells Ab) + object_words size at_) (a_ms Ab)),
        (Z_le_dec (zlen (a_objs Ab) + 1) (a_mo Ab)), (Z_le_dec (zlen (a_dps Ab) + zlen at_) (a_md Ab)); tauto. }
    split.
    { rewrite (bi_dsize _ _ Ib), (bi_dsize _ _ I'). unfold tot. rewrite Mg.
      pose proof (ok_bounds Ab (re_ok _ _ _ (bi_repr _ _ Ib))) as (?&?&?&?).
      unfold cost. rewrite OP, OW. unfold zlen at 1.
      destruct DR as [D|D].
      - destruct (Ro D) as (-> & -> & ->). pose proof (zlen_nonneg at_).
        assert (0 <= words_in o) by (unfold words_in; lia). unfold zlen in *. lia.
      - destruct (Nr D) as (-> & -> & ->). unfold zlen in *. lia. }
    split.
    { intros HR2. apply RM in HR2. pose proof HR2 as HR3. apply (has_room_iff b Ab q Ib) in HR2.
      change (rq_attrs q) with at_ in HR2. change (rq_size q) with size in HR2.
      destruct (Ro HR2) as (X1 & X2 & X3). split; [assumption|]. split; [assumption|]. split; [assumption|].
      rewrite (bi_addr _ _ Ib), (bi_addr _ _ I'). apply T3. assumption. }
    { intros AO. apply (ao_add hp b q r b' AO Hh (conj RQ1 RQ2) FA Ea Hr). }
Qed.

End One.

(* ------------------------------------------------------------------ *)
(* the same in the terms of the specification *)
Definition copyable (o : Z * list cell) : Prop := is_element o /\ fst o <> 257 /\ fst o <> 260.

Definition cost (o : Z * list cell) : Z := 8 * (words_in o + 3 + pointers_in o).

Lemma copy_one bs i o hp b Ab : reachable any bs -> nth_error (objects bs) i = Some o -> copyable o ->
  good_heap hp -> reachable full_arrays b -> binv b Ab -> bview b Ab ->
  data_size (b_h b) + cost o + 32 < 2 ^ 64 ->
  exists r b', copy_single hp b (b_mem bs) (entry_addr bs i) = Some (st_for (fst o) r, b') /\
    (r <> 0 -> reachable full_arrays b' /\ objects b' = objects b ++ [copied o] /\
       exists Ab', binv b' Ab' /\ bview b' Ab' /\
         zlen (a_cells Ab') = zlen (a_cells Ab) + words_in o /\
         zlen (a_objs Ab') = zlen (a_objs Ab) + 1 /\
         zlen (a_dps Ab') = zlen (a_dps Ab) + pointers_in o /\
         data_size (b_h b') <= data_size (b_h b) + cost o /\
         (has_room_for b [o] -> a_ms Ab' = a_ms Ab /\ a_mo Ab' = a_mo Ab /\ a_md Ab' = a_md Ab /\
            data_addr (b_h b') = data_addr (b_h b)) /\
         (added_only b -> added_only b')) /\
    (r = 0 -> objects b' = objects b) /\
    (has_room_for b [o] -> r <> 0) /\
    (added_only b -> memory_up_to hp (data_size (b_h b) + cost o + 16) -> r <> 0).
Proof.
  intros HB HO ((size & ow & arrs & E1 & E2 & E3 & E4 & E5) & NT) Hh HR Ib Vb HD.
  destruct (reachable_inv _ _ HB) as (A & I & V & _). rewrite (objects_eq _ _ I) in HO.
  unfold acontent in HO. rewrite nth_error_map in HO.
  destruct (nth_error (a_objs A) i) as [[[s n] t]|] eqn:HN; [|discriminate].
  cbn [option_map] in HO. destruct o as [t' c]. cbn [fst snd] in *.
  assert (t = t') as -> by congruence. assert (HE : map (rel_cell s) (slice (a_cells A) s n) = c) by congruence.
  rewrite E5 in HE. subst c.
  exact (copy_one_inv bs A I V i s n t' HN size ow arrs E1 E2 E3 E4 HE NT hp b Ab Hh HR Ib Vb HD).
Qed.

Lemma words_in_nonneg o : 0 <= words_in o. Proof. unfold words_in. lia. Qed.
Lemma pointers_in_nonneg o : 0 <= pointers_in o. Proof. unfold pointers_in. lia. Qed.
Lemma total_nonneg f l : (forall o, 0 <= f o) -> 0 <= total f l.
Proof. intros H. induction l as [|o l IH]; cbn [total fold_right]; [lia|]. specialize (H o). unfold total in IH. lia. Qed.
Lemma total_cons f o l : total f (o :: l) = f o + total f l.
Proof. reflexivity. Qed.

Lemma has_room_abs b Ab l : binv b Ab -> has_room_for b l <->
  zlen (a_cells Ab) + total words_in l <= a_ms Ab /\ zlen (a_objs Ab) + Z.of_nat (length l) <= a_mo Ab /\
  zlen (a_dps Ab) + total pointers_in l <= a_md Ab.
Proof.
  intros I. pose proof (bi_repr _ _ I) as R. unfold has_room_for. cbv zeta.
  rewrite !(sec_limit_ok _ _ _ R), !(sec_count_ok _ _ _ R) by (auto || (unfold section_id; lia)). tauto.
Qed.

Definition signed_type (o : Z * list cell) : Prop := existsb (Z.eqb (fst o)) [8; 9; 13; 14] = false.

Lemma copied_same o : signed_type o -> copied o = o.
Proof.
  unfold signed_type. cbn [existsb]. rewrite !orb_false_iff. intros (_ & H & _). unfold copied, copied_type.
  rewrite H. now destruct o.
Qed.

Lemma memory_le hp x y : y <= x -> memory_up_to hp x -> memory_up_to hp y.
Proof. intros H M n Hn. apply M. lia. Qed.

Definition line_cost (l : list (Z * list cell)) : Z :=
  8 * (total words_in l + 3 * Z.of_nat (length l) + total pointers_in l).

Lemma line_cost_cons o l : line_cost (o :: l) = cost o + line_cost l.
Proof. unfold line_cost, cost. rewrite !total_cons. cbn [length]. lia. Qed.
Lemma line_cost_nonneg l : 0 <= line_cost l.
Proof.
  unfold line_cost. pose proof (total_nonneg words_in l words_in_nonneg).
  pose proof (total_nonneg pointers_in l pointers_in_nonneg). lia.
Qed.

(* the loop over a list of elements that are all copied with status 0 or -1 *)
Lemma copy_loop_ok bs : reachable any bs -> forall l i b Ab hps,
  (forall k o, nth_error l k = Some o -> nth_error (objects bs) (i + k) = Some o) ->
  Forall copyable l -> Forall signed_type l ->
  (forall k, good_heap (hps k)) -> reachable full_arrays b -> binv b Ab -> bview b Ab ->
  data_size (b_h b) + line_cost l + 32 < 2 ^ 64 ->
  exists st b' n, copy_loop hps b (b_mem bs) (entry_addr bs i) (length l) = Some (st, b') /\
    (n <= length l)%nat /\ objects b' = objects b ++ firstn n l /\ (st = 0 <-> n = length l) /\
    (st = 0 \/ st = -1) /\
    (st = 0 -> reachable full_arrays b' /\ data_size (b_h b') <= data_size (b_h b) + line_cost l /\
       exists Ab', binv b' Ab' /\ bview b' Ab' /\
         zlen (a_cells Ab') = zlen (a_cells Ab) + total words_in l /\
         zlen (a_objs Ab') = zlen (a_objs Ab) + Z.of_nat (length l) /\
         zlen (a_dps Ab') = zlen (a_dps Ab) + total pointers_in l /\
         (has_room_for b l -> a_ms Ab' = a_ms Ab /\ a_mo Ab' = a_mo Ab /\ a_md Ab' = a_md Ab)) /\
    (has_room_for b l -> st = 0 /\ data_addr (b_h b') = data_addr (b_h b)) /\
    (added_only b -> (forall k, memory_up_to (hps k) (data_size (b_h b) + line_cost l + 16)) ->
       st = 0 /\ added_only b').
Proof.
  intros HB. induction l as [|o l IH]; intros i b Ab hps HI HC HT Hh HR Ib Vb HD.
  - exists 0, b, O. cbn [copy_loop length firstn]. rewrite app_nil_r. split; [reflexivity|].
    split; [lia|]. split; [reflexivity|]. split; [tauto|]. split; [auto|]. split; [|split; intros; auto].
    intros _. split; [assumption|]. split; [pose proof (line_cost_nonneg []); lia|].
    exists Ab. cbn [total fold_right]. change (Z.of_nat 0) with 0. rewrite !Z.add_0_r. auto 12.
  - inversion HC as [|? ? HC1 HC2]; subst. inversion HT as [|? ? HT1 HT2]; subst.
    rewrite line_cost_cons in HD. pose proof (line_cost_nonneg l) as LC.
    assert (HO : nth_error (objects bs) i = Some o) by (rewrite <- (HI O o eq_refl); f_equal; lia).
    destruct (copy_one bs i o (hps O) b Ab HB HO HC1 (Hh O) HR Ib Vb ltac:(lia))
      as (r & b1 & E1 & P1 & P2 & P3 & P4).
    assert (St : st_for (fst o) r = st_sign r) by (unfold st_for; now rewrite HT1).
    rewrite St in E1. cbn [copy_loop length]. rewrite E1. cbn [bind].
    assert (Room1 : has_room_for b (o :: l) -> has_room_for b [o]).
    { rewrite !(has_room_abs b Ab) by assumption. rewrite !total_cons. cbn [length].
      change (total words_in []) with 0. change (total pointers_in []) with 0.
      pose proof (total_nonneg words_in l words_in_nonneg).
      pose proof (total_nonneg pointers_in l pointers_in_nonneg). lia. }
    destruct (Z.eq_dec r 0) as [->|Hr].
    + change (st_sign 0) with (-1). cbn [Z.eqb]. exists (-1), b1, O.
      split; [reflexivity|]. split; [lia|]. cbn [firstn]. rewrite app_nil_r. split; [now apply P2|].
      split; [split; [lia|intros X; cbn [length] in X; lia]|]. split; [auto|]. split; [lia|]. split.
      * intros X. exfalso. apply P3; auto.
      * intros AO MM. exfalso. apply P4; auto. eapply memory_le; [|apply (MM O)].
        rewrite line_cost_cons. lia.
    + assert (Sz : st_sign r = 0). { unfold st_sign. apply Z.eqb_neq in Hr. now rewrite Hr. }
      rewrite Sz. cbn [Z.eqb].
      destruct (P1 Hr) as (HR1 & O1 & Ab1 & I1 & V1 & Zc & Zo & Zd & Dz & Rm & Ao).
      rewrite (copied_same o HT1) in O1.
      assert (EA : entry_addr bs i + 24 = entry_addr bs (S i)) by (unfold entry_addr; lia). rewrite EA.
      destruct (IH (S i) b1 Ab1 (fun k => hps (S k))) as (st & b' & n & E & N1 & N2 & N3 & N4 & N5 & N6 & N7); auto.
      { intros k o' Hk. specialize (HI (S k) o' Hk). rewrite <- HI. f_equal. lia. }
      { lia. }
      exists st, b', (S n). split; [exact E|]. split; [lia|].
      split; [rewrite N2, O1, <- app_assoc; reflexivity|]. split; [rewrite N3; lia|].
      split; [assumption|].
      assert (Room2 : has_room_for b (o :: l) -> has_room_for b1 l).
      { intros X. destruct (Rm (Room1 X)) as (Y1 & Y2 & Y3 & _). revert X.
        rewrite (has_room_abs b Ab), (has_room_abs b1 Ab1) by assumption.
        rewrite !total_cons. cbn [length]. rewrite Zc, Zo, Zd, Y1, Y2, Y3. lia. }
      split; [|split].
      * intros S0. destruct (N5 S0) as (Q1 & Q2 & Ab2 & Q3 & Q4 & Q5 & Q6 & Q7 & Q8).
        split; [assumption|]. split; [rewrite line_cost_cons; lia|]. exists Ab2.
        split; [assumption|]. split; [assumption|]. rewrite !total_cons. cbn [length].
        split; [lia|]. split; [lia|]. split; [lia|]. intros X.
        destruct (Rm (Room1 X)) as (Y1 & Y2 & Y3 & _). destruct (Q8 (Room2 X)) as (Y4 & Y5 & Y6).
        rewrite Y4, Y5, Y6. auto.
      * intros X. destruct (N6 (Room2 X)) as (Y1 & Y2). destruct (Rm (Room1 X)) as (_ & _ & _ & Y3).
        split; [assumption|]. now rewrite Y2.
      * intros AO MM. apply N7; [now apply Ao|]. intros k. eapply memory_le; [|apply (MM (S k))].
        rewrite line_cost_cons. lia.
Qed.

Lemma range_nth {T} (l : list T) i j k : (k < j - i)%nat -> nth_error (range l i j) k = nth_error l (i + k).
Proof.
  intros H. unfold range. rewrite firstn_nth, skipn_nth.
  destruct (k <? j - i)%nat eqn:E; [reflexivity|]. apply Nat.ltb_ge in E. lia.
Qed.

Lemma range_len {T} (l : list T) i j : (i <= j <= length l)%nat -> length (range l i j) = (j - i)%nat.
Proof. intros H. unfold range. rewrite firstn_length, skipn_length. lia. Qed.

Lemma range_length_ok bs i j : (i <= j)%nat -> range_length (entry_addr bs i) (entry_addr bs j) = Some (j - i)%nat.
Proof.
  intros H. unfold range_length, entry_addr. cbv zeta.
  replace (object_addr (b_h bs) + 24 * Z.of_nat j - (object_addr (b_h bs) + 24 * Z.of_nat i))
    with (Z.of_nat (j - i) * 24) by lia.
  rewrite Z.mod_mul, Z.div_mul by lia. rewrite Nat2Z.id.
  assert (E : (0 <=? Z.of_nat (j - i) * 24) = true) by (apply Z.leb_le; lia). now rewrite E.
Qed.

Lemma entry_nz bs i : reachable any bs -> (entry_addr bs i =? 0) = false.
Proof.
  intros H. destruct (reachable_inv _ _ H) as (A & I & V & _). apply Z.eqb_neq. unfold entry_addr.
  rewrite V. pose proof (bi_repr _ _ I) as R. pose proof (re_base _ _ _ R) as (B1 & _).
  pose proof (ok_bounds A (re_ok _ _ _ R)) as (Bc & Bo & Bd & Bg).
  assert (L4 : spos A 4 = 10 + a_ms A) by reflexivity. lia.
Qed.

Lemma copy_line_ok bs i j b hps : reachable any bs -> (i < j <= length (objects bs))%nat ->
  Forall copyable (range (objects bs) i j) -> Forall signed_type (range (objects bs) i j) ->
  (forall k, good_heap (hps k)) -> reachable full_arrays b -> fits b (range (objects bs) i j) ->
  exists st b' n, copy_to_buffer hps b (b_mem bs) (entry_addr bs i) (entry_addr bs j) = Some (st, b') /\
    (n <= length (range (objects bs) i j))%nat /\ objects b' = objects b ++ firstn n (range (objects bs) i j) /\
    (st = 0 <-> n = length (range (objects bs) i j)) /\ (st = 0 \/ st = -1) /\
    (st = 0 -> reachable full_arrays b') /\
    (has_room_for b (range (objects bs) i j) -> st = 0 /\ data_addr (b_h b') = data_addr (b_h b)) /\
    (added_only b -> (forall k, memory_up_to (hps k)
        (data_size (b_h b) + line_cost (range (objects bs) i j) + 16)) -> st = 0).
Proof.
  intros HB Hij HC HT Hh HR HF. destruct (reachable_inv _ _ HR) as (Ab & Ib & Vb & _).
  set (l := range (objects bs) i j) in *.
  assert (Ll : length l = (j - i)%nat) by (apply range_len; lia).
  destruct (copy_loop_ok bs HB l i b Ab hps) as (st & b' & n & E & N1 & N2 & N3 & N4 & N5 & N6 & N7); auto.
  { intros k o Hk. rewrite <- Hk. symmetry. apply range_nth. rewrite <- Ll. apply nth_error_Some. congruence. }
  exists st, b', n. unfold copy_to_buffer. rewrite !entry_nz by assumption. cbn [orb].
  rewrite range_length_ok by lia. cbn [bind]. rewrite <- Ll, E. cbn [bind].
  assert (P : (0 <? entry_addr bs j - entry_addr bs i) = true) by (apply Z.ltb_lt; unfold entry_addr; lia).
  cbv zeta. rewrite P, Z.lor_0_l.
  split; [reflexivity|]. split; [assumption|]. split; [assumption|]. split; [assumption|].
  split; [assumption|]. split; [intros X; now apply N5|]. split; [assumption|].
  intros AO MM. now apply N7.
Qed.
