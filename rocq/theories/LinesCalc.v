(* The numbers of slots, objects and data pointers of a line. *)
From Coq Require Import ZArith List Bool Lia.
From Verif Require Import Tac MBuf MBufSpec MBufMem MBufAbs MemPool Buffer BufferSpec BufferUser
  BufferProofs BufferAddMem BufferAdd BufferAddLoop BufferAddMain BufferReach BufferProps
  Lines LinesSpec LinesProofs LinesCopy.
Import ListNotations.
Local Open Scope Z_scope.

Lemma slots_of_ok k : 0 <= k -> 8 * k < 2 ^ 64 -> slots_of (8 * k) = k.
Proof.
  intros H H2. unfold slots_of. cbv zeta. rewrite (Z.mul_comm 8 k), Z.div_mul by lia.
  rewrite u64_id by lia. assert (E : (k * 8 <? k * 8) = false) by (apply Z.ltb_ge; lia). now rewrite E.
Qed.

Lemma slot_based_8 k : 0 <= k -> 8 * k < 2 ^ 64 -> slot_based (8 * k) = 8 * k.
Proof.
  intros H H2. assert (W : words_of (8 * k) = k).
  { unfold words_of. rewrite (Z.mul_comm 8), Z.add_comm, Z.div_add by lia. reflexivity. }
  rewrite slot_based_ok by (try rewrite W; lia). now rewrite W.
Qed.

Lemma struct_slots_ok size : In size [8; 16; 24; 32; 40; 64; 72; 80; 88] -> struct_slots size = size / 8.
Proof. cbn [In]. intros H. repeat (destruct H as [<-|H]; [reflexivity|]). destruct H. Qed.

Lemma F2_one {S T} (P : S -> T -> Prop) x l : Forall2 P [x] l -> exists y, l = [y] /\ P x y.
Proof. intros H. inversion H as [|? y ? ? X Y]; subst. inversion Y; subst. eauto. Qed.
Lemma F2_two {S T} (P : S -> T -> Prop) x x' l : Forall2 P [x; x'] l ->
  exists y y', l = [y; y'] /\ P x y /\ P x' y'.
Proof.
  intros H. inversion H as [|? y ? ? X Y]; subst. apply F2_one in Y as (y' & -> & Y). eauto 6.
Qed.

(* the element o is sized correctly *)
Definition sized (o : Z * list cell) : Prop := is_element o /\ fst o <> 13 /\ fst o <> 257 /\ fst o <> 260.

Lemma calc_object_ok bs i o : reachable any bs -> nth_error (objects bs) i = Some o -> sized o ->
  calc_object (b_mem bs) (entry_addr bs i) = Some (0, (1, words_in o, pointers_in o)).
Proof.
  intros HB HO ((size & ow & arrs & HS & HW & H64 & HF & E5) & NT).
  destruct (reachable_inv _ _ HB) as (A & I & V & _). rewrite (objects_eq _ _ I) in HO.
  unfold acontent in HO. rewrite nth_error_map in HO.
  destruct (nth_error (a_objs A) i) as [[[s n] t]|] eqn:HN; [|discriminate].
  cbn [option_map] in HO. destruct o as [t' c]. cbn [fst snd] in *.
  assert (t = t') as -> by congruence. assert (HE : map (rel_cell s) (slice (a_cells A) s n) = c) by congruence.
  rewrite E5 in HE. subst c. rename t' into t.
  pose proof (request_words t size ow arrs HS HW HF) as RW.
  pose proof (ptr_count t size ow arrs HS HW HF) as PC.
  pose proof (expected_length ow (element_arrays t ow) arrs) as EL.
  pose proof (src_bounds bs A I i s n t HN ow arrs HF HE) as (S1 & S2 & S3 & S4 & S5 & S6 & S7 & S8).
  assert (WI : words_in (t, expected_object ow (element_arrays t ow) arrs) = object_words size (element_arrays t ow)).
  { rewrite RW. exact EL. }
  assert (PI : pointers_in (t, expected_object ow (element_arrays t ow) arrs) = zlen (element_arrays t ow))
    by exact PC.
  rewrite WI, PI. clear WI PI PC EL.
  destruct (entry_words bs A i s n t I V HN) as (E0 & E1 & E2).
  unfold calc_object. assert (Ez : (entry_addr bs i =? 0) = false) by now apply Z.eqb_neq.
  rewrite Ez, E1. cbn [bind]. rewrite E2. cbn [bind].
  assert (RF : rd (b_mem bs) (mbase (b_mem bs) + 80 + 8 * s) = Some (wnth ow 0)).
  { rewrite <- (src_first bs A I i s n t HN size ow arrs HS HW HF HE). apply rd_ok; lia. }
  pose proof (small_array bs A I i s n t HN size ow arrs HS HF HE) as SA.
  pose proof (wnth_range ow 0 H64) as WR.
  set (a := mbase (b_mem bs) + 80 + 8 * s) in *.
  pose proof (element_cases t size HS) as C.
  destruct C as [C|[(-> & ->)|[(-> & ->)|[(-> & ->)|[(-> & ->)|(-> & ->)]]]]].
  - rewrite (plain_arrays t size) by assumption. clear SA HE HF HN E2 RW HS HW.
    unfold plain_list in C. cbn [In] in C.
    repeat (destruct C as [C|C]; [injection C as <- <-; try reflexivity; exfalso; lia|]). destruct C.
  - change (element_arrays 4 ow) with [Attr 32 8 (2 * wnth ow 0 + 2)] in *.
    change ((n <- mp_num_slots (b_mem bs) a ;; Some (0, (1, n, 1))) =
      Some (0, (1, object_words 40 [Attr 32 8 (2 * wnth ow 0 + 2)], 1))).
    specialize (SA _ (or_introl eq_refl)). cbn [at_count] in SA.
    destruct (two_order_ok (wnth ow 0) ltac:(lia)) as (X1 & X2).
    unfold mp_num_slots. rewrite RF. cbn [bind]. unfold mp_bal_length. cbv zeta. rewrite X1, X2.
    assert (P : (0 <=? wnth ow 0) = true) by (apply Z.leb_le; lia). rewrite P. cbn [bind].
    apply F2_one in HF as (ar & -> & Y1 & Y2 & Y3). cbn [at_count] in *.
    rewrite !sumw_cons in *. change (sumw []) with 0 in *. change (zlen ar) with (wcount ar) in *.
    set (k := 2 * wnth ow 0 + 2) in *. change (slot_based 40) with (8 * 5).
    assert (wcount ow = 5) by lia.
    rewrite (Z.mul_comm k 8), (u64_id (8 * k)), slot_based_8 by lia.
    rewrite <- Z.mul_add_distr_l, u64_id, slots_of_ok by lia.
    rewrite RW. do 4 f_equal. lia.
  - change (element_arrays 256 ow) with [Attr 32 8 (2 * wnth ow 0 + 2); Attr 40 8 (2 * wnth ow 0 + 2)] in *.
    change ((n <- rf_num_slots (b_mem bs) a ;; Some (0, (1, n, 2))) =
      Some (0, (1, object_words 48 [Attr 32 8 (2 * wnth ow 0 + 2); Attr 40 8 (2 * wnth ow 0 + 2)], 2))).
    specialize (SA _ (or_introl eq_refl)). cbn [at_count] in SA.
    destruct (two_order_ok (wnth ow 0) ltac:(lia)) as (X1 & X2).
    unfold rf_num_slots. rewrite RF. cbn [bind]. unfold rf_length. rewrite X1, X2. cbn [bind].
    apply F2_two in HF as (ar & ar2 & -> & (Y1 & Y2 & Y3) & Y4 & Y5 & Y6).
    cbn [at_count] in *. rewrite !sumw_cons in *. change (sumw []) with 0 in *.
    repeat match goal with H : context [@zlen Z ?x] |- _ => change (@zlen Z x) with (wcount x) in H end.
    set (k := 2 * wnth ow 0 + 2) in *. change (slot_based 48) with (8 * 6).
    assert (wcount ow = 6) by lia.
    rewrite (u64_id (8 * k)), slot_based_8 by lia.
    rewrite <- Z.mul_add_distr_l, (u64_id (8 * (6 + k))) by lia.
    rewrite <- Z.mul_add_distr_l, u64_id, slots_of_ok by lia.
    rewrite RW. do 4 f_equal. lia.
  - change (element_arrays 8 ow) with [Attr 8 8 (wnth ow 0)] in *.
    change ((n <- bb_num_slots (b_mem bs) a ;; Some (0, (1, n, 1))) =
      Some (0, (1, object_words 16 [Attr 8 8 (wnth ow 0)], 1))).
    specialize (SA _ (or_introl eq_refl)). cbn [at_count] in SA.
    unfold bb_num_slots. rewrite RF. cbn [bind].
    apply F2_one in HF as (ar & -> & Y1 & Y2 & Y3).
    cbn [at_count] in *. rewrite !sumw_cons in *. change (sumw []) with 0 in *.
    repeat match goal with H : context [@zlen Z ?x] |- _ => change (@zlen Z x) with (wcount x) in H end.
    set (k := wnth ow 0) in *. change (slot_based 16) with (8 * 2).
    assert (wcount ow = 2) by lia.
    rewrite (Z.mul_comm k 8), (u64_id (8 * k)) by lia.
    rewrite <- Z.mul_add_distr_l, u64_id, slots_of_ok by lia.
    rewrite RW. do 4 f_equal. lia.
  - change (element_arrays 9 ow) with [Attr 8 8 (wnth ow 0)] in *.
    change ((n <- bb_num_slots (b_mem bs) a ;; Some (0, (1, n, 1))) =
      Some (0, (1, object_words 16 [Attr 8 8 (wnth ow 0)], 1))).
    specialize (SA _ (or_introl eq_refl)). cbn [at_count] in SA.
    unfold bb_num_slots. rewrite RF. cbn [bind].
    apply F2_one in HF as (ar & -> & Y1 & Y2 & Y3).
    cbn [at_count] in *. rewrite !sumw_cons in *. change (sumw []) with 0 in *.
    repeat match goal with H : context [@zlen Z ?x] |- _ => change (@zlen Z x) with (wcount x) in H end.
    set (k := wnth ow 0) in *. change (slot_based 16) with (8 * 2).
    assert (wcount ow = 2) by lia.
    rewrite (Z.mul_comm k 8), (u64_id (8 * k)) by lia.
    rewrite <- Z.mul_add_distr_l, u64_id, slots_of_ok by lia.
    rewrite RW. do 4 f_equal. lia.
  - exfalso. lia.
Qed.

Lemma calc_loop_ok bs : reachable any bs -> forall l i no ns nd,
  (forall k o, nth_error l k = Some o -> nth_error (objects bs) (i + k) = Some o) ->
  Forall sized l -> 0 <= no -> 0 <= ns -> 0 <= nd -> no + Z.of_nat (length l) < 2 ^ 64 ->
  ns + total words_in l < 2 ^ 64 -> nd + total pointers_in l < 2 ^ 64 ->
  calc_loop (b_mem bs) (entry_addr bs i) (length l) (no, ns, nd) =
    Some (0, (no + Z.of_nat (length l), ns + total words_in l, nd + total pointers_in l)).
Proof.
  intros HB. induction l as [|o l IH]; intros i no ns nd HI HC Ho Hs Hd Bo Bs Bd.
  - cbn [calc_loop length total fold_right]. change (Z.of_nat 0) with 0. now rewrite !Z.add_0_r.
  - inversion HC as [|? ? HC1 HC2]; subst. cbn [calc_loop length].
    assert (HO : nth_error (objects bs) i = Some o) by (rewrite <- (HI O o eq_refl); f_equal; lia).
    rewrite (calc_object_ok bs i o HB HO HC1). cbn [bind Z.eqb].
    rewrite !total_cons in *. cbn [length] in *.
    pose proof (words_in_nonneg o). pose proof (pointers_in_nonneg o).
    pose proof (total_nonneg words_in l words_in_nonneg).
    pose proof (total_nonneg pointers_in l pointers_in_nonneg).
    rewrite !u64_id by lia.
    assert (EA : entry_addr bs i + 24 = entry_addr bs (S i)) by (unfold entry_addr; lia). rewrite EA.
    rewrite IH; try lia; try assumption.
    + do 3 f_equal; [f_equal|]; lia.
    + intros k o' Hk. specialize (HI (S k) o' Hk). rewrite <- HI. f_equal. lia.
Qed.

Lemma calc_line_ok bs i j no ns nd : reachable any bs -> (i <= j <= length (objects bs))%nat ->
  Forall sized (range (objects bs) i j) -> 0 <= no -> 0 <= ns -> 0 <= nd ->
  no + Z.of_nat (j - i) < 2 ^ 64 -> ns + total words_in (range (objects bs) i j) < 2 ^ 64 ->
  nd + total pointers_in (range (objects bs) i j) < 2 ^ 64 ->
  calc_line (b_mem bs) (entry_addr bs i) (entry_addr bs j) (no, ns, nd) =
    Some (0, (no + Z.of_nat (j - i), ns + total words_in (range (objects bs) i j),
              nd + total pointers_in (range (objects bs) i j))).
Proof.
  intros HB Hij HC Ho Hs Hd Bo Bs Bd. set (l := range (objects bs) i j) in *.
  assert (Ll : length l = (j - i)%nat) by (apply range_len; lia).
  unfold calc_line. rewrite !entry_nz by assumption. cbn [orb]. rewrite range_length_ok by lia. cbn [bind].
  rewrite <- Ll in *. apply calc_loop_ok; auto.
  intros k o Hk. rewrite <- Hk. symmetry. apply range_nth. rewrite <- Ll. apply nth_error_Some. congruence.
Qed.

(* the three types that are given too few slots *)
Lemma calc_object_wrong bs i o : reachable any bs -> nth_error (objects bs) i = Some o ->
  is_element o -> In (fst o) [13; 257; 260] ->
  exists d, calc_object (b_mem bs) (entry_addr bs i) = Some (0, (1, 0, d)) /\ 9 <= words_in o.
Proof.
  intros HB HO (size & ow & arrs & HS & HW & H64 & HF & E5) NT.
  destruct (reachable_inv _ _ HB) as (A & I & V & _). rewrite (objects_eq _ _ I) in HO.
  unfold acontent in HO. rewrite nth_error_map in HO.
  destruct (nth_error (a_objs A) i) as [[[s n] t]|] eqn:HN; [|discriminate].
  cbn [option_map] in HO. destruct o as [t' c]. cbn [fst snd] in *.
  assert (t = t') as -> by congruence. clear HO. rename t' into t. subst c.
  pose proof (expected_length ow (element_arrays t ow) arrs) as EL. unfold zlen in EL.
  pose proof (sumw_nonneg arrs). unfold words_in. cbn [snd].
  destruct (entry_words bs A i s n t I V HN) as (E0 & E1 & E2).
  unfold calc_object. assert (Ez : (entry_addr bs i =? 0) = false) by now apply Z.eqb_neq.
  rewrite Ez, E1. cbn [bind]. rewrite E2. cbn [bind].
  cbn [In] in NT. destruct NT as [<-|[<-|[<-|[]]]].
  - exists 0. split; [reflexivity|]. assert (size = 72) by (vm_compute in HS; congruence). lia.
  - exists 0. split; [reflexivity|]. assert (size = 80) by (vm_compute in HS; congruence). lia.
  - exists 1. split; [reflexivity|]. assert (size = 104) by (vm_compute in HS; congruence). lia.
Qed.

(* elements that are never copied *)
Lemma copy_single_never hp b bs i o : reachable any bs -> nth_error (objects bs) i = Some o ->
  In (fst o) [257; 260] -> copy_single hp b (b_mem bs) (entry_addr bs i) = Some (-1, b).
Proof.
  intros HB HO NT. destruct (reachable_inv _ _ HB) as (A & I & V & _). rewrite (objects_eq _ _ I) in HO.
  unfold acontent in HO. rewrite nth_error_map in HO.
  destruct (nth_error (a_objs A) i) as [[[s n] t]|] eqn:HN; [|discriminate].
  cbn [option_map] in HO. destruct o as [t' c]. cbn [fst snd] in *.
  assert (t = t') as -> by congruence.
  destruct (entry_words bs A i s n t' I V HN) as (E0 & E1 & E2).
  unfold copy_single. assert (Ez : (entry_addr bs i =? 0) = false) by now apply Z.eqb_neq.
  rewrite Ez, E1. cbn [bind]. rewrite E2. cbn [bind].
  cbn [In] in NT. destruct NT as [<-|[<-|[]]]; reflexivity.
Qed.
