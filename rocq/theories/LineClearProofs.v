(* Facts on clearing a line. *)
From Coq Require Import ZArith List Bool Lia.
From Verif Require Import MBuf MBufSpec MBufMem MBufAbs MemPool Buffer BufferSpec BufferUser BufferProofs
  BufferAddMem BufferAddMain BufferReach BufferWrite BufferProps Lines LinesSpec LinesProofs LinesCopy
  ElementAdd ElementAddSpec ElementAddProofs ElementNew ElementNewSpec ElementNewProofs
  EndOfTurn EndOfTurnSpec EndOfTurnProofs LineClear LineClearSpec.
Import ListNotations.
Local Open Scope Z_scope.

(* ------------------------------------------------------------------ *)
(* what is kept *)
Record kept (b b' : buffer) : Prop := Kept {
  kp_handle : b_h b' = b_h b;
  kp_reach : forall P, reachable P b -> reachable P b';
  kp_added : added_only b -> added_only b';
  kp_begin : forall i, (i < length (objects b))%nat ->
    obj_begin (b_mem b') (Z.of_nat i) = obj_begin (b_mem b) (Z.of_nat i) }.

Lemma kept_refl b : kept b b. Proof. constructor; auto. Qed.

Lemma replace_length {T} (l : list T) n x : length (replace l n x) = length l.
Proof.
  unfold replace. rewrite app_length, firstn_length.
  pose proof (skipn_length n l) as S. destruct (skipn n l); cbn [length] in *; lia.
Qed.

Lemma replace_at {T} (l : list T) n x y : nth_error l n = Some y -> nth_error (replace l n x) n = Some x.
Proof.
  intros H. assert (n < length l)%nat by (apply nth_error_Some; congruence).
  unfold replace. rewrite nth_error_app2 by (rewrite firstn_length; lia).
  rewrite firstn_length, Nat.min_l by lia. rewrite Nat.sub_diag.
  pose proof (skipn_length n l) as S. destruct (skipn n l); cbn [length nth_error] in *; [lia|reflexivity].
Qed.

Lemma nth_skip {T} (l : list T) n k : nth_error (skipn n l) k = nth_error l (n + k).
Proof.
  revert l. induction n as [|n IH]; intros l; [reflexivity|]. destruct l as [|x l].
  - cbn [skipn Nat.add nth_error]. now destruct k.
  - cbn [skipn Nat.add nth_error]. apply IH.
Qed.

Lemma nth_first {T} (l : list T) n k : (k < n)%nat -> nth_error (firstn n l) k = nth_error l k.
Proof.
  revert l k. induction n as [|n IH]; intros l k H; [lia|]. destruct l as [|x l]; [reflexivity|].
  destruct k as [|k]; [reflexivity|]. cbn [firstn nth_error]. apply IH. lia.
Qed.

Lemma replace_other {T} (l : list T) n k x : n <> k -> nth_error (replace l n x) k = nth_error l k.
Proof.
  intros H. unfold replace. destruct (Nat.lt_ge_cases k (length (firstn n l))) as [L|L].
  - rewrite nth_error_app1 by exact L. apply nth_first. rewrite firstn_length in L. lia.
  - rewrite nth_error_app2 by exact L. rewrite firstn_length in *.
    destruct (Nat.lt_ge_cases n (length l)) as [L2|L2].
    + rewrite Nat.min_l in * by lia. destruct (k - n)%nat as [|d] eqn:D; [lia|].
      replace (nth_error l k) with (nth_error (skipn n l) (S d)) by (rewrite nth_skip; f_equal; lia).
      destruct (skipn n l) as [|y r] eqn:S; [reflexivity|reflexivity].
    + rewrite Nat.min_r in * by lia. rewrite skipn_all2 by exact L2.
      assert (nth_error l k = None) as -> by (apply nth_error_None; lia). now destruct (k - length l)%nat.
Qed.

Lemma nth_ext {T} (l l' : list T) : (forall k, nth_error l k = nth_error l' k) -> l = l'.
Proof.
  revert l'. induction l as [|x l IH]; intros [|y l'] H.
  - reflexivity.
  - specialize (H O). discriminate H.
  - specialize (H O). discriminate H.
  - f_equal; [specialize (H O); cbn [nth_error] in H; congruence|]. apply IH. intros k. exact (H (S k)).
Qed.

Lemma replace_twice {T} (l : list T) n x y : replace (replace l n x) n y = replace l n y.
Proof.
  apply nth_ext. intros k. destruct (Nat.eq_dec n k) as [<-|D].
  - destruct (nth_error l n) as [z|] eqn:E.
    + rewrite (replace_at _ n y x), (replace_at _ n y z); auto. now apply replace_at with z.
    + apply nth_error_None in E. rewrite !(proj2 (nth_error_None _ _)); rewrite ?replace_length; auto.
  - now rewrite !replace_other by exact D.
Qed.

Lemma replace_same {T} (l : list T) n x : nth_error l n = Some x -> replace l n x = l.
Proof.
  intros H. apply nth_ext. intros k. destruct (Nat.eq_dec n k) as [<-|D].
  - rewrite (replace_at _ n x x); auto.
  - now rewrite replace_other by exact D.
Qed.

Lemma kept_trans b b1 b2 : length (objects b1) = length (objects b) -> kept b b1 -> kept b1 b2 -> kept b b2.
Proof.
  intros L [X1 X2 X3 X4] [Y1 Y2 Y3 Y4]. constructor; [congruence|auto|auto|].
  intros i H. rewrite Y4 by lia. auto.
Qed.

(* ------------------------------------------------------------------ *)
(* reading and writing words of an object *)
Lemma object_word b i t cells k c : reachable any b -> nth_error (objects b) i = Some (t, cells) ->
  nth_error cells k = Some c ->
  rd (b_mem b) (obj_begin (b_mem b) (Z.of_nat i) + 8 * Z.of_nat k) =
    Some (match c with Raw w => w | Ptr q => obj_begin (b_mem b) (Z.of_nat i) + q end) /\
  0 < obj_begin (b_mem b) (Z.of_nat i) + 8 * Z.of_nat k < 2 ^ 64.
Proof.
  intros H Ho Hc. destruct (reachable_inv _ _ H) as (A & I & V & _).
  pose proof (bi_repr _ _ I) as R. pose proof (re_ok _ _ _ R) as OK.
  rewrite (objects_eq b A I) in Ho.
  destruct (content_nth A i t cells OK Ho) as (s & n & E & -> & Hs & Hn & He & Hl).
  assert (Lk : Z.of_nat k < n).
  { assert (k < length (map (rel_cell s) (slice (a_cells A) s n)))%nat by (apply nth_error_Some; congruence).
    unfold zlen in Hl. lia. }
  pose proof (obj_ok _ _ _ R _ _ _ _ E) as (Eb & _). rewrite Eb.
  rewrite nth_error_map in Hc. pose proof (slice_nth (a_cells A) s n (Z.of_nat k) ltac:(lia) ltac:(lia)) as SN.
  rewrite Nat2Z.id in SN. rewrite SN in Hc.
  destruct (nth_error (a_cells A) (Z.to_nat (s + Z.of_nat k))) as [c0|] eqn:C; [|discriminate].
  pose proof (re_cell _ _ _ R _ _ C) as W.
  pose proof (re_base _ _ _ R) as (B1 & B2 & B3). pose proof (re_len _ _ _ R) as L.
  pose proof (ok_bounds A OK) as (?&?&?&?).
  assert (Hw : 0 <= 10 + s + Z.of_nat k < wlen (b_mem b)) by (unfold zlen, tot in *; lia).
  pose proof (bi_top _ _ I) as Tp. pose proof (bi_len _ _ I) as Ln.
  split; [|pose proof (Z.mul_div_le (p_capacity (b_pool b)) 8); lia].
  replace (mbase (b_mem b) + 80 + 8 * s + 8 * Z.of_nat k)
    with (mbase (b_mem b) + 8 * (10 + s + Z.of_nat k)) by lia.
  rewrite (rd_ok (b_mem b) _ (10 + s + Z.of_nat k)) by lia. f_equal.
  replace (10 + s + Z.of_nat k) with (10 + Z.of_nat (Z.to_nat (s + Z.of_nat k))) by lia.
  rewrite W. destruct c0 as [w|q]; cbn [option_map rel_cell] in Hc; cbn [cellval].
  - assert (c = Raw w) as -> by congruence. reflexivity.
  - assert (c = Ptr (8 * (q - s))) as -> by congruence. lia.
Qed.

Lemma set_one b i t cells k w v a : reachable any b -> nth_error (objects b) i = Some (t, cells) ->
  a = obj_begin (b_mem b) (Z.of_nat i) + 8 * Z.of_nat k -> nth_error cells k = Some (Raw w) -> 0 <= v < 2 ^ 64 ->
  exists b', set_field b a 0 v = Some b' /\ kept b b' /\
    objects b' = replace (objects b) i (t, replace cells k (Raw v)).
Proof.
  intros HR HN -> HK Hv. destruct (reachable_inv _ _ HR) as (A & I & V & _).
  destruct (write_defined b i k v t cells w HR HN HK Hv) as (b' & W).
  destruct (write_inv b A _ _ _ b' I V W) as (A' & I' & V' & _ & _ & Q1 & Q2 & Q3 & _ & Q4 & Q5 & Q6).
  destruct (write_one b _ _ _ b' HR W) as (t' & cells' & N' & O').
  assert ((t', cells') = (t, cells)) as EQ by congruence. injection EQ as -> ->.
  exists b'. pose proof W as W0. inversion W0 as [b0 i0 k0 v0 t0 c0 w0 m' _ _ _ Hw]; subst.
  split. { unfold set_field. rewrite (Z.mod_small v) by lia.
    replace (obj_begin (b_mem b) (Z.of_nat i) + 8 * Z.of_nat k + 8 * 0)
      with (obj_begin (b_mem b) (Z.of_nat i) + 8 * Z.of_nat k) by lia. rewrite Hw. reflexivity. }
  split; [|exact O']. constructor; [reflexivity| | |].
  - intros P X. exact (r_write _ _ _ _ _ _ X W).
  - intros X. exact (ao_write _ _ _ _ _ X W).
  - intros j Hj. pose proof (bi_repr _ _ I) as R. pose proof (bi_repr _ _ I') as R'.
    rewrite (objects_eq _ _ I) in Hj. unfold acontent in Hj. rewrite map_length in Hj.
    destruct (nth_error (a_objs A) j) as [[[s n] t1]|] eqn:HN'; [|apply nth_error_None in HN'; lia].
    destruct (obj_ok _ _ _ R _ _ _ _ HN') as (Eb & _). rewrite <- Q5 in HN'.
    destruct (obj_ok _ _ _ R' _ _ _ _ HN') as (Eb' & _). rewrite Eb, Eb'. f_equal. f_equal.
    rewrite <- (bi_addr _ _ I), <- (bi_addr _ _ I'). reflexivity.
Qed.

Lemma set_field_at b a k v : set_field b a k v = set_field b (a + 8 * k) 0 v.
Proof. unfold set_field. now rewrite Z.add_0_r. Qed.

Definition put (cells : list cell) (l : list (Z * Z)) : list cell :=
  fold_left (fun c p => replace c (Z.to_nat (fst p)) (Raw (snd p))) l cells.

Definition raw_at (cells : list cell) (p : Z * Z) : Prop :=
  0 <= fst p /\ (exists w, nth_error cells (Z.to_nat (fst p)) = Some (Raw w)) /\ 0 <= snd p < 2 ^ 64.

Lemma raw_after cells k v p : raw_at cells p -> raw_at (replace cells k (Raw v)) p.
Proof.
  intros (H & (w & E) & X). split; [exact H|]. split; [|exact X].
  destruct (Nat.eq_dec k (Z.to_nat (fst p))) as [->|D].
  - exists v. now apply replace_at with (Raw w).
  - exists w. now rewrite replace_other.
Qed.

Lemma set_fields_ok i t a : forall l b cells, reachable any b -> nth_error (objects b) i = Some (t, cells) ->
  a = obj_begin (b_mem b) (Z.of_nat i) -> Forall (raw_at cells) l ->
  exists b', set_fields b a l = Some b' /\ kept b b' /\ objects b' = replace (objects b) i (t, put cells l).
Proof.
  induction l as [|[k v] l IH]; intros b cells HR HN HA HF.
  - exists b. split; [reflexivity|]. split; [apply kept_refl|]. cbn [put fold_left]. now rewrite replace_same.
  - pose proof (Forall_inv HF) as (K0 & (w & KW) & KV). pose proof (Forall_inv_tail HF) as HT. cbn [fst snd] in *.
    destruct (set_one b i t cells (Z.to_nat k) w v (a + 8 * k) HR HN ltac:(rewrite Z2Nat.id by exact K0; now rewrite HA) KW KV)
      as (b1 & E1 & K1 & O1).
    assert (L1 : length (objects b1) = length (objects b)) by (rewrite O1; apply replace_length).
    assert (Li : (i < length (objects b))%nat) by (apply nth_error_Some; congruence).
    destruct (IH b1 (replace cells (Z.to_nat k) (Raw v))) as (b2 & E2 & K2 & O2).
    + now apply (kp_reach _ _ K1).
    + rewrite O1. eapply replace_at. exact HN.
    + rewrite (kp_begin _ _ K1); assumption.
    + eapply Forall_impl; [|exact HT]. intros p. apply raw_after.
    + exists b2. cbn [set_fields]. rewrite set_field_at, E1. cbn [bind]. split; [exact E2|].
      split; [exact (kept_trans _ _ _ L1 K1 K2)|]. rewrite O2, O1, replace_twice. reflexivity.
Qed.

(* zeros from word k on *)
Lemma zero_words_ok i t : forall n k b cells p, reachable any b -> nth_error (objects b) i = Some (t, cells) ->
  p = obj_begin (b_mem b) (Z.of_nat i) + 8 * Z.of_nat k ->
  (forall j, (j < n)%nat -> exists w, nth_error cells (k + j) = Some (Raw w)) ->
  exists b' cells', zero_words b p n = Some b' /\ kept b b' /\ objects b' = replace (objects b) i (t, cells') /\
    forall j, nth_error cells' j = if (k <=? j)%nat && (j <? k + n)%nat then Some (Raw 0) else nth_error cells j.
Proof.
  induction n as [|n IH]; intros k b cells p HR HN HP HF.
  - exists b, cells. split; [reflexivity|]. split; [apply kept_refl|]. split; [now rewrite replace_same|].
    intros j. destruct (Nat.leb_spec k j), (Nat.ltb_spec j (k + 0)); cbn [andb]; (reflexivity || lia).
  - destruct (HF O ltac:(lia)) as (w & HW). rewrite Nat.add_0_r in HW.
    destruct (set_one b i t cells k w 0 p HR HN HP HW ltac:(split; [lia|reflexivity])) as (b1 & E1 & K1 & O1).
    assert (L1 : length (objects b1) = length (objects b)) by (rewrite O1; apply replace_length).
    assert (Li : (i < length (objects b))%nat) by (apply nth_error_Some; congruence).
    destruct (IH (S k) b1 (replace cells k (Raw 0)) (p + 8)) as (b2 & cells' & E2 & K2 & O2 & C2).
    + now apply (kp_reach _ _ K1).
    + rewrite O1. eapply replace_at. exact HN.
    + rewrite (kp_begin _ _ K1) by assumption. lia.
    + intros j Hj. destruct (HF (S j) ltac:(lia)) as (w' & HW'). exists w'.
      rewrite replace_other by lia. rewrite <- HW'. f_equal. lia.
    + exists b2, cells'. cbn [zero_words]. change f_zero with 0. rewrite E1. cbn [bind]. split; [exact E2|].
      split; [exact (kept_trans _ _ _ L1 K1 K2)|]. split; [rewrite O2, O1, replace_twice; reflexivity|].
      intros j. rewrite C2. destruct (Nat.eq_dec k j) as [<-|D].
      * rewrite (replace_at _ _ _ _ HW).
        destruct (Nat.leb_spec (S k) k), (Nat.leb_spec k k), (Nat.ltb_spec k (S k + n)), (Nat.ltb_spec k (k + S n));
          cbn [andb]; (reflexivity || lia).
      * rewrite replace_other by exact D.
        destruct (Nat.leb_spec (S k) j), (Nat.leb_spec k j), (Nat.ltb_spec j (S k + n)), (Nat.ltb_spec j (k + S n));
          cbn [andb]; (reflexivity || lia).
Qed.

(* ------------------------------------------------------------------ *)
(* one element *)
Lemma raw_expected ow : expected_object ow [] [] = map Raw ow.
Proof.
  unfold expected_object. cbn [map combine starts find concat]. rewrite app_nil_r. apply nth_ext. intros k.
  rewrite !nth_error_map. destruct (Nat.lt_ge_cases k (length ow)) as [L|L].
  - rewrite zseq_nth by (unfold wcount; lia). cbn [option_map]. unfold wnth. rewrite Nat2Z.id.
    rewrite (nth_error_nth' ow 0 L). reflexivity.
  - rewrite !(proj2 (nth_error_None _ _)); auto. rewrite zseq_length. unfold wcount. lia.
Qed.

Lemma f_neg_ok w : 0 <= w < 2 ^ 64 -> 0 <= f_neg w < 2 ^ 64.
Proof.
  intros H. unfold f_neg, sign_bit. assert (2 ^ 64 = 2 * 2 ^ 63) by reflexivity.
  destruct (Z.ltb_spec w (2 ^ 63)); lia.
Qed.


Ltac word64 := split; [vm_compute; discriminate|reflexivity].


Lemma elem_words t size cells : element_size t = Some size -> (forall ow, element_arrays t ow = []) ->
  is_element (t, cells) -> exists ow, 8 * wcount ow = size /\ cells = map Raw ow.
Proof.
  intros HS HA (size' & ow & arrs & S & W & _ & F2 & E). cbn [fst snd] in *. rewrite HA in *.
  inversion F2; subst arrs. rewrite raw_expected in E. exists ow. split; [|exact E]. congruence.
Qed.

Lemma table_ok cells : is_element (260, cells) ->
  exists ow arr, length ow = 13%nat /\ cells = map Raw (firstn 12 ow) ++ [Ptr 104] ++ map Raw arr /\
    Z.of_nat (length arr) = 8 * wnth ow 2 * wnth ow 5 * wnth ow 8 /\ (0 < length arr)%nat /\
    0 <= wnth ow 2 /\ 0 <= wnth ow 5 /\ 0 <= wnth ow 8.
Proof.
  intros (size & ow & arrs & S & W & W64 & F2 & E). cbn [fst snd] in *.
  assert (Hz : size = 104) by (vm_compute in S; congruence). rewrite Hz in W.
  assert (L : length ow = 13%nat) by (unfold wcount in W; lia).
  change (element_arrays 260 ow) with [Attr 96 8 (8 * wnth ow 2 * wnth ow 5 * wnth ow 8)] in *.
  inversion F2 as [|x arr xs arrs' (C1 & C2 & _) F2' Q1 Q2]; subst arrs x xs. inversion F2'; subst arrs'. subst cells. cbn [at_count] in *.
  exists ow, arr. split; [exact L|]. split.
  { unfold expected_object. cbn [map combine starts at_offset concat]. rewrite app_nil_r.
    rewrite app_assoc. f_equal. unfold wcount at 2. rewrite L. change (8 * wcount ow) with (8 * Z.of_nat (length ow)).
    rewrite L. destruct ow as [|w0 [|w1 [|w2 [|w3 [|w4 [|w5 [|w6 [|w7 [|w8 [|w9 [|w10 [|w11 [|w12 [|? ?]]]]]]]]]]]]]]; try discriminate L.
    reflexivity. }
  unfold wcount in C1. split; [exact C1|]. split; [rewrite <- C1 in C2; clear - C2; lia|].
  assert (NN : forall k, 0 <= wnth ow k).
  { intros k. unfold wnth. destruct (nth_in_or_default (Z.to_nat k) ow 0) as [X| ->]; [|lia].
    exact (proj1 (proj1 (Forall_forall _ _) W64 _ X)). }
  auto.
Qed.

Lemma int64_small w : 0 <= w < 2 ^ 63 -> int64 w = w.
Proof. intros H. unfold int64. destruct (Z.ltb_spec w (2 ^ 63)); lia. Qed.

Section Clear.
Variable F : floats.
Hypothesis DF : doubles F.
Hypothesis LS : limits_squared F.
Hypothesis CQ : 0 <= f_cq F one < 2 ^ 64.

Lemma ge0_nonneg w : nonneg w = true -> ge0 w = true.
Proof. auto. Qed.

Lemma clear_one b i t cells : reachable any b -> nth_error (objects b) i = Some (t, cells) ->
  (element_size t <> None -> is_element (t, cells)) -> ~ In t lost_types ->
  exists b', clear_object F b (entry_addr b i) = Some b' /\ kept b b' /\
    objects b' = replace (objects b) i (cleared_object F (t, cells)).
Proof using DF LS CQ.
  intros HR HN HE HL. destruct (reachable_inv _ _ HR) as (A & I & V & _).
  assert (HC : exists c, nth_error cells 0 = Some c).
  { pose proof HN as Ho. rewrite (objects_eq b A I) in Ho.
    destruct (content_nth A i t cells (re_ok _ _ _ (bi_repr _ _ I)) Ho) as (s & n & _ & _ & _ & Hn & _ & Hl).
    destruct cells as [|c r]; [unfold zlen in Hl; cbn [length] in Hl; lia|]. exists c. reflexivity. }
  destruct HC as (c0 & HC0). destruct (object_word b i t cells 0 c0 HR HN HC0) as (_ & Hb).
  pose proof HN as Ho. rewrite (objects_eq b A I) in Ho.
  destruct (content_nth A i t cells (re_ok _ _ _ (bi_repr _ _ I)) Ho) as (s & n & E & _ & _).
  destruct (entry_words b A i s n t I V E) as (E0 & E1 & E2).
  destruct (obj_ok _ _ _ (bi_repr _ _ I) _ _ _ _ E) as (Eb & _).
  unfold clear_object. rewrite (proj2 (Z.eqb_neq _ _) E0), E2. cbn [bind]. rewrite E1. cbn [bind]. rewrite <- Eb.
  rewrite (proj2 (Z.eqb_neq _ _)) by lia. set (a := obj_begin (b_mem b) (Z.of_nat i)).
  destruct DF as (DX & DY & DM). destruct LS as (LX & LY).
  pose proof (f_neg_ok _ DX) as NX. pose proof (f_neg_ok _ DY) as NY.
  assert (T : In t [2; 3; 5; 6; 7; 10; 11; 12; 13; 14; 16; 24; 261] \/ t = 260 \/
    clear_fields F t = [] /\ (t =? T_TRICUB_DATA) = false /\ cleared_object F (t, cells) = (t, cells)).
  { destruct (in_dec Z.eq_dec t [2; 3; 5; 6; 7; 10; 11; 12; 13; 14; 16; 24; 261]) as [T|T]; [left; exact T|].
    destruct (Z.eq_dec t 260) as [->|D]; [right; left; reflexivity|]. right. right.
    assert (Q : forall c, In c (260 :: lost_types ++ [2; 3; 5; 6; 7; 10; 11; 12; 13; 14; 16; 24; 261]) -> (t =? c) = false).
    { intros c Hc. apply Z.eqb_neq. intros ->. destruct Hc as [<-|Hc]; [now apply D|].
      apply in_app_or in Hc. tauto. }
    split; [|split].
    - unfold clear_fields. cbv zeta.
      repeat match goal with |- context [t =? ?c] => rewrite (Q c) by (vm_compute; tauto) end. reflexivity.
    - apply Q. vm_compute. tauto.
    - unfold cleared_object. cbv zeta. cbn [fst existsb plain_types].
      repeat match goal with |- context [t =? ?c] => rewrite (Q c) by (vm_compute; tauto) end. reflexivity. }
  destruct T as [T|[->|(T1 & T2 & T3)]].
  - pose proof (ge0_nonneg _ LX) as GX. pose proof (ge0_nonneg _ LY) as GY.
    Ltac shape ow L :=
      lazymatch type of L with
      | length _ = O => destruct ow; [clear L|discriminate L]
      | _ => let w := fresh "w" in destruct ow as [|w ow]; [discriminate L|cbn [length] in L; apply eq_add_S in L; shape ow L]
      end.
    Ltac plain i a HR HN HE DM n :=
      let ow := fresh "ow" in let W := fresh "W" in let H := fresh "H" in let L := fresh "L" in
      let b' := fresh "b'" in let X1 := fresh "X" in let X2 := fresh "X" in let X3 := fresh "X" in
      let X := fresh "X" in
      lazymatch type of HN with nth_error _ _ = Some (?t, ?cells) =>
        assert (X : is_element (t, cells)) by (apply HE; vm_compute; discriminate);
        destruct (elem_words t (8 * Z.of_nat n) cells eq_refl (fun _ => eq_refl) X) as (ow & W & H) end; clear X;
      unfold wcount in W; assert (L : length ow = n) by lia; clear W; subst;
      shape ow L;
      lazymatch type of HN with nth_error (objects ?b) _ = Some (?t, ?cells) =>
        destruct (set_fields_ok i t a (clear_fields F t) b cells HR HN eq_refl) as (b' & X1 & X2 & X3);
        [ unfold clear_fields; cbv zeta; cbn [Z.eqb Pos.eqb T_DRIFT T_DRIFT_EXACT T_MULTIPOLE T_RF_MULTIPOLE T_XYSHIFT T_SROTATION
            T_CAVITY T_BB4D T_BB6D T_SC_COASTING T_SC_QGAUSS T_MONITOR T_LIMIT_RECT T_LIMIT_ELLIPSE T_LIMIT_RECT_ELLIPSE
            T_DIPEDGE T_TRICUB T_TRICUB_DATA];
          try match goal with |- context [if ge0 ?x && ge0 ?y then _ else _] => destruct (ge0 x && ge0 y) end;
          repeat (constructor; [split; [cbn [fst]; lia|split; [eexists; reflexivity|cbn [snd];
            first [assumption|apply DM|word64]]]|]); constructor
        | rewrite X1; cbn [bind]; exists b'; split; [reflexivity|]; split; [exact X2|]; rewrite X3; f_equal ]
      end.
    cbn [In] in T.
    destruct T as [<-|T]; [plain i a HR HN HE DM 1%nat; reflexivity|].
    destruct T as [<-|T]; [plain i a HR HN HE DM 1%nat; reflexivity|].
    destruct T as [<-|T]; [plain i a HR HN HE DM 3%nat; reflexivity|].
    destruct T as [<-|T]; [plain i a HR HN HE DM 2%nat; reflexivity|].
    destruct T as [<-|T]; [plain i a HR HN HE DM 2%nat; reflexivity|].
    destruct T as [<-|T]; [plain i a HR HN HE DM 8%nat; reflexivity|].
    destruct T as [<-|T]; [plain i a HR HN HE DM 4%nat; reflexivity|].
    destruct T as [<-|T].
    { plain i a HR HN HE DM 3%nat. unfold clear_fields. cbv zeta.
      change (12 =? T_DRIFT) with false. change (12 =? T_LIMIT_ELLIPSE) with true.
      rewrite GX, GY. reflexivity. }
    destruct T as [<-|T]; [plain i a HR HN HE DM 9%nat; reflexivity|].
    destruct T as [<-|T]; [plain i a HR HN HE DM 11%nat; reflexivity|].
    destruct T as [<-|T]; [plain i a HR HN HE DM 5%nat; reflexivity|].
    destruct T as [<-|T]; [plain i a HR HN HE DM 2%nat; reflexivity|].
    destruct T as [<-|[]]; plain i a HR HN HE DM 8%nat; reflexivity.
  - destruct (table_ok cells (HE ltac:(vm_compute; discriminate))) as (ow & arr & L & -> & LA & PA & P2 & P5 & P8).
    shape ow L.
    unfold wnth in LA, P2, P5, P8. change (Z.to_nat 2) with 2%nat in *. change (Z.to_nat 5) with 5%nat in *.
    change (Z.to_nat 8) with 8%nat in *. cbn [nth] in LA, P2, P5, P8.
    cbn [firstn map app] in HN, HE, HC0, Ho |- *.
    match type of HN with _ = Some (_, ?c) => set (cs := c) in * end.
    destruct (set_fields_ok i 260 a (clear_fields F 260) b cs HR HN eq_refl) as (b1 & X1 & X2 & X3).
    { repeat (constructor; [split; [cbn [fst]; lia|split; [eexists; reflexivity|cbn [snd]; word64]]|]). constructor. }
    set (cs1 := [Raw 0; Raw 0; Raw w1; Raw 0; Raw 0; Raw w4; Raw 0; Raw 0; Raw w7; Raw 0; Raw 0; Raw 0; Ptr 104] ++ map Raw arr).
    assert (PE : put cs (clear_fields F 260) = cs1) by reflexivity. rewrite PE in X3.
    rewrite X1. cbn [bind]. change (260 =? T_TRICUB_DATA) with true. cbn iota.
    assert (HR1 : reachable any b1) by now apply (kp_reach _ _ X2).
    assert (HN1 : nth_error (objects b1) i = Some (260, cs1)) by (rewrite X3; eapply replace_at; exact HN).
    assert (Li : (i < length (objects b))%nat) by (apply nth_error_Some; congruence).
    assert (A1 : a = obj_begin (b_mem b1) (Z.of_nat i)) by (symmetry; now apply (kp_begin _ _ X2)).
    assert (BN : Z.of_nat (length arr) < 2 ^ 61).
    { assert (X : exists c, nth_error cs1 (12 + length arr) = Some c).
      { destruct (nth_error cs1 (12 + length arr)) as [c|] eqn:Q; [now exists c|]. exfalso.
        apply nth_error_None in Q. unfold cs1 in Q. rewrite app_length, map_length in Q. cbn [length] in Q. lia. }
      destruct X as (c & X). destruct (object_word b1 i 260 cs1 (12 + length arr) c HR1 HN1 X) as (_ & B).
      rewrite <- A1 in B. clear - B Hb. fold a in Hb. change (2 ^ 64) with (8 * 2 ^ 61) in *. lia. }
    assert (TS : table_size w1 w4 w7 = Some (Z.of_nat (length arr))).
    { assert (Q1 : 1 <= w1) by (clear - LA PA P2; destruct (Z.eq_dec w1 0) as [->|]; [rewrite Z.mul_0_r, !Z.mul_0_l in LA|]; lia).
      assert (Q4 : 1 <= w4) by (clear - LA PA P5; destruct (Z.eq_dec w4 0) as [->|]; [rewrite Z.mul_0_r, !Z.mul_0_l in LA|]; lia).
      assert (Q7 : 1 <= w7) by (clear - LA PA P8; destruct (Z.eq_dec w7 0) as [->|]; [rewrite Z.mul_0_r in LA|]; lia).
      assert (PXY : 1 <= w1 * w4) by (clear - Q1 Q4; nia).
      assert (PXYZ : w1 * w4 * w7 * 8 = Z.of_nat (length arr)) by (rewrite LA; ring).
      assert (R1 : w1 * w4 * 1 <= w1 * w4 * w7) by (apply Z.mul_le_mono_nonneg_l; lia).
      assert (R2 : w1 * 1 <= w1 * w4) by (apply Z.mul_le_mono_nonneg_l; lia).
      assert (R3 : w4 * 1 <= w4 * w1) by (apply Z.mul_le_mono_nonneg_l; lia).
      assert (R4 : w7 * 1 <= w7 * (w1 * w4)) by (apply Z.mul_le_mono_nonneg_l; lia).
      assert (K63 : 2 ^ 63 = 4 * 2 ^ 61) by reflexivity.
      unfold table_size. rewrite !int64_small by lia.
      unfold in_int64. set (xy := w1 * w4) in *. set (xyz := xy * w7) in *.
      rewrite (proj2 (Z.leb_le (- 2 ^ 63) xy)), (proj2 (Z.ltb_lt xy (2 ^ 63))) by lia. cbn [andb bind]. fold xyz.
      rewrite (proj2 (Z.leb_le (- 2 ^ 63) xyz)), (proj2 (Z.ltb_lt xyz (2 ^ 63))) by lia. cbn [andb bind].
      rewrite (proj2 (Z.leb_le (- 2 ^ 63) (xyz * 8))), (proj2 (Z.ltb_lt (xyz * 8) (2 ^ 63))) by lia. cbn [andb].
      now rewrite PXYZ. }
    destruct (object_word b1 i 260 cs1 2 _ HR1 HN1 eq_refl) as (R2 & _).
    destruct (object_word b1 i 260 cs1 5 _ HR1 HN1 eq_refl) as (R5 & _).
    destruct (object_word b1 i 260 cs1 8 _ HR1 HN1 eq_refl) as (R8 & _).
    destruct (object_word b1 i 260 cs1 12 _ HR1 HN1 eq_refl) as (R12 & _).
    rewrite <- A1 in *.
    change (8 * Z.of_nat 2) with 16 in R2. change (8 * Z.of_nat 5) with 40 in R5. change (8 * Z.of_nat 8) with 64 in R8.
    change (8 * Z.of_nat 12) with 96 in R12.
    unfold clear_table. cbv zeta. rewrite R2, R5, R8. cbn [bind]. rewrite TS. cbn [bind]. rewrite R12. cbn [bind].
    rewrite (proj2 (Z.ltb_lt 0 (Z.of_nat (length arr)))) by lia.
    rewrite (proj2 (Z.eqb_neq (a + 104) 0)) by (fold a in Hb; lia). cbn [negb andb]. rewrite Nat2Z.id.
    destruct (zero_words_ok i 260 (length arr) 13 b1 cs1 (a + 104) HR1 HN1) as (b2 & cs2 & Y1 & Y2 & Y3 & Y4).
    { rewrite <- A1. reflexivity. }
    { intros j Hj. unfold cs1. rewrite nth_error_app2 by (cbn [length]; lia). cbn [length].
      replace (13 + j - 13)%nat with j by lia. rewrite nth_error_map.
      destruct (nth_error arr j) as [wj|] eqn:Q; [exists wj; reflexivity|apply nth_error_None in Q; lia]. }
    exists b2. split; [exact Y1|]. split; [refine (kept_trans _ _ _ _ X2 Y2); rewrite X3; apply replace_length|].
    rewrite Y3, X3, replace_twice. f_equal. unfold cleared_object. cbv zeta. cbn [fst].
    change (existsb (Z.eqb 260) plain_types) with false. change (260 =? 14) with false. change (260 =? 261) with false.
    change (260 =? 260) with true. cbn iota. f_equal. apply nth_ext. intros j. rewrite Y4.
    change (skipn 13 (snd (260, cs))) with (map Raw arr). rewrite map_map.
    destruct (Nat.leb_spec 13 j) as [Lj|Lj]; cbn [andb].
    + assert (EQ : nth_error (map Raw [zero; zero; number (260, cs) 2; zero; zero; number (260, cs) 5; zero; zero;
        number (260, cs) 8; 0; 0; 0] ++ [Ptr 104] ++ map (fun _ : Z => Raw zero) arr) j =
        nth_error (map (fun _ : Z => Raw zero) arr) (j - 13)).
      { rewrite app_assoc, nth_error_app2 by (rewrite app_length, map_length; cbn [length]; lia).
        f_equal. }
      rewrite EQ, nth_error_map.
      destruct (Nat.ltb_spec j (13 + length arr)) as [M|M].
      * destruct (nth_error arr (j - 13)) eqn:Q; [reflexivity|apply nth_error_None in Q; lia].
      * rewrite (proj2 (nth_error_None arr (j - 13))) by lia. cbn [option_map].
        apply nth_error_None. unfold cs1. rewrite app_length, map_length. cbn [length]. lia.
    + assert (E13 : forall r r' : list cell, nth_error ([Raw 0; Raw 0; Raw w1; Raw 0; Raw 0; Raw w4; Raw 0; Raw 0; Raw w7; Raw 0; Raw 0; Raw 0; Ptr 104] ++ r) j =
        nth_error ([Raw 0; Raw 0; Raw w1; Raw 0; Raw 0; Raw w4; Raw 0; Raw 0; Raw w7; Raw 0; Raw 0; Raw 0; Ptr 104] ++ r') j).
      { intros r r'. rewrite !nth_error_app1 by (cbn [length]; lia). reflexivity. }
      exact (E13 (map Raw arr) (map (fun _ : Z => Raw zero) arr)).
  - rewrite T1, T2. exists b. cbn [set_fields bind]. split; [reflexivity|]. split; [apply kept_refl|].
    rewrite T3. now rewrite replace_same.
Qed.

Lemma clear_loop : forall l done b, reachable any b -> objects b = done ++ l -> is_line l ->
  Forall (fun o => ~ In (fst o) lost_types) l ->
  exists b', clear_objects F b (entry_addr b (length done)) (length l) = Some b' /\ kept b b' /\
    objects b' = done ++ map (cleared_object F) l.
Proof using DF LS CQ.
  induction l as [|[t cells] l IH]; intros done b HR HO HL HT.
  - exists b. split; [reflexivity|]. split; [apply kept_refl|exact HO].
  - assert (HN : nth_error (objects b) (length done) = Some (t, cells)).
    { rewrite HO, nth_error_app2, Nat.sub_diag by lia. reflexivity. }
    destruct (clear_one b (length done) t cells HR HN (Forall_inv HL) (Forall_inv HT)) as (b1 & E1 & K1 & O1).
    cbn [length clear_objects]. rewrite E1. cbn [bind].
    assert (O1' : objects b1 = (done ++ [cleared_object F (t, cells)]) ++ l).
    { rewrite O1, HO. unfold replace. rewrite firstn_app, firstn_all, Nat.sub_diag, skipn_app, skipn_all, Nat.sub_diag.
      cbn [firstn skipn app]. rewrite app_nil_r, <- app_assoc. reflexivity. }
    destruct (IH (done ++ [cleared_object F (t, cells)]) b1) as (b2 & E2 & K2 & O2).
    + now apply (kp_reach _ _ K1).
    + exact O1'.
    + exact (Forall_inv_tail HL).
    + exact (Forall_inv_tail HT).
    + exists b2. split.
      * rewrite <- E2. f_equal. unfold entry_addr. rewrite (kp_handle _ _ K1), app_length. cbn [length]. lia.
      * split; [apply (kept_trans _ b1 _); [rewrite O1; apply replace_length|exact K1|exact K2]|].
        rewrite O2, <- app_assoc. reflexivity.
Qed.

Lemma clear_line_ok b : reachable any b -> is_line (objects b) ->
  Forall (fun o => ~ In (fst o) lost_types) (objects b) ->
  exists b', clear_line F b = Some b' /\ kept b b' /\ objects b' = map (cleared_object F) (objects b).
Proof using DF LS CQ.
  intros HR HL HT. unfold clear_line. cbv zeta. destruct (objects_end_ok b HR) as (E & _). rewrite E.
  assert (E0 : object_addr (b_h b) = entry_addr b 0) by (unfold entry_addr; change (Z.of_nat 0) with 0; lia).
  rewrite E0, range_length_ok by lia. cbn [bind]. rewrite Nat.sub_0_r.
  exact (clear_loop (objects b) [] b HR eq_refl HL HT).
Qed.

(* clearing again changes nothing *)
Lemma cleared_again o : cleared_object F (cleared_object F o) = cleared_object F o.
Proof using.
  destruct o as [t cells]. unfold cleared_object at 2 3. cbv zeta. cbn [fst].
  destruct (existsb (Z.eqb t) plain_types) eqn:P.
  - unfold cleared_object. cbv zeta. cbn [fst]. rewrite P.
    f_equal. f_equal. apply existsb_exists in P. destruct P as (c & C & H). apply Z.eqb_eq in H. subst c.
    cbn [In plain_types] in C. repeat (destruct C as [<-|C]; [reflexivity|]). destruct C.
  - destruct (Z.eqb_spec t 14) as [->|D1]; [reflexivity|].
    destruct (Z.eqb_spec t 261) as [->|D2]; [reflexivity|].
    destruct (Z.eqb_spec t 260) as [->|D3].
    + unfold cleared_object. cbv zeta. cbn [fst]. rewrite P. change (260 =? 14) with false. change (260 =? 261) with false.
      change (260 =? 260) with true. cbn iota. f_equal.
      set (n2 := number (260, cells) 2). set (n5 := number (260, cells) 5). set (n8 := number (260, cells) 8).
      cbn [map app skipn snd number nth_error]. rewrite map_map. reflexivity.
    + unfold cleared_object. cbv zeta. cbn [fst]. rewrite P, (proj2 (Z.eqb_neq _ _) D1), (proj2 (Z.eqb_neq _ _) D2),
        (proj2 (Z.eqb_neq _ _) D3). reflexivity.
Qed.
End Clear.

Lemma cleared_type F o : fst (cleared_object F o) = fst o.
Proof.
  unfold cleared_object. cbv zeta. destruct (existsb _ _); [reflexivity|].
  destruct (fst o =? 14); [reflexivity|]. destruct (fst o =? 261); [reflexivity|].
  destruct (fst o =? 260); reflexivity.
Qed.

Lemma cleared_blank F o : In (fst o) plain_types -> cleared_object F o = blank F o.
Proof.
  intros H. unfold cleared_object, blank. cbv zeta.
  assert (existsb (Z.eqb (fst o)) plain_types = true) as ->.
  { apply existsb_exists. exists (fst o). split; [exact H|apply Z.eqb_refl]. }
  assert (element_arrays (fst o) (default_words F o) = []) as ->.
  { destruct o as [t c]. cbn [fst] in *. cbn [In plain_types] in H.
    repeat (destruct H as [<-|H]; [reflexivity|]). destruct H. }
  cbn [map]. now rewrite raw_expected.
Qed.

Section Again.
Variable F : floats.
Hypothesis DF : doubles F.
Hypothesis CQ : 0 <= f_cq F one < 2 ^ 64.

Lemma cleared_element o : (element_size (fst o) <> None -> is_element o) -> ~ In (fst o) lost_types ->
  element_size (fst (cleared_object F o)) <> None -> is_element (cleared_object F o).
Proof using DF CQ.
  intros HE HL H. rewrite cleared_type in H. specialize (HE H). destruct DF as (DX & DY & DM).
  pose proof (f_neg_ok _ DX) as NX. pose proof (f_neg_ok _ DY) as NY.
  assert (NW : forall o' size ow arrs k, snd o' = expected_object ow (element_arrays (fst o') ow) arrs -> words64 ow ->
    Forall2 (fun x a => wcount a = at_count x /\ 0 < at_count x /\ words64 a) (element_arrays (fst o') ow) arrs ->
    8 * wcount ow = size -> 0 <= number o' k < 2 ^ 64).
  { intros o' size ow arrs k E W F2 _. unfold number. destruct (nth_error (snd o') k) as [[w|q]|] eqn:Q; [|split; [lia|reflexivity]|split; [lia|reflexivity]].
    rewrite E in Q. apply nth_error_In in Q. unfold expected_object in Q. cbv zeta in Q. apply in_app_or in Q. destruct Q as [Q|Q].
    - apply in_map_iff in Q as (j & Q & _). destruct (find _ _); [discriminate|]. injection Q as <-.
      unfold wnth. destruct (nth_in_or_default (Z.to_nat j) ow 0) as [X| ->]; [|split; [lia|reflexivity]].
      exact (proj1 (Forall_forall _ _) W _ X).
    - apply in_map_iff in Q as (j & Q & Hj). injection Q as ->. apply in_concat in Hj as (a & Ha & Hj).
      clear - F2 Ha Hj. induction F2 as [|x y l l' (_ & _ & W) F2 IH]; [destruct Ha|].
      destruct Ha as [<-|Ha]; [exact (proj1 (Forall_forall _ _) W _ Hj)|auto]. }
  pose proof HE as (size & ow & arrs & HS & HW & W64 & F2 & E).
  assert (N : forall k, 0 <= number o k < 2 ^ 64) by (intros k; exact (NW o size ow arrs k E W64 F2 HW)). clear NW.
  assert (RW : forall t size ow, element_size t = Some size -> 8 * wcount ow = size -> words64 ow ->
    element_arrays t ow = [] -> is_element (t, map Raw ow)).
  { intros t size' ow' H1 H2 H3 H4. exists size', ow', []. cbn [fst snd]. rewrite H4, raw_expected. auto. }
  destruct o as [t cells]. cbn [fst] in HS, HL.
  destruct (existsb (Z.eqb t) plain_types) eqn:P.
  - unfold cleared_object. cbv zeta. cbn [fst]. rewrite P.
    apply existsb_exists in P. destruct P as (c & C & X). apply Z.eqb_eq in X. subst c. cbn [In plain_types] in C.
    assert (W : forall w, w = 0 \/ w = 1 \/ w = zero \/ w = one \/ w = tiny \/ w = 2 ^ 64 - 1 -> 0 <= w < 2 ^ 64)
      by (intros w [->|[->|[->|[->|[->| ->]]]]]; word64).
    Ltac wd W DM := repeat (constructor; [first [assumption|apply DM|apply W; tauto]|]); constructor.
    repeat (destruct C as [<-|C]; [eapply RW; [reflexivity|reflexivity|wd W DM|reflexivity]|]). destruct C.
  - unfold cleared_object. cbv zeta. cbn [fst]. rewrite P.
    destruct (Z.eqb_spec t 14) as [->|D1].
    { eapply RW; [reflexivity|reflexivity| |reflexivity].
      repeat (constructor; [first [apply N|assumption|word64]|]). constructor. }
    destruct (Z.eqb_spec t 261) as [->|D2].
    { eapply RW; [reflexivity|reflexivity| |reflexivity].
      repeat (constructor; [first [apply N|assumption|word64]|]). constructor. }
    destruct (Z.eqb_spec t 260) as [->|D3].
    { destruct (table_ok cells HE) as (ow' & arr & L & EC & LA & PA & _).
      set (n2 := number (260, cells) 2) in *. set (n5 := number (260, cells) 5) in *. set (n8 := number (260, cells) 8) in *.
      pose proof (N 2%nat) as N2. pose proof (N 5%nat) as N5. pose proof (N 8%nat) as N8. fold n2 in N2. fold n5 in N5. fold n8 in N8.
      assert (LA' : Z.of_nat (length arr) = 8 * n2 * n5 * n8).
      { rewrite LA. unfold n2, n5, n8, number, wnth. cbn [snd]. rewrite EC. clear - L.
        change (Z.to_nat 2) with 2%nat. change (Z.to_nat 5) with 5%nat. change (Z.to_nat 8) with 8%nat.
        destruct ow' as [|w0 [|w1 [|w2 [|w3 [|w4 [|w5 [|w6 [|w7 [|w8 [|w9 [|w10 [|w11 [|w12 [|? ?]]]]]]]]]]]]]]; try discriminate L.
        reflexivity. }
      exists 104, [zero; zero; n2; zero; zero; n5; zero; zero; n8; 0; 0; 0; 0], [map (fun _ => zero) arr]. cbn [fst].
      split; [reflexivity|]. split; [reflexivity|]. split; [repeat (constructor; [first [assumption|word64]|]); constructor|].
      change (element_arrays 260 [zero; zero; n2; zero; zero; n5; zero; zero; n8; 0; 0; 0; 0])
        with [Attr 96 8 (8 * n2 * n5 * n8)].
      split.
      - constructor; [|constructor]. cbn [at_count]. rewrite <- LA'. unfold wcount. rewrite map_length.
        split; [reflexivity|]. split; [lia|]. apply Forall_forall. intros w Hw. apply in_map_iff in Hw as (? & <- & _). word64.
      - cbn [snd]. assert (ES : skipn 13 cells = map Raw arr).
        { rewrite EC. clear - L.
          destruct ow' as [|w0 [|w1 [|w2 [|w3 [|w4 [|w5 [|w6 [|w7 [|w8 [|w9 [|w10 [|w11 [|w12 [|? ?]]]]]]]]]]]]]]; try discriminate L.
          reflexivity. }
        rewrite ES, map_map. unfold expected_object. cbn [concat]. rewrite app_nil_r, map_map. reflexivity. }
    exact HE.
Qed.
End Again.
