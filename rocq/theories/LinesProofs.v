(* Copying elements from one buffer to another. *)
From Coq Require Import ZArith List Bool Lia.
From Coq Require Logic.FinFun.
From Verif Require Import MBuf MBufSpec MBufMem MBufAbs MemPool Buffer BufferSpec BufferUser
  BufferProofs BufferAddMem BufferAdd BufferAddLoop BufferAddMain BufferReach BufferProps
  Lines LinesSpec.
Import ListNotations.
Local Open Scope Z_scope.

(* ------------------------------------------------------------------ *)
(* words and their bytes *)
Lemma mod_bytes x y k : (forall r, 0 <= r < Z.of_nat k -> x / 256 ^ r mod 256 = y / 256 ^ r mod 256) ->
  x mod 256 ^ Z.of_nat k = y mod 256 ^ Z.of_nat k.
Proof.
  induction k as [|k IH]; intros H; [now rewrite !Z.mod_1_r|].
  rewrite Nat2Z.inj_succ, Z.pow_succ_r by lia. rewrite (Z.mul_comm 256).
  rewrite !Z.rem_mul_r by lia. rewrite IH, H by (intros; try apply H; lia). reflexivity.
Qed.

Lemma word_bytes x y : 0 <= x < 2 ^ 64 -> 0 <= y < 2 ^ 64 ->
  (forall r, 0 <= r < 8 -> x / 256 ^ r mod 256 = y / 256 ^ r mod 256) -> x = y.
Proof.
  intros Hx Hy H. pose proof (mod_bytes x y 8 H) as E.
  change (256 ^ Z.of_nat 8) with (2 ^ 64) in E. now rewrite !Z.mod_small in E.
Qed.

Lemma wnth_range a k : words64 a -> 0 <= wnth a k < 2 ^ 64.
Proof.
  intros H. unfold wnth. destruct (Nat.lt_ge_cases (Z.to_nat k) (length a)) as [L|L].
  - unfold words64 in H. rewrite Forall_forall in H. apply H. now apply nth_In.
  - rewrite nth_overflow by assumption. lia.
Qed.

Lemma words_bytes a b : words64 a -> words64 b -> wcount a = wcount b ->
  (forall j, 0 <= j < 8 * wcount a -> byte a j = byte b j) -> a = b.
Proof.
  intros Ha Hb L H. unfold wcount in *. apply (nth_ext a b 0 0); [lia|]. intros n Hn.
  assert (E : wnth a (Z.of_nat n) = wnth b (Z.of_nat n)).
  { apply word_bytes; try now apply wnth_range. intros r Hr.
    specialize (H (8 * Z.of_nat n + r) ltac:(lia)). unfold byte in H.
    replace ((8 * Z.of_nat n + r) / 8) with (Z.of_nat n) in H.
    2:{ rewrite (Z.mul_comm 8), Z.div_add_l by lia. rewrite Z.div_small by lia. lia. }
    replace ((8 * Z.of_nat n + r) mod 8) with r in H; [assumption|].
    rewrite Z.add_comm, (Z.mul_comm 8), Z.mod_add by lia. now rewrite Z.mod_small. }
  unfold wnth in E. now rewrite Nat2Z.id in E.
Qed.

Lemma mem_byte_ok m i r : 0 <= i < wlen m -> 0 <= r < 8 ->
  mem_byte m (mbase m + 8 * i + r) = Some (word m i / 256 ^ r mod 256).
Proof.
  intros Hi Hr. unfold mem_byte. cbv zeta. fold (wlen m).
  replace (mbase m + 8 * i + r - mbase m) with (i * 8 + r) by lia.
  assert (E1 : (0 <=? i * 8 + r) = true) by (apply Z.leb_le; lia).
  assert (E2 : (i * 8 + r <? 8 * wlen m) = true) by (apply Z.ltb_lt; lia).
  rewrite E1, E2. cbn [andb].
  replace ((i * 8 + r) / 8) with i by (rewrite Z.div_add_l, (Z.div_small r 8) by lia; lia).
  replace ((i * 8 + r) mod 8) with r by (rewrite Z.add_comm, Z.mod_add, Z.mod_small by lia; lia).
  reflexivity.
Qed.

(* ------------------------------------------------------------------ *)
(* the elements *)
Definition plain_list : list (Z * Z) :=
  [(2, 8); (3, 8); (5, 24); (6, 16); (7, 16); (10, 64); (11, 32); (12, 24); (16, 40);
   (13, 72); (14, 88); (24, 16); (257, 80); (261, 64)].

Lemma element_cases t size : element_size t = Some size ->
  In (t, size) plain_list \/ (t = 4 /\ size = 40) \/ (t = 256 /\ size = 48) \/
  (t = 8 /\ size = 16) \/ (t = 9 /\ size = 16) \/ (t = 260 /\ size = 104).
Proof.
  unfold element_size. intros H.
  destruct (find (fun p => fst p =? t) element_sizes) as [[t' s']|] eqn:F; [|discriminate].
  apply find_some in F as (F & E). cbn [fst snd] in *. apply Z.eqb_eq in E. subst t'.
  injection H as ->. unfold element_sizes in F. cbn [In] in F.
  repeat (destruct F as [F|F]; [injection F as <- <-; unfold plain_list; cbn [In]; auto 22|]). destruct F.
Qed.

Lemma plain_arrays t size ow : In (t, size) plain_list -> element_arrays t ow = [].
Proof.
  unfold plain_list. cbn [In]. intros H.
  repeat (destruct H as [H|H]; [injection H as <- <-; reflexivity|]). destruct H.
Qed.

Lemma size_facts t size : element_size t = Some size -> 0 < size /\ size mod 8 = 0.
Proof.
  intros H. apply element_cases in H.
  destruct H as [H|[(_ & ->)|[(_ & ->)|[(_ & ->)|[(_ & ->)|(_ & ->)]]]]]; try (split; [lia|reflexivity]).
  unfold plain_list in H. cbn [In] in H.
  repeat (destruct H as [H|H]; [injection H as <- <-; split; [lia|reflexivity]|]). destruct H.
Qed.

(* the pointers are inside of the element, aligned and distinct; the values have 8 bytes *)
Lemma arrays_facts t size ow : element_size t = Some size ->
  NoDup (map at_offset (element_arrays t ow)) /\
  forall x, In x (element_arrays t ow) ->
    0 < at_offset x /\ at_offset x mod 8 = 0 /\ at_offset x + 8 <= size /\ at_size x = 8.
Proof.
  intros H. apply element_cases in H.
  destruct H as [H|[(-> & ->)|[(-> & ->)|[(-> & ->)|[(-> & ->)|(-> & ->)]]]]].
  - rewrite (plain_arrays t size) by assumption. split; [constructor|]. intros x [].
  - cbn [element_arrays Z.eqb Pos.eqb orb map at_offset]. split; [repeat constructor; auto|].
    intros x [<-|[]]. cbn [at_offset at_size]. repeat split; lia.
  - change (element_arrays 256 ow) with [Attr 32 8 (2 * wnth ow 0 + 2); Attr 40 8 (2 * wnth ow 0 + 2)].
    cbn [map at_offset]. split.
    + constructor; [intros [E|[]]; discriminate|]. repeat constructor. auto.
    + intros x [<-|[<-|[]]]; cbn [at_offset at_size]; repeat split; lia.
  - change (element_arrays 8 ow) with [Attr 8 8 (wnth ow 0)].
    cbn [map at_offset]. split; [repeat constructor; auto|].
    intros x [<-|[]]. cbn [at_offset at_size]. repeat split; lia.
  - change (element_arrays 9 ow) with [Attr 8 8 (wnth ow 0)].
    cbn [map at_offset]. split; [repeat constructor; auto|].
    intros x [<-|[]]. cbn [at_offset at_size]. repeat split; lia.
  - change (element_arrays 260 ow) with [Attr 96 8 (8 * wnth ow 2 * wnth ow 5 * wnth ow 8)].
    cbn [map at_offset]. split; [repeat constructor; auto|].
    intros x [<-|[]]. cbn [at_offset at_size]. repeat split; lia.
Qed.

(* ------------------------------------------------------------------ *)
(* an element in a buffer *)
Section Source.
Variables (bs : buffer) (A : abs).
Hypothesis I : binv bs A.
Local Notation m := (b_mem bs).
Local Notation B := (mbase (b_mem bs)).
Variables (i : nat) (s n t : Z).
Hypothesis HN : nth_error (a_objs A) i = Some (s, n, t).
Variables (size : Z) (ow : list Z) (arrs : list (list Z)).
Hypothesis HS : element_size t = Some size.
Hypothesis HW : 8 * wcount ow = size.
Hypothesis H64 : words64 ow.
Local Notation at_ := (element_arrays t ow).
Hypothesis HF : Forall2 (fun x a => wcount a = at_count x /\ 0 < at_count x /\ words64 a) at_ arrs.
Local Notation E := (expected_object ow at_ arrs).
Hypothesis HE : map (rel_cell s) (slice (a_cells A) s n) = E.

Lemma src_bounds : 0 <= s /\ 1 <= n /\ s + n <= zlen (a_cells A) /\ n = wcount ow + sumw arrs /\
  10 + s + n <= wlen m /\ B + 80 + 8 * (s + n) < 2 ^ 64 /\ 0 < B /\ zlen (a_cells A) <= tot A.
Proof using I HN HE HF.
  pose proof (bi_repr _ _ I) as R. pose proof (re_ok _ _ _ R) as OK.
  pose proof (chain_nth _ _ _ _ _ _ _ (ok_chain _ OK) HN).
  pose proof (f_equal (@length _) HE) as L. rewrite map_length in L.
  pose proof (slice_length (a_cells A) s n ltac:(lia) ltac:(lia) ltac:(lia)) as SL.
  pose proof (expected_length ow at_ arrs) as EL. unfold zlen in *.
  pose proof (re_base _ _ _ R) as (B1 & B2 & B3). pose proof (re_len _ _ _ R).
  pose proof (ok_bounds A OK) as (?&?&?&?). unfold zlen, tot in *. lia.
Qed.

Lemma src_word k c : nth_error E k = Some c ->
  word m (10 + s + Z.of_nat k) = match c with Raw w => w | Ptr q => B + 80 + 8 * s + q end.
Proof using I HN HE HF.
  intros H. pose proof src_bounds as (S1 & S2 & S3 & S4 & S5 & S6 & S7 & S8).
  assert (Hk : Z.of_nat k < n).
  { pose proof (expected_length ow at_ arrs) as EL.
    assert (k < length E)%nat by (apply nth_error_Some; congruence). unfold zlen in EL. lia. }
  rewrite <- HE in H. rewrite nth_error_map in H.
  pose proof (slice_nth (a_cells A) s n (Z.of_nat k) ltac:(lia) ltac:(lia)) as SN.
  rewrite Nat2Z.id in SN. rewrite SN in H.
  destruct (nth_error (a_cells A) (Z.to_nat (s + Z.of_nat k))) as [c0|] eqn:C; [|discriminate].
  pose proof (re_cell _ _ _ (bi_repr _ _ I) _ _ C) as W.
  replace (10 + s + Z.of_nat k) with (10 + Z.of_nat (Z.to_nat (s + Z.of_nat k))) by lia.
  rewrite W. destruct c0 as [w|q]; cbn [option_map rel_cell] in H; cbn [cellval].
  - assert (c = Raw w) as -> by congruence. reflexivity.
  - assert (c = Ptr (8 * (q - s))) as -> by congruence. lia.
Qed.

Lemma src_len : length at_ = length arrs.
Proof using HF. clear - HF. induction HF; cbn [length]; auto. Qed.

Lemma src_off x : In x at_ -> 0 <= at_offset x /\ at_offset x mod 8 = 0 /\ at_offset x + 8 <= 8 * wcount ow.
Proof using HS HW. intros H. destruct (arrays_facts t size ow HS) as (_ & F). specialize (F x H). lia. Qed.

Lemma src_nodup : NoDup (map at_offset at_).
Proof using HS. apply (arrays_facts t size ow HS). Qed.

(* a word that is not a pointer *)
Lemma src_raw k : 0 <= k < wcount ow -> (forall x, In x at_ -> at_offset x <> 8 * k) ->
  word m (10 + s + k) = wnth ow k.
Proof using I HN HE HF HS HW.
  intros Hk Hn. pose proof (expected_raw ow at_ arrs src_len k Hk Hn) as X.
  apply src_word in X. now rewrite Z2Nat.id in X by lia.
Qed.

Lemma src_first : word m (10 + s) = wnth ow 0.
Proof using I HN HE HF HS HW.
  pose proof (size_facts t size HS). rewrite <- (Z.add_0_r (10 + s)). apply src_raw; [lia|].
  intros x Hx. destruct (arrays_facts t size ow HS) as (_ & F). specialize (F x Hx). lia.
Qed.

(* the struct as it is read *)
Lemma src_read : exists ws, rdn m (B + 80 + 8 * s) (Z.to_nat (size / 8)) = Some ws /\
  wcount ws = wcount ow /\ (forall k, 0 <= k < wcount ow -> wnth ws k = word m (10 + s + k)).
Proof using I HN HE HF HW.
  pose proof src_bounds as (S1 & S2 & S3 & S4 & S5 & S6 & S7 & S8).
  pose proof (sumw_nonneg arrs). rewrite <- HW, (Z.mul_comm 8 (wcount ow)), Z.div_mul by lia.
  destruct (rdn_ok (Z.to_nat (wcount ow)) m (B + 80 + 8 * s) (10 + s)) as (ws & R1 & R2 & R3); try lia.
  exists ws. split; [assumption|]. unfold wcount in *. rewrite R2. split; [lia|].
  intros k Hk. unfold wnth. apply R3. lia.
Qed.

Variable ws : list Z.
Hypothesis W1 : wcount ws = wcount ow.
Hypothesis W2 : forall k, 0 <= k < wcount ow -> wnth ws k = word m (10 + s + k).

Lemma read_raw k : 0 <= k < wcount ow -> (forall x, In x at_ -> at_offset x <> 8 * k) ->
  wnth ws k = wnth ow k.
Proof using I HN HE HF HS HW W2. intros. rewrite W2 by assumption. now apply src_raw. Qed.

Lemma read_ptr k x : nth_error at_ k = Some x ->
  wnth ws (at_offset x / 8) = B + 8 * (10 + s + wcount ow + sumw (firstn k arrs)).
Proof using I HN HE HF HS HW W2.
  intros H. pose proof (expected_ptr ow at_ arrs src_len src_nodup src_off k x H) as X.
  apply src_word in X. pose proof (src_off x (nth_error_In _ _ H)) as (O1 & O2 & O3).
  pose proof (Z.div_mod (at_offset x) 8 ltac:(lia)).
  rewrite Z2Nat.id in X by lia. rewrite W2 by lia. rewrite X. lia.
Qed.

(* the words of the k-th array *)
Lemma concat_nth k a j : nth_error arrs k = Some a -> 0 <= j < wcount a ->
  nth_error (concat arrs) (Z.to_nat (sumw (firstn k arrs) + j)) = Some (wnth a j).
Proof using.
  clear. revert k. induction arrs as [|y l IH]; intros k; [now destruct k|].
  destruct k as [|k]; cbn [nth_error firstn concat]; intros H Hj.
  - assert (y = a) as -> by congruence. change (sumw []) with 0. rewrite Z.add_0_l. unfold wcount in Hj.
    rewrite nth_error_app1 by lia. unfold wnth. apply nth_error_nth'. lia.
  - rewrite sumw_cons. specialize (IH k H Hj). pose proof (sumw_nonneg (firstn k l)).
    unfold zlen. rewrite nth_error_app2 by lia. rewrite <- IH. f_equal. lia.
Qed.

Lemma array_word k a j : nth_error arrs k = Some a -> 0 <= j < wcount a ->
  word m (10 + s + wcount ow + sumw (firstn k arrs) + j) = wnth a j /\
  10 + s + wcount ow + sumw (firstn k arrs) + j < wlen m.
Proof using I HN HE HF.
  intros H Hj. pose proof (concat_nth k a j H Hj) as X. pose proof (sumw_nonneg (firstn k arrs)).
  assert (L : sumw (firstn k arrs) + j < sumw arrs).
  { assert (Z.to_nat (sumw (firstn k arrs) + j) < length (concat arrs))%nat
      by (apply nth_error_Some; congruence). unfold sumw at 2. unfold zlen. lia. }
  apply (expected_hi ow at_ arrs src_len) in X. apply src_word in X.
  pose proof src_bounds as (S1 & S2 & S3 & S4 & S5 & S6 & S7 & S8).
  assert (0 <= wcount ow) by (unfold wcount; lia).
  split; [|lia]. rewrite <- X. f_equal. lia.
Qed.

Lemma array_byte k x a j : nth_error at_ k = Some x -> nth_error arrs k = Some a ->
  0 <= j < 8 * wcount a ->
  mem_byte m (wnth ws (at_offset x / 8) + j) = Some (byte a j).
Proof using I HN HE HF HS HW W2.
  intros Hx Ha Hj. rewrite (read_ptr k x Hx). unfold byte.
  pose proof (Z.div_mod j 8 ltac:(lia)) as D. pose proof (Z.mod_pos_bound j 8 ltac:(lia)) as M.
  destruct (array_word k a (j / 8) Ha) as (X & Y); [lia|].
  pose proof src_bounds as (S1 & S2 & S3 & S4 & S5 & S6 & S7 & S8).
  pose proof (sumw_nonneg (firstn k arrs)). assert (0 <= wcount ow) by (unfold wcount; lia).
  rewrite <- X.
  replace (B + 8 * (10 + s + wcount ow + sumw (firstn k arrs)) + j)
    with (B + 8 * (10 + s + wcount ow + sumw (firstn k arrs) + j / 8) + j mod 8) by lia.
  apply mem_byte_ok; lia.
Qed.

Lemma array_at k x : nth_error at_ k = Some x -> exists a, nth_error arrs k = Some a /\
  wcount a = at_count x /\ 0 < at_count x /\ words64 a /\ attr_bytes x = 8 * wcount a.
Proof using HF HS.
  intros H. destruct (arrays_facts t size ow HS) as (_ & F). specialize (F x (nth_error_In _ _ H)).
  assert (X : exists a, nth_error arrs k = Some a /\ wcount a = at_count x /\ 0 < at_count x /\ words64 a).
  { clear - HF H. revert k H. induction HF as [|y a l l' Y Z1 IH]; intros k H; [now destruct k|].
    destruct k as [|k]; cbn [nth_error] in *; [|now apply IH].
    exists a. assert (y = x) as <- by congruence. tauto. }
  destruct X as (a & X1 & X2 & X3 & X4). exists a. repeat (split; [assumption|]).
  unfold attr_bytes. rewrite X2. replace (at_size x) with 8 by (symmetry; apply F). lia.
Qed.

Definition copy_request := Request (mem_byte m) ws size t at_.

Lemma ptr_nz k x : nth_error at_ k = Some x -> 0 < wnth ws (at_offset x / 8) < 2 ^ 64.
Proof using I HN HE HF HS HW W2.
  intros H. rewrite (read_ptr k x H).
  pose proof src_bounds as (S1 & S2 & S3 & S4 & S5 & S6 & S7 & S8).
  pose proof (sumw_nonneg (firstn k arrs)). pose proof (sumw_firstn_le k arrs).
  assert (0 <= wcount ow) by (unfold wcount; lia). lia.
Qed.

Lemma is_offset k : 0 <= k < wcount ow ->
  (exists j x, nth_error at_ j = Some x /\ at_offset x = 8 * k) \/
  (forall x, In x at_ -> at_offset x <> 8 * k).
Proof using.
  clear. intros _. induction at_ as [|y l IH]; [right; intros x []|].
  destruct (Z.eq_dec (at_offset y) (8 * k)) as [E|E].
  - left. exists O, y. auto.
  - destruct IH as [(j & x & X & Y)|N].
    + left. exists (S j), x. auto.
    + right. intros x [<-|Hx]; auto.
Qed.

Lemma copy_call : call_ok (mem_byte m) ws size at_.
Proof using I HN HE HF HS HW H64 W1 W2.
  destruct (size_facts t size HS) as (Sp & Sm). destruct (arrays_facts t size ow HS) as (ND & AF).
  constructor.
  - assumption.
  - rewrite W1. pose proof (words_of_bounds size ltac:(lia)). lia.
  - apply Forall_forall. intros w Hw. apply (In_nth _ _ 0) in Hw as (k & Hk & <-).
    fold (wcount ws) in *. assert (Hk2 : 0 <= Z.of_nat k < wcount ow) by (unfold wcount in *; lia).
    replace (nth k ws 0) with (wnth ws (Z.of_nat k)) by (unfold wnth; now rewrite Nat2Z.id).
    destruct (is_offset (Z.of_nat k) Hk2) as [(j & x & X & Y)|N].
    + pose proof (ptr_nz j x X) as P. rewrite Y, Z.mul_comm, Z.div_mul in P by lia. lia.
    + rewrite read_raw by assumption. now apply wnth_range.
  - intros x Hx. specialize (AF x Hx). lia.
  - assumption.
  - intros x Hx. apply In_nth_error in Hx as (k & Hk). destruct (array_at k x Hk) as (a & _ & X & Y & _).
    specialize (AF x (nth_error_In _ _ Hk)). lia.
  - intros x Hx j Hj _. apply In_nth_error in Hx as (k & Hk).
    destruct (array_at k x Hk) as (a & Ha & X & Y & _ & Z1).
    exists (byte a j). split; [|unfold byte; apply Z.mod_pos_bound; lia].
    apply (array_byte k x a j Hk Ha). lia.
Qed.

Lemma copy_arrays arrs' :
  Forall2 (fun x a => array_of (mem_byte m) (wnth ws (at_offset x / 8)) (attr_bytes x) a) at_ arrs' ->
  arrs' = arrs.
Proof using I HN HE HF HS HW W2.
  intros H. assert (L : length arrs' = length arrs).
  { rewrite <- src_len. clear - H. induction H; cbn [length]; auto. }
  apply nth_error_ext. intros k.
  destruct (nth_error arrs' k) as [a'|] eqn:Ea'.
  2:{ symmetry. apply nth_error_None. apply nth_error_None in Ea'. lia. }
  destruct (nth_error at_ k) as [x|] eqn:Ex.
  2:{ apply nth_error_None in Ex. assert (k < length arrs')%nat by (apply nth_error_Some; congruence).
      rewrite src_len in Ex. lia. }
  destruct (array_at k x Ex) as (a & Ha & X1 & X2 & X3 & X4). rewrite Ha. f_equal.
  assert (AO : array_of (mem_byte m) (wnth ws (at_offset x / 8)) (attr_bytes x) a').
  { clear - H Ex Ea'. revert k Ex Ea'. induction H as [|y b l l' Y Z1 IH]; intros k Ex Ea'; [now destruct k|].
    destruct k as [|k]; cbn [nth_error] in *; [|now apply (IH k)].
    assert (y = x) as <- by congruence. assert (b = a') as <- by congruence. assumption. }
  destruct AO as (A1 & A2 & A3).
  assert (WO : words_of (attr_bytes x) = wcount a).
  { rewrite X4. unfold words_of. rewrite Z.add_comm, Z.mul_comm, Z.div_add by lia. reflexivity. }
  rewrite WO in *. apply words_bytes; auto.
  intros j Hj. specialize (A3 j ltac:(lia)).
  pose proof (ptr_nz k x Ex). assert (Nz : (wnth ws (at_offset x / 8) =? 0) = false) by (apply Z.eqb_neq; lia).
  assert (Jl : (j <? attr_bytes x) = true) by (apply Z.ltb_lt; lia).
  rewrite Nz, Jl in A3. cbn [negb andb] in A3.
  rewrite (array_byte k x a j Ex Ha) in A3 by lia. congruence.
Qed.

Lemma expected_eq ow' : wcount ow' = wcount ow ->
  (forall k, 0 <= k < wcount ow -> (forall x, In x at_ -> at_offset x <> 8 * k) -> wnth ow' k = wnth ow k) ->
  expected_object ow' at_ arrs = E.
Proof using HF HS HW.
  intros L H. unfold expected_object. cbv zeta. rewrite L. f_equal. apply map_ext_in. intros k Hk.
  apply in_zseq in Hk. destruct (find _ _) as [p|] eqn:F; [reflexivity|]. f_equal. apply H; [lia|].
  intros x Hx Ex. apply In_nth_error in Hx as (j & Hj).
  assert (j < length arrs)%nat by (rewrite <- src_len; apply nth_error_Some; congruence).
  erewrite (find_combine _ _ j) in F; [discriminate|apply src_nodup|
    erewrite map_nth_error by eassumption; now rewrite Ex|].
  apply starts_nth. assumption.
Qed.

Lemma copy_stored o : stored_as copy_request o -> o = (t, E).
Proof using I HN HE HF HS HW H64 W1 W2.
  intros (ow' & arrs' & (((S1 & S2 & S3) & S4) & ->)).
  cbn [copy_request rq_mem rq_obj rq_size rq_attrs rq_type] in *.
  pose proof (copy_arrays _ S4) as ->. f_equal.
  assert (WO : words_of size = wcount ow).
  { rewrite <- HW. unfold words_of. rewrite Z.add_comm, Z.mul_comm, Z.div_add by lia. reflexivity. }
  apply expected_eq; [lia|]. intros k Hk Hn. rewrite S3 by lia. now apply read_raw.
Qed.

Lemma request_words : object_words size at_ = wcount ow + sumw arrs.
Proof using HF HS HW.
  assert (WO : words_of size = wcount ow).
  { rewrite <- HW. unfold words_of. rewrite Z.add_comm, Z.mul_comm, Z.div_add by lia. reflexivity. }
  assert (AF : forall x, In x at_ -> at_size x = 8).
  { intros x Hx. destruct (arrays_facts t size ow HS) as (_ & F). now apply F. }
  unfold object_words. rewrite WO. clear - HF AF. revert AF.
  induction HF as [|x a l l' (X1 & X2 & X3) Y IH]; intros AF; cbn [fold_right].
  - change (sumw []) with 0. lia.
  - rewrite sumw_cons, IH by (try assumption; intros; apply AF; now right).
    replace (words_of (attr_bytes x)) with (zlen a); [lia|].
    unfold attr_bytes. rewrite AF by now left. rewrite <- X1. unfold words_of, wcount, zlen.
    rewrite Z.add_comm, Z.div_add by lia. reflexivity.
Qed.

Lemma request_full : full_arrays copy_request.
Proof using HF HS.
  intros x Hx. cbn [copy_request rq_attrs] in Hx. apply In_nth_error in Hx as (k & Hk).
  destruct (array_at k x Hk) as (a & _ & X & Y & _ & Z1). lia.
Qed.

(* number of pointers of the element *)
Lemma ptr_count : Z.of_nat (length (filter is_ptr E)) = zlen at_.
Proof using HF HS HW.
  unfold expected_object. cbv zeta. rewrite filter_app, app_length.
  replace (length (filter is_ptr (map Raw (concat arrs)))) with O.
  2:{ induction (concat arrs); cbn [map filter is_ptr]; auto. }
  rewrite Nat.add_0_r. unfold zlen. f_equal.
  set (ptrs := combine _ _). set (f := fun k : Z => _).
  assert (LF : forall l, length (filter is_ptr (map f l)) = length (filter (fun k => is_ptr (f k)) l)).
  { induction l as [|y l IH]; cbn [map filter]; [reflexivity|].
    destruct (is_ptr (f y)); cbn [length]; now rewrite IH. }
  rewrite LF. rewrite <- (map_length at_offset). rewrite <- (map_length (fun k => 8 * k) (filter _ _)).
  assert (P : forall k, is_ptr (f k) = true <-> In (8 * k) (map at_offset at_)).
  { intros k. unfold f. split.
    - destruct (find _ ptrs) as [p|] eqn:F; [|discriminate]. intros _.
      apply find_some in F as (F1 & F2). apply Z.eqb_eq in F2. rewrite <- F2.
      destruct p as [p1 p2]. unfold ptrs in F1. apply in_combine_l in F1. exact F1.
    - intros H. destruct (find _ ptrs) as [p|] eqn:F; [reflexivity|].
      apply in_map_iff in H as (x & Ex & Hx). apply In_nth_error in Hx as (j & Hj).
      assert (j < length arrs)%nat by (rewrite <- src_len; apply nth_error_Some; congruence).
      unfold ptrs in F. erewrite (find_combine _ _ j) in F; [discriminate|apply src_nodup| |].
      + erewrite map_nth_error by eassumption. now rewrite Ex.
      + apply starts_nth. assumption. }
  apply Nat.le_antisymm.
  - apply NoDup_incl_length.
    + apply FinFun.Injective_map_NoDup; [intros u v; lia|]. apply NoDup_filter. unfold zseq.
      apply FinFun.Injective_map_NoDup; [intros u v; lia|]. apply seq_NoDup.
    + intros k Hk. apply in_map_iff in Hk as (k0 & <- & Hk). apply filter_In in Hk as (_ & Hk). now apply P.
  - apply NoDup_incl_length; [apply src_nodup|].
    intros k Hk. pose proof Hk as Hk2. apply in_map_iff in Hk as (x & Ex & Hx).
    pose proof (src_off x Hx) as (O1 & O2 & O3). pose proof (Z.div_mod (at_offset x) 8 ltac:(lia)).
    apply in_map_iff. exists (at_offset x / 8). split; [lia|]. apply filter_In. split.
    + unfold zseq. apply in_map_iff. exists (Z.to_nat (at_offset x / 8)). split; [lia|].
      apply in_seq. lia.
    + apply P. replace (8 * (at_offset x / 8)) with k by lia. assumption.
Qed.

End Source.
