(* The abstract contents of a well-formed block and the relation between the two. *)
From Coq Require Import ZArith List Bool Lia.
From Verif Require Import MBuf MBufSpec MBufMem.
Import ListNotations.
Local Open Scope Z_scope.

Definition zlen {A : Type} (l : list A) : Z := Z.of_nat (length l).

(* maxima of the four sections; the used slots (a pointer is the number of a slot); the
   objects (first slot, number of slots, type); the numbers of the slots that are pointers *)
Record abs := Abs { a_ms : Z; a_mo : Z; a_md : Z; a_mg : Z;
  a_cells : list cell; a_objs : list (Z * Z * Z); a_dps : list Z }.

Definition spos (A : abs) (id : Z) : Z :=
  if id =? 3 then 8 else if id =? 4 then 10 + a_ms A
  else if id =? 5 then 12 + a_ms A + 3 * a_mo A
  else 14 + a_ms A + 3 * a_mo A + a_md A.
Definition smax (A : abs) (id : Z) : Z :=
  if id =? 3 then a_ms A else if id =? 4 then a_mo A else if id =? 5 then a_md A else a_mg A.
Definition snum (A : abs) (id : Z) : Z :=
  if id =? 3 then zlen (a_cells A) else if id =? 4 then zlen (a_objs A)
  else if id =? 5 then zlen (a_dps A) else 0.
Definition tot (A : abs) : Z := 16 + a_ms A + 3 * a_mo A + a_md A + 2 * a_mg A.

Definition secid (id : Z) : Prop := id = 3 \/ id = 4 \/ id = 5 \/ id = 6.

Fixpoint chain (lo hi : Z) (l : list (Z * Z * Z)) : Prop :=
  match l with
  | [] => lo <= hi
  | (s, n, _) :: r => lo <= s /\ 1 <= n /\ chain (s + n) hi r
  end.

Record ok (A : abs) : Prop := Ok {
  ok_cells : zlen (a_cells A) <= a_ms A;
  ok_objs : zlen (a_objs A) <= a_mo A;
  ok_dps : zlen (a_dps A) <= a_md A;
  ok_mg : 0 <= a_mg A;
  ok_chain : chain 0 (zlen (a_cells A)) (a_objs A);
  ok_nodup : NoDup (a_dps A);
  ok_ptr : forall k, In k (a_dps A) <->
             0 <= k /\ exists q, nth_error (a_cells A) (Z.to_nat k) = Some (Ptr q);
  ok_target : forall k q, nth_error (a_cells A) k = Some (Ptr q) ->
                0 <= q <= zlen (a_cells A) }.

(* no pointer to the end of the used slots *)
Definition remappable (A : abs) : Prop :=
  forall k q, nth_error (a_cells A) k = Some (Ptr q) -> q < zlen (a_cells A).

(* b is a base address for a block with this contents *)
Definition base_ok (b : Z) (A : abs) : Prop := 0 < b /\ b mod 8 = 0 /\ b + 8 * tot A < 2 ^ 64.

Definition cellval (b : Z) (c : cell) : Z :=
  match c with Raw w => w | Ptr q => b + 80 + 8 * q end.

(* header and section headers of the block m, set up for the base address b *)
Record hrepr (b : Z) (m : mem) (A : abs) : Prop := Hrepr {
  hr_ok : ok A;
  hr_base : base_ok b A;
  hr_len : tot A <= wlen m;
  hr_0 : word m 0 = b;
  hr_1 : word m 1 = 8 * tot A;
  hr_2 : word m 2 = 64;
  hr_sec : forall id, secid id -> word m id = b + 8 * spos A id;
  hr_max : forall id, secid id -> word m (spos A id) = 16 + entity_size id * smax A id;
  hr_num : forall id, secid id -> word m (spos A id + 1) = snum A id }.

(* the block m holds the contents A, set up for the base address b *)
Record repr (b : Z) (m : mem) (A : abs) : Prop := Repr {
  re_h : hrepr b m A;
  re_cell : forall k c, nth_error (a_cells A) k = Some c ->
              word m (10 + Z.of_nat k) = cellval b c;
  re_obj : forall i s n t, nth_error (a_objs A) i = Some (s, n, t) ->
              word m (spos A 4 + 2 + 3 * Z.of_nat i) = b + 80 + 8 * s /\
              word m (spos A 4 + 2 + 3 * Z.of_nat i + 1) = t /\
              word m (spos A 4 + 2 + 3 * Z.of_nat i + 2) = 8 * n;
  re_dp : forall j k, nth_error (a_dps A) j = Some k ->
              word m (spos A 5 + 2 + Z.of_nat j) = b + 80 + 8 * k }.

Definition re_ok b m A (R : repr b m A) := hr_ok b m A (re_h b m A R).
Definition re_base b m A (R : repr b m A) := hr_base b m A (re_h b m A R).
Definition re_len b m A (R : repr b m A) := hr_len b m A (re_h b m A R).
Definition re_0 b m A (R : repr b m A) := hr_0 b m A (re_h b m A R).
Definition re_1 b m A (R : repr b m A) := hr_1 b m A (re_h b m A R).
Definition re_sec b m A (R : repr b m A) := hr_sec b m A (re_h b m A R).
Definition re_max b m A (R : repr b m A) := hr_max b m A (re_h b m A R).
Definition re_num b m A (R : repr b m A) := hr_num b m A (re_h b m A R).

Lemma zlen_nonneg {T} (l : list T) : 0 <= zlen l.
Proof. unfold zlen. lia. Qed.

Ltac secs H := destruct H as [->|[->|[->| ->]]].

Lemma secid3 : secid 3. Proof. unfold secid; auto. Qed.
Lemma secid4 : secid 4. Proof. unfold secid; auto. Qed.
Lemma secid5 : secid 5. Proof. unfold secid; auto. Qed.
Lemma secid6 : secid 6. Proof. unfold secid; auto. Qed.
Global Hint Resolve secid3 secid4 secid5 secid6 : core.

(* bounds on the numbers of a well-formed state *)
Lemma ok_bounds A : ok A ->
  0 <= zlen (a_cells A) <= a_ms A /\ 0 <= zlen (a_objs A) <= a_mo A /\
  0 <= zlen (a_dps A) <= a_md A /\ 0 <= a_mg A.
Proof.
  intros []. pose proof (zlen_nonneg (a_cells A)). pose proof (zlen_nonneg (a_objs A)).
  pose proof (zlen_nonneg (a_dps A)). lia.
Qed.

Lemma spos_bounds A id : ok A -> secid id ->
  8 <= spos A id /\ spos A id + 2 <= tot A /\ 0 <= smax A id /\ 0 <= snum A id <= smax A id /\
  8 * spos A id + (16 + entity_size id * smax A id) <= 8 * tot A.
Proof.
  intros H Hid. pose proof (ok_bounds A H) as (?&?&?&?).
  secs Hid; unfold spos, smax, snum, entity_size, tot; cbn [Z.eqb Pos.eqb]; lia.
Qed.

Lemma snum_le A id : ok A -> secid id -> 0 <= snum A id <= smax A id.
Proof. intros H Hid. apply (spos_bounds A id H Hid). Qed.

Lemma entity_pos id : secid id -> 8 <= entity_size id <= 24.
Proof. intros H. secs H; unfold entity_size; cbn [Z.eqb Pos.eqb]; lia. Qed.

Section Access.
Variables (m : mem) (A : abs).
Hypothesis R : hrepr (mbase m) m A.
Local Notation B := (mbase m).

Lemma B_pos : 0 < B.
Proof. destruct (hr_base _ _ _ R). lia. Qed.
Lemma B_nz : (B =? 0) = false.
Proof. apply Z.eqb_neq. pose proof B_pos. lia. Qed.
Lemma B_mod : B mod 8 = 0.
Proof. now destruct (hr_base _ _ _ R) as (?&?&?). Qed.

Lemma rd_hdr id : 0 <= id < 8 -> rd m (B + 8 * id) = Some (word m id).
Proof.
  intros H. apply rd_ok; [lia|]. pose proof (hr_len _ _ _ R).
  pose proof (spos_bounds A 3 (hr_ok _ _ _ R) secid3). unfold spos in *; cbn [Z.eqb Pos.eqb] in *.
  lia.
Qed.

Lemma rd_base : rd m B = Some B.
Proof.
  replace B with (B + 8 * 0) at 1 by lia. rewrite rd_hdr by lia. now rewrite (hr_0 _ _ _ R).
Qed.

Lemma section_ptr_ok id : secid id -> section_ptr m B id = Some (B + 8 * spos A id).
Proof.
  intros H. unfold section_ptr. rewrite B_nz, rd_hdr by (secs H; lia).
  now rewrite (hr_sec _ _ _ R) by assumption.
Qed.

Lemma sp_nz id : secid id -> (B + 8 * spos A id =? 0) = false.
Proof.
  intros H. apply Z.eqb_neq. pose proof B_pos.
  pose proof (spos_bounds A id (hr_ok _ _ _ R) H). lia.
Qed.

Lemma section_data_ok id : secid id -> section_data m B id = Some (B + 8 * (spos A id + 2)).
Proof.
  intros H. unfold section_data. rewrite section_ptr_ok by assumption. cbn [bind].
  rewrite sp_nz by assumption. f_equal. unfold SECTION_HEADER. lia.
Qed.

Lemma rd_sec id k : secid id -> 0 <= k < 2 -> rd m (B + 8 * spos A id + 8 * k) = Some (word m (spos A id + k)).
Proof.
  intros H Hk. apply rd_ok; [lia|]. pose proof (hr_len _ _ _ R).
  pose proof (spos_bounds A id (hr_ok _ _ _ R) H). lia.
Qed.

Lemma section_max_size_ok id : secid id ->
  section_max_size m B id = Some (16 + entity_size id * smax A id).
Proof.
  intros H. unfold section_max_size. rewrite section_ptr_ok by assumption. cbn [bind].
  rewrite sp_nz by assumption.
  replace (B + 8 * spos A id) with (B + 8 * spos A id + 8 * 0) by lia.
  rewrite rd_sec by (assumption || lia). rewrite Z.add_0_r.
  now rewrite (hr_max _ _ _ R) by assumption.
Qed.

Lemma section_num_ok id : secid id -> section_num m B id = Some (snum A id).
Proof.
  intros H. unfold section_num. rewrite section_ptr_ok by assumption. cbn [bind].
  rewrite sp_nz by assumption.
  replace (B + 8 * spos A id + 8) with (B + 8 * spos A id + 8 * 1) by lia.
  rewrite rd_sec by (assumption || lia).
  now rewrite (hr_num _ _ _ R) by assumption.
Qed.

Lemma num_bytes id : secid id ->
  0 <= snum A id * entity_size id /\ snum A id * entity_size id <= entity_size id * smax A id /\
  16 + entity_size id * smax A id < 2 ^ 64.
Proof.
  intros H. pose proof (spos_bounds A id (hr_ok _ _ _ R) H).
  pose proof (entity_pos id H). destruct (hr_base _ _ _ R) as (?&?&?).
  split; [|split]; [nia|nia|lia].
Qed.

Lemma section_size_ok id : secid id ->
  section_size m B id = Some (16 + entity_size id * snum A id).
Proof.
  intros H. unfold section_size. rewrite section_num_ok by assumption. cbn [bind].
  pose proof (num_bytes id H). unfold SECTION_HEADER.
  rewrite (u64_id (snum A id * entity_size id)) by lia.
  rewrite u64_id by lia. f_equal. lia.
Qed.

Lemma section_end_ok id : secid id ->
  section_end m B id = Some (B + 8 * spos A id + (16 + entity_size id * snum A id)).
Proof.
  intros H. unfold section_end. rewrite section_ptr_ok by assumption. cbn [bind].
  rewrite sp_nz, section_size_ok by assumption. reflexivity.
Qed.

Lemma section_max_num_ok id : secid id -> section_max_num m B id = Some (smax A id).
Proof.
  intros H. unfold section_max_num. rewrite section_max_size_ok by assumption. cbn [bind].
  pose proof (num_bytes id H). pose proof (entity_pos id H). unfold SECTION_HEADER.
  replace (16 <=? 16 + entity_size id * smax A id) with true
    by (symmetry; apply Z.leb_le; lia).
  f_equal. replace (16 + entity_size id * smax A id - 16) with (smax A id * entity_size id) by lia.
  apply Z.div_mul. lia.
Qed.

Lemma header_length_ok : header_length m B = Some 64.
Proof.
  unfold header_length. rewrite B_nz, rd_hdr by lia. now rewrite (hr_2 _ _ _ R).
Qed.

Lemma buffer_length_ok : buffer_length m B = Some (8 * tot A).
Proof.
  unfold buffer_length. rewrite B_nz, rd_hdr by lia. now rewrite (hr_1 _ _ _ R).
Qed.

Lemma section_offset_ok id : secid id -> section_offset m B id = Some (8 * spos A id).
Proof.
  intros H. unfold section_offset. rewrite B_nz, rd_hdr by (secs H; lia). cbn [bind].
  rewrite rd_base. cbn [bind]. rewrite (hr_sec _ _ _ R) by assumption.
  pose proof (spos_bounds A id (hr_ok _ _ _ R) H).
  replace (B <=? B + 8 * spos A id) with true by (symmetry; apply Z.leb_le; lia).
  f_equal. lia.
Qed.

Lemma needs_remapping_ok : needs_remapping m B = Some false.
Proof.
  unfold needs_remapping. rewrite rd_base. cbn [bind]. now rewrite Z.eqb_refl.
Qed.
End Access.

(* the words of the header and of the section headers *)
Definition hdrword (A : abs) (j : Z) : Prop :=
  0 <= j <= 6 \/ exists id, secid id /\ (j = spos A id \/ j = spos A id + 1).

Lemma hrepr_frame b m m' A : hrepr b m A -> wlen m' = wlen m ->
  (forall j, 0 <= j -> hdrword A j -> word m' j = word m j) -> hrepr b m' A.
Proof.
  intros [] Hw Hf.
  assert (P : forall id, secid id -> 8 <= spos A id) by (intros; now apply spos_bounds).
  split; auto.
  - now rewrite Hw.
  - rewrite Hf; auto; [lia|]. left; lia.
  - rewrite Hf; auto; [lia|]. left; lia.
  - rewrite Hf; auto; [lia|]. left; lia.
  - intros id H. rewrite Hf; auto; [secs H; lia|]. left. secs H; lia.
  - intros id H. rewrite Hf; auto; [specialize (P id H); lia|]. right. eauto.
  - intros id H. rewrite Hf; auto; [specialize (P id H); lia|]. right. eauto.
Qed.

(* ------------------------------------------------------------------ *)
(* what the user sees of an abstract contents *)

Definition rel_cell (s : Z) (c : cell) : cell :=
  match c with Raw w => Raw w | Ptr q => Ptr (8 * (q - s)) end.

Definition slice {T} (l : list T) (s n : Z) : list T := firstn (Z.to_nat n) (skipn (Z.to_nat s) l).

Definition acontent (A : abs) : list (Z * list cell) :=
  map (fun o => match o with (s, n, t) => (t, map (rel_cell s) (slice (a_cells A) s n)) end)
      (a_objs A).

Lemma zseq_length n : length (zseq n) = Z.to_nat n.
Proof. unfold zseq. now rewrite map_length, seq_length. Qed.

Lemma zseq_nth n i : (i < Z.to_nat n)%nat -> nth_error (zseq n) i = Some (Z.of_nat i).
Proof.
  intros H. unfold zseq. erewrite map_nth_error; [reflexivity|].
  rewrite (nth_error_nth' _ 0%nat) by now rewrite seq_length.
  now rewrite seq_nth.
Qed.

Lemma nth_error_ext {T} (l l' : list T) :
  (forall i, nth_error l i = nth_error l' i) -> l = l'.
Proof.
  revert l'; induction l as [|a l IH]; intros [|b l'] H; auto.
  - now specialize (H O).
  - now specialize (H O).
  - pose proof (H O) as H0. injection H0 as ->. f_equal. apply IH. intros i. apply (H (S i)).
Qed.

Lemma map_ext_nth {S T U} (f : S -> U) (g : T -> U) l l' : length l = length l' ->
  (forall i a b, nth_error l i = Some a -> nth_error l' i = Some b -> f a = g b) ->
  map f l = map g l'.
Proof.
  revert l'; induction l as [|a l IH]; intros [|b l'] Hl H; simpl in *; try discriminate; auto.
  f_equal.
  - now apply (H O).
  - apply IH; [lia|]. intros i. apply (H (Datatypes.S i)).
Qed.

Lemma nth_error_nil' {T} i : nth_error (@nil T) i = None.
Proof. now destruct i. Qed.

Lemma skipn_nth {T} (l : list T) s i : nth_error (skipn s l) i = nth_error l (s + i).
Proof.
  revert l; induction s; intros l; simpl; auto. destruct l; auto. now rewrite nth_error_nil'.
Qed.

Lemma firstn_nth {T} (l : list T) n i :
  nth_error (firstn n l) i = if Nat.ltb i n then nth_error l i else None.
Proof.
  revert l i; induction n; intros l i; simpl.
  - now rewrite nth_error_nil'.
  - destruct l, i; simpl; auto.
    + now destruct (Nat.ltb (S i) (S n)).
    + apply IHn.
Qed.

Lemma slice_nth {T} (l : list T) s n i : 0 <= s -> 0 <= i < n ->
  nth_error (slice l s n) (Z.to_nat i) = nth_error l (Z.to_nat (s + i)).
Proof.
  intros. unfold slice. rewrite firstn_nth.
  replace (Nat.ltb (Z.to_nat i) (Z.to_nat n)) with true by (symmetry; apply Nat.ltb_lt; lia).
  rewrite skipn_nth. f_equal. lia.
Qed.

Lemma slice_length {T} (l : list T) s n : 0 <= s -> 0 <= n -> s + n <= zlen l ->
  length (slice l s n) = Z.to_nat n.
Proof.
  intros. unfold slice, zlen in *. rewrite firstn_length, skipn_length. lia.
Qed.

Lemma chain_nth lo hi l i s n t : chain lo hi l -> nth_error l i = Some (s, n, t) ->
  lo <= s /\ 1 <= n /\ s + n <= hi.
Proof.
  revert lo i; induction l as [|[[s' n'] t'] l IH]; intros lo i H Hi; [now destruct i|].
  simpl in H. destruct H as (H1 & H2 & H3).
  assert (Hhi : s' + n' <= hi).
  { clear -H3. revert H3. generalize (s' + n'). induction l as [|[[a b] c] l IH]; simpl; intros z H; auto.
    destruct H as (?&?&H). apply IH in H. lia. }
  destruct i as [|i]; simpl in Hi.
  - injection Hi as -> -> ->. lia.
  - apply (IH _ _ H3) in Hi. lia.
Qed.

Lemma chain_disjoint lo hi l i j s n t s' n' t' : chain lo hi l -> (i < j)%nat ->
  nth_error l i = Some (s, n, t) -> nth_error l j = Some (s', n', t') -> s + n <= s'.
Proof.
  revert lo i j; induction l as [|[[a b] c] l IH]; intros lo i j H Hij Hi Hj; [now destruct i|].
  simpl in H. destruct H as (H1 & H2 & H3). destruct j as [|j]; [lia|]. simpl in Hj.
  destruct i as [|i]; simpl in Hi.
  - injection Hi as -> -> ->. apply (chain_nth _ _ _ _ _ _ _ H3) in Hj. lia.
  - apply (IH _ i j H3); auto. lia.
Qed.

Section Content.
Variables (b : Z) (m : mem) (A : abs).
Hypothesis R : repr b m A.

Lemma sec_pos_ok id : secid id -> sec_pos m id = spos A id.
Proof.
  intros H. unfold sec_pos, stored_base. rewrite (re_sec _ _ _ R), (re_0 _ _ _ R) by assumption.
  replace (b + 8 * spos A id - b) with (spos A id * 8) by lia. apply Z.div_mul. lia.
Qed.

Lemma sec_count_ok id : secid id -> sec_count m id = snum A id.
Proof. intros H. unfold sec_count. rewrite sec_pos_ok by assumption. now apply (re_num _ _ _ R). Qed.

Lemma sec_room_ok id : secid id -> sec_room m id = 16 + entity_size id * smax A id.
Proof. intros H. unfold sec_room. rewrite sec_pos_ok by assumption. now apply (re_max _ _ _ R). Qed.

Lemma data_pointers_ok : data_pointers m = map (fun k => b + 80 + 8 * k) (a_dps A).
Proof.
  unfold data_pointers. rewrite sec_count_ok, sec_pos_ok by auto.
  unfold snum; simpl. apply map_ext_nth.
  - rewrite zseq_length. unfold zlen. lia.
  - intros i j k Hi Hk. assert (i < length (a_dps A))%nat by (apply nth_error_Some; congruence).
    rewrite zseq_nth in Hi by (unfold zlen; lia). injection Hi as <-.
    now apply (re_dp _ _ _ R).
Qed.

Lemma is_dp k : existsb (Z.eqb (b + 80 + 8 * k)) (data_pointers m) = true <-> In k (a_dps A).
Proof.
  rewrite data_pointers_ok, existsb_exists. split.
  - intros (x & Hx & E). apply in_map_iff in Hx as (k' & <- & Hk'). apply Z.eqb_eq in E.
    now replace k with k' by lia.
  - intros H. exists (b + 80 + 8 * k). split; [|apply Z.eqb_refl].
    apply in_map_iff. eauto.
Qed.

Lemma word_at_ok k : word_at m (b + 80 + 8 * k) = word m (10 + k).
Proof.
  unfold word_at, stored_base. rewrite (re_0 _ _ _ R).
  replace (b + 80 + 8 * k - b) with ((10 + k) * 8) by lia. now rewrite Z.div_mul by lia.
Qed.

Lemma obj_ok i s n t : nth_error (a_objs A) i = Some (s, n, t) ->
  obj_begin m (Z.of_nat i) = b + 80 + 8 * s /\ obj_type m (Z.of_nat i) = t /\
  obj_size m (Z.of_nat i) = 8 * n.
Proof.
  intros H. unfold obj_begin, obj_type, obj_size. rewrite sec_pos_ok by auto.
  now apply (re_obj _ _ _ R).
Qed.

Lemma obj_cell_ok i s n t k c : nth_error (a_objs A) i = Some (s, n, t) ->
  0 <= k -> nth_error (a_cells A) (Z.to_nat k) = Some c ->
  obj_cell m (Z.of_nat i) (b + 80 + 8 * k) = rel_cell s c.
Proof.
  intros Ho Hk Hc. unfold obj_cell. destruct (obj_ok _ _ _ _ Ho) as (E & _ & _). rewrite E.
  rewrite word_at_ok. assert (Hw := re_cell _ _ _ R _ _ Hc). rewrite Z2Nat.id in Hw by assumption.
  rewrite Hw.
  destruct (existsb (Z.eqb (b + 80 + 8 * k)) (data_pointers m)) eqn:Ed.
  - apply is_dp in Ed. apply (ok_ptr _ (re_ok _ _ _ R)) in Ed as (_ & q & Hq).
    rewrite Hc in Hq. injection Hq as ->. cbn [cellval rel_cell]. f_equal. lia.
  - destruct c as [w|q]; [reflexivity|].
    exfalso. assert (In k (a_dps A)) as Hin.
    { apply (ok_ptr _ (re_ok _ _ _ R)). split; [assumption|]. eauto. }
    apply is_dp in Hin. congruence.
Qed.

Lemma content_ok : content m = acontent A.
Proof.
  unfold content, acontent. rewrite sec_count_ok by auto. unfold snum; simpl.
  apply map_ext_nth.
  - rewrite zseq_length. unfold zlen. lia.
  - intros i j [[s n] t] Hi Ho.
    assert (i < length (a_objs A))%nat by (apply nth_error_Some; congruence).
    rewrite zseq_nth in Hi by (unfold zlen; lia). injection Hi as <-.
    destruct (obj_ok _ _ _ _ Ho) as (E1 & E2 & E3).
    pose proof (chain_nth _ _ _ _ _ _ _ (ok_chain _ (re_ok _ _ _ R)) Ho) as (Hs & Hn & He).
    rewrite E2. f_equal. unfold obj_cells. rewrite E3, (Z.mul_comm 8 n), Z.div_mul by lia.
    apply map_ext_nth.
    + rewrite zseq_length, slice_length; lia.
    + intros k a c Ha Hc.
      assert (k < Z.to_nat n)%nat.
      { rewrite <- (zseq_length n). apply nth_error_Some. congruence. }
      rewrite zseq_nth in Ha by assumption. injection Ha as <-. rewrite E1.
      rewrite <- (Nat2Z.id k), slice_nth in Hc by lia.
      replace (b + 80 + 8 * s + 8 * Z.of_nat k) with (b + 80 + 8 * (s + Z.of_nat k)) by lia.
      eapply obj_cell_ok; eauto. lia.
Qed.
End Content.
