(* Writing a word of an object of a buffer. *)
From Coq Require Import ZArith List Bool Lia.
From Verif Require Import MBuf MBufSpec MBufMem MBufAbs MBufRemap MemPool Buffer BufferSpec BufferUser
  BufferProofs.
Import ListNotations.
Local Open Scope Z_scope.

Lemma replace_nth {T} (l : list T) n x j : (n < length l)%nat ->
  nth_error (replace l n x) j = if Nat.eqb j n then Some x else nth_error l j.
Proof.
  unfold replace. revert n j; induction l as [|a l IH]; intros n j H; [cbn in H; lia|].
  destruct n as [|n].
  - cbn [firstn skipn app]. destruct j as [|j]; reflexivity.
  - cbn [firstn skipn app]. destruct j as [|j]; [reflexivity|]. cbn [nth_error Nat.eqb].
    apply IH. cbn [length] in H. lia.
Qed.

Lemma replace_length {T} (l : list T) n x : length (replace l n x) = length l.
Proof.
  unfold replace. revert n; induction l as [|a l IH]; intros [|n]; try reflexivity.
  cbn [firstn skipn app length]. now rewrite IH.
Qed.

Lemma replace_map {S T} (f : S -> T) l n x : map f (replace l n x) = replace (map f l) n (f x).
Proof.
  unfold replace. revert n; induction l as [|a l IH]; intros [|n]; try reflexivity.
  cbn [map firstn skipn app]. now rewrite IH.
Qed.

Definition set_cell (A : abs) (k : nat) (c : cell) : abs :=
  Abs (a_ms A) (a_mo A) (a_md A) (a_mg A) (replace (a_cells A) k c) (a_objs A) (a_dps A).

Section Write.
Variables (A : abs) (k : nat) (w v : Z).
Hypothesis Hk : nth_error (a_cells A) k = Some (Raw w).

Lemma in_cells : (k < length (a_cells A))%nat.
Proof. apply nth_error_Some. congruence. Qed.

Lemma cell_ptr j q : nth_error (replace (a_cells A) k (Raw v)) j = Some (Ptr q) <->
  nth_error (a_cells A) j = Some (Ptr q).
Proof.
  rewrite replace_nth by apply in_cells. destruct (Nat.eqb_spec j k) as [->|]; [|tauto].
  rewrite Hk. split; discriminate.
Qed.

Lemma set_cell_len : zlen (a_cells (set_cell A k (Raw v))) = zlen (a_cells A).
Proof. unfold zlen, set_cell. cbn [a_cells]. now rewrite replace_length. Qed.

Lemma set_cell_ok : ok A -> ok (set_cell A k (Raw v)).
Proof.
  intros [H1 H2 H3 H4 H5 H6 H7 H8]. split.
  - rewrite set_cell_len. exact H1.
  - exact H2.
  - exact H3.
  - exact H4.
  - rewrite set_cell_len. exact H5.
  - exact H6.
  - intros j. cbn [set_cell a_dps a_cells]. rewrite H7. split; intros (P & q & Hq); split; auto; exists q; now apply cell_ptr.
  - intros j q Hq. rewrite set_cell_len. cbn [set_cell a_cells] in Hq. apply cell_ptr in Hq. eauto.
Qed.

Lemma set_cell_remappable : remappable A -> remappable (set_cell A k (Raw v)).
Proof.
  intros H j q Hq. rewrite set_cell_len. cbn [set_cell a_cells] in Hq. apply cell_ptr in Hq. eauto.
Qed.

Lemma set_cell_spos id : spos (set_cell A k (Raw v)) id = spos A id.
Proof. reflexivity. Qed.

Lemma set_cell_repr b m : repr b m A -> repr b (mupd m (10 + Z.of_nat k) v) (set_cell A k (Raw v)).
Proof.
  intros R. pose proof (re_h _ _ _ R) as H. pose proof (hr_ok _ _ _ H) as OK.
  pose proof (ok_bounds A OK) as (Bc & Bo & Bd & Bg).
  pose proof (layout A OK) as (L3 & L4 & L5 & L6 & Lt & N3 & N4 & N5 & N6).
  pose proof (hr_len _ _ _ H) as L. pose proof in_cells as HK. 
  assert (HK2 : Z.of_nat k < zlen (a_cells A)) by (unfold zlen; lia).
  assert (F : forall j, 0 <= j -> j < 10 \/ spos A 4 <= j -> word (mupd m (10 + Z.of_nat k) v) j = word m j).
  { intros j Hj Hj'. rewrite word_mupd by lia. destruct (j =? 10 + Z.of_nat k) eqn:E; [|reflexivity].
    apply Z.eqb_eq in E. lia. }
  assert (H' : hrepr b (mupd m (10 + Z.of_nat k) v) A).
  { apply (hrepr_frame b m); [exact H|apply mupd_wlen|]. intros j Hj [Hh|(id & Hs & Hh)]; apply F; try lia.
    secs Hs; cbn [SLOTS_ID OBJECTS_ID DATAPTRS_ID GARBAGE_ID] in *; lia. }
  split.
  - destruct H' as [I1 I2 I3 I4 I5 I6 I7 I8 I9]. split; auto.
    + now apply set_cell_ok.
    + intros id Hid. rewrite set_cell_spos. rewrite (I9 id Hid). unfold snum. now rewrite set_cell_len.
  - intros j c Hj. cbn [set_cell a_cells] in Hj. rewrite replace_nth in Hj by assumption.
    rewrite word_mupd by lia. destruct (Nat.eqb_spec j k) as [->|Hne].
    + rewrite Z.eqb_refl. assert (c = Raw v) as -> by congruence. reflexivity.
    + replace (10 + Z.of_nat j =? 10 + Z.of_nat k) with false by (symmetry; apply Z.eqb_neq; lia).
      now apply (re_cell _ _ _ R).
  - intros i s n t E. rewrite set_cell_spos. rewrite !F by lia. now apply (re_obj _ _ _ R).
  - intros j q E. rewrite set_cell_spos. rewrite !F by lia. now apply (re_dp _ _ _ R).
Qed.
End Write.

Lemma content_nth A i t cells : ok A -> nth_error (acontent A) i = Some (t, cells) ->
  exists s n, nth_error (a_objs A) i = Some (s, n, t) /\ cells = map (rel_cell s) (slice (a_cells A) s n) /\
    0 <= s /\ 1 <= n /\ s + n <= zlen (a_cells A) /\ zlen cells = n.
Proof.
  intros OK H. unfold acontent in H. rewrite nth_error_map in H.
  destruct (nth_error (a_objs A) i) as [[[s n] t']|] eqn:E; [|discriminate]. cbn [option_map] in H.
  pose proof (chain_nth _ _ _ _ _ _ _ (ok_chain _ OK) E) as (X1 & X2 & X3).
  assert (t' = t /\ cells = map (rel_cell s) (slice (a_cells A) s n)) as (-> & ->) by (split; congruence).
  exists s, n. split; [reflexivity|]. split; [reflexivity|]. split; [lia|]. split; [lia|]. split; [lia|].
  unfold zlen at 1. rewrite map_length. rewrite slice_length by lia. lia.
Qed.

Lemma set_cell_content A i t cells s n j w v : ok A ->
  nth_error (a_objs A) i = Some (s, n, t) -> cells = map (rel_cell s) (slice (a_cells A) s n) ->
  0 <= j < n -> nth_error (a_cells A) (Z.to_nat (s + j)) = Some (Raw w) ->
  acontent (set_cell A (Z.to_nat (s + j)) (Raw v)) =
    replace (acontent A) i (t, replace cells (Z.to_nat j) (Raw v)).
Proof.
  intros OK E -> Hj Hc.
  pose proof (chain_nth _ _ _ _ _ _ _ (ok_chain _ OK) E) as (X1 & X2 & X3).
  assert (HL : (Z.to_nat (s + j) < length (a_cells A))%nat) by (apply nth_error_Some; congruence).
  assert (HI : (i < length (a_objs A))%nat) by (apply nth_error_Some; congruence).
  apply nth_error_ext. intros i'. unfold acontent. cbn [set_cell a_cells a_objs].
  rewrite replace_nth by (rewrite map_length; auto).
  rewrite !nth_error_map. destruct (Nat.eqb_spec i' i) as [->|Hne].
  - rewrite E. cbn [option_map]. do 2 f_equal.
    apply nth_error_ext. intros j'.
    rewrite replace_nth by (rewrite map_length, slice_length by lia; lia).
    rewrite !nth_error_map.
    destruct (Nat.lt_ge_cases j' (Z.to_nat n)) as [Lt|Ge].
    + rewrite <- (Nat2Z.id j'). rewrite !slice_nth by lia.
      rewrite replace_nth by auto. rewrite Nat2Z.id.
      destruct (Nat.eqb_spec j' (Z.to_nat j)) as [->|Hn].
      * replace (Nat.eqb _ _) with true by (symmetry; apply Nat.eqb_eq; lia). reflexivity.
      * replace (Nat.eqb _ _) with false by (symmetry; apply Nat.eqb_neq; lia). reflexivity.
    + replace (Nat.eqb j' (Z.to_nat j)) with false by (symmetry; apply Nat.eqb_neq; lia).
      assert (NN : forall l : list cell, zlen l = zlen (a_cells A) -> nth_error (slice l s n) j' = None).
      { intros l Hl. apply nth_error_None. rewrite slice_length by lia. lia. }
      rewrite !NN; auto. unfold zlen. now rewrite replace_length.
  - destruct (nth_error (a_objs A) i') as [[[s' n'] t']|] eqn:E'; [|reflexivity]. cbn [option_map].
    do 3 f_equal.
    pose proof (chain_nth _ _ _ _ _ _ _ (ok_chain _ OK) E') as (Y1 & Y2 & Y3).
    apply nth_error_ext. intros j'.
    destruct (Nat.lt_ge_cases j' (Z.to_nat n')) as [Lt|Ge].
    + rewrite <- (Nat2Z.id j'). rewrite !slice_nth by lia. rewrite replace_nth by auto.
      replace (Nat.eqb _ _) with false; [reflexivity|]. symmetry. apply Nat.eqb_neq.
      destruct (Nat.lt_ge_cases i i') as [C|C].
      * pose proof (chain_disjoint _ _ _ _ _ _ _ _ _ _ _ (ok_chain _ OK) C E E'). lia.
      * pose proof (chain_disjoint _ _ _ i' i _ _ _ _ _ _ (ok_chain _ OK) ltac:(lia) E' E). lia.
    + assert (NN : forall l : list cell, zlen l = zlen (a_cells A) -> nth_error (slice l s' n') j' = None).
      { intros l Hl. apply nth_error_None. rewrite slice_length by lia. lia. }
      rewrite !NN; auto. unfold zlen. now rewrite replace_length.
Qed.

Lemma write_inv b A i k v b' : binv b A -> bview b A -> writes b i k v b' ->
  exists A', binv b' A' /\ bview b' A' /\
    (exists t cells, nth_error (acontent A) i = Some (t, cells) /\
       acontent A' = replace (acontent A) i (t, replace cells k (Raw v))) /\
    (remappable A -> remappable A') /\
    a_ms A' = a_ms A /\ a_mo A' = a_mo A /\ a_md A' = a_md A /\ a_mg A' = a_mg A /\
    zlen (a_cells A') = zlen (a_cells A) /\ a_objs A' = a_objs A /\ a_dps A' = a_dps A.
Proof.
  intros I V W. inversion W as [b0 i0 k0 v0 t cells w m' Ho Hc Hv Hw]; subst.
  pose proof (bi_repr _ _ I) as R. pose proof (re_ok _ _ _ R) as OK.
  assert (Ho' : nth_error (acontent A) i = Some (t, cells))
    by (rewrite <- (content_ok _ _ _ R); exact Ho).
  destruct (content_nth A i t cells OK Ho') as (s & n & E & -> & Hs & Hn & He & Hl).
  assert (Lk : Z.of_nat k < n).
  { assert (k < length (map (rel_cell s) (slice (a_cells A) s n)))%nat by (apply nth_error_Some; congruence).
    unfold zlen in Hl. lia. }
  assert (Hcell : nth_error (a_cells A) (Z.to_nat (s + Z.of_nat k)) = Some (Raw w)).
  { rewrite nth_error_map in Hc. rewrite <- (Nat2Z.id k), slice_nth in Hc by lia.
    destruct (nth_error (a_cells A) (Z.to_nat (s + Z.of_nat k))) as [c|]; [|discriminate].
    cbn [option_map] in Hc. destruct c as [w'|]; [|discriminate]. cbn [rel_cell] in Hc. congruence. }
  pose proof (obj_ok _ _ _ R _ _ _ _ E) as (Eb & _).
  pose proof (re_len _ _ _ R) as L.
  pose proof (layout A OK) as (L3 & L4 & L5 & L6 & Lt & N3 & N4 & N5 & N6).
  pose proof (ok_bounds A OK) as (Bc & Bo & Bd & Bg).
  rewrite Eb in Hw.
  rewrite (wr_ok _ _ (10 + Z.of_nat (Z.to_nat (s + Z.of_nat k)))) in Hw by lia.
  assert (m' = mupd (b_mem b) (10 + Z.of_nat (Z.to_nat (s + Z.of_nat k))) v) as -> by congruence.
  exists (set_cell A (Z.to_nat (s + Z.of_nat k)) (Raw v)).
  split.
  { destruct I as [I1 I2 I3 I4 I5 I6 I7 I8 I9 I10 I11 I12 I13 I14]. split; cbn [b_h b_pool b_mem]; auto.
    - cbn [mupd mbase]. apply set_cell_repr with w; auto.
    - rewrite <- I7. apply mupd_wlen. }
  split; [exact V|]. split.
  { exists t, (map (rel_cell s) (slice (a_cells A) s n)). split; [exact Ho'|].
    rewrite (set_cell_content A i t _ s n (Z.of_nat k) w v OK E eq_refl) by (auto; lia).
    now rewrite Nat2Z.id. }
  split; [apply set_cell_remappable with w; auto|]. repeat (split; [reflexivity|]).
  split; [apply set_cell_len|]. auto.
Qed.
