(* Buffer_add_object. *)
From Coq Require Import ZArith List Bool Lia.
From Verif Require Import MBuf Alignment MemPool Buffer BufferSpec MBufSpec MBufMem MBufAbs MBufRemap
  MBufReserve MBufInit BufferProofs BufferReserve BufferAddMem.
Import ListNotations.
Local Open Scope Z_scope.

(* ------------------------------------------------------------------ *)
(* lengths *)
Definition sumw (arrs : list (list Z)) : Z := zlen (concat arrs).

Lemma sumw_cons a r : sumw (a :: r) = zlen a + sumw r.
Proof. unfold sumw, zlen. cbn [concat]. rewrite app_length. lia. Qed.
Lemma sumw_nonneg l : 0 <= sumw l.
Proof. apply zlen_nonneg. Qed.
Lemma sumw_firstn_le n l : sumw (firstn n l) <= sumw l.
Proof.
  revert l; induction n; intros l; cbn [firstn].
  - apply sumw_nonneg.
  - destruct l as [|a l]; [reflexivity|]. rewrite !sumw_cons. specialize (IHn l). lia.
Qed.

Lemma starts_nth d arrs n : (n < length arrs)%nat ->
  nth_error (starts d arrs) n = Some (d + 8 * sumw (firstn n arrs)).
Proof.
  revert d n; induction arrs as [|a r IH]; intros d n H; cbn [length] in H; [lia|].
  destruct n as [|n]; cbn [starts nth_error firstn].
  - change (sumw []) with 0. f_equal. lia.
  - rewrite IH by lia. rewrite sumw_cons. unfold wcount, zlen. f_equal. lia.
Qed.

Lemma starts_length d arrs : length (starts d arrs) = length arrs.
Proof. revert d; induction arrs; intros; cbn [starts length]; auto. Qed.

(* ------------------------------------------------------------------ *)
(* the words of the expected object *)
Section Expected.
Variables (ow : list Z) (attrs : list attr) (arrs : list (list Z)).
Hypothesis HL : length attrs = length arrs.
Hypothesis HD : NoDup (map at_offset attrs).
Hypothesis HO : forall x, In x attrs ->
  0 <= at_offset x /\ at_offset x mod 8 = 0 /\ at_offset x + 8 <= 8 * wcount ow.
Local Notation ptrs := (combine (map at_offset attrs) (starts (8 * wcount ow) arrs)).
Local Notation E := (expected_object ow attrs arrs).

Lemma find_none_combine {T} k (l : list Z) (l' : list T) : ~ In k l ->
  find (fun p => fst p =? k) (combine l l') = None.
Proof.
  revert l'; induction l as [|a l IH]; intros l' H; [reflexivity|].
  destruct l' as [|b l']; [reflexivity|]. cbn [combine find fst].
  destruct (Z.eqb_spec a k) as [->|_]; [exfalso; apply H; now left|].
  apply IH. intros Hi. apply H. now right.
Qed.

Lemma find_combine {T} (l : list Z) (l' : list T) n k v : NoDup l ->
  nth_error l n = Some k -> nth_error l' n = Some v ->
  find (fun p => fst p =? k) (combine l l') = Some (k, v).
Proof.
  revert l' n; induction l as [|a l IH]; intros l' n H H1 H2; [now destruct n|].
  destruct l' as [|b l']; [now destruct n|]. inversion H; subst.
  destruct n as [|n]; cbn [nth_error] in H1, H2; cbn [combine find fst].
  - injection H1 as ->. injection H2 as ->. now rewrite Z.eqb_refl.
  - destruct (Z.eqb_spec a k) as [->|_].
    + exfalso. apply H4. eapply nth_error_In; eauto.
    + eauto.
Qed.

Lemma expected_length : zlen E = wcount ow + sumw arrs.
Proof using.
  clear HL HD HO. unfold expected_object, zlen, sumw, zlen. rewrite app_length, !map_length, zseq_length.
  unfold wcount. lia.
Qed.

Lemma expected_lo k : 0 <= k < wcount ow ->
  nth_error E (Z.to_nat k) = Some (match find (fun p => fst p =? 8 * k) ptrs with
                | Some p => Ptr (snd p)
                | None => Raw (wnth ow k)
                end).
Proof.
  intros H. unfold expected_object. cbv zeta. rewrite nth_error_app1.
  2:{ rewrite map_length, zseq_length. lia. }
  rewrite (map_nth_error _ (Z.to_nat k) (zseq (wcount ow)) (d := k)); [reflexivity|].
  rewrite zseq_nth by lia. f_equal. lia.
Qed.

Lemma expected_hi k w : nth_error (concat arrs) k = Some w ->
  nth_error E (Z.to_nat (wcount ow) + k) = Some (Raw w).
Proof.
  intros H. unfold expected_object. cbv zeta. rewrite nth_error_app2.
  2:{ rewrite map_length, zseq_length. lia. }
  rewrite map_length, zseq_length.
  replace (Z.to_nat (wcount ow) + k - Z.to_nat (wcount ow))%nat with k by lia.
  now apply map_nth_error.
Qed.

Lemma expected_ptr n x : nth_error attrs n = Some x ->
  nth_error E (Z.to_nat (at_offset x / 8)) =
    Some (Ptr (8 * (wcount ow + sumw (firstn n arrs)))).
Proof.
  intros H. pose proof (HO x (nth_error_In _ _ H)) as (O1 & O2 & O3).
  apply mod8_eq in O2. rewrite expected_lo by lia. rewrite <- O2.
  assert (n < length arrs)%nat by (rewrite <- HL; apply nth_error_Some; congruence).
  erewrite (find_combine _ _ n); [cbn [snd]| assumption | now apply map_nth_error |
    now apply starts_nth]. do 2 f_equal. lia.
Qed.

Lemma expected_raw k : 0 <= k < wcount ow -> (forall x, In x attrs -> at_offset x <> 8 * k) ->
  nth_error E (Z.to_nat k) = Some (Raw (wnth ow k)).
Proof.
  intros H H2. rewrite expected_lo by assumption. rewrite find_none_combine; [reflexivity|].
  intros Hi. apply in_map_iff in Hi as (x & Hx1 & Hx2). now apply (H2 x).
Qed.

(* every cell is one of the three kinds *)
Lemma expected_cases k c : nth_error E k = Some c ->
  (exists n x, nth_error attrs n = Some x /\ Z.of_nat k = at_offset x / 8 /\
     c = Ptr (8 * (wcount ow + sumw (firstn n arrs)))) \/
  (Z.of_nat k < wcount ow /\ (forall x, In x attrs -> at_offset x <> 8 * Z.of_nat k) /\
     c = Raw (wnth ow (Z.of_nat k))) \/
  (exists j w, Z.of_nat k = wcount ow + Z.of_nat j /\ nth_error (concat arrs) j = Some w /\ c = Raw w).
Proof.
  intros H. destruct (Z.lt_ge_cases (Z.of_nat k) (wcount ow)) as [L|L].
  - destruct (in_dec Z.eq_dec (8 * Z.of_nat k) (map at_offset attrs)) as [Hi|Hn].
    + left. apply In_nth_error in Hi as (n & Hn).
      rewrite nth_error_map in Hn. destruct (nth_error attrs n) as [x|] eqn:Ex; [|discriminate].
      cbn [option_map] in Hn. assert (Hx : at_offset x = 8 * Z.of_nat k) by congruence. exists n, x. split; [auto|].
      assert (Ek : at_offset x / 8 = Z.of_nat k)
        by (rewrite Hx, Z.mul_comm; now rewrite Z.div_mul by lia).
      split; [auto|]. pose proof (expected_ptr n x Ex) as P. rewrite Ek, Nat2Z.id, H in P.
      now injection P as ->.
    + right; left.
      assert (N : forall x, In x attrs -> at_offset x <> 8 * Z.of_nat k)
        by (intros x Hx E1; apply Hn; rewrite <- E1; now apply in_map).
      split; [auto|]. split; [auto|].
      pose proof (expected_raw (Z.of_nat k) ltac:(lia) N) as P.
      rewrite Nat2Z.id, H in P. now injection P as ->.
  - right; right. assert (K : (k < length E)%nat) by (apply nth_error_Some; congruence).
    pose proof expected_length as EL. unfold zlen in EL.
    assert (0 <= wcount ow) by (unfold wcount; lia).
    destruct (nth_error (concat arrs) (k - Z.to_nat (wcount ow))) as [w|] eqn:Ew.
    + exists (k - Z.to_nat (wcount ow))%nat, w. split; [lia|]. split; [auto|].
      apply expected_hi in Ew.
      replace (Z.to_nat (wcount ow) + (k - Z.to_nat (wcount ow)))%nat with k in Ew by lia.
      rewrite H in Ew. now injection Ew as ->.
    + apply nth_error_None in Ew. unfold sumw, zlen in EL. lia.
Qed.
End Expected.

(* ------------------------------------------------------------------ *)
(* the abstract contents with one more object *)
Definition abs_cell (s : Z) (c : cell) : cell :=
  match c with Raw w => Raw w | Ptr q => Ptr (s + q / 8) end.

Definition aadd (A : abs) (t : Z) (ow : list Z) (attrs : list attr) (arrs : list (list Z)) : abs :=
  let s := zlen (a_cells A) in
  let E := expected_object ow attrs arrs in
  Abs (a_ms A) (a_mo A) (a_md A) (a_mg A)
    (a_cells A ++ map (abs_cell s) E)
    (a_objs A ++ [(s, zlen E, t)])
    (a_dps A ++ map (fun x => s + at_offset x / 8) attrs).

Lemma zlen_app {T} (l l' : list T) : zlen (l ++ l') = zlen l + zlen l'.
Proof. unfold zlen. rewrite app_length. lia. Qed.
Lemma zlen_map {S T} (f : S -> T) l : zlen (map f l) = zlen l.
Proof. unfold zlen. now rewrite map_length. Qed.

Lemma chain_app lo hi l s n t : chain lo hi l -> hi <= s -> 1 <= n ->
  chain lo (s + n) (l ++ [(s, n, t)]).
Proof.
  revert lo; induction l as [|[[a b] c] l IH]; intros lo H Hs Hn; cbn [app chain] in *.
  - lia.
  - destruct H as (?&?&?). auto.
Qed.

Section Aadd.
Variables (A : abs) (t : Z) (ow : list Z) (attrs : list attr) (arrs : list (list Z)).
Hypothesis HA : ok A.
Hypothesis HL : length attrs = length arrs.
Hypothesis HD : NoDup (map at_offset attrs).
Hypothesis HO : forall x, In x attrs ->
  0 <= at_offset x /\ at_offset x mod 8 = 0 /\ at_offset x + 8 <= 8 * wcount ow.
Hypothesis Hw : 1 <= wcount ow.
Local Notation A' := (aadd A t ow attrs arrs).
Local Notation E := (expected_object ow attrs arrs).
Local Notation s := (zlen (a_cells A)).
Hypothesis Rs : s + (wcount ow + sumw arrs) <= a_ms A.
Hypothesis Ro : zlen (a_objs A) + 1 <= a_mo A.
Hypothesis Rd : zlen (a_dps A) + zlen attrs <= a_md A.

Lemma aadd_cells_lo k : (k < length (a_cells A))%nat ->
  nth_error (a_cells A') k = nth_error (a_cells A) k.
Proof using. intros. unfold aadd. cbn [a_cells]. now rewrite nth_error_app1. Qed.

Lemma aadd_cells_hi k : nth_error (a_cells A') (length (a_cells A) + k) =
  option_map (abs_cell s) (nth_error E k).
Proof using.
  clear. unfold aadd. cbn [a_cells]. rewrite nth_error_app2 by lia. rewrite nth_error_map. do 2 f_equal. lia.
Qed.

Lemma dps_old k : In k (a_dps A) -> 0 <= k < s.
Proof.
  intros H. apply (ok_ptr A HA) in H as (P & q & Hq).
  assert (Z.to_nat k < length (a_cells A))%nat by (apply nth_error_Some; congruence).
  unfold zlen. lia.
Qed.

Lemma aadd_ok : ok A'.
Proof.
  pose proof (ok_bounds A HA) as (B1 & B2 & B3 & B4).
  pose proof (expected_length ow attrs arrs) as EL. pose proof (sumw_nonneg arrs) as SN.
  split.
  - cbn [aadd a_cells a_ms]. rewrite zlen_app, zlen_map. lia.
  - cbn [aadd a_objs a_mo]. rewrite zlen_app. unfold zlen at 2. cbn [length]. lia.
  - cbn [aadd a_dps a_md]. rewrite zlen_app, zlen_map. lia.
  - exact B4.
  - cbn [aadd a_cells a_objs]. rewrite zlen_app, zlen_map. apply (chain_app 0 s); [apply HA|lia|lia].
  - cbn [aadd a_dps].
    assert (N2 : NoDup (map (fun x => s + at_offset x / 8) attrs)).
    { clear - HD HO. induction attrs as [|x l IH]; [constructor|]. cbn [map] in *.
      inversion HD; subst. constructor.
      - intros Hi. apply in_map_iff in Hi as (y & Hy & Hiy). apply H1.
        pose proof (HO x ltac:(now left)) as (_ & X & _). pose proof (HO y ltac:(now right)) as (_ & Y & _).
        apply mod8_eq in X. apply mod8_eq in Y. apply in_map_iff. exists y. split; [lia|auto].
      - apply IH; auto. intros y Hy. apply HO. now right. }
    revert N2. pose proof (ok_nodup A HA) as N1. pose proof dps_old as DO. revert N1 DO.
    generalize (a_dps A). intros l. induction l as [|a l IH]; intros N1 DO N2; [exact N2|].
    cbn [app]. inversion N1; subst. constructor.
    + intros Hi. apply in_app_or in Hi as [Hi|Hi]; [auto|].
      apply in_map_iff in Hi as (x & Hx & Hix). specialize (DO a ltac:(now left)).
      pose proof (HO x Hix) as (X1 & X2 & X3). pose proof (Z.div_pos (at_offset x) 8). lia.
    + apply IH; auto. intros k Hk. apply DO. now right.
  - intros k. cbn [a_dps aadd]. rewrite in_app_iff. split.
    + intros [H|H].
      * pose proof (dps_old k H) as R. apply (ok_ptr A HA) in H as (P & q & Hq). split; [auto|].
        exists q. rewrite aadd_cells_lo by (unfold zlen in R; lia). exact Hq.
      * apply in_map_iff in H as (x & <- & Hx). pose proof (HO x Hx) as (X1 & X2 & X3).
        pose proof (Z.div_pos (at_offset x) 8 X1 ltac:(lia)). split; [lia|].
        apply In_nth_error in Hx as (n & Hn).
        pose proof (expected_ptr ow attrs arrs HL HD HO n x Hn) as P.
        replace (Z.to_nat (s + at_offset x / 8)) with (length (a_cells A) + Z.to_nat (at_offset x / 8))%nat
          by (unfold zlen; lia).
        rewrite aadd_cells_hi, P. cbn [option_map abs_cell]. eauto.
    + intros (P & q & Hq).
      destruct (Nat.lt_ge_cases (Z.to_nat k) (length (a_cells A))) as [L|L].
      * left. rewrite aadd_cells_lo in Hq by assumption. apply (ok_ptr A HA). eauto.
      * right. replace (Z.to_nat k) with (length (a_cells A) + (Z.to_nat k - length (a_cells A)))%nat in Hq by lia.
        rewrite aadd_cells_hi in Hq.
        destruct (nth_error E (Z.to_nat k - length (a_cells A))) as [c|] eqn:Ec; [|discriminate].
        apply (expected_cases ow attrs arrs HL HD HO) in Ec as
          [(n & x & Hx & Ek & ->)|[(_ & _ & ->)|(j & w & _ & _ & ->)]]; cbn in Hq; try discriminate.
        apply in_map_iff. exists x. split; [unfold zlen; lia|]. eapply nth_error_In; eauto.
  - intros k q Hq. cbn [a_cells aadd]. rewrite zlen_app, zlen_map, EL.
    destruct (Nat.lt_ge_cases k (length (a_cells A))) as [L|L].
    + rewrite aadd_cells_lo in Hq by assumption. apply (ok_target A HA) in Hq. lia.
    + replace k with (length (a_cells A) + (k - length (a_cells A)))%nat in Hq by lia.
      rewrite aadd_cells_hi in Hq.
      destruct (nth_error E (k - length (a_cells A))) as [c|] eqn:Ec; [|discriminate].
      apply (expected_cases ow attrs arrs HL HD HO) in Ec as
        [(n & x & Hx & Ek & ->)|[(_ & _ & ->)|(j & w & _ & _ & ->)]]; cbn [option_map abs_cell] in Hq; try discriminate.
      assert (Eq : s + 8 * (wcount ow + sumw (firstn n arrs)) / 8 = q) by congruence.
      rewrite (Z.mul_comm 8), Z.div_mul in Eq by lia.
      pose proof (sumw_firstn_le n arrs). pose proof (sumw_nonneg (firstn n arrs)). lia.
Qed.

Lemma aadd_content : acontent A' = acontent A ++ [(t, E)].
Proof.
  unfold acontent. cbn [aadd a_objs a_cells]. rewrite map_app. f_equal.
  - apply map_ext_in. intros [[s0 n0] t0] Hi. f_equal. f_equal.
    apply In_nth_error in Hi as (i & Hi).
    pose proof (chain_nth _ _ _ _ _ _ _ (ok_chain A HA) Hi) as (C1 & C2 & C3).
    unfold slice. rewrite skipn_app, firstn_app, skipn_length.
    unfold zlen in C3.
    replace (Z.to_nat n0 - (length (a_cells A) - Z.to_nat s0))%nat with O by lia.
    rewrite firstn_O. apply app_nil_r.
  - cbn [map]. do 2 f_equal. unfold slice, zlen. rewrite !Nat2Z.id.
    rewrite skipn_app, skipn_all, Nat.sub_diag. cbn [skipn app].
    rewrite firstn_all2 by (rewrite map_length; lia).
    rewrite map_map. rewrite <- (map_id E) at 2. apply map_ext_in. intros c Hc.
    apply In_nth_error in Hc as (k & Hk).
    apply (expected_cases ow attrs arrs HL HD HO) in Hk as
      [(n & x & Hx & Ek & ->)|[(_ & _ & ->)|(j & w & _ & _ & ->)]]; cbn [abs_cell rel_cell]; try reflexivity.
    f_equal. rewrite (Z.mul_comm 8 (wcount ow + _)), Z.div_mul by lia. lia.
Qed.
End Aadd.
