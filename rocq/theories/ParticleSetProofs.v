(* Proofs about ParticleSet.v.  Every well-formed set is the set [pset_of l] of a list
   of particles, and the operations become list operations on l. *)
From Coq Require Import ZArith List Bool Lia.
From Verif Require Import Num Particle Elements DispatchProofs ParticleSet.
Import ListNotations.
Local Open Scope Z_scope.

(* ---- arrays ---- *)
Lemma aget_nth : forall A (l : list A) i, 0 <= i -> aget l i = nth_error l (Z.to_nat i).
Proof. intros. unfold aget. replace (0 <=? i) with true by lia. reflexivity. Qed.

Lemma aget_neg : forall A (l : list A) i, i < 0 -> aget l i = None.
Proof. intros. unfold aget. replace (0 <=? i) with false by lia. reflexivity. Qed.

Lemma aget_map : forall A B (f : A -> B) l i, aget (map f l) i = option_map f (aget l i).
Proof. intros. unfold aget. destruct (0 <=? i); [apply nth_error_map|reflexivity]. Qed.

Lemma aget_some : forall A (l : list A) i, 0 <= i < Z.of_nat (length l) -> exists v, aget l i = Some v.
Proof.
  intros. rewrite aget_nth by lia. destruct (nth_error l (Z.to_nat i)) eqn:E; eauto.
  apply nth_error_None in E. lia.
Qed.

Lemma aget_none : forall A (l : list A) i, ~ (0 <= i < Z.of_nat (length l)) -> aget l i = None.
Proof.
  intros. destruct (Z_lt_dec i 0); [now apply aget_neg|].
  rewrite aget_nth by lia. apply nth_error_None. lia.
Qed.

Lemma aput_map : forall A B (f : A -> B) l i v, 0 <= i < Z.of_nat (length l) ->
  aput (map f l) i (f v) = Some (map f (upd l (Z.to_nat i) v)).
Proof.
  intros. unfold aput. rewrite map_length.
  replace ((0 <=? i) && (i <? Z.of_nat (length l))) with true by lia. now rewrite map_upd.
Qed.

Lemma aput_ok : forall A (l : list A) i v, 0 <= i < Z.of_nat (length l) ->
  aput l i v = Some (upd l (Z.to_nat i) v).
Proof.
  intros. unfold aput.
  replace ((0 <=? i) && (i <? Z.of_nat (length l))) with true by lia. reflexivity.
Qed.

Lemma aget_upd : forall A (l : list A) i j v, 0 <= i < Z.of_nat (length l) ->
  aget (upd l (Z.to_nat i) v) j = if j =? i then Some v else aget l j.
Proof.
  intros A l i j v H. destruct (Z_lt_dec j 0).
  - rewrite !aget_neg by lia. replace (j =? i) with false by lia. reflexivity.
  - rewrite !aget_nth by lia. destruct (Z.eqb_spec j i) as [->|n0].
    + apply upd_same. lia.
    + apply upd_other. lia.
Qed.

Lemma nth_error_ext : forall A (l1 l2 : list A), (forall n, nth_error l1 n = nth_error l2 n) -> l1 = l2.
Proof.
  induction l1 as [|a l1 IH]; intros [|b l2] H; auto.
  - specialize (H O); discriminate.
  - specialize (H O); discriminate.
  - f_equal; [specialize (H O); cbn in H; congruence|]. apply IH. intros n. exact (H (S n)).
Qed.

Lemma aget_ext : forall A (l1 l2 : list A), (forall i, aget l1 i = aget l2 i) -> l1 = l2.
Proof.
  intros A l1 l2 H. apply nth_error_ext. intros n.
  specialize (H (Z.of_nat n)). rewrite !aget_nth, !Nat2Z.id in H by lia. exact H.
Qed.

(* the list after copying a range *)
Definition lcopy {A} (dst : list A) (d : Z) (src : list A) (s n : Z) : list A :=
  firstn (Z.to_nat d) dst ++ firstn (Z.to_nat n) (skipn (Z.to_nat s) src) ++
  skipn (Z.to_nat (d + n)) dst.

Definition range_ok {A} (dst : list A) (d : Z) (src : list A) (s n : Z) : Prop :=
  0 <= d /\ 0 <= s /\ 0 <= n /\ d + n <= Z.of_nat (length dst) /\ s + n <= Z.of_nat (length src).

Lemma acopy_map : forall A B (f : A -> B) dst d src s n, range_ok dst d src s n ->
  acopy (map f dst) d (map f src) s n = Some (map f (lcopy dst d src s n)).
Proof.
  intros A B f dst d src s n (H1 & H2 & H3 & H4 & H5). unfold acopy, lcopy.
  rewrite !map_length. replace (_ && _) with true by lia.
  now rewrite !map_app, <- !firstn_map, <- !skipn_map.
Qed.

Lemma lcopy_length : forall A (dst : list A) d src s n, range_ok dst d src s n ->
  length (lcopy dst d src s n) = length dst.
Proof.
  intros A dst d src s n (H1 & H2 & H3 & H4 & H5). unfold lcopy.
  rewrite !app_length, !firstn_length, !skipn_length. lia.
Qed.

Lemma nth_error_firstn_lt : forall A (l : list A) n i, (i < n)%nat -> nth_error (firstn n l) i = nth_error l i.
Proof.
  induction l as [|a l IH]; intros [|n] [|i] H; cbn; auto; try lia. apply IH; lia.
Qed.

Lemma nth_error_skipn : forall A (l : list A) n i, nth_error (skipn n l) i = nth_error l (n + i).
Proof.
  induction l as [|a l IH]; intros [|n] i; cbn; auto. destruct i; reflexivity.
Qed.

Lemma aget_lcopy : forall A (dst : list A) d src s n j, range_ok dst d src s n ->
  aget (lcopy dst d src s n) j =
    if (d <=? j) && (j <? d + n) then aget src (s + (j - d)) else aget dst j.
Proof.
  intros A dst d src s n j (H1 & H2 & H3 & H4 & H5).
  destruct (Z_lt_dec j 0).
  { rewrite aget_neg by lia. replace (_ && _) with false by lia. now rewrite aget_neg. }
  rewrite aget_nth by lia. unfold lcopy.
  assert (L1 : length (firstn (Z.to_nat d) dst) = Z.to_nat d) by (rewrite firstn_length; lia).
  assert (L2 : length (firstn (Z.to_nat n) (skipn (Z.to_nat s) src)) = Z.to_nat n)
    by (rewrite firstn_length, skipn_length; lia).
  destruct (Z_lt_dec j d).
  { replace (_ && _) with false by lia. rewrite nth_error_app1 by lia.
    rewrite nth_error_firstn_lt by lia. now rewrite aget_nth by lia. }
  rewrite nth_error_app2 by lia. rewrite L1.
  destruct (Z_lt_dec j (d + n)).
  { replace (_ && _) with true by lia. rewrite nth_error_app1 by lia.
    rewrite nth_error_firstn_lt, nth_error_skipn by lia. rewrite aget_nth by lia.
    f_equal. lia. }
  replace (_ && _) with false by lia. rewrite nth_error_app2 by lia. rewrite L2.
  rewrite nth_error_skipn, aget_nth by lia. f_equal. lia.
Qed.

Lemma map_repeat : forall A B (f : A -> B) v n, map f (repeat v n) = repeat (f v) n.
Proof. intros A B f v n. induction n; cbn; congruence. Qed.

Lemma afill_map : forall A B (f : A -> B) l d n v, 0 <= d -> 0 <= n -> d + n <= Z.of_nat (length l) ->
  afill (map f l) d n (f v) = Some (map f (lcopy l d (repeat v (Z.to_nat n)) 0 n)).
Proof.
  intros A B f l d n v H1 H2 H3. unfold afill, lcopy. rewrite map_length.
  replace (_ && _) with true by lia.
  change (skipn (Z.to_nat 0) (repeat v (Z.to_nat n))) with (repeat v (Z.to_nat n)).
  rewrite (firstn_all2 (repeat v (Z.to_nat n))) by (rewrite repeat_length; lia).
  now rewrite !map_app, <- !firstn_map, <- !skipn_map, map_repeat.
Qed.

(* ---- sets as lists of particles ---- *)
Section S.
Context {T : Type}.
Implicit Types (l ld ls : list (particle T)) (p dest src : pset T).

Lemma pset_of_wf : forall l, pset_wf (pset_of l).
Proof. intros l. unfold pset_wf, pset_of; cbn. rewrite !map_length. repeat split; lia. Qed.

Lemma pset_of_num : forall l, ps_num (pset_of l) = Z.of_nat (length l).
Proof. reflexivity. Qed.

Lemma particle_eta' : forall q : particle T,
  mkParticle (p_q0 q) (p_mass0 q) (p_beta0 q) (p_gamma0 q) (p_p0c q) (p_s q) (p_x q) (p_y q)
    (p_px q) (p_py q) (p_zeta q) (p_psigma q) (p_delta q) (p_rpp q) (p_rvv q) (p_chi q)
    (p_charge_ratio q) (p_particle_id q) (p_at_element_id q) (p_at_turn q) (p_state q) = q.
Proof. intros []; reflexivity. Qed.

Lemma pset_at_of : forall l i, pset_at (pset_of l) i = aget l i.
Proof.
  intros l i. unfold pset_at, pset_of.
  cbn [ps_q0 ps_mass0 ps_beta0 ps_gamma0 ps_p0c ps_s ps_x ps_y ps_px ps_py ps_zeta ps_psigma
       ps_delta ps_rpp ps_rvv ps_chi ps_charge_ratio ps_particle_id ps_at_element_id ps_at_turn
       ps_state].
  rewrite !aget_map. destruct (aget l i) as [q|]; [|reflexivity].
  cbn [option_map obind]. now rewrite particle_eta'.
Qed.

Lemma map_nth_seq : forall A (l : list A) d, map (fun i => nth i l d) (seq 0 (length l)) = l.
Proof.
  intros A l d. induction l as [|a l IH]; [reflexivity|]. cbn. f_equal.
  rewrite <- seq_shift, map_map. exact IH.
Qed.

Lemma wf_pset_of : forall p, pset_wf p -> exists l, p = pset_of l.
Proof.
  intros p H. unfold pset_wf in H.
  destruct p as [n a1 a2 a3 a4 a5 a6 a7 a8 a9 a10 a11 a12 a13 a14 a15 a16 a17 b1 b2 b3 b4].
  cbn in H.
  destruct a1 as [|d a1'] eqn:Ea.
  { decompose [and] H; clear H. cbn in *. subst n.
    repeat match goal with H : Z.of_nat (length ?l) = 0 |- _ =>
      is_var l; destruct l; cbn in H; [clear H|lia] end.
    exists []. reflexivity. }
  rewrite <- Ea in *. clear a1' Ea.
  set (m := Z.to_nat n).
  exists (map (fun i => mkParticle (nth i a1 d) (nth i a2 d) (nth i a3 d) (nth i a4 d)
     (nth i a5 d) (nth i a6 d) (nth i a7 d) (nth i a8 d) (nth i a9 d) (nth i a10 d)
     (nth i a11 d) (nth i a12 d) (nth i a13 d) (nth i a14 d) (nth i a15 d) (nth i a16 d)
     (nth i a17 d) (nth i b1 0) (nth i b2 0) (nth i b3 0) (nth i b4 0)) (seq 0 m)).
  unfold pset_of. rewrite !map_map. cbn [p_q0 p_mass0 p_beta0 p_gamma0 p_p0c p_s p_x p_y p_px
    p_py p_zeta p_psigma p_delta p_rpp p_rvv p_chi p_charge_ratio p_particle_id p_at_element_id
    p_at_turn p_state].
  rewrite map_length, seq_length.
  decompose [and] H; clear H.
  assert (L : forall A (l : list A) e, Z.of_nat (length l) = n ->
     map (fun x => nth x l e) (seq 0 m) = l).
  { intros A l e Hl. replace m with (length l) by (unfold m; lia). apply map_nth_seq. }
  rewrite !L by assumption. replace (Z.of_nat m) with n by (unfold m; lia). reflexivity.
Qed.

Lemma pset_ext : forall p1 p2, pset_wf p1 -> pset_wf p2 -> (forall i, pset_at p1 i = pset_at p2 i) ->
  p1 = p2.
Proof.
  intros p1 p2 H1 H2 H. apply wf_pset_of in H1 as (l1 & ->). apply wf_pset_of in H2 as (l2 & ->).
  f_equal. apply aget_ext. intros i. specialize (H i). now rewrite !pset_at_of in H.
Qed.

Lemma pset_at_some : forall p i, pset_wf p -> 0 <= i < ps_num p -> exists q, pset_at p i = Some q.
Proof.
  intros p i H Hi. apply wf_pset_of in H as (l & ->). rewrite pset_at_of. now apply aget_some.
Qed.

Lemma pset_at_none : forall p i, pset_wf p -> ~ (0 <= i < ps_num p) -> pset_at p i = None.
Proof.
  intros p i H Hi. apply wf_pset_of in H as (l & ->). rewrite pset_at_of. now apply aget_none.
Qed.

(* one attribute *)
Lemma copy_value_ok : forall A (get : pset T -> list A) put (f : particle T -> A) di ls si q l d,
  0 <= di < Z.of_nat (length l) -> aget ls si = Some q ->
  get (pset_of ls) = map f ls -> get d = map f l ->
  copy_value get put di (pset_of ls) si d = Some (put (map f (upd l (Z.to_nat di) q)) d).
Proof.
  intros A get put f di ls si q l d Hdi Hq Hs Hd. unfold copy_value.
  rewrite Hs, aget_map, Hq. cbn [option_map obind]. rewrite Hd, aput_map by assumption.
  reflexivity.
Qed.

Lemma obind_some : forall A B (m : option A) (f : A -> option B) a r,
  m = Some a -> f a = r -> obind m f = r.
Proof. intros A B m f a r -> H. exact H. Qed.

(* keeps the set an explicit record *)
Ltac pred := cbn [obind ps_num
  ps_q0 ps_mass0 ps_beta0 ps_gamma0 ps_p0c ps_s ps_x ps_y ps_px ps_py ps_zeta ps_psigma
  ps_delta ps_rpp ps_rvv ps_chi ps_charge_ratio ps_particle_id ps_at_element_id ps_at_turn
  ps_state with_q0 with_mass0 with_beta0 with_gamma0 with_p0c with_s with_x with_y with_px
  with_py with_zeta with_psigma with_delta with_rpp with_rvv with_chi with_charge_ratio
  with_particle_id with_at_element_id with_at_turn with_state].

Lemma copy_all_ok : forall di ls si q l, 0 <= di < Z.of_nat (length l) -> aget ls si = Some q ->
  copy_all_values di (pset_of ls) si (pset_of l) = Some (pset_of (upd l (Z.to_nat di) q)).
Proof.
  intros di ls si q l Hdi Hq. unfold copy_all_values, pset_of at 2; pred.
  repeat (eapply obind_some; [eapply copy_value_ok; first [eassumption | reflexivity]|]; pred).
  unfold pset_of. rewrite upd_length. reflexivity.
Qed.

(* ranges *)
Lemma copy_values_ok : forall A (get : pset T -> list A) put (f : particle T -> A) ds ls ss n l d,
  range_ok l ds ls ss n ->
  get (pset_of ls) = map f ls -> get d = map f l ->
  copy_values get put ds (pset_of ls) ss n d = Some (put (map f (lcopy l ds ls ss n)) d).
Proof.
  intros A get put f ds ls ss n l d Hr Hs Hd. unfold copy_values.
  rewrite Hs, Hd, acopy_map by assumption. reflexivity.
Qed.

Lemma copy_all_ranges_ok : forall ds ls ss n l, range_ok l ds ls ss n ->
  copy_all_ranges ds (pset_of ls) ss n (pset_of l) = Some (pset_of (lcopy l ds ls ss n)).
Proof.
  intros ds ls ss n l Hr. unfold copy_all_ranges, pset_of at 2; pred.
  repeat (eapply obind_some; [eapply copy_values_ok; first [eassumption | reflexivity]|]; pred).
  unfold pset_of. rewrite lcopy_length by assumption. reflexivity.
Qed.

(* setting all attributes *)
Lemma set_value_ok : forall A (get : pset T -> list A) put (f : particle T -> A) i q l d v,
  0 <= i < Z.of_nat (length l) -> get d = map f l -> v = f q ->
  set_value get put i v d = Some (put (map f (upd l (Z.to_nat i) q)) d).
Proof.
  intros A get put f i q l d v Hi Hd ->. unfold set_value. rewrite Hd, aput_map by assumption.
  reflexivity.
Qed.

Lemma fill_values_ok : forall A (get : pset T -> list A) put (f : particle T -> A) ds n q l d v,
  0 <= ds -> 0 <= n -> ds + n <= Z.of_nat (length l) -> get d = map f l -> v = f q ->
  fill_values get put ds n v d = Some (put (map f (lcopy l ds (repeat q (Z.to_nat n)) 0 n)) d).
Proof.
  intros A get put f ds n q l d v H1 H2 H3 Hd ->. unfold fill_values.
  rewrite Hd, afill_map by assumption. reflexivity.
Qed.

Definition cleared (z : T) : particle T :=
  mkParticle z z z z z z z z z z z z z z z z z 0 0 0 0.
Definition preset_part (z : T) : particle T :=
  mkParticle z z z z z z z z z z z z z z z z z (-1) (-1) (-1) 1.

Lemma preset_value_ok : forall z i l, 0 <= i < Z.of_nat (length l) ->
  preset_value z i (pset_of l) = Some (pset_of (upd l (Z.to_nat i) (preset_part z))).
Proof.
  intros z i l Hi. unfold preset_value, pset_of at 1; pred.
  repeat (eapply obind_some; [eapply (set_value_ok _ _ _ _ _ (preset_part z)); first [eassumption | reflexivity]|]; pred).
  unfold pset_of. rewrite upd_length. reflexivity.
Qed.

Lemma clear_single_ok : forall z i l, 0 <= i < Z.of_nat (length l) ->
  clear_single z (pset_of l) i = Some (pset_of (upd l (Z.to_nat i) (cleared z))).
Proof.
  intros z i l Hi. unfold clear_single. rewrite pset_of_num.
  replace (_ && _) with true by lia. cbv zeta. unfold pset_of at 1; pred.
  repeat (eapply obind_some; [eapply (set_value_ok _ _ _ _ _ (cleared z)); first [eassumption | reflexivity]|]; pred).
  unfold pset_of. rewrite upd_length. reflexivity.
Qed.

Lemma clear_range_ok : forall z l a b, 0 <= a <= b -> b <= Z.of_nat (length l) ->
  clear_range z (pset_of l) a b =
    Some (pset_of (lcopy l a (repeat (cleared z) (Z.to_nat (b - a))) 0 (b - a))).
Proof.
  intros z l a b Ha Hb. unfold clear_range. rewrite pset_of_num.
  replace (_ && _ && _) with true by lia. cbv zeta.
  assert (L1 : 0 <= a) by lia. assert (L2 : 0 <= b - a) by lia.
  assert (L3 : a + (b - a) <= Z.of_nat (length l)) by lia.
  unfold pset_of at 1; pred.
  repeat (eapply obind_some; [eapply (fill_values_ok _ _ _ _ _ _ (cleared z)); first [eassumption | reflexivity]|]; pred).
  unfold pset_of. rewrite lcopy_length; [reflexivity|].
  unfold range_ok. rewrite repeat_length. lia.
Qed.

Lemma preset_loop : forall z n i l, 0 <= i -> i + Z.of_nat n <= Z.of_nat (length l) ->
  exists l', for_from (@preset_value T z) i n (pset_of l) = Some (pset_of l') /\
    length l' = length l /\
    forall j, aget l' j = if (i <=? j) && (j <? i + Z.of_nat n) then Some (preset_part z) else aget l j.
Proof.
  intros z n. induction n as [|n IH]; intros i l Hi Hn.
  - exists l. cbn. repeat split; auto. intros j. replace (_ && _) with false by lia. reflexivity.
  - cbn [for_from]. rewrite preset_value_ok by lia. cbn [obind].
    destruct (IH (i + 1) (upd l (Z.to_nat i) (preset_part z))) as (l' & E & L & G);
      [lia|rewrite upd_length; lia|].
    exists l'. rewrite E. split; [reflexivity|]. rewrite upd_length in L. split; [exact L|].
    intros j. rewrite G, aget_upd by lia.
    destruct (Z.eqb_spec j i) as [->|n0].
    + rewrite (Z.leb_refl i). assert (X : i < i + Z.of_nat (S n)) by (clear; lia).
      apply Z.ltb_lt in X. rewrite X. cbn [andb].
      now destruct ((i + 1 <=? i) && (i <? i + 1 + Z.of_nat n)).
    + assert (X : (i + 1 <=? j) && (j <? i + 1 + Z.of_nat n) = (i <=? j) && (j <? i + Z.of_nat (S n))).
      { apply eq_true_iff_eq. rewrite !andb_true_iff, !Z.leb_le, !Z.ltb_lt. clear - n0. lia. }
      now rewrite X.
Qed.

(* ---- statements on well-formed sets ---- *)

Lemma copy_single_spec : forall dest di src si q,
  pset_wf dest -> pset_wf src -> 0 <= di < ps_num dest -> pset_at src si = Some q ->
  exists d', copy_single dest di src si = Some (d', SUCCESS) /\ pset_wf d' /\
    ps_num d' = ps_num dest /\
    forall j, pset_at d' j = if j =? di then Some q else pset_at dest j.
Proof.
  intros dest di src si q Hd Hs Hdi Hq.
  apply wf_pset_of in Hd as (l & ->). apply wf_pset_of in Hs as (ls & ->).
  rewrite pset_of_num in *. rewrite pset_at_of in Hq.
  assert (Hsi : 0 <= si < Z.of_nat (length ls)).
  { destruct (Z_le_gt_dec 0 si); [|rewrite aget_neg in Hq by lia; discriminate].
    destruct (Z_lt_dec si (Z.of_nat (length ls))); [lia|].
    rewrite aget_none in Hq by lia; discriminate. }
  exists (pset_of (upd l (Z.to_nat di) q)).
  unfold copy_single. rewrite !pset_of_num.
  replace ((di <? 0) || (Z.of_nat (length l) <? di)) with false by lia.
  replace (_ && _) with true by lia.
  rewrite copy_all_ok with (q := q) by (auto; lia). cbn [obind].
  split; [reflexivity|]. split; [apply pset_of_wf|]. split; [now rewrite ?pset_of_num, upd_length|].
  intros j. rewrite !pset_at_of. now apply aget_upd.
Qed.

Lemma copy_from_spec : forall dest di src si q,
  pset_wf dest -> pset_wf src -> 0 <= di < ps_num dest -> pset_at src si = Some q ->
  exists d', copy_from_generic dest di src si = Some (d', SUCCESS) /\ pset_wf d' /\
    ps_num d' = ps_num dest /\
    forall j, pset_at d' j = if j =? di then Some q else pset_at dest j.
Proof.
  intros dest di src si q Hd Hs Hdi Hq.
  apply wf_pset_of in Hd as (l & ->). apply wf_pset_of in Hs as (ls & ->).
  rewrite pset_of_num in *. rewrite pset_at_of in Hq.
  assert (Hsi : 0 <= si < Z.of_nat (length ls)).
  { destruct (Z_le_gt_dec 0 si); [|rewrite aget_neg in Hq by lia; discriminate].
    destruct (Z_lt_dec si (Z.of_nat (length ls))); [lia|].
    rewrite aget_none in Hq by lia; discriminate. }
  exists (pset_of (upd l (Z.to_nat di) q)).
  unfold copy_from_generic. rewrite !pset_of_num.
  replace (_ && _) with true by lia.
  rewrite copy_all_ok with (q := q) by (auto; lia). cbn [obind].
  split; [reflexivity|]. split; [apply pset_of_wf|]. split; [now rewrite ?pset_of_num, upd_length|].
  intros j. rewrite !pset_at_of. now apply aget_upd.
Qed.

Lemma copy_to_spec : forall dest di src si q,
  pset_wf dest -> pset_wf src -> 0 <= di < ps_num dest -> pset_at src si = Some q ->
  exists d', copy_to_generic dest di src si = Some (d', SUCCESS) /\ pset_wf d' /\
    ps_num d' = ps_num dest /\
    forall j, pset_at d' j = if j =? di then Some q else pset_at dest j.
Proof. exact copy_from_spec. Qed.

Lemma copy_single_fail : forall dest di src si,
  (~ (0 <= si < ps_num src) \/ di = ps_num dest) ->
  copy_single dest di src si = Some (dest, FAILURE).
Proof.
  intros dest di src si H. unfold copy_single. cbv zeta.
  destruct H as [H| ->].
  - destruct ((0 <=? si) && (si <? ps_num src)) eqn:E; [lia|]. reflexivity.
  - destruct (Z_lt_dec (ps_num dest) 0).
    + replace (ps_num dest <? 0) with true by lia. cbn [orb].
      destruct (si <? ps_num dest) eqn:E; [destruct (0 <=? si) eqn:E2; [lia|reflexivity]|].
      replace (0 <=? ps_num dest) with false by lia.
      now rewrite andb_false_r.
    + replace ((ps_num dest <? 0) || (ps_num dest <? ps_num dest)) with false by lia.
      rewrite (Z.ltb_irrefl (ps_num dest)), andb_false_r. reflexivity.
Qed.

Lemma copy_range_spec : forall dest src ss se ds,
  pset_wf dest -> pset_wf src -> 0 <= ss <= se -> se <= ps_num src ->
  0 <= ds < ps_num dest -> ds + (se - ss) <= ps_num dest ->
  exists d', copy_range dest src ss se ds = Some (d', SUCCESS) /\ pset_wf d' /\
    ps_num d' = ps_num dest /\
    forall j, pset_at d' j =
      if (ds <=? j) && (j <? ds + (se - ss)) then pset_at src (ss + (j - ds)) else pset_at dest j.
Proof.
  intros dest src ss se ds Hd Hs H1 H2 H3 H4.
  apply wf_pset_of in Hd as (l & ->). apply wf_pset_of in Hs as (ls & ->).
  rewrite pset_of_num in *.
  assert (Hr : range_ok l ds ls ss (se - ss)) by (unfold range_ok; lia).
  exists (pset_of (lcopy l ds ls ss (se - ss))).
  unfold copy_range. rewrite !pset_of_num. cbv zeta.
  replace (ss <=? se) with true by lia.
  replace ((ds <? 0) || (Z.of_nat (length l) <=? ds)) with false by lia.
  replace (_ && _) with true by lia.
  rewrite copy_all_ranges_ok by assumption. cbn [obind].
  split; [reflexivity|]. split; [apply pset_of_wf|].
  split; [now rewrite ?pset_of_num, lcopy_length|].
  intros j. rewrite !pset_at_of. now apply aget_lcopy.
Qed.

Lemma copy_range_fail : forall dest src ss se ds,
  (~ (0 <= ss <= se /\ se <= ps_num src) \/
   (0 <= ds < ps_num dest /\ ps_num dest < ds + (se - ss))) ->
  copy_range dest src ss se ds = Some (dest, FAILURE).
Proof.
  intros dest src ss se ds H. unfold copy_range. cbv zeta.
  destruct H as [H|H].
  - destruct ((0 <=? ss) && (ss <=? se) && (se <=? ps_num src)) eqn:E; [lia|]. reflexivity.
  - destruct ((0 <=? ss) && (ss <=? se) && (se <=? ps_num src)) eqn:E; [|reflexivity].
    replace (ss <=? se) with true by lia.
    replace ((ds <? 0) || (ps_num dest <=? ds)) with false by lia.
    replace (ds + (se - ss) <=? ps_num dest) with false by lia.
    now rewrite !andb_false_r.
Qed.

Lemma copy_set_spec : forall dest src,
  pset_wf dest -> pset_wf src -> ps_num src = ps_num dest -> 0 < ps_num src ->
  copy_set dest src = Some (src, SUCCESS).
Proof.
  intros dest src Hd Hs Hn Hp. unfold copy_set.
  replace (_ && _) with true by lia.
  destruct (copy_range_spec dest src 0 (ps_num src) 0) as (d' & E & W & N & G); auto; try lia.
  rewrite E. do 2 f_equal. apply pset_ext; [exact W|exact Hs|]. intros j. rewrite G.
  destruct ((0 <=? j) && (j <? 0 + (ps_num src - 0))) eqn:Ej.
  - f_equal; lia.
  - rewrite !pset_at_none; auto; lia.
Qed.

Lemma copy_set_fail : forall dest src, (ps_num src <> ps_num dest \/ ps_num src <= 0) ->
  copy_set dest src = Some (dest, FAILURE).
Proof. intros. unfold copy_set. replace (_ && _) with false by lia. reflexivity. Qed.

Lemma clear_spec : forall z p, pset_wf p ->
  exists p', clear z p = Some p' /\ pset_wf p' /\ ps_num p' = ps_num p /\
    forall j, 0 <= j < ps_num p -> pset_at p' j = Some (cleared z).
Proof.
  intros z p H. apply wf_pset_of in H as (l & ->). unfold clear.
  rewrite pset_of_num, clear_range_ok by lia. eexists; split; [reflexivity|].
  assert (R : range_ok l 0 (repeat (cleared z) (Z.to_nat (Z.of_nat (length l) - 0))) 0
    (Z.of_nat (length l) - 0)) by (unfold range_ok; rewrite repeat_length; lia).
  split; [apply pset_of_wf|]. split; [rewrite ?pset_of_num, lcopy_length by assumption; reflexivity|].
  intros j Hj. rewrite pset_at_of, aget_lcopy by assumption.
  replace (_ && _) with true by lia. rewrite aget_nth by lia. apply nth_error_repeat. lia.
Qed.

Lemma preset_spec : forall z p, pset_wf p ->
  exists p', preset_values z p = Some p' /\ pset_wf p' /\ ps_num p' = ps_num p /\
    forall j, 0 <= j < ps_num p -> pset_at p' j = Some (preset_part z).
Proof.
  intros z p H. apply wf_pset_of in H as (l & ->). unfold preset_values.
  rewrite pset_of_num. replace (0 <=? Z.of_nat (length l)) with true by (symmetry; apply Z.leb_le; lia).
  destruct (preset_loop z (Z.to_nat (Z.of_nat (length l))) 0 l) as (l' & E & L & G); [lia|lia|].
  exists (pset_of l'). split; [exact E|]. split; [apply pset_of_wf|].
  split; [rewrite ?pset_of_num; lia|].
  intros j Hj. rewrite pset_at_of, G.
  assert (X : (0 <=? j) && (j <? 0 + Z.of_nat (Z.to_nat (Z.of_nat (length l)))) = true)
    by (rewrite andb_true_iff, Z.leb_le, Z.ltb_lt; lia).
  now rewrite X.
Qed.

Lemma clear_range_spec : forall z p a b, pset_wf p -> 0 <= a <= b -> b <= ps_num p ->
  exists p', clear_range z p a b = Some p' /\ pset_wf p' /\ ps_num p' = ps_num p /\
    forall j, pset_at p' j =
      if (a <=? j) && (j <? b) then Some (cleared z) else pset_at p j.
Proof.
  intros z p a b H Ha Hb. apply wf_pset_of in H as (l & ->). rewrite pset_of_num in *.
  rewrite clear_range_ok by lia. eexists; split; [reflexivity|].
  assert (R : range_ok l a (repeat (cleared z) (Z.to_nat (b - a))) 0 (b - a))
    by (unfold range_ok; rewrite repeat_length; lia).
  split; [apply pset_of_wf|]. split; [rewrite ?pset_of_num, lcopy_length by assumption; reflexivity|].
  intros j. rewrite !pset_at_of, aget_lcopy by assumption.
  replace (a + (b - a)) with b by lia.
  destruct ((a <=? j) && (j <? b)) eqn:E; [|reflexivity].
  rewrite aget_nth by lia. apply nth_error_repeat. lia.
Qed.

Lemma flat_one : forall reals indices, length reals = 17%nat -> length indices = 4%nat ->
  exists p q, init_from_flat_arrays 1 reals indices = Some p /\ p = pset_of [q].
Proof.
  intros reals indices Hr Hi.
  do 17 (destruct reals as [|? reals]; [discriminate|]). destruct reals; [|discriminate].
  do 4 (destruct indices as [|? indices]; [discriminate|]). destruct indices; [|discriminate].
  do 2 eexists. split; [reflexivity|].
  instantiate (1 := mkParticle _ _ _ _ _ _ _ _ _ _ _ _ _ _ _ _ _ _ _ _ _). reflexivity.
Qed.

(* ---- the local one-particle set of the optimised kernels ---- *)
Lemma load_local : forall zero p i q, pset_wf p -> pset_at p i = Some q ->
  exists loc, init_from_flat_arrays 1 (repeat zero 17) (repeat 0 4) = Some loc /\
    copy_from_generic loc 0 p i = Some (pset_of [q], SUCCESS).
Proof.
  intros zero p i q Hw Hq.
  destruct (flat_one (repeat zero 17) (repeat 0 4)) as (loc & q0 & E & ->); [reflexivity|reflexivity|].
  exists (pset_of [q0]). split; [exact E|].
  destruct (copy_from_spec (pset_of [q0]) 0 p i q) as (d' & E' & W & N & G); auto;
    [apply pset_of_wf|cbn; lia|].
  rewrite E'. do 2 f_equal. apply pset_ext; [exact W|apply pset_of_wf|].
  intros j. rewrite G, !pset_at_of. destruct (Z.eqb_spec j 0) as [->|Hj]; [reflexivity|].
  rewrite !aget_none; [reflexivity| |]; cbn [length]; lia.
Qed.

Lemma store_local : forall p i q r, pset_wf p -> pset_at p i = Some r ->
  exists p', copy_to_generic p i (pset_of [q]) 0 = Some (p', SUCCESS) /\ pset_wf p' /\
    ps_num p' = ps_num p /\ forall j, pset_at p' j = if j =? i then Some q else pset_at p j.
Proof.
  intros p i q r Hw Hr. apply copy_to_spec; [exact Hw|apply pset_of_wf| |].
  - destruct (Z_le_gt_dec 0 i); [destruct (Z_lt_dec i (ps_num p)); [lia|]|];
      (rewrite pset_at_none in Hr by (auto; lia); discriminate).
  - now rewrite pset_at_of.
Qed.

Lemma round_trip : forall zero p i, pset_wf p -> 0 <= i < ps_num p ->
  exists loc loc', init_from_flat_arrays 1 (repeat zero 17) (repeat 0 4) = Some loc /\
    copy_from_generic loc 0 p i = Some (loc', SUCCESS) /\
    copy_to_generic p i loc' 0 = Some (p, SUCCESS).
Proof.
  intros zero p i Hw Hi. destruct (pset_at_some p i Hw Hi) as (q & Hq).
  destruct (load_local zero p i q Hw Hq) as (loc & E1 & E2).
  exists loc, (pset_of [q]). split; [exact E1|]. split; [exact E2|].
  destruct (store_local p i q q Hw Hq) as (p' & E & W & N & G).
  rewrite E. do 2 f_equal. apply pset_ext; [exact W|exact Hw|].
  intros j. rewrite G. destruct (Z.eqb_spec j i) as [->|]; [now symmetry|reflexivity].
Qed.

Lemma store_load : forall zero p i loc, pset_wf p -> 0 <= i < ps_num p -> pset_wf loc ->
  ps_num loc = 1 ->
  exists p' loc0, copy_to_generic p i loc 0 = Some (p', SUCCESS) /\
    (forall j, j <> i -> pset_at p' j = pset_at p j) /\
    init_from_flat_arrays 1 (repeat zero 17) (repeat 0 4) = Some loc0 /\
    copy_from_generic loc0 0 p' i = Some (loc, SUCCESS).
Proof.
  intros zero p i loc Hw Hi Hl Hn. apply wf_pset_of in Hl as (l & ->).
  rewrite pset_of_num in Hn. destruct l as [|q [|? ?]]; cbn in Hn; try lia.
  destruct (pset_at_some p i Hw Hi) as (r & Hr).
  destruct (store_local p i q r Hw Hr) as (p' & E & W & N & G).
  destruct (load_local zero p' i q W) as (loc0 & E1 & E2).
  { rewrite G, Z.eqb_refl. reflexivity. }
  exists p', loc0. split; [exact E|]. split; [|split; [exact E1|exact E2]].
  intros j Hj. rewrite G. replace (j =? i) with false by lia. reflexivity.
Qed.

End S.
