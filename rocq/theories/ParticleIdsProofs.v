(* Proofs about ParticleIds.v *)
From Coq Require Import ZArith List Bool Lia Permutation Sorted.
From Verif Require Import Tac Particle Elements Track DispatchProofs ParticleSet ParticleSetProofs
  ParticleIds ParticleSpec.
Import ListNotations.
Local Open Scope Z_scope.

Section S.
Context {T : Type}.
Implicit Types (p : pset T) (l : list (particle T)) (objs : list (pobj T)).

Lemma iabs_abs : forall z, iabs z = Z.abs z.
Proof. intros z. unfold iabs. destruct (Z.leb_spec 0 z); lia. Qed.

(* lo, hi: smallest and largest of lo0, hi0 and the values of f on l *)
Definition acc (f : particle T -> Z) (lo0 hi0 : Z) l (lo hi : Z) : Prop :=
  lo <= lo0 /\ hi0 <= hi /\ (forall q, In q l -> lo <= f q <= hi) /\
  (lo = lo0 \/ exists q, In q l /\ f q = lo) /\ (hi = hi0 \/ exists q, In q l /\ f q = hi).

(* the same without start values *)
Definition tight (f : particle T -> Z) l (lo hi : Z) : Prop :=
  (forall q, In q l -> lo <= f q <= hi) /\
  (exists q, In q l /\ f q = lo) /\ (exists q, In q l /\ f q = hi).

Lemma acc_nil : forall f lo hi, acc f lo hi [] lo hi.
Proof. intros. unfold acc; cbn. intuition lia. Qed.

Lemma acc_tight : forall f lo0 hi0 l1 l2 lo hi a b, acc f lo0 hi0 l1 lo hi -> tight f l2 a b ->
  acc f lo0 hi0 (l1 ++ l2) (keep_min lo a) (keep_max hi b).
Proof.
  intros f lo0 hi0 l1 l2 lo hi a b (A1 & A2 & A3 & A4 & A5) (B1 & (qa & Ia & <-) & (qb & Ib & <-)).
  unfold keep_min, keep_max. unfold acc.
  destruct (Z.ltb_spec (f qa) lo) as [La|La], (Z.ltb_spec hi (f qb)) as [Lb|Lb];
    (split; [lia|]; split; [lia|]; split;
      [intros q Iq; apply in_app_or in Iq; destruct Iq as [Iq|Iq];
       [apply A3 in Iq|apply B1 in Iq]; lia|]);
    (split;
      [first [right; exists qa; split; [apply in_or_app; now right|reflexivity]
             |destruct A4 as [->|(q & Iq & Eq)]; [now left|right; exists q; split;
                [apply in_or_app; now left|exact Eq]]]
      |first [right; exists qb; split; [apply in_or_app; now right|reflexivity]
             |destruct A5 as [->|(q & Iq & Eq)]; [now left|right; exists q; split;
                [apply in_or_app; now left|exact Eq]]]]).
Qed.

Lemma tight_one : forall f q, tight f [q] (f q) (f q).
Proof.
  intros f q. unfold tight. split; [|split].
  - intros r [->|[]]. lia.
  - exists q. cbn; auto.
  - exists q. cbn; auto.
Qed.

Lemma tight_snoc : forall f l lo hi q, tight f l lo hi ->
  tight f (l ++ [q]) (keep_min lo (f q)) (keep_max hi (f q)).
Proof.
  intros f l lo hi q (A & (qa & Ia & <-) & (qb & Ib & <-)). unfold keep_min, keep_max, tight.
  assert (Ha := A qa Ia). assert (Hb := A qb Ib).
  split; [|split].
  - intros r Ir. apply in_app_or in Ir. destruct Ir as [Ir|[<-|[]]].
    + apply A in Ir. destruct (Z.ltb_spec (f q) (f qa)), (Z.ltb_spec (f qb) (f q)); lia.
    + destruct (Z.ltb_spec (f q) (f qa)), (Z.ltb_spec (f qb) (f q)); lia.
  - destruct (Z.ltb_spec (f q) (f qa)); [exists q|exists qa];
      (split; [apply in_or_app; cbn; auto|reflexivity]).
  - destruct (Z.ltb_spec (f qb) (f q)); [exists q|exists qb];
      (split; [apply in_or_app; cbn; auto|reflexivity]).
Qed.

Definition pidabs (q : particle T) : Z := Z.abs (p_particle_id q).

Definition mtight l (m : minmax) : Prop :=
  tight pidabs l (mm_min_pid m) (mm_max_pid m) /\
  tight (@p_at_element_id T) l (mm_min_elem m) (mm_max_elem m) /\
  tight (@p_at_turn T) l (mm_min_turn m) (mm_max_turn m).

Definition macc (m0 : minmax) l (m : minmax) : Prop :=
  acc pidabs (mm_min_pid m0) (mm_max_pid m0) l (mm_min_pid m) (mm_max_pid m) /\
  acc (@p_at_element_id T) (mm_min_elem m0) (mm_max_elem m0) l (mm_min_elem m) (mm_max_elem m) /\
  acc (@p_at_turn T) (mm_min_turn m0) (mm_max_turn m0) l (mm_min_turn m) (mm_max_turn m).

Lemma aget_mid : forall A (l1 l2 : list A) a, aget (l1 ++ a :: l2) (Z.of_nat (length l1)) = Some a.
Proof.
  intros. rewrite aget_nth, Nat2Z.id by lia. rewrite nth_error_app2, Nat.sub_diag by lia. reflexivity.
Qed.

Lemma minmax_loop : forall l2 l1 m, mtight l1 m ->
  exists m', for_from (minmax_step (pset_of (l1 ++ l2))) (Z.of_nat (length l1)) (length l2) m = Some m'
    /\ mtight (l1 ++ l2) m'.
Proof.
  induction l2 as [|q l2 IH]; intros l1 m Hm.
  - exists m. cbn. rewrite app_nil_r. auto.
  - cbn [length for_from]. unfold minmax_step at 1, pset_of at 1 2 3.
    cbn [ps_particle_id ps_at_element_id ps_at_turn].
    rewrite !aget_map, aget_mid. cbn [option_map obind].
    destruct Hm as (H1 & H2 & H3).
    edestruct (IH (l1 ++ [q])) as (m' & E & M).
    2:{ exists m'. rewrite app_length in E. cbn [length] in E.
        replace (Z.of_nat (length l1 + 1)) with (Z.of_nat (length l1) + 1) in E by lia.
        rewrite <- app_assoc in E, M. cbn [app] in E, M. split; [exact E|exact M]. }
    rewrite iabs_abs. split; [|split]; cbn [mm_min_pid mm_max_pid mm_min_elem mm_max_elem mm_min_turn mm_max_turn].
    + exact (tight_snoc pidabs l1 _ _ q H1).
    + exact (tight_snoc (@p_at_element_id T) l1 _ _ q H2).
    + exact (tight_snoc (@p_at_turn T) l1 _ _ q H3).
Qed.

Lemma find_ok : forall l1 l m0 m, l <> [] -> macc m0 l1 m ->
  exists m', find_min_max (pset_of l) m = Some (m', SUCCESS) /\ macc m0 (l1 ++ l) m'.
Proof.
  intros l1 [|q l] m0 m Hl Hm; [congruence|]. unfold find_min_max.
  rewrite pset_of_num. replace (0 <? Z.of_nat (length (q :: l))) with true by (cbn [length]; bdec).
  unfold pset_of at 1 2 3. cbn [ps_particle_id ps_at_element_id ps_at_turn].
  rewrite !aget_map. change (aget (q :: l) 0) with (Some q). cbn [option_map obind].
  replace (Z.to_nat (Z.of_nat (length (q :: l)) - 1)) with (length l) by (cbn [length]; lia).
  rewrite iabs_abs.
  destruct (minmax_loop l [q] (mkMinMax (pidabs q) (pidabs q) (p_at_element_id q) (p_at_element_id q)
     (p_at_turn q) (p_at_turn q))) as (m' & E & M).
  { split; [|split]; apply tight_one. }
  change (Z.of_nat (length [q])) with 1 in E. change ([q] ++ l) with (q :: l) in E, M.
  unfold pidabs in E. rewrite E. cbn [obind]. eexists; split; [reflexivity|].
  destruct Hm as (A1 & A2 & A3), M as (M1 & M2 & M3).
  split; [|split]; cbn [mm_min_pid mm_max_pid mm_min_elem mm_max_elem mm_min_turn mm_max_turn];
    now apply acc_tight.
Qed.

Lemma macc_nil : forall m, macc m [] m.
Proof. intros m. split; [|split]; apply acc_nil. Qed.

Lemma acc_range : forall f l lo hi (S : particle T -> Prop), acc f INT64_MAX INT64_MIN l lo hi ->
  l <> [] -> (forall q, S q <-> In q l) -> (forall q, S q -> Z.abs (f q) <= INT64_MAX) ->
  range_of S f lo hi.
Proof.
  intros f l lo hi S (A1 & A2 & A3 & A4 & A5) Hl HS HI.
  destruct l as [|q0 l]; [congruence|].
  assert (I0 : In q0 (q0 :: l)) by (now left).
  assert (H0 := A3 q0 I0). assert (B0 := HI q0 (proj2 (HS q0) I0)).
  unfold INT64_MAX, INT64_MIN in *.
  split; [|split].
  - intros q Hq. apply A3. now apply HS.
  - destruct A4 as [E|(q & Iq & Eq)].
    + exists q0. split; [now apply HS|lia].
    + exists q. split; [now apply HS|exact Eq].
  - destruct A5 as [E|(q & Iq & Eq)].
    + exists q0. split; [now apply HS|]. lia.
    + exists q. split; [now apply HS|exact Eq].
Qed.

Lemma macc_ranges : forall l m (S : particle T -> Prop), macc minmax_init l m ->
  l <> [] -> (forall q, S q <-> In q l) -> int64_values S -> ranges_of S m.
Proof.
  intros l m S (A1 & A2 & A3) Hl HS HI. split; [|split]; (eapply acc_range; [eassumption|exact Hl|exact HS|]);
    intros q Hq; specialize (HI q Hq); unfold pidabs; lia.
Qed.

Lemma member_of : forall l q, member (pset_of l) q <-> In q l.
Proof.
  intros l q. split.
  - intros (i & H). rewrite pset_at_of in H. destruct (Z_lt_dec i 0).
    + rewrite aget_neg in H by lia; discriminate.
    + rewrite aget_nth in H by lia. now apply nth_error_In in H.
  - intros H. apply In_nth_error in H as (n & H). exists (Z.of_nat n).
    rewrite pset_at_of, aget_nth, Nat2Z.id by lia. exact H.
Qed.

(* ---- one set ---- *)
Lemma get_min_max_ok : forall p, pset_wf p -> 0 < ps_num p -> int64_values (member p) ->
  exists m, get_min_max p = Some (m, SUCCESS) /\ ranges_of (member p) m.
Proof.
  intros p Hw Hn HI. apply wf_pset_of in Hw as (l & ->). rewrite pset_of_num in Hn.
  assert (Hl : l <> []) by (destruct l; [cbn in Hn; lia|congruence]).
  destruct (find_ok [] l minmax_init minmax_init Hl (macc_nil _)) as (m & E & M).
  exists m. split; [exact E|]. eapply macc_ranges; [exact M|exact Hl| |exact HI].
  intros q. apply member_of.
Qed.

Lemma get_min_max_empty : forall p, ps_num p <= 0 -> get_min_max p = Some (minmax_init, FAILURE).
Proof.
  intros p H. unfold get_min_max, find_min_max. replace (0 <? ps_num p) with false by bdec. reflexivity.
Qed.

(* ---- all sets of a buffer ---- *)
Lemma buffer_loop : forall objs l1 m0 m found, objs_wf objs ->
  (forall p, In (Part p) objs -> 0 < ps_num p) -> macc m0 l1 m ->
  exists m' l', find_min_max_buffer_loop objs m 0 found = Some (m', 0, found + num_blocks objs) /\
    macc m0 (l1 ++ l') m' /\ (forall q, In q l' <-> member_buffer objs q).
Proof.
  induction objs as [|[p|] objs IH]; intros l1 m0 m found Hw Hn Hm.
  - exists m, []. cbn. rewrite Z.add_0_r, app_nil_r. split; [reflexivity|]. split; [exact Hm|].
    intros q. split; [intros []|intros (p & [] & _)].
  - assert (Wp : pset_wf p) by (apply Hw; now left).
    assert (Np : 0 < ps_num p) by (apply Hn; now left).
    apply wf_pset_of in Wp as (l & ->). rewrite pset_of_num in Np.
    assert (Hl : l <> []) by (destruct l; [cbn in Np; lia|congruence]).
    destruct (find_ok l1 l m0 m Hl Hm) as (m1 & E1 & M1).
    destruct (IH (l1 ++ l) m0 m1 (found + 1)) as (m' & l' & E & M & G).
    + intros p Hp. apply Hw. now right.
    + intros p Hp. apply Hn. now right.
    + exact M1.
    + exists m', (l ++ l'). cbn [find_min_max_buffer_loop num_blocks]. rewrite E1. cbn [obind].
      change (SUCCESS =? 0) with true. cbv iota. change SUCCESS with 0. rewrite E.
      split; [do 2 f_equal; lia|]. split; [now rewrite app_assoc|].
      intros q. rewrite in_app_iff, G. split.
      * intros [H|(p & Ip & Hq)].
        -- exists (pset_of l). split; [now left|]. now apply member_of.
        -- exists p. split; [now right|exact Hq].
      * intros (p & [Ep|Ip] & Hq).
        -- injection Ep as <-. left. now apply member_of.
        -- right. exists p. auto.
  - destruct (IH l1 m0 m found) as (m' & l' & E & M & G); auto.
    + intros p Hp. apply Hw. now right.
    + intros p Hp. apply Hn. now right.
    + exists m', l'. cbn [find_min_max_buffer_loop num_blocks]. split; [exact E|]. split; [exact M|].
      intros q. rewrite G. split; intros (p & Ip & Hq); exists p; (split; [|exact Hq]).
      * now right.
      * destruct Ip as [Ip|Ip]; [discriminate|exact Ip].
Qed.

Lemma num_blocks_nonneg : forall objs, 0 <= num_blocks objs.
Proof. induction objs as [|[p|] objs IH]; cbn [num_blocks]; lia. Qed.

Lemma num_blocks_pos : forall objs p, In (Part p) objs -> 0 < num_blocks objs.
Proof.
  induction objs as [|[p|] objs IH]; cbn [num_blocks]; intros r H.
  - destruct H.
  - assert (X := num_blocks_nonneg objs). lia.
  - destruct H as [H|H]; [discriminate|eauto].
Qed.

Lemma get_min_max_buffer_ok : forall objs p0, objs_wf objs ->
  (forall p, In (Part p) objs -> 0 < ps_num p) -> In (Part p0) objs ->
  int64_values (member_buffer objs) ->
  exists m, get_min_max_buffer objs = Some (m, SUCCESS) /\ ranges_of (member_buffer objs) m.
Proof.
  intros objs p0 Hw Hn H0 HI.
  destruct (buffer_loop objs [] minmax_init minmax_init 0 Hw Hn (macc_nil _)) as (m & l & E & M & G).
  exists m. unfold get_min_max_buffer, find_min_max_buffer. rewrite E. cbn [obind].
  assert (X := num_blocks_pos objs p0 H0).
  replace ((0 =? 0) && (0 + num_blocks objs =? 0)) with false by bdec.
  split; [reflexivity|]. cbn [app] in M.
  eapply macc_ranges; [exact M| |intros q; symmetry; apply G|exact HI].
  assert (W := Hw p0 H0). assert (N := Hn p0 H0).
  destruct (pset_at_some p0 0 W) as (q & Hq); [lia|].
  assert (In q l) by (apply G; exists p0; split; [exact H0|exists 0; exact Hq]).
  destruct l; [contradiction|congruence].
Qed.

Lemma get_min_max_buffer_none : forall objs, (forall p, ~ In (Part p) objs) ->
  get_min_max_buffer objs = Some (minmax_init, FAILURE).
Proof.
  intros objs H. unfold get_min_max_buffer, find_min_max_buffer.
  assert (E : find_min_max_buffer_loop objs minmax_init 0 0 = Some (minmax_init, 0, 0)).
  { induction objs as [|[p|] objs IH]; cbn [find_min_max_buffer_loop].
    - reflexivity.
    - exfalso. apply (H p). now left.
    - apply IH. intros p Hp. apply (H p). now right. }
  rewrite E. reflexivity.
Qed.

(* ---- listed sets ---- *)
Lemma sets_loop : forall objs idx l1 m0 m,
  (forall i, In i idx -> exists p, aget objs i = Some (Part p) /\ pset_wf p /\ 0 < ps_num p) ->
  macc m0 l1 m ->
  exists m' l', find_min_max_sets_loop objs idx m 0 = Some (m', 0) /\
    macc m0 (l1 ++ l') m' /\ (forall q, In q l' <-> member_sets objs idx q).
Proof.
  intros objs idx. induction idx as [|i idx IH]; intros l1 m0 m Hi Hm.
  - exists m, []. cbn. rewrite app_nil_r. split; [reflexivity|]. split; [exact Hm|].
    intros q. split; [intros []|intros (i & p & [] & _)].
  - destruct (Hi i) as (p & Ep & Wp & Np); [now left|].
    assert (Wp' := Wp).
    apply wf_pset_of in Wp as (l & ->). rewrite pset_of_num in Np.
    assert (Hl : l <> []) by (destruct l; [cbn in Np; lia|congruence]).
    destruct (find_ok l1 l m0 m Hl Hm) as (m1 & E1 & M1).
    destruct (IH (l1 ++ l) m0 m1) as (m' & l' & E & M & G).
    + intros j Hj. apply Hi. now right.
    + exact M1.
    + exists m', (l ++ l'). cbn [find_min_max_sets_loop]. unfold get_const_particles.
      assert (Bi : i =? Z.of_nat (length objs) = false).
      { apply Z.eqb_neq. intros ->. rewrite aget_none in Ep by lia. discriminate. }
      rewrite Bi, Ep, pset_of_num. replace (0 <? Z.of_nat (length l)) with true by bdec.
      cbn [obind]. rewrite E1. cbn [obind].
      change (SUCCESS =? 0) with true. cbv iota. change SUCCESS with 0. rewrite E.
      split; [reflexivity|]. split; [now rewrite app_assoc|].
      intros q. rewrite in_app_iff, G. split.
      * intros [H|(j & p & Ij & Hp & Hq)].
        -- exists i, (pset_of l). split; [now left|]. split; [exact Ep|]. now apply member_of.
        -- exists j, p. split; [now right|auto].
      * intros (j & p & [->|Ij] & Hp & Hq).
        -- left. assert (p = pset_of l) by congruence. subst p. now apply member_of.
        -- right. exists j, p. auto.
Qed.

Lemma get_min_max_sets_ok : forall objs idx, idx <> [] ->
  (forall i, In i idx -> exists p, aget objs i = Some (Part p) /\ pset_wf p /\ 0 < ps_num p) ->
  int64_values (member_sets objs idx) ->
  exists m, get_min_max_sets objs idx = Some (m, SUCCESS) /\ ranges_of (member_sets objs idx) m.
Proof.
  intros objs idx Hne Hi HI.
  destruct (sets_loop objs idx [] minmax_init minmax_init Hi (macc_nil _)) as (m & l & E & M & G).
  destruct idx as [|i idx]; [congruence|].
  destruct (Hi i) as (p & Ep & Wp & Np); [now left|].
  exists m. unfold get_min_max_sets, find_min_max_sets.
  assert (0 < Z.of_nat (length objs)).
  { destruct objs; [|cbn [length]; lia]. rewrite aget_none in Ep by (cbn [length]; lia). discriminate. }
  replace (_ && _) with true by (cbn [length]; bdec).
  rewrite E. split; [reflexivity|]. cbn [app] in M.
  eapply macc_ranges; [exact M| |intros q; symmetry; apply G|exact HI].
  destruct (pset_at_some p 0 Wp) as (q & Hq); [lia|].
  assert (In q l) by (apply G; exists i, p; split; [now left|split; [exact Ep|exists 0; exact Hq]]).
  destruct l; [contradiction|congruence].
Qed.

(* an index that is no particle set makes the call fail *)
Lemma get_min_max_sets_bad : forall objs idx i,
  (forall j, In j idx -> j <> Z.of_nat (length objs)) -> objs_wf objs ->
  In i idx -> (forall p, aget objs i <> Some (Part p)) ->
  exists m, get_min_max_sets objs idx = Some (m, -1).
Proof.
  intros objs idx i Hj Hw Hi Hp. unfold get_min_max_sets, find_min_max_sets.
  destruct ((0 <? Z.of_nat (length idx)) && (0 <? Z.of_nat (length objs))); [|eauto].
  generalize minmax_init. generalize 0.
  revert Hi. induction idx as [|j idx IH]; intros Hi st m; [destruct Hi|].
  cbn [find_min_max_sets_loop]. unfold get_const_particles.
  assert (Bj : j =? Z.of_nat (length objs) = false) by (apply Z.eqb_neq, Hj; now left).
  rewrite Bj.
  destruct Hi as [->|Hi].
  - destruct (aget objs i) as [[p|]|] eqn:E; [exfalso; now apply (Hp p)| |]; cbn [obind]; eauto.
  - destruct (aget objs j) as [[p|]|] eqn:E; cbn [obind]; eauto.
    destruct (0 <? ps_num p) eqn:En; cbn [obind]; eauto.
    assert (Wp : pset_wf p).
    { apply Hw. destruct (Z_lt_dec j 0); [rewrite aget_neg in E by lia; discriminate|].
      rewrite aget_nth in E by lia. now apply nth_error_In in E. }
    apply wf_pset_of in Wp as (l & ->). rewrite pset_of_num in En.
    assert (Hl : l <> []) by (destruct l; [cbn in En; lia|congruence]).
    destruct (find_ok [] l m m Hl (macc_nil _)) as (m1 & E1 & _). rewrite E1. cbn [obind].
    change (SUCCESS =? 0) with true. cbv iota.
    apply IH; [|exact Hi]. intros k Hk. apply Hj. now right.
Qed.

(* ---- one attribute ---- *)
Lemma range_loop : forall (f : particle T -> Z) l2 l1 lo hi, tight f l1 lo hi ->
  exists r, for_from (range_step (map f (l1 ++ l2))) (Z.of_nat (length l1)) (length l2) (lo, hi) = Some r
    /\ tight f (l1 ++ l2) (fst r) (snd r).
Proof.
  intros f. induction l2 as [|q l2 IH]; intros l1 lo hi Hm.
  - exists (lo, hi). cbn. rewrite app_nil_r. auto.
  - cbn [length for_from]. unfold range_step at 1.
    rewrite aget_map, aget_mid. cbn [option_map obind fst snd].
    destruct (IH (l1 ++ [q]) _ _ (tight_snoc f l1 lo hi q Hm)) as (r & E & M).
    exists r. rewrite app_length in E. cbn [length] in E.
    replace (Z.of_nat (length l1 + 1)) with (Z.of_nat (length l1) + 1) in E by lia.
    rewrite <- app_assoc in E, M. cbn [app] in E, M. split; [exact E|exact M].
Qed.

Lemma one_range : forall (f : particle T -> Z) l, l <> [] ->
  exists v lo hi, aget (map f l) 0 = Some v /\
    for_from (range_step (map f l)) 1 (Z.to_nat (Z.of_nat (length l) - 1)) (v, v) = Some (lo, hi) /\
    range_of (member (pset_of l)) f lo hi.
Proof.
  intros f [|q l] Hl; [congruence|]. exists (f q).
  replace (Z.to_nat (Z.of_nat (length (q :: l)) - 1)) with (length l) by (cbn [length]; lia).
  destruct (range_loop f l [q] _ _ (tight_one f q)) as ([lo hi] & E & (A & (qa & Ia & Ea) & (qb & Ib & Eb))).
  exists lo, hi. split; [reflexivity|]. split; [exact E|]. cbn [fst snd] in *.
  split; [|split].
  - intros r Hr. apply A. now apply member_of.
  - exists qa. split; [now apply member_of|exact Ea].
  - exists qb. split; [now apply member_of|exact Eb].
Qed.

Lemma at_element_ok : forall p, pset_wf p -> 0 < ps_num p ->
  exists lo hi, get_min_max_at_element p = Some (Some (lo, hi), SUCCESS) /\
    range_of (member p) (@p_at_element_id T) lo hi.
Proof.
  intros p Hw Hn. apply wf_pset_of in Hw as (l & ->). unfold get_min_max_at_element.
  rewrite pset_of_num in *. replace (0 <? Z.of_nat (length l)) with true by bdec.
  destruct (one_range (@p_at_element_id T) l) as (v & lo & hi & E1 & E2 & R);
    [destruct l; [cbn in Hn; lia|congruence]|].
  exists lo, hi. unfold pset_of. cbn [ps_at_element_id]. rewrite E1. cbn [obind]. rewrite E2.
  split; [reflexivity|exact R].
Qed.

Lemma at_turn_ok : forall p, pset_wf p -> 0 < ps_num p ->
  exists lo hi, get_min_max_at_turn p = Some (Some (lo, hi), SUCCESS) /\
    range_of (member p) (@p_at_turn T) lo hi.
Proof.
  intros p Hw Hn. apply wf_pset_of in Hw as (l & ->). unfold get_min_max_at_turn.
  rewrite pset_of_num in *. replace (0 <? Z.of_nat (length l)) with true by bdec.
  destruct (one_range (@p_at_turn T) l) as (v & lo & hi & E1 & E2 & R);
    [destruct l; [cbn in Hn; lia|congruence]|].
  exists lo, hi. unfold pset_of. cbn [ps_at_turn]. rewrite E1. cbn [obind]. rewrite E2.
  split; [reflexivity|exact R].
Qed.

(* correct when the first particle sits at the element numbered like its id *)
Lemma no_check_ok : forall p q, pset_wf p -> pset_at p 0 = Some q ->
  p_at_element_id q = p_particle_id q ->
  exists lo hi, get_min_max_id_no_check p = Some (Some (lo, hi), SUCCESS) /\
    range_of (member p) (@p_particle_id T) lo hi.
Proof.
  intros p q Hw Hq Heq. apply wf_pset_of in Hw as (l & ->). unfold get_min_max_id_no_check.
  rewrite pset_of_num in *. rewrite pset_at_of in Hq.
  assert (Hl : l <> []) by (destruct l; [discriminate|congruence]).
  replace (0 <? Z.of_nat (length l)) with true by (destruct l; [congruence|cbn [length]; bdec]).
  destruct (one_range (@p_particle_id T) l Hl) as (v & lo & hi & E1 & E2 & R).
  exists lo, hi. unfold pset_of. cbn [ps_at_element_id ps_particle_id].
  rewrite aget_map, Hq in *. cbn [option_map obind] in *. rewrite Heq. injection E1 as ->.
  rewrite E2. split; [reflexivity|exact R].
Qed.

(* ---- merge sort ---- *)
End S.

Lemma aput_mid : forall A (l1 l2 : list A) a b,
  aput (l1 ++ a :: l2) (Z.of_nat (length l1)) b = Some (l1 ++ b :: l2).
Proof.
  intros. unfold aput. rewrite app_length. cbn [length].
  replace (_ && _) with true by bdec. rewrite Nat2Z.id. f_equal.
  induction l1 as [|x l1 IH]; cbn; [reflexivity|]. now rewrite IH.
Qed.

Lemma put_rest_ok : forall l pre junk b, length junk = length l ->
  put_rest l (pre ++ junk ++ b) (Z.of_nat (length pre)) =
    Some (pre ++ l ++ b, Z.of_nat (length pre) + Z.of_nat (length l)).
Proof.
  induction l as [|x l IH]; intros pre junk b H; destruct junk as [|y junk]; try discriminate.
  - cbn. do 2 f_equal. lia.
  - cbn [put_rest app]. rewrite aput_mid. cbn [obind].
    specialize (IH (pre ++ [x]) junk b). rewrite <- !app_assoc in IH. cbn [app] in IH.
    rewrite app_length in IH. cbn [length] in *.
    replace (Z.of_nat (length pre + 1)) with (Z.of_nat (length pre) + 1) in IH by lia.
    rewrite IH by lia. do 2 f_equal. lia.
Qed.

Lemma put_rest_nil : forall arr kk, put_rest [] arr kk = Some (arr, kk).
Proof. reflexivity. Qed.

Lemma merge_nil_l : forall r arr kk, merge_loop [] r arr kk =
  obind (put_rest r arr kk) (fun q => let '(arr, _) := q in Some (arr, 0)).
Proof. intros [|y r] arr kk; reflexivity. Qed.

Lemma merge_nil_r : forall l arr kk, merge_loop l [] arr kk =
  obind (put_rest l arr kk) (fun q => let '(arr, _) := q in Some (arr, 0)).
Proof. intros [|x l] arr kk; cbn; [reflexivity|]. destruct (obind _ _) as [[? ?]|]; reflexivity. Qed.

Lemma merge_cons : forall x l y r arr kk, merge_loop (x :: l) (y :: r) arr kk =
  if x <? y then obind (aput arr kk x) (fun a => merge_loop l (y :: r) a (kk + 1))
  else if y <? x then obind (aput arr kk y) (fun a => merge_loop (x :: l) r a (kk + 1))
  else Some (arr, -1).
Proof. reflexivity. Qed.

Lemma sorted_nodup : forall l : list Z, StronglySorted Z.lt l -> NoDup l.
Proof.
  intros l H. induction H as [|x l H IH F]; constructor; [|exact IH].
  intros I. rewrite Forall_forall in F. apply F in I. lia.
Qed.

Lemma sorted_front : forall x (l r m : list Z), StronglySorted Z.lt m -> Permutation m (l ++ r) ->
  (forall z, In z l -> x < z) -> (forall z, In z r -> x < z) -> StronglySorted Z.lt (x :: m).
Proof.
  intros x l r m Hm Hp Hl Hr. constructor; [exact Hm|]. apply Forall_forall. intros z Hz.
  apply (Permutation_in _ Hp) in Hz. apply in_app_or in Hz. destruct Hz; auto.
Qed.

Lemma merge_ok : forall l r pre junk b, StronglySorted Z.lt l -> StronglySorted Z.lt r ->
  length junk = (length l + length r)%nat ->
  (exists m, merge_loop l r (pre ++ junk ++ b) (Z.of_nat (length pre)) = Some (pre ++ m ++ b, 0) /\
     Permutation m (l ++ r) /\ StronglySorted Z.lt m) \/
  (exists arr', merge_loop l r (pre ++ junk ++ b) (Z.of_nat (length pre)) = Some (arr', -1) /\
     ~ NoDup (l ++ r)).
Proof.
  induction l as [|x l IHl].
  - intros r pre junk b _ Hr Hj. left. exists r. rewrite merge_nil_l, put_rest_ok by exact Hj.
    cbn. auto.
  - induction r as [|y r IHr]; intros pre junk b Hl Hr Hj.
    + left. exists (x :: l). rewrite merge_nil_r, put_rest_ok by (rewrite Hj; cbn; lia).
      rewrite app_nil_r. cbn [obind]. auto.
    + destruct junk as [|z junk]; [discriminate|].
      rewrite merge_cons. cbn [app].
      assert (Fl := Hl). apply StronglySorted_inv in Fl as (Sl & Fl).
      assert (Fr := Hr). apply StronglySorted_inv in Fr as (Sr & Fr).
      rewrite Forall_forall in Fl, Fr.
      destruct (Z.ltb_spec x y) as [Hxy|Hxy]; [|destruct (Z.ltb_spec y x) as [Hyx|Hyx]].
      * rewrite aput_mid. cbn [obind].
        specialize (IHl (y :: r) (pre ++ [x]) junk b Sl Hr).
        rewrite <- !app_assoc in IHl. cbn [app] in IHl. rewrite app_length in IHl. cbn [length] in *.
        replace (Z.of_nat (length pre + 1)) with (Z.of_nat (length pre) + 1) in IHl by lia.
        destruct IHl as [(m & E & P & S)|(arr' & E & N)]; [lia| |].
        -- left. exists (x :: m). rewrite E. rewrite <- app_assoc. cbn [app]. split; [reflexivity|].
           split; [now apply perm_skip|].
           eapply sorted_front; [exact S|exact P|exact Fl|].
           intros w [<-|Hw]; [exact Hxy|]. apply Fr in Hw. lia.
        -- right. exists arr'. split; [exact E|]. intros ND. apply N.
           cbn [app] in ND. now apply NoDup_cons_iff in ND.
      * rewrite aput_mid. cbn [obind].
        specialize (IHr (pre ++ [y]) junk b Hl Sr).
        rewrite <- !app_assoc in IHr. cbn [app] in IHr. rewrite app_length in IHr. cbn [length] in *.
        replace (Z.of_nat (length pre + 1)) with (Z.of_nat (length pre) + 1) in IHr by lia.
        destruct IHr as [(m & E & P & S)|(arr' & E & N)]; [lia| |].
        -- left. exists (y :: m). rewrite E. rewrite <- app_assoc. cbn [app]. split; [reflexivity|].
           split.
           ++ apply (Permutation_cons_app (x :: l) r y). exact P.
           ++ eapply (sorted_front y (x :: l) r); [exact S|exact P| |exact Fr].
              intros w [<-|Hw]; [exact Hyx|]. apply Fl in Hw. lia.
        -- right. exists arr'. split; [exact E|]. intros ND. apply N.
           apply (NoDup_remove_1 (x :: l) r y ND).
      * right. exists (pre ++ z :: junk ++ b). split; [reflexivity|].
        assert (x = y) by lia. subst y. cbn [app]. intros ND. apply NoDup_cons_iff in ND as (ND & _).
        apply ND. apply in_or_app. right. now left.
Qed.

Lemma segment_mid : forall pre m b, segment (pre ++ m ++ b) (Z.of_nat (length pre))
  (Z.of_nat (length pre) + Z.of_nat (length m)) = Some m.
Proof.
  intros pre m b. unfold segment. rewrite !app_length. replace (_ && _) with true by bdec.
  f_equal. replace (Z.to_nat (Z.of_nat (length pre) + Z.of_nat (length m) - Z.of_nat (length pre)))
    with (length m) by lia.
  rewrite Nat2Z.id, skipn_app, skipn_all, Nat.sub_diag. cbn.
  now rewrite firstn_app, firstn_all, Nat.sub_diag, app_nil_r.
Qed.

Lemma NoDup_perm_app : forall (a a' b b' : list Z), Permutation a a' -> Permutation b b' ->
  NoDup (a ++ b) -> NoDup (a' ++ b').
Proof. intros a a' b b' Ha Hb H. eapply Permutation_NoDup; [|exact H]. now apply Permutation_app. Qed.

Lemma NoDup_app_l : forall (a b : list Z), NoDup (a ++ b) -> NoDup a.
Proof.
  induction a as [|x a IH]; intros b H; [constructor|]. cbn in H. apply NoDup_cons_iff in H as (H1 & H2).
  constructor; [|eauto]. intros I. apply H1. apply in_or_app. now left.
Qed.

Lemma NoDup_app_r : forall (a b : list Z), NoDup (a ++ b) -> NoDup b.
Proof. induction a as [|x a IH]; intros b H; [exact H|]. cbn in H. apply NoDup_cons_iff in H as (H1 & H2). eauto. Qed.

Lemma sort_ok : forall fuel pre seg b, (0 < length seg < fuel)%nat ->
  (exists m, rec_merge_sort fuel (pre ++ seg ++ b) (Z.of_nat (length pre))
       (Z.of_nat (length pre) + Z.of_nat (length seg) - 1) = Ok (pre ++ m ++ b, 0) /\
     Permutation m seg /\ StronglySorted Z.lt m /\ NoDup seg) \/
  (exists arr', rec_merge_sort fuel (pre ++ seg ++ b) (Z.of_nat (length pre))
       (Z.of_nat (length pre) + Z.of_nat (length seg) - 1) = Ok (arr', -1) /\ ~ NoDup seg).
Proof.
  induction fuel as [|fuel IH]; intros pre seg b Hf; [lia|].
  cbn [rec_merge_sort].
  set (lf := Z.of_nat (length pre)). set (rt := lf + Z.of_nat (length seg) - 1).
  destruct (Z.ltb_spec lf rt) as [H|H].
  2:{ assert (L : length seg = 1%nat) by lia.
      replace (lf =? rt) with true by bdec. left. exists seg. split; [reflexivity|].
      split; [reflexivity|]. destruct seg as [|x [|? ?]]; try discriminate.
      split; [repeat constructor|repeat constructor; intros []]. }
  set (mid := lf + (rt - lf) / 2). cbv zeta.
  assert (Hrt : rt = lf + Z.of_nat (length seg) - 1) by reflexivity. clearbody rt.
  assert (Hmid : lf <= mid < rt).
  { unfold mid. assert (X := Z.div_mod (rt - lf) 2). assert (Y := Z.mod_pos_bound (rt - lf) 2). lia. }
  set (n1 := Z.to_nat (mid - lf + 1)).
  assert (N1 : (0 < n1 < length seg)%nat) by lia.
  assert (E0 : seg = firstn n1 seg ++ skipn n1 seg) by (symmetry; apply firstn_skipn).
  set (s1 := firstn n1 seg) in *. set (s2 := skipn n1 seg) in *.
  assert (L1 : length s1 = n1) by (unfold s1; rewrite firstn_length; lia).
  assert (L2 : length s2 = (length seg - n1)%nat) by (unfold s2; rewrite skipn_length; lia).
  clearbody s1 s2. subst seg. rewrite app_length in Hf, Hrt, N1, L2.
  rewrite <- app_assoc.
  assert (Em : mid = lf + Z.of_nat (length s1) - 1) by lia.
  destruct (IH pre s1 (s2 ++ b)) as [(m1 & R1 & P1 & S1 & D1)|(arr1 & R1 & D1)]; [lia| |].
  2:{ right. exists arr1. fold lf in R1. rewrite Em. rewrite R1. cbn [bind]. change (-1 =? 0) with false.
      cbv iota. split; [reflexivity|]. intros ND. apply D1. now apply NoDup_app_l in ND. }
  fold lf in R1. rewrite Em, R1. cbn [bind]. change (0 =? 0) with true. cbv iota.
  assert (Lm1 : length m1 = length s1) by (now apply Permutation_length).
  assert (Er : rt = Z.of_nat (length (pre ++ m1)) + Z.of_nat (length s2) - 1)
    by (rewrite app_length; lia).
  assert (El : lf + Z.of_nat (length s1) - 1 + 1 = Z.of_nat (length (pre ++ m1)))
    by (rewrite app_length; lia).
  rewrite El, Er.
  replace (pre ++ m1 ++ s2 ++ b) with ((pre ++ m1) ++ s2 ++ b) by (now rewrite !app_assoc).
  destruct (IH (pre ++ m1) s2 b) as [(m2 & R2 & P2 & S2 & D2)|(arr2 & R2 & D2)]; [lia| |].
  2:{ right. exists arr2. rewrite R2. cbn [bind]. change (-1 =? 0) with false. cbv iota.
      split; [reflexivity|]. intros ND. apply D2. now apply NoDup_app_r in ND. }
  rewrite R2. cbn [bind]. change (0 =? 0) with true. cbv iota.
  assert (Lm2 : length m2 = length s2) by (now apply Permutation_length).
  unfold merge_check.
  replace ((pre ++ m1) ++ m2 ++ b) with (pre ++ m1 ++ m2 ++ b) by (now rewrite !app_assoc).
  replace (Z.of_nat (length (pre ++ m1))) with (Z.of_nat (length pre) + Z.of_nat (length m1))
    by (rewrite app_length; lia).
  unfold lf. rewrite segment_mid. cbn [obind].
  replace (Z.of_nat (length pre) + Z.of_nat (length m1) + Z.of_nat (length s2) - 1 + 1)
    with (Z.of_nat (length pre) + Z.of_nat (length m1) + Z.of_nat (length m2)) by lia.
  replace (Z.of_nat (length pre) + Z.of_nat (length m1)) with (Z.of_nat (length (pre ++ m1)))
    by (rewrite app_length; lia).
  replace (pre ++ m1 ++ m2 ++ b) with ((pre ++ m1) ++ m2 ++ b) by (now rewrite !app_assoc).
  rewrite segment_mid. cbn [obind].
  replace ((pre ++ m1) ++ m2 ++ b) with (pre ++ (m1 ++ m2) ++ b) by (now rewrite !app_assoc).
  destruct (merge_ok m1 m2 pre (m1 ++ m2) b S1 S2) as [(m & R & P & SS)|(arr' & R & N)];
    [now rewrite app_length| |].
  - left. exists m. rewrite R. split; [reflexivity|].
    assert (PP : Permutation m (s1 ++ s2)) by (rewrite P; now apply Permutation_app).
    split; [exact PP|]. split; [exact SS|].
    eapply Permutation_NoDup; [exact PP|]. now apply sorted_nodup.
  - right. exists arr'. rewrite R. split; [reflexivity|]. intros ND. apply N.
    eapply NoDup_perm_app; [symmetry; exact P1|symmetry; exact P2|exact ND].
Qed.

Lemma sorted_increasing : forall l, StronglySorted Z.lt l -> strictly_increasing l = true.
Proof.
  induction l as [|x l IH]; intros H; [reflexivity|]. apply StronglySorted_inv in H as (H & F).
  cbn [strictly_increasing]. destruct l as [|y l]; [reflexivity|].
  rewrite IH by exact H. rewrite Forall_forall in F.
  assert (x < y) by (apply F; now left). replace (x <? y) with true by bdec. reflexivity.
Qed.

Lemma sorted_last : forall (l : list Z) x d, StronglySorted Z.lt l -> In x l -> x <= last l d.
Proof.
  induction l as [|y l IH]; intros x d H I; [destruct I|].
  apply StronglySorted_inv in H as (H & F). rewrite Forall_forall in F.
  destruct l as [|z l].
  - destruct I as [->|[]]. cbn. lia.
  - change (last (y :: z :: l) d) with (last (z :: l) d).
    destruct I as [->|I]; [|now apply IH].
    assert (x < z) by (apply F; now left). assert (z <= last (z :: l) d) by (apply IH; [exact H|now left]). lia.
Qed.

Lemma aget_last : forall (l : list Z) d, l <> [] -> aget l (Z.of_nat (length l) - 1) = Some (last l d).
Proof.
  intros l d H. rewrite (app_removelast_last d H) at 1 2. rewrite app_length. cbn [length].
  replace (Z.of_nat (length (removelast l) + 1) - 1) with (Z.of_nat (length (removelast l))) by lia.
  apply aget_mid.
Qed.

Lemma last_In : forall (l : list Z) d, l <> [] -> In (last l d) l.
Proof.
  intros l d H. rewrite (app_removelast_last d H) at 2. apply in_or_app. right. now left.
Qed.

Section S2.
Context {T : Type}.
Implicit Types (p : pset T) (objs : list (pobj T)).

Lemma get_min_max_id_ok : forall debug p, pset_wf p -> 0 < ps_num p ->
  (distinct_ids p ->
    exists lo hi, get_min_max_id debug p = Ok (Some (lo, hi), SUCCESS) /\
      range_of (member p) (fun q => Z.abs (p_particle_id q)) lo hi) /\
  (~ distinct_ids p -> get_min_max_id debug p = Ok (None, FAILURE)).
Proof.
  intros debug p Hw Hn. apply wf_pset_of in Hw as (l & ->). rewrite pset_of_num in Hn.
  assert (D : distinct_ids (pset_of l) <-> NoDup (map iabs (map (@p_particle_id T) l))).
  { rewrite map_map. split.
    - intros H. apply NoDup_nth_error. intros i j Hi E. rewrite !nth_error_map in E.
      destruct (nth_error l i) as [q|] eqn:Ei.
      2:{ apply nth_error_None in Ei. rewrite map_length in Hi. lia. }
      destruct (nth_error l j) as [r|] eqn:Ej; [|discriminate].
      cbn in E. injection E as E. rewrite !iabs_abs in E.
      assert (Z.of_nat i = Z.of_nat j); [|lia].
      apply (H _ _ q r); [| |exact E]; rewrite pset_at_of, aget_nth, Nat2Z.id by lia; assumption.
    - intros H i j q r Hq Hr E. rewrite pset_at_of in Hq, Hr.
      destruct (Z_lt_dec i 0); [rewrite aget_neg in Hq by lia; discriminate|].
      destruct (Z_lt_dec j 0); [rewrite aget_neg in Hr by lia; discriminate|].
      rewrite aget_nth in Hq, Hr by lia. rewrite NoDup_nth_error in H.
      assert (Z.to_nat i = Z.to_nat j); [|lia]. apply H.
      + apply nth_error_Some. rewrite nth_error_map, Hq. discriminate.
      + rewrite !nth_error_map, Hq, Hr. cbn. rewrite !iabs_abs. congruence. }
  unfold get_min_max_id. rewrite pset_of_num. replace (0 <? Z.of_nat (length l)) with true by bdec.
  change (ps_particle_id (pset_of l)) with (map (@p_particle_id T) l).
  assert (SG := segment_mid [] (map (@p_particle_id T) l) []).
  rewrite app_nil_r, map_length in SG. cbn [length app Z.of_nat Z.add] in SG. rewrite SG.
  cbn [of_option bind].
  set (ids := map iabs (map (@p_particle_id T) l)) in *.
  assert (LI : length ids = length l) by (unfold ids; now rewrite !map_length).
  assert (MI : forall z, In z ids <-> exists q, In q l /\ Z.abs (p_particle_id q) = z).
  { intros z. unfold ids. rewrite map_map, in_map_iff. split; intros (q & A & B); exists q.
    - rewrite iabs_abs in A. auto.
    - rewrite iabs_abs. auto. }
  destruct (sort_ok (S (Z.to_nat (Z.of_nat (length l)))) [] ids []) as
    [(m & R & P & SS & ND)|(arr' & R & ND)]; [lia| |];
    cbn [app length Z.of_nat Z.add] in R; rewrite ?app_nil_r in R; rewrite LI in R; rewrite R; cbn [bind].
  - rewrite (sorted_increasing m SS). cbn [negb]. rewrite andb_false_r. change (0 =? 0) with true. cbv iota.
    assert (Lm : length m = length l) by (rewrite <- LI; now apply Permutation_length).
    assert (Hm : m <> []) by (destruct m; [cbn in Lm; lia|congruence]).
    rewrite <- Lm, (aget_last m 0 Hm). cbn [obind].
    destruct m as [|m0 m]; [congruence|]. change (aget (m0 :: m) 0) with (Some m0). cbn [obind of_option].
    split; [intros _|intros H; exfalso; apply H, D, ND].
    eexists _, _. split; [reflexivity|].
    assert (IN : forall z, In z (m0 :: m) <-> In z ids).
    { intros z. split; apply Permutation_in; [exact P|symmetry; exact P]. }
    split; [|split].
    + intros q Hq. apply member_of in Hq.
      assert (Iz : In (Z.abs (p_particle_id q)) (m0 :: m)) by (apply IN, MI; eauto).
      split; [|now apply sorted_last].
      apply StronglySorted_inv in SS as (_ & F). rewrite Forall_forall in F.
      destruct Iz as [->|Iz]; [lia|]. apply F in Iz. lia.
    + assert (Iz : In m0 (m0 :: m)) by (now left). apply IN, MI in Iz as (q & Iq & Eq).
      exists q. split; [now apply member_of|exact Eq].
    + assert (Iz := last_In (m0 :: m) 0 Hm). apply IN, MI in Iz as (q & Iq & Eq).
      exists q. split; [now apply member_of|exact Eq].
  - rewrite andb_false_r. cbn [andb]. change (-1 =? 0) with false. cbv iota.
    split; [intros H; exfalso; apply ND, D, H|reflexivity].
Qed.

(* ---- global index ---- *)
Definition nums_ok objs : Prop := forall p, In (Part p) objs -> 0 <= ps_num p.

Lemma nums_tl : forall o objs, nums_ok (o :: objs) -> nums_ok objs.
Proof. intros o objs H p Hp. apply H. now right. Qed.

Lemma total_nonneg : forall objs, nums_ok objs -> 0 <= total_num objs.
Proof.
  induction objs as [|[p|] objs IH]; intros H; cbn [total_num]; [lia| |].
  - assert (0 <= ps_num p) by (apply H; now left). apply nums_tl in H. apply IH in H. lia.
  - apply nums_tl in H. auto.
Qed.

Lemma lookup_shift : forall g objs pos a, by_global_index g objs pos a a =
  (pos + fst (by_global_index g objs 0 a a), snd (by_global_index g objs 0 a a)).
Proof.
  intros g objs. induction objs as [|[p|] objs IH]; intros pos a; cbn [by_global_index].
  - cbn [fst snd]. f_equal. lia.
  - destruct (_ && _); [cbn [fst snd]; f_equal; lia|]. rewrite (IH (pos + 1)), (IH (0 + 1)). cbn [fst snd]. f_equal. lia.
  - rewrite (IH (pos + 1)), (IH (0 + 1)). cbn [fst snd]. f_equal. lia.
Qed.

(* one theorem from which the rest follows: the particle number j of the set at
   position pos, counted from off, has index [global_of objs pos j] *)
Definition number_of objs (pos j : Z) : Z := total_num (firstn (Z.to_nat pos) objs) + j.

Lemma lookup_of_number : forall objs off pos p j, nums_ok objs ->
  aget objs pos = Some (Part p) -> 0 <= j < ps_num p ->
  global_lookup (off + number_of objs pos j) off objs = (pos, off + total_num (firstn (Z.to_nat pos) objs)).
Proof.
  unfold global_lookup, number_of.
  induction objs as [|o objs IH]; intros off pos p j Hn Ha Hj.
  { rewrite aget_none in Ha by (cbn [length]; lia). discriminate. }
  assert (Hpos : 0 <= pos).
  { destruct (Z_lt_dec pos 0); [rewrite aget_neg in Ha by lia; discriminate|lia]. }
  destruct (Z.eq_dec pos 0) as [->|Hne].
  - change (aget (o :: objs) 0) with (Some o) in Ha. injection Ha as ->.
    cbn [Z.to_nat firstn total_num by_global_index].
    replace (_ && _) with true by bdec. f_equal. lia.
  - assert (Ep : Z.to_nat pos = S (Z.to_nat (pos - 1))) by lia.
    rewrite aget_nth, Ep in Ha by lia. cbn [nth_error] in Ha.
    rewrite <- aget_nth in Ha by lia.
    rewrite Ep. cbn [firstn]. assert (Hn' := nums_tl _ _ Hn).
    assert (T0 : 0 <= total_num (firstn (Z.to_nat (pos - 1)) objs)).
    { apply total_nonneg. intros r Hr. apply Hn'. rewrite <- (firstn_skipn (Z.to_nat (pos - 1)) objs).
      apply in_or_app. now left. }
    destruct o as [r|]; cbn [total_num by_global_index].
    + assert (0 <= ps_num r) by (apply Hn; now left).
      replace (_ && _) with false by bdec.
      rewrite lookup_shift.
      specialize (IH (off + ps_num r) (pos - 1) p j Hn' Ha Hj).
      replace (off + (ps_num r + total_num (firstn (Z.to_nat (pos - 1)) objs) + j))
        with (off + ps_num r + (total_num (firstn (Z.to_nat (pos - 1)) objs) + j)) by lia.
      rewrite IH. cbn [fst snd]. f_equal; lia.
    + rewrite lookup_shift.
      specialize (IH off (pos - 1) p j Hn' Ha Hj). rewrite IH. cbn [fst snd]. f_equal; lia.
Qed.

Lemma number_exists : forall objs g, nums_ok objs -> 0 <= g < total_num objs ->
  exists pos p j, aget objs pos = Some (Part p) /\ 0 <= j < ps_num p /\ number_of objs pos j = g.
Proof.
  unfold number_of. induction objs as [|o objs IH]; intros g Hn Hg; [cbn in Hg; lia|].
  assert (Hn' := nums_tl _ _ Hn).
  assert (step : forall h, 0 <= h < total_num objs -> exists pos p j, 0 < pos /\
     aget (o :: objs) pos = Some (Part p) /\ 0 <= j < ps_num p /\
     total_num (firstn (Z.to_nat (pos - 1)) objs) + j = h).
  { intros h Hh. destruct (IH h Hn' Hh) as (pos & p & j & A & B & C).
    assert (0 <= pos).
    { destruct (Z_lt_dec pos 0); [rewrite aget_neg in A by lia; discriminate|lia]. }
    exists (pos + 1), p, j. split; [lia|]. split.
    - rewrite aget_nth in * by lia. replace (Z.to_nat (pos + 1)) with (S (Z.to_nat pos)) by lia. exact A.
    - split; [exact B|]. replace (pos + 1 - 1) with pos by lia. exact C. }
  destruct o as [r|]; cbn [total_num] in Hg.
  - assert (0 <= ps_num r) by (apply Hn; now left).
    destruct (Z_lt_dec g (ps_num r)).
    + exists 0, r, g. split; [reflexivity|]. split; [lia|]. cbn. lia.
    + destruct (step (g - ps_num r)) as (pos & p & j & Hp & A & B & C); [lia|].
      exists pos, p, j. split; [exact A|]. split; [exact B|].
      replace (Z.to_nat pos) with (S (Z.to_nat (pos - 1))) by lia. cbn [firstn total_num]. lia.
  - destruct (step g) as (pos & p & j & Hp & A & B & C); [lia|].
    exists pos, p, j. split; [exact A|]. split; [exact B|].
    replace (Z.to_nat pos) with (S (Z.to_nat (pos - 1))) by lia. cbn [firstn total_num]. lia.
Qed.

Lemma total_firstn : forall objs pos p, nums_ok objs -> aget objs pos = Some (Part p) ->
  total_num (firstn (Z.to_nat pos) objs) + ps_num p <= total_num objs /\
  0 <= total_num (firstn (Z.to_nat pos) objs).
Proof.
  induction objs as [|o objs IH]; intros pos p Hn Ha.
  { rewrite aget_none in Ha by (cbn [length]; lia). discriminate. }
  assert (Hpos : 0 <= pos).
  { destruct (Z_lt_dec pos 0); [rewrite aget_neg in Ha by lia; discriminate|lia]. }
  assert (Hn' := nums_tl _ _ Hn).
  destruct (Z.eq_dec pos 0) as [->|Hne].
  - change (aget (o :: objs) 0) with (Some o) in Ha. injection Ha as ->.
    cbn [Z.to_nat firstn total_num]. apply total_nonneg in Hn'. lia.
  - assert (Ep : Z.to_nat pos = S (Z.to_nat (pos - 1))) by lia.
    rewrite aget_nth, Ep in Ha by lia. cbn [nth_error] in Ha. rewrite <- aget_nth in Ha by lia.
    destruct (IH _ _ Hn' Ha) as (A & B). rewrite Ep. cbn [firstn].
    destruct o as [r|]; cbn [total_num]; [assert (0 <= ps_num r) by (apply Hn; now left)|]; lia.
Qed.

Lemma lookup_beyond : forall objs off g, nums_ok objs -> (off + total_num objs <= g \/ g < off) ->
  global_lookup g off objs = (Z.of_nat (length objs), off + total_num objs).
Proof.
  unfold global_lookup. induction objs as [|o objs IH]; intros off g Hn Hg.
  - cbn. f_equal. lia.
  - assert (Hn' := nums_tl _ _ Hn). assert (X := total_nonneg _ Hn').
    destruct o as [r|]; cbn [total_num by_global_index length] in *.
    + assert (0 <= ps_num r) by (apply Hn; now left).
      replace (_ && _) with false by bdec. rewrite lookup_shift, IH by (auto; lia). cbn [fst snd].
      f_equal; lia.
    + rewrite lookup_shift, IH by (auto; lia). cbn [fst snd]. f_equal; lia.
Qed.

Lemma objs_wf_nums : forall objs, objs_wf objs -> nums_ok objs.
Proof. intros objs H p Hp. apply H in Hp. exact (proj1 Hp). Qed.

Lemma lookup_found : forall objs off g, objs_wf objs -> off <= g < off + total_num objs ->
  exists pos p j, global_lookup g off objs = (pos, g - j) /\ aget objs pos = Some (Part p) /\
    0 <= j < ps_num p.
Proof.
  intros objs off g Hw Hg. apply objs_wf_nums in Hw.
  destruct (number_exists objs (g - off) Hw) as (pos & p & j & A & B & C); [lia|].
  exists pos, p, j. assert (L := lookup_of_number objs off pos p j Hw A B).
  unfold number_of in *.
  replace g with (off + (total_num (firstn (Z.to_nat pos) objs) + j)) at 1 by lia.
  rewrite L. split; [f_equal; lia|auto].
Qed.

Lemma lookup_inj : forall objs off g1 g2 pos o1 o2, objs_wf objs ->
  off <= g1 < off + total_num objs -> off <= g2 < off + total_num objs ->
  global_lookup g1 off objs = (pos, o1) -> global_lookup g2 off objs = (pos, o2) ->
  g1 - o1 = g2 - o2 -> g1 = g2.
Proof.
  intros objs off g1 g2 pos o1 o2 Hw H1 H2 E1 E2 E. apply objs_wf_nums in Hw.
  destruct (number_exists objs (g1 - off) Hw) as (pos1 & p1 & j1 & A1 & B1 & C1); [lia|].
  destruct (number_exists objs (g2 - off) Hw) as (pos2 & p2 & j2 & A2 & B2 & C2); [lia|].
  assert (L1 := lookup_of_number objs off pos1 p1 j1 Hw A1 B1).
  assert (L2 := lookup_of_number objs off pos2 p2 j2 Hw A2 B2).
  rewrite C1 in L1. rewrite C2 in L2.
  replace (off + (g1 - off)) with g1 in L1 by lia. replace (off + (g2 - off)) with g2 in L2 by lia.
  rewrite E1 in L1. rewrite E2 in L2. injection L1 as -> ->. injection L2 as <- ->. lia.
Qed.

Lemma lookup_onto : forall objs off pos p j, objs_wf objs ->
  aget objs pos = Some (Part p) -> 0 <= j < ps_num p ->
  exists g, off <= g < off + total_num objs /\ global_lookup g off objs = (pos, g - j).
Proof.
  intros objs off pos p j Hw A B. apply objs_wf_nums in Hw.
  exists (off + number_of objs pos j). rewrite (lookup_of_number objs off pos p j Hw A B).
  destruct (total_firstn objs pos p Hw A). unfold number_of. split; [lia|f_equal; lia].
Qed.

Lemma lookup_out : forall objs off g, objs_wf objs -> ~ (off <= g < off + total_num objs) ->
  global_lookup g off objs = (Z.of_nat (length objs), off + total_num objs).
Proof. intros. apply lookup_beyond; [now apply objs_wf_nums|lia]. Qed.

End S2.
