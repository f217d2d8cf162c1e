(* Proofs for C60. *)
From Coq Require Import ZArith Reals Lra List Bool Lia.
From Verif Require Import Num Particle Elements ParticleSet ParticleIds DispatchProofs ParticleSetProofs ParticleDiff ParticleDiffSpec
  MapsR ApertureProofs.
Import ListNotations.
Local Open Scope Z_scope.

(* keeps the set an explicit record *)
Ltac pred := cbn [obind ps_num
  ps_q0 ps_mass0 ps_beta0 ps_gamma0 ps_p0c ps_s ps_x ps_y ps_px ps_py ps_zeta ps_psigma
  ps_delta ps_rpp ps_rvv ps_chi ps_charge_ratio ps_particle_id ps_at_element_id ps_at_turn
  ps_state with_q0 with_mass0 with_beta0 with_gamma0 with_p0c with_s with_x with_y with_px
  with_py with_zeta with_psigma with_delta with_rpp with_rvv with_chi with_charge_ratio
  with_particle_id with_at_element_id with_at_turn with_state].

Section P.
Variables (T : Type) (N : NumOps T).

Definition pdiff (q r : particle T) : particle T :=
  mkParticle (nsub N (p_q0 q) (p_q0 r)) (nsub N (p_mass0 q) (p_mass0 r)) (nsub N (p_beta0 q) (p_beta0 r))
    (nsub N (p_gamma0 q) (p_gamma0 r)) (nsub N (p_p0c q) (p_p0c r)) (nsub N (p_s q) (p_s r)) (nsub N (p_x q) (p_x r))
    (nsub N (p_y q) (p_y r)) (nsub N (p_px q) (p_px r)) (nsub N (p_py q) (p_py r)) (nsub N (p_zeta q) (p_zeta r))
    (nsub N (p_psigma q) (p_psigma r)) (nsub N (p_delta q) (p_delta r)) (nsub N (p_rpp q) (p_rpp r))
    (nsub N (p_rvv q) (p_rvv r)) (nsub N (p_chi q) (p_chi r)) (nsub N (p_charge_ratio q) (p_charge_ratio r))
    (p_particle_id q - p_particle_id r) (p_at_element_id q - p_at_element_id r) (p_at_turn q - p_at_turn r)
    (p_state q - p_state r).

Lemma pdiff_ok q r : difference N q r (pdiff q r).
Proof. split; repeat constructor. Qed.

Lemma diff_value_ok : forall A (sub : A -> A -> A) (get : pset T -> list A) put (f : particle T -> A) i ls rs q r x l d,
  0 <= i < Z.of_nat (length l) -> aget ls i = Some q -> aget rs i = Some r ->
  get (pset_of ls) = map f ls -> get (pset_of rs) = map f rs -> get d = map f l -> sub (f q) (f r) = f x ->
  diff_value sub get put i (pset_of ls) (pset_of rs) d = Some (put (map f (upd l (Z.to_nat i) x)) d).
Proof.
  intros A sub get put f i ls rs q r x l d Hi Hq Hr E1 E2 E3 Ex. unfold diff_value.
  rewrite E1, E2, !aget_map, Hq, Hr. cbn [option_map obind].
  now apply set_value_ok.
Qed.

Lemma diff_values_ok : forall i ls rs q r l, 0 <= i < Z.of_nat (length l) -> aget ls i = Some q -> aget rs i = Some r ->
  diff_values N (pset_of ls) (pset_of rs) i (pset_of l) = Some (pset_of (upd l (Z.to_nat i) (pdiff q r))).
Proof.
  intros i ls rs q r l Hi Hq Hr. unfold diff_values, pset_of at 3; pred.
  repeat (eapply obind_some; [eapply (diff_value_ok _ _ _ _ _ _ _ _ q r (pdiff q r)); first [eassumption | reflexivity]|]; pred).
  unfold pset_of. rewrite upd_length. reflexivity.
Qed.

Lemma diff_loop : forall n i ls rs l, 0 <= i -> i + Z.of_nat n <= Z.of_nat (length l) ->
  length ls = length l -> length rs = length l ->
  exists l', for_from (diff_values N (pset_of ls) (pset_of rs)) i n (pset_of l) = Some (pset_of l') /\
    length l' = length l /\
    forall j q r, aget ls j = Some q -> aget rs j = Some r ->
      aget l' j = if (i <=? j) && (j <? i + Z.of_nat n) then Some (pdiff q r) else aget l j.
Proof.
  induction n as [|n IH]; intros i ls rs l Hi Hn L1 L2.
  - exists l. cbn. split; [reflexivity|]. split; [reflexivity|]. intros j q r _ _. replace (_ && _) with false by lia. reflexivity.
  - cbn [for_from]. destruct (aget_some _ ls i) as (q0 & Hq); [lia|]. destruct (aget_some _ rs i) as (r0 & Hr); [lia|].
    rewrite (diff_values_ok i ls rs q0 r0) by (auto; lia). cbn [obind].
    destruct (IH (i + 1) ls rs (upd l (Z.to_nat i) (pdiff q0 r0))) as (l' & E & L & G);
      [lia|rewrite upd_length; lia|rewrite upd_length; lia|rewrite upd_length; lia|].
    exists l'. split; [exact E|]. rewrite upd_length in L. split; [exact L|].
    intros j q r Jq Jr. rewrite (G j q r Jq Jr), aget_upd by lia.
    destruct (Z.eqb_spec j i) as [->|n0].
    + assert (q = q0 /\ r = r0) as (-> & ->) by (split; congruence).
      rewrite (Z.leb_refl i). rewrite (proj2 (Z.ltb_lt i (i + Z.of_nat (S n)))) by lia. cbn [andb].
      now destruct ((i + 1 <=? i) && (i <? i + 1 + Z.of_nat n)).
    + assert (X : (i + 1 <=? j) && (j <? i + 1 + Z.of_nat n) = (i <=? j) && (j <? i + Z.of_nat (S n))).
      { apply eq_true_iff_eq. rewrite !andb_true_iff, !Z.leb_le, !Z.ltb_lt. clear - n0. lia. }
      now rewrite X.
Qed.

Lemma difference_ok : forall p1 p2 d, pset_wf p1 -> pset_wf p2 -> pset_wf d ->
  ps_num p1 = ps_num p2 -> ps_num d = ps_num p1 -> 0 < ps_num p1 ->
  exists d', calculate_difference N p1 p2 d = Some d' /\ differences N p1 p2 d'.
Proof.
  intros p1 p2 d W1 W2 W3 E1 E2 Hn. unfold calculate_difference. rewrite E2, <- E1, Z.eqb_refl.
  rewrite (proj2 (Z.ltb_lt 0 (ps_num p1))) by assumption. cbn [andb].
  apply wf_pset_of in W1 as (l1 & ->). apply wf_pset_of in W2 as (l2 & ->). apply wf_pset_of in W3 as (l & ->).
  rewrite !pset_of_num in *.
  destruct (diff_loop (Z.to_nat (Z.of_nat (length l1))) 0 l1 l2 l) as (l' & E & L & G); [lia|lia|lia|lia|].
  exists (pset_of l'). split; [exact E|]. split; [apply pset_of_wf|]. rewrite !pset_of_num. split; [lia|].
  intros i q r Hq Hr. rewrite !pset_at_of in *. exists (pdiff q r). split; [|apply pdiff_ok].
  rewrite (G i q r Hq Hr). destruct (Z_lt_le_dec i 0) as [Lt|Ge]; [rewrite aget_neg in Hq by assumption; discriminate|].
  assert (i < Z.of_nat (length l1)).
  { destruct (Z_lt_le_dec i (Z.of_nat (length l1))); [assumption|]. rewrite aget_none in Hq by lia. discriminate. }
  rewrite (proj2 (Z.leb_le 0 i)), (proj2 (Z.ltb_lt i _)) by lia. reflexivity.
Qed.

Lemma difference_other : forall p1 p2 d : pset T, ~ (0 < ps_num p1 /\ ps_num p1 = ps_num p2 /\ ps_num p1 = ps_num d) ->
  calculate_difference N p1 p2 d = Some d.
Proof.
  intros p1 p2 d H. unfold calculate_difference.
  destruct (Z.ltb_spec 0 (ps_num p1)), (Z.eqb_spec (ps_num p1) (ps_num p2)), (Z.eqb_spec (ps_num p1) (ps_num d));
    try reflexivity. exfalso. auto.
Qed.

(* ---------------- maxima ---------------- *)

Lemma max_of_ok {A} (zero : A) abs ltb (size : A -> R) a n :
  (forall u v, ltb (abs u) (abs v) = true <-> (size u < size v)%R) ->
  abs zero = zero -> size zero = 0%R -> (forall v, (size v <= 0)%R -> v = zero) ->
  0 < n <= Z.of_nat (length a) ->
  exists mv k, max_of zero abs ltb a n = Some (mv, k) /\ 0 <= k < n /\ aget a k = Some mv /\
    forall j v, aget a j = Some v -> j < n -> (size v <= size mv)%R /\ (j < k -> (size v < size mv)%R).
Proof.
  intros Hl Az Sz Uz Hn. unfold max_of.
  assert (L : forall m i mv k, 0 <= i -> 0 <= k -> (i = 0 -> k = 0 /\ mv = zero) -> (0 < i -> k < i /\ aget a k = Some mv) ->
    (forall j v, aget a j = Some v -> j < i -> (size v <= size mv)%R /\ (j < k -> (size v < size mv)%R)) ->
    i + Z.of_nat m <= Z.of_nat (length a) -> 0 < i + Z.of_nat m ->
    exists mv' k', for_from (max_step abs ltb a) i m (mv, abs mv, k) = Some (mv', abs mv', k') /\
      0 <= k' < i + Z.of_nat m /\ aget a k' = Some mv' /\
      forall j v, aget a j = Some v -> j < i + Z.of_nat m -> (size v <= size mv')%R /\ (j < k' -> (size v < size mv')%R)).
  { induction m as [|m IH]; intros i mv k Hi Hk H0 H1 Hb Hm Hp.
    - exists mv, k. cbn [for_from]. destruct (H1 ltac:(lia)) as (X1 & X2). split; [reflexivity|]. split; [lia|]. split; [exact X2|].
      intros j v Jv Jn. apply Hb; [exact Jv|lia].
    - cbn [for_from]. unfold max_step at 1. destruct (aget_some _ a i) as (x & Hx); [lia|]. rewrite Hx. cbn [obind].
      destruct (ltb (abs mv) (abs x)) eqn:E.
      + apply Hl in E. destruct (IH (i + 1) x i) as (mv' & k' & R1 & R2 & R3 & R4); [lia|lia|lia| | |lia|lia|].
        * intros _. split; [lia|exact Hx].
        * intros j v Jv Jn. assert (j < i \/ j = i) as [J|J] by lia.
          -- destruct (Hb j v Jv J). split; [lra|]. intros _. lra.
          -- subst j. assert (v = x) as -> by congruence. split; [lra|lia].
        * exists mv', k'. split; [exact R1|]. split; [lia|]. split; [exact R3|]. intros j v Jv Jn. apply R4; [exact Jv|lia].
      + assert (NL : (size x <= size mv)%R).
        { destruct (Rle_lt_dec (size x) (size mv)) as [X|X]; [exact X|]. apply Hl in X. congruence. }
        assert (K : k < i + 1 /\ aget a k = Some mv).
        { assert (0 < i \/ i = 0) as [J|J] by lia; [destruct (H1 J); split; [lia|assumption]|].
          destruct (H0 J) as (-> & ->). split; [lia|]. subst i. rewrite Hx. f_equal. apply Uz. lra. }
        destruct (IH (i + 1) mv k) as (mv' & k' & R1 & R2 & R3 & R4); [lia|lia|lia| | |lia|lia|].
        * intros _. exact K.
        * intros j v Jv Jn. assert (j < i \/ j = i) as [J|J] by lia; [now apply Hb|].
          subst j. assert (v = x) as -> by congruence. split; [exact NL|lia].
        * exists mv', k'. split; [exact R1|]. split; [lia|]. split; [exact R3|]. intros j v Jv Jn. apply R4; [exact Jv|lia]. }
  destruct (L (Z.to_nat n) 0 zero 0) as (mv & k & E & R2 & R3 & R4); try lia; [auto| |].
  { intros j v Jv Jn. rewrite aget_neg in Jv by assumption. discriminate. }
  rewrite Az in E. rewrite E. cbn [obind]. rewrite Z2Nat.id in R2, R4 by lia. exists mv, k. split; [reflexivity|].
  split; [lia|]. split; [exact R3|]. intros j v Jv Jn. apply R4; [exact Jv|lia].
Qed.

End P.

Section M.
Local Notation particle := (particle R).
Local Notation pset := (pset R).

Lemma max_attr {A} (zero : A) abs ltb (size : A -> R) (f : particle -> A) ls n :
  (forall u v, ltb (abs u) (abs v) = true <-> (size u < size v)%R) ->
  abs zero = zero -> size zero = 0%R -> (forall v, (size v <= 0)%R -> v = zero) ->
  0 < n <= Z.of_nat (length ls) ->
  exists mv k, max_of zero abs ltb (map f ls) n = Some (mv, k) /\ largest size (pset_of ls) n f mv k.
Proof.
  intros Hl Az Sz Uz Hn. destruct (max_of_ok zero abs ltb size (map f ls) n Hl Az Sz Uz) as (mv & k & E & K & G & B);
    [rewrite map_length; exact Hn|].
  exists mv, k. split; [exact E|]. split; [exact K|]. rewrite aget_map in G. split.
  - rewrite pset_at_of. destruct (aget ls k) as [q|]; [|discriminate]. exists q. split; [reflexivity|]. cbn in G. congruence.
  - intros j q Jq Jn. rewrite pset_at_of in Jq. apply B; [|exact Jn]. rewrite aget_map, Jq. reflexivity.
Qed.

Lemma real_attr (f : particle -> R) ls n : 0 < n <= Z.of_nat (length ls) ->
  exists mv k, max_of (nzero ROps) (abs_real ROps) (nltb ROps) (map f ls) n = Some (mv, k) /\
    largest size_real (pset_of ls) n f mv k.
Proof.
  apply max_attr.
  - intros u v. rewrite Rlt_b. unfold abs_real, size_real, Rabs. cbn [nzero nleb nopp ROps]. unfold Rleb.
    destruct (Rle_dec 0 u), (Rle_dec 0 v), (Rcase_abs u), (Rcase_abs v); lra.
  - unfold abs_real. cbn [nzero nleb nopp ROps]. unfold Rleb. destruct (Rle_dec 0 0); lra.
  - apply Rabs_R0.
  - intros v Hv. unfold size_real in Hv. cbn [nzero ROps]. destruct (Req_dec v 0) as [|Hne]; [assumption|].
    pose proof (Rabs_pos_lt v Hne). lra.
Qed.

Lemma index_attr (f : particle -> Z) ls n : 0 < n <= Z.of_nat (length ls) ->
  exists mv k, max_of 0 abs_index Z.ltb (map f ls) n = Some (mv, k) /\ largest size_index (pset_of ls) n f mv k.
Proof.
  apply max_attr.
  - intros u v. unfold size_index. rewrite Z.ltb_lt. assert (forall w, abs_index w = Z.abs w) as ->.
    { intros w. unfold abs_index. destruct (Z.ltb_spec 0 w); lia. }
    assert (abs_index v = Z.abs v) as -> by (unfold abs_index; destruct (Z.ltb_spec 0 v); lia).
    split; [apply IZR_lt|apply lt_IZR].
  - reflexivity.
  - reflexivity.
  - intros v Hv. unfold size_index in Hv. apply le_IZR in Hv. lia.
Qed.

Lemma max_value_ok {A} (zero : A) abs ltb (get : pset -> list A) put (f : particle -> A) n ls mv k q l d idx :
  get (pset_of ls) = map f ls -> get d = map f l ->
  max_of zero abs ltb (map f ls) n = Some (mv, k) -> 0 <= 0 < Z.of_nat (length l) -> mv = f q ->
  max_value zero abs ltb get put n (pset_of ls) (d, idx) = Some (put (map f (upd l (Z.to_nat 0) q)) d, idx ++ [k]).
Proof.
  intros E1 E2 E Hl Ev. unfold max_value. rewrite E1, E. cbn [obind].
  rewrite (set_value_ok A get put f 0 q l d mv Hl E2 Ev). reflexivity.
Qed.

Lemma max_ok : forall dest src, pset_wf dest -> pset_wf src -> 0 < ps_num dest <= ps_num src ->
  exists d' idx q, get_max_value ROps dest src = Some (d', Some idx) /\ pset_wf d' /\ ps_num d' = ps_num dest /\
    pset_at d' 0 = Some q /\ (forall j, j <> 0 -> pset_at d' j = pset_at dest j) /\
    Forall2 (fun f k => largest size_real src (ps_num dest) f (f q) k) real_attributes (firstn 17 idx) /\
    Forall2 (fun f k => largest size_index src (ps_num dest) f (f q) k) index_attributes (skipn 17 idx).
Proof.
  intros dest src Wd Ws Hn. apply wf_pset_of in Wd as (l & ->). apply wf_pset_of in Ws as (ls & ->).
  rewrite !pset_of_num in *. unfold get_max_value. rewrite !pset_of_num.
  rewrite (proj2 (Z.ltb_lt 0 (Z.of_nat (length l)))), (proj2 (Z.ltb_lt 0 (Z.of_nat (length ls)))) by lia. cbn [andb]. cbv zeta.
  set (n := Z.of_nat (length l)) in *.
  assert (Hl : 0 <= 0 < Z.of_nat (length l)) by lia.
  destruct (real_attr (@p_q0 R) ls n Hn) as (m0 & k0 & E0 & G0).
  destruct (real_attr (@p_beta0 R) ls n Hn) as (m1 & k1 & E1 & G1).
  destruct (real_attr (@p_mass0 R) ls n Hn) as (m2 & k2 & E2 & G2).
  destruct (real_attr (@p_gamma0 R) ls n Hn) as (m3 & k3 & E3 & G3).
  destruct (real_attr (@p_p0c R) ls n Hn) as (m4 & k4 & E4 & G4).
  destruct (real_attr (@p_s R) ls n Hn) as (m5 & k5 & E5 & G5).
  destruct (real_attr (@p_x R) ls n Hn) as (m6 & k6 & E6 & G6).
  destruct (real_attr (@p_y R) ls n Hn) as (m7 & k7 & E7 & G7).
  destruct (real_attr (@p_px R) ls n Hn) as (m8 & k8 & E8 & G8).
  destruct (real_attr (@p_py R) ls n Hn) as (m9 & k9 & E9 & G9).
  destruct (real_attr (@p_zeta R) ls n Hn) as (m10 & k10 & E10 & G10).
  destruct (real_attr (@p_psigma R) ls n Hn) as (m11 & k11 & E11 & G11).
  destruct (real_attr (@p_delta R) ls n Hn) as (m12 & k12 & E12 & G12).
  destruct (real_attr (@p_rpp R) ls n Hn) as (m13 & k13 & E13 & G13).
  destruct (real_attr (@p_rvv R) ls n Hn) as (m14 & k14 & E14 & G14).
  destruct (real_attr (@p_chi R) ls n Hn) as (m15 & k15 & E15 & G15).
  destruct (real_attr (@p_charge_ratio R) ls n Hn) as (m16 & k16 & E16 & G16).
  destruct (index_attr (@p_particle_id R) ls n Hn) as (m17 & k17 & E17 & G17).
  destruct (index_attr (@p_at_element_id R) ls n Hn) as (m18 & k18 & E18 & G18).
  destruct (index_attr (@p_at_turn R) ls n Hn) as (m19 & k19 & E19 & G19).
  destruct (index_attr (@p_state R) ls n Hn) as (m20 & k20 & E20 & G20).
  set (q := mkParticle m0 m2 m1 m3 m4 m5 m6 m7 m8 m9 m10 m11 m12 m13 m14 m15 m16 m17 m18 m19 m20).
  exists (pset_of (upd l (Z.to_nat 0) q)),
    [k0; k1; k2; k3; k4; k5; k6; k7; k8; k9; k10; k11; k12; k13; k14; k15; k16; k17; k18; k19; k20], q.
  split.
  { unfold max_real, max_index, pset_of at 2. pred.
    repeat (eapply obind_some; [eapply (max_value_ok _ _ _ _ _ _ _ _ _ _ q); first [eassumption | reflexivity]|]; pred).
    cbn [fst snd app]. unfold pset_of. rewrite upd_length. reflexivity. }
  split; [apply pset_of_wf|]. rewrite pset_of_num, upd_length. split; [reflexivity|].
  rewrite pset_at_of, aget_upd by exact Hl. split; [reflexivity|]. split.
  { intros j Hj. rewrite !pset_at_of, aget_upd by exact Hl. now rewrite (proj2 (Z.eqb_neq j 0)). }
  split; repeat (apply Forall2_cons; [assumption|]); apply Forall2_nil.
Qed.

Lemma max_none : forall T (N : NumOps T) dest src, ps_num dest <= 0 \/ ps_num src <= 0 ->
  get_max_value N dest src = Some (dest, None).
Proof.
  intros T N dest src H. unfold get_max_value.
  destruct (Z.ltb_spec 0 (ps_num dest)), (Z.ltb_spec 0 (ps_num src)); try reflexivity. lia.
Qed.

End M.

Section B.
Variables (T : Type) (N : NumOps T).

Lemma for_from_app {S} (body : Z -> S -> option S) : forall m n i s,
  for_from body i (m + n) s = obind (for_from body i m s) (for_from body (i + Z.of_nat m) n).
Proof.
  induction m as [|m IH]; intros n i s; cbn [Nat.add for_from obind].
  - change (Z.of_nat 0) with 0. now rewrite Z.add_0_r.
  - destruct (body i s) as [s'|]; [|reflexivity]. cbn [obind]. rewrite IH.
    replace (i + 1 + Z.of_nat m) with (i + Z.of_nat (Datatypes.S m)) by lia. reflexivity.
Qed.

Lemma max_beyond {A} (zero : A) abs ltb a n : Z.of_nat (length a) < n -> max_of zero abs ltb a n = None.
Proof.
  intros H. unfold max_of.
  replace (Z.to_nat n) with (length a + Datatypes.S (Z.to_nat n - length a - 1))%nat by lia.
  rewrite for_from_app. destruct (for_from _ 0 (length a) _) as [[[u v] w]|]; [|reflexivity]. cbn [obind].
  cbn [for_from]. unfold max_step at 1. rewrite aget_none by lia. reflexivity.
Qed.

Lemma max_undefined : forall dest src : pset T, pset_wf src -> 0 < ps_num src < ps_num dest ->
  get_max_value N dest src = None.
Proof.
  intros dest src W H. unfold get_max_value.
  rewrite (proj2 (Z.ltb_lt 0 (ps_num dest))), (proj2 (Z.ltb_lt 0 (ps_num src))) by lia. cbn [andb]. cbv zeta.
  unfold max_real at 1. unfold max_value at 1. rewrite max_beyond; [reflexivity|].
  destruct W as (_ & W & _). lia.
Qed.

Lemma count_size o : (forall p, o = Part p -> pset_wf p) -> @count_of T o = size_of o.
Proof.
  intros W. destruct o as [p|]; cbn [count_of particles_of size_of]; [|reflexivity].
  destruct (W p eq_refl) as (W0 & _). unfold count_of. cbn [particles_of]. destruct (Z.ltb_spec 0 (ps_num p)); lia.
Qed.

Lemma same_structure_ok : forall lhs rhs : list (pobj T),
  (forall p, In (Part p) lhs \/ In (Part p) rhs -> pset_wf p) ->
  (same_structure lhs rhs = true <->
   Forall2 (fun l r => is_set l /\ is_set r /\ size_of l = size_of r) lhs rhs).
Proof.
  intros lhs rhs W. unfold same_structure.
  destruct (Z.eqb_spec (Z.of_nat (length lhs)) (Z.of_nat (length rhs))) as [L|L].
  - apply Nat2Z.inj in L. revert rhs L W. induction lhs as [|l lhs IH]; intros [|r rhs] L W; try discriminate.
    + split; [constructor|reflexivity].
    + cbn [same_structure_loop]. assert (IH' := IH rhs ltac:(cbn in L; lia) ltac:(intros p [H|H]; apply W; [left|right]; now right)).
      destruct l as [p|]; [|split; [discriminate|intros F; inversion F as [|? ? ? ? ((x & X) & _)]; discriminate]].
      destruct r as [p'|]; [|split; [discriminate|intros F; inversion F as [|? ? ? ? (_ & (x & X) & _)]; discriminate]].
      rewrite !count_size; [|intros x Hx; apply W; right; left; congruence|intros x Hx; apply W; left; left; congruence].
      destruct (Z.eqb_spec (size_of (Part p)) (size_of (Part p'))) as [E|E].
      * rewrite IH'. split; [intros F; constructor; [split; [eexists; reflexivity|split; [eexists; reflexivity|exact E]]|exact F]|].
        intros F. now inversion F.
      * split; [discriminate|]. intros F. inversion F as [|? ? ? ? (_ & _ & X)]. contradiction.
  - split; [discriminate|]. intros F. exfalso. apply L. f_equal. clear - F. induction F; cbn; congruence.
Qed.

(* the differences of two objects with the same number of particles *)
Definition obj_diff (l r d : pobj T) : Prop :=
  exists p1 p2 pd, l = Part p1 /\ r = Part p2 /\ d = Part pd /\ differences N p1 p2 pd.

Lemma empty_diff p1 p2 pd : pset_wf p1 -> pset_wf pd -> ps_num p1 = 0 -> ps_num pd = 0 -> differences N p1 p2 pd.
Proof.
  intros W1 Wd E1 Ed. split; [exact Wd|]. split; [lia|]. intros i q r Hq _. rewrite pset_at_none in Hq; [discriminate|exact W1|lia].
Qed.

Lemma buffers_ok : forall lhs rhs d,
  (forall p, In (Part p) lhs \/ In (Part p) rhs \/ In (Part p) d -> pset_wf p) ->
  same_structure lhs d = true -> same_structure rhs d = true ->
  exists d', buffers_difference N lhs rhs d = Some d' /\ length d' = length d /\
    forall i l r, nth_error lhs i = Some l -> nth_error rhs i = Some r ->
      exists x, nth_error d' i = Some x /\ obj_diff l r x.
Proof.
  intros lhs rhs d W S1 S2. unfold buffers_difference. rewrite S1, S2. cbn [andb].
  apply same_structure_ok in S1; [|intros p Hp; apply W; tauto].
  apply same_structure_ok in S2; [|intros p Hp; apply W; tauto].
  revert rhs S2 W. induction S1 as [|l x lhs d ((p1 & ->) & (px & ->) & E1) S1 IH]; intros rhs S2 W.
  - inversion S2. subst. exists []. cbn [difference_loop]. split; [reflexivity|]. split; [reflexivity|]. intros [|i] l r H; discriminate.
  - inversion S2 as [|r ? rhs' ? ((p2 & ->) & _ & E2) S2']. subst. cbn [size_of] in E1, E2. cbn [difference_loop].
    destruct (IH rhs' S2') as (rest & Er & Lr & Gr).
    { intros p [H|[H|H]]; apply W; [left; now right|right; left; now right|right; right; now right]. }
    assert (W1 : pset_wf p1) by (apply W; left; now left).
    assert (W2 : pset_wf p2) by (apply W; right; left; now left).
    assert (Wx : pset_wf px) by (apply W; right; right; now left).
    assert (X : exists x', match particles_of (Part p1), particles_of (Part p2), particles_of (Part px) with
          | Some pl, Some pr, Some px => obind (calculate_difference N pl pr px) (fun q => Some (Part q))
          | _, _, _ => Some (Part px)
          end = Some x' /\ obj_diff (Part p1) (Part p2) x').
    { cbn [particles_of]. rewrite <- E2 in E1. rewrite E1, E2.
      destruct (Z.ltb_spec 0 (ps_num px)) as [P|P].
      - destruct (difference_ok T N p1 p2 px W1 W2 Wx) as (pd & Ed & D); [lia|lia|lia|]. rewrite Ed. cbn [obind].
        exists (Part pd). split; [reflexivity|]. exists p1, p2, pd. auto.
      - exists (Part px). split; [reflexivity|]. exists p1, p2, px. split; [reflexivity|]. split; [reflexivity|]. split; [reflexivity|].
        destruct Wx as (Wx0 & Wx'). apply empty_diff; [exact W1|split; assumption|lia|lia]. }
    destruct X as (x' & Ex & Dx). rewrite Ex. cbn [obind]. rewrite Er. cbn [obind]. exists (x' :: rest).
    split; [reflexivity|]. split; [cbn [length]; lia|]. intros [|i] l r Hl Hr; cbn [nth_error] in *.
    + exists x'. split; [reflexivity|]. congruence.
    + now apply Gr.
Qed.

Lemma buffer_max_none : forall src dest done idx, buffer_max_loop N src dest done idx = None.
Proof.
  intros src dest. induction dest as [|d rest IH]; intros done idx; cbn [buffer_max_loop]; [reflexivity|].
  destruct (match particles_of d, particles_of src with
         | Some pd, Some ps => obind (get_max_value N pd ps) (fun r => Some (Part (fst r), snd r))
         | _, _ => Some (d, None)
         end) as [[d' k]|]; [|reflexivity]. cbn [obind]. apply IH.
Qed.

Lemma clear_ok : forall objs, (forall p, In (Part p) objs -> pset_wf p) ->
  exists objs', clear_particles N objs = Some objs' /\ length objs' = length objs /\
    forall i o, nth_error objs i = Some o ->
      match o with
      | Part p => exists p', nth_error objs' i = Some (Part p') /\ pset_wf p' /\ ps_num p' = ps_num p /\
                    forall j, 0 <= j < ps_num p -> exists q, pset_at p' j = Some q /\
                      Forall (fun f => f q = nzero N) real_attributes /\ Forall (fun f => f q = 0) index_attributes
      | Other => nth_error objs' i = Some Other
      end.
Proof.
  induction objs as [|o objs IH]; intros W.
  - exists []. cbn. split; [reflexivity|]. split; [reflexivity|]. intros [|i] o H; discriminate.
  - destruct IH as (rest & E & L & G); [intros p Hp; apply W; now right|]. cbn [clear_particles]. destruct o as [p|].
    + assert (Wp : pset_wf p) by (apply W; now left).
      destruct (clear_spec (nzero N) p Wp) as (p' & Ep & W' & N' & G'). rewrite Ep. cbn [obind]. rewrite E. cbn [obind].
      exists (Part p' :: rest). split; [reflexivity|]. split; [cbn [length]; lia|]. intros [|i] o H; cbn [nth_error] in *; [|now apply G].
      assert (o = Part p) as -> by congruence. exists p'. split; [reflexivity|]. split; [exact W'|]. split; [exact N'|].
      intros j Hj. eexists. split; [apply G'; exact Hj|]. split; repeat constructor.
    + rewrite E. cbn [obind]. exists (Other :: rest). split; [reflexivity|]. split; [cbn [length]; lia|].
      intros [|i] o H; cbn [nth_error] in *; [|now apply G]. assert (o = Other) as -> by congruence. reflexivity.
Qed.
End B.
