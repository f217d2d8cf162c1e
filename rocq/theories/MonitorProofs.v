(* Proofs about the storage positions of beam monitors. *)
From Coq Require Import ZArith List Bool Lia.
From Verif Require Import Tac Elements MonitorSpec Output.
Import ListNotations.
Local Open Scope Z_scope.

Lemma rem_mod : forall a b, 0 <= a -> 0 < b -> Z.rem a b = a mod b.
Proof. intros. apply Z.rem_mod_nonneg; lia. Qed.
Lemma quot_div : forall a b, 0 <= a -> 0 < b -> Z.quot a b = a / b.
Proof. intros. apply Z.quot_div_nonneg; lia. Qed.

(* index of a sample that is stored *)
Lemma index_sample : forall m t i pid, mon_ready m -> sample m t i -> mon_keeps m i ->
  monitor_store_index m t pid =
    if m_turn_ordered m then mon_particles m * (i mod m_num_stores m) + (pid - m_min_id m)
    else (pid - m_min_id m) * mon_particles m + i mod m_num_stores m.
Proof.
  intros m t i pid (Hn & Hs & Hm) (Hi & ->) Hk. unfold monitor_store_index.
  replace (m_start m + i * m_skip m - m_start m) with (i * m_skip m) by lia.
  rewrite rem_mod, quot_div by nia. rewrite Z.mod_mul, Z.div_mul by lia.
  replace (0 <=? i * m_skip m) with true by (symmetry; apply Z.leb_le; nia). cbn [andb Z.eqb].
  rewrite (Z.rem_mod_nonneg i) by lia.
  assert (E : (if (m_num_stores m <=? i) && m_rolling m then i mod m_num_stores m else i)
              = i mod m_num_stores m).
  { destruct (m_num_stores m <=? i) eqn:E; cbn [andb].
    - destruct Hk as [->|Hk]; [reflexivity|]. apply Z.leb_le in E. lia.
    - apply Z.leb_gt in E. symmetry. apply Z.mod_small. lia. }
  rewrite E. pose proof (Z.mod_pos_bound i _ Hn).
  replace (i mod m_num_stores m <? m_num_stores m) with true by (symmetry; apply Z.ltb_lt; lia).
  reflexivity.
Qed.

Lemma in_slots : forall m t i pid, mon_ready m -> m_turn_ordered m = true ->
  sample m t i -> mon_keeps m i -> mon_accepts m pid ->
  0 <= monitor_store_index m t pid < mon_slots m.
Proof.
  intros m t i pid Hr Ho Hs Hk Hp. rewrite (index_sample _ _ _ _ Hr Hs Hk), Ho.
  destruct Hr as (Hn & _ & Hm). pose proof (Z.mod_pos_bound i _ Hn).
  unfold mon_slots, mon_particles, mon_accepts in *. nia.
Qed.

Lemma same_store_mod : forall m i j, mon_ready m ->
  (i mod m_num_stores m = j mod m_num_stores m <-> same_store m i j).
Proof.
  intros m i j (Hn & _). unfold same_store. split.
  - intros E. pose proof (Z.div_mod i (m_num_stores m) ltac:(lia)).
    pose proof (Z.div_mod j (m_num_stores m) ltac:(lia)).
    exists (i / m_num_stores m - j / m_num_stores m). nia.
  - intros (k & E). replace i with (j + k * m_num_stores m) by lia.
    apply Z.mod_add. lia.
Qed.

Lemma collision : forall m t1 i1 p1 t2 i2 p2, mon_ready m -> m_turn_ordered m = true ->
  sample m t1 i1 -> mon_keeps m i1 -> mon_accepts m p1 ->
  sample m t2 i2 -> mon_keeps m i2 -> mon_accepts m p2 ->
  (monitor_store_index m t1 p1 = monitor_store_index m t2 p2 <-> p1 = p2 /\ same_store m i1 i2).
Proof.
  intros m t1 i1 p1 t2 i2 p2 Hr Ho Hs1 Hk1 Hp1 Hs2 Hk2 Hp2.
  rewrite (index_sample _ _ _ p1 Hr Hs1 Hk1), (index_sample _ _ _ p2 Hr Hs2 Hk2), Ho.
  rewrite <- same_store_mod by auto.
  destruct Hr as (Hn & _ & Hm).
  pose proof (Z.mod_pos_bound i1 _ Hn). pose proof (Z.mod_pos_bound i2 _ Hn).
  unfold mon_particles, mon_accepts in *. split.
  - intros E. set (np := m_max_id m - m_min_id m + 1) in *.
    assert (i1 mod m_num_stores m = i2 mod m_num_stores m).
    { set (a := i1 mod m_num_stores m) in *. set (b := i2 mod m_num_stores m) in *.
      destruct (Z.lt_trichotomy a b) as [L|[L|L]]; auto; exfalso.
      - assert (np * (a + 1) <= np * b) by (apply Z.mul_le_mono_nonneg_l; subst np; lia). lia.
      - assert (np * (b + 1) <= np * a) by (apply Z.mul_le_mono_nonneg_l; subst np; lia). lia. }
    split; auto. rewrite H1 in E. lia.
  - intros (-> & ->). reflexivity.
Qed.

Lemma same_store_first : forall m i j, m_rolling m = false -> mon_ready m ->
  0 <= i -> 0 <= j -> mon_keeps m i -> mon_keeps m j -> same_store m i j -> i = j.
Proof.
  intros m i j Hr (Hn & _) Hi Hj [Ki|Ki] [Kj|Kj] (k & E); try congruence.
  assert (k = 0) by nia. subst. lia.
Qed.

Lemma not_sampled : forall m t pid, mon_ready m -> (forall i, ~ sample m t i) ->
  monitor_store_index m t pid = -1.
Proof.
  intros m t pid (Hn & Hs & _) H. unfold monitor_store_index.
  destruct (0 <=? t - m_start m) eqn:E; [|reflexivity]. apply Z.leb_le in E. cbn [andb].
  rewrite rem_mod by lia.
  destruct ((t - m_start m) mod m_skip m =? 0) eqn:E0; [|reflexivity]. apply Z.eqb_eq in E0.
  exfalso. apply (H ((t - m_start m) / m_skip m)).
  pose proof (Z.div_mod (t - m_start m) (m_skip m) ltac:(lia)).
  split; [apply Z.div_pos; lia|nia].
Qed.

Lemma not_kept : forall m t i pid, mon_ready m -> sample m t i -> ~ mon_keeps m i ->
  monitor_store_index m t pid = -1.
Proof.
  intros m t i pid (Hn & Hs & _) (Hi & ->) Hk. unfold monitor_store_index.
  replace (m_start m + i * m_skip m - m_start m) with (i * m_skip m) by lia.
  rewrite rem_mod, quot_div by nia. rewrite Z.mod_mul, Z.div_mul by lia.
  replace (0 <=? i * m_skip m) with true by (symmetry; apply Z.leb_le; nia). cbn [andb Z.eqb].
  unfold mon_keeps in Hk. destruct (m_rolling m); [exfalso; apply Hk; auto|].
  rewrite andb_false_r. destruct (i <? m_num_stores m) eqn:E; [|reflexivity].
  apply Z.ltb_lt in E. exfalso; apply Hk; auto.
Qed.

Lemma sample_dec : forall m t, mon_ready m -> (exists i, sample m t i) \/ (forall i, ~ sample m t i).
Proof.
  intros m t (Hn & Hs & _).
  destruct (Z.leb_spec (m_start m) t).
  - destruct (Z.eq_dec ((t - m_start m) mod m_skip m) 0) as [E|E].
    + left. exists ((t - m_start m) / m_skip m).
      pose proof (Z.div_mod (t - m_start m) (m_skip m) ltac:(lia)).
      split; [apply Z.div_pos; lia|nia].
    + right. intros i (Hi & ->). apply E.
      replace (m_start m + i * m_skip m - m_start m) with (i * m_skip m) by lia.
      apply Z.mod_mul. lia.
  - right. intros i (Hi & ->). nia.
Qed.

Lemma keeps_dec : forall m i, mon_keeps m i \/ ~ mon_keeps m i.
Proof.
  intros. unfold mon_keeps. destruct (m_rolling m); [auto|].
  destruct (Z.ltb_spec i (m_num_stores m)); [auto|right; intros [|]; [discriminate|lia]].
Qed.

Lemma sample_fun : forall m t i j, mon_ready m -> sample m t i -> sample m t j -> i = j.
Proof. intros m t i j (_ & Hs & _) (_ & ->) (_ & E). nia. Qed.

(* any non-negative index is that of a stored sample *)
Lemma index_nonneg : forall m t pid, mon_ready m -> 0 <= monitor_store_index m t pid ->
  exists i, sample m t i /\ mon_keeps m i.
Proof.
  intros m t pid Hr H. destruct (sample_dec m t Hr) as [(i & Hi)|Hn].
  - destruct (keeps_dec m i) as [Hk|Hk]; [eauto|].
    rewrite (not_kept _ _ _ pid Hr Hi Hk) in H. lia.
  - rewrite (not_sampled _ _ pid Hr Hn) in H. lia.
Qed.

(* ---- particle order ---- *)
Lemma particle_order_index : forall m t i p, mon_ready m -> m_turn_ordered m = false ->
  sample m t i -> mon_keeps m i ->
  monitor_store_index m t p = (p - m_min_id m) * mon_particles m + i mod m_num_stores m.
Proof. intros m t i p Hr Ho Hs Hk. rewrite (index_sample _ _ _ p Hr Hs Hk), Ho. reflexivity. Qed.

(* the layout is right for one particle, or for as many stores as particles, only *)
Definition layout_ok (m : monitor) : Prop :=
  (forall t i p, sample m t i -> mon_keeps m i -> mon_accepts m p ->
     0 <= monitor_store_index m t p < mon_slots m) /\
  (forall t1 i1 p1 t2 i2 p2, sample m t1 i1 -> mon_keeps m i1 -> mon_accepts m p1 ->
     sample m t2 i2 -> mon_keeps m i2 -> mon_accepts m p2 ->
     monitor_store_index m t1 p1 = monitor_store_index m t2 p2 ->
     p1 = p2 /\ same_store m i1 i2).

Lemma particle_order_ok : forall m, mon_ready m -> m_turn_ordered m = false ->
  (layout_ok m <-> mon_particles m = 1 \/ mon_particles m = m_num_stores m).
Proof.
  intros m Hr Ho. pose proof Hr as (Hn & Hsk & Hm).
  assert (Hx : forall t i p, sample m t i -> mon_keeps m i ->
    monitor_store_index m t p = (p - m_min_id m) * mon_particles m + i mod m_num_stores m)
    by (intros; eapply particle_order_index; eauto).
  assert (Hnp : 1 <= mon_particles m) by (unfold mon_particles; lia).
  assert (Ha : forall p, mon_accepts m p <-> 0 <= p - m_min_id m < mon_particles m)
    by (intros; unfold mon_accepts, mon_particles; lia).
  assert (Hsm : forall i, 0 <= i -> sample m (m_start m + i * m_skip m) i) by (intros; split; auto).
  split.
  - intros (Hin & Hinj).
    destruct (Z.eq_dec (mon_particles m) 1) as [E|E]; [auto|right].
    assert (Hlast : mon_accepts m (m_max_id m)) by (unfold mon_accepts; lia).
    assert (Kl : mon_keeps m (m_num_stores m - 1)) by (right; lia).
    pose proof (Hin _ _ _ (Hsm (m_num_stores m - 1) ltac:(lia)) Kl Hlast) as Hb.
    rewrite (Hx _ _ _ (Hsm (m_num_stores m - 1) ltac:(lia)) Kl) in Hb.
    rewrite Z.mod_small in Hb by lia. unfold mon_slots in Hb.
    assert (m_max_id m - m_min_id m = mon_particles m - 1) by (unfold mon_particles; lia).
    assert (mon_particles m <= m_num_stores m) by nia.
    destruct (Z.eq_dec (mon_particles m) (m_num_stores m)) as [E2|E2]; [auto|exfalso].
    assert (K0 : mon_keeps m 0) by (right; lia).
    assert (Kn : mon_keeps m (mon_particles m)) by (right; lia).
    assert (A0 : mon_accepts m (m_min_id m)) by (unfold mon_accepts; lia).
    assert (A1 : mon_accepts m (m_min_id m + 1)) by (apply Ha; lia).
    pose proof (Hinj _ _ (m_min_id m + 1) _ _ (m_min_id m) (Hsm 0 ltac:(lia)) K0 A1
                  (Hsm (mon_particles m) ltac:(lia)) Kn A0) as Hc.
    rewrite (Hx _ _ _ (Hsm 0 ltac:(lia)) K0), (Hx _ _ _ (Hsm (mon_particles m) ltac:(lia)) Kn) in Hc.
    rewrite !Z.mod_small in Hc by lia. destruct Hc as (Hc & _); lia.
  - intros Hcase. split.
    + intros t i p Hs Hk Hp. rewrite (Hx _ _ _ Hs Hk). apply Ha in Hp.
      pose proof (Z.mod_pos_bound i _ Hn). unfold mon_slots.
      destruct Hcase as [E|E].
      * rewrite E in *. nia.
      * rewrite <- E in *. nia.
    + intros t1 i1 p1 t2 i2 p2 Hs1 Hk1 Hp1 Hs2 Hk2 Hp2 E.
      rewrite (Hx _ _ _ Hs1 Hk1), (Hx _ _ _ Hs2 Hk2) in E.
      apply Ha in Hp1. apply Ha in Hp2. rewrite <- same_store_mod by auto.
      pose proof (Z.mod_pos_bound i1 _ Hn). pose proof (Z.mod_pos_bound i2 _ Hn).
      set (a := i1 mod m_num_stores m) in *. set (b := i2 mod m_num_stores m) in *.
      set (u := p1 - m_min_id m) in *. set (v := p2 - m_min_id m) in *.
      assert (u = v).
      { destruct Hcase as [E1|E1]; rewrite E1 in *; [lia|].
        assert (u - v < 1) by nia. assert (v - u < 1) by nia. lia. }
      split; [lia|]. rewrite H1 in E. lia.
Qed.

(* ---- has_turn_stored ---- *)
Lemma has_turn_sample : forall m n t i, mon_ready m -> 0 <= m_start m -> sample m t i -> t < n ->
  (mon_has_turn_stored m t n = true <-> still_stored m n i).
Proof.
  intros m n t i Hr H0 Hs Hn. pose proof Hr as (Hns & Hsk & _). pose proof Hs as (Hi & Ht).
  unfold mon_has_turn_stored.
  replace (0 <=? m_start m) with true by (symmetry; apply Z.leb_le; lia).
  replace (m_start m <=? t) with true by (symmetry; apply Z.leb_le; nia).
  replace (0 <? m_num_stores m) with true by (symmetry; apply Z.ltb_lt; lia).
  replace (0 <? m_skip m) with true by (symmetry; apply Z.ltb_lt; lia).
  replace (t <=? n) with true by (symmetry; apply Z.leb_le; lia). cbn [andb orb].
  cbv zeta.
  replace (t - m_start m) with (i * m_skip m) by lia.
  rewrite rem_mod, quot_div by nia. rewrite Z.mod_mul, Z.div_mul by lia. cbn [Z.eqb].
  destruct (m_rolling m) eqn:Er; cbn [negb].
  - replace (m_start m <? n) with true by (symmetry; apply Z.ltb_lt; nia).
    rewrite rem_mod, quot_div by nia.
    set (d := n - m_start m) in *.
    pose proof (Z.div_mod d (m_skip m) ltac:(lia)) as Hd. pose proof (Z.mod_pos_bound d (m_skip m) Hsk).
    set (S0 := if negb (d mod m_skip m =? 0) then d / m_skip m + 1 else d / m_skip m).
    assert (HS : forall j, 0 <= j -> (m_start m + j * m_skip m < n <-> j < S0)).
    { intros j Hj. subst S0. destruct (Z.eqb_spec (d mod m_skip m) 0) as [E|E]; cbn [negb]; split; intros; subst d.
      - rewrite E in Hd. nia.
      - rewrite E in Hd. nia.
      - nia.
      - nia. }
    split.
    + intros E. apply Z.leb_le in E. split; [left; auto|].
      intros j (Hj & _) Hjn Hij _ (k & Hk). apply HS in Hjn; [|lia].
      assert (k < 0) by nia. nia.
    + intros (_ & Hst). apply Z.leb_le.
      destruct (Z.leb_spec S0 (i + m_num_stores m)); auto. exfalso.
      apply (Hst (i + m_num_stores m)).
      * split; [lia|auto].
      * apply HS; lia.
      * lia.
      * left; auto.
      * exists (-1). lia.
  - split.
    + intros E. apply Z.ltb_lt in E. split; [right; auto|].
      intros j (Hj & _) _ Hij [Hk|Hk] (k & E2); [congruence|].
      assert (k < 0) by nia. nia.
    + intros ([Hk|Hk] & _); [congruence|]. apply Z.ltb_lt. exact Hk.
Qed.

Lemma has_turn_other : forall m n t, mon_ready m -> (forall i, ~ sample m t i) ->
  mon_has_turn_stored m t n = false.
Proof.
  intros m n t (Hn & Hs & _) H. unfold mon_has_turn_stored.
  destruct (_ && _ && _ && _ && _) eqn:E; [|reflexivity].
  repeat (apply andb_prop in E as (E & ?)).
  destruct (m_start m <=? t) eqn:E1; [|reflexivity]. apply Z.leb_le in E1. cbv zeta.
  rewrite rem_mod by lia. destruct (_ =? 0) eqn:E0; [|reflexivity]. apply Z.eqb_eq in E0.
  exfalso. apply (H ((t - m_start m) / m_skip m)).
  pose proof (Z.div_mod (t - m_start m) (m_skip m) ltac:(lia)).
  split; [apply Z.div_pos; lia|nia].
Qed.

Lemma has_turn_future : forall m n t, 0 <= n < t -> mon_has_turn_stored m t n = false.
Proof.
  intros m n t H. unfold mon_has_turn_stored.
  replace (t <=? n) with false by (symmetry; apply Z.leb_gt; lia).
  replace (n <? 0) with false by (symmetry; apply Z.ltb_ge; lia).
  cbn [orb]. rewrite andb_false_r. reflexivity.
Qed.
