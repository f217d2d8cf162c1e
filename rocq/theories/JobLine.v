(* Setting up a track job: what happens to the beam line; the range of element ids. *)
From Coq Require Import ZArith List Bool Lia.
From Verif Require Import Num Particle Elements EbeConfig EbeSpec EbeProofs ParticleSet ParticleSetProofs
  ParticleIds ParticleSpec ParticleIdsProofs Output MonitorSpec OutputSpec PrepareProofs JobProofs.
Import ListNotations.
Local Open Scope Z_scope.

Section Line.
Context {T : Type}.
Variable blank : particle T.
Variable room : outsets T -> Z -> bool.

(* what the setup may change of a monitor: where it stores and for which particles *)
Definition monitor_kept (m m2 : monitor) : Prop :=
  m_num_stores m2 = m_num_stores m /\ m_start m2 = m_start m /\ m_skip m2 = m_skip m /\
  m_rolling m2 = m_rolling m /\ m_turn_ordered m2 = m_turn_ordered m.

Lemma nth_set_ids : forall a b (line : list (element T)) j,
  nth_error (set_all_ids a b line) j =
    option_map (fun be => match be with BMonitor m => BMonitor (mon_set_ids a b m) | _ => be end) (nth_error line j).
Proof. intros. unfold set_all_ids. apply nth_error_map. Qed.

Lemma job_line_ok : forall again order rolling objs idx until line outs job t0,
  job_sets objs idx ->
  (forall q, member_sets objs idx q -> t0 <= p_at_turn q) ->
  (exists q, member_sets objs idx q /\ p_at_turn q = t0) ->
  job_reset blank room again order rolling objs idx until line outs = Some (job, SUCCESS) ->
  length (j_line job) = length line /\
  (forall j be, nth_error line j = Some be -> (forall m, be <> BMonitor m) ->
     nth_error (j_line job) j = Some be) /\
  (forall j m, nth_error line j = Some (BMonitor m) ->
     exists m2, nth_error (j_line job) j = Some (BMonitor m2) /\ monitor_kept m m2 /\
       (takes_part t0 m -> exists k, m_out m2 = Some k) /\
       (takes_part t0 m \/ again = true -> forall q, member_sets objs idx q -> mon_accepts m2 (p_particle_id q)) /\
       (~ takes_part t0 m -> again = false -> m2 = m) /\
       (~ takes_part t0 m -> m_out m2 = m_out m)).
Proof.
  intros again order rolling objs idx until line outs job t0 Hsets Hmin Hatt H.
  destruct (job_particles_ok objs idx Hsets) as (m & Hjp & Hgm & Hr).
  destruct (ranges_valid objs idx m Hsets Hr) as (Hv & Hq & q3 & A3 & B3).
  assert (Ht0 : mm_min_turn m = t0).
  { destruct Hatt as (q4 & A4 & B4). specialize (Hmin _ A3). pose proof (Hq _ A4). lia. }
  unfold job_reset in H. rewrite Hjp in H. change (SUCCESS =? 0) with true in H. cbn [negb] in H.
  unfold job_elements in H.
  destruct (0 <? Z.of_nat (length line)) eqn:Hl; [|discriminate].
  apply Z.ltb_lt in Hl. destruct (forallb (@is_beam_element T) line) eqn:Hbe; cbn [andb] in H; [|discriminate].
  rewrite (counts_all line Hbe), range_all in H by lia.
  change (mkMinMax (mm_min_pid m) (mm_max_pid m) (keep_min (mm_min_elem m) 0)
    (keep_max (mm_max_elem m) (Z.of_nat (length line) - 1)) (mm_min_turn m) (mm_max_turn m))
    with (with_line m (length line)) in H.
  destruct (with_line_valid m (length line) Hv ltac:(lia)) as (Hv' & He0 & HeN).
  set (line' := if again && (mm_min_pid (with_line m (length line)) <=? mm_max_pid (with_line m (length line)))
    then set_all_ids (mm_min_pid (with_line m (length line))) (mm_max_pid (with_line m (length line))) line
    else line) in H.
  assert (Hp1 : mm_min_pid (with_line m (length line)) = mm_min_pid m) by reflexivity.
  assert (Hp2 : mm_max_pid (with_line m (length line)) = mm_max_pid m) by reflexivity.
  assert (Hl' : length line' = length line).
  { unfold line', set_all_ids. destruct (_ && _); [apply map_length|reflexivity]. }
  assert (Hc' : map (@counts T) line' = repeat true (length line)).
  { unfold line'. destruct (_ && _); rewrite ?counts_set_ids; apply counts_all; auto. }
  assert (Ho' : forall j be, nth_error line j = Some be -> (forall m, be <> BMonitor m) ->
     nth_error line' j = Some be).
  { intros j be Hj Hn. unfold line'. destruct (_ && _); auto. rewrite nth_set_ids, Hj.
    destruct be; try reflexivity. exfalso. eapply Hn; reflexivity. }
  assert (Hm' : forall j m0, nth_error line j = Some (BMonitor m0) ->
     exists m1, nth_error line' j = Some (BMonitor m1) /\ monitor_kept m0 m1 /\ m_out m1 = m_out m0 /\
       (again = true -> m_min_id m1 = mm_min_pid m /\ m_max_id m1 = mm_max_pid m) /\
       (again = false -> m1 = m0)).
  { intros j m0 Hj. unfold line'. rewrite Hp1, Hp2.
    replace (mm_min_pid m <=? mm_max_pid m) with true
      by (symmetry; apply Z.leb_le; destruct Hv as (? & _); lia).
    rewrite andb_true_r. destruct again.
    - eexists. rewrite nth_set_ids, Hj. split; [reflexivity|]. unfold monitor_kept. cbn.
      repeat split; auto. discriminate.
    - exists m0. unfold monitor_kept. repeat split; auto; discriminate. }
  rewrite Hgm in H. change (SUCCESS =? 0) with true in H. cbv iota in H.
  rewrite Hc', range_all in H by lia.
  change (mkMinMax (mm_min_pid m) (mm_max_pid m) (keep_min (mm_min_elem m) 0)
    (keep_max (mm_max_elem m) (Z.of_nat (length line) - 1)) (mm_min_turn m) (mm_max_turn m))
    with (with_line m (length line)) in H.
  rewrite required in H by (auto; lia).
  assert (Ht1 : mm_min_turn (with_line m (length line)) = t0) by exact Ht0.
  rewrite Ht1 in H.
  set (w := with_line m (length line)) in *.
  clearbody line'.
  (* no monitor takes part: the line is the one with the particle ids set *)
  assert (Hnone : forall line4, (forall j m0, nth_error line j = Some (BMonitor m0) -> ~ takes_part t0 m0) ->
    line4 = line' ->
    length line4 = length line /\
    (forall j be, nth_error line j = Some be -> (forall m, be <> BMonitor m) ->
       nth_error line4 j = Some be) /\
    (forall j m, nth_error line j = Some (BMonitor m) ->
     exists m2, nth_error line4 j = Some (BMonitor m2) /\ monitor_kept m m2 /\
       (takes_part t0 m -> exists k, m_out m2 = Some k) /\
       (takes_part t0 m \/ again = true -> forall q, member_sets objs idx q -> mon_accepts m2 (p_particle_id q)) /\
       (~ takes_part t0 m -> again = false -> m2 = m) /\
       (~ takes_part t0 m -> m_out m2 = m_out m))).
  { intros line4 Hn ->. split; auto. split; auto. intros j m0 Hj.
    destruct (Hm' _ _ Hj) as (m1 & E1 & E2 & E3 & E4 & E5). pose proof (Hn _ _ Hj) as Hnt.
    exists m1. split; auto. split; auto. split; [tauto|]. split; [|split; auto].
    intros [?|Ha] q Hmq; [tauto|]. destruct (E4 Ha) as (F1 & F2). unfold mon_accepts. rewrite F1, F2.
    apply Hq; auto. }
  assert (Hst : has_storing_monitor line' = false ->
    forall j m0, nth_error line j = Some (BMonitor m0) -> ~ takes_part t0 m0).
  { intros Hs j m0 Hj (_ & Hn). destruct (Hm' _ _ Hj) as (m1 & E1 & (E2 & _) & _).
    pose proof (has_storing_false _ _ Hs (nth_error_In _ _ E1)). lia. }
  destruct ((t0 <? until) || has_storing_monitor line') eqn:Hneed.
  2:{ apply orb_false_elim in Hneed as (Hn1 & Hn2).
      assert (job = mkJob w line' outs None 0 false false) as -> by congruence. cbn [j_line].
      apply Hnone; [exact (Hst Hn2)|reflexivity]. }
  destruct (job_output blank room order rolling w until line' outs) as [[line1 outs2] [[[[c k] off] un]|]] eqn:Hout;
    [|discriminate].
  unfold job_output in Hout.
  destruct (out_prepare_detailed blank room w until line' outs) as [[line3 outs3] [[[k3 off3] mt]|]] eqn:Hprep;
    [|discriminate].
  destruct (out_prepare_ok blank room _ _ _ _ _ _ _ _ _ Hv' Hprep) as (outs1 & -> & Hmp & _ & _).
  rewrite Ht1 in Hmp.
  assert (E : line1 = line3 /\ outs2 = outs3 /\ off = length outs1).
  { destruct (_ && _ && _ && _) in Hout;
      [destruct (ebe_init_detailed _ _ _ _ _ _ _ _) in Hout; [|discriminate]|]; repeat split; congruence. }
  destruct E as (-> & -> & ->).
  assert (Hline3 : has_storing_monitor line' = false -> line3 = line').
  { intros Hs. apply mon_prepare_inv in Hmp as (_ & _ & Hmp). apply prepare_loop_ok in Hmp as (-> & _).
    rewrite <- (map_id line') at 2. apply map_ext_in. intros be Hin. destruct be; try reflexivity.
    cbn [prep]. destruct (active t0 (BMonitor m0)) eqn:Ea; auto. exfalso.
    apply active_spec in Ea as (_ & Ea). pose proof (has_storing_false _ _ Hs Hin). lia. }
  assert (Hmon : forall line4 st, has_storing_monitor line' = true ->
    job_assign_monitors outs3 t0 (length outs1) line3 = (line4, st) -> st = SUCCESS ->
    length line4 = length line /\
    (forall j be, nth_error line j = Some be -> (forall m, be <> BMonitor m) ->
       nth_error line4 j = Some be) /\
    (forall j m, nth_error line j = Some (BMonitor m) ->
     exists m2, nth_error line4 j = Some (BMonitor m2) /\ monitor_kept m m2 /\
       (takes_part t0 m -> exists k, m_out m2 = Some k) /\
       (takes_part t0 m \/ again = true -> forall q, member_sets objs idx q -> mon_accepts m2 (p_particle_id q)) /\
       (~ takes_part t0 m -> again = false -> m2 = m) /\
       (~ takes_part t0 m -> m_out m2 = m_out m))).
  { intros line4 st Hs Ha ->. unfold job_assign_monitors in Ha.
    destruct (_ && _ && _) in Ha; [|discriminate].
    destruct (prepare_assign blank room _ _ _ _ _ _ _ _ Hmp Ha) as (P1 & P2 & P3 & _).
    split; [lia|]. split.
    { intros j be Hj Hn. apply P2; [auto|]. intros m0 ->. exfalso. eapply Hn; reflexivity. }
    intros j m0 Hj. destruct (Hm' _ _ Hj) as (m1 & E1 & E2 & E3 & E4 & E5).
    assert (Htp : takes_part t0 m1 <-> takes_part t0 m0).
    { destruct E2 as (F1 & F2 & _). unfold takes_part. rewrite F1, F2. tauto. }
    destruct (active t0 (BMonitor m1 : element T)) eqn:Eact.
    - assert (Ht : takes_part t0 m1) by (apply (proj1 (active_spec (T:=T) _ _)); exact Eact).
      destruct (P3 _ _ E1 Ht) as (m2 & k2 & l2 & G1 & G2 & G3 & _).
      destruct G2 as (S1 & S2 & S3 & S4 & S5 & S6 & S7). destruct E2 as (K1 & K2 & K3 & K4 & K5).
      exists m2. split; auto. split; [repeat split; congruence|]. split; [eauto|]. split; [|tauto].
      intros _ q Hmq. unfold mon_accepts. rewrite S6, S7, Hp1, Hp2. apply Hq; auto.
    - assert (Ht : ~ takes_part t0 m1).
      { intros Ht. apply (proj2 (active_spec (T:=T) _ _)) in Ht. congruence. }
      exists m1. split; [apply P2; [auto|]; intros ? Hx; assert (m1 = m2) as <- by congruence; auto|].
      split; auto. split; [tauto|]. split; [|split; auto].
      intros [?|Hag] q Hmq; [tauto|]. destruct (E4 Hag) as (F1 & F2). unfold mon_accepts. rewrite F1, F2.
      apply Hq; auto. }
  destruct (if t0 <? until then job_assign_ebe outs3 k c else (c, SUCCESS)) as [c' st] in H.
  destruct (st =? 0) eqn:Est.
  2:{ assert (st = SUCCESS) by congruence. subst st. discriminate. }
  destruct (has_storing_monitor line') eqn:Hs.
  - destruct (job_assign_monitors outs3 t0 (length outs1) line3) as [line4 st4] eqn:Ha.
    assert (st4 = SUCCESS) by congruence.
    assert (j_line job = line4) as -> by (assert (job = mkJob w line4 outs3 c' un (t0 <? until) (true && (st4 =? 0))) as -> by congruence; reflexivity).
    eapply Hmon; eauto.
  - assert (j_line job = line3) as ->
      by (assert (job = mkJob w line3 outs3 c' un (t0 <? until) (false && (SUCCESS =? 0))) as -> by congruence; reflexivity).
    apply Hnone; [apply Hst; auto|apply Hline3; auto].
Qed.

End Line.

(* ---------------- the range of element ids ---------------- *)

(* number of objects that count *)
Fixpoint num_true (types : list bool) : Z :=
  match types with [] => 0 | b :: r => (if b then 1 else 0) + num_true r end.

Lemma count_is : forall types, count_elements types = num_true types.
Proof. induction types as [|b r IH]; [reflexivity|]. cbn [count_elements num_true]. rewrite IH. reflexivity. Qed.

Lemma num_true_pos : forall types, 0 <= num_true types.
Proof. induction types as [|b r IH]; cbn [num_true]; [lia|destruct b; lia]. Qed.

Lemma first_element : forall a b start,
  find_first_element (repeat false a ++ true :: b) start = (start + Z.of_nat a, Some b).
Proof.
  induction a as [|a IH]; intros b start; cbn [repeat app find_first_element].
  - f_equal. lia.
  - rewrite IH. f_equal. lia.
Qed.

Lemma first_none : forall a start, find_first_element (repeat false a) start = (start + Z.of_nat a, None).
Proof.
  induction a as [|a IH]; intros start; cbn [repeat find_first_element]; [f_equal; lia|].
  rewrite IH. f_equal. lia.
Qed.

Lemma num_false : forall a, num_true (repeat false a) = 0.
Proof. induction a; auto. Qed.
Lemma num_all : forall a, num_true (repeat true a) = Z.of_nat a.
Proof. induction a as [|a IH]; [reflexivity|]. cbn [repeat num_true]. lia. Qed.
Lemma num_app : forall a b, num_true (a ++ b) = num_true a + num_true b.
Proof. induction a as [|x a IH]; intros b; [reflexivity|]. cbn [app num_true]. rewrite IH. destruct x; lia. Qed.

(* leading objects that do not count are skipped: the first element is the one after them *)
Lemma range_first : forall a b mn mx start, 0 <= start ->
  find_element_range (repeat false a ++ true :: b) mn mx start =
    Some (Z.min mn (start + Z.of_nat a), Z.max mx (start + Z.of_nat a + num_true b), 1 + num_true b).
Proof.
  intros a b mn mx start Hs. unfold find_element_range. rewrite first_element, count_is.
  pose proof (num_true_pos b).
  replace (0 <? Z.of_nat _) with true
    by (symmetry; apply Z.ltb_lt; rewrite app_length; cbn [length]; lia).
  replace (0 <=? start) with true by (symmetry; apply Z.leb_le; lia). cbn [andb].
  replace (1 + num_true b =? 0) with false by (symmetry; apply Z.eqb_neq; lia).
  replace (_ && _ && _) with true
    by (symmetry; rewrite !andb_true_iff, !Z.leb_le, Z.ltb_lt; lia).
  f_equal. f_equal. unfold keep_min, keep_max. f_equal.
  - destruct (Z.ltb_spec (start + Z.of_nat a) mn); lia.
  - destruct (Z.ltb_spec mx (start + Z.of_nat a + num_true b)); lia.
Qed.

Lemma range_none : forall a mn mx start r, find_element_range (repeat false a) mn mx start = Some r -> False.
Proof.
  intros a mn mx start r. unfold find_element_range. rewrite first_none.
  destruct (_ && _); [|discriminate]. change (0 =? 0) with true. cbv iota.
  replace (start <? start + 0) with false by (symmetry; apply Z.ltb_ge; lia).
  rewrite andb_false_r. discriminate.
Qed.

Lemma split_first : forall types : list bool,
  (exists a, types = repeat false a) \/ (exists a b, types = repeat false a ++ true :: b).
Proof.
  induction types as [|x r IH]; [left; exists 0%nat; reflexivity|]. destruct x.
  - right. exists 0%nat, r. reflexivity.
  - destruct IH as [(a & ->)|(a & b & ->)]; [left; exists (S a)|right; exists (S a), b]; reflexivity.
Qed.

Lemma num_filter : forall types, num_true types = Z.of_nat (length (filter (fun b : bool => b) types)).
Proof.
  induction types as [|b r IH]; [reflexivity|]. cbn [num_true filter]. destruct b; cbn [length]; lia.
Qed.

(* objects that count are contiguous, from the first one on: as many as the index of the last *)
Lemma contiguous_count : forall b k, nth_error b k = Some true ->
  (forall j, (j < k)%nat -> nth_error b j = Some true) -> Z.of_nat k + 1 <= num_true b.
Proof.
  induction b as [|x b IH]; intros k Hk Hall; [destruct k; discriminate|].
  cbn [num_true]. pose proof (num_true_pos b). destruct k as [|k].
  - assert (x = true) as -> by (cbn in Hk; congruence). lia.
  - assert (x = true) as -> by (specialize (Hall 0%nat ltac:(lia)); cbn in Hall; congruence).
    specialize (IH k Hk (fun j Hj => Hall (S j) ltac:(lia))). lia.
Qed.

Lemma element_range : forall types mn mx start mn' mx' n,
  find_element_range types mn mx start = Some (mn', mx', n) ->
  n = Z.of_nat (length (filter (fun b : bool => b) types)) /\
  (forall k, nth_error types k = Some true -> mn' <= start + Z.of_nat k) /\
  (exists k, nth_error types k = Some true /\ mn' = Z.min mn (start + Z.of_nat k) /\
     mx' = Z.max mx (start + Z.of_nat k + n - 1)) /\
  ((forall i j k, (i <= j <= k)%nat -> nth_error types i = Some true -> nth_error types k = Some true ->
      nth_error types j = Some true) ->
   forall k, nth_error types k = Some true -> start + Z.of_nat k <= mx').
Proof.
  intros types mn mx start mn' mx' n H.
  assert (Hs : 0 <= start).
  { unfold find_element_range in H. destruct (_ && _) eqn:E in H; [|discriminate].
    apply andb_prop in E as (_ & E). apply Z.leb_le in E. auto. }
  destruct (split_first types) as [(a & ->)|(a & b & ->)]; [exfalso; eapply range_none; eauto|].
  rewrite range_first in H by auto.
  assert (mn' = Z.min mn (start + Z.of_nat a)) as -> by congruence.
  assert (mx' = Z.max mx (start + Z.of_nat a + num_true b)) as -> by congruence.
  assert (n = 1 + num_true b) as -> by congruence. clear H.
  assert (Hlt : forall k, (k < a)%nat -> nth_error (repeat false a ++ true :: b) k = Some false).
  { intros k Hk. rewrite nth_error_app1 by (rewrite repeat_length; auto). apply nth_error_repeat; auto. }
  assert (Hge : forall k, (a <= k)%nat -> nth_error (repeat false a ++ true :: b) k = nth_error (true :: b) (k - a)).
  { intros k Hk. rewrite nth_error_app2 by (rewrite repeat_length; auto). rewrite repeat_length. reflexivity. }
  assert (Hk : forall k, nth_error (repeat false a ++ true :: b) k = Some true -> (a <= k)%nat).
  { intros k Hk. destruct (le_lt_dec a k); auto. rewrite Hlt in Hk by auto. discriminate. }
  split.
  { rewrite <- num_filter, num_app, num_false. cbn [num_true]. lia. }
  split; [intros k E; apply Hk in E; lia|]. split.
  - exists a. split; [rewrite Hge by lia; rewrite Nat.sub_diag; reflexivity|]. split; [reflexivity|]. f_equal. lia.
  - intros Hc k E. pose proof (Hk _ E).
    assert (Ha : nth_error (repeat false a ++ true :: b) a = Some true)
      by (rewrite Hge by lia; rewrite Nat.sub_diag; reflexivity).
    destruct (Nat.eq_dec k a) as [->|]; [pose proof (num_true_pos b); lia|].
    assert (Z.of_nat (k - a - 1) + 1 <= num_true b); [|lia].
    apply contiguous_count.
    + rewrite Hge in E by lia. replace (k - a)%nat with (S (k - a - 1)) in E by lia. exact E.
    + intros j Hj. specialize (Hc a (a + 1 + j)%nat k ltac:(lia) Ha E). rewrite Hge in Hc by lia.
      replace (a + 1 + j - a)%nat with (S j) in Hc by lia. exact Hc.
Qed.
