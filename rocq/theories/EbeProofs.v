(* Proofs about the element-by-element storage index. *)
From Coq Require Import ZArith Bool Lia.
From Coq Require Import ZifyBool.
From Verif Require Import EbeConfig EbeSpec.
Local Open Scope Z_scope.

(* what a made configuration looks like *)
Lemma made_inv : forall c, ebe_made c ->
  e_order c = 0 /\ 0 <= e_min_pid c <= e_max_pid c /\ 0 <= e_min_eid c <= e_max_eid c /\
  0 <= e_min_turn c <= e_max_turn c /\
  e_np c = e_max_pid c - e_min_pid c + 1 /\ e_ne c = e_max_eid c - e_min_eid c + 1 /\
  e_nt c = e_max_turn c - e_min_turn c + 1.
Proof.
  intros c (a & b & d & e & f & g & r & k & c0 & H & ->).
  unfold ebe_init_detailed in H.
  destruct (_ && _) eqn:Hc in H; [|discriminate].
  injection H as <-; cbn; unfold ORDER_TURN_ELEM_PARTICLES, ORDER_INVALID in *; lia.
Qed.

(* the arithmetic core: mixed radix *)
Definition flat (np ne p e t : Z) : Z := t * np * ne + e * np + p.

Lemma flat_bounds : forall np ne nt p e t,
  0 <= p < np -> 0 <= e < ne -> 0 <= t < nt -> 0 <= flat np ne p e t < np * ne * nt.
Proof.
  intros; unfold flat.
  assert (e * np + p < ne * np) by nia.
  assert (0 <= e * np) by nia.
  assert (t * (np * ne) + (ne * np) <= nt * (np * ne)) by nia.
  assert (0 <= t * (np * ne)) by nia.
  replace (t * np * ne) with (t * (np * ne)) by ring. nia.
Qed.

Lemma flat_div : forall np ne p e t, 0 <= p < np -> 0 <= e < ne ->
  flat np ne p e t / (np * ne) = t /\
  (flat np ne p e t mod (np * ne)) / np = e /\
  (flat np ne p e t mod (np * ne)) mod np = p.
Proof.
  intros np ne p e t Hp He; unfold flat.
  assert (Hr : 0 <= e * np + p < np * ne) by nia.
  assert (Hq : t * np * ne + e * np + p = (np * ne) * t + (e * np + p)) by ring.
  rewrite Hq.
  assert (Hd : ((np * ne) * t + (e * np + p)) / (np * ne) = t)
    by (symmetry; apply Z.div_unique with (e * np + p); lia).
  assert (Hm : ((np * ne) * t + (e * np + p)) mod (np * ne) = e * np + p)
    by (symmetry; apply Z.mod_unique with t; lia).
  rewrite Hd, Hm. repeat split.
  - symmetry; apply Z.div_unique with p; lia.
  - symmetry; apply Z.mod_unique with e; lia.
Qed.

Lemma flat_inv : forall np ne i, 0 < np -> 0 < ne -> 
  flat np ne ((i mod (np * ne)) mod np) ((i mod (np * ne)) / np) (i / (np * ne)) = i.
Proof.
  intros; unfold flat.
  pose proof (Z.div_mod i (np * ne) ltac:(nia)).
  pose proof (Z.div_mod (i mod (np * ne)) np ltac:(lia)). nia.
Qed.

Lemma flat_rolling_mod : forall np ne nt p e t,
  0 <= p < np -> 0 <= e < ne -> 0 < nt -> 0 <= t ->
  flat np ne p e t mod (np * ne * nt) = flat np ne p e (t mod nt).
Proof.
  intros. pose proof (flat_bounds np ne nt p e (t mod nt) H H0 (Z.mod_pos_bound t nt H1)).
  symmetry; apply Z.mod_unique with (t / nt); [lia|].
  unfold flat. pose proof (Z.div_mod t nt ltac:(lia)). nia.
Qed.

(* the index computed by the code on a covered triple *)
Lemma index_covered : forall c pid eid turn, ebe_made c -> ebe_covers c pid eid turn ->
  ebe_store_index c pid eid turn =
    flat (e_np c) (e_ne c) (pid - e_min_pid c) (eid - e_min_eid c) (turn - e_min_turn c) /\
  0 <= ebe_store_index c pid eid turn < ebe_capacity c.
Proof.
  intros c pid eid turn Hm (Hp & He & Ht).
  destruct (made_inv c Hm) as (Ho & Ip & Ie & It & Enp & Ene & Ent).
  unfold ebe_store_index, ebe_capacity.
  replace (_ && _) with true by lia.
  rewrite Ho; cbn [Z.eqb ORDER_TURN_ELEM_PARTICLES].
  change (0 =? ORDER_TURN_ELEM_PARTICLES) with true. cbv iota beta zeta.
  fold (flat (e_np c) (e_ne c) (pid - e_min_pid c) (eid - e_min_eid c) (turn - e_min_turn c)).
  pose proof (flat_bounds (e_np c) (e_ne c) (e_nt c) (pid - e_min_pid c) (eid - e_min_eid c)
    (turn - e_min_turn c) ltac:(lia) ltac:(lia) ltac:(lia)) as B.
  replace (e_np c * e_ne c * e_nt c <=? _) with false by lia. cbn.
  split; [reflexivity|]. rewrite <- Enp, <- Ene, <- Ent. exact B.
Qed.

Lemma index_injective : forall c p1 e1 t1 p2 e2 t2, ebe_made c ->
  ebe_covers c p1 e1 t1 -> ebe_covers c p2 e2 t2 ->
  ebe_store_index c p1 e1 t1 = ebe_store_index c p2 e2 t2 -> p1 = p2 /\ e1 = e2 /\ t1 = t2.
Proof.
  intros c p1 e1 t1 p2 e2 t2 Hm H1 H2 E.
  destruct (index_covered c _ _ _ Hm H1) as (E1 & _).
  destruct (index_covered c _ _ _ Hm H2) as (E2 & _).
  rewrite E1, E2 in E.
  destruct (made_inv c Hm) as (Ho & Ip & Ie & It & Enp & Ene & Ent).
  destruct H1 as (A1 & A2 & A3), H2 as (B1 & B2 & B3).
  pose proof (flat_div (e_np c) (e_ne c) (p1 - e_min_pid c) (e1 - e_min_eid c)
    (t1 - e_min_turn c) ltac:(lia) ltac:(lia)) as (D1 & D2 & D3).
  pose proof (flat_div (e_np c) (e_ne c) (p2 - e_min_pid c) (e2 - e_min_eid c)
    (t2 - e_min_turn c) ltac:(lia) ltac:(lia)) as (F1 & F2 & F3).
  rewrite E in D1, D2, D3. lia.
Qed.

Lemma of_index : forall c i, ebe_made c -> 0 <= i < ebe_capacity c ->
  ebe_covers c (ebe_pid_of_index c i) (ebe_eid_of_index c i) (ebe_turn_of_index c i) /\
  ebe_store_index c (ebe_pid_of_index c i) (ebe_eid_of_index c i) (ebe_turn_of_index c i) = i.
Proof.
  intros c i Hm Hi.
  destruct (made_inv c Hm) as (Ho & Ip & Ie & It & Enp & Ene & Ent).
  unfold ebe_capacity in Hi. rewrite <- Enp, <- Ene, <- Ent in Hi.
  assert (Q : 0 < e_np c * e_ne c) by nia.
  pose proof (Z.mod_pos_bound i (e_np c * e_ne c) Q) as M1.
  pose proof (Z.mod_pos_bound (i mod (e_np c * e_ne c)) (e_np c) ltac:(lia)) as M2.
  pose proof (Z.div_pos i (e_np c * e_ne c) ltac:(lia) Q) as M3.
  pose proof (Z.div_pos (i mod (e_np c * e_ne c)) (e_np c) ltac:(lia) ltac:(lia)) as M4.
  assert (M5 : i / (e_np c * e_ne c) < e_nt c) by (apply Z.div_lt_upper_bound; lia).
  assert (M6 : (i mod (e_np c * e_ne c)) / e_np c < e_ne c)
    by (apply Z.div_lt_upper_bound; lia).
  assert (A : ebe_pid_of_index c i = (i mod (e_np c * e_ne c)) mod e_np c + e_min_pid c /\
              ebe_eid_of_index c i = (i mod (e_np c * e_ne c)) / e_np c + e_min_eid c /\
              ebe_turn_of_index c i = i / (e_np c * e_ne c) + e_min_turn c).
  { unfold ebe_pid_of_index, ebe_eid_of_index, ebe_turn_of_index, ebe_out_store_num.
    rewrite Ho. change (0 =? ORDER_TURN_ELEM_PARTICLES) with true. cbv iota beta zeta.
    replace ((0 <=? i) && (i <? e_np c * e_ne c * e_nt c)) with true by lia. cbv iota.
    rewrite (Z.rem_mod_nonneg i (e_np c * e_ne c)) by lia.
    rewrite (Z.rem_mod_nonneg (i mod (e_np c * e_ne c))) by lia.
    rewrite !Z.quot_div_nonneg by lia.
    repeat split.
    - replace (0 <=? _) with true by lia. reflexivity.
    - replace (0 <=? _) with true by lia. reflexivity.
    - replace (0 <=? _) with true by lia. reflexivity. }
  destruct A as (A1 & A2 & A3). rewrite A1, A2, A3.
  assert (C : ebe_covers c ((i mod (e_np c * e_ne c)) mod e_np c + e_min_pid c)
               ((i mod (e_np c * e_ne c)) / e_np c + e_min_eid c)
               (i / (e_np c * e_ne c) + e_min_turn c)) by (unfold ebe_covers; lia).
  split; [exact C|].
  destruct (index_covered c _ _ _ Hm C) as (-> & _).
  rewrite !Z.add_simpl_r. apply flat_inv; lia.
Qed.

Lemma inverse : forall c pid eid turn, ebe_made c -> ebe_covers c pid eid turn ->
  ebe_pid_of_index c (ebe_store_index c pid eid turn) = pid /\
  ebe_eid_of_index c (ebe_store_index c pid eid turn) = eid /\
  ebe_turn_of_index c (ebe_store_index c pid eid turn) = turn.
Proof.
  intros c pid eid turn Hm Hc.
  destruct (index_covered c _ _ _ Hm Hc) as (_ & B).
  destruct (of_index c _ Hm B) as (C & E).
  apply (index_injective c); assumption.
Qed.

Lemma rejected : forall c pid eid turn, ebe_made c -> e_rolling c = false ->
  ~ ebe_covers c pid eid turn -> ebe_store_index c pid eid turn = -1.
Proof.
  intros c pid eid turn Hm Hr Hn. unfold ebe_store_index. rewrite Hr.
  replace (_ && _) with false; [reflexivity|].
  unfold ebe_covers in Hn. lia.
Qed.

Lemma out_of_capacity : forall c i, ebe_made c -> ~ (0 <= i < ebe_capacity c) ->
  ebe_pid_of_index c i = -1 /\ ebe_eid_of_index c i = -1 /\ ebe_turn_of_index c i = -1.
Proof.
  intros c i Hm Hn.
  destruct (made_inv c Hm) as (Ho & Ip & Ie & It & Enp & Ene & Ent).
  unfold ebe_capacity in Hn. rewrite <- Enp, <- Ene, <- Ent in Hn.
  unfold ebe_pid_of_index, ebe_eid_of_index, ebe_turn_of_index, ebe_out_store_num.
  replace ((0 <=? i) && (i <? e_np c * e_ne c * e_nt c)) with false by lia. auto.
Qed.

(* rolling *)
Lemma rolling_index : forall c pid eid turn, ebe_made c -> e_rolling c = true ->
  e_min_pid c <= pid <= e_max_pid c -> e_min_eid c <= eid <= e_max_eid c ->
  e_min_turn c <= turn ->
  ebe_store_index c pid eid turn =
    ebe_store_index c pid eid (e_min_turn c + (turn - e_min_turn c) mod ebe_turns c).
Proof.
  intros c pid eid turn Hm Hr Hp He Ht.
  destruct (made_inv c Hm) as (Ho & Ip & Ie & It & Enp & Ene & Ent).
  assert (P : 0 < ebe_turns c) by (unfold ebe_turns; lia).
  pose proof (Z.mod_pos_bound (turn - e_min_turn c) (ebe_turns c) P) as M.
  assert (C : ebe_covers c pid eid (e_min_turn c + (turn - e_min_turn c) mod ebe_turns c))
    by (unfold ebe_covers; unfold ebe_turns in *; lia).
  destruct (index_covered c _ _ _ Hm C) as (-> & _).
  replace (e_min_turn c + (turn - e_min_turn c) mod ebe_turns c - e_min_turn c)
    with ((turn - e_min_turn c) mod ebe_turns c) by lia.
  unfold ebe_store_index. rewrite Hr.
  replace (_ && _) with true by lia.
  rewrite Ho. change (0 =? ORDER_TURN_ELEM_PARTICLES) with true. cbv iota beta zeta.
  fold (flat (e_np c) (e_ne c) (pid - e_min_pid c) (eid - e_min_eid c) (turn - e_min_turn c)).
  pose proof (flat_rolling_mod (e_np c) (e_ne c) (e_nt c) (pid - e_min_pid c)
    (eid - e_min_eid c) (turn - e_min_turn c) ltac:(lia) ltac:(lia) ltac:(lia) ltac:(lia)) as R.
  unfold ebe_turns. rewrite <- Ent, <- R.
  assert (Q : 0 < e_np c * e_ne c * e_nt c) by (repeat apply Z.mul_pos_pos; lia).
  assert (F : 0 <= flat (e_np c) (e_ne c) (pid - e_min_pid c) (eid - e_min_eid c)
                (turn - e_min_turn c)).
  { unfold flat.
    assert (0 <= (turn - e_min_turn c) * e_np c * e_ne c)
      by (repeat apply Z.mul_nonneg_nonneg; lia).
    assert (0 <= (eid - e_min_eid c) * e_np c) by (apply Z.mul_nonneg_nonneg; lia). lia. }
  rewrite andb_true_r.
  destruct (_ && _) eqn:B.
  - apply Z.rem_mod_nonneg; lia.
  - symmetry; apply Z.mod_small; lia.
Qed.

Lemma rolling_bounds : forall c pid eid turn, ebe_made c -> e_rolling c = true ->
  e_min_pid c <= pid <= e_max_pid c -> e_min_eid c <= eid <= e_max_eid c ->
  e_min_turn c <= turn -> 0 <= ebe_store_index c pid eid turn < ebe_capacity c.
Proof.
  intros c pid eid turn Hm Hr Hp He Ht.
  rewrite (rolling_index c pid eid turn Hm Hr Hp He Ht).
  destruct (made_inv c Hm) as (Ho & Ip & Ie & It & Enp & Ene & Ent).
  pose proof (Z.mod_pos_bound (turn - e_min_turn c) (ebe_turns c) ltac:(unfold ebe_turns; lia)).
  apply index_covered; [assumption|]. unfold ebe_covers; unfold ebe_turns in *; lia.
Qed.

Lemma mod_eq_multiple : forall a b n, 0 < n -> (a mod n = b mod n <-> exists k, a - b = k * n).
Proof.
  intros a b n Hn; split.
  - intros E. exists (a / n - b / n).
    pose proof (Z.div_mod a n ltac:(lia)). pose proof (Z.div_mod b n ltac:(lia)). nia.
  - intros (k & E). replace a with (b + k * n) by lia. apply Z.mod_add; lia.
Qed.

Lemma rolling_share : forall c p1 e1 t1 p2 e2 t2, ebe_made c -> e_rolling c = true ->
  e_min_pid c <= p1 <= e_max_pid c -> e_min_eid c <= e1 <= e_max_eid c -> e_min_turn c <= t1 ->
  e_min_pid c <= p2 <= e_max_pid c -> e_min_eid c <= e2 <= e_max_eid c -> e_min_turn c <= t2 ->
  (ebe_store_index c p1 e1 t1 = ebe_store_index c p2 e2 t2 <->
   p1 = p2 /\ e1 = e2 /\ exists k, t1 - t2 = k * ebe_turns c).
Proof.
  intros c p1 e1 t1 p2 e2 t2 Hm Hr A1 A2 A3 B1 B2 B3.
  destruct (made_inv c Hm) as (Ho & Ip & Ie & It & Enp & Ene & Ent).
  assert (P : 0 < ebe_turns c) by (unfold ebe_turns; lia).
  pose proof (Z.mod_pos_bound (t1 - e_min_turn c) (ebe_turns c) P) as M1.
  pose proof (Z.mod_pos_bound (t2 - e_min_turn c) (ebe_turns c) P) as M2.
  rewrite (rolling_index c p1 e1 t1), (rolling_index c p2 e2 t2) by assumption.
  split.
  - intros E. apply index_injective in E; [|assumption| |];
      [|unfold ebe_covers; unfold ebe_turns in *; lia|unfold ebe_covers; unfold ebe_turns in *; lia].
    destruct E as (-> & -> & E). split; [reflexivity|split; [reflexivity|]].
    assert (E' : (t1 - e_min_turn c) mod ebe_turns c = (t2 - e_min_turn c) mod ebe_turns c) by lia.
    apply (proj1 (mod_eq_multiple _ _ _ P)) in E' as (k & E'). exists k; lia.
  - intros (-> & -> & k & E).
    assert (E' : (t1 - e_min_turn c) mod ebe_turns c = (t2 - e_min_turn c) mod ebe_turns c).
    { apply (mod_eq_multiple _ _ _ P). exists k; lia. }
    rewrite E'. reflexivity.
Qed.

Lemma capacity_reported : forall c, ebe_made c ->
  ebe_out_store_num c = ebe_capacity c /\
  ebe_stored_num_detailed (e_min_pid c) (e_max_pid c) (e_min_eid c) (e_max_eid c)
    (e_min_turn c) (e_max_turn c) = ebe_capacity c.
Proof.
  intros c Hm. destruct (made_inv c Hm) as (Ho & Ip & Ie & It & Enp & Ene & Ent).
  unfold ebe_out_store_num, ebe_stored_num_detailed, ebe_capacity.
  rewrite Enp, Ene, Ent. split; [reflexivity|].
  replace (_ && _) with true by lia. ring.
Qed.
