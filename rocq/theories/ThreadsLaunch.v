(* Schedules of the tracking threads, and launches of work-items. *)
From Coq Require Import ZArith List Bool Lia.
From Verif Require Import Num Particle Elements EbeConfig EbeSpec EbeProofs Track TrackSpec TrackProofs DispatchProofs
  Threads ThreadsSpec ThreadsProofs ThreadsTrack ParticleSet ParticleSetProofs Kernels KernelsProofs Tac.
Import ListNotations.
Local Open Scope Z_scope.

Section L.
Context {T : Type} (N : NumOps T) (c : config T).
Notation O := (outsets T).
Notation write := (write T).
Implicit Types (m : mode T) (p q : particle T) (ps : list (particle T)).

Lemma thread_alone : forall m p o, run (thread N c m p) o = swap (alone N c m p o).
Proof.
  intros [lat turn|cfg lat turn|el fin] p o; cbn [thread alone].
  - apply run_until_turn.
  - apply run_ebe.
  - apply run_line.
Qed.

Definition writes_of m p (w : write) : Prop :=
  (exists be q, In be (elements m) /\ p_particle_id q = p_particle_id p /\ elem_writes be q w) \/
  (exists cfg lat turn k, m = ElemByElem cfg lat turn /\ e_out cfg = Some k /\
     ebe_writes (p_particle_id p) cfg k w).

Lemma thread_trace : forall m p sh, exists ws r, follows sh (writes_of m p) (thread N c m p) ws r.
Proof.
  intros m p sh.
  assert (allowed (p_particle_id p) (writes_of m p) (elements m)) as Ha.
  { intros be Hb q w Hq Hw. left. exists be, q. auto. }
  destruct m as [lat turn|cfg lat turn|el fin]; cbn [thread elements] in *.
  - now apply until_turn_trace with (p_particle_id p).
  - apply ebe_trace with (p_particle_id p); auto.
    intros k w Hk Hw. right. exists cfg, lat, turn, k. auto.
  - now apply line_trace with (p_particle_id p).
Qed.

(* a single trace for a list of particles *)
Lemma traces : forall m sh ps, exists (W : nat -> list write) (r : nat -> option (particle T * Z)),
  forall i t, nth_error (map (thread N c m) ps) i = Some t ->
    exists p, nth_error ps i = Some p /\ follows sh (writes_of m p) t (W i) (r i).
Proof.
  intros m sh ps. induction ps as [|p ps (W & r & IH)].
  - exists (fun _ => []), (fun _ => None). intros [|i] t E; discriminate.
  - destruct (thread_trace m p sh) as (w0 & r0 & F0).
    exists (fun i => match i with 0%nat => w0 | S j => W j end),
           (fun i => match i with 0%nat => r0 | S j => r j end).
    intros [|i] t E; cbn [map nth_error] in *.
    + injection E as <-. exists p. auto.
    + apply IH in E. exact E.
Qed.

(* slots of different particles *)
Lemma ebe_slots : forall cfg (p1 e1 t1 p2 e2 t2 : Z), ebe_made cfg ->
  0 <= ebe_store_index cfg p1 e1 t1 -> 0 <= ebe_store_index cfg p2 e2 t2 ->
  ebe_store_index cfg p1 e1 t1 = ebe_store_index cfg p2 e2 t2 -> p1 = p2.
Proof.
  intros cfg p1 e1 t1 p2 e2 t2 Hm H1 H2 E.
  assert (forall p e t : Z, 0 <= ebe_store_index cfg p e t ->
    e_min_pid cfg <= p <= e_max_pid cfg /\ e_min_eid cfg <= e <= e_max_eid cfg /\
    e_min_turn cfg <= t /\ (t <= e_max_turn cfg \/ e_rolling cfg = true)) as G.
  { intros p e t H. unfold ebe_store_index in H.
    destruct (Z.leb_spec (e_min_pid cfg) p); [|cbn in H; lia].
    destruct (Z.leb_spec p (e_max_pid cfg)); [|cbn in H; lia].
    destruct (Z.leb_spec (e_min_eid cfg) e); [|cbn in H; lia].
    destruct (Z.leb_spec e (e_max_eid cfg)); [|cbn in H; lia].
    destruct (Z.leb_spec (e_min_turn cfg) t); [|cbn in H; lia].
    destruct (Z.leb_spec t (e_max_turn cfg)); [lia|]. destruct (e_rolling cfg); [|cbn in H; lia]. lia. }
  destruct (G _ _ _ H1) as (A1 & A2 & A3 & A4). destruct (G _ _ _ H2) as (B1 & B2 & B3 & B4).
  destruct (e_rolling cfg) eqn:R.
  - apply rolling_share in E; auto. tauto.
  - assert (ebe_covers cfg p1 e1 t1) by (unfold ebe_covers; destruct A4; [lia|discriminate]).
    assert (ebe_covers cfg p2 e2 t2) by (unfold ebe_covers; destruct B4; [lia|discriminate]).
    apply index_injective in E; auto. tauto.
Qed.

Lemma monitor_slots : forall (m1 m2 : monitor) (t1 t2 id1 id2 : Z),
  m_turn_ordered m1 = true -> m_turn_ordered m2 = true ->
  m_min_id m2 = m_min_id m1 -> m_max_id m2 = m_max_id m1 ->
  m_min_id m1 <= id1 <= m_max_id m1 -> m_min_id m1 <= id2 <= m_max_id m1 ->
  0 <= monitor_store_index m1 t1 id1 -> 0 <= monitor_store_index m2 t2 id2 ->
  monitor_store_index m1 t1 id1 = monitor_store_index m2 t2 id2 -> id1 = id2.
Proof.
  intros m1 m2 t1 t2 id1 id2 O1 O2 En Ex R1 R2 P1 P2 E.
  assert (forall (m : monitor) (t id : Z), m_turn_ordered m = true -> 0 <= monitor_store_index m t id ->
    exists s, monitor_store_index m t id = (m_max_id m - m_min_id m + 1) * s + (id - m_min_id m)) as G.
  { clear. intros m t id Ho H. unfold monitor_store_index in *.
    destruct (_ && (Z.rem _ (m_skip m) =? 0)); [|lia]. cbv zeta in *.
    destruct (_ <? _); [|lia]. rewrite Ho. eexists; reflexivity. }
  destruct (G m1 t1 id1 O1 P1) as (s1 & E1). destruct (G m2 t2 id2 O2 P2) as (s2 & E2).
  rewrite En, Ex in E2. rewrite E1, E2 in E.
  set (n := m_max_id m1 - m_min_id m1 + 1) in *.
  assert (n * s1 + (id1 - m_min_id m1) = n * s2 + (id2 - m_min_id m1)) as E' by exact E.
  assert (0 < n) by (unfold n; lia).
  assert (0 <= id1 - m_min_id m1 < n) by (unfold n; lia).
  assert (0 <= id2 - m_min_id m1 < n) by (unfold n; lia). clearbody n.
  assert (s1 = s2) by nia. subst. lia.
Qed.

Lemma own_disjoint : forall m ps p1 p2 w1 w2, own_records m ps -> In p1 ps -> In p2 ps ->
  writes_of m p1 w1 -> writes_of m p2 w2 -> slot w1 = slot w2 -> p_particle_id p1 = p_particle_id p2.
Proof.
  intros m ps p1 p2 w1 w2 (_ & Hmon & Hebe) I1 I2 H1 H2 Es.
  destruct H1 as [(be1 & q1 & B1 & Q1 & m1 & k1 & -> & K1 & P1 & ->)|(cfg1 & l1 & u1 & k1 & -> & K1 & e1 & t1 & q1 & P1 & ->)];
  destruct H2 as [(be2 & q2 & B2 & Q2 & m2 & k2 & -> & K2 & P2 & ->)|(cfg2 & l2 & u2 & k2 & E2 & K2 & e2 & t2 & q2 & P2 & ->)];
  cbn [slot fst] in Es; injection Es as Ek Ei.
  - subst k2. destruct (Hmon m1 k1 B1 K1) as (O1 & _ & R1 & S1).
    destruct (Hmon m2 k1 B2 K2) as (O2 & _ & _ & _).
    destruct (S1 m2 B2 K2) as (En & Ex).
    rewrite <- Q1, <- Q2. eapply monitor_slots with (m1 := m1) (m2 := m2); eauto.
    + rewrite Q1. now apply R1.
    + rewrite Q2. now apply R1.
    + lia.
  - subst k2. destruct (Hmon m1 k1 B1 K1) as (_ & X & _). subst m. cbn in X. congruence.
  - subst k2. destruct (Hmon m2 k1 B2 K2) as (_ & X & _). cbn in X. congruence.
  - injection E2 as <- <- <-. cbn in Hebe. eapply ebe_slots; eauto. lia.
Qed.

(* ---- schedules ---- *)
Lemma pool_facts : forall m ps sched o pool' o',
  exec sched (map (thread N c m) ps) o = Ok (pool', o') ->
  exists W r L, length pool' = length ps /\
    (forall i p, nth_error ps i = Some p -> follows (shape o) (writes_of m p) (thread N c m p) (W i) (r i)) /\
    pool_inv (shape o) (fun i w => exists p, nth_error ps i = Some p /\ writes_of m p w) W r o pool' o' L.
Proof.
  intros m ps sched o pool' o' E.
  destruct (traces m (shape o) ps) as (W & r & H).
  assert (forall i p, nth_error ps i = Some p -> follows (shape o) (writes_of m p) (thread N c m p) (W i) (r i)) as G.
  { intros i p Hp. destruct (H i (thread N c m p)) as (p' & Hp' & F); [now rewrite nth_error_map, Hp|].
    rewrite Hp in Hp'. injection Hp' as <-. exact F. }
  assert (pool_inv (shape o) (fun i w => exists p, nth_error ps i = Some p /\ writes_of m p w) W r o
            (map (thread N c m) ps) o []) as I0.
  { apply pool_start. intros i t Et. destruct (H i t Et) as (p & Hp & F).
    clear -F Hp. induction F; try (constructor; auto; fail).
    apply fl_act with k; auto. eapply Forall_impl; [|eassumption]. intros a Ha. exists p. auto. }
  pose proof (exec_inv _ _ sched W r o _ o [] eq_refl I0) as HE. rewrite E in HE.
  destruct HE as (Nl & L & I). exists W, r, L. rewrite map_length in Nl. auto.
Qed.

(* every particle ends as if it had been tracked alone *)
Theorem schedule_result : forall m ps sched o pool' o',
  exec sched (map (thread N c m) ps) o = Ok (pool', o') -> finished pool' ->
  length pool' = length ps /\
  forall i p, nth_error ps i = Some p ->
    exists p' oi st, alone N c m p o = Ok (p', oi, st) /\ nth_error pool' i = Some (Ret (p', st)).
Proof.
  intros m ps sched o pool' o' E F. destruct (pool_facts _ _ _ _ _ _ E) as (W & r & L & Nl & H & I).
  split; [exact Nl|]. intros i p Hp.
  destruct (pool_end _ _ _ _ _ _ _ _ I F i) as ([p' st] & R & Pi & _).
  { rewrite Nl. apply nth_error_Some. congruence. }
  specialize (H i p Hp). rewrite R in H.
  pose proof (follows_run _ _ _ _ _ o H eq_refl) as A. rewrite thread_alone in A.
  destruct (alone N c m p o) as [[[q oi] s]| |]; cbn in A; try discriminate.
  injection A as -> -> ->. exists p', (apply_writes (W i) o), st. auto.
Qed.

(* the output memory does not depend on the schedule *)
Theorem schedule_memory : forall m ps s1 s2 o pool1 o1 pool2 o2, own_records m ps ->
  exec s1 (map (thread N c m) ps) o = Ok (pool1, o1) -> finished pool1 ->
  exec s2 (map (thread N c m) ps) o = Ok (pool2, o2) -> finished pool2 ->
  pool1 = pool2 /\ o1 = o2.
Proof.
  intros m ps s1 s2 o pool1 o1 pool2 o2 Own E1 F1 E2 F2.
  destruct (schedule_result _ _ _ _ _ _ E1 F1) as (L1 & R1).
  destruct (schedule_result _ _ _ _ _ _ E2 F2) as (L2 & R2). split.
  - apply nth_error_ext_len. intros i.
    destruct (nth_error ps i) as [p|] eqn:Hp.
    + destruct (R1 i p Hp) as (p1 & oi1 & st1 & A1 & B1).
      destruct (R2 i p Hp) as (p2 & oi2 & st2 & A2 & B2). congruence.
    + apply nth_error_None in Hp. rewrite <- L1 in Hp. rewrite (proj2 (nth_error_None pool1 i)) by lia.
      symmetry. apply nth_error_None. lia.
  - destruct (pool_facts _ _ _ _ _ _ E1) as (W1 & r1 & g1 & N1 & H1 & I1).
    (* use one trace for both *)
    destruct (traces m (shape o) ps) as (W & r & H).
    set (Qi := fun i (w : write) => exists p, nth_error ps i = Some p /\ writes_of m p w).
    assert (pool_inv (shape o) Qi W r o (map (thread N c m) ps) o []) as I0.
    { apply pool_start. intros i t Et. destruct (H i t Et) as (p & Hp & F).
      clear -F Hp. unfold Qi. induction F; try (constructor; auto; fail).
      apply fl_act with k; auto. eapply Forall_impl; [|eassumption]. intros a Ha. exists p. auto. }
    pose proof (exec_inv _ _ s1 W r o _ o [] eq_refl I0) as X1. rewrite E1 in X1.
    pose proof (exec_inv _ _ s2 W r o _ o [] eq_refl I0) as X2. rewrite E2 in X2.
    destruct X1 as (_ & G1 & J1). destruct X2 as (_ & G2 & J2).
    pose proof (pool_end _ _ _ _ _ _ _ _ J1 F1) as P1. pose proof (pool_end _ _ _ _ _ _ _ _ J2 F2) as P2.
    destruct J1 as (-> & B1 & _). destruct J2 as (-> & B2 & _).
    assert (forall i w, (i < length ps)%nat -> In w (W i) -> Qi i w) as QW.
    { intros i w Hi Hw. destruct (nth_error ps i) as [p|] eqn:Hp; [|apply nth_error_None in Hp; lia].
      destruct (H i (thread N c m p)) as (p' & Hp' & F); [now rewrite nth_error_map, Hp|].
      apply follows_Q in F. rewrite Forall_forall in F. exists p'. split; [congruence|]. now apply F. }
    apply log_irrelevant with (length ps) W.
    + intros i Hi. destruct (P1 i) as (a & _ & _ & E); [lia|exact E].
    + intros i Hi. destruct (P2 i) as (a & _ & _ & E); [lia|exact E].
    + intros e He. rewrite <- L1. auto.
    + intros e He. rewrite <- L2. auto.
    + intros i j w1 w2 Hi Hj Hw1 Hw2 Es.
      destruct (QW i w1 Hi Hw1) as (p1 & Hp1 & V1). destruct (QW j w2 Hj Hw2) as (p2 & Hp2 & V2).
      pose proof (own_disjoint m ps p1 p2 w1 w2 Own (nth_error_In _ _ Hp1) (nth_error_In _ _ Hp2) V1 V2 Es) as Eid.
      destruct Own as (ND & _). rewrite NoDup_nth_error in ND. apply ND.
      * rewrite map_length. exact Hi.
      * rewrite !nth_error_map, Hp1, Hp2. cbn. now rewrite Eid.
Qed.

(* if every particle can be tracked alone, no schedule is undefined, and every schedule can
   be continued to one in which all particles are done *)
Theorem schedule_defined : forall m ps o,
  (forall p, In p ps -> exists r, alone N c m p o = Ok r) ->
  forall sched, exists pool' o', exec sched (map (thread N c m) ps) o = Ok (pool', o') /\
    exists more pool'' o'', exec (sched ++ more) (map (thread N c m) ps) o = Ok (pool'', o'') /\
      finished pool''.
Proof.
  intros m ps o Hd sched. destruct (traces m (shape o) ps) as (W & r & H).
  set (Qi := fun i (w : write) => exists p, nth_error ps i = Some p /\ writes_of m p w).
  assert (pool_inv (shape o) Qi W r o (map (thread N c m) ps) o []) as I0.
  { apply pool_start. intros i t Et. destruct (H i t Et) as (p & Hp & F).
    clear -F Hp. unfold Qi. induction F; try (constructor; auto; fail).
    apply fl_act with k; auto. eapply Forall_impl; [|eassumption]. intros a Ha. exists p. auto. }
  assert (forall i, (i < length ps)%nat -> exists a, r i = Some a) as Rs.
  { intros i Hi. destruct (nth_error ps i) as [p|] eqn:Hp; [|apply nth_error_None in Hp; lia].
    destruct (H i (thread N c m p)) as (p' & Hp' & F); [now rewrite nth_error_map, Hp|].
    destruct (r i) as [a|]; [now exists a|]. exfalso.
    destruct (Hd p (nth_error_In _ _ Hp)) as ([[q oo] s] & A).
    pose proof (follows_undef _ _ _ _ o F eq_refl) as U. rewrite thread_alone, A in U.
    cbn in U. destruct U; discriminate. }
  pose proof (exec_inv _ _ sched W r o _ o [] eq_refl I0) as X.
  destruct (exec sched (map (thread N c m) ps) o) as [[pool' o']| |] eqn:E.
  2,3: destruct X as (i & Hi & Ri); rewrite map_length in Hi; destruct (Rs i Hi); congruence.
  exists pool', o'. split; [reflexivity|]. destruct X as (Nl & L & I). rewrite map_length in Nl.
  (* finish the threads one after the other *)
  assert (forall n pool o1 L1, pool_inv (shape o) Qi W r o pool o1 L1 -> length pool = length ps ->
     (forall i t, nth_error pool i = Some t -> (n <= i)%nat -> exists a, t = Ret a) ->
     exists more pool'' o'', exec more pool o1 = Ok (pool'', o'') /\ finished pool'') as Fin.
  { induction n as [|n IH]; intros pool o1 L1 I1 N1 D1.
    - exists [], pool, o1. split; [reflexivity|]. intros t Ht. apply In_nth_error in Ht as (i & Hi).
      apply (D1 i t Hi). lia.
    - destruct (nth_error pool n) as [t|] eqn:En.
      + destruct I1 as (Ho & HL & Hp). destruct (Hp n t En) as (rest & _ & F).
        destruct (Rs n) as (a & Ra); [rewrite <- N1; apply nth_error_Some; congruence|].
        rewrite Ra in F.
        assert (shape o1 = shape o) as So by (rewrite Ho; apply apply_shape).
        destruct (run_to_end _ t (Qi n) rest a F pool o1 n En So) as (k & Ek).
        pose proof (exec_inv _ _ (repeat n k) W r o pool o1 L1 eq_refl (conj Ho (conj HL Hp))) as X1.
        rewrite Ek in X1. destruct X1 as (N2 & L2 & I2).
        destruct (IH _ _ L2 I2) as (more & p2 & o2 & E2 & F2); [lia| |].
        * intros i t' Ei Hi. destruct (Nat.eq_dec n i) as [<-|Hni].
          -- rewrite upd_same in Ei by (apply nth_error_Some; congruence). injection Ei as <-. eauto.
          -- rewrite upd_other in Ei by auto. apply (D1 i t' Ei). lia.
        * exists (repeat n k ++ more), p2, o2. rewrite exec_app, Ek. cbn [bind]. auto.
      + apply (IH pool o1 L1 I1 N1). intros i t Ei Hi. apply (D1 i t Ei).
        destruct (Nat.eq_dec i n) as [->|]; [congruence|lia]. }
  destruct (Fin (length pool') pool' o' L I Nl) as (more & p2 & o2 & E2 & F2).
  { intros i t Ei Hi. apply nth_error_None in Hi. congruence. }
  exists more, p2, o2. rewrite exec_app, E. cbn [bind]. auto.
Qed.

(* ---- launches of work-items ---- *)
Lemma aget_nth : forall A (l : list A) i, aget l (Z.of_nat i) = nth_error l i.
Proof.
  intros A l i. unfold aget. destruct (Z.leb_spec 0 (Z.of_nat i)); [|lia]. now rewrite Nat2Z.id.
Qed.

Lemma in_set_list : forall track ps i p (o : O), nth_error ps i = Some p ->
  track_in_set track (pset_of ps) (Z.of_nat i) o =
  bind (track p o) (fun r => let '(p', o', st) := r in Ok (pset_of (upd ps i p'), o', st)).
Proof.
  intros track ps i p o Hp.
  pose proof (in_set_spec track (pset_of ps) (Z.of_nat i) p o (pset_of_wf ps)) as H.
  rewrite pset_at_of, aget_nth in H. specialize (H Hp).
  destruct (track p o) as [[[p' o'] st]| |]; cbn [bind]; auto.
  destruct H as (s' & E & W & Nn & G & _). rewrite E. do 3 f_equal.
  apply pset_ext; [exact W|apply pset_of_wf|].
  intros j. rewrite G, !pset_at_of. destruct (Z.eqb_spec j (Z.of_nat i)) as [->|Hj].
  - rewrite aget_nth. symmetry. apply upd_same. apply nth_error_Some. congruence.
  - destruct (Z_le_gt_dec 0 j).
    + rewrite <- (Z2Nat.id j) by lia. rewrite !aget_nth. symmetry. apply upd_other. lia.
    + unfold aget. destruct (Z.leb_spec 0 j); [lia|reflexivity].
Qed.

(* a finished thread stays finished *)
Lemma keep_done : forall M A sc (pl : list (prog M A)) oo pl' oo' i a, nth_error pl i = Some (Ret a) ->
  exec sc pl oo = Ok (pl', oo') -> nth_error pl' i = Some (Ret a).
Proof.
  intros M A. induction sc as [|j sc IH]; intros pl oo pl' oo' i a Hi; cbn [exec].
  - intros [= <- <-]. exact Hi.
  - destruct (step j pl oo) as [[p1 o1]| |] eqn:Es; cbn [bind]; try discriminate.
    apply IH. unfold step in Es. destruct (nth_error pl j) as [[b|f|]|] eqn:Ej; try congruence.
    destruct (f oo) as [[o2 k]|]; [|discriminate]. injection Es as <- <-.
    rewrite upd_other; [exact Hi|]. congruence.
Qed.

(* pool and particle set after some of the particles (V) have been tracked *)
Definition in_step m (ps0 : list (particle T)) (V : Z -> Prop)
    (pool : list (prog O (particle T * Z))) (ps : list (particle T)) : Prop :=
  length pool = length ps0 /\ length ps = length ps0 /\
  forall i p0, nth_error ps0 i = Some p0 ->
    (~ V (Z.of_nat i) /\ nth_error ps i = Some p0 /\ nth_error pool i = Some (thread N c m p0)) \/
    (V (Z.of_nat i) /\ exists p' st, nth_error ps i = Some p' /\ nth_error pool i = Some (Ret (p', st))).

Lemma loop_sched : forall m ps0 fuel V pool ps o pidx stride s (p' : pset T) o' s',
  0 <= pidx -> 0 < stride -> in_step m ps0 V pool ps ->
  (forall j, visited (Z.of_nat (length ps0)) pidx stride j -> ~ V j) ->
  plain_loop (alone N c m) fuel (Z.of_nat (length ps0)) pidx stride (pset_of ps) o s = Ok (p', o', s') ->
  exists sched pool' ps', p' = pset_of ps' /\ exec sched pool o = Ok (pool', o') /\
    in_step m ps0 (fun j => V j \/ visited (Z.of_nat (length ps0)) pidx stride j) pool' ps' /\
    (s' = 0 <-> s = 0 /\ forall i, visited (Z.of_nat (length ps0)) pidx stride (Z.of_nat i) ->
       exists q, nth_error pool' i = Some (Ret (q, 0))).
Proof.
  intros m ps0. induction fuel as [|fuel IH]; intros V pool ps o pidx stride s p' o' s' Hi Hs HI HV;
    cbn [plain_loop]; destruct (Z.ltb_spec pidx (Z.of_nat (length ps0))); try discriminate.
  1,3: intros [= <- <- <-]; exists [], pool, ps; split; [reflexivity|]; split; [reflexivity|];
    split; [|split; [intros ->; split; [reflexivity|unfold visited; intros; lia]|tauto]];
    destruct HI as (A & B & C); split; [exact A|]; split; [exact B|]; intros i p0 Hp0;
    destruct (C i p0 Hp0) as [(C1 & C2)|(C1 & C2)]; [left|right]; (split; [|exact C2]);
    unfold visited; [intros [?|?]; [auto|lia]|auto].
  assert (exists n, pidx = Z.of_nat n /\ (n < length ps0)%nat) as (n & -> & Hn)
    by (exists (Z.to_nat pidx); lia).
  destruct HI as (A & B & C).
  destruct (nth_error ps0 n) as [p0|] eqn:Hp0; [|apply nth_error_None in Hp0; lia].
  assert (visited (Z.of_nat (length ps0)) (Z.of_nat n) stride (Z.of_nat n)) as Vn.
  { unfold visited. rewrite Z.sub_diag. split; [lia|reflexivity]. }
  destruct (C n p0 Hp0) as [(C1 & C2 & C3)|(C1 & _)]; [|exfalso; apply (HV _ Vn C1)].
  rewrite (in_set_list (alone N c m) ps n p0 o C2).
  destruct (alone N c m p0 o) as [[[q1 o1] st]| |] eqn:ET; cbn [bind]; try discriminate.
  assert (run (thread N c m p0) o = Ok (o1, (q1, st))) as R by (rewrite thread_alone, ET; reflexivity).
  destruct (run_in_pool _ _ _ _ _ _ _ _ C3 R) as (k & Ek).
  assert (~ visited (Z.of_nat (length ps0)) (Z.of_nat n + stride) stride (Z.of_nat n)) as Vn'
    by (unfold visited; lia).
  assert (forall j, visited (Z.of_nat (length ps0)) (Z.of_nat n + stride) stride j ->
                    visited (Z.of_nat (length ps0)) (Z.of_nat n) stride j) as V1.
  { intros j (V1 & V2). split; [lia|].
    replace (j - Z.of_nat n) with (j - (Z.of_nat n + stride) + 1 * stride) by lia.
    now rewrite Z_mod_plus_full. }
  assert (forall j, visited (Z.of_nat (length ps0)) (Z.of_nat n) stride j -> j = Z.of_nat n \/
                    visited (Z.of_nat (length ps0)) (Z.of_nat n + stride) stride j) as V2.
  { intros j (V2 & V3). destruct (Z.eq_dec j (Z.of_nat n)); [auto|]. right.
    apply Z_div_exact_full_2 in V3; [|lia].
    assert (0 < (j - Z.of_nat n) / stride) by nia. split; [nia|].
    replace (j - (Z.of_nat n + stride)) with (((j - Z.of_nat n) / stride - 1) * stride) by lia.
    apply Z_mod_mult. }
  intros RR.
  assert (in_step m ps0 (fun j => V j \/ j = Z.of_nat n) (upd pool n (Ret (q1, st))) (upd ps n q1)) as I1.
  { split; [now rewrite upd_length|]. split; [now rewrite upd_length|]. intros i p1 Hp1.
    destruct (Nat.eq_dec n i) as [<-|Hni].
    - right. split; [auto|]. exists q1, st. rewrite !upd_same by (rewrite ?A, ?B; exact Hn). auto.
    - rewrite !upd_other by auto. destruct (C i p1 Hp1) as [(D1 & D2)|(D1 & D2)]; [left|right];
        (split; [|exact D2]); [intros [?|?]; [auto|lia]|auto]. }
  destruct (IH _ _ _ o1 (Z.of_nat n + stride) stride (Z.lor s st) p' o' s' ltac:(lia) Hs I1) with (2 := RR)
    as (sched & pool' & ps' & -> & Es & I2 & S2).
  { intros j Vj [Hj|Hj]; [apply (HV j); auto|]. subst j. now apply Vn'. }
  exists (repeat n k ++ sched), pool', ps'. split; [reflexivity|].
  split; [rewrite exec_app, Ek; cbn [bind]; exact Es|]. split.
  - destruct I2 as (A2 & B2 & C2'). split; [exact A2|]. split; [exact B2|]. intros i p1 Hp1.
    destruct (C2' i p1 Hp1) as [(D1 & D2)|(D1 & D2)]; [left|right]; (split; [|exact D2]).
    + intros [?|Vi]; apply D1; [auto|]. destruct (V2 _ Vi); auto.
    + destruct D1 as [[?|E]|?]; [auto|rewrite E; auto|auto].
  - rewrite S2, Z.lor_eq_0_iff. destruct I2 as (A2 & B2 & C2').
    assert (nth_error pool' n = Some (Ret (q1, st))) as Kn.
    { eapply keep_done; [|exact Es]. apply upd_same. rewrite A. exact Hn. }
    split.
    + intros ((-> & ->) & G). split; [reflexivity|]. intros i Vi. destruct (V2 _ Vi) as [E|Vi'].
      * apply Nat2Z.inj in E as ->. exists q1. exact Kn.
      * now apply G.
    + intros (-> & G). split.
      * split; [reflexivity|]. destruct (G n Vn) as (q & Eq). congruence.
      * intros i Vi. apply G. auto.
Qed.

Notation launch_plain m items stride :=
  (launch (fun i => plain_kernel (alone N c m) i stride) items) (only parsing).

Lemma launch_sched : forall m ps0 stride items V pool ps o s (p' : pset T) o' s',
  0 < stride -> NoDup items -> (forall i, In i items -> 0 <= i < stride) ->
  in_step m ps0 V pool ps ->
  (forall i j, In i items -> visited (Z.of_nat (length ps0)) i stride j -> ~ V j) ->
  launch_plain m items stride (pset_of ps) o s = Ok (p', o', s') ->
  exists sched pool' ps', p' = pset_of ps' /\ exec sched pool o = Ok (pool', o') /\
    in_step m ps0 (fun j => V j \/ exists i, In i items /\ visited (Z.of_nat (length ps0)) i stride j) pool' ps' /\
    (s' = 0 <-> s = 0 /\ forall n i, In i items -> visited (Z.of_nat (length ps0)) i stride (Z.of_nat n) ->
       exists q, nth_error pool' n = Some (Ret (q, 0))).
Proof.
  intros m ps0 stride. induction items as [|it items IH]; intros V pool ps o s p' o' s' Hs ND Hin HI HV;
    cbn [launch].
  - intros [= <- <- <-]. exists [], pool, ps. split; [reflexivity|]. split; [reflexivity|].
    split; [|split; [intros ->; split; [reflexivity|intros n i []]|tauto]].
    destruct HI as (A & B & C). split; [exact A|]. split; [exact B|]. intros i p0 Hp0.
    destruct (C i p0 Hp0) as [(C1 & C2)|(C1 & C2)]; [left|right]; (split; [|exact C2]);
      [intros [?|(x & [] & _)]; auto|auto].
  - inversion ND as [|? ? Hnot ND']; subst.
    unfold plain_kernel. cbn [ps_num pset_of].
    assert (length ps = length ps0) as Lp by apply HI.
    rewrite Lp. intros R.
    destruct (plain_loop (alone N c m) _ _ it stride (pset_of ps) o 0) as [[[p1 o1] st]| |] eqn:E1;
      cbn [bind] in R; try discriminate.
    assert (0 <= it) as Hit by (apply Hin; now left).
    assert (forall j, visited (Z.of_nat (length ps0)) it stride j -> ~ V j) as HVit
      by (intros j Vj; apply (HV it j); [now left|exact Vj]).
    destruct (loop_sched _ _ _ _ _ _ _ _ _ _ _ _ _ Hit Hs HI HVit E1)
      as (sc1 & pool1 & ps1 & -> & X1 & I1 & S1).
    destruct (IH (fun j => V j \/ visited (Z.of_nat (length ps0)) it stride j) pool1 ps1 o1 (Z.lor s st) p' o' s')
      as (sc2 & pool2 & ps2 & -> & X2 & I2 & S2); auto.
    { intros i Hi. apply Hin. now right. }
    { intros i j Hi Vj [H|H]; [apply (HV i j); auto; now right|].
      (* two items visit no common particle *)
      destruct Vj as ((? & ?) & M1). destruct H as ((? & ?) & M2).
      pose proof (Hin i (or_intror Hi)). pose proof (Hin it (or_introl eq_refl)).
      apply Z_div_exact_full_2 in M1; [|lia]. apply Z_div_exact_full_2 in M2; [|lia].
      assert (i = it); [|subst; contradiction].
      set (a := (j - i) / stride) in *. set (b := (j - it) / stride) in *.
      assert (j - i = stride * a) as M1' by exact M1. assert (j - it = stride * b) as M2' by exact M2.
      clearbody a b. assert (i - it = (b - a) * stride) by lia.
      destruct (Z.eq_dec (b - a) 0) as [E0|E0]; [rewrite E0 in *; lia|]. nia. }
    exists (sc1 ++ sc2), pool2, ps2. split; [reflexivity|].
    split; [rewrite exec_app, X1; cbn [bind]; exact X2|]. split.
    + destruct I2 as (A2 & B2 & C2). split; [exact A2|]. split; [exact B2|]. intros i p0 Hp0.
      destruct (C2 i p0 Hp0) as [(D1 & D2)|(D1 & D2)]; [left|right]; (split; [|exact D2]).
      * intros [?|(x & [->|Hx] & Vx)]; apply D1; eauto.
      * destruct D1 as [[?|?]|(x & Hx & Vx)]; [auto|right; exists it; split; [now left|auto]|].
        right. exists x. split; [now right|auto].
    + rewrite S2, Z.lor_eq_0_iff, S1.
      assert (forall i (a : particle T * Z), nth_error pool1 i = Some (Ret a) -> nth_error pool2 i = Some (Ret a)) as Keep.
      { intros i a Ha. eapply keep_done; [exact Ha|exact X2]. }
      split.
      * intros ((-> & _ & G1) & G2). split; [reflexivity|]. intros n i [->|Hi] Vi; [|eauto].
        destruct (G1 n Vi) as (q & Eq). exists q. now apply Keep.
      * intros (-> & G). split; [|intros n i Hi Vi; apply (G n i); [now right|auto]].
        split; [reflexivity|]. split; [reflexivity|]. intros n Vn.
        destruct (G n it (or_introl eq_refl) Vn) as (q & Eq).
        destruct I1 as (A1 & B1 & C1).
        assert (n < length ps0)%nat as Hn by (destruct Vn; lia).
        destruct (nth_error ps0 n) as [p0|] eqn:Hp0; [|apply nth_error_None in Hp0; lia].
        destruct (C1 n p0 Hp0) as [(D1 & _)|(_ & q' & st' & _ & D2)]; [exfalso; apply D1; auto|].
        pose proof (Keep _ _ D2) as K2. exists q'. congruence.
Qed.

Theorem launch_is_schedule : forall m items stride ps o (p' : pset T) o' st, 0 < stride ->
  NoDup items -> (forall i, In i items <-> 0 <= i < stride) ->
  launch_plain m items stride (pset_of ps) o 0 = Ok (p', o', st) ->
  exists sched pool' ps', exec sched (map (thread N c m) ps) o = Ok (pool', o') /\ finished pool' /\
    p' = pset_of ps' /\ length ps' = length ps /\
    (forall i q, nth_error ps' i = Some q -> exists s, nth_error pool' i = Some (Ret (q, s))) /\
    (st = 0 <-> forall t, In t pool' -> exists q, t = Ret (q, 0)).
Proof.
  intros m items stride ps o p' o' st Hs ND Hall R.
  assert (in_step m ps (fun _ => False) (map (thread N c m) ps) ps) as I0.
  { split; [apply map_length|]. split; [reflexivity|]. intros i p0 Hp0. left.
    rewrite nth_error_map, Hp0. auto. }
  destruct (launch_sched m ps stride items (fun _ => False) (map (thread N c m) ps) ps o 0 p' o' st Hs ND) with (4 := R)
    as (sched & pool' & ps' & -> & E & (A & B & C) & S).
  - intros i Hi. now apply Hall.
  - exact I0.
  - auto.
  - assert (forall n, (n < length ps)%nat -> exists i, In i items /\ visited (Z.of_nat (length ps)) i stride (Z.of_nat n)) as Cov.
    { intros n Hn. exists (Z.of_nat n mod stride). pose proof (Z.mod_pos_bound (Z.of_nat n) stride Hs).
      split; [apply Hall; lia|]. split; [pose proof (Z.mod_le (Z.of_nat n) stride); lia|].
      rewrite Zminus_mod_idemp_r. now rewrite Z.sub_diag. }
    assert (forall n p0, nth_error ps n = Some p0 -> exists q s, nth_error ps' n = Some q /\ nth_error pool' n = Some (Ret (q, s))) as D.
    { intros n p0 Hp. destruct (C n p0 Hp) as [(D1 & _)|(_ & D2)]; [|exact D2].
      exfalso. apply D1. right. apply Cov. apply nth_error_Some. congruence. }
    exists sched, pool', ps'. split; [exact E|]. split; [|split; [reflexivity|split; [exact B|split]]].
    + intros t Ht. apply In_nth_error in Ht as (n & Hn).
      destruct (nth_error ps n) as [p0|] eqn:Hp.
      * destruct (D n p0 Hp) as (q & s & _ & E'). exists (q, s). congruence.
      * apply nth_error_None in Hp. rewrite <- A in Hp. apply nth_error_None in Hp. congruence.
    + intros n q Hq. destruct (nth_error ps n) as [p0|] eqn:Hp.
      * destruct (D n p0 Hp) as (q' & s & E1 & E2). exists s. congruence.
      * apply nth_error_None in Hp. rewrite <- B in Hp. apply nth_error_None in Hp. congruence.
    + rewrite S. split.
      * intros (_ & G) t Ht. apply In_nth_error in Ht as (n & Hn).
        destruct (Cov n) as (i & Hi & Vi); [rewrite <- A; apply nth_error_Some; congruence|].
        destruct (G n i Hi Vi) as (q & Eq). exists q. congruence.
      * intros G. split; [reflexivity|]. intros n i Hi Vi.
        assert (n < length pool')%nat as Hn by (destruct Vi; lia).
        destruct (nth_error pool' n) as [t|] eqn:Et; [|apply nth_error_None in Et; lia].
        destruct (G t (nth_error_In _ _ Et)) as (q & ->). now exists q.
Qed.

(* the result for one particle does not depend on the contents of the output memory *)
Lemma alone_any : forall m p o p' oi s, alone N c m p o = Ok (p', oi, s) ->
  forall o1, shape o1 = shape o -> exists o2, alone N c m p o1 = Ok (p', o2, s) /\ shape o2 = shape o.
Proof.
  intros m p o p' oi s E o1 Sh. destruct (thread_trace m p (shape o)) as (ws & r & F).
  destruct r as [[q st]|].
  - pose proof (follows_run _ _ _ _ _ o F eq_refl) as R. rewrite thread_alone, E in R. cbn in R.
    injection R as _ -> ->.
    pose proof (follows_run _ _ _ _ _ o1 F Sh) as R. rewrite thread_alone in R.
    destruct (alone N c m p o1) as [[[q1 o2] s1]| |]; cbn in R; try discriminate.
    injection R as -> -> ->. eexists. split; [reflexivity|]. rewrite apply_shape. exact Sh.
  - destruct (follows_undef _ _ _ _ o F eq_refl) as [U|U]; rewrite thread_alone, E in U; discriminate.
Qed.

Lemma visited_next : forall num pidx stride j, 0 < stride ->
  (visited num pidx stride j <-> (j = pidx /\ pidx < num) \/ visited num (pidx + stride) stride j).
Proof.
  intros num pidx stride j Hs. unfold visited. split.
  - intros (V2 & V3). destruct (Z.eq_dec j pidx); [left; lia|]. right.
    apply Z_div_exact_full_2 in V3; [|lia].
    assert (0 < (j - pidx) / stride) by nia. split; [nia|].
    replace (j - (pidx + stride)) with (((j - pidx) / stride - 1) * stride) by lia.
    apply Z_mod_mult.
  - intros [(-> & H)|(V1 & V2)]; [rewrite Z.sub_diag; split; [lia|reflexivity]|]. split; [lia|].
    replace (j - pidx) with (j - (pidx + stride) + 1 * stride) by lia.
    now rewrite Z_mod_plus_full.
Qed.

Lemma loop_defined : forall m o fuel ps o1 pidx stride s,
  (forall i p, visited (Z.of_nat (length ps)) pidx stride (Z.of_nat i) -> nth_error ps i = Some p ->
     exists r, alone N c m p o = Ok r) -> shape o1 = shape o ->
  0 <= pidx -> 0 < stride -> (Z.to_nat (Z.of_nat (length ps) - pidx) <= fuel)%nat ->
  exists ps' o' s', plain_loop (alone N c m) fuel (Z.of_nat (length ps)) pidx stride (pset_of ps) o1 s
    = Ok (pset_of ps', o', s') /\ shape o' = shape o /\ length ps' = length ps /\
    forall i, ~ visited (Z.of_nat (length ps)) pidx stride (Z.of_nat i) -> nth_error ps' i = nth_error ps i.
Proof.
  intros m o. induction fuel as [|fuel IH]; intros ps o1 pidx stride s Hd Sh Hp Hs Hf; cbn [plain_loop];
    destruct (Z.ltb_spec pidx (Z.of_nat (length ps))); try lia; try (eexists _, _, _; split; [reflexivity|]; auto; fail).
  assert (exists n, pidx = Z.of_nat n /\ (n < length ps)%nat) as (n & -> & Hn)
    by (exists (Z.to_nat pidx); lia).
  destruct (nth_error ps n) as [p0|] eqn:Hp0; [|apply nth_error_None in Hp0; lia].
  rewrite (in_set_list (alone N c m) ps n p0 o1 Hp0).
  destruct (Hd n p0) as ([[q oi] st] & E0); [rewrite visited_next; lia|exact Hp0|].
  destruct (alone_any _ _ _ _ _ _ E0 o1 Sh) as (o2 & E2 & S2). rewrite E2. cbn [bind].
  destruct (IH (upd ps n q) o2 (Z.of_nat n + stride) stride (Z.lor s st)) as (ps' & o' & s' & E & S' & L & K);
    auto; try lia; rewrite ?upd_length in *.
  - intros i p Vi Hi. rewrite upd_other in Hi by (destruct Vi; lia).
    apply (Hd i p); [rewrite visited_next by lia; auto|exact Hi].
  - lia.
  - eexists _, _, _. split; [exact E|]. split; [exact S'|]. split; [exact L|]. intros i Vi.
    rewrite visited_next in Vi by lia. rewrite K by tauto. apply upd_other.
    intros ->. apply Vi. left. split; [reflexivity|lia].
Qed.

Theorem launch_defined : forall m items stride ps o, 0 < stride ->
  NoDup items -> (forall i, In i items -> 0 <= i < stride) ->
  (forall p, In p ps -> exists r, alone N c m p o = Ok r) ->
  exists ps' o' st, launch (fun i => plain_kernel (alone N c m) i stride) items (pset_of ps) o 0
    = Ok (pset_of ps', o', st).
Proof.
  intros m items stride ps o Hs ND Hi Hd.
  assert (forall items ps1 o1 s, NoDup items -> (forall i, In i items -> 0 <= i < stride) -> shape o1 = shape o ->
    length ps1 = length ps ->
    (forall it n p, In it items -> visited (Z.of_nat (length ps)) it stride (Z.of_nat n) ->
       nth_error ps1 n = Some p -> exists r, alone N c m p o = Ok r) ->
    exists ps' o' st, launch (fun i => plain_kernel (alone N c m) i stride) items (pset_of ps1) o1 s
      = Ok (pset_of ps', o', st)) as G.
  { clear ND Hi Hd. clear items. induction items as [|it items IH]; intros ps1 o1 s ND Hi Sh Hl Hd; cbn [launch].
    - eexists _, _, _. reflexivity.
    - inversion ND as [|? ? Hnot ND']; subst. unfold plain_kernel at 1. cbn [ps_num pset_of].
      destruct (loop_defined m o (steps (Z.of_nat (length ps1)) it) ps1 o1 it stride 0)
        as (ps2 & o2 & s2 & E & S2 & L2 & K); auto.
      { intros n p V Hn. apply (Hd it n p); [now left|now rewrite <- Hl|exact Hn]. }
      { apply Hi. now left. }
      rewrite E. cbn [bind]. apply IH; auto; try congruence.
      { intros i Ii. apply Hi. now right. }
      intros i n p Ii V Hn. apply (Hd i n p); [now right|exact V|]. rewrite <- K; [exact Hn|].
      intros V'. rewrite Hl in V'. destruct V as ((? & ?) & M1). destruct V' as ((? & ?) & M2).
      pose proof (Hi i (or_intror Ii)). pose proof (Hi it (or_introl eq_refl)).
      apply Z_div_exact_full_2 in M1; [|lia]. apply Z_div_exact_full_2 in M2; [|lia].
      assert (i = it); [|subst; contradiction].
      set (a := (_ - i) / stride) in *. set (b := (_ - it) / stride) in *.
      clearbody a b. assert (i - it = (b - a) * stride) by lia.
      destruct (Z.eq_dec (b - a) 0) as [E0|E0]; [rewrite E0 in *; lia|]. nia. }
  apply G; auto. intros it n p _ _ Hn. apply Hd. eapply nth_error_In; eauto.
Qed.

(* a launch: every particle ends as if tracked alone *)
Theorem launch_result : forall m items stride ps o (p' : pset T) o' st, 0 < stride ->
  NoDup items -> (forall i, In i items <-> 0 <= i < stride) ->
  launch (fun i => plain_kernel (alone N c m) i stride) items (pset_of ps) o 0 = Ok (p', o', st) ->
  exists ps', p' = pset_of ps' /\ length ps' = length ps /\
    (forall i p, nth_error ps i = Some p -> exists q oi s,
       alone N c m p o = Ok (q, oi, s) /\ nth_error ps' i = Some q /\ (st = 0 -> s = 0)) /\
    ((forall p q oi s, In p ps -> alone N c m p o = Ok (q, oi, s) -> s = 0) -> st = 0).
Proof.
  intros m items stride ps o p' o' st Hs ND Hall R.
  destruct (launch_is_schedule m items stride ps o p' o' st Hs ND Hall R)
    as (sched & pool' & ps' & E & F & -> & L & G & S).
  destruct (schedule_result _ _ _ _ _ _ E F) as (Lp & A).
  exists ps'. split; [reflexivity|]. split; [exact L|]. split.
  - intros i p Hp. destruct (A i p Hp) as (q & oi & s & E1 & E2). exists q, oi, s. split; [exact E1|].
    destruct (nth_error ps' i) as [q'|] eqn:Eq.
    + destruct (G i q' Eq) as (s' & E3). split; [congruence|]. intros ->.
      destruct (proj1 S eq_refl _ (nth_error_In _ _ E2)) as (q0 & E0). congruence.
    + exfalso. apply nth_error_None in Eq. rewrite L in Eq. apply nth_error_None in Eq. congruence.
  - intros H. apply S. intros t Ht. apply In_nth_error in Ht as (n & Hn).
    destruct (nth_error ps n) as [p|] eqn:Hp.
    + destruct (A n p Hp) as (q & oi & s & E1 & E2).
      rewrite (H p q oi s (nth_error_In _ _ Hp) E1) in E2. exists q. congruence.
    + exfalso. apply nth_error_None in Hp. rewrite <- Lp in Hp. apply nth_error_None in Hp. congruence.
Qed.

(* two launches *)
Theorem launch_memory : forall m items1 stride1 items2 stride2 ps o (p1 : pset T) o1 st1 (p2 : pset T) o2 st2,
  own_records m ps -> 0 < stride1 -> 0 < stride2 -> NoDup items1 -> NoDup items2 ->
  (forall i, In i items1 <-> 0 <= i < stride1) -> (forall i, In i items2 <-> 0 <= i < stride2) ->
  launch (fun i => plain_kernel (alone N c m) i stride1) items1 (pset_of ps) o 0 = Ok (p1, o1, st1) ->
  launch (fun i => plain_kernel (alone N c m) i stride2) items2 (pset_of ps) o 0 = Ok (p2, o2, st2) ->
  p1 = p2 /\ o1 = o2.
Proof.
  intros m items1 stride1 items2 stride2 ps o p1 o1 st1 p2 o2 st2 Own Hs1 Hs2 ND1 ND2 H1 H2 R1 R2.
  destruct (launch_is_schedule m _ _ _ _ _ _ _ Hs1 ND1 H1 R1) as (sc1 & pl1 & ps1 & E1 & F1 & -> & L1 & G1 & _).
  destruct (launch_is_schedule m _ _ _ _ _ _ _ Hs2 ND2 H2 R2) as (sc2 & pl2 & ps2 & E2 & F2 & -> & L2 & G2 & _).
  destruct (schedule_memory _ _ _ _ _ _ _ _ _ Own E1 F1 E2 F2) as (<- & <-). split; [|reflexivity].
  f_equal. apply nth_error_ext_len. intros n.
  destruct (nth_error ps1 n) as [q1|] eqn:Q1, (nth_error ps2 n) as [q2|] eqn:Q2; auto.
  - destruct (G1 n q1 Q1) as (s1 & X1). destruct (G2 n q2 Q2) as (s2 & X2). congruence.
  - apply nth_error_None in Q2. assert (nth_error ps1 n <> None) as Q by congruence.
    apply nth_error_Some in Q. lia.
  - apply nth_error_None in Q1. assert (nth_error ps2 n <> None) as Q by congruence.
    apply nth_error_Some in Q. lia.
Qed.
End L.
