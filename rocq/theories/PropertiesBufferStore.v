(** C40: ownership of buffers kept in buffer stores.
    C47: the stored buffers of a track job. *)
From Coq Require Import ZArith Bool List Lia.
From Verif Require Import BufferStore BufferStoreSpec BufferStoreProofs BufferStoreJobProofs.
Import ListNotations.
Local Open Scope Z_scope.

(** Whatever a program does with stores within the rules: there is never a
    double deletion or a use of a deleted buffer, every store in use exposes
    nothing or a live buffer, an owned buffer is the exposed one and nobody
    else's, and every live buffer has exactly one owner. *)
Theorem C40_ownership_partial : forall ops,
  keeps_rules ledger_start pool_start ops ->
  exists p, pool_run pool_start ops = Some p
    /\ (forall i s, pget p i = Some s -> ~ moved (ledger_run ledger_start ops) i ->
          store_sound (ledger_run ledger_start ops) p s)
    /\ accounted (ledger_run ledger_start ops) p.
Proof.
  intros ops K. destruct (PInv_run ops _ _ PInv_start K) as (p & E & I).
  exists p. split; [exact E | now apply PInv_sound].
Qed.
Print Assumptions C40_ownership_partial.

(** When all stores are destroyed, only the caller's buffers are left. *)
Theorem C40_no_leak : forall ops p,
  keeps_rules ledger_start pool_start ops -> pool_run pool_start ops = Some p ->
  (forall i, pget p i = None) ->
  forall a, live (p_heap p) a <-> mine (ledger_run ledger_start ops) a.
Proof.
  intros ops p K E N a. destruct (PInv_run ops _ _ PInv_start K) as (p' & E' & I).
  rewrite E in E'. injection E' as <-. split.
  - intro L. destruct (i_leak _ _ _ _ I a L) as [H | (i & s & G & _)]; auto.
    rewrite N in G. discriminate.
  - apply (i_mine _ _ _ _ I).
Qed.
Print Assumptions C40_no_leak.

Lemma drop_frame h get M Mv i s h' :
  Inv h get M Mv -> get i = Some s -> drop_own (s_own s) h = Some h' ->
  forall k t, k <> i -> get k = Some t -> s_own t <> 0 -> h' (s_own t) = h (s_own t).
Proof.
  intros I G D k t N K Nz. revert D. unfold drop_own.
  destruct (s_own s =? 0).
  - intro E. now injection E as <-.
  - unfold h_free. destruct (h (s_own s)); [| discriminate]. intro E. injection E as <-.
    apply hset_other. intro Y. apply N. eapply (i_uniq _ _ _ _ I); eauto.
Qed.

(** An operation on other stores leaves a store and the buffer it owns alone. *)
Theorem C40_frame : forall ops op p p' k s,
  keeps_rules ledger_start pool_start (ops ++ [op]) ->
  pool_run pool_start ops = Some p -> pool_step p op = Some p' ->
  pget p k = Some s -> bs_owns s = true -> ~ touches op k -> ~ writes op (s_own s) ->
  pget p' k = Some s /\ p_heap p' (s_own s) = p_heap p (s_own s).
Proof.
  intros ops op p p' k s K E St G Ow NT NW.
  assert (KI : PInv (ledger_run ledger_start ops) p /\ allowed (ledger_run ledger_start ops) p op).
  { revert K E. generalize PInv_start. generalize ledger_start, pool_start. clear.
    induction ops as [| o r IH]; intros g q I K E; cbn [app keeps_rules pool_run] in *.
    - injection E as <-. split; [exact I | apply K].
    - destruct K as [A K]. destruct (PInv_step g q o I A) as (q1 & E1 & I1).
      rewrite E1 in E. cbn [obnd] in E. unfold ledger_run. cbn [fold_left].
      apply (IH _ q1); auto. }
  destruct KI as [I A]. unfold PInv in I. revert I A. generalize (ledger_run ledger_start ops).
  intros g I A.
  assert (Nz : s_own s <> 0).
  { unfold bs_owns in Ow. apply andb_true_iff in Ow. destruct Ow as [_ Ow].
    apply negb_true_iff, Z.eqb_neq in Ow. exact Ow. }
  destruct (own_not_mine _ _ _ _ I k s G Nz) as (Nmv & NM & L & _).
  assert (New : forall a v h', h_new a v (p_heap p) = Some h' -> h' (s_own s) = p_heap p (s_own s)).
  { intros a v h' H. unfold h_new in H. destruct (a =? 0); [discriminate |].
    destruct (p_heap p a) eqn:Ea; [discriminate |]. injection H as <-.
    apply hset_other. intro Y. rewrite Y in L. now elim L. }
  assert (Nend : k <> length (p_stores p)).
  { intros ->. rewrite pget_end in G. discriminate. }
  destruct op as [a v | a | a v | r | i r | i | i | j a | j | i j a | i j];
    cbn [allowed pool_step touches writes] in *.
  - destruct (h_new a v (p_heap p)) as [h' |] eqn:H; [| discriminate]. cbn [obnd] in St.
    injection St as <-. split; [exact G | exact (New _ _ _ H)].
  - unfold h_free in St. destruct (p_heap p a) eqn:Ea; [| discriminate]. cbn [obnd] in St.
    injection St as <-. split; [exact G |]. cbn [p_heap]. apply hset_other.
    intros Y. rewrite Y in NM. destruct A as [A _]. auto.
  - destruct (p_heap p a) eqn:Ea; [| discriminate]. cbn [obnd] in St.
    injection St as <-. split; [exact G |]. cbn [p_heap]. apply hset_other. congruence.
  - destruct (T_add _ _ _ _ (length (p_stores p)) I (pget_end p)) as [I1 Nm].
    destruct (R_reset (p_heap p) _ _ _ (length (p_stores p)) bs_empty r I1 (gset_same _ _ _))
      as (s' & h' & E1 & I2 & Hk).
    + intro Y. now elim Nm.
    + assert (X : forall b, b <> 0 -> ~ exposed g p b ->
        ~ exposedG (gset (pget p) (length (p_stores p)) (Some bs_empty)) (moved g) b).
      { intros b Nb X (x & t & Kx & Nk & F). apply gset_cases in Kx. destruct Kx as [[-> Y] | [N Kx]].
        - injection Y as <-. cbn in F. congruence.
        - apply X. exists x, t. auto. }
      destruct r as [a v | b take | b take del a | b | b a]; cbn [reset_ok reset_okG] in *; auto.
      * destruct A as [A | [A1 A2]]; [auto | right]. split; auto. intro T. apply X; auto.
        exact (M_nonnull _ _ _ _ I b A1).
      * destruct A as [A | [A1 A2]]; [auto | right]. split; auto. intro T.
        destruct (A2 T) as [A3 A4]. split; auto. intro D. apply X; auto.
        exact (M_nonnull _ _ _ _ I b A1).
      * destruct A as [A | [A1 A2]]; [auto | right]. split; auto. apply X; auto.
        exact (M_nonnull _ _ _ _ I b A1).
    + rewrite E1 in St. cbn [obnd] in St. injection St as <-.
      rewrite pget_padd, gset_other by auto. split; [exact G |]. cbn [padd p_heap].
      apply (Hk k s); auto. rewrite gset_other; auto.
  - destruct A as ([si Gi] & Ok & Bl). rewrite Gi in St. cbn [obnd] in St.
    destruct (R_reset _ _ _ _ i si r I Gi Bl (reset_ok_G _ _ _ Ok)) as (s' & h' & E1 & I2 & Hk).
    rewrite E1 in St. cbn [obnd] in St. injection St as <-.
    rewrite (pget_pset _ _ _ _ _ Gi), gset_other by auto. split; [exact G |]. cbn [pset p_heap].
    apply (Hk k s); auto.
  - destruct A as [si Gi]. rewrite Gi in St. cbn [obnd] in St. unfold bs_clear in St.
    destruct (drop_own (s_own si) (p_heap p)) as [h' |] eqn:D; [| discriminate].
    cbn [obnd] in St. injection St as <-.
    rewrite (pget_pset _ _ _ _ _ Gi), gset_other by auto. split; [exact G |]. cbn [pset p_heap].
    apply (drop_frame _ _ _ _ i si h' I Gi D k s); auto.
  - destruct A as [si Gi]. rewrite Gi in St. cbn [obnd] in St. unfold bs_destroy in St.
    destruct (drop_own (s_own si) (p_heap p)) as [h' |] eqn:D; [| discriminate].
    cbn [obnd] in St. injection St as <-.
    rewrite (pget_pset _ _ _ _ _ Gi), gset_other by auto. split; [exact G |]. cbn [pset p_heap].
    apply (drop_frame _ _ _ _ i si h' I Gi D k s); auto.
  - destruct A as ([o Go] & _ & _). rewrite Go in St. cbn [obnd] in St. unfold bs_copy_ctor in St.
    destruct (bs_owns o).
    + destruct (p_heap p (s_own o)) as [v |]; [| discriminate]. cbn [obnd] in St.
      destruct (h_new a v (p_heap p)) as [h' |] eqn:H; [| discriminate]. cbn [obnd] in St.
      injection St as <-. rewrite pget_padd, gset_other by auto. split; [exact G |].
      exact (New _ _ _ H).
    + cbn [obnd] in St. injection St as <-. rewrite pget_padd, gset_other by auto. auto.
  - destruct A as ([o Go] & _). rewrite Go in St. cbn [obnd bs_move_ctor] in St. injection St as <-.
    rewrite pget_padd. cbn [pset p_stores]. rewrite upd_nth_length, gset_other by auto.
    rewrite (pget_pset _ _ _ _ _ Go), gset_other by auto. auto.
  - destruct A as (si & rhs & Gi & Gj & _ & Fr & _). rewrite Gi, Gj in St. cbn [obnd] in St.
    destruct (Nat.eqb i j); [injection St as <-; auto |].
    unfold bs_copy_assign in St. destruct (bs_owns rhs).
    + destruct (p_heap p (s_own rhs)) as [v |]; [| discriminate]. cbn [obnd] in St.
      rewrite (h_new_ok _ _ _ Fr) in St. cbn [obnd] in St.
      destruct (R_new _ _ _ _ i si a v I Gi Fr) as (h' & D & _ & _ & _ & Hk).
      rewrite D in St. cbn [obnd] in St. injection St as <-.
      rewrite (pget_pset _ _ _ _ _ Gi), gset_other by auto. split; [exact G |]. cbn [pset p_heap].
      apply (Hk k s); auto.
    + cbn [obnd] in St. injection St as <-.
      rewrite (pget_pset _ _ _ _ _ Gi), gset_other by auto. auto.
  - destruct A as ([si Gi] & [rhs Gj] & _). rewrite Gi, Gj in St. cbn [obnd] in St.
    destruct (Nat.eqb_spec i j) as [| Nij]; [injection St as <-; auto |].
    unfold bs_move_assign in St.
    destruct (drop_own (s_own si) (p_heap p)) as [h' |] eqn:D; [| discriminate].
    cbn [obnd] in St. injection St as <-.
    assert (G2 : pget (pset p i (Some (mkStore (s_cxx rhs) (s_c99 rhs) (s_own rhs))) h') j = Some rhs).
    { rewrite (pget_pset p i _ _ si Gi). rewrite gset_other; auto. }
    rewrite (pget_pset _ j _ _ rhs G2), gset_other by tauto.
    rewrite (pget_pset p i _ _ si Gi), gset_other by tauto. split; [exact G |].
    cbn [pset p_heap]. apply (drop_frame _ _ _ _ i si h' I Gi D k s); tauto.
Qed.
Print Assumptions C40_frame.

(** A copy of an owning store has a buffer of its own with the same content; the
    source is unchanged. *)
Theorem C40_copy : forall ops j a p p' s,
  keeps_rules ledger_start pool_start (ops ++ [SCopyNew j a]) ->
  pool_run pool_start ops = Some p -> pool_step p (SCopyNew j a) = Some p' ->
  pget p j = Some s -> bs_owns s = true ->
  exists t, pget p' (length (p_stores p)) = Some t
    /\ bs_owns t = true /\ bs_ptr t <> bs_ptr s
    /\ p_heap p' (bs_ptr t) = p_heap p (bs_ptr s)
    /\ pget p' j = Some s /\ p_heap p' (bs_ptr s) = p_heap p (bs_ptr s).
Proof.
  intros ops j a p p' s K E St G Ow.
  assert (KI : PInv (ledger_run ledger_start ops) p
    /\ allowed (ledger_run ledger_start ops) p (SCopyNew j a)).
  { revert K E. generalize PInv_start. generalize ledger_start, pool_start. clear.
    induction ops as [| o r IH]; intros g q I K E; cbn [app keeps_rules pool_run] in *.
    - injection E as <-. split; [exact I | apply K].
    - destruct K as [A K]. destruct (PInv_step g q o I A) as (q1 & E1 & I1).
      rewrite E1 in E. cbn [obnd] in E. unfold ledger_run. cbn [fold_left].
      apply (IH _ q1); auto. }
  destruct KI as [I (_ & Nm & Fr)]. unfold PInv in I.
  assert (Nz : s_own s <> 0).
  { unfold bs_owns in Ow. apply andb_true_iff in Ow. destruct Ow as [_ Ow].
    apply negb_true_iff, Z.eqb_neq in Ow. exact Ow. }
  destruct (own_not_mine _ _ _ _ I j s G Nz) as (_ & _ & L & C1 & C2).
  destruct (C40_frame ops (SCopyNew j a) p p' j s K E St G Ow) as [F1 F2];
    [intros [] | intros [] |].
  cbn [pool_step] in St. rewrite G in St. cbn [obnd] in St. unfold bs_copy_ctor in St.
  rewrite Ow in St. unfold live in L.
  destruct (p_heap p (s_own s)) as [v |] eqn:Ev; [| now elim L]. cbn [obnd] in St.
  rewrite (h_new_ok _ _ _ Fr) in St. cbn [obnd] in St. injection St as <-.
  destruct Fr as [Na Fa].
  exists (mkStore a a a). rewrite pget_padd, gset_same.
  unfold bs_owns, bs_active, bs_ptr in *. cbn [s_c99 s_own]. rewrite C2.
  apply Z.eqb_neq in Na. rewrite Na. cbn [negb andb].
  split; [reflexivity |]. split; [reflexivity |].
  split; [intro Y; rewrite Y in Fa; congruence |].
  split; [cbn [padd p_heap]; rewrite hset_same; auto |].
  split; [exact F1 | rewrite F2, Ev; reflexivity].
Qed.
Print Assumptions C40_copy.

(** A program that keeps the rules and uses every kind of operation. *)
Definition sample_ops : list store_op :=
  [ CNew 10 [1]; CNew 20 [2]; CNew 30 [3];
    SNew (RCap 40 [4]);              (* store 0 owns 40 *)
    SNew (RCxx 10 false);            (* store 1 exposes the caller's 10 *)
    SNew (RC 20 true true 50);       (* store 2 owns 50, 20 is gone *)
    SCopyNew 0 60;                   (* store 3 owns 60 *)
    SMoveNew 2;                      (* store 4 owns 50, store 2 moved from *)
    SReset 2 (RUniq 30);             (* store 2 owns 30 *)
    SCopy 1 0 70;                    (* store 1 owns 70 *)
    SMove 3 4; SClear 4; CFree 10; SDestroy 0 ].

Lemma keeps_cons g p op r p' :
  allowed g p op -> pool_step p op = Some p' -> keeps_rules (ledger_step g op) p' r ->
  keeps_rules g p (op :: r).
Proof.
  intros A E K. split; [exact A |]. intros q H. rewrite E in H. injection H as <-. exact K.
Qed.

Ltac unexposed :=
  let i := fresh in let s := fresh in let H := fresh in let E := fresh in
  intros (i & s & H & _ & E); cbn in H;
  do 6 (destruct i as [| i];
    [cbn in H; try discriminate H; injection H as <-; cbn in E; discriminate E |]);
  cbn in H; destruct i; discriminate H.

Example C40_rules_satisfiable : keeps_rules ledger_start pool_start sample_ops.
Proof.
  unfold sample_ops.
  repeat match goal with
  | |- keeps_rules _ _ (_ :: _) =>
      eapply keeps_cons; [| cbn; reflexivity |]; cbn [allowed ledger_step]
  | |- keeps_rules _ _ [] => exact I
  end.
  all: unfold fresh, mine, moved, reset_ok; cbn.
  all: try (split; [discriminate | reflexivity]).
  all: try (eexists; reflexivity).
  - right. split; [auto | discriminate].
  - right. split; [auto |]. intros _. split; [split; [discriminate | reflexivity] |].
    intros _. unexposed.
  - split; [eexists; reflexivity |]. split; [tauto |]. split; [discriminate | reflexivity].
  - split; [eexists; reflexivity | tauto].
  - split; [eexists; reflexivity |]. split; [| auto]. right. split; [auto |]. unexposed.
  - eexists _, _. split; [reflexivity |]. split; [reflexivity |]. split; [tauto |].
    split; [split; [discriminate | reflexivity] |]. auto.
  - split; [eexists; reflexivity |]. split; [eexists; reflexivity |]. tauto.
  - split; [auto |]. unexposed.
Qed.

(** Without the rule for copy assignment the property fails: assigning a store
    that owns nothing to one that owns a buffer leaves a store that claims to own
    the buffer it exposes, while it owns another one. *)
Theorem C40_copy_assign_refuted :
  exists p s, pool_run pool_start
      [ CNew 10 [1]; SNew (RCap 40 [4]); SNew (RCxx 10 false); SCopy 0 1 50 ] = Some p
    /\ pget p 0 = Some s /\ bs_owns s = true /\ bs_ptr s = 10 /\ s_own s = 40 /\ ~ coherent s.
Proof.
  eexists _, _. split; [reflexivity |]. split; [reflexivity |].
  split; [reflexivity |]. split; [reflexivity |]. split; [reflexivity |].
  unfold coherent. cbn. intros [[H _] | (_ & _ & [H | H])]; discriminate.
Qed.
Print Assumptions C40_copy_assign_refuted.

(** A moved-from store still exposes the buffer that was moved out of it: after
    the new owner is cleared it exposes a deleted buffer. *)
Theorem C40_moved_from_refuted :
  exists p s, pool_run pool_start
      [ SNew (RCap 40 [4]); SMoveNew 0; SClear 1 ] = Some p
    /\ pget p 0 = Some s /\ bs_active s = true /\ bs_ptr s = 40 /\ ~ live (p_heap p) (bs_ptr s).
Proof.
  eexists _, _. split; [reflexivity |]. split; [reflexivity |].
  split; [reflexivity |]. split; [reflexivity |]. unfold live. cbn. auto.
Qed.
Print Assumptions C40_moved_from_refuted.

(** Giving a store the ownership of the buffer it already exposes does nothing:
    nobody owns the buffer afterwards. *)
Theorem C40_take_exposed_refuted :
  exists p s, pool_run pool_start
      [ CNew 10 [1]; SNew (RCxx 10 false); SReset 0 (RCxx 10 true) ] = Some p
    /\ pget p 0 = Some s /\ bs_ptr s = 10 /\ bs_owns s = false.
Proof. eexists _, _. repeat split. Qed.
Print Assumptions C40_take_exposed_refuted.

(** ** C47 *)

(** Whatever a user does with the stored buffers of a job within the rules: no
    memory error occurs, the calls return the ids and statuses the table of
    stored buffers gives, every id shows what the table says (for good, until it
    is removed), and the number of stored buffers is the number of entries. *)
Theorem C47_stored_buffers : forall ops,
  jkeeps [] jstart ops ->
  exists w, jrun jstart ops = Some (fst (trun [] jstart ops), w)
    /\ (forall id, shows (fold_left jmine ops []) w id (lookup (snd (trun [] jstart ops)) id))
    /\ sj_num (jw_job w) = num_stored (snd (trun [] jstart ops)).
Proof.
  intros ops K. destruct (JInv_run ops _ _ _ JInv_start K) as (w & E & J).
  exists w. split; [exact E |]. split; [exact (JInv_shows _ _ _ J) | exact (ji_num _ _ _ J)].
Qed.
Print Assumptions C47_stored_buffers.

(** Ids are never handed out twice. *)
Theorem C47_ids_distinct : forall ops r r' ops' w,
  jkeeps [] jstart (ops ++ JAdd r :: ops' ++ [JAdd r']) ->
  forall l, jrun jstart (ops ++ JAdd r :: ops' ++ [JAdd r']) = Some (l, w) ->
  forall id id', nth_error l (length ops) = Some id ->
    nth_error l (length ops + 1 + length ops') = Some id' -> id < id'.
Proof.
  intros ops r r' ops' w K l E id id' H H'.
  destruct (JInv_run _ _ _ _ JInv_start K) as (w' & E' & _).
  rewrite E in E'. injection E' as El Ew. clear E w' Ew.
  assert (X : forall m w0 t, JInv m w0 t -> forall pre post,
     jkeeps m w0 (pre ++ post) ->
     exists w1 m1, JInv m1 w1 (snd (trun t w0 pre)) /\ jkeeps m1 w1 post
       /\ fst (trun t w0 (pre ++ post)) = fst (trun t w0 pre) ++ fst (trun (snd (trun t w0 pre)) w1 post)
       /\ length (fst (trun t w0 pre)) = length pre
       /\ (length t <= length (snd (trun t w0 pre)))%nat).
  { clear. intros m w0 t J pre. revert m w0 t J.
    induction pre as [| op pre IH]; intros m w0 t J post K; cbn [app trun] in *.
    - exists w0, m. repeat split; auto; apply J.
    - destruct K as [A K]. destruct (JInv_step _ _ _ _ J A) as (w1 & E & J1). rewrite E in *.
      destruct (IH _ _ _ J1 post (K _ _ eq_refl)) as (w2 & m2 & J2 & K2 & E2 & L2 & T2).
      exists w2, m2.
      destruct (trun (tstep t (jw_heap w0) op) w1 pre) as [l1 t1].
      destruct (trun (tstep t (jw_heap w0) op) w1 (pre ++ post)) as [l2 t2].
      cbn [fst snd app length] in *. split; [exact J2 | split; [exact K2 |]].
      split; [now rewrite E2 | split; [now rewrite L2 |]].
      assert (Y : (length t <= length (tstep t (jw_heap w0) op))%nat); [| lia].
      destruct op as [a v | a | r | id | id v]; cbn [tstep]; auto.
      + rewrite app_length. lia.
      + destruct (id <? 1024); auto. now rewrite upd_nth_length.
      + destruct (id <? 1024); auto. destruct (nth_error t _) as [[| |] |]; auto.
        now rewrite upd_nth_length. }
  destruct (X _ _ _ JInv_start ops _ K) as (w1 & m1 & J1 & K1 & E1 & L1 & _).
  rewrite E1 in El. cbn [jkeeps trun] in K1, El.
  destruct K1 as [A1 K1]. destruct (JInv_step _ _ _ _ J1 A1) as (w2 & E2 & J2).
  rewrite E2 in El, K1.
  destruct (X _ _ _ J2 ops' _ (K1 _ _ eq_refl)) as (w3 & m3 & J3 & K3 & E3 & L3 & T3).
  set (t1 := snd (trun [] jstart ops)) in *.
  set (t2 := tstep t1 (jw_heap w1) (JAdd r)) in *.
  set (t3 := snd (trun t2 w2 ops')) in *.
  destruct (trun t2 w2 (ops' ++ [JAdd r'])) as [lr tr] eqn:Er. cbn [fst] in El, E3.
  cbn [trun] in E3. destruct K3 as [A3 _].
  destruct (JInv_step _ _ _ _ J3 A3) as (w4 & E4 & _). rewrite E4 in E3. cbn [fst] in E3.
  rewrite El in H, H'. rewrite nth_error_app2 in H by lia. rewrite L1, Nat.sub_diag in H.
  cbn [nth_error] in H.
  assert (H1 : id = treturn t1 (JAdd r)) by congruence. clear H. subst id.
  rewrite nth_error_app2 in H' by lia. rewrite L1 in H'.
  replace (length ops + 1 + length ops' - length ops)%nat with (S (length ops')) in H' by lia.
  cbn [nth_error] in H'. rewrite E3 in H'.
  rewrite nth_error_app2 in H' by lia. rewrite L3, Nat.sub_diag in H'. cbn [nth_error] in H'.
  assert (H1 : id' = treturn t3 (JAdd r')) by congruence. clear H'. subst id'. cbn [treturn].
  assert (Y : length t2 = S (length t1)).
  { unfold t2. cbn [tstep]. rewrite app_length. cbn [length]. lia. }
  lia.
Qed.
Print Assumptions C47_ids_distinct.

(** The range of ids: from 1024 to the last id handed out while buffers are stored, empty
    otherwise. *)
Definition adds (ops : list job_op) : nat := length (filter (fun op => match op with JAdd _ => true | _ => false end) ops).

Lemma trun_length : forall ops m w t, JInv m w t -> jkeeps m w ops ->
  length (snd (trun t w ops)) = (length t + adds ops)%nat.
Proof.
  induction ops as [|op ops IH]; intros m w t J K; cbn [trun].
  - cbn. lia.
  - destruct K as [A K]. destruct (JInv_step _ _ _ _ J A) as (w1 & E & J1). rewrite E in *.
    pose proof (IH _ _ _ J1 (K _ _ eq_refl)) as L.
    destruct (trun (tstep t (jw_heap w) op) w1 ops) as [l1 t1]. cbn [snd] in *. rewrite L.
    unfold adds. destruct op as [a v | a | r | id | id v]; cbn [tstep filter length]; try lia.
    + rewrite app_length. cbn [length]. lia.
    + destruct (id <? 1024); auto. now rewrite upd_nth_length.
    + destruct (id <? 1024); auto. destruct (nth_error t _) as [[| |] |]; auto.
      now rewrite upd_nth_length.
Qed.

Theorem C47_id_range : forall ops rs w, jkeeps [] jstart ops -> jrun jstart ops = Some (rs, w) ->
  let t := snd (trun [] jstart ops) in
  sj_has (jw_job w) = (0 <? num_stored t)
  /\ (num_stored t = 0 -> sj_min_id (jw_job w) = 0 /\ sj_max_id (jw_job w) = 0)
  /\ (0 < num_stored t -> sj_min_id (jw_job w) = 1024 /\ sj_max_id (jw_job w) = 1023 + Z.of_nat (adds ops))
  /\ (forall id, lookup t id <> SNone -> 0 < num_stored t /\ sj_min_id (jw_job w) <= id <= sj_max_id (jw_job w)).
Proof.
  intros ops rs w K E t. destruct (JInv_run ops _ _ _ JInv_start K) as (w' & E' & J).
  rewrite E in E'. assert (w' = w) as -> by congruence. fold t in J. clear E'.
  pose proof (trun_length _ _ _ _ JInv_start K) as L. fold t in L. cbn [length Nat.add] in L.
  assert (H : sj_has (jw_job w) = (0 <? num_stored t)) by (unfold sj_has, sj_num; now rewrite (ji_num _ _ _ J)).
  assert (P : 0 < num_stored t -> sj_min_id (jw_job w) = 1024 /\ sj_max_id (jw_job w) = 1023 + Z.of_nat (adds ops)).
  { intros P. unfold sj_max_id, sj_min_id, nstores. rewrite H, (proj2 (Z.ltb_lt _ _) P).
    unfold MIN_USER_ID, ILLEGAL_ID. change (1024 =? 0) with false. cbn [negb].
    rewrite (F2_len _ _ _ (ji_tab _ _ _ J)), L. lia. }
  split; [exact H|]. split; [|split; [exact P|]].
  - intros Z0. unfold sj_max_id, sj_min_id. rewrite H, Z0. split; reflexivity.
  - intros id Hl. unfold lookup in Hl. destruct (Z.ltb_spec id 1024) as [|Hi]; [congruence|].
    destruct (nth_error t (Z.to_nat (id - 1024))) as [e|] eqn:En; [|congruence].
    assert (Q : 0 < num_stored t).
    { unfold num_stored. assert (X : In e (filter is_stored t)).
      { apply filter_In. split; [eapply nth_error_In; eauto|]. destruct e; auto; congruence. }
      destruct (filter is_stored t); [destruct X|cbn [length]; lia]. }
    split; [exact Q|]. destruct (P Q) as [-> ->].
    assert (Z.to_nat (id - 1024) < length t)%nat by (apply nth_error_Some; rewrite En; discriminate). lia.
Qed.
Print Assumptions C47_id_range.

(** Five stored buffers, two of them removed. *)
Definition sample_job : list job_op :=
  [ JCNew 10 [1]; JCNew 20 [2]; JAdd (RCap 40 [4]); JAdd (RCxx 10 false); JAdd (RC 20 true true 50);
    JWrite 1026 [7]; JRemove 1024; JAdd (RUniq 0); JRemove 1025; JCFree 10; JRemove 1024; JRemove 9 ].

Lemma jkeeps_cons m w op r x w' :
  jallowed m w op -> jstep w op = Some (x, w') -> jkeeps (jmine m op) w' r -> jkeeps m w (op :: r).
Proof.
  intros A E K. split; [exact A |]. intros y q H. rewrite E in H. injection H as <- <-. exact K.
Qed.

Lemma jexposed_in w b : b <> 0 -> jexposed w b ->
  exists s, In s (j_stores (jw_job w)) /\ s_c99 s = b.
Proof.
  intros N (id & E). unfold sj_ptr, sj_get in E. destruct (sj_in_range _ _); [| congruence].
  destruct (nth_error _ _) as [s |] eqn:Es; [| congruence].
  exists s. split; [eapply nth_error_In; eauto | exact E].
Qed.

Ltac junexposed :=
  let H := fresh in let s := fresh in let E := fresh in
  intro H; apply jexposed_in in H; [| discriminate];
  destruct H as (s & H & E); cbn in H;
  repeat (destruct H as [H | H]; [subst s; discriminate E |]); destruct H.

Example C47_rules_satisfiable :
  jkeeps [] jstart sample_job
  /\ fst (trun [] jstart sample_job) = [0; 0; 1024; 1025; 1026; 0; 1; 1027; 1; 0; 1; 0]
  /\ snd (trun [] jstart sample_job) = [SNone; SNone; SOwned [7]; SNone].
Proof.
  split; [| split; reflexivity].
  unfold sample_job.
  repeat match goal with
  | |- jkeeps _ _ (_ :: _) =>
      eapply jkeeps_cons; [| cbn; reflexivity |]; cbn [jallowed jmine]
  | |- jkeeps _ _ [] => exact I
  end.
  all: unfold jfresh; cbn.
  all: try (split; [discriminate | reflexivity]).
  all: try exact I.
  all: try discriminate.
  - right. split; [auto | discriminate].
  - right. split; [auto |]. intros _. split; [split; [discriminate | reflexivity] |].
    intros _. junexposed.
  - auto.
  - split; [auto |]. junexposed.
Qed.

(** Assigning a job copies the number of stored buffers but not the buffers: the
    target claims a stored buffer it does not have. *)
Theorem C47_copy_assign_refuted :
  exists rhs h id, sj_add (RCap 40 [4]) (mkSJob [] 0) (fun _ => None) = Some (id, rhs, h)
    /\ sj_num (sj_copy_assign (mkSJob [] 0) rhs) = 1
    /\ (forall k, sj_ptr (sj_copy_assign (mkSJob [] 0) rhs) k = 0).
Proof.
  eexists _, _, _. split; [reflexivity |]. split; [reflexivity |].
  intro k. unfold sj_ptr, sj_get, sj_copy_assign. cbn [j_stores j_num].
  destruct (sj_in_range _ _); [| reflexivity]. destruct (Z.to_nat _); reflexivity.
Qed.
Print Assumptions C47_copy_assign_refuted.

(** Move-assigning a job takes over the buffers but not their number: no id
    leads to the buffers any more. *)
Theorem C47_move_assign_refuted :
  exists rhs h id j h', sj_add (RCap 40 [4]) (mkSJob [] 0) (fun _ => None) = Some (id, rhs, h)
    /\ sj_ptr rhs id = 40
    /\ sj_move_assign (mkSJob [] 0) rhs h = Some (j, h')
    /\ sj_num j = 0 /\ (forall k, sj_ptr j k = 0) /\ h' 40 = Some [4].
Proof.
  eexists _, _, _, _, _. split; [reflexivity |]. split; [reflexivity |]. split; [reflexivity |].
  split; [reflexivity |]. split; [| reflexivity].
  intro k. reflexivity.
Qed.
Print Assumptions C47_move_assign_refuted.

(** Reserving room for more stored buffers always fails, and never changes the
    capacity. *)
Theorem C47_reserve_refuted : forall capacity current,
  0 <= current -> snd (sj_reserve capacity current) = current
  /\ (current <= capacity -> fst (sj_reserve capacity current) = false).
Proof.
  intros c k H. unfold sj_reserve. destruct (Z.ltb_spec c k); cbn [fst snd]; split; lia.
Qed.
Print Assumptions C47_reserve_refuted.

