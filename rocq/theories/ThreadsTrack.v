(* The tracking threads: traces, and what they write. *)
From Coq Require Import ZArith List Bool Lia.
From Verif Require Import Num Particle Elements EbeConfig Track TrackSpec TrackProofs DispatchProofs
  Threads ThreadsSpec ThreadsProofs ParticleSet ParticleSetProofs Kernels KernelsProofs Tac.
Import ListNotations.
Local Open Scope Z_scope.

Section TT.
Context {T : Type} (N : NumOps T) (c : config T).
Notation M := (outsets T).
Notation write := (write T).
Variable sh : list nat.

(* what an element writes when passed by particle q *)
Definition elem_writes (be : element T) (q : particle T) (w : write) : Prop :=
  exists m k, be = BMonitor m /\ m_out m = Some k /\
    0 <= monitor_store_index m (p_at_turn q) (p_particle_id q) /\
    w = (k, Z.to_nat (monitor_store_index m (p_at_turn q) (p_particle_id q)), q).

Definition canonical (p : particle T) : M := map (fun n => repeat p n) sh.
Lemma canonical_shape : forall p, shape (canonical p) = sh.
Proof.
  intros p. unfold shape, canonical. rewrite map_map.
  rewrite (map_ext _ (fun n => n)) by (intros; apply repeat_length). apply map_id.
Qed.

Lemma store_trace : forall k i p,
  (forall o : M, shape o = sh -> store_out o k i p = None) \/
  (exists st w, (forall o : M, shape o = sh -> store_out o k i p = Some (apply_writes w o, st)) /\
     Forall (fun x => x = (k, Z.to_nat i, p) /\ 0 <= i) w).
Proof.
  intros k i p. unfold store_out.
  destruct (nth_error sh k) as [n|] eqn:En.
  - assert (forall o : M, shape o = sh -> exists l, nth_error o k = Some l /\ length l = n) as G.
    { intros o Ho. rewrite <- Ho in En. unfold shape in En. rewrite nth_error_map in En.
      destruct (nth_error o k) as [l|]; [|discriminate]. cbn in En. exists l. split; [auto|congruence]. }
    destruct (Z.ltb_spec i (Z.of_nat n)).
    + destruct (Z.leb_spec 0 i).
      * right. exists 0, [(k, Z.to_nat i, p)]. split; [|constructor; auto].
        intros o Ho. destruct (G o Ho) as (l & El & Hl). rewrite El, Hl.
        destruct (Z.ltb_spec i (Z.of_nat n)); [|lia]. destruct (Z.leb_spec 0 i); [|lia].
        unfold apply_writes. cbn [fold_left write_to]. now rewrite El.
      * left. intros o Ho. destruct (G o Ho) as (l & El & Hl). rewrite El, Hl.
        destruct (Z.ltb_spec i (Z.of_nat n)); [|lia]. destruct (Z.leb_spec 0 i); [lia|auto].
    + right. exists (-1), []. split; [|constructor].
      intros o Ho. destruct (G o Ho) as (l & El & Hl). rewrite El, Hl.
      destruct (Z.ltb_spec i (Z.of_nat n)); [lia|]. reflexivity.
  - left. intros o Ho. rewrite <- Ho in En. unfold shape in En. rewrite nth_error_map in En.
    destruct (nth_error o k); [discriminate|reflexivity].
Qed.

Lemma dispatch_trace : forall be p,
  (forall o, shape o = sh -> dispatch N c be p o = None) \/
  (exists p' s w, (forall o, shape o = sh -> dispatch N c be p o = Some (p', apply_writes w o, s)) /\
     Forall (elem_writes be p) w /\ p_particle_id p' = p_particle_id p /\
     p_at_turn p' = p_at_turn p /\ p_at_element_id p' = p_at_element_id p).
Proof.
  intros be p.
  assert (is_monitor be = false \/ exists m, be = BMonitor m) as [Hm|(m & ->)]
    by (destruct be; cbn; eauto).
  - destruct (dispatch N c be p (canonical p)) as [[[p' o'] s]|] eqn:E.
    + right. exists p', s, []. split.
      * intros o Ho. pose proof (dispatch_shape N c be p o (canonical p)) as G.
        rewrite canonical_shape in G. specialize (G Ho). rewrite E in G.
        destruct (dispatch N c be p o) as [[[p1 o1] s1]|] eqn:E1; [|contradiction].
        destruct G as (-> & -> & _). apply dispatch_inv in E1 as (_ & _ & _ & Eo & _).
        rewrite (Eo Hm). reflexivity.
      * split; [constructor|]. pose proof (dispatch_keeps_ids N c _ _ _ _ _ _ E) as (I1 & I2 & I3). auto.
    + left. intros o Ho. pose proof (dispatch_shape N c be p o (canonical p)) as G.
      rewrite canonical_shape in G. specialize (G Ho). rewrite E in G.
      destruct (dispatch N c be p o) as [[[p1 o1] s1]|]; [contradiction|reflexivity].
  - cbn [dispatch]. unfold track_monitor. destruct (m_out m) as [k|] eqn:Ek.
    2:{ right. exists p, 0, []. auto. }
    destruct (Z.leb_spec 0 (monitor_store_index m (p_at_turn p) (p_particle_id p))).
    2:{ right. exists p, 0, []. auto. }
    destruct (store_trace k (monitor_store_index m (p_at_turn p) (p_particle_id p)) p)
      as [Hn|(st & w & Hs & Hw)].
    + left. intros o Ho. now rewrite Hn.
    + right. exists (if st =? 0 then p else set_state 0 p), st, w. split.
      * intros o Ho. rewrite Hs by exact Ho. destruct (st =? 0); reflexivity.
      * split; [|destruct (st =? 0); auto].
        eapply Forall_impl; [|exact Hw]. intros x (-> & _). exists m, k. auto.
Qed.

(* ---- traces of the three kinds of threads ---- *)
Section Q.
Variable id : Z.
Variable Q : write -> Prop.
Notation P := (prog M (particle T * Z)).
Notation tr p := (exists ws r, follows sh Q p ws r).

Definition allowed (bes : list (element T)) : Prop :=
  forall be, In be bes -> forall q w, p_particle_id q = id -> elem_writes be q w -> Q w.

Lemma act_trace : forall be p (k : particle T -> Z -> P),
  p_particle_id p = id -> (forall w, elem_writes be p w -> Q w) ->
  (forall p' s, p_particle_id p' = id -> tr (k p' s)) ->
  tr (Act (fun o => match dispatch N c be p o with
           | None => None | Some (p, o, s) => Some (o, k p s) end)).
Proof.
  intros be p k Hp Hq Hk. destruct (dispatch_trace be p) as [Hn|(p' & s & w & Hs & Hw & I1 & _)].
  - exists [], None. apply fl_undef. intros o Ho. now rewrite Hn.
  - destruct (Hk p' s) as (ws & r & F); [congruence|].
    exists (w ++ ws), r. apply fl_act with (k p' s); auto.
    + intros o Ho. now rewrite Hs.
    + eapply Forall_impl; [|exact Hw]. exact Hq.
Qed.

Lemma turn_pass_trace : forall bes p s k, p_particle_id p = id -> allowed bes ->
  (forall p' s b, p_particle_id p' = id -> tr (k p' s b)) ->
  tr (turn_pass_p (dispatch N c) bes p s k).
Proof.
  induction bes as [|be bes IH]; intros p s k Hp Ha Hk; cbn [turn_pass_p]; [auto|].
  apply (act_trace be p (fun p s => if (s =? 0) && is_not_lost p
    then turn_pass_p (dispatch N c) bes (incr_at_element p) s k else k p s false)); auto.
  - intros w. apply Ha; [now left|exact Hp].
  - intros p' s' Hp'. destruct (_ && _); [|auto]. apply IH; auto.
    intros b Hb. apply Ha. now right.
Qed.

Lemma until_loop_trace : forall fuel bes st until p s, p_particle_id p = id -> allowed bes ->
  tr (until_turn_loop_p (nzero N) (dispatch N c) fuel bes st until p s).
Proof.
  induction fuel as [|fuel IH]; intros bes st until p s Hp Ha; cbn [until_turn_loop_p].
  - exists [], None. constructor.
  - apply turn_pass_trace; auto. intros p' s' b Hp'. cbv zeta.
    destruct b; [destruct (_ <? _); [apply IH; auto|]|]; eexists _, _; constructor.
Qed.

Lemma until_turn_trace : forall bes until p, p_particle_id p = id -> allowed bes ->
  tr (until_turn_p N c bes until p).
Proof.
  intros bes until p Hp Ha. unfold until_turn_p, track_until_turn_p. cbv zeta.
  destruct (_ && _); [now apply until_loop_trace|]. eexists _, _; constructor.
Qed.

Lemma line_pass_trace : forall bes p s k, p_particle_id p = id -> allowed bes ->
  (forall p' s, p_particle_id p' = id -> tr (k p' s)) ->
  tr (line_pass_p (dispatch N c) bes p s k).
Proof.
  induction bes as [|be bes IH]; intros p s k Hp Ha Hk; cbn [line_pass_p]; [auto|].
  apply (act_trace be p (fun p s => if (s =? 0) && is_not_lost p
    then line_pass_p (dispatch N c) bes (incr_at_element p) s k else k p s)); auto.
  - intros w. apply Ha; [now left|exact Hp].
  - intros p' s' Hp'. destruct (_ && _); [|auto]. apply IH; auto.
    intros b Hb. apply Ha. now right.
Qed.

Lemma line_trace : forall bes fin p, p_particle_id p = id -> allowed bes ->
  tr (line_p N c bes fin p).
Proof.
  intros bes fin p Hp Ha. unfold line_p, track_line_p. cbv zeta.
  assert (forall p s, tr (if fin && (s =? 0) && is_not_lost p then
      Ret (set_s (nzero N) (incr_at_turn (set_at_element_id 0 p)), s) else Ret (p, s))) as G.
  { intros p' s. destruct (_ && _); eexists _, _; constructor. }
  destruct (is_not_lost p) eqn:L.
  - apply line_pass_trace; auto.
  - pose proof (G p 0) as G0. rewrite L in G0. exact G0.
Qed.

(* the element-by-element stores *)
Definition ebe_writes (cfg : ebe_config) (k : nat) (w : write) : Prop :=
  exists e t q, 0 <= ebe_store_index cfg id e t /\ w = (k, Z.to_nat (ebe_store_index cfg id e t), q).

Lemma ebe_pass_trace : forall cfg k nn se until bes ae at_turn p s kont, p_particle_id p = id ->
  allowed bes -> (forall w, ebe_writes cfg k w -> Q w) ->
  (forall p' s b t, p_particle_id p' = id -> tr (kont p' s b t)) ->
  tr (ebe_pass_p (nzero N) (dispatch N c) (@store_out T) cfg k nn id se until bes ae at_turn p s kont).
Proof.
  intros cfg k nn se until. induction bes as [|be bes IH]; intros ae at_turn p s kont Hp Ha He Hk;
    cbn [ebe_pass_p]; [auto|]. cbv zeta.
  match goal with |- context [if (0 <=? ebe_store_index _ _ _ _) && _ then _ else ?g] => set (go := g) end.
  assert (tr go) as G.
  { unfold go. apply (act_trace be p (fun p s => if (s =? 0) && is_not_lost p then
        match bes with
        | [] => kont (incr_at_turn (set_s (nzero N) (set_at_element_id se p))) s
                  (at_turn + 1 <? until) (at_turn + 1)
        | _ :: _ => ebe_pass_p (nzero N) (dispatch N c) (@store_out T) cfg k nn id se until bes
                      (ae + 1) at_turn (incr_at_element p) s kont
        end else kont p s false at_turn)); auto.
    - intros w. apply Ha; [now left|exact Hp].
    - intros p' s' Hp'. destruct (_ && _); [|auto]. destruct bes as [|b bes']; [apply Hk; exact Hp'|].
      apply IH; auto. intros b' Hb. apply Ha. now right. }
  destruct ((0 <=? ebe_store_index cfg id ae at_turn) && _) eqn:Hi; [|exact G].
  apply andb_true_iff in Hi as (Hi & _). apply Z.leb_le in Hi.
  destruct (store_trace k (ebe_store_index cfg id ae at_turn) p) as [Hn|(st & w & Hs & Hw)].
  - exists [], None. apply fl_undef. intros o Ho. now rewrite Hn.
  - assert (tr (if st =? 0 then go else kont p s false at_turn)) as (ws & r & F)
      by (destruct (st =? 0); auto).
    exists (w ++ ws), r. apply fl_act with (if st =? 0 then go else kont p s false at_turn); auto.
    + intros o Ho. now rewrite Hs.
    + eapply Forall_impl; [|exact Hw]. intros x (-> & _). apply He. exists ae, at_turn, p. auto.
Qed.

Lemma ebe_loop_trace : forall fuel cfg k nn se until bes at_turn p s, p_particle_id p = id ->
  allowed bes -> (forall w, ebe_writes cfg k w -> Q w) ->
  tr (ebe_loop_p (nzero N) (dispatch N c) (@store_out T) fuel cfg k nn id se until bes at_turn p s).
Proof.
  induction fuel as [|fuel IH]; intros cfg k nn se until bes at_turn p s Hp Ha He; cbn [ebe_loop_p].
  - exists [], None. constructor.
  - apply ebe_pass_trace; auto. intros p' s' b t Hp'. destruct b; [apply IH; auto|].
    eexists _, _; constructor.
Qed.

Lemma ebe_trace : forall cfg bes until p, p_particle_id p = id -> allowed bes ->
  (forall k w, e_out cfg = Some k -> ebe_writes cfg k w -> Q w) ->
  tr (elem_by_elem_p N c cfg bes until p).
Proof.
  intros cfg bes until p Hp Ha He. unfold elem_by_elem_p, track_ebe_p.
  destruct (e_out cfg) as [k|] eqn:Ek; [|now apply until_turn_trace].
  unfold outs_num. destruct (nth_error sh k) as [n|] eqn:En.
  - assert (forall o : M, shape o = sh -> match nth_error o k with
              | Some l => Some (Z.of_nat (length l)) | None => None end = Some (Z.of_nat n)) as G.
    { intros o Ho. rewrite <- Ho in En. unfold shape in En. rewrite nth_error_map in En.
      destruct (nth_error o k) as [l|]; [|discriminate]. cbn in En. congruence. }
    match goal with |- context [if ?b then ebe_loop_p _ _ _ _ _ _ _ _ _ _ _ _ _ _ else _] =>
      set (cond := b) end.
    assert (tr (if cond then ebe_loop_p (nzero N) (dispatch N c) (@store_out T)
          (Z.to_nat (until - p_at_turn p)) cfg k (Z.of_nat n) (p_particle_id p)
          (p_at_element_id p) until bes (p_at_turn p) p 0 else Ret (p, 0))) as (ws & r & F).
    { destruct cond; [rewrite Hp; apply ebe_loop_trace; eauto|]. eexists _, _; constructor. }
    exists ([] ++ ws), r. eapply fl_act; [|constructor|exact F].
    intros o Ho. rewrite (G o Ho). reflexivity.
  - exists [], None. apply fl_undef. intros o Ho. rewrite <- Ho in En. unfold shape in En.
    rewrite nth_error_map in En. destruct (nth_error o k); [discriminate|reflexivity].
Qed.

End Q.
End TT.
