(* What Track_particle_until_turn leaves in the output sets of the beam monitors, and what
   it does not touch. *)
From Coq Require Import ZArith List Bool Lia.
From Verif Require Import Num Particle Elements EbeConfig Track TrackSpec TrackProofs
  DispatchProofs TrackInv MonitorSpec MonitorProofs Records.
Import ListNotations.
Local Open Scope Z_scope.

Section Pass.
Context {T E M : Type}.
Variable zero : T.
Variable disp : E -> particle T -> M -> option (particle T * M * Z).
Variable bes : list E.
Variables (p0 : particle T) (o0 : M).
Notation arr := (arrives zero disp bes p0 o0).

(* who arrives later has passed every earlier point *)
Lemma arrives_pass : forall t1 j1 t j q o, p_at_turn p0 <= t1 -> (j1 < length bes)%nat ->
  arr t j q o -> before t1 j1 t j ->
  exists q1 o1 be q2 o2, arr t1 j1 q1 o1 /\ nth_error bes j1 = Some be /\
    disp be q1 o1 = Some (q2, o2, 0) /\ p_state q2 = 1.
Proof.
  intros t1 j1 t j q o H1 Hj Ha Hb.
  apply (slot_kept zero disp bes p0 o0 (fun _ => exists q1 o1 be q2 o2, arr t1 j1 q1 o1 /\
    nth_error bes j1 = Some be /\ disp be q1 o1 = Some (q2, o2, 0) /\ p_state q2 = 1)
    t1 j1 H1 Hj) with (t := t) (j := j) (q := q) (o := o); auto.
  intros q1 o1 be q2 o2 A1 A2 A3 A4. exists q1, o1, be, q2, o2. auto.
Qed.
End Pass.

Section Run.
Context {T : Type} (N : NumOps T) (c : config T).

Lemma monitor_run : forall lattice n p outs p' outs' st jm m k l t1 i1 q1 o1,
  p_state p = 1 ->
  until_turn N c lattice n p outs = Ok (p', outs', st) ->
  nth_error lattice jm = Some (BMonitor m) ->
  mon_ready m -> m_turn_ordered m = true ->
  m_out m = Some k -> nth_error outs k = Some l -> mon_slots m <= Z.of_nat (length l) ->
  mon_accepts m (p_particle_id p) ->
  (forall j m', nth_error lattice j = Some (BMonitor m') -> m_out m' = Some k -> j = jm) ->
  arrives (nzero N) (dispatch N c) lattice p outs t1 jm q1 o1 -> t1 < n ->
  sample m t1 i1 -> mon_keeps m i1 ->
  (forall t2 i2 q2 o2, sample m t2 i2 -> mon_keeps m i2 -> i1 < i2 -> t2 < n ->
     arrives (nzero N) (dispatch N c) lattice p outs t2 jm q2 o2 -> ~ same_store m i1 i2) ->
  slot outs' k (monitor_store_index m t1 (p_particle_id p)) = Some q1.
Proof.
  intros lattice n p outs p' outs' st jm m k l t1 i1 q1 o1 Hs H Hm Hr Ho Hk Hl Hsz Hid Hown Ha Ht Hs1 Hk1 Hlater.
  assert (Hne : lattice <> []) by (intro E; rewrite E in Hm; destruct jm; discriminate).
  assert (Hj : (jm < length lattice)%nat) by (apply nth_error_Some; congruence).
  assert (Hn : is_not_lost p = true) by (unfold is_not_lost; rewrite Hs; reflexivity).
  pose proof (arrives_from _ _ _ _ _ _ _ _ _ Ha) as (Hpt & _).
  assert (Hfirst : forall t i, sample m t i -> i1 < i -> t1 < t)
    by (intros t i (_ & E) Hi; destruct Hs1 as (_ & E1), Hr as (_ & ? & _); nia).
  unfold until_turn in H. assert (Hlt : p_at_turn p < n) by lia.
  destruct (track_bookkeeping _ _ _ _ _ (dispatch_keeps_ids N c) _ _ _ _ _ _ _ Hne Hs Hlt H)
    as [(_ & _ & _ & _ & _ & Hend)|(_ & t & j & q' & Htn & Hjl & Hst & _)].
  - eapply (monitor_record N c lattice p outs jm k m l); eauto; [unfold before; lia|].
    intros t2 i2 Hs2 Hk2 Hi Hb.
    assert (t2 < n) by (unfold before in Hb; lia). specialize (Hfirst _ _ Hs2 Hi).
    destruct (arrives_pass (nzero N) (dispatch N c) lattice p outs t2 jm _ _ _ _ ltac:(lia) Hj Hend Hb) as (q2 & o2 & _ & _ & _ & Ha2 & _).
    eapply Hlater; eauto.
  - destruct Hst as (q & o & be & Hq & Hbe & Hd & Hstop).
    assert (Hstopped : forall q2 o2, dispatch N c be q o = Some (q2, o2, 0) -> p_state q2 <> 1).
    { intros q2 o2 E. rewrite Hd in E. assert (q2 = q' /\ st = 0) as (-> & ->) by (split; congruence).
      destruct Hstop as [?|?]; [congruence|auto]. }
    assert (Hact : forall t j q o, arrives (nzero N) (dispatch N c) lattice p outs t j q o -> p_state q = 1).
    { intros. apply Z.eqb_eq. eapply (arrives_ids _ _ _ _ _ (dispatch_keeps_ids N c)); eauto. }
    destruct (arr_set N c lattice p outs k l Hl _ _ _ _ Hq) as (l' & Hl' & Hlen).
    pose proof (arrives_ids _ _ _ _ _ (dispatch_keeps_ids N c) _ _ _ _ _ _ _ Hn Hq) as (Hat & _ & Hpid & _).
    assert (Hb : before t1 jm t j).
    { destruct (Z.eq_dec t1 t) as [->|Et]; [destruct (Nat.eq_dec jm j) as [->|Ej]|].
      - exfalso. rewrite Hm in Hbe. injection Hbe as <-.
        destruct (monitor_stores N c m q o k l' Hk Hl') as (o3 & E3 & _).
        { rewrite Hat, Hpid. pose proof (in_slots m t i1 _ Hr Ho Hs1 Hk1 Hid). lia. }
        apply Hstopped in E3. apply E3. eauto.
      - destruct (Nat.lt_ge_cases jm j); [unfold before; lia|]. exfalso.
        destruct (arrives_pass (nzero N) (dispatch N c) lattice p outs t j _ _ _ _ ltac:(lia) ltac:(lia) Ha ltac:(unfold before; lia))
          as (q2 & o2 & be2 & q3 & o3 & A1 & A2 & A3 & A4).
        destruct (arrives_fun _ _ _ _ _ Hne _ _ _ _ Hq _ _ A1) as (-> & ->).
        rewrite Hbe in A2. injection A2 as <-. eapply Hstopped; eauto.
      - destruct (Z.lt_ge_cases t1 t); [unfold before; lia|]. exfalso.
        destruct (arrives_pass (nzero N) (dispatch N c) lattice p outs t j _ _ _ _ ltac:(lia) ltac:(lia) Ha ltac:(unfold before; lia))
          as (q2 & o2 & be2 & q3 & o3 & A1 & A2 & A3 & A4).
        destruct (arrives_fun _ _ _ _ _ Hne _ _ _ _ Hq _ _ A1) as (-> & ->).
        rewrite Hbe in A2. injection A2 as <-. eapply Hstopped; eauto. }
    assert (Hat0 : slot o k (monitor_store_index m t1 (p_particle_id p)) = Some q1).
    { eapply (monitor_record N c lattice p outs jm k m l); eauto.
      intros t2 i2 Hs2 Hk2 Hi Hb2.
      assert (t2 < n) by (unfold before in Hb2; lia). specialize (Hfirst _ _ Hs2 Hi).
      destruct (arrives_pass (nzero N) (dispatch N c) lattice p outs t2 jm _ _ _ _ ltac:(lia) Hj Hq Hb2) as (q2 & o2 & _ & _ & _ & Ha2 & _).
      eapply Hlater; eauto. }
    rewrite <- Hat0. eapply dispatch_frame; [exact Hd|].
    intros m' -> Hk'. assert (j = jm) as -> by (eapply Hown; eauto).
    rewrite Hm in Hbe. injection Hbe as <-. rewrite Hat, Hpid. intros Ei.
    assert (Hi1 := in_slots m t1 i1 _ Hr Ho Hs1 Hk1 Hid).
    destruct (index_nonneg m t (p_particle_id p) Hr ltac:(lia)) as (i2 & Hs2 & Hk2).
    assert (i1 < i2).
    { destruct Hs1 as (? & E1), Hs2 as (? & E2), Hr as (? & ? & ?).
      assert (t1 < t) by (unfold before in Hb; lia). nia. }
    eapply (Hlater t i2 q o); eauto; [lia|].
    apply (collision m t1 i1 (p_particle_id p) t i2 (p_particle_id p)); auto.
Qed.

(* ---------------- what is not touched ---------------- *)

(* an output set no monitor of the line (and not element-by-element output) owns does not
   change; no set changes its size *)
Definition frame_rel (k : nat) (a b : particle T * outsets T) : Prop :=
  nth_error (snd b) k = nth_error (snd a) k.

Definition not_set (k : nat) (be : element T) : Prop :=
  match be with BMonitor m => m_out m <> Some k | _ => True end.

Lemma store_out_other : forall (o : outsets T) k1 i p o' st k, store_out o k1 i p = Some (o', st) ->
  k1 <> k -> nth_error o' k = nth_error o k.
Proof.
  intros o k1 i p o' st k H Hk. unfold store_out in H.
  destruct (nth_error o k1) as [l|] eqn:E; [|discriminate].
  destruct (i <? _); [|congruence]. destruct (0 <=? i); [|discriminate].
  assert (o' = upd o k1 (upd l (Z.to_nat i) p)) as -> by congruence. apply upd_other. auto.
Qed.

Lemma dispatch_other : forall k be p o p' o' st, not_set k be ->
  dispatch N c be p o = Some (p', o', st) -> frame_rel k (p, o) (p', o').
Proof.
  intros k be p o p' o' st Hns H. unfold frame_rel. cbn [snd].
  destruct (is_monitor be) eqn:Hb.
  - destruct be; try discriminate. cbn [dispatch] in H. unfold track_monitor in H. cbn in Hns.
    destruct (m_out m) as [k1|] eqn:Ho; [|congruence].
    destruct (0 <=? _) eqn:H0; [|congruence].
    destruct (store_out o k1 _ p) as [[o1 s1]|] eqn:Hs; [|discriminate].
    assert (o' = o1) as -> by (destruct (s1 =? 0); congruence).
    eapply store_out_other; eauto; congruence.
  - apply dispatch_inv in H as (_ & _ & _ & Hf & _). rewrite (Hf Hb). reflexivity.
Qed.

Lemma store_other : forall k (p : particle T) o k1 i o' st, k1 <> k ->
  store_out o k1 i p = Some (o', st) -> frame_rel k (p, o) (p, o').
Proof. intros. unfold frame_rel. eapply store_out_other; eauto. Qed.

Lemma frame_refl : forall k a, frame_rel k a a. Proof. reflexivity. Qed.
Lemma frame_trans : forall k a b d, frame_rel k a b -> frame_rel k b d -> frame_rel k a d.
Proof. unfold frame_rel. intros. congruence. Qed.

Lemma frame_until : forall lattice n p o p' o' s k, Forall (not_set k) lattice ->
  until_turn N c lattice n p o = Ok (p', o', s) -> nth_error o' k = nth_error o k.
Proof.
  intros lattice n p o p' o' s k Hk H.
  exact (rel_until_turn _ _ (frame_rel k) (frame_refl k) (frame_trans k) (not_set k) (dispatch_other k)
           (fun _ _ _ => eq_refl) (fun _ _ _ => eq_refl) (fun _ _ => eq_refl) (fun _ _ => eq_refl)
           lattice n p o p' o' s Hk H).
Qed.

Lemma frame_ebe : forall cfg lattice n p o p' o' s k, Forall (not_set k) lattice -> e_out cfg <> Some k ->
  elem_by_elem N c cfg lattice n p o = Ok (p', o', s) -> nth_error o' k = nth_error o k.
Proof.
  intros cfg lattice n p o p' o' s k Hk He H.
  exact (rel_ebe _ _ _ _ (frame_rel k) (frame_refl k) (frame_trans k) (not_set k) (fun k1 => k1 <> k)
           (dispatch_other k) (store_other k)
           (fun _ _ _ => eq_refl) (fun _ _ _ => eq_refl) (fun _ _ => eq_refl) (fun _ _ => eq_refl)
           cfg lattice n p o p' o' s (fun k1 E E1 => He (eq_trans E (f_equal Some E1))) Hk H).
Qed.

Lemma frame_line : forall lattice fin p o p' o' s k, Forall (not_set k) lattice ->
  line N c lattice fin p o = Ok (p', o', s) -> nth_error o' k = nth_error o k.
Proof.
  intros lattice fin p o p' o' s k Hk H.
  exact (rel_line _ _ (frame_rel k) (frame_refl k) (frame_trans k) (not_set k) (dispatch_other k)
           (fun _ _ _ => eq_refl) (fun _ _ _ => eq_refl) (fun _ _ => eq_refl)
           lattice fin p o p' o' s Hk H).
Qed.

(* sizes *)
Definition shape_rel (a b : particle T * outsets T) : Prop := shape (snd b) = shape (snd a).
Lemma shape_refl : forall a, shape_rel a a. Proof. reflexivity. Qed.
Lemma shape_trans : forall a b d, shape_rel a b -> shape_rel b d -> shape_rel a d.
Proof. unfold shape_rel. intros. congruence. Qed.
Lemma shape_disp : forall be p o p' o' st, any_ok be -> dispatch N c be p o = Some (p', o', st) ->
  shape_rel (p, o) (p', o').
Proof. intros be p o p' o' st _ H. apply dispatch_inv in H as (_ & _ & H & _). exact H. Qed.
Lemma shape_store : forall (p : particle T) o k i o' st, any_set k -> store_out o k i p = Some (o', st) ->
  shape_rel (p, o) (p, o').
Proof. intros p o k i o' st _ H. eapply store_out_shape; eauto. Qed.

Lemma shape_until : forall lattice n p o p' o' s,
  until_turn N c lattice n p o = Ok (p', o', s) -> shape o' = shape o.
Proof.
  intros lattice n p o p' o' s H.
  exact (rel_until_turn _ _ shape_rel shape_refl shape_trans any_ok shape_disp
           (fun _ _ _ => eq_refl) (fun _ _ _ => eq_refl) (fun _ _ => eq_refl) (fun _ _ => eq_refl)
           lattice n p o p' o' s (any_line lattice) H).
Qed.

Lemma shape_ebe : forall cfg lattice n p o p' o' s,
  elem_by_elem N c cfg lattice n p o = Ok (p', o', s) -> shape o' = shape o.
Proof.
  intros cfg lattice n p o p' o' s H.
  exact (rel_ebe _ _ _ _ shape_rel shape_refl shape_trans any_ok any_set shape_disp shape_store
           (fun _ _ _ => eq_refl) (fun _ _ _ => eq_refl) (fun _ _ => eq_refl) (fun _ _ => eq_refl)
           cfg lattice n p o p' o' s (fun _ _ => Logic.I) (any_line lattice) H).
Qed.

Lemma shape_line : forall lattice fin p o p' o' s,
  line N c lattice fin p o = Ok (p', o', s) -> shape o' = shape o.
Proof.
  intros lattice fin p o p' o' s H.
  exact (rel_line _ _ shape_rel shape_refl shape_trans any_ok shape_disp
           (fun _ _ _ => eq_refl) (fun _ _ _ => eq_refl) (fun _ _ => eq_refl)
           lattice fin p o p' o' s (any_line lattice) H).
Qed.

End Run.

(* ---------------- undefined behaviour ---------------- *)

Section Undef.
Context {T E M : Type}.
Variable zero : T.
Variable disp : E -> particle T -> M -> option (particle T * M * Z).
Variable out_num : M -> nat -> option Z.
Variable out_store : M -> nat -> Z -> particle T -> option (M * Z).
Variable Inv : M -> Prop.
Hypothesis Idisp : forall be p o p' o' st, Inv o -> disp be p o = Some (p', o', st) -> Inv o'.

Definition culprit (bes : list E) : Prop :=
  exists be q o, In be bes /\ Inv o /\ disp be q o = None.

Lemma culprit_cons : forall be bes, culprit bes -> culprit (be :: bes).
Proof. intros be bes (b & q & o & Hi & H). exists b, q, o. split; [right; auto|auto]. Qed.

Lemma undef_pass : forall bes p o s, Inv o ->
  (turn_pass disp bes p o s = Undef -> culprit bes) /\
  (forall p' o' s' b, turn_pass disp bes p o s = Ok (p', o', s', b) -> Inv o').
Proof.
  induction bes as [|be bes IH]; intros p o s Ho; cbn [turn_pass].
  - split; [discriminate|]. intros; congruence.
  - unfold call_disp. destruct (disp be p o) as [[[p1 o1] s1]|] eqn:Hd; cbn [bind].
    + specialize (Idisp _ _ _ _ _ _ Ho Hd).
      destruct (_ && _).
      * destruct (IH (incr_at_element p1) o1 s1 Idisp) as (A & B). split; auto.
        intros E0. apply culprit_cons; auto.
      * split; [discriminate|]. intros; congruence.
    + split; [|discriminate]. intros _. exists be, p, o. split; [left; auto|auto].
Qed.

Lemma undef_loop : forall fuel bes start n p o s, Inv o ->
  until_turn_loop zero disp fuel bes start n p o s = Undef -> culprit bes.
Proof.
  induction fuel as [|f IH]; intros bes start n p o s Ho H; cbn [until_turn_loop] in H; [discriminate|].
  destruct (undef_pass bes p o s Ho) as (A & B).
  destruct (turn_pass disp bes p o s) as [[[[p1 o1] s1] b]| |]; cbn [bind] in H; auto; [|discriminate].
  destruct b; [|discriminate]. cbv zeta in H. destruct (_ <? _); [|discriminate].
  eapply IH; [|exact H]. eapply B; eauto.
Qed.

Lemma undef_until : forall bes n p o, Inv o -> track_until_turn zero disp bes n p o = Undef -> culprit bes.
Proof.
  intros bes n p o Ho H. unfold track_until_turn in H.
  destruct (_ && _); [|discriminate]. eapply undef_loop; eauto.
Qed.

Lemma undef_line : forall bes fin p o, Inv o -> track_line zero disp bes fin p o = Undef -> culprit bes.
Proof.
  intros bes fin p o Ho H. unfold track_line in H.
  destruct (is_not_lost p); [|cbn [bind] in H; destruct (_ && _); discriminate].
  rewrite line_pass_turn_pass in H. destruct (undef_pass bes p o 0 Ho) as (A & B).
  destruct (turn_pass disp bes p o 0) as [[[[p1 o1] s1] b]| |]; cbn [bind] in H; auto; [|discriminate].
  destruct (_ && _); discriminate.
Qed.

Variable k : nat.
Variable nn : Z.
Hypothesis Istore : forall p o i, Inv o -> 0 <= i < nn -> exists o' st, out_store o k i p = Some (o', st) /\ Inv o'.

Lemma undef_ebe_pass : forall c pid se n bes ae t p o s, Inv o ->
  (ebe_pass zero disp out_store c k nn pid se n bes ae t p o s = Undef -> culprit bes) /\
  (forall p' o' s' b t', ebe_pass zero disp out_store c k nn pid se n bes ae t p o s = Ok (p', o', s', b, t') ->
    Inv o').
Proof.
  intros c pid se n. induction bes as [|be bes IH]; intros ae t p o s Ho; cbn [ebe_pass].
  - split; [discriminate|]. intros; congruence.
  - assert (exists o1 b1, Inv o1 /\
      (if (0 <=? ebe_store_index c pid ae t) && (ebe_store_index c pid ae t <? nn)
       then match out_store o k (ebe_store_index c pid ae t) p with
            | Some (o0, st) => Ok (o0, st =? 0) | None => Undef end
       else Ok (o, true)) = Ok (o1, b1)) as (o1 & b1 & Ho1 & E1).
    { destruct (_ && _) eqn:Eb; [|eauto]. apply andb_prop in Eb as (E1 & E2).
      apply Z.leb_le in E1. apply Z.ltb_lt in E2.
      destruct (Istore p o _ Ho (conj E1 E2)) as (o1 & st & -> & Ho1). eauto. }
    cbv zeta. rewrite E1. cbn [bind]. destruct b1; [|split; [discriminate|intros; congruence]].
    unfold call_disp. destruct (disp be p o1) as [[[p2 o2] s2]|] eqn:Hd; cbn [bind].
    + pose proof (Idisp _ _ _ _ _ _ Ho1 Hd) as Ho2.
      destruct ((s2 =? 0) && is_not_lost p2); [|split; [discriminate|intros; congruence]].
      destruct bes as [|be' bes']; [split; [discriminate|intros; congruence]|].
      destruct (IH (ae + 1) t (incr_at_element p2) o2 s2 Ho2) as (A & B). split; auto.
      intros E0. apply culprit_cons; auto.
    + split; [|discriminate]. intros _. exists be, p, o1. split; [left; auto|auto].
Qed.

Lemma undef_ebe_loop : forall fuel c pid se n bes t p o s, Inv o ->
  ebe_loop zero disp out_store fuel c k nn pid se n bes t p o s = Undef -> culprit bes.
Proof.
  induction fuel as [|f IH]; intros c pid se n bes t p o s Ho H; cbn [ebe_loop] in H; [discriminate|].
  destruct (undef_ebe_pass c pid se n bes se t p o s Ho) as (A & B).
  destruct (ebe_pass _ _ _ _ _ _ _ _ _ _ _ _ _ _ _) as [[[[[p1 o1] s1] b] t1]| |]; cbn [bind] in H; auto; [|discriminate].
  destruct b; [|discriminate]. eapply IH; [|exact H]. eapply B; eauto.
Qed.
End Undef.

Section UndefRun.
Context {T : Type} (N : NumOps T) (c : config T).

(* every output set a monitor of the line refers to exists *)
Definition sets_exist (lattice : list (element T)) (outs : outsets T) : Prop :=
  forall m k, In (BMonitor m) lattice -> m_out m = Some k -> nth_error outs k <> None.

Lemma shape_exists : forall (o o' : outsets T) k, shape o' = shape o ->
  nth_error o k <> None -> nth_error o' k <> None.
Proof.
  intros o o' k H Hk. rewrite nth_error_Some in *.
  assert (length (shape o') = length (shape o)) by congruence.
  unfold shape in *. rewrite !map_length in *. lia.
Qed.

Lemma monitor_defined : forall m p o, (forall k, m_out m = Some k -> nth_error o k <> None) ->
  dispatch N c (BMonitor m) p o <> None.
Proof.
  intros m p o H. cbn [dispatch]. unfold track_monitor.
  destruct (m_out m) as [k|] eqn:Ho; [|discriminate].
  destruct (0 <=? _) eqn:E; [|discriminate]. unfold store_out.
  destruct (nth_error o k) as [l|] eqn:Hk; [|exfalso; eapply H; eauto].
  rewrite E. destruct (_ <? _); cbn; discriminate.
Qed.

Lemma culprit_not_monitor : forall lattice outs, sets_exist lattice outs ->
  culprit (dispatch N c) (fun o => shape o = shape outs) lattice ->
  exists be q o, In be lattice /\ is_monitor be = false /\ dispatch N c be q o = None.
Proof.
  intros lattice outs Hs (be & q & o & Hi & Ho & Hd). exists be, q, o. split; auto. split; auto.
  destruct be; auto. exfalso. apply (monitor_defined m q o); auto.
  intros k Hk. eapply shape_exists; eauto.
Qed.

Lemma Idisp_shape : forall (outs : outsets T) be p (o : outsets T) p' o' st, shape o = shape outs ->
  dispatch N c be p o = Some (p', o', st) -> shape o' = shape outs.
Proof. intros outs be p o p' o' st Ho H. apply dispatch_inv in H as (_ & _ & H & _). congruence. Qed.

Lemma until_undef : forall lattice n p outs, sets_exist lattice outs ->
  until_turn N c lattice n p outs = Undef ->
  exists be q o, In be lattice /\ is_monitor be = false /\ dispatch N c be q o = None.
Proof.
  intros lattice n p outs Hs H. eapply culprit_not_monitor; eauto.
  refine (undef_until _ _ (fun o : outsets T => shape o = shape outs) (Idisp_shape outs) _ _ _ _ eq_refl H).
Qed.

Lemma line_undef : forall lattice fin p outs, sets_exist lattice outs ->
  line N c lattice fin p outs = Undef ->
  exists be q o, In be lattice /\ is_monitor be = false /\ dispatch N c be q o = None.
Proof.
  intros lattice n p outs Hs H. eapply culprit_not_monitor; eauto.
  refine (undef_line _ _ (fun o : outsets T => shape o = shape outs) (Idisp_shape outs) _ _ _ _ eq_refl H).
Qed.

Lemma ebe_undef : forall cfg lattice n p outs, sets_exist lattice outs ->
  (forall k, e_out cfg = Some k -> nth_error outs k <> None) ->
  elem_by_elem N c cfg lattice n p outs = Undef ->
  exists be q o, In be lattice /\ is_monitor be = false /\ dispatch N c be q o = None.
Proof.
  intros cfg lattice n p outs Hs He H. unfold elem_by_elem, track_ebe in H.
  destruct (e_out cfg) as [k|] eqn:Ek; [|eapply (until_undef lattice n p outs); eauto].
  specialize (He k eq_refl). unfold outs_num in H.
  destruct (nth_error outs k) as [l|] eqn:Hk; [|congruence].
  destruct (_ && _); [|discriminate].
  eapply culprit_not_monitor; eauto.
  refine (undef_ebe_loop _ _ _ (fun o : outsets T => shape o = shape outs) (Idisp_shape outs) k
            (Z.of_nat (length l)) _ _ _ _ _ _ _ _ _ _ _ eq_refl H).
  intros q o i Ho Hi. pose proof (shape_nth _ _ k Ho) as Hn. rewrite Hk in Hn.
  destruct (nth_error o k) as [l'|] eqn:Hk'; [|contradiction].
  assert (length l' = length l) as Hlen by (destruct Hn; congruence).
  destruct (store_out_ok o k i q l' Hk' ltac:(lia)) as (o' & E & _).
  exists o', 0. split; auto. rewrite (store_out_shape _ _ _ _ _ _ E). exact Ho.
Qed.
End UndefRun.
