(* Proofs about the tracking loops of Track.v (arbitrary number type, arbitrary
   element maps). *)
From Coq Require Import ZArith List Bool Lia.
From Verif Require Import Num Particle Elements EbeConfig Track TrackSpec.
Import ListNotations.


Section Proofs.
Variables (T E M : Type).
Variable zero : T.
Variable disp : E -> particle T -> M -> option (particle T * M * Z).
Hypothesis Hids : keeps_ids disp.

Notation turn_pass := (turn_pass disp).
Notation until_turn_loop := (until_turn_loop zero disp).
Notation track_until_turn := (track_until_turn zero disp).
Notation track_line := (track_line zero disp).
Notation line_pass := (line_pass disp).

(* reference: k whole turns *)
Fixpoint run_turns (bes : list E) (start : Z) (k : nat) (p : particle T) (o : M)
  : res (particle T * M * Z) :=
  match k with
  | O => Ok (p, o, 0%Z)
  | S k => bind (turn_pass bes p o 0%Z) (fun r => let '(p, o, s, cont) := r in
             if cont then run_turns bes start k (end_of_turn zero start p) o
             else Ok (mark_as_lost p, o, s))
  end.

Lemma turn_pass_nofuel : forall bes p o s, turn_pass bes p o s <> NoFuel.
Proof.
  induction bes as [|be bes IH]; intros p o s; cbn; [discriminate|].
  unfold call_disp. destruct (disp be p o) as [[[p' o'] st]|]; cbn; [|discriminate].
  destruct ((st =? 0)%Z && is_not_lost p'); [apply IH|discriminate].
Qed.

Lemma turn_pass_cont : forall bes p o s p' o' s',
  turn_pass bes p o s = Ok (p', o', s', true) ->
  p_at_turn p' = p_at_turn p /\ p_particle_id p' = p_particle_id p /\
  p_at_element_id p' = (p_at_element_id p + Z.of_nat (length bes))%Z /\
  (bes = [] /\ p' = p /\ s' = s \/ bes <> [] /\ s' = 0%Z /\ is_not_lost p' = true).
Proof.
  induction bes as [|be bes IH]; intros p o s p' o' s' H; cbn in H.
  - inversion H; subst. rewrite Z.add_0_r. intuition.
  - unfold call_disp in H. destruct (disp be p o) as [[[p1 o1] st]|] eqn:Hd; cbn in H; [|discriminate].
    destruct ((st =? 0)%Z && is_not_lost p1) eqn:Hc; [|discriminate].
    apply andb_true_iff in Hc as [Hst Hnl]. apply Z.eqb_eq in Hst; subst st.
    apply IH in H as (Ht & Hp & He & Hr).
    destruct (Hids _ _ _ _ _ _ Hd) as (Hi & He1 & Ht1).
    unfold incr_at_element in *; cbn in *.
    rewrite Ht, Hp, He. repeat split; try congruence; try lia.
    right. split; [discriminate|].
    destruct Hr as [(-> & -> & ->)|(_ & -> & Hn)]; auto.
Qed.

Lemma turn_pass_stop_state : forall bes p o s p' o' s',
  turn_pass bes p o s = Ok (p', o', s', false) ->
  (s' <> 0%Z \/ is_not_lost p' = false).
Proof.
  induction bes as [|be bes IH]; intros p o s p' o' s' H; cbn in H; [discriminate|].
  unfold call_disp in H. destruct (disp be p o) as [[[p1 o1] st]|] eqn:Hd; cbn in H; [|discriminate].
  destruct ((st =? 0)%Z && is_not_lost p1) eqn:Hc; [eauto|].
  inversion H; subst. apply andb_false_iff in Hc as [Hc|Hc]; [left|right]; auto.
  intro; subst; discriminate.
Qed.

Lemma loop_run : forall fuel bes start n p o,
  bes <> [] -> fuel = Z.to_nat (n - p_at_turn p) -> (p_at_turn p < n)%Z ->
  until_turn_loop fuel bes start n p o 0%Z = run_turns bes start fuel p o.
Proof.
  induction fuel as [|fuel IH]; intros bes start n p o Hb Hf Hlt; [lia|].
  cbn [Track.until_turn_loop run_turns].
  destruct (turn_pass bes p o 0) as [[[[p1 o1] s1] c1]| |] eqn:Htp; cbn; auto.
  destruct c1; auto.
  apply turn_pass_cont in Htp as (Ht & _ & _ & [(?&_)|(_ & -> & _)]); [contradiction|].
  assert (Hat : p_at_turn (end_of_turn zero start p1) = (p_at_turn p + 1)%Z)
    by (unfold end_of_turn, incr_at_turn; cbn; lia).
  cbn in Hat. destruct (p_at_turn p1 + 1 <? n)%Z eqn:Hc.
  - apply Z.ltb_lt in Hc. apply IH; auto; cbn; lia.
  - apply Z.ltb_ge in Hc. assert (fuel = 0) as -> by lia. reflexivity.
Qed.

Lemma track_run : forall bes n p o, bes <> [] ->
  track_until_turn bes n p o =
  if is_not_lost p then run_turns bes (p_at_element_id p) (Z.to_nat (n - p_at_turn p)) p o
  else Ok (p, o, 0%Z).
Proof.
  intros bes n p o Hb. unfold Track.track_until_turn.
  destruct bes as [|be bes]; [contradiction|]. cbn [Z.eqb andb].
  destruct (is_not_lost p) eqn:Hn; [|now rewrite andb_false_r].
  rewrite andb_true_r.
  destruct (p_at_turn p <? n)%Z eqn:Hlt.
  - apply Z.ltb_lt in Hlt. now apply loop_run.
  - apply Z.ltb_ge in Hlt. replace (Z.to_nat (n - p_at_turn p)) with 0 by lia. reflexivity.
Qed.

Lemma track_nofuel : forall bes n p o, track_until_turn bes n p o <> NoFuel.
Proof.
  intros bes n p o. destruct bes as [|be bes]; [discriminate|].
  rewrite track_run by discriminate.
  destruct (is_not_lost p); [|discriminate].
  generalize (Z.to_nat (n - p_at_turn p)) as k. generalize (p_at_element_id p) as start.
  intros start k; revert p o. induction k as [|k IH]; intros p o; cbn [run_turns]; [discriminate|].
  pose proof (turn_pass_nofuel (be :: bes) p o 0) as Hnf.
  destruct (turn_pass (be :: bes) p o 0) as [[[[p1 o1] s1] c1]| |]; [| |congruence]; cbn [bind].
  - destruct c1; [apply IH|discriminate].
  - discriminate.
Qed.

Lemma end_of_turn_nl : forall start p, is_not_lost (end_of_turn zero start p) = is_not_lost p.
Proof. reflexivity. Qed.

Lemma run_turns_status : forall bes start k p o p' o' s, bes <> [] ->
  is_not_lost p = true ->
  run_turns bes start k p o = Ok (p', o', s) ->
  (s = 0%Z /\ is_not_lost p' = true /\ p_at_turn p' = (p_at_turn p + Z.of_nat k)%Z /\
   p_particle_id p' = p_particle_id p /\
   (k <> 0 -> p_at_element_id p' = start /\ p_s p' = zero) /\ (k = 0 -> p' = p /\ o' = o))
  \/ p_state p' = 0%Z.
Proof.
  intros bes start k; induction k as [|k IH]; intros p o p' o' s Hb Hn H; cbn [run_turns] in H.
  - inversion H; subst. left. rewrite Z.add_0_r. intuition.
  - destruct (turn_pass bes p o 0) as [[[[p1 o1] s1] c1]| |] eqn:Htp; cbn in H; try discriminate.
    destruct c1.
    + apply turn_pass_cont in Htp as (Ht & Hi & _ & [(?&_)|(_ & -> & Hn1)]); [contradiction|].
      apply IH in H; auto.
      destruct H as [(-> & Hnl & Hat & Hid & Hk & H0)|H]; [left|right; auto].
      cbn in Hat, Hid. repeat split; auto; try lia.
      * destruct k; [destruct (H0 eq_refl) as [-> _]; cbn; auto|apply Hk; auto].
      * destruct k; [destruct (H0 eq_refl) as [-> _]; cbn; auto|apply Hk; auto].
    + inversion H; subst. right. reflexivity.
Qed.

Lemma run_turns_app : forall bes start a b p o, bes <> [] -> is_not_lost p = true ->
  run_turns bes start (a + b) p o =
  bind (run_turns bes start a p o) (fun r => let '(p1, o1, s1) := r in
    if is_not_lost p1 then run_turns bes start b p1 o1 else Ok (p1, o1, s1)).
Proof.
  intros bes start a; induction a as [|a IH]; intros b p o Hb Hn; cbn [run_turns plus].
  - cbn. now rewrite Hn.
  - destruct (turn_pass bes p o 0) as [[[[p1 o1] s1] c1]| |] eqn:Htp; cbn [bind]; auto.
    destruct c1.
    + apply turn_pass_cont in Htp as (_ & _ & _ & [(?&_)|(_ & _ & Hn1)]); [contradiction|].
      apply IH; auto.
    + cbn. reflexivity.
Qed.

(* C18 *)
Lemma staged_tracking : forall bes n m p o, (n <= m)%Z ->
  bind (track_until_turn bes n p o) (fun r => let '(p1, o1, s1) := r in
    bind (track_until_turn bes m p1 o1) (fun r => let '(p2, o2, s2) := r in
      Ok (p2, o2, Z.lor s1 s2)))
  = track_until_turn bes m p o.
Proof.
  intros bes n m p o Hnm. destruct bes as [|be bes]; [reflexivity|].
  set (l := be :: bes). assert (Hb : l <> []) by discriminate. clearbody l.
  rewrite !track_run by auto.
  destruct (is_not_lost p) eqn:Hn.
  2:{ cbn [bind]. rewrite track_run by auto. now rewrite Hn. }
  set (a := Z.to_nat (n - p_at_turn p)).
  replace (Z.to_nat (m - p_at_turn p)) with (a + (Z.to_nat (m - p_at_turn p) - a)) by lia.
  rewrite run_turns_app by auto.
  destruct (run_turns l (p_at_element_id p) a p o) as [[[p1 o1] s1]| |] eqn:Hr; cbn [bind]; auto.
  rewrite track_run by auto.
  pose proof (run_turns_status _ _ _ _ _ _ _ _ Hb Hn Hr) as Hs.
  destruct (is_not_lost p1) eqn:Hn1.
  2:{ cbn. now rewrite Z.lor_0_r. }
  destruct Hs as [(-> & _ & Hat & _ & Hk & H0)|Hs].
  2:{ unfold is_not_lost in Hn1. rewrite Hs in Hn1. discriminate. }
  assert (p_at_element_id p1 = p_at_element_id p) as ->.
  { destruct (Nat.eq_dec a 0) as [E0|E0]; [destruct (H0 E0) as [-> _]|destruct (Hk E0)]; auto. }
  replace (Z.to_nat (m - p_at_turn p1)) with (Z.to_nat (m - p_at_turn p) - a)
    by (subst a; lia).
  destruct (run_turns l _ _ p1 o1) as [[[p2 o2] s2]| |]; reflexivity.
Qed.

(* --- arrival semantics (C20) --- *)
Section Arr.
Variables (bes : list E) (p0 : particle T) (o0 : M).
Notation arr := (arrives zero disp bes p0 o0).

Lemma arrives_ids : forall t j q o, is_not_lost p0 = true -> arr t j q o ->
  p_at_turn q = t /\ p_at_element_id q = (p_at_element_id p0 + Z.of_nat j)%Z /\
  p_particle_id q = p_particle_id p0 /\ is_not_lost q = true /\ (p_at_turn p0 <= t)%Z /\
  j <= length bes.
Proof.
  intros t j q o Hn H. induction H as [|t j q o be q' o' H IH Hb Hd Hs|t q o H IH].
  - rewrite Z.add_0_r. repeat split; auto; lia.
  - destruct IH as (Ht & He & Hi & _ & Hle & Hj). destruct (Hids _ _ _ _ _ _ Hd) as (Hi' & He' & Ht').
    cbn. repeat split; try congruence; try lia.
    + unfold is_not_lost; cbn. now rewrite Hs.
    + assert (nth_error bes j <> None) by congruence. apply nth_error_Some in H0. lia.
  - destruct IH as (Ht & He & Hi & Hnl & Hle & Hj). cbn.
    repeat split; try congruence; try lia. exact Hnl.
Qed.

Lemma skipn_S_cons : forall (l : list E) j be rest,
  skipn j l = be :: rest -> nth_error l j = Some be /\ skipn (S j) l = rest.
Proof.
  induction l as [|x l IH]; intros j be rest H.
  - destruct j; discriminate.
  - destruct j; cbn in H |- *.
    + inversion H; subst. auto.
    + apply IH in H. exact H.
Qed.

Lemma turn_pass_arrives : forall rest t j q o p' o' s c,
  arr t j q o -> skipn j bes = rest -> j <= length bes ->
  turn_pass rest q o 0%Z = Ok (p', o', s, c) ->
  (c = true /\ arr t (length bes) p' o' /\ s = 0%Z) \/
  (c = false /\ exists j', stops zero disp bes p0 o0 t j' p' o' s).
Proof.
  induction rest as [|be rest IH]; intros t j q o p' o' s c Ha Hs Hj H; cbn in H.
  - inversion H; subst. left. split; auto. split; auto.
    assert (j = length bes) as <-; auto.
    assert (length (skipn j bes) = 0) by (rewrite Hs; auto). rewrite skipn_length in H0. lia.
  - unfold call_disp in H. destruct (disp be q o) as [[[p1 o1] st]|] eqn:Hd; cbn in H; [|discriminate].
    apply skipn_S_cons in Hs as [Hnth Hrest].
    destruct ((st =? 0)%Z && is_not_lost p1) eqn:Hc.
    + apply andb_true_iff in Hc as [Hst Hnl]. apply Z.eqb_eq in Hst; subst st.
      apply Z.eqb_eq in Hnl.
      apply IH with (t := t) (j := S j) in H; auto.
      * unfold incr_at_element. eapply arrives_next; eauto.
      * assert (nth_error bes j <> None) by congruence. apply nth_error_Some in H0. lia.
    + inversion H; subst. right. split; auto. exists j, q, o, be. repeat split; auto.
      apply andb_false_iff in Hc as [Hc|Hc]; [left|right]; intro Hx.
      * subst; discriminate.
      * unfold is_not_lost in Hc. rewrite Hx in Hc. discriminate.
Qed.

Lemma run_turns_arrives : forall k t q o p' o' s, bes <> [] ->
  arr t 0 q o ->
  run_turns bes (p_at_element_id p0) k q o = Ok (p', o', s) ->
  (arr (t + Z.of_nat k) 0 p' o' /\ s = 0%Z) \/
  (exists t' j q', (t <= t' < t + Z.of_nat k)%Z /\
     stops zero disp bes p0 o0 t' j q' o' s /\ p' = mark_as_lost q').
Proof.
  induction k as [|k IH]; intros t q o p' o' s Hb Ha H; cbn [run_turns] in H.
  - inversion H; subst. left. rewrite Z.add_0_r. auto.
  - destruct (turn_pass bes q o 0) as [[[[p1 o1] s1] c1]| |] eqn:Htp; cbn [bind] in H; try discriminate.
    eapply turn_pass_arrives in Htp; eauto; [|lia].
    destruct Htp as [(-> & Ha1 & ->)|(-> & j' & Hst)].
    + apply IH with (t := (t + 1)%Z) in H; auto.
      * destruct H as [[H ->]|(t' & j & q' & Ht & Hs & ->)]; [left|right].
        -- split; auto. replace (t + Z.of_nat (S k))%Z with (t + 1 + Z.of_nat k)%Z by lia. auto.
        -- exists t', j, q'. repeat split; auto; lia.
      * exact (arrives_turn Ha1).
    + inversion H; subst. right. exists t, j', p1. repeat split; auto; lia.
Qed.

End Arr.

(* C20, active particle: either all turns are completed, or the particle stopped
   in front of an element and carries exactly that turn and element. *)
Lemma track_bookkeeping : forall bes n p o p' o' st,
  bes <> [] -> p_state p = 1%Z -> (p_at_turn p < n)%Z ->
  track_until_turn bes n p o = Ok (p', o', st) ->
  (p_state p' = 1%Z /\ st = 0%Z /\ p_at_turn p' = n /\
   p_at_element_id p' = p_at_element_id p /\ p_s p' = zero /\
   arrives zero disp bes p o n 0 p' o')
  \/
  (p_state p' = 0%Z /\
   exists t j q', (p_at_turn p <= t < n)%Z /\ j < length bes /\
     stops zero disp bes p o t j q' o' st /\ p' = set_state 0 q' /\
     p_at_turn p' = t /\ p_at_element_id p' = (p_at_element_id p + Z.of_nat j)%Z).
Proof.
  intros bes n p o p' o' st Hb Hs Hlt H.
  assert (Hn : is_not_lost p = true) by (unfold is_not_lost; rewrite Hs; reflexivity).
  rewrite track_run, Hn in H by auto.
  pose proof (run_turns_arrives bes p o _ _ _ _ _ _ _ Hb (arrives_start zero disp bes p o) H) as Ha.
  destruct Ha as [[Ha ->]|(t' & j & q' & Ht & Hst & ->)].
  - left. pose proof (run_turns_status _ _ _ _ _ _ _ _ Hb Hn H) as Hx.
    replace (p_at_turn p + Z.of_nat (Z.to_nat (n - p_at_turn p)))%Z with n in * by lia.
    destruct (arrives_ids bes p o _ _ _ _ Hn Ha) as (H1 & H2 & H3 & H4 & H5).
    rewrite Z.add_0_r in H2.
    destruct Hx as [(_ & _ & _ & _ & Hk & _)|Hx].
    + destruct Hk as [_ Hk]; [lia|].
      apply Z.eqb_eq in H4. repeat split; auto.
    + unfold is_not_lost in H4. rewrite Hx in H4. discriminate.
  - right. split; [reflexivity|]. exists t', j, q'.
    pose proof Hst as (q & oq & be & Ha & Hnth & Hd & _).
    destruct (arrives_ids bes p o _ _ _ _ Hn Ha) as (H1 & H2 & H3 & H4 & H5).
    destruct (Hids _ _ _ _ _ _ Hd) as (Hi & He & Hat). cbn.
    assert (nth_error bes j <> None) as Hj by congruence. apply nth_error_Some in Hj.
    repeat split; auto; lia.
Qed.

(* C19 / C20: a lost particle, or one already at or beyond the target turn *)
Lemma track_lost_frozen : forall bes n p o,
  p_state p <> 1%Z -> exists st, track_until_turn bes n p o = Ok (p, o, st).
Proof.
  intros bes n p o Hs. unfold Track.track_until_turn.
  assert (is_not_lost p = false) as -> by (unfold is_not_lost; now apply Z.eqb_neq).
  rewrite andb_false_r. eauto.
Qed.

Lemma track_past_frozen : forall bes n p o,
  (n <= p_at_turn p)%Z -> exists st, track_until_turn bes n p o = Ok (p, o, st).
Proof.
  intros bes n p o Hs. unfold Track.track_until_turn.
  assert ((p_at_turn p <? n)%Z = false) as -> by (apply Z.ltb_ge; lia).
  rewrite andb_false_r. cbn. eauto.
Qed.

Lemma line_lost_frozen : forall bes fin p o,
  p_state p <> 1%Z -> track_line bes fin p o = Ok (p, o, 0%Z).
Proof.
  intros bes fin p o Hs. unfold Track.track_line.
  assert (is_not_lost p = false) as -> by (unfold is_not_lost; now apply Z.eqb_neq).
  cbn [bind].
  assert (is_not_lost p = false) as -> by (unfold is_not_lost; now apply Z.eqb_neq).
  now rewrite andb_false_r.
Qed.

Lemma beam_element_lost_frozen : forall be p o,
  p_state p <> 1%Z -> track_beam_element_obj disp be p o = Ok (p, o, 0%Z).
Proof.
  intros be p o Hs. unfold track_beam_element_obj.
  assert (is_not_lost p = false) as -> by (unfold is_not_lost; now apply Z.eqb_neq).
  reflexivity.
Qed.

(* --- C35: line tracking --- *)
Lemma line_pass_app : forall a b p o s,
  line_pass (a ++ b) p o s =
  bind (line_pass a p o s) (fun r => let '(p1, o1, s1) := r in
    match a with
    | [] => line_pass b p1 o1 s1
    | _ => if (s1 =? 0)%Z && is_not_lost p1 then line_pass b p1 o1 s1 else Ok (p1, o1, s1)
    end).
Proof.
  induction a as [|be a IH]; intros b p o s; cbn [app Track.line_pass]; [reflexivity|].
  unfold call_disp. destruct (disp be p o) as [[[p1 o1] st]|]; cbn [bind]; auto.
  destruct ((st =? 0)%Z && is_not_lost p1) eqn:Hc.
  - rewrite IH. destruct a as [|x a].
    + cbn [Track.line_pass bind].
      unfold incr_at_element, is_not_lost in *; cbn in *. now rewrite Hc.
    + reflexivity.
  - cbn [bind]. now rewrite Hc.
Qed.

Lemma line_pass_s0 : forall a p o s1 s2, a <> [] -> line_pass a p o s1 = line_pass a p o s2.
Proof. intros [|x a] p o s1 s2 H; [contradiction|reflexivity]. Qed.

Lemma lor_status : forall a b, a <> 0%Z \/ a = 0%Z -> Z.lor a 0 = a /\ Z.lor 0 b = b.
Proof. intros. rewrite Z.lor_0_r. auto. Qed.

(* every failing element marks the particle as lost (true of all element types
   but the data holder of the tri-cubic map) *)
Lemma line_split : forall a b fin p o,
  (forall be q oq q' o' st, In be a -> disp be q oq = Some (q', o', st) ->
     st <> 0%Z -> p_state q' <> 1%Z) ->
  bind (track_line a false p o) (fun r => let '(p1, o1, s1) := r in
    bind (track_line b fin p1 o1) (fun r => let '(p2, o2, s2) := r in
      Ok (p2, o2, Z.lor s1 s2)))
  = track_line (a ++ b) fin p o.
Proof.
  intros a b fin p o Hfail. unfold Track.track_line at 1 3.
  destruct (is_not_lost p) eqn:Hn.
  2:{ cbn [bind andb]. rewrite line_lost_frozen.
      - cbn. rewrite Hn, andb_false_r. reflexivity.
      - unfold is_not_lost in Hn. now apply Z.eqb_neq in Hn. }
  rewrite line_pass_app.
  destruct (line_pass a p o 0) as [[[p1 o1] s1]| |] eqn:Ha; cbn [bind andb]; auto.
  destruct a as [|x a].
  - cbn in Ha. inversion Ha; subst. unfold Track.track_line. rewrite Hn.
    destruct (line_pass b p1 o1 0) as [[[p2 o2] s2]| |]; cbn; auto.
    destruct (fin && (s2 =? 0)%Z && is_not_lost p2); reflexivity.
  - destruct ((s1 =? 0)%Z && is_not_lost p1) eqn:Hc.
    + apply andb_true_iff in Hc as [Hst Hnl]. apply Z.eqb_eq in Hst; subst s1.
      unfold Track.track_line. rewrite Hnl.
      destruct (line_pass b p1 o1 0) as [[[p2 o2] s2]| |]; cbn [bind]; auto.
      destruct (fin && (s2 =? 0)%Z && is_not_lost p2); reflexivity.
    + (* stopped in the first part *)
      assert (Hl : is_not_lost p1 = false).
      { apply andb_false_iff in Hc as [Hc|Hc]; auto.
        assert (Hg : forall l q oq, (forall be, In be l -> In be (x :: a)) -> is_not_lost q = true ->
                  forall s0, line_pass l q oq s0 = Ok (p1, o1, s1) -> (l = [] -> s0 = 0%Z) ->
                  s1 <> 0%Z -> p_state p1 <> 1%Z).
        { induction l as [|y l IH]; intros q oq Hin Hq s0 Hl Hs0 Hs1; cbn in Hl.
          - inversion Hl; subst. rewrite Hs0 in Hs1; auto.
          - unfold call_disp in Hl. destruct (disp y q oq) as [[[q1 oq1] st]|] eqn:Hd; cbn in Hl; [|discriminate].
            destruct ((st =? 0)%Z && is_not_lost q1) eqn:Hc1.
            + apply andb_true_iff in Hc1 as [Hst Hnl]. apply Z.eqb_eq in Hst; subst st.
              apply (IH (incr_at_element q1) oq1) with (s0 := 0%Z); auto.
              intros be Hbe. apply Hin. now right.
            + inversion Hl; subst. eapply Hfail; eauto. apply Hin. now left. }
        unfold is_not_lost. apply Z.eqb_neq. eapply Hg; eauto.
        intro Hx. rewrite Hx in Hc. discriminate. }
      rewrite line_lost_frozen.
      * cbn [bind]. rewrite Z.lor_0_r, Hl, andb_false_r. reflexivity.
      * unfold is_not_lost in Hl. now apply Z.eqb_neq in Hl.
Qed.

(* line tracking with finish_turn = one turn *)
Lemma line_pass_turn_pass : forall bes p o s,
  line_pass bes p o s =
  bind (turn_pass bes p o s) (fun r => let '(p1, o1, s1, _) := r in Ok (p1, o1, s1)).
Proof.
  induction bes as [|be bes IH]; intros p o s; cbn [Track.line_pass Track.turn_pass bind]; auto.
  unfold call_disp. destruct (disp be p o) as [[[p1 o1] st]|]; cbn [bind]; auto.
  destruct ((st =? 0)%Z && is_not_lost p1); auto.
Qed.

Lemma line_is_one_turn : forall bes p o, bes <> [] ->
  (forall be q oq q' o' st, In be bes -> p_state q = 1%Z -> disp be q oq = Some (q', o', st) ->
     (st <> 0%Z \/ p_state q' <> 1%Z) -> p_state q' = 0%Z) ->
  p_at_element_id p = 0%Z -> p_state p = 1%Z ->
  track_line bes true p o = track_until_turn bes (p_at_turn p + 1) p o.
Proof.
  intros bes p o Hb Hfail He Hs.
  assert (Hn : is_not_lost p = true) by (unfold is_not_lost; rewrite Hs; reflexivity).
  rewrite track_run, Hn by auto.
  replace (Z.to_nat (p_at_turn p + 1 - p_at_turn p)) with 1 by lia.
  unfold Track.track_line. rewrite Hn, line_pass_turn_pass. cbn [run_turns].
  destruct (turn_pass bes p o 0) as [[[[p1 o1] s1] c1]| |] eqn:Htp; cbn [bind]; auto.
  destruct c1.
  - apply turn_pass_cont in Htp as (_ & _ & _ & [(?&_)|(_ & -> & Hn1)]); [contradiction|].
    rewrite Hn1. cbn. rewrite He. reflexivity.
  - assert (Hx : (s1 <> 0%Z \/ is_not_lost p1 = false) /\ p_state p1 = 0%Z).
    { split; [eapply turn_pass_stop_state; eauto|].
      assert (Hg : forall l q oq s0, (forall be, In be l -> In be bes) -> p_state q = 1%Z ->
                turn_pass l q oq s0 = Ok (p1, o1, s1, false) -> p_state p1 = 0%Z).
      { induction l as [|y l IH]; intros q oq s0 Hin Hq Hl; cbn in Hl; [discriminate|].
        unfold call_disp in Hl. destruct (disp y q oq) as [[[q1 oq1] st]|] eqn:Hd; cbn in Hl; [|discriminate].
        destruct ((st =? 0)%Z && is_not_lost q1) eqn:Hc1.
        - apply (IH (incr_at_element q1) oq1 st); auto.
          + intros be Hbe. apply Hin. now right.
          + apply andb_true_iff in Hc1 as [_ Hc1]. now apply Z.eqb_eq in Hc1.
        - inversion Hl; subst. eapply Hfail; eauto. { apply Hin. now left. }
          apply andb_false_iff in Hc1 as [Hc|Hc]; [left|right]; intro Hx.
          + rewrite Hx in Hc; discriminate.
          + unfold is_not_lost in Hc. rewrite Hx in Hc. discriminate. }
      eapply Hg; eauto. }
    destruct Hx as [_ Hx].
    assert (is_not_lost p1 = false) as -> by (unfold is_not_lost; rewrite Hx; reflexivity).
    rewrite andb_false_r.
    assert (mark_as_lost p1 = p1) as ->; auto.
    unfold mark_as_lost. rewrite <- Hx. symmetry. destruct p1; reflexivity.
Qed.

End Proofs.
