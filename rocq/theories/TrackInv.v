(* Relations preserved by every element of the line and by the counter updates are
   preserved by every tracking function. *)
From Coq Require Import ZArith List Bool Lia.
From Verif Require Import Num Particle Elements EbeConfig Track TrackSpec TrackProofs DispatchProofs.
Import ListNotations.

Section Inv.
Context {T E M : Type}.
Variable zero : T.
Variable disp : E -> particle T -> M -> option (particle T * M * Z).
Variable out_num : M -> nat -> option Z.
Variable out_store : M -> nat -> Z -> particle T -> option (M * Z).
Variable Rel : particle T * M -> particle T * M -> Prop.
Hypothesis Rrefl : forall a, Rel a a.
Hypothesis Rtrans : forall a b c, Rel a b -> Rel b c -> Rel a c.
(* the elements of the line, and the output sets that are written to *)
Variable ok : E -> Prop.
Variable okset : nat -> Prop.
Hypothesis Rdisp : forall be p o p' o' st, ok be -> disp be p o = Some (p', o', st) -> Rel (p, o) (p', o').
Hypothesis Rstore : forall p o k i o' st, okset k -> out_store o k i p = Some (o', st) -> Rel (p, o) (p, o').
Hypothesis Rel_elem : forall p o v, Rel (p, o) (set_at_element_id v p, o).
Hypothesis Rel_turn : forall p o v, Rel (p, o) (set_at_turn v p, o).
Hypothesis Rel_s : forall p o, Rel (p, o) (set_s zero p, o).
Hypothesis Rel_lost : forall p o, Rel (p, o) (mark_as_lost p, o).

Lemma rel_turn_pass : forall bes p o s p' o' s' c, Forall ok bes ->
  turn_pass disp bes p o s = Ok (p', o', s', c) -> Rel (p, o) (p', o').
Proof.
  induction bes as [|be bes IH]; intros p o s p' o' s' c Hok H; cbn in H.
  - inversion H; subst; auto.
  - inversion Hok as [|? ? Hbe Hbes]; subst.
    unfold call_disp in H. destruct (disp be p o) as [[[p1 o1] st]|] eqn:Hd; cbn in H; [|discriminate].
    destruct ((st =? 0)%Z && is_not_lost p1).
    + apply IH in H; auto. eapply Rtrans; [eapply Rdisp; eauto|]. eapply Rtrans; [|exact H]. apply Rel_elem.
    + inversion H; subst. eapply Rdisp; eauto.
Qed.

Lemma rel_end_of_turn : forall st p o, Rel (p, o) (end_of_turn zero st p, o).
Proof.
  intros. unfold end_of_turn, incr_at_turn.
  eapply Rtrans; [apply Rel_elem|]. eapply Rtrans; [|apply Rel_s]. apply Rel_turn.
Qed.

Lemma rel_loop : forall fuel bes start n p o s p' o' s', Forall ok bes ->
  until_turn_loop zero disp fuel bes start n p o s = Ok (p', o', s') -> Rel (p, o) (p', o').
Proof.
  induction fuel as [|f IH]; intros bes start n p o s p' o' s' Hok H; cbn [until_turn_loop] in H; [discriminate|].
  destruct (turn_pass disp bes p o s) as [[[[p1 o1] s1] c1]| |] eqn:Ht; cbn [bind] in H; try discriminate.
  apply rel_turn_pass in Ht; auto. destruct c1.
  - eapply Rtrans; [exact Ht|]. eapply Rtrans; [apply (rel_end_of_turn start)|].
    destruct (_ <? n)%Z; [eauto|]. inversion H; subst. apply Rrefl.
  - inversion H; subst. eapply Rtrans; [exact Ht|apply Rel_lost].
Qed.

Lemma rel_until_turn : forall bes n p o p' o' s', Forall ok bes ->
  track_until_turn zero disp bes n p o = Ok (p', o', s') -> Rel (p, o) (p', o').
Proof.
  intros bes n p o p' o' s' Hok H. unfold track_until_turn in H.
  destruct (_ && _); [eapply rel_loop; eauto|inversion H; subst; apply Rrefl].
Qed.

Lemma rel_ebe_pass : forall c k nn pid se n, okset k -> forall bes ae t p o s p' o' s' cc t', Forall ok bes ->
  ebe_pass zero disp out_store c k nn pid se n bes ae t p o s = Ok (p', o', s', cc, t') ->
  Rel (p, o) (p', o').
Proof.
  intros c k nn pid se n Hk. induction bes as [|be bes IH]; intros ae t p o s p' o' s' cc t' Hok H.
  - cbn in H. inversion H; subst; apply Rrefl.
  - cbn [ebe_pass] in H. inversion Hok as [|? ? Hbe Hbes]; subst.
    match type of H with bind ?m _ = _ => destruct m as [[o1 b1]| |] eqn:Hm end; cbn [bind] in H; try discriminate.
    assert (Ho : Rel (p, o) (p, o1)).
    { destruct (_ && _) in Hm.
      - destruct (out_store o k _ p) as [[o2 st2]|] eqn:Hs; [|discriminate].
        inversion Hm; subst. eapply Rstore; eauto.
      - inversion Hm; subst. apply Rrefl. }
    destruct b1; [|inversion H; subst; exact Ho].
    eapply Rtrans; [exact Ho|].
    unfold call_disp in H. destruct (disp be p o1) as [[[p2 o2] st2]|] eqn:Hd; cbn [bind] in H; [|discriminate].
    eapply Rtrans; [eapply Rdisp; eauto|].
    destruct ((st2 =? 0)%Z && is_not_lost p2); [|inversion H; subst; apply Rrefl].
    destruct bes as [|be' bes'].
    + inversion H; subst. unfold incr_at_turn.
      eapply Rtrans; [apply Rel_elem|]. eapply Rtrans; [apply Rel_s|]. apply Rel_turn.
    + eapply Rtrans; [|eapply IH; eauto]. apply Rel_elem.
Qed.

Lemma rel_ebe_loop : forall fuel c k nn pid se n bes t p o s p' o' s', okset k -> Forall ok bes ->
  ebe_loop zero disp out_store fuel c k nn pid se n bes t p o s = Ok (p', o', s') -> Rel (p, o) (p', o').
Proof.
  induction fuel as [|f IH]; intros c k nn pid se n bes t p o s p' o' s' Hk Hok H; cbn [ebe_loop] in H; [discriminate|].
  destruct (ebe_pass _ _ _ _ _ _ _ _ _ _ _ _ _ _ _) as [[[[[p1 o1] s1] c1] t1]| |] eqn:He; cbn [bind] in H; try discriminate.
  apply rel_ebe_pass in He; auto. destruct c1.
  - eapply Rtrans; eauto.
  - inversion H; subst; auto.
Qed.

Lemma rel_ebe : forall c bes n p o p' o' s', (forall k, e_out c = Some k -> okset k) -> Forall ok bes ->
  track_ebe zero disp out_num out_store c bes n p o = Ok (p', o', s') -> Rel (p, o) (p', o').
Proof.
  intros c bes n p o p' o' s' Hk Hok H. unfold track_ebe in H.
  destruct (e_out c); [|eapply rel_until_turn; eauto].
  destruct (out_num o n0); [|discriminate].
  destruct (_ && _); [eapply rel_ebe_loop; eauto|inversion H; subst; apply Rrefl].
Qed.

Lemma rel_line_pass : forall bes p o s p' o' s', Forall ok bes ->
  line_pass disp bes p o s = Ok (p', o', s') -> Rel (p, o) (p', o').
Proof.
  intros bes p o s p' o' s' Hok H. rewrite line_pass_turn_pass in H.
  destruct (turn_pass disp bes p o s) as [[[[p1 o1] s1] c1]| |] eqn:Ht; cbn [bind] in H; try discriminate.
  inversion H; subst. eapply rel_turn_pass; eauto.
Qed.

Lemma rel_line : forall bes fin p o p' o' s', Forall ok bes ->
  track_line zero disp bes fin p o = Ok (p', o', s') -> Rel (p, o) (p', o').
Proof.
  intros bes fin p o p' o' s' Hok H. unfold track_line in H.
  match type of H with bind ?m _ = _ => destruct m as [[[p1 o1] s1]| |] eqn:Hm end; cbn [bind] in H; try discriminate.
  assert (Hr : Rel (p, o) (p1, o1)).
  { destruct (is_not_lost p); [eapply rel_line_pass; eauto|inversion Hm; subst; apply Rrefl]. }
  destruct (_ && _).
  - inversion H; subst. eapply Rtrans; [exact Hr|]. apply (rel_end_of_turn 0).
  - inversion H; subst; auto.
Qed.

Lemma rel_one : forall be p o p' o' s', ok be ->
  track_beam_element_obj disp be p o = Ok (p', o', s') -> Rel (p, o) (p', o').
Proof.
  intros be p o p' o' s' Hok H. unfold track_beam_element_obj, call_disp in H.
  destruct (is_not_lost p); [|inversion H; subst; apply Rrefl].
  destruct (disp be p o) as [[[p1 o1] st]|] eqn:Hd; cbn in H; [|discriminate].
  apply Rdisp in Hd; auto. destruct (_ && _); inversion H; subst; auto.
  eapply Rtrans; [exact Hd|apply Rel_elem].
Qed.

End Inv.

(* instance: reference attributes and output shape *)
Section Ref.
Context {T : Type} (N : NumOps T) (c : config T).

Definition ref_rel (a b : particle T * outsets T) : Prop :=
  same_reference (fst a) (fst b) /\ shape (snd b) = shape (snd a).

Lemma ref_refl : forall a, ref_rel a a. Proof. intros; repeat split. Qed.
Lemma ref_trans : forall a b d, ref_rel a b -> ref_rel b d -> ref_rel a d.
Proof.
  intros a b d (H1 & S1) (H2 & S2). split; [|congruence].
  unfold same_reference in *. decompose [and] H1; decompose [and] H2. repeat split; congruence.
Qed.
Lemma ref_disp : forall be p o p' o' st, dispatch N c be p o = Some (p', o', st) -> ref_rel (p, o) (p', o').
Proof. intros be p o p' o' st H. apply dispatch_inv in H as ((Hk & _) & _ & Hs & _). split; auto. Qed.
Lemma ref_store : forall (p : particle T) o k i o' st,
  store_out o k i p = Some (o', st) -> ref_rel (p, o) (p, o').
Proof. intros. split; [repeat split|]. eapply store_out_shape; eauto. Qed.

Definition any_ok : element T -> Prop := fun _ => True.
Definition any_set : nat -> Prop := fun _ => True.
Lemma any_line : forall bes, Forall any_ok bes.
Proof. induction bes; constructor; auto; exact Logic.I. Qed.

Lemma ref_disp' : forall be p o p' o' st, any_ok be ->
  dispatch N c be p o = Some (p', o', st) -> ref_rel (p, o) (p', o').
Proof. intros. eapply ref_disp; eauto. Qed.
Lemma ref_store' : forall (p : particle T) o k i o' st, any_set k ->
  store_out o k i p = Some (o', st) -> ref_rel (p, o) (p, o').
Proof. intros. eapply ref_store; eauto. Qed.
Lemma ref_elem : forall (p : particle T) (o : outsets T) v, ref_rel (p, o) (set_at_element_id v p, o).
Proof. intros; repeat split. Qed.
Lemma ref_turn : forall (p : particle T) (o : outsets T) v, ref_rel (p, o) (set_at_turn v p, o).
Proof. intros; repeat split. Qed.
Lemma ref_s : forall (p : particle T) (o : outsets T), ref_rel (p, o) (set_s (nzero N) p, o).
Proof. intros; repeat split. Qed.
Lemma ref_lost : forall (p : particle T) (o : outsets T), ref_rel (p, o) (mark_as_lost p, o).
Proof. intros; repeat split. Qed.

Lemma until_turn_ref : forall bes n p o p' o' s,
  until_turn N c bes n p o = Ok (p', o', s) -> ref_rel (p, o) (p', o').
Proof.
  intros bes n p o p' o' s H.
  exact (rel_until_turn _ _ ref_rel ref_refl ref_trans any_ok ref_disp' ref_elem ref_turn ref_s ref_lost
           bes n p o p' o' s (any_line bes) H).
Qed.

Lemma ebe_ref : forall cfg bes n p o p' o' s,
  elem_by_elem N c cfg bes n p o = Ok (p', o', s) -> ref_rel (p, o) (p', o').
Proof.
  intros cfg bes n p o p' o' s H.
  exact (rel_ebe _ _ _ _ ref_rel ref_refl ref_trans any_ok any_set ref_disp' ref_store'
           ref_elem ref_turn ref_s ref_lost cfg bes n p o p' o' s (fun k _ => Logic.I) (any_line bes) H).
Qed.

Lemma line_ref : forall bes fin p o p' o' s,
  line N c bes fin p o = Ok (p', o', s) -> ref_rel (p, o) (p', o').
Proof.
  intros bes fin p o p' o' s H.
  exact (rel_line _ _ ref_rel ref_refl ref_trans any_ok ref_disp' ref_elem ref_turn ref_s
           bes fin p o p' o' s (any_line bes) H).
Qed.

Lemma one_ref : forall be p o p' o' s,
  one_element N c be p o = Ok (p', o', s) -> ref_rel (p, o) (p', o').
Proof.
  intros be p o p' o' s H.
  exact (rel_one _ ref_rel ref_refl ref_trans any_ok ref_disp' ref_elem be p o p' o' s Logic.I H).
Qed.

End Ref.
