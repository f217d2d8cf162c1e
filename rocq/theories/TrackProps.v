(* Instances of the tracking lemmas for the dispatcher (proofs; the statements are
   repeated in PropertiesTrack.v). *)
From Coq Require Import ZArith List Bool Lia.
From Verif Require Import Num Particle Elements EbeConfig Track TrackSpec TrackProofs
  DispatchProofs TrackInv ExampleNum.
Import ListNotations.
Local Open Scope Z_scope.

Section P.
Context {T : Type} (N : NumOps T) (c : config T).

Lemma staged_d : forall lattice n m p outs, n <= m ->
  bind (until_turn N c lattice n p outs) (fun r => let '(p1, o1, s1) := r in
    bind (until_turn N c lattice m p1 o1) (fun r => let '(p2, o2, s2) := r in
      Ok (p2, o2, Z.lor s1 s2)))
  = until_turn N c lattice m p outs.
Proof. intros. apply staged_tracking; auto. apply dispatch_keeps_ids. Qed.

Lemma line_split_d : forall a b fin p outs,
  (forall be, In be a -> failing_silently c be = false) ->
  bind (line N c a false p outs) (fun r => let '(p1, o1, s1) := r in
    bind (line N c b fin p1 o1) (fun r => let '(p2, o2, s2) := r in
      Ok (p2, o2, Z.lor s1 s2)))
  = line N c (a ++ b) fin p outs.
Proof.
  intros a b fin p outs Hf. apply line_split.
  intros be q oq q' o' st Hin Hd Hst. eapply dispatch_fail_lost; eauto.
Qed.

Lemma line_one_turn_d : forall lattice p outs, lattice <> [] ->
  (forall be, In be lattice -> failing_silently c be = false) ->
  p_at_element_id p = 0 -> p_state p = 1 ->
  line N c lattice true p outs = until_turn N c lattice (p_at_turn p + 1) p outs.
Proof.
  intros lattice p outs Hb Hf He Hs. apply line_is_one_turn; auto.
  - apply dispatch_keeps_ids.
  - intros be q oq q' o' st Hin Hq Hd Hst.
    apply dispatch_inv in Hd as (_ & Hstep & _ & _ & Hfail).
    destruct Hst as [Hst|Hst]; [apply Hfail; auto|].
    destruct Hstep as [Hstep|[b Hstep]]; [congruence|].
    rewrite Hq in Hstep. destruct b; cbn in Hstep; congruence.
Qed.

Lemma bookkeeping_d : forall lattice n p outs p' outs' st,
  lattice <> [] -> p_state p = 1 -> p_at_turn p < n ->
  until_turn N c lattice n p outs = Ok (p', outs', st) ->
  (p_state p' = 1 /\ st = 0 /\ p_at_turn p' = n /\
   p_at_element_id p' = p_at_element_id p /\ p_s p' = nzero N /\
   arrives (nzero N) (dispatch N c) lattice p outs n 0 p' outs')
  \/
  (p_state p' = 0 /\
   exists t j q', p_at_turn p <= t < n /\ (j < length lattice)%nat /\
     stops (nzero N) (dispatch N c) lattice p outs t j q' outs' st /\ p' = set_state 0 q' /\
     p_at_turn p' = t /\ p_at_element_id p' = p_at_element_id p + Z.of_nat j).
Proof. intros. apply track_bookkeeping; auto. apply dispatch_keeps_ids. Qed.

End P.
