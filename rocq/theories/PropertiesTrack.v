(* Theorems for C18, C19, C20, C35, C43: tracking a single particle.
   All hold for every number type T with every choice N of its operations (so bit
   for bit for IEEE doubles), every build configuration c, every lattice.
   Outcome of a tracking call: Ok (particle, output memory, status), Undef =
   undefined behaviour. *)
From Coq Require Import ZArith List Bool Lia.
From Verif Require Import Num Particle TriCub Elements EbeConfig Track TrackSpec TrackProofs
  DispatchProofs TrackInv TrackProps ExampleNum.
Import ListNotations.
Local Open Scope Z_scope.

(* C18: tracking until n and then until m is tracking until m: same particle, same
   output, the combined (or-ed, as in track.c) status is the same. *)
Theorem C18_staged_tracking : forall T (N : NumOps T) (c : config T) lattice n m p outs,
  n <= m ->
  bind (until_turn N c lattice n p outs) (fun r => let '(p1, o1, s1) := r in
    bind (until_turn N c lattice m p1 o1) (fun r => let '(p2, o2, s2) := r in
      Ok (p2, o2, Z.lor s1 s2)))
  = until_turn N c lattice m p outs.
Proof. exact @staged_d. Qed.
Print Assumptions C18_staged_tracking.

Example C18_case : exists p1 p2, p1 <> zpart /\ p2 <> p1 /\
  until_turn ZOps Zconf zlattice 1 zpart [] = Ok (p1, [], 0) /\
  until_turn ZOps Zconf zlattice 2 p1 [] = Ok (p2, [], 0) /\
  until_turn ZOps Zconf zlattice 2 zpart [] = Ok (p2, [], 0).
Proof.
  eexists; eexists. split; [|split; [|split; [|split]]]; try (vm_compute; reflexivity);
  vm_compute; discriminate.
Qed.

(* the loops of the model never run out of fuel: the outcomes above are those of C *)
Theorem C18_total : forall T (N : NumOps T) (c : config T) lattice n p outs,
  until_turn N c lattice n p outs <> NoFuel.
Proof. exact (fun T N c => track_nofuel T (element T) (outsets T) (nzero N) (dispatch N c) (dispatch_keeps_ids N c)). Qed.
Print Assumptions C18_total.

(* C19: a lost particle is not changed by tracking until a turn, through a line or
   through one element (nor is any output). *)
Theorem C19_lost_frozen_until_turn : forall T (N : NumOps T) (c : config T) lattice n p outs,
  p_state p <> 1 -> exists st, until_turn N c lattice n p outs = Ok (p, outs, st).
Proof. exact (fun T N c => track_lost_frozen T (element T) (outsets T) (nzero N) (dispatch N c)). Qed.
Print Assumptions C19_lost_frozen_until_turn.

Theorem C19_lost_frozen_line : forall T (N : NumOps T) (c : config T) elems fin p outs,
  p_state p <> 1 -> line N c elems fin p outs = Ok (p, outs, 0).
Proof. exact (fun T N c => line_lost_frozen T (element T) (outsets T) (nzero N) (dispatch N c)). Qed.
Print Assumptions C19_lost_frozen_line.

Theorem C19_lost_frozen_element : forall T (N : NumOps T) (c : config T) be p outs,
  p_state p <> 1 -> one_element N c be p outs = Ok (p, outs, 0).
Proof. exact (fun T N c => beam_element_lost_frozen T (element T) (outsets T) (dispatch N c)). Qed.
Print Assumptions C19_lost_frozen_element.

Example C19_case : p_state (set_state 0 zpart) <> 1.
Proof. discriminate. Qed.

(* C19 is false for element-by-element tracking: the loop does not test whether
   the particle is lost before the first element (track.h 704-707). *)
Theorem C19_lost_frozen_elem_by_elem_refuted :
  exists (cfg : ebe_config) lattice n p outs p' outs' st,
    p_state p = 0 /\ elem_by_elem ZOps Zconf cfg lattice n p outs = Ok (p', outs', st) /\
    p_x p' <> p_x p /\ outs' <> outs.
Proof.
  exists (mkEbe 0 1 4 5 7 7 0 3 0 4 false (Some 0%nat)).
  exists zlattice, 2, (set_state 0 zpart), [repeat zpart 20]. do 3 eexists.
  split; [reflexivity|split; [vm_compute; reflexivity|split; [vm_compute; discriminate|]]].
  intro H. apply (f_equal (map (map (@p_state Z)))) in H. revert H. vm_compute. discriminate.
Qed.
Print Assumptions C19_lost_frozen_elem_by_elem_refuted.

(* C20: an active particle tracked until n either reaches turn n, at the element id
   it started from, with s = 0, having passed every element of every turn (arrives,
   TrackSpec.v), or is lost, with the turn and the element index recorded being
   those of the first element that failed or that it did not survive. *)
Theorem C20_bookkeeping : forall T (N : NumOps T) (c : config T) lattice n p outs p' outs' st,
  lattice <> [] -> p_state p = 1 -> p_at_turn p < n ->
  until_turn N c lattice n p outs = Ok (p', outs', st) ->
  (p_state p' = 1 /\ st = 0 /\ p_at_turn p' = n /\
   p_at_element_id p' = p_at_element_id p /\ p_s p' = nzero N /\
   arrives (nzero N) (dispatch N c) lattice p outs n 0 p' outs')
  \/
  (p_state p' = 0 /\
   exists t j q', p_at_turn p <= t < n /\ (j < length lattice)%nat /\
     stops (nzero N) (dispatch N c) lattice p outs t j q' outs' st /\ p' = set_state 0 q' /\
     p_at_turn p' = t /\ p_at_element_id p' = p_at_element_id p + Z.of_nat j).
Proof. exact @bookkeeping_d. Qed.
Print Assumptions C20_bookkeeping.

Theorem C20_past_unchanged : forall T (N : NumOps T) (c : config T) lattice n p outs,
  n <= p_at_turn p -> exists st, until_turn N c lattice n p outs = Ok (p, outs, st).
Proof. exact (fun T N c => track_past_frozen T (element T) (outsets T) (nzero N) (dispatch N c)). Qed.
Print Assumptions C20_past_unchanged.

(* both outcomes occur: the particle survives turn 2 and is lost in turn 3 *)
Example C20_case :
  (exists p', until_turn ZOps Zconf zlattice 2 zpart [] = Ok (p', [], 0) /\ p_state p' = 1) /\
  (exists p', until_turn ZOps Zconf zlattice 5 zpart [] = Ok (p', [], 0) /\ p_state p' = 0 /\
              p_at_turn p' = 3 /\ p_at_element_id p' = 0).
Proof.
  split; eexists; (split; [vm_compute; reflexivity|]); [reflexivity|].
  split; [reflexivity|split; reflexivity].
Qed.

(* C35: a line split in two, for elements that mark the particle lost when they
   fail *)
Theorem C35_line_split : forall T (N : NumOps T) (c : config T) a b fin p outs,
  (forall be, In be a -> failing_silently c be = false) ->
  bind (line N c a false p outs) (fun r => let '(p1, o1, s1) := r in
    bind (line N c b fin p1 o1) (fun r => let '(p2, o2, s2) := r in
      Ok (p2, o2, Z.lor s1 s2)))
  = line N c (a ++ b) fin p outs.
Proof. exact @line_split_d. Qed.
Print Assumptions C35_line_split.

Theorem C35_line_is_one_turn : forall T (N : NumOps T) (c : config T) lattice p outs,
  lattice <> [] -> (forall be, In be lattice -> failing_silently c be = false) ->
  p_at_element_id p = 0 -> p_state p = 1 ->
  line N c lattice true p outs = until_turn N c lattice (p_at_turn p + 1) p outs.
Proof. exact @line_one_turn_d. Qed.
Print Assumptions C35_line_is_one_turn.

Example C35_case : (forall be, In be zlattice -> failing_silently Zconf be = false) /\
  zlattice <> [] /\ p_at_element_id zpart = 0 /\ p_state zpart = 1.
Proof.
  repeat split; try discriminate. intros be H.
  repeat (destruct H as [<-|H]; [reflexivity|]). contradiction.
Qed.

(* Without that condition C35 is false: an element that fails without marking the
   particle lost stops the line, but not the line that starts behind it. *)
Theorem C35_line_split_refuted :
  exists (c : config Z) (d : tricub_data Z) p outs p2 p3 o2 o3 s2 s3,
    p_state p = 1 /\
    bind (line ZOps c [BTriCubData d] false p outs) (fun r => let '(p1, o1, s1) := r in
      line ZOps c [BDrift 2] false p1 o1) = Ok (p2, o2, s2) /\
    line ZOps c [BTriCubData d; BDrift 2] false p outs = Ok (p3, o3, s3) /\
    p_x p2 <> p_x p3.
Proof.
  exists (mkConfig AAlways None 1000 1000 MUndef MEnabled MEnabled MEnabled).
  exists (mkTriCubData 0 1 2 0 1 2 0 1 2 0 0 0 []), zpart, []. do 6 eexists.
  split; [reflexivity|split; [vm_compute; reflexivity|split; [vm_compute; reflexivity|]]].
  vm_compute; discriminate.
Qed.
Print Assumptions C35_line_split_refuted.

(* C43: no tracking function changes the reference attributes (q0, mass0, beta0,
   gamma0, p0c, chi, charge_ratio) or the id of a particle, nor the number and sizes
   of the output particle sets. *)
Theorem C43_reference_kept : forall T (N : NumOps T) (c : config T) p outs p' outs' st,
  (exists lattice n, until_turn N c lattice n p outs = Ok (p', outs', st)) \/
  (exists cfg lattice n, elem_by_elem N c cfg lattice n p outs = Ok (p', outs', st)) \/
  (exists elems fin, line N c elems fin p outs = Ok (p', outs', st)) \/
  (exists be, one_element N c be p outs = Ok (p', outs', st)) ->
  same_reference p p' /\ map (@length _) outs' = map (@length _) outs.
Proof.
  intros T N c p outs p' outs' st [(l & n & H)|[(cfg & l & n & H)|[(l & f & H)|(be & H)]]].
  - exact (until_turn_ref N c _ _ _ _ _ _ _ H).
  - exact (ebe_ref N c _ _ _ _ _ _ _ _ H).
  - exact (line_ref N c _ _ _ _ _ _ _ H).
  - exact (one_ref N c _ _ _ _ _ _ H).
Qed.
Print Assumptions C43_reference_kept.
