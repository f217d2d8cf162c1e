(* Theorems for C42: collect, push and clear flags. *)
From Coq Require Import ZArith List Bool Lia.
From Verif Require Import Transfer TransferSpec.
Import ListNotations.
Local Open Scope Z_scope.

Lemma is_set_bit : forall f k, 0 <= k -> is_set f (2 ^ k) = bit f k.
Proof.
  intros f k Hk. unfold is_set, bit. destruct (Z.testbit f k) eqn:E.
  - apply Z.eqb_eq. apply Z.bits_inj'. intros n Hn. rewrite Z.land_spec, Z.pow2_bits_eqb by lia.
    destruct (Z.eqb_spec k n); subst; [rewrite E; reflexivity|apply andb_false_r].
  - apply Z.eqb_neq. intros H. assert (T : Z.testbit (Z.land f (2 ^ k)) k = Z.testbit (2 ^ k) k) by now rewrite H.
    rewrite Z.land_spec, E, Z.pow2_bits_true in T by lia. discriminate.
Qed.

Lemma unset_bit : forall f k n, 0 <= k < 16 -> 0 <= n -> 
  bit (unset f (2 ^ k)) n = (n <? 16) && bit f n && negb (n =? k).
Proof.
  intros f k n Hk Hn. unfold bit, unset. destruct (Z.ltb_spec n 16).
  - rewrite Z.mod_pow2_bits_low by lia. rewrite Z.land_spec, Z.lnot_spec, Z.pow2_bits_eqb by lia.
    rewrite (Z.eqb_sym k n). reflexivity.
  - rewrite Z.mod_pow2_bits_high by lia. reflexivity.
Qed.

Lemma lor_bit : forall f k n, 0 <= k -> bit (Z.lor f (2 ^ k)) n = bit f n || (k =? n).
Proof. intros f k n Hk. unfold bit. rewrite Z.lor_spec, Z.pow2_bits_eqb by lia. reflexivity. Qed.

Lemma below_bits : forall f m, 0 <= f -> 0 <= m -> (forall n, m <= n -> bit f n = false) -> f < 2 ^ m.
Proof.
  intros f m Hf Hm H. destruct (Z_lt_dec f (2 ^ m)); auto. exfalso.
  assert (2 ^ m <= f) by lia. assert (Pf : 0 < f) by (pose proof (Z.pow_pos_nonneg 2 m); lia).
  assert (L : m <= Z.log2 f) by (apply Z.log2_le_pow2; lia).
  specialize (H (Z.log2 f) L). unfold bit in H. rewrite Z.bit_log2 in H by lia. discriminate.
Qed.

Lemma bits_below : forall f m n, 0 <= f < 2 ^ m -> m <= n -> bit f n = false.
Proof.
  intros f m n H Hn. unfold bit. destruct (Z.eq_dec f 0) as [->|]; [apply Z.bits_0|].
  apply Z.bits_above_log2; [lia|]. apply Z.log2_lt_pow2; [lia|].
  apply Z.lt_le_trans with (2 ^ m); [lia|]. apply Z.pow_le_mono_r; lia.
Qed.

(* Testing, setting and unsetting any one of the sixteen flags: the others keep their values. *)
Theorem C42_independent : forall f k, 0 <= f < 2 ^ 16 -> 0 <= k < 16 ->
  (is_set f (2 ^ k) = bit f k) /\
  (forall n, 0 <= n -> bit (Z.lor f (2 ^ k)) n = if n =? k then true else bit f n) /\
  (forall n, 0 <= n -> bit (unset f (2 ^ k)) n = if n =? k then false else bit f n).
Proof.
  intros f k Hf Hk. split; [apply is_set_bit; lia|]. split; intros n Hn.
  - rewrite lor_bit by lia. rewrite (Z.eqb_sym k n). destruct (n =? k); [apply orb_true_r|apply orb_false_r].
  - rewrite unset_bit by lia. destruct (n =? k); [apply andb_false_r|]. rewrite andb_true_r.
    destruct (Z.ltb_spec n 16); [reflexivity|]. cbn [andb]. symmetry. apply (bits_below f 16); lia.
Qed.
Print Assumptions C42_independent.

(* Any history of calls: the flags are those of five independent switches. *)
Theorem C42_history : forall ops,
  means (fold_left (fun f o => apply_op o f) ops initial_flags)
        (fold_left (fun s o => sw_op o s) ops sw_initial).
Proof.
  assert (Step : forall o f s, means f s -> means (apply_op o f) (sw_op o s)).
  { intros o f s (B & H0 & H1 & H2 & H3 & H4).
    assert (U : forall k, 0 <= k < 16 -> 0 <= unset f (2 ^ k) < 32).
    { intros k Hk. assert (N : 0 <= unset f (2 ^ k)) by (unfold unset; apply Z.mod_pos_bound; reflexivity).
      split; auto. apply (below_bits _ 5); [auto|lia|]. intros n Hn. rewrite unset_bit by lia.
      rewrite (bits_below f 5 n) by (change (2 ^ 5) with 32; lia). rewrite andb_false_r. reflexivity. }
    assert (L : forall k, 0 <= k < 5 -> 0 <= Z.lor f (2 ^ k) < 32).
    { intros k Hk. assert (N : 0 <= Z.lor f (2 ^ k)) by (apply Z.lor_nonneg; split; [lia|apply Z.pow_nonneg; lia]).
      split; auto. apply (below_bits _ 5); [auto|lia|]. intros n Hn. rewrite lor_bit by lia.
      rewrite (bits_below f 5 n) by (change (2 ^ 5) with 32; lia). apply Z.eqb_neq. lia. }
    unfold means, apply_op, sw_op, IO_PARTICLES, IO_BEAM_ELEMENTS, IO_OUTPUT.
    destruct o; cbn [sw_particles sw_belems sw_output sw_debug sw_addr].
    - split; [apply (L 0); lia|]. change (bit (Z.lor f 1)) with (bit (Z.lor f (2 ^ 0))). rewrite !lor_bit by lia. rewrite H0, H1, H2, H3, H4.
      repeat split; rewrite ?orb_true_r, ?orb_false_r; reflexivity.
    - split; [apply (U 0); lia|]. change (bit (unset f 1)) with (bit (unset f (2 ^ 0))). rewrite !unset_bit by lia. rewrite H0, H1, H2, H3, H4.
      repeat split; cbn; rewrite ?andb_true_r, ?andb_false_r; reflexivity.
    - split; [apply (L 1); lia|]. change (bit (Z.lor f 2)) with (bit (Z.lor f (2 ^ 1))). rewrite !lor_bit by lia. rewrite H0, H1, H2, H3, H4.
      repeat split; rewrite ?orb_true_r, ?orb_false_r; reflexivity.
    - split; [apply (U 1); lia|]. change (bit (unset f 2)) with (bit (unset f (2 ^ 1))). rewrite !unset_bit by lia. rewrite H0, H1, H2, H3, H4.
      repeat split; cbn; rewrite ?andb_true_r, ?andb_false_r; reflexivity.
    - split; [apply (L 2); lia|]. change (bit (Z.lor f 4)) with (bit (Z.lor f (2 ^ 2))). rewrite !lor_bit by lia. rewrite H0, H1, H2, H3, H4.
      repeat split; rewrite ?orb_true_r, ?orb_false_r; reflexivity.
    - split; [apply (U 2); lia|]. change (bit (unset f 4)) with (bit (unset f (2 ^ 2))). rewrite !unset_bit by lia. rewrite H0, H1, H2, H3, H4.
      repeat split; cbn; rewrite ?andb_true_r, ?andb_false_r; reflexivity.
    - split.
      { unfold COLLECT_ALL. change 31 with (Z.ones 5). rewrite Z.land_ones by lia. apply Z.mod_pos_bound. reflexivity. }
      unfold bit, COLLECT_ALL. rewrite !Z.land_spec.
      change (Z.testbit 31 0) with true. change (Z.testbit 31 1) with true. change (Z.testbit 31 2) with true.
      change (Z.testbit 31 3) with true. change (Z.testbit 31 4) with true. rewrite !andb_true_r. repeat split. }
  intros ops. assert (Init : means initial_flags sw_initial).
  { unfold means, initial_flags, IO_DEFAULT. repeat split; lia. }
  revert Init. generalize initial_flags sw_initial. induction ops as [|o ops IH]; intros f s H; [exact H|].
  cbn [fold_left]. apply IH. apply Step. exact H.
Qed.
Print Assumptions C42_history.

(* the queries of the API return these switches *)
Theorem C42_queries : forall f s, means f s ->
  is_collecting_particles f = sw_particles s /\ is_collecting_beam_elements f = sw_belems s /\
  is_collecting_output f = sw_output s.
Proof.
  intros f s (_ & H0 & H1 & H2 & _). unfold is_collecting_particles, is_collecting_beam_elements, is_collecting_output.
  unfold IO_PARTICLES, IO_BEAM_ELEMENTS, IO_OUTPUT. change 1 with (2 ^ 0). change 2 with (2 ^ 1) at 2. change 4 with (2 ^ 2).
  split; [rewrite is_set_bit by lia; exact H0|]. split; [change 2 with (2 ^ 1); rewrite is_set_bit by lia; exact H1|].
  rewrite is_set_bit by lia. exact H2.
Qed.
Print Assumptions C42_queries.

Example C42_history_case :
  fold_left (fun f o => apply_op o f) [EnableBeamElements; DisableParticles; SetFlags 65535; DisableOutput] initial_flags = 27.
Proof. reflexivity. Qed.

Section Transfers.
Context {V : Type}.

Lemma receive_spec : forall flags k (p : part V), 0 <= k ->
  fetched (bit flags k) p (fst (receive flags (2 ^ k) p)) /\
  snd (receive flags (2 ^ k) p) = if bit flags k && possible p then 2 ^ k else 0.
Proof.
  intros flags k p Hk. unfold receive, fetched, possible. rewrite is_set_bit by auto.
  destruct (bit flags k); cbn [andb]; [|cbn; auto]. destruct (avail p) eqn:Ea; cbn [andb]; [|cbn; auto].
  destruct (works p) eqn:Ew; cbn; rewrite ?Ea, ?Ew; auto.
Qed.

Lemma send_spec : forall flags k (p : part V), 0 <= k ->
  sent (bit flags k) p (fst (send flags (2 ^ k) p)) /\
  snd (send flags (2 ^ k) p) = if bit flags k && possible p then 2 ^ k else 0.
Proof.
  intros flags k p Hk. unfold send, sent, possible. rewrite is_set_bit by auto.
  destruct (bit flags k); cbn [andb]; [|cbn; auto]. destruct (avail p) eqn:Ea; cbn [andb]; [|cbn; auto].
  destruct (works p) eqn:Ew; cbn; rewrite ?Ea, ?Ew; auto.
Qed.

(* Collecting fetches exactly the parts that are wanted, available and whose transfer works,
   reports exactly these parts, and touches nothing else. *)
Theorem C42_collect : forall flags (d : parts V),
  let '(d', r) := dev_collect flags d in
  fetched (bit flags 0) (pt_particles d) (pt_particles d') /\
  fetched (bit flags 1) (pt_belems d) (pt_belems d') /\
  fetched (bit flags 2) (pt_output d) (pt_output d') /\
  fetched (bit flags 3) (pt_debug d) (pt_debug d') /\
  fetched (bit flags 4) (pt_addr d) (pt_addr d') /\
  means r (mkSw (bit flags 0 && possible (pt_particles d)) (bit flags 1 && possible (pt_belems d))
                (bit flags 2 && possible (pt_output d)) (bit flags 3 && possible (pt_debug d))
                (bit flags 4 && possible (pt_addr d))).
Proof.
  intros flags d. unfold dev_collect, IO_PARTICLES, IO_BEAM_ELEMENTS, IO_OUTPUT, IO_DEBUG_REGISTER, IO_PARTICLES_ADDR.
  destruct (receive_spec flags 0 (pt_particles d)) as [A0 B0]; [lia|].
  destruct (receive_spec flags 1 (pt_belems d)) as [A1 B1]; [lia|].
  destruct (receive_spec flags 2 (pt_output d)) as [A2 B2]; [lia|].
  destruct (receive_spec flags 3 (pt_debug d)) as [A3 B3]; [lia|].
  destruct (receive_spec flags 4 (pt_addr d)) as [A4 B4]; [lia|].
  change (2 ^ 0) with 1 in *. change (2 ^ 1) with 2 in *. change (2 ^ 2) with 4 in *. change (2 ^ 3) with 8 in *. change (2 ^ 4) with 16 in *.
  destruct (receive flags 1 (pt_particles d)). destruct (receive flags 2 (pt_belems d)).
  destruct (receive flags 4 (pt_output d)). destruct (receive flags 8 (pt_debug d)). destruct (receive flags 16 (pt_addr d)).
  cbn [fst snd pt_particles pt_belems pt_output pt_debug pt_addr] in *.
  split; [exact A0|]. split; [exact A1|]. split; [exact A2|]. split; [exact A3|]. split; [exact A4|]. subst.
  destruct (bit flags 0 && possible (pt_particles d)), (bit flags 1 && possible (pt_belems d)),
    (bit flags 2 && possible (pt_output d)), (bit flags 3 && possible (pt_debug d)), (bit flags 4 && possible (pt_addr d));
    vm_compute; repeat split; congruence.
Qed.

(* Pushing, likewise; particle addresses are never pushed. *)
Theorem C42_push : forall flags (d : parts V),
  let '(d', r) := push_flags flags d in
  sent (bit flags 0) (pt_particles d) (pt_particles d') /\
  sent (bit flags 1) (pt_belems d) (pt_belems d') /\
  sent (bit flags 2) (pt_output d) (pt_output d') /\
  sent (bit flags 3) (pt_debug d) (pt_debug d') /\
  pt_addr d' = pt_addr d /\
  means r (mkSw (bit flags 0 && possible (pt_particles d)) (bit flags 1 && possible (pt_belems d))
                (bit flags 2 && possible (pt_output d)) (bit flags 3 && possible (pt_debug d)) false).
Proof.
  intros flags d. unfold push_flags.
  assert (M : forall k, 0 <= k < 4 -> bit (Z.land flags PUSH_ALL) k = bit flags k).
  { intros k Hk. unfold bit, PUSH_ALL. rewrite Z.land_spec. change 15 with (Z.ones 4). rewrite Z.ones_spec_low by lia. apply andb_true_r. }
  rewrite <- (M 0), <- (M 1), <- (M 2), <- (M 3) by lia. clear M. generalize (Z.land flags PUSH_ALL). clear flags. intros flags.
  unfold dev_push, IO_PARTICLES, IO_BEAM_ELEMENTS, IO_OUTPUT, IO_DEBUG_REGISTER, IO_PARTICLES_ADDR.
  destruct (send_spec flags 0 (pt_particles d)) as [A0 B0]; [lia|].
  destruct (send_spec flags 1 (pt_belems d)) as [A1 B1]; [lia|].
  destruct (send_spec flags 2 (pt_output d)) as [A2 B2]; [lia|].
  destruct (send_spec flags 3 (pt_debug d)) as [A3 B3]; [lia|].
  change (2 ^ 0) with 1 in *. change (2 ^ 1) with 2 in *. change (2 ^ 2) with 4 in *. change (2 ^ 3) with 8 in *.
  destruct (send flags 1 (pt_particles d)). destruct (send flags 2 (pt_belems d)).
  destruct (send flags 4 (pt_output d)). destruct (send flags 8 (pt_debug d)).
  cbn [fst snd pt_particles pt_belems pt_output pt_debug pt_addr] in *.
  split; [exact A0|]. split; [exact A1|]. split; [exact A2|]. split; [exact A3|]. split; [reflexivity|]. subst.
  destruct (bit flags 0 && possible (pt_particles d)), (bit flags 1 && possible (pt_belems d)),
    (bit flags 2 && possible (pt_output d)), (bit flags 3 && possible (pt_debug d));
    vm_compute; repeat split; congruence.
Qed.

(* Collecting (pushing) a single part succeeds exactly when the part could be transferred. *)
Theorem C42_single : forall k (d : parts V), 0 <= k < 5 ->
  (snd (collect_part (2 ^ k) d) = 0 <->
     possible (nth (Z.to_nat k) [pt_particles d; pt_belems d; pt_output d; pt_debug d; pt_addr d] (pt_addr d)) = true) /\
  (k < 4 -> (snd (push_part (2 ^ k) d) = 0 <->
     possible (nth (Z.to_nat k) [pt_particles d; pt_belems d; pt_output d; pt_debug d] (pt_addr d)) = true)).
Proof.
  intros k d Hk. split.
  - unfold collect_part. pose proof (C42_collect (2 ^ k) d) as H. destruct (dev_collect (2 ^ k) d) as [d' r].
    destruct H as (_ & _ & _ & _ & _ & (_ & H0 & H1 & H2 & H3 & H4)). cbn [snd]. rewrite is_set_bit by lia.
    assert (C : k = 0 \/ k = 1 \/ k = 2 \/ k = 3 \/ k = 4) by lia.
    destruct C as [->|[->|[->|[->| ->]]]]; change (Z.to_nat 0) with 0%nat; change (Z.to_nat 1) with 1%nat;
      change (Z.to_nat 2) with 2%nat; change (Z.to_nat 3) with 3%nat; change (Z.to_nat 4) with 4%nat; cbn [nth];
      rewrite ?H0, ?H1, ?H2, ?H3, ?H4; cbn [sw_particles sw_belems sw_output sw_debug sw_addr];
      match goal with |- (if _ && ?b then _ else _) = _ <-> _ => destruct b; cbn; intuition congruence end.
  - intros Hk4. unfold push_part. pose proof (C42_push (2 ^ k) d) as H. destruct (push_flags (2 ^ k) d) as [d' r].
    destruct H as (_ & _ & _ & _ & _ & (_ & H0 & H1 & H2 & H3 & _)). cbn [snd]. rewrite Z.land_comm. fold (is_set r (2 ^ k)). rewrite is_set_bit by lia.
    assert (C : k = 0 \/ k = 1 \/ k = 2 \/ k = 3) by lia.
    destruct C as [->|[->|[->| ->]]]; change (Z.to_nat 0) with 0%nat; change (Z.to_nat 1) with 1%nat;
      change (Z.to_nat 2) with 2%nat; change (Z.to_nat 3) with 3%nat; change (Z.to_nat 4) with 4%nat; cbn [nth];
      rewrite ?H0, ?H1, ?H2, ?H3; cbn [sw_particles sw_belems sw_output sw_debug sw_addr];
      match goal with |- (if _ && ?b then _ else _) = _ <-> _ => destruct b; cbn; intuition congruence end.
Qed.
End Transfers.
Print Assumptions C42_collect.
Print Assumptions C42_push.
Print Assumptions C42_single.

(* On the CPU everything asked for is reported as transferred. *)
Theorem C42_cpu : forall f k, 0 <= k ->
  bit (cpu_collect f) k = bit f k && (k <? 5) /\ bit (cpu_push f) k = bit f k && (k <? 4).
Proof.
  intros f k Hk. unfold cpu_collect, cpu_push, COLLECT_ALL, PUSH_ALL, bit. rewrite !Z.land_spec.
  change 31 with (Z.ones 5). change 15 with (Z.ones 4). rewrite !Z.testbit_ones_nonneg by lia. auto.
Qed.
Print Assumptions C42_cpu.

(* Resetting a job clears exactly the structures that the default asks for and whose buffers
   change, in both kinds of jobs. *)
Theorem C42_reset_clears : forall default sp ss sb so, 0 <= default < 2 ^ 16 ->
  let f := prepare_reset_flags default sp ss sb so in
  bit f 0 = bit default 0 && negb (sp && ss) /\ bit f 1 = bit default 1 && negb sb /\
  bit f 2 = bit default 2 && negb so /\ (forall k, 3 <= k -> bit f k = bit default k) /\
  (forall c, In c (dev_clear f) <->
     match c with
     | ClParticles => bit f 0 = true | ClBeamElements => bit f 1 = true | ClOutput => bit f 2 = true
     | ClController => bit f 3 = true | ClKernels => bit f 4 = true
     end).
Proof.
  intros default sp ss sb so Hd f.
  assert (Range : 0 <= f < 2 ^ 16 /\ bit f 0 = bit default 0 && negb (sp && ss) /\ bit f 1 = bit default 1 && negb sb /\
    bit f 2 = bit default 2 && negb so /\ (forall k, 3 <= k -> bit f k = bit default k)).
  { unfold f, prepare_reset_flags, CLEAR_PARTICLES, CLEAR_BEAM_ELEMENTS, CLEAR_OUTPUT. cbv zeta.
    assert (U : forall g k, 0 <= g < 2 ^ 16 -> 0 <= unset g k < 2 ^ 16) by (intros; unfold unset; apply Z.mod_pos_bound; reflexivity).
    set (f1 := if is_set default 1 && sp && ss then unset default 1 else default).
    assert (F1 : 0 <= f1 < 2 ^ 16 /\ bit f1 0 = bit default 0 && negb (sp && ss) /\ forall n, 1 <= n -> bit f1 n = bit default n).
    { unfold f1. pose proof (is_set_bit default 0 ltac:(lia)) as S. change (2 ^ 0) with 1 in S. rewrite S. clear S.
      destruct (C42_independent default 0 Hd) as (_ & _ & I); [lia|]. change (2 ^ 0) with 1 in I.
      destruct (bit default 0) eqn:E; destruct sp; destruct ss; cbn [andb negb]; try (split; [auto|split; [auto|reflexivity]]).
      split; [apply U; auto|]. split; [rewrite I by lia; reflexivity|]. intros n Hn. rewrite I by lia.
      rewrite (proj2 (Z.eqb_neq n 0)) by lia. reflexivity. }
    destruct F1 as (R1 & F1 & G1). clearbody f1.
    set (f2 := if is_set f1 2 && sb then unset f1 2 else f1).
    assert (F2 : 0 <= f2 < 2 ^ 16 /\ bit f2 1 = bit f1 1 && negb sb /\ forall n, 0 <= n -> n <> 1 -> bit f2 n = bit f1 n).
    { unfold f2. pose proof (is_set_bit f1 1 ltac:(lia)) as S. change (2 ^ 1) with 2 in S. rewrite S. clear S.
      destruct (C42_independent f1 1 R1) as (_ & _ & I); [lia|]. change (2 ^ 1) with 2 in I.
      destruct (bit f1 1) eqn:E; destruct sb; cbn [andb negb]; try (split; [auto|split; [auto|reflexivity]]).
      split; [apply U; auto|]. split; [rewrite I by lia; reflexivity|]. intros n Hn Hn1. rewrite I by lia.
      rewrite (proj2 (Z.eqb_neq n 1)) by lia. reflexivity. }
    destruct F2 as (R2 & F2 & G2). clearbody f2.
    set (f3 := if is_set f2 4 && so then unset f2 4 else f2).
    assert (F3 : 0 <= f3 < 2 ^ 16 /\ bit f3 2 = bit f2 2 && negb so /\ forall n, 0 <= n -> n <> 2 -> bit f3 n = bit f2 n).
    { unfold f3. pose proof (is_set_bit f2 2 ltac:(lia)) as S. change (2 ^ 2) with 4 in S. rewrite S. clear S.
      destruct (C42_independent f2 2 R2) as (_ & _ & I); [lia|]. change (2 ^ 2) with 4 in I.
      destruct (bit f2 2) eqn:E; destruct so; cbn [andb negb]; try (split; [auto|split; [auto|reflexivity]]).
      split; [apply U; auto|]. split; [rewrite I by lia; reflexivity|]. intros n Hn Hn1. rewrite I by lia.
      rewrite (proj2 (Z.eqb_neq n 2)) by lia. reflexivity. }
    destruct F3 as (R3 & F3 & G3). clearbody f3. split; [auto|].
    split; [rewrite G3, G2, F1 by lia; reflexivity|]. split; [rewrite G3, F2, G1 by lia; reflexivity|].
    split; [rewrite F3, G2, G1 by lia; reflexivity|]. intros k Hk. rewrite G3, G2, G1 by lia. reflexivity. }
  destruct Range as (_ & B0 & B1 & B2 & B3). split; [auto|]. split; [auto|]. split; [auto|]. split; [auto|].
  clearbody f. clear. intros c. unfold dev_clear, base_clear, CLEAR_KERNELS, CLEAR_CONTROLLER, CLEAR_PARTICLES, CLEAR_BEAM_ELEMENTS, CLEAR_OUTPUT.
  rewrite <- (is_set_bit f 0), <- (is_set_bit f 1), <- (is_set_bit f 2), <- (is_set_bit f 3), <- (is_set_bit f 4) by lia.
  change (2 ^ 0) with 1. change (2 ^ 1) with 2. change (2 ^ 2) with 4. change (2 ^ 3) with 8. change (2 ^ 4) with 16.
  destruct (is_set f 1), (is_set f 2), (is_set f 4), (is_set f 8), (is_set f 16), c; cbn; intuition congruence.
Qed.
Print Assumptions C42_reset_clears.

Example C42_reset_case : dev_clear (prepare_reset_flags CLEAR_DEFAULT true true false true) = [ClBeamElements].
Proof. reflexivity. Qed.
