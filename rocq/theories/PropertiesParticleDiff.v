(* Theorems for C60: comparing particle sets and buffers of particles.  The words used in the
   statements are those of ParticleDiffSpec.v; [pset_at p i] is particle number i of a set. *)
From Coq Require Import ZArith Reals Lra List Bool Lia.
From Verif Require Import Num Particle ParticleSet ParticleIds ParticleSetProofs ParticleDiff ParticleDiffSpec
  ParticleDiffProofs MapsR.
Import ListNotations.
Local Open Scope Z_scope.

(* The difference of two sets of the same size, for any arithmetic: attribute by attribute,
   particle by particle. *)
Theorem C60_difference : forall T (N : NumOps T) p1 p2 d, pset_wf p1 -> pset_wf p2 -> pset_wf d ->
  ps_num p1 = ps_num p2 -> ps_num d = ps_num p1 -> 0 < ps_num p1 ->
  exists d', calculate_difference N p1 p2 d = Some d' /\ differences N p1 p2 d'.
Proof. exact difference_ok. Qed.
Print Assumptions C60_difference.

(* With other sizes nothing is changed. *)
Theorem C60_difference_other : forall T (N : NumOps T) p1 p2 d,
  ~ (0 < ps_num p1 /\ ps_num p1 = ps_num p2 /\ ps_num p1 = ps_num d) ->
  calculate_difference N p1 p2 d = Some d.
Proof. exact difference_other. Qed.
Print Assumptions C60_difference_other.

(* Over the reals: the difference is zero in all attributes of all particles exactly if the
   sets are equal. *)
Theorem C60_zero : forall p1 p2 d : pset R, pset_wf p1 -> pset_wf p2 -> ps_num p1 = ps_num p2 ->
  differences ROps p1 p2 d ->
  ((forall i x, pset_at d i = Some x ->
      List.Forall (fun f => f x = 0%R) real_attributes /\ List.Forall (fun f => f x = 0) index_attributes) <-> p1 = p2).
Proof.
  intros p1 p2 d W1 W2 En (Wd & Ed & D). split.
  - intros Z. apply pset_ext; [exact W1|exact W2|]. intros i.
    destruct (Z_lt_le_dec i 0) as [Lt|Ge]; [rewrite !pset_at_none by (first [exact W1|exact W2|lia]); reflexivity|].
    destruct (Z_lt_le_dec i (ps_num p1)) as [Lt|Ge1]; [|rewrite !pset_at_none by (first [exact W1|exact W2|lia]); reflexivity].
    destruct (pset_at_some p1 i W1 ltac:(lia)) as (q & Hq). destruct (pset_at_some p2 i W2 ltac:(lia)) as (r & Hr).
    destruct (D i q r Hq Hr) as (x & Hx & Dr & Di). destruct (Z i x Hx) as (Zr & Zi). rewrite Hq, Hr. f_equal.
    assert (Er : forall f, In f real_attributes -> f q = f r).
    { intros f Hf. pose proof (proj1 (Forall_forall _ _) Dr f Hf) as A. pose proof (proj1 (Forall_forall _ _) Zr f Hf) as B.
      cbv beta in A, B. cbn [nsub ROps] in A. rewrite B in A. lra. }
    assert (Ei : forall f, In f index_attributes -> f q = f r).
    { intros f Hf. pose proof (proj1 (Forall_forall _ _) Di f Hf) as A. pose proof (proj1 (Forall_forall _ _) Zi f Hf) as B.
      cbv beta in A, B. lia. }
    pose proof (Er (@p_q0 R) (nth_error_In real_attributes 0 eq_refl)) as R0.
    pose proof (Er (@p_beta0 R) (nth_error_In real_attributes 1 eq_refl)) as R1.
    pose proof (Er (@p_mass0 R) (nth_error_In real_attributes 2 eq_refl)) as R2.
    pose proof (Er (@p_gamma0 R) (nth_error_In real_attributes 3 eq_refl)) as R3.
    pose proof (Er (@p_p0c R) (nth_error_In real_attributes 4 eq_refl)) as R4.
    pose proof (Er (@p_s R) (nth_error_In real_attributes 5 eq_refl)) as R5.
    pose proof (Er (@p_x R) (nth_error_In real_attributes 6 eq_refl)) as R6.
    pose proof (Er (@p_y R) (nth_error_In real_attributes 7 eq_refl)) as R7.
    pose proof (Er (@p_px R) (nth_error_In real_attributes 8 eq_refl)) as R8.
    pose proof (Er (@p_py R) (nth_error_In real_attributes 9 eq_refl)) as R9.
    pose proof (Er (@p_zeta R) (nth_error_In real_attributes 10 eq_refl)) as R10.
    pose proof (Er (@p_psigma R) (nth_error_In real_attributes 11 eq_refl)) as R11.
    pose proof (Er (@p_delta R) (nth_error_In real_attributes 12 eq_refl)) as R12.
    pose proof (Er (@p_rpp R) (nth_error_In real_attributes 13 eq_refl)) as R13.
    pose proof (Er (@p_rvv R) (nth_error_In real_attributes 14 eq_refl)) as R14.
    pose proof (Er (@p_chi R) (nth_error_In real_attributes 15 eq_refl)) as R15.
    pose proof (Er (@p_charge_ratio R) (nth_error_In real_attributes 16 eq_refl)) as R16.
    pose proof (Ei (@p_particle_id R) (nth_error_In index_attributes 0 eq_refl)) as I0.
    pose proof (Ei (@p_at_element_id R) (nth_error_In index_attributes 1 eq_refl)) as I1.
    pose proof (Ei (@p_at_turn R) (nth_error_In index_attributes 2 eq_refl)) as I2.
    pose proof (Ei (@p_state R) (nth_error_In index_attributes 3 eq_refl)) as I3.
    clear - R0 R1 R2 R3 R4 R5 R6 R7 R8 R9 R10 R11 R12 R13 R14 R15 R16 I0 I1 I2 I3.
    destruct q, r. cbn in *. subst. reflexivity.
  - intros <- i x Hx.
    assert (0 <= i < ps_num d) as Hi.
    { destruct (Z_lt_le_dec i 0); [rewrite pset_at_none in Hx by (first [exact Wd|lia]); discriminate|].
      destruct (Z_lt_le_dec i (ps_num d)); [lia|]. rewrite pset_at_none in Hx by (first [exact Wd|lia]). discriminate. }
    destruct (pset_at_some p1 i W1 ltac:(lia)) as (q & Hq). destruct (D i q q Hq Hq) as (x' & Hx' & Dr & Di).
    assert (x' = x) as -> by congruence. split; apply Forall_forall; intros f Hf.
    + pose proof (proj1 (Forall_forall _ _) Dr f Hf) as A. cbv beta in A. cbn [nsub ROps] in A. lra.
    + pose proof (proj1 (Forall_forall _ _) Di f Hf) as A. cbv beta in A. lia.
Qed.
Print Assumptions C60_zero.

(* Over the reals: the first particle of the destination receives, for every attribute, the
   value with the largest absolute value, and the position reported is the first one with this
   absolute value, among as many particles of the source as the destination has. *)
Theorem C60_max : forall dest src : pset R, pset_wf dest -> pset_wf src -> 0 < ps_num dest <= ps_num src ->
  exists d' idx q, get_max_value ROps dest src = Some (d', Some idx) /\ pset_wf d' /\ ps_num d' = ps_num dest /\
    pset_at d' 0 = Some q /\ (forall j, j <> 0 -> pset_at d' j = pset_at dest j) /\
    Forall2 (fun f k => largest size_real src (ps_num dest) f (f q) k) real_attributes (firstn 17 idx) /\
    Forall2 (fun f k => largest size_index src (ps_num dest) f (f q) k) index_attributes (skipn 17 idx).
Proof. exact max_ok. Qed.
Print Assumptions C60_max.

(* Two buffers have the same structure exactly if they consist of particle sets of the same
   sizes in the same order. *)
Theorem C60_same_structure : forall T (lhs rhs : list (pobj T)),
  (forall p, In (Part p) lhs \/ In (Part p) rhs -> pset_wf p) ->
  (same_structure lhs rhs = true <->
   Forall2 (fun l r => is_set l /\ is_set r /\ size_of l = size_of r) lhs rhs).
Proof. exact same_structure_ok. Qed.
Print Assumptions C60_same_structure.

(* The difference of two buffers is that of their sets; without the same structure nothing is
   changed. *)
Theorem C60_buffers : forall T (N : NumOps T) lhs rhs d,
  (forall p, In (Part p) lhs \/ In (Part p) rhs \/ In (Part p) d -> pset_wf p) ->
  (same_structure lhs d = true -> same_structure rhs d = true ->
   exists d', buffers_difference N lhs rhs d = Some d' /\ length d' = length d /\
     forall i l r, nth_error lhs i = Some l -> nth_error rhs i = Some r ->
       exists p1 p2 pd, l = Part p1 /\ r = Part p2 /\ nth_error d' i = Some (Part pd) /\ differences N p1 p2 pd) /\
  (same_structure lhs d = false \/ same_structure rhs d = false -> buffers_difference N lhs rhs d = Some d).
Proof.
  intros T N lhs rhs d W. split.
  - intros S1 S2. destruct (buffers_ok T N lhs rhs d W S1 S2) as (d' & E & L & G). exists d'. split; [exact E|]. split; [exact L|].
    intros i l r Hl Hr. destruct (G i l r Hl Hr) as (x & Hx & p1 & p2 & pd & -> & -> & -> & D). exists p1, p2, pd. auto.
  - unfold buffers_difference. intros [->| ->]; [reflexivity|]. now rewrite andb_false_r.
Qed.
Print Assumptions C60_buffers.

(* Clearing the particles of a buffer sets all attributes of all particles to zero and leaves
   everything else. *)
Theorem C60_clear : forall T (N : NumOps T) objs, (forall p, In (Part p) objs -> pset_wf p) ->
  exists objs', clear_particles N objs = Some objs' /\ length objs' = length objs /\
    forall i o, nth_error objs i = Some o ->
      match o with
      | Part p => exists p', nth_error objs' i = Some (Part p') /\ pset_wf p' /\ ps_num p' = ps_num p /\
                    forall j, 0 <= j < ps_num p -> exists q, pset_at p' j = Some q /\
                      List.Forall (fun f => f q = nzero N) real_attributes /\
                      List.Forall (fun f => f q = 0) index_attributes
      | Other => nth_error objs' i = Some Other
      end.
Proof. exact clear_ok. Qed.
Print Assumptions C60_clear.

Lemma forall2_lookup {S T} (Q : S -> T -> Prop) l r a x : Forall2 Q l r -> nth_error l a = Some x ->
  exists y, nth_error r a = Some y /\ Q x y.
Proof.
  intros F. revert a. induction F as [|u v l r H F IH]; intros [|a] Hx; cbn [nth_error] in *; try discriminate.
  - assert (u = x) as -> by congruence. eauto.
  - now apply IH.
Qed.

(* ------------------------------------------------------------------ *)
(* two sets of two particles *)
Local Open Scope R_scope.
Definition qa (x : R) (id : Z) : particle R :=
  mkParticle (T := R) 1 1 1 1 1 0 x 0 0 0 0 0 0 1 1 1 1 id 0%Z 0%Z 1%Z.
Definition pa : pset R := pset_of [qa 1 0%Z; qa 5 1%Z].
Definition pb : pset R := pset_of [qa 1%R 0%Z; qa 3%R 1%Z].
Local Open Scope Z_scope.

Example C60_example : exists d', calculate_difference ROps pa pb (pset_of [qa 0%R 7; qa 0%R 7]) = Some d' /\
  differences ROps pa pb d' /\ d' <> pset_of [qa 0%R 0; qa 0%R 0] /\
  (exists x, pset_at d' 1 = Some x /\ p_x x = 2%R /\ p_particle_id x = 0).
Proof.
  destruct (C60_difference R ROps pa pb (pset_of [qa 0%R 7; qa 0%R 7])) as (d' & E & D);
    try apply pset_of_wf; try reflexivity.
  exists d'. split; [exact E|]. split; [exact D|]. destruct D as (W & En & D).
  destruct (D 1 (qa 5%R 1) (qa 3%R 1) eq_refl eq_refl) as (x & Hx & Dr & Di).
  assert (Ex : p_x x = 2%R).
  { pose proof (proj1 (Forall_forall _ _) Dr (@p_x R) ltac:(cbn; tauto)) as A. cbn [p_x qa nsub ROps] in A. cbn in A. lra. }
  split.
  - intros X. subst d'. rewrite pset_at_of in Hx. assert (x = qa 0%R 0) as -> by (assert (Some x = Some (qa 0%R 0)) as XX by (rewrite <- Hx; reflexivity); congruence). cbn in Ex. lra.
  - exists x. split; [exact Hx|]. split; [exact Ex|].
    pose proof (proj1 (Forall_forall _ _) Di (@p_particle_id R) ltac:(cbn; tauto)) as A. cbn in A. lia.
Qed.

Example C60_example_max : exists d' idx q, get_max_value ROps (pset_of [qa 0%R 7; qa 0%R 7]) pa = Some (d', Some idx) /\
  pset_at d' 0 = Some q /\ p_x q = 5%R /\ nth_error idx 6 = Some 1.
Proof.
  destruct (C60_max (pset_of [qa 0%R 7; qa 0%R 7]) pa) as (d' & idx & q & E & _ & _ & Hq & _ & F & _);
    try apply pset_of_wf; [cbn; lia|].
  exists d', idx, q. split; [exact E|]. split; [exact Hq|].
  assert (X : exists k, nth_error (firstn 17 idx) 6 = Some k /\ largest size_real pa 2 (@p_x R) (p_x q) k).
  { apply (forall2_lookup _ _ _ 6 _ F). reflexivity. }
  destruct X as (k & Hk & (Hk1 & (r & Hr & Ex) & B)).
  destruct (B 1 (qa 5%R 1) eq_refl ltac:(lia)) as (B1 & B2). cbn [p_x qa] in B1, B2. unfold size_real in *.
  assert (k = 0 \/ k = 1) as [-> | ->] by lia.
  - exfalso. assert (r = qa 1%R 0) as -> by (assert (Some r = Some (qa 1%R 0)) as XX by (rewrite <- Hr; reflexivity); congruence). cbn [p_x qa] in Ex. rewrite <- Ex in B1.
    rewrite !Rabs_pos_eq in B1 by lra. lra.
  - assert (r = qa 5%R 1) as -> by (assert (Some r = Some (qa 5%R 1)) as XX by (rewrite <- Hr; reflexivity); congruence). cbn [p_x qa] in Ex. split; [congruence|].
    rewrite nth_error_firstn_lt in Hk by lia. exact Hk.
Qed.

(* ------------------------------------------------------------------ *)
(* The full claim for maxima, largest among all particles of the source, is false. *)

(* With a destination of one particle only the first particle of the source is looked at. *)
Theorem C60_max_misses_refuted : exists (dest src : pset R) d' idx q r,
  pset_wf dest /\ pset_wf src /\ get_max_value ROps dest src = Some (d', Some idx) /\
  pset_at d' 0 = Some q /\ pset_at src 1 = Some r /\ (Rabs (p_x q) < Rabs (p_x r))%R.
Proof.
  destruct (C60_max (pset_of [qa 0%R 7]) pa) as (d' & idx & q & E & _ & _ & Hq & _ & F & _);
    try apply pset_of_wf; [cbn; lia|].
  exists (pset_of [qa 0%R 7]), pa, d', idx, q, (qa 5%R 1). split; [apply pset_of_wf|]. split; [apply pset_of_wf|].
  split; [exact E|]. split; [exact Hq|]. split; [reflexivity|].
  assert (X : exists k, largest size_real pa 1 (@p_x R) (p_x q) k).
  { destruct (forall2_lookup _ _ _ 6 (@p_x R) F eq_refl) as (k & _ & K). eauto. }
  destruct X as (k & (Hk1 & (r & Hr & Ex) & _)). assert (k = 0) as -> by lia.
  assert (r = qa 1%R 0) as -> by (assert (Some r = Some (qa 1%R 0)) as XX by (rewrite <- Hr; reflexivity); congruence). rewrite <- Ex. cbn [p_x qa].
  rewrite !Rabs_pos_eq by lra. lra.
Qed.
Print Assumptions C60_max_misses_refuted.

(* With more particles in the destination than in the source, the arrays of the source are
   read beyond their end. *)
Theorem C60_max_beyond_refuted : forall T (N : NumOps T) dest src, pset_wf src -> 0 < ps_num src < ps_num dest ->
  get_max_value N dest src = None.
Proof. exact max_undefined. Qed.
Print Assumptions C60_max_beyond_refuted.

(* The maxima of a buffer are never computed: for all buffers with the same, positive number of
   objects the call leaves the list of objects (or does not return). *)
Theorem C60_buffer_max_refuted : forall T (N : NumOps T) dest src, src <> [] -> length src = length dest ->
  buffer_max N dest src = None.
Proof.
  intros T N dest [|s src] H L; [congruence|]. unfold buffer_max. rewrite L, Z.eqb_refl. apply buffer_max_none.
Qed.
Print Assumptions C60_buffer_max_refuted.
