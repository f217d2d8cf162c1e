From Coq Require Import ZArith List Bool Lia.
From Verif Require Import Num Particle Elements EbeConfig Track DispatchProofs ParticleSet ParticleSetProofs
  ParticleIds DebugReg Kernels Tac.
Import ListNotations.
Local Open Scope Z_scope.

Section K.
Context {T M : Type} (zero : T).
Variable track : particle T -> M -> res (particle T * M * Z).
Implicit Types p : pset T.

(* writing a tracked particle back *)
Lemma put_back : forall p i q r, pset_wf p -> pset_at p i = Some r ->
  exists p', copy_all_values i (pset_of [q]) 0 p = Some p' /\
    copy_to_generic p i (pset_of [q]) 0 = Some (p', SUCCESS) /\ pset_wf p' /\
    ps_num p' = ps_num p /\ forall j, pset_at p' j = if j =? i then Some q else pset_at p j.
Proof.
  intros p i q r Hw Hr. destruct (store_local p i q r Hw Hr) as (p' & E & W & N & G).
  exists p'. split; [|auto]. unfold copy_to_generic in E.
  destruct (_ && _); [|discriminate].
  destruct (copy_all_values i (pset_of [q]) 0 p); cbn in E; [|discriminate]. congruence.
Qed.

Lemma in_set_spec : forall p i q o, pset_wf p -> pset_at p i = Some q ->
  match track q o with
  | Ok (q', o', st) => exists p', track_in_set track p i o = Ok (p', o', st) /\ pset_wf p' /\
      ps_num p' = ps_num p /\ (forall j, pset_at p' j = if j =? i then Some q' else pset_at p j) /\
      copy_to_generic p i (pset_of [q']) 0 = Some (p', SUCCESS)
  | Undef => track_in_set track p i o = Undef
  | NoFuel => track_in_set track p i o = NoFuel
  end.
Proof.
  intros p i q o Hw Hq. unfold track_in_set. rewrite Hq. cbn [of_opt bind].
  destruct (track q o) as [[[q' o'] st]| |]; cbn [bind]; try reflexivity.
  destruct (put_back p i q' q Hw Hq) as (p' & E & E2 & W & N & G). exists p'.
  rewrite E. cbn [of_opt bind]. auto.
Qed.

(* the set with one particle behaves like the particle itself *)
Lemma in_local_spec : forall q o,
  track_in_set track (pset_of [q]) 0 o =
  bind (track q o) (fun r => let '(q', o', st) := r in Ok (pset_of [q'], o', st)).
Proof.
  intros q o. pose proof (in_set_spec (pset_of [q]) 0 q o (pset_of_wf [q])) as H.
  rewrite pset_at_of in H. specialize (H eq_refl).
  destruct (track q o) as [[[q' o'] st]| |]; cbn [bind]; auto.
  destruct H as (p' & E & W & N & G & _). rewrite E. do 3 f_equal.
  apply pset_ext; [exact W|apply pset_of_wf|].
  intros j. rewrite G, !pset_at_of. destruct (Z.eqb_spec j 0) as [->|Hj]; [reflexivity|].
  rewrite !aget_none; [reflexivity| |]; cbn [length]; lia.
Qed.

(* one particle sets *)
Definition one_particle (l : pset T) : Prop := exists q, l = pset_of [q].

Lemma load_one : forall l p i q, one_particle l -> pset_wf p -> pset_at p i = Some q ->
  copy_from_generic l 0 p i = Some (pset_of [q], SUCCESS).
Proof.
  intros l p i q (q0 & ->) Hw Hq.
  destruct (copy_from_spec (pset_of [q0]) 0 p i q) as (d' & E' & W & N & G); auto;
    [apply pset_of_wf|cbn; lia|].
  rewrite E'. do 2 f_equal. apply pset_ext; [exact W|apply pset_of_wf|].
  intros j. rewrite G, !pset_at_of. destruct (Z.eqb_spec j 0) as [->|Hj]; [reflexivity|].
  rewrite !aget_none; [reflexivity| |]; cbn [length]; lia.
Qed.

Lemma local_one : exists l, local_set zero = Some l /\ one_particle l.
Proof.
  unfold local_set. destruct (flat_one (repeat zero 17) (repeat 0 4)) as (loc & q0 & E & Hq); auto.
  exists loc. split; [exact E|]. now exists q0.
Qed.

Lemma opt_eq_plain : forall fuel pidx stride l p o s,
  one_particle l -> pset_wf p -> 0 <= pidx -> 0 < stride ->
  opt_loop track fuel (ps_num p) pidx stride l p o s =
  plain_loop track fuel (ps_num p) pidx stride p o s.
Proof.
  induction fuel as [|fuel IH]; intros pidx stride l p o s Hl Hw Hi Hst; cbn [opt_loop plain_loop];
    destruct (Z.ltb_spec pidx (ps_num p)); try reflexivity.
  destruct (pset_at_some p pidx Hw) as (q & Hq); [lia|].
  rewrite (load_one l p pidx q Hl Hw Hq). cbn [of_opt bind]. rewrite in_local_spec.
  pose proof (in_set_spec p pidx q o Hw Hq) as H'.
  destruct (track q o) as [[[q' o'] st]| |]; cbn [bind]; [|now rewrite H'..].
  destruct H' as (p' & E & W & N & G & C). rewrite E, C. cbn [of_opt bind].
  unfold SUCCESS. rewrite !Z.lor_0_r. rewrite <- N. apply IH; auto; [now exists q'|lia].
Qed.

Theorem opt_kernel_eq : forall pidx stride p o, pset_wf p -> 0 <= pidx -> 0 < stride ->
  opt_kernel zero track pidx stride p o = plain_kernel track pidx stride p o.
Proof.
  intros pidx stride p o Hw Hi Hs. unfold opt_kernel, plain_kernel.
  destruct local_one as (l & E & Hl). rewrite E. cbn [of_opt bind]. now apply opt_eq_plain.
Qed.

(* which particles a kernel call visits *)
Definition visited (num pidx stride j : Z) : Prop :=
  pidx <= j < num /\ (j - pidx) mod stride = 0.

(* the run of one kernel call *)
Lemma plain_loop_spec : forall fuel pidx stride p o s p' o' s',
  pset_wf p -> 0 <= pidx -> 0 < stride ->
  plain_loop track fuel (ps_num p) pidx stride p o s = Ok (p', o', s') ->
  pset_wf p' /\ ps_num p' = ps_num p /\
  forall j,
    (visited (ps_num p) pidx stride j ->
       exists q q' o1 o2 st, pset_at p j = Some q /\ track q o1 = Ok (q', o2, st) /\
         pset_at p' j = Some q') /\
    (~ visited (ps_num p) pidx stride j -> pset_at p' j = pset_at p j).
Proof.
  induction fuel as [|fuel IH]; intros pidx stride p o s p' o' s' Hw Hi Hst; cbn [plain_loop];
    destruct (Z.ltb_spec pidx (ps_num p)); try discriminate.
  - intros [= <- <- <-]. split; [exact Hw|]. split; [reflexivity|]. intros j. split; [|auto].
    unfold visited; lia.
  - destruct (pset_at_some p pidx Hw) as (q & Hq); [lia|].
    pose proof (in_set_spec p pidx q o Hw Hq) as H'.
    destruct (track q o) as [[[q1 o1] st]| |] eqn:ET; [|rewrite H'; discriminate..].
    destruct H' as (p1 & E & W & N & G & _). rewrite E. cbn [bind]. rewrite <- N.
    intros R. apply IH in R as (W' & N' & J); [|exact W|lia|lia].
    split; [exact W'|]. split; [exact N'|]. intros j. destruct (J j) as (J1 & J2). clear J.
    assert (visited (ps_num p1) (pidx + stride) stride j -> visited (ps_num p) pidx stride j) as V1.
    { unfold visited. rewrite N. intros (V1 & V2). split; [lia|].
      replace (j - pidx) with (j - (pidx + stride) + 1 * stride) by lia.
      now rewrite Z_mod_plus_full. }
    assert (visited (ps_num p) pidx stride j -> j = pidx \/ visited (ps_num p1) (pidx + stride) stride j) as V2.
    { unfold visited. rewrite N. intros (V2 & V3). destruct (Z.eq_dec j pidx); [auto|]. right.
      apply Z_div_exact_full_2 in V3; [|lia].
      assert (0 < (j - pidx) / stride) by nia. split; [nia|].
      replace (j - (pidx + stride)) with (((j - pidx) / stride - 1) * stride) by lia.
      apply Z_mod_mult. }
    assert (~ visited (ps_num p1) (pidx + stride) stride pidx) as V0 by (unfold visited; lia).
    rewrite N. split.
    + intros V. destruct (V2 V) as [->|V'].
      * exists q, q1, o, o1, st. rewrite (J2 V0), G, Z.eqb_refl. auto.
      * destruct (J1 V') as (a & b & oo1 & oo2 & st' & A & B & C).
        rewrite G in A. destruct (Z.eqb_spec j pidx) as [->|]; [now exfalso; apply V0|].
        exists a, b, oo1, oo2, st'. auto.
    + intros V. rewrite J2 by (intros V'; apply V; auto). rewrite G.
      destruct (Z.eqb_spec j pidx) as [->|]; [|reflexivity].
      exfalso. apply V. unfold visited. rewrite Z.sub_diag. split; [lia|reflexivity].
  - intros [= <- <- <-]. split; [exact Hw|]. split; [reflexivity|]. intros j. split; [|auto].
    unfold visited; lia.
Qed.

Lemma plain_loop_nofuel : forall fuel pidx stride p o s, pset_wf p -> 0 <= pidx -> 0 < stride ->
  (forall q o, track q o <> NoFuel) -> (Z.to_nat (ps_num p - pidx) <= fuel)%nat ->
  plain_loop track fuel (ps_num p) pidx stride p o s <> NoFuel.
Proof.
  induction fuel as [|fuel IH]; intros pidx stride p o s Hw Hi Hst Ht Hf; cbn [plain_loop];
    destruct (Z.ltb_spec pidx (ps_num p)); try discriminate; [lia|].
  destruct (pset_at_some p pidx Hw) as (q & Hq); [lia|].
  pose proof (in_set_spec p pidx q o Hw Hq) as H'. specialize (Ht q o) as Hto.
  destruct (track q o) as [[[q1 o1] st]| |] eqn:ET; [|rewrite H'; discriminate|congruence].
  destruct H' as (p1 & E & W & N & G & _). rewrite E. cbn [bind]. rewrite <- N.
  apply IH; auto; lia.
Qed.

End K.

Section K2.
Context {T M : Type}.
Variable zero : T.
Variable track : particle T -> M -> res (particle T * M * Z).

Lemma launch_eq : forall stride items (p : pset T) (o : M) s, pset_wf p -> 0 < stride ->
  (forall i, In i items -> 0 <= i) ->
  launch (fun i => opt_kernel zero track i stride) items p o s =
  launch (fun i => plain_kernel track i stride) items p o s.
Proof.
  intros stride. induction items as [|i items IH]; intros p o s Hw Hs Hi; [reflexivity|].
  cbn [launch]. rewrite opt_kernel_eq; [|exact Hw|apply Hi; now left|exact Hs].
  destruct (plain_kernel track i stride p o) as [[[p1 o1] st]| |] eqn:E; cbn [bind]; auto.
  apply IH; auto; [|intros j Hj; apply Hi; now right].
  unfold plain_kernel in E. apply plain_loop_spec in E; [apply E|exact Hw|apply Hi; now left|exact Hs].
Qed.

(* on a buffer: a set index below the number of objects *)
Lemma buffer_kernel_eq : forall objs set pidx stride (o : M),
  (forall i (p : pset T), aget objs i = Some (Part p) -> pset_wf p) ->
  0 <= set < Z.of_nat (length objs) -> 0 <= pidx -> 0 < stride ->
  opt_buffer_kernel zero track objs set pidx stride o = plain_buffer_kernel track objs set pidx stride o.
Proof.
  intros objs set pidx stride o Hw Hset Hp Hs. unfold opt_buffer_kernel, plain_buffer_kernel, get_const_particles.
  destruct (Z.eqb_spec set (Z.of_nat (length objs))); [lia|].
  destruct (aget objs set) as [[p|]|] eqn:E.
  - rewrite opt_kernel_eq; [|eauto|exact Hp|exact Hs].
    destruct (Z.ltb_spec 0 (ps_num p)); cbn [of_opt bind]; [reflexivity|].
    unfold plain_kernel, steps.
    assert (Z.to_nat (ps_num p - pidx) = 0%nat) as -> by lia. cbn [plain_loop].
    destruct (Z.ltb_spec pidx (ps_num p)); [lia|]. cbn [bind]. do 3 f_equal. unfold put_obj.
    apply upd_id. unfold aget in E. destruct (0 <=? set); [exact E|discriminate].
  - reflexivity.
  - exfalso. unfold aget in E. destruct (Z.leb_spec 0 set); [|lia]. apply nth_error_None in E. lia.
Qed.

(* the debug kernel with all checks passed *)
Lemma debug_runs : forall (opt : bool) objs set pidx stride slot (o : M) mf,
  (forall i (p : pset T), aget objs i = Some (Part p) -> pset_wf p) ->
  0 <= set < Z.of_nat (length objs) -> 0 <= pidx -> 0 < stride -> 0 < slot ->
  (exists p, aget objs set = Some (Part p) /\ 0 < ps_num p) ->
  debug_kernel zero track opt (Some (false, objs)) (Some false) true true mf set pidx stride slot o =
  bind (plain_buffer_kernel track objs set pidx stride o) (fun r => let '(objs', o', st) := r in
    debug_result (Some objs', o') st 0).
Proof.
  intros opt objs set pidx stride slot o mf Hw Hset Hp Hs Hsl (p & Ep & Np). unfold debug_kernel.
  destruct (Z.ltb_spec 0 slot); [|lia]. destruct (Z.leb_spec 0 pidx); [|lia].
  destruct (Z.ltb_spec 0 stride); [|lia]. cbn [andb negb].
  unfold get_const_particles. destruct (Z.eqb_spec set (Z.of_nat (length objs))); [lia|].
  rewrite Ep. destruct (Z.ltb_spec 0 (ps_num p)); [|lia].
  destruct opt; cbn [of_opt bind andb]; [rewrite buffer_kernel_eq by auto|]; reflexivity.
Qed.

(* the debug kernel with a failed check: nothing is tracked, the status is failure *)
Lemma debug_rejects : forall (opt : bool) pb be cfg_ok args_ok mf set pidx stride slot (o : M) r,
  debug_kernel zero track opt pb be cfg_ok args_ok mf set pidx stride slot o = Ok r ->
  (pb = None \/ be = None \/ slot <= 0 \/ cfg_ok = false \/ pidx < 0 \/ stride <= 0 \/
   (exists objs, pb = Some (true, objs)) \/ be = Some true \/ args_ok = false) ->
  exists flags, r = (match pb with Some (_, objs) => Some objs | None => None end, o, -1, flags).
Proof.
  intros opt pb be cfg_ok args_ok mf set pidx stride slot o r E H.
  assert (forall (a : option (list (pobj T)) * M) fl r, debug_result a (-1) fl = Ok r ->
    exists fl', r = (a, -1, fl')) as D.
  { intros a fl r0. unfold debug_result. cbn [Z.eqb]. destruct (store_arch_status fl (-1)); [|discriminate].
    cbn. intros [= <-]. eauto. }
  unfold debug_kernel in E. destruct pb as [[pr objs]|]; [|destruct be; apply D in E as (fl & ->); eauto].
  destruct be as [br|]; [|apply D in E as (fl & ->); eauto].
  destruct ((0 <? slot) && cfg_ok && (0 <=? pidx) && (0 <? stride)) eqn:Eo.
  - apply andb_true_iff in Eo as (Eo & O4). apply andb_true_iff in Eo as (Eo & O3).
    apply andb_true_iff in Eo as (O1 & O2). apply Z.ltb_lt in O1, O4. apply Z.leb_le in O3.
    match type of E with bind ?x _ = _ => destruct x as [ok| |]; cbn [bind] in E; try discriminate end.
    assert (negb pr && negb br && ok && args_ok = false) as F.
    { destruct H as [H|[H|[H|[H|[H|[H|[(x & H)|[H|H]]]]]]]]; try discriminate; try lia; try congruence.
      - injection H as -> _. reflexivity.
      - injection H as ->. now rewrite andb_false_r.
      - rewrite H. now rewrite !andb_false_r. }
    rewrite F in E. apply D in E as (fl & ->). eauto.
  - apply D in E as (fl & ->). eauto.
Qed.
End K2.
