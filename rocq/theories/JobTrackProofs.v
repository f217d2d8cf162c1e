(* Proofs about the particle sets of a job. *)
From Coq Require Import ZArith List Bool Lia Sorted.
From Verif Require Import Num Particle Elements EbeConfig Track ParticleSet ParticleSetProofs ParticleIds Output
  Kernels KernelsProofs ThreadsSpec Threads ThreadsProofs ThreadsLaunch TrackSpec TrackProofs DispatchProofs JobTrack JobTrackSpec Tac.
Import ListNotations.
Local Open Scope Z_scope.

(* ---------------- sorting ---------------- *)

Lemma insert_in : forall x l y, In y (insert x l) <-> y = x \/ In y l.
Proof.
  induction l as [|z l IH]; intros y; cbn [insert]; [cbn; intuition|].
  destruct (x <=? z); cbn [In]; [intuition|]. rewrite IH. intuition.
Qed.

Lemma sort_in : forall l y, In y (sort l) <-> In y l.
Proof. induction l as [|x l IH]; intros y; cbn [sort]; [tauto|]. rewrite insert_in, IH. cbn. intuition. Qed.

Lemma insert_sorted : forall x l, StronglySorted Z.le l -> StronglySorted Z.le (insert x l).
Proof.
  induction l as [|z l IH]; intros H; cbn [insert]; [repeat constructor|].
  inversion H as [|? ? Hl Hz]; subst.
  destruct (Z.leb_spec x z); [constructor; [exact H|constructor; [lia|]]|constructor; [auto|]].
  - rewrite Forall_forall in *. intros y Hy. specialize (Hz y Hy). lia.
  - apply Forall_forall. intros y Hy. apply insert_in in Hy. rewrite Forall_forall in Hz.
    destruct Hy as [->|Hy]; [lia|auto].
Qed.

Lemma sort_sorted : forall l, StronglySorted Z.le (sort l).
Proof. induction l as [|x l IH]; cbn [sort]; [constructor|]. now apply insert_sorted. Qed.

Lemma unique_in : forall l y, In y (unique l) <-> In y l.
Proof.
  induction l as [|x l IH]; intros y; cbn [unique]; [tauto|].
  specialize (IH y). destruct (unique l) as [|z r] eqn:E; [cbn [In] in *; tauto|].
  cbn [In] in *. destruct (Z.eqb_spec x z) as [->|]; cbn [In]; rewrite <- IH; intuition.
Qed.

Lemma unique_sorted : forall l, StronglySorted Z.le l -> StronglySorted Z.lt (unique l).
Proof.
  induction 1 as [|x l Hs IH Hx]; cbn [unique]; [constructor|].
  assert (forall y, In y (unique l) -> x <= y) as Hx'.
  { intros y Hy. rewrite Forall_forall in Hx. apply Hx. now apply unique_in. }
  destruct (unique l) as [|z r]; [repeat constructor|].
  destruct (Z.eqb_spec x z) as [->|Hne]; [exact IH|]. constructor; [exact IH|].
  pose proof (Hx' z (or_introl eq_refl)). inversion IH as [|? ? Hr Hz]; subst.
  constructor; [lia|]. rewrite Forall_forall in *. intros y Hy. specialize (Hz y Hy). lia.
Qed.

Lemma ss_lt_nodup : forall l, StronglySorted Z.lt l -> NoDup l.
Proof.
  induction 1 as [|x l Hs IH Hx]; constructor; auto. intros Hi. rewrite Forall_forall in Hx.
  specialize (Hx x Hi). lia.
Qed.

(* ---------------- the loop over the objects ---------------- *)

Section S.
Context {T : Type}.
Implicit Types (objs : list (pobj T)).

Definition seen_total objs : Z := fold_right Z.add 0 (map (@seen_num T) objs).
Definition sum (l : list Z) : Z := fold_right Z.add 0 l.

Lemma sets_loop_spec : forall objs ii it acc run tot,
  StronglySorted Z.lt it -> (forall i, In i it -> ii <= i) ->
  exists sel, sets_loop objs ii it acc run tot = (acc ++ sel, run + seen_total objs, tot + sum (map (fun a => snd a - snd (fst a)) sel)) /\
    StronglySorted Z.lt (map (fun a => fst (fst a)) sel) /\
    (forall i b e, In (i, b, e) sel <-> In i it /\ ii <= i < ii + Z.of_nat (length objs) /\
       exists ob n, nth_error objs (Z.to_nat (i - ii)) = Some ob /\ seen ob = Some n /\
         b = run + seen_total (firstn (Z.to_nat (i - ii)) objs) /\ e = b + n).
Proof.
  induction objs as [|ob objs IH]; intros ii it acc run tot Hs Hge; cbn [sets_loop].
  - exists []. split; [unfold seen_total, sum; cbn; rewrite app_nil_r, !Z.add_0_r; reflexivity|].
    split; [constructor|]. intros i b e. cbn [In length]. split; [tauto|lia].
  - assert (Hrun : (match seen ob with Some n => run + n | None => run end) = run + seen_num ob).
    { unfold seen_num. destruct (seen ob); lia. }
    assert (Htot : run + seen_num ob + seen_total objs = run + seen_total (ob :: objs)).
    { unfold seen_total. cbn [map fold_right]. lia. }
    rewrite Hrun.
    destruct it as [|i it].
    + destruct (IH (ii + 1) [] acc (run + seen_num ob) tot) as (sel & E & S1 & S2); [constructor|intros ? []|].
      rewrite E. exists sel. rewrite Htot. split; [reflexivity|]. split; [exact S1|].
      intros i b e. rewrite S2. cbn [In]. tauto.
    + inversion Hs as [|? ? Hs' Hlt]; subst. rewrite Forall_forall in Hlt.
      pose proof (Hge i (or_introl eq_refl)) as Hi.
      assert (Hstep : forall j, ii + 1 <= j -> nth_error (ob :: objs) (Z.to_nat (j - ii)) = nth_error objs (Z.to_nat (j - (ii + 1))) /\
                firstn (Z.to_nat (j - ii)) (ob :: objs) = ob :: firstn (Z.to_nat (j - (ii + 1))) objs).
      { intros j Hj. replace (Z.to_nat (j - ii)) with (S (Z.to_nat (j - (ii + 1)))) by lia. split; reflexivity. }
      destruct (Z.eqb_spec ii i) as [<-|Hne].
      * (* this object is asked for *)
        assert (Hge' : forall j, In j it -> ii + 1 <= j) by (intros j Hj; specialize (Hlt j Hj); lia).
        destruct (seen ob) as [n|] eqn:En.
        -- destruct (IH (ii + 1) it (acc ++ [(ii, run, run + n)]) (run + seen_num ob) (tot + n) Hs' Hge') as (sel & E & S1 & S2).
           rewrite E. exists ((ii, run, run + n) :: sel). rewrite Htot.
           split; [rewrite <- app_assoc; cbn [app map fst snd]; f_equal; unfold sum; cbn [fold_right]; lia|].
           split.
           { cbn [map fst]. constructor; [exact S1|]. rewrite Forall_forall. intros j Hj.
             apply in_map_iff in Hj as (((j', b) & e) & <- & Hj). apply S2 in Hj. cbn [fst]. lia. }
           intros j b e. cbn [In]. rewrite S2. split.
           ++ intros [Heq|(H1 & H2 & ob' & n' & A & B & C & D)].
              ** assert (j = ii /\ b = run /\ e = run + n) as (-> & -> & ->) by (repeat split; congruence).
                 split; [auto|]. split; [cbn [length]; lia|]. exists ob, n. rewrite Z.sub_diag. cbn [Z.to_nat nth_error firstn].
                 repeat split; auto. unfold seen_total. cbn. lia.
              ** destruct (Hstep j ltac:(lia)) as (X1 & X2). split; [auto|]. split; [cbn [length]; lia|].
                 exists ob', n'. rewrite X1, X2. repeat split; auto. rewrite C. unfold seen_total. cbn [map fold_right]. lia.
           ++ intros ([Hj|Hj] & H2 & ob' & n' & A & B & C & D).
              ** subst j. left. rewrite Z.sub_diag in A, C. cbn [Z.to_nat nth_error firstn] in A, C. unfold seen_total in C.
                 cbn in C. assert (n' = n) by congruence. subst. f_equal; [f_equal; lia|lia].
              ** right. destruct (Hstep j (Hge' j Hj)) as (X1 & X2). rewrite X1 in A. rewrite X2 in C.
                 split; [exact Hj|]. split; [pose proof (Hge' j Hj); cbn [length] in H2; lia|].
                 exists ob', n'. repeat split; auto. rewrite C. unfold seen_total. cbn [map fold_right]. lia.
        -- destruct (IH (ii + 1) it acc (run + seen_num ob) tot Hs' Hge') as (sel & E & S1 & S2).
           rewrite E. exists sel. rewrite Htot. split; [reflexivity|]. split; [exact S1|].
           intros j b e. rewrite S2. cbn [In]. split.
           ++ intros (H1 & H2 & ob' & n' & A & B & C & D). destruct (Hstep j ltac:(lia)) as (X1 & X2).
              split; [auto|]. split; [cbn [length]; lia|]. exists ob', n'. rewrite X1, X2. repeat split; auto.
              rewrite C. unfold seen_total. cbn [map fold_right]. lia.
           ++ intros ([Hj|Hj] & H2 & ob' & n' & A & B & C & D).
              ** subst j. rewrite Z.sub_diag in A. cbn [Z.to_nat nth_error] in A. congruence.
              ** destruct (Hstep j (Hge' j Hj)) as (X1 & X2). rewrite X1 in A. rewrite X2 in C.
                 split; [exact Hj|]. split; [pose proof (Hge' j Hj); cbn [length] in H2; lia|].
                 exists ob', n'. repeat split; auto. rewrite C. unfold seen_total. cbn [map fold_right]. lia.
      * assert (Hge' : forall j, In j (i :: it) -> ii + 1 <= j).
        { intros j [<-|Hj]; [lia|]. specialize (Hlt j Hj). lia. }
        destruct (IH (ii + 1) (i :: it) acc (run + seen_num ob) tot Hs Hge') as (sel & E & S1 & S2).
        rewrite E. exists sel. rewrite Htot. split; [reflexivity|]. split; [exact S1|].
        intros j b e. rewrite S2. split.
        -- intros (H1 & H2 & ob' & n' & A & B & C & D). destruct (Hstep j ltac:(lia)) as (X1 & X2).
           split; [auto|]. split; [cbn [length]; lia|]. exists ob', n'. rewrite X1, X2. repeat split; auto.
           rewrite C. unfold seen_total. cbn [map fold_right]. lia.
        -- intros (H1 & H2 & ob' & n' & A & B & C & D). destruct (Hstep j (Hge' j H1)) as (X1 & X2).
           rewrite X1 in A. rewrite X2 in C. split; [exact H1|].
           split; [pose proof (Hge' j H1); cbn [length] in H2; lia|].
           exists ob', n'. repeat split; auto. rewrite C. unfold seen_total. cbn [map fold_right]. lia.
Qed.

Lemma proper_tail : forall ob objs, proper (ob :: objs) -> proper objs.
Proof.
  intros ob objs H i p Hi. destruct (Z_lt_dec i 0).
  - unfold aget in Hi. destruct (Z.leb_spec 0 i); [lia|discriminate].
  - apply (H (i + 1) p). unfold aget in *. rewrite (proj2 (Z.leb_le 0 (i + 1))) by lia.
    rewrite (proj2 (Z.leb_le 0 i)) in Hi by lia.
    replace (Z.to_nat (i + 1)) with (S (Z.to_nat i)) by lia. exact Hi.
Qed.

Lemma wf_num : forall (p : pset T), pset_wf p -> 0 <= ps_num p.
Proof. intros p H. destruct (wf_pset_of p H) as (l & ->). rewrite pset_of_num. lia. Qed.

Lemma seen_particles : forall objs, proper objs -> seen_total objs = particles_in objs.
Proof.
  induction objs as [|ob objs IH]; intros H; [reflexivity|].
  specialize (IH (proper_tail _ _ H)). unfold seen_total, particles_in in *. cbn [map fold_right]. rewrite IH. f_equal.
  unfold seen_num, seen. destruct ob as [p|]; [|reflexivity].
  pose proof (wf_num p (H 0 p eq_refl)). destruct (Z.ltb_spec 0 (ps_num p)); lia.
Qed.

Lemma proper_firstn : forall n objs, proper objs -> proper (firstn n objs).
Proof.
  induction n as [|n IH]; intros objs H.
  - intros i p Hi. cbn [firstn] in Hi. unfold aget in Hi. destruct (0 <=? i); [|discriminate].
    destruct (Z.to_nat i); discriminate.
  - destruct objs as [|ob objs]; [exact H|]. cbn [firstn]. intros i p Hi.
    unfold aget in Hi. destruct (Z.leb_spec 0 i); [|discriminate].
    destruct (Z.to_nat i) as [|k] eqn:Ek; cbn [nth_error] in Hi.
    + apply (H 0 p). exact Hi.
    + apply (IH objs (proper_tail _ _ H) (Z.of_nat k) p). rewrite aget_nth. exact Hi.
Qed.

Lemma seen_holds : forall objs i, proper objs -> 
  (exists ob n, 0 <= i /\ nth_error objs (Z.to_nat i) = Some ob /\ seen ob = Some n) <->
  (exists ps, ps <> [] /\ holds objs i ps).
Proof.
  intros objs i Hp. split.
  - intros (ob & n & Hi & A & B). destruct ob as [p|]; [|discriminate]. unfold seen in B.
    destruct (Z.ltb_spec 0 (ps_num p)); [|discriminate].
    assert (aget objs i = Some (Part p)) as G. { unfold aget. now rewrite (proj2 (Z.leb_le 0 i)) by lia. }
    destruct (wf_pset_of p (Hp i p G)) as (ps & ->). exists ps. split; [|exact G].
    intros ->. rewrite pset_of_num in *. cbn in *. lia.
  - intros (ps & Hne & H). unfold holds, aget in H. destruct (Z.leb_spec 0 i); [|discriminate].
    exists (Part (pset_of ps)), (Z.of_nat (length ps)). split; [lia|]. split; [exact H|].
    unfold seen. rewrite pset_of_num. destruct ps; [congruence|]. cbn [length].
    now rewrite (proj2 (Z.ltb_lt 0 _)) by lia.
Qed.

Lemma stored_none : forall objs, stored_sets objs <= 0 -> forall ob, In ob objs -> seen ob = None.
Proof.
  assert (forall objs, 0 <= stored_sets objs) as Hnn.
  { induction objs as [|ob objs IH]; cbn [stored_sets]; [lia|]. destruct (seen ob); lia. }
  induction objs as [|ob objs IH]; intros H o' Hi; [destruct Hi|].
  cbn [stored_sets] in H. specialize (Hnn objs). destruct Hi as [->|Hi].
  - destruct (seen o'); [lia|reflexivity].
  - apply IH; [destruct (seen ob); lia|exact Hi].
Qed.

(* what set_sets does *)
Lemma set_sets_spec : forall s idx objs s' st, proper objs -> (forall i, In i idx -> 0 <= i) ->
  set_sets s idx objs = (s', st) ->
  exists sel, q_idx s' = map (fun a => fst (fst a)) sel /\ q_begin s' = map (fun a => snd (fst a)) sel /\
    q_end s' = map snd sel /\ StronglySorted Z.lt (q_idx s') /\
    (forall i b e, In (i, b, e) sel <-> In i idx /\ exists ps, ps <> [] /\ holds objs i ps /\
       b = particles_in (firstn (Z.to_nat i) objs) /\ e = b + Z.of_nat (length ps)) /\
    (st = SUCCESS <-> sel <> []) /\
    (st = SUCCESS -> q_total s' = particles_in objs /\ q_total_in_sets s' = sum (map (fun a => snd a - snd (fst a)) sel) /\
       q_in_buffer s' = stored_sets objs).
Proof.
  intros s idx objs s' st Hp Hidx. unfold set_sets.
  assert (Hnone : (0 <? Z.of_nat (length objs)) && (0 <? stored_sets objs) = false ->
    forall i ps, ps <> [] -> ~ holds objs i ps).
  { intros E i ps Hne H. destruct (proj2 (seen_holds objs i Hp)) as (ob & n & Hi & A & B); [exists ps; auto|].
    apply andb_false_iff in E as [E|E]; apply Z.ltb_ge in E.
    - destruct objs; [|cbn [length] in E; lia]. destruct (Z.to_nat i); discriminate.
    - pose proof (stored_none _ E ob (nth_error_In _ _ A)). congruence. }
  destruct ((0 <? Z.of_nat (length objs)) && (0 <? stored_sets objs)) eqn:E0.
  2:{ intros [= <- <-]. exists []. cbn [q_idx q_begin q_end map]. repeat (split; [reflexivity|]). split; [constructor|].
      split; [|split; [split; [discriminate|congruence]|discriminate]].
      intros i b e. split; [intros []|]. intros (_ & ps & Hne & H & _). exfalso. eapply (Hnone eq_refl); eauto. }
  pose proof (unique_sorted _ (sort_sorted idx)) as Us.
  assert (Uin : forall y, In y (unique (sort idx)) <-> In y idx) by (intros y; now rewrite unique_in, sort_in).
  destruct (unique (sort idx)) as [|u0 us] eqn:Eu.
  { intros [= <- <-]. exists []. cbn [q_idx q_begin q_end map]. repeat (split; [reflexivity|]). split; [constructor|].
    split; [|split; [split; [discriminate|congruence]|discriminate]].
    intros i b e. split; [intros []|]. intros (Hi & _). apply Uin in Hi. destruct Hi. }
  destruct (sets_loop_spec objs 0 (u0 :: us) [] 0 0 Us) as (sel & E & S1 & S2).
  { intros i Hi. apply Hidx. now apply Uin. }
  rewrite E. cbn [app]. intros H.
  assert (s' = mkPsets (map (fun a => fst (fst a)) sel) (map (fun a => snd (fst a)) sel) (map snd sel)
         (stored_sets objs) (0 + seen_total objs) (0 + sum (map (fun a => snd a - snd (fst a)) sel)) /\
       st = match sel with [] => FAILURE | _ => SUCCESS end) as (-> & ->) by (split; congruence).
  exists sel. cbn [q_idx q_begin q_end q_total q_total_in_sets q_in_buffer]. repeat (split; [reflexivity|]).
  split; [exact S1|]. split; [|split].
  - intros i b e. rewrite S2, Uin. rewrite Z.sub_0_r. split.
    + intros (Hi & Hr & ob & n & A & B & C & D). split; [exact Hi|].
      destruct (proj1 (seen_holds objs i Hp)) as (ps & Hne & Hh); [exists ob, n; split; [lia|auto]|].
      exists ps. split; [exact Hne|]. split; [exact Hh|].
      rewrite seen_particles in C by now apply proper_firstn. split; [lia|]. rewrite D. f_equal.
      unfold holds, aget in Hh. rewrite (proj2 (Z.leb_le 0 i)) in Hh by lia. rewrite Hh in A.
      assert (ob = Part (pset_of ps)) by congruence. subst ob. unfold seen in B. rewrite pset_of_num in B.
      destruct (0 <? Z.of_nat (length ps)); congruence.
    + intros (Hi & ps & Hne & Hh & Hb & He). split; [exact Hi|].
      destruct (proj2 (seen_holds objs i Hp)) as (ob & n & H0 & A & B); [eauto|].
      split. { split; [lia|]. assert (Z.to_nat i < length objs)%nat by (apply nth_error_Some; congruence). lia. }
      exists ob, n. repeat split; auto.
      * rewrite seen_particles by now apply proper_firstn. lia.
      * rewrite He. f_equal. unfold holds, aget in Hh. rewrite (proj2 (Z.leb_le 0 i)) in Hh by lia. rewrite Hh in A.
        assert (ob = Part (pset_of ps)) by congruence. subst ob. unfold seen in B. rewrite pset_of_num in B.
        destruct (0 <? Z.of_nat (length ps)); [|discriminate]. congruence.
  - destruct sel; split; intros; try congruence; try discriminate.
  - intros _. rewrite seen_particles by auto. repeat split; lia.
Qed.

(* ---------------- tracking, one particle after the other ---------------- *)

Section Seq.
Context {M : Type} (track : particle T -> M -> res (particle T * M * Z)).

Fixpoint seq (ps : list (particle T)) (o : M) (s : Z) : res (list (particle T) * M * Z) :=
  match ps with
  | [] => Ok ([], o, s)
  | p :: rest =>
    bind (track p o) (fun r => let '(p, o, st) := r in
    bind (seq rest o (Z.lor s st)) (fun r => let '(rest, o, s) := r in Ok (p :: rest, o, s)))
  end.

Lemma seq_app : forall ps qs o s, seq (ps ++ qs) o s =
  bind (seq ps o s) (fun r => let '(ps', o, s) := r in
  bind (seq qs o s) (fun r => let '(qs', o, s) := r in Ok (ps' ++ qs', o, s))).
Proof.
  induction ps as [|p ps IH]; intros qs o s; cbn [seq app bind].
  - destruct (seq qs o s) as [[[qs' o'] s']| |]; reflexivity.
  - destruct (track p o) as [[[p' o'] st]| |]; cbn [bind]; auto. rewrite IH.
    destruct (seq ps o' (Z.lor s st)) as [[[ps' o1] s1]| |]; cbn [bind]; auto.
    destruct (seq qs o1 s1) as [[[qs' o2] s2]| |]; reflexivity.
Qed.

Lemma seq_status : forall ps o s, seq ps o s =
  bind (seq ps o 0) (fun r => let '(ps', o, st) := r in Ok (ps', o, Z.lor s st)).
Proof.
  induction ps as [|p ps IH]; intros o s; cbn [seq bind].
  - now rewrite Z.lor_0_r.
  - destruct (track p o) as [[[p' o'] st]| |]; cbn [bind]; auto.
    rewrite (IH o' (Z.lor s st)), (IH o' (Z.lor 0 st)), Z.lor_0_l.
    destruct (seq ps o' 0) as [[[ps' o1] s1]| |]; cbn [bind]; auto. now rewrite Z.lor_assoc.
Qed.

Lemma seq_length : forall ps o s ps' o' s', seq ps o s = Ok (ps', o', s') -> length ps' = length ps.
Proof.
  induction ps as [|p ps IH]; intros o s ps' o' s'; cbn [seq].
  - now intros [= <- _ _].
  - destruct (track p o) as [[[p1 o1] st]| |]; cbn [bind]; try discriminate.
    destruct (seq ps o1 (Z.lor s st)) as [[[ps1 o2] s2]| |] eqn:E; cbn [bind]; try discriminate.
    intros [= <- _ _]. cbn [length]. f_equal. eauto.
Qed.

Lemma in_set_list' : forall ps i p (o : M), nth_error ps i = Some p ->
  track_in_set track (pset_of ps) (Z.of_nat i) o =
  bind (track p o) (fun r => let '(p', o', st) := r in Ok (pset_of (upd ps i p'), o', st)).
Proof.
  intros ps i p o Hp.
  pose proof (in_set_spec track (pset_of ps) (Z.of_nat i) p o (pset_of_wf ps)) as H.
  rewrite pset_at_of, aget_nth in H. specialize (H Hp).
  destruct (track p o) as [[[p' o'] st]| |]; cbn [bind]; auto.
  destruct H as (s' & E & W & Nn & G & _). rewrite E. do 3 f_equal.
  apply pset_ext; [exact W|apply pset_of_wf|].
  intros j. rewrite G, !pset_at_of. destruct (Z.eqb_spec j (Z.of_nat i)) as [->|Hj].
  - rewrite aget_nth. symmetry. apply upd_same. apply nth_error_Some. congruence.
  - destruct (Z_le_gt_dec 0 j).
    + rewrite <- (Z2Nat.id j) by lia. rewrite !aget_nth. symmetry. apply upd_other. lia.
    + unfold aget. destruct (Z.leb_spec 0 j); [lia|reflexivity].
Qed.

Lemma upd_mid : forall (l : list (particle T)) p r q, upd (l ++ p :: r) (length l) q = l ++ q :: r.
Proof. induction l as [|x l IH]; intros p r q; cbn [app length upd]; [reflexivity|]. now rewrite IH. Qed.

Lemma plain_loop_seq : forall ps before fuel o s, (length ps <= fuel)%nat ->
  plain_loop track fuel (Z.of_nat (length (before ++ ps))) (Z.of_nat (length before)) 1 (pset_of (before ++ ps)) o s =
  bind (seq ps o s) (fun r => let '(ps', o, s) := r in Ok (pset_of (before ++ ps'), o, s)).
Proof.
  induction ps as [|p ps IH]; intros before fuel o s Hf.
  - rewrite app_nil_r. cbn [seq bind]. destruct fuel; cbn [plain_loop]; rewrite Z.ltb_irrefl; now rewrite app_nil_r.
  - destruct fuel as [|fuel]; [cbn [length] in Hf; lia|]. cbn [plain_loop seq].
    rewrite (proj2 (Z.ltb_lt _ _)) by (rewrite app_length; cbn [length]; lia).
    rewrite (in_set_list' (before ++ p :: ps) (length before) p o)
      by (rewrite nth_error_app2, Nat.sub_diag by lia; reflexivity).
    destruct (track p o) as [[[p' o'] st]| |]; cbn [bind]; auto.
    rewrite upd_mid. replace (before ++ p' :: ps) with ((before ++ [p']) ++ ps) by now rewrite <- app_assoc.
    replace (length (before ++ p :: ps)) with (length ((before ++ [p']) ++ ps))
      by (rewrite !app_length; cbn [length]; lia).
    replace (Z.of_nat (length before) + 1) with (Z.of_nat (length (before ++ [p'])))
      by (rewrite app_length; cbn [length]; lia).
    rewrite IH by (cbn [length] in Hf; lia).
    destruct (seq ps o' (Z.lor s st)) as [[[ps' o1] s1]| |]; cbn [bind]; auto. now rewrite <- app_assoc.
Qed.

Lemma plain_kernel_seq : forall ps o, plain_kernel track 0 1 (pset_of ps) o =
  bind (seq ps o 0) (fun r => let '(ps', o, s) := r in Ok (pset_of ps', o, s)).
Proof.
  intros ps o. unfold plain_kernel, steps. rewrite pset_of_num.
  apply (plain_loop_seq ps [] (Z.to_nat (Z.of_nat (length ps) - 0)) o 0). lia.
Qed.

Lemma kernel_seq : forall objs i ps o, holds objs i ps -> ps <> [] ->
  plain_buffer_kernel track objs i 0 1 o =
  bind (seq ps o 0) (fun r => let '(ps', o, s) := r in Ok (put_obj objs i (pset_of ps'), o, s)).
Proof.
  intros objs i ps o Hh Hne. unfold plain_buffer_kernel, get_const_particles.
  assert (0 <= i < Z.of_nat (length objs)) as Hi.
  { unfold holds, aget in Hh. destruct (Z.leb_spec 0 i); [|discriminate].
    assert (Z.to_nat i < length objs)%nat by (apply nth_error_Some; congruence). lia. }
  rewrite (proj2 (Z.eqb_neq i _)) by lia. unfold holds in Hh. rewrite Hh, pset_of_num.
  destruct ps as [|p0 ps0]; [congruence|]. rewrite (proj2 (Z.ltb_lt 0 _)) by (cbn [length]; lia).
  cbn [of_opt bind]. rewrite plain_kernel_seq.
  destruct (seq (p0 :: ps0) o 0) as [[[ps' o'] s]| |]; reflexivity.
Qed.

Lemma put_same : forall objs i ps ps', holds objs i ps -> holds (put_obj objs i (pset_of ps')) i ps'.
Proof.
  intros objs i ps ps' Hh. unfold holds, put_obj in *. unfold aget in *. destruct (Z.leb_spec 0 i); [|discriminate].
  apply upd_same. apply nth_error_Some. congruence.
Qed.
Lemma put_other : forall objs i j p, 0 <= i -> i <> j -> aget (put_obj objs i p) j = aget objs j.
Proof.
  intros objs i j p Hi Hne. unfold put_obj, aget. destruct (Z.leb_spec 0 j); [|reflexivity].
  apply upd_other. lia.
Qed.
Lemma put_length : forall objs i p, length (put_obj objs i p) = length objs.
Proof. intros. apply upd_length. Qed.

Lemma cpu_track_sets : forall sets objs o, sets <> [] -> cpu_track track sets objs o = track_sets track sets objs o 0.
Proof.
  intros [|i [|j r]] objs o H; [congruence| |reflexivity]. cbn [cpu_track track_sets].
  destruct (plain_buffer_kernel track objs i 0 1 o) as [[[objs' o'] s]| |]; cbn [bind]; auto.
Qed.

Lemma holds_nonneg : forall objs i ps, holds objs i ps -> 0 <= i.
Proof. intros objs i ps H. unfold holds, aget in H. destruct (Z.leb_spec 0 i); [auto|discriminate]. Qed.

Lemma track_sets_frame : forall sets objs o s objs' o' s', (forall k, In k sets -> 0 <= k) ->
  track_sets track sets objs o s = Ok (objs', o', s') ->
  length objs' = length objs /\ forall j, ~ In j sets -> aget objs' j = aget objs j.
Proof.
  induction sets as [|k sets IH]; intros objs o s objs' o' s' Hk; cbn [track_sets].
  - now intros [= <- _ _].
  - unfold plain_buffer_kernel. destruct (get_const_particles objs k) as [[p|]|]; cbn [of_opt bind]; try discriminate.
    + destruct (plain_kernel track 0 1 p o) as [[[p' o1] s1]| |]; cbn [bind]; try discriminate.
      intros E. apply IH in E as (E1 & E2); [|intros; apply Hk; now right].
      rewrite put_length in E1. split; [exact E1|]. intros j Hj. rewrite E2 by (intros Hx; apply Hj; now right).
      apply put_other; [apply Hk; now left|]. intros ->. apply Hj. now left.
    + intros E. apply IH in E as (E1 & E2); [|intros; apply Hk; now right]. split; [exact E1|].
      intros j Hj. apply E2. intros Hx. apply Hj. now right.
Qed.

(* all sets in a row *)
Lemma track_sets_seq : forall sets objs ps o s, NoDup sets -> members objs sets ps ->
  match seq ps o s with
  | Ok (ps', o', s') => exists objs', track_sets track sets objs o s = Ok (objs', o', s') /\ members objs' sets ps'
  | Undef => track_sets track sets objs o s = Undef
  | NoFuel => track_sets track sets objs o s = NoFuel
  end.
Proof.
  intros sets objs ps o s Hnd Hm. revert o s Hnd.
  assert (Hmono : forall sets objs objs' qs, members objs sets qs -> (forall i, In i sets -> aget objs' i = aget objs i) ->
    members objs' sets qs).
  { intros sets1 objs1 objs2 qs H. induction H as [|i ps1 rest qs Hh Hne Hm' IH]; intros He; [constructor|].
    constructor; [|exact Hne|].
    - unfold holds. rewrite He by (now left). exact Hh.
    - apply IH. intros j Hj. apply He. now right. }
  revert objs ps Hm. induction sets as [|i sets IH]; intros objs ps Hm o s Hnd; inversion Hm as [|? psi ? qs Hh Hne Hm']; subst.
  - cbn [seq track_sets]. exists objs. split; [reflexivity|constructor].
  - inversion Hnd as [|? ? Hni Hnd']; subst. rewrite seq_app, seq_status. cbn [track_sets].
    rewrite (kernel_seq objs i psi o Hh Hne).
    destruct (seq psi o 0) as [[[ps1 o1] s1]| |] eqn:E1; cbn [bind]; auto.
    assert (Hm2 : members (put_obj objs i (pset_of ps1)) sets qs).
    { apply (Hmono sets objs); [exact Hm'|]. intros j Hj. apply put_other; [eapply holds_nonneg; eauto|].
      intros ->. contradiction. }
    specialize (IH (put_obj objs i (pset_of ps1)) qs Hm2 o1 (Z.lor s s1) Hnd').
    destruct (seq qs o1 (Z.lor s s1)) as [[[qs' o2] s2]| |]; cbn [bind]; auto.
    destruct IH as (objs' & E2 & Hm3). exists objs'. split; [exact E2|]. constructor.
    + (* object i is not touched again *)
      assert (Hk0 : forall k, In k sets -> 0 <= k).
      { intros k Hk. clear - Hm' Hk. induction Hm' as [|j ps rest qs Hh _ Hm' IH]; [destruct Hk|].
      destruct Hk as [<-|Hk]; [eapply holds_nonneg; eauto|auto]. }
      unfold holds. rewrite (proj2 (track_sets_frame _ _ _ _ _ _ _ Hk0 E2) i Hni). exact (put_same _ _ _ ps1 Hh).
    + pose proof (seq_length _ _ _ _ _ _ E1) as El. intros ->. destruct psi; [congruence|discriminate].
    + exact Hm3.
Qed.

Lemma members_exist : forall sets objs, (forall i, In i sets -> exists ps, ps <> [] /\ holds objs i ps) ->
  exists ps, members objs sets ps.
Proof.
  induction sets as [|i sets IH]; intros objs H; [exists []; constructor|].
  destruct (H i (or_introl eq_refl)) as (ps & Hne & Hh).
  destruct (IH objs) as (qs & Hq); [intros; apply H; now right|]. exists (ps ++ qs). now constructor.
Qed.
End Seq.

(* ---------------- with the real tracking functions ---------------- *)

Context (N : NumOps T) (c : config T).
Implicit Types (m : mode T).

Lemma seq_alone : forall m ps o0 o s ps' o' s', shape o = shape o0 ->
  seq (alone N c m) ps o s = Ok (ps', o', s') ->
  shape o' = shape o0 /\
  Forall2 (fun p p' => exists s1, tracked N c m o0 p p' s1 /\ (s' = 0 -> s1 = 0)) ps ps' /\
  (s' = 0 -> s = 0) /\
  (s = 0 -> (forall p p' s1, In p ps -> tracked N c m o0 p p' s1 -> s1 = 0) -> s' = 0).
Proof.
  intros m. induction ps as [|p ps IH]; intros o0 o s ps' o' s' Sh; cbn [seq].
  - intros [= <- <- <-]. split; [exact Sh|]. split; [constructor|]. auto.
  - destruct (alone N c m p o) as [[[p1 o1] st]| |] eqn:E; cbn [bind]; try discriminate.
    destruct (seq (alone N c m) ps o1 (Z.lor s st)) as [[[ps1 o2] s2]| |] eqn:E2; cbn [bind]; try discriminate.
    intros [= <- <- <-].
    destruct (alone_any N c m p o p1 o1 st E o0 (eq_sym Sh)) as (oz & Ez & _).
    destruct (alone_any N c m p o p1 o1 st E o eq_refl) as (oy & Ey & Shy). rewrite E in Ey.
    assert (oy = o1) by congruence. subst oy.
    destruct (IH o0 o1 (Z.lor s st) ps1 o2 s2 ltac:(congruence) E2) as (A & B & C & D).
    split; [exact A|]. split; [|split].
    + constructor; [|exact B]. exists st. split; [exists oz; exact Ez|]. intros Hs. specialize (C Hs).
      apply Z.lor_eq_0_iff in C. tauto.
    + intros Hs. specialize (C Hs). apply Z.lor_eq_0_iff in C. tauto.
    + intros -> Hall. apply D.
      * rewrite Z.lor_0_l. apply (Hall p p1 st); [now left|]. exists oz. exact Ez.
      * intros. eapply Hall; [right|]; eauto.
Qed.

Lemma forall2_app_l : forall A B (R : A -> B -> Prop) l1 l2 l1' l2', length l1 = length l1' ->
  Forall2 R (l1 ++ l2) (l1' ++ l2') -> Forall2 R l1 l1' /\ Forall2 R l2 l2'.
Proof.
  intros A B R. induction l1 as [|x l1 IH]; intros l2 [|x' l1'] l2' Hl H; try discriminate; cbn [app] in H.
  - split; [constructor|exact H].
  - inversion H; subst. destruct (IH l2 l1' l2') as (H1 & H2); [cbn in Hl; lia|auto|]. split; [constructor|]; auto.
Qed.

Lemma forall2_nth : forall A B (R : A -> B -> Prop) l l' k x, Forall2 R l l' -> nth_error l k = Some x ->
  exists y, nth_error l' k = Some y /\ R x y.
Proof.
  intros A B R l l' k x H. revert k. induction H as [|a b l l' Hab H IH]; intros k Hk; [destruct k; discriminate|].
  destruct k; cbn [nth_error] in *; [injection Hk as <-; eauto|auto].
Qed.

Lemma forall2_impl : forall A B (R S : A -> B -> Prop) l l', (forall a b, R a b -> S a b) -> Forall2 R l l' -> Forall2 S l l'.
Proof. intros A B R S l l' H F. induction F; constructor; auto. Qed.

Lemma forall2_len : forall A B (R : A -> B -> Prop) l l', Forall2 R l l' -> length l = length l'.
Proof. intros A B R l l' H. induction H; cbn; auto. Qed.

Lemma holds_inj : forall objs i ps qs, holds objs i ps -> holds objs i qs -> ps = qs.
Proof.
  intros objs i ps qs H1 H2. unfold holds in *. rewrite H1 in H2.
  assert (pset_of ps = pset_of qs) as E by congruence.
  assert (Hl : length ps = length qs).
  { pose proof (f_equal (@ps_num T) E) as En. rewrite !pset_of_num in En. lia. }
  assert (forall k, nth_error ps k = nth_error qs k) as Hn.
  { intros k. pose proof (f_equal (fun p => pset_at p (Z.of_nat k)) E) as Ek.
    cbv beta in Ek. now rewrite !pset_at_of, !aget_nth in Ek. }
  clear - Hn. revert qs Hn. induction ps as [|p ps IH]; intros [|q qs] Hn; auto.
  - specialize (Hn 0%nat). discriminate.
  - specialize (Hn 0%nat). discriminate.
  - f_equal; [specialize (Hn 0%nat); cbn in Hn; congruence|]. apply IH. intros k. exact (Hn (S k)).
Qed.

(* per set, with the position of the particles; [st]: the final status *)
Lemma sets_result : forall m sets objs o0 o s objs' o' st, NoDup sets -> shape o = shape o0 ->
  (forall i, In i sets -> exists ps, ps <> [] /\ holds objs i ps) ->
  track_sets (alone N c m) sets objs o s = Ok (objs', o', st) ->
  (st = 0 -> s = 0) /\
  (forall i ps, In i sets -> holds objs i ps -> exists ps', holds objs' i ps' /\
     Forall2 (fun p p' => exists s1, tracked N c m o0 p p' s1 /\ (st = 0 -> s1 = 0)) ps ps') /\
  (s = 0 -> (forall i ps p p' s1, In i sets -> holds objs i ps -> In p ps -> tracked N c m o0 p p' s1 -> s1 = 0) ->
   st = 0).
Proof.
  intros m. induction sets as [|i sets IH]; intros objs o0 o s objs' o' st Hnd Sh Hall.
  - cbn [track_sets]. intros [= <- <- <-]. split; [auto|]. split; [intros ? ? []|auto].
  - inversion Hnd as [|? ? Hni Hnd']; subst. cbn [track_sets].
    destruct (Hall i (or_introl eq_refl)) as (psi & Hne & Hh).
    pose proof (holds_nonneg _ _ _ Hh) as Hi0.
    rewrite (kernel_seq (alone N c m) objs i psi o Hh Hne).
    destruct (seq (alone N c m) psi o 0) as [[[ps1 o1] s1]| |] eqn:E1; cbn [bind]; try discriminate.
    intros E2.
    destruct (seq_alone m psi o0 o 0 ps1 o1 s1 Sh E1) as (Sh1 & F1 & _ & G1).
    assert (Hst : forall k, In k sets -> 0 <= k).
    { intros k Hk. destruct (Hall k (or_intror Hk)) as (ps & _ & Hp). eapply holds_nonneg; eauto. }
    assert (Hsame : forall k, In k sets -> aget (put_obj objs i (pset_of ps1)) k = aget objs k).
    { intros k Hk. apply put_other; [exact Hi0|]. intros ->. contradiction. }
    destruct (IH (put_obj objs i (pset_of ps1)) o0 o1 (Z.lor s s1) objs' o' st Hnd' Sh1) with (2 := E2) as (A & B & C).
    { intros k Hk. destruct (Hall k (or_intror Hk)) as (ps & Hp1 & Hp2). exists ps. split; [exact Hp1|].
      unfold holds. rewrite Hsame; auto. }
    destruct (track_sets_frame (alone N c m) sets _ o1 (Z.lor s s1) objs' o' st Hst E2) as (_ & Hfr).
    assert (Hst0 : st = 0 -> s = 0 /\ s1 = 0) by (intros H; apply A in H; now apply Z.lor_eq_0_iff in H).
    split; [tauto|]. split.
    + intros k ps [<-|Hk] Hp.
      * assert (ps = psi) by (eapply holds_inj; eauto). subst ps.
        exists ps1. split. { unfold holds. rewrite Hfr by auto. exact (put_same _ _ _ ps1 Hh). }
        eapply forall2_impl; [|exact F1]. intros p p' (s2 & T2 & T3). exists s2. split; [exact T2|]. intros H.
        apply T3. now apply Hst0.
      * apply B; [exact Hk|]. unfold holds. rewrite Hsame; auto.
    + intros -> Hz. apply C.
      * rewrite Z.lor_0_l. apply G1; [reflexivity|]. intros p p' s2 Hp Ht. exact (Hz i psi p p' s2 (or_introl eq_refl) Hh Hp Ht).
      * intros k ps p p' s2 Hk Hp. apply (Hz k ps p p' s2); [now right|]. unfold holds in *. rewrite <- Hsame; auto.
Qed.

Lemma cpu_track_result : forall m sets objs o objs' o' st, sets <> [] -> NoDup sets ->
  (forall i, In i sets -> exists ps, ps <> [] /\ holds objs i ps) ->
  cpu_track (alone N c m) sets objs o = Ok (objs', o', st) ->
  tracks_exactly N c m o (fun i => In i sets) objs objs' st.
Proof.
  intros m sets objs o objs' o' st Hne Hnd Hall. rewrite cpu_track_sets by auto. intros E.
  assert (Hk : forall k, In k sets -> 0 <= k).
  { intros k Hi. destruct (Hall k Hi) as (ps & _ & Hp). eapply holds_nonneg; eauto. }
  destruct (track_sets_frame _ _ _ _ _ _ _ _ Hk E) as (F1 & F2).
  destruct (sets_result m sets objs o o 0 objs' o' st Hnd eq_refl Hall E) as (_ & R & S).
  split; [exact F1|]. split; [exact F2|]. split.
  - intros i ps Hi Hh. destruct (R i ps Hi Hh) as (ps' & Hh' & Hf). exists ps'. split; [exact Hh'|].
    split; [symmetry; eapply forall2_len; eauto|]. intros k p Hp.
    destruct (forall2_nth _ _ _ _ _ _ _ Hf Hp) as (p' & Hp' & s & Ht & Hs). exists p', s. auto.
  - intros Hz. apply S; [reflexivity|]. exact Hz.
Qed.

Lemma seq_defined : forall m ps o0 o s, shape o = shape o0 ->
  (forall p, In p ps -> exists r, alone N c m p o0 = Ok r) -> exists r, seq (alone N c m) ps o s = Ok r.
Proof.
  intros m. induction ps as [|p ps IH]; intros o0 o s Sh H; cbn [seq]; [eauto|].
  destruct (H p (or_introl eq_refl)) as ([[p1 o1] st] & E).
  destruct (alone_any N c m p o0 p1 o1 st E o Sh) as (o2 & E2 & Sh2). rewrite E2. cbn [bind].
  destruct (IH o0 o2 (Z.lor s st) Sh2) as ([[ps' o3] s3] & E3); [intros; apply H; now right|].
  rewrite E3. cbn [bind]. eauto.
Qed.

Lemma members_in : forall objs sets ps p, members objs sets ps -> In p ps ->
  exists i psi, In i sets /\ holds objs i psi /\ In p psi.
Proof.
  intros objs sets ps p H. induction H as [|i ps1 rest qs Hh Hne Hm IH]; intros Hp; [destruct Hp|].
  apply in_app_iff in Hp as [Hp|Hp]; [exists i, ps1; cbn [In]; auto|].
  destruct (IH Hp) as (j & psj & A & B & C). exists j, psj. cbn [In]. auto.
Qed.

Lemma cpu_track_defined : forall m sets objs o, NoDup sets ->
  (forall i, In i sets -> exists ps, ps <> [] /\ holds objs i ps) ->
  (forall i ps p, In i sets -> holds objs i ps -> In p ps -> exists r, alone N c m p o = Ok r) ->
  exists r, cpu_track (alone N c m) sets objs o = Ok r.
Proof.
  intros m sets objs o Hnd Hall Hd. destruct sets as [|i0 r0] eqn:Es; [cbn; eauto|]. rewrite <- Es in *.
  rewrite cpu_track_sets by (rewrite Es; discriminate).
  destruct (members_exist sets objs Hall) as (ps & Hm).
  pose proof (track_sets_seq (alone N c m) sets objs ps o 0 Hnd Hm) as H.
  destruct (seq_defined m ps o o 0 eq_refl) as ([[ps' o'] s'] & E).
  { intros p Hp. destruct (members_in _ _ _ _ Hm Hp) as (i & psi & A & B & C). eauto. }
  rewrite E in H. destruct H as (objs' & E' & _). eauto.
Qed.

(* the outputs are those of some schedule of the particles *)
Lemma cpu_track_schedule : forall m sets objs o objs' o' st ps, sets <> [] -> NoDup sets -> members objs sets ps ->
  cpu_track (alone N c m) sets objs o = Ok (objs', o', st) ->
  exists ps' sched pool', members objs' sets ps' /\ exec sched (map (thread N c m) ps) o = Ok (pool', o') /\ finished pool' /\
    forall k q, nth_error ps' k = Some q -> exists s, nth_error pool' k = Some (Ret (q, s)).
Proof.
  intros m sets objs o objs' o' st ps Hne Hnd Hm. rewrite cpu_track_sets by auto. intros E.
  pose proof (track_sets_seq (alone N c m) sets objs ps o 0 Hnd Hm) as H.
  pose proof (plain_kernel_seq (alone N c m) ps o) as K.
  destruct (seq (alone N c m) ps o 0) as [[[ps' o1] s1]| |]; [|congruence|congruence].
  destruct H as (objs1 & E1 & Hm'). rewrite E in E1. assert (objs1 = objs' /\ o1 = o' /\ s1 = st) as (-> & -> & ->) by (repeat split; congruence).
  cbn [bind] in K.
  destruct (launch_is_schedule N c m [0] 1 ps o (pset_of ps') o' st) as (sched & pool' & ps2 & X1 & X2 & X3 & X4 & X5 & _).
  - lia.
  - repeat constructor. intros [].
  - intros i. cbn [In]. lia.
  - cbn [launch]. rewrite K. cbn [bind]. rewrite Z.lor_0_l. reflexivity.
  - exists ps', sched, pool'. split; [exact Hm'|]. split; [exact X1|]. split; [exact X2|]. intros k q Hq. apply X5.
    assert (ps' = ps2) as <-; [|exact Hq].
    eapply (holds_inj [Part (pset_of ps')] 0); unfold holds; [reflexivity|]. cbn. now rewrite X3.
Qed.
End S.
