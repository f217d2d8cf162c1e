(* Preparing output sets for beam monitors and assigning them. *)
From Coq Require Import ZArith List Bool Lia.
From Verif Require Import Num Particle Elements EbeConfig EbeSpec EbeProofs ParticleSet ParticleIds Output
  MonitorSpec OutputSpec.
Import ListNotations.
Local Open Scope Z_scope.

Section Prep.
Context {T : Type}.
Variable blank : particle T.
Variable room : outsets T -> Z -> bool.

(* the monitors that get a set *)
Definition active (ft : Z) (be : element T) : bool :=
  match be with BMonitor m => (ft <=? m_start m) && (0 <? m_num_stores m) | _ => false end.

Definition prep (ft mn mx : Z) (be : element T) : element T :=
  match be with
  | BMonitor m => if active ft be then BMonitor (mon_set_out None (mon_set_ids mn mx m)) else be
  | _ => be
  end.

Definition set_size (mn mx : Z) (be : element T) : nat :=
  match be with BMonitor m => Z.to_nat ((1 + mx - mn) * m_num_stores m) | _ => 0%nat end.

Lemma active_spec : forall ft m, active ft (BMonitor m) = true <-> takes_part ft m.
Proof.
  intros. cbn. unfold takes_part. rewrite andb_true_iff, Z.leb_le, Z.ltb_lt. tauto.
Qed.

Lemma prepare_loop_ok : forall ft mn mx line outs line' outs',
  mon_prepare_loop blank room ft mn mx line outs = (line', outs', SUCCESS) ->
  line' = map (prep ft mn mx) line /\
  exists news, outs' = outs ++ news /\
    map (@length _) news = map (set_size mn mx) (filter (active ft) line).
Proof.
  intros ft mn mx line. induction line as [|be rest IH]; intros outs line' outs' H.
  - cbn in H. assert (line' = [] /\ outs' = outs) as (-> & ->) by (split; congruence).
    split; auto. exists []. split; [symmetry; apply app_nil_r|reflexivity].
  - assert (Hskip : active ft be = false -> prep ft mn mx be = be ->
      (let '(rest, outs, st) := mon_prepare_loop blank room ft mn mx rest outs in (be :: rest, outs, st))
        = (line', outs', SUCCESS) ->
      line' = map (prep ft mn mx) (be :: rest) /\
      exists news, outs' = outs ++ news /\
        map (@length _) news = map (set_size mn mx) (filter (active ft) (be :: rest))).
    { intros Ha Hp E. destruct (mon_prepare_loop blank room ft mn mx rest outs) as [[r o] s] eqn:Er.
      assert (line' = be :: r /\ outs' = o /\ s = SUCCESS) as (-> & -> & ->) by (repeat split; congruence).
      apply IH in Er as (-> & news & -> & Hn). cbn [map filter]. rewrite Ha, Hp. split; eauto. }
    destruct be as [| | | | | | |m| | | | | | | | | | | | ];
      try (apply Hskip; [reflexivity|reflexivity|exact H]).
    cbn [mon_prepare_loop] in H.
    destruct ((ft <=? m_start m) && (0 <? m_num_stores m)) eqn:Ea.
    + unfold particles_new in H. destruct (room outs _) eqn:Hr; [|discriminate].
      destruct (mon_prepare_loop blank room ft mn mx rest _) as [[r o] s] eqn:Er.
      assert (line' = BMonitor (mon_set_out None (mon_set_ids mn mx m)) :: r /\ outs' = o /\ s = SUCCESS)
        as (-> & -> & ->) by (repeat split; congruence).
      apply IH in Er as (-> & news & -> & Hn).
      cbn [map filter active prep]. rewrite Ea. split; auto.
      exists (repeat blank (Z.to_nat ((1 + mx - mn) * m_num_stores m)) :: news).
      rewrite <- app_assoc. split; [reflexivity|].
      cbn [map set_size]. rewrite repeat_length, Hn. reflexivity.
    + apply Hskip; cbn [active prep]; rewrite ?Ea; auto.
Qed.
(* ---------------- assigning ---------------- *)

Definition takes (ft : Z) (be : element T) : bool :=
  match be with
  | BMonitor m => (0 <? m_num_stores m) && (ft <=? m_start m) && (m_min_id m <=? m_max_id m)
  | _ => false
  end.

Definition rank (ft : Z) (line : list (element T)) (j : nat) : nat :=
  length (filter (takes ft) (firstn j line)).

Lemma rank_S : forall ft be line j, rank ft (be :: line) (S j) =
  ((if takes ft be then 1 else 0) + rank ft line j)%nat.
Proof. intros. unfold rank. cbn [firstn filter]. destruct (takes ft be); reflexivity. Qed.

Lemma rank_lt : forall ft line j1 j2 be, (j1 < j2)%nat -> nth_error line j1 = Some be -> takes ft be = true ->
  (rank ft line j1 < rank ft line j2)%nat.
Proof.
  intros ft line. induction line as [|b rest IH]; intros j1 j2 be Hj Hb Ht.
  - destruct j1; discriminate.
  - destruct j2 as [|j2]; [lia|]. rewrite rank_S. destruct j1 as [|j1].
    + injection Hb as ->. rewrite Ht. unfold rank at 1. cbn [firstn filter length]. lia.
    + rewrite rank_S. specialize (IH j1 j2 be ltac:(lia) Hb Ht). lia.
Qed.

Lemma assign_loop_ok : forall outs ft line off line',
  mon_assign_loop outs ft line off = (line', SUCCESS) ->
  length line' = length line /\
  forall j be, nth_error line j = Some be ->
    (takes ft be = false -> nth_error line' j = Some be) /\
    (forall m, be = BMonitor m -> takes ft be = true ->
       nth_error line' j = Some (BMonitor (mon_set_out (Some (off + rank ft line j)%nat) m)) /\
       exists l : list (particle T), nth_error outs (off + rank ft line j) = Some l /\
         mon_slots m <= Z.of_nat (length l)).
Proof.
  intros outs ft line. induction line as [|be rest IH]; intros off line' H.
  - cbn in H. assert (line' = []) as -> by congruence. split; auto. intros [|j] be E; discriminate.
  - assert (Hskip : takes ft be = false ->
      (let '(rest, st) := mon_assign_loop outs ft rest off in (be :: rest, st)) = (line', SUCCESS) ->
      length line' = length (be :: rest) /\
      forall j be0, nth_error (be :: rest) j = Some be0 ->
        (takes ft be0 = false -> nth_error line' j = Some be0) /\
        (forall m, be0 = BMonitor m -> takes ft be0 = true ->
           nth_error line' j = Some (BMonitor (mon_set_out (Some (off + rank ft (be :: rest) j)%nat) m)) /\
           exists l, nth_error outs (off + rank ft (be :: rest) j) = Some l /\
             mon_slots m <= Z.of_nat (length l))).
    { intros Ht E. destruct (mon_assign_loop outs ft rest off) as [r s] eqn:Er.
      assert (line' = be :: r /\ s = SUCCESS) as (-> & ->) by (split; congruence).
      apply IH in Er as (Hlen & Hr). split; [cbn; lia|]. intros [|j] be0 Hj.
      - injection Hj as <-. split; [reflexivity|]. intros m _ E1. congruence.
      - rewrite rank_S, Ht. apply Hr. exact Hj. }
    destruct be as [| | | | | | |m| | | | | | | | | | | | ];
      try (apply Hskip; [reflexivity|exact H]).
    cbn [mon_assign_loop] in H.
    destruct (nth_error outs off) as [l|] eqn:Hl; [|discriminate].
    destruct ((0 <? m_num_stores m) && (ft <=? m_start m)) eqn:Ea;
      [|apply Hskip; [cbn [takes]; rewrite Ea; reflexivity|exact H]].
    cbv zeta in H. destruct (m_min_id m <=? m_max_id m) eqn:Em.
    2:{ change (0 <? 0) with false in H. rewrite !andb_false_r, !andb_false_l in H.
        apply Hskip; [cbn [takes]; rewrite Ea, Em; reflexivity|exact H]. }
    destruct (_ && _ && _ && _) eqn:Eb in H.
    2:{ destruct (_ && _) eqn:Ec in H; [discriminate|].
        apply andb_prop in Ea as (Ea & _). rewrite Ea in Ec. cbn [andb] in Ec.
        apply Z.leb_le in Em. apply Z.ltb_ge in Ec. lia. }
    apply andb_prop in Eb as (Eb & Efit). apply Z.leb_le in Efit.
    destruct (mon_assign_loop outs ft rest (S off)) as [r s] eqn:Er.
    assert (line' = BMonitor (mon_set_out (Some off) m) :: r /\ s = SUCCESS) as (-> & ->) by (split; congruence).
    apply IH in Er as (Hlen & Hr). split; [cbn; lia|]. intros [|j] be0 Hj.
    + injection Hj as <-. cbn [takes]. rewrite Ea, Em. split; [discriminate|].
      intros m0 E0 _. injection E0 as <-.
      replace (off + rank ft (BMonitor m :: rest) 0)%nat with off by (unfold rank; cbn; lia).
      split; [reflexivity|]. exists l. split; auto.
    + rewrite rank_S. assert (takes ft (BMonitor m) = true) as -> by (cbn [takes]; rewrite Ea, Em; reflexivity).
      replace (off + (1 + rank ft rest j))%nat with (S off + rank ft rest j)%nat by lia.
      apply Hr. exact Hj.
Qed.

(* a line whose sets have been prepared: assigning succeeds exactly if no monitor that
   takes no part comes after the last one that does *)
Definition no_trailing (ft : Z) (line : list (element T)) : Prop :=
  forall j m, nth_error line j = Some (BMonitor m) -> takes ft (BMonitor m) = false ->
    exists j' be, (j < j')%nat /\ nth_error line j' = Some be /\ takes ft be = true.

Lemma no_trailing_cons : forall ft be line,
  no_trailing ft (be :: line) <->
  no_trailing ft line /\
  (forall m, be = BMonitor m -> takes ft be = false -> filter (takes ft) line <> []).
Proof.
  intros ft be line. split.
  - intros H. split.
    + intros j m Hj Ht. destruct (H (S j) m Hj Ht) as ([|j'] & be' & Hlt & Hb & Ht'); [lia|].
      exists j', be'. split; [lia|auto].
    + intros m -> Ht E. destruct (H 0%nat m eq_refl Ht) as ([|j'] & be' & Hlt & Hb & Ht'); [lia|].
      assert (In be' (filter (takes ft) line)) by (apply filter_In; split; [eapply nth_error_In; eauto|auto]).
      rewrite E in H0. exact H0.
  - intros (H1 & H2) [|j] m Hj Ht.
    + injection Hj as ->. specialize (H2 m eq_refl Ht).
      destruct (filter (takes ft) line) as [|be' r] eqn:Ef; [congruence|].
      assert (In be' (filter (takes ft) line)) as Hin by (rewrite Ef; left; auto).
      apply filter_In in Hin as (Hin & Ht'). apply In_nth_error in Hin as (j' & Hj').
      exists (S j'), be'. split; [lia|auto].
    + destruct (H1 j m Hj Ht) as (j' & be' & Hlt & Hb & Ht'). exists (S j'), be'. split; [lia|auto].
Qed.

Lemma assign_loop_iff : forall ft line outs off news,
  firstn off outs ++ news = outs -> (off <= length outs)%nat ->
  (forall m, In (BMonitor m) line -> takes ft (BMonitor m) = true -> 0 < mon_particles m) ->
  map (fun l : list (particle T) => Z.of_nat (length l)) news =
    map (fun be => match be with BMonitor m => mon_slots m | _ => 0 end) (filter (takes ft) line) ->
  (snd (mon_assign_loop outs ft line off) = SUCCESS <-> no_trailing ft line).
Proof.
  intros ft line. induction line as [|be rest IH]; intros outs off news Ho Hoff Hpos Hn.
  - cbn. split; auto. intros _ [|j] m E; discriminate.
  - rewrite no_trailing_cons.
    assert (Hpos' : forall m, In (BMonitor m) rest -> takes ft (BMonitor m) = true -> 0 < mon_particles m)
      by (intros m Hm; apply Hpos; right; auto).
    assert (Hskip : takes ft be = false ->
      (snd (let '(rest, st) := mon_assign_loop outs ft rest off in (be :: rest, st)) = SUCCESS <->
       no_trailing ft rest)).
    { intros Ht. cbn [filter] in Hn. rewrite Ht in Hn. rewrite <- (IH outs off news Ho Hoff Hpos' Hn).
      destruct (mon_assign_loop outs ft rest off). cbn. tauto. }
    assert (Hnth : nth_error outs off = nth_error news 0).
    { rewrite <- Ho at 1. rewrite nth_error_app2 by (rewrite firstn_length; lia).
      f_equal. rewrite firstn_length. lia. }
    destruct be as [| | | | | | |m| | | | | | | | | | | | ];
      try (cbn [mon_assign_loop]; rewrite Hskip by reflexivity; split; [intros; split; auto; intros; discriminate|tauto]).
    cbn [mon_assign_loop]. rewrite Hnth.
    destruct (takes ft (BMonitor m)) eqn:Ht.
    + cbn [filter] in Hn. rewrite Ht in Hn. destruct news as [|l news]; [discriminate|].
      cbn [map] in Hn. assert (Hl : Z.of_nat (length l) = mon_slots m) by congruence.
      assert (Hn' : map (fun l : list (particle T) => Z.of_nat (length l)) news =
        map (fun be => match be with BMonitor m => mon_slots m | _ => 0 end) (filter (takes ft) rest)) by congruence.
      cbn [nth_error]. pose proof Ht as Ht'. cbn [takes] in Ht'. apply andb_prop in Ht' as (Ea & Em).
      rewrite Ea, Em. cbv zeta. specialize (Hpos m (or_introl eq_refl) Ht).
      apply andb_prop in Ea as (En & _). rewrite En. apply Z.ltb_lt in En.
      change (m_max_id m - m_min_id m + 1) with (mon_particles m).
      replace (0 <? mon_particles m) with true by (symmetry; apply Z.ltb_lt; auto).
      replace (0 <? Z.of_nat (length l)) with true
        by (symmetry; apply Z.ltb_lt; rewrite Hl; unfold mon_slots; nia).
      replace (mon_particles m * m_num_stores m <=? Z.of_nat (length l)) with true
        by (symmetry; apply Z.leb_le; rewrite Hl; unfold mon_slots; lia).
      cbn [andb].
      assert (Ho' : firstn (S off) outs ++ news = outs).
      { rewrite <- Ho at 2. rewrite <- Ho at 1. rewrite firstn_app, firstn_firstn, firstn_length.
        replace (Nat.min (S off) off) with off by lia.
        replace (S off - Nat.min off (length outs))%nat with 1%nat by lia.
        rewrite <- app_assoc. reflexivity. }
      assert (Hoff' : (S off <= length outs)%nat).
      { assert (Hx := f_equal (@length _) Ho). rewrite app_length, firstn_length in Hx. cbn [length] in Hx. lia. }
      rewrite <- (IH outs (S off) news Ho' Hoff' Hpos' Hn').
      destruct (mon_assign_loop outs ft rest (S off)). cbn [snd].
      split; [|tauto]. intros ->. split; auto. intros; discriminate.
    + specialize (Hskip eq_refl).
      assert (Hcase : (filter (takes ft) rest <> [] <-> nth_error news 0 <> None)).
      { cbn [filter] in Hn. rewrite Ht in Hn.
        destruct news, (filter (takes ft) rest); cbn in *; split; intros; congruence. }
      destruct (nth_error news 0) as [l|].
      * match goal with |- snd ?e = _ <-> _ =>
          assert (snd e =
            snd (let '(rest, st) := mon_assign_loop outs ft rest off in (BMonitor m :: rest, st))) as -> end.
        { cbn [takes] in Ht. destruct ((0 <? m_num_stores m) && (ft <=? m_start m)); [|reflexivity].
          cbn [andb] in Ht. rewrite Ht. cbv zeta. change (0 <? 0) with false.
          rewrite !andb_false_r, !andb_false_l. reflexivity. }
        rewrite Hskip. split; [|tauto]. intros; split; auto. intros. apply Hcase. discriminate.
      * cbn [snd]. split; [discriminate|]. intros (_ & H). exfalso.
        apply (proj1 Hcase); [|reflexivity]. eapply H; eauto.
Qed.

(* ---------------- both ---------------- *)

Lemma takes_prep : forall ft mn mx be, mn <= mx -> takes ft (prep ft mn mx be) = active ft be.
Proof.
  intros ft mn mx be Hm. destruct be; try reflexivity. cbn [prep].
  destruct (active ft (BMonitor m)) eqn:Ea; cbn [active] in Ea; apply andb_false_iff in Ea || apply andb_prop in Ea as (E1 & E2).
  - cbn. rewrite E1, E2. cbn [andb]. apply Z.leb_le. exact Hm.
  - cbn [takes]. destruct Ea as [->| ->]; rewrite ?andb_false_r; reflexivity.
Qed.

Lemma filter_prep : forall ft mn mx line, mn <= mx ->
  filter (takes ft) (map (prep ft mn mx) line) = map (prep ft mn mx) (filter (active ft) line).
Proof.
  intros ft mn mx line Hm. induction line as [|be rest IH]; [reflexivity|].
  cbn [map filter]. rewrite takes_prep by auto. destruct (active ft be); cbn [map]; rewrite IH; reflexivity.
Qed.

Lemma rank_nth : forall ft line j be, nth_error line j = Some be -> takes ft be = true ->
  nth_error (filter (takes ft) line) (rank ft line j) = Some be.
Proof.
  intros ft line. induction line as [|b rest IH]; intros j be Hj Ht; [destruct j; discriminate|].
  destruct j as [|j].
  - injection Hj as ->. cbn [filter]. rewrite Ht. reflexivity.
  - rewrite rank_S. cbn [filter]. destruct (takes ft b); cbn [Nat.add nth_error]; apply IH; auto.
Qed.

Lemma mon_prepare_inv : forall mn mx ft line outs line' outs',
  mon_prepare blank room mn mx ft line outs = (line', outs', SUCCESS) ->
  0 <= ft /\ 0 <= mn <= mx /\ mon_prepare_loop blank room ft mn mx line outs = (line', outs', SUCCESS).
Proof.
  intros mn mx ft line outs line' outs' H. unfold mon_prepare in H.
  destruct (ft <? 0) eqn:E1; [cbn [orb] in H; discriminate|].
  destruct (mn <? 0) eqn:E2; [cbn [orb] in H; discriminate|].
  destruct (mx <? mn) eqn:E3; [cbn [orb] in H; discriminate|].
  cbn [orb] in H. apply Z.ltb_ge in E1, E2, E3. auto.
Qed.

Lemma settings_prep : forall mn mx k m,
  same_settings mn mx m (mon_set_out k (mon_set_out None (mon_set_ids mn mx m))).
Proof. intros. repeat split. Qed.

Lemma prepare_assign : forall mn mx ft line outs line1 outs1 line2,
  mon_prepare blank room mn mx ft line outs = (line1, outs1, SUCCESS) ->
  mon_assign outs1 ft (length outs) line1 = (line2, SUCCESS) ->
  length line2 = length line /\
  (forall j be, nth_error line j = Some be -> (forall m, be = BMonitor m -> ~ takes_part ft m) ->
     nth_error line2 j = Some be) /\
  (forall j m, nth_error line j = Some (BMonitor m) -> takes_part ft m ->
     exists m2 k l, nth_error line2 j = Some (BMonitor m2) /\ same_settings mn mx m m2 /\
       m_out m2 = Some k /\ (length outs <= k)%nat /\ nth_error outs1 k = Some l /\
       mon_slots m2 = Z.of_nat (length l)) /\
  (forall j1 j2 m1 m2 k, nth_error line j1 = Some (BMonitor m1) -> takes_part ft m1 ->
     nth_error line j2 = Some (BMonitor m2) -> takes_part ft m2 ->
     stores_in line2 j1 k -> stores_in line2 j2 k -> j1 = j2).
Proof.
  intros mn mx ft line outs line1 outs1 line2 Hp Ha.
  apply mon_prepare_inv in Hp as (Hft & Hmn & Hp).
  apply prepare_loop_ok in Hp as (-> & news & -> & Hnews).
  unfold mon_assign in Ha. destruct (_ <=? _) in Ha; [|discriminate].
  apply assign_loop_ok in Ha as (Hlen & Ha). rewrite map_length in Hlen.
  assert (Hact : forall j m, nth_error line j = Some (BMonitor m) -> takes_part ft m ->
    let k := (length outs + rank ft (map (prep ft mn mx) line) j)%nat in
    nth_error line2 j = Some (BMonitor (mon_set_out (Some k) (mon_set_out None (mon_set_ids mn mx m)))) /\
    takes ft (prep ft mn mx (BMonitor m)) = true).
  { intros j m Hj Ht. apply active_spec in Ht. cbv zeta.
    assert (Hj1 : nth_error (map (prep ft mn mx) line) j = Some (BMonitor (mon_set_out None (mon_set_ids mn mx m)))).
    { rewrite nth_error_map, Hj. cbn [option_map prep]. rewrite Ht. reflexivity. }
    pose proof (takes_prep ft mn mx (BMonitor m) ltac:(lia)) as Ht'. rewrite Ht in Ht'.
    split; [|auto]. apply (Ha _ _ Hj1); auto.
    rewrite <- Ht'. cbn [prep]. rewrite Ht. reflexivity. }
  split; [exact Hlen|]. split; [|split].
  - intros j be Hj Hn.
    assert (Hf : active ft be = false).
    { destruct be; try reflexivity. destruct (active ft (BMonitor m)) eqn:E; auto.
      apply active_spec in E. exfalso. eapply Hn; eauto. }
    assert (Hpb : prep ft mn mx be = be) by (destruct be; try reflexivity; cbn [prep]; rewrite Hf; reflexivity).
    apply (Ha j be); [rewrite nth_error_map, Hj; cbn; congruence|].
    rewrite <- Hpb. rewrite takes_prep by lia. exact Hf.
  - intros j m Hj Ht. destruct (Hact j m Hj Ht) as (H1 & H2).
    assert (Hj1 : nth_error (map (prep ft mn mx) line) j = Some (prep ft mn mx (BMonitor m)))
      by (rewrite nth_error_map, Hj; reflexivity).
    pose proof (rank_nth ft _ j _ Hj1 H2) as Hr.
    rewrite filter_prep in Hr by lia. rewrite nth_error_map in Hr.
    destruct (nth_error (filter (active ft) line) _) as [be|] eqn:Hb; [|discriminate]. cbn [option_map] in Hr.
    assert (Hact_be : active ft be = true).
    { apply nth_error_In in Hb. apply filter_In in Hb. tauto. }
    assert (exists m', be = BMonitor m') as (m' & ->) by (destruct be; try discriminate; eauto).
    assert (Hsame : m_num_stores m' = m_num_stores m).
    { cbn [prep] in Hr. apply active_spec in Ht. rewrite Ht, Hact_be in Hr. assert (E : mon_set_out None (mon_set_ids mn mx m') = mon_set_out None (mon_set_ids mn mx m)) by congruence. exact (f_equal m_num_stores E). }
    assert (Hl := f_equal (fun l => nth_error l (rank ft (map (prep ft mn mx) line) j)) Hnews). cbv beta in Hl.
    rewrite !nth_error_map, Hb in Hl.
    destruct (nth_error news _) as [l|] eqn:El; [|discriminate]. cbn [option_map set_size] in Hl.
    eexists _, _, l. split; [exact H1|]. split; [apply settings_prep|]. split; [reflexivity|].
    split; [lia|]. split.
    + rewrite nth_error_app2 by lia. rewrite <- El. f_equal. lia.
    + assert (length l = Z.to_nat ((1 + mx - mn) * m_num_stores m')) as -> by congruence.
      destruct Ht as (_ & Ht). unfold mon_slots, mon_particles. cbn [mon_set_out mon_set_ids m_num_stores m_max_id m_min_id]. rewrite Hsame.
      rewrite Z2Nat.id by nia. ring.
  - intros j1 j2 m1 m2 k H1 T1 H2 T2 (n1 & S1 & O1) (n2 & S2 & O2).
    destruct (Hact _ _ H1 T1) as (A1 & B1), (Hact _ _ H2 T2) as (A2 & B2). cbv zeta in A1, A2.
    assert (n1 = mon_set_out (Some (length outs + rank ft (map (prep ft mn mx) line) j1)%nat)
                   (mon_set_out None (mon_set_ids mn mx m1))) as -> by congruence.
    assert (n2 = mon_set_out (Some (length outs + rank ft (map (prep ft mn mx) line) j2)%nat)
                   (mon_set_out None (mon_set_ids mn mx m2))) as -> by congruence.
    cbn in O1, O2.
    assert (E : rank ft (map (prep ft mn mx) line) j1 = rank ft (map (prep ft mn mx) line) j2).
    { assert (length outs + rank ft (map (prep ft mn mx) line) j1 =
              length outs + rank ft (map (prep ft mn mx) line) j2)%nat by congruence. lia. }
    destruct (Nat.lt_total j1 j2) as [Hlt|[?|Hlt]]; auto; exfalso.
    + pose proof (rank_lt ft (map (prep ft mn mx) line) j1 j2 (prep ft mn mx (BMonitor m1)) Hlt) as Hx.
      rewrite nth_error_map, H1 in Hx. specialize (Hx eq_refl B1). lia.
    + pose proof (rank_lt ft (map (prep ft mn mx) line) j2 j1 (prep ft mn mx (BMonitor m2)) Hlt) as Hx.
      rewrite nth_error_map, H2 in Hx. specialize (Hx eq_refl B2). lia.
Qed.

(* monitors that take no part must not refer to a set *)
Definition idle_unassigned (ft : Z) (line : list (element T)) : Prop :=
  forall m, In (BMonitor m) line -> takes_part ft m \/ m_out m = None.

Lemma takes_part_dec : forall ft m, takes_part ft m \/ ~ takes_part ft m.
Proof. intros. unfold takes_part. lia. Qed.

Lemma prepare_assign_well : forall mn mx ft line outs line1 outs1 line2,
  mon_prepare blank room mn mx ft line outs = (line1, outs1, SUCCESS) ->
  mon_assign outs1 ft (length outs) line1 = (line2, SUCCESS) ->
  idle_unassigned ft line ->
  well_assigned line2 outs1 /\ forall j k, stores_in line2 j k -> (length outs <= k)%nat.
Proof.
  intros mn mx ft line outs line1 outs1 line2 Hp Ha Hidle.
  destruct (prepare_assign _ _ _ _ _ _ _ _ Hp Ha) as (Hlen & Hother & Hact & Hdist).
  assert (Hwho : forall j k, stores_in line2 j k -> exists m0, nth_error line j = Some (BMonitor m0) /\ takes_part ft m0).
  { intros j k (m & Hm & Hk).
    assert (exists be, nth_error line j = Some be) as (be & Hbe).
    { assert (nth_error line2 j <> None) as Hn by congruence. apply nth_error_Some in Hn.
      destruct (nth_error line j) eqn:E; eauto. apply nth_error_None in E. lia. }
    assert (Hcase : (exists m0, be = BMonitor m0 /\ takes_part ft m0) \/ (forall m0, be = BMonitor m0 -> ~ takes_part ft m0)).
    { destruct be; try (right; intros; discriminate).
      destruct (takes_part_dec ft m0); [left; eauto|right; intros ? [= <-]; auto]. }
    destruct Hcase as [(m0 & -> & Ht)|Hn]; [eauto|]. exfalso.
    pose proof (Hother _ _ Hbe Hn) as E. rewrite Hm in E. injection E as <-.
    destruct (Hidle m); [eapply nth_error_In; eauto| eapply Hn; eauto |congruence]. }
  split.
  - intros j m k Hm Hk. destruct (Hwho j k (ex_intro _ m (conj Hm Hk))) as (m0 & Hm0 & Ht0). split.
    + destruct (Hact j m0 Hm0 Ht0) as (m2 & k2 & l & A1 & _ & A3 & _ & A5 & A6).
      assert (m2 = m) as -> by congruence. assert (k2 = k) as -> by congruence. eauto.
    + intros j' Hs'. destruct (Hwho j' k Hs') as (m' & Hm' & Ht').
      eapply (Hdist j' j m' m0 k); eauto. exists m; auto.
  - intros j k Hs. destruct (Hwho j k Hs) as (m0 & Hm0 & Ht0).
    destruct (Hact j m0 Hm0 Ht0) as (m2 & k2 & l & A1 & _ & A3 & A4 & _).
    destruct Hs as (m & Hm & Hk). assert (m2 = m) as -> by congruence. assert (k2 = k) as -> by congruence. auto.
Qed.

(* assigning what has been prepared succeeds exactly if no monitor that takes no part
   follows the last one that does *)
Lemma prepare_assign_iff : forall mn mx ft line outs line1 outs1,
  mon_prepare blank room mn mx ft line outs = (line1, outs1, SUCCESS) ->
  (snd (mon_assign outs1 ft (length outs) line1) = SUCCESS <->
   forall j m, nth_error line j = Some (BMonitor m) -> ~ takes_part ft m ->
     exists j' m', (j < j')%nat /\ nth_error line j' = Some (BMonitor m') /\ takes_part ft m').
Proof.
  intros mn mx ft line outs line1 outs1 Hp.
  apply mon_prepare_inv in Hp as (Hft & Hmn & Hp).
  apply prepare_loop_ok in Hp as (-> & news & -> & Hnews).
  unfold mon_assign. rewrite app_length.
  replace (Z.of_nat (length outs) <=? Z.of_nat (length outs + length news)) with true by (symmetry; apply Z.leb_le; lia).
  rewrite (assign_loop_iff ft _ _ _ news).
  - unfold no_trailing. split.
    + intros H j m Hj Hn.
      assert (Ha : active ft (BMonitor m) = false).
      { destruct (active ft (BMonitor m)) eqn:E; auto. apply active_spec in E. contradiction. }
      assert (Hpb : prep ft mn mx (BMonitor m) = BMonitor m) by (cbn [prep]; rewrite Ha; reflexivity).
      destruct (H j m) as (j' & be & Hlt & Hb & Ht).
      { rewrite nth_error_map, Hj. cbn [option_map]. congruence. }
      { rewrite <- Hpb, takes_prep by lia. exact Ha. }
      rewrite nth_error_map in Hb. destruct (nth_error line j') as [b|] eqn:Eb; [|discriminate].
      cbn in Hb. assert (be = prep ft mn mx b) as -> by congruence. rewrite takes_prep in Ht by lia.
      destruct b; try discriminate. exists j', m0. split; auto. split; auto. apply active_spec. exact Ht.
    + intros H j m Hj Hn. rewrite nth_error_map in Hj.
      destruct (nth_error line j) as [b|] eqn:Eb; [|discriminate]. cbn in Hj.
      assert (E : prep ft mn mx b = BMonitor m) by congruence. rewrite <- E, takes_prep in Hn by lia.
      assert (exists m0, b = BMonitor m0) as (m0 & ->) by (destruct b; try discriminate; eauto).
      destruct (H j m0 Eb) as (j' & m' & Hlt & Hb & Ht).
      { intros Ht. apply active_spec in Ht. congruence. }
      exists j', (prep ft mn mx (BMonitor m')). split; auto. split.
      * rewrite nth_error_map, Hb. reflexivity.
      * rewrite takes_prep by lia. apply active_spec. exact Ht.
  - rewrite firstn_app, Nat.sub_diag, firstn_all, app_nil_r. reflexivity.
  - rewrite app_length. lia.
  - intros m Hm Ht. unfold mon_particles. cbn [takes] in Ht. apply andb_prop in Ht as (_ & Ht).
    apply Z.leb_le in Ht. lia.
  - rewrite filter_prep by lia. rewrite map_map.
    rewrite <- (map_map (@length _) Z.of_nat), Hnews, map_map. apply map_ext_in.
    intros be Hin. apply filter_In in Hin as (_ & Ha). destruct be; try discriminate.
    cbn [prep]. rewrite Ha. cbn [set_size]. apply active_spec in Ha as (_ & Ha).
    unfold mon_slots, mon_particles. cbn [mon_set_out mon_set_ids m_num_stores m_max_id m_min_id]. rewrite Z2Nat.id by nia. ring.
Qed.

End Prep.
