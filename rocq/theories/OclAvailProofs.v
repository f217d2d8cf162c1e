From Coq Require Import Ascii String ZArith Bool List Lia Sorting.Sorted Permutation.
From Verif Require Import Tac NodeId NodeIdSpec NodeIdProofs ComputeNode ComputeNodeSpec ComputeNodeProofs ComputeInfoProofs
  OclNodes OclNodesSpec OclTextProofs OclNodesProofs.
Import ListNotations.
Local Open Scope Z_scope.

Definition freed (h h' : heap) (l : list nat) : Prop :=
  length h' = length h /\ forall a, nth_error h' a = if in_dec Nat.eq_dec a l then Some None else nth_error h a.

Lemma free_all_ok : forall is h, owns_all is h -> exists h', free_all is h = Some h' /\ freed h h' (owned_all is).
Proof.
  induction is as [|i is IH]; intros h [ND F]; cbn [free_all].
  - exists h. split; [reflexivity|]. split; [reflexivity|]. intros a. cbn [owned_all map concat]. reflexivity.
  - unfold owned_all in *. cbn [map concat] in *. apply Forall_app in F as [F1 F2].
    destruct (ci_free_own i h [] (conj (NoDup_app_l _ _ _ ND) F1)) as (h1 & E & L & N). rewrite !app_nil_r in E. rewrite E. cbn [obind].
    destruct (IH h1) as (h2 & E2 & L2 & N2).
    { split; [exact (NoDup_app_r _ _ _ ND)|]. eapply live_keep; [exact N|exact F2|]. intros a Ha. eapply NoDup_app_disj; eauto. }
    exists h2. split; [exact E2|]. split; [congruence|]. intros a. rewrite N2, N.
    destruct (in_dec Nat.eq_dec a (concat (map owned is))) as [Ha|Ha], (in_dec Nat.eq_dec a (owned i)) as [Hb|Hb],
      (in_dec Nat.eq_dec a (owned i ++ concat (map owned is))) as [Hc|Hc]; rewrite in_app_iff in Hc; tauto.
Qed.

Lemma read_freed : forall p h h' l s, freed h h' l -> (forall a, In a (the_address p) -> ~ In a l) ->
  read_string p h = Some s -> read_string p h' = Some s.
Proof.
  intros [a|] h h' l s [_ N] D H; [|discriminate]. unfold read_string in *. rewrite N.
  destruct (in_dec Nat.eq_dec a l) as [Ha|Ha]; [|exact H]. destruct (D a (or_introl eq_refl) Ha).
Qed.

Lemma describes_freed : forall h h' l nd i, freed h h' l -> (forall a, In a (owned i) -> ~ In a l) -> describes h nd i -> describes h' nd i.
Proof.
  intros h h' l nd i Fr D (A & B & C & E & G). unfold owned in D.
  assert (R : forall p s, (forall a, In a (the_address p) -> In a (the_address (ci_arch i) ++ the_address (ci_platform i) ++ the_address (ci_name i) ++ the_address (ci_description i))) ->
    read_string p h = Some s -> read_string p h' = Some s).
  { intros p s Hp. eapply read_freed; eauto. }
  repeat split; auto.
  - apply R; auto. intros a Ha. rewrite !in_app_iff. tauto.
  - apply R; auto. intros a Ha. rewrite !in_app_iff. tauto.
  - destruct (list_eq_dec ascii_dec (nd_platform nd) []); auto. apply R; auto. intros a Ha. rewrite !in_app_iff. tauto.
  - destruct (list_eq_dec ascii_dec (dv_description (nd_device nd)) []); auto. apply R; auto. intros a Ha. rewrite !in_app_iff. tauto.
Qed.

Lemma described_freed : forall os h h' l ns is, freed h h' l -> (forall a, In a (owned_all is) -> ~ In a l) ->
  Forall2 (described h os) ns is -> Forall2 (described h' os) ns is.
Proof.
  intros os h h' l ns is Fr D H. induction H as [|nd i ns is Hd H IH]; constructor.
  - destruct Hd as [Hd|Hd]; [left|right; exact Hd]. eapply describes_freed; eauto. intros a Ha. apply D. unfold owned_all. cbn [map concat].
    apply in_or_app. auto.
  - apply IH. intros a Ha. apply D. unfold owned_all. cbn [map concat]. apply in_or_app. auto.
Qed.

Lemma pick_ok : forall (R : node -> cinfo -> Prop) want l ns is, Forall2 R ns is ->
  exists out rest, pick want l ns is = (filter (fun nd => found l (nd_id nd)) ns, out, rest) /\
    (if want then Forall2 R (filter (fun nd => found l (nd_id nd)) ns) out else out = []) /\
    Permutation (owned_all is) (owned_all out ++ owned_all rest).
Proof.
  intros R want l ns is H. induction H as [|nd i ns is Hd H (out & rest & E & Ho & P)].
  - exists [], []. cbn [pick filter]. split; [reflexivity|]. split; [destruct want; auto|]. reflexivity.
  - cbn [pick]. rewrite E. cbn [filter]. destruct (found l (nd_id nd)).
    + destruct want.
      * exists (i :: out), (ci_preset :: rest). split; [reflexivity|]. split; [constructor; auto|].
        unfold owned_all in *. cbn [map concat app]. change (owned ci_preset) with (@nil nat). cbn [app]. rewrite <- app_assoc.
        apply Permutation_app_head. exact P.
      * subst out. exists [], (i :: rest). split; [reflexivity|]. split; [reflexivity|]. unfold owned_all in *. cbn [map concat app] in *.
        apply Permutation_app_head. exact P.
    + exists out, (i :: rest). split; [reflexivity|]. split; [exact Ho|].
      unfold owned_all in *. cbn [map concat]. rewrite P. rewrite !app_assoc. apply Permutation_app_tail. apply Permutation_app_comm.
Qed.

Lemma owns_perm : forall is out rest h, owns_all is h -> Permutation (owned_all is) (owned_all out ++ owned_all rest) ->
  owns_all out h /\ owns_all rest h /\ (forall a, In a (owned_all out) -> ~ In a (owned_all rest)).
Proof.
  intros is out rest h [ND F] P.
  assert (ND' : NoDup (owned_all out ++ owned_all rest)) by (eapply Permutation_NoDup; eauto).
  assert (F' : Forall (live h) (owned_all out ++ owned_all rest)) by (eapply Permutation_Forall; eauto).
  apply Forall_app in F' as [F1 F2]. split; [|split].
  - split; auto. eapply NoDup_app_l; eauto.
  - split; auto. eapply NoDup_app_r; eauto.
  - intros a Ha Hb. eapply NoDup_app_disj; eauto.
Qed.

Lemma owns_freed : forall out h h' l, freed h h' l -> owns_all out h -> (forall a, In a (owned_all out) -> ~ In a l) -> owns_all out h'.
Proof. intros out h h' l [_ N] [ND F] D. split; auto. eapply live_keep; eauto. Qed.

(* what remains after the descriptions that are not returned have been freed *)
Lemma give_back : forall os h t ns is sel out rest,
  owns_all is (h ++ t) -> (forall a, In a (owned_all is) -> (length h <= a)%nat) ->
  (forall a, live (h ++ t) a -> live h a \/ In a (owned_all is)) ->
  Permutation (owned_all is) (owned_all out ++ owned_all rest) ->
  Forall2 (described (h ++ t) os) ns is -> Forall2 (described (h ++ t) os) sel out ->
  exists h', free_all rest (h ++ t) = Some h' /\ Forall2 (described h' os) sel out /\ owns_all out h' /\
    nothing_else h h' [] (owned_all out).
Proof.
  intros os h t ns is sel out rest Ow Fr Lv P D Ds. destruct (owns_perm is out rest _ Ow P) as (O1 & O2 & Dj).
  destruct (free_all_ok rest _ O2) as (h' & E & Fd). exists h'. split; [exact E|]. split; [eapply described_freed; eauto|].
  split; [eapply owns_freed; eauto|]. destruct Fd as [L N]. split.
  - intros a La _. rewrite N. destruct (in_dec Nat.eq_dec a (owned_all rest)) as [Ha|Ha]; [|apply nth_error_app1; exact La].
    assert (In a (owned_all is)) by (eapply Permutation_in; [symmetry; exact P|apply in_or_app; auto]). apply Fr in H. lia.
  - intros a (b & Hb). rewrite N in Hb. destruct (in_dec Nat.eq_dec a (owned_all rest)) as [Ha|Ha]; [discriminate|].
    destruct (Lv a (ex_intro _ b Hb)) as [La|La]; [left; auto|]. eapply Permutation_in in La; [|exact P].
    apply in_app_iff in La as [La|La]; [right; exact La|contradiction].
Qed.

(* the value of the variable *)
Definition value_of (env : chars -> option chars) (name : option chars) : option chars :=
  match name with Some (a :: v) => env (a :: v) | _ => env default_var end.
Definition is_list (v : option chars) (t : chars) : Prop :=
  v = Some t /\ t <> [] /\ t <> lit "first" /\ t <> lit "all".

Lemma text_eqb_spec : forall s t, text_eqb s t = true <-> s = t.
Proof. intros s t. unfold text_eqb. destruct (list_eq_dec ascii_dec s t); split; intros; auto; discriminate. Qed.

Lemma proper_all : forall ps, proper ps -> Forall proper_node (all_nodes 0 ps).
Proof.
  intros ps P. rewrite Forall_forall. intros nd Hn. apply all_is_node in Hn. pose proof (node_named _ _ Hn) as Nm.
  destruct Hn as (k & j & p & E & Hk & Hj & Hp). apply nth_error_In in Hk. apply filter_In in Hk as [Hk _].
  unfold proper in P. rewrite Forall_forall in P. destruct (P p Hk) as [T F]. rewrite Forall_forall in F.
  apply nth_error_In in Hj. destruct (F _ Hj) as [T1 T2]. split; [rewrite Hp; exact T|]. split; auto. split; auto. apply named_set. exact Nm.
Qed.

Definition chosen_by (v : option chars) (allowed : list cnode) (nd : node) : Prop :=
  match v with
  | None | Some [] => True
  | Some t => t = lit "all" \/ (t = lit "first" /\ nd_id nd = mkCN 0 0) \/
              (t <> lit "all" /\ t <> lit "first" /\ In (nd_id nd) allowed)
  end.

Lemma filter_all : forall A (f : A -> bool) l, (forall a, In a l -> f a = true) -> filter f l = l.
Proof.
  intros A f l. induction l as [|a l IH]; intros H; [reflexivity|]. cbn [filter]. rewrite (H a (or_introl eq_refl)). f_equal. apply IH.
  intros b Hb. apply H. right. exact Hb.
Qed.
Lemma filter_none : forall A (f : A -> bool) l, (forall a, In a l -> f a = false) -> filter f l = [].
Proof.
  intros A f l. induction l as [|a l IH]; intros H; [reflexivity|]. cbn [filter]. rewrite (H a (or_introl eq_refl)). apply IH.
  intros b Hb. apply H. right. exact Hb.
Qed.

Lemma available_ok : forall env name os ps want h allowed, proper ps ->
  (forall t, is_list (value_of env name) t -> allowed_nodes env name = Some allowed) ->
  exists s h', get_available env name os ps want h = Some (s, h') /\
    increasing (map nd_id (sel_nodes s)) /\
    (forall nd, In nd (sel_nodes s) <-> is_node ps nd /\ chosen_by (value_of env name) allowed nd) /\
    (if want then Forall2 (described h' os) (sel_nodes s) (sel_infos s) else sel_infos s = []) /\
    owns_all (sel_infos s) h' /\ nothing_else h h' [] (owned_all (sel_infos s)).
Proof.
  intros env name os ps want h allowed Pr Al. destruct (fill_all_ok os (all_nodes 0 ps) 0 h (proper_all ps Pr)) as (is & t & E & D & Ow & Fr & Lv).
  unfold get_available. cbv zeta. fold (value_of env name). rewrite E. cbn [obind].
  destruct (all_sorted ps 0) as [So _]. pose proof (all_is_node ps) as AN.
  assert (NE0 : nothing_else h (h ++ t) [] (owned_all is)).
  { split; [intros a La _; apply nth_error_app1; exact La|]. intros a La. destruct (Lv a La); auto. }
  destruct (all_nodes 0 ps) as [|n0 ns] eqn:En.
  { inversion D; subst. eexists. eexists. split; [reflexivity|]. cbn [sel_nodes sel_infos]. split; [constructor|].
    split; [intros nd; split; [intros []|]; intros [H _]; apply AN in H; destruct H|].
    split; [destruct want; [constructor|reflexivity]|]. auto. }
  set (v := value_of env name) in *.
  (* no restriction *)
  assert (All : (forall nd, In nd (n0 :: ns) -> chosen_by v allowed nd) -> exists s h',
    (if want then Some (mkSel (n0 :: ns) is true, h ++ t) else obind (free_all is (h ++ t)) (fun h => Some (mkSel (n0 :: ns) [] false, h))) = Some (s, h') /\
    increasing (map nd_id (sel_nodes s)) /\
    (forall nd, In nd (sel_nodes s) <-> is_node ps nd /\ chosen_by v allowed nd) /\
    (if want then Forall2 (described h' os) (sel_nodes s) (sel_infos s) else sel_infos s = []) /\
    owns_all (sel_infos s) h' /\ nothing_else h h' [] (owned_all (sel_infos s))).
  { intros Hc. destruct want.
    - eexists. eexists. split; [reflexivity|]. cbn [sel_nodes sel_infos]. split; [exact So|]. split; [|auto].
      intros nd. rewrite <- AN. split; [auto|tauto].
    - destruct (give_back os h t (n0 :: ns) is [] [] is Ow Fr Lv) as (h' & Eh & _ & O' & N'); auto.
      rewrite Eh. cbn [obind]. eexists. eexists. split; [reflexivity|]. cbn [sel_nodes sel_infos]. split; [exact So|].
      split; [|auto]. intros nd. rewrite <- AN. split; [auto|tauto]. }
  destruct v as [[|a w]|] eqn:Ev.
  - apply All. intros nd _. exact Logic.I.
  - destruct (text_eqb (a :: w) (lit "first")) eqn:Ef.
    { apply text_eqb_spec in Ef. inversion D as [|? i0 ? is' Di Dr]; subst is.
      assert (Fst : forall nd, In nd [n0] <-> is_node ps nd /\ chosen_by (Some (a :: w)) allowed nd).
      { intros nd. rewrite <- AN. cbn [chosen_by]. rewrite Ef. pose proof (first_node ps n0 ns En) as F0. cbn [In]. split.
        - intros [<-|[]]. split; auto.
        - intros [[->|Hn] [C|[[_ C]|[_ [C _]]]]]; auto; try discriminate C; try congruence.
          cbn [map] in So. inversion So as [|? ? _ Fa]; subst. rewrite Forall_forall in Fa.
          specialize (Fa (nd_id nd) (in_map nd_id _ _ Hn)). rewrite F0, C in Fa. destruct (before_irrefl _ Fa). }
      assert (Inc : increasing (map nd_id [n0])) by (repeat constructor).
      destruct want.
      - destruct (give_back os h t (n0 :: ns) (i0 :: is') [n0] [i0] (ci_preset :: is') Ow Fr Lv) as (h' & Eh & D' & O' & N'); auto.
        { unfold owned_all. cbn [map concat app]. rewrite app_nil_r. reflexivity. }
        rewrite Eh. cbn [obind]. eexists. eexists. split; [reflexivity|]. cbn [sel_nodes sel_infos]. auto.
      - destruct (give_back os h t (n0 :: ns) (i0 :: is') [] [] (i0 :: is') Ow Fr Lv) as (h' & Eh & D' & O' & N'); auto.
        rewrite Eh. cbn [obind]. eexists. eexists. split; [reflexivity|]. cbn [sel_nodes sel_infos]. auto. }
    destruct (text_eqb (a :: w) (lit "all")) eqn:Ea.
    { apply text_eqb_spec in Ea. apply All. intros nd _. cbn [chosen_by]. auto. }
    assert (Nf : a :: w <> lit "first") by (intros H; apply text_eqb_spec in H; congruence).
    assert (Na : a :: w <> lit "all") by (intros H; apply text_eqb_spec in H; congruence).
    rewrite (Al (a :: w)) by (split; auto; split; [discriminate|auto]). cbn [obind].
    assert (Ch : forall nd, chosen_by (Some (a :: w)) allowed nd <-> In (nd_id nd) allowed) by (intros nd; cbn [chosen_by]; tauto).
    destruct allowed as [|m0 l] eqn:El.
    + destruct (give_back os h t (n0 :: ns) is [] [] is Ow Fr Lv) as (h' & Eh & D' & O' & N'); auto.
      rewrite Eh. cbn [obind]. eexists. eexists. split; [reflexivity|]. cbn [sel_nodes sel_infos]. split; [constructor|].
      split; [intros nd; rewrite Ch; cbn [In]; tauto|]. split; [destruct want; auto|]. auto.
    + rewrite <- El in *. destruct (pick_ok (described (h ++ t) os) want allowed (n0 :: ns) is D) as (out & rest & Ep & Ho & P).
      rewrite Ep.
      assert (Fl : forall nd, In nd (filter (fun nd => found allowed (nd_id nd)) (n0 :: ns)) <-> is_node ps nd /\ chosen_by (Some (a :: w)) allowed nd).
      { intros nd. rewrite filter_In, AN, Ch. rewrite found_in. tauto. }
      assert (Inc : increasing (map nd_id (filter (fun nd => found allowed (nd_id nd)) (n0 :: ns)))) by (apply sorted_filter; exact So).
      destruct want.
      * destruct (give_back os h t (n0 :: ns) is _ out rest Ow Fr Lv P D Ho) as (h' & Eh & D' & O' & N').
        rewrite Eh. cbn [obind]. eexists. eexists. split; [reflexivity|]. cbn [sel_nodes sel_infos]. auto.
      * subst out. destruct (give_back os h t (n0 :: ns) is [] [] rest Ow Fr Lv P D) as (h' & Eh & D' & O' & N'); auto.
        rewrite Eh. cbn [obind]. eexists. eexists. split; [reflexivity|]. cbn [sel_nodes sel_infos]. auto.
  - apply All. intros nd _. exact Logic.I.
Qed.

(* ---- looking up ---- *)
Lemma find_from_spec : forall ids p d, 
  (exists k, find_from ids p d = Z.of_nat k /\ nth_error ids k = Some (mkCN p d) /\ forall j, (j < k)%nat -> nth_error ids j <> Some (mkCN p d))
  \/ (find_from ids p d = Z.of_nat (length ids) /\ ~ In (mkCN p d) ids).
Proof.
  induction ids as [|[p' d'] ids IH]; intros p d; cbn [find_from].
  - right. split; [reflexivity|]. intros [].
  - cbn [cn_platform cn_device]. destruct ((p =? p') && (d =? d')) eqn:E.
    + apply andb_true_iff in E as [E1 E2]. apply Z.eqb_eq in E1, E2. subst p' d'. left. exists O. split; [reflexivity|]. split; [reflexivity|]. lia.
    + assert (Ne : mkCN p' d' <> mkCN p d).
      { intros H. injection H as -> ->. rewrite !Z.eqb_refl in E. discriminate. }
      destruct (IH p d) as [(k & E1 & E2 & E3)|[E1 E2]]; rewrite E1.
      * left. exists (S k). split; [lia|]. split; [exact E2|]. intros [|j] Hj; cbn [nth_error]; [congruence|apply E3; lia].
      * right. split; [cbn [length]; lia|]. intros [H|H]; auto.
Qed.
