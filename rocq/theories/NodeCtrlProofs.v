From Coq Require Import Ascii String ZArith Bool Lia List.
From Verif Require Import MBuf NodeId NodeIdSpec NodeIdProofs NodeCtrl NodeCtrlSpec.
Import ListNotations.
Local Open Scope Z_scope.

Definition key (x : info) : Z * Z * chars := (n_platform (i_id x), n_device (i_id x), i_name x).

Lemma upd_length : forall T (l : list T) k f, length (upd l k f) = length l.
Proof. induction l; intros [|k] f; cbn; auto. Qed.
Lemma upd_nth : forall T (l : list T) k f j,
  nth_error (upd l k f) j = if Nat.eqb j k then option_map f (nth_error l j) else nth_error l j.
Proof.
  induction l as [|x l IH]; intros [|k] f [|j]; cbn; auto.
  destruct (Nat.eqb j k); reflexivity.
Qed.
Lemma upd_map : forall T U (g : T -> U) l k f, (forall x, g (f x) = g x) -> map g (upd l k f) = map g l.
Proof. induction l as [|x l IH]; intros [|k] f H; cbn; auto; f_equal; auto. Qed.

Definition ptr_of (e : nat) (k : option Z) : nptr := option_map (fun i => (e, Z.to_nat i)) k.
Definition str_of (s : chars) : chars := s ++ repeat nul (18 - length s).

Record rep (c : ctrl) (s : state) : Prop := {
  r_keys : map key (c_nodes c) = nodes s;
  r_index : forall i x, nth_error (c_nodes c) i = Some x -> n_index (i_id x) = Z.of_nat i;
  r_ids : Forall (fun x => 0 <= fst (fst x) /\ 0 <= snd (fst x)) (nodes s);
  r_nodup : NoDup (map fst (nodes s));
  r_few : count s < undefined_index;
  r_default : c_default c = ptr_of (c_epoch c) (default s);
  r_selected : c_selected c = ptr_of (c_epoch c) (selected s);
  r_kd : forall i, default s = Some i -> known s i = true;
  r_ks : forall i, selected s = Some i -> known s i = true /\ fits s i = true;
  r_str : c_str c = str_of (match selected s with Some k => id_text s k | None => [] end);
  r_min : c_min c = if count s =? 0 then undefined_index else 0;
  r_max : c_max c = if count s =? 0 then undefined_index else count s - 1;
  r_direct : c_direct c = may_switch s; r_unsel : c_unsel c = may_unselect s; r_auto : c_auto c = auto_default s }.

Lemma rep_new : rep ctrl_new no_nodes.
Proof.
  constructor; cbn; try reflexivity; try discriminate; try constructor.
  intros [|i] x; discriminate.
Qed.

Section Rep.
Variables (c : ctrl) (s : state).
Hypothesis R : rep c s.

Lemma rep_len : length (c_nodes c) = length (nodes s).
Proof. rewrite <- (r_keys _ _ R). now rewrite map_length. Qed.
Lemma rep_count : num_nodes c = count s.
Proof. unfold num_nodes, count. now rewrite rep_len. Qed.

Lemma known_iff : forall i, known s i = true <-> 0 <= i < count s.
Proof. intros. unfold known. rewrite andb_true_iff, Z.leb_le, Z.ltb_lt. tauto. Qed.

Lemma node_at_known : forall i, known s i = true -> exists x,
  node_at c i = Some x /\ nth_error (c_nodes c) (Z.to_nat i) = Some x /\ n_index (i_id x) = i /\
  nth_error (nodes s) (Z.to_nat i) = Some (key x) /\ ids s i = Some (n_platform (i_id x), n_device (i_id x)).
Proof using R.
  intros i K. unfold node_at, ids. rewrite K. unfold known in K. rewrite rep_count, K.
  change (known s i = true) in K. apply known_iff in K.
  destruct (nth_error (c_nodes c) (Z.to_nat i)) as [x|] eqn:E.
  - exists x. split; [reflexivity|]. split; [reflexivity|]. split.
    + rewrite (r_index _ _ R _ _ E). lia.
    + rewrite <- (r_keys _ _ R). rewrite (map_nth_error key _ _ E). auto.
  - exfalso. apply nth_error_None in E. rewrite rep_len in E. unfold count in K. lia.
Qed.
Lemma node_at_unknown : forall i, known s i = false -> node_at c i = None.
Proof using R. intros i K. unfold node_at. unfold known in K. now rewrite rep_count, K. Qed.

Lemma known_defined : forall i, known s i = true -> (i =? undefined_index) = false.
Proof using R. intros i K. apply known_iff in K. pose proof (r_few _ _ R). apply Z.eqb_neq. lia. Qed.

Lemma available : forall i, is_available c i = known s i.
Proof using R.
  intros i. unfold is_available. destruct (known s i) eqn:K.
  - rewrite (known_defined i K). destruct (node_at_known i K) as (x & -> & _). reflexivity.
  - rewrite (node_at_unknown i K). apply andb_false_r.
Qed.

Lemma deref_at : forall i, known s i = true -> exists x, node_at c i = Some x /\
  deref c (c_epoch c, Z.to_nat i) = Some (i_id x) /\ n_index (i_id x) = i /\ has_index (i_id x) = true.
Proof using R.
  intros i K. destruct (node_at_known i K) as (x & A & B & I & _). exists x. split; [exact A|].
  unfold deref. cbn [fst snd]. rewrite Nat.eqb_refl, B. cbn [option_map]. split; [reflexivity|]. split; [exact I|].
  unfold has_index. rewrite I, (known_defined i K). reflexivity.
Qed.

Lemma count_pos : forall i, known s i = true -> (i <? count s) = true.
Proof using. intros i K. apply Z.ltb_lt. apply known_iff in K. lia. Qed.

Lemma selected_index_ok : selected_index c = Some (index_of (selected s)).
Proof using R.
  unfold selected_index. rewrite (r_selected _ _ R). destruct (selected s) as [i|] eqn:S; cbn [ptr_of option_map index_of]; [|reflexivity].
  destruct (deref_at i (proj1 (r_ks _ _ R i S))) as (x & _ & -> & I & H). cbn [bind]. now rewrite H, I.
Qed.
Lemma has_selected_ok : has_selected c = Some (some (selected s)).
Proof using R.
  unfold has_selected. rewrite (r_selected _ _ R), selected_index_ok.
  destruct (selected s) as [i|] eqn:S; cbn [ptr_of option_map index_of some bind]; [|reflexivity].
  rewrite rep_count, (count_pos i (proj1 (r_ks _ _ R i S))). reflexivity.
Qed.
Lemma is_selected_ok : forall i, is_selected c i = Some (is (selected s) i).
Proof using R.
  intros i. unfold is_selected. rewrite has_selected_ok, selected_index_ok.
  destruct (selected s) as [k|] eqn:S; cbn [index_of some bind is]; [|now destruct (i =? _)].
  destruct (Z.eqb_spec i undefined_index) as [->|N]; [|reflexivity].
  rewrite (known_defined k (proj1 (r_ks _ _ R k S))). reflexivity.
Qed.

Lemma default_ok : default_index c = Some (index_of (default s)) /\ has_default c = Some (some (default s)).
Proof using R.
  unfold default_index, has_default. rewrite (r_default _ _ R).
  destruct (default s) as [i|] eqn:S; cbn [ptr_of option_map index_of some]; [|split; reflexivity].
  destruct (deref_at i (r_kd _ _ R i S)) as (x & _ & -> & I & H). cbn [bind].
  rewrite H, I, rep_count, (count_pos i (r_kd _ _ R i S)). split; reflexivity.
Qed.
Lemma is_default_ok : forall i, is_default c i = Some (is (default s) i).
Proof using R.
  intros i. unfold is_default. rewrite (proj2 default_ok), (proj1 default_ok).
  destruct (default s); reflexivity.
Qed.

Lemma id_text_at : forall i x, node_at c i = Some x -> known s i = true -> id_text s i = text (i_id x).
Proof using R.
  intros i x A K. destruct (node_at_known i K) as (y & A' & _ & _ & _ & E). unfold id_text. rewrite E.
  replace y with x by congruence. reflexivity.
Qed.

Lemma id_text_no_nul : forall i, List.Forall (fun a => Ascii.eqb a nul = false) (id_text s i).
Proof using. intros i. unfold id_text. destruct (ids s i) as [[p d]|]; [apply text_no_nul|constructor]. Qed.

Lemma str_read : forall t, List.Forall (fun a => Ascii.eqb a nul = false) t -> (length t <= 17)%nat ->
  c_string (str_of t) = Some t.
Proof using.
  intros t F L. unfold str_of. replace (18 - length t)%nat with (S (17 - length t)) by lia.
  cbn [repeat]. now apply c_string_app.
Qed.

Lemma selected_str_ok : selected_str c = Some (match selected s with Some k => id_text s k | None => [] end).
Proof using R.
  unfold selected_str. rewrite (r_str _ _ R). apply str_read.
  - destruct (selected s); [apply id_text_no_nul|constructor].
  - destruct (selected s) as [k|] eqn:S; [|cbn; lia].
    destruct (r_ks _ _ R k S) as (_ & F). unfold fits in F. apply Z.leb_le in F. lia.
Qed.

Lemma str_length : length (c_str c) = 18%nat.
Proof using R.
  rewrite (r_str _ _ R). unfold str_of. rewrite app_length, repeat_length.
  destruct (selected s) as [k|] eqn:S; [|reflexivity].
  destruct (r_ks _ _ R k S) as (_ & F). unfold fits in F. apply Z.leb_le in F. lia.
Qed.
End Rep.

Lemma indices_gen : forall c s, rep c s -> count s <> 0 -> forall f k room,
  0 <= room -> (k <= length (nodes s))%nat -> (length (nodes s) - k <= f)%nat ->
  indices_from c f (Z.of_nat k) room =
  map Z.of_nat (seq k (Nat.min (length (nodes s) - k) (Z.to_nat room))).
Proof.
  intros c s R NZ. induction f as [|f IH]; intros k room H0 Hk Hf.
  - replace (length (nodes s) - k)%nat with O by lia. reflexivity.
  - cbn [indices_from]. rewrite (r_max _ _ R), (available c s R).
    rewrite (proj2 (Z.eqb_neq (count s) 0) NZ).
    pose proof (r_few _ _ R) as F. unfold count in *.
    destruct (Nat.eq_dec k (length (nodes s))) as [->|N].
    + rewrite (proj2 (Z.leb_gt _ _)) by lia. cbn [andb]. rewrite Nat.sub_diag. reflexivity.
    + rewrite (proj2 (Z.leb_le _ _)) by lia.
      rewrite (proj2 (Z.eqb_neq (Z.of_nat k) undefined_index)) by lia. cbn [andb negb].
      destruct (Z.eq_dec room 0) as [->|NR].
      * rewrite Nat.min_0_r. reflexivity.
      * rewrite (proj2 (Z.ltb_lt 0 room)) by lia.
        rewrite (proj2 (known_iff s (Z.of_nat k))) by (unfold count; lia).
        replace (Z.of_nat k + 1) with (Z.of_nat (S k)) by lia.
        rewrite IH by lia.
        replace (Nat.min (length (nodes s) - k) (Z.to_nat room))
          with (S (Nat.min (length (nodes s) - S k) (Z.to_nat (room - 1)))) by lia.
        reflexivity.
Qed.

Lemma rep_shows : forall c s, rep c s -> shows c s.
Proof.
  intros c s R. constructor.
  - now apply rep_count.
  - intros i. unfold node_id_at. destruct (known s i) eqn:K.
    + destruct (node_at_known c s R i K) as (x & -> & _ & _ & _ & ->). reflexivity.
    + rewrite (node_at_unknown c s R i K). unfold ids. now rewrite K.
  - now apply available.
  - now apply has_selected_ok.
  - now apply selected_index_ok.
  - now apply is_selected_ok.
  - now apply selected_str_ok.
  - now apply default_ok.
  - now apply default_ok.
  - now apply is_default_ok.
  - intros m Hm. unfold available_indices. rewrite (rep_count c s R).
    destruct (Z.eq_dec (count s) 0) as [E|E].
    + rewrite E. cbn [Z.ltb Z.compare]. unfold count in E. replace (length (nodes s)) with O by lia. reflexivity.
    + rewrite (proj2 (Z.ltb_lt 0 (count s))) by (unfold count in *; lia).
      rewrite (r_min _ _ R), (proj2 (Z.eqb_neq _ _) E). change 0 with (Z.of_nat 0).
      rewrite (indices_gen c s R E) by (rewrite ?(rep_len c s R); lia).
      now rewrite Nat.sub_0_r.
Qed.

(* ---- selection ---- *)
Lemma to_array_text : forall n b, valid n = true -> Z.of_nat (length (text n)) <= 16 ->
  to_array n (Some b) 17 = Some (Some (text n ++ repeat nul (17 - length (text n))), 0).
Proof.
  intros n b V L. unfold to_array. change (0 <? 17) with true. cbn [andb]. rewrite V.
  rewrite (proj2 (Z.ltb_lt _ _)) by lia. unfold zeros. change (Z.to_nat 17) with 17%nat.
  assert (E : (17 - length (text n) = S (17 - length (text n) - 1))%nat) by lia.
  rewrite skipn_zeros by lia. rewrite E at 2. reflexivity.
Qed.
Lemma to_array_long : forall n b, 16 < Z.of_nat (length (text n)) ->
  to_array n (Some b) 17 = Some (Some (repeat nul 17), -1).
Proof.
  intros n b L. unfold to_array. change (0 <? 17) with true. cbv iota.
  rewrite (proj2 (Z.ltb_ge _ _)) by lia. destruct (valid n); reflexivity.
Qed.

Definition keeps_key (f : info -> info) : Prop := forall x, key (f x) = key x.

Lemma text_index : forall n i, text (set_index i n) = text n.
Proof. reflexivity. Qed.

Lemma valid_at : forall c s, rep c s -> forall i x, nth_error (c_nodes c) i = Some x -> valid (i_id x) = true.
Proof.
  intros c s R i x E. pose proof (r_ids _ _ R) as F. rewrite Forall_forall in F.
  assert (In (key x) (nodes s)) as I.
  { rewrite <- (r_keys _ _ R). apply in_map. eapply nth_error_In; eauto. }
  destruct (F _ I) as (A & B). cbn [key fst snd] in A, B. unfold valid, illegal_id.
  rewrite (proj2 (Z.eqb_neq _ _)) by lia. rewrite (proj2 (Z.eqb_neq (n_device _) _)) by lia. reflexivity.
Qed.

Lemma index_kept : forall c s i f, rep c s -> (forall y, n_index (i_id (f y)) = n_index (i_id y) \/ n_index (i_id (f y)) = i) ->
  0 <= i ->
  forall j x, nth_error (upd (c_nodes c) (Z.to_nat i) f) j = Some x -> n_index (i_id x) = Z.of_nat j.
Proof.
  intros c s i f R H H0 j x. rewrite upd_nth. destruct (Nat.eqb_spec j (Z.to_nat i)) as [->|N].
  - destruct (nth_error (c_nodes c) (Z.to_nat i)) as [y|] eqn:E; [|discriminate]. cbn [option_map].
    intros [= <-]. destruct (H y) as [->| ->]; [now apply (r_index _ _ R)|lia].
  - apply (r_index _ _ R).
Qed.

Lemma sel_state : forall c s k t, rep c s -> selected s = None ->
  (forall i, k = Some i -> known s i = true /\ fits s i = true) ->
  t = str_of (match k with Some k => id_text s k | None => [] end) ->
  forall l, map key l = nodes s -> (forall i x, nth_error l i = Some x -> n_index (i_id x) = Z.of_nat i) ->
  rep (set_selected (ptr_of (c_epoch c) k) t (set_nodes l c)) (choose k s).
Proof.
  intros c s k t R S K -> l Hl Hi. destruct R. constructor; cbn; auto.
Qed.

Lemma do_select_ok : forall c s i, rep c s -> exists c',
  do_select c i = Some (fst (match selected s with None => on_select s i | _ => (-1, s) end), c') /\
  rep c' (snd (match selected s with None => on_select s i | _ => (-1, s) end)).
Proof.
  intros c s i R. unfold do_select. rewrite (has_selected_ok c s R). cbn [bind].
  destruct (selected s) as [k|] eqn:S; cbn [some negb andb]; [exists c; auto|].
  unfold on_select. rewrite S. rewrite (rep_count c s R).
  destruct (known s i) eqn:K; cycle 1.
  { assert (F : negb (i =? undefined_index) && (0 <=? i) && (i <? count s) = false).
    { unfold known in K. rewrite <- andb_assoc, K. apply andb_false_r. }
    cbn [andb]. rewrite F. exists c. auto. }
  rewrite (known_defined c s R i K). assert (K' := K). unfold known in K'. cbn [negb andb]. rewrite K'.
  destruct (node_at_known c s R i K) as (x & A & B & I & _ & _). rewrite A.
  change (STR_CAPACITY - 1) with 17. cbn [andb].
  assert (T := id_text_at c s R i x A K).
  pose proof (str_length c s R) as SL.
  assert (S17 : skipn 17 (c_str c) = [nul]).
  { rewrite (r_str _ _ R), S. reflexivity. }
  destruct (fits s i) eqn:F.
  - unfold fits in F. rewrite T in F. apply Z.leb_le in F.
    rewrite (to_array_text _ _ (valid_at c s R _ _ B) F). cbn [bind]. change (0 =? 0) with true. cbv iota.
    eexists. split; [reflexivity|]. cbn [snd fst].
    change (Some (c_epoch c, Z.to_nat i)) with (ptr_of (c_epoch c) (Some i)).
    apply sel_state; auto.
    + intros j [= <-]. split; [exact K|]. unfold fits. rewrite T. now apply Z.leb_le.
    + rewrite T, S17. unfold str_of. rewrite <- app_assoc. f_equal.
      replace (18 - length (text (i_id x)))%nat with ((17 - length (text (i_id x))) + 1)%nat by lia.
      now rewrite repeat_app.
    + rewrite upd_map; [now apply r_keys|reflexivity].
    + apply known_iff in K. apply (index_kept c s); [exact R| |lia]. intros y. right. reflexivity.
  - unfold fits in F. rewrite T in F. apply Z.leb_gt in F.
    rewrite to_array_long by lia. cbn [bind]. change (-1 =? 0) with false. cbv iota.
    eexists. split; [reflexivity|]. cbn [snd fst].
    rewrite S17. change (repeat nul 17 ++ [nul]) with (str_of []).
    assert (E : c_str c = str_of []) by (rewrite (r_str _ _ R), S; reflexivity).
    rewrite <- E. destruct c; exact R.
Qed.

Lemma rep_unselected : forall c s, rep c s ->
  rep (set_selected None (zeros (Z.of_nat (length (c_str c)))) c) (choose None s).
Proof.
  intros c s R. rewrite (str_length c s R). change (zeros (Z.of_nat 18)) with (str_of []).
  destruct R. constructor; cbn; auto. discriminate.
Qed.

Lemma do_remove_ok : forall c s i, rep c s -> is (selected s) i = true ->
  do_remove c i = Some (set_selected None (zeros (Z.of_nat (length (c_str c)))) c).
Proof. intros c s i R E. unfold do_remove. rewrite (is_selected_ok c s R), E. reflexivity. Qed.

Lemma do_unselect_ok : forall c s i, rep c s -> exists c',
  do_unselect c i = Some (fst (on_unselect s i), c') /\ rep c' (snd (on_unselect s i)).
Proof.
  intros c s i R. unfold do_unselect, on_unselect. rewrite (is_selected_ok c s R), (r_unsel _ _ R). cbn [bind].
  destruct (is (selected s) i && may_unselect s) eqn:E; [|exists c; auto].
  apply andb_true_iff in E. destruct E as (E & _).
  rewrite (do_remove_ok c s i R E). cbn [bind].
  pose proof (rep_unselected c s R) as R'. rewrite (is_selected_ok _ _ R'). cbn [bind choose selected is].
  eexists. split; [reflexivity|exact R'].
Qed.

Lemma on_select_none : forall s i, selected s = None ->
  on_select s i = if known s i && fits s i then (0, choose (Some i) s) else (-1, s).
Proof. intros s i S. unfold on_select. now rewrite S. Qed.

Lemma choose_known : forall k s i, known (choose k s) i = known s i.
Proof. reflexivity. Qed.
Lemma choose_fits : forall k s i, fits (choose k s) i = fits s i.
Proof. reflexivity. Qed.
Lemma choose_twice : forall k j s, choose k (choose j s) = choose k s.
Proof. reflexivity. Qed.

Lemma do_change_ok : forall c s k i, rep c s -> exists c',
  do_change c k i = Some (fst (on_change s k i), c') /\ rep c' (snd (on_change s k i)).
Proof.
  intros c s k i R. unfold do_change, on_change.
  rewrite (has_selected_ok c s R), !(is_selected_ok c s R), (available c s R). cbn [bind].
  unfold can_change. rewrite (r_direct _ _ R), (r_unsel _ _ R).
  destruct (is (selected s) k) eqn:E; cycle 1.
  { rewrite !andb_false_r. cbn [andb]. exists c. auto. }
  assert (S : selected s = Some k).
  { destruct (selected s) as [j|]; [|discriminate]. cbn [is] in E. apply Z.eqb_eq in E. now subst. }
  destruct (Z.eqb_spec k i) as [->|N].
  { cbn [negb andb]. rewrite S. cbn [some andb is]. exists c. auto. }
  rewrite S. cbn [some is negb andb]. rewrite (proj2 (Z.eqb_neq _ _) N). cbn [negb].
  destruct (known s i) eqn:K; cbn [andb]; [|exists c; auto].
  pose proof (rep_unselected c s R) as R'.
  assert (Fin : exists c', do_select (set_selected None (zeros (Z.of_nat (length (c_str c)))) c) i =
     Some (fst (if fits s i then (0, choose (Some i) s) else (-1, choose None s)), c') /\
     rep c' (snd (if fits s i then (0, choose (Some i) s) else (-1, choose None s)))).
  { destruct (do_select_ok _ _ i R') as (c' & A & B). cbn [choose selected] in A, B.
    rewrite (on_select_none (choose None s) i eq_refl), choose_known, choose_fits, K in A, B. cbn [andb] in A, B.
    rewrite choose_twice in A, B. eauto. }
  destruct (may_switch s) eqn:M; cbn [orb].
  - rewrite (do_remove_ok c s k R E). cbn [bind]. rewrite (is_selected_ok _ _ R'). cbn [bind choose selected is negb].
    exact Fin.
  - destruct (may_unselect s) eqn:U; [|exists c; auto].
    rewrite (selected_index_ok c s R), S. cbn [bind index_of].
    unfold do_unselect. rewrite (is_selected_ok c s R), E, (r_unsel _ _ R), U. cbn [bind andb].
    rewrite (do_remove_ok c s k R E). cbn [bind]. rewrite (is_selected_ok _ _ R'). cbn [bind choose selected is].
    change (0 =? 0) with true. cbv iota. exact Fin.
Qed.

Lemma select_ok : forall c s i, rep c s -> exists c',
  select_node c i = Some (fst (on_select s i), c') /\ rep c' (snd (on_select s i)).
Proof.
  intros c s i R. unfold select_node. rewrite (has_selected_ok c s R). cbn [bind].
  destruct (selected s) as [k|] eqn:S; cbn [some negb].
  - unfold on_select. rewrite S. unfold can_change. rewrite (r_direct _ _ R), (r_unsel _ _ R).
    destruct (may_switch s || may_unselect s) eqn:M.
    + rewrite (selected_index_ok c s R), S. cbn [bind index_of]. now apply do_change_ok.
    + unfold on_change. rewrite M, andb_false_r. exists c. auto.
  - destruct (do_select_ok c s i R) as (c' & A & B). rewrite S in A, B. eauto.
Qed.

Lemma unselect_at_ok : forall c s i, rep c s -> exists c',
  unselect_node c i = Some (fst (on_unselect_at s i), c') /\ rep c' (snd (on_unselect_at s i)).
Proof.
  intros c s i R. unfold unselect_node. rewrite (is_default_ok c s R). cbn [bind].
  destruct (do_unselect_ok c s i R) as (c1 & A & R1). rewrite A. cbn [bind].
  unfold on_unselect_at.
  unfold on_unselect in *. destruct (is (selected s) i && may_unselect s); cbn [fst snd] in *.
  - change (0 =? 0) with true. cbn [andb].
    rewrite (r_auto _ _ R1), (proj1 (default_ok _ _ R1)), (proj2 (default_ok _ _ R1)).
    cbn [choose auto_default default]. destruct (default s) as [k|] eqn:D.
    + cbn [is]. destruct (auto_default s && negb (k =? i)); [|exists c1; auto].
      cbn [some index_of bind]. destruct (do_select_ok _ _ k R1) as (c2 & A2 & R2).
      cbn [choose selected] in A2, R2. eauto.
    + cbn [is negb some bind]. destruct (auto_default s && true); exists c1; auto.
  - change (-1 =? 0) with false. cbn [andb]. exists c1. destruct (default s); auto.
Qed.

(* ---- appending ---- *)
Lemma find_from_ok : forall l p d ii, 
  (forall k, nth_error l k = None \/ True) ->
  find_from l ii p d = undefined_index /\ ~ in_use (map key l) p d \/
  exists k m, find_from l ii p d = ii + Z.of_nat k /\ nth_error (map key l) k = Some (p, d, m).
Proof.
  intros l p d. induction l as [|x l IH]; intros ii _; cbn [find_from map].
  - left. split; [reflexivity|]. intros (m & []).
  - destruct ((n_platform (i_id x) =? p) && (n_device (i_id x) =? d)) eqn:E.
    + apply andb_true_iff in E. destruct E as (E1 & E2). apply Z.eqb_eq in E1, E2.
      right. exists O, (i_name x). split; [lia|]. cbn. unfold key. now rewrite E1, E2.
    + destruct (IH (ii + 1)) as [(A & B)|(k & m & A & B)]; [auto| |].
      * left. split; [exact A|]. intros (m & [H|H]).
        -- unfold key in H. injection H as H1 H2 _. rewrite H1, H2, !Z.eqb_refl in E. discriminate.
        -- apply B. now exists m.
      * right. exists (S k), m. split; [lia|exact B].
Qed.

Lemma find_index_ok : forall c s p d, rep c s -> p <> -1 -> d <> -1 ->
  find_index c p d = undefined_index /\ ~ in_use (nodes s) p d \/
  exists i, find_index c p d = i /\ known s i = true /\ ids s i = Some (p, d) /\ in_use (nodes s) p d.
Proof.
  intros c s p d R Hp Hd. unfold find_index, illegal_id.
  rewrite (proj2 (Z.eqb_neq p (-1)) Hp), (proj2 (Z.eqb_neq d (-1)) Hd). cbn [negb andb].
  destruct (find_from_ok (c_nodes c) p d 0) as [(A & B)|(k & m & A & B)]; [auto| |];
    rewrite (r_keys _ _ R) in B.
  - left. auto.
  - right. exists (Z.of_nat k). split; [lia|].
    assert (K : known s (Z.of_nat k) = true).
    { apply known_iff. unfold count. assert (k < length (nodes s))%nat by (apply nth_error_Some; congruence). lia. }
    split; [exact K|]. split; [|exists m; eapply nth_error_In; eauto].
    unfold ids. rewrite K, Nat2Z.id, B. reflexivity.
Qed.

Lemma next_platform_ok : forall l, List.Forall (fun x => valid (i_id x) = true) l ->
  0 <= next_platform l /\ (forall x, In x l -> n_platform (i_id x) < next_platform l) /\
  (next_platform l = 0 \/ exists x, In x l /\ n_platform (i_id x) = next_platform l - 1).
Proof.
  intros l F. unfold next_platform.
  assert (G : forall l, List.Forall (fun x => valid (i_id x) = true) l -> forall n0, 0 <= n0 ->
    let n := fold_left (fun n x => if valid (i_id x) && (n <=? n_platform (i_id x)) then n_platform (i_id x) + 1 else n) l n0 in
    n0 <= n /\ (forall x, In x l -> n_platform (i_id x) < n) /\ (n = n0 \/ exists x, In x l /\ n_platform (i_id x) = n - 1)).
  { clear l F. induction 1 as [|x l V F IH]; intros n0 H0; cbn [fold_left].
    - cbv zeta. split; [lia|]. split; [intros x []|now left].
    - rewrite V. cbn [andb]. destruct (Z.leb_spec n0 (n_platform (i_id x))) as [L|L].
      + destruct (IH (n_platform (i_id x) + 1)) as (A & B & C); [lia|]. cbv zeta in *.
        split; [lia|]. split.
        * intros y [<-|Hy]; [lia|auto].
        * right. destruct C as [->|(y & Hy & E)]; [exists x; split; [now left|lia]|exists y; split; [now right|exact E]].
      + destruct (IH n0 H0) as (A & B & C). cbv zeta in *.
        split; [lia|]. split.
        * intros y [<-|Hy]; [lia|auto].
        * destruct C as [->|(y & Hy & E)]; [now left|right; exists y; split; [now right|exact E]]. }
  destruct (G l F 0 (Z.le_refl 0)) as (A & B & C). auto.
Qed.

Lemma next_device_ok : forall l p, List.Forall (fun x => valid (i_id x) = true /\ 0 <= n_device (i_id x)) l ->
  (exists x, In x l /\ n_platform (i_id x) = p) ->
  (forall x, In x l -> n_platform (i_id x) = p -> n_device (i_id x) < next_device l p) /\
  exists x, In x l /\ n_platform (i_id x) = p /\ n_device (i_id x) = next_device l p - 1.
Proof.
  intros l p F (x0 & I0 & P0). unfold next_device, illegal_id.
  set (g := fun n x => _).
  assert (G : forall l, List.Forall (fun x => valid (i_id x) = true /\ 0 <= n_device (i_id x)) l -> forall n0, -1 <= n0 -> n0 <> 0 ->
    let n := fold_left g l n0 in
    n0 <= n /\ n <> 0 /\ (forall x, In x l -> n_platform (i_id x) = p -> n_device (i_id x) < n) /\
    (n = n0 \/ exists x, In x l /\ n_platform (i_id x) = p /\ n_device (i_id x) = n - 1)).
  { clear l F x0 I0 P0. induction 1 as [|x l (V & D) F IH]; intros n0 H0 H1; cbn [fold_left].
    - cbv zeta. split; [lia|]. split; [lia|]. split; [intros x []|now left].
    - set (n1 := g n0 x). assert (En : n1 = g n0 x) by reflexivity. clearbody n1. unfold g in En. rewrite V in En. cbn [andb] in En.
      destruct (Z.eqb_spec (n_platform (i_id x)) p) as [E|E]; cbn [andb] in En; [destruct ((n0 =? -1) || (n0 <=? n_device (i_id x))) eqn:C0|]; subst n1; cycle 2.
      + destruct (IH n0 H0 H1) as (A & B & C & Q). cbv zeta in *. split; [lia|]. split; [exact B|]. split.
        * intros y [<-|Hy] HE; [contradiction|auto].
        * destruct Q as [->|(y & Hy & E2)]; [now left|right; exists y; split; [now right|exact E2]].
      + assert (n0 <= n_device (i_id x)) as L.
        { apply orb_true_iff in C0. rewrite Z.eqb_eq, Z.leb_le in C0. lia. }
        destruct (IH (n_device (i_id x) + 1)) as (A & B & C & Q); [lia|lia|]. cbv zeta in *.
        split; [lia|]. split; [exact B|]. split.
        * intros y [<-|Hy] HE; [lia|auto].
        * right. destruct Q as [->|(y & Hy & E2)]; [exists x; split; [now left|lia]|exists y; split; [now right|exact E2]].
      + apply orb_false_iff in C0. rewrite Z.eqb_neq, Z.leb_gt in C0.
        destruct (IH n0 H0 H1) as (A & B & C & Q). cbv zeta in *. split; [lia|]. split; [exact B|]. split.
        * intros y [<-|Hy] HE; [lia|auto].
        * destruct Q as [->|(y & Hy & E2)]; [now left|right; exists y; split; [now right|exact E2]]. }
  destruct (G l F (-1)) as (A & B & C & Q); [lia|lia|]. cbv zeta in *.
  split; [exact C|]. destruct Q as [Q|Q]; [|exact Q].
  exfalso. specialize (C x0 I0 P0). rewrite Forall_forall in F. destruct (F x0 I0). lia.
Qed.

Lemma by_name_ok : forall l m, List.Forall (fun x => valid (i_id x) = true) l ->
  (platform_by_name l m = -1 /\ List.Forall (fun y => snd y <> m) (map key l)) \/
  (first_named (map key l) m (platform_by_name l m) /\ exists x, In x l /\ n_platform (i_id x) = platform_by_name l m).
Proof.
  intros l m. induction 1 as [|x l V F IH]; cbn [platform_by_name map].
  - left. split; [reflexivity|constructor].
  - rewrite V. cbn [andb]. unfold same_chars. destruct (list_eq_dec ascii_dec (i_name x) m) as [E|E].
    + right. split.
      * exists [], (n_device (i_id x)), (map key l). split; [|constructor]. unfold key at 1. rewrite E. reflexivity.
      * exists x. split; [now left|reflexivity].
    + destruct IH as [(A & B)|((l1 & d & l2 & A & B) & (y & Hy & E2))].
      * left. split; [exact A|]. constructor; [exact E|exact B].
      * right. split.
        -- exists (key x :: l1), d, l2. split; [now rewrite A|]. constructor; [exact E|exact B].
        -- exists y. split; [now right|exact E2].
Qed.

Lemma map_fst_in : forall (l : list (Z * Z * chars)) p d, In (p, d) (map fst l) -> exists m : chars, In (p, d, m) l.
Proof. intros l p d H. apply in_map_iff in H. destruct H as ([[a b] m] & E & I). cbn in E. inversion E; subst. now exists m. Qed.

Lemma known_more : forall s l i, known s i = true -> known (with_nodes (nodes s ++ l) s) i = true.
Proof. intros s l i. rewrite !known_iff. unfold count, with_nodes. cbn [nodes]. rewrite app_length. lia. Qed.
Lemma ids_more : forall s l i, known s i = true -> ids (with_nodes (nodes s ++ l) s) i = ids s i.
Proof.
  intros s l i K. unfold ids. rewrite K, (known_more _ _ _ K). cbn [with_nodes nodes].
  apply known_iff in K. unfold count in K. now rewrite nth_error_app1 by lia.
Qed.
Lemma text_more : forall s l i, known s i = true -> id_text (with_nodes (nodes s ++ l) s) i = id_text s i.
Proof. intros s l i K. unfold id_text. now rewrite (ids_more _ _ _ K). Qed.

Lemma add_node : forall c s x p d, rep c s -> count s + 1 < undefined_index -> 0 <= p -> 0 <= d ->
  ~ in_use (nodes s) p d -> n_platform (i_id x) = p -> n_device (i_id x) = d ->
  let i := num_nodes c in
  rep (Ctrl (c_nodes c ++ [inf_id (set_index i (i_id x)) x]) (c_epoch c) (c_default c) (c_selected c) (c_str c)
          (if (c_min c =? undefined_index) || (i <? c_min c) then i else c_min c)
          (if (c_max c =? undefined_index) || (c_max c <? i) then i else c_max c)
          (c_direct c) (c_unsel c) (c_auto c))
      (with_nodes (nodes s ++ [(p, d, i_name x)]) s).
Proof.
  intros c s x p d R F Hp Hd NU Ep Ed i. unfold i. rewrite (rep_count c s R).
  pose proof (rep_len c s R) as L.
  assert (CN : count (with_nodes (nodes s ++ [(p, d, i_name x)]) s) = count s + 1).
  { unfold count. cbn [with_nodes nodes]. rewrite app_length. cbn [length]. lia. }
  assert (C0 : 0 <= count s) by (unfold count; lia).
  constructor; rewrite ?CN; cbn [c_nodes c_epoch c_default c_selected c_str c_min c_max c_direct c_unsel c_auto
      with_nodes nodes default selected may_switch may_unselect auto_default];
    try (now apply R).
  - rewrite map_app, (r_keys _ _ R). cbn [map]. unfold key at 1. cbn [inf_id i_id set_index n_platform n_device i_name].
    now rewrite Ep, Ed.
  - intros k y. destruct (Nat.lt_ge_cases k (length (c_nodes c))) as [Lt|Ge].
    + rewrite nth_error_app1 by exact Lt. apply (r_index _ _ R).
    + rewrite nth_error_app2 by exact Ge. destruct (k - length (c_nodes c))%nat as [|m] eqn:Em; cbn [nth_error].
      * intros [= <-]. cbn [inf_id i_id set_index n_index]. unfold count. lia.
      * destruct m; discriminate.
  - apply Forall_app. split; [apply R|]. repeat constructor; cbn; lia.
  - rewrite map_app. cbn [map fst]. apply NoDup_Add with (a := (p, d)) (l := map fst (nodes s)).
    + pose proof (Add_app (p, d) (map fst (nodes s)) []) as A. now rewrite app_nil_r in A.
    + split; [apply R|]. intros I. destruct (map_fst_in _ _ _ I) as (m & I'). apply NU. now exists m.
  - lia.
  - intros j D. apply known_more. now apply (r_kd _ _ R).
  - intros j D. destruct (r_ks _ _ R j D) as (K & Ft). split; [now apply known_more|].
    unfold fits. rewrite (text_more _ _ _ K). exact Ft.
  - rewrite (r_str _ _ R). destruct (selected s) as [k|] eqn:S; [|reflexivity].
    destruct (r_ks _ _ R k S) as (K & _). now rewrite (text_more _ _ _ K).
  - rewrite (r_min _ _ R). rewrite (proj2 (Z.eqb_neq (count s + 1) 0)) by lia.
    destruct (Z.eqb_spec (count s) 0) as [E|E]; cbn [orb].
    + rewrite Z.eqb_refl. cbn [orb]. exact E.
    + rewrite (proj2 (Z.eqb_neq 0 undefined_index)) by (unfold undefined_index; lia). cbn [orb].
      rewrite (proj2 (Z.ltb_ge _ _)) by lia. reflexivity.
  - rewrite (r_max _ _ R). rewrite (proj2 (Z.eqb_neq (count s + 1) 0)) by lia.
    destruct (Z.eqb_spec (count s) 0) as [E|E]; cbn [orb].
    + rewrite Z.eqb_refl. cbn [orb]. lia.
    + pose proof (r_few _ _ R). rewrite (proj2 (Z.eqb_neq (count s - 1) undefined_index)) by lia. cbn [orb].
      rewrite (proj2 (Z.ltb_lt _ _)) by lia. lia.
Qed.

Lemma in_use_key : forall c s x, rep c s -> In x (c_nodes c) -> in_use (nodes s) (n_platform (i_id x)) (n_device (i_id x)).
Proof. intros c s x R I. exists (i_name x). rewrite <- (r_keys _ _ R). change (In (key x) (map key (c_nodes c))). now apply in_map. Qed.
Lemma key_in_use : forall c s p d, rep c s -> in_use (nodes s) p d ->
  exists x, In x (c_nodes c) /\ n_platform (i_id x) = p /\ n_device (i_id x) = d.
Proof.
  intros c s p d R (m & I). rewrite <- (r_keys _ _ R) in I. apply in_map_iff in I. destruct I as (x & E & I).
  exists x. unfold key in E. inversion E. auto.
Qed.

Lemma all_valid : forall c s, rep c s -> List.Forall (fun x => valid (i_id x) = true /\ 0 <= n_device (i_id x) /\ 0 <= n_platform (i_id x)) (c_nodes c).
Proof.
  intros c s R. apply Forall_forall. intros x I. destruct (In_nth_error _ _ I) as (i & E).
  split; [eapply valid_at; eauto|]. pose proof (r_ids _ _ R) as F. rewrite Forall_forall in F.
  destruct (F (key x)) as (A & B); [rewrite <- (r_keys _ _ R); now apply in_map|]. auto.
Qed.

Lemma append_ok : forall c s x, rep c s -> op_ok (Append x) -> count s + 1 < undefined_index ->
  exists s', expected s (Append x) (fst (append c x)) s' /\ rep (snd (append c x)) s' /\ count s' <= count s + 1.
Proof.
  intros c s x R (O1 & O2) F. unfold append. cbv zeta.
  pose proof (all_valid c s R) as AV.
  assert (V1 : List.Forall (fun x => valid (i_id x) = true) (c_nodes c)).
  { eapply Forall_impl; [|exact AV]. intros y (A & _). exact A. }
  assert (V2 : List.Forall (fun x => valid (i_id x) = true /\ 0 <= n_device (i_id x)) (c_nodes c)).
  { eapply Forall_impl; [|exact AV]. intros y (A & B & _). auto. }
  assert (CN : forall p d m, count (with_nodes (nodes s ++ [(p, d, m)]) s) <= count s + 1).
  { intros. unfold count. cbn [with_nodes nodes]. rewrite app_length. cbn [length]. lia. }
  destruct (valid (i_id x)) eqn:V.
  { unfold valid, illegal_id in V. apply andb_true_iff in V. rewrite !negb_true_iff, !Z.eqb_neq in V. destruct V as (Vp & Vd).
    destruct (find_index_ok c s _ _ R Vp Vd) as [(E & NU)|(i & E & K & _ & U)].
    - rewrite E, Z.eqb_refl. eexists. split; [|split].
      + cbn [fst]. rewrite (rep_count c s R). apply e_append. now apply join_new.
      + cbn [snd]. apply add_node; auto; lia.
      + apply CN.
    - rewrite E, (known_defined c s R i K). exists s. split; [|split].
      + cbn [fst]. apply e_refused. now apply join_known.
      + exact R.
      + lia. }
  assert (IV : n_platform (i_id x) = -1 \/ n_device (i_id x) = -1).
  { unfold valid, illegal_id in V. apply andb_false_iff in V. rewrite !negb_false_iff, !Z.eqb_eq in V. exact V. }
  assert (NP : forall p', p' = next_platform (c_nodes c) -> 
     Forall (fun y => snd y <> i_name x) (nodes s) \/ i_name x = [] -> (i_name x = [] -> n_platform (i_id x) = -1) ->
     joins (nodes s) x (Some (p', 0)) /\ 0 <= p' /\ ~ in_use (nodes s) p' 0).
  { intros p' -> N1 N2. destruct (next_platform_ok (c_nodes c) V1) as (A & B & C).
    assert (B' : forall p d, in_use (nodes s) p d -> p < next_platform (c_nodes c)).
    { intros p d U. destruct (key_in_use c s p d R U) as (y & I & <- & _). auto. }
    split; [|split; [exact A|intros U; specialize (B' _ _ U); lia]].
    apply join_platform; auto.
    destruct C as [C|(y & I & E)]; [now left|right]. exists (n_device (i_id y)). rewrite <- E. now apply (in_use_key c). }
  unfold illegal_id. destruct (i_name x) as [|a nm] eqn:Nm; cbn [andb].
  - (* no name *)
    destruct (Z.eqb_spec (n_platform (i_id x)) (-1)) as [E|E]; cbn [negb].
    + destruct (NP _ eq_refl (or_intror eq_refl) (fun _ => E)) as (J & P0 & NU).
      rewrite (proj2 (Z.eqb_neq (next_platform (c_nodes c)) (-1))) by lia. change (0 =? -1) with false. cbn [negb andb].
      eexists. split; [|split].
      * cbn [fst]. rewrite (rep_count c s R). eapply e_append. exact J.
      * cbn [snd].
        refine (add_node c s (inf_id (mkNode (next_platform (c_nodes c)) 0 (n_index (i_id x))) x) _ _ R F P0 (Z.le_refl 0) NU eq_refl eq_refl).
      * apply CN.
    + assert (D : n_device (i_id x) = -1) by tauto. rewrite D. change (-1 =? -1) with true. cbn [negb]. rewrite andb_false_r.
      exists s. split; [|split; [exact R|lia]]. apply e_refused. now apply join_none.
  - destruct (by_name_ok (c_nodes c) (a :: nm) V1) as [(E & NN)|(FN & y & I & Ey)]; rewrite (r_keys _ _ R) in *.
    + rewrite E. change (-1 =? -1) with true. cbn [negb andb]. 
      destruct (NP (next_platform (c_nodes c)) eq_refl) as (J & P0 & NU); [left; exact NN|discriminate|].
      rewrite (proj2 (Z.eqb_neq (next_platform (c_nodes c)) (-1))) by lia. change (0 =? -1) with false. cbn [negb andb].
      eexists. split; [|split].
      * cbn [fst]. rewrite (rep_count c s R). eapply e_append. exact J.
      * cbn [snd].
        refine (add_node c s (inf_id (mkNode (next_platform (c_nodes c)) 0 (n_index (i_id x))) x) _ _ R F P0 (Z.le_refl 0) NU eq_refl eq_refl).
      * apply CN.
    + set (p := platform_by_name (c_nodes c) (a :: nm)) in *.
      assert (P0 : 0 <= p). { rewrite Forall_forall in AV. destruct (AV y I) as (_ & _ & P0). lia. }
      clearbody p. assert (Pn : (p =? -1) = false) by (apply Z.eqb_neq; lia).
      rewrite Pn. cbn [negb andb]. rewrite ?Pn. cbn [negb andb].
      destruct (next_device_ok (c_nodes c) p V2) as (A & z & Iz & Ez & Dz); [now exists y|].
      assert (D0 : 0 <= n_device (i_id z)). { rewrite Forall_forall in V2. now apply V2. }
      rewrite (proj2 (Z.eqb_neq (next_device (c_nodes c) p) (-1))) by lia. cbn [negb andb].
      assert (A' : forall d', in_use (nodes s) p d' -> d' < next_device (c_nodes c) p).
      { intros d' U. destruct (key_in_use c s p d' R U) as (w & Iw & Ew & <-). auto. }
      eexists. split; [|split].
      * cbn [fst]. rewrite (rep_count c s R). eapply e_append. eapply join_named; eauto.
        -- rewrite Nm. discriminate.
        -- rewrite Nm. exact FN.
        -- rewrite <- Dz. rewrite <- Ez. now apply (in_use_key c).
      * cbn [snd].
        refine (add_node c s (inf_id (mkNode p (next_device (c_nodes c) p) (n_index (i_id x))) x) _ _ R F P0 _ _ eq_refl eq_refl).
        -- cbn [inf_id i_id n_device]. clear - Dz D0. lia.
        -- cbn [inf_id i_id n_device n_platform]. intros U. specialize (A' _ U). lia.
      * apply CN.
Qed.

Lemma default_step : forall c s i, rep c s -> exists s', expected s (Default i) 0 s' /\ rep (make_default c i) s' /\ count s' = count s.
Proof.
  intros c s i R. unfold make_default. destruct (Z.eqb_spec i undefined_index) as [->|N].
  - eexists. split; [apply e_no_default|]. split; [|reflexivity]. destruct R. constructor; cbn; auto. discriminate.
  - destruct (known s i) eqn:K.
    + destruct (node_at_known c s R i K) as (x & -> & _). eexists. split; [now apply e_default|]. split; [|reflexivity].
      assert (M : map key (upd (c_nodes c) (Z.to_nat i) (fun y => inf_default true (if has_index (i_id y) then y else inf_id (set_index i (i_id y)) y))) = nodes s).
      { rewrite upd_map; [apply R|]. intros y. destruct (has_index (i_id y)); reflexivity. }
      assert (I : forall j y, nth_error (upd (c_nodes c) (Z.to_nat i) (fun y => inf_default true (if has_index (i_id y) then y else inf_id (set_index i (i_id y)) y))) j = Some y -> n_index (i_id y) = Z.of_nat j).
      { apply (index_kept c s); [exact R| |].
        - intros y. destruct (has_index (i_id y)); [left|right]; reflexivity.
        - apply known_iff in K. lia. }
      destruct R. constructor; cbn; auto. intros j [= <-]. exact K.
    + rewrite (node_at_unknown c s R i K). exists s. split; [now apply e_bad_default|]. auto.
Qed.

Lemma step_ok : forall c s o, rep c s -> op_ok o -> count s + 1 < undefined_index ->
  exists r c' s', perform c o = Some (r, c') /\ expected s o r s' /\ rep c' s' /\ count s' <= count s + 1.
Proof.
  intros c s o R O F. assert (C1 : forall k, count (choose k s) = count s) by reflexivity.
  assert (Q : forall k i, count (snd (on_change s k i)) = count s).
  { intros. unfold on_change. destruct (_ && _); [destruct (fits s i)|]; reflexivity. }
  assert (Q2 : forall s i, count (snd (on_select s i)) = count s).
  { intros s0 i. unfold on_select. destruct (selected s0).
    - unfold on_change. destruct (_ && _); [destruct (fits s0 i)|]; reflexivity.
    - destruct (_ && _); reflexivity. }
  destruct o as [x|i|d u a|i|i|k i| |i]; cbn [perform].
  - destruct (append_ok c s x R O F) as (s' & E & R' & C). exists (fst (append c x)), (snd (append c x)), s'.
    rewrite <- surjective_pairing. auto.
  - destruct (default_step c s i R) as (s' & E & R' & C). exists 0, (make_default c i), s'. split; [auto|]. split; [auto|]. split; [auto|lia].
  - exists 0, (set_flags d u a c), (with_flags d u a s). split; [reflexivity|]. split; [constructor|]. split.
    + destruct R. constructor; cbn; auto.
    + change (count (with_flags d u a s)) with (count s). lia.
  - destruct (select_ok c s i R) as (c' & A & B). eexists _, c', _. split; [exact A|]. split; [|split; [exact B|]].
    + apply e_select. apply surjective_pairing.
    + rewrite Q2. lia.
  - unfold change_node. rewrite (selected_index_ok c s R). cbn [bind].
    destruct (do_change_ok c s (index_of (selected s)) i R) as (c' & A & B). eexists _, c', _. split; [exact A|]. split; [|split; [exact B|]].
    + apply e_change. apply surjective_pairing.
    + rewrite Q. lia.
  - destruct (do_change_ok c s k i R) as (c' & A & B). eexists _, c', _. split; [exact A|]. split; [|split; [exact B|]].
    + apply e_change_from. apply surjective_pairing.
    + rewrite Q. lia.
  - unfold unselect_selected. rewrite (selected_index_ok c s R). cbn [bind].
    destruct (do_unselect_ok c s (index_of (selected s)) R) as (c' & A & B). eexists _, c', _. split; [exact A|]. split; [|split; [exact B|]].
    + apply e_unselect. apply surjective_pairing.
    + unfold on_unselect. destruct (_ && _); cbn [snd]; rewrite ?C1; lia.
  - destruct (unselect_at_ok c s i R) as (c' & A & B). eexists _, c', _. split; [exact A|]. split; [|split; [exact B|]].
    + apply e_unselect_at. apply surjective_pairing.
    + unfold on_unselect_at, on_unselect. destruct (_ && _); cbn [snd]; destruct (default s); cbn [snd]; rewrite ?C1; try lia.
      destruct (auto_default s && _); rewrite ?Q2; cbn [snd]; rewrite ?C1; lia.
Qed.

Lemma history_ok : forall os c s, rep c s -> List.Forall op_ok os ->
  count s + Z.of_nat (length os) < undefined_index ->
  exists rs c' s', performs c os rs c' /\ expects s os rs s' /\ rep c' s'.
Proof.
  induction os as [|o os IH]; intros c s R F L.
  - exists [], c, s. split; [constructor|]. split; [constructor|exact R].
  - inversion F; subst. cbn [length] in L. destruct (step_ok c s o R) as (r & c1 & s1 & A & B & R1 & C); [auto|lia|].
    destruct (IH c1 s1 R1) as (rs & c2 & s2 & A2 & B2 & R2); [auto|lia|].
    exists (r :: rs), c2, s2. split; [econstructor; eauto|]. split; [econstructor; eauto|exact R2].
Qed.

Lemma performs_fun : forall c os rs c1, performs c os rs c1 -> forall rs2 c2, performs c os rs2 c2 -> rs2 = rs /\ c2 = c1.
Proof.
  induction 1 as [c|c o os r rs c1 c2 A B IH]; intros rs2 c3 H; inversion H; subst; [auto|].
  assert (r0 = r /\ c4 = c1) as (-> & ->) by (split; congruence).
  destruct (IH _ _ H6) as (-> & ->). auto.
Qed.

Lemma find_unique : forall c s p d i, rep c s -> ids s i = Some (p, d) -> find_index c p d = i.
Proof.
  intros c s p d i R E.
  assert (K : known s i = true) by (unfold ids in E; destruct (known s i); congruence).
  assert (E' := E). unfold ids in E'. rewrite K in E'.
  destruct (nth_error (nodes s) (Z.to_nat i)) as [[[p' d'] m]|] eqn:N; [|discriminate]. cbn in E'. injection E' as -> ->.
  pose proof (r_ids _ _ R) as F. rewrite Forall_forall in F. destruct (F _ (nth_error_In _ _ N)) as (P0 & D0). cbn [fst snd] in P0, D0.
  destruct (find_index_ok c s p d R) as [(_ & NU)|(j & <- & Kj & Ej & _)]; [lia|lia| |].
  - exfalso. apply NU. exists m. eapply nth_error_In; eauto.
  - unfold ids in Ej. rewrite Kj in Ej. set (j := find_index c p d) in *.
    assert (Z.to_nat j = Z.to_nat i).
    { eapply (proj1 (NoDup_nth_error (map fst (nodes s)))); [apply R| |].
      - rewrite map_length. apply known_iff in Kj. unfold count in Kj. lia.
      - rewrite !nth_error_map, N. etransitivity; [exact Ej|reflexivity]. }
    apply known_iff in K, Kj. lia.
Qed.
