(* The order of the items and the collection of the track job. *)
From Coq Require Import ZArith List Bool Lia Sorted Permutation.
From Verif Require Import Assign.
Import ListNotations.
Local Open Scope Z_scope.

Ltac cmp_case a b :=
  let H := fresh in destruct (Z.ltb_spec a b) as [H|H];
  [|let E := fresh in destruct (Z.eqb_spec a b) as [E|E]].

Ltac cmps :=
  repeat match goal with
  | H : context [Z.ltb ?x ?y] |- _ => cmp_case x y
  | |- context [Z.ltb ?x ?y] => cmp_case x y
  end; try discriminate; try lia.

Lemma equal_iff a b : equal a b = true <-> a = b.
Proof.
  split.
  - unfold equal. destruct a, b. cbn.
    rewrite !andb_true_iff, !Z.eqb_eq. intros H. f_equal; tauto.
  - intros ->. unfold equal. now rewrite !Z.eqb_refl.
Qed.

(* lexicographic comparison of lists of numbers *)
Fixpoint lex (a b : list Z) : bool :=
  match a, b with
  | x :: r, y :: s => if x <? y then true else if x =? y then lex r s else false
  | _, _ => false
  end.
Definition parts (a : item) : list Z :=
  [dest_buffer a; src_buffer a; dest_type a; src_type a; dest_index a; src_index a; dest_offset a; src_offset a].

Lemma less_lex a b : less a b = lex (parts a) (parts b).
Proof.
  unfold less, parts. cbn [lex].
  destruct (src_offset a <? src_offset b); [reflexivity|]. now destruct (src_offset a =? src_offset b).
Qed.

Lemma lex_irrefl a : lex a a = false.
Proof. induction a as [|x r IH]; cbn [lex]; [reflexivity|]. now rewrite Z.ltb_irrefl, Z.eqb_refl. Qed.

Lemma lex_trans a : forall b c, lex a b = true -> lex b c = true -> lex a c = true.
Proof.
  induction a as [|x r IH]; intros [|y s] [|z t]; cbn [lex]; try discriminate.
  destruct (Z.ltb_spec x y); [|destruct (Z.eqb_spec x y); [|discriminate]];
  destruct (Z.ltb_spec y z); try (destruct (Z.eqb_spec y z); [|discriminate]); intros H1 H2.
  1-3: rewrite (proj2 (Z.ltb_lt x z)) by lia; reflexivity.
  subst. rewrite Z.ltb_irrefl, Z.eqb_refl. eapply IH; eassumption.
Qed.

Lemma lex_total a : forall b, length a = length b -> lex a b = true \/ lex b a = true \/ a = b.
Proof.
  induction a as [|x r IH]; intros [|y s]; cbn [lex length]; try discriminate; [auto|].
  intros [= Hl]. destruct (Z.lt_trichotomy x y) as [H|[->|H]].
  - left. now rewrite (proj2 (Z.ltb_lt x y)).
  - rewrite Z.ltb_irrefl, Z.eqb_refl. destruct (IH s Hl) as [H|[H| ->]]; auto.
  - right; left. now rewrite (proj2 (Z.ltb_lt y x)).
Qed.

Lemma parts_inj a b : parts a = parts b -> a = b.
Proof. destruct a, b. unfold parts. cbn. intros [= -> -> -> -> -> -> -> ->]. reflexivity. Qed.

Lemma less_irrefl a : less a a = false.
Proof. rewrite less_lex. apply lex_irrefl. Qed.
Lemma less_trans a b c : less a b = true -> less b c = true -> less a c = true.
Proof. rewrite !less_lex. apply lex_trans. Qed.
Lemma less_total a b : less a b = true \/ less b a = true \/ a = b.
Proof.
  rewrite !less_lex. destruct (lex_total (parts a) (parts b) eq_refl) as [H|[H|H]]; auto using parts_inj.
Qed.
Lemma less_asym a b : less a b = true -> less b a = false.
Proof.
  intros H. destruct (less b a) eqn:E; [|reflexivity]. pose proof (less_trans _ _ _ H E). now rewrite less_irrefl in H0.
Qed.

Lemma key_eqb_iff a b : key_eqb a b = true <-> a = b.
Proof.
  destruct a, b. unfold key_eqb. cbn [fst snd]. rewrite andb_true_iff, !Z.eqb_eq.
  split; [intros (-> & ->); reflexivity|now intros [= -> ->]].
Qed.
Lemma key_eqb_refl a : key_eqb a a = true.
Proof. now apply key_eqb_iff. Qed.
Lemma key_eqb_neq a b : key_eqb a b = false <-> a <> b.
Proof. rewrite <- key_eqb_iff. destruct (key_eqb a b); split; congruence. Qed.

Lemma key_less_irrefl a : key_less a a = false.
Proof. unfold key_less. rewrite !Z.ltb_irrefl. cbn. now rewrite andb_false_r. Qed.
Lemma key_less_spec a b : key_less a b = true <-> fst a < fst b \/ (fst a = fst b /\ snd a < snd b).
Proof. unfold key_less. rewrite orb_true_iff, andb_true_iff, !Z.ltb_lt, Z.eqb_eq. reflexivity. Qed.
Lemma key_less_trans a b c : key_less a b = true -> key_less b c = true -> key_less a c = true.
Proof. rewrite !key_less_spec. lia. Qed.
Lemma key_less_total a b : key_less a b = true \/ key_less b a = true \/ a = b.
Proof.
  rewrite !key_less_spec. destruct a as [a1 a2], b as [b1 b2]. cbn [fst snd].
  destruct (Z.eq_dec a1 b1); destruct (Z.eq_dec a2 b2); try (right; right; congruence); lia.
Qed.

Lemma index_lt l it : (index_of l it < length l)%nat <-> In it l.
Proof.
  induction l as [|x r IH]; cbn [index_of length In]; [lia|].
  destruct (equal x it) eqn:E.
  - apply equal_iff in E. split; [auto|lia].
  - rewrite <- IH. split; [lia|]. intros [H|H]; [|lia].
    apply equal_iff in H. congruence.
Qed.
Lemma index_le l it : (index_of l it <= length l)%nat.
Proof. induction l as [|x r IH]; cbn [index_of length]; [lia|]. destruct (equal x it); lia. Qed.
Lemma index_nth l it : In it l -> nth_error l (index_of l it) = Some it.
Proof.
  induction l as [|x r IH]; cbn [index_of In]; [easy|]. destruct (equal x it) eqn:E.
  - apply equal_iff in E. intros _. cbn [nth_error]. congruence.
  - intros [H|H]; [apply equal_iff in H; congruence|]. now apply IH.
Qed.
Lemma index_app l it : ~ In it l -> index_of (l ++ [it]) it = length l.
Proof.
  induction l as [|x r IH]; cbn [index_of app In length].
  - intros _. now rewrite (proj2 (equal_iff it it) eq_refl).
  - intros H. destruct (equal x it) eqn:E; [apply equal_iff in E; tauto|]. f_equal. apply IH. tauto.
Qed.

Lemma find_app l k b k' : find_key (l ++ [(k, b)]) k' =
  match find_key l k' with Some x => Some x | None => if key_eqb k k' then Some b else None end.
Proof.
  unfold find_key. induction l as [|[k1 b1] r IH]; cbn [app find fst].
  - destruct (key_eqb k k'); reflexivity.
  - destruct (key_eqb k1 k'); [reflexivity|exact IH].
Qed.
Lemma find_put l k b k' : find_key (put_key l k b) k' =
  if key_eqb k k' then match find_key l k with Some _ => Some b | None => None end else find_key l k'.
Proof.
  unfold find_key, put_key. induction l as [|[k1 b1] r IH]; cbn [map find fst].
  - destruct (key_eqb k k'); reflexivity.
  - destruct (key_eqb k1 k) eqn:E; cbn [fst].
    + apply key_eqb_iff in E as ->. destruct (key_eqb k k') eqn:E'; cbn [snd]; [reflexivity|].
      exact IH.
    + destruct (key_eqb k1 k') eqn:E'; cbn [snd].
      * apply key_eqb_iff in E' as ->. destruct (key_eqb k k') eqn:E2; [|reflexivity].
        apply key_eqb_iff in E2 as ->. now rewrite key_eqb_refl in E.
      * exact IH.
Qed.
Lemma find_erase l k k' : find_key (erase_key l k) k' = if key_eqb k k' then None else find_key l k'.
Proof.
  unfold find_key, erase_key. induction l as [|[k1 b1] r IH]; cbn [filter find fst].
  - destruct (key_eqb k k'); reflexivity.
  - destruct (key_eqb k1 k) eqn:E; cbn [negb].
    + apply key_eqb_iff in E as ->. destruct (key_eqb k k') eqn:E'; exact IH.
    + cbn [find fst]. destruct (key_eqb k1 k') eqn:E'; [|exact IH]. cbn [snd].
      apply key_eqb_iff in E' as ->. destruct (key_eqb k k') eqn:E2; [|reflexivity].
      apply key_eqb_iff in E2 as ->. now rewrite key_eqb_refl in E.
Qed.

(* the items stored for a pair of buffers *)
Definition items_of (j : job) (k : key) : list item :=
  match find_key (j_items j) k with Some l => l | None => [] end.

Lemma has_iff j it : Z.of_nat (length (items_of j (key_of it))) <= SIZE_MAX ->
  job_has j it = true <-> In it (items_of j (key_of it)).
Proof.
  unfold job_has, job_find, job_num, items_of. destruct (find_key (j_items j) (key_of it)) as [l|].
  - intros _. rewrite Z.ltb_lt, <- index_lt. lia.
  - cbn [length]. intros H. rewrite Z.ltb_lt. cbn. lia.
Qed.

Lemma has_iff' j it : job_has j it = true <-> In it (items_of j (key_of it)).
Proof.
  unfold job_has, job_find, job_num, items_of. destruct (find_key (j_items j) (key_of it)) as [l|].
  - rewrite Z.ltb_lt, <- index_lt. lia.
  - rewrite Z.ltb_lt. unfold SIZE_MAX. cbn [In]. lia.
Qed.

Definition stored (it : item) (l : list item) : bool := existsb (fun x => equal x it) l.
Lemma stored_iff it l : stored it l = true <-> In it l.
Proof.
  unfold stored. rewrite existsb_exists. split.
  - intros (x & H & E). apply equal_iff in E. congruence.
  - intros H. exists it. split; [assumption|]. now apply equal_iff.
Qed.
Lemma stored_not it l : stored it l = false <-> ~ In it l.
Proof. rewrite <- stored_iff. destruct (stored it l); split; congruence. Qed.

Lemma add_items j it k : items_of (snd (job_add j it)) k =
  if key_eqb (key_of it) k then
    if stored it (items_of j (key_of it)) then items_of j k else items_of j k ++ [it]
  else items_of j k.
Proof.
  unfold job_add. destruct (find_key (j_items j) (key_of it)) as [l|] eqn:E.
  - assert (Hf : job_find j it = Z.of_nat (index_of l it)) by (unfold job_find; now rewrite E).
    rewrite Hf. assert (El : items_of j (key_of it) = l) by (unfold items_of; now rewrite E). rewrite El.
    destruct (stored it l) eqn:Hin.
    + apply stored_iff, index_lt in Hin. rewrite (proj2 (Z.ltb_lt _ _)) by lia. cbn [snd].
      now destruct (key_eqb (key_of it) k).
    + apply stored_not in Hin. assert (~ (index_of l it < length l)%nat) by (now rewrite index_lt).
      rewrite (proj2 (Z.ltb_ge _ _)) by lia. cbn [snd]. unfold items_of at 1. cbn [j_items].
      rewrite find_put, E. destruct (key_eqb (key_of it) k) eqn:Ek; [|reflexivity].
      apply key_eqb_iff in Ek as <-. now rewrite El.
  - cbn [snd]. unfold items_of at 1. cbn [j_items]. rewrite find_app.
    assert (El : items_of j (key_of it) = []) by (unfold items_of; now rewrite E). rewrite El. cbn [stored existsb].
    destruct (key_eqb (key_of it) k) eqn:Ek.
    + apply key_eqb_iff in Ek as <-. now rewrite E, El.
    + unfold items_of. destruct (find_key (j_items j) k); reflexivity.
Qed.

(* jobs that arise from adding and removing *)
Inductive job_reach : job -> Prop :=
| jr_new : job_reach (Job [] [])
| jr_add j it : job_reach j -> job_reach (snd (job_add j it))
| jr_remove j k i : job_reach j -> 0 <= i -> job_reach (snd (job_remove j k i)).

Record jinv (j : job) : Prop := {
  ji_keys : forall k l, In (k, l) (j_items j) -> forall it, In it l -> key_of it = k;
  ji_nodup : forall k l, In (k, l) (j_items j) -> NoDup l /\ l <> [];
  ji_map : NoDup (map fst (j_items j));
  ji_sorted : StronglySorted (fun a b => key_less a b = true) (j_keys j);
  ji_same : Permutation (j_keys j) (map fst (j_items j)) }.

Lemma find_in l k b : NoDup (map fst l) -> find_key l k = Some b <-> In (k, b) l.
Proof.
  unfold find_key. induction l as [|[k1 b1] r IH]; cbn [map find fst In]; intros Hn.
  - split; [discriminate|easy].
  - inversion Hn; subst. destruct (key_eqb k1 k) eqn:E.
    + apply key_eqb_iff in E as ->. cbn [snd]. split; [intros [= ->]; auto|].
      intros [[= ->]|H]; [reflexivity|]. exfalso. apply H1. change k with (fst (k, b)). now apply in_map.
    + apply key_eqb_neq in E. rewrite IH by assumption. split; [auto|]. intros [[= -> ->]|H]; [congruence|assumption].
Qed.
Lemma find_none l k : find_key l k = None <-> ~ In k (map fst l).
Proof.
  unfold find_key. induction l as [|[k1 b1] r IH]; cbn [map find fst In]; [tauto|].
  destruct (key_eqb k1 k) eqn:E.
  - apply key_eqb_iff in E as ->. split; [discriminate|tauto].
  - apply key_eqb_neq in E. rewrite IH. tauto.
Qed.

Lemma insert_perm k l : Permutation (insert_key k l) (k :: l).
Proof.
  induction l as [|x r IH]; cbn [insert_key]; [reflexivity|]. destruct (key_less k x); [reflexivity|].
  rewrite IH. apply perm_swap.
Qed.
Lemma insert_sorted k l : ~ In k l -> StronglySorted (fun a b => key_less a b = true) l ->
  StronglySorted (fun a b => key_less a b = true) (insert_key k l).
Proof.
  induction l as [|x r IH]; cbn [insert_key In]; intros Hn Hs; [repeat constructor|].
  inversion Hs; subst. destruct (key_less k x) eqn:E.
  - constructor; [assumption|]. constructor; [assumption|]. rewrite Forall_forall in *.
    intros y Hy. eapply key_less_trans; [exact E|]. now apply H2.
  - constructor; [apply IH; tauto|]. rewrite Forall_forall in *. intros y Hy.
    apply (Permutation_in _ (insert_perm k r)) in Hy as [<-|Hy]; [|now apply H2].
    destruct (key_less_total k x) as [H|[H|H]]; [congruence|assumption|]. subst. tauto.
Qed.
Lemma sort_perm l : Permutation (sort_keys l) l.
Proof. induction l as [|x r IH]; cbn [sort_keys fold_right]; [reflexivity|]. fold (sort_keys r). rewrite insert_perm. now constructor. Qed.
Lemma sort_sorted l : NoDup l -> StronglySorted (fun a b => key_less a b = true) (sort_keys l).
Proof.
  induction l as [|x r IH]; cbn [sort_keys fold_right]; intros Hn; [constructor|]. fold (sort_keys r). inversion Hn; subst.
  apply insert_sorted; [|now apply IH]. intros H. apply H1. eapply Permutation_in; [apply sort_perm|exact H].
Qed.
Lemma add_key_perm l k : Permutation (add_key l k) (k :: l).
Proof.
  unfold add_key. destruct (match rev l with [] => false | x :: _ => negb (key_less x k) end).
  - rewrite sort_perm. symmetry. apply Permutation_cons_append.
  - symmetry. apply Permutation_cons_append.
Qed.
Lemma add_key_sorted l k : ~ In k l -> StronglySorted (fun a b => key_less a b = true) l ->
  StronglySorted (fun a b => key_less a b = true) (add_key l k).
Proof.
  intros Hn Hs. unfold add_key.
  assert (Nl : NoDup l).
  { clear Hn. induction Hs; constructor; auto. rewrite Forall_forall in H. intros X. specialize (H _ X). now rewrite key_less_irrefl in H. }
  destruct (rev l) as [|x r] eqn:E.
  - assert (l = []) as -> by (rewrite <- (rev_involutive l), E; reflexivity). repeat constructor.
  - destruct (key_less x k) eqn:Ek; cbn [negb].
    + assert (El : l = rev r ++ [x]) by (rewrite <- (rev_involutive l), E; reflexivity).
      assert (Hall : Forall (fun a => key_less a k = true) l).
      { rewrite El in *. clear - Hs Ek. induction (rev r) as [|a q IH]; cbn [app] in *; [constructor; auto|].
        inversion Hs; subst. constructor; [|now apply IH]. rewrite Forall_forall in H2.
        eapply key_less_trans; [apply H2; apply in_or_app; right; now left|exact Ek]. }
      clear - Hs Hall. induction l as [|a q IH]; cbn [app]; [repeat constructor|].
      inversion Hs; subst. inversion Hall; subst. constructor; [now apply IH|].
      rewrite Forall_app. split; [assumption|]. now constructor.
    + apply sort_sorted. apply (Permutation_NoDup (l := k :: l)).
      * apply Permutation_cons_append.
      * now constructor.
Qed.

Lemma erase_first_perm k l : In k l -> StronglySorted (fun a b => key_less a b = true) l ->
  Permutation (k :: erase_first k l) l.
Proof.
  induction l as [|x r IH]; cbn [In erase_first]; [easy|]. intros H Hs. inversion Hs; subst.
  destruct (key_less x k) eqn:E.
  - destruct H as [->|H]; [now rewrite key_less_irrefl in E|]. rewrite perm_swap. constructor. now apply IH.
  - destruct H as [->|H]; [reflexivity|]. rewrite Forall_forall in H3. specialize (H3 k H). congruence.
Qed.
Lemma erase_first_in k l x : In x (erase_first k l) -> In x l.
Proof.
  induction l as [|a r IH]; cbn [erase_first In]; [easy|]. destruct (key_less a k); cbn [In]; [|auto].
  intros [->|H]; auto.
Qed.
Lemma erase_first_sorted k l : StronglySorted (fun a b => key_less a b = true) l ->
  StronglySorted (fun a b => key_less a b = true) (erase_first k l).
Proof.
  induction 1 as [|x r Hs IH Hf]; cbn [erase_first]; [constructor|]. destruct (key_less x k); [|assumption].
  constructor; [assumption|]. rewrite Forall_forall in *. intros y Hy. apply Hf. eapply erase_first_in; eassumption.
Qed.

Lemma put_fst l k b : map fst (put_key l k b) = map fst l.
Proof.
  unfold put_key. rewrite map_map. apply map_ext. intros [k1 b1]. cbn [fst].
  destruct (key_eqb k1 k) eqn:E; cbn [fst]; [|reflexivity]. apply key_eqb_iff in E. congruence.
Qed.
Lemma put_in l k b k' b' : In (k', b') (put_key l k b) -> (k' = k /\ b' = b) \/ In (k', b') l.
Proof.
  unfold put_key. rewrite in_map_iff. intros ([k1 b1] & E & H). cbn [fst] in E.
  destruct (key_eqb k1 k); [left; split|right]; congruence.
Qed.
Lemma erase_in l k x : In x (erase_key l k) <-> In x l /\ fst x <> k.
Proof. unfold erase_key. rewrite filter_In, negb_true_iff, key_eqb_neq. reflexivity. Qed.
Lemma erase_fst l k : In k (map fst l) -> NoDup (map fst l) ->
  Permutation (k :: map fst (erase_key l k)) (map fst l).
Proof.
  induction l as [|[k1 b1] r IH]; cbn [map fst In]; [easy|]. intros H Hn. inversion Hn; subst.
  unfold erase_key. cbn [filter fst]. destruct (key_eqb k1 k) eqn:E; cbn [negb].
  - apply key_eqb_iff in E as ->. constructor.
    assert (X : filter (fun x => negb (key_eqb (fst x) k)) r = r); [|now rewrite X].
    clear - H2. induction r as [|[k2 b2] r IH]; [reflexivity|]. cbn [filter fst map In] in *.
    destruct (key_eqb k2 k) eqn:E; cbn [negb]; [apply key_eqb_iff in E; tauto|]. f_equal. apply IH. tauto.
  - apply key_eqb_neq in E. destruct H as [H|H]; [congruence|]. cbn [map fst]. rewrite perm_swap. constructor. now apply IH.
Qed.
Lemma erase_nodup l k : NoDup (map fst l) -> NoDup (map fst (erase_key l k)).
Proof.
  induction l as [|[k1 b1] r IH]; cbn [map fst]; [constructor|]. intros Hn. inversion Hn; subst.
  unfold erase_key. cbn [filter fst]. destruct (key_eqb k1 k); cbn [negb]; [now apply IH|].
  cbn [map fst]. constructor; [|now apply IH]. intros H. apply H1. apply in_map_iff in H as (x & <- & Hx).
  apply in_map. now apply erase_in in Hx.
Qed.

(* putting nothing and erasing is erasing *)
Lemma erase_put l k b : erase_key (put_key l k b) k = erase_key l k.
Proof.
  unfold erase_key, put_key. induction l as [|[k1 b1] r IH]; [reflexivity|]. cbn [map filter fst].
  destruct (key_eqb k1 k) eqn:E; cbn [fst].
  - rewrite key_eqb_refl. cbn [negb]. exact IH.
  - rewrite E. cbn [negb]. now rewrite IH.
Qed.

Lemma reach_inv j : job_reach j -> jinv j.
Proof.
  induction 1 as [|j it Hj IH|j k i Hj IH Hi].
  - split; cbn [j_items j_keys map In]; try easy; constructor.
  - destruct IH as [J1 J2 J3 J4 J5]. unfold job_add.
    destruct (find_key (j_items j) (key_of it)) as [l|] eqn:E.
    + pose proof (proj1 (find_in _ _ _ J3) E) as Hin.
      assert (Hf : job_find j it = Z.of_nat (index_of l it)) by (unfold job_find; now rewrite E). rewrite Hf.
      destruct (Z.of_nat (index_of l it) <? Z.of_nat (length l)) eqn:El; cbn [snd]; [split; assumption|].
      apply Z.ltb_ge in El. assert (Hni : ~ In it l) by (rewrite <- index_lt; lia).
      split; cbn [j_items j_keys].
      * intros k b Hb x Hx. apply put_in in Hb as [(-> & ->)|Hb]; [|now apply (J1 k b)].
        apply in_app_iff in Hx as [Hx|[->|[]]]; [now apply (J1 _ l)|reflexivity].
      * intros k b Hb. apply put_in in Hb as [(-> & ->)|Hb]; [|now apply (J2 k b)].
        split; [|destruct l; discriminate]. apply (Permutation_NoDup (Permutation_cons_append l it)).
        constructor; [assumption|]. now apply (J2 (key_of it) l).
      * now rewrite put_fst.
      * assumption.
      * now rewrite put_fst.
    + pose proof (proj1 (find_none _ _) E) as Hn. cbn [snd].
      assert (P : Permutation (map fst (j_items j ++ [(key_of it, [it])])) (key_of it :: map fst (j_items j))).
      { rewrite map_app. symmetry. apply Permutation_cons_append. }
      split; cbn [j_items j_keys].
      * intros k b Hb x Hx. apply in_app_iff in Hb as [Hb|[[= <- <-]|[]]]; [now apply (J1 k b)|].
        destruct Hx as [->|[]]. reflexivity.
      * intros k b Hb. apply in_app_iff in Hb as [Hb|[[= <- <-]|[]]]; [now apply (J2 k b)|].
        split; [|discriminate]. constructor; [easy|constructor].
      * apply (Permutation_NoDup (Permutation_sym P)). now constructor.
      * apply add_key_sorted; [|assumption]. intros H. apply Hn. eapply Permutation_in; eassumption.
      * rewrite add_key_perm, P. now constructor.
  - unfold job_remove. destruct (find_key (j_items j) k) as [l|] eqn:E; [|exact IH].
    destruct (i <? Z.of_nat (length l)); [|exact IH]. cbn [length Z.of_nat Z.eqb snd].
    rewrite erase_put. destruct IH as [J1 J2 J3 J4 J5].
    assert (Hk : In k (map fst (j_items j))).
    { apply find_in in E; [|assumption]. change k with (fst (k, l)). now apply in_map. }
    split; cbn [j_items j_keys].
    + intros k' b Hb. apply erase_in in Hb as (Hb & _). now apply J1.
    + intros k' b Hb. apply erase_in in Hb as (Hb & _). now apply (J2 k').
    + now apply erase_nodup.
    + now apply erase_first_sorted.
    + apply (Permutation_cons_inv (a := k)). rewrite erase_first_perm; [|eapply Permutation_in; [symmetry; exact J5|exact Hk]|assumption].
      rewrite erase_fst by assumption. exact J5.
Qed.

Lemma reach_items j k : job_reach j -> NoDup (items_of j k) /\ forall it, In it (items_of j k) -> key_of it = k.
Proof.
  intros H. destruct (reach_inv j H) as [J1 J2 J3 _ _]. unfold items_of.
  destruct (find_key (j_items j) k) as [l|] eqn:E; [|split; [constructor|easy]].
  apply find_in in E; [|assumption]. split; [now apply (J2 k)|]. now apply J1.
Qed.

(* what the user sees *)
Lemma get_iff j k i it : 0 <= i -> job_get j k i = Some it <-> nth_error (items_of j k) (Z.to_nat i) = Some it.
Proof.
  intros Hi. unfold job_get, items_of. destruct (find_key (j_items j) k) as [l|].
  - destruct (Z.ltb_spec i (Z.of_nat (length l))); [reflexivity|].
    assert (nth_error l (Z.to_nat i) = None) as -> by (apply nth_error_None; lia). split; discriminate.
  - destruct (Z.to_nat i); cbn [nth_error]; split; discriminate.
Qed.

Lemma added_index j it i j' : job_add j it = (i, j') -> 0 <= i < job_num j' (key_of it) /\
  job_find j' it = i /\ job_get j' (key_of it) i = Some it /\ job_has j' it = true.
Proof.
  intros E. assert (Ej : j' = snd (job_add j it)) by now rewrite E.
  pose proof (add_items j it (key_of it)) as X. rewrite <- Ej, key_eqb_refl in X.
  assert (Hin : In it (items_of j' (key_of it))).
  { rewrite X. destruct (stored it _) eqn:H; [now apply stored_iff|]. apply in_or_app. right. now left. }
  assert (Hfi : job_find j' it = Z.of_nat (index_of (items_of j' (key_of it)) it)).
  { unfold job_find, items_of in *. destruct (find_key (j_items j') (key_of it)); [reflexivity|destruct Hin]. }
  assert (Hnum : job_num j' (key_of it) = Z.of_nat (length (items_of j' (key_of it)))).
  { unfold job_num, items_of in *. destruct (find_key (j_items j') (key_of it)); [reflexivity|destruct Hin]. }
  assert (Hi : i = Z.of_nat (index_of (items_of j' (key_of it)) it)).
  { unfold job_add in E. destruct (find_key (j_items j) (key_of it)) as [l|] eqn:Ef.
    - assert (Hf : job_find j it = Z.of_nat (index_of l it)) by (unfold job_find; now rewrite Ef).
      assert (El : items_of j (key_of it) = l) by (unfold items_of; now rewrite Ef).
      rewrite Hf in E. rewrite X, El. destruct (stored it l) eqn:Hl.
      + apply stored_iff, index_lt in Hl. rewrite (proj2 (Z.ltb_lt _ _)) in E by lia. congruence.
      + apply stored_not in Hl. assert (~ (index_of l it < length l)%nat) by (now rewrite index_lt).
        rewrite (proj2 (Z.ltb_ge _ _)) in E by lia. rewrite index_app by assumption. congruence.
    - assert (El : items_of j (key_of it) = []) by (unfold items_of; now rewrite Ef).
      rewrite X, El. cbn [stored existsb app index_of].
      rewrite (proj2 (equal_iff it it) eq_refl). assert (i = 0) by congruence. assumption. }
  pose proof (proj2 (index_lt _ _) Hin). split; [lia|]. split; [congruence|]. split.
  - apply get_iff; [lia|]. rewrite Hi, Nat2Z.id. now apply index_nth.
  - now apply has_iff'.
Qed.

Lemma added_keeps j it k i x : 0 <= i -> job_get j k i = Some x -> job_get (snd (job_add j it)) k i = Some x.
Proof.
  intros Hi. rewrite !get_iff by assumption. intros H. rewrite add_items.
  destruct (key_eqb (key_of it) k); [|assumption]. destruct (stored _ _); [assumption|].
  rewrite nth_error_app1; [assumption|]. apply nth_error_Some. congruence.
Qed.

Lemma added_only_one j it x : job_has (snd (job_add j it)) x = true <-> x = it \/ job_has j x = true.
Proof.
  rewrite !has_iff', add_items. destruct (key_eqb (key_of it) (key_of x)) eqn:E.
  - apply key_eqb_iff in E. destruct (stored it _) eqn:H.
    + apply stored_iff in H. split; [auto|]. intros [->|X]; auto.
    + rewrite in_app_iff. cbn [In]. intuition.
  - split; [auto|]. intros [->|X]; [|assumption]. now rewrite key_eqb_refl in E.
Qed.

Lemma total_sum j : job_total j = fold_right (fun x n => Z.of_nat (length (snd x)) + n) 0 (j_items j).
Proof. reflexivity. Qed.

(* after any number of additions *)
Definition add_all (its : list item) : job := fold_left (fun j it => snd (job_add j it)) its (Job [] []).

Lemma add_all_reach its : job_reach (add_all its).
Proof.
  unfold add_all. assert (G : forall j, job_reach j -> job_reach (fold_left (fun j it => snd (job_add j it)) its j)).
  { induction its as [|it r IH]; intros j Hj; [exact Hj|]. cbn [fold_left]. apply IH. now constructor. }
  apply G. constructor.
Qed.

Lemma add_all_has its x : job_has (add_all its) x = true <-> In x its.
Proof.
  unfold add_all.
  assert (G : forall j, job_has (fold_left (fun j it => snd (job_add j it)) its j) x = true <-> In x its \/ job_has j x = true).
  { induction its as [|it r IH]; intros j; cbn [fold_left In]; [tauto|]. rewrite IH, added_only_one. intuition. }
  rewrite G. cbn. intuition discriminate.
Qed.

Lemma job_total_add j it : job_reach j ->
  job_total (snd (job_add j it)) = job_total j + if job_has j it then 0 else 1.
Proof.
  intros Hj. destruct (reach_inv j Hj) as [_ _ J3 _ _].
  destruct (job_has j it) eqn:Hh.
  - assert (X : snd (job_add j it) = j); [|rewrite X; lia].
    unfold job_has in Hh. unfold job_add, job_num in *. unfold job_find in *.
    destruct (find_key (j_items j) (key_of it)) as [l|]; [now rewrite Hh|].
    apply Z.ltb_lt in Hh. unfold SIZE_MAX in Hh. lia.
  - unfold job_has in Hh. unfold job_add, job_num in *. unfold job_find in *.
    destruct (find_key (j_items j) (key_of it)) as [l|] eqn:E.
    + rewrite Hh. cbn [snd]. unfold job_total. cbn [j_items].
      clear Hh Hj. revert E J3. generalize (j_items j) as q. intros q E J3. unfold find_key in E.
      induction q as [|[k1 b1] r IH]; cbn [find] in E; [discriminate|].
      cbn [put_key map fold_right fst] in *. inversion J3; subst.
      destruct (key_eqb k1 (key_of it)) eqn:Ek; cbn [snd fst] in *.
      * injection E as <-. rewrite app_length. cbn [length].
        assert (X : map (fun x => if key_eqb (fst x) (key_of it) then (key_of it, b1 ++ [it]) else x) r = r).
        { apply key_eqb_iff in Ek. subst k1. clear - H1. induction r as [|[k2 b2] r IH]; [reflexivity|]. cbn [map fst In] in *.
          destruct (key_eqb k2 (key_of it)) eqn:E; [apply key_eqb_iff in E; tauto|]. f_equal. apply IH. tauto. }
        rewrite X. lia.
      * specialize (IH E H2). unfold put_key in IH. rewrite IH. lia.
    + cbn [snd]. unfold job_total. cbn [j_items]. generalize (j_items j) as q.
      induction q as [|[k1 b1] r IH]; cbn [app fold_right snd length]; lia.
Qed.

Lemma removed j k i j' : job_remove j k i = (SUCCESS, j') ->
  0 <= i -> (forall k', k' <> k -> items_of j' k' = items_of j k') /\ items_of j' k = [] /\ i < job_num j k.
Proof.
  unfold job_remove, job_num. destruct (find_key (j_items j) k) as [l|] eqn:E; [|discriminate].
  destruct (Z.ltb_spec i (Z.of_nat (length l))); [|discriminate]. cbn [length Z.of_nat Z.eqb].
  intros X Hi. assert (Ej : j' = Job (erase_key (put_key (j_items j) k []) k) (erase_first k (j_keys j))) by congruence.
  rewrite erase_put in Ej. unfold items_of. rewrite Ej. cbn [j_items]. split; [|split; [|assumption]].
  - intros k' Hk. rewrite find_erase. destruct (key_eqb k k') eqn:Ek; [apply key_eqb_iff in Ek; congruence|reflexivity].
  - now rewrite find_erase, key_eqb_refl.
Qed.
