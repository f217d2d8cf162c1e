(* C73: the OpenCL nodes on offer. *)
From Coq Require Import Ascii String ZArith Bool List Lia Sorting.Sorted.
From Verif Require Import Tac NodeId NodeIdSpec NodeIdProofs ComputeNode ComputeNodeSpec ComputeNodeProofs ComputeInfoProofs
  OclNodes OclNodesSpec OclTextProofs OclNodesProofs OclAvailProofs.
Import ListNotations.
Local Open Scope Z_scope.

(* Every device of every platform is one node, and nothing else is; ids count the platforms that
   have devices and the devices of a platform from 0; the list is in increasing order. *)
Theorem C73_all : forall ps,
  increasing (map nd_id (all_nodes 0 ps)) /\ forall nd, In nd (all_nodes 0 ps) <-> is_node ps nd.
Proof. intros ps. split; [apply (all_sorted ps 0)|apply all_is_node]. Qed.
Print Assumptions C73_all.

(* The ids read from the variable: those that begin a part of the text, each once, in order. *)
Theorem C73_ids : forall env name t,
  env (match name with Some v => v | None => lit "SIXTRACKLIB_DEVICES" end) = Some t -> t <> [] -> int_ids t ->
  exists l, allowed_nodes env name = Some l /\ increasing l /\ forall n, In n l <-> lists_id t n.
Proof. exact allowed_spec. Qed.
Print Assumptions C73_ids.

(* The nodes on offer: exactly those the variable chooses, in order, each with its description; the
   heap holds these descriptions and otherwise what it held before. Missing: a variable with an
   empty name (see C73_empty_name_refuted) and numbers outside the range of int (undefined). *)
Theorem C73_available_partial : forall env name os ps want h, proper ps -> name <> Some [] ->
  (forall t, a_list (the_value env name) t -> int_ids t) ->
  exists s h', get_available env name os ps want h = Some (s, h') /\
    increasing (map nd_id (sel_nodes s)) /\
    (forall nd, In nd (sel_nodes s) <-> is_node ps nd /\ chosen (the_value env name) (nd_id nd)) /\
    (if want then Forall2 (described h' os) (sel_nodes s) (sel_infos s) else sel_infos s = []) /\
    owns_all (sel_infos s) h' /\ nothing_else h h' [] (owned_all (sel_infos s)).
Proof.
  intros env name os ps want h Pr Nn Ok.
  assert (Ve : value_of env name = the_value env name) by reflexivity.
  assert (Vn : the_value env name = env (match name with Some v => v | None => lit "SIXTRACKLIB_DEVICES" end)).
  { unfold the_value. destruct name as [[|a v]|]; [congruence|reflexivity|reflexivity]. }
  destruct (the_value env name) as [t|] eqn:Et.
  2:{ destruct (available_ok env name os ps want h [] Pr) as (s & h' & E & A & B & C).
      - intros t [H _]. rewrite Ve in H. discriminate.
      - exists s, h'. split; [exact E|]. split; [exact A|]. split; [|exact C]. intros nd. rewrite B, Ve. reflexivity. }
  destruct (list_eq_dec ascii_dec t []) as [->|Nt].
  { destruct (available_ok env name os ps want h [] Pr) as (s & h' & E & A & B & C).
    - intros t [H [Ne _]]. rewrite Ve in H. congruence.
    - exists s, h'. split; [exact E|]. split; [exact A|]. split; [|exact C]. intros nd. rewrite B, Ve. reflexivity. }
  destruct (list_eq_dec ascii_dec t (lit "first")) as [Tf|Nf].
  { destruct (available_ok env name os ps want h [] Pr) as (s & h' & E & A & B & C).
    - intros u (H & _ & Hf & _). rewrite Ve in H. congruence.
    - exists s, h'. split; [exact E|]. split; [exact A|]. split; [|exact C]. intros nd. rewrite B, Ve, Tf. cbn [chosen_by chosen]. 
      split; intros [In' D]; (split; [exact In'|]); cbn [lit list_ascii_of_string chosen_by chosen] in *; cbn [In] in *; intuition congruence. }
  destruct (list_eq_dec ascii_dec t (lit "all")) as [Ta|Na].
  { destruct (available_ok env name os ps want h [] Pr) as (s & h' & E & A & B & C).
    - intros u (H & _ & _ & Ha). rewrite Ve in H. congruence.
    - exists s, h'. split; [exact E|]. split; [exact A|]. split; [|exact C]. intros nd. rewrite B, Ve, Ta.
      cbn [lit list_ascii_of_string chosen_by chosen]. tauto. }
  destruct (allowed_spec env name t) as (l & El & _ & Il); [symmetry; exact Vn|exact Nt|apply Ok; split; auto|].
  destruct (available_ok env name os ps want h l Pr) as (s & h' & E & A & B & C).
  - intros u _. exact El.
  - exists s, h'. split; [exact E|]. split; [exact A|]. split; [|exact C]. intros nd. rewrite B, Ve.
    destruct t as [|a w]; [congruence|]. cbn [chosen_by chosen]. rewrite Il. tauto.
Qed.
Print Assumptions C73_available_partial.

(* two platforms, the first without devices *)
Definition ex_platforms : list platform :=
  [mkPlat (lit "empty") []; mkPlat (lit "pocl") [mkDev (lit "cpu") []; mkDev (lit "gpu") (lit "ext")];
   mkPlat (lit "other") [mkDev (lit "card") []]].
Definition ex_env (v : chars) : option chars :=
  if text_eqb v (lit "MY_NODES") then Some (lit " 2:0.1; cuda:0.0 ,opencl:01.0, 0.1,7.7") else None.
Definition all_ok : nat -> outcomes := fun _ => mkO true true true true.

Lemma ex_proper : proper ex_platforms.
Proof.
  assert (T : forall s, forallb (fun a => negb (Ascii.eqb a nul)) s = true -> (length s < 100)%nat -> device_text s).
  { intros s H L. split; [|lia]. intros Hi. rewrite forallb_forall in H. specialize (H _ Hi). discriminate. }
  repeat constructor; cbn [pl_name pl_devices dv_name dv_description]; try (apply T; [reflexivity|vm_compute; lia]).
Qed.

Example C73_available_case : proper ex_platforms /\
  (forall t, a_list (the_value ex_env (Some (lit "MY_NODES"))) t -> int_ids t) /\
  exists s h', get_available ex_env (Some (lit "MY_NODES")) all_ok ex_platforms true [] = Some (s, h') /\
    map nd_id (sel_nodes s) = [mkCN 0 1; mkCN 1 0].
Proof.
  split; [apply ex_proper|]. split.
  - intros t (H & Nt & _). injection H as <-. intros n Hn. apply lists_id_spec in Hn as (x & Hx & sp & sd & -> & Dp & Dd); [|exact Nt].
    assert (In (sp ++ "."%char :: sd) [lit "0.1"; lit "01.0"; lit "0.1"; lit "7.7"]) as Hx' by exact Hx.
    assert (forall u, id_text_of (sp ++ "."%char :: sd) u -> n = u) as U.
    { intros u Hu. eapply id_text_fun; [|exact Hu]. exists sp, sd. auto. }
    assert (one : forall a k, digit_of a k -> denotes [a] k) by (intros; constructor; auto).
    destruct Hx' as [E|[E|[E|[E|[]]]]]; rewrite <- E in U.
    + rewrite (U (mkCN 0 1)); [split; reflexivity|]. exists (lit "0"), (lit "1"). split; [reflexivity|]. split; apply one; (split; [cbn; lia|reflexivity]).
    + rewrite (U (mkCN 1 0)); [split; reflexivity|]. exists (lit "01"), (lit "0"). split; [reflexivity|]. split.
      * change (lit "01") with ([ "0"%char ] ++ ["1"%char]). apply (den_more ["0"%char] 0 "1"%char 1); [apply one|]; (split; [lia|reflexivity]).
      * apply one. split; [cbn; lia|reflexivity].
    + rewrite (U (mkCN 0 1)); [split; reflexivity|]. exists (lit "0"), (lit "1"). split; [reflexivity|]. split; apply one; (split; [cbn; lia|reflexivity]).
    + rewrite (U (mkCN 7 7)); [split; reflexivity|]. exists (lit "7"), (lit "7"). split; [reflexivity|]. split; apply one; (split; [cbn; lia|reflexivity]).
  - eexists. eexists. split; vm_compute; reflexivity.
Qed.

(* Given as "" the name is taken as SIXTRACKLIB_DEVICES when the kind of value is determined, but
   as "" when the ids are read: a list in the variable then leaves no node. *)
Theorem C73_empty_name_refuted : exists env t nd, env (lit "SIXTRACKLIB_DEVICES") = Some t /\
  a_list (the_value env (Some [])) t /\ is_node ex_platforms nd /\ lists_id t (nd_id nd) /\
  exists s h', get_available env (Some []) all_ok ex_platforms true [] = Some (s, h') /\ sel_nodes s = [].
Proof.
  exists (fun v => if text_eqb v (lit "SIXTRACKLIB_DEVICES") then Some (lit "0.1") else None), (lit "0.1"),
    (mkNd (mkCN 0 1) (lit "pocl") (mkDev (lit "gpu") (lit "ext"))).
  split; [reflexivity|]. split; [split; [reflexivity|]; repeat split; discriminate|].
  split; [exists O, 1%nat; eexists; split; [reflexivity|]; split; [reflexivity|]; split; reflexivity|]. split.
  - apply lists_id_spec; [discriminate|]. exists (lit "0.1"). split; [left; reflexivity|]. exists (lit "0"), (lit "1").
    split; [reflexivity|]. split; constructor; (split; [cbn; lia|reflexivity]).
  - eexists. eexists. split; vm_compute; reflexivity.
Qed.
Print Assumptions C73_empty_name_refuted.

(* Looking an id up gives its place in the list, or the number of nodes. *)
Theorem C73_find : forall ids p d, increasing ids -> Forall (fun n => 0 <= cn_platform n /\ 0 <= cn_device n) ids ->
  0 <= find_index ids p d <= Z.of_nat (length ids) /\
  (forall k, nth_error ids k = Some (mkCN p d) <-> (find_index ids p d = Z.of_nat k /\ In (mkCN p d) ids)) /\
  (find_index ids p d = Z.of_nat (length ids) <-> ~ In (mkCN p d) ids) /\
  (id_available ids (mkCN p d) = true <-> In (mkCN p d) ids).
Proof.
  intros ids p d Inc F. pose proof (increasing_nodup ids Inc) as ND.
  assert (H : (exists k, find_index ids p d = Z.of_nat k /\ nth_error ids k = Some (mkCN p d))
              \/ (find_index ids p d = Z.of_nat (length ids) /\ ~ In (mkCN p d) ids)).
  { unfold find_index. destruct ((0 <=? p) && (0 <=? d)) eqn:E.
    - destruct (find_from_spec ids p d) as [(k & E1 & E2 & _)|H]; [left; exists k; auto|right; exact H].
    - right. split; [reflexivity|]. intros Hi. rewrite Forall_forall in F. specialize (F _ Hi). cbn [cn_platform cn_device] in F.
      rewrite (proj2 (Z.leb_le 0 p)), (proj2 (Z.leb_le 0 d)) in E by lia. discriminate. }
  unfold id_available. cbn [cn_platform cn_device]. destruct H as [(k & E & Hk)|[E N]]; rewrite E.
  - assert (L : (k < length ids)%nat) by (apply nth_error_Some; rewrite Hk; discriminate).
    assert (Hi : In (mkCN p d) ids) by (eapply nth_error_In; eauto).
    split; [lia|]. split.
    + intros j. split.
      * intros Hj. split; auto. f_equal. rewrite NoDup_nth_error in ND. apply ND; [exact L|congruence].
      * intros [Ej _]. assert (j = k) by lia. subst j. exact Hk.
    + split; [split; [lia|contradiction]|]. rewrite Z.ltb_lt. split; [auto|lia].
  - split; [lia|]. split.
    + intros j. split; [intros Hj; exfalso; apply N; eapply nth_error_In; eauto|tauto].
    + split; [tauto|]. rewrite Z.ltb_lt. split; [lia|contradiction].
Qed.
Print Assumptions C73_find.

Example C73_find_case : increasing [mkCN 0 1; mkCN 1 0] /\ find_index [mkCN 0 1; mkCN 1 0] 1 0 = 1 /\ find_index [mkCN 0 1; mkCN 1 0] 0 0 = 2.
Proof. split; [|split; reflexivity]. repeat constructor; cbn; lia. Qed.

(* A text of an id leads to the same place as the id. *)
Theorem C73_find_text : forall ids n t, plain_text n t -> 0 <= cn_platform n < 2 ^ 31 -> 0 <= cn_device n < 2 ^ 31 ->
  find_text ids (Some t) = Some (find_index ids (cn_platform n) (cn_device n)).
Proof.
  intros ids n t P Hp Hd. pose proof (scan_pair_plain n t P (conj Hp Hd)) as S. destruct P as (sp & sd & -> & Cp & Cd).
  unfold find_text. apply canonical_nonempty in Cp, Cd.
  rewrite (proj2 (Z.leb_le 3 _)).
  - rewrite S. reflexivity.
  - rewrite app_length. cbn [length]. destruct sp; [congruence|]. destruct sd; [congruence|]. cbn [length]. lia.
Qed.
Print Assumptions C73_find_text.

Example C73_find_text_case : find_text [mkCN 0 1; mkCN 1 0] (Some (lit "1.0")) = Some 1.
Proof. vm_compute. reflexivity. Qed.

(* A text without a digit or without a dot is no id of a node: it is not found. *)
Lemma skip_space_in : forall s x, In x (skip_space s) -> In x s.
Proof.
  induction s as [|a s IH]; intros x H; cbn [skip_space] in H; [easy|]. destruct (is_space a); [right; auto|exact H].
Qed.
Lemma read_digits_in : forall s v x, In x (snd (read_digits s v)) -> In x s.
Proof.
  induction s as [|a s IH]; intros v x H; cbn [read_digits] in H; [easy|]. destruct (is_digit a); [right; eauto|exact H].
Qed.
Lemma scan_d_in : forall s z r x, scan_d s = Scanned z r -> In x r -> In x s.
Proof.
  intros s z r x H. unfold scan_d, scan_lld in H.
  assert (G : forall (neg : bool) s2, (forall y, In y s2 -> In y s) ->
    match s2 with
    | a :: _ => if is_digit a then let '(v, rest) := read_digits s2 0 in
        let z := if neg then - v else v in if (- 2 ^ 63 <=? z) && (z <? 2 ^ 63) then Scanned z rest else Unrepresentable
        else NoMatch
    | [] => NoMatch
    end = Scanned z r -> In x r -> In x s).
  { intros neg s2 Hs E. destruct s2 as [|a s2]; [discriminate|]. destruct (is_digit a); [|discriminate].
    pose proof (read_digits_in (a :: s2) 0 x) as Q. destruct (read_digits (a :: s2) 0) as [v rest]. cbv zeta in E.
    destruct ((- 2 ^ 63 <=? _) && _); [|discriminate]. injection E as _ <-. intros I. apply Hs, Q, I. }
  cbv zeta in H.
  destruct (match skip_space s with "-"%char :: t => (true, t) | "+"%char :: t => (false, t) | _ => (false, skip_space s) end)
    as [neg s2] eqn:E2.
  assert (forall y, In y s2 -> In y s) as Hs.
  { intros y Iy. apply skip_space_in. destruct (skip_space s) as [|[[] [] [] [] [] [] [] []] w]; injection E2 as <- <-; try exact Iy; right; exact Iy. }
  specialize (G neg s2 Hs). destruct s2 as [|a s2]; [discriminate|]. destruct (is_digit a); [|discriminate].
  destruct (read_digits (a :: s2) 0) as [v rest]. cbv zeta in G.
  destruct ((- 2 ^ 63 <=? (if neg then - v else v)) && ((if neg then - v else v) <? 2 ^ 63)); [|discriminate].
  destruct ((- 2 ^ 31 <=? (if neg then - v else v)) && _); [|discriminate]. now apply G.
Qed.
Lemma scan_d_digit : forall s, (forall x, In x s -> is_digit x = false) -> scan_d s = NoMatch.
Proof.
  intros s H. unfold scan_d, scan_lld. cbv zeta.
  destruct (match skip_space s with "-"%char :: t => (true, t) | "+"%char :: t => (false, t) | _ => (false, skip_space s) end)
    as [neg s2] eqn:E2.
  destruct s2 as [|a s2]; [reflexivity|]. rewrite (H a); [reflexivity|]. apply skip_space_in.
  destruct (skip_space s) as [|[[] [] [] [] [] [] [] []] w]; injection E2 as <- ->; try (left; reflexivity); right; left; reflexivity.
Qed.
Theorem C73_find_no_id : forall ids t,
  ((forall x, In x t -> is_digit x = false) -> find_text ids (Some t) = Some (Z.of_nat (length ids))) /\
  (~ In "."%char t -> forall k, find_text ids (Some t) = Some k -> k = Z.of_nat (length ids)) /\
  find_text ids None = Some (Z.of_nat (length ids)).
Proof.
  intros ids t. unfold find_text. split; [|split; [|reflexivity]].
  - intros H. destruct (3 <=? _); [|reflexivity]. unfold scan_pair. now rewrite (scan_d_digit t H).
  - intros H k E. destruct (3 <=? _); [|congruence]. unfold scan_pair in E.
    destruct (scan_d t) as [z r| |] eqn:S; [|congruence|discriminate].
    pose proof (scan_d_in t z r "."%char S) as Q.
    destruct r as [|c r]; [congruence|]. destruct (ascii_dec c ".") as [->|D]; [exfalso; apply H, Q; now left|].
    destruct c as [[] [] [] [] [] [] [] []]; try congruence.
Qed.
Print Assumptions C73_find_no_id.

Example C73_find_no_id_case : find_text [mkCN 0 1; mkCN 1 0] (Some (lit "1:0")) = Some 2 /\ ~ In "."%char (lit "1:0") /\
  find_text [mkCN 0 1; mkCN 1 0] (Some (lit "gpu")) = Some 2.
Proof. split; [vm_compute; reflexivity|]. split; [|vm_compute; reflexivity]. cbn. intuition discriminate. Qed.

(* The ids can be fetched in pages: the array receives the ids behind the skipped ones, as many as
   there are and fit, and keeps its other entries. *)
Theorem C73_page : forall env name os ps o max skip h s h0,
  get_available env name os ps false h = Some (s, h0) -> 0 < max -> 0 <= skip -> max <= Z.of_nat (length o) ->
  let ids := map nd_id (sel_nodes s) in
  exists n o', get_page env name os ps (Some o) max skip h = Some (n, Some o', h0) /\
    n = Z.min max (Z.max 0 (Z.of_nat (length ids) - skip)) /\ length o' = length o /\
    (forall k, (Z.of_nat k < n) -> nth_error o' k = nth_error ids (Z.to_nat skip + k)) /\
    (forall k, (n <= Z.of_nat k) -> nth_error o' k = nth_error o k).
Proof.
  intros env name os ps o max skip h s h0 E Hm Hs Lo ids. unfold get_page. rewrite (proj2 (Z.ltb_lt 0 max)) by lia. rewrite E. cbn [obind].
  fold ids. eexists. eexists. split; [reflexivity|].
  set (n := if max <? (if skip <=? Z.of_nat (length ids) then Z.of_nat (length ids) - skip else 0) then max
            else if skip <=? Z.of_nat (length ids) then Z.of_nat (length ids) - skip else 0).
  assert (En : n = Z.min max (Z.max 0 (Z.of_nat (length ids) - skip))).
  { unfold n. destruct (Z.leb_spec skip (Z.of_nat (length ids))) as [L|L]; destruct (Z.ltb_spec max (Z.of_nat (length ids) - skip)); try lia;
    destruct (Z.ltb_spec max 0); lia. }
  split; [exact En|]. clearbody n.
  destruct (Z.ltb_spec 0 n) as [Pn|Zn].
  - assert (Lf : length (firstn (Z.to_nat n) (skipn (Z.to_nat skip) ids)) = Z.to_nat n) by (rewrite firstn_length, skipn_length; lia).
    split; [rewrite app_length, Lf, skipn_length; lia|]. split; intros k Hk.
    + rewrite nth_error_app1 by lia.
      rewrite <- (firstn_skipn (Z.to_nat skip) ids) at 2.
      rewrite nth_error_app2 by (rewrite firstn_length; lia). rewrite firstn_length.
      replace (Z.to_nat skip + k - Nat.min (Z.to_nat skip) (length ids))%nat with k by lia.
      rewrite <- (firstn_skipn (Z.to_nat n) (skipn (Z.to_nat skip) ids)) at 2. rewrite nth_error_app1 by lia. reflexivity.
    + rewrite nth_error_app2 by lia. rewrite Lf. rewrite <- (firstn_skipn (Z.to_nat n) o) at 2.
      rewrite nth_error_app2; rewrite firstn_length_le by lia; [reflexivity|lia].
  - split; [reflexivity|]. split; intros k Hk; [lia|reflexivity].
Qed.
Print Assumptions C73_page.

Example C73_page_case : exists o h, get_page ex_env None all_ok ex_platforms (Some (repeat cn_preset 2)) 2 1 [] = Some (2, Some o, h)
  /\ o = [mkCN 0 1; mkCN 1 0].
Proof. eexists. eexists. split; vm_compute; reflexivity. Qed.

(* The default node is the first one on offer, provided it has a name and memory suffices. *)
Theorem C73_default_partial : forall env name os ps h s h' nd ns, proper ps -> name <> Some [] ->
  (forall t, a_list (the_value env name) t -> int_ids t) ->
  get_available env name os ps true h = Some (s, h') -> sel_nodes s = nd :: ns ->
  dv_name (nd_device nd) <> [] -> (forall k, ~ no_memory (os k)) ->
  default_id s = Some (nd_id nd) /\ is_default_index s 0 = Some true /\
  forall k, 0 < k < Z.of_nat (length (sel_nodes s)) -> is_default_index s k = Some false.
Proof.
  intros env name os ps h s h' nd ns Pr Nn Ok G E Nd Nm.
  destruct (C73_available_partial env name os ps true h Pr Nn Ok) as (s1 & h1 & G1 & Inc & Iff & D & _).
  rewrite G in G1. injection G1 as <- <-.
  assert (Def : default_id s = Some (nd_id nd)).
  { unfold default_id. rewrite E in D. inversion D as [|? i ? is Di _].
    destruct Di as [(Ei & _)|[_ [A|(k & A)]]]; [rewrite Ei; reflexivity|contradiction|destruct (Nm k A)]. }
  assert (Na : forall x, In x (sel_nodes s) -> named_id (nd_id x)) by (intros x Hx; eapply node_named; apply Iff; exact Hx).
  split; [exact Def|]. unfold is_default_index. rewrite Def. cbn [obind]. split.
  - rewrite E. cbn [length map nth_error]. rewrite (proj2 (Z.ltb_lt 0 _)) by lia. cbn [Z.leb andb].
    change (0 <=? 0) with true. cbn [andb]. change (Z.to_nat 0) with O. cbn [nth_error]. f_equal.
    apply equal_named; auto; apply Na; rewrite E; left; reflexivity.
  - intros k Hk. rewrite (proj2 (Z.leb_le 0 k)), (proj2 (Z.ltb_lt k _)) by lia. cbn [andb]. f_equal.
    destruct (nth_error (map nd_id (sel_nodes s)) (Z.to_nat k)) as [m|] eqn:Em.
    2:{ apply nth_error_None in Em. rewrite map_length in Em. lia. }
    destruct (cn_are_equal (Some m) (Some (nd_id nd))) eqn:Eq; [|reflexivity]. exfalso.
    assert (Hm : In m (map nd_id (sel_nodes s))) by (eapply nth_error_In; eauto). pose proof Hm as Hm'.
    apply in_map_iff in Hm' as (x & Ex & Hx). apply equal_named in Eq; [|rewrite <- Ex; auto|apply Na; rewrite E; left; reflexivity].
    pose proof (increasing_nodup _ Inc) as ND. rewrite NoDup_nth_error in ND.
    assert (Z.to_nat k = O); [|lia]. apply ND; [rewrite map_length; lia|]. rewrite Em, E, Eq. reflexivity.
Qed.
Print Assumptions C73_default_partial.

(* Without a node on offer the default id should be unset. After a list of ids that names no
   existing node it is read from behind the end of the empty vector of descriptions. *)
Theorem C73_default_none_refuted : exists env s h',
  get_available env None all_ok ex_platforms true [] = Some (s, h') /\ sel_nodes s = [] /\ default_id s = None.
Proof.
  exists (fun _ => Some (lit "9.9")). eexists. eexists. split; [vm_compute; reflexivity|]. split; reflexivity.
Qed.
Print Assumptions C73_default_none_refuted.

(* A device without a name is on offer, but then the first node is not the default node. *)
Theorem C73_default_unnamed_refuted : exists ps s h' nd,
  proper ps /\ get_available (fun _ => None) None all_ok ps true [] = Some (s, h') /\ sel_nodes s = [nd] /\
  default_id s = Some cn_preset /\ nd_id nd <> cn_preset /\ is_default_index s 0 = Some false.
Proof.
  exists [mkPlat (lit "pocl") [mkDev [] []]]. eexists. eexists. eexists. split; [|split; [vm_compute; reflexivity|]].
  - assert (T : forall s, forallb (fun a => negb (Ascii.eqb a nul)) s = true -> (length s < 100)%nat -> device_text s).
    { intros s H L. split; [|lia]. intros Hi. rewrite forallb_forall in H. specialize (H _ Hi). discriminate. }
    repeat constructor; cbn [pl_name pl_devices dv_name dv_description]; try (apply T; [reflexivity|vm_compute; lia]).
  - split; [reflexivity|]. split; [reflexivity|]. split; [discriminate|reflexivity].
Qed.
Print Assumptions C73_default_unnamed_refuted.

(* A number that does not fit into an int is undefined behaviour of sscanf instead of an id that no
   node has. *)
Theorem C73_large_refuted : exists env, get_available env None all_ok ex_platforms true [] = None /\
  lists_id (lit "4294967296.0") (mkCN 4294967296 0) /\ env (lit "SIXTRACKLIB_DEVICES") = Some (lit "4294967296.0").
Proof.
  exists (fun _ => Some (lit "4294967296.0")). split; [vm_compute; reflexivity|]. split; [|reflexivity].
  apply lists_id_spec; [discriminate|]. exists (lit "4294967296.0"). split; [left; vm_compute; reflexivity|].
  exists (lit "4294967296"), (lit "0"). split; [reflexivity|]. split.
  - pose proof (print_nat_spec 4294967296 ltac:(lia)) as [D _].
    assert (E : print_nat 4294967296 = lit "4294967296") by (vm_compute; reflexivity). rewrite E in D. exact D.
  - constructor. split; [cbn; lia|reflexivity].
Qed.
Print Assumptions C73_large_refuted.
