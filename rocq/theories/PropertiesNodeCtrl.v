(* Theorems for C57: node controllers and the selection of compute nodes. *)
From Coq Require Import Ascii String ZArith Bool Lia List.
From Verif Require Import MBuf NodeId NodeIdSpec NodeIdProofs NodeCtrl NodeCtrlSpec NodeCtrlProofs.
Import ListNotations.
Local Open Scope Z_scope.

Lemma history_rep : forall os rs c, List.Forall op_ok os -> Z.of_nat (length os) < 2 ^ 32 - 1 ->
  performs ctrl_new os rs c -> exists s, expects no_nodes os rs s /\ rep c s.
Proof.
  intros os rs c F L P. destruct (history_ok os ctrl_new no_nodes rep_new F) as (rs' & c' & s & P' & E & R).
  { unfold count, undefined_index. cbn [no_nodes nodes length]. lia. }
  destruct (performs_fun _ _ _ _ P' _ _ P) as (-> & ->). eauto.
Qed.

(* Every sequence of calls runs; the results and everything the controller reports afterwards -
   the nodes, their ids and indices, which one is selected, the text of its id, which one is
   the default - are those of the specification. *)
Theorem C57_defined : forall os, List.Forall op_ok os -> Z.of_nat (length os) < 2 ^ 32 - 1 ->
  exists rs c, performs ctrl_new os rs c.
Proof.
  intros os F L. destruct (history_ok os ctrl_new no_nodes rep_new F) as (rs & c & s & P & _).
  { unfold count, undefined_index. cbn [no_nodes nodes length]. lia. }
  eauto.
Qed.
Print Assumptions C57_defined.

Theorem C57_history : forall os rs c, List.Forall op_ok os -> Z.of_nat (length os) < 2 ^ 32 - 1 ->
  performs ctrl_new os rs c -> exists s, expects no_nodes os rs s /\ shows c s.
Proof.
  intros os rs c F L P. destruct (history_rep os rs c F L P) as (s & E & R). eauto using rep_shows.
Qed.
Print Assumptions C57_history.

(* Whatever was done before: the selected node is one of the available nodes, its text is the
   text of its id, and no two nodes have the same ids. *)
Theorem C57_selected : forall os rs c, List.Forall op_ok os -> Z.of_nat (length os) < 2 ^ 32 - 1 ->
  performs ctrl_new os rs c ->
  (has_selected c = Some false /\ selected_index c = Some undefined_index /\ selected_str c = Some []) \/
  (exists i n, has_selected c = Some true /\ selected_index c = Some i /\ is_available c i = true /\
     node_id_at c i = Some n /\ n_index n = i /\ selected_str c = Some (text n)).
Proof.
  intros os rs c F L P. destruct (history_rep os rs c F L P) as (s & _ & R).
  pose proof (rep_shows c s R) as S. rewrite (sh_has_selected _ _ S), (sh_selected _ _ S), (sh_text _ _ S).
  destruct (selected s) as [i|] eqn:E; [right|left; auto].
  destruct (r_ks _ _ R i E) as (K & _). destruct (node_at_known c s R i K) as (x & A & _ & I & _ & _).
  exists i, (i_id x). cbn [some index_of]. rewrite (sh_available _ _ S). unfold node_id_at. rewrite A.
  rewrite (id_text_at c s R i x A K). auto 10.
Qed.
Print Assumptions C57_selected.

Theorem C57_distinct : forall os rs c i j n m, List.Forall op_ok os -> Z.of_nat (length os) < 2 ^ 32 - 1 ->
  performs ctrl_new os rs c -> node_id_at c i = Some n -> node_id_at c j = Some m ->
  n_platform n = n_platform m -> n_device n = n_device m -> i = j.
Proof.
  intros os rs c i j n m F L P A B E1 E2. destruct (history_rep os rs c F L P) as (s & _ & R).
  pose proof (rep_shows c s R) as S. pose proof (sh_ids _ _ S i) as Hi. pose proof (sh_ids _ _ S j) as Hj.
  rewrite A in Hi. rewrite B in Hj. cbn [option_map] in Hi, Hj.
  rewrite <- (find_unique c s _ _ i R (eq_sym Hi)), <- (find_unique c s _ _ j R (eq_sym Hj)). now rewrite E1, E2.
Qed.
Print Assumptions C57_distinct.

(* A node is found by its ids and by every text of its id, and only then. *)
Theorem C57_find : forall os rs c p d, List.Forall op_ok os -> Z.of_nat (length os) < 2 ^ 32 - 1 ->
  performs ctrl_new os rs c ->
  (forall i n, node_id_at c i = Some n -> n_platform n = p -> n_device n = d -> find_index c p d = i) /\
  (find_index c p d = undefined_index \/
   exists n, node_id_at c (find_index c p d) = Some n /\ n_platform n = p /\ n_device n = d).
Proof.
  intros os rs c p d F L P. destruct (history_rep os rs c F L P) as (s & _ & R).
  pose proof (rep_shows c s R) as S. split.
  - intros i n A E1 E2. pose proof (sh_ids _ _ S i) as Hi. rewrite A in Hi. cbn [option_map] in Hi.
    apply (find_unique c s); auto. rewrite <- Hi. now rewrite E1, E2.
  - destruct (Z.eq_dec p (-1)) as [->|Np]; [left; unfold find_index; reflexivity|].
    destruct (Z.eq_dec d (-1)) as [->|Nd]; [left; unfold find_index, illegal_id; rewrite Z.eqb_refl, andb_false_r; reflexivity|].
    destruct (find_index_ok c s p d R Np Nd) as [(E & _)|(i & E & K & I & _)]; [now left|right].
    rewrite E. pose proof (sh_ids _ _ S i) as Hi. rewrite I in Hi.
    destruct (node_id_at c i) as [n|]; [|discriminate]. cbn [option_map] in Hi. exists n.
    split; [reflexivity|]. split; congruence.
Qed.
Print Assumptions C57_find.

Theorem C57_find_text : forall os rs c i n sp sd, List.Forall op_ok os -> Z.of_nat (length os) < 2 ^ 32 - 1 ->
  performs ctrl_new os rs c -> node_id_at c i = Some n ->
  canonical sp (n_platform n) -> canonical sd (n_device n) -> int64 (n_platform n) -> int64 (n_device n) ->
  find_str c (sp ++ "."%char :: sd) = Some i /\
  select_str c (sp ++ "."%char :: sd) = select_node c i /\
  select_ids c (n_platform n) (n_device n) = select_node c i.
Proof.
  intros os rs c i n sp sd F L P A Cp Cd Ip Id. destruct (history_rep os rs c F L P) as (s & _ & R).
  pose proof (rep_shows c s R) as S. pose proof (sh_ids _ _ S i) as Hi. rewrite A in Hi. cbn [option_map] in Hi.
  pose proof (find_unique c s _ _ i R (eq_sym Hi)) as FU.
  assert (K : known s i = true) by (unfold ids in Hi; destruct (known s i); congruence).
  assert (V : valid n = true).
  { unfold node_id_at in A. destruct (node_at_known c s R i K) as (x & A' & B & _). rewrite A' in A. cbn in A.
    replace n with (i_id x) by congruence. eapply valid_at; eauto. }
  assert (FS : find_str c (sp ++ "."%char :: sd) = Some i).
  { unfold find_str. rewrite (rep_count c s R).
    rewrite (proj2 (Z.ltb_lt 0 (count s))) by (apply known_iff in K; lia).
    unfold node_of_string. pose proof (from_string_canonical sp sd _ _ [] (mkNode illegal_id illegal_id undefined_index) Cp Cd Ip Id Logic.I) as FC.
    rewrite app_nil_r in FC. rewrite FC. unfold valid, illegal_id in V. rewrite V. cbn [bind].
    unfold set_device, set_platform, valid, illegal_id. cbn [n_platform n_device]. rewrite V. now rewrite FU. }
  split; [exact FS|]. unfold select_str, select_ids. rewrite FS, FU. split; reflexivity.
Qed.
Print Assumptions C57_find_text.

(* the history of the examples: two devices of one platform given by name, one node with ids of
   its own, selections and changes *)
Definition named (s : string) : info := Info (mkNode (-1) (-1) undefined_index) (lit s) false false.
Definition numbered (p d : Z) : info := Info (mkNode p d undefined_index) [] false false.
Definition story : list op :=
  [Append (named "gpu"); Append (named "gpu"); Append (numbered 7 3); Append (numbered 0 1); Flags false true true; Default 0;
   Select 1; Select 2; Select 2; Select 9; UnselectAt 2; ChangeFrom 0 1; Unselect].

Ltac run := repeat (eapply p_cons; [vm_compute; reflexivity|]); apply p_nil.

Example C57_example : List.Forall op_ok story /\ exists c, 
  performs ctrl_new story [0; 1; 2; undefined_index; 0; 0; 0; 0; -1; -1; 0; 0; 0] c /\
  available_indices c 10 = [0; 1; 2] /\ option_map text (node_id_at c 1) = Some (lit "0.1") /\
  find_str c (lit "7.3") = Some 2.
Proof.
  split; [repeat constructor; cbn; lia|]. eexists. split; [unfold story; run|]. vm_compute. auto.
Qed.

(* The mark in the node information is not taken away: after two selections two nodes say that
   they are the selected one. *)
Theorem C57_flags_refuted : exists os rs c x y, List.Forall op_ok os /\ performs ctrl_new os rs c /\
  node_at c 0 = Some x /\ node_at c 1 = Some y /\ i_selected x = true /\ i_selected y = true.
Proof.
  exists [Append (named "a"); Append (named "b"); Flags true false true; Select 0; Select 1], [0; 1; 0; 0; 0].
  eexists _, _, _. split; [repeat constructor; cbn; lia|]. split; [run|]. vm_compute. auto 10.
Qed.
Print Assumptions C57_flags_refuted.

(* A selection that fails can lose the node selected before: the text of the id of the new node
   has more than 16 characters. *)
Theorem C57_failure_refuted : exists os rs c c', List.Forall op_ok os /\ performs ctrl_new os rs c /\
  has_selected c = Some true /\ select_node c 1 = Some (-1, c') /\ has_selected c' = Some false.
Proof.
  exists [Append (named "a"); Append (numbered 12345678901 12345); Flags true false true; Select 0], [0; 1; 0; 0].
  eexists _, _. split; [repeat constructor; cbn; lia|]. split; [run|]. vm_compute. auto.
Qed.
Print Assumptions C57_failure_refuted.

(* Unselecting the selected node without naming it does not select the default node, although
   unselecting it by its index does. *)
Theorem C57_unselect_refuted : exists os rs c c1 c2, List.Forall op_ok os /\ performs ctrl_new os rs c /\
  selected_index c = Some 1 /\ unselect_selected c = Some (0, c1) /\ unselect_node c 1 = Some (0, c2) /\
  has_selected c1 = Some false /\ selected_index c2 = Some 0.
Proof.
  exists [Append (named "a"); Append (named "b"); Flags true true true; Default 0; Select 1], [0; 1; 0; 0; 0].
  eexists _, _, _. split; [repeat constructor; cbn; lia|]. split; [run|]. vm_compute. auto 10.
Qed.
Print Assumptions C57_unselect_refuted.

(* After clear() the pointer to the default node points to freed memory; asking for the default
   node is undefined.  The text of the node selected before is still reported. *)
Theorem C57_clear_refuted : exists os rs c c', List.Forall op_ok os /\ performs ctrl_new os rs c /\
  clear c = Some c' /\ num_nodes c' = 0 /\ has_default c' = None /\
  has_selected c' = Some false /\ selected_str c' = Some (lit "0.0").
Proof.
  exists [Append (named "a"); Default 0; Select 0], [0; 0; 0].
  eexists _, _. split; [repeat constructor; cbn; lia|]. split; [run|]. vm_compute. auto 10.
Qed.
Print Assumptions C57_clear_refuted.

(* With negative ids two nodes can get the same ids. *)
Theorem C57_negative_refuted : exists os rs c, performs ctrl_new os rs c /\
  option_map text (node_id_at c 0) = Some (lit "0.-2") /\ option_map text (node_id_at c 2) = Some (lit "0.-2").
Proof.
  exists [Append (Info (mkNode 0 (-2) undefined_index) (lit "a") false false);
          Append (Info (mkNode 0 (-3) undefined_index) (lit "a") false false); Append (named "a")], [0; 1; 2].
  eexists. split; [run|]. vm_compute. auto.
Qed.
Print Assumptions C57_negative_refuted.
