From Coq Require Import Ascii String ZArith Bool List Lia Sorting.Sorted Permutation.
From Verif Require Import Tac NodeId NodeIdSpec NodeIdProofs ComputeNode ComputeNodeSpec ComputeNodeProofs ComputeInfoProofs
  OclNodes OclNodesSpec OclTextProofs PropertiesComputeNode.
Import ListNotations.
Local Open Scope Z_scope.

(* ---- reading the ids ---- *)
Lemma scan_d_denotes : forall s v r, denotes s v -> no_digit r ->
  scan_d (s ++ r) = if v <? 2 ^ 31 then Scanned v r else Unrepresentable.
Proof.
  intros s v r D R. destruct (denotes_digits _ _ D) as (A & Ne & Hv). unfold scan_d, scan_lld.
  rewrite skip_digits by auto. pose proof (read_all s v r D R) as Rd.
  destruct s as [|a s]; [congruence|]. pose proof A as A'. apply Forall_cons_iff in A' as [Ha _].
  assert (E : (let '(neg, s2) := match (a :: s) ++ r with
                    | "-"%char :: t => (true, t)
                    | "+"%char :: t => (false, t)
                    | _ => (false, (a :: s) ++ r)
                    end in (neg, s2)) = (false, (a :: s) ++ r)).
  { cbn [app]. destruct a as [[] [] [] [] [] [] [] []]; try reflexivity; discriminate Ha. }
  destruct (match (a :: s) ++ r with "-"%char :: t => (true, t) | "+"%char :: t => (false, t) | _ => (false, (a :: s) ++ r) end) as [neg s2].
  injection E as -> ->. cbn [app]. rewrite Ha. change (a :: s ++ r) with ((a :: s) ++ r). rewrite Rd.
  destruct (v <? 2 ^ 31) eqn:Ev.
  - apply Z.ltb_lt in Ev. rewrite (proj2 (Z.leb_le (- 2 ^ 63) v)) by lia. rewrite (proj2 (Z.ltb_lt v (2 ^ 63))) by lia. cbn [andb].
    rewrite (proj2 (Z.leb_le (- 2 ^ 31) v)) by lia. rewrite (proj2 (Z.ltb_lt v (2 ^ 31))) by lia. reflexivity.
  - apply Z.ltb_ge in Ev. destruct ((- 2 ^ 63 <=? v) && (v <? 2 ^ 63)); [|reflexivity].
    rewrite (proj2 (Z.ltb_ge v (2 ^ 31))) by lia. rewrite andb_false_r. reflexivity.
Qed.

Definition fits (n : cnode) : Prop := cn_platform n < 2 ^ 31 /\ cn_device n < 2 ^ 31.
Definition named_id (n : cnode) : Prop := 0 <= cn_platform n /\ 0 <= cn_device n.

Lemma id_text_named : forall x n, id_text_of x n -> named_id n.
Proof.
  intros x n (sp & sd & _ & Dp & Dd). split; [apply (denotes_digits _ _ Dp)|apply (denotes_digits _ _ Dd)].
Qed.

Lemma read_one : forall x n, id_text_of x n -> fits n -> cn_from_text (Some cn_preset) (Some x) = Some (Some n, 0).
Proof.
  intros x n I [Hp Hd]. pose proof (id_text_named x n I) as [Np Nd]. destruct I as (sp & sd & -> & Dp & Dd).
  assert (S : scan_pair (sp ++ "."%char :: sd) = Some (Some (cn_platform n, cn_device n))).
  { unfold scan_pair. rewrite (scan_d_denotes sp _ _ Dp) by reflexivity. rewrite (proj2 (Z.ltb_lt _ _)) by lia.
    rewrite <- (app_nil_r sd). rewrite (scan_d_denotes sd _ [] Dd) by exact Logic.I. rewrite (proj2 (Z.ltb_lt _ _)) by lia. reflexivity. }
  unfold cn_from_text, cn_from_string, scan_id. destruct (denotes_digits _ _ Dp) as (_ & Ne & _). destruct sp as [|a sp]; [congruence|].
  cbn [app] in *. rewrite S. rewrite (proj2 (Z.leb_le _ _)) by lia. rewrite (proj2 (Z.leb_le _ _)) by lia. destruct n. reflexivity.
Qed.

Lemma id_text_fun : forall x n m, id_text_of x n -> id_text_of x m -> n = m.
Proof.
  intros x [p d] [p' d'] (sp & sd & -> & Dp & Dd) (sp' & sd' & E & Dp' & Dd'). cbn [cn_platform cn_device] in *.
  destruct (denotes_digits _ _ Dp) as (A1 & _). destruct (denotes_digits _ _ Dp') as (A2 & _).
  assert (F : span_digits (sp ++ "."%char :: sd) = span_digits (sp' ++ "."%char :: sd')) by (rewrite E; reflexivity).
  rewrite !span_digits_app in F by (auto; reflexivity). injection F as -> ->.
  rewrite (denotes_inj _ _ _ Dp Dp'), (denotes_inj _ _ _ Dd Dd'). reflexivity.
Qed.

Lemma read_ids_ok : forall ts, (forall x, In x ts -> exists n, id_text_of x n /\ fits n) ->
  exists l, read_ids ts = Some l /\ (forall n, In n l <-> exists x, In x ts /\ id_text_of x n) /\ Forall named_id l.
Proof.
  induction ts as [|x ts IH]; intros H.
  - exists []. split; [reflexivity|]. split; [|constructor]. intros n. split; [intros []|intros (x & [] & _)].
  - destruct IH as (l & E & I & F); [intros y Hy; apply H; right; auto|].
    destruct (H x (or_introl eq_refl)) as (n & In' & Fn). exists (n :: l). cbn [read_ids]. rewrite (read_one x n In' Fn). cbn [obind].
    rewrite E. cbn [obind]. split; [reflexivity|]. split.
    + intros m. cbn [In]. rewrite I. split.
      * intros [<-|(y & Hy & Iy)]; [exists x; auto|exists y; auto].
      * intros (y & [<-|Hy] & Iy); [left; eapply id_text_fun; eauto|right; exists y; auto].
    + constructor; auto. eapply id_text_named; eauto.
Qed.

(* ---- sorting ---- *)
Lemma before_total : forall a b, before a b \/ a = b \/ before b a.
Proof. intros [pa da] [pb db]. unfold before. cbn [cn_platform cn_device].
  destruct (Z.lt_trichotomy pa pb) as [H|[->|H]]; auto. destruct (Z.lt_trichotomy da db) as [H|[->|H]]; auto. Qed.
Lemma before_trans : forall a b c, before a b -> before b c -> before a c.
Proof. unfold before. intros a b c. lia. Qed.

Definition upto (a b : cnode) : Prop := a = b \/ before a b.
Lemma insert_in : forall n l m, In m (insert_id n l) <-> m = n \/ In m l.
Proof.
  intros n l m. induction l as [|a l IH]; cbn [insert_id In]; [intuition congruence|].
  destruct (cn_lt a n); cbn [In]; [rewrite IH; tauto|intuition congruence].
Qed.
Lemma insert_sorted : forall n l, StronglySorted upto l -> StronglySorted upto (insert_id n l).
Proof.
  intros n l H. induction H as [|a l H IH F]; cbn [insert_id]; [repeat constructor|].
  destruct (cn_lt a n) eqn:E.
  - constructor; auto. rewrite Forall_forall in *. intros m Hm. apply insert_in in Hm as [->|Hm]; auto.
    right. apply cn_lt_before. exact E.
  - assert (U : upto n a).
    { destruct (before_total n a) as [B|[->|B]]; [right; auto|left; auto|]. apply cn_lt_before in B. congruence. }
    constructor; [constructor; auto|]. constructor; auto. rewrite Forall_forall in *. intros m Hm.
    destruct U as [->|U]; [auto|]. destruct (F m Hm) as [<-|B]; [right; auto|right; eapply before_trans; eauto].
Qed.
Lemma sort_spec : forall l, StronglySorted upto (sort_ids l) /\ forall m, In m (sort_ids l) <-> In m l.
Proof.
  induction l as [|n l [S I]]; cbn [sort_ids]; [split; [constructor|tauto]|]. split; [apply insert_sorted; auto|].
  intros m. rewrite insert_in, I. cbn [In]. intuition congruence.
Qed.

Lemma named_set : forall n, named_id n -> set_id n.
Proof. intros n [H1 H2]. split; lia. Qed.
Lemma equal_named : forall a b, named_id a -> named_id b -> cn_are_equal (Some a) (Some b) = true <-> a = b.
Proof.
  intros a b Ha Hb. unfold cn_are_equal. rewrite Z.eqb_eq.
  destruct (compare_spec a b (named_set a Ha) (named_set b Hb)) as [[E ->]|[[E B]|[E B]]]; rewrite E.
  - tauto.
  - split; [discriminate|]. intros ->. destruct (before_irrefl b B).
  - split; [discriminate|]. intros ->. destruct (before_irrefl b B).
Qed.

Lemma unique_spec : forall l n, StronglySorted upto (n :: l) -> Forall named_id (n :: l) ->
  StronglySorted before (unique_from n l) /\ forall m, In m (unique_from n l) <-> In m (n :: l).
Proof.
  induction l as [|a l IH]; intros n S F; cbn [unique_from].
  - split; [repeat constructor|tauto].
  - apply Forall_cons_iff in F as [Fn F]. pose proof F as F'. apply Forall_cons_iff in F' as [Fa Fl].
    inversion S as [|? ? Sa Un]; subst. inversion Sa as [|? ? Sl Ua]; subst.
    destruct (cn_are_equal (Some n) (Some a)) eqn:E.
    + apply equal_named in E; auto. subst a. destruct (IH n) as [S' I'].
      * constructor; auto.
      * constructor; auto.
      * split; auto. intros m. rewrite I'. cbn [In]. tauto.
    + destruct (IH a Sa F) as [S' I']. split.
      * constructor; auto. rewrite Forall_forall in *. intros m Hm. apply I' in Hm.
        assert (B : before n a).
        { destruct (Un a (or_introl eq_refl)) as [->|B]; auto. rewrite (proj2 (equal_named a a Fa Fa) eq_refl) in E. discriminate. }
        destruct Hm as [<-|Hm]; auto. destruct (Ua m Hm) as [<-|B']; auto. eapply before_trans; eauto.
      * intros m. cbn [In]. rewrite I'. cbn [In]. tauto.
Qed.

Lemma unique_ids_spec : forall l, Forall named_id l ->
  increasing (unique_ids (sort_ids l)) /\ forall m, In m (unique_ids (sort_ids l)) <-> In m l.
Proof.
  intros l F. destruct (sort_spec l) as [S I]. assert (F' : Forall named_id (sort_ids l)).
  { rewrite Forall_forall in *. intros m Hm. apply F. apply I. exact Hm. }
  unfold unique_ids, increasing. destruct (sort_ids l) as [|n s] eqn:E.
  - split; [constructor|exact I].
  - destruct (unique_spec s n S F') as [S' I']. split; auto. intros m. rewrite I'. apply I.
Qed.

Lemma found_in : forall l n, found l n = true <-> In n l.
Proof.
  intros l n. unfold found. rewrite existsb_exists. split.
  - intros (m & Hm & E). apply andb_true_iff in E as [E1 E2]. apply negb_true_iff in E1, E2.
    destruct (before_total m n) as [B|[->|B]]; auto; apply cn_lt_before in B; congruence.
  - intros H. exists n. split; auto. assert (E : cn_lt n n = false).
    { destruct (cn_lt n n) eqn:E; auto. apply cn_lt_before in E. destruct (before_irrefl n E). }
    rewrite E. reflexivity.
Qed.

Lemma allowed_spec : forall env name t, env (match name with Some v => v | None => default_var end) = Some t -> t <> [] -> int_ids t ->
  exists l, allowed_nodes env name = Some l /\ increasing l /\ forall n, In n l <-> lists_id t n.
Proof.
  intros env name t E Nt Fit. unfold allowed_nodes. rewrite E. destruct t as [|a t]; [congruence|].
  destruct (read_ids_ok (ids_in 0 true (a :: t))) as (l & El & I & F).
  { intros x Hx. destruct (ids_are_texts (a :: t) x ltac:(discriminate) Hx) as (n & Hn). exists n. split; auto.
    apply Fit. apply lists_id_spec; [discriminate|]. exists x. auto. }
  rewrite El. cbn [obind]. destruct (unique_ids_spec l F) as [S U]. eexists. split; [reflexivity|]. split; auto.
  intros n. rewrite U, I. symmetry. apply lists_id_spec. discriminate.
Qed.

(* ---- all nodes ---- *)
Lemma number_nth : forall ds k j name i nd, nth_error (number k j name ds) i = Some nd <->
  nd_id nd = mkCN k (j + Z.of_nat i) /\ nd_platform nd = name /\ nth_error ds i = Some (nd_device nd).
Proof.
  induction ds as [|d ds IH]; intros k j name i nd; cbn [number].
  - destruct i; cbn [nth_error]; split; try discriminate; intros (_ & _ & H); discriminate.
  - destruct i as [|i]; cbn [nth_error].
    + rewrite Z.add_0_r. destruct nd as [id pn dv]. cbn [nd_id nd_platform nd_device]. split.
      * intros H. injection H as <- <- <-. auto.
      * intros (-> & -> & H). injection H as ->. reflexivity.
    + rewrite IH. replace (j + 1 + Z.of_nat i) with (j + Z.of_nat (S i)) by lia. tauto.
Qed.

Lemma number_in : forall ds k name nd, In nd (number k 0 name ds) <->
  exists i, nd_id nd = mkCN k (Z.of_nat i) /\ nd_platform nd = name /\ nth_error ds i = Some (nd_device nd).
Proof.
  intros ds k name nd. split.
  - intros H. apply In_nth_error in H as (i & H). apply number_nth in H. exists i. rewrite Z.add_0_l in H. exact H.
  - intros (i & H). apply (nth_error_In _ i). apply number_nth. rewrite Z.add_0_l. exact H.
Qed.

Lemma all_in : forall ps k nd, In nd (all_nodes k ps) <->
  exists m j p, nd_id nd = mkCN (k + Z.of_nat m) (Z.of_nat j) /\ nth_error (filter has_devices ps) m = Some p /\
    nth_error (pl_devices p) j = Some (nd_device nd) /\ nd_platform nd = pl_name p.
Proof.
  induction ps as [|p ps IH]; intros k nd; cbn [all_nodes filter].
  - split; [intros []|]. intros (m & j & p & _ & H & _). destruct m; discriminate.
  - rewrite in_app_iff, number_in, IH. unfold has_devices at 2. destruct (pl_devices p) as [|d ds] eqn:Ed.
    + split; [intros [(i & _ & _ & H)|H]; [destruct i; discriminate|exact H]|intros H; right; exact H].
    + split.
      * intros [(i & E1 & E2 & E3)|(m & j & q & E1 & E2 & E3 & E4)].
        -- exists O, i, p. cbn [nth_error]. rewrite Z.add_0_r. rewrite Ed. auto.
        -- exists (S m), j, q. cbn [nth_error]. replace (k + Z.of_nat (S m)) with (k + 1 + Z.of_nat m) by lia. auto.
      * intros (m & j & q & E1 & E2 & E3 & E4). destruct m as [|m]; cbn [nth_error] in E2.
        -- left. injection E2 as <-. exists j. rewrite Z.add_0_r in E1. rewrite Ed in E3. auto.
        -- right. exists m, j, q. replace (k + 1 + Z.of_nat m) with (k + Z.of_nat (S m)) by lia. auto.
Qed.

Lemma number_sorted : forall ds k j name, StronglySorted before (map nd_id (number k j name ds)) /\
  Forall (fun n => cn_platform n = k /\ j <= cn_device n) (map nd_id (number k j name ds)).
Proof.
  induction ds as [|d ds IH]; intros k j name; cbn [number map]; [split; constructor|].
  destruct (IH k (j + 1) name) as [S F]. split.
  - constructor; auto. rewrite Forall_forall in *. intros n Hn. destruct (F n Hn) as [E L]. right. cbn [nd_id cn_platform cn_device]. lia.
  - constructor; [cbn [nd_id cn_platform cn_device]; lia|]. rewrite Forall_forall in *. intros n Hn. destruct (F n Hn). lia.
Qed.

Lemma sorted_app : forall (l m : list cnode), StronglySorted before l -> StronglySorted before m ->
  (forall a b, In a l -> In b m -> before a b) -> StronglySorted before (l ++ m).
Proof.
  intros l m Sl Sm H. induction Sl as [|a l Sl IH F]; cbn [app]; [exact Sm|]. constructor.
  - apply IH. intros x y Hx Hy. apply H; auto. right. auto.
  - apply Forall_app. split; auto. rewrite Forall_forall. intros y Hy. apply H; auto. left. auto.
Qed.

Lemma all_sorted : forall ps k, StronglySorted before (map nd_id (all_nodes k ps)) /\
  Forall (fun n => k <= cn_platform n) (map nd_id (all_nodes k ps)).
Proof.
  induction ps as [|p ps IH]; intros k; cbn [all_nodes]; [split; constructor|]. rewrite map_app.
  destruct (number_sorted (pl_devices p) k 0 (pl_name p)) as [S1 F1].
  destruct (pl_devices p) as [|d ds].
  - cbn [number map app]. apply IH.
  - destruct (IH (k + 1)) as [S2 F2]. split.
    + apply sorted_app; auto. intros a b Ha Hb. rewrite Forall_forall in F1, F2. left. specialize (F1 a Ha). specialize (F2 b Hb). cbn beta in *. lia.
    + apply Forall_app. rewrite Forall_forall in F1, F2. split; apply Forall_forall; intros n Hn; [specialize (F1 n Hn)|specialize (F2 n Hn)]; cbn beta in *; lia.
Qed.

Lemma all_is_node : forall ps nd, In nd (all_nodes 0 ps) <-> is_node ps nd.
Proof. intros ps nd. rewrite all_in. unfold is_node. split; intros (m & j & p & H); exists m, j, p; rewrite ?Z.add_0_l in *; exact H. Qed.

Lemma node_named : forall ps nd, is_node ps nd -> named_id (nd_id nd).
Proof. intros ps nd (k & j & p & E & _). rewrite E. split; cbn [cn_platform cn_device]; lia. Qed.

Lemma first_node : forall ps n0 ns, all_nodes 0 ps = n0 :: ns -> nd_id n0 = mkCN 0 0.
Proof.
  induction ps as [|p ps IH]; intros n0 ns H; cbn [all_nodes] in H; [discriminate|].
  destruct (pl_devices p) as [|d ds]; [apply (IH n0 ns H)|]. cbn [number app] in H. injection H as <- _. reflexivity.
Qed.

Lemma sorted_filter : forall (f : node -> bool) ns, StronglySorted before (map nd_id ns) -> StronglySorted before (map nd_id (filter f ns)).
Proof.
  intros f ns. induction ns as [|a ns IH]; intros S; cbn [filter map]; [constructor|]. inversion S as [|? ? S' F]; subst.
  destruct (f a); auto. cbn [map]. constructor; auto. rewrite Forall_forall in *. intros n Hn. apply F.
  apply in_map_iff in Hn as (x & <- & Hx). apply filter_In in Hx as [Hx _]. apply in_map. exact Hx.
Qed.

Lemma increasing_nodup : forall l, increasing l -> NoDup l.
Proof.
  intros l S. induction S as [|a l S IH F]; constructor; auto. intros H. rewrite Forall_forall in F. exact (before_irrefl a (F a H)).
Qed.

(* ---- descriptions ---- *)
Lemma fill_app : forall o id arch platform name description h i' h', arch <> [] -> len_ok (len_of (Some arch)) ->
  len_ok (len_of (Some platform)) -> len_ok (len_of (Some name)) -> len_ok (len_of (Some description)) ->
  ci_fill o ci_preset id arch platform name description h = Some (i', h') ->
  exists t, h' = h ++ t /\ forall a, In a (owned i') -> (length h <= a)%nat.
Proof.
  intros o id arch platform name description h i' h' Na Oa Op On Od H.
  pose proof (len_of_pos arch Na) as Pa.
  assert (Dec : (0 < len_of (Some arch) /\ 0 < len_of (Some name) /\ enough o (len_of (Some platform)) (len_of (Some description)))
    \/ ~ (0 < len_of (Some arch) /\ 0 < len_of (Some name) /\ enough o (len_of (Some platform)) (len_of (Some description)))).
  { destruct (enough_dec o (len_of (Some platform)) (len_of (Some description))); [|tauto].
    destruct (Z.lt_ge_cases 0 (len_of (Some name))); [tauto|right; lia]. }
  unfold ci_fill in H. destruct Dec as [(_ & Pn & En)|F].
  - rewrite (reserve_ok o ci_preset _ _ _ _ h h) in H; auto; [|split; constructor].
    cbn [obind ci_arch ci_platform ci_name ci_description] in H.
    change (mkCI id (Some (length h)) (opt_ptr (len_of (Some platform)) (length h + 2)) (Some (length h + 1)%nat)
           (opt_ptr (len_of (Some description)) (length h + 2 + length (opt_block (len_of (Some platform))))))
      with (new_info id (len_of (Some platform)) (len_of (Some description)) (length h)) in H.
    unfold len_ok in *. rewrite copy_ok in H; [|reflexivity|lia|lia|lia|lia|lia|lia|lia|lia]. cbn [obind] in H. injection H as <- <-.
    eexists. split; [reflexivity|]. intros a Ha. apply new_info_owned in Ha. lia.
  - destruct (reserve_fail o ci_preset _ _ _ _ h Oa Op On Od F) as (k & Ek). rewrite Ek in H. cbn [obind] in H. injection H as <- <-.
    eexists. split; [reflexivity|]. intros a [].
Qed.

Lemma NoDup_app_intro : forall A (l m : list A), NoDup l -> NoDup m -> (forall a, In a l -> ~ In a m) -> NoDup (l ++ m).
Proof.
  intros A l m Hl Hm D. induction Hl as [|a l Na Hl IH]; cbn [app]; auto. constructor.
  - rewrite in_app_iff. intros [H|H]; [auto|]. exact (D a (or_introl eq_refl) H).
  - apply IH. intros b Hb. apply D. right. auto.
Qed.

Lemma read_app : forall p h t s, read_string p h = Some s -> read_string p (h ++ t) = Some s.
Proof.
  intros [a|] h t s H; [|discriminate]. unfold read_string in *. destruct (nth_error h a) as [[b|]|] eqn:E; try discriminate.
  rewrite nth_error_app1 by (apply nth_error_Some; rewrite E; discriminate). rewrite E. exact H.
Qed.

Lemma live_app : forall h t a, live h a -> live (h ++ t) a.
Proof. intros h t a (b & E). exists b. rewrite nth_error_app1; auto. apply nth_error_Some. rewrite E. discriminate. Qed.

Lemma describes_app : forall h t nd i, describes h nd i -> describes (h ++ t) nd i.
Proof.
  intros h t nd i (A & B & C & D & E). repeat split; auto using read_app.
  - destruct (list_eq_dec ascii_dec (nd_platform nd) []); auto using read_app.
  - destruct (list_eq_dec ascii_dec (dv_description (nd_device nd)) []); auto using read_app.
Qed.

Definition proper_node (nd : node) : Prop :=
  device_text (nd_platform nd) /\ device_text (dv_name (nd_device nd)) /\ device_text (dv_description (nd_device nd)) /\ set_id (nd_id nd).

Lemma fill_all_ok : forall os ns n h, Forall proper_node ns ->
  exists is t, fill_all os n ns h = Some (is, h ++ t) /\ Forall2 (described (h ++ t) os) ns is /\
    owns_all is (h ++ t) /\ (forall a, In a (owned_all is) -> (length h <= a)%nat) /\
    (forall a, live (h ++ t) a -> live h a \/ In a (owned_all is)).
Proof.
  intros os ns. induction ns as [|nd ns IH]; intros n h F.
  - exists [], []. cbn [fill_all]. rewrite app_nil_r. split; [reflexivity|]. split; [constructor|]. split; [split; constructor|].
    split; [intros a []|auto].
  - apply Forall_cons_iff in F as [(Tp & Tn & Td & Si) F]. destruct Tp as [Cp Lp], Tn as [Cn Ln], Td as [Cd Ld].
    destruct (C72_device (os n) ci_preset (nd_id nd) (lit "opencl") (nd_platform nd) (dv_name (nd_device nd)) (dv_description (nd_device nd)) h)
      as (i & h1 & E & Ow & R); auto; try (split; constructor); try discriminate.
    { intros H. vm_compute in H. repeat (destruct H as [H|H]; [discriminate H|]). exact H. }
    assert (Na : lit "opencl" <> []) by discriminate.
    destruct (fill_app (os n) (nd_id nd) (lit "opencl") (nd_platform nd) (dv_name (nd_device nd)) (dv_description (nd_device nd)) h i h1 Na ltac:(unfold len_ok; vm_compute; split; congruence)
       ltac:(unfold len_ok; cbn [len_of]; lia) ltac:(unfold len_ok; cbn [len_of]; lia) ltac:(unfold len_ok; cbn [len_of]; lia) E) as (t1 & -> & Fr).
    destruct (IH (S n) (h ++ t1) F) as (is & t2 & E2 & D2 & [ND2 L2] & Fr2 & Lv2).
    exists (i :: is), (t1 ++ t2). cbn [fill_all]. rewrite E. cbn [obind]. rewrite E2. cbn [obind]. rewrite app_assoc. split; [reflexivity|].
    assert (NE : nothing_else h (h ++ t1) [] (owned i)).
    { destruct R as [(_ & _ & _ & _ & _ & _ & _ & R)|(-> & R & _)]; exact R. }
    split; [|split; [|split]].
    + constructor; auto. destruct R as [(_ & R1 & R2 & R3 & R4 & R5 & _)|(-> & _ & R)].
      * left. apply describes_app. repeat split; auto.
      * right. split; auto. destruct R as [R|R]; auto. right. exists n. exact R.
    + unfold owned_all in *. cbn [map concat]. destruct Ow as [NDi Li]. split.
      * apply NoDup_app_intro; auto. intros a Ha Hb. apply Fr2 in Hb. rewrite Forall_forall in Li.
        pose proof (live_lt _ _ (Li a Ha)). lia.
      * apply Forall_app. split; auto. eapply Forall_impl; [|exact Li]. intros a. apply live_app.
    + intros a Ha. unfold owned_all in *. cbn [map concat] in Ha. apply in_app_iff in Ha as [Ha|Ha]; auto.
      apply Fr2 in Ha. rewrite app_length in Ha. lia.
    + intros a La. unfold owned_all in *. cbn [map concat]. rewrite in_app_iff. apply Lv2 in La as [La|La]; auto.
      destruct NE as [_ NE]. apply NE in La as [[La _]|La]; auto.
Qed.
