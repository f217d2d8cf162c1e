(* Theorems for C63: configurations of kernels and the grids they are launched with. *)
From Coq Require Import ZArith List Bool Lia Permutation.
From Verif Require Import Tac LaunchConfig LaunchConfigSpec LaunchConfigProofs Num Particle Elements
  Track TrackSpec Threads ThreadsSpec ThreadsLaunch ParticleSet Kernels ExampleNum.
Import ListNotations.
Local Open Scope Z_scope.

Lemma made_dims : forall c, made c -> 0 <= k_items_dim c <= 3 /\ 0 <= k_groups_dim c <= 3.
Proof.
  assert (R : forall c d1 d2, 0 <= k_items_dim (reset c d1 d2) <= 3 /\
                              0 <= k_groups_dim (reset c d1 d2) <= 3).
  { intros c d1 d2. unfold reset. cbn [k_items_dim k_groups_dim]. split.
    - destruct (Z.ltb_spec 0 d1), (Z.leb_spec d1 3); cbn [andb]; lia.
    - destruct (Z.ltb_spec 0 d2), (Z.leb_spec d2 3); cbn [andb]; lia. }
  intros c H. induction H.
  - apply R.
  - apply R.
  - unfold added_conf. cbv zeta. destruct (_ =? w); apply R.
  - unfold set in H0. cbv zeta in H0. destruct (match v with V1 x => _ | V2 x y => _ | V3 x y z => _
      | VN n vs => _ end) as [[t' s]|]; [|discriminate H0].
    assert (E : c' = put_table k c t') by congruence. subst c'.
    destruct (dims_put k c t') as [-> ->]. assumption.
  - exact IHmade.
  - apply R.
  - unfold update, cuda_do_update. cbv zeta.
    destruct ((0 <? k_items_dim c) && (k_groups_dim c =? k_items_dim c)); [|exact IHmade].
    destruct (axis _ 0 _ _) as [[b0 t0]|]; [|exact IHmade].
    destruct (axis _ 1 _ _) as [[b1 t1]|]; [|exact IHmade].
    destruct (axis _ 2 _ _) as [[b2 t2]|]; [|exact IHmade].
    destruct (_ && _); exact IHmade.
Qed.

Lemma read_table : forall k c i, i < dim_of k c -> read k c i = at3 (get_table k c) i.
Proof.
  intros k c i H. destruct k; cbn [read get_table dim_of] in *;
    unfold num_items, item_offset, group_size, pref_multiple;
    rewrite (proj2 (Z.ltb_lt _ _)) by assumption; reflexivity.
Qed.

Lemma read_other : forall k k' c t i, k <> k' -> read k' (put_table k c t) i = read k' c i.
Proof. intros [] [] c t i H; try reflexivity; destruct (H eq_refl). Qed.

Lemma set_put : forall k v c c' st, set k v c = Some (c', st) -> exists t, c' = put_table k c t.
Proof.
  intros k v c c' st H. unfold set in H. cbv zeta in H.
  destruct (match v with V1 x => _ | V2 x y => _ | V3 x y z => _ | VN n vs => _ end)
    as [[t' s]|]; [|discriminate H]. exists t'. congruence.
Qed.

(* C63.  A setter that reports a failure changes nothing (except the one that takes preferred
   multiples from an array), and no setter changes what is read of the other tables, the grid
   or the dimensions. *)
Theorem C63_set_fails : forall k v c c', set k v c = Some (c', false) ->
  (k = Pref -> forall n vs, v <> VN n vs) -> c' = c.
Proof.
  intros k v c c' H HP. unfold set in H. cbv zeta in H.
  assert (K : forall t', Some (put_table k c t', false) = Some (c', false) ->
                t' = get_table k c -> c' = c).
  { intros t' E1 E2. subst t'. rewrite put_get in E1. congruence. }
  destruct v as [a|a b|a b d|n vs].
  - unfold set1 in H. destruct (_ && _); [discriminate H|]. exact (K _ H eq_refl).
  - unfold set2 in H. destruct (_ && _); [discriminate H|]. exact (K _ H eq_refl).
  - unfold set3 in H. destruct (_ && _); [discriminate H|]. exact (K _ H eq_refl).
  - destruct k; [| | |destruct (HP eq_refl n vs eq_refl)].
    + unfold setn in H. destruct vs as [vs|]; [|exact (K _ H eq_refl)].
      destruct (_ =? n); [|exact (K _ H eq_refl)].
      destruct (copy_all _ _ _ _); [|discriminate H].
      rewrite product_status_true in H. discriminate H.
    + unfold setn_offsets in H. destruct (_ =? n); [|exact (K _ H eq_refl)].
      destruct vs as [vs|].
      * destruct (copy_all _ _ _ _); discriminate H.
      * destruct (_ =? 0); discriminate H.
    + unfold setn in H. destruct vs as [vs|]; [|exact (K _ H eq_refl)].
      destruct (_ =? n); [|exact (K _ H eq_refl)].
      destruct (copy_all _ _ _ _); [|discriminate H].
      rewrite product_status_true in H. discriminate H.
Qed.
Print Assumptions C63_set_fails.

Theorem C63_set_only : forall k v c c' st, set k v c = Some (c', st) ->
  (forall k' i, k' <> k -> read k' c' i = read k' c i) /\
  grid_of c' = grid_of c /\ k_args c' = k_args c /\
  k_items_dim c' = k_items_dim c /\ k_groups_dim c' = k_groups_dim c.
Proof.
  intros k v c c' st H. destruct (set_put _ _ _ _ _ H) as [t ->].
  split; [intros; apply read_other; congruence|].
  destruct k; repeat split; reflexivity.
Qed.
Print Assumptions C63_set_only.

(* one value: accepted exactly by a table of dimension one, and positive unless an offset *)
Theorem C63_set_one : forall k a c, exists c' st, set k (V1 a) c = Some (c', st) /\
  (st = true <-> dim_of k c = 1 /\ (k = Offsets \/ 0 < a)) /\
  (st = true -> read k c' 0 = a).
Proof.
  intros k a c. unfold set. cbv zeta. unfold set1. change (table_dim k c) with (dim_of k c).
  destruct (Z.eqb_spec (dim_of k c) 1) as [E|E].
  - destruct (fits (positive k) [a]) eqn:F; cbn [andb].
    + eexists _, true. split; [reflexivity|]. split.
      * split; [intros _|reflexivity]. split; [exact E|].
        unfold fits in F. cbn [forallb] in F. rewrite andb_true_r in F.
        destruct k; cbn [positive negb orb] in F; auto; right; apply Z.ltb_lt; exact F.
      * intros _. rewrite read_table.
        -- rewrite get_put. reflexivity.
        -- destruct (dims_put k c (Three a (ty (get_table k c)) (tz (get_table k c)))) as [D1 D2].
           assert (D : dim_of k (put_table k c (Three a (ty (get_table k c)) (tz (get_table k c))))
                       = dim_of k c) by (destruct k; assumption). rewrite D, E. reflexivity.
    + eexists _, false. split; [reflexivity|]. split; [|intros X; discriminate X].
      split; [intros X; discriminate X|]. intros [_ H].
      unfold fits in F. cbn [forallb] in F. rewrite andb_true_r in F.
      destruct H as [->|H]; [discriminate F|].
      rewrite (proj2 (Z.ltb_lt 0 a) H), orb_true_r in F. discriminate F.
  - cbn [andb]. eexists _, false. split; [reflexivity|]. split; [|intros X; discriminate X].
    split; [intros X; discriminate X|]. intros [H _]. contradiction.
Qed.
Print Assumptions C63_set_one.

(* an array of as many values as the table has dimensions: all are stored *)
Theorem C63_set_array : forall k vs c, made c ->
  (Z.to_nat (dim_of k c) <= length vs)%nat -> k <> Pref ->
  exists c', set k (VN (dim_of k c) (Some vs)) c = Some (c', true) /\
    forall i, 0 <= i < dim_of k c -> read k c' i = nth (Z.to_nat i) vs 0.
Proof.
  intros k vs c M L HP. assert (D := made_dims _ M).
  assert (DK : 0 <= dim_of k c <= 3) by (destruct k; cbn [dim_of]; lia).
  destruct (copy_all_defined _ 0 _ (get_table k c) L) as [t' C].
  assert (C' := copy_all_at (Z.to_nat (dim_of k c)) 0 vs (get_table k c) t' ltac:(lia) C). destruct C' as [_ [C1 _]].
  exists (put_table k c t'). split.
  - unfold set. cbv zeta. change (table_dim k c) with (dim_of k c).
    destruct k; [| | |destruct (HP eq_refl)].
    + unfold setn. rewrite Z.eqb_refl, C, product_status_true. reflexivity.
    + unfold setn_offsets. rewrite Z.eqb_refl, C. reflexivity.
    + unfold setn. rewrite Z.eqb_refl, C, product_status_true. reflexivity.
  - intros i Hi. assert (DP := dims_put k c t').
    rewrite read_table; [|destruct k; cbn [dim_of] in *; lia].
    rewrite get_put. rewrite <- (C1 (Z.to_nat i)) by lia. f_equal. lia.
Qed.
Print Assumptions C63_set_array.

(* an array with another number of values than the table has dimensions is refused *)
Theorem C63_set_array_other : forall k n vs c, n <> dim_of k c ->
  set k (VN n vs) c = Some (c, false).
Proof.
  intros k n vs c H. unfold set. cbv zeta. change (table_dim k c) with (dim_of k c).
  assert (E : (dim_of k c =? n) = false) by (apply Z.eqb_neq; congruence).
  assert (R : match k with
              | Items | Groups => setn (dim_of k c) (get_table k c) n vs
              | Offsets => setn_offsets (dim_of k c) (get_table k c) n vs
              | Pref => setn_pref (dim_of k c) (get_table k c) n vs
              end = Some (get_table k c, false)).
  { destruct k; unfold setn, setn_offsets, setn_pref; rewrite E; try destruct vs; reflexivity. }
  rewrite R, put_get. reflexivity.
Qed.
Print Assumptions C63_set_array_other.

(* after clear and after a reset no work is asked for; a reset takes dimensions from 0 to 3 *)
Theorem C63_clear : forall c i, made c -> 0 <= i ->
  num_items (LaunchConfig.clear c) i = 0 /\ item_offset (LaunchConfig.clear c) i = 0 /\ group_size (LaunchConfig.clear c) i = 0 /\
  pref_multiple (LaunchConfig.clear c) i = 1 /\ k_items_dim (LaunchConfig.clear c) = k_items_dim c /\
  k_groups_dim (LaunchConfig.clear c) = k_groups_dim c /\ k_args (LaunchConfig.clear c) = 0 /\
  k_blocks (LaunchConfig.clear c) = k_blocks c /\ k_threads (LaunchConfig.clear c) = k_threads c.
Proof.
  intros c i M Hi. destruct (made_dims _ M) as [D1 D2].
  assert (A : forall d v t, d <= 3 -> i < d -> at3 (clear_part d v t) i = v).
  { intros d v t Hd Hl. assert (C : i = 0 \/ i = 1 \/ i = 2) by lia. unfold clear_part, at3.
    destruct C as [->|[->| ->]]; cbn [tx ty tz Z.eqb Pos.eqb]; rewrite (proj2 (Z.ltb_lt _ d)) by lia; reflexivity. }
  unfold num_items, item_offset, group_size, pref_multiple, LaunchConfig.clear, grid_of.
  cbn [k_items_dim k_items k_offsets k_groups_dim k_groups k_pref k_args k_blocks k_threads].
  destruct (Z.ltb_spec i (k_items_dim c)), (Z.ltb_spec i (k_groups_dim c)); rewrite ?A by lia;
    repeat split; reflexivity.
Qed.
Print Assumptions C63_clear.

Theorem C63_reset : forall c d1 d2 i, 0 <= i ->
  num_items (LaunchConfig.reset c d1 d2) i = 0 /\ item_offset (LaunchConfig.reset c d1 d2) i = 0 /\ group_size (LaunchConfig.reset c d1 d2) i = 0 /\
  k_items_dim (LaunchConfig.reset c d1 d2) = (if (0 <? d1) && (d1 <=? 3) then d1 else 0) /\
  k_groups_dim (LaunchConfig.reset c d1 d2) = (if (0 <? d2) && (d2 <=? 3) then d2 else 0) /\
  k_args (LaunchConfig.reset c d1 d2) = k_args c /\ grid_of (LaunchConfig.reset c d1 d2) = grid_of c.
Proof.
  intros c d1 d2 i Hi.
  assert (A : at3 (same3 0) i = 0) by (unfold at3, same3; cbn [tx ty tz]; destruct (i =? 0), (i =? 1), (i =? 2); reflexivity).
  unfold num_items, item_offset, group_size, LaunchConfig.reset, grid_of.
  cbn [k_items_dim k_items k_offsets k_groups_dim k_groups k_pref k_args k_blocks k_threads]. rewrite A.
  destruct (i <? _), (i <? _); repeat split; reflexivity.
Qed.
Print Assumptions C63_reset.

(* A successful update gives a grid with the group sizes as numbers of threads and as many
   blocks in each dimension as are needed for the work items. *)
Theorem C63_grid : forall c c', made c -> update c = (c', true) ->
  (forall i, 0 <= i < k_items_dim c -> 0 <= num_items c i < 2 ^ 32 /\ 0 <= group_size c i < 2 ^ 32) ->
  (forall k i, read k c' i = read k c i) /\
  exists grid block, grid_of c' = Some (grid, block) /\
    (forall i, 0 <= i < k_items_dim c ->
       at3 block i = group_size c i /\ 0 < at3 block i /\ fewest (num_items c i) (at3 block i) (at3 grid i)) /\
    (forall i, k_items_dim c <= i < 3 -> at3 block i = 1 /\ at3 grid i = 1).
Proof.
  intros c c' M H R. assert (D := made_dims _ M).
  destruct (update_some _ _ H) as [L [E [b0 [t0 [b1 [t1 [b2 [t2 [A0 [A1 [A2 ->]]]]]]]]]]].
  split; [intros [] i; reflexivity|].
  eexists _, _. split; [reflexivity|].
  assert (N : forall i, 0 <= i < 3 -> 0 <= num_items c i /\ 0 <= group_size c i).
  { intros i Hi. destruct (Z.lt_ge_cases i (k_items_dim c)) as [Hl|Hl].
    - destruct (R i) as [R1 R2]; lia.
    - unfold num_items, group_size. rewrite (proj2 (Z.ltb_ge _ _)) by lia.
      rewrite (proj2 (Z.ltb_ge i (k_groups_dim c))) by lia. lia. }
  assert (S : forall i b t, 0 <= i < 3 -> axis (k_items_dim c) i (num_items c i) (group_size c i) = Some (b, t) ->
    (i < k_items_dim c -> wrap32 t = group_size c i /\ 0 < wrap32 t /\
       fewest (num_items c i) (wrap32 t) (wrap32 b)) /\
    (k_items_dim c <= i -> wrap32 t = 1 /\ wrap32 b = 1)).
  { intros i b t Hi A. destruct (N i Hi) as [N1 N2].
    destruct (axis_some _ _ _ _ _ _ A N1 N2) as [X1 X2]. split.
    - intros Hl. destruct (X1 Hl) as [Y1 [Y2 [-> [Y3 [Y4 Y5]]]]].
      destruct (R i ltac:(lia)) as [R1 R2].
      rewrite (w32_id (group_size c i)) by lia.
      assert (b <= num_items c i) by (clear - Y2 Y3 Y4 Y5 Y1; nia).
      rewrite (w32_id b) by lia.
      split; [reflexivity|]. split; [exact Y2|]. split; assumption.
    - intros Hl. destruct (X2 Hl) as [-> ->]. split; reflexivity. }
  destruct (S 0 b0 t0 ltac:(lia) A0) as [P0 Q0]. destruct (S 1 b1 t1 ltac:(lia) A1) as [P1 Q1].
  destruct (S 2 b2 t2 ltac:(lia) A2) as [P2 Q2].
  split; intros i Hi.
  - assert (C : i = 0 \/ i = 1 \/ i = 2) by lia.
    destruct C as [-> | [-> | ->]]; [apply P0 | apply P1 | apply P2]; lia.
  - assert (C : i = 0 \/ i = 1 \/ i = 2) by lia.
    destruct C as [-> | [-> | ->]]; [apply Q0 | apply Q1 | apply Q2]; lia.
Qed.
Print Assumptions C63_grid.

(* The update succeeds if both tables have the same dimension and positive, not huge entries. *)
Theorem C63_grid_defined : forall c, made c -> 0 < k_items_dim c -> k_groups_dim c = k_items_dim c ->
  (forall i, 0 <= i < k_items_dim c -> 0 < num_items c i < 2 ^ 21 /\ 0 < group_size c i < 2 ^ 21) ->
  exists c', update c = (c', true).
Proof.
  intros c M L E R. assert (D := made_dims _ M).
  assert (S : forall i, 0 <= i < 3 -> exists b t,
    axis (k_items_dim c) i (num_items c i) (group_size c i) = Some (b, t) /\
    0 < b < 2 ^ 21 /\ 0 < t < 2 ^ 21).
  { intros i Hi. destruct (Z.lt_ge_cases i (k_items_dim c)) as [Hl|Hl].
    - destruct (R i ltac:(lia)) as [R1 R2].
      destruct (axis_defined (k_items_dim c) i (num_items c i) (group_size c i)) as [b [t A]]; [lia|].
      exists b, t. split; [exact A|].
      destruct (axis_some _ _ _ _ _ _ A ltac:(lia) ltac:(lia)) as [X _].
      destruct (X Hl) as [Y1 [Y2 [-> [Y3 [Y4 Y5]]]]]. split; [|exact R2].
      clear - Y2 Y3 Y4 Y5 R1. nia.
    - exists 1, 1. split; [|split; split; reflexivity].
      unfold axis. rewrite (proj2 (Z.ltb_ge _ _)) by lia. reflexivity. }
  destruct (S 0 ltac:(lia)) as [b0 [t0 [A0 [P0 Q0]]]]. destruct (S 1 ltac:(lia)) as [b1 [t1 [A1 [P1 Q1]]]].
  destruct (S 2 ltac:(lia)) as [b2 [t2 [A2 [P2 Q2]]]].
  unfold update, cuda_do_update. cbv zeta. rewrite (proj2 (Z.ltb_lt 0 _) L), (proj2 (Z.eqb_eq _ _) E).
  cbn [andb]. rewrite A0, A1, A2.
  assert (V : forall a b d, 0 < a < 2 ^ 21 -> 0 < b < 2 ^ 21 -> 0 < d < 2 ^ 21 ->
            0 <? wrap64 (wrap64 (a * b) * d) = true).
  { clear. intros a b d Ha Hb Hd.
    assert (H1 : 0 < a * b) by (apply Z.mul_pos_pos; lia).
    assert (H2 : a * b < 2 ^ 21 * 2 ^ 21) by (apply Z.mul_lt_mono_nonneg; lia).
    assert (H3 : 0 < a * b * d) by (apply Z.mul_pos_pos; lia).
    assert (H4 : a * b * d < 2 ^ 21 * 2 ^ 21 * 2 ^ 21) by (apply Z.mul_lt_mono_nonneg; lia).
    assert (2 ^ 21 * 2 ^ 21 * 2 ^ 21 < 2 ^ 64) by reflexivity.
    assert (2 ^ 21 * 2 ^ 21 < 2 ^ 64) by reflexivity.
    rewrite (w64_id (a * b)) by lia. rewrite w64_id by lia. apply Z.ltb_lt. exact H3. }
  rewrite !V by assumption. eexists. reflexivity.
Qed.
Print Assumptions C63_grid_defined.

(* The threads of a launch: the numbers the kernels compute for them are 0, 1, ..., each once,
   below the number of threads that the kernels compute. *)
Lemma nodup_map_inj : forall (A B : Type) (f : A -> B) l, NoDup l ->
  (forall a b, In a l -> In b l -> f a = f b -> a = b) -> NoDup (map f l).
Proof.
  intros A B f l N. induction N as [|a l Ha N IH]; intros H; cbn [map]; constructor.
  - intros C. apply in_map_iff in C. destruct C as [b [E Hb]].
    rewrite (H b a (or_intror Hb) (or_introl eq_refl) E) in Hb. contradiction.
  - apply IH. intros x y Hx Hy. apply H; right; assumption.
Qed.

Lemma rank_inj : forall dims t t', inside t dims -> inside t' dims -> rank t dims = rank t' dims -> t = t'.
Proof.
  intros [x y z] [a b c] [a' b' c'] [H1 [H2 H3]] [H1' [H2' H3']] E.
  unfold rank in E. cbn [tx ty tz] in *.
  assert (A : a = a' /\ c * y + b = c' * y + b').
  { remember (c * y + b) as u. remember (c' * y + b') as v. clear - H1 H1' E.
    assert (U := Z.div_mod_unique x u v a a').
    apply and_comm. apply U; [left; lia|left; lia|]. rewrite (Z.mul_comm x u), (Z.mul_comm x v). exact E. }
  destruct A as [-> E']. 
  assert (B : c = c' /\ b = b').
  { clear - H2 H2' E'. apply (Z.div_mod_unique y c c' b b'); [left; lia|left; lia|].
    rewrite (Z.mul_comm y c), (Z.mul_comm y c'). exact E'. }
  destruct B as [-> ->]. reflexivity.
Qed.

Theorem C63_ids : forall grid block items,
  0 < tx grid -> 0 < ty grid -> 0 < tz grid -> 0 < tx block -> 0 < ty block -> 0 < tz block ->
  tx grid * ty grid * tz grid < 2 ^ 32 -> tx block * ty block * tz block < 2 ^ 32 ->
  all_threads items grid block ->
  thread_stride grid block = tx grid * ty grid * tz grid * (tx block * ty block * tz block) /\
  NoDup items /\ forall i, In i items <-> 0 <= i < thread_stride grid block.
Proof.
  intros grid block items G1 G2 G3 B1 B2 B3 HG HB [ts [N [T ->]]].
  destruct (grid_ids_below grid block G1 G2 G3 B1 B2 B3 HG HB) as [GI [ST P]].
  split; [exact ST|]. rewrite ST.
  assert (IN : forall t b, In (t, b) ts <-> inside t block /\ inside b grid) by exact T.
  split.
  - apply nodup_map_inj; [exact N|]. intros [t b] [t' b'] I1 I2 E. cbn [fst snd] in E.
    apply IN in I1. apply IN in I2. destruct I1 as [X1 X2], I2 as [Y1 Y2].
    rewrite !thread_id_rank in E by assumption.
    assert (R1 := rank_inside _ _ X1). assert (R2 := rank_inside _ _ Y1).
    assert (U : rank b grid = rank b' grid /\ rank t block = rank t' block).
    { apply (Z.div_mod_unique (vol block)); [left; exact R1|left; exact R2|].
      rewrite (Z.mul_comm (vol block) (rank b grid)), (Z.mul_comm (vol block) (rank b' grid)). exact E. }
    destruct U as [U1 U2]. apply rank_inj in U1; [|assumption..]. apply rank_inj in U2; [|assumption..].
    congruence.
  - intros i. rewrite <- in_below. fold (vol grid) (vol block). rewrite <- GI. unfold grid_ids.
    rewrite in_map_iff, in_flat_map. split.
    + intros [[t b] [E I1]]. apply IN in I1. destruct I1 as [X1 X2].
      exists b. split; [apply in_indices; exact X2|]. apply in_map_iff. exists t.
      split; [exact E|]. apply in_indices. exact X1.
    + intros [b [Hb H]]. apply in_map_iff in H. destruct H as [t [E Ht]].
      exists (t, b). split; [exact E|]. apply IN. split; apply in_indices; assumption.
Qed.
Print Assumptions C63_ids.

(* The default configuration for tracking n particles: a grid of one dimension that is never
   empty, in which no thread has more than threads_per_block particles. *)
Theorem C63_configure : forall c n tpb w, one_dim c -> 0 <= n < 2 ^ 32 -> 0 < tpb < 2 ^ 32 -> 0 < w ->
  exists c' b, configure_track c (Some w) n tpb = (c', true) /\ one_dim c' /\
    grid_of c' = Some (Three b 1 1, Three tpb 1 1) /\ 0 < b < 2 ^ 32 /\ n <= (b * tpb) * tpb /\
    (b = 1 \/ (b - 1) * tpb * tpb < n).
Proof.
  intros c n tpb w D Hn Ht Hw. unfold configure_track. rewrite (proj2 (Z.ltb_lt 0 tpb)) by lia.
  cbv zeta. assert (DM := Z.div_mod n tpb ltac:(lia)). assert (MB := Z.mod_pos_bound n tpb ltac:(lia)).
  assert (Q := Z.div_pos n tpb ltac:(lia) ltac:(lia)).
  assert (QN : n / tpb <= n) by (clear - DM MB Q Ht Hn; nia).
  rewrite (w64_id (n / tpb * tpb)) by lia.
  set (m := if (if n / tpb * tpb <? n then wrap64 (n / tpb + 1) else n / tpb) =? 0 then 1
            else if n / tpb * tpb <? n then wrap64 (n / tpb + 1) else n / tpb).
  assert (HM : 0 < m < 2 ^ 32 /\ n <= m * tpb /\ (m = 1 \/ (m - 1) * tpb < n)).
  { subst m. destruct (Z.ltb_spec (n / tpb * tpb) n) as [L|L].
    - assert (n / tpb + 1 <= n) by (clear - L DM MB Q Ht Hn; nia).
      rewrite w64_id by lia. rewrite (proj2 (Z.eqb_neq (n / tpb + 1) 0)) by lia. nia.
    - destruct (Z.eqb_spec (n / tpb) 0) as [E|E]; [rewrite E in *; lia|]. nia. }
  clearbody m. destruct HM as [M1 [M2 M3]].
  destruct (configure_1d_form c m tpb w D ltac:(lia) Ht Hw)
    as [c' [b [E [D' [B0 [B1 [B2 [F1 [F2 [F3 [F4 [F5 F6]]]]]]]]]]]].
  assert (BM : b <= m) by (clear - B0 B1 B2 Ht M1; nia).
  rewrite w32_id in F5 by lia.
  exists c', b. split; [exact E|]. split; [exact D'|]. split.
  { unfold grid_of. rewrite F4, F5, F6. reflexivity. }
  split; [lia|]. split; [clear - B1 M2 Ht; nia|].
  destruct (Z.eq_dec b 1) as [Eb|Eb]; [left; exact Eb|right].
  destruct M3 as [M3|M3]; [subst m; exfalso; clear - B2 B0 Ht Eb; nia|].
  clear - B2 M3 Ht. assert ((b - 1) * tpb <= m - 1) by lia. nia.
Qed.
Print Assumptions C63_configure.

(* Tracking with this grid: every particle of the set is tracked, once, as if alone, whatever
   the order of the threads and whatever the size of the set. *)
Theorem C63_track : forall (T : Type) (N : NumOps T) (cf : config T) m items ps o p' o' st
    c c' n tpb w grid block,
  one_dim c -> 0 <= n < 2 ^ 32 -> 0 < tpb < 2 ^ 32 -> 0 < w ->
  configure_track c (Some w) n tpb = (c', true) -> grid_of c' = Some (grid, block) ->
  all_threads items grid block ->
  launch (fun i => plain_kernel (alone N cf m) i (thread_stride grid block)) items (pset_of ps) o 0
    = Ok (p', o', st) ->
  exists ps', p' = pset_of ps' /\ length ps' = length ps /\
    (forall i p, nth_error ps i = Some p -> exists q oi s,
       alone N cf m p o = Ok (q, oi, s) /\ nth_error ps' i = Some q /\ (st = 0 -> s = 0)) /\
    ((forall p q oi s, In p ps -> alone N cf m p o = Ok (q, oi, s) -> s = 0) -> st = 0).
Proof.
  intros T N cf m items ps o p' o' st c c' n tpb w grid block D Hn Ht Hw HC HG HA HL.
  destruct (C63_configure c n tpb w D Hn Ht Hw) as [c2 [b [E [_ [G [Hb _]]]]]].
  rewrite HC in E. assert (c2 = c') by congruence. subst c2. clear E.
  rewrite HG in G. assert (grid = Three b 1 1 /\ block = Three tpb 1 1) as [-> ->] by (split; congruence).
  destruct (C63_ids (Three b 1 1) (Three tpb 1 1) items) as [S [ND IN]];
    cbn [tx ty tz]; try lia; try assumption.
  refine (@launch_result T N cf m items _ ps o p' o' st _ ND IN HL).
  rewrite S. cbn [tx ty tz]. nia.
Qed.
Print Assumptions C63_track.

(* The remaining default configurations: one block for the output assignments, one thread for
   the assignment of an address. *)
Theorem C63_configure_assign : forall c tpb w, one_dim c -> 0 < tpb < 2 ^ 32 -> 0 < w ->
  exists c' c'', configure_assign c (Some w) tpb = (c', true) /\
    grid_of c' = Some (Three 1 1 1, Three tpb 1 1) /\
    configure_assign_address c (Some w) = (c'', true) /\
    grid_of c'' = Some (Three 1 1 1, Three 1 1 1).
Proof.
  intros c tpb w D Ht Hw. unfold configure_assign, configure_assign_address.
  rewrite (proj2 (Z.ltb_lt 0 tpb)) by lia.
  destruct (configure_1d_form c 1 tpb w D ltac:(lia) Ht Hw)
    as [c1 [b [E [_ [B0 [B1 [B2 [_ [_ [_ [F4 [F5 F6]]]]]]]]]]]].
  destruct (configure_1d_form c 1 1 w D ltac:(lia) ltac:(lia) Hw)
    as [c2 [b' [E' [_ [B0' [B1' [B2' [_ [_ [_ [F4' [F5' F6']]]]]]]]]]]].
  exists c1, c2. rewrite E, E'. split; [reflexivity|]. unfold grid_of.
  rewrite F4, F5, F6, F4', F5', F6'.
  assert (b = 1) by (clear - B0 B2 Ht; nia). assert (b' = 1) by lia. subst b b'. repeat split.
Qed.
Print Assumptions C63_configure_assign.

(* OpenCL: the number of work-items of a launch is the least multiple of the group size that is
   not below the number asked for; the calculation offered to the user agrees. *)
Theorem C63_cl_items : forall k n wg ok prof k' items loc st, 0 <= n -> 0 < wg -> n + wg <= 2 ^ 64 ->
  cl_run k n wg ok prof = (k', (items, loc), st) ->
  loc = wg /\ items mod wg = 0 /\ n <= items < n + wg /\
  (cl_work_group_size k = wg -> cl_calculate k n = items).
Proof.
  intros k n wg ok prof k' items loc st Hn Hw HL H. unfold cl_run in H. cbv zeta in H.
  rewrite (proj2 (Z.eqb_neq wg 0)) in H by lia.
  assert (E1 : items = wrap64 (wrap64 (n + wg - 1) / wg * wg)) by congruence.
  assert (E2 : loc = wg) by congruence. clear H.
  rewrite (w64_id (n + wg - 1)) in E1 by lia.
  assert (D := Z.div_mod (n + wg - 1) wg ltac:(lia)).
  assert (M := Z.mod_pos_bound (n + wg - 1) wg Hw).
  assert (Q := Z.div_pos (n + wg - 1) wg ltac:(lia) Hw).
  set (q := (n + wg - 1) / wg) in *. rewrite w64_id in E1 by (clear - D M Q HL Hw; nia).
  assert (B : n <= q * wg < n + wg) by (clear - D M; nia).
  split; [exact E2|]. split; [rewrite E1; apply Z.mod_mul; lia|]. rewrite E1. split; [exact B|].
  intros W. unfold cl_calculate. cbv zeta. rewrite W, (proj2 (Z.eqb_neq wg 0)) by lia.
  rewrite (proj2 (Z.ltb_lt 0 wg)) by lia.
  assert (D' := Z.div_mod n wg ltac:(lia)). assert (M' := Z.mod_pos_bound n wg Hw).
  assert (Q' := Z.div_pos n wg Hn Hw). set (q' := n / wg) in *.
  rewrite w64_id by (clear - D' M' Q' HL Hw; nia).
  destruct (Z.ltb_spec (q' * wg) n) as [L|L].
  - assert (q = q' + 1) by (clear - L D' M' B Hw; nia). rewrite w64_id; [rewrite H; ring|].
    clear - L HL D' M' Q' Hw; nia.
  - assert (q = q') by (clear - L D' M' B Hw; nia). rewrite H. reflexivity.
Qed.
Print Assumptions C63_cl_items.

(* tracking with OpenCL: all particles, whatever the group size *)
Theorem C63_cl_track : forall (T : Type) (N : NumOps T) (cf : config T) m order ps o p' o' st
    k n k' items loc ok prof s,
  0 < n -> 0 <= cl_last_wg k -> n + cl_last_wg k <= 2 ^ 64 ->
  cl_track k n ok prof = (k', (items, loc), s) ->
  NoDup order -> (forall i, In i order <-> 0 <= i < items) ->
  launch (fun i => plain_kernel (alone N cf m) i items) order (pset_of ps) o 0 = Ok (p', o', st) ->
  exists ps', p' = pset_of ps' /\ length ps' = length ps /\
    (forall i p, nth_error ps i = Some p -> exists q oi s,
       alone N cf m p o = Ok (q, oi, s) /\ nth_error ps' i = Some q /\ (st = 0 -> s = 0)) /\
    ((forall p q oi s, In p ps -> alone N cf m p o = Ok (q, oi, s) -> s = 0) -> st = 0).
Proof.
  intros T N cf m order ps o p' o' st k n k' items loc ok prof s Hn H0 HL H ND IN HR.
  assert (P : 0 < items).
  { unfold cl_track in H. destruct (Z.eq_dec (cl_last_wg k) 0) as [E|E].
    - unfold cl_run in H. cbv zeta in H. rewrite (proj2 (Z.eqb_eq _ _) E) in H.
      assert (items = n) by congruence. lia.
    - assert (W : 0 < cl_last_wg k) by lia.
      destruct (C63_cl_items _ _ _ _ _ _ _ _ _ (Z.lt_le_incl _ _ Hn) W HL H) as [_ [_ [B _]]].
      lia. }
  exact (@launch_result T N cf m order items ps o p' o' st P ND IN HR).
Qed.
Print Assumptions C63_cl_track.

(* setting the group size of a kernel: accepted up to the maximum of the device, and used by a
   run without an explicit size *)
Theorem C63_cl_set : forall k wg, exists k' st, cl_set_work_group_size k wg = (k', st) /\
  (st = true <-> wg <= cl_max k) /\ (st = false -> k' = k) /\
  (st = true -> cl_work_group_size k' = wg /\
     forall n ok prof, snd (snd (fst (cl_run_default k' n ok prof))) = wg).
Proof.
  intros k wg. unfold cl_set_work_group_size. destruct (Z.leb_spec wg (cl_max k)) as [L|L].
  - eexists _, true. split; [reflexivity|]. split; [split; [intros _; exact L|reflexivity]|].
    split; [intros X; discriminate X|]. intros _.
    assert (E : cl_work_group_size (Clk wg (cl_max k) (cl_pref k) (cl_last_wg k) (cl_last_items k)) = wg).
    { unfold cl_work_group_size. cbn [cl_wg cl_max]. apply Z.min_l. exact L. }
    split; [exact E|]. intros n ok prof. unfold cl_run_default. rewrite E. reflexivity.
  - eexists _, false. split; [reflexivity|]. split; [split; [intros X; discriminate X|lia]|].
    split; [reflexivity|intros X; discriminate X].
Qed.
Print Assumptions C63_cl_set.

(* ---------------------------------------------------------------------- *)
(* 1000 particles and 128 threads per block; three particles are tracked with a grid of two
   threads in either order *)
Example C63_case : exists c', configure_track (added_conf 5 1 32) (Some 32) 1000 128 = (c', true) /\
  grid_of c' = Some (Three 1 1 1, Three 128 1 1) /\ one_dim (added_conf 5 1 32).
Proof. eexists. split; [vm_compute; reflexivity|]. split; vm_compute; auto. Qed.

Example C63_case_threads : all_threads [1; 0] (Three 1 1 1) (Three 2 1 1).
Proof.
  exists [(Three 1 0 0, Three 0 0 0); (Three 0 0 0, Three 0 0 0)]. split.
  - constructor; [intros [X|[]]; discriminate X|]. constructor; [intros []|constructor].
  - split; [|reflexivity]. intros [a b c] [d e f]. cbn [In tx ty tz]. split.
    + intros [E|[E|[]]]; injection E as <- <- <- <- <- <-; lia.
    + intros H. assert (a = 0 \/ a = 1) as [ -> | -> ] by lia; [right; left|left];
      repeat f_equal; lia.
Qed.

Example C63_case_2d : exists c1 c2 c3,
  set Items (VN 2 (Some [100; 30])) (new_conf 2 2 32) = Some (c1, true) /\
  set Groups (VN 2 (Some [16; 8])) c1 = Some (c2, true) /\ update c2 = (c3, true) /\
  grid_of c3 = Some (Three 7 4 1, Three 16 8 1).
Proof. eexists _, _, _. repeat split; vm_compute; reflexivity. Qed.

(* The totals reported are the numbers of blocks and threads of the grid, as long as the
   number of blocks and the number of threads of a block fit into 32 bits. *)
Theorem C63_totals : forall c grid block, grid_of c = Some (grid, block) ->
  (forall i, 0 <= i < 3 -> 0 < at3 grid i /\ 0 < at3 block i) ->
  at3 grid 0 * at3 grid 1 * at3 grid 2 < 2 ^ 32 -> at3 block 0 * at3 block 1 * at3 block 2 < 2 ^ 32 ->
  total_blocks c = at3 grid 0 * at3 grid 1 * at3 grid 2 /\
  total_threads_per_block c = at3 block 0 * at3 block 1 * at3 block 2 /\
  total_threads c = (at3 grid 0 * at3 grid 1 * at3 grid 2) * (at3 block 0 * at3 block 1 * at3 block 2).
Proof.
  intros c grid block G Hp Hg Hb. unfold grid_of in G. unfold total_threads, total_blocks, total_threads_per_block.
  destruct (k_needs c); [discriminate|].
  assert (k_blocks c = grid) as -> by congruence. assert (k_threads c = block) as -> by congruence.
  assert (V : forall t, 0 < at3 t 0 -> 0 < at3 t 1 -> 0 < at3 t 2 -> at3 t 0 * at3 t 1 * at3 t 2 < 2 ^ 32 ->
    volume32 t = at3 t 0 * at3 t 1 * at3 t 2 /\ 0 < at3 t 0 * at3 t 1 * at3 t 2).
  { intros [x y z] X Y Z0 H. unfold volume32, wrap32.
    change (at3 (Three x y z) 0) with x in *. change (at3 (Three x y z) 1) with y in *.
    change (at3 (Three x y z) 2) with z in *. cbn [tx ty tz].
    assert (0 < x * y) by (apply Z.mul_pos_pos; lia).
    assert (x * y <= x * y * z) by (rewrite <- (Z.mul_1_r (x * y)) at 1; apply Z.mul_le_mono_nonneg_l; lia).
    rewrite (Z.mod_small (x * y)) by lia. rewrite Z.mod_small by lia. lia. }
  destruct (Hp 0 ltac:(lia)) as (G0 & B0). destruct (Hp 1 ltac:(lia)) as (G1 & B1). destruct (Hp 2 ltac:(lia)) as (G2 & B2).
  destruct (V grid G0 G1 G2 Hg) as (-> & Pg). destruct (V block B0 B1 B2 Hb) as (-> & Pb).
  split; [reflexivity|]. split; [reflexivity|]. unfold wrap64. apply Z.mod_small. split.
  - apply Z.mul_nonneg_nonneg; lia.
  - change (2 ^ 64) with (2 ^ 32 * 2 ^ 32). apply Z.mul_lt_mono_nonneg; lia.
Qed.
Print Assumptions C63_totals.

(* There is not a thread for every particle: the number of blocks is divided by the group size
   a second time. *)
Theorem C63_threads_refuted : exists c c' n tpb w, made c /\
  configure_track c (Some w) n tpb = (c', true) /\ total_threads c' < n.
Proof.
  eexists (added_conf 5 1 32), _, 1000, 128, 32. split; [constructor|].
  split; [vm_compute; reflexivity|]. vm_compute. reflexivity.
Qed.
Print Assumptions C63_threads_refuted.

(* The total number of work items is reported as 0, always. *)
Theorem C63_total_refuted : forall c, total_items c = 0.
Proof.
  intros c. unfold total_items. assert (H : forall l : list nat, fold_left (fun total i =>
    wrap64 (total * at3 (k_items c) (Z.of_nat i))) l 0 = 0).
  { induction l as [|i l IH]; [reflexivity|]. cbn [fold_left]. rewrite Z.mul_0_l. exact IH. }
  apply H.
Qed.
Print Assumptions C63_total_refuted.

(* Two or three work items numbers are refused by every configuration of two or three
   dimensions; a configuration of one dimension accepts them but has only the first. *)
Theorem C63_dimensions_refuted : forall k x y z c, k <> Pref -> 0 < x -> 0 < y -> 0 < z ->
  (dim_of k c = 2 -> set k (V2 x y) c = Some (c, false)) /\
  (dim_of k c = 3 -> set k (V3 x y z) c = Some (c, false)) /\
  (dim_of k c = 1 -> exists c', set k (V2 x y) c = Some (c', true) /\ forall i, 0 < i -> read k c' i = 0).
Proof.
  intros k x y z c HP Hx Hy Hz.
  assert (A2 : asked2 k = 1) by (destruct k; [reflexivity..|destruct (HP eq_refl)]).
  assert (A3 : asked3 k = 1) by (destruct k; [reflexivity..|destruct (HP eq_refl)]).
  split; [|split]; intros D.
  - unfold set. cbv zeta. unfold set2. change (table_dim k c) with (dim_of k c). rewrite A2, D.
    change (2 =? 1) with false. cbn [andb]. rewrite put_get. reflexivity.
  - unfold set. cbv zeta. unfold set3. change (table_dim k c) with (dim_of k c). rewrite A3, D.
    change (3 =? 1) with false. cbn [andb]. rewrite put_get. reflexivity.
  - unfold set. cbv zeta. unfold set2. change (table_dim k c) with (dim_of k c). rewrite A2, D, Z.eqb_refl.
    assert (F : fits (positive k) [x; y] = true).
    { unfold fits. cbn [forallb]. rewrite (proj2 (Z.ltb_lt 0 x) Hx), (proj2 (Z.ltb_lt 0 y) Hy).
      rewrite orb_true_r. reflexivity. }
    rewrite F. cbn [andb]. eexists. split; [reflexivity|]. intros i Hi.
    destruct k; [| | |destruct (HP eq_refl)]; cbn [read dim_of] in *;
      unfold num_items, item_offset, group_size; rewrite (proj2 (Z.ltb_ge _ _)); try reflexivity;
      cbn [put_table with_items with_offsets with_groups k_items_dim k_groups_dim]; lia.
Qed.
Print Assumptions C63_dimensions_refuted.

(* An array with a zero is accepted for work items and, if the zero is not the last value, as
   preferred multiple; an array whose last preferred multiple is zero is refused after it
   was stored. *)
Theorem C63_array_refuted : exists c c1 c2 c3, made c /\
  set Items (VN 2 (Some [0; 5])) c = Some (c1, true) /\ num_items c1 0 = 0 /\
  set Pref (VN 2 (Some [0; 32])) c = Some (c2, true) /\ pref_multiple c2 0 = 0 /\
  set Pref (VN 2 (Some [32; 0])) c = Some (c3, false) /\ c3 <> c.
Proof.
  exists (new_conf 2 2 32). eexists _, _, _. split; [constructor|].
  repeat (split; [vm_compute; reflexivity|]). vm_compute. intros X. discriminate X.
Qed.
Print Assumptions C63_array_refuted.

(* A configuration never asks for an update: after its work items were changed it still gives
   the grid of the earlier ones, and a new configuration has a grid before it has work items. *)
Theorem C63_needs_update_refuted : forall c, made c -> k_needs c = false.
Proof.
  intros c H. induction H; try reflexivity; try assumption.
  - unfold added_conf. cbv zeta. destruct (_ =? w); reflexivity.
  - destruct (set_put _ _ _ _ _ H0) as [t ->]. destruct k; exact IHmade.
  - unfold update, cuda_do_update. cbv zeta.
    destruct ((0 <? k_items_dim c) && (k_groups_dim c =? k_items_dim c)); [|exact IHmade].
    destruct (axis _ 0 _ _) as [[b0 t0]|]; [|exact IHmade].
    destruct (axis _ 1 _ _) as [[b1 t1]|]; [|exact IHmade].
    destruct (axis _ 2 _ _) as [[b2 t2]|]; [|exact IHmade].
    destruct (_ && _); [reflexivity|exact IHmade].
Qed.
Print Assumptions C63_needs_update_refuted.

Theorem C63_stale_refuted : exists c c1 c2, made c /\ configure_track c (Some 32) 1000 32 = (c1, true) /\
  set Items (V1 5000) c1 = Some (c2, true) /\ k_needs c2 = false /\
  grid_of c2 = Some (Three 1 1 1, Three 32 1 1) /\
  grid_of (fst (update c2)) = Some (Three 157 1 1, Three 32 1 1).
Proof.
  exists (new_conf 1 1 32). eexists _, _. split; [constructor|].
  repeat (split; [vm_compute; reflexivity|]). vm_compute. reflexivity.
Qed.
Print Assumptions C63_stale_refuted.

(* More than 2^32 blocks: the update succeeds with an empty grid. *)
Theorem C63_large_refuted : exists c c1 c2 c3, made c /\
  set Items (V1 (2 ^ 32)) c = Some (c1, true) /\ set Groups (V1 1) c1 = Some (c2, true) /\
  update c2 = (c3, true) /\ grid_of c3 = Some (Three 0 1 1, Three 1 1 1).
Proof.
  exists (new_conf 1 1 32). eexists _, _, _. split; [constructor|].
  repeat (split; [vm_compute; reflexivity|]). vm_compute. reflexivity.
Qed.
Print Assumptions C63_large_refuted.

(* A grid of 2^32 blocks in two dimensions: the kernels compute 0 threads, so that the loop
   over the particles does not advance. *)
Theorem C63_stride_refuted : exists c c1 c2 c3 grid block, made c /\
  set Items (VN 2 (Some [2 ^ 17; 2 ^ 15])) c = Some (c1, true) /\
  set Groups (VN 2 (Some [1; 1])) c1 = Some (c2, true) /\ update c2 = (c3, true) /\
  grid_of c3 = Some (grid, block) /\ tx grid = 2 ^ 17 /\ ty grid = 2 ^ 15 /\
  thread_stride grid block = 0.
Proof.
  exists (new_conf 2 2 32). eexists _, _, _, _, _. split; [constructor|].
  repeat (split; [vm_compute; reflexivity|]). vm_compute. reflexivity.
Qed.
Print Assumptions C63_stride_refuted.

(* The number of arguments given with a new configuration is not stored by the controller. *)
Theorem C63_arguments_refuted : forall n d w,
  k_args (added_conf n d w) = 0 /\ k_args (new_named_conf n d d w) = n.
Proof.
  intros n d w. split; [|reflexivity]. unfold added_conf. cbv zeta. destruct (_ =? w); reflexivity.
Qed.
Print Assumptions C63_arguments_refuted.

(* No configuration for the addresses of zero particle sets. *)
Theorem C63_fetch_refuted : forall c w tpb, 0 < tpb -> configure_fetch c (Some w) 0 tpb = (c, false).
Proof.
  intros c w tpb Ht. unfold configure_fetch. rewrite (proj2 (Z.ltb_lt 0 tpb) Ht). cbv zeta.
  rewrite Z.div_0_l by lia. change (wrap64 (0 * tpb) <? 0) with false. cbn match.
  unfold configure_1d.
  assert (E : then_set Items 0 (c, true) = (c, false)).
  { unfold then_set, set. cbv zeta. unfold set1. change (fits (positive Items) [0]) with false.
    rewrite andb_false_r. rewrite put_get. reflexivity. }
  rewrite E. reflexivity.
Qed.
Print Assumptions C63_fetch_refuted.

(* The group size chosen for a tracking kernel is not used by the tracking calls. *)
Inductive cl_history (max pref : Z) : clk -> Prop :=
| cl_begin : cl_history max pref (cl_new max pref)
| cl_sets : forall k wg, cl_history max pref k -> cl_history max pref (fst (cl_set_work_group_size k wg))
| cl_tracks : forall k n ok prof, cl_history max pref k -> cl_history max pref (fst (fst (cl_track k n ok prof))).

Theorem C63_cl_group_refuted : forall max pref k, cl_history max pref k ->
  forall n ok prof, snd (fst (cl_track k n ok prof)) = (n, 0).
Proof.
  intros max pref k H.
  assert (L : cl_last_wg k = 0).
  { induction H; [reflexivity| |].
    - unfold cl_set_work_group_size. destruct (_ <=? _); exact IHcl_history.
    - unfold cl_track, cl_run. cbv zeta. cbn [fst]. destruct prof; exact IHcl_history. }
  intros n ok prof. unfold cl_track, cl_run. cbv zeta. rewrite L. reflexivity.
Qed.
Print Assumptions C63_cl_group_refuted.
