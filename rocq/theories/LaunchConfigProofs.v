(* Proofs about kernel configurations: grids, thread numbers, default configurations. *)
From Coq Require Import ZArith List Bool Lia Permutation.
From Verif Require Import LaunchConfig Tac.
Import ListNotations.
Local Open Scope Z_scope.

Lemma w32_id : forall z, 0 <= z < 2 ^ 32 -> wrap32 z = z.
Proof. intros. unfold wrap32. apply Z.mod_small. assumption. Qed.
Lemma w64_id : forall z, 0 <= z < 2 ^ 64 -> wrap64 z = z.
Proof. intros. unfold wrap64. apply Z.mod_small. assumption. Qed.

(* ---------------------------------------------------------------------- *)
(* lists of numbers below a bound *)
Lemma in_below : forall n i, In i (below n) <-> 0 <= i < n.
Proof.
  intros n i. unfold below. rewrite in_map_iff. split.
  - intros [k [E H]]. apply in_seq in H. lia.
  - intros H. exists (Z.to_nat i). split; [lia|]. apply in_seq. lia.
Qed.

Lemma nodup_below : forall n, NoDup (below n).
Proof.
  intros n. unfold below. apply FinFun.Injective_map_NoDup; [|apply seq_NoDup].
  intros a b E. lia.
Qed.

Lemma below_app : forall a b, 0 <= a -> 0 <= b ->
  below (a + b) = below a ++ map (fun x => a + x) (below b).
Proof.
  intros a b Ha Hb. unfold below. rewrite Z2Nat.inj_add by assumption.
  rewrite seq_app, map_app. f_equal. rewrite Nat.add_0_l.
  rewrite map_map.
  assert (E : forall k s, map Z.of_nat (seq (Z.to_nat a + s) k)
                = map (fun x => a + Z.of_nat x) (seq s k)).
  { induction k as [|k IH]; intros s; [reflexivity|]. cbn [seq map]. f_equal; [lia|].
    rewrite plus_n_Sm. apply IH. }
  specialize (E (Z.to_nat b) O). rewrite Nat.add_0_r in E. exact E.
Qed.

Lemma below_one : below 1 = [0].
Proof. reflexivity. Qed.

(* rows of length m, one after the other *)
Lemma below_rows : forall n m, 0 <= n -> 0 <= m ->
  flat_map (fun y => map (fun x => y * m + x) (below m)) (below n) = below (n * m).
Proof.
  intros n m Hn Hm. rewrite <- (Z2Nat.id n) by assumption.
  generalize (Z.to_nat n). clear Hn n. intros n. induction n as [|n IH].
  - reflexivity.
  - rewrite Nat2Z.inj_succ, <- Z.add_1_r. rewrite below_app by lia.
    rewrite flat_map_app, IH, below_one. cbn [map flat_map].
    rewrite app_nil_r, Z.add_0_r.
    replace ((Z.of_nat n + 1) * m) with (Z.of_nat n * m + m) by ring.
    rewrite below_app by nia. reflexivity.
Qed.

Lemma map_flat_map : forall (A B C : Type) (f : B -> C) (g : A -> list B) l,
  map f (flat_map g l) = flat_map (fun a => map f (g a)) l.
Proof.
  intros A B C f g l. induction l as [|a l IH]; [reflexivity|].
  cbn [flat_map]. rewrite map_app, IH. reflexivity.
Qed.

Lemma flat_map_ext_in : forall (A B : Type) (f g : A -> list B) l,
  (forall a, In a l -> f a = g a) -> flat_map f l = flat_map g l.
Proof.
  intros A B f g l H. induction l as [|a l IH]; [reflexivity|]. cbn [flat_map].
  rewrite (H a (or_introl eq_refl)), IH; [reflexivity|]. intros. apply H. right. assumption.
Qed.

(* the position of an index in the enumeration [indices] *)
Definition rank (t dims : three) : Z := (tz t * ty dims + ty t) * tx dims + tx t.
Definition vol (t : three) : Z := tx t * ty t * tz t.
Definition nonneg (t : three) : Prop := 0 <= tx t /\ 0 <= ty t /\ 0 <= tz t.
Definition inside (t dims : three) : Prop :=
  0 <= tx t < tx dims /\ 0 <= ty t < ty dims /\ 0 <= tz t < tz dims.

Lemma in_indices : forall dims t, In t (indices dims) <-> inside t dims.
Proof.
  intros dims t. unfold indices, inside. rewrite in_flat_map. split.
  - intros [z [Hz H]]. apply in_flat_map in H. destruct H as [y [Hy H]].
    apply in_map_iff in H. destruct H as [x [E Hx]]. subst t. cbn [tx ty tz].
    rewrite in_below in Hx, Hy, Hz. auto.
  - intros [Hx [Hy Hz]]. exists (tz t). split; [apply in_below; assumption|].
    apply in_flat_map. exists (ty t). split; [apply in_below; assumption|].
    apply in_map_iff. exists (tx t). split; [destruct t; reflexivity|].
    apply in_below; assumption.
Qed.

Lemma rank_indices : forall dims, nonneg dims ->
  map (fun t => rank t dims) (indices dims) = below (vol dims).
Proof.
  intros [x y z] [Hx [Hy Hz]]. cbn [tx ty tz] in *. unfold indices, rank, vol. cbn [tx ty tz].
  rewrite map_flat_map.
  replace (x * y * z) with (z * y * x) by ring.
  rewrite <- (below_rows (z * y) x) by nia.
  rewrite <- (below_rows z y) by nia.
  induction (below z) as [|k l IH]; [reflexivity|].
  cbn [flat_map]. rewrite flat_map_app, <- IH. f_equal.
  rewrite map_flat_map. clear. induction (below y) as [|j l IH]; [reflexivity|].
  cbn [flat_map map]. rewrite IH. f_equal. rewrite map_map. reflexivity.
Qed.

Lemma rank_inside : forall t dims, inside t dims -> 0 <= rank t dims < vol dims.
Proof.
  intros [a b c] [x y z] [Hx [Hy Hz]]. unfold rank, vol. cbn [tx ty tz] in *.
  assert (H1 : 0 <= c * y + b < z * y) by nia.
  remember (c * y + b) as r. remember (z * y) as q.
  replace (x * y * z) with (q * x) by (subst q; ring). clear Heqr Heqq. nia.
Qed.

Lemma volume32_vol : forall t, nonneg t -> vol t < 2 ^ 32 ->
  0 < tz t -> volume32 t = vol t.
Proof.
  intros [x y z] [Hx [Hy Hz]] H Hp. unfold volume32, vol in *. cbn [tx ty tz] in *.
  assert (0 <= x * y) by nia. assert (x * y <= x * y * z) by nia.
  rewrite (w32_id (x * y)) by lia. apply w32_id. nia.
Qed.

(* the thread number: blocks are ranked, and the threads within their block *)
Lemma thread_id_rank : forall t b grid block,
  inside t block -> inside b grid -> vol block < 2 ^ 32 -> vol grid < 2 ^ 32 ->
  thread_id t b grid block = rank b grid * vol block + rank t block.
Proof.
  intros t b grid block Ht Hb Hv Hg.
  assert (Hr := rank_inside _ _ Ht). assert (Hr' := rank_inside _ _ Hb).
  assert (Hvol : 0 < vol block) by lia.
  unfold thread_id. cbv zeta.
  rewrite (volume32_vol block);
    [|destruct Ht as [? [? ?]]; unfold nonneg; lia|assumption|destruct Ht as [? [? ?]]; lia].
  assert (HV : rank b grid * vol block + rank t block < 2 ^ 64).
  { assert (rank b grid * vol block + rank t block < vol grid * vol block) by nia.
    assert (vol grid * vol block <= 2 ^ 32 * 2 ^ 32) by nia.
    change (2 ^ 64) with (2 ^ 32 * 2 ^ 32). lia. }
  set (V := vol block) in *.
  destruct t as [a1 b1 c1], b as [a2 b2 c2], grid as [gx gy gz], block as [bx by_ bz].
  unfold inside, rank in *. cbn [tx ty tz] in *.
  destruct Ht as [Ha1 [Hb1 Hc1]], Hb as [Ha2 [Hb2 Hc2]].
  assert (M : forall u, 0 <= u < 2 ^ 64 -> wrap64 u = u) by (intros; apply w64_id; assumption).
  assert (HVe : V = bx * by_ * bz) by reflexivity. clearbody V.
  assert (V0 : 0 <= V) by lia.
  assert (P1 : 0 <= b1 * bx) by (apply Z.mul_nonneg_nonneg; lia).
  assert (P2 : 0 <= c1 * (bx * by_)) by (repeat apply Z.mul_nonneg_nonneg; lia).
  assert (P3 : 0 <= a2 * V) by (apply Z.mul_nonneg_nonneg; lia).
  assert (P4 : 0 <= b2 * (V * gx)) by (repeat apply Z.mul_nonneg_nonneg; lia).
  assert (P5 : 0 <= c2 * (V * gx * gy)) by (repeat apply Z.mul_nonneg_nonneg; lia).
  assert (SS : ((c2 * gy + b2) * gx + a2) * V + ((c1 * by_ + b1) * bx + a1)
     = a1 + b1 * bx + c1 * (bx * by_) + a2 * V + b2 * (V * gx) + c2 * (V * gx * gy)) by ring.
  rewrite SS in HV |- *. clear SS.
  assert (Q1 : 0 <= bx * by_ < 2 ^ 64).
  { assert (bx * by_ <= bx * by_ * bz) by nia. split; [nia|].
    assert (2 ^ 32 < 2 ^ 64) by reflexivity. lia. }
  rewrite (M (b1 * bx)) by lia.
  rewrite (M (a1 + b1 * bx)) by lia.
  rewrite (M (bx * by_)) by assumption.
  rewrite (Z.mul_comm (bx * by_) c1).
  rewrite (M (c1 * (bx * by_))) by lia.
  rewrite (M (a1 + b1 * bx + c1 * (bx * by_))) by lia.
  rewrite (M (a2 * V)) by lia.
  rewrite (M (a1 + b1 * bx + c1 * (bx * by_) + a2 * V)) by lia.
  assert (G0 : gx * gy * gz < 2 ^ 32) by exact Hg.
  assert (V1 : V < 2 ^ 32) by (rewrite HVe; rewrite HVe in Hv; exact Hv).
  assert (Q23 : 0 <= V * gx < 2 ^ 64 /\ 0 <= V * gx * gy < 2 ^ 64).
  { assert (X1 : 0 < gx) by lia. assert (X2 : 0 < gy) by lia. assert (X3 : 0 < gz) by lia.
    clear - G0 V0 V1 X1 X2 X3.
    assert (A1 : 0 < gx * gy) by (apply Z.mul_pos_pos; assumption).
    assert (A2 : gx * gy <= gx * gy * gz).
    { rewrite <- (Z.mul_1_r (gx * gy)) at 1. apply Z.mul_le_mono_nonneg_l; lia. }
    assert (A3 : gx <= gx * gy).
    { rewrite <- (Z.mul_1_r gx) at 1. apply Z.mul_le_mono_nonneg_l; lia. }
    assert (A4 : 0 <= V * gx) by (apply Z.mul_nonneg_nonneg; lia).
    assert (A5 : 0 <= V * (gx * gy)) by (apply Z.mul_nonneg_nonneg; lia).
    assert (A6 : V * gx <= V * (gx * gy)) by (apply Z.mul_le_mono_nonneg_l; lia).
    assert (A7 : V * (gx * gy) < 2 ^ 32 * 2 ^ 32) by (apply Z.mul_lt_mono_nonneg; lia).
    change (2 ^ 64) with (2 ^ 32 * 2 ^ 32). rewrite <- Z.mul_assoc. lia. }
  destruct Q23 as [Q2 Q3].
  rewrite (M (V * gx)) by assumption.
  rewrite (M (b2 * (V * gx))) by lia.
  rewrite (M (a1 + b1 * bx + c1 * (bx * by_) + a2 * V + b2 * (V * gx))) by lia.
  rewrite (M (V * gx * gy)) by assumption.
  rewrite (M (c2 * (V * gx * gy))) by lia.
  apply M. lia.
Qed.

(* the threads of a grid are numbered 0, 1, ..., without gap or repetition *)
Lemma grid_ids_below : forall grid block,
  0 < tx grid -> 0 < ty grid -> 0 < tz grid -> 0 < tx block -> 0 < ty block -> 0 < tz block ->
  vol grid < 2 ^ 32 -> vol block < 2 ^ 32 ->
  grid_ids grid block = below (vol grid * vol block) /\
  thread_stride grid block = vol grid * vol block /\ 0 < vol grid * vol block.
Proof.
  intros grid block G1 G2 G3 B1 B2 B3 HG HB.
  assert (P1 : 0 < vol grid) by (unfold vol; nia).
  assert (P2 : 0 < vol block) by (unfold vol; nia).
  assert (N1 : nonneg grid) by (unfold nonneg; lia).
  assert (N2 : nonneg block) by (unfold nonneg; lia).
  split; [|split].
  - unfold grid_ids.
    rewrite (flat_map_ext_in _ _ _ (fun b => map (fun i => rank b grid * vol block + i)
                                         (below (vol block)))).
    + rewrite <- below_rows by lia.
      rewrite <- (rank_indices grid) by assumption.
      rewrite flat_map_concat_map, flat_map_concat_map, map_map. reflexivity.
    + intros b Hb. apply in_indices in Hb.
      rewrite <- (rank_indices block) by assumption. rewrite map_map.
      apply map_ext_in. intros t Ht. apply in_indices in Ht.
      apply thread_id_rank; assumption.
  - unfold thread_stride. rewrite !volume32_vol by assumption.
    apply w64_id. change (2 ^ 64) with (2 ^ 32 * 2 ^ 32). nia.
  - nia.
Qed.

(* ---------------------------------------------------------------------- *)
(* rounding up *)
Lemma ceil_div : forall n g, 0 < n -> 0 < g ->
  let b := n / g + (if n mod g =? 0 then 0 else 1) in
  0 < b /\ n <= b * g /\ (b - 1) * g < n.
Proof.
  intros n g Hn Hg b. subst b.
  assert (D := Z.div_mod n g ltac:(lia)). assert (M := Z.mod_pos_bound n g Hg).
  assert (Q := Z.div_pos n g ltac:(lia) Hg).
  destruct (Z.eqb_spec (n mod g) 0) as [E|E]; nia.
Qed.

Lemma ceil_div_unique : forall n g b, 0 < g -> n <= b * g -> (b - 1) * g < n ->
  forall b', n <= b' * g -> (b' - 1) * g < n -> b' = b.
Proof. intros. nia. Qed.

(* ---------------------------------------------------------------------- *)
(* the tables of a configuration *)
Lemma get_put : forall k c t, get_table k (put_table k c t) = t.
Proof. intros [] c t; reflexivity. Qed.
Lemma get_put_other : forall k k' c t, k <> k' -> get_table k' (put_table k c t) = get_table k' c.
Proof. intros [] [] c t H; try reflexivity; destruct (H eq_refl). Qed.
Lemma put_get : forall k c, put_table k c (get_table k c) = c.
Proof. intros [] []; reflexivity. Qed.
Lemma dims_put : forall k c t, k_items_dim (put_table k c t) = k_items_dim c /\
  k_groups_dim (put_table k c t) = k_groups_dim c.
Proof. intros [] c t; split; reflexivity. Qed.

Lemma copy_all_at : forall dim i vs t t', (i + dim <= 3)%nat ->
  copy_all dim i vs t = Some t' ->
  (dim <= length vs)%nat /\
  (forall j, (j < dim)%nat -> at3 t' (Z.of_nat (i + j)) = nth j vs 0) /\
  (forall j, (j < 3)%nat -> (j < i)%nat \/ (i + dim <= j)%nat -> at3 t' (Z.of_nat j) = at3 t (Z.of_nat j)).
Proof.
  induction dim as [|dim IH]; intros i vs t t' Hd H; cbn [copy_all] in H.
  - injection H as <-. repeat split; intros; try lia.
  - destruct vs as [|v vs]; [discriminate H|]. apply IH in H; [|lia].
    destruct H as [H1 [H2 H3]].
    assert (P : forall j, (j < 3)%nat -> at3 (put3 t (Z.of_nat i) v) (Z.of_nat j)
               = if Nat.eqb j i then v else at3 t (Z.of_nat j)).
    { intros j Hj. assert (i < 3)%nat by lia.
      destruct i as [|[|[|i]]]; try lia; destruct j as [|[|[|j]]]; try lia; reflexivity. }
    split; [cbn [length]; lia|]. split.
    + intros [|j] Hj.
      * rewrite Nat.add_0_r. rewrite H3 by lia. rewrite P by lia. rewrite Nat.eqb_refl. reflexivity.
      * rewrite <- plus_n_Sm. exact (H2 j ltac:(lia)).
    + intros j Hj Hout. rewrite H3 by lia. rewrite P by lia.
      destruct (Nat.eqb_spec j i); [lia|reflexivity].
Qed.

Lemma copy_all_defined : forall dim i vs t, (dim <= length vs)%nat ->
  exists t', copy_all dim i vs t = Some t'.
Proof.
  induction dim as [|dim IH]; intros i vs t H; cbn [copy_all]; [eauto|].
  destruct vs as [|v vs]; cbn [length] in H; [lia|]. apply IH. lia.
Qed.

Lemma product_zero : forall (vs : list Z), fold_left (fun total v => wrap64 (total * v)) vs 0 = 0.
Proof. induction vs as [|v vs IH]; [reflexivity|]. cbn [fold_left]. rewrite Z.mul_0_l. exact IH. Qed.

Lemma product_status_true : forall dim vs, product_status dim vs = true.
Proof. intros. unfold product_status. rewrite product_zero. reflexivity. Qed.

(* ---------------------------------------------------------------------- *)
(* update *)
Lemma axis_some : forall dim i n g b t, axis dim i n g = Some (b, t) -> 0 <= n -> 0 <= g ->
  (i < dim -> 0 < n /\ 0 < g /\ t = g /\ 0 < b /\ n <= b * g /\ (b - 1) * g < n) /\
  (dim <= i -> b = 1 /\ t = 1).
Proof.
  intros dim i n g b t H Hn Hg. unfold axis in H.
  destruct (Z.ltb_spec i dim) as [L|L].
  - destruct (Z.eqb_spec g 0) as [Eg|Eg]; [discriminate H|].
    destruct (Z.eqb_spec n 0) as [En|En]; [discriminate H|]. cbn [orb] in H.
    assert (C := ceil_div n g ltac:(lia) ltac:(lia)). cbv zeta in C.
    split; [|lia]. intros _.
    assert (E1 : b = n / g + (if n mod g =? 0 then 0 else 1)) by congruence.
    assert (E2 : t = g) by congruence. rewrite <- E1 in C. clear - C E2 Hn Hg Eg En. lia.
  - split; [lia|]. intros _. split; congruence.
Qed.

Lemma axis_defined : forall dim i n g, (i < dim -> 0 < n /\ 0 < g) ->
  exists b t, axis dim i n g = Some (b, t).
Proof.
  intros dim i n g H. unfold axis. destruct (Z.ltb_spec i dim) as [L|L]; [|eauto].
  destruct (H L). rewrite (proj2 (Z.eqb_neq g 0)), (proj2 (Z.eqb_neq n 0)) by lia.
  cbn [orb]. eauto.
Qed.

Lemma update_some : forall c c', update c = (c', true) ->
  0 < k_items_dim c /\ k_groups_dim c = k_items_dim c /\
  exists b0 t0 b1 t1 b2 t2,
    axis (k_items_dim c) 0 (num_items c 0) (group_size c 0) = Some (b0, t0) /\
    axis (k_items_dim c) 1 (num_items c 1) (group_size c 1) = Some (b1, t1) /\
    axis (k_items_dim c) 2 (num_items c 2) (group_size c 2) = Some (b2, t2) /\
    c' = with_needs (with_grid c (Three (wrap32 b0) (wrap32 b1) (wrap32 b2))
                                 (Three (wrap32 t0) (wrap32 t1) (wrap32 t2))) false.
Proof.
  intros c c' H. unfold update, cuda_do_update in H. cbv zeta in H.
  destruct (Z.ltb_spec 0 (k_items_dim c)) as [L|L]; [|discriminate H].
  destruct (Z.eqb_spec (k_groups_dim c) (k_items_dim c)) as [E|E]; [|discriminate H].
  cbn [andb] in H. split; [exact L|]. split; [exact E|].
  destruct (axis _ 0 _ _) as [[b0 t0]|] eqn:A0; [|discriminate H].
  destruct (axis _ 1 _ _) as [[b1 t1]|] eqn:A1; [|discriminate H].
  destruct (axis _ 2 _ _) as [[b2 t2]|] eqn:A2; [|discriminate H].
  exists b0, t0, b1, t1, b2, t2.
  destruct ((0 <? wrap64 (wrap64 (b0 * b1) * b2)) && (0 <? wrap64 (wrap64 (t0 * t1) * t2)));
    [|discriminate H].
  split; [reflexivity|]. split; [reflexivity|]. split; [reflexivity|]. congruence.
Qed.

(* a configuration with one dimension *)
Definition one_dim (c : conf) : Prop := k_items_dim c = 1 /\ k_groups_dim c = 1.

Lemma then_set_true : forall k a c, one_dim c -> 0 < a ->
  then_set k a (c, true) = (put_table k c (Three a (ty (get_table k c)) (tz (get_table k c))), true).
Proof.
  intros k a c [D1 D2] Ha. unfold then_set, set. cbv zeta. cbn match.
  assert (D : table_dim k c = 1) by (destruct k; assumption).
  unfold set1. rewrite D. rewrite Z.eqb_refl. unfold fits. cbn [forallb andb].
  rewrite (proj2 (Z.ltb_lt 0 a)) by lia. rewrite orb_true_r. reflexivity.
Qed.

Lemma then_set_false : forall k a c c', then_set k a (c, true) = (c', false) -> c' = c.
Proof.
  intros k a c c' H. unfold then_set, set in H. cbv zeta in H. unfold set1 in H.
  destruct ((table_dim k c =? 1) && fits (positive k) [a]); [discriminate H|].
  rewrite put_get in H. congruence.
Qed.

Lemma configure_1d_form : forall c n g w, one_dim c -> 0 < n < 2 ^ 64 -> 0 < g < 2 ^ 32 -> 0 < w ->
  exists c' b, configure_1d c n g w = (c', true) /\ one_dim c' /\
    0 < b /\ n <= b * g /\ (b - 1) * g < n /\
    num_items c' 0 = n /\ group_size c' 0 = g /\ pref_multiple c' 0 = w /\
    k_needs c' = false /\ k_blocks c' = Three (wrap32 b) 1 1 /\ k_threads c' = Three g 1 1.
Proof.
  intros c n g w D Hn Hg Hw. unfold configure_1d.
  rewrite (then_set_true Items) by (assumption || lia).
  rewrite then_set_true; [|exact D|lia].
  rewrite then_set_true; [|exact D|lia].
  cbn match. unfold update, cuda_do_update. cbv zeta.
  set (c3 := put_table Pref _ _).
  assert (E1 : k_items_dim c3 = 1) by exact (proj1 D).
  assert (E2 : k_groups_dim c3 = 1) by exact (proj2 D).
  assert (F1 : num_items c3 0 = n) by (unfold num_items; rewrite E1; reflexivity).
  assert (F2 : group_size c3 0 = g) by (unfold group_size; rewrite E2; reflexivity).
  rewrite F1, F2, E1, E2. cbn [Z.ltb Z.eqb Pos.eqb Z.compare andb].
  unfold axis at 1. change (0 <? 1) with true. cbn match.
  rewrite (proj2 (Z.eqb_neq g 0)), (proj2 (Z.eqb_neq n 0)) by lia. cbn [orb].
  change (axis 1 1 (num_items c3 1) (group_size c3 1)) with (Some (1, 1)).
  change (axis 1 2 (num_items c3 2) (group_size c3 2)) with (Some (1, 1)). cbn match.
  assert (C := ceil_div n g ltac:(lia) ltac:(lia)). cbv zeta in C.
  set (b := n / g + (if n mod g =? 0 then 0 else 1)) in *.
  assert (Hb : 0 < b < 2 ^ 64).
  { split; [lia|]. assert (b <= n) by nia. lia. }
  rewrite !Z.mul_1_r. rewrite (w64_id b), (w64_id b), (w64_id g), (w64_id g) by lia.
  rewrite (proj2 (Z.ltb_lt 0 b)), (proj2 (Z.ltb_lt 0 g)) by lia. cbn [andb].
  eexists _, b. split; [reflexivity|].
  assert (T : wrap32 g = g) by (apply w32_id; lia). rewrite T.
  repeat split; try lia; try exact E1; try exact E2.
  - exact F1.
  - exact F2.
  - unfold pref_multiple. change (k_groups_dim _) with (k_groups_dim c3). rewrite E2. reflexivity.
Qed.
