(* The loop of greatest_common_divisor computes the greatest common divisor. *)
From Coq Require Import ZArith List Bool Lia Znumtheory.
From Verif Require Import MBuf Alignment MemPool MemSpec.
Import ListNotations.
Local Open Scope Z_scope.

Lemma mod_half a b : 0 < b < a -> 2 * (a mod b) < a.
Proof.
  intros H. pose proof (Z.div_mod a b ltac:(lia)). pose proof (Z.mod_pos_bound a b ltac:(lia)).
  assert (1 <= a / b) by (apply Z.div_le_lower_bound; lia).
  assert (b <= b * (a / b)) by (rewrite <- (Z.mul_1_r b) at 1; apply Z.mul_le_mono_nonneg_l; lia).
  lia.
Qed.

Lemma gcd_mod_l a b : 0 < b -> Z.gcd (a mod b) b = Z.gcd a b.
Proof. intros H. rewrite Z.gcd_mod by lia. apply Z.gcd_comm. Qed.

Lemma gcd_loop_ok n : forall a b, 0 <= a < 2 ^ Z.of_nat n -> 0 <= b ->
  gcd_loop (S n) a b = Some (Z.gcd a b).
Proof.
  induction n as [|n IH]; intros a b Ha Hb.
  - assert (a = 0) as -> by (change (2 ^ Z.of_nat 0) with 1 in Ha; lia). cbn [gcd_loop Z.eqb negb andb].
    rewrite Z.gcd_0_l, Z.abs_eq by lia. rewrite (proj2 (Z.ltb_ge b 0)) by lia. reflexivity.
  - rewrite Nat2Z.inj_succ, Z.pow_succ_r in Ha by lia.
    remember (S n) as f eqn:Ef. cbn [gcd_loop]. destruct (a =? 0) eqn:Ea; cbn [negb andb].
    { apply Z.eqb_eq in Ea. subst a. rewrite Z.gcd_0_l, Z.abs_eq by lia.
      rewrite (proj2 (Z.ltb_ge b 0)) by lia. reflexivity. }
    apply Z.eqb_neq in Ea. destruct (b =? 0) eqn:Eb; cbn [negb].
    { apply Z.eqb_eq in Eb. subst b. rewrite Z.gcd_0_r, Z.abs_eq by lia.
      rewrite (proj2 (Z.ltb_lt 0 a)) by lia. reflexivity. }
    apply Z.eqb_neq in Eb. pose proof (Z.mod_pos_bound b a ltac:(lia)) as Mb.
    assert (G : Z.gcd a b = Z.gcd a (b mod a))
      by (rewrite (Z.gcd_comm a (b mod a)), gcd_mod_l by lia; apply Z.gcd_comm).
    destruct (b mod a =? 0) eqn:Er.
    { apply Z.eqb_eq in Er. rewrite G, Er, Z.gcd_0_r, Z.abs_eq by lia. reflexivity. }
    apply Z.eqb_neq in Er. subst f.
    pose proof (mod_half a (b mod a) ltac:(lia)). pose proof (Z.mod_pos_bound a (b mod a) ltac:(lia)).
    rewrite IH by lia. rewrite gcd_mod_l by lia. rewrite G. reflexivity.
Qed.

Lemma c_gcd_ok a b : 0 <= a < 2 ^ 64 -> 0 <= b -> c_gcd a b = Some (Z.gcd a b).
Proof. intros Ha Hb. unfold c_gcd, gcd_fuel. apply gcd_loop_ok; [exact Ha|exact Hb]. Qed.

Lemma lcm_eq a b : 0 < a -> 0 < b -> a * b / Z.gcd a b = Z.lcm a b.
Proof.
  intros Ha Hb. unfold Z.lcm. assert (G : Z.gcd a b <> 0) by (intros E; apply Z.gcd_eq_0_l in E; lia).
  rewrite Z.divide_div_mul_exact by (assumption || apply Z.gcd_divide_r).
  pose proof (Z.gcd_nonneg a b). assert (0 <= b / Z.gcd a b) by (apply Z.div_pos; lia).
  rewrite Z.abs_eq; [reflexivity|]. apply Z.mul_nonneg_nonneg; lia.
Qed.

Lemma lcm_pos a b : 0 < a -> 0 < b -> 0 < Z.lcm a b.
Proof.
  intros Ha Hb. pose proof (Z.lcm_nonneg a b). assert (Z.lcm a b <> 0); [|lia].
  intros E. apply Z.lcm_eq_0 in E. lia.
Qed.

Lemma lcm_le_mul a b : 0 < a -> 0 < b -> Z.lcm a b <= a * b.
Proof.
  intros Ha Hb. apply Z.divide_pos_le; [apply Z.mul_pos_pos; lia|]. apply Z.lcm_least.
  - apply Z.divide_factor_l.
  - apply Z.divide_factor_r.
Qed.

Lemma c_lcm_ok a b : 0 < a -> 0 < b -> a * b < 2 ^ 64 -> c_lcm a b = Some (Z.lcm a b).
Proof.
  intros Ha Hb Hp. unfold c_lcm.
  assert (a <= a * b) by (rewrite <- (Z.mul_1_r a) at 1; apply Z.mul_le_mono_nonneg_l; lia).
  rewrite c_gcd_ok by lia. cbn [bind].
  assert (G : Z.gcd a b <> 0) by (intros E; apply Z.gcd_eq_0_l in E; lia).
  rewrite (proj2 (Z.eqb_neq _ _)) by assumption. unfold u64. rewrite Z.mod_small by lia.
  rewrite lcm_eq by assumption. reflexivity.
Qed.

Lemma is_lcm_one a : 0 < a -> is_lcm [a] a.
Proof.
  intros H. split; [assumption|]. split.
  - intros x [<-|[]]. apply Z.divide_refl.
  - intros y Hy. apply Hy. now left.
Qed.

Lemma is_lcm_app l l' x y : is_lcm l x -> is_lcm l' y -> is_lcm (l ++ l') (Z.lcm x y).
Proof.
  intros (P & D & L) (P' & D' & L'). split; [now apply lcm_pos|]. split.
  - intros a Ha. apply in_app_or in Ha as [Ha|Ha].
    + eapply Z.divide_trans; [now apply D|]. apply Z.divide_lcm_l.
    + eapply Z.divide_trans; [now apply D'|]. apply Z.divide_lcm_r.
  - intros z Hz. apply Z.lcm_least.
    + apply L. intros a Ha. apply Hz, in_or_app. now left.
    + apply L'. intros a Ha. apply Hz, in_or_app. now right.
Qed.

Lemma product_pos l : (forall a, In a l -> 0 < a) -> 0 < product l.
Proof.
  induction l as [|a l IH]; intros H; [reflexivity|]. cbn [product fold_right].
  apply Z.mul_pos_pos; [apply H; now left|]. apply IH. intros x Hx. apply H. now right.
Qed.

Lemma product_app l l' : product (l ++ l') = product l * product l'.
Proof.
  induction l as [|a l IH]; cbn [app product fold_right].
  - symmetry. apply Z.mul_1_l.
  - fold (product (l ++ l')). fold (product l). rewrite IH. apply Z.mul_assoc.
Qed.

Lemma is_lcm_le l x : (forall a, In a l -> 0 < a) -> is_lcm l x -> x <= product l.
Proof.
  intros H (P & _ & L). apply Z.divide_pos_le; [now apply product_pos|]. apply L.
  intros a Ha. apply in_split in Ha as (l1 & l2 & ->). rewrite product_app.
  apply Z.divide_mul_r. cbn [product fold_right]. apply Z.divide_factor_l.
Qed.

Lemma c_lcm_lists l l' x y : (forall a, In a (l ++ l') -> 0 < a) -> product (l ++ l') < 2 ^ 64 ->
  is_lcm l x -> is_lcm l' y -> computes (c_lcm x y) (l ++ l').
Proof.
  intros H P L L'. exists (Z.lcm x y).
  assert (H1 : forall a, In a l -> 0 < a) by (intros; apply H, in_or_app; auto).
  assert (H2 : forall a, In a l' -> 0 < a) by (intros; apply H, in_or_app; auto).
  split; [|now apply is_lcm_app]. rewrite product_app in P.
  pose proof (is_lcm_le l x H1 L). pose proof (is_lcm_le l' y H2 L').
  destruct L as (Px & _), L' as (Py & _). apply c_lcm_ok; [assumption|assumption|].
  apply Z.le_lt_trans with (product l * product l'); [|assumption].
  apply Z.mul_le_mono_nonneg; lia.
Qed.

Lemma product_split l l' : (forall a, In a (l ++ l') -> 0 < a) -> product (l ++ l') < 2 ^ 64 ->
  ((forall a, In a l -> 0 < a) /\ product l < 2 ^ 64) /\
  ((forall a, In a l' -> 0 < a) /\ product l' < 2 ^ 64).
Proof.
  intros H P.
  assert (H1 : forall a, In a l -> 0 < a) by (intros; apply H, in_or_app; auto).
  assert (H2 : forall a, In a l' -> 0 < a) by (intros; apply H, in_or_app; auto).
  pose proof (product_pos l H1). pose proof (product_pos l' H2). rewrite product_app in P.
  assert (product l * 1 <= product l * product l') by (apply Z.mul_le_mono_nonneg_l; lia).
  assert (1 * product l' <= product l * product l') by (apply Z.mul_le_mono_nonneg_r; lia).
  repeat split; (assumption || lia).
Qed.

Lemma proper_app l l' : proper (l ++ l') -> proper l /\ proper l'.
Proof. intros (H & P). now apply product_split. Qed.

Lemma computes_two l l' c c' : proper (l ++ l') -> computes c l -> computes c' l' ->
  computes (a <- c ;; b <- c' ;; c_lcm a b) (l ++ l').
Proof.
  intros (H & P) (x & -> & L) (y & -> & L'). cbn [bind]. now apply c_lcm_lists.
Qed.

Lemma computes_one a : proper [a] -> computes (Some a) [a].
Proof. intros (H & _). exists a. split; [reflexivity|]. apply is_lcm_one, H. now left. Qed.

Local Opaque c_lcm.

Lemma common2_ok s t : proper [s; t] -> computes (common2 s t) [s; t].
Proof.
  intros H. destruct (proper_app [s] [t] H) as (H1 & H2).
  exact (computes_two [s] [t] _ _ H (computes_one _ H1) (computes_one _ H2)).
Qed.

Lemma common3_ok s t u : proper [s; t; u] -> computes (common3 s t u) [s; t; u].
Proof.
  intros H. destruct (proper_app [s; t] [u] H) as (H1 & H2).
  exact (computes_two [s; t] [u] _ _ H (common2_ok _ _ H1) (computes_one _ H2)).
Qed.

Lemma common4_ok s t u v : proper [s; t; u; v] -> computes (common4 s t u v) [s; t; u; v].
Proof.
  intros H. destruct (proper_app [s; t] [u; v] H) as (H1 & H2).
  exact (computes_two [s; t] [u; v] _ _ H (common2_ok _ _ H1) (common2_ok _ _ H2)).
Qed.

Lemma common5_ok s t u v w : proper [s; t; u; v; w] -> computes (common5 s t u v w) [s; t; u; v; w].
Proof.
  intros H. destruct (proper_app [s; t; u; v] [w] H) as (H1 & H2).
  exact (computes_two [s; t; u; v] [w] _ _ H (common4_ok _ _ _ _ H1) (computes_one _ H2)).
Qed.

Lemma common6_ok s t u v w x : proper [s; t; u; v; w; x] ->
  computes (common6 s t u v w x) [s; t; u; v; w; x].
Proof.
  intros H. destruct (proper_app [s; t; u; v] [w; x] H) as (H1 & H2).
  exact (computes_two [s; t; u; v] [w; x] _ _ H (common4_ok _ _ _ _ H1) (common2_ok _ _ H2)).
Qed.

Lemma common7_ok s t u v w x y : proper [s; t; u; v; w; x; y] ->
  computes (common7 s t u v w x y) [s; t; u; v; w; x; y].
Proof.
  intros H. destruct (proper_app [s; t; u; v] [w; x; y] H) as (H1 & H2).
  exact (computes_two [s; t; u; v] [w; x; y] _ _ H (common4_ok _ _ _ _ H1) (common3_ok _ _ _ H2)).
Qed.

Lemma common8_ok s t u v w x y z : proper [s; t; u; v; w; x; y; z] ->
  computes (common8 s t u v w x y z) [s; t; u; v; w; x; y; z].
Proof.
  intros H. destruct (proper_app [s; t; u; v] [w; x; y; z] H) as (H1 & H2).
  exact (computes_two [s; t; u; v] [w; x; y; z] _ _ H (common4_ok _ _ _ _ H1) (common4_ok _ _ _ _ H2)).
Qed.
