(* The tests on bit patterns in ElementAddSpec.v are the comparisons of IEEE-754 double
   precision numbers, with the binary64 format of the Flocq library. *)
From Coq Require Import ZArith Bool Lia.
From Flocq Require Import Core.Zaux Core.Digits IEEE754.BinarySingleNaN IEEE754.Binary IEEE754.Bits.
From Verif Require Import ElementAdd ElementAddSpec.
Local Open Scope Z_scope.

(* w >= 0.0 and w < 3.0 *)
Definition ge_zero (w : Z) : Prop :=
  b64_compare (b64_of_bits w) (b64_of_bits 0) = Some Eq \/ b64_compare (b64_of_bits w) (b64_of_bits 0) = Some Gt.
Definition lt_three (w : Z) : Prop :=
  b64_compare (b64_of_bits w) (b64_of_bits 0x4008000000000000) = Some Lt.

(* the mantissa of a finite number *)
Lemma finite_range m e : SpecFloat.bounded 53 1024 m e = true ->
  -1074 <= e <= 971 /\ Z.pos m < 0x20000000000000 /\ (Z.pos m < 0x10000000000000 -> e = -1074).
Proof.
  unfold SpecFloat.bounded, SpecFloat.canonical_mantissa. rewrite andb_true_iff. intros (H1 & H2).
  apply Zeq_bool_eq in H1. apply Z.leb_le in H2. unfold SpecFloat.fexp, SpecFloat.emin in H1.
  rewrite Zpos_digits2_pos in H1.
  pose proof (Zdigits_correct radix2 (Z.pos m)) as (D1 & D2). rewrite Z.abs_eq in D1, D2 by lia.
  change (Zpower radix2) with (Z.pow 2) in D1, D2.
  assert (P : 0 < Zdigits radix2 (Z.pos m)) by (apply Zdigits_gt_0; discriminate).
  revert D1 D2 H1 P. generalize (Zdigits radix2 (Z.pos m)) as d. intros d D1 D2 H1 P.
  change 0x20000000000000 with (2 ^ 53). change 0x10000000000000 with (2 ^ 52).
  assert (d <= 53) by lia.
  assert (2 ^ d <= 2 ^ 53) by (apply Z.pow_le_mono_r; lia).
  split; [lia|]. split; [lia|]. intros L.
  destruct (Z.eq_dec d 53) as [ -> | N ]; [change (53 - 1) with 52 in D1; lia|lia].
Qed.

Lemma nan_range p : nan_pl 53 p = true -> Z.pos p < 0x10000000000000.
Proof.
  unfold nan_pl. intros H. apply Z.ltb_lt in H. rewrite Zpos_digits2_pos in H.
  pose proof (Zdigits_correct radix2 (Z.pos p)) as (_ & D2). rewrite Z.abs_eq in D2 by lia.
  change (Zpower radix2) with (Z.pow 2) in D2. change 0x10000000000000 with (2 ^ 52).
  assert (2 ^ Zdigits radix2 (Z.pos p) <= 2 ^ 52) by (apply Z.pow_le_mono_r; lia). lia.
Qed.

(* the bit patterns of the numbers *)
Definition sign_of (s : bool) : Z := if s then 0x8000000000000000 else 0.
Definition shape (w : Z) (x : binary64) : Prop :=
  match x with
  | B754_zero _ _ s => w = sign_of s
  | B754_infinity _ _ s => w = sign_of s + 0x7FF0000000000000
  | B754_nan _ _ s p _ => w = sign_of s + 0x7FF0000000000000 + Z.pos p
  | B754_finite _ _ s m e _ => w = sign_of s +
      (if 0 <=? Z.pos m - 0x10000000000000 then (e + 1075) * 0x10000000000000 + (Z.pos m - 0x10000000000000)
       else Z.pos m)
  end.

Lemma join s m e : join_bits 52 11 s m e = (if s then 2 ^ 63 else 0) + e * 2 ^ 52 + m.
Proof.
  unfold join_bits. rewrite Z.shiftl_mul_pow2 by lia. destruct s; [|lia].
  change (2 ^ 63) with (2 ^ 11 * 2 ^ 52). ring.
Qed.
Lemma joinc s m e : join_bits 52 11 s m e = sign_of s + e * 0x10000000000000 + m.
Proof. rewrite join. destruct s; reflexivity. Qed.

Lemma shaped x : shape (bits_of_binary_float 52 11 x) x.
Proof.
  destruct x as [s|s|s pl Hp|s m e Hb]; unfold shape, bits_of_binary_float; cbv zeta.
  - rewrite joinc. destruct s; reflexivity.
  - rewrite joinc. destruct s; reflexivity.
  - rewrite joinc. destruct s; reflexivity.
  - change (2 ^ 52) with 0x10000000000000. change (SpecFloat.emin (52 + 1) (2 ^ (11 - 1))) with (-1074).
    destruct (0 <=? Z.pos m - 0x10000000000000); rewrite joinc; destruct s; lia.
Qed.

Lemma shape_bits w : 0 <= w < 2 ^ 64 -> shape w (b64_of_bits w).
Proof.
  intros H. pose proof (shaped (b64_of_bits w)) as S.
  assert (E : bits_of_binary_float 52 11 (b64_of_bits w) = w) by (apply bits_of_binary_float_of_bits; exact H).
  rewrite E in S. exact S.
Qed.

Lemma finite_shape w s m e H : shape w (B754_finite 53 1024 s m e H) ->
  sign_of s < w < sign_of s + 0x7FF0000000000000 /\
  (e < -51 \/ e = -51 /\ Z.pos m < 6755399441055744 <-> w < sign_of s + 0x4008000000000000).
Proof.
  unfold shape. intros S. destruct (finite_range m e H) as (E1 & M1 & M2). clear H.
  revert S. generalize (sign_of s) as g. intros g S.
  destruct (0 <=? Z.pos m - 0x10000000000000) eqn:N; [apply Z.leb_le in N|apply Z.leb_gt in N]; lia.
Qed.

Lemma zero_cmp x : b64_compare x (b64_of_bits 0) =
  match x with
  | B754_zero _ _ _ => Some Eq
  | B754_infinity _ _ s | B754_finite _ _ s _ _ _ => Some (if s then Lt else Gt)
  | B754_nan _ _ _ _ _ => None
  end.
Proof.
  assert (E : b64_of_bits 0 = B754_zero 53 1024 false) by (apply (B2FF_inj 53 1024); vm_compute; reflexivity).
  rewrite E. destruct x as [s|s|s p Hp|s m e Hb]; try reflexivity; destruct s; reflexivity.
Qed.

Lemma cmp_pos m c : Pos.compare_cont Eq m c = (Z.pos m ?= Z.pos c).
Proof. reflexivity. Qed.

Lemma three_cmp x : b64_compare x (b64_of_bits 0x4008000000000000) =
  match x with
  | B754_zero _ _ _ => Some Lt
  | B754_infinity _ _ s => Some (if s then Lt else Gt)
  | B754_nan _ _ _ _ _ => None
  | B754_finite _ _ s m e _ =>
    Some (if s then Lt else match e ?= -51 with Lt => Lt | Gt => Gt | Eq => Z.pos m ?= 6755399441055744 end)
  end.
Proof.
  assert (E : b64_of_bits 0x4008000000000000 = B754_finite 53 1024 false 6755399441055744 (-51) eq_refl)
    by (apply (B2FF_inj 53 1024); vm_compute; reflexivity).
  rewrite E. unfold b64_compare, Bcompare, BinarySingleNaN.Bcompare.
  destruct x as [s|s|s p Hp|s m e Hb]; cbn [B2BSN BinarySingleNaN.B2SF SpecFloat.SFcompare].
  - reflexivity.
  - destruct s; reflexivity.
  - reflexivity.
  - destruct s; [reflexivity|]. rewrite cmp_pos. reflexivity.
Qed.

Lemma nonneg_ok w : 0 <= w < 2 ^ 64 -> (nonneg w = true <-> ge_zero w).
Proof.
  intros H. pose proof (shape_bits w H) as S. unfold ge_zero. rewrite zero_cmp.
  unfold nonneg. rewrite orb_true_iff, Z.leb_le, Z.eqb_eq. clear H. revert S.
  generalize (b64_of_bits w) as x. intros x S. destruct x as [s|s|s p Hp|s m e Hb].
  - unfold shape, sign_of in S. split; intros _; [left; reflexivity|destruct s; lia].
  - unfold shape, sign_of in S. destruct s; split; intros X.
    + lia.
    + destruct X as [X|X]; discriminate X.
    + right. reflexivity.
    + lia.
  - unfold shape, sign_of in S. pose proof (nan_range p Hp). split; intros X.
    + destruct s; lia.
    + destruct X as [X|X]; discriminate X.
  - apply finite_shape in S. destruct S as (S & _). unfold sign_of in S. destruct s; split; intros X.
    + lia.
    + destruct X as [X|X]; discriminate X.
    + right. reflexivity.
    + lia.
Qed.

Lemma below3_ok w : 0 <= w < 2 ^ 64 -> (below3 w = true <-> lt_three w).
Proof.
  intros H. pose proof (shape_bits w H) as S. unfold lt_three. rewrite three_cmp.
  unfold below3. rewrite orb_true_iff, andb_true_iff, Z.ltb_lt, !Z.leb_le. clear H. revert S.
  generalize (b64_of_bits w) as x. intros x S. destruct x as [s|s|s p Hp|s m e Hb].
  - unfold shape, sign_of in S. split; intros _; [reflexivity|destruct s; lia].
  - unfold shape, sign_of in S. destruct s; split; intros X; first [reflexivity | discriminate X | lia].
  - unfold shape, sign_of in S. pose proof (nan_range p Hp). split; intros X; [destruct s; lia|discriminate X].
  - apply finite_shape in S. destruct S as (S & T). unfold sign_of in S, T. destruct s.
    + split; intros X; [reflexivity|lia].
    + destruct (Z.compare_spec e (-51)) as [E | E | E]; [destruct (Z.compare_spec (Z.pos m) 6755399441055744)|..];
        split; intros X; first [reflexivity | discriminate X | lia].
Qed.

(* the product of two numbers given by their bit patterns, rounded to nearest *)
Definition times (x y : Z) : Z := bits_of_b64 (b64_mult mode_NE (b64_of_bits x) (b64_of_bits y)).
Definition is_number (w : Z) : Prop := is_nan 53 1024 (b64_of_bits w) = false.

Lemma square_sign x : is_nan 53 1024 x = false ->
  is_nan 53 1024 (b64_mult mode_NE x x) = false /\ Bsign 53 1024 (b64_mult mode_NE x x) = false.
Proof.
  intros N. destruct x as [s|s|s p Hp|s m e Hb].
  - destruct s; split; reflexivity.
  - destruct s; split; reflexivity.
  - discriminate N.
  - pose proof (Bmult_correct 53 1024 eq_refl eq_refl binop_nan_pl64 mode_NE
      (B754_finite 53 1024 s m e Hb) (B754_finite 53 1024 s m e Hb)) as H.
    fold (b64_mult mode_NE (B754_finite 53 1024 s m e Hb) (B754_finite 53 1024 s m e Hb)) in H.
    change (Bmult 53 1024 eq_refl eq_refl binop_nan_pl64 mode_NE) with (b64_mult mode_NE) in H.
    revert H. generalize (b64_mult mode_NE (B754_finite 53 1024 s m e Hb) (B754_finite 53 1024 s m e Hb)) as z.
    intros z. cbn [Bsign is_finite andb]. rewrite xorb_nilpotent.
    destruct (Raux.Rlt_bool _ _).
    + intros (_ & Fz & Sz). destruct z as [s2|s2|s2 p2 Hp2|s2 m2 e2 Hb2]; try discriminate Fz; split; try reflexivity; apply Sz; reflexivity.
    + intros H. destruct z as [s2|s2|s2 p2 Hp2|s2 m2 e2 Hb2]; cbn [B2FF] in H; unfold binary_overflow in H; cbn in H;
        try discriminate H. split; [reflexivity|]. cbn [Bsign]. congruence.
Qed.

Lemma square_nonneg w : is_number w -> nonneg (times w w) = true.
Proof.
  unfold is_number, times. intros N. destruct (square_sign _ N) as (A & B). revert A B.
  generalize (b64_mult mode_NE (b64_of_bits w) (b64_of_bits w)) as z. intros z A B.
  pose proof (shaped z) as S. unfold bits_of_b64. revert S. generalize (bits_of_binary_float 52 11 z) as v. intros v S.
  unfold nonneg. rewrite orb_true_iff, Z.leb_le, Z.eqb_eq.
  destruct z as [s|s|s p Hp|s m e Hb]; cbn [Bsign is_nan] in A, B; try discriminate A; subst s.
  - unfold shape, sign_of in S. lia.
  - unfold shape, sign_of in S. lia.
  - apply finite_shape in S. destruct S as (S & _). unfold sign_of in S. lia.
Qed.

(* the negated number *)
Definition negated (w : Z) : Z := bits_of_b64 (b64_opp (b64_of_bits w)).
Lemma minus_ok w : 0 <= w < 2 ^ 64 -> is_number w -> minus w = negated w.
Proof.
  intros H. pose proof (shape_bits w H) as S. unfold is_number, negated, minus, bits_of_b64. clear H. revert S.
  generalize (b64_of_bits w) as x. intros x S N. pose proof (shaped (b64_opp x)) as T. revert T.
  generalize (bits_of_binary_float 52 11 (b64_opp x)) as v. intros v T.
  change (2 ^ 63) with 0x8000000000000000.
  destruct x as [s|s|s p Hp|s m e Hb]; try discriminate N; unfold b64_opp in T; cbn [Bopp] in T.
  - unfold shape, sign_of in *. destruct s; cbn [negb] in T; destruct (Z.ltb_spec w 0x8000000000000000); lia.
  - unfold shape, sign_of in *. destruct s; cbn [negb] in T; destruct (Z.ltb_spec w 0x8000000000000000); lia.
  - pose proof (proj1 (finite_shape _ _ _ _ _ S)) as B. unfold shape, sign_of in *. revert S T.
    generalize (if 0 <=? Z.pos m - 0x10000000000000 then (e + 1075) * 0x10000000000000 + (Z.pos m - 0x10000000000000)
       else Z.pos m) as k. intros k S T.
    destruct s; cbn [negb] in T; destruct (Z.ltb_spec w 0x8000000000000000); lia.
Qed.
