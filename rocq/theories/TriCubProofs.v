(** Proofs about tri-cubic interpolation. *)
From Coq Require Import ZArith Reals Lra Lia List Bool.
From Coquelicot Require Import Coquelicot.
From Verif Require Import Num Particle Energy Interp MapsR TriCubCoefs TriCub TriCubSpec.
Import ListNotations.
Local Open Scope R_scope.

(** Powers and their first derivative. *)
Definition pw (d i : nat) (x : R) : R :=
  match d with O => x ^ i | _ => INR i * x ^ (i - 1) end.

Definition P (a : nat -> R) (dx dy dz : nat) (x y z : R) : R :=
  big 4 (fun k => big 4 (fun j => big 4 (fun i =>
    a (i + 4 * j + 16 * k)%nat * pw dx i x * pw dy j y * pw dz k z))).

Lemma big4 f : big 4 f = f 0%nat + (f 1%nat + (f 2%nat + (f 3%nat + 0))).
Proof. reflexivity. Qed.

Lemma big_ext f g : (forall i, f i = g i) -> big 4 f = big 4 g.
Proof. intro H. rewrite !big4, !H. reflexivity. Qed.

Lemma big_derive f f' (x : R) : (forall i, is_derive (f i) x (f' i)) ->
  is_derive (fun t : R => big 4 (fun i => f i t)) x (big 4 f').
Proof.
  intro H. unfold big. cbn [seq map fold_right].
  repeat (apply @is_derive_plus; [apply H |]). apply @is_derive_const.
Qed.

Lemma pw_derive i (x : R) : is_derive (fun t : R => pw 0 i t) x (pw 1 i x).
Proof.
  cbn [pw]. evar_last; [apply is_derive_pow; apply @is_derive_id |].
  unfold one; cbn. rewrite Nat.sub_1_r. ring.
Qed.

Lemma scal_derive (c : R) f (x l : R) : is_derive f x l -> is_derive (fun t : R => c * f t) x (c * l).
Proof. intro H. apply @is_derive_scal. exact H. Qed.

Lemma is_P_dx a dy dz x y z : is_derive (fun t : R => P a 0 dy dz t y z) x (P a 1 dy dz x y z).
Proof.
  unfold P.
  apply big_derive with (f := fun k t => big 4 (fun j => big 4 (fun i =>
    a (i + 4 * j + 16 * k)%nat * pw 0 i t * pw dy j y * pw dz k z))). intro k.
  apply big_derive with (f := fun j t => big 4 (fun i =>
    a (i + 4 * j + 16 * k)%nat * pw 0 i t * pw dy j y * pw dz k z)). intro j.
  apply big_derive with (f := fun i t =>
    a (i + 4 * j + 16 * k)%nat * pw 0 i t * pw dy j y * pw dz k z). intro i.
  set (c := a (i + 4 * j + 16 * k)%nat).
  apply is_derive_ext with (fun t : R => (c * pw dy j y * pw dz k z) * pw 0 i t).
  { intro t. match goal with |- ?u = ?v => change (@eq R u v) end. ring. }
  replace (c * pw 1 i x * pw dy j y * pw dz k z) with ((c * pw dy j y * pw dz k z) * pw 1 i x) by ring.
  apply scal_derive, pw_derive.
Qed.

Lemma P_dx a dy dz x y z : Derive (fun t : R => P a 0 dy dz t y z) x = P a 1 dy dz x y z.
Proof. apply is_derive_unique, is_P_dx. Qed.

Lemma is_P_dy a dx dz x y z : is_derive (fun t : R => P a dx 0 dz x t z) y (P a dx 1 dz x y z).
Proof.
  unfold P.
  apply big_derive with (f := fun k t => big 4 (fun j => big 4 (fun i =>
    a (i + 4 * j + 16 * k)%nat * pw dx i x * pw 0 j t * pw dz k z))). intro k.
  apply big_derive with (f := fun j t => big 4 (fun i =>
    a (i + 4 * j + 16 * k)%nat * pw dx i x * pw 0 j t * pw dz k z)). intro j.
  apply big_derive with (f := fun i t =>
    a (i + 4 * j + 16 * k)%nat * pw dx i x * pw 0 j t * pw dz k z). intro i.
  set (c := a (i + 4 * j + 16 * k)%nat).
  apply is_derive_ext with (fun t : R => (c * pw dx i x * pw dz k z) * pw 0 j t).
  { intro t. match goal with |- ?u = ?v => change (@eq R u v) end. ring. }
  replace (c * pw dx i x * pw 1 j y * pw dz k z) with ((c * pw dx i x * pw dz k z) * pw 1 j y) by ring.
  apply scal_derive, pw_derive.
Qed.

Lemma P_dy a dx dz x y z : Derive (fun t : R => P a dx 0 dz x t z) y = P a dx 1 dz x y z.
Proof. apply is_derive_unique, is_P_dy. Qed.

Lemma is_P_dz a dx dy x y z : is_derive (fun t : R => P a dx dy 0 x y t) z (P a dx dy 1 x y z).
Proof.
  unfold P.
  apply big_derive with (f := fun k t => big 4 (fun j => big 4 (fun i =>
    a (i + 4 * j + 16 * k)%nat * pw dx i x * pw dy j y * pw 0 k t))). intro k.
  apply big_derive with (f := fun j t => big 4 (fun i =>
    a (i + 4 * j + 16 * k)%nat * pw dx i x * pw dy j y * pw 0 k t)). intro j.
  apply big_derive with (f := fun i t =>
    a (i + 4 * j + 16 * k)%nat * pw dx i x * pw dy j y * pw 0 k t). intro i.
  set (c := a (i + 4 * j + 16 * k)%nat).
  apply is_derive_ext with (fun t : R => (c * pw dx i x * pw dy j y) * pw 0 k t).
  { intro t. match goal with |- ?u = ?v => change (@eq R u v) end. ring. }
  apply scal_derive, pw_derive.
Qed.

Lemma P_dz a dx dy x y z : Derive (fun t : R => P a dx dy 0 x y t) z = P a dx dy 1 x y z.
Proof. apply is_derive_unique, is_P_dz. Qed.

(** Orders of differentiation of the eight quantities. *)
Definition qx (l : nat) : nat := nth l [0;1;0;0;1;1;0;1]%nat 1%nat.
Definition qy (l : nat) : nat := nth l [0;0;1;0;1;0;1;1]%nat 1%nat.
Definition qz (l : nat) : nat := nth l [0;0;0;1;0;1;1;1]%nat 1%nat.

Lemma Dx_ext f g : (forall x y z, f x y z = g x y z) -> forall x y z, Dx f x y z = Dx g x y z.
Proof. intros H x y z. unfold Dx. apply Derive_ext. intro t. apply H. Qed.
Lemma Dy_ext f g : (forall x y z, f x y z = g x y z) -> forall x y z, Dy f x y z = Dy g x y z.
Proof. intros H x y z. unfold Dy. apply Derive_ext. intro t. apply H. Qed.

Lemma quantity_P a l : (l < 8)%nat ->
  forall x y z, quantity l (tripoly a) x y z = P a (qx l) (qy l) (qz l) x y z.
Proof.
  intros Hl.
  assert (D1 : forall x y z, Dx (tripoly a) x y z = P a 1 0 0 x y z) by (intros; apply (P_dx a 0 0)).
  assert (D2 : forall x y z, Dy (tripoly a) x y z = P a 0 1 0 x y z) by (intros; apply (P_dy a 0 0)).
  assert (D3 : forall x y z, Dz (tripoly a) x y z = P a 0 0 1 x y z) by (intros; apply (P_dz a 0 0)).
  assert (D23 : forall x y z, Dy (Dz (tripoly a)) x y z = P a 0 1 1 x y z).
  { intros. rewrite (Dy_ext _ _ D3). apply (P_dy a 0 1). }
  intros x y z.
  destruct l as [|[|[|[|[|[|[|[|l]]]]]]]]; try lia; cbn [quantity qx qy qz nth]; auto.
  - rewrite (Dx_ext _ _ D2). apply (P_dx a 1 0).
  - rewrite (Dx_ext _ _ D3). apply (P_dx a 0 1).
  - rewrite (Dx_ext _ _ D23). apply (P_dx a 1 1).
Qed.

(** ** The coefficients. *)

Definition acoef (b : nat -> R) (n : nat) : R := nth n (construct_coefs ROps b) 0.


(** Each coefficient is an integer combination of the 64 data.  The combination
    is computed from the expressions the model builds over a free algebra. *)
Definition vadd (u v : list Z) : list Z := map (fun p => fst p + snd p)%Z (combine u v).
Definition vscale (c : Z) (v : list Z) : list Z := map (Z.mul c) v.
Definition vzero : list Z := repeat 0%Z 64.
Definition unit_vec (k : nat) : list Z := repeat 0%Z k ++ 1%Z :: repeat 0%Z (63 - k).

(** The value of a combination. *)
Fixpoint ev (v : list Z) (b : nat -> R) : R :=
  match v with
  | [] => 0
  | z :: r => IZR z * b 0%nat + ev r (fun m => b (S m))
  end.

Lemma ev_vadd u : forall v b, length u = length v -> ev (vadd u v) b = ev u b + ev v b.
Proof.
  induction u as [| x u IH]; intros [| y v] b E; cbn [length] in E; try discriminate.
  - cbn. ring.
  - unfold vadd. cbn [combine map ev fst snd]. fold (vadd u v). rewrite IH by auto.
    rewrite plus_IZR. ring.
Qed.

Lemma ev_vscale c v : forall b, ev (vscale c v) b = IZR c * ev v b.
Proof.
  induction v as [| x v IH]; intro b; cbn [vscale map ev]; [ring |].
  fold (vscale c v). rewrite IH, mult_IZR. ring.
Qed.

Lemma ev_zero n : forall b, ev (repeat 0%Z n) b = 0.
Proof. induction n as [| n IH]; intro b; cbn [repeat ev]; [reflexivity |]. rewrite IH. ring. Qed.

Lemma ev_shift s v : forall b, ev (repeat 0%Z s ++ v) b = ev v (fun m => b (s + m)%nat).
Proof.
  induction s as [| s IH]; intro b; cbn [repeat app ev].
  - reflexivity.
  - rewrite IH. cbn [Nat.add]. ring.
Qed.

Lemma ev_ext v : forall b b', (forall m, nth m v 0%Z <> 0%Z -> b m = b' m) -> ev v b = ev v b'.
Proof.
  induction v as [| x v IH]; intros b b' H; cbn [ev]; [reflexivity |].
  rewrite (IH (fun m => b (S m)) (fun m => b' (S m))).
  - destruct (Z.eq_dec x 0) as [-> | N]; [ring |]. now rewrite (H 0%nat N).
  - intros m Hm. exact (H (S m) Hm).
Qed.

Lemma ev_trail v n : forall b, ev (v ++ repeat 0%Z n) b = ev v b.
Proof.
  induction v as [| x v IH]; intro b; cbn [app ev]; [apply ev_zero |]. now rewrite IH.
Qed.

Lemma ev_unit k : (k < 64)%nat -> forall b, ev (unit_vec k) b = b k.
Proof.
  intros _ b. unfold unit_vec. rewrite ev_shift. cbn [ev]. rewrite ev_zero, Nat.add_0_r. ring.
Qed.

Lemma vadd_length u v : length u = length v -> length (vadd u v) = length u.
Proof. intro E. unfold vadd. rewrite map_length, combine_length, E. apply Nat.min_id. Qed.

Lemma vscale_length c v : length (vscale c v) = length v.
Proof. apply map_length. Qed.


(** Free expressions over the data. *)
Inductive ex : Type :=
| EZ (z : Z) | EB (k : nat) | EAdd (a b : ex) | ESub (a b : ex) | EMul (a b : ex) | EOpp (a : ex).

Definition ExOps : NumOps ex := {|
  nzero := EZ 0; none_ := EZ 1; nofZ := EZ;
  nadd := EAdd; nsub := ESub; nmul := EMul; ndiv := fun a _ => a; nopp := EOpp;
  nsqrt := fun a => a; nsin := fun a => a; ncos := fun a => a; nexp := fun a => a;
  nltb := fun _ _ => false; nleb := fun _ _ => false;
  npi := EZ 0; nclight := EZ 0; ndeg2rad := EZ 0;
  ncharge0 := EZ 0; ncharge0_si := EZ 0; nqelem := EZ 0; nepsilon0 := EZ 0;
  nsqrtpi := EZ 0; ndec := fun _ _ => EZ 0; nabs := fun a => a; neqb := fun _ _ => false;
  nfloor := fun a => a; ntruncZ := fun _ => None; npow := fun a _ => a |}.

Fixpoint den (b : nat -> R) (e : ex) : R :=
  match e with
  | EZ z => IZR z
  | EB k => b k
  | EAdd u v => den b u + den b v
  | ESub u v => den b u - den b v
  | EMul u v => den b u * den b v
  | EOpp u => - den b u
  end.

(** The row of a linear expression; products have a literal on the left. *)
Fixpoint row (e : ex) : option (list Z) :=
  match e with
  | EZ _ => None
  | EB k => if Nat.ltb k 64 then Some (unit_vec k) else None
  | EAdd u v => match row u, row v with Some x, Some y => Some (vadd x y) | _, _ => None end
  | ESub u v => match row u, row v with Some x, Some y => Some (vadd x (vscale (-1) y)) | _, _ => None end
  | EMul (EZ z) v => match row v with Some y => Some (vscale z y) | None => None end
  | EMul _ _ => None
  | EOpp u => match row u with Some x => Some (vscale (-1) x) | None => None end
  end.

Lemma row_ok b e : forall v, row e = Some v -> length v = 64%nat /\ den b e = ev v b.
Proof.
  induction e as [z | k | e1 IH1 e2 IH2 | e1 IH1 e2 IH2 | e1 IH1 e2 IH2 | e1 IH1]; intros v H;
    cbn [row] in H.
  - discriminate.
  - destruct (Nat.ltb_spec k 64) as [L |]; [| discriminate].
    assert (v = unit_vec k) as -> by congruence. split.
    + unfold unit_vec. rewrite app_length. cbn [length]. rewrite !repeat_length. lia.
    + cbn [den]. now rewrite ev_unit.
  - destruct (row e1) as [x |], (row e2) as [y |]; try discriminate.
    assert (v = vadd x y) as -> by congruence.
    destruct (IH1 _ eq_refl) as [L1 E1], (IH2 _ eq_refl) as [L2 E2]. split.
    + rewrite vadd_length; congruence.
    + cbn [den]. rewrite ev_vadd by congruence. congruence.
  - destruct (row e1) as [x |], (row e2) as [y |]; try discriminate.
    assert (v = vadd x (vscale (-1) y)) as -> by congruence.
    destruct (IH1 _ eq_refl) as [L1 E1], (IH2 _ eq_refl) as [L2 E2]. split.
    + rewrite vadd_length; rewrite ?vscale_length; congruence.
    + cbn [den]. rewrite ev_vadd by (rewrite vscale_length; congruence). rewrite ev_vscale, E1, E2. ring.
  - destruct e1 as [z | | | | |]; try discriminate. destruct (row e2) as [y |]; try discriminate.
    assert (v = vscale z y) as -> by congruence. destruct (IH2 _ eq_refl) as [L2 E2]. split.
    + now rewrite vscale_length.
    + cbn [den]. rewrite ev_vscale. congruence.
  - destruct (row e1) as [x |]; try discriminate.
    assert (v = vscale (-1) x) as -> by congruence. destruct (IH1 _ eq_refl) as [L1 E1]. split.
    + now rewrite vscale_length.
    + cbn [den]. rewrite ev_vscale, E1. ring.
Qed.

Definition exprs : list ex := Eval vm_compute in construct_coefs ExOps EB.

Lemma exprs_den b : construct_coefs ROps b = map (den b) exprs.
Proof. lazy. reflexivity. Qed.

Definition Mat : list (list Z) :=
  Eval vm_compute in map (fun e => match row e with Some v => v | None => [] end) exprs.

Lemma exprs_rows : map row exprs = map Some Mat.
Proof. vm_compute. reflexivity. Qed.

Lemma coef_row b n : (n < 64)%nat -> acoef b n = ev (nth n Mat []) b /\ length (nth n Mat []) = 64%nat.
Proof.
  intro H.
  assert (L : length exprs = 64%nat) by reflexivity.
  assert (L2 : length Mat = 64%nat) by reflexivity.
  assert (E : row (nth n exprs (EZ 0)) = Some (nth n Mat [])).
  { rewrite <- (map_nth row). rewrite exprs_rows.
    rewrite nth_indep with (d' := Some []) by (rewrite map_length; lia).
    apply map_nth. }
  destruct (row_ok b _ _ E) as [E1 E2]. split; [| exact E1].
  unfold acoef. rewrite exprs_den, <- E2.
  rewrite nth_indep with (d' := den b (EZ 0)) by (rewrite map_length; lia).
  apply map_nth.
Qed.

(** ** Weighted sums of coefficients. *)

Fixpoint lc (a : nat -> R) (ws : list (nat * Z)) : R :=
  match ws with
  | [] => 0
  | (n, w) :: r => a n * IZR w + lc a r
  end.

Fixpoint vec (ws : list (nat * Z)) : list Z :=
  match ws with
  | [] => vzero
  | (n, w) :: r => vadd (vscale w (nth n Mat [])) (vec r)
  end.

Lemma vec_ok b ws : List.Forall (fun p => (fst p < 64)%nat) ws ->
  length (vec ws) = 64%nat /\ lc (acoef b) ws = ev (vec ws) b.
Proof.
  induction ws as [| [n w] r IH]; intro F.
  - split; [apply repeat_length |]. cbn [lc vec]. symmetry. apply ev_zero.
  - inversion F as [| ? ? Hn Fr]; subst. cbn [fst] in Hn. destruct (IH Fr) as [L E].
    destruct (coef_row b n Hn) as [Ea La]. cbn [lc vec]. split.
    + rewrite vadd_length; rewrite vscale_length; congruence.
    + rewrite ev_vadd by (rewrite vscale_length; congruence). rewrite ev_vscale, E, Ea. ring.
Qed.

Lemma lc_app a u v : lc a (u ++ v) = lc a u + lc a v.
Proof.
  induction u as [| [n w] u IH]; cbn [app lc]; [ring |]. rewrite IH. ring.
Qed.

Lemma lc_flat a (g : nat -> list (nat * Z)) l :
  lc a (flat_map g l) = fold_right Rplus 0 (map (fun k => lc a (g k)) l).
Proof.
  induction l as [| k l IH]; cbn [flat_map map fold_right lc]; [reflexivity |].
  now rewrite lc_app, IH.
Qed.

Lemma lc_map a (n : nat -> nat) (w : nat -> Z) l :
  lc a (map (fun i => (n i, w i)) l) = fold_right Rplus 0 (map (fun i => a (n i) * IZR (w i)) l).
Proof.
  induction l as [| k l IH]; cbn [map fold_right lc]; [reflexivity |]. now rewrite IH.
Qed.

Definition pwZ (d i : nat) (x : Z) : Z :=
  match d with O => x ^ Z.of_nat i | _ => Z.of_nat i * x ^ Z.of_nat (i - 1) end%Z.

Lemma pow_of_Z x i : IZR (x ^ Z.of_nat i) = IZR x ^ i.
Proof. symmetry. apply pow_IZR. Qed.

Lemma pwZ_ok d i x : pw d i (IZR x) = IZR (pwZ d i x).
Proof.
  destruct d; cbn [pw pwZ].
  - now rewrite pow_of_Z.
  - rewrite mult_IZR, pow_of_Z, INR_IZR_INZ. reflexivity.
Qed.

(** *** Corners *)

Definition cw (dx dy dz : nat) (x y z : Z) : list (nat * Z) :=
  flat_map (fun k => flat_map (fun j => map (fun i =>
    ((i + 4 * j + 16 * k)%nat, pwZ dx i x * pwZ dy j y * pwZ dz k z)%Z) (seq 0 4)) (seq 0 4)) (seq 0 4).

Lemma P_cw a dx dy dz x y z :
  P a dx dy dz (IZR x) (IZR y) (IZR z) = lc a (cw dx dy dz x y z).
Proof.
  unfold P, cw, big. rewrite lc_flat. f_equal.
  apply map_ext. intro k. rewrite lc_flat. f_equal.
  apply map_ext. intro j. rewrite lc_map. f_equal.
  apply map_ext. intro i. rewrite !mult_IZR, !pwZ_ok. ring.
Qed.

Lemma cw_range dx dy dz x y z : List.Forall (fun p => (fst p < 64)%nat) (cw dx dy dz x y z).
Proof. unfold cw. cbn [seq flat_map map app]. repeat (constructor; [cbn [fst]; lia |]). constructor. Qed.

Lemma cw_corner l c : (l < 8)%nat -> (c < 8)%nat ->
  vec (cw (qx l) (qy l) (qz l) (Z.of_nat (bit c 0)) (Z.of_nat (bit c 1)) (Z.of_nat (bit c 2)))
  = unit_vec (8 * l + c).
Proof.
  intros Hl Hc.
  destruct l as [|[|[|[|[|[|[|[|l]]]]]]]]; try lia;
  destruct c as [|[|[|[|[|[|[|[|c]]]]]]]]; try lia; vm_compute; reflexivity.
Qed.

Lemma corners_ok b l c : (l < 8)%nat -> (c < 8)%nat ->
  P (acoef b) (qx l) (qy l) (qz l) (INR (bit c 0)) (INR (bit c 1)) (INR (bit c 2)) = b (8 * l + c)%nat.
Proof.
  intros Hl Hc. rewrite !INR_IZR_INZ, P_cw.
  destruct (vec_ok b (cw (qx l) (qy l) (qz l) (Z.of_nat (bit c 0)) (Z.of_nat (bit c 1))
     (Z.of_nat (bit c 2))) (cw_range _ _ _ _ _ _)) as [_ ->].
  rewrite cw_corner by auto. apply ev_unit. lia.
Qed.

(** *** Faces *)

Definition index (i j k : nat) : nat := (i + 4 * j + 16 * k)%nat.

Lemma big_scal f c : big 4 f * c = big 4 (fun i => f i * c).
Proof. rewrite !big4. ring. Qed.

Lemma big_swap (f : nat -> nat -> R) : big 4 (fun i => big 4 (fun j => f i j)) = big 4 (fun j => big 4 (fun i => f i j)).
Proof. rewrite !big4. ring. Qed.

Lemma big_ext4 f g : (forall i, (i < 4)%nat -> f i = g i) -> big 4 f = big 4 g.
Proof. intro H. rewrite !big4. rewrite (H 0%nat), (H 1%nat), (H 2%nat), (H 3%nat) by lia. reflexivity. Qed.

(** The sum along one direction. *)
Definition line (n : nat -> nat) (d : nat) (x : R) (a : nat -> R) : R :=
  big 4 (fun i => a (n i) * pw d i x).

Lemma P_linex a dx dy dz x y z : P a dx dy dz x y z =
  big 4 (fun k => big 4 (fun j => line (fun i => index i j k) dx x a * (pw dy j y * pw dz k z))).
Proof.
  unfold P, line. apply big_ext. intro k. apply big_ext. intro j.
  rewrite big_scal. apply big_ext. intro i. unfold index. ring.
Qed.

Lemma P_liney a dx dy dz x y z : P a dx dy dz x y z =
  big 4 (fun k => big 4 (fun i => line (fun j => index i j k) dy y a * (pw dx i x * pw dz k z))).
Proof.
  unfold P, line. apply big_ext. intro k. rewrite big_swap. apply big_ext. intro i.
  rewrite big_scal. apply big_ext. intro j. unfold index. ring.
Qed.

Lemma P_linez a dx dy dz x y z : P a dx dy dz x y z =
  big 4 (fun j => big 4 (fun i => line (fun k => index i j k) dz z a * (pw dx i x * pw dy j y))).
Proof.
  unfold P, line. rewrite big_swap. apply big_ext. intro j. rewrite big_swap. apply big_ext. intro i.
  rewrite big_scal. apply big_ext. intro k. unfold index. ring.
Qed.

Definition lw (n : nat -> nat) (d : nat) (x : Z) : list (nat * Z) :=
  map (fun i => (n i, pwZ d i x)) (seq 0 4).

Lemma line_lw n d x a : line n d (IZR x) a = lc a (lw n d x).
Proof.
  unfold line, lw, big. rewrite lc_map. f_equal. apply map_ext. intro i. now rewrite pwZ_ok.
Qed.

(** [check s n d]: the sum at 1 is the sum at 0 with the data moved by [s], and the
    latter only uses data whose number has no [s] bit. *)
Definition check (s : nat) (n : nat -> nat) (d : nat) : bool :=
  let v0 := vec (lw n d 0) in
  let v1 := vec (lw n d 1) in
  (if list_eq_dec Z.eq_dec v1 (repeat 0%Z s ++ firstn (64 - s) v0) then true else false)
  && (if list_eq_dec Z.eq_dec v0 (firstn (64 - s) v0 ++ repeat 0%Z s) then true else false)
  && forallb (fun m => Z.eqb (nth m v0 0%Z) 0 || Nat.eqb ((m / s) mod 2) 0) (seq 0 64).

Lemma line_face s n d b b' :
  (forall i, (i < 4)%nat -> (n i < 64)%nat) -> check s n d = true ->
  (forall m, (m < 64)%nat -> (m / s) mod 2 = 0%nat -> b' m = b (s + m)%nat) ->
  line n d 1 (acoef b) = line n d 0 (acoef b').
Proof.
  intros Hn C H. rewrite (line_lw n d 1), (line_lw n d 0).
  assert (F : forall x, List.Forall (fun p => (fst p < 64)%nat) (lw n d x)).
  { intro x. apply List.Forall_forall. intros p Hp. apply in_map_iff in Hp as [i [<- Hi]].
    apply in_seq in Hi. cbn [fst]. apply Hn. lia. }
  destruct (vec_ok b _ (F 1%Z)) as [_ E1]. destruct (vec_ok b' _ (F 0%Z)) as [L0 E0].
  rewrite E1, E0. unfold check in C.
  set (v0 := vec (lw n d 0)) in *. set (v1 := vec (lw n d 1)) in *. clearbody v0 v1.
  destruct (list_eq_dec Z.eq_dec v1 _) as [V1 |]; [| discriminate].
  destruct (list_eq_dec Z.eq_dec v0 _) as [V0 |]; [| discriminate].
  cbn [andb] in C. rewrite forallb_forall in C.
  rewrite V1, ev_shift, V0 at 1. rewrite V0 at 2.
  rewrite ev_trail.
  replace (firstn (64 - s) (firstn (64 - s) v0 ++ repeat 0%Z s)) with (firstn (64 - s) v0)
    by (rewrite <- V0; reflexivity).
  apply ev_ext. intros m Hm.
  assert (Lm : (m < length (firstn (64 - s) v0))%nat).
  { destruct (Nat.lt_ge_cases m (length (firstn (64 - s) v0))) as [|G]; auto.
    now rewrite nth_overflow in Hm by auto. }
  assert (m < 64)%nat by (rewrite firstn_length in Lm; lia).
  symmetry. apply H; auto.
  assert (Em : nth m v0 0%Z = nth m (firstn (64 - s) v0) 0%Z).
  { rewrite V0 at 1. apply app_nth1. exact Lm. }
  specialize (C m ltac:(apply in_seq; lia)). rewrite Em in C.
  apply orb_prop in C as [C | C].
  - apply Z.eqb_eq in C. contradiction.
  - now apply Nat.eqb_eq.
Qed.

Definition faces_checked : bool :=
  forallb (fun d => forallb (fun u => forallb (fun v =>
    check 1 (fun i => index i u v) d && check 2 (fun i => index u i v) d && check 4 (fun i => index u v i) d)
    (seq 0 4)) (seq 0 4)) (seq 0 2).

Lemma faces_ok : faces_checked = true.
Proof. vm_compute. reflexivity. Qed.

Lemma faces d u v : (d < 2)%nat -> (u < 4)%nat -> (v < 4)%nat ->
  check 1 (fun i => index i u v) d = true /\ check 2 (fun i => index u i v) d = true /\
  check 4 (fun i => index u v i) d = true.
Proof.
  intros Hd Hu Hv. pose proof faces_ok as F. unfold faces_checked in F.
  rewrite forallb_forall in F. specialize (F d ltac:(apply in_seq; lia)).
  rewrite forallb_forall in F. specialize (F u ltac:(apply in_seq; lia)).
  rewrite forallb_forall in F. specialize (F v ltac:(apply in_seq; lia)).
  apply andb_prop in F as [F F3]. apply andb_prop in F as [F1 F2]. auto.
Qed.

Lemma index_lt i j k : (i < 4)%nat -> (j < 4)%nat -> (k < 4)%nat -> (index i j k < 64)%nat.
Proof. unfold index. lia. Qed.

Lemma face_x b b' dx dy dz y z : (dx < 2)%nat ->
  (forall m, (m < 64)%nat -> (m / 1) mod 2 = 0%nat -> b' m = b (1 + m)%nat) ->
  P (acoef b) dx dy dz 1 y z = P (acoef b') dx dy dz 0 y z.
Proof.
  intros Hd H. rewrite !P_linex. apply big_ext4. intros k Hk. apply big_ext4. intros j Hj.
  f_equal. apply (line_face 1); auto.
  - intros; now apply index_lt.
  - now apply faces.
Qed.

Lemma face_y b b' dx dy dz x z : (dy < 2)%nat ->
  (forall m, (m < 64)%nat -> (m / 2) mod 2 = 0%nat -> b' m = b (2 + m)%nat) ->
  P (acoef b) dx dy dz x 1 z = P (acoef b') dx dy dz x 0 z.
Proof.
  intros Hd H. rewrite !P_liney. apply big_ext4. intros k Hk. apply big_ext4. intros j Hj.
  f_equal. apply (line_face 2); auto.
  - intros; now apply index_lt.
  - now apply faces.
Qed.

Lemma face_z b b' dx dy dz x y : (dz < 2)%nat ->
  (forall m, (m < 64)%nat -> (m / 4) mod 2 = 0%nat -> b' m = b (4 + m)%nat) ->
  P (acoef b) dx dy dz x y 1 = P (acoef b') dx dy dz x y 0.
Proof.
  intros Hd H. rewrite !P_linez. apply big_ext4. intros k Hk. apply big_ext4. intros j Hj.
  f_equal. apply (line_face 4); auto.
  - intros; now apply index_lt.
  - now apply faces.
Qed.

(** ** Reading the table. *)

Lemma sequence_nth {A} (L : list (option A)) : forall b, sequence L = Some b ->
  forall n x d, nth_error L n = Some x -> x = Some (nth n b d).
Proof.
  induction L as [| o L IH]; intros b H n x d Hn.
  - now destruct n.
  - cbn [sequence] in H. destruct o as [a |]; [| discriminate].
    destruct (sequence L) as [r |]; [| discriminate].
    assert (b = a :: r) as -> by congruence.
    destruct n as [| n]; cbn [nth_error nth] in *; [congruence |]. apply (IH r eq_refl n); auto.
Qed.

Lemma sequence_some {A} (L : list (option A)) : (forall o, In o L -> o <> None) -> exists b, sequence L = Some b.
Proof.
  induction L as [| o L IH]; intro H.
  - exists []. reflexivity.
  - destruct o as [a |]; [| exfalso; now apply (H None); [left |]].
    destruct IH as [r E]. { intros o Ho. apply H. now right. }
    exists (a :: r). cbn [sequence]. now rewrite E.
Qed.

Lemma construct_b_grid d ix iy iz b : construct_b d ix iy iz = Some b ->
  forall l c, (l < 8)%nat -> (c < 8)%nat ->
  grid d l (ix + Z.of_nat (bit c 0)) (iy + Z.of_nat (bit c 1)) (iz + Z.of_nat (bit c 2))
  = Some (nthT ROps b (8 * l + c)).
Proof.
  intros H l c Hl Hc. unfold construct_b in H.
  apply (sequence_nth _ _ H (8 * l + c)). clear H.
  destruct l as [|[|[|[|[|[|[|[|l]]]]]]]]; try (exfalso; lia);
  destruct c as [|[|[|[|[|[|[|[|c]]]]]]]]; try (exfalso; lia); reflexivity.
Qed.

(** ** The kick. *)

Lemma kick_x a (x y z : R) :
  kick_sum ROps a (powers ROps x) (powers ROps y) (powers ROps z) 1 0 0
  = P (fun n => nth n a 0) 1 0 0 x y z.
Proof.
  unfold kick_sum, P, powers, nthT, pw, big.
  cbn [fold_left fold_right seq map Nat.sub Nat.eqb nth Nat.add Nat.mul nofZ nadd nmul nzero ROps Z.of_nat
       Pos.of_succ_nat Pos.succ INR pow].
  ring.
Qed.

Lemma kick_y a (x y z : R) :
  kick_sum ROps a (powers ROps x) (powers ROps y) (powers ROps z) 0 1 0
  = P (fun n => nth n a 0) 0 1 0 x y z.
Proof.
  unfold kick_sum, P, powers, nthT, pw, big.
  cbn [fold_left fold_right seq map Nat.sub Nat.eqb nth Nat.add Nat.mul nofZ nadd nmul nzero ROps Z.of_nat
       Pos.of_succ_nat Pos.succ INR pow].
  ring.
Qed.

Lemma kick_z a (x y z : R) :
  kick_sum ROps a (powers ROps x) (powers ROps y) (powers ROps z) 0 0 1
  = P (fun n => nth n a 0) 0 0 1 x y z.
Proof.
  unfold kick_sum, P, powers, nthT, pw, big.
  cbn [fold_left fold_right seq map Nat.sub Nat.eqb nth Nat.add Nat.mul nofZ nadd nmul nzero ROps Z.of_nat
       Pos.of_succ_nat Pos.succ INR pow].
  ring.
Qed.

Lemma Int_part_IZR n : Int_part (IZR n) = n.
Proof.
  destruct (base_Int_part (IZR n)) as [H1 H2]. apply le_IZR in H1.
  assert (H3 : IZR (Int_part (IZR n)) + 1 > IZR n) by lra.
  rewrite <- plus_IZR in H3. apply Rgt_lt, lt_IZR in H3. lia.
Qed.

Lemma trunc_IZR n m : RtruncZ (IZR n) = Some m -> m = n.
Proof.
  unfold RtruncZ. destruct (Rlt_dec _ _); [| discriminate].
  destruct (Rle_dec 0 (IZR n)); intro H.
  - rewrite Int_part_IZR in H. congruence.
  - rewrite <- opp_IZR, Int_part_IZR in H. assert (m = - - n)%Z by congruence. lia.
Qed.

Lemma trunc_some n : (Z.abs n < 2 ^ 63)%Z -> RtruncZ (IZR n) = Some n.
Proof.
  intro H. unfold RtruncZ. destruct (Rlt_dec _ _) as [| B].
  - destruct (Rle_dec 0 (IZR n)); rewrite <- ?opp_IZR, Int_part_IZR; f_equal; lia.
  - exfalso. apply B. rewrite <- abs_IZR. now apply IZR_lt.
Qed.

Lemma interpolates_acoef d ix iy iz b : construct_b d ix iy iz = Some b ->
  interpolates d ix iy iz (acoef (nthT ROps b)).
Proof.
  intros H l c Hl Hc. rewrite (construct_b_grid _ _ _ _ _ H l c Hl Hc). f_equal.
  rewrite quantity_P by auto. now rewrite corners_ok.
Qed.

Lemma mirror_side m u dx : 0 < dx -> mirror_sign ROps m (u * (1 / dx)) = side m u.
Proof.
  intro H. unfold mirror_sign, side. rops.
  destruct (Z.eqb m 1); cbn [andb]; [| reflexivity].
  unfold Rltb. assert (0 < 1 / dx) by (apply Rdiv_lt_0_compat; lra).
  destruct (Rlt_dec u 0), (Rlt_dec (u * (1 / dx)) 0) as [B|B]; rops; try lra; exfalso.
  - apply B. nra.
  - nra.
Qed.

(** Derivatives in physical coordinates. *)
Lemma cell_derive s sh x0 dx i x : is_derive (fun t : R => cellpos s t sh x0 dx i) x (s / dx).
Proof.
  unfold cellpos.
  apply is_derive_ext with (fun t : R => (s / dx) * t + (- (s / dx) * (sh + x0) - IZR i)).
  { intro t. match goal with |- ?u = ?v => change (@eq R u v) end. unfold Rdiv. ring. }
  evar_last.
  - apply @is_derive_plus; [apply scal_derive; apply @is_derive_id | apply @is_derive_const].
  - unfold plus, one, zero; cbn. ring.
Qed.

Lemma comp_derive (f g : R -> R) (x df dg : R) :
  is_derive f (g x) df -> is_derive g x dg -> Derive (fun t : R => f (g t)) x = dg * df.
Proof.
  intros Hf Hg. apply is_derive_unique. exact (is_derive_comp f g x df dg Hf Hg).
Qed.

Section Kick.
Variables (tc : tricub R) (a : nat -> R) (x1 y1 t1 : R) (ix iy iz : Z).
Let d := tc_data tc.
Let sx := side (td_mirror_x d) (offset_x tc x1).
Let sy := side (td_mirror_y d) (offset_y tc y1).
Let sz := side (td_mirror_z d) (offset_z tc t1).
Let X x := cellpos sx x (tc_x_shift tc) (td_x0 d) (td_dx d) ix.
Let Y y := cellpos sy y (tc_y_shift tc) (td_y0 d) (td_dy d) iy.
Let T t := cellpos sz t (tc_tau_shift tc) (td_z0 d) (td_dz d) iz.

Lemma pot_dx x y t : Dx (potential tc a x1 y1 t1 ix iy iz) x y t
  = sx / td_dx d * P a 1 0 0 (X x) (Y y) (T t).
Proof.
  unfold Dx. change (fun t0 => potential tc a x1 y1 t1 ix iy iz t0 y t)
    with (fun t0 : R => (fun u => P a 0 0 0 u (Y y) (T t)) (X t0)).
  apply comp_derive; [apply is_P_dx | apply cell_derive].
Qed.

Lemma pot_dy x y t : Dy (potential tc a x1 y1 t1 ix iy iz) x y t
  = sy / td_dy d * P a 0 1 0 (X x) (Y y) (T t).
Proof.
  unfold Dy. change (fun t0 => potential tc a x1 y1 t1 ix iy iz x t0 t)
    with (fun t0 : R => (fun u => P a 0 0 0 (X x) u (T t)) (Y t0)).
  apply comp_derive; [apply is_P_dy | apply cell_derive].
Qed.

Lemma pot_dz x y t : Dz (potential tc a x1 y1 t1 ix iy iz) x y t
  = sz / td_dz d * P a 0 0 1 (X x) (Y y) (T t).
Proof.
  unfold Dz. change (fun t0 => potential tc a x1 y1 t1 ix iy iz x y t0)
    with (fun t0 : R => (fun u => P a 0 0 0 (X x) (Y y) u) (T t0)).
  apply comp_derive; [apply is_P_dz | apply cell_derive].
Qed.
End Kick.

Lemma floor_cell s u dx : in_cell s u dx (Int_part (s * (u * (1 / dx)))).
Proof.
  unfold in_cell. replace (s * u / dx) with (s * (u * (1 / dx))) by (unfold Rdiv; ring).
  destruct (base_Int_part (s * (u * (1 / dx)))). lra.
Qed.

Lemma track_tricub_kick tc p p' :
  let d := tc_data tc in
  0 < td_dx d -> 0 < td_dy d -> 0 < td_dz d ->
  track_tricub ROps tc p = Some p' ->
  exists (ix iy iz : Z) (a : nat -> R),
    let tau := p_zeta p / (p_beta0 p * p_rvv p) in
    let phi := potential tc a (p_x p) (p_y p) tau ix iy iz in
    in_cell (side (td_mirror_x d) (offset_x tc (p_x p))) (offset_x tc (p_x p)) (td_dx d) ix /\
    in_cell (side (td_mirror_y d) (offset_y tc (p_y p))) (offset_y tc (p_y p)) (td_dy d) iy /\
    in_cell (side (td_mirror_z d) (offset_z tc tau)) (offset_z tc tau) (td_dz d) iz /\
    interpolates d ix iy iz a /\
    p' = add_to_energy ROps
      (p_q0 p * p_charge_ratio p * p_p0c p *
        (- tc_length tc * Dz phi (p_x p) (p_y p) tau - tc_dipolar_kick_ptau tc))
      (set_py (p_py p - tc_length tc * Dy phi (p_x p) (p_y p) tau - tc_dipolar_kick_py tc)
      (set_px (p_px p - tc_length tc * Dx phi (p_x p) (p_y p) tau - tc_dipolar_kick_px tc) p)).
Proof.
  intros d Hx Hy Hz H.
  unfold track_tricub in H. fold d in H.
  set (tau := p_zeta p / (p_beta0 p * p_rvv p)).
  rops. fold tau in H.
  change (p_x p - tc_x_shift tc - td_x0 d) with (offset_x tc (p_x p)) in H.
  change (p_y p - tc_y_shift tc - td_y0 d) with (offset_y tc (p_y p)) in H.
  change (tau - tc_tau_shift tc - td_z0 d) with (offset_z tc tau) in H.
  rewrite !mirror_side in H by auto.
  set (sx := side (td_mirror_x d) (offset_x tc (p_x p))) in *.
  set (sy := side (td_mirror_y d) (offset_y tc (p_y p))) in *.
  set (sz := side (td_mirror_z d) (offset_z tc tau)) in *.
  unfold obind in H. unfold Rfloor in H.
  destruct (RtruncZ (IZR (Int_part (sx * (offset_x tc (p_x p) * (1 / td_dx d)))))) as [ix |] eqn:Eix; [| discriminate].
  destruct (RtruncZ (IZR (Int_part (sy * (offset_y tc (p_y p) * (1 / td_dy d)))))) as [iy |] eqn:Eiy; [| discriminate].
  destruct (RtruncZ (IZR (Int_part (sz * (offset_z tc tau * (1 / td_dz d)))))) as [iz |] eqn:Eiz; [| discriminate].
  apply trunc_IZR in Eix, Eiy, Eiz. rewrite <- Eix, <- Eiy, <- Eiz in H.
  destruct (construct_b d ix iy iz) as [b |] eqn:Eb; [| discriminate].
  rewrite kick_x, kick_y, kick_z in H.
  exists ix, iy, iz, (acoef (nthT ROps b)).
  split. { rewrite Eix. apply floor_cell. }
  split. { rewrite Eiy. apply floor_cell. }
  split. { rewrite Eiz. apply floor_cell. }
  split. { now apply interpolates_acoef. }
  rewrite pot_dx, pot_dy, pot_dz. fold d sx sy sz.
  assert (EX : forall s u sh x0 dx i, s * ((u - sh - x0) * (1 / dx)) - IZR i = cellpos s u sh x0 dx i).
  { intros. unfold cellpos, Rdiv. ring. }
  unfold offset_x, offset_y, offset_z in H. fold d in H.
  rewrite !EX in H.
  change (fun n => nth n (construct_coefs ROps (nthT ROps b)) 0) with (acoef (nthT ROps b)) in H.
  match type of H with Some ?q = Some _ => assert (E : p' = q) by congruence end.
  rewrite E. clear H E. pfields. f_equal.
  - unfold Rdiv. ring.
  - f_equal; [unfold Rdiv; ring |]. f_equal. unfold Rdiv; ring.
Qed.

(** ** Definedness *)

Lemma arr_some {A} (l : list A) i : (0 <= i < Z.of_nat (length l))%Z -> Interp.arr_at l i <> None.
Proof.
  intros H. unfold Interp.arr_at. destruct (Z.ltb_spec i 0); [lia |].
  intro E. apply nth_error_None in E. lia.
Qed.

Lemma construct_b_some (d : tricub_data R) ix iy iz : length (td_table d) = Z.to_nat (8 * td_nx d * td_ny d * td_nz d) ->
  (0 <= ix < td_nx d - 1)%Z -> (0 <= iy < td_ny d - 1)%Z -> (0 <= iz < td_nz d - 1)%Z ->
  exists b, construct_b d ix iy iz = Some b.
Proof.
  intros L Hx Hy Hz. apply sequence_some. intros o Ho.
  apply in_flat_map in Ho as [l [Hl Ho]]. apply in_seq in Hl.
  apply in_map_iff in Ho as [[[cx cy] cz] [<- Hc]].
  assert (C : (0 <= cx <= 1 /\ 0 <= cy <= 1 /\ 0 <= cz <= 1)%Z).
  { cbn [corners In] in Hc. repeat destruct Hc as [Hc | Hc]; inversion Hc; lia. }
  apply arr_some. rewrite L. unfold table_index.
  set (X := (ix + cx)%Z). set (Y := (iy + cy)%Z). set (Z0 := (iz + cz)%Z).
  assert (0 <= X <= td_nx d - 1)%Z by (unfold X; lia).
  assert (0 <= Y <= td_ny d - 1)%Z by (unfold Y; lia).
  assert (0 <= Z0 <= td_nz d - 1)%Z by (unfold Z0; lia).
  set (nx := td_nx d) in *. set (ny := td_ny d) in *. set (nz := td_nz d) in *.
  assert (0 <= Y + ny * Z0 <= ny * nz - 1)%Z by nia.
  set (W := (Y + ny * Z0)%Z) in *.
  assert (0 <= X + nx * W <= nx * (ny * nz) - 1)%Z by nia.
  rewrite Z2Nat.id by nia. lia.
Qed.

Lemma Int_part_range u n : 0 <= u < IZR n -> (0 <= Int_part u < n)%Z.
Proof.
  intros [H1 H2]. destruct (base_Int_part u) as [B1 B2]. split.
  - assert (IZR (Int_part u) > -1) by lra. change (-1) with (IZR (-1)) in H. apply Rgt_lt, lt_IZR in H. lia.
  - apply lt_IZR. lra.
Qed.

Lemma track_tricub_defined tc p :
  let d := tc_data tc in
  let tau := p_zeta p / (p_beta0 p * p_rvv p) in
  0 < td_dx d -> 0 < td_dy d -> 0 < td_dz d ->
  (td_nx d <= 2 ^ 63)%Z -> (td_ny d <= 2 ^ 63)%Z -> (td_nz d <= 2 ^ 63)%Z ->
  length (td_table d) = Z.to_nat (8 * td_nx d * td_ny d * td_nz d) ->
  inside (td_mirror_x d) (offset_x tc (p_x p)) (td_dx d) (td_nx d) ->
  inside (td_mirror_y d) (offset_y tc (p_y p)) (td_dy d) (td_ny d) ->
  inside (td_mirror_z d) (offset_z tc tau) (td_dz d) (td_nz d) ->
  exists p', track_tricub ROps tc p = Some p'.
Proof.
  intros d tau Hx Hy Hz Nx Ny Nz L Ix Iy Iz.
  unfold track_tricub. fold d. rops. fold tau.
  change (p_x p - tc_x_shift tc - td_x0 d) with (offset_x tc (p_x p)).
  change (p_y p - tc_y_shift tc - td_y0 d) with (offset_y tc (p_y p)).
  change (tau - tc_tau_shift tc - td_z0 d) with (offset_z tc tau).
  rewrite !mirror_side by auto.
  assert (G : forall m u dx n, 0 < dx -> inside m u dx n ->
    (0 <= Int_part (side m u * (u * (1 / dx))) < n - 1)%Z).
  { intros m u dx n Hd [I1 I2]. apply Int_part_range.
    replace (side m u * (u * (1 / dx))) with ((side m u * u) / dx) by (unfold Rdiv; ring).
    assert (0 < / dx) by now apply Rinv_0_lt_compat. unfold Rdiv. split.
    - apply Rmult_le_pos; lra.
    - apply Rmult_lt_reg_r with dx; [lra |].
      rewrite Rmult_assoc, Rinv_l by lra. lra. }
  pose proof (G _ _ _ _ Hx Ix) as Gx. pose proof (G _ _ _ _ Hy Iy) as Gy.
  pose proof (G _ _ _ _ Hz Iz) as Gz.
  unfold Rfloor. rewrite !trunc_some by lia. cbn [obind].
  match goal with |- context [construct_b d ?i ?j ?k] =>
    destruct (construct_b_some d i j k L Gx Gy Gz) as [b Eb] end.
  rewrite Eb. cbn [obind]. eauto.
Qed.

(** ** The interpolating polynomial is unique. *)

Lemma lc_ev a ws : forall k, map fst ws = seq k (length ws) ->
  lc a ws = ev (map snd ws) (fun m => a (k + m)%nat).
Proof.
  induction ws as [| [n w] r IH]; intros k H; cbn [lc map ev length seq fst snd] in *; [reflexivity |].
  assert (n = k) as -> by congruence.
  rewrite (IH (S k)) by congruence. rewrite Nat.add_0_r.
  replace (ev (map snd r) (fun m => a (S k + m)%nat)) with (ev (map snd r) (fun m => a (k + S m)%nat)).
  - ring.
  - apply ev_ext. intros m _. f_equal. lia.
Qed.

Definition corner_row (m : nat) : list Z :=
  let l := (m / 8)%nat in
  let c := (m mod 8)%nat in
  map snd (cw (qx l) (qy l) (qz l) (Z.of_nat (bit c 0)) (Z.of_nat (bit c 1)) (Z.of_nat (bit c 2))).

Fixpoint rows (v : list Z) (m : nat) : list Z :=
  match v with
  | [] => vzero
  | z :: r => vadd (vscale z (corner_row m)) (rows r (S m))
  end.

Lemma corner_row_length m : length (corner_row m) = 64%nat.
Proof. unfold corner_row. rewrite map_length. reflexivity. Qed.

Lemma rows_ok a v : forall k, length (rows v k) = 64%nat /\
  ev v (fun m => ev (corner_row (k + m)) a) = ev (rows v k) a.
Proof.
  induction v as [| z r IH]; intro k; cbn [rows ev].
  - split; [apply repeat_length |]. symmetry. apply ev_zero.
  - destruct (IH (S k)) as [L E]. split.
    + rewrite vadd_length; rewrite vscale_length, corner_row_length; congruence.
    + rewrite ev_vadd by (rewrite vscale_length, corner_row_length; congruence).
      rewrite ev_vscale, <- E, Nat.add_0_r. f_equal.
      apply ev_ext. intros m _. now rewrite Nat.add_succ_r.
Qed.

Lemma inverse_checked : map (fun v => rows v 0) Mat = map unit_vec (seq 0 64).
Proof. vm_compute. reflexivity. Qed.

Lemma corner_data a m :
  let l := (m / 8)%nat in
  let c := (m mod 8)%nat in
  P a (qx l) (qy l) (qz l) (INR (bit c 0)) (INR (bit c 1)) (INR (bit c 2)) = ev (corner_row m) a.
Proof.
  intros l c. rewrite !INR_IZR_INZ, P_cw. rewrite (lc_ev a _ 0); [reflexivity | reflexivity].
Qed.

Lemma unique a b : (forall l c, (l < 8)%nat -> (c < 8)%nat ->
    P a (qx l) (qy l) (qz l) (INR (bit c 0)) (INR (bit c 1)) (INR (bit c 2)) = b (8 * l + c)%nat) ->
  forall n, (n < 64)%nat -> a n = acoef b n.
Proof.
  intros H n Hn. destruct (coef_row b n Hn) as [-> L].
  rewrite (ev_ext _ b (fun m => ev (corner_row (0 + m)) a)).
  - destruct (rows_ok a (nth n Mat []) 0) as [_ ->].
    assert (E : rows (nth n Mat []) 0 = unit_vec n).
    { pose proof (map_nth (fun v => rows v 0) Mat [] n) as M. cbn beta in M. rewrite <- M.
      rewrite inverse_checked.
      rewrite nth_indep with (d' := unit_vec 0) by (rewrite map_length, seq_length; lia).
      rewrite map_nth, seq_nth by lia. reflexivity. }
    rewrite E. now rewrite ev_unit.
  - intros m Hm.
    assert (Lm : (m < 64)%nat).
    { destruct (Nat.lt_ge_cases m 64) as [|G]; auto. now rewrite nth_overflow in Hm by lia. }
    cbn [Nat.add]. rewrite <- corner_data.
    rewrite H by (try apply Nat.mod_upper_bound; try apply Nat.div_lt_upper_bound; lia).
    f_equal. apply Nat.div_mod. lia.
Qed.

Lemma tripoly_ext a a' : (forall n, (n < 64)%nat -> a n = a' n) ->
  forall dx dy dz x y z, P a dx dy dz x y z = P a' dx dy dz x y z.
Proof.
  intros H dx dy dz x y z. unfold P.
  apply big_ext4. intros k Hk. apply big_ext4. intros j Hj. apply big_ext4. intros i Hi.
  rewrite H by lia. reflexivity.
Qed.

(** The data of a cell as a vector. *)
Definition data (d : tricub_data R) (ix iy iz : Z) (m : nat) : R :=
  let c := (m mod 8)%nat in
  match grid d (m / 8) (ix + Z.of_nat (bit c 0)) (iy + Z.of_nat (bit c 1)) (iz + Z.of_nat (bit c 2)) with
  | Some v => v
  | None => 0
  end.

Lemma interpolates_data d ix iy iz a : interpolates d ix iy iz a ->
  forall n, (n < 64)%nat -> a n = acoef (data d ix iy iz) n.
Proof.
  intro H. apply unique. intros l c Hl Hc.
  specialize (H l c Hl Hc). rewrite quantity_P in H by auto.
  unfold data.
  replace ((8 * l + c) / 8)%nat with l
    by (rewrite (Nat.mul_comm 8), Nat.div_add_l, (Nat.div_small c) by lia; lia).
  replace ((8 * l + c) mod 8)%nat with c
    by (rewrite (Nat.mul_comm 8), Nat.add_comm, Nat.mod_add by lia; symmetry; apply Nat.mod_small; lia).
  rewrite H. reflexivity.
Qed.

Lemma interpolates_unique d ix iy iz a a' : interpolates d ix iy iz a -> interpolates d ix iy iz a' ->
  forall n, (n < 64)%nat -> a n = a' n.
Proof.
  intros H H' n Hn. rewrite (interpolates_data _ _ _ _ _ H n Hn).
  symmetry. now apply interpolates_data.
Qed.

Lemma data_shift d ix iy iz :
  (forall m, (m < 64)%nat -> (m / 1) mod 2 = 0%nat -> data d (ix + 1) iy iz m = data d ix iy iz (1 + m)%nat) /\
  (forall m, (m < 64)%nat -> (m / 2) mod 2 = 0%nat -> data d ix (iy + 1) iz m = data d ix iy iz (2 + m)%nat) /\
  (forall m, (m < 64)%nat -> (m / 4) mod 2 = 0%nat -> data d ix iy (iz + 1) m = data d ix iy iz (4 + m)%nat).
Proof.
  assert (G : forall s m i j k i' j' k', (m < 64)%nat ->
    ((s + m) / 8 = m / 8)%nat ->
    (i' + Z.of_nat (bit (m mod 8) 0) = i + Z.of_nat (bit ((s + m) mod 8) 0))%Z ->
    (j' + Z.of_nat (bit (m mod 8) 1) = j + Z.of_nat (bit ((s + m) mod 8) 1))%Z ->
    (k' + Z.of_nat (bit (m mod 8) 2) = k + Z.of_nat (bit ((s + m) mod 8) 2))%Z ->
    data d i' j' k' m = data d i j k (s + m)%nat).
  { intros s m i j k i' j' k' _ E0 E1 E2 E3. unfold data. rewrite E0, E1, E2, E3. reflexivity. }
  assert (B : forall m, (m < 64)%nat -> In m (seq 0 64)) by (intros; apply in_seq; lia).
  assert (C : forall s, In s [1;2;4]%nat ->
    forallb (fun m => negb (Nat.eqb ((m / s) mod 2) 0) ||
     (Nat.eqb ((s + m) / 8) (m / 8) &&
      Nat.eqb (bit ((s + m) mod 8) 0) (bit (m mod 8) 0 + (if Nat.eqb s 1 then 1 else 0)) &&
      Nat.eqb (bit ((s + m) mod 8) 1) (bit (m mod 8) 1 + (if Nat.eqb s 2 then 1 else 0)) &&
      Nat.eqb (bit ((s + m) mod 8) 2) (bit (m mod 8) 2 + (if Nat.eqb s 4 then 1 else 0)))) (seq 0 64) = true).
  { intros s Hs. cbn [In] in Hs. destruct Hs as [<- | [<- | [<- | []]]]; vm_compute; reflexivity. }
  assert (D : forall s m, In s [1;2;4]%nat -> (m < 64)%nat -> (m / s) mod 2 = 0%nat ->
     ((s + m) / 8 = m / 8 /\
      bit ((s + m) mod 8) 0 = bit (m mod 8) 0 + (if Nat.eqb s 1 then 1 else 0) /\
      bit ((s + m) mod 8) 1 = bit (m mod 8) 1 + (if Nat.eqb s 2 then 1 else 0) /\
      bit ((s + m) mod 8) 2 = bit (m mod 8) 2 + (if Nat.eqb s 4 then 1 else 0))%nat).
  { intros s m Hs Hm E. specialize (C s Hs). rewrite forallb_forall in C. specialize (C m (B m Hm)).
    rewrite E in C. cbn [Nat.eqb negb orb] in C.
    apply andb_prop in C as [C C3]. apply andb_prop in C as [C C2]. apply andb_prop in C as [C0 C1].
    apply Nat.eqb_eq in C0, C1, C2, C3. auto. }
  split; [| split]; intros m Hm E.
  - destruct (D 1%nat m ltac:(cbn; auto) Hm E) as [D0 [D1 [D2 D3]]]. cbn [Nat.eqb] in *.
    apply G; auto; rewrite ?D1, ?D2, ?D3; lia.
  - destruct (D 2%nat m ltac:(cbn; auto) Hm E) as [D0 [D1 [D2 D3]]]. cbn [Nat.eqb] in *.
    apply G; auto; rewrite ?D1, ?D2, ?D3; lia.
  - destruct (D 4%nat m ltac:(cbn; auto) Hm E) as [D0 [D1 [D2 D3]]]. cbn [Nat.eqb] in *.
    apply G; auto; rewrite ?D1, ?D2, ?D3; lia.
Qed.

Lemma q_lt l : (qx l < 2 /\ qy l < 2 /\ qz l < 2)%nat.
Proof. destruct l as [|[|[|[|[|[|[|[|[|l]]]]]]]]]; cbn; lia. Qed.

Lemma neighbours d ix iy iz a a' l u v : (l < 8)%nat -> interpolates d ix iy iz a ->
  (interpolates d (ix + 1) iy iz a' -> quantity l (tripoly a) 1 u v = quantity l (tripoly a') 0 u v) /\
  (interpolates d ix (iy + 1) iz a' -> quantity l (tripoly a) u 1 v = quantity l (tripoly a') u 0 v) /\
  (interpolates d ix iy (iz + 1) a' -> quantity l (tripoly a) u v 1 = quantity l (tripoly a') u v 0).
Proof.
  intros Hl H. destruct (data_shift d ix iy iz) as [S1 [S2 S3]]. destruct (q_lt l) as [Q1 [Q2 Q3]].
  split; [| split]; intro H'; rewrite !quantity_P by auto;
    rewrite (tripoly_ext _ _ (interpolates_data _ _ _ _ _ H));
    rewrite (tripoly_ext _ _ (interpolates_data _ _ _ _ _ H')).
  - now apply face_x.
  - now apply face_y.
  - now apply face_z.
Qed.

Lemma in_cell_Int_part s u dx i : in_cell s u dx i -> Int_part (s * (u * (1 / dx))) = i.
Proof.
  unfold in_cell. replace (s * u / dx) with (s * (u * (1 / dx))) by (unfold Rdiv; ring).
  set (w := s * (u * (1 / dx))). intros [H1 H2]. destruct (base_Int_part w) as [B1 B2].
  assert (L1 : IZR i < IZR (Int_part w) + 1) by lra.
  assert (L2 : IZR (Int_part w) < IZR i + 1) by lra.
  rewrite <- plus_IZR in L1, L2. apply lt_IZR in L1, L2. lia.
Qed.

Lemma track_tricub_some tc p ix iy iz :
  let d := tc_data tc in
  let tau := p_zeta p / (p_beta0 p * p_rvv p) in
  0 < td_dx d -> 0 < td_dy d -> 0 < td_dz d ->
  in_cell (side (td_mirror_x d) (offset_x tc (p_x p))) (offset_x tc (p_x p)) (td_dx d) ix ->
  in_cell (side (td_mirror_y d) (offset_y tc (p_y p))) (offset_y tc (p_y p)) (td_dy d) iy ->
  in_cell (side (td_mirror_z d) (offset_z tc tau)) (offset_z tc tau) (td_dz d) iz ->
  (Z.abs ix < 2 ^ 63)%Z -> (Z.abs iy < 2 ^ 63)%Z -> (Z.abs iz < 2 ^ 63)%Z ->
  construct_b d ix iy iz <> None -> exists p', track_tricub ROps tc p = Some p'.
Proof.
  intros d tau Hx Hy Hz Cx Cy Cz Nx Ny Nz B.
  apply in_cell_Int_part in Cx, Cy, Cz.
  unfold track_tricub. fold d. rops. fold tau.
  change (p_x p - tc_x_shift tc - td_x0 d) with (offset_x tc (p_x p)).
  change (p_y p - tc_y_shift tc - td_y0 d) with (offset_y tc (p_y p)).
  change (tau - tc_tau_shift tc - td_z0 d) with (offset_z tc tau).
  rewrite !mirror_side by auto. unfold Rfloor. rewrite Cx, Cy, Cz.
  rewrite !trunc_some by lia. cbn [obind].
  destruct (construct_b d ix iy iz) as [b |]; [cbn [obind]; eauto | contradiction].
Qed.
