From Coq Require Import Ascii String ZArith Bool List Lia.
From Verif Require Import Tac NodeId NodeIdSpec.
Import ListNotations.
Local Open Scope Z_scope.

Lemma ten_cases : forall k, 0 <= k <= 9 ->
  k = 0 \/ k = 1 \/ k = 2 \/ k = 3 \/ k = 4 \/ k = 5 \/ k = 6 \/ k = 7 \/ k = 8 \/ k = 9.
Proof. intros. lia. Qed.

Lemma digit_ok : forall k, 0 <= k <= 9 -> digit_of (digit k) k.
Proof.
  intros k H. split; auto. apply ten_cases in H.
  repeat (destruct H as [->|H]; [reflexivity|]). subst. reflexivity.
Qed.

Lemma digit_of_is : forall a k, digit_of a k -> is_digit a = true /\ digit_val a = k.
Proof.
  intros a k [H E]. unfold is_digit, digit_val. rewrite E. split; [|lia].
  apply andb_true_iff. split; apply Z.leb_le; lia.
Qed.

Lemma digit_of_not_space : forall a k, digit_of a k -> is_space a = false.
Proof.
  intros a k [H E]. unfold is_space. rewrite E. apply orb_false_iff. split; [apply Z.eqb_neq; lia|].
  apply andb_false_iff. right. apply Z.leb_gt. lia.
Qed.

Lemma digit_inj : forall a k, digit_of a k -> a = digit k.
Proof.
  intros a k [H E]. unfold digit. rewrite <- E. rewrite N2Z.id. symmetry. apply ascii_N_embedding.
Qed.

Lemma digit_0 : forall k, 0 <= k <= 9 -> digit k = "0"%char -> k = 0.
Proof.
  intros k H. apply ten_cases in H. repeat (destruct H as [->|H]; [intros E; try reflexivity; discriminate E|]). subst. discriminate.
Qed.

Definition all_digits (s : chars) : Prop := Forall (fun a => is_digit a = true) s.

Lemma denotes_digits : forall s v, denotes s v -> all_digits s /\ s <> [] /\ 0 <= v.
Proof.
  induction 1.
  - destruct (digit_of_is _ _ H). destruct H. split; [repeat constructor; auto|]. split; [discriminate|lia].
  - destruct IHdenotes as (A & B & C). destruct (digit_of_is _ _ H0). destruct H0.
    split; [apply Forall_app; split; auto; repeat constructor; auto|].
    split; [intros E; apply app_eq_nil in E; destruct E; discriminate|lia].
Qed.

Lemma read_digits_app : forall ds acc r, all_digits ds ->
  read_digits (ds ++ r) acc = read_digits r (fst (read_digits ds acc)) .
Proof.
  induction ds as [|a ds IH]; intros acc r H; [reflexivity|]. apply Forall_cons_iff in H as [Ha H].
  cbn [app read_digits]. rewrite Ha. apply IH. exact H.
Qed.

Definition no_digit (r : chars) : Prop := match r with a :: _ => is_digit a = false | [] => True end.

Lemma read_stop : forall r acc, no_digit r -> read_digits r acc = (acc, r).
Proof. intros [|a r] acc H; [reflexivity|]. cbn in *. rewrite H. reflexivity. Qed.

Lemma read_denotes : forall s v, denotes s v -> fst (read_digits s 0) = v.
Proof.
  induction 1.
  - destruct (digit_of_is _ _ H) as [A B]. cbn [read_digits]. rewrite A, B. cbn [fst]. lia.
  - destruct (digit_of_is _ _ H0) as [A B]. destruct (denotes_digits _ _ H) as (D & _ & _).
    rewrite read_digits_app by auto. rewrite IHdenotes. cbn [read_digits]. rewrite A, B. reflexivity.
Qed.

Lemma read_all : forall s v r, denotes s v -> no_digit r -> read_digits (s ++ r) 0 = (v, r).
Proof.
  intros s v r H Hr. destruct (denotes_digits _ _ H) as (D & _ & _).
  rewrite read_digits_app by auto. rewrite (read_denotes _ _ H). apply read_stop. auto.
Qed.

Lemma digits_spec : forall f n acc, 0 <= n < 10 ^ Z.of_nat f -> (0 < f)%nat ->
  exists ds, digits f n acc = ds ++ acc /\ denotes ds n /\ (hd "0"%char ds = "0"%char -> ds = ["0"%char]).
Proof.
  induction f as [|f IH]; intros n acc Hn Hf; [lia|]. cbn [digits]. destruct (n <? 10) eqn:E.
  - apply Z.ltb_lt in E. exists [digit n]. split; [reflexivity|]. split; [constructor; apply digit_ok; lia|].
    cbn [hd]. intros ->. reflexivity.
  - apply Z.ltb_ge in E.
    assert (Hdiv : n = 10 * (n / 10) + n mod 10) by (apply Z.div_mod; lia).
    pose proof (Z.mod_pos_bound n 10 ltac:(lia)) as Hmod.
    assert (Hf' : (0 < f)%nat). { destruct f; [|lia]. change (10 ^ Z.of_nat 1) with 10 in Hn. lia. }
    destruct (IH (n / 10) (digit (n mod 10) :: acc)) as (ds & E1 & D & Z0).
    { split; [apply Z.div_pos; lia|]. apply Z.div_lt_upper_bound; [lia|].
      replace (10 * 10 ^ Z.of_nat f) with (10 ^ Z.of_nat (S f)); [lia|]. rewrite Nat2Z.inj_succ, Z.pow_succ_r by lia. reflexivity. }
    { exact Hf'. }
    exists (ds ++ [digit (n mod 10)]). split; [rewrite E1, <- app_assoc; reflexivity|].
    split; [rewrite Hdiv at 2; constructor; [exact D|apply digit_ok; lia]|].
    intros H. exfalso. destruct (denotes_digits _ _ D) as (_ & Ne & _). destruct ds as [|a ds]; [congruence|].
    cbn [app hd] in H. specialize (Z0 H). injection Z0 as -> ->.
    assert (0 < n / 10) by (apply Z.div_str_pos; lia).
    inversion D as [a k Hk|s v a k Hs Hk Ea]; subst.
    + destruct Hk as [_ Hk]. change (Z.of_N (N_of_ascii "0")) with 48 in Hk. lia.
    + destruct (denotes_digits _ _ Hs) as (_ & Ne' & _). destruct s; [congruence|]. cbn in Ea. injection Ea as _ Ea.
      destruct s; discriminate.
Qed.

Lemma print_nat_spec : forall n, 0 <= n ->
  denotes (print_nat n) n /\ (hd "0"%char (print_nat n) = "0"%char -> print_nat n = ["0"%char]).
Proof.
  intros n Hn. unfold print_nat. destruct (digits_spec (S (Z.to_nat (Z.log2 n))) n []) as (ds & E & D & Z0); [|lia|].
  - split; auto. rewrite Nat2Z.inj_succ, Z2Nat.id by apply Z.log2_nonneg.
    destruct (Z.eq_dec n 0) as [->|]; [reflexivity|].
    apply Z.lt_le_trans with (2 ^ Z.succ (Z.log2 n)); [apply Z.log2_spec; lia|].
    apply Z.pow_le_mono_l. lia.
  - rewrite E, app_nil_r. auto.
Qed.

Lemma print_int_canonical : forall z, canonical (print_int z) z.
Proof.
  intros z. unfold print_int. destruct (z <? 0) eqn:E.
  - apply Z.ltb_lt in E. destruct (print_nat_spec (- z)) as [D Z0]; [lia|].
    exists ["-"%char], (print_nat (- z)). split; [reflexivity|]. rewrite Z.abs_neq by lia. rewrite (proj2 (Z.ltb_lt z 0)) by lia. auto.
  - apply Z.ltb_ge in E. destruct (print_nat_spec z) as [D Z0]; [lia|].
    exists [], (print_nat z). split; [reflexivity|]. rewrite Z.abs_eq by lia. rewrite (proj2 (Z.ltb_ge z 0)) by lia. auto.
Qed.

Lemma scan_canonical : forall s z r, canonical s z -> int64 z -> no_digit r -> scan_lld (s ++ r) = Scanned z r.
Proof.
  intros s z r (sign & ds & -> & D & -> & _) Hz Hr.
  destruct (denotes_digits _ _ D) as (A & Ne & _). unfold scan_lld. rewrite <- app_assoc.
  destruct ds as [|a ds]; [congruence|]. pose proof A as A'. apply Forall_cons_iff in A' as [Ha _].
  assert (Hs : is_space a = false).
  { unfold is_digit in Ha. apply andb_true_iff in Ha as [Ha1 Ha2]. apply Z.leb_le in Ha1, Ha2.
    unfold is_space. apply orb_false_iff. split; [apply Z.eqb_neq; lia|]. apply andb_false_iff. right. apply Z.leb_gt. lia. }
  assert (Hm : a <> "-"%char) by (intros ->; discriminate Ha).
  assert (Hp : a <> "+"%char) by (intros ->; discriminate Ha).
  destruct (z <? 0) eqn:E.
  - apply Z.ltb_lt in E. cbn [app skip_space]. change (is_space "-") with false. cbv iota beta.
    cbn [app]. rewrite Ha.
    change (a :: ds ++ r) with ((a :: ds) ++ r). rewrite (read_all _ _ _ D Hr).
    rewrite Z.abs_neq by lia. replace (- - z) with z by lia.
    unfold int64 in Hz. rewrite (proj2 (Z.leb_le _ _)) by lia. rewrite (proj2 (Z.ltb_lt _ _)) by lia. reflexivity.
  - apply Z.ltb_ge in E. cbn [app skip_space]. rewrite Hs.
    assert (M : match a :: ds ++ r with
                | "-"%char :: t => (true, t)
                | "+"%char :: t => (false, t)
                | _ => (false, a :: ds ++ r)
                end = (false, a :: ds ++ r)).
    { destruct a as [[] [] [] [] [] [] [] []]; try reflexivity; exfalso; auto. }
    rewrite M. rewrite Ha. change (a :: ds ++ r) with ((a :: ds) ++ r). rewrite (read_all _ _ _ D Hr).
    rewrite Z.abs_eq by lia. unfold int64 in Hz. rewrite (proj2 (Z.leb_le _ _)) by lia. rewrite (proj2 (Z.ltb_lt _ _)) by lia. reflexivity.
Qed.

Lemma canonical_nonempty : forall s z, canonical s z -> s <> [].
Proof.
  intros s z (sign & ds & -> & D & _) E. apply app_eq_nil in E as [_ E]. destruct (denotes_digits _ _ D) as (_ & Ne & _). congruence.
Qed.

(* every canonical text of two ids, with anything that is no digit behind it, is read back *)
Lemma from_string_canonical : forall sp sd p d r n, canonical sp p -> canonical sd d -> int64 p -> int64 d -> no_digit r ->
  from_string (sp ++ "."%char :: sd ++ r) n =
    if negb (p =? -1) && negb (d =? -1) then Some (mkNode p d (n_index n), 0) else Some (n, -1).
Proof.
  intros sp sd p d r n Cp Cd Hp Hd Hr. unfold from_string.
  destruct (sp ++ "."%char :: sd ++ r) as [|a l] eqn:E; [destruct sp; discriminate|]. rewrite <- E.
  rewrite (scan_canonical sp p ("."%char :: sd ++ r) Cp Hp) by reflexivity.
  rewrite (scan_canonical sd d r Cd Hd Hr). reflexivity.
Qed.

Lemma from_text : forall p d i n, int64 p -> int64 d ->
  from_string (text (mkNode p d i)) n =
    if negb (p =? -1) && negb (d =? -1) then Some (mkNode p d (n_index n), 0) else Some (n, -1).
Proof.
  intros p d i n Hp Hd. unfold text. cbn [n_platform n_device].
  rewrite <- (app_nil_r (print_int d)).
  apply from_string_canonical; auto using print_int_canonical. exact Logic.I.
Qed.

(* no NUL in the text *)
Lemma digits_no_nul : forall s, all_digits s -> Forall (fun a => Ascii.eqb a nul = false) s.
Proof.
  intros s H. eapply Forall_impl; [|exact H]. intros a Ha. apply Ascii.eqb_neq. intros ->. discriminate Ha.
Qed.

Lemma canonical_no_nul : forall s z, canonical s z -> Forall (fun a => Ascii.eqb a nul = false) s.
Proof.
  intros s z (sign & ds & -> & D & -> & _). apply Forall_app. split.
  - destruct (z <? 0); [repeat constructor|constructor].
  - apply digits_no_nul. apply (denotes_digits _ _ D).
Qed.

Lemma text_no_nul : forall n, Forall (fun a => Ascii.eqb a nul = false) (text n).
Proof.
  intros n. unfold text. apply Forall_app. split; [apply (canonical_no_nul _ _ (print_int_canonical _))|].
  constructor; [reflexivity|]. apply (canonical_no_nul _ _ (print_int_canonical _)).
Qed.

Lemma c_string_app : forall s r, Forall (fun a => Ascii.eqb a nul = false) s -> c_string (s ++ nul :: r) = Some s.
Proof.
  induction s as [|a s IH]; intros r H; [reflexivity|]. apply Forall_cons_iff in H as [Ha H].
  cbn [app c_string]. rewrite Ha, IH by auto. reflexivity.
Qed.

Lemma skipn_zeros : forall k m, (k < m)%nat -> skipn k (repeat nul m) = nul :: repeat nul (m - k - 1).
Proof.
  induction k as [|k IH]; intros m H; destruct m as [|m]; try lia.
  - cbn [skipn repeat]. f_equal. f_equal. lia.
  - cbn [skipn repeat]. rewrite IH by lia. f_equal.
Qed.

Lemma to_int32_id : forall z, - 2 ^ 31 <= z < 2 ^ 31 -> to_int32 z = z.
Proof. intros z H. unfold to_int32. rewrite Z.mod_small; lia. Qed.

Lemma to_int32_range : forall z, - 2 ^ 31 <= to_int32 z < 2 ^ 31.
Proof. intros z. unfold to_int32. pose proof (Z.mod_pos_bound (z + 2 ^ 31) (2 ^ 32) ltac:(reflexivity)). lia. Qed.

Lemma short_text_small : forall n, - 2 ^ 31 <= n_platform n < 2 ^ 31 -> - 2 ^ 31 <= n_device n < 2 ^ 31 ->
  short_text n = text n.
Proof. intros. unfold short_text, text. rewrite !to_int32_id by auto. reflexivity. Qed.

Lemma snprintf_fits : forall b size s, Z.of_nat (length s) < size -> 
  exists r, snprintf b size s = s ++ nul :: r.
Proof.
  intros b size s H. unfold snprintf. rewrite (proj2 (Z.leb_gt size 0)) by lia.
  rewrite firstn_all2 by lia. cbv zeta. rewrite <- app_assoc. eexists. reflexivity.
Qed.

(* the regular expression *)
Lemma span_digits_app : forall ds r, all_digits ds -> no_digit r -> span_digits (ds ++ r) = (ds, r).
Proof.
  induction ds as [|a ds IH]; intros r H Hr.
  - cbn [app]. destruct r as [|a r]; [reflexivity|]. cbn in *. rewrite Hr. reflexivity.
  - apply Forall_cons_iff in H as [Ha H]. cbn [app span_digits]. rewrite Ha, IH by auto. reflexivity.
Qed.

Lemma skip_digits : forall ds r, all_digits ds -> ds <> [] -> skip_space (ds ++ r) = ds ++ r.
Proof.
  intros [|a ds] r H Ne; [congruence|]. apply Forall_cons_iff in H as [Ha H]. cbn [app skip_space].
  destruct (is_space a) eqn:E; auto. exfalso. unfold is_digit, is_space in *.
  apply andb_true_iff in Ha as [H1 H2]. apply Z.leb_le in H1, H2.
  apply orb_true_iff in E as [E|E]; [apply Z.eqb_eq in E; lia|]. apply andb_true_iff in E as [_ E]. apply Z.leb_le in E. lia.
Qed.

Lemma extract_digits : forall d1 d2 r, all_digits d1 -> d1 <> [] -> all_digits d2 -> d2 <> [] -> no_digit r ->
  forallb tail_char r = true -> extract (d1 ++ "."%char :: d2 ++ r) = d1 ++ "."%char :: d2.
Proof.
  intros d1 d2 r A1 N1 A2 N2 Hr T. unfold extract. rewrite skip_digits by auto.
  rewrite span_digits_app by (auto; reflexivity). destruct d1 as [|a d1]; [congruence|].
  rewrite span_digits_app by auto. destruct d2; [congruence|]. rewrite T. reflexivity.
Qed.

Lemma skip_space_app : forall w r, Forall (fun a => is_space a = true) w -> skip_space (w ++ r) = skip_space r.
Proof.
  induction w as [|a w IH]; intros r H; [reflexivity|]. apply Forall_cons_iff in H as [Ha H]. cbn [app skip_space]. rewrite Ha. auto.
Qed.
