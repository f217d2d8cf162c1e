(* Reading the caller's memory and storing the bytes of an object. *)
From Coq Require Import ZArith List Bool Lia.
From Verif Require Import MBuf Alignment MemPool Buffer BufferSpec MBufSpec MBufMem MBufAbs MBufRemap
  MBufReserve MBufInit BufferProofs BufferReserve.
Import ListNotations.
Local Open Scope Z_scope.

Lemma words_of_bounds n : 0 <= n -> 0 <= words_of n /\ n <= 8 * words_of n < n + 8.
Proof. intros. unfold words_of. pose proof (Z.div_mod (n + 7) 8). pose proof (Z.mod_pos_bound (n + 7) 8). lia. Qed.

Lemma words_of_div n : 0 <= n -> words_of n = n / 8 + (if n mod 8 =? 0 then 0 else 1).
Proof.
  intros. unfold words_of. pose proof (Z.div_mod (n + 7) 8). pose proof (Z.mod_pos_bound (n + 7) 8).
  pose proof (Z.div_mod n 8). pose proof (Z.mod_pos_bound n 8).
  destruct (Z.eqb_spec (n mod 8) 0); lia.
Qed.

Lemma slot_based_ok n : 0 <= n -> 8 * words_of n < 2 ^ 64 -> slot_based n = 8 * words_of n.
Proof.
  intros H H2. unfold slot_based. rewrite words_of_div in * by assumption.
  pose proof (Z.div_mod n 8). pose proof (Z.mod_pos_bound n 8).
  destruct (Z.eqb_spec (n mod 8) 0); [lia|]. rewrite u64_id by lia. lia.
Qed.

Lemma byte_mod x r j : 0 <= j < r -> x mod 256 ^ r / 256 ^ j mod 256 = x / 256 ^ j mod 256.
Proof.
  intros H. assert (P : 0 < 256 ^ j) by (apply Z.pow_pos_nonneg; lia).
  assert (E : 256 ^ r = 256 ^ (r - j - 1) * 256 * 256 ^ j).
  { rewrite <- (Z.pow_1_r 256) at 3. rewrite <- !Z.pow_add_r by lia. f_equal. lia. }
  assert (Pr : 0 < 256 ^ r) by (apply Z.pow_pos_nonneg; lia).
  pose proof (Z.div_mod x (256 ^ r) ltac:(lia)) as D. rewrite D at 2.
  set (q := x / 256 ^ r). rewrite E at 2.
  replace (256 ^ (r - j - 1) * 256 * 256 ^ j * q + x mod 256 ^ r)
    with (256 ^ (r - j - 1) * 256 * q * 256 ^ j + x mod 256 ^ r) by ring.
  rewrite Z.div_add_l by lia.
  replace (256 ^ (r - j - 1) * 256 * q + x mod 256 ^ r / 256 ^ j)
    with (x mod 256 ^ r / 256 ^ j + (256 ^ (r - j - 1) * q) * 256) by ring.
  now rewrite Z.mod_add by lia.
Qed.

Lemma merge_mod old w r : 0 <= r -> (old / 256 ^ r * 256 ^ r + w mod 256 ^ r) mod 256 ^ r = w mod 256 ^ r.
Proof.
  intros H. assert (Pr : 0 < 256 ^ r) by (apply Z.pow_pos_nonneg; lia).
  rewrite Z.add_comm, Z.mod_add by lia. now rewrite Z.mod_mod by lia.
Qed.

(* ------------------------------------------------------------------ *)
Section Ext.
Variable e : ext_mem.

Lemma ext_word_ok k : forall a, (forall j, 0 <= j < Z.of_nat k -> exists v, e (a + j) = Some v /\ 0 <= v < 256) ->
  exists w, ext_word e a k = Some w /\ 0 <= w < 256 ^ Z.of_nat k /\
    forall j, 0 <= j < Z.of_nat k -> e (a + j) = Some (w / 256 ^ j mod 256).
Proof.
  induction k as [|k IH]; intros a H.
  - exists 0. split; [reflexivity|]. split; [cbn; lia|]. lia.
  - destruct (H 0 ltac:(lia)) as (v & Ev & Hv). rewrite Z.add_0_r in Ev.
    destruct (IH (a + 1)) as (w & Ew & Hw & Gw).
    { intros j Hj. destruct (H (j + 1) ltac:(lia)) as (u & Eu & Hu). exists u.
      replace (a + 1 + j) with (a + (j + 1)) by lia. auto. }
    exists (v + 256 * w). cbn [ext_word]. rewrite Ev. cbn [bind]. rewrite Ew. cbn [bind].
    split; [reflexivity|].
    assert (E : 256 ^ Z.of_nat (S k) = 256 * 256 ^ Z.of_nat k).
    { rewrite Nat2Z.inj_succ, Z.pow_succ_r by lia. reflexivity. }
    split; [rewrite E; nia|].
    intros j Hj. destruct (Z.eq_dec j 0) as [->|Hj0].
    + rewrite Z.add_0_r, Z.pow_0_r, Z.div_1_r, Ev. f_equal.
      replace (v + 256 * w) with (v + w * 256) by ring. rewrite Z.mod_add by lia.
      now rewrite Z.mod_small by lia.
    + specialize (Gw (j - 1) ltac:(lia)). replace (a + 1 + (j - 1)) with (a + j) in Gw by lia.
      rewrite Gw. f_equal. f_equal.
      replace (256 ^ j) with (256 * 256 ^ (j - 1)).
      2:{ replace j with (Z.succ (j - 1)) at 2 by lia. rewrite Z.pow_succ_r by lia. ring. }
      assert (P : 0 < 256 ^ (j - 1)) by (apply Z.pow_pos_nonneg; lia).
      rewrite <- Z.div_div by lia. f_equal.
      replace (v + 256 * w) with (w * 256 + v) by ring. rewrite Z.div_add_l by lia.
      now rewrite (Z.div_small v) by lia; rewrite Z.add_0_r.
Qed.

Lemma ext_words_ok n : forall a, (forall j, 0 <= j < 8 * Z.of_nat n -> exists v, e (a + j) = Some v /\ 0 <= v < 256) ->
  exists ws, ext_words e a n = Some ws /\ length ws = n /\ Forall (fun w => 0 <= w < 2 ^ 64) ws /\
    forall j, 0 <= j < 8 * Z.of_nat n -> e (a + j) = Some (byte ws j).
Proof.
  induction n as [|n IH]; intros a H.
  - exists []. split; [reflexivity|]. split; [reflexivity|]. split; [constructor|]. lia.
  - destruct (ext_word_ok 8 a) as (w & Ew & Hw & Gw).
    { intros j Hj. apply H. lia. }
    destruct (IH (a + 8)) as (ws & Es & L & F & G).
    { intros j Hj. replace (a + 8 + j) with (a + (j + 8)) by lia. apply H. lia. }
    exists (w :: ws). cbn [ext_words]. rewrite Ew. cbn [bind]. rewrite Es. cbn [bind].
    split; [reflexivity|]. split; [cbn [length]; lia|]. split; [constructor; [|assumption]; exact Hw|].
    intros j Hj. unfold byte, wnth.
    pose proof (Z.div_mod j 8 ltac:(lia)). pose proof (Z.mod_pos_bound j 8 ltac:(lia)).
    destruct (Z.lt_ge_cases j 8).
    + rewrite Gw by lia. rewrite (Z.div_small j), (Z.mod_small j) by lia. reflexivity.
    + specialize (G (j - 8) ltac:(lia)). replace (a + 8 + (j - 8)) with (a + j) in G by lia.
      rewrite G. unfold byte, wnth.
      replace (j - 8) with (j + (-1) * 8) by lia. rewrite Z.div_add, Z.mod_add by lia.
      replace (Z.to_nat (j / 8)) with (S (Z.to_nat (j / 8 + -1))) by lia. reflexivity.
Qed.

Lemma byte_app_l ws ws' j : 0 <= j < 8 * wcount ws -> byte (ws ++ ws') j = byte ws j.
Proof.
  intros H. unfold byte, wnth, wcount in *. rewrite app_nth1; [reflexivity|].
  pose proof (Z.div_mod j 8 ltac:(lia)). pose proof (Z.mod_pos_bound j 8 ltac:(lia)). lia.
Qed.

Lemma ext_read_ok src n : src <> 0 -> 0 <= n ->
  (forall j, 0 <= j < n -> exists v, e (src + j) = Some v /\ 0 <= v < 256) ->
  exists ws, ext_read e src n = Some ws /\ array_of e src n ws.
Proof.
  intros Hs Hn H.
  pose proof (Z.div_mod n 8 ltac:(lia)) as D. pose proof (Z.mod_pos_bound n 8 ltac:(lia)) as M.
  destruct (ext_words_ok (Z.to_nat (n / 8)) src) as (ws & Es & L & F & G).
  { intros j Hj. apply H. lia. }
  unfold ext_read. rewrite Es. cbn [bind]. unfold array_of.
  rewrite (proj2 (Z.eqb_neq src 0)) by assumption. cbn [negb andb].
  rewrite words_of_div by assumption.
  destruct (Z.eqb_spec (n mod 8) 0) as [M0|M0].
  - exists ws. split; [reflexivity|]. split; [unfold wcount; lia|]. split; [assumption|].
    intros j Hj. rewrite ltb_true by lia. apply G. lia.
  - destruct (ext_word_ok (Z.to_nat (n mod 8)) (src + 8 * (n / 8))) as (w & Ew & Hw & Gw).
    { intros j Hj. rewrite <- Z.add_assoc. apply H. lia. }
    rewrite Ew. cbn [bind]. exists (ws ++ [w]). split; [reflexivity|].
    split; [unfold wcount; rewrite app_length; cbn [length]; lia|].
    rewrite Z2Nat.id in Hw, Gw by lia. split.
    { apply Forall_app. split; [assumption|]. constructor; [|constructor].
      assert (256 ^ (n mod 8) <= 256 ^ 8) by (apply Z.pow_le_mono_r; lia).
      change (2 ^ 64) with (256 ^ 8). lia. }
    intros j Hj. destruct (Z.lt_ge_cases j (8 * (n / 8))).
    { rewrite ltb_true by lia. rewrite byte_app_l by (unfold wcount; lia). apply G. lia. }
    assert (Ej : j / 8 = n / 8 /\ j mod 8 = j - 8 * (n / 8)).
    { pose proof (Z.div_mod j 8 ltac:(lia)). pose proof (Z.mod_pos_bound j 8 ltac:(lia)). lia. }
    destruct Ej as (Ej1 & Ej2). unfold byte, wnth. rewrite Ej1, Ej2.
    rewrite app_nth2 by lia. rewrite L, Nat.sub_diag. cbn [nth].
    destruct (Z.ltb_spec j n).
    + specialize (Gw (j - 8 * (n / 8)) ltac:(lia)).
      now replace (src + 8 * (n / 8) + (j - 8 * (n / 8))) with (src + j) in Gw by lia.
    + rewrite Z.div_small; [reflexivity|]. split; [lia|].
      apply Z.lt_le_trans with (256 ^ (n mod 8)); [lia|]. apply Z.pow_le_mono_r; lia.
Qed.
End Ext.

Lemma byte_zeros k j : byte (repeat 0 k) j = 0.
Proof.
  unfold byte, wnth. rewrite nth_repeat0. rewrite Zdiv_0_l. reflexivity.
Qed.

Lemma array_zeros e n : 0 <= n -> array_of e 0 n (repeat 0 (Z.to_nat (words_of n))).
Proof.
  intros. pose proof (words_of_bounds n H). unfold array_of.
  split; [unfold wcount; rewrite repeat_length; lia|]. split.
  - apply Forall_forall. intros x Hx. apply repeat_spec in Hx. subst. lia.
  - intros j Hj. change (0 =? 0) with true. cbn [negb andb]. apply byte_zeros.
Qed.

(* ------------------------------------------------------------------ *)
Definition bytes_same (n : Z) (obj ow : list Z) : Prop :=
  wcount ow = words_of n /\ forall j, 0 <= j < n -> byte ow j = byte obj j.

Lemma store_bytes_ok0 m a i obj n : a = mbase m + 8 * i -> 0 <= i -> 0 < n ->
  words_of n <= wcount obj -> i + words_of n <= wlen m ->
  exists m' ow, store_bytes m a obj n = Some m' /\
    mput m m' i (fun k => wnth ow k) (words_of n) /\
    bytes_same n obj ow /\
    forall k, 0 <= k -> 8 * k + 8 <= n -> wnth ow k = wnth obj k.
Proof.
  intros Ha Hi Hn Ho Hw. unfold wcount in Ho.
  pose proof (Z.div_mod n 8 ltac:(lia)) as D. pose proof (Z.mod_pos_bound n 8 ltac:(lia)) as M.
  rewrite words_of_div in Ho, Hw by lia.
  assert (Lf : length (firstn (Z.to_nat (n / 8)) obj) = Z.to_nat (n / 8))
    by (apply firstn_length_le; destruct (Z.eqb_spec (n mod 8) 0); lia).
  destruct (wrn_ok (firstn (Z.to_nat (n / 8)) obj) m a i) as (m1 & E1 & P1); auto.
  { rewrite Lf. intros _. destruct (Z.eqb_spec (n mod 8) 0); lia. }
  rewrite Lf in P1. rewrite Z2Nat.id in P1 by lia.
  pose proof (mput_base _ _ _ _ _ P1) as B1. pose proof (mput_len _ _ _ _ _ P1) as W1.
  unfold store_bytes. rewrite E1. cbn [bind].
  destruct (Z.eqb_spec (n mod 8) 0) as [M0|M0].
  - exists m1, (firstn (Z.to_nat (n / 8)) obj). split; [reflexivity|].
    assert (N : forall k, 0 <= k < n / 8 -> wnth (firstn (Z.to_nat (n / 8)) obj) k = wnth obj k).
    { intros k Hk. unfold wnth. rewrite <- (firstn_skipn (Z.to_nat (n / 8)) obj) at 2.
      now rewrite app_nth1 by lia. }
    rewrite words_of_div, M0 by lia. change (0 =? 0) with true. cbv iota. rewrite Z.add_0_r.
    split; [exact P1|]. split.
    + split; [unfold wcount; rewrite Lf, words_of_div, M0 by lia; cbn [Z.eqb]; lia|].
      intros j Hj. unfold byte. rewrite N; [reflexivity|].
      pose proof (Z.div_mod j 8 ltac:(lia)). pose proof (Z.mod_pos_bound j 8 ltac:(lia)). lia.
    + intros k Hk1 Hk2. apply N. lia.
  - assert (Lo : (Z.to_nat (n / 8) < length obj)%nat) by lia.
    rewrite (nth_error_nth' obj 0 Lo). cbn [bind].
    rewrite (rd_ok m1 _ (i + n / 8)) by lia. cbn [bind].
    rewrite (wr_ok m1 _ (i + n / 8)) by lia.
    set (w := nth (Z.to_nat (n / 8)) obj 0). set (old := word m1 (i + n / 8)).
    set (v := old / 256 ^ (n mod 8) * 256 ^ (n mod 8) + w mod 256 ^ (n mod 8)).
    exists (mupd m1 (i + n / 8) v), (firstn (Z.to_nat (n / 8)) obj ++ [v]).
    split; [reflexivity|].
    assert (N : forall k, 0 <= k < n / 8 -> wnth (firstn (Z.to_nat (n / 8)) obj ++ [v]) k = wnth obj k).
    { intros k Hk. unfold wnth. rewrite app_nth1 by lia.
      rewrite <- (firstn_skipn (Z.to_nat (n / 8)) obj) at 2.
      now rewrite app_nth1 by lia. }
    assert (NL : wnth (firstn (Z.to_nat (n / 8)) obj ++ [v]) (n / 8) = v).
    { unfold wnth. rewrite app_nth2 by lia. now rewrite Lf, Nat.sub_diag. }
    assert (Wn : words_of n = n / 8 + 1).
    { rewrite words_of_div by lia. now rewrite (proj2 (Z.eqb_neq _ _) M0). }
    split; [|split].
    + destruct P1 as (Q1 & Q2 & Q3). split; [|split]; [exact B1|now rewrite mupd_wlen|].
      intros j Hj. rewrite word_mupd by lia. rewrite Wn.
      destruct (Z.eqb_spec j (i + n / 8)) as [->|Hne].
      * rewrite leb_true, ltb_true by lia. cbn [andb]. replace (i + n / 8 - i) with (n / 8) by lia.
        now rewrite NL.
      * rewrite Q3 by assumption.
        destruct (Z.leb_spec i j); cbn [andb]; [|reflexivity].
        destruct (Z.ltb_spec j (i + n / 8)).
        -- rewrite ltb_true by lia. unfold wnth. rewrite app_nth1 by lia. reflexivity.
        -- rewrite ltb_false by lia. reflexivity.
    + split; [unfold wcount; rewrite app_length, Lf; cbn [length]; lia|].
      intros j Hj. pose proof (Z.div_mod j 8 ltac:(lia)). pose proof (Z.mod_pos_bound j 8 ltac:(lia)).
      destruct (Z.lt_ge_cases j (8 * (n / 8))).
      * unfold byte. now rewrite N by lia.
      * assert (Ej : j / 8 = n / 8) by lia. unfold byte. rewrite Ej, NL.
        rewrite <- (byte_mod v (n mod 8)) by lia. unfold v. rewrite merge_mod by lia.
        now rewrite byte_mod by lia.
    + intros k Hk1 Hk2. apply N. lia.
Qed.

Lemma store_bytes_ok m a i obj n : a = mbase m + 8 * i -> 0 <= i -> 0 < n ->
  words_of n <= wcount obj -> i + words_of n <= wlen m ->
  exists m' ow, store_bytes m a obj n = Some m' /\
    mput m m' i (fun k => wnth ow k) (words_of n) /\ same_bytes n obj ow /\
    forall k, 0 <= k -> 8 * k + 8 <= n -> wnth ow k = wnth obj k.
Proof.
  intros H1 H2 H3 H4 H5.
  destruct (store_bytes_ok0 m a i obj n H1 H2 H3 H4 H5) as (m' & ow & E & P & (B1 & B2) & F).
  exists m', ow. unfold same_bytes. auto 12.
Qed.
