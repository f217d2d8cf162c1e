(* Reading and writing a block, word by word. *)
From Coq Require Import ZArith List Bool Lia.
From Verif Require Import MBuf MBufSpec.
Import ListNotations.
Local Open Scope Z_scope.

Definition wlen (m : mem) : Z := Z.of_nat (length (mwords m)).

Lemma u64_id x : 0 <= x < 2 ^ 64 -> u64 x = x.
Proof. intros. unfold u64. now rewrite Z.mod_small. Qed.

Lemma lupd_length l n v : length (lupd l n v) = length l.
Proof. revert n; induction l; intros [|n]; simpl; auto. Qed.

Lemma lupd_nth l n v j d :
  nth j (lupd l n v) d = if Nat.eqb j n && Nat.ltb n (length l) then v else nth j l d.
Proof.
  revert n j; induction l as [|a l IH]; intros n j.
  - destruct n; simpl; now rewrite andb_false_r.
  - destruct n, j; simpl; auto.
    rewrite IH. reflexivity.
Qed.

Definition mupd (m : mem) (i v : Z) : mem := Mem (mbase m) (lupd (mwords m) (Z.to_nat i) v).

Lemma mupd_base m i v : mbase (mupd m i v) = mbase m.
Proof. reflexivity. Qed.
Lemma mupd_wlen m i v : wlen (mupd m i v) = wlen m.
Proof. unfold wlen, mupd; simpl. now rewrite lupd_length. Qed.

Lemma word_mupd m i v j : 0 <= j -> 0 <= i < wlen m ->
  word (mupd m i v) j = if j =? i then v else word m j.
Proof.
  intros Hj Hi. unfold word, mupd, wlen in *; simpl. rewrite lupd_nth.
  destruct (Z.eqb_spec j i) as [->|H].
  - rewrite Nat.eqb_refl. destruct (Nat.ltb_spec (Z.to_nat i) (length (mwords m))); [reflexivity|lia].
  - destruct (Nat.eqb_spec (Z.to_nat j) (Z.to_nat i)); [lia|reflexivity].
Qed.

Lemma widx_ok m a i : a = mbase m + 8 * i -> 0 <= i < wlen m -> widx m a = Some (Z.to_nat i).
Proof.
  intros -> H. unfold widx, wlen in *. replace (mbase m + 8 * i - mbase m) with (i * 8) by lia.
  rewrite Z.mod_mul, Z.div_mul by lia.
  replace (0 <=? i * 8) with true by (symmetry; apply Z.leb_le; lia).
  replace (i <? Z.of_nat (length (mwords m))) with true by (symmetry; apply Z.ltb_lt; lia).
  reflexivity.
Qed.

Lemma rd_ok m a i : a = mbase m + 8 * i -> 0 <= i < wlen m -> rd m a = Some (word m i).
Proof.
  intros Ha Hi. unfold rd. rewrite (widx_ok m a i) by assumption. simpl.
  unfold word. apply nth_error_nth'. unfold wlen in Hi. lia.
Qed.

Lemma wr_ok m a i v : a = mbase m + 8 * i -> 0 <= i < wlen m -> wr m a v = Some (mupd m i v).
Proof. intros Ha Hi. unfold wr. now rewrite (widx_ok m a i) by assumption. Qed.

Lemma rd_inv m a v : rd m a = Some v ->
  exists i, a = mbase m + 8 * i /\ 0 <= i < wlen m /\ v = word m i.
Proof.
  unfold rd, widx. intros H.
  destruct ((0 <=? a - mbase m) && ((a - mbase m) mod 8 =? 0) &&
            ((a - mbase m) / 8 <? Z.of_nat (length (mwords m)))) eqn:E; [|discriminate].
  apply andb_prop in E as [E E3]. apply andb_prop in E as [E1 E2].
  apply Z.leb_le in E1. apply Z.eqb_eq in E2. apply Z.ltb_lt in E3.
  simpl in H. exists ((a - mbase m) / 8).
  assert (0 <= (a - mbase m) / 8) by (apply Z.div_pos; lia).
  assert (a - mbase m = 8 * ((a - mbase m) / 8)) by (pose proof (Z.div_mod (a - mbase m) 8); lia).
  repeat split; try lia.
  - unfold wlen. lia.
  - unfold word. erewrite nth_error_nth; [reflexivity|exact H].
Qed.

(* a write of consecutive words *)
Definition mput (m m' : mem) (i : Z) (f : Z -> Z) (n : Z) : Prop :=
  mbase m' = mbase m /\ wlen m' = wlen m /\
  forall j, 0 <= j -> word m' j = if (i <=? j) && (j <? i + n) then f (j - i) else word m j.

Lemma mput_0 m i f : mput m m i f 0.
Proof.
  repeat split. intros j Hj. destruct (Z.leb_spec i j), (Z.ltb_spec j (i + 0)); simpl; auto; lia.
Qed.

Lemma wrn_ok ws : forall m a i, a = mbase m + 8 * i -> 0 <= i ->
  (ws <> [] -> i + Z.of_nat (length ws) <= wlen m) ->
  exists m', wrn m a ws = Some m' /\
    mput m m' i (fun k => nth (Z.to_nat k) ws 0) (Z.of_nat (length ws)).
Proof.
  induction ws as [|w ws IH]; intros m a i Ha Hi Hl; simpl wrn.
  - exists m. split; [reflexivity|]. apply mput_0.
  - assert (Hl' : i + Z.of_nat (length (w :: ws)) <= wlen m) by (apply Hl; discriminate).
    simpl length in *. rewrite Nat2Z.inj_succ in *.
    rewrite (wr_ok m a i) by (try assumption; lia). simpl.
    destruct (IH (mupd m i w) (a + 8) (i + 1)) as (m' & E & Hb & Hw & Hg).
    + rewrite mupd_base. lia.
    + lia.
    + intros _. rewrite mupd_wlen. lia.
    + exists m'. split; [exact E|]. rewrite mupd_base in Hb. rewrite mupd_wlen in Hw.
      repeat split; [exact Hb|exact Hw|].
      intros j Hj. rewrite Hg by assumption. rewrite word_mupd by lia.
      destruct (Z.leb_spec (i + 1) j), (Z.ltb_spec j (i + 1 + Z.of_nat (length ws))),
        (Z.leb_spec i j), (Z.ltb_spec j (i + Z.succ (Z.of_nat (length ws)))),
        (Z.eqb_spec j i); simpl; try lia; auto.
      * replace (Z.to_nat (j - i)) with (S (Z.to_nat (j - (i + 1)))) by lia. reflexivity.
      * subst j. now rewrite Z.sub_diag.
Qed.

Lemma rdn_ok n : forall m a i, a = mbase m + 8 * i -> 0 <= i ->
  (n <> O -> i + Z.of_nat n <= wlen m) ->
  exists ws, rdn m a n = Some ws /\ length ws = n /\
    forall k, 0 <= k < Z.of_nat n -> nth (Z.to_nat k) ws 0 = word m (i + k).
Proof.
  induction n as [|n IH]; intros m a i Ha Hi Hl; simpl rdn.
  - exists []. repeat split. intros; lia.
  - assert (i + Z.of_nat (S n) <= wlen m) by (apply Hl; discriminate).
    rewrite (rd_ok m a i) by (try assumption; lia). simpl.
    destruct (IH m (a + 8) (i + 1)) as (ws & E & El & Hg); [lia|lia|lia|].
    rewrite E. simpl. exists (word m i :: ws). repeat split.
    + simpl. lia.
    + intros k Hk. destruct (Z.eq_dec k 0) as [->|].
      * simpl. f_equal. lia.
      * replace (Z.to_nat k) with (S (Z.to_nat (k - 1))) by lia. simpl.
        rewrite Hg by lia. f_equal. lia.
Qed.

Lemma nth_repeat0 n k : nth k (repeat 0 n) 0 = 0.
Proof. revert k; induction n; intros [|k]; simpl; auto. Qed.

Lemma set_zero_ok m a i n k : a = mbase m + 8 * i -> 0 <= i -> n = 8 * k -> 0 <= k ->
  (0 < k -> i + k <= wlen m) ->
  exists m', set_zero m a n = Some m' /\ mput m m' i (fun _ => 0) k.
Proof.
  intros Ha Hi -> Hk Hl. unfold set_zero.
  replace (0 <=? 8 * k) with true by (symmetry; apply Z.leb_le; lia).
  rewrite (Z.mul_comm 8 k), Z.mod_mul, Z.div_mul by lia. simpl andb. cbv iota.
  destruct (wrn_ok (repeat 0 (Z.to_nat k)) m a i) as (m' & E & Hb & Hw & Hg); auto.
  - rewrite repeat_length. intros Hn. destruct (Z.to_nat k) eqn:?; [now elim Hn|]. lia.
  - exists m'. split; [exact E|]. repeat split; auto.
    intros j Hj. rewrite Hg by assumption. rewrite repeat_length, Z2Nat.id by lia.
    now rewrite nth_repeat0.
Qed.

Lemma move_ok m d s di si n k : d = mbase m + 8 * di -> s = mbase m + 8 * si ->
  0 <= di -> 0 <= si -> n = 8 * k -> 0 <= k ->
  (0 < k -> di + k <= wlen m) -> (0 < k -> si + k <= wlen m) ->
  exists m', move_values m d s n = Some m' /\ mput m m' di (fun j => word m (si + j)) k.
Proof.
  intros Hd Hs Hdi Hsi -> Hk Hl1 Hl2. unfold move_values.
  replace (0 <=? 8 * k) with true by (symmetry; apply Z.leb_le; lia).
  rewrite (Z.mul_comm 8 k), Z.mod_mul, Z.div_mul by lia. simpl andb. cbv iota.
  destruct (rdn_ok (Z.to_nat k) m s si) as (ws & E & El & Hg); auto; [lia|].
  rewrite E. simpl.
  destruct (wrn_ok ws m d di) as (m' & E' & Hb & Hw & Hg'); auto.
  - rewrite El. intros Hn. destruct ws; [now elim Hn|]. simpl in El. lia.
  - exists m'. split; [exact E'|]. repeat split; auto.
    intros j Hj. rewrite Hg' by assumption. rewrite El, Z2Nat.id by lia.
    destruct (Z.leb_spec di j), (Z.ltb_spec j (di + k)); simpl; auto.
    apply Hg. lia.
Qed.
