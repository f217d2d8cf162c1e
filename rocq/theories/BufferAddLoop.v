(* The loop of Buffer_add_object over the data pointers. *)
From Coq Require Import ZArith List Bool Lia.
From Verif Require Import MBuf Alignment MemPool Buffer BufferSpec MBufSpec MBufMem MBufAbs MBufRemap
  MBufReserve MBufInit BufferProofs BufferReserve BufferAddMem BufferAdd.
Import ListNotations.
Local Open Scope Z_scope.

Definition attr_words (attrs : list attr) : Z :=
  fold_right (fun x n => words_of (attr_bytes x) + n) 0 attrs.

Lemma object_words_eq osize attrs : object_words osize attrs = words_of osize + attr_words attrs.
Proof.
  unfold object_words, attr_words. induction attrs as [|x l IH]; cbn [fold_right]; lia.
Qed.

Definition counts_ok (attrs : list attr) : Prop :=
  forall x, In x attrs -> 0 <= at_size x /\ 0 <= at_count x.

Lemma attr_bytes_nonneg x : 0 <= at_size x -> 0 <= at_count x -> 0 <= attr_bytes x.
Proof. unfold attr_bytes. intros. nia. Qed.

Lemma attr_words_nonneg attrs : counts_ok attrs -> 0 <= attr_words attrs.
Proof.
  induction attrs as [|x l IH]; intros H; cbn [attr_words fold_right]; [lia|].
  destruct (H x ltac:(now left)) as (H1 & H2).
  pose proof (words_of_bounds _ (attr_bytes_nonneg x H1 H2)).
  assert (0 <= attr_words l) by (apply IH; intros y Hy; apply H; now right).
  unfold attr_words in *. lia.
Qed.

Lemma Forall2_impl_in {S T} (P Q : S -> T -> Prop) l l2 :
  (forall a b, In a l -> P a b -> Q a b) -> Forall2 P l l2 -> Forall2 Q l l2.
Proof.
  intros H F. induction F; constructor; [apply H; [now left|assumption]|].
  apply IHF. intros a b Ha. apply H. now right.
Qed.

Section Loop.
Variables (e : ext_mem) (i0 nw : Z).
Hypothesis Hi0 : 0 <= i0.

Lemma add_dataptrs_ok : forall attrs m d o,
  counts_ok attrs ->
  (forall x, In x attrs -> 0 <= at_offset x /\ at_offset x mod 8 = 0 /\ at_offset x + 8 <= 8 * nw) ->
  NoDup (map at_offset attrs) ->
  i0 + nw <= d -> d + attr_words attrs <= o -> o + zlen attrs <= wlen m ->
  8 * attr_words attrs < 2 ^ 64 ->
  (forall x, In x attrs -> forall j, 0 <= j < attr_bytes x -> word m (i0 + at_offset x / 8) <> 0 ->
     exists v, e (word m (i0 + at_offset x / 8) + j) = Some v /\ 0 <= v < 256) ->
  exists m' arrs,
    add_dataptrs attrs e m (mbase m + 8 * i0) (mbase m + 8 * d) (mbase m + 8 * o) = Some m' /\
    Forall2 (fun x ws => array_of e (word m (i0 + at_offset x / 8)) (attr_bytes x) ws) attrs arrs /\
    mbase m' = mbase m /\ wlen m' = wlen m /\
    (forall n x, nth_error attrs n = Some x ->
       word m' (i0 + at_offset x / 8) = mbase m + 8 * (d + sumw (firstn n arrs))) /\
    (forall k w, nth_error (concat arrs) k = Some w -> word m' (d + Z.of_nat k) = w) /\
    (forall n x, nth_error attrs n = Some x ->
       word m' (o + Z.of_nat n) = mbase m + 8 * (i0 + at_offset x / 8)) /\
    (forall j, 0 <= j -> (forall x, In x attrs -> j <> i0 + at_offset x / 8) ->
       ~ (d <= j < d + attr_words attrs) -> ~ (o <= j < o + zlen attrs) -> word m' j = word m j) /\
    sumw arrs = attr_words attrs.
Proof.
  induction attrs as [|x r IH]; intros m d o HC HO HD Hd Ho Hl Hov HS.
  - exists m, []. split; [reflexivity|]. split; [constructor|]. split; [reflexivity|].
    split; [reflexivity|]. split; [intros n x Hn; now destruct n|].
    split; [intros n x Hn; now destruct n|]. split; [intros n x Hn; now destruct n|].
    split; [auto|]. reflexivity.
  - destruct (HC x ltac:(now left)) as (C1 & C2).
    pose proof (attr_bytes_nonneg x C1 C2) as Cb.
    pose proof (words_of_bounds _ Cb) as (W0 & W1).
    assert (HCr : counts_ok r) by (intros y Hy; apply HC; now right).
    pose proof (attr_words_nonneg r HCr) as Wr.
    destruct (HO x ltac:(now left)) as (O1 & O2 & O3). apply mod8_eq in O2.
    assert (Ew : attr_words (x :: r) = words_of (attr_bytes x) + attr_words r) by reflexivity.
    assert (El : zlen (x :: r) = 1 + zlen r) by (unfold zlen; cbn [length]; lia).
    pose proof (zlen_nonneg r) as Lr. rewrite Ew, El in *. inversion HD as [|? ? Hnin HDr]; subst.
    set (p := i0 + at_offset x / 8) in *.
    assert (Hp : 0 <= p < d) by (unfold p; lia).
    set (src := word m p) in *.
    cbn [add_dataptrs].
    rewrite (rd_ok m _ p) by (unfold p; lia). fold src. cbn [bind].
    rewrite u64_id by (unfold attr_bytes in *; lia).
    change (at_count x * at_size x) with (attr_bytes x).
    rewrite slot_based_ok by lia.
    (* the array *)
    assert (ARR : exists ws m1,
      (if negb (src =? 0) then ws <- ext_read e src (attr_bytes x);; wrn m (mbase m + 8 * d) ws
       else set_zero m (mbase m + 8 * d) (8 * words_of (attr_bytes x))) = Some m1 /\
      array_of e src (attr_bytes x) ws /\ mput m m1 d (fun k => wnth ws k) (words_of (attr_bytes x))).
    { destruct (Z.eqb_spec src 0) as [E0|E0]; cbn [negb].
      - destruct (set_zero_ok m (mbase m + 8 * d) d (8 * words_of (attr_bytes x)) (words_of (attr_bytes x)))
          as (m1 & E1 & P1); try lia.
        exists (repeat 0 (Z.to_nat (words_of (attr_bytes x)))), m1. split; [exact E1|].
        rewrite E0. split; [now apply array_zeros|].
        destruct P1 as (Q1 & Q2 & Q3). split; [exact Q1|split; [exact Q2|]].
        intros j Hj. rewrite Q3 by assumption. unfold wnth. now rewrite nth_repeat0.
      - destruct (ext_read_ok e src (attr_bytes x) E0 Cb) as (ws & Es & As).
        { intros j Hj. apply (HS x ltac:(now left) j Hj E0). }
        rewrite Es. cbn [bind]. pose proof As as (Lw & _ & _). unfold wcount in Lw.
        destruct (wrn_ok ws m (mbase m + 8 * d) d) as (m1 & E1 & P1); try lia.
        exists ws, m1. split; [exact E1|]. split; [exact As|]. rewrite Lw in P1. exact P1. }
    destruct ARR as (ws & m1 & E1 & Aw & P1). rewrite E1. cbn [bind].
    pose proof (mput_base _ _ _ _ _ P1) as B1. pose proof (mput_len _ _ _ _ _ P1) as W1'.
    rewrite (wr_ok m1 _ p) by (unfold p; lia). cbn [bind].
    rewrite (wr_ok (mupd m1 p (mbase m + 8 * d)) _ o)
      by (rewrite ?mupd_base, ?mupd_wlen; lia).
    cbn [bind].
    set (m3 := mupd (mupd m1 p (mbase m + 8 * d)) o (mbase m + 8 * i0 + at_offset x)).
    assert (B3 : mbase m3 = mbase m) by (unfold m3; rewrite !mupd_base; congruence).
    assert (W3 : wlen m3 = wlen m) by (unfold m3; rewrite !mupd_wlen; congruence).
    assert (G3 : forall j, 0 <= j -> word m3 j =
      if j =? o then mbase m + 8 * p else if j =? p then mbase m + 8 * d
      else if (d <=? j) && (j <? d + words_of (attr_bytes x)) then wnth ws (j - d) else word m j).
    { intros j Hj. unfold m3. rewrite !word_mupd by (rewrite ?mupd_wlen; lia).
      destruct (j =? o); [unfold p; lia|]. destruct (j =? p); [reflexivity|].
      destruct P1 as (_ & _ & Q3). now apply Q3. }
    assert (Hoff : forall y, In y r -> 0 <= at_offset y /\ at_offset y mod 8 = 0 /\ at_offset y + 8 <= 8 * nw)
      by (intros y Hy; apply HO; now right).
    assert (S3 : forall y, In y r -> word m3 (i0 + at_offset y / 8) = word m (i0 + at_offset y / 8)).
    { intros y Hy. destruct (Hoff y Hy) as (Y1 & Y2 & Y3). apply mod8_eq in Y2.
      assert (at_offset y <> at_offset x).
      { intros Eyx. apply Hnin. rewrite <- Eyx. now apply in_map. }
      rewrite G3 by lia. unfold p. rewrite eqb_false, eqb_false by lia.
      rewrite leb_false by lia. reflexivity. }
    destruct (IH m3 (d + words_of (attr_bytes x)) (o + 1)) as
      (m' & arrs & E' & F' & B' & W' & Ga & Gb & Gc & Gd & Sw); try assumption; try lia.
    { intros y Hy j Hj. rewrite S3 by assumption. apply (HS y ltac:(now right) j Hj). }
    exists m', (ws :: arrs). rewrite B3 in *.
    pose proof Aw as (Lw & _ & _).
    assert (Ews : zlen ws = words_of (attr_bytes x)) by exact Lw.
    split; [|split; [|split; [|split; [|split; [|split; [|split; [|split]]]]]]].
    + rewrite <- E'. f_equal; lia.
    + constructor; [exact Aw|]. eapply Forall2_impl_in; [|exact F'].
      intros y l Hy Hl'. cbn beta in Hl'. now rewrite S3 in Hl' by assumption.
    + congruence.
    + congruence.
    + intros n y Hn. destruct n as [|n]; cbn [nth_error firstn] in *.
      * injection Hn as <-. fold p. rewrite Gd.
        -- rewrite G3 by lia. rewrite eqb_false, Z.eqb_refl by lia.
           change (sumw []) with 0. lia.
        -- lia.
        -- intros y Hy. destruct (Hoff y Hy) as (Y1 & Y2 & Y3). apply mod8_eq in Y2.
           intros Ep. apply Hnin. apply in_map_iff. exists y. split; [|auto]. unfold p in Ep. lia.
        -- lia.
        -- lia.
      * rewrite (Ga n y Hn). rewrite sumw_cons. lia.
    + intros k w Hk. cbn [concat] in Hk.
      destruct (Nat.lt_ge_cases k (length ws)) as [L|L].
      * rewrite nth_error_app1 in Hk by assumption. unfold wcount in Lw.
        assert (Ek : wnth ws (Z.of_nat k) = w)
          by (unfold wnth; rewrite Nat2Z.id; now apply nth_error_nth).
        rewrite Gd.
        -- rewrite G3 by lia. rewrite eqb_false, eqb_false by lia.
           rewrite leb_true, ltb_true by lia. cbn [andb].
           now replace (d + Z.of_nat k - d) with (Z.of_nat k) by lia.
        -- lia.
        -- intros y Hy. destruct (Hoff y Hy) as (Y1 & Y2 & Y3). apply mod8_eq in Y2. lia.
        -- lia.
        -- lia.
      * rewrite nth_error_app2 in Hk by assumption. apply Gb in Hk. rewrite <- Hk.
        f_equal. unfold zlen in Ews. lia.
    + intros n y Hn. destruct n as [|n]; cbn [nth_error] in *.
      * injection Hn as <-. rewrite Gd.
        -- rewrite G3 by lia. rewrite Z.add_0_r, Z.eqb_refl. unfold p. lia.
        -- lia.
        -- intros y Hy. destruct (Hoff y Hy) as (Y1 & Y2 & Y3). apply mod8_eq in Y2. lia.
        -- lia.
        -- lia.
      * specialize (Gc n y Hn). rewrite <- Gc. f_equal. lia.
    + intros j Hj Hx Hd' Ho'. rewrite Gd; try lia.
      * rewrite G3 by assumption. pose proof (Hx x ltac:(now left)) as Hxp. fold p in Hxp.
        rewrite eqb_false, eqb_false by lia.
        destruct (Z.leb_spec d j); cbn [andb]; [|reflexivity].
        rewrite ltb_false by lia. reflexivity.
      * intros y Hy. apply Hx. now right.
    + rewrite sumw_cons. lia.
Qed.
End Loop.
