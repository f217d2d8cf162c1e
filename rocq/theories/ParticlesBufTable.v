(* The table of the addresses of the attributes of particle sets. *)
From Coq Require Import ZArith List Bool Lia.
From Verif Require Import Tac MBuf MBufSpec MBufMem MBufAbs MBufRemap MemPool Buffer BufferSpec BufferUser
  BufferProofs BufferAddMem BufferAdd BufferAddLoop BufferAddMain BufferWrite BufferReach BufferProps
  Lines LinesSpec LinesProofs LinesCopy
  Strings StringsSpec StringsProofs ParticlesBuf ParticlesBufSpec ParticlesBufProofs.
Import ListNotations.
Local Open Scope Z_scope.

(* ---------------- rows ---------------- *)

(* object number i of b is a row with these words *)
Definition rowat (b : buffer) (i : nat) (ws : list Z) : Prop :=
  nth_error (objects b) i = Some (512, map Raw ws) /\ words64 ws /\ length ws = 22%nat.

(* b' is b with these words in the row *)
Record rstep (b : buffer) (i : nat) (ws : list Z) (b' : buffer) : Prop := RStep {
  rs_objects : objects b' = replace (objects b) i (512, map Raw ws);
  rs_history : same_history b b';
  rs_place : place b' i = place b i;
  rs_h : b_h b' = b_h b }.

Lemma rowat_row b i n addrs : nth_error (objects b) i = Some (row n addrs) -> words64 (n :: addrs) ->
  Z.of_nat (length addrs) = NUM -> rowat b i (n :: addrs).
Proof. intros H W L. split; [exact H|]. split; [exact W|]. cbn [length]. unfold NUM in L. lia. Qed.

Lemma row_after b i ws ws' b' : rowat b i ws -> rstep b i ws' b' -> words64 ws' -> length ws' = 22%nat ->
  rowat b' i ws'.
Proof.
  intros (O & _) [E _ _ _] W L. split; [|auto]. rewrite E. eapply nth_replace_same; eauto.
Qed.

Lemma rstep_refl b i ws : rowat b i ws -> rstep b i ws b.
Proof.
  intros (O & _). split; auto; [|split; auto]. symmetry. now apply replace_same.
Qed.

Lemma rstep_trans b i ws1 b1 ws2 b2 : rstep b i ws1 b1 -> rstep b1 i ws2 b2 -> rstep b i ws2 b2.
Proof.
  intros [E1 H1 P1 D1] [E2 H2 P2 D2]. split.
  - rewrite E2, E1. apply replace_twice.
  - eapply history_trans; eauto.
  - congruence.
  - congruence.
Qed.

Lemma map_replace {S T} (f : S -> T) l k x : map f (replace l k x) = replace (map f l) k (f x).
Proof.
  unfold replace. rewrite map_app, firstn_map, skipn_map. f_equal. destruct (skipn k l); reflexivity.
Qed.

Lemma row_read b i ws k w : reachable any b -> rowat b i ws -> nth_error ws k = Some w ->
  rd (b_mem b) (place b i + 8 * Z.of_nat k) = Some w.
Proof.
  intros R (O & _) H. destruct (read_cell b i 512 (map Raw ws) k (Raw w) R O) as (X & _); [|exact X].
  rewrite nth_error_map, H. reflexivity.
Qed.

Lemma row_write b i ws k v : reachable any b -> rowat b i ws -> (k < 22)%nat -> 0 <= v < 2 ^ 64 ->
  exists m', wr (b_mem b) (place b i + 8 * Z.of_nat k) v = Some m' /\
    rstep b i (replace ws k v) (with_mem b m').
Proof.
  intros R (O & W & L) Hk Hv.
  destruct (nth_error ws k) as [w|] eqn:N; [|apply nth_error_None in N; lia].
  destruct (write_word b i 512 (map Raw ws) k w v R O) as (m' & Hw & R' & Eo & _ & P & Hi); auto.
  { rewrite nth_error_map, N. reflexivity. }
  exists m'. split; [exact Hw|]. split; auto. rewrite Eo, map_replace. reflexivity.
Qed.

Lemma firstn_replace {T} (l : list T) k x : (k < length l)%nat -> firstn (S k) (replace l k x) = firstn k l ++ [x].
Proof.
  unfold replace. revert k; induction l as [|a l IH]; intros [|k] H; cbn [length] in H; try lia; [reflexivity|].
  cbn [firstn skipn app]. f_equal. apply IH. lia.
Qed.

Definition offs (k n : nat) : list Z := map (fun a => 8 * Z.of_nat a) (List.seq k n).
Lemma offs_cons k n : offs k (S n) = 8 * Z.of_nat k :: offs (S k) n.
Proof. reflexivity. Qed.
Lemma offs_all : offs 0 22 = 0 :: p_offsets.
Proof. reflexivity. Qed.
Lemma offs_some : offs 1 21 = p_offsets.
Proof. reflexivity. Qed.

Lemma words_replace ws k v : words64 ws -> 0 <= v < 2 ^ 64 -> words64 (replace ws k v).
Proof. intros W H. now apply replace_forall. Qed.

Lemma firstn_full {T} (l : list T) k : length l = k -> firstn k l = l.
Proof. intros <-. apply firstn_all. Qed.

Lemma assign_fields i mp p : forall l k b ws, reachable any b -> rowat b i ws -> (k + length l = 22)%nat ->
  words64 l -> (forall a w, nth_error l a = Some w -> rd mp (p + 8 * Z.of_nat (k + a)) = Some w) ->
  exists m', pa_assign_fields (b_mem b) (place b i) mp p (offs k (length l)) = Some m' /\
    rstep b i (firstn k ws ++ l) (with_mem b m').
Proof.
  induction l as [|w l IH]; intros k b ws R O L W H.
  - cbn [length] in L. exists (b_mem b). cbn [length offs List.seq map pa_assign_fields]. split; [reflexivity|].
    rewrite app_nil_r, firstn_full by (destruct O as (_ & _ & X); lia). rewrite with_mem_same. now apply rstep_refl.
  - cbn [length] in L |- *. rewrite offs_cons. cbn [pa_assign_fields].
    pose proof (H 0%nat w eq_refl) as H0. rewrite Nat.add_0_r in H0. rewrite H0. cbn [bind].
    inversion W as [|? ? W1 W2]; subst.
    destruct (row_write b i ws k w R O ltac:(lia) W1) as (m1 & E1 & S1). rewrite E1. cbn [bind].
    assert (O1 : rowat (with_mem b m1) i (replace ws k w)).
    { destruct O as (O & WW & LL). eapply row_after; eauto; [repeat split; eauto|now apply words_replace|now rewrite replace_length]. }
    destruct (IH (S k) (with_mem b m1) (replace ws k w)) as (m2 & E2 & S2); auto; try lia.
    { apply (rs_history _ _ _ _ S1). exact R. }
    { intros a x Hx. rewrite <- (H (S a) x Hx). do 3 f_equal. lia. }
    exists m2. rewrite (rs_place _ _ _ _ S1) in E2. cbn [b_mem with_mem] in E2. split; [exact E2|].
    rewrite with_mem_twice in S2. pose proof (rstep_trans _ _ _ _ _ _ S1 S2) as S3.
    rewrite firstn_replace in S3 by (destruct O as (_ & _ & X); lia). rewrite <- app_assoc in S3. exact S3.
Qed.

Lemma clear_fields i : forall n k b ws, reachable any b -> rowat b i ws -> (k + n = 22)%nat ->
  exists m', pa_clear_fields (b_mem b) (place b i) (offs k n) = Some m' /\
    rstep b i (firstn k ws ++ repeat 0 n) (with_mem b m').
Proof.
  induction n as [|n IH]; intros k b ws R O L.
  - exists (b_mem b). cbn [offs List.seq map pa_clear_fields repeat]. split; [reflexivity|].
    rewrite app_nil_r, firstn_full by (destruct O as (_ & _ & X); lia). rewrite with_mem_same. now apply rstep_refl.
  - rewrite offs_cons. cbn [pa_clear_fields].
    destruct (row_write b i ws k 0 R O ltac:(lia) ltac:(lia)) as (m1 & E1 & S1). rewrite E1. cbn [bind].
    assert (O1 : rowat (with_mem b m1) i (replace ws k 0)).
    { destruct O as (O & WW & LL). eapply row_after; eauto; [repeat split; eauto|apply words_replace; [auto|lia]|now rewrite replace_length]. }
    destruct (IH (S k) (with_mem b m1) (replace ws k 0)) as (m2 & E2 & S2); auto; try lia.
    { apply (rs_history _ _ _ _ S1). exact R. }
    exists m2. rewrite (rs_place _ _ _ _ S1) in E2. cbn [b_mem with_mem] in E2. split; [exact E2|].
    rewrite with_mem_twice in S2. pose proof (rstep_trans _ _ _ _ _ _ S1 S2) as S3.
    rewrite firstn_replace in S3 by (destruct O as (_ & _ & X); lia). rewrite <- app_assoc in S3. exact S3.
Qed.

Lemma shifted_range off w : 0 <= w < 2 ^ 64 -> 0 <= shifted off w < 2 ^ 64.
Proof.
  intros H. unfold shifted, u64. destruct (Z.ltb_spec 0 off); [apply Z.mod_pos_bound; lia|].
  destruct (Z.leb_spec (- off) w); lia.
Qed.

Lemma shift_fields i off : forall n k b ws, reachable any b -> rowat b i ws -> (k + n = 22)%nat ->
  exists m', pa_shift_fields (b_mem b) (place b i) off (offs k n) = Some m' /\
    rstep b i (firstn k ws ++ map (shifted off) (skipn k ws)) (with_mem b m').
Proof.
  induction n as [|n IH]; intros k b ws R O L.
  - exists (b_mem b). cbn [offs List.seq map pa_shift_fields]. split; [reflexivity|].
    rewrite skipn_all2 by (destruct O as (_ & _ & X); lia). cbn [map].
    rewrite app_nil_r, firstn_full by (destruct O as (_ & _ & X); lia). rewrite with_mem_same. now apply rstep_refl.
  - rewrite offs_cons. cbn [pa_shift_fields]. pose proof O as (OO & WW & LL).
    destruct (nth_error ws k) as [w|] eqn:Nw; [|apply nth_error_None in Nw; lia].
    rewrite (row_read b i ws k w R O Nw). cbn [bind].
    assert (Hw : 0 <= w < 2 ^ 64) by (apply (proj1 (Forall_forall _ _) WW); eapply nth_error_In; eauto).
    pose proof (shifted_range off w Hw) as Hs.
    destruct (row_write b i ws k (shifted off w) R O ltac:(lia) Hs) as (m1 & E1 & S1). rewrite E1. cbn [bind].
    assert (O1 : rowat (with_mem b m1) i (replace ws k (shifted off w))).
    { eapply row_after; eauto; [now apply words_replace|now rewrite replace_length]. }
    destruct (IH (S k) (with_mem b m1) (replace ws k (shifted off w))) as (m2 & E2 & S2); auto; try lia.
    { apply (rs_history _ _ _ _ S1). exact R. }
    exists m2. rewrite (rs_place _ _ _ _ S1) in E2. cbn [b_mem with_mem] in E2. split; [exact E2|].
    rewrite with_mem_twice in S2. pose proof (rstep_trans _ _ _ _ _ _ S1 S2) as S3.
    rewrite firstn_replace in S3 by lia. rewrite <- app_assoc in S3.
    assert (SK : skipn k ws = w :: skipn (S k) ws).
    { clear - Nw. revert k Nw; induction ws as [|x ws IH]; intros [|k] H; try discriminate.
      - cbn in H |- *. congruence.
      - cbn [nth_error] in H. change (skipn (S k) (x :: ws)) with (skipn k ws). rewrite (IH k H). reflexivity. }
    rewrite SK. cbn [map].
    assert (SR : skipn (S k) (replace ws k (shifted off w)) = skipn (S k) ws).
    { clear. unfold replace. revert k; induction ws as [|x ws IH]; intros [|k]; try reflexivity.
      cbn [firstn skipn app]. cbn [skipn] in IH. apply IH. }
    rewrite SR in S3. exact S3.
Qed.

(* ---------------- finding rows ---------------- *)

Lemma paddr_row b i ws : reachable any b -> rowat b i ws ->
  paddr_at (b_mem b) (data_addr (b_h b)) (Z.of_nat i) = Some (place b i) /\ 0 < place b i.
Proof.
  intros R (O & _ & L). destruct (entry_ok b i _ _ R O) as (o & E0 & _ & E1 & E2 & E3 & E4).
  split; [|apply (place_facts b i _ _ R O)].
  unfold paddr_at. rewrite E0. cbn [bind]. unfold get_paddr. rewrite E1, E3, E4. cbn [bind].
  rewrite map_length, L. exact E2.
Qed.

Lemma paddr_none b i o : reachable any b -> nth_error (objects b) i = Some o -> no_row o ->
  paddr_at (b_mem b) (data_addr (b_h b)) (Z.of_nat i) = Some 0.
Proof.
  intros R O N. destruct o as [t cells]. destruct (entry_ok b i _ _ R O) as (e & E0 & _ & E1 & E2 & E3 & E4).
  unfold paddr_at. rewrite E0. cbn [bind]. unfold get_paddr. rewrite E1, E3, E4. cbn [bind].
  destruct N as [N|N].
  - cbn [fst] in N. unfold T_PARTICLES_ADDR. rewrite (proj2 (Z.eqb_neq t 512)) by assumption. reflexivity.
  - unfold words_in in N. cbn [snd] in N. unfold P_SIZE. rewrite (proj2 (Z.leb_gt 176 _)) by lia.
    now rewrite andb_false_r.
Qed.

(* ---------------- storing ---------------- *)

Lemma addresses_eq b i n : addresses b i n = set_ptrs b i n.
Proof. unfold addresses, set_ptrs. apply map_ext. intros a. ring. Qed.

Lemma store_set bt bp i ws n cols : reachable any bt -> rowat bt i ws -> reachable any bp ->
  set_at bp i n cols -> 0 < n ->
  exists bt', store_one bt bp (Z.of_nat i) = Some (0, bt') /\ rstep bt i (n :: addresses bp i n) bt'.
Proof.
  intros R O RP S Hn. destruct (paddr_row bt i ws R O) as (E & Pp).
  pose proof (find_set bp i n cols RP S Hn) as EP. pose proof S as (OP & C).
  assert (PF : 0 < place bp i /\ place bp i + 8 * set_words n < 2 ^ 64).
  { destruct (set_nth n cols C) as (_ & _ & _ & <-). unfold words_in.
    destruct (particle_set n cols) as [t cells]. eapply place_facts; eauto. }
  unfold set_words in PF. destruct (set_read bp i n cols RP S) as (R0 & R1 & _).
  assert (HR : forall a w, nth_error (n :: addresses bp i n) a = Some w ->
    rd (b_mem bp) (place bp i + 8 * Z.of_nat (0 + a)) = Some w /\ 0 <= w < 2 ^ 64).
  { intros [|a] w H.
    - cbn [nth_error] in H. change (8 * Z.of_nat (0 + 0)) with 0. rewrite Z.add_0_r.
      assert (n = w) as <- by congruence. split; [exact R0|]. destruct C as (C & _). lia.
    - cbn [nth_error] in H. rewrite addresses_eq in H.
      assert (La : (a < 21)%nat) by (rewrite <- (set_ptrs_len bp i n); apply nth_error_Some; congruence).
      rewrite set_ptrs_nth in H by assumption.
      assert (w = place bp i + (176 + 8 * n * Z.of_nat a)) as -> by congruence.
      split; [|nia]. rewrite <- (R1 a La). f_equal. lia. }
  assert (L : length (n :: addresses bp i n) = 22%nat) by (cbn [length]; now rewrite addresses_eq, set_ptrs_len).
  assert (W : words64 (n :: addresses bp i n)).
  { apply Forall_forall. intros w Hw. apply In_nth_error in Hw as (a & Hw). apply (HR a w Hw). }
  destruct (assign_fields i (b_mem bp) (place bp i) (n :: addresses bp i n) 0 bt ws R O) as (m' & Em & Sm);
    [rewrite L; lia|exact W|intros a w Ha; apply (HR a w Ha)|].
  exists (with_mem bt m'). split; [|exact Sm].
  unfold store_one. rewrite E. cbn [bind]. rewrite (proj2 (Z.eqb_neq (place bt i) 0)) by lia.
  rewrite EP. cbn [bind]. rewrite (proj2 (Z.eqb_neq (place bp i) 0)) by lia.
  unfold pa_assign_from. rewrite (proj2 (Z.eqb_neq (place bt i) 0)), (proj2 (Z.eqb_neq (place bp i) 0)) by lia.
  cbn [orb]. rewrite <- offs_all. rewrite L in Em. rewrite Em. reflexivity.
Qed.

Lemma store_none bt bp i ws o : reachable any bt -> rowat bt i ws -> reachable any bp ->
  nth_error (objects bp) i = Some o -> no_particles o ->
  exists bt', store_one bt bp (Z.of_nat i) = Some (0, bt') /\ rstep bt i (0 :: zeros) bt'.
Proof.
  intros R O RP OP N. destruct (paddr_row bt i ws R O) as (E & Pp).
  pose proof (find_none bp i o RP OP N) as EP.
  unfold store_one. rewrite E. cbn [bind]. rewrite (proj2 (Z.eqb_neq (place bt i) 0)) by lia.
  rewrite EP. cbn [bind]. rewrite Z.eqb_refl. unfold pa_preset, pa_clear.
  rewrite (proj2 (Z.eqb_neq (place bt i) 0)) by lia.
  destruct (row_write bt i ws 0 0 R O ltac:(lia) ltac:(lia)) as (m1 & E1 & S1).
  change (8 * Z.of_nat 0) with 0 in E1. rewrite Z.add_0_r in E1. rewrite E1. cbn [bind].
  pose proof O as (OO & WW & LL).
  assert (O1 : rowat (with_mem bt m1) i (replace ws 0 0)).
  { eapply row_after; eauto; [apply words_replace; [auto|lia]|now rewrite replace_length]. }
  destruct (clear_fields i 21 1 (with_mem bt m1) (replace ws 0 0)) as (m2 & E2 & S2); auto.
  { apply (rs_history _ _ _ _ S1). exact R. }
  rewrite (rs_place _ _ _ _ S1), offs_some in E2. cbn [b_mem with_mem] in E2. rewrite E2. cbn [bind].
  exists (with_mem bt m2). split; [reflexivity|]. rewrite with_mem_twice in S2.
  pose proof (rstep_trans _ _ _ _ _ _ S1 S2) as S3.
  destruct ws as [|w ws]; [discriminate|]. exact S3.
Qed.

Lemma store_norow bt bp i o : reachable any bt -> nth_error (objects bt) i = Some o -> no_row o ->
  store_one bt bp (Z.of_nat i) = Some (-1, bt).
Proof.
  intros R O N. unfold store_one. rewrite (paddr_none bt i o R O N). reflexivity.
Qed.

Lemma proper_cases b i o : proper_sets b -> nth_error (objects b) i = Some o ->
  (exists n cols, 0 < n /\ set_at b i n cols) \/ no_particles o.
Proof.
  intros PS O. destruct o as [t cells]. destruct (Z.eq_dec t 1) as [->|Ht].
  - destruct (PS i 1 cells O eq_refl) as (n & cols & S). pose proof S as (O' & C).
    destruct (Z_lt_dec 0 n) as [Hn|Hn]; [left; eauto|]. right. right.
    assert (E : (1, cells) = particle_set n cols) by congruence. rewrite E.
    destruct (set_nth n cols C) as (_ & _ & _ & ->). unfold set_words. destruct C as (C & _). lia.
  - right. left. exact Ht.
Qed.

Lemma is_row_at b i o : nth_error (objects b) i = Some o -> is_row o -> exists ws, rowat b i ws.
Proof. intros O (n & addrs & -> & W & L). exists (n :: addrs). now apply rowat_row. Qed.

(* storing one row *)
Lemma store_row bt bp i r : reachable any bt -> nth_error (objects bt) i = Some r -> is_row r ->
  reachable any bp -> proper_sets bp -> (i < length (objects bp))%nat ->
  exists bt' r', store_one bt bp (Z.of_nat i) = Some (0, bt') /\ row_for bp i r' /\
    objects bt' = replace (objects bt) i r' /\ same_history bt bt' /\ b_h bt' = b_h bt.
Proof.
  intros R O IR RP PS Hi. destruct (is_row_at bt i r O IR) as (ws & RW).
  destruct (nth_error (objects bp) i) as [o|] eqn:OP; [|apply nth_error_None in OP; lia].
  destruct (proper_cases bp i o PS OP) as [(n & cols & Hn & S)|N].
  - destruct (store_set bt bp i ws n cols R RW RP S Hn) as (bt' & E & [S1 S2 _ S4]).
    exists bt', (row n (addresses bp i n)). split; [exact E|]. split; [left; eauto 10|]. auto.
  - destruct (store_none bt bp i ws o R RW RP OP N) as (bt' & E & [S1 S2 _ S4]).
    exists bt', (row 0 zeros). split; [exact E|]. split; [right; eauto|]. auto.
Qed.

Lemma row_for_is_row b i r : reachable any b -> row_for b i r -> is_row r.
Proof.
  intros R [(n & cols & Hn & S & ->)|(o & _ & _ & ->)].
  - exists n, (addresses b i n). split; [reflexivity|]. destruct S as (O & C).
    assert (PF : 0 < place b i /\ place b i + 8 * set_words n < 2 ^ 64).
    { destruct (set_nth n cols C) as (_ & _ & _ & <-). unfold words_in.
      destruct (particle_set n cols) as [t cells]. eapply place_facts; eauto. }
    unfold set_words in PF. split.
    + constructor; [destruct C as (C & _); lia|]. apply Forall_forall. intros w Hw. unfold addresses in Hw.
      apply in_map_iff in Hw as (a & <- & Ha). unfold zseq in Ha. apply in_map_iff in Ha as (k & <- & Hk).
      apply in_seq in Hk. change (Z.to_nat NUM) with 21%nat in Hk. nia.
    + unfold addresses. rewrite map_length, zseq_length. reflexivity.
  - exists 0, zeros. split; [reflexivity|]. split; [|reflexivity].
    constructor; [lia|]. apply Forall_forall. intros w Hw. apply repeat_spec in Hw. lia.
Qed.

(* the loop: all rows up to the first object that is none *)
Lemma store_loop_ok bp : reachable any bp -> proper_sets bp -> forall n i bt st,
  reachable any bt -> (i + n = length (objects bt))%nat -> length (objects bt) = length (objects bp) ->
  (forall k r, nth_error (objects bt) k = Some r -> (i <= k)%nat -> is_row r \/ no_row r) ->
  exists st' bt' z, store_loop bt bp (Z.of_nat i) n st = Some (st', bt') /\ same_history bt bt' /\
    b_h bt' = b_h bt /\ length (objects bt') = length (objects bt) /\
    (i <= z <= i + n)%nat /\
    (forall k, (i <= k < z)%nat -> (exists r, nth_error (objects bt') k = Some r /\ row_for bp k r) /\
       exists r, nth_error (objects bt) k = Some r /\ is_row r) /\
    (forall k, (k < i)%nat \/ (z <= k)%nat -> nth_error (objects bt') k = nth_error (objects bt) k) /\
    ((z < i + n)%nat -> st' = -1 /\ exists o, nth_error (objects bt) z = Some o /\ no_row o) /\
    (z = (i + n)%nat -> (0 < n)%nat -> st' = 0) /\
    (n = O -> st' = st).
Proof.
  intros RP PS. induction n as [|n IH]; intros i bt st R L LL H.
  - exists st, bt, i. cbn [store_loop]. split; [reflexivity|]. split; [split; auto|]. split; [reflexivity|].
    split; [reflexivity|]. split; [lia|]. split; [intros; lia|]. split; [reflexivity|]. split; [lia|]. split; [lia|auto].
  - cbn [store_loop]. destruct (nth_error (objects bt) i) as [r|] eqn:O; [|apply nth_error_None in O; lia].
    destruct (H i r O ltac:(lia)) as [IR|NR].
    + destruct (store_row bt bp i r R O IR RP PS ltac:(lia)) as (b1 & r1 & E1 & RF & Eo & SH & HH).
      rewrite E1. cbn [bind]. change (0 =? 0) with true. cbn iota.
      assert (L1 : length (objects b1) = length (objects bt)) by (rewrite Eo; apply replace_length).
      assert (N1 : forall k, nth_error (objects b1) k = if Nat.eqb k i then Some r1 else nth_error (objects bt) k).
      { intros k. destruct (Nat.eqb_spec k i) as [->|Hk].
        - rewrite Eo. eapply nth_replace_same; eauto.
        - rewrite Eo. destruct (Nat.lt_ge_cases k (length (objects bt))) as [Lk|Lk].
          + rewrite replace_nth by lia. now rewrite (proj2 (Nat.eqb_neq k i)).
          + rewrite (proj2 (nth_error_None (objects bt) k)) by lia. apply nth_error_None. now rewrite replace_length. }
      replace (Z.of_nat i + 1) with (Z.of_nat (S i)) by lia.
      destruct (IH (S i) b1 0) as (st' & bt' & z & E & SH' & HH' & LL' & Z1 & Z2 & Z3 & Z4 & Z5 & Z6); try lia.
      { apply SH. exact R. }
      { intros k r' Hk Hle. rewrite N1 in Hk. rewrite (proj2 (Nat.eqb_neq k i)) in Hk by lia. apply (H k r' Hk). lia. }
      exists st', bt', z. split; [exact E|]. split; [eapply history_trans; eauto|]. split; [congruence|].
      split; [congruence|]. split; [lia|]. split; [|split; [|split; [|split]]].
      * intros k Hk. destruct (Nat.eq_dec k i) as [->|Hne].
        -- split; [|eauto]. exists r1. split; [|exact RF]. rewrite Z3 by lia. rewrite N1. now rewrite Nat.eqb_refl.
        -- destruct (Z2 k ltac:(lia)) as (X1 & X2). split; [exact X1|].
           rewrite N1, (proj2 (Nat.eqb_neq k i)) in X2 by lia. exact X2.
      * intros k Hk. rewrite Z3 by lia. rewrite N1, (proj2 (Nat.eqb_neq k i)) by lia. reflexivity.
      * intros Hz. destruct (Z4 ltac:(lia)) as (X1 & o & X2 & X3). split; [exact X1|]. exists o. split; [|exact X3].
        rewrite N1, (proj2 (Nat.eqb_neq z i)) in X2 by lia. exact X2.
      * intros Hz _. destruct n as [|n]; [now apply Z6|]. apply Z5; lia.
      * lia.
    + rewrite (store_norow bt bp i r R O NR). cbn [bind]. change (-1 =? 0) with false. cbn iota.
      exists (-1), bt, i. split; [reflexivity|]. split; [split; auto|]. split; [reflexivity|]. split; [reflexivity|].
      split; [lia|]. split; [intros; lia|]. split; [reflexivity|]. split; [eauto|]. split; lia.
Qed.

Lemma store_all_other bt bp : reachable any bt -> reachable any bp ->
  length (objects bt) <> length (objects bp) \/ objects bp = [] -> store_all bt bp = Some (-1, bt).
Proof.
  intros R RP H. unfold store_all. rewrite (proj1 (num_objects_ok bt R)), (proj1 (num_objects_ok bp RP)). cbn [bind].
  destruct H as [H| ->].
  - rewrite (proj2 (Z.eqb_neq _ _)) by lia. now rewrite andb_false_r.
  - reflexivity.
Qed.

Lemma store_all_eq bt bp : reachable any bt -> reachable any bp -> length (objects bt) = length (objects bp) ->
  objects bp <> [] -> store_all bt bp = store_loop bt bp (Z.of_nat 0) (length (objects bt)) (-1).
Proof.
  intros R RP L NE. unfold store_all. rewrite (proj1 (num_objects_ok bt R)), (proj1 (num_objects_ok bp RP)). cbn [bind].
  rewrite L, Z.eqb_refl, Nat2Z.id. destruct (objects bp); [congruence|reflexivity].
Qed.

Lemma store_all_ok bt bp : reachable any bt -> reachable any bp -> proper_sets bp ->
  length (objects bt) = length (objects bp) -> objects bp <> [] -> Forall is_row (objects bt) ->
  exists bt', store_all bt bp = Some (0, bt') /\ table_of bp bt' /\ same_history bt bt'.
Proof.
  intros R RP PS L NE FR. rewrite store_all_eq by assumption.
  assert (FR' : forall k r, nth_error (objects bt) k = Some r -> is_row r)
    by (intros k r Hk; apply (proj1 (Forall_forall _ _) FR); eapply nth_error_In; eauto).
  destruct (store_loop_ok bp RP PS (length (objects bt)) 0 bt (-1) R ltac:(lia) L) as
    (st' & bt' & z & E & SH & HH & LL & Z1 & Z2 & Z3 & Z4 & Z5 & _).
  { intros k r Hk _. left. eauto. }
  assert (Hz : z = length (objects bt)).
  { destruct (Nat.eq_dec z (length (objects bt))) as [->|Hne]; [reflexivity|].
    destruct (Z4 ltac:(lia)) as (_ & o & X1 & X2). apply FR' in X1.
    destruct X1 as (n & addrs & -> & _ & La). destruct X2 as [X2|X2]; [now destruct X2|].
    unfold words_in, row in X2. cbn [snd map length] in X2. rewrite map_length in X2. unfold NUM in La. lia. }
  subst z. exists bt'. assert (st' = 0) as ->.
  { apply Z5; [lia|]. destruct (objects bp); [congruence|cbn [length] in L; lia]. }
  split; [exact E|]. split; [|exact SH]. split; [congruence|]. intros i r Hr.
  assert (Hi : (i < length (objects bt'))%nat) by (apply nth_error_Some; congruence).
  destruct (Z2 i ltac:(lia)) as ((r' & N & RF) & _). congruence.
Qed.

Lemma store_all_stops bt bp z o : reachable any bt -> reachable any bp -> proper_sets bp ->
  length (objects bt) = length (objects bp) ->
  (forall k r, nth_error (objects bt) k = Some r -> is_row r \/ no_row r) ->
  nth_error (objects bt) z = Some o -> no_row o ->
  (forall k r, nth_error (objects bt) k = Some r -> (k < z)%nat -> is_row r) ->
  exists bt', store_all bt bp = Some (-1, bt') /\ same_history bt bt' /\
    length (objects bt') = length (objects bt) /\
    (forall k, (k < z)%nat -> exists r, nth_error (objects bt') k = Some r /\ row_for bp k r) /\
    (forall k, (z <= k)%nat -> nth_error (objects bt') k = nth_error (objects bt) k).
Proof.
  intros R RP PS L FR Oz Nz FZ.
  assert (Lz : (z < length (objects bt))%nat) by (apply nth_error_Some; congruence).
  rewrite store_all_eq; auto; [|intros X; rewrite X in L; cbn [length] in L; lia].
  destruct (store_loop_ok bp RP PS (length (objects bt)) 0 bt (-1) R ltac:(lia) L) as
    (st' & bt' & z' & E & SH & HH & LL & Z1 & Z2 & Z3 & Z4 & Z5 & _).
  { intros k r Hk _. eauto. }
  assert (NR : forall r, is_row r -> no_row r -> False).
  { intros r (n & addrs & -> & _ & La) [X2|X2]; [now destruct X2|].
    unfold words_in, row in X2. cbn [snd map length] in X2. rewrite map_length in X2. unfold NUM in La. lia. }
  assert (z' = z) as ->.
  { destruct (Nat.lt_trichotomy z' z) as [Hl|[Hl|Hl]]; [exfalso|exact Hl|exfalso].
    - destruct (Z4 ltac:(lia)) as (_ & o' & X1 & X2). eapply NR; [|exact X2]. eapply FZ; eauto.
    - destruct (Z2 z ltac:(lia)) as (_ & r & X1 & X2). apply (NR r X2). congruence. }
  exists bt'. destruct (Z4 ltac:(lia)) as (-> & _). split; [exact E|]. split; [exact SH|]. split; [exact LL|].
  split; [intros k Hk; apply (Z2 k); lia|intros; apply Z3; lia].
Qed.

(* ---------------- moving the addresses ---------------- *)

(* what moving does to a row *)
Definition move_row (off : Z) (ws : list Z) : list Z :=
  match ws with
  | n :: addrs => if (off =? 0) || existsb (Z.eqb 0) addrs then n :: addrs else n :: map (shifted off) addrs
  | [] => []
  end.

Lemma move_row_words off ws : words64 ws -> words64 (move_row off ws) /\ length (move_row off ws) = length ws.
Proof.
  intros W. destruct ws as [|n addrs]; [auto|]. cbn [move_row].
  destruct ((off =? 0) || existsb (Z.eqb 0) addrs); [auto|]. inversion W as [|? ? W1 W2]; subst. split.
  - constructor; [exact W1|]. apply Forall_forall. intros w Hw. apply in_map_iff in Hw as (x & <- & Hx).
    apply shifted_range. exact (proj1 (Forall_forall _ _) W2 x Hx).
  - cbn [length]. now rewrite map_length.
Qed.

Lemma remap_row b i ws off : reachable any b -> rowat b i ws -> off <> - 2 ^ 63 ->
  exists m', pa_remap (b_mem b) (place b i) off = Some m' /\ rstep b i (move_row off ws) (with_mem b m').
Proof.
  intros R O Ho. destruct (paddr_row b i ws R O) as (_ & Pp). pose proof O as (OO & WW & LL).
  unfold pa_remap. rewrite (proj2 (Z.eqb_neq (place b i) 0)) by lia.
  destruct ws as [|n addrs]; [discriminate|]. cbn [length] in LL.
  rewrite (pointers_read (b_mem b) (place b i) addrs); [|lia|].
  2:{ intros a w Ha. rewrite <- (row_read b i (n :: addrs) (S a) w R O Ha). f_equal. lia. }
  cbn [bind move_row]. destruct ((off =? 0) || existsb (Z.eqb 0) addrs).
  - exists (b_mem b). split; [reflexivity|]. rewrite with_mem_same. now apply rstep_refl.
  - rewrite (proj2 (Z.eqb_neq off (- 2 ^ 63))) by assumption.
    destruct (shift_fields i off 21 1 b (n :: addrs) R O eq_refl) as (m' & E & S). rewrite offs_some in E.
    exists m'. split; [exact E|]. exact S.
Qed.

Definition mapi_from {S T} (f : S -> T) (i : nat) (l : list S) (g : S -> T) : list T :=
  map g (firstn i l) ++ map f (skipn i l).

Definition move_object (off : Z) (o : Z * list cell) : Z * list cell :=
  (fst o, map Raw (move_row off (map (fun c => match c with Raw w => w | Ptr q => q end) (snd o)))).

Lemma raw_words ws : map (fun c => match c with Raw w => w | Ptr q => q end) (map Raw ws) = ws.
Proof. rewrite map_map. cbn. apply map_id. Qed.

Lemma nth_after {T} (l : list T) i k x : (i < length l)%nat ->
  nth_error (replace l i x) k = if Nat.eqb k i then Some x else nth_error l k.
Proof.
  intros Hi. destruct (Nat.lt_ge_cases k (length l)) as [Lk|Lk]; [now rewrite replace_nth by lia|].
  rewrite (proj2 (Nat.eqb_neq k i)) by lia. rewrite (proj2 (nth_error_None l k)) by lia.
  apply nth_error_None. now rewrite replace_length.
Qed.

Lemma remap_loop_ok off : off <> - 2 ^ 63 -> forall n i b, reachable any b -> (i + n = length (objects b))%nat ->
  (forall k r, nth_error (objects b) k = Some r -> (i <= k)%nat -> is_row r \/ no_row r) ->
  exists b', remap_loop b off (Z.of_nat i) n = Some b' /\ same_history b b' /\
    length (objects b') = length (objects b) /\
    (forall k, (k < i)%nat -> nth_error (objects b') k = nth_error (objects b) k) /\
    (forall k ws, (i <= k)%nat -> rowat b k ws -> nth_error (objects b') k = Some (512, map Raw (move_row off ws))) /\
    (forall k r, (i <= k)%nat -> nth_error (objects b) k = Some r -> no_row r -> nth_error (objects b') k = Some r).
Proof.
  intros Ho. induction n as [|n IH]; intros i b R L H.
  - exists b. cbn [remap_loop]. split; [reflexivity|]. split; [split; auto|]. split; [reflexivity|]. split; [reflexivity|].
    split; [|auto]. intros k ws Hk (O & _). assert (k < length (objects b))%nat by (apply nth_error_Some; congruence). lia.
  - cbn [remap_loop]. destruct (nth_error (objects b) i) as [r|] eqn:O; [|apply nth_error_None in O; lia].
    replace (Z.of_nat i + 1) with (Z.of_nat (S i)) by lia.
    assert (Li : (i < length (objects b))%nat) by lia.
    destruct (H i r O ltac:(lia)) as [IR|NR].
    + destruct (is_row_at b i r O IR) as (ws & RW). destruct (paddr_row b i ws R RW) as (E & Pp).
      rewrite E. cbn [bind]. destruct (remap_row b i ws off R RW Ho) as (m' & Em & [S1 S2 S3 S4]).
      rewrite Em. cbn [bind].
      assert (N1 : forall k, nth_error (objects (with_mem b m')) k =
        if Nat.eqb k i then Some (512, map Raw (move_row off ws)) else nth_error (objects b) k)
        by (intros k; rewrite S1; now apply nth_after).
      assert (L1 : length (objects (with_mem b m')) = length (objects b)) by (rewrite S1; apply replace_length).
      destruct (IH (S i) (with_mem b m')) as (b' & E' & SH & LL & A1 & A2 & A3).
      { apply S2. exact R. }
      { lia. }
      { intros k r' Hk Hle. rewrite N1, (proj2 (Nat.eqb_neq k i)) in Hk by lia. apply (H k r' Hk). lia. }
      exists b'. split; [exact E'|]. split; [eapply history_trans; eauto|]. split; [congruence|].
      split; [|split].
      * intros k Hk. rewrite A1 by lia. rewrite N1, (proj2 (Nat.eqb_neq k i)) by lia. reflexivity.
      * intros k ws' Hk RW'. destruct (Nat.eq_dec k i) as [->|Hne].
        -- rewrite A1 by lia. rewrite N1, Nat.eqb_refl. do 3 f_equal. destruct RW as (X & _), RW' as (Y & _).
           rewrite X in Y. assert (Z : map Raw ws = map Raw ws') by congruence.
           rewrite <- (raw_words ws), <- (raw_words ws'), Z. reflexivity.
        -- apply A2; [lia|]. destruct RW' as (X & Y & Z). split; [|auto]. rewrite N1, (proj2 (Nat.eqb_neq k i)) by lia. exact X.
      * intros k r' Hk Hr NR'. destruct (Nat.eq_dec k i) as [->|Hne].
        -- exfalso. rewrite O in Hr. assert (r' = r) as -> by congruence.
           destruct IR as (n0 & addrs & -> & _ & La). destruct NR' as [X2|X2]; [now destruct X2|].
           unfold words_in, row in X2. cbn [snd map length] in X2. rewrite map_length in X2. unfold NUM in La. lia.
        -- apply A3; [lia| |exact NR']. rewrite N1, (proj2 (Nat.eqb_neq k i)) by lia. exact Hr.
    + rewrite (paddr_none b i r R O NR). cbn [bind]. unfold pa_remap. rewrite Z.eqb_refl. cbn [bind].
      rewrite with_mem_same. destruct (IH (S i) b R ltac:(lia)) as (b' & E' & SH & LL & A1 & A2 & A3).
      { intros k r' Hk Hle. apply (H k r' Hk). lia. }
      exists b'. split; [exact E'|]. split; [exact SH|]. split; [exact LL|]. split; [|split].
      * intros k Hk. apply A1. lia.
      * intros k ws Hk RW. destruct (Nat.eq_dec k i) as [->|Hne]; [|apply A2; [lia|exact RW]].
        exfalso. destruct RW as (X & _ & Y). rewrite O in X. assert (r = (512, map Raw ws)) as -> by congruence.
        destruct NR as [X2|X2]; [now apply X2|]. unfold words_in in X2. cbn [snd] in X2. rewrite map_length in X2. lia.
      * intros k r' Hk Hr NR'. destruct (Nat.eq_dec k i) as [->|Hne]; [|apply A3; auto; lia].
        rewrite A1 by lia. exact Hr.
Qed.

Lemma remap_all_ok b off : off <> - 2 ^ 63 -> reachable any b ->
  (forall k r, nth_error (objects b) k = Some r -> is_row r \/ no_row r) ->
  exists b', remap_all b off = Some b' /\ same_history b b' /\ length (objects b') = length (objects b) /\
    (forall k ws, rowat b k ws -> nth_error (objects b') k = Some (512, map Raw (move_row off ws))) /\
    (forall k r, nth_error (objects b) k = Some r -> no_row r -> nth_error (objects b') k = Some r).
Proof.
  intros Ho R H. unfold remap_all. rewrite (proj1 (num_objects_ok b R)). cbn [bind]. rewrite Nat2Z.id.
  destruct (remap_loop_ok off Ho (length (objects b)) 0 b R ltac:(lia)) as (b' & E & SH & LL & _ & A2 & A3).
  { intros k r Hk _. eauto. }
  exists b'. split; [exact E|]. split; [exact SH|]. split; [exact LL|]. split; intros; [apply A2|apply A3]; auto; lia.
Qed.

(* ---------------- what stays where it is ---------------- *)

Lemma later_reach b b' : later b b' -> reachable any b -> reachable any b'.
Proof.
  induction 1 as [b|b b1 hp q r b2 H IH Hh Rq E Hr|b b1 i k v b2 H IH W Hk|b b1 b2 H IH K]; intros R; auto.
  - exact (r_add any hp b1 q r b2 (IH R) Hh Rq Logic.I E Hr).
  - exact (r_write any b1 i k v b2 (IH R) W).
  - exact (r_keep any b1 b2 (IH R) K).
Qed.

Lemma cell_of n cols k : columns n cols -> (22 <= k)%nat -> (k < length (snd (particle_set n cols)))%nat ->
  exists a j, (a < 21)%nat /\ 0 <= j < n /\ k = cellno n a j.
Proof.
  intros C Hk Hl. destruct (set_nth n cols C) as (_ & _ & _ & W). unfold words_in, set_words in W.
  destruct C as (Hn & _). pose proof (Z.div_mod (Z.of_nat k - 22) n ltac:(lia)) as DM.
  assert (0 < n) by lia. pose proof (Z.mod_pos_bound (Z.of_nat k - 22) n ltac:(lia)) as MB.
  assert (0 <= (Z.of_nat k - 22) / n) by (apply Z.div_pos; lia).
  assert ((Z.of_nat k - 22) / n < 21) by (apply Z.div_lt_upper_bound; lia).
  exists (Z.to_nat ((Z.of_nat k - 22) / n)), ((Z.of_nat k - 22) mod n). split; [lia|]. split; [lia|].
  unfold cellno. rewrite <- Z2Nat.inj_mul by lia. nia.
Qed.

Lemma writes_facts b i k v b' : writes b i k v b' ->
  exists t cells w, nth_error (objects b) i = Some (t, cells) /\ nth_error cells k = Some (Raw w) /\ 0 <= v < 2 ^ 64.
Proof. intros [b0 i1 k1 v1 t cells w m' Ho Hc Hv _]. eauto 10. Qed.

Lemma later_facts b b' : later b b' -> reachable any b ->
  (length (objects b) <= length (objects b'))%nat /\
  forall i, (i < length (objects b))%nat ->
    place b' i - data_addr (b_h b') = place b i - data_addr (b_h b) /\
    (forall n cols, set_at b i n cols -> exists cols', set_at b' i n cols') /\
    (forall o, nth_error (objects b) i = Some o -> no_particles o ->
       exists o', nth_error (objects b') i = Some o' /\ no_particles o').
Proof.
  induction 1 as [b|b b1 hp q r b2 H IH Hh Rq E Hr|b b1 i0 k v b2 H IH W Hk|b b1 b2 H IH K]; intros R.
  - split; [lia|]. intros i Hi. split; [reflexivity|]. split; eauto.
  - pose proof (later_reach _ _ H R) as R1. specialize (IH R) as (L & IH).
    destruct (put_object hp b1 q R1 Hh Rq) as (p & b2' & Ep & AD & _ & _ & _ & PL).
    rewrite E in Ep. cbn [bind new_begin] in Ep. rewrite (proj2 (Z.eqb_neq r 0) Hr) in Ep.
    pose proof (add_entry hp b1 q r b2 R1 Hh Rq E Hr) as RD. rewrite RD in Ep. cbn [bind] in Ep.
    assert (b2' = b2) as -> by congruence.
    destruct (add_one hp b1 q r b2 R1 Hh Rq E Hr) as (o & So & Eo).
    assert (R2 : reachable any b2) by exact  (r_add any hp b1 q r b2 R1 Hh Rq Logic.I E Hr).
    assert (Hp : p <> 0).
    { assert (Np : nth_error (objects b2) (length (objects b1)) = Some o)
        by (rewrite Eo, nth_error_app2 by lia; now rewrite Nat.sub_diag).
      destruct o as [t cells]. pose proof (place_facts b2 _ _ _ R2 Np) as (Pp & _). unfold place in Pp.
      assert (p = obj_begin (b_mem b2) (Z.of_nat (length (objects b1)))) as -> by congruence. lia. }
    split; [rewrite Eo, app_length; lia|]. intros i Hi. destruct (IH i Hi) as (I1 & I2 & I3).
    assert (NN : nth_error (objects b2) i = nth_error (objects b1) i) by (rewrite Eo, nth_error_app1; auto; lia).
    split; [rewrite (PL Hp i) by lia; exact I1|]. split.
    + intros n cols S. destruct (I2 n cols S) as (cols' & S1 & S2). exists cols'. split; [now rewrite NN|exact S2].
    + intros x Hx Nx. rewrite NN. eapply I3; eauto.
  - pose proof (later_reach _ _ H R) as R1. specialize (IH R) as (L & IH).
    destruct (write_one b1 i0 k v b2 R1 W) as (t & cells & N & E).
    destruct (reachable_inv _ _ R1) as (A & I & V & _).
    destruct (write_inv b1 A i0 k v _ I V W) as (A' & I' & V' & _ & _ & M1 & M2 & M3 & M4 & C & O & D).
    assert (Li : (i0 < length (objects b1))%nat) by (apply nth_error_Some; congruence).
    split; [rewrite E, replace_length; exact L|]. intros i Hi. destruct (IH i Hi) as (P1 & I2 & I3).
    split; [|split].
    + rewrite <- P1. rewrite (objects_eq _ _ I), acontent_length in L.
      destruct (nth_error (a_objs A) i) as [[[s n] t']|] eqn:Ni; [|apply nth_error_None in Ni; lia].
      assert (Ni' : nth_error (a_objs A') i = Some (s, n, t')) by (rewrite O; exact Ni).
      rewrite (place_abs b1 A i s n t' I Ni), (place_abs b2 A' i s n t' I' Ni'). lia.
    + intros n cols S. destruct (I2 n cols S) as (cols' & S1 & S2).
      destruct (Nat.eq_dec i i0) as [->|Hne].
      * assert (EE : (t, cells) = particle_set n cols') by congruence.
        assert (t = 1 /\ cells = snd (particle_set n cols')) as (-> & Ec) by (rewrite <- EE; split; [unfold particle_set in EE; congruence|reflexivity]).
        destruct (writes_facts _ _ _ _ _ W) as (t1 & cells1 & w & Ho & Hc & Hv).
        assert (cells1 = cells) as -> by congruence.
        destruct (set_nth n cols' S2) as (_ & NP & _ & _).
        assert (22 <= k)%nat as K22.
        { destruct k as [|k]; [congruence|]. destruct (Nat.lt_ge_cases k 21) as [Lk|Lk]; [|lia].
          rewrite Ec in Hc. rewrite (NP k Lk) in Hc. congruence. }
        destruct (cell_of n cols' k S2 K22) as (a & j & Ha & Hj & ->).
        { rewrite <- Ec. apply nth_error_Some. congruence. }
        destruct (put_cells n cols' a j v S2 Ha Hj Hv) as (C' & Ep).
        exists (put cols' a j v). split; [|exact C']. rewrite E, Ep, <- Ec. eapply nth_replace_same; eauto.
      * exists cols'. split; [|exact S2]. rewrite E, nth_after by assumption. now rewrite (proj2 (Nat.eqb_neq i i0)).
    + intros o Oo No. destruct (I3 o Oo No) as (o' & O' & N'). rewrite E, nth_after by assumption.
      destruct (Nat.eqb_spec i i0) as [->|Hne]; [|eauto]. exists (t, replace cells k (Raw v)). split; [reflexivity|].
      assert ((t, cells) = o') as <- by congruence. destruct N' as [N'|N']; [left; exact N'|right].
      unfold words_in in *. cbn [snd] in *. now rewrite replace_length.
  - pose proof (later_reach _ _ H R) as R1. specialize (IH R) as (L & IH).
    destruct (reachable_inv _ _ R1) as (A & I & V & _).
    destruct (keeps_inv b1 A b2 I V K) as (A' & I' & V' & C' & _ & O & _).
    assert (EQ : objects b2 = objects b1) by (rewrite (objects_eq _ _ I), (objects_eq _ _ I'); exact C').
    split; [now rewrite EQ|]. intros i Hi. destruct (IH i Hi) as (P1 & I2 & I3). split; [|split].
    + rewrite <- P1. rewrite (objects_eq _ _ I), acontent_length in L.
      destruct (nth_error (a_objs A) i) as [[[s n] t']|] eqn:Ni; [|apply nth_error_None in Ni; lia].
      assert (Ni' : nth_error (a_objs A') i = Some (s, n, t')) by (rewrite O; exact Ni).
      rewrite (place_abs b1 A i s n t' I Ni), (place_abs b2 A' i s n t' I' Ni'). lia.
    + intros n cols S. destruct (I2 n cols S) as (cols' & S1 & S2). exists cols'. split; [now rewrite EQ|exact S2].
    + intros o Oo No. rewrite EQ. eauto.
Qed.

Lemma table_rows b bt : reachable any b -> table_of b bt ->
  forall k r, nth_error (objects bt) k = Some r -> is_row r.
Proof. intros R (_ & T) k r Hk. eapply row_for_is_row; eauto. Qed.

Lemma remap_table bp bp' bt : reachable any bp -> later bp bp' -> reachable any bt -> table_of bp bt ->
  Z.abs (moved bp bp') < 2 ^ 63 ->
  exists bt', remap_all bt (moved bp bp') = Some bt' /\ same_history bt bt' /\
    length (objects bt') = length (objects bt) /\
    forall i r, nth_error (objects bt') i = Some r -> row_for bp' i r.
Proof.
  intros R LA RT T HM. destruct (later_facts bp bp' LA R) as (LL & LF). pose proof (later_reach _ _ LA R) as R'.
  pose proof (table_rows bp bt R T) as TR. destruct T as (TL & T).
  destruct (remap_all_ok bt (moved bp bp') ltac:(lia) RT) as (bt' & E & SH & LB & A2 & _).
  { intros k r Hk. left. eauto. }
  exists bt'. split; [exact E|]. split; [exact SH|]. split; [exact LB|]. intros i r Hr.
  assert (Hi : (i < length (objects bt))%nat) by (rewrite <- LB; apply nth_error_Some; congruence).
  destruct (nth_error (objects bt) i) as [r0|] eqn:N0; [|apply nth_error_None in N0; lia].
  destruct (LF i ltac:(lia)) as (P1 & P2 & P3). pose proof (TR i r0 N0) as IR. pose proof (T i r0 N0) as RF.
  destruct RF as [(n & cols & Hn & S & ->)|(o & Oo & No & ->)].
  - destruct IR as (n' & addrs & Er & W & L). assert (n' = n) as -> by (unfold row in Er; cbn [map] in Er; congruence).
    assert (RW : rowat bt i (n :: addresses bp i n)).
    { apply rowat_row; [exact N0| |].
      - destruct (row_for_is_row bp i _ R (T i _ N0)) as (n2 & a2 & E2 & W2 & _).
        assert (map Raw (n :: addresses bp i n) = map Raw (n2 :: a2)) as X by (unfold row in E2; congruence).
        rewrite <- (raw_words (n :: addresses bp i n)), X, raw_words. exact W2.
      - unfold addresses. rewrite map_length, zseq_length. reflexivity. }
    rewrite (A2 i _ RW) in Hr.
    destruct (P2 n cols S) as (cols' & S'). left. exists n, cols'. split; [exact Hn|]. split; [exact S'|].
    assert (r = (512, map Raw (move_row (moved bp bp') (n :: addresses bp i n)))) as -> by congruence.
    unfold row. do 2 f_equal. cbn [move_row].
    assert (PF : forall b, reachable any b -> forall cols, set_at b i n cols -> 0 < place b i /\ place b i + 8 * set_words n < 2 ^ 64).
    { intros b Rb c (O & C). destruct (set_nth n c C) as (_ & _ & _ & <-). unfold words_in.
      destruct (particle_set n c) as [t cells]. eapply place_facts; eauto. }
    pose proof (PF bp R cols S) as PF1. pose proof (PF bp' R' cols' S') as PF2. unfold set_words in *.
    assert (Ad : forall w, In w (addresses bp i n) -> exists a, 0 <= a < 21 /\ w = place bp i + 176 + 8 * n * a).
    { intros w Hw. unfold addresses in Hw. apply in_map_iff in Hw as (a & <- & Ha). exists a. split; [|reflexivity].
      unfold zseq in Ha. apply in_map_iff in Ha as (k & <- & Hk). apply in_seq in Hk. change (Z.to_nat NUM) with 21%nat in Hk. lia. }
    assert (EX : existsb (Z.eqb 0) (addresses bp i n) = false).
    { apply not_true_is_false. intros X. apply existsb_exists in X as (w & Hw & X). apply Z.eqb_eq in X.
      destruct (Ad w Hw) as (a & Ha & ->). nia. }
    rewrite EX, orb_false_r. unfold moved in *.
    destruct (Z.eqb_spec (data_addr (b_h bp') - data_addr (b_h bp)) 0) as [Ez|Ez].
    + f_equal. unfold addresses. apply map_ext. intros a. lia.
    + f_equal. unfold addresses at 1. rewrite map_map. unfold addresses. apply map_ext_in. intros a Ha.
      unfold zseq in Ha. apply in_map_iff in Ha as (k & <- & Hk). apply in_seq in Hk. change (Z.to_nat NUM) with 21%nat in Hk.
      unfold shifted, u64. destruct (Z.ltb_spec 0 (data_addr (b_h bp') - data_addr (b_h bp))) as [Hp|Hp].
      * rewrite Z.mod_small by nia. lia.
      * rewrite (proj2 (Z.leb_le _ _)) by nia. lia.
  - right. destruct (P3 o Oo No) as (o' & O' & N'). exists o'. split; [exact O'|]. split; [exact N'|].
    assert (RW : rowat bt i (0 :: zeros)).
    { apply rowat_row; [exact N0| |reflexivity]. constructor; [lia|]. apply Forall_forall. intros w Hw. apply repeat_spec in Hw. lia. }
    rewrite (A2 i _ RW) in Hr. assert (r = (512, map Raw (move_row (moved bp bp') (0 :: zeros)))) as -> by congruence.
    unfold row. do 2 f_equal. cbn [move_row]. change (existsb (Z.eqb 0) zeros) with true. now rewrite orb_true_r.
Qed.

(* ---------------- comparing ---------------- *)

(* words of two rows: 0 if they are the same, otherwise the sign of the first difference; the
   first word is compared as int64 *)
Fixpoint compare_words (l r : list Z) : Z :=
  match l, r with
  | x :: l', y :: r' => let c := compare_as (fun w => w) x y in if c =? 0 then compare_words l' r' else c
  | _, _ => 0
  end.
Definition compare_rows (l r : list Z) : Z :=
  match l, r with
  | x :: l', y :: r' => let c := compare_as int64 x y in if c =? 0 then compare_words l' r' else c
  | _, _ => 0
  end.

Lemma compare_fields_ok m pl m' pr : forall l r k, length l = length r ->
  (forall a w, nth_error l a = Some w -> rd m (pl + 8 * Z.of_nat (k + a)) = Some w) ->
  (forall a w, nth_error r a = Some w -> rd m' (pr + 8 * Z.of_nat (k + a)) = Some w) ->
  compare_fields m pl m' pr (offs k (length l)) = Some (compare_words l r).
Proof.
  induction l as [|x l IH]; intros [|y r] k L H1 H2; try discriminate; [reflexivity|].
  cbn [length]. rewrite offs_cons. cbn [compare_fields].
  pose proof (H1 0%nat x eq_refl) as X. pose proof (H2 0%nat y eq_refl) as Y. rewrite Nat.add_0_r in X, Y.
  rewrite X, Y. cbn [bind compare_words]. cbv zeta. destruct (compare_as (fun w => w) x y =? 0); [|reflexivity].
  cbn [length] in L. apply IH; [lia| |]; intros a w Ha.
  - rewrite <- (H1 (S a) w Ha). do 3 f_equal. lia.
  - rewrite <- (H2 (S a) w Ha). do 3 f_equal. lia.
Qed.

Lemma compare_row bl br i ws ws' : reachable any bl -> reachable any br -> rowat bl i ws -> rowat br i ws' ->
  pa_compare (b_mem bl) (place bl i) (b_mem br) (place br i) = Some (compare_rows ws ws').
Proof.
  intros RL RR OL OR. destruct (paddr_row bl i ws RL OL) as (_ & P1). destruct (paddr_row br i ws' RR OR) as (_ & P2).
  unfold pa_compare. rewrite (proj2 (Z.eqb_neq (place bl i) 0)), (proj2 (Z.eqb_neq (place br i) 0)) by lia.
  cbn [negb andb]. pose proof OL as (_ & _ & L1). pose proof OR as (_ & _ & L2).
  destruct ws as [|x ws]; [discriminate|]. destruct ws' as [|y ws']; [discriminate|]. cbn [length] in L1, L2.
  pose proof (row_read bl i _ 0 x RL OL eq_refl) as X. pose proof (row_read br i _ 0 y RR OR eq_refl) as Y.
  change (8 * Z.of_nat 0) with 0 in X, Y. rewrite Z.add_0_r in X, Y. rewrite X, Y. cbn [bind compare_rows]. cbv zeta.
  destruct (compare_as int64 x y =? 0); [|reflexivity]. rewrite <- offs_some.
  replace 21%nat with (length ws) by lia. apply compare_fields_ok; [lia| |]; intros a w Ha.
  - exact (row_read bl i _ (S a) w RL OL Ha).
  - exact (row_read br i _ (S a) w RR OR Ha).
Qed.

Lemma int64_inj x y : 0 <= x < 2 ^ 64 -> 0 <= y < 2 ^ 64 -> int64 x = int64 y -> x = y.
Proof. unfold int64. intros Hx Hy. destruct (Z.ltb_spec x (2 ^ 63)), (Z.ltb_spec y (2 ^ 63)); lia. Qed.

Lemma compare_words_zero l r : length l = length r -> compare_words l r = 0 <-> l = r.
Proof.
  revert r; induction l as [|x l IH]; intros [|y r] L; try discriminate; [tauto|].
  cbn [compare_words]. cbv zeta. unfold compare_as at 1 2. cbn [length] in L.
  destruct (Z.eqb_spec x y) as [->|Hne].
  - change (0 =? 0) with true. cbn iota. rewrite IH by lia. split; intros; congruence.
  - assert ((if y <? x then 1 else -1) <> 0) as NZ by (destruct (y <? x); discriminate).
    rewrite (proj2 (Z.eqb_neq _ 0) NZ). split; [congruence|]. intros X. congruence.
Qed.

Lemma compare_rows_zero l r : length l = length r -> words64 l -> words64 r -> compare_rows l r = 0 <-> l = r.
Proof.
  intros L WL WR. destruct l as [|x l], r as [|y r]; try discriminate; [tauto|].
  inversion WL; inversion WR; subst. cbn [compare_rows]. cbv zeta. unfold compare_as at 1 2. cbn [length] in L.
  destruct (Z.eqb_spec (int64 x) (int64 y)) as [He|Hne].
  - change (0 =? 0) with true. cbn iota. rewrite compare_words_zero by lia.
    apply int64_inj in He; auto. subst. split; intros; congruence.
  - assert ((if int64 y <? int64 x then 1 else -1) <> 0) as NZ by (destruct (int64 y <? int64 x); discriminate).
    rewrite (proj2 (Z.eqb_neq _ 0) NZ). split; [congruence|]. intros X. congruence.
Qed.

Lemma compare_words_sym l r : length l = length r -> compare_words r l = - compare_words l r.
Proof.
  revert r; induction l as [|x l IH]; intros [|y r] L; try discriminate; [reflexivity|].
  cbn [compare_words]. cbv zeta. unfold compare_as. cbn [length] in L. rewrite (Z.eqb_sym y x).
  destruct (Z.eqb_spec x y) as [->|Hne].
  - change (0 =? 0) with true. cbn iota. apply IH. lia.
  - destruct (Z.ltb_spec y x), (Z.ltb_spec x y); try lia; reflexivity.
Qed.

Lemma compare_rows_sym l r : length l = length r -> compare_rows r l = - compare_rows l r.
Proof.
  intros L. destruct l as [|x l], r as [|y r]; try discriminate; [reflexivity|]. cbn [length] in L.
  cbn [compare_rows]. cbv zeta. unfold compare_as. rewrite (Z.eqb_sym (int64 y)).
  destruct (Z.eqb_spec (int64 x) (int64 y)) as [He|Hne].
  - change (0 =? 0) with true. cbn iota. apply compare_words_sym. lia.
  - destruct (Z.ltb_spec (int64 y) (int64 x)), (Z.ltb_spec (int64 x) (int64 y)); try lia; reflexivity.
Qed.

Lemma compare_words_values l r : compare_words l r = 0 \/ compare_words l r = 1 \/ compare_words l r = -1.
Proof.
  revert r; induction l as [|x l IH]; intros [|y r]; cbn [compare_words]; auto. cbv zeta. unfold compare_as.
  destruct (x =? y); [apply IH|]. destruct (y <? x); auto.
Qed.
Lemma compare_rows_values l r : compare_rows l r = 0 \/ compare_rows l r = 1 \/ compare_rows l r = -1.
Proof.
  destruct l as [|x l], r as [|y r]; cbn [compare_rows]; auto. cbv zeta. unfold compare_as.
  destruct (int64 x =? int64 y); [apply compare_words_values|]. destruct (int64 y <? int64 x); auto.
Qed.

Lemma compare_loop_ok bl br : reachable any bl -> reachable any br ->
  length (objects bl) = length (objects br) ->
  (forall k r, nth_error (objects bl) k = Some r -> is_row r) ->
  (forall k r, nth_error (objects br) k = Some r -> is_row r) -> forall n i,
  (i + n = length (objects bl))%nat ->
  exists c, compare_loop bl br (Z.of_nat i) n = Some c /\ compare_loop br bl (Z.of_nat i) n = Some (- c) /\
    (c = 0 \/ c = 1 \/ c = -1) /\
    (c = 0 <-> forall k, (i <= k)%nat -> nth_error (objects bl) k = nth_error (objects br) k).
Proof.
  intros RL RR LL HL HR. induction n as [|n IH]; intros i L.
  - exists 0. cbn [compare_loop]. split; [reflexivity|]. split; [reflexivity|]. split; [auto|]. split; [|auto].
    intros _ k Hk. rewrite (proj2 (nth_error_None (objects bl) k)), (proj2 (nth_error_None (objects br) k)) by lia. reflexivity.
  - cbn [compare_loop].
    destruct (nth_error (objects bl) i) as [r|] eqn:O; [|apply nth_error_None in O; lia].
    destruct (nth_error (objects br) i) as [r'|] eqn:O'; [|apply nth_error_None in O'; lia].
    destruct (is_row_at bl i r O (HL i r O)) as (ws & RW). destruct (is_row_at br i r' O' (HR i r' O')) as (ws' & RW').
    rewrite (proj1 (paddr_row bl i ws RL RW)), (proj1 (paddr_row br i ws' RR RW')). cbn [bind].
    rewrite (compare_row bl br i ws ws' RL RR RW RW'), (compare_row br bl i ws' ws RR RL RW' RW). cbn [bind].
    replace (Z.of_nat i + 1) with (Z.of_nat (S i)) by lia.
    pose proof RW as (E1 & W1 & L1). pose proof RW' as (E2 & W2 & L2).
    rewrite (compare_rows_sym ws ws') by lia.
    destruct (IH (S i) ltac:(lia)) as (c & C1 & C2 & C3 & C4).
    destruct (Z.eqb_spec (compare_rows ws ws') 0) as [Ez|Ez].
    + rewrite Ez. change (- 0 =? 0) with true. cbn iota. exists c. split; [exact C1|]. split; [exact C2|]. split; [exact C3|].
      rewrite C4. apply compare_rows_zero in Ez; auto; [|lia]. split.
      * intros H k Hk. destruct (Nat.eq_dec k i) as [->|Hne]; [congruence|]. apply H. lia.
      * intros H k Hk. apply H. lia.
    + rewrite (proj2 (Z.eqb_neq _ 0)) by lia. exists (compare_rows ws ws'). split; [reflexivity|]. split; [reflexivity|].
      split; [apply compare_rows_values|]. split; [congruence|]. intros H. exfalso. apply Ez.
      apply compare_rows_zero; auto; [lia|]. specialize (H i ltac:(lia)). rewrite E1, E2 in H.
      assert (X : map Raw ws = map Raw ws') by congruence. rewrite <- (raw_words ws), X. apply raw_words.
Qed.

Lemma compare_all_ok bl br : reachable any bl -> reachable any br ->
  Forall is_row (objects bl) -> Forall is_row (objects br) ->
  exists c, compare_all bl br = Some c /\ compare_all br bl = Some (- c) /\ (c = 0 \/ c = 1 \/ c = -1) /\
    (c = 0 <-> objects bl = objects br) /\
    ((length (objects br) < length (objects bl))%nat -> c = 1).
Proof.
  intros RL RR FL FR. unfold compare_all. rewrite (proj1 (num_objects_ok bl RL)), (proj1 (num_objects_ok br RR)). cbn [bind].
  rewrite (Z.eqb_sym (Z.of_nat (length (objects br)))).
  destruct (Z.eqb_spec (Z.of_nat (length (objects bl))) (Z.of_nat (length (objects br)))) as [E|E].
  - rewrite !Nat2Z.id. assert (L : length (objects bl) = length (objects br)) by lia.
    destruct (compare_loop_ok bl br RL RR L) with (n := length (objects bl)) (i := 0%nat) as (c & C1 & C2 & C3 & C4); try lia.
    { intros k r Hk. apply (proj1 (Forall_forall _ _) FL). eapply nth_error_In; eauto. }
    { intros k r Hk. apply (proj1 (Forall_forall _ _) FR). eapply nth_error_In; eauto. }
    exists c. split; [exact C1|]. split; [rewrite <- L; exact C2|]. split; [exact C3|]. split; [|lia].
    rewrite C4. split; [intros H; apply nth_error_ext; intros k; apply H; lia|intros ->; auto].
  - exists (if Z.of_nat (length (objects br)) <? Z.of_nat (length (objects bl)) then 1 else -1).
    split; [reflexivity|]. split.
    { destruct (Z.ltb_spec (Z.of_nat (length (objects br))) (Z.of_nat (length (objects bl)))),
        (Z.ltb_spec (Z.of_nat (length (objects bl))) (Z.of_nat (length (objects br)))); try lia; reflexivity. }
    split; [destruct (_ <? _); auto|]. split.
    + split; [destruct (_ <? _); discriminate|intros X; rewrite X in E; lia].
    + intros Hl. rewrite (proj2 (Z.ltb_lt _ _)) by lia. reflexivity.
Qed.

(* a table with something else in front is not the same as itself *)
Lemma compare_self_ok b o r : reachable any b -> objects b = o :: r -> no_row o -> compare_all b b = Some (-1).
Proof.
  intros R E N. unfold compare_all. rewrite (proj1 (num_objects_ok b R)). cbn [bind]. rewrite Z.eqb_refl, Nat2Z.id.
  rewrite E. cbn [length compare_loop]. assert (O : nth_error (objects b) 0 = Some o) by (rewrite E; reflexivity).
  pose proof (paddr_none b 0 o R O N) as X. change (Z.of_nat 0) with 0 in X. rewrite X. reflexivity.
Qed.

(* ---------------- clearing ---------------- *)

Definition clear_row (ws : list Z) : list Z := firstn 1 ws ++ zeros.

Lemma clear_row_ok b i ws : reachable any b -> rowat b i ws ->
  exists m', pa_clear (b_mem b) (place b i) = Some m' /\ rstep b i (clear_row ws) (with_mem b m').
Proof.
  intros R O. destruct (paddr_row b i ws R O) as (_ & Pp). unfold pa_clear.
  rewrite (proj2 (Z.eqb_neq (place b i) 0)) by lia. rewrite <- offs_some. exact (clear_fields i 21 1 b ws R O eq_refl).
Qed.

Lemma clear_loop_ok : forall n i b c, reachable any b -> (i + n = length (objects b))%nat -> 0 <= c ->
  (forall k r, nth_error (objects b) k = Some r -> (i <= k)%nat -> is_row r \/ no_row r) ->
  exists c' b', clear_loop b (Z.of_nat i) n c = Some (c', b') /\ same_history b b' /\
    length (objects b') = length (objects b) /\ c <= c' /\
    (c' = c <-> forall k r, nth_error (objects b) k = Some r -> (i <= k)%nat -> no_row r) /\
    (forall k, (k < i)%nat -> nth_error (objects b') k = nth_error (objects b) k) /\
    (forall k ws, (i <= k)%nat -> rowat b k ws -> nth_error (objects b') k = Some (512, map Raw (clear_row ws))) /\
    (forall k r, (i <= k)%nat -> nth_error (objects b) k = Some r -> no_row r -> nth_error (objects b') k = Some r).
Proof.
  assert (NR : forall r, is_row r -> no_row r -> False).
  { intros r (n & addrs & -> & _ & La) [X2|X2]; [now destruct X2|].
    unfold words_in, row in X2. cbn [snd map length] in X2. rewrite map_length in X2. unfold NUM in La. lia. }
  induction n as [|n IH]; intros i b c R L Hc H.
  - exists c, b. cbn [clear_loop]. split; [reflexivity|]. split; [split; auto|]. split; [reflexivity|].
    split; [lia|]. split; [|split; [reflexivity|]].
    + split; [|reflexivity]. intros _ k r Hk Hle. assert (k < length (objects b))%nat by (apply nth_error_Some; congruence). lia.
    + split; [|auto]. intros k ws Hk (O & _). assert (k < length (objects b))%nat by (apply nth_error_Some; congruence). lia.
  - cbn [clear_loop]. destruct (nth_error (objects b) i) as [r|] eqn:O; [|apply nth_error_None in O; lia].
    replace (Z.of_nat i + 1) with (Z.of_nat (S i)) by lia.
    assert (Li : (i < length (objects b))%nat) by lia.
    destruct (H i r O ltac:(lia)) as [IR|NRr].
    + destruct (is_row_at b i r O IR) as (ws & RW). destruct (paddr_row b i ws R RW) as (E & Pp).
      rewrite E. cbn [bind]. rewrite (proj2 (Z.eqb_neq (place b i) 0)) by lia.
      destruct (clear_row_ok b i ws R RW) as (m' & Em & [S1 S2 S3 S4]). rewrite Em. cbn [bind].
      assert (N1 : forall k, nth_error (objects (with_mem b m')) k =
        if Nat.eqb k i then Some (512, map Raw (clear_row ws)) else nth_error (objects b) k)
        by (intros k; rewrite S1; now apply nth_after).
      assert (L1 : length (objects (with_mem b m')) = length (objects b)) by (rewrite S1; apply replace_length).
      destruct (IH (S i) (with_mem b m') (c + 1)) as (c' & b' & E' & SH & LL & C1 & C2 & A1 & A2 & A3); try lia.
      { apply S2. exact R. }
      { intros k r' Hk Hle. rewrite N1, (proj2 (Nat.eqb_neq k i)) in Hk by lia. apply (H k r' Hk). lia. }
      exists c', b'. split; [exact E'|]. split; [eapply history_trans; eauto|]. split; [congruence|].
      split; [lia|]. split; [|split; [|split]].
      * split; [lia|]. intros X. exfalso. eapply NR; [exact IR|]. eapply X; eauto.
      * intros k Hk. rewrite A1 by lia. rewrite N1, (proj2 (Nat.eqb_neq k i)) by lia. reflexivity.
      * intros k ws' Hk RW'. destruct (Nat.eq_dec k i) as [->|Hne].
        -- rewrite A1 by lia. rewrite N1, Nat.eqb_refl. do 3 f_equal. destruct RW as (X & _), RW' as (Y & _).
           rewrite X in Y. assert (Z : map Raw ws = map Raw ws') by congruence.
           rewrite <- (raw_words ws), <- (raw_words ws'), Z. reflexivity.
        -- apply A2; [lia|]. destruct RW' as (X & Y & Z). split; [|auto]. rewrite N1, (proj2 (Nat.eqb_neq k i)) by lia. exact X.
      * intros k r' Hk Hr NR'. destruct (Nat.eq_dec k i) as [->|Hne].
        -- exfalso. rewrite O in Hr. assert (r' = r) as -> by congruence. eauto.
        -- apply A3; [lia| |exact NR']. rewrite N1, (proj2 (Nat.eqb_neq k i)) by lia. exact Hr.
    + rewrite (paddr_none b i r R O NRr). cbn [bind]. rewrite Z.eqb_refl.
      destruct (IH (S i) b c R ltac:(lia) Hc) as (c' & b' & E' & SH & LL & C1 & C2 & A1 & A2 & A3).
      { intros k r' Hk Hle. apply (H k r' Hk). lia. }
      exists c', b'. split; [exact E'|]. split; [exact SH|]. split; [exact LL|]. split; [exact C1|].
      split; [|split; [|split]].
      * rewrite C2. split; intros X k r' Hk Hle; [|apply (X k r' Hk); lia].
        destruct (Nat.eq_dec k i) as [->|Hne]; [congruence|]. apply (X k r' Hk). lia.
      * intros k Hk. apply A1. lia.
      * intros k ws Hk RW. destruct (Nat.eq_dec k i) as [->|Hne]; [|apply A2; [lia|exact RW]].
        exfalso. destruct RW as (X & _ & Y). rewrite O in X. assert (r = (512, map Raw ws)) as -> by congruence.
        destruct NRr as [X2|X2]; [now apply X2|]. unfold words_in in X2. cbn [snd] in X2. rewrite map_length in X2. lia.
      * intros k r' Hk Hr NR'. destruct (Nat.eq_dec k i) as [->|Hne]; [|apply A3; auto; lia].
        rewrite A1 by lia. exact Hr.
Qed.

Lemma clear_all_ok b : reachable any b ->
  (forall k r, nth_error (objects b) k = Some r -> is_row r \/ no_row r) ->
  exists st b', clear_all b = Some (st, b') /\ same_history b b' /\ length (objects b') = length (objects b) /\
    (st = 0 <-> exists k r, nth_error (objects b) k = Some r /\ is_row r) /\ (st = 0 \/ st = -1) /\
    (forall k n addrs, nth_error (objects b) k = Some (row n addrs) -> is_row (row n addrs) ->
       nth_error (objects b') k = Some (row n zeros)) /\
    (forall k r, nth_error (objects b) k = Some r -> no_row r -> nth_error (objects b') k = Some r).
Proof.
  intros R H. unfold clear_all. rewrite (proj1 (num_objects_ok b R)). cbn [bind].
  assert (NR : forall r, is_row r -> no_row r -> False).
  { intros r (n & addrs & -> & _ & La) [X2|X2]; [now destruct X2|].
    unfold words_in, row in X2. cbn [snd map length] in X2. rewrite map_length in X2. unfold NUM in La. lia. }
  destruct (Z.ltb_spec 0 (Z.of_nat (length (objects b)))) as [L|L].
  - rewrite Nat2Z.id. destruct (clear_loop_ok (length (objects b)) 0 b 0 R) as (c & b' & E & SH & LL & C1 & C2 & _ & A2 & A3); try lia.
    { intros k r Hk _. eauto. }
    change (Z.of_nat 0) with 0 in E. rewrite E. cbn [bind].
    exists (if 0 <? c then 0 else -1), b'. split; [reflexivity|]. split; [exact SH|]. split; [exact LL|].
    split; [|split; [destruct (0 <? c); auto|split]].
    + destruct (Z.ltb_spec 0 c) as [Hc|Hc].
      * split; [|reflexivity]. intros _.
        (* some row was found *)
        assert (DEC : (forall k r, nth_error (objects b) k = Some r -> no_row r) \/
                      exists k r, nth_error (objects b) k = Some r /\ is_row r).
        { clear - H. revert H. generalize (objects b). induction l as [|o l IH]; intros H.
          - left. intros k r Hk. destruct k; discriminate.
          - destruct (H 0%nat o eq_refl) as [X|X]; [right; exists 0%nat, o; auto|].
            destruct IH as [IH|(k & r & K1 & K2)]; [intros k r Hk; apply (H (S k) r Hk)| |].
            + left. intros [|k] r Hk; [cbn in Hk; congruence|]. eapply IH; eauto.
            + right. exists (S k), r. auto. }
        destruct DEC as [D|D]; [|exact D]. assert (c = 0) by (apply C2; intros; eapply D; eauto). lia.
      * split; [discriminate|]. intros (k & r & K1 & K2). exfalso. assert (X : c = 0) by lia.
        eapply NR; [exact K2|]. apply (proj1 C2 X k r K1). lia.
    + intros k n addrs Hk (n' & a' & Er & W & La).
      assert (X : map Raw (n :: addrs) = map Raw (n' :: a')) by (unfold row in Er; congruence).
      assert (Y : n :: addrs = n' :: a') by (rewrite <- (raw_words (n :: addrs)), X; apply raw_words).
      rewrite <- Y in W. assert (addrs = a') as <- by congruence.
      apply (A2 k (n :: addrs)); [lia|]. now apply rowat_row.
    + intros. apply A3; auto. lia.
  - exists (-1), b. split; [reflexivity|]. split; [split; auto|]. split; [reflexivity|].
    assert (EN : forall k, nth_error (objects b) k = None) by (intros k; apply nth_error_None; lia).
    split; [split; [discriminate|intros (k & r & K1 & _); rewrite EN in K1; discriminate]|].
    split; [auto|]. split; [intros k n addrs Hk; rewrite EN in Hk; discriminate|auto].
Qed.

Lemma clear_one_ok b i n addrs : reachable any b -> nth_error (objects b) i = Some (row n addrs) ->
  is_row (row n addrs) ->
  exists b', clear_one b (Z.of_nat i) = Some (0, b') /\ same_history b b' /\
    objects b' = replace (objects b) i (row n zeros).
Proof.
  intros R O (n' & a' & Er & W & La).
  assert (X : map Raw (n :: addrs) = map Raw (n' :: a')) by (unfold row in Er; congruence).
  assert (Y : n :: addrs = n' :: a') by (rewrite <- (raw_words (n :: addrs)), X; apply raw_words).
  rewrite <- Y in W. assert (addrs = a') as <- by congruence.
  pose proof (rowat_row b i n addrs O W La) as RW. destruct (paddr_row b i _ R RW) as (E & Pp).
  destruct (clear_row_ok b i _ R RW) as (m' & Em & [S1 S2 S3 S4]).
  exists (with_mem b m'). unfold clear_one. rewrite E. cbn [bind]. rewrite (proj2 (Z.eqb_neq (place b i) 0)) by lia.
  rewrite Em. auto.
Qed.

(* ---------------- new rows ---------------- *)

Definition rreq (n : Z) (addrs : list Z) : request := Request (fun _ => None) (n :: addrs) 176 512 [].

Lemma r_request_ok b n addrs : words64 (n :: addrs) -> Z.of_nat (length addrs) = NUM ->
  data_size (b_h b) + 200 + 32 < 2 ^ 64 -> request_ok b (rreq n addrs).
Proof.
  intros W L F. unfold NUM in L. split; cbn [rreq rq_mem rq_obj rq_size rq_attrs].
  - constructor; try (now intros x []).
    + lia.
    + unfold wcount. cbn [length]. change (words_of 176) with 22. lia.
    + exact W.
    + constructor.
  - change (object_words 176 []) with 22. change (Z.of_nat (length [])) with 0. lia.
Qed.

Lemma r_stored n addrs o : words64 (n :: addrs) -> Z.of_nat (length addrs) = NUM ->
  stored_as (rreq n addrs) o -> o = row n addrs.
Proof.
  intros W L (ow & arrs & ((S1 & S2 & S3) & F) & ->). cbn [rreq rq_mem rq_obj rq_size rq_attrs rq_type] in *.
  inversion F; subst. unfold expected_object. cbv zeta. cbn [map combine starts concat]. rewrite app_nil_r.
  unfold row. f_equal. change (words_of 176) with 22 in S1.
  assert (E : ow = n :: addrs).
  { unfold wcount, NUM in *. apply (nth_ext ow (n :: addrs) 0 0); [cbn [length]; lia|]. intros k Hk.
    specialize (S3 (Z.of_nat k) ltac:(lia) ltac:(lia)). unfold wnth in S3. rewrite Nat2Z.id in S3. exact S3. }
  subst ow. clear - L. unfold NUM in L.
  do 21 (destruct addrs as [|? addrs]; [exfalso; cbn [length] in L; lia|]). destruct addrs; [reflexivity|exfalso; cbn [length] in L; lia].
Qed.

Lemma paddr_add_ok hp b n addrs : reachable any b -> good_heap hp -> words64 (n :: addrs) ->
  Z.of_nat (length addrs) = NUM -> data_size (b_h b) + 200 + 32 < 2 ^ 64 ->
  exists p b', paddr_add hp b n addrs = Some (p, b') /\
    added_object hp b p b' (fun o => o = row n addrs) 200
      (has_room_for b [row n addrs]) /\ keeps_full b p b' /\
    (p <> 0 -> data_size (b_h b') <= data_size (b_h b) + 200).
Proof.
  intros R Hh W L F.
  destruct (put_object hp b (rreq n addrs) R Hh (r_request_ok b n addrs W L F)) as (p & b' & E & [A1 A2 A3 A4] & _ & K & D & _).
  exists p, b'. split; [exact E|]. split; [|split; [apply K; intros x []|exact D]].
  split; auto.
  - intros Hp. destruct (A1 Hp) as ((o & So & Eo) & X). split; [|exact X]. exists o. split; [|exact Eo]. now apply r_stored.
  - intros Hr. apply A3. unfold has_room_for in Hr. unfold has_room. cbv zeta in *. cbn [rreq rq_size rq_attrs].
    change (object_words 176 []) with 22. change (Z.of_nat (length [])) with 0.
    rewrite total_cons in Hr. change (total words_in []) with 0 in Hr. rewrite total_cons in Hr. change (total pointers_in []) with 0 in Hr.
    assert (words_in (row n addrs) = 22) as X.
    { unfold words_in, row. cbn [snd map length]. rewrite map_length. unfold NUM in L. lia. }
    assert (pointers_in (row n addrs) >= 0) by (unfold pointers_in; lia).
    rewrite X in Hr. cbn [length] in Hr. lia.
Qed.

(* ---------------- preparing a table ---------------- *)

Lemma zeros_ok n : 0 <= n < 2 ^ 63 -> words64 (n :: zeros).
Proof. intros H. constructor; [lia|]. apply Forall_forall. intros w Hw. apply repeat_spec in Hw. lia. Qed.

Lemma get_particles_eq b i o : reachable any b -> nth_error (objects b) i = Some o ->
  get_particles (b_mem b) (object_addr (b_h b) + 24 * Z.of_nat i) =
  particles_at (b_mem b) (data_addr (b_h b)) (Z.of_nat i).
Proof.
  intros R O. destruct o as [t cells]. destruct (entry_ok b i t cells R O) as (e & E0 & -> & _).
  unfold particles_at. rewrite E0. reflexivity.
Qed.

Lemma prepare_loop_ok bp : reachable any bp -> proper_sets bp -> forall l i hps bt found,
  skipn i (objects bp) = l -> (forall k, good_heap (hps k)) -> added_only bt ->
  data_size (b_h bt) + 200 * Z.of_nat (length l) + 32 < 2 ^ 64 ->
  (forall k, memory_up_to (hps k) (data_size (b_h bt) + 200 * Z.of_nat (length l) + 16)) ->
  0 <= found -> found + Z.of_nat (length l) < 2 ^ 64 ->
  exists bt', prepare_loop hps bt (b_mem bp) (object_addr (b_h bp) + 24 * Z.of_nat i) (length l) found =
      Some (found + Z.of_nat (length (filter some_in l)), bt') /\
    objects bt' = objects bt ++ map new_row l /\ added_only bt'.
Proof.
  intros RP PS. induction l as [|o l IH]; intros i hps bt found Hs Hh AO F MM Hf Hfl.
  - exists bt. cbn [length prepare_loop filter map]. change (Z.of_nat 0) with 0. rewrite Z.add_0_r, app_nil_r. auto.
  - apply obj_split in Hs as (O & Hs). cbn [length] in F, MM, Hfl |- *. cbn [prepare_loop].
    pose proof (reach_any _ _ (added_reach bt AO)) as RT.
    assert (ST : exists p c, get_particles (b_mem bp) (object_addr (b_h bp) + 24 * Z.of_nat i) = Some p /\
      (if p =? 0 then Some 0 else rd (b_mem bp) p) = Some c /\ c = particles_in o /\ 0 <= c < 2 ^ 63 /\
      (p =? 0) = negb (some_in o)).
    { rewrite (get_particles_eq bp i o RP O). destruct (proper_cases bp i o PS O) as [(n & cols & Hn & S)|N].
      - exists (place bp i), n. pose proof S as (O' & C). assert (o = particle_set n cols) as -> by congruence.
        rewrite particles_in_set. destruct (set_read bp i n cols RP S) as (R0 & _).
        assert (Pp : 0 < place bp i) by (destruct (particle_set n cols) as [t cells]; eapply place_facts; eauto).
        split; [now apply (find_set bp i n cols)|]. rewrite (proj2 (Z.eqb_neq (place bp i) 0)) by lia.
        split; [exact R0|]. split; [reflexivity|]. split; [destruct C as (C & _); lia|].
        unfold some_in. rewrite particles_in_set, (proj2 (Z.ltb_lt 0 n)) by lia. reflexivity.
      - exists 0, 0. split; [now apply (find_none bp i o)|]. rewrite Z.eqb_refl. split; [reflexivity|].
        assert (PZ : particles_in o = 0).
        { destruct o as [t cells]. unfold particles_in. cbn [fst]. destruct (Z.eqb_spec t 1) as [->|]; [|reflexivity].
          pose proof (particles_le bp i _ PS O) as (P1 & P2). destruct (PS i 1 cells O eq_refl) as (n & cols & O' & C).
          destruct N as [N|N]; [cbn [fst] in N; congruence|]. assert (E : (1, cells) = particle_set n cols) by congruence.
          rewrite E in *. destruct (set_nth n cols C) as (_ & _ & _ & W). rewrite W in N. unfold set_words in N.
          destruct C as (Cn & _). assert (cells = snd (particle_set n cols)) as -> by (rewrite <- E; reflexivity).
          unfold particle_set. cbn [snd]. lia. }
        split; [symmetry; exact PZ|]. split; [lia|]. unfold some_in. rewrite PZ. reflexivity. }
    destruct ST as (p & c & E1 & E2 & Ec & Hc & Ep). rewrite E1. cbn [bind]. rewrite E2. cbn [bind].
    destruct (paddr_add_ok (hps 0%nat) bt c zeros RT (Hh 0%nat) (zeros_ok c Hc) eq_refl ltac:(lia)) as (pa & b1 & Ea & [A1 A2 A3 A4] & K & D).
    unfold paddr_new. change (repeat 0 21) with zeros. rewrite Ea. cbn [bind].
    assert (Hpa : pa <> 0) by (apply A4; [exact AO|]; eapply memory_le; [|apply (MM 0%nat)]; lia).
    destruct (A1 Hpa) as ((o1 & -> & Eo) & _ & R1). destruct (K Hpa) as (_ & K2). specialize (D Hpa).
    rewrite (proj2 (Z.eqb_neq pa 0) Hpa), Ep. cbv zeta. rewrite negb_involutive. cbn [negb]. rewrite andb_true_r.
    replace (object_addr (b_h bp) + 24 * Z.of_nat i + 24) with (object_addr (b_h bp) + 24 * Z.of_nat (S i)) by lia.
    assert (FN : (if some_in o then u64 (found + 1) else found) = found + (if some_in o then 1 else 0)).
    { destruct (some_in o); [unfold u64; rewrite Z.mod_small by lia; reflexivity|lia]. }
    rewrite FN.
    destruct (IH (S i) (fun j => hps (S j)) b1 (found + (if some_in o then 1 else 0))) as (bt' & E & Eb & AO'); auto.
    + lia.
    + intros k. eapply memory_le; [|apply (MM (S k))]. lia.
    + destruct (some_in o); lia.
    + destruct (some_in o); lia.
    + exists bt'. rewrite E. split; [|split; [|exact AO']].
      * f_equal. f_equal. cbn [filter]. destruct (some_in o); cbn [length]; lia.
      * rewrite Eb, Eo. cbn [map]. rewrite <- app_assoc. unfold new_row at 1. rewrite Ec. reflexivity.
Qed.

Lemma reset_fresh b : reachable full_arrays b ->
  exists b1 b2, buf_clear b true = Some (true, b1) /\ buf_reset b1 = Some (true, b2) /\
    added_only b2 /\ objects b2 = [] /\ data_size (b_h b2) <= data_size (b_h b).
Proof.
  intros R. pose proof (reach_any _ _ R) as RA. destruct (cleared b true RA) as (b1 & E1 & _ & _ & _ & _ & Ec).
  assert (R1 : reachable full_arrays b1) by (eapply r_empty; [exact R|eapply e_clear; exact E1]).
  pose proof (reach_any _ _ R1) as RA1.
  assert (LO : limits_ok 0 0 0 0) by (unfold limits_ok; lia).
  pose proof (reset_done b1 0 0 0 0 RA1 LO) as RD.
  destruct (reachable_inv _ _ RA) as (A & I & V & _).
  pose proof (ok_bounds A (re_ok _ _ _ (bi_repr _ _ I))) as (Bc & Bo & Bd & Bg).
  pose proof (bi_fit _ _ I) as Fit. pose proof (bi_cap _ _ I) as Cap. pose proof (bi_dsize _ _ I) as Ds.
  assert (T : 128 <= 8 * tot A) by (unfold tot, zlen in *; lia).
  change (length_for 0 0 0 0) with 128 in RD. rewrite (proj2 (Z.leb_le 128 _)) in RD by lia.
  destruct RD as (b2 & E2 & Eo & El & _ & _ & _). exists b1, b2. split; [exact E1|]. split; [exact E2|].
  assert (AO : added_only b2) by (eapply ao_reset; [exact R1|exact E2]).
  split; [exact AO|]. split; [exact Eo|].
  destruct (reachable_inv _ _ (reach_any _ _ (added_reach _ AO))) as (A2 & I2 & _).
  rewrite (bi_dsize _ _ I2), Ds. rewrite (limits_eq _ _ I2) in El. unfold tot.
  assert (a_ms A2 = 0 /\ a_mo A2 = 0 /\ a_md A2 = 0 /\ a_mg A2 = 0) as (-> & -> & -> & ->).
  { cbn [map] in El. repeat split; congruence. }
  lia.
Qed.

Lemma prepare_ok hps bt bp : reachable any bp -> proper_sets bp -> (forall k, good_heap (hps k)) ->
  reachable full_arrays bt -> (added_only bt \/ objects bt <> []) ->
  data_size (b_h bt) + 200 * Z.of_nat (length (objects bp)) + 32 < 2 ^ 64 ->
  (forall k, memory_up_to (hps k) (data_size (b_h bt) + 200 * Z.of_nat (length (objects bp)) + 16)) ->
  exists bt', prepare hps bt bp = Some (0, bt') /\ objects bt' = map new_row (objects bp) /\ added_only bt'.
Proof.
  intros RP PS Hh RT AO F MM. pose proof (reach_any _ _ RT) as RA.
  unfold prepare. rewrite (num_blocks_ok bp RP PS). cbn [bind].
  rewrite (proj1 (num_objects_ok bp RP)), (proj1 (num_objects_ok bt RA)). cbn [bind].
  assert (PRE : exists b0, (if 0 <? Z.of_nat (length (objects bt)) then
      '(_, b1) <- buf_clear bt true ;; '(_, b2) <- buf_reset b1 ;; Some b2 else Some bt) = Some b0 /\
    added_only b0 /\ objects b0 = [] /\ data_size (b_h b0) <= data_size (b_h bt)).
  { destruct (Z.ltb_spec 0 (Z.of_nat (length (objects bt)))) as [L|L].
    - destruct (reset_fresh bt RT) as (b1 & b2 & E1 & E2 & X). exists b2. rewrite E1. cbn [bind]. rewrite E2. cbn [bind]. auto.
    - exists bt. destruct (objects bt) eqn:E; [|cbn [length] in L; lia]. split; [reflexivity|].
      split; [destruct AO; congruence|]. split; [reflexivity|lia]. }
  destruct PRE as (b0 & -> & AO0 & Eo & Ds). cbn [bind]. rewrite Nat2Z.id.
  pose proof (num_small bp RP) as NS.
  destruct (prepare_loop_ok bp RP PS (objects bp) 0 hps b0 0 eq_refl Hh AO0) as (bt' & E & Eb & AO'); try lia.
  { intros k. eapply memory_le; [|apply MM]. lia. }
  change (24 * Z.of_nat 0) with 0 in E. rewrite Z.add_0_r in E. rewrite E. cbn [bind].
  rewrite (proj1 (num_objects_ok bt' (reach_any _ _ (added_reach _ AO')))). cbn [bind].
  rewrite Eo in Eb. cbn [app] in Eb. rewrite Eb, map_length, Z.add_0_l, !Z.eqb_refl. cbn [andb].
  exists bt'. auto.
Qed.

(* ---------------- copies of rows, new sets ---------------- *)

Lemma row_copy_ok hp b bs i n addrs : reachable any bs -> nth_error (objects bs) i = Some (row n addrs) ->
  words64 (n :: addrs) -> Z.of_nat (length addrs) = NUM ->
  reachable any b -> good_heap hp -> data_size (b_h b) + 200 + 32 < 2 ^ 64 ->
  exists p b', paddr_add_copy hp b (b_mem bs) (place bs i) = Some (p, b') /\
    added_object hp b p b' (fun o => o = row n addrs) 200 (has_room_for b [row n addrs]) /\ keeps_full b p b'.
Proof.
  intros RS O W L R Hh F. pose proof (rowat_row bs i n addrs O W L) as RW.
  destruct (paddr_row bs i _ RS RW) as (_ & Pp).
  destruct (paddr_add_ok hp b n addrs R Hh W L F) as (p & b' & E & A & K & _). exists p, b'. split; [|auto].
  unfold paddr_add_copy. rewrite (proj2 (Z.eqb_neq (place bs i) 0)) by lia.
  pose proof (row_read bs i _ 0 n RS RW eq_refl) as X. change (8 * Z.of_nat 0) with 0 in X. rewrite Z.add_0_r in X.
  rewrite X. cbn [bind]. rewrite (pointers_read _ _ addrs); [exact E|unfold NUM in L; lia|].
  intros a w Ha. rewrite <- (row_read bs i _ (S a) w RS RW Ha). f_equal. lia.
Qed.

Lemma null_array e n c : 0 <= n -> array_of e 0 (8 * n) c -> c = repeat 0 (Z.to_nat n).
Proof.
  intros Hn A. destruct (array_col _ _ _ _ A) as (L & W). destruct A as (_ & _ & B).
  rewrite (Z.mul_comm 8 n), words_of_8 in B.
  apply words_bytes; [exact W|apply Forall_forall; intros x Hx; apply repeat_spec in Hx; lia| |].
  - unfold wcount in *. rewrite repeat_length. lia.
  - intros j Hj. rewrite L in Hj. rewrite (B j Hj). symmetry. unfold byte, wnth.
    assert (nth (Z.to_nat (j / 8)) (repeat 0 (Z.to_nat n)) 0 = 0) as ->.
    { destruct (nth_in_or_default (Z.to_nat (j / 8)) (repeat 0 (Z.to_nat n)) 0) as [X|X]; [|exact X].
      now apply repeat_spec in X. }
    rewrite Z.div_0_l; [reflexivity|]. pose proof (Z.mod_pos_bound j 8 ltac:(lia)).
    assert (0 < 256 ^ (j mod 8)) by (apply Z.pow_pos_nonneg; lia). lia.
Qed.

Lemma particles_new_ok hp b n : reachable any b -> good_heap hp -> 0 <= n < 2 ^ 63 -> set_fits b n ->
  exists p b', particles_new hp b n = Some (p, b') /\
    added_object hp b p b' (fun o => o = particle_set n (repeat (repeat 0 (Z.to_nat n)) 21))
      (8 * (set_words n + 24)) (set_room b n) /\
    (0 < n -> keeps_full b p b') /\ columns n (repeat (repeat 0 (Z.to_nat n)) 21).
Proof.
  intros R Hh Hn F.
  assert (C0 : columns n (repeat (repeat 0 (Z.to_nat n)) 21)).
  { split; [exact Hn|]. split; [reflexivity|]. apply Forall_forall. intros c Hc. apply repeat_spec in Hc. subst c.
    unfold wcount. rewrite repeat_length. split; [lia|]. apply Forall_forall. intros x Hx. apply repeat_spec in Hx. lia. }
  destruct (particles_add_ok hp b (fun _ => None) n (repeat 0 21) R Hh) as (p & b' & E & [A1 A2 A3 A4] & K); auto.
  - apply Forall_forall. intros x Hx. apply repeat_spec in Hx. lia.
  - intros src Hs Nz. apply repeat_spec in Hs. congruence.
  - exists p, b'. split; [exact E|]. split; [|auto]. split; auto. intros Hp.
    destruct (A1 Hp) as ((o & (cols & -> & C & F2) & Eo) & X). split; [|exact X].
    exists (particle_set n cols). split; [|exact Eo]. f_equal.
    destruct (cols_len n cols C) as (_ & LC). apply (nth_ext _ _ [] []); [rewrite repeat_length; exact LC|].
    intros a Ha. rewrite LC in Ha.
    assert (nth a (repeat (repeat 0 (Z.to_nat n)) 21) [] = repeat 0 (Z.to_nat n)) as ->.
    { apply (repeat_spec 21). apply nth_In. rewrite repeat_length. exact Ha. }
    apply (null_array (fun _ => None) n); [lia|].
    apply (f2_nth (fun src c => array_of (fun _ => None) src (8 * n) c) _ _ a 0 (nth a cols []) F2).
    + apply nth_error_repeat. exact Ha.
    + apply nth_error_nth'. lia.
Qed.

(* ---------------- values after changes ---------------- *)

Lemma value_put n cols a j v a' j' : columns n cols -> (a < 21)%nat -> 0 <= j < n -> 0 <= j' ->
  value (put cols a j v) a' j' = if Nat.eqb a' a && (j' =? j) then v else value cols a' j'.
Proof.
  intros C Ha Hj Hj'. destruct (cols_len n cols C) as (F & L).
  assert (IN : In (nth a cols []) cols) by (apply nth_In; lia).
  pose proof (proj1 (Forall_forall _ _) F _ IN) as La. cbv beta in La.
  unfold value, put. destruct (Nat.eqb_spec a' a) as [->|Hne].
  - assert (nth a (replace cols a (replace (nth a cols []) (Z.to_nat j) v)) [] = replace (nth a cols []) (Z.to_nat j) v) as ->.
    { apply nth_error_nth. rewrite nth_after by lia. now rewrite Nat.eqb_refl. }
    rewrite wnth_replace by lia. rewrite Z2Nat.id by lia. reflexivity.
  - cbn [andb]. f_equal. destruct (Nat.lt_ge_cases a' 21) as [Lt|Ge].
    + apply nth_error_nth. rewrite nth_after by lia. rewrite (proj2 (Nat.eqb_neq a' a)) by assumption.
      apply nth_error_nth'. lia.
    + rewrite !nth_overflow; auto; [lia|]. rewrite replace_length. lia.
Qed.
