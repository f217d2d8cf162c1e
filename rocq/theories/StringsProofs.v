(* Strings in buffers. *)
From Coq Require Import ZArith List Bool Lia.
From Verif Require Import Tac MBuf MBufSpec MBufMem MBufAbs MBufRemap MemPool Buffer BufferSpec BufferUser
  BufferProofs BufferWrite BufferReach BufferProps Lines LinesSpec LinesProofs Strings StringsSpec.
Import ListNotations.
Local Open Scope Z_scope.

(* ---------------- bytes of words ---------------- *)

Lemma pow256 r : 0 <= r -> 0 < 256 ^ r.
Proof. intros. apply Z.pow_pos_nonneg; lia. Qed.

Lemma word_split w r : 0 <= r -> 0 <= w ->
  w = (w / 256 ^ (r + 1)) * 256 ^ (r + 1) + (w / 256 ^ r mod 256) * 256 ^ r + w mod 256 ^ r.
Proof.
  intros Hr Hw. pose proof (pow256 r Hr) as P.
  rewrite Z.pow_add_r by lia. change (256 ^ 1) with 256.
  rewrite <- Z.div_div by lia.
  pose proof (Z.div_mod w (256 ^ r) ltac:(lia)). pose proof (Z.div_mod (w / 256 ^ r) 256 ltac:(lia)). nia.
Qed.

Lemma set_byte_eq w r v : 0 <= r -> 0 <= w ->
  set_byte w r v = (w / 256 ^ (r + 1)) * 256 ^ (r + 1) + v * 256 ^ r + w mod 256 ^ r.
Proof. intros Hr Hw. unfold set_byte. pose proof (word_split w r Hr Hw). lia. Qed.

Lemma set_byte_range w r v : 0 <= r < 8 -> 0 <= w < 2 ^ 64 -> 0 <= v < 256 -> 0 <= set_byte w r v < 2 ^ 64.
Proof.
  intros Hr Hw Hv. rewrite set_byte_eq by lia.
  pose proof (pow256 r ltac:(lia)) as P. pose proof (Z.mod_pos_bound w (256 ^ r) P) as M.
  assert (D : 0 <= w / 256 ^ (r + 1)) by (apply Z.div_pos; [lia|apply pow256; lia]).
  assert (E : 256 ^ (r + 1) * 256 ^ (7 - r) = 2 ^ 64) by (rewrite <- Z.pow_add_r by lia; replace (r + 1 + (7 - r)) with 8 by lia; reflexivity).
  assert (D2 : w / 256 ^ (r + 1) < 256 ^ (7 - r)).
  { apply Z.div_lt_upper_bound; [apply pow256; lia|]. lia. }
  assert (P1 : 256 ^ (r + 1) = 256 * 256 ^ r) by (rewrite Z.pow_add_r by lia; change (256 ^ 1) with 256; lia).
  split; [pose proof (pow256 (r + 1) ltac:(lia)); nia|].
  assert (w / 256 ^ (r + 1) * 256 ^ (r + 1) <= (256 ^ (7 - r) - 1) * 256 ^ (r + 1)).
  { apply Z.mul_le_mono_nonneg_r; [pose proof (pow256 (r + 1) ltac:(lia)); lia|lia]. }
  nia.
Qed.

Lemma set_byte_byte w r v x : 0 <= r < 8 -> 0 <= x < 8 -> 0 <= w -> 0 <= v < 256 ->
  set_byte w r v / 256 ^ x mod 256 = if x =? r then v else w / 256 ^ x mod 256.
Proof.
  intros Hr Hx Hw Hv. rewrite set_byte_eq by lia.
  pose proof (pow256 r ltac:(lia)) as P. pose proof (Z.mod_pos_bound w (256 ^ r) P) as M.
  assert (P1 : 256 ^ (r + 1) = 256 * 256 ^ r) by (rewrite Z.pow_add_r by lia; change (256 ^ 1) with 256; lia).
  destruct (Z.eqb_spec x r) as [->|Hne].
  - rewrite P1.
    replace (w / (256 * 256 ^ r) * (256 * 256 ^ r) + v * 256 ^ r + w mod 256 ^ r)
      with ((w / (256 * 256 ^ r) * 256 + v) * 256 ^ r + w mod 256 ^ r) by ring.
    rewrite Z.div_add_l by lia. rewrite (Z.div_small (w mod 256 ^ r)) by lia. rewrite Z.add_0_r.
    rewrite Z.add_comm, Z.mod_add by lia. apply Z.mod_small. lia.
  - destruct (Z.lt_ge_cases x r) as [Lt|Ge].
    + pose proof (word_split w r ltac:(lia) Hw) as WS.
      assert (E : 256 ^ r = 256 ^ x * (256 * 256 ^ (r - x - 1))).
      { replace 256 with (256 ^ 1) at 3 by reflexivity. rewrite <- !Z.pow_add_r by lia. f_equal. lia. }
      assert (G : forall t, (w / 256 ^ (r + 1) * 256 ^ (r + 1) + t * 256 ^ r + w mod 256 ^ r) / 256 ^ x mod 256 =
                  (w mod 256 ^ r) / 256 ^ x mod 256).
      { intros t. rewrite P1, E.
        replace (w / (256 * (256 ^ x * (256 * 256 ^ (r - x - 1)))) * (256 * (256 ^ x * (256 * 256 ^ (r - x - 1)))) +
          t * (256 ^ x * (256 * 256 ^ (r - x - 1))) + w mod (256 ^ x * (256 * 256 ^ (r - x - 1))))
          with (((w / (256 * (256 ^ x * (256 * 256 ^ (r - x - 1)))) * 256 * 256 ^ (r - x - 1) * 256 + t * 256 ^ (r - x - 1) * 256)) * 256 ^ x
            + w mod (256 ^ x * (256 * 256 ^ (r - x - 1)))) by ring.
        rewrite Z.div_add_l by (pose proof (pow256 x ltac:(lia)); lia).
        match goal with |- (?a * 256 + ?b * 256 + ?c) mod 256 = _ =>
          replace (a * 256 + b * 256 + c) with (c + (a + b) * 256) by ring end.
        apply Z.mod_add. lia. }
      rewrite G. rewrite <- (G (w / 256 ^ r mod 256)). rewrite <- WS. reflexivity.
    + assert (X : 256 ^ x = 256 ^ (r + 1) * 256 ^ (x - r - 1)) by (rewrite <- Z.pow_add_r by lia; f_equal; lia).
      rewrite X. pose proof (pow256 (r + 1) ltac:(lia)). pose proof (pow256 (x - r - 1) ltac:(lia)).
      rewrite <- !Z.div_div by lia. do 2 f_equal.
      rewrite <- Z.add_assoc. rewrite Z.div_add_l by lia.
      rewrite (Z.div_small (v * 256 ^ r + w mod 256 ^ r)) by nia. lia.
Qed.

(* byte j of the list of words set to v *)
Definition put_byte (ws : list Z) (j v : Z) : list Z :=
  replace ws (Z.to_nat (j / 8)) (set_byte (wnth ws (j / 8)) (j mod 8) v).

Lemma wnth_replace ws i v k : (i < length ws)%nat -> 0 <= k ->
  wnth (replace ws i v) k = if k =? Z.of_nat i then v else wnth ws k.
Proof.
  intros Hi Hk. unfold wnth. destruct (Z.eqb_spec k (Z.of_nat i)) as [->|Hne].
  - rewrite Nat2Z.id. apply nth_error_nth. rewrite replace_nth by auto. now rewrite Nat.eqb_refl.
  - destruct (Nat.lt_ge_cases (Z.to_nat k) (length ws)) as [L|L].
    + apply nth_error_nth. rewrite replace_nth by auto.
      replace (Nat.eqb (Z.to_nat k) i) with false by (symmetry; apply Nat.eqb_neq; lia).
      apply nth_error_nth'. auto.
    + rewrite !nth_overflow; auto. now rewrite replace_length.
Qed.

Lemma replace_forall {T} (P : T -> Prop) l n x : Forall P l -> P x -> Forall P (replace l n x).
Proof.
  intros H Hx. revert n; induction H as [|a l Ha H IH]; intros n; [destruct n; constructor|].
  destruct n as [|n]; constructor; auto. apply IH.
Qed.

Lemma put_byte_ok ws j v : words64 ws -> 0 <= j < 8 * wcount ws -> 0 <= v < 256 ->
  words64 (put_byte ws j v) /\ wcount (put_byte ws j v) = wcount ws /\
  forall x, 0 <= x -> byte (put_byte ws j v) x = if x =? j then v else byte ws x.
Proof.
  intros W Hj Hv. unfold put_byte.
  pose proof (Z.div_mod j 8 ltac:(lia)) as D. pose proof (Z.mod_pos_bound j 8 ltac:(lia)) as M.
  assert (Hd : 0 <= j / 8 < wcount ws) by lia. unfold wcount in *.
  pose proof (wnth_range ws (j / 8) W) as R.
  split; [|split].
  - apply replace_forall; [exact W|]. apply set_byte_range; lia.
  - now rewrite replace_length.
  - intros x Hx. unfold byte.
    pose proof (Z.div_mod x 8 ltac:(lia)) as Dx. pose proof (Z.mod_pos_bound x 8 ltac:(lia)) as Mx.
    rewrite wnth_replace by (try lia; apply Z.div_pos; lia). rewrite Z2Nat.id by lia.
    destruct (Z.eqb_spec (x / 8) (j / 8)) as [E|E].
    + rewrite set_byte_byte by lia. rewrite E.
      destruct (Z.eqb_spec (x mod 8) (j mod 8)); destruct (Z.eqb_spec x j); try reflexivity; lia.
    + destruct (Z.eqb_spec x j) as [->|]; [lia|reflexivity].
Qed.

(* ---------------- reading and writing words of objects ---------------- *)

Lemma read_cell b i t cells k c : reachable any b -> nth_error (objects b) i = Some (t, cells) ->
  nth_error cells k = Some c ->
  rd (b_mem b) (obj_begin (b_mem b) (Z.of_nat i) + 8 * Z.of_nat k) =
    Some (match c with Raw w => w | Ptr q => obj_begin (b_mem b) (Z.of_nat i) + q end) /\
  exists x, obj_begin (b_mem b) (Z.of_nat i) = mbase (b_mem b) + 8 * x /\ 10 <= x /\
    x + Z.of_nat (length cells) <= wlen (b_mem b) /\ 0 < mbase (b_mem b).
Proof.
  intros H Ho Hc. destruct (reachable_inv _ _ H) as (A & I & V & _).
  pose proof (bi_repr _ _ I) as R. pose proof (re_ok _ _ _ R) as OK.
  rewrite (objects_eq b A I) in Ho.
  destruct (content_nth A i t cells OK Ho) as (s & n & E & -> & Hs & Hn & He & Hl).
  assert (Lk : Z.of_nat k < n).
  { assert (k < length (map (rel_cell s) (slice (a_cells A) s n)))%nat by (apply nth_error_Some; congruence).
    unfold zlen in Hl. lia. }
  pose proof (obj_ok _ _ _ R _ _ _ _ E) as (Eb & _).
  pose proof (re_len _ _ _ R) as L.
  pose proof (layout A OK) as (L3 & L4 & L5 & L6 & Lt & N3 & N4 & N5 & N6).
  pose proof (ok_bounds A OK) as (Bc & Bo & Bd & Bg). rewrite Eb. split.
  - rewrite (rd_ok _ _ (10 + (s + Z.of_nat k))) by lia. f_equal.
    rewrite nth_error_map in Hc. rewrite <- (Nat2Z.id k), slice_nth in Hc by lia.
    destruct (nth_error (a_cells A) (Z.to_nat (s + Z.of_nat k))) as [c0|] eqn:Ec; [|discriminate].
    cbn [option_map] in Hc. assert (c = rel_cell s c0) as -> by congruence.
    apply (re_cell _ _ _ R) in Ec. rewrite Z2Nat.id in Ec by lia. rewrite Ec.
    destruct c0 as [w|q]; cbn [rel_cell cellval]; lia.
  - exists (10 + s). unfold zlen in Hl. pose proof (re_base _ _ _ R) as (P & _). lia.
Qed.

Lemma write_word b i t cells k w v : reachable any b -> nth_error (objects b) i = Some (t, cells) ->
  nth_error cells k = Some (Raw w) -> 0 <= v < 2 ^ 64 ->
  exists m', wr (b_mem b) (obj_begin (b_mem b) (Z.of_nat i) + 8 * Z.of_nat k) v = Some m' /\
    reachable any (with_mem b m') /\
    objects (with_mem b m') = replace (objects b) i (t, replace cells k (Raw v)) /\
    mbase m' = mbase (b_mem b) /\ obj_begin m' (Z.of_nat i) = obj_begin (b_mem b) (Z.of_nat i) /\
    same_history b (with_mem b m').
Proof.
  intros H Ho Hc Hv. destruct (write_defined b i k v t cells w H Ho Hc Hv) as (b' & W).
  inversion W as [b0 i0 k0 v0 t0 cells0 w0 m' Ho0 Hc0 Hv0 Hw]; subst. exists m'. split; [exact Hw|].
  split; [exact (r_write any b i k v _ H W)|].
  destruct (write_one b i k v _ H W) as (t' & cells' & N & E).
  rewrite Ho in N. assert (t' = t) as -> by congruence. assert (cells' = cells) as -> by congruence.
  split; [exact E|].
  destruct (reachable_inv _ _ H) as (A & I & V & _).
  destruct (write_inv b A i k v _ I V W) as (A' & I' & V' & _ & _ & M1 & M2 & M3 & M4 & C & O & D).
  assert (EB : mbase m' = mbase (b_mem b)).
  { pose proof (bi_addr _ _ I) as X. pose proof (bi_addr _ _ I') as Y. cbn [b_mem b_h] in X, Y. congruence. }
  split; [exact EB|].
  assert (SH : same_history b (with_mem b m')).
  { split; [intros P HP; exact (r_write P b i k v _ HP W)|intros HA; exact (ao_write b i k v _ HA W)]. }
  split; [|exact SH].
  pose proof Ho as Ho'. rewrite (objects_eq b A I) in Ho'.
  destruct (content_nth A i t cells (re_ok _ _ _ (bi_repr _ _ I)) Ho') as (s & n & Es & _).
  pose proof (obj_ok _ _ _ (bi_repr _ _ I) _ _ _ _ Es) as (Eb & _).
  assert (Es' : nth_error (a_objs A') i = Some (s, n, t)) by (rewrite O; exact Es).
  pose proof (obj_ok _ _ _ (bi_repr _ _ I') _ _ _ _ Es') as (Eb' & _). cbn [b_mem] in Eb'.
  rewrite Eb, Eb', EB. reflexivity.
Qed.

Lemma history_trans a b c : same_history a b -> same_history b c -> same_history a c.
Proof. intros (H1 & H2) (H3 & H4). split; auto. Qed.

Lemma with_mem_mem b m : b_mem (with_mem b m) = m.
Proof. reflexivity. Qed.
Lemma with_mem_same b : with_mem b (b_mem b) = b.
Proof. now destruct b. Qed.
Lemma with_mem_twice b m m' : with_mem (with_mem b m) m' = with_mem b m'.
Proof. reflexivity. Qed.

Lemma replace_twice {T} (l : list T) n x y : replace (replace l n x) n y = replace l n y.
Proof.
  unfold replace. revert n; induction l as [|a l IH]; intros [|n]; try reflexivity.
  cbn [firstn skipn app]. now rewrite IH.
Qed.

Lemma replace_same {T} (l : list T) n x : nth_error l n = Some x -> replace l n x = l.
Proof.
  unfold replace. revert n; induction l as [|a l IH]; intros [|n] H; try discriminate.
  - cbn in *. congruence.
  - cbn [firstn skipn app]. now rewrite IH.
Qed.

Lemma nth_replace_same {T} (l : list T) n x y : nth_error l n = Some x -> nth_error (replace l n y) n = Some y.
Proof.
  intros H. rewrite replace_nth by (apply nth_error_Some; congruence). now rewrite Nat.eqb_refl.
Qed.

(* a string object *)
Definition str_obj (l c : Z) (ws : list Z) : Z * list cell :=
  (65538, Ptr 24 :: Raw l :: Raw c :: map Raw ws).

(* ---------------- string objects ---------------- *)

(* the state of a string object number i of a buffer *)
Definition at_str (b : buffer) (i : nat) (l c : Z) (ws : list Z) : Prop :=
  reachable any b /\ nth_error (objects b) i = Some (str_obj l c ws) /\ words64 ws.

(* b' is b with the string object replaced *)
Definition moved_to (b : buffer) (i : nat) (m' : mem) (l c : Z) (ws : list Z) : Prop :=
  at_str (with_mem b m') i l c ws /\ objects (with_mem b m') = replace (objects b) i (str_obj l c ws) /\
  place (with_mem b m') i = place b i /\ mbase m' = mbase (b_mem b) /\ same_history b (with_mem b m').

Lemma moved_refl b i l c ws : at_str b i l c ws -> moved_to b i (b_mem b) l c ws.
Proof.
  intros (R & O & W). unfold moved_to. rewrite with_mem_same. split; [split; auto|].
  split; [symmetry; apply replace_same; auto|]. split; [reflexivity|]. split; [reflexivity|]. split; auto.
Qed.

Lemma moved_trans b i m l c ws m' l' c' ws' : moved_to b i m l c ws ->
  moved_to (with_mem b m) i m' l' c' ws' -> moved_to b i m' l' c' ws'.
Proof.
  intros (A1 & B1 & C1 & D1 & H1) (A2 & B2 & C2 & D2 & H2). rewrite with_mem_twice in *.
  unfold moved_to. rewrite with_mem_mem in D2. split; auto. split; [rewrite B2, B1; apply replace_twice|].
  split; [congruence|]. split; [congruence|]. exact (history_trans _ _ _ H1 H2).
Qed.

Lemma str_fields b i l c ws : at_str b i l c ws ->
  str_begin (b_mem b) (place b i) = Some (place b i + 24) /\
  str_field_length (b_mem b) (place b i) = Some l /\ str_capacity (b_mem b) (place b i) = Some c /\
  0 < place b i.
Proof.
  intros (R & O & W). unfold str_begin, str_field_length, str_capacity, place.
  destruct (read_cell b i _ _ 0 (Ptr 24) R O eq_refl) as (E0 & x & Ex & X1 & X2 & X3).
  destruct (read_cell b i _ _ 1 (Raw l) R O eq_refl) as (E1 & _).
  destruct (read_cell b i _ _ 2 (Raw c) R O eq_refl) as (E2 & _).
  change (8 * Z.of_nat 0) with 0 in E0. rewrite Z.add_0_r in E0.
  change (8 * Z.of_nat 1) with 8 in E1. change (8 * Z.of_nat 2) with 16 in E2.
  repeat split; auto. lia.
Qed.

Lemma set_length_ok b i l c ws n : at_str b i l c ws -> 0 <= n < 2 ^ 64 ->
  exists m', str_set_length (b_mem b) (place b i) n = Some m' /\ moved_to b i m' n c ws.
Proof.
  intros (R & O & W) Hn. unfold str_set_length, place.
  destruct (write_word b i _ _ 1 l n R O eq_refl Hn) as (m' & E & R' & O' & B' & P' & SH).
  change (8 * Z.of_nat 1) with 8 in E. exists m'. split; [exact E|].
  change (replace (Ptr 24 :: Raw l :: Raw c :: map Raw ws) 1 (Raw n)) with (Ptr 24 :: Raw n :: Raw c :: map Raw ws) in O'.
  split; [|split; [exact O'|split; [exact P'|split; [exact B'|exact SH]]]].
  split; [exact R'|]. split; [|exact W]. rewrite O'. eapply nth_replace_same; eauto.
Qed.

Lemma set_capacity_ok b i l c ws n : at_str b i l c ws -> 0 <= n < 2 ^ 64 ->
  exists m', str_set_capacity (b_mem b) (place b i) n = Some m' /\ moved_to b i m' l n ws.
Proof.
  intros (R & O & W) Hn. unfold str_set_capacity, place.
  destruct (write_word b i _ _ 2 c n R O eq_refl Hn) as (m' & E & R' & O' & B' & P' & SH).
  change (8 * Z.of_nat 2) with 16 in E. exists m'. split; [exact E|].
  change (replace (Ptr 24 :: Raw l :: Raw c :: map Raw ws) 2 (Raw n)) with (Ptr 24 :: Raw l :: Raw n :: map Raw ws) in O'.
  split; [|split; [exact O'|split; [exact P'|split; [exact B'|exact SH]]]].
  split; [exact R'|]. split; [|exact W]. rewrite O'. eapply nth_replace_same; eauto.
Qed.

Lemma str_cell l c ws k : 0 <= k < wcount ws ->
  nth_error (snd (str_obj l c ws)) (3 + Z.to_nat k) = Some (Raw (wnth ws k)).
Proof.
  intros Hk. unfold str_obj. cbn [snd plus nth_error]. rewrite nth_error_map.
  unfold wnth, wcount in *. rewrite (nth_error_nth' ws 0) by lia. reflexivity.
Qed.

Lemma write_char b i l c ws j v : at_str b i l c ws -> 0 <= j < 8 * wcount ws -> 0 <= v < 256 ->
  exists m', wrb (b_mem b) (place b i + 24 + j) v = Some m' /\ moved_to b i m' l c (put_byte ws j v).
Proof.
  intros (R & O & W) Hj Hv. unfold place.
  pose proof (Z.div_mod j 8 ltac:(lia)) as D. pose proof (Z.mod_pos_bound j 8 ltac:(lia)) as M.
  assert (Hk : 0 <= j / 8 < wcount ws) by lia.
  pose proof (str_cell l c ws _ Hk) as Hc.
  destruct (read_cell b i _ _ _ _ R O Hc) as (E & x & Ex & X1 & X2 & X3).
  pose proof (wnth_range ws (j / 8) W) as Rw.
  assert (Rv : 0 <= set_byte (wnth ws (j / 8)) (j mod 8) v < 2 ^ 64) by (apply set_byte_range; lia).
  destruct (write_word b i _ _ _ _ _ R O Hc Rv) as (m' & E' & R' & O' & B' & P' & SH).
  set (p := obj_begin (b_mem b) (Z.of_nat i)) in *.
  assert (Ea : p + 8 * Z.of_nat (3 + Z.to_nat (j / 8)) = mbase (b_mem b) + 8 * ((p + 24 + j - mbase (b_mem b)) / 8) /\
               (p + 24 + j - mbase (b_mem b)) mod 8 = j mod 8).
  { rewrite Ex. replace (mbase (b_mem b) + 8 * x + 24 + j - mbase (b_mem b)) with (j + (x + 3) * 8) by lia.
    rewrite Z.div_add, Z.mod_add by lia. split; [|reflexivity].
    rewrite Nat2Z.inj_add, Z2Nat.id by lia. lia. }
  destruct Ea as (Ea & Em). exists m'. split.
  { unfold wrb. rewrite <- Ea, E. cbn [bind]. rewrite Em. exact E'. }
  assert (Er : replace (snd (str_obj l c ws)) (3 + Z.to_nat (j / 8)) (Raw (set_byte (wnth ws (j / 8)) (j mod 8) v)) =
    snd (str_obj l c (put_byte ws j v))).
  { unfold str_obj, put_byte. cbn [snd]. rewrite replace_map. reflexivity. }
  assert (O2 : objects (with_mem b m') = replace (objects b) i (str_obj l c (put_byte ws j v))).
  { rewrite O'. f_equal. unfold str_obj. f_equal. exact Er. }
  destruct (put_byte_ok ws j v W Hj Hv) as (W' & _).
  split; [|split; [exact O2|split; [exact P'|split; [exact B'|exact SH]]]].
  split; [exact R'|]. split; [|exact W']. rewrite O2. eapply nth_replace_same; eauto.
Qed.

Lemma write_chars cs : forall b i l c ws j, at_str b i l c ws -> 0 <= j ->
  j + len cs <= 8 * wcount ws -> Forall (fun v => 0 <= v < 256) cs ->
  exists m' ws', wrbs (b_mem b) (place b i + 24 + j) cs = Some m' /\ moved_to b i m' l c ws' /\
    wcount ws' = wcount ws /\
    forall x, 0 <= x -> byte ws' x =
      if (j <=? x) && (x <? j + len cs) then nth (Z.to_nat (x - j)) cs 0 else byte ws x.
Proof.
  unfold len. induction cs as [|v cs IH]; intros b i l c ws j A Hj HL HF.
  - exists (b_mem b), ws. split; [reflexivity|]. split; [now apply moved_refl|]. split; [reflexivity|].
    intros x Hx. change (Z.of_nat (length (@nil Z))) with 0.
    destruct (Z.leb_spec j x); destruct (Z.ltb_spec x (j + 0)); cbn [andb]; auto. lia.
  - cbn [length] in HL. rewrite Nat2Z.inj_succ in HL. apply Forall_cons_iff in HF as (Hv & HF).
    destruct (write_char b i l c ws j v A ltac:(lia) Hv) as (m1 & E1 & M1).
    destruct A as (R & O & W).
    destruct (put_byte_ok ws j v W ltac:(lia) Hv) as (W1 & C1 & B1).
    pose proof M1 as (A1 & O1 & P1 & _).
    destruct (IH (with_mem b m1) i l c (put_byte ws j v) (j + 1) A1 ltac:(lia) ltac:(lia) HF)
      as (m2 & ws2 & E2 & M2 & C2 & B2).
    exists m2, ws2. split.
    { cbn [wrbs]. rewrite E1. cbn [bind]. rewrite P1 in E2. rewrite with_mem_mem in E2.
      replace (place b i + 24 + j + 1) with (place b i + 24 + (j + 1)) by lia. exact E2. }
    split; [eapply moved_trans; eauto|]. split; [lia|].
    intros x Hx. rewrite B2, B1 by lia. cbn [length]. rewrite Nat2Z.inj_succ.
    destruct (Z.eqb_spec x j) as [->|Hne].
    + replace (j + 1 <=? j) with false by (symmetry; apply Z.leb_gt; lia). cbn [andb].
      replace (j <=? j) with true by (symmetry; apply Z.leb_le; lia).
      replace (j <? j + Z.succ (Z.of_nat (length cs))) with true by (symmetry; apply Z.ltb_lt; lia).
      cbn [andb]. rewrite Z.sub_diag. reflexivity.
    + destruct (Z.leb_spec (j + 1) x); destruct (Z.ltb_spec x (j + 1 + Z.of_nat (length cs)));
        destruct (Z.leb_spec j x); destruct (Z.ltb_spec x (j + Z.succ (Z.of_nat (length cs))));
        cbn [andb]; try reflexivity; try lia.
      replace (Z.to_nat (x - j)) with (S (Z.to_nat (x - (j + 1)))) by lia. reflexivity.
Qed.

(* ---------------- reading ---------------- *)

Lemma read_char b i l c ws j : at_str b i l c ws -> 0 <= j < 8 * wcount ws ->
  mem_byte (b_mem b) (place b i + 24 + j) = Some (byte ws j) /\
  place b i + 24 + j < mbase (b_mem b) + 8 * wlen (b_mem b) /\ mbase (b_mem b) <= place b i.
Proof.
  intros (R & O & W) Hj. unfold place.
  pose proof (Z.div_mod j 8 ltac:(lia)) as D. pose proof (Z.mod_pos_bound j 8 ltac:(lia)) as M.
  assert (Hk : 0 <= j / 8 < wcount ws) by lia.
  pose proof (str_cell l c ws _ Hk) as Hc.
  destruct (read_cell b i _ _ _ _ R O Hc) as (E & x & Ex & X1 & X2 & X3).
  set (p := obj_begin (b_mem b) (Z.of_nat i)) in *.
  assert (L : Z.of_nat (length (snd (str_obj l c ws))) = 3 + wcount ws).
  { unfold str_obj, wcount. cbn [snd length]. rewrite map_length. lia. }
  unfold str_obj in L. cbn [snd] in L. rewrite L in X2.
  split; [|split; [rewrite Ex; lia|lia]].
  replace (p + 24 + j) with (mbase (b_mem b) + 8 * (x + 3 + j / 8) + j mod 8) by lia.
  rewrite mem_byte_ok by lia. f_equal. unfold byte. do 2 f_equal.
  rewrite Nat2Z.inj_add, Z2Nat.id in E by lia.
  rewrite (rd_ok _ _ (x + 3 + j / 8)) in E by lia. congruence.
Qed.

Lemma holds_at b i o cap s : reachable any b -> nth_error (objects b) i = Some o -> holds_text o cap s ->
  exists ws, at_str b i (len s) cap ws /\ o = str_obj (len s) cap ws /\ wcount ws = words_of cap /\
    cap < 2 ^ 64 /\ text s /\ len s < cap /\
    forall j, 0 <= j < cap -> byte ws j = nth (Z.to_nat j) s 0.
Proof.
  intros R O (ws & -> & W & C & H64 & T & L & B). exists ws.
  split; [split; [exact R|split; [exact O|exact W]]|]. auto 10.
Qed.

Lemma words_of_le n : 0 <= n -> n <= 8 * words_of n.
Proof. intros. unfold words_of. pose proof (Z.div_mod (n + 7) 8 ltac:(lia)). pose proof (Z.mod_pos_bound (n + 7) 8 ltac:(lia)). lia. Qed.

Lemma len_nonneg s : 0 <= len s.
Proof. unfold len. lia. Qed.

Lemma lengths_ok b i o cap s : reachable any b -> nth_error (objects b) i = Some o -> holds_text o cap s ->
  str_length (b_mem b) (place b i) = Some (len s) /\
  str_max_length (b_mem b) (place b i) = Some (cap - 1) /\
  str_available (b_mem b) (place b i) = Some (cap - 1 - len s) /\
  str_capacity (b_mem b) (place b i) = Some cap.
Proof.
  intros R O H. destruct (holds_at b i o cap s R O H) as (ws & A & _ & C & H64 & T & L & B).
  destruct (str_fields _ _ _ _ _ A) as (E0 & E1 & E2 & P). pose proof (len_nonneg s).
  assert (EL : str_length (b_mem b) (place b i) = Some (len s)).
  { unfold str_length. rewrite E0. cbn [bind]. rewrite (proj2 (Z.ltb_lt 0 _)) by lia.
    rewrite E1, E2. cbn [bind]. rewrite (proj2 (Z.ltb_lt _ cap)) by lia. reflexivity. }
  split; [exact EL|]. split; [|split; [|exact E2]].
  - unfold str_max_length. rewrite E0, E2. cbn [bind]. rewrite (proj2 (Z.ltb_lt 0 (place b i + 24))) by lia.
    destruct (Z.ltb_spec 1 cap); cbn [andb]; [reflexivity|]. f_equal. lia.
  - unfold str_available. rewrite E0, E2, EL. cbn [bind]. rewrite (proj2 (Z.ltb_lt 0 (place b i + 24))) by lia.
    unfold u64. rewrite Z.mod_small by lia.
    destruct (Z.ltb_spec (len s + 1) cap); cbn [andb]; f_equal; lia.
Qed.

Lemma text_nth s j : text s -> 0 <= j < len s -> 0 < nth (Z.to_nat j) s 0 < 256.
Proof.
  intros T H. unfold text, len in *. rewrite Forall_forall in T. apply T. apply nth_In. lia.
Qed.

Lemma text_end s j : len s <= j -> nth (Z.to_nat j) s 0 = 0.
Proof. intros H. apply nth_overflow. unfold len in H. lia. Qed.

(* reading a string up to its terminating 0 *)
Lemma cstr_len_ok m a s : text s ->
  (forall j, 0 <= j <= len s -> mem_byte m (a + j) = Some (nth (Z.to_nat j) s 0)) ->
  forall fuel, (length s < fuel)%nat -> cstr_len m a fuel = Some (len s).
Proof.
  unfold len. revert a; induction s as [|c s IH]; intros a T H fuel F.
  - destruct fuel as [|fuel]; [lia|]. cbn [cstr_len]. specialize (H 0 ltac:(cbn; lia)).
    rewrite Z.add_0_r in H. rewrite H. reflexivity.
  - destruct fuel as [|fuel]; [cbn in F; lia|]. cbn [cstr_len].
    pose proof (H 0 ltac:(lia)) as H0. rewrite Z.add_0_r in H0. rewrite H0. cbn [bind nth Z.to_nat].
    apply Forall_cons_iff in T as (Hc & T).
    rewrite (proj2 (Z.eqb_neq c 0)) by lia.
    rewrite (IH (a + 1) T); [cbn [bind]; f_equal; cbn [length]; lia| |cbn in F; lia].
    intros j Hj. specialize (H (j + 1) ltac:(cbn [length]; lia)).
    replace (a + 1 + j) with (a + (j + 1)) by lia. rewrite H.
    replace (Z.to_nat (j + 1)) with (S (Z.to_nat j)) by lia. reflexivity.
Qed.

Lemma chars_ok m a s :
  (forall j, 0 <= j < len s -> mem_byte m (a + j) = Some (nth (Z.to_nat j) s 0)) ->
  chars m a (length s) = Some s.
Proof.
  unfold len. revert a; induction s as [|c s IH]; intros a H; [reflexivity|].
  cbn [length chars]. pose proof (H 0 ltac:(cbn [length]; lia)) as H0. rewrite Z.add_0_r in H0.
  rewrite H0. cbn [bind nth Z.to_nat].
  rewrite IH; [reflexivity|]. intros j Hj. specialize (H (j + 1) ltac:(cbn [length]; lia)).
  replace (a + 1 + j) with (a + (j + 1)) by lia. rewrite H.
  replace (Z.to_nat (j + 1)) with (S (Z.to_nat j)) by lia. reflexivity.
Qed.

Lemma read_text b i o cap s : reachable any b -> nth_error (objects b) i = Some o -> holds_text o cap s ->
  str_begin (b_mem b) (place b i) = Some (place b i + 24) /\
  (forall j, 0 <= j < cap -> mem_byte (b_mem b) (place b i + 24 + j) = Some (nth (Z.to_nat j) s 0)) /\
  strlen (b_mem b) (place b i + 24) = Some (len s).
Proof.
  intros R O H. destruct (holds_at b i o cap s R O H) as (ws & A & _ & C & H64 & T & L & B).
  destruct (str_fields _ _ _ _ _ A) as (E0 & E1 & E2 & P). pose proof (len_nonneg s).
  pose proof (words_of_le cap ltac:(lia)) as Wc.
  assert (RC : forall j, 0 <= j < cap -> mem_byte (b_mem b) (place b i + 24 + j) = Some (nth (Z.to_nat j) s 0)).
  { intros j Hj. rewrite <- B by lia. apply (read_char b i _ _ _ _ A). lia. }
  split; [exact E0|]. split; [exact RC|].
  unfold strlen. apply cstr_len_ok; [exact T|intros; apply RC; lia|].
  destruct (read_char b i _ _ _ (len s) A ltac:(lia)) as (_ & X & Y). unfold wlen in X.
  unfold len in *. lia.
Qed.

(* ---------------- changing the text ---------------- *)

Lemma text_bytes s : text s -> Forall (fun v => 0 <= v < 256) s.
Proof. unfold text. apply Forall_impl. intros; lia. Qed.

Lemma zeros_bytes n : Forall (fun v => 0 <= v < 256) (repeat 0 n).
Proof. apply Forall_forall. intros v Hv. apply repeat_spec in Hv. lia. Qed.

Lemma nth_zeros n k : nth k (repeat 0 n) 0 = 0.
Proof. revert k; induction n as [|n IH]; intros [|k]; cbn; auto. Qed.

Lemma zero_chars_ok b i l c ws j n : at_str b i l c ws -> 0 <= j -> 0 <= n -> j + n <= 8 * wcount ws ->
  exists m' ws', zero_chars (b_mem b) (place b i + 24 + j) n = Some m' /\ moved_to b i m' l c ws' /\
    wcount ws' = wcount ws /\
    forall x, 0 <= x -> byte ws' x = if (j <=? x) && (x <? j + n) then 0 else byte ws x.
Proof.
  intros A Hj Hn HL. unfold zero_chars.
  assert (LR : len (repeat 0 (Z.to_nat n)) = n) by (unfold len; rewrite repeat_length; lia).
  destruct (write_chars (repeat 0 (Z.to_nat n)) b i l c ws j A Hj ltac:(lia) (zeros_bytes _))
    as (m' & ws' & E & M & C & B). rewrite LR in B.
  exists m', ws'. split; [exact E|]. split; [exact M|]. split; [exact C|]. intros x Hx. rewrite B by auto.
  rewrite nth_zeros. reflexivity.
Qed.

(* write the text t at position k, zeros behind it and set the length *)
Lemma put_text b i l c ws k t n : at_str b i l c ws -> 0 <= k -> n = k + len t -> n <= c -> c < 2 ^ 64 ->
  wcount ws = words_of c -> Forall (fun v => 0 <= v < 256) t ->
  exists m1 m2 m3 ws', wrbs (b_mem b) (place b i + 24 + k) t = Some m1 /\
    zero_chars m1 (place b i + 24 + n) (c - n) = Some m2 /\
    str_set_length m2 (place b i) n = Some m3 /\ moved_to b i m3 n c ws' /\ wcount ws' = words_of c /\
    forall x, 0 <= x < c -> byte ws' x =
      if x <? k then byte ws x else if x <? n then nth (Z.to_nat (x - k)) t 0 else 0.
Proof.
  intros A Hk Hn Hc H64 Wc Ht. pose proof (len_nonneg t) as Lt. pose proof (words_of_le c ltac:(lia)) as Wl.
  destruct (write_chars t b i l c ws k A Hk ltac:(lia) Ht) as (m1 & ws1 & E1 & M1 & C1 & B1).
  pose proof M1 as (A1 & _ & P1 & _).
  destruct (zero_chars_ok (with_mem b m1) i l c ws1 n (c - n) A1 ltac:(lia) ltac:(lia) ltac:(lia))
    as (m2 & ws2 & E2 & M2 & C2 & B2). rewrite P1 in E2. cbn [with_mem b_mem] in E2.
  pose proof M2 as (A2 & _ & P2 & _).
  destruct (set_length_ok (with_mem (with_mem b m1) m2) i l c ws2 n A2 ltac:(lia)) as (m3 & E3 & M3).
  rewrite P2, P1 in E3. cbn [with_mem b_mem] in E3.
  exists m1, m2, m3, ws2. split; [exact E1|]. split; [exact E2|]. split; [exact E3|].
  split. { eapply moved_trans; [eapply moved_trans; [exact M1|exact M2]|]. exact M3. }
  split; [lia|]. intros x Hx. rewrite B2, B1 by lia.
  destruct (Z.leb_spec n x); destruct (Z.ltb_spec x (n + (c - n))); destruct (Z.leb_spec k x);
    destruct (Z.ltb_spec x (k + len t)); destruct (Z.ltb_spec x k); destruct (Z.ltb_spec x n);
    cbn [andb]; try reflexivity; lia.
Qed.

Lemma moved_new b i m c s ws : moved_to b i m (len s) c ws -> text s -> len s < c -> c < 2 ^ 64 ->
  wcount ws = words_of c -> (forall x, 0 <= x < c -> byte ws x = nth (Z.to_nat x) s 0) ->
  new_text b i (with_mem b m) c s.
Proof.
  intros (A & O & P & B & H) T L H64 C Hb. split; [exact H|]. exists (str_obj (len s) c ws).
  split; [|exact O]. exists ws. split; [reflexivity|]. destruct A as (_ & _ & W). auto 8.
Qed.

Lemma assign_ok b i o cap s t : reachable any b -> nth_error (objects b) i = Some o -> holds_text o cap s ->
  text t -> 1 < cap -> len t < cap ->
  exists m', str_assign (b_mem b) (place b i) (Some t) = Some (place b i + 24, m') /\
    new_text b i (with_mem b m') cap t.
Proof.
  intros R O H Tt Hc Lt. destruct (holds_at b i o cap s R O H) as (ws & A & _ & C & H64 & T & L & B).
  destruct (str_fields _ _ _ _ _ A) as (E0 & E1 & E2 & P). pose proof (len_nonneg t).
  destruct (put_text b i _ _ ws 0 t (len t) A ltac:(lia) ltac:(lia) ltac:(lia) H64 C (text_bytes t Tt))
    as (m1 & m2 & m3 & ws' & F1 & F2 & F3 & M & C' & B'). rewrite Z.add_0_r in F1.
  exists m3. split.
  - unfold str_assign. rewrite E0, E2. cbn [bind].
    rewrite (proj2 (Z.eqb_neq (place b i + 24) 0)), (proj2 (Z.ltb_lt 1 cap)) by lia. cbn [negb andb].
    fold (len t). rewrite (proj2 (Z.ltb_lt _ cap)) by lia. rewrite F1. cbn [bind]. rewrite F2. cbn [bind].
    rewrite F3. reflexivity.
  - apply (moved_new b i m3 cap t ws'); auto. intros x Hx. rewrite B' by lia.
    rewrite (proj2 (Z.ltb_ge x 0)) by lia. rewrite Z.sub_0_r.
    destruct (Z.ltb_spec x (len t)); [reflexivity|]. symmetry. now apply text_end.
Qed.

Lemma assign_no b i o cap s src : reachable any b -> nth_error (objects b) i = Some o -> holds_text o cap s ->
  (forall t, src = Some t -> cap <= Z.max 1 (len t)) ->
  str_assign (b_mem b) (place b i) src = Some (0, b_mem b).
Proof.
  intros R O H Hs. destruct (holds_at b i o cap s R O H) as (ws & A & _ & C & H64 & T & L & B).
  destruct (str_fields _ _ _ _ _ A) as (E0 & E1 & E2 & P).
  unfold str_assign. rewrite E0, E2. cbn [bind]. destruct src as [t|]; [|reflexivity].
  specialize (Hs t eq_refl). fold (len t).
  destruct (Z.ltb_spec 1 cap); [|rewrite andb_false_r; reflexivity].
  rewrite (proj2 (Z.ltb_ge (len t) cap)) by lia. destruct (negb _); reflexivity.
Qed.

Lemma append_ok b i o cap s t : reachable any b -> nth_error (objects b) i = Some o -> holds_text o cap s ->
  text t -> len s + len t < cap ->
  exists m', str_append (b_mem b) (place b i) (Some t) = Some (place b i + 24, m') /\
    new_text b i (with_mem b m') cap (s ++ t).
Proof.
  intros R O H Tt Lt. destruct (holds_at b i o cap s R O H) as (ws & A & _ & C & H64 & T & L & B).
  destruct (str_fields _ _ _ _ _ A) as (E0 & E1 & E2 & P). pose proof (len_nonneg t). pose proof (len_nonneg s).
  destruct (lengths_ok b i o cap s R O H) as (EL & _).
  assert (LA : len (s ++ t) = len s + len t) by (unfold len; rewrite app_length; lia).
  destruct (put_text b i _ _ ws (len s) t (len (s ++ t)) A ltac:(lia) ltac:(lia) ltac:(lia) H64 C (text_bytes t Tt))
    as (m1 & m2 & m3 & ws' & F1 & F2 & F3 & M & C' & B').
  exists m3. split.
  - unfold str_append. rewrite E0, E2. cbn [bind]. rewrite EL. cbn [bind].
    rewrite (proj2 (Z.eqb_neq (place b i + 24) 0)), (proj2 (Z.ltb_lt (len s) cap)) by lia. cbn [negb andb].
    fold (len t). unfold u64. rewrite Z.mod_small by lia. rewrite (proj2 (Z.ltb_lt _ cap)) by lia.
    rewrite F1. cbn [bind]. rewrite <- LA. rewrite F2. cbn [bind]. rewrite F3. reflexivity.
  - apply (moved_new b i m3 cap (s ++ t) ws'); auto.
    + unfold text in *. apply Forall_app. auto.
    + lia.
    + intros x Hx. rewrite B' by lia. unfold len in *. destruct (Z.ltb_spec x (Z.of_nat (length s))).
      * rewrite B by lia. rewrite app_nth1 by lia. reflexivity.
      * destruct (Z.ltb_spec x (Z.of_nat (length (s ++ t)))).
        -- rewrite app_nth2 by lia. f_equal. lia.
        -- symmetry. apply nth_overflow. lia.
Qed.

Lemma append_no b i o cap s src : reachable any b -> nth_error (objects b) i = Some o -> holds_text o cap s ->
  (forall t, src = Some t -> cap <= len s + len t < 2 ^ 64) ->
  str_append (b_mem b) (place b i) src = Some (0, b_mem b).
Proof.
  intros R O H Hs. destruct (holds_at b i o cap s R O H) as (ws & A & _ & C & H64 & T & L & B).
  destruct (str_fields _ _ _ _ _ A) as (E0 & E1 & E2 & P). destruct (lengths_ok b i o cap s R O H) as (EL & _).
  unfold str_append. rewrite E0, E2. cbn [bind]. rewrite EL. cbn [bind]. destruct src as [t|]; [|reflexivity].
  specialize (Hs t eq_refl). fold (len t). pose proof (len_nonneg t). pose proof (len_nonneg s).
  unfold u64. rewrite Z.mod_small by lia. rewrite (proj2 (Z.ltb_ge (len s + len t) cap)) by lia.
  destruct (_ && _); reflexivity.
Qed.

Lemma replace_text b i o cap s : nth_error (objects b) i = Some o -> holds_text o cap s -> new_text b i b cap s.
Proof.
  intros O H. split; [split; auto|]. exists o. split; [exact H|]. symmetry. now apply replace_same.
Qed.

Lemma clear_ok b i o cap s : reachable any b -> nth_error (objects b) i = Some o -> holds_text o cap s ->
  exists m', str_clear (b_mem b) (place b i) = Some m' /\ new_text b i (with_mem b m') cap [].
Proof.
  intros R O H. destruct (holds_at b i o cap s R O H) as (ws & A & _ & C & H64 & T & L & B).
  destruct (str_fields _ _ _ _ _ A) as (E0 & E1 & E2 & P). pose proof (len_nonneg s).
  destruct (lengths_ok b i o cap s R O H) as (EL & _).
  pose proof (words_of_le cap ltac:(lia)) as Wl.
  unfold str_clear. rewrite EL, E0, E2. cbn [bind].
  rewrite (proj2 (Z.ltb_lt 0 (place b i + 24))), (proj2 (Z.ltb_lt (len s) cap)) by lia.
  rewrite andb_true_r. cbn [andb]. destruct (Z.ltb_spec 0 (len s)).
  - destruct (zero_chars_ok b i _ _ ws 0 (len s) A ltac:(lia) ltac:(lia) ltac:(lia)) as (m1 & ws1 & F1 & M1 & C1 & B1).
    pose proof M1 as (A1 & _ & P1 & _).
    destruct (set_length_ok (with_mem b m1) i _ _ ws1 0 A1 ltac:(lia)) as (m2 & F2 & M2).
    rewrite P1 in F2. cbn [with_mem b_mem] in F2. rewrite Z.add_0_r in F1. rewrite F1. cbn [bind].
    exists m2. split; [exact F2|].
    apply (moved_new b i m2 cap [] ws1); [eapply moved_trans; eauto|constructor|unfold len; cbn; lia|lia|lia|].
    intros x Hx. rewrite B1 by lia. replace (nth (Z.to_nat x) [] 0) with 0 by (destruct (Z.to_nat x); reflexivity).
    destruct (Z.leb_spec 0 x); [|lia]. destruct (Z.ltb_spec x (0 + len s)); cbn [andb]; [reflexivity|].
    rewrite B by lia. apply text_end. lia.
  - exists (b_mem b). split; [reflexivity|]. rewrite with_mem_same.
    assert (s = []) as -> by (destruct s; [reflexivity|unfold len in *; cbn [length] in *; lia]).
    now apply (replace_text b i o cap []).
Qed.

(* the characters were written directly, the length is to be found *)
Lemma sync_ok b i l c ws s : at_str b i l c ws -> wcount ws = words_of c -> c < 2 ^ 64 -> text s -> len s < c ->
  (forall j, 0 <= j <= len s -> byte ws j = nth (Z.to_nat j) s 0) ->
  exists m', str_sync_length (b_mem b) (place b i) = Some m' /\ same_history b (with_mem b m') /\
    objects (with_mem b m') = replace (objects b) i (str_obj (len s) c ws).
Proof.
  intros A C H64 T L B. destruct (str_fields _ _ _ _ _ A) as (E0 & E1 & E2 & P). pose proof (len_nonneg s).
  pose proof (words_of_le c ltac:(lia)) as Wl.
  assert (SL : strlen (b_mem b) (place b i + 24) = Some (len s)).
  { unfold strlen. apply cstr_len_ok; [exact T| |].
    - intros j Hj. rewrite <- B by lia. apply (read_char b i _ _ _ _ A). lia.
    - destruct (read_char b i _ _ _ (len s) A ltac:(lia)) as (_ & X & Y). unfold wlen in X. unfold len in *. lia. }
  destruct (set_length_ok b i l c ws (len s) A ltac:(lia)) as (m' & F & M).
  exists m'. split.
  - unfold str_sync_length. rewrite E0, E2. cbn [bind].
    rewrite (proj2 (Z.eqb_neq (place b i + 24) 0)), (proj2 (Z.ltb_lt 0 c)) by lia. cbn [negb andb].
    rewrite SL. cbn [bind]. rewrite (proj2 (Z.ltb_lt (len s) c)) by lia. exact F.
  - destruct M as (_ & M2 & _ & _ & M5). auto.
Qed.

(* ---------------- adding ---------------- *)

Definition strq (cap : Z) : request := Request (fun _ => None) [0; 0; cap] 24 T_CSTRING [Attr 0 1 cap].

Lemma strq_words cap : object_words 24 [Attr 0 1 cap] = words_of cap + 3.
Proof. unfold object_words, attr_bytes. cbn [fold_right at_count at_size]. rewrite Z.mul_1_r. reflexivity. Qed.

Lemma strq_ok b cap : 0 <= cap < 2 ^ 64 -> string_fits b cap -> request_ok b (strq cap).
Proof.
  intros Hc F. split.
  - split; cbn [strq rq_size rq_obj rq_attrs rq_mem].
    + lia.
    + vm_compute. discriminate.
    + repeat constructor; lia.
    + intros x [<-|[]]. cbn [at_offset]. repeat split; lia.
    + cbn. constructor; [auto|constructor].
    + intros x [<-|[]]. cbn [at_size at_count]. lia.
    + intros x [<-|[]] j Hj N. exfalso. apply N. reflexivity.
  - unfold string_fits in F. cbn [strq rq_size rq_attrs]. rewrite strq_words. cbn [length]. change (Z.of_nat 1) with 1. lia.
Qed.

Lemma three (ow : list Z) a b c : wcount ow = 3 -> wnth ow 0 = a -> wnth ow 1 = b -> wnth ow 2 = c -> ow = [a; b; c].
Proof.
  unfold wcount, wnth. intros L <- <- <-. destruct ow as [|x [|y [|z [|u ow]]]]; cbn [length] in L; try lia. reflexivity.
Qed.

Lemma strq_stored cap o : 0 <= cap -> stored_as (strq cap) o ->
  exists ws, o = str_obj 0 cap ws /\ words64 ws /\ wcount ws = words_of cap /\
    forall j, 0 <= j < 8 * words_of cap -> byte ws j = 0.
Proof.
  intros Hc (ow & arrs & (SB & F) & ->). cbn [strq rq_size rq_obj rq_attrs rq_mem rq_type] in *.
  destruct SB as (W & _ & Full).
  assert (ow = [0; 0; cap]) as ->.
  { apply three; [exact W| | |]; rewrite Full by lia; reflexivity. }
  inversion F as [|x ws at' arrs' HA F' E1 E2]; subst. inversion F'; subst. clear F F'.
  cbn [at_offset] in HA. change (wnth [0; 0; cap] (0 / 8)) with 0 in HA.
  destruct HA as (C & W64 & Hb). unfold attr_bytes in *. cbn [at_count at_size] in *. rewrite Z.mul_1_r in *.
  exists ws. split; [|split; [exact W64|split; [exact C|exact Hb]]].
  unfold expected_object, str_obj, T_CSTRING. cbn [map at_offset starts combine concat]. rewrite app_nil_r.
  f_equal.
Qed.

Lemma add_entry hp b q r b' : reachable any b -> good_heap hp -> request_ok b q ->
  add hp b q = Some (r, b') -> r <> 0 ->
  rd (b_mem b') r = Some (obj_begin (b_mem b') (Z.of_nat (length (objects b)))).
Proof.
  intros H Hh Hq E Hr.
  assert (H' : reachable any b') by (eapply r_add; eauto; exact Logic.I).
  destruct (add_one hp b q r b' H Hh Hq E Hr) as (o & _ & Eo).
  pose proof (add_returns hp b q r b' H Hh Hq E Hr) as Er.
  destruct (get_object_ok b' (Z.of_nat (length (objects b))) H' ltac:(lia)) as (p & Ep & Hp & _).
  rewrite Er in Ep. assert (p = r) as -> by congruence.
  destruct Hp as (_ & begin & t & size & (W0 & _ & _) & -> & _ & _ & B1 & B2).
  { rewrite Eo, app_length. cbn [length]. lia. }
  rewrite <- W0. unfold word_at.
  destruct (reachable_inv _ _ H') as (A' & I' & V' & _). pose proof (bi_repr _ _ I') as R'.
  assert (SB : stored_base (b_mem b') = mbase (b_mem b')) by apply (re_0 _ _ _ R').
  rewrite SB in *.
  unfold buf_get_object in Er. destruct (buf_num_objects b') as [n|]; [|discriminate]. cbn [bind] in Er.
  assert (X : exists k, r = mbase (b_mem b') + 8 * k).
  { rewrite V' in Er. exists (spos A' 4 + 2 + 3 * Z.of_nat (length (objects b))).
    destruct (negb _ && _); [|congruence]. assert (G : forall x y : Z, Some x = Some y -> y = x) by congruence.
    rewrite (G _ _ Er), V'. lia. }
  destruct X as (k & ->).
  replace ((mbase (b_mem b') + 8 * k - mbase (b_mem b')) / 8) with k
    by (replace (mbase (b_mem b') + 8 * k - mbase (b_mem b')) with (k * 8) by lia; now rewrite Z.div_mul by lia).
  pose proof (re_len _ _ _ R') as L. pose proof (re_ok _ _ _ R') as OK.
  pose proof (layout A' OK) as (L3 & L4 & L5 & L6 & Lt & N3 & N4 & N5 & N6).
  pose proof (ok_bounds A' OK) as (Bc & Bo & Bd & Bg).
  rewrite (sec_pos_ok _ _ _ R'), (sec_room_ok _ _ _ R') in B2 by auto.
  rewrite (sec_pos_ok _ _ _ R') in B1 by auto.
  change (entity_size 4) with 24 in B2. change (smax A' 4) with (a_mo A') in B2.
  apply rd_ok; [reflexivity|]. lia.
Qed.

(* the state after str_new *)
Lemma new_ok P hp b max : reachable P b -> good_heap hp -> 0 <= max -> max + 1 < 2 ^ 64 ->
  string_fits b (max + 1) -> P (strq (max + 1)) ->
  exists p b1, str_new hp b max = Some (p, b1) /\
    (p <> 0 -> p = place b1 (length (objects b)) /\ reachable P b1 /\ (added_only b -> added_only b1) /\
      exists ws, at_str b1 (length (objects b)) 0 (max + 1) ws /\
        objects b1 = objects b ++ [str_obj 0 (max + 1) ws] /\ wcount ws = words_of (max + 1) /\
        forall j, 0 <= j < max + 1 -> byte ws j = 0) /\
    (p = 0 -> no_end_pointer (b_mem b) -> objects b1 = objects b) /\
    (string_room b (max + 1) -> p <> 0 /\ data_addr (b_h b1) = data_addr (b_h b)) /\
    (added_only b -> memory_up_to hp (data_size (b_h b) + 8 * (words_of (max + 1) + 7) + 16) -> p <> 0).
Proof.
  intros RP Hh Hm H64 F HP.
  assert (R : reachable any b) by (eapply reachable_mono; [|exact RP]; exact (fun _ _ => Logic.I)).
  pose proof (strq_ok b (max + 1) ltac:(lia) F) as RQ.
  destruct (add_defined hp b (strq (max + 1)) R Hh RQ) as (r & b1 & E).
  assert (SR : string_room b (max + 1) -> r <> 0 /\ data_addr (b_h b1) = data_addr (b_h b)).
  { intros HR. destruct (add_with_room hp b (strq (max + 1)) R Hh RQ) as (r2 & b2 & E2 & N2 & D2).
    - unfold has_room. cbn [strq rq_size rq_attrs]. rewrite strq_words. cbn [length]. change (Z.of_nat 1) with 1.
      unfold string_room in HR. cbv zeta in HR |- *. exact HR.
    - rewrite E in E2. assert (r = r2) by congruence. assert (b1 = b2) as -> by congruence. split; congruence. }
  assert (AR : added_only b -> memory_up_to hp (data_size (b_h b) + 8 * (words_of (max + 1) + 7) + 16) -> r <> 0).
  { intros AO MM. destruct (add_fresh hp b (strq (max + 1)) AO Hh) as (r2 & b2 & E2 & N2); [|exact RQ|congruence].
    cbn [strq rq_size rq_attrs]. rewrite strq_words. cbn [length]. change (Z.of_nat 1) with 1.
    replace (words_of (max + 1) + 3 + 3 + 1) with (words_of (max + 1) + 7) by lia. exact MM. }
  assert (EN : str_new hp b max = (a <- (if r =? 0 then Some 0 else rd (b_mem b1) r) ;; Some (a, b1))).
  { unfold str_new, u64. rewrite (Z.mod_small (max + 1)) by lia. unfold add in E. cbn [strq rq_size rq_attrs rq_mem rq_obj rq_type] in E.
    rewrite E. reflexivity. }
  destruct (Z.eq_dec r 0) as [->|Hr].
  - exists 0, b1. split; [rewrite EN; reflexivity|]. split; [congruence|]. split.
    { intros _ NE. apply (add_failed hp b (strq (max + 1)) b1 R Hh RQ NE E). }
    split; [intros HR; destruct (SR HR); congruence|exact AR].
  - pose proof (add_entry hp b (strq (max + 1)) r b1 R Hh RQ E Hr) as RD.
    destruct (add_one hp b (strq (max + 1)) r b1 R Hh RQ E Hr) as (o & So & Eo).
    destruct (strq_stored (max + 1) o ltac:(lia) So) as (ws & -> & W & C & B).
    assert (RP1 : reachable P b1) by (eapply r_add; eauto).
    assert (R1 : reachable any b1) by (eapply r_add; eauto; exact Logic.I).
    assert (A : at_str b1 (length (objects b)) 0 (max + 1) ws).
    { split; [exact R1|]. split; [|exact W]. rewrite Eo, nth_error_app2 by lia. now rewrite Nat.sub_diag. }
    destruct (str_fields _ _ _ _ _ A) as (_ & _ & _ & Pp).
    exists (place b1 (length (objects b))), b1.
    split; [rewrite EN, (proj2 (Z.eqb_neq r 0) Hr), RD; reflexivity|].
    split.
    { intros _. split; [reflexivity|]. split; [exact RP1|]. split.
      - intros AO. eapply ao_add; eauto. intros x [<-|[]]. unfold attr_bytes. cbn [at_count at_size]. lia.
      - exists ws. split; [exact A|]. split; [exact Eo|]. split; [exact C|].
        intros j Hj. apply B. pose proof (words_of_le (max + 1) ltac:(lia)). lia. }
    split; [lia|]. split; [|intros; lia]. intros HR. split; [lia|]. apply (SR HR).
Qed.

Lemma replace_last {T} (l : list T) x y : replace (l ++ [x]) (length l) y = l ++ [y].
Proof.
  unfold replace. induction l as [|a l IH]; [reflexivity|]. cbn [length app firstn skipn].
  cbn [length app firstn skipn] in IH. now rewrite IH.
Qed.

Lemma str_add_ok P hp b src max : reachable P b -> good_heap hp -> text (text_of src) ->
  0 <= max -> len (text_of src) <= max -> max + 1 < 2 ^ 64 ->
  string_fits b (max + 1) -> P (strq (max + 1)) ->
  exists p b', str_add hp b src max = Some (p, b') /\
    (p <> 0 -> p = place b' (length (objects b)) /\ reachable P b' /\ (added_only b -> added_only b') /\
      exists o, holds_text o (max + 1) (text_of src) /\ objects b' = objects b ++ [o]) /\
    (p = 0 -> no_end_pointer (b_mem b) -> objects b' = objects b) /\
    (string_room b (max + 1) -> p <> 0 /\ data_addr (b_h b') = data_addr (b_h b)) /\
    (added_only b -> memory_up_to hp (data_size (b_h b) + 8 * (words_of (max + 1) + 7) + 16) -> p <> 0).
Proof.
  intros RP Hh T Hm Hl H64 F HP. set (s := text_of src) in *.
  destruct (new_ok P hp b max RP Hh Hm H64 F HP) as (p & b1 & E & H1 & H2 & H3 & H4).
  pose proof (len_nonneg s) as L0.
  assert (D : exists b', str_add hp b src max = Some (p, b') /\ (p = 0 -> b' = b1) /\
    (p <> 0 -> place b' (length (objects b)) = place b1 (length (objects b)) /\ same_history b1 b' /\
      data_addr (b_h b') = data_addr (b_h b1) /\
      exists o, holds_text o (max + 1) s /\ objects b' = objects b ++ [o])).
  { unfold str_add, str_add_from. cbv zeta. unfold u64. rewrite (Z.mod_small (max + 1)) by lia.
    change (match src with Some l => l | None => [] end) with s. fold (len s). rewrite E. cbn [bind].
    destruct (Z.eqb_spec p 0) as [->|Hp].
    - exists b1. rewrite (proj2 (Z.ltb_lt 0 (max + 1))) by lia. split; [|split; [auto|congruence]].
      destruct src as [t|]; cbn [negb andb orb].
      + destruct (Z.ltb_spec 0 (len s)); cbn [andb].
        * rewrite (proj2 (Z.leb_le (len s) (max + 1))) by lia. reflexivity.
        * rewrite (proj2 (Z.eqb_eq (len s) 0)) by lia. reflexivity.
      + reflexivity.
    - destruct (H1 Hp) as (Pl & RP1 & AO1 & ws & A & Eo & C & B).
      destruct (str_fields _ _ _ _ _ A) as (E0 & E1 & E2 & Pp).
      set (i := length (objects b)) in *.
      destruct (Z.eq_dec (len s) 0) as [Hz|Hz].
      + assert (s = []) as Es by (destruct s; [reflexivity|unfold len in *; cbn [length] in *; lia]).
        destruct (zero_chars_ok b1 i _ _ ws 0 (max + 1) A ltac:(lia) ltac:(lia)) as (m1 & ws1 & F1 & M1 & C1 & B1).
        { pose proof (words_of_le (max + 1) ltac:(lia)). lia. }
        pose proof M1 as (A1 & _ & P1 & _).
        destruct (set_capacity_ok (with_mem b1 m1) i _ _ ws1 (max + 1) A1 ltac:(lia)) as (m2 & F2 & M2).
        rewrite P1 in F2. cbn [with_mem b_mem] in F2. rewrite Z.add_0_r in F1.
        pose proof (moved_trans _ _ _ _ _ _ _ _ _ _ M1 M2) as M.
        exists (with_mem b1 m2). split; [|split; [congruence|intros _; split; [apply M|split; [apply M|split; [reflexivity|]]]]].
        * rewrite Hz. rewrite (proj2 (Z.ltb_lt 0 (max + 1))) by lia.
          replace (negb (match src with Some _ => false | None => true end) && (0 <? 0)) with false
            by (destruct src; reflexivity). cbn [andb].
          replace ((match src with Some _ => false | None => true end) || (0 =? 0)) with true by (destruct src; reflexivity).
          rewrite Pl, E0. cbn [bind]. rewrite F1. cbn [bind]. rewrite F2. reflexivity.
        * exists (str_obj 0 (max + 1) ws1). split.
          -- exists ws1. rewrite Es. split; [reflexivity|]. destruct A1 as (_ & _ & W1).
             split; [exact W1|]. split; [lia|]. split; [lia|]. split; [constructor|]. split; [unfold len; cbn; lia|].
             intros j Hj. rewrite B1 by lia. rewrite (proj2 (Z.leb_le 0 j)), (proj2 (Z.ltb_lt j (0 + (max + 1)))) by lia.
             cbn [andb]. destruct (Z.to_nat j); reflexivity.
          -- destruct M as (_ & MO & _). rewrite MO, Eo. apply replace_last.
      + assert (Hs : src = Some s) by (unfold s in *; destruct src; [reflexivity|cbn in Hz; congruence]).
        destruct (put_text b1 i _ _ ws 0 s (len s) A ltac:(lia) ltac:(lia) ltac:(lia) H64 C (text_bytes s T))
          as (m1 & m2 & m3 & ws' & F1 & F2 & F3 & M & C' & B'). rewrite Z.add_0_r in F1.
        pose proof M as (A3 & _ & P3 & _).
        destruct (set_capacity_ok (with_mem b1 m3) i _ _ ws' (max + 1) A3 ltac:(lia)) as (m4 & F4 & M4).
        rewrite P3 in F4. cbn [with_mem b_mem] in F4. pose proof (moved_trans _ _ _ _ _ _ _ _ _ _ M M4) as MM.
        exists (with_mem b1 m4). split; [|split; [congruence|intros _; split; [apply MM|split; [apply MM|split; [reflexivity|]]]]].
        * rewrite Hs. cbn [negb]. rewrite (proj2 (Z.ltb_lt 0 (len s))), (proj2 (Z.leb_le (len s) (max + 1))) by lia.
          cbn [andb]. rewrite Pl, E0. cbn [bind]. rewrite F1. cbn [bind]. rewrite F2. cbn [bind].
          rewrite F3. cbn [bind]. rewrite F4. reflexivity.
        * exists (str_obj (len s) (max + 1) ws'). split.
          -- exists ws'. split; [reflexivity|]. destruct A3 as (_ & _ & W3). split; [exact W3|]. split; [exact C'|].
             split; [lia|]. split; [exact T|]. split; [lia|].
             intros x Hx. rewrite B' by lia. rewrite (proj2 (Z.ltb_ge x 0)) by lia. rewrite Z.sub_0_r.
             destruct (Z.ltb_spec x (len s)); [reflexivity|]. symmetry. now apply text_end.
          -- destruct MM as (_ & MO & _). rewrite MO, Eo. apply replace_last. }
  destruct D as (b' & D1 & D2 & D3). exists p, b'. split; [exact D1|]. split.
  { intros Hp. destruct (D3 Hp) as (Pe & (SH1 & SH2) & _ & Ho). destruct (H1 Hp) as (Pl & RP1 & AO1 & _).
    split; [congruence|]. split; [auto|]. split; [auto|]. exact Ho. }
  split; [intros Hp; rewrite (D2 Hp); auto|]. split; [|exact H4].
  intros HR. destruct (H3 HR) as (Hp & Ha). destruct (D3 Hp) as (_ & _ & Da & _). split; congruence.
Qed.

Lemma str_add_long hp b s max : 0 <= max -> max + 1 < len s -> max + 1 < 2 ^ 64 ->
  str_add hp b (Some s) max = Some (0, b).
Proof.
  intros Hm Hl H64. unfold str_add, str_add_from. cbv zeta. unfold u64. rewrite (Z.mod_small (max + 1)) by lia.
  fold (len s). rewrite (proj2 (Z.leb_gt (len s) (max + 1))) by lia. rewrite andb_false_r.
  cbn [orb]. rewrite (proj2 (Z.eqb_neq (len s) 0)) by lia. rewrite andb_false_r. reflexivity.
Qed.

Lemma copy_eq hp b bs i o cap s : reachable any bs -> nth_error (objects bs) i = Some o -> holds_text o cap s ->
  str_add_copy hp b (b_mem bs) (place bs i) = str_add hp b (Some s) cap.
Proof.
  intros R O H. destruct (read_text bs i o cap s R O H) as (E0 & RC & SL).
  destruct (lengths_ok bs i o cap s R O H) as (_ & _ & _ & EC).
  destruct (holds_at bs i o cap s R O H) as (ws & A & _ & _ & _ & _ & L & _).
  destruct (str_fields _ _ _ _ _ A) as (_ & _ & _ & P).
  unfold str_add_copy. rewrite E0, EC. cbn [bind]. rewrite (proj2 (Z.eqb_neq (place bs i + 24) 0)) by lia.
  rewrite SL. cbn [bind]. unfold len at 1. rewrite Nat2Z.id.
  rewrite chars_ok; [reflexivity|]. intros j Hj. apply RC. lia.
Qed.

Lemma holds_sync b i o cap s : reachable any b -> nth_error (objects b) i = Some o -> holds_text o cap s ->
  exists m', str_sync_length (b_mem b) (place b i) = Some m' /\ new_text b i (with_mem b m') cap s.
Proof.
  intros R O H. destruct (holds_at b i o cap s R O H) as (ws & A & -> & C & H64 & T & L & B).
  destruct (sync_ok b i (len s) cap ws s A C H64 T L) as (m' & E & SH & Eo); [intros; apply B; lia|].
  exists m'. split; [exact E|]. split; [exact SH|]. exists (str_obj (len s) cap ws). auto.
Qed.

Lemma sop_one b i o cap s op : reachable any b -> nth_error (objects b) i = Some o -> holds_text o cap s ->
  sop_ok op -> cap < 2 ^ 63 ->
  exists b', do_sop b i op = Some b' /\ new_text b i b' cap (text_after cap s op).
Proof.
  intros R O H K Hc. pose proof (replace_text b i o cap s O H) as SAME.
  assert (WM : b = with_mem b (b_mem b)) by now rewrite with_mem_same.
  assert (Lc : 0 <= len s < cap).
  { destruct H as (ws & _ & _ & _ & _ & _ & L & _). pose proof (len_nonneg s). lia. }
  assert (P63 : 2 ^ 63 + 2 ^ 63 = 2 ^ 64) by reflexivity.
  destruct op as [src|src| |]; cbn [do_sop text_after].
  - destruct src as [t|]; cycle 1.
    { rewrite (assign_no b i o cap s None R O H) by discriminate. cbn [bind]. exists b. rewrite <- WM. auto. }
    destruct K as (Tt & Lt). destruct (Z.ltb_spec 1 cap); unfold fits; [destruct (Z.ltb_spec (len t) cap)|]; cbn [andb].
    + destruct (assign_ok b i o cap s t R O H Tt) as (m' & E & N); [lia|lia|].
      rewrite E. cbn [bind]. eauto.
    + rewrite (assign_no b i o cap s (Some t) R O H).
      * cbn [bind]. exists b. rewrite <- WM. auto.
      * intros t' Et. assert (t' = t) as -> by congruence. lia.
    + rewrite (assign_no b i o cap s (Some t) R O H).
      * cbn [bind]. exists b. rewrite <- WM. auto.
      * intros t' Et. lia.
  - destruct src as [t|]; cycle 1.
    { rewrite (append_no b i o cap s None R O H) by discriminate. cbn [bind]. exists b. rewrite <- WM. auto. }
    destruct K as (Tt & Lt). unfold fits. destruct (Z.ltb_spec (len s + len t) cap).
    + destruct (append_ok b i o cap s t R O H Tt) as (m' & E & N); [lia|]. rewrite E. cbn [bind]. eauto.
    + rewrite (append_no b i o cap s (Some t) R O H).
      * cbn [bind]. exists b. rewrite <- WM. auto.
      * intros t' Et. assert (t' = t) as -> by congruence. lia.
  - destruct (clear_ok b i o cap s R O H) as (m' & E & N). rewrite E. cbn [bind]. eauto.
  - destruct (holds_sync b i o cap s R O H) as (m' & E & N). rewrite E. cbn [bind]. eauto.
Qed.

Lemma sops_ok l : forall b T, reachable any b -> hold_texts b T ->
  Forall (fun x => sop_ok (snd x) /\ T (fst x) <> None) l ->
  exists b', do_sops b l = Some b' /\ same_history b b' /\ hold_texts b' (fold_left text_step l T) /\
    length (objects b') = length (objects b) /\
    forall k, T k = None -> nth_error (objects b') k = nth_error (objects b) k.
Proof.
  induction l as [|(i, op) l IH]; intros b T R HT HF.
  - exists b. split; [reflexivity|]. split; [split; auto|]. auto.
  - apply Forall_cons_iff in HF as ((K & Hn) & HF). cbn [fst snd] in K, Hn.
    destruct (T i) as [(cap, s)|] eqn:ET; [|congruence].
    destruct (HT i cap s ET) as (Hc & o & O & H).
    destruct (sop_one b i o cap s op R O H K Hc) as (b1 & E1 & SH & o' & H' & Eo).
    assert (Li : (i < length (objects b))%nat) by (apply nth_error_Some; congruence).
    destruct (IH b1 (text_step T (i, op))) as (b2 & E2 & SH2 & HT2 & L2 & N2).
    + destruct SH as (SH & _). auto.
    + intros k cap' s' Ek. unfold text_step in Ek. cbn [fst snd] in Ek.
      destruct (T k) as [(ck, sk)|] eqn:Tk; [|discriminate].
      rewrite Eo, replace_nth by exact Li. destruct (Nat.eqb_spec k i) as [->|Hne].
      * rewrite ET in Tk. assert (ck = cap) as -> by congruence. assert (sk = s) as -> by congruence.
        assert (cap' = cap) as -> by congruence. assert (s' = text_after cap s op) as -> by congruence.
        split; [exact Hc|]. exists o'. auto.
      * assert (cap' = ck) as -> by congruence. assert (s' = sk) as -> by congruence. apply (HT k ck sk Tk).
    + eapply Forall_impl; [|exact HF]. intros (j, op'). cbn [fst snd]. intros (K' & N'). split; [exact K'|].
      unfold text_step. cbn [fst snd]. destruct (T j) as [(cj, sj)|]; [|congruence].
      destruct (Nat.eqb j i); discriminate.
    + exists b2. cbn [do_sops]. rewrite E1. cbn [bind]. split; [exact E2|].
      split; [exact (history_trans _ _ _ SH SH2)|]. split; [exact HT2|]. split.
      * rewrite L2, Eo. apply replace_length.
      * intros k Tk. rewrite N2; [|unfold text_step; now rewrite Tk].
        rewrite Eo, replace_nth by exact Li. destruct (Nat.eqb_spec k i) as [->|]; [congruence|reflexivity].
Qed.
