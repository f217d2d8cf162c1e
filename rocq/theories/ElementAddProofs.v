(* Proofs for C66 (adding elements to buffers). *)
From Coq Require Import ZArith List Bool Lia.
From Verif Require Import MBuf MBufSpec MBufMem MBufAbs MemPool Buffer BufferSpec BufferUser BufferAddMem
  BufferProofs BufferReach BufferProps StringsProofs Lines ElementAdd ElementAddSpec.
Import ListNotations.
Local Open Scope Z_scope.

Lemma set_status k v s : fst (set k v s) = fst s. Proof. reflexivity. Qed.

(* the struct with all its words named *)
Ltac explode g L :=
  let rec go := match type of L with
  | length g = O => destruct g; [clear L|discriminate L]
  | length ?h = O => destruct h; [clear L|discriminate L]
  | length ?h = S _ => let w := fresh "w" in let h' := fresh "g" in
      destruct h as [|w h']; [discriminate L|]; cbn [length] in L; apply eq_add_S in L; go
  end in go.

Ltac run := cbn [set set_if fst snd firstn skipn app nth length negb andb orb
  clear_monitor clear_bb clear_coasting clear_interpolated clear_line_density preset_tricub].

Lemma two_order_ok o : 0 <= o -> 2 * o + 2 < 2 ^ 63 -> two_order o = Some (2 * o + 2).
Proof.
  intros H H'. unfold two_order. cbv zeta.
  rewrite (proj2 (Z.leb_le _ _)), (proj2 (Z.ltb_lt _ _)) by lia. cbn [andb]. unfold u64.
  rewrite Z.mod_small; [reflexivity|]. assert (2 ^ 63 < 2 ^ 64) by reflexivity. lia.
Qed.

Lemma in_int64_ok n : 0 <= n < 2 ^ 63 -> in_int64 n = Some n.
Proof.
  intros H. unfold in_int64. rewrite (proj2 (Z.leb_le _ _)), (proj2 (Z.ltb_lt _ _)) by lia. reflexivity.
Qed.

Lemma signed_nonneg w : 0 <= w < 2 ^ 64 -> (0 <=? signed w) = true -> int64 w = w /\ 0 <= w < 2 ^ 63.
Proof.
  intros H E. unfold signed in E. unfold int64.
  destruct (w <? 2 ^ 63) eqn:L; [apply Z.ltb_lt in L; auto with zarith|].
  apply Z.leb_le in E. apply Z.ltb_ge in L. lia.
Qed.

Lemma table_size_ok nx ny nz : 0 <= nx < 2 ^ 63 -> 0 <= ny < 2 ^ 63 -> 0 <= nz < 2 ^ 63 ->
  int64 nx = nx -> int64 ny = ny -> int64 nz = nz ->
  nx * ny < 2 ^ 63 -> 8 * (nx * ny * nz) < 2 ^ 61 ->
  table_size nx ny nz = Some (8 * (nx * ny * nz)).
Proof.
  intros Hx Hy Hz Ex Ey Ez H1 H2. unfold table_size. rewrite Ex, Ey, Ez.
  assert (P1 : 0 <= nx * ny) by (apply Z.mul_nonneg_nonneg; lia).
  assert (P2 : 0 <= nx * ny * nz) by (apply Z.mul_nonneg_nonneg; lia).
  assert (B : 2 ^ 61 < 2 ^ 63) by reflexivity.
  rewrite in_int64_ok by lia. cbn [bind]. rewrite in_int64_ok by (clear - P2 H2 B; lia). cbn [bind].
  rewrite in_int64_ok by (clear - P2 H2 B; lia). f_equal. apply Z.mul_comm.
Qed.

Definition small (attrs : list attr) : Prop := Forall (fun x => at_count x < 2 ^ 61) attrs.

Lemma only_if_some c x y : only_if c x = Some y -> c = true /\ x = y.
Proof. unfold only_if. destruct c; [|discriminate]. intros H. split; congruence. Qed.
Lemma only_if_none c x : only_if c x = None -> c = false.
Proof. unfold only_if. destruct c; congruence. Qed.

Lemma below3_lt3 w : lt3 w = below3 w. Proof. reflexivity. Qed.

(* a multipole of this order *)
Lemma mp_length_ok o : 0 <= o < 2 ^ 64 -> (0 <=? signed o) = true -> 2 * o + 2 < 2 ^ 61 ->
  mp_bal_length o = Some (2 * o + 2) /\ rf_length o = Some (2 * o + 2).
Proof.
  intros R E B. destruct (signed_nonneg o R E) as (I & P). assert (2 ^ 61 < 2 ^ 63) by reflexivity.
  unfold mp_bal_length, rf_length. cbv zeta. rewrite I, (proj2 (Z.leb_le _ _)) by lia.
  split; apply two_order_ok; lia.
Qed.

Lemma words_nth ws k : Forall (fun w => 0 <= w < 2 ^ 64) ws -> (k < length ws)%nat -> 0 <= nth k ws 0 < 2 ^ 64.
Proof. intros H L. rewrite Forall_forall in H. apply H, nth_In, L. Qed.

Ltac spec H := apply only_if_some in H; destruct H as (?C & H).

Lemma prepare_proper F g c t ws attrs : limits_squared F -> length g = struct_words c -> faithful c ->
  wanted F c = Some (t, ws, attrs) -> small attrs -> plane_fits c ->
  Forall (fun w => 0 <= w < 2 ^ 64) ws -> prepare F g c = Proper t ws attrs.
Proof.
  intros (LX & LY) L FC W SM PF R.
  destruct c; cbn [faithful] in FC; try contradiction FC; cbn [struct_words] in L; unfold wanted in W; cbv zeta in W;
    try (explode g L; unfold prepare; cbv zeta; unfold give; run;
         assert (E : forall x y : element, Some x = Some y -> x = y) by congruence;
         apply E in W; clear E; injection W as <- <- <-; reflexivity).
  - (* NewLimitEllipse *)
    explode g L. unfold prepare, set_half_axes, set_half_axes_squ. cbv zeta. change ge0 with nonneg. rewrite LX, LY.
    unfold give. run. injection W as <- <- <-. reflexivity.
  - spec W. explode g L. unfold prepare, set_half_axes, set_half_axes_squ. cbv zeta. change ge0 with nonneg. rewrite C.
    unfold give. run. injection W as <- <- <-. reflexivity.
  - spec W. explode g L. unfold prepare. cbv zeta. change ge0 with nonneg. rewrite C. unfold give. run.
    injection W as <- <- <-. reflexivity.
  - (* multipoles *)
    spec W. assert (E1 : ws = [order; zero; zero; zero; 0]) by congruence.
    assert (E2 : attrs = [Attr 32 8 (2 * order + 2)]) by congruence. assert (E3 : t = 4) by congruence. subst.
    pose proof (words_nth _ 0 R ltac:(cbn; lia)) as RO. cbn [nth] in RO.
    pose proof (Forall_inv SM) as SM1. cbn [at_count] in SM1.
    destruct (mp_length_ok order RO C SM1) as (M & _).
    explode g L. unfold prepare, clear_multipole, set_order. cbv zeta.
    change (0 <=? int64 order) with (0 <=? signed order). rewrite C. run.
    change (0 <=? int64 0) with true. run. unfold give_multipole. run. rewrite M. reflexivity.
  - spec W. assert (E1 : ws = [order; length; hxl; hyl; bal_addr]) by congruence.
    assert (E2 : attrs = [Attr 32 8 (2 * order + 2)]) by congruence. assert (E3 : t = 4) by congruence. subst.
    pose proof (words_nth _ 0 R ltac:(cbn; lia)) as RO. cbn [nth] in RO.
    pose proof (Forall_inv SM) as SM1. cbn [at_count] in SM1.
    destruct (mp_length_ok order RO C SM1) as (M & _).
    explode g L. unfold prepare, clear_multipole, set_order. cbv zeta.
    change (0 <=? int64 order) with (0 <=? signed order). rewrite C. run.
    change (0 <=? int64 0) with true. run. unfold give_multipole. run. rewrite M. reflexivity.
  - spec W. assert (E1 : ws = [order; zero; zero; zero; 0; 0]) by congruence.
    assert (E2 : attrs = [Attr 32 8 (2 * order + 2); Attr 40 8 (2 * order + 2)]) by congruence.
    assert (E3 : t = 256) by congruence. subst.
    pose proof (words_nth _ 0 R ltac:(cbn; lia)) as RO. cbn [nth] in RO.
    pose proof (Forall_inv SM) as SM1. cbn [at_count] in SM1.
    destruct (mp_length_ok order RO C SM1) as (_ & M).
    explode g L. unfold prepare, clear_rf_multipole, give_rf_multipole. cbv zeta.
    change (0 <=? int64 order) with (0 <=? signed order). rewrite C. run. rewrite M. reflexivity.
  - spec W. assert (E1 : ws = [order; voltage; frequency; lag; bal_addr; phase_addr]) by congruence.
    assert (E2 : attrs = [Attr 32 8 (2 * order + 2); Attr 40 8 (2 * order + 2)]) by congruence.
    assert (E3 : t = 256) by congruence. subst.
    pose proof (words_nth _ 0 R ltac:(cbn; lia)) as RO. cbn [nth] in RO.
    pose proof (Forall_inv SM) as SM1. cbn [at_count] in SM1.
    destruct (mp_length_ok order RO C SM1) as (_ & M).
    explode g L. unfold prepare, clear_rf_multipole, give_rf_multipole. cbv zeta.
    change (0 <=? int64 order) with (0 <=? signed order). rewrite C. run. rewrite M. reflexivity.
  - (* beam-beam *)
    spec W. explode g L. unfold prepare, clear_bb, set_data_size. cbv zeta. rewrite C.
    change ((0 =? 0) || (11 <=? 0)) with true. unfold give_bb, give. run. injection W as <- <- <-. reflexivity.
  - spec W. explode g L. unfold prepare, clear_bb, set_data_size. cbv zeta. rewrite C.
    change ((0 =? 0) || (11 <=? 0)) with true. unfold give_bb, give. run. injection W as <- <- <-. reflexivity.
  - (* q-Gaussian *)
    spec W. explode g L. unfold prepare, clear_qgauss, set_q_param. cbv zeta. rewrite below3_lt3, C.
    change (lt3 f_one) with true. unfold give. run. injection W as <- <- <-. reflexivity.
  - (* line density *)
    spec W. explode g L. unfold prepare, give_line_density, give. cbv zeta.
    change (0 <? int64 capacity) with (0 <? signed capacity). rewrite C. run.
    change (int64 capacity) with (signed capacity). apply Z.ltb_lt in C.
    rewrite (proj2 (Z.leb_le _ _)) by lia. injection W as <- <- <-. reflexivity.
  - (* field maps *)
    spec W. rewrite !andb_true_iff in C. destruct C as ((C1 & C2) & C3).
    assert (E1 : ws = [zero; zero; nx; zero; zero; ny; zero; zero; nz; 0; 0; 0; 0]) by congruence.
    assert (E2 : attrs = [Attr 96 8 (8 * (nx * ny * nz))]) by congruence. assert (E3 : t = 260) by congruence. subst.
    pose proof (words_nth _ 2 R ltac:(cbn; lia)) as R1. pose proof (words_nth _ 5 R ltac:(cbn; lia)) as R2.
    pose proof (words_nth _ 8 R ltac:(cbn; lia)) as R3. cbn [nth] in R1, R2, R3.
    destruct (signed_nonneg _ R1 C1) as (I1 & P1). destruct (signed_nonneg _ R2 C2) as (I2 & P2).
    destruct (signed_nonneg _ R3 C3) as (I3 & P3).
    pose proof (Forall_inv SM) as SM1. cbn [at_count] in SM1. cbn [plane_fits] in PF.
    explode g L. unfold prepare, preset_tricub_data, set_number, set_step. cbv zeta.
    change (0 <=? int64 0) with true. change (ge0 f_zero) with true.
    rewrite !I1, !I2, !I3, !(proj2 (Z.leb_le _ _)) by (apply P1 || apply P2 || apply P3).
    unfold give_tricub_data. run. rewrite (table_size_ok nx ny nz P1 P2 P3 I1 I2 I3 PF SM1).
    assert (N : 0 <= 8 * (nx * ny * nz)) by (repeat apply Z.mul_nonneg_nonneg; lia).
    unfold u64. rewrite Z.mod_small; [reflexivity|]. assert (HB : 2 ^ 61 < 2 ^ 64) by reflexivity. clear - N SM1 HB. lia.
  - spec W. rewrite !andb_true_iff in C. destruct C as (((((D1 & D2) & D3) & C1) & C2) & C3).
    assert (E1 : ws = [x0; dx; nx; y0; dy; ny; z0; dz; nz; mirror_x; mirror_y; mirror_z; table_addr]) by congruence.
    assert (E2 : attrs = [Attr 96 8 (8 * (nx * ny * nz))]) by congruence. assert (E3 : t = 260) by congruence. subst.
    pose proof (words_nth _ 2 R ltac:(cbn; lia)) as R1. pose proof (words_nth _ 5 R ltac:(cbn; lia)) as R2.
    pose proof (words_nth _ 8 R ltac:(cbn; lia)) as R3. cbn [nth] in R1, R2, R3.
    destruct (signed_nonneg _ R1 C1) as (I1 & P1). destruct (signed_nonneg _ R2 C2) as (I2 & P2).
    destruct (signed_nonneg _ R3 C3) as (I3 & P3).
    pose proof (Forall_inv SM) as SM1. cbn [at_count] in SM1. cbn [plane_fits] in PF.
    explode g L. unfold prepare, preset_tricub_data, set_number, set_step. cbv zeta.
    change (0 <=? int64 0) with true. change (ge0 f_zero) with true. change ge0 with nonneg. rewrite D1, D2, D3.
    rewrite !I1, !I2, !I3, !(proj2 (Z.leb_le _ _)) by (apply P1 || apply P2 || apply P3).
    unfold give_tricub_data. run. rewrite (table_size_ok nx ny nz P1 P2 P3 I1 I2 I3 PF SM1).
    assert (N : 0 <= 8 * (nx * ny * nz)) by (repeat apply Z.mul_nonneg_nonneg; lia).
    unfold u64. rewrite Z.mod_small; [reflexivity|]. assert (HB : 2 ^ 61 < 2 ^ 64) by reflexivity. clear - N SM1 HB. lia.
Qed.

(* what the four calls that are not faithful give *)
Lemma prepare_bb6d F g n a : length g = 2%nat -> (n =? 0) || (38 <=? n) = true ->
  prepare F g (NewBeamBeam6D n) = Proper 8 [n; 0] [Attr 8 8 n] /\
  prepare F g (AddBeamBeam6D n a) = Proper 8 [n; a] [Attr 8 8 n].
Proof.
  intros L C. explode g L. unfold prepare, clear_bb, set_data_size. cbv zeta. rewrite C.
  change ((0 =? 0) || (38 <=? 0)) with true. unfold give_bb, give. run. split; reflexivity.
Qed.

Lemma prepare_qgauss F g : length g = 11%nat ->
  prepare F g NewSCQGauss =
    Proper 14 [zero; one; one; one; zero; zero; zero; nth 7 g 0; one; f_cq F one; 1] [].
Proof.
  intros L. explode g L. unfold prepare, clear_qgauss, set_q_param. cbv zeta.
  change (lt3 f_one) with true. unfold give. run. reflexivity.
Qed.

Lemma int64_max0 w : 0 <= w < 2 ^ 64 ->
  (if int64 w <? 0 then 0 else w) = Z.max 0 (signed w) /\ int64 (Z.max 0 (signed w)) = Z.max 0 (signed w).
Proof.
  intros H. change (signed w) with (int64 w).
  assert (HB : 2 ^ 64 = 2 * 2 ^ 63) by reflexivity.
  destruct (int64 w <? 0) eqn:E; [apply Z.ltb_lt in E|apply Z.ltb_ge in E].
  - rewrite Z.max_l by lia. split; reflexivity.
  - rewrite Z.max_r by lia. unfold int64 in *. destruct (w <? 2 ^ 63) eqn:L.
    + rewrite L. auto.
    + apply Z.ltb_ge in L. exfalso. lia.
Qed.

Lemma prepare_density F g method nv values derivatives z0 dz cap : length g = 7%nat ->
  0 <= nv < 2 ^ 64 -> 0 <= cap < 2 ^ 64 ->
  let n := Z.max 0 (signed nv) in let k := Z.max (signed cap) n in
  prepare F g (AddLineDensity method nv values derivatives z0 dz cap) =
    if 0 <? k then Proper 258 [method; k; values; derivatives; dz; one; n] [Attr 16 8 k; Attr 24 8 k]
    else Refused.
Proof.
  intros L Hn Hc n k. destruct (int64_max0 nv Hn) as (E1 & E2). fold n in E1, E2.
  unfold prepare, give_line_density, give. cbv zeta. rewrite E1, E2.
  assert (Hn0 : 0 <= n) by (unfold n; apply Z.le_max_l).
  assert (EK : int64 (if (int64 cap <? n) && (0 <? n) then n else cap) = k \/ k = 0 /\
    int64 (if (int64 cap <? n) && (0 <? n) then n else cap) < 0).
  { unfold k. change (signed cap) with (int64 cap). destruct (int64 cap <? n) eqn:A; cbn [andb].
    - apply Z.ltb_lt in A. rewrite Z.max_r by lia. destruct (0 <? n) eqn:B; [left; assumption|].
      apply Z.ltb_ge in B. assert (n = 0) by lia. right. lia.
    - apply Z.ltb_ge in A. rewrite Z.max_l by lia. left. reflexivity. }
  assert (HR : 0 <= (if (int64 cap <? n) && (0 <? n) then n else cap) < 2 ^ 64).
  { destruct ((int64 cap <? n) && (0 <? n)); [|assumption]. clear - Hn Hn0. unfold n in *. unfold signed in *.
    destruct (nv <? 2 ^ 63) eqn:A; [apply Z.ltb_lt in A|apply Z.ltb_ge in A]; lia. }
  revert EK HR. generalize (if (int64 cap <? n) && (0 <? n) then n else cap) as w. intros w EK HR.
  destruct EK as [EK | (EK & EK')].
  - rewrite EK. destruct (0 <? k) eqn:P; [|reflexivity]. apply Z.ltb_lt in P.
    assert (w = k) as ->.
    { clear - EK HR P. unfold int64 in EK. destruct (w <? 2 ^ 63) eqn:A; [assumption|].
      apply Z.ltb_ge in A. lia. }
    clearbody n k. explode g L. run. rewrite EK, (proj2 (Z.leb_le _ _)) by lia. reflexivity.
  - rewrite EK. rewrite (proj2 (Z.ltb_ge _ _)) by lia. reflexivity.
Qed.

(* a refused call *)
Lemma prepare_refused F g c : limits_squared F -> length g = struct_words c ->
  match c with AddLineDensity _ nv _ _ _ _ cap => 0 <= nv < 2 ^ 64 /\ 0 <= cap < 2 ^ 64 | _ => True end ->
  wanted F c = None -> prepare F g c = Refused.
Proof.
  intros (LX & LY) L A W.
  destruct c; cbn [struct_words] in L; unfold wanted in W; cbv zeta in W; try discriminate W; apply only_if_none in W.
  - explode g L. unfold prepare, set_half_axes, set_half_axes_squ. cbv zeta. change ge0 with nonneg. rewrite W. reflexivity.
  - unfold prepare. cbv zeta. change ge0 with nonneg. rewrite W. reflexivity.
  - unfold prepare. cbv zeta. change (int64 order) with (signed order). rewrite W. reflexivity.
  - unfold prepare. cbv zeta. change (int64 order) with (signed order). rewrite W. reflexivity.
  - unfold prepare, give_rf_multipole. cbv zeta. change (int64 order) with (signed order). rewrite W, andb_false_r. reflexivity.
  - unfold prepare, give_rf_multipole. cbv zeta. change (int64 order) with (signed order). rewrite W, andb_false_r. reflexivity.
  - explode g L. unfold prepare, give_bb, give, set_data_size. cbv zeta. rewrite W. reflexivity.
  - explode g L. unfold prepare, give_bb, give, set_data_size. cbv zeta. rewrite W. reflexivity.
  - explode g L. unfold prepare, give_bb, give, set_data_size. cbv zeta. rewrite W. reflexivity.
  - explode g L. unfold prepare, give_bb, give, set_data_size. cbv zeta. rewrite W. reflexivity.
  - explode g L. unfold prepare, clear_qgauss, set_q_param, give. cbv zeta. rewrite below3_lt3, W. reflexivity.
  - unfold prepare. cbv zeta. change (int64 capacity) with (signed capacity). rewrite W. reflexivity.
  - destruct A as (A1 & A2). rewrite prepare_density by assumption. cbv zeta. rewrite W. reflexivity.
  - unfold prepare, set_number, give_tricub_data. cbv zeta.
    change (int64 nx) with (signed nx). change (int64 ny) with (signed ny). change (int64 nz) with (signed nz).
    destruct (0 <=? signed nx), (0 <=? signed ny), (0 <=? signed nz); try discriminate W; reflexivity.
  - unfold prepare, set_number, set_step, give_tricub_data. cbv zeta. change ge0 with nonneg.
    change (int64 nx) with (signed nx). change (int64 ny) with (signed ny). change (int64 nz) with (signed nz).
    destruct (nonneg dx), (nonneg dy), (nonneg dz), (0 <=? signed nx), (0 <=? signed ny), (0 <=? signed nz);
      try discriminate W; reflexivity.
Qed.

(* sizes below 2^64 bytes leave less than 2^61 entries *)
Lemma object_words_ge osize attrs : 0 < osize -> (forall x, In x attrs -> 0 <= at_size x /\ 0 <= at_count x) ->
  0 <= object_words osize attrs.
Proof.
  intros H. induction attrs as [|x l IH]; intros P; unfold object_words; cbn [fold_right].
  - unfold words_of. apply Z.div_pos; lia.
  - fold (object_words osize l). destruct (P x (or_introl eq_refl)) as (P1 & P2).
    assert (0 <= words_of (attr_bytes x)).
    { unfold words_of, attr_bytes. apply Z.div_pos; [|lia]. pose proof (Z.mul_nonneg_nonneg _ _ P2 P1). lia. }
    specialize (IH (fun y Hy => P y (or_intror Hy))). lia.
Qed.

Lemma object_words_in osize attrs x : 0 < osize -> (forall y, In y attrs -> 0 <= at_size y /\ 0 <= at_count y) ->
  In x attrs -> words_of (attr_bytes x) <= object_words osize attrs.
Proof.
  intros H. induction attrs as [|y l IH]; intros P I0; [destruct I0|].
  unfold object_words. cbn [fold_right]. fold (object_words osize l).
  pose proof (object_words_ge osize l H (fun z Hz => P z (or_intror Hz))) as G.
  destruct I0 as [ -> | I0 ]; [lia|]. specialize (IH (fun z Hz => P z (or_intror Hz)) I0).
  destruct (P y (or_introl eq_refl)) as (P1 & P2).
  assert (0 <= words_of (attr_bytes y)).
  { unfold words_of, attr_bytes. apply Z.div_pos; [|lia]. pose proof (Z.mul_nonneg_nonneg _ _ P2 P1). lia. }
  lia.
Qed.

Lemma request_small b q : reachable any b -> request_ok b q ->
  (forall x, In x (rq_attrs q) -> at_size x = 8) -> small (rq_attrs q).
Proof.
  intros R (C & B) S8. apply Forall_forall. intros x Hx.
  pose proof (object_words_in _ _ x (call_size _ _ _ _ C) (call_counts _ _ _ _ C) Hx) as L.
  pose proof (call_counts _ _ _ _ C x Hx) as (_ & P).
  unfold words_of, attr_bytes in L. rewrite (S8 x Hx) in L.
  rewrite (Z.add_comm _ 7), Z.div_add in L by lia. change (7 / 8) with 0 in L.
  destruct (in_order b R) as (LA & _ & _ & DS & _).
  assert (D : 0 <= data_size (b_h b)).
  { rewrite DS. destruct (lay_in _ LA 3 ltac:(unfold section_id; lia)) as (L1 & L2 & _).
    destruct (lay_fit _ LA 3 ltac:(unfold section_id; lia)) as (L3 & L4). change (entry_size 3) with 8 in L4. lia. }
  assert (HB : 2 ^ 64 = 8 * 2 ^ 61) by reflexivity.
  clear - L P D B HB. lia.
Qed.

(* Buffer_add_object and the address of the new object *)
Lemma give_ok hp b q : reachable any b -> good_heap hp -> request_ok b q ->
  exists a b', (r0 <- add hp b q ;; let '(r, b2) := r0 in
      a <- (if r =? 0 then Some 0 else rd (b_mem b2) r) ;; Some (a, b2)) = Some (a, b') /\
    (a <> 0 -> exists r, r <> 0 /\ add hp b q = Some (r, b') /\
       a = obj_begin (b_mem b') (Z.of_nat (length (objects b)))) /\
    (a = 0 -> add hp b q = Some (0, b')).
Proof.
  intros R Hh RQ. destruct (add_defined hp b q R Hh RQ) as (r & b' & E). rewrite E. cbn [bind].
  destruct (r =? 0) eqn:Er; [apply Z.eqb_eq in Er|apply Z.eqb_neq in Er]; cbn [bind].
  - exists 0, b'. split; [reflexivity|]. split; [congruence|]. intros _. congruence.
  - rewrite (add_entry hp b q r b' R Hh RQ E Er). cbn [bind]. eexists _, b'. split; [reflexivity|].
    split.
    + intros _. exists r. auto.
    + intros Ha. exfalso. assert (R' : reachable any b') by (eapply r_add; eauto; exact Logic.I).
      destruct (in_order b' R') as (LA & _). destruct (num_objects_ok b' R') as (_ & SC).
      destruct (add_one hp b q r b' R Hh RQ E Er) as (o & _ & Eo).
      pose proof (lay_base _ LA) as (LB & _).
      destruct (lay_in _ LA 3 ltac:(unfold section_id; lia)) as (L1 & _).
      destruct (lay_obj _ LA (Z.of_nat (length (objects b)))) as (O1 & _).
      { rewrite SC, Eo, app_length. cbn [length]. lia. }
      clear - Ha LB L1 O1. lia.
Qed.

Lemma sized F c t ws attrs : wanted F c = Some (t, ws, attrs) -> forall x, In x attrs -> at_size x = 8.
Proof.
  destruct c; unfold wanted; cbv zeta; intros W;
    try (apply only_if_some in W; destruct W as (_ & W));
    match type of W with
    | Some (_, _, ?l) = _ => assert (attrs = l) as -> by congruence
    | (_, _, ?l) = _ => assert (attrs = l) as -> by congruence
    end; intros x Hx; cbn [In] in Hx;
    repeat match type of Hx with _ \/ _ => destruct Hx as [Hx | Hx] | False => destruct Hx end;
    rewrite <- Hx; reflexivity.
Qed.

(* the whole call, for an element that reaches Buffer_add_object *)
Lemma call_done F hp b e g c t ws attrs : reachable any b -> good_heap hp ->
  request_ok b (request_of e (t, ws, attrs)) -> prepare F g c = Proper t ws attrs ->
  let q := request_of e (t, ws, attrs) in
  exists a b', add_element F hp b e g c = Some (a, b') /\
    (a <> 0 -> exists r, r <> 0 /\ add hp b q = Some (r, b') /\
       a = obj_begin (b_mem b') (Z.of_nat (length (objects b)))) /\
    (a = 0 -> add hp b q = Some (0, b')).
Proof.
  intros R Hh RQ P q. destruct (give_ok hp b q R Hh RQ) as (a & b' & E & X). exists a, b'.
  split; [|exact X]. unfold add_element. rewrite P. exact E.
Qed.
