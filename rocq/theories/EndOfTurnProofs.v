(* Facts on the monitors added at the end of a line. *)
From Coq Require Import ZArith List Bool Lia.
From Verif Require Import MBuf MBufSpec MBufMem MBufAbs MemPool Buffer BufferSpec BufferUser BufferProofs
  BufferAddMem BufferAddMain BufferReach BufferWrite BufferProps Lines LinesSpec LinesProofs LinesCopy
  ElementAdd ElementAddSpec ElementAddProofs ElementNew ElementNewSpec ElementNewProofs
  Elements MonitorSpec EndOfTurn EndOfTurnSpec.
Import ListNotations.
Local Open Scope Z_scope.

(* ------------------------------------------------------------------ *)
(* a word of the last object *)
Lemma nth_last {T} (l : list T) x : nth_error (l ++ [x]) (length l) = Some x.
Proof. rewrite nth_error_app2, Nat.sub_diag by lia. reflexivity. Qed.

Lemma replace_last {T} (l : list T) x y : replace (l ++ [x]) (length l) y = l ++ [y].
Proof.
  unfold replace. rewrite firstn_app, firstn_all, Nat.sub_diag, skipn_app, skipn_all, Nat.sub_diag.
  cbn [firstn skipn app]. now rewrite app_nil_r.
Qed.

Definition same_shape (b b' : buffer) (A A' : abs) : Prop :=
  a_ms A' = a_ms A /\ a_mo A' = a_mo A /\ a_md A' = a_md A /\ zlen (a_cells A') = zlen (a_cells A) /\
  a_objs A' = a_objs A /\ a_dps A' = a_dps A /\ b_h b' = b_h b /\
  (reachable full_arrays b -> reachable full_arrays b') /\ (added_only b -> added_only b').

Lemma same_shape_trans b b1 b2 A A1 A2 : same_shape b b1 A A1 -> same_shape b1 b2 A1 A2 -> same_shape b b2 A A2.
Proof.
  intros (X1 & X2 & X3 & X4 & X5 & X6 & X7 & X8 & X9) (Y1 & Y2 & Y3 & Y4 & Y5 & Y6 & Y7 & Y8 & Y9).
  repeat split; try congruence; auto.
Qed.

Lemma set_last b A l t cells w k v a : reachable any b -> binv b A -> bview b A -> objects b = l ++ [(t, cells)] ->
  a = obj_begin (b_mem b) (Z.of_nat (length l)) ->
  nth_error cells k = Some (Raw w) ->
  exists b' A', set_field b a (Z.of_nat k) v = Some b' /\ binv b' A' /\ bview b' A' /\ same_shape b b' A A' /\
    objects b' = l ++ [(t, replace cells k (Raw (v mod 2 ^ 64)))] /\
    a = obj_begin (b_mem b') (Z.of_nat (length l)).
Proof.
  intros HR I V HO -> HK.
  assert (Hv : 0 <= v mod 2 ^ 64 < 2 ^ 64) by (apply Z.mod_pos_bound; reflexivity).
  assert (HN : nth_error (objects b) (length l) = Some (t, cells)) by (rewrite HO; apply nth_last).
  destruct (write_defined b (length l) k (v mod 2 ^ 64) t cells w HR HN HK Hv) as (b' & W).
  destruct (write_inv b A _ _ _ b' I V W) as (A' & I' & V' & _ & _ & Q1 & Q2 & Q3 & _ & Q4 & Q5 & Q6).
  destruct (write_one b _ _ _ b' HR W) as (t' & cells' & N' & O').
  assert ((t', cells') = (t, cells)) as EQ by congruence. injection EQ as -> ->.
  rewrite HO, replace_last in O'.
  exists b', A'. pose proof W as W0. inversion W0 as [b0 i0 k0 v0 t0 c0 w0 m' _ _ _ Hw]; subst.
  split. { unfold set_field. rewrite Hw. reflexivity. }
  split; [exact I'|]. split; [exact V'|]. split.
  { split; [exact Q1|]. split; [exact Q2|]. split; [exact Q3|]. split; [exact Q4|]. split; [exact Q5|].
    split; [exact Q6|]. split; [reflexivity|]. split; intros X; [exact (r_write _ _ _ _ _ _ X W)|exact (ao_write _ _ _ _ _ X W)]. }
  split; [exact O'|].
  pose proof (bi_repr _ _ I) as R. pose proof (bi_repr _ _ I') as R'.
  rewrite (objects_eq _ _ I) in HN. unfold acontent in HN. rewrite nth_error_map in HN.
  destruct (nth_error (a_objs A) (length l)) as [[[s n] t1]|] eqn:HN'; [|discriminate].
  destruct (obj_ok _ _ _ R _ _ _ _ HN') as (Eb & _). rewrite <- Q5 in HN'.
  destruct (obj_ok _ _ _ R' _ _ _ _ HN') as (Eb' & _). rewrite Eb, Eb'. f_equal. f_equal.
  rewrite <- (bi_addr _ _ I), <- (bi_addr _ _ I'). reflexivity.
Qed.

Definition plain_words : list Z := [0; 0; 1; 0; 2 ^ 64 - 1; 2 ^ 64 - 1; 0; 1].

Lemma fresh_monitor F hp b Ab stack : good_heap hp -> limits_squared F -> reachable full_arrays b -> binv b Ab -> bview b Ab ->
  data_size (b_h b) + 88 + 32 < 2 ^ 64 ->
  let o := (10, map Raw plain_words) in
  (exists b', new_element F hp b stack NewMonitor = Some (0, b') /\ objects b' = objects b /\ ~ has_room_for b [o] /\
     ~ (added_only b /\ memory_up_to hp (data_size (b_h b) + 88 + 16))) \/
  (exists a b' Ab', new_element F hp b stack NewMonitor = Some (a, b') /\ a <> 0 /\ objects b' = objects b ++ [o] /\
     a = obj_begin (b_mem b') (Z.of_nat (length (objects b))) /\ after b b' Ab Ab' [o]).
Proof.
  intros Hh LS HR Ib Vb HD o.
  set (q := request_of (fun _ => None) (10, plain_words, [])).
  assert (W64 : words64 plain_words).
  { unfold plain_words. repeat (constructor; [split; [vm_compute; discriminate|reflexivity]|]). constructor. }
  assert (CC : call_ok (rq_mem q) (rq_obj q) (rq_size q) (rq_attrs q)).
  { constructor.
    - reflexivity.
    - vm_compute. discriminate.
    - exact W64.
    - intros x [].
    - constructor.
    - intros x [].
    - intros x []. }
  assert (FA : full_arrays q) by (intros x []).
  assert (RC : rcost q = 88) by reflexivity.
  assert (RQ : request_ok b q).
  { split; [exact CC|]. fold (zlen (rq_attrs q)). fold (rcost q). rewrite RC. lia. }
  assert (HRa : reachable any b) by (eapply reachable_mono; [|exact HR]; exact (fun _ _ => Logic.I)).
  assert (W1 : wanted F NewMonitor = Some (10, plain_words, [])) by reflexivity.
  pose proof (request_small b q HRa RQ (sized _ _ _ _ _ W1)) as SM.
  assert (SL : length (on_stack stack NewMonitor) = struct_words NewMonitor)
    by (unfold on_stack; now rewrite map_length, seq_length).
  pose proof (prepare_proper F (on_stack stack NewMonitor) NewMonitor 10 plain_words [] LS SL Logic.I W1 SM Logic.I W64) as P.
  destruct (call_done F hp b (fun _ => None) (on_stack stack NewMonitor) NewMonitor 10 plain_words [] HRa Hh RQ P)
    as (a & b' & EA & X & Y).
  destruct (add_full hp b Ab q Hh HR Ib Vb CC FA ltac:(rewrite RC; exact HD)) as (r & b2 & E2 & Z1 & Z2 & Z3 & Z4).
  rewrite RC in *.
  assert (RM : has_room_for b [o] <-> has_room b q).
  { unfold has_room_for, has_room, request_of. cbv zeta. change (total words_in [o]) with 8. change (total pointers_in [o]) with 0.
    change (object_words (rq_size q) (rq_attrs q)) with 8. change (Z.of_nat (length (rq_attrs q))) with 0.
    change (Z.of_nat (length [o])) with 1. tauto. }
  fold q in X, Y. destruct (Z.eq_dec a 0) as [->|Ha].
  - left. specialize (Y eq_refl). assert (r = 0) as -> by congruence. assert (b2 = b') as -> by congruence.
    exists b'. split; [exact EA|]. split; [now apply Z2|]. rewrite RM. split; [intros H; now apply Z3|].
    intros (AO & MM). now apply Z4.
  - right. destruct (X Ha) as (r' & Hr' & EA' & EB). assert (r' = r) as -> by congruence. assert (b2 = b') as -> by congruence.
    destruct (Z1 Hr') as (o' & Ab' & SA & Q1 & Q2 & Q3 & Q4 & Q5 & Q6 & Q7 & Q8 & Q9 & Q10).
    assert (o' = o) as ->.
    { rewrite (stored_blank 10 plain_words [] o' W64); [reflexivity| |exact SA]. intros x []. }
    exists a, b', Ab'. split; [exact EA|]. split; [exact Ha|]. split; [exact Q2|]. split; [exact EB|].
    split; [exact Q1|]. split; [exact Q3|]. split; [exact Q4|].
    change (total words_in [o]) with 8. change (total pointers_in [o]) with 0. change (Z.of_nat (length [o])) with 1.
    change (words_in o) with 8 in Q5. change (zlen (rq_attrs q)) with 0 in Q7. change (line_cost [o]) with 88.
    split; [exact Q5|]. split; [exact Q6|]. split; [exact Q7|]. split; [exact Q8|]. split; [|exact Q10].
    intros l' H. apply Q9. apply RM. exact (room_prefix b Ab [o] l' Ib Vb H).
Qed.

Lemma monitor_new F hp b Ab stack n s k (ro : bool) : good_heap hp -> limits_squared F -> reachable full_arrays b ->
  binv b Ab -> bview b Ab -> data_size (b_h b) + 88 + 32 < 2 ^ 64 ->
  let o := monitor_object n s k ro in
  (forall f, exists b', new_monitor F hp b stack f = Some (false, b') /\ objects b' = objects b /\ ~ has_room_for b [o] /\
     ~ (added_only b /\ memory_up_to hp (data_size (b_h b) + 88 + 16))) \/
  (exists b' Ab', new_monitor F hp b stack (Some (n, s, k, ro)) = Some (true, b') /\ objects b' = objects b ++ [o] /\
     after b b' Ab Ab' [o]).
Proof.
  intros Hh LS HR Ib Vb HD o.
  assert (SW : forall l', has_room_for b (o :: l') <-> has_room_for b ((10, map Raw plain_words) :: l')) by (intros l'; reflexivity).
  destruct (fresh_monitor F hp b Ab stack Hh LS HR Ib Vb HD) as [(b' & E & X1 & X2 & X3)|(a & b1 & A1 & E & Ha & O1 & EB & AF)].
  - left. intros f. exists b'. unfold new_monitor. rewrite E. cbn [bind]. change (0 =? 0) with true. cbn iota.
    rewrite SW. auto.
  - right. pose proof AF as (HR1 & I1 & V1 & Zc & Zo & Zd & Dz & Rm & Ao).
    assert (HRa : forall x, reachable full_arrays x -> reachable any x)
      by (intros x; apply reachable_mono; exact (fun _ _ => Logic.I)).
    unfold new_monitor. rewrite E. cbn [bind]. rewrite (proj2 (Z.eqb_neq a 0) Ha). cbn [bind].
    destruct (set_last b1 A1 (objects b) 10 _ 0 0 n a (HRa _ HR1) I1 V1 O1 EB eq_refl) as (b2 & A2 & E2 & I2 & V2 & S2 & O2 & B2).
    change (Z.of_nat 0) with 0 in E2. rewrite E2. cbn [bind].
    pose proof S2 as (_ & _ & _ & _ & _ & _ & _ & R2 & _). specialize (R2 HR1).
    destruct (set_last b2 A2 (objects b) 10 _ 0 1 s a (HRa _ R2) I2 V2 O2 B2 eq_refl) as (b3 & A3 & E3 & I3 & V3 & S3 & O3 & B3).
    change (Z.of_nat 1) with 1 in E3. rewrite E3. cbn [bind].
    pose proof S3 as (_ & _ & _ & _ & _ & _ & _ & R3 & _). specialize (R3 R2).
    destruct (set_last b3 A3 (objects b) 10 _ 1 2 k a (HRa _ R3) I3 V3 O3 B3 eq_refl) as (b4 & A4 & E4 & I4 & V4 & S4 & O4 & B4).
    change (Z.of_nat 2) with 2 in E4. rewrite E4. cbn [bind].
    pose proof S4 as (_ & _ & _ & _ & _ & _ & _ & R4 & _). specialize (R4 R3).
    destruct (set_last b4 A4 (objects b) 10 _ 0 6 (if ro then 1 else 0) a (HRa _ R4) I4 V4 O4 B4 eq_refl) as (b5 & A5 & E5 & I5 & V5 & S5 & O5 & _).
    change (Z.of_nat 6) with 6 in E5. rewrite E5. cbn [bind].
    pose proof S5 as (_ & _ & _ & _ & _ & _ & _ & R5 & _). specialize (R5 R4).
    pose proof (same_shape_trans _ _ _ _ _ _ (same_shape_trans _ _ _ _ _ _ S2 S3) (same_shape_trans _ _ _ _ _ _ S4 S5)) as SS.
    destruct SS as (Y1 & Y2 & Y3 & Y4 & Y5 & Y6 & Y7 & _ & Y8).
    exists b5, A5. split; [reflexivity|]. split.
    { rewrite O5. f_equal. unfold o, monitor_object, plain_words. destruct ro; reflexivity. }
    split; [exact R5|]. split; [exact I5|]. split; [exact V5|].
    change (total words_in [o]) with 8. change (total pointers_in [o]) with 0. change (Z.of_nat (length [o])) with 1.
    change (line_cost [o]) with 88.
    change (total words_in [(10, map Raw plain_words)]) with 8 in Zc.
    change (total pointers_in [(10, map Raw plain_words)]) with 0 in Zd.
    change (Z.of_nat (length [(10, map Raw plain_words)])) with 1 in Zo.
    change (line_cost [(10, map Raw plain_words)]) with 88 in Dz.
    rewrite Y4, Y5, Y6, Y7. split; [exact Zc|]. split; [exact Zo|]. split; [exact Zd|]. split; [exact Dz|].
    split; [|intros AO; auto]. intros l' H. rewrite Y1, Y2, Y3. apply (Rm l'). exact H.
Qed.

(* ------------------------------------------------------------------ *)
Lemma second_ok target out skip : out < target -> target - out < 2 ^ 63 ->
  second_fields target out skip =
    Some ((target - out + each skip - 1) / each skip, out, each skip, true).
Proof.
  intros H1 H2. unfold second_fields, int64_result, each.
  assert ((- 2 ^ 63 <=? target - out) = true) as -> by (apply Z.leb_le; lia).
  assert ((target - out <? 2 ^ 63) = true) as -> by (apply Z.ltb_lt; lia).
  cbn [andb bind]. cbv zeta. set (d := target - out) in *. assert (Hd : 0 < d) by lia.
  destruct (Z.ltb_spec skip 1) as [L|L].
  - change (1 <? 1) with false. cbn iota. rewrite Z.max_l by lia. rewrite Z.div_1_r. replace (d + 1 - 1) with d by lia. reflexivity.
  - rewrite Z.max_r by lia. destruct (Z.ltb_spec 1 skip) as [G|G].
    + rewrite Z.rem_mod_nonneg, Z.quot_div_nonneg by lia.
      pose proof (Z.div_mod d skip ltac:(lia)) as DM. pose proof (Z.mod_pos_bound d skip ltac:(lia)) as MB.
      replace ((d + skip - 1) / skip) with (if d mod skip =? 0 then d / skip else d / skip + 1); [reflexivity|].
      destruct (Z.eqb_spec (d mod skip) 0) as [E0|E0].
      * apply (Z.div_unique _ _ _ (skip - 1)); [lia|]. rewrite E0 in DM. lia.
      * apply (Z.div_unique _ _ _ (d mod skip - 1)); [lia|]. clear - DM. lia.
    + assert (skip = 1) as -> by lia. rewrite Z.div_1_r. replace (d + 1 - 1) with d by lia. reflexivity.
Qed.

Lemma objects_end_ok b : reachable any b -> objects_end b = entry_addr b (length (objects b)) /\
  object_addr (b_h b) <> 0 /\ objects_end b <> 0.
Proof.
  intros HR. pose proof (entry_nz b 0 HR) as N0. pose proof (entry_nz b (length (objects b)) HR) as N1.
  assert (E0 : entry_addr b 0 = object_addr (b_h b)) by (unfold entry_addr; change (Z.of_nat 0) with 0; lia).
  rewrite E0 in N0. apply Z.eqb_neq in N0. apply Z.eqb_neq in N1.
  assert (EE : objects_end b = entry_addr b (length (objects b))).
  { unfold objects_end. cbv zeta. rewrite (proj2 (Z.eqb_neq _ _) N0). unfold entry_addr. f_equal. f_equal.
    destruct (reachable_inv _ _ HR) as (A & I & V & _). rewrite (bi_num _ _ I), (objects_eq _ _ I).
    unfold acontent. now rewrite map_length. }
  rewrite EE. auto.
Qed.

Lemma insert_else F hps st b start num target skip prev : reachable any b -> prev <> objects_end b ->
  insert_monitors F hps st b start num target skip prev = Some (-1, b).
Proof. intros _ H. unfold insert_monitors. cbv zeta. apply Z.eqb_neq in H. rewrite H. reflexivity. Qed.

Lemma insert_eq F hps st b start num target skip : reachable any b -> int64_number (start + num) ->
  insert_monitors F hps st b start num target skip (objects_end b) =
    ('(ok1, b1) <- (if 0 <? num then new_monitor F (hps 0%nat) b (st 0%nat) (Some (num, start, 1, false))
                   else Some (true, b)) ;;
    '(ok2, b2) <- (if start + num <? target then new_monitor F (hps 1%nat) b1 (st 1%nat) (second_fields target (start + num) skip)
                   else Some (true, b1)) ;;
    Some (if ok1 && ok2 : bool then 0 else -1, b2)).
Proof.
  intros HR HN. destruct (objects_end_ok b HR) as (E & N0 & N1). unfold insert_monitors. cbv zeta.
  rewrite Z.eqb_refl. cbn [negb]. rewrite (proj2 (Z.eqb_neq _ _) N0), (proj2 (Z.eqb_neq _ _) N1). cbn [negb andb orb].
  assert ((0 <=? objects_end b - object_addr (b_h b)) = true) as ->.
  { apply Z.leb_le. rewrite E. unfold entry_addr. lia. }
  rewrite Z.sub_diag. change (0 <=? 0) with true. cbn [andb]. unfold int64_result. unfold int64_number in HN.
  assert ((- 2 ^ 63 <=? start + num) = true) as -> by (apply Z.leb_le; lia).
  assert ((start + num <? 2 ^ 63) = true) as -> by (apply Z.ltb_lt; lia).
  reflexivity.
Qed.

Lemma after_nil b Ab : reachable full_arrays b -> binv b Ab -> bview b Ab -> after b b Ab Ab [].
Proof.
  intros HR Ib Vb. split; [exact HR|]. split; [exact Ib|]. split; [exact Vb|].
  change (total words_in []) with 0. change (total pointers_in []) with 0.
  change (Z.of_nat (length (@nil (Z * list cell)))) with 0. change (line_cost []) with 0.
  repeat split; auto; lia.
Qed.

Lemma insert_ok F hps st b start num target skip : (forall k, good_heap (hps k)) -> limits_squared F ->
  reachable full_arrays b -> int64_number (start + num) -> target - (start + num) < 2 ^ 63 ->
  data_size (b_h b) + 176 + 32 < 2 ^ 64 ->
  let l := end_of_turn start num target skip in
  let fits_first := num <= 0 \/ has_room_for b (first_monitor start num) \/
    (added_only b /\ memory_up_to (hps 0%nat) (data_size (b_h b) + 88 + 16)) in
  exists r b' n, (fits_first ->
    insert_monitors F hps st b start num target skip (objects_end b) = Some (r, b') /\
    (n <= length l)%nat /\ objects b' = objects b ++ firstn n l /\ (r = 0 <-> n = length l) /\ (r = 0 \/ r = -1) /\
    (has_room_for b l -> r = 0 /\ data_addr (b_h b') = data_addr (b_h b)) /\
    (added_only b -> (forall k, memory_up_to (hps k) (data_size (b_h b) + 176 + 16)) -> r = 0)).
Proof.
  intros Hh LS HR HN HT HD l ff. destruct (reachable_inv _ _ HR) as (Ab & Ib & Vb & _).
  assert (HRa : reachable any b) by (eapply reachable_mono; [|exact HR]; exact (fun _ _ => Logic.I)).
  rewrite (insert_eq F hps st b start num target skip HRa HN).
  assert (S1 : (exists b1 Ab1, (if 0 <? num then new_monitor F (hps 0%nat) b (st 0%nat) (Some (num, start, 1, false))
                   else Some (true, b)) = Some (true, b1) /\ objects b1 = objects b ++ first_monitor start num /\
                 after b b1 Ab Ab1 (first_monitor start num)) \/ ~ ff).
  { unfold first_monitor, ff. destruct (Z.ltb_spec 0 num) as [L|L].
    - destruct (monitor_new F (hps 0%nat) b Ab (st 0%nat) num start 1 false (Hh _) LS HR Ib Vb ltac:(lia)) as [X|(b1 & A1 & X)].
      + right. destruct (X None) as (b' & _ & _ & X1 & X2). unfold first_monitor.
        rewrite (proj2 (Z.ltb_lt _ _) L). intros [Y|[Y|Y]]; [lia|now apply X1|now apply X2].
      + left. exists b1, A1. exact X.
    - left. exists b, Ab. rewrite app_nil_r. split; [reflexivity|]. split; [reflexivity|]. now apply after_nil. }
  destruct S1 as [(b1 & Ab1 & E1 & O1 & AF1)|NF]; [|exists 0, b, 0%nat; intros Y; now elim NF].
  rewrite E1. cbn [bind]. pose proof AF1 as (HR1 & I1 & V1 & Zc & Zo & Zd & Dz & Rm & Ao).
  assert (LC : line_cost (first_monitor start num) <= 88 /\ (length (first_monitor start num) <= 1)%nat).
  { unfold first_monitor. destruct (0 <? num); [split; [vm_compute; discriminate|cbn; lia]|split; [vm_compute; discriminate|cbn; lia]]. }
  unfold l, end_of_turn, second_monitor. destruct (Z.ltb_spec (start + num) target) as [L|L].
  - rewrite (second_ok target (start + num) skip L HT).
    set (o := monitor_object _ (start + num) (each skip) true).
    destruct (monitor_new F (hps 1%nat) b1 Ab1 (st 1%nat) ((target - (start + num) + each skip - 1) / each skip)
      (start + num) (each skip) true (Hh _) LS HR1 I1 V1 ltac:(lia)) as [X|(b2 & A2 & E2 & O2 & AF2)].
    + destruct (X (Some ((target - (start + num) + each skip - 1) / each skip, start + num, each skip, true)))
        as (b2 & E2 & O2 & X1 & X2). rewrite E2. cbn [bind andb].
      exists (-1), b2, (length (first_monitor start num)). intros _. rewrite app_length. cbn [length].
      split; [reflexivity|]. split; [lia|]. split; [rewrite O2, O1, firstn_app, firstn_all, Nat.sub_diag; cbn [firstn]; now rewrite app_nil_r|].
      split; [lia|]. split; [auto|]. split.
      * intros Y. elim X1. exact (room_after b b1 Ab Ab1 _ [o] Ib Vb AF1 Y).
      * intros AO MM. elim X2. split; [now apply Ao|]. eapply memory_le; [|apply (MM 1%nat)]. lia.
    + rewrite E2. cbn [bind andb]. exists 0, b2, (length (first_monitor start num ++ [o])). intros _.
      rewrite firstn_all. split; [reflexivity|]. split; [lia|]. split; [rewrite O2, O1, app_assoc; reflexivity|].
      split; [tauto|]. split; [auto|]. split; [|auto]. intros Y. split; [reflexivity|].
      destruct AF2 as (_ & _ & _ & _ & _ & _ & _ & Rm2 & _). destruct (Rm2 []) as (_ & _ & _ & Y2).
      { exact (room_after b b1 Ab Ab1 _ [o] Ib Vb AF1 Y). }
      destruct (Rm [o] Y) as (_ & _ & _ & Y1). congruence.
  - cbn [bind andb]. exists 0, b1, (length (first_monitor start num ++ [])). intros _. rewrite firstn_all, app_nil_r.
    split; [reflexivity|]. split; [lia|]. split; [exact O1|]. split; [tauto|]. split; [auto|]. split; [|auto].
    intros Y. split; [reflexivity|]. destruct (Rm []) as (_ & _ & _ & Y1); [now rewrite app_nil_r|exact Y1].
Qed.

(* ------------------------------------------------------------------ *)
(* the turns *)
Lemma number64_ok z : int64_number z -> number64 (z mod 2 ^ 64) = z.
Proof.
  intros H. unfold number64, int64_number in *. assert (2 ^ 64 = 2 * 2 ^ 63) by reflexivity.
  destruct (Z.ltb_spec z 0).
  - assert (z mod 2 ^ 64 = z + 2 ^ 64) as ->.
    { symmetry. apply (Z.mod_unique _ _ (-1)); lia. }
    destruct (Z.ltb_spec (z + 2 ^ 64) (2 ^ 63)); lia.
  - rewrite Z.mod_small by lia. destruct (Z.ltb_spec z (2 ^ 63)); lia.
Qed.

Lemma monitor_of_ok n s k ro : int64_number n -> int64_number s -> int64_number k ->
  monitor_of (monitor_object n s k ro) = mkMonitor n s k None (-1) (-1) ro true.
Proof.
  intros H1 H2 H3. unfold monitor_of, monitor_object. cbv zeta. cbn [snd map nth word_of].
  rewrite !number64_ok by assumption. change (number64 (2 ^ 64 - 1)) with (-1).
  destruct ro; reflexivity.
Qed.

Lemma apart i j c k : 0 <= i -> i < j -> j < c -> i - j = k * c -> False.
Proof.
  intros H1 H2 H3 K. destruct (Z_lt_le_dec k 0) as [L|L].
  - pose proof (Z.mul_le_mono_nonneg_r k (-1) c ltac:(lia) ltac:(lia)). lia.
  - pose proof (Z.mul_nonneg_nonneg k c L ltac:(lia)). lia.
Qed.

Lemma turns_ok start num target skip n t : int64_number start -> 0 <= num -> int64_number num -> int64_number target ->
  int64_number skip -> int64_number (start + num) -> target - (start + num) < 2 ^ 63 ->
  n <= Z.max target (start + num) -> 0 <= t < n ->
  recorded (end_of_turn start num target skip) n t <-> to_record start num skip t.
Proof.
  intros I1 N0 I2 I3 I4 I5 HT Hn Ht. unfold recorded, to_record, end_of_turn, first_monitor, second_monitor.
  assert (E1 : 1 <= each skip) by (unfold each; lia).
  assert (I6 : int64_number (each skip)) by (unfold each, int64_number in *; lia).
  split.
  - intros (o & i & Ho & S & ST). apply in_app_or in Ho. destruct Ho as [Ho|Ho].
    + destruct (Z.ltb_spec 0 num) as [L|L]; [|destruct Ho]. destruct Ho as [<-|[]]. left.
      rewrite monitor_of_ok in * by (assumption || (unfold int64_number; lia)).
      destruct S as (S1 & S2). destruct ST as ([X|X] & _); cbn [m_rolling m_num_stores m_start m_skip] in *; [discriminate|lia].
    + destruct (Z.ltb_spec (start + num) target) as [L|L]; [|destruct Ho]. destruct Ho as [<-|[]]. right.
      assert (I7 : int64_number ((target - (start + num) + each skip - 1) / each skip)).
      { unfold int64_number in *. split.
        - apply Z.le_trans with 0; [lia|]. apply Z.div_pos; lia.
        - apply Z.le_lt_trans with (target - (start + num)); [|lia].
          apply Z.div_le_upper_bound; [lia|]. nia. }
      rewrite monitor_of_ok in * by (assumption || (unfold int64_number; lia)).
      destruct S as (S1 & S2). cbn [m_rolling m_num_stores m_start m_skip] in *. split; [nia|].
      replace (t - (start + num)) with (i * each skip) by lia. apply Z.mod_mul. lia.
  - intros [H|(H1 & H2)].
    + exists (monitor_object num start 1 false), (t - start). assert ((0 <? num) = true) as -> by (apply Z.ltb_lt; lia).
      split; [apply in_or_app; left; left; reflexivity|].
      rewrite monitor_of_ok by (assumption || (unfold int64_number; lia)).
      unfold sample, still_stored, mon_keeps, same_store. cbn [m_rolling m_num_stores m_start m_skip].
      split; [lia|]. split; [right; lia|]. intros j (J1 & _) _ J3 [J4|J4] (k & K); [discriminate|].
      apply (apart (t - start) j num k); lia.
    + assert (L : start + num < target) by lia. rewrite (proj2 (Z.ltb_lt _ _) L).
      set (o := monitor_object _ (start + num) (each skip) true). exists o, ((t - (start + num)) / each skip).
      split; [apply in_or_app; right; left; reflexivity|].
      assert (I7 : int64_number ((target - (start + num) + each skip - 1) / each skip)).
      { unfold int64_number in *. split.
        - apply Z.le_trans with 0; [lia|]. apply Z.div_pos; lia.
        - apply Z.le_lt_trans with (target - (start + num)); [|lia].
          apply Z.div_le_upper_bound; [lia|]. nia. }
      unfold o. rewrite monitor_of_ok by (assumption || (unfold int64_number; lia)).
      unfold sample, still_stored, mon_keeps, same_store. cbn [m_rolling m_num_stores m_start m_skip].
      set (i := (t - (start + num)) / each skip). set (c := (target - (start + num) + each skip - 1) / each skip).
      assert (Ei : t - (start + num) = i * each skip).
      { pose proof (Z.div_mod (t - (start + num)) (each skip) ltac:(lia)) as D. rewrite H2 in D. unfold i. lia. }
      assert (Hi : 0 <= i) by (apply Z.div_pos; lia).
      split; [lia|]. split; [now left|]. intros j (J1 & _) J2 J3 _ (k & K).
      assert (Hc : j < c).
      { assert (B : j * each skip < target - (start + num)) by lia.
        unfold c. apply Z.le_succ_l. apply Z.div_le_lower_bound; [lia|]. clear - B. lia. }
      apply (apart i j c k); lia.
Qed.
