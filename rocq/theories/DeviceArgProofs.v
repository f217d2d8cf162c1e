(* Proofs about device arguments. *)
From Coq Require Import ZArith List Bool Lia.
From Verif Require Import Tac MBuf MBufSpec MBufMem MBufAbs MBufRemap MBufApply MBufReserve MBufInit
  MemPool Buffer BufferSpec BufferProofs BufferReserve BufferNew BufferUser BufferWrite BufferReach BufferProps
  DeviceArg DeviceArgSpec.
Import ListNotations.
Local Open Scope Z_scope.

Lemma put_replace {T} (l : list T) i x : put l i x = replace l i x.
Proof. reflexivity. Qed.

Lemma replace_map {S T} (f : S -> T) l i x : map f (replace l i x) = replace (map f l) i (f x).
Proof.
  unfold replace. rewrite map_app, firstn_map, skipn_map. destruct (skipn i l); reflexivity.
Qed.

Lemma replace_in {T} (l : list T) i x y : In y (replace l i x) -> y = x \/ In y l.
Proof.
  unfold replace. intros H. apply in_app_or in H as [H|H].
  - right. rewrite <- (firstn_skipn i l). apply in_or_app. auto.
  - destruct (skipn i l) as [|z r] eqn:E; [destruct H|]. destruct H as [H|H]; [auto|].
    right. rewrite <- (firstn_skipn i l), E. apply in_or_app. right. now right.
Qed.

(* a buffer with what the library guarantees *)
Definition fine (b : buffer) : Prop := exists A, binv b A /\ bview b A /\ remappable A.

Lemma fine_addr b : fine b -> 0 < data_addr (b_h b) /\ data_addr (b_h b) = mbase (b_mem b) /\
  0 < data_size (b_h b) /\ data_size (b_h b) mod 8 = 0.
Proof.
  intros (A & I & _ & _). pose proof (bi_facts b A I) as (P & Q & T16 & Tw & _).
  rewrite (bi_addr _ _ I), (bi_dsize _ _ I). repeat split; try lia. rewrite Z.mul_comm. apply Z.mod_mul. lia.
Qed.

(* the device block *)
Record devok (w : world) (m : mem) : Prop := Devok {
  do_pos : 0 < mbase m;
  do_mod : mbase m mod 8 = 0;
  do_cap : 8 * wlen m = a_cap (w_arg w);
  do_top : mbase m + a_cap (w_arg w) < 2 ^ 64;
  do_has : a_has (w_arg w) = true;
  do_ne : forall b, In b (w_bufs w) -> mbase m <> data_addr (b_h b) }.

(* the device holds a remapped image *)
Definition image (w : world) (A : abs) : Prop :=
  exists m, a_dev (w_arg w) = Some m /\ repr (mbase m) m A /\ remappable A /\ a_size (w_arg w) = 8 * tot A.

Record winv (w : world) : Prop := Winv {
  wi_bufs : forall b, In b (w_bufs w) -> fine b;
  wi_raw : a_raw (w_arg w) = None;
  wi_cxx : a_c (w_arg w) = None -> a_cxx (w_arg w) = None;
  wi_size : 0 <= a_size (w_arg w);
  wi_none : a_dev (w_arg w) = None -> a_cap (w_arg w) = 0 /\ a_size (w_arg w) = 0;
  wi_dev : forall m, a_dev (w_arg w) = Some m -> devok w m;
  wi_image : 0 < a_size (w_arg w) -> a_c (w_arg w) <> None /\ exists A, image w A }.

Lemma start_inv w : start w -> winv w.
Proof.
  intros (E & R). split; rewrite ?E; unfold new_arg; cbn [a_raw a_cxx a_c a_size a_cap a_has a_dev]; try reflexivity; try lia; auto;
    try discriminate.
  intros b Hb. destruct (reachable_inv _ _ (R b Hb)) as (A & I & V & F). exists A. auto.
Qed.

Lemma held_image w A : image w A -> held w = Some (acontent A).
Proof.
  intros (m & E & R & _ & S). unfold held. rewrite S, E.
  pose proof (ok_bounds A (re_ok _ _ _ R)). rewrite (proj2 (Z.ltb_lt 0 (8 * tot A))) by (unfold tot; lia).
  cbn [option_map]. f_equal. apply (content_ok _ _ _ R).
Qed.

Lemma held_none w : winv w -> ~ 0 < a_size (w_arg w) -> held w = None.
Proof. intros W H. unfold held. rewrite (proj2 (Z.ltb_ge 0 _)) by lia. reflexivity. Qed.

Lemma nth_fine w i b : winv w -> nth_error (w_bufs w) i = Some b -> fine b.
Proof. intros W H. apply (wi_bufs _ W). now apply nth_error_In with i. Qed.

(* the words of a buffer at the begin of another block *)
Lemma words_written b A m ws : binv b A -> words (b_mem b) (tot A) ws -> tot A <= wlen m ->
  exists m', wrn m (mbase m) ws = Some m' /\ mbase m' = mbase m /\ wlen m' = wlen m /\
    repr (mbase (b_mem b)) m' A.
Proof.
  intros I (L & G) Hl. unfold zlen in L.
  destruct (wrn_ok ws m (mbase m) 0) as (m' & E & Pm); [lia|lia|intros _; lia|].
  exists m'. split; [exact E|]. pose proof (mput_base _ _ _ _ _ Pm) as B'. pose proof (mput_len _ _ _ _ _ Pm) as W'.
  split; [exact B'|]. split; [exact W'|].
  apply (repr_frame _ (b_mem b)); [apply (bi_repr _ _ I)|lia|].
  intros j Hj. rewrite (mput_in _ _ _ _ _ _ Pm) by lia. rewrite Z.sub_0_r. now apply G.
Qed.

(* the argument of a world replaced *)
Lemma winv_ptrs w a a' : winv (set_arg w a) -> a_raw a' = None -> (a_c a' = None -> a_cxx a' = None) ->
  a_size a' = a_size a -> a_cap a' = a_cap a -> a_has a' = a_has a -> a_dev a' = a_dev a ->
  (0 < a_size a -> a_c a' <> None) -> winv (set_arg w a').
Proof.
  intros [B R C S N D M] Hr Hc E1 E2 E3 E4 Hs. unfold set_arg in *. cbn [w_bufs w_arg w_raws] in *.
  split; cbn [w_bufs w_arg w_raws]; rewrite ?E1, ?E2, ?E4; auto.
  - intros m Hm. specialize (D m Hm). destruct D as [D1 D2 D3 D4 D5 D6]. cbn [w_bufs w_arg] in *.
    split; cbn [w_bufs w_arg]; rewrite ?E2, ?E3; auto.
  - intros H. split; [auto|]. destruct (M H) as (_ & A & m & F1 & F2 & F3 & F4). cbn [w_arg] in *.
    exists A, m. cbn [w_arg]. rewrite E4, E1. auto.
Qed.

(* reserving *)
Lemma reserve_ok dv w n : winv w -> device_ok dv w -> 0 < n -> n mod 8 = 0 -> a_cap (w_arg w) < n ->
  exists r a, reserve_arg (d_heap dv) (w_arg w) n = (r, a) /\
    (r = true <-> h_malloc (d_heap dv) n <> 0) /\
    (r = false -> a = w_arg w) /\
    (r = true -> a_size a = 0 /\ a_cap a = n /\ a_raw a = None /\
       (a_c a = None \/ a_c a = a_c (w_arg w)) /\ (a_cxx a = None \/ a_cxx a = a_cxx (w_arg w)) /\
       (a_c a = None -> a_cxx a = None) /\ winv (set_arg w a)).
Proof.
  intros W (Hh & Hd) Pn Mn Hc. unfold reserve_arg. rewrite (proj2 (Z.ltb_lt _ _) Hc), (proj2 (Z.ltb_lt 0 n) Pn).
  destruct (Z.eqb_spec (h_malloc (d_heap dv) n) 0) as [M0|M0].
  { exists false, (w_arg w). split; [reflexivity|]. split; [split; [discriminate|congruence]|]. split; [auto|]. discriminate. }
  destruct (Hd n M0) as (D1 & D2 & D3). pose proof (Hh n M0) as (G1 & G2).
  set (p := h_malloc (d_heap dv) n) in *.
  eexists true, _. split; [reflexivity|]. split; [tauto|]. split; [discriminate|]. intros _.
  unfold reset_device. rewrite (proj2 (Z.ltb_lt 0 n) Pn).
  assert (E0 : ((match a_dev (w_arg w) with Some m => mbase m | None => 0 end) =? p) = false).
  { apply Z.eqb_neq. destruct (a_dev (w_arg w)) as [m|] eqn:E; [apply not_eq_sym; auto|lia]. }
  rewrite E0. cbv zeta.
  assert (DB : forall a, a_cap a = n -> a_has a = true -> a_dev a = Some (device_block (d_heap dv) p n) ->
            forall m, a_dev a = Some m -> devok (set_arg w a) m).
  { intros a Ea Eh Ed m Hm. assert (m = device_block (d_heap dv) p n) as -> by congruence.
    unfold device_block. split; cbn [mbase]; auto.
    - cbn [set_arg w_arg]. unfold wlen. cbn [mwords]. rewrite map_length, seq_length, Ea.
      pose proof (Z.div_mod n 8). rewrite Z2Nat.id by (apply Z.div_pos; lia). lia.
    - cbn [set_arg w_arg]. lia. }
  destruct (a_dev (w_arg w)) as [m|] eqn:E.
  - unfold delete_device, set_has. cbn [a_raw a_cxx a_c a_size a_cap a_has a_dev].
    split; [reflexivity|]. split; [reflexivity|]. split; [reflexivity|].
    split; [auto|]. split; [auto|]. split; [auto|].
    split; cbn [set_arg w_bufs w_arg a_raw a_cxx a_c a_size a_cap a_has a_dev]; try reflexivity; try lia; try discriminate.
    + apply (wi_bufs _ W).
    + intros m0 Hm0. apply DB; try reflexivity. exact Hm0.
  - destruct (wi_none _ W E) as (N1 & N2). unfold set_has. cbn [a_raw a_cxx a_c a_size a_cap a_has a_dev].
    split; [exact N2|]. split; [reflexivity|]. split; [apply (wi_raw _ W)|]. split; [auto|]. split; [auto|].
    split; [apply (wi_cxx _ W)|].
    split; cbn [set_arg w_bufs w_arg a_raw a_cxx a_c a_size a_cap a_has a_dev]; try lia; try discriminate.
    + apply (wi_bufs _ W).
    + apply (wi_raw _ W).
    + apply (wi_cxx _ W).
    + intros m0 Hm0. apply DB; try reflexivity. exact Hm0.
Qed.

(* the controller sends buffer b *)
Lemma ctrl_send_ok c dv w b : winv w -> In b (w_bufs w) -> a_c (w_arg w) <> None ->
  data_size (b_h b) <= a_cap (w_arg w) ->
  exists r a, ctrl_send c dv (w_arg w) b true = Some (r, a) /\
    (r = true <-> (c_send c = true /\ c_run c = true /\
        (if c_debug c then c_debug_kernel c else c_kernel c) = true) /\ d_copy dv = true) /\
    (r = false -> a = w_arg w) /\
    a_c a = a_c (w_arg w) /\ a_cxx a = a_cxx (w_arg w) /\
    (r = true -> exists A, acontent A = objects b /\
       winv (set_arg w (set_size a (data_size (b_h b)))) /\ image (set_arg w (set_size a (data_size (b_h b)))) A).
Proof.
  intros W Hb Hc Hn. destruct (wi_bufs _ W b Hb) as (A & I & V & F). destruct (fine_addr b (wi_bufs _ W b Hb)) as (P1 & P2 & P3 & P4).
  destruct (a_dev (w_arg w)) as [m|] eqn:Ed; [|destruct (wi_none _ W Ed); lia].
  destruct (wi_dev _ W m Ed) as [D1 D2 D3 D4 D5 D6].
  assert (Gc : given (a_c (w_arg w)) = true) by (destruct (a_c (w_arg w)); [reflexivity|congruence]).
  assert (RR : ready_for_remap c = c_run c && (if c_debug c then c_debug_kernel c else c_kernel c)).
  { unfold ready_for_remap. destruct (c_debug c), (c_run c), (c_kernel c), (c_debug_kernel c); reflexivity. }
  unfold ctrl_send. rewrite Gc, RR, (proj2 (Z.ltb_lt 0 (a_cap _))), (proj2 (Z.eqb_neq (data_addr _) 0)), (proj2 (Z.ltb_lt 0 (data_size _))),
    (proj2 (Z.leb_le (data_size _) _)) by lia. cbn [negb]. rewrite !andb_true_r.
  destruct (c_send c && (c_run c && (if c_debug c then c_debug_kernel c else c_kernel c))) eqn:Er.
  2:{ exists false, (w_arg w). split; [reflexivity|]. split; [|auto 10; split; [auto|split; [auto|split; [auto|discriminate]]]].
      split; [discriminate|]. intros ((X1 & X2 & X3) & _). rewrite X1, X2, X3 in Er. discriminate. }
  apply andb_prop in Er as (Er1 & Er2). apply andb_prop in Er2 as (Er2 & Er3).
  unfold buffer_words. rewrite P4. change (0 =? 0) with true. cbv iota.
  destruct (read_words b A I) as (ws & Ew & Ww). rewrite Ew. cbn [bind].
  unfold do_send. rewrite Ed, D5, (proj2 (Z.eqb_neq (mbase m) 0)), (proj2 (Z.eqb_neq (data_addr _) 0)),
    (proj2 (Z.eqb_neq (mbase m) (data_addr _)) (D6 b Hb)) by lia.
  assert (Lw : 0 < 8 * Z.of_nat (length ws)).
  { destruct Ww as (L & _). unfold zlen in L. rewrite (bi_dsize _ _ I) in P3. lia. }
  rewrite (proj2 (Z.ltb_lt _ _) Lw). cbn [negb andb].
  destruct (d_copy dv) eqn:Edc.
  2:{ cbn [bind]. exists false, (w_arg w). split; [reflexivity|]. split; [split; [discriminate|intros (_ & X); discriminate X]|].
      split; [auto|]. split; [auto|]. split; [auto|]. discriminate. }
  assert (Ht : tot A <= wlen m) by (rewrite (bi_dsize _ _ I) in Hn; lia).
  destruct (words_written b A m ws I Ww Ht) as (m' & E1 & B1 & W1 & R1).
  rewrite E1. cbn [bind]. cbn [andb].
  unfold do_remap. cbn [set_dev a_dev a_c a_has a_cap].
  rewrite Er2, Gc, D5, (proj2 (Z.ltb_lt 0 (a_cap _))), Er3 by lia. cbn [andb].
  assert (OkA : base_ok (mbase m') A).
  { rewrite B1. split; [lia|]. split; [exact D2|]. rewrite (bi_dsize _ _ I) in Hn. lia. }
  destruct (mb_remap_all _ _ A OkA m' R1 eq_refl) as (t & m2 & E2 & T2 & R2 & (F1 & F2 & F3)).
  rewrite E2. cbn [bind]. assert (t = true) as -> by (apply T2; auto). specialize (R2 eq_refl).
  exists true, (set_dev (set_dev (w_arg w) m') m2).
  split; [destruct (c_debug c); reflexivity|]. split; [tauto|]. split; [discriminate|]. split; [reflexivity|]. split; [reflexivity|].
  intros _. exists A. split; [symmetry; apply (content_ok _ _ _ (bi_repr _ _ I))|].
  assert (IM : image (set_arg w (set_size (set_dev (set_dev (w_arg w) m') m2) (data_size (b_h b)))) A).
  { exists m2. cbn [set_arg w_arg set_size set_dev a_dev a_size]. split; [reflexivity|].
    split; [rewrite F1; exact R2|]. split; [exact F|]. apply (bi_dsize _ _ I). }
  split; [|exact IM].
  split; cbn [set_arg w_bufs w_arg set_size set_dev a_raw a_cxx a_c a_size a_cap a_has a_dev]; try discriminate.
  - apply (wi_bufs _ W).
  - apply (wi_raw _ W).
  - apply (wi_cxx _ W).
  - lia.
  - intros m0 Hm0. assert (m0 = m2) as -> by congruence. assert (Bm : mbase m2 = mbase m) by congruence.
    split; rewrite ?Bm; cbn [set_arg w_bufs w_arg set_size set_dev a_cap a_has]; auto. rewrite F2, W1. exact D3.
  - intros _. split; [exact Hc|]. exists A. exact IM.
Qed.

(* sending *)
Lemma send_ok cx dv cxx i w b : winv w -> device_ok dv w -> nth_error (w_bufs w) i = Some b ->
  exists r w', send_buffer cx dv cxx i true w = Some (r, w') /\ winv w' /\ w_bufs w' = w_bufs w /\ w_raws w' = w_raws w /\
    (r = true -> held w' = Some (objects b)) /\ (r = false -> held w' = held w \/ held w' = None) /\
    (r = true <-> can_send cx /\ d_copy dv = true /\
       (data_size (b_h b) <= a_cap (w_arg w) \/ h_malloc (d_heap dv) (data_size (b_h b)) <> 0)) /\
    (forall p, a_c (w_arg w') = Some p -> p = i \/ a_c (w_arg w) = Some p) /\
    (forall p, a_cxx (w_arg w') = Some p -> p = i \/ a_cxx (w_arg w) = Some p).
Proof.
  intros W Hd Hb. assert (Ib : In b (w_bufs w)) by (apply nth_error_In with i; exact Hb).
  destruct (fine_addr b (wi_bufs _ W b Ib)) as (P1 & P2 & P3 & P4).
  unfold send_buffer. rewrite Hb. cbn [bind]. destruct cx as [c|].
  2:{ exists false, w. split; [reflexivity|]. split; [exact W|]. split; [reflexivity|]. split; [reflexivity|].
      split; [discriminate|]. split; [auto|]. split; [|auto]. split; [discriminate|]. intros ((c & X & _) & _). discriminate X. }
  rewrite (wi_raw _ W). cbn [given]. cbv zeta.
  (* what happens with the argument a that is large enough *)
  assert (GO : forall a (upd : bool), winv (set_arg w a) -> (a_c a = None \/ a_c a = a_c (w_arg w)) ->
      (a_cxx a = None \/ a_cxx a = a_cxx (w_arg w)) -> data_size (b_h b) <= a_cap a ->
      (held (set_arg w a) = held w \/ held (set_arg w a) = None) ->
      exists r w',
        ('(s, a) <- ctrl_send c dv (if upd || (if cxx then negb (given (a_cxx a)) || negb (given (a_c a)) else negb (given (a_c a)))
                   then (if cxx then set_buffer_ref a i else set_c a (Some i)) else a) b true ;;
         Some (s, set_arg w (if s : bool then set_size a (data_size (b_h b)) else a))) = Some (r, w') /\
        winv w' /\ w_bufs w' = w_bufs w /\ w_raws w' = w_raws w /\
        (r = true -> held w' = Some (objects b)) /\ (r = false -> held w' = held w \/ held w' = None) /\
        (r = true <-> can_send (Some c) /\ d_copy dv = true) /\
        (forall p, a_c (w_arg w') = Some p -> p = i \/ a_c (w_arg w) = Some p) /\
        (forall p, a_cxx (w_arg w') = Some p -> p = i \/ a_cxx (w_arg w) = Some p)).
  { intros a upd Wa Ec Ex Hn Hh.
    set (a' := if upd || _ then _ else a).
    assert (FA : winv (set_arg w a') /\ a_c a' <> None /\ a_cap a' = a_cap a /\ held (set_arg w a') = held (set_arg w a) /\
      (forall p, a_c a' = Some p -> p = i \/ a_c (w_arg w) = Some p) /\
      (forall p, a_cxx a' = Some p -> p = i \/ a_cxx (w_arg w) = Some p)).
    { assert (Wr : a_raw a = None) by exact (wi_raw _ Wa).
      assert (OLD : (forall p, a_c a = Some p -> p = i \/ a_c (w_arg w) = Some p) /\
                    (forall p, a_cxx a = Some p -> p = i \/ a_cxx (w_arg w) = Some p)).
      { split; intros p Hp; right; [destruct Ec as [X|X]|destruct Ex as [X|X]]; congruence. }
      unfold a'. destruct (upd || _) eqn:Es.
      - destruct cxx.
        + split; [|split; [discriminate|split; [reflexivity|split; [reflexivity|]]]].
          * apply (winv_ptrs w a); auto; cbn [set_buffer_ref a_raw a_cxx a_c]; try discriminate.
          * cbn [set_buffer_ref a_cxx a_c]. split; intros p Hp; left; congruence.
        + split; [|split; [discriminate|split; [reflexivity|split; [reflexivity|]]]].
          * apply (winv_ptrs w a); auto; unfold set_c; cbn [a_raw a_cxx a_c]; try discriminate.
          * unfold set_c. cbn [a_cxx a_c]. split; [intros p Hp; left; congruence|]. intros p Hp.
            destruct (a_cxx a) as [j|] eqn:Ej; [|discriminate]. destruct (Nat.eqb_spec j i); [left; congruence|discriminate].
      - apply orb_false_iff in Es as (_ & Es).
        assert (Hc : a_c a <> None).
        { destruct cxx; [apply orb_false_iff in Es as (_ & Es)|]; destruct (a_c a); try discriminate. }
        split; [exact Wa|]. split; [exact Hc|]. auto 10. }
    destruct FA as (Wa' & Hc' & Hcap & Hheld & OC & OX).
    destruct (ctrl_send_ok c dv (set_arg w a') b Wa' Ib Hc' ltac:(cbn [set_arg w_arg]; lia)) as (r & a2 & E2 & T2 & N2 & C2 & X2 & S2).
    cbn [set_arg w_arg] in E2, N2, C2, X2. rewrite E2. cbn [bind].
    assert (TT : r = true <-> can_send (Some c) /\ d_copy dv = true).
    { rewrite T2. unfold can_send. split.
      - intros ((X1 & X3 & X4) & X5). split; [exists c|]; auto.
      - intros ((c' & E' & X) & X5). assert (c' = c) as -> by congruence. auto. }
    exists r, (set_arg w (if r then set_size a2 (data_size (b_h b)) else a2)). split; [reflexivity|].
    destruct r.
    - destruct (S2 eq_refl) as (A & EA & Wn & IM). cbn [set_arg w_arg w_bufs w_raws] in *.
      split; [exact Wn|]. split; [reflexivity|]. split; [reflexivity|].
      split; [intros _; rewrite <- EA; exact (held_image _ A IM)|]. split; [discriminate|]. split; [exact TT|].
      cbn [set_size a_c a_cxx]. rewrite C2, X2. auto.
    - rewrite (N2 eq_refl). split; [exact Wa'|]. split; [reflexivity|]. split; [reflexivity|].
      split; [discriminate|]. split; [intros _; rewrite Hheld; exact Hh|]. split; [exact TT|]. auto. }
  destruct (Z.ltb_spec (a_cap (w_arg w)) (data_size (b_h b))) as [Lt|Ge].
  - destruct (reserve_ok dv w _ W Hd P3 P4 Lt) as (r & a & E & Tr & Fr & Sr). rewrite E. destruct r.
    + destruct (Sr eq_refl) as (S1 & S2 & S3 & S4 & S5 & S6 & S7).
      destruct (GO a true S7 S4 S5 ltac:(lia)) as (r' & w' & E' & G1 & G2 & G3 & G4 & G5 & G6 & G7).
      { right. unfold held. cbn [set_arg w_arg]. rewrite S1. reflexivity. }
      exists r', w'. split; [exact E'|]. split; [exact G1|]. split; [exact G2|]. split; [exact G3|]. split; [exact G4|].
      split; [exact G5|]. split; [|exact G7]. rewrite G6. pose proof (proj1 Tr eq_refl). tauto.
    + rewrite (Fr eq_refl). exists false, (set_arg w (w_arg w)). split; [reflexivity|].
      assert (Ew : set_arg w (w_arg w) = w) by (destruct w; reflexivity). rewrite Ew.
      split; [exact W|]. split; [reflexivity|]. split; [reflexivity|]. split; [discriminate|]. split; [auto|].
      split; [|auto]. split; [discriminate|]. intros (_ & _ & [X|X]); [lia|]. apply Tr in X. discriminate X.
  - assert (Ew : set_arg w (w_arg w) = w) by (destruct w; reflexivity).
    destruct (GO (w_arg w) false) as (r' & w' & E' & G1 & G2 & G3 & G4 & G5 & G6 & G7);
      [rewrite Ew; exact W|right; reflexivity|right; reflexivity|exact Ge|left; rewrite Ew; reflexivity|].
    exists r', w'. split; [exact E'|]. split; [exact G1|]. split; [exact G2|]. split; [exact G3|]. split; [exact G4|].
    split; [exact G5|]. split; [|exact G7]. rewrite G6. tauto.
Qed.

Lemma remap_pool b r b' : buf_remap b = Some (r, b') -> b_pool b' = b_pool b.
Proof.
  unfold buf_remap. destruct (allow_remapping _); [|intros H; inversion H; reflexivity].
  destruct (rd _ _); cbn [bind]; [|discriminate].
  destruct (_ && _); [intros H; inversion H; reflexivity|].
  destruct (_ && _); [|intros H; inversion H; reflexivity].
  destruct (mb_remap _ _) as [[[] m]|]; cbn [bind]; [| |discriminate].
  - repeat (match goal with |- context [bind ?x _] => destruct x end; cbn [bind]; [|discriminate]).
    intros H. inversion H. reflexivity.
  - intros H. inversion H. reflexivity.
Qed.

(* receiving *)
Lemma receive_ok cx dv j w b : winv w -> nth_error (w_bufs w) j = Some b ->
  exists r w', receive_buffer cx dv j true w = Some (r, w') /\ winv w' /\ w_arg w' = w_arg w /\ w_raws w' = w_raws w /\
    (r = false -> w' = w) /\
    (r = true -> exists os b', held w = Some os /\ w_bufs w' = replace (w_bufs w) j b' /\ objects b' = os /\
       data_addr (b_h b') = data_addr (b_h b)) /\
    (r = true <-> can_receive cx /\ d_copy dv = true /\ held w <> None /\ a_size (w_arg w) <= data_capacity (b_h b)).
Proof.
  intros W Hb. assert (Ib : In b (w_bufs w)) by (apply nth_error_In with j; exact Hb).
  destruct (fine_addr b (wi_bufs _ W b Ib)) as (P1 & P2 & P3 & P4).
  destruct (wi_bufs _ W b Ib) as (A0 & I0 & V0 & F0).
  unfold receive_buffer. rewrite Hb. cbn [bind].
  assert (NO : forall X, ~ (can_receive cx /\ d_copy dv = true /\ held w <> None /\ a_size (w_arg w) <= data_capacity (b_h b)) ->
    X = Some (false, w) ->
    exists r w', X = Some (r, w') /\ winv w' /\ w_arg w' = w_arg w /\ w_raws w' = w_raws w /\
    (r = false -> w' = w) /\
    (r = true -> exists os b', held w = Some os /\ w_bufs w' = replace (w_bufs w) j b' /\ objects b' = os /\
       data_addr (b_h b') = data_addr (b_h b)) /\
    (r = true <-> can_receive cx /\ d_copy dv = true /\ held w <> None /\ a_size (w_arg w) <= data_capacity (b_h b))).
  { intros X Hn EX. exists false, w. split; [exact EX|]. split; [exact W|]. split; [reflexivity|]. split; [reflexivity|].
    split; [auto|]. split; [discriminate|]. split; [discriminate|]. intros Y. contradiction. }
  destruct cx as [c|]; [|apply NO; [intros ((c & X & _) & _); discriminate X|reflexivity]].
  destruct (given (a_c (w_arg w)) && c_recv c && (0 <? a_size (w_arg w)) && (a_size (w_arg w) <=? data_capacity (b_h b)) &&
            negb (data_addr (b_h b) =? 0)) eqn:Ec.
  2:{ apply NO; [|reflexivity]. intros ((c' & X & Xr) & _ & Xh & Xc). assert (c' = c) as -> by congruence.
      destruct (Z_lt_le_dec 0 (a_size (w_arg w))) as [Ls|Ls]; [|rewrite held_none in Xh by (exact W || lia); congruence].
      destruct (wi_image _ W Ls) as (Hc & _). rewrite Xr, (proj2 (Z.ltb_lt _ _) Ls), (proj2 (Z.leb_le _ _) Xc),
        (proj2 (Z.eqb_neq (data_addr _) 0)) in Ec by lia. destruct (a_c (w_arg w)); [discriminate Ec|congruence]. }
  apply andb_prop in Ec as (Ec & E5). apply andb_prop in Ec as (Ec & E4). apply andb_prop in Ec as (Ec & E3). apply andb_prop in Ec as (E1 & E2).
  apply Z.ltb_lt in E3. apply Z.leb_le in E4.
  destruct (wi_image _ W E3) as (Hc & A & IM). pose proof (held_image w A IM) as Hh.
  destruct IM as (m & Ed & R & F & S). destruct (wi_dev _ W m Ed) as [D1 D2 D3 D4 D5 D6].
  unfold do_receive. rewrite Ed, D5, (proj2 (Z.eqb_neq (mbase m) 0)), (proj2 (Z.eqb_neq (mbase m) (data_addr _)) (D6 b Ib)) by lia.
  cbn [negb andb].
  destruct (d_copy dv) eqn:Edc; [|apply NO; [intros (_ & X & _); discriminate X|reflexivity]].
  rewrite S. replace (8 * tot A mod 8) with 0 by (rewrite Z.mul_comm, Z.mod_mul; lia).
  replace (8 * tot A / 8) with (tot A) by (rewrite Z.mul_comm, Z.div_mul; lia).
  change (0 =? 0) with true. cbv iota.
  pose proof (re_len _ _ _ R) as Lm. pose proof (ok_bounds A (re_ok _ _ _ R)) as OB.
  destruct (rdn_ok (Z.to_nat (tot A)) m (mbase m) 0) as (ws & Ew & Lw & Gw); [lia|lia|intros _; lia|].
  rewrite Ew. cbn [bind].
  assert (Ww : words m (tot A) ws).
  { split; [unfold zlen; unfold tot in *; lia|]. intros k Hk. now rewrite Gw by lia. }
  assert (SB : stored_base m = mbase m) by apply (re_0 _ _ _ R).
  assert (R0 : repr (stored_base m) m A) by (rewrite SB; exact R).
  destruct (load_remap b A0 A m ws I0 R0 Ww) as (m1 & r & b' & L1 & L2 & L3 & L4).
  { rewrite <- S. exact E4. } { rewrite SB. intros X. apply (D6 b Ib). congruence. }
  rewrite L1. cbn [bind]. rewrite L2. cbn [bind]. assert (r = true) as -> by (apply L4; exact F).
  destruct (L3 eq_refl) as (I' & V').
  assert (Ea : data_addr (b_h b') = data_addr (b_h b)).
  { rewrite (bi_addr _ _ I'), P2, <- (bi_begin _ _ I'), <- (bi_begin _ _ I0), (remap_pool _ _ _ L2). reflexivity. }
  exists true, (World (put (w_bufs w) j b') (w_raws w) (w_arg w)). split; [reflexivity|]. cbn [w_arg w_bufs w_raws].
  split; [|split; [reflexivity|split; [reflexivity|split; [discriminate|split]]]].
  - split; cbn [w_bufs w_arg]; try apply W.
    + intros b0 H0. apply replace_in in H0 as [->|H0]; [exists A; auto|apply (wi_bufs _ W _ H0)].
    + intros m0 Hm0. assert (m0 = m) as -> by congruence. split; cbn [w_arg w_bufs]; auto.
      intros b0 H0. apply replace_in in H0 as [->|H0]; [rewrite Ea; auto|auto].
  - intros _. exists (acontent A), b'. split; [exact Hh|]. split; [reflexivity|]. split; [|exact Ea].
    apply (content_ok _ _ _ (bi_repr _ _ I')).
  - split; [|reflexivity]. intros _. split; [exists c; auto|]. split; [reflexivity|]. split; [congruence|]. rewrite <- S. exact E4.
Qed.

(* a block seen as a buffer *)
Definition as_buffer (m : mem) (A : abs) : buffer :=
  Buffer (Handle (mbase m) (8 * tot A) (mbase m) (8 * wlen m) (mbase m + 8 * (spos A 4 + 2)) (zlen (a_objs A)) POOL_FLAGS 1)
    (Pool (mbase m) (mbase m) 0 (8 * wlen m) (8 * wlen m) 8) m.

Lemma as_buffer_inv w m A : devok w m -> repr (mbase m) m A -> binv (as_buffer m A) A /\ bview (as_buffer m A) A.
Proof.
  intros [D1 D2 D3 D4 D5 D6] R. pose proof (re_len _ _ _ R) as L. split; [|reflexivity].
  split; unfold as_buffer; cbn [b_h b_pool b_mem data_addr data_size data_capacity num_objects ds_addr p_begin p_size p_capacity p_chunk];
    try reflexivity; try exact R; try lia.
  - rewrite Z.mul_comm. apply Z.mod_mul. lia.
  - rewrite Z.mul_comm, Z.div_mul; lia.
Qed.

(* a kernel writes *)
Lemma device_writes_ok w i k v w' : winv w -> device_writes w i k v w' ->
  winv w' /\ w_bufs w' = w_bufs w /\ a_c (w_arg w') = a_c (w_arg w) /\ a_cxx (w_arg w') = a_cxx (w_arg w) /\
  exists os t cells, held w = Some os /\ nth_error os i = Some (t, cells) /\
    held w' = Some (replace os i (t, replace cells k (Raw v))).
Proof.
  intros W D. inversion D as [w0 i0 k0 v0 m t cells x m' Hs Hd Ho Hk Hv Hw]; subst.
  destruct (wi_image _ W Hs) as (Hc & A & IM). pose proof (held_image w A IM) as Hh.
  destruct IM as (m1 & Ed & R & F & S). assert (m1 = m) as -> by congruence.
  pose proof (wi_dev _ W m Hd) as DV. destruct (as_buffer_inv w m A DV R) as (I & V).
  assert (WR : writes (as_buffer m A) i k v (Buffer (b_h (as_buffer m A)) (b_pool (as_buffer m A)) m'))
    by exact (w_word (as_buffer m A) i k v t cells x m' Ho Hk Hv Hw).
  destruct (write_inv _ _ _ _ _ _ I V WR) as (A' & I' & V' & (t' & c' & C1 & C2) & RM & K1 & K2 & K3 & K4 & K5 & K6 & K7).
  assert (Em : mbase m' = mbase m) by (symmetry; exact (bi_addr _ _ I')).
  assert (El : wlen m' = wlen m).
  { pose proof (bi_len _ _ I') as X. pose proof (bi_len _ _ I) as Y. cbn [b_mem b_pool as_buffer] in X, Y. congruence. }
  assert (Et : tot A' = tot A).
  { pose proof (bi_dsize _ _ I') as X. pose proof (bi_dsize _ _ I) as Y. cbn [b_h as_buffer data_size] in X, Y. lia. }
  assert (IM : image (World (w_bufs w) (w_raws w) (set_dev (w_arg w) m')) A').
  { exists m'. cbn [w_arg set_dev a_dev a_size]. split; [reflexivity|]. split; [exact (bi_repr _ _ I')|]. split; [auto|]. lia. }
  split; [|split; [reflexivity|split; [reflexivity|split; [reflexivity|]]]].
  - split; cbn [w_bufs w_arg set_dev a_raw a_cxx a_c a_size a_cap a_has a_dev]; try discriminate; try apply W.
    + intros m0 Hm0. assert (m0 = m') as -> by congruence. destruct DV as [D1 D2 D3 D4 D5 D6].
      split; cbn [w_bufs w_arg set_dev a_cap a_has]; rewrite ?Em, ?El; auto.
    + intros _. split; [exact Hc|]. exists A'. exact IM.
  - exists (acontent A), t', c'. split; [exact Hh|]. split; [exact C1|]. rewrite (held_image _ A' IM), C2. reflexivity.
Qed.

(* the user writes *)
Lemma host_writes_ok w j i k v w' : winv w -> host_writes w j i k v w' ->
  winv w' /\ w_arg w' = w_arg w /\
  exists os t cells, nth_error (hosts w) j = Some os /\ nth_error os i = Some (t, cells) /\
    hosts w' = replace (hosts w) j (replace os i (t, replace cells k (Raw v))).
Proof.
  intros W D. inversion D as [w0 j0 i0 k0 v0 b b' Hb WR]; subst.
  pose proof (nth_error_In _ _ Hb) as Ib. destruct (wi_bufs _ W b Ib) as (A & I & V & F).
  destruct (write_inv _ _ _ _ _ _ I V WR) as (A' & I' & V' & (t' & c' & C1 & C2) & RM & _).
  assert (Ea : data_addr (b_h b') = data_addr (b_h b)) by (inversion WR; reflexivity).
  split; [|split; [reflexivity|]].
  - split; cbn [w_bufs w_arg]; try apply W.
    + intros b0 H0. apply replace_in in H0 as [->|H0]; [exists A'; auto|apply (wi_bufs _ W _ H0)].
    + intros m Hm. destruct (wi_dev _ W m Hm) as [D1 D2 D3 D4 D5 D6]. split; cbn [w_bufs w_arg]; auto.
      intros b0 H0. apply replace_in in H0 as [->|H0]; [rewrite Ea; auto|auto].
  - exists (acontent A), t', c'. unfold hosts. split; [rewrite nth_error_map, Hb; cbn [option_map]; apply f_equal; apply (content_ok _ _ _ (bi_repr _ _ I))|].
    split; [exact C1|]. cbn [w_bufs]. etransitivity; [apply replace_map|].
    exact (f_equal (fun z => replace (map objects (w_bufs w)) j z) (eq_trans (content_ok _ _ _ (bi_repr _ _ I')) C2)).
Qed.

Lemma nth_hosts w i b : nth_error (w_bufs w) i = Some b -> nth_error (hosts w) i = Some (objects b).
Proof. intros H. unfold hosts. rewrite nth_error_map, H. reflexivity. Qed.

Lemma step_ok w e w' : winv w -> step w e w' -> winv w' /\ effect1 (hosts w, held w) e (hosts w', held w').
Proof.
  intros W S. inversion S as [cx dv cxx i w0 r w1 Hd Es|cx dv j w0 r w1 Er|w0 i k v w1 D|w0 j i k v w1 D]; subst.
  - destruct (nth_error (w_bufs w) i) as [b|] eqn:Eb; [|unfold send_buffer in Es; rewrite Eb in Es; discriminate Es].
    destruct (send_ok cx dv cxx i w b W Hd Eb) as (r' & w1 & E' & W' & B' & _ & H1 & H2 & _).
    rewrite Es in E'. assert (r' = r /\ w1 = w') as (-> & ->) by (split; congruence).
    split; [exact W'|]. unfold hosts at 2. rewrite B'. fold (hosts w). destruct r.
    + rewrite (H1 eq_refl). apply e_sent. now apply nth_hosts.
    + apply e_not_sent. auto.
  - destruct (nth_error (w_bufs w) j) as [b|] eqn:Eb; [|unfold receive_buffer in Er; rewrite Eb in Er; discriminate Er].
    destruct (receive_ok cx dv j w b W Eb) as (r' & w1 & E' & W' & A' & _ & H1 & H2 & _).
    rewrite Er in E'. assert (r' = r /\ w1 = w') as (-> & ->) by (split; congruence).
    split; [exact W'|]. destruct r.
    + destruct (H2 eq_refl) as (os & b' & X1 & X2 & X3 & _).
      assert (held w' = held w) as -> by (unfold held; rewrite A'; reflexivity).
      unfold hosts at 2. rewrite X2, X1, replace_map, X3. fold (hosts w). apply e_received.
      unfold hosts. rewrite map_length. apply nth_error_Some. congruence.
    + rewrite (H1 eq_refl). apply e_not_received.
  - destruct (device_writes_ok _ _ _ _ _ W D) as (W' & B & _ & _ & os & t & cells & H1 & H2 & H3).
    split; [exact W'|]. unfold hosts at 2. rewrite B. fold (hosts w). rewrite H1, H3. now apply e_device.
  - destruct (host_writes_ok _ _ _ _ _ _ W D) as (W' & B & os & t & cells & H1 & H2 & H3).
    split; [exact W'|]. assert (held w' = held w) as -> by (unfold held; rewrite B; reflexivity).
    rewrite H3. now apply e_host.
Qed.

Lemma steps_ok w es w' : winv w -> steps w es w' -> winv w' /\ effects1 (hosts w, held w) es (hosts w', held w').
Proof.
  intros W S. induction S as [w|w es w1 e w2 S IH St]; [split; [exact W|constructor]|].
  destruct (IH W) as (W1 & E1). destruct (step_ok _ _ _ W1 St) as (W2 & E2). split; [exact W2|].
  exact (ee_snoc _ _ _ _ _ E1 E2).
Qed.

(* the argument refers only to buffers that were sent *)
Lemma refers_ok (P : nat -> Prop) w es w' : winv w -> (forall p, a_c (w_arg w) = Some p -> P p) ->
  (forall p, a_cxx (w_arg w) = Some p -> P p) -> steps w es w' -> (forall k ok, In (Sent k ok) es -> P k) ->
  (forall p, a_c (w_arg w') = Some p -> P p) /\ (forall p, a_cxx (w_arg w') = Some p -> P p).
Proof.
  intros W H1 H2 S. induction S as [w|w es w1 e w2 S IH St]; intros O; [auto|].
  destruct (IH W H1 H2) as (P1 & P2). { intros k ok Hk. apply (O k ok). apply in_or_app. auto. }
  destruct (steps_ok _ _ _ W S) as (W1 & _).
  inversion St as [cx dv cxx k w0 r w3 Hd Es|cx dv j w0 r w3 Er|w0 k0 k v w3 D|w0 j k0 k v w3 D]; subst.
  - assert (Pk : P k) by (apply (O k r); apply in_or_app; right; left; reflexivity).
    destruct (nth_error (w_bufs w1) k) as [b|] eqn:Eb; [|unfold send_buffer in Es; rewrite Eb in Es; discriminate Es].
    destruct (send_ok cx dv cxx k w1 b W1 Hd Eb) as (r' & w3 & E' & _ & _ & _ & _ & _ & _ & X1 & X2).
    rewrite Es in E'. assert (w3 = w2) as -> by congruence.
    split; intros p Hp; [destruct (X1 p Hp) as [->|]|destruct (X2 p Hp) as [->|]]; auto.
  - destruct (nth_error (w_bufs w1) j) as [b|] eqn:Eb; [|unfold receive_buffer in Er; rewrite Eb in Er; discriminate Er].
    destruct (receive_ok cx dv j w1 b W1 Eb) as (r' & w3 & E' & _ & A' & _).
    rewrite Er in E'. assert (w3 = w2) as -> by congruence. rewrite A'. auto.
  - destruct (device_writes_ok _ _ _ _ _ W1 D) as (_ & _ & X1 & X2 & _). rewrite X1, X2. auto.
  - destruct (host_writes_ok _ _ _ _ _ _ W1 D) as (_ & X1 & _). rewrite X1. auto.
Qed.

Lemma replace_len {T} (l : list T) i x : length (replace l i x) = length l.
Proof.
  unfold replace. rewrite app_length, firstn_length.
  pose proof (skipn_length i l) as L. destruct (skipn i l); cbn [length] in *; lia.
Qed.

Lemma effect_len x e y : effect1 x e y -> length (fst y) = length (fst x).
Proof. intros H. destruct H; cbn [fst]; rewrite ?replace_len; reflexivity. Qed.

Lemma steps_len w es w' : winv w -> steps w es w' -> length (w_bufs w') = length (w_bufs w).
Proof.
  intros W S. induction S as [w|w es w1 e w2 S IH St]; [reflexivity|].
  destruct (steps_ok _ _ _ W S) as (W1 & _). destruct (step_ok _ _ _ W1 St) as (_ & E).
  apply effect_len in E. cbn [fst] in E. unfold hosts in E. rewrite !map_length in E. rewrite E. auto.
Qed.

Lemma sent_len w es w' : winv w -> steps w es w' -> forall k ok, In (Sent k ok) es -> (k < length (w_bufs w))%nat.
Proof.
  intros W S. induction S as [w|w es w1 e w2 S IH St]; intros k ok Hk; [destruct Hk|].
  apply in_app_or in Hk as [Hk|[->|[]]]; [eauto|].
  rewrite <- (steps_len _ _ _ W S). inversion St as [cx dv cxx k' w0 r w3 Hd Es| | |]; subst.
  apply nth_error_Some. intros X. unfold send_buffer in Es. rewrite X in Es. discriminate Es.
Qed.
