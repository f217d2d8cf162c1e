(* Proofs about jobs on a device. *)
From Coq Require Import ZArith List Bool Lia.
From Verif Require Import Tac MBuf MBufSpec MBufMem MBufAbs MBufRemap MBufApply MBufReserve MBufInit
  MemPool Buffer BufferSpec BufferProofs BufferReserve BufferNew BufferUser BufferWrite BufferReach BufferProps
  DeviceArg DeviceArgSpec DeviceArgProofs DeviceJob DeviceJobSpec.
Import ListNotations.
Local Open Scope Z_scope.

(* the buffers of a world exchanged for others at the same addresses *)
Lemma winv_bufs bs bs' rs a : winv (World bs rs a) -> (forall b, In b bs' -> fine b) ->
  (forall b, In b bs' -> exists b0, In b0 bs /\ data_addr (b_h b) = data_addr (b_h b0)) ->
  winv (World bs' rs a).
Proof.
  intros [B R C S N D M] F H. cbn [w_bufs w_arg] in *. split; cbn [w_bufs w_arg]; auto.
  intros m Hm. destruct (D m Hm) as [D1 D2 D3 D4 D5 D6]. cbn [w_bufs w_arg] in *.
  split; cbn [w_bufs w_arg]; auto. intros b Hb. destruct (H b Hb) as (b0 & H0 & ->). auto.
Qed.

Lemma winv_new bs : (forall b, In b bs -> fine b) -> winv (World bs [] new_arg).
Proof.
  intros F. split; cbn [w_bufs w_arg new_arg a_raw a_cxx a_c a_size a_cap a_has a_dev]; try reflexivity; try lia; auto; try discriminate.
Qed.

(* an argument from a buffer *)
Lemma held_size0 w : a_size (w_arg w) = 0 -> held w = None.
Proof. intros H. unfold held. rewrite H. reflexivity. Qed.

Lemma arg_from_ok cx dv cxx i bs b : (forall b, In b bs -> fine b) -> device_ok dv (World bs [] new_arg) ->
  nth_error bs i = Some b ->
  exists a, arg_from cx dv cxx i b = Some a /\ winv (World bs [] a) /\
    (arrives cx dv b -> a_c a = Some i /\ (cxx = true -> a_cxx a = Some i) /\ held (World bs [] a) = Some (objects b)) /\
    (~ arrives cx dv b -> a_c a = None /\ a_cxx a = None /\ held (World bs [] a) = None) /\
    (forall m, a_dev a = Some m -> mbase m = h_malloc (d_heap dv) (data_size (b_h b))) /\
    (data_size (b_h b) <= a_cap a <-> h_malloc (d_heap dv) (data_size (b_h b)) <> 0).
Proof.
  intros F Hd Hb. assert (Ib : In b bs) by (apply nth_error_In with i; exact Hb).
  destruct (fine_addr b (F b Ib)) as (P1 & P2 & P3 & P4).
  pose proof (winv_new bs F) as W0.
  destruct (reserve_ok dv (World bs [] new_arg) (data_size (b_h b)) W0 Hd P3 P4) as (r & a & E & T & Rf & Rt).
  { cbn [w_arg new_arg a_cap]. exact P3. }
  cbn [w_arg] in E, Rf, Rt. unfold arg_from. rewrite E. cbv zeta.
  assert (MB : forall m, a_dev a = Some m -> mbase m = h_malloc (d_heap dv) (data_size (b_h b))).
  { revert E. unfold reserve_arg. cbn [new_arg a_cap]. rewrite (proj2 (Z.ltb_lt _ _) P3).
    destruct (Z.eqb_spec (h_malloc (d_heap dv) (data_size (b_h b))) 0) as [M0|M0].
    - intros E0. assert (a = new_arg) as -> by congruence. discriminate.
    - unfold reset_device. cbn [new_arg a_dev]. rewrite (proj2 (Z.eqb_neq 0 _)) by congruence.
      rewrite (proj2 (Z.ltb_lt _ _) P3). cbn [a_raw a_cxx a_c a_size a_cap a_has a_dev]. intros E0.
      assert (EA := f_equal snd E0). cbn [snd] in EA. rewrite <- EA. cbn [set_has a_dev]. intros m Hm.
      assert (EM := f_equal (fun o => match o with Some x => mbase x | None => 0 end) Hm). cbn in EM. symmetry. exact EM. }
  assert (CP : data_size (b_h b) <= a_cap a <-> h_malloc (d_heap dv) (data_size (b_h b)) <> 0).
  { rewrite <- T. destruct r.
    - destruct (Rt eq_refl) as (_ & X & _). split; [reflexivity|lia].
    - rewrite (Rf eq_refl). cbn [new_arg a_cap]. split; [lia|discriminate]. }
  assert (NOA : forall x, x = Some a -> ~ arrives cx dv b -> winv (World bs [] a) -> a_size a = 0 -> a_c a = None -> a_cxx a = None ->
    exists a, x = Some a /\ winv (World bs [] a) /\
    (arrives cx dv b -> a_c a = Some i /\ (cxx = true -> a_cxx a = Some i) /\ held (World bs [] a) = Some (objects b)) /\
    (~ arrives cx dv b -> a_c a = None /\ a_cxx a = None /\ held (World bs [] a) = None) /\
    (forall m, a_dev a = Some m -> mbase m = h_malloc (d_heap dv) (data_size (b_h b))) /\
    (data_size (b_h b) <= a_cap a <-> h_malloc (d_heap dv) (data_size (b_h b)) <> 0)).
  { intros x Ex Na Wa S0 C0 X0. exists a. split; [exact Ex|]. split; [exact Wa|]. split; [intros Y; contradiction|].
    split; [|split; [exact MB|exact CP]]. intros _. split; [exact C0|]. split; [exact X0|]. apply held_size0. exact S0. }
  destruct r.
  2:{ (* no memory *)
      specialize (Rf eq_refl). assert (M0 : h_malloc (d_heap dv) (data_size (b_h b)) = 0).
      { destruct (Z.eq_dec (h_malloc (d_heap dv) (data_size (b_h b))) 0) as [X|X]; [exact X|]. apply T in X. discriminate X. }
      assert (Na : ~ arrives cx dv b) by (intros (_ & _ & X); contradiction).
      subst a. cbn [new_arg a_cap]. rewrite (proj2 (Z.leb_gt _ 0) P3), andb_false_r. cbn [andb].
      apply NOA; try reflexivity; try assumption. destruct cx; reflexivity. }
  destruct (Rt eq_refl) as (S0 & Cp & R0 & C0 & X0 & CX & Wa). cbn [w_arg new_arg a_c a_cxx] in C0, X0.
  assert (C0' : a_c a = None) by tauto. assert (X0' : a_cxx a = None) by tauto. clear C0 X0.
  unfold set_arg in Wa. cbn [w_bufs w_raws] in Wa.
  destruct cx as [c|].
  2:{ apply NOA; try reflexivity; try assumption. intros ((c & X & _) & _). discriminate X. }
  rewrite (proj2 (Z.ltb_lt _ _) P3), Cp, Z.leb_refl. cbn [andb].
  assert (RR : ready_for_remap c = c_run c && (if c_debug c then c_debug_kernel c else c_kernel c)).
  { unfold ready_for_remap. destruct (c_debug c), (c_run c), (c_kernel c), (c_debug_kernel c); reflexivity. }
  destruct (c_send c && ready_for_remap c) eqn:Er.
  2:{ apply NOA; try reflexivity; try assumption. intros ((c' & X & Y1 & Y2 & Y3) & _). assert (c' = c) as -> by congruence.
      rewrite RR, Y1, Y2, Y3 in Er. discriminate Er. }
  apply andb_prop in Er as (Er1 & Er). rewrite RR in Er. apply andb_prop in Er as (Er2 & Er3).
  destruct (F b Ib) as (A & I & V & Fm).
  unfold buffer_words. rewrite P4. change (0 =? 0) with true. cbv iota.
  destruct (read_words b A I) as (ws & Ew & Ww). rewrite Ew. cbn [bind].
  destruct (a_dev a) as [m|] eqn:Ed; [|destruct (wi_none _ Wa Ed) as (X & _); cbn [w_arg] in X; lia].
  destruct (wi_dev _ Wa m Ed) as [D1 D2 D3 D4 D5 D6]. cbn [w_arg w_bufs] in D3, D4, D5, D6.
  assert (Lw : 0 < 8 * Z.of_nat (length ws)).
  { destruct Ww as (L & _). unfold zlen in L. rewrite (bi_dsize _ _ I) in P3. lia. }
  unfold do_send. rewrite Ed, D5, (proj2 (Z.eqb_neq (mbase m) 0)), (proj2 (Z.eqb_neq (data_addr _) 0)),
    (proj2 (Z.eqb_neq (mbase m) (data_addr _)) (D6 b Ib)), (proj2 (Z.ltb_lt _ _) Lw) by lia. cbn [negb andb].
  destruct (d_copy dv) eqn:Edc.
  2:{ cbn [bind]. apply NOA; try reflexivity; try assumption. intros (_ & X & _). congruence. }
  assert (Ht : tot A <= wlen m) by (rewrite (bi_dsize _ _ I) in Cp; lia).
  destruct (words_written b A m ws I Ww Ht) as (m' & E1 & B1 & W1 & R1).
  rewrite E1. cbn [bind]. unfold remap_directly. cbn [set_dev a_dev]. rewrite Er2, Er3. cbn [andb].
  assert (OkA : base_ok (mbase m') A).
  { rewrite B1. split; [lia|]. split; [exact D2|]. rewrite (bi_dsize _ _ I) in Cp. lia. }
  destruct (mb_remap_all _ _ A OkA m' R1 eq_refl) as (t & m2 & E2 & T2 & R2 & (F1 & F2 & F3)).
  rewrite E2. cbn [bind]. assert (t = true) as -> by (apply T2; auto). specialize (R2 eq_refl).
  assert (Ar : arrives (Some c) dv b).
  { split; [exists c; auto|]. split; [exact Edc|]. apply T. reflexivity. }
  set (a2 := set_size (set_dev (set_dev a m') m2) (data_size (b_h b))).
  assert (IM : forall a3, a_dev a3 = Some m2 -> a_size a3 = data_size (b_h b) -> image (World bs [] a3) A).
  { intros a3 X1 X2. exists m2. cbn [w_arg]. split; [exact X1|]. split; [rewrite F1; exact R2|]. split; [exact Fm|].
    rewrite X2. apply (bi_dsize _ _ I). }
  assert (OB : objects b = acontent A) by apply (content_ok _ _ _ (bi_repr _ _ I)).
  assert (GO : forall a3, a_dev a3 = Some m2 -> a_size a3 = data_size (b_h b) -> a_cap a3 = data_size (b_h b) -> a_has a3 = true ->
    a_raw a3 = None -> a_c a3 = Some i -> (cxx = true -> a_cxx a3 = Some i) ->
    winv (World bs [] a3) /\
    (arrives (Some c) dv b -> a_c a3 = Some i /\ (cxx = true -> a_cxx a3 = Some i) /\ held (World bs [] a3) = Some (objects b)) /\
    (~ arrives (Some c) dv b -> a_c a3 = None /\ a_cxx a3 = None /\ held (World bs [] a3) = None) /\
    (forall m, a_dev a3 = Some m -> mbase m = h_malloc (d_heap dv) (data_size (b_h b))) /\
    (data_size (b_h b) <= a_cap a3 <-> h_malloc (d_heap dv) (data_size (b_h b)) <> 0)).
  { intros a3 X1 X2 X3 X4 X5 X6 X7. assert (Bm : mbase m2 = mbase m) by congruence.
    split; [|split; [|split; [intros Y; contradiction|split; [|rewrite X3; rewrite Cp in CP; exact CP]]]].
    - split; cbn [w_bufs w_arg]; auto; try congruence; try lia.
      + intros m0 Hm0. assert (m0 = m2) as -> by congruence.
        split; cbn [w_bufs w_arg]; rewrite ?Bm, ?X3, ?F2, ?W1; auto; lia.
      + intros _. split; [congruence|]. exists A. auto.
    - intros _. split; [exact X6|]. split; [exact X7|]. rewrite OB. apply held_image. auto.
    - intros m0 Hm0. assert (m0 = m2) as -> by congruence. rewrite Bm. apply MB. reflexivity. }
  assert (HV : (if c_debug c then true else true) = true) by (destruct (c_debug c); reflexivity). rewrite HV.
  eexists. split; [reflexivity|]. apply GO; destruct cxx; try reflexivity; cbn [set_size set_dev set_buffer_ref set_c a_cap a_has a_raw]; auto.
  discriminate.
Qed.

(* ------------------------------------------------------------------ *)
(* the parts of a job *)
Lemma pos_inj q r : pos q = pos r -> q = r.
Proof. destruct q, r; cbn [pos]; intros H; (reflexivity || discriminate H). Qed.

Lemma pos_lt r : (pos r < 5)%nat.
Proof. destruct r; cbn [pos]; lia. Qed.

Record jinv (j : djob) : Prop := Jinv {
  ji_len : length (dj_bufs j) = 5%nat;
  ji_args : length (dj_args j) = 5%nat;
  ji_fine : forall b, In b (dj_bufs j) -> fine b;
  ji_arg : forall r a, arg_of j r = Some a -> winv (world_of j a);
  ji_addr : forall a, arg_of j Addr = Some a -> held (world_of j a) <> None -> a_cxx a = Some (pos Addr) }.

Lemma arg_of_put bs l h q r x : length l = 5%nat ->
  arg_of (DJob bs (put l (pos q) (Some x)) h) r = if Nat.eqb (pos q) (pos r) then Some x else arg_of (DJob bs l h) r.
Proof.
  intros L. unfold arg_of. cbn [dj_args]. rewrite put_replace, replace_nth by (rewrite L; apply pos_lt).
  rewrite Nat.eqb_sym. destruct (Nat.eqb (pos q) (pos r)); reflexivity.
Qed.

Lemma buf_of j r : jinv j -> exists b, nth_error (dj_bufs j) (pos r) = Some b.
Proof.
  intros J. destruct (nth_error (dj_bufs j) (pos r)) as [b|] eqn:E; [eauto|].
  apply nth_error_None in E. rewrite (ji_len _ J) in E. pose proof (pos_lt r). lia.
Qed.

(* an argument and the buffers replaced *)
Lemma jinv_put j r w : jinv j -> winv w -> length (w_bufs w) = 5%nat -> w_raws w = [] ->
  (forall b, In b (w_bufs w) -> exists b0, In b0 (dj_bufs j) /\ data_addr (b_h b) = data_addr (b_h b0)) ->
  (r = Addr -> held w <> None -> a_cxx (w_arg w) = Some (pos Addr)) ->
  jinv (put_world j r w).
Proof.
  intros [L LA F WA FA] W Lw Hr Hb Ha. split.
  - exact Lw.
  - cbn [put_world dj_args]. rewrite put_replace, replace_length. exact LA.
  - cbn [put_world dj_bufs]. apply (wi_bufs _ W).
  - intros q a. unfold put_world. rewrite arg_of_put by exact LA. destruct (Nat.eqb (pos r) (pos q)) eqn:E.
    + intros X. assert (a = w_arg w) as -> by congruence. unfold world_of. cbn [dj_bufs]. destruct w as [wb wr wa]. cbn [w_bufs w_arg w_raws] in *.
      subst wr. exact W.
    + intros X. change (arg_of j q = Some a) in X. unfold world_of. cbn [dj_bufs].
      apply (winv_bufs (dj_bufs j)); [exact (WA q a X)|apply (wi_bufs _ W)|exact Hb].
  - intros a. unfold put_world. rewrite arg_of_put by exact LA. destruct (Nat.eqb (pos r) (pos Addr)) eqn:E.
    + intros X. assert (a = w_arg w) as -> by congruence. intros H. apply Ha; [|exact H].
      apply Nat.eqb_eq, pos_inj in E. exact E.
    + intros X. exact (FA a X).
Qed.

Lemma on_device_bufs j bs q : (match arg_of j q with Some a => held (World bs [] a) | None => None end) = on_device j q.
Proof. unfold on_device. destruct (arg_of j q); reflexivity. Qed.

Lemma view_put j r w q : jinv j -> w_bufs w = dj_bufs j ->
  view (put_world j r w) q = (on_host j q, if Nat.eqb (pos r) (pos q) then held w else on_device j q).
Proof.
  intros J E. unfold view, on_host, on_device, put_world. cbn [dj_bufs]. rewrite E. f_equal.
  rewrite arg_of_put by apply (ji_args _ J). destruct (Nat.eqb (pos r) (pos q)).
  - unfold world_of, held. reflexivity.
  - change (arg_of (DJob (dj_bufs j) (dj_args j) (dj_has j)) q) with (arg_of j q). reflexivity.
Qed.

(* the device of a transfer *)
Lemma devices_world dvs j r a : devices_ok dvs j -> arg_of j r = Some a -> device_ok (dvs r) (world_of j a).
Proof.
  intros D E. destruct (D r) as (G & H). split; [exact G|]. intros n Hn. destruct (H n Hn) as (H1 & H2 & H3).
  split; [exact H1|]. split; [exact H2|]. intros m Hm. apply (H3 a m); [|exact Hm].
  unfold arg_of in E. destruct (nth_error (dj_args j) (pos r)) as [x|] eqn:En; [|discriminate E]. subst x.
  exact (nth_error_In _ _ En).
Qed.

(* one part of push *)
Lemma push_one_ok cx dv fl r j : r <> Addr -> jinv j -> (forall a, arg_of j r = Some a -> device_ok dv (world_of j a)) ->
  exists f j', push_one cx dv fl r j = Some (f, j') /\ jinv j' /\ dj_bufs j' = dj_bufs j /\ dj_has j' = dj_has j /\
    (forall q, q <> r -> arg_of j' q = arg_of j q) /\
    ((f = flag r /\ flag_set fl (flag r) = true /\ on_device j' r = Some (on_host j r)) \/
     (f = 0 /\ (flag_set fl (flag r) = true /\ (on_device j' r = on_device j r \/ on_device j' r = None) \/ j' = j))) /\
    (on_device j r <> None -> has j r = true -> 0 < flag r ->
       (f = flag r <-> flag_set fl (flag r) = true /\ can_send cx /\ d_copy dv = true /\ room dv j r)).
Proof.
  intros Nr J D. unfold push_one. destruct (arg_of j r) as [a|] eqn:Ea.
  2:{ exists 0, j. split; [reflexivity|]. split; [exact J|]. split; [auto|]. split; [auto|]. split; [auto|]. split; [right; auto|].
      intros H. unfold on_device in H. rewrite Ea in H. congruence. }
  destruct (flag_set fl (flag r) && given (a_c a) && has j r) eqn:Ec.
  2:{ exists 0, j. split; [reflexivity|]. split; [exact J|]. split; [auto|]. split; [auto|]. split; [auto|]. split; [right; auto|].
      intros H Hh Pf. split; [intros X; lia|]. intros (X & _). exfalso.
      unfold on_device in H. rewrite Ea in H. pose proof (ji_arg _ J r a Ea) as W.
      destruct (Z_lt_le_dec 0 (a_size a)) as [Ls|Ls].
      - destruct (wi_image _ W Ls) as (Hc & _). cbn [world_of w_arg] in Hc.
        rewrite X, Hh in Ec. destruct (a_c a); [discriminate Ec|congruence].
      - rewrite held_none in H; [congruence|exact W|]. cbn [world_of w_arg]. lia. }
  apply andb_prop in Ec as (Ec & Eh). apply andb_prop in Ec as (Ef & Eg).
  destruct (buf_of j r J) as (b & Eb). pose proof (ji_arg _ J r a Ea) as W.
  destruct (send_ok cx dv false (pos r) (world_of j a) b W (D a eq_refl) Eb) as (s & w' & E & W' & B' & R' & H1 & H2 & H3 & _).
  rewrite E. cbn [bind]. cbn [world_of w_bufs w_raws w_arg] in B', R', H2, H3.
  exists (if s then flag r else 0), (put_world j r w'). split; [reflexivity|].
  split. { apply jinv_put; auto; [rewrite B'; apply (ji_len _ J)|rewrite B'; eauto|contradiction]. }
  split; [exact B'|]. split; [reflexivity|].
  split. { intros q Hq. unfold put_world. rewrite arg_of_put by apply (ji_args _ J).
    destruct (Nat.eqb_spec (pos r) (pos q)) as [X|X]; [apply pos_inj in X; congruence|reflexivity]. }
  assert (OD : on_device (put_world j r w') r = held w').
  { pose proof (f_equal snd (view_put j r w' r J B')) as X. cbn [snd view] in X. rewrite Nat.eqb_refl in X. exact X. }
  assert (OJ : on_device j r = held (world_of j a)) by (unfold on_device; rewrite Ea; reflexivity).
  assert (OH : on_host j r = objects b) by (unfold on_host; rewrite Eb; reflexivity).
  split.
  - destruct s.
    + left. rewrite OD, OH. auto.
    + right. split; [reflexivity|]. left. rewrite OD, OJ. auto.
  - intros _ _ Pf. assert (X : (if s then flag r else 0) = flag r <-> s = true) by (destruct s; split; intros; (lia || congruence)).
    rewrite X, H3. split.
    + intros (Y1 & Y2 & Y3). split; [exact Ef|]. split; [exact Y1|]. split; [exact Y2|]. exists a, b. auto.
    + intros (_ & Y1 & Y2 & (a' & b' & Z1 & Z2 & Z3)). assert (a' = a /\ b' = b) as (-> & ->) by (split; congruence). auto.
Qed.

(* one part of collect *)
Lemma collect_one_ok cx dv fl r j : jinv j ->
  exists f j', collect_one cx dv fl r j = Some (f, j') /\ jinv j' /\ dj_has j' = dj_has j /\
    (forall q, on_device j' q = on_device j q) /\ (forall q, q <> r -> on_host j' q = on_host j q) /\
    ((f = flag r /\ flag_set fl (flag r) = true /\ on_device j r = Some (on_host j' r)) \/
     (f = 0 /\ on_host j' r = on_host j r)) /\
    (on_device j r <> None -> has j r = true -> 0 < flag r ->
       (f = flag r <-> flag_set fl (flag r) = true /\ can_receive cx /\ d_copy dv = true /\ fits_back j r)) /\
    (forall q, q <> r -> nth_error (dj_bufs j') (pos q) = nth_error (dj_bufs j) (pos q)) /\
    (forall q, arg_of j' q = arg_of j q).
Proof.
  intros J. unfold collect_one. destruct (arg_of j r) as [a|] eqn:Ea.
  2:{ exists 0, j. split; [reflexivity|]. split; [exact J|]. split; [auto|]. split; [auto|]. split; [auto|]. split; [right; auto|].
      split; [|auto]. intros H. unfold on_device in H. rewrite Ea in H. congruence. }
  destruct (flag_set fl (flag r) && match r with Addr => refers (a_cxx a) Addr | _ => given (a_c a) end && has j r) eqn:Ec.
  2:{ exists 0, j. split; [reflexivity|]. split; [exact J|]. split; [auto|]. split; [auto|]. split; [auto|]. split; [right; auto|].
      split; [|auto]. intros H Hh Pf. split; [intros X; lia|]. intros (X & _). exfalso.
      unfold on_device in H. rewrite Ea in H. pose proof (ji_arg _ J r a Ea) as W.
      destruct (Z_lt_le_dec 0 (a_size a)) as [Ls|Ls].
      - destruct (wi_image _ W Ls) as (Hc & _). cbn [world_of w_arg] in Hc.
        rewrite X, Hh in Ec. destruct (a_c a) eqn:Eac; [|congruence].
        destruct r; try discriminate Ec. rewrite (ji_addr _ J a Ea H) in Ec. discriminate Ec.
      - rewrite held_none in H; [congruence|exact W|]. cbn [world_of w_arg]. lia. }
  apply andb_prop in Ec as (Ec & Eh). apply andb_prop in Ec as (Ef & Eg).
  destruct (buf_of j r J) as (b & Eb). pose proof (ji_arg _ J r a Ea) as W.
  destruct (receive_ok cx dv (pos r) (world_of j a) b W Eb) as (s & w' & E & W' & A' & R' & H1 & H2 & H3).
  rewrite E. cbn [bind]. cbn [world_of w_bufs w_raws w_arg] in A', R', H2, H3.
  exists (if s then flag r else 0), (put_world j r w'). split; [reflexivity|].
  assert (L5 : (pos r < length (dj_bufs j))%nat) by (rewrite (ji_len _ J); apply pos_lt).
  assert (BB : exists b', w_bufs w' = replace (dj_bufs j) (pos r) b' /\ data_addr (b_h b') = data_addr (b_h b) /\
     (s = true -> on_device j r = Some (objects b')) /\ (s = false -> b' = b)).
  { destruct s.
    - destruct (H2 eq_refl) as (os & b' & X1 & X2 & X3 & X4). exists b'. split; [exact X2|]. split; [exact X4|].
      split; [|discriminate]. intros _. unfold on_device. rewrite Ea, X3. exact X1.
    - exists b. rewrite (H1 eq_refl). cbn [world_of w_bufs]. split; [|split; [auto|split; [discriminate|auto]]].
      unfold replace. rewrite <- (firstn_skipn (pos r) (dj_bufs j)) at 1. f_equal.
      destruct (skipn (pos r) (dj_bufs j)) as [|y l] eqn:Es; [reflexivity|].
      assert (X : nth_error (dj_bufs j) (pos r) = Some y).
      { rewrite <- (firstn_skipn (pos r) (dj_bufs j)), nth_error_app2 by (rewrite firstn_length; lia).
        rewrite firstn_length, Nat.min_l, Nat.sub_diag, Es by lia. reflexivity. }
      congruence. }
  destruct BB as (b' & BE & BA & BT & BF).
  assert (AO : forall q, arg_of (put_world j r w') q = arg_of j q).
  { intros q. unfold put_world. rewrite arg_of_put by apply (ji_args _ J).
    destruct (Nat.eqb_spec (pos r) (pos q)) as [X|X]; [apply pos_inj in X; subst q; rewrite Ea, A'; reflexivity|reflexivity]. }
  assert (NB : forall q, nth_error (dj_bufs (put_world j r w')) (pos q) =
            if Nat.eqb (pos q) (pos r) then Some b' else nth_error (dj_bufs j) (pos q)).
  { intros q. cbn [put_world dj_bufs]. rewrite BE. apply replace_nth. exact L5. }
  split.
  { apply jinv_put; auto; rewrite ?BE.
    3:{ intros -> X. rewrite A'. apply (ji_addr _ J a Ea). unfold held in X |- *. cbn [world_of w_arg]. rewrite A' in X. exact X. }
    - rewrite replace_length. apply (ji_len _ J).
    - intros b0 H0. apply replace_in in H0 as [->|H0]; [|eauto]. exists b. split; [exact (nth_error_In _ _ Eb)|exact BA]. }
  split; [reflexivity|].
  split. { intros q. unfold on_device. rewrite AO. destruct (arg_of j q); reflexivity. }
  split. { intros q Hq. unfold on_host. rewrite NB. destruct (Nat.eqb_spec (pos q) (pos r)) as [X|X]; [apply pos_inj in X; congruence|reflexivity]. }
  assert (OH' : on_host (put_world j r w') r = objects b') by (unfold on_host; rewrite NB, Nat.eqb_refl; reflexivity).
  split.
  { destruct s.
    - left. rewrite OH'. auto.
    - right. split; [reflexivity|]. rewrite OH', (BF eq_refl). unfold on_host. rewrite Eb. reflexivity. }
  split; [|split; [|exact AO]].
  - intros Hd _ Pf. assert (X : (if s then flag r else 0) = flag r <-> s = true) by (destruct s; split; intros; (lia || congruence)).
    rewrite X, H3. split.
    + intros (Y1 & Y2 & Y3 & Y4). split; [exact Ef|]. split; [exact Y1|]. split; [exact Y2|]. exists a, b. auto.
    + intros (_ & Y1 & Y2 & (a' & b0 & Z1 & Z2 & Z3)). assert (a' = a /\ b0 = b) as (-> & ->) by (split; congruence).
      split; [exact Y1|]. split; [exact Y2|]. split; [|exact Z3]. unfold on_device in Hd. rewrite Ea in Hd. exact Hd.
  - intros q Hq. rewrite NB. destruct (Nat.eqb_spec (pos q) (pos r)) as [Y|Y]; [apply pos_inj in Y; congruence|reflexivity].
Qed.

(* ------------------------------------------------------------------ *)
(* the flags *)
Lemma land_bit f n : 0 <= n -> (Z.land f (2 ^ n) =? 2 ^ n) = Z.testbit f n.
Proof.
  intros Hn. destruct (Z.testbit f n) eqn:E.
  - apply Z.eqb_eq. apply Z.bits_inj'. intros k Hk. rewrite Z.land_spec, Z.pow2_bits_eqb by exact Hn.
    destruct (Z.eqb_spec n k) as [<-|]; [rewrite E; reflexivity|apply andb_false_r].
  - apply Z.eqb_neq. intros X. assert (Y := f_equal (fun z => Z.testbit z n) X). cbv beta in Y.
    rewrite Z.land_spec, E, Z.pow2_bits_true in Y by exact Hn. discriminate Y.
Qed.

Lemma flag_bit f r : r <> Conf -> flag_set f (flag r) = named f r.
Proof.
  intros H. unfold flag_set. destruct r; try congruence; [apply (land_bit f 0)|apply (land_bit f 1)|apply (land_bit f 2)|apply (land_bit f 4)]; lia.
Qed.

Lemma named_push f r : named (Z.land f PUSH_ALL) r = match r with Addr => false | _ => named f r end.
Proof.
  unfold named, PUSH_ALL. destruct r; cbn [bit]; rewrite ?Z.land_spec; try reflexivity; try apply andb_true_r. apply andb_false_r.
Qed.

Lemma named_collect f r : named (Z.land f COLLECT_ALL) r = named f r.
Proof.
  unfold named, COLLECT_ALL. destruct r; cbn [bit]; rewrite ?Z.land_spec; try reflexivity; apply andb_true_r.
Qed.

(* ------------------------------------------------------------------ *)
(* push *)
Definition push_facts cx dvs fl j res j' : Prop :=
  jinv j' /\ dj_bufs j' = dj_bufs j /\ dj_has j' = dj_has j /\
  (forall r, does (Pushed fl res) r (view j r) (view j' r)) /\
  (forall r, r = Parts \/ r = Elems \/ r = Out -> on_device j r <> None -> has j r = true ->
     (named res r = true <-> named fl r = true /\ can_send cx /\ d_copy (dvs r) = true /\ room (dvs r) j r)) /\
  (forall n, 0 <= n -> Z.testbit res n = true -> n = 0 \/ n = 1 \/ n = 2).

Lemma on_device_arg j j' r : arg_of j' r = arg_of j r -> on_device j' r = on_device j r.
Proof. intros E. unfold on_device. rewrite E. destruct (arg_of j r); reflexivity. Qed.

Lemma room_arg dv j j' r : arg_of j' r = arg_of j r -> dj_bufs j' = dj_bufs j -> room dv j' r <-> room dv j r.
Proof. intros E B. unfold room. rewrite E, B. reflexivity. Qed.

Lemma has_eq j j' r : dj_has j' = dj_has j -> has j' r = has j r.
Proof. intros E. unfold has. rewrite E. reflexivity. Qed.

Lemma device_ok_arg dvs j j1 r : devices_ok dvs j -> dj_bufs j1 = dj_bufs j -> arg_of j1 r = arg_of j r ->
  forall a, arg_of j1 r = Some a -> device_ok (dvs r) (world_of j1 a).
Proof.
  intros D B A a Ha. rewrite A in Ha. unfold world_of. rewrite B. apply (devices_world dvs j r a D Ha).
Qed.

Lemma push_ok cx dvs fl j : jinv j -> devices_ok dvs j ->
  exists res j', push cx dvs fl j = Some (res, j') /\ push_facts cx dvs fl j res j'.
Proof.
  intros J D. unfold push, do_push, and_then. cbn [bind].
  assert (N1 : flag_set (Z.land fl PUSH_ALL) (flag Parts) = named fl Parts) by (rewrite flag_bit by congruence; apply named_push).
  assert (N2 : flag_set (Z.land fl PUSH_ALL) (flag Elems) = named fl Elems) by (rewrite flag_bit by congruence; apply named_push).
  assert (N3 : flag_set (Z.land fl PUSH_ALL) (flag Out) = named fl Out) by (rewrite flag_bit by congruence; apply named_push).
  generalize (Z.land fl PUSH_ALL), N1, N2, N3. clear N1 N2 N3. intros f N1 N2 N3.
  assert (X1 : Parts <> Addr) by congruence. assert (X2 : Elems <> Addr) by congruence. assert (X3 : Out <> Addr) by congruence.
  destruct (push_one_ok cx (dvs Parts) f Parts j X1 J) as (f1 & j1 & E1 & J1 & B1 & H1 & A1 & R1 & S1).
  { apply (device_ok_arg dvs j j Parts D); reflexivity. }
  rewrite E1. cbn [bind].
  destruct (push_one_ok cx (dvs Elems) f Elems j1 X2 J1) as (f2 & j2 & E2 & J2 & B2 & H2 & A2 & R2 & S2).
  { apply (device_ok_arg dvs j j1 Elems D); [exact B1|apply A1; congruence]. }
  rewrite E2. cbn [bind].
  destruct (push_one_ok cx (dvs Out) f Out j2 X3 J2) as (f3 & j3 & E3 & J3 & B3 & H3 & A3 & R3 & S3).
  { apply (device_ok_arg dvs j j2 Out D); [congruence|]. rewrite A2 by congruence. apply A1; congruence. }
  rewrite E3. cbn [bind]. eexists. exists j3. split; [reflexivity|].
  set (res := Z.lor (Z.lor (Z.lor 0 f1) f2) f3).
  rewrite N1 in R1, S1. rewrite N2 in R2, S2. rewrite N3 in R3, S3.
  assert (F1 : f1 = 1 \/ f1 = 0) by (destruct R1 as [(-> & _)|(-> & _)]; auto).
  assert (F2 : f2 = 2 \/ f2 = 0) by (destruct R2 as [(-> & _)|(-> & _)]; auto).
  assert (F3 : f3 = 4 \/ f3 = 0) by (destruct R3 as [(-> & _)|(-> & _)]; auto).
  assert (M1 : named res Parts = (f1 =? 1)) by (unfold res; destruct F1 as [ -> | -> ], F2 as [ -> | -> ], F3 as [ -> | -> ]; reflexivity).
  assert (M2 : named res Elems = (f2 =? 2)) by (unfold res; destruct F1 as [ -> | -> ], F2 as [ -> | -> ], F3 as [ -> | -> ]; reflexivity).
  assert (M3 : named res Out = (f3 =? 4)) by (unfold res; destruct F1 as [ -> | -> ], F2 as [ -> | -> ], F3 as [ -> | -> ]; reflexivity).
  assert (M4 : named res Addr = false) by (unfold res; destruct F1 as [ -> | -> ], F2 as [ -> | -> ], F3 as [ -> | -> ]; reflexivity).
  assert (BB : dj_bufs j3 = dj_bufs j) by congruence.
  assert (OH : forall q, on_host j3 q = on_host j q) by (intros q; unfold on_host; rewrite BB; reflexivity).
  assert (OH2 : forall q, on_host j2 q = on_host j q) by (intros q; unfold on_host; rewrite B2, B1; reflexivity).
  assert (OH1 : forall q, on_host j1 q = on_host j q) by (intros q; unfold on_host; rewrite B1; reflexivity).
  assert (AP : arg_of j3 Parts = arg_of j1 Parts) by (rewrite A3, A2 by congruence; reflexivity).
  assert (AE : arg_of j3 Elems = arg_of j2 Elems) by (rewrite A3 by congruence; reflexivity).
  assert (AE1 : arg_of j1 Elems = arg_of j Elems) by (apply A1; congruence).
  assert (AO2 : arg_of j2 Out = arg_of j Out) by (rewrite A2 by congruence; apply A1; congruence).
  assert (AA : arg_of j3 Addr = arg_of j Addr) by (rewrite A3, A2, A1 by congruence; reflexivity).
  assert (AC : arg_of j3 Conf = arg_of j Conf) by (rewrite A3, A2, A1 by congruence; reflexivity).
  split; [exact J3|]. split; [exact BB|]. split; [congruence|]. split; [|split].
  - intros r. unfold view, does. split; [apply OH|]. destruct r.
    + rewrite M1, (on_device_arg _ _ _ AP). destruct (named fl Parts) eqn:Nf.
      * destruct R1 as [(-> & _ & Y)|(-> & Y)].
        -- split; [|split]; auto; try discriminate.
        -- split; [|split]; auto; try discriminate. intros _ _. destruct Y as [(_ & Y)|Y]; [exact Y|]. rewrite Y. auto.
      * destruct R1 as [(_ & Y & _)|(-> & Y)]; [discriminate Y|]. split; [|split]; try discriminate.
        intros _. destruct Y as [(Y & _)|Y]; [discriminate Y|]. rewrite Y. reflexivity.
    + rewrite M2, (on_device_arg _ _ _ AE). rewrite (on_device_arg _ _ _ AE1), OH1 in R2. destruct (named fl Elems) eqn:Nf.
      * destruct R2 as [(-> & _ & Y)|(-> & Y)].
        -- split; [|split]; auto; try discriminate.
        -- split; [|split]; auto; try discriminate. intros _ _. destruct Y as [(_ & Y)|Y]; [exact Y|]. rewrite Y, (on_device_arg _ _ _ AE1). auto.
      * destruct R2 as [(_ & Y & _)|(-> & Y)]; [discriminate Y|]. split; [|split]; try discriminate.
        intros _. destruct Y as [(Y & _)|Y]; [discriminate Y|]. rewrite Y. apply (on_device_arg _ _ _ AE1).
    + rewrite M3. rewrite (on_device_arg _ _ _ AO2), OH2 in R3. destruct (named fl Out) eqn:Nf.
      * destruct R3 as [(-> & _ & Y)|(-> & Y)].
        -- split; [|split]; auto; try discriminate.
        -- split; [|split]; auto; try discriminate. intros _ _. destruct Y as [(_ & Y)|Y]; [exact Y|]. rewrite Y, (on_device_arg _ _ _ AO2). auto.
      * destruct R3 as [(_ & Y & _)|(-> & Y)]; [discriminate Y|]. split; [|split]; try discriminate.
        intros _. destruct Y as [(Y & _)|Y]; [discriminate Y|]. rewrite Y. apply (on_device_arg _ _ _ AO2).
    + rewrite M4, (on_device_arg _ _ _ AA). split; [discriminate|]. auto.
    + rewrite (on_device_arg _ _ _ AC). split; [discriminate|]. auto.
  - intros r [->|[->| ->]] Hd Hh.
    + rewrite M1, Z.eqb_eq. apply (S1 Hd Hh). reflexivity.
    + rewrite <- (on_device_arg _ _ _ AE1) in Hd. rewrite <- (has_eq _ _ Elems H1) in Hh.
      rewrite M2, Z.eqb_eq, (S2 Hd Hh), (room_arg _ _ _ _ AE1 B1) by reflexivity. reflexivity.
    + rewrite <- (on_device_arg _ _ _ AO2) in Hd. assert (HH : dj_has j2 = dj_has j) by congruence.
      rewrite <- (has_eq _ _ Out HH) in Hh.
      rewrite M3, Z.eqb_eq, (S3 Hd Hh), (room_arg _ _ _ _ AO2 (eq_trans B2 B1)) by reflexivity. reflexivity.
  - intros n Hn Ht. fold res in Ht. assert (L : n < 3 \/ 3 <= n) by lia. destruct L as [L|L]; [lia|]. exfalso.
    assert (0 <= res < 2 ^ 3) by (unfold res; destruct F1 as [ -> | -> ], F2 as [ -> | -> ], F3 as [ -> | -> ]; vm_compute; split; congruence).
    assert (P : res < 2 ^ n) by (apply Z.lt_le_trans with (2 ^ 3); [lia|apply Z.pow_le_mono_r; lia]).
    destruct (Z.eq_dec res 0) as [Z0|Z0]; [rewrite Z0, Z.bits_0 in Ht; discriminate Ht|].
    rewrite Z.bits_above_log2 in Ht; [discriminate Ht|lia|]. apply Z.log2_lt_pow2; lia.
Qed.

(* collect *)
Definition collect_facts cx dvs fl j res j' : Prop :=
  jinv j' /\ dj_has j' = dj_has j /\
  (forall r, does (Collected fl res) r (view j r) (view j' r)) /\
  (forall r, r <> Conf -> on_device j r <> None -> has j r = true ->
     (named res r = true <-> named fl r = true /\ can_receive cx /\ d_copy (dvs r) = true /\ fits_back j r)) /\
  (forall n, 0 <= n -> Z.testbit res n = true -> n = 0 \/ n = 1 \/ n = 2 \/ n = 4).

Lemma fits_arg j j' r : arg_of j' r = arg_of j r -> nth_error (dj_bufs j') (pos r) = nth_error (dj_bufs j) (pos r) ->
  fits_back j' r <-> fits_back j r.
Proof. intros E B. unfold fits_back. rewrite E, B. reflexivity. Qed.

Lemma collect_ok cx dvs fl j : jinv j ->
  exists res j', collect cx dvs fl j = Some (res, j') /\ collect_facts cx dvs fl j res j'.
Proof.
  intros J. unfold collect, do_collect, and_then. cbn [bind].
  assert (N : forall r, r <> Conf -> flag_set (Z.land fl COLLECT_ALL) (flag r) = named fl r)
    by (intros r H; rewrite flag_bit by exact H; apply named_collect).
  generalize dependent (Z.land fl COLLECT_ALL). intros f N.
  assert (X1 : Parts <> Conf) by congruence. assert (X2 : Elems <> Conf) by congruence.
  assert (X3 : Out <> Conf) by congruence. assert (X4 : Addr <> Conf) by congruence.
  apply N in X1. apply N in X2. apply N in X3. apply N in X4. clear N.
  destruct (collect_one_ok cx (dvs Parts) f Parts j J) as (f1 & j1 & E1 & J1 & H1 & D1 & O1 & R1 & S1 & B1 & A1).
  rewrite E1. cbn [bind].
  destruct (collect_one_ok cx (dvs Elems) f Elems j1 J1) as (f2 & j2 & E2 & J2 & H2 & D2 & O2 & R2 & S2 & B2 & A2).
  rewrite E2. cbn [bind].
  destruct (collect_one_ok cx (dvs Out) f Out j2 J2) as (f3 & j3 & E3 & J3 & H3 & D3 & O3 & R3 & S3 & B3 & A3).
  rewrite E3. cbn [bind].
  destruct (collect_one_ok cx (dvs Addr) f Addr j3 J3) as (f4 & j4 & E4 & J4 & H4 & D4 & O4 & R4 & S4 & B4 & A4).
  rewrite E4. cbn [bind]. eexists. exists j4. split; [reflexivity|].
  set (res := Z.lor (Z.lor (Z.lor (Z.lor 0 f1) f2) f3) f4).
  rewrite X1 in R1, S1. rewrite X2 in R2, S2. rewrite X3 in R3, S3. rewrite X4 in R4, S4.
  assert (F1 : f1 = 1 \/ f1 = 0) by (destruct R1 as [(-> & _)|(-> & _)]; auto).
  assert (F2 : f2 = 2 \/ f2 = 0) by (destruct R2 as [(-> & _)|(-> & _)]; auto).
  assert (F3 : f3 = 4 \/ f3 = 0) by (destruct R3 as [(-> & _)|(-> & _)]; auto).
  assert (F4 : f4 = 16 \/ f4 = 0) by (destruct R4 as [(-> & _)|(-> & _)]; auto).
  assert (M1 : named res Parts = (f1 =? 1)) by (unfold res; destruct F1 as [ -> | -> ], F2 as [ -> | -> ], F3 as [ -> | -> ], F4 as [ -> | -> ]; reflexivity).
  assert (M2 : named res Elems = (f2 =? 2)) by (unfold res; destruct F1 as [ -> | -> ], F2 as [ -> | -> ], F3 as [ -> | -> ], F4 as [ -> | -> ]; reflexivity).
  assert (M3 : named res Out = (f3 =? 4)) by (unfold res; destruct F1 as [ -> | -> ], F2 as [ -> | -> ], F3 as [ -> | -> ], F4 as [ -> | -> ]; reflexivity).
  assert (M4 : named res Addr = (f4 =? 16)) by (unfold res; destruct F1 as [ -> | -> ], F2 as [ -> | -> ], F3 as [ -> | -> ], F4 as [ -> | -> ]; reflexivity).
  split; [exact J4|]. split; [congruence|]. split; [|split].
  - intros r. unfold view, does. split; [rewrite D4, D3, D2, D1; reflexivity|]. destruct r.
    + rewrite M1, O4, O3, O2 by congruence. destruct R1 as [(-> & Y1 & Y2)|(-> & Y)]; split; auto; try discriminate.
    + rewrite M2, O4, O3 by congruence. rewrite (O1 Elems), (D1 Elems) in R2 by congruence.
      destruct R2 as [(-> & Y1 & Y2)|(-> & Y)]; split; auto; try discriminate.
    + rewrite M3, O4 by congruence. rewrite (O2 Out), (O1 Out), (D2 Out), (D1 Out) in R3 by congruence.
      destruct R3 as [(-> & Y1 & Y2)|(-> & Y)]; split; auto; try discriminate.
    + rewrite M4. rewrite (O3 Addr), (O2 Addr), (O1 Addr), (D3 Addr), (D2 Addr), (D1 Addr) in R4 by congruence.
      destruct R4 as [(-> & Y1 & Y2)|(-> & Y)]; split; auto; try discriminate.
    + cbn [named]. rewrite O4, O3, O2, O1 by congruence. split; [discriminate|auto].
  - intros r Nr Hd Hh. destruct r; try congruence.
    + rewrite M1, Z.eqb_eq. apply (S1 Hd Hh). reflexivity.
    + rewrite <- (D1 Elems) in Hd. rewrite <- (has_eq _ _ Elems H1) in Hh.
      assert (Ba := B1 Elems ltac:(congruence)).
      rewrite M2, Z.eqb_eq, (S2 Hd Hh), (fits_arg j j1 Elems (A1 _) Ba) by reflexivity. reflexivity.
    + rewrite <- (D1 Out), <- (D2 Out) in Hd. assert (HH : dj_has j2 = dj_has j) by congruence.
      rewrite <- (has_eq _ _ Out HH) in Hh.
      assert (Ba : nth_error (dj_bufs j2) (pos Out) = nth_error (dj_bufs j) (pos Out)) by (rewrite B2, B1 by congruence; reflexivity).
      assert (Aa : arg_of j2 Out = arg_of j Out) by (rewrite A2, A1; reflexivity).
      rewrite M3, Z.eqb_eq, (S3 Hd Hh), (fits_arg j j2 Out Aa Ba) by reflexivity. reflexivity.
    + rewrite <- (D1 Addr), <- (D2 Addr), <- (D3 Addr) in Hd. assert (HH : dj_has j3 = dj_has j) by congruence.
      rewrite <- (has_eq _ _ Addr HH) in Hh.
      assert (Ba : nth_error (dj_bufs j3) (pos Addr) = nth_error (dj_bufs j) (pos Addr)) by (rewrite B3, B2, B1 by congruence; reflexivity).
      assert (Aa : arg_of j3 Addr = arg_of j Addr) by (rewrite A3, A2, A1; reflexivity).
      rewrite M4, Z.eqb_eq, (S4 Hd Hh), (fits_arg j j3 Addr Aa Ba) by reflexivity. reflexivity.
  - intros n Hn Ht. fold res in Ht.
    assert (Q : Z.testbit res 3 = false) by (unfold res; destruct F1 as [ -> | -> ], F2 as [ -> | -> ], F3 as [ -> | -> ], F4 as [ -> | -> ]; reflexivity).
    assert (L : n = 3 \/ n < 3 \/ n = 4 \/ 5 <= n) by lia. destruct L as [->|[L|[L|L]]]; [congruence|lia|lia|]. exfalso.
    assert (0 <= res < 2 ^ 5) by (unfold res; destruct F1 as [ -> | -> ], F2 as [ -> | -> ], F3 as [ -> | -> ], F4 as [ -> | -> ]; vm_compute; split; congruence).
    assert (P : res < 2 ^ n) by (apply Z.lt_le_trans with (2 ^ 5); [lia|apply Z.pow_le_mono_r; lia]).
    destruct (Z.eq_dec res 0) as [Z0|Z0]; [rewrite Z0, Z.bits_0 in Ht; discriminate Ht|].
    rewrite Z.bits_above_log2 in Ht; [discriminate Ht|lia|]. apply Z.log2_lt_pow2; lia.
Qed.

(* ------------------------------------------------------------------ *)
(* writes *)
Lemma set_word_ok os i k v t cells : nth_error os i = Some (t, cells) -> set_word os i k v = replace os i (t, replace cells k (Raw v)).
Proof.
  intros E. unfold set_word. change (@nth_error object os i = Some (t, cells)) in E.
  destruct (@nth_error object os i) as [(t0, c0)|]; [|discriminate E]. injection E as -> ->. reflexivity.
Qed.

Lemma device_step j r a i k v w : jinv j -> arg_of j r = Some a -> device_writes (world_of j a) i k v w ->
  jinv (put_world j r w) /\ forall q, does (OnDevice r i k v) q (view j q) (view (put_world j r w) q).
Proof.
  intros J Ea H. pose proof (ji_arg _ J r a Ea) as W.
  destruct (device_writes_ok _ _ _ _ _ W H) as (W' & B' & C' & X' & os & t & cells & Y1 & Y2 & Y3).
  assert (R' : w_raws w = []) by (inversion H; reflexivity). cbn [world_of w_bufs w_arg] in B', C', X'.
  split.
  - apply jinv_put; auto; [rewrite B'; apply (ji_len _ J)|rewrite B'; eauto|].
    intros -> _. rewrite X'. apply (ji_addr _ J a Ea). rewrite Y1. discriminate.
  - intros q. rewrite (view_put j r w q J B'). unfold view, does. split; [reflexivity|].
    destruct (Nat.eqb (pos r) (pos q)) eqn:E; [|reflexivity]. apply Nat.eqb_eq, pos_inj in E. subst q.
    exists os. split; [unfold on_device; rewrite Ea; exact Y1|]. rewrite Y3, (set_word_ok _ _ _ _ _ _ Y2). reflexivity.
Qed.

Lemma host_step j r i k v b b' : jinv j -> nth_error (dj_bufs j) (pos r) = Some b -> writes b i k v b' ->
  jinv (DJob (replace (dj_bufs j) (pos r) b') (dj_args j) (dj_has j)) /\
  forall q, does (OnHost r i k v) q (view j q) (view (DJob (replace (dj_bufs j) (pos r) b') (dj_args j) (dj_has j)) q).
Proof.
  intros J Eb H. set (j' := DJob (replace (dj_bufs j) (pos r) b') (dj_args j) (dj_has j)).
  assert (W0 : winv (World (dj_bufs j) [] new_arg)) by (apply winv_new; apply (ji_fine _ J)).
  destruct (host_writes_ok _ _ _ _ _ _ W0 (hw (World (dj_bufs j) [] new_arg) (pos r) i k v b b' Eb H)) as (W1 & _ & os & t & cells & Y1 & Y2 & Y3).
  cbn [w_bufs w_raws w_arg] in W1, Y1, Y3.
  assert (Ib : In b (dj_bufs j)) by (apply nth_error_In with (pos r); exact Eb).
  assert (Ea : data_addr (b_h b') = data_addr (b_h b)) by (inversion H; reflexivity).
  assert (AD : forall b0, In b0 (replace (dj_bufs j) (pos r) b') -> exists b1, In b1 (dj_bufs j) /\ data_addr (b_h b0) = data_addr (b_h b1)).
  { intros b0 H0. apply replace_in in H0 as [->|H0]; eauto. }
  assert (L5 : (pos r < length (dj_bufs j))%nat) by (rewrite (ji_len _ J); apply pos_lt).
  split.
  - split; cbn [dj_bufs dj_args j'].
    + rewrite replace_length. apply (ji_len _ J).
    + apply (ji_args _ J).
    + apply (wi_bufs _ W1).
    + intros q a Ha. unfold world_of. cbn [dj_bufs]. apply (winv_bufs (dj_bufs j)); [exact (ji_arg _ J q a Ha)|apply (wi_bufs _ W1)|exact AD].
    + exact (ji_addr _ J).
  - intros q. unfold view, does. split; [apply on_device_arg; reflexivity|]. unfold on_host, j'. cbn [dj_bufs].
    rewrite replace_nth by exact L5. rewrite (Nat.eqb_sym (pos q) (pos r)). destruct (Nat.eqb (pos r) (pos q)) eqn:E; [|reflexivity].
    apply Nat.eqb_eq, pos_inj in E. subst q. rewrite Eb.
    assert (O1 : os = objects b) by (unfold hosts in Y1; cbn [w_bufs] in Y1; rewrite nth_error_map, Eb in Y1; cbn [option_map] in Y1; congruence).
    subst os. rewrite (set_word_ok _ _ _ _ _ _ Y2).
    assert (Z1 := f_equal (fun l => nth_error l (pos r)) Y3). cbv beta in Z1. unfold hosts in Z1. cbn [w_bufs] in Z1.
    rewrite nth_error_map, !replace_nth, Nat.eqb_refl in Z1 by (rewrite ?map_length; exact L5). cbn [option_map] in Z1.
    exact (f_equal (fun o => match o with Some x => x | None => [] end) Z1).
Qed.

Lemma jstep_ok j e j' : jinv j -> jstep j e j' -> jinv j' /\ (forall r, does e r (view j r) (view j' r)) /\ dj_has j' = dj_has j.
Proof.
  intros J H. destruct H as [cx dvs fl j res j' D E|cx dvs fl j res j' E|j r a i k v w Ha H|j r i k v b b' Hb H].
  - destruct (push_ok cx dvs fl j J D) as (res1 & j1 & E1 & P). rewrite E1 in E. injection E as <- <-.
    destruct P as (P1 & _ & P2 & P3 & _). auto.
  - destruct (collect_ok cx dvs fl j J) as (res1 & j1 & E1 & P). rewrite E1 in E. injection E as <- <-.
    destruct P as (P1 & P2 & P3 & _). auto.
  - destruct (device_step j r a i k v w J Ha H) as (P1 & P2). auto.
  - destruct (host_step j r i k v b b' J Hb H) as (P1 & P2). auto.
Qed.

Lemma jsteps_ok j es j' : jinv j -> jsteps j es j' -> jinv j' /\ happened (view j) es (view j') /\ dj_has j' = dj_has j.
Proof.
  intros J H. induction H as [j|j es j1 e j2 H1 IH H2]; [split; [exact J|split; [constructor; reflexivity|reflexivity]]|].
  destruct (IH J) as (J1 & Hp & Hh). destruct (jstep_ok _ _ _ J1 H2) as (J2 & D & Hh2).
  split; [exact J2|]. split; [|congruence]. apply ha_snoc with (view j1); assumption.
Qed.

(* ------------------------------------------------------------------ *)
(* reset *)
Lemma ctrl_send_cxx c dv a b s a' : ctrl_send c dv a b true = Some (s, a') -> a_cxx a' = a_cxx a.
Proof.
  unfold ctrl_send. cbv zeta. destruct (_ && _); [|intros H; injection H as _ <-; reflexivity].
  destruct (buffer_words b) as [ws|]; [|discriminate]. cbn [bind]. unfold do_send.
  destruct (a_dev a) as [m|] eqn:Ed.
  2:{ cbn [bind andb]. intros H; injection H as _ <-; reflexivity. }
  destruct (a_has a && _ && _ && _ && _ && _).
  2:{ cbn [bind andb]. intros H; injection H as _ <-; reflexivity. }
  destruct (wrn m (mbase m) ws) as [m'|]; [|discriminate]. cbn [bind andb]. unfold do_remap. cbn [set_dev a_dev a_c a_has a_cap].
  destruct (c_run c && _ && _ && _ && _); [|intros H; injection H as _ <-; reflexivity].
  destruct (mb_remap m' (mbase m')) as [[ok m2]|]; [|discriminate]. cbn [bind]. intros H. injection H as _ <-. reflexivity.
Qed.

Lemma send_cxx cx dv i w w' : send_buffer cx dv true i true w = Some (true, w') -> a_cxx (w_arg w') <> None.
Proof.
  unfold send_buffer. destruct (nth_error (w_bufs w) i) as [b|]; [|discriminate]. cbn [bind].
  destruct cx as [c|]; [|discriminate]. cbv zeta.
  generalize (if given (a_raw (w_arg w)) then set_raw (w_arg w) None else w_arg w). intros a0.
  destruct (if a_cap a0 <? data_size (b_h b) then _ else _) as ((ok, upd), a). destruct ok; [|discriminate].
  set (a1 := if _ : bool then set_buffer_ref a i else a).
  assert (X : a_cxx a1 <> None).
  { unfold a1. destruct (upd || _) eqn:E; [discriminate|]. apply orb_false_iff in E as (_ & E). apply orb_false_iff in E as (E & _).
    destruct (a_cxx a); discriminate. }
  destruct (ctrl_send c dv a1 b true) as [(s, a2)|] eqn:E; [|discriminate]. cbn [bind]. intros H.
  assert (s = true) as -> by congruence. pose proof (ctrl_send_cxx _ _ _ _ _ _ E) as Y.
  assert (W' : w_arg w' = set_size a2 (data_size (b_h b))) by (injection H as <-; reflexivity).
  rewrite W'. cbn [set_size a_cxx]. congruence.
Qed.

Lemma jinv_cleared bufs : length bufs = 5%nat -> (forall b, In b bufs -> fine b) -> jinv (cleared bufs).
Proof. intros L F. split; auto; unfold arg_of; cbn [cleared dj_args]; [intros r a|intros a]; [destruct r|]; discriminate. Qed.

Lemma jinv_has j l : jinv j -> jinv (DJob (dj_bufs j) (dj_args j) l).
Proof. intros [J1 J2 J3 J4 J5]. split; assumption. Qed.

Lemma put_arg_ok j r a : jinv j -> winv (World (dj_bufs j) [] a) ->
  (r = Addr -> held (World (dj_bufs j) [] a) <> None -> a_cxx a = Some (pos Addr)) ->
  jinv (put_arg j r a) /\ (forall q, on_device (put_arg j r a) q = if Nat.eqb (pos r) (pos q) then held (World (dj_bufs j) [] a) else on_device j q) /\
  (forall q, arg_of (put_arg j r a) q = if Nat.eqb (pos r) (pos q) then Some a else arg_of j q).
Proof.
  intros J W H. change (put_arg j r a) with (put_world j r (world_of j a)). split; [|split].
  - apply jinv_put; auto; cbn [world_of w_bufs]; [apply (ji_len _ J)|eauto].
  - intros q. exact (f_equal snd (view_put j r (world_of j a) q J eq_refl)).
  - intros q. unfold put_world. rewrite arg_of_put by apply (ji_args _ J). reflexivity.
Qed.

(* what is on the device: the part r as on the host, or nothing *)
Definition fresh (bufs : list buffer) (j : djob) : Prop :=
  jinv j /\ dj_bufs j = bufs /\ (forall r, on_device j r = Some (host_objects bufs r) \/ on_device j r = None).

Definition new_device (dv : device) (bufs : list buffer) : Prop := device_ok dv (World bufs [] new_arg).

Lemma devices_new dvs bufs : devices_ok dvs (cleared bufs) -> forall r, new_device (dvs r) bufs.
Proof.
  intros D r. destruct (D r) as (G & H). split; [exact G|]. intros n Hn. destruct (H n Hn) as (H1 & H2 & H3).
  split; [exact H1|]. split; [exact H2|]. cbn [w_arg new_arg a_dev]. discriminate.
Qed.

(* an argument is made for part r *)
Lemma make cx dv cxx r bufs j : new_device dv bufs -> fresh bufs j -> (r = Addr -> cxx = true) ->
  exists b a, nth_error (dj_bufs j) (pos r) = Some b /\ arg_from cx dv cxx (pos r) b = Some a /\
    fresh bufs (put_arg j r a) /\
    (forall q, q <> r -> arg_of (put_arg j r a) q = arg_of j q) /\
    (on_device (put_arg j r a) r <> None <-> arrives cx dv b) /\
    (refers (a_c a) r = true <-> arrives cx dv b) /\
    (cxx = true -> refers (a_cxx a) r = true <-> arrives cx dv b) /\
    arg_of (put_arg j r a) r = Some a /\
    (forall m, a_dev a = Some m -> mbase m = h_malloc (d_heap dv) (data_size (b_h b))) /\
    (data_size (b_h b) <= a_cap a <-> h_malloc (d_heap dv) (data_size (b_h b)) <> 0) /\
    (cxx = true -> forall p, a_cxx a = Some p -> p = pos r).
Proof.
  intros D (J & B & FR) Hc. destruct (buf_of j r J) as (b & Eb). exists b.
  assert (F : forall b, In b bufs -> fine b) by (rewrite <- B; apply (ji_fine _ J)).
  assert (Eb' : nth_error bufs (pos r) = Some b) by (rewrite <- B; exact Eb).
  destruct (arg_from_ok cx dv cxx (pos r) bufs b F D Eb') as (a & E & W & Y & N & M & CP).
  exists a. split; [exact Eb|]. split; [exact E|].
  assert (DEC : arrives cx dv b \/ ~ arrives cx dv b).
  { unfold arrives, can_send. destruct cx as [c|]; [|right; intros ((c & X & _) & _); discriminate X].
    destruct (c_send c) eqn:E1, (c_run c) eqn:E2, (if c_debug c then c_debug_kernel c else c_kernel c) eqn:E3, (d_copy dv) eqn:E4,
      (Z.eq_dec (h_malloc (d_heap dv) (data_size (b_h b))) 0) as [E5|E5];
      try (right; intros ((c' & X & X1 & X2 & X3) & X4 & X5); assert (c' = c) as -> by congruence; congruence).
    left. split; [exists c; auto|auto]. }
  assert (PA := put_arg_ok j r a J). rewrite B in PA. destruct (PA W) as (J' & OD & AO).
  { intros -> Hh. destruct DEC as [A|A]; [apply (Y A); auto|]. destruct (N A) as (_ & _ & X). congruence. }
  assert (OR : on_device (put_arg j r a) r = held (World bufs [] a)) by (rewrite OD, Nat.eqb_refl; reflexivity).
  assert (HO : host_objects bufs r = objects b) by (unfold host_objects; rewrite Eb'; reflexivity).
  split; [|split; [|split; [|split; [|split; [|split; [|split; [exact M|split; [exact CP|]]]]]]]].
  - split; [exact J'|]. split; [exact B|]. intros q. destruct (Nat.eqb (pos r) (pos q)) eqn:Eq.
    + apply Nat.eqb_eq, pos_inj in Eq. subst q. rewrite OR, HO. destruct DEC as [A|A].
      * left. apply (Y A).
      * right. apply (N A).
    + rewrite OD, Eq. apply FR.
  - intros q Hq. rewrite AO. destruct (Nat.eqb_spec (pos r) (pos q)) as [X|X]; [apply pos_inj in X; congruence|reflexivity].
  - rewrite OR. destruct DEC as [A|A].
    + destruct (Y A) as (_ & _ & X). rewrite X. split; [auto|discriminate].
    + destruct (N A) as (_ & _ & X). rewrite X. split; [congruence|contradiction].
  - unfold refers, same. destruct DEC as [A|A].
    + destruct (Y A) as (X & _). rewrite X, Nat.eqb_refl. tauto.
    + destruct (N A) as (X & _). rewrite X. split; [discriminate|contradiction].
  - intros Hx. unfold refers, same. destruct DEC as [A|A].
    + destruct (Y A) as (_ & X & _). rewrite (X Hx), Nat.eqb_refl. tauto.
    + destruct (N A) as (_ & X & _). rewrite X. split; [discriminate|contradiction].
  - rewrite AO, Nat.eqb_refl. reflexivity.
  - intros Hx p Hp. destruct DEC as [A|A].
    + destruct (Y A) as (_ & X & _). rewrite (X Hx) in Hp. congruence.
    + destruct (N A) as (_ & X & _). congruence.
Qed.

Lemma reaches_b cx dvs bufs j r b : dj_bufs j = bufs -> nth_error (dj_bufs j) (pos r) = Some b ->
  (reaches cx dvs bufs r <-> arrives cx (dvs r) b).
Proof.
  intros <- E. unfold reaches. split; [intros (b' & X & Y)|intros X; exists b; auto].
  assert (b' = b) as -> by congruence. exact Y.
Qed.

Lemma reaches_cx cx dvs bufs r : reaches cx dvs bufs r -> cx <> None.
Proof. intros (b & _ & (c & X & _) & _). congruence. Qed.

Lemma part_ok cx dvs ha bufs j : (forall r, new_device (dvs r) bufs) -> fresh bufs j -> arg_of j Addr = None -> arg_of j Parts = None ->
  exists st j', prepare_particles cx dvs ha j = Some (st, j') /\ fresh bufs j' /\
    (st = true <-> on_device j' Addr <> None) /\
    (on_device j' Addr <> None <-> ha = true /\ reaches cx dvs bufs Addr) /\
    (on_device j' Parts <> None <-> on_device j' Addr <> None /\ reaches cx dvs bufs Parts) /\
    (forall q, q <> Parts -> q <> Addr -> arg_of j' q = arg_of j q).
Proof.
  intros D F NA NP.
  assert (OA : on_device j Addr = None) by (unfold on_device; rewrite NA; reflexivity).
  assert (OP : on_device j Parts = None) by (unfold on_device; rewrite NP; reflexivity).
  unfold prepare_particles. destruct cx as [c|].
  2:{ exists false, j. split; [reflexivity|]. split; [exact F|]. rewrite OA, OP. split; [split; congruence|].
      split; [split; [congruence|intros (_ & X); exfalso; exact (reaches_cx _ _ _ _ X eq_refl)]|].
      split; [split; [congruence|intros (X & _); congruence]|auto]. }
  assert (ONE : exists st j1, (if ha then b <- nth_error (dj_bufs j) (pos Addr);;
        a <- arg_from (Some c) (dvs Addr) true (pos Addr) b;; Some (refers (a_cxx a) Addr, put_arg j Addr a) else Some (false, j)) = Some (st, j1) /\
     fresh bufs j1 /\ (st = true <-> on_device j1 Addr <> None) /\
     (on_device j1 Addr <> None <-> ha = true /\ reaches (Some c) dvs bufs Addr) /\ (forall q, q <> Addr -> arg_of j1 q = arg_of j q)).
  { destruct ha.
    - destruct (make (Some c) (dvs Addr) true Addr bufs j (D Addr) F (fun _ => eq_refl)) as (b & a & E1 & E2 & F1 & Q & O1 & _ & R1 & _).
      rewrite E1. cbn [bind]. rewrite E2. cbn [bind]. do 2 eexists. split; [reflexivity|]. split; [exact F1|].
      rewrite (R1 eq_refl), O1, (reaches_b _ _ _ _ _ _ (proj1 (proj2 F)) E1). split; [reflexivity|]. split; [tauto|exact Q].
    - exists false, j. split; [reflexivity|]. split; [exact F|]. rewrite OA. split; [split; congruence|].
      split; [split; [congruence|intros (X & _); discriminate X]|auto]. }
  destruct ONE as (st & j1 & E1 & F1 & S1 & O1 & Q1).
  assert (PN : Parts <> Addr) by congruence.
  assert (OP1 : on_device j1 Parts = None) by (rewrite (on_device_arg _ _ _ (Q1 Parts PN)); exact OP).
  destruct (make (Some c) (dvs Parts) false Parts bufs j1 (D Parts) F1) as (b & a & E2 & E3 & F2 & Q2 & O2 & R2 & _); [congruence|].
  cbv zeta.
  match goal with |- exists st j', bind ?x ?f = _ /\ _ =>
    assert (G : bind x f = f (st, j1)) by (rewrite E1; reflexivity); rewrite G; clear G end.
  cbv beta iota. rewrite E2. cbn [bind]. rewrite E3. cbn [bind].
  assert (RB : reaches (Some c) dvs bufs Parts <-> arrives (Some c) (dvs Parts) b)
    by (apply (reaches_b _ _ _ _ _ _ (proj1 (proj2 F1)) E2)).
  assert (AA : arg_of (put_arg j1 Parts a) Addr = arg_of j1 Addr) by (apply Q2; congruence).
  destruct (st && refers (a_c a) Parts) eqn:Es.
  - apply andb_prop in Es as (-> & Es). exists true, (put_arg j1 Parts a). split; [reflexivity|]. split; [exact F2|].
    rewrite (on_device_arg _ _ _ AA). split; [exact S1|]. split; [exact O1|]. split.
    + rewrite O2, RB. tauto.
    + intros q H1 H2. rewrite Q2 by exact H1. apply Q1. exact H2.
  - exists st, j1. split; [reflexivity|]. split; [exact F1|]. split; [exact S1|]. split; [exact O1|]. split.
    + rewrite OP1. split; [congruence|]. intros (X1 & X2). apply S1 in X1. subst st.
      apply RB, R2 in X2. rewrite X2 in Es. discriminate Es.
    + intros q H1 H2. apply Q1. exact H2.
Qed.

Lemma elems_ok cx dvs bufs j : (forall r, new_device (dvs r) bufs) -> fresh bufs j -> arg_of j Elems = None ->
  exists st j', prepare_elements cx dvs j = Some (st, j') /\ fresh bufs j' /\
    (st = true <-> on_device j' Elems <> None) /\ (on_device j' Elems <> None <-> reaches cx dvs bufs Elems) /\
    (forall q, q <> Elems -> arg_of j' q = arg_of j q) /\
    (st = true -> exists a, arg_of j' Elems = Some a /\ refers (a_c a) Elems = true) /\
    (st = false -> arg_of j' Elems = None).
Proof.
  intros D F NA. assert (OA : on_device j Elems = None) by (unfold on_device; rewrite NA; reflexivity).
  unfold prepare_elements. destruct cx as [c|].
  2:{ exists false, j. split; [reflexivity|]. split; [exact F|]. rewrite OA. split; [split; congruence|].
      split; [split; [congruence|intros X; exfalso; exact (reaches_cx _ _ _ _ X eq_refl)]|]. split; [auto|]. split; [discriminate|auto]. }
  destruct (make (Some c) (dvs Elems) false Elems bufs j (D Elems) F) as (b & a & E2 & E3 & F2 & Q2 & O2 & R2 & _ & A2 & _); [congruence|].
  rewrite E2. cbn [bind]. rewrite E3. cbn [bind]. pose proof (reaches_b (Some c) dvs _ _ _ _ (proj1 (proj2 F)) E2) as RB.
  destruct (refers (a_c a) Elems) eqn:Er.
  - exists true, (put_arg j Elems a). split; [reflexivity|]. split; [exact F2|]. split; [rewrite O2; exact R2|].
    split; [rewrite O2, RB; reflexivity|]. split; [exact Q2|]. split; [|discriminate]. intros _. exists a. auto.
  - exists false, j. split; [reflexivity|]. split; [exact F|]. rewrite OA. split; [split; congruence|].
    split; [|split; [auto|split; [discriminate|auto]]]. rewrite RB, <- R2. split; [congruence|discriminate].
Qed.

Lemma output_ok cx dvs again cf bufs j : (forall r, new_device (dvs r) bufs) -> new_device again bufs ->
  (forall n k, h_malloc (d_heap again) n <> 0 -> h_malloc (d_heap again) n <> h_malloc (d_heap (dvs Conf)) k) ->
  fresh bufs j -> arg_of j Out = None -> arg_of j Conf = None ->
  exists st j', prepare_output cx dvs again cf j = Some (st, j') /\ fresh bufs j' /\ dj_has j' = dj_has j /\
    (st = true <-> on_device j' Out <> None) /\
    (on_device j' Out <> None <-> (cf = true -> resent cx dvs again bufs) /\ reaches cx dvs bufs Out) /\
    (forall q, q <> Out -> q <> Conf -> arg_of j' q = arg_of j q) /\
    (st = true -> exists a, arg_of j' Out = Some a /\ refers (a_c a) Out = true) /\
    (st = true -> cf = true -> exists a, arg_of j' Conf = Some a /\ refers (a_cxx a) Conf = true) /\
    (cf = true -> resent cx dvs again bufs -> on_device j' Conf <> None) /\
    (cf = false -> arg_of j' Conf = None).
Proof.
  intros D DA DN F NO NC.
  assert (OO : on_device j Out = None) by (unfold on_device; rewrite NO; reflexivity).
  unfold prepare_output. destruct cx as [c|].
  2:{ exists false, j. split; [reflexivity|]. split; [exact F|]. split; [reflexivity|]. rewrite OO. split; [split; congruence|].
      split; [split; [congruence|intros (_ & X); exfalso; exact (reaches_cx _ _ _ _ X eq_refl)]|]. split; [auto|]. split; [discriminate|].
      split; [discriminate|]. split; [|auto]. intros _ (b & _ & (c & X & _) & _). discriminate X. }
  assert (ONE : exists st j1, (if cf then b <- nth_error (dj_bufs j) (pos Conf);;
        a <- arg_from (Some c) (dvs Conf) true (pos Conf) b;;
        '(st, w) <- send_buffer (Some c) again true (pos Conf) true (world_of j a);;
        Some (st && refers (a_cxx (w_arg w)) Conf, put_world j Conf w) else Some (true, j)) = Some (st, j1) /\
     fresh bufs j1 /\ dj_has j1 = dj_has j /\ (st = true <-> (cf = true -> resent (Some c) dvs again bufs)) /\
     (forall q, q <> Conf -> arg_of j1 q = arg_of j q) /\
     (st = true -> cf = true -> exists a, arg_of j1 Conf = Some a /\ refers (a_cxx a) Conf = true) /\
     (cf = true -> resent (Some c) dvs again bufs -> on_device j1 Conf <> None) /\ (cf = false -> j1 = j)).
  { destruct cf.
    2:{ exists true, j. split; [reflexivity|]. split; [exact F|]. split; [reflexivity|]. split; [split; [discriminate|reflexivity]|]. split; [auto|].
        split; [discriminate|]. split; [discriminate|auto]. }
    destruct (make (Some c) (dvs Conf) true Conf bufs j (D Conf) F) as (b & a & E2 & E3 & F2 & Q2 & O2 & R2 & R3 & A2 & M2 & C2 & PX); [congruence|].
    rewrite E2. cbn [bind]. rewrite E3. cbn [bind].
    destruct F2 as (J2 & B2 & FR2). pose proof (ji_arg _ J2 Conf a A2) as W2. unfold world_of in W2. rewrite B2 in W2.
    destruct F as (J & B & FR). unfold world_of. rewrite B in E2 |- *.
    assert (DW : device_ok again (World bufs [] a)).
    { destruct DA as (G & H). split; [exact G|]. intros n Hn. destruct (H n Hn) as (H1 & H2 & _). split; [exact H1|]. split; [exact H2|].
      cbn [w_arg]. intros m Hm. rewrite (M2 m Hm). apply DN. exact Hn. }
    destruct (send_ok (Some c) again true (pos Conf) (World bufs [] a) b W2 DW E2) as (s & w' & E & W' & B' & RW & H1 & H2 & H3 & H4 & H5).
    rewrite E. cbn [bind]. cbn [w_bufs w_raws w_arg] in B', RW, H3, H4, H5.
    assert (RS : resent (Some c) dvs again bufs <-> s = true).
    { rewrite H3, C2. unfold resent. split.
      - intros (b' & X & Y). assert (b' = b) as -> by congruence. exact Y.
      - intros X. exists b. auto. }
    assert (RC : s = true -> refers (a_cxx (w_arg w')) Conf = true).
    { intros ->. pose proof (send_cxx _ _ _ _ _ E) as X. destruct (a_cxx (w_arg w')) as [p|] eqn:Ep; [|congruence].
      unfold refers, same. apply Nat.eqb_eq. destruct (H5 p eq_refl) as [->|X2]; [reflexivity|]. exact (PX eq_refl p X2). }
    assert (JW : jinv (put_world j Conf w')).
    { apply jinv_put; auto; [rewrite B', <- B; apply (ji_len _ J)|rewrite B', <- B; eauto|congruence]. }
    assert (B1 : w_bufs w' = dj_bufs j) by congruence.
    assert (OD : forall q, on_device (put_world j Conf w') q = if Nat.eqb (pos Conf) (pos q) then held w' else on_device j q)
      by (intros q; exact (f_equal snd (view_put j Conf w' q J B1))).
    assert (AO : forall q, arg_of (put_world j Conf w') q = if Nat.eqb (pos Conf) (pos q) then Some (w_arg w') else arg_of j q)
      by (intros q; unfold put_world; rewrite arg_of_put by apply (ji_args _ J); reflexivity).
    assert (HB : host_objects bufs Conf = objects b) by (unfold host_objects; rewrite E2; reflexivity).
    do 2 eexists. split; [reflexivity|].
    split; [|split; [reflexivity|split; [|split; [|split; [|split; [|discriminate]]]]]].
    - split; [exact JW|]. split; [exact B'|]. intros q. rewrite OD. destruct (Nat.eqb (pos Conf) (pos q)) eqn:Eq; [|apply FR].
      apply Nat.eqb_eq, pos_inj in Eq. subst q. rewrite HB. destruct s; [left; apply H1; reflexivity|].
      pose proof (FR2 Conf) as X. unfold on_device in X. rewrite A2 in X. unfold world_of in X. rewrite B2, HB in X.
      destruct (H2 eq_refl) as [Y|Y]; rewrite Y; [exact X|right; reflexivity].
    - split.
      + intros X _. apply andb_prop in X as (X & _). apply RS. exact X.
      + intros X. specialize (X eq_refl). apply RS in X. rewrite X, (RC X). reflexivity.
    - intros q Hq. rewrite AO. destruct (Nat.eqb_spec (pos Conf) (pos q)) as [X|X]; [apply pos_inj in X; congruence|reflexivity].
    - intros X _. apply andb_prop in X as (_ & X). exists (w_arg w'). split; [|exact X]. rewrite AO, Nat.eqb_refl. reflexivity.
    - intros _ X. rewrite OD, Nat.eqb_refl. apply RS in X. rewrite (H1 X). discriminate. }
  destruct ONE as (st & j1 & E1 & F1 & HH & S1 & Q1 & C1 & D1 & N1).
  match goal with |- exists st j', bind ?x ?f = _ /\ _ =>
    assert (G : bind x f = f (st, j1)) by (rewrite E1; reflexivity); rewrite G; clear G end.
  cbv beta iota. assert (NOC : Out <> Conf) by congruence.
  assert (OO1 : on_device j1 Out = None) by (rewrite (on_device_arg _ _ _ (Q1 Out NOC)); exact OO).
  destruct st.
  - destruct (make (Some c) (dvs Out) false Out bufs j1 (D Out) F1) as (b & a & E2 & E3 & F2 & Q2 & O2 & R2 & _ & A2 & _); [congruence|].
    rewrite E2. cbn [bind]. rewrite E3. cbn [bind]. pose proof (reaches_b (Some c) dvs _ _ _ _ (proj1 (proj2 F1)) E2) as RB.
    assert (AC : arg_of (put_arg j1 Out a) Conf = arg_of j1 Conf) by (apply Q2; congruence).
    do 2 eexists. split; [reflexivity|]. split; [exact F2|]. split; [exact HH|]. rewrite O2, RB, R2, AC.
    split; [reflexivity|]. split; [tauto|].
    split. { intros q H1 H2. rewrite Q2 by exact H1. apply Q1. exact H2. }
    split. { intros X. exists a. split; [exact A2|]. apply R2. exact X. }
    split. { intros _. apply C1. reflexivity. }
    rewrite (on_device_arg _ _ _ AC). split; [exact D1|]. intros X. rewrite (N1 X). exact NC.
  - exists false, j1. split; [reflexivity|]. split; [exact F1|]. split; [exact HH|]. rewrite OO1. split; [split; congruence|].
    split; [split; [congruence|]|].
    { intros (X & _). apply S1 in X. discriminate X. }
    split. { intros q H1 H2. apply Q1. exact H2. }
    split; [discriminate|]. split; [discriminate|]. split; [exact D1|]. intros X. rewrite (N1 X). exact NC.
Qed.

Lemma reset_ok cx dvs again h bufs : length bufs = 5%nat -> (forall b, In b bufs -> fine b) -> reset_devices dvs again bufs ->
  exists st j, reset cx dvs again h bufs = Some (st, j) /\ fresh bufs j /\
    (on_device j Addr <> None <-> h_parts h = true /\ has_addr h = true /\ reaches cx dvs bufs Addr) /\
    (on_device j Parts <> None <-> on_device j Addr <> None /\ reaches cx dvs bufs Parts) /\
    (on_device j Elems <> None <-> on_device j Addr <> None /\ h_elems h = true /\ reaches cx dvs bufs Elems) /\
    (on_device j Out <> None <-> wanted h = true /\ h_output h = true /\ has_out h = true /\
       (has_conf h = true -> resent cx dvs again bufs) /\ reaches cx dvs bufs Out) /\
    (has j Parts = true <-> on_device j Elems <> None /\ h_kernels h = true) /\ has j Elems = has j Parts /\
    has j Out = has_out h /\ has j Addr = has_addr h /\
    (wanted h = false -> (st = true <-> on_device j Elems <> None /\ h_kernels h = true)) /\
    (wanted h = true -> (st = true <-> on_device j Out <> None /\
       (need_ebe h = true -> h_ebe h = true /\ has_conf h = true /\ k_ebe h = true) /\
       (need_mon h = true -> h_mon h = true /\ on_device j Elems <> None /\ k_mon h = true))).
Proof.
  intros L F (D & DA & DN). pose proof (devices_new dvs bufs D) as ND.
  assert (F0 : fresh bufs (cleared bufs)).
  { split; [apply jinv_cleared; assumption|]. split; [reflexivity|]. intros r. right. destruct r; reflexivity. }
  unfold reset. cbv zeta.
  (* the particles *)
  assert (P1 : exists st j1, (if h_parts h then prepare_particles cx dvs (has_addr h) (cleared bufs) else Some (false, cleared bufs)) = Some (st, j1) /\
     fresh bufs j1 /\ (st = true <-> on_device j1 Addr <> None) /\
     (on_device j1 Addr <> None <-> h_parts h = true /\ has_addr h = true /\ reaches cx dvs bufs Addr) /\
     (on_device j1 Parts <> None <-> on_device j1 Addr <> None /\ reaches cx dvs bufs Parts) /\
     (forall q, q <> Parts -> q <> Addr -> arg_of j1 q = None)).
  { destruct (h_parts h).
    - destruct (part_ok cx dvs (has_addr h) bufs (cleared bufs) ND F0 eq_refl eq_refl) as (st & j1 & E & F1 & S & A & P & Q).
      exists st, j1. split; [exact E|]. split; [exact F1|]. split; [exact S|]. split; [rewrite A; tauto|]. split; [exact P|].
      intros q X1 X2. rewrite (Q q X1 X2). destruct q; reflexivity.
    - exists false, (cleared bufs). split; [reflexivity|]. split; [exact F0|]. unfold on_device. cbn [arg_of cleared dj_args pos nth_error].
      split; [split; congruence|]. split; [split; [congruence|intros (X & _); discriminate X]|]. split; [split; [congruence|intros (X & _); congruence]|].
      intros q _ _. destruct q; reflexivity. }
  destruct P1 as (s1 & j1 & E1 & F1 & S1 & A1 & PP1 & N1).
  match goal with |- exists st j', bind ?x ?f = _ /\ _ =>
    assert (G : bind x f = f (s1, j1)) by (rewrite E1; reflexivity); rewrite G; clear G end. cbv beta iota.
  (* the elements *)
  assert (P2 : exists st j2, (if s1 && h_elems h then prepare_elements cx dvs j1 else Some (s1 && h_elems h, j1)) = Some (st, j2) /\
     fresh bufs j2 /\ (st = true <-> on_device j2 Elems <> None) /\
     (on_device j2 Elems <> None <-> on_device j1 Addr <> None /\ h_elems h = true /\ reaches cx dvs bufs Elems) /\
     (forall q, q <> Elems -> arg_of j2 q = arg_of j1 q) /\
     (st = true -> exists a, arg_of j2 Elems = Some a /\ refers (a_c a) Elems = true) /\ (st = false -> arg_of j2 Elems = None)).
  { assert (NE : arg_of j1 Elems = None) by (apply N1; congruence).
    destruct (s1 && h_elems h) eqn:Es.
    - apply andb_prop in Es as (-> & ->).
      destruct (elems_ok cx dvs bufs j1 ND F1 NE) as (st & j2 & E & F2 & S & A & Q & X1 & X2).
      exists st, j2. split; [exact E|]. split; [exact F2|]. split; [exact S|]. split; [|auto]. rewrite A, <- S1. tauto.
    - exists false, j1. split; [reflexivity|]. split; [exact F1|].
      assert (OE : on_device j1 Elems = None) by (unfold on_device; rewrite NE; reflexivity). rewrite OE.
      split; [split; congruence|]. split; [|split; [auto|split; [discriminate|auto]]].
      split; [congruence|]. intros (X1 & X2 & _). apply S1 in X1. rewrite X1, X2 in Es. discriminate Es. }
  destruct P2 as (s2 & j2 & E2 & F2 & S2 & A2 & Q2 & RE & NE2).
  match goal with |- exists st j', bind ?x ?f = _ /\ _ =>
    assert (G : bind x f = f (s2, j2)) by (rewrite E2; reflexivity); rewrite G; clear G end. cbv beta iota.
  set (j2' := DJob (dj_bufs j2) (dj_args j2) _).
  assert (F2' : fresh bufs j2') by (destruct F2 as (X1 & X2 & X3); split; [apply jinv_has; exact X1|split; [exact X2|exact X3]]).
  assert (AO2 : forall q, arg_of j2' q = arg_of j2 q) by reflexivity.
  assert (W : wanted h = need_ebe h || need_mon h || given_out h) by reflexivity. rewrite <- W.
  (* the output *)
  assert (P3 : exists st j3, (if wanted h then if h_output h && has_out h then prepare_output cx dvs again (has_conf h) j2' else Some (false, j2')
       else Some (s2 && h_kernels h, j2')) = Some (st, j3) /\ fresh bufs j3 /\ dj_has j3 = dj_has j2' /\
     (wanted h = false -> st = s2 && h_kernels h) /\ (wanted h = true -> (st = true <-> on_device j3 Out <> None)) /\
     (on_device j3 Out <> None <-> wanted h = true /\ h_output h = true /\ has_out h = true /\
       (has_conf h = true -> resent cx dvs again bufs) /\ reaches cx dvs bufs Out) /\
     (forall q, q <> Out -> q <> Conf -> arg_of j3 q = arg_of j2 q) /\
     (wanted h = true -> st = true -> (exists a, arg_of j3 Out = Some a /\ refers (a_c a) Out = true) /\ has_out h = true /\
       (has_conf h = true -> exists a, arg_of j3 Conf = Some a /\ refers (a_cxx a) Conf = true) /\
       (has_conf h = false -> arg_of j3 Conf = None))).
  { assert (NO : arg_of j2' Out = None) by (rewrite AO2, Q2, N1 by congruence; reflexivity).
    assert (NC : arg_of j2' Conf = None) by (rewrite AO2, Q2, N1 by congruence; reflexivity).
    assert (OO : on_device j2' Out = None) by (unfold on_device; rewrite NO; reflexivity).
    destruct (wanted h).
    2:{ exists (s2 && h_kernels h), j2'. split; [reflexivity|]. split; [exact F2'|]. split; [reflexivity|]. rewrite OO.
        split; [auto|]. split; [discriminate|]. split; [split; [congruence|intros (X & _); discriminate X]|]. split; [auto|discriminate]. }
    destruct (h_output h && has_out h) eqn:Eo.
    - apply andb_prop in Eo as (Eo1 & Eo2). rewrite Eo1, Eo2.
      destruct (output_ok cx dvs again (has_conf h) bufs j2' ND DA DN F2' NO NC) as (st & j3 & E & F3 & H3 & S3 & O3 & Q3 & R3 & R4 & R5 & R6).
      exists st, j3. split; [exact E|]. split; [exact F3|]. split; [exact H3|]. split; [discriminate|]. split; [auto|].
      split; [rewrite O3; tauto|]. split; [intros q X1 X2; rewrite (Q3 q X1 X2); apply AO2|]. intros _ X. auto.
    - exists false, j2'. split; [reflexivity|]. split; [exact F2'|]. split; [reflexivity|]. split; [discriminate|]. rewrite OO.
      split; [intros _; split; congruence|]. split; [split; [congruence|]|].
      { intros (_ & X1 & X2 & _). rewrite X1, X2 in Eo. discriminate Eo. }
      split; [intros q _ _; apply AO2|discriminate]. }
  destruct P3 as (s3 & j3 & E3 & F3 & H3 & T0 & T1 & O3 & Q3 & R3).
  match goal with |- exists st j', bind ?x ?f = _ /\ _ =>
    assert (G : bind x f = f (s3, j3)) by (rewrite E3; reflexivity); rewrite G; clear G end. cbv beta iota.
  do 2 eexists. split; [reflexivity|]. split; [exact F3|].
  assert (DAd : on_device j3 Addr = on_device j1 Addr) by (apply on_device_arg; rewrite Q3, Q2 by congruence; reflexivity).
  assert (DPa : on_device j3 Parts = on_device j1 Parts) by (apply on_device_arg; rewrite Q3, Q2 by congruence; reflexivity).
  assert (DEl : on_device j3 Elems = on_device j2 Elems) by (apply on_device_arg; rewrite Q3 by congruence; reflexivity).
  assert (HP : forall r, has j3 r = has j2' r) by (intros r; apply has_eq; exact H3).
  rewrite DAd, DPa, DEl, !HP. split; [exact A1|]. split; [exact PP1|]. split; [exact A2|]. split; [exact O3|].
  unfold has, j2'. cbn [dj_has pos nth].
  assert (SK : s2 && h_kernels h = true <-> on_device j2 Elems <> None /\ h_kernels h = true) by (rewrite andb_true_iff, S2; reflexivity).
  split; [exact SK|]. split; [reflexivity|]. split; [reflexivity|]. split; [reflexivity|]. split.
  - intros Wf. assert (NN : need_ebe h || need_mon h = false) by (rewrite W in Wf; apply orb_false_iff in Wf; tauto).
    rewrite NN, !andb_false_r, (T0 Wf). exact SK.
  - intros Wt. specialize (T1 Wt). specialize (R3 Wt). rewrite <- T1.
    destruct s3.
    2:{ cbn [andb]. split; [discriminate|]. intros (X & _). discriminate X. }
    destruct (R3 eq_refl) as ((ao & X1 & X2) & HO & RC & RN). rewrite HO. cbn [andb].
    assert (EBE : assign_ebe h j3 = has_conf h && k_ebe h).
    { unfold assign_ebe. rewrite X1. destruct (has_conf h).
      - destruct (RC eq_refl) as (ac & Y1 & Y2). rewrite Y1, X2, Y2. reflexivity.
      - rewrite (RN eq_refl). reflexivity. }
    assert (MON : assign_mon h j3 = true <-> on_device j2 Elems <> None /\ k_mon h = true).
    { unfold assign_mon. rewrite X1, Q3 by congruence. rewrite <- S2. destruct s2.
      - destruct (RE eq_refl) as (ae & Y1 & Y2). rewrite Y1, X2, Y2. cbn [andb]. tauto.
      - rewrite (NE2 eq_refl). split; [discriminate|intros (X & _); discriminate X]. }
    rewrite EBE. clear - MON. destruct (need_ebe h), (need_mon h); cbn [orb]; rewrite ?andb_true_iff, ?MON; clear MON;
      (split; [intros X; split; [reflexivity|]; split; intros Y; try discriminate Y; tauto|intros (_ & X1 & X2)]);
      try specialize (X1 eq_refl); try specialize (X2 eq_refl); tauto.
Qed.
