(* Proofs about OpenCL arguments. *)
From Coq Require Import ZArith List Bool Lia.
From Verif Require Import Tac MBuf MBufSpec MBufMem MBufAbs MBufRemap MBufApply MBufReserve MBufInit
  MemPool Buffer BufferSpec BufferProofs BufferReserve BufferNew BufferUser BufferWrite BufferReach BufferProps
  DeviceArg DeviceArgSpec DeviceArgProofs OclArg OclArgSpec.
Import ListNotations.
Local Open Scope Z_scope.

(* the block of the argument *)
Record clok (w : oworld) (m : mem) : Prop := Clok {
  co_pos : 0 < mbase m;
  co_mod : mbase m mod 8 = 0;
  co_size : 8 * wlen m = ca_size (v_arg w);
  co_top : mbase m + ca_size (v_arg w) < 2 ^ 64;
  co_ne : forall b, In b (v_bufs w) -> mbase m <> data_addr (b_h b) }.

Record ainv (w : oworld) : Prop := Ainv {
  ai_bufs : forall b, In b (v_bufs w) -> fine b;
  ai_dev : forall m, ca_dev (v_arg w) = Some m -> clok w m }.

(* the device holds a remapped image *)
Definition image (w : oworld) (A : abs) : Prop :=
  exists m, ca_dev (v_arg w) = Some m /\ repr (mbase m) m A /\ remappable A.

Definition ginv (g : bool) (w : oworld) : Prop := ainv w /\ (g = true -> exists A, image w A).

Lemma start_inv n w : start n w -> ainv w.
Proof.
  intros ((x & hp & (Gh & Gm) & E) & Mn & R). split.
  - intros b Hb. destruct (reachable_inv _ _ (R b Hb)) as (A & I & V & F). exists A. auto.
  - intros m. unfold cl_new_size in E. destruct ((0 <? n) && has_queue x && has_kernel x) eqn:Ec; [|rewrite E; discriminate].
    apply andb_prop in Ec as (Ec & _). apply andb_prop in Ec as (Ec & _). apply Z.ltb_lt in Ec.
    rewrite E. cbn [ca_dev]. unfold cl_buffer. cbv zeta. destruct (Z.eqb_spec (h_malloc hp n) 0) as [M0|M0]; [discriminate|].
    intros Hm. assert (m = device_block hp (h_malloc hp n) n) as -> by congruence.
    destruct (Gm M0) as (G1 & G2). pose proof (Gh n M0) as (G3 & G4).
    unfold device_block. split; cbn [mbase]; rewrite ?E; cbn [ca_size]; auto.
    unfold wlen. cbn [mwords]. rewrite map_length, seq_length.
    pose proof (Z.div_mod n 8). rewrite Z2Nat.id by (apply Z.div_pos; lia). lia.
Qed.

Lemma held_image es w A : usable false es = true -> image w A -> held es w = Some (acontent A).
Proof.
  intros U (m & E & R & _). unfold held. rewrite U, E. cbn [option_map]. f_equal. apply (content_ok _ _ _ R).
Qed.

(* the words of a transfer *)
Lemma put_ok m ws : 0 < Z.of_nat (length ws) <= wlen m -> put_words true (Some m) 0 ws = wrn m (mbase m) ws.
Proof.
  intros H. unfold put_words. fold (wlen m).
  rewrite (proj2 (Z.leb_le 0 0)), (proj2 (Z.ltb_lt 0 _)), (proj2 (Z.leb_le _ (8 * wlen m))), Z.add_0_r by lia. reflexivity.
Qed.

Lemma put_fails d off ws : put_words false d off ws = None.
Proof. destruct d; reflexivity. Qed.

Definition runs (x : ocl) : bool :=
  x_run x && match x_kernel x with NoKernel => false | Plain => true | Debug a => a && x_get_flag x end.

Lemma runs_iff x : runs x = true <-> remaps x.
Proof.
  unfold runs, remaps. destruct (x_run x), (x_kernel x) as [| |[]], (x_get_flag x); cbn [andb];
    (split; [intros H; try discriminate H; auto|intros (H1 & [H|(H & H2)]); (discriminate || reflexivity)]).
Qed.

Lemma run_ok x s m A : base_ok (mbase m) A -> repr s m A -> remappable A ->
  exists m', run_remap x m = Some (runs x, m') /\ mbase m' = mbase m /\ wlen m' = wlen m /\
    (runs x = true -> repr (mbase m') m' A).
Proof.
  intros OkA R F.
  destruct (mb_remap_all _ _ A OkA m R eq_refl) as (t & m2 & E2 & T2 & R2 & (F1 & F2 & F3)).
  assert (t = true) as -> by (apply T2; auto). specialize (R2 eq_refl). rewrite <- F1 in R2.
  unfold run_remap, runs. destruct (x_kernel x) as [| |a].
  - exists m. rewrite andb_false_r. repeat split; try discriminate.
  - destruct (x_run x); cbn [andb]; [|exists m; repeat split; discriminate].
    rewrite E2. cbn [bind]. exists m2. auto.
  - destruct (x_run x); cbn [andb]; [|exists m; repeat split; discriminate].
    destruct a; cbn [andb]; [|exists m; repeat split; discriminate].
    rewrite E2. cbn [bind]. rewrite andb_true_r. exists m2. auto.
Qed.

Lemma has_kernel_run x : remaps x -> has_kernel x = x_node x.
Proof. intros (_ & [E|(E & _)]); unfold has_kernel; rewrite E; apply andb_true_r. Qed.

(* a buffer is written *)
Lemma write_ok x i w b : ainv w -> nth_error (v_bufs w) i = Some b ->
  exists r w', cl_write x i w = Some (r, w') /\ ainv w' /\ v_bufs w' = v_bufs w /\
    ca_size (v_arg w') = ca_size (v_arg w) /\
    (r = true -> ca_buf (v_arg w') = Some i /\ exists A, acontent A = objects b /\ image w' A) /\
    (r = false -> ca_buf (v_arg w') = ca_buf (v_arg w)) /\
    (r = true <-> ready x /\ remaps x /\ x_put_flag x = true /\ x_put x = true /\
       ca_dev (v_arg w) <> None /\ data_size (b_h b) <= ca_size (v_arg w)).
Proof.
  intros W Hb. assert (Ib : In b (v_bufs w)) by (apply nth_error_In with i; exact Hb).
  destruct (fine_addr b (ai_bufs _ W b Ib)) as (P1 & P2 & P3 & P4).
  destruct (ai_bufs _ W b Ib) as (A & I & V & F).
  set (C := ready x /\ remaps x /\ x_put_flag x = true /\ x_put x = true /\
       ca_dev (v_arg w) <> None /\ data_size (b_h b) <= ca_size (v_arg w)).
  assert (NO : forall X, ~ C -> X = Some (false, w) ->
    exists r w', X = Some (r, w') /\ ainv w' /\ v_bufs w' = v_bufs w /\
    ca_size (v_arg w') = ca_size (v_arg w) /\
    (r = true -> ca_buf (v_arg w') = Some i /\ exists A, acontent A = objects b /\ image w' A) /\
    (r = false -> ca_buf (v_arg w') = ca_buf (v_arg w)) /\ (r = true <-> C)).
  { intros X Hn EX. exists false, w. split; [exact EX|]. split; [exact W|]. split; [reflexivity|]. split; [reflexivity|].
    split; [discriminate|]. split; [reflexivity|]. split; [discriminate|]. intros Y. contradiction. }
  unfold cl_write. rewrite Hb. cbn [bind]. cbv zeta. rewrite (proj2 (Z.ltb_lt 0 (data_size _)) P3), andb_true_r.
  destruct (has_queue x && has_kernel x && (data_size (b_h b) <=? ca_size (v_arg w)) && x_put_flag x) eqn:Ec.
  2:{ apply NO; [|reflexivity]. intros ((X1 & X2) & X3 & X4 & X5 & X6 & X7).
      rewrite (has_kernel_run x X3) in Ec. unfold has_queue in Ec.
      rewrite X1, X2, X4, (proj2 (Z.leb_le _ _) X7) in Ec. discriminate Ec. }
  apply andb_prop in Ec as (Ec & E4). apply andb_prop in Ec as (Ec & E3). apply andb_prop in Ec as (E1 & E2).
  apply Z.leb_le in E3.
  assert (Rd : ready x) by (unfold has_queue in E1; apply andb_prop in E1; exact E1).
  unfold buffer_words. rewrite P4. change (0 =? 0) with true. cbv iota.
  destruct (read_words b A I) as (ws & Ew & Ww). rewrite Ew. cbn [bind].
  destruct (x_put x) eqn:Ep; [|rewrite put_fails; apply NO; [intros (_ & _ & _ & Y & _); discriminate Y|reflexivity]].
  destruct (ca_dev (v_arg w)) as [m|] eqn:Ed; [|apply NO; [intros (_ & _ & _ & _ & Y & _); congruence|reflexivity]].
  destruct (ai_dev _ W m Ed) as [D1 D2 D3 D4 D5].
  assert (Ht : tot A <= wlen m) by (rewrite (bi_dsize _ _ I) in E3; lia).
  assert (Lw : Z.of_nat (length ws) = tot A) by (destruct Ww as (L & _); exact L).
  rewrite put_ok by (rewrite Lw; rewrite (bi_dsize _ _ I) in P3; lia).
  destruct (words_written b A m ws I Ww Ht) as (m' & F1 & B1 & W1 & R1). rewrite F1.
  assert (OkA : base_ok (mbase m') A).
  { rewrite B1. split; [lia|]. split; [exact D2|]. rewrite (bi_dsize _ _ I) in E3. lia. }
  destruct (run_ok x _ m' A OkA R1 F) as (m2 & G1 & G2 & G3 & G4). rewrite G1. cbn [bind].
  eexists (runs x), _. split; [reflexivity|]. cbn [v_bufs v_arg ca_size ca_dev ca_buf].
  split.
  { split; cbn [v_bufs v_arg ca_dev]; [apply (ai_bufs _ W)|]. intros m0 Hm0. assert (m0 = m2) as -> by congruence.
    split; cbn [v_bufs v_arg ca_size]; rewrite ?G2, ?G3, ?B1, ?W1; auto. }
  split; [reflexivity|]. split; [reflexivity|]. split; [|split].
  - intros Hr. rewrite Hr. split; [reflexivity|]. exists A. split; [symmetry; apply (content_ok _ _ _ (bi_repr _ _ I))|].
    exists m2. cbn [v_arg ca_dev]. split; [reflexivity|]. split; [apply G4; exact Hr|exact F].
  - intros ->. reflexivity.
  - rewrite runs_iff. unfold C. split; [|tauto]. intros Y. split; [exact Rd|]. split; [exact Y|].
    split; [exact E4|]. split; [reflexivity|]. split; [discriminate|exact E3].
Qed.

(* Buffer_remap of a block that holds an image with another base, and possibly more *)
Lemma remap_loaded b A0 A s m1 : binv b A0 -> mbase m1 = mbase (b_mem b) -> wlen m1 = wlen (b_mem b) ->
  repr s m1 A -> s <> mbase m1 -> 8 * tot A <= data_capacity (b_h b) -> remappable A ->
  exists b', buf_remap (Buffer (b_h b) (b_pool b) m1) = Some (true, b') /\ binv b' A /\ bview b' A.
Proof.
  intros I B1 W1 R1 Hne Hcap F.
  pose proof (bi_facts b A0 I) as (P & Q & T16 & Tw & Cw & Cw' & Sz & Se & Sw).
  pose proof (bi_flags _ _ I) as FL. pose proof (bi_ds _ _ I) as DS.
  unfold buf_remap. cbn [b_h b_pool b_mem]. rewrite fl_remap by assumption.
  rewrite (bi_addr _ _ I). pose proof (re_len _ _ _ R1) as L1.
  assert (16 <= tot A) by (pose proof (ok_bounds A (re_ok _ _ _ R1)); unfold tot; lia).
  assert (Ok1 : base_ok (mbase m1) A).
  { rewrite B1. pose proof (bi_top _ _ I) as T. pose proof (bi_begin _ _ I). pose proof (bi_len _ _ I).
    split; [lia|]. split; [exact Q|]. lia. }
  rewrite (rd_ok m1 _ 0) by lia. cbn [bind]. rewrite (re_0 _ _ _ R1).
  pose proof (re_base _ _ _ R1) as (Pb & _). rewrite B1 in Hne.
  rewrite (eqb_false s 0), (eqb_false _ _ Hne), (eqb_false (mbase (b_mem b)) 0) by lia.
  cbn [negb andb].
  destruct (mb_remap_all s (mbase m1) A Ok1 m1 R1 eq_refl) as (r & m2 & E2 & T2 & R2 & (F1 & F2 & F3)).
  rewrite B1 in E2. rewrite E2. cbn [bind].
  assert (r = true) as -> by (apply T2; auto).
  assert (B2 : mbase m2 = mbase (b_mem b)) by congruence.
  specialize (R2 eq_refl). rewrite <- F1 in R2. pose proof (re_len _ _ _ R2) as L2.
  rewrite <- B2. rewrite (rd_base _ _ (re_h _ _ _ R2)). cbn [bind].
  rewrite (rd_ok m2 (mbase m2 + 8) 1), (rd_ok m2 (mbase m2 + 16) 2) by lia. cbn [bind].
  rewrite (hr_1 _ _ _ (re_h _ _ _ R2)), (hr_2 _ _ _ (re_h _ _ _ R2)).
  destruct (view_ok b m2 A (b_h b) R2) as (V1 & V2 & V3). unfold objects_index_begin in V1.
  rewrite V1. cbn [bind]. rewrite V2. cbn [bind].
  eexists. split; [reflexivity|]. split; [|reflexivity].
  pose proof (bi_begin _ _ I). pose proof (bi_len _ _ I). pose proof (bi_cap _ _ I). pose proof (bi_top _ _ I).
  split; cbn [b_h b_pool b_mem data_addr data_size data_capacity num_objects ds_addr];
    try congruence; try apply I; try lia; try exact R2.
Qed.

(* the argument is read into a buffer *)
Lemma read_ok x j w b A : ainv w -> image w A -> nth_error (v_bufs w) j = Some b ->
  exists r w', cl_read x j w = Some (r, w') /\ ainv w' /\ ca_dev (v_arg w') = ca_dev (v_arg w) /\
    ca_size (v_arg w') = ca_size (v_arg w) /\
    (r = false -> w' = w) /\
    (r = true -> ca_buf (v_arg w') = Some j /\
       exists b', v_bufs w' = replace (v_bufs w) j b' /\ objects b' = acontent A) /\
    (r = true <-> ready x /\ x_get x = true /\ ca_size (v_arg w) <= data_capacity (b_h b)).
Proof.
  intros W IM Hb. assert (Ib : In b (v_bufs w)) by (apply nth_error_In with j; exact Hb).
  destruct (fine_addr b (ai_bufs _ W b Ib)) as (P1 & P2 & P3 & P4).
  destruct (ai_bufs _ W b Ib) as (A0 & I0 & V0 & F0).
  destruct IM as (m & Ed & R & F). destruct (ai_dev _ W m Ed) as [D1 D2 D3 D4 D5].
  pose proof (re_len _ _ _ R) as Lm. pose proof (ok_bounds A (re_ok _ _ _ R)) as OB.
  assert (Ps : 0 < ca_size (v_arg w)) by (unfold tot in *; lia).
  set (C := ready x /\ x_get x = true /\ ca_size (v_arg w) <= data_capacity (b_h b)).
  assert (NO : forall X, ~ C -> X = Some (false, w) ->
    exists r w', X = Some (r, w') /\ ainv w' /\ ca_dev (v_arg w') = ca_dev (v_arg w) /\
    ca_size (v_arg w') = ca_size (v_arg w) /\
    (r = false -> w' = w) /\
    (r = true -> ca_buf (v_arg w') = Some j /\
       exists b', v_bufs w' = replace (v_bufs w) j b' /\ objects b' = acontent A) /\ (r = true <-> C)).
  { intros X Hn EX. exists false, w. split; [exact EX|]. split; [exact W|]. split; [reflexivity|]. split; [reflexivity|].
    split; [auto|]. split; [discriminate|]. split; [discriminate|]. intros Y. contradiction. }
  unfold cl_read. rewrite Hb. cbn [bind]. cbv zeta. rewrite (proj2 (Z.ltb_lt 0 (ca_size _)) Ps), andb_true_r.
  destruct (has_queue x && (ca_size (v_arg w) <=? data_capacity (b_h b))) eqn:Ec.
  2:{ apply NO; [|reflexivity]. intros ((X1 & X2) & X3 & X4). unfold has_queue in Ec.
      rewrite X1, X2, (proj2 (Z.leb_le _ _) X4) in Ec. discriminate Ec. }
  apply andb_prop in Ec as (E1 & E3). apply Z.leb_le in E3.
  assert (Rd : ready x) by (unfold has_queue in E1; apply andb_prop in E1; exact E1).
  assert (GW : get_words (x_get x) (ca_dev (v_arg w)) (ca_size (v_arg w)) =
      if x_get x then rdn m (mbase m) (Z.to_nat (ca_size (v_arg w) / 8)) else None).
  { unfold get_words. rewrite Ed. fold (wlen m).
    rewrite (proj2 (Z.ltb_lt 0 (ca_size _)) Ps), (proj2 (Z.leb_le (ca_size _) (8 * wlen m))), !andb_true_r by lia. reflexivity. }
  rewrite GW. clear GW.
  destruct (x_get x) eqn:Eg; [|apply NO; [intros (_ & Y & _); discriminate Y|reflexivity]].
  assert (E8 : ca_size (v_arg w) / 8 = wlen m) by (rewrite <- D3, Z.mul_comm, Z.div_mul; lia). rewrite E8.
  destruct (rdn_ok (Z.to_nat (wlen m)) m (mbase m) 0) as (ws & Ew & Lw & Gw); [lia|lia|intros _; lia|].
  rewrite Ew.
  pose proof (bi_cap _ _ I0) as BC. pose proof (bi_len _ _ I0) as BL. pose proof (bi_facts b A0 I0) as BF.
  assert (Lb : wlen m <= wlen (b_mem b)).
  { destruct BF as (_ & _ & _ & _ & Cw & Cw' & Sz & Se & Sw). lia. }
  destruct (wrn_ok ws (b_mem b) (data_addr (b_h b)) 0) as (m1 & E & Pm); [rewrite P2; lia|lia|intros _; lia|].
  rewrite E. cbn [bind].
  pose proof (mput_base _ _ _ _ _ Pm) as B1. pose proof (mput_len _ _ _ _ _ Pm) as W1.
  assert (R1 : repr (mbase m) m1 A).
  { apply (repr_frame _ m); [exact R|lia|]. intros k Hk. rewrite (mput_in _ _ _ _ _ _ Pm) by lia.
    rewrite Z.sub_0_r, Gw by lia. reflexivity. }
  destruct (remap_loaded b A0 A (mbase m) m1 I0 B1 W1 R1) as (b' & L2 & I' & V').
  { rewrite B1, <- P2. auto. } { lia. } { exact F. }
  rewrite L2. cbn [bind].
  assert (Ea : data_addr (b_h b') = data_addr (b_h b)).
  { rewrite (bi_addr _ _ I'), P2, <- (bi_begin _ _ I'), <- (bi_begin _ _ I0), (remap_pool _ _ _ L2). reflexivity. }
  eexists true, _. split; [reflexivity|]. cbn [v_bufs v_arg ca_dev ca_size ca_buf].
  split; [|split; [exact (eq_sym (eq_sym eq_refl))|split; [reflexivity|split; [discriminate|split]]]].
  - split; cbn [v_bufs v_arg ca_dev].
    + intros b0 H0. apply replace_in in H0 as [->|H0]; [exists A; auto|apply (ai_bufs _ W _ H0)].
    + intros m0 Hm0. assert (m0 = m) as -> by congruence. split; cbn [v_arg v_bufs ca_size]; auto.
      intros b0 H0. apply replace_in in H0 as [->|H0]; [rewrite Ea; auto|auto].
  - intros _. split; [reflexivity|]. exists b'. split; [reflexivity|]. apply (content_ok _ _ _ (bi_repr _ _ I')).
  - unfold C. split; [|reflexivity]. intros _. split; [exact Rd|]. split; [reflexivity|exact E3].
Qed.

(* a block seen as a buffer: device_writes_ok without the world *)
Lemma block_writes w m A i k v t cells old m' : clok w m -> repr (mbase m) m A -> remappable A ->
  nth_error (content m) i = Some (t, cells) -> nth_error cells k = Some (Raw old) -> 0 <= v < 2 ^ 64 ->
  wr m (obj_begin m (Z.of_nat i) + 8 * Z.of_nat k) v = Some m' ->
  exists A' t' cells', clok w m' /\ repr (mbase m') m' A' /\ remappable A' /\
    nth_error (acontent A) i = Some (t', cells') /\
    acontent A' = replace (acontent A) i (t', replace cells' k (Raw v)).
Proof.
  intros [D1 D2 D3 D4 D5] R F Ho Hk Hv Hw.
  assert (DV : devok (World (v_bufs w) [] (Arg None None None 0 (ca_size (v_arg w)) true (Some m))) m) by (split; auto).
  destruct (as_buffer_inv _ m A DV R) as (I & V).
  assert (WR : writes (as_buffer m A) i k v (Buffer (b_h (as_buffer m A)) (b_pool (as_buffer m A)) m'))
    by exact (w_word (as_buffer m A) i k v t cells old m' Ho Hk Hv Hw).
  destruct (write_inv _ _ _ _ _ _ I V WR) as (A' & I' & V' & (t' & c' & C1 & C2) & RM & _).
  assert (Em : mbase m' = mbase m) by (symmetry; exact (bi_addr _ _ I')).
  assert (El : wlen m' = wlen m).
  { pose proof (bi_len _ _ I') as X. pose proof (bi_len _ _ I) as Y. cbn [b_mem b_pool as_buffer] in X, Y. congruence. }
  exists A', t', c'. split; [split; rewrite ?Em, ?El; auto|]. split; [exact (bi_repr _ _ I')|]. split; [auto|]. split; [exact C1|exact C2].
Qed.

Lemma nth_host w i b : nth_error (v_bufs w) i = Some b -> nth_error (hosts w) i = Some (objects b).
Proof. intros H. unfold hosts. rewrite nth_error_map, H. reflexivity. Qed.

(* a word in the middle of a block is one that can be updated *)
Lemma update_word x w i k v off old A r w' : ainv w -> image w A -> device_word w i k off old ->
  cl_update x [(off, Some [v])] w = (r, w') ->
  (r = true <-> ready x /\ x_put x = true) /\ (r = false -> w' = w) /\ (r = true -> kernel_writes w off v w').
Proof.
  intros W (m & Ed & R & F) (m0 & t & cells & Ed0 & Ho & Hk & Eo) E. assert (m0 = m) as -> by congruence.
  destruct (ai_dev _ W m Ed) as [D1 D2 D3 D4 D5].
  assert (Hw : exists j, off = 8 * j /\ 0 <= j < wlen m).
  { assert (DV : devok (World (v_bufs w) [] (Arg None None None 0 (ca_size (v_arg w)) true (Some m))) m) by (split; auto).
    destruct (as_buffer_inv _ m A DV R) as (I & V).
    pose proof (re_ok _ _ _ R) as OK. rewrite (content_ok _ _ _ R) in Ho.
    destruct (content_nth A i t cells OK Ho) as (s & n & E0 & -> & Hs & Hn & He & Hl).
    assert (Lk : Z.of_nat k < n).
    { assert (k < length (map (rel_cell s) (slice (a_cells A) s n)))%nat by (apply nth_error_Some; congruence).
      unfold zlen in Hl. lia. }
    pose proof (obj_ok _ _ _ R _ _ _ _ E0) as (Eb & _). pose proof (re_len _ _ _ R) as L.
    pose proof (layout A OK) as (L3 & L4 & L5 & L6 & Lt & N3 & N4 & N5 & N6).
    pose proof (ok_bounds A OK) as (Bc & Bo & Bd & Bg).
    exists (10 + Z.of_nat (Z.to_nat (s + Z.of_nat k))). lia. }
  destruct Hw as (j & Ej & Hj).
  unfold cl_update in E. pose proof (re_len _ _ _ R) as Lm.
  rewrite (proj2 (Z.ltb_lt 0 (ca_size _))) in E by lia. cbn [andb] in E.
  destruct (has_queue x) eqn:Eq.
  2:{ injection E as <- <-. split; [|split; [reflexivity|discriminate]]. split; [discriminate|]. intros ((X1 & X2) & _).
      unfold has_queue in Eq. rewrite X1, X2 in Eq. discriminate Eq. }
  unfold has_queue in Eq. apply andb_prop in Eq.
  unfold cl_regions in E. cbv zeta in E. change (8 * Z.of_nat (length [v])) with 8 in E.
  rewrite Z.mod_small in E by lia. rewrite (proj2 (Z.ltb_ge (ca_size _) (off + 8))) in E by lia.
  change (8 =? 0) with false in E. cbn [orb] in E.
  rewrite Ed in E. unfold put_words in E. fold (wlen m) in E.
  change (8 * Z.of_nat (length [v])) with 8 in E. change (0 <? Z.of_nat (length [v])) with true in E.
  rewrite (proj2 (Z.leb_le 0 off)), (proj2 (Z.leb_le (off + 8) _)) , !andb_true_r in E by lia.
  destruct (x_put x).
  2:{ injection E as <- <-. split; [|split; [reflexivity|discriminate]]. split; [discriminate|]. intros (_ & X). discriminate X. }
  cbn [wrn] in E. assert (Em : wr m (mbase m + off) v = Some (mupd m j v)) by (apply wr_ok; lia).
  rewrite Em in E. cbn [bind] in E. injection E as <- <-.
  split; [split; [intros _; split; [exact Eq|reflexivity]|reflexivity]|]. split; [discriminate|]. intros _.
  exists m, (mupd m j v). split; [exact Ed|]. split; [exact Em|reflexivity].
Qed.

Lemma usable_app g es es' : usable g (es ++ es') = usable (usable g es) es'.
Proof. revert g. induction es as [|[] es IH]; intros g0; cbn [usable app]; auto. Qed.

Lemma connected_app p es es' : connected p (es ++ es') = connected (connected p es) es'.
Proof. revert p. induction es as [|e es IH]; intros p; cbn [app]; [reflexivity|]. destruct e as [? []|? []| | |]; cbn [connected]; auto. Qed.

Lemma kernel_ok w i k v off old w' A : ainv w -> image w A -> device_word w i k off old -> 0 <= v < 2 ^ 64 ->
  kernel_writes w off v w' ->
  ainv w' /\ v_bufs w' = v_bufs w /\ ca_size (v_arg w') = ca_size (v_arg w) /\ ca_buf (v_arg w') = ca_buf (v_arg w) /\
  exists A' t cells, image w' A' /\ nth_error (acontent A) i = Some (t, cells) /\
    acontent A' = replace (acontent A) i (t, replace cells k (Raw v)).
Proof.
  intros W (m & Ed & R & F) (m0 & t & cells & Ed0 & Ho & Hk & Eo) Hv (m1 & m' & Ed1 & Hw & ->).
  assert (m0 = m) as -> by congruence. assert (m1 = m) as -> by congruence.
  rewrite Eo in Hw. replace (mbase m + (obj_begin m (Z.of_nat i) + 8 * Z.of_nat k - mbase m)) with
    (obj_begin m (Z.of_nat i) + 8 * Z.of_nat k) in Hw by lia.
  destruct (block_writes w m A i k v t cells old m' (ai_dev _ W m Ed) R F Ho Hk Hv Hw) as (A' & t' & c' & C1 & C2 & C3 & C4 & C5).
  cbn [v_bufs v_arg ca_size ca_buf]. split.
  { split; cbn [v_bufs v_arg ca_dev]; [apply (ai_bufs _ W)|]. intros m2 Hm2. assert (m2 = m') as -> by congruence.
    destruct C1 as [D1 D2 D3 D4 D5]. split; auto. }
  split; [reflexivity|]. split; [reflexivity|]. split; [reflexivity|].
  exists A', t', c'. split; [|split; assumption]. exists m'. auto.
Qed.

Lemma step_ok es w e w' : ginv (usable false es) w -> step (usable false es) w e w' ->
  ginv (usable false (es ++ [e])) w' /\ effect1 (hosts w, held es w) e (hosts w', held (es ++ [e]) w') /\
  ca_size (v_arg w') = ca_size (v_arg w) /\ length (v_bufs w') = length (v_bufs w) /\
  ca_buf (v_arg w') = connected (ca_buf (v_arg w)) [e].
Proof.
  intros (W & U) S. rewrite usable_app.
  remember (usable false es) as g eqn:Eg.
  destruct S as [g x i w r w' Es|x j w r w' Er|w i k v off old w' Dw Hv Kw|x w i k v off old r w' Dw Hv Eu|g w j i k v b b' Hb WR];
    cbn [usable].
  - destruct (nth_error (v_bufs w) i) as [b|] eqn:Eb; [|unfold cl_write in Es; rewrite Eb in Es; discriminate Es].
    destruct (write_ok x i w b W Eb) as (r' & w1 & E' & W' & B' & Z' & H1 & H2 & _).
    rewrite Es in E'. assert (r' = r /\ w1 = w') as (-> & ->) by (split; congruence).
    assert (Eh : hosts w' = hosts w) by (unfold hosts; rewrite B'; reflexivity).
    destruct r.
    + destruct (H1 eq_refl) as (Hc & A & EA & IM). split; [split; [exact W'|intros _; exists A; exact IM]|].
      rewrite (held_image _ w' A), EA, Eh by (exact IM || (rewrite usable_app; reflexivity)).
      split; [apply e_wrote; now apply nth_host|]. split; [exact Z'|]. rewrite B'. split; [reflexivity|]. exact Hc.
    + split; [split; [exact W'|discriminate]|]. unfold held at 2. rewrite usable_app. cbn [usable]. rewrite Eh.
      split; [apply e_not_written|]. split; [exact Z'|]. rewrite B'. split; [reflexivity|]. exact (H2 eq_refl).
  - destruct (U eq_refl) as (A & IM).
    destruct (nth_error (v_bufs w) j) as [b|] eqn:Eb; [|unfold cl_read in Er; rewrite Eb in Er; discriminate Er].
    destruct (read_ok x j w b A W IM Eb) as (r' & w1 & E' & W' & D' & Z' & H1 & H2 & _).
    rewrite Er in E'. assert (r' = r /\ w1 = w') as (-> & ->) by (split; congruence).
    assert (IM' : image w' A) by (destruct IM as (m & X); exists m; rewrite D'; exact X).
    split; [split; [exact W'|intros _; exists A; exact IM']|].
    rewrite (held_image es w A) by (exact IM || (symmetry; exact Eg)).
    rewrite (held_image _ w' A) by (exact IM' || (rewrite usable_app, <- Eg; reflexivity)).
    destruct r.
    + destruct (H2 eq_refl) as (Hc & b' & X2 & X3). unfold hosts at 2. rewrite X2, replace_map, X3. fold (hosts w).
      split; [apply e_read; unfold hosts; rewrite map_length; apply nth_error_Some; congruence|].
      split; [exact Z'|]. split; [apply replace_len|exact Hc].
    + rewrite (H1 eq_refl). split; [apply e_not_read|]. split; [reflexivity|]. split; reflexivity.
  - destruct (U eq_refl) as (A & IM).
    destruct (kernel_ok w i k v off old w' A W IM Dw Hv Kw) as (W' & B & Z' & Q & A' & t & cells & IM' & H1 & H2).
    split; [split; [exact W'|intros _; exists A'; exact IM']|].
    rewrite (held_image es w A) by (exact IM || (symmetry; exact Eg)).
    rewrite (held_image _ w' A') by (exact IM' || (rewrite usable_app, <- Eg; reflexivity)).
    unfold hosts at 2. rewrite B. fold (hosts w). rewrite H2.
    split; [now apply e_kernel|]. split; [exact Z'|]. split; [reflexivity|exact Q].
  - destruct (U eq_refl) as (A & IM).
    destruct (update_word x w i k v off old A r w' W IM Dw Eu) as (_ & N & K). destruct r.
    + specialize (K eq_refl).
      destruct (kernel_ok w i k v off old w' A W IM Dw Hv K) as (W' & B & Z' & Q & A' & t & cells & IM' & H1 & H2).
      split; [split; [exact W'|intros _; exists A'; exact IM']|].
      rewrite (held_image es w A) by (exact IM || (symmetry; exact Eg)).
      rewrite (held_image _ w' A') by (exact IM' || (rewrite usable_app, <- Eg; reflexivity)).
      unfold hosts at 2. rewrite B. fold (hosts w). rewrite H2.
      split; [now apply e_update|]. split; [exact Z'|]. split; [reflexivity|exact Q].
    + rewrite (N eq_refl). split; [split; [exact W|intros _; exists A; exact IM]|].
      rewrite (held_image es w A) by (exact IM || (symmetry; exact Eg)).
      rewrite (held_image _ w A) by (exact IM || (rewrite usable_app, <- Eg; reflexivity)).
      split; [apply e_not_updated|]. split; [reflexivity|]. split; reflexivity.
  - pose proof (nth_error_In _ _ Hb) as Ib. destruct (ai_bufs _ W b Ib) as (A & I & V & F).
    destruct (write_inv _ _ _ _ _ _ I V WR) as (A' & I' & V' & (t' & c' & C1 & C2) & RM & _).
    assert (Ea : data_addr (b_h b') = data_addr (b_h b)) by (inversion WR; reflexivity).
    cbn [v_arg v_bufs]. split.
    { split; [|exact U]. split; cbn [v_bufs v_arg].
      - intros b0 H0. apply replace_in in H0 as [->|H0]; [exists A'; auto|apply (ai_bufs _ W _ H0)].
      - intros m Hm. destruct (ai_dev _ W m Hm) as [D1 D2 D3 D4 D5]. split; cbn [v_bufs v_arg]; auto.
        intros b0 H0. apply replace_in in H0 as [->|H0]; [rewrite Ea; auto|auto]. }
    assert (Eh : held (es ++ [HostSet j i k v]) (OW (replace (v_bufs w) j b') (v_arg w)) = held es w).
    { unfold held. rewrite usable_app. reflexivity. }
    rewrite Eh. split; [|split; [reflexivity|split; [apply replace_len|reflexivity]]].
    unfold hosts at 2. cbn [v_bufs]. rewrite replace_map. fold (hosts w).
    replace (objects b') with (replace (acontent A) i (t', replace c' k (Raw v)))
      by (rewrite <- C2; symmetry; apply (content_ok _ _ _ (bi_repr _ _ I'))).
    apply e_host; [|exact C1]. etransitivity; [exact (nth_host w j b Hb)|]. f_equal. apply (content_ok _ _ _ (bi_repr _ _ I)).
Qed.

Lemma steps_ok w es w' : ginv false w -> steps w es w' ->
  ginv (usable false es) w' /\ effects1 (hosts w, None) es (hosts w', held es w') /\
  ca_size (v_arg w') = ca_size (v_arg w) /\ length (v_bufs w') = length (v_bufs w) /\
  ca_buf (v_arg w') = connected (ca_buf (v_arg w)) es.
Proof.
  intros W S. induction S as [w|w es w1 e w2 S IH St]; [split; [exact W|split; [constructor|repeat split]]|].
  destruct (IH W) as (W1 & E1 & Z1 & L1 & C1). destruct (step_ok _ _ _ _ W1 St) as (W2 & E2 & Z2 & L2 & C2).
  split; [exact W2|]. split; [exact (ee_snoc _ _ _ _ _ E1 E2)|]. split; [congruence|]. split; [congruence|].
  rewrite connected_app, <- C1. exact C2.
Qed.

Lemma start_ginv n w : start n w -> ginv false w.
Proof. intros H. split; [exact (start_inv n w H)|discriminate]. Qed.

Lemma overlay_len ws k vs : (k + length vs <= length ws)%nat -> length (overlay ws k vs) = length ws.
Proof. intros H. unfold overlay. rewrite !app_length, firstn_length, skipn_length. lia. Qed.

Lemma wrn_overlay vs : forall m k, (k + length vs <= length (mwords m))%nat ->
  wrn m (mbase m + 8 * Z.of_nat k) vs = Some (Mem (mbase m) (overlay (mwords m) k vs)).
Proof.
  intros m k H.
  destruct (wrn_ok vs m (mbase m + 8 * Z.of_nat k) (Z.of_nat k)) as (m' & E & Pm); [lia|lia|intros _; unfold wlen; lia|].
  rewrite E. f_equal. destruct m' as [a' ws'].
  pose proof (mput_base _ _ _ _ _ Pm) as B. cbn [mbase] in B. rewrite B. f_equal.
  pose proof (mput_len _ _ _ _ _ Pm) as L. unfold wlen in L. cbn [mwords] in L.
  apply (nth_ext _ _ 0 0); [rewrite overlay_len by exact H; lia|]. intros j Hj.
  assert (Ej : nth j ws' 0 = word (Mem a' ws') (Z.of_nat j)) by (unfold word; cbn [mwords]; rewrite Nat2Z.id; reflexivity).
  rewrite Ej. unfold overlay.
  destruct (Nat.lt_ge_cases j k) as [Lk|Lk]; [|destruct (Nat.lt_ge_cases j (k + length vs)) as [Lv|Lv]].
  - rewrite (mput_out _ _ _ _ _ _ Pm) by lia. unfold word. rewrite Nat2Z.id.
    rewrite app_nth1 by (rewrite firstn_length; lia). clear - Lk. revert k Lk. generalize (mwords m).
    intros l k. revert l j. induction k as [|k IH]; intros l j Lk; [lia|]. destruct l, j; cbn [firstn nth]; auto. apply IH. lia.
  - rewrite (mput_in _ _ _ _ _ _ Pm) by lia. rewrite app_nth2 by (rewrite firstn_length; lia).
    rewrite app_nth1 by (rewrite firstn_length; lia). rewrite firstn_length, Nat.min_l by lia. f_equal. lia.
  - rewrite (mput_out _ _ _ _ _ _ Pm) by lia. unfold word. rewrite Nat2Z.id.
    rewrite app_nth2 by (rewrite firstn_length; lia). rewrite firstn_length, Nat.min_l by lia.
    rewrite app_nth2 by lia. rewrite <- (firstn_skipn (k + length vs) (mwords m)) at 1.
    rewrite app_nth2 by (rewrite firstn_length; lia). rewrite firstn_length, Nat.min_l by lia. f_equal. lia.
Qed.

(* the regions of an update, one after the other *)
Lemma regions_ok x : forall l w m, ca_dev (v_arg w) = Some m -> 8 * wlen m = ca_size (v_arg w) -> ca_size (v_arg w) < 2 ^ 64 ->
  Forall region l ->
  exists l1 l2 r w', l = l1 ++ l2 /\ cl_regions x l w = (r, w') /\ Forall (fits (ca_size (v_arg w))) l1 /\
    (x_put x = false -> l1 = []) /\
    (r = true <-> l2 = []) /\
    (x_put x = true -> forall p l3, l2 = p :: l3 -> ~ fits (ca_size (v_arg w)) p) /\
    w' = OW (v_bufs w) (CA (Some (Mem (mbase m) (written (mwords m) l1))) (ca_size (v_arg w)) (ca_buf (v_arg w))).
Proof.
  induction l as [|(off, ws) l IH]; intros w m Ed Es Et Hl.
  { exists [], [], true, w. repeat split; auto. { discriminate. } destruct w as [bs [d n c]], m. cbn in *. subst. reflexivity. }
  pose proof (Forall_inv Hl) as (H1 & H2 & H3). pose proof (Forall_inv_tail Hl) as Hl'. cbn [fst snd] in *.
  assert (Same : w = OW (v_bufs w) (CA (Some (Mem (mbase m) (written (mwords m) []))) (ca_size (v_arg w)) (ca_buf (v_arg w)))).
  { destruct w as [bs [d n c]], m. cbn in *. subst. reflexivity. }
  assert (STOP : forall X, (~ fits (ca_size (v_arg w)) (off, ws) \/ x_put x = false) -> X = (false, w) ->
    exists l1 l2 r w', (off, ws) :: l = l1 ++ l2 /\ X = (r, w') /\ Forall (fits (ca_size (v_arg w))) l1 /\
    (x_put x = false -> l1 = []) /\
    (r = true <-> l2 = []) /\
    (x_put x = true -> forall p l3, l2 = p :: l3 -> ~ fits (ca_size (v_arg w)) p) /\
    w' = OW (v_bufs w) (CA (Some (Mem (mbase m) (written (mwords m) l1))) (ca_size (v_arg w)) (ca_buf (v_arg w)))).
  { intros X Hn ->. exists [], ((off, ws) :: l), false, w. split; [reflexivity|]. split; [reflexivity|]. split; [constructor|].
    split; [reflexivity|]. split; [split; discriminate|]. split; [|exact Same].
    intros Hp p l3 Hq. injection Hq as <- _. destruct Hn; congruence. }
  cbn [cl_regions]. destruct ws as [vs|]; [|apply STOP; [left; intros (vs & Y & _); discriminate Y|reflexivity]].
  specialize (H3 vs eq_refl). cbv zeta.
  destruct (Z.eqb_spec (8 * Z.of_nat (length vs)) 0) as [E0|E0].
  { cbn [orb]. apply STOP; [|reflexivity]. left. intros (vs' & Y1 & Y2 & _). cbn [snd] in Y1.
    assert (vs' = vs) as -> by congruence. destruct vs; [congruence|cbn [length] in E0; lia]. }
  cbn [orb].
  destruct (Z.ltb_spec (ca_size (v_arg w)) ((off + 8 * Z.of_nat (length vs)) mod 2 ^ 64)) as [Lt|Ge].
  { apply STOP; [|reflexivity]. left. intros (vs' & Y1 & Y2 & Y3). cbn [fst snd] in Y1, Y3. assert (vs' = vs) as -> by congruence.
    rewrite Z.mod_small in Lt by lia. lia. }
  rewrite Ed. unfold put_words. fold (wlen m). rewrite (proj2 (Z.leb_le 0 off)), (proj2 (Z.ltb_lt 0 (Z.of_nat _))) by lia.
  rewrite !andb_true_r.
  destruct (x_put x) eqn:Ep; cbn [andb]; [|apply STOP; [right; reflexivity|reflexivity]].
  destruct (Z.leb_spec (off + 8 * Z.of_nat (length vs)) (8 * wlen m)) as [Le|Gt].
  2:{ apply STOP; [|reflexivity]. left. intros (vs' & Y1 & Y2 & Y3). cbn [fst snd] in Y1, Y3. assert (vs' = vs) as -> by congruence. lia. }
  assert (Ek : off = 8 * Z.of_nat (Z.to_nat (off / 8))).
  { pose proof (Z.div_mod off 8 ltac:(lia)). rewrite Z2Nat.id by (apply Z.div_pos; lia). lia. }
  set (k := Z.to_nat (off / 8)) in *. replace (mbase m + off) with (mbase m + 8 * Z.of_nat k) by lia. rewrite wrn_overlay by (unfold wlen in *; lia).
  destruct (IH (OW (v_bufs w) (CA (Some (Mem (mbase m) (overlay (mwords m) k vs))) (ca_size (v_arg w)) (ca_buf (v_arg w))))
      (Mem (mbase m) (overlay (mwords m) k vs)) eq_refl) as (l1 & l2 & r & w' & G1 & G2 & G3 & G4 & G5 & G6 & G7).
  { unfold wlen in *. cbn [mwords v_arg ca_size]. rewrite overlay_len by lia. exact Es. } { exact Et. } { exact Hl'. }
  exists ((off, Some vs) :: l1), l2, r, w'. split; [rewrite G1; reflexivity|]. split; [exact G2|].
  split; [constructor; [|exact G3]|].
  { exists vs. cbn [fst snd]. split; [reflexivity|]. split; [intros ->; cbn [length] in E0; lia|lia]. }
  split; [discriminate|]. split; [exact G5|]. split; [exact G6|]. exact G7.
Qed.
