(* C74: OpenCL arguments hold the objects of the buffer that was written, and give them back. *)
From Coq Require Import ZArith List Bool Lia.
From Verif Require Import MBuf MBufSpec MBufMem MBufAbs MBufRemap MBufApply MemPool Buffer BufferSpec BufferProofs BufferNew BufferUser BufferReach BufferExample
  DeviceArg DeviceArgSpec DeviceArgProofs OclArg OclArgSpec OclArgProofs.
Import ListNotations.
Local Open Scope Z_scope.

(* Whatever is written, read, updated and set, in any order and with any failures: the objects of the
   buffers and those on the device are the ones the events say. *)
Theorem C74_history n w es w' : start n w -> steps w es w' ->
  effects1 (hosts w, None) es (hosts w', held es w').
Proof. intros S H. exact (proj1 (proj2 (steps_ok _ _ _ (start_ginv _ _ S) H))). Qed.

(* transfers in a world that was reached are defined: no access outside of a block *)
Theorem C74_defined n w es w' x i : start n w -> steps w es w' -> (i < length (hosts w))%nat ->
  (exists r w2, cl_write x i w' = Some (r, w2)) /\
  (usable false es = true -> exists r w2, cl_read x i w' = Some (r, w2)).
Proof.
  intros S H L. destruct (steps_ok _ _ _ (start_ginv _ _ S) H) as ((W & U) & _ & _ & Len & _).
  unfold hosts in L. rewrite map_length in L.
  destruct (nth_error (v_bufs w') i) as [b|] eqn:Eb; [|apply nth_error_None in Eb; lia].
  split.
  - destruct (write_ok x i w' b W Eb) as (r & w2 & E & _). eauto.
  - intros Hu. destruct (U Hu) as (A & IM). destruct (read_ok x i w' b A W IM Eb) as (r & w2 & E & _). eauto.
Qed.

(* writing succeeds exactly when a node is selected, its remapping kernel runs and reports success,
   the commands succeed, the argument has memory and the buffer fits *)
Theorem C74_write_iff n w es w' x i b r w2 : start n w -> steps w es w' ->
  nth_error (v_bufs w') i = Some b -> cl_write x i w' = Some (r, w2) ->
  (r = true <-> ready x /\ remaps x /\ x_put_flag x = true /\ x_put x = true /\
     ca_dev (v_arg w') <> None /\ data_size (b_h b) <= ca_size (v_arg w')).
Proof.
  intros S H Hb E. destruct (steps_ok _ _ _ (start_ginv _ _ S) H) as ((W & U) & _).
  destruct (write_ok x i w' b W Hb) as (r' & w3 & E' & _ & _ & _ & _ & _ & T).
  rewrite E in E'. assert (r' = r) as -> by congruence. exact T.
Qed.

(* reading after a successful write succeeds exactly when a node is selected, the command succeeds and
   the whole argument fits into the buffer *)
Theorem C74_read_iff n w es w' x j b r w2 : start n w -> steps w es w' -> usable false es = true ->
  nth_error (v_bufs w') j = Some b -> cl_read x j w' = Some (r, w2) ->
  (r = true <-> ready x /\ x_get x = true /\ ca_size (v_arg w') <= data_capacity (b_h b)).
Proof.
  intros S H Hu Hb E. destruct (steps_ok _ _ _ (start_ginv _ _ S) H) as ((W & U) & _). destruct (U Hu) as (A & IM).
  destruct (read_ok x j w' b A W IM Hb) as (r' & w3 & E' & _ & _ & _ & _ & _ & T).
  rewrite E in E'. assert (r' = r) as -> by congruence. exact T.
Qed.

(* the argument refers to the buffer of the last successful transfer, and its size never changes *)
Theorem C74_refers n w es w' : start n w -> steps w es w' ->
  ca_buf (v_arg w') = connected None es /\ ca_size (v_arg w') = ca_size (v_arg w).
Proof.
  intros S H. destruct (steps_ok _ _ _ (start_ginv _ _ S) H) as (_ & _ & Z & _ & C). split; [|exact Z].
  rewrite C. destruct S as ((x & hp & _ & E) & _). rewrite E. unfold cl_new_size. destruct (_ && _); reflexivity.
Qed.

(* the memory of an argument: as many bytes as were asked for, when a node with a remapping kernel is
   selected and the memory is there *)
Theorem C74_size x hp n : let a := cl_new_size x hp n in
  (ca_size a = n <-> n = 0 \/ (0 < n /\ ready x /\ x_kernel x <> NoKernel)) /\ (n <= 0 -> ca_size a = 0) /\
  (ca_dev a <> None <-> 0 < n /\ ready x /\ x_kernel x <> NoKernel /\ h_malloc hp n <> 0) /\
  ca_buf a = None.
Proof.
  intros a. unfold a, cl_new_size.
  assert (Q : (0 <? n) && has_queue x && has_kernel x = true <-> 0 < n /\ ready x /\ x_kernel x <> NoKernel).
  { unfold has_queue, has_kernel, ready. destruct (Z.ltb_spec 0 n), (x_ctx x), (x_node x), (x_kernel x); cbn [andb];
      (split; [intros Y; try discriminate Y; repeat split; auto; discriminate|intros (Y1 & (Y2 & Y3) & Y4); (lia || discriminate || congruence || reflexivity)]). }
  destruct ((0 <? n) && has_queue x && has_kernel x); cbn [cl_new ca_size ca_dev ca_buf].
  - pose proof (proj1 Q eq_refl) as (Q1 & Q2 & Q3). split; [tauto|]. split; [lia|]. split; [|reflexivity].
    unfold cl_buffer. cbv zeta. destruct (Z.eqb_spec (h_malloc hp n) 0) as [E|E].
    + split; [congruence|]. tauto.
    + split; [tauto|]. discriminate.
  - assert (Q' : ~ (0 < n /\ ready x /\ x_kernel x <> NoKernel)) by (intros Y; apply Q in Y; discriminate Y).
    split; [split; [intros <-; auto|intros [->|Y]; [reflexivity|tauto]]|]. split; [reflexivity|]. split; [|reflexivity]. tauto.
Qed.

(* an argument made from a buffer says that it is connected to it exactly when the transfer succeeded,
   and then it holds the objects of the buffer *)
Theorem C74_construct x hp bs i b : (forall b', In b' bs -> reachable full_arrays b') -> nth_error bs i = Some b ->
  memory_ok hp bs (data_size (b_h b)) ->
  exists w, cl_new_buffer x hp bs i = Some w /\ v_bufs w = bs /\
    (ca_buf (v_arg w) = Some i \/ ca_buf (v_arg w) = None) /\
    (ca_buf (v_arg w) = Some i <-> ready x /\ remaps x /\ x_put_flag x = true /\ x_put x = true /\
       h_malloc hp (data_size (b_h b)) <> 0) /\
    (ca_buf (v_arg w) = Some i -> option_map content (ca_dev (v_arg w)) = Some (objects b) /\
       ca_size (v_arg w) = data_size (b_h b)).
Proof.
  intros R Hb M. unfold cl_new_buffer. rewrite Hb. cbn [bind]. cbv zeta.
  assert (Fb : fine b).
  { destruct (reachable_inv _ _ (R b (nth_error_In _ _ Hb))) as (A & I & V & F). exists A. auto. }
  destruct (fine_addr b Fb) as (P1 & P2 & P3 & P4).
  pose proof (C74_size x hp (data_size (b_h b))) as SZ. cbv zeta in SZ. destruct SZ as (S1 & _ & S2 & S3).
  assert (NK : remaps x -> x_kernel x <> NoKernel) by (intros (_ & [Y|(Y & _)]); rewrite Y; discriminate).
  destruct ((0 <? data_size (b_h b)) && has_queue x && has_kernel x) eqn:Ec.
  - set (w0 := OW bs (CA (cl_buffer hp (data_size (b_h b))) (data_size (b_h b)) None)).
    assert (EN : cl_new_size x hp (data_size (b_h b)) = v_arg w0) by (unfold cl_new_size; rewrite Ec; reflexivity).
    assert (St : start (data_size (b_h b)) w0).
    { split; [exists x, hp; split; [exact M|symmetry; exact EN]|]. split; [exact P4|exact R]. }
    destruct (write_ok x i w0 b (start_inv _ _ St) Hb) as (r & w & E & W & B & Z & H1 & H2 & T).
    rewrite E. cbn [bind]. exists w. split; [reflexivity|]. split; [exact B|].
    rewrite EN in S2.
    assert (Cr : ca_buf (v_arg w) = Some i <-> r = true).
    { destruct r; [split; [reflexivity|intros _; apply H1; reflexivity]|].
      rewrite (H2 eq_refl). unfold w0. cbn [v_arg ca_buf]. split; discriminate. }
    split; [destruct r; [left; apply H1; reflexivity|right; exact (H2 eq_refl)]|].
    split.
    + rewrite Cr, T, S2. cbn [w0 v_arg ca_size]. split; [tauto|].
      intros (Y1 & Y2 & Y3 & Y4 & Y5). repeat split; try apply Y1; try apply Y2; auto; lia.
    + intros Y. apply Cr in Y. destruct (H1 Y) as (_ & A & EA & m & Ed & Rp & _). rewrite Ed. cbn [option_map].
      split; [f_equal; rewrite <- EA; apply (content_ok _ _ _ Rp)|exact Z].
  - exists (OW bs cl_new). split; [reflexivity|]. split; [reflexivity|]. cbn [cl_new v_arg ca_buf].
    split; [auto|]. split; [|discriminate]. split; [discriminate|]. intros (Y1 & Y2 & _).
    rewrite (has_kernel_run x Y2), (proj2 (Z.ltb_lt _ _) P3) in Ec. destruct Y1 as (Y1 & Y3). unfold has_queue in Ec.
    rewrite Y1, Y3 in Ec. discriminate Ec.
Qed.

(* updating regions: they are written one after the other up to the first that does not fit, is empty or
   null; success exactly when all were written *)
Theorem C74_update n w es w1 x l m : start n w -> n < 2 ^ 64 -> steps w es w1 -> ca_dev (v_arg w1) = Some m -> Forall region l ->
  exists l1 l2 r w2, l = l1 ++ l2 /\ cl_update x l w1 = (r, w2) /\
    (r = true <-> ready x /\ x_put x = true /\ l <> [] /\ Forall (fits (ca_size (v_arg w1))) l) /\
    (r = true -> l2 = []) /\
    (ready x -> x_put x = true -> forall p l3, l2 = p :: l3 -> ~ fits (ca_size (v_arg w1)) p) /\
    Forall (fits (ca_size (v_arg w1))) l1 /\ (~ (ready x /\ x_put x = true) -> l1 = []) /\
    v_bufs w2 = v_bufs w1 /\ ca_size (v_arg w2) = ca_size (v_arg w1) /\ ca_buf (v_arg w2) = ca_buf (v_arg w1) /\
    ca_dev (v_arg w2) = Some (Mem (mbase m) (written (mwords m) l1)).
Proof.
  intros S Hn H Ed Hl. destruct (steps_ok _ _ _ (start_ginv _ _ S) H) as ((W & U) & _).
  destruct (ai_dev _ W m Ed) as [D1 D2 D3 D4 D5].
  assert (Em : Mem (mbase m) (written (mwords m) []) = m) by (destruct m; reflexivity).
  assert (NO : forall X, ~ (ready x /\ 0 < ca_size (v_arg w1) /\ l <> []) -> X = (false, w1) -> exists l1 l2 r w2, l = l1 ++ l2 /\ X = (r, w2) /\
    (r = true <-> ready x /\ x_put x = true /\ l <> [] /\ Forall (fits (ca_size (v_arg w1))) l) /\
    (r = true -> l2 = []) /\
    (ready x -> x_put x = true -> forall p l3, l2 = p :: l3 -> ~ fits (ca_size (v_arg w1)) p) /\
    Forall (fits (ca_size (v_arg w1))) l1 /\ (~ (ready x /\ x_put x = true) -> l1 = []) /\
    v_bufs w2 = v_bufs w1 /\ ca_size (v_arg w2) = ca_size (v_arg w1) /\ ca_buf (v_arg w2) = ca_buf (v_arg w1) /\
    ca_dev (v_arg w2) = Some (Mem (mbase m) (written (mwords m) l1))).
  { intros X Hx ->.
    assert (NF : forall p l3, l = p :: l3 -> fits (ca_size (v_arg w1)) p -> 0 < ca_size (v_arg w1)).
    { intros p l3 -> (vs & _ & F2 & F3). pose proof (Forall_inv Hl) as (G & _). destruct vs; [congruence|]. cbn [length] in F3. lia. }
    exists [], l, false, w1. split; [reflexivity|]. split; [reflexivity|]. split.
    { split; [discriminate|]. intros (Y1 & _ & Y2 & Y3). exfalso. apply Hx. split; [exact Y1|]. split; [|exact Y2].
      destruct l as [|p l3]; [congruence|]. exact (NF p l3 eq_refl (Forall_inv Y3)). }
    split; [discriminate|]. split.
    { intros Y1 _ p l3 Hp Hf. apply Hx. split; [exact Y1|]. split; [exact (NF p l3 Hp Hf)|]. rewrite Hp. discriminate. }
    split; [constructor|]. split; [reflexivity|]. split; [reflexivity|]. split; [reflexivity|]. split; [reflexivity|].
    rewrite Ed. f_equal. symmetry. exact Em. }
  unfold cl_update. destruct l as [|p l']; [apply NO; [intros (_ & _ & Y); congruence|reflexivity]|].
  destruct ((0 <? ca_size (v_arg w1)) && has_queue x) eqn:Ec.
  2:{ apply NO; [|reflexivity]. intros ((Y1 & Y2) & Y3 & _). unfold has_queue in Ec.
      rewrite Y1, Y2, (proj2 (Z.ltb_lt _ _) Y3) in Ec. discriminate Ec. }
  apply andb_prop in Ec as (Ec & Eq). unfold has_queue in Eq. apply andb_prop in Eq.
  destruct (regions_ok x (p :: l') w1 m Ed D3 ltac:(lia) Hl) as (l1 & l2 & r & w2 & G1 & G2 & G3 & G4 & G5 & G6 & G7).
  exists l1, l2, r, w2. split; [exact G1|]. split; [exact G2|].
  split.
  { rewrite G5. split.
    - intros ->. rewrite app_nil_r in G1. split; [exact Eq|]. split; [|split; [discriminate|rewrite G1; exact G3]].
      destruct (x_put x); [reflexivity|]. rewrite (G4 eq_refl) in G1. discriminate G1.
    - intros (_ & Y2 & _ & Y4). destruct l2 as [|q l3]; [reflexivity|]. exfalso. apply (G6 Y2 q l3 eq_refl).
      rewrite G1 in Y4. apply Forall_app in Y4 as (_ & Y4). exact (Forall_inv Y4). }
  split; [tauto|]. split; [auto|]. split; [exact G3|].
  split; [intros Y; apply G4; destruct (x_put x); [exfalso; apply Y; split; [exact Eq|reflexivity]|reflexivity]|].
  rewrite G7. cbn [v_bufs v_arg ca_size ca_buf ca_dev]. auto.
Qed.

(* raw memory: only as many bytes as the argument has can be written, and they are read back *)
Theorem C74_raw n w es w1 x y ws : start n w -> steps w es w1 ->
  exists r w2, cl_write_raw x (Some ws) w1 = (r, w2) /\
    (r = true <-> ready x /\ x_put x = true /\ ca_dev (v_arg w1) <> None /\ ws <> [] /\
       8 * Z.of_nat (length ws) = ca_size (v_arg w1)) /\
    (r = false -> w2 = w1) /\ v_bufs w2 = v_bufs w1 /\
    (r = true -> forall k, cl_read_raw y k w2 =
       if x_ctx y && x_node y && x_get y && (k =? ca_size (v_arg w1)) then Some ws else None).
Proof.
  intros S H. destruct (steps_ok _ _ _ (start_ginv _ _ S) H) as ((W & U) & _).
  unfold cl_write_raw. cbv zeta.
  set (C := ready x /\ x_put x = true /\ ca_dev (v_arg w1) <> None /\ ws <> [] /\ 8 * Z.of_nat (length ws) = ca_size (v_arg w1)).
  assert (NO : forall X, ~ C -> X = (false, w1) -> exists r w2, X = (r, w2) /\ (r = true <-> C) /\
    (r = false -> w2 = w1) /\ v_bufs w2 = v_bufs w1 /\
    (r = true -> forall k, cl_read_raw y k w2 =
       if x_ctx y && x_node y && x_get y && (k =? ca_size (v_arg w1)) then Some ws else None)).
  { intros X Hn ->. exists false, w1. split; [reflexivity|]. split; [split; [discriminate|tauto]|]. split; [auto|]. split; [auto|discriminate]. }
  destruct ((0 <? Z.of_nat (length ws)) && (8 * Z.of_nat (length ws) =? ca_size (v_arg w1)) && has_queue x) eqn:Ec.
  2:{ apply NO; [|reflexivity]. intros ((Y1 & Y2) & Y3 & Y4 & Y5 & Y6). unfold has_queue in Ec.
      rewrite Y1, Y2, (proj2 (Z.eqb_eq _ _) Y6) in Ec. destruct ws as [|z ws']; [congruence|].
      rewrite (proj2 (Z.ltb_lt 0 (Z.of_nat (length (z :: ws'))))) in Ec by (cbn [length]; lia). discriminate Ec. }
  apply andb_prop in Ec as (Ec & E3). apply andb_prop in Ec as (E1 & E2). apply Z.ltb_lt in E1. apply Z.eqb_eq in E2.
  unfold has_queue in E3. apply andb_prop in E3.
  destruct (x_put x) eqn:Ep; [|rewrite put_fails; apply NO; [intros (_ & Y & _); discriminate Y|reflexivity]].
  destruct (ca_dev (v_arg w1)) as [m|] eqn:Ed; [|apply NO; [intros (_ & _ & Y & _); congruence|reflexivity]].
  destruct (ai_dev _ W m Ed) as [D1 D2 D3 D4 D5].
  rewrite put_ok by (unfold wlen in *; lia).
  pose proof (wrn_overlay ws m 0 ltac:(unfold wlen in *; lia)) as EW. change (8 * Z.of_nat 0) with 0 in EW.
  rewrite Z.add_0_r in EW. rewrite EW.
  assert (OV : overlay (mwords m) 0 ws = ws).
  { unfold overlay. rewrite skipn_all2 by (unfold wlen in *; lia). rewrite app_nil_r. reflexivity. }
  rewrite OV. eexists true, _. split; [reflexivity|]. split.
  { split; [|reflexivity]. intros _. split; [exact E3|]. split; [reflexivity|]. split; [discriminate|]. split; [|exact E2].
    intros ->. cbn [length] in E1. lia. }
  split; [discriminate|]. split; [reflexivity|]. intros _ k.
  unfold cl_read_raw, has_queue. cbv zeta. cbn [v_arg ca_size ca_dev get_words mwords].
  destruct (Z.eqb_spec k (ca_size (v_arg w1))) as [->|Ek]; [|rewrite !andb_false_r; reflexivity].
  rewrite (proj2 (Z.ltb_lt 0 (ca_size _))), !andb_true_r by lia. cbn [andb].
  destruct (x_ctx y && x_node y); cbn [andb]; [|reflexivity].
  destruct (x_get y); cbn [andb]; [|reflexivity].
  rewrite (proj2 (Z.leb_le (ca_size _) _)) by lia.
  destruct (rdn_ok (Z.to_nat (ca_size (v_arg w1) / 8)) (Mem (mbase m) ws) (mbase m) 0) as (vs & Ev & Lv & Gv).
  { cbn [mbase]. lia. } { lia. }
  { intros _. unfold wlen. cbn [mwords]. rewrite <- E2, Z.mul_comm, Z.div_mul by lia. lia. }
  cbn [mbase]. rewrite Ev. f_equal.
  assert (Ln : Z.to_nat (ca_size (v_arg w1) / 8) = length ws) by (rewrite <- E2, Z.mul_comm, Z.div_mul by lia; lia).
  apply (nth_ext _ _ 0 0); [lia|]. intros k Hk. specialize (Gv (Z.of_nat k) ltac:(lia)). rewrite Nat2Z.id in Gv. rewrite Gv.
  unfold word. cbn [mwords]. f_equal. lia.
Qed.

(* an argument made from raw memory holds it, when the transfer succeeds *)
Theorem C74_raw_construct x y hp ws : good_heap hp -> 8 * Z.of_nat (length ws) < 2 ^ 64 ->
  let a := cl_new_raw x hp (Some ws) in
  (ws <> [] /\ ready x /\ x_kernel x <> NoKernel -> ca_size a = 8 * Z.of_nat (length ws)) /\
  (~ (ws <> [] /\ ready x /\ x_kernel x <> NoKernel) -> a = cl_new) /\
  ca_buf a = None /\ cl_new_raw x hp None = cl_new /\
  (ws <> [] -> ready x -> x_kernel x <> NoKernel -> x_put x = true -> h_malloc hp (8 * Z.of_nat (length ws)) <> 0 ->
   forall bs k, cl_read_raw y k (OW bs a) =
     if x_ctx y && x_node y && x_get y && (k =? 8 * Z.of_nat (length ws)) then Some ws else None).
Proof.
  intros Gh Hl a. unfold a, cl_new_raw. cbv zeta. set (n := 8 * Z.of_nat (length ws)) in *.
  assert (Q : (0 <? n) && has_queue x && has_kernel x = true <-> ws <> [] /\ ready x /\ x_kernel x <> NoKernel).
  { unfold has_queue, has_kernel, ready, n. destruct ws as [|z ws]; cbn [length].
    - split; [discriminate|]. intros (Y & _). congruence.
    - rewrite (proj2 (Z.ltb_lt 0 (8 * Z.of_nat (S (length ws))))) by lia.
      destruct (x_ctx x), (x_node x), (x_kernel x); cbn [andb];
      (split; [intros Y; try discriminate Y; repeat split; auto; discriminate|intros (Y1 & (Y2 & Y3) & Y4); (discriminate || congruence || reflexivity)]). }
  destruct ((0 <? n) && has_queue x && has_kernel x) eqn:Ec.
  2:{ assert (NQ : ~ (ws <> [] /\ ready x /\ x_kernel x <> NoKernel)) by (intros Y; apply Q in Y; discriminate Y).
      split; [tauto|]. split; [reflexivity|]. split; [reflexivity|]. split; [reflexivity|].
      intros Y1 Y2 Y3. tauto. }
  pose proof (proj1 Q eq_refl) as Qt. split; [reflexivity|]. split; [tauto|]. split; [reflexivity|]. split; [reflexivity|].
  intros Hne _ _ Hp Hm bs k. rewrite Hp. unfold cl_buffer. cbv zeta. rewrite (proj2 (Z.eqb_neq _ 0) Hm).
  apply andb_prop in Ec as (Ec & _). apply andb_prop in Ec as (Ec & _). apply Z.ltb_lt in Ec.
  set (m := device_block hp (h_malloc hp n) n).
  assert (Lm : wlen m = Z.of_nat (length ws)).
  { unfold m, device_block, wlen. cbn [mwords]. rewrite map_length, seq_length. unfold n. rewrite Z.mul_comm, Z.div_mul by lia. lia. }
  rewrite put_ok by (unfold n in *; lia).
  pose proof (wrn_overlay ws m 0 ltac:(unfold wlen in *; lia)) as EW. change (8 * Z.of_nat 0) with 0 in EW.
  rewrite Z.add_0_r in EW. rewrite EW.
  assert (OV : overlay (mwords m) 0 ws = ws).
  { unfold overlay. rewrite skipn_all2 by (unfold wlen in *; lia). rewrite app_nil_r. reflexivity. }
  rewrite OV. unfold cl_read_raw, has_queue. cbv zeta. cbn [v_arg ca_size ca_dev get_words mwords].
  destruct (Z.eqb_spec k n) as [->|Ek]; [|rewrite !andb_false_r; reflexivity].
  rewrite (proj2 (Z.ltb_lt 0 n)), !andb_true_r by lia. cbn [andb].
  destruct (x_ctx y && x_node y); cbn [andb]; [|reflexivity].
  destruct (x_get y); cbn [andb]; [|reflexivity].
  rewrite (proj2 (Z.leb_le n _)) by (unfold n; lia).
  assert (Ln : Z.to_nat (n / 8) = length ws) by (unfold n; rewrite Z.mul_comm, Z.div_mul by lia; lia). rewrite Ln.
  destruct (rdn_ok (length ws) (Mem (mbase m) ws) (mbase m) 0) as (vs & Ev & Lv & Gv).
  { cbn [mbase]. lia. } { lia. } { intros _. unfold wlen. cbn [mwords]. lia. }
  cbn [mbase]. rewrite Ev. f_equal.
  apply (nth_ext _ _ 0 0); [lia|]. intros i Hi. specialize (Gv (Z.of_nat i) ltac:(lia)). rewrite Nat2Z.id in Gv. rewrite Gv.
  unfold word. cbn [mwords]. f_equal. lia.
Qed.

(* with the debug kernel a success means that the objects arrived, for all buffers that arise by use of
   the library, also those with empty arrays *)
Theorem C74_reported x y hp n bs i b w' f : memory_ok hp bs n -> n mod 8 = 0 ->
  (forall b', In b' bs -> reachable any b') -> nth_error bs i = Some b -> x_kernel x = Debug f ->
  cl_write x i (OW bs (cl_new_size y hp n)) = Some (true, w') ->
  option_map content (ca_dev (v_arg w')) = Some (objects b) /\ v_bufs w' = bs.
Proof.
  intros (Gh & Gm) Mn R Hb K. unfold cl_write. cbn [v_bufs v_arg]. rewrite Hb. cbn [bind]. cbv zeta.
  destruct (reachable_inv _ _ (R b (nth_error_In _ _ Hb))) as (A & I & V & _).
  destruct (_ && x_put_flag x) eqn:Ec; [|intros E; discriminate E].
  apply andb_prop in Ec as (Ec & _). apply andb_prop in Ec as (Ec & E2). apply andb_prop in Ec as (_ & E1).
  apply Z.ltb_lt in E1. apply Z.leb_le in E2.
  unfold buffer_words. destruct (_ =? 0); [|intros E; discriminate E].
  destruct (read_words b A I) as (ws & Ew & Ww). rewrite Ew. cbn [bind].
  unfold cl_new_size in *. destruct ((0 <? n) && has_queue y && has_kernel y) eqn:Ey; cbn [cl_new ca_size ca_dev ca_buf] in *; [|lia].
  unfold cl_buffer. cbv zeta. destruct (Z.eqb_spec (h_malloc hp n) 0) as [M0|M0]; [intros E; discriminate E|].
  destruct (Gm M0) as (G1 & G2). pose proof (Gh n M0) as (G3 & G4).
  set (m := device_block hp (h_malloc hp n) n).
  assert (Lm : 8 * wlen m = n).
  { unfold m, device_block, wlen. cbn [mwords]. rewrite map_length, seq_length. pose proof (Z.div_mod n 8).
    rewrite Z2Nat.id by (apply Z.div_pos; lia). lia. }
  destruct (x_put x); [|rewrite put_fails; intros E; discriminate E].
  pose proof (bi_dsize _ _ I) as DS.
  assert (Lw : Z.of_nat (length ws) = tot A) by (destruct Ww as (L & _); exact L).
  rewrite put_ok by lia.
  destruct (words_written b A m ws I Ww ltac:(lia)) as (m' & F1 & B1 & W1 & R1). rewrite F1.
  assert (OkA : base_ok (mbase m') A).
  { rewrite B1. cbn [m device_block mbase]. split; [lia|]. split; [exact G1|]. lia. }
  destruct (mb_remap_all _ _ A OkA m' R1 eq_refl) as (t & m2 & E3 & T2 & R2 & (F2 & F3 & F4)).
  unfold run_remap. rewrite K. destruct (x_run x && f); [|intros E; discriminate E].
  rewrite E3. cbn [bind]. intros E. destruct (x_get_flag x); [|discriminate E]. destruct t; [|discriminate E].
  cbn [andb] in E. injection E as <-. cbn [v_arg ca_dev v_bufs option_map]. split; [|reflexivity].
  f_equal. etransitivity; [exact (content_ok _ _ _ (R2 eq_refl))|]. symmetry. apply (content_ok _ _ _ (bi_repr _ _ I)).
Qed.

(* Examples: two buffers, a context that can do all, an argument for 256 bytes *)
Definition ex_x : ocl := Ocl true true Plain true true true true true.
Definition ex_bad : ocl := Ocl true true Plain true true false true true.
Definition ex_w : oworld := OW [x2; x1] (cl_new_size ex_x (heap_at 131072) 256).
Definition no_w : oworld := OW [] cl_new.
Definition after (o : option (bool * oworld)) : oworld := snd (get (false, no_w) o).

Lemma ex_memory n bs : (forall b, In b bs -> 131072 <> data_addr (b_h b)) -> memory_ok (heap_at 131072) bs n.
Proof.
  intros Hb. split; [apply heap_at_good; split; reflexivity|]. intros Hn.
  assert (h_malloc (heap_at 131072) n = 131072) as ->. { unfold heap_at in *. cbn [h_malloc] in *. destruct (n <? 1048576); congruence. }
  split; [reflexivity|exact Hb].
Qed.

Lemma ex_start : start 256 ex_w.
Proof.
  split; [exists ex_x, (heap_at 131072); split; [|reflexivity]|split; [reflexivity|]].
  - apply ex_memory. intros b [<-|[<-|[]]]; vm_compute; discriminate.
  - intros b [<-|[<-|[]]]; apply added_full; [exact x2_added|exact x1_added].
Qed.

Definition ex1 : oworld := after (cl_write ex_x 0 ex_w).
Definition ex2 : oworld := snd (cl_update ex_x [(128, Some [6])] ex1).
Definition ex3 : oworld := after (cl_read ex_x 0 ex2).
Definition ex4 : oworld := after (cl_write ex_bad 1 ex3).
Definition ex5 : oworld := after (cl_write ex_x 1 ex4).
Definition ex6 : oworld := after (cl_read ex_x 0 ex5).

(* write, update of a word, read; another buffer, at first without success, read into the first *)
Example C74_example :
  start 256 ex_w /\
  steps ex_w [Wrote 0 true; Updated 1 2 6 true; Read 0 true; Wrote 1 false; Wrote 1 true; Read 0 true] ex6 /\
  hosts ex6 = [objects x1; objects x1] /\ ca_buf (v_arg ex6) = Some 0%nat /\
  nth_error (hosts ex3) 0 = Some [nth 0 (objects x2) (0, []); (9, [Raw 1; Ptr 24; Raw 6; Raw 319951120])].
Proof.
  split; [exact ex_start|]. split; [|split; [vm_compute; reflexivity|split; vm_compute; reflexivity]].
  change [Wrote 0 true; Updated 1 2 6 true; Read 0 true; Wrote 1 false; Wrote 1 true; Read 0 true] with
    (((((([] ++ [Wrote 0 true]) ++ [Updated 1 2 6 true]) ++ [Read 0 true]) ++ [Wrote 1 false]) ++ [Wrote 1 true]) ++ [Read 0 true]).
  assert (S1 : step false ex_w (Wrote 0 true) ex1) by (apply (s_write false ex_x); vm_compute; reflexivity).
  assert (S2 : step true ex1 (Updated 1 2 6 true) ex2).
  { apply (s_update ex_x ex1 1 2 6 128 5); [|split; [discriminate|reflexivity]|vm_compute; reflexivity].
    exists (Mem 131072 (match ca_dev (v_arg ex1) with Some m => mwords m | None => [] end)), 9, [Raw 1; Ptr 24; Raw 5; Raw 319951120].
    split; [vm_compute; reflexivity|]. split; [vm_compute; reflexivity|]. split; [reflexivity|vm_compute; reflexivity]. }
  assert (S3 : step true ex2 (Read 0 true) ex3) by (apply (s_read ex_x); vm_compute; reflexivity).
  assert (S4 : step true ex3 (Wrote 1 false) ex4) by (apply (s_write true ex_bad); vm_compute; reflexivity).
  assert (S5 : step false ex4 (Wrote 1 true) ex5) by (apply (s_write false ex_x); vm_compute; reflexivity).
  assert (S6 : step true ex5 (Read 0 true) ex6) by (apply (s_read ex_x); vm_compute; reflexivity).
  repeat (eapply ss_snoc; [|eassumption]). apply ss_nil.
Qed.

Example C74_construct_case :
  (forall b, In b [x2; x1] -> reachable full_arrays b) /\ nth_error [x2; x1] 1 = Some x1 /\
  memory_ok (heap_at 131072) [x2; x1] (data_size (b_h x1)) /\ ready ex_x /\ remaps ex_x.
Proof.
  split; [exact (proj2 (proj2 ex_start))|]. split; [reflexivity|]. split.
  - apply ex_memory. intros b [<-|[<-|[]]]; vm_compute; discriminate.
  - split; [split; reflexivity|]. split; [reflexivity|left; reflexivity].
Qed.

Example C74_update_case : Forall region [(8, Some [5; 6]); (0, None); (248, Some [1])] /\
  fst (cl_update ex_x [(8, Some [5; 6]); (248, Some [1])] ex1) = true /\
  fst (cl_update ex_x [(8, Some [5; 6]); (256, Some [1])] ex1) = false.
Proof.
  split; [|split; vm_compute; reflexivity].
  constructor; [|constructor; [|constructor; [|constructor]]]; (split; [split; [discriminate|reflexivity]|split; [reflexivity|]]);
    cbn [snd]; intros vs E; try discriminate E; injection E as <-; reflexivity.
Qed.

Definition ex_debug : ocl := Ocl true true (Debug true) true true true true true.
Example C74_reported_case :
  memory_ok (heap_at 131072) [x3; x2] 304 /\ (forall b, In b [x3; x2] -> reachable any b) /\
  (exists w, cl_write ex_debug 0 (OW [x3; x2] (cl_new_size ex_debug (heap_at 131072) 304)) = Some (false, w)) /\
  (exists w, cl_write ex_debug 1 (OW [x3; x2] (cl_new_size ex_debug (heap_at 131072) 304)) = Some (true, w)).
Proof.
  split; [apply ex_memory; intros b [<-|[<-|[]]]; vm_compute; discriminate|].
  split; [intros b [<-|[<-|[]]]; [exact x3_reach|]|].
  { exact (added_any _ x2_added). }
  split; eexists; vm_compute; reflexivity.
Qed.

(* "a buffer that was written with success can be read back into the buffer it came from" is false: the
   argument is larger than the buffer *)
Theorem C74_read_back_refuted : exists n w w1 x,
  start n w /\ step false w (Wrote 1 true) w1 /\ ready x /\ x_get x = true /\
  cl_read x 1 w1 = Some (false, w1).
Proof.
  exists 256, ex_w, (after (cl_write ex_x 1 ex_w)), ex_x. split; [exact ex_start|].
  split; [apply (s_write false ex_x); vm_compute; reflexivity|]. split; [split; reflexivity|]. split; [reflexivity|].
  vm_compute. reflexivity.
Qed.

(* "reading reports a failure without changing the buffer" is false: when nothing was written to the
   argument, or its remapping kernel could not be run, reading overwrites the buffer *)
Theorem C74_unwritten_refuted : exists n w w1,
  start n w /\ cl_read ex_x 0 w = Some (false, w1) /\
  nth_error (hosts w1) 0 <> nth_error (hosts w) 0.
Proof.
  exists 256, ex_w, (after (cl_read ex_x 0 ex_w)). split; [exact ex_start|].
  split; [vm_compute; reflexivity|vm_compute; discriminate].
Qed.

(* "the argument is only connected to a buffer whose objects it holds" is false: writing raw memory
   leaves the connection *)
Theorem C74_raw_connected_refuted : exists n w w1 w2,
  start n w /\ step false w (Wrote 0 true) w1 /\
  cl_write_raw ex_x (Some (repeat 1 32)) w1 = (true, w2) /\ ca_buf (v_arg w2) = Some 0%nat /\
  option_map content (ca_dev (v_arg w2)) <> nth_error (hosts w2) 0.
Proof.
  exists 256, ex_w, ex1, (snd (cl_write_raw ex_x (Some (repeat 1 32)) ex1)). split; [exact ex_start|].
  split; [apply (s_write false ex_x); vm_compute; reflexivity|]. split; [vm_compute; reflexivity|].
  split; [vm_compute; reflexivity|vm_compute; discriminate].
Qed.

(* "a buffer that was written with success arrives" is false for buffers with an empty array at their
   end: without the debug kernel the failing remap is not reported *)
Theorem C74_remap_unreported_refuted : exists n w w1,
  (exists x hp, memory_ok hp (v_bufs w) n /\ v_arg w = cl_new_size x hp n) /\
  (forall b, In b (v_bufs w) -> reachable any b) /\
  cl_write ex_x 0 w = Some (true, w1) /\
  option_map content (ca_dev (v_arg w1)) <> nth_error (hosts w) 0 /\
  cl_read ex_x 0 w1 = None.
Proof.
  set (w := OW [x3] (cl_new_size ex_x (heap_at 131072) 304)). exists 304, w, (after (cl_write ex_x 0 w)).
  split; [exists ex_x, (heap_at 131072); split; [|reflexivity]|].
  { apply ex_memory. intros b [<-|[]]; vm_compute; discriminate. }
  split; [intros b [<-|[]]; exact x3_reach|]. split; [vm_compute; reflexivity|].
  split; [vm_compute; discriminate|vm_compute; reflexivity].
Qed.

(* "with a selected node and enough memory, writing succeeds when the commands do" is false in debug
   mode when the node was selected in a way that does not assign the status flag: no write succeeds *)
Theorem C74_debug_refuted n w es w' x i r w2 : start n w -> steps w es w' -> x_kernel x = Debug false ->
  cl_write x i w' = Some (r, w2) -> r = false.
Proof.
  intros S H K E. destruct (nth_error (v_bufs w') i) as [b|] eqn:Eb; [|unfold cl_write in E; rewrite Eb in E; discriminate E].
  pose proof (C74_write_iff n w es w' x i b r w2 S H Eb E) as T. destruct r; [|reflexivity].
  destruct (proj1 T eq_refl) as (_ & (_ & [Y|(Y & _)]) & _); rewrite K in Y; discriminate Y.
Qed.

Print Assumptions C74_history.
Print Assumptions C74_defined.
Print Assumptions C74_write_iff.
Print Assumptions C74_read_iff.
Print Assumptions C74_refers.
Print Assumptions C74_size.
Print Assumptions C74_construct.
Print Assumptions C74_update.
Print Assumptions C74_raw.
Print Assumptions C74_raw_construct.
Print Assumptions C74_reported.
Print Assumptions C74_read_back_refuted.
Print Assumptions C74_unwritten_refuted.
Print Assumptions C74_raw_connected_refuted.
Print Assumptions C74_remap_unreported_refuted.
Print Assumptions C74_debug_refuted.
