(* Preparing an address table when allocations fail, and using its rows. *)
From Coq Require Import ZArith List Bool Lia.
From Verif Require Import Tac MBuf MBufSpec MBufMem MBufAbs MBufReserve MemPool Buffer BufferSpec BufferProofs BufferReserve
  BufferAddMem BufferAdd BufferAddLoop BufferAddMain BufferWrite BufferUser BufferReach BufferProps BufferAdded Lines Strings StringsSpec StringsProofs ParticlesBuf ParticlesBufSpec ParticlesBufProofs
  ParticlesBufTable.
Import ListNotations.
Local Open Scope Z_scope.

(* what preparing sees of object number i *)
Lemma seen_count bp i o : reachable any bp -> proper_sets bp -> nth_error (objects bp) i = Some o ->
  exists p c, get_particles (b_mem bp) (object_addr (b_h bp) + 24 * Z.of_nat i) = Some p /\
      (if p =? 0 then Some 0 else rd (b_mem bp) p) = Some c /\ c = particles_in o /\ 0 <= c < 2 ^ 63 /\
      (p =? 0) = negb (some_in o).
Proof.
  intros RP PS O.
  rewrite (get_particles_eq bp i o RP O). destruct (proper_cases bp i o PS O) as [(n & cols & Hn & S)|N].
      - exists (place bp i), n. pose proof S as (O' & C). assert (o = particle_set n cols) as -> by congruence.
        rewrite particles_in_set. destruct (set_read bp i n cols RP S) as (R0 & _).
        assert (Pp : 0 < place bp i) by (destruct (particle_set n cols) as [t cells]; eapply place_facts; eauto).
        split; [now apply (find_set bp i n cols)|]. rewrite (proj2 (Z.eqb_neq (place bp i) 0)) by lia.
        split; [exact R0|]. split; [reflexivity|]. split; [destruct C as (C & _); lia|].
        unfold some_in. rewrite particles_in_set, (proj2 (Z.ltb_lt 0 n)) by lia. reflexivity.
      - exists 0, 0. split; [now apply (find_none bp i o)|]. rewrite Z.eqb_refl. split; [reflexivity|].
        assert (PZ : particles_in o = 0).
        { destruct o as [t cells]. unfold particles_in. cbn [fst]. destruct (Z.eqb_spec t 1) as [->|]; [|reflexivity].
          pose proof (particles_le bp i _ PS O) as (P1 & P2). destruct (PS i 1 cells O eq_refl) as (n & cols & O' & C).
          destruct N as [N|N]; [cbn [fst] in N; congruence|]. assert (E : (1, cells) = particle_set n cols) by congruence.
          rewrite E in *. destruct (set_nth n cols C) as (_ & _ & _ & W). rewrite W in N. unfold set_words in N.
          destruct C as (Cn & _). assert (cells = snd (particle_set n cols)) as -> by (rewrite <- E; reflexivity).
          unfold particle_set. cbn [snd]. lia. }
        split; [symmetry; exact PZ|]. split; [lia|]. unfold some_in. rewrite PZ. reflexivity.
Qed.

(* one row after the other: those that are there are rows of the objects, in order; with as many
   rows as objects all are there *)
Lemma prepare_loop_any bp : reachable any bp -> proper_sets bp -> forall l i hps bt found,
  skipn i (objects bp) = l -> (forall k, good_heap (hps k)) -> added_only bt ->
  data_size (b_h bt) + 200 * Z.of_nat (length l) + 32 < 2 ^ 64 ->
  0 <= found -> found + Z.of_nat (length l) < 2 ^ 64 ->
  exists f bt', prepare_loop hps bt (b_mem bp) (object_addr (b_h bp) + 24 * Z.of_nat i) (length l) found = Some (f, bt') /\
    added_only bt' /\ (length (objects bt') <= length (objects bt) + length l)%nat /\
    (length (objects bt') = (length (objects bt) + length l)%nat ->
       f = found + Z.of_nat (length (filter some_in l)) /\ objects bt' = objects bt ++ map new_row l).
Proof.
  intros RP PS. induction l as [|o l IH]; intros i hps bt found Hs Hh AO F Hf Hfl.
  - exists found, bt. cbn [length prepare_loop filter map]. change (Z.of_nat 0) with 0. rewrite Z.add_0_r, app_nil_r.
    split; [reflexivity|]. split; [exact AO|]. split; [lia|]. auto.
  - apply obj_split in Hs as (O & Hs). cbn [length] in F, Hfl |- *. cbn [prepare_loop].
    pose proof (reach_any _ _ (added_reach bt AO)) as RT.
    destruct (seen_count bp i o RP PS O) as (p & c & E1 & E2 & Ec & Hc & Ep). rewrite E1. cbn [bind]. rewrite E2. cbn [bind].
    destruct (paddr_add_ok (hps 0%nat) bt c zeros RT (Hh 0%nat) (zeros_ok c Hc) eq_refl ltac:(lia)) as (pa & b1 & Ea & [A1 A2 A3 A4] & K & D).
    unfold paddr_new. change (repeat 0 21) with zeros. rewrite Ea. cbn [bind]. cbv zeta.
    replace (object_addr (b_h bp) + 24 * Z.of_nat i + 24) with (object_addr (b_h bp) + 24 * Z.of_nat (S i)) by lia.
    destruct (Z.eq_dec pa 0) as [->|Hpa].
    + (* no memory: nothing changes *)
      assert (b1 = bt) as ->.
      { destruct (add_added (hps 0%nat) bt (rreq c zeros) AO (Hh 0%nat) (r_request_ok bt c zeros (zeros_ok c Hc) eq_refl ltac:(lia)))
          as (r & b2 & Er & Hr). unfold paddr_add in Ea. unfold add in Er. cbn [rreq rq_mem rq_obj rq_size rq_type rq_attrs] in Er.
        unfold P_SIZE, T_PARTICLES_ADDR in Ea. rewrite Er in Ea. cbn [bind new_begin] in Ea.
        destruct (Z.eqb_spec r 0) as [R0|R0]; [cbn [bind] in Ea; assert (b2 = b1) by congruence; rewrite <- (Hr R0); congruence|].
        exfalso. destruct (put_object (hps 0%nat) bt (rreq c zeros) RT (Hh 0%nat) (r_request_ok bt c zeros (zeros_ok c Hc) eq_refl ltac:(lia)))
          as (p' & b' & E' & _).
        pose proof (add_entry (hps 0%nat) bt (rreq c zeros) r b2 RT (Hh 0%nat) (r_request_ok bt c zeros (zeros_ok c Hc) eq_refl ltac:(lia)) Er R0) as RD.
        rewrite RD in Ea. cbn [bind] in Ea.
        destruct (add_one (hps 0%nat) bt (rreq c zeros) r b2 RT (Hh 0%nat) (r_request_ok bt c zeros (zeros_ok c Hc) eq_refl ltac:(lia)) Er R0)
          as (o' & So & Eo).
        assert (R' : reachable any b2) by (eapply r_add; [exact RT|apply (Hh 0%nat)|exact (r_request_ok bt c zeros (zeros_ok c Hc) eq_refl ltac:(lia))|exact Logic.I|exact Er|exact R0]).
        assert (Np : nth_error (objects b2) (length (objects bt)) = Some o') by (rewrite Eo, nth_error_app2 by lia; now rewrite Nat.sub_diag).
        destruct o' as [t cells]. pose proof (place_facts b2 _ _ _ R' Np) as (Pp & _).
        assert (place b2 (length (objects bt)) = 0) by (unfold place; congruence). lia. }
      rewrite Z.eqb_refl. cbn [negb]. rewrite andb_false_r.
      destruct (IH (S i) (fun j => hps (S j)) bt found) as (f & bt' & E & AO' & Le & Eq); auto; try lia.
      exists f, bt'. split; [exact E|]. split; [exact AO'|]. split; [lia|]. intros X. lia.
    + destruct (A1 Hpa) as ((o1 & -> & Eo) & _ & R1). destruct (K Hpa) as (_ & K2). specialize (D Hpa).
      rewrite (proj2 (Z.eqb_neq pa 0) Hpa), Ep, negb_involutive. cbn [negb]. rewrite andb_true_r.
      assert (FN : (if some_in o then u64 (found + 1) else found) = found + (if some_in o then 1 else 0)).
      { destruct (some_in o); [unfold u64; rewrite Z.mod_small by lia; reflexivity|lia]. }
      rewrite FN.
      destruct (IH (S i) (fun j => hps (S j)) b1 (found + (if some_in o then 1 else 0))) as (f & bt' & E & AO' & Le & Eq); auto;
        try (destruct (some_in o); lia); try lia.
      rewrite Eo, app_length in Le, Eq. cbn [length] in Le, Eq.
      exists f, bt'. split; [exact E|]. split; [exact AO'|]. split; [lia|]. intros X.
      destruct Eq as (Ef & Eb); [lia|]. split.
      * rewrite Ef. cbn [filter]. destruct (some_in o); cbn [length]; lia.
      * rewrite Eb. cbn [map]. rewrite <- app_assoc. unfold new_row at 2. rewrite Ec. reflexivity.
Qed.

Lemma prepare_any hps bt bp : reachable any bp -> proper_sets bp -> (forall k, good_heap (hps k)) ->
  reachable full_arrays bt -> (added_only bt \/ objects bt <> []) ->
  data_size (b_h bt) + 200 * Z.of_nat (length (objects bp)) + 32 < 2 ^ 64 ->
  exists st bt', prepare hps bt bp = Some (st, bt') /\ (st = 0 \/ st = -1) /\ added_only bt' /\
    (st = 0 <-> objects bt' = map new_row (objects bp)) /\ (st = 0 <-> length (objects bt') = length (objects bp)).
Proof.
  intros RP PS Hh RT AO F. pose proof (reach_any _ _ RT) as RA.
  unfold prepare. rewrite (num_blocks_ok bp RP PS). cbn [bind].
  rewrite (proj1 (num_objects_ok bp RP)), (proj1 (num_objects_ok bt RA)). cbn [bind].
  assert (PRE : exists b0, (if 0 <? Z.of_nat (length (objects bt)) then
      '(_, b1) <- buf_clear bt true ;; '(_, b2) <- buf_reset b1 ;; Some b2 else Some bt) = Some b0 /\
    added_only b0 /\ objects b0 = [] /\ data_size (b_h b0) <= data_size (b_h bt)).
  { destruct (Z.ltb_spec 0 (Z.of_nat (length (objects bt)))) as [L|L].
    - destruct (reset_fresh bt RT) as (b1 & b2 & E1 & E2 & X). exists b2. rewrite E1. cbn [bind]. rewrite E2. cbn [bind]. auto.
    - exists bt. destruct (objects bt) eqn:E; [|cbn [length] in L; lia]. split; [reflexivity|].
      split; [destruct AO; congruence|]. split; [reflexivity|lia]. }
  destruct PRE as (b0 & -> & AO0 & Eo & Ds). cbn [bind]. rewrite Nat2Z.id.
  pose proof (num_small bp RP) as NS.
  destruct (prepare_loop_any bp RP PS (objects bp) 0 hps b0 0 eq_refl Hh AO0) as (f & bt' & E & AO' & Le & Eq); try lia.
  change (24 * Z.of_nat 0) with 0 in E. rewrite Z.add_0_r in E. rewrite E. cbn [bind].
  rewrite (proj1 (num_objects_ok bt' (reach_any _ _ (added_reach _ AO')))). cbn [bind].
  rewrite Eo in Le, Eq. cbn [length app Nat.add] in Le, Eq.
  destruct (Nat.eq_dec (length (objects bt')) (length (objects bp))) as [L|L].
  - destruct (Eq L) as (Ef & Eb). rewrite L, Ef, Z.add_0_l, !Z.eqb_refl. cbn [andb].
    exists 0, bt'. split; [reflexivity|]. split; [auto|]. split; [exact AO'|]. split; split; auto.
  - rewrite (proj2 (Z.eqb_neq (Z.of_nat (length (objects bp))) _)) by lia. rewrite andb_false_r.
    exists (-1), bt'. split; [reflexivity|]. split; [auto|]. split; [exact AO'|]. split; split; try discriminate; [|contradiction].
    intros X. exfalso. apply L. rewrite X, map_length. reflexivity.
Qed.

(* ---------------- reading rows into particle sets ---------------- *)

Lemma widx_eq m m' a : mbase m' = mbase m -> length (mwords m') = length (mwords m) -> widx m' a = widx m a.
Proof. intros B L. unfold widx. rewrite B, L. reflexivity. Qed.

Lemma lupd_nth l : forall n v k, (n < length l)%nat ->
  nth_error (lupd l n v) k = if Nat.eqb k n then Some v else nth_error l k.
Proof.
  induction l as [|x l IH]; intros [|n] v [|k] H; cbn [length] in H; try lia; cbn [lupd nth_error Nat.eqb]; auto. apply IH. lia.
Qed.
Lemma lupd_len l : forall n v, length (lupd l n v) = length l.
Proof. induction l as [|x l IH]; intros [|n] v; cbn [lupd length]; auto. Qed.

Lemma wr_facts m a v m' : wr m a v = Some m' ->
  mbase m' = mbase m /\ length (mwords m') = length (mwords m) /\ rd m' a = Some v /\ (forall x, x <> a -> rd m' x = rd m x).
Proof.
  unfold wr, rd. destruct (widx m a) as [i|] eqn:E; [|discriminate]. cbn [bind]. intros H.
  assert (m' = Mem (mbase m) (lupd (mwords m) i v)) as -> by congruence. cbn [mbase mwords]. rewrite lupd_len.
  assert (HI : (i < length (mwords m))%nat /\ a = mbase m + 8 * Z.of_nat i).
  { unfold widx in E. destruct (_ && _) eqn:C in E; [|discriminate E]. apply andb_prop in C as (C & C3). apply andb_prop in C as (C1 & C2).
    apply Z.leb_le in C1. apply Z.eqb_eq in C2. apply Z.ltb_lt in C3. assert (i = Z.to_nat ((a - mbase m) / 8)) as -> by congruence.
    pose proof (Z.div_mod (a - mbase m) 8). pose proof (Z.div_pos (a - mbase m) 8 C1 ltac:(lia)). lia. }
  destruct HI as (HI & Ha). split; [reflexivity|]. split; [reflexivity|].
  rewrite !(widx_eq m (Mem (mbase m) (lupd (mwords m) i v))) by (cbn [mbase mwords]; auto using lupd_len).
  rewrite E. cbn [bind]. rewrite lupd_nth, Nat.eqb_refl by exact HI. split; [reflexivity|].
  intros x Hx. rewrite (widx_eq m (Mem (mbase m) (lupd (mwords m) i v))) by (cbn [mbase mwords]; auto using lupd_len).
  destruct (widx m x) as [k|] eqn:Ek; [|reflexivity]. cbn [bind]. rewrite lupd_nth by exact HI.
  destruct (Nat.eqb_spec k i) as [->|]; [|reflexivity]. exfalso. apply Hx.
  unfold widx in Ek. destruct (_ && _) eqn:C in Ek; [|discriminate Ek]. apply andb_prop in C as (C & C3). apply andb_prop in C as (C1 & C2).
  apply Z.leb_le in C1. apply Z.eqb_eq in C2. assert (i = Z.to_nat ((x - mbase m) / 8)) by congruence.
  pose proof (Z.div_mod (x - mbase m) 8). pose proof (Z.div_pos (x - mbase m) 8 C1 ltac:(lia)). lia.
Qed.

(* the words from p + 8 k on *)
Lemma copy_fields ms pa p : forall n k m,
  (forall a, (k <= a < k + n)%nat -> exists w, rd ms (pa + 8 * Z.of_nat a) = Some w) ->
  (forall a, (k <= a < k + n)%nat -> widx m (p + 8 * Z.of_nat a) <> None) ->
  exists m', pa_assign_fields m p ms pa (offs k n) = Some m' /\ mbase m' = mbase m /\ length (mwords m') = length (mwords m) /\
    (forall a, (k <= a < k + n)%nat -> rd m' (p + 8 * Z.of_nat a) = rd ms (pa + 8 * Z.of_nat a)) /\
    (forall x, (x < p + 8 * Z.of_nat k \/ p + 8 * Z.of_nat (k + n) <= x) -> rd m' x = rd m x).
Proof.
  induction n as [|n IH]; intros k m HR HW.
  - exists m. cbn [offs List.seq map pa_assign_fields]. split; [reflexivity|]. split; [reflexivity|]. split; [reflexivity|].
    split; [intros a Ha; lia|reflexivity].
  - rewrite offs_cons. cbn [pa_assign_fields]. destruct (HR k ltac:(lia)) as (w & Ew). rewrite Ew. cbn [bind].
    assert (W : exists m1, wr m (p + 8 * Z.of_nat k) w = Some m1).
    { unfold wr. destruct (widx m (p + 8 * Z.of_nat k)) eqn:E; [eexists; reflexivity|]. exfalso. apply (HW k ltac:(lia) E). }
    destruct W as (m1 & E1). rewrite E1. cbn [bind]. destruct (wr_facts _ _ _ _ E1) as (B1 & L1 & R1 & O1).
    destruct (IH (S k) m1) as (m' & E & B & L & R & O).
    + intros a Ha. apply HR. lia.
    + intros a Ha. rewrite (widx_eq m m1) by auto. apply HW. lia.
    + exists m'. split; [exact E|]. split; [congruence|]. split; [congruence|]. split.
      * intros a Ha. destruct (Nat.eq_dec a k) as [->|]; [|apply R; lia].
        rewrite O by lia. rewrite R1. symmetry. exact Ew.
      * intros x Hx. rewrite O by lia. apply O1. lia.
Qed.

(* the words of a row that belongs to set i, behind one another from p on *)
Lemma assign_row bp bt i n cols ms p : reachable any bp -> reachable any bt -> set_at bp i n cols -> 0 < n ->
  nth_error (objects bt) i = Some (row n (addresses bp i n)) -> p <> 0 ->
  (forall k, 0 <= k < 22 -> widx ms (p + 8 * k) <> None) ->
  exists m', pa_assign_to ms p (b_mem bt) (place bt i) = Some m' /\ mbase m' = mbase ms /\ length (mwords m') = length (mwords ms) /\
    (forall k, 0 <= k < 22 -> rd m' (p + 8 * k) = rd (b_mem bp) (place bp i + 8 * k)) /\
    (forall x, x < p \/ p + 176 <= x -> rd m' x = rd ms x).
Proof.
  intros RP RT S Hn O Hp W. pose proof S as (OS & C).
  assert (La : Z.of_nat (length (addresses bp i n)) = NUM) by reflexivity.
  assert (WS : forall k w, nth_error (n :: addresses bp i n) k = Some w -> rd (b_mem bt) (place bt i + 8 * Z.of_nat k) = Some w).
  { intros k w Hw. destruct (read_cell bt i 512 (map Raw (n :: addresses bp i n)) k (Raw w) RT O) as (X & _); [|exact X].
    rewrite nth_error_map, Hw. reflexivity. }
  assert (Pp : 0 < place bt i) by (unfold row in O; exact (proj1 (place_facts bt i _ _ RT O))).
  assert (AD : forall a, (a < 21)%nat -> nth_error (addresses bp i n) a = Some (place bp i + (176 + 8 * n * Z.of_nat a))).
  { intros a Ha. do 21 (destruct a as [|a]; [unfold addresses; cbn [zseq NUM map nth_error]; apply f_equal; lia|]). lia. }
  assert (ED : forall k, (k < 22)%nat -> rd (b_mem bt) (place bt i + 8 * Z.of_nat k) = rd (b_mem bp) (place bp i + 8 * Z.of_nat k)).
  { destruct (set_read bp i n cols RP S) as (R0 & R1 & _). intros [|a] Ha.
    - rewrite (WS 0%nat n eq_refl). rewrite Z.mul_0_r, Z.add_0_r. symmetry. exact R0.
    - rewrite (WS (Datatypes.S a) _ (AD a ltac:(lia))).
      replace (place bp i + 8 * Z.of_nat (Datatypes.S a)) with (place bp i + (8 + 8 * Z.of_nat a)) by lia.
      symmetry. apply R1. lia. }
  destruct (copy_fields (b_mem bt) (place bt i) p 22 0 ms) as (m' & E & B & L & R & F).
  - intros a Ha. destruct a as [|a]; [exists n; apply (WS 0%nat); reflexivity|]. eexists. apply (WS (Datatypes.S a)). apply AD. lia.
  - intros a Ha. apply W. lia.
  - exists m'. unfold pa_assign_to. rewrite (proj2 (Z.eqb_neq (place bt i) 0)), (proj2 (Z.eqb_neq p 0)) by lia. cbn [orb].
    change (0 :: p_offsets) with (offs 0 22).
    split; [exact E|]. split; [exact B|]. split; [exact L|]. split.
    + intros k Hk. specialize (R (Z.to_nat k) ltac:(lia)). rewrite (ED (Z.to_nat k)) in R by lia. rewrite Z2Nat.id in R by lia. exact R.
    + intros x Hx. apply F. lia.
Qed.

Lemma row_place b i ws : reachable any b -> nth_error (objects b) i = Some (512, map Raw ws) -> length ws = 22%nat ->
  paddr_at (b_mem b) (data_addr (b_h b)) (Z.of_nat i) = Some (place b i).
Proof.
  intros R O L. destruct (entry_ok b i _ _ R O) as (o & E0 & _ & E1 & E2 & E3 & E4).
  unfold paddr_at. rewrite E0. cbn [bind]. unfold get_paddr. rewrite E1, E3, E4. cbn [bind].
  rewrite map_length, L. exact E2.
Qed.
