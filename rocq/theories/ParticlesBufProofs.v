(* Particle sets in buffers: adding, finding, reading and writing. *)
From Coq Require Import ZArith List Bool Lia.
From Verif Require Import Tac MBuf MBufSpec MBufMem MBufAbs MBufRemap MemPool Buffer BufferSpec BufferUser
  BufferProofs BufferAddMem BufferAdd BufferAddLoop BufferAddMain BufferWrite BufferReach BufferProps
  Lines LinesSpec LinesProofs LinesCopy
  Strings StringsSpec StringsProofs ParticlesBuf ParticlesBufSpec.
Import ListNotations.
Local Open Scope Z_scope.

Lemma reach_any P b : reachable P b -> reachable any b.
Proof. intros H. eapply reachable_mono; [|exact H]. exact (fun _ _ => Logic.I). Qed.

(* ---------------- where the objects are ---------------- *)

Lemma place_abs b A i s n t : binv b A -> nth_error (a_objs A) i = Some (s, n, t) ->
  place b i = data_addr (b_h b) + 80 + 8 * s.
Proof.
  intros I H. unfold place. pose proof (obj_ok _ _ _ (bi_repr _ _ I) _ _ _ _ H) as (E & _).
  now rewrite E, (bi_addr _ _ I).
Qed.

Lemma place_facts b i t cells : reachable any b -> nth_error (objects b) i = Some (t, cells) ->
  0 < place b i /\ place b i + 8 * Z.of_nat (length cells) < 2 ^ 64.
Proof.
  intros H Ho. destruct (reachable_inv _ _ H) as (A & I & V & _). pose proof Ho as Ho'.
  rewrite (objects_eq b A I) in Ho'.
  destruct (content_nth A i t cells (re_ok _ _ _ (bi_repr _ _ I)) Ho') as (s & n & E & _ & S1 & S2 & S3 & S4).
  rewrite (place_abs b A i s n t I E), (bi_addr _ _ I).
  pose proof (re_base _ _ _ (bi_repr _ _ I)) as (B1 & B2 & B3).
  pose proof (ok_bounds A (re_ok _ _ _ (bi_repr _ _ I))) as (Bc & Bo & Bd & Bg).
  unfold tot, zlen in *. lia.
Qed.

(* the words of the entry of an object *)
Lemma entry_ok b i t cells : reachable any b -> nth_error (objects b) i = Some (t, cells) ->
  exists o, objects_index_begin (b_mem b) (data_addr (b_h b)) = Some o /\ o = object_addr (b_h b) /\
  (o + 24 * Z.of_nat i =? 0) = false /\
  rd (b_mem b) (o + 24 * Z.of_nat i) = Some (place b i) /\
  rd (b_mem b) (o + 24 * Z.of_nat i + 8) = Some t /\
  rd (b_mem b) (o + 24 * Z.of_nat i + 16) = Some (8 * Z.of_nat (length cells)).
Proof.
  intros H Ho. destruct (reachable_inv _ _ H) as (A & I & V & _). pose proof Ho as Ho'.
  rewrite (objects_eq b A I) in Ho'.
  pose proof (bi_repr _ _ I) as R. pose proof (re_ok _ _ _ R) as OK.
  destruct (content_nth A i t cells OK Ho') as (s & n & E & _ & S1 & S2 & S3 & S4).
  exists (object_addr (b_h b)). unfold objects_index_begin, OBJECTS_ID.
  rewrite (bi_addr _ _ I), (section_data_ok _ _ (re_h _ _ _ R)) by auto. rewrite V.
  split; [reflexivity|]. split; [reflexivity|].
  pose proof (ok_bounds A OK) as (Bc & Bo & Bd & Bg). pose proof (re_len _ _ _ R) as Ln.
  pose proof (re_base _ _ _ R) as (B1 & _).
  destruct (re_obj _ _ _ R _ _ _ _ E) as (W0 & W1 & W2).
  assert (i < length (a_objs A))%nat by (apply nth_error_Some; congruence).
  assert (L4 : spos A 4 = 10 + a_ms A) by reflexivity.
  assert (Hi : spos A 4 + 2 + 3 * Z.of_nat i + 2 < wlen (b_mem b)) by (unfold tot, zlen in *; lia).
  split; [apply Z.eqb_neq; lia|].
  split; [|split].
  - rewrite (place_abs b A i s n t I E), (bi_addr _ _ I), <- W0. apply rd_ok; lia.
  - rewrite <- W1. apply rd_ok; lia.
  - unfold zlen in S4. rewrite S4, <- W2. apply rd_ok; lia.
Qed.

(* ---------------- adding any object ---------------- *)

Lemma put_object hp b q : reachable any b -> good_heap hp -> request_ok b q ->
  exists p b', (r <- add hp b q ;; new_begin r) = Some (p, b') /\
    added_object hp b p b' (stored_as q)
      (8 * (object_words (rq_size q) (rq_attrs q) + 3 + Z.of_nat (length (rq_attrs q)))) (has_room b q) /\
    (forall P : request -> Prop, P q -> p <> 0 -> reachable P b -> reachable P b') /\
    (full_arrays q -> keeps_full b p b') /\
    (p <> 0 -> data_size (b_h b') <= data_size (b_h b) +
       8 * (object_words (rq_size q) (rq_attrs q) + 3 + Z.of_nat (length (rq_attrs q)))) /\
    (p <> 0 -> forall i, (i < length (objects b))%nat ->
       place b' i - data_addr (b_h b') = place b i - data_addr (b_h b)).
Proof.
  intros R Hh RQ. destruct (add_defined hp b q R Hh RQ) as (r & b' & E). rewrite E. cbn [bind new_begin].
  destruct (Z.eq_dec r 0) as [->|Hr].
  - (* failed *)
    destruct RQ as (HC & Hov).
    exists 0, b'. split; [reflexivity|].
    split; [|split; [congruence|split; [intros _ X; congruence|split; congruence]]].
    split.
    + congruence.
    + intros _ NE. apply (add_failed hp b q b' R Hh (conj HC Hov) NE E).
    + intros HR. destruct (add_with_room hp b q R Hh (conj HC Hov) HR) as (r2 & b2 & E2 & N2 & _).
      rewrite E in E2. congruence.
    + intros AO MM. destruct (add_fresh hp b q AO Hh MM (conj HC Hov)) as (r2 & b2 & E2 & N2).
      rewrite E in E2. congruence.
  - pose proof (add_entry hp b q r b' R Hh RQ E Hr) as RD. rewrite (proj2 (Z.eqb_neq r 0) Hr), RD. cbn [bind].
    destruct (add_one hp b q r b' R Hh RQ E Hr) as (o & So & Eo).
    assert (R' : reachable any b') by (eapply r_add; eauto; exact Logic.I).
    assert (Np : nth_error (objects b') (length (objects b)) = Some o)
      by (rewrite Eo, nth_error_app2 by lia; now rewrite Nat.sub_diag).
    destruct o as [t cells]. pose proof (place_facts b' _ _ _ R' Np) as (Pp & _).
    exists (place b' (length (objects b))), b'.
    split; [reflexivity|]. split; [|split; [|split; [|split]]].
    + split.
      * intros _. split; [exists (t, cells); auto|]. auto.
      * lia.
      * intros HR. split; [lia|]. destruct (add_with_room hp b q R Hh RQ HR) as (r2 & b2 & E2 & N2 & D).
        rewrite E in E2. assert (b' = b2) as -> by congruence. exact D.
      * intros. lia.
    + intros P HP _ RP. eapply r_add; eauto.
    + intros F _. split; [intros RF; eapply r_add; eauto|intros AO; eapply ao_add; eauto].
    + intros _. destruct (reachable_inv _ _ R) as (A & I & V & _). destruct RQ as (HC & Hov).
      destruct (add_all hp b A (rq_mem q) (rq_obj q) (rq_size q) (rq_type q) (rq_attrs q) Hh I V HC Hov)
        as (r2 & b2 & E2 & T & _).
      unfold add in E. rewrite E in E2. assert (r = r2) as <- by congruence.
      assert (b' = b2) as <- by congruence.
      destruct (T Hr) as (ow & arrs & A' & OD & I' & V' & C' & O' & R2 & Ce & Wo & LA & SW & Zd & Mg & Ro & Nr).
      rewrite (bi_dsize _ _ I), (bi_dsize _ _ I'). unfold tot. rewrite Mg.
      pose proof (ok_bounds A (re_ok _ _ _ (bi_repr _ _ I))) as (?&?&?&?).
      fold (zlen (rq_attrs q)). pose proof (zlen_nonneg (rq_attrs q)).
      assert (0 <= object_words (rq_size q) (rq_attrs q)).
      { pose proof (object_words_eq (rq_size q) (rq_attrs q)).
        pose proof (attr_words_nonneg _ (call_counts _ _ _ _ HC)). pose proof (call_size _ _ _ _ HC).
        pose proof (words_of_bounds (rq_size q) ltac:(lia)). lia. }
      assert (DR : room A (rq_size q) (rq_attrs q) \/ ~ room A (rq_size q) (rq_attrs q)).
      { unfold room. destruct (Z_le_dec (zlen (a_cells A) + object_words (rq_size q) (rq_attrs q)) (a_ms A)),
          (Z_le_dec (zlen (a_objs A) + 1) (a_mo A)), (Z_le_dec (zlen (a_dps A) + zlen (rq_attrs q)) (a_md A)); tauto. }
      destruct DR as [D|D].
      * destruct (Ro D) as (-> & -> & ->). unfold zlen in *. lia.
      * destruct (Nr D) as (-> & -> & ->). unfold zlen in *. lia.
    + intros _ i Hi. destruct (reachable_inv _ _ R) as (A & I & V & _). destruct RQ as (HC & Hov).
      destruct (add_all hp b A (rq_mem q) (rq_obj q) (rq_size q) (rq_type q) (rq_attrs q) Hh I V HC Hov)
        as (r2 & b2 & E2 & T & _).
      unfold add in E. rewrite E in E2. assert (r = r2) as <- by congruence.
      assert (b' = b2) as <- by congruence.
      destruct (T Hr) as (ow & arrs & A' & OD & I' & V' & C' & O' & _).
      rewrite (objects_eq _ _ I), acontent_length in Hi.
      destruct (nth_error (a_objs A) i) as [[[s n] t']|] eqn:N; [|apply nth_error_None in N; lia].
      assert (N' : nth_error (a_objs A') i = Some (s, n, t')) by (rewrite O', nth_error_app1; auto).
      rewrite (place_abs b A i s n t' I N), (place_abs b' A' i s n t' I' N'). lia.
Qed.

(* ---------------- particle sets ---------------- *)

Definition preq (e : ext_mem) (n : Z) (ptrs : list Z) : request :=
  Request e (n :: ptrs) 176 1 (p_attrs n).

Lemma starts_eq n cols : Forall (fun c => wcount c = n) cols -> forall d k,
  starts (d + 8 * n * k) cols = map (fun a => d + 8 * n * a) (map (Z.add k) (zseq (Z.of_nat (length cols)))).
Proof.
  induction 1 as [|c cols Hc H IH]; intros d k; [reflexivity|].
  cbn [starts length]. unfold zseq. rewrite Nat2Z.id. cbn [List.seq map].
  change (Z.of_nat 0) with 0. rewrite Z.add_0_r. f_equal. rewrite Hc.
  replace (d + 8 * n * k + 8 * n) with (d + 8 * n * (k + 1)) by ring. rewrite IH.
  unfold zseq. rewrite Nat2Z.id. rewrite <- seq_shift, !map_map. apply map_ext. intros j.
  rewrite Nat2Z.inj_succ. f_equal. ring.
Qed.

Lemma set_cells n ow cols : wcount ow = 22 -> wnth ow 0 = n -> Z.of_nat (length cols) = NUM ->
  Forall (fun c => wcount c = n) cols ->
  expected_object ow (p_attrs n) cols = snd (particle_set n cols).
Proof.
  intros H22 H0 HL HC. unfold expected_object, particle_set. cbv zeta. cbn [snd]. rewrite H22.
  change (8 * 22) with 176. pose proof (starts_eq n cols HC 176 0) as S.
  rewrite Z.mul_0_r, Z.add_0_r in S. rewrite S, HL. clear S HL H22.
  rewrite app_comm_cons. f_equal.
  unfold zseq. change (Z.to_nat 22) with 22%nat. change (Z.to_nat NUM) with 21%nat.
  change (map at_offset (p_attrs n)) with p_offsets.
  cbn [List.seq map]. unfold p_offsets. cbn [combine]. cbn [Z.of_nat Pos.of_succ_nat Pos.succ].
  cbn [find fst snd Z.mul Pos.mul Z.eqb Pos.eqb]. rewrite H0. rewrite ?Z.add_0_l. reflexivity.
Qed.

Lemma words_of_8 n : words_of (n * 8) = n.
Proof. unfold words_of. rewrite Z.add_comm, Z.div_add by lia. reflexivity. Qed.

Lemma p_offset_nth a : (a < 21)%nat -> nth_error p_offsets a = Some (8 + 8 * Z.of_nat a).
Proof. intros H. do 21 (destruct a as [|a]; [reflexivity|]). lia. Qed.

Lemma p_offset_in o : In o p_offsets -> exists a, (a < 21)%nat /\ o = 8 + 8 * Z.of_nat a.
Proof.
  intros H. apply In_nth_error in H as (a & Ha).
  assert (L : (a < 21)%nat) by (change 21%nat with (length p_offsets); apply nth_error_Some; congruence).
  exists a. split; [exact L|]. rewrite (p_offset_nth a L) in Ha. congruence.
Qed.

Lemma forall2_map_l {S T U} (f : S -> T) (Q : T -> U -> Prop) l r :
  Forall2 Q (map f l) r <-> Forall2 (fun x y => Q (f x) y) l r.
Proof.
  revert r; induction l as [|x l IH]; intros r; cbn [map].
  - split; intros H; inversion H; constructor.
  - split; intros H; inversion H; subst; constructor; auto; apply IH; auto.
Qed.

Lemma ptrs_at n ptrs : length ptrs = 21%nat ->
  map (fun o => wnth (n :: ptrs) (o / 8)) p_offsets = ptrs.
Proof.
  intros H. do 21 (destruct ptrs as [|? ptrs]; [discriminate|]). destruct ptrs; [|discriminate]. reflexivity.
Qed.

Lemma f2_impl {S T} (Q Q' : S -> T -> Prop) l r : (forall x y, Q x y -> Q' x y) -> Forall2 Q l r -> Forall2 Q' l r.
Proof. induction 2; constructor; auto. Qed.

Lemma f2_len {S T} (Q : S -> T -> Prop) l r : Forall2 Q l r -> length l = length r.
Proof. induction 1; cbn [length]; auto. Qed.

Lemma f2_nth {S T} (Q : S -> T -> Prop) l r a x y : Forall2 Q l r -> nth_error l a = Some x ->
  nth_error r a = Some y -> Q x y.
Proof.
  intros F. revert a; induction F; intros [|a] H1 H2; try discriminate.
  - cbn in H1, H2. congruence.
  - eapply IHF; eauto.
Qed.

Lemma array_col e src n c : array_of e src (8 * n) c -> wcount c = n /\ words64 c.
Proof. intros (W & R & _). rewrite Z.mul_comm, words_of_8 in W. auto. Qed.

Lemma p_stored e n ptrs o : length ptrs = 21%nat -> 0 <= n < 2 ^ 63 -> stored_as (preq e n ptrs) o ->
  exists cols, o = particle_set n cols /\ columns n cols /\
    Forall2 (fun src c => array_of e src (8 * n) c) ptrs cols.
Proof.
  intros L Hn (ow & arrs & ((S1 & S2 & S3) & F) & ->). cbn [preq rq_mem rq_obj rq_size rq_attrs rq_type] in *.
  unfold p_attrs in F. rewrite forall2_map_l in F.
  assert (F' : Forall2 (fun src c => array_of e src (8 * n) c) ptrs arrs).
  { rewrite <- (ptrs_at n ptrs L). rewrite forall2_map_l. eapply f2_impl; [|exact F].
    intros o a X. cbn [at_offset] in X. unfold attr_bytes in X. cbn [at_size at_count] in X. now rewrite Z.mul_comm. }
  assert (LA : length arrs = 21%nat) by (rewrite <- (f2_len _ _ _ F'); exact L).
  assert (FC : Forall (fun c => wcount c = n /\ words64 c) arrs).
  { clear - F'. induction F'; constructor; auto. eapply array_col; eauto. }
  exists arrs. split; [|split; [|exact F']].
  - unfold particle_set. f_equal. rewrite (set_cells n ow arrs); [reflexivity|exact S1| |rewrite LA; reflexivity|].
    + rewrite S3 by lia. reflexivity.
    + clear - FC. induction FC; constructor; tauto.
  - split; [lia|]. split; [rewrite LA; reflexivity|exact FC].
Qed.

Lemma p_words n : 0 <= n -> object_words 176 (p_attrs n) = set_words n.
Proof.
  intros H. unfold object_words, p_attrs, p_offsets, set_words, attr_bytes. cbn [map fold_right at_count at_size].
  rewrite words_of_8. change (words_of 176) with 22. lia.
Qed.

Lemma p_full e n ptrs : 0 < n -> full_arrays (preq e n ptrs).
Proof.
  intros H x Hx. cbn [preq rq_attrs] in Hx. apply in_map_iff in Hx as (o & <- & _).
  unfold attr_bytes. cbn [at_count at_size]. lia.
Qed.

Lemma p_nodup : NoDup p_offsets.
Proof. unfold p_offsets. repeat constructor; cbn [In]; intuition discriminate. Qed.

Lemma ptr_of n ptrs a : wnth (n :: ptrs) (1 + Z.of_nat a) = nth a ptrs 0.
Proof. unfold wnth. replace (Z.to_nat (1 + Z.of_nat a)) with (S a) by lia. reflexivity. Qed.

Lemma p_request_ok b e n ptrs : length ptrs = 21%nat -> 0 <= n < 2 ^ 63 -> words64 ptrs ->
  (forall src, In src ptrs -> src <> 0 -> forall k, 0 <= k < 8 * n -> exists x, e (src + k) = Some x /\ 0 <= x < 256) ->
  set_fits b n -> request_ok b (preq e n ptrs).
Proof.
  intros L Hn W Src F. unfold request_ok. cbn [preq rq_mem rq_obj rq_size rq_attrs rq_type].
  split.
  - constructor.
    + lia.
    + unfold wcount. cbn [length]. rewrite L. change (words_of 176) with 22. lia.
    + constructor; [lia|exact W].
    + intros x Hx. apply in_map_iff in Hx as (o & <- & Ho). cbn [at_offset at_size at_count].
      apply p_offset_in in Ho as (a & Ha & ->). split; [lia|].
      split; [|lia]. replace (8 + 8 * Z.of_nat a) with ((1 + Z.of_nat a) * 8) by ring. now rewrite Z.mod_mul.
    + unfold p_attrs. rewrite map_map. cbn [at_offset]. rewrite map_id. exact p_nodup.
    + intros x Hx. apply in_map_iff in Hx as (o & <- & Ho). cbn [at_size at_count]. lia.
    + intros x Hx j Hj. apply in_map_iff in Hx as (o & <- & Ho). unfold attr_bytes in Hj.
      cbn [at_offset at_size at_count] in *. apply p_offset_in in Ho as (a & Ha & ->).
      replace (8 + 8 * Z.of_nat a) with ((1 + Z.of_nat a) * 8) by ring. rewrite Z.div_mul by lia.
      rewrite ptr_of. intros Nz. apply Src; [apply nth_In; lia|exact Nz|lia].
  - rewrite p_words by lia. unfold set_fits in F. unfold p_attrs. rewrite map_length.
    change (length p_offsets) with 21%nat. lia.
Qed.

Lemma p_room b e n ptrs : 0 <= n -> has_room b (preq e n ptrs) <-> set_room b n.
Proof.
  intros H. unfold has_room, set_room. cbn [preq rq_size rq_attrs]. rewrite p_words by lia.
  unfold p_attrs. rewrite map_length. change (Z.of_nat (length p_offsets)) with 21. tauto.
Qed.

(* what adding a set of particles from a memory does *)
Lemma particles_add_ok hp b e n ptrs : reachable any b -> good_heap hp ->
  length ptrs = 21%nat -> 0 <= n < 2 ^ 63 -> words64 ptrs ->
  (forall src, In src ptrs -> src <> 0 -> forall k, 0 <= k < 8 * n -> exists x, e (src + k) = Some x /\ 0 <= x < 256) ->
  set_fits b n ->
  exists p b', particles_add hp b e n ptrs = Some (p, b') /\
    added_object hp b p b' (fun o => exists cols, o = particle_set n cols /\ columns n cols /\
        Forall2 (fun src c => array_of e src (8 * n) c) ptrs cols)
      (8 * (set_words n + 24)) (set_room b n) /\
    (0 < n -> keeps_full b p b').
Proof.
  intros R Hh L Hn W Src F.
  pose proof (p_request_ok b e n ptrs L Hn W Src F) as RQ.
  destruct (put_object hp b (preq e n ptrs) R Hh RQ) as (p & b' & E & AD & _ & K & _).
  exists p, b'. split; [exact E|]. split.
  - destruct AD as [A1 A2 A3 A4]. cbn [preq rq_size rq_attrs] in *. rewrite p_words in * by lia.
    unfold p_attrs in A4. rewrite map_length in A4. change (Z.of_nat (length p_offsets)) with 21 in A4.
    split.
    + intros Hp. destruct (A1 Hp) as ((o & So & Eo) & X). split; [|exact X].
      exists o. split; [|exact Eo]. now apply p_stored.
    + exact A2.
    + intros Hr. apply A3. apply p_room; [lia|exact Hr].
    + intros AO MM. apply A4; [exact AO|]. eapply memory_le; [|exact MM]. lia.
  - intros Hn0. apply K. now apply p_full.
Qed.

(* ---------------- the words of a particle set ---------------- *)

Lemma concat_nth {T} (k : nat) (cols : list (list T)) a j : Forall (fun c => length c = k) cols ->
  (a < length cols)%nat -> (j < k)%nat -> nth_error (concat cols) (a * k + j) = nth_error (nth a cols []) j.
Proof.
  intros F. revert a; induction F as [|c cols Hc F IH]; intros a Ha Hj; cbn [length] in Ha; [lia|].
  cbn [concat]. destruct a as [|a].
  - cbn [Nat.mul Nat.add nth]. rewrite nth_error_app1 by lia. reflexivity.
  - cbn [nth]. rewrite nth_error_app2 by lia. rewrite <- IH by lia. f_equal. lia.
Qed.

Lemma concat_replace {T} (k : nat) (cols : list (list T)) a j v : Forall (fun c => length c = k) cols ->
  (a < length cols)%nat -> (j < k)%nat ->
  replace (concat cols) (a * k + j) v = concat (replace cols a (replace (nth a cols []) j v)).
Proof.
  intros F. revert a; induction F as [|c cols Hc F IH]; intros a Ha Hj; cbn [length] in Ha; [lia|].
  unfold replace in *. cbn [concat]. destruct a as [|a].
  - cbn [Nat.mul Nat.add nth firstn skipn app concat].
    rewrite firstn_app, skipn_app. replace (j - length c)%nat with O by lia. cbn [firstn skipn].
    rewrite app_nil_r, <- app_assoc. f_equal.
    destruct (skipn j c) eqn:E; [|reflexivity]. apply (f_equal (@length T)) in E. rewrite skipn_length in E.
    cbn [length] in E. lia.
  - cbn [nth firstn skipn app concat]. rewrite <- IH by lia.
    rewrite firstn_app, skipn_app. replace (S a * k + j - length c)%nat with (a * k + j)%nat by lia.
    rewrite firstn_all2, skipn_all2 by lia. cbn [app]. now rewrite <- app_assoc.
Qed.

Lemma concat_len {T} (k : nat) (cols : list (list T)) : Forall (fun c => length c = k) cols ->
  length (concat cols) = (length cols * k)%nat.
Proof. induction 1 as [|c cols Hc F IH]; cbn [concat length]; [reflexivity|]. rewrite app_length, IH. lia. Qed.

Lemma cols_len n cols : columns n cols -> Forall (fun c => length c = Z.to_nat n) cols /\ length cols = 21%nat.
Proof.
  intros (_ & L & F). split; [|unfold NUM in L; lia]. clear L. induction F as [|c cols (H & _) F IH]; constructor; auto.
  unfold wcount in H. lia.
Qed.

Definition cellno (n : Z) (a : nat) (j : Z) : nat := (22 + (a * Z.to_nat n + Z.to_nat j))%nat.

Lemma set_nth n cols : columns n cols ->
  nth_error (snd (particle_set n cols)) 0 = Some (Raw n) /\
  (forall a, (a < 21)%nat ->
    nth_error (snd (particle_set n cols)) (S a) = Some (Ptr (176 + 8 * n * Z.of_nat a))) /\
  (forall a j, (a < 21)%nat -> 0 <= j < n ->
    nth_error (snd (particle_set n cols)) (cellno n a j) = Some (Raw (value cols a j))) /\
  words_in (particle_set n cols) = set_words n.
Proof.
  intros C. destruct (cols_len n cols C) as (F & L). destruct C as (Hn & _ & FC).
  unfold particle_set, words_in. cbn [snd]. split; [reflexivity|]. split; [|split].
  - intros a Ha. cbn [nth_error]. rewrite nth_error_app1 by (rewrite map_length, zseq_length; unfold NUM; lia).
    rewrite nth_error_map, zseq_nth by (unfold NUM; lia). reflexivity.
  - intros a j Ha Hj. unfold cellno. change (22 + (a * Z.to_nat n + Z.to_nat j))%nat with (S (21 + (a * Z.to_nat n + Z.to_nat j))).
    cbn [nth_error]. rewrite nth_error_app2 by (rewrite map_length, zseq_length; unfold NUM; lia).
    rewrite map_length, zseq_length. change (Z.to_nat NUM) with 21%nat.
    replace (21 + (a * Z.to_nat n + Z.to_nat j) - 21)%nat with (a * Z.to_nat n + Z.to_nat j)%nat by lia.
    rewrite nth_error_map, (concat_nth (Z.to_nat n)) by (auto; lia).
    unfold value, wnth. erewrite nth_error_nth'; [reflexivity|].
    assert (In (nth a cols []) cols) by (apply nth_In; lia).
    rewrite (proj1 (Forall_forall _ _) F) by assumption. lia.
  - cbn [length]. rewrite app_length, !map_length, zseq_length, (concat_len (Z.to_nat n)) by assumption.
    rewrite L. unfold set_words, NUM. lia.
Qed.

Lemma set_read b i n cols : reachable any b -> set_at b i n cols ->
  rd (b_mem b) (place b i) = Some n /\
  (forall a, (a < 21)%nat -> rd (b_mem b) (place b i + (8 + 8 * Z.of_nat a)) = Some (place b i + (176 + 8 * n * Z.of_nat a))) /\
  (forall a j, (a < 21)%nat -> 0 <= j < n ->
    rd (b_mem b) (place b i + (176 + 8 * n * Z.of_nat a) + 8 * j) = Some (value cols a j)).
Proof.
  intros R (O & C). destruct (set_nth n cols C) as (N0 & N1 & N2 & _).
  destruct (particle_set n cols) as [t cells] eqn:E. cbn [snd] in *.
  split; [|split].
  - destruct (read_cell b i t cells 0 _ R O N0) as (X & _). cbn [Z.of_nat] in X. now rewrite Z.add_0_r in X.
  - intros a Ha. destruct (read_cell b i t cells (S a) _ R O (N1 a Ha)) as (X & _).
    unfold place. rewrite <- X. f_equal. lia.
  - intros a j Ha Hj. destruct (read_cell b i t cells (cellno n a j) _ R O (N2 a j Ha Hj)) as (X & _).
    unfold place. rewrite <- X. f_equal. unfold cellno. nia.
Qed.

Lemma offset_nth a : (a < 21)%nat -> nth a p_offsets 0 = 8 + 8 * Z.of_nat a.
Proof. intros H. apply nth_error_nth. now apply p_offset_nth. Qed.

Lemma get_ok b i n cols a j : reachable any b -> set_at b i n cols -> (a < 21)%nat -> 0 <= j < n ->
  p_get (b_mem b) (place b i) a j = Some (value cols a j).
Proof.
  intros R S Ha Hj. destruct (set_read b i n cols R S) as (_ & R1 & R2). unfold p_get.
  rewrite offset_nth, (R1 a Ha) by assumption. cbn [bind]. now apply R2.
Qed.

Lemma put_cells n cols a j v : columns n cols -> (a < 21)%nat -> 0 <= j < n -> 0 <= v < 2 ^ 64 ->
  columns n (put cols a j v) /\
  particle_set n (put cols a j v) = (1, replace (snd (particle_set n cols)) (cellno n a j) (Raw v)).
Proof.
  intros C Ha Hj Hv. destruct (cols_len n cols C) as (F & L). pose proof C as (Hn & L' & FC).
  assert (In (nth a cols []) cols) as IN by (apply nth_In; lia).
  pose proof (proj1 (Forall_forall _ _) F _ IN) as La. cbv beta in La.
  pose proof (proj1 (Forall_forall _ _) FC _ IN) as (Wa & Wb).
  split.
  - split; [exact Hn|]. unfold put. rewrite replace_length. split; [exact L'|].
    apply replace_forall; [exact FC|]. unfold wcount. rewrite replace_length. split; [exact Wa|].
    now apply replace_forall.
  - unfold particle_set, put. cbn [snd]. f_equal.
    rewrite <- (concat_replace (Z.to_nat n)) by (auto; lia).
    unfold cellno. set (k := (a * Z.to_nat n + Z.to_nat j)%nat). unfold replace.
    change (22 + k)%nat with (S (21 + k)). cbn [firstn skipn app]. f_equal.
    set (X := map (fun a => Ptr (176 + 8 * n * a)) (zseq NUM)).
    assert (LX : length X = 21%nat) by (unfold X; rewrite map_length, zseq_length; reflexivity). clearbody X.
    rewrite firstn_app, skipn_app, LX. replace (21 + k - 21)%nat with k by lia.
    rewrite (@firstn_all2 _ (21 + k) X), (@skipn_all2 _ (21 + k) X) by lia.
    rewrite <- app_assoc. f_equal. cbn [app]. rewrite map_app, firstn_map, skipn_map. f_equal.
    destruct (skipn k (concat cols)); reflexivity.
Qed.

Lemma set_ok b i n cols a j v : reachable any b -> set_at b i n cols -> (a < 21)%nat -> 0 <= j < n ->
  0 <= v < 2 ^ 64 ->
  exists m', p_set (b_mem b) (place b i) a j v = Some m' /\
    objects (with_mem b m') = replace (objects b) i (particle_set n (put cols a j v)) /\
    columns n (put cols a j v) /\
    same_history b (with_mem b m') /\ writes b i (cellno n a j) v (with_mem b m').
Proof.
  intros R S Ha Hj Hv. destruct (set_read b i n cols R S) as (_ & R1 & _). destruct S as (O & C).
  destruct (set_nth n cols C) as (_ & _ & N2 & _). destruct (put_cells n cols a j v C Ha Hj Hv) as (C' & E').
  rewrite E'. destruct (particle_set n cols) as [t cells] eqn:E. cbn [snd] in *.
  assert (t = 1) as -> by (unfold particle_set in E; congruence).
  destruct (write_word b i 1 cells (cellno n a j) _ v R O (N2 a j Ha Hj) Hv) as (m' & Hw & R' & Eo & _ & _ & Hi).
  unfold p_set. rewrite offset_nth, (R1 a Ha) by assumption. cbn [bind].
  exists m'. split; [rewrite <- Hw; unfold place; f_equal; unfold cellno; nia|].
  split; [exact Eo|]. split; [exact C'|]. split; [exact Hi|].
  eapply w_word; eauto.
Qed.

(* ---------------- finding the sets ---------------- *)

Lemma set_unique n cols n' cols' : particle_set n cols = particle_set n' cols' -> n = n'.
Proof. unfold particle_set. congruence. Qed.

Lemma particles_in_set n cols : particles_in (particle_set n cols) = n.
Proof. reflexivity. Qed.

Lemma find_set b i n cols : reachable any b -> set_at b i n cols -> 0 < n ->
  particles_at (b_mem b) (data_addr (b_h b)) (Z.of_nat i) = Some (place b i).
Proof.
  intros R S Hn. destruct S as (O & C). destruct (set_nth n cols C) as (_ & _ & _ & W).
  destruct (particle_set n cols) as [t cells] eqn:E.
  assert (t = 1) as -> by (unfold particle_set in E; congruence).
  destruct (entry_ok b i 1 cells R O) as (o & E0 & _ & E1 & E2 & E3 & E4).
  unfold particles_at. rewrite E0. cbn [bind]. unfold get_particles. rewrite E1, E3, E4. cbn [bind].
  unfold words_in in W. cbn [snd] in W. rewrite W. change (1 =? T_PARTICLE) with true.
  rewrite (proj2 (Z.ltb_lt P_SIZE _)) by (unfold set_words, P_SIZE; lia). exact E2.
Qed.

Lemma find_none b i o : reachable any b -> nth_error (objects b) i = Some o -> no_particles o ->
  particles_at (b_mem b) (data_addr (b_h b)) (Z.of_nat i) = Some 0.
Proof.
  intros R O N. destruct o as [t cells]. destruct (entry_ok b i t cells R O) as (e & E0 & _ & E1 & E2 & E3 & E4).
  unfold particles_at. rewrite E0. cbn [bind]. unfold get_particles. rewrite E1, E3, E4. cbn [bind].
  destruct N as [N|N].
  - cbn [fst] in N. unfold T_PARTICLE. rewrite (proj2 (Z.eqb_neq t 1)) by assumption. reflexivity.
  - unfold words_in in N. cbn [snd] in N. unfold P_SIZE. rewrite (proj2 (Z.ltb_ge 176 _)) by lia.
    now rewrite andb_false_r.
Qed.

Lemma object_total b : reachable any b -> 8 * total words_in (objects b) < 2 ^ 64.
Proof.
  intros R. destruct (reachable_inv _ _ R) as (A & I & _). rewrite (objects_eq b A I).
  pose proof (re_base _ _ _ (bi_repr _ _ I)) as (B1 & B2 & B3).
  pose proof (re_ok _ _ _ (bi_repr _ _ I)) as OK.
  pose proof (ok_bounds A OK) as (Bc & Bo & Bd & Bg).
  assert (H : forall l lo, 0 <= lo -> chain lo (zlen (a_cells A)) l ->
    lo + total words_in (map (fun x => let '(s, n, t) := x in (t, map (rel_cell s) (slice (a_cells A) s n))) l)
      <= zlen (a_cells A)).
  { induction l as [|[[s n] t] l IH]; intros lo Hlo Ch; cbn [map]; [change (total words_in []) with 0; cbn [chain] in Ch; lia|].
    destruct Ch as (C1 & C2 & C3). rewrite total_cons. unfold words_in at 1. cbn [snd].
    rewrite map_length. pose proof (IH (s + n) ltac:(lia) C3) as X.
    assert (Z.of_nat (length (slice (a_cells A) s n)) <= n).
    { unfold slice. rewrite firstn_length. lia. }
    lia. }
  specialize (H (a_objs A) 0 ltac:(lia) (ok_chain _ OK)). unfold acontent.
  match goal with |- 8 * total words_in ?l < _ => match type of H with 0 + total words_in ?l' <= _ => replace l with l' end end.
  - unfold tot, zlen in *. lia.
  - apply map_ext. intros [[s n] t]. reflexivity.
Qed.

Lemma obj_split {T} (l : list T) i x r : skipn i l = x :: r -> nth_error l i = Some x /\ skipn (S i) l = r.
Proof.
  revert i; induction l as [|y l IH]; intros [|i] H; try discriminate.
  - cbn in *. split; congruence.
  - cbn [nth_error]. change (skipn (S (S i)) (y :: l)) with (skipn (S i) l). apply IH. exact H.
Qed.

Lemma int64_small n : 0 <= n < 2 ^ 63 -> int64 n = n.
Proof. intros H. unfold int64. rewrite (proj2 (Z.ltb_lt n (2 ^ 63))) by lia. reflexivity. Qed.

Lemma particles_le b i o : proper_sets b -> nth_error (objects b) i = Some o ->
  0 <= particles_in o /\ 21 * particles_in o <= words_in o.
Proof.
  intros PS O. destruct o as [t cells]. unfold particles_in. cbn [fst].
  destruct (Z.eqb_spec t 1) as [->|]; [|split; [lia|unfold words_in; lia]].
  destruct (PS i 1 cells O eq_refl) as (n & cols & O' & C).
  assert (E : (1, cells) = particle_set n cols) by congruence.
  destruct (set_nth n cols C) as (_ & _ & _ & W). rewrite <- E in W. cbn [snd].
  assert (cells = snd (particle_set n cols)) as -> by (rewrite <- E; reflexivity).
  unfold particle_set. cbn [snd]. destruct C as (Hn & _). unfold set_words in W.
  unfold words_in in *. cbn [snd] in *. unfold particle_set in W. cbn [snd] in W. lia.
Qed.

Lemma blocks_loop_ok b : reachable any b -> proper_sets b -> forall l i acc,
  skipn i (objects b) = l -> 0 <= acc -> acc + Z.of_nat (length l) < 2 ^ 64 ->
  blocks_loop (b_mem b) (object_addr (b_h b) + 24 * Z.of_nat i) (length l) acc =
    Some (acc + Z.of_nat (length (filter some_in l))).
Proof.
  intros R PS. induction l as [|o l IH]; intros i acc Hs Ha Hl.
  - cbn [length blocks_loop filter]. change (Z.of_nat 0) with 0. now rewrite Z.add_0_r.
  - apply obj_split in Hs as (O & Hs). cbn [length] in Hl |- *. cbn [blocks_loop].
    destruct o as [t cells]. destruct (entry_ok b i t cells R O) as (e & _ & -> & _ & E2 & E3 & _).
    rewrite E3. cbn [bind]. unfold T_PARTICLE.
    replace (object_addr (b_h b) + 24 * Z.of_nat i + 24) with (object_addr (b_h b) + 24 * Z.of_nat (S i)) by lia.
    destruct (Z.eqb_spec t 1) as [->|Ht].
    + rewrite E2. cbn [bind]. pose proof (place_facts b i _ _ R O) as (Pp & _).
      rewrite (proj2 (Z.eqb_neq (place b i) 0)) by lia.
      destruct (PS i 1 cells O eq_refl) as (n & cols & S). destruct (set_read b i n cols R S) as (RN & _).
      rewrite RN. cbn [bind]. destruct S as (O' & C). rewrite int64_small by apply C.
      assert (E : (1, cells) = particle_set n cols) by congruence. rewrite E. cbn [filter].
      unfold some_in at 1. rewrite particles_in_set.
      destruct (Z.ltb_spec 0 n).
      * unfold u64. rewrite Z.mod_small by lia. rewrite IH by (auto; lia). cbn [length]. f_equal. lia.
      * rewrite IH by (auto; lia). reflexivity.
    + cbn [bind]. rewrite IH by (auto; lia). cbn [filter]. unfold some_in at 2, particles_in. cbn [fst].
      rewrite (proj2 (Z.eqb_neq t 1)) by assumption. reflexivity.
Qed.

Lemma num_small b : reachable any b -> Z.of_nat (length (objects b)) < 2 ^ 60.
Proof.
  intros R. destruct (reachable_inv _ _ R) as (A & I & _). rewrite (objects_eq b A I), acontent_length.
  pose proof (re_base _ _ _ (bi_repr _ _ I)) as (B1 & B2 & B3).
  pose proof (ok_bounds A (re_ok _ _ _ (bi_repr _ _ I))) as (Bc & Bo & Bd & Bg).
  unfold tot, zlen in *. lia.
Qed.

Lemma num_blocks_ok b : reachable any b -> proper_sets b ->
  num_blocks b = Some (Z.of_nat (length (filter some_in (objects b)))).
Proof.
  intros R PS. unfold num_blocks. rewrite (proj1 (num_objects_ok b R)). cbn [bind].
  pose proof (num_small b R). destruct (Z.ltb_spec 0 (Z.of_nat (length (objects b)))) as [L|L].
  - rewrite Nat2Z.id. pose proof (blocks_loop_ok b R PS (objects b) 0 0 eq_refl) as X.
    change (24 * Z.of_nat 0) with 0 in X. rewrite Z.add_0_r in X. rewrite X by lia. reflexivity.
  - destruct (objects b); [reflexivity|cbn [length] in L; lia].
Qed.

Lemma total_loop_ok b : reachable any b -> proper_sets b -> forall l i acc,
  skipn i (objects b) = l -> 0 <= acc -> acc + total particles_in l < 2 ^ 63 ->
  total_loop (b_mem b) (object_addr (b_h b) + 24 * Z.of_nat i) (length l) acc =
    Some (acc + total particles_in l).
Proof.
  intros R PS. induction l as [|o l IH]; intros i acc Hs Ha Hl.
  - cbn [length total_loop]. change (total particles_in []) with 0. now rewrite Z.add_0_r.
  - apply obj_split in Hs as (O & Hs). rewrite total_cons in *. cbn [length total_loop].
    assert (T0 : forall l' i', skipn i' (objects b) = l' -> 0 <= total particles_in l').
    { clear - PS. induction l' as [|o l IH]; intros i Hs; [change (total particles_in []) with 0; lia|].
      apply obj_split in Hs as (O & Hs). rewrite total_cons. pose proof (particles_le b i o PS O). specialize (IH _ Hs). lia. }
    pose proof (T0 l (S i) Hs) as T1. pose proof (particles_le b i o PS O) as (P0 & _). clear T0.
    destruct o as [t cells]. destruct (entry_ok b i t cells R O) as (e & _ & -> & _ & E2 & E3 & _).
    rewrite E3. cbn [bind]. unfold T_PARTICLE.
    replace (object_addr (b_h b) + 24 * Z.of_nat i + 24) with (object_addr (b_h b) + 24 * Z.of_nat (S i)) by lia.
    destruct (Z.eqb_spec t 1) as [->|Ht].
    + rewrite E2. cbn [bind]. pose proof (place_facts b i _ _ R O) as (Pp & _).
      rewrite (proj2 (Z.eqb_neq (place b i) 0)) by lia.
      destruct (PS i 1 cells O eq_refl) as (n & cols & S). destruct (set_read b i n cols R S) as (RN & _).
      rewrite RN. cbn [bind]. destruct S as (O' & C). rewrite int64_small by apply C.
      assert (E : (1, cells) = particle_set n cols) by congruence. rewrite E in *. rewrite particles_in_set in *.
      unfold add_int64. cbv zeta. rewrite (proj2 (Z.leb_le (- 2 ^ 63) _)), (proj2 (Z.ltb_lt (acc + n) (2 ^ 63))) by lia.
      cbn [andb bind]. rewrite IH by (auto; lia). f_equal. lia.
    + assert (P1 : particles_in (t, cells) = 0)
        by (unfold particles_in; cbn [fst]; rewrite (proj2 (Z.eqb_neq t 1)) by assumption; reflexivity).
      rewrite P1 in *. cbn [bind]. rewrite IH by (auto; lia). f_equal.
Qed.

Lemma total_ok b : reachable any b -> proper_sets b ->
  total_particles b = Some (total particles_in (objects b)).
Proof.
  intros R PS. unfold total_particles. rewrite (proj1 (num_objects_ok b R)). cbn [bind].
  destruct (Z.ltb_spec 0 (Z.of_nat (length (objects b)))) as [L|L].
  - rewrite Nat2Z.id. pose proof (total_loop_ok b R PS (objects b) 0 0 eq_refl) as X.
    change (24 * Z.of_nat 0) with 0 in X. rewrite Z.add_0_r in X. rewrite X; [reflexivity|lia|].
    pose proof (object_total b R) as T.
    assert (H : forall l i, skipn i (objects b) = l -> 21 * total particles_in l <= total words_in l).
    { induction l as [|o l IH]; intros i Hs; [change (total particles_in []) with 0; change (total words_in []) with 0; lia|].
      apply obj_split in Hs as (O & Hs). rewrite !total_cons. pose proof (particles_le b i o PS O). specialize (IH _ Hs). lia. }
    specialize (H (objects b) O eq_refl). lia.
  - destruct (objects b); [reflexivity|cbn [length] in L; lia].
Qed.

Lemma is_particles_ok b : reachable any b -> proper_sets b ->
  is_particles_buffer b = Some (negb (Nat.eqb (length (objects b)) 0) && forallb some_in (objects b)).
Proof.
  intros R PS. unfold is_particles_buffer. rewrite (proj1 (num_objects_ok b R)), (num_blocks_ok b R PS). cbn [bind].
  f_equal. f_equal.
  - destruct (objects b); [reflexivity|]. cbn [length]. reflexivity.
  - generalize (objects b). intros l.
    assert (K : (length (filter some_in l) <= length l)%nat).
    { clear. induction l as [|o l IH]; cbn [filter length]; [lia|]. destruct (some_in o); cbn [length]; lia. }
    induction l as [|o l IH]; [reflexivity|]. cbn [filter forallb length] in *.
    assert (K' : (length (filter some_in l) <= length l)%nat).
    { clear. induction l as [|x l IH]; cbn [filter length]; [lia|]. destruct (some_in x); cbn [length]; lia. }
    destruct (some_in o); cbn [length andb].
    + rewrite <- IH by lia. bdec; lia.
    + apply Z.eqb_neq. lia.
Qed.

(* ---------------- copies ---------------- *)

Lemma set_bytes b i n cols a k : reachable any b -> set_at b i n cols -> (a < 21)%nat -> 0 <= k < 8 * n ->
  mem_byte (b_mem b) (place b i + (176 + 8 * n * Z.of_nat a) + k) = Some (byte (nth a cols []) k).
Proof.
  intros R S Ha Hk. pose proof (Z.div_mod k 8 ltac:(lia)) as DM. pose proof (Z.mod_pos_bound k 8 ltac:(lia)) as MB.
  destruct (set_read b i n cols R S) as (_ & _ & R2). destruct S as (O & C).
  destruct (set_nth n cols C) as (N0 & _ & _ & W). destruct (particle_set n cols) as [t cells] eqn:E.
  cbn [snd] in N0. destruct (read_cell b i t cells 0 _ R O N0) as (_ & x & X1 & X2 & X3 & X4).
  unfold words_in, set_words in W. cbn [snd] in W.
  specialize (R2 a (k / 8) Ha ltac:(lia)). fold (place b i) in X1.
  set (y := x + 22 + n * Z.of_nat a + k / 8).
  assert (Y : 0 <= y < wlen (b_mem b)) by (unfold y; nia).
  replace (place b i + (176 + 8 * n * Z.of_nat a) + k) with (mbase (b_mem b) + 8 * y + k mod 8) by (unfold y; lia).
  rewrite mem_byte_ok by (auto; lia). f_equal. unfold byte.
  assert (WY : word (b_mem b) y = wnth (nth a cols []) (k / 8)).
  { unfold value in R2. replace (place b i + (176 + 8 * n * Z.of_nat a) + 8 * (k / 8)) with (mbase (b_mem b) + 8 * y) in R2 by (unfold y; lia).
    rewrite (rd_ok _ _ y) in R2 by lia. congruence. }
  now rewrite WY.
Qed.

Definition set_ptrs (b : buffer) (i : nat) (n : Z) : list Z :=
  map (fun a => place b i + (176 + 8 * n * a)) (zseq NUM).

Lemma set_ptrs_nth b i n a : (a < 21)%nat -> nth_error (set_ptrs b i n) a = Some (place b i + (176 + 8 * n * Z.of_nat a)).
Proof. intros Ha. unfold set_ptrs. rewrite nth_error_map, zseq_nth by (unfold NUM; lia). reflexivity. Qed.
Lemma set_ptrs_len b i n : length (set_ptrs b i n) = 21%nat.
Proof. unfold set_ptrs. rewrite map_length, zseq_length. reflexivity. Qed.

Lemma p_pointers_ok m p l : forall k, (k + length l <= 21)%nat ->
  (forall a w, nth_error l a = Some w -> rd m (p + (8 + 8 * Z.of_nat (k + a))) = Some w) ->
  p_pointers m p (map (fun a => 8 + 8 * Z.of_nat a) (List.seq k (length l))) = Some l.
Proof.
  induction l as [|w l IH]; intros k L H; [reflexivity|]. cbn [length List.seq map p_pointers].
  pose proof (H O w eq_refl) as H0. rewrite Nat.add_0_r in H0. rewrite H0. cbn [bind].
  cbn [length] in L. rewrite IH; [reflexivity|lia|]. intros a x Hx. rewrite <- (H (S a) x Hx).
  do 3 f_equal. lia.
Qed.

Lemma offsets_seq : p_offsets = map (fun a => 8 + 8 * Z.of_nat a) (List.seq 0 21).
Proof. reflexivity. Qed.

Lemma pointers_read m p l : length l = 21%nat ->
  (forall a w, nth_error l a = Some w -> rd m (p + (8 + 8 * Z.of_nat a)) = Some w) ->
  p_pointers m p p_offsets = Some l.
Proof.
  intros L H. rewrite offsets_seq, <- L. apply p_pointers_ok; [lia|]. exact H.
Qed.

Lemma byte_range l j : 0 <= byte l j < 256.
Proof. unfold byte. apply Z.mod_pos_bound. lia. Qed.

Lemma particles_copy_ok hp b bs i n cols : reachable any bs -> set_at bs i n cols ->
  reachable any b -> good_heap hp -> set_fits b n ->
  exists p b', particles_add_copy hp b (b_mem bs) (place bs i) = Some (p, b') /\
    added_object hp b p b' (fun o => o = particle_set n cols) (8 * (set_words n + 24)) (set_room b n) /\
    (0 < n -> keeps_full b p b').
Proof.
  intros RS S R Hh F. destruct (set_read bs i n cols RS S) as (R0 & R1 & _).
  pose proof S as (O & C). destruct (cols_len n cols C) as (FL & L). pose proof C as (Hn & L' & FC).
  pose proof (set_nth n cols C) as (_ & _ & _ & W).
  assert (PF : 0 < place bs i /\ place bs i + 8 * set_words n < 2 ^ 64).
  { rewrite <- W. unfold words_in. destruct (particle_set n cols) as [t cells]. eapply place_facts; eauto. }
  unfold set_words in PF.
  assert (PR : forall a w, nth_error (set_ptrs bs i n) a = Some w ->
    (a < 21)%nat /\ w = place bs i + (176 + 8 * n * Z.of_nat a)).
  { intros a w Hw. assert (La : (a < 21)%nat) by (rewrite <- (set_ptrs_len bs i n); apply nth_error_Some; congruence).
    split; [exact La|]. rewrite set_ptrs_nth in Hw by assumption. congruence. }
  destruct (particles_add_ok hp b (mem_byte (b_mem bs)) n (set_ptrs bs i n) R Hh) as (p & b' & E & AD & K);
    auto using set_ptrs_len; try lia.
  - apply Forall_forall. intros w Hw. apply In_nth_error in Hw as (a & Hw). apply PR in Hw as (La & ->). nia.
  - intros src Hs _ k Hk. apply In_nth_error in Hs as (a & Hs). apply PR in Hs as (La & ->).
    exists (byte (nth a cols []) k). split; [now apply set_bytes|apply byte_range].
  - exists p, b'. split; [|split; [|exact K]].
    + unfold particles_add_copy. rewrite (proj2 (Z.eqb_neq (place bs i) 0)) by lia. rewrite R0. cbn [bind].
      rewrite (pointers_read _ _ (set_ptrs bs i n)); [exact E|apply set_ptrs_len|].
      intros a w Hw. apply PR in Hw as (La & ->). now apply R1.
    + destruct AD as [A1 A2 A3 A4]. split; auto. intros Hp. destruct (A1 Hp) as ((o & (cols' & -> & C' & F2) & Eo) & X).
      split; [|exact X]. exists (particle_set n cols'). split; [|exact Eo]. f_equal.
      destruct (cols_len n cols' C') as (FL' & LC'). destruct C' as (_ & _ & FC').
      apply (nth_ext cols' cols [] []); [lia|]. intros a Ha.
      assert (I1 : In (nth a cols []) cols) by (apply nth_In; lia).
      assert (I2 : In (nth a cols' []) cols') by (apply nth_In; lia).
      destruct (proj1 (Forall_forall _ _) FC _ I1) as (W1 & W2).
      destruct (proj1 (Forall_forall _ _) FC' _ I2) as (V1 & V2).
      apply words_bytes; auto; [lia|]. intros j Hj. rewrite V1 in Hj.
      assert (Na : nth_error cols' a = Some (nth a cols' [])) by (apply nth_error_nth'; lia).
      assert (Np : nth_error (set_ptrs bs i n) a = Some (place bs i + (176 + 8 * n * Z.of_nat a)))
        by (apply set_ptrs_nth; lia).
      assert (AR : array_of (mem_byte (b_mem bs)) (place bs i + (176 + 8 * n * Z.of_nat a)) (8 * n) (nth a cols' [])).
      { exact (f2_nth _ _ _ _ _ _ F2 Np Na). }
      destruct AR as (_ & _ & AR). specialize (AR j). rewrite (Z.mul_comm 8 n), words_of_8, (Z.mul_comm n 8) in AR.
      specialize (AR ltac:(lia)). rewrite (proj2 (Z.eqb_neq _ 0)) in AR by nia.
      rewrite (proj2 (Z.ltb_lt j _)) in AR by lia. cbn [negb andb] in AR.
      rewrite (set_bytes bs i n cols a j RS S) in AR by lia. congruence.
Qed.
