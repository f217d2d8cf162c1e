(* Creating the default elements of a line. *)
From Coq Require Import ZArith List Bool Lia.
From Verif Require Import Tac MBuf MBufSpec MBufMem MBufAbs MemPool Buffer BufferSpec BufferUser
  BufferProofs BufferAddMem BufferAdd BufferAddLoop BufferAddMain BufferReach BufferProps
  Lines LinesSpec LinesProofs LinesCopy ElementAdd ElementAddSpec ElementAddProofs ElementNew ElementNewSpec.
Import ListNotations.
Local Open Scope Z_scope.

(* one addition *)
Definition rcost (q : request) : Z :=
  8 * (object_words (rq_size q) (rq_attrs q) + 3 + zlen (rq_attrs q)).

Lemma add_full hp b Ab q : good_heap hp -> reachable full_arrays b -> binv b Ab -> bview b Ab ->
  call_ok (rq_mem q) (rq_obj q) (rq_size q) (rq_attrs q) -> full_arrays q ->
  data_size (b_h b) + rcost q + 32 < 2 ^ 64 ->
  exists r b', add hp b q = Some (r, b') /\
    (r <> 0 -> exists o Ab', stored_as q o /\ reachable full_arrays b' /\ objects b' = objects b ++ [o] /\
         binv b' Ab' /\ bview b' Ab' /\
         zlen (a_cells Ab') = zlen (a_cells Ab) + words_in o /\
         zlen (a_objs Ab') = zlen (a_objs Ab) + 1 /\
         zlen (a_dps Ab') = zlen (a_dps Ab) + zlen (rq_attrs q) /\
         data_size (b_h b') <= data_size (b_h b) + rcost q /\
         (has_room b q -> a_ms Ab' = a_ms Ab /\ a_mo Ab' = a_mo Ab /\ a_md Ab' = a_md Ab /\
            data_addr (b_h b') = data_addr (b_h b)) /\
         (added_only b -> added_only b')) /\
    (r = 0 -> objects b' = objects b) /\
    (has_room b q -> r <> 0) /\
    (added_only b -> memory_up_to hp (data_size (b_h b) + rcost q + 16) -> r <> 0).
Proof.
  intros Hh HR Ib Vb CC FA HD.
  assert (RQ : request_ok b q) by (split; [exact CC|exact HD]).
  assert (HRa : reachable any b) by (eapply reachable_mono; [|exact HR]; exact (fun _ _ => Logic.I)).
  destruct (add_defined hp b q HRa Hh RQ) as (r & b' & Ea). exists r, b'. split; [exact Ea|].
  destruct (Z.eq_dec r 0) as [->|Hr].
  - split; [congruence|]. split.
    { intros _. apply (add_failed hp b q b' HRa Hh RQ); [now apply reach_no_end|exact Ea]. }
    split.
    { intros HR2. destruct (add_with_room hp b q HRa Hh RQ HR2) as (r2 & b2 & E2 & N2 & _). congruence. }
    { intros AO MM. destruct (add_fresh hp b q AO Hh MM RQ) as (r2 & b2 & E2 & N2). congruence. }
  - split; [|split; [congruence|split; [intros; assumption|intros; assumption]]]. intros _.
    pose proof RQ as (RQ1 & RQ2).
    destruct (add_all hp b Ab (rq_mem q) (rq_obj q) (rq_size q) (rq_type q) (rq_attrs q) Hh Ib Vb RQ1 RQ2)
      as (r2 & b2 & E2 & T & T2 & T3 & _).
    pose proof Ea as Ea0. unfold add in Ea. rewrite Ea in E2. assert (r = r2) as <- by congruence.
    assert (b' = b2) as <- by congruence.
    destruct (T Hr) as (ow' & arrs' & A' & OD & I' & V' & C' & O' & R' & Ce & Wo & LA & SW & Zd & Mg & Ro & Nr).
    clear T E2. set (o := (rq_type q, expected_object ow' (rq_attrs q) arrs')) in *.
    assert (LE : zlen (expected_object ow' (rq_attrs q) arrs') = words_in o) by reflexivity.
    assert (LW : words_in o = object_words (rq_size q) (rq_attrs q)).
    { rewrite <- LE, expected_length, Wo, SW, object_words_eq. reflexivity. }
    exists o, A'. split; [exists ow', arrs'; split; [exact OD|reflexivity]|].
    split; [apply (r_add _ hp b q r b' HR Hh RQ FA Ea0 Hr)|].
    split; [now rewrite (objects_eq _ _ Ib), (objects_eq _ _ I')|].
    split; [assumption|]. split; [assumption|].
    assert (Zc : zlen (a_cells A') = zlen (a_cells Ab) + words_in o)
      by (rewrite Ce, zlen_app, zlen_map, LE; lia).
    assert (Zo : zlen (a_objs A') = zlen (a_objs Ab) + 1) by (rewrite O', zlen_app; reflexivity).
    split; [assumption|]. split; [assumption|]. split; [assumption|].
    assert (DR : room Ab (rq_size q) (rq_attrs q) \/ ~ room Ab (rq_size q) (rq_attrs q)).
    { unfold room. destruct (Z_le_dec (zlen (a_cells Ab) + object_words (rq_size q) (rq_attrs q)) (a_ms Ab)),
        (Z_le_dec (zlen (a_objs Ab) + 1) (a_mo Ab)), (Z_le_dec (zlen (a_dps Ab) + zlen (rq_attrs q)) (a_md Ab)); tauto. }
    split.
    { rewrite (bi_dsize _ _ Ib), (bi_dsize _ _ I'). unfold tot. rewrite Mg.
      pose proof (ok_bounds Ab (re_ok _ _ _ (bi_repr _ _ Ib))) as (?&?&?&?).
      unfold rcost. rewrite <- LW. pose proof (zlen_nonneg (rq_attrs q)).
      assert (0 <= words_in o) by (unfold words_in; lia).
      destruct DR as [D|D].
      - destruct (Ro D) as (-> & -> & ->). lia.
      - destruct (Nr D) as (-> & -> & ->). lia. }
    split.
    { intros HR2. apply (has_room_iff b Ab q Ib) in HR2.
      destruct (Ro HR2) as (X1 & X2 & X3). split; [assumption|]. split; [assumption|]. split; [assumption|].
      rewrite (bi_addr _ _ Ib), (bi_addr _ _ I'). apply T3. assumption. }
    { intros AO. apply (ao_add hp b q r b' AO Hh RQ FA Ea0 Hr). }
Qed.

(* ------------------------------------------------------------------ *)
(* the words of the new element *)
Definition element_data (o : Z * list cell) (size : Z) (ow : list Z) (arrs : list (list Z)) : Prop :=
  element_size (fst o) = Some size /\ 8 * wcount ow = size /\ words64 ow /\
  Forall2 (fun x a => wcount a = at_count x /\ 0 < at_count x /\ words64 a)
      (element_arrays (fst o) ow) arrs /\
  snd o = expected_object ow (element_arrays (fst o) ow) arrs.

Lemma number_ok o size ow arrs k : element_data o size ow arrs -> Z.of_nat k < wcount ow ->
  (forall x, In x (element_arrays (fst o) ow) -> at_offset x <> 8 * Z.of_nat k) ->
  number o k = wnth ow (Z.of_nat k).
Proof.
  intros (E1 & E2 & E3 & E4 & E5) Hk HA. unfold number. rewrite E5.
  assert (L : length (element_arrays (fst o) ow) = length arrs) by (clear - E4; induction E4; cbn [length]; auto).
  pose proof (expected_raw ow _ arrs L (Z.of_nat k) ltac:(lia) HA) as X. rewrite Nat2Z.id in X. now rewrite X.
Qed.

Lemma word0 : 0 <= 0 < 2 ^ 64. Proof. split; reflexivity || lia. Qed.
Ltac wordc := split; [vm_compute; discriminate|reflexivity].

Lemma blank_facts F o size ow arrs : doubles F -> element_data o size ow arrs -> fst o <> 14 ->
  let dw := default_words F o in
  element_arrays (fst o) dw = element_arrays (fst o) ow /\ 8 * wcount dw = size /\ words64 dw /\
  (forall x, In x (element_arrays (fst o) dw) -> wnth dw (at_offset x / 8) = 0).
Proof.
  intros (DX & DY & DM) HE N14 dw. pose proof HE as (E1 & E2 & E3 & E4 & E5).
  assert (MI : forall w, 0 <= w < 2 ^ 64 -> 0 <= minus w < 2 ^ 64).
  { intros w Hw. unfold minus. assert (2 ^ 64 = 2 * 2 ^ 63) by reflexivity.
    destruct (Z.ltb_spec w (2 ^ 63)); lia. }
  pose proof (element_cases _ _ E1) as C. destruct o as [t cells]. cbn [fst snd] in *.
  destruct C as [C|[(-> & ->)|[(-> & ->)|[(-> & ->)|[(-> & ->)|(-> & ->)]]]]].
  - unfold plain_list in C. cbn [In] in C.
    repeat (destruct C as [C|C]; [injection C as <- <-; try (exfalso; lia); 
      (split; [reflexivity|]; split; [reflexivity|]; split;
        [unfold dw, default_words; cbv zeta; cbn [fst Z.eqb Pos.eqb]; repeat constructor; 
         first [apply DX | apply DY | apply DM | apply (MI _ DX) | apply (MI _ DY) | vm_compute; discriminate | reflexivity]
        |intros x []])|]). destruct C.
  - assert (N0 : number (4, cells) 0 = wnth ow 0).
    { apply (number_ok _ _ _ _ 0 HE); [change (Z.of_nat 0) with 0; lia|]. intros x [<-|[]]. cbn. lia. }
    unfold dw, default_words. cbv zeta. cbn [fst Z.eqb Pos.eqb]. rewrite N0. split; [reflexivity|]. split; [reflexivity|].
    pose proof (wnth_range ow 0 E3). split.
    + constructor; [assumption|]. repeat constructor; wordc || (vm_compute; discriminate) || reflexivity.
    + intros x [<-|[]]. reflexivity.
  - assert (N0 : number (256, cells) 0 = wnth ow 0).
    { apply (number_ok _ _ _ _ 0 HE); [change (Z.of_nat 0) with 0; lia|]. intros x [<-|[<-|[]]]; cbn; lia. }
    unfold dw, default_words. cbv zeta. cbn [fst Z.eqb Pos.eqb]. rewrite N0. split; [reflexivity|]. split; [reflexivity|].
    pose proof (wnth_range ow 0 E3). split.
    + constructor; [assumption|]. repeat constructor; (vm_compute; discriminate) || reflexivity.
    + intros x [<-|[<-|[]]]; reflexivity.
  - assert (N0 : number (8, cells) 0 = wnth ow 0).
    { apply (number_ok _ _ _ _ 0 HE); [change (Z.of_nat 0) with 0; lia|]. intros x [<-|[]]. cbn. lia. }
    unfold dw, default_words. cbv zeta. cbn [fst Z.eqb Pos.eqb]. rewrite N0. split; [reflexivity|]. split; [reflexivity|].
    pose proof (wnth_range ow 0 E3). split.
    + constructor; [assumption|]. repeat constructor; (vm_compute; discriminate) || reflexivity.
    + intros x [<-|[]]; reflexivity.
  - assert (N0 : number (9, cells) 0 = wnth ow 0).
    { apply (number_ok _ _ _ _ 0 HE); [change (Z.of_nat 0) with 0; lia|]. intros x [<-|[]]. cbn. lia. }
    unfold dw, default_words. cbv zeta. cbn [fst Z.eqb Pos.eqb]. rewrite N0. split; [reflexivity|]. split; [reflexivity|].
    pose proof (wnth_range ow 0 E3). split.
    + constructor; [assumption|]. repeat constructor; (vm_compute; discriminate) || reflexivity.
    + intros x [<-|[]]; reflexivity.
  - assert (N2 : number (260, cells) 2 = wnth ow 2).
    { apply (number_ok _ _ _ _ 2 HE); [change (Z.of_nat 2) with 2; lia|]. intros x [<-|[]]. cbn. lia. }
    assert (N5 : number (260, cells) 5 = wnth ow 5).
    { apply (number_ok _ _ _ _ 5 HE); [change (Z.of_nat 5) with 5; lia|]. intros x [<-|[]]. cbn. lia. }
    assert (N8 : number (260, cells) 8 = wnth ow 8).
    { apply (number_ok _ _ _ _ 8 HE); [change (Z.of_nat 8) with 8; lia|]. intros x [<-|[]]. cbn. lia. }
    unfold dw, default_words. cbv zeta. cbn [fst Z.eqb Pos.eqb]. rewrite N2, N5, N8. split; [reflexivity|]. split; [reflexivity|].
    pose proof (wnth_range ow 2 E3) as W2. pose proof (wnth_range ow 5 E3) as W5. pose proof (wnth_range ow 8 E3) as W8. split.
    + repeat (constructor; [first [exact W2 | exact W5 | exact W8 | wordc]|]). constructor.
    + intros x [<-|[]]; reflexivity.
Qed.

(* the new element as it is stored *)
Definition zeros (at_ : list attr) : list (list Z) := map (fun x => repeat 0 (Z.to_nat (at_count x))) at_.

Lemma words_of8 n : words_of (8 * n) = n.
Proof. unfold words_of. rewrite Z.add_comm, (Z.mul_comm 8), Z.div_add by lia. reflexivity. Qed.

Lemma byte_zeros n j : 0 <= j < 8 * Z.of_nat n -> byte (repeat 0 n) j = 0.
Proof.
  intros H. unfold byte, wnth. pose proof (Z.div_mod j 8 ltac:(lia)). pose proof (Z.mod_pos_bound j 8 ltac:(lia)).
  rewrite nth_repeat. rewrite Z.div_0_l; [reflexivity|]. apply Z.pow_nonzero; lia.
Qed.

Lemma stored_blank t dw at_ o' : words64 dw ->
  (forall x, In x at_ -> at_size x = 8 /\ 0 <= at_count x /\ wnth dw (at_offset x / 8) = 0) ->
  stored_as (request_of (fun _ => None) (t, dw, at_)) o' -> o' = (t, expected_object dw at_ (zeros at_)).
Proof.
  intros H64 HA (ow' & arrs' & ((S1 & S2 & S3) & S4) & ->).
  unfold request_of in *. cbn [rq_mem rq_obj rq_size rq_attrs rq_type fst snd] in *. f_equal.
  change (Z.of_nat (length dw)) with (wcount dw) in *. rewrite words_of8 in S1.
  assert (ow' = dw) as ->.
  { apply (nth_ext _ _ 0 0); [unfold wcount in S1; lia|]. intros k Hk. unfold wcount in *.
    specialize (S3 (Z.of_nat k) ltac:(lia) ltac:(lia)). unfold wnth in S3. now rewrite Nat2Z.id in S3. }
  f_equal. clear S1 S2 S3. unfold zeros.
  assert (G : forall l l', (forall x, In x l -> at_size x = 8 /\ 0 <= at_count x /\ wnth dw (at_offset x / 8) = 0) ->
    Forall2 (fun x ws => array_of (fun _ => None) (wnth dw (at_offset x / 8)) (attr_bytes x) ws) l l' ->
    l' = map (fun x => repeat 0 (Z.to_nat (at_count x))) l).
  { intros l l' HL F2. induction F2 as [|x a l l' (A1 & A2 & A3) F2 IH]; [reflexivity|]. cbn [map].
    destruct (HL x (or_introl eq_refl)) as (X1 & X2 & X3).
    rewrite IH by (intros y Hy; apply HL; now right). f_equal.
    assert (B : words_of (attr_bytes x) = at_count x)
      by (unfold attr_bytes; rewrite X1, Z.mul_comm; apply words_of8).
    rewrite B in *. apply words_bytes.
    - exact A2.
    - apply Forall_forall. intros w Hw. apply repeat_spec in Hw. subst w. exact word0.
    - rewrite A1. unfold wcount. rewrite repeat_length, Z2Nat.id by lia. reflexivity.
    - intros j Hj. rewrite A1 in Hj. specialize (A3 j Hj). rewrite X3 in A3. change (0 =? 0) with true in A3.
      cbn [negb andb] in A3. rewrite A3. symmetry. apply byte_zeros. lia. }
  exact (G _ _ HA S4).
Qed.

(* the call for an element *)
Definition call_for (o : Z * list cell) : call :=
  let t := fst o in
  if t =? 2 then NewDrift else if t =? 3 then NewDriftExact
  else if t =? 4 then NewMultipole (number o 0) else if t =? 5 then NewCavity
  else if t =? 6 then NewXYShift else if t =? 7 then NewSRotation
  else if t =? 8 then NewBeamBeam4D (number o 0) else if t =? 9 then NewBeamBeam6D (number o 0)
  else if t =? 10 then NewMonitor else if t =? 11 then NewLimitRect else if t =? 12 then NewLimitEllipse
  else if t =? 13 then NewSCCoasting else if t =? 14 then NewSCQGauss
  else if t =? 16 then NewLimitRectEllipse else if t =? 24 then NewDipoleEdge
  else if t =? 256 then NewRFMultipole (number o 0) else if t =? 257 then NewSCInterpolated
  else if t =? 260 then NewTriCubData (number o 2) (number o 5) (number o 8) else NewTriCub.

Definition status_for (t a : Z) : Z :=
  if existsb (Z.eqb t) [8; 9; 10; 11; 12; 13; 14; 16; 24; 257] then st_bool a else st_sign a.

Lemma signed_ok w : 0 <= w < 2 ^ 63 -> (0 <=? signed w) = true.
Proof. intros H. unfold signed. rewrite (proj2 (Z.ltb_lt _ _)) by lia. apply Z.leb_le. lia. Qed.

Lemma wanted_blank F o size ow arrs : element_data o size ow arrs -> fst o <> 9 -> fst o <> 14 ->
  (fst o = 8 -> 11 <= number o 0) -> (forall x, In x (element_arrays (fst o) ow) -> at_count x < 2 ^ 61 /\ 0 < at_count x) ->
  let dw := default_words F o in
  wanted F (call_for o) = Some (fst o, dw, element_arrays (fst o) dw) /\ faithful (call_for o) /\ plane_fits (call_for o).
Proof.
  intros HE N9 N14 N8 SA dw. pose proof HE as (E1 & E2 & E3 & E4 & E5).
  pose proof (element_cases _ _ E1) as C. destruct o as [t cells]. cbn [fst snd] in *.
  destruct C as [C|[(-> & ->)|[(-> & ->)|[(-> & ->)|[(-> & ->)|(-> & ->)]]]]].
  - unfold plain_list in C. cbn [In] in C. clear SA E4 E5 HE E1 E2 N8.
    repeat (destruct C as [C|C]; [injection C as <- <-; try (exfalso; lia);
      (split; [reflexivity|split; exact Logic.I])|]). destruct C.
  - assert (N0 : number (4, cells) 0 = wnth ow 0).
    { apply (number_ok _ _ _ _ 0 HE); [change (Z.of_nat 0) with 0; lia|]. intros x [<-|[]]. cbn. lia. }
    specialize (SA _ (or_introl eq_refl)). cbn [at_count] in SA.
    pose proof (wnth_range ow 0 E3). assert (2 ^ 61 < 2 ^ 63) by reflexivity.
    unfold dw, call_for, default_words. cbv zeta. cbn [fst Z.eqb Pos.eqb]. rewrite N0.
    split; [|split; exact Logic.I]. unfold wanted. cbv zeta. rewrite signed_ok by lia. reflexivity.
  - assert (N0 : number (256, cells) 0 = wnth ow 0).
    { apply (number_ok _ _ _ _ 0 HE); [change (Z.of_nat 0) with 0; lia|]. intros x [<-|[<-|[]]]; cbn; lia. }
    specialize (SA _ (or_introl eq_refl)). cbn [at_count] in SA.
    pose proof (wnth_range ow 0 E3). assert (2 ^ 61 < 2 ^ 63) by reflexivity.
    unfold dw, call_for, default_words. cbv zeta. cbn [fst Z.eqb Pos.eqb]. rewrite N0.
    split; [|split; exact Logic.I]. unfold wanted. cbv zeta. rewrite signed_ok by lia. reflexivity.
  - unfold dw, call_for, default_words. cbv zeta. cbn [fst Z.eqb Pos.eqb].
    split; [|split; exact Logic.I]. unfold wanted. cbv zeta. rewrite (proj2 (Z.leb_le 11 _) (N8 eq_refl)), orb_true_r.
    reflexivity.
  - congruence.
  - assert (N2 : number (260, cells) 2 = wnth ow 2).
    { apply (number_ok _ _ _ _ 2 HE); [change (Z.of_nat 2) with 2; lia|]. intros x [<-|[]]. cbn. lia. }
    assert (N5 : number (260, cells) 5 = wnth ow 5).
    { apply (number_ok _ _ _ _ 5 HE); [change (Z.of_nat 5) with 5; lia|]. intros x [<-|[]]. cbn. lia. }
    assert (N8' : number (260, cells) 8 = wnth ow 8).
    { apply (number_ok _ _ _ _ 8 HE); [change (Z.of_nat 8) with 8; lia|]. intros x [<-|[]]. cbn. lia. }
    specialize (SA _ (or_introl eq_refl)). cbn [at_count] in SA.
    pose proof (wnth_range ow 2 E3) as W2. pose proof (wnth_range ow 5 E3) as W5. pose proof (wnth_range ow 8 E3) as W8.
    unfold dw, call_for, default_words. cbv zeta. cbn [fst Z.eqb Pos.eqb]. rewrite N2, N5, N8'.
    unfold wanted, plane_fits, faithful. cbv zeta.
    set (x := wnth ow 2) in *. set (y := wnth ow 5) in *. set (z := wnth ow 8) in *.
    assert (B : 2 ^ 61 < 2 ^ 63) by reflexivity. clear - SA W2 W5 W8 B.
    assert (P : 0 < 8 * x * y * z < 2 ^ 61) by lia.
    assert (PX : 0 < x) by nia. assert (PY : 0 < y) by nia. assert (PZ : 0 < z) by nia.
    assert (PXY : x * y < 2 ^ 61).
    { assert (x * y * 1 <= x * y * z) by (apply Z.mul_le_mono_nonneg_l; nia). lia. }
    assert (x * 1 <= x * y) by (apply Z.mul_le_mono_nonneg_l; lia).
    assert (y * 1 <= y * x) by (apply Z.mul_le_mono_nonneg_l; lia).
    assert (z * 1 <= z * (x * y)) by (apply Z.mul_le_mono_nonneg_l; nia).
    rewrite !signed_ok by lia. cbn [andb]. split; [|split; [exact Logic.I|lia]]. unfold only_if.
    change (element_arrays 260 [zero; zero; x; zero; zero; y; zero; zero; z; 0; 0; 0; 0])
      with [Attr 96 8 (8 * x * y * z)].
    replace (8 * (x * y * z)) with (8 * x * y * z) by ring. reflexivity.
Qed.

Lemma zeros_ok at_ arrs : Forall2 (fun x a => wcount a = at_count x /\ 0 < at_count x /\ words64 a) at_ arrs ->
  Forall2 (fun x a => wcount a = at_count x /\ 0 < at_count x /\ words64 a) at_ (zeros at_).
Proof.
  unfold zeros. induction 1 as [|x a l l' (X1 & X2 & X3) F2 IH]; cbn [map]; constructor; [|exact IH].
  split; [unfold wcount; rewrite repeat_length; lia|]. split; [exact X2|].
  apply Forall_forall. intros w Hw. apply repeat_spec in Hw. subst w. exact word0.
Qed.

Lemma counts_pos at_ arrs : Forall2 (fun x a => wcount a = at_count x /\ 0 < at_count x /\ words64 a) at_ arrs ->
  forall x, In x at_ -> 0 < at_count x.
Proof. induction 1 as [|y a l l' (X1 & X2 & X3) F2 IH]; intros x; [intros []|]. intros [<-|H]; auto. Qed.

(* ------------------------------------------------------------------ *)
(* one element of the line *)
Section One.
Variables (bs : buffer) (A : abs).
Hypothesis I : binv bs A.
Hypothesis V : bview bs A.
Local Notation m := (b_mem bs).
Local Notation B := (mbase (b_mem bs)).
Variables (i : nat) (s n t : Z).
Hypothesis HN : nth_error (a_objs A) i = Some (s, n, t).
Variables (size : Z) (ow : list Z) (arrs : list (list Z)).
Hypothesis HS : element_size t = Some size.
Hypothesis HW : 8 * wcount ow = size.
Hypothesis H64 : words64 ow.
Local Notation at_ := (element_arrays t ow).
Hypothesis HF : Forall2 (fun x a => wcount a = at_count x /\ 0 < at_count x /\ words64 a) at_ arrs.
Local Notation E := (expected_object ow at_ arrs).
Hypothesis HE : map (rel_cell s) (slice (a_cells A) s n) = E.

Lemma data : element_data (t, E) size ow arrs.
Proof using HS HW H64 HF. repeat split; assumption. Qed.

Lemma rd_number k : (k < 10)%nat -> Z.of_nat k < wcount ow -> (forall x, In x at_ -> at_offset x <> 8 * Z.of_nat k) ->
  rd m (B + 80 + 8 * s + 8 * Z.of_nat k) = Some (number (t, E) k).
Proof using I HN HS HW H64 HF HE.
  intros Hk Hk' HA. rewrite (number_ok _ _ _ _ k data Hk' HA).
  pose proof (src_bounds bs A I i s n t HN ow arrs HF HE) as (S1 & S2 & S3 & S4 & S5 & S6 & S7 & S8).
  pose proof (sumw_nonneg arrs).
  rewrite <- (src_raw bs A I i s n t HN size ow arrs HS HW HF HE (Z.of_nat k)) by (assumption || lia).
  apply rd_ok; lia.
Qed.

Lemma add_single_eq F hp b stack :
  add_single_new F hp b stack m (entry_addr bs i) =
  with_status (status_for t) (new_element F hp b stack (call_for (t, E))).
Proof using I V HN HS HW H64 HF HE.
  destruct (entry_words bs A i s n t I V HN) as (E0 & E1 & E2).
  unfold add_single_new. assert (Ez : (entry_addr bs i =? 0) = false) by now apply Z.eqb_neq.
  rewrite Ez, E1. cbn [bind]. rewrite E2. cbn [bind].
  pose proof rd_number as RN. pose proof (element_cases t size HS) as C.
  destruct C as [C|[(-> & ->)|[(-> & ->)|[(-> & ->)|[(-> & ->)|(-> & ->)]]]]].
  - clear RN HF HE HS HW H64. unfold plain_list in C. cbn [In] in C. unfold call_for. cbv zeta. cbn [fst].
    repeat (destruct C as [C|C]; [injection C as <- <-; reflexivity|]). destruct C.
  - specialize (RN 0%nat ltac:(lia) ltac:(change (Z.of_nat 0) with 0; lia)).
    change (Z.of_nat 0) with 0 in RN. change (8 * 0) with 0 in RN. rewrite Z.add_0_r in RN.
    change (4 =? T_DRIFT) with false. change (4 =? T_DRIFT_EXACT) with false.
    change (4 =? T_MULTIPOLE) with true. cbn iota. rewrite RN; [reflexivity|]. intros x [<-|[]]. cbn. lia.
  - specialize (RN 0%nat ltac:(lia) ltac:(change (Z.of_nat 0) with 0; lia)).
    change (Z.of_nat 0) with 0 in RN. change (8 * 0) with 0 in RN. rewrite Z.add_0_r in RN.
    change (256 =? T_DRIFT) with false. change (256 =? T_DRIFT_EXACT) with false.
    change (256 =? T_MULTIPOLE) with false. change (256 =? T_RF_MULTIPOLE) with true. cbn iota.
    rewrite RN; [reflexivity|]. intros x [<-|[<-|[]]]; cbn; lia.
  - specialize (RN 0%nat ltac:(lia) ltac:(change (Z.of_nat 0) with 0; lia)).
    change (Z.of_nat 0) with 0 in RN. change (8 * 0) with 0 in RN. rewrite Z.add_0_r in RN.
    cbv zeta. cbn [T_DRIFT T_DRIFT_EXACT T_MULTIPOLE T_RF_MULTIPOLE T_XYSHIFT T_SROTATION T_CAVITY T_BB4D Z.eqb Pos.eqb].
    rewrite RN; [reflexivity|]. intros x [<-|[]]; cbn; lia.
  - specialize (RN 0%nat ltac:(lia) ltac:(change (Z.of_nat 0) with 0; lia)).
    change (Z.of_nat 0) with 0 in RN. change (8 * 0) with 0 in RN. rewrite Z.add_0_r in RN.
    cbv zeta. cbn [T_DRIFT T_DRIFT_EXACT T_MULTIPOLE T_RF_MULTIPOLE T_XYSHIFT T_SROTATION T_CAVITY T_BB4D T_BB6D Z.eqb Pos.eqb].
    rewrite RN; [reflexivity|]. intros x [<-|[]]; cbn; lia.
  - pose proof (RN 2%nat ltac:(lia) ltac:(lia)) as R2. pose proof (RN 5%nat ltac:(lia) ltac:(lia)) as R5.
    pose proof (RN 8%nat ltac:(lia) ltac:(lia)) as R8. clear RN.
    change (8 * Z.of_nat 2) with 16 in *. change (8 * Z.of_nat 5) with 40 in *. change (8 * Z.of_nat 8) with 64 in *.
    cbv zeta. change (260 =? T_DRIFT) with false. change (260 =? T_DRIFT_EXACT) with false.
    change (260 =? T_MULTIPOLE) with false. change (260 =? T_RF_MULTIPOLE) with false.
    change (260 =? T_XYSHIFT) with false. change (260 =? T_SROTATION) with false. change (260 =? T_CAVITY) with false.
    change (260 =? T_BB4D) with false. change (260 =? T_BB6D) with false. change (260 =? T_SC_COASTING) with false.
    change (260 =? T_SC_QGAUSS) with false. change (260 =? T_SC_INTERPOLATED) with false. change (260 =? T_MONITOR) with false.
    change (260 =? T_LIMIT_RECT) with false. change (260 =? T_LIMIT_ELLIPSE) with false.
    change (260 =? T_LIMIT_RECT_ELLIPSE) with false. change (260 =? T_DIPEDGE) with false. change (260 =? T_TRICUB) with false.
    change (260 =? T_TRICUB_DATA) with true. cbn iota.
    rewrite R2 by (intros x [<-|[]]; cbn; lia). cbn [bind].
    rewrite R5 by (intros x [<-|[]]; cbn; lia). cbn [bind].
    rewrite R8 by (intros x [<-|[]]; cbn; lia). reflexivity.
Qed.

Variable F : floats.
Hypothesis DF : doubles F.
Hypothesis LS : limits_squared F.
Hypothesis N9 : t <> 9.
Hypothesis N14 : t <> 14.
Hypothesis N8 : t = 8 -> 11 <= number (t, E) 0.

Local Notation o := (t, E).
Local Notation dw := (default_words F o).
Local Notation qb := (request_of (fun _ => None) (t, dw, element_arrays t dw)).

Lemma blank_element : element_data (blank F o) size dw (zeros at_).
Proof using HS HW H64 HF DF N14 N9.
  destruct (blank_facts F o size ow arrs DF data N14) as (B1 & B2 & B3 & B4). cbn [fst] in *.
  split; [exact HS|]. split; [exact B2|]. split; [exact B3|].
  change (fst (blank F o)) with t. rewrite B1. split.
  - exact (zeros_ok _ _ HF).
  - unfold blank. cbv zeta. cbn [snd fst]. rewrite B1. reflexivity.
Qed.

Lemma blank_cost : words_in (blank F o) = words_in o /\ pointers_in (blank F o) = pointers_in o /\
  rcost qb = cost o /\ object_words size (element_arrays t dw) = words_in o /\ zlen (element_arrays t dw) = pointers_in o.
Proof using HS HW H64 HF DF N14 N9.
  pose proof blank_element as (_ & B2 & _ & B4 & B5). change (fst (blank F o)) with t in *.
  assert (WB : words_in (blank F o) = object_words size (element_arrays t dw)).
  { unfold words_in. rewrite B5, (request_words t size dw (zeros at_) HS B2 B4). apply expected_length. }
  assert (PB : pointers_in (blank F o) = zlen (element_arrays t dw)).
  { unfold pointers_in. rewrite B5. apply (ptr_count t size dw (zeros at_) HS B2 B4). }
  assert (WO : words_in o = object_words size at_).
  { unfold words_in. cbn [snd]. rewrite (request_words t size ow arrs HS HW HF). apply expected_length. }
  assert (PO : pointers_in o = zlen at_) by (unfold pointers_in; cbn [snd]; apply (ptr_count t size ow arrs HS HW HF)).
  destruct (blank_facts F o size ow arrs DF data N14) as (B1 & _). cbn [fst] in B1.
  rewrite WB, PB, WO, PO, B1. split; [reflexivity|]. split; [reflexivity|]. split; [|split; reflexivity].
  unfold rcost, request_of, cost. cbn [rq_size rq_attrs fst snd].
  change (Z.of_nat (length dw)) with (wcount dw). rewrite B2, WO, PO. reflexivity.
Qed.

Lemma blank_call : call_ok (rq_mem qb) (rq_obj qb) (rq_size qb) (rq_attrs qb) /\ full_arrays qb.
Proof using HS HW H64 HF DF N14 N9.
  destruct (blank_facts F o size ow arrs DF data N14) as (B1 & B2 & B3 & B4). cbn [fst] in *.
  destruct (arrays_facts t size dw HS) as (ND & AF). pose proof (size_facts t size HS) as (SZ & _).
  assert (CT : forall x, In x (element_arrays t dw) -> 0 < at_count x).
  { intros x. rewrite B1. apply (counts_pos _ _ HF). }
  unfold request_of. cbn [rq_mem rq_obj rq_size rq_attrs fst snd].
  change (Z.of_nat (length dw)) with (wcount dw). rewrite B2. split.
  - constructor.
    + exact SZ.
    + rewrite <- B2, words_of8. lia.
    + exact B3.
    + intros x Hx. specialize (AF x Hx). lia.
    + exact ND.
    + intros x Hx. specialize (AF x Hx). specialize (CT x Hx). lia.
    + intros x Hx j _ Hn. elim Hn. apply B4. exact Hx.
  - intros x Hx. unfold attr_bytes. cbn [rq_attrs] in Hx. destruct (AF x Hx) as (_ & _ & _ & ->). specialize (CT x Hx). lia.
Qed.

Lemma new_one_inv hp b Ab stack : good_heap hp -> reachable full_arrays b -> binv b Ab -> bview b Ab ->
  data_size (b_h b) + cost o + 32 < 2 ^ 64 ->
  exists r b', add_single_new F hp b stack m (entry_addr bs i) = Some (status_for t r, b') /\
    (r <> 0 -> reachable full_arrays b' /\ objects b' = objects b ++ [blank F o] /\
       exists Ab', binv b' Ab' /\ bview b' Ab' /\
         zlen (a_cells Ab') = zlen (a_cells Ab) + words_in o /\
         zlen (a_objs Ab') = zlen (a_objs Ab) + 1 /\
         zlen (a_dps Ab') = zlen (a_dps Ab) + pointers_in o /\
         data_size (b_h b') <= data_size (b_h b) + cost o /\
         (has_room_for b [o] -> a_ms Ab' = a_ms Ab /\ a_mo Ab' = a_mo Ab /\ a_md Ab' = a_md Ab /\
            data_addr (b_h b') = data_addr (b_h b)) /\
         (added_only b -> added_only b')) /\
    (r = 0 -> objects b' = objects b) /\
    (has_room_for b [o] -> r <> 0) /\
    (added_only b -> memory_up_to hp (data_size (b_h b) + cost o + 16) -> r <> 0).
Proof.
  intros Hh HR Ib Vb HD.
  destruct blank_call as (CC & FA). destruct blank_cost as (C1 & C2 & C3 & C4 & C5).
  assert (HRa : reachable any b) by (eapply reachable_mono; [|exact HR]; exact (fun _ _ => Logic.I)).
  destruct (blank_facts F o size ow arrs DF data N14) as (B1 & B2 & B3 & B4). cbn [fst] in *.
  assert (RQ : request_ok b qb).
  { split; [exact CC|]. fold (zlen (rq_attrs qb)). fold (rcost qb). rewrite C3. lia. }
  destruct (wanted_blank F o size ow arrs data N9 N14 N8) as (W1 & W2 & W3).
  { intros x Hx. apply (small_array bs A I i s n t HN size ow arrs HS HF HE x Hx). }
  cbn [fst] in W1. pose proof (request_small b qb HRa RQ (sized _ _ _ _ _ W1)) as SM.
  assert (SL : length (on_stack stack (call_for o)) = struct_words (call_for o))
    by (unfold on_stack; now rewrite map_length, seq_length).
  pose proof (prepare_proper F (on_stack stack (call_for o)) (call_for o) t dw (element_arrays t dw) LS SL W2 W1 SM W3 B3) as P.
  destruct (call_done F hp b (fun _ => None) (on_stack stack (call_for o)) (call_for o) t dw (element_arrays t dw) HRa Hh RQ P)
    as (a & b' & EA & X & Y).
  destruct (add_full hp b Ab qb Hh HR Ib Vb CC FA ltac:(rewrite C3; exact HD)) as (r & b2 & E2 & Z1 & Z2 & Z3 & Z4).
  rewrite C3 in *.
  assert (RM : has_room_for b [o] <-> has_room b qb).
  { unfold has_room_for, has_room, request_of. cbv zeta. cbn [rq_size rq_attrs fst snd]. fold (zlen (element_arrays t dw)).
    change (Z.of_nat (length dw)) with (wcount dw). rewrite B2, C4, C5.
    cbn [total fold_right length]. rewrite !Z.add_0_r. tauto. }
  exists a, b'. split.
  { rewrite add_single_eq. unfold new_element. rewrite EA. reflexivity. }
  destruct (Z.eq_dec a 0) as [->|Ha].
  - specialize (Y eq_refl). assert (r = 0) as -> by congruence. assert (b2 = b') as -> by congruence.
    split; [congruence|]. split; [exact Z2|]. split; [rewrite RM; exact Z3|exact Z4].
  - destruct (X Ha) as (r' & Hr' & EA' & _). assert (r' = r) as -> by congruence. assert (b2 = b') as -> by congruence.
    split; [|split; [congruence|split; auto]]. intros _.
    destruct (Z1 Hr') as (o' & Ab' & SA & Q1 & Q2 & Q3 & Q4 & Q5 & Q6 & Q7 & Q8 & Q9 & Q10).
    assert (o' = blank F o) as ->.
    { rewrite (stored_blank t dw (element_arrays t dw) o' B3); [reflexivity| |exact SA].
      intros x Hx. destruct (arrays_facts t size dw HS) as (_ & AF). destruct (AF x Hx) as (_ & _ & _ & S8).
      split; [exact S8|]. split; [apply (call_counts _ _ _ _ CC x Hx)|]. apply B4. exact Hx. }
    rewrite C1 in Q5. change (zlen (rq_attrs qb)) with (zlen (element_arrays t dw)) in Q7. rewrite C5 in Q7.
    split; [exact Q1|]. split; [exact Q2|]. exists Ab'. split; [exact Q3|]. split; [exact Q4|]. split; [exact Q5|].
    split; [exact Q6|]. split; [exact Q7|]. split; [exact Q8|]. split; [rewrite RM; exact Q9|exact Q10].
Qed.
End One.

(* elements with a default element of the same kind and size *)
Definition creatable (o : Z * list cell) : Prop :=
  is_element o /\ fst o <> 9 /\ fst o <> 14 /\ (fst o = 8 -> 11 <= number o 0).

Lemma new_one F bs i o hp b Ab stack : doubles F -> limits_squared F ->
  reachable any bs -> nth_error (objects bs) i = Some o -> creatable o ->
  good_heap hp -> reachable full_arrays b -> binv b Ab -> bview b Ab ->
  data_size (b_h b) + cost o + 32 < 2 ^ 64 ->
  exists r b', add_single_new F hp b stack (b_mem bs) (entry_addr bs i) = Some (status_for (fst o) r, b') /\
    (r <> 0 -> reachable full_arrays b' /\ objects b' = objects b ++ [blank F o] /\
       exists Ab', binv b' Ab' /\ bview b' Ab' /\
         zlen (a_cells Ab') = zlen (a_cells Ab) + words_in o /\
         zlen (a_objs Ab') = zlen (a_objs Ab) + 1 /\
         zlen (a_dps Ab') = zlen (a_dps Ab) + pointers_in o /\
         data_size (b_h b') <= data_size (b_h b) + cost o /\
         (has_room_for b [o] -> a_ms Ab' = a_ms Ab /\ a_mo Ab' = a_mo Ab /\ a_md Ab' = a_md Ab /\
            data_addr (b_h b') = data_addr (b_h b)) /\
         (added_only b -> added_only b')) /\
    (r = 0 -> objects b' = objects b) /\
    (has_room_for b [o] -> r <> 0) /\
    (added_only b -> memory_up_to hp (data_size (b_h b) + cost o + 16) -> r <> 0).
Proof.
  intros DF LS HB HO ((size & ow & arrs & E1 & E2 & E3 & E4 & E5) & N9 & N14 & N8) Hh HR Ib Vb HD.
  destruct (reachable_inv _ _ HB) as (A & I & V & _). rewrite (objects_eq _ _ I) in HO.
  unfold acontent in HO. rewrite nth_error_map in HO.
  destruct (nth_error (a_objs A) i) as [[[s n] t]|] eqn:HN; [|discriminate].
  cbn [option_map] in HO. destruct o as [t' c]. cbn [fst snd] in *.
  assert (t = t') as -> by congruence. assert (HE : map (rel_cell s) (slice (a_cells A) s n) = c) by congruence.
  rewrite E5 in HE. subst c.
  exact (new_one_inv bs A I V i s n t' HN size ow arrs E1 E2 E3 E4 HE F DF LS N9 N14 N8 hp b Ab stack Hh HR Ib Vb HD).
Qed.

Definition reported (o : Z * list cell) : Prop := In (fst o) reported_types.

Lemma reported_status o r : reported o -> status_for (fst o) r = st_sign r.
Proof.
  unfold reported, reported_types. cbn [In]. intros H. unfold status_for.
  repeat (destruct H as [<-|H]; [reflexivity|]). destruct H.
Qed.

(* the state after n elements have been created *)
Definition after (b b' : buffer) (Ab Ab' : abs) (l : list (Z * list cell)) : Prop :=
  reachable full_arrays b' /\ binv b' Ab' /\ bview b' Ab' /\
  zlen (a_cells Ab') = zlen (a_cells Ab) + total words_in l /\
  zlen (a_objs Ab') = zlen (a_objs Ab) + Z.of_nat (length l) /\
  zlen (a_dps Ab') = zlen (a_dps Ab) + total pointers_in l /\
  data_size (b_h b') <= data_size (b_h b) + line_cost l /\
  (forall l', has_room_for b (l ++ l') -> a_ms Ab' = a_ms Ab /\ a_mo Ab' = a_mo Ab /\ a_md Ab' = a_md Ab /\
     data_addr (b_h b') = data_addr (b_h b)) /\
  (added_only b -> added_only b').

Lemma total_app f (l l' : list (Z * list cell)) : total f (l ++ l') = total f l + total f l'.
Proof. induction l as [|x l IH]; cbn [app]; [reflexivity|]. rewrite !total_cons, IH. lia. Qed.

Lemma line_cost_app l l' : line_cost (l ++ l') = line_cost l + line_cost l'.
Proof. induction l as [|x l IH]; cbn [app]; [reflexivity|]. rewrite !line_cost_cons, IH. lia. Qed.

Lemma room_prefix b Ab l l' : binv b Ab -> bview b Ab -> has_room_for b (l ++ l') -> has_room_for b l.
Proof.
  intros Ib Vb. rewrite !(has_room_abs b Ab) by assumption. rewrite !total_app, app_length.
  pose proof (total_nonneg words_in l' words_in_nonneg).
  pose proof (total_nonneg pointers_in l' pointers_in_nonneg). lia.
Qed.

Lemma room_after b b' Ab Ab' l l' : binv b Ab -> bview b Ab -> after b b' Ab Ab' l ->
  has_room_for b (l ++ l') -> has_room_for b' l'.
Proof.
  intros Ib Vb (_ & Ib' & Vb' & X1 & X2 & X3 & _ & X4 & _) H. destruct (X4 l' H) as (Y1 & Y2 & Y3 & _). revert H.
  rewrite (has_room_abs b Ab), (has_room_abs b' Ab') by assumption.
  rewrite !total_app, app_length, Nat2Z.inj_add, X1, X2, X3, Y1, Y2, Y3. lia.
Qed.

Lemma new_loop_ok F bs : doubles F -> limits_squared F -> reachable any bs -> forall l more i b Ab hps st,
  (forall k o, nth_error l k = Some o -> nth_error (objects bs) (i + k) = Some o) ->
  Forall creatable l -> Forall reported l ->
  (forall k, good_heap (hps k)) -> reachable full_arrays b -> binv b Ab -> bview b Ab ->
  data_size (b_h b) + line_cost l + 32 < 2 ^ 64 ->
  (exists b' n, new_loop F hps st b (b_mem bs) (entry_addr bs i) (length l + more) = Some (-1, b') /\
     (n < length l)%nat /\ objects b' = objects b ++ map (blank F) (firstn n l) /\
     ~ has_room_for b l /\
     ~ (added_only b /\ forall k, memory_up_to (hps k) (data_size (b_h b) + line_cost l + 16))) \/
  (exists b' Ab', new_loop F hps st b (b_mem bs) (entry_addr bs i) (length l + more) =
       new_loop F (fun k => hps (length l + k)%nat) (fun k => st (length l + k)%nat) b' (b_mem bs)
         (entry_addr bs (i + length l)) more /\
     objects b' = objects b ++ map (blank F) l /\ after b b' Ab Ab' l).
Proof.
  intros DF LS HB. induction l as [|o l IH]; intros more i b Ab hps st HI HC HT Hh HR Ib Vb HD.
  - right. exists b, Ab. cbn [length Nat.add map]. rewrite app_nil_r, Nat.add_0_r. split; [reflexivity|].
    split; [reflexivity|]. split; [exact HR|]. split; [exact Ib|]. split; [exact Vb|].
    change (total words_in []) with 0. change (total pointers_in []) with 0. change (Z.of_nat (length (@nil (Z * list cell)))) with 0.
    pose proof (line_cost_nonneg []). split; [lia|]. split; [lia|]. split; [lia|]. split; [lia|]. split; auto.
  - inversion HC as [|? ? HC1 HC2]; subst. inversion HT as [|? ? HT1 HT2]; subst.
    rewrite line_cost_cons in HD. pose proof (line_cost_nonneg l) as LC.
    assert (HO : nth_error (objects bs) i = Some o) by (rewrite <- (HI O o eq_refl); f_equal; lia).
    destruct (new_one F bs i o (hps O) b Ab (st O) DF LS HB HO HC1 (Hh O) HR Ib Vb ltac:(lia))
      as (r & b1 & E1 & P1 & P2 & P3 & P4).
    rewrite (reported_status o r HT1) in E1. cbn [new_loop length Nat.add]. rewrite E1. cbn [bind].
    assert (Room1 : forall l', has_room_for b ((o :: l) ++ l') -> has_room_for b [o]).
    { intros l'. apply (room_prefix b Ab [o] (l ++ l') Ib Vb). }
    destruct (Z.eq_dec r 0) as [->|Hr].
    + left. change (st_sign 0) with (-1). cbn [Z.eqb]. exists b1, O.
      split; [reflexivity|]. split; [lia|]. cbn [firstn map]. rewrite app_nil_r. split; [now apply P2|].
      split.
      * intros X. apply P3; [|reflexivity]. apply (Room1 []). rewrite app_nil_r. exact X.
      * intros (AO & MM). apply P4; auto. eapply memory_le; [|apply (MM O)].
        rewrite line_cost_cons. lia.
    + assert (Sz : st_sign r = 0). { unfold st_sign. apply Z.eqb_neq in Hr. now rewrite Hr. }
      rewrite Sz. cbn [Z.eqb].
      destruct (P1 Hr) as (HR1 & O1 & Ab1 & I1 & V1 & Zc & Zo & Zd & Dz & Rm & Ao).
      assert (EA : entry_addr bs i + 24 = entry_addr bs (S i)) by (unfold entry_addr; lia). rewrite EA.
      assert (Room2 : forall l', has_room_for b ((o :: l) ++ l') -> has_room_for b1 (l ++ l')).
      { intros l' X. destruct (Rm (Room1 l' X)) as (Y1 & Y2 & Y3 & _). revert X. cbn [app].
        rewrite (has_room_abs b Ab), (has_room_abs b1 Ab1) by assumption.
        rewrite !total_cons. cbn [length]. rewrite Zc, Zo, Zd, Y1, Y2, Y3. lia. }
      destruct (IH more (S i) b1 Ab1 (fun k => hps (S k)) (fun k => st (S k)))
        as [(b' & n & E & N1 & N2 & N3 & N4)|(b' & Ab' & E & N1 & N2)]; auto.
      { intros k o' Hk. specialize (HI (S k) o' Hk). rewrite <- HI. f_equal. lia. }
      { lia. }
      * left. exists b', (S n). split; [exact E|]. split; [lia|].
        split; [rewrite N2, O1, <- app_assoc; reflexivity|]. split.
        -- intros X. apply N3. specialize (Room2 []). rewrite !app_nil_r in Room2. exact (Room2 X).
        -- intros (AO & MM). apply N4. split; [now apply Ao|]. intros k. eapply memory_le; [|apply (MM (S k))].
           rewrite line_cost_cons. lia.
      * right. exists b', Ab'. split.
        { rewrite E. replace (i + S (length l))%nat with (S i + length l)%nat by lia. reflexivity. }
        split; [rewrite N1, O1, <- app_assoc; reflexivity|].
        destruct N2 as (Q1 & Q2 & Q3 & Q4 & Q5 & Q6 & Q7 & Q8 & Q9).
        split; [exact Q1|]. split; [exact Q2|]. split; [exact Q3|]. rewrite !total_cons, line_cost_cons. cbn [length].
        split; [lia|]. split; [lia|]. split; [lia|]. split; [lia|]. split; [|auto].
        intros l' X. destruct (Rm (Room1 l' X)) as (Y1 & Y2 & Y3 & Y7). destruct (Q8 l' (Room2 l' X)) as (Y4 & Y5 & Y6 & Y8).
        rewrite Y4, Y5, Y6, Y8. auto.
Qed.

Lemma new_to_buffer_eq F hps st b bs i j : reachable any bs -> (i < j)%nat ->
  add_new_to_buffer F hps st b (b_mem bs) (entry_addr bs i) (entry_addr bs j) =
  new_loop F hps st b (b_mem bs) (entry_addr bs i) (j - i).
Proof.
  intros HB Hij. unfold add_new_to_buffer. rewrite !entry_nz by assumption. cbn [orb].
  rewrite range_length_ok by lia. cbn [bind].
  assert (P : (0 <? entry_addr bs j - entry_addr bs i) = true) by (apply Z.ltb_lt; unfold entry_addr; lia).
  cbv zeta. rewrite P. destruct (new_loop _ _ _ _ _ _ _) as [[ret b']|]; [|reflexivity].
  cbn [bind]. now rewrite Z.lor_0_l.
Qed.
