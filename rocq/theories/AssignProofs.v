From Coq Require Import ZArith List Bool Lia Permutation.
From Verif Require Import Tac MBuf MBufSpec MBufMem MBufAbs MBufRemap MemPool Buffer BufferSpec
  BufferUser BufferProofs BufferReach BufferProps Assign AssignSpec.
Import ListNotations.
Local Open Scope Z_scope.

(* header and object index are in order, the slots hold anything *)
Definition irepr (b : Z) (m : mem) (A : abs) : Prop :=
  hrepr b m A /\ mbase m = b /\
  forall i s n t, nth_error (a_objs A) i = Some (s, n, t) ->
    word m (spos A 4 + 2 + 3 * Z.of_nat i) = b + 80 + 8 * s /\
    word m (spos A 4 + 2 + 3 * Z.of_nat i + 1) = t /\
    word m (spos A 4 + 2 + 3 * Z.of_nat i + 2) = 8 * n.

Lemma repr_irepr m A : repr (mbase m) m A -> irepr (mbase m) m A.
Proof. intros R. split; [exact (re_h _ _ _ R)|]. split; [reflexivity|]. exact (re_obj _ _ _ R). Qed.

Lemma irepr_put b m A k v : irepr b m A -> 0 <= k < zlen (a_cells A) ->
  irepr b (mupd m (10 + k) v) A.
Proof.
  intros (H & Hb & Ho) Hk. pose proof (hr_ok _ _ _ H) as OK.
  pose proof (ok_bounds A OK) as (Bc & Bo & Bd & Bg).
  pose proof (layout A OK) as (L3 & L4 & L5 & L6 & Lt & N3 & N4 & N5 & N6).
  pose proof (hr_len _ _ _ H) as L.
  assert (F : forall j, 0 <= j -> j < 10 \/ spos A 4 <= j -> word (mupd m (10 + k) v) j = word m j).
  { intros j Hj Hj'. rewrite word_mupd by lia. destruct (j =? 10 + k) eqn:E; [|reflexivity].
    apply Z.eqb_eq in E. lia. }
  split; [|split].
  - apply (hrepr_frame b m); [exact H|apply mupd_wlen|]. intros j Hj [Hh|(id & Hs & Hh)]; apply F; try lia.
    secs Hs; cbn [SLOTS_ID OBJECTS_ID DATAPTRS_ID GARBAGE_ID] in *; lia.
  - now rewrite mupd_base.
  - intros i s n t E. assert (0 <= Z.of_nat i) by lia. rewrite !F by lia. now apply Ho.
Qed.

Section Located.
Variables (b : Z) (m : mem) (A : abs).
Hypothesis I : irepr b m A.

Lemma irepr_objs i : 0 <= i < zlen (a_objs A) ->
  exists s n t, nth_error (a_objs A) (Z.to_nat i) = Some (s, n, t) /\
    mb_get_object m b i = Some (b + 8 * (spos A 4 + 2) + 24 * i) /\
    entry m (b + 8 * (spos A 4 + 2) + 24 * i) = Some (b + 80 + 8 * s, t, 8 * n) /\
    b + 8 * (spos A 4 + 2) + 24 * i <> 0.
Proof.
  intros Hi. destruct I as (H & Hb & Ho). pose proof (hr_ok _ _ _ H) as OK.
  pose proof (ok_bounds A OK) as (Bc & Bo & Bd & Bg).
  pose proof (layout A OK) as (L3 & L4 & L5 & L6 & Lt & N3 & N4 & N5 & N6).
  pose proof (hr_len _ _ _ H) as L. pose proof (hr_base _ _ _ H) as (P1 & P2 & P3).
  destruct (nth_error (a_objs A) (Z.to_nat i)) as [[[s n] t]|] eqn:E.
  2:{ apply nth_error_None in E. unfold zlen in Hi. lia. }
  exists s, n, t. split; [reflexivity|]. destruct (Ho _ _ _ _ E) as (W0 & W1 & W2).
  rewrite Z2Nat.id in * by lia. subst b.
  assert (S4 : secid OBJECTS_ID) by (unfold secid, OBJECTS_ID; auto).
  split; [|split].
  - unfold mb_get_object, objects_index_begin. rewrite (section_data_ok _ _ H _ S4).
    rewrite (section_num_ok _ _ H _ S4). cbn [bind]. change (snum A OBJECTS_ID) with (zlen (a_objs A)).
    rewrite eqb_false by lia. rewrite leb_true by lia. reflexivity.
  - unfold entry. rewrite eqb_false by lia.
    rewrite (rd_ok m _ (spos A 4 + 2 + 3 * i)) by lia.
    rewrite (rd_ok m _ (spos A 4 + 2 + 3 * i + 1)) by lia.
    rewrite (rd_ok m _ (spos A 4 + 2 + 3 * i + 2)) by lia.
    cbn [bind]. now rewrite W0, W1, W2.
  - lia.
Qed.

(* the result of locate *)
Definition found (i off t : Z) : Z :=
  match nth_error (a_objs A) (Z.to_nat i) with
  | Some (s, n, t') =>
      if (off mod 8 =? 0) && (off + 8 <=? 8 * n) && (t' =? t) then b + 80 + 8 * s + off else 0
  | None => 0
  end.

Lemma locate_ok i off t : 0 <= i < zlen (a_objs A) -> 0 <= off -> off + 8 < 2 ^ 64 ->
  locate m b i off t = Some (found i off t).
Proof.
  intros Hi Ho Ho'. destruct (irepr_objs i Hi) as (s & n & t' & E & E1 & E2 & Hp).
  unfold locate, found. rewrite E1. cbn [bind]. rewrite E2. cbn [bind]. rewrite E.
  destruct I as (H & Hb & _). pose proof (hr_ok _ _ _ H) as OK.
  pose proof (ok_bounds A OK) as (Bc & Bo & Bd & Bg).
  pose proof (hr_base _ _ _ H) as (P1 & P2 & P3).
  pose proof (chain_nth _ _ _ _ _ _ _ (ok_chain _ OK) E) as (X1 & X2 & X3).
  rewrite (eqb_false _ _ Hp). rewrite (eqb_false (b + 80 + 8 * s) 0) by lia. cbn [negb andb].
  rewrite (u64_id (off + 8)) by lia. f_equal.
  destruct (off + 8 <=? 8 * n) eqn:El; rewrite ?andb_false_r; cbn [andb].
  2:{ reflexivity. }
  apply Z.leb_le in El. unfold tot in P3. rewrite u64_id by lia.
  replace ((b + 80 + 8 * s + off) mod 8) with (off mod 8); [reflexivity|].
  replace (b + 80 + 8 * s + off) with (b + off + (10 + s) * 8) by lia.
  rewrite Z.mod_add by lia. rewrite <- Z.add_mod_idemp_l, P2 by lia. reflexivity.
Qed.

Lemma found_slot i off t : 0 <= off -> found i off t <> 0 ->
  exists k, 0 <= k < zlen (a_cells A) /\ found i off t = b + 8 * (10 + k).
Proof.
  unfold found. intros Ho. destruct I as (H & _ & _). pose proof (hr_ok _ _ _ H) as OK.
  destruct (nth_error (a_objs A) (Z.to_nat i)) as [[[s n] t']|] eqn:E; [|congruence].
  pose proof (chain_nth _ _ _ _ _ _ _ (ok_chain _ OK) E) as (X1 & X2 & X3).
  destruct (off mod 8 =? 0) eqn:E1; cbn [andb]; [|congruence].
  destruct (off + 8 <=? 8 * n) eqn:E2; cbn [andb]; [|congruence].
  destruct (t' =? t); [|congruence]. intros _.
  apply Z.eqb_eq in E1. apply Z.leb_le in E2. pose proof (Z.div_mod off 8 ltac:(lia)).
  exists (s + off / 8). lia.
Qed.
End Located.

(* what one item does: nothing, fail, or set word number k *)
Inductive act := Skip | Fail | Put (k v : Z).
Definition apply (a : act) (st : Z * mem) : Z * mem :=
  match a with
  | Skip => st
  | Fail => (-1, snd st)
  | Put k v => (fst st, mupd (snd st) k v)
  end.

Definition status (s : Z) : Prop := s = 0 \/ s = -1.

Definition put_at (a : act) (k : Z) : Prop := exists v, a = Put k v.

Section Run.
Variables (acts : Z -> act) (b : Z) (A : abs).

Fixpoint run (order : list Z) (st : Z * mem) : Z * mem :=
  match order with [] => st | i :: r => run r (apply (acts i) st) end.

Definition distinct (l : list Z) : Prop :=
  forall i j k, In i l -> In j l -> put_at (acts i) k -> put_at (acts j) k -> i = j.
Definition slots (l : list Z) : Prop :=
  forall i k, In i l -> put_at (acts i) k -> exists k', k = 10 + k' /\ 0 <= k' < zlen (a_cells A).

Lemma run_app l l' st : run (l ++ l') st = run l' (run l st).
Proof using. revert st. induction l as [|i l IH]; intros st; [reflexivity|]. cbn [run app]. apply IH. Qed.

Lemma run_status l : forall st, status (fst st) ->
  fst (run l st) = if existsb (fun i => match acts i with Fail => true | _ => false end) l
                   then -1 else fst st.
Proof using.
  induction l as [|i l IH]; intros st Hs; [reflexivity|]. cbn [run existsb]. rewrite IH.
  - destruct (acts i); cbn [apply fst orb]; [reflexivity| |reflexivity]. now destruct (existsb _ l).
  - destruct (acts i); cbn [apply fst]; auto. now right.
Qed.

Lemma run_mem l : forall st, (forall i k, In i l -> put_at (acts i) k -> 0 <= k < wlen (snd st)) ->
  mbase (snd (run l st)) = mbase (snd st) /\ wlen (snd (run l st)) = wlen (snd st).
Proof using.
  induction l as [|i l IH]; intros st H; [auto|]. cbn [run].
  assert (W : wlen (snd (apply (acts i) st)) = wlen (snd st) /\ mbase (snd (apply (acts i) st)) = mbase (snd st)).
  { destruct (acts i); cbn [apply snd]; rewrite ?mupd_wlen, ?mupd_base; auto. }
  destruct (IH (apply (acts i) st)) as (E1 & E2).
  - intros j k Hj. rewrite (proj1 W). apply H. now right.
  - rewrite E1, E2. tauto.
Qed.

Lemma run_other l : forall st k, (forall i k, In i l -> put_at (acts i) k -> 0 <= k < wlen (snd st)) ->
  0 <= k -> (forall i, In i l -> ~ put_at (acts i) k) -> word (snd (run l st)) k = word (snd st) k.
Proof using.
  induction l as [|i l IH]; intros st k H Hk Hn; [reflexivity|]. cbn [run].
  assert (W : wlen (snd (apply (acts i) st)) = wlen (snd st))
    by (destruct (acts i); cbn [apply snd]; rewrite ?mupd_wlen; auto).
  rewrite IH; [|rewrite W; intros; apply (H i0); auto; now right|assumption|intros; apply Hn; now right].
  destruct (acts i) as [| |k' v] eqn:E; cbn [apply snd]; [reflexivity|reflexivity|].
  assert (0 <= k' < wlen (snd st)) by (apply (H i); [now left|exists v; congruence]).
  rewrite word_mupd by assumption. destruct (k =? k') eqn:Ek; [|reflexivity]. apply Z.eqb_eq in Ek.
  exfalso. apply (Hn i); [now left|]. exists v. congruence.
Qed.

Lemma run_put l : forall st i k v, (forall i k, In i l -> put_at (acts i) k -> 0 <= k < wlen (snd st)) ->
  NoDup l -> distinct l -> In i l -> acts i = Put k v -> word (snd (run l st)) k = v.
Proof using.
  induction l as [|i' l IH]; intros st i k v H Hd Hdi Hi Ha; [easy|]. cbn [run]. inversion Hd; subst.
  assert (W : wlen (snd (apply (acts i') st)) = wlen (snd st))
    by (destruct (acts i'); cbn [apply snd]; rewrite ?mupd_wlen; auto).
  destruct Hi as [->|Hi].
  - assert (0 <= k < wlen (snd st)) by (apply (H i); [now left|eexists; eassumption]).
    rewrite run_other.
    + rewrite Ha. cbn [apply snd]. rewrite word_mupd by lia. now rewrite Z.eqb_refl.
    + rewrite W. intros; apply (H i0); auto; now right.
    + lia.
    + intros j Hj Hp. apply H2. rewrite (Hdi i j k); auto; [now left|now right|eexists; eassumption].
  - apply (IH _ i k v); auto.
    + rewrite W. intros; apply (H i0); auto; now right.
    + intros x y z Hx Hy. apply Hdi; now right.
Qed.

Lemma mem_ext m m' : mbase m = mbase m' -> wlen m = wlen m' ->
  (forall k, 0 <= k < wlen m -> word m k = word m' k) -> m = m'.
Proof using.
  destruct m as [x l], m' as [x' l']. cbn [mbase]. unfold wlen, word. cbn [mwords]. intros -> Hl Hw. f_equal.
  apply (nth_ext l l' 0 0); [lia|]. intros n Hn. specialize (Hw (Z.of_nat n) ltac:(lia)).
  now rewrite Nat2Z.id in Hw.
Qed.

Lemma run_perm l l' st : (forall i k, In i l -> put_at (acts i) k -> 0 <= k < wlen (snd st)) ->
  status (fst st) -> NoDup l -> distinct l -> Permutation l l' -> run l st = run l' st.
Proof using.
  intros H Hs Hd Hdi P.
  assert (H' : forall i k, In i l' -> put_at (acts i) k -> 0 <= k < wlen (snd st)).
  { intros i k Hi. apply H. eapply Permutation_in; [apply Permutation_sym|]; eassumption. }
  assert (Hd' : NoDup l') by (eapply Permutation_NoDup; eassumption).
  assert (Hdi' : distinct l').
  { intros i j k Hi Hj. apply Hdi; (eapply Permutation_in; [apply Permutation_sym|]; eassumption). }
  destruct (run_mem l st H) as (B1 & W1), (run_mem l' st H') as (B2 & W2).
  rewrite (surjective_pairing (run l st)), (surjective_pairing (run l' st)). f_equal.
  - rewrite !run_status by assumption.
    replace (existsb (fun i => match acts i with Fail => true | _ => false end) l') with
      (existsb (fun i => match acts i with Fail => true | _ => false end) l); [reflexivity|].
    apply eq_true_iff_eq. rewrite !existsb_exists. split; intros (x & Hx & E); exists x; split; auto;
      (eapply Permutation_in; [|eassumption]); auto using Permutation_sym.
  - apply mem_ext; [congruence|congruence|]. intros k Hk.
    destruct (existsb (fun i => match acts i with Put k' _ => k' =? k | _ => false end) l) eqn:E.
    + apply existsb_exists in E as (i & Hi & E). destruct (acts i) as [| |k' v] eqn:Ea; try discriminate.
      apply Z.eqb_eq in E as ->. rewrite (run_put l st i k v), (run_put l' st i k v); auto.
      eapply Permutation_in; eassumption.
    + assert (N : forall i, In i l -> ~ put_at (acts i) k).
      { intros i Hi (v & Ea). assert (existsb (fun i => match acts i with Put k' _ => k' =? k | _ => false end) l = true); [|congruence].
        apply existsb_exists. exists i. rewrite Ea, Z.eqb_refl. auto. }
      rewrite (run_other l), (run_other l'); auto; try lia.
      intros i Hi. apply N. eapply Permutation_in; [apply Permutation_sym|]; eassumption.
Qed.
End Run.

(* ------------------------------------------------------------------ *)
(* the items in the buffer *)
Lemma reach_irepr bb : reachable any bb -> exists A, binv bb A /\ irepr (data_addr (b_h bb)) (b_mem bb) A /\
  sec_count (b_mem bb) 4 = zlen (a_objs A) /\ repr (mbase (b_mem bb)) (b_mem bb) A.
Proof.
  intros H. destruct (reachable_inv _ _ H) as (A & I & V & _). exists A. pose proof (bi_repr _ _ I) as R.
  split; [assumption|]. rewrite (bi_addr _ _ I). split; [now apply repr_irepr|].
  rewrite (sec_count_ok _ _ _ R) by auto. auto.
Qed.

Lemma holds_item ba its i it : reachable any ba -> holds ba its ->
  nth_error its (Z.to_nat i) = Some it -> 0 <= i ->
  item_of (b_mem ba) (data_addr (b_h ba)) i = Some (Some it).
Proof.
  intros Hr Hh Hn Hi. destruct (reach_irepr ba Hr) as (A & Iv & Ir & Hc & R).
  unfold holds in Hh. rewrite (objects_eq _ _ Iv) in Hh.
  assert (L : zlen (a_objs A) = Z.of_nat (length its)).
  { unfold zlen. rewrite <- acontent_length, Hh, map_length. reflexivity. }
  assert (Hi' : 0 <= i < zlen (a_objs A)).
  { rewrite L. assert (nth_error its (Z.to_nat i) <> None) as X by congruence.
    apply nth_error_Some in X. lia. }
  destruct (irepr_objs _ _ _ Ir i Hi') as (s & n & t & E & E1 & E2 & Hp).
  pose proof (f_equal (fun l => nth_error l (Z.to_nat i)) Hh) as X. cbn beta in X.
  rewrite nth_error_map, Hn in X. unfold acontent in X. rewrite nth_error_map, E in X.
  cbn [option_map] in X. injection X as Ht Hs.
  assert (OK := re_ok _ _ _ R). pose proof (chain_nth _ _ _ _ _ _ _ (ok_chain _ OK) E) as (X1 & X2 & X3).
  assert (Ln : n = 8).
  { pose proof (f_equal (@length _) Hs) as Y. rewrite map_length, slice_length in Y by lia. cbn [length map] in Y. lia. }
  unfold item_of. rewrite E1. cbn [bind]. rewrite E2. cbn [bind]. rewrite (eqb_false _ _ Hp).
  unfold TYPE_ITEM. subst t n. change (65536 =? 65536) with true. change (64 <=? 8 * 8) with true. cbn [negb andb].
  assert (W : forall k, (k < 8)%nat -> rd (b_mem ba) (data_addr (b_h ba) + 80 + 8 * s + 8 * Z.of_nat k) =
    Some (nth k [dest_buffer it; src_buffer it; dest_type it; src_type it;
                 dest_index it; src_index it; dest_offset it; src_offset it] 0)).
  { intros k Hk. pose proof (ok_bounds A OK) as (Bc & Bo & Bd & Bg).
    pose proof (re_len _ _ _ R) as Lw. unfold tot in Lw.
    rewrite (bi_addr _ _ Iv). rewrite (rd_ok _ _ (10 + (s + Z.of_nat k))) by lia. f_equal.
    pose proof (f_equal (fun l => nth_error l k) Hs) as Y. cbn beta in Y.
    rewrite nth_error_map in Y. rewrite <- (Nat2Z.id k) in Y at 1. rewrite slice_nth in Y by lia.
    destruct (nth_error (a_cells A) (Z.to_nat (s + Z.of_nat k))) as [c|] eqn:Ec.
    2:{ apply nth_error_None in Ec. unfold zlen in X3. lia. }
    pose proof (re_cell _ _ _ R _ _ Ec) as Wc. rewrite Z2Nat.id in Wc by lia. rewrite Wc.
    do 8 (destruct k as [|k]; [cbn [nth_error map option_map nth] in Y |- *; destruct c; [cbn [rel_cell cellval] in Y |- *; congruence|discriminate]|]).
    lia. }
  unfold item_at.
  set (a := data_addr (b_h ba) + 80 + 8 * s) in *.
  pose proof (W 0%nat ltac:(lia)) as W0. change (8 * Z.of_nat 0) with 0 in W0. rewrite Z.add_0_r in W0.
  pose proof (W 1%nat ltac:(lia)) as W1. change (8 * Z.of_nat 1) with 8 in W1.
  pose proof (W 2%nat ltac:(lia)) as W2. change (8 * Z.of_nat 2) with 16 in W2.
  pose proof (W 3%nat ltac:(lia)) as W3. change (8 * Z.of_nat 3) with 24 in W3.
  pose proof (W 4%nat ltac:(lia)) as W4. change (8 * Z.of_nat 4) with 32 in W4.
  pose proof (W 5%nat ltac:(lia)) as W5. change (8 * Z.of_nat 5) with 40 in W5.
  pose proof (W 6%nat ltac:(lia)) as W6. change (8 * Z.of_nat 6) with 48 in W6.
  pose proof (W 7%nat ltac:(lia)) as W7. change (8 * Z.of_nat 7) with 56 in W7.
  rewrite W0, W1, W2, W3, W4, W5, W6, W7. cbn [bind nth]. destruct it; reflexivity.
Qed.

Section Kernel.
Variables (ba bd : buffer) (bs : option buffer) (its : list item) (idd ids : Z).
Let g := call ba bd bs idd ids.
Variables (dA sA : abs).
Let dB := data_addr (b_h bd).
Let sB := data_addr (b_h (source bd bs)).
Hypothesis Ra : reachable any ba.
Hypothesis Ha : holds ba its.
Hypothesis Is : irepr sB (b_mem (source bd bs)) sA.
Hypothesis Same : bs = None -> sA = dA.
Hypothesis Nd : idd <> NO_BUFFER.
Hypothesis Ns : ids <> NO_BUFFER.
Hypothesis Hd0 : dB <> 0.
Hypothesis Hs0 : sB <> 0.

Definition ranged (it : item) : Prop :=
  0 <= dest_index it < zlen (a_objs dA) /\ 0 <= dest_offset it /\ dest_offset it + 8 < 2 ^ 64 /\
  0 <= src_index it < zlen (a_objs sA) /\ 0 <= src_offset it /\ src_offset it + 8 < 2 ^ 64.
Hypothesis Rng : forall it, In it (matching idd ids its) -> ranged it.

Definition target (it : item) : Z := found dB dA (dest_index it) (dest_offset it) (dest_type it).
Definition value (it : item) : Z := found sB sA (src_index it) (src_offset it) (src_type it).
Definition acts (i : Z) : act :=
  match nth_error its (Z.to_nat i) with
  | Some it =>
      if (dest_buffer it =? idd) && (src_buffer it =? ids) then
        if target it =? 0 then Fail else Put ((target it - dB) / 8) (value it)
      else Skip
  | None => Skip
  end.

Lemma acts_put i k v m : irepr dB m dA -> acts i = Put k v -> exists it,
  nth_error its (Z.to_nat i) = Some it /\ In it (matching idd ids its) /\ target it <> 0 /\
  target it = dB + 8 * k /\ v = value it /\ exists k', k = 10 + k' /\ 0 <= k' < zlen (a_cells dA).
Proof using Rng.
  intros Im. unfold acts. destruct (nth_error its (Z.to_nat i)) as [it|] eqn:E; [|discriminate].
  destruct ((dest_buffer it =? idd) && (src_buffer it =? ids)) eqn:Em; [|discriminate].
  destruct (target it =? 0) eqn:Et; [discriminate|]. apply Z.eqb_neq in Et.
  intros H. exists it. split; [reflexivity|].
  assert (Hin : In it (matching idd ids its)).
  { unfold matching. apply filter_In. split; [eapply nth_error_In; eassumption|assumption]. }
  split; [assumption|]. split; [assumption|].
  destruct (Rng it Hin) as (_ & O & _).
  destruct (found_slot dB m dA Im (dest_index it) (dest_offset it) (dest_type it) O Et) as (k' & Hk & Ek).
  fold (target it) in Ek. assert (k = (target it - dB) / 8 /\ v = value it) as (-> & ->) by (split; congruence).
  rewrite Ek. replace (dB + 8 * (10 + k') - dB) with ((10 + k') * 8) by lia. rewrite Z.div_mul by lia.
  repeat split; try lia. exists k'. auto.
Qed.

Lemma apply_irepr i s m : irepr dB m dA -> irepr dB (snd (apply (acts i) (s, m))) dA.
Proof using Rng.
  intros Im. destruct (acts i) as [| |k v] eqn:E; cbn [apply snd]; auto.
  destruct (acts_put i k v m Im E) as (it & _ & _ & _ & _ & _ & k' & -> & Hk). now apply irepr_put.
Qed.

Lemma step_ok i s m : irepr dB m dA -> status s -> 0 <= i < Z.of_nat (length its) ->
  step g i (s, m) = Some (apply (acts i) (s, m)).
Proof using Ra Ha Is Same Nd Ns Hd0 Hs0 Rng.
  intros Im Hs Hi. unfold step. cbn [snd fst].
  destruct (nth_error its (Z.to_nat i)) as [it|] eqn:E.
  2:{ apply nth_error_None in E. lia. }
  change (am g) with (b_mem ba). change (ab g) with (data_addr (b_h ba)).
  rewrite (holds_item ba its i it Ra Ha E) by lia. cbn [bind].
  change (sid g) with ids. change (did g) with idd.
  unfold acts. rewrite E. rewrite (andb_comm (src_buffer it =? ids)).
  destruct ((dest_buffer it =? idd) && (src_buffer it =? ids)) eqn:Em; [|reflexivity].
  assert (Hin : In it (matching idd ids its)).
  { unfold matching. apply filter_In. split; [eapply nth_error_In; eassumption|assumption]. }
  destruct (Rng it Hin) as (R1 & R2 & R3 & R4 & R5 & R6).
  apply andb_prop in Em as (Ed & Es). apply Z.eqb_eq in Ed, Es.
  unfold src_raw, dest_raw. rewrite (eqb_false (src_buffer it) NO_BUFFER) by congruence.
  rewrite (eqb_false (dest_buffer it) NO_BUFFER) by congruence. cbn [andb].
  unfold src_address, assign_fixed, dest_pointer, src_raw, dest_raw.
  rewrite (eqb_false (src_buffer it) NO_BUFFER) by congruence.
  rewrite (eqb_false (dest_buffer it) NO_BUFFER) by congruence.
  change (db g) with dB. change (sb g) with sB.
  rewrite (eqb_false _ _ Hd0), (eqb_false _ _ Hs0). cbn [andb negb].
  assert (V : locate match sm g with Some m0 => m0 | None => m end sB (src_index it) (src_offset it) (src_type it)
    = Some (value it)).
  { unfold value. change (sm g) with (match bs with Some b => Some (b_mem b) | None => None end).
    assert (Hc : bs = None \/ exists b, bs = Some b) by (clear; destruct bs; eauto).
    destruct Hc as [Hc|(b & Hc)].
    - pose proof (Same Hc) as S. assert (Eb : sB = dB) by (unfold sB, dB, source; now rewrite Hc).
      rewrite Hc, S, Eb in *. now apply locate_ok.
    - pose proof Is as Is'. unfold sB, source in Is' |- *. rewrite Hc in *. now apply locate_ok. }
  rewrite V. cbn [bind]. rewrite (locate_ok dB m dA Im) by assumption. cbn [bind]. fold (target it).
  unfold store. destruct (target it =? 0) eqn:Et.
  - cbn [bind apply fst]. unfold FAILURE. f_equal. f_equal. destruct Hs as [-> | ->]; reflexivity.
  - apply Z.eqb_neq in Et.
    destruct (found_slot dB m dA Im (dest_index it) (dest_offset it) (dest_type it) R2 Et) as (k' & Hk & Ek).
    fold (target it) in Ek. destruct Im as (H & Hb & Ho). pose proof (hr_ok _ _ _ H) as OK.
    pose proof (ok_bounds dA OK) as (Bc & Bo & Bd & Bg). pose proof (hr_len _ _ _ H) as L.
    pose proof (ok_cells _ OK). unfold tot in L.
    rewrite (wr_ok m (target it) (10 + k')) by lia. cbn [bind apply fst snd]. unfold SUCCESS.
    rewrite Ek. replace (dB + 8 * (10 + k') - dB) with ((10 + k') * 8) by lia. rewrite Z.div_mul by lia.
    destruct Hs as [-> | ->]; reflexivity.
Qed.

Lemma apply_status a st : status (fst st) -> status (fst (apply a st)).
Proof using. destruct a; cbn [apply fst]; auto. now right. Qed.

Lemma in_order_ok l : forall st, irepr dB (snd st) dA -> status (fst st) ->
  (forall i, In i l -> 0 <= i < Z.of_nat (length its)) -> in_order g l st = Some (run acts l st).
Proof using Ra Ha Is Same Nd Ns Hd0 Hs0 Rng.
  induction l as [|i l IH]; intros [s m] Im Hs Hl; [reflexivity|]. cbn [in_order run].
  cbn [snd fst] in *. rewrite step_ok; auto; [|apply Hl; now left]. cbn [bind]. apply IH.
  - now apply apply_irepr.
  - now apply apply_status.
  - intros j Hj. apply Hl. now right.
Qed.

Fixpoint idxs (fuel : nat) (num idx stride : Z) : list Z :=
  match fuel with
  | O => []
  | S k => if idx <? num then idx :: idxs k num (idx + stride) stride else []
  end.

Lemma idxs_in fuel : forall num idx stride j, 0 < stride -> num - idx <= Z.of_nat fuel ->
  In j (idxs fuel num idx stride) <-> idx <= j < num /\ (j - idx) mod stride = 0.
Proof using.
  clear. induction fuel as [|k IH]; intros num idx stride j Hs Hf; cbn [idxs].
  - split; [easy|]. lia.
  - destruct (idx <? num) eqn:E; [apply Z.ltb_lt in E|apply Z.ltb_ge in E; split; [easy|lia]].
    cbn [In]. rewrite IH by lia.
    assert (M : (j - (idx + stride)) mod stride = (j - idx) mod stride).
    { replace (j - (idx + stride)) with (j - idx + (-1) * stride) by lia. now apply Z.mod_add; lia. }
    rewrite M. split.
    + intros [-> | (H1 & H2)]; [|split; [lia|assumption]].
      split; [lia|]. now rewrite Z.sub_diag, Z.mod_0_l by lia.
    + intros (H1 & H2). destruct (Z.eq_dec idx j) as [->|Hne]; [now left|right]. split; [|assumption].
      split; [|lia]. destruct (Z_lt_le_dec j (idx + stride)); [|lia].
      rewrite Z.mod_small in H2 by lia. lia.
Qed.

Lemma idxs_nodup fuel : forall num idx stride, 0 < stride -> num - idx <= Z.of_nat fuel ->
  NoDup (idxs fuel num idx stride).
Proof using.
  clear. induction fuel as [|k IH]; intros num idx stride Hs Hf; cbn [idxs]; [constructor|].
  destruct (idx <? num) eqn:E; [apply Z.ltb_lt in E|constructor]. constructor; [|apply IH; lia].
  rewrite idxs_in by lia. lia.
Qed.

Lemma loop_ok fuel : forall num idx stride st, num = Z.of_nat (length its) -> 0 <= idx -> 0 < stride ->
  num - idx <= Z.of_nat fuel -> irepr dB (snd st) dA -> status (fst st) ->
  loop fuel g num idx stride st = Some (run acts (idxs fuel num idx stride) st).
Proof using Ra Ha Is Same Nd Ns Hd0 Hs0 Rng.
  induction fuel as [|k IH]; intros num idx stride [s m] Hn Hi Hst Hf Im Hs; cbn [loop idxs].
  - destruct (idx <? num) eqn:E; [apply Z.ltb_lt in E; lia|reflexivity].
  - destruct (idx <? num) eqn:E; [apply Z.ltb_lt in E|reflexivity]. cbn [snd fst] in *.
    rewrite step_ok by (auto; lia). cbn [bind run]. apply IH; auto; try lia.
    + now apply apply_irepr.
    + now apply apply_status.
Qed.

Lemma num_items : section_num (am g) (ab g) OBJECTS_ID = Some (Z.of_nat (length its)).
Proof using Ra Ha.
  destruct (num_objects_ok ba Ra) as (H & _). unfold holds in Ha. rewrite Ha, map_length in H. exact H.
Qed.

Lemma kernel_ok start stride m : 0 <= start -> 0 < stride -> irepr dB m dA ->
  kernel g start stride m = Some (run acts
    (idxs (Z.to_nat (Z.of_nat (length its) - start)) (Z.of_nat (length its)) start stride) (0, m)).
Proof using Ra Ha Is Same Nd Ns Hd0 Hs0 Rng.
  intros H1 H2 Im. unfold kernel. rewrite num_items. cbn [bind]. apply loop_ok; auto; try lia. now left.
Qed.

Lemma run_irepr l : forall st, irepr dB (snd st) dA -> irepr dB (snd (run acts l st)) dA.
Proof using Rng.
  induction l as [|i l IH]; intros [s m] Im; [assumption|]. cbn [run]. apply IH. now apply apply_irepr.
Qed.

Lemma run_shift l : forall s m, status s ->
  run acts l (s, m) = (Z.lor s (fst (run acts l (0, m))), snd (run acts l (0, m))).
Proof using.
  clear. intros s m Hs.
  assert (E : snd (run acts l (s, m)) = snd (run acts l (0, m))).
  { generalize 0 at 1 as s0. clear Hs. revert s m. induction l as [|i l IH]; intros s m s0; [reflexivity|].
    cbn [run]. destruct (acts i); cbn [apply fst snd]; apply IH. }
  rewrite (surjective_pairing (run acts l (s, m))), E. f_equal.
  rewrite !run_status by (auto; now left). cbn [fst].
  destruct Hs as [-> | ->]; destruct (existsb _ l); reflexivity.
Qed.

Definition all_idxs (stride : Z) (items : list Z) : list Z :=
  concat (map (fun i => idxs (Z.to_nat (Z.of_nat (length its) - i)) (Z.of_nat (length its)) i stride) items).

Lemma launch_ok stride items : forall st, 0 < stride -> (forall i, In i items -> 0 <= i) ->
  irepr dB (snd st) dA -> status (fst st) ->
  launch g stride items st = Some (run acts (all_idxs stride items) st).
Proof using Ra Ha Is Same Nd Ns Hd0 Hs0 Rng.
  induction items as [|i r IH]; intros [s m] Hst Hi Im Hs; [reflexivity|]. cbn [snd fst launch] in *.
  rewrite kernel_ok; auto; [|apply Hi; now left]. cbn [bind].
  unfold all_idxs. cbn [map concat]. rewrite run_app.
  set (l := idxs _ _ i stride). rewrite (run_shift l s m Hs).
  destruct (run acts l (0, m)) as [s1 m1] eqn:E. cbn [fst snd].
  apply IH; auto.
  - intros; apply Hi; now right.
  - cbn [snd]. pose proof (run_irepr l (0, m) Im) as X. now rewrite E in X.
  - cbn [fst]. pose proof (run_status acts l (0, m) ltac:(now left)) as X. rewrite E in X. cbn [fst] in X.
    destruct (existsb _ l); subst s1; destruct Hs as [-> | ->]; cbn; (now left) || now right.
Qed.

Lemma all_idxs_perm stride items : 0 < stride -> Permutation items (zseq stride) ->
  Permutation (all_idxs stride items) (zseq (Z.of_nat (length its))).
Proof using.
  clear. intros Hs P. set (n := Z.of_nat (length its)).
  assert (ZN : forall x, NoDup (zseq x)).
  { intros x. unfold zseq. apply FinFun.Injective_map_NoDup; [intros a b; lia|apply seq_NoDup]. }
  assert (ZI : forall x j, In j (zseq x) <-> 0 <= j < x).
  { intros x j. unfold zseq. rewrite in_map_iff. split.
    - intros (k & <- & Hk). apply in_seq in Hk. lia.
    - intros Hj. exists (Z.to_nat j). split; [lia|]. apply in_seq. lia. }
  assert (NI : NoDup items) by (eapply Permutation_NoDup; [apply Permutation_sym; eassumption|apply ZN]).
  assert (II : forall i, In i items <-> 0 <= i < stride).
  { intros i. rewrite <- ZI. split; apply Permutation_in; [assumption|now apply Permutation_sym]. }
  apply NoDup_Permutation; [|apply ZN|].
  - unfold all_idxs. fold n. assert (Sub : forall i, In i items -> 0 <= i < stride) by (intros; now apply II).
    clear P II. induction items as [|i r IH]; cbn [map concat]; [constructor|]. inversion NI; subst.
    assert (ND : forall l1 l2 : list Z, NoDup l1 -> NoDup l2 -> (forall x, In x l1 -> ~ In x l2) -> NoDup (l1 ++ l2)).
    { induction l1 as [|a l1 IHl]; intros l2 N1 N2 D; [assumption|]. inversion N1; subst. cbn [app]. constructor.
      - rewrite in_app_iff. intros [X|X]; [contradiction|]. apply (D a); [now left|assumption].
      - apply IHl; auto. intros x Hx. apply D. now right. }
    assert (0 <= i < stride) by (apply Sub; now left).
    apply ND.
    + apply idxs_nodup; lia.
    + apply IH; auto. intros; apply Sub; now right.
    + intros x Hx Hx'. apply in_concat in Hx' as (l & Hl & Hx'). apply in_map_iff in Hl as (i' & <- & Hi').
      assert (0 <= i' < stride) by (apply Sub; now right).
      apply idxs_in in Hx; [|lia|lia]. apply idxs_in in Hx'; [|lia|lia].
      destruct Hx as (X1 & X2), Hx' as (Y1 & Y2).
      assert (i = i'); [|congruence].
      assert ((i - i') mod stride = 0) as Hz.
      { replace (i - i') with ((x - i') - (x - i)) by lia. rewrite Zminus_mod, X2, Y2. now rewrite Z.mod_0_l by lia. }
      apply Z.mod_divide in Hz; [|lia]. destruct Hz as (c & Hc).
      assert (c < 1) by nia. assert (-1 < c) by nia. assert (c = 0) as -> by lia. lia.
  - intros j. rewrite ZI. unfold all_idxs. rewrite in_concat. split.
    + intros (l & Hl & Hj). apply in_map_iff in Hl as (i & <- & Hi). apply II in Hi.
      apply idxs_in in Hj; [|lia|lia]. lia.
    + intros Hj. exists (idxs (Z.to_nat (n - j mod stride)) n (j mod stride) stride).
      pose proof (Z.mod_pos_bound j stride Hs). pose proof (Z.mod_le j stride ltac:(lia) Hs). split.
      * apply in_map_iff. exists (j mod stride). split; [reflexivity|]. now apply II.
      * apply idxs_in; [lia|lia|]. split; [lia|].
        rewrite Zminus_mod, Z.mod_mod, Z.sub_diag by lia. now apply Z.mod_0_l; lia.
Qed.

(* distinct destinations *)
Lemma target_inj it it' m : irepr dB m dA -> In it (matching idd ids its) -> In it' (matching idd ids its) ->
  target it <> 0 -> target it = target it' -> dest it = dest it'.
Proof using Rng bs sB.
  intros Im Hi Hi' Ht Et. destruct (Rng it Hi) as (R1 & R2 & _), (Rng it' Hi') as (R1' & R2' & _).
  assert (Ht' : target it' <> 0) by congruence.
  destruct Im as (H & _ & _). pose proof (hr_ok _ _ _ H) as OK.
  unfold target, found in Et, Ht, Ht'.
  destruct (nth_error (a_objs dA) (Z.to_nat (dest_index it))) as [[[s n] t]|] eqn:E; [|congruence].
  destruct (nth_error (a_objs dA) (Z.to_nat (dest_index it'))) as [[[s' n'] t']|] eqn:E'; [|congruence].
  destruct (dest_offset it mod 8 =? 0); cbn [andb] in *; [|congruence].
  destruct (dest_offset it + 8 <=? 8 * n) eqn:L; cbn [andb] in *; [|congruence].
  destruct (t =? dest_type it); [|congruence].
  destruct (dest_offset it' mod 8 =? 0); cbn [andb] in *; [|congruence].
  destruct (dest_offset it' + 8 <=? 8 * n') eqn:L'; cbn [andb] in *; [|congruence].
  destruct (t' =? dest_type it'); [|congruence].
  apply Z.leb_le in L, L'.
  assert (dest_index it = dest_index it').
  { destruct (Z.lt_trichotomy (dest_index it) (dest_index it')) as [Hlt|[Heq|Hlt]]; [|assumption|].
    - assert (Hn : (Z.to_nat (dest_index it) < Z.to_nat (dest_index it'))%nat) by lia.
      pose proof (chain_disjoint _ _ _ _ _ _ _ _ _ _ _ (ok_chain _ OK) Hn E E'). lia.
    - assert (Hn : (Z.to_nat (dest_index it') < Z.to_nat (dest_index it))%nat) by lia.
      pose proof (chain_disjoint _ _ _ _ _ _ _ _ _ _ _ (ok_chain _ OK) Hn E' E). lia. }
  unfold dest. assert (s = s') by congruence. f_equal; [assumption|lia].
Qed.

Lemma matching_distinct l m : irepr dB m dA -> NoDup (map dest (matching idd ids its)) ->
  (forall i, In i l -> 0 <= i) -> distinct acts l.
Proof using Rng bs sB.
  intros Im Hd Hl i j k Hi Hj (v & Pi) (v' & Pj).
  destruct (acts_put i k v m Im Pi) as (it & Ei & Mi & Ti & Ki & _ & _).
  destruct (acts_put j k v' m Im Pj) as (it' & Ej & Mj & Tj & Kj & _ & _).
  assert (Dd : dest it = dest it') by (apply (target_inj it it' m); auto; congruence).
  specialize (Hl i Hi) as Hi0. assert (Hj0 : 0 <= j) by now apply Hl.
  enough (Z.to_nat i = Z.to_nat j) by lia.
  clear - Hd Dd Mi Mj Ei Ej. revert Ei Ej. generalize (Z.to_nat i) as x, (Z.to_nat j) as y.
  intros x y Ex Ey. unfold matching in *. set (f := fun it : item => _) in *.
  assert (Fx : f it = true) by now apply filter_In in Mi. assert (Fy : f it' = true) by now apply filter_In in Mj.
  clear Mi Mj. revert x y Ex Ey. induction its as [|a r IH]; intros x y Ex Ey; [destruct x; discriminate|].
  cbn [filter] in Hd.
  destruct x as [|x], y as [|y]; cbn [nth_error] in Ex, Ey.
  - reflexivity.
  - injection Ex as ->. rewrite Fx in Hd. cbn [map] in Hd. inversion Hd; subst. exfalso. apply H1.
    rewrite Dd. apply in_map, filter_In. split; [eapply nth_error_In; eassumption|assumption].
  - injection Ey as ->. rewrite Fy in Hd. cbn [map] in Hd. inversion Hd; subst. exfalso. apply H1.
    rewrite <- Dd. apply in_map, filter_In. split; [eapply nth_error_In; eassumption|assumption].
  - f_equal. apply IH; auto. destruct (f a); [cbn [map] in Hd; now inversion Hd|assumption].
Qed.

Lemma acts_slots l m : irepr dB m dA -> forall i k, In i l -> put_at (acts i) k -> 0 <= k < wlen m.
Proof using Rng bs sB.
  intros Im i k _ (v & Pi). destruct (acts_put i k v m Im Pi) as (_ & _ & _ & _ & _ & _ & k' & -> & Hk).
  destruct Im as (H & _ & _). pose proof (hr_ok _ _ _ H) as OK. pose proof (hr_len _ _ _ H) as L.
  pose proof (ok_bounds dA OK) as (Bc & Bo & Bd & Bg). unfold tot in L. lia.
Qed.
End Kernel.
