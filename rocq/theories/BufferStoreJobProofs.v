(** Proofs about the stored buffers of a job. *)
From Coq Require Import ZArith Bool List Lia.
From Verif Require Import BufferStore BufferStoreSpec BufferStoreProofs.
Import ListNotations.
Local Open Scope Z_scope.

Definition noMv : nat -> Prop := fun _ => False.

Definition entry_ok (h : bheap) (s : bstore) (e : sentry) : Prop :=
  match e with
  | SNone => s = bs_empty
  | SLent b => s_own s = 0 /\ s_c99 s = b /\ b <> 0
  | SOwned v => s_own s <> 0 /\ h (s_own s) = Some v
  end.

Record JInv (m : list Z) (w : jworld) (t : table) : Prop := mkJInv {
  ji_inv : Inv (jw_heap w) (nth_error (j_stores (jw_job w))) (fun a => In a m) noMv;
  ji_num : j_num (jw_job w) = num_stored t;
  ji_tab : Forall2 (entry_ok (jw_heap w)) (j_stores (jw_job w)) t }.

Lemma F2_len {A B} (P : A -> B -> Prop) l k : Forall2 P l k -> length l = length k.
Proof. induction 1; cbn [length]; auto. Qed.

Lemma F2_nth {A B} (P : A -> B -> Prop) l k : Forall2 P l k ->
  forall i x, nth_error l i = Some x -> exists y, nth_error k i = Some y /\ P x y.
Proof.
  induction 1; intros [| i] z; cbn [nth_error]; intro E; try discriminate.
  - injection E as <-. eauto.
  - auto.
Qed.

Lemma F2_nth_none {A B} (P : A -> B -> Prop) l k : Forall2 P l k ->
  forall i, nth_error l i = None -> nth_error k i = None.
Proof.
  intros F i E. apply nth_error_None. apply nth_error_None in E.
  now rewrite <- (F2_len _ _ _ F).
Qed.

Lemma F2_upd {A B} (P : A -> B -> Prop) l k i x y : Forall2 P l k -> P x y ->
  Forall2 P (upd_nth i x l) (upd_nth i y k).
Proof.
  intro F. revert i. induction F; intros [| i] H1; cbn [upd_nth]; constructor; auto.
Qed.

Lemma F2_imp {A B} (P Q : A -> B -> Prop) l k : Forall2 P l k ->
  (forall i x y, nth_error l i = Some x -> nth_error k i = Some y -> P x y -> Q x y) ->
  Forall2 Q l k.
Proof.
  induction 1 as [| x y l k Pxy F IH]; intro H; constructor.
  - exact (H O x y eq_refl eq_refl Pxy).
  - apply IH. intros i a b Ea Eb. exact (H (S i) a b Ea Eb).
Qed.

Lemma F2_true {A B} (l : list A) (k : list B) : length l = length k -> Forall2 (fun _ _ => True) l k.
Proof.
  revert k. induction l as [| x l IH]; intros [| y k] E; cbn [length] in E; try discriminate;
    constructor; auto.
Qed.

Lemma num_upd t i e e' : nth_error t i = Some e ->
  num_stored (upd_nth i e' t)
  = num_stored t - (if is_stored e then 1 else 0) + (if is_stored e' then 1 else 0).
Proof.
  unfold num_stored. revert i. induction t as [| x t IH]; intros [| i] E; cbn [nth_error] in E;
    try discriminate.
  - injection E as ->. cbn [upd_nth filter].
    destruct (is_stored e), (is_stored e'); cbn [length]; lia.
  - cbn [upd_nth filter]. specialize (IH i E).
    destruct (is_stored x); cbn [length]; lia.
Qed.

Lemma num_app t e : num_stored (t ++ [e]) = num_stored t + (if is_stored e then 1 else 0).
Proof.
  unfold num_stored. rewrite filter_app, app_length. cbn [filter].
  destruct (is_stored e); cbn [length]; lia.
Qed.

Lemma num_pos t i e : nth_error t i = Some e -> is_stored e = true -> 0 < num_stored t.
Proof.
  unfold num_stored. intros E S. apply nth_error_In in E.
  assert (H : In e (filter is_stored t)) by (apply filter_In; auto).
  destruct (filter is_stored t); [destruct H | cbn [length]; lia].
Qed.

Lemma num_nonneg t : 0 <= num_stored t.
Proof. unfold num_stored. lia. Qed.

(** The entry of an active store is a stored one. *)
Lemma active_stored m w t i s e : JInv m w t ->
  nth_error (j_stores (jw_job w)) i = Some s -> nth_error t i = Some e ->
  entry_ok (jw_heap w) s e -> bs_active s = is_stored e.
Proof.
  intros J Es Ee O. unfold bs_active. destruct e; cbn [entry_ok is_stored] in *.
  - destruct O as (A & B & C). rewrite B. apply Z.eqb_neq in C. now rewrite C.
  - destruct O as (A & B).
    destruct (own_not_mine _ _ _ _ (ji_inv _ _ _ J) i s Es A) as (_ & _ & _ & _ & C).
    rewrite C. apply Z.eqb_neq in A. now rewrite A.
  - now rewrite O.
Qed.

Lemma ids_in_range m w t : JInv m w t -> forall id,
  sj_in_range (jw_job w) id
  = (0 <? num_stored t) && (1024 <=? id) && (id <? 1024 + Z.of_nat (length t)).
Proof.
  intros J id. unfold sj_in_range, sj_min_id, sj_has, sj_num, nstores.
  rewrite (ji_num _ _ _ J), (F2_len _ _ _ (ji_tab _ _ _ J)).
  destruct (0 <? num_stored t) eqn:E; [| reflexivity].
  unfold MIN_USER_ID, ILLEGAL_ID. change (1024 =? 0) with false. cbn [negb andb].
  destruct (Z.eqb_spec id 0) as [-> | N]; [reflexivity |]. reflexivity.
Qed.

Lemma get_spec m w t : JInv m w t -> forall id,
  match lookup t id with
  | SNone => sj_get (jw_job w) id = None \/ sj_get (jw_job w) id = Some bs_empty
  | e => 1024 <= id /\ exists s, sj_get (jw_job w) id = Some s /\ entry_ok (jw_heap w) s e
         /\ nth_error (j_stores (jw_job w)) (Z.to_nat (id - 1024)) = Some s
  end.
Proof.
  intros J id. unfold lookup, sj_get. rewrite (ids_in_range _ _ _ J).
  destruct (Z.ltb_spec id 1024) as [L | L].
  - left. assert (X : (1024 <=? id) = false) by (apply Z.leb_gt; lia).
    rewrite X, andb_false_r. reflexivity.
  - assert (X : (1024 <=? id) = true) by (apply Z.leb_le; lia). rewrite X, andb_true_r.
    unfold sj_min_id, sj_has, sj_num. rewrite (ji_num _ _ _ J).
    destruct (nth_error t (Z.to_nat (id - 1024))) as [e |] eqn:Ee.
    + assert (Ln : (Z.to_nat (id - 1024) < length t)%nat)
        by (apply nth_error_Some; rewrite Ee; discriminate).
      assert (Y : (id <? 1024 + Z.of_nat (length t)) = true) by (apply Z.ltb_lt; lia).
      rewrite Y, andb_true_r.
      destruct (nth_error (j_stores (jw_job w)) (Z.to_nat (id - 1024))) as [s |] eqn:Es.
      2:{ apply (F2_nth_none _ _ _ (ji_tab _ _ _ J)) in Es. congruence. }
      destruct (F2_nth _ _ _ (ji_tab _ _ _ J) _ _ Es) as (e' & Ee' & O).
      rewrite Ee in Ee'. injection Ee' as <-.
      destruct (Z.ltb_spec 0 (num_stored t)) as [P | P].
      * unfold MIN_USER_ID. destruct e; cbn [entry_ok] in *.
        { split; [lia |]. exists s. rewrite Es. auto. }
        { split; [lia |]. exists s. rewrite Es. auto. }
        { right. rewrite Es, O. reflexivity. }
      * destruct (is_stored e) eqn:St.
        { pose proof (num_pos _ _ _ Ee St). lia. }
        { destruct e; try discriminate. left. reflexivity. }
    + apply nth_error_None in Ee.
      assert (Y : (id <? 1024 + Z.of_nat (length t)) = false) by (apply Z.ltb_ge; lia).
      rewrite Y, andb_false_r. left. reflexivity.
Qed.

Lemma exposed_iff m w t : JInv m w t -> forall b, b <> 0 ->
  (exposedG (nth_error (j_stores (jw_job w))) noMv b <-> jexposed w b).
Proof.
  intros J b Nb. split.
  - intros (i & s & Es & _ & E).
    destruct (F2_nth _ _ _ (ji_tab _ _ _ J) _ _ Es) as (e & Ee & O).
    exists (1024 + Z.of_nat i).
    pose proof (get_spec _ _ _ J (1024 + Z.of_nat i)) as G. unfold lookup in G.
    assert (X : (1024 + Z.of_nat i <? 1024) = false) by (apply Z.ltb_ge; lia).
    rewrite X in G. replace (Z.to_nat (1024 + Z.of_nat i - 1024)) with i in G by lia.
    rewrite Ee in G. unfold sj_ptr, bs_ptr.
    destruct e; cbn [entry_ok] in *.
    + destruct G as (_ & s' & G & _ & Es'). rewrite Es in Es'. injection Es' as <-.
      rewrite G. exact E.
    + destruct G as (_ & s' & G & _ & Es'). rewrite Es in Es'. injection Es' as <-.
      rewrite G. exact E.
    + subst s. cbn in E. congruence.
  - intros (id & E). unfold sj_ptr, sj_get in E.
    destruct (sj_in_range (jw_job w) id); [| congruence].
    destruct (nth_error _ _) as [s |] eqn:Es; [| congruence].
    eexists _, s. split; [exact Es |]. split; [intros [] | exact E].
Qed.

Lemma JInv_start : JInv [] jstart [].
Proof.
  constructor; cbn [jstart jw_heap jw_job j_stores j_num]; [| reflexivity | constructor].
  assert (E : forall i, nth_error (@nil bstore) i = None) by (intros [|]; reflexivity).
  constructor.
  - reflexivity.
  - intros a [].
  - intros i s H. rewrite E in H. discriminate.
  - intros i s H. rewrite E in H. discriminate.
  - intros i j s t H. rewrite E in H. discriminate.
  - intros a H. now elim H.
  - intros i [].
  - intro i. right. intros [].
Qed.

(** What [reset] makes of an empty store. *)
Lemma reset_entry h r s h' :
  h 0 = None ->
  (forall b, match r with RCxx x _ | RC x _ _ _ | RUniq x | RMove x _ => x = b | _ => False end ->
     b = 0 \/ h b <> None) ->
  match r with RMove b _ => b <> 0 | _ => True end ->
  match r with RCap a _ => a <> 0 | _ => True end ->
  bs_reset r bs_empty h = Some (s, h') -> entry_ok h' s (new_entry h r).
Proof.
  intros H0 Hb Hm Ha E.
  destruct r as [a v | b take | b take del a | b | b a]; cbn [bs_reset] in E.
  - unfold bs_reset_cap, h_new in E. cbn [bs_empty s_own] in E.
    destruct (a =? 0); [discriminate |]. destruct (h a); [discriminate |].
    cbn in E. injection E as <- <-. cbn [new_entry entry_ok s_own]. split; auto. apply hset_same.
  - unfold bs_reset_cxx in E. cbn [bs_empty s_own s_cxx] in E. cbn [new_entry].
    destruct (Z.eqb_spec b 0) as [-> | N]; cbn [negb andb] in E.
    + injection E as <- <-. reflexivity.
    + assert (X : (0 =? b) = false) by (apply Z.eqb_neq; auto). rewrite X in E. cbn [negb] in E.
      destruct (h b) as [v |] eqn:Ev; [| discriminate]. cbn in E. injection E as <- <-.
      destruct take; cbn [entry_ok s_own s_c99]; auto.
      unfold content. rewrite Ev. auto.
  - unfold bs_reset_c in E. cbn [bs_empty s_own s_c99] in E. cbn [new_entry].
    destruct (Z.eqb_spec b 0) as [-> | N]; cbn [negb andb] in E.
    + injection E as <- <-. reflexivity.
    + assert (X : (0 =? b) = false) by (apply Z.eqb_neq; auto). rewrite X in E. cbn [negb] in E.
      destruct take.
      * destruct (h b) as [v |] eqn:Ev; [| discriminate]. cbn [obnd] in E.
        unfold h_new in E. destruct (Z.eqb_spec a 0) as [| Na]; [discriminate |].
        destruct (h a) eqn:Ea; [discriminate |]. cbn [obnd] in E.
        assert (Nab : a <> b) by congruence.
        unfold content. rewrite Ev.
        destruct del.
        { unfold h_free in E. rewrite hset_same in E. cbn in E. injection E as <- <-.
          cbn [entry_ok s_own]. split; auto.
          rewrite (hset_other _ b) by auto. rewrite (hset_other _ b) by auto. apply hset_same. }
        { cbn in E. injection E as <- <-.
          cbn [entry_ok s_own]. split; auto.
          rewrite (hset_other _ b) by auto. apply hset_same. }
      * cbn in E. injection E as <- <-. cbn [entry_ok s_own s_c99]. auto.
  - unfold bs_reset_uniq in E. cbn in E. injection E as <- <-. cbn [new_entry].
    destruct (Z.eqb_spec b 0) as [-> | N]; [reflexivity |].
    cbn [entry_ok s_own]. split; auto. unfold content.
    destruct (Hb b eq_refl) as [| L]; [congruence |]. destruct (h b); [reflexivity | now elim L].
  - unfold bs_reset_move in E. cbn [bs_empty s_own s_cxx] in E. cbn [new_entry].
    assert (X : (b =? 0) = false) by (apply Z.eqb_neq; auto). rewrite X in E. cbn [negb] in E.
    destruct (h b) as [v |] eqn:Ev; [| discriminate]. cbn [obnd] in E.
    unfold h_new in E. destruct (Z.eqb_spec a 0) as [| Na]; [discriminate |].
    destruct (h a) eqn:Ea; [discriminate |]. cbn in E. injection E as <- <-.
    assert (Nab : a <> b) by congruence.
    unfold content. rewrite Ev. cbn [entry_ok s_own]. split; auto.
    rewrite (hset_other _ b) by auto. apply hset_same.
Qed.

Lemma nth_app_gset (l : list bstore) s : forall k,
  nth_error (l ++ [s]) k = gset (nth_error l) (length l) (Some s) k.
Proof.
  intro k. unfold gset. destruct (Nat.eqb_spec k (length l)) as [-> | N].
  - rewrite nth_error_app2, Nat.sub_diag by lia. reflexivity.
  - destruct (Nat.lt_ge_cases k (length l)).
    + now rewrite nth_error_app1.
    + rewrite !(proj2 (nth_error_None _ _)); auto. rewrite app_length. cbn [length]. lia.
Qed.

Lemma nth_upd_gset (l : list bstore) i s x : nth_error l i = Some x -> forall k,
  nth_error (upd_nth i s l) k = gset (nth_error l) i (Some s) k.
Proof.
  intros E k. rewrite nth_upd_nth. unfold gset.
  assert (L : (i < length l)%nat) by (apply nth_error_Some; rewrite E; discriminate).
  apply Nat.ltb_lt in L. now rewrite L.
Qed.

Lemma store_eta s : mkStore (s_cxx s) (s_c99 s) (s_own s) = s.
Proof. destruct s; reflexivity. Qed.

Lemma JInv_step m w t op :
  JInv m w t -> jallowed m w op ->
  exists w', jstep w op = Some (treturn t op, w') /\ JInv (jmine m op) w' (tstep t (jw_heap w) op).
Proof.
  intros J A. pose proof (ji_inv _ _ _ J) as I.
  assert (Cont : forall h' l, (forall i s, nth_error (j_stores (jw_job w)) i = Some s -> s_own s <> 0 ->
       h' (s_own s) = jw_heap w (s_own s)) -> l = t ->
     Forall2 (entry_ok h') (j_stores (jw_job w)) l).
  { intros h' l H ->. apply (F2_imp _ _ _ _ (ji_tab _ _ _ J)).
    intros i s e Es Ee O. destruct e; cbn [entry_ok] in *; auto.
    destruct O as [O1 O2]. split; auto. rewrite (H i s Es O1). exact O2. }
  destruct op as [a v | a | r | id | id v]; cbn [jallowed jstep treturn tstep] in *.
  - (* JCNew *)
    rewrite (h_new_ok _ _ _ A). cbn [obnd]. eexists; split; [reflexivity |].
    destruct A as [N F]. constructor; cbn [jw_heap jw_job jmine].
    + pose proof (T_alloc _ _ _ _ a v I N F) as I'.
      apply (Inv_ext _ _ _ _ _ _ _ _ I'); try tauto; try reflexivity.
      intro x. cbn [In]. split; intros [H | H]; auto.
    + apply (ji_num _ _ _ J).
    + apply Cont; auto. intros i s Es Nz. apply hset_other.
      destruct (own_not_mine _ _ _ _ I i s Es Nz) as (_ & _ & L & _).
      intro Y. rewrite Y in L. now elim L.
  - (* JCFree *)
    destruct A as [Ma Nx]. pose proof (i_mine _ _ _ _ I a Ma) as L. unfold live in L.
    unfold h_free. destruct (jw_heap w a) eqn:Ea; [| now elim L]. cbn [obnd].
    eexists; split; [reflexivity |]. constructor; cbn [jw_heap jw_job jmine].
    + assert (Nx' : ~ exposedG (nth_error (j_stores (jw_job w))) noMv a).
      { rewrite (exposed_iff _ _ _ J a); auto. exact (M_nonnull _ _ _ _ I a Ma). }
      pose proof (T_cfree _ _ _ _ a I Ma Nx') as I'.
      apply (Inv_ext _ _ _ _ _ _ _ _ I'); try tauto; try reflexivity.
      intro x. apply in_remove_iff.
    + apply (ji_num _ _ _ J).
    + apply Cont; auto. intros i s Es Nz. apply hset_other.
      destruct (own_not_mine _ _ _ _ I i s Es Nz) as (_ & X & _). intro Y. subst a. auto.
  - (* JAdd *)
    set (n := length (j_stores (jw_job w))).
    assert (Gn : nth_error (j_stores (jw_job w)) n = None) by (apply nth_error_None; unfold n; lia).
    destruct (T_add _ _ _ _ n I Gn) as [I1 _].
    assert (X : forall b, In b m -> ~ jexposed w b ->
        ~ exposedG (gset (nth_error (j_stores (jw_job w))) n (Some bs_empty)) noMv b).
    { intros b Mb X (k & s & K & Nk & F).
      pose proof (M_nonnull _ _ _ _ I b Mb) as Nb. apply gset_cases in K. destruct K as [[-> Y] | [N K]].
      - injection Y as <-. cbn in F. congruence.
      - apply X. apply (exposed_iff _ _ _ J b Nb). exists k, s. auto. }
    assert (Ok : reset_okG (jw_heap w) (gset (nth_error (j_stores (jw_job w))) n (Some bs_empty))
       (fun a => In a m) noMv r).
    { destruct r as [a v | b take | b take del a | b | b a]; cbn [reset_okG] in *; auto.
      - destruct A as [A | [A1 A2]]; [auto | right]. auto.
      - destruct A as [A | [A1 A2]]; [auto | right]. split; auto. intro T.
        destruct (A2 T) as [A3 A4]. split; auto.
      - destruct A as [A | [A1 A2]]; [auto | right]. auto. }
    destruct (R_reset _ _ _ _ n bs_empty r I1 (gset_same _ _ _)) as (s' & h' & E & I2 & Hk); auto.
    { intros []. }
    assert (O : entry_ok h' s' (new_entry (jw_heap w) r)).
    { eapply reset_entry; eauto.
      - apply (i_null _ _ _ _ I).
      - assert (Z : forall b, In b m -> jw_heap w b <> None) by (intros b; apply (i_mine _ _ _ _ I)).
        intros b Y. destruct r as [a v | c take | c take del a | c | c a]; try destruct Y; subst;
          cbn [reset_okG] in Ok; try tauto.
        + destruct Ok as [Y | [Y _]]; auto.
        + destruct Ok as [Y | [Y _]]; auto.
        + destruct Ok as [Y | [Y _]]; auto.
        + destruct Ok as [Y _]; auto.
      - destruct r; auto. destruct Ok as [Y _]. exact (M_nonnull _ _ _ _ I _ Y).
      - destruct r; auto. now destruct Ok. }
    unfold sj_add. rewrite E. cbn [obnd]. unfold bs_move_assign. cbn [bs_empty s_own drop_own Z.eqb obnd].
    unfold bs_destroy. cbn [s_own drop_own Z.eqb obnd].
    unfold nstores, MIN_USER_ID. rewrite (F2_len _ _ _ (ji_tab _ _ _ J)), store_eta.
    eexists; split; [reflexivity |].
    assert (I3 : Inv h' (nth_error (j_stores (jw_job w) ++ [s'])) (fun a => In a (jmine m (JAdd r))) noMv).
    { apply (Inv_ext _ _ _ _ _ _ _ _ I2); auto.
      - intro k. rewrite nth_app_gset. fold n. symmetry. apply gset_twice.
      - intro x. destruct r as [a v | b [|] | b [|] [|] a | b | b a]; cbn [jmine afterG]; try tauto;
          apply in_remove_iff.
      - intro k. unfold noMv. tauto. }
    assert (Act : bs_active s' = is_stored (new_entry (jw_heap w) r)).
    { unfold bs_active. destruct (new_entry (jw_heap w) r); cbn [entry_ok is_stored] in *.
      - destruct O as (O1 & O2 & O3). rewrite O2. apply Z.eqb_neq in O3. now rewrite O3.
      - destruct O as (O1 & O2).
        destruct (own_not_mine _ _ _ _ I3 n s') as (_ & _ & _ & _ & C); auto.
        + rewrite nth_app_gset. apply gset_same.
        + rewrite C. apply Z.eqb_neq in O1. now rewrite O1.
      - now rewrite O. }
    constructor; cbn [jw_heap jw_job j_stores j_num].
    + exact I3.
    + rewrite Act, num_app, (ji_num _ _ _ J). destruct (is_stored _); lia.
    + apply Forall2_app; [| constructor; [exact O | constructor]].
      apply Cont; auto. intros i s Es Nz. apply (Hk i s); auto.
      * intros ->. rewrite Gn in Es. discriminate.
      * rewrite gset_other; auto. intros ->. rewrite Gn in Es. discriminate.
  - (* JRemove *)
    unfold sj_remove. rewrite (ids_in_range _ _ _ J).
    destruct ((0 <? num_stored t) && (1024 <=? id) && (id <? 1024 + Z.of_nat (length t))) eqn:R.
    + apply andb_true_iff in R. destruct R as [R R3]. apply andb_true_iff in R. destruct R as [R1 R2].
      assert (Emin : sj_min_id (jw_job w) = 1024).
      { unfold sj_min_id, sj_has, sj_num. rewrite (ji_num _ _ _ J), R1. reflexivity. }
      rewrite Emin. apply Z.leb_le in R2. apply Z.ltb_lt in R3.
      assert (X : (id <? 1024) = false) by (apply Z.ltb_ge; lia). rewrite X.
      set (i := Z.to_nat (id - 1024)).
      destruct (nth_error (j_stores (jw_job w)) i) as [s |] eqn:Es.
      2:{ apply nth_error_None in Es. rewrite (F2_len _ _ _ (ji_tab _ _ _ J)) in Es.
          unfold i in Es. exfalso. lia. }
      destruct (F2_nth _ _ _ (ji_tab _ _ _ J) _ _ Es) as (e & Ee & O).
      cbn [obnd]. rewrite (active_stored _ _ _ _ _ _ J Es Ee O).
      destruct (is_stored e) eqn:St.
      * unfold bs_clear. destruct (T_release _ _ _ _ i s I Es) as (h' & D & I' & HM & HL).
        rewrite D. cbn [obnd]. eexists; split; [reflexivity |].
        constructor; cbn [jw_heap jw_job j_stores j_num jmine].
        { apply (Inv_ext _ _ _ _ _ _ _ _ I'); auto; try tauto.
          intro k. now apply nth_upd_gset with (x := s). }
        { rewrite (num_upd _ _ _ SNone Ee), St, (ji_num _ _ _ J). cbn [is_stored]. lia. }
        { apply (F2_imp (fun s0 e0 => s0 = bs_empty /\ e0 = SNone \/
             entry_ok (jw_heap w) s0 e0)).
          - apply F2_upd; [| auto]. apply (F2_imp _ _ _ _ (ji_tab _ _ _ J)). auto.
          - intros k s0 e0 Ek Ek' [[-> ->] | O0]; [reflexivity |].
            destruct e0; cbn [entry_ok] in *; auto. destruct O0 as [O1 O2]. split; auto.
            rewrite (nth_upd_gset _ _ _ _ Es) in Ek.
            destruct (own_not_mine _ _ _ _ I' k s0 Ek O1) as (_ & _ & L & _).
            destruct (HL _ L) as (-> & _). exact O2. }
      * destruct e; try discriminate. cbn [obnd]. eexists; split; [reflexivity |].
        assert (Et : upd_nth i SNone t = t).
        { clear -Ee. clearbody i. revert i Ee. induction t as [| y t IH]; intros [| i] Ee; cbn [nth_error upd_nth] in *;
            try discriminate.
          - injection Ee as ->. reflexivity.
          - rewrite IH; auto. }
        rewrite Et. destruct w as [hh jj]. exact J.
    + cbn [obnd]. eexists; split; [reflexivity |].
      assert (Et : (if id <? 1024 then t else upd_nth (Z.to_nat (id - 1024)) SNone t) = t).
      { destruct (Z.ltb_spec id 1024) as [| L]; auto.
        assert (X : (1024 <=? id) = true) by (apply Z.leb_le; lia). rewrite X, andb_true_r in R.
        apply andb_false_iff in R. destruct R as [R | R].
        - apply Z.ltb_ge in R. generalize (Z.to_nat (id - 1024)). intro i.
          assert (All : forall e, In e t -> e = SNone).
          { intros e H. destruct (is_stored e) eqn:St; [| destruct e; auto; discriminate].
            apply In_nth_error in H. destruct H as [k H]. pose proof (num_pos _ _ _ H St). lia. }
          clear -All. revert i. induction t as [| y t IH]; intros [| i]; cbn [upd_nth]; auto.
          + rewrite (All y); auto. now left.
          + rewrite IH; auto. intros e H. apply All. now right.
        - apply Z.ltb_ge in R.
          assert (G : (length t <= Z.to_nat (id - 1024))%nat) by lia.
          revert G. generalize (Z.to_nat (id - 1024)). clear. intro i. revert i.
          induction t as [| y t IH]; intros [| i] G; cbn [upd_nth length] in *; auto; try lia.
          rewrite IH; auto. lia. }
      rewrite Et. destruct w as [hh jj]. exact J.
  - (* JWrite *)
    pose proof (get_spec _ _ _ J id) as G.
    unfold lookup in G. destruct (Z.ltb_spec id 1024) as [L | L].
    { exfalso. apply A. unfold sj_ptr. destruct G as [-> | ->]; reflexivity. }
    destruct (nth_error t (Z.to_nat (id - 1024))) as [e |] eqn:Ee.
    2:{ exfalso. apply A. unfold sj_ptr. destruct G as [-> | ->]; reflexivity. }
    assert (Com : e <> SNone -> exists s, sj_get (jw_job w) id = Some s
       /\ nth_error (j_stores (jw_job w)) (Z.to_nat (id - 1024)) = Some s
       /\ entry_ok (jw_heap w) s e).
    { intro Ne. destruct e; [| | now elim Ne]; destruct G as (_ & s & G1 & G2 & G3); exists s; auto. }
    destruct (is_stored e) eqn:St.
    2:{ destruct e; try discriminate. exfalso. apply A. unfold sj_ptr.
        destruct G as [-> | ->]; reflexivity. }
    destruct (Com ltac:(intros ->; discriminate)) as (s & Gs & Es & O).
    assert (Ep : sj_ptr (jw_job w) id = s_c99 s) by (unfold sj_ptr; rewrite Gs; reflexivity).
    rewrite Ep in *.
    assert (Lv : live (jw_heap w) (s_c99 s)).
    { destruct (i_ok _ _ _ _ I _ _ Es (fun f => f)) as [(B1 & B2 & B3 & B4 & _) | [(B1 & B2 & _) | (B1 & B2 & _)]].
      - now rewrite B3. - congruence. - now apply (i_mine _ _ _ _ I). }
    pose proof (T_write _ _ _ _ (s_c99 s) v I Lv) as I'.
    unfold live in Lv. destruct (jw_heap w (s_c99 s)) eqn:Ev; [| now elim Lv]. cbn [obnd].
    eexists; split; [reflexivity |].
    constructor; cbn [jw_heap jw_job jmine].
    + exact I'.
    + rewrite (ji_num _ _ _ J). destruct e; auto. rewrite (num_upd _ _ _ (SOwned v) Ee). cbn [is_stored]. lia.
    + apply (F2_imp (fun s0 e0 => True)).
      { apply F2_true. rewrite (F2_len _ _ _ (ji_tab _ _ _ J)). symmetry.
        destruct e; auto; apply upd_nth_length. }
      intros k s0 e0 Ek Ek' _.
      destruct (F2_nth _ _ _ (ji_tab _ _ _ J) _ _ Ek) as (e1 & Ee1 & O1).
      assert (Oth : k <> Z.to_nat (id - 1024) -> nth_error t k = Some e0 ->
         entry_ok (hset (jw_heap w) (s_c99 s) (Some v)) s0 e0).
      { intros N Y. rewrite Y in Ee1. injection Ee1 as <-.
        destruct e0; cbn [entry_ok] in *; auto. destruct O1 as [O2 O3]. split; auto.
        rewrite hset_other; auto. intro Z. apply N.
        destruct (own_not_mine _ _ _ _ I k s0 Ek O2) as (_ & NM & _).
        destruct (i_ok _ _ _ _ I _ _ Es (fun f => f)) as [(B1 & B2 & B3 & B4 & _) | [(B1 & B2 & _) | (B1 & B2 & _)]].
        - eapply (i_uniq _ _ _ _ I k _ s0 s); eauto. congruence.
        - congruence.
        - elim NM. now rewrite Z. }
      destruct e.
      * destruct (Nat.eq_dec k (Z.to_nat (id - 1024))) as [-> | N]; [| auto].
        rewrite Es in Ek. injection Ek as <-. rewrite Ee in Ek'. injection Ek' as <-. exact O.
      * rewrite nth_upd_nth in Ek'.
        destruct (Nat.eqb_spec k (Z.to_nat (id - 1024))) as [-> | N]; [| auto].
        destruct (Nat.ltb _ _); [| discriminate]. injection Ek' as <-.
        rewrite Es in Ek. injection Ek as <-. cbn [entry_ok] in *. destruct O as [O2 O3].
        destruct (own_not_mine _ _ _ _ I _ s Es O2) as (_ & _ & _ & _ & C).
        split; auto. rewrite C. apply hset_same.
      * discriminate.
Qed.

Lemma JInv_run ops : forall m w t, JInv m w t -> jkeeps m w ops ->
  exists w', jrun w ops = Some (fst (trun t w ops), w')
    /\ JInv (fold_left jmine ops m) w' (snd (trun t w ops)).
Proof.
  induction ops as [| op r IH]; intros m w t J K; cbn [jrun trun fold_left].
  - exists w. auto.
  - destruct K as [A K]. destruct (JInv_step m w t op J A) as (w1 & E & J1).
    rewrite E. cbn [obnd].
    destruct (IH _ _ _ J1 (K _ _ E)) as (w2 & E2 & J2).
    rewrite E2. cbn [obnd]. exists w2.
    destruct (trun (tstep t (jw_heap w) op) w1 r) as [l t2]. cbn [fst snd] in *. auto.
Qed.

Lemma JInv_shows m w t : JInv m w t -> forall id, shows m w id (lookup t id).
Proof.
  intros J id. pose proof (ji_inv _ _ _ J) as I. pose proof (get_spec _ _ _ J id) as G.
  unfold shows, sj_ptr, sj_ptr_cxx, sj_owns.
  destruct (lookup t id) as [b | v |].
  - destruct G as (_ & s & -> & (O1 & O2 & O3) & Es).
    unfold bs_ptr, bs_owns, bs_active. rewrite O1, O2. cbn [Z.eqb negb].
    rewrite andb_false_r.
    destruct (i_ok _ _ _ _ I _ _ Es (fun f => f)) as [(B1 & _) | [(B1 & B2 & _) | (B1 & B2 & _)]];
      [congruence | congruence |].
    rewrite O2 in B2. repeat split; auto. now apply (i_mine _ _ _ _ I).
  - destruct G as (Lid & s & -> & (O1 & O2) & Es).
    destruct (own_not_mine _ _ _ _ I _ s Es O1) as (_ & NM & L & C1 & C2).
    unfold bs_ptr, bs_ptr_cxx, bs_owns, bs_active. rewrite C1, C2.
    pose proof O1 as O1'. apply Z.eqb_neq in O1'. rewrite O1'. cbn [negb andb].
    repeat split; auto.
    intros id' E. pose proof (get_spec _ _ _ J id') as G'.
    destruct (lookup t id').
    + destruct G' as (L' & s' & G1 & (O1'' & O2' & O3') & Es'). rewrite G1 in E.
      destruct (i_ok _ _ _ _ I _ _ Es' (fun f => f)) as [(B1 & _) | [(B1 & B2 & _) | (B1 & B2 & _)]];
        [congruence | congruence |]. rewrite E in B2. now elim NM.
    + destruct G' as (L' & s' & G1 & (P1 & P2) & Es'). rewrite G1 in E.
      destruct (own_not_mine _ _ _ _ I _ s' Es' P1) as (_ & _ & _ & _ & C).
      assert (X : Z.to_nat (id' - 1024) = Z.to_nat (id - 1024)).
      { eapply (i_uniq _ _ _ _ I _ _ s' s); eauto. congruence. }
      lia.
    + destruct G' as [G' | G']; rewrite G' in E; cbn in E; congruence.
  - destruct G as [-> | ->]; cbn; auto.
Qed.
