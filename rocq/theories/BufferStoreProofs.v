(** Proofs about buffer stores: an invariant over heap, stores, the caller's
    buffers and the moved-from stores, and elementary transitions from which
    every operation is composed. *)
From Coq Require Import ZArith Bool List Lia.
From Verif Require Import BufferStore BufferStoreSpec.
Import ListNotations.
Local Open Scope Z_scope.

Definition exposedG (get : nat -> option bstore) (Mv : nat -> Prop) (a : Z) : Prop :=
  exists i s, get i = Some s /\ ~ Mv i /\ s_c99 s = a.

Definition okst (h : bheap) (M : Z -> Prop) (s : bstore) : Prop :=
  (s_own s <> 0 /\ s_cxx s = s_own s /\ s_c99 s = s_own s /\ live h (s_own s) /\ ~ M (s_own s))
  \/ (s_own s = 0 /\ s_c99 s = 0 /\ s_cxx s = 0)
  \/ (s_own s = 0 /\ M (s_c99 s) /\ (s_cxx s = 0 \/ s_cxx s = s_c99 s)).

Record Inv (h : bheap) (get : nat -> option bstore) (M : Z -> Prop) (Mv : nat -> Prop) : Prop :=
  mkInv {
    i_null : h 0 = None;
    i_mine : forall a, M a -> live h a;
    i_ok : forall i s, get i = Some s -> ~ Mv i -> okst h M s;
    i_mv : forall i s, get i = Some s -> Mv i -> s_own s = 0;
    i_uniq : forall i j s t, get i = Some s -> get j = Some t -> s_own s <> 0 ->
      s_own s = s_own t -> i = j;
    i_leak : forall a, live h a -> M a \/ exists i s, get i = Some s /\ s_own s = a;
    i_dom : forall i, Mv i -> exists s, get i = Some s;
    i_dec : forall i, Mv i \/ ~ Mv i }.

Definition gset (get : nat -> option bstore) (i : nat) (s : option bstore) : nat -> option bstore :=
  fun k => if Nat.eqb k i then s else get k.

Lemma gset_same get i s : gset get i s i = s.
Proof. unfold gset. now rewrite Nat.eqb_refl. Qed.

Lemma gset_other get i s k : k <> i -> gset get i s k = get k.
Proof. intro H. unfold gset. apply Nat.eqb_neq in H. now rewrite H. Qed.

Lemma gset_cases get i s k t : gset get i s k = Some t ->
  (k = i /\ s = Some t) \/ (k <> i /\ get k = Some t).
Proof.
  unfold gset. destruct (Nat.eqb_spec k i); intro H; [left | right]; auto.
Qed.

Lemma hset_same h a v : hset h a v a = v.
Proof. unfold hset. now rewrite Z.eqb_refl. Qed.

Lemma hset_other h a v x : x <> a -> hset h a v x = h x.
Proof. intro H. unfold hset. apply Z.eqb_neq in H. now rewrite H. Qed.

Lemma hset_ext h h' a v x : (forall y, h y = h' y) -> hset h a v x = hset h' a v x.
Proof. intro H. unfold hset. destruct (x =? a); auto. Qed.

Lemma hset_live h a v x : live (hset h a (Some v)) x <-> (x = a \/ live h x).
Proof.
  unfold live, hset. destruct (Z.eqb_spec x a); split; intro H; auto; try discriminate.
  now destruct H.
Qed.

Lemma hset_dead h a x : live (hset h a None) x <-> (x <> a /\ live h x).
Proof.
  unfold live, hset. destruct (Z.eqb_spec x a); split; intro H; tauto.
Qed.

Lemma Inv_ext h get M Mv h' get' (M' : Z -> Prop) (Mv' : nat -> Prop) :
  Inv h get M Mv ->
  (forall a, h' a = h a) -> (forall i, get' i = get i) ->
  (forall a, M' a <-> M a) -> (forall i, Mv' i <-> Mv i) ->
  Inv h' get' M' Mv'.
Proof.
  intros I Hh Hg HM HMv.
  assert (L : forall a, live h' a <-> live h a) by (intro; unfold live; rewrite Hh; tauto).
  constructor.
  - rewrite Hh. apply (i_null _ _ _ _ I).
  - intros a H. apply L. apply (i_mine _ _ _ _ I). now apply HM.
  - intros i s G N. rewrite Hg in G. rewrite HMv in N.
    destruct (i_ok _ _ _ _ I i s G N) as [(A & B & C & D & E) | [A | (A & B & C)]].
    + left. repeat split; auto; [now apply L | now rewrite HM].
    + right; left; auto.
    + right; right. repeat split; auto. now apply HM.
  - intros i s G N. rewrite Hg in G. rewrite HMv in N. eapply i_mv; eauto.
  - intros i j s t G G'. rewrite Hg in G, G'. eapply i_uniq; eauto.
  - intros a H. apply L in H. destruct (i_leak _ _ _ _ I a H) as [H1 | (i & s & G & E)].
    + left. now apply HM.
    + right. exists i, s. now rewrite Hg.
  - intros i H. apply HMv in H. rewrite Hg. now apply (i_dom _ _ _ _ I).
  - intro i. rewrite HMv. apply (i_dec _ _ _ _ I).
Qed.

Lemma M_nonnull h get M Mv : Inv h get M Mv -> forall a, M a -> a <> 0.
Proof.
  intros I a H E. subst a. apply (i_mine _ _ _ _ I) in H. apply H. apply (i_null _ _ _ _ I).
Qed.

Lemma own_not_mine h get M Mv : Inv h get M Mv ->
  forall i s, get i = Some s -> s_own s <> 0 -> ~ Mv i /\ ~ M (s_own s) /\ live h (s_own s)
    /\ s_cxx s = s_own s /\ s_c99 s = s_own s.
Proof.
  intros I i s G N.
  assert (Nm : ~ Mv i) by (intro Y; apply N; eapply i_mv; eauto).
  destruct (i_ok _ _ _ _ I i s G Nm) as [(A & B & C & D & E) | [(A & _) | (A & _)]];
    [repeat split; auto | now elim N | now elim N].
Qed.

(** Allocation by the caller, or by a store that keeps the buffer aside. *)
Lemma T_alloc h get M Mv a v :
  Inv h get M Mv -> a <> 0 -> h a = None ->
  Inv (hset h a (Some v)) get (fun x => x = a \/ M x) Mv.
Proof.
  intros I N F.
  constructor.
  - rewrite hset_other by auto. apply (i_null _ _ _ _ I).
  - intros x [-> | H]; apply hset_live; auto. right. now apply (i_mine _ _ _ _ I).
  - intros i s G Nm.
    destruct (i_ok _ _ _ _ I i s G Nm) as [(A & B & C & D & E) | [A | (A & B & C)]].
    + left. repeat split; auto.
      * apply hset_live; auto.
      * intros [H | H]; [|auto]. apply D. now rewrite H.
    + right; left; auto.
    + right; right. auto.
  - apply (i_mv _ _ _ _ I).
  - apply (i_uniq _ _ _ _ I).
  - intros x H. apply hset_live in H. destruct H as [-> | H]; auto.
    destruct (i_leak _ _ _ _ I x H) as [? | ?]; auto.
  - apply (i_dom _ _ _ _ I).
  - apply (i_dec _ _ _ _ I).
Qed.

Lemma T_write h get M Mv a v :
  Inv h get M Mv -> live h a -> Inv (hset h a (Some v)) get M Mv.
Proof.
  intros I L.
  assert (E : forall x, live (hset h a (Some v)) x <-> live h x)
    by (intro x; rewrite hset_live; split; [intros [-> | H]; auto | auto]).
  constructor.
  - rewrite hset_other; [apply (i_null _ _ _ _ I) |]. intro Y. subst a.
    apply L. apply (i_null _ _ _ _ I).
  - intros x H. apply E. now apply (i_mine _ _ _ _ I).
  - intros i s G Nm.
    destruct (i_ok _ _ _ _ I i s G Nm) as [(A & B & C & D & F) | [A | (A & B & C)]].
    + left. repeat split; auto. now apply E.
    + right; left; auto.
    + right; right. auto.
  - apply (i_mv _ _ _ _ I).
  - apply (i_uniq _ _ _ _ I).
  - intros x H. apply E in H. now apply (i_leak _ _ _ _ I).
  - apply (i_dom _ _ _ _ I).
  - apply (i_dec _ _ _ _ I).
Qed.

Lemma T_cfree h get M Mv a :
  Inv h get M Mv -> M a -> ~ exposedG get Mv a ->
  Inv (hset h a None) get (fun x => M x /\ x <> a) Mv.
Proof.
  intros I Ma Nx.
  constructor.
  - rewrite hset_other; [apply (i_null _ _ _ _ I) |].
    intro E. symmetry in E. revert E. eapply M_nonnull; eauto.
  - intros x [H N]. apply hset_dead. split; auto. now apply (i_mine _ _ _ _ I).
  - intros i s G Nm.
    destruct (i_ok _ _ _ _ I i s G Nm) as [(A & B & C & D & E) | [A | (A & B & C)]].
    + left. repeat split; auto.
      * apply hset_dead. split; auto. intro Y. apply E. now rewrite Y.
      * tauto.
    + right; left; auto.
    + right; right. repeat split; auto.
      intro Y. apply Nx. exists i, s. auto.
  - apply (i_mv _ _ _ _ I).
  - apply (i_uniq _ _ _ _ I).
  - intros x H. apply hset_dead in H. destruct H as [N H].
    destruct (i_leak _ _ _ _ I x H) as [? | ?]; auto.
  - apply (i_dom _ _ _ _ I).
  - apply (i_dec _ _ _ _ I).
Qed.

(** A store gives up what it has. *)
Lemma T_release h get M Mv i s :
  Inv h get M Mv -> get i = Some s ->
  exists h', drop_own (s_own s) h = Some h'
    /\ Inv h' (gset get i (Some bs_empty)) M (fun k => Mv k /\ k <> i)
    /\ (forall x, M x -> h' x = h x)
    /\ (forall x, live h' x -> h' x = h x /\ live h x /\ (s_own s <> 0 -> x <> s_own s)).
Proof.
  intros I G.
  assert (Dec : forall k, (Mv k /\ k <> i) \/ ~ (Mv k /\ k <> i)).
  { intro k. destruct (i_dec _ _ _ _ I k); destruct (Nat.eq_dec k i); tauto. }
  unfold drop_own. destruct (Z.eqb_spec (s_own s) 0) as [Z0 | Nz].
  - exists h. split; [reflexivity |]. split; [| split; [auto | intros x L; repeat split; auto; now intro]].
    constructor; auto.
    + apply (i_null _ _ _ _ I).
    + apply (i_mine _ _ _ _ I).
    + intros k t K Nm. apply gset_cases in K. destruct K as [[-> E] | [N K]].
      * injection E as <-. right; left. auto.
      * apply (i_ok _ _ _ _ I k t K). tauto.
    + intros k t K [Y N]. rewrite gset_other in K by auto. eapply i_mv; eauto.
    + intros k l t u K L. apply gset_cases in K. apply gset_cases in L.
      destruct K as [[-> E] | [N K]]; destruct L as [[-> F] | [N' L]]; intros; auto.
      * injection E as <-. now elim H.
      * injection F as <-. now elim H.
      * eapply i_uniq; eauto.
    + intros a H. destruct (i_leak _ _ _ _ I a H) as [? | (k & t & K & E)]; auto.
      right. destruct (Nat.eq_dec k i) as [-> | N].
      * exfalso. rewrite G in K. injection K as <-. rewrite Z0 in E. subst a.
        apply H. apply (i_null _ _ _ _ I).
      * exists k, t. rewrite gset_other; auto.
    + intros k [Y N]. rewrite gset_other by auto. now apply (i_dom _ _ _ _ I).
  - destruct (own_not_mine _ _ _ _ I i s G Nz) as (Nmv & Nm & Lv & _ & _).
    unfold h_free. unfold live in Lv. destruct (h (s_own s)) as [v |] eqn:Hv; [| now elim Lv].
    exists (hset h (s_own s) None). split; [reflexivity |].
    split; [| split].
    + constructor; auto.
      * rewrite hset_other by auto. apply (i_null _ _ _ _ I).
      * intros x H. apply hset_dead. split; [intro E; subst x; auto | now apply (i_mine _ _ _ _ I)].
      * intros k t K Nmk. apply gset_cases in K. destruct K as [[-> E] | [N K]].
        { injection E as <-. right; left; auto. }
        destruct (i_ok _ _ _ _ I k t K) as [(A & B & C & D & E) | [A | (A & B & C)]]; [tauto | | |].
        { left. repeat split; auto. apply hset_dead. split; auto.
          intro Y. apply N. eapply (i_uniq _ _ _ _ I); eauto. }
        { right; left; auto. }
        { right; right; auto. }
      * intros k t K [Y N]. rewrite gset_other in K by auto. eapply i_mv; eauto.
      * intros k l t u K L. apply gset_cases in K. apply gset_cases in L.
        destruct K as [[-> E] | [N K]]; destruct L as [[-> F] | [N' L]]; intros; auto.
        { injection E as <-. now elim H. }
        { injection F as <-. now elim H. }
        { eapply i_uniq; eauto. }
      * intros a H. apply hset_dead in H. destruct H as [Na H].
        destruct (i_leak _ _ _ _ I a H) as [? | (k & t & K & E)]; auto.
        right. destruct (Nat.eq_dec k i) as [-> | N].
        { exfalso. rewrite G in K. injection K as <-. now elim Na. }
        exists k, t. rewrite gset_other; auto.
      * intros k [Y N]. rewrite gset_other by auto. now apply (i_dom _ _ _ _ I).
    + intros x H. apply hset_other. intro E. subst x. auto.
    + intros x H. apply hset_dead in H. destruct H as [N H]. rewrite hset_other by auto.
      repeat split; auto.
Qed.

(** An empty store exposes a buffer of the caller. *)
Lemma T_put h get M Mv i b c :
  Inv h get M Mv -> get i = Some bs_empty -> ~ Mv i -> M b -> (c = 0 \/ c = b) ->
  Inv h (gset get i (Some (mkStore c b 0))) M Mv.
Proof.
  intros I G Nm Mb Hc. constructor.
  - apply (i_null _ _ _ _ I).
  - apply (i_mine _ _ _ _ I).
  - intros k t K N. apply gset_cases in K. destruct K as [[-> E] | [N' K]].
    + injection E as <-. right; right. cbn [s_own s_c99 s_cxx]. auto.
    + apply (i_ok _ _ _ _ I k t K N).
  - intros k t K Y. apply gset_cases in K. destruct K as [[-> E] | [N' K]]; [now elim Nm |].
    eapply i_mv; eauto.
  - intros k l t u K L. apply gset_cases in K. apply gset_cases in L.
    destruct K as [[-> E] | [N K]]; destruct L as [[-> F] | [N' L]]; intros; auto.
    + injection E as <-. now elim H.
    + injection F as <-. now elim H.
    + eapply i_uniq; eauto.
  - intros a H. destruct (i_leak _ _ _ _ I a H) as [? | (k & t & K & E)]; auto.
    right. destruct (Nat.eq_dec k i) as [-> | N].
    + exfalso. rewrite G in K. injection K as <-. cbn in E. subst a.
      apply H. apply (i_null _ _ _ _ I).
    + exists k, t. rewrite gset_other; auto.
  - intros k Y. destruct (i_dom _ _ _ _ I k Y) as [t T].
    exists t. rewrite gset_other; auto. intros ->. now elim Nm.
  - apply (i_dec _ _ _ _ I).
Qed.

(** An empty store takes over a buffer of the caller. *)
Lemma T_acquire h get M Mv i a :
  Inv h get M Mv -> get i = Some bs_empty -> ~ Mv i -> M a -> ~ exposedG get Mv a ->
  Inv h (gset get i (Some (mkStore a a a))) (fun x => M x /\ x <> a) Mv.
Proof.
  intros I G Nm Ma Nx.
  pose proof (M_nonnull _ _ _ _ I a Ma) as Na.
  constructor.
  - apply (i_null _ _ _ _ I).
  - intros x [H _]. now apply (i_mine _ _ _ _ I).
  - intros k t K N. apply gset_cases in K. destruct K as [[-> E] | [N' K]].
    + injection E as <-. left. cbn [s_own s_c99 s_cxx].
      repeat split; auto. { now apply (i_mine _ _ _ _ I). } tauto.
    + destruct (i_ok _ _ _ _ I k t K N) as [(A & B & C & D & E) | [A | (A & B & C)]].
      * left. repeat split; auto. tauto.
      * right; left; auto.
      * right; right. repeat split; auto. intro Y. apply Nx. exists k, t. auto.
  - intros k t K Y. apply gset_cases in K. destruct K as [[-> E] | [N' K]]; [now elim Nm |].
    eapply i_mv; eauto.
  - intros k l t u K L. apply gset_cases in K. apply gset_cases in L.
    destruct K as [[-> E] | [N K]]; destruct L as [[-> F] | [N' L]]; intros H H'; auto.
    + injection E as <-. cbn [s_own] in H'. exfalso.
      rewrite H' in Ma, Na. destruct (own_not_mine _ _ _ _ I l u L Na) as (_ & Y & _). auto.
    + injection F as <-. cbn [s_own] in H'. exfalso.
      rewrite <- H' in Ma. destruct (own_not_mine _ _ _ _ I k t K H) as (_ & Y & _). auto.
    + eapply i_uniq; eauto.
  - intros x H. destruct (Z.eq_dec x a) as [-> | N].
    + right. exists i, (mkStore a a a). rewrite gset_same. auto.
    + destruct (i_leak _ _ _ _ I x H) as [? | (k & t & K & E)]; auto.
      right. destruct (Nat.eq_dec k i) as [-> | N'].
      * exfalso. rewrite G in K. injection K as <-. cbn in E. subst x.
        apply H. apply (i_null _ _ _ _ I).
      * exists k, t. rewrite gset_other; auto.
  - intros k Y. destruct (i_dom _ _ _ _ I k Y) as [t T].
    exists t. rewrite gset_other; auto. intros ->. now elim Nm.
  - apply (i_dec _ _ _ _ I).
Qed.

(** What store [j] has moves to the empty store [i]. *)
Lemma T_transfer h get M Mv i j s :
  Inv h get M Mv -> i <> j -> get i = Some bs_empty -> ~ Mv i -> get j = Some s -> ~ Mv j ->
  Inv h (gset (gset get i (Some (mkStore (s_cxx s) (s_c99 s) (s_own s))))
              j (Some (mkStore (s_cxx s) (s_c99 s) 0)))
      M (fun k => k = j \/ Mv k).
Proof.
  intros I Nij Gi Nmi Gj Nmj.
  set (s' := mkStore (s_cxx s) (s_c99 s) (s_own s)).
  set (get' := gset (gset get i (Some s')) j (Some (mkStore (s_cxx s) (s_c99 s) 0))).
  assert (C : forall k t, get' k = Some t ->
     (k = j /\ s_own t = 0) \/ (k = i /\ t = s') \/ (k <> i /\ k <> j /\ get k = Some t)).
  { intros k t K. apply gset_cases in K. destruct K as [[-> E] | [N K]].
    - left. split; auto. now injection E as <-.
    - apply gset_cases in K. destruct K as [[-> E] | [N' K]].
      + right; left. split; auto. now injection E as <-.
      + right; right. auto. }
  assert (Gi' : get' i = Some s') by (unfold get'; rewrite gset_other, gset_same; auto).
  assert (Gk : forall k, k <> i -> k <> j -> get' k = get k)
    by (intros; unfold get'; rewrite !gset_other; auto).
  constructor.
  - apply (i_null _ _ _ _ I).
  - apply (i_mine _ _ _ _ I).
  - intros k t K N. destruct (C k t K) as [[-> _] | [[-> ->] | (N1 & N2 & K')]].
    + elim N. auto.
    + exact (i_ok _ _ _ _ I j s Gj Nmj).
    + apply (i_ok _ _ _ _ I k t K'). tauto.
  - intros k t K Y. destruct (C k t K) as [[-> E] | [[-> ->] | (N1 & N2 & K')]]; auto.
    + destruct Y as [Y | Y]; [now elim Nij | now elim Nmi].
    + destruct Y as [Y | Y]; [now elim N2 |]. eapply i_mv; eauto.
  - intros k l t u K L H H'.
    destruct (C k t K) as [[-> E] | [[-> ->] | (N1 & N2 & K')]];
      destruct (C l u L) as [[-> F] | [[-> ->] | (N3 & N4 & L')]]; auto.
    + now elim H.
    + now elim H.
    + elim H. now rewrite H', F.
    + exfalso. apply N4. symmetry. eapply (i_uniq _ _ _ _ I j l s u); eauto.
    + elim H. now rewrite H', F.
    + exfalso. apply N2. eapply (i_uniq _ _ _ _ I k j t s); eauto.
    + eapply i_uniq; eauto.
  - intros a H. destruct (i_leak _ _ _ _ I a H) as [? | (k & t & K & E)]; auto.
    right. destruct (Nat.eq_dec k j) as [-> | Nj].
    + rewrite Gj in K. injection K as <-. exists i, s'. auto.
    + destruct (Nat.eq_dec k i) as [-> | Ni].
      * exfalso. rewrite Gi in K. injection K as <-. cbn in E. subst a.
        apply H. apply (i_null _ _ _ _ I).
      * exists k, t. rewrite Gk; auto.
  - intros k [-> | Y].
    + exists (mkStore (s_cxx s) (s_c99 s) 0). unfold get'. now rewrite gset_same.
    + destruct (i_dom _ _ _ _ I k Y) as [t T].
      exists t. rewrite Gk; auto; intros ->; auto.
  - intro k. destruct (Nat.eq_dec k j); [auto |]. destruct (i_dec _ _ _ _ I k); tauto.
Qed.

Lemma T_add h get M Mv n :
  Inv h get M Mv -> get n = None -> Inv h (gset get n (Some bs_empty)) M Mv /\ ~ Mv n.
Proof.
  intros I G.
  assert (Nm : ~ Mv n).
  { intro Y. destruct (i_dom _ _ _ _ I n Y) as [t T]. rewrite G in T. discriminate. }
  split; auto. constructor.
  - apply (i_null _ _ _ _ I).
  - apply (i_mine _ _ _ _ I).
  - intros k t K N. apply gset_cases in K. destruct K as [[-> E] | [N' K]].
    + injection E as <-. right; left. auto.
    + apply (i_ok _ _ _ _ I k t K N).
  - intros k t K Y. apply gset_cases in K. destruct K as [[-> E] | [N' K]]; [now elim Nm |].
    eapply i_mv; eauto.
  - intros k l t u K L. apply gset_cases in K. apply gset_cases in L.
    destruct K as [[-> E] | [N K]]; destruct L as [[-> F] | [N' L]]; intros; auto.
    + injection E as <-. now elim H.
    + injection F as <-. now elim H.
    + eapply i_uniq; eauto.
  - intros a H. destruct (i_leak _ _ _ _ I a H) as [? | (k & t & K & E)]; auto.
    right. exists k, t. rewrite gset_other; auto. intros ->. rewrite G in K. discriminate.
  - intros k Y. destruct (i_dom _ _ _ _ I k Y) as [t T].
    exists t. rewrite gset_other; auto. intros ->. now elim Nm.
  - apply (i_dec _ _ _ _ I).
Qed.

Lemma T_drop h get M Mv i :
  Inv h get M Mv -> get i = Some bs_empty -> ~ Mv i -> Inv h (gset get i None) M Mv.
Proof.
  intros I G Nm. constructor.
  - apply (i_null _ _ _ _ I).
  - apply (i_mine _ _ _ _ I).
  - intros k t K N. apply gset_cases in K. destruct K as [[-> E] | [N' K]]; [discriminate |].
    apply (i_ok _ _ _ _ I k t K N).
  - intros k t K Y. apply gset_cases in K. destruct K as [[-> E] | [N' K]]; [now elim Nm |].
    eapply i_mv; eauto.
  - intros k l t u K L. apply gset_cases in K. apply gset_cases in L.
    destruct K as [[-> E] | [N K]]; destruct L as [[-> F] | [N' L]]; intros; try discriminate.
    eapply i_uniq; eauto.
  - intros a H. destruct (i_leak _ _ _ _ I a H) as [? | (k & t & K & E)]; auto.
    right. exists k, t. rewrite gset_other; auto. intros ->.
    rewrite G in K. injection K as <-. cbn in E. subst a. apply H. apply (i_null _ _ _ _ I).
  - intros k Y. destruct (i_dom _ _ _ _ I k Y) as [t T].
    exists t. rewrite gset_other; auto. intros ->. now elim Nm.
  - apply (i_dec _ _ _ _ I).
Qed.

(** ** The operations as compositions of transitions. *)

Definition freshG (h : bheap) (a : Z) : Prop := a <> 0 /\ h a = None.

Definition reset_okG (h : bheap) (get : nat -> option bstore) (M : Z -> Prop) (Mv : nat -> Prop)
  (r : reset_op) : Prop :=
  match r with
  | RCap a _ => freshG h a
  | RCxx b take => b = 0 \/ M b /\ (take = true -> ~ exposedG get Mv b)
  | RC b take del a =>
      b = 0 \/ M b /\ (take = true -> freshG h a /\ (del = true -> ~ exposedG get Mv b))
  | RUniq b => b = 0 \/ M b /\ ~ exposedG get Mv b
  | RMove b a => M b /\ freshG h a
  end.

Definition afterG (M : Z -> Prop) (r : reset_op) : Z -> Prop :=
  match r with
  | RCxx b true => fun x => M x /\ x <> b
  | RC b true true _ => fun x => M x /\ x <> b
  | RUniq b => fun x => M x /\ x <> b
  | _ => M
  end.

Lemma not_exposed_empty get (Mv : nat -> Prop) i a :
  a <> 0 -> ~ exposedG get Mv a ->
  ~ exposedG (gset get i (Some bs_empty)) (fun k => Mv k /\ k <> i) a.
Proof.
  intros N X (k & t & K & Nm & E). apply gset_cases in K. destruct K as [[-> F] | [N' K]].
  - injection F as <-. cbn in E. congruence.
  - apply X. exists k, t. tauto.
Qed.

Lemma h_new_ok h a v : freshG h a -> h_new a v h = Some (hset h a (Some v)).
Proof.
  intros [N F]. unfold h_new. rewrite F. apply Z.eqb_neq in N. now rewrite N.
Qed.

(** A store gets a buffer [a] that was just set aside for it. *)
Lemma R_new h0 get M Mv i s a v :
  Inv h0 get M Mv -> get i = Some s -> freshG h0 a ->
  exists h', drop_own (s_own s) (hset h0 a (Some v)) = Some h'
    /\ Inv h' (gset get i (Some (mkStore a a a))) M (fun k => Mv k /\ k <> i)
    /\ h' a = Some v
    /\ (forall x, M x -> h' x = h0 x)
    /\ (forall k t, k <> i -> get k = Some t -> s_own t <> 0 -> h' (s_own t) = h0 (s_own t)).
Proof.
  intros I G [Na F].
  pose proof (T_alloc _ _ _ _ a v I Na F) as I1.
  destruct (T_release _ _ _ _ i s I1 G) as (h' & D & I2 & HM & HL).
  assert (NMa : ~ M a) by (intro Y; apply (i_mine _ _ _ _ I) in Y; now elim Y).
  assert (Nx : ~ exposedG get Mv a).
  { intros (k & t & K & Nm & E).
    destruct (i_ok _ _ _ _ I k t K Nm) as [(A & B & C & L & _) | [(A & B & _) | (A & B & _)]].
    - apply L. rewrite <- C, E. exact F.
    - congruence.
    - rewrite E in B. auto. }
  pose proof (T_acquire _ _ _ _ i a I2 (gset_same _ _ _)) as I3.
  specialize (I3 ltac:(tauto) (or_introl eq_refl) (not_exposed_empty _ _ _ _ Na Nx)).
  exists h'. split; [exact D |]. split; [| split; [| split]].
  - apply (Inv_ext _ _ _ _ _ _ _ _ I3); auto.
    + intro k. unfold gset. destruct (Nat.eqb k i); reflexivity.
    + intro x. split; [intro H; split; [auto | intros ->; auto] |].
      intros [[H | H] N]; [now elim N | exact H].
    + tauto.
  - rewrite HM by auto. apply hset_same.
  - intros x H. rewrite HM by auto. apply hset_other. intros ->. auto.
  - intros k t N K Nz.
    destruct (own_not_mine _ _ _ _ I k t K Nz) as (Nmk & NM & L & E1 & E2).
    assert (Ea : s_own t <> a) by (intro Y; rewrite Y in L; now elim L).
    revert D. unfold drop_own. destruct (Z.eqb_spec (s_own s) 0) as [E0 | N0]; intro D.
    + injection D as <-. apply hset_other; auto.
    + unfold h_free in D. destruct (hset h0 a (Some v) (s_own s)); [| discriminate].
      injection D as <-. rewrite !hset_other; auto.
      intro Y. apply N. eapply (i_uniq _ _ _ _ I); eauto.
Qed.

Lemma gset_id get i s : get i = Some s -> forall k, gset get i (Some s) k = get k.
Proof. intros G k. unfold gset. destruct (Nat.eqb_spec k i); subst; auto. Qed.

Lemma gset_twice get i s t : forall k, gset (gset get i s) i t k = gset get i t k.
Proof. intro k. unfold gset. destruct (Nat.eqb k i); reflexivity. Qed.

Lemma R_reset h get M Mv i s r :
  Inv h get M Mv -> get i = Some s -> (Mv i -> reset_blind r) -> reset_okG h get M Mv r ->
  exists s' h', bs_reset r s h = Some (s', h')
    /\ Inv h' (gset get i (Some s')) (afterG M r) (fun k => Mv k /\ k <> i)
    /\ (forall k t, k <> i -> get k = Some t -> s_own t <> 0 -> h' (s_own t) = h (s_own t)).
Proof.
  intros I G Bl Ok.
  assert (Nop : forall M', ~ Mv i -> (forall x, M' x <-> M x) ->
     Inv h (gset get i (Some s)) M' (fun k => Mv k /\ k <> i)).
  { intros M' Nm HM. apply (Inv_ext _ _ _ _ _ _ _ _ I); auto.
    - now apply gset_id.
    - intro k. split; [tauto |]. intro Y. split; auto. intros ->. auto. }
  assert (Rel : forall h2 M2, Inv h2 get M2 Mv ->
     (forall k t, k <> i -> get k = Some t -> s_own t <> 0 -> h2 (s_own t) = h (s_own t)) ->
     exists h', drop_own (s_own s) h2 = Some h'
       /\ Inv h' (gset get i (Some bs_empty)) M2 (fun k => Mv k /\ k <> i)
       /\ (forall k t, k <> i -> get k = Some t -> s_own t <> 0 -> h' (s_own t) = h (s_own t))).
  { intros h2 M2 I2 Hh.
    destruct (T_release _ _ _ _ i s I2 G) as (h' & D & I3 & _ & HL).
    exists h'. split; [exact D | split; [exact I3 |]]. intros k t N K Nz. rewrite <- Hh with (k := k) by auto.
    apply HL.
    destruct (own_not_mine _ _ _ _ I3 k t) as (_ & _ & L & _); auto.
    rewrite gset_other; auto. }
  destruct r as [a v | b take | b take del a | b | b a]; cbn [bs_reset afterG reset_okG] in *.
  - destruct (R_new _ _ _ _ i s a v I G Ok) as (h' & D & I' & _ & _ & Hk).
    exists (mkStore a a a), h'. unfold bs_reset_cap. rewrite (h_new_ok _ _ _ Ok).
    cbn [obnd]. rewrite D. cbn [obnd]. split; [reflexivity | split; auto].
  - assert (Nm : ~ Mv i) by (intro Y; exact (Bl Y)).
    unfold bs_reset_cxx.
    destruct (Z.eqb_spec b 0) as [-> | Nb]; cbn [negb andb].
    + exists s, h. split; [reflexivity | split; auto]. apply Nop; auto.
      destruct take; [| tauto]. intro x. split; [tauto |]. intro H. split; auto.
      eapply M_nonnull; eauto.
    + destruct Ok as [Y | [Mb Hx]]; [now elim Nb |].
      destruct (Z.eqb_spec (s_cxx s) b) as [Eb | Ne]; cbn [negb].
      * exists s, h. split; [reflexivity | split; auto]. apply Nop; auto.
        destruct take; [| tauto]. exfalso. apply (Hx eq_refl). exists i, s. repeat split; auto.
        destruct (i_ok _ _ _ _ I i s G Nm) as [(A & B & C & L & X) | [(A & B & C) | (A & B & [C | C])]].
        { exfalso. apply X. rewrite <- B, Eb. exact Mb. }
        { congruence. } { congruence. } { congruence. }
      * pose proof (i_mine _ _ _ _ I b Mb) as Lb. unfold live in Lb.
        destruct (h b) as [vb |]; [| now elim Lb]. cbn [obnd].
        destruct (Rel h M I ltac:(auto)) as (h' & D & I' & Hk). rewrite D. cbn [obnd].
        eexists _, h'. split; [reflexivity | split; [| exact Hk]].
        destruct take.
        { pose proof (T_acquire _ _ _ _ i b I' (gset_same _ _ _) ltac:(tauto) Mb
            (not_exposed_empty _ _ _ _ Nb (Hx eq_refl))) as I3.
          apply (Inv_ext _ _ _ _ _ _ _ _ I3); try tauto.
          intro k. symmetry. apply gset_twice. }
        { pose proof (T_put _ _ _ _ i b b I' (gset_same _ _ _) ltac:(tauto) Mb ltac:(auto)) as I3.
          apply (Inv_ext _ _ _ _ _ _ _ _ I3); try tauto.
          intro k. symmetry. apply gset_twice. }
  - assert (Nm : ~ Mv i) by (intro Y; exact (Bl Y)).
    unfold bs_reset_c.
    destruct (Z.eqb_spec b 0) as [-> | Nb]; cbn [negb andb].
    + exists s, h. split; [reflexivity | split; auto]. apply Nop; auto.
      destruct take, del; try tauto. intro x. split; [tauto |]. intro H. split; auto.
      eapply M_nonnull; eauto.
    + destruct Ok as [Y | [Mb Hx]]; [now elim Nb |].
      destruct (Z.eqb_spec (s_c99 s) b) as [Eb | Ne]; cbn [negb].
      * exists s, h. split; [reflexivity | split; auto]. apply Nop; auto.
        destruct take, del; try tauto. exfalso. apply (Hx eq_refl); auto. exists i, s. auto.
      * pose proof (i_mine _ _ _ _ I b Mb) as Lb. unfold live in Lb.
        destruct take.
        { destruct (h b) as [vb |] eqn:Hb; [| now elim Lb]. cbn [obnd].
          destruct (Hx eq_refl) as [Fr Hd].
          rewrite (h_new_ok _ _ _ Fr). cbn [obnd]. cbv zeta.
          assert (Nab : a <> b) by (intros ->; destruct Fr; congruence).
          assert (Nba : b <> a) by auto.
          (* the heap with the given buffer emptied or deleted, and [a] not yet there *)
          set (wb := if del then None else Some (@nil Z)).
          assert (I2 : Inv (hset h b wb) get (afterG M (RC b true del a)) Mv).
          { unfold wb. destruct del; cbn [afterG].
            - apply T_cfree; auto.
            - apply T_write; auto. unfold live. now rewrite Hb. }
          assert (Fr2 : freshG (hset h b wb) a).
          { destruct Fr as [F1 F2]. split; auto. now rewrite hset_other. }
          destruct (R_new _ _ _ _ i s a vb I2 G Fr2) as (h2 & D2 & I3 & Ha & _ & Hk).
          assert (Hk2 : forall k t, k <> i -> get k = Some t -> s_own t <> 0 ->
             h2 (s_own t) = h (s_own t)).
          { intros k t N K Nz. rewrite (Hk k t N K Nz). apply hset_other. intro Y.
            destruct (own_not_mine _ _ _ _ I k t K Nz) as (_ & X & _). apply X. now rewrite Y. }
          (* the order of the updates in the code *)
          set (hc := if del then hset (hset (hset h a (Some vb)) b (Some [])) b None
                     else hset (hset h a (Some vb)) b (Some [])).
          assert (Ec : (if del then h_free b (hset (hset h a (Some vb)) b (Some []))
                        else Some (hset (hset h a (Some vb)) b (Some []))) = Some hc).
          { unfold hc. destruct del; [| reflexivity].
            unfold h_free. now rewrite hset_same. }
          rewrite Ec. cbn [obnd].
          assert (Hc : forall x, hc x = hset (hset h b wb) a (Some vb) x).
          { intro x. unfold hc, wb, hset.
            destruct del; destruct (Z.eqb_spec x b); destruct (Z.eqb_spec x a);
              subst; auto; congruence. }
          assert (Dc : exists h3, drop_own (s_own s) hc = Some h3 /\ forall x, h3 x = h2 x).
          { revert D2. unfold drop_own. destruct (s_own s =? 0).
            - intro E. injection E as <-. exists hc. auto.
            - unfold h_free. rewrite (Hc (s_own s)).
              destruct (hset (hset h b wb) a (Some vb) (s_own s)); [| discriminate].
              intro E. injection E as <-. eexists. split; [reflexivity |].
              intro x. now apply hset_ext. }
          destruct Dc as (h3 & D3 & E3). rewrite D3. cbn [obnd].
          exists (mkStore a a a), h3. split; [reflexivity | split].
          - apply (Inv_ext _ _ _ _ _ _ _ _ I3); auto; tauto.
          - intros k t N K Nz. rewrite E3. exact (Hk2 k t N K Nz). }
        { destruct (Rel h M I ltac:(auto)) as (h' & D & I' & Hk). rewrite D. cbn [obnd].
          eexists _, h'. split; [reflexivity | split; [| exact Hk]].
          pose proof (T_put _ _ _ _ i b 0 I' (gset_same _ _ _) ltac:(tauto) Mb ltac:(auto)) as I3.
          apply (Inv_ext _ _ _ _ _ _ _ _ I3); try tauto.
          intro k. symmetry. apply gset_twice. }
  - unfold bs_reset_uniq.
    destruct (Rel h M I ltac:(auto)) as (h' & D & I' & Hk). rewrite D. cbn [obnd].
    eexists _, h'. split; [reflexivity | split; [| exact Hk]].
    destruct Ok as [-> | [Mb Hx]].
    + apply (Inv_ext _ _ _ _ _ _ _ _ I'); try tauto.
      intro x. split; [tauto |]. intro H. split; auto. eapply M_nonnull; eauto.
    + pose proof (M_nonnull _ _ _ _ I b Mb) as Nb.
      pose proof (T_acquire _ _ _ _ i b I' (gset_same _ _ _) ltac:(tauto) Mb
            (not_exposed_empty _ _ _ _ Nb Hx)) as I3.
      apply (Inv_ext _ _ _ _ _ _ _ _ I3); try tauto.
      intro k. symmetry. apply gset_twice.
  - destruct Ok as [Mb Fr].
    assert (Nm : ~ Mv i) by (intro Y; exact (Bl Y)).
    pose proof (M_nonnull _ _ _ _ I b Mb) as Nb.
    unfold bs_reset_move. destruct (Z.eqb_spec b (s_cxx s)) as [Eb | Ne]; cbn [negb].
    + exists s, h. split; [reflexivity | split; auto]. apply Nop; auto. tauto.
    + pose proof (i_mine _ _ _ _ I b Mb) as Lb. unfold live in Lb.
      destruct (h b) as [vb |] eqn:Hb; [| now elim Lb]. cbn [obnd].
      rewrite (h_new_ok _ _ _ Fr). cbn [obnd]. cbv zeta.
      assert (Nab : a <> b) by (intros ->; destruct Fr; congruence).
      assert (I2 : Inv (hset h b (Some [])) get M Mv).
      { apply T_write; auto. unfold live. now rewrite Hb. }
      assert (Fr2 : freshG (hset h b (Some [])) a).
      { destruct Fr as [F1 F2]. split; auto. now rewrite hset_other. }
      destruct (R_new _ _ _ _ i s a vb I2 G Fr2) as (h2 & D2 & I3 & Ha & _ & Hk).
      assert (Hc : forall x, hset (hset h a (Some vb)) b (Some []) x
                   = hset (hset h b (Some [])) a (Some vb) x).
      { intro x. unfold hset.
        destruct (Z.eqb_spec x b); destruct (Z.eqb_spec x a); subst; auto; congruence. }
      assert (Dc : exists h3, drop_own (s_own s) (hset (hset h a (Some vb)) b (Some [])) = Some h3
                /\ forall x, h3 x = h2 x).
      { revert D2. unfold drop_own. destruct (s_own s =? 0).
        - intro E. injection E as <-. eexists. split; [reflexivity |]. auto.
        - unfold h_free. rewrite (Hc (s_own s)).
          destruct (hset (hset h b (Some [])) a (Some vb) (s_own s)); [| discriminate].
          intro E. injection E as <-. eexists. split; [reflexivity |].
          intro x. now apply hset_ext. }
      destruct Dc as (h3 & D3 & E3). rewrite D3. cbn [obnd].
      exists (mkStore a a a), h3. split; [reflexivity | split].
      * apply (Inv_ext _ _ _ _ _ _ _ _ I3); auto; tauto.
      * intros k t N K Nz. rewrite E3. rewrite (Hk k t N K Nz). apply hset_other. intro Y.
        destruct (own_not_mine _ _ _ _ I k t K Nz) as (_ & X & _). apply X. now rewrite Y.
Qed.

(** ** Pools. *)

Lemma upd_nth_length {A} i (x : A) l : length (upd_nth i x l) = length l.
Proof. revert i. induction l; intros [| i]; cbn [upd_nth length]; auto. Qed.

Lemma nth_upd_nth {A} i (x : A) l k :
  nth_error (upd_nth i x l) k
  = if Nat.eqb k i then (if Nat.ltb i (length l) then Some x else None) else nth_error l k.
Proof.
  revert i k. induction l as [| y l IH]; intros i k; cbn [upd_nth length].
  - destruct (Nat.eqb k i); destruct i, k; reflexivity.
  - destruct i as [| i]; destruct k as [| k]; cbn [upd_nth nth_error Nat.eqb]; auto.
    rewrite IH. destruct (Nat.eqb k i); auto.
Qed.

Lemma pget_lt p i s : pget p i = Some s -> (i < length (p_stores p))%nat.
Proof.
  unfold pget. intro H. apply nth_error_Some. destruct (nth_error _ i); discriminate.
Qed.

Lemma pget_pset p i t h s : pget p i = Some s ->
  forall k, pget (pset p i t h) k = gset (pget p) i t k.
Proof.
  intros G k. apply pget_lt in G. unfold pget at 1, pset. cbn [p_stores]. rewrite nth_upd_nth.
  unfold gset. destruct (Nat.eqb_spec k i) as [-> | N]; [| reflexivity].
  apply Nat.ltb_lt in G. rewrite G. destruct t; reflexivity.
Qed.

Lemma pget_padd p s h : forall k, pget (padd p s h) k = gset (pget p) (length (p_stores p)) (Some s) k.
Proof.
  intro k. unfold pget, padd, gset. cbn [p_stores].
  destruct (Nat.eqb_spec k (length (p_stores p))) as [-> | N].
  - rewrite nth_error_app2, Nat.sub_diag by lia. reflexivity.
  - destruct (Nat.lt_ge_cases k (length (p_stores p))).
    + now rewrite nth_error_app1.
    + rewrite nth_error_app2 by auto.
      assert (E : (k - length (p_stores p) = S (k - length (p_stores p) - 1))%nat) by lia.
      rewrite E. cbn [nth_error]. rewrite (proj2 (nth_error_None (p_stores p) k)) by lia.
      destruct (k - length (p_stores p) - 1)%nat; reflexivity.
Qed.

Lemma pget_end p : pget p (length (p_stores p)) = None.
Proof. unfold pget. now rewrite (proj2 (nth_error_None _ _)) by lia. Qed.

Definition PInv (g : ledger) (p : pool) : Prop := Inv (p_heap p) (pget p) (mine g) (moved g).

Lemma in_remove_iff {A} (dec : forall x y : A, {x = y} + {x <> y}) a x l :
  In x (remove dec a l) <-> In x l /\ x <> a.
Proof.
  split; [apply in_remove | intros [H N]; now apply in_in_remove].
Qed.

Lemma after_mine g r : forall x, mine (after_reset g r) x <-> afterG (mine g) r x.
Proof.
  intro x. destruct r as [a v | b [|] | b [|] [|] a | b | b a]; cbn [after_reset afterG]; try tauto;
    unfold mine, take_away; cbn [l_mine]; apply in_remove_iff.
Qed.

Lemma after_moved g r : forall i, moved (after_reset g r) i <-> moved g i.
Proof.
  intro i. destruct r as [a v | b [|] | b [|] [|] a | b | b a]; cbn [after_reset]; tauto.
Qed.

Lemma set_moved g i : forall k, moved (mark_set i g) k <-> moved g k /\ k <> i.
Proof. intro k. apply in_remove_iff. Qed.

Lemma reset_ok_G g p r :
  reset_ok g p r -> reset_okG (p_heap p) (pget p) (mine g) (moved g) r.
Proof. destruct r; cbn [reset_ok reset_okG]; intro H; exact H. Qed.

Lemma PInv_step g p op :
  PInv g p -> allowed g p op ->
  exists p', pool_step p op = Some p' /\ PInv (ledger_step g op) p'.
Proof.
  intros I A. unfold PInv in *.
  destruct op as [a v | a | a v | r | i r | i | i | j a | j | i j a | i j];
    cbn [allowed pool_step ledger_step] in *.
  - (* CNew *)
    rewrite (h_new_ok _ _ _ A). cbn [obnd]. eexists; split; [reflexivity |]. cbn [p_heap].
    destruct A as [N F]. pose proof (T_alloc _ _ _ _ a v I N F) as I'.
    apply (Inv_ext _ _ _ _ _ _ _ _ I'); try tauto; try reflexivity.
    intro x. unfold mine. cbn [l_mine]. cbn [In]. split; intros [H | H]; auto.
  - (* CFree *)
    destruct A as [Ma Nx]. pose proof (i_mine _ _ _ _ I a Ma) as L. unfold live in L.
    unfold h_free. destruct (p_heap p a) eqn:Ea; [| now elim L]. cbn [obnd].
    eexists; split; [reflexivity |]. cbn [p_heap].
    pose proof (T_cfree _ _ _ _ a I Ma Nx) as I'.
    apply (Inv_ext _ _ _ _ _ _ _ _ I'); try tauto; try reflexivity.
    intro x. unfold mine, take_away. cbn [l_mine]. apply in_remove_iff.
  - (* CWrite *)
    pose proof A as L. unfold live in L. destruct (p_heap p a) eqn:Ea; [| now elim L]. cbn [obnd].
    eexists; split; [reflexivity |]. cbn [p_heap]. exact (T_write _ _ _ _ a v I A).
  - (* SNew *)
    destruct (T_add _ _ _ _ (length (p_stores p)) I (pget_end p)) as [I1 Nm].
    destruct (R_reset (p_heap p) _ _ _ (length (p_stores p)) bs_empty r I1 (gset_same _ _ _))
      as (s' & h' & E & I2 & _).
    + intro Y. now elim Nm.
    + assert (X : forall b, b <> 0 -> ~ exposed g p b ->
        ~ exposedG (gset (pget p) (length (p_stores p)) (Some bs_empty)) (moved g) b).
      { intros b Nb X (k & t & K & Nk & F). apply gset_cases in K. destruct K as [[-> Y] | [N K]].
        - injection Y as <-. cbn in F. congruence.
        - apply X. exists k, t. auto. }
      destruct r as [a v | b take | b take del a | b | b a]; cbn [reset_ok reset_okG] in *; auto.
      * destruct A as [A | [A1 A2]]; [auto | right]. split; auto. intro T. apply X; auto.
        exact (M_nonnull _ _ _ _ I b A1).
      * destruct A as [A | [A1 A2]]; [auto | right]. split; auto. intro T.
        destruct (A2 T) as [A3 A4]. split; auto. intro D. apply X; auto.
        exact (M_nonnull _ _ _ _ I b A1).
      * destruct A as [A | [A1 A2]]; [auto | right]. split; auto. apply X; auto.
        exact (M_nonnull _ _ _ _ I b A1).
    + rewrite E. cbn [obnd]. eexists; split; [reflexivity |]. unfold padd at 1. cbn [p_heap].
      apply (Inv_ext _ _ _ _ _ _ _ _ I2); auto.
      * intro k. rewrite pget_padd. symmetry. apply gset_twice.
      * apply after_mine.
      * intro k. rewrite after_moved. split; [| tauto]. intro Y. split; auto. intros ->. auto.
  - (* SReset *)
    destruct A as ([s G] & Ok & Bl). rewrite G. cbn [obnd].
    destruct (R_reset _ _ _ _ i s r I G Bl (reset_ok_G _ _ _ Ok)) as (s' & h' & E & I2 & _).
    rewrite E. cbn [obnd]. eexists; split; [reflexivity |]. unfold pset at 1. cbn [p_heap].
    apply (Inv_ext _ _ _ _ _ _ _ _ I2); auto.
    + intro k. now apply pget_pset with (s := s).
    + intro x. rewrite <- after_mine. tauto.
    + intro k. rewrite set_moved, after_moved. tauto.
  - (* SClear *)
    destruct A as [s G]. rewrite G. cbn [obnd]. unfold bs_clear.
    destruct (T_release _ _ _ _ i s I G) as (h' & D & I2 & _). rewrite D. cbn [obnd].
    eexists; split; [reflexivity |]. unfold pset at 1. cbn [p_heap].
    apply (Inv_ext _ _ _ _ _ _ _ _ I2); auto.
    + intro k. now apply pget_pset with (s := s).
    + tauto.
    + apply set_moved.
  - (* SDestroy *)
    destruct A as [s G]. rewrite G. cbn [obnd]. unfold bs_destroy.
    destruct (T_release _ _ _ _ i s I G) as (h' & D & I2 & _). rewrite D. cbn [obnd].
    eexists; split; [reflexivity |]. unfold pset at 1. cbn [p_heap].
    pose proof (T_drop _ _ _ _ i I2 (gset_same _ _ _) ltac:(tauto)) as I3.
    apply (Inv_ext _ _ _ _ _ _ _ _ I3); auto.
    + intro k. rewrite (pget_pset p i None h' s G). symmetry. apply gset_twice.
    + tauto.
    + apply set_moved.
  - (* SCopyNew *)
    destruct A as ([o G] & Nm & Fr). rewrite G. cbn [obnd]. unfold bs_copy_ctor.
    destruct (T_add _ _ _ _ (length (p_stores p)) I (pget_end p)) as [I1 Nn].
    destruct (bs_owns o) eqn:Ow.
    + assert (Nz : s_own o <> 0).
      { unfold bs_owns in Ow. apply andb_true_iff in Ow. destruct Ow as [_ Ow].
        apply negb_true_iff, Z.eqb_neq in Ow. exact Ow. }
      destruct (own_not_mine _ _ _ _ I j o G Nz) as (_ & _ & L & _). unfold live in L.
      destruct (p_heap p (s_own o)) as [v |] eqn:Ev; [| now elim L]. cbn [obnd].
      rewrite (h_new_ok _ _ _ Fr). cbn [obnd].
      destruct (R_new _ _ _ _ (length (p_stores p)) bs_empty a v I1 (gset_same _ _ _) Fr)
        as (h' & D & I2 & _).
      cbn in D. injection D as <-.
      eexists; split; [reflexivity |]. unfold padd at 1. cbn [p_heap].
      apply (Inv_ext _ _ _ _ _ _ _ _ I2); auto; try tauto.
      * intro k. rewrite pget_padd. symmetry. apply gset_twice.
      * intro k. split; [| tauto]. intro Y. split; auto. intros ->. auto.
    + cbn [obnd]. eexists; split; [reflexivity |]. unfold padd at 1. cbn [p_heap].
      assert (Z0 : s_own o = 0).
      { destruct (Z.eq_dec (s_own o) 0) as [| N]; auto. exfalso.
        destruct (own_not_mine _ _ _ _ I j o G N) as (_ & _ & _ & _ & C).
        unfold bs_owns, bs_active in Ow. rewrite C in Ow. apply Z.eqb_neq in N. rewrite N in Ow.
        discriminate. }
      destruct (i_ok _ _ _ _ I j o G Nm) as [(B & _) | [(_ & B & C) | (_ & B & C)]]; [now elim B | |].
      * rewrite B, C.
        apply (Inv_ext _ _ _ _ _ _ _ _ I1); auto; try tauto. apply pget_padd.
      * pose proof (T_put _ _ _ _ (length (p_stores p)) (s_c99 o) (s_cxx o) I1
          (gset_same _ _ _) Nn B C) as I2.
        apply (Inv_ext _ _ _ _ _ _ _ _ I2); auto; try tauto.
        intro k. rewrite pget_padd. symmetry. apply gset_twice.
  - (* SMoveNew *)
    destruct A as ([o G] & Nm). rewrite G. cbn [obnd]. cbn [bs_move_ctor].
    destruct (T_add _ _ _ _ (length (p_stores p)) I (pget_end p)) as [I1 Nn].
    assert (Nj : length (p_stores p) <> j).
    { intro Y. rewrite <- Y, pget_end in G. discriminate. }
    pose proof (T_transfer _ _ _ _ (length (p_stores p)) j o I1 Nj (gset_same _ _ _) Nn) as I2.
    rewrite gset_other in I2 by auto. specialize (I2 G Nm).
    eexists; split; [reflexivity |]. unfold padd at 1. cbn [p_heap].
    apply (Inv_ext _ _ _ _ _ _ _ _ I2); auto; try tauto.
    + intro k. rewrite pget_padd. unfold pset at 2. cbn [p_stores]. rewrite upd_nth_length.
      unfold gset. rewrite (pget_pset p j _ _ o G k). unfold gset.
      destruct (Nat.eqb_spec k (length (p_stores p))) as [-> | N]; auto.
      apply Nat.eqb_neq in Nj. rewrite Nj. reflexivity.
    + intro k. unfold mark_moved, moved. cbn [l_moved In]. split; intros [H | H]; auto.
  - (* SCopy *)
    destruct A as (s & rhs & Gi & Gj & Nm & Fr & Hown). rewrite Gi, Gj. cbn [obnd].
    destruct (Nat.eqb_spec i j) as [-> | Nij].
    + eexists; split; [reflexivity |].
      apply (Inv_ext _ _ _ _ _ _ _ _ I); auto; try tauto.
      intro k. rewrite set_moved. split; [tauto |]. intro Y. split; auto. intros ->. auto.
    + unfold bs_copy_assign. destruct (bs_owns rhs) eqn:Ow.
      * assert (Nz : s_own rhs <> 0).
        { unfold bs_owns in Ow. apply andb_true_iff in Ow. destruct Ow as [_ Ow].
          apply negb_true_iff, Z.eqb_neq in Ow. exact Ow. }
        destruct (own_not_mine _ _ _ _ I j rhs Gj Nz) as (_ & _ & L & _). unfold live in L.
        destruct (p_heap p (s_own rhs)) as [v |] eqn:Ev; [| now elim L]. cbn [obnd].
        rewrite (h_new_ok _ _ _ Fr). cbn [obnd].
        destruct (R_new _ _ _ _ i s a v I Gi Fr) as (h' & D & I2 & _).
        rewrite D. cbn [obnd]. eexists; split; [reflexivity |]. unfold pset at 1. cbn [p_heap].
        apply (Inv_ext _ _ _ _ _ _ _ _ I2); auto; try tauto.
        { intro k. now apply pget_pset with (s := s). }
        { apply set_moved. }
      * cbn [obnd]. eexists; split; [reflexivity |]. unfold pset at 1. cbn [p_heap].
        assert (Zr : s_own rhs = 0).
        { destruct (Z.eq_dec (s_own rhs) 0) as [| N]; auto. exfalso.
          destruct (own_not_mine _ _ _ _ I j rhs Gj N) as (_ & _ & _ & _ & C).
          unfold bs_owns, bs_active in Ow. rewrite C in Ow. apply Z.eqb_neq in N. rewrite N in Ow.
          discriminate. }
        assert (Zs : s_own s = 0).
        { destruct (Z.eq_dec (s_own s) 0) as [| N]; auto. exfalso.
          destruct (own_not_mine _ _ _ _ I i s Gi N) as (_ & _ & _ & _ & C).
          assert (Y : bs_owns s = true).
          { unfold bs_owns, bs_active. rewrite C. apply Z.eqb_neq in N. now rewrite N. }
          apply Hown in Y. congruence. }
        destruct (T_release _ _ _ _ i s I Gi) as (h' & D & I2 & _).
        rewrite Zs in D. cbn in D. injection D as <-.
        destruct (i_ok _ _ _ _ I j rhs Gj Nm) as [(B & _) | [(_ & B & C) | (_ & B & C)]];
          [now elim B | |].
        { rewrite B, C, Zs.
          apply (Inv_ext _ _ _ _ _ _ _ _ I2); auto; try tauto.
          - intro k. now apply pget_pset with (s := s).
          - apply set_moved. }
        { pose proof (T_put _ _ _ _ i (s_c99 rhs) (s_cxx rhs) I2 (gset_same _ _ _) ltac:(tauto) B C) as I3.
          rewrite Zs.
          apply (Inv_ext _ _ _ _ _ _ _ _ I3); auto; try tauto.
          - intro k. rewrite (pget_pset p i _ _ s Gi). symmetry. apply gset_twice.
          - apply set_moved. }
  - (* SMove *)
    destruct A as ([s Gi] & [rhs Gj] & Nm). rewrite Gi, Gj. cbn [obnd].
    destruct (Nat.eqb_spec i j) as [-> | Nij].
    + eexists; split; [reflexivity |]. exact I.
    + unfold bs_move_assign.
      destruct (T_release _ _ _ _ i s I Gi) as (h' & D & I2 & _). rewrite D. cbn [obnd].
      pose proof (T_transfer _ _ _ _ i j rhs I2 Nij (gset_same _ _ _) ltac:(tauto)) as I3.
      rewrite gset_other in I3 by auto. specialize (I3 Gj ltac:(tauto)).
      eexists; split; [reflexivity |]. unfold pset at 1. cbn [p_heap].
      apply (Inv_ext _ _ _ _ _ _ _ _ I3); auto; try tauto.
      * intro k.
        assert (G2 : pget (pset p i (Some (mkStore (s_cxx rhs) (s_c99 rhs) (s_own rhs))) h') j = Some rhs).
        { rewrite (pget_pset p i _ _ s Gi). rewrite gset_other; auto. }
        rewrite (pget_pset _ j _ _ rhs G2). unfold gset at 1 2.
        destruct (Nat.eqb k j); auto. rewrite (pget_pset p i _ _ s Gi).
        symmetry. apply gset_twice.
      * intro k. unfold mark_moved, moved. cbn [l_moved In].
        pose proof (set_moved g i k) as Y. unfold moved in Y. rewrite Y.
        split; intros [H | H]; auto.
Qed.

Lemma PInv_start : PInv ledger_start pool_start.
Proof.
  unfold PInv, pool_start, ledger_start, mine, moved, pget. cbn [p_heap p_stores l_mine l_moved].
  assert (E : forall i, nth_error (@nil (option bstore)) i = None) by (intros [|]; reflexivity).
  constructor.
  - reflexivity.
  - intros a [].
  - intros i s H. rewrite E in H. discriminate.
  - intros i s H. rewrite E in H. discriminate.
  - intros i j s t H. rewrite E in H. discriminate.
  - intros a H. now elim H.
  - intros i [].
  - intro i. right. intros [].
Qed.

Lemma PInv_run ops : forall g p, PInv g p -> keeps_rules g p ops ->
  exists p', pool_run p ops = Some p' /\ PInv (ledger_run g ops) p'.
Proof.
  induction ops as [| op r IH]; intros g p I K; cbn [pool_run].
  - exists p. auto.
  - destruct K as [A K]. destruct (PInv_step g p op I A) as (p1 & E & I1).
    rewrite E. cbn [obnd]. unfold ledger_run. cbn [fold_left]. apply IH; auto.
Qed.

Lemma PInv_sound g p : PInv g p ->
  (forall i s, pget p i = Some s -> ~ moved g i -> store_sound g p s) /\ accounted g p.
Proof.
  intro I. split.
  - intros i s G Nm.
    destruct (i_ok _ _ _ _ I i s G Nm) as [(A & B & C & D & E) | [(A & B & C) | (A & B & C)]];
      unfold store_sound, coherent, bs_owns, bs_active, bs_ptr, bs_ptr_cxx.
    + rewrite B, C. pose proof A as A'. apply Z.eqb_neq in A'. rewrite A'. cbn [negb andb].
      repeat split; auto; try congruence.
    + rewrite A, B, C. cbn [Z.eqb negb andb]. repeat split; auto; try congruence; tauto.
    + pose proof (M_nonnull _ _ _ _ I _ B) as N. pose proof N as N'. apply Z.eqb_neq in N'.
      rewrite A, N'. cbn [negb andb Z.eqb].
      split; [right; auto |]. split; [intros _; now apply (i_mine _ _ _ _ I) |].
      split; [discriminate | auto].
  - intros a L. destruct (i_leak _ _ _ _ I a L) as [Ma | (i & s & G & E)].
    + left. split; auto. intros i s G E.
      assert (Nz : s_own s <> 0) by (rewrite E; exact (M_nonnull _ _ _ _ I a Ma)).
      destruct (own_not_mine _ _ _ _ I i s G Nz) as (_ & X & _). rewrite E in X. auto.
    + assert (Nz : s_own s <> 0).
      { rewrite E. intro Y. subst a. rewrite Y in L. apply L. apply (i_null _ _ _ _ I). }
      destruct (own_not_mine _ _ _ _ I i s G Nz) as (_ & X & _). rewrite E in X.
      right. split; auto. exists i. split; [exists s; auto |].
      intros j t T F. eapply (i_uniq _ _ _ _ I j i t s); eauto; congruence.
Qed.
