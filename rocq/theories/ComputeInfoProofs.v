From Coq Require Import Ascii String ZArith Bool List Lia.
From Verif Require Import Tac NodeId NodeIdSpec NodeIdProofs ComputeNode ComputeNodeSpec ComputeNodeProofs.
Import ListNotations.
Local Open Scope Z_scope.

(* ---- lists ---- *)
Lemma set_nth_length : forall A n (x : A) l, length (set_nth n x l) = length l.
Proof. intros A n x l. revert n. induction l as [|y l IH]; intros [|n]; cbn [set_nth length]; auto. Qed.

Lemma nth_set_nth : forall A n (x : A) l m, (n < length l)%nat ->
  nth_error (set_nth n x l) m = if Nat.eqb n m then Some x else nth_error l m.
Proof.
  intros A n x l. revert n. induction l as [|y l IH]; intros [|n] [|m] H; cbn [length] in H; try lia; cbn [set_nth nth_error Nat.eqb]; auto.
  apply IH. lia.
Qed.

Lemma set_nth_app : forall A (g t : list A) n x, (n < length g)%nat -> set_nth n x (g ++ t) = set_nth n x g ++ t.
Proof.
  intros A g. induction g as [|y g IH]; intros t [|n] x H; cbn [length] in H; try lia; cbn [app set_nth]; auto.
  rewrite IH by lia. reflexivity.
Qed.

Lemma set_nth_mid : forall A (g : list A) y t x, set_nth (length g) x (g ++ y :: t) = g ++ x :: t.
Proof. intros A g. induction g as [|z g IH]; intros y t x; cbn [length app set_nth]; auto. rewrite IH. reflexivity. Qed.

Lemma nth_mid : forall A (g : list A) y t, nth_error (g ++ y :: t) (length g) = Some y.
Proof. intros. rewrite nth_error_app2 by lia. rewrite Nat.sub_diag. reflexivity. Qed.

(* ---- heap operations in the middle of a heap ---- *)
Lemma free_mid : forall g b t a, a = length g -> c_free (Some a) (g ++ Some b :: t) = Some (g ++ None :: t).
Proof. intros g b t a ->. unfold c_free. rewrite nth_mid, set_nth_mid. reflexivity. Qed.

Lemma store_mid : forall g b t a s, a = length g -> (length s <= length b)%nat ->
  store (Some a) s (g ++ Some b :: t) = Some (g ++ Some (s ++ skipn (length s) b) :: t).
Proof.
  intros g b t a s -> H. unfold store. rewrite nth_mid. rewrite (proj2 (Nat.leb_le _ _)) by lia. rewrite set_nth_mid. reflexivity.
Qed.

Lemma store_over : forall g b t a s, a = length g -> (length b < length s)%nat ->
  store (Some a) s (g ++ Some b :: t) = None.
Proof.
  intros g b t a s -> H. unfold store. rewrite nth_mid. rewrite (proj2 (Nat.leb_gt _ _)) by lia. reflexivity.
Qed.

Definition nuls (len : Z) : block := repeat (Some nul) (Z.to_nat (len + 1)).

Lemma size64_small : forall len, 0 <= len < 2 ^ 64 - 1 -> size64 len = len + 1.
Proof. intros. unfold size64. rewrite Z.mod_small; lia. Qed.

Lemma memset_mid : forall g n t a len, a = length g -> 0 <= len < 2 ^ 64 - 1 -> n = Z.to_nat (len + 1) ->
  memset0 (Some a) (size64 len) (g ++ Some (repeat None n) :: t) = Some (g ++ Some (nuls len) :: t).
Proof.
  intros g n t a len Ha H ->. unfold memset0. rewrite size64_small by lia.
  rewrite store_mid; [|exact Ha|rewrite !repeat_length; lia].
  rewrite skipn_all2 by (rewrite !repeat_length; lia). rewrite app_nil_r. reflexivity.
Qed.

(* ---- freeing a description ---- *)
Lemma free_own : forall h t p, Forall (live h) (the_address p) ->
  exists h', c_free p (h ++ t) = Some (h' ++ t) /\ length h' = length h /\
    forall a, nth_error h' a = if in_dec Nat.eq_dec a (the_address p) then Some None else nth_error h a.
Proof.
  intros h t [a|] H.
  - cbn [the_address] in *. apply Forall_cons_iff in H as [(b & Hb) _].
    assert (La : (a < length h)%nat) by (apply nth_error_Some; rewrite Hb; discriminate).
    exists (set_nth a None h). unfold c_free. rewrite nth_error_app1 by exact La. rewrite Hb. rewrite set_nth_app by exact La.
    split; auto. split; [apply set_nth_length|]. intros c. rewrite nth_set_nth by exact La.
    destruct (in_dec Nat.eq_dec c [a]) as [[ -> | [] ]|Ni].
    + rewrite Nat.eqb_refl. reflexivity.
    + destruct (Nat.eqb_spec a c); [|reflexivity]. exfalso. apply Ni. left. auto.
  - exists h. split; [reflexivity|]. split; reflexivity.
Qed.

Lemma live_keep : forall h h' l m, (forall a, nth_error h' a = if in_dec Nat.eq_dec a l then Some None else nth_error h a) ->
  Forall (live h) m -> (forall a, In a m -> ~ In a l) -> Forall (live h') m.
Proof.
  intros h h' l m E F D. rewrite Forall_forall in *. intros a Ha. destruct (F a Ha) as (b & Hb). exists b. rewrite E.
  destruct (in_dec Nat.eq_dec a l); [exfalso; eapply D; eauto|exact Hb].
Qed.

Lemma NoDup_app_l : forall A (l m : list A), NoDup (l ++ m) -> NoDup l.
Proof. intros A l m. induction l as [|a l IH]; intros H; [constructor|]. inversion H; subst. constructor; [rewrite in_app_iff in *; tauto|auto]. Qed.
Lemma NoDup_app_r : forall A (l m : list A), NoDup (l ++ m) -> NoDup m.
Proof. intros A l m. induction l as [|a l IH]; intros H; [exact H|]. inversion H; subst. auto. Qed.
Lemma NoDup_app_disj : forall A (l m : list A) a, NoDup (l ++ m) -> In a m -> ~ In a l.
Proof.
  intros A l m a. induction l as [|b l IH]; intros H Hm Hl; [contradiction|]. inversion H; subst. destruct Hl as [->|Hl].
  - apply H2. apply in_or_app. auto.
  - exact (IH H3 Hm Hl).
Qed.

Lemma ci_free_own : forall i h t, owns i h ->
  exists h', ci_free i (h ++ t) = Some (ci_preset, h' ++ t) /\ length h' = length h /\
    forall a, nth_error h' a = if in_dec Nat.eq_dec a (owned i) then Some None else nth_error h a.
Proof.
  intros i h t [ND F]. unfold owned in *.
  apply Forall_app in F as [F1 F]. apply Forall_app in F as [F2 F]. apply Forall_app in F as [F3 F4].
  pose proof (NoDup_app_r _ _ _ ND) as ND2. pose proof (NoDup_app_r _ _ _ ND2) as ND3.
  destruct (free_own h t (ci_arch i) F1) as (h1 & E1 & L1 & N1).
  assert (F2' : Forall (live h1) (the_address (ci_platform i))).
  { eapply live_keep; [exact N1|exact F2|]. intros a Ha. eapply NoDup_app_disj; [exact ND|]. apply in_or_app. auto. }
  assert (F3' : Forall (live h1) (the_address (ci_name i))).
  { eapply live_keep; [exact N1|exact F3|]. intros a Ha. eapply NoDup_app_disj; [exact ND|]. rewrite !in_app_iff. auto. }
  assert (F4' : Forall (live h1) (the_address (ci_description i))).
  { eapply live_keep; [exact N1|exact F4|]. intros a Ha. eapply NoDup_app_disj; [exact ND|]. rewrite !in_app_iff. auto. }
  destruct (free_own h1 t (ci_platform i) F2') as (h2 & E2 & L2 & N2).
  assert (F3'' : Forall (live h2) (the_address (ci_name i))).
  { eapply live_keep; [exact N2|exact F3'|]. intros a Ha. eapply NoDup_app_disj; [exact ND2|]. rewrite !in_app_iff. auto. }
  assert (F4'' : Forall (live h2) (the_address (ci_description i))).
  { eapply live_keep; [exact N2|exact F4'|]. intros a Ha. eapply NoDup_app_disj; [exact ND2|]. rewrite !in_app_iff. auto. }
  destruct (free_own h2 t (ci_name i) F3'') as (h3 & E3 & L3 & N3).
  assert (F4''' : Forall (live h3) (the_address (ci_description i))).
  { eapply live_keep; [exact N3|exact F4''|]. intros a Ha. eapply NoDup_app_disj; [exact ND3|]. auto. }
  destruct (free_own h3 t (ci_description i) F4''') as (h4 & E4 & L4 & N4).
  exists h4. unfold ci_free. rewrite E1. cbn [obind]. rewrite E2. cbn [obind]. rewrite E3. cbn [obind]. rewrite E4. cbn [obind].
  split; auto. split; [congruence|]. intros a. rewrite N4, N3, N2, N1.
  destruct (in_dec Nat.eq_dec a (the_address (ci_arch i) ++ the_address (ci_platform i) ++ the_address (ci_name i) ++ the_address (ci_description i))) as [Ia|Ni].
  - rewrite !in_app_iff in Ia.
    destruct (in_dec Nat.eq_dec a (the_address (ci_description i))); [reflexivity|].
    destruct (in_dec Nat.eq_dec a (the_address (ci_name i))); [reflexivity|].
    destruct (in_dec Nat.eq_dec a (the_address (ci_platform i))); [reflexivity|].
    destruct (in_dec Nat.eq_dec a (the_address (ci_arch i))); [reflexivity|]. tauto.
  - rewrite !in_app_iff in Ni.
    destruct (in_dec Nat.eq_dec a (the_address (ci_description i))); [tauto|].
    destruct (in_dec Nat.eq_dec a (the_address (ci_name i))); [tauto|].
    destruct (in_dec Nat.eq_dec a (the_address (ci_platform i))); [tauto|].
    destruct (in_dec Nat.eq_dec a (the_address (ci_arch i))); [tauto|]. reflexivity.
Qed.

(* ---- reserving ---- *)
Definition opt_block (len : Z) : heap := if 0 <? len then [Some (nuls len)] else [].
Definition opt_ptr (len : Z) (a : nat) : ptr := if 0 <? len then Some a else None.
Definition len_ok (len : Z) : Prop := 0 <= len < 2 ^ 64 - 1.

(* the allocations reserve needs all succeed *)
Definition enough (o : outcomes) (platform_len description_len : Z) : Prop :=
  o_arch o = true /\ o_name o = true /\ (0 < platform_len -> o_platform o = true) /\
  (0 < description_len -> o_description o = true).

Lemma alloc_opt_ok : forall ok len g, len_ok len ->
  alloc_opt ok len g = Some (if ok then opt_ptr len (length g) else None, g ++ if ok then opt_block len else []).
Proof.
  intros ok len g H. unfold alloc_opt, opt_ptr, opt_block. destruct (0 <? len) eqn:E.
  - unfold malloc. destruct ok.
    + rewrite memset_mid; [reflexivity|reflexivity|exact H|]. rewrite size64_small by exact H. reflexivity.
    + rewrite app_nil_r. reflexivity.
  - destruct ok; rewrite app_nil_r; reflexivity.
Qed.

Lemma reserve_ok : forall o i al pl nl dl h h',
  owns i h -> len_ok al -> len_ok pl -> len_ok nl -> len_ok dl -> 0 < al -> 0 < nl -> enough o pl dl ->
  (forall t, ci_free i (h ++ t) = Some (ci_preset, h' ++ t)) -> length h' = length h ->
  ci_reserve o i al pl nl dl h =
    Some (true, mkCI cn_preset (Some (length h)) (opt_ptr pl (length h + 2)) (Some (length h + 1)%nat)
                     (opt_ptr dl (length h + 2 + length (opt_block pl))),
          h' ++ [Some (nuls al); Some (nuls nl)] ++ opt_block pl ++ opt_block dl).
Proof.
  intros o i al pl nl dl h h' Ow Ha Hp Hn Hd Pa Pn (Oa & On & Op & Od) Ef Lh. unfold ci_reserve.
  rewrite (proj2 (Z.ltb_lt 0 al)) by lia. rewrite (proj2 (Z.ltb_lt 0 nl)) by lia. cbn [andb].
  unfold malloc. rewrite Oa, On. rewrite alloc_opt_ok by exact Hp. cbn [obind].
  assert (Ep : (if o_platform o then opt_block pl else []) = opt_block pl /\
               (if o_platform o then opt_ptr pl (length ((h ++ [Some (repeat None (Z.to_nat (size64 al)))]) ++ [Some (repeat None (Z.to_nat (size64 nl)))])) else None)
               = opt_ptr pl (length h + 2) /\
               ((pl =? 0) || negb (is_null (opt_ptr pl (length h + 2)))) = true).
  { rewrite !app_length. cbn [length]. unfold opt_block, opt_ptr. destruct (0 <? pl) eqn:E.
    - apply Z.ltb_lt in E. rewrite (Op E). replace (length h + 1 + 1)%nat with (length h + 2)%nat by lia.
      split; auto. split; auto. rewrite orb_true_r. reflexivity.
    - apply Z.ltb_ge in E. assert (pl = 0) as -> by (unfold len_ok in Hp; lia). destruct (o_platform o); auto. }
  destruct Ep as (Ep1 & Ep2 & Ep3). rewrite Ep1, Ep2.
  rewrite alloc_opt_ok by exact Hd. cbn [obind].
  set (g := ((h ++ [Some (repeat None (Z.to_nat (size64 al)))]) ++ [Some (repeat None (Z.to_nat (size64 nl)))]) ++ opt_block pl).
  assert (Lg : length g = (length h + 2 + length (opt_block pl))%nat).
  { unfold g. rewrite !app_length. cbn [length]. lia. }
  assert (Ed : (if o_description o then opt_block dl else []) = opt_block dl /\
               (if o_description o then opt_ptr dl (length g) else None) = opt_ptr dl (length h + 2 + length (opt_block pl)) /\
               ((dl =? 0) || negb (is_null (opt_ptr dl (length h + 2 + length (opt_block pl))))) = true).
  { rewrite Lg. unfold opt_block at 1 2 4, opt_ptr. destruct (0 <? dl) eqn:E.
    - apply Z.ltb_lt in E. rewrite (Od E). split; auto. split; auto. rewrite orb_true_r. reflexivity.
    - apply Z.ltb_ge in E. assert (dl = 0) as -> by (unfold len_ok in Hd; lia). destruct (o_description o); auto. }
  destruct Ed as (Ed1 & Ed2 & Ed3). rewrite Ed1, Ed2.
  cbn [is_null negb andb]. rewrite Ep3, Ed3. cbn [andb].
  unfold g. rewrite <- !app_assoc. rewrite Ef. cbn [obind ci_id].
  change ([Some (repeat None (Z.to_nat (size64 al)))] ++ [Some (repeat None (Z.to_nat (size64 nl)))] ++ opt_block pl ++ opt_block dl)
    with (Some (repeat None (Z.to_nat (size64 al))) :: Some (repeat None (Z.to_nat (size64 nl))) :: opt_block pl ++ opt_block dl).
  rewrite memset_mid; [|symmetry; exact Lh|exact Ha|rewrite size64_small by exact Ha; reflexivity]. cbn [obind].
  change (h' ++ Some (nuls al) :: Some (repeat None (Z.to_nat (size64 nl))) :: opt_block pl ++ opt_block dl)
    with (h' ++ [Some (nuls al)] ++ Some (repeat None (Z.to_nat (size64 nl))) :: opt_block pl ++ opt_block dl).
  rewrite app_assoc. rewrite memset_mid; [|rewrite !app_length; cbn [length]; lia|exact Hn|rewrite size64_small by exact Hn; reflexivity].
  cbn [obind]. rewrite <- app_assoc. do 3 f_equal. 
  - rewrite app_length. reflexivity.
Qed.

Lemma free_if : forall (b : bool) g x t,
  c_free (if b then Some (length g) else None) (g ++ (if b then [Some x] else []) ++ t)
  = Some (g ++ (if b then [None] else []) ++ t).
Proof. intros [] g x t; [|reflexivity]. cbn [app]. apply free_mid. reflexivity. Qed.

Lemma reserve_fail : forall o i al pl nl dl h, len_ok al -> len_ok pl -> len_ok nl -> len_ok dl ->
  ~ (0 < al /\ 0 < nl /\ enough o pl dl) ->
  exists k, ci_reserve o i al pl nl dl h = Some (false, i, h ++ repeat None k).
Proof.
  intros o i al pl nl dl h Ha Hp Hn Hd Hf. unfold ci_reserve.
  destruct ((0 <? al) && (0 <? nl)) eqn:Ec; [|exists O; rewrite app_nil_r; reflexivity].
  apply andb_true_iff in Ec as [Ec1 Ec2]. apply Z.ltb_lt in Ec1, Ec2.
  unfold malloc.
  set (xa := repeat (@None ascii) (Z.to_nat (size64 al))). set (xn := repeat (@None ascii) (Z.to_nat (size64 nl))).
  set (ba := o_arch o) in *. set (bn := o_name o) in *.
  assert (Em : forall (b : bool) (x : block) (g : heap), (if b then (Some (length g), g ++ [Some x]) else (None, g))
     = ((if b then Some (length g) else None), g ++ (if b then [Some x] else []))).
  { intros [] x g; [reflexivity|]. rewrite app_nil_r. reflexivity. }
  rewrite Em. set (g1 := h ++ (if ba then [Some xa] else [])). rewrite Em. set (g2 := g1 ++ (if bn then [Some xn] else [])).
  set (bp := o_platform o && (0 <? pl)). set (bd := o_description o && (0 <? dl)).
  assert (Eo : forall ok len g, len_ok len -> alloc_opt ok len g =
    Some (if ok && (0 <? len) then Some (length g) else None, g ++ if ok && (0 <? len) then [Some (nuls len)] else [])).
  { intros ok len g H. rewrite alloc_opt_ok by exact H. unfold opt_ptr, opt_block. destruct ok, (0 <? len); reflexivity. }
  rewrite Eo by exact Hp. cbn [obind]. fold bp. set (g3 := g2 ++ (if bp then [Some (nuls pl)] else [])).
  rewrite Eo by exact Hd. cbn [obind]. fold bd.
  assert (Cond : (negb (is_null (if ba then Some (length h) else None)) && negb (is_null (if bn then Some (length g1) else None))
     && ((pl =? 0) || negb (is_null (if bp then Some (length g2) else None)))
     && ((dl =? 0) || negb (is_null (if bd then Some (length g3) else None)))) = false).
  { destruct (negb (is_null (if ba then Some (length h) else None)) && negb (is_null (if bn then Some (length g1) else None))
     && ((pl =? 0) || negb (is_null (if bp then Some (length g2) else None)))
     && ((dl =? 0) || negb (is_null (if bd then Some (length g3) else None)))) eqn:E; [|reflexivity]. exfalso. apply Hf.
    apply andb_true_iff in E as [E E4]. apply andb_true_iff in E as [E E3]. apply andb_true_iff in E as [E1 E2].
    split; auto. split; auto. unfold enough. fold ba bn.
    split; [destruct ba; [reflexivity|discriminate]|]. split; [destruct bn; [reflexivity|discriminate]|]. split; intros Hl.
    - rewrite (proj2 (Z.eqb_neq pl 0)) in E3 by lia. unfold bp in E3. destruct (o_platform o); [reflexivity|discriminate].
    - rewrite (proj2 (Z.eqb_neq dl 0)) in E4 by lia. unfold bd in E4. destruct (o_description o); [reflexivity|discriminate]. }
  rewrite Cond.
  (* the four frees *)
  assert (H1 : g3 ++ (if bd then [Some (nuls dl)] else []) =
               h ++ (if ba then [Some xa] else []) ++ ((if bn then [Some xn] else []) ++ (if bp then [Some (nuls pl)] else []) ++ (if bd then [Some (nuls dl)] else []))).
  { unfold g3, g2, g1. rewrite <- !app_assoc. reflexivity. }
  rewrite H1, free_if. cbn [obind]. rewrite app_assoc.
  assert (L1 : length g1 = length (h ++ (if ba then [None] else []))) by (unfold g1; rewrite !app_length; destruct ba; reflexivity).
  rewrite L1, free_if. cbn [obind]. rewrite app_assoc.
  assert (L2 : length g2 = length ((h ++ (if ba then [None] else [])) ++ (if bn then [None] else []))).
  { unfold g2. rewrite !app_length, L1, !app_length. destruct bn; reflexivity. }
  rewrite L2, free_if. cbn [obind]. rewrite app_assoc.
  assert (L3 : length g3 = length (((h ++ (if ba then [None] else [])) ++ (if bn then [None] else [])) ++ (if bp then [None] else []))).
  { unfold g3. rewrite !app_length, L2, !app_length. destruct bp; reflexivity. }
  rewrite <- (app_nil_r (if bd then [Some (nuls dl)] else [])). rewrite L3, free_if. cbn [obind].
  exists ((if ba then 1 else 0) + ((if bn then 1 else 0) + ((if bp then 1 else 0) + (if bd then 1 else 0))))%nat.
  do 2 f_equal. rewrite app_nil_r, <- !app_assoc. f_equal. destruct ba, bn, bp, bd; reflexivity.
Qed.

(* ---- consequences for the heap ---- *)
Lemma live_lt : forall h a, live h a -> (a < length h)%nat.
Proof. intros h a (b & H). apply nth_error_Some. rewrite H. discriminate. Qed.

Lemma nth_dead : forall k a b, nth_error (repeat (@None block) k) a <> Some (Some b).
Proof. intros k a b H. apply nth_error_In in H. apply repeat_spec in H. discriminate. Qed.

Lemma owned_in_heap : forall i h a, owns i h -> In a (owned i) -> (a < length h)%nat.
Proof. intros i h a [_ F] H. rewrite Forall_forall in F. apply live_lt. auto. Qed.

Definition new_info (id : cnode) (pl dl : Z) (n : nat) : cinfo :=
  mkCI id (Some n) (opt_ptr pl (n + 2)) (Some (n + 1)%nat) (opt_ptr dl (n + 2 + length (opt_block pl))).

(* a heap with four new texts behind it *)
Lemma new_info_owned : forall id pl dl n a, In a (owned (new_info id pl dl n)) <->
  (n <= a < n + 2 + length (opt_block pl) + length (opt_block dl))%nat.
Proof.
  intros id pl dl n a. unfold owned, new_info, opt_ptr, opt_block. cbn [ci_arch ci_platform ci_name ci_description the_address].
  destruct (0 <? pl), (0 <? dl); cbn [the_address app length In]; lia.
Qed.

Lemma new_info_nodup : forall id pl dl n, NoDup (owned (new_info id pl dl n)).
Proof.
  intros id pl dl n. unfold owned, new_info, opt_ptr, opt_block. cbn [ci_arch ci_platform ci_name ci_description the_address].
  destruct (0 <? pl), (0 <? dl); cbn [the_address app length]; repeat constructor; cbn [In]; lia.
Qed.

Lemma new_info_result : forall i id pl dl h h' t, owns i h -> length h' = length h ->
  (forall a, nth_error h' a = if in_dec Nat.eq_dec a (owned i) then Some None else nth_error h a) ->
  length t = (2 + length (opt_block pl) + length (opt_block dl))%nat ->
  (forall x, In x t -> exists b, x = Some b) ->
  owns (new_info id pl dl (length h)) (h' ++ t) /\
  nothing_else h (h' ++ t) (owned i) (owned (new_info id pl dl (length h))).
Proof.
  intros i id pl dl h h' t Ow Lh N Lt Ft. split.
  - split; [apply new_info_nodup|]. apply Forall_forall. intros a Ha. apply new_info_owned in Ha.
    unfold live. rewrite nth_error_app2 by lia. rewrite Lh.
    destruct (nth_error t (a - length h)) as [x|] eqn:E.
    + destruct (Ft x (nth_error_In _ _ E)) as (b & ->). exists b. reflexivity.
    + apply nth_error_None in E. lia.
  - split.
    + intros a La Na. rewrite nth_error_app1 by lia. rewrite N. destruct (in_dec Nat.eq_dec a (owned i)); [contradiction|reflexivity].
    + intros a (b & Hb). destruct (Nat.lt_ge_cases a (length h)) as [La|La].
      * left. rewrite nth_error_app1 in Hb by lia. rewrite N in Hb. destruct (in_dec Nat.eq_dec a (owned i)); [discriminate|].
        split; auto. exists b. exact Hb.
      * right. apply new_info_owned. assert (a < length (h' ++ t))%nat by (apply nth_error_Some; rewrite Hb; discriminate).
        rewrite app_length in *. lia.
Qed.

Lemma failed_result : forall i h k, owns i h -> owns i (h ++ repeat None k) /\ nothing_else h (h ++ repeat None k) [] (owned i).
Proof.
  intros i h k [ND F]. split.
  - split; auto. rewrite Forall_forall in *. intros a Ha. destruct (F a Ha) as (b & Hb). exists b.
    rewrite nth_error_app1; [exact Hb|]. apply nth_error_Some. rewrite Hb. discriminate.
  - split.
    + intros a La _. apply nth_error_app1. exact La.
    + intros a (b & Hb). left. split; [|intros []]. destruct (Nat.lt_ge_cases a (length h)) as [La|La].
      * rewrite nth_error_app1 in Hb by lia. exists b. exact Hb.
      * rewrite nth_error_app2 in Hb by lia. exfalso. eapply nth_dead; eauto.
Qed.

Lemma opt_block_nuls : forall len x, In x (opt_block len) -> x = Some (nuls len).
Proof. intros len x. unfold opt_block. destruct (0 <? len); intros []; try contradiction. auto. Qed.

Lemma enough_dec : forall o pl dl, enough o pl dl \/ ~ enough o pl dl.
Proof.
  intros o pl dl. unfold enough. destruct (o_arch o), (o_name o), (o_platform o), (o_description o);
  destruct (Z.lt_ge_cases 0 pl), (Z.lt_ge_cases 0 dl);
  try (left; repeat split; auto; intros; lia); right; intros (A & B & C & D); try discriminate;
  try (specialize (C ltac:(lia)); discriminate); specialize (D ltac:(lia)); discriminate.
Qed.

Lemma reserve_cleared : forall id al pl nl dl (h h' : heap), len_ok pl -> len_ok dl -> length h' = length h ->
  let g := h' ++ [Some (nuls al); Some (nuls nl)] ++ opt_block pl ++ opt_block dl in
  let i := new_info id pl dl (length h) in
  cleared g (ci_arch i) al /\ cleared g (ci_name i) nl /\
  cleared_or_null g (ci_platform i) pl /\ cleared_or_null g (ci_description i) dl.
Proof.
  intros id al pl nl dl h h' Hp Hd Lh. cbv zeta. unfold new_info. cbn [ci_arch ci_platform ci_name ci_description].
  assert (Nth : forall k, nth_error (h' ++ [Some (nuls al); Some (nuls nl)] ++ opt_block pl ++ opt_block dl) (length h + k) =
     nth_error ([Some (nuls al); Some (nuls nl)] ++ opt_block pl ++ opt_block dl) k).
  { intros k. rewrite nth_error_app2 by lia. f_equal. lia. }
  split; [|split; [|split]].
  - exists (length h). split; auto. replace (length h) with (length h + 0)%nat at 1 by lia. rewrite Nth. reflexivity.
  - exists (length h + 1)%nat. split; auto. rewrite Nth. reflexivity.
  - unfold cleared_or_null, opt_ptr. destruct (0 <? pl) eqn:E.
    + apply Z.ltb_lt in E. right. split; auto. exists (length h + 2)%nat. split; auto. rewrite Nth. unfold opt_block.
      rewrite (proj2 (Z.ltb_lt 0 pl)) by lia. reflexivity.
    + apply Z.ltb_ge in E. left. unfold len_ok in Hp. split; [lia|auto].
  - unfold cleared_or_null, opt_ptr. destruct (0 <? dl) eqn:E.
    + apply Z.ltb_lt in E. right. split; auto. exists (length h + 2 + length (opt_block pl))%nat. split; auto.
      rewrite <- Nat.add_assoc, Nth. cbn [app nth_error plus]. rewrite nth_error_app2 by lia. rewrite Nat.sub_diag.
      unfold opt_block. rewrite (proj2 (Z.ltb_lt 0 dl)) by lia. reflexivity.
    + apply Z.ltb_ge in E. left. unfold len_ok in Hd. split; [lia|auto].
Qed.

(* ---- copying the texts ---- *)
Definition written (t : chars) (len : Z) : block := map Some t ++ skipn (length t) (nuls len).
Definition opt_written (t : option chars) (len : Z) : heap :=
  if 0 <? len then [Some (if 0 <? len_of t then written (text_of t) len else nuls len)] else [].

Lemma nuls_length : forall len, 0 <= len -> Z.of_nat (length (nuls len)) = len + 1.
Proof. intros len H. unfold nuls. rewrite repeat_length. lia. Qed.

Lemma strncpy_mid : forall g t a s len, a = length g -> 0 <= len -> Z.of_nat (length s) <= len + 1 ->
  strncpy (Some a) s (g ++ Some (nuls len) :: t) = Some (g ++ Some (written s len) :: t).
Proof.
  intros g t a s len Ha Hl Hs. unfold strncpy. pose proof (nuls_length len Hl). rewrite store_mid; [|exact Ha|rewrite map_length; lia].
  rewrite map_length. reflexivity.
Qed.

Lemma strncpy_over : forall g t a s len, a = length g -> 0 <= len -> len + 1 < Z.of_nat (length s) ->
  strncpy (Some a) s (g ++ Some (nuls len) :: t) = None.
Proof.
  intros g t a s len Ha Hl Hs. unfold strncpy. pose proof (nuls_length len Hl). apply store_over; [exact Ha|rewrite map_length; lia].
Qed.

Lemma opt_ptr_eq : forall len a, 0 < len -> opt_ptr len a = Some a.
Proof. intros. unfold opt_ptr. rewrite (proj2 (Z.ltb_lt 0 len)) by lia. reflexivity. Qed.
Lemma opt_block_eq : forall len, 0 < len -> opt_block len = [Some (nuls len)].
Proof. intros. unfold opt_block. rewrite (proj2 (Z.ltb_lt 0 len)) by lia. reflexivity. Qed.
Lemma opt_written_length : forall t len, length (opt_written t len) = length (opt_block len).
Proof. intros. unfold opt_written, opt_block. destruct (0 <? len); reflexivity. Qed.

Lemma copy_ok : forall id arch platform name description al pl nl dl n (g : heap), length g = n ->
  0 <= al -> 0 <= pl -> 0 <= nl -> 0 <= dl ->
  len_of arch <= al + 1 -> len_of name <= nl + 1 ->
  (0 < len_of platform -> 0 < pl /\ len_of platform <= pl + 1) ->
  (0 < len_of description -> 0 < dl /\ len_of description <= dl + 1) ->
  ci_copy (new_info id pl dl n) arch platform name description
    (g ++ [Some (nuls al); Some (nuls nl)] ++ opt_block pl ++ opt_block dl) =
  Some (g ++ [Some (written (text_of arch) al); Some (written (text_of name) nl)] ++ opt_written platform pl ++ opt_written description dl).
Proof.
  intros id arch platform name description al pl nl dl n g Lg Ha Hp Hn Hd La Ln Lp Ld. unfold ci_copy, new_info. cbn [ci_arch ci_platform ci_name ci_description].
  assert (LT : forall s, len_of s = Z.of_nat (length (text_of s))) by (intros [s|]; reflexivity).
  cbn [app]. rewrite (strncpy_mid g _ n (text_of arch) al); [|auto|auto|rewrite <- LT; exact La]. cbn [obind].
  change (g ++ Some (written (text_of arch) al) :: Some (nuls nl) :: opt_block pl ++ opt_block dl)
    with (g ++ [Some (written (text_of arch) al)] ++ Some (nuls nl) :: opt_block pl ++ opt_block dl).
  rewrite app_assoc. rewrite (strncpy_mid _ _ (n + 1) (text_of name) nl); [|rewrite app_length; cbn [length]; lia|auto|rewrite <- LT; exact Ln].
  cbn [obind]. rewrite <- app_assoc.
  change ([Some (written (text_of arch) al)] ++ Some (written (text_of name) nl) :: opt_block pl ++ opt_block dl)
    with ([Some (written (text_of arch) al); Some (written (text_of name) nl)] ++ opt_block pl ++ opt_block dl).
  set (g2 := [Some (written (text_of arch) al); Some (written (text_of name) nl)]).
  assert (Ep : (if 0 <? len_of platform then strncpy (opt_ptr pl (n + 2)) (text_of platform) (g ++ g2 ++ opt_block pl ++ opt_block dl)
                else Some (g ++ g2 ++ opt_block pl ++ opt_block dl)) = Some ((g ++ g2 ++ opt_written platform pl) ++ opt_block dl)).
  { unfold opt_written. destruct (0 <? len_of platform) eqn:E.
    - apply Z.ltb_lt in E. destruct (Lp E) as [P1 P2]. rewrite opt_ptr_eq, opt_block_eq by exact P1.
      cbn [app]. rewrite app_assoc. rewrite (strncpy_mid (g ++ g2) _ (n + 2) (text_of platform) pl);
        [|rewrite app_length; unfold g2; cbn [length]; lia|auto|rewrite <- LT; exact P2].
      rewrite (proj2 (Z.ltb_lt 0 pl)) by lia. rewrite <- !app_assoc. reflexivity.
    - unfold opt_block at 1. rewrite <- !app_assoc. destruct (0 <? pl); reflexivity. }
  rewrite Ep. cbn [obind]. unfold opt_written at 4. destruct (0 <? len_of description) eqn:E.
  - apply Z.ltb_lt in E. destruct (Ld E) as [P1 P2]. rewrite (opt_ptr_eq dl _ P1), (opt_block_eq dl P1).
    rewrite (strncpy_mid _ _ _ (text_of description) dl);
      [|rewrite !app_length, opt_written_length; unfold g2; cbn [length]; lia|auto|rewrite <- LT; exact P2].
    rewrite (proj2 (Z.ltb_lt 0 dl)) by lia. rewrite <- !app_assoc. reflexivity.
  - unfold opt_block. rewrite <- !app_assoc. destruct (0 <? dl); reflexivity.
Qed.

Lemma written_points : forall t len, Z.of_nat (length t) <= len -> exists r, written t len = map Some t ++ Some nul :: r.
Proof.
  intros t len H. unfold written, nuls. 
  assert (E : forall k m, (k < m)%nat -> exists r, skipn k (repeat (Some nul) m) = Some nul :: r).
  { induction k as [|k IH]; intros [|m] Hk; try lia; cbn [skipn repeat]; [eexists; reflexivity|]. apply IH. lia. }
  destruct (E (length t) (Z.to_nat (len + 1))) as (r & Er); [lia|]. rewrite Er. exists r. reflexivity.
Qed.

Lemma block_string_map : forall t r, ~ In nul t -> block_string (map Some t ++ Some nul :: r) = Some t.
Proof.
  induction t as [|a t IH]; intros r H; [reflexivity|]. cbn [map app block_string].
  destruct (Ascii.eqb_spec a nul) as [->|Na]; [exfalso; apply H; left; auto|]. rewrite IH; [reflexivity|]. intros Hi. apply H. right. auto.
Qed.

Lemma points_read : forall h p t, ~ In nul t -> points_to h p t -> read_string p h = Some t.
Proof. intros h p t H (a & r & -> & E). unfold read_string. rewrite E. apply block_string_map. exact H. Qed.

Lemma opt_written_nth : forall t len (g r : heap), 0 < len_of t -> 0 < len ->
  nth_error (g ++ opt_written t len ++ r) (length g) = Some (Some (written (text_of t) len)).
Proof.
  intros t len g r Ht Hl. unfold opt_written. rewrite (proj2 (Z.ltb_lt _ _) Ht), (proj2 (Z.ltb_lt _ _) Hl). apply nth_mid.
Qed.

(* the texts of a description after the copies *)
Lemma copied_points : forall id arch platform name description al pl nl dl n (g : heap), length g = n ->
  len_of arch <= al -> len_of name <= nl ->
  (0 < len_of platform -> len_of platform <= pl) -> (0 < len_of description -> len_of description <= dl) ->
  (len_of platform = 0 -> platform = None -> pl = 0) -> (len_of description = 0 -> description = None -> dl = 0) ->
  (forall t, platform = Some t -> 0 < Z.of_nat (length t)) -> (forall t, description = Some t -> 0 < Z.of_nat (length t)) ->
  let h := g ++ [Some (written (text_of arch) al); Some (written (text_of name) nl)] ++ opt_written platform pl ++ opt_written description dl in
  let i := new_info id pl dl n in
  points_to h (ci_arch i) (text_of arch) /\ points_to h (ci_name i) (text_of name) /\
  points_to_opt h (ci_platform i) platform /\ points_to_opt h (ci_description i) description.
Proof.
  intros id arch platform name description al pl nl dl n g Lg La Ln Lp Ld Np Nd Pp Pd. cbv zeta. unfold new_info.
  cbn [ci_arch ci_platform ci_name ci_description].
  assert (LT : forall s, len_of s = Z.of_nat (length (text_of s))) by (intros [s|]; reflexivity).
  set (g2 := [Some (written (text_of arch) al); Some (written (text_of name) nl)]).
  split; [|split; [|split]].
  - destruct (written_points (text_of arch) al) as (r & Er); [rewrite <- LT; exact La|]. exists n, r. split; auto.
    rewrite nth_error_app2 by lia. rewrite Lg, Nat.sub_diag. cbn [app nth_error g2]. rewrite Er. reflexivity.
  - destruct (written_points (text_of name) nl) as (r & Er); [rewrite <- LT; exact Ln|]. exists (n + 1)%nat, r. split; auto.
    rewrite nth_error_app2 by lia. rewrite Lg. replace (n + 1 - n)%nat with 1%nat by lia. cbn [app nth_error g2]. rewrite Er. reflexivity.
  - destruct platform as [t|]; cbn [points_to_opt].
    + specialize (Pp t eq_refl). assert (Hl : 0 < len_of (Some t)) by exact Pp. specialize (Lp Hl).
      destruct (written_points t pl) as (r & Er); [exact Lp|]. rewrite opt_ptr_eq by lia. exists (n + 2)%nat, r. split; auto.
      rewrite app_assoc. replace (n + 2)%nat with (length (g ++ g2)) by (rewrite app_length; unfold g2; cbn [length]; lia).
      rewrite opt_written_nth by lia. cbn [text_of]. rewrite Er. reflexivity.
    + rewrite (Np eq_refl eq_refl). reflexivity.
  - destruct description as [t|]; cbn [points_to_opt].
    + specialize (Pd t eq_refl). assert (Hl : 0 < len_of (Some t)) by exact Pd. specialize (Ld Hl).
      destruct (written_points t dl) as (r & Er); [exact Ld|]. rewrite opt_ptr_eq by lia. 
      exists (n + 2 + length (opt_block pl))%nat, r. split; auto.
      rewrite <- (app_nil_r (opt_written (Some t) dl)). rewrite !app_assoc. rewrite <- app_assoc.
      replace (n + 2 + length (opt_block pl))%nat with (length ((g ++ g2) ++ opt_written platform pl))
        by (rewrite !app_length, opt_written_length; unfold g2; cbn [length]; lia).
      rewrite opt_written_nth by lia. cbn [text_of]. rewrite Er. reflexivity.
    + rewrite (Nd eq_refl eq_refl). reflexivity.
Qed.

(* ---- block sizes do not change when texts are copied ---- *)
Definition shape (h : heap) : list (option nat) := map (option_map (@length (option ascii))) h.

Lemma store_shape : forall p s h h', store p s h = Some h' -> shape h' = shape h.
Proof.
  intros [a|] s h h' H; [|discriminate]. unfold store in H. destruct (nth_error h a) as [[b|]|] eqn:E; try discriminate.
  destruct (length s <=? length b)%nat eqn:L; [|discriminate]. apply Nat.leb_le in L. injection H as <-. unfold shape.
  revert a E. induction h as [|x h IH]; intros [|a] E; cbn [nth_error] in E; try discriminate.
  - injection E as ->. cbn [set_nth map option_map]. rewrite app_length, skipn_length. do 2 f_equal. lia.
  - cbn [set_nth map]. rewrite IH by exact E. reflexivity.
Qed.

Lemma copy_shape : forall i a p n d h h', ci_copy i a p n d h = Some h' -> shape h' = shape h.
Proof.
  intros i a p n d h h' H. unfold ci_copy in H.
  destruct (strncpy (ci_arch i) (text_of a) h) as [h1|] eqn:E1; [|discriminate]. cbn [obind] in H.
  destruct (strncpy (ci_name i) (text_of n) h1) as [h2|] eqn:E2; [|discriminate]. cbn [obind] in H.
  destruct (if 0 <? len_of p then strncpy (ci_platform i) (text_of p) h2 else Some h2) as [h3|] eqn:E3; [|discriminate]. cbn [obind] in H.
  unfold strncpy in *. apply store_shape in E1, E2.
  assert (E3' : shape h3 = shape h2).
  { destruct (0 <? len_of p); [apply store_shape in E3; exact E3|]. injection E3 as ->. reflexivity. }
  assert (E4' : shape h' = shape h3).
  { destruct (0 <? len_of d); [apply store_shape in H; exact H|]. injection H as ->. reflexivity. }
  congruence.
Qed.

Lemma points_shape : forall h a t, points_to h (Some a) t ->
  exists k, nth_error (shape h) a = Some (Some k) /\ (length t < k)%nat.
Proof.
  intros h a t (a' & r & E & N). injection E as <-. unfold shape. rewrite nth_error_map, N. cbn [option_map].
  eexists. split; [reflexivity|]. rewrite app_length, map_length. cbn [length]. lia.
Qed.

Lemma len_of_pos : forall t : chars, t <> [] -> 0 < len_of (Some t).
Proof. intros [|c t] H; [congruence|]. cbn [len_of length]. lia. Qed.

(* what make does with two given texts for platform and name *)
Lemma make_reserved : forall o i id arch platform name description h h',
  owns i h -> arch <> [] -> platform <> [] -> name <> [] -> description <> Some [] ->
  len_ok (len_of (Some arch)) -> len_ok (len_of (Some platform)) -> len_ok (len_of (Some name)) -> len_ok (len_of description) ->
  enough o (len_of (Some name)) (len_of description) ->
  (forall t, ci_free i (h ++ t) = Some (ci_preset, h' ++ t)) -> length h' = length h ->
  ci_make o i id (Some arch) (Some platform) (Some name) description h =
    obind (ci_copy (new_info cn_preset (len_of (Some name)) (len_of description) (length h)) (Some arch) (Some platform) (Some name) description
             (h' ++ [Some (nuls (len_of (Some arch))); Some (nuls (len_of (Some platform)))]
                 ++ opt_block (len_of (Some name)) ++ opt_block (len_of description)))
      (fun g => Some (0, new_info id (len_of (Some name)) (len_of description) (length h), g)).
Proof.
  intros o i id arch platform name description h h' Ow Na Np Nn Nd La Lp Ln Ld En Ef Lh. unfold ci_make.
  pose proof (len_of_pos arch Na) as Pa. pose proof (len_of_pos platform Np) as Pp. pose proof (len_of_pos name Nn) as Pn.
  rewrite (proj2 (Z.ltb_lt _ _) Pa), (proj2 (Z.ltb_lt _ _) Pn), (proj2 (Z.ltb_lt _ _) Pp). cbn [andb orb].
  assert (Gd : ((0 <? len_of description) || match description with Some _ => false | None => true end) = true).
  { destruct description as [d|]; [|apply orb_true_r]. rewrite (proj2 (Z.ltb_lt _ _)); [reflexivity|]. apply len_of_pos. congruence. }
  rewrite Gd. rewrite (reserve_ok o i _ _ _ _ h h' Ow La Ln Lp Ld Pa Pp En Ef Lh). cbn [obind]. reflexivity.
Qed.

(* freeing acts on the part of the heap that holds the texts, whatever comes behind it *)
Lemma ci_free_all : forall i h, owns i h ->
  exists h', (forall t, ci_free i (h ++ t) = Some (ci_preset, h' ++ t)) /\ length h' = length h /\
    forall a, nth_error h' a = if in_dec Nat.eq_dec a (owned i) then Some None else nth_error h a.
Proof.
  intros i h Ow. destruct (ci_free_own i h [] Ow) as (h0 & _ & L0 & N0). exists h0. split; [|auto]. intros t.
  destruct (ci_free_own i h t Ow) as (h1 & E1 & L1 & N1). rewrite E1. do 3 f_equal.
  apply nth_ext with (d := None) (d' := None); [congruence|]. intros k Hk.
  assert (E : nth_error h1 k = nth_error h0 k) by (rewrite N1, N0; reflexivity).
  rewrite (nth_error_nth' h1 None) in E by lia. rewrite (nth_error_nth' h0 None) in E by lia. congruence.
Qed.

Lemma opt_written_some : forall t len x, In x (opt_written t len) -> exists b, x = Some b.
Proof. intros t len x. unfold opt_written. destruct (0 <? len); cbn [In]; [intros [<-|[]]; eauto|intros []]. Qed.

Lemma nth_shape : forall h a k, nth_error (shape h) a = Some (Some k) <-> exists b, nth_error h a = Some (Some b) /\ length b = k.
Proof.
  intros h a k. unfold shape. rewrite nth_error_map. destruct (nth_error h a) as [[b|]|]; cbn [option_map]; split.
  - intros H. injection H as <-. eauto.
  - intros (b' & E & <-). injection E as ->. reflexivity.
  - discriminate.
  - intros (b' & E & _). discriminate.
  - discriminate.
  - intros (b' & E & _). discriminate.
Qed.
