From Coq Require Import Ascii String ZArith Bool List Lia.
From Verif Require Import Tac NodeId NodeIdSpec NodeIdProofs ComputeNode ComputeNodeSpec.
Import ListNotations.
Local Open Scope Z_scope.

(* ---- order ---- *)
Lemma cn_valid_set : forall a, cn_valid (Some a) = true <-> set_id a.
Proof.
  intros a. unfold cn_valid, set_id. rewrite andb_true_iff, !negb_true_iff, !Z.eqb_neq. tauto.
Qed.

Lemma compare_spec : forall a b, set_id a -> set_id b ->
  (cn_compare (Some a) (Some b) = 0 /\ a = b) \/
  (cn_compare (Some a) (Some b) = -1 /\ before a b) \/
  (cn_compare (Some a) (Some b) = 1 /\ before b a).
Proof.
  intros [pa da] [pb db] Ha Hb. unfold cn_compare. rewrite (proj2 (cn_valid_set _) Ha), (proj2 (cn_valid_set _) Hb).
  cbn [andb cn_get_platform cn_get_device cn_platform cn_device]. unfold before. cbn [cn_platform cn_device].
  destruct (pa =? pb) eqn:E1.
  - apply Z.eqb_eq in E1. subst pb. destruct (da =? db) eqn:E2.
    + apply Z.eqb_eq in E2. subst. left. auto.
    + apply Z.eqb_neq in E2. destruct (db <? da) eqn:E3.
      * apply Z.ltb_lt in E3. right; right. split; auto.
      * apply Z.ltb_ge in E3. right; left. split; auto. right. lia.
  - apply Z.eqb_neq in E1. destruct (pb <? pa) eqn:E3.
    + apply Z.ltb_lt in E3. right; right. auto.
    + apply Z.ltb_ge in E3. right; left. split; auto. left. lia.
Qed.

Lemma before_irrefl : forall a, ~ before a a.
Proof. intros a [H|[_ H]]; lia. Qed.
Lemma before_asym : forall a b, before a b -> ~ before b a.
Proof. unfold before. intros. lia. Qed.

Lemma cn_lt_before : forall a b, cn_lt a b = true <-> before a b.
Proof.
  intros a b. unfold cn_lt, before. rewrite orb_true_iff, andb_true_iff, !Z.ltb_lt, Z.eqb_eq. tauto.
Qed.

(* ---- scanning ---- *)
Lemma scan_d_canonical : forall s z r, canonical s z -> - 2 ^ 31 <= z < 2 ^ 31 -> no_digit r ->
  scan_d (s ++ r) = Scanned z r.
Proof.
  intros s z r C H Hr. unfold scan_d. rewrite (scan_canonical s z r C) by (auto; unfold int64; lia).
  rewrite (proj2 (Z.leb_le _ _)) by lia. rewrite (proj2 (Z.ltb_lt _ _)) by lia. reflexivity.
Qed.

Lemma canonical_nonneg : forall s z, canonical s z -> 0 <= z -> denotes s z.
Proof.
  intros s z (sign & ds & -> & D & -> & _) H. rewrite (proj2 (Z.ltb_ge z 0)) by lia. rewrite Z.abs_eq in D by lia. exact D.
Qed.

Lemma scan_llu_canonical : forall s z r, canonical s z -> 0 <= z < 2 ^ 64 -> no_digit r ->
  scan_llu (s ++ r) = Scanned z r.
Proof.
  intros s z r C Hz Hr. apply canonical_nonneg in C; [|lia]. rename C into D.
  destruct (denotes_digits _ _ D) as (A & Ne & _). unfold scan_llu. rewrite skip_digits by auto.
  destruct s as [|a ds]; [congruence|]. pose proof A as A'. apply Forall_cons_iff in A' as [Ha _].
  assert (Hm : a <> "-"%char) by (intros ->; discriminate Ha).
  assert (Hp : a <> "+"%char) by (intros ->; discriminate Ha).
  cbn [app].
  assert (M : match a :: ds ++ r with
              | "-"%char :: t => (true, t)
              | "+"%char :: t => (false, t)
              | _ => (false, a :: ds ++ r)
              end = (false, a :: ds ++ r)).
  { destruct a as [[] [] [] [] [] [] [] []]; try reflexivity; exfalso; auto. }
  rewrite M. rewrite Ha. change (a :: ds ++ r) with ((a :: ds) ++ r). rewrite (read_all _ _ _ D Hr).
  rewrite (proj2 (Z.ltb_lt _ _)) by lia. reflexivity.
Qed.

Lemma scan_pair_text : forall sp sd p d, canonical sp p -> canonical sd d ->
  - 2 ^ 31 <= p < 2 ^ 31 -> - 2 ^ 31 <= d < 2 ^ 31 -> scan_pair (sp ++ "."%char :: sd) = Some (Some (p, d)).
Proof.
  intros sp sd p d Cp Cd Hp Hd. unfold scan_pair. rewrite (scan_d_canonical sp p _ Cp Hp) by reflexivity.
  rewrite <- (app_nil_r sd). rewrite (scan_d_canonical sd d [] Cd Hd) by exact Logic.I. reflexivity.
Qed.

Definition small_id (n : cnode) : Prop := 0 <= cn_platform n < 2 ^ 31 /\ 0 <= cn_device n < 2 ^ 31.

Lemma scan_pair_plain : forall n t, plain_text n t -> small_id n ->
  scan_pair t = Some (Some (cn_platform n, cn_device n)).
Proof.
  intros n t (sp & sd & -> & Cp & Cd) [Hp Hd]. apply scan_pair_text; auto; lia.
Qed.

Lemma plain_nonempty : forall n t, plain_text n t -> t <> [].
Proof. intros n t (sp & sd & -> & _) E. apply app_eq_nil in E as [_ E]. discriminate. Qed.

Definition scanned_arch (fmt : str_format) (arch : Z) : Z := match fmt with FmtNoArch => 1023 | _ => arch end.

Lemma scan_id_text : forall fmt arch n t, id_text fmt arch n t -> small_id n -> 0 <= arch < 2 ^ 64 ->
  t <> [] /\ scan_id fmt t = Some (Some (scanned_arch fmt arch, cn_platform n, cn_device n)).
Proof.
  intros fmt arch n t H Hn Ha. destruct fmt; cbn [id_text] in H; try contradiction.
  - split; [eapply plain_nonempty; eauto|]. unfold scan_id. rewrite (scan_pair_plain n t H Hn). reflexivity.
  - destruct H as (_ & _ & sa & st & -> & Ca & P). split; [destruct sa; discriminate|].
    unfold scan_id. rewrite (scan_llu_canonical sa arch _ Ca Ha) by reflexivity.
    rewrite (scan_pair_plain n st P Hn). reflexivity.
  - destruct H as (sa & st & -> & Na & P). split; [destruct sa; discriminate|].
    unfold scan_id.
    assert (E : span_name 31 (sa ++ ":"%char :: st) = (sa, ":"%char :: st) /\ arch_of_name sa = arch /\ sa <> []).
    { destruct Na; (split; [reflexivity|split; [reflexivity|discriminate]]). }
    destruct E as (E & Ea & Ne). rewrite E. destruct sa as [|c sa]; [congruence|].
    rewrite (scan_pair_plain n st P Hn). rewrite Ea. reflexivity.
Qed.

Lemma from_string_text : forall fmt arch n t id0 parch, id_text fmt arch n t -> small_id n -> 0 <= arch < 2 ^ 64 ->
  cn_from_string (Some id0) (Some t) fmt parch =
    Some (Some n, match parch with Some _ => Some (scanned_arch fmt arch) | None => None end, 0).
Proof.
  intros fmt arch n t id0 parch H Hn Ha. destruct (scan_id_text fmt arch n t H Hn Ha) as [Ne E].
  destruct t as [|c t]; [congruence|]. unfold cn_from_string. rewrite E. destruct Hn as [Hp Hd].
  rewrite (proj2 (Z.leb_le _ _)) by lia. rewrite (proj2 (Z.leb_le _ _)) by lia. destruct n. reflexivity.
Qed.

Lemma scan_d_range : forall s z r, scan_d s = Scanned z r -> - 2 ^ 31 <= z < 2 ^ 31.
Proof.
  intros s z r H. unfold scan_d in H. destruct (scan_lld s) as [v q| |]; try discriminate.
  destruct ((- 2 ^ 31 <=? v) && (v <? 2 ^ 31)) eqn:E; [|discriminate]. injection H as <- <-.
  apply andb_true_iff in E as [E1 E2]. apply Z.leb_le in E1. apply Z.ltb_lt in E2. split; assumption.
Qed.

Lemma scan_pair_range : forall s p d, scan_pair s = Some (Some (p, d)) -> p < 2 ^ 31 /\ d < 2 ^ 31.
Proof.
  intros s p d H. unfold scan_pair in H. destruct (scan_d s) as [v q| |] eqn:E1; try discriminate.
  destruct q as [|c q]; [discriminate|]. 
  destruct (ascii_dec c ".") as [->|Hc]; [|destruct c as [[] [] [] [] [] [] [] []]; try discriminate; congruence].
  destruct (scan_d q) as [v' q'| |] eqn:E2; try discriminate. injection H as <- <-.
  apply scan_d_range in E1, E2. lia.
Qed.

Lemma scan_id_range : forall fmt s a p d, scan_id fmt s = Some (Some (a, p, d)) -> p < 2 ^ 31 /\ d < 2 ^ 31.
Proof.
  intros fmt s a p d H. destruct fmt; unfold scan_id in H; try discriminate.
  - destruct (scan_pair s) as [[[p' d']|]|] eqn:E; try discriminate. injection H as _ <- <-. eapply scan_pair_range; eauto.
  - destruct (scan_llu s) as [v q| |]; try discriminate. destruct q as [|c q]; [discriminate|].
    destruct (ascii_dec c ":") as [->|Hc]; [|destruct c as [[] [] [] [] [] [] [] []]; try discriminate; congruence].
    destruct (scan_pair q) as [[[p' d']|]|] eqn:E; try discriminate. injection H as _ <- <-. eapply scan_pair_range; eauto.
  - destruct (span_name 31 s) as [[|b w] q]; [discriminate|]. destruct q as [|c q]; [discriminate|].
    destruct (ascii_dec c ":") as [->|Hc]; [|destruct c as [[] [] [] [] [] [] [] []]; try discriminate; congruence].
    destruct (scan_pair q) as [[[p' d']|]|] eqn:E; try discriminate. injection H as _ <- <-. eapply scan_pair_range; eauto.
Qed.

(* ---- printing of ids ---- *)
Definition u32_id (n : cnode) : Prop := 0 <= cn_platform n < 2 ^ 32 /\ 0 <= cn_device n < 2 ^ 32.

Lemma print_nat_canonical : forall z, 0 <= z -> canonical (print_nat z) z.
Proof.
  intros z H. pose proof (print_int_canonical z) as C. unfold print_int in C.
  rewrite (proj2 (Z.ltb_ge z 0)) in C by lia. exact C.
Qed.

Lemma cn_text_plain : forall n, u32_id n -> plain_text n (cn_text n).
Proof.
  intros n [Hp Hd]. unfold cn_text. rewrite !Z.mod_small by lia. eexists. eexists. split; [reflexivity|].
  split; apply print_nat_canonical; lia.
Qed.

Lemma denotes_inj : forall s a b, denotes s a -> denotes s b -> a = b.
Proof. intros s a b A B. apply read_denotes in A, B. congruence. Qed.

(* two canonical texts of the same number are equal *)
Lemma denotes_snoc : forall s a v, denotes (s ++ [a]) v -> s <> [] -> exists w k, denotes s w /\ digit_of a k /\ v = 10 * w + k.
Proof.
  intros s a v H Ne. inversion H as [a' k Hk E|s' w a' k Hs Hk E].
  - destruct s as [|x [|y s]]; [congruence|discriminate|discriminate].
  - apply app_inj_tail in E as [-> ->]. exists w, k. auto.
Qed.

Lemma denotes_hd_zero : forall s v, denotes s v -> v = 0 -> hd "0"%char s = "0"%char.
Proof.
  induction 1 as [a k H|s v a k H IH H0]; intros E.
  - subst k. cbn [hd]. rewrite (digit_inj _ _ H). reflexivity.
  - destruct (denotes_digits _ _ H) as (_ & Ne & Hv). destruct H0 as [Hk _].
    destruct s; [congruence|]. cbn [app hd]. apply IH. lia.
Qed.

Lemma denotes_unique : forall s v, denotes s v -> forall t, denotes t v ->
  (hd "0"%char s = "0"%char -> s = ["0"%char]) -> (hd "0"%char t = "0"%char -> t = ["0"%char]) -> s = t.
Proof.
  induction 1 as [a k H|s v a k H IH H0]; intros t Ht Zs Zt.
  - inversion Ht as [b j Hb Eb Ej|t' w b j Ht' Hb Eb Ej]; subst.
    + rewrite (digit_inj _ _ H), (digit_inj _ _ Hb). reflexivity.
    + destruct (denotes_digits _ _ Ht') as (_ & Ne & Hw). destruct H as [Hk _], Hb as [Hj _].
      assert (W : w = 0) by lia. pose proof (denotes_hd_zero _ _ Ht' W) as Hh.
      destruct t' as [|c t']; [congruence|]. cbn [app hd] in *. specialize (Zt Hh). injection Zt as _ E.
      destruct t'; discriminate.
  - destruct (denotes_digits _ _ H) as (_ & Ne & Hv).
    assert (Vnz : v <> 0).
    { intros E. pose proof (denotes_hd_zero _ _ H E) as Hh. destruct s as [|c s]; [congruence|]. cbn [app hd] in *.
      specialize (Zs Hh). injection Zs as _ E'. destruct s; discriminate. }
    inversion Ht as [b j Hb Eb Ev|t' w b j Ht' Hb Eb Ev]; subst.
    + destruct H0 as [Hk _], Hb as [Hj _]. lia.
    + change (10 * w + j = 10 * v + k) in Ev. assert (w = v /\ j = k) as [-> ->] by (destruct H0 as [Hk _], Hb as [Hj _]; lia).
      destruct (denotes_digits _ _ Ht') as (_ & Ne' & _).
      rewrite (IH t' Ht').
      * rewrite (digit_inj _ _ H0), (digit_inj _ _ Hb). reflexivity.
      * intros Hh. destruct s as [|c s]; [congruence|]. cbn [app hd] in *. specialize (Zs Hh). injection Zs as _ E'. destruct s; discriminate.
      * intros Hh. destruct t' as [|c t']; [congruence|]. cbn [app hd] in *. specialize (Zt Hh). injection Zt as _ E'. destruct t'; discriminate.
Qed.

Lemma canonical_unique : forall s t z, canonical s z -> canonical t z -> s = t.
Proof.
  intros s t z (sg & ds & -> & D & -> & Zd) (sg' & ds' & -> & D' & -> & Zd'). f_equal. eapply denotes_unique; eauto.
Qed.

Lemma plain_unique : forall n s t, plain_text n s -> plain_text n t -> s = t.
Proof.
  intros n s t (a & b & -> & Ca & Cb) (a' & b' & -> & Ca' & Cb').
  rewrite (canonical_unique _ _ _ Ca Ca'), (canonical_unique _ _ _ Cb Cb'). reflexivity.
Qed.

Lemma arch_named_unique : forall a s t, arch_named a s -> arch_named a t -> s = t.
Proof. intros a s t H H'. destruct H; inversion H'; reflexivity. Qed.

Lemma id_text_unique : forall fmt arch n s t, id_text fmt arch n s -> id_text fmt arch n t -> s = t.
Proof.
  intros fmt arch n s t H H'. destruct fmt; cbn [id_text] in *; try contradiction.
  - eapply plain_unique; eauto.
  - destruct H as (_ & _ & sa & st & -> & Ca & P). destruct H' as (_ & _ & sa' & st' & -> & Ca' & P').
    rewrite (canonical_unique _ _ _ Ca Ca'), (plain_unique _ _ _ P P'). reflexivity.
  - destruct H as (sa & st & -> & Ca & P). destruct H' as (sa' & st' & -> & Ca' & P').
    rewrite (arch_named_unique _ _ _ Ca Ca'), (plain_unique _ _ _ P P'). reflexivity.
Qed.

Lemma no_nul_in : forall s, Forall (fun a => Ascii.eqb a nul = false) s -> ~ In nul s.
Proof. intros s H Hi. rewrite Forall_forall in H. specialize (H _ Hi). rewrite Ascii.eqb_refl in H. discriminate. Qed.
Lemma in_no_nul : forall s, ~ In nul s -> Forall (fun a => Ascii.eqb a nul = false) s.
Proof.
  intros s H. rewrite Forall_forall. intros a Ha. apply Ascii.eqb_neq. intros ->. contradiction.
Qed.

Lemma plain_no_nul : forall n t, plain_text n t -> ~ In nul t.
Proof.
  intros n t (a & b & -> & Ca & Cb). apply no_nul_in. apply Forall_app. split; [eapply canonical_no_nul; eauto|].
  constructor; [reflexivity|]. eapply canonical_no_nul; eauto.
Qed.

Lemma id_text_no_nul : forall fmt arch n t, id_text fmt arch n t -> ~ In nul t.
Proof.
  intros fmt arch n t H. destruct fmt; cbn [id_text] in *; try contradiction.
  - eapply plain_no_nul; eauto.
  - destruct H as (_ & _ & sa & st & -> & Ca & P). rewrite in_app_iff. intros [H|[H|H]].
    + revert H. apply no_nul_in. eapply canonical_no_nul; eauto.
    + discriminate.
    + revert H. eapply plain_no_nul; eauto.
  - destruct H as (sa & st & -> & Ca & P). rewrite in_app_iff. intros [H|[H|H]].
    + revert H. apply no_nul_in. destruct Ca; repeat constructor.
    + discriminate.
    + revert H. eapply plain_no_nul; eauto.
Qed.

Lemma zeros_length : forall k, 0 <= k -> Z.of_nat (length (zeros k)) = k.
Proof. intros k H. unfold zeros. rewrite repeat_length. lia. Qed.

Lemma snprintf_length : forall b size s, 0 < size -> Z.of_nat (length b) = size ->
  Z.of_nat (length (snprintf b size s)) = size.
Proof.
  intros b size s H E. unfold snprintf. rewrite (proj2 (Z.leb_gt size 0)) by lia. cbv zeta.
  rewrite app_length, skipn_length. rewrite app_length, firstn_length. cbn [length]. lia.
Qed.

Lemma holds_c_string : forall b t, array_holds b t -> c_string b = Some t.
Proof. intros b t [(r & ->) H]. apply c_string_app. apply in_no_nul. exact H. Qed.

Definition known_arch (fmt : str_format) (arch : Z) : Prop :=
  match fmt with FmtArchStr => arch <= 3 \/ arch = 1023 | _ => True end.

Lemma text_of_format : forall fmt arch n, u32_id n -> 0 <= arch < 2 ^ 64 -> known_arch fmt arch ->
  let legal := negb (arch =? arch_illegal) && negb (arch =? 0) in
  let out := match fmt with
             | FmtNoArch => Some (cn_text n)
             | FmtArchId => if legal then Some (print_nat arch ++ ":"%char :: cn_text n) else None
             | FmtArchStr => if legal then Some (arch_name arch ++ ":"%char :: cn_text n) else None
             | _ => None
             end in
  match out with Some t => id_text fmt arch n t | None => forall t, ~ id_text fmt arch n t end.
Proof.
  intros fmt arch n Hn Ha K. unfold arch_illegal. destruct fmt; cbv zeta; cbn [id_text known_arch] in *; auto using cn_text_plain.
  - destruct (arch =? 1023) eqn:E1; cbn [negb andb].
    + apply Z.eqb_eq in E1. intros t (_ & H & _). lia.
    + apply Z.eqb_neq in E1. destruct (arch =? 0) eqn:E2; cbn [negb].
      * apply Z.eqb_eq in E2. intros t (H & _ & _). lia.
      * apply Z.eqb_neq in E2. split; auto. split; auto. eexists. eexists. split; [reflexivity|].
        split; [apply print_nat_canonical; lia|apply cn_text_plain; auto].
  - destruct (arch =? 1023) eqn:E1; cbn [negb andb].
    + apply Z.eqb_eq in E1. subst arch. intros t (sa & st & _ & H & _). inversion H.
    + apply Z.eqb_neq in E1. destruct (arch =? 0) eqn:E2; cbn [negb].
      * apply Z.eqb_eq in E2. subst arch. intros t (sa & st & _ & H & _). inversion H.
      * apply Z.eqb_neq in E2. eexists. eexists. split; [reflexivity|]. split; [|apply cn_text_plain; auto].
        assert (arch = 1 \/ arch = 2 \/ arch = 3) as [->|[->| ->]] by lia; constructor.
Qed.

Lemma to_string_spec : forall n buf cap arch fmt out st,
  u32_id n -> 0 <= arch < 2 ^ 64 -> known_arch fmt arch -> Z.of_nat (length buf) = cap ->
  cn_to_string (Some n) (Some buf) cap arch fmt = (out, st) ->
  (exists b, out = Some b /\ Z.of_nat (length b) = cap) /\
  (st = 0 <-> exists t, id_text fmt arch n t /\ Z.of_nat (length t) < cap) /\
  (st <> 0 -> st = -1) /\
  (st = 0 -> exists b t, out = Some b /\ id_text fmt arch n t /\ array_holds b t).
Proof.
  intros n buf cap arch fmt out st Hn Ha K L H. unfold cn_to_string in H.
  assert (V : cn_valid (Some n) = true).
  { apply cn_valid_set. destruct Hn. split; lia. }
  rewrite V in H. cbn [andb] in H. destruct (0 <? cap) eqn:Ec; cbn [andb] in H.
  2:{ apply Z.ltb_ge in Ec. injection H as <- <-. split; [exists buf; auto|]. split.
      - split; [discriminate|]. intros (t & _ & Hl). lia.
      - split; [auto|discriminate]. }
  apply Z.ltb_lt in Ec.
  assert (ZL : exists b, Some (zeros cap) = Some b /\ Z.of_nat (length b) = cap).
  { eexists. split; [reflexivity|]. apply zeros_length. lia. }
  pose proof (text_of_format fmt arch n Hn Ha K) as T. cbv zeta in T.
  assert (Main : forall s, id_text fmt arch n s ->
    (Some (snprintf (zeros cap) cap s), if Z.of_nat (length s) <? cap then 0 else -1) = (out, st) ->
    (exists b, out = Some b /\ Z.of_nat (length b) = cap) /\
    (st = 0 <-> exists t, id_text fmt arch n t /\ Z.of_nat (length t) < cap) /\
    (st <> 0 -> st = -1) /\
    (st = 0 -> exists b t, out = Some b /\ id_text fmt arch n t /\ array_holds b t)).
  { intros s Hs E. injection E as <- <-. split.
    { eexists. split; [reflexivity|]. apply snprintf_length; [lia|apply zeros_length; lia]. }
    destruct (Z.of_nat (length s) <? cap) eqn:El.
    - apply Z.ltb_lt in El. split; [split; [intros _; exists s; auto|auto]|]. split; [congruence|]. intros _.
      destruct (snprintf_fits (zeros cap) cap s El) as (r & Er). eexists. exists s. split; [reflexivity|]. split; auto.
      split; [exists r; exact Er|]. eapply id_text_no_nul; eauto.
    - apply Z.ltb_ge in El. split; [split; [discriminate|]|split; [auto|discriminate]].
      intros (t & Ht & Hl). rewrite (id_text_unique _ _ _ _ _ Hs Ht) in El. lia. }
  assert (None_ : (forall t, ~ id_text fmt arch n t) -> (Some (zeros cap), -1) = (out, st) ->
    (exists b, out = Some b /\ Z.of_nat (length b) = cap) /\
    (st = 0 <-> exists t, id_text fmt arch n t /\ Z.of_nat (length t) < cap) /\
    (st <> 0 -> st = -1) /\
    (st = 0 -> exists b t, out = Some b /\ id_text fmt arch n t /\ array_holds b t)).
  { intros Hs E. injection E as <- <-. split; auto. split; [split; [discriminate|]|split; [auto|discriminate]].
    intros (t & Ht & _). exfalso. eapply Hs; eauto. }
  destruct fmt; cbv zeta in H.
  - apply (Main _ T). exact H.
  - destruct (negb (arch =? arch_illegal) && negb (arch =? 0)); [apply (Main _ T); exact H|apply (None_ T); exact H].
  - destruct (negb (arch =? arch_illegal) && negb (arch =? 0)); [apply (Main _ T); exact H|apply (None_ T); exact H].
  - injection H as <- <-. split; [exists buf; auto|]. split; [split; [discriminate|intros (t & [] & _)]|split; [auto|discriminate]].
  - apply (None_ T). exact H.
Qed.
