(* Theorems for C41: node ids and their text. *)
From Coq Require Import Ascii String ZArith Bool List Lia.
From Verif Require Import Tac NodeId NodeIdSpec NodeIdProofs.
Import ListNotations.
Local Open Scope Z_scope.

(* The text of a valid id is the two numbers in canonical decimal form with a dot between them. *)
Theorem C41_text : forall n, n_platform n <> -1 -> n_device n <> -1 ->
  exists sp sd, to_std_string n = sp ++ "."%char :: sd /\
    canonical sp (n_platform n) /\ canonical sd (n_device n).
Proof.
  intros n Hp Hd. unfold to_std_string, valid, illegal_id. rewrite !(proj2 (Z.eqb_neq _ _)) by auto. cbn [negb andb].
  exists (print_int (n_platform n)), (print_int (n_device n)). split; [reflexivity|]. split; apply print_int_canonical.
Qed.
Print Assumptions C41_text.

(* Any text of that form, also with other characters after it, is read as these two numbers; the
   node index stays. *)
Theorem C41_parse : forall sp sd p d r n, canonical sp p -> canonical sd d -> int64 p -> int64 d ->
  p <> -1 -> d <> -1 -> (forall a r', r = a :: r' -> ~ exists k, digit_of a k) ->
  exists n', from_string (sp ++ "."%char :: sd ++ r) n = Some (n', 0) /\
    n_platform n' = p /\ n_device n' = d /\ n_index n' = n_index n.
Proof.
  intros sp sd p d r n Cp Cd Hp Hd Np Nd Hr. 
  assert (Nr : no_digit r).
  { destruct r as [|a r]; [exact Logic.I|]. cbn. destruct (is_digit a) eqn:E; auto. exfalso.
    apply (Hr a r eq_refl). exists (digit_val a). unfold is_digit, digit_val, digit_of in *.
    apply andb_true_iff in E as [E1 E2]. apply Z.leb_le in E1, E2. lia. }
  rewrite (from_string_canonical sp sd p d r n) by auto.
  rewrite !(proj2 (Z.eqb_neq _ _)) by auto. cbn [negb andb]. eexists. split; [reflexivity|]. auto.
Qed.
Print Assumptions C41_parse.

(* Round trip through a std::string, for all valid 64-bit ids. *)
Theorem C41_round_trip : forall n m, int64 (n_platform n) -> int64 (n_device n) ->
  n_platform n <> -1 -> n_device n <> -1 ->
  exists n', from_string (to_std_string n) m = Some (n', 0) /\
    n_platform n' = n_platform n /\ n_device n' = n_device n /\ n_index n' = n_index m.
Proof.
  intros n m Hp Hd Np Nd. unfold to_std_string, valid, illegal_id. rewrite !(proj2 (Z.eqb_neq _ _)) by auto. cbn [negb andb].
  destruct n as [p d i]. rewrite from_text by auto. cbn [n_platform n_device] in *.
  rewrite !(proj2 (Z.eqb_neq _ _)) by auto. cbn [negb andb]. eexists. split; [reflexivity|]. auto.
Qed.
Print Assumptions C41_round_trip.

Example C41_round_trip_case : int64 (- 2 ^ 63) /\ int64 (2 ^ 63 - 1) /\
  from_string (to_std_string (mkNode (- 2 ^ 63) 17 3)) (mkNode 0 0 9) = Some (mkNode (- 2 ^ 63) 17 9, 0) /\
  to_std_string (mkNode 2 10 0) = lit "2.10".
Proof. repeat split; vm_compute; congruence. Qed.

(* Round trip through a character array: with room for the text and its terminator the conversion
   succeeds and what is in the array is read back; with less room it fails, and never writes more
   than the capacity. *)
Theorem C41_array_round_trip : forall n buf m, int64 (n_platform n) -> int64 (n_device n) ->
  n_platform n <> -1 -> n_device n <> -1 -> buf <> [] ->
  exists buf' st, to_array n (Some buf) (Z.of_nat (length buf)) = Some (Some buf', st) /\
    length buf' = length buf /\
    (st = 0 <-> (length (to_std_string n) < length buf)%nat) /\ (st = 0 \/ st = -1) /\
    (st = 0 -> exists s n', c_string buf' = Some s /\ from_string s m = Some (n', 0) /\
       n_platform n' = n_platform n /\ n_device n' = n_device n) /\
    (st = -1 -> c_string buf' = Some []).
Proof.
  intros n buf m Hp Hd Np Nd Ne.
  assert (L : (0 < length buf)%nat) by (destruct buf; [congruence|cbn; lia]).
  destruct (C41_round_trip n m Hp Hd Np Nd) as (n' & F & A & B & _).
  unfold to_array. unfold to_std_string in *. 
  assert (V : valid n = true) by (unfold valid, illegal_id; rewrite !(proj2 (Z.eqb_neq _ _)) by auto; reflexivity).
  rewrite V in *. rewrite (proj2 (Z.ltb_lt 0 (Z.of_nat (length buf)))) by lia. unfold zeros. rewrite Nat2Z.id.
  destruct (Z.of_nat (length (text n)) <? Z.of_nat (length buf)) eqn:E.
  - apply Z.ltb_lt in E. eexists. exists 0. split; [reflexivity|]. rewrite skipn_zeros by lia.
    split. { rewrite app_length. cbn [length]. rewrite repeat_length. lia. }
    split; [split; [intros; lia|reflexivity]|]. split; [auto|]. split; [|discriminate].
    intros _. exists (text n), n'. rewrite c_string_app by apply text_no_nul. auto.
  - apply Z.ltb_ge in E. eexists. exists (-1). split; [reflexivity|].
    split; [apply repeat_length|]. split; [split; intros; lia|]. split; [auto|]. split; [discriminate|].
    intros _. destruct (length buf); [lia|]. reflexivity.
Qed.
Print Assumptions C41_array_round_trip.

Example C41_array_case : to_array (mkNode 2 10 0) (Some (lit "abcdef")) 6 =
  Some (Some (lit "2.10" ++ [nul; nul]), 0).
Proof. reflexivity. Qed.

(* An invalid id has no text and fails to convert; text naming an illegal id is refused and the id
   that should receive it is unchanged. *)
Theorem C41_invalid : forall n m buf cap, n_platform n = -1 \/ n_device n = -1 ->
  to_std_string n = [] /\ (exists b, to_array n buf cap = Some (b, -1)) /\
  from_string [] m = Some (m, -1) /\
  (int64 (n_platform n) -> int64 (n_device n) -> from_string (text n) m = Some (m, -1)).
Proof.
  intros n m buf cap H.
  assert (V : valid n = false).
  { unfold valid, illegal_id. apply andb_false_iff. destruct H as [->| ->]; auto. }
  unfold to_std_string, to_array. rewrite V. split; [reflexivity|]. split; [eexists; reflexivity|].
  split; [reflexivity|]. intros Hp Hd. destruct n as [p d i]. rewrite from_text by auto.
  unfold valid, illegal_id in V. cbn [n_platform n_device] in V. rewrite V. reflexivity.
Qed.
Print Assumptions C41_invalid.

(* Failure of any conversion from text leaves the id as it was. *)
Theorem C41_failure_unchanged : forall s n n' st, from_string s n = Some (n', st) -> st <> 0 -> n' = n.
Proof.
  intros s n n' st H Hst. unfold from_string in H. destruct s as [|a s]; [congruence|].
  destruct (scan_lld (a :: s)) as [p rest| |]; [|congruence|congruence].
  destruct rest as [|b rest]; [congruence|].
  destruct b as [[] [] [] [] [] [] [] []]; try congruence.
  destruct (scan_lld rest) as [d rest'| |]; [|congruence|congruence].
  destruct (negb (p =? illegal_id) && negb (d =? illegal_id)); congruence.
Qed.
Print Assumptions C41_failure_unchanged.

(* ---- order ---- *)
Theorem C41_order : 
  (forall a, node_lt a a = false) /\
  (forall a b c, node_lt a b = true -> node_lt b c = true -> node_lt a c = true) /\
  (forall a b, node_lt a b = true \/ node_lt b a = true \/ (n_platform a = n_platform b /\ n_device a = n_device b)) /\
  (forall a b, node_lt a b = true <->
     n_platform a < n_platform b \/ (n_platform a = n_platform b /\ n_device a < n_device b)).
Proof.
  assert (S : forall a b, node_lt a b = true <->
     n_platform a < n_platform b \/ (n_platform a = n_platform b /\ n_device a < n_device b)).
  { intros a b. unfold node_lt. rewrite orb_true_iff, andb_true_iff, !Z.ltb_lt, Z.eqb_eq. tauto. }
  split; [|split; [|split; [|exact S]]].
  - intros a. destruct (node_lt a a) eqn:E; auto. apply S in E. lia.
  - intros a b c. rewrite !S. lia.
  - intros a b. rewrite !S. lia.
Qed.
Print Assumptions C41_order.

Theorem C41_compare : forall a b,
  (compare a b = 0 <-> n_platform a = n_platform b /\ n_device a = n_device b) /\
  compare b a = - compare a b /\
  (c_are_equal (Some a) (Some b) = true <-> n_platform a = n_platform b /\ n_device a = n_device b) /\
  (compare a b = -1 <-> n_platform a < n_platform b \/ (n_platform a = n_platform b /\ n_device a < n_device b)) /\
  (compare a b = -1 \/ compare a b = 0 \/ compare a b = 1) /\
  c_compare (Some a) (Some b) = compare a b.
Proof.
  destruct C41_order as (_ & _ & _ & S). intros a b.
  assert (C : compare a b = 0 <-> n_platform a = n_platform b /\ n_device a = n_device b).
  { unfold compare. destruct (node_lt a b) eqn:E1; destruct (node_lt b a) eqn:E2; rewrite ?S in E1, E2.
    1,2: apply S in E1; lia. 1: apply S in E2; lia.
    split; auto. intros _. pose proof (proj2 (S a b)) as A. pose proof (proj2 (S b a)) as B.
    rewrite E1 in A. rewrite E2 in B.
    destruct (Z.lt_trichotomy (n_platform a) (n_platform b)) as [|[|]]; [exfalso; discriminate A; auto| |exfalso; discriminate B; auto].
    destruct (Z.lt_trichotomy (n_device a) (n_device b)) as [|[|]]; [exfalso; discriminate A; auto|auto|exfalso; discriminate B; auto]. }
  split; [exact C|]. split.
  - unfold compare in *. destruct (node_lt a b) eqn:E1; destruct (node_lt b a) eqn:E2; auto.
    apply S in E1, E2. lia.
  - split; [unfold c_are_equal, c_compare; rewrite Z.eqb_eq; exact C|]. split; [|split; [|reflexivity]].
    + rewrite <- S. unfold compare. destruct (node_lt a b); [tauto|]. destruct (node_lt b a); split; discriminate.
    + unfold compare. destruct (node_lt a b); auto. destruct (node_lt b a); auto.
Qed.
Print Assumptions C41_compare.

(* setters change the number named and no other *)
Theorem C41_setters : forall n v p d i,
  (n_platform (set_platform v n) = v /\ n_device (set_platform v n) = n_device n /\ n_index (set_platform v n) = n_index n) /\
  (n_platform (set_device v n) = n_platform n /\ n_device (set_device v n) = v /\ n_index (set_device v n) = n_index n) /\
  (n_platform (set_index v n) = n_platform n /\ n_device (set_index v n) = n_device n /\ n_index (set_index v n) = v) /\
  (n_platform (node_reset p d i n) = p /\ n_device (node_reset p d i n) = d /\ n_index (node_reset p d i n) = i) /\
  (valid (node_clear n) = false /\ has_index (node_clear n) = false).
Proof. intros. repeat split; reflexivity. Qed.
Print Assumptions C41_setters.

(* an id comes before no id, in both places; two missing ids are never equal (C41_compare_null_refuted) *)
Theorem C41_compare_null : forall a, c_compare None (Some a) = 1 /\ c_compare (Some a) None = -1 /\
  c_are_equal None (Some a) = false /\ c_are_equal (Some a) None = false.
Proof. intros a. repeat split; reflexivity. Qed.
Print Assumptions C41_compare_null.

(* ---- configuration strings ---- *)
(* characters by their code: white space; white space, letters, digits, # and ; *)
Definition code (a : ascii) : Z := Z.of_N (N_of_ascii a).
Definition white (a : ascii) : Prop := In (code a) [9; 10; 11; 12; 13; 32].
Definition remark (a : ascii) : Prop :=
  white a \/ 48 <= code a <= 57 \/ 65 <= code a <= 90 \/ 97 <= code a <= 122 \/ a = "#"%char \/ a = ";"%char.

Lemma white_space : forall a, is_space a = true <-> white a.
Proof.
  intros a. unfold is_space, white. fold (code a). cbn [In]. rewrite orb_true_iff, andb_true_iff, Z.eqb_eq, !Z.leb_le. lia.
Qed.
Lemma remark_tail : forall a, tail_char a = true <-> remark a.
Proof.
  intros a. unfold tail_char, remark, is_alnum, is_digit. fold (code a).
  rewrite !orb_true_iff, !andb_true_iff, !Z.leb_le, !Ascii.eqb_eq, white_space. tauto.
Qed.

(* two non-empty sequences of digits joined by a dot *)
Definition pair_of_numbers (t : chars) : Prop :=
  exists s1 s2 v1 v2, t = s1 ++ "."%char :: s2 /\ denotes s1 v1 /\ denotes s2 v2.

Lemma all_denote : forall s, all_digits s -> s <> [] -> exists v, denotes s v.
Proof.
  intros s. induction s as [|a s IH] using rev_ind; [congruence|]. intros A _.
  apply Forall_app in A as [As Aa]. apply Forall_cons_iff in Aa as [Ha _].
  assert (D : digit_of a (digit_val a)).
  { unfold is_digit in Ha. apply andb_true_iff in Ha as [H1 H2]. apply Z.leb_le in H1, H2. unfold digit_of, digit_val. lia. }
  destruct s as [|b s]; [eexists; constructor; exact D|]. destruct IH as (v & Hv); [auto|discriminate|].
  eexists. apply den_more; eauto.
Qed.
Lemma span_parts : forall s, s = fst (span_digits s) ++ snd (span_digits s) /\ all_digits (fst (span_digits s)) /\
  forall a r, snd (span_digits s) = a :: r -> is_digit a = false.
Proof.
  induction s as [|a s (E & A & N)]; [split; [reflexivity|]; split; [constructor|discriminate]|]. cbn [span_digits].
  destruct (is_digit a) eqn:Ha.
  - destruct (span_digits s). cbn [fst snd] in *. split; [cbn [app]; congruence|]. split; [constructor; auto|exact N].
  - cbn [fst snd app]. split; [reflexivity|]. split; [constructor|]. intros b r H. injection H as <- <-. exact Ha.
Qed.
Lemma space_parts : forall s, exists w, s = w ++ skip_space s /\ Forall white w.
Proof.
  induction s as [|a s (w & E & F)]; [exists []; auto|]. cbn [skip_space]. destruct (is_space a) eqn:Ha.
  - exists (a :: w). cbn [app]. rewrite <- E. split; auto. constructor; auto. apply white_space. exact Ha.
  - exists []. auto.
Qed.

(* what is found in a configuration string: the text of an id between white space and a remark, and
   nothing if the string is not of this form *)
Theorem C41_extract : forall s t, t <> [] ->
  (extract s = t <-> exists w r, s = w ++ t ++ r /\ Forall white w /\ pair_of_numbers t /\ Forall remark r /\
    (forall a r', r = a :: r' -> ~ exists k, digit_of a k)).
Proof.
  intros s t Nt. split.
  - unfold extract. destruct (space_parts s) as (w & Es & Fw). destruct (span_parts (skip_space s)) as (E1 & A1 & _).
    destruct (span_digits (skip_space s)) as [d1 r1]. cbn [fst snd] in *. destruct d1 as [|x d1]; [congruence|].
    destruct r1 as [|c r2]; [congruence|].
    destruct (ascii_dec c ".") as [->|Nc]; [|destruct c as [[] [] [] [] [] [] [] []]; intros H; congruence].
    destruct (span_parts r2) as (E2 & A2 & N2). destruct (span_digits r2) as [d2 r3]. cbn [fst snd] in *.
    destruct d2 as [|y d2]; [congruence|]. destruct (forallb tail_char r3) eqn:Ft; [|congruence]. intros <-.
    exists w, r3. split; [|split; [exact Fw|split; [|split]]].
    + rewrite Es, E1, E2. rewrite <- app_assoc. reflexivity.
    + destruct (all_denote _ A1 ltac:(discriminate)) as (v1 & D1). destruct (all_denote _ A2 ltac:(discriminate)) as (v2 & D2).
      exists (x :: d1), (y :: d2), v1, v2. auto.
    + rewrite Forall_forall. rewrite forallb_forall in Ft. intros a Ha. apply remark_tail. auto.
    + intros a r' Er (k & D). apply digit_of_is in D as [D _]. rewrite (N2 a r' Er) in D. discriminate.
  - intros (w & r & -> & Fw & (s1 & s2 & v1 & v2 & -> & D1 & D2) & Fr & Hr).
    destruct (denotes_digits _ _ D1) as (A1 & N1 & _). destruct (denotes_digits _ _ D2) as (A2 & N2 & _).
    assert (Fw' : Forall (fun a => is_space a = true) w) by (eapply Forall_impl; [|exact Fw]; intros a; apply white_space).
    assert (E : extract (w ++ (s1 ++ "."%char :: s2) ++ r) = extract ((s1 ++ "."%char :: s2) ++ r))
      by (unfold extract; rewrite skip_space_app by auto; reflexivity).
    rewrite E. clear E. rewrite <- app_assoc. cbn [app]. apply extract_digits; auto.
    + destruct r as [|a r]; [exact Logic.I|]. cbn. destruct (is_digit a) eqn:E; auto. exfalso.
      apply (Hr a r eq_refl). exists (digit_val a). unfold is_digit, digit_val, digit_of in *.
      apply andb_true_iff in E as [E1 E2]. apply Z.leb_le in E1, E2. lia.
    + apply forallb_forall. rewrite Forall_forall in Fr. intros a Ha. apply remark_tail. auto.
Qed.
Print Assumptions C41_extract.

(* the text of an id with non-negative numbers is such a pair *)
Theorem C41_extract_id : forall n, 0 <= n_platform n -> 0 <= n_device n -> pair_of_numbers (to_std_string n).
Proof.
  intros n Hp Hd. unfold to_std_string, valid, illegal_id. rewrite !(proj2 (Z.eqb_neq _ _)) by lia. cbn [negb andb].
  unfold text, print_int. rewrite !(proj2 (Z.ltb_ge _ _)) by lia.
  destruct (print_nat_spec _ Hp) as [D1 _]. destruct (print_nat_spec _ Hd) as [D2 _].
  exists (print_nat (n_platform n)), (print_nat (n_device n)), (n_platform n), (n_device n). auto.
Qed.
Print Assumptions C41_extract_id.

Example C41_extract_case : extract (lit " 2.10 # x") = lit "2.10" /\ extract (lit "2.10") = lit "2.10" /\ extract (lit "-2.10") = [].
Proof. repeat split; reflexivity. Qed.

(* ---- the conversion with a format argument ---- *)
(* it is right for 32-bit ids when the array has two characters more than the text *)
Theorem C41_format_partial : forall n buf cap arch m, 
  - 2 ^ 31 <= n_platform n < 2 ^ 31 -> - 2 ^ 31 <= n_device n < 2 ^ 31 ->
  n_platform n <> -1 -> n_device n <> -1 ->
  Z.of_nat (length (to_std_string n)) + 2 <= cap <= 2 ^ 31 ->
  exists buf', to_string n buf cap arch FmtNoArch = (buf', 0) /\
    exists s n', c_string buf' = Some s /\ from_string s m = Some (n', 0) /\
      n_platform n' = n_platform n /\ n_device n' = n_device n.
Proof.
  intros n buf cap arch m Hp Hd Np Nd Hc.
  destruct (C41_round_trip n m) as (n' & F & A & B & _); [unfold int64; lia|unfold int64; lia|auto|auto|].
  assert (V : valid n = true) by (unfold valid, illegal_id; rewrite !(proj2 (Z.eqb_neq _ _)) by auto; reflexivity).
  unfold to_std_string in *. rewrite V in *. unfold to_string. rewrite V, (proj2 (Z.ltb_lt 0 cap)) by lia. cbn [andb].
  rewrite short_text_small by auto.
  assert (NE : (0 < length (text n))%nat) by (unfold text; rewrite app_length; cbn [length]; lia).
  destruct (snprintf_fits buf (cap - 1) (text n)) as (r & E); [lia|]. rewrite E.
  rewrite to_int32_id by lia. rewrite (proj2 (Z.ltb_lt _ _)) by lia. rewrite (proj2 (Z.leb_le _ _)) by lia.
  eexists. split; [reflexivity|]. exists (text n), n'. rewrite c_string_app by apply text_no_nul. auto.
Qed.
Print Assumptions C41_format_partial.

Example C41_format_case : to_string (mkNode 2 10 0) (lit "abcdefgh") 8 0 FmtNoArch = (lit "2.10" ++ nul :: lit "fgh", 0).
Proof. reflexivity. Qed.

(* with one character more than the text - enough for the text and its terminator - the last
   digit is dropped and success is reported; the text then names another device *)
Theorem C41_format_truncation_refuted :
  to_string (mkNode 0 12 0) (lit "xxxxx") 5 0 FmtNoArch = (lit "0.1" ++ [nul; "x"%char], 0) /\
  node_of_string (lit "0.1") = Some (mkNode 0 1 undefined_index).
Proof. split; reflexivity. Qed.
Print Assumptions C41_format_truncation_refuted.

(* ids beyond 32 bits are cut off and success is reported *)
Theorem C41_format_range_refuted : forall p d i j, 0 <= p < 2 ^ 31 - 1 ->
  d <> -1 -> to_string (mkNode p d i) (repeat nul 40) 40 0 FmtNoArch =
  to_string (mkNode (p + 2 ^ 32) d j) (repeat nul 40) 40 0 FmtNoArch.
Proof.
  intros p d i j Hp Hd. unfold to_string, valid, illegal_id. cbn [n_platform n_device].
  rewrite !(proj2 (Z.eqb_neq _ _)) by lia. unfold short_text. cbn [n_platform n_device].
  replace (to_int32 (p + 2 ^ 32)) with (to_int32 p); [reflexivity|].
  unfold to_int32. f_equal. replace (p + 2 ^ 32 + 2 ^ 31) with (p + 2 ^ 31 + 1 * 2 ^ 32) by lia. rewrite Z.mod_add by lia. reflexivity.
Qed.
Print Assumptions C41_format_range_refuted.

(* the forms with an architecture are not accepted back *)
Theorem C41_format_arch_refuted :
  to_string (mkNode 0 3 0) (repeat nul 16) 16 1 FmtArchId = (lit "1:0.3" ++ repeat nul 11, 0) /\
  from_string (lit "1:0.3") (mkNode 7 8 9) = Some (mkNode 7 8 9, -1) /\
  to_string (mkNode 0 3 0) (repeat nul 16) 16 1 FmtArchStr = (lit "cpu:0.3" ++ repeat nul 9, 0) /\
  from_string (lit "cpu:0.3") (mkNode 7 8 9) = Some (mkNode 7 8 9, -1).
Proof. repeat split; reflexivity. Qed.
Print Assumptions C41_format_arch_refuted.

(* the C comparison says that a missing id differs from a missing id *)
Theorem C41_compare_null_refuted : c_compare None None = -1 /\ c_are_equal None None = false.
Proof. split; reflexivity. Qed.
Print Assumptions C41_compare_null_refuted.
