From Coq Require Import Ascii String ZArith Bool List Lia.
From Verif Require Import Tac NodeId NodeIdSpec NodeIdProofs ComputeNode ComputeNodeSpec ComputeNodeProofs OclNodes OclNodesSpec.
Import ListNotations.
Local Open Scope Z_scope.

Lemma is_sep_spec : forall a, is_sep a = true <-> separator a.
Proof. intros a. unfold is_sep, separator. rewrite orb_true_iff, !Ascii.eqb_eq. tauto. Qed.

Lemma is_space_blank : forall a, is_space a = true <-> blank a.
Proof.
  intros a. unfold is_space, blank. cbn [In]. set (c := Z.of_N (N_of_ascii a)).
  rewrite orb_true_iff, andb_true_iff, Z.eqb_eq, !Z.leb_le. lia.
Qed.

Lemma sep_not_space : forall a, is_sep a = true -> is_space a = false.
Proof. intros a H. apply is_sep_spec in H as [ -> | -> ]; reflexivity. Qed.
Lemma sep_not_digit : forall a, is_sep a = true -> is_digit a = false.
Proof. intros a H. apply is_sep_spec in H as [ -> | -> ]; reflexivity. Qed.

Definition sepfree (s : chars) : Prop := Forall (fun a => is_sep a = false) s.
Definition head_sep (s : chars) : Prop := match s with [] => True | a :: _ => is_sep a = true end.

Lemma span_sep : forall s rest, head_sep rest ->
  span_digits (s ++ rest) = (fst (span_digits s), snd (span_digits s) ++ rest).
Proof.
  intros s rest H. induction s as [|a s IH].
  - cbn [app span_digits fst snd]. destruct rest as [|c rest]; [reflexivity|]. cbn [span_digits]. cbn [head_sep] in H.
    rewrite (sep_not_digit c H). reflexivity.
  - cbn [app span_digits]. destruct (is_digit a); [|reflexivity]. rewrite IH. destruct (span_digits s). reflexivity.
Qed.

Lemma span_app : forall s, s = fst (span_digits s) ++ snd (span_digits s).
Proof.
  induction s as [|a s IH]; [reflexivity|]. cbn [span_digits]. destruct (is_digit a); [|reflexivity].
  destruct (span_digits s). cbn [fst snd] in *. cbn [app]. congruence.
Qed.
Lemma span_digits_all : forall s, all_digits (fst (span_digits s)).
Proof.
  induction s as [|a s IH]; [constructor|]. cbn [span_digits]. destruct (is_digit a) eqn:E; [|constructor].
  destruct (span_digits s). cbn [fst] in *. constructor; auto.
Qed.
Lemma span_rest : forall s, no_digit (snd (span_digits s)).
Proof.
  induction s as [|a s IH]; [exact Logic.I|]. cbn [span_digits]. destruct (is_digit a) eqn:E; [|exact E].
  destruct (span_digits s). exact IH.
Qed.

Lemma strip_sep : forall p s rest, sepfree p -> head_sep rest ->
  strip p (s ++ rest) = option_map (fun q => q ++ rest) (strip p s).
Proof.
  induction p as [|a p IH]; intros s rest Hp H; [destruct s; reflexivity|]. apply Forall_cons_iff in Hp as [Ha Hp].
  destruct s as [|b s]; cbn [app strip].
  - destruct rest as [|c rest]; [reflexivity|]. cbn [strip option_map]. destruct (Ascii.eqb_spec a c) as [->|]; [|reflexivity].
    cbn [head_sep] in H. congruence.
  - destruct (Ascii.eqb a b); [apply IH; auto|reflexivity].
Qed.

Lemma strip_app : forall p s q, strip p s = Some q <-> s = p ++ q.
Proof.
  induction p as [|a p IH]; intros s q; cbn [strip app].
  - destruct s; split; intros H; try (injection H as <-); subst; auto.
  - destruct s as [|b s]; [split; discriminate|]. destruct (Ascii.eqb_spec a b) as [->|N].
    + rewrite IH. split; [intros ->; reflexivity|]. intros E. injection E as ->. reflexivity.
    + split; [discriminate|]. intros E. injection E as <- _. congruence.
Qed.

Definition plus (rest : chars) (x : chars * chars) : chars * chars := (fst x, snd x ++ rest).

Lemma pair_text_eq : forall s, pair_text s =
  match fst (span_digits s), snd (span_digits s) with
  | d :: d1, c :: r2 =>
      if Ascii.eqb c "." then
      match fst (span_digits r2) with
      | [] => None
      | _ :: _ => Some ((d :: d1) ++ "."%char :: fst (span_digits r2), snd (span_digits r2))
      end else None
  | _, _ => None
  end.
Proof.
  intros s. unfold pair_text. destruct (span_digits s) as [d1 r1]. cbn [fst snd].
  destruct d1 as [|d d1]; [reflexivity|]. destruct r1 as [|c r2]; [reflexivity|].
  destruct (Ascii.eqb_spec c ".") as [->|N].
  - destruct (span_digits r2) as [d2 r3]. cbn [fst snd]. destruct d2; reflexivity.
  - destruct c as [[] [] [] [] [] [] [] []]; try reflexivity; congruence.
Qed.

Lemma pair_text_sep : forall s rest, head_sep rest -> pair_text (s ++ rest) = option_map (plus rest) (pair_text s).
Proof.
  intros s rest H. rewrite !pair_text_eq, (span_sep s rest H). cbn [fst snd].
  destruct (fst (span_digits s)) as [|d d1]; [reflexivity|]. destruct (snd (span_digits s)) as [|c r2]; cbn [app].
  - destruct rest as [|c rest]; [reflexivity|]. cbn [head_sep] in H. apply is_sep_spec in H as [ -> | -> ]; reflexivity.
  - destruct (Ascii.eqb c "."); [|reflexivity]. rewrite (span_sep r2 rest H). cbn [fst snd].
    destruct (fst (span_digits r2)); reflexivity.
Qed.

Lemma entry_sep : forall s rest, head_sep rest -> entry (s ++ rest) = option_map (plus rest) (entry s).
Proof.
  intros s rest H. unfold entry.
  rewrite (strip_sep (lit "opencl:") s rest) by (auto; repeat constructor).
  rewrite (strip_sep (lit "2:") s rest) by (auto; repeat constructor). rewrite (pair_text_sep s rest H).
  destruct (strip (lit "opencl:") s) as [q|]; cbn [option_map obind].
  - rewrite (pair_text_sep q rest H). destruct (pair_text q); [reflexivity|]. cbn [option_map orelse].
    destruct (strip (lit "2:") s) as [q2|]; cbn [option_map obind]; [|reflexivity].
    rewrite (pair_text_sep q2 rest H). destruct (pair_text q2); reflexivity.
  - cbn [orelse]. destruct (strip (lit "2:") s) as [q2|]; cbn [option_map obind]; [|reflexivity].
    rewrite (pair_text_sep q2 rest H). destruct (pair_text q2); reflexivity.
Qed.

Lemma skip_sep : forall s rest, head_sep rest -> skip_space (s ++ rest) = skip_space s ++ rest.
Proof.
  intros s rest H. induction s as [|a s IH].
  - cbn [app skip_space]. destruct rest as [|c rest]; [reflexivity|]. cbn [skip_space]. cbn [head_sep] in H.
    rewrite (sep_not_space c H). reflexivity.
  - cbn [app skip_space]. destruct (is_space a); [exact IH|reflexivity].
Qed.

Lemma skip_split : forall s, exists b, s = b ++ skip_space s /\ Forall blank b.
Proof.
  induction s as [|a s (b & E & F)]; [exists []; auto|]. cbn [skip_space]. destruct (is_space a) eqn:H.
  - exists (a :: b). cbn [app]. rewrite <- E. split; auto. constructor; auto. apply is_space_blank. exact H.
  - exists []. auto.
Qed.

(* ---- the shape of an id ---- *)
Lemma pair_text_some : forall s t r, pair_text s = Some (t, r) <->
  exists sp sd, s = sp ++ "."%char :: sd ++ r /\ t = sp ++ "."%char :: sd /\
    all_digits sp /\ sp <> [] /\ all_digits sd /\ sd <> [] /\ no_digit r.
Proof.
  intros s t r. split.
  - rewrite pair_text_eq. pose proof (span_app s) as E. pose proof (span_digits_all s) as A.
    destruct (fst (span_digits s)) as [|d d1]; [discriminate|]. destruct (snd (span_digits s)) as [|c r2]; [discriminate|].
    destruct (Ascii.eqb_spec c ".") as [->|]; [|discriminate].
    pose proof (span_app r2) as E2. pose proof (span_digits_all r2) as A2. pose proof (span_rest r2) as R2.
    destruct (fst (span_digits r2)) as [|x d2]; [discriminate|]. intros H. injection H as <- <-.
    exists (d :: d1), (x :: d2). rewrite E at 1. rewrite E2 at 1. cbn [app].
    repeat split; auto; discriminate.
  - intros (sp & sd & -> & -> & Ap & Np & Ad & Nd & R). rewrite pair_text_eq.
    rewrite span_digits_app by (auto; reflexivity). cbn [fst snd]. destruct sp as [|a sp]; [congruence|].
    rewrite Ascii.eqb_refl. rewrite span_digits_app by auto. cbn [fst snd]. destruct sd; [congruence|reflexivity].
Qed.

Lemma digits_denote : forall s, all_digits s -> s <> [] -> exists v, denotes s v.
Proof.
  intros s. induction s as [|a s IH] using rev_ind; [congruence|]. intros A _.
  apply Forall_app in A as [As Aa]. apply Forall_cons_iff in Aa as [Ha _].
  assert (D : digit_of a (digit_val a)).
  { unfold is_digit in Ha. apply andb_true_iff in Ha as [H1 H2]. apply Z.leb_le in H1, H2. unfold digit_of, digit_val. lia. }
  destruct s as [|b s]; [eexists; constructor; exact D|]. destruct IH as (v & Hv); [auto|discriminate|].
  eexists. apply den_more; eauto.
Qed.

Lemma no_digit_spec : forall r, no_digit r <-> forall c r', r = c :: r' -> ~ exists k, digit_of c k.
Proof.
  intros [|a r]; cbn [no_digit].
  - split; [intros _ c r' E; discriminate|auto].
  - split.
    + intros H c r' E (k & D). injection E as <- <-. apply digit_of_is in D. destruct D. congruence.
    + intros H. destruct (is_digit a) eqn:E; [|reflexivity]. exfalso. apply (H a r eq_refl). exists (digit_val a).
      unfold is_digit in E. apply andb_true_iff in E as [H1 H2]. apply Z.leb_le in H1, H2. unfold digit_of, digit_val. lia.
Qed.

(* the entry of a part, and the ids it begins with *)
Definition part_id (e : chars) : list chars := match entry (skip_space e) with Some (t, _) => [t] | None => [] end.

Lemma entry_some : forall s t r, entry s = Some (t, r) ->
  exists pre, In pre [[]; lit "opencl:"; lit "2:"] /\ exists q, s = pre ++ q /\ pair_text q = Some (t, r).
Proof.
  intros s t r. unfold entry. destruct (strip (lit "opencl:") s) as [q|] eqn:E1; cbn [obind].
  - apply strip_app in E1. destruct (pair_text q) as [[t' r']|] eqn:E; cbn [orelse].
    + intros H. injection H as -> ->. exists (lit "opencl:"). split; [right; left; reflexivity|]. exists q. auto.
    + destruct (strip (lit "2:") s) as [q2|] eqn:E2; cbn [obind].
      * apply strip_app in E2. subst s. discriminate E2.
      * cbn [orelse]. intros H. exists []. split; [left; reflexivity|]. exists s. auto.
  - cbn [orelse]. destruct (strip (lit "2:") s) as [q2|] eqn:E2; cbn [obind].
    + apply strip_app in E2. destruct (pair_text q2) as [[t' r']|] eqn:E; cbn [orelse].
      * intros H. injection H as -> ->. exists (lit "2:"). split; [right; right; left; reflexivity|]. exists q2. auto.
      * intros H. exists []. split; [left; reflexivity|]. exists s. auto.
    + intros H. exists []. split; [left; reflexivity|]. exists s. auto.
Qed.

Lemma entry_of : forall pre q t r, In pre [[]; lit "opencl:"; lit "2:"] -> pair_text q = Some (t, r) -> entry (pre ++ q) = Some (t, r).
Proof.
  intros pre q t r Hp H. unfold entry. destruct Hp as [<-|[<-|[<-|[]]]].
  - cbn [app]. pose proof H as H'. apply pair_text_some in H' as (sp & sd & -> & _ & Ap & Np & _).
    destruct sp as [|a sp]; [congruence|]. apply Forall_cons_iff in Ap as [Ha Ap].
    destruct (strip (lit "opencl:") ((a :: sp) ++ "."%char :: sd ++ r)) as [q|] eqn:E1.
    { apply strip_app in E1. injection E1 as -> _. discriminate Ha. }
    destruct (strip (lit "2:") ((a :: sp) ++ "."%char :: sd ++ r)) as [q|] eqn:E2.
    { apply strip_app in E2. injection E2 as -> E. destruct sp as [|b sp]; [discriminate E|]. injection E as -> _.
      apply Forall_cons_iff in Ap as [Hb _]. discriminate Hb. }
    cbn [obind orelse]. exact H.
  - rewrite (proj2 (strip_app (lit "opencl:") _ q) eq_refl). cbn [obind]. rewrite H. reflexivity.
  - destruct (strip (lit "opencl:") (lit "2:" ++ q)) as [q'|] eqn:E1; [apply strip_app in E1; discriminate E1|].
    rewrite (proj2 (strip_app (lit "2:") _ q) eq_refl). cbn [obind orelse]. rewrite H. reflexivity.
Qed.

Lemma skip_blanks : forall b s, Forall blank b -> (forall c s', s = c :: s' -> is_space c = false) -> skip_space (b ++ s) = s.
Proof.
  intros b s F H. induction F as [|a b Ha F IH].
  - destruct s as [|c s]; [reflexivity|]. cbn [app skip_space]. rewrite (H c s eq_refl). reflexivity.
  - cbn [app skip_space]. rewrite (proj2 (is_space_blank a) Ha). exact IH.
Qed.

Definition id_text_of (t : chars) (n : cnode) : Prop :=
  exists sp sd, t = sp ++ "."%char :: sd /\ denotes sp (cn_platform n) /\ denotes sd (cn_device n).

Lemma part_id_spec : forall e n, begins_with e n <-> exists t, In t (part_id e) /\ id_text_of t n.
Proof.
  intros e n. split.
  - intros (bl & pre & sp & sd & r & -> & Hb & Hp & Dp & Dd & R). exists (sp ++ "."%char :: sd). split; [|exists sp, sd; auto].
    destruct (denotes_digits _ _ Dp) as (Ap & Np & _). destruct (denotes_digits _ _ Dd) as (Ad & Nd & _).
    unfold part_id. rewrite skip_blanks; [|exact Hb|].
    + rewrite (entry_of pre (sp ++ "."%char :: sd ++ r) (sp ++ "."%char :: sd) r Hp).
      * left. reflexivity.
      * apply pair_text_some. exists sp, sd. repeat split; auto. apply no_digit_spec. exact R.
    + intros c s' E. destruct sp as [|a sp]; [congruence|]. apply Forall_cons_iff in Ap as [Ha _].
      destruct Hp as [<-|[<-|[<-|[]]]]; cbn [app] in E.
      * injection E as <- _. unfold is_digit in Ha. unfold is_space. apply andb_true_iff in Ha as [H1 H2].
        apply Z.leb_le in H1, H2. apply orb_false_iff. split; [apply Z.eqb_neq; lia|]. apply andb_false_iff. right. apply Z.leb_gt. lia.
      * injection E as <- _. reflexivity.
      * injection E as <- _. reflexivity.
  - intros (t & Ht & sp & sd & -> & Dp & Dd). unfold part_id in Ht. destruct (entry (skip_space e)) as [[t' r]|] eqn:E; [|destruct Ht].
    destruct Ht as [->|[]]. destruct (skip_split e) as (bl & Ee & Hb). destruct (entry_some _ _ _ E) as (pre & Hp & q & Eq & Ep).
    apply pair_text_some in Ep as (sp' & sd' & -> & Et & Ap & Np & Ad & Nd & R).
    assert (U : sp = sp' /\ sd = sd').
    { destruct (denotes_digits _ _ Dp) as (A1 & _). 
      assert (F : span_digits (sp ++ "."%char :: sd) = span_digits (sp' ++ "."%char :: sd')) by (rewrite Et; reflexivity).
      rewrite !span_digits_app in F by (auto; reflexivity). injection F as -> ->. auto. }
    destruct U as [-> ->]. exists bl, pre, sp', sd', r. rewrite Ee, Eq. repeat split; auto. apply no_digit_spec. exact R.
Qed.

Lemma entry_rest : forall s t r, entry s = Some (t, r) -> exists x, s = x ++ r /\ x <> [].
Proof.
  intros s t r H. destruct (entry_some _ _ _ H) as (pre & _ & q & -> & E).
  apply pair_text_some in E as (sp & sd & -> & _). exists (pre ++ sp ++ "."%char :: sd). split.
  - rewrite <- !app_assoc. reflexivity.
  - intros E. apply app_eq_nil in E as [_ E]. apply app_eq_nil in E as [_ E]. discriminate.
Qed.

(* ---- the search ---- *)
Lemma ids_skip : forall x y, ids_in (length x) false (x ++ y) = ids_in 0 false y.
Proof. induction x as [|a x IH]; intros y; [reflexivity|]. cbn [length app ids_in]. apply IH. Qed.

Definition after (t : chars) : list chars :=
  match entry (skip_space t) with
  | Some (x, r) => x :: ids_in 0 false r
  | None => ids_in 0 false t
  end.

Lemma ids_none : forall r, sepfree r -> ids_in 0 false r = [].
Proof.
  intros r F. induction F as [|a r Ha F IH]; [reflexivity|]. cbn [ids_in]. unfold match_here. cbn [orelse].
  assert (E : match skip_space (a :: r) with c :: s' => if is_sep c then entry (skip_space s') else None | [] => None end = None).
  { destruct (skip_split (a :: r)) as (b & Eb & _). destruct (skip_space (a :: r)) as [|c s'] eqn:E; [reflexivity|].
    assert (Hc : is_sep c = false).
    { assert (G : Forall (fun a => is_sep a = false) (a :: r)) by (constructor; auto). rewrite Eb in G. apply Forall_app in G as [_ G].
      apply Forall_cons_iff in G. tauto. }
    rewrite Hc. reflexivity. }
  rewrite E. exact IH.
Qed.

Lemma cut_match : forall a s t r x, entry s = Some (t, r) -> a :: x ++ s = a :: x ++ s ->
  ids_in (length (x ++ s) - length r) false (x ++ s) = ids_in 0 false r.
Proof.
  intros a s t r x H _. destruct (entry_rest _ _ _ H) as (y & -> & _). rewrite app_assoc.
  replace (length ((x ++ y) ++ r) - length r)%nat with (length (x ++ y)) by (rewrite !app_length; lia). apply ids_skip.
Qed.

Lemma skip_space_suffix : forall s, exists b, s = b ++ skip_space s.
Proof. intros s. destruct (skip_split s) as (b & E & _). exists b. exact E. Qed.

Lemma ids_after : forall r c t, sepfree r -> is_sep c = true -> ids_in 0 false (r ++ c :: t) = after t.
Proof.
  intros r c t F Hc. induction F as [|a r Ha F IH].
  - cbn [app ids_in]. unfold match_here. cbn [orelse skip_space]. rewrite (sep_not_space c Hc), Hc. unfold after.
    destruct (entry (skip_space t)) as [[x q]|] eqn:E; [|reflexivity]. f_equal.
    destruct (skip_space_suffix t) as (b & Eb). rewrite Eb. apply (cut_match c _ _ _ b E eq_refl).
  - cbn [app ids_in]. unfold match_here. cbn [orelse].
    assert (HS : head_sep (c :: t)) by exact Hc.
    change (a :: r ++ c :: t) with ((a :: r) ++ c :: t). rewrite (skip_sep (a :: r) (c :: t) HS).
    destruct (skip_split (a :: r)) as (b & Eb & Fb). destruct (skip_space (a :: r)) as [|d s'] eqn:E.
    + cbn [app]. rewrite Hc. unfold after in *. destruct (entry (skip_space t)) as [[x q]|] eqn:Ee; [|exact IH]. f_equal.
      destruct (skip_space_suffix t) as (b2 & Eb2). rewrite Eb2.
      replace (r ++ c :: b2 ++ skip_space t) with ((r ++ c :: b2) ++ skip_space t) by (rewrite <- app_assoc; reflexivity).
      apply (cut_match a _ _ _ (r ++ c :: b2) Ee eq_refl).
    + cbn [app]. assert (Hd : is_sep d = false).
      { assert (G : Forall (fun a => is_sep a = false) (a :: r)) by (constructor; auto). rewrite Eb in G. apply Forall_app in G as [_ G].
        apply Forall_cons_iff in G. tauto. }
      rewrite Hd. exact IH.
Qed.

(* the text cut at its separators *)
Fixpoint pieces (t : chars) : list chars :=
  match t with
  | [] => [[]]
  | a :: t' => if is_sep a then [] :: pieces t'
               else match pieces t' with p :: ps => (a :: p) :: ps | [] => [[a]] end
  end.

Lemma pieces_sepfree : forall r, sepfree r -> pieces r = [r].
Proof. intros r F. induction F as [|a r Ha F IH]; [reflexivity|]. cbn [pieces]. rewrite Ha, IH. reflexivity. Qed.

Lemma pieces_app : forall r c t, sepfree r -> is_sep c = true -> pieces (r ++ c :: t) = r :: pieces t.
Proof.
  intros r c t F Hc. induction F as [|a r Ha F IH]; cbn [app pieces].
  - rewrite Hc. reflexivity.
  - rewrite Ha, IH. reflexivity.
Qed.

Lemma cut : forall t, exists r rest, t = r ++ rest /\ sepfree r /\ head_sep rest.
Proof.
  induction t as [|a t (r & rest & E & F & H)]; [exists [], []; repeat split; constructor|].
  destruct (is_sep a) eqn:Ha.
  - exists [], (a :: t). split; [reflexivity|]. split; [constructor|exact Ha].
  - exists (a :: r), rest. split; [cbn [app]; congruence|]. split; [constructor; auto|exact H].
Qed.

Lemma ids_same : forall q r rest, sepfree q -> sepfree r -> head_sep rest -> ids_in 0 false (q ++ rest) = ids_in 0 false (r ++ rest).
Proof.
  intros q r [|c rest] Hq Hr H.
  - rewrite !app_nil_r. rewrite !ids_none by auto. reflexivity.
  - rewrite !ids_after by auto. reflexivity.
Qed.

Lemma entry_in_part : forall r rest, sepfree r -> head_sep rest ->
  entry (skip_space (r ++ rest)) = option_map (plus rest) (entry (skip_space r)).
Proof. intros r rest F H. rewrite skip_sep by exact H. apply entry_sep. exact H. Qed.

Lemma entry_sepfree : forall r t q, sepfree r -> entry (skip_space r) = Some (t, q) -> sepfree q.
Proof.
  intros r t q F H. destruct (entry_rest _ _ _ H) as (x & E & _). destruct (skip_space_suffix r) as (b & Eb).
  unfold sepfree in *. rewrite Eb, E in F. apply Forall_app in F as [_ F]. apply Forall_app in F. tauto.
Qed.

Lemma first_part : forall r rest, sepfree r -> head_sep rest ->
  match entry (skip_space (r ++ rest)) with
  | Some (x, q) => x :: ids_in 0 false q
  | None => ids_in 0 false (r ++ rest)
  end = part_id r ++ ids_in 0 false (r ++ rest).
Proof.
  intros r rest F H. rewrite entry_in_part by auto. unfold part_id. destruct (entry (skip_space r)) as [[x q]|] eqn:E; [|reflexivity].
  cbn [option_map plus fst snd app]. f_equal. apply ids_same; auto. eapply entry_sepfree; eauto.
Qed.

Lemma ids_tail : forall n t, (length t <= n)%nat -> ids_in 0 false t = flat_map part_id (tl (pieces t)).
Proof.
  induction n as [|n IH]; intros t L.
  - destruct t; [reflexivity|cbn [length] in L; lia].
  - destruct (cut t) as (r & rest & -> & F & H). destruct rest as [|c t'].
    + rewrite app_nil_r. rewrite ids_none, pieces_sepfree by auto. reflexivity.
    + rewrite ids_after, pieces_app by auto. cbn [tl]. rewrite app_length in L. cbn [length] in L.
      unfold after. destruct (cut t') as (r' & rest' & -> & F' & H').
      rewrite first_part by auto. rewrite IH by lia. destruct rest' as [|c' t''].
      * rewrite app_nil_r. rewrite pieces_sepfree by auto. reflexivity.
      * rewrite pieces_app by auto. reflexivity.
Qed.

Lemma ids_all : forall t, t <> [] -> ids_in 0 true t = flat_map part_id (pieces t).
Proof.
  intros t Nt. destruct (cut t) as (r & rest & -> & F & H). destruct (r ++ rest) as [|a s] eqn:Es; [congruence|].
  cbn [ids_in]. unfold match_here. rewrite <- Es at 1. pose proof (first_part r rest F H) as FP.
  destruct (entry (skip_space (r ++ rest))) as [[x q]|] eqn:E.
  - cbn [orelse]. destruct (entry_rest _ _ _ E) as (y & Ey & Ny). destruct (skip_space_suffix (r ++ rest)) as (b & Eb).
    assert (Q : a :: s = (b ++ y) ++ q) by (rewrite <- Es, Eb, Ey, app_assoc; reflexivity).
    assert (Hs : ids_in (length s - length q) false s = ids_in 0 false q).
    { destruct (b ++ y) as [|a' z] eqn:Ez; [apply app_eq_nil in Ez as [_ ->]; congruence|]. injection Q as <- ->.
      replace (length (z ++ q) - length q)%nat with (length z) by (rewrite app_length; lia). apply ids_skip. }
    rewrite Hs, FP. rewrite (ids_tail (length (r ++ rest)) (r ++ rest)) by lia. rewrite Es.
    destruct rest as [|c t'].
    + rewrite app_nil_r in Es. rewrite <- Es. rewrite pieces_sepfree by auto. reflexivity.
    + rewrite <- Es. rewrite pieces_app by auto. reflexivity.
  - cbn [orelse]. assert (N : part_id r = []).
    { rewrite entry_in_part in E by auto. unfold part_id. destruct (entry (skip_space r)) as [[? ?]|]; [discriminate|reflexivity]. }
    transitivity (ids_in 0 false (a :: s)).
    { cbn [ids_in]. unfold match_here. cbn [orelse]. reflexivity. }
    rewrite (ids_tail (length (a :: s)) (a :: s)) by lia. rewrite <- Es. destruct rest as [|c t'].
    + rewrite app_nil_r. rewrite pieces_sepfree by auto. cbn [tl flat_map]. rewrite N. reflexivity.
    + rewrite pieces_app by auto. cbn [tl flat_map]. rewrite N. reflexivity.
Qed.

(* ---- the parts of a text ---- *)
Lemma nonsep : forall e, Forall (fun c => ~ separator c) e <-> sepfree e.
Proof.
  intros e. unfold sepfree. rewrite !Forall_forall. split; intros H x Hx; specialize (H x Hx).
  - destruct (is_sep x) eqn:E; [|reflexivity]. apply is_sep_spec in E. contradiction.
  - intros S. apply is_sep_spec in S. congruence.
Qed.

Lemma pieces_end : forall a c t, is_sep c = true -> exists l, pieces (a ++ c :: t) = l ++ pieces t.
Proof.
  intros a c t Hc. induction a as [|x a (l & E)].
  - exists [[]]. cbn [app pieces]. rewrite Hc. reflexivity.
  - cbn [app pieces]. rewrite E. destruct (is_sep x); [exists ([] :: l); reflexivity|].
    destruct l as [|p l]; [|exists ((x :: p) :: l); reflexivity]. cbn [app].
    destruct (pieces (a ++ c :: t)) as [|p ps] eqn:Ep.
    { destruct (pieces t) eqn:Et; [|discriminate]. destruct t as [|y t]; [discriminate|].
      cbn [pieces] in Et. destruct (is_sep y); [discriminate|]. destruct (pieces t); discriminate. }
    (* the list of pieces is longer than that of the end *)
    exfalso. assert (Len : forall s u, (length (pieces (s ++ c :: u)) > length (pieces u))%nat).
    { intros s u. induction s as [|y s IHs]; cbn [app pieces]; [rewrite Hc; cbn [length]; lia|].
      destruct (is_sep y); [cbn [length]; lia|]. destruct (pieces (s ++ c :: u)); cbn [length] in *; lia. }
    specialize (Len a t). rewrite Ep, E in Len. cbn [app] in Len. lia.
Qed.

Lemma pieces_part : forall t e, In e (pieces t) <-> part_of t e.
Proof.
  intros t e. split.
  - assert (G : forall n t, (length t <= n)%nat -> In e (pieces t) -> part_of t e).
    { induction n as [|n IH]; intros u L H.
      - destruct u; [|cbn [length] in L; lia]. destruct H as [<-|[]]. exists [], []. repeat split; auto.
      - destruct (cut u) as (r & rest & -> & F & Hs). destruct rest as [|c u'].
        + rewrite app_nil_r in *. rewrite pieces_sepfree in H by auto. destruct H as [<-|[]].
          exists [], []. rewrite app_nil_r. repeat split; auto. apply nonsep. exact F.
        + rewrite pieces_app in H by auto. cbn [head_sep] in Hs. destruct H as [<-|H].
          * exists [], (c :: u'). repeat split; auto; [apply nonsep; exact F|]. right. exists c, u'. split; auto. apply is_sep_spec. exact Hs.
          * rewrite app_length in L. cbn [length] in L. destruct (IH u' ltac:(lia) H) as (a & b & -> & Fe & A & B).
            exists (r ++ c :: a), b. split; [rewrite <- app_assoc; reflexivity|]. split; auto. split; auto. right.
            destruct A as [->|(a' & c' & -> & Sc)].
            -- exists r, c. split; [reflexivity|]. apply is_sep_spec. exact Hs.
            -- exists (r ++ c :: a'), c'. split; [rewrite <- app_assoc; reflexivity|]. exact Sc. }
    apply (G (length t)). lia.
  - intros (a & b & -> & Fe & A & B). apply nonsep in Fe.
    assert (P : In e (pieces (e ++ b))).
    { destruct B as [->|(c & b' & -> & Sc)].
      - rewrite app_nil_r, pieces_sepfree by auto. left. reflexivity.
      - rewrite pieces_app; [left; reflexivity|auto|]. apply is_sep_spec. exact Sc. }
    destruct A as [->|(a' & c & -> & Sc)]; [exact P|]. rewrite <- app_assoc. cbn [app].
    destruct (pieces_end a' c (e ++ b)) as (l & ->); [apply is_sep_spec; exact Sc|]. apply in_or_app. auto.
Qed.

Lemma lists_id_spec : forall t n, t <> [] -> (lists_id t n <-> exists x, In x (ids_in 0 true t) /\ id_text_of x n).
Proof.
  intros t n Nt. rewrite ids_all by exact Nt. unfold lists_id. split.
  - intros (e & P & B). apply part_id_spec in B as (x & Hx & Ix). exists x. split; auto.
    apply in_flat_map. exists e. split; auto. apply pieces_part. exact P.
  - intros (x & Hx & Ix). apply in_flat_map in Hx as (e & He & Hx). exists e. split; [apply pieces_part; exact He|].
    apply part_id_spec. exists x. auto.
Qed.

Lemma ids_are_texts : forall t x, t <> [] -> In x (ids_in 0 true t) -> exists n, id_text_of x n.
Proof.
  intros t x Nt Hx. rewrite ids_all in Hx by exact Nt. apply in_flat_map in Hx as (e & _ & Hx). unfold part_id in Hx.
  destruct (entry (skip_space e)) as [[y r]|] eqn:E; [|destruct Hx]. destruct Hx as [->|[]].
  destruct (entry_some _ _ _ E) as (pre & _ & q & _ & Ep). apply pair_text_some in Ep as (sp & sd & _ & -> & Ap & Np & Ad & Nd & _).
  destruct (digits_denote sp Ap Np) as (p & Dp). destruct (digits_denote sd Ad Nd) as (d & Dd).
  exists (mkCN p d), sp, sd. auto.
Qed.
