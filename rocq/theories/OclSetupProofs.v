(* Lemmas about OclSetup.v. *)
From Coq Require Import Ascii String ZArith Bool List Lia.
From Verif Require Import Num Tac NodeId OclContext OclContextProofs OclTrack OclTrackSpec OclTrackProofs OclSetup OclSetupSpec.
Import ListNotations.
Local Open Scope Z_scope.

Lemma modz_snoc : forall A (f : A -> A) l x, modz f (zlen l) (l ++ [x]) = l ++ [f x].
Proof.
  intros A f l x. unfold modz. pose proof (zlen_nonneg _ l). rewrite (proj2 (Z.ltb_ge _ _)) by lia.
  unfold zlen. rewrite Nat2Z.id. clear. induction l as [|y l IH]; cbn [length app mod_nth]; [easy|]. now rewrite IH.
Qed.
Lemma app_nonempty : forall A (a b : list A), b <> [] -> a ++ b <> [].
Proof. intros A a b H E. now apply app_eq_nil in E. Qed.
Lemma nthz_app_at : forall A (l : list A) m j, 0 <= j -> nthz (l ++ m) (zlen l + j) = nthz m j.
Proof.
  intros A l m j J. unfold nthz. pose proof (zlen_nonneg _ l).
  rewrite (proj2 (Z.ltb_ge _ _)) by lia. rewrite (proj2 (Z.ltb_ge j 0)) by lia.
  rewrite nth_error_app2 by (unfold zlen in *; lia). f_equal. unfold zlen in *. lia.
Qed.
Lemma nthz_app_keep : forall A (l m : list A) j x, nthz l j = Some x -> nthz (l ++ m) j = Some x.
Proof. intros A l m j x H. rewrite nthz_app1; [exact H|]. apply nthz_range in H. lia. Qed.

Section Proofs.
Variable T : Type.
Variable N : NumOps T.
Local Notation ctx := (ctx T).
Local Notation tctx := (tctx T).
Local Notation setup := (setup T).
Local Notation kernel := (kernel T).

Lemma sel_none : forall c : ctx, c_sel T c = -1 -> has_node T c = false.
Proof. intros c H. unfold has_node. now rewrite H. Qed.

Lemma add_code_eff : forall e src opts (c : ctx), has_node T c = false -> src <> [] ->
  add_code T e src opts c = (with_progs T (c_progs T c ++ [mkProg [] src opts [] [] false]) c, zlen (c_progs T c)).
Proof.
  intros e src opts c H S. unfold add_code. rewrite (proj2 (is_empty_false src) S), H. reflexivity.
Qed.
Lemma add_file_eff : forall e path src opts (c : ctx), has_node T c = false -> e_file e path = Some src -> src <> [] ->
  path <> [] -> opts <> [] ->
  add_file T e path opts false c = (with_progs T (c_progs T c ++ [mkProg path src opts [] [] false]) c, zlen (c_progs T c)).
Proof.
  intros e path src opts c H F S P O. unfold add_file. rewrite (proj2 (is_empty_false path) P), (proj2 (is_empty_false path) P), F.
  rewrite (proj2 (is_empty_false src) S), (proj2 (is_empty_false opts) O). rewrite add_code_eff by assumption.
  cbn [with_progs c_progs]. unfold with_progs. cbn [c_nodes c_sel c_progs c_cl c_kers c_rprog c_rker c_flags c_dir c_opts c_debug].
  rewrite modz_snoc. reflexivity.
Qed.

Definition file_text (e : env) (dir : chars) (f : string) : chars :=
  match e_file e (dir ++ lit f) with Some s => s | None => [] end.
Lemma provides_text : forall e dir f n a, provides e dir f n a ->
  e_file e (dir ++ lit f) = Some (file_text e dir f) /\ file_text e dir f <> [] /\
  i_nargs (e_info e (file_text e dir f) (e_prefix e ++ lit n)) = a.
Proof. intros e dir f n a (s & S1 & S2 & S3). unfold file_text. rewrite S1. auto. Qed.

Definition track_f (opt dbg : bool) := file_of opt dbg KUntil.
(* the six programs added *)
Definition prog_at (e : env) (dir : chars) (f : string) (opts : chars) : program :=
  mkProg (dir ++ lit f) (file_text e dir f) opts [] [] false.
Definition six (e : env) (c : ctx) : list program :=
  let d := c_debug T c in
  [prog_at e (c_dir T c) (file_of false d KUntil) (track_options T false e c);
   prog_at e (c_dir T c) (file_of true d KUntil) (track_options T true e c);
   prog_at e (c_dir T c) (file_of false d KAsgMon) (other_options T e c);
   prog_at e (c_dir T c) (file_of false d KAsgElem) (other_options T e c);
   prog_at e (c_dir T c) (file_of false d KFetch) (other_options T e c);
   prog_at e (c_dir T c) addr_file (other_options T e c)].
Definition place (opt : bool) (k : role) : Z :=
  match k with KUntil | KElem | KLine => if opt then 1 else 0 | KAsgMon | KClrMon => 2 | KAsgElem => 3 | KFetch => 4 end.

Lemma opts_nonempty : forall opt e c, track_options T opt e c <> [] /\ other_options T e c <> [].
Proof.
  intros opt e c. unfold track_options, other_options. split; repeat apply app_nonempty; unfold memory_options; discriminate.
Qed.

Lemma lit_app : forall a b, lit (a ++ b) = lit a ++ lit b.
Proof. intros a b. unfold lit. induction a as [|x a IH]; cbn; [easy|]. f_equal. apply IH. Qed.

Lemma init_track_progs_eff : forall e (s : setup), let c := s_ctx T s in Installed e (c_dir T c) -> c_sel T c = -1 -> zlen (c_progs T c) <= 10 ->
  let b := zlen (c_progs T c) in
  exists f, (forall k, f k = b + place (s_opt T s) k) /\
  init_track_progs T e s =
    (mkS T (t_with T (with_progs T (c_progs T c ++ six e c) c) (s_t T s)) (s_opt T s) f (b + 5) (s_aker T s), true).
Proof.
  intros e s c I S L b. unfold init_track_progs. cbv zeta. fold c.
  assert (forall c' : ctx, c_sel T c' = c_sel T c -> has_node T c' = false) as Hn by (intros c' E; apply sel_none; congruence).
  pose proof (opts_nonempty true e c) as [O1 O2]. pose proof (opts_nonempty false e c) as [O3 _].
  pose proof (zlen_nonneg _ (c_progs T c)) as B0.
  assert (forall f x, c_dir T c ++ lit (String x f) <> []) as NE by (intros; apply app_nonempty; discriminate).
  set (d := c_debug T c).
  assert (lit "track_particles" ++ ending d = lit (file_of false d KUntil)) as -> by (destruct d; reflexivity).
  assert (lit "track_particles_optimized_priv_particles" ++ ending d = lit (file_of true d KUntil)) as -> by (destruct d; reflexivity).
  assert (lit "be_monitors_assign_out_buffer" ++ ending d = lit (file_of false d KAsgMon)) as -> by (destruct d; reflexivity).
  assert (lit "elem_by_elem_assign_out_buffer" ++ ending d = lit (file_of false d KAsgElem)) as -> by (destruct d; reflexivity).
  change (lit "fetch_particles_addr.cl") with (lit (file_of false d KFetch)).
  change (lit "assign_address_item.cl") with (lit addr_file).
  pose proof (provides_text _ _ _ _ _ (in_kernels _ _ I false d KUntil)) as (P1 & Q1 & _).
  pose proof (provides_text _ _ _ _ _ (in_kernels _ _ I true d KUntil)) as (P2 & Q2 & _).
  pose proof (provides_text _ _ _ _ _ (in_kernels _ _ I false d KAsgMon)) as (P3 & Q3 & _).
  pose proof (provides_text _ _ _ _ _ (in_kernels _ _ I false d KAsgElem)) as (P4 & Q4 & _).
  pose proof (provides_text _ _ _ _ _ (in_kernels _ _ I false d KFetch)) as (P5 & Q5 & _).
  pose proof (provides_text _ _ _ _ _ (in_addr _ _ I)) as (P6 & Q6 & _).
  rewrite (add_file_eff e _ _ _ c (Hn c eq_refl) P1 Q1) by first [assumption|destruct d; apply NE].
  rewrite (add_file_eff e _ _ _ (with_progs T _ c) (Hn _ eq_refl) P2 Q2) by first [assumption|destruct d; apply NE].
  rewrite (add_file_eff e _ _ _ (with_progs T _ (with_progs T _ c)) (Hn _ eq_refl) P3 Q3) by first [assumption|destruct d; apply NE].
  rewrite (add_file_eff e _ _ _ (with_progs T _ (with_progs T _ (with_progs T _ c))) (Hn _ eq_refl) P4 Q4) by first [assumption|destruct d; apply NE].
  rewrite (add_file_eff e _ _ _ (with_progs T _ (with_progs T _ (with_progs T _ (with_progs T _ c)))) (Hn _ eq_refl) P5 Q5) by first [assumption|destruct d; apply NE].
  rewrite (add_file_eff e _ _ _ (with_progs T _ (with_progs T _ (with_progs T _ (with_progs T _ (with_progs T _ c))))) (Hn _ eq_refl) P6 Q6) by first [assumption|apply NE].
  unfold with_progs. cbn [c_nodes c_sel c_progs c_cl c_kers c_rprog c_rker c_flags c_dir c_opts c_debug].
  rewrite <- !app_assoc. cbn [app]. rewrite !zlen_app. 
  repeat match goal with |- context [zlen (A := program) (cons ?x ?l)] => 
    let v := eval cbv in (Z.of_nat (length (cons x l))) in change (zlen (cons x l)) with v end.
  assert (forall j, 0 <= j <= 5 -> (b + j =? ILLEGAL) = false) as NI
    by (intros j J; apply Z.eqb_neq; unfold ILLEGAL; lia).
  rewrite (proj2 (Z.eqb_neq (zlen (c_progs T c)) ILLEGAL)) by (unfold ILLEGAL; lia). fold b.
  rewrite !NI by lia. cbn [negb andb].
  eexists. split; [|reflexivity]. intros k. cbv beta. destruct k, (s_opt T s); cbn [place]; lia.
Qed.

(* ---- contexts without a node ---- *)
Record Pre (e : env) (nodes : Z) (dir : chars) (opt dbg : bool) (s : setup) : Prop := mkPre {
  pre_sel : c_sel T (s_ctx T s) = -1; pre_nodes : c_nodes T (s_ctx T s) = nodes; pre_dir : c_dir T (s_ctx T s) = dir;
  pre_dbg : c_debug T (s_ctx T s) = dbg; pre_opt : s_opt T s = opt;
  pre_opts : Forall (fun p => p_options p <> []) (c_progs T (s_ctx T s));
  pre_remap : exists p, nthz (c_progs T (s_ctx T s)) (c_rprog T (s_ctx T s)) = Some p /\
     p_source p = file_text e dir (remap_file_of dbg);
  pre_prog : forall k, exists p, nthz (c_progs T (s_ctx T s)) (s_prog T s k) = Some p /\ p_source p = file_text e dir (file_of opt dbg k);
  pre_addr : exists p, nthz (c_progs T (s_ctx T s)) (s_aprog T s) = Some p /\ p_source p = file_text e dir addr_file;
  pre_aid : s_aprog T s < ILLEGAL }.

Lemma six_opts : forall e c, Forall (fun p => p_options p <> []) (six e c).
Proof.
  intros e c. pose proof (opts_nonempty true e c) as [O1 O2]. pose proof (opts_nonempty false e c) as [O3 _].
  unfold six. cbv zeta. repeat constructor; assumption.
Qed.
Lemma place_file : forall e c opt k, exists p, nthz (six e c) (place opt k) = Some p /\
  p_source p = file_text e (c_dir T c) (file_of opt (c_debug T c) k).
Proof. intros e c opt k. unfold six. cbv zeta. destruct k, opt, (c_debug T c); eexists; split; reflexivity. Qed.

(* the tracking programs added to a context which has the program for remapping *)
Lemma track_progs_pre : forall e (s : setup), let c := s_ctx T s in Installed e (c_dir T c) -> c_sel T c = -1 -> zlen (c_progs T c) <= 10 ->
  Forall (fun p => p_options p <> []) (c_progs T c) ->
  (exists p, nthz (c_progs T c) (c_rprog T c) = Some p /\ p_source p = file_text e (c_dir T c) (remap_file_of (c_debug T c))) ->
  let r := init_track_progs T e s in
  snd r = true /\ Pre e (c_nodes T c) (c_dir T c) (s_opt T s) (c_debug T c) (fst r) /\
  zlen (c_progs T (s_ctx T (fst r))) = zlen (c_progs T c) + 6 /\ s_t T (fst r) = t_with T (s_ctx T (fst r)) (s_t T s) /\
  c_flags T (s_ctx T (fst r)) = c_flags T c.
Proof.
  intros e s c I S L F R. cbv zeta. destruct (init_track_progs_eff e s I S L) as (f & Hf & ->). fold c in Hf |- *. cbn [fst snd].
  split; [easy|]. split; [|split; [|split; [reflexivity|reflexivity]]].
  - split; unfold s_ctx; cbn [s_t t_ctx t_with with_progs c_sel c_nodes c_dir c_debug s_opt c_progs c_rprog]; try easy.
    + apply Forall_app. split; [exact F|apply six_opts].
    + destruct R as (p & P1 & P2). exists p. split; [|exact P2]. now apply nthz_app_keep.
    + intros k. destruct (place_file e c (s_opt T s) k) as (p & P1 & P2). exists p. split; [|exact P2].
      cbn [s_prog]. rewrite Hf, nthz_app_at; [exact P1|]. destruct k, (s_opt T s); cbn; lia.
    + exists (prog_at e (c_dir T c) addr_file (other_options T e c)). split; [|reflexivity]. cbn [s_aprog]. rewrite nthz_app_at by lia. reflexivity.
    + cbn [s_aprog]. unfold ILLEGAL. lia.
  - unfold s_ctx. cbn [s_t t_ctx t_with with_progs c_progs]. rewrite zlen_app. reflexivity.
Qed.

Lemma default_nonempty : forall e c, default_options T e c <> [].
Proof. intros e c. unfold default_options. do 7 apply app_nonempty. discriminate. Qed.
Lemma remap_file_lit : forall c, remap_file T c = c_dir T c ++ lit (remap_file_of (c_debug T c)).
Proof. intros c. unfold remap_file. now destruct (c_debug T c). Qed.

Lemma init_progs_eff : forall e (c : ctx), Installed e (c_dir T c) -> c_sel T c = -1 ->
  init_progs T e c =
  (with_remap T (zlen (c_progs T c)) (c_rker T c) (with_progs T (c_progs T c ++ [prog_at e (c_dir T c) (remap_file_of (c_debug T c)) (default_options T e c)]) c), true).
Proof.
  intros e c I S. unfold init_progs. rewrite remap_file_lit.
  destruct (provides_text _ _ _ _ _ (in_remap _ _ I (c_debug T c))) as (P & Q & _).
  rewrite (add_file_eff e _ _ _ c (sel_none c S) P Q); [reflexivity| |apply default_nonempty].
  apply app_nonempty. destruct (c_debug T c); discriminate.
Qed.

Lemma all_progs_pre : forall e (s : setup), let c := s_ctx T s in Installed e (c_dir T c) -> c_sel T c = -1 -> zlen (c_progs T c) <= 9 ->
  Forall (fun p => p_options p <> []) (c_progs T c) ->
  let r := init_all_progs T e s in
  Pre e (c_nodes T c) (c_dir T c) (s_opt T s) (c_debug T c) (fst r) /\
  zlen (c_progs T (s_ctx T (fst r))) = zlen (c_progs T c) + 7.
Proof.
  intros e s c I S L F. cbv zeta. unfold init_all_progs. rewrite init_progs_eff by assumption. fold c.
  set (p := prog_at e (c_dir T c) (remap_file_of (c_debug T c)) (default_options T e c)).
  set (c1 := with_remap T (zlen (c_progs T c)) (c_rker T c) (with_progs T (c_progs T c ++ [p]) c)).
  set (s1 := s_with T c1 s).
  assert (zlen (c_progs T (s_ctx T s1)) = zlen (c_progs T c) + 1) as L1
    by (unfold s1, s_ctx, c1; cbn [s_with s_t t_with t_ctx with_remap with_progs c_progs]; rewrite zlen_app; reflexivity).
  destruct (track_progs_pre e s1) as (_ & P & Z1 & _).
  - exact I.
  - exact S.
  - rewrite L1. lia.
  - unfold s1, s_ctx, c1. cbn [s_with s_t t_with t_ctx with_remap with_progs c_progs]. apply Forall_app. split; [exact F|].
    constructor; [|constructor]. unfold p, prog_at. cbn [p_options]. apply default_nonempty.
  - exists p. split; [|reflexivity]. unfold s1, s_ctx, c1. cbn [s_with s_t t_with t_ctx with_remap with_progs c_progs c_rprog].
    rewrite <- (Z.add_0_r (zlen (c_progs T c))). rewrite nthz_app_at by lia. reflexivity.
  - split; [exact P|]. rewrite Z1, L1. lia.
Qed.

Lemma clear_pre : forall e (s : setup), let c := s_ctx T s in Installed e (c_dir T c) ->
  Pre e (c_nodes T c) (c_dir T c) (s_opt T s) (c_debug T c) (s_clear T e s) /\ zlen (c_progs T (s_ctx T (s_clear T e s))) = 7.
Proof.
  intros e s c I. unfold s_clear. fold c. 
  pose proof (all_progs_pre e (s_with T (do_clear T c) s) I eq_refl) as H. cbv zeta in H.
  specialize (H ltac:(cbn; lia) ltac:(constructor)). exact H.
Qed.
Lemma no_kers : forall e (s : setup), c_sel T (s_ctx T s) = -1 -> fst (init_all_kers T N e s) = s.
Proof.
  intros e s S. unfold init_all_kers, init_kers. rewrite sel_none by exact S. cbn [andb fst].
  destruct s as [[c a b d f] o p q r]. reflexivity.
Qed.
Lemma again_pre : forall e n dir opt dbg s, Installed e dir -> Pre e n dir opt dbg s -> zlen (c_progs T (s_ctx T s)) = 7 ->
  Pre e n dir opt dbg (fst (init_all_progs T e s)).
Proof.
  intros e n dir opt dbg s I P L. pose proof (all_progs_pre e s) as H. cbv zeta in H.
  rewrite (pre_dir _ _ _ _ _ _ P), (pre_nodes _ _ _ _ _ _ P), (pre_dbg _ _ _ _ _ _ P), (pre_opt _ _ _ _ _ _ P) in H.
  apply H; [exact I|apply P|lia|apply P].
Qed.

Lemma clear_pre' : forall e n dir opt dbg s, Installed e dir -> c_dir T (s_ctx T s) = dir -> c_nodes T (s_ctx T s) = n ->
  s_opt T s = opt -> c_debug T (s_ctx T s) = dbg ->
  Pre e n dir opt dbg (s_clear T e s) /\ zlen (c_progs T (s_ctx T (s_clear T e s))) = 7.
Proof. intros e n dir opt dbg s I <- <- <- <-. now apply clear_pre. Qed.

Lemma set_opt_pre : forall e n dir opt dbg b s, Installed e dir -> Pre e n dir opt dbg s -> Pre e n dir b dbg (set_opt T N e b s).
Proof.
  intros e n dir opt dbg b s I P. unfold set_opt. rewrite (sel_none _ (pre_sel _ _ _ _ _ _ P)), (pre_opt _ _ _ _ _ _ P). cbn [negb].
  rewrite andb_true_r. destruct (Bool.eqb opt b) eqn:E; cbn [negb].
  - apply Bool.eqb_prop in E. subst b. exact P.
  - destruct (clear_pre' e n dir opt dbg s I) as (Q & L); try apply P.
    assert (Pre e n dir b dbg (fst (init_all_progs T e (s_with_opt T b (s_clear T e s))))) as R.
    { pose proof (all_progs_pre e (s_with_opt T b (s_clear T e s))) as H. cbv zeta in H.
      change (s_ctx T (s_with_opt T b (s_clear T e s))) with (s_ctx T (s_clear T e s)) in H.
      rewrite (pre_dir _ _ _ _ _ _ Q), (pre_nodes _ _ _ _ _ _ Q), (pre_dbg _ _ _ _ _ _ Q) in H.
      apply H; [exact I|apply Q|lia|apply Q]. }
    rewrite no_kers by apply R. exact R.
Qed.
Lemma debug_pre : forall e n dir opt dbg b s, Installed e dir -> Pre e n dir opt dbg s -> Pre e n dir opt b (s_debug T e b s).
Proof.
  intros e n dir opt dbg b s I P. unfold s_debug. rewrite (sel_none _ (pre_sel _ _ _ _ _ _ P)), (pre_dbg _ _ _ _ _ _ P). cbn [negb].
  rewrite andb_true_r. destruct (Bool.eqb dbg b) eqn:E; cbn [negb].
  - apply Bool.eqb_prop in E. subst b. exact P.
  - destruct (clear_pre' e n dir opt b (s_with T (with_debug T b (s_ctx T s)) s) I) as (Q & L); try apply P; try reflexivity.
    now apply again_pre.
Qed.
Lemma reinit_pre : forall e n dir opt dbg s, Installed e dir -> Pre e n dir opt dbg s -> Pre e n dir opt dbg (s_reinit T N e s).
Proof.
  intros e n dir opt dbg s I P. unfold s_reinit. rewrite (sel_none _ (pre_sel _ _ _ _ _ _ P)).
  destruct (clear_pre' e n dir opt dbg s I) as (Q & L); try apply P.
  pose proof (again_pre e n dir opt dbg _ I Q L) as R. rewrite no_kers by apply R. exact R.
Qed.
Lemma flag_same : forall f v (c : ctx), exists fl, set_feature_flag T f v c = with_flags T fl c.
Proof.
  intros f v c. unfold set_feature_flag. destruct (is_empty f); [exists (c_flags T c); now destruct c|].
  destruct (find_flag f (c_flags T c)); [exists (c_flags T c); now destruct c|]. eexists. reflexivity.
Qed.
Lemma flag_pre : forall e n dir opt dbg f v s, Pre e n dir opt dbg s ->
  Pre e n dir opt dbg (s_with T (set_feature_flag T f v (s_ctx T s)) s).
Proof.
  intros e n dir opt dbg f v s P. destruct (flag_same f v (s_ctx T s)) as (fl & ->). destruct P. split; assumption.
Qed.
Lemma progs_pre : forall e n dir opt dbg ps s, Pre e n dir opt dbg s -> Forall (fun p => p_options p <> []) ps ->
  Pre e n dir opt dbg (s_with T (with_progs T (c_progs T (s_ctx T s) ++ ps) (s_ctx T s)) s).
Proof.
  intros e n dir opt dbg ps s P F. destruct P as [P1 P2 P3 P4 P5 P6 P7 P8 P9 P10].
  split; try assumption; unfold s_ctx; cbn [s_with s_t t_with t_ctx with_progs c_progs c_rprog s_prog s_aprog].
  - apply Forall_app. now split.
  - destruct P7 as (p & A & B). exists p. split; [now apply nthz_app_keep|easy].
  - intros k. destruct (P8 k) as (p & A & B). exists p. split; [now apply nthz_app_keep|easy].
  - destruct P9 as (p & A & B). exists p. split; [now apply nthz_app_keep|easy].
Qed.
Lemma with_self : forall s : setup, s_with T (s_ctx T s) s = s.
Proof. intros [[c a b d f] o p q r]. reflexivity. Qed.

Lemma pstep_pre : forall e n dir opt dbg o s, Installed e dir -> pop_ok o -> Pre e n dir opt dbg s ->
  Pre e n dir (fst (chosen [o] opt dbg)) (snd (chosen [o] opt dbg)) (pstep T N e s o).
Proof.
  intros e n dir opt dbg o s I K P. unfold chosen. cbn [fold_left]. pose proof (sel_none _ (pre_sel _ _ _ _ _ _ P)) as H.
  destruct o as [b|b|v|f v|src opts|path opts rel| |]; cbn [fst snd pstep pop_ok] in *.
  - eapply set_opt_pre; eassumption.
  - eapply debug_pre; eassumption.
  - unfold s_bb. rewrite H. apply reinit_pre; [exact I|].
    pose proof (flag_pre _ _ _ _ _ BB6 v _ (flag_pre _ _ _ _ _ BB4 v _ P)) as R. exact R.
  - now apply flag_pre.
  - unfold add_code. rewrite H. destruct (is_empty src); cbn [fst]; [rewrite with_self; exact P|].
    apply progs_pre; [exact P|]. constructor; [exact K|constructor].
  - unfold add_file. destruct (is_empty path); cbn [is_empty fst]; [rewrite with_self; exact P|].
    set (full := if rel then _ else _). destruct (is_empty full); cbn [fst]; [rewrite with_self; exact P|].
    destruct (e_file e full) as [src|]; cbn [fst]; [|rewrite with_self; exact P].
    destruct (is_empty src) eqn:E; cbn [fst]; [rewrite with_self; exact P|]. apply is_empty_false in E.
    rewrite (proj2 (is_empty_false opts) K), add_code_eff by assumption.
    cbn [with_progs c_progs]. unfold with_progs at 1. cbn [c_nodes c_sel c_progs c_cl c_kers c_rprog c_rker c_flags c_dir c_opts c_debug fst].
    rewrite modz_snoc. cbn [p_source p_options p_report p_kernels p_compiled].
    pose proof (progs_pre e n dir opt dbg [mkProg full src opts [] [] false] s P) as R. apply R. constructor; [exact K|constructor].
  - apply clear_pre'; [exact I|apply P..].
  - now apply reinit_pre.
Qed.
Lemma chosen_cons : forall o h opt dbg, chosen (o :: h) opt dbg = chosen h (fst (chosen [o] opt dbg)) (snd (chosen [o] opt dbg)).
Proof. intros o h opt dbg. unfold chosen. cbn [fold_left]. now destruct o. Qed.
Lemma psteps_pre : forall e n dir h opt dbg s, Installed e dir -> Forall pop_ok h -> Pre e n dir opt dbg s ->
  Pre e n dir (fst (chosen h opt dbg)) (snd (chosen h opt dbg)) (psteps T N e h s).
Proof.
  intros e n dir h. induction h as [|o h IH]; intros opt dbg s I F P; [exact P|].
  inversion F as [|? ? F1 F2]; subst. rewrite chosen_cons. unfold psteps. cbn [fold_left]. apply IH; [exact I|exact F2|].
  now apply pstep_pre.
Qed.

(* the constructor *)
Lemma feats_same : forall fs (c : ctx), exists fl, set_feats T fs c = with_flags T fl c.
Proof.
  induction fs as [|f fs IH]; intros c; [exists (c_flags T c); now destruct c|]. unfold set_feats. cbn [fold_left].
  destruct (flag_same (fst f) (snd f) c) as (fl & ->). destruct (IH (with_flags T fl c)) as (fl2 & E). exists fl2. exact E.
Qed.
Lemma init_flags_same : forall c, exists fl, init_flags T c = with_flags T fl c.
Proof.
  intros c. unfold init_flags. destruct (flag_same (lit "_GPUCODE") (lit "1") c) as (f1 & ->).
  destruct (flag_same (lit "SIXTRL_BUFFER_ARGPTR_DEC") (lit "__private") (with_flags T f1 c)) as (f2 & ->).
  destruct (flag_same (lit "SIXTRL_BUFFER_DATAPTR_DEC") (lit "__global") (with_flags T f2 (with_flags T f1 c))) as (f3 & ->).
  exists f3. reflexivity.
Qed.
Lemma new_pre : forall e n dir opts junk fs opt, Installed e dir ->
  let s := s_with_opt T opt (blank T e n dir opts junk) in
  Pre e n dir opt false (fst (init_track_progs T e (s_with T (set_feats T fs (s_ctx T s)) s))).
Proof.
  intros e n dir opts junk fs opt I s.
  destruct (feats_same fs (s_ctx T s)) as (fl & E). rewrite E.
  set (s1 := s_with T (with_flags T fl (s_ctx T s)) s).
  destruct (init_flags_same (mkCtx T n (-1) [] [] [] ILLEGAL ILLEGAL [] dir opts false)) as (fl0 & E0).
  set (c0 := with_flags T fl0 (mkCtx T n (-1) [] [] [] ILLEGAL ILLEGAL [] dir opts false)) in *.
  assert (s_ctx T s = with_remap T 0 ILLEGAL (with_progs T [prog_at e dir (remap_file_of false) (default_options T e c0)] c0)) as Es.
  { unfold s, s_ctx. cbn [s_with_opt blank s_t t_ctx]. unfold new_ctx. rewrite E0, init_progs_eff; [reflexivity|exact I|reflexivity]. }
  assert (c_progs T (s_ctx T s1) = [prog_at e dir (remap_file_of false) (default_options T e c0)]) as E1
    by (unfold s1, s_ctx at 1; cbn [s_with s_t t_with t_ctx with_flags c_progs]; now rewrite Es).
  assert (c_nodes T (s_ctx T s1) = n /\ c_dir T (s_ctx T s1) = dir /\ c_sel T (s_ctx T s1) = -1 /\ c_debug T (s_ctx T s1) = false /\
    c_rprog T (s_ctx T s1) = 0) as (A1 & A2 & A3 & A4 & A5).
  { unfold s1, s_ctx at 1 3 5 7 9. cbn [s_with s_t t_with t_ctx with_flags c_nodes c_dir c_sel c_debug c_rprog]. rewrite Es. easy. }
  pose proof (track_progs_pre e s1) as H. cbv zeta in H. rewrite A1, A2, A3, A4, A5, E1 in H.
  destruct H as (_ & H & _); [exact I|easy|cbn; lia| |eexists; split; reflexivity|exact H].
  constructor; [|constructor]. unfold prog_at. cbn [p_options]. apply default_nonempty.
Qed.

(* ---- selecting a node ---- *)
Lemma build_all_ok : forall e (c : ctx) ps, (forall node src opts, fst (fst (e_build e node src opts)) = BuildSuccess) -> has_node T c = true ->
  Forall (fun p => p_options p <> []) ps -> snd (build_all T e c ps) = true.
Proof.
  intros e c ps B H F. induction F as [|p ps P F IH]; [easy|]. cbn [build_all]. unfold do_compile. rewrite H.
  cbn [p_compiled p_kernels p_options negb andb]. rewrite (proj2 (is_empty_false _) P). cbn [negb andb].
  specialize (B (c_sel T c) (p_source p) (p_options p)). destruct (e_build e _ _ _) as [[st ret] log]. cbn [fst] in B. subst st.
  destruct (build_all T e c ps) as [ps' ok]. exact IH.
Qed.

(* contexts with a node, all programs built, and these kernels *)
Record Sel (c : ctx) (srcs : list chars) (ks : list kernel) : Prop := mkSel {
  se_node : has_node T c = true; se_src : map p_source (c_progs T c) = srcs; se_cl : c_cl T c = srcs;
  se_built : Forall (fun p => p_compiled p = true) (c_progs T c); se_kers : c_kers T c = ks }.
Definition same (c c' : ctx) : Prop :=
  c_nodes T c' = c_nodes T c /\ c_sel T c' = c_sel T c /\ c_rprog T c' = c_rprog T c /\ c_rker T c' = c_rker T c /\
  c_dir T c' = c_dir T c /\ c_debug T c' = c_debug T c.

Lemma nthz_map : forall A B (f : A -> B) l i, nthz (map f l) i = option_map f (nthz l i).
Proof. intros A B f l i. unfold nthz. destruct (i <? 0); [easy|]. apply nth_error_map. Qed.
Lemma map_modz_same : forall A B (g : A -> B) f i l, (forall x, g (f x) = g x) -> map g (modz f i l) = map g l.
Proof.
  intros A B g f i l H. unfold modz. destruct (i <? 0); [easy|]. generalize (Z.to_nat i). induction l as [|x l IH]; intros [|n]; cbn; try easy.
  - now rewrite H.
  - now rewrite IH.
Qed.
Lemma Forall_modz : forall A (P : A -> Prop) f i l, (forall x, P x -> P (f x)) -> Forall P l -> Forall P (modz f i l).
Proof.
  intros A P f i l H F. unfold modz. destruct (i <? 0); [easy|]. generalize (Z.to_nat i). induction F as [|x l X F IH]; intros [|n]; cbn; constructor; auto.
Qed.

Lemma enable_new : forall e name id src (c : ctx) srcs ks, Sel c srcs ks -> name <> [] -> nthz srcs id = Some src ->
  Forall (fun k => k_name T k <> name) ks ->
  exists c', enable T N e name id c = (c', zlen ks) /\ Sel c' srcs (ks ++ [new_kernel T N name id (e_info e src name)]) /\ same c c' /\
    zlen (c_progs T c') = zlen (c_progs T c).
Proof.
  intros e name id src c srcs ks [S1 S2 S3 S4 S5] NE P F. unfold enable. rewrite S1, (proj2 (is_empty_false _) NE), S3.
  pose proof P as R. apply nthz_range in R. cbn [negb andb]. rewrite (proj2 (Z.ltb_lt _ _)) by apply R.
  assert (exists p, nthz (c_progs T c) id = Some p) as (p & Pp).
  { rewrite <- S2, nthz_map in P. destruct (nthz (c_progs T c) id); [eauto|easy]. }
  assert (p_compiled p = true) as Cp.
  { rewrite Forall_forall in S4. apply S4. unfold nthz in Pp. destruct (id <? 0); [easy|]. eapply nth_error_In; eassumption. }
  unfold prog_compiled. rewrite Pp, Cp. cbn [orb]. rewrite S3, P.
  assert (name_taken T (p_kernels p) name c = false) as NT.
  { unfold name_taken. apply not_true_is_false. intros X. apply existsb_exists in X. destruct X as (j & _ & X).
    destruct (nthz (c_kers T c) j) as [k|] eqn:K; [|easy]. apply andb_true_iff in X. destruct X as [_ X]. apply chars_eqb_eq in X.
    rewrite S5 in K. rewrite Forall_forall in F. apply (F k); [|exact X]. unfold nthz in K. destruct (j <? 0); [easy|]. eapply nth_error_In; eassumption. }
  cbv zeta iota. rewrite Pp, NT. cbn [negb andb]. rewrite S5. eexists. split; [reflexivity|]. split; [|split; [repeat split; reflexivity|]].
  - split; cbn [with_progs with_kers c_progs c_cl c_kers].
    + exact S1.
    + rewrite map_modz_same; [exact S2|easy].
    + exact S3.
    + apply Forall_modz; [easy|exact S4].
    + reflexivity.
  - cbn [with_progs with_kers c_progs]. now rewrite zlen_modz.
Qed.

Lemma do_select_ok : forall e n dir opt dbg i s, Installed e dir -> Pre e n dir opt dbg s -> 0 <= i < n ->
  let srcs := map p_source (c_progs T (s_ctx T s)) in
  exists c, do_select T e i (s_ctx T s) = (c, true) /\ Sel c srcs [] /\ c_nodes T c = n /\ c_sel T c = i /\
    c_rprog T c = c_rprog T (s_ctx T s) /\ c_debug T c = dbg /\ zlen (c_progs T c) = zlen srcs.
Proof.
  intros e n dir opt dbg i s I P L srcs. unfold do_select.
  rewrite (sel_none _ (pre_sel _ _ _ _ _ _ P)), (pre_nodes _ _ _ _ _ _ P), (in_flag _ _ I), (proj2 (Z.ltb_lt i n)) by lia.
  cbn [negb andb]. cbv zeta. change (c_progs T (with_sel T i (with_kers T [] (s_ctx T s)))) with (c_progs T (s_ctx T s)).
  set (c0 := with_sel T i (with_kers T [] (s_ctx T s))).
  assert (has_node T c0 = true) as H0.
  { unfold has_node, c0. cbn [with_sel with_kers c_sel c_nodes]. rewrite (pre_nodes _ _ _ _ _ _ P).
    apply andb_true_iff. split; [apply Z.leb_le|apply Z.ltb_lt]; lia. }
  pose proof (build_all_ok e c0 (c_progs T (s_ctx T s)) (in_build _ _ I) H0 (pre_opts _ _ _ _ _ _ P)) as B0.
  pose proof (build_all_props T e c0 (c_progs T (s_ctx T s))) as (B1 & B2 & _ & B4).
  destruct (build_all T e c0 (c_progs T (s_ctx T s))) as [ps ok]. cbn [fst snd] in *. subst ok.
  eexists. split; [reflexivity|]. split; [|cbn [with_progs with_cl with_sel with_kers c_nodes c_sel c_rprog c_debug c_progs]; repeat split].
  - split; cbn [with_progs with_cl c_progs c_cl c_kers]; [exact H0|exact B2|reflexivity|now apply B4|reflexivity].
  - apply P.
  - apply P.
  - rewrite B1. unfold srcs, zlen. now rewrite map_length.
Qed.

Lemma prefix_ne : forall (a b c : chars), b <> c -> a ++ b <> a ++ c.
Proof. intros a b c H E. apply H. now apply app_inv_head in E. Qed.
Lemma remap_name_lit : forall e c, remap_name T e c = e_prefix e ++ lit (remap_name_of (c_debug T c)).
Proof. intros e c. unfold remap_name. now destruct (c_debug T c). Qed.
Lemma kernel_name_lit : forall e opt dbg k, kernel_name e opt dbg k = e_prefix e ++ lit (name_of opt dbg k).
Proof. intros e [] [] []; reflexivity. Qed.

Definition the_remap (e : env) (dbg : bool) (id : Z) (src : chars) : kernel :=
  new_kernel T N (e_prefix e ++ lit (remap_name_of dbg)) id (e_info e src (e_prefix e ++ lit (remap_name_of dbg))).
Lemma init_kers_ok : forall e (c : ctx) srcs src, Sel c srcs [] -> nthz srcs (c_rprog T c) = Some src ->
  exists c', init_kers T N e c = (c', true) /\ Sel c' srcs [the_remap e (c_debug T c) (c_rprog T c) src] /\ c_rker T c' = 0 /\
    c_rprog T c' = c_rprog T c /\ c_nodes T c' = c_nodes T c /\ c_sel T c' = c_sel T c /\ c_debug T c' = c_debug T c /\
    zlen (c_progs T c') = zlen (c_progs T c).
Proof.
  intros e c srcs src S P. unfold init_kers. rewrite (se_node _ _ _ S). cbn [andb].
  assert (zlen (c_progs T c) = zlen srcs) as L by (rewrite <- (se_src _ _ _ S); unfold zlen; now rewrite map_length).
  pose proof P as R. apply nthz_range in R. unfold num_progs. rewrite L, (proj2 (Z.ltb_lt _ _)) by apply R.
  rewrite remap_name_lit.
  destruct (enable_new e (e_prefix e ++ lit (remap_name_of (c_debug T c))) (c_rprog T c) src c srcs [] S) as (c' & E & S' & W & L').
  - apply app_nonempty. now destruct (c_debug T c).
  - exact P.
  - constructor.
  - rewrite E. cbn [app] in S'. unfold set_remap. rewrite (se_node _ _ _ S'), (se_kers _ _ _ S'). change (zlen (@nil kernel)) with 0.
    cbn [nthz]. unfold nthz. cbn [Z.ltb Z.compare Z.to_nat nth_error new_kernel k_prog].
    unfold num_progs. rewrite L', L, (proj2 (Z.ltb_lt _ _)) by apply R. destruct W as (W1 & W2 & W3 & W4 & W5 & W6).
    eexists. split; [reflexivity|]. split; [|cbn [with_remap c_rker c_rprog c_nodes c_sel c_debug c_progs]; repeat split; first [assumption|reflexivity|congruence]].
    destruct S'. split; assumption.
Qed.

Definition stay (s s' : setup) : Prop :=
  s_opt T s' = s_opt T s /\ s_prog T s' = s_prog T s /\ s_aprog T s' = s_aprog T s /\ same (s_ctx T s) (s_ctx T s') /\
  zlen (c_progs T (s_ctx T s')) = zlen (c_progs T (s_ctx T s)).
Lemma stay_refl : forall s, stay s s.
Proof. intros s. unfold stay, same. repeat split. Qed.
Lemma stay_trans : forall a b c, stay a b -> stay b c -> stay a c.
Proof.
  unfold stay, same. intros a b c (A1 & A2 & A3 & (A4 & A5 & A6 & A7 & A8 & A9) & A10) (B1 & B2 & B3 & (B4 & B5 & B6 & B7 & B8 & B9) & B10).
  repeat split; congruence.
Qed.

Definition the_kernel (e : env) (opt dbg : bool) (src : role -> chars) (prog : role -> Z) (k : role) : kernel :=
  new_kernel T N (e_prefix e ++ lit (name_of opt dbg k)) (prog k) (e_info e (src k) (e_prefix e ++ lit (name_of opt dbg k))).

Lemma names_differ : forall opt dbg k k', k <> k' -> lit (name_of opt dbg k) <> lit (name_of opt dbg k').
Proof. intros [] [] [] [] H; try (exfalso; apply H; reflexivity); vm_compute; discriminate. Qed.
Lemma remap_differs : forall opt dbg k, lit (remap_name_of dbg) <> lit (name_of opt dbg k) /\ lit (remap_name_of dbg) <> lit addr_name_of /\
  lit (name_of opt dbg k) <> lit addr_name_of.
Proof. intros [] [] []; repeat split; vm_compute; discriminate. Qed.

Lemma init_kernel_ok : forall e k (s : setup) srcs ks src, Sel (s_ctx T s) srcs ks -> nthz srcs (s_prog T s k) = Some src ->
  Forall (fun r => k_name T r <> e_prefix e ++ lit (name_of (s_opt T s) (c_debug T (s_ctx T s)) k)) ks ->
  exists s', init_kernel T N e k s = (s', true) /\ stay s s' /\
    Sel (s_ctx T s') srcs (ks ++ [new_kernel T N (e_prefix e ++ lit (name_of (s_opt T s) (c_debug T (s_ctx T s)) k)) (s_prog T s k)
           (e_info e src (e_prefix e ++ lit (name_of (s_opt T s) (c_debug T (s_ctx T s)) k)))]) /\
    (forall k', t_id T (s_t T s') k' = if role_eqb k' k then zlen ks else t_id T (s_t T s) k').
Proof.
  intros e k s srcs ks src S P F. unfold init_kernel. rewrite kernel_name_lit.
  set (nm := e_prefix e ++ lit (name_of (s_opt T s) (c_debug T (s_ctx T s)) k)) in *.
  destruct (enable_new e nm (s_prog T s k) src (s_ctx T s) srcs ks S) as (c' & E & S' & W & L').
  - apply app_nonempty. destruct (s_opt T s), (c_debug T (s_ctx T s)), k; discriminate.
  - exact P.
  - exact F.
  - rewrite E. unfold set_kid. cbn [t_with t_ctx]. rewrite (se_node _ _ _ S').
    assert ((zlen ks <? num_kers T c') = true) as H1.
    { unfold num_kers. rewrite (se_kers _ _ _ S'), zlen_app. apply Z.ltb_lt. change (zlen [_]) with 1. lia. }
    assert ((ker_prog T (zlen ks) c' <? num_progs T c') = true) as H2.
    { unfold ker_prog, ker. rewrite (se_node _ _ _ S'), (se_kers _ _ _ S'). rewrite <- (Z.add_0_r (zlen ks)), nthz_app_at by lia.
      unfold nthz. cbn [Z.ltb Z.compare Z.to_nat nth_error new_kernel k_prog]. unfold num_progs. apply nthz_range in P.
      assert (zlen (c_progs T c') = zlen srcs) as -> by (rewrite <- (se_src _ _ _ S'); unfold zlen; now rewrite map_length).
      apply Z.ltb_lt. apply P. }
    rewrite H1, H2. cbn [andb]. rewrite Z.eqb_refl. eexists. split; [reflexivity|]. split; [|split].
    + unfold stay. repeat split; try reflexivity; try apply W. exact L'.
    + exact S'.
    + intros k'. reflexivity.
Qed.

Lemma init_each_ok : forall e opt dbg src prog l (s : setup) srcs ks, s_opt T s = opt -> c_debug T (s_ctx T s) = dbg -> s_prog T s = prog ->
  NoDup l -> Sel (s_ctx T s) srcs ks -> (forall k, nthz srcs (prog k) = Some (src k)) ->
  (forall k, In k l -> Forall (fun r => k_name T r <> e_prefix e ++ lit (name_of opt dbg k)) ks) ->
  exists s', init_each T N e l s = (s', true) /\ stay s s' /\ Sel (s_ctx T s') srcs (ks ++ map (the_kernel e opt dbg src prog) l) /\
    (forall j k, nthz l j = Some k -> t_id T (s_t T s') k = zlen ks + j) /\ (forall k, ~ In k l -> t_id T (s_t T s') k = t_id T (s_t T s) k).
Proof.
  intros e opt dbg src prog l. induction l as [|k l IH]; intros s srcs ks E1 E2 E3 ND S P F; cbn [init_each map].
  - exists s. split; [easy|]. split; [apply stay_refl|]. rewrite app_nil_r. split; [exact S|]. split; [|easy].
    intros j k' K. now rewrite nthz_nil in K.
  - assert (num_progs T (s_ctx T s) = zlen srcs) as L by (unfold num_progs; rewrite <- (se_src _ _ _ S); unfold zlen; now rewrite map_length).
    rewrite L, E3. pose proof (nthz_range _ _ _ _ (P k)) as R. rewrite (proj2 (Z.ltb_lt _ _)) by apply R.
    inversion ND as [|? ? N1 N2]; subst opt dbg prog x l0.
    destruct (init_kernel_ok e k s srcs ks (src k) S (P k)) as (s1 & X1 & X2 & X3 & X4).
    { apply F. now left. }
    rewrite X1. assert (c_debug T (s_ctx T s1) = c_debug T (s_ctx T s)) as Xd by apply X2.
    destruct (fun A => IH s1 srcs _ (proj1 X2) Xd (proj1 (proj2 X2)) N2 X3 P A) as (s2 & Y1 & Y2 & Y3 & Y4 & Y5).
    { intros k' K'. apply Forall_app. split; [apply F; now right|]. constructor; [|constructor]. cbn [new_kernel k_name].
      apply prefix_ne. apply names_differ. intros ->. now apply N1. }
    exists s2. split; [exact Y1|]. split; [eapply stay_trans; eassumption|]. split; [rewrite <- app_assoc in Y3; exact Y3|]. split.
    + intros j k' K'. unfold nthz in K'. destruct (Z.ltb_spec j 0) as [J|J]; [easy|]. destruct (Z.to_nat j) as [|m] eqn:Em.
      * injection K' as <-. rewrite Y5 by exact N1. rewrite X4, role_eqb_refl. lia.
      * cbn [nth_error] in K'. rewrite (Y4 (j - 1)); [rewrite zlen_app; change (zlen [_]) with 1; lia|].
        unfold nthz. rewrite (proj2 (Z.ltb_ge _ _)) by lia. replace (Z.to_nat (j - 1)) with m by lia. exact K'.
    + intros k' K'. cbn [In] in K'. rewrite Y5 by tauto. rewrite X4. destruct (role_eqb k' k) eqn:Ek; [|easy].
      apply role_eqb_eq in Ek. subst k'. tauto.
Qed.

Definition roles : list role := [KUntil; KElem; KLine; KAsgMon; KClrMon; KAsgElem; KFetch].
Definition the_addr (e : env) (id : Z) (src : chars) : kernel :=
  new_kernel T N (e_prefix e ++ lit addr_name_of) id (e_info e src (e_prefix e ++ lit addr_name_of)).
Definition rank (k : role) : Z :=
  match k with KUntil => 1 | KElem => 2 | KLine => 3 | KAsgMon => 4 | KClrMon => 5 | KAsgElem => 6 | KFetch => 7 end.

Lemma track_kers_ok : forall e opt dbg src prog asrc (s : setup) srcs rk, s_opt T s = opt -> c_debug T (s_ctx T s) = dbg -> s_prog T s = prog ->
  Sel (s_ctx T s) srcs [rk] -> k_name T rk = e_prefix e ++ lit (remap_name_of dbg) -> (forall k, nthz srcs (prog k) = Some (src k)) ->
  nthz srcs (s_aprog T s) = Some asrc -> s_aprog T s < ILLEGAL ->
  exists s', init_track_kers T N e s = (s', true) /\ stay s s' /\ s_aker T s' = 8 /\
    Sel (s_ctx T s') srcs (rk :: map (the_kernel e opt dbg src prog) roles ++ [the_addr e (s_aprog T s) asrc]) /\
    (forall k, t_id T (s_t T s') k = rank k).
Proof.
  intros e opt dbg src prog asrc s srcs rk E1 E2 E3 S NR P PA LS. unfold init_track_kers. rewrite (se_node _ _ _ S), E3.
  assert (num_progs T (s_ctx T s) = zlen srcs) as L by (unfold num_progs; rewrite <- (se_src _ _ _ S); unfold zlen; now rewrite map_length).
  pose proof (nthz_range _ _ _ _ (P KUntil)) as R. rewrite L, (proj2 (Z.ltb_lt _ _)) by apply R. cbn [andb].
  destruct (init_each_ok e opt dbg src prog roles s srcs [rk] E1 E2 E3) as (s1 & X1 & X2 & X3 & X4 & _).
  - unfold roles. repeat (constructor; [cbn; intuition discriminate|]). constructor.
  - exact S.
  - exact P.
  - intros k _. constructor; [|constructor]. rewrite NR. apply prefix_ne. apply (remap_differs opt).
  - fold roles. rewrite X1. unfold init_addr.
    destruct X2 as (T1 & T2 & T3 & T4 & T5).
    pose proof (nthz_range _ _ _ _ PA) as RA.
    assert (num_progs T (s_ctx T s1) = zlen srcs) as L1 by (unfold num_progs; rewrite <- (se_src _ _ _ X3); unfold zlen; now rewrite map_length).
    rewrite T3, L1, (proj2 (Z.ltb_lt _ _)) by apply RA. rewrite (proj2 (Z.eqb_neq (s_aprog T s) ILLEGAL)) by lia. cbn [negb andb].
    change (addr_name e) with (e_prefix e ++ lit addr_name_of).
    destruct (enable_new e (e_prefix e ++ lit addr_name_of) (s_aprog T s) asrc (s_ctx T s1) srcs _ X3) as (c' & E & S' & W & L').
    + apply app_nonempty. discriminate.
    + exact PA.
    + apply Forall_app. split.
      * constructor; [|constructor]. rewrite NR. apply prefix_ne. apply (remap_differs opt dbg KUntil).
      * apply Forall_forall. intros r Hr. apply in_map_iff in Hr. destruct Hr as (k & <- & _). cbn [the_kernel new_kernel k_name].
        apply prefix_ne. apply remap_differs.
    + fold (the_addr e (s_aprog T s) asrc) in S'. rewrite E. change (zlen ([rk] ++ map (the_kernel e opt dbg src prog) roles)) with 8. change (8 =? ILLEGAL) with false. cbv iota.
      rewrite (se_node _ _ _ S'). unfold num_kers, ker_prog, ker. rewrite (se_node _ _ _ S'), (se_kers _ _ _ S').
      change (zlen (([rk] ++ map (the_kernel e opt dbg src prog) roles) ++ [the_addr e (s_aprog T s) asrc])) with 9.
      change (nthz (([rk] ++ map (the_kernel e opt dbg src prog) roles) ++ [the_addr e (s_aprog T s) asrc]) 8) with (Some (the_addr e (s_aprog T s) asrc)).
      change (8 <? 9) with true. cbn [the_addr new_kernel k_prog andb].
      unfold num_progs in *. rewrite L', L1, (proj2 (Z.ltb_lt _ _)) by apply RA.
      eexists. split; [reflexivity|]. split; [|split; [reflexivity|split]].
      * unfold stay. split; [exact T1|]. split; [exact T2|]. split; [reflexivity|]. split; [|etransitivity; [exact L'|exact T5]].
        destruct T4 as (A1 & A2 & A3 & A4 & A5 & A6). destruct W as (B1 & B2 & B3 & B4 & B5 & B6). unfold same, s_ctx in *.
        cbn [s_with s_t t_with t_ctx]. repeat split; congruence.
      * exact S'.
      * intros k. change (t_id T (s_t T s1) k = rank k). rewrite (X4 (rank k - 1) k); [change (zlen [rk]) with 1; lia|]. now destruct k.
Qed.

(* what does not change when arguments are assigned *)
Definition shape (t : tctx) :=
  (t_id T t, c_progs T (t_ctx T t), map (fun r => (k_name T r, k_prog T r, k_nargs T r, zlen (k_bound T r))) (c_kers T (t_ctx T t)),
   (c_nodes T (t_ctx T t), c_sel T (t_ctx T t), c_debug T (t_ctx T t), c_rker T (t_ctx T t))).
Lemma assign_arg_shape : forall id i a (t : tctx) c, assign_arg T id i a (t_ctx T t) = Some c -> shape (t_with T c t) = shape t.
Proof.
  intros id i a t c H. unfold assign_arg in H. destruct (id <? num_kers T (t_ctx T t)); [|easy]. injection H as <-.
  unfold shape. cbn [t_with t_ctx t_id upd_ker with_kers c_progs c_kers c_nodes c_sel c_debug c_rker]. rewrite map_modz_same; [reflexivity|].
  intros r. unfold cl_set_arg, k_with_args, set_kernel_arg.
  destruct (i <? zlen (k_ptrs T r)); cbn [k_name k_prog k_nargs k_bound]; now rewrite zlen_modz.
Qed.
Lemma set_arg_shape : forall id i a t, shape (set_arg T id i a t) = shape t.
Proof.
  intros id i a t. unfold set_arg. destruct (assign_arg T id i a (t_ctx T t)) as [c|] eqn:E; [|easy]. eapply assign_arg_shape; exact E.
Qed.
Lemma assign_each_shape : forall l a t, shape (fst (assign_each T l a t)) = shape t.
Proof.
  induction l as [|[k i] l IH]; intros a t; cbn [assign_each]; [easy|]. destruct (kid T k t =? ILLEGAL); [apply IH|]. cbv zeta.
  destruct (_ || _).
  - specialize (IH a t). destruct (assign_each T l a t) as [t' st]. exact IH.
  - rewrite IH. apply set_arg_shape.
Qed.
Lemma shape_nargs : forall t t' id, shape t' = shape t -> ker_nargs T id (t_ctx T t') = ker_nargs T id (t_ctx T t).
Proof.
  intros t t' id H. unfold shape in H. injection H as E1 E2 E3 E4 E5 E6 E7. unfold ker_nargs, ker_get, ker, has_node. rewrite E4, E5.
  destruct (_ && _); [|easy]. pose proof (f_equal (fun l => nthz l id) E3) as X. cbv beta in X. rewrite !nthz_map in X.
  destruct (nthz (c_kers T (t_ctx T t')) id), (nthz (c_kers T (t_ctx T t)) id); cbn [option_map] in X; try easy. injection X as _ _ X _. exact X.
Qed.
Lemma shape_made : forall e dir f n id t t', shape t' = shape t -> Made e dir f n id (t_ctx T t) -> Made e dir f n id (t_ctx T t').
Proof.
  intros e dir f n id t t' H (r & R & A & B & C). unfold shape in H. injection H as E1 E2 E3 E4 E5 E6 E7.
  pose proof (f_equal (fun l => nthz l id) E3) as X. cbv beta in X. rewrite !nthz_map, R in X.
  destruct (nthz (c_kers T (t_ctx T t')) id) as [r'|] eqn:R'; cbn [option_map] in X; [|easy]. injection X as X1 X2 X3 _.
  exists r'. split; [exact R'|]. unfold prog_source, prog_compiled in *. rewrite E2, X1, X2. auto.
Qed.
Lemma shape_args : forall id n t t', shape t' = shape t ->
  (exists r, nthz (c_kers T (t_ctx T t)) id = Some r /\ k_nargs T r = n /\ zlen (k_bound T r) = n) ->
  exists r, nthz (c_kers T (t_ctx T t')) id = Some r /\ k_nargs T r = n /\ zlen (k_bound T r) = n.
Proof.
  intros id n t t' H (r & R & A & B). unfold shape in H. injection H as E1 E2 E3 E4 E5 E6 E7.
  pose proof (f_equal (fun l => nthz l id) E3) as X. cbv beta in X. rewrite !nthz_map, R in X.
  destruct (nthz (c_kers T (t_ctx T t')) id) as [r'|] eqn:R'; cbn [option_map] in X; [|easy]. injection X as X1 X2 X3 X4.
  exists r'. rewrite X3, X4. auto.
Qed.

(* assigning to positions which the kernels have *)
Lemma set_arg_wide : forall k i a t, Kernels t -> 0 <= i < ker_nargs T (t_id T t k) (t_ctx T t) ->
  keep T t (set_arg T (t_id T t k) i a t) /\
  forall k' j, bnd T k' j (set_arg T (t_id T t k) i a t) =
    if role_eqb k' k && (j =? i) then Some (arg_bound a) else bnd T k' j t.
Proof.
  intros k i a t K I. unfold set_arg, assign_arg. rewrite in_range by exact K. split.
  - apply upd_keep; [exact K|]. intros r. unfold cl_set_arg, k_with_args, set_kernel_arg.
    destruct (i <? zlen (k_ptrs T r)); cbn; now rewrite zlen_modz.
  - intros k' j. unfold bnd, ker_bound. cbn [t_with t_ctx t_id]. unfold upd_ker, with_kers. cbn [c_kers]. rewrite nthz_modz.
    destruct (kn_ids t K k') as (r & R & A & B & _). rewrite R.
    destruct (t_id T t k' =? t_id T t k) eqn:E.
    + apply Z.eqb_eq in E. apply (kn_inj t K) in E. subst k'. rewrite role_eqb_refl. cbn [andb].
      assert (k_bound T (cl_set_arg T i (arg_bound a) (set_kernel_arg T (arg_type a) i (arg_ptr a) r)) =
              modz (fun _ => arg_bound a) i (k_bound T r)) as E
        by (unfold cl_set_arg, k_with_args, set_kernel_arg; destruct (i <? zlen (k_ptrs T r)); reflexivity).
      cbn [option_map]. rewrite E, nthz_modz. destruct (j =? i) eqn:J; [|easy]. apply Z.eqb_eq in J. subst j.
      unfold ker_nargs, ker_get, ker in I. rewrite (kn_node t K), R in I.
      destruct (proj2 (nthz_some _ (k_bound T r) i)) as (y & Y); [rewrite B; lia|]. now rewrite Y.
    + destruct (role_eqb k' k) eqn:E2; [|easy]. apply role_eqb_eq in E2. subst k'. rewrite Z.eqb_refl in E. easy.
Qed.
Lemma assign_each_wide : forall l a t, Kernels t ->
  Forall (fun x => 0 <= snd x < ker_nargs T (t_id T t (fst x)) (t_ctx T t)) l ->
  keep T t (fst (assign_each T l a t)) /\ snd (assign_each T l a t) = 0 /\
  forall k j, bnd T k j (fst (assign_each T l a t)) =
    if existsb (fun x => role_eqb k (fst x) && (j =? snd x)) l then Some (arg_bound a) else bnd T k j t.
Proof.
  induction l as [|[k i] l IH]; intros a t K F; cbn [assign_each existsb].
  - cbn [fst snd]. split; [now apply keep_refl|easy].
  - inversion F as [|? ? F1 F2]; subst. cbn [fst snd] in F1. rewrite (kid_ok T k t K), (kid_legal T k t K).
    pose proof (nargs_ok T k t K) as A. pose proof (min_arity k) as M.
    assert ((ker_nargs T (t_id T t k) (t_ctx T t) <=? i) = false) as E1 by (apply Z.leb_gt; lia).
    assert ((ker_nargs T (t_id T t k) (t_ctx T t) <? min_args k) = false) as E2 by (apply Z.ltb_ge; lia).
    cbv zeta. rewrite E1, E2. cbn [orb].
    destruct (set_arg_wide k i a t K F1) as (S1 & S2).
    pose proof (set_arg_shape (t_id T t k) i a t) as SS.
    destruct (IH a (set_arg T (t_id T t k) i a t) (proj1 S1)) as (I1 & I2 & I3).
    { eapply Forall_impl; [|exact F2]. intros x X. cbv beta in *. rewrite (shape_nargs _ _ _ SS).
      destruct S1 as (_ & _ & _ & _ & -> & _). exact X. }
    split; [eapply keep_trans; eassumption|]. split; [exact I2|]. intros k' j. rewrite I3, S2. cbn [fst snd].
    destruct (role_eqb k' k && (j =? i)); cbn [orb]; [now destruct (existsb _ l)|easy].
Qed.

Ltac ranges := repeat (apply Forall_cons; [cbn [fst snd arity]; lia|]); apply Forall_nil.

(* kernels not used for tracking keep their arguments *)
Lemma assign_each_other : forall id j l a t, (forall k, t_id T t k <> id) ->
  ker_bound T id j (t_ctx T (fst (assign_each T l a t))) = ker_bound T id j (t_ctx T t).
Proof.
  intros id j l. induction l as [|[k i] l IH]; intros a t H; cbn [assign_each]; [easy|].
  destruct (kid T k t =? ILLEGAL) eqn:E; [now apply IH|]. cbv zeta. destruct (_ || _).
  - specialize (IH a t H). destruct (assign_each T l a t) as [t' st]. exact IH.
  - assert (kid T k t = t_id T t k) as Ek by (unfold kid in *; destruct (has_kernel T _ t); [easy|now rewrite Z.eqb_refl in E]).
    rewrite Ek. rewrite IH.
    + unfold set_arg, assign_arg. destruct (_ <? _); [|easy]. unfold ker_bound, upd_ker, with_kers. cbn [t_with t_ctx c_kers].
      rewrite nthz_modz. rewrite (proj2 (Z.eqb_neq id (t_id T t k))); [easy|]. intros X. now apply (H k).
    + intros k'. pose proof (set_arg_shape (t_id T t k) i a t) as X. unfold shape in X. injection X as -> _ _ _ _ _ _. apply H.
Qed.

Record Full (e : env) (dir : chars) (opt dbg : bool) (t : tctx) : Prop := mkFull {
  fu_kernels : Kernels t; fu_library : Library e dir opt dbg t;
  fu_nargs : forall k, ker_nargs T (t_id T t k) (t_ctx T t) = params dbg k;
  fu_remap : Made e dir (remap_file_of dbg) (remap_name_of dbg) 0 (t_ctx T t);
  fu_rker : c_rker T (t_ctx T t) = 0; fu_rargs : ker_nargs T 0 (t_ctx T t) = (if dbg then 3 else 2);
  fu_addr : Made e dir addr_file addr_name_of 8 (t_ctx T t);
  fu_aargs : exists r, nthz (c_kers T (t_ctx T t)) 8 = Some r /\ k_nargs T r = 8 /\ zlen (k_bound T r) = 8;
  fu_debug : c_debug T (t_ctx T t) = dbg; fu_ids : forall k, t_id T t k = rank k }.

Lemma sel_made : forall e dir f n a id (c : ctx) srcs ks r, Sel c srcs ks -> provides e dir f n a -> nthz ks id = Some r ->
  k_name T r = e_prefix e ++ lit n -> nthz srcs (k_prog T r) = Some (file_text e dir f) -> Made e dir f n id c.
Proof.
  intros e dir f n a id c srcs ks r S P R E X. exists r. rewrite (se_kers _ _ _ S). split; [exact R|]. split; [exact E|].
  destruct (provides_text _ _ _ _ _ P) as (P1 & _). rewrite P1. rewrite <- (se_src _ _ _ S), nthz_map in X.
  unfold prog_source, prog_compiled. destruct (nthz (c_progs T c) (k_prog T r)) as [p|] eqn:Ep; [|easy]. cbn [option_map] in *.
  split; [exact X|]. pose proof (se_built _ _ _ S) as B. rewrite Forall_forall in B. apply B. eapply nthz_in; exact Ep.
Qed.

Lemma select_kers_ok : forall e n dir opt dbg i s, Installed e dir -> Pre e n dir opt dbg s -> 0 <= i < n ->
  exists c c1 s', do_select T e i (s_ctx T s) = (c, true) /\ init_kers T N e c = (c1, true) /\
    init_track_kers T N e (s_with T c1 s) = (s', true) /\ Full e dir opt dbg (s_t T s') /\ s_aker T s' = 8 /\ s_opt T s' = opt /\
    (forall j, 0 <= j < (if dbg then 3 else 2) -> exists b, ker_bound T 0 j (s_ctx T s') = Some b).
Proof.
  intros e n dir opt dbg i s I P L. destruct (do_select_ok e n dir opt dbg i s I P L) as (c & D & S & D1 & D2 & D3 & D4 & D5).
  set (srcs := map p_source (c_progs T (s_ctx T s))) in *.
  assert (nthz srcs (c_rprog T c) = Some (file_text e dir (remap_file_of dbg))) as PR.
  { rewrite D3. unfold srcs. rewrite nthz_map. destruct (pre_remap _ _ _ _ _ _ P) as (p & -> & <-). reflexivity. }
  assert (forall k, nthz srcs (s_prog T s k) = Some (file_text e dir (file_of opt dbg k))) as PK.
  { intros k. unfold srcs. rewrite nthz_map. destruct (pre_prog _ _ _ _ _ _ P k) as (p & -> & <-). reflexivity. }
  assert (nthz srcs (s_aprog T s) = Some (file_text e dir addr_file)) as PA.
  { unfold srcs. rewrite nthz_map. destruct (pre_addr _ _ _ _ _ _ P) as (p & -> & <-). reflexivity. }
  destruct (init_kers_ok e c srcs _ S PR) as (c1 & K & S1 & K1 & K2 & K3 & K4 & K5 & K6). rewrite D4 in S1, K5.
  destruct (track_kers_ok e opt dbg (fun k => file_text e dir (file_of opt dbg k)) (s_prog T s) (file_text e dir addr_file)
              (s_with T c1 s) srcs _ (pre_opt _ _ _ _ _ _ P) K5 eq_refl S1 eq_refl PK PA (pre_aid _ _ _ _ _ _ P))
    as (s' & X & (Y1 & Y2 & Y3 & (Y4 & Y5 & Y6 & Y7 & Y8 & Y9) & Y10) & A & S' & Id).
  exists c, c1, s'. split; [exact D|]. split; [exact K|]. split; [exact X|]. split; [|split; [exact A|split; [rewrite Y1; apply P|]]].
  2:{ intros j J. unfold ker_bound. rewrite (se_kers _ _ _ S'). cbn [nthz]. unfold nthz at 1. cbn [Z.ltb Z.compare Z.to_nat nth_error].
      cbn [the_remap new_kernel k_bound]. apply nthz_some. unfold zlen. rewrite repeat_length.
      pose proof (provides_text _ _ _ _ _ (in_remap _ _ I dbg)) as (_ & _ & Q). rewrite Q. destruct dbg; lia. }
  set (t := s_t T s') in *. change (s_ctx T s') with (t_ctx T t) in *.
  change (s_ctx T (s_with T c1 s)) with c1 in *. change (s_aprog T (s_with T c1 s)) with (s_aprog T s) in *.
  set (ks := the_remap e dbg (c_rprog T c) (file_text e dir (remap_file_of dbg)) ::
    map (the_kernel e opt dbg (fun k => file_text e dir (file_of opt dbg k)) (s_prog T s)) roles ++ [the_addr e (s_aprog T s) (file_text e dir addr_file)]) in *.
  assert (forall k, nthz ks (rank k) = Some (the_kernel e opt dbg (fun k => file_text e dir (file_of opt dbg k)) (s_prog T s) k)) as KK
    by (intros []; reflexivity).
  assert (forall k, i_nargs (e_info e (file_text e dir (file_of opt dbg k)) (e_prefix e ++ lit (name_of opt dbg k))) = params dbg k) as NA
    by (intros k; apply (provides_text _ _ _ _ _ (in_kernels _ _ I opt dbg k))).
  split.
  - split.
    + apply (se_node _ _ _ S').
    + unfold num_kers. rewrite (se_kers _ _ _ S'). change (zlen ks) with 9. unfold ILLEGAL. lia.
    + intros k. rewrite Id, (se_kers _ _ _ S'). eexists. split; [apply KK|]. cbn [the_kernel new_kernel k_nargs k_bound k_last_wgs].
      rewrite NA. split; [unfold params; destruct k, dbg; lia|]. split; [|reflexivity]. unfold zlen. rewrite repeat_length.
      unfold params; destruct k, dbg; cbn; lia.
    + intros k k' E. rewrite !Id in E. now destruct k, k'.
  - intros k. rewrite Id. eapply sel_made; [exact S'|apply (in_kernels _ _ I opt dbg k)|apply KK|reflexivity|apply PK].
  - intros k. rewrite Id. unfold ker_nargs, ker_get, ker. rewrite (se_node _ _ _ S'), (se_kers _ _ _ S'), KK. apply NA.
  - eapply sel_made; [exact S'|apply (in_remap _ _ I dbg)|reflexivity|reflexivity|exact PR].
  - congruence.
  - unfold ker_nargs, ker_get, ker. rewrite (se_node _ _ _ S'), (se_kers _ _ _ S').
    apply (provides_text _ _ _ _ _ (in_remap _ _ I dbg)).
  - eapply sel_made; [exact S'|apply (in_addr _ _ I)|reflexivity|reflexivity|exact PA].
  - rewrite (se_kers _ _ _ S'). eexists. split; [reflexivity|]. cbn [the_addr new_kernel k_nargs k_bound]. unfold zlen. rewrite repeat_length.
    pose proof (provides_text _ _ _ _ _ (in_addr _ _ I)) as (_ & _ & ->). split; reflexivity.
  - congruence.
  - exact Id.
Qed.

(* assigning arguments to the kernels of such a context *)
Lemma shape_full : forall e dir opt dbg t t', Full e dir opt dbg t -> Kernels t' -> shape t' = shape t -> Full e dir opt dbg t'.
Proof.
  intros e dir opt dbg t t' F K E. pose proof E as E'. unfold shape in E'. injection E' as E1 E2 E3 E4 E5 E6 E7.
  split.
  - exact K.
  - intros k. rewrite E1. eapply shape_made; [exact E|apply F].
  - intros k. rewrite E1, (shape_nargs _ _ _ E). apply F.
  - eapply shape_made; [exact E|apply F].
  - rewrite E7. apply F.
  - rewrite (shape_nargs _ _ _ E). apply F.
  - eapply shape_made; [exact E|apply F].
  - eapply shape_args; [exact E|apply F].
  - rewrite E6. apply F.
  - rewrite E1. apply F.
Qed.

Definition slots : list (role * Z) := [(KUntil, 4); (KLine, 6); (KElem, 6); (KAsgMon, 4); (KClrMon, 1); (KAsgElem, 4); (KFetch, 2)].
Definition flagged : list (role * Z) := [(KUntil, 5); (KLine, 7); (KElem, 7); (KAsgMon, 5); (KClrMon, 2); (KAsgElem, 5)].
Definition sbound (t : tctx) : Prop := forall k, bnd T k (Z.of_nat (arity k) - 1) t = Some (BValue 8).
Definition fbound (flags : Z) (t : tctx) : Prop := forall k j, flag_place k = Some j -> bnd T k j t = Some (BBuffer flags).

Lemma slots_ok : forall e dir opt dbg t, Full e dir opt dbg t ->
  Full e dir opt dbg (fst (assign_slots T t)) /\ snd (assign_slots T t) = 0 /\ sbound (fst (assign_slots T t)) /\
  (forall j, ker_bound T 0 j (t_ctx T (fst (assign_slots T t))) = ker_bound T 0 j (t_ctx T t)).
Proof.
  intros e dir opt dbg t F. unfold assign_slots. fold slots.
  destruct (assign_each_ok T slots (AValue 8) t (fu_kernels _ _ _ _ _ F)) as (A1 & A2 & A3); [unfold slots; ranges|].
  split; [eapply shape_full; [exact F|apply A1|apply assign_each_shape]|]. split; [exact A2|]. split.
  - intros k. rewrite A3. now destruct k.
  - intros j. apply assign_each_other. intros k. rewrite (fu_ids _ _ _ _ _ F). clear. destruct k; discriminate.
Qed.
Lemma index_ok : forall e dir opt dbg i t, Full e dir opt dbg t -> sbound t ->
  Full e dir opt dbg (fst (assign_config_index T i t)) /\ sbound (fst (assign_config_index T i t)).
Proof.
  intros e dir opt dbg i t F S. unfold assign_config_index.
  destruct (assign_each_ok T [(KElem, 4); (KAsgElem, 1)] (AValue i) t (fu_kernels _ _ _ _ _ F)) as (A1 & A2 & A3); [ranges|].
  pose proof (assign_each_shape [(KElem, 4); (KAsgElem, 1)] (AValue i) t) as E.
  destruct (assign_each T _ (AValue i) t) as [t1 s1]. cbn [fst snd] in *. subst s1. rewrite Z.eqb_refl. cbn [fst].
  split; [eapply shape_full; [exact F| |exact E]|].
  - apply (same_kernels T t1); [easy|easy|apply A1].
  - intros k. change (bnd T k (Z.of_nat (arity k) - 1) t1 = Some (BValue 8)). rewrite A3. specialize (S k). clear - S. destruct k; exact S.
Qed.
Lemma flags_ok : forall e dir opt dbg flags t, Full e dir opt dbg t -> sbound t ->
  let r := assign_status T flags t in
  Full e dir opt dbg (fst r) /\ snd r = 0 /\ sbound (fst r) /\ (dbg = true -> fbound flags (fst r)) /\
  (forall j, ker_bound T 0 j (t_ctx T (fst r)) = ker_bound T 0 j (t_ctx T t)).
Proof.
  intros e dir opt dbg flags t F S. cbv zeta. unfold assign_status. rewrite (fu_debug _ _ _ _ _ F). destruct dbg; [|easy].
  fold flagged.
  destruct (assign_each_wide flagged (ABuffer flags) t (fu_kernels _ _ _ _ _ F)) as (A1 & A2 & A3).
  { unfold flagged. repeat (apply Forall_cons; [cbn [fst snd]; rewrite (fu_nargs _ _ _ _ _ F); cbn; lia|]); apply Forall_nil. }
  split; [eapply shape_full; [exact F|apply A1|apply assign_each_shape]|]. split; [exact A2|]. split; [|split].
  - intros k. rewrite A3. specialize (S k). clear - S. destruct k; exact S.
  - intros _ k j J. rewrite A3. clear - J. destruct k; cbn [flag_place] in J; try easy; injection J as <-; reflexivity.
  - intros j. apply assign_each_other. intros k. rewrite (fu_ids _ _ _ _ _ F). clear. destruct k; discriminate.
Qed.

Lemma full_setup : forall e dir opt dbg flags s, Full e dir opt dbg (s_t T s) -> s_aker T s = 8 -> sbound (s_t T s) ->
  (dbg = true -> fbound flags (s_t T s)) -> SetUp e dir opt dbg flags s.
Proof.
  intros e dir opt dbg flags s F A S G. split.
  - apply F.
  - apply F.
  - unfold remap_kernel, has_remap. change (s_ctx T s) with (t_ctx T (s_t T s)).
    rewrite (kn_node _ (fu_kernels _ _ _ _ _ F)), (fu_rker _ _ _ _ _ F). destruct (fu_remap _ _ _ _ _ F) as (r & R & X).
    pose proof (nthz_range _ _ _ _ R) as Q. unfold num_kers. rewrite (proj2 (Z.ltb_lt _ _)) by apply Q. cbn [andb]. exists r. auto.
  - rewrite A. apply F.
  - rewrite A. apply F.
  - apply F.
  - exact S.
  - exact G.
Qed.

(* an argument of the kernel for remapping *)
Lemma remap_arg : forall e dir opt dbg i a t, Full e dir opt dbg t -> 0 <= i ->
  exists c, assign_arg T 0 i a (t_ctx T t) = Some c /\ Full e dir opt dbg (t_with T c t) /\
    (forall k j, bnd T k j (t_with T c t) = bnd T k j t) /\
    (forall b, ker_bound T 0 i (t_ctx T t) = Some b -> ker_bound T 0 i c = Some (arg_bound a)) /\
    (forall j, j <> i -> ker_bound T 0 j c = ker_bound T 0 j (t_ctx T t)) /\
    (forall j, (exists b, ker_bound T 0 j (t_ctx T t) = Some b) -> exists b, ker_bound T 0 j c = Some b).
Proof.
  intros e dir opt dbg i a t F I. destruct (fu_remap _ _ _ _ _ F) as (r & R & _). pose proof (nthz_range _ _ _ _ R) as Q.
  destruct (assign_arg T 0 i a (t_ctx T t)) as [c|] eqn:E.
  2:{ unfold assign_arg, num_kers in E. rewrite (proj2 (Z.ltb_lt _ _)) in E by apply Q. easy. }
  exists c. split; [easy|]. pose proof (assign_arg_shape _ _ _ _ _ E) as Sh.
  unfold assign_arg, num_kers in E. rewrite (proj2 (Z.ltb_lt _ _)) in E by apply Q. injection E as <-.
  assert (forall r, k_bound T (cl_set_arg T i (arg_bound a) (set_kernel_arg T (arg_type a) i (arg_ptr a) r)) =
              modz (fun _ => arg_bound a) i (k_bound T r)) as EB
    by (intros r'; unfold cl_set_arg, k_with_args, set_kernel_arg; destruct (i <? zlen (k_ptrs T r')); reflexivity).
  split.
  - eapply shape_full; [exact F| |exact Sh]. apply upd_keep; [apply F|]. intros r'.
    unfold cl_set_arg, k_with_args, set_kernel_arg.
    destruct (i <? zlen (k_ptrs T r')); cbn; now rewrite zlen_modz.
  - split; [|split; [|split]].
    + intros k j. unfold bnd, ker_bound. cbn [t_with t_ctx t_id]. unfold upd_ker, with_kers. cbn [c_kers]. rewrite nthz_modz.
      rewrite (fu_ids _ _ _ _ _ F). clear. destruct k; reflexivity.
    + intros b B. unfold ker_bound, upd_ker, with_kers in *. cbn [c_kers]. rewrite nthz_modz, R in *. cbn [Z.eqb option_map].
      rewrite EB, nthz_modz, Z.eqb_refl, B. reflexivity.
    + intros j J. unfold ker_bound, upd_ker, with_kers in *. cbn [c_kers]. rewrite nthz_modz, R in *. cbn [Z.eqb option_map].
      rewrite EB, nthz_modz. now rewrite (proj2 (Z.eqb_neq j i)).
    + intros j (b & B). unfold ker_bound, upd_ker, with_kers in *. cbn [c_kers]. rewrite nthz_modz, R in *. cbn [Z.eqb option_map].
      rewrite EB, nthz_modz, B. destruct (j =? i); cbn; eauto.
Qed.

(* ---- the calls as a whole ---- *)
Variable amd : Z -> bool.
Lemma t_with_t : forall (t : tctx) (s : setup), s_t T (s_with_t T t s) = t.
Proof. reflexivity. Qed.

Lemma select_index_ok : forall e n dir opt dbg flags i s, Installed e dir -> Pre e n dir opt dbg s -> 0 <= i < n ->
  let r := s_select_index T N amd e flags i s in
  let o := opt && negb (amd i) in
  snd r = true /\ SetUp e dir o dbg flags (fst r) /\ s_opt T (fst r) = o /\
  ker_bound T (remap_kernel T (s_ctx T (fst r))) 1 (s_ctx T (fst r)) = Some (BValue 8) /\
  (dbg = true -> ker_bound T (remap_kernel T (s_ctx T (fst r))) 2 (s_ctx T (fst r)) = Some (BBuffer flags)).
Proof.
  intros e n dir opt dbg flags i s I P L. cbv zeta. set (o := opt && negb (amd i)). unfold s_select_index, s_do_select.
  set (s0 := if s_opt T s && amd i then set_opt T N e false s else s).
  assert (Pre e n dir o dbg s0) as P0.
  { unfold s0, o. rewrite (pre_opt _ _ _ _ _ _ P). destruct opt, (amd i); cbn [andb negb]; try exact P. eapply set_opt_pre; eassumption. }
  destruct (select_kers_ok e n dir o dbg i s0 I P0 L) as (c & c1 & s1 & D & K & X & F & A & O & B). rewrite D.
  unfold init_all_kers. change (s_ctx T (s_with T c s0)) with c. rewrite K.
  change (s_with T c1 (s_with T c s0)) with (s_with T c1 s0). rewrite X.
  unfold s_assign_slots, assign_slot_size. change (s_ctx T s1) with (t_ctx T (s_t T s1)) in *.
  assert (has_remap T (t_ctx T (s_t T s1)) = true) as HR.
  { unfold has_remap. rewrite (kn_node _ (fu_kernels _ _ _ _ _ F)), (fu_rker _ _ _ _ _ F). destruct (fu_remap _ _ _ _ _ F) as (r & R & _).
    apply nthz_range in R. unfold num_kers. now rewrite (proj2 (Z.ltb_lt _ _)) by apply R. }
  rewrite HR, (fu_rker _ _ _ _ _ F), (fu_rargs _ _ _ _ _ F).
  assert ((2 <=? (if dbg then 3 else 2)) = true) as -> by now destruct dbg.
  destruct (remap_arg e dir o dbg 1 (AValue 8) (s_t T s1) F ltac:(lia)) as (c2 & E2 & F2 & G1 & G2 & G3 & G4). rewrite E2.
  set (t2 := t_with T c2 (s_t T s1)) in *. change c2 with (t_ctx T t2) in G2, G3, G4.
  destruct (slots_ok e dir o dbg t2 F2) as (F3 & E3 & S3 & H3). destruct (assign_slots T t2) as [t3 st3]. cbn [fst snd] in *. subst st3.
  rewrite Z.eqb_refl. set (s3 := s_with_t T t3 s1). unfold s_assign_flags, assign_flags. change (s_ctx T s3) with (t_ctx T t3).
  assert (has_remap T (t_ctx T t3) = true) as HR3.
  { unfold has_remap. rewrite (kn_node _ (fu_kernels _ _ _ _ _ F3)), (fu_rker _ _ _ _ _ F3). destruct (fu_remap _ _ _ _ _ F3) as (r & R & _).
    apply nthz_range in R. unfold num_kers. now rewrite (proj2 (Z.ltb_lt _ _)) by apply R. }
  rewrite HR3, (fu_rker _ _ _ _ _ F3), (fu_rargs _ _ _ _ _ F3), (fu_debug _ _ _ _ _ F3).
  assert ((2 <=? (if dbg then 3 else 2)) = true) as -> by now destruct dbg.
  destruct (B 1 ltac:(destruct dbg; lia)) as (b1 & B1).
  assert (ker_bound T 0 1 (t_ctx T t3) = Some (BValue 8)) as V1 by (rewrite H3; eapply G2; exact B1).
  assert (exists c5, (if dbg then if 2 <? (if dbg then 3 else 2) then
             (match assign_arg T 0 ((if dbg then 3 else 2) - 1) (ABuffer flags) (t_ctx T t3) with Some c => c | None => t_ctx T t3 end, true)
             else (t_ctx T t3, false) else (t_ctx T t3, true)) = (c5, true) /\ Full e dir o dbg (t_with T c5 t3) /\ sbound (t_with T c5 t3) /\
             ker_bound T 0 1 c5 = Some (BValue 8) /\ (dbg = true -> ker_bound T 0 2 c5 = Some (BBuffer flags)))
    as (c5 & Q1 & Q2 & Q3 & Q4 & Q5).
  { destruct dbg.
    - change (2 <? 3) with true. change (3 - 1) with 2. cbv iota.
      destruct (remap_arg e dir o true 2 (ABuffer flags) t3 F3 ltac:(lia)) as (c4 & E4 & F4 & W1 & W2 & W3 & _). rewrite E4.
      exists c4. split; [reflexivity|]. split; [exact F4|]. split; [intros k; rewrite W1; apply S3|].
      split; [rewrite W3 by lia; exact V1|]. intros _. destruct (G4 2 (B 2 ltac:(lia))) as (b2 & B2). rewrite <- H3 in B2. eapply W2; exact B2.
    - exists (t_ctx T t3). assert (t_with T (t_ctx T t3) t3 = t3) as -> by (clear; now destruct t3).
      split; [reflexivity|]. split; [exact F3|]. split; [exact S3|]. split; [exact V1|discriminate]. }
  rewrite Q1.
  destruct (flags_ok e dir o dbg flags _ Q2 Q3) as (F6 & E6 & S6 & G6 & H6).
  change (t_with T c5 (s_t T s3)) with (t_with T c5 t3).
  destruct (assign_status T flags (t_with T c5 t3)) as [t6 st6]. cbn [fst snd] in *. subst st6. rewrite Z.eqb_refl.
  split; [reflexivity|]. pose proof (full_setup e dir o dbg flags (s_with_t T t6 s3) F6 A S6 G6) as Fin.
  split; [exact Fin|]. split; [exact O|].
  assert (remap_kernel T (s_ctx T (s_with_t T t6 s3)) = 0) as RK.
  { unfold remap_kernel. change (s_ctx T (s_with_t T t6 s3)) with (t_ctx T t6).
    unfold has_remap. rewrite (kn_node _ (fu_kernels _ _ _ _ _ F6)), (fu_rker _ _ _ _ _ F6). destruct (fu_remap _ _ _ _ _ F6) as (r & R & _).
    apply nthz_range in R. unfold num_kers. now rewrite (proj2 (Z.ltb_lt _ _)) by apply R. }
  rewrite RK. change (s_ctx T (s_with_t T t6 s3)) with (t_ctx T t6). rewrite !H6. split; assumption.
Qed.

Lemma ctor_ok : forall e n dir opt dbg flags i s, Installed e dir -> Pre e n dir opt dbg s -> 0 <= i < n ->
  SetUp e dir opt dbg flags (ctor_select T N e flags i s) /\ s_opt T (ctor_select T N e flags i s) = opt.
Proof.
  intros e n dir opt dbg flags i s I P L. unfold ctor_select.
  destruct (select_kers_ok e n dir opt dbg i s I P L) as (c & c1 & s1 & D & K & X & F & A & O & B). rewrite D. cbv zeta.
  change (s_ctx T (s_with T c s)) with c. rewrite K. cbn [fst].
  change (s_with T c1 (s_with T c s)) with (s_with T c1 s). rewrite X. cbn [fst].
  destruct (slots_ok e dir opt dbg _ F) as (F3 & _ & S3 & _).
  destruct (index_ok e dir opt dbg 0 _ F3 S3) as (F4 & S4).
  destruct (flags_ok e dir opt dbg flags _ F4 S4) as (F5 & _ & S5 & G5 & _).
  split; [|exact O]. now apply full_setup.
Qed.

(* assigning the buffers makes it ready *)
Definition assign_rest (v : view) : list (tctx -> tctx * Z) :=
  [assign_config_index T (v_idx v); assign_particles T true (v_parts v); assign_elements T true (v_elems v);
   assign_output T true (v_out v); assign_config T true (v_conf v); assign_addr T true (v_addr v);
   assign_set T (v_set v) (v_num v)].
Lemma rest_ok : forall v t1, Kernels t1 -> sbound t1 ->
  Ready T (fst (calls T (assign_rest v) t1)) v /\ snd (calls T (assign_rest v) t1) = repeat 0 7.
Proof.
  intros v t1 K1 A3. unfold assign_rest. cbn [calls].
  unfold assign_config_index.
  destruct (assign_each_ok T [(KElem, 4); (KAsgElem, 1)] (AValue (v_idx v)) t1 K1) as (B1 & B2 & B3); [ranges|].
  destruct (assign_each T _ (AValue (v_idx v)) t1) as [t2 s2]. cbn [fst snd] in B1, B2, B3. subst s2. rewrite Z.eqb_refl.
  set (t2' := mkT T (t_ctx T t2) (t_pset T t2) (t_num T t2) (v_idx v) (t_id T t2)).
  assert (Kernels t2') as K2 by (apply (same_kernels T t2); [easy|easy|apply B1]).
  assert (forall k i, bnd T k i t2' = bnd T k i t2) as E2 by (apply same_bound; easy).
  unfold assign_particles.
  destruct (assign_each_ok T [(KUntil, 0); (KLine, 0); (KElem, 0); (KFetch, 0)] (AArgument (v_parts v)) t2' K2) as (C1 & C2 & C3); [ranges|].
  destruct (assign_each T _ (AArgument (v_parts v)) t2') as [t3 s3]. cbn [fst snd] in C1, C2, C3. subst s3.
  unfold assign_elements.
  destruct (assign_each_ok T [(KUntil, 2); (KLine, 2); (KElem, 2); (KAsgMon, 0); (KClrMon, 0)] (AArgument (v_elems v)) t3 (proj1 C1)) as (D1 & D2 & D3); [ranges|].
  destruct (assign_each T _ (AArgument (v_elems v)) t3) as [t4 s4]. cbn [fst snd] in D1, D2, D3. subst s4.
  unfold assign_output.
  destruct (assign_each_ok T [(KAsgMon, 1); (KAsgElem, 2)] (AArgument (v_out v)) t4 (proj1 D1)) as (F1 & F2 & F3); [ranges|].
  destruct (assign_each T _ (AArgument (v_out v)) t4) as [t5 s5]. cbn [fst snd] in F1, F2, F3. subst s5.
  unfold assign_config.
  destruct (assign_each_ok T [(KElem, 3); (KAsgElem, 0)] (AArgument (v_conf v)) t5 (proj1 F1)) as (G1 & G2 & G3); [ranges|].
  destruct (assign_each T _ (AArgument (v_conf v)) t5) as [t6 s6]. cbn [fst snd] in G1, G2, G3. subst s6.
  pose proof (proj1 G1) as K6.
  unfold assign_addr. rewrite (kid_ok T KFetch t6 K6), (kid_legal T KFetch t6 K6).
  pose proof (nargs_ok T KFetch t6 K6) as NA.
  assert ((min_args KFetch <=? ker_nargs T (t_id T t6 KFetch) (t_ctx T t6)) = true) as EN by (apply Z.leb_le; exact NA).
  rewrite EN. cbn [negb andb]. destruct (set_arg_ok T KFetch 1 (AArgument (v_addr v)) t6 K6 ltac:(cbn; lia)) as (H1 & H3).
  set (t7 := set_arg T (t_id T t6 KFetch) 1 (AArgument (v_addr v)) t6) in *.
  unfold assign_set.
  destruct (assign_each_ok T [(KUntil, 1); (KLine, 1); (KElem, 1)] (AValue (v_set v)) t7 (proj1 H1)) as (J1 & J2 & J3); [ranges|].
  destruct (assign_each T _ (AValue (v_set v)) t7) as [t8 s8]. cbn [fst snd] in J1, J2, J3. subst s8. rewrite Z.eqb_refl. cbn [fst snd].
  assert (keep T t2' t8) as KK by (do 5 (eapply keep_trans; [eassumption|]); exact J1).
  destruct KK as (Q1 & Q2 & Q3 & Q4 & Q5 & Q6).
  split; [|reflexivity].
  split; [now apply (same_kernels T t8)|]. split; cbn [t_pset t_num t_cfg]; [|easy|easy|exact Q4].
  intros k i b J. change (bnd T k i t8 = Some b). rewrite J3, H3, G3, F3, D3, C3, E2, B3.
  destruct k; cbn [fixed In] in J; repeat (destruct J as [J|J]; [injection J as <- <-; first [reflexivity|apply (A3 KUntil)|apply (A3 KLine)|apply (A3 KElem)|apply (A3 KAsgMon)|apply (A3 KClrMon)|apply (A3 KAsgElem)|apply (A3 KFetch)]|]); destruct J.
Qed.
End Proofs.
