(* Lemmas about the histories of OpenCL contexts: what every call does to a kernel, a program and a flag. *)
From Coq Require Import Ascii String ZArith Bool List Lia.
From Verif Require Import Num Tac NodeId OclContext OclContextSpec OclContextProofs.
Import ListNotations.
Local Open Scope Z_scope.

Section Hist.
Variable T : Type.
Variable N : NumOps T.
Local Notation ctx := (ctx T).
Local Notation kernel := (kernel T).
Local Notation Inv := (Inv T).

(* what a call does to kernel [id] *)
Definition ker_effect (id : Z) (o : op) (k : kernel) : kernel :=
  match o with
  | OSetWgs id' w => if (id' =? id) && (w <=? k_max T k) then k_with_wgs T w k else k
  | OAssign id' i a =>
      if id' =? id then cl_set_arg T i (arg_bound a) (set_kernel_arg T (arg_type a) i (arg_ptr a) k) else k
  | OResetArgs id' =>
      if id' =? id
      then reset_arguments T (k_nargs T k) (k_with_args T (k_ptrs T k) (k_types T k) (reset_bound (k_ptrs T k) (k_bound T k)) k)
      else k
  | OResetArg id' i => if id' =? id then set_kernel_arg T ARG_NONE i 0 (cl_set_arg T i BDefault k) else k
  | ORun (mkOut _ (Some (s, e))) id' n w =>
      if id' =? id then k_with_last T w (run_items n w) (add_exec_time T N (run_time T N s e) k) else k
  | OResetExec id' => if id' =? id then reset_timing T N k else k
  | _ => k
  end.

Lemma nthz_upd : forall f id j c, nthz (c_kers T (upd_ker T f id c)) j =
  if j =? id then option_map f (nthz (c_kers T c) j) else nthz (c_kers T c) j.
Proof. intros. unfold upd_ker. cbn [with_kers c_kers]. apply nthz_modz. Qed.

Lemma kers_has_node : forall c j k, Inv c -> nthz (c_kers T c) j = Some k -> has_node T c = true.
Proof.
  intros c j k V K. destruct (has_node T c) eqn:E; [easy|].
  destruct (inv_none T c V E) as [X _]. rewrite X, nthz_nil in K. easy.
Qed.

Lemma add_code_kers : forall e s o c, c_kers T (fst (add_code T e s o c)) = c_kers T c.
Proof. intros. unfold add_code. destruct (is_empty s); [easy|]. now destruct (has_node T c). Qed.
Lemma add_file_kers : forall e s o r c, c_kers T (fst (add_file T e s o r c)) = c_kers T c.
Proof.
  intros. unfold add_file. cbv zeta. destruct (is_empty _); [easy|]. destruct (e_file e _) as [t|]; [|easy].
  destruct (is_empty t); [easy|].
  pose proof (add_code_kers e t (if is_empty o then c_opts T c else o) c) as G.
  destruct (add_code T e t _ c). easy.
Qed.
Lemma set_remap_kers : forall id c, c_kers T (fst (set_remap T id c)) = c_kers T c.
Proof.
  intros. unfold set_remap. destruct (has_node T c); [|easy]. destruct (nthz _ _); [|easy]. now destruct (_ <? _).
Qed.
Lemma set_flag_kers : forall s v c, c_kers T (set_feature_flag T s v c) = c_kers T c.
Proof. intros. unfold set_feature_flag. destruct (is_empty s); [easy|]. now destruct (find_flag _ _). Qed.

Lemma enable_kers : forall e name id c j k, Inv c -> nthz (c_kers T c) j = Some k ->
  nthz (c_kers T (fst (enable T N e name id c))) j = Some k.
Proof.
  intros e name id c j k V K.
  destruct (has_node T c) eqn:Hn.
  2:{ destruct (enable_refused T N e name id c V) as [_ ->]; [tauto|easy]. }
  destruct (list_eq_dec Ascii.ascii_dec name []) as [-> |NE].
  { destruct (enable_refused T N e [] id c V) as [_ ->]; [tauto|easy]. }
  destruct (Z.ltb_spec id 0) as [L|L].
  { destruct (enable_refused T N e name id c V) as [_ ->]; [tauto|easy]. }
  destruct (Z.ltb_spec id (zlen (c_progs T c))) as [L2|L2].
  2:{ destruct (enable_refused T N e name id c V) as [_ ->]; [tauto|easy]. }
  destruct (enable_shape T N e name id c V Hn NE (conj L L2)) as (p & P & E). rewrite E.
  pose proof (compiled_ctx_effect T e id c V) as (H1 & _).
  destruct (_ && _); cbn [fst].
  - unfold add_ker. cbn [with_progs with_kers c_kers]. rewrite H1.
    rewrite nthz_app1; [easy|]. now apply nthz_range in K.
  - now rewrite H1.
Qed.

Lemma do_select_refused : forall e i c, has_node T c = true -> do_select T e i c = (c, false).
Proof. intros e i c H. unfold do_select. now rewrite H. Qed.

Lemma step_ker : forall e o c c' r id k, Inv c -> nthz (c_kers T c) id = Some k -> is_clear o = false ->
  step T N e o c = Some (c', r) -> nthz (c_kers T c') id = Some (ker_effect id o k).
Proof.
  intros e o c c' r id k V K NC E. pose proof (kers_has_node c id k V K) as Hn.
  destruct o; cbn [step ker_effect is_clear] in *.
  - injection E as E. pose proof (add_code_kers e source options c) as G. rewrite E in G. cbn [fst] in G. now rewrite G.
  - injection E as E. pose proof (add_file_kers e path options rel c) as G. rewrite E in G. cbn [fst] in G. now rewrite G.
  - pose proof (compile_effect T e id0 c V) as (G & _). destruct (compile T e id0 c) as [c1 b]. injection E as <- _.
    cbn [fst] in G. now rewrite G.
  - injection E as E. pose proof (enable_kers e name id0 c id k V K) as G. now rewrite E in G.
  - unfold set_wgs, ker in E. rewrite Hn in E. destruct (Z.eqb_spec id0 id) as [-> |D]; cbn [andb].
    + rewrite K in E. destruct (w <=? k_max T k); injection E as <- _; [|easy].
      rewrite nthz_upd, Z.eqb_refl, K. easy.
    + destruct (nthz (c_kers T c) id0) as [k0|]; [|now injection E as <- _].
      destruct (w <=? k_max T k0); injection E as <- _; [|easy].
      rewrite nthz_upd. destruct (Z.eqb_spec id id0); [congruence|easy].
  - unfold assign_arg in E. destruct (id0 <? num_kers T c); [|easy]. injection E as <- _.
    rewrite nthz_upd, K. rewrite (Z.eqb_sym id id0). destruct (id0 =? id); easy.
  - injection E as <- _. unfold reset_args. destruct (id0 <? num_kers T c) eqn:L.
    + rewrite nthz_upd, K. rewrite (Z.eqb_sym id id0). destruct (id0 =? id); easy.
    + apply Z.ltb_ge in L. apply nthz_range in K as R. unfold num_kers in L.
      destruct (Z.eqb_spec id0 id); [lia|easy].
  - unfold reset_arg in E. destruct (id0 <? num_kers T c); [|easy]. injection E as <- _.
    rewrite nthz_upd, K. rewrite (Z.eqb_sym id id0). destruct (id0 =? id); easy.
  - unfold run in E. destruct (id0 <? num_kers T c) eqn:L.
    + injection E as <- _. destruct o as [ok [[s t]|]]; cbn [r_times]; [|easy].
      rewrite nthz_upd, K. rewrite (Z.eqb_sym id id0). destruct (id0 =? id); easy.
    + injection E as <- _. apply Z.ltb_ge in L. apply nthz_range in K as R. unfold num_kers in L.
      destruct o as [ok [[s t]|]]; [|easy]. destruct (Z.eqb_spec id0 id); [lia|easy].
  - injection E as <- _. unfold reset_exec. destruct (id0 <? num_kers T c) eqn:L.
    + rewrite nthz_upd, K. rewrite (Z.eqb_sym id id0). destruct (id0 =? id); easy.
    + apply Z.ltb_ge in L. apply nthz_range in K as R. unfold num_kers in L.
      destruct (Z.eqb_spec id0 id); [lia|easy].
  - pose proof (set_remap_kers id0 c) as G. destruct (set_remap T id0 c) as [c1 b]. injection E as <- _.
    cbn [fst] in G. now rewrite G.
  - injection E as <- _. now rewrite set_flag_kers.
  - unfold select_index in E. rewrite do_select_refused in E by easy. now injection E as <- _.
  - unfold select_other in E. rewrite do_select_refused in E by easy. now injection E as <- _.
  - easy.
  - injection E as <- _. unfold set_debug. rewrite Hn, andb_false_r. easy.
  - unfold reinit in E. rewrite Hn in E. now injection E as <- _.
Qed.

Lemma steps_ker : forall h c c' id k, hist_ok h -> Inv c -> nthz (c_kers T c) id = Some k ->
  forallb (fun x => negb (is_clear (snd x))) h = true -> steps T N h c = Some c' ->
  nthz (c_kers T c') id = Some (fold_left (fun k x => ker_effect id (snd x) k) h k).
Proof.
  induction h as [|[e o] h IH]; intros c c' id k H V K NC E; cbn [steps fold_left forallb] in *.
  - now injection E as <-.
  - apply andb_true_iff in NC. destruct NC as [N1 N2]. cbn [snd] in *. apply negb_true_iff in N1.
    inversion H as [|? ? [H1 H2] H3]; subst.
    destruct (step T N e o c) as [[c1 r]|] eqn:S; [|easy].
    apply (IH c1); try easy.
    + now apply (Inv_step T N e o c c1 r).
    + now apply (step_ker e o c c1 r).
Qed.

Lemma ker_effect_same : forall id o k, same_kernel T (ker_effect id o k) k.
Proof.
  intros id o k. destruct o as [ | | | | | | | |[ok [[s t]|]] | | | | | | | | ]; cbn [ker_effect]; try easy.
  - now destruct (_ && _).
  - destruct (_ =? _); [|easy]. unfold set_kernel_arg. now destruct (_ <? _).
  - now destruct (_ =? _).
  - destruct (_ =? _); [|easy]. unfold set_kernel_arg. now destruct (_ <? _).
  - destruct (_ =? _); [|easy]. unfold add_exec_time. now destruct (nleb _ _ _).
  - now destruct (_ =? _).
Qed.
Lemma same_kernel_trans : forall a b c, same_kernel T a b -> same_kernel T b c -> same_kernel T a c.
Proof. unfold same_kernel. intros. intuition congruence. Qed.
Lemma fold_same : forall h id k, same_kernel T (fold_left (fun k x => ker_effect id (@snd env op x) k) h k) k.
Proof.
  induction h as [|x h IH]; intros id k; cbn [fold_left]; [easy|].
  eapply same_kernel_trans; [apply IH|]. apply ker_effect_same.
Qed.

(* one parameter *)
Definition arg_of (i : Z) (k : kernel) : option Z * option Z * option bound :=
  (nthz (k_ptrs T k) i, nthz (k_types T k) i, nthz (k_bound T k) i).

Lemma ker_effect_arg : forall id o i k, sets_arg id i o = false -> arg_of i (ker_effect id o k) = arg_of i k.
Proof.
  intros id o i k S. destruct o as [ | | | | | | | |[ok [[s t]|]] | | | | | | | | ]; cbn [ker_effect sets_arg] in *; try easy.
  - now destruct (_ && _).
  - destruct (id0 =? id); [|easy]. cbn [andb] in S. unfold set_kernel_arg, cl_set_arg, arg_of.
    apply Z.eqb_neq in S.
    destruct (_ <? _); cbn [k_with_args k_ptrs k_types k_bound]; rewrite !nthz_modz;
      destruct (Z.eqb_spec i i0); congruence.
  - now rewrite S.
  - destruct (id0 =? id); [|easy]. cbn [andb] in S. unfold set_kernel_arg, cl_set_arg, arg_of. cbn [k_with_args k_ptrs].
    apply Z.eqb_neq in S.
    destruct (_ <? _); cbn [k_with_args k_ptrs k_types k_bound]; rewrite !nthz_modz;
      destruct (Z.eqb_spec i i0); congruence.
  - destruct (_ =? _); [|easy]. unfold add_exec_time. now destruct (nleb _ _ _).
  - now destruct (_ =? _).
Qed.
Lemma fold_arg : forall h id i k, forallb (fun x => negb (sets_arg id i (@snd env op x))) h = true ->
  arg_of i (fold_left (fun k x => ker_effect id (@snd env op x) k) h k) = arg_of i k.
Proof.
  induction h as [|x h IH]; intros id i k H; cbn [fold_left forallb] in *; [easy|].
  apply andb_true_iff in H. destruct H as [H1 H2]. rewrite IH by easy. apply ker_effect_arg. now apply negb_true_iff.
Qed.

Lemma ker_effect_args_ok : forall id o k, args_ok T k -> args_ok T (ker_effect id o k).
Proof.
  intros id o k A. destruct o as [ | | | | | | | |[ok [[s t]|]] | | | | | | | | ]; cbn [ker_effect]; try easy.
  - now destruct (_ && _).
  - destruct (_ =? _); [|easy]. destruct A as (A1 & A2 & A3 & A4). unfold set_kernel_arg, cl_set_arg, args_ok.
    destruct (_ <? _); cbn [k_with_args k_nargs k_ptrs k_types k_bound]; rewrite ?zlen_modz; easy.
  - destruct (_ =? _); [|easy]. destruct A as (A1 & A2 & A3 & A4). unfold args_ok, reset_arguments.
    cbn [k_with_args k_nargs k_ptrs k_types k_bound]. unfold zlen in *. rewrite !repeat_length, reset_bound_length. lia.
  - destruct (_ =? _); [|easy]. destruct A as (A1 & A2 & A3 & A4). unfold set_kernel_arg, cl_set_arg, args_ok. cbn [k_with_args k_ptrs].
    destruct (_ <? _); cbn [k_with_args k_nargs k_ptrs k_types k_bound]; rewrite ?zlen_modz; easy.
  - destruct (_ =? _); [|easy]. unfold add_exec_time. now destruct (nleb _ _ _).
  - now destruct (_ =? _).
Qed.

(* ---- programs ---- *)
Definition kept (a b : program) : Prop := p_path a = p_path b /\ p_source a = p_source b /\ p_options a = p_options b.
Definition progs_kept (c' c : ctx) : Prop :=
  forall i p, nthz (c_progs T c) i = Some p -> exists q, nthz (c_progs T c') i = Some q /\ kept q p.

Lemma progs_kept_refl : forall c, progs_kept c c.
Proof. intros c i p P. now exists p. Qed.
Lemma progs_kept_trans : forall a b c, progs_kept a b -> progs_kept b c -> progs_kept a c.
Proof.
  intros a b c H1 H2 i p P. destruct (H2 i p P) as (q & Q & K). destruct (H1 i q Q) as (r & R & L).
  exists r. split; [easy|]. unfold kept in *. intuition congruence.
Qed.
Lemma progs_kept_eq : forall c c', c_progs T c' = c_progs T c -> progs_kept c' c.
Proof. intros c c' E i p P. rewrite E. now exists p. Qed.

Lemma add_code_progs : forall e s o c, s <> [] ->
  exists p, add_code T e s o c =
    (with_progs T (c_progs T c ++ [p]) (if has_node T c then with_cl T (c_cl T c ++ [s]) c else c), zlen (c_progs T c)) /\
    p = if has_node T c then fst (do_compile T e (with_cl T (c_cl T c ++ [s]) c) s (mkProg [] s o [] [] false)) else mkProg [] s o [] [] false.
Proof.
  intros e s o c NE. unfold add_code. rewrite (proj2 (is_empty_false s) NE). cbv zeta.
  destruct (has_node T c); eexists; split; reflexivity.
Qed.
Lemma add_code_kept : forall e s o c, progs_kept (fst (add_code T e s o c)) c.
Proof.
  intros e s o c. destruct (list_eq_dec Ascii.ascii_dec s []) as [-> |NE]; [apply progs_kept_refl|].
  destruct (add_code_progs e s o c NE) as (p & E & _). rewrite E. cbn [fst].
  intros i q Q. exists q. split; [|easy]. cbn [with_progs c_progs].
  rewrite nthz_app1; [easy|]. now apply nthz_range in Q.
Qed.
Lemma add_file_kept : forall e f o r c, progs_kept (fst (add_file T e f o r c)) c.
Proof.
  intros e f o r c. unfold add_file. cbv zeta. destruct (is_empty _); [apply progs_kept_refl|].
  destruct (e_file e _) as [t|]; [|apply progs_kept_refl]. destruct (is_empty t) eqn:Et; [apply progs_kept_refl|].
  apply is_empty_false in Et.
  destruct (add_code_progs e t (if is_empty o then c_opts T c else o) c Et) as (p & E & _).
  rewrite E. cbn [fst].
  intros i q Q. exists q. split; [|easy]. cbn [with_progs c_progs]. apply nthz_range in Q as R.
  rewrite nthz_modz. destruct (Z.eqb_spec i (zlen (c_progs T c))); [lia|].
  now rewrite nthz_app1.
Qed.
Lemma compile_kept : forall e id c, Inv c -> progs_kept (fst (compile T e id c)) c.
Proof.
  intros e id c V i p P. pose proof (compile_effect T e id c V) as (_ & _ & _ & _ & _ & _ & G & _).
  destruct (G i p P) as (q & Q & (S1 & S2 & S3 & _)). now exists q.
Qed.
Lemma enable_kept : forall e name id c, Inv c -> progs_kept (fst (enable T N e name id c)) c.
Proof.
  intros e name id c V.
  destruct (has_node T c) eqn:Hn.
  2:{ destruct (enable_refused T N e name id c V) as [_ ->]; [tauto|apply progs_kept_refl]. }
  destruct (list_eq_dec Ascii.ascii_dec name []) as [-> |NE].
  { destruct (enable_refused T N e [] id c V) as [_ ->]; [tauto|apply progs_kept_refl]. }
  destruct (Z.ltb_spec id 0) as [L|L].
  { destruct (enable_refused T N e name id c V) as [_ ->]; [tauto|apply progs_kept_refl]. }
  destruct (Z.ltb_spec id (zlen (c_progs T c))) as [L2|L2].
  2:{ destruct (enable_refused T N e name id c V) as [_ ->]; [tauto|apply progs_kept_refl]. }
  destruct (enable_shape T N e name id c V Hn NE (conj L L2)) as (p & P & E). rewrite E.
  pose proof (compiled_ctx_effect T e id c V) as (_ & _ & _ & _ & _ & _ & G & _).
  assert (progs_kept (compiled_ctx T e id c) c) as K1.
  { intros i q Q. destruct (G i q Q) as (q' & Q' & (S1 & S2 & S3 & _)). now exists q'. }
  destruct (_ && _); cbn [fst]; [|easy].
  eapply progs_kept_trans; [|exact K1].
  intros i q Q. unfold add_ker. cbn [with_progs c_progs with_kers]. rewrite nthz_modz, Q. cbn [option_map].
  destruct (i =? _); eexists; (split; [reflexivity|easy]).
Qed.
Lemma set_remap_progs : forall id c, c_progs T (fst (set_remap T id c)) = c_progs T c.
Proof.
  intros. unfold set_remap. destruct (has_node T c); [|easy]. destruct (nthz _ _); [|easy]. now destruct (_ <? _).
Qed.
Lemma init_kers_kept : forall e c, Inv c -> progs_kept (fst (init_kers T N e c)) c.
Proof.
  intros e c V. unfold init_kers. destruct (_ && _); [|apply progs_kept_refl].
  pose proof (enable_kept e (remap_name T e c) (c_rprog T c) c V) as G.
  destruct (enable T N e _ _ c) as [c1 id]. cbn [fst] in G.
  eapply progs_kept_trans; [|exact G]. apply progs_kept_eq, set_remap_progs.
Qed.
Lemma do_select_kept : forall e i c, progs_kept (fst (do_select T e i c)) c.
Proof.
  intros e i c. unfold do_select. destruct (_ && _); [|apply progs_kept_refl]. cbv zeta.
  change (c_progs T (with_sel T i (with_kers T [] c))) with (c_progs T c).
  pose proof (build_all_props T e (with_sel T i (with_kers T [] c)) (c_progs T c)) as (B1 & B2 & B3 & B4).
  destruct (build_all T e _ (c_progs T c)) as [ps ok]. cbn [fst snd] in *.
  intros j p P. cbn [with_progs c_progs]. apply nthz_range in P as R. rewrite <- B1 in R.
  apply nthz_some in R. destruct R as [q Q]. exists q. split; [easy|].
  destruct (B3 j q Q) as (p' & P' & H1 & H2 & H3 & _). rewrite P in P'. injection P' as <-. easy.
Qed.
Lemma assign_slot_size_progs : forall c, c_progs T (fst (assign_slot_size T c)) = c_progs T c.
Proof.
  intros c. unfold assign_slot_size, assign_arg. destruct (has_remap T c); [|easy]. destruct (2 <=? _); [|easy].
  now destruct (_ <? _).
Qed.
Lemma assign_flags_progs : forall f c, c_progs T (fst (assign_flags T f c)) = c_progs T c.
Proof.
  intros f c. unfold assign_flags, assign_arg. destruct (has_remap T c); [|easy]. cbv zeta. destruct (2 <=? _); [|easy].
  destruct (c_debug T c); [|easy]. destruct (2 <? _); [|easy]. now destruct (_ <? _).
Qed.

Lemma step_progs : forall e o c c' r, env_ok e -> op_ok o -> Inv c -> drops o = false -> step T N e o c = Some (c', r) -> progs_kept c' c.
Proof.
  intros e o c c' r Ek Ok V D E. destruct o; cbn [step drops op_ok] in *.
  - injection E as E. pose proof (add_code_kept e source options c) as G. now rewrite E in G.
  - injection E as E. pose proof (add_file_kept e path options rel c) as G. now rewrite E in G.
  - pose proof (compile_kept e id c V) as G. destruct (compile T e id c). now injection E as <- _.
  - injection E as E. pose proof (enable_kept e name id c V) as G. now rewrite E in G.
  - apply progs_kept_eq. unfold set_wgs in E. destruct (ker T id c) as [k|]; [|now injection E as <- _].
    destruct (_ <=? _); now injection E as <- _.
  - apply progs_kept_eq. unfold assign_arg in E. destruct (_ <? _); [|easy]. now injection E as <- _.
  - apply progs_kept_eq. injection E as <- _. unfold reset_args. now destruct (_ <? _).
  - apply progs_kept_eq. unfold reset_arg in E. destruct (_ <? _); [|easy]. now injection E as <- _.
  - apply progs_kept_eq. unfold run in E. destruct (_ <? _); [|now injection E as <- _]. injection E as <- _.
    now destruct (r_times o) as [[s t]|].
  - apply progs_kept_eq. injection E as <- _. unfold reset_exec. now destruct (_ <? _).
  - apply progs_kept_eq. pose proof (set_remap_progs id c) as G. destruct (set_remap T id c). now injection E as <- _.
  - apply progs_kept_eq. injection E as <- _. unfold set_feature_flag. destruct (is_empty s); [easy|]. now destruct (find_flag _ _).
  - unfold select_index in E. pose proof (do_select_kept e i c) as G. pose proof (Inv_do_select T e i c Ok V) as W.
    destruct (do_select T e i c) as [c1 ok1]. cbn [fst] in *. destruct ok1; [|now injection E as <- _].
    pose proof (init_kers_kept e c1 W) as G2. destruct (init_kers T N e c1) as [c2 ok2]. cbn [fst] in *.
    pose proof (progs_kept_trans _ _ _ G2 G) as G3.
    destruct ok2; [|now injection E as <- _].
    pose proof (assign_slot_size_progs c2) as G4. destruct (assign_slot_size T c2) as [c3 ok3]. cbn [fst] in *.
    apply progs_kept_eq in G4. pose proof (progs_kept_trans _ _ _ G4 G3) as G5.
    destruct ok3; [|now injection E as <- _].
    pose proof (assign_flags_progs flags c3) as G6. destruct (assign_flags T flags c3) as [c4 ok4]. cbn [fst] in *.
    apply progs_kept_eq in G6. injection E as <- _. exact (progs_kept_trans _ _ _ G6 G5).
  - unfold select_other in E. pose proof (do_select_kept e i c) as G. pose proof (Inv_do_select T e i c Ok V) as W.
    destruct (do_select T e i c) as [c1 ok1]. cbn [fst] in *. destruct ok1; [|now injection E as <- _].
    pose proof (init_kers_kept e c1 W) as G2. destruct (init_kers T N e c1) as [c2 ok2]. cbn [fst] in *.
    injection E as <- _. exact (progs_kept_trans _ _ _ G2 G).
  - easy.
  - easy.
  - easy.
Qed.

Lemma steps_progs : forall h c c', hist_ok h -> Inv c -> forallb (fun x => negb (drops (snd x))) h = true ->
  steps T N h c = Some c' -> progs_kept c' c.
Proof.
  induction h as [|[e o] h IH]; intros c c' H V D E; cbn [steps forallb snd] in *.
  - injection E as <-. apply progs_kept_refl.
  - apply andb_true_iff in D. destruct D as [D1 D2]. apply negb_true_iff in D1.
    inversion H as [|? ? [H1 H2] H3]; subst. cbn [fst snd] in *.
    destruct (step T N e o c) as [[c1 r]|] eqn:S; [|easy].
    eapply progs_kept_trans; [apply (IH c1)|].
    + easy.
    + now apply (Inv_step T N e o c c1 r).
    + easy.
    + easy.
    + now apply (step_progs e o c c1 r).
Qed.

(* ---- feature flags ---- *)
Lemma find_flag_app : forall s f g, find_flag s (f ++ g) = match find_flag s f with Some v => Some v | None => find_flag s g end.
Proof.
  induction f as [|[k v] f IH]; intros g; cbn [find_flag app]; [easy|]. now destruct (chars_eqb k s).
Qed.
Lemma set_flag_find : forall s v t c, find_flag t (c_flags T (set_feature_flag T s v c)) =
  match find_flag t (c_flags T c) with
  | Some w => Some w
  | None => if is_empty s then None else if chars_eqb s t then Some v else None
  end.
Proof.
  intros. unfold set_feature_flag. destruct (is_empty s).
  - now destruct (find_flag t (c_flags T c)).
  - destruct (find_flag s (c_flags T c)) as [w|] eqn:E.
    + destruct (find_flag t (c_flags T c)) eqn:F; [easy|]. destruct (chars_eqb s t) eqn:Q; [|easy].
      apply chars_eqb_eq in Q. congruence.
    + cbn [with_flags c_flags]. rewrite find_flag_app. cbn [find_flag]. easy.
Qed.

Lemma add_code_flags : forall e s o c, c_flags T (fst (add_code T e s o c)) = c_flags T c.
Proof. intros. unfold add_code. destruct (is_empty s); [easy|]. now destruct (has_node T c). Qed.
Lemma add_file_flags : forall e s o r c, c_flags T (fst (add_file T e s o r c)) = c_flags T c.
Proof.
  intros. unfold add_file. cbv zeta. destruct (is_empty _); [easy|]. destruct (e_file e _) as [t|]; [|easy].
  destruct (is_empty t); [easy|].
  pose proof (add_code_flags e t (if is_empty o then c_opts T c else o) c) as G.
  destruct (add_code T e t _ c). easy.
Qed.
Lemma init_progs_flags : forall e c, c_flags T (fst (init_progs T e c)) = c_flags T c.
Proof.
  intros. unfold init_progs. pose proof (add_file_flags e (remap_file T c) (default_options T e c) false c) as G.
  destruct (add_file T e _ _ false c). exact G.
Qed.
Lemma clear_flags : forall e c, c_flags T (clear T e c) = c_flags T c.
Proof. intros. unfold clear. now rewrite init_progs_flags. Qed.
Lemma compile_flags : forall e id c, c_flags T (fst (compile T e id c)) = c_flags T c.
Proof.
  intros. unfold compile. destruct (_ && _); [|easy]. destruct (nthz _ _); [|easy]. destruct (nthz _ _); [|easy].
  now destruct (do_compile _ _ _ _ _).
Qed.
Lemma enable_flags : forall e name id c, c_flags T (fst (enable T N e name id c)) = c_flags T c.
Proof.
  intros. unfold enable. destruct (_ && _); [|easy]. cbv zeta.
  pose proof (compile_flags e id c) as G.
  destruct (prog_compiled T id c).
  - destruct (nthz _ _); [|easy]. destruct (nthz _ _); [|easy]. now destruct (_ && _).
  - destruct (compile T e id c) as [c1 b]. cbn [fst] in G.
    destruct (nthz _ _); [|easy]. destruct (nthz _ _); [|easy]. destruct b; [easy|]. now destruct (_ && _).
Qed.
Lemma set_remap_flags : forall id c, c_flags T (fst (set_remap T id c)) = c_flags T c.
Proof.
  intros. unfold set_remap. destruct (has_node T c); [|easy]. destruct (nthz _ _); [|easy]. now destruct (_ <? _).
Qed.
Lemma init_kers_flags : forall e c, c_flags T (fst (init_kers T N e c)) = c_flags T c.
Proof.
  intros. unfold init_kers. destruct (_ && _); [|easy].
  pose proof (enable_flags e (remap_name T e c) (c_rprog T c) c) as G. destruct (enable T N e _ _ c) as [c1 id].
  now rewrite set_remap_flags.
Qed.
Lemma do_select_flags : forall e i c, c_flags T (fst (do_select T e i c)) = c_flags T c.
Proof. intros. unfold do_select. destruct (_ && _); [|easy]. cbv zeta. now destruct (build_all _ _ _ _). Qed.
Lemma assign_slot_size_flags : forall c, c_flags T (fst (assign_slot_size T c)) = c_flags T c.
Proof.
  intros c. unfold assign_slot_size, assign_arg. destruct (has_remap T c); [|easy]. destruct (2 <=? _); [|easy].
  now destruct (_ <? _).
Qed.
Lemma assign_flags_flags : forall f c, c_flags T (fst (assign_flags T f c)) = c_flags T c.
Proof.
  intros f c. unfold assign_flags, assign_arg. destruct (has_remap T c); [|easy]. cbv zeta. destruct (2 <=? _); [|easy].
  destruct (c_debug T c); [|easy]. destruct (2 <? _); [|easy]. now destruct (_ <? _).
Qed.

Lemma step_flags : forall e o c c' r, step T N e o c = Some (c', r) ->
  c_flags T c' = match o with OSetFlag s v => c_flags T (set_feature_flag T s v c) | _ => c_flags T c end.
Proof.
  intros e o c c' r E. destruct o; cbn [step] in *.
  - injection E as E. pose proof (add_code_flags e source options c) as G. now rewrite E in G.
  - injection E as E. pose proof (add_file_flags e path options rel c) as G. now rewrite E in G.
  - pose proof (compile_flags e id c) as G. destruct (compile T e id c). now injection E as <- _.
  - injection E as E. pose proof (enable_flags e name id c) as G. now rewrite E in G.
  - unfold set_wgs in E. destruct (ker T id c) as [k|]; [|now injection E as <- _].
    destruct (_ <=? _); now injection E as <- _.
  - unfold assign_arg in E. destruct (_ <? _); [|easy]. now injection E as <- _.
  - injection E as <- _. unfold reset_args. now destruct (_ <? _).
  - unfold reset_arg in E. destruct (_ <? _); [|easy]. now injection E as <- _.
  - unfold run in E. destruct (_ <? _); [|now injection E as <- _]. injection E as <- _.
    now destruct (r_times o) as [[s t]|].
  - injection E as <- _. unfold reset_exec. now destruct (_ <? _).
  - pose proof (set_remap_flags id c) as G. destruct (set_remap T id c). now injection E as <- _.
  - now injection E as <- _.
  - unfold select_index in E. pose proof (do_select_flags e i c) as G. destruct (do_select T e i c) as [c1 ok1]. cbn [fst] in *.
    destruct ok1; [|now injection E as <- _].
    pose proof (init_kers_flags e c1) as G2. destruct (init_kers T N e c1) as [c2 ok2]. cbn [fst] in *.
    destruct ok2; [|injection E as <- _; congruence].
    pose proof (assign_slot_size_flags c2) as G3. destruct (assign_slot_size T c2) as [c3 ok3]. cbn [fst] in *.
    destruct ok3; [|injection E as <- _; congruence].
    pose proof (assign_flags_flags flags c3) as G4. destruct (assign_flags T flags c3) as [c4 ok4]. cbn [fst] in *.
    injection E as <- _. congruence.
  - unfold select_other in E. pose proof (do_select_flags e i c) as G. destruct (do_select T e i c) as [c1 ok1]. cbn [fst] in *.
    destruct ok1; [|now injection E as <- _].
    pose proof (init_kers_flags e c1) as G2. destruct (init_kers T N e c1) as [c2 ok2]. cbn [fst] in *.
    injection E as <- _. congruence.
  - injection E as <- _. apply clear_flags.
  - injection E as <- _. unfold set_debug. destruct (_ && _); [|easy]. now rewrite init_progs_flags, clear_flags.
  - unfold reinit in E. destruct (has_node T c); injection E as <- _; [easy|].
    now rewrite init_kers_flags, init_progs_flags, clear_flags.
Qed.

End Hist.
