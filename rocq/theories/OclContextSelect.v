(* Lemmas about enabling kernels and selecting nodes. *)
From Coq Require Import Ascii String ZArith Bool List Lia.
From Verif Require Import Num Tac NodeId OclContext OclContextSpec OclContextProofs OclContextHist.
Import ListNotations.
Local Open Scope Z_scope.

Section Select.
Variable T : Type.
Variable N : NumOps T.
Local Notation ctx := (ctx T).
Local Notation kernel := (kernel T).
Local Notation Inv := (Inv T).

Lemma do_compile_snd : forall e c s p, has_node T c = true -> p_compiled p = false -> p_kernels p = [] -> p_source p = s ->
  snd (do_compile T e c s p) = builds_on e (c_sel T c) p.
Proof.
  intros e c s p H1 H2 H3 <-. unfold do_compile, builds_on. rewrite H1, H2, H3. cbn [negb andb].
  destruct (is_empty (p_options p)); [easy|]. cbn [negb andb].
  destruct (e_build _ _ _ _) as [[st r] l]. now destruct st.
Qed.

Lemma compiled_ctx_compiled : forall e id c, Inv c -> has_node T c = true ->
  prog_compiled T id (compiled_ctx T e id c) = (prog_compiled T id c || can_build e id c).
Proof.
  intros e id c V Hn. unfold compiled_ctx. destruct (prog_compiled T id c) eqn:PC; [now rewrite PC|].
  pose proof (compile_effect T e id c V) as (_ & _ & _ & _ & _ & _ & _ & E). rewrite E, PC. cbn [orb].
  unfold compile, can_build.
  assert (zlen (c_cl T c) = zlen (c_progs T c)) as LC.
  { rewrite (inv_cl T c V Hn). apply zlen_map. }
  rewrite Hn, LC, Z.eqb_refl, andb_true_r. cbn [andb].
  destruct (nthz (c_progs T c) id) as [p|] eqn:P.
  - apply nthz_range in P as R. rewrite (proj2 (Z.ltb_lt id (zlen (c_progs T c)))) by lia.
    rewrite (inv_cl T c V Hn), nthz_map, P. cbn [option_map].
    unfold prog_compiled in PC. rewrite P in PC.
    assert (p_kernels p = []) as K.
    { destruct (p_kernels p) eqn:X; [easy|]. assert (p_kernels p <> []) as Y by congruence.
      apply (inv_comp T c V id p P) in Y. congruence. }
    pose proof (do_compile_snd e c (p_source p) p Hn PC K eq_refl) as D.
    destruct (do_compile T e c (p_source p) p). exact D.
  - destruct (id <? zlen (c_progs T c)); [|easy]. rewrite (inv_cl T c V Hn), nthz_map, P. easy.
Qed.

Lemma enabled_iff : forall c name id, Inv c -> has_node T c = true ->
  enabled name id c <-> exists j k, nthz (c_kers T c) j = Some k /\ k_prog T k = id /\ k_name T k = name.
Proof.
  intros c name id V Hn. unfold enabled, ker_name, ker_prog, ker. rewrite Hn. split.
  - intros (j & H1 & H2). destruct (nthz (c_kers T c) j) as [k|] eqn:K; [|easy]. injection H1 as H1. now exists j, k.
  - intros (j & k & K & H1 & H2). exists j. rewrite K. cbn [option_map]. split; congruence.
Qed.

Lemma enable_result : forall e name id c, env_ok e -> Inv c -> has_node T c = true -> name <> [] -> 0 <= id < num_progs T c ->
  let c' := fst (enable T N e name id c) in let r := snd (enable T N e name id c) in
  ((prog_compiled T id c = true \/ can_build e id c = true) /\ ~ enabled name id c ->
     r = num_kers T c /\ num_kers T c' = num_kers T c + 1 /\
     exists p, nthz (c_progs T c) id = Some p /\ nthz (c_kers T c') r = Some (new_kernel T N name id (e_info e (p_source p) name))) /\
  (~ ((prog_compiled T id c = true \/ can_build e id c = true) /\ ~ enabled name id c) ->
     r = ILLEGAL /\ c_kers T c' = c_kers T c).
Proof.
  intros e name id c Ok V Hn NE L. cbv zeta.
  destruct (enable_shape T N e name id c V Hn NE L) as (p & P & E). rewrite E.
  pose proof (compiled_ctx_effect T e id c V) as (H1 & H2 & H3 & H4 & H5 & H6 & H7 & H8).
  pose proof (compiled_ctx_compiled e id c V Hn) as PC. rewrite PC.
  assert (enabled name id c <-> name_taken T (p_kernels p) name (compiled_ctx T e id c) = true) as EN.
  { rewrite (name_taken_iff T _ id p name H8 P NE), H1. now apply enabled_iff. }
  rewrite <- orb_true_iff. split.
  - intros [A B]. rewrite A. assert (name_taken T (p_kernels p) name (compiled_ctx T e id c) = false) as NT.
    { apply not_true_iff_false. now rewrite <- EN. }
    rewrite NT. cbn [andb negb fst snd]. split; [now rewrite H1|]. unfold num_kers.
    split; [unfold add_ker; cbn [with_progs with_kers c_kers]; rewrite zlen_app, zlen_one, H1; easy|].
    destruct (proj2 (nthz_some _ (c_progs T c) id) L) as [q Q]. exists q. split; [easy|].
    destruct (H7 id q Q) as (q' & Q' & (_ & S & _)). rewrite P in Q'. injection Q' as <-. rewrite <- S.
    unfold add_ker. cbn [with_progs with_kers c_kers]. apply nthz_app_last.
  - intros X. assert ((prog_compiled T id c || can_build e id c) && negb (name_taken T (p_kernels p) name (compiled_ctx T e id c)) = false) as F.
    { apply not_true_iff_false. intros Y. apply X. apply andb_true_iff in Y. destruct Y as [Y1 Y2].
      split; [easy|]. rewrite EN. apply negb_true_iff in Y2. congruence. }
    rewrite F. cbn [fst snd]. easy.
Qed.

(* selecting a node *)
Lemma build_all_iff : forall e c ps, has_node T c = true ->
  snd (build_all T e c ps) = forallb (builds_on e (c_sel T c)) ps.
Proof.
  intros e c ps H. induction ps as [|p ps IH]; cbn [build_all forallb]; [easy|].
  pose proof (do_compile_snd e c (p_source p) (mkProg (p_path p) (p_source p) (p_options p) [] [] false) H eq_refl eq_refl eq_refl) as G.
  destruct (do_compile T e c (p_source p) _) as [q ok]. destruct (build_all T e c ps) as [qs oks]. cbn [snd] in *.
  now rewrite G, IH.
Qed.

Lemma do_select_ok : forall e i c, Inv c -> 0 <= i ->
  snd (do_select T e i c) = (negb (has_node T c) && (i <? c_nodes T c) && e_flag e && forallb (builds_on e i) (c_progs T c)).
Proof.
  intros e i c V L. unfold do_select. destruct (_ && _) eqn:G; [|easy]. cbn [andb].
  apply andb_true_iff in G. destruct G as [G _]. apply andb_true_iff in G. destruct G as [_ G]. 
  cbv zeta. change (c_progs T (with_sel T i (with_kers T [] c))) with (c_progs T c).
  pose proof (build_all_iff e (with_sel T i (with_kers T [] c)) (c_progs T c)) as B.
  assert (has_node T (with_sel T i (with_kers T [] c)) = true) as Hn.
  { unfold has_node. cbn [with_sel with_kers c_sel c_nodes]. rewrite G. now rewrite (proj2 (Z.leb_le 0 i) L). }
  specialize (B Hn). cbn [with_sel c_sel] in B.
  destruct (build_all T e _ (c_progs T c)) as [ps ok]. exact B.
Qed.

Lemma do_select_state : forall e i c, Inv c -> 0 <= i -> snd (do_select T e i c) = true ->
  let c' := fst (do_select T e i c) in
  has_node T c' = true /\ c_sel T c' = i /\ c_kers T c' = [] /\ num_progs T c' = num_progs T c /\
  c_rprog T c' = c_rprog T c /\ c_debug T c' = c_debug T c /\ c_nodes T c' = c_nodes T c /\
  (forall j, 0 <= j < num_progs T c -> prog_compiled T j c' = true).
Proof.
  intros e i c V L. unfold do_select. destruct (_ && _) eqn:G; [|easy].
  apply andb_true_iff in G. destruct G as [G _]. apply andb_true_iff in G. destruct G as [_ G]. 
  cbv zeta. change (c_progs T (with_sel T i (with_kers T [] c))) with (c_progs T c).
  pose proof (build_all_props T e (with_sel T i (with_kers T [] c)) (c_progs T c)) as (B1 & _ & _ & B4).
  destruct (build_all T e _ (c_progs T c)) as [ps ok]. cbn [fst snd] in *. intros ->.
  split; [unfold has_node; cbn [with_progs with_cl with_sel with_kers c_sel c_nodes]; rewrite G; now rewrite (proj2 (Z.leb_le 0 i) L)|].
  split; [easy|]. split; [easy|]. split; [exact B1|]. split; [easy|]. split; [easy|]. split; [easy|].
  intros j Lj. unfold prog_compiled. cbn [with_progs c_progs].
  assert (exists p, nthz ps j = Some p) as [p P].
  { apply nthz_some. rewrite B1. exact Lj. }
  rewrite P. destruct B4 as [B4 _]. specialize (B4 eq_refl). rewrite Forall_forall in B4. apply B4. now apply nthz_in in P.
Qed.

Lemma remap_name_nonempty : forall e c, remap_name T e c <> [].
Proof. intros e c. unfold remap_name. intros H. apply app_eq_nil in H. destruct H as [_ H]. now destruct (c_debug T c). Qed.

(* the number of parameters of the remapping kernel *)
Definition remap_nargs (e : env) (c : ctx) : Z :=
  match nthz (c_progs T c) (c_rprog T c) with
  | Some p => i_nargs (e_info e (p_source p) (remap_name T e c))
  | None => 0
  end.

Lemma init_kers_fresh : forall e c, env_ok e -> Inv c -> has_node T c = true -> c_kers T c = [] ->
  (forall j, 0 <= j < num_progs T c -> prog_compiled T j c = true) -> 0 <= c_rprog T c ->
  (snd (init_kers T N e c) = (c_rprog T c <? num_progs T c)) /\
  (c_rprog T c < num_progs T c ->
    let c' := fst (init_kers T N e c) in
    c_rker T c' = 0 /\ has_node T c' = true /\ c_sel T c' = c_sel T c /\ c_debug T c' = c_debug T c /\ c_rprog T c' = c_rprog T c /\
    num_kers T c' = 1 /\ num_progs T c' = num_progs T c /\
    (forall j, prog_compiled T j c' = prog_compiled T j c) /\
    exists p, nthz (c_progs T c) (c_rprog T c) = Some p /\
      nthz (c_kers T c') 0 = Some (new_kernel T N (remap_name T e c) (c_rprog T c) (e_info e (p_source p) (remap_name T e c)))).
Proof.
  intros e c Ok V Hn K0 AC R0. unfold init_kers. rewrite Hn. cbn [andb].
  destruct (Z.ltb_spec (c_rprog T c) (num_progs T c)) as [L|L].
  2:{ split; [easy|lia]. }
  pose proof (enable_shape T N e (remap_name T e c) (c_rprog T c) c V Hn (remap_name_nonempty e c) (conj R0 L)) as (p & P & E).
  assert (compiled_ctx T e (c_rprog T c) c = c) as CC.
  { unfold compiled_ctx. rewrite (AC _ (conj R0 L)). easy. }
  rewrite CC in *. rewrite E.
  rewrite (AC _ (conj R0 L)).
  assert (name_taken T (p_kernels p) (remap_name T e c) c = false) as NT.
  { apply not_true_iff_false. intros X. apply (name_taken_iff T c (c_rprog T c) p) in X; [|easy|easy|apply remap_name_nonempty].
    destruct X as (j & k & X & _). rewrite K0, nthz_nil in X. easy. }
  rewrite NT. cbn [andb negb]. rewrite K0. change (zlen (@nil kernel)) with 0.
  set (k := new_kernel T N (remap_name T e c) (c_rprog T c) (e_info e (p_source p) (remap_name T e c))).
  assert (set_remap T 0 (add_ker T k c) = (with_remap T (c_rprog T c) 0 (add_ker T k c), true)) as SR.
  { unfold set_remap. change (has_node T (add_ker T k c)) with (has_node T c). rewrite Hn.
    replace (nthz (c_kers T (add_ker T k c)) 0) with (Some k).
    2:{ unfold add_ker. cbn [with_progs with_kers c_kers]. rewrite K0. reflexivity. }
    change (k_prog T k) with (c_rprog T c).
    replace (num_progs T (add_ker T k c)) with (num_progs T c).
    2:{ unfold num_progs, add_ker. cbn [with_progs c_progs]. now rewrite zlen_modz. }
    now rewrite (proj2 (Z.ltb_lt _ _) L). }
  rewrite SR. cbn [snd fst]. split; [easy|]. intros _. split; [easy|]. split; [exact Hn|].
  split; [easy|]. split; [easy|]. split; [easy|].
  split; [unfold num_kers, add_ker; cbn [with_remap with_progs with_kers c_kers]; rewrite K0; easy|].
  split; [unfold num_progs, add_ker; cbn [with_remap with_progs with_kers c_progs]; apply zlen_modz|].
  split.
  - intros j. unfold prog_compiled, add_ker. cbn [with_remap with_progs with_kers c_progs]. rewrite nthz_modz.
    destruct (j =? k_prog T k); [|easy]. destruct (nthz (c_progs T c) j); easy.
  - exists p. split; [easy|]. unfold add_ker. cbn [with_remap with_progs with_kers c_kers]. rewrite K0. reflexivity.
Qed.

Lemma select_other_ok : forall e i c, env_ok e -> Inv c -> 0 <= i -> 0 <= c_rprog T c ->
  snd (select_other T N e i c) =
  (negb (has_node T c) && (i <? c_nodes T c) && e_flag e && forallb (builds_on e i) (c_progs T c) && has_remap_prog T c).
Proof.
  intros e i c Ok V L R0. unfold select_other, has_remap_prog.
  pose proof (do_select_ok e i c V L) as D. rewrite <- D.
  pose proof (do_select_state e i c V L) as S. pose proof (Inv_do_select T e i c L V) as W.
  destruct (do_select T e i c) as [c1 ok]. cbn [fst snd] in *. destruct ok; [|easy]. cbn [andb].
  destruct (S eq_refl) as (S1 & S2 & S3 & S4 & S5 & S6 & S7 & S8).
  rewrite <- S4 in S8.
  destruct (init_kers_fresh e c1 Ok W S1 S3 S8) as [G _]; [now rewrite S5|]. rewrite G. now rewrite S5, S4.
Qed.

Lemma assign_slot_ok : forall c k, c_rker T c = 0 -> has_node T c = true -> nthz (c_kers T c) 0 = Some k -> 0 < num_kers T c ->
  assign_slot_size T c =
  if 2 <=? k_nargs T k
  then (upd_ker T (fun k => cl_set_arg T 1 (BValue 8) (set_kernel_arg T ARG_VALUE 1 0 k)) 0 c, true) else (c, false).
Proof.
  intros c k R Hn K P. unfold assign_slot_size, has_remap, ker_nargs, ker_get, ker. rewrite R, Hn, K, (proj2 (Z.ltb_lt _ _) P). cbn [andb].
  destruct (2 <=? k_nargs T k); [|easy]. unfold assign_arg. now rewrite (proj2 (Z.ltb_lt _ _) P).
Qed.
Lemma assign_flags_ok : forall f c k, c_rker T c = 0 -> has_node T c = true -> nthz (c_kers T c) 0 = Some k -> 0 < num_kers T c ->
  assign_flags T f c =
  if 2 <=? k_nargs T k then
    if c_debug T c then
      if 2 <? k_nargs T k
      then (upd_ker T (fun k' => cl_set_arg T (k_nargs T k - 1) (BBuffer f) (set_kernel_arg T ARG_BUFFER (k_nargs T k - 1) f k')) 0 c, true)
      else (c, false)
    else (c, true)
  else (c, false).
Proof.
  intros f c k R Hn K P. unfold assign_flags, has_remap, ker_nargs, ker_get, ker. rewrite R, Hn, K, (proj2 (Z.ltb_lt _ _) P). cbn [andb].
  cbv zeta. destruct (2 <=? k_nargs T k); [|easy]. destruct (c_debug T c); [|easy]. destruct (2 <? k_nargs T k); [|easy].
  unfold assign_arg. now rewrite (proj2 (Z.ltb_lt _ _) P).
Qed.

Lemma set_arg_nargs : forall i b t p k, k_nargs T (cl_set_arg T i b (set_kernel_arg T t i p k)) = k_nargs T k.
Proof. intros. unfold set_kernel_arg. now destruct (_ <? _). Qed.
Lemma set_arg_name : forall i b t p k, k_name T (cl_set_arg T i b (set_kernel_arg T t i p k)) = k_name T k.
Proof. intros. unfold set_kernel_arg. now destruct (_ <? _). Qed.
Lemma set_arg_prog : forall i b t p k, k_prog T (cl_set_arg T i b (set_kernel_arg T t i p k)) = k_prog T k.
Proof. intros. unfold set_kernel_arg. now destruct (_ <? _). Qed.
Lemma set_arg_bound : forall i b t p k j, nthz (k_bound T (cl_set_arg T i b (set_kernel_arg T t i p k))) j =
  if j =? i then option_map (fun _ => b) (nthz (k_bound T k) j) else nthz (k_bound T k) j.
Proof. intros. unfold cl_set_arg. cbn [k_with_args k_bound]. rewrite nthz_modz. unfold set_kernel_arg. now destruct (_ <? _). Qed.

Lemma select_index_ok : forall e f i c, env_ok e -> Inv c -> 0 <= i -> 0 <= c_rprog T c ->
  snd (select_index T N e f i c) =
  (negb (has_node T c) && (i <? c_nodes T c) && e_flag e && forallb (builds_on e i) (c_progs T c) && has_remap_prog T c &&
   (if c_debug T c then 2 <? remap_nargs e c else 2 <=? remap_nargs e c)).
Proof.
  intros e f i c Ok V L R0. unfold select_index, has_remap_prog.
  pose proof (do_select_ok e i c V L) as D. rewrite <- D.
  pose proof (do_select_state e i c V L) as S. pose proof (Inv_do_select T e i c L V) as W.
  pose proof (do_select_kept T e i c) as KP.
  destruct (do_select T e i c) as [c1 ok]. cbn [fst snd] in *. destruct ok; [|easy]. cbn [andb].
  destruct (S eq_refl) as (S1 & S2 & S3 & S4 & S5 & S6 & S7 & S8).
  rewrite <- S4 in S8.
  destruct (init_kers_fresh e c1 Ok W S1 S3 S8) as [G G2]; [now rewrite S5|].
  destruct (init_kers T N e c1) as [c2 ok2]. cbn [fst snd] in *. rewrite <- S5, <- S4.
  rewrite G. destruct (Z.ltb_spec (c_rprog T c1) (num_progs T c1)) as [L2|L2]; [|easy]. cbn [andb].
  destruct (G2 L2) as (A1 & A2 & A3 & A4 & A5 & A6 & A7 & A8 & p & P & K).
  rewrite (assign_slot_ok c2 _ A1 A2 K) by (rewrite A6; lia).
  assert (k_nargs T (new_kernel T N (remap_name T e c1) (c_rprog T c1) (e_info e (p_source p) (remap_name T e c1))) = remap_nargs e c) as RN.
  { cbn [new_kernel k_nargs]. unfold remap_nargs.
    assert (exists q, nthz (c_progs T c) (c_rprog T c) = Some q) as [q Q].
    { apply nthz_some. rewrite S4, S5 in L2. unfold num_progs in *. lia. }
    rewrite Q. destruct (KP _ q Q) as (q' & Q' & (_ & Sq & _)). rewrite <- S5 in Q'. rewrite P in Q'. injection Q' as <-.
    rewrite Sq. unfold remap_name. now rewrite S6. }
  rewrite RN. destruct (2 <=? remap_nargs e c) eqn:G3.
  2:{ cbn [snd]. apply Z.leb_gt in G3. destruct (c_debug T c); [|easy]. symmetry. apply Z.ltb_ge. lia. }
  set (c3 := upd_ker T _ 0 c2).
  assert (exists k3, nthz (c_kers T c3) 0 = Some k3 /\ k_nargs T k3 = remap_nargs e c) as (k3 & K3 & N3).
  { unfold c3. rewrite nthz_upd, K. cbn [option_map]. rewrite Z.eqb_refl. eexists. split; [reflexivity|].
    etransitivity; [apply set_arg_nargs|exact RN]. }
  rewrite (assign_flags_ok f c3 k3 A1 A2 K3).
  2:{ unfold c3, num_kers, upd_ker. cbn [with_kers c_kers]. rewrite zlen_modz. unfold num_kers in A6. lia. }
  rewrite N3, G3. change (c_debug T c3) with (c_debug T c2). rewrite A4, S6.
  destruct (c_debug T c); [|easy]. now destruct (2 <? remap_nargs e c).
Qed.

(* state after a successful selection by index *)
Lemma select_index_state : forall e f i c, env_ok e -> Inv c -> 0 <= i -> 0 <= c_rprog T c ->
  snd (select_index T N e f i c) = true ->
  let c' := fst (select_index T N e f i c) in
  has_node T c' = true /\ c_sel T c' = i /\ remap_kernel T c' = 0 /\ num_kers T c' = 1 /\ num_progs T c' = num_progs T c /\
  ker_name T 0 c' = Some (remap_name T e c) /\ ker_prog T 0 c' = c_rprog T c /\
  (forall j, 0 <= j < num_progs T c -> prog_compiled T j c' = true) /\
  ker_bound T 0 1 c' = Some (BValue 8) /\
  (c_debug T c = true -> ker_bound T 0 (remap_nargs e c - 1) c' = Some (BBuffer f)).
Proof.
  intros e f i c Ok V L R0 Hs. cbv zeta. revert Hs.
  pose proof (select_index_ok e f i c Ok V L R0) as Hiff.
  intros Hs. rewrite Hs in Hiff. symmetry in Hiff. revert Hs.
  apply andb_true_iff in Hiff. destruct Hiff as [Hiff HN]. apply andb_true_iff in Hiff. destruct Hiff as [HD HR].
  unfold select_index, has_remap_prog in *.
  pose proof (do_select_ok e i c V L) as D. rewrite HD in D.
  pose proof (do_select_state e i c V L) as S. pose proof (Inv_do_select T e i c L V) as W.
  pose proof (do_select_kept T e i c) as KP.
  destruct (do_select T e i c) as [c1 ok]. cbn [fst snd] in *. subst ok.
  destruct (S eq_refl) as (S1 & S2 & S3 & S4 & S5 & S6 & S7 & S8).
  rewrite <- S4 in S8.
  destruct (init_kers_fresh e c1 Ok W S1 S3 S8) as [G G2]; [now rewrite S5|].
  destruct (init_kers T N e c1) as [c2 ok2]. cbn [fst snd] in *. rewrite <- S5, <- S4 in HR. rewrite HR in G. subst ok2.
  apply Z.ltb_lt in HR. destruct (G2 HR) as (A1 & A2 & A3 & A4 & A5 & A6 & A7 & A8 & p & P & K).
  rewrite (assign_slot_ok c2 _ A1 A2 K) by (rewrite A6; lia).
  set (k1 := new_kernel T N (remap_name T e c1) (c_rprog T c1) (e_info e (p_source p) (remap_name T e c1))) in *.
  assert (k_nargs T k1 = remap_nargs e c) as RN.
  { unfold k1. cbn [new_kernel k_nargs]. unfold remap_nargs.
    assert (exists q, nthz (c_progs T c) (c_rprog T c) = Some q) as [q Q].
    { apply nthz_some. rewrite S4, S5 in HR. unfold num_progs in *. lia. }
    rewrite Q. destruct (KP _ q Q) as (q' & Q' & (_ & Sq & _)). rewrite <- S5 in Q'. rewrite P in Q'. injection Q' as <-.
    rewrite Sq. unfold remap_name. now rewrite S6. }
  rewrite RN. assert (2 <= remap_nargs e c) as N2.
  { destruct (c_debug T c); [apply Z.ltb_lt in HN; lia|now apply Z.leb_le in HN]. }
  rewrite (proj2 (Z.leb_le _ _) N2).
  set (g := fun k => cl_set_arg T 1 (BValue 8) (set_kernel_arg T ARG_VALUE 1 0 k)).
  set (c3 := upd_ker T g 0 c2).
  assert (nthz (c_kers T c3) 0 = Some (g k1)) as K3.
  { unfold c3. rewrite nthz_upd, K. easy. }
  assert (k_nargs T (g k1) = remap_nargs e c) as N3.
  { unfold g. etransitivity; [apply set_arg_nargs|exact RN]. }
  assert (num_kers T c3 = 1) as NK3.
  { unfold c3, num_kers, upd_ker. cbn [with_kers c_kers]. rewrite zlen_modz. exact A6. }
  rewrite (assign_flags_ok f c3 (g k1) A1 A2 K3) by (rewrite NK3; lia).
  rewrite N3. rewrite (proj2 (Z.leb_le _ _) N2). change (c_debug T c3) with (c_debug T c2). rewrite A4, S6.
  assert (args_ok T k1) as AO by (now apply new_kernel_ok).
  assert (k_name T (g k1) = remap_name T e c /\ k_prog T (g k1) = c_rprog T c /\
    nthz (k_bound T (g k1)) 1 = Some (BValue 8)) as (G1 & G3 & G4).
  { destruct AO as (O1 & O2 & O3 & O4).
    assert (exists b, nthz (k_bound T k1) 1 = Some b) as [b B].
    { apply nthz_some. lia. }
    unfold g. rewrite set_arg_name, set_arg_prog, set_arg_bound, B, Z.eqb_refl.
    split; [unfold k1; cbn [new_kernel k_name]; unfold remap_name; now rewrite S6|].
    split; [exact S5|easy]. }
  destruct (c_debug T c) eqn:DB.
  - rewrite HN. intros _. cbn [fst].
    set (g2 := fun k' => cl_set_arg T (remap_nargs e c - 1) (BBuffer f) (set_kernel_arg T ARG_BUFFER (remap_nargs e c - 1) f k')).
    set (c4 := upd_ker T g2 0 c3).
    assert (nthz (c_kers T c4) 0 = Some (g2 (g k1))) as K4.
    { unfold c4. rewrite nthz_upd, K3. easy. }
    assert (num_kers T c4 = 1) as NK4.
    { unfold c4, num_kers, upd_ker. cbn [with_kers c_kers]. rewrite zlen_modz. exact NK3. }
    apply Z.ltb_lt in HN.
    assert (k_name T (g2 (g k1)) = remap_name T e c /\ k_prog T (g2 (g k1)) = c_rprog T c /\
      nthz (k_bound T (g2 (g k1))) 1 = Some (BValue 8) /\ nthz (k_bound T (g2 (g k1))) (remap_nargs e c - 1) = Some (BBuffer f)) as (U1 & U2 & U3 & U4).
    { assert (exists b, nthz (k_bound T (g k1)) (remap_nargs e c - 1) = Some b) as [b B].
      { unfold g. rewrite set_arg_bound. destruct AO as (O1 & O2 & O3 & O4).
        destruct (proj2 (nthz_some _ (k_bound T k1) (remap_nargs e c - 1))) as [b B]; [lia|].
        rewrite B. destruct (_ =? _); eexists; reflexivity. }
      unfold g2. rewrite set_arg_name, set_arg_prog, !set_arg_bound, B, Z.eqb_refl.
      destruct (Z.eqb_spec 1 (remap_nargs e c - 1)); [lia|]. easy. }
    change (has_node T c4) with (has_node T c2).
    split; [exact A2|]. split; [exact (eq_trans A3 S2)|].
    assert (remap_kernel T c4 = 0) as RK.
    { unfold remap_kernel, has_remap. change (has_node T c4) with (has_node T c2). change (c_rker T c4) with (c_rker T c2).
      rewrite A2, A1, NK4. easy. }
    split; [exact RK|]. split; [exact NK4|]. split; [exact (eq_trans A7 S4)|].
    unfold ker_name, ker_prog, ker_bound, ker. change (has_node T c4) with (has_node T c2). rewrite A2, K4. cbn [option_map].
    split; [congruence|]. split; [easy|]. split.
    + intros j Lj. change (prog_compiled T j c4) with (prog_compiled T j c2). rewrite A8. apply S8. now rewrite S4.
    + split; [exact U3|intros _; exact U4].
  - intros _. cbn [fst]. change (has_node T c3) with (has_node T c2).
    split; [exact A2|]. split; [exact (eq_trans A3 S2)|].
    assert (remap_kernel T c3 = 0) as RK.
    { unfold remap_kernel, has_remap. change (has_node T c3) with (has_node T c2). change (c_rker T c3) with (c_rker T c2).
      rewrite A2, A1, NK3. easy. }
    split; [exact RK|]. split; [exact NK3|]. split; [exact (eq_trans A7 S4)|].
    unfold ker_name, ker_prog, ker_bound, ker. change (has_node T c3) with (has_node T c2). rewrite A2, K3. cbn [option_map].
    split; [congruence|]. split; [easy|]. split.
    + intros j Lj. change (prog_compiled T j c3) with (prog_compiled T j c2). rewrite A8. apply S8. now rewrite S4.
    + split; [exact G4|discriminate].
Qed.

(* the lowest kernel of a name *)
Lemma find_from_spec : forall name np ks i,
  Forall (fun k => k_prog T k < np) ks ->
  let r := find_from T i name np ks in
  (exists n k, nth_error ks n = Some k /\ k_name T k = name /\ r = i + Z.of_nat n /\
     forall m k', (m < n)%nat -> nth_error ks m = Some k' -> k_name T k' <> name)
  \/ (r = ILLEGAL /\ forall n k, nth_error ks n = Some k -> k_name T k <> name).
Proof.
  intros name np. induction ks as [|k ks IH]; intros i H; cbv zeta; cbn [find_from].
  - right. split; [easy|]. intros n k E. now destruct n.
  - inversion H as [|? ? H1 H2]; subst. rewrite (proj2 (Z.ltb_lt _ _) H1). cbn [andb].
    destruct (chars_eqb (k_name T k) name) eqn:E.
    + left. apply chars_eqb_eq in E. exists 0%nat, k. split; [easy|]. split; [easy|]. split; [lia|]. intros m k' L. lia.
    + apply chars_eqb_neq in E. destruct (IH (i + 1) H2) as [(n & k0 & X1 & X2 & X3 & X4)|[X1 X2]].
      * left. exists (S n), k0. split; [easy|]. split; [easy|]. split; [lia|].
        intros [|m] k' L Q; [now injection Q as <-|]. apply (X4 m k'); [lia|easy].
      * right. split; [easy|]. intros [|n] k' Q; [now injection Q as <-|]. now apply (X2 n).
Qed.

(* ---- the id of the remapping program ---- *)
Lemma add_code_rprog : forall e s o c, c_rprog T (fst (add_code T e s o c)) = c_rprog T c.
Proof. intros. unfold add_code. destruct (is_empty s); [easy|]. now destruct (has_node T c). Qed.
Lemma add_file_rprog : forall e s o r c, c_rprog T (fst (add_file T e s o r c)) = c_rprog T c /\ 0 <= snd (add_file T e s o r c).
Proof.
  intros. unfold add_file. cbv zeta. destruct (is_empty _); [easy|]. destruct (e_file e _) as [t|]; [|easy].
  destruct (is_empty t) eqn:E; [easy|]. apply is_empty_false in E.
  pose proof (add_code_rprog e t (if is_empty o then c_opts T c else o) c) as G.
  destruct (add_code_progs T e t (if is_empty o then c_opts T c else o) c E) as (p & A & _). rewrite A in *. cbn [fst snd] in *.
  split; [exact G|]. apply zlen_nonneg.
Qed.
Lemma init_progs_rprog : forall e c, 0 <= c_rprog T (fst (init_progs T e c)).
Proof.
  intros. unfold init_progs. pose proof (add_file_rprog e (remap_file T c) (default_options T e c) false c) as [_ G].
  destruct (add_file T e _ _ false c). exact G.
Qed.
Lemma compile_rprog : forall e id c, c_rprog T (fst (compile T e id c)) = c_rprog T c.
Proof.
  intros. unfold compile. destruct (_ && _); [|easy]. destruct (nthz _ _); [|easy]. destruct (nthz _ _); [|easy].
  now destruct (do_compile _ _ _ _ _).
Qed.
Lemma enable_rprog : forall e name id c, c_rprog T (fst (enable T N e name id c)) = c_rprog T c.
Proof.
  intros. unfold enable. destruct (_ && _); [|easy]. cbv zeta.
  pose proof (compile_rprog e id c) as G.
  destruct (prog_compiled T id c).
  - destruct (nthz _ _); [|easy]. destruct (nthz _ _); [|easy]. now destruct (_ && _).
  - destruct (compile T e id c) as [c1 b]. cbn [fst] in G.
    destruct (nthz _ _); [|easy]. destruct (nthz _ _); [|easy]. destruct b; [easy|]. now destruct (_ && _).
Qed.
Lemma set_remap_rprog : forall id c, Inv c -> 0 <= c_rprog T c -> 0 <= c_rprog T (fst (set_remap T id c)).
Proof.
  intros id c V L. unfold set_remap. destruct (has_node T c); [|easy]. destruct (nthz _ _) as [k|] eqn:K; [|easy].
  destruct (_ <? _); [|easy]. cbn [fst with_remap c_rprog]. apply (inv_k T c V id k) in K. lia.
Qed.
Lemma init_kers_rprog : forall e c, env_ok e -> Inv c -> 0 <= c_rprog T c -> 0 <= c_rprog T (fst (init_kers T N e c)).
Proof.
  intros e c Ok V L. unfold init_kers. destruct (_ && _); [|easy].
  pose proof (enable_rprog e (remap_name T e c) (c_rprog T c) c) as G.
  pose proof (Inv_enable T N e (remap_name T e c) (c_rprog T c) c Ok V) as W. destruct (enable T N e _ _ c) as [c1 id].
  apply set_remap_rprog; [exact W|]. cbn [fst] in G. lia.
Qed.
Lemma do_select_rprog : forall e i c, c_rprog T (fst (do_select T e i c)) = c_rprog T c.
Proof. intros. unfold do_select. destruct (_ && _); [|easy]. cbv zeta. now destruct (build_all _ _ _ _). Qed.
Lemma assign_slot_size_rprog : forall c, c_rprog T (fst (assign_slot_size T c)) = c_rprog T c.
Proof.
  intros c. unfold assign_slot_size, assign_arg. destruct (has_remap T c); [|easy]. destruct (2 <=? _); [|easy].
  now destruct (_ <? _).
Qed.
Lemma assign_flags_rprog : forall f c, c_rprog T (fst (assign_flags T f c)) = c_rprog T c.
Proof.
  intros f c. unfold assign_flags, assign_arg. destruct (has_remap T c); [|easy]. cbv zeta. destruct (2 <=? _); [|easy].
  destruct (c_debug T c); [|easy]. destruct (2 <? _); [|easy]. now destruct (_ <? _).
Qed.
Lemma step_rprog : forall e o c c' r, env_ok e -> op_ok o -> Inv c -> 0 <= c_rprog T c -> step T N e o c = Some (c', r) -> 0 <= c_rprog T c'.
Proof.
  intros e o c c' r Ek Ok V L E. destruct o; cbn [step op_ok] in *.
  - injection E as E. pose proof (add_code_rprog e source options c) as G. rewrite E in G. cbn [fst] in G. lia.
  - injection E as E. pose proof (add_file_rprog e path options rel c) as [G _]. rewrite E in G. cbn [fst] in G. lia.
  - pose proof (compile_rprog e id c) as G. destruct (compile T e id c). injection E as <- _. cbn [fst] in G. lia.
  - injection E as E. pose proof (enable_rprog e name id c) as G. rewrite E in G. cbn [fst] in G. lia.
  - unfold set_wgs in E. destruct (ker T id c) as [k|]; [|now injection E as <- _].
    destruct (_ <=? _); now injection E as <- _.
  - unfold assign_arg in E. destruct (_ <? _); [|easy]. now injection E as <- _.
  - injection E as <- _. unfold reset_args. now destruct (_ <? _).
  - unfold reset_arg in E. destruct (_ <? _); [|easy]. now injection E as <- _.
  - unfold run in E. destruct (_ <? _); [|now injection E as <- _]. injection E as <- _.
    now destruct (r_times o) as [[s t]|].
  - injection E as <- _. unfold reset_exec. now destruct (_ <? _).
  - pose proof (set_remap_rprog id c V L) as G. destruct (set_remap T id c). now injection E as <- _.
  - injection E as <- _. unfold set_feature_flag. destruct (is_empty s); [easy|]. now destruct (find_flag _ _).
  - unfold select_index in E. pose proof (do_select_rprog e i c) as G. pose proof (Inv_do_select T e i c Ok V) as W.
    destruct (do_select T e i c) as [c1 ok1]. cbn [fst] in *.
    destruct ok1; [|injection E as <- _; lia].
    assert (0 <= c_rprog T c1) as L1 by lia.
    pose proof (init_kers_rprog e c1 Ek W L1) as G2. destruct (init_kers T N e c1) as [c2 ok2]. cbn [fst] in *.
    destruct ok2; [|injection E as <- _; lia].
    pose proof (assign_slot_size_rprog c2) as G3. destruct (assign_slot_size T c2) as [c3 ok3]. cbn [fst] in *.
    destruct ok3; [|injection E as <- _; lia].
    pose proof (assign_flags_rprog flags c3) as G4. destruct (assign_flags T flags c3) as [c4 ok4]. cbn [fst] in *.
    injection E as <- _. lia.
  - unfold select_other in E. pose proof (do_select_rprog e i c) as G. pose proof (Inv_do_select T e i c Ok V) as W.
    destruct (do_select T e i c) as [c1 ok1]. cbn [fst] in *.
    destruct ok1; [|injection E as <- _; lia].
    assert (0 <= c_rprog T c1) as L1 by lia.
    pose proof (init_kers_rprog e c1 Ek W L1) as G2. destruct (init_kers T N e c1) as [c2 ok2]. cbn [fst] in *.
    injection E as <- _. lia.
  - injection E as <- _. apply init_progs_rprog.
  - injection E as <- _. unfold set_debug. destruct (_ && _); [|easy]. apply init_progs_rprog.
  - unfold reinit in E. destruct (has_node T c); injection E as <- _; [easy|].
    apply init_kers_rprog; [easy| |apply init_progs_rprog]. now apply Inv_init_progs, Inv_clear.
Qed.
Lemma reachable_rprog : forall c, reachable N c -> 0 <= c_rprog T c.
Proof.
  intros c (e & nodes & dir & opts & h & L & H & E).
  assert (0 <= c_rprog T (new_ctx T e nodes dir opts)) as R by apply init_progs_rprog.
  pose proof (Inv_new T e nodes dir opts L) as V. revert R V E. generalize (new_ctx T e nodes dir opts) as c0.
  induction h as [|[e0 o] h IH]; intros c0 R V E; cbn [steps] in E; [now injection E as <-|].
  inversion H as [|? ? [H1 H2] H3]; subst. destruct (step T N e0 o c0) as [[c1 r]|] eqn:S; [|easy].
  apply (IH H3 c1); [| |easy].
  - now apply (step_rprog e0 o c0 c1 r).
  - now apply (Inv_step T N e0 o c0 c1 r).
Qed.

End Select.
