(* C75: programs, kernels, kernel arguments, timings and feature flags of OpenCL contexts. *)
From Coq Require Import Ascii String ZArith Bool List Lia Reals Lra.
From Verif Require Import Num MapsR Tac NodeId OclContext OclContextSpec OclContextProofs OclContextHist OclContextSelect OclContextTimes.
Import ListNotations.
Local Open Scope Z_scope.

(* ---- an installation with two nodes, used in the examples: a compiler that rejects the text "bad" ---- *)
Definition env0 : env :=
  mkEnv (fun p => Some (lit "file ")) 
    (fun _ s _ => if chars_eqb s (lit "bad") then (BuildError, false, lit " no ") else (BuildSuccess, true, lit " ok "))
    (fun _ _ => mkInfo 3 256 32 0) true (lit "st_") (lit "/inc").
Lemma env0_ok : env_ok env0.
Proof. intros s n. cbn. lia. Qed.
Definition ctx0 {T} : ctx T := new_ctx T env0 2 (lit "/dir/") (lit "-O2").
Definition ctx1 {T} (N : NumOps T) : ctx T := fst (select_index T N env0 7 0 ctx0).
Lemma ctx0_reachable : forall T (N : NumOps T), reachable N ctx0.
Proof. intros T N. exists env0, 2, (lit "/dir/"), (lit "-O2"), []. split; [lia|]. split; [constructor|reflexivity]. Qed.
Lemma ctx1_reachable : forall T (N : NumOps T), reachable N (ctx1 N).
Proof.
  intros T N. exists env0, 2, (lit "/dir/"), (lit "-O2"), [(env0, OSelectIndex 7 0)]. split; [lia|]. split.
  - constructor; [|constructor]. split; [apply env0_ok|]. cbn. lia.
  - cbn [steps]. unfold step. fold (@ctx0 T). unfold ctx1. destruct (select_index T N env0 7 0 ctx0). reflexivity.
Qed.

(* Adding a program gives the next id; source and options are readable under it; the program has no path
   and, if a node is selected, it has been built for it, with the log as report. *)
Theorem C75_add_code : forall T e s o (c : ctx T), s <> [] ->
  let c' := fst (add_code T e s o c) in let id := snd (add_code T e s o c) in
  id = num_progs T c /\ num_progs T c' = num_progs T c + 1 /\
  prog_source T id c' = Some s /\ prog_options T id c' = Some o /\ prog_path T id c' = Some [] /\
  prog_has_path T id c' = false /\
  prog_compiled T id c' = (has_node T c && builds_on e (c_sel T c) (mkProg [] s o [] [] false)) /\
  prog_report T id c' =
    Some (if has_node T c && negb (is_empty o)
          then match e_build e (c_sel T c) s o with (BuildNone, _, _) => [] | (_, _, log) => trim log end else []).
Proof.
  intros T e s o c NE. destruct (add_code_progs T e s o c NE) as (p & E & P). rewrite E. cbn [fst snd]. cbv zeta.
  unfold num_progs, prog_source, prog_options, prog_path, prog_has_path, prog_compiled, prog_report.
  cbn [with_progs c_progs]. rewrite nthz_app_last. cbn [option_map].
  split; [easy|]. split; [rewrite zlen_app, zlen_one; easy|].
  destruct (has_node T c) eqn:Hn.
  - pose proof (do_compile_same T e (with_cl T (c_cl T c ++ [s]) c) s (mkProg [] s o [] [] false)) as (S1 & S2 & S3 & S4).
    rewrite P, S1, S2, S3. cbn [p_path p_source p_options]. do 4 (split; [easy|]).
    unfold builds_on. cbn [p_options p_source andb]. unfold do_compile.
    change (has_node T (with_cl T (c_cl T c ++ [s]) c)) with (has_node T c). rewrite Hn. cbn [p_compiled p_kernels p_options negb andb].
    destruct (is_empty o); [easy|]. cbn [negb andb]. change (c_sel T (with_cl T (c_cl T c ++ [s]) c)) with (c_sel T c).
    destruct (e_build e (c_sel T c) s o) as [[st r] l]. destruct st; easy.
  - rewrite P. easy.
Qed.
Print Assumptions C75_add_code.
Example C75_add_code_case : snd (add_code nat env0 (lit "k") (lit "-g") ctx0) = 1.
Proof. vm_compute. reflexivity. Qed.

(* Adding a program from a file: the text of the file is the source, its full path is kept, and without
   options the default ones are used. Nothing is added for an empty path, or a file that is empty or cannot
   be read. *)
Theorem C75_add_file : forall T e f o rel (c : ctx T),
  let full := if is_empty f then [] else if rel : bool then c_dir T c ++ f else f in
  let c' := fst (add_file T e f o rel c) in let id := snd (add_file T e f o rel c) in
  match (if is_empty full then None else e_file e full) with
  | Some (a :: s) =>
      id = num_progs T c /\ num_progs T c' = num_progs T c + 1 /\
      prog_source T id c' = Some (a :: s) /\ prog_options T id c' = Some (if is_empty o then c_opts T c else o) /\
      prog_path T id c' = Some full /\ prog_has_path T id c' = true /\
      prog_compiled T id c' = (has_node T c && builds_on e (c_sel T c) (mkProg [] (a :: s) (if is_empty o then c_opts T c else o) [] [] false))
  | _ => id = ILLEGAL /\ c' = c
  end.
Proof.
  intros T e f o rel c. cbv zeta. unfold add_file. cbv zeta.
  set (full := if is_empty f then [] else if rel then c_dir T c ++ f else f).
  destruct (is_empty full) eqn:EF; [easy|]. destruct (e_file e full) as [[|a s]|]; [easy| |easy].
  cbn [is_empty]. set (opts := if is_empty o then c_opts T c else o).
  assert (a :: s <> []) as NE by easy.
  pose proof (C75_add_code T e (a :: s) opts c NE) as (H1 & H2 & H3 & H4 & H5 & H6 & H7 & H8).
  destruct (add_code T e (a :: s) opts c) as [c1 id]. cbn [fst snd] in *.
  unfold num_progs, prog_source, prog_options, prog_path, prog_has_path, prog_compiled in *. cbn [with_progs c_progs].
  split; [easy|]. split; [now rewrite zlen_modz|]. rewrite nthz_modz, Z.eqb_refl.
  destruct (nthz (c_progs T c1) id) as [p|]; [|easy]. cbn [option_map] in *.
  cbn [p_path p_source p_options p_compiled]. rewrite EF. easy.
Qed.
Print Assumptions C75_add_file.
Example C75_add_file_case : prog_path nat 1 (fst (add_file nat env0 (lit "f.cl") [] true ctx0)) = Some (lit "/dir/f.cl").
Proof. vm_compute. reflexivity. Qed.

(* Programs keep id, source, options and path in every history in which the context is not cleared, its
   debug mode not changed and its default programs not initialised again. *)
Theorem C75_programs_kept : forall T (N : NumOps T) c h c' id, reachable N c -> hist_ok h ->
  forallb (fun x => negb (drops (snd x))) h = true -> steps T N h c = Some c' -> 0 <= id < num_progs T c ->
  id < num_progs T c' /\ prog_source T id c' = prog_source T id c /\ prog_options T id c' = prog_options T id c /\
  prog_path T id c' = prog_path T id c.
Proof.
  intros T N c h c' id R H D E L. pose proof (steps_progs T N h c c' H (Inv_reachable T N c R) D E) as K.
  destruct (proj2 (nthz_some _ (c_progs T c) id) L) as [p P]. destruct (K id p P) as (q & Q & K1 & K2 & K3).
  unfold prog_source, prog_options, prog_path. rewrite P, Q. cbn [option_map]. apply nthz_range in Q.
  split; [apply Q|]. repeat split; congruence.
Qed.
Print Assumptions C75_programs_kept.
Example C75_programs_kept_case : forall T (N : NumOps T), exists c',
  steps T N [(env0, OAddCode (lit "k") (lit "-g")); (env0, OEnable (lit "f") 1); (env0, ORun (mkOut true None) 1 5 2)] (ctx1 N) = Some c'
  /\ num_progs T c' = 2.
Proof. intros. eexists. split; [vm_compute; reflexivity|reflexivity]. Qed.

(* Every kernel has a name, belongs to a compiled program, and no two kernels share program and name. *)
Theorem C75_kernels : forall T (N : NumOps T) c id, reachable N c -> 0 <= id < num_kers T c ->
  has_node T c = true /\
  (exists name, ker_name T id c = Some name /\ name <> []) /\
  0 <= ker_prog T id c < num_progs T c /\ prog_compiled T (ker_prog T id c) c = true /\
  (forall j, j <> id -> ker_prog T j c = ker_prog T id c -> ker_name T j c <> ker_name T id c).
Proof.
  intros T N c id R L. pose proof (Inv_reachable T N c R) as V.
  destruct (proj2 (nthz_some _ (c_kers T c) id) L) as [k K].
  pose proof (kers_has_node T c id k V K) as Hn. destruct (inv_k T c V id k K) as (H1 & H2 & H3).
  unfold ker_name, ker_prog, ker. rewrite Hn, K. cbn [option_map]. split; [easy|]. split; [now exists (k_name T k)|].
  split; [easy|]. split.
  - unfold prog_compiled. destruct (proj2 (nthz_some _ (c_progs T c) (k_prog T k)) H2) as [p P]. rewrite P.
    apply (inv_comp T c V _ p P). intros X. assert (In id (p_kernels p)) as Y.
    { apply (inv_pk T c V _ p P). now exists k. }
    rewrite X in Y. easy.
  - intros j D. destruct (nthz (c_kers T c) j) as [b|] eqn:B; [|easy]. cbn [option_map]. intros E F. injection F as F.
    apply D. now apply (inv_uniq T c V j id b k).
Qed.
Print Assumptions C75_kernels.
Example C75_kernels_case : forall T (N : NumOps T),
  num_kers T (ctx1 N) = 1 /\ ker_name T 0 (ctx1 N) = Some (lit "st_ManagedBuffer_remap_opencl").
Proof. intros. split; vm_compute; reflexivity. Qed.

(* Finding a kernel by name gives the lowest id of a kernel of that name, and the illegal id if there is none. *)
Theorem C75_find : forall T (N : NumOps T) c name, reachable N c -> num_kers T c < ILLEGAL ->
  let r := find_kernel T name c in
  (r <> ILLEGAL -> ker_name T r c = Some name /\ forall j, j < r -> ker_name T j c <> Some name) /\
  (r = ILLEGAL -> forall j, ker_name T j c <> Some name).
Proof.
  intros T N c name R B. cbv zeta. pose proof (Inv_reachable T N c R) as V. unfold find_kernel.
  destruct (is_empty name) eqn:EN.
  - apply is_empty_true in EN. subst name. split; [congruence|]. intros _ j H.
    assert (0 <= j < num_kers T c) as L.
    { unfold ker_name, ker in H. destruct (has_node T c); [|easy].
      destruct (nthz (c_kers T c) j) eqn:K; [|easy]. now apply nthz_range in K. }
    destruct (C75_kernels T N c j R L) as (_ & (n & E & X) & _). congruence.
  - assert (Forall (fun k => k_prog T k < num_progs T c) (c_kers T c)) as F.
    { apply Forall_forall. intros k I. apply In_nth_error in I. destruct I as [n I].
      assert (nthz (c_kers T c) (Z.of_nat n) = Some k) as K.
      { unfold nthz. rewrite (proj2 (Z.ltb_ge (Z.of_nat n) 0)) by lia. now rewrite Nat2Z.id. }
      apply (inv_k T c V) in K. apply K. }
    assert (forall j nm, ker_name T j c = Some nm -> exists n k, j = Z.of_nat n /\ nth_error (c_kers T c) n = Some k /\ k_name T k = nm) as G.
    { intros j nm H. unfold ker_name, ker in H. destruct (has_node T c); [|easy].
      destruct (nthz (c_kers T c) j) as [k|] eqn:K; [|easy]. injection H as H. unfold nthz in K.
      destruct (Z.ltb_spec j 0); [easy|]. exists (Z.to_nat j), k. split; [lia|easy]. }
    destruct (find_from_spec T name (num_progs T c) (c_kers T c) 0 F) as [(n & k & K & E & E2 & M)|[E M]].
    + cbv zeta in *. rewrite E2. rewrite Z.add_0_l. split.
      * intros _. split.
        -- assert (nthz (c_kers T c) (Z.of_nat n) = Some k) as K2.
           { unfold nthz. rewrite (proj2 (Z.ltb_ge (Z.of_nat n) 0)) by lia. now rewrite Nat2Z.id. }
           unfold ker_name, ker. rewrite (kers_has_node T c _ k V K2), K2. cbn [option_map]. now rewrite E.
        -- intros j Lj H. apply G in H. destruct H as (m & k' & -> & K' & E').
           apply (M m k'); [lia|easy|easy].
      * intros X. assert (nth_error (c_kers T c) n <> None) as Y by congruence. apply nth_error_Some in Y.
        unfold num_kers, zlen in B. lia.
    + cbv zeta in *. rewrite E. split; [congruence|]. intros _ j H. apply G in H. destruct H as (m & k' & -> & K' & E').
      now apply (M m k').
Qed.
Print Assumptions C75_find.
Example C75_find_case : forall T (N : NumOps T), find_kernel T (lit "st_ManagedBuffer_remap_opencl") (ctx1 N) = 0.
Proof. intros. vm_compute. reflexivity. Qed.

(* Enabling a kernel succeeds exactly if a node is selected, the program exists and is or can be compiled,
   and no kernel of that name is enabled for it; the id is the next one, and the kernel data are those
   OpenCL reports. *)
Theorem C75_enable : forall T (N : NumOps T) e name id c, reachable N c -> env_ok e -> num_kers T c < ILLEGAL ->
  let c' := fst (enable T N e name id c) in let r := snd (enable T N e name id c) in
  (r <> ILLEGAL <->
     has_node T c = true /\ name <> [] /\ 0 <= id < num_progs T c /\
     (prog_compiled T id c = true \/ can_build e id c = true) /\ ~ enabled name id c) /\
  (r <> ILLEGAL ->
     r = num_kers T c /\ num_kers T c' = num_kers T c + 1 /\
     ker_name T r c' = Some name /\ ker_prog T r c' = id /\
     exists s, prog_source T id c = Some s /\
     let i := e_info e s name in
     ker_nargs T r c' = i_nargs i /\ ker_max T r c' = i_max i /\ ker_pref T r c' = i_pref i /\ ker_local T r c' = i_local i /\
     ker_wgs T r c' = Z.min 0 (i_max i) /\ ker_count T r c' = 0 /\
     forall a, ker_arg_ptr T r a c' = 0 /\ (0 <= a < i_nargs i -> ker_arg_type T r a c' = ARG_NONE)) /\
  (forall j k, nthz (c_kers T c) j = Some k -> nthz (c_kers T c') j = Some k).
Proof.
  intros T N e name id c R Ok B. cbv zeta. pose proof (Inv_reachable T N c R) as V.
  assert (forall j k, nthz (c_kers T c) j = Some k -> nthz (c_kers T (fst (enable T N e name id c))) j = Some k) as KK.
  { intros j k K. now apply enable_kers. }
  assert (has_node T c = false \/ name = [] \/ id < 0 \/ num_progs T c <= id ->
    snd (enable T N e name id c) = ILLEGAL) as RF.
  { intros H. now apply enable_refused. }
  destruct (has_node T c) eqn:Hn.
  2:{ specialize (RF (or_introl eq_refl)). rewrite RF. split; [|split; [congruence|exact KK]]. split; [congruence|]. intros [X _]. easy. }
  destruct (list_eq_dec Ascii.ascii_dec name []) as [NE|NE].
  { rewrite RF by tauto. split; [|split; [congruence|exact KK]]. split; [congruence|]. intros (_ & X & _). easy. }
  destruct (Z.ltb_spec id 0) as [L|L].
  { rewrite RF by tauto. split; [|split; [congruence|exact KK]]. split; [congruence|]. intros (_ & _ & X & _). lia. }
  destruct (Z.ltb_spec id (num_progs T c)) as [L2|L2].
  2:{ rewrite RF by tauto. split; [|split; [congruence|exact KK]]. split; [congruence|]. intros (_ & _ & X & _). lia. }
  pose proof (Inv_enable T N e name id c Ok V) as V'.
  destruct (enable_result T N e name id c Ok V Hn NE (conj L L2)) as [E1 E2].
  assert (snd (enable T N e name id c) <> ILLEGAL <->
    (prog_compiled T id c = true \/ can_build e id c = true) /\ ~ enabled name id c) as IFF.
  { split.
    - intros X. destruct (bool_dec (prog_compiled T id c || can_build e id c) true) as [A|A].
      + apply orb_true_iff in A. split; [exact A|]. intros Y. apply X. apply E2. tauto.
      + exfalso. apply X. apply E2. rewrite orb_true_iff in A. tauto.
    - intros X. destruct (E1 X) as (-> & _). unfold num_kers in *. pose proof (zlen_nonneg _ (c_kers T c)). lia. }
  split; [tauto|]. split; [|exact KK].
  intros X. apply IFF in X. destruct (E1 X) as (-> & H2 & p & P & K).
  split; [easy|]. split; [exact H2|].
  pose proof (kers_has_node T _ _ _ V' K) as Hn'.
  unfold ker_name, ker_prog, ker_nargs, ker_max, ker_pref, ker_local, ker_wgs, ker_count, ker_get, ker, prog_source, ker_arg_ptr, ker_arg_type.
  rewrite Hn', K, P. cbn [option_map new_kernel k_name k_prog k_nargs k_max k_pref k_local k_wgs k_count k_ptrs k_types].
  split; [easy|]. split; [easy|]. exists (p_source p). split; [easy|]. do 6 (split; [easy|]).
  intros a. split.
  - destruct (a <? _); [|easy]. destruct (nthz _ a) as [x|] eqn:X2; [|easy]. apply nthz_in in X2. now apply repeat_spec in X2.
  - intros La. rewrite (proj2 (Z.ltb_lt _ _) (proj2 La)).
    destruct (proj2 (nthz_some _ (repeat ARG_NONE (Z.to_nat (i_nargs (e_info e (p_source p) name)))) a)) as [x Y].
    { unfold zlen. rewrite repeat_length. lia. }
    rewrite Y. apply nthz_in in Y. now apply repeat_spec in Y.
Qed.
Print Assumptions C75_enable.
Example C75_enable_case : forall T (N : NumOps T), snd (enable T N env0 (lit "f") 0 (ctx1 N)) = 1.
Proof. intros. vm_compute. reflexivity. Qed.

(* Kernels keep id, name, program and everything OpenCL reported about them until the context is cleared. *)
Theorem C75_kernels_kept : forall T (N : NumOps T) c h c' id, reachable N c -> hist_ok h ->
  forallb (fun x => negb (is_clear (snd x))) h = true -> steps T N h c = Some c' -> 0 <= id < num_kers T c ->
  id < num_kers T c' /\ ker_name T id c' = ker_name T id c /\ ker_prog T id c' = ker_prog T id c /\
  ker_nargs T id c' = ker_nargs T id c /\ ker_max T id c' = ker_max T id c /\ ker_pref T id c' = ker_pref T id c /\
  ker_local T id c' = ker_local T id c.
Proof.
  intros T N c h c' id R H D E L. pose proof (Inv_reachable T N c R) as V.
  destruct (proj2 (nthz_some _ (c_kers T c) id) L) as [k K].
  pose proof (steps_ker T N h c c' id k H V K D E) as K'.
  pose proof (Inv_steps T N h c c' H V E) as V'.
  pose proof (kers_has_node T c id k V K) as Hn. pose proof (kers_has_node T c' id _ V' K') as Hn'.
  pose proof (fold_same T N h id k) as (S1 & S2 & S3 & S4 & S5 & S6).
  apply nthz_range in K' as L'. split; [apply L'|].
  unfold ker_name, ker_prog, ker_nargs, ker_max, ker_pref, ker_local, ker_get, ker. rewrite Hn, Hn', K, K'. cbn [option_map].
  rewrite S1, S2, S3, S4, S5, S6. easy.
Qed.
Print Assumptions C75_kernels_kept.
Example C75_kernels_kept_case : forall T (N : NumOps T), exists c',
  steps T N [(env0, OSelectIndex 7 1); (env0, ODebug true); (env0, OReinit); (env0, OResetArgs 0)] (ctx1 N) = Some c' /\
  ker_nargs T 0 c' = 3.
Proof. intros. eexists. split; [vm_compute; reflexivity|reflexivity]. Qed.

(* A parameter of a kernel holds what was assigned to it last, in every history which does not assign or
   reset this very parameter and does not clear the context. *)
Theorem C75_arguments : forall T (N : NumOps T) c id i a c1 h c2, reachable N c ->
  0 <= id < num_kers T c -> 0 <= i < ker_nargs T id c -> assign_arg T id i a c = Some c1 ->
  hist_ok h -> forallb (fun x => negb (is_clear (snd x))) h = true ->
  forallb (fun x => negb (sets_arg id i (snd x))) h = true -> steps T N h c1 = Some c2 ->
  ker_arg_ptr T id i c2 = arg_ptr a /\ ker_arg_type T id i c2 = arg_type a /\ ker_bound T id i c2 = Some (arg_bound a).
Proof.
  intros T N c id i a c1 h c2 R L Li A H D S E. pose proof (Inv_reachable T N c R) as V.
  destruct (proj2 (nthz_some _ (c_kers T c) id) L) as [k K].
  pose proof (kers_has_node T c id k V K) as Hn.
  assert (step T N env0 (OAssign id i a) c = Some (c1, 0)) as St by (cbn [step]; now rewrite A).
  pose proof (step_ker T N env0 (OAssign id i a) c c1 0 id k V K eq_refl St) as K1.
  pose proof (Inv_assign T id i a c c1 V A) as V1.
  pose proof (steps_ker T N h c1 c2 id _ H V1 K1 D E) as K2.
  pose proof (Inv_steps T N h c1 c2 H V1 E) as V2.
  pose proof (fold_arg T N h id i (ker_effect T N id (OAssign id i a) k) S) as F.
  pose proof (fold_same T N h id (ker_effect T N id (OAssign id i a) k)) as (_ & _ & S3 & _).
  pose proof (ker_effect_same T N id (OAssign id i a) k) as (_ & _ & S4 & _).
  set (k2 := fold_left _ h _) in *.
  unfold ker_nargs, ker_get, ker in Li. rewrite Hn, K in Li.
  destruct (inv_k T c V id k K) as (_ & _ & (A1 & A2 & A3 & A4)).
  unfold arg_of in F. injection F as F1 F2 F3.
  cbn [ker_effect] in F1, F2, F3. rewrite Z.eqb_refl in F1, F2, F3. unfold cl_set_arg, set_kernel_arg in F1, F2, F3.
  rewrite A2 in F1, F2, F3. rewrite (proj2 (Z.ltb_lt _ _) (proj2 Li)) in F1, F2, F3.
  cbn [k_with_args k_ptrs k_types k_bound] in F1, F2, F3.
  rewrite nthz_modz, Z.eqb_refl in F1, F2, F3.
  destruct (proj2 (nthz_some _ (k_ptrs T k) i)) as [x1 X1]; [lia|].
  destruct (proj2 (nthz_some _ (k_types T k) i)) as [x2 X2]; [lia|].
  destruct (proj2 (nthz_some _ (k_bound T k) i)) as [x3 X3]; [lia|].
  rewrite X1 in F1. rewrite X2 in F2. rewrite X3 in F3. cbn [option_map] in F1, F2, F3.
  unfold ker_arg_ptr, ker_arg_type, ker_bound. rewrite K2, F1, F2, F3.
  rewrite (proj2 (Z.ltb_lt i (k_nargs T k2))) by lia. easy.
Qed.
Print Assumptions C75_arguments.
Example C75_arguments_case : forall T (N : NumOps T), exists c1 c2,
  assign_arg T 0 2 (AArgument 99) (ctx1 N) = Some c1 /\
  steps T N [(env0, OAssign 0 1 (AValue 5)); (env0, OResetArg 0 0)] c1 = Some c2 /\ ker_arg_ptr T 0 2 c2 = 99.
Proof. intros. eexists. eexists. split; [vm_compute; reflexivity|]. split; [vm_compute; reflexivity|reflexivity]. Qed.

(* Assigning to a parameter the kernel does not have changes nothing. *)
Theorem C75_argument_out_of_range : forall T (N : NumOps T) c id i a c1, reachable N c ->
  0 <= id < num_kers T c -> ker_nargs T id c <= i -> assign_arg T id i a c = Some c1 -> c1 = c.
Proof.
  intros T N c id i a c1 R L Li A. pose proof (Inv_reachable T N c R) as V.
  destruct (proj2 (nthz_some _ (c_kers T c) id) L) as [k K].
  pose proof (kers_has_node T c id k V K) as Hn.
  destruct (inv_k T c V id k K) as (_ & _ & (A1 & A2 & A3 & A4)).
  unfold ker_nargs, ker_get, ker in Li. rewrite Hn, K in Li.
  unfold assign_arg in A. destruct (id <? _); [|easy]. injection A as <-. unfold upd_ker.
  rewrite modz_id; [now destruct c|]. intros x X. rewrite K in X. injection X as <-.
  unfold set_kernel_arg. rewrite A2, (proj2 (Z.ltb_ge _ _) Li). unfold cl_set_arg.
  rewrite modz_id; [now destruct k|]. intros y Y. apply nthz_range in Y. lia.
Qed.
Print Assumptions C75_argument_out_of_range.
Example C75_argument_out_of_range_case : forall T (N : NumOps T), ker_nargs T 0 (ctx1 N) = 3 /\ assign_arg T 0 3 (AValue 1) (ctx1 N) = Some (ctx1 N).
Proof. intros. split; vm_compute; reflexivity. Qed.

(* A reset drops the recorded pointer and type of every parameter; what had been assigned as an OpenCL
   argument, buffer or (non-const) pointer is replaced by the default in OpenCL. *)
Theorem C75_reset_arguments : forall T (N : NumOps T) c id i, reachable N c ->
  0 <= id < num_kers T c -> 0 <= i < ker_nargs T id c ->
  ker_arg_ptr T id i (reset_args T id c) = 0 /\ ker_arg_type T id i (reset_args T id c) = ARG_NONE /\
  ker_bound T id i (reset_args T id c) = if ker_arg_ptr T id i c =? 0 then ker_bound T id i c else Some BDefault.
Proof.
  intros T N c id i R L Li. pose proof (Inv_reachable T N c R) as V.
  destruct (proj2 (nthz_some _ (c_kers T c) id) L) as [k K].
  pose proof (kers_has_node T c id k V K) as Hn.
  destruct (inv_k T c V id k K) as (_ & _ & (A1 & A2 & A3 & A4)).
  unfold ker_nargs, ker_get, ker in Li. rewrite Hn, K in Li.
  unfold ker_arg_ptr, ker_arg_type, ker_bound, reset_args. unfold num_kers in *. rewrite (proj2 (Z.ltb_lt _ _) (proj2 L)).
  rewrite nthz_upd, Z.eqb_refl, K. cbn [option_map reset_arguments k_with_args k_nargs k_ptrs k_types k_bound].
  rewrite (proj2 (Z.ltb_lt _ _) (proj2 Li)).
  destruct (proj2 (nthz_some _ (repeat 0 (Z.to_nat (k_nargs T k))) i)) as [x X].
  { unfold zlen. rewrite repeat_length. lia. }
  destruct (proj2 (nthz_some _ (repeat ARG_NONE (Z.to_nat (k_nargs T k))) i)) as [y Y].
  { unfold zlen. rewrite repeat_length. lia. }
  rewrite X, Y. apply nthz_in in X, Y. apply repeat_spec in X, Y. split; [easy|]. split; [easy|].
  assert (forall p b n, (length p = length b)%nat -> (n < length p)%nat ->
    nth_error (reset_bound p b) n = if nth n p 0 =? 0 then nth_error b n else Some BDefault) as G.
  { induction p as [|q p IH]; intros [|d b] n Q M; cbn [length] in *; try lia.
    destruct n as [|n]; cbn [reset_bound nth_error nth]; [now destruct (q =? 0)|]. apply IH; lia. }
  unfold nthz. rewrite (proj2 (Z.ltb_ge i 0)) by lia. unfold zlen in *.
  rewrite (G (k_ptrs T k) (k_bound T k) (Z.to_nat i)) by lia.
  rewrite (nth_error_nth' (k_ptrs T k) 0) by lia. easy.
Qed.
Print Assumptions C75_reset_arguments.
Example C75_reset_arguments_case : forall T (N : NumOps T), exists c1,
  assign_arg T 0 2 (AArgument 99) (ctx1 N) = Some c1 /\ ker_bound T 0 2 c1 = Some (BArg 99) /\
  ker_bound T 0 2 (reset_args T 0 c1) = Some BDefault.
Proof. intros. eexists. split; [vm_compute; reflexivity|]. split; reflexivity. Qed.

(* Resetting a single parameter always replaces it in OpenCL. *)
Theorem C75_reset_argument : forall T (N : NumOps T) c id i c1, reachable N c ->
  0 <= id < num_kers T c -> 0 <= i < ker_nargs T id c -> reset_arg T id i c = Some c1 ->
  ker_arg_ptr T id i c1 = 0 /\ ker_arg_type T id i c1 = ARG_NONE /\ ker_bound T id i c1 = Some BDefault /\
  forall j, j <> i -> ker_arg_ptr T id j c1 = ker_arg_ptr T id j c /\ ker_arg_type T id j c1 = ker_arg_type T id j c /\
    ker_bound T id j c1 = ker_bound T id j c.
Proof.
  intros T N c id i c1 R L Li A. pose proof (Inv_reachable T N c R) as V.
  destruct (proj2 (nthz_some _ (c_kers T c) id) L) as [k K].
  pose proof (kers_has_node T c id k V K) as Hn.
  destruct (inv_k T c V id k K) as (_ & _ & (A1 & A2 & A3 & A4)).
  unfold ker_nargs, ker_get, ker in Li. rewrite Hn, K in Li.
  unfold reset_arg in A. destruct (id <? _); [|easy]. injection A as <-.
  unfold ker_arg_ptr, ker_arg_type, ker_bound. rewrite nthz_upd, Z.eqb_refl, K. cbn [option_map].
  unfold cl_set_arg, set_kernel_arg. cbn [k_with_args k_ptrs]. rewrite A2, (proj2 (Z.ltb_lt _ _) (proj2 Li)).
  cbn [k_with_args k_nargs k_ptrs k_types k_bound]. rewrite (proj2 (Z.ltb_lt _ _) (proj2 Li)).
  destruct (proj2 (nthz_some _ (k_ptrs T k) i)) as [x1 X1]; [lia|].
  destruct (proj2 (nthz_some _ (k_types T k) i)) as [x2 X2]; [lia|].
  destruct (proj2 (nthz_some _ (k_bound T k) i)) as [x3 X3]; [lia|].
  rewrite !nthz_modz, Z.eqb_refl, X1, X2, X3. cbn [option_map]. do 3 (split; [easy|]).
  intros j D. rewrite !nthz_modz. rewrite (proj2 (Z.eqb_neq j i) D). easy.
Qed.
Print Assumptions C75_reset_argument.
Example C75_reset_argument_case : forall T (N : NumOps T), exists c1,
  reset_arg T 0 1 (ctx1 N) = Some c1 /\ ker_bound T 0 1 (ctx1 N) = Some (BValue 8) /\ ker_bound T 0 1 c1 = Some BDefault.
Proof. intros. eexists. split; [vm_compute; reflexivity|]. split; reflexivity. Qed.

(* Values and const pointers survive resetting all parameters: the kernel would run with them again. *)
Theorem C75_reset_arguments_refuted : forall T (N : NumOps T),
  ~ (forall c id i, reachable N c -> 0 <= id < num_kers T c -> 0 <= i < ker_nargs T id c ->
       ker_bound T id i (reset_args T id c) = Some BUnset \/ ker_bound T id i (reset_args T id c) = Some BDefault).
Proof.
  intros T N H. specialize (H (ctx1 N) 0 1 (ctx1_reachable T N)).
  assert (ker_bound T 0 1 (reset_args T 0 (ctx1 N)) = Some (BValue 8)) as E by (vm_compute; reflexivity).
  rewrite E in H. destruct H as [H|H]; try discriminate.
  - replace (num_kers T (ctx1 N)) with 1 by (vm_compute; reflexivity). lia.
  - replace (ker_nargs T 0 (ctx1 N)) with 3 by (vm_compute; reflexivity). lia.
Qed.
Print Assumptions C75_reset_arguments_refuted.

(* Enabling a kernel again does not give its id: it is refused. *)
Theorem C75_enable_again : forall T (N : NumOps T) e e' name id c, reachable N c -> env_ok e -> env_ok e' -> num_kers T c + 1 < ILLEGAL ->
  snd (enable T N e name id c) <> ILLEGAL -> snd (enable T N e' name id (fst (enable T N e name id c))) = ILLEGAL.
Proof.
  intros T N e e' name id c R Ok Ok' B H.
  destruct (C75_enable T N e name id c R Ok) as [H1 [H2 _]]; [lia|]. destruct (H2 H) as (H3 & H4 & H5 & H6 & _).
  set (c' := fst (enable T N e name id c)) in *.
  destruct (Z.eq_dec (snd (enable T N e' name id c')) ILLEGAL) as [E|E]; [exact E|exfalso].
  assert (reachable N c') as R'.
  { destruct R as (e0 & nodes & dir & opts & h & L & Hh & E0).
    exists e0, nodes, dir, opts, (h ++ [(e, OEnable name id)]). split; [easy|]. split.
    - apply Forall_app. split; [easy|]. now constructor.
    - clear - E0. revert E0. generalize (new_ctx T e0 nodes dir opts). induction h as [|[a o] h IH]; intros c0 E0; cbn [steps app] in *.
      + injection E0 as ->. cbn [steps step]. unfold c'. now destruct (enable T N e name id c).
      + destruct (step T N a o c0) as [[c1 r]|]; [|easy]. now apply IH. }
  destruct (C75_enable T N e' name id c' R' Ok') as [G1 _]; [lia|].
  apply G1 in E. destruct E as (_ & _ & _ & _ & E). apply E. now exists (snd (enable T N e name id c)).
Qed.
Print Assumptions C75_enable_again.
Theorem C75_enable_again_refuted : forall T (N : NumOps T),
  ~ (forall e name id c, reachable N c -> env_ok e -> num_kers T c + 1 < ILLEGAL -> snd (enable T N e name id c) <> ILLEGAL ->
       snd (enable T N e name id (fst (enable T N e name id c))) = snd (enable T N e name id c)).
Proof.
  intros T N H. specialize (H env0 (lit "f") 0 (ctx1 N) (ctx1_reachable T N) env0_ok).
  assert (snd (enable T N env0 (lit "f") 0 (ctx1 N)) = 1) as E by (vm_compute; reflexivity). rewrite E in H.
  assert (snd (enable T N env0 (lit "f") 0 (fst (enable T N env0 (lit "f") 0 (ctx1 N)))) = ILLEGAL) as E2 by (vm_compute; reflexivity).
  rewrite E2 in H. assert (ILLEGAL = 1); [|discriminate]. apply H; [|discriminate].
  replace (num_kers T (ctx1 N)) with 1 by (vm_compute; reflexivity). reflexivity.
Qed.
Print Assumptions C75_enable_again_refuted.

(* Times: after a kernel is enabled, in every history without clearing the context, the counter is the number
   of profiled runs since the last reset, and last, average, shortest and longest time are those of these runs
   (the longest if any of them took time at all). *)
Theorem C75_times : forall e name id c h c2, reachable ROps c -> env_ok e -> num_kers R c < ILLEGAL ->
  let c1 := fst (enable R ROps e name id c) in let k := snd (enable R ROps e name id c) in
  k <> ILLEGAL -> hist_ok h -> forallb (fun x => negb (is_clear (snd x))) h = true -> Forall (fun x => ns_ok (snd x)) h ->
  steps R ROps h c1 = Some c2 ->
  let l := taken ROps k h [] in
  ker_count R k c2 = Z.of_nat (length l) /\
  ker_time R ROps (k_tlast R) k c2 = last l 0%R /\
  ker_time R ROps (k_avg R ROps) k c2 = (match l with [] => 0 | _ => fold_left Rplus l 0 / INR (length l) end)%R /\
  (l <> [] -> In (ker_time R ROps (k_tmin R) k c2) l /\ Forall (fun t => ker_time R ROps (k_tmin R) k c2 <= t)%R l) /\
  ((exists t, In t l /\ 0 < t)%R ->
     In (ker_time R ROps (k_tmax R) k c2) l /\ Forall (fun t => t <= ker_time R ROps (k_tmax R) k c2)%R l).
Proof.
  intros e name id c h c2 Rc Ok B. cbv zeta. intros NI H D NS E.
  pose proof (Inv_reachable R ROps c Rc) as V.
  destruct (C75_enable R ROps e name id c Rc Ok B) as [H1 [H2 _]].
  destruct (proj1 H1 NI) as (Hn & NE & L & HH).
  destruct (enable_result R ROps e name id c Ok V Hn NE L) as [G _]. cbv zeta in G.
  destruct (G HH) as (_ & _ & p & _ & K).
  pose proof (Inv_enable R ROps e name id c Ok V) as V1.
  pose proof (steps_ker R ROps h _ c2 _ _ H V1 K D E) as K2.
  pose proof (times_fold h (snd (enable R ROps e name id c)) _ [] (times_new name id (e_info e (p_source p) name))) as (T1 & T2 & T3 & T4 & T5).
  set (k2 := fold_left _ h _) in *. set (kid := snd (enable R ROps e name id c)) in *.
  assert (Forall time_ok (taken ROps kid h [])) as TO by (apply taken_ok; [exact NS|constructor]).
  set (l := taken ROps kid h []) in *.
  unfold ker_count, ker_time. rewrite K2. split; [exact T1|]. split; [exact T3|]. split.
  - unfold k_avg. rops. rewrite T1, T2. unfold zlen, sum_of. destruct l as [|t l0]; [easy|].
    rewrite (proj2 (Z.ltb_lt 0 (Z.of_nat (length (t :: l0))))) by (cbn [length]; lia).
    now rewrite <- INR_IZR_INZ.
  - rewrite T4, T5. split.
    + intros X. now apply fmin_spec.
    + intros X. now apply fmax_spec.
Qed.
Print Assumptions C75_times.
Definition runs0 : list (env * op) :=
  [(env0, ORun (mkOut true (Some (5, 8))) 1 100 32); (env0, OResetExec 1); (env0, ORun (mkOut true (Some (10, 20))) 1 100 32);
   (env0, ORun (mkOut true None) 1 100 32); (env0, ORun (mkOut true (Some (30, 34))) 1 100 32)].
Lemma runs0_some : forall T (N : NumOps T) c, exists c2, steps T N runs0 c = Some c2.
Proof.
  intros T N c. unfold runs0. cbn [steps step]. destruct (run T N _ _ _ _ c) as [c1 b1].
  destruct (run T N _ _ _ _ _) as [c2 b2]. destruct (run T N _ _ _ _ c2) as [c3 b3]. destruct (run T N _ _ _ _ c3) as [c4 b4].
  now exists c4.
Qed.
Lemma runs0_enabled : forall T (N : NumOps T), snd (enable T N env0 (lit "f") 0 (ctx1 N)) = 1.
Proof. intros. vm_compute. reflexivity. Qed.
Example C75_times_case : snd (enable R ROps env0 (lit "f") 0 (ctx1 ROps)) = 1 /\
  (exists c2, steps R ROps runs0 (fst (enable R ROps env0 (lit "f") 0 (ctx1 ROps))) = Some c2) /\
  hist_ok runs0 /\ Forall (fun x => ns_ok (snd x)) runs0 /\
  taken ROps 1 runs0 [] = [seconds ROps 10 20; seconds ROps 30 34].
Proof.
  split; [apply runs0_enabled|]. split; [apply runs0_some|]. split; [|split; [|reflexivity]].
  - unfold runs0. repeat (apply Forall_cons; [split; [apply env0_ok|cbn; lia]|]). apply Forall_nil.
  - unfold runs0. repeat (apply Forall_cons; [cbn; lia|]). apply Forall_nil.
Qed.

(* A run which is enqueued but took no measurable time has a longest time above zero. *)
Lemma ctx1_kernel : forall T (N : NumOps T), num_kers T (ctx1 N) = 1 /\ ker_count T 0 (ctx1 N) = 0 /\
  exists k, nthz (c_kers T (ctx1 N)) 0 = Some k /\ k_tmax T k = dbl_min T N.
Proof. intros. split; [vm_compute; reflexivity|]. split; [vm_compute; reflexivity|]. eexists. split; vm_compute; reflexivity. Qed.
Lemma run_no_time : forall (c : ctx R) k, num_kers R c = 1 -> nthz (c_kers R c) 0 = Some k -> k_tmax R k = dbl_min R ROps ->
  ker_time R ROps (k_tmax R) 0 (fst (run R ROps (mkOut true (Some (5, 5))) 0 100 32 c)) = dbl_min R ROps.
Proof.
  intros c k N1 K M. unfold run. rewrite N1. change (0 <? 1) with true. cbv iota. cbn [fst r_times].
  unfold ker_time. rewrite nthz_upd, Z.eqb_refl, K. cbn [option_map]. rewrite run_time_seconds.
  assert (seconds ROps 5 5 = 0%R) as -> by (unfold seconds; rops; rewrite Z.leb_refl, Z.sub_diag; apply Rmult_0_r).
  unfold add_exec_time. change (nzero ROps) with 0%R. change (nleb ROps) with Rleb. change (nltb ROps) with Rltb.
  rewrite (proj2 (Rleb_true 0 0)) by lra.
  cbn [k_with_last k_with_times k_tmax]. rewrite M. pose proof dbl_min_small as [P _].
  now rewrite (proj2 (Rltb_false (dbl_min R ROps) 0)) by lra.
Qed.
Lemma seconds_zero : seconds ROps 5 5 = 0%R.
Proof. unfold seconds. rops. rewrite Z.leb_refl, Z.sub_diag. apply Rmult_0_r. Qed.
Theorem C75_longest_refuted :
  ~ (forall c id n w s, reachable ROps c -> 0 <= id < num_kers R c -> ker_count R id c = 0 -> 0 <= s < 2 ^ 64 ->
       ker_time R ROps (k_tmax R) id (fst (run R ROps (mkOut true (Some (s, s))) id n w c)) = seconds ROps s s).
Proof.
  intros H. destruct (ctx1_kernel R ROps) as (N1 & N2 & k & K & M).
  pose proof (ctx1_reachable R ROps) as RR. revert N1 N2 K M RR. generalize (ctx1 ROps). intros c N1 N2 K M RR.
  specialize (H c 0 100 32 5 RR ltac:(lia) N2 ltac:(lia)). rewrite (run_no_time c k N1 K M), seconds_zero in H.
  pose proof dbl_min_small as [P _]. lra.
Qed.
Print Assumptions C75_longest_refuted.

(* A run with a work group size uses the smallest multiple of it that covers the requested number, and both
   numbers can be read back if the run was profiled; other kernels are not affected. *)
Theorem C75_run : forall T (N : NumOps T) o id n w (c : ctx T), reachable N c -> 0 <= id < num_kers T c ->
  0 <= n -> 0 <= w -> n + w <= 2 ^ 64 ->
  let c' := fst (run T N o id n w c) in
  snd (run T N o id n w c) = r_ok o /\
  (r_times o <> None -> last_wgs T id c' = w /\
     (w = 0 -> last_items T id c' = n) /\
     (0 < w -> n <= last_items T id c' < n + w /\ last_items T id c' mod w = 0)) /\
  (r_times o = None -> c' = c) /\
  (forall j, j <> id -> nthz (c_kers T c') j = nthz (c_kers T c) j) /\
  c_progs T c' = c_progs T c.
Proof.
  intros T N o id n w c R L Ln Lw Lo. cbv zeta. unfold run, num_kers in *. rewrite (proj2 (Z.ltb_lt _ _) (proj2 L)). cbn [fst snd].
  split; [easy|].
  destruct (proj2 (nthz_some _ (c_kers T c) id) L) as [k K].
  destruct (r_times o) as [[s e]|]; [|easy]. split; [intros _|].
  2:{ split; [easy|]. split; [|easy]. intros j D. rewrite nthz_upd. now rewrite (proj2 (Z.eqb_neq j id) D). }
  unfold last_wgs, last_items. rewrite nthz_upd, Z.eqb_refl, K. cbn [option_map k_with_last k_last_wgs k_last_items].
  split; [easy|]. unfold run_items. split.
  - intros ->. easy.
  - intros P. destruct (Z.eqb_spec w 0) as [Z0|Z0]; [lia|].
    rewrite (Z.mod_small (n + w - 1)) by lia.
    pose proof (Z.div_mod (n + w - 1) w Z0) as DM. pose proof (Z.mod_pos_bound (n + w - 1) w P) as MB.
    set (q := (n + w - 1) / w) in *. replace (w * q) with (q * w) in DM by ring.
    assert (n <= q * w < n + w) as QW by lia. rewrite Z.mod_small by lia.
    split; [exact QW|]. now apply Z.mod_mul.
Qed.
Print Assumptions C75_run.
Example C75_run_case : forall T (N : NumOps T), last_items T 0 (fst (run T N (mkOut true (Some (1, 2))) 0 100 32 (ctx1 N))) = 128.
Proof. intros. vm_compute. reflexivity. Qed.

(* A kernel that does not exist is not run, and nothing changes. *)
Theorem C75_run_unknown : forall T (N : NumOps T) o id n w (c : ctx T), num_kers T c <= id -> run T N o id n w c = (c, false).
Proof. intros T N o id n w c L. unfold run. now rewrite (proj2 (Z.ltb_ge _ _) L). Qed.
Print Assumptions C75_run_unknown.
Example C75_run_unknown_case : num_kers nat ctx0 <= 0.
Proof. vm_compute. discriminate. Qed.

(* The number of work items to launch is the smallest multiple of the work group size (or else of the
   preferred multiple) that covers the requested number. *)
Theorem C75_work_items : forall T id n (c : ctx T),
  let w := if ker_wgs T id c =? 0 then ker_pref T id c else ker_wgs T id c in
  0 <= n -> n + w <= 2 ^ 64 ->
  (0 < w -> n <= calc_items T id n c < n + w /\ calc_items T id n c mod w = 0) /\ (w <= 0 -> calc_items T id n c = n).
Proof.
  intros T id n c. cbv zeta. unfold calc_items. cbv zeta.
  set (w := if ker_wgs T id c =? 0 then ker_pref T id c else ker_wgs T id c). intros Ln Lo. split.
  - intros P. rewrite (proj2 (Z.ltb_lt _ _) P).
    pose proof (Z.div_mod n w) as DM. pose proof (Z.mod_pos_bound n w P) as MB.
    set (q := n / w) in *. replace (w * q) with (q * w) in DM by ring.
    destruct (Z.ltb_spec (q * w) n) as [X|X].
    + assert (0 <= q * w) by (apply Z.mul_nonneg_nonneg; [|lia]; apply Z.div_pos; lia).
      rewrite Z.mod_small by lia. split; [lia|]. replace (q * w + w) with ((q + 1) * w) by ring. apply Z.mod_mul. lia.
    + split; [lia|]. apply Z.mod_mul. lia.
  - intros P. now rewrite (proj2 (Z.ltb_ge _ _) P).
Qed.
Print Assumptions C75_work_items.
Example C75_work_items_case : forall T (N : NumOps T), calc_items T 0 100 (ctx1 N) = 128 /\ ker_pref T 0 (ctx1 N) = 32.
Proof. intros. split; vm_compute; reflexivity. Qed.

(* With requests close to 2^64 the number of work items overflows to zero. *)
Theorem C75_run_overflow_refuted :
  ~ (forall n w, 0 <= n < 2 ^ 64 -> 0 < w < 2 ^ 64 -> n <= run_items n w).
Proof. intros H. specialize (H (2 ^ 64 - 1) 64 ltac:(lia) ltac:(lia)). now vm_compute in H. Qed.
Print Assumptions C75_run_overflow_refuted.

(* The work group size of a kernel is the last accepted one; more than the largest one is refused. *)
Theorem C75_work_group_size : forall T (N : NumOps T) (c : ctx T) id w, reachable N c -> 0 <= w ->
  let c' := fst (set_wgs T id w c) in
  (snd (set_wgs T id w c) = true <-> 0 <= id < num_kers T c /\ w <= ker_max T id c) /\
  (snd (set_wgs T id w c) = true -> ker_wgs T id c' = w /\ forall j, j <> id -> ker_wgs T j c' = ker_wgs T j c) /\
  (snd (set_wgs T id w c) = false -> c' = c).
Proof.
  intros T N c id w R Lw. cbv zeta. pose proof (Inv_reachable T N c R) as V. unfold set_wgs, ker_max, ker_get.
  destruct (ker T id c) as [k|] eqn:K.
  - unfold ker in K. destruct (has_node T c) eqn:Hn; [|easy]. apply nthz_range in K as L.
    destruct (Z.leb_spec w (k_max T k)) as [P|P]; cbn [fst snd].
    + split; [now split|]. split; [|easy]. intros _. unfold ker_wgs, ker_get, ker.
      change (has_node T (upd_ker T (k_with_wgs T w) id c)) with (has_node T c). rewrite Hn. rewrite nthz_upd, Z.eqb_refl, K.
      cbn [option_map k_with_wgs k_wgs k_max]. split; [lia|]. intros j D. rewrite nthz_upd. now rewrite (proj2 (Z.eqb_neq j id) D).
    + split; [|easy]. split; [easy|]. lia.
  - cbn [fst snd]. split; [|easy]. split; [easy|]. intros [L _]. exfalso. unfold ker in K.
    destruct (proj2 (nthz_some _ (c_kers T c) id) L) as [k Kk].
    rewrite (kers_has_node T c id k V Kk) in K. congruence.
Qed.
Print Assumptions C75_work_group_size.
Example C75_work_group_size_case : forall T (N : NumOps T),
  snd (set_wgs T 0 64 (ctx1 N)) = true /\ snd (set_wgs T 0 512 (ctx1 N)) = false.
Proof. intros. split; vm_compute; reflexivity. Qed.

(* ---- feature flags ---- *)
(* A feature flag keeps the value it was first set to, in every history. *)
Theorem C75_flags : forall T (N : NumOps T) h (c c' : ctx T) s v, steps T N h c = Some c' ->
  (feature_flag T s c = Some v -> feature_flag T s c' = Some v) /\
  (feature_flag T s c = None -> (forall w, ~ In (OSetFlag s w) (map snd h)) -> feature_flag T s c' = None).
Proof.
  intros T N h. induction h as [|[e o] h IH]; intros c c' s v E; cbn [steps map snd] in *.
  - injection E as <-. easy.
  - destruct (step T N e o c) as [[c1 r]|] eqn:S; [|easy]. pose proof (step_flags T N e o c c1 r S) as F.
    assert (feature_flag T s c1 = match o with
      | OSetFlag s' v' => match feature_flag T s c with Some w => Some w | None => if is_empty s then None else if chars_eqb s' s then Some v' else None end
      | _ => feature_flag T s c end) as G.
    { unfold feature_flag in *. destruct (is_empty s) eqn:Es; [now destruct o|]. rewrite F. destruct o; try easy.
      rewrite set_flag_find. destruct (find_flag s (c_flags T c)); [easy|]. destruct (is_empty s0) eqn:E0; [|easy].
      apply is_empty_true in E0. subst s0. destruct (chars_eqb [] s) eqn:X; [|easy]. apply chars_eqb_eq in X. subst s. easy. }
    destruct (IH c1 c' s v E) as [I1 I2]. split.
    + intros H. apply I1. rewrite G, H. now destruct o.
    + intros H NI. apply I2.
      * rewrite G, H. destruct o; try easy. destruct (is_empty s); [easy|]. destruct (chars_eqb s0 s) eqn:X; [|easy].
        apply chars_eqb_eq in X. subst s0. exfalso. apply (NI v0). now left.
      * intros w X. apply (NI w). now right.
Qed.
Print Assumptions C75_flags.
Theorem C75_set_flag : forall T s v (c : ctx T), s <> [] -> feature_flag T s c = None ->
  feature_flag T s (set_feature_flag T s v c) = Some v /\ has_feature_flag T s (set_feature_flag T s v c) = true /\
  num_flags T (set_feature_flag T s v c) = num_flags T c + 1 /\
  forall t, t <> s -> feature_flag T t (set_feature_flag T s v c) = feature_flag T t c.
Proof.
  intros T s v c NE H. unfold has_feature_flag, feature_flag in *. rewrite (proj2 (is_empty_false s) NE) in *. cbn [negb andb].
  rewrite !set_flag_find, H, (proj2 (is_empty_false s) NE), chars_eqb_refl. split; [easy|]. split; [easy|]. split.
  - unfold num_flags, set_feature_flag. rewrite (proj2 (is_empty_false s) NE), H. cbn [with_flags c_flags].
    now rewrite zlen_app, zlen_one.
  - intros t D. destruct (is_empty t); [easy|]. rewrite set_flag_find. destruct (find_flag t (c_flags T c)); [easy|].
    rewrite (proj2 (is_empty_false s) NE). now rewrite (proj2 (chars_eqb_neq s t)) by congruence.
Qed.
Print Assumptions C75_set_flag.
Example C75_flags_case : feature_flag nat (lit "_GPUCODE") ctx0 = Some (lit "1") /\ feature_flag nat (lit "X") ctx0 = None.
Proof. split; vm_compute; reflexivity. Qed.

(* A flag that is set cannot be changed: setting it again has no effect. *)
Theorem C75_flag_change_refuted : forall T (N : NumOps T),
  ~ (forall (c : ctx T) s v, reachable N c -> s <> [] -> feature_flag T s (set_feature_flag T s v c) = Some v).
Proof.
  intros T N H. specialize (H ctx0 (lit "_GPUCODE") (lit "0") (ctx0_reachable T N) ltac:(discriminate)).
  vm_compute in H. discriminate.
Qed.
Print Assumptions C75_flag_change_refuted.

(* The text of a flag is prefix, name, separator and value; it is copied, with a zero behind it, into every
   array that has room for it, and the required capacity is exactly enough. *)
Theorem C75_flag_text : forall T s prefix sep out (c : ctx T) v, feature_flag T s c = Some v ->
  let text := prefix ++ s ++ sep ++ v in
  flag_repr T s prefix sep c = text /\ flag_repr_capacity T s prefix sep c = zlen text + 1 /\
  let r := flag_repr_as_cstr T out s prefix sep c in
  length (snd r) = length out /\
  (fst r = 0 <-> flag_repr_capacity T s prefix sep c <= zlen out) /\
  (fst r = 0 -> firstn (length text) (snd r) = text /\ nth (length text) (snd r) "x"%char = zero) /\
  (fst r <> 0 -> snd r = repeat zero (length out)).
Proof.
  intros T s prefix sep out c v H. cbv zeta.
  assert (s <> []) as NE.
  { intros ->. unfold feature_flag in H. cbn in H. discriminate. }
  assert (has_feature_flag T s c = true) as HF.
  { unfold has_feature_flag, feature_flag in *. rewrite (proj2 (is_empty_false s) NE) in *. now rewrite H. }
  assert (flag_repr T s prefix sep c = prefix ++ s ++ sep ++ v) as FR.
  { unfold flag_repr. now rewrite HF, H. }
  set (text := prefix ++ s ++ sep ++ v) in *.
  assert (text <> []) as NT.
  { unfold text. intros X. apply app_eq_nil in X. destruct X as [_ X]. apply app_eq_nil in X. easy. }
  assert (flag_repr_capacity T s prefix sep c = zlen text + 1) as FC.
  { unfold flag_repr_capacity. cbv zeta. rewrite FR. now rewrite (proj2 (is_empty_false text) NT). }
  split; [exact FR|]. split; [exact FC|]. rewrite FC. unfold flag_repr_as_cstr. cbv zeta. rewrite FR.
  rewrite (proj2 (is_empty_false text) NT). cbn [negb andb].
  pose proof (zlen_nonneg _ text) as TP.
  destruct (Z.ltb_spec 0 (zlen out)) as [L|L].
  - destruct (Z.ltb_spec (zlen text) (zlen out)) as [L2|L2]; cbn [fst snd].
    + unfold zlen in L2. split; [rewrite app_length, repeat_length; lia|]. split; [split; intros; [unfold zlen; lia|easy]|].
      split; [|congruence]. intros _. split.
      * rewrite firstn_app, Nat.sub_diag, firstn_all. cbn [firstn]. now rewrite app_nil_r.
      * rewrite app_nth2 by lia. rewrite Nat.sub_diag. destruct (length out - length text)%nat eqn:Q; [lia|]. easy.
    + split; [now rewrite repeat_length|]. split; [split; intros; [easy|lia]|]. easy.
  - cbn [fst snd]. split; [easy|]. split; [split; intros; [easy|lia]|]. split; [easy|]. intros _.
    destruct out; [easy|]. unfold zlen in L. cbn [length] in L. lia.
Qed.
Print Assumptions C75_flag_text.
Example C75_flag_text_case : flag_repr nat (lit "_GPUCODE") (lit "-D") (lit "=") ctx0 = lit "-D_GPUCODE=1".
Proof. vm_compute. reflexivity. Qed.
Theorem C75_flag_text_absent : forall T s prefix sep (c : ctx T), feature_flag T s c = None ->
  has_feature_flag T s c = false /\ flag_repr T s prefix sep c = [] /\ flag_repr_capacity T s prefix sep c = 0.
Proof.
  intros T s prefix sep c H. unfold flag_repr_capacity, flag_repr, has_feature_flag, feature_flag in *.
  destruct (is_empty s); cbn [negb andb]; [easy|]. now rewrite H.
Qed.
Print Assumptions C75_flag_text_absent.
Example C75_flag_text_absent_case : feature_flag nat (lit "X") ctx0 = None.
Proof. vm_compute. reflexivity. Qed.

(* ---- selecting a node ---- *)
(* Selecting a node by its index succeeds exactly if no node is selected, the index is that of a node, the
   status flags can be written, every program can be built for the node, the remapping program exists and the
   remapping kernel has two parameters, in debug mode three; the other ways to select do not look at the
   parameters. *)
Theorem C75_select_iff : forall T (N : NumOps T) e flags i c, reachable N c -> env_ok e -> 0 <= i ->
  let possible := has_node T c = false /\ i < c_nodes T c /\ e_flag e = true /\
    (forall p, In p (c_progs T c) -> builds_on e i p = true) /\ has_remap_prog T c = true in
  (snd (select_other T N e i c) = true <-> possible) /\
  (snd (select_index T N e flags i c) = true <-> possible /\ (if c_debug T c then 2 < remap_nargs T e c else 2 <= remap_nargs T e c)).
Proof.
  intros T N e flags i c R Ok L. cbv zeta. pose proof (Inv_reachable T N c R) as V. pose proof (reachable_rprog T N c R) as RP.
  rewrite (select_other_ok T N e i c Ok V L RP), (select_index_ok T N e flags i c Ok V L RP).
  rewrite !andb_true_iff, negb_true_iff, Z.ltb_lt, forallb_forall.
  split; [tauto|]. destruct (c_debug T c); [rewrite Z.ltb_lt|rewrite Z.leb_le]; tauto.
Qed.
Print Assumptions C75_select_iff.
Example C75_select_iff_case : forall T (N : NumOps T), snd (select_index T N env0 7 1 ctx0) = true /\ snd (select_index T N env0 7 2 ctx0) = false.
Proof. intros. split; vm_compute; reflexivity. Qed.

(* After a successful selection every program is compiled, the remapping kernel is the only kernel, its second
   parameter is the slot size 8 and in debug mode its last one the buffer of the status flags. *)
Theorem C75_select : forall T (N : NumOps T) e flags i c, reachable N c -> env_ok e -> 0 <= i ->
  snd (select_index T N e flags i c) = true ->
  let c' := fst (select_index T N e flags i c) in
  has_node T c' = true /\ c_sel T c' = i /\ remap_kernel T c' = 0 /\ num_kers T c' = 1 /\ num_progs T c' = num_progs T c /\
  ker_name T 0 c' = Some (remap_name T e c) /\ ker_prog T 0 c' = remap_prog T c /\
  (forall j, 0 <= j < num_progs T c -> prog_compiled T j c' = true) /\
  ker_bound T 0 1 c' = Some (BValue 8) /\
  (c_debug T c = true -> ker_bound T 0 (remap_nargs T e c - 1) c' = Some (BBuffer flags)).
Proof.
  intros T N e flags i c R Ok L S. cbv zeta. pose proof (Inv_reachable T N c R) as V. pose proof (reachable_rprog T N c R) as RP.
  pose proof (select_index_state T N e flags i c Ok V L RP S) as (H1 & H2 & H3 & H4 & H5 & H6 & H7 & H8 & H9 & H10).
  do 6 (split; [assumption|]). split; [|split; [assumption|split; assumption]].
  destruct (proj1 (proj2 (C75_select_iff T N e flags i c R Ok L)) S) as [(_ & _ & _ & _ & RM) _].
  unfold remap_prog. now rewrite RM.
Qed.
Print Assumptions C75_select.
Example C75_select_case : forall T (N : NumOps T), snd (select_index T N env0 7 0 (set_debug T env0 true ctx0)) = true /\
  ker_bound T 0 2 (fst (select_index T N env0 7 0 (set_debug T env0 true ctx0))) = Some (BBuffer 7).
Proof. intros. split; vm_compute; reflexivity. Qed.

(* Once a node is selected no other one can be, and trying changes nothing. *)
Theorem C75_select_once : forall T (N : NumOps T) e flags i (c : ctx T), has_node T c = true ->
  select_index T N e flags i c = (c, false) /\ select_other T N e i c = (c, false).
Proof. intros T N e flags i c H. unfold select_index, select_other. now rewrite (do_select_refused T e i c H). Qed.
Print Assumptions C75_select_once.
Example C75_select_once_case : forall T (N : NumOps T), has_node T (ctx1 N) = true.
Proof. intros. vm_compute. reflexivity. Qed.

(* A selection that fails because one program cannot be built leaves the node selected: no other node can be
   selected afterwards, and the remapping kernel is missing. *)
Theorem C75_failed_select_refuted : forall T (N : NumOps T),
  ~ (forall c e flags i, reachable N c -> env_ok e -> 0 <= i -> has_node T c = false ->
       snd (select_index T N e flags i c) = false -> has_node T (fst (select_index T N e flags i c)) = false).
Proof.
  intros T N H. specialize (H (fst (add_code T env0 (lit "bad") (lit "-g") ctx0)) env0 7 0).
  assert (reachable N (fst (add_code T env0 (lit "bad") (lit "-g") ctx0))) as R.
  { exists env0, 2, (lit "/dir/"), (lit "-O2"), [(env0, OAddCode (lit "bad") (lit "-g"))]. split; [lia|]. split.
    - constructor; [|constructor]. split; [apply env0_ok|exact Logic.I].
    - cbn [steps step]. fold (@ctx0 T). now destruct (add_code T env0 (lit "bad") (lit "-g") ctx0). }
  assert (has_node T (fst (select_index T N env0 7 0 (fst (add_code T env0 (lit "bad") (lit "-g") ctx0)))) = true) as E by (vm_compute; reflexivity).
  rewrite E in H. assert (true = false); [|discriminate].
  apply H; [exact R|apply env0_ok|lia|vm_compute; reflexivity|vm_compute; reflexivity].
Qed.
Print Assumptions C75_failed_select_refuted.

(* A program added with empty options is never built, although an OpenCL compiler would accept it. *)
Theorem C75_no_options_refuted : forall T (N : NumOps T),
  ~ (forall c e s o, reachable N c -> has_node T c = true -> s <> [] ->
       fst (fst (e_build e (c_sel T c) s o)) = BuildSuccess ->
       prog_compiled T (snd (add_code T e s o c)) (fst (add_code T e s o c)) = true).
Proof.
  intros T N H. specialize (H (ctx1 N) env0 (lit "k") [] (ctx1_reachable T N)).
  assert (prog_compiled T (snd (add_code T env0 (lit "k") [] (ctx1 N))) (fst (add_code T env0 (lit "k") [] (ctx1 N))) = false) as E by (vm_compute; reflexivity).
  rewrite E in H. assert (false = true); [|discriminate].
  apply H; [vm_compute; reflexivity|discriminate|vm_compute; reflexivity].
Qed.
Print Assumptions C75_no_options_refuted.

(* Changing the debug mode registers the default program twice. *)
Theorem C75_debug_refuted : forall T (N : NumOps T),
  ~ (forall c e b i j, reachable N c -> prog_has_path T i (set_debug T e b c) = true ->
       prog_path T i (set_debug T e b c) = prog_path T j (set_debug T e b c) -> i = j).
Proof.
  intros T N H. specialize (H ctx0 env0 true 0 1 (ctx0_reachable T N)).
  assert (0 = 1); [|discriminate]. apply H; vm_compute; reflexivity.
Qed.
Print Assumptions C75_debug_refuted.

(* If the file of the default program is missing this is reported as a success, and no node can be selected
   successfully any more. *)
Definition env_empty : env := mkEnv (fun _ => None) (e_build env0) (e_info env0) true (lit "st_") (lit "/inc").
Theorem C75_missing_file_refuted : forall T (N : NumOps T),
  ~ (forall c e, reachable N c -> snd (init_progs T e (do_clear T c)) = true -> has_remap_prog T (fst (init_progs T e (do_clear T c))) = true).
Proof.
  intros T N H. specialize (H ctx0 env_empty (ctx0_reachable T N)).
  assert (has_remap_prog T (fst (init_progs T env_empty (do_clear T ctx0))) = false) as E by (vm_compute; reflexivity).
  rewrite E in H. assert (false = true); [|discriminate]. apply H. vm_compute. reflexivity.
Qed.
Print Assumptions C75_missing_file_refuted.

(* Clearing a context drops all kernels and programs but the default one, and the selection; the flags stay. *)
Theorem C75_clear : forall T e (c : ctx T),
  has_node T (clear T e c) = false /\ num_kers T (clear T e c) = 0 /\ c_flags T (clear T e c) = c_flags T c /\
  match e_file e (remap_file T c) with
  | Some (a :: s) =>
      num_progs T (clear T e c) = 1 /\ prog_source T 0 (clear T e c) = Some (a :: s) /\ prog_path T 0 (clear T e c) = Some (remap_file T c) /\
      prog_options T 0 (clear T e c) = Some (default_options T e c) /\ remap_prog T (clear T e c) = 0
  | _ => num_progs T (clear T e c) = 0 /\ remap_prog T (clear T e c) = ILLEGAL
  end.
Proof.
  intros T e c.
  assert (is_empty (remap_file T c) = false) as NE.
  { apply is_empty_false. unfold remap_file. intros X. apply app_eq_nil in X. now destruct X as [_ X], (c_debug T c). }
  assert (is_empty (default_options T e c) = false) as NO.
  { apply is_empty_false. unfold default_options. intros X. apply app_eq_nil in X. destruct X as [_ X]. apply app_eq_nil in X. destruct X as [_ X]. discriminate. }
  assert (has_node T (do_clear T c) = false) as HN by reflexivity.
  unfold clear, init_progs, add_file. change (remap_file T (do_clear T c)) with (remap_file T c).
  change (default_options T e (do_clear T c)) with (default_options T e c). rewrite NE, NE. cbv zeta.
  destruct (e_file e (remap_file T c)) as [[|a s]|] eqn:F; cbn [fst snd]; try (repeat split; reflexivity).
  unfold add_code. cbn [is_empty]. rewrite HN, NO. cbn [fst snd]. repeat split; reflexivity.
Qed.
Print Assumptions C75_clear.
Example C75_clear_case : forall T (N : NumOps T), num_progs T (clear T env0 (ctx1 N)) = 1.
Proof. intros. vm_compute. reflexivity. Qed.

(* The report kept of a build is the log of the compiler without the white space at its ends; a log that is then a
   single zero character counts as empty. *)
Lemma drop_spaces_split : forall s, exists a, s = a ++ drop_spaces s /\ Forall (fun x => is_space x = true) a /\
  (drop_spaces s = [] \/ exists x r, drop_spaces s = x :: r /\ is_space x = false).
Proof.
  induction s as [|x s (a & A & B & C)]; [exists []; cbn; auto|]. cbn [drop_spaces]. destruct (is_space x) eqn:E.
  - exists (x :: a). split; [cbn [app]; now rewrite <- A|]. split; [now constructor|exact C].
  - exists []. split; [easy|]. split; [constructor|]. right. now exists x, s.
Qed.
Theorem C75_report : forall log, exists a m b, log = a ++ m ++ b /\
  Forall (fun x => is_space x = true) a /\ Forall (fun x => is_space x = true) b /\
  (forall x r, m = x :: r -> is_space x = false) /\ (forall r x, m = r ++ [x] -> is_space x = false) /\
  trim log = (if chars_eqb m [zero] then [] else m).
Proof.
  intros log. destruct (drop_spaces_split (rev log)) as (b & B1 & B2 & B3).
  destruct (drop_spaces_split (rev (drop_spaces (rev log)))) as (a & A1 & A2 & A3).
  set (u := drop_spaces (rev log)) in *. set (m := drop_spaces (rev u)) in *.
  exists a, m, (rev b). split; [|split; [exact A2|split; [now apply Forall_rev|split; [|split]]]].
  - rewrite <- (rev_involutive log), B1, rev_app_distr, A1, <- app_assoc. reflexivity.
  - intros x r E. destruct A3 as [A3|(y & r' & A3 & A4)]; [congruence|]. rewrite A3 in E. injection E as <- _. exact A4.
  - intros r x E. rewrite E in A1. rewrite app_assoc in A1.
    assert (u = x :: rev (a ++ r)) as U by (rewrite <- (rev_involutive u), A1, rev_app_distr; reflexivity).
    destruct B3 as [B3|(y & r' & B3 & B4)]; [congruence|]. rewrite B3 in U. injection U as -> _. exact B4.
  - unfold trim. fold u. fold m. cbv zeta. destruct m as [|x [|y m']]; [reflexivity| |].
    + cbn [chars_eqb]. now rewrite andb_true_r.
    + cbn [chars_eqb]. now rewrite andb_false_r.
Qed.
Print Assumptions C75_report.
Example C75_report_case : trim (lit "  two words ") = lit "two words".
Proof. reflexivity. Qed.
