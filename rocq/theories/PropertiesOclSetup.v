(* C77: setting up OpenCL contexts for tracking. *)
From Coq Require Import Ascii String ZArith Bool List Lia.
From Verif Require Import Num Tac NodeId OclContext OclContextProofs OclTrack OclTrackSpec OclTrackProofs OclSetup OclSetupSpec OclSetupProofs.
Import ListNotations.
Local Open Scope Z_scope.

(* ---- an installation used in the examples: the content of a file is its path, and only the kernels of a file are
   found in it ---- *)
Definition dir9 : chars := lit "/kernels/".
Definition table9 : list (chars * chars * Z) :=
  flat_map (fun o => flat_map (fun d => map (fun k =>
      (dir9 ++ lit (file_of o d k), lit "st_" ++ lit (name_of o d k), params d k))
      [KUntil; KLine; KElem; KAsgMon; KClrMon; KAsgElem; KFetch]) [false; true]) [false; true]
  ++ map (fun d : bool => (dir9 ++ lit (remap_file_of d), lit "st_" ++ lit (remap_name_of d), if d then 3 else 2)) [false; true]
  ++ [(dir9 ++ lit addr_file, lit "st_" ++ lit addr_name_of, 8)].
Definition nargs9 (src name : chars) : Z :=
  match find (fun x => chars_eqb (fst (fst x)) src && chars_eqb (snd (fst x)) name) table9 with Some x => snd x | None => 0 end.
Definition env9 : env :=
  mkEnv (fun p => Some p) (fun _ _ _ => (BuildSuccess, true, [])) (fun src name => mkInfo (nargs9 src name) 256 32 0) true
    (lit "st_") (lit "/inc").
Lemma env9_installed : Installed env9 dir9.
Proof.
  split.
  - intros o d k. exists (dir9 ++ lit (file_of o d k)). split; [reflexivity|]. split; [discriminate|].
    destruct o, d, k; vm_compute; reflexivity.
  - intros d. exists (dir9 ++ lit (remap_file_of d)). split; [reflexivity|]. split; [discriminate|]. destruct d; vm_compute; reflexivity.
  - exists (dir9 ++ lit addr_file). split; [reflexivity|]. split; [discriminate|]. vm_compute; reflexivity.
  - reflexivity.
  - reflexivity.
Qed.

(* The constructors with an index, a text, or two numbers ([i'] is the node selected, [i] the one found for what was
   given): on an installation of the library the context has all kernels of the library, the optimised ones unless
   the node found is AMD, each made from the file that has it, with its slot size. *)
Theorem C77_new : forall T (N : NumOps T) amd e nodes dir opts junk feats flags i i', Installed e dir -> 0 <= i' < nodes ->
  let s := new_select T N amd e nodes dir opts junk feats flags i i' in
  SetUp e dir (negb (amd i)) false flags s /\ s_opt T s = negb (amd i).
Proof.
  intros T N amd e nodes dir opts junk feats flags i i' I L. cbv zeta. unfold new_select. cbv zeta.
  eapply ctor_ok; [exact I| |exact L]. now apply new_pre.
Qed.
Print Assumptions C77_new.
Example C77_new_case : forall T (N : NumOps T), SetUp env9 dir9 true false 5 (new_select T N (fun i => i =? 1) env9 2 dir9 (lit "-O2") 77 [] 5 0 0).
Proof. intros T N. exact (proj1 (C77_new T N (fun i => i =? 1) env9 2 dir9 (lit "-O2") 77 [] 5 0 0 env9_installed ltac:(lia))). Qed.

(* Whatever was chosen before on a context without a node (optimised tracking, debug mode, beam-beam effects, feature
   flags, further programs, clearing and initialising again, in any order), selecting a node by its index succeeds and
   gives all kernels of the library for the last choices - optimised tracking is switched off for AMD nodes -, with
   their slot sizes, and in debug mode with the status flags. *)
Theorem C77_history : forall T (N : NumOps T) amd e nodes dir opts junk feats flags h i, Installed e dir -> 0 <= i < nodes ->
  Forall pop_ok h ->
  let r := s_select_index T N amd e flags i (psteps T N e h (new_setup T e nodes dir opts junk feats)) in
  let opt := fst (chosen h false false) && negb (amd i) in let dbg := snd (chosen h false false) in
  snd r = true /\ SetUp e dir opt dbg flags (fst r) /\ s_opt T (fst r) = opt /\
  ker_bound T (remap_kernel T (s_ctx T (fst r))) 1 (s_ctx T (fst r)) = Some (BValue 8) /\
  (dbg = true -> ker_bound T (remap_kernel T (s_ctx T (fst r))) 2 (s_ctx T (fst r)) = Some (BBuffer flags)).
Proof.
  intros T N amd e nodes dir opts junk feats flags h i I L F. cbv zeta. eapply select_index_ok; [exact I| |exact L].
  apply psteps_pre; [exact I|exact F|]. exact (new_pre T e nodes dir opts junk feats false I).
Qed.
Print Assumptions C77_history.
Definition h9 : list pop :=
  [POpt true; PAdd (lit "k") (lit "-g"); PDebug true; PBeamBeam (lit "ENABLED"); PFlag (lit "X") (lit "1"); PAddFile (lit "f") (lit "-g") true].
Example C77_history_case : Forall pop_ok h9 /\ chosen h9 false false = (true, true).
Proof. split; [|reflexivity]. unfold h9. repeat (constructor; [first [exact Logic.I|discriminate]|]). constructor. Qed.

(* Selecting a node by an id or a text gives the same kernels. *)
Theorem C77_other : forall T (N : NumOps T) amd e nodes dir opts junk feats h i, Installed e dir -> 0 <= i < nodes ->
  Forall pop_ok h ->
  let r := s_select_other T N amd e i (psteps T N e h (new_setup T e nodes dir opts junk feats)) in
  let opt := fst (chosen h false false) && negb (amd i) in let dbg := snd (chosen h false false) in
  snd r = true /\ Kernels (s_t T (fst r)) /\ Library e dir opt dbg (s_t T (fst r)).
Proof.
  intros T N amd e nodes dir opts junk feats h i I L F. cbv zeta.
  pose proof (psteps_pre T N e nodes dir h false false _ I F (new_pre T e nodes dir opts junk feats false I)) as P.
  change (fst (init_track_progs T e _)) with (new_setup T e nodes dir opts junk feats) in P.
  set (s := psteps T N e h (new_setup T e nodes dir opts junk feats)) in *.
  destruct (chosen h false false) as [opt dbg]. cbn [fst snd] in *.
  unfold s_select_other, s_do_select.
  set (s0 := if s_opt T s && amd i then set_opt T N e false s else s).
  assert (Pre T e nodes dir (opt && negb (amd i)) dbg s0) as P0.
  { unfold s0. rewrite (pre_opt _ _ _ _ _ _ _ P). destruct opt, (amd i); cbn [andb negb]; try exact P. eapply set_opt_pre; eassumption. }
  destruct (select_kers_ok T N e nodes dir _ dbg i s0 I P0 L) as (c & c1 & s1 & D & K & X & Fu & _). rewrite D.
  unfold init_all_kers. change (s_ctx T (s_with T c s0)) with c. rewrite K.
  change (s_with T c1 (s_with T c s0)) with (s_with T c1 s0). rewrite X. cbn [fst snd]. split; [easy|]. split; apply Fu.
Qed.
Print Assumptions C77_other.
Example C77_other_case : Installed env9 dir9 /\ 0 <= 1 < 2 /\ Forall pop_ok h9.
Proof. split; [apply env9_installed|]. split; [lia|apply C77_history_case]. Qed.

(* A context set up is ready for tracking once its buffers are assigned: every assignment succeeds, and the kernels
   executed are those of C76_history. *)
Theorem C77_ready : forall T e dir opt dbg flags (s : setup T) v, SetUp e dir opt dbg flags s ->
  let r := calls T (assign_rest T v) (s_t T s) in
  snd r = repeat 0 7 /\ Kernels (fst r) /\ Bound (fst r) v.
Proof.
  intros T e dir opt dbg flags s v S. cbv zeta. destruct (rest_ok T v (s_t T s) (su_kernels _ _ _ _ _ _ S) (su_slot _ _ _ _ _ _ S)) as ((A & B) & C).
  auto.
Qed.
Print Assumptions C77_ready.
Example C77_ready_case : forall T (N : NumOps T), SetUp env9 dir9 true false 5 (new_select T N (fun i => i =? 1) env9 2 dir9 (lit "-O2") 77 [] 5 0 0).
Proof. exact C77_new_case. Qed.

(* Assigning addresses on such a context executes the kernel for it once, for all items, with the three buffers and
   the ids given, and reports its outcome. The slot size given for the source is the one of the destination. *)
Lemma put8 : forall A (l : list A) a b c d e f g h, zlen l = 8 ->
  modz (fun _ => h) 7 (modz (fun _ => g) 6 (modz (fun _ => f) 5 (modz (fun _ => e) 4 (modz (fun _ => d) 3 (modz (fun _ => c) 2
    (modz (fun _ => b) 1 (modz (fun _ => a) 0 l))))))) = [a; b; c; d; e; f; g; h].
Proof.
  intros A l a b c d e f g h L. do 8 (destruct l as [|? l]; [discriminate L|]). destruct l as [|? l]; [reflexivity|].
  unfold zlen in L. cbn [length] in L. lia.
Qed.
Lemma assign_arg_at : forall T id i a (c : ctx T) r, nthz (c_kers T c) id = Some r ->
  exists c' r', match assign_arg T id i a c with Some c => c | None => c end = c' /\ nthz (c_kers T c') id = Some r' /\
    k_bound T r' = modz (fun _ => arg_bound a) i (k_bound T r) /\ ker_wgs T id c' = ker_wgs T id c.
Proof.
  intros T id i a c r R. pose proof (nthz_range _ _ _ _ R) as Q. unfold assign_arg. unfold num_kers at 1. rewrite (proj2 (Z.ltb_lt _ _)) by apply Q.
  eexists. eexists. split; [reflexivity|]. unfold upd_ker, with_kers, num_kers. cbn [c_kers]. rewrite nthz_modz, R, Z.eqb_refl. cbn [option_map].
  split; [reflexivity|]. split.
  - unfold cl_set_arg, k_with_args, set_kernel_arg; destruct (i <? zlen (k_ptrs T r)); reflexivity.
  - unfold ker_wgs, ker_get, ker, has_node. cbn [c_kers c_sel c_nodes]. rewrite nthz_modz, R, Z.eqb_refl. cbn [option_map].
    match goal with |- context [if ?b then _ else _] => destruct b end; [|reflexivity].
    unfold cl_set_arg, k_with_args, set_kernel_arg; destruct (i <? zlen (k_ptrs T r)); reflexivity.
Qed.
Theorem C77_addresses : forall T (N : NumOps T) e dir opt dbg flags (s : setup T) o items n islot dest dslot did src sid,
  SetUp e dir opt dbg flags s -> s_aker T s <> ILLEGAL -> did <> 0 -> sid <> 0 -> n <> 0 -> 0 < islot -> 0 < dslot ->
  let r := assign_addresses T N o true items n islot dest dslot did src sid s in
  snd (fst r) = (if r_ok o then [([BArg items; BValue islot; BArg dest; BValue dslot; BValue did; BArg src; BValue dslot; BValue sid],
                                  run_items n (ker_wgs T (s_aker T s) (s_ctx T s)))] else []) /\
    snd r = (if r_ok o then 0 else -1).
Proof.
  intros T N e dir opt dbg flags s o items n islot dest dslot did src sid S K D1 D2 Nn L1 L2. cbv zeta. unfold assign_addresses.
  rewrite (proj2 (Z.eqb_neq _ _) K), (proj2 (Z.eqb_neq _ _) D1), (proj2 (Z.eqb_neq _ _) D2), (proj2 (Z.eqb_neq _ _) Nn).
  rewrite (proj2 (Z.ltb_lt _ _) L1), (proj2 (Z.ltb_lt _ _) L2). cbn [negb andb].
  destruct (su_aargs _ _ _ _ _ _ S) as (r & R & A & B).
  assert ((8 <=? ker_nargs T (s_aker T s) (s_ctx T s)) = true) as E8.
  { unfold ker_nargs, ker_get, ker. pose proof (kn_node _ (su_kernels _ _ _ _ _ _ S)) as H. change (t_ctx T (s_t T s)) with (s_ctx T s) in H.
    rewrite H, R, A. reflexivity. }
  rewrite !E8. cbv iota zeta.
  destruct (assign_arg_at T (s_aker T s) 0 (AArgument items) (s_ctx T s) r R) as (c1 & r1 & -> & R1 & B1 & N1).
  destruct (assign_arg_at T (s_aker T s) 1 (AValue islot) c1 r1 R1) as (c2 & r2 & -> & R2 & B2 & N2).
  destruct (assign_arg_at T (s_aker T s) 2 (AArgument dest) c2 r2 R2) as (c3 & r3 & -> & R3 & B3 & N3).
  destruct (assign_arg_at T (s_aker T s) 3 (AValue dslot) c3 r3 R3) as (c4 & r4 & -> & R4 & B4 & N4).
  destruct (assign_arg_at T (s_aker T s) 4 (AValue did) c4 r4 R4) as (c5 & r5 & -> & R5 & B5 & N5).
  destruct (assign_arg_at T (s_aker T s) 5 (AArgument src) c5 r5 R5) as (c6 & r6 & -> & R6 & B6 & N6).
  destruct (assign_arg_at T (s_aker T s) 6 (AValue dslot) c6 r6 R6) as (c7 & r7 & -> & R7 & B7 & N7).
  destruct (assign_arg_at T (s_aker T s) 7 (AValue sid) c7 r7 R7) as (c8 & r8 & -> & R8 & B8 & N8).
  rewrite R8, B8, B7, B6, B5, B4, B3, B2, B1, put8 by exact B. cbn [arg_bound].
  rewrite N8, N7, N6, N5, N4, N3, N2, N1. unfold run_default, run. pose proof (nthz_range _ _ _ _ R8) as Q. unfold num_kers.
  rewrite (proj2 (Z.ltb_lt _ _)) by apply Q. destruct (r_ok o); split; reflexivity.
Qed.
Print Assumptions C77_addresses.
(* Without the kernel, with an illegal buffer id, with an argument of another context or without a slot size nothing is
   executed or changed and the call fails; with no items to assign it succeeds and does nothing. *)
Theorem C77_addresses_refused : forall T (N : NumOps T) (s : setup T) o ok items n islot dest dslot did src sid,
  (s_aker T s = ILLEGAL \/ did = 0 \/ sid = 0 \/ ok = false \/ n <> 0 /\ (islot <= 0 \/ dslot <= 0) ->
     assign_addresses T N o ok items n islot dest dslot did src sid s = (s, [], -1)) /\
  (s_aker T s <> ILLEGAL -> did <> 0 -> sid <> 0 -> ok = true -> n = 0 ->
     assign_addresses T N o ok items n islot dest dslot did src sid s = (s, [], 0)).
Proof.
  intros T N s o ok items n islot dest dslot did src sid. unfold assign_addresses. cbv zeta. split.
  - intros [-> | [-> | [-> | [-> | [n0 h]]]]].
    + reflexivity.
    + rewrite Z.eqb_refl. cbn [negb]. rewrite andb_false_r. reflexivity.
    + rewrite Z.eqb_refl. cbn [negb]. rewrite andb_false_r. reflexivity.
    + rewrite andb_false_r. reflexivity.
    + match goal with |- (if ?b then _ else _) = _ => destruct b; [|reflexivity] end.
      rewrite (proj2 (Z.eqb_neq _ _) n0). destruct h as [h|h]; rewrite (proj2 (Z.ltb_ge _ _) h).
      * reflexivity.
      * rewrite andb_false_r. reflexivity.
  - intros k d d' -> ->. rewrite (proj2 (Z.eqb_neq _ _) k), (proj2 (Z.eqb_neq _ _) d), (proj2 (Z.eqb_neq _ _) d'). reflexivity.
Qed.
Print Assumptions C77_addresses_refused.
Example C77_addresses_case : forall T (N : NumOps T),
  s_aker T (new_select T N (fun i => i =? 1) env9 2 dir9 (lit "-O2") 77 [] 5 0 0) = 8.
Proof. intros T N. vm_compute. reflexivity. Qed.
Example C77_addresses_refused_case : forall T (N : NumOps T) o,
  let s := new_select T N (fun i => i =? 1) env9 2 dir9 (lit "-O2") 77 [] 5 0 0 in
  assign_addresses T N o true 1 4 8 2 8 3 6 0 s = (s, [], -1) /\ assign_addresses T N o true 1 0 8 2 8 3 6 5 s = (s, [], 0).
Proof.
  intros T N o s. split; apply C77_addresses_refused.
  - right. right. left. reflexivity.
  - unfold s. rewrite C77_addresses_case. discriminate.
  - discriminate.
  - discriminate.
  - reflexivity.
  - reflexivity.
Qed.

(* ---- what does not hold ---- *)
Definition same_place (m : cmd) : bool := match m with Until _ | Line _ _ _ | Elem _ => true | _ => false end.

(* The constructor with a node id decides on optimised tracking after it has set up the programs: it looks for the
   optimised kernels in the program without them. Every tracking call fails. *)
Theorem C77_node_id_refuted : exists amd e nodes dir opts junk feats flags i, Installed e dir /\ 0 <= i < nodes /\
  forall T (N : NumOps T), let s := new_select_id T N amd e nodes dir opts junk feats flags i in
  s_opt T s = true /\ has_node T (s_ctx T s) = true /\
  forall x m, same_place m = true -> track_sel T N x m (s_t T s) = (s_t T s, [], -1).
Proof.
  exists (fun _ => false), env9, 1, dir9, (lit "-O2"), 77, [], 5, 0. split; [apply env9_installed|]. split; [lia|].
  intros T N. cbv zeta. split; [vm_compute; reflexivity|]. split; [vm_compute; reflexivity|].
  assert (forall m, same_place m = true ->
    has_node T (t_ctx T (s_t T (new_select_id T N (fun _ => false) env9 1 dir9 (lit "-O2") 77 [] 5 0))) &&
    (min_args (role_of m) <=? ker_nargs T (kid T (role_of m) (s_t T (new_select_id T N (fun _ => false) env9 1 dir9 (lit "-O2") 77 [] 5 0)))
                                (t_ctx T (s_t T (new_select_id T N (fun _ => false) env9 1 dir9 (lit "-O2") 77 [] 5 0)))) = false) as H.
  { intros m M. destruct m; try discriminate M; vm_compute; reflexivity. }
  intros x m M. specialize (H m M). revert H. generalize (s_t T (new_select_id T N (fun _ => false) env9 1 dir9 (lit "-O2") 77 [] 5 0)).
  intros t H. exact (proj1 (track_none T N x m t H)).
Qed.
Print Assumptions C77_node_id_refuted.

(* Selecting a node by an id or a text leaves the slot sizes of all kernels unset. *)
Theorem C77_select_other_refuted : exists amd e nodes dir opts junk feats i, Installed e dir /\ 0 <= i < nodes /\
  forall T (N : NumOps T), let r := s_select_other T N amd e i (new_setup T e nodes dir opts junk feats) in
  snd r = true /\ forall k, ker_bound T (t_id T (s_t T (fst r)) k) (Z.of_nat (arity k) - 1) (s_ctx T (fst r)) = Some BUnset.
Proof.
  exists (fun _ => false), env9, 1, dir9, (lit "-O2"), 77, [], 0. split; [apply env9_installed|]. split; [lia|].
  intros T N. cbv zeta. split; [vm_compute; reflexivity|]. intros k. destruct k; vm_compute; reflexivity.
Qed.
Print Assumptions C77_select_other_refuted.

(* Selecting an AMD node with optimised tracking switched on drops the programs the user added. *)
Theorem C77_amd_programs_lost_refuted : exists amd e nodes dir opts junk feats flags src popts i, Installed e dir /\ 0 <= i < nodes /\
  popts <> [] /\ forall T (N : NumOps T), let s := psteps T N e [POpt true; PAdd src popts] (new_setup T e nodes dir opts junk feats) in
  In src (map p_source (c_progs T (s_ctx T s))) /\
  snd (s_select_index T N amd e flags i s) = true /\
  ~ In src (map p_source (c_progs T (s_ctx T (fst (s_select_index T N amd e flags i s))))).
Proof.
  exists (fun i => i =? 1), env9, 2, dir9, (lit "-O2"), 77, [], 5, (lit "k"), (lit "-g"), 1. split; [apply env9_installed|]. split; [lia|].
  split; [discriminate|]. intros T N. cbv zeta. split; [|split].
  - vm_compute. tauto.
  - vm_compute. reflexivity.
  - assert (forall c (l : list chars), existsb (chars_eqb c) l = false -> ~ In c l) as H.
    { intros c l E X. apply not_true_iff_false in E. apply E. apply existsb_exists. exists c. split; [exact X|apply chars_eqb_refl]. }
    apply H. vm_compute. reflexivity.
Qed.
Print Assumptions C77_amd_programs_lost_refuted.

(* A text for which no node is found: the constructor takes the default node, and if that is AMD, optimised tracking
   stays switched on. *)
Theorem C77_default_amd_refuted : exists amd e nodes dir opts junk feats flags i i', Installed e dir /\ 0 <= i' < nodes /\
  amd i' = true /\ forall T (N : NumOps T), let s := new_select T N amd e nodes dir opts junk feats flags i i' in
  s_opt T s = true /\ Library e dir true false (s_t T s).
Proof.
  exists (fun i => i =? 0), env9, 1, dir9, (lit "-O2"), 77, [], 5, 1, 0. split; [apply env9_installed|]. split; [lia|].
  split; [reflexivity|]. intros T N. cbv zeta.
  destruct (C77_new T N (fun i => i =? 0) env9 1 dir9 (lit "-O2") 77 [] 5 1 0 env9_installed ltac:(lia)) as (A & B). split; [exact B|apply A].
Qed.
Print Assumptions C77_default_amd_refuted.
