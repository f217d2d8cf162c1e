(* C76: tracking on OpenCL devices: the kernels executed for the calls of a context and of a track job. *)
From Coq Require Import Ascii String ZArith Bool List Lia.
From Verif Require Import Num Tac NodeId OclContext OclContextSpec OclContextProofs OclContextHist OclTrack OclTrackSpec OclTrackProofs PropertiesOclContext.
Import ListNotations.
Local Open Scope Z_scope.

(* ---- a context with all kernels, used in the examples ---- *)
Definition env7 : env :=
  mkEnv (fun p => Some (lit "file ")) (fun _ _ _ => (BuildSuccess, true, lit " ok "))
    (fun _ _ => mkInfo 8 256 32 0) true (lit "st_") (lit "/inc").
Lemma env7_ok : env_ok env7.
Proof. intros s n. cbn. lia. Qed.
Definition h7 : list (env * op) :=
  [(env7, OSelectIndex 7 0); (env7, OAddCode (lit "k") (lit "-g"));
   (env7, OEnable (lit "a") 1); (env7, OEnable (lit "b") 1); (env7, OEnable (lit "c") 1); (env7, OEnable (lit "d") 1);
   (env7, OEnable (lit "e") 1); (env7, OEnable (lit "f") 1); (env7, OEnable (lit "g") 1)].
Definition id7 (k : role) : Z :=
  match k with KUntil => 1 | KLine => 2 | KElem => 3 | KAsgMon => 4 | KClrMon => 5 | KAsgElem => 6 | KFetch => 7 end.
Definition ctx7 {T} (N : NumOps T) : ctx T :=
  match steps T N h7 (new_ctx T env7 2 (lit "/dir/") (lit "-O2")) with Some c => c | None => ctx0 end.
Lemma ctx7_reachable : forall T (N : NumOps T), reachable N (ctx7 N).
Proof.
  intros T N. exists env7, 2, (lit "/dir/"), (lit "-O2"), h7. split; [lia|]. split.
  - unfold h7. repeat (constructor; [split; [apply env7_ok|cbn; lia]|]). constructor.
  - unfold ctx7. vm_compute. reflexivity.
Qed.
Definition t7 {T} (N : NumOps T) : tctx T := mkT T (ctx7 N) 0 0 0 id7.
Lemma t7_kernels : forall T (N : NumOps T), Kernels (t7 N).
Proof.
  intros T N. split.
  - vm_compute. reflexivity.
  - vm_compute. discriminate.
  - intros []; (eexists; split; [vm_compute; reflexivity|]; split; [vm_compute; discriminate|split; vm_compute; reflexivity]).
  - intros [] []; cbn; easy.
Qed.
Definition x0 : tenv := mkX (mkOut true None) true 0.
Definition v7 : view := mkView 11 12 13 14 15 0 2 100.
Definition r7 {T} (N : NumOps T) : tctx T := fst (calls T (prepare T v7) (t7 N)).
Lemma r7_ready : forall T (N : NumOps T), Ready T (r7 N) v7.
Proof. intros T N. apply prepare_ok. apply t7_kernels. Qed.

(* After the default set-up (slot size, configuration index) and assigning all buffers and a particle set,
   every kernel has the arguments assigned; all these calls succeed. *)
Theorem C76_prepare : forall T (t : tctx T) v, Kernels t ->
  let r := calls T (prepare T v) t in
  Kernels (fst r) /\ Bound (fst r) v /\ snd r = [0; 0; 0; 0; 0; 0; 0; 0].
Proof.
  intros T t v K. cbv zeta. destruct (prepare_ok T v t K) as ((A & B) & C & _). auto.
Qed.
Print Assumptions C76_prepare.
Example C76_prepare_case : forall T (N : NumOps T), reachable N (t_ctx T (t7 N)) /\ Kernels (t7 N).
Proof. intros T N. split; [apply ctx7_reachable|apply t7_kernels]. Qed.

(* In every history of assignments, changes of the selected set and of work group sizes, and tracking calls
   of the context and of the job, the device executes exactly the kernels called for, in order and once each,
   with the buffers, set, turns and indices assigned last, for as many work items as there are particles;
   every call returns the status of its run, and only runs which OpenCL refuses are missing. *)
Theorem C76_history : forall T (N : NumOps T) h t v, Kernels t -> Bound t v -> calls_ok v h ->
  exists t' l ss, tsteps T N h t = Some (t', l, ss) /\ Kernels t' /\ Bound t' (final v h) /\
  (map seen l, ss) = all_expected (c_debug T (t_ctx T t)) v h.
Proof.
  intros T N h t v K B C. destruct (tsteps_ok T N h t v (conj K B) C) as (t' & l & ss & A1 & (A2 & A3) & A4).
  exists t', l, ss. auto.
Qed.
Print Assumptions C76_history.
Definition hist7 : list top :=
  [TTrack x0 (Until 10); TSet 0 50; TElements 22; TTrackSet x0 (Line 2 5 true) 3 40; TTrack (mkX (mkOut false None) true 0) (Elem 3);
   TJob (Until 20) [(0, 50, x0); (3, 40, x0); (2, 100, x0)]; TTrack x0 (AsgMon 1 2); TFetch x0; TWgs KUntil 64; TTrack x0 (Elem 30)].
Example C76_history_case : forall T (N : NumOps T), Kernels (r7 N) /\ Bound (r7 N) v7 /\ calls_ok v7 hist7.
Proof.
  intros T N. split; [apply r7_ready|]. split; [apply r7_ready|]. unfold hist7.
  cbn [calls_ok call_ok tracks next v_set v_num v7 fst snd]. repeat (split; try exact Logic.I; try reflexivity; try easy).
  repeat (constructor; [cbn; discriminate|]). constructor.
Qed.
Example C76_history_case_result : forall T (N : NumOps T),
  match tsteps T N hist7 (r7 N) with
  | Some (_, l, ss) => map (fun x => (l_role x, nth_error (l_args x) 1, l_items x)) l =
      [(KUntil, Some (BValue 2), 100); (KLine, Some (BValue 3), 40); (KUntil, Some (BValue 0), 50);
       (KUntil, Some (BValue 3), 40); (KUntil, Some (BValue 2), 100); (KAsgMon, Some (BArg 13), 1); (KFetch, Some (BArg 15), 1);
       (KElem, Some (BValue 0), 50)] /\ ss = [0; 0; 0; 0; -1; 0; 0; 0; 0; 0]
  | None => False
  end.
Proof. intros T N. vm_compute. split; reflexivity. Qed.

(* A job tracks each of its particle sets exactly once, in order, if the first one is the selected set of the
   context; it reports success iff all runs succeed, and the selected set stays the same. *)
Theorem C76_job : forall T (N : NumOps T) t v m p n x rest, Kernels t -> Bound t v -> tracks m = true ->
  v_set v = p -> v_num v = n -> Forall (fun s => fst (fst s) <> p) rest -> c_debug T (t_ctx T t) = false ->
  let sets := (p, n, x) :: rest in
  exists t' l s, track_job T N m sets t = Some (t', l, s) /\ Kernels t' /\ Bound t' v /\
  (s = 0 <-> Forall (fun s => r_ok (x_out (snd s)) = true) sets) /\
  map (fun y => (l_role y, firstn (arity (l_role y)) (l_args y))) l =
    map (fun s => (role_of m, args_of v (fst (fst s)) m)) (filter (fun s => r_ok (x_out (snd s))) sets).
Proof.
  intros T N t v m p n x rest K B TR <- <- F D. cbv zeta.
  destruct (track_job_ok T N m ((v_set v, v_num v, x) :: rest) t v (conj K B)) as (t' & l & s & A1 & (A2 & A3) & A4 & A5 & A6).
  { cbn [call_ok]. auto. }
  exists t', l, s. split; [exact A1|]. split; [exact A2|]. split; [exact A3|]. rewrite D in A5, A6. clear A1 A2 A3 A4 F.
  revert A5 A6. generalize ((v_set v, v_num v, x) :: rest) as sets. intros sets A5 A6. cbn [expected fst snd] in A5, A6. split.
  - rewrite A6. clear. induction sets as [|[[p n] y] sets IH]; cbn [fold_right]; [split; [constructor|easy]|].
    rewrite Z.lor_eq_0_iff, IH. unfold status, happens. cbn [negb orb]. rewrite andb_true_r. split.
    + intros [E1 E2]. constructor; [|exact E2]. cbn [snd]. destruct (r_ok (x_out y)); [easy|discriminate].
    + intros E. inversion E as [|? ? E1 E2]; subst. cbn [snd] in E1. rewrite E1. auto.
  - assert (map (fun y => (l_role y, firstn (arity (l_role y)) (l_args y))) l = map fst (map seen l)) as -> by (rewrite map_map; reflexivity).
    rewrite A5. clear. induction sets as [|[[p n] y] sets IH]; cbn [flat_map filter map snd]; [easy|].
    rewrite map_app, IH. unfold if_happens, happens. cbn [negb orb]. rewrite andb_true_r. now destruct (r_ok (x_out y)).
Qed.
Print Assumptions C76_job.
Example C76_job_case : forall T (N : NumOps T), Kernels (r7 N) /\ Bound (r7 N) v7 /\ c_debug T (t_ctx T (r7 N)) = false.
Proof. intros T N. split; [apply r7_ready|]. split; [apply r7_ready|]. vm_compute. reflexivity. Qed.

(* If the selected set is another one of the sets of the job, it is not tracked: the set before it in the
   list is tracked twice. A job with one set tracks the selected set, not its own. Both report success. *)
Theorem C76_selected_not_first_refuted : forall T (N : NumOps T),
  ~ (forall t v m sets, Kernels t -> Bound t v -> tracks m = true -> NoDup (map (fun s => fst (fst s)) sets) ->
     In (v_set v, v_num v, x0) sets -> Forall (fun s => snd s = x0) sets ->
     exists t' l, track_job T N m sets t = Some (t', l, 0) /\
     map (fun y => nth_error (l_args y) 1) l = map (fun s => Some (BValue (fst (fst s)))) sets).
Proof.
  intros T N H. destruct (H (r7 N) v7 (Until 5) [(1, 40, x0); (2, 100, x0)]) as (t' & l & E1 & E2).
  - apply r7_ready.
  - apply r7_ready.
  - easy.
  - repeat (constructor; [cbn; intuition discriminate|]). constructor.
  - cbn. auto.
  - repeat constructor.
  - assert (match track_job T N (Until 5) [(1, 40, x0); (2, 100, x0)] (r7 N) with
            | Some (_, l, _) => map (fun y => nth_error (l_args y) 1) l = [Some (BValue 1); Some (BValue 1)] | None => False end) as E
      by (vm_compute; reflexivity).
    rewrite E1, E2 in E. vm_compute in E. discriminate.
Qed.
Print Assumptions C76_selected_not_first_refuted.
Theorem C76_single_set_refuted : forall T (N : NumOps T),
  ~ (forall t v m p n, Kernels t -> Bound t v -> tracks m = true ->
     exists t' l, track_job T N m [(p, n, x0)] t = Some (t', l, 0) /\ map (fun y => nth_error (l_args y) 1) l = [Some (BValue p)]).
Proof.
  intros T N H. destruct (H (r7 N) v7 (Until 5) 1 40) as (t' & l & E1 & E2).
  - apply r7_ready.
  - apply r7_ready.
  - easy.
  - assert (match track_job T N (Until 5) [(1, 40, x0)] (r7 N) with
            | Some (_, l, _) => map (fun y => nth_error (l_args y) 1) l = [Some (BValue 2)] | None => False end) as E
      by (vm_compute; reflexivity).
    rewrite E1, E2 in E. discriminate.
Qed.
Print Assumptions C76_single_set_refuted.

(* Element-by-element tracking of a given set is launched with the number of particles of the selected set,
   not of the given one. (The kernels stride over all particles, so that this matters only if the selected
   number is 0, or for speed.) *)
Theorem C76_elem_items_refuted : forall T (N : NumOps T),
  ~ (forall t v u p n, Kernels t -> Bound t v ->
     map (fun y => l_items y) (snd (fst (track_set T N x0 (Elem u) p n true t))) = [n]).
Proof.
  intros T N H. specialize (H (r7 N) v7 5 1 40 (proj1 (r7_ready T N)) (proj2 (r7_ready T N))). vm_compute in H. discriminate.
Qed.
Print Assumptions C76_elem_items_refuted.

(* The work group size a user sets for a tracking kernel is not used by tracking: runs are made with the work
   group size of the last run, at first 0 (chosen by OpenCL). *)
Theorem C76_work_group_size_refuted : forall T (N : NumOps T),
  ~ (forall t v w, Kernels t -> Bound t v -> 0 < w -> snd (set_wgs T (kid T KUntil t) w (t_ctx T t)) = true ->
     let t1 := t_with T (fst (set_wgs T (kid T KUntil t) w (t_ctx T t))) t in
     Forall (fun y => l_items y mod w = 0) (snd (fst (track_sel T N x0 (Until 5) t1)))).
Proof.
  intros T N H. specialize (H (r7 N) v7 64 (proj1 (r7_ready T N)) (proj2 (r7_ready T N)) ltac:(lia) ltac:(vm_compute; reflexivity)).
  vm_compute in H. inversion H as [|? ? E _]. vm_compute in E. discriminate.
Qed.
Print Assumptions C76_work_group_size_refuted.

(* Without a node, or without a kernel that has enough parameters, nothing is executed or changed and failure
   is reported. *)
Theorem C76_no_kernel : forall T (N : NumOps T) x m t,
  has_node T (t_ctx T t) = false \/ ker_nargs T (kid T (role_of m) t) (t_ctx T t) < min_args (role_of m) ->
  track_sel T N x m t = (t, [], -1) /\ forall p n r, track_set T N x m p n r t = (t, [], -1).
Proof.
  intros T N x m t H. apply track_none. destruct H as [->|H]; [easy|]. apply andb_false_iff. right. now apply Z.leb_gt.
Qed.
Print Assumptions C76_no_kernel.
Example C76_no_kernel_case : forall T (N : NumOps T), has_node T (t_ctx T (mkT T ctx0 0 0 0 id7)) = false.
Proof. intros T N. vm_compute. reflexivity. Qed.

(* A kernel can be given a role iff a node is selected and the kernel exists; all other roles keep theirs. *)
Theorem C76_set_kernel : forall T (N : NumOps T) t k id, reachable N (t_ctx T t) -> 0 <= id ->
  let r := set_kid T k id t in
  (snd r = 0 <-> has_node T (t_ctx T t) = true /\ id < num_kers T (t_ctx T t)) /\
  (snd r <> 0 -> fst r = t) /\
  (snd r = 0 -> has_kernel T k (fst r) = true /\ (k <> KLine -> kid T k (fst r) = id) /\
     (forall k', k' <> k -> k' <> KLine -> kid T k' (fst r) = kid T k' t) /\
     (has_kernel T KUntil (fst r) = true -> k = KLine -> kid T KLine (fst r) = id)).
Proof.
  intros T N t k id R I. cbv zeta. pose proof (Inv_reachable T N _ R) as V. unfold set_kid. cbv zeta.
  destruct (has_node T (t_ctx T t)) eqn:Hn; cbn [andb].
  2:{ cbn [fst snd]. split; [split; [discriminate|intros [A _]; discriminate]|]. split; [easy|discriminate]. }
  destruct (id <? num_kers T (t_ctx T t)) eqn:Hl; cbn [andb].
  2:{ apply Z.ltb_ge in Hl. cbn [fst snd]. split; [split; [discriminate|intros [_ A]; lia]|]. split; [easy|discriminate]. }
  apply Z.ltb_lt in Hl.
  assert ((ker_prog T id (t_ctx T t) <? num_progs T (t_ctx T t)) = true) as E.
  { destruct (proj2 (nthz_some _ (c_kers T (t_ctx T t)) id) (conj I Hl)) as (r & Er).
    unfold ker_prog, ker. rewrite Hn, Er. apply Z.ltb_lt. apply (inv_k T _ V id r Er). }
  rewrite E. cbn [fst snd]. split; [easy|]. split; [easy|]. intros _.
  set (t' := mkT T (t_ctx T t) (t_pset T t) (t_num T t) (t_cfg T t) (fun k' => if role_eqb k' k then id else t_id T t k')).
  assert (has_kernel T k t' = true) as HK.
  { unfold has_kernel, t'. cbn [t_ctx t_id]. rewrite Hn, role_eqb_refl. cbn [andb]. now apply Z.ltb_lt. }
  split; [exact HK|]. split; [|split].
  - intros NL. unfold kid. assert (match k with KLine => KUntil | k => k end = k) as EK by (destruct k; easy). rewrite EK, HK.
    unfold t'. cbn [t_id]. now rewrite role_eqb_refl.
  - intros k' NE NL. unfold kid. assert (match k' with KLine => KUntil | k => k end = k') as EK by (destruct k'; easy). rewrite EK.
    unfold has_kernel, t'. cbn [t_id t_ctx]. destruct (role_eqb k' k) eqn:Q; [apply role_eqb_eq in Q; easy|]. easy.
  - intros HU ->. unfold kid. rewrite HU. reflexivity.
Qed.
Print Assumptions C76_set_kernel.
Example C76_set_kernel_case : forall T (N : NumOps T), snd (set_kid T KElem 2 (t7 N)) = 0 /\ snd (set_kid T KElem 8 (t7 N)) = -1.
Proof. intros T N. split; vm_compute; reflexivity. Qed.

(* The kernel for tracking a part of the line is not found, although it was set and is reported to exist, as
   long as there is no kernel for tracking up to a turn. *)
Theorem C76_line_kernel_refuted : forall T (N : NumOps T),
  ~ (forall t id, reachable N (t_ctx T t) -> 0 <= id -> snd (set_kid T KLine id t) = 0 ->
     has_kernel T KLine (fst (set_kid T KLine id t)) = true /\ kid T KLine (fst (set_kid T KLine id t)) = id).
Proof.
  intros T N H. specialize (H (mkT T (ctx7 N) 0 0 0 (fun _ => ILLEGAL)) 2 (ctx7_reachable T N) ltac:(lia) ltac:(vm_compute; reflexivity)).
  destruct H as [_ H]. vm_compute in H. discriminate.
Qed.
Print Assumptions C76_line_kernel_refuted.

(* Assigning a particle set that is refused, because one of the kernels has too few parameters, still changes
   the others: the next call tracks the new set, with the number of particles of the old one. *)
Definition env5 : env :=
  mkEnv (fun p => Some (lit "file ")) (fun _ _ _ => (BuildSuccess, true, lit " ok "))
    (fun _ n => mkInfo (if chars_eqb n (lit "c") then 3 else 8) 256 32 0) true (lit "st_") (lit "/inc").
Definition h5 : list (env * op) :=
  [(env5, OSelectIndex 7 0); (env5, OAddCode (lit "k") (lit "-g")); (env5, OEnable (lit "a") 1); (env5, OEnable (lit "b") 1); (env5, OEnable (lit "c") 1)].
Definition ctx5 {T} (N : NumOps T) : ctx T :=
  match steps T N h5 (new_ctx T env5 2 (lit "/dir/") (lit "-O2")) with Some c => c | None => ctx0 end.
Lemma ctx5_reachable : forall T (N : NumOps T), reachable N (ctx5 N).
Proof.
  intros T N. exists env5, 2, (lit "/dir/"), (lit "-O2"), h5. split; [lia|]. split.
  - assert (env_ok env5) as OK by (intros s n; unfold env5; cbn [e_info i_nargs]; destruct (chars_eqb n (lit "c")); lia).
    unfold h5. repeat (constructor; [split; [exact OK|cbn; lia]|]). constructor.
  - unfold ctx5. vm_compute. reflexivity.
Qed.
Theorem C76_failed_set_refuted : forall T (N : NumOps T),
  ~ (forall t p n, reachable N (t_ctx T t) -> snd (assign_set T p n t) <> 0 ->
     snd (fst (track_sel T N x0 (Until 5) (fst (assign_set T p n t)))) = snd (fst (track_sel T N x0 (Until 5) t))).
Proof.
  intros T N H. specialize (H (mkT T (ctx5 N) 0 10 0 (fun k => match k with KUntil => 1 | KLine => 2 | KElem => 3 | _ => ILLEGAL end)) 1 40
    (ctx5_reachable T N) ltac:(vm_compute; discriminate)). vm_compute in H. discriminate.
Qed.
Print Assumptions C76_failed_set_refuted.

(* ---- beam-beam elements ---- *)
Lemma reinit_flags : forall T (N : NumOps T) e c, c_flags T (fst (reinit T N e c)) = c_flags T c.
Proof.
  intros T N e c. unfold reinit. destruct (has_node T c); [easy|]. cbn [fst]. rewrite init_kers_flags, init_progs_flags. apply clear_flags.
Qed.
Lemma set_bb_find : forall T (N : NumOps T) e v c s, has_node T c = false ->
  find_flag s (c_flags T (set_bb T N e v c)) =
  match find_flag s (c_flags T c) with Some w => Some w | None => if chars_eqb BB4 s || chars_eqb BB6 s then Some v else None end.
Proof.
  intros T N e v c s Hn. unfold set_bb. rewrite Hn, reinit_flags, !set_flag_find. change (is_empty BB4) with false. change (is_empty BB6) with false. cbv iota.
  destruct (find_flag s (c_flags T c)); [easy|]. destruct (chars_eqb BB4 s); [easy|]. now destruct (chars_eqb BB6 s).
Qed.
Lemma bb_enabled_find : forall T on (c : ctx T), bb_enabled T on c =
  match find_flag BB4 (c_flags T c) with Some v => chars_eqb v on | None => true end &&
  match find_flag BB6 (c_flags T c) with Some v => chars_eqb v on | None => true end.
Proof.
  intros T on c. unfold bb_enabled, has_feature_flag, feature_flag. change (is_empty BB4) with false. change (is_empty BB6) with false. cbn [negb andb].
  destruct (find_flag BB4 (c_flags T c)), (find_flag BB6 (c_flags T c)); reflexivity.
Qed.
(* Enabling, skipping or disabling beam-beam elements before a node is selected takes effect if no choice has
   been made before. *)
Theorem C76_beam_beam : forall T (N : NumOps T) e v on (c : ctx T), has_node T c = false ->
  feature_flag T BB4 c = None -> feature_flag T BB6 c = None ->
  bb_enabled T on (set_bb T N e v c) = chars_eqb v on /\
  feature_flag T BB4 (set_bb T N e v c) = Some v /\ feature_flag T BB6 (set_bb T N e v c) = Some v.
Proof.
  intros T N e v on c Hn F4 F6. unfold feature_flag in *. change (is_empty BB4) with false in *. change (is_empty BB6) with false in *.
  rewrite bb_enabled_find, !set_bb_find by exact Hn. rewrite F4, F6.
  change (chars_eqb BB4 BB4) with true. change (chars_eqb BB6 BB6) with true. rewrite orb_true_r. cbn [orb]. now rewrite andb_diag.
Qed.
Print Assumptions C76_beam_beam.
Example C76_beam_beam_case : forall T, has_node T ctx0 = false /\ feature_flag T BB4 ctx0 = None /\ feature_flag T BB6 ctx0 = None.
Proof. intros T. repeat split; vm_compute; reflexivity. Qed.
(* Any later choice has no effect, in particular none after the constructor has taken the choice from the
   build options (context.cpp 1741-1789): disabled beam-beam elements cannot be enabled again. *)
Theorem C76_beam_beam_refuted : forall T (N : NumOps T),
  ~ (forall e (c : ctx T), reachable N c -> has_node T c = false -> bb_enabled T (lit "2") (set_bb T N e (lit "2") c) = true).
Proof.
  intros T N H. specialize (H env0 (set_feature_flag T BB6 (lit "0") (set_feature_flag T BB4 (lit "0") ctx0))).
  assert (bb_enabled T (lit "2") (set_bb T N env0 (lit "2") (set_feature_flag T BB6 (lit "0") (set_feature_flag T BB4 (lit "0") ctx0))) = false) as E
    by (vm_compute; reflexivity).
  rewrite H in E; [discriminate| |].
  - exists env0, 2, (lit "/dir/"), (lit "-O2"), [(env0, OSetFlag BB4 (lit "0")); (env0, OSetFlag BB6 (lit "0"))]. split; [lia|]. split.
    + repeat (constructor; [split; [apply env0_ok|cbn; trivial]|]). constructor.
    + reflexivity.
  - vm_compute. reflexivity.
Qed.
Print Assumptions C76_beam_beam_refuted.

(* Arguments that hold no C-object buffer, and elements that hold no object, are refused and change nothing;
   so do the flags of beam-beam elements once a node is selected, and a job without particle sets, which reports
   failure. *)
Theorem C76_refused : forall T (N : NumOps T) (t : tctx T) a,
  (forall assign, In assign [assign_particles T; assign_elements T; assign_output T; assign_config T; assign_addr T] ->
     assign false a t = (t, -1)) /\
  (forall m, track_job T N m [] t = Some (t, [], -1)) /\
  (forall e v (c : ctx T), has_node T c = true -> set_bb T N e v c = c).
Proof.
  intros T N t a. split; [|split].
  - intros assign H. cbn [In] in H. destruct H as [<-|[<-|[<-|[<-|[<-|[]]]]]]; reflexivity.
  - reflexivity.
  - intros e v c H. unfold set_bb. now rewrite H.
Qed.
Print Assumptions C76_refused.
Example C76_refused_case : forall T (N : NumOps T), has_node T (ctx7 N) = true /\
  snd (assign_particles T true 5 (t7 N)) = 0.
Proof. intros T N. split; vm_compute; reflexivity. Qed.

(* A context need not have all kernels: an assignment reaches every kernel which is there and has the parameter, whatever
   other kernels are missing or too small. *)
Lemma kid_set_arg : forall T k id i a (t : tctx T), kid T k (set_arg T id i a t) = kid T k t.
Proof.
  intros T k id i a t. unfold set_arg, assign_arg. destruct (id <? _); [|easy]. unfold kid, has_kernel, has_node, num_kers.
  cbn [t_with t_ctx t_id upd_ker with_kers c_kers c_sel c_nodes]. now rewrite zlen_modz.
Qed.
Lemma set_arg_bound : forall T id i a (t : tctx T) id' j b, ker_bound T id' j (t_ctx T t) = Some b ->
  ker_bound T id' j (t_ctx T (set_arg T id i a t)) = Some (if (id' =? id) && (j =? i) && (id <? num_kers T (t_ctx T t)) then arg_bound a else b).
Proof.
  intros T id i a t id' j b H. unfold set_arg, assign_arg. destruct (id <? num_kers T (t_ctx T t)); [|rewrite andb_false_r; exact H].
  rewrite andb_true_r. unfold ker_bound in *. cbn [t_with t_ctx upd_ker with_kers c_kers]. rewrite nthz_modz.
  destruct (nthz (c_kers T (t_ctx T t)) id') as [r|]; [|easy]. destruct (id' =? id); cbn [option_map andb]; [|exact H].
  assert (k_bound T (cl_set_arg T i (arg_bound a) (set_kernel_arg T (arg_type a) i (arg_ptr a) r)) = modz (fun _ => arg_bound a) i (k_bound T r)) as ->
    by (unfold cl_set_arg, k_with_args, set_kernel_arg; destruct (i <? zlen (k_ptrs T r)); reflexivity).
  rewrite nthz_modz, H. now destruct (j =? i).
Qed.
Lemma set_arg_nargs : forall T id i a (t : tctx T) id', ker_nargs T id' (t_ctx T (set_arg T id i a t)) = ker_nargs T id' (t_ctx T t).
Proof.
  intros T id i a t id'. unfold set_arg, assign_arg. destruct (id <? num_kers T (t_ctx T t)); [|easy].
  unfold ker_nargs, ker_get, ker, has_node. cbn [t_with t_ctx upd_ker with_kers c_kers c_sel c_nodes]. rewrite nthz_modz.
  destruct (_ && _); [|easy]. destruct (nthz _ id') as [r|]; [|now destruct (id' =? id)]. destruct (id' =? id); [|easy]. cbn [option_map].
  unfold cl_set_arg, k_with_args, set_kernel_arg; destruct (i <? zlen (k_ptrs T r)); reflexivity.
Qed.
Lemma assign_stays : forall T l a (t : tctx T) id j, ker_bound T id j (t_ctx T t) = Some (arg_bound a) ->
  ker_bound T id j (t_ctx T (fst (assign_each T l a t))) = Some (arg_bound a).
Proof.
  intros T. induction l as [|[k i] l IH]; intros a t id j H; cbn [assign_each]; [exact H|].
  destruct (kid T k t =? ILLEGAL); [now apply IH|]. cbv zeta. destruct (_ || _).
  - specialize (IH a t id j H). destruct (assign_each T l a t). exact IH.
  - apply IH. rewrite (set_arg_bound _ _ _ _ _ _ _ _ H). now destruct (_ && _).
Qed.
Lemma assign_reaches : forall T l a (t : tctx T) k i b, In (k, i) l -> kid T k t <> ILLEGAL ->
  i < ker_nargs T (kid T k t) (t_ctx T t) -> min_args k <= ker_nargs T (kid T k t) (t_ctx T t) ->
  ker_bound T (kid T k t) i (t_ctx T t) = Some b ->
  ker_bound T (kid T k t) i (t_ctx T (fst (assign_each T l a t))) = Some (arg_bound a).
Proof.
  intros T. induction l as [|[k0 i0] l IH]; intros a t k i b M K A1 A2 B; [destruct M|]. cbn [assign_each].
  destruct M as [M|M].
  - injection M as -> ->. rewrite (proj2 (Z.eqb_neq _ _) K). cbv zeta.
    rewrite (proj2 (Z.leb_gt _ _)) by lia. rewrite (proj2 (Z.ltb_ge _ _)) by lia. cbn [orb]. apply assign_stays.
    rewrite (set_arg_bound _ _ _ _ _ _ _ _ B), !Z.eqb_refl. cbn [andb].
    assert ((kid T k t <? num_kers T (t_ctx T t)) = true) as ->; [|reflexivity].
    unfold ker_bound in B. destruct (nthz (c_kers T (t_ctx T t)) (kid T k t)) as [r|] eqn:R; [|easy].
    apply nthz_range in R. apply Z.ltb_lt. apply R.
  - destruct (kid T k0 t =? ILLEGAL); [eapply IH; eassumption|]. cbv zeta. destruct (_ || _).
    + specialize (IH a t k i b M K A1 A2 B). destruct (assign_each T l a t). exact IH.
    + rewrite <- (kid_set_arg T k (kid T k0 t) i0 a t). eapply IH.
      * exact M.
      * now rewrite kid_set_arg.
      * now rewrite kid_set_arg, set_arg_nargs.
      * now rewrite kid_set_arg, set_arg_nargs.
      * rewrite kid_set_arg. apply (set_arg_bound _ _ _ _ _ _ _ _ B).
Qed.
Theorem C76_some_kernels : forall T (t : tctx T) k i v b,
  (* the kernel of the role is there, with this parameter and as many as the role needs *)
  kid T k t <> ILLEGAL -> i < ker_nargs T (kid T k t) (t_ctx T t) -> min_args k <= ker_nargs T (kid T k t) (t_ctx T t) ->
  ker_bound T (kid T k t) i (t_ctx T t) = Some b ->
  let got (r : tctx T * Z) x := ker_bound T (kid T k t) i (t_ctx T (fst r)) = Some x in
  (In (k, i) [(KUntil, 0); (KLine, 0); (KElem, 0); (KFetch, 0)] -> got (assign_particles T true v t) (BArg v)) /\
  (In (k, i) [(KUntil, 2); (KLine, 2); (KElem, 2); (KAsgMon, 0); (KClrMon, 0)] -> got (assign_elements T true v t) (BArg v)) /\
  (In (k, i) [(KAsgMon, 1); (KAsgElem, 2)] -> got (assign_output T true v t) (BArg v)) /\
  (In (k, i) [(KElem, 3); (KAsgElem, 0)] -> got (assign_config T true v t) (BArg v)) /\
  (In (k, i) [(KUntil, 1); (KLine, 1); (KElem, 1)] -> forall n, got (assign_set T v n t) (BValue v)) /\
  (In (k, i) [(KElem, 4); (KAsgElem, 1)] -> got (assign_config_index T v t) (BValue v)) /\
  (In (k, i) [(KUntil, 4); (KLine, 6); (KElem, 6); (KAsgMon, 4); (KClrMon, 1); (KAsgElem, 4); (KFetch, 2)] ->
     got (assign_slots T t) (BValue 8)).
Proof.
  intros T t k i v b K A1 A2 B got. unfold got.
  assert (forall l a, In (k, i) l -> ker_bound T (kid T k t) i (t_ctx T (fst (assign_each T l a t))) = Some (arg_bound a)) as H
    by (intros l a M; eapply assign_reaches; eassumption).
  repeat split.
  - intros M. exact (H _ (AArgument v) M).
  - intros M. exact (H _ (AArgument v) M).
  - intros M. exact (H _ (AArgument v) M).
  - intros M. exact (H _ (AArgument v) M).
  - intros M n. unfold assign_set. specialize (H _ (AValue v) M). destruct (assign_each T _ (AValue v) t) as [t' s]. now destruct (s =? 0).
  - intros M. unfold assign_config_index. specialize (H _ (AValue v) M). destruct (assign_each T _ (AValue v) t) as [t' s]. now destruct (s =? 0).
  - intros M. exact (H _ (AValue 8) M).
Qed.
Print Assumptions C76_some_kernels.
(* a context without a kernel for track_until which has the others *)
Example C76_some_kernels_case : forall T (N : NumOps T),
  let t := mkT T (ctx7 N) 0 0 0 (fun k => match k with KUntil => ILLEGAL | k => id7 k end) in
  kid T KUntil t = ILLEGAL /\ kid T KElem t = 3 /\ ker_nargs T 3 (t_ctx T t) = 8 /\ ker_bound T 3 0 (t_ctx T t) = Some BUnset.
Proof. intros T N. repeat split; vm_compute; reflexivity. Qed.
