(* Lemmas about OclTrack.v. *)
From Coq Require Import Ascii String ZArith Bool List Lia.
From Verif Require Import Num Tac NodeId OclContext OclContextProofs OclTrack OclTrackSpec.
Import ListNotations.
Local Open Scope Z_scope.

Lemma role_eqb_eq : forall a b, role_eqb a b = true <-> a = b.
Proof. intros [] []; cbn; split; easy. Qed.
Lemma role_eqb_refl : forall a, role_eqb a a = true.
Proof. intros []; easy. Qed.
Lemma min_arity : forall k, min_args k <= Z.of_nat (arity k).
Proof. intros []; vm_compute; discriminate. Qed.
Lemma firstn_nthz : forall A (l target : list A) n, length target = n -> (n <= length l)%nat ->
  (forall j, 0 <= j < Z.of_nat n -> nthz l j = nthz target j) -> firstn n l = target.
Proof.
  intros A l target. revert l. induction target as [|x tg IH]; intros l n L1 L2 H; cbn [length] in L1; subst n; [easy|].
  destruct l as [|y l]; cbn [length] in L2; [lia|]. cbn [firstn].
  assert (nthz (y :: l) 0 = nthz (x :: tg) 0) as H0 by (apply H; lia). cbn in H0. injection H0 as ->.
  f_equal. apply IH; [easy|lia|]. intros j J. specialize (H (j + 1) ltac:(lia)). unfold nthz in *.
  rewrite (proj2 (Z.ltb_ge j 0)) by lia. rewrite (proj2 (Z.ltb_ge (j + 1) 0)) in H by lia.
  replace (Z.to_nat (j + 1)) with (Datatypes.S (Z.to_nat j)) in H by lia. exact H.
Qed.

Section Proofs.
Variable T : Type.
Variable N : NumOps T.
Local Notation tctx := (tctx T).

Definition bnd (k : role) (i : Z) (t : tctx) : option bound := ker_bound T (t_id T t k) i (t_ctx T t).
Definition keep (t t' : tctx) : Prop :=
  Kernels t' /\ t_pset T t' = t_pset T t /\ t_num T t' = t_num T t /\ t_cfg T t' = t_cfg T t /\ t_id T t' = t_id T t /\
  c_debug T (t_ctx T t') = c_debug T (t_ctx T t).
Lemma keep_refl : forall t, Kernels t -> keep t t.
Proof. intros t K. repeat split; try easy; apply K. Qed.
Lemma keep_trans : forall a b c, keep a b -> keep b c -> keep a c.
Proof. unfold keep. intros a b c (_ & A1 & A2 & A3 & A4 & A5) (B0 & B1 & B2 & B3 & B4 & B5).
  split; [easy|]. repeat split; congruence. Qed.

Lemma kid_ok : forall k t, Kernels t -> kid T k t = t_id T t k.
Proof.
  intros k t K. unfold kid, has_kernel. rewrite (kn_node t K). cbn [andb].
  destruct (kn_ids t K (match k with KLine => KUntil | k => k end)) as (r & R & _). apply nthz_range in R.
  unfold num_kers. rewrite (proj2 (Z.ltb_lt _ _)) by apply R. easy.
Qed.
Lemma kid_legal : forall k t, Kernels t -> (t_id T t k =? ILLEGAL) = false.
Proof.
  intros k t K. destruct (kn_ids t K k) as (r & R & _). apply nthz_range in R. pose proof (kn_count t K) as C.
  unfold num_kers in C. apply Z.eqb_neq. lia.
Qed.
Lemma nargs_ok : forall k t, Kernels t -> Z.of_nat (arity k) <= ker_nargs T (t_id T t k) (t_ctx T t).
Proof.
  intros k t K. destruct (kn_ids t K k) as (r & R & A & _). unfold ker_nargs, ker_get, ker. rewrite (kn_node t K), R. exact A.
Qed.
Lemma in_range : forall k t, Kernels t -> (t_id T t k <? num_kers T (t_ctx T t)) = true.
Proof. intros k t K. destruct (kn_ids t K k) as (r & R & _). apply nthz_range in R. apply Z.ltb_lt. apply R. Qed.

(* changing a kernel in a way that keeps the number of its parameters *)
Lemma upd_keep : forall f id (t : tctx), Kernels t ->
  (forall r, k_nargs T (f r) = k_nargs T r /\ zlen (k_bound T (f r)) = zlen (k_bound T r) /\ (k_last_wgs T r = 0 -> k_last_wgs T (f r) = 0)) ->
  keep t (t_with T (upd_ker T f id (t_ctx T t)) t).
Proof.
  intros f id t K F. unfold keep. cbn [t_with t_ctx t_pset t_num t_cfg t_id].
  split; [|unfold upd_ker, with_kers; cbn; easy].
  destruct K as [K1 K2 K3 K4]. split; cbn [t_with t_ctx t_id].
  - exact K1.
  - unfold num_kers, upd_ker, with_kers in *. cbn [c_kers]. now rewrite zlen_modz.
  - intros k. destruct (K3 k) as (r & R & A & B & C). unfold upd_ker, with_kers. cbn [c_kers]. rewrite nthz_modz, R.
    destruct (t_id T t k =? id).
    + exists (f r). destruct (F r) as (F1 & F2 & F3). split; [easy|]. rewrite F1, F2. auto.
    + exists r. auto.
  - exact K4.
Qed.

Lemma set_arg_ok : forall k i a t, Kernels t -> 0 <= i < Z.of_nat (arity k) ->
  keep t (set_arg T (t_id T t k) i a t) /\
  forall k' j, bnd k' j (set_arg T (t_id T t k) i a t) =
    if role_eqb k' k && (j =? i) then Some (arg_bound a) else bnd k' j t.
Proof.
  intros k i a t K I. unfold set_arg, assign_arg. rewrite in_range by exact K. split.
  - apply upd_keep; [exact K|]. intros r. unfold cl_set_arg, k_with_args, set_kernel_arg.
    destruct (i <? zlen (k_ptrs T r)); cbn; now rewrite zlen_modz.
  - intros k' j. unfold bnd, ker_bound. cbn [t_with t_ctx t_id]. unfold upd_ker, with_kers. cbn [c_kers]. rewrite nthz_modz.
    destruct (kn_ids t K k') as (r & R & A & B & _). rewrite R.
    destruct (t_id T t k' =? t_id T t k) eqn:E.
    + apply Z.eqb_eq in E. apply (kn_inj t K) in E. subst k'. rewrite role_eqb_refl. cbn [andb].
      assert (k_bound T (cl_set_arg T i (arg_bound a) (set_kernel_arg T (arg_type a) i (arg_ptr a) r)) =
              modz (fun _ => arg_bound a) i (k_bound T r)) as E
        by (unfold cl_set_arg, k_with_args, set_kernel_arg; destruct (i <? zlen (k_ptrs T r)); reflexivity).
      cbn [option_map]. rewrite E, nthz_modz. destruct (j =? i) eqn:J; [|easy]. apply Z.eqb_eq in J. subst j.
      destruct (proj2 (nthz_some _ (k_bound T r) i)) as (y & Y); [rewrite B; lia|]. now rewrite Y.
    + destruct (role_eqb k' k) eqn:E2; [|easy]. apply role_eqb_eq in E2. subst k'. rewrite Z.eqb_refl in E. easy.
Qed.

Lemma assign_each_ok : forall l a t, Kernels t -> Forall (fun x => 0 <= snd x < Z.of_nat (arity (fst x))) l ->
  keep t (fst (assign_each T l a t)) /\ snd (assign_each T l a t) = 0 /\
  forall k j, bnd k j (fst (assign_each T l a t)) =
    if existsb (fun x => role_eqb k (fst x) && (j =? snd x)) l then Some (arg_bound a) else bnd k j t.
Proof.
  induction l as [|[k i] l IH]; intros a t K F; cbn [assign_each existsb].
  - cbn [fst snd]. split; [now apply keep_refl|easy].
  - inversion F as [|? ? F1 F2]; subst. cbn [fst snd] in F1. rewrite (kid_ok k t K), (kid_legal k t K).
    pose proof (nargs_ok k t K) as A. pose proof (min_arity k) as M.
    assert ((ker_nargs T (t_id T t k) (t_ctx T t) <=? i) = false) as E1 by (apply Z.leb_gt; lia).
    assert ((ker_nargs T (t_id T t k) (t_ctx T t) <? min_args k) = false) as E2 by (apply Z.ltb_ge; lia).
    cbv zeta. rewrite E1, E2. cbn [orb].
    destruct (set_arg_ok k i a t K F1) as (S1 & S2).
    destruct (IH a (set_arg T (t_id T t k) i a t) (proj1 S1) F2) as (I1 & I2 & I3).
    split; [eapply keep_trans; eassumption|]. split; [exact I2|]. intros k' j. rewrite I3, S2. cbn [fst snd].
    destruct (role_eqb k' k && (j =? i)); cbn [orb]; [now destruct (existsb _ l)|easy].
Qed.

Definition put (l : list (Z * Z)) (f : Z -> option bound) : Z -> option bound :=
  fold_left (fun f x j => if j =? fst x then Some (BValue (snd x)) else f j) l f.
Lemma put_ext : forall l f g, (forall j, f j = g j) -> forall j, put l f j = put l g j.
Proof.
  induction l as [|[i v] l IH]; intros f g E j; cbn [put fold_left]; [apply E|].
  apply IH. intros j'. cbn [fst snd]. now rewrite E.
Qed.
Lemma set_args_ok : forall k l t, Kernels t -> Forall (fun x => 0 <= fst x < Z.of_nat (arity k)) l ->
  keep t (set_args T (t_id T t k) l t) /\
  forall k' j, bnd k' j (set_args T (t_id T t k) l t) = if role_eqb k' k then put l (fun j => bnd k' j t) j else bnd k' j t.
Proof.
  intros k l. induction l as [|[i v] l IH]; intros t K F; cbn [set_args].
  - split; [now apply keep_refl|]. intros k' j. cbn [put fold_left]. now destruct (role_eqb k' k).
  - inversion F as [|? ? F1 F2]; subst. cbn [fst] in F1. destruct (set_arg_ok k i (AValue v) t K F1) as (S1 & S2).
    destruct (IH (set_arg T (t_id T t k) i (AValue v) t) (proj1 S1) F2) as (I1 & I2).
    assert (t_id T (set_arg T (t_id T t k) i (AValue v) t) = t_id T t) as E by apply S1. rewrite E in I1, I2.
    split; [eapply keep_trans; eassumption|]. intros k' j. rewrite I2. cbn [put fold_left].
    destruct (role_eqb k' k) eqn:R.
    + apply put_ext. intros j'. rewrite S2, R. cbn [andb fst snd]. reflexivity.
    + rewrite S2, R. reflexivity.
Qed.

Lemma trun_ok : forall dbg x k n t target, Kernels t -> length target = arity k ->
  (forall j, 0 <= j < Z.of_nat (arity k) -> bnd k j t = nthz target j) ->
  let r := trun T N dbg x k n t in
  keep t (fst (fst r)) /\ (forall k' j, bnd k' j (fst (fst r)) = bnd k' j t) /\
  map seen (snd (fst r)) = if_happens dbg x (k, target, n) /\ snd r = status dbg x.
Proof.
  intros dbg x k n t target K L H. cbv zeta. unfold trun, if_happens, status, happens. cbv zeta. rewrite (kid_ok k t K).
  destruct (dbg && negb (x_prep x)) eqn:D.
  - apply andb_prop in D. destruct D as [D1 D2]. subst dbg. destruct (x_prep x); [easy|]. rewrite andb_false_r.
    cbn [fst snd]. split; [now apply keep_refl|easy].
  - assert ((negb dbg || x_prep x) = true) as D' by (destruct dbg, (x_prep x); easy). rewrite D', andb_true_r.
    destruct (kn_ids t K k) as (r & R & A & B & C). unfold run. rewrite in_range by exact K.
    unfold last_wgs. rewrite R, C.
    set (c := match r_times (x_out x) with Some (s, e) => upd_ker T (fun k0 : kernel T => k_with_last T 0 (run_items n 0) (add_exec_time T N (run_time T N s e) k0)) (t_id T t k) (t_ctx T t) | None => t_ctx T t end).
    cbn [fst snd].
    assert (keep t (t_with T c t)) as KK.
    { unfold c. destruct (r_times (x_out x)) as [[s e]|].
      - apply upd_keep; [exact K|]. intros r0. unfold add_exec_time. destruct (nleb N (nzero N) (run_time T N s e)); cbn; easy.
      - destruct t; apply keep_refl; exact K. }
    assert (forall k' j, bnd k' j (t_with T c t) = bnd k' j t) as KB.
    { intros k' j. unfold c. destruct (r_times (x_out x)) as [[s e]|]; [|destruct t; reflexivity].
      unfold bnd, ker_bound. cbn [t_with t_ctx t_id]. unfold upd_ker, with_kers. cbn [c_kers]. rewrite nthz_modz.
      destruct (t_id T t k' =? t_id T t k); [|easy]. destruct (nthz (c_kers T (t_ctx T t)) (t_id T t k')) as [r0|]; [|easy].
      cbn [option_map]. f_equal. unfold add_exec_time. destruct (nleb N (nzero N) (run_time T N s e)); reflexivity. }
    split; [exact KK|]. split; [exact KB|]. destruct (r_ok (x_out x)); [|easy]. cbn [map]. unfold seen. cbn [l_role l_args l_items].
    split; [|easy]. assert (firstn (arity k) (k_bound T r) = target) as ->; [|reflexivity]. apply firstn_nthz; [easy| |].
    + apply Nat2Z.inj_le. unfold zlen in B. lia.
    + intros j J. specialize (H j J). unfold bnd, ker_bound in H. rewrite R in H. exact H.
Qed.

(* ---- the calls ---- *)
Definition Ready (t : tctx) (v : view) : Prop := Kernels t /\ Bound t v.
Definition bset (v : view) (p : Z) : view :=
  mkView (v_parts v) (v_elems v) (v_out v) (v_conf v) (v_addr v) (v_idx v) p (v_num v).

Lemma bd : forall t v k i b, Bound t v -> In (i, b) (fixed v k) -> bnd k i t = Some b.
Proof. intros t v k i b B J. exact (bd_args t v B k i b J). Qed.

(* the arguments at the time of the launch *)
Lemma values_range : forall m t, Forall (fun x => 0 <= fst x < Z.of_nat (arity (role_of m))) (values T m t).
Proof. intros [] t; cbn [values role_of arity]; repeat (constructor; [cbn [fst]; lia|]); constructor. Qed.
Lemma target_length : forall v s m, length (args_of v s m) = arity (role_of m).
Proof. intros v s []; reflexivity. Qed.

Ltac idx J := 
  match type of J with 0 <= ?j < Z.of_nat _ => 
    let D := fresh in
    assert (j = 0 \/ j = 1 \/ j = 2 \/ j = 3 \/ j = 4 \/ j = 5 \/ j = 6) as D by (cbn [arity Z.of_nat Pos.of_succ_nat Pos.succ] in J; lia);
    destruct D as [D|[D|[D|[D|[D|[D|D]]]]]]; subst j
  end.

(* [f]: the arguments before the values of the command are set *)
Lemma put_values : forall v p m t (f : Z -> option bound), t_cfg T t = v_idx v ->
  (forall i b, In (i, b) (fixed (bset v p) (role_of m)) -> f i = Some b) ->
  forall j, 0 <= j < Z.of_nat (arity (role_of m)) -> put (values T m t) f j = nthz (args_of v p m) j.
Proof.
  intros v p m t f C H j J. destruct m; cbn [values role_of put fold_left fst snd] in *; rewrite ?C;
    cbn [fixed bset v_parts v_elems v_out v_conf v_addr v_idx v_set] in H;
    idx J; try (exfalso; cbn [arity Z.of_nat Pos.of_succ_nat Pos.succ] in J; lia); try reflexivity;
    cbn; apply H; cbn; auto 10.
Qed.
Lemma values_same : forall m t t', t_cfg T t' = t_cfg T t -> values T m t' = values T m t.
Proof. intros [] t t' E; cbn [values]; now rewrite ?E. Qed.
(* values are not put at fixed positions, apart from the configuration index *)
Lemma put_fixed : forall v m t (f : Z -> option bound) i b, t_cfg T t = v_idx v ->
  In (i, b) (fixed v (role_of m)) -> f i = Some b -> put (values T m t) f i = Some b.
Proof.
  intros v m t f i b C J F. destruct m; cbn [values role_of put fold_left fst snd fixed In] in *; rewrite ?C;
    repeat (destruct J as [J|J]; [injection J as <- <-; cbn; first [assumption|reflexivity]|]); destruct J.
Qed.

Lemma bset_id : forall v, bset v (v_set v) = v.
Proof. intros []; reflexivity. Qed.

Lemma track_sel_ok : forall x m t v, Ready t v ->
  let r := track_sel T N x m t in
  Ready (fst (fst r)) v /\ keep t (fst (fst r)) /\
  map seen (snd (fst r)) = if_happens (c_debug T (t_ctx T t)) x (role_of m, args_of v (v_set v) m, if tracks m then v_num v else 1) /\
  snd r = status (c_debug T (t_ctx T t)) x.
Proof.
  intros x m t v [K B]. cbv zeta. unfold track_sel. cbv zeta. rewrite (kid_ok _ t K), (kn_node t K). cbn [andb].
  pose proof (nargs_ok (role_of m) t K) as A. pose proof (min_arity (role_of m)) as M.
  assert ((min_args (role_of m) <=? ker_nargs T (t_id T t (role_of m)) (t_ctx T t)) = true) as E by (apply Z.leb_le; lia).
  rewrite E. destruct (set_args_ok (role_of m) (values T m t) t K (values_range m t)) as (S1 & S2).
  set (t1 := set_args T (t_id T t (role_of m)) (values T m t) t) in *.
  destruct (trun_ok (c_debug T (t_ctx T t)) x (role_of m) (if tracks m then t_num T t else 1) t1 (args_of v (v_set v) m)
              (proj1 S1) (target_length _ _ _)) as (R1 & R2 & R3 & R4).
  { intros j J. rewrite S2, role_eqb_refl. apply put_values; [apply B| |exact J].
    rewrite bset_id. intros i b I. now apply (bd t v). }
  rewrite (bd_num t v B) in R1, R2, R3, R4 |- *.
  assert (keep t (fst (fst (trun T N (c_debug T (t_ctx T t)) x (role_of m) (if tracks m then v_num v else 1) t1)))) as KK
    by (eapply keep_trans; eassumption).
  split; [|split; [exact KK|split; assumption]].
  destruct KK as (K1 & K2 & K3 & K4 & K5 & K6). split; [exact K1|]. destruct B as [B1 B2 B3 B4]. split; try congruence.
  intros k i b I. change (bnd k i (fst (fst (trun T N (c_debug T (t_ctx T t)) x (role_of m) (if tracks m then v_num v else 1) t1))) = Some b).
  rewrite R2, S2. destruct (role_eqb k (role_of m)) eqn:R; [|now apply B1].
  apply role_eqb_eq in R. subst k. apply (put_fixed v); [exact B4|exact I|]. now apply B1.
Qed.

(* everything is bound as in [v], but the kernel of [m] has particle set [q] *)
Record Semi (t : tctx) (v : view) (m : cmd) (q : Z) : Prop := mkSemi {
  sm_ker : Kernels t;
  sm_own : forall i b, In (i, b) (fixed (bset v q) (role_of m)) -> bnd (role_of m) i t = Some b;
  sm_other : forall k i b, k <> role_of m -> In (i, b) (fixed v k) -> bnd k i t = Some b;
  sm_set : t_pset T t = v_set v; sm_num : t_num T t = v_num v; sm_idx : t_cfg T t = v_idx v }.
Lemma role_dec : forall a b : role, {a = b} + {a <> b}.
Proof. decide equality. Qed.
Lemma semi_ready : forall t v m, Semi t v m (v_set v) <-> Ready t v.
Proof.
  intros t v m. split.
  - intros [S1 S2 S3 S4 S5 S6]. rewrite bset_id in S2. split; [exact S1|]. split; try assumption.
    intros k i b J. destruct (role_dec k (role_of m)) as [->|E]; [now apply S2|now apply S3].
  - intros [K B]. split.
    + exact K.
    + rewrite bset_id. intros i b J. now apply (bd t v).
    + intros k i b _ J. now apply (bd t v).
    + apply B.
    + apply B.
    + apply B.
Qed.
Lemma set_arg1_ok : forall t v m q p, tracks m = true -> Semi t v m q ->
  keep t (set_arg T (t_id T t (role_of m)) 1 (AValue p) t) /\ Semi (set_arg T (t_id T t (role_of m)) 1 (AValue p) t) v m p.
Proof.
  intros t v m q p TR [S1 S2 S3 S4 S5 S6].
  assert (0 <= 1 < Z.of_nat (arity (role_of m))) as A by (destruct m; try discriminate TR; cbn; lia).
  destruct (set_arg_ok (role_of m) 1 (AValue p) t S1 A) as (K & B). split; [exact K|].
  destruct K as (K1 & K2 & K3 & K4 & K5 & K6). split; try congruence.
  - intros i b J. rewrite B, role_eqb_refl. cbn [andb]. destruct (i =? 1) eqn:E.
    + apply Z.eqb_eq in E. subst i. destruct m; try discriminate TR; cbn [role_of fixed bset In v_parts v_set v_elems v_conf v_idx] in J;
        repeat (destruct J as [J|J]; [injection J; intros; subst; try discriminate; try reflexivity|]); destruct J.
    + apply S2. destruct m; try discriminate TR; cbn [role_of fixed bset In v_parts v_set v_elems v_conf v_idx] in J |- *;
        repeat (destruct J as [J|J]; [injection J; intros; subst; try discriminate E; auto 10|]); destruct J.
  - intros k i b E J. rewrite B. destruct (role_eqb k (role_of m)) eqn:R; [apply role_eqb_eq in R; easy|]. now apply S3.
Qed.

Lemma run_semi : forall x m n t v q, Semi t v m q ->
  let r := trun T N (c_debug T (t_ctx T (set_args T (t_id T t (role_of m)) (values T m t) t))) x (role_of m) n
             (set_args T (t_id T t (role_of m)) (values T m t) t) in
  keep t (fst (fst r)) /\ Semi (fst (fst r)) v m q /\
  map seen (snd (fst r)) = if_happens (c_debug T (t_ctx T t)) x (role_of m, args_of v q m, n) /\
  snd r = status (c_debug T (t_ctx T t)) x.
Proof.
  intros x m n t v q S. destruct S as [S1 S2 S3 S4 S5 S6]. cbv zeta.
  destruct (set_args_ok (role_of m) (values T m t) t S1 (values_range m t)) as (A1 & A2).
  set (t1 := set_args T (t_id T t (role_of m)) (values T m t) t) in *.
  assert (c_debug T (t_ctx T t1) = c_debug T (t_ctx T t)) as D by apply A1. rewrite D.
  destruct (trun_ok (c_debug T (t_ctx T t)) x (role_of m) n t1 (args_of v q m) (proj1 A1) (target_length _ _ _)) as (R1 & R2 & R3 & R4).
  { intros j J. rewrite A2, role_eqb_refl. apply put_values; [exact S6|exact S2|exact J]. }
  set (t2 := fst (fst (trun T N (c_debug T (t_ctx T t)) x (role_of m) n t1))) in *.
  assert (keep t t2) as KK by (eapply keep_trans; eassumption).
  split; [exact KK|]. split; [|split; assumption]. destruct KK as (K1 & K2 & K3 & K4 & K5 & K6). split; try congruence.
  - intros i b I. rewrite R2, A2, role_eqb_refl. apply (put_fixed (bset v q)); [exact S6|exact I|]. now apply S2.
  - intros k i b E I. rewrite R2, A2. destruct (role_eqb k (role_of m)) eqn:R; [apply role_eqb_eq in R; easy|]. now apply S3.
Qed.

Definition items (m : cmd) (v : view) (n : Z) : Z := match m with Elem _ => v_num v | _ => n end.

Lemma track_set_ok : forall x m p n restore t v q, tracks m = true -> Semi t v m q -> p <> v_set v \/ q = v_set v ->
  let r := track_set T N x m p n restore t in
  keep t (fst (fst r)) /\ Semi (fst (fst r)) v m (if restore then v_set v else p) /\
  map seen (snd (fst r)) = if_happens (c_debug T (t_ctx T t)) x (role_of m, args_of v p m, items m v n) /\
  snd r = status (c_debug T (t_ctx T t)) x.
Proof.
  intros x m p n restore t v q TR S P. cbv zeta. unfold track_set. cbv zeta. pose proof (sm_ker _ _ _ _ S) as K.
  rewrite (kid_ok _ t K), (kn_node t K). cbn [andb].
  pose proof (nargs_ok (role_of m) t K) as A. pose proof (min_arity (role_of m)) as M.
  assert ((min_args (role_of m) <=? ker_nargs T (t_id T t (role_of m)) (t_ctx T t)) = true) as E by (apply Z.leb_le; lia).
  rewrite E. clear A M E. rewrite (sm_set _ _ _ _ S).
  set (t0 := if v_set v =? p then t else set_arg T (t_id T t (role_of m)) 1 (AValue p) t).
  assert (keep t t0 /\ Semi t0 v m p) as (K0 & S0).
  { unfold t0. destruct (v_set v =? p) eqn:EP.
    - apply Z.eqb_eq in EP. destruct P as [P|P]; [now rewrite EP in P|]. split; [now apply keep_refl|]. rewrite P, EP in S. exact S.
    - apply (set_arg1_ok t v m q p TR S). }
  clearbody t0. assert (t_id T t0 = t_id T t) as EI by apply K0. rewrite <- EI.
  pose proof (run_semi x m (items m v n) t0 v p S0) as R. cbv zeta in R.
  assert (match m with Elem _ => t_num T (set_args T (t_id T t0 (role_of m)) (values T m t0) t0) | _ => n end = items m v n) as EN.
  { pose proof (set_args_ok (role_of m) (values T m t0) t0 (proj1 K0) (values_range m t0)) as (A1 & _). unfold items.
    destruct m; try reflexivity. destruct A1 as (_ & _ & A1 & _). rewrite A1. apply S0. }
  rewrite EN. clear EN.
  set (r := trun T N _ x (role_of m) (items m v n) _) in *. destruct r as [[t2 l] s]. cbn [fst snd] in R |- *.
  destruct R as (R1 & R2 & R3 & R4). assert (c_debug T (t_ctx T t0) = c_debug T (t_ctx T t)) as ED by apply K0. rewrite ED in R3, R4.
  assert (keep t t2) as K2 by (eapply keep_trans; eassumption).
  rewrite (sm_set _ _ _ _ R2). assert (t_id T t2 = t_id T t0) as EI2 by apply R1. rewrite <- EI2.
  destruct (v_set v =? p) eqn:EP; cbn [negb andb].
  - apply Z.eqb_eq in EP. split; [exact K2|]. split; [|split; assumption]. destruct restore; [rewrite EP|]; exact R2.
  - destruct restore; [|split; [exact K2|split; [exact R2|split; assumption]]].
    destruct (set_arg1_ok t2 v m p (v_set v) TR R2) as (Q1 & Q2). split; [eapply keep_trans; eassumption|]. auto.
Qed.

Lemma track_sets_ok : forall m sets t v q, tracks m = true -> Semi t v m q ->
  Forall (fun s => fst (fst s) <> v_set v) sets ->
  let r := track_sets T N m sets t in let dbg := c_debug T (t_ctx T t) in
  keep t (fst (fst r)) /\ (exists q', Semi (fst (fst r)) v m q') /\
  map seen (snd (fst r)) = flat_map (fun s => let '(p, n, x) := s in if_happens dbg x (role_of m, args_of v p m, items m v n)) sets /\
  snd r = fold_right (fun s r => let '(_, _, x) := s in Z.lor (status dbg x) r) 0 sets.
Proof.
  intros m sets. induction sets as [|[[p n] x] sets IH]; intros t v q TR S F; cbv zeta; cbn [track_sets].
  - cbn [fst snd]. split; [apply keep_refl; apply S|]. split; [exists q; exact S|easy].
  - inversion F as [|? ? F1 F2]; subst. cbn [fst] in F1.
    destruct (track_set_ok x m p n false t v q TR S (or_introl F1)) as (R1 & R2 & R3 & R4).
    destruct (track_set T N x m p n false t) as [[t1 l1] s1]. cbn [fst snd] in *.
    destruct (IH t1 v p TR R2 F2) as (I1 & I2 & I3 & I4).
    assert (c_debug T (t_ctx T t1) = c_debug T (t_ctx T t)) as ED by apply R1. rewrite ED in I3, I4.
    destruct (track_sets T N m sets t1) as [[t2 l2] s2]. cbn [fst snd] in *.
    split; [eapply keep_trans; eassumption|]. split; [exact I2|]. cbn [flat_map fold_right]. rewrite map_app. split; congruence.
Qed.

Lemma track_job_ok : forall m sets t v, Ready t v -> call_ok v (TJob m sets) ->
  exists t' l s, track_job T N m sets t = Some (t', l, s) /\ Ready t' v /\ keep t t' /\
  map seen l = fst (expected (c_debug T (t_ctx T t)) v (TJob m sets)) /\ s = snd (expected (c_debug T (t_ctx T t)) v (TJob m sets)).
Proof.
  intros m sets t v R (TR & C). destruct sets as [|[[p n] x] rest]; [easy|]. destruct C as (-> & -> & F).
  cbn [expected fst snd]. destruct rest as [|y rest].
  - cbn [track_job flat_map fold_right]. destruct (track_sel_ok x m t v R) as (A1 & A2 & A3 & A4).
    destruct (track_sel T N x m t) as [[t' l] s]. cbn [fst snd] in *. exists t', l, s. split; [easy|]. split; [easy|]. split; [easy|].
    rewrite TR in A3. rewrite app_nil_r, Z.lor_0_r. split; [|exact A4]. rewrite A3. destruct m; reflexivity.
  - cbn [track_job]. pose proof (proj2 (semi_ready t v m) R) as S. cbn [track_sets].
    destruct (track_set_ok x m (v_set v) (v_num v) false t v (v_set v) TR S (or_intror eq_refl)) as (R1 & R2 & R3 & R4).
    destruct (track_set T N x m (v_set v) (v_num v) false t) as [[t1 l1] s1]. cbn [fst snd] in R1, R2, R3, R4.
    pose proof (track_sets_ok m (y :: rest) t1 v (v_set v) TR R2 F) as I. cbv zeta in I. cbn [track_sets] in I.
    destruct y as [[p' n'] x'].
    destruct (track_set T N x' m p' n' false t1) as [[t2 l2] s2]. destruct (track_sets T N m rest t2) as [[t3 l3] s3].
    cbn [fst snd] in I. destruct I as (I1 & (q & I2) & I3 & I4).
    assert (c_debug T (t_ctx T t1) = c_debug T (t_ctx T t)) as ED by apply R1. rewrite ED in I3, I4.
    pose proof (set_arg1_ok t3 v m q (v_set v) TR I2) as (Q1 & Q2).
    assert (Kernels t3) as K3 by apply I2. rewrite (kid_ok _ t3 K3). unfold set_arg in Q1, Q2.
    assert (t_pset T t = v_set v) as EP by apply R. rewrite EP.
    destruct (assign_arg T (t_id T t3 (role_of m)) 1 (AValue (v_set v)) (t_ctx T t3)) as [c|] eqn:EA.
    + eexists _, _, _. split; [reflexivity|]. split; [now apply (semi_ready _ v m)|].
      split; [eapply keep_trans; [exact R1|]; eapply keep_trans; eassumption|].
      cbn [flat_map fold_right] in *. rewrite map_app, R3, I3, R4, I4. split; [|reflexivity]. unfold items. reflexivity.
    + unfold assign_arg in EA. rewrite in_range in EA by exact K3. discriminate EA.
Qed.

(* assigning one argument to several kernels *)
Lemma assign_ready : forall l a t v v', Ready t v -> Forall (fun x => 0 <= snd x < Z.of_nat (arity (fst x))) l ->
  (forall k i b, In (i, b) (fixed v' k) ->
     if existsb (fun x => role_eqb k (fst x) && (i =? snd x)) l then b = arg_bound a else In (i, b) (fixed v k)) ->
  keep t (fst (assign_each T l a t)) /\ snd (assign_each T l a t) = 0 /\
  (forall k i b, In (i, b) (fixed v' k) -> bnd k i (fst (assign_each T l a t)) = Some b).
Proof.
  intros l a t v v' [K B] F H. destruct (assign_each_ok l a t K F) as (A1 & A2 & A3). split; [exact A1|]. split; [exact A2|].
  intros k i b J. rewrite A3. specialize (H k i b J).
  destruct (existsb (fun x => role_eqb k (fst x) && (i =? snd x)) l); [now rewrite H|]. now apply (bd t v).
Qed.
Ltac ranges := repeat (apply Forall_cons; [cbn [fst snd arity]; lia|]); apply Forall_nil.
Ltac in_fixed :=
  let k := fresh in let b := fresh in let i := fresh in let J := fresh in
  intros k i b J; destruct k; cbn [fixed In v_parts v_elems v_out v_conf v_addr v_idx v_set next bset] in J;
  repeat (destruct J as [J|J]; [injection J as <- <-; cbn; auto 10|]); destruct J.

Lemma keep_bound : forall t t' v, keep t t' -> (forall k i b, In (i, b) (fixed v k) -> bnd k i t' = Some b) ->
  t_pset T t = v_set v -> t_num T t = v_num v -> t_cfg T t = v_idx v -> Ready t' v.
Proof.
  intros t t' v (K1 & K2 & K3 & K4 & K5 & K6) H P Q R. split; [exact K1|]. split; [exact H|congruence|congruence|congruence].
Qed.
Lemma same_bound : forall t t', t_ctx T t' = t_ctx T t -> t_id T t' = t_id T t -> forall k i, bnd k i t' = bnd k i t.
Proof. intros t t' E1 E2 k i. unfold bnd. now rewrite E1, E2. Qed.
Lemma same_kernels : forall t t', t_ctx T t' = t_ctx T t -> t_id T t' = t_id T t -> Kernels t -> Kernels t'.
Proof. intros t t' E1 E2 [K1 K2 K3 K4]. split; rewrite ?E1, ?E2; assumption. Qed.

Definition ok_step (t : tctx) (v : view) (o : top) : Prop :=
  exists t' l s, tstep T N o t = Some (t', l, s) /\ Ready t' (next v o) /\ c_debug T (t_ctx T t') = c_debug T (t_ctx T t) /\
  map seen l = fst (expected (c_debug T (t_ctx T t)) v o) /\ s = snd (expected (c_debug T (t_ctx T t)) v o).

Lemma quiet_step : forall t v o r, Ready t v -> tstep T N o t = quiet T r -> keep t (fst r) -> snd r = 0 ->
  expected (c_debug T (t_ctx T t)) v o = ([], 0) ->
  v_set (next v o) = v_set v -> v_num (next v o) = v_num v -> v_idx (next v o) = v_idx v ->
  (forall k i b, In (i, b) (fixed (next v o) k) -> bnd k i (fst r) = Some b) -> ok_step t v o.
Proof.
  intros t v o r [K B] E KK S X V1 V2 V3 H. exists (fst r), [], (snd r). split; [exact E|].
  split; [|split; [apply KK|rewrite X; split; [easy|exact S]]].
  apply (keep_bound t); [exact KK|exact H| | |]; rewrite ?V1, ?V2, ?V3; apply B.
Qed.

Lemma tstep_ok : forall o t v, Ready t v -> call_ok v o -> ok_step t v o.
Proof.
  intros o t v R C. pose proof R as [K B]. destruct o.
  - destruct (assign_ready [(KUntil, 0); (KLine, 0); (KElem, 0); (KFetch, 0)] (AArgument a) t v (next v (TParticles a)) R) as (A1 & A2 & A3);
      [ranges|in_fixed|]. now apply (quiet_step t v _ (assign_particles T true a t)).
  - destruct (assign_ready [(KUntil, 2); (KLine, 2); (KElem, 2); (KAsgMon, 0); (KClrMon, 0)] (AArgument a) t v (next v (TElements a)) R) as (A1 & A2 & A3);
      [ranges|in_fixed|]. now apply (quiet_step t v _ (assign_elements T true a t)).
  - destruct (assign_ready [(KAsgMon, 1); (KAsgElem, 2)] (AArgument a) t v (next v (TOutput a)) R) as (A1 & A2 & A3);
      [ranges|in_fixed|]. now apply (quiet_step t v _ (assign_output T true a t)).
  - destruct (assign_ready [(KElem, 3); (KAsgElem, 0)] (AArgument a) t v (next v (TConfig a)) R) as (A1 & A2 & A3);
      [ranges|in_fixed|]. now apply (quiet_step t v _ (assign_config T true a t)).
  - destruct (assign_ready [(KElem, 4); (KAsgElem, 1)] (AValue i) t v (next v (TConfigIndex i)) R) as (A1 & A2 & A3);
      [ranges|in_fixed|]. unfold ok_step. cbn [tstep]. unfold assign_config_index, quiet.
    destruct (assign_each T [(KElem, 4); (KAsgElem, 1)] (AValue i) t) as [t1 s1]. cbn [fst snd] in *. subst s1. rewrite Z.eqb_refl. cbn [fst snd].
    eexists _, _, _. split; [reflexivity|]. destruct A1 as (K1 & K2 & K3 & K4 & K5 & K6).
    split; [|cbn [t_ctx]; split; [exact K6|easy]].
    split; [now apply (same_kernels t1)|]. destruct B as [B1 B2 B3 B4]. split; cbn [t_pset t_num t_cfg next v_set v_num v_idx]; try congruence.
    intros k j b J. now apply A3.
  - cbn [tstep]. unfold ok_step. cbn [tstep]. unfold assign_addr, quiet. rewrite (kid_ok KFetch t K), (kid_legal KFetch t K).
    pose proof (nargs_ok KFetch t K) as A. assert ((min_args KFetch <=? ker_nargs T (t_id T t KFetch) (t_ctx T t)) = true) as E by (apply Z.leb_le; exact A).
    rewrite E. cbn [negb andb fst snd]. destruct (set_arg_ok KFetch 1 (AArgument a) t K ltac:(cbn; lia)) as (A1 & A2).
    eexists _, _, _. split; [reflexivity|]. split; [|split; [apply A1|easy]].
    apply (keep_bound t); [exact A1| |apply B|apply B|apply B].
    intros k i b J. rewrite A2. destruct k; cbn [fixed next v_parts v_elems v_out v_conf v_addr v_idx v_set role_eqb andb] in J |- *;
      try (now apply (bd t v)).
    destruct J as [J|[J|[J|[]]]]; injection J as <- <-; cbn; [apply (bd t v)|reflexivity|apply (bd t v)]; try exact B; cbn; auto.
  - destruct (assign_ready [(KUntil, 1); (KLine, 1); (KElem, 1)] (AValue p) t v (next v (TSet p n)) R) as (A1 & A2 & A3);
      [ranges|in_fixed|]. unfold ok_step. cbn [tstep]. unfold assign_set, quiet.
    destruct (assign_each T [(KUntil, 1); (KLine, 1); (KElem, 1)] (AValue p) t) as [t1 s1]. cbn [fst snd] in *. subst s1. rewrite Z.eqb_refl. cbn [fst snd].
    eexists _, _, _. split; [reflexivity|]. destruct A1 as (K1 & K2 & K3 & K4 & K5 & K6).
    split; [|cbn [t_ctx]; split; [exact K6|easy]].
    split; [now apply (same_kernels t1)|]. destruct B as [B1 B2 B3 B4]. split; cbn [t_pset t_num t_cfg next v_set v_num v_idx]; try congruence.
    intros k' j b J. now apply A3.
  - unfold ok_step. cbn [tstep]. unfold set_wgs. rewrite (kid_ok k t K). unfold ker. rewrite (kn_node t K).
    destruct (kn_ids t K k) as (r & RR & _). rewrite RR. destruct (w <=? k_max T r).
    + eexists _, _, _. split; [reflexivity|].
      assert (keep t (t_with T (upd_ker T (k_with_wgs T w) (t_id T t k) (t_ctx T t)) t)) as KK by (apply upd_keep; [exact K|easy]).
      split; [|split; [apply KK|easy]]. apply (keep_bound t); [exact KK| |apply B|apply B|apply B].
      intros k' i b J. rewrite <- (bd t v k' i b B J). unfold bnd, ker_bound. cbn [t_with t_ctx t_id]. unfold upd_ker, with_kers. cbn [c_kers].
      rewrite nthz_modz. destruct (t_id T t k' =? t_id T t k); [|easy]. destruct (nthz (c_kers T (t_ctx T t)) (t_id T t k')); easy.
    + eexists _, _, _. split; [reflexivity|]. split; [|easy]. destruct t; split; assumption.
  - destruct (track_sel_ok x m t v R) as (A1 & A2 & A3 & A4). unfold ok_step. cbn [tstep next expected fst snd].
    destruct (track_sel T N x m t) as [[t' l] s]. cbn [fst snd] in *. exists t', l, s. split; [easy|]. split; [easy|]. split; [apply A2|easy].
  - cbn [call_ok] in C. pose proof (proj2 (semi_ready t v m) R) as S.
    destruct (track_set_ok x m p n true t v (v_set v) C S (or_intror eq_refl)) as (A1 & A2 & A3 & A4). unfold ok_step. cbn [tstep next expected fst snd].
    destruct (track_set T N x m p n true t) as [[t' l] s]. cbn [fst snd] in *. exists t', l, s. split; [easy|].
    split; [now apply (semi_ready t' v m)|]. split; [apply A1|easy].
  - destruct (track_job_ok m sets t v R C) as (t' & l & s & A0 & A1 & A2 & A3 & A4). unfold ok_step. cbn [tstep next].
    exists t', l, s. split; [exact A0|]. split; [easy|]. split; [apply A2|easy].
  - unfold ok_step. cbn [tstep next expected fst snd]. unfold fetch. rewrite (kn_node t K).
    destruct (trun_ok false x KFetch 1 t (fetch_args v) K eq_refl) as (A1 & A2 & A3 & A4).
    { intros j J. idx J; try (exfalso; cbn [arity Z.of_nat Pos.of_succ_nat Pos.succ] in J; lia); cbn; apply (bd t v); try exact B; cbn; auto. }
    destruct (trun T N false x KFetch 1 t) as [[t' l] s]. cbn [fst snd] in *. exists t', l, s. split; [easy|].
    split; [|split; [apply A1|easy]]. apply (keep_bound t); [exact A1| |apply B|apply B|apply B]. intros k i b J. rewrite A2. now apply (bd t v).
Qed.

Lemma tsteps_ok : forall h t v, Ready t v -> calls_ok v h ->
  exists t' l ss, tsteps T N h t = Some (t', l, ss) /\ Ready t' (final v h) /\
  (map seen l, ss) = all_expected (c_debug T (t_ctx T t)) v h.
Proof.
  induction h as [|o h IH]; intros t v R C; cbn [tsteps].
  - exists t, [], []. easy.
  - destruct C as [C1 C2]. destruct (tstep_ok o t v R C1) as (t1 & l1 & s1 & A1 & A2 & A3 & A4 & A5). rewrite A1.
    destruct (IH t1 (next v o) A2 C2) as (t2 & l2 & ss & B1 & B2 & B3). rewrite B1. eexists _, _, _. split; [reflexivity|].
    split; [exact B2|]. cbn [all_expected]. rewrite A3 in B3. rewrite <- B3. cbn [fst snd]. rewrite map_app. congruence.
Qed.

(* ---- preparing a context ---- *)
Definition prepare (v : view) : list (tctx -> tctx * Z) :=
  [assign_slots T; assign_config_index T (v_idx v); assign_particles T true (v_parts v); assign_elements T true (v_elems v);
   assign_output T true (v_out v); assign_config T true (v_conf v); assign_addr T true (v_addr v);
   assign_set T (v_set v) (v_num v)].
Fixpoint calls (l : list (tctx -> tctx * Z)) (t : tctx) : tctx * list Z :=
  match l with
  | [] => (t, [])
  | f :: l => let '(t, s) := f t in let '(t, ss) := calls l t in (t, s :: ss)
  end.

Definition bmap (t : tctx) : role -> Z -> option bound := fun k i => bnd k i t.
Definition aput (l : list (role * Z)) (b : bound) (f : role -> Z -> option bound) : role -> Z -> option bound :=
  fun k j => if existsb (fun x => role_eqb k (fst x) && (j =? snd x)) l then Some b else f k j.

Lemma prepare_ok : forall v t, Kernels t ->
  Ready (fst (calls (prepare v) t)) v /\ snd (calls (prepare v) t) = repeat 0 8 /\
  c_debug T (t_ctx T (fst (calls (prepare v) t))) = c_debug T (t_ctx T t).
Proof.
  intros v t K0. unfold prepare. cbn [calls].
  unfold assign_slots.
  destruct (assign_each_ok [(KUntil, 4); (KLine, 6); (KElem, 6); (KAsgMon, 4); (KClrMon, 1); (KAsgElem, 4); (KFetch, 2)] (AValue 8) t K0) as (A1 & A2 & A3); [ranges|].
  destruct (assign_each T _ (AValue 8) t) as [t1 s1]. cbn [fst snd] in A1, A2, A3. subst s1.
  unfold assign_config_index.
  destruct (assign_each_ok [(KElem, 4); (KAsgElem, 1)] (AValue (v_idx v)) t1 (proj1 A1)) as (B1 & B2 & B3); [ranges|].
  destruct (assign_each T _ (AValue (v_idx v)) t1) as [t2 s2]. cbn [fst snd] in B1, B2, B3. subst s2. rewrite Z.eqb_refl.
  set (t2' := mkT T (t_ctx T t2) (t_pset T t2) (t_num T t2) (v_idx v) (t_id T t2)).
  assert (Kernels t2') as K2 by (apply (same_kernels t2); [easy|easy|apply B1]).
  assert (forall k i, bnd k i t2' = bnd k i t2) as E2 by (apply same_bound; easy).
  unfold assign_particles.
  destruct (assign_each_ok [(KUntil, 0); (KLine, 0); (KElem, 0); (KFetch, 0)] (AArgument (v_parts v)) t2' K2) as (C1 & C2 & C3); [ranges|].
  destruct (assign_each T _ (AArgument (v_parts v)) t2') as [t3 s3]. cbn [fst snd] in C1, C2, C3. subst s3.
  unfold assign_elements.
  destruct (assign_each_ok [(KUntil, 2); (KLine, 2); (KElem, 2); (KAsgMon, 0); (KClrMon, 0)] (AArgument (v_elems v)) t3 (proj1 C1)) as (D1 & D2 & D3); [ranges|].
  destruct (assign_each T _ (AArgument (v_elems v)) t3) as [t4 s4]. cbn [fst snd] in D1, D2, D3. subst s4.
  unfold assign_output.
  destruct (assign_each_ok [(KAsgMon, 1); (KAsgElem, 2)] (AArgument (v_out v)) t4 (proj1 D1)) as (F1 & F2 & F3); [ranges|].
  destruct (assign_each T _ (AArgument (v_out v)) t4) as [t5 s5]. cbn [fst snd] in F1, F2, F3. subst s5.
  unfold assign_config.
  destruct (assign_each_ok [(KElem, 3); (KAsgElem, 0)] (AArgument (v_conf v)) t5 (proj1 F1)) as (G1 & G2 & G3); [ranges|].
  destruct (assign_each T _ (AArgument (v_conf v)) t5) as [t6 s6]. cbn [fst snd] in G1, G2, G3. subst s6.
  pose proof (proj1 G1) as K6.
  unfold assign_addr. rewrite (kid_ok KFetch t6 K6), (kid_legal KFetch t6 K6).
  pose proof (nargs_ok KFetch t6 K6) as NA.
  assert ((min_args KFetch <=? ker_nargs T (t_id T t6 KFetch) (t_ctx T t6)) = true) as EN by (apply Z.leb_le; exact NA).
  rewrite EN. cbn [negb andb]. destruct (set_arg_ok KFetch 1 (AArgument (v_addr v)) t6 K6 ltac:(cbn; lia)) as (H1 & H3).
  set (t7 := set_arg T (t_id T t6 KFetch) 1 (AArgument (v_addr v)) t6) in *.
  unfold assign_set.
  destruct (assign_each_ok [(KUntil, 1); (KLine, 1); (KElem, 1)] (AValue (v_set v)) t7 (proj1 H1)) as (J1 & J2 & J3); [ranges|].
  destruct (assign_each T _ (AValue (v_set v)) t7) as [t8 s8]. cbn [fst snd] in J1, J2, J3. subst s8. rewrite Z.eqb_refl. cbn [fst snd].
  assert (keep t2' t8) as KK by (do 5 (eapply keep_trans; [eassumption|]); exact J1).
  destruct KK as (Q1 & Q2 & Q3 & Q4 & Q5 & Q6).
  split; [|split; [reflexivity|]].
  - split; [now apply (same_kernels t8)|]. split; cbn [t_pset t_num t_cfg]; [|easy|easy|exact Q4].
    intros k i b J. change (bnd k i t8 = Some b). rewrite J3, H3, G3, F3, D3, C3, E2, B3, A3.
    destruct k; cbn [fixed In] in J; repeat (destruct J as [J|J]; [injection J as <- <-; reflexivity|]); destruct J.
  - cbn [t_ctx]. rewrite Q6. unfold t2'. cbn [t_ctx].
    destruct A1 as (_ & _ & _ & _ & _ & A6). destruct B1 as (_ & _ & _ & _ & _ & B6). congruence.
Qed.

(* ---- without kernels ---- *)
Lemma track_none : forall x m t, has_node T (t_ctx T t) && (min_args (role_of m) <=? ker_nargs T (kid T (role_of m) t) (t_ctx T t)) = false ->
  track_sel T N x m t = (t, [], -1) /\ forall p n r, track_set T N x m p n r t = (t, [], -1).
Proof. intros x m t H. unfold track_sel, track_set. cbv zeta. now rewrite H. Qed.
End Proofs.
