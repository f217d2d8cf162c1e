(* Lemmas about the programs and kernels of OpenCL contexts. *)
From Coq Require Import Ascii String ZArith Bool List Lia.
From Verif Require Import Num Tac NodeId OclContext OclContextSpec.
Import ListNotations.
Local Open Scope Z_scope.

Lemma chars_eqb_eq : forall a b, chars_eqb a b = true <-> a = b.
Proof.
  induction a as [|x a IH]; intros [|y b]; cbn [chars_eqb]; split; intro H; try easy.
  - apply andb_true_iff in H. destruct H as [H1 H2]. apply Ascii.eqb_eq in H1. apply IH in H2. now subst.
  - injection H as -> ->. rewrite Ascii.eqb_refl. cbn. now apply IH.
Qed.
Lemma chars_eqb_refl : forall a, chars_eqb a a = true.
Proof. intros a. now apply chars_eqb_eq. Qed.
Lemma chars_eqb_neq : forall a b, chars_eqb a b = false <-> a <> b.
Proof. intros a b. rewrite <- chars_eqb_eq. now rewrite not_true_iff_false. Qed.
Lemma is_empty_false : forall s, is_empty s = false <-> s <> [].
Proof. intros [|a s]; cbn; split; intro H; easy. Qed.
Lemma is_empty_true : forall s, is_empty s = true <-> s = [].
Proof. intros [|a s]; cbn; split; intro H; easy. Qed.

(* ---- lists ---- *)
Lemma zlen_nonneg : forall A (l : list A), 0 <= zlen l.
Proof. intros. unfold zlen. lia. Qed.
Lemma zlen_app : forall A (l m : list A), zlen (l ++ m) = zlen l + zlen m.
Proof. intros. unfold zlen. rewrite app_length. lia. Qed.
Lemma zlen_one : forall A (x : A), zlen [x] = 1.
Proof. reflexivity. Qed.
Lemma zlen_map : forall A B (f : A -> B) l, zlen (map f l) = zlen l.
Proof. intros. unfold zlen. now rewrite map_length. Qed.
Lemma zlen_zero : forall A (l : list A), zlen l = 0 -> l = [].
Proof. intros A [|x l]; unfold zlen; cbn [length]; [easy|lia]. Qed.

Lemma mod_nth_length : forall A (f : A -> A) l n, length (mod_nth f n l) = length l.
Proof. induction l as [|x l IH]; intros [|n]; cbn [mod_nth length]; try easy. now rewrite IH. Qed.
Lemma zlen_modz : forall A (f : A -> A) i l, zlen (modz f i l) = zlen l.
Proof. intros. unfold modz, zlen. destruct (i <? 0); [easy|]. now rewrite mod_nth_length. Qed.

Lemma mod_nth_nth : forall A (f : A -> A) l n m,
  nth_error (mod_nth f n l) m = if Nat.eqb m n then option_map f (nth_error l m) else nth_error l m.
Proof.
  induction l as [|x l IH]; intros n m; cbn [mod_nth].
  - replace (nth_error (@nil A) m) with (@None A) by (now destruct m). cbn [option_map]. now destruct (Nat.eqb m n).
  - destruct n as [|n], m as [|m]; cbn [nth_error Nat.eqb option_map]; try easy.
Qed.

Lemma nthz_modz : forall A (f : A -> A) l i j,
  nthz (modz f i l) j = if j =? i then option_map f (nthz l j) else nthz l j.
Proof.
  intros. unfold nthz, modz. destruct (j <? 0) eqn:J.
  - now destruct (j =? i).
  - destruct (i <? 0) eqn:K.
    + destruct (Z.eqb_spec j i); [lia|easy].
    + rewrite mod_nth_nth. destruct (Z.eqb_spec j i) as [-> |D].
      * now rewrite Nat.eqb_refl.
      * destruct (Nat.eqb_spec (Z.to_nat j) (Z.to_nat i)); [lia|easy].
Qed.

Lemma nthz_some : forall A (l : list A) i, (exists x, nthz l i = Some x) <-> 0 <= i < zlen l.
Proof.
  intros. unfold nthz, zlen. destruct (Z.ltb_spec i 0).
  - split; [intros [x ?]; easy|lia].
  - split.
    + intros [x E]. assert (nth_error l (Z.to_nat i) <> None) as D by (now rewrite E).
      apply nth_error_Some in D. lia.
    + intros L. destruct (nth_error l (Z.to_nat i)) as [x|] eqn:E; [now exists x|].
      apply nth_error_None in E. lia.
Qed.
Lemma nthz_range : forall A (l : list A) i x, nthz l i = Some x -> 0 <= i < zlen l.
Proof. intros A l i x E. apply nthz_some. now exists x. Qed.
Lemma nthz_none : forall A (l : list A) i, nthz l i = None <-> i < 0 \/ zlen l <= i.
Proof.
  intros. split.
  - intros E. destruct (Z.ltb_spec i 0); [now left|]. right.
    destruct (Z.ltb_spec i (zlen l)); [|lia].
    destruct (proj2 (nthz_some _ l i)) as [x X]; [lia|congruence].
  - intros L. destruct (nthz l i) as [x|] eqn:E; [|easy]. apply nthz_range in E. lia.
Qed.
Lemma nthz_app1 : forall A (l m : list A) i, i < zlen l -> nthz (l ++ m) i = nthz l i.
Proof.
  intros A l m i L. unfold nthz, zlen in *. destruct (Z.ltb_spec i 0); [easy|].
  apply nth_error_app1. lia.
Qed.
Lemma nthz_app_last : forall A (l : list A) x, nthz (l ++ [x]) (zlen l) = Some x.
Proof.
  intros. unfold nthz, zlen. destruct (Z.ltb_spec (Z.of_nat (length l)) 0); [lia|].
  rewrite Nat2Z.id, nth_error_app2, Nat.sub_diag by lia. easy.
Qed.
Lemma nthz_snoc : forall A (l : list A) x i,
  nthz (l ++ [x]) i = if i =? zlen l then Some x else nthz l i.
Proof.
  intros. destruct (Z.eqb_spec i (zlen l)) as [-> |D]; [apply nthz_app_last|].
  destruct (Z.ltb_spec i (zlen l)); [now apply nthz_app1|].
  transitivity (@None A); [|symmetry]; apply nthz_none; rewrite ?zlen_app, ?zlen_one; lia.
Qed.
Lemma nthz_nil : forall A i, nthz (@nil A) i = None.
Proof. intros. apply nthz_none. cbn. unfold zlen. cbn. lia. Qed.
Lemma nthz_map : forall A B (f : A -> B) l i, nthz (map f l) i = option_map f (nthz l i).
Proof.
  intros. unfold nthz. destruct (i <? 0); [easy|]. apply nth_error_map.
Qed.
Lemma nthz_in : forall A (l : list A) i x, nthz l i = Some x -> In x l.
Proof. intros A l i x. unfold nthz. destruct (i <? 0); [easy|]. apply nth_error_In. Qed.
Lemma map_modz : forall A B (f : A -> A) (g : A -> B) i l, (forall x, g (f x) = g x) -> map g (modz f i l) = map g l.
Proof.
  intros A B f g i l E. unfold modz. destruct (i <? 0); [easy|].
  revert i. induction l as [|x l IH]; intros i; [easy|].
  assert (forall n, map g (mod_nth f n (x :: l)) = map g (x :: l)) as G; [|apply G].
  clear IH. intros n. revert n. induction (x :: l) as [|y m IH]; intros [|n]; cbn [mod_nth map]; try easy.
  - now rewrite E.
  - now rewrite IH.
Qed.
Lemma modz_id : forall A (f : A -> A) i l, (forall x, nthz l i = Some x -> f x = x) -> modz f i l = l.
Proof.
  intros A f i l. unfold modz, nthz. destruct (i <? 0); [easy|].
  generalize (Z.to_nat i) as n. induction l as [|x l IH]; intros [|n] H; cbn [mod_nth]; try easy.
  - rewrite H; easy.
  - rewrite IH; [easy|]. exact H.
Qed.

Section Proofs.
Variable T : Type.
Variable N : NumOps T.
Local Notation ctx := (ctx T).
Local Notation kernel := (kernel T).

(* the parts of a kernel which are set once and for all *)
Definition same_kernel (a b : kernel) : Prop :=
  k_name T a = k_name T b /\ k_prog T a = k_prog T b /\ k_nargs T a = k_nargs T b /\ k_max T a = k_max T b /\
  k_pref T a = k_pref T b /\ k_local T a = k_local T b.
Definition args_ok (k : kernel) : Prop :=
  0 <= k_nargs T k /\ zlen (k_ptrs T k) = k_nargs T k /\ zlen (k_types T k) = k_nargs T k /\ zlen (k_bound T k) = k_nargs T k.

Record Inv (c : ctx) : Prop := mkInv {
  inv_nodes : 0 <= c_nodes T c;
  inv_sel : c_sel T c = -1 \/ 0 <= c_sel T c < c_nodes T c;
  inv_none : has_node T c = false -> c_kers T c = [] /\ c_cl T c = [];
  inv_cl : has_node T c = true -> c_cl T c = map p_source (c_progs T c);
  inv_pk : forall i p, nthz (c_progs T c) i = Some p ->
    forall j, In j (p_kernels p) <-> exists k, nthz (c_kers T c) j = Some k /\ k_prog T k = i;
  inv_comp : forall i p, nthz (c_progs T c) i = Some p -> p_kernels p <> [] -> p_compiled p = true;
  inv_k : forall j k, nthz (c_kers T c) j = Some k ->
    k_name T k <> [] /\ 0 <= k_prog T k < zlen (c_progs T c) /\ args_ok k;
  inv_uniq : forall i j a b, nthz (c_kers T c) i = Some a -> nthz (c_kers T c) j = Some b ->
    k_prog T a = k_prog T b -> k_name T a = k_name T b -> i = j }.

(* a program which is the same apart from the outcome of compiling it *)
Definition same_prog (a b : program) : Prop :=
  p_path a = p_path b /\ p_source a = p_source b /\ p_options a = p_options b /\ p_kernels a = p_kernels b.

Lemma do_compile_same : forall e c s p, same_prog (fst (do_compile T e c s p)) p.
Proof.
  intros. unfold do_compile.
  destruct (_ && _); [|easy]. destruct (e_build _ _ _ _) as [[st r] l]. now destruct st.
Qed.
Lemma do_compile_kept : forall e c s p, p_compiled p = true -> fst (do_compile T e c s p) = p.
Proof.
  intros e c s p E. unfold do_compile. rewrite E. cbn [negb]. rewrite andb_false_r. easy.
Qed.
Lemma do_compile_kernels : forall e c s p, p_kernels p <> [] -> fst (do_compile T e c s p) = p.
Proof.
  intros e c s p E. unfold do_compile. destruct (p_kernels p) eqn:K; [easy|].
  rewrite andb_false_r. easy.
Qed.
Lemma do_compile_result : forall e c s p,
  snd (do_compile T e c s p) = true -> p_compiled (fst (do_compile T e c s p)) = true /\ p_kernels p = [].
Proof.
  intros e c s p. unfold do_compile.
  destruct (has_node T c); [|easy]. destruct (p_compiled p); [easy|]. cbn [negb andb].
  destruct (p_kernels p); [|easy]. destruct (negb _); [|easy].
  cbn [andb]. destruct (e_build _ _ _ _) as [[st r] l]. now destruct st.
Qed.
Lemma do_compile_false : forall e c s p,
  snd (do_compile T e c s p) = false -> p_compiled (fst (do_compile T e c s p)) = p_compiled p.
Proof.
  intros e c s p. unfold do_compile. destruct (_ && _) eqn:E; [|easy].
  destruct (has_node T c); [|easy]. destruct (p_compiled p); [easy|].
  destruct (e_build _ _ _ _) as [[st r] l]. now destruct st.
Qed.

Lemma has_node_progs : forall ps c, has_node T (with_progs T ps c) = has_node T c.
Proof. reflexivity. Qed.
Lemma has_node_kers : forall ps c, has_node T (with_kers T ps c) = has_node T c.
Proof. reflexivity. Qed.

(* updating a kernel *)
Lemma Inv_upd : forall f id c, (forall k, same_kernel (f k) k) -> (forall k, args_ok k -> args_ok (f k)) ->
  Inv c -> Inv (upd_ker T f id c).
Proof.
  intros f id c F A V. unfold upd_ker.
  constructor; cbn [with_kers c_nodes c_sel c_progs c_cl c_kers].
  - apply V.
  - apply V.
  - intros H. destruct (inv_none c V H) as [-> ->]. split; [|easy]. unfold modz. now destruct (id <? 0), (Z.to_nat id).
  - apply V.
  - intros i p P j. rewrite (inv_pk c V i p P j). split; intros (k & K & L).
    + rewrite nthz_modz, K. cbn [option_map]. destruct (j =? id); eexists; split; try reflexivity; [|easy].
      destruct (F k) as (_ & -> & _). easy.
    + rewrite nthz_modz in K. destruct (j =? id); [|now exists k].
      destruct (nthz (c_kers T c) j) as [k0|] eqn:E; [|easy]. cbn [option_map] in K. injection K as <-.
      exists k0. split; [easy|]. destruct (F k0) as (_ & G & _). congruence.
  - apply V.
  - intros j k K. rewrite nthz_modz in K. destruct (j =? id); [|now apply (inv_k c V j)].
    destruct (nthz (c_kers T c) j) as [k0|] eqn:E; [|easy]. cbn [option_map] in K. injection K as <-.
    destruct (inv_k c V j k0 E) as (H1 & H2 & H3). destruct (F k0) as (-> & -> & _).
    split; [easy|]. split; [easy|]. now apply A.
  - assert (forall j k, nthz (modz f id (c_kers T c)) j = Some k ->
      exists k0, nthz (c_kers T c) j = Some k0 /\ k_prog T k0 = k_prog T k /\ k_name T k0 = k_name T k) as G.
    { intros j k K. rewrite nthz_modz in K. destruct (j =? id); [|now exists k].
      destruct (nthz (c_kers T c) j) as [k0|] eqn:E; [|easy]. cbn [option_map] in K. injection K as <-.
      exists k0. destruct (F k0) as (-> & -> & _). easy. }
    intros i j a b Ka Kb P Q. destruct (G i a Ka) as (a0 & A1 & A2 & A3). destruct (G j b Kb) as (b0 & B1 & B2 & B3).
    apply (inv_uniq c V i j a0 b0); congruence.
Qed.

(* changing programs only in what compiling them sets *)
Lemma Inv_progs : forall ps c,
  Inv c -> zlen ps = zlen (c_progs T c) ->
  (forall i p, nthz ps i = Some p -> exists q, nthz (c_progs T c) i = Some q /\ p_kernels p = p_kernels q /\
     p_source p = p_source q /\ (p_kernels q <> [] -> p_compiled p = p_compiled q)) ->
  Inv (with_progs T ps c).
Proof.
  intros ps c V L H. constructor; cbn [with_progs c_nodes c_sel c_progs c_cl c_kers].
  - apply V.
  - apply V.
  - apply V.
  - intros E. rewrite (inv_cl c V E).
    clear - L H. revert L H. generalize (c_progs T c) as qs. intros qs L H.
    apply nth_ext with (d := []) (d' := []).
    { rewrite !map_length. unfold zlen in L. lia. }
    intros n Ln. rewrite map_length in Ln.
    assert (exists p, nthz ps (Z.of_nat n) = Some p) as [p P].
    { apply nthz_some. unfold zlen in *. lia. }
    destruct (H _ p P) as (q & Q & _ & S & _).
    unfold nthz in P, Q. rewrite (proj2 (Z.ltb_ge (Z.of_nat n) 0)) in P, Q by lia. rewrite Nat2Z.id in P, Q.
    apply nth_error_nth with (d := mkProg [] [] [] [] [] false) in P, Q.
    change (@nil ascii) with (p_source (mkProg [] [] [] [] [] false)).
    rewrite !map_nth. congruence.
  - intros i p P j. destruct (H i p P) as (q & Q & K & _). rewrite K. apply (inv_pk c V i q Q).
  - intros i p P NE. destruct (H i p P) as (q & Q & K & _ & Cm). rewrite K in NE. rewrite (Cm NE).
    now apply (inv_comp c V i q).
  - rewrite L. apply V.
  - apply V.
Qed.

Lemma Inv_remap : forall p k c, Inv c -> Inv (with_remap T p k c).
Proof. intros p k c V. destruct V. constructor; assumption. Qed.
Lemma Inv_flags : forall f c, Inv c -> Inv (with_flags T f c).
Proof. intros f c V. destruct V. constructor; assumption. Qed.
Lemma Inv_debug : forall f c, Inv c -> Inv (with_debug T f c).
Proof. intros f c V. destruct V. constructor; assumption. Qed.
Lemma Inv_set_flag : forall s v c, Inv c -> Inv (set_feature_flag T s v c).
Proof.
  intros s v c V. unfold set_feature_flag. destruct (is_empty s); [easy|].
  destruct (find_flag s (c_flags T c)); [easy|]. now apply Inv_flags.
Qed.

(* a new program without kernels *)
Lemma Inv_snoc : forall p c, Inv c -> p_kernels p = [] ->
  Inv (with_progs T (c_progs T c ++ [p]) (with_cl T (if has_node T c then c_cl T c ++ [p_source p] else c_cl T c) c)).
Proof.
  intros p c V K. constructor; cbn [with_progs with_cl c_nodes c_sel c_progs c_cl c_kers].
  - apply V.
  - apply V.
  - change (has_node T _) with (has_node T c). intros H. rewrite H. now apply V.
  - change (has_node T _) with (has_node T c). intros H. rewrite H, map_app, (inv_cl c V H). easy.
  - intros i q Q j. rewrite nthz_snoc in Q. destruct (Z.eqb_spec i (zlen (c_progs T c))) as [-> |D].
    + injection Q as <-. rewrite K. split; [easy|]. intros (k & E & P).
      destruct (inv_k c V j k E) as (_ & L & _). lia.
    + apply (inv_pk c V i q Q).
  - intros i q Q NE. rewrite nthz_snoc in Q. destruct (Z.eqb_spec i (zlen (c_progs T c))) as [-> |D].
    + injection Q as <-. now rewrite K in NE.
    + now apply (inv_comp c V i q).
  - intros j k E. destruct (inv_k c V j k E) as (H1 & H2 & H3). rewrite zlen_app, zlen_one. repeat split; try easy; try lia; apply H3.
  - apply V.
Qed.

Lemma Inv_add_code : forall e s o c, Inv c -> Inv (fst (add_code T e s o c)).
Proof.
  intros e s o c V. unfold add_code. destruct (is_empty s); [easy|].
  destruct (has_node T c) eqn:E; cbn [fst].
  - pose proof (do_compile_same e (with_cl T (c_cl T c ++ [s]) c) s (mkProg [] s o [] [] false)) as (S1 & S2 & S3 & S4).
    pose proof (Inv_snoc (fst (do_compile T e (with_cl T (c_cl T c ++ [s]) c) s (mkProg [] s o [] [] false))) c V S4) as G.
    rewrite E, S2 in G. exact G.
  - pose proof (Inv_snoc (mkProg [] s o [] [] false) c V eq_refl) as G. rewrite E in G.
    replace (with_cl T (c_cl T c) c) with c in G by (now destruct c). exact G.
Qed.

Definition set_path (full : chars) (p : program) : program :=
  mkProg full (p_source p) (p_options p) (p_report p) (p_kernels p) (p_compiled p).
Lemma Inv_set_path : forall full id c, Inv c -> Inv (with_progs T (modz (set_path full) id (c_progs T c)) c).
Proof.
  intros full id c V. apply Inv_progs; [easy|apply zlen_modz|].
  intros i p P. rewrite nthz_modz in P. destruct (i =? id); [|now exists p].
  destruct (nthz (c_progs T c) i) as [q|]; [|easy]. injection P as <-. now exists q.
Qed.
Lemma Inv_add_file : forall e f o r c, Inv c -> Inv (fst (add_file T e f o r c)).
Proof.
  intros e f o r c V. unfold add_file. cbv zeta.
  set (full := if is_empty f then [] else if r then c_dir T c ++ f else f).
  destruct (is_empty full); [easy|]. destruct (e_file e full) as [s|]; [|easy].
  destruct (is_empty s); [easy|].
  pose proof (Inv_add_code e s (if is_empty o then c_opts T c else o) c V) as G.
  destruct (add_code T e s _ c) as [c' id]. cbn [fst] in *. apply (Inv_set_path full id c' G).
Qed.
Lemma Inv_init_progs : forall e c, Inv c -> Inv (fst (init_progs T e c)).
Proof.
  intros e c V. unfold init_progs.
  pose proof (Inv_add_file e (remap_file T c) (default_options T e c) false c V) as G.
  destruct (add_file T e _ _ false c) as [c' id]. cbn [fst] in *. now apply Inv_remap.
Qed.

Lemma Inv_compile : forall e id c, Inv c -> Inv (fst (compile T e id c)).
Proof.
  intros e id c V. unfold compile. destruct (_ && _); [|easy].
  destruct (nthz (c_cl T c) id) as [s|]; [|easy]. destruct (nthz (c_progs T c) id) as [p|] eqn:P; [|easy].
  pose proof (do_compile_same e c s p) as (S1 & S2 & S3 & S4). pose proof (do_compile_kernels e c s p) as S5.
  destruct (do_compile T e c s p) as [p' ok]. cbn [fst] in *.
  apply Inv_progs; [easy|apply zlen_modz|].
  intros i q Q. rewrite nthz_modz in Q. destruct (Z.eqb_spec i id) as [-> |D]; [|now exists q].
  rewrite P in Q. injection Q as <-. exists p. split; [easy|]. split; [easy|]. split; [easy|].
  intros H. now rewrite (S5 H).
Qed.

(* ---- enabling kernels ---- *)
Definition add_id (kid : Z) (p : program) : program :=
  mkProg (p_path p) (p_source p) (p_options p) (p_report p) (p_kernels p ++ [kid]) (p_compiled p).
Definition add_ker (k : kernel) (c : ctx) : ctx :=
  with_progs T (modz (add_id (zlen (c_kers T c))) (k_prog T k) (c_progs T c)) (with_kers T (c_kers T c ++ [k]) c).

Lemma Inv_add_ker : forall k c, Inv c -> has_node T c = true ->
  k_name T k <> [] -> args_ok k ->
  prog_compiled T (k_prog T k) c = true ->
  (forall j b, nthz (c_kers T c) j = Some b -> k_prog T b = k_prog T k -> k_name T b <> k_name T k) ->
  Inv (add_ker k c).
Proof.
  intros k c V Hn Nm A Cm U. unfold add_ker.
  unfold prog_compiled in Cm. destruct (nthz (c_progs T c) (k_prog T k)) as [p|] eqn:P; [|easy].
  constructor; cbn [with_progs with_kers c_nodes c_sel c_progs c_cl c_kers].
  - apply V.
  - apply V.
  - change (has_node T _) with (has_node T c). congruence.
  - intros _. rewrite map_modz by easy. now apply V.
  - intros i q Q j. rewrite nthz_modz in Q. rewrite nthz_snoc. destruct (Z.eqb_spec i (k_prog T k)) as [-> |D].
    + rewrite P in Q. injection Q as <-. cbn [add_id p_kernels]. rewrite in_app_iff, (inv_pk c V _ p P j).
      destruct (Z.eqb_spec j (zlen (c_kers T c))) as [-> |J].
      * split; [intros _; now exists k|]. intros _. right. now left.
      * split; [intros [H|[H|[]]]; [easy|congruence]|]. intros H. now left.
    + rewrite (inv_pk c V i q Q j). destruct (Z.eqb_spec j (zlen (c_kers T c))) as [-> |J]; [|easy].
      split.
      * intros (b & B & _). apply nthz_range in B. lia.
      * intros (b & B & E). injection B as <-. congruence.
  - intros i q Q NE. rewrite nthz_modz in Q. destruct (Z.eqb_spec i (k_prog T k)) as [-> |D].
    + rewrite P in Q. injection Q as <-. exact Cm.
    + now apply (inv_comp c V i q).
  - intros j b B. rewrite zlen_modz. rewrite nthz_snoc in B. destruct (j =? zlen (c_kers T c)).
    + injection B as <-. split; [easy|]. split; [now apply nthz_range in P|easy].
    + now apply (inv_k c V j).
  - intros i j a b Ka Kb E1 E2. rewrite nthz_snoc in Ka, Kb.
    destruct (Z.eqb_spec i (zlen (c_kers T c))) as [-> |D1], (Z.eqb_spec j (zlen (c_kers T c))) as [-> |D2]; try easy.
    + injection Ka as <-. exfalso. apply (U j b Kb); congruence.
    + injection Kb as <-. exfalso. apply (U i a Ka); congruence.
    + now apply (inv_uniq c V i j a b).
Qed.

Lemma name_taken_iff : forall c id p name, Inv c -> nthz (c_progs T c) id = Some p -> name <> [] ->
  name_taken T (p_kernels p) name c = true <->
  exists j k, nthz (c_kers T c) j = Some k /\ k_prog T k = id /\ k_name T k = name.
Proof.
  intros c id p name V P NE. unfold name_taken. rewrite existsb_exists. split.
  - intros (j & J & E). apply (inv_pk c V id p P) in J. destruct J as (k & K & E2). rewrite K in E.
    apply andb_true_iff in E. destruct E as [_ E]. apply chars_eqb_eq in E. now exists j, k.
  - intros (j & k & K & E1 & E2). exists j. split.
    + apply (inv_pk c V id p P). now exists k.
    + rewrite K, E2, chars_eqb_refl. now rewrite (proj2 (is_empty_false name) NE).
Qed.

(* the context after a possible compilation *)
Definition compiled_ctx (e : env) (id : Z) (c : ctx) : ctx :=
  if prog_compiled T id c then c else fst (compile T e id c).

Lemma compile_effect : forall e id c, Inv c ->
  let c' := fst (compile T e id c) in
  c_kers T c' = c_kers T c /\ c_cl T c' = c_cl T c /\ has_node T c' = has_node T c /\
  c_nodes T c' = c_nodes T c /\ c_sel T c' = c_sel T c /\
  zlen (c_progs T c') = zlen (c_progs T c) /\
  (forall i p, nthz (c_progs T c) i = Some p -> exists q, nthz (c_progs T c') i = Some q /\ same_prog q p) /\
  prog_compiled T id c' = (prog_compiled T id c || snd (compile T e id c)).
Proof.
  intros e id c V. cbv zeta. unfold compile.
  destruct (_ && _) eqn:G.
  2:{ cbn [fst snd]. rewrite orb_false_r. repeat split; try easy. intros i p P. now exists p. }
  destruct (nthz (c_cl T c) id) as [s|] eqn:S.
  2:{ cbn [fst snd]. rewrite orb_false_r. repeat split; try easy. intros i p P. now exists p. }
  destruct (nthz (c_progs T c) id) as [p|] eqn:P.
  2:{ cbn [fst snd]. rewrite orb_false_r. repeat split; try easy. intros i p P'. now exists p. }
  pose proof (do_compile_same e c s p) as SP. pose proof (do_compile_kept e c s p) as K.
  pose proof (do_compile_result e c s p) as R1. pose proof (do_compile_false e c s p) as R2.
  destruct (do_compile T e c s p) as [p' ok]. cbn [fst snd] in *.
  split; [easy|]. split; [easy|]. split; [easy|]. split; [easy|]. split; [easy|].
  cbn [with_progs c_progs]. split; [apply zlen_modz|]. split.
  - intros i q Q. rewrite nthz_modz, Q. cbn [option_map]. destruct (Z.eqb_spec i id) as [-> |D].
    + exists p'. split; [easy|]. congruence.
    + now exists q.
  - unfold prog_compiled. cbn [with_progs c_progs]. rewrite nthz_modz, P, Z.eqb_refl. cbn [option_map].
    destruct ok.
    + rewrite orb_true_r. now apply R1.
    + rewrite orb_false_r. now apply R2.
Qed.

Lemma compiled_ctx_effect : forall e id c, Inv c ->
  let c' := compiled_ctx e id c in
  c_kers T c' = c_kers T c /\ c_cl T c' = c_cl T c /\ has_node T c' = has_node T c /\
  c_nodes T c' = c_nodes T c /\ c_sel T c' = c_sel T c /\
  zlen (c_progs T c') = zlen (c_progs T c) /\
  (forall i p, nthz (c_progs T c) i = Some p -> exists q, nthz (c_progs T c') i = Some q /\ same_prog q p) /\ Inv c'.
Proof.
  intros e id c V. cbv zeta. unfold compiled_ctx. destruct (prog_compiled T id c).
  - do 6 (split; [easy|]). split; [|exact V]. intros i p P. now exists p.
  - pose proof (compile_effect e id c V) as (H1 & H2 & H3 & H4 & H5 & H6 & H7 & _).
    repeat (split; [easy|]). now apply Inv_compile.
Qed.

Definition enabled_in (name : chars) (id : Z) (c : ctx) : Prop :=
  exists j k, nthz (c_kers T c) j = Some k /\ k_prog T k = id /\ k_name T k = name.

Lemma enable_shape : forall e name id c, Inv c -> has_node T c = true -> name <> [] -> 0 <= id < zlen (c_progs T c) ->
  let c' := compiled_ctx e id c in
  exists p, nthz (c_progs T c') id = Some p /\
  enable T N e name id c =
    if prog_compiled T id c' && negb (name_taken T (p_kernels p) name c')
    then (add_ker (new_kernel T N name id (e_info e (p_source p) name)) c', zlen (c_kers T c'))
    else (c', ILLEGAL).
Proof.
  intros e name id c V Hn NE L. cbv zeta.
  pose proof (compiled_ctx_effect e id c V) as (H1 & H2 & H3 & H4 & H5 & H6 & H7 & H8).
  assert (exists p, nthz (c_progs T (compiled_ctx e id c)) id = Some p) as [p P].
  { apply nthz_some. rewrite H6. exact L. }
  exists p. split; [exact P|].
  unfold enable. rewrite Hn, (proj2 (is_empty_false name) NE). cbn [andb negb].
  assert (zlen (c_cl T c) = zlen (c_progs T c)) as LC.
  { rewrite (inv_cl c V Hn). apply zlen_map. }
  rewrite LC. rewrite (proj2 (Z.ltb_lt id (zlen (c_progs T c))) (proj2 L)).
  assert (nthz (c_cl T (compiled_ctx e id c)) id = Some (p_source p)) as S.
  { rewrite (inv_cl _ H8) by congruence. rewrite nthz_map, P. easy. }
  cbv zeta.
  unfold compiled_ctx in *. destruct (prog_compiled T id c) eqn:PC.
  - rewrite P, S, PC. cbn [andb orb].
    destruct (negb (name_taken T (p_kernels p) name c)); easy.
  - pose proof (compile_effect e id c V) as (_ & _ & _ & _ & _ & _ & _ & E). rewrite PC in E. cbn [orb] in E.
    assert (snd (compile T e id c) = true -> p_kernels p = []) as KE.
    { clear - P. revert P. unfold compile. destruct (_ && _); [|easy].
      destruct (nthz (c_cl T c) id) as [s|]; [|easy]. destruct (nthz (c_progs T c) id) as [q|] eqn:Q; [|easy].
      pose proof (do_compile_result e c s q) as R. pose proof (do_compile_same e c s q) as (_ & _ & _ & SK).
      destruct (do_compile T e c s q) as [q' ok]. cbn [fst snd with_progs c_progs] in *.
      rewrite nthz_modz, Z.eqb_refl, Q. cbn [option_map]. intros X. injection X as <-.
      intros ->. destruct R as [_ R]; [easy|]. congruence. }
    rewrite E. destruct (compile T e id c) as [c' now]. cbn [fst snd] in *.
    rewrite P, S. destruct now.
    + rewrite KE by easy. cbn [orb andb name_taken existsb negb]. easy.
    + cbn [orb andb]. easy.
Qed.

Lemma new_kernel_ok : forall e name id s, env_ok e -> args_ok (new_kernel T N name id (e_info e s name)).
Proof.
  intros e name id s H. specialize (H s name). unfold args_ok, new_kernel. cbn [k_nargs k_ptrs k_types k_bound].
  unfold zlen. rewrite !repeat_length. lia.
Qed.

Lemma enable_refused : forall e name id c, Inv c -> has_node T c = false \/ name = [] \/ id < 0 \/ zlen (c_progs T c) <= id ->
  snd (enable T N e name id c) = ILLEGAL /\ fst (enable T N e name id c) = c.
Proof.
  intros e name id c V H. unfold enable.
  destruct (has_node T c) eqn:Hn; [|easy].
  destruct (is_empty name) eqn:E; [easy|]. cbn [negb andb].
  destruct (id <? zlen (c_cl T c)) eqn:L; [|easy].
  assert (zlen (c_cl T c) = zlen (c_progs T c)) as LC.
  { rewrite (inv_cl c V Hn). apply zlen_map. }
  rewrite LC in L. apply Z.ltb_lt in L.
  assert (id < 0) as I0.
  { destruct H as [H|[H|[H|H]]]; [easy| |easy|lia]. subst name. easy. }
  cbv zeta. unfold prog_compiled.
  assert (nthz (c_progs T c) id = None) as P by (apply nthz_none; lia). rewrite P.
  unfold compile. rewrite P. destruct (_ && _).
  - destruct (nthz (c_cl T c) id); rewrite P; easy.
  - rewrite P. easy.
Qed.

Lemma Inv_enable : forall e name id c, env_ok e -> Inv c -> Inv (fst (enable T N e name id c)).
Proof.
  intros e name id c Ok V.
  destruct (has_node T c) eqn:Hn.
  2:{ destruct (enable_refused e name id c V) as [_ ->]; [tauto|easy]. }
  destruct (list_eq_dec Ascii.ascii_dec name []) as [-> |NE].
  { destruct (enable_refused e [] id c V) as [_ ->]; [tauto|easy]. }
  destruct (Z.ltb_spec id 0) as [L|L].
  { destruct (enable_refused e name id c V) as [_ ->]; [tauto|easy]. }
  destruct (Z.ltb_spec id (zlen (c_progs T c))) as [L2|L2].
  2:{ destruct (enable_refused e name id c V) as [_ ->]; [tauto|easy]. }
  destruct (enable_shape e name id c V Hn NE (conj L L2)) as (p & P & E). rewrite E.
  pose proof (compiled_ctx_effect e id c V) as (H1 & H2 & H3 & H4 & H5 & H6 & H7 & H8).
  destruct (prog_compiled T id (compiled_ctx e id c)) eqn:PC; [|easy].
  destruct (name_taken T (p_kernels p) name (compiled_ctx e id c)) eqn:NT; [easy|]. cbn [andb negb fst].
  apply Inv_add_ker; try easy.
  - congruence.
  - now apply new_kernel_ok.
  - intros j b B Pb Nb. cbn [new_kernel k_name k_prog] in Pb, Nb.
    assert (name_taken T (p_kernels p) name (compiled_ctx e id c) = true); [|congruence].
    apply (name_taken_iff _ id); [easy|easy|easy|]. now exists j, b.
Qed.

(* ---- the other calls ---- *)
Lemma k_upd_last : forall w n t k, same_kernel (k_with_last T w n (add_exec_time T N t k)) k /\
  (args_ok k -> args_ok (k_with_last T w n (add_exec_time T N t k))).
Proof. intros. unfold add_exec_time. destruct (nleb _ _ _); split; easy. Qed.

Lemma Inv_run : forall o id n w c, Inv c -> Inv (fst (run T N o id n w c)).
Proof.
  intros o id n w c V. unfold run. destruct (id <? _); [|easy]. cbn [fst].
  destruct (r_times o) as [[s e]|]; [|easy]. apply Inv_upd; [| |easy]; intros k; apply k_upd_last.
Qed.

Lemma reset_bound_length : forall p b, length (reset_bound p b) = length b.
Proof. induction p as [|x p IH]; intros [|y b]; cbn [reset_bound length]; try easy. now rewrite IH. Qed.

Lemma Inv_assign : forall id i a c c', Inv c -> assign_arg T id i a c = Some c' -> Inv c'.
Proof.
  intros id i a c c' V. unfold assign_arg. destruct (id <? _); [|easy]. intros E. injection E as <-.
  apply Inv_upd; [| |easy]; intros k.
  - unfold set_kernel_arg. now destruct (i <? _).
  - intros (A1 & A2 & A3 & A4). unfold set_kernel_arg, cl_set_arg.
    destruct (i <? _); unfold args_ok; cbn [k_with_args k_nargs k_ptrs k_types k_bound]; rewrite ?zlen_modz; easy.
Qed.
Lemma Inv_reset_args : forall id c, Inv c -> Inv (reset_args T id c).
Proof.
  intros id c V. unfold reset_args. destruct (id <? _); [|easy].
  apply Inv_upd; [| |easy]; intros k; [easy|].
  intros (A1 & A2 & A3 & A4). unfold args_ok, reset_arguments. cbn [k_with_args k_nargs k_ptrs k_types k_bound].
  unfold zlen in *. rewrite !repeat_length, reset_bound_length. lia.
Qed.
Lemma Inv_reset_arg : forall id i c c', Inv c -> reset_arg T id i c = Some c' -> Inv c'.
Proof.
  intros id i c c' V. unfold reset_arg. destruct (id <? _); [|easy]. intros E. injection E as <-.
  apply Inv_upd; [| |easy]; intros k.
  - unfold set_kernel_arg. now destruct (i <? _).
  - intros (A1 & A2 & A3 & A4). unfold set_kernel_arg, cl_set_arg. cbn [k_with_args k_ptrs].
    destruct (i <? _); unfold args_ok; cbn [k_with_args k_nargs k_ptrs k_types k_bound]; rewrite ?zlen_modz; easy.
Qed.
Lemma Inv_set_remap : forall id c, Inv c -> Inv (fst (set_remap T id c)).
Proof.
  intros id c V. unfold set_remap. destruct (has_node T c); [|easy].
  destruct (nthz (c_kers T c) id) as [k|]; [|easy]. destruct (k_prog T k <? _); [|easy]. now apply Inv_remap.
Qed.
Lemma Inv_init_kers : forall e c, env_ok e -> Inv c -> Inv (fst (init_kers T N e c)).
Proof.
  intros e c Ok V. unfold init_kers. destruct (_ && _); [|easy].
  pose proof (Inv_enable e (remap_name T e c) (c_rprog T c) c Ok V) as G.
  destruct (enable T N e _ _ c) as [c' id]. now apply Inv_set_remap.
Qed.
Lemma Inv_do_clear : forall c, Inv c -> Inv (do_clear T c).
Proof.
  intros c V. constructor; cbn [do_clear c_nodes c_sel c_progs c_cl c_kers]; try easy.
  - apply V.
  - now left.
  - intros i p P. now rewrite nthz_nil in P.
  - intros i p P. now rewrite nthz_nil in P.
  - intros i p P. now rewrite nthz_nil in P.
  - intros i j a b A. now rewrite nthz_nil in A.
Qed.
Lemma Inv_clear : forall e c, Inv c -> Inv (clear T e c).
Proof. intros. unfold clear. apply Inv_init_progs. now apply Inv_do_clear. Qed.
Lemma Inv_set_debug : forall e b c, Inv c -> Inv (set_debug T e b c).
Proof.
  intros. unfold set_debug. destruct (_ && _); [|easy]. apply Inv_init_progs, Inv_clear. now apply Inv_debug.
Qed.

(* building all programs *)
Lemma build_all_props : forall e c ps,
  zlen (fst (build_all T e c ps)) = zlen ps /\
  map p_source (fst (build_all T e c ps)) = map p_source ps /\
  (forall i p, nthz (fst (build_all T e c ps)) i = Some p -> exists q, nthz ps i = Some q /\
     p_path p = p_path q /\ p_source p = p_source q /\ p_options p = p_options q /\ p_kernels p = []) /\
  (snd (build_all T e c ps) = true <-> Forall (fun p => p_compiled p = true) (fst (build_all T e c ps))).
Proof.
  intros e c ps. induction ps as [|p ps IH]; cbn [build_all].
  - cbn [fst snd]. repeat split; try easy. intros i p P. now rewrite nthz_nil in P.
  - pose proof (do_compile_same e c (p_source p) (mkProg (p_path p) (p_source p) (p_options p) [] [] false)) as (S1 & S2 & S3 & S4).
    pose proof (do_compile_result e c (p_source p) (mkProg (p_path p) (p_source p) (p_options p) [] [] false)) as R.
    pose proof (do_compile_false e c (p_source p) (mkProg (p_path p) (p_source p) (p_options p) [] [] false)) as R2.
    destruct (do_compile T e c (p_source p) _) as [p' ok]. destruct (build_all T e c ps) as [ps' oks].
    cbn [fst snd p_path p_source p_options p_kernels p_compiled] in *. destruct IH as (I1 & I2 & I3 & I4).
    split; [unfold zlen in *; cbn [length]; lia|]. split; [cbn [map]; congruence|]. split.
    + intros i q Q. unfold nthz in *. destruct (Z.ltb_spec i 0) as [Li|Li]; [easy|]. destruct (Z.to_nat i) as [|n] eqn:E.
      * injection Q as <-. exists p. repeat split; congruence.
      * cbn [nth_error] in Q |- *. specialize (I3 (Z.of_nat n) q). rewrite Nat2Z.id in I3.
        destruct (Z.ltb_spec (Z.of_nat n) 0); [lia|]. now apply I3.
    + rewrite Forall_cons_iff, <- I4. rewrite andb_true_iff. destruct ok.
      * destruct R as [R _]; [easy|]. tauto.
      * rewrite R2 by easy. intuition congruence.
Qed.

Lemma Inv_do_select : forall e i c, 0 <= i -> Inv c -> Inv (fst (do_select T e i c)).
Proof.
  intros e i c L V. unfold do_select. destruct (_ && _) eqn:G; [|easy].
  apply andb_true_iff in G. destruct G as [G _]. apply andb_true_iff in G. destruct G as [G1 G2]. apply Z.ltb_lt in G2.
  cbv zeta.
  change (c_progs T (with_sel T i (with_kers T [] c))) with (c_progs T c).
  pose proof (build_all_props e (with_sel T i (with_kers T [] c)) (c_progs T c)) as (B1 & B2 & B3 & B4).
  destruct (build_all T e _ (c_progs T c)) as [ps ok]. cbn [fst snd] in *.
  constructor; cbn [with_progs with_cl with_sel with_kers c_nodes c_sel c_progs c_cl c_kers].
  - apply V.
  - right. lia.
  - unfold has_node. cbn [c_sel c_nodes with_progs with_cl with_sel with_kers]. intros H. apply andb_false_iff in H.
    destruct H as [H|H]; [apply Z.leb_gt in H|apply Z.ltb_ge in H]; lia.
  - intros _. now rewrite B2.
  - intros j p P x. destruct (B3 j p P) as (q & _ & _ & _ & _ & ->). split; [easy|].
    intros (k & K & _). now rewrite nthz_nil in K.
  - intros j p P NE. destruct (B3 j p P) as (q & _ & _ & _ & _ & K). congruence.
  - intros j k K. now rewrite nthz_nil in K.
  - intros a b x y K. now rewrite nthz_nil in K.
Qed.

Lemma Inv_assign_slot_size : forall c, Inv c -> Inv (fst (assign_slot_size T c)).
Proof.
  intros c V. unfold assign_slot_size. destruct (has_remap T c); [|easy]. destruct (2 <=? _); [|easy].
  cbn [fst]. destruct (assign_arg T _ _ _ c) as [c'|] eqn:E; [|easy]. now apply Inv_assign in E.
Qed.
Lemma Inv_assign_flags : forall f c, Inv c -> Inv (fst (assign_flags T f c)).
Proof.
  intros f c V. unfold assign_flags. destruct (has_remap T c); [|easy]. cbv zeta. destruct (2 <=? _); [|easy].
  destruct (c_debug T c); [|easy]. destruct (2 <? _); [|easy].
  cbn [fst]. destruct (assign_arg T _ _ _ c) as [c'|] eqn:E; [|easy]. now apply Inv_assign in E.
Qed.
Lemma Inv_select_index : forall e f i c, env_ok e -> 0 <= i -> Inv c -> Inv (fst (select_index T N e f i c)).
Proof.
  intros e f i c Ok L V. unfold select_index.
  pose proof (Inv_do_select e i c L V) as G. destruct (do_select T e i c) as [c1 ok1]. cbn [fst] in G.
  destruct ok1; [|easy].
  pose proof (Inv_init_kers e c1 Ok G) as G2. destruct (init_kers T N e c1) as [c2 ok2]. cbn [fst] in G2.
  destruct ok2; [|easy].
  pose proof (Inv_assign_slot_size c2 G2) as G3. destruct (assign_slot_size T c2) as [c3 ok3]. cbn [fst] in G3.
  destruct ok3; [|easy]. now apply Inv_assign_flags.
Qed.
Lemma Inv_select_other : forall e i c, env_ok e -> 0 <= i -> Inv c -> Inv (fst (select_other T N e i c)).
Proof.
  intros e i c Ok L V. unfold select_other.
  pose proof (Inv_do_select e i c L V) as G. destruct (do_select T e i c) as [c1 ok1]. cbn [fst] in G.
  destruct ok1; [|easy]. now apply Inv_init_kers.
Qed.

Lemma Inv_step : forall e o c c' r, env_ok e -> op_ok o -> Inv c -> step T N e o c = Some (c', r) -> Inv c'.
Proof.
  intros e o c c' r Ek Ok V. destruct o; cbn [step op_ok] in *.
  - intros E. injection E as E. pose proof (Inv_add_code e source options c V) as G. now rewrite E in G.
  - intros E. injection E as E. pose proof (Inv_add_file e path options rel c V) as G. now rewrite E in G.
  - pose proof (Inv_compile e id c V) as G. destruct (compile T e id c). intros E. now injection E as <- _.
  - intros E. injection E as E. pose proof (Inv_enable e name id c Ek V) as G. now rewrite E in G.
  - assert (Inv (fst (set_wgs T id w c))) as G.
    { unfold set_wgs. destruct (ker T id c) as [k|]; [|easy]. destruct (_ <=? _); [|easy].
      apply Inv_upd; easy. }
    destruct (set_wgs T id w c). intros E. now injection E as <- _.
  - destruct (assign_arg T id i a c) as [c1|] eqn:E; [|easy]. intros F. injection F as <- _. now apply Inv_assign in E.
  - intros E. injection E as <- _. now apply Inv_reset_args.
  - destruct (reset_arg T id i c) as [c1|] eqn:E; [|easy]. intros F. injection F as <- _. now apply Inv_reset_arg in E.
  - pose proof (Inv_run o id n w c V) as G. destruct (run T N o id n w c). intros E. now injection E as <- _.
  - intros E. injection E as <- _. unfold reset_exec. destruct (_ <? _); [|easy]. apply Inv_upd; easy.
  - pose proof (Inv_set_remap id c V) as G. destruct (set_remap T id c). intros E. now injection E as <- _.
  - intros E. injection E as <- _. now apply Inv_set_flag.
  - pose proof (Inv_select_index e flags i c Ek Ok V) as G. destruct (select_index T N e flags i c). intros E. now injection E as <- _.
  - pose proof (Inv_select_other e i c Ek Ok V) as G. destruct (select_other T N e i c). intros E. now injection E as <- _.
  - intros E. injection E as <- _. now apply Inv_clear.
  - intros E. injection E as <- _. now apply Inv_set_debug.
  - assert (Inv (fst (reinit T N e c))) as G.
    { unfold reinit. destruct (has_node T c); [easy|]. cbn [fst]. apply Inv_init_kers; [easy|].
      now apply Inv_init_progs, Inv_clear. }
    destruct (reinit T N e c). intros E. now injection E as <- _.
Qed.

Lemma Inv_steps : forall h c c', hist_ok h -> Inv c -> steps T N h c = Some c' -> Inv c'.
Proof.
  induction h as [|[e o] h IH]; intros c c' H V E; cbn [steps] in E.
  - now injection E as <-.
  - inversion H as [|? ? [H1 H2] H3]; subst. destruct (step T N e o c) as [[c1 r]|] eqn:S; [|easy].
    apply (IH c1 c' H3); [|easy]. now apply (Inv_step e o c c1 r).
Qed.

Lemma Inv_new : forall e nodes dir opts, 0 <= nodes -> Inv (new_ctx T e nodes dir opts).
Proof.
  intros e nodes dir opts L. unfold new_ctx. apply Inv_init_progs. unfold init_flags.
  do 3 apply Inv_set_flag. constructor; cbn [c_nodes c_sel c_progs c_cl c_kers]; try easy.
  - now left.
  - intros i p P. now rewrite nthz_nil in P.
  - intros i p P. now rewrite nthz_nil in P.
  - intros i p P. now rewrite nthz_nil in P.
  - intros i j a b A. now rewrite nthz_nil in A.
Qed.
Lemma Inv_reachable : forall c, reachable N c -> Inv c.
Proof.
  intros c (e & nodes & dir & opts & h & L & H & E). apply (Inv_steps h _ _ H) in E; [easy|]. now apply Inv_new.
Qed.

End Proofs.
