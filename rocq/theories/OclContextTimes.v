(* Lemmas about the recorded times of a kernel, with real numbers. *)
From Coq Require Import Ascii String ZArith Bool List Lia Reals Lra.
From Verif Require Import Num MapsR NodeId OclContext OclContextSpec OclContextProofs OclContextHist.
Import ListNotations.
Local Open Scope R_scope.

Definition sum_of (l : list R) : R := fold_left Rplus l 0.
Definition fmin (l : list R) : R := fold_left (fun m t => if Rltb t m then t else m) l (dbl_max R ROps).
Definition fmax (l : list R) : R := fold_left (fun m t => if Rltb m t then t else m) l (dbl_min R ROps).

Definition times_are (k : kernel R) (l : list R) : Prop :=
  k_count R k = zlen l /\ k_tsum R k = sum_of l /\ k_tlast R k = last l 0 /\ k_tmin R k = fmin l /\ k_tmax R k = fmax l.

Lemma dec_pos : 0 < Rdec 1 (-9).
Proof. unfold Rdec. apply Rmult_lt_0_compat; [lra|]. apply powerRZ_lt. lra. Qed.
Lemma seconds_nonneg : forall s e, 0 <= seconds ROps s e.
Proof.
  intros s e. unfold seconds. rops. destruct (Z.leb_spec s e) as [L|L]; [|lra].
  apply Rmult_le_pos; [left; apply dec_pos|]. apply IZR_le. lia.
Qed.
Lemma run_time_seconds : forall s e, run_time R ROps s e = seconds ROps s e.
Proof. reflexivity. Qed.

Lemma times_reset : forall k, times_are (reset_timing R ROps k) [].
Proof. intros k. repeat split. Qed.
Lemma times_new : forall n p i, times_are (new_kernel R ROps n p i) [].
Proof. intros. repeat split. Qed.
Lemma times_add : forall k l t, 0 <= t -> times_are k l -> times_are (add_exec_time R ROps t k) (l ++ [t]).
Proof.
  intros k l t L (H1 & H2 & H3 & H4 & H5). unfold add_exec_time. rops. rewrite (proj2 (Rleb_true 0 t) L).
  unfold times_are. cbn [k_with_times k_count k_tsum k_tlast k_tmin k_tmax].
  unfold sum_of, fmin, fmax. rewrite !fold_left_app. cbn [fold_left].
  rewrite zlen_app, zlen_one, last_last, H1, H2, H4, H5. repeat split.
Qed.

Lemma times_effect : forall id o k l,
  times_are k l -> times_are (ker_effect R ROps id o k) (taken ROps id [(mkEnv (fun _ => None) (fun _ _ _ => (BuildNone, true, [])) (fun _ _ => mkInfo 0 0 0 0) true [] [], o)] l).
Proof.
  intros id o k l H. cbn [taken].
  destruct o as [ | | | | | | | |[ok [[s t]|]] | | | | | | | | ]; cbn [ker_effect]; try easy.
  - now destruct (_ && _).
  - destruct (_ =? _)%Z; [|easy]. unfold set_kernel_arg. now destruct (_ <? _)%Z.
  - now destruct (_ =? _)%Z.
  - destruct (_ =? _)%Z; [|easy]. unfold set_kernel_arg. now destruct (_ <? _)%Z.
  - destruct (_ =? _)%Z; [|easy]. apply (times_add k l _ (seconds_nonneg s t)) in H. exact H.
  - destruct (_ =? _)%Z; [|easy]. apply times_reset.
Qed.

Lemma times_fold : forall h id k l, times_are k l ->
  times_are (fold_left (fun k x => ker_effect R ROps id (@snd env op x) k) h k) (taken ROps id h l).
Proof.
  induction h as [|[e o] h IH]; intros id k l H; cbn [fold_left snd]; [easy|].
  pose proof (times_effect id o k l H) as G. cbn [taken] in G |- *. now apply IH.
Qed.

(* the times that can be recorded *)
Lemma pow2_64 : IZR (2 ^ 64) = 18446744073709551616.
Proof. reflexivity. Qed.
Lemma dec9 : Rdec 1 (-9) = / 1000000000.
Proof. unfold Rdec, powerRZ. change (Pos.to_nat 9) with 9%nat. replace (10 ^ 9) with 1000000000 by (cbn [pow]; lra). lra. Qed.

Lemma dbl_max_big : 18446744073709551616 < dbl_max R ROps.
Proof.
  unfold dbl_max. rops. apply IZR_lt. vm_compute. reflexivity.
Qed.
Lemma dbl_min_small : 0 < dbl_min R ROps < / 1000000000.
Proof.
  unfold dbl_min. rops. assert (1000000000 < IZR (2 ^ 1022)) as L by (apply IZR_lt; vm_compute; reflexivity).
  generalize dependent (IZR (2 ^ 1022)). intros x L. unfold Rdiv. rewrite Rmult_1_l. split.
  - apply Rinv_0_lt_compat. lra.
  - apply Rinv_lt_contravar; [|lra]. apply Rmult_lt_0_compat; lra.
Qed.

Definition time_ok (t : R) : Prop := 0 <= t < dbl_max R ROps /\ (0 < t -> dbl_min R ROps < t).
Lemma seconds_ok : forall s e, (0 <= s < 2 ^ 64)%Z -> (0 <= e < 2 ^ 64)%Z -> time_ok (seconds ROps s e).
Proof.
  intros s e Ls Le. pose proof (seconds_nonneg s e) as P. unfold seconds in *. rops. pose proof dbl_max_big as B.
  pose proof dbl_min_small as B2. rewrite dec9 in *. unfold time_ok.
  destruct (Z.leb_spec s e) as [L|L].
  - assert (IZR (e - s) <= 18446744073709551616) as U.
    { rewrite <- pow2_64. apply IZR_le. lia. }
    assert (IZR (e - s) = 0 \/ 1 <= IZR (e - s)) as W.
    { destruct (Z.eq_dec e s) as [-> |D].
      - left. now rewrite Z.sub_diag.
      - right. apply IZR_le. lia. }
    generalize dependent (dbl_max R ROps). generalize dependent (dbl_min R ROps). intros. lra.
  - generalize dependent (dbl_max R ROps). generalize dependent (dbl_min R ROps). intros. lra.
Qed.
Lemma taken_ok : forall h id l, Forall (fun x => ns_ok (snd x)) h -> Forall time_ok l -> Forall time_ok (taken ROps id h l).
Proof.
  induction h as [|[e o] h IH]; intros id l H L; cbn [taken]; [easy|].
  inversion H as [|? ? H1 H2]; subst. cbn [snd] in H1. apply IH; [easy|].
  destruct o as [ | | | | | | | |[ok [[s t]|]] | | | | | | | | ]; try easy.
  - destruct (_ =? _)%Z; [|easy]. apply Forall_app. split; [easy|]. constructor; [|easy].
    cbn [ns_ok] in H1. now apply seconds_ok.
  - now destruct (_ =? _)%Z.
Qed.

(* smallest and largest *)
Lemma fold_min : forall l m, let r := fold_left (fun m t => if Rltb t m then t else m) l m in
  r <= m /\ Forall (fun t => r <= t) l /\ (r = m \/ In r l).
Proof.
  induction l as [|t l IH]; intros m; cbv zeta; cbn [fold_left]; [repeat split; auto; lra|].
  destruct (IH (if Rltb t m then t else m)) as (H1 & H2 & H3). cbv zeta in *.
  destruct (Rltb t m) eqn:E; [apply Rltb_true in E|apply Rltb_false in E].
  - split; [lra|]. split; [now constructor|]. right. destruct H3 as [-> |H3]; [now left|now right].
  - split; [easy|]. split; [constructor; [lra|easy]|]. destruct H3 as [H3|H3]; [now left|right; now right].
Qed.
Lemma fold_max : forall l m, let r := fold_left (fun m t => if Rltb m t then t else m) l m in
  m <= r /\ Forall (fun t => t <= r) l /\ (r = m \/ In r l).
Proof.
  induction l as [|t l IH]; intros m; cbv zeta; cbn [fold_left]; [repeat split; auto; lra|].
  destruct (IH (if Rltb m t then t else m)) as (H1 & H2 & H3). cbv zeta in *.
  destruct (Rltb m t) eqn:E; [apply Rltb_true in E|apply Rltb_false in E].
  - split; [lra|]. split; [now constructor|]. right. destruct H3 as [-> |H3]; [now left|now right].
  - split; [easy|]. split; [constructor; [lra|easy]|]. destruct H3 as [H3|H3]; [now left|right; now right].
Qed.
Lemma fmin_spec : forall l, Forall time_ok l -> l <> [] -> In (fmin l) l /\ Forall (fun t => fmin l <= t) l.
Proof.
  intros l H NE. pose proof (fold_min l (dbl_max R ROps)) as (H1 & H2 & H3). fold (fmin l) in *.
  split; [|easy]. destruct H3 as [H3|H3]; [|easy]. destruct l as [|t l]; [easy|].
  inversion H as [|? ? [T1 _] _]; subst. inversion H2; subst. rewrite H3 in *. lra.
Qed.
Lemma fmax_spec : forall l, Forall time_ok l -> (exists t, In t l /\ 0 < t) -> In (fmax l) l /\ Forall (fun t => t <= fmax l) l.
Proof.
  intros l H (t & It & P). pose proof (fold_max l (dbl_min R ROps)) as (H1 & H2 & H3). fold (fmax l) in *.
  split; [|easy]. destruct H3 as [H3|H3]; [|easy].
  rewrite Forall_forall in H, H2. specialize (H t It). specialize (H2 t It). destruct H as [_ H]. specialize (H P).
  rewrite H3 in *. lra.
Qed.
