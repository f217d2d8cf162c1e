(* Rolling element-by-element output over a history of stores. *)
From Coq Require Import ZArith List Bool Lia.
From Verif Require Import EbeConfig EbeSpec EbeProofs Elements DispatchProofs.
Import ListNotations.
Local Open Scope Z_scope.

(* A history of stores: particle id, element id, turn and the stored record. *)
Definition store_event (A : Type) : Type := (Z * Z * Z * A)%type.

(* Storing one event at the index the configuration computes for it. *)
Definition store_one {A} (c : ebe_config) (out : list A) (ev : store_event A) : list A :=
  let '(pid, eid, turn, r) := ev in upd out (Z.to_nat (ebe_store_index c pid eid turn)) r.

(* All stores of a history, in order. *)
Definition store_all {A} (c : ebe_config) (out : list A) (h : list (store_event A)) : list A :=
  fold_left (store_one c) h out.

(* Event inside the particle and element ranges, at or after the first turn. *)
Definition accepted {A} (c : ebe_config) (ev : store_event A) : Prop :=
  let '(pid, eid, turn, _) := ev in
  e_min_pid c <= pid <= e_max_pid c /\ e_min_eid c <= eid <= e_max_eid c /\
  e_min_turn c <= turn.

Lemma store_all_cons : forall A c (out : list A) ev h,
  store_all c out (ev :: h) = store_all c (store_one c out ev) h.
Proof. reflexivity. Qed.

Lemma store_all_app : forall A c (out : list A) h1 h2,
  store_all c out (h1 ++ h2) = store_all c (store_all c out h1) h2.
Proof. intros; apply fold_left_app. Qed.

Lemma store_all_keeps : forall A c h (out : list A) i,
  (forall pid eid turn r, In (pid, eid, turn, r) h ->
     Z.to_nat (ebe_store_index c pid eid turn) <> i) ->
  nth_error (store_all c out h) i = nth_error out i.
Proof.
  intros A c h. induction h as [|[[[p e] t] r] h IH]; intros out i H; [reflexivity|].
  rewrite store_all_cons.
  rewrite IH by (intros; eapply H; right; eassumption).
  cbn [store_one]. apply upd_other. eapply H; left; reflexivity.
Qed.

Lemma store_all_length : forall A c h (out : list A), length (store_all c out h) = length out.
Proof.
  intros A c h. induction h as [|[[[p e] t] r] h IH]; intros out; [reflexivity|].
  rewrite store_all_cons.
  rewrite IH. apply upd_length.
Qed.

Lemma keeps_latest : forall A c (out : list A) h1 pid eid turn r h2,
  ebe_made c -> e_rolling c = true -> Z.of_nat (length out) = ebe_capacity c ->
  (forall ev, In ev (h1 ++ (pid, eid, turn, r) :: h2) -> accepted c ev) ->
  (forall turn' r', In (pid, eid, turn', r') h2 -> turn < turn' < turn + ebe_turns c) ->
  nth_error (store_all c out (h1 ++ (pid, eid, turn, r) :: h2))
    (Z.to_nat (ebe_store_index c pid eid turn)) = Some r.
Proof.
  intros A c out h1 pid eid turn r h2 Hm Hr Hl Ha Hlast.
  rewrite store_all_app, store_all_cons.
  set (o1 := store_all c out h1).
  assert (H0 : accepted c (pid, eid, turn, r)) by (apply Ha, in_elt).
  destruct H0 as (A1 & A2 & A3).
  pose proof (rolling_bounds c pid eid turn Hm Hr A1 A2 A3) as B.
  rewrite store_all_keeps.
  - cbn [store_one]. apply upd_same.
    unfold o1; rewrite store_all_length. lia.
  - intros p e t r' Hin E.
    assert (H1 : accepted c (p, e, t, r'))
      by (apply Ha, in_or_app; right; right; assumption).
    destruct H1 as (B1 & B2 & B3).
    pose proof (rolling_bounds c p e t Hm Hr B1 B2 B3) as B'.
    assert (E' : ebe_store_index c p e t = ebe_store_index c pid eid turn) by lia.
    apply (rolling_share c p e t pid eid turn Hm Hr B1 B2 B3 A1 A2 A3) in E'.
    destruct E' as (-> & -> & k & Ek).
    pose proof (Hlast t r' Hin) as L.
    destruct (Z_le_gt_dec k 0); nia.
Qed.
