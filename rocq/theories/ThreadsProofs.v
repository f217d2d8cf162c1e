From Coq Require Import ZArith List Bool Lia.
From Verif Require Import Num Particle Elements EbeConfig Track TrackSpec TrackProofs DispatchProofs Threads ThreadsSpec Tac.
Import ListNotations.
Local Open Scope Z_scope.

(* ---- running a thread alone is the loop of Track.v ---- *)
Section Alone.
Context {T E M : Type} (zero : T) (disp : E -> particle T -> M -> option (particle T * M * Z)).
Variable out_num : M -> nat -> option Z.
Variable out_store : M -> nat -> Z -> particle T -> option (M * Z).

Definition swap (r : res (particle T * M * Z)) : res (M * (particle T * Z)) :=
  bind r (fun r => let '(p, o, s) := r in Ok (o, (p, s))).

Lemma run_turn_pass : forall bes p s k o,
  run (turn_pass_p disp bes p s k) o =
  bind (turn_pass disp bes p o s) (fun r => let '(p, o, s, c) := r in run (k p s c) o).
Proof.
  induction bes as [|be bes IH]; intros p s k o; cbn; [reflexivity|].
  unfold call_disp. destruct (disp be p o) as [[[p1 o1] s1]|]; cbn; [|reflexivity].
  destruct (_ && _); [apply IH|reflexivity].
Qed.

Lemma run_until_loop : forall fuel bes st until p s o,
  run (until_turn_loop_p zero disp fuel bes st until p s) o =
  swap (until_turn_loop zero disp fuel bes st until p o s).
Proof.
  induction fuel as [|fuel IH]; intros bes st until p s o; cbn [until_turn_loop_p until_turn_loop]; [reflexivity|].
  rewrite run_turn_pass. destruct (turn_pass _ _ _ _ _) as [[[[p1 o1] s1] c]| |]; cbn [bind swap]; try reflexivity.
  destruct c; [|reflexivity]. cbv zeta. destruct (_ <? _); [apply IH|reflexivity].
Qed.

Lemma run_until_turn : forall bes until p o,
  run (track_until_turn_p zero disp bes until p) o = swap (track_until_turn zero disp bes until p o).
Proof.
  intros bes until p o. unfold track_until_turn_p, track_until_turn. cbv zeta.
  destruct (_ && _); [apply run_until_loop|reflexivity].
Qed.

Lemma run_ebe_pass : forall c k nn id se until bes ae at_turn p s kont o,
  run (ebe_pass_p zero disp out_store c k nn id se until bes ae at_turn p s kont) o =
  bind (ebe_pass zero disp out_store c k nn id se until bes ae at_turn p o s)
    (fun r => let '(p, o, s, cn, t) := r in run (kont p s cn t) o).
Proof.
  intros c k nn id se until. induction bes as [|be bes IH]; intros ae at_turn p s kont o;
    cbn [ebe_pass_p ebe_pass]; [reflexivity|]. cbv zeta.
  assert (forall o, run (Act (fun o => match disp be p o with
      | None => None
      | Some (p, o, success) => Some (o,
           if (success =? 0) && is_not_lost p then
             match bes with
             | [] => kont (incr_at_turn (set_s zero (set_at_element_id se p))) success
                       (at_turn + 1 <? until) (at_turn + 1)
             | _ :: _ =>
               ebe_pass_p zero disp out_store c k nn id se until bes
                 (ae + 1) at_turn (incr_at_element p) success kont
             end
           else kont p success false at_turn)
      end)) o = bind (bind (call_disp disp be p o)
        (fun r => let '(p, o, success) := r in
           if (success =? 0) && is_not_lost p then
             match bes with
             | [] => Ok (incr_at_turn (set_s zero (set_at_element_id se p)), o, success,
                       at_turn + 1 <? until, at_turn + 1)
             | _ :: _ => ebe_pass zero disp out_store c k nn id se until bes (ae + 1) at_turn
                           (incr_at_element p) o success
             end
           else Ok (p, o, success, false, at_turn)))
        (fun r => let '(p, o, s, cn, t) := r in run (kont p s cn t) o)) as G.
  { intros o0. cbn [run]. unfold call_disp. destruct (disp be p o0) as [[[p1 o1] s1]|]; cbn [bind]; [|reflexivity].
    destruct ((s1 =? 0) && is_not_lost p1); [|reflexivity].
    destruct bes as [|b bes]; [reflexivity|]. apply IH. }
  destruct (_ && _).
  - cbn [run]. destruct (out_store o k _ p) as [[o1 st]|]; cbn [bind]; [|reflexivity].
    destruct (st =? 0); [apply G|reflexivity].
  - cbn [bind]. apply G.
Qed.

Lemma run_ebe_loop : forall fuel c k nn id se until bes at_turn p s o,
  run (ebe_loop_p zero disp out_store fuel c k nn id se until bes at_turn p s) o =
  swap (ebe_loop zero disp out_store fuel c k nn id se until bes at_turn p o s).
Proof.
  induction fuel as [|fuel IH]; intros c k nn id se until bes at_turn p s o;
    cbn [ebe_loop_p ebe_loop]; [reflexivity|].
  rewrite run_ebe_pass. destruct (ebe_pass _ _ _ _ _ _ _ _ _ _ _ _ _ _ _) as [[[[[p1 o1] s1] cn] t]| |];
    cbn [bind swap]; try reflexivity.
  destruct cn; [apply IH|reflexivity].
Qed.

Lemma run_ebe : forall c bes until p o,
  run (track_ebe_p zero disp out_num out_store c bes until p) o =
  swap (track_ebe zero disp out_num out_store c bes until p o).
Proof.
  intros c bes until p o. unfold track_ebe_p, track_ebe. destruct (e_out c) as [k|]; [|apply run_until_turn].
  cbn [run]. destruct (out_num o k) as [nn|]; [|reflexivity]. cbv zeta.
  match goal with |- run (if ?b then _ else _) _ = _ => destruct b end; [apply run_ebe_loop|reflexivity].
Qed.

Lemma run_line_pass : forall bes p s k o,
  run (line_pass_p disp bes p s k) o =
  bind (line_pass disp bes p o s) (fun r => let '(p, o, s) := r in run (k p s) o).
Proof.
  induction bes as [|be bes IH]; intros p s k o; cbn; [reflexivity|].
  unfold call_disp. destruct (disp be p o) as [[[p1 o1] s1]|]; cbn; [|reflexivity].
  destruct (_ && _); [apply IH|reflexivity].
Qed.

Lemma run_line : forall bes fin p o,
  run (track_line_p zero disp bes fin p) o = swap (track_line zero disp bes fin p o).
Proof.
  intros bes fin p o. unfold track_line_p, track_line. cbv zeta.
  destruct (is_not_lost p) eqn:L.
  - rewrite run_line_pass. destruct (line_pass _ _ _ _ _) as [[[p1 o1] s1]| |]; cbn [bind swap]; try reflexivity.
    destruct (_ && _); reflexivity.
  - cbn [bind]. rewrite L, andb_false_r. reflexivity.
Qed.

End Alone.

(* ---- traces: what a thread does does not depend on the memory contents ---- *)
Section Traces.
Context {T : Type}.
Notation M := (outsets T).
Notation write := (write T).

Lemma write_to_shape : forall (w : write) o, shape (write_to o w) = shape o.
Proof.
  intros [[k i] q] o. unfold write_to. destruct (nth_error o k) as [l|] eqn:E; [|reflexivity].
  unfold shape. rewrite map_upd, upd_length. apply upd_id. now rewrite nth_error_map, E.
Qed.

Lemma apply_shape : forall ws (o : M), shape (apply_writes ws o) = shape o.
Proof.
  unfold apply_writes. induction ws as [|w ws IH]; intros o; cbn [fold_left]; [reflexivity|].
  now rewrite IH, write_to_shape.
Qed.

Lemma apply_app : forall ws1 ws2 (o : M), apply_writes (ws1 ++ ws2) o = apply_writes ws2 (apply_writes ws1 o).
Proof. intros. unfold apply_writes. apply fold_left_app. Qed.

Section F.
Context {A : Type}.
Variable sh : list nat.
Variable Q : write -> Prop.

(* [follows p ws r]: with output sets of shape sh, whatever their contents, the thread p
   performs exactly the writes ws (all satisfying Q) and ends with r (None: undefined) *)
Inductive follows : prog M A -> list write -> option A -> Prop :=
| fl_ret : forall a, follows (Ret a) [] (Some a)
| fl_fuel : follows OutOfFuel [] None
| fl_undef : forall f, (forall o, shape o = sh -> f o = None) -> follows (Act f) [] None
| fl_act : forall f w k ws r,
    (forall o, shape o = sh -> f o = Some (apply_writes w o, k)) ->
    Forall Q w -> follows k ws r -> follows (Act f) (w ++ ws) r.

Lemma follows_Q : forall p ws r, follows p ws r -> Forall Q ws.
Proof. induction 1; auto. apply Forall_app; auto. Qed.

Lemma follows_run : forall p ws a o, follows p ws (Some a) -> shape o = sh ->
  run p o = Ok (apply_writes ws o, a).
Proof.
  intros p ws a o H. remember (Some a) as r eqn:Er. revert a o Er.
  induction H as [b| |f Hf|f w k ws r Hf Hw Hk IH]; intros a o Er So; try discriminate.
  - injection Er as ->. reflexivity.
  - cbn [run]. rewrite (Hf o So), (IH a) by (auto; now rewrite apply_shape). now rewrite apply_app.
Qed.

Lemma follows_undef : forall p ws o, follows p ws None -> shape o = sh ->
  run p o = Undef \/ run p o = NoFuel.
Proof.
  intros p ws o H. remember None as r eqn:Er. revert o Er.
  induction H as [b| |f Hf|f w k ws r Hf Hw Hk IH]; intros o Er So; try discriminate; cbn [run]; auto.
  - left. now rewrite Hf.
  - rewrite (Hf o So). apply IH; auto. now rewrite apply_shape.
Qed.
End F.

(* ---- schedules ---- *)
Section Sched.
Context {A : Type}.
Variable sh : list nat.
Variable Q : nat -> write -> Prop.       (* what thread i may write *)

Definition proj (i : nat) (L : list (nat * write)) : list write :=
  map snd (filter (fun e => Nat.eqb (fst e) i) L).

Lemma proj_app : forall i L1 L2, proj i (L1 ++ L2) = proj i L1 ++ proj i L2.
Proof. intros. unfold proj. now rewrite filter_app, map_app. Qed.

Lemma proj_tag : forall i (w : list write), proj i (map (fun x => (i, x)) w) = w.
Proof.
  intros i w. unfold proj. induction w as [|x w IH]; cbn; [reflexivity|].
  rewrite Nat.eqb_refl. cbn. now rewrite IH.
Qed.

Lemma proj_other : forall i j (w : list write), i <> j -> proj j (map (fun x => (i, x)) w) = [].
Proof.
  intros i j w H. unfold proj. induction w as [|x w IH]; cbn; [reflexivity|].
  destruct (Nat.eqb_spec i j); [contradiction|exact IH].
Qed.

Lemma map_snd_tag : forall (i : nat) (w : list write), map snd (map (fun x => (i, x)) w) = w.
Proof. intros. rewrite map_map. cbn. apply map_id. Qed.

(* state of a pool after the log L; r i: how thread i ends (None: undefined) *)
Definition pool_inv (W : nat -> list write) (r : nat -> option A) (o0 : M)
    (pool : list (prog M A)) (o : M) (L : list (nat * write)) : Prop :=
  o = apply_writes (map snd L) o0 /\
  (forall e, In e L -> (fst e < length pool)%nat) /\
  forall i t, nth_error pool i = Some t ->
    exists rest, proj i L ++ rest = W i /\ follows sh (Q i) t rest (r i).

Lemma step_inv : forall W r o0 pool o L i, shape o0 = sh ->
  pool_inv W r o0 pool o L ->
  match step i pool o with
  | Ok (pool', o') => length pool' = length pool /\ exists L', pool_inv W r o0 pool' o' L'
  | _ => r i = None /\ (i < length pool)%nat
  end.
Proof.
  intros W r o0 pool o L i S0 (Ho & HL & Hp). unfold step.
  destruct (nth_error pool i) as [t|] eqn:Ei; [|split; auto; exists L; repeat split; auto].
  destruct (Hp i t Ei) as (rest & Hr & Hf).
  assert (i < length pool)%nat as Hi by (apply nth_error_Some; congruence).
  assert (shape o = sh) as So by (rewrite Ho, apply_shape; exact S0).
  inversion Hf as [a Ea1 Ea2 Ea3| |f Hf'|f w k ws r' Hfo Hw Hk E1 E2 E3]; subst t.
  - split; auto. exists L. repeat split; auto.
  - auto.
  - rewrite (Hf' o So). auto.
  - rewrite (Hfo o So). split; [apply upd_length|]. exists (L ++ map (fun x => (i, x)) w).
    split; [now rewrite map_app, map_snd_tag, apply_app, <- Ho|]. split.
    + intros e He. rewrite upd_length. apply in_app_or in He as [He|He]; [auto|].
      apply in_map_iff in He as (x & <- & _). exact Hi.
    + intros j t' Ej. rewrite proj_app. destruct (Nat.eq_dec i j) as [<-|Hij].
      * rewrite upd_same in Ej by exact Hi. injection Ej as <-.
        exists ws. rewrite proj_tag, <- app_assoc, E2. auto.
      * rewrite upd_other in Ej by auto. rewrite proj_other by auto. rewrite app_nil_r. auto.
Qed.

Lemma exec_inv : forall sched W r o0 pool o L, shape o0 = sh ->
  pool_inv W r o0 pool o L ->
  match exec sched pool o with
  | Ok (pool', o') => length pool' = length pool /\ exists L', pool_inv W r o0 pool' o' L'
  | _ => exists i, (i < length pool)%nat /\ r i = None
  end.
Proof.
  induction sched as [|i sched IH]; intros W r o0 pool o L S0 H; cbn [exec].
  - split; [reflexivity|]. now exists L.
  - pose proof (step_inv W r o0 pool o L i S0 H) as HS.
    destruct (step i pool o) as [[p1 o1]| |]; cbn [bind]; [|exists i; tauto|exists i; tauto].
    destruct HS as (N1 & L1 & H1). specialize (IH W r o0 p1 o1 L1 S0 H1). now rewrite N1 in IH.
Qed.

Lemma pool_start : forall W r o pool,
  (forall i t, nth_error pool i = Some t -> follows sh (Q i) t (W i) (r i)) ->
  pool_inv W r o pool o [].
Proof.
  intros W r o pool H. split; [reflexivity|]. split; [intros e []|].
  intros i t E. exists (W i). cbn. auto.
Qed.

(* at the end *)
Lemma pool_end : forall W r o0 pool o L, pool_inv W r o0 pool o L -> finished pool ->
  forall i, (i < length pool)%nat ->
    exists a, r i = Some a /\ nth_error pool i = Some (Ret a) /\ proj i L = W i.
Proof.
  intros W r o0 pool o L (Ho & HL & Hp) F i Hi.
  destruct (nth_error pool i) as [t|] eqn:Ei; [|apply nth_error_Some in Ei; [contradiction|lia]].
  destruct (F t) as (a & ->); [eapply nth_error_In; eauto|].
  destruct (Hp i _ Ei) as (rest & Hr & Hf). inversion Hf; subst. exists a.
  rewrite <- Hr, app_nil_r. auto.
Qed.

(* a defined thread can be run to its end *)
Lemma run_to_end : forall (t : prog M A) (Qt : write -> Prop) ws a, follows sh Qt t ws (Some a) ->
  forall (pool : list (prog M A)) o i, nth_error pool i = Some t -> shape o = sh ->
  exists n, exec (repeat i n) pool o = Ok (upd pool i (Ret a), apply_writes ws o).
Proof.
  intros t Qt ws a H. remember (Some a) as r eqn:Er. revert Er.
  induction H as [b| |f Hf|f w k ws r Hf Hw Hk IH]; intros Er pool o i Hi So; try discriminate.
  - injection Er as ->. exists 0%nat. cbn. now rewrite upd_id.
  - assert (i < length pool)%nat as Hlt by (apply nth_error_Some; congruence).
    destruct (IH Er (upd pool i k) (apply_writes w o) i) as (n & E).
    + now apply upd_same.
    + now rewrite apply_shape.
    + exists (S n). cbn [repeat exec]. unfold step. rewrite Hi, (Hf o So). cbn [bind].
      rewrite E, apply_app. do 2 f_equal.
      clear. revert i. induction pool as [|x pool IH]; intros [|i]; cbn; auto. now rewrite IH.
Qed.
End Sched.

Lemma exec_app : forall M A s1 s2 (pool : list (prog M A)) o,
  exec (s1 ++ s2) pool o = bind (exec s1 pool o) (fun r => let '(pool, o) := r in exec s2 pool o).
Proof.
  induction s1 as [|i s1 IH]; intros s2 pool o; cbn [app exec]; [reflexivity|].
  destruct (step i pool o) as [[p1 o1]| |]; cbn [bind]; auto.
Qed.

(* a thread that runs alone to its end does so in the pool *)
Lemma run_in_pool : forall M A (t : prog M A) pool o i o' a, nth_error pool i = Some t ->
  run t o = Ok (o', a) -> exists n, exec (repeat i n) pool o = Ok (upd pool i (Ret a), o').
Proof.
  fix IH 3. intros M A t pool o i o' a Hi. destruct t as [b|f|]; cbn [run].
  - intros [= -> ->]. exists 0%nat. cbn. now rewrite upd_id.
  - destruct (f o) as [[o1 k]|] eqn:E; [|discriminate]. intros R.
    assert (i < length pool)%nat as Hlt by (apply nth_error_Some; congruence).
    destruct (IH M A k (upd pool i k) o1 i o' a) as (n & En); [now apply upd_same|exact R|].
    exists (S n). cbn [repeat exec]. unfold step. rewrite Hi, E. cbn [bind]. rewrite En. do 2 f_equal.
    clear. revert i. induction pool as [|x pool IH]; intros [|i]; cbn; auto. now rewrite IH.
  - discriminate.
Qed.

(* ---- contents of the memory after a log ---- *)
Definition touch (k n : nat) (w : write) : bool :=
  Nat.eqb (fst (slot w)) k && Nat.eqb (snd (slot w)) n.

Lemma touch_slot : forall k n w, touch k n w = true <-> slot w = (k, n).
Proof.
  intros k n [[a b] q]. unfold touch, slot. cbn [fst snd]. rewrite andb_true_iff, !Nat.eqb_eq.
  split; [intros [-> ->]; reflexivity|intros [= -> ->]; auto].
Qed.

Lemma record_write : forall k n w (o : M),
  record_at (write_to o w) k n =
  if touch k n w then match record_at o k n with Some _ => Some (snd w) | None => None end
  else record_at o k n.
Proof.
  intros k n [[a b] q] o. unfold record_at, write_to, touch, slot. cbn [fst snd].
  destruct (nth_error o a) as [l|] eqn:Ea.
  - destruct (Nat.eqb_spec a k) as [<-|Hk].
    + rewrite upd_same by (apply nth_error_Some; congruence). rewrite Ea. cbn [andb].
      destruct (Nat.eqb_spec b n) as [<-|Hn].
      * destruct (nth_error l b) eqn:Eb.
        -- apply upd_same. apply nth_error_Some. congruence.
        -- apply nth_error_None. rewrite upd_length. now apply nth_error_None.
      * now rewrite upd_other.
    + rewrite upd_other by auto. reflexivity.
  - destruct (Nat.eqb_spec a k) as [<-|Hk]; cbn [andb]; [|reflexivity].
    rewrite Ea. destruct (_ =? _)%nat; reflexivity.
Qed.

Lemma record_apply_filter : forall k n ws (o : M),
  record_at (apply_writes ws o) k n = record_at (apply_writes (filter (touch k n) ws) o) k n.
Proof.
  intros k n ws o. revert o.
  assert (forall ws o1 o2, record_at o1 k n = record_at o2 k n ->
    record_at (apply_writes ws o1) k n = record_at (apply_writes (filter (touch k n) ws) o2) k n) as G.
  { induction ws0 as [|w ws0 IH]; intros o1 o2 H; cbn [apply_writes fold_left filter]; [exact H|].
    destruct (touch k n w) eqn:E.
    - apply (IH (write_to o1 w) (write_to o2 w)). now rewrite !record_write, E, H.
    - apply (IH (write_to o1 w) o2). now rewrite record_write, E. }
  intros o. now apply G.
Qed.

Lemma nth_error_ext_len : forall B (l1 l2 : list B), (forall n, nth_error l1 n = nth_error l2 n) -> l1 = l2.
Proof.
  induction l1 as [|x l1 IH]; intros [|y l2] H; auto.
  - specialize (H 0%nat). discriminate.
  - specialize (H 0%nat). discriminate.
  - f_equal; [specialize (H 0%nat); cbn in H; congruence|]. apply IH. intros n. apply (H (S n)).
Qed.

Lemma outs_ext : forall (o1 o2 : M), shape o1 = shape o2 ->
  (forall k n, record_at o1 k n = record_at o2 k n) -> o1 = o2.
Proof.
  intros o1 o2 S H. apply nth_error_ext_len. intros k. pose proof (shape_nth _ _ k S) as Hk.
  specialize (H k). unfold record_at in H.
  destruct (nth_error o1 k), (nth_error o2 k); try contradiction; [|reflexivity].
  f_equal. now apply nth_error_ext_len.
Qed.

(* two logs with the same per-thread writes, to slots of which each belongs to one thread *)
Lemma filter_proj : forall f i (L : list (nat * write)),
  (forall e, In e L -> f (snd e) = true -> fst e = i) ->
  filter f (map snd L) = filter f (proj i L).
Proof.
  intros f i L. unfold proj. induction L as [|[j w] L IH]; intros H; cbn; [reflexivity|].
  assert (filter f (map snd L) = filter f (map snd (filter (fun e => (fst e =? i)%nat) L))) as E
    by (apply IH; intros e He; apply H; now right).
  destruct (f w) eqn:Ef.
  - assert (j = i) as -> by (apply (H (j, w)); [now left|exact Ef]).
    rewrite Nat.eqb_refl. cbn. now rewrite Ef, E.
  - destruct (Nat.eqb_spec j i); cbn; [now rewrite Ef|exact E].
Qed.

Lemma in_proj : forall (L : list (nat * write)) i w, In (i, w) L -> In w (proj i L).
Proof.
  intros L i w H. unfold proj. apply in_map_iff. exists (i, w). split; [reflexivity|].
  apply filter_In. split; [exact H|]. apply Nat.eqb_refl.
Qed.

Lemma log_irrelevant : forall n (W : nat -> list write) L1 L2 (o : M),
  (forall i, (i < n)%nat -> proj i L1 = W i) -> (forall i, (i < n)%nat -> proj i L2 = W i) ->
  (forall e, In e L1 -> (fst e < n)%nat) -> (forall e, In e L2 -> (fst e < n)%nat) ->
  (forall i j w1 w2, (i < n)%nat -> (j < n)%nat -> In w1 (W i) -> In w2 (W j) -> slot w1 = slot w2 -> i = j) ->
  apply_writes (map snd L1) o = apply_writes (map snd L2) o.
Proof.
  intros n W L1 L2 o H1 H2 N1 N2 D. apply outs_ext; [now rewrite !apply_shape|].
  intros k m. rewrite record_apply_filter, (record_apply_filter k m (map snd L2)).
  enough (filter (touch k m) (map snd L1) = filter (touch k m) (map snd L2)) as -> by reflexivity.
  assert (forall L, (forall i, (i < n)%nat -> proj i L = W i) -> (forall e, In e L -> (fst e < n)%nat) ->
     forall e, In e L -> In (snd e) (W (fst e))) as IW.
  { intros L HL NL [i w] He. cbn. specialize (NL _ He). cbn in NL. rewrite <- HL by auto. now apply in_proj. }
  destruct (existsb (touch k m) (map snd L1 ++ map snd L2)) eqn:Ex.
  - apply existsb_exists in Ex as (w & Hw & Tw). apply touch_slot in Tw.
    assert (exists i, (i < n)%nat /\ In w (W i)) as (i & Hi & Hiw).
    { apply in_app_or in Hw as [Hw|Hw]; apply in_map_iff in Hw as (e & <- & He);
        exists (fst e); (split; [auto|]); [eapply IW with L1|eapply IW with L2]; auto. }
    rewrite (filter_proj (touch k m) i L1), (filter_proj (touch k m) i L2), H1, H2; auto.
    + intros e He Te. apply touch_slot in Te.
      apply (D (fst e) i (snd e) w); [auto|auto|eapply IW with L2; auto|auto|congruence].
    + intros e He Te. apply touch_slot in Te.
      apply (D (fst e) i (snd e) w); [auto|auto|eapply IW with L1; auto|auto|congruence].
  - rewrite existsb_app in Ex. apply orb_false_iff in Ex as [E1 E2].
    assert (forall ws : list write, existsb (touch k m) ws = false -> filter (touch k m) ws = []) as Z.
    { induction ws as [|w ws IH]; cbn; auto. intros E. apply orb_false_iff in E as [-> E]. auto. }
    now rewrite !Z.
Qed.

End Traces.
