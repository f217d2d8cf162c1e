(* Memory pools: the blocks handed out are aligned, disjoint and inside the memory that
   malloc returned. *)
From Coq Require Import ZArith List Bool Lia.
From Verif Require Import MBuf Alignment MemPool MemSpec AlignmentProofs.
Import ListNotations.
Local Open Scope Z_scope.

Lemma u64_small z : 0 <= z < 2 ^ 64 -> u64 z = z.
Proof. intros H. unfold u64. apply Z.mod_small. exact H. Qed.

Lemma round_up_spec n c : 0 < c -> n <= round_up n c < n + c /\ (c | round_up n c).
Proof.
  intros H. unfold round_up. pose proof (Z.div_mod (n + c - 1) c ltac:(lia)).
  pose proof (Z.mod_pos_bound (n + c - 1) c ltac:(lia)). split; [lia|]. apply Z.divide_factor_r.
Qed.

Lemma round_up_unique n c x : 0 < c -> (c | x) -> n <= x < n + c -> x = round_up n c.
Proof.
  intros Hc (k & Hk) H. pose proof (round_up_spec n c Hc) as (B & (j & Hj)). rewrite Hj in B |- *.
  subst x. assert (k = j); [|congruence]. 
  assert (c * (k - j) < c * 1) by lia. assert (c * (j - k) < c * 1) by lia.
  apply Z.mul_lt_mono_pos_l in H0; [|lia]. apply Z.mul_lt_mono_pos_l in H1; [|lia]. lia.
Qed.

Lemma round_up_eq n c : 0 < c -> 0 <= n -> n + c < 2 ^ 64 ->
  (let x := n / c * c in if x <? n then u64 (x + c) else x) = round_up n c.
Proof.
  intros Hc Hn Ho. cbv zeta. pose proof (Z.div_mod n c ltac:(lia)). pose proof (Z.mod_pos_bound n c ltac:(lia)).
  assert (X : n / c * c = c * (n / c)) by apply Z.mul_comm.
  destruct (n / c * c <? n) eqn:E.
  - apply Z.ltb_lt in E. assert (0 <= n / c) by (apply Z.div_pos; lia).
    assert (0 <= n / c * c) by (apply Z.mul_nonneg_nonneg; lia).
    rewrite u64_small by lia. apply round_up_unique; [lia| |lia].
    exists (n / c + 1). lia.
  - apply Z.ltb_ge in E. apply round_up_unique; [lia|apply Z.divide_factor_r|lia].
Qed.

Lemma init_bytes_eq cap chunk align : 0 < chunk -> 0 < align -> 0 <= cap ->
  align + Z.max cap chunk + chunk < 2 ^ 64 ->
  init_bytes cap chunk align = round_up (align + Z.max cap chunk) chunk.
Proof.
  intros Hc Ha H0 Ho. unfold init_bytes.
  assert (E : (if chunk <? cap then cap else chunk) = Z.max cap chunk).
  { destruct (chunk <? cap) eqn:E; [apply Z.ltb_lt in E|apply Z.ltb_ge in E]; lia. }
  rewrite E, u64_small by lia. apply round_up_eq; lia.
Qed.

(* ------------------------------------------------------------------ *)
Record pool_ok (p : pool) (g : Z) (l : list (Z * Z)) : Prop := PoolOk {
  po_chunk : 0 < p_chunk p;
  po_buffer : 0 < p_buffer p <= p_begin p;
  po_end : p_begin p + p_capacity p <= p_buffer p + g;
  po_space : p_buffer p + g < 2 ^ 64;
  po_size : 0 <= p_size p <= p_capacity p;
  po_in : forall x, In x l -> 0 <= fst x /\ 0 < snd x /\ fst x + snd x <= p_size p;
  po_apart : ForallOrdPairs apart l }.

Lemma init_ok malloc cap chunk align : good_malloc malloc -> 0 <= cap -> 0 < chunk -> 0 < align ->
  align + Z.max cap chunk + chunk < 2 ^ 64 ->
  let p := pool_init_aligned malloc cap chunk align in
  p = pool_preset \/
  pool_ok p (init_bytes cap chunk align) [] /\ cap <= p_capacity p /\ p_begin p mod align = 0 /\
  p_size p = 0 /\ p_chunk p = chunk.
Proof.
  intros Hm H0 Hc Ha Ho. unfold pool_init_aligned.
  rewrite (proj2 (Z.ltb_lt 0 chunk)), (proj2 (Z.ltb_lt 0 align)) by lia. cbn [andb]. cbv zeta.
  pose proof (init_bytes_eq cap chunk align Hc Ha H0 Ho) as E.
  pose proof (round_up_spec (align + Z.max cap chunk) chunk Hc) as (B & _). rewrite <- E in B.
  clear E. set (g := init_bytes cap chunk align) in *.
  destruct (malloc g =? 0) eqn:Z0; [now left|]. right. apply Z.eqb_neq in Z0.
  destruct (Hm g Z0) as (M1 & M2). set (a := malloc g) in *.
  pose proof (Z.mod_pos_bound a align ltac:(lia)). pose proof (Z.div_mod a align ltac:(lia)).
  set (off := if a mod align =? 0 then 0 else align - a mod align).
  assert (Of : 0 <= off < align /\ (a + off) mod align = 0).
  { unfold off. destruct (a mod align =? 0) eqn:X; [apply Z.eqb_eq in X|apply Z.eqb_neq in X].
    - split; [lia|]. rewrite Z.add_0_r. assumption.
    - split; [lia|]. replace (a + (align - a mod align)) with ((a / align + 1) * align) by lia.
      apply Z.mod_mul. lia. }
  destruct Of as (O1 & O2).
  assert (C : (if 0 <? off then u64 (g - off) else g) = g - off).
  { destruct (0 <? off) eqn:X; [apply Z.ltb_lt in X|apply Z.ltb_ge in X]; [|lia].
    apply u64_small. lia. }
  rewrite C. cbn [p_capacity p_begin p_size p_chunk]. split; [|split; [lia|auto]].
  constructor; cbn [p_capacity p_begin p_size p_chunk p_buffer]; try lia.
  - intros x [].
  - constructor.
Qed.

Lemma reserve_ok malloc p g l ncap align : pool_ok p g l -> good_malloc malloc -> 0 < align ->
  align + ncap + 2 * p_chunk p < 2 ^ 64 ->
  let r := fst (pool_reserve_aligned malloc p ncap align) in
  let q := snd (pool_reserve_aligned malloc p ncap align) in
  (r = false -> q = p) /\
  (r = true -> pool_ok q (init_bytes ncap (p_chunk p) align) l /\ ncap <= p_capacity q /\
     p_begin q mod align = 0 /\ p_size q = p_size p /\ p_chunk q = p_chunk p).
Proof.
  intros P Hm Ha Ho. unfold pool_reserve_aligned.
  destruct (p_capacity p <? ncap) eqn:E; cbn [andb]; [|cbn [fst snd]; split; [auto|discriminate]].
  apply Z.ltb_lt in E. pose proof (po_chunk _ _ _ P) as Hc. pose proof (po_size _ _ _ P) as Hs.
  rewrite (proj2 (Z.ltb_lt 0 _)) by lia. cbv zeta.
  destruct (init_ok malloc ncap (p_chunk p) align Hm ltac:(lia) Hc Ha ltac:(lia)) as [->|(Q & Qc & Qa & Qs & Qk)].
  { cbn [pool_preset p_buffer Z.eqb fst snd]. split; [auto|discriminate]. }
  set (q := pool_init_aligned malloc ncap (p_chunk p) align) in *.
  rewrite (proj2 (Z.eqb_neq (p_buffer q) 0)) by (pose proof (po_buffer _ _ _ Q); lia).
  cbn [fst snd]. split; [discriminate|]. intros _.
  rewrite (proj2 (Z.eqb_neq (p_begin p) 0)) by (pose proof (po_buffer _ _ _ P); lia). cbn [negb andb].
  assert (X : (if 0 <? p_size p then pool_set_size q (p_size p) else q) = pool_set_size q (p_size p)).
  { destruct (0 <? p_size p) eqn:X; [reflexivity|]. apply Z.ltb_ge in X.
    assert (p_size p = p_size q) as -> by lia. destruct q; reflexivity. }
  rewrite X. destruct Q as [Q1 Q2 Q3 Q4 Q5 Q6 Q7].
  split; [|cbn [pool_set_size p_capacity p_begin p_size p_chunk]; auto].
  constructor; cbn [pool_set_size p_capacity p_begin p_size p_chunk p_buffer]; try assumption; try lia.
  - exact (po_in _ _ _ P).
  - exact (po_apart _ _ _ P).
Qed.

Lemma clear_ok p g l : pool_ok p g l -> pool_ok (pool_clear p) g [].
Proof.
  intros [P1 P2 P3 P4 P5 P6 P7].
  constructor; cbn [pool_clear pool_set_size p_capacity p_begin p_size p_chunk p_buffer]; try assumption; try lia.
  - intros x [].
  - constructor.
Qed.

(* the next aligned position *)
Definition next_pos (p : pool) (u : Z) : Z := round_up (p_begin p + p_size p) u - p_begin p.

Lemma next_pos_spec p u : 0 < u -> p_size p <= next_pos p u < p_size p + u /\
  (u | p_begin p + next_pos p u).
Proof.
  intros H. unfold next_pos. pose proof (round_up_spec (p_begin p + p_size p) u H) as (B & D).
  split; [lia|]. replace (p_begin p + (round_up (p_begin p + p_size p) u - p_begin p))
    with (round_up (p_begin p + p_size p) u) by lia. assumption.
Qed.

Lemma next_ok p g l align : pool_ok p g l -> 0 < align -> p_capacity p + align * p_chunk p < 2 ^ 64 - 1 ->
  next_begin_offset p align =
  Some (let t := next_pos p (Z.lcm align (p_chunk p)) in if t <=? p_capacity p then t else U64_MAX).
Proof.
  intros P Ha Ho. pose proof (po_chunk _ _ _ P) as Hc. pose proof (po_size _ _ _ P) as Hs.
  unfold next_begin_offset, common2. rewrite c_lcm_ok by lia. cbn [bind].
  pose proof (lcm_pos align (p_chunk p) Ha Hc) as Hu. pose proof (lcm_le_mul align (p_chunk p) Ha Hc) as Hl.
  set (u := Z.lcm align (p_chunk p)) in *. rewrite (proj2 (Z.eqb_neq u 0)) by lia. cbv zeta.
  set (x := p_begin p + p_size p). pose proof (Z.mod_pos_bound x u Hu). pose proof (Z.div_mod x u ltac:(lia)).
  assert (Xr : round_up x u = if x mod u =? 0 then x else x + (u - x mod u)).
  { symmetry. apply round_up_unique; [assumption| |].
    - destruct (x mod u =? 0) eqn:E; [apply Z.eqb_eq in E|].
      + exists (x / u). lia.
      + exists (x / u + 1). lia.
    - destruct (x mod u =? 0) eqn:E; [|apply Z.eqb_neq in E]; lia. }
  assert (T : (if negb ((if x mod u =? 0 then 0 else u - x mod u) =? 0) &&
      (p_size p <? U64_MAX - (if x mod u =? 0 then 0 else u - x mod u))
    then p_size p + (if x mod u =? 0 then 0 else u - x mod u) else p_size p) = next_pos p u).
  { unfold next_pos. fold x. rewrite Xr. destruct (x mod u =? 0) eqn:E.
    - cbn [Z.eqb negb andb]. unfold x. lia.
    - apply Z.eqb_neq in E. rewrite (proj2 (Z.eqb_neq (u - x mod u) 0)) by lia. cbn [negb andb].
      unfold U64_MAX. rewrite (proj2 (Z.ltb_lt _ _)) by lia. unfold x. lia. }
  rewrite T. reflexivity.
Qed.

Lemma apart_snoc l y : ForallOrdPairs apart l -> (forall x, In x l -> apart x y) ->
  ForallOrdPairs apart (l ++ [y]).
Proof.
  induction 1 as [|a l Ha Hl IH]; intros H; cbn [app].
  - constructor; [constructor|constructor].
  - constructor.
    + apply Forall_app. split; [assumption|]. constructor; [|constructor]. apply H. now left.
    + apply IH. intros x Hx. apply H. now right.
Qed.

Lemma append_ok p g l num align : pool_ok p g l -> 0 < align ->
  p_capacity p + align * p_chunk p < 2 ^ 64 - 1 -> 0 <= num -> num + p_chunk p < 2 ^ 64 ->
  exists r q, pool_append_aligned p num align = Some (r, q) /\
  (alloc_valid r = false -> q = p /\ r = AllocResult 0 0 0) /\
  (alloc_valid r = true ->
     r_offset r = next_pos p (Z.lcm align (p_chunk p)) /\ r_length r = round_up num (p_chunk p) /\
     r_ptr r = p_begin p + r_offset r /\ r_offset r + r_length r = p_size q /\ 0 < r_length r /\
     q = pool_set_size p (p_size q) /\ p_size q <= p_capacity p /\
     pool_ok q g (l ++ [(r_offset r, r_length r)])) /\
  (alloc_valid r = true <-> 0 < num /\
     next_pos p (Z.lcm align (p_chunk p)) + round_up num (p_chunk p) <= p_capacity p).
Proof.
  intros P Ha Ho Hn Hno. unfold pool_append_aligned. rewrite (next_ok p g l align P Ha Ho). cbn [bind].
  cbv zeta.
  pose proof (po_chunk _ _ _ P) as Hc. pose proof (po_size _ _ _ P) as Hs.
  pose proof (lcm_pos align (p_chunk p) Ha Hc) as Hu.
  set (u := Z.lcm align (p_chunk p)) in *. pose proof (next_pos_spec p u Hu) as (N & _).
  set (t := next_pos p u) in *. pose proof (po_buffer _ _ _ P) as Pb.
  rewrite (proj2 (Z.eqb_neq (p_begin p) 0)) by lia. cbn [negb andb].
  rewrite (proj2 (Z.ltb_lt 0 (p_chunk p))) by lia.
  pose proof (round_up_spec num (p_chunk p) Hc) as (R & _).
  pose proof (round_up_eq num (p_chunk p) Hc Hn Hno) as RE. cbv zeta in RE. rewrite RE.
  set (n := round_up num (p_chunk p)) in *.
  assert (None_ : exists r q, Some (AllocResult 0 0 0, p) = Some (r, q) /\
    (alloc_valid r = false -> q = p /\ r = AllocResult 0 0 0) /\ alloc_valid r = false).
  { exists (AllocResult 0 0 0), p. split; [reflexivity|]. split; [auto|reflexivity]. }
  assert (Fail : ~ (0 < num /\ t + n <= p_capacity p) ->
    exists r q, Some (AllocResult 0 0 0, p) = Some (r, q) /\
  (alloc_valid r = false -> q = p /\ r = AllocResult 0 0 0) /\
  (alloc_valid r = true ->
     r_offset r = t /\ r_length r = n /\
     r_ptr r = p_begin p + r_offset r /\ r_offset r + r_length r = p_size q /\ 0 < r_length r /\
     q = pool_set_size p (p_size q) /\ p_size q <= p_capacity p /\
     pool_ok q g (l ++ [(r_offset r, r_length r)])) /\
  (alloc_valid r = true <-> 0 < num /\ t + n <= p_capacity p)).
  { intros F. destruct None_ as (r & q & E & X & Y). exists r, q. split; [exact E|]. split; [exact X|].
    rewrite Y. split; [discriminate|]. split; [discriminate|]. intros Z. now destruct F. }
  destruct (0 <? num) eqn:En; cbn [andb]; [apply Z.ltb_lt in En|apply Z.ltb_ge in En; apply Fail; lia].
  destruct (t <=? p_capacity p) eqn:Et; [apply Z.leb_le in Et|apply Z.leb_gt in Et].
  2:{ rewrite Z.eqb_refl. cbn [negb andb]. apply Fail. lia. }
  rewrite (proj2 (Z.eqb_neq t U64_MAX)) by (unfold U64_MAX; lia). cbn [negb andb].
  assert (S1 : t + n <= p_capacity p -> t <? U64_MAX - n = true)
    by (intros; apply Z.ltb_lt; unfold U64_MAX; lia).
  destruct (t <? U64_MAX - n) eqn:E1; [|apply Fail; intros (_ & X); specialize (S1 X); discriminate].
  destruct (t + n <=? p_capacity p) eqn:E2; [apply Z.leb_le in E2|apply Z.leb_gt in E2; apply Fail; lia].
  eexists. eexists. split; [reflexivity|].
  assert (V : alloc_valid (AllocResult (p_begin p + t) t n) = true).
  { unfold alloc_valid. cbn [r_ptr r_length]. rewrite (proj2 (Z.eqb_neq _ 0)) by lia.
    rewrite (proj2 (Z.ltb_lt _ _)) by lia. reflexivity. }
  rewrite V. split; [discriminate|]. split; [|split; [intros _; split; lia|reflexivity]].
  intros _. cbn [r_offset r_length r_ptr pool_set_size p_size].
  split; [reflexivity|]. split; [reflexivity|]. split; [reflexivity|]. split; [reflexivity|].
  split; [lia|]. split; [reflexivity|]. split; [lia|].
  destruct P as [P1 P2 P3 P4 P5 P6 P7].
  constructor; cbn [pool_set_size p_capacity p_begin p_size p_chunk p_buffer]; try assumption; try lia.
  - intros x Hx. apply in_app_or in Hx as [Hx|[<-|[]]].
    + specialize (P6 x Hx). lia.
    + cbn [fst snd]. lia.
  - apply apart_snoc; [assumption|]. intros x Hx. left. cbn [fst snd]. specialize (P6 x Hx). lia.
Qed.

Lemma history_ok p g l : pool_history p g l -> pool_ok p g l.
Proof.
  induction 1 as [malloc cap chunk align p Hm H0 Hc Ha Ho E Hb
    |malloc p g l ncap align q H IH Hm Ha Ho E
    |p g l H IH
    |p g l num align r q H IH Ha Hal Hn Ho E Hv].
  - destruct (init_ok malloc cap chunk align Hm H0 Hc Ha Ho) as [X|(X & _)].
    + rewrite E in X. subst p. rewrite X in Hb. now destruct Hb.
    + rewrite E in X. exact X.
  - pose proof (reserve_ok malloc p g l ncap align IH Hm Ha Ho) as (_ & T). rewrite E in T.
    cbn [fst snd] in T. now apply T.
  - now apply (clear_ok p g l).
  - destruct (append_ok p g l num align IH Ha Hal Hn Ho) as (r' & q' & E' & _ & T & _).
    rewrite E in E'. assert (r' = r) as -> by congruence. assert (q' = q) as -> by congruence. now apply T.
Qed.
