(* Theorems for C10 and C11: memory pools and alignments.  pool_history, is_lcm, proper and
   computes are defined in MemSpec.v. *)
From Coq Require Import ZArith List Bool Lia.
From Verif Require Import MBuf Alignment MemPool MemSpec AlignmentProofs MemPoolProofs.
Import ListNotations.
Local Open Scope Z_scope.

(* C10: a block handed out is aligned, large enough, inside the memory of the pool and
   apart from every block handed out before. *)
Theorem C10_block : forall p g l num align r q, pool_history p g l -> 0 < align ->
  p_capacity p + align * p_chunk p < 2 ^ 64 - 1 -> 0 <= num -> num + p_chunk p < 2 ^ 64 ->
  pool_append_aligned p num align = Some (r, q) -> alloc_valid r = true ->
  r_ptr r mod align = 0 /\ num <= r_length r < num + p_chunk p /\ (p_chunk p | r_length r) /\
  p_buffer p <= r_ptr r /\ r_ptr r + r_length r <= p_buffer p + g /\
  r_ptr r = p_begin p + r_offset r /\
  (forall x, In x l -> apart x (r_offset r, r_length r)) /\
  p_buffer q = p_buffer p /\ p_begin q = p_begin p /\ p_capacity q = p_capacity p.
Proof.
  intros p g l num align r q H Ha Ho Hn Hno E V. apply history_ok in H as P.
  destruct (append_ok p g l num align P Ha Ho Hn Hno) as (r' & q' & E' & _ & T & _).
  rewrite E in E'. assert (r' = r) as -> by congruence. assert (q' = q) as -> by congruence.
  destruct (T V) as (T1 & T2 & T3 & T4 & T5 & T6 & T7 & T8).
  pose proof (po_chunk _ _ _ P) as Hc. pose proof (lcm_pos align (p_chunk p) Ha Hc) as Hu.
  pose proof (next_pos_spec p _ Hu) as (N1 & N2). rewrite <- T1 in N1, N2.
  pose proof (round_up_spec num (p_chunk p) Hc) as (R1 & R2). rewrite <- T2 in R1, R2.
  pose proof (po_buffer _ _ _ P). pose proof (po_end _ _ _ P). pose proof (po_size _ _ _ P).
  rewrite T3. split.
  { apply Z.mod_divide; [lia|]. eapply Z.divide_trans; [apply Z.divide_lcm_l|exact N2]. }
  split; [lia|]. split; [assumption|]. split; [lia|]. split; [lia|]. split; [reflexivity|].
  split; [|rewrite T6; auto]. intros x Hx. left. cbn [fst snd]. pose proof (po_in _ _ _ P x Hx). lia.
Qed.
Print Assumptions C10_block.

(* At any time all blocks are inside the memory of the pool and no two overlap. *)
Theorem C10_blocks : forall p g l, pool_history p g l ->
  (forall x, In x l -> 0 <= fst x /\ 0 < snd x /\
     p_buffer p <= p_begin p + fst x /\ p_begin p + fst x + snd x <= p_buffer p + g) /\
  (forall i j x y, nth_error l i = Some x -> nth_error l j = Some y -> i <> j -> apart x y).
Proof.
  intros p g l H. apply history_ok in H as P. split.
  - intros x Hx. pose proof (po_in _ _ _ P x Hx). pose proof (po_buffer _ _ _ P).
    pose proof (po_end _ _ _ P). pose proof (po_size _ _ _ P). lia.
  - pose proof (po_apart _ _ _ P) as A. clear P H.
    assert (S : forall x y, apart x y -> apart y x) by (intros x y [X|X]; [right|left]; exact X).
    induction A as [|a l F A IH]; intros i j x y Hi Hj N; [destruct i; discriminate|].
    rewrite Forall_forall in F.
    destruct i as [|i], j as [|j]; cbn [nth_error] in Hi, Hj.
    + now destruct N.
    + assert (a = x) as <- by congruence. apply F. eapply nth_error_In. eassumption.
    + assert (a = y) as <- by congruence. apply S, F. eapply nth_error_In. eassumption.
    + apply (IH i j); auto.
Qed.
Print Assumptions C10_blocks.

(* A request is fulfilled exactly when there is a suitable position behind the used bytes;
   otherwise nothing changes. *)
Theorem C10_append : forall p g l num align, pool_history p g l -> 0 < align ->
  p_capacity p + align * p_chunk p < 2 ^ 64 - 1 -> 0 <= num -> num + p_chunk p < 2 ^ 64 ->
  exists r q, pool_append_aligned p num align = Some (r, q) /\
  (alloc_valid r = false -> q = p) /\
  (alloc_valid r = true <-> 0 < num /\ exists t, p_size p <= t /\
     (align | p_begin p + t) /\ (p_chunk p | p_begin p + t) /\
     t + round_up num (p_chunk p) <= p_capacity p).
Proof.
  intros p g l num align H Ha Ho Hn Hno. apply history_ok in H as P.
  destruct (append_ok p g l num align P Ha Ho Hn Hno) as (r & q & E & F & _ & I). exists r, q.
  split; [exact E|]. split; [apply F|]. rewrite I.
  pose proof (po_chunk _ _ _ P) as Hc. pose proof (lcm_pos align (p_chunk p) Ha Hc) as Hu.
  pose proof (next_pos_spec p _ Hu) as (N1 & N2).
  split; intros (X & Y); (split; [assumption|]).
  - exists (next_pos p (Z.lcm align (p_chunk p))). split; [lia|].
    split; [eapply Z.divide_trans; [apply Z.divide_lcm_l|exact N2]|].
    split; [eapply Z.divide_trans; [apply Z.divide_lcm_r|exact N2]|exact Y].
  - destruct Y as (t & T1 & T2 & T3 & T4). apply Z.le_trans with (t + round_up num (p_chunk p)); [|assumption].
    apply Z.add_le_mono_r. unfold next_pos in *.
    pose proof (Z.lcm_least _ _ _ T2 T3) as (k & Hk).
    pose proof (round_up_spec (p_begin p + p_size p) _ Hu) as ((R1 & R2) & (j & Hj)).
    set (u := Z.lcm align (p_chunk p)) in *. rewrite Hj in *.
    destruct (Z_le_gt_dec j k) as [Q|Q].
    + assert (j * u <= k * u) by (apply Z.mul_le_mono_nonneg_r; lia). lia.
    + assert ((k + 1) * u <= j * u) by (apply Z.mul_le_mono_nonneg_r; lia). lia.
Qed.
Print Assumptions C10_append.

(* Reserving: the blocks keep their offsets, the begin is aligned and the capacity large
   enough; or nothing changes. *)
Theorem C10_reserve : forall malloc p g l ncap align, pool_history p g l -> good_malloc malloc ->
  0 < align -> align + ncap + 2 * p_chunk p < 2 ^ 64 ->
  exists r q, pool_reserve_aligned malloc p ncap align = (r, q) /\ (r = false -> q = p) /\
  (r = true -> pool_history q (init_bytes ncap (p_chunk p) align) l /\ ncap <= p_capacity q /\
     p_begin q mod align = 0 /\ p_size q = p_size p /\ p_chunk q = p_chunk p).
Proof.
  intros malloc p g l ncap align H Hm Ha Ho. apply history_ok in H as P.
  pose proof (reserve_ok malloc p g l ncap align P Hm Ha Ho) as (F & T).
  destruct (pool_reserve_aligned malloc p ncap align) as [r q] eqn:E. cbn [fst snd] in F, T.
  exists r, q. split; [reflexivity|]. split; [exact F|]. intros ->. split; [|apply T; reflexivity].
  eapply h_reserve; eauto.
Qed.
Print Assumptions C10_reserve.

Theorem C10_remaining : forall p g l, pool_history p g l ->
  0 <= p_size p <= p_capacity p /\
  0 <= remaining_bytes p <= p_capacity p - p_size p /\
  p_capacity p - p_size p - remaining_bytes p < p_chunk p.
Proof.
  intros p g l H. apply history_ok in H as P. pose proof (po_size _ _ _ P) as S. split; [exact S|].
  pose proof (po_chunk _ _ _ P) as C. pose proof (po_buffer _ _ _ P). pose proof (po_end _ _ _ P).
  pose proof (po_space _ _ _ P). unfold remaining_bytes. rewrite u64_small by lia.
  pose proof (Z.div_mod (p_capacity p - p_size p) (p_chunk p) ltac:(lia)).
  pose proof (Z.mod_pos_bound (p_capacity p - p_size p) (p_chunk p) C). 
  assert (0 <= (p_capacity p - p_size p) / p_chunk p) by (apply Z.div_pos; lia).
  assert (0 <= (p_capacity p - p_size p) / p_chunk p * p_chunk p) by (apply Z.mul_nonneg_nonneg; lia).
  lia.
Qed.
Print Assumptions C10_remaining.

Definition mem_at (a n : Z) : Z := if n <? 65536 then a else 0.
Lemma mem_at_good a : 0 < a < 2 ^ 32 -> good_malloc (mem_at a).
Proof.
  intros H n. unfold mem_at. destruct (n <? 65536) eqn:E; [|lia]. apply Z.ltb_lt in E. intros _.
  split; [lia|]. assert (2 ^ 32 + 65536 < 2 ^ 64) by reflexivity. lia.
Qed.
Definition pl0 : pool := pool_init_aligned (mem_at 1000) 100 8 16.

Example C10_example : exists r q, pool_history pl0 (init_bytes 100 8 16) [] /\
  p_begin pl0 = 1008 /\ pool_append_aligned pl0 10 64 = Some (r, q) /\ alloc_valid r = true /\
  r_ptr r = 1024 /\ r_length r = 16 /\ pool_history q (init_bytes 100 8 16) [(16, 16)].
Proof.
  assert (H : pool_history pl0 (init_bytes 100 8 16) []).
  { eapply h_init; try reflexivity; try lia; [apply mem_at_good; split; reflexivity|].
    vm_compute. discriminate. }
  eexists. eexists. split; [exact H|]. split; [reflexivity|]. split; [vm_compute; reflexivity|].
  split; [reflexivity|]. split; [reflexivity|]. split; [reflexivity|].
  apply (h_append pl0 (init_bytes 100 8 16) [] 10 64 (AllocResult 1024 16 16)); try reflexivity; try lia; assumption.
Qed.

(* MemPool_clear_to_aligned_position: after two calls the pool hands out bytes beyond the
   end of its memory.  Bytes [1000, 1000 + g) belong to the pool. *)
Theorem C10_clear_aligned_refuted : exists p g q1 q2 r q3, pool_history p g [] /\
  pool_clear_to_aligned p 1001 = Some (true, q1) /\
  pool_clear_to_aligned q1 1001 = Some (true, q2) /\
  pool_append q2 222 = Some (r, q3) /\ alloc_valid r = true /\
  p_buffer p + g < r_ptr r + r_length r.
Proof.
  exists (pool_init_aligned (mem_at 1000) 136 1 64), (init_bytes 136 1 64). do 4 eexists.
  split.
  { eapply h_init; try reflexivity; try lia; [apply mem_at_good; split; reflexivity|].
    vm_compute. discriminate. }
  split; [vm_compute; reflexivity|]. split; [vm_compute; reflexivity|].
  split; [vm_compute; reflexivity|]. split; [reflexivity|]. vm_compute. reflexivity.
Qed.

(* ------------------------------------------------------------------ *)
(* C11 *)
Theorem C11_gcd : forall a b, 0 <= a < 2 ^ 64 -> 0 <= b < 2 ^ 64 -> c_gcd a b = Some (Z.gcd a b).
Proof. intros. apply c_gcd_ok; lia. Qed.
Print Assumptions C11_gcd.

Theorem C11_common : forall s t, proper [s; t] -> computes (common2 s t) [s; t].
Proof. exact common2_ok. Qed.
Print Assumptions C11_common.

Theorem C11_common_of_several : forall s t u v w x y z,
  (proper [s; t; u] -> computes (common3 s t u) [s; t; u]) /\
  (proper [s; t; u; v] -> computes (common4 s t u v) [s; t; u; v]) /\
  (proper [s; t; u; v; w] -> computes (common5 s t u v w) [s; t; u; v; w]) /\
  (proper [s; t; u; v; w; x] -> computes (common6 s t u v w x) [s; t; u; v; w; x]) /\
  (proper [s; t; u; v; w; x; y] -> computes (common7 s t u v w x y) [s; t; u; v; w; x; y]) /\
  (proper [s; t; u; v; w; x; y; z] ->
     computes (common8 s t u v w x y z) [s; t; u; v; w; x; y; z]).
Proof.
  intros s t u v w x y z. split; [apply common3_ok|]. split; [apply common4_ok|].
  split; [apply common5_ok|]. split; [apply common6_ok|]. split; [apply common7_ok|apply common8_ok].
Qed.
Print Assumptions C11_common_of_several.

Example C11_example : proper [12; 18; 8] /\ common3 12 18 8 = Some 72 /\ common2 64 8 = Some 64.
Proof.
  split; [|split; vm_compute; reflexivity]. split; [|reflexivity].
  intros a [<-|[<-|[<-|[]]]]; reflexivity.
Qed.

(* The product of the two numbers wraps around: the common alignment of 2^32 and 2^32 is
   reported as 0 although their least common multiple is representable. *)
Theorem C11_overflow_refuted : exists s t, 0 < s < 2 ^ 64 /\ 0 < t < 2 ^ 64 /\ Z.lcm s t < 2 ^ 64 /\
  common2 s t = Some 0.
Proof. exists (2 ^ 32), (2 ^ 32). repeat split; vm_compute; reflexivity. Qed.

(* Alignment_calculate_commonN takes the logarithm of the number of operands for their
   number and ignores most of them. *)
Theorem C11_list_refuted : forall uninit, exists l x, proper l /\ commonN l uninit = Some x /\
  ~ (forall a, In a l -> (a | x)).
Proof.
  intros u. exists [2; 3], 2. split.
  - split; [|reflexivity]. intros a [<-|[<-|[]]]; reflexivity.
  - split; [reflexivity|]. intros H. destruct (H 3) as (k & Hk); [right; now left|lia].
Qed.

(* log2_floor is wrong for 3. *)
Theorem C11_log2_refuted : exists x, 0 < x /\ log2_floor x <> Z.log2 x.
Proof. exists 3. split; [lia|]. vm_compute. discriminate. Qed.
