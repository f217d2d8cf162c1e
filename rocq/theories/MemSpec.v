(* What alignments and memory pools are to do. *)
From Coq Require Import ZArith List Bool.
From Verif Require Import Alignment MemPool.
Import ListNotations.
Local Open Scope Z_scope.

(* x is the least common multiple of the numbers l: a common multiple that divides all
   others *)
Definition is_lcm (l : list Z) (x : Z) : Prop :=
  0 < x /\ (forall a, In a l -> (a | x)) /\ (forall y, (forall a, In a l -> (a | y)) -> (x | y)).

Definition product (l : list Z) : Z := fold_right Z.mul 1 l.

(* positive numbers whose product can be represented *)
Definition proper (l : list Z) : Prop := (forall a, In a l -> 0 < a) /\ product l < 2 ^ 64.

(* c is the value of a computation of the least common multiple of l *)
Definition computes (c : option Z) (l : list Z) : Prop := exists x, c = Some x /\ is_lcm l x.

(* malloc gives 0 or an address with n bytes behind it *)
Definition good_malloc (malloc : Z -> Z) : Prop :=
  forall n, malloc n <> 0 -> 0 < malloc n /\ malloc n + n < 2 ^ 64.

(* n rounded up to a multiple of c *)
Definition round_up (n c : Z) : Z := (n + c - 1) / c * c.

(* The life of a pool: the pool, the number of bytes behind p_buffer, and the blocks that
   were handed out since the last clear, as (offset, length). *)
Inductive pool_history : pool -> Z -> list (Z * Z) -> Prop :=
| h_init malloc cap chunk align p : good_malloc malloc -> 0 <= cap -> 0 < chunk -> 0 < align ->
    align + Z.max cap chunk + chunk < 2 ^ 64 ->
    pool_init_aligned malloc cap chunk align = p -> p_buffer p <> 0 ->
    pool_history p (init_bytes cap chunk align) []
| h_reserve malloc p g l ncap align q : pool_history p g l -> good_malloc malloc -> 0 < align ->
    align + ncap + 2 * p_chunk p < 2 ^ 64 ->
    pool_reserve_aligned malloc p ncap align = (true, q) ->
    pool_history q (init_bytes ncap (p_chunk p) align) l
| h_clear p g l : pool_history p g l -> pool_history (pool_clear p) g []
| h_append p g l num align r q : pool_history p g l -> 0 < align ->
    p_capacity p + align * p_chunk p < 2 ^ 64 - 1 -> 0 <= num -> num + p_chunk p < 2 ^ 64 ->
    pool_append_aligned p num align = Some (r, q) -> alloc_valid r = true ->
    pool_history q g (l ++ [(r_offset r, r_length r)]).

Definition apart (x y : Z * Z) : Prop := fst x + snd x <= fst y \/ fst y + snd y <= fst x.
