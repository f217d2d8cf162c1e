(* Common alignment of several sizes.
   sixtracklib/common/buffer/alignment.h and alignment.c; uint64 arithmetic. *)
From Coq Require Import ZArith List Bool.
From Verif Require Import MBuf.
Import ListNotations.
Local Open Scope Z_scope.

(* alignment.h 77-99: log2_floor.  The loop leaves result = N - 1 with N the first value
   in 1..63 for which x < 2^N - 1 (63 when there is none) *)
Fixpoint log2_floor_loop (fuel : nat) (x result N : Z) : Z :=
  match fuel with
  | O => result
  | S k => if N <? 64 then
             if x <? 2 ^ N - 1 then result else log2_floor_loop k x N (N + 1)
           else result
  end.

Definition log2_floor (x : Z) : Z :=
  if 2 ^ 63 - 1 <? x then 63
  else if 0 <? x then log2_floor_loop 64 x 0 1 else 0.

(* alignment.h 101-107: log2_ceil *)
Definition log2_ceil (x : Z) : Z :=
  let f := log2_floor x in if f <? 63 then f + 1 else f.

(* alignment.h 111-126: greatest_common_divisor.  One round of the loop takes the
   remainder twice; the number of rounds is bounded by the value of b (None: the bound is
   too small, shown not to happen) *)
Fixpoint gcd_loop (fuel : nat) (a b : Z) : option Z :=
  if negb (a =? 0) && negb (b =? 0) then
    match fuel with
    | O => None
    | S k => let b := b mod a in
             if b =? 0 then Some a else gcd_loop k (a mod b) b
    end
  else Some (if b <? a then a else b).

(* enough rounds for any two uint64 numbers: 2 log2 *)
Definition gcd_fuel : nat := 65.
Definition c_gcd (a b : Z) : option Z := gcd_loop gcd_fuel a b.

(* alignment.h 130-137: least_common_multiple; a * b wraps around *)
Definition c_lcm (a b : Z) : option Z :=
  g <- c_gcd a b ;; Some (if g =? 0 then 0 else u64 (a * b) / g).

(* alignment.h 141-198: Alignment_calculate_common, common3 .. common8 *)
Definition common2 (s t : Z) : option Z := c_lcm s t.
Definition common3 (s t u : Z) : option Z := a <- c_lcm s t ;; c_lcm a u.
Definition common4 (s t u v : Z) : option Z :=
  a <- c_lcm s t ;; b <- c_lcm u v ;; c_lcm a b.
Definition common5 (s t u v w : Z) : option Z := a <- common4 s t u v ;; common2 a w.
Definition common6 (s t u v w x : Z) : option Z :=
  a <- common4 s t u v ;; b <- common2 w x ;; common2 a b.
Definition common7 (s t u v w x y : Z) : option Z :=
  a <- common4 s t u v ;; b <- common3 w x y ;; common2 a b.
Definition common8 (s t u v w x y z : Z) : option Z :=
  a <- common4 s t u v ;; b <- common4 w x y z ;; common2 a b.

(* alignment.c 16-78: Alignment_calculate_commonN.  The array has 64 entries (log2_ceil
   never exceeds 63, the malloc branch 32-36 is dead); writing an operand beyond them is
   None.  The loop while( step2 > 2 ) doubles step2, so for log2_ceil(n) > 2 it ends only
   when step2 has been shifted out to 0.
   Inner loop 57-63, with fuel. *)
Fixpoint commonN_inner (fuel : nat) (t : list Z) (L step step2 ii jj kk : Z)
  : option (list Z) :=
  match fuel with
  | O => None
  | S k =>
    if jj <? L then
      a <- nth_error t (Z.to_nat ii) ;; b <- nth_error t (Z.to_nat jj) ;;
      c <- common2 a b ;;
      commonN_inner k (lupd t (Z.to_nat kk) c) L step step2 (u64 (ii + step2))
        (u64 (jj + step2)) (u64 (kk + step))
    else Some t
  end.

Fixpoint commonN_outer (fuel : nat) (t : list Z) (L step2 : Z) : option (list Z) :=
  match fuel with
  | O => None
  | S k =>
    if 2 <? step2 then
      let step := step2 / 2 in
      t <- commonN_inner 65 t L step step2 0 step 0 ;;
      commonN_outer k t L (u64 (step2 * 2))
    else Some t
  end.

Definition commonN (numbers : list Z) (uninit : nat -> Z) : option Z :=
  let n := Z.of_nat (length numbers) in
  let L := log2_ceil n in
  if 64 <? n then None else
  let ones := repeat 1 (Z.to_nat L - length numbers) in
  let t := numbers ++ ones in
  let t := t ++ map uninit (seq (length t) (64 - length t)) in
  t <- commonN_outer 65 t L L ;;
  nth_error t 0.
