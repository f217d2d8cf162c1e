(* What a node id is as text, without reference to the conversion code. *)
From Coq Require Import Ascii String ZArith Bool List.
Import ListNotations.
Local Open Scope Z_scope.

(* the characters 0..9 and their values *)
Definition digit_of (a : ascii) (k : Z) : Prop := 0 <= k <= 9 /\ Z.of_N (N_of_ascii a) = 48 + k.

(* a sequence of digits denotes a number, most significant first *)
Inductive denotes : list ascii -> Z -> Prop :=
| den_one : forall a k, digit_of a k -> denotes [a] k
| den_more : forall s v a k, denotes s v -> digit_of a k -> denotes (s ++ [a]) (10 * v + k).

(* canonical decimal text: sign only when negative, no superfluous zeros *)
Definition canonical (s : list ascii) (z : Z) : Prop :=
  exists sign ds, s = sign ++ ds /\ denotes ds (Z.abs z) /\
    sign = (if z <? 0 then ["-"%char] else []) /\
    (hd "0"%char ds = "0"%char -> ds = ["0"%char]).

(* a 64-bit signed integer *)
Definition int64 (z : Z) : Prop := - 2 ^ 63 <= z < 2 ^ 63.
