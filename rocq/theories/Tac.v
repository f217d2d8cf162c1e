(* A decision tactic for boolean comparisons of integers. *)
From Coq Require Import ZArith Bool Lia.

(* case split on all comparisons in the goal; inconsistent cases closed by lia *)
Ltac bdec :=
  repeat match goal with
  | |- context [Z.leb ?a ?b] => destruct (Z.leb_spec a b)
  | |- context [Z.ltb ?a ?b] => destruct (Z.ltb_spec a b)
  | |- context [Z.eqb ?a ?b] => destruct (Z.eqb_spec a b)
  end; cbn [andb orb negb]; first [reflexivity | exfalso; lia].
