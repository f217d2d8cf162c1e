(* Specification for C63: what the user of a kernel configuration sees. *)
From Coq Require Import ZArith List Bool.
From Verif Require Import LaunchConfig.
Import ListNotations.
Local Open Scope Z_scope.

(* a configuration that was made with the constructors and changed by calls of the API *)
Inductive made : conf -> Prop :=
| made_new : forall d1 d2 w, made (new_conf d1 d2 w)
| made_named : forall a d1 d2 w, made (new_named_conf a d1 d2 w)
| made_added : forall a d w, made (added_conf a d w)
| made_set : forall k v c c' st, made c -> set k v c = Some (c', st) -> made c'
| made_clear : forall c, made c -> made (clear c)
| made_reset : forall c d1 d2, made c -> made (reset c d1 d2)
| made_update : forall c, made c -> made (fst (update c)).

(* the value that is read for an index *)
Definition read (k : table) (c : conf) (i : Z) : Z :=
  match k with
  | Items => num_items c i | Offsets => item_offset c i
  | Groups => group_size c i | Pref => pref_multiple c i
  end.
Definition dim_of (k : table) (c : conf) : Z :=
  match k with Items | Offsets => k_items_dim c | Groups | Pref => k_groups_dim c end.

(* rounding up: b groups of g hold n, and b - 1 do not *)
Definition fewest (n g b : Z) : Prop := n <= b * g /\ (b - 1) * g < n.

(* an order in which the threads of a launch with this grid run: all of them, once each *)
Definition all_threads (items : list Z) (grid block : three) : Prop :=
  exists ts : list (three * three), NoDup ts /\
    (forall t b, In (t, b) ts <->
       (0 <= tx t < tx block /\ 0 <= ty t < ty block /\ 0 <= tz t < tz block) /\
       (0 <= tx b < tx grid /\ 0 <= ty b < ty grid /\ 0 <= tz b < tz grid)) /\
    items = map (fun tb => thread_id (fst tb) (snd tb) grid block) ts.
