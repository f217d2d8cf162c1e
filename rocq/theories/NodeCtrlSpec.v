(* What a user of a node controller expects: a list of nodes with distinct ids, at most one of
   them selected and at most one the default; written without pointers, flags of nodes and
   character arrays. *)
From Coq Require Import Ascii String ZArith Bool List.
From Verif Require Import NodeId NodeCtrl.
Import ListNotations.
Local Open Scope Z_scope.

(* a node: platform id, device id, platform name; nodes are counted from 0 *)
Record state := State {
  nodes : list (Z * Z * chars); default : option Z; selected : option Z;
  may_switch : bool; may_unselect : bool; auto_default : bool }.

Definition no_nodes : state := State [] None None false false false.
Definition choose (k : option Z) (s : state) : state :=
  State (nodes s) (default s) k (may_switch s) (may_unselect s) (auto_default s).
Definition with_default (k : option Z) (s : state) : state :=
  State (nodes s) k (selected s) (may_switch s) (may_unselect s) (auto_default s).
Definition with_nodes l (s : state) : state :=
  State l (default s) (selected s) (may_switch s) (may_unselect s) (auto_default s).
Definition with_flags d u a (s : state) : state := State (nodes s) (default s) (selected s) d u a.

Definition count (s : state) : Z := Z.of_nat (length (nodes s)).
Definition known (s : state) (i : Z) : bool := (0 <=? i) && (i <? count s).
Definition ids (s : state) (i : Z) : option (Z * Z) :=
  if known s i then option_map fst (nth_error (nodes s) (Z.to_nat i)) else None.

(* the text of the id of a node, platform.device ([text]: see C41), and whether it fits into
   the 16 characters a controller has for it *)
Definition id_text (s : state) (i : Z) : chars :=
  match ids s i with Some (p, d) => text (mkNode p d 0) | None => [] end.
Definition fits (s : state) (i : Z) : bool := Z.of_nat (length (id_text s i)) <=? 16.

Definition is (k : option Z) (i : Z) : bool := match k with Some j => j =? i | None => false end.

(* change the selection from k to i: k is selected, i is another node; when the text of the new
   node does not fit nothing is selected afterwards *)
Definition on_change (s : state) (k i : Z) : Z * state :=
  if is (selected s) k && negb (k =? i) && known s i && (may_switch s || may_unselect s)
  then if fits s i then (0, choose (Some i) s) else (-1, choose None s)
  else (-1, s).
Definition on_select (s : state) (i : Z) : Z * state :=
  match selected s with
  | None => if known s i && fits s i then (0, choose (Some i) s) else (-1, s)
  | Some k => on_change s k i
  end.
Definition on_unselect (s : state) (i : Z) : Z * state :=
  if is (selected s) i && may_unselect s then (0, choose None s) else (-1, s).
(* unselecting a node by its index selects the default node instead, if there is one *)
Definition on_unselect_at (s : state) (i : Z) : Z * state :=
  match on_unselect s i, default s with
  | (0, s'), Some k => if auto_default s && negb (k =? i) then on_select s' k else (0, s')
  | r, _ => r
  end.

Inductive op :=
| Append (x : info) | Default (i : Z) | Flags (d u a : bool)
| Select (i : Z) | Change (i : Z) | ChangeFrom (k i : Z) | Unselect | UnselectAt (i : Z).

(* adding a node: with ids of its own it is taken unless these ids are in use; without, it
   joins the platform of its name, or gets a platform of its own *)
Definition in_use (l : list (Z * Z * chars)) (p d : Z) : Prop := exists m, In (p, d, m) l.
Definition first_named (l : list (Z * Z * chars)) (m : chars) (p : Z) : Prop :=
  exists l1 d l2, l = l1 ++ (p, d, m) :: l2 /\ Forall (fun x => snd x <> m) l1.
Inductive joins (l : list (Z * Z * chars)) (x : info) : option (Z * Z) -> Prop :=
| join_new : let p := n_platform (i_id x) in let d := n_device (i_id x) in
    p <> -1 -> d <> -1 -> ~ in_use l p d -> joins l x (Some (p, d))
| join_known : in_use l (n_platform (i_id x)) (n_device (i_id x)) -> 
    n_platform (i_id x) <> -1 -> n_device (i_id x) <> -1 -> joins l x None
| join_named : forall p d, n_platform (i_id x) = -1 \/ n_device (i_id x) = -1 ->
    i_name x <> [] -> first_named l (i_name x) p ->
    (forall d', in_use l p d' -> d' < d) -> in_use l p (d - 1) -> joins l x (Some (p, d))
| join_platform : forall p, n_platform (i_id x) = -1 \/ n_device (i_id x) = -1 ->
    Forall (fun y => snd y <> i_name x) l \/ i_name x = [] -> (i_name x = [] -> n_platform (i_id x) = -1) ->
    0 <= p -> (forall p' d', in_use l p' d' -> p' < p) -> (p = 0 \/ exists d', in_use l (p - 1) d') ->
    joins l x (Some (p, 0))
| join_none : n_platform (i_id x) <> -1 -> n_device (i_id x) = -1 -> i_name x = [] -> joins l x None.

Inductive expected (s : state) : op -> Z -> state -> Prop :=
| e_append : forall x p d, joins (nodes s) x (Some (p, d)) ->
    expected s (Append x) (count s) (with_nodes (nodes s ++ [(p, d, i_name x)]) s)
| e_refused : forall x, joins (nodes s) x None -> expected s (Append x) undefined_index s
| e_default : forall i, known s i = true -> expected s (Default i) 0 (with_default (Some i) s)
| e_no_default : expected s (Default undefined_index) 0 (with_default None s)
| e_bad_default : forall i, known s i = false -> i <> undefined_index -> expected s (Default i) 0 s
| e_flags : forall d u a, expected s (Flags d u a) 0 (with_flags d u a s)
| e_select : forall i r s', on_select s i = (r, s') -> expected s (Select i) r s'
| e_change : forall i r s', on_change s (match selected s with Some k => k | None => undefined_index end) i = (r, s') ->
    expected s (Change i) r s'
| e_change_from : forall k i r s', on_change s k i = (r, s') -> expected s (ChangeFrom k i) r s'
| e_unselect : forall r s', on_unselect s (match selected s with Some k => k | None => undefined_index end) = (r, s') ->
    expected s Unselect r s'
| e_unselect_at : forall i r s', on_unselect_at s i = (r, s') -> expected s (UnselectAt i) r s'.

Inductive expects : state -> list op -> list Z -> state -> Prop :=
| x_nil : forall s, expects s [] [] s
| x_cons : forall s o os r rs s1 s2, expected s o r s1 -> expects s1 os rs s2 -> expects s (o :: os) (r :: rs) s2.

(* the calls; appending, defaults and flags are for the derived classes.  The result of Default
   and Flags, which return nothing, is 0. *)
Definition perform (c : ctrl) (o : op) : option (Z * ctrl) :=
  match o with
  | Append x => Some (append c x)
  | Default i => Some (0, make_default c i)
  | Flags d u a => Some (0, set_flags d u a c)
  | Select i => select_node c i
  | Change i => change_node c i
  | ChangeFrom k i => change_node_from c k i
  | Unselect => unselect_selected c
  | UnselectAt i => unselect_node c i
  end.
Inductive performs : ctrl -> list op -> list Z -> ctrl -> Prop :=
| p_nil : forall c, performs c [] [] c
| p_cons : forall c o os r rs c1 c2, perform c o = Some (r, c1) -> performs c1 os rs c2 ->
    performs c (o :: os) (r :: rs) c2.

(* ids are natural numbers, or -1 for none *)
Definition op_ok (o : op) : Prop :=
  match o with Append x => -1 <= n_platform (i_id x) /\ -1 <= n_device (i_id x) | _ => True end.

(* what the controller reports is what is expected *)
Definition index_of (k : option Z) : Z := match k with Some i => i | None => undefined_index end.
Definition some (k : option Z) : bool := match k with Some _ => true | None => false end.
Record shows (c : ctrl) (s : state) : Prop := {
  sh_count : num_nodes c = count s;
  sh_ids : forall i, option_map (fun n => (n_platform n, n_device n)) (node_id_at c i) = ids s i;
  sh_available : forall i, is_available c i = known s i;
  sh_has_selected : has_selected c = Some (some (selected s));
  sh_selected : selected_index c = Some (index_of (selected s));
  sh_is_selected : forall i, is_selected c i = Some (is (selected s) i);
  sh_text : selected_str c = Some (match selected s with Some k => id_text s k | None => [] end);
  sh_has_default : has_default c = Some (some (default s));
  sh_default : default_index c = Some (index_of (default s));
  sh_is_default : forall i, is_default c i = Some (is (default s) i);
  sh_indices : forall max, 0 <= max -> available_indices c max =
    map Z.of_nat (seq 0 (Nat.min (length (nodes s)) (Z.to_nat max))) }.
