(* Model of the node controllers: /repo/sixtracklib/common/control/node_controller_base.cpp and
   node_info.cpp.  Only the base class: a derived class (CudaController) fills the list of
   nodes, sets the flags and may add work of its own to doSelectNode and doChangeSelectedNode.

   The entries of m_available_nodes are never null (doAppendAvailableNodeInfoBase takes no null
   pointer), so the tests for null are left out; the node infos do not move when the list grows
   (unique_ptr).  A pointer to the id of a node is the number of the node together with the
   number of times the list was cleared before; following a pointer to a node that was freed is
   None (undefined).  The number of nodes is below 2^32 - 1. *)
From Coq Require Import Ascii String ZArith Bool List.
From Verif Require Import MBuf NodeId.
Import ListNotations.
Local Open Scope Z_scope.

(* node_info.hpp 196-201; device name and description are not used here *)
Record info := Info { i_id : node_id; i_name : chars; i_default : bool; i_selected : bool }.

Definition nptr := option (nat * nat).

(* node_controller_base.hpp 364-376 *)
Record ctrl := Ctrl {
  c_nodes : list info; c_epoch : nat; c_default : nptr; c_selected : nptr; c_str : chars;
  c_min : Z; c_max : Z; c_direct : bool; c_unsel : bool; c_auto : bool }.

Definition STR_CAPACITY : Z := 18.

(* 857-874 *)
Definition ctrl_new : ctrl :=
  Ctrl [] 0 None None (zeros STR_CAPACITY) undefined_index undefined_index false false false.

Definition set_nodes l c := Ctrl l (c_epoch c) (c_default c) (c_selected c) (c_str c) (c_min c) (c_max c)
  (c_direct c) (c_unsel c) (c_auto c).
Definition set_selected p s c := Ctrl (c_nodes c) (c_epoch c) (c_default c) p s (c_min c) (c_max c)
  (c_direct c) (c_unsel c) (c_auto c).
Definition set_default p c := Ctrl (c_nodes c) (c_epoch c) p (c_selected c) (c_str c) (c_min c) (c_max c)
  (c_direct c) (c_unsel c) (c_auto c).
(* 1270-1287: doSetCanDirectlyChangeSelectedNodeFlag, doSetCanUnselectNodeFlag, doSetUseAutoSelectFlag *)
Definition set_flags d u a c := Ctrl (c_nodes c) (c_epoch c) (c_default c) (c_selected c) (c_str c)
  (c_min c) (c_max c) d u a.

(* node_info.cpp 131-186: setPlatformId, setDeviceId, setNodeIndex, setIsDefaultNode, setIsSelectedNode *)
Definition inf_id n i := Info n (i_name i) (i_default i) (i_selected i).
Definition inf_selected b i := Info (i_id i) (i_name i) (i_default i) b.
Definition inf_default b i := Info (i_id i) (i_name i) b (i_selected i).

Fixpoint upd {T} (l : list T) (k : nat) (f : T -> T) : list T :=
  match l, k with
  | [], _ => []
  | x :: r, O => f x :: r
  | x :: r, S k => x :: upd r k f
  end.

(* 23-27: numAvailableNodes *)
Definition num_nodes (c : ctrl) : Z := Z.of_nat (length (c_nodes c)).

Definition node_at (c : ctrl) (i : Z) : option info :=
  if (0 <=? i) && (i <? num_nodes c) then nth_error (c_nodes c) (Z.to_nat i) else None.

(* *p *)
Definition deref (c : ctrl) (p : nat * nat) : option node_id :=
  if Nat.eqb (fst p) (c_epoch c) then option_map i_id (nth_error (c_nodes c) (snd p)) else None.

(* 31-51: hasDefaultNode; 59-74: defaultNodeIndex *)
Definition default_index (c : ctrl) : option Z :=
  match c_default c with
  | None => Some undefined_index
  | Some p => n <- deref c p ;;
      Some (if has_index n && (n_index n <? num_nodes c) then n_index n else undefined_index)
  end.
Definition has_default (c : ctrl) : option bool :=
  match c_default c with
  | None => Some false
  | Some p => n <- deref c p ;; Some (has_index n && (n_index n <? num_nodes c))
  end.

(* 105-111: isNodeAvailable *)
Definition is_available (c : ctrl) (i : Z) : bool :=
  negb (i =? undefined_index) && match node_at c i with Some _ => true | None => false end.

(* 177-182: isDefaultNode *)
Definition is_default (c : ctrl) (i : Z) : option bool :=
  h <- has_default c ;; if h then d <- default_index c ;; Some (d =? i) else Some false.

(* 523-530: selectedNodeIndex; 508-521: hasSelectedNode; 215-221: isSelectedNode *)
Definition selected_index (c : ctrl) : option Z :=
  match c_selected c with
  | None => Some undefined_index
  | Some p => n <- deref c p ;; Some (if has_index n then n_index n else undefined_index)
  end.
Definition has_selected (c : ctrl) : option bool :=
  match c_selected c with
  | None => Some false
  | Some _ => i <- selected_index c ;; Some (i <? num_nodes c)
  end.
Definition is_selected (c : ctrl) (i : Z) : option bool :=
  if i =? undefined_index then Some false else
  h <- has_selected c ;; if h then s <- selected_index c ;; Some (s =? i) else Some false.

(* 441-453: ptrNodeId( index ) *)
Definition node_id_at (c : ctrl) (i : Z) : option node_id := option_map i_id (node_at c i).

(* 538-544: ptrSelectedNodeInfoBase; [Some None] is the null pointer *)
Definition selected_info (c : ctrl) : option (option info) :=
  h <- has_selected c ;; if h then i <- selected_index c ;; Some (node_at c i) else Some None.

(* 546-550: selectedNodeIdStr: the C string in the array *)
Definition selected_str (c : ctrl) : option chars := c_string (c_str c).

(* 946-982: doFindAvailableNodesIndex( platform, device ) *)
Fixpoint find_from (l : list info) (ii p d : Z) : Z :=
  match l with
  | [] => undefined_index
  | x :: r => if (n_platform (i_id x) =? p) && (n_device (i_id x) =? d) then ii else find_from r (ii + 1) p d
  end.
Definition find_index (c : ctrl) (p d : Z) : Z :=
  if negb (p =? illegal_id) && negb (d =? illegal_id) then find_from (c_nodes c) 0 p d else undefined_index.

(* 985-1006: doFindAvailableNodesIndex( string ) *)
Definition find_str (c : ctrl) (s : chars) : option Z :=
  if 0 <? num_nodes c then
    n <- node_of_string s ;;
    Some (if valid n then find_index c (n_platform n) (n_device n) else undefined_index)
  else Some undefined_index.

(* 239-281: availableNodeIndices into an array of [max] entries: the entries it writes and counts *)
Fixpoint indices_from (c : ctrl) (fuel : nat) (ii room : Z) : list Z :=
  match fuel with
  | O => []
  | S f => if (ii <=? c_max c) && negb (ii =? undefined_index) && (0 <? room)
           then if is_available c ii then ii :: indices_from c f (ii + 1) (room - 1)
                else indices_from c f (ii + 1) room
           else []
  end.
Definition available_indices (c : ctrl) (max : Z) : list Z :=
  if 0 <? num_nodes c then indices_from c (S (length (c_nodes c))) (c_min c) max else [].

(* 1318-1371: doSelectNodeNodeControllerBaseImpl, 885-889: doSelectNode; status 0 is success *)
Definition do_select (c : ctrl) (i : Z) : option (Z * ctrl) :=
  h <- has_selected c ;;
  if negb h && negb (i =? undefined_index) && (0 <=? i) && (i <? num_nodes c) then
    match node_at c i with
    | None => Some (-1, c)
    | Some x =>
      '(b, st) <- to_array (i_id x) (Some (firstn 17 (c_str c))) (STR_CAPACITY - 1) ;;
      let s := match b with Some b => b ++ skipn 17 (c_str c) | None => c_str c end in
      if st =? 0 then
        let f y := inf_selected true (inf_id (set_index i (i_id y)) y) in
        Some (0, set_selected (Some (c_epoch c, Z.to_nat i)) s
                   (set_nodes (upd (c_nodes c) (Z.to_nat i) f) c))
      else Some (-1, set_selected (c_selected c) s c)
    end
  else Some (-1, c).

(* 1016-1028: doRemoveNodeFromSelection *)
Definition do_remove (c : ctrl) (i : Z) : option ctrl :=
  b <- is_selected c i ;;
  Some (if b then set_selected None (zeros (Z.of_nat (length (c_str c)))) c else c).

(* 927-944: doUnselectNode *)
Definition do_unselect (c : ctrl) (i : Z) : option (Z * ctrl) :=
  b <- is_selected c i ;;
  if b && c_unsel c then
    c1 <- do_remove c i ;; b1 <- is_selected c1 i ;; Some (if b1 then -1 else 0, c1)
  else Some (-1, c).

(* 647-657, 676-679 *)
Definition can_change (c : ctrl) : bool := c_direct c || c_unsel c.

(* 891-925: doChangeSelectedNode *)
Definition do_change (c : ctrl) (cur new : Z) : option (Z * ctrl) :=
  h <- has_selected c ;; bc <- is_selected c cur ;; bn <- is_selected c new ;;
  if h && negb (cur =? new) && is_available c new && bc && negb bn && can_change c then
    if c_direct c then
      c1 <- do_remove c cur ;; b1 <- is_selected c1 cur ;;
      if negb b1 then do_select c1 new else Some (-1, c1)
    else if c_unsel c then
      s <- selected_index c ;; '(st, c1) <- do_unselect c s ;;
      if st =? 0 then do_select c1 new else Some (st, c1)
    else Some (-1, c)
  else Some (-1, c).

(* 590-614: selectNode( index ) *)
Definition select_node (c : ctrl) (i : Z) : option (Z * ctrl) :=
  h <- has_selected c ;;
  if negb h then do_select c i
  else if can_change c then cur <- selected_index c ;; do_change c cur i else Some (-1, c).

(* 659-672: changeSelectedNode *)
Definition change_node (c : ctrl) (new : Z) : option (Z * ctrl) :=
  cur <- selected_index c ;; do_change c cur new.
Definition change_node_from (c : ctrl) (cur new : Z) : option (Z * ctrl) := do_change c cur new.

(* 681-684: unselectNode(); 686-702: unselectNode( index ) *)
Definition unselect_selected (c : ctrl) : option (Z * ctrl) :=
  i <- selected_index c ;; do_unselect c i.
Definition unselect_node (c : ctrl) (i : Z) : option (Z * ctrl) :=
  d <- is_default c i ;; '(st, c1) <- do_unselect c i ;;
  if (st =? 0) && c_auto c1 && negb d then
    h <- has_default c1 ;;
    if h then k <- default_index c1 ;; do_select c1 k else Some (st, c1)
  else Some (st, c1).

(* 616-643: selectNode by ids and by text *)
Definition select_ids (c : ctrl) (p d : Z) : option (Z * ctrl) := select_node c (find_index c p d).
Definition select_str (c : ctrl) (s : chars) : option (Z * ctrl) := i <- find_str c s ;; select_node c i.

(* 1159-1189: doGetNextPlatformId; ids are below 2^63 - 1 *)
Definition next_platform (l : list info) : Z :=
  fold_left (fun n x => if valid (i_id x) && (n <=? n_platform (i_id x)) then n_platform (i_id x) + 1 else n) l 0.
(* 1191-1229: doGetNextDeviceIdForPlatform *)
Definition next_device (l : list info) (p : Z) : Z :=
  fold_left (fun n x => if valid (i_id x) && (n_platform (i_id x) =? p) &&
                           ((n =? illegal_id) || (n <=? n_device (i_id x)))
                        then n_device (i_id x) + 1 else n) l illegal_id.
(* 1231-1268: doGetPlatformIdByPlatformName; names contain no 0 *)
Definition same_chars (a b : chars) : bool := if list_eq_dec ascii_dec a b then true else false.
Fixpoint platform_by_name (l : list info) (s : chars) : Z :=
  match l with
  | [] => illegal_id
  | x :: r => if valid (i_id x) && same_chars (i_name x) s then n_platform (i_id x) else platform_by_name r s
  end.

(* 1030-1113: doAppendAvailableNodeInfoBase; result: the index of the node or undefined *)
Definition append (c : ctrl) (x : info) : Z * ctrl :=
  let n := i_id x in
  let new :=
    if valid n then
      if find_index c (n_platform n) (n_device n) =? undefined_index then Some x else None
    else
      let named := match i_name x with [] => false | _ => true end in
      let p0 := if named then platform_by_name (c_nodes c) (i_name x) else n_platform n in
      let d0 := if named && negb (p0 =? illegal_id) then next_device (c_nodes c) p0 else n_device n in
      let p := if p0 =? illegal_id then next_platform (c_nodes c) else p0 in
      let d := if p0 =? illegal_id then 0 else d0 in
      if negb (p =? illegal_id) && negb (d =? illegal_id)
      then Some (inf_id (mkNode p d (n_index n)) x) else None in
  match new with
  | Some y =>
    let i := num_nodes c in
    let z := inf_id (set_index i (i_id y)) y in
    (i, Ctrl (c_nodes c ++ [z]) (c_epoch c) (c_default c) (c_selected c) (c_str c)
          (if (c_min c =? undefined_index) || (i <? c_min c) then i else c_min c)
          (if (c_max c =? undefined_index) || (c_max c <? i) then i else c_max c)
          (c_direct c) (c_unsel c) (c_auto c))
  | None => (undefined_index, c)
  end.

(* 1124-1157: doSetDefaultNodeIndex *)
Definition make_default (c : ctrl) (i : Z) : ctrl :=
  if i =? undefined_index then set_default None c else
  match node_at c i with
  | Some x =>
    let f y := inf_default true (if has_index (i_id y) then y else inf_id (set_index i (i_id y)) y) in
    set_default (Some (c_epoch c, Z.to_nat i)) (set_nodes (upd (c_nodes c) (Z.to_nat i) f) c)
  | None => c
  end.

(* 876-883: doClear; 1292-1316: doClearNodeControllerBaseImpl, 1008-1014: doClearAvailableNodes *)
Definition clear (c : ctrl) : option ctrl :=
  h <- has_selected c ;;
  let sel := if h then None else c_selected c in
  Some (Ctrl [] (S (c_epoch c)) (c_default c) sel (c_str c) undefined_index undefined_index
          (c_direct c) (c_unsel c) (c_auto c)).
