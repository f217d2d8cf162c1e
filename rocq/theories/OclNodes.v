(* Model of the list of OpenCL nodes and of its restriction by an environment variable
   (/repo/sixtracklib/opencl/internal/base_context.cpp, base_context.h). Ids, descriptions and the
   heap are those of ComputeNode.v. *)
From Coq Require Import Ascii String ZArith Bool List.
From Verif Require Import NodeId ComputeNode.
Import ListNotations.
Local Open Scope Z_scope.

(* what the OpenCL installation reports: platforms in order, each with its devices in order; a
   platform whose getDevices fails has none. Arguments of the model. *)
Record device : Set := mkDev { dv_name : chars; dv_description : chars }.
Record platform : Set := mkPlat { pl_name : chars; pl_devices : list device }.
Record node : Set := mkNd { nd_id : cnode; nd_platform : chars; nd_device : device }.

(* base_context.cpp 2536-2603: the devices of one platform get the device ids 0, 1, ... *)
Fixpoint number (k j : Z) (name : chars) (ds : list device) : list node :=
  match ds with
  | [] => []
  | d :: ds' => mkNd (mkCN k j) name d :: number k (j + 1) name ds'
  end.

(* base_context.cpp 2469-2609: GetAllAvailableNodes, ids and devices. The platform id is
   incremented only behind a platform with a device (2605). *)
Fixpoint all_nodes (k : Z) (ps : list platform) : list node :=
  match ps with
  | [] => []
  | p :: ps' => number k 0 (pl_name p) (pl_devices p)
                ++ all_nodes (match pl_devices p with [] => k | _ :: _ => k + 1 end) ps'
  end.

(* base_context.cpp 2559-2602: the descriptions, one for each node; [os] holds the outcomes of the
   allocations. None is undefined behaviour. *)
Fixpoint fill_all (os : nat -> outcomes) (n : nat) (ns : list node) (h : heap) : option (list cinfo * heap) :=
  match ns with
  | [] => Some ([], h)
  | nd :: ns' =>
      obind (ci_fill (os n) ci_preset (nd_id nd) (lit "opencl") (nd_platform nd)
                     (dv_name (nd_device nd)) (dv_description (nd_device nd)) h) (fun '(i, h) =>
      obind (fill_all os (S n) ns' h) (fun '(is, h) => Some (i :: is, h)))
  end.

(* ---- the list of ids in the environment variable ---- *)
Definition is_sep (a : ascii) : bool := Ascii.eqb a "," || Ascii.eqb a ";".

Fixpoint strip (p s : chars) : option chars :=
  match p, s with
  | [], _ => Some s
  | a :: p', b :: s' => if Ascii.eqb a b then strip p' s' else None
  | _ :: _, [] => None
  end.

(* (\d+\.\d+): the text matched and what follows it *)
Definition pair_text (s : chars) : option (chars * chars) :=
  let '(d1, r1) := span_digits s in
  match d1, r1 with
  | _ :: _, "."%char :: r2 =>
      let '(d2, r3) := span_digits r2 in
      match d2 with
      | _ :: _ => Some (d1 ++ "."%char :: d2, r3)
      | [] => None
      end
  | _, _ => None
  end.

Definition orelse {A} (a b : option A) : option A := match a with Some _ => a | None => b end.

(* (opencl\:|2\:)?(\d+\.\d+): with the prefix if that matches, otherwise without *)
Definition entry (s : chars) : option (chars * chars) :=
  orelse (obind (strip (lit "opencl:") s) pair_text)
         (orelse (obind (strip (lit "2:") s) pair_text) (pair_text s)).

(* base_context.cpp 2413-2414: the regular expression tried at one position; [start]: the position
   is the beginning of the text. \s* takes all white space: an id does not start with it. *)
Definition match_here (start : bool) (s : chars) : option (chars * chars) :=
  orelse (if start then entry (skip_space s) else None)
         (match skip_space s with
          | c :: s' => if is_sep c then entry (skip_space s') else None
          | [] => None
          end).

(* base_context.cpp 2416-2433: cregex_iterator: the leftmost match, then the search goes on behind
   it. [skip]: characters that belong to the last match. *)
Fixpoint ids_in (skip : nat) (start : bool) (s : chars) : list chars :=
  match s with
  | [] => []
  | _ :: s' =>
      match skip with
      | S k => ids_in k false s'
      | O => match match_here start s with
             | Some (t, r) => t :: ids_in (length s' - length r) false s'
             | None => ids_in O false s'
             end
      end
  end.

(* base_context.cpp 2423-2433: an id that cannot be read is left out; None: a number outside the
   range of int, undefined behaviour of sscanf *)
Fixpoint read_ids (ts : list chars) : option (list cnode) :=
  match ts with
  | [] => Some []
  | t :: ts' =>
      obind (cn_from_text (Some cn_preset) (Some t)) (fun '(id, st) =>
      obind (read_ids ts') (fun l =>
      match id with
      | Some n => if st =? 0 then Some (n :: l) else Some l
      | None => Some l
      end))
  end.

(* std::sort with the order by platform and device (2437-2451). Ids that are equivalent in this
   order are equal, so that the contract of std::sort determines the result. *)
Fixpoint insert_id (n : cnode) (l : list cnode) : list cnode :=
  match l with
  | [] => [n]
  | m :: l' => if cn_lt m n then m :: insert_id n l' else n :: l
  end.
Fixpoint sort_ids (l : list cnode) : list cnode :=
  match l with
  | [] => []
  | n :: l' => insert_id n (sort_ids l')
  end.

(* std::unique and erase (2453-2459): of neighbours that are equal the first is kept *)
Fixpoint unique_from (n : cnode) (l : list cnode) : list cnode :=
  match l with
  | [] => [n]
  | m :: l' => if cn_are_equal (Some n) (Some m) then unique_from n l' else n :: unique_from m l'
  end.
Definition unique_ids (l : list cnode) : list cnode :=
  match l with [] => [] | n :: l' => unique_from n l' end.

Definition default_var : chars := lit "SIXTRACKLIB_DEVICES".

(* base_context.cpp 2392-2467: GetAllowedNodesFromEnvVariable; [env] is getenv, a null name None *)
Definition allowed_nodes (env : chars -> option chars) (name : option chars) : option (list cnode) :=
  match env (match name with Some v => v | None => default_var end) with
  | Some (a :: t) => obind (read_ids (ids_in O true (a :: t))) (fun l => Some (unique_ids (sort_ids l)))
  | _ => Some []
  end.

(* std::binary_search in a sorted range (2730-2731): an equivalent element exists *)
Definition found (l : list cnode) (n : cnode) : bool :=
  existsb (fun m => negb (cn_lt m n) && negb (cn_lt n m)) l.

(* base_context.cpp 2724-2751: the nodes whose id is found; with [want] their descriptions are
   handed over and reset in the list of all nodes *)
Fixpoint pick (want : bool) (l : list cnode) (ns : list node) (is : list cinfo)
    : list node * list cinfo * list cinfo :=
  match ns, is with
  | nd :: ns', i :: is' =>
      let '(ns1, out, rest) := pick want l ns' is' in
      if found l (nd_id nd)
      then if want then (nd :: ns1, i :: out, ci_preset :: rest) else (nd :: ns1, out, i :: rest)
      else (ns1, out, i :: rest)
  | _, _ => ([], [], is)
  end.

(* base_context.cpp 2802-2808 *)
Fixpoint free_all (is : list cinfo) (h : heap) : option heap :=
  match is with
  | [] => Some h
  | i :: is' => obind (ci_free i h) (fun '(_, h) => free_all is' h)
  end.

(* what a selection returns: nodes (ids and devices), descriptions, and whether the vector of
   descriptions has storage (reserve with a positive number, 2696-2697) *)
Record selection : Set := mkSel { sel_nodes : list node; sel_infos : list cinfo; sel_storage : bool }.

(* base_context.cpp 2611-2811: GetAvailableNodes. [want]: the vector of descriptions is not null
   (it is empty without storage before the call). The filter string is ignored by the code (2620).
   None is undefined behaviour. *)
Definition get_available (env : chars -> option chars) (name : option chars) (os : nat -> outcomes)
    (ps : list platform) (want : bool) (h : heap) : option (selection * heap) :=
  let var := match name with
             | Some (a :: v) => env (a :: v)
             | _ => env default_var
             end in
  let ns := all_nodes 0 ps in
  obind (fill_all os 0 ns h) (fun '(is, h) =>
  match ns with
  | [] => Some (mkSel [] [] false, h)
  | n0 :: _ =>
      let all := if want then Some (mkSel ns is true, h)
                 else obind (free_all is h) (fun h => Some (mkSel ns [] false, h)) in
      match var with
      | Some (a :: t) =>
          if text_eqb (a :: t) (lit "first")
          then match is with
               | i0 :: is' =>
                   obind (free_all ((if want then ci_preset else i0) :: is') h) (fun h =>
                   Some (mkSel [n0] (if want then [i0] else []) want, h))
               | [] => None
               end
          else if text_eqb (a :: t) (lit "all") then all
          else
            obind (allowed_nodes env name) (fun l =>
            match l with
            | [] => obind (free_all is h) (fun h => Some (mkSel [] [] false, h))
            | _ :: _ =>
                let '(sel, out, rest) := pick want l ns is in
                obind (free_all rest h) (fun h => Some (mkSel sel out want, h))
            end)
      | _ => all
      end
  end).

(* base_context.h 277-294: NUM_AVAILABLE_NODES *)
Definition num_available (env : chars -> option chars) (name : option chars) (os : nat -> outcomes)
    (ps : list platform) (h : heap) : option (Z * heap) :=
  obind (get_available env name os ps false h) (fun '(s, h) => Some (Z.of_nat (length (sel_nodes s)), h)).

(* base_context.h 296-350: GET_AVAILABLE_NODES; the array [out] has room for [max] ids *)
Definition get_page (env : chars -> option chars) (name : option chars) (os : nat -> outcomes)
    (ps : list platform) (out : option (list cnode)) (max skip : Z) (h : heap)
    : option (Z * option (list cnode) * heap) :=
  match out with
  | Some o =>
      if 0 <? max
      then obind (get_available env name os ps false h) (fun '(s, h) =>
           let ids := map nd_id (sel_nodes s) in
           let total := Z.of_nat (length ids) in
           let left := if skip <=? total then total - skip else 0 in
           let n := if max <? left then max else left in
           Some (n, Some (if 0 <? n
                          then firstn (Z.to_nat n) (skipn (Z.to_nat skip) ids) ++ skipn (Z.to_nat n) o
                          else o), h))
      else Some (0, out, h)
  | None => Some (0, out, h)
  end.

(* ---- looking a node up in a context ---- *)
(* base_context.cpp 2855-2883: findAvailableNodesIndex; the number of nodes when there is none *)
Fixpoint find_from (ids : list cnode) (p d : Z) : Z :=
  match ids with
  | [] => 0
  | n :: ids' => if (p =? cn_platform n) && (d =? cn_device n) then 0 else 1 + find_from ids' p d
  end.
Definition find_index (ids : list cnode) (p d : Z) : Z :=
  if (0 <=? p) && (0 <=? d) then find_from ids p d else Z.of_nat (length ids).

(* base_context.cpp 2885-2905: findAvailableNodesIndex of a text; None: undefined behaviour of sscanf *)
Definition find_text (ids : list cnode) (t : option chars) : option Z :=
  match t with
  | Some s =>
      if 3 <=? Z.of_nat (length s)
      then match scan_pair s with
           | None => None
           | Some (Some (p, d)) => Some (find_index ids p d)
           | Some None => Some (Z.of_nat (length ids))
           end
      else Some (Z.of_nat (length ids))
  | None => Some (Z.of_nat (length ids))
  end.

(* base_context.cpp 517-536: isNodeIdAvailable *)
Definition id_available (ids : list cnode) (n : cnode) : bool :=
  find_index ids (cn_platform n) (cn_device n) <? Z.of_nat (length ids).

(* base_context.cpp 490-509: defaultNodeInfo and defaultNodeId. The first description is read
   whenever the vector has storage; without an element there (None) that is undefined. *)
Definition default_id (s : selection) : option cnode :=
  match sel_infos s with
  | i :: _ => Some (ci_id i)
  | [] => if sel_storage s then None else Some cn_preset
  end.

(* base_context.cpp 581-586: ptrAvailableNodesId; 561-568: isDefaultNode by index *)
Definition is_default_index (s : selection) (k : Z) : option bool :=
  obind (default_id s) (fun d =>
  let p := if (0 <=? k) && (k <? Z.of_nat (length (sel_nodes s)))
           then nth_error (map nd_id (sel_nodes s)) (Z.to_nat k) else None in
  Some (cn_are_equal p (Some d))).
