(* What the list of OpenCL nodes is and what a list of ids in the environment means, without
   reference to the code that builds and reads them. *)
From Coq Require Import Ascii String ZArith Bool List Sorting.Sorted.
From Verif Require Import NodeId NodeIdSpec ComputeNode ComputeNodeSpec OclNodes.
Import ListNotations.
Local Open Scope Z_scope.

(* increasing by platform and device, each id once *)
Definition increasing (l : list cnode) : Prop := StronglySorted before l.

Definition has_devices (p : platform) : bool := match pl_devices p with [] => false | _ :: _ => true end.

(* device number [d] of the platform number [p], counting from 0 the platforms with devices *)
Definition is_node (ps : list platform) (nd : node) : Prop :=
  exists k j p, nd_id nd = mkCN (Z.of_nat k) (Z.of_nat j) /\
    nth_error (filter has_devices ps) k = Some p /\
    nth_error (pl_devices p) j = Some (nd_device nd) /\ nd_platform nd = pl_name p.

(* ---- the text ---- *)
Definition separator (a : ascii) : Prop := a = ","%char \/ a = ";"%char.
Definition blank (a : ascii) : Prop := In (Z.of_N (N_of_ascii a)) [9; 10; 11; 12; 13; 32].

(* a maximal part of the text without separators *)
Definition part_of (t e : list ascii) : Prop :=
  exists a b, t = a ++ e ++ b /\ Forall (fun c => ~ separator c) e /\
    (a = [] \/ exists a' c, a = a' ++ [c] /\ separator c) /\
    (b = [] \/ exists c b', b = c :: b' /\ separator c).

(* the part begins with an id: blanks, the name or the number of the architecture or neither, and
   two numbers joined by a dot; anything may follow but a further digit *)
Definition begins_with (e : list ascii) (n : cnode) : Prop :=
  exists bl pre sp sd r, e = bl ++ pre ++ sp ++ "."%char :: sd ++ r /\ Forall blank bl /\
    In pre [[]; lit "opencl:"; lit "2:"] /\
    denotes sp (cn_platform n) /\ denotes sd (cn_device n) /\
    (forall c r', r = c :: r' -> ~ exists k, digit_of c k).

(* the ids of a text, and texts whose numbers fit into an int *)
Definition lists_id (t : list ascii) (n : cnode) : Prop := exists e, part_of t e /\ begins_with e n.
Definition int_ids (t : list ascii) : Prop :=
  forall n, lists_id t n -> cn_platform n < 2 ^ 31 /\ cn_device n < 2 ^ 31.

(* ---- the descriptions ---- *)
Definition owned_all (is : list cinfo) : list nat := concat (map owned is).
Definition owns_all (is : list cinfo) (h : heap) : Prop := NoDup (owned_all is) /\ Forall (live h) (owned_all is).

(* texts as OpenCL returns them: without NUL, shorter than the address space *)
Definition device_text (t : list ascii) : Prop := c_text t /\ Z.of_nat (length t) < 2 ^ 64 - 1.
Definition proper (ps : list platform) : Prop :=
  Forall (fun p => device_text (pl_name p) /\
    Forall (fun d => device_text (dv_name d) /\ device_text (dv_description d)) (pl_devices p)) ps.

(* the description of a node: its id and its texts, or nothing *)
Definition describes (h : heap) (nd : node) (i : cinfo) : Prop :=
  ci_id i = nd_id nd /\ read_string (ci_arch i) h = Some (lit "opencl") /\
  read_string (ci_name i) h = Some (dv_name (nd_device nd)) /\
  (if list_eq_dec ascii_dec (nd_platform nd) [] then ci_platform i = None
   else read_string (ci_platform i) h = Some (nd_platform nd)) /\
  (if list_eq_dec ascii_dec (dv_description (nd_device nd)) [] then ci_description i = None
   else read_string (ci_description i) h = Some (dv_description (nd_device nd))).
Definition no_memory (o : outcomes) : Prop :=
  o_arch o = false \/ o_name o = false \/ o_platform o = false \/ o_description o = false.
(* without memory for it, or without a name of the device, the description stays empty *)
Definition described (h : heap) (os : nat -> outcomes) (nd : node) (i : cinfo) : Prop :=
  describes h nd i \/
  (i = ci_preset /\ (dv_name (nd_device nd) = [] \/ exists k, no_memory (os k))).

(* ---- the choice of nodes ---- *)
(* the value of the named variable, or of SIXTRACKLIB_DEVICES without a name *)
Definition the_value (env : list ascii -> option (list ascii)) (name : option (list ascii)) : option (list ascii) :=
  match name with
  | Some (a :: v) => env (a :: v)
  | Some [] | None => env (lit "SIXTRACKLIB_DEVICES")
  end.
(* a value that is neither empty nor one of the two words is a list of ids *)
Definition a_list (v : option (list ascii)) (t : list ascii) : Prop :=
  v = Some t /\ t <> [] /\ t <> lit "first" /\ t <> lit "all".
Definition chosen (v : option (list ascii)) (n : cnode) : Prop :=
  match v with
  | None | Some [] => True
  | Some t => t = lit "all" \/ (t = lit "first" /\ n = mkCN 0 0) \/
              (t <> lit "all" /\ t <> lit "first" /\ lists_id t n)
  end.
