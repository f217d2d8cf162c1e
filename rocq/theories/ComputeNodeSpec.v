(* What the text of an OpenCL node id and the description of a node are, without reference to the
   conversion code. The types of ids, descriptions and of the heap are those of the model. *)
From Coq Require Import Ascii String ZArith Bool List.
From Verif Require Import NodeId NodeIdSpec ComputeNode.
Import ListNotations.
Local Open Scope Z_scope.

(* first by platform, then by device *)
Definition before (a b : cnode) : Prop :=
  cn_platform a < cn_platform b \/ (cn_platform a = cn_platform b /\ cn_device a < cn_device b).
(* an id that names a node *)
Definition set_id (a : cnode) : Prop := cn_platform a <> -1 /\ cn_device a <> -1.

(* the names of the architectures *)
Inductive arch_named : Z -> list ascii -> Prop :=
| named_cpu : arch_named 1 (lit "cpu")
| named_opencl : arch_named 2 (lit "opencl")
| named_cuda : arch_named 3 (lit "cuda").

(* "platform.device", "number:platform.device" and "name:platform.device", numbers in decimal *)
Definition plain_text (n : cnode) (t : list ascii) : Prop :=
  exists sp sd, t = sp ++ "."%char :: sd /\ canonical sp (cn_platform n) /\ canonical sd (cn_device n).
Definition id_text (fmt : str_format) (arch : Z) (n : cnode) (t : list ascii) : Prop :=
  match fmt with
  | FmtNoArch => plain_text n t
  | FmtArchId => arch <> 0 /\ arch <> 1023 /\
      exists sa st, t = sa ++ ":"%char :: st /\ canonical sa arch /\ plain_text n st
  | FmtArchStr => exists sa st, t = sa ++ ":"%char :: st /\ arch_named arch sa /\ plain_text n st
  | FmtIllegal | FmtOther => False
  end.

(* the array starts with the text and a NUL *)
Definition array_holds (b : list ascii) (t : list ascii) : Prop :=
  (exists r, b = t ++ nul :: r) /\ ~ In nul t.

(* ---- the heap ---- *)
Definition live (h : heap) (a : nat) : Prop := exists b, nth_error h a = Some (Some b).
Definition the_address (p : ptr) : list nat := match p with Some a => [a] | None => [] end.
Definition owned (i : cinfo) : list nat :=
  the_address (ci_arch i) ++ the_address (ci_platform i) ++ the_address (ci_name i) ++ the_address (ci_description i).
(* the texts of a description are separate live blocks *)
Definition owns (i : cinfo) (h : heap) : Prop := NoDup (owned i) /\ Forall (live h) (owned i).

(* a block of [len] + 1 NULs *)
Definition cleared (h : heap) (p : ptr) (len : Z) : Prop :=
  exists a, p = Some a /\ nth_error h a = Some (Some (repeat (Some nul) (Z.to_nat (len + 1)))).
(* no text for an empty one *)
Definition cleared_or_null (h : heap) (p : ptr) (len : Z) : Prop :=
  (len = 0 /\ p = None) \/ (0 < len /\ cleared h p len).

(* a pointer to a terminated text *)
Definition points_to (h : heap) (p : ptr) (t : list ascii) : Prop :=
  exists a r, p = Some a /\ nth_error h a = Some (Some (map Some t ++ Some nul :: r)).
Definition points_to_opt (h : heap) (p : ptr) (t : option (list ascii)) : Prop :=
  match t with Some t => points_to h p t | None => p = None end.

(* the blocks that existed before and are not among [freed] are as before; what is live now was
   live before and not freed, or belongs to [kept] *)
Definition nothing_else (h h' : heap) (freed kept : list nat) : Prop :=
  (forall a, (a < length h)%nat -> ~ In a freed -> nth_error h' a = nth_error h a) /\
  (forall a, live h' a -> (live h a /\ ~ In a freed) \/ In a kept).

(* a C text: no NUL inside *)
Definition c_text (t : list ascii) : Prop := ~ In nul t.
