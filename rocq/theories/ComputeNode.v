(* Model of the ids and descriptions of OpenCL compute nodes
   (/repo/sixtracklib/common/context/compute_arch.h, compute_arch.c).
   Texts, decimal input and output and snprintf are those of NodeId.v. *)
From Coq Require Import Ascii String ZArith Bool List.
From Verif Require Import NodeId.
Import ListNotations.
Local Open Scope Z_scope.

(* compute_arch.h 24-29: NS(ComputeNodeId), two 64-bit integers. A pointer to one is an option. *)
Record cnode : Set := mkCN { cn_platform : Z; cn_device : Z }.

(* compute_arch.h 288-298: ComputeNodeId_preset *)
Definition cn_preset : cnode := mkCN (-1) (-1).

(* compute_arch.h 300-312: ComputeNodeId_get_platform_id, ComputeNodeId_get_device_id *)
Definition cn_get_platform (p : option cnode) : Z :=
  match p with Some n => cn_platform n | None => -1 end.
Definition cn_get_device (p : option cnode) : Z :=
  match p with Some n => cn_device n | None => -1 end.

(* compute_arch.h 331-337: ComputeNodeId_is_valid *)
Definition cn_valid (p : option cnode) : bool :=
  match p with
  | Some n => negb (cn_platform n =? -1) && negb (cn_device n =? -1)
  | None => false
  end.

(* compute_arch.h 339-383: ComputeNodeId_compare *)
Definition cn_compare (l r : option cnode) : Z :=
  if cn_valid l && cn_valid r
  then if cn_get_platform l =? cn_get_platform r
       then if cn_get_device l =? cn_get_device r then 0
            else if cn_get_device r <? cn_get_device l then 1 else -1
       else if cn_get_platform r <? cn_get_platform l then 1 else -1
  else if cn_valid l then 1 else -1.

(* compute_arch.h 385-390: ComputeNodeId_are_equal *)
Definition cn_are_equal (l r : option cnode) : bool := cn_compare l r =? 0.

(* compute_arch.h 273-279: operator< *)
Definition cn_lt (a b : cnode) : bool :=
  (cn_platform a <? cn_platform b)
  || ((cn_platform a =? cn_platform b) && (cn_device a <? cn_device b)).

(* ---- the conversions of sscanf ---- *)
(* %d: as %lld; a value outside the range of int is undefined behaviour (C11 7.21.6.2, 10) *)
Definition scan_d (s : chars) : scan :=
  match scan_lld s with
  | Scanned z rest => if (- 2 ^ 31 <=? z) && (z <? 2 ^ 31) then Scanned z rest else Unrepresentable
  | other => other
  end.

(* %llu: white space, optional sign, digits; a minus sign negates modulo 2^64 *)
Definition scan_llu (s : chars) : scan :=
  let s1 := skip_space s in
  let '(neg, s2) := match s1 with
                    | "-"%char :: t => (true, t)
                    | "+"%char :: t => (false, t)
                    | _ => (false, s1)
                    end in
  match s2 with
  | a :: _ =>
      if is_digit a
      then let '(v, rest) := read_digits s2 0 in
           if v <? 2 ^ 64 then Scanned (if neg then (- v) mod 2 ^ 64 else v) rest
           else Unrepresentable
      else NoMatch
  | [] => NoMatch
  end.

(* %N[^:]: up to N characters other than the colon *)
Fixpoint span_name (n : nat) (s : chars) : chars * chars :=
  match n, s with
  | S m, a :: s' => if Ascii.eqb a ":" then ([], s)
                    else let '(w, r) := span_name m s' in (a :: w, r)
  | _, _ => ([], s)
  end.

(* "%d.%d"; the outer None is undefined behaviour, the inner one fewer than two conversions *)
Definition scan_pair (s : chars) : option (option (Z * Z)) :=
  match scan_d s with
  | Unrepresentable => None
  | NoMatch => Some None
  | Scanned p rest =>
      match rest with
      | "."%char :: rest' =>
          match scan_d rest' with
          | Unrepresentable => None
          | NoMatch => Some None
          | Scanned d _ => Some (Some (p, d))
          end
      | _ => Some None
      end
  end.

(* compute_arch.c 135-157: the architecture of a name; strncmp over 31 characters of two
   NUL-terminated texts of at most 31 characters is equality *)
Definition text_eqb (s t : chars) : bool := if list_eq_dec ascii_dec s t then true else false.
Definition arch_of_name (s : chars) : Z :=
  if text_eqb s (lit "cpu") then 1
  else if text_eqb s (lit "opencl") then 2
  else if text_eqb s (lit "cuda") then 3
  else arch_illegal.

(* compute_arch.c 98-159: the three formats; result: architecture, platform, device *)
Definition scan_id (fmt : str_format) (s : chars) : option (option (Z * Z * Z)) :=
  match fmt with
  | FmtNoArch =>
      match scan_pair s with
      | None => None
      | Some None => Some None
      | Some (Some (p, d)) => Some (Some (arch_illegal, p, d))
      end
  | FmtArchId =>
      match scan_llu s with
      | Unrepresentable => None
      | NoMatch => Some None
      | Scanned a rest =>
          match rest with
          | ":"%char :: rest' =>
              match scan_pair rest' with
              | None => None
              | Some None => Some None
              | Some (Some (p, d)) => Some (Some (a, p, d))
              end
          | _ => Some None
          end
      end
  | FmtArchStr =>
      match span_name 31 s with
      | ([], _) => Some None
      | (name, ":"%char :: rest') =>
          match scan_pair rest' with
          | None => None
          | Some None => Some None
          | Some (Some (p, d)) => Some (Some (arch_of_name name, p, d))
          end
      | _ => Some None
      end
  | FmtIllegal | FmtOther => Some None
  end.

(* compute_arch.c 85-177: ComputeNodeId_from_string_with_format. A null pointer is None; the
   result holds the id, the architecture and the status. The outer None is undefined behaviour
   of sscanf. *)
Definition cn_from_string (id : option cnode) (s : option chars) (fmt : str_format)
    (parch : option Z) : option (option cnode * option Z * Z) :=
  match s, id with
  | Some (a :: s'), Some _ =>
      match scan_id fmt (a :: s') with
      | None => None
      | Some (Some (arch, p, d)) =>
          if (0 <=? p) && (0 <=? d)
          then Some (Some (mkCN p d),
                     match parch with Some _ => Some arch | None => None end, 0)
          else Some (id, parch, -1)
      | Some None => Some (id, parch, -1)
      end
  | _, _ => Some (id, parch, -1)
  end.

(* compute_arch.c 211-213, 225-228, 261-264: the printed texts; (unsigned) keeps 32 bits *)
Definition cn_text (n : cnode) : chars :=
  print_nat (cn_platform n mod 2 ^ 32) ++ "."%char :: print_nat (cn_device n mod 2 ^ 32).

(* compute_arch.c 189-275: ComputeNodeId_to_string_with_format. The array holds [cap] characters;
   snprintf returns the length of the whole text. The architecture id is 64 bits wide. *)
Definition cn_to_string (id : option cnode) (buf : option chars) (cap arch : Z) (fmt : str_format)
    : option chars * Z :=
  match id, buf with
  | Some n, Some _ =>
      if cn_valid id && (0 <? cap) && match fmt with FmtIllegal => false | _ => true end
      then
        let legal := negb (arch =? arch_illegal) && negb (arch =? 0) in
        let out := match fmt with
                   | FmtNoArch => Some (cn_text n)
                   | FmtArchId => if legal then Some (print_nat arch ++ ":"%char :: cn_text n) else None
                   | FmtArchStr => if legal then Some (arch_name arch ++ ":"%char :: cn_text n) else None
                   | _ => None
                   end in
        match out with
        | Some s => (Some (snprintf (zeros cap) cap s),
                     if Z.of_nat (length s) <? cap then 0 else -1)
        | None => (Some (zeros cap), -1)
        end
      else (buf, -1)
  | _, _ => (buf, -1)
  end.

(* compute_arch.c 77-83: ComputeNodeId_from_string; 179-187: ComputeNodeId_to_string *)
Definition cn_from_text (id : option cnode) (s : option chars) : option (option cnode * Z) :=
  match cn_from_string id s FmtNoArch None with
  | Some (i, _, st) => Some (i, st)
  | None => None
  end.
Definition cn_to_text (id : option cnode) (buf : option chars) (cap : Z) : option chars * Z :=
  cn_to_string id buf cap 0 FmtNoArch.

(* ---- the C heap: blocks of characters ---- *)
(* a block is a list of characters, None standing for an indeterminate one; a freed block is None;
   an address is the number of the block. [malloc] takes its outcome from an argument. *)
Notation block := (list (option ascii)).
Notation heap := (list (option block)).
Notation ptr := (option nat).

Definition malloc (ok : bool) (size : Z) (h : heap) : ptr * heap :=
  if ok then (Some (length h), h ++ [Some (repeat None (Z.to_nat size))]) else (None, h).

Fixpoint set_nth {A} (n : nat) (x : A) (l : list A) : list A :=
  match l, n with
  | [], _ => []
  | _ :: t, O => x :: t
  | y :: t, S m => y :: set_nth m x t
  end.

(* free( NULL ) does nothing; freeing anything but a live block is undefined *)
Definition c_free (p : ptr) (h : heap) : option heap :=
  match p with
  | None => Some h
  | Some a => match nth_error h a with
              | Some (Some _) => Some (set_nth a None h)
              | _ => None
              end
  end.

(* writing [s] at the start of a block *)
Definition store (p : ptr) (s : block) (h : heap) : option heap :=
  match p with
  | Some a => match nth_error h a with
              | Some (Some b) => if (length s <=? length b)%nat
                                 then Some (set_nth a (Some (s ++ skipn (length s) b)) h) else None
              | _ => None
              end
  | None => None
  end.
Definition memset0 (p : ptr) (size : Z) : heap -> option heap :=
  store p (repeat (Some nul) (Z.to_nat size)).
(* strncpy( p, s, strlen( s ) ): the characters without a terminating NUL *)
Definition strncpy (p : ptr) (s : chars) : heap -> option heap := store p (map Some s).

(* the C string at the start of a block: None when it is not terminated inside the block or
   contains an indeterminate character *)
Fixpoint block_string (b : block) : option chars :=
  match b with
  | Some a :: b' => if Ascii.eqb a nul then Some [] else option_map (cons a) (block_string b')
  | _ => None
  end.
Definition read_string (p : ptr) (h : heap) : option chars :=
  match p with
  | Some a => match nth_error h a with Some (Some b) => block_string b | _ => None end
  | None => None
  end.

(* compute_arch.h 137-145: NS(ComputeNodeInfo) *)
Record cinfo : Set := mkCI { ci_id : cnode; ci_arch : ptr; ci_platform : ptr; ci_name : ptr; ci_description : ptr }.

(* compute_arch.h 394-407: ComputeNodeInfo_preset *)
Definition ci_preset : cinfo := mkCI cn_preset None None None None.

Definition obind {A B} (o : option A) (f : A -> option B) : option B :=
  match o with Some a => f a | None => None end.

(* compute_arch.c 337-346: ComputeNodeInfo_free *)
Definition ci_free (i : cinfo) (h : heap) : option (cinfo * heap) :=
  obind (c_free (ci_arch i) h) (fun h =>
  obind (c_free (ci_platform i) h) (fun h =>
  obind (c_free (ci_name i) h) (fun h =>
  obind (c_free (ci_description i) h) (fun h =>
  Some (ci_preset, h))))).

Definition size64 (len : Z) : Z := (len + 1) mod 2 ^ 64.
Definition is_null (p : ptr) : bool := match p with None => true | Some _ => false end.

(* outcomes of the (up to) four calls of malloc *)
Record outcomes : Set := mkO { o_arch : bool; o_name : bool; o_platform : bool; o_description : bool }.

(* compute_arch.c 376-387 and 389-400: an optional text *)
Definition alloc_opt (ok : bool) (len : Z) (h : heap) : option (ptr * heap) :=
  if 0 <? len
  then let '(p, h) := malloc ok (size64 len) h in
       match p with
       | Some _ => obind (memset0 p (size64 len) h) (fun h => Some (p, h))
       | None => Some (None, h)
       end
  else Some (None, h).

(* compute_arch.c 355-435: ComputeNodeInfo_reserve (node_info not null); true: the pointer is
   returned, false: null *)
Definition ci_reserve (o : outcomes) (i : cinfo) (arch_len platform_len name_len description_len : Z)
    (h : heap) : option (bool * cinfo * heap) :=
  if (0 <? arch_len) && (0 <? name_len)
  then
    let '(arch, h) := malloc (o_arch o) (size64 arch_len) h in
    let '(name, h) := malloc (o_name o) (size64 name_len) h in
    obind (alloc_opt (o_platform o) platform_len h) (fun '(platform, h) =>
    obind (alloc_opt (o_description o) description_len h) (fun '(description, h) =>
    if negb (is_null arch) && negb (is_null name)
       && ((platform_len =? 0) || negb (is_null platform))
       && ((description_len =? 0) || negb (is_null description))
    then
      obind (ci_free i h) (fun '(i, h) =>
      obind (memset0 arch (size64 arch_len) h) (fun h =>
      obind (memset0 name (size64 name_len) h) (fun h =>
      Some (true, mkCI (ci_id i) arch platform name description, h))))
    else
      obind (c_free arch h) (fun h =>
      obind (c_free name h) (fun h =>
      obind (c_free platform h) (fun h =>
      obind (c_free description h) (fun h =>
      Some (false, i, h)))))))
  else Some (false, i, h).

Definition len_of (s : option chars) : Z := match s with Some s => Z.of_nat (length s) | None => 0 end.
Definition text_of (s : option chars) : chars := match s with Some s => s | None => [] end.

(* compute_arch.c 476-492: the four texts are copied *)
Definition ci_copy (i : cinfo) (arch platform name description : option chars) (h : heap) : option heap :=
  obind (strncpy (ci_arch i) (text_of arch) h) (fun h =>
  obind (strncpy (ci_name i) (text_of name) h) (fun h =>
  obind (if 0 <? len_of platform then strncpy (ci_platform i) (text_of platform) h else Some h) (fun h =>
  if 0 <? len_of description then strncpy (ci_description i) (text_of description) h else Some h))).

(* compute_arch.c 437-500: ComputeNodeInfo_make; a null text is None. The lengths of the platform
   and of the name are passed to reserve in the wrong order, as in the code (459-460). *)
Definition ci_make (o : outcomes) (i : cinfo) (id : cnode) (arch platform name description : option chars)
    (h : heap) : option (Z * cinfo * heap) :=
  if (0 <? len_of arch) && (0 <? len_of name)
     && ((0 <? len_of platform) || match platform with None => true | Some _ => false end)
     && ((0 <? len_of description) || match description with None => true | Some _ => false end)
  then
    obind (ci_reserve o i (len_of arch) (len_of name) (len_of platform) (len_of description) h) (fun '(ok, i, h) =>
    if ok : bool
    then obind (ci_copy i arch platform name description h) (fun h =>
         Some (0, mkCI id (ci_arch i) (ci_platform i) (ci_name i) (ci_description i), h))
    else Some (-1, i, h))
  else Some (-1, i, h).

(* opencl/internal/base_context.cpp 2575-2600: the description of an OpenCL device; texts are
   std::strings. The reserved lengths are in the right order here. *)
Definition ci_fill (o : outcomes) (i : cinfo) (id : cnode) (arch platform name description : chars)
    (h : heap) : option (cinfo * heap) :=
  obind (ci_reserve o i (len_of (Some arch)) (len_of (Some platform)) (len_of (Some name))
                    (len_of (Some description)) h) (fun '(ok, i, h) =>
  if ok : bool
  then obind (ci_copy (mkCI id (ci_arch i) (ci_platform i) (ci_name i) (ci_description i))
                      (Some arch) (Some platform) (Some name) (Some description) h) (fun h =>
       Some (mkCI id (ci_arch i) (ci_platform i) (ci_name i) (ci_description i), h))
  else Some (i, h)).

(* compute_arch.h 409-425: ComputeNodeInfo_is_valid; None: strlen of a text that is not terminated *)
Definition nonempty (p : ptr) (h : heap) : option bool :=
  option_map (fun s => 0 <? Z.of_nat (length s)) (read_string p h).
Definition oand (a : option bool) (b : unit -> option bool) : option bool :=
  match a with Some true => b tt | other => other end.
Definition ci_valid (i : cinfo) (h : heap) : option bool :=
  oand (Some (cn_valid (Some (ci_id i)))) (fun _ =>
  oand (Some (negb (is_null (ci_arch i)))) (fun _ =>
  oand (nonempty (ci_arch i) h) (fun _ =>
  oand (Some (negb (is_null (ci_name i)))) (fun _ =>
  oand (nonempty (ci_name i) h) (fun _ =>
  oand (if is_null (ci_platform i) then Some true else nonempty (ci_platform i) h) (fun _ =>
  if is_null (ci_description i) then Some true else nonempty (ci_description i) h)))))).

(* ---- printing ---- *)
(* printf %-10s *)
Definition pad10 (s : chars) : chars := s ++ repeat " "%char (10 - length s).
Definition crlf : chars := [ascii_of_nat 13; ascii_of_nat 10].
Definition print_field (p : ptr) (h : heap) : option chars :=
  match p with
  | Some _ => option_map pad10 (read_string p h)
  | None => Some (lit "n/a")
  end.

(* compute_arch.c 504-564: ComputeNodeInfo_print, as the text written. The id is printed into 16
   characters; when it does not fit, the first 15 of its text are used. *)
Definition id_str (n : cnode) : chars :=
  match fst (cn_to_text (Some n) (Some (zeros 16)) 16) with
  | Some b => match c_string b with Some s => s | None => [] end
  | None => []
  end.
Definition ci_text (i : cinfo) (default : option cnode) (h : heap) : option chars :=
  obind (print_field (ci_arch i) h) (fun a =>
  obind (print_field (ci_platform i) h) (fun p =>
  obind (print_field (ci_name i) h) (fun n =>
  Some (lit "Device ID Str  : " ++ pad10 (id_str (ci_id i))
        ++ (match default with
            | Some d => if cn_are_equal (Some (ci_id i)) (Some d) then lit " [DEFAULT]" else []
            | None => []
            end)
        ++ crlf ++ lit "Architecture   : " ++ a
        ++ crlf ++ lit "Platform       : " ++ p
        ++ crlf ++ lit "Name           : " ++ n ++ crlf)))).

(* compute_arch.c 573-625: ComputeNodeInfo_print_to_str. [io]: tmpfile, fseek and fread succeed.
   The text is read back into the array of [cap] characters. *)
Definition ci_print_to_str (io : bool) (buf : chars) (cap : Z) (i : cinfo) (default : option cnode) (h : heap)
    : option (chars * Z) :=
  if 0 <? cap
  then if io
       then obind (ci_text i default h) (fun s =>
            if (0 <? Z.of_nat (length s)) && (Z.of_nat (length s) <=? cap)
            then Some (s ++ skipn (length s) (zeros cap), 0)
            else Some (zeros cap, -1))
       else Some (zeros cap, -1)
  else Some (buf, -1).
