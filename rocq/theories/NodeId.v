(* Model of node ids and their conversion to and from text
   (/repo/sixtracklib/common/control/node_id.cpp, node_id.hpp, node_id_c99.cpp).
   A C string is a list of characters without the terminating NUL; a character array of a given
   capacity is a list of that length which may contain NULs. *)
From Coq Require Import Ascii String ZArith Bool List.
Import ListNotations.
Local Open Scope Z_scope.

Notation chars := (list ascii).
Definition lit (s : string) : chars := list_ascii_of_string s.

Record node_id : Set := mkNode { n_platform : Z; n_device : Z; n_index : Z }.

(* control/definitions.h 267-274: the illegal ids are -1, the undefined index is 0xFFFFFFFF *)
Definition illegal_id : Z := -1.
Definition undefined_index : Z := 4294967295.

(* NodeId::valid, node_id.cpp 47-51 *)
Definition valid (n : node_id) : bool :=
  negb (n_platform n =? illegal_id) && negb (n_device n =? illegal_id).

(* NodeId::hasIndex, node_id.cpp 63-66 *)
Definition has_index (n : node_id) : bool := negb (n_index n =? undefined_index).

(* NodeId::setPlatformId, setDeviceId, setIndex, node_id.cpp 73-88 *)
Definition set_platform (p : Z) (n : node_id) : node_id := mkNode p (n_device n) (n_index n).
Definition set_device (d : Z) (n : node_id) : node_id := mkNode (n_platform n) d (n_index n).
Definition set_index (i : Z) (n : node_id) : node_id := mkNode (n_platform n) (n_device n) i.

(* NodeId::clear and NodeId::reset, node_id.cpp 244-258 *)
Definition node_clear (_ : node_id) : node_id := mkNode illegal_id illegal_id undefined_index.
Definition node_reset (p d i : Z) (_ : node_id) : node_id := mkNode p d i.

(* ---- the C library functions used: decimal output and input of integers ---- *)
Definition digit (k : Z) : ascii := ascii_of_N (Z.to_N (48 + k)).
Definition is_digit (a : ascii) : bool :=
  let c := Z.of_N (N_of_ascii a) in (48 <=? c) && (c <=? 57).
Definition digit_val (a : ascii) : Z := Z.of_N (N_of_ascii a) - 48.
(* isspace in the C locale: blank, \t \n \v \f \r *)
Definition is_space (a : ascii) : bool :=
  let c := Z.of_N (N_of_ascii a) in (c =? 32) || ((9 <=? c) && (c <=? 13)).

(* digits of a non-negative number, least significant last *)
Fixpoint digits (fuel : nat) (n : Z) (acc : chars) : chars :=
  match fuel with
  | O => acc
  | S f => if n <? 10 then digit n :: acc else digits f (n / 10) (digit (n mod 10) :: acc)
  end.
Definition print_nat (n : Z) : chars := digits (S (Z.to_nat (Z.log2 n))) n [].

(* std::ostream << of a signed integer and printf %d *)
Definition print_int (z : Z) : chars :=
  if z <? 0 then "-"%char :: print_nat (- z) else print_nat z.

Fixpoint read_digits (s : chars) (acc : Z) : Z * chars :=
  match s with
  | a :: s' => if is_digit a then read_digits s' (10 * acc + digit_val a) else (acc, s)
  | [] => (acc, [])
  end.

Fixpoint skip_space (s : chars) : chars :=
  match s with
  | a :: s' => if is_space a then skip_space s' else s
  | [] => []
  end.

Inductive scan : Set :=
| Scanned (z : Z) (rest : chars)
| NoMatch
| Unrepresentable.

(* sscanf %lld: white space, optional sign, at least one digit. A value outside the range of
   long long is undefined behaviour (C11 7.21.6.2, 10). *)
Definition scan_lld (s : chars) : scan :=
  let s1 := skip_space s in
  let '(neg, s2) := match s1 with
                    | "-"%char :: t => (true, t)
                    | "+"%char :: t => (false, t)
                    | _ => (false, s1)
                    end in
  match s2 with
  | a :: _ =>
      if is_digit a
      then let '(v, rest) := read_digits s2 0 in
           let z := if neg then - v else v in
           if (- 2 ^ 63 <=? z) && (z <? 2 ^ 63) then Scanned z rest else Unrepresentable
      else NoMatch
  | [] => NoMatch
  end.

(* ---- conversions ---- *)
(* operator<<, node_id.cpp 260-265 *)
Definition text (n : node_id) : chars := print_int (n_platform n) ++ "."%char :: print_int (n_device n).

(* std::string NodeId::toString() const, node_id.cpp 90-100 *)
Definition to_std_string (n : node_id) : chars := if valid n then text n else [].

Definition nul : ascii := Ascii.zero.
Definition zeros (k : Z) : chars := repeat nul (Z.to_nat k).

(* NodeId::toString( char*, capacity ), node_id.cpp 102-130. [None]: null pointer dereferenced.
   The array holds [Z.of_nat (length buf)] = capacity characters; a null pointer is [None]. *)
Definition to_array (n : node_id) (buf : option chars) (cap : Z) : option (option chars * Z) :=
  let buf1 := match buf with
              | Some b => if 0 <? cap then Some (zeros cap) else Some b
              | None => None
              end in
  if valid n
  then let s := text n in
       if Z.of_nat (length s) <? cap
       then match buf1 with
            | Some b => Some (Some (s ++ skipn (length s) b), 0)
            | None => None
            end
       else Some (buf1, -1)
  else Some (buf1, -1).

(* conversion of a 64-bit integer to int *)
Definition to_int32 (z : Z) : Z := (z + 2 ^ 31) mod 2 ^ 32 - 2 ^ 31.

(* snprintf( buf, size, ... ) for an output text [s]: at most size - 1 characters and a NUL *)
Definition snprintf (buf : chars) (size : Z) (s : chars) : chars :=
  if size <=? 0 then buf
  else let out := firstn (Z.to_nat (size - 1)) s ++ [nul] in out ++ skipn (length out) buf.

Inductive str_format := FmtNoArch | FmtArchId | FmtArchStr | FmtIllegal | FmtOther.

(* control/definitions.h 60-90 *)
Definition arch_illegal : Z := 1023.
Definition arch_name (a : Z) : chars :=
  if a =? 1 then lit "cpu" else if a =? 2 then lit "opencl" else if a =? 3 then lit "cuda" else [].

(* NodeId::to_string, node_id.cpp 132-213. The platform and device ids are converted to int, the
   architecture id to unsigned. snprintf is given capacity - 1 as its size. *)
Definition short_text (n : node_id) : chars :=
  print_int (to_int32 (n_platform n)) ++ "."%char :: print_int (to_int32 (n_device n)).

Definition to_string (n : node_id) (buf : chars) (cap arch : Z) (fmt : str_format) : chars * Z :=
  if (0 <? cap) && valid n
  then
    let nn := cap - 1 in
    let out := match fmt with
               | FmtNoArch => Some (short_text n)
               | FmtArchId => if negb (arch =? arch_illegal) && negb (arch =? 0)
                              then Some (print_nat (arch mod 2 ^ 32) ++ ":"%char :: short_text n) else None
               | FmtArchStr => if negb (arch =? arch_illegal) && negb (arch =? 0)
                               then match arch_name arch with
                                    | [] => None
                                    | name => Some (name ++ ":"%char :: short_text n)
                                    end
                               else None
               | FmtIllegal | FmtOther => None
               end in
    match out with
    | Some s =>
        let ret := Z.of_nat (length s) in
        (snprintf buf nn s, if (0 <? ret) && (ret <=? to_int32 nn) then 0 else -1)
    | None => (buf, -1)
    end
  else (buf, -1).

(* NodeId::fromString( char const* ), node_id.cpp 222-247, and the std::string overload, 215-220.
   [None]: undefined behaviour in sscanf. *)
Definition from_string (s : chars) (n : node_id) : option (node_id * Z) :=
  match s with
  | [] => Some (n, -1)
  | _ =>
      match scan_lld s with
      | Unrepresentable => None
      | NoMatch => Some (n, -1)
      | Scanned p rest =>
          match rest with
          | "."%char :: rest' =>
              match scan_lld rest' with
              | Unrepresentable => None
              | NoMatch => Some (n, -1)
              | Scanned d _ =>
                  if negb (p =? illegal_id) && negb (d =? illegal_id)
                  then Some (set_device d (set_platform p n), 0)
                  else Some (n, -1)
              end
          | _ => Some (n, -1)
          end
      end
  end.

(* NodeId( char const* ), node_id.cpp 38-45 *)
Definition node_of_string (s : chars) : option node_id :=
  match from_string s (mkNode illegal_id illegal_id undefined_index) with
  | Some (n, _) => Some n
  | None => None
  end.

(* the C string in a character array: the characters before the first NUL *)
Fixpoint c_string (b : chars) : option chars :=
  match b with
  | [] => None
  | a :: b' => if Ascii.eqb a nul then Some [] else option_map (cons a) (c_string b')
  end.

(* NodeId::operator<, node_id.cpp 236-242 *)
Definition node_lt (a b : node_id) : bool :=
  (n_platform a <? n_platform b) || ((n_platform a =? n_platform b) && (n_device a <? n_device b)).

(* compareNodeIds, node_id.cpp 267-271, and NS(NodeId_compare), NS(NodeId_are_equal),
   node_id_c99.cpp 138-164 *)
Definition compare (a b : node_id) : Z := if node_lt a b then -1 else if node_lt b a then 1 else 0.
Definition c_compare (a b : option node_id) : Z :=
  match a, b with
  | Some a, Some b => compare a b
  | None, Some _ => 1
  | _, None => -1
  end.
Definition c_are_equal (a b : option node_id) : bool := c_compare a b =? 0.

(* NodeId_extract_node_id_str_from_config_str, node_id.hpp 170-203: full match of
   \s*([0-9]+\.[0-9]+)[\sA-Za-z0-9#\;]*  with greedy repetitions. *)
Fixpoint span_digits (s : chars) : chars * chars :=
  match s with
  | a :: s' => if is_digit a then let '(d, r) := span_digits s' in (a :: d, r) else ([], s)
  | [] => ([], [])
  end.
Definition is_alnum (a : ascii) : bool :=
  let c := Z.of_N (N_of_ascii a) in
  is_digit a || ((65 <=? c) && (c <=? 90)) || ((97 <=? c) && (c <=? 122)).
Definition tail_char (a : ascii) : bool :=
  is_space a || is_alnum a || Ascii.eqb a "#" || Ascii.eqb a ";".
Definition extract (s : chars) : chars :=
  let '(d1, r1) := span_digits (skip_space s) in
  match d1, r1 with
  | _ :: _, "."%char :: r2 =>
      let '(d2, r3) := span_digits r2 in
      match d2 with
      | _ :: _ => if forallb tail_char r3 then d1 ++ "."%char :: d2 else []
      | [] => []
      end
  | _, _ => []
  end.
