(* Setting and reading multipole strengths: be_multipole.h, be_rfmultipole.h and
   internal/math_factorial.h.

   A multipole's coefficient array is a list; an access outside it is undefined
   behaviour ([None]).  The array's length is not part of the C structure: the
   functions take it to be 2 * order + 2.  A null array pointer is [None] in the
   [m_bal] and [m_phase] fields; null multipole pointers are not modelled.
   Indices of type buffer_size_t wrap modulo 2^64; signed 64-bit index
   arithmetic is unbounded here (2 * index overflows only from 2^62 on, which no
   array reaches). *)
From Coq Require Import ZArith List Bool.
From Verif Require Import Num Elements ParticleSet.
Import ListNotations.
Local Open Scope Z_scope.

Section Strengths.
Variable T : Type.
Variable N : NumOps T.

(* math_factorial.h 34-54 and 160-184 (the C and the C++ version agree): the
   values of the switch, including the one for 11 *)
Definition factorial_table : list Z :=
  [1; 1; 2; 6; 24; 120; 720; 5040; 40320; 362880; 3628800; 3628800; 479001600;
   6227020800; 87178291200; 1307674368000; 20922789888000; 355687428096000;
   6402373705728000; 121645100408832000; 2432902008176640000].

(* math_factorial.h 155-202: Math_factorial; the recursive call of the default
   case has an argument below 20 and takes a case of the switch *)
Definition math_factorial (n : Z) : T :=
  match aget factorial_table n with
  | Some v => nofZ N v
  | None =>
    let nd := n / 20 in
    let remainder := n mod 20 in
    let result := nmul N (nofZ N nd) (nofZ N 2432902008176640000) in
    if remainder =? 0 then result
    else nadd N result
           (nofZ N (match aget factorial_table remainder with Some v => v | None => 1 end))
  end.

(* be_multipole.h 26-36 *)
Record mpole := mkMpole {
  m_order : Z; m_length : T; m_hxl : T; m_hyl : T; m_bal : option (list T) }.

Definition with_bal (b : list T) (m : mpole) : mpole :=
  mkMpole (m_order m) (m_length m) (m_hxl m) (m_hyl m) (Some b).

(* be_multipole.h 398-406 *)
Definition bal_length (m : mpole) : Z := if 0 <=? m_order m then 2 * m_order m + 2 else 0.

(* be_multipole.h 437-447 *)
Definition mp_bal (m : mpole) (i : Z) : option T :=
  match m_bal m with Some b => aget b i | None => None end.

(* be_multipole.h 449-458 *)
Definition mp_knl (m : mpole) (k : Z) : option T :=
  obind (mp_bal m (2 * k)) (fun v => Some (nmul N v (math_factorial k))).
(* be_multipole.h 460-469 *)
Definition mp_ksl (m : mpole) (k : Z) : option T :=
  obind (mp_bal m (2 * k + 1)) (fun v => Some (nmul N v (math_factorial k))).

Definition ok (m : mpole) : option (mpole * Z) := Some (m, 0).
Definition failed (m : mpole) : option (mpole * Z) := Some (m, -1).

(* be_multipole.h 543-564 *)
Definition mp_set_bal_value (i : Z) (v : T) (m : mpole) : option (mpole * Z) :=
  match m_bal m with
  | Some b =>
    if i <? bal_length m then obind (aput b i v) (fun b => ok (with_bal b m)) else failed m
  | None => failed m
  end.

(* be_multipole.h 566-590: both pointers are the begin of the array *)
Definition mp_set_all_bal_values (v : T) (m : mpole) : option (mpole * Z) :=
  match m_bal m with Some b => ok m | None => failed m end.

(* be_multipole.h 592-617; [src] the values to be copied from *)
Definition mp_set_bal (src : list T) (m : mpole) : option (mpole * Z) :=
  match m_bal m with
  | Some b => obind (acopy b 0 src 0 (bal_length m)) (fun b => ok (with_bal b m))
  | None => failed m
  end.

(* be_multipole.h 621-643: the index is a buffer_size_t *)
Definition mp_set_knl_value (k : Z) (v : T) (m : mpole) : option (mpole * Z) :=
  let i := (2 * k) mod 2 ^ 64 in
  match m_bal m with
  | Some b =>
    if i <? bal_length m
    then obind (aput b i (ndiv N v (math_factorial k))) (fun b => ok (with_bal b m))
    else failed m
  | None => failed m
  end.

(* be_multipole.h 704-727 *)
Definition mp_set_ksl_value (k : Z) (v : T) (m : mpole) : option (mpole * Z) :=
  let i := (2 * k + 1) mod 2 ^ 64 in
  match m_bal m with
  | Some b =>
    if i <? bal_length m
    then obind (aput b i (ndiv N v (math_factorial k))) (fun b => ok (with_bal b m))
    else failed m
  | None => failed m
  end.

(* the loops below: entry 2*k+off := val k / k! for k = first .. first+n-1, the
   first entry written being number [start] *)
Fixpoint put_strengths (n : nat) (i k : Z) (val : Z -> option T) (b : list T) : option (list T) :=
  match n with
  | O => Some b
  | S n => obind (val k) (fun v => obind (aput b i (ndiv N v (math_factorial k)))
             (put_strengths n (i + 2) (k + 1) val))
  end.

(* be_multipole.h 645-671: ii = 0, 2, ... below the length *)
Definition mp_set_all_knl_values (v : T) (m : mpole) : option (mpole * Z) :=
  match m_bal m with
  | Some b => obind (put_strengths (Z.to_nat (bal_length m / 2)) 0 0 (fun _ => Some v) b)
                (fun b => ok (with_bal b m))
  | None => failed m
  end.
(* be_multipole.h 673-702 *)
Definition mp_set_knl (knl : list T) (m : mpole) : option (mpole * Z) :=
  match m_bal m with
  | Some b => obind (put_strengths (Z.to_nat (bal_length m / 2)) 0 0 (aget knl) b)
                (fun b => ok (with_bal b m))
  | None => failed m
  end.
(* be_multipole.h 729-755: ii = 1, 3, ... below the (even) length *)
Definition mp_set_all_ksl_values (v : T) (m : mpole) : option (mpole * Z) :=
  match m_bal m with
  | Some b => obind (put_strengths (Z.to_nat (bal_length m / 2)) 1 0 (fun _ => Some v) b)
                (fun b => ok (with_bal b m))
  | None => failed m
  end.
(* be_multipole.h 757-786 *)
Definition mp_set_ksl (ksl : list T) (m : mpole) : option (mpole * Z) :=
  match m_bal m with
  | Some b => obind (put_strengths (Z.to_nat (bal_length m / 2)) 1 0 (aget ksl) b)
                (fun b => ok (with_bal b m))
  | None => failed m
  end.

(* be_multipole.h 787-819: Multipole_copy, [dst] different from [src] *)
Definition mp_copy (dst src : mpole) : option (mpole * Z) :=
  if m_order src =? m_order dst then
    let d := mkMpole (m_order dst) (m_length src) (m_hxl src) (m_hyl src) (m_bal dst) in
    match m_bal src with
    | Some b => mp_set_bal b d
    | None => failed d
    end
  else failed dst.

(* the element tracked through, be_multipole/track.h *)
Definition mp_elem (m : mpole) : element T :=
  BMultipole (Z.to_nat (m_order m)) (m_length m) (m_hxl m) (m_hyl m)
    (match m_bal m with Some b => b | None => [] end).

(* ------------------------------------------------------------------ *)
(* RF multipoles.  be_rfmultipole.h 29-40; the addresses of the two arrays matter
   for one function. *)
Record rfm := mkRfm {
  rf_order : Z; rf_voltage : T; rf_frequency : T; rf_lag : T;
  rf_bal_addr : Z; rf_phase_addr : Z; rf_bal : list T; rf_phase : list T }.

Definition rf_with_bal (b : list T) (m : rfm) : rfm :=
  mkRfm (rf_order m) (rf_voltage m) (rf_frequency m) (rf_lag m) (rf_bal_addr m) (rf_phase_addr m) b (rf_phase m).
Definition rf_with_phase (b : list T) (m : rfm) : rfm :=
  mkRfm (rf_order m) (rf_voltage m) (rf_frequency m) (rf_lag m) (rf_bal_addr m) (rf_phase_addr m) (rf_bal m) b.

(* be_rfmultipole.h 494-511 *)
Definition rf_length (m : rfm) : Z := 2 * rf_order m + 2.

Definition rok (m : rfm) : option (rfm * Z) := Some (m, 0).
Definition rfailed (m : rfm) : option (rfm * Z) := Some (m, -1).

(* be_rfmultipole.h 570-605 and 658-692 *)
Definition rf_knl (m : rfm) (k : Z) : option T :=
  obind (aget (rf_bal m) (2 * k)) (fun v => Some (nmul N v (math_factorial k))).
Definition rf_ksl (m : rfm) (k : Z) : option T :=
  obind (aget (rf_bal m) (2 * k + 1)) (fun v => Some (nmul N v (math_factorial k))).
Definition rf_phase_n (m : rfm) (k : Z) : option T := aget (rf_phase m) (2 * k).
Definition rf_phase_s (m : rfm) (k : Z) : option T := aget (rf_phase m) (2 * k + 1).

(* be_rfmultipole.h 762-773: only assertions check the index *)
Definition rf_set_bal_value (i : Z) (v : T) (m : rfm) : option (rfm * Z) :=
  obind (aput (rf_bal m) i v) (fun b => rok (rf_with_bal b m)).

(* be_rfmultipole.h 775-792 *)
Definition rf_set_all_bal_values (v : T) (m : rfm) : option (rfm * Z) :=
  obind (afill (rf_bal m) 0 (rf_length m) v) (fun b => rok (rf_with_bal b m)).

(* be_rfmultipole.h 794-818 *)
Definition rf_set_bal (src : list T) (m : rfm) : option (rfm * Z) :=
  obind (acopy (rf_bal m) 0 src 0 (rf_length m)) (fun b => rok (rf_with_bal b m)).

(* be_rfmultipole.h 822-843: note knl_index >= order *)
Definition rf_set_knl_value (k : Z) (v : T) (m : rfm) : option (rfm * Z) :=
  if (0 <=? k) && (rf_order m <=? k) && (2 * k <? rf_length m) then
    obind (aput (rf_bal m) (2 * k) (ndiv N v (math_factorial k))) (fun b => rok (rf_with_bal b m))
  else rfailed m.

(* be_rfmultipole.h 845-872 and 874-903 *)
Definition rf_set_all_knl_values (v : T) (m : rfm) : option (rfm * Z) :=
  obind (put_strengths (Z.to_nat (rf_order m + 1)) 0 0 (fun _ => Some v) (rf_bal m))
    (fun b => rok (rf_with_bal b m)).
Definition rf_set_knl (knl : list T) (m : rfm) : option (rfm * Z) :=
  obind (put_strengths (Z.to_nat (rf_order m + 1)) 0 0 (aget knl) (rf_bal m))
    (fun b => rok (rf_with_bal b m)).

(* be_rfmultipole.h 907-929 *)
Definition rf_set_ksl_value (k : Z) (v : T) (m : rfm) : option (rfm * Z) :=
  if (0 <=? k) && (rf_order m <=? k) && (2 * k + 1 <? rf_length m) then
    obind (aput (rf_bal m) (2 * k + 1) (ndiv N v (math_factorial k))) (fun b => rok (rf_with_bal b m))
  else rfailed m.

(* be_rfmultipole.h 931-958 and 960-989: ksl_index runs from 1, bal_index from 0 *)
Definition rf_set_all_ksl_values (v : T) (m : rfm) : option (rfm * Z) :=
  obind (put_strengths (Z.to_nat (rf_order m)) 0 1 (fun _ => Some v) (rf_bal m))
    (fun b => rok (rf_with_bal b m)).
Definition rf_set_ksl (ksl : list T) (m : rfm) : option (rfm * Z) :=
  obind (put_strengths (Z.to_nat (rf_order m)) 0 1 (fun k => aget ksl (k - 1)) (rf_bal m))
    (fun b => rok (rf_with_bal b m)).

(* be_rfmultipole.h 1029-1040 *)
Definition rf_set_phase_value (i : Z) (v : T) (m : rfm) : option (rfm * Z) :=
  obind (aput (rf_phase m) i v) (fun b => rok (rf_with_phase b m)).

(* be_rfmultipole.h 1042-1059 with 1011-1027: the end pointer is computed from the
   strengths' address; the loop runs from the phases' begin until it meets that
   pointer.  Where the two coincide nothing is written; otherwise memory outside
   the phase array is written ([None]). *)
Definition rf_set_all_phase_values (v : T) (m : rfm) : option (rfm * Z) :=
  if rf_phase_addr m =? rf_bal_addr m + 8 * rf_length m then rok m else None.

(* be_rfmultipole.h 1061-1088: both pointers are those of the strengths *)
Definition rf_set_phase (src : list T) (m : rfm) : option (rfm * Z) :=
  obind (acopy (rf_bal m) 0 src 0 (rf_length m)) (fun b => rok (rf_with_bal b m)).

(* be_rfmultipole.h 1092-1113 and 1177-1199 *)
Definition rf_set_phase_n_value (k : Z) (v : T) (m : rfm) : option (rfm * Z) :=
  if (0 <=? k) && (rf_order m <=? k) && (2 * k <? rf_length m) then
    obind (aput (rf_phase m) (2 * k) v) (fun b => rok (rf_with_phase b m))
  else rfailed m.
Definition rf_set_phase_s_value (k : Z) (v : T) (m : rfm) : option (rfm * Z) :=
  if (0 <=? k) && (rf_order m <=? k) && (2 * k + 1 <? rf_length m) then
    obind (aput (rf_phase m) (2 * k + 1) v) (fun b => rok (rf_with_phase b m))
  else rfailed m.

(* consecutive (step 1) or every second (step 2) entry from [i] on *)
Fixpoint put_phases (n : nat) (step i : Z) (k : Z) (val : Z -> option T) (b : list T) : option (list T) :=
  match n with
  | O => Some b
  | S n => obind (val k) (fun v => obind (aput b i v) (put_phases n step (i + step) (k + 1) val))
  end.

(* be_rfmultipole.h 1115-1141: writes at pn_index, not at phase_index *)
Definition rf_set_all_phase_n_values (v : T) (m : rfm) : option (rfm * Z) :=
  obind (put_phases (Z.to_nat (rf_order m + 1)) 1 0 0 (fun _ => Some v) (rf_phase m))
    (fun b => rok (rf_with_phase b m)).
(* be_rfmultipole.h 1143-1171 *)
Definition rf_set_phase_n_array (pn : list T) (m : rfm) : option (rfm * Z) :=
  obind (put_phases (Z.to_nat (rf_order m + 1)) 2 0 0 (aget pn) (rf_phase m))
    (fun b => rok (rf_with_phase b m)).
(* be_rfmultipole.h 1200-1226: writes at ps_index = 1 .. order *)
Definition rf_set_all_phase_s_values (v : T) (m : rfm) : option (rfm * Z) :=
  obind (put_phases (Z.to_nat (rf_order m)) 1 1 0 (fun _ => Some v) (rf_phase m))
    (fun b => rok (rf_with_phase b m)).
(* be_rfmultipole.h 1228-1256: ps_index runs from 1, phase_index from 0 *)
Definition rf_set_phase_s_array (ps : list T) (m : rfm) : option (rfm * Z) :=
  obind (put_phases (Z.to_nat (rf_order m)) 2 0 0 (aget ps) (rf_phase m))
    (fun b => rok (rf_with_phase b m)).

(* be_rfmultipole.h 1258-1355: RFMultipole_copy, [dst] different from [src],
   arrays present *)
Definition rf_copy (dst src : rfm) : option (rfm * Z) :=
  if rf_order dst =? rf_order src then
    obind (acopy (rf_phase dst) 0 (rf_phase src) 0 (rf_length src)) (fun ph =>
    obind (acopy (rf_bal dst) 0 (rf_bal src) 0 (rf_length src)) (fun b =>
    rok (mkRfm (rf_order dst) (rf_voltage src) (rf_frequency src) (rf_lag src)
           (rf_bal_addr dst) (rf_phase_addr dst) b ph)))
  else rfailed dst.

(* be_rfmultipole/track.h *)
Definition rf_elem (m : rfm) : element T :=
  BRFMultipole (Z.to_nat (rf_order m)) (rf_voltage m) (rf_frequency m) (rf_lag m) (rf_bal m) (rf_phase m).

End Strengths.

Arguments mkMpole {T}. Arguments m_order {T}. Arguments m_length {T}. Arguments m_hxl {T}.
Arguments m_hyl {T}. Arguments m_bal {T}. Arguments with_bal {T}. Arguments mp_elem {T}.
Arguments mp_copy {T}. Arguments mp_set_bal {T}. Arguments mp_set_all_bal_values {T}.
Arguments mp_set_bal_value {T}. Arguments mp_bal {T}.
Arguments mkRfm {T}. Arguments rf_order {T}. Arguments rf_bal {T}. Arguments rf_phase {T}.
Arguments rf_voltage {T}. Arguments rf_frequency {T}. Arguments rf_lag {T}.
Arguments rf_bal_addr {T}. Arguments rf_phase_addr {T}. Arguments rf_with_bal {T}.
Arguments rf_with_phase {T}. Arguments rf_elem {T}. Arguments rf_copy {T}.
Arguments rf_phase_n {T}. Arguments rf_phase_s {T}. Arguments rf_set_phase_value {T}.
Arguments rf_set_bal_value {T}. Arguments rf_set_phase_n_value {T}. Arguments rf_set_phase_s_value {T}.
Arguments rf_set_all_phase_n_values {T}. Arguments rf_set_phase_n_array {T}.
Arguments rf_set_all_phase_s_values {T}. Arguments rf_set_phase_s_array {T}.
Arguments rf_set_phase {T}. Arguments rf_set_all_phase_values {T}. Arguments rf_set_bal {T}.
Arguments rf_set_all_bal_values {T}.
Arguments mp_knl {T}. Arguments mp_ksl {T}. Arguments mp_set_knl_value {T}. Arguments mp_set_ksl_value {T}.
Arguments mp_set_knl {T}. Arguments mp_set_ksl {T}. Arguments mp_set_all_knl_values {T}.
Arguments mp_set_all_ksl_values {T}. Arguments rf_knl {T}. Arguments rf_ksl {T}.
Arguments rf_set_knl_value {T}. Arguments rf_set_ksl_value {T}. Arguments rf_set_knl {T}.
Arguments rf_set_ksl {T}. Arguments rf_set_all_knl_values {T}. Arguments rf_set_all_ksl_values {T}.
Arguments math_factorial {T}. Arguments put_strengths {T}. Arguments put_phases {T}.
