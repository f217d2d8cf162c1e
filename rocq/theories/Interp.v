(* One-dimensional interpolation on equidistant abscissae:
   sixtracklib/common/internal/math_interpol.h, and the line-density profile that
   uses it: be_beamfields/be_beamfields.h 3349-3493.
   Arrays are lists; reading outside a list is undefined behaviour = [None].
   Simplifications: pointers are valid and distinct, x0 and dx are finite (the
   isnan/isinf tests of the prepare functions succeed). *)
From Coq Require Import ZArith List Bool.
From Verif Require Import Num.
Import ListNotations.

Set Implicit Arguments.

(* a[i] with a signed index *)
Definition arr_at {A : Type} (l : list A) (i : Z) : option A :=
  if (i <? 0)%Z then None else nth_error l (Z.to_nat i).

(* internal/math_interpol.h 38-57 *)
Definition INTERPOL_LINEAR : Z := 0.
Definition INTERPOL_CUBIC : Z := 1.
Definition INTERPOL_NONE : Z := 255.

Inductive boundary := BNatural | BClamped | BProportional | BNotAKnot.

Section Interp.
Variable T : Type.
Variable N : NumOps T.

Local Notation "a +. b" := (nadd N a b) (at level 50, left associativity).
Local Notation "a -. b" := (nsub N a b) (at level 50, left associativity).
Local Notation "a *. b" := (nmul N a b) (at level 40, left associativity).
Local Notation "a /. b" := (ndiv N a b) (at level 40, left associativity).
Local Notation "'#' z" := (nofZ N z) (at level 5).

(* math_interpol.h 253-268: Math_abscissa_index_equ *)
Definition abscissa_index (x x0 dx : T) : option Z := ntruncZ N ((x -. x0) /. dx).

(* math_interpol.h 270-288: Math_abscissa_index_equ_ex *)
Definition abscissa_index_ex (x x0 dx : T) (num_values : Z) : option Z :=
  let max_x := x0 +. dx *. nofZ N num_values in
  if nleb N x0 x then
    if nltb N x max_x then abscissa_index x x0 dx else Some num_values
  else Some (-1)%Z.

(* math_interpol.h 322-367: Math_interpol_linear_prepare_equ; the slopes of the
   first num_values-1 entries, the rest of [yp] is left as it was.
   [None]: failure status (nothing written). *)
Definition linear_prepare (yp y : list T) (dx : T) (num_values : Z) : option (list T) :=
  if nltb N (#0) dx && (1 <? num_values)%Z then
    let nn := Z.to_nat (num_values - 1) in
    Some (map (fun i => (nth (S i) y (nzero N) -. nth i y (nzero N)) /. dx) (seq 0 nn)
          ++ skipn nn yp)
  else None.

(* Arrays of the cubic preparation are functions of the index. *)
Definition aset (a : nat -> T) (i : nat) (v : T) : nat -> T :=
  fun j => if Nat.eqb j i then v else a j.

(* math_interpol.h 408-440: initial h, g, dy (n = num_values) *)
Definition cubic_h0 (dx : T) : nat -> T := fun _ => dx.
Definition cubic_g0 (dx : T) (n : nat) : nat -> T := fun i =>
  if Nat.eqb i 0 || Nat.eqb i (n - 1) then #0 else (dx +. dx) *. #2.
Definition cubic_dy0 (y : nat -> T) (dx : T) (n : nat) : nat -> T := fun i =>
  if Nat.eqb i 0 || Nat.eqb i (n - 1) then #0
  else ((y (i + 1) -. y i) /. dx -. (y i -. y (i - 1)) /. dx) *. #6.

(* math_interpol.h 442-481: begin boundary; (h, g, dy) *)
Definition cubic_begin (bt : boundary) (bp : T) (hgd : (nat -> T) * (nat -> T) * (nat -> T)) :=
  let '(h, g, dy) := hgd in
  match bt with
  | BNatural => (h, g, dy)
  | BClamped => (h, g, aset dy 1 (dy 1 -. bp *. h 0))
  | BProportional => (h, aset g 1 ((bp +. #2) *. h 0 +. h 1 *. #2), dy)
  | BNotAKnot =>
      let d_h := (h 0 *. h 0) /. h 1 in
      (aset h 1 (h 1 -. d_h), aset g 1 (h 0 *. #3 +. h 1 *. #2 +. d_h), dy)
  end.

(* math_interpol.h 483-521: end boundary *)
Definition cubic_end (n : nat) (bt : boundary) (bp : T)
    (hgd : (nat -> T) * (nat -> T) * (nat -> T)) :=
  let '(h, g, dy) := hgd in
  match bt with
  | BNatural => (h, g, dy)
  | BClamped => (h, g, aset dy (n - 2) (dy (n - 2) -. bp *. h (n - 2)))
  | BProportional =>
      (h, aset g (n - 2) (h (n - 1) *. #2 +. h (n - 2) *. (bp +. #2)), dy)
  | BNotAKnot =>
      let d_h := (h (n - 2) *. h (n - 2)) /. h (n - 3) in
      (aset h (n - 3) (h (n - 3) -. d_h),
       aset g (n - 2) (h (n - 3) *. #2 +. h (n - 2) *. #3 +. d_h), dy)
  end.

(* math_interpol.h 525-534: forward elimination; (d[i], ypp[i]) after step i *)
Fixpoint cubic_fwd (h g dy : nat -> T) (i : nat) : T * T :=
  match i with
  | O => (g 1, dy 1)
  | S i' =>
    let r := cubic_fwd h g dy i' in
    let l := h i /. fst r in
    (g (i + 1) -. l *. h i, dy (i + 1) -. snd r *. l)
  end.

(* math_interpol.h 536-546: back substitution; [cubic_bwd m k] is ypp[m + 1 - k]
   where m = num_values - 3 *)
Fixpoint cubic_bwd (h g dy : nat -> T) (m k : nat) : T :=
  match k with
  | O => snd (cubic_fwd h g dy m) /. fst (cubic_fwd h g dy m)
  | S k' =>
    let ii := m - k in
    (snd (cubic_fwd h g dy ii) -. h (ii + 1) *. cubic_bwd h g dy m k') /.
    fst (cubic_fwd h g dy ii)
  end.

(* math_interpol.h 369-602: Math_interpol_cubic_prepare_equ.  [ypp0] is the
   content of the output array before the call: with a not-a-knot boundary the
   last entry is never written.  [None]: failure status. *)
Definition cubic_prepare (ypp0 y : nat -> T) (dx : T) (num_values : Z)
    (bt et : boundary) (bp ep : T) : option (nat -> T) :=
  if nltb N (#0) dx && (3 <? num_values)%Z then
    let n := Z.to_nat num_values in
    let '(h, g, dy) :=
      cubic_end n et ep
        (cubic_begin bt bp (cubic_h0 dx, cubic_g0 dx n, cubic_dy0 y dx n)) in
    let inner := fun i => cubic_bwd h g dy (n - 3) (n - 2 - i) in
    let first :=
      match bt with
      | BNatural => #0
      | BClamped => bp
      | BProportional => bp *. inner 1
      | BNotAKnot => snd (cubic_fwd h g dy 0)
      end in
    let last :=
      match et with
      | BNatural => #0
      | BClamped => ep
      | BProportional => ep *. inner (n - 2)
      | BNotAKnot => ypp0 (n - 1)
      end in
    Some (fun i => if Nat.eqb i 0 then first
                   else if Nat.eqb i (n - 1) then last
                   else if Nat.ltb i (n - 1) then inner i else ypp0 i)
  else None.

(* math_interpol.h 292-318, 604-645: Math_interpol_prepare_equ; the default
   boundaries are "natural" (= 1) with parameter 0 *)
Definition prepare (yp y : list T) (dx : T) (num_values : Z) (ty : Z) : option (list T) :=
  if (ty =? INTERPOL_LINEAR)%Z then linear_prepare yp y dx num_values
  else if (ty =? INTERPOL_CUBIC)%Z then
    match cubic_prepare (fun i => nth i yp (nzero N)) (fun i => nth i y (nzero N)) dx
            num_values BNatural BNatural (#0) (#0) with
    | Some f => Some (map f (seq 0 (length yp)))
    | None => None
    end
  else None.

Definition obind {A B} (o : option A) (f : A -> option B) : option B :=
  match o with Some a => f a | None => None end.

(* math_interpol.h 649-665: Math_interpol_linear_y_equ *)
Definition linear_y (x x0 dx : T) (y yp : list T) : option T :=
  obind (abscissa_index x x0 dx) (fun idx =>
  obind (arr_at y idx) (fun yi =>
  obind (arr_at yp idx) (fun ypi =>
    Some (yi +. (x -. (x0 +. dx *. nofZ N idx)) *. ypi)))).

(* math_interpol.h 667-684: Math_interpol_linear_yp_equ *)
Definition linear_yp (x x0 dx : T) (yp : list T) : option T :=
  obind (abscissa_index x x0 dx) (fun idx => arr_at yp idx).

(* math_interpol.h 712-744: Math_interpol_linear_y_equ_ex *)
Definition linear_y_ex (x x0 dx : T) (y yp : list T) (num_values : Z) : option T :=
  obind (abscissa_index x x0 dx) (fun idx =>
  let idx := if (num_values <=? idx)%Z && (0 <? num_values)%Z
             then (num_values - 1)%Z else idx in
  if (0 <=? idx)%Z && (idx <? num_values)%Z then
    obind (arr_at y idx) (fun yi =>
    obind (arr_at yp idx) (fun ypi =>
      Some (yi +. (x -. (x0 +. dx *. nofZ N idx)) *. ypi)))
  else if (idx <? 0)%Z && (0 <? num_values)%Z then
    obind (arr_at y 0) (fun y0 =>
    obind (arr_at yp 0) (fun yp0 =>
      Some (y0 -. yp0 *. (x0 -. x))))
  else Some (#0)).

(* math_interpol.h 746-775: Math_interpol_linear_yp_equ_ex *)
Definition linear_yp_ex (x x0 dx : T) (yp : list T) (num_values : Z) : option T :=
  obind (abscissa_index x x0 dx) (fun idx =>
  if (num_values <=? idx)%Z && (0 <? num_values)%Z then arr_at yp (num_values - 1)%Z
  else if (idx <? 0)%Z && (0 <? num_values)%Z then arr_at yp 0
  else Some (#0)).

(* math_interpol.h 789-815: Math_interpol_cubic_y_equ (869-877: _equ_ex) *)
Definition cubic_y (x x0 dx : T) (y ypp : list T) : option T :=
  obind (abscissa_index x x0 dx) (fun idx =>
  let t2 := (x0 +. dx *. nofZ N (idx + 1) -. x) /. dx in
  let t1 := (x -. (x0 +. dx *. nofZ N idx)) /. dx in
  obind (arr_at y idx) (fun yi =>
  obind (arr_at y (idx + 1)) (fun yi1 =>
  obind (arr_at ypp idx) (fun mi =>
  obind (arr_at ypp (idx + 1)) (fun mi1 =>
    Some (yi1 *. t1 +. yi *. t2
          -. mi *. dx *. dx *. (t2 -. t2 *. t2 *. t2) /. #6
          -. mi1 *. dx *. dx *. (t1 -. t1 *. t1 *. t1) /. #6)))))).

(* math_interpol.h 817-846: Math_interpol_cubic_yp_equ *)
Definition cubic_yp (x x0 dx : T) (y ypp : list T) : option T :=
  obind (abscissa_index x x0 dx) (fun idx =>
  let t2 := (x0 +. dx *. nofZ N (idx + 1) -. x) /. dx in
  let t1 := (x -. (x0 +. dx *. nofZ N idx)) /. dx in
  obind (arr_at y idx) (fun yi =>
  obind (arr_at y (idx + 1)) (fun yi1 =>
  obind (arr_at ypp idx) (fun mi =>
  obind (arr_at ypp (idx + 1)) (fun mi1 =>
    Some ((yi1 -. yi) /. dx
          -. mi *. dx *. (#3 *. t2 *. t2 -. #1) /. #6
          -. mi1 *. dx *. (#1 -. #3 *. t1 *. t1) /. #6)))))).

(* math_interpol.h 848-865: Math_interpol_cubic_ypp_equ *)
Definition cubic_ypp (x x0 dx : T) (y ypp : list T) : option T :=
  obind (abscissa_index x x0 dx) (fun idx =>
  obind (arr_at ypp idx) (fun mi =>
  obind (arr_at ypp (idx + 1)) (fun mi1 =>
    Some ((mi *. (x0 +. dx *. nofZ N (idx + 1) -. x)
           +. mi1 *. (x -. (x0 +. dx *. nofZ N idx))) /. dx)))).

(* math_interpol.h 901-920: Math_interpol_y_equ *)
Definition interpol_y (x x0 dx : T) (y yp : list T) (ty : Z) : option T :=
  if (ty =? INTERPOL_LINEAR)%Z then linear_y x x0 dx y yp
  else if (ty =? INTERPOL_CUBIC)%Z then cubic_y x x0 dx y yp
  else Some (#0).

(* math_interpol.h 922-941: Math_interpol_yp_equ *)
Definition interpol_yp (x x0 dx : T) (y yp : list T) (ty : Z) : option T :=
  if (ty =? INTERPOL_LINEAR)%Z then linear_yp x x0 dx yp
  else if (ty =? INTERPOL_CUBIC)%Z then cubic_yp x x0 dx y yp
  else Some (#0).

(* math_interpol.h 944-964: Math_interpol_ypp_equ; 686-708: the linear case is 0 *)
Definition interpol_ypp (x x0 dx : T) (y yp : list T) (ty : Z) : option T :=
  if (ty =? INTERPOL_LINEAR)%Z then Some (#0)
  else if (ty =? INTERPOL_CUBIC)%Z then cubic_ypp x x0 dx y yp
  else Some (#0).

(* be_beamfields.h: struct LineDensityProfileData; [ld_values] and
   [ld_derivs] have [capacity] entries, the first num_values of which are set *)
Record line_density := mkLineDensity {
  ld_method : Z; ld_values : list T; ld_derivs : list T;
  ld_z0 : T; ld_dz : T; ld_num_values : Z }.

(* be_beamfields.h 3357-3365: LineDensityProfileData_z_max *)
Definition ld_z_max (d : line_density) : T :=
  ld_z0 d +. ld_dz d *. nofZ N (ld_num_values d).

(* be_beamfields.h 3385-3410: LineDensityProfileData_interpolate_value *)
Definition ld_interpolate (d : line_density) (z : T) : option T :=
  if nleb N z (ld_z_max d) && nleb N (ld_z0 d) z then
    interpol_y z (ld_z0 d) (ld_dz d) (ld_values d) (ld_derivs d) (ld_method d)
  else Some (#0).

(* be_beamfields.h 3412-3438: LineDensityProfileData_interpolate_1st_derivative *)
Definition ld_derivative1 (d : line_density) (z : T) : option T :=
  if nleb N z (ld_z_max d) && nleb N (ld_z0 d) z then
    interpol_yp z (ld_z0 d) (ld_dz d) (ld_values d) (ld_derivs d) (ld_method d)
  else Some (#0).

(* be_beamfields.h 3440-3466: LineDensityProfileData_interpolate_2nd_derivative *)
Definition ld_derivative2 (d : line_density) (z : T) : option T :=
  if nleb N z (ld_z_max d) && nleb N (ld_z0 d) z then
    interpol_ypp z (ld_z0 d) (ld_dz d) (ld_values d) (ld_derivs d) (ld_method d)
  else Some (#0).

(* be_beamfields.h 3470-3496: LineDensityProfileData_prepare_interpolation *)
Definition ld_prepare (d : line_density) : option line_density :=
  if (0 <? ld_num_values d)%Z then
    match prepare (ld_derivs d) (ld_values d) (ld_dz d) (ld_num_values d) (ld_method d) with
    | Some yp => Some (mkLineDensity (ld_method d) (ld_values d) yp (ld_z0 d) (ld_dz d)
                         (ld_num_values d))
    | None => None
    end
  else None.

End Interp.
