(** Specification for tri-cubic interpolation (C39): the polynomial, its partial
    derivatives and the data it has to reproduce. *)
From Coq Require Import ZArith Reals List.
From Coquelicot Require Import Coquelicot.
From Verif Require Import TriCub.
Import ListNotations.
Local Open Scope R_scope.

Definition big (n : nat) (f : nat -> R) : R := fold_right Rplus 0 (map f (seq 0 n)).

(** The polynomial with coefficient [a (i + 4 j + 16 k)] at x^i y^j z^k. *)
Definition tripoly (a : nat -> R) (x y z : R) : R :=
  big 4 (fun k => big 4 (fun j => big 4 (fun i => a (i + 4 * j + 16 * k)%nat * x ^ i * y ^ j * z ^ k))).

(** Partial derivatives of a function of three variables. *)
Definition fun3 := R -> R -> R -> R.
Definition Dx (f : fun3) : fun3 := fun x y z => Derive (fun t : R => f t y z) x.
Definition Dy (f : fun3) : fun3 := fun x y z => Derive (fun t : R => f x t z) y.
Definition Dz (f : fun3) : fun3 := fun x y z => Derive (fun t : R => f x y t) z.

(** The eight quantities stored per grid point, in the order of the table: value,
    d/dx, d/dy, d/dz, d2/dxdy, d2/dxdz, d2/dydz, d3/dxdydz. *)
Definition quantity (l : nat) (f : fun3) : fun3 :=
  match l with
  | 0 => f
  | 1 => Dx f
  | 2 => Dy f
  | 3 => Dz f
  | 4 => Dx (Dy f)
  | 5 => Dx (Dz f)
  | 6 => Dy (Dz f)
  | _ => Dx (Dy (Dz f))
  end%nat.

(** Corner number [c] of the unit cell: x varies fastest. *)
Definition bit (c i : nat) : nat := (c / 2 ^ i) mod 2.

(** The grid function of a table entry: quantity [l] at grid point (ix, iy, iz). *)
Definition grid (d : tricub_data R) (l : nat) (ix iy iz : Z) : option R :=
  Interp.arr_at (td_table d) (Z.of_nat l + 8 * (ix + td_nx d * (iy + td_ny d * iz)))%Z.

(** The cell coordinate of a physical coordinate [x]: the grid starts at
    shift + x0, has spacing dx and may be mirrored at its start. *)
Definition cellpos (sign x shift x0 dx : R) (cell : Z) : R :=
  sign * ((x - shift - x0) / dx) - IZR cell.

(** The side of a mirrored direction: the grid covers u >= 0 and, when mirrored,
    a particle with u < 0 sees the cell at -u. *)
Definition side (mirror : Z) (u : R) : R :=
  if Z.eqb mirror 1 then (if Rlt_dec u 0 then -1 else 1) else 1.

(** Distance of a coordinate from the start of the grid. *)
Definition offset_x (tc : tricub R) (x : R) : R := x - tc_x_shift tc - td_x0 (tc_data tc).
Definition offset_y (tc : tricub R) (y : R) : R := y - tc_y_shift tc - td_y0 (tc_data tc).
Definition offset_z (tc : tricub R) (t : R) : R := t - tc_tau_shift tc - td_z0 (tc_data tc).

(** The potential seen at (x, y, tau) near a particle at (x1, y1, tau1) in cell
    (ix, iy, iz), for the cell polynomial with coefficients [a]. *)
Definition potential (tc : tricub R) (a : nat -> R) (x1 y1 t1 : R) (ix iy iz : Z) : fun3 :=
  let d := tc_data tc in
  fun x y t => tripoly a
    (cellpos (side (td_mirror_x d) (offset_x tc x1)) x (tc_x_shift tc) (td_x0 d) (td_dx d) ix)
    (cellpos (side (td_mirror_y d) (offset_y tc y1)) y (tc_y_shift tc) (td_y0 d) (td_dy d) iy)
    (cellpos (side (td_mirror_z d) (offset_z tc t1)) t (tc_tau_shift tc) (td_z0 d) (td_dz d) iz).

(** [a] interpolates the table on the cell (ix, iy, iz): all eight quantities at all
    eight corners are those of the polynomial with coefficients [a]. *)
Definition interpolates (d : tricub_data R) (ix iy iz : Z) (a : nat -> R) : Prop :=
  forall l c, (l < 8)%nat -> (c < 8)%nat ->
  grid d l (ix + Z.of_nat (bit c 0)) (iy + Z.of_nat (bit c 1)) (iz + Z.of_nat (bit c 2))
  = Some (quantity l (tripoly a) (INR (bit c 0)) (INR (bit c 1)) (INR (bit c 2))).

(** Cell [i] contains the position at [s * u / dx]. *)
Definition in_cell (s u dx : R) (i : Z) : Prop := IZR i <= s * u / dx < IZR i + 1.

(** A position inside the grid of [n] points (or its mirror image). *)
Definition inside (mirror : Z) (u dx : R) (n : Z) : Prop :=
  0 <= side mirror u * u < IZR (n - 1) * dx.
