(* Tricubic interpolation element: sixtracklib/common/be_tricub/track.h and
   be_tricub.h, for an arbitrary number type. *)
From Coq Require Import ZArith List Bool.
From Verif Require Import Num Particle Energy Interp TriCubCoefs.
Import ListNotations.

Set Implicit Arguments.

(* be_tricub/be_tricub.h: struct TriCubData; [td_table] is the table at
   table_addr *)
Record tricub_data (T : Type) := mkTriCubData {
  td_x0 : T; td_dx : T; td_nx : Z; td_y0 : T; td_dy : T; td_ny : Z;
  td_z0 : T; td_dz : T; td_nz : Z;
  td_mirror_x : Z; td_mirror_y : Z; td_mirror_z : Z;
  td_table : list T }.

(* be_tricub/be_tricub.h: struct TriCub; the data address is replaced by the
   data object itself *)
Record tricub (T : Type) := mkTriCub {
  tc_x_shift : T; tc_y_shift : T; tc_tau_shift : T;
  tc_dipolar_kick_px : T; tc_dipolar_kick_py : T; tc_dipolar_kick_ptau : T;
  tc_length : T; tc_data : tricub_data T }.

Section TriCub.
Variable T : Type.
Variable N : NumOps T.

Local Notation "a +. b" := (nadd N a b) (at level 50, left associativity).
Local Notation "a -. b" := (nsub N a b) (at level 50, left associativity).
Local Notation "a *. b" := (nmul N a b) (at level 40, left associativity).
Local Notation "a /. b" := (ndiv N a b) (at level 40, left associativity).
Local Notation "-. a" := (nopp N a) (at level 35, right associativity).
Local Notation "'#' z" := (nofZ N z) (at level 5).

(* position of the entry of component l at grid point (ix, iy, iz),
   be_tricub/track.h 246-256 *)
Definition table_index (d : tricub_data T) (l ix iy iz : Z) : Z :=
  (l + 8 * (ix + td_nx d * (iy + td_ny d * iz)))%Z.

Fixpoint sequence (l : list (option T)) : option (list T) :=
  match l with
  | [] => Some []
  | o :: rest =>
    match o, sequence rest with
    | Some a, Some r => Some (a :: r)
    | _, _ => None
    end
  end.

(* the eight corners in the order of be_tricub/track.h 246-256 *)
Definition corners : list (Z * Z * Z) :=
  [(0,0,0); (1,0,0); (0,1,0); (1,1,0); (0,0,1); (1,0,1); (0,1,1); (1,1,1)]%Z.

(* be_tricub/track.h 224-268: tricub_construct_b_vector *)
Definition construct_b (d : tricub_data T) (ix iy iz : Z) : option (list T) :=
  sequence (flat_map (fun l =>
    map (fun c => let '(cx, cy, cz) := c in
                  arr_at (td_table d)
                    (table_index d (Z.of_nat l) (ix + cx) (iy + cy) (iz + cz))) corners)
    (seq 0 8)).

(* powers: be_tricub/track.h 133-151 *)
Definition powers (x : T) : list T := [#1; x; x *. x; x *. x *. x].

Definition nthT (l : list T) (i : nat) : T := nth i l (nzero N).

(* triple loops of be_tricub/track.h 153-199.  [di dj dk] = lowest exponent of
   each direction (1 in the differentiated direction) *)
Definition kick_sum (coefs xp yp zp : list T) (di dj dk : nat) : T :=
  fold_left (fun acc i =>
    fold_left (fun acc j =>
      fold_left (fun acc k =>
        acc +. nofZ N (Z.of_nat (if Nat.eqb di 1 then i else if Nat.eqb dj 1 then j else k))
               *. (((nthT coefs (i + 4 * j + 16 * k) *. nthT xp (i - di)) *. nthT yp (j - dj))
                   *. nthT zp (k - dk)))
        (seq dk (4 - dk)) acc)
      (seq dj (4 - dj)) acc)
    (seq di (4 - di)) (#0).

Definition mirror_sign (mirror : Z) (f : T) : T :=
  if (mirror =? 1)%Z && nltb N f (#0) then -. #1 else #1.

(* be_tricub/track.h 54-222: Track_particle_tricub (always returns success);
   None: the table is read outside its bounds or a grid coordinate cannot be
   converted to an integer *)
Definition track_tricub (tc : tricub T) (p : particle T) : option (particle T) :=
  let d := tc_data tc in
  let inv_dx := #1 /. td_dx d in
  let inv_dy := #1 /. td_dy d in
  let inv_dz := #1 /. td_dz d in
  let z := p_zeta p /. (p_beta0 p *. p_rvv p) in
  let fx := ((p_x p -. tc_x_shift tc) -. td_x0 d) *. inv_dx in
  let fy := ((p_y p -. tc_y_shift tc) -. td_y0 d) *. inv_dy in
  let fz := ((z -. tc_tau_shift tc) -. td_z0 d) *. inv_dz in
  let sign_x := mirror_sign (td_mirror_x d) fx in
  let sign_y := mirror_sign (td_mirror_y d) fy in
  let sign_z := mirror_sign (td_mirror_z d) fz in
  let sfx := sign_x *. fx in
  let sfy := sign_y *. fy in
  let sfz := sign_z *. fz in
  let ixf := nfloor N sfx in
  let iyf := nfloor N sfy in
  let izf := nfloor N sfz in
  obind (ntruncZ N ixf) (fun ix =>
  obind (ntruncZ N iyf) (fun iy =>
  obind (ntruncZ N izf) (fun iz =>
  let xn := sfx -. ixf in
  let yn := sfy -. iyf in
  let zn := sfz -. izf in
  obind (construct_b d ix iy iz) (fun b =>
  let coefs := construct_coefs N (nthT b) in
  let xp := powers xn in
  let yp := powers yn in
  let zp := powers zn in
  let kick_px := kick_sum coefs xp yp zp 1 0 0 *. (tc_length tc *. inv_dx) *. (-. sign_x)
                 -. tc_dipolar_kick_px tc in
  let kick_py := kick_sum coefs xp yp zp 0 1 0 *. (tc_length tc *. inv_dy) *. (-. sign_y)
                 -. tc_dipolar_kick_py tc in
  let kick_ptau := kick_sum coefs xp yp zp 0 0 1 *. (tc_length tc *. inv_dz) *. (-. sign_z)
                   -. tc_dipolar_kick_ptau tc in
  let q := p_q0 p *. p_charge_ratio p in
  let energy_kick := q *. (p_p0c p *. kick_ptau) in
  let p := set_px (p_px p +. kick_px) p in
  let p := set_py (p_py p +. kick_py) p in
  Some (add_to_energy N energy_kick p))))).

End TriCub.
