(* Setting up and copying aperture elements: be_limit_rect.h, be_limit_ellipse.h,
   be_limit_rect_ellipse.h and the add function of be_limit_rect_ellipse.c.

   The structures hold plain numbers; the setters' null-pointer branches are not
   modelled.  A status of 0 is SIXTRL_ARCH_STATUS_SUCCESS, -1 is
   SIXTRL_ARCH_STATUS_GENERAL_FAILURE. *)
From Coq Require Import ZArith Bool.
From Verif Require Import Num Elements.

Local Open Scope num_scope.

Section Aperture.
Variable T : Type.
Variable N : NumOps T.

(* be_limit_rect.h 26-34 *)
Record rect := mkRect { r_min_x : T; r_max_x : T; r_min_y : T; r_max_y : T }.

(* be_limit_rect.h 313-347 *)
Definition rect_set_min_x (v : T) (r : rect) : rect :=
  mkRect v (r_max_x r) (r_min_y r) (r_max_y r).
Definition rect_set_max_x (v : T) (r : rect) : rect :=
  mkRect (r_min_x r) v (r_min_y r) (r_max_y r).
Definition rect_set_min_y (v : T) (r : rect) : rect :=
  mkRect (r_min_x r) (r_max_x r) v (r_max_y r).
Definition rect_set_max_y (v : T) (r : rect) : rect :=
  mkRect (r_min_x r) (r_max_x r) (r_min_y r) v.

(* be_limit_rect.h 291-300 and 302-311 *)
Definition rect_set_x_limit (l : T) (r : rect) : rect :=
  rect_set_max_x l (rect_set_min_x (nopp N l) r).
Definition rect_set_y_limit (l : T) (r : rect) : rect :=
  rect_set_max_y l (rect_set_min_y (nopp N l) r).

(* be_limit_rect.h 364-388: LimitRect_copy, [dst] different from [src] *)
Definition rect_copy (dst src : rect) : rect :=
  rect_set_max_y (r_max_y src) (rect_set_min_y (r_min_y src)
    (rect_set_max_x (r_max_x src) (rect_set_min_x (r_min_x src) dst))).

(* the element tracked through, be_limit/track.h 90-111 *)
Definition rect_elem (r : rect) : element T :=
  BLimitRect (r_min_x r) (r_max_x r) (r_min_y r) (r_max_y r).

(* be_limit_ellipse.h 28-34 *)
Record ellipse := mkEllipse { e_a_squ : T; e_b_squ : T; e_a_b_squ : T }.

(* be_limit_ellipse.h 301-320 *)
Definition ellipse_set_half_axes_squ (a2 b2 : T) (e : ellipse) : ellipse * Z :=
  if nleb N (nofZ N 0) a2 && nleb N (nofZ N 0) b2
  then (mkEllipse a2 b2 (nmul N a2 b2), 0%Z)
  else (e, (-1)%Z).

(* be_limit_ellipse.h 292-299 *)
Definition ellipse_set_half_axes (a b : T) (e : ellipse) : ellipse * Z :=
  ellipse_set_half_axes_squ (nmul N a a) (nmul N b b) e.

(* be_limit_ellipse.h 254-259 and 269-274 *)
Definition ellipse_x_half_axis (e : ellipse) : T := nsqrt N (e_a_squ e).
Definition ellipse_y_half_axis (e : ellipse) : T := nsqrt N (e_b_squ e).

(* be_limit_ellipse.h 322-345: LimitEllipse_copy, [dst] different from [src] *)
Definition ellipse_copy (dst src : ellipse) : ellipse * Z :=
  ellipse_set_half_axes_squ (e_a_squ src) (e_b_squ src) dst.

(* be_limit/track.h 113-137 *)
Definition ellipse_elem (e : ellipse) : element T :=
  BLimitEllipse (e_a_squ e) (e_b_squ e) (e_a_b_squ e).

(* be_limit_rect_ellipse.h 26-34 *)
Record rect_ellipse := mkRE {
  re_max_x : T; re_max_y : T; re_a_squ : T; re_b_squ : T; re_ab : T }.

(* be_limit_rect_ellipse.h 372-432.  Only set_a_squ_b_squ writes the product. *)
Definition re_set_max_x (v : T) (r : rect_ellipse) : rect_ellipse :=
  mkRE v (re_max_y r) (re_a_squ r) (re_b_squ r) (re_ab r).
Definition re_set_max_y (v : T) (r : rect_ellipse) : rect_ellipse :=
  mkRE (re_max_x r) v (re_a_squ r) (re_b_squ r) (re_ab r).
Definition re_set_a_squ (v : T) (r : rect_ellipse) : rect_ellipse :=
  mkRE (re_max_x r) (re_max_y r) v (re_b_squ r) (re_ab r).
Definition re_set_b_squ (v : T) (r : rect_ellipse) : rect_ellipse :=
  mkRE (re_max_x r) (re_max_y r) (re_a_squ r) v (re_ab r).
Definition re_set_a_squ_b_squ (v : T) (r : rect_ellipse) : rect_ellipse :=
  mkRE (re_max_x r) (re_max_y r) (re_a_squ r) (re_b_squ r) v.
Definition re_set_a (a : T) (r : rect_ellipse) : rect_ellipse :=
  re_set_a_squ (nmul N a a) r.
Definition re_set_b (b : T) (r : rect_ellipse) : rect_ellipse :=
  re_set_b_squ (nmul N b b) r.

(* be_limit_rect_ellipse.h 247-268: LimitRectEllipse_clear with the default
   limits given as arguments *)
Definition re_clear (mx my ax by_ : T) (r : rect_ellipse) : rect_ellipse :=
  let r := re_set_b by_ (re_set_a ax (re_set_max_y my (re_set_max_x mx r))) in
  re_set_a_squ_b_squ (nmul N (re_a_squ r) (re_b_squ r)) r.

(* be_limit_rect_ellipse.h 477-508: LimitRectEllipse_copy, [dst] different from
   [src]; the product is not copied *)
Definition re_copy (dst src : rect_ellipse) : rect_ellipse :=
  re_set_b_squ (re_b_squ src) (re_set_a_squ (re_a_squ src)
    (re_set_max_y (re_max_y src) (re_set_max_x (re_max_x src) dst))).

(* be_limit_rect_ellipse.c 132-165: LimitRectEllipse_add; [None] = no element is
   added.  The buffer operation itself is modelled in Buffer.v. *)
Definition re_add (mx my a2 b2 : T) : option rect_ellipse :=
  if nleb N (nofZ N 0) mx && nleb N (nofZ N 0) my &&
     nleb N (nofZ N 0) a2 && nleb N (nofZ N 0) b2
  then Some (mkRE mx my a2 b2 (nmul N a2 b2)) else None.

(* be_limit/track.h 139-162 *)
Definition re_elem (r : rect_ellipse) : element T :=
  BLimitRectEllipse (re_max_x r) (re_max_y r) (re_a_squ r) (re_b_squ r) (re_ab r).

End Aperture.

Arguments mkRect {T}. Arguments mkEllipse {T}. Arguments mkRE {T}.
Arguments rect_elem {T}. Arguments ellipse_elem {T}. Arguments re_elem {T}.
Arguments rect_copy {T}. Arguments re_copy {T}.
Arguments r_min_x {T}. Arguments r_max_x {T}. Arguments r_min_y {T}. Arguments r_max_y {T}.
Arguments e_a_squ {T}. Arguments e_b_squ {T}. Arguments e_a_b_squ {T}.
Arguments re_max_x {T}. Arguments re_max_y {T}. Arguments re_a_squ {T}.
Arguments re_b_squ {T}. Arguments re_ab {T}.
Arguments re_set_max_x {T}. Arguments re_set_max_y {T}. Arguments re_set_a_squ {T}.
Arguments re_set_b_squ {T}. Arguments re_set_a_squ_b_squ {T}.
