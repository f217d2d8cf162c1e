(* C66: the element that a call X_new or X_add is to create: its type, the values of its
   fields in the order of their declaration, and its arrays.  Nothing here uses the model of
   the functions (only the type of the calls and the record of floating point operations). *)
From Coq Require Import ZArith List Bool.
From Verif Require Import Buffer BufferUser ElementAdd.
Import ListNotations.
Local Open Scope Z_scope.

Definition signed (w : Z) : Z := if w <? 2 ^ 63 then w else w - 2 ^ 64.

(* double precision numbers as bit patterns *)
Definition zero : Z := 0x0.
Definition one : Z := 0x3FF0000000000000.
Definition tiny : Z := 0x3DDB7CDFD9D7BDBB.   (* 1e-10 *)
(* +0 ... +infinity, or -0 *)
Definition nonneg (w : Z) : bool := (w <=? 0x7FF0000000000000) || (w =? 0x8000000000000000).
(* +0 ... the number before 3, or -0 ... -infinity *)
Definition below3 (w : Z) : bool :=
  (w <? 0x4008000000000000) || (0x8000000000000000 <=? w) && (w <=? 0xFFF0000000000000).
Definition minus (w : Z) : Z := if w <? 2 ^ 63 then w + 2 ^ 63 else w - 2 ^ 63.
Definition bool_word (x : bool) : Z := if x then 1 else 0.

(* type id, fields, arrays (byte offset of the pointer, bytes per entry, number of entries) *)
Definition element := (Z * list Z * list attr)%type.
Definition only_if (c : bool) (x : element) : option element := if c then Some x else None.

(* None: the call is to be refused *)
Definition wanted (F : floats) (c : call) : option element :=
  let X := f_xlim F in let Y := f_ylim F in let mul := f_mul F in
  match c with
  | NewDrift => Some (2, [zero], [])
  | AddDrift length => Some (2, [length], [])
  | NewDriftExact => Some (3, [zero], [])
  | AddDriftExact length => Some (3, [length], [])
  | NewCavity => Some (5, [zero; zero; zero], [])
  | AddCavity voltage frequency lag => Some (5, [voltage; frequency; lag], [])
  | NewXYShift => Some (6, [zero; zero], [])
  | AddXYShift dx dy => Some (6, [dx; dy], [])
  | NewSRotation => Some (7, [one; zero], [])
  | AddSRotation cos sin => Some (7, [cos; sin], [])
  | NewDipoleEdge => Some (24, [zero; one], [])
  | AddDipoleEdge r21 r43 => Some (24, [r21; r43], [])
  | NewMonitor => Some (10, [0; 0; 1; 0; 2 ^ 64 - 1; 2 ^ 64 - 1; 0; 1], [])
  | AddMonitor num_stores start skip out min_id max_id rolling turn_ordered =>
    Some (10, [num_stores; start; skip; out; max_id; min_id; bool_word rolling; bool_word turn_ordered], [])
  | NewLimitRect => Some (11, [minus X; X; minus Y; Y], [])
  | AddLimitRect min_x max_x min_y max_y => Some (11, [min_x; max_x; min_y; max_y], [])
  | NewLimitEllipse => Some (12, [mul X X; mul Y Y; mul (mul X X) (mul Y Y)], [])
  | AddLimitEllipse a b =>
    only_if (nonneg (mul a a) && nonneg (mul b b))
      (12, [mul a a; mul b b; mul (mul a a) (mul b b)], [])
  | NewLimitRectEllipse => Some (16, [X; Y; mul X X; mul Y Y; mul (mul X X) (mul Y Y)], [])
  | AddLimitRectEllipse max_x max_y a_squ b_squ =>
    only_if (nonneg max_x && nonneg max_y && nonneg a_squ && nonneg b_squ)
      (16, [max_x; max_y; a_squ; b_squ; mul a_squ b_squ], [])
  | NewMultipole order =>
    only_if (0 <=? signed order) (4, [order; zero; zero; zero; 0], [Attr 32 8 (2 * order + 2)])
  | AddMultipole order length hxl hyl bal =>
    only_if (0 <=? signed order) (4, [order; length; hxl; hyl; bal], [Attr 32 8 (2 * order + 2)])
  | NewRFMultipole order =>
    only_if (0 <=? signed order) (256, [order; zero; zero; zero; 0; 0],
      [Attr 32 8 (2 * order + 2); Attr 40 8 (2 * order + 2)])
  | AddRFMultipole order voltage frequency lag bal phase =>
    only_if (0 <=? signed order) (256, [order; voltage; frequency; lag; bal; phase],
      [Attr 32 8 (2 * order + 2); Attr 40 8 (2 * order + 2)])
  | NewBeamBeam4D n => only_if ((n =? 0) || (11 <=? n)) (8, [n; 0], [Attr 8 8 n])
  | AddBeamBeam4D n addr => only_if ((n =? 0) || (11 <=? n)) (8, [n; addr], [Attr 8 8 n])
  | NewBeamBeam6D n => only_if ((n =? 0) || (38 <=? n)) (9, [n; 0], [Attr 8 8 n])
  | AddBeamBeam6D n addr => only_if ((n =? 0) || (38 <=? n)) (9, [n; addr], [Attr 8 8 n])
  | NewSCCoasting => Some (13, [zero; one; one; one; zero; zero; zero; tiny; 1], [])
  | AddSCCoasting number circumference sigma_x sigma_y length x_co y_co min_diff enabled =>
    Some (13, [number; circumference; sigma_x; sigma_y; length; x_co; y_co; min_diff; bool_word enabled], [])
  | NewSCQGauss =>
    Some (14, [zero; one; one; one; zero; zero; zero; tiny; one; f_cq F one; 1], [])
  | AddSCQGauss number bunchlength sigma_x sigma_y length x_co y_co min_diff q enabled =>
    only_if (below3 q)
      (14, [number; bunchlength; sigma_x; sigma_y; length; x_co; y_co; min_diff; q; f_cq F q;
            bool_word enabled], [])
  | NewSCInterpolated => Some (257, [zero; one; one; zero; zero; zero; 0; one; tiny; 1], [])
  | AddSCInterpolated number sigma_x sigma_y length x_co y_co fallback data min_diff enabled =>
    Some (257, [number; sigma_x; sigma_y; length; x_co; y_co; data; fallback; min_diff;
                bool_word enabled], [])
  | NewLineDensity capacity =>
    only_if (0 <? signed capacity)
      (258, [255; capacity; 0; 0; zero; one; capacity], [Attr 16 8 capacity; Attr 24 8 capacity])
  | AddLineDensity method num_values values derivatives z0 dz capacity =>
    let n := Z.max 0 (signed num_values) in
    let cap := Z.max (signed capacity) n in
    only_if (0 <? cap)
      (258, [method; cap; values; derivatives; z0; dz; n], [Attr 16 8 cap; Attr 24 8 cap])
  | NewTriCub => Some (261, [zero; zero; zero; zero; zero; zero; zero; 0], [])
  | AddTriCub x_shift y_shift tau_shift kick_px kick_py kick_ptau length data =>
    Some (261, [x_shift; y_shift; tau_shift; kick_px; kick_py; kick_ptau; length; data], [])
  | NewTriCubData nx ny nz =>
    only_if ((0 <=? signed nx) && (0 <=? signed ny) && (0 <=? signed nz))
      (260, [zero; zero; nx; zero; zero; ny; zero; zero; nz; 0; 0; 0; 0],
       [Attr 96 8 (8 * (nx * ny * nz))])
  | AddTriCubData x0 dx nx y0 dy ny z0 dz nz mirror_x mirror_y mirror_z table =>
    only_if (nonneg dx && nonneg dy && nonneg dz &&
             (0 <=? signed nx) && (0 <=? signed ny) && (0 <=? signed nz))
      (260, [x0; dx; nx; y0; dy; ny; z0; dz; nz; mirror_x; mirror_y; mirror_z; table],
       [Attr 96 8 (8 * (nx * ny * nz))])
  end.

(* the call of Buffer_add_object with this element, the arrays being in the memory e *)
Definition request_of (e : ext_mem) (x : element) : request :=
  Request e (snd (fst x)) (8 * Z.of_nat (length (snd (fst x)))) (fst (fst x)) (snd x).

(* the squares of the configured aperture limits are not negative *)
Definition limits_squared (F : floats) : Prop :=
  nonneg (f_mul F (f_xlim F) (f_xlim F)) = true /\ nonneg (f_mul F (f_ylim F) (f_ylim F)) = true.

(* the number of points of the x-y plane of a field map is an int64 *)
Definition plane_fits (c : call) : Prop :=
  match c with
  | NewTriCubData nx ny _ | AddTriCubData _ _ nx _ _ ny _ _ _ _ _ _ _ => nx * ny < 2 ^ 63
  | _ => True
  end.

(* the calls that do not create what they are to create *)
Definition faithful (c : call) : Prop :=
  match c with
  | NewBeamBeam6D _ | AddBeamBeam6D _ _ | NewSCQGauss | AddLineDensity _ _ _ _ _ _ _ => False
  | _ => True
  end.
