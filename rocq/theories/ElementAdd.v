(* Adding beam elements to a buffer: the functions X_new and X_add of the elements,
   sixtracklib/common/be_drift/be_drift.c, be_cavity.c, be_xyshift.c, be_srotation.c,
   be_dipedge.c, be_monitor.c, be_limit_rect.c, be_limit_ellipse.c, be_limit_rect_ellipse.c,
   be_multipole.c, be_rfmultipole.c, be_beamfields.c, be_tricub.c and the setters in the
   headers.

   The struct of an element is a list of 8-byte words in the order of its fields; it is a
   local variable, so that before the first setter it has arbitrary contents g.  Floating point
   numbers are their bit patterns.  The buffer is not NULL, its slot size is 8, and the
   num_dataptrs, attributes_offsets, attributes_sizes and attributes_counts functions are
   replaced by their results. *)
From Coq Require Import ZArith List Bool.
From Verif Require Import MBuf MemPool Buffer Lines.
Import ListNotations.
Local Open Scope Z_scope.

(* internal/objects_type_id.h 38 *)
Definition T_LINE_DENSITY := 258.

(* Floating point operations on bit patterns that are not defined here: the product, the
   normalisation factor Math_q_gauss_cq (internal/math_qgauss.h) and the two configured
   aperture limits SIXTRL_APERTURE_X_LIMIT, SIXTRL_APERTURE_Y_LIMIT *)
Record floats := Floats { f_mul : Z -> Z -> Z; f_cq : Z -> Z; f_xlim : Z; f_ylim : Z }.

(* bit patterns of 0.0, 1.0, 3.0, 1e-10 and infinity *)
Definition f_zero := 0.
Definition f_one := 4607182418800017408.
Definition f_three := 4613937818241073152.
Definition f_tiny := 4457293557087583675.
Definition f_inf := 9218868437227405312.
Definition sign_bit := 2 ^ 63.

(* x >= 0 and x < 3 in double precision: false for NaN; -0.0 is not below 0 *)
Definition ge0 (w : Z) : bool := (w <=? f_inf) || (w =? sign_bit).
Definition lt3 (w : Z) : bool := (w <? f_three) || (sign_bit <=? w) && (w <=? sign_bit + f_inf).
(* - x *)
Definition f_neg (w : Z) : Z := if w <? sign_bit then w + sign_bit else w - sign_bit.

(* bool to the 64-bit flags of the elements *)
Definition flag (x : bool) : Z := if x then 1 else 0.

(* A call.  Reals, integers and addresses are 64-bit words. *)
Inductive call :=
| NewDrift | AddDrift (length : Z)
| NewDriftExact | AddDriftExact (length : Z)
| NewCavity | AddCavity (voltage frequency lag : Z)
| NewXYShift | AddXYShift (dx dy : Z)
| NewSRotation | AddSRotation (cos_angle sin_angle : Z)
| NewDipoleEdge | AddDipoleEdge (r21 r43 : Z)
| NewMonitor
| AddMonitor (num_stores start skip out_address min_id max_id : Z) (rolling turn_ordered : bool)
| NewLimitRect | AddLimitRect (min_x max_x min_y max_y : Z)
| NewLimitEllipse | AddLimitEllipse (x_half_axis y_half_axis : Z)
| NewLimitRectEllipse | AddLimitRectEllipse (max_x max_y a_squ b_squ : Z)
| NewMultipole (order : Z) | AddMultipole (order length hxl hyl bal_addr : Z)
| NewRFMultipole (order : Z)
| AddRFMultipole (order voltage frequency lag bal_addr phase_addr : Z)
| NewBeamBeam4D (data_size : Z) | AddBeamBeam4D (data_size data_addr : Z)
| NewBeamBeam6D (data_size : Z) | AddBeamBeam6D (data_size data_addr : Z)
| NewSCCoasting
| AddSCCoasting (number circumference sigma_x sigma_y length x_co y_co min_diff : Z) (enabled : bool)
| NewSCQGauss
| AddSCQGauss (number bunchlength sigma_x sigma_y length x_co y_co min_diff q : Z) (enabled : bool)
| NewSCInterpolated
| AddSCInterpolated (number sigma_x sigma_y length x_co y_co fallback data_addr min_diff : Z) (enabled : bool)
| NewLineDensity (capacity : Z)
| AddLineDensity (method num_values values_addr derivatives_addr z0 dz capacity : Z)
| NewTriCub
| AddTriCub (x_shift y_shift tau_shift kick_px kick_py kick_ptau length data_addr : Z)
| NewTriCubData (nx ny nz : Z)
| AddTriCubData (x0 dx nx y0 dy ny z0 dz nz mirror_x mirror_y mirror_z table_addr : Z).

(* The struct and the accumulated status (true: SUCCESS) *)
Definition state := (bool * list Z)%type.
(* field number k := v, status SUCCESS *)
Definition set (k : nat) (v : Z) (s : state) : state :=
  (fst s, firstn k (snd s) ++ v :: skipn (S k) (snd s)).
(* the same if c holds, otherwise GENERAL_FAILURE *)
Definition set_if (c : bool) (k : nat) (v : Z) (s : state) : state :=
  if c then set k v s else (false, snd s).
Notation "s |> f" := (f s) (at level 50, left associativity, only parsing).

(* what a function gives to Buffer_add_object: nothing, or type id, struct and arrays;
   Undefined: signed overflow *)
Inductive outcome := Refused | Undefined | Proper (t : Z) (ws : list Z) (attrs : list attr).

(* the call of Buffer_add_object if the status is SUCCESS *)
Definition give (t : Z) (attrs : list attr) (s : state) : outcome :=
  if fst s then Proper t (snd s) attrs else Refused.

(* be_monitor.h 481-500: BeamMonitor_clear *)
Definition minus_one := 2 ^ 64 - 1.
Definition clear_monitor (s : state) : state :=
  s |> set 0 0 |> set 1 0 |> set 2 1 |> set 6 (flag false) |> set 7 (flag true) |> set 3 0
    |> set 5 minus_one |> set 4 minus_one.

(* be_limit_ellipse.h 299-318: LimitEllipse_set_half_axes_squ, 290-297: set_half_axes *)
Definition set_half_axes_squ (F : floats) (a b : Z) (s : state) : state :=
  if ge0 a && ge0 b then s |> set 0 a |> set 1 b |> set 2 (f_mul F a b) else (false, snd s).
Definition set_half_axes (F : floats) (x y : Z) (s : state) : state :=
  set_half_axes_squ F (f_mul F x x) (f_mul F y y) s.

(* be_multipole.h 524-539: Multipole_set_order *)
Definition set_order (order : Z) (s : state) : state := set_if (0 <=? int64 order) 0 order s.
(* be_multipole.h 353-365: Multipole_clear *)
Definition clear_multipole (s : state) : state :=
  s |> set 1 0 |> set 2 0 |> set 3 0 |> set_order 0 |> set 4 0.
(* be_rfmultipole.h 447-464: RFMultipole_clear; 724-732: set_order has only an assertion *)
Definition clear_rf_multipole (s : state) : state :=
  s |> set 0 0 |> set 1 0 |> set 2 0 |> set 3 0 |> set 4 0 |> set 5 0.

(* be_beamfields.h 1707-1730 and 1954-1977: set_data_size; BB4D_data has 11 words, BB6D_data
   38 *)
Definition set_data_size (min_size n : Z) (s : state) : state :=
  set_if ((n =? 0) || (min_size <=? n)) 0 n s.
(* be_beamfields.h 1653-1664, 1900-1911: clear; its status is only asserted *)
Definition clear_bb (min_size : Z) (s : state) : state :=
  (fst s, snd (s |> set 1 0 |> set_data_size min_size 0)).

(* be_beamfields.h 2398-2417: SCCoasting_clear *)
Definition clear_coasting (s : state) : state :=
  s |> set 0 f_zero |> set 1 f_one |> set 2 f_one |> set 3 f_one |> set 4 f_zero |> set 5 f_zero
    |> set 6 f_zero |> set 7 f_tiny |> set 8 (flag true).
(* be_beamfields.h 2948-2964: SCQGaussProfile_set_q_param *)
Definition set_q_param (F : floats) (q : Z) (s : state) : state :=
  if lt3 q then s |> set 8 q |> set 9 (f_cq F q) else (false, snd s).
(* be_beamfields.h 2717-2745: SCQGaussProfile_clear; min_sigma_diff (7) is not set *)
Definition clear_qgauss (F : floats) (s : state) : state :=
  s |> set 0 f_zero |> set 1 f_one |> set 2 f_one |> set 3 f_one |> set 4 f_zero |> set 5 f_zero
    |> set 6 f_zero |> set_q_param F f_one |> set 10 (flag true).
(* be_beamfields.h 3706-3754: SCInterpolatedProfile_clear *)
Definition clear_interpolated (s : state) : state :=
  s |> set 0 f_zero |> set 1 f_one |> set 2 f_one |> set 3 f_zero |> set 4 f_zero |> set 5 f_zero
    |> set 6 0 |> set 7 f_one |> set 8 f_tiny |> set 9 (flag true).
(* be_beamfields.h 3082-3105: LineDensityProfileData_clear; internal/math_interpol.h 42 *)
Definition interpol_none := 255.
Definition clear_line_density (s : state) : state :=
  s |> set 0 interpol_none |> set 1 2 |> set 2 0 |> set 3 0 |> set 4 f_zero |> set 5 f_one |> set 6 0.

(* be_tricub.h 1139-1181: TriCub_preset, TriCub_clear *)
Definition preset_tricub (s : state) : state :=
  s |> set 7 0 |> set 0 f_zero |> set 1 f_zero |> set 2 f_zero |> set 3 f_zero |> set 4 f_zero
    |> set 5 f_zero |> set 6 f_zero.
(* be_tricub.h 805-917: the setters with a condition *)
Definition set_step (k : nat) (d : Z) (s : state) : state := set_if (ge0 d) k d s.
Definition set_number (k : nat) (n : Z) (s : state) : state := set_if (0 <=? int64 n) k n s.
(* be_tricub.h 592-659: TriCubData_preset, TriCubData_clear; the table has no entries, so that
   no entry is written; TriCubData_clear always returns GENERAL_FAILURE, but its status is only
   asserted *)
Definition preset_tricub_data (s : state) : state :=
  (fst s, snd (s |> set_number 2 0 |> set_number 5 0 |> set_number 8 0 |> set 12 0
    |> set 0 f_zero |> set_step 1 f_zero |> set 3 f_zero |> set_step 4 f_zero |> set 6 f_zero
    |> set_step 7 f_zero |> set 9 0 |> set 10 0 |> set 11 0)).
(* be_tricub.h 750-756: TriCubData_table_size, int64 products *)
Definition in_int64 (n : Z) : option Z :=
  if (- 2 ^ 63 <=? n) && (n <? 2 ^ 63) then Some n else None.
Definition table_size (nx ny nz : Z) : option Z :=
  a <- in_int64 (int64 nx * int64 ny) ;; b <- in_int64 (a * int64 nz) ;; in_int64 (b * 8).

(* the arrays given to Buffer_add_object; their number is computed from the struct *)
Definition give_multipole (s : state) : outcome :=
  if fst s then
    match mp_bal_length (nth 0 (snd s) 0) with
    | Some n => Proper T_MULTIPOLE (snd s) [Attr 32 8 n]
    | None => Undefined
    end
  else Refused.
Definition give_rf_multipole (order : Z) (s : state) : outcome :=
  if fst s && (0 <=? int64 order) then
    match rf_length (nth 0 (snd s) 0) with
    | Some n => Proper T_RF_MULTIPOLE (snd s) [Attr 32 8 n; Attr 40 8 n]
    | None => Undefined
    end
  else Refused.
Definition give_bb (t : Z) (s : state) : outcome := give t [Attr 8 8 (nth 0 (snd s) 0)] s.
Definition give_line_density (s : state) : outcome :=
  let n := nth 1 (snd s) 0 in
  if 0 <=? int64 n then give T_LINE_DENSITY [Attr 16 8 n; Attr 24 8 n] s else Refused.
Definition give_tricub_data (s : state) : outcome :=
  if fst s then
    match table_size (nth 2 (snd s) 0) (nth 5 (snd s) 0) (nth 8 (snd s) 0) with
    | Some n => Proper T_TRICUB_DATA (snd s) [Attr 96 8 (u64 n)]
    | None => Undefined
    end
  else Refused.

(* number of words of the struct *)
Definition struct_words (c : call) : nat :=
  match c with
  | NewDrift | AddDrift _ | NewDriftExact | AddDriftExact _ => 1
  | NewCavity | AddCavity _ _ _ => 3
  | NewXYShift | AddXYShift _ _ | NewSRotation | AddSRotation _ _
  | NewDipoleEdge | AddDipoleEdge _ _ => 2
  | NewMonitor | AddMonitor _ _ _ _ _ _ _ _ => 8
  | NewLimitRect | AddLimitRect _ _ _ _ => 4
  | NewLimitEllipse | AddLimitEllipse _ _ => 3
  | NewLimitRectEllipse | AddLimitRectEllipse _ _ _ _ => 5
  | NewMultipole _ | AddMultipole _ _ _ _ _ => 5
  | NewRFMultipole _ | AddRFMultipole _ _ _ _ _ _ => 6
  | NewBeamBeam4D _ | AddBeamBeam4D _ _ | NewBeamBeam6D _ | AddBeamBeam6D _ _ => 2
  | NewSCCoasting | AddSCCoasting _ _ _ _ _ _ _ _ _ => 9
  | NewSCQGauss | AddSCQGauss _ _ _ _ _ _ _ _ _ _ => 11
  | NewSCInterpolated | AddSCInterpolated _ _ _ _ _ _ _ _ _ _ => 10
  | NewLineDensity _ | AddLineDensity _ _ _ _ _ _ _ => 7
  | NewTriCub | AddTriCub _ _ _ _ _ _ _ _ => 8
  | NewTriCubData _ _ _ | AddTriCubData _ _ _ _ _ _ _ _ _ _ _ _ _ => 13
  end.

(* the part of the functions before Buffer_add_object *)
Definition prepare (F : floats) (g : list Z) (c : call) : outcome :=
  let s : state := (true, g) in
  match c with
  (* be_drift.c 93-137, 245-289; be_drift.h 316-321, 455-460 *)
  | NewDrift => s |> set 0 f_zero |> give T_DRIFT []
  | AddDrift l => s |> set 0 l |> give T_DRIFT []
  | NewDriftExact => s |> set 0 f_zero |> give T_DRIFT_EXACT []
  | AddDriftExact l => s |> set 0 l |> give T_DRIFT_EXACT []
  (* be_cavity.c 90-139; be_cavity.h 218-227 *)
  | NewCavity => s |> set 0 f_zero |> set 1 f_zero |> set 2 f_zero |> give T_CAVITY []
  | AddCavity v f l => s |> set 0 v |> set 1 f |> set 2 l |> give T_CAVITY []
  (* be_xyshift.c 90-136; be_xyshift.h 191-197 *)
  | NewXYShift => s |> set 0 f_zero |> set 1 f_zero |> give T_XYSHIFT []
  | AddXYShift dx dy => s |> set 0 dx |> set 1 dy |> give T_XYSHIFT []
  (* be_srotation.c 89-135; be_srotation.h 244-251 *)
  | NewSRotation => s |> set 0 f_one |> set 1 f_zero |> give T_SROTATION []
  | AddSRotation c si => s |> set 0 c |> set 1 si |> give T_SROTATION []
  (* be_dipedge.c 99-143; be_dipedge.h 203-211 *)
  | NewDipoleEdge => s |> set 0 f_zero |> set 1 f_one |> give T_DIPEDGE []
  | AddDipoleEdge a b => s |> set 0 a |> set 1 b |> give T_DIPEDGE []
  (* be_monitor.c 215-272 *)
  | NewMonitor => s |> clear_monitor |> give T_MONITOR []
  | AddMonitor n st sk out mn mx ro tu =>
    s |> set 0 n |> set 1 st |> set 2 sk |> set 3 out |> set 5 mn |> set 4 mx
      |> set 6 (flag ro) |> set 7 (flag tu) |> give T_MONITOR []
  (* be_limit_rect.c 104-153; be_limit_rect.h 220-236; be_limit/definitions.h 20-42 *)
  | NewLimitRect => s |> set 0 (f_neg (f_xlim F)) |> set 1 (f_xlim F) |> set 2 (f_neg (f_ylim F))
      |> set 3 (f_ylim F) |> give T_LIMIT_RECT []
  | AddLimitRect a b c d => s |> set 0 a |> set 1 b |> set 2 c |> set 3 d |> give T_LIMIT_RECT []
  (* be_limit_ellipse.c 110-156; be_limit_ellipse.h 214-220 *)
  | NewLimitEllipse => s |> set_half_axes F (f_xlim F) (f_ylim F) |> give T_LIMIT_ELLIPSE []
  | AddLimitEllipse a b => s |> set_half_axes F a b |> give T_LIMIT_ELLIPSE []
  (* be_limit_rect_ellipse.c 110-164; be_limit_rect_ellipse.h 247-268 *)
  | NewLimitRectEllipse =>
    let a := f_mul F (f_xlim F) (f_xlim F) in let b := f_mul F (f_ylim F) (f_ylim F) in
    s |> set 0 (f_xlim F) |> set 1 (f_ylim F) |> set 2 a |> set 3 b |> set 4 (f_mul F a b)
      |> give T_LIMIT_RECT_ELLIPSE []
  | AddLimitRectEllipse mx my a b =>
    let r := s |> set 0 mx |> set 1 my |> set 2 a |> set 3 b |> set 4 (f_mul F a b) in
    if ge0 mx && ge0 my && ge0 a && ge0 b then give T_LIMIT_RECT_ELLIPSE [] r else Refused
  (* be_multipole.c 140-261 *)
  | NewMultipole o =>
    if 0 <=? int64 o then s |> clear_multipole |> set_order o |> give_multipole else Refused
  | AddMultipole o l hx hy a =>
    if 0 <=? int64 o then
      s |> clear_multipole |> set_order o |> set 1 l |> set 2 hx |> set 3 hy |> set 4 a |> give_multipole
    else Refused
  (* be_rfmultipole.c 130-237 *)
  | NewRFMultipole o => s |> clear_rf_multipole |> set 0 o |> give_rf_multipole o
  | AddRFMultipole o v f l a p =>
    s |> clear_rf_multipole |> set 0 o |> set 1 v |> set 2 f |> set 3 l |> set 4 a |> set 5 p
      |> give_rf_multipole o
  (* be_beamfields.c 170-275 *)
  | NewBeamBeam4D n => s |> clear_bb 11 |> set_data_size 11 n |> give_bb T_BB4D
  | AddBeamBeam4D n a => s |> clear_bb 11 |> set_data_size 11 n |> set 1 a |> give_bb T_BB4D
  (* be_beamfields.c 472-578 *)
  | NewBeamBeam6D n => s |> clear_bb 38 |> set_data_size 38 n |> give_bb bb6d_type_id
  | AddBeamBeam6D n a => s |> clear_bb 38 |> set_data_size 38 n |> set 1 a |> give_bb bb6d_type_id
  (* be_beamfields.c 735-802 *)
  | NewSCCoasting => s |> clear_coasting |> give T_SC_COASTING []
  | AddSCCoasting n ci sx sy l x y m e =>
    s |> clear_coasting |> set 0 n |> set 1 ci |> set 2 sx |> set 3 sy |> set 4 l |> set 5 x
      |> set 6 y |> set 7 m |> set 8 (flag e) |> give T_SC_COASTING []
  (* be_beamfields.c 941-1021 *)
  | NewSCQGauss => s |> clear_qgauss F |> give T_SC_QGAUSS []
  | AddSCQGauss n bl sx sy l x y m q e =>
    s |> clear_qgauss F |> set 0 n |> set 1 bl |> set 2 sx |> set 3 sy |> set 4 l |> set 5 x
      |> set 6 y |> set 7 m |> set_q_param F q |> set 10 (flag e) |> give T_SC_QGAUSS []
  (* be_beamfields.c 1701-1774; the statuses are not looked at *)
  | NewSCInterpolated => s |> clear_interpolated |> give T_SC_INTERPOLATED []
  | AddSCInterpolated n sx sy l x y fb a m e =>
    s |> clear_interpolated |> set 0 n |> set 1 sx |> set 2 sy |> set 3 l |> set 4 x |> set 5 y
      |> set 9 (flag e) |> set 6 a |> set 7 fb |> set 8 m |> give T_SC_INTERPOLATED []
  (* be_beamfields.c 1367-1503; z0 is set twice, dz is not *)
  | NewLineDensity cap =>
    if 0 <? int64 cap then s |> clear_line_density |> set 1 cap |> set 6 cap |> give_line_density
    else Refused
  | AddLineDensity me nv va da z0 dz cap =>
    let nv := if int64 nv <? 0 then 0 else nv in
    let cap := if (int64 cap <? int64 nv) && (0 <? int64 nv) then nv else cap in
    if 0 <? int64 cap then
      s |> clear_line_density |> set 1 cap |> set 6 nv |> set 0 me |> set 2 va |> set 4 z0
        |> set 4 dz |> set 3 da |> give_line_density
    else Refused
  (* be_tricub.c 418-465 *)
  | NewTriCub => s |> preset_tricub |> give T_TRICUB []
  | AddTriCub xs ys ts px py pt l a =>
    s |> preset_tricub |> set 0 xs |> set 1 ys |> set 2 ts |> set 3 px |> set 4 py |> set 5 pt
      |> set 6 l |> set 7 a |> give T_TRICUB []
  (* be_tricub.c 153-282 *)
  | NewTriCubData nx ny nz =>
    s |> preset_tricub_data |> set_number 2 nx |> set_number 5 ny |> set_number 8 nz |> give_tricub_data
  | AddTriCubData x0 dx nx y0 dy ny z0 dz nz mx my mz a =>
    s |> preset_tricub_data |> set 0 x0 |> set_step 1 dx |> set_number 2 nx |> set 3 y0
      |> set_step 4 dy |> set_number 5 ny |> set 6 z0 |> set_step 7 dz |> set_number 8 nz
      |> set 9 mx |> set 10 my |> set 11 mz |> set 12 a |> give_tricub_data
  end.

(* The whole call.  e is the caller's memory.  Result: the returned pointer (0: NULL) and the
   buffer; None: undefined behaviour *)
Definition add_element (F : floats) (hp : heap) (b : buffer) (e : ext_mem) (g : list Z) (c : call)
  : option (Z * buffer) :=
  match prepare F g c with
  | Refused => Some (0, b)
  | Undefined => None
  | Proper t ws attrs =>
    '(r, b') <- buf_add_object hp b e ws (8 * Z.of_nat (length ws)) t attrs ;;
    a <- (if r =? 0 then Some 0 else rd (b_mem b') r) ;;
    Some (a, b')
  end.
