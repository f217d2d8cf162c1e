(* Clearing the elements of a beam line: sixtracklib/common/beam_elements.h 788-966 and
   1540-1559.

   The buffer is not NULL; the SIXTRL_ASSERTs are not modelled.  Beam-beam elements are
   compiled in.  Floating point numbers are their bit patterns, as in ElementAdd.v. *)
From Coq Require Import ZArith List Bool.
From Verif Require Import MBuf MemPool Buffer Lines ElementAdd EndOfTurn.
Import ListNotations.
Local Open Scope Z_scope.

(* The fields that the functions X_clear set: the number of the field and its value, in the
   order of the calls. *)
Definition clear_fields (F : floats) (t : Z) : list (Z * Z) :=
  let X := f_xlim F in let Y := f_ylim F in
  let a := f_mul F X X in let b := f_mul F Y Y in
  (* be_drift.h 316-321, 455-460 *)
  if t =? T_DRIFT then [(0, f_zero)]
  else if t =? T_DRIFT_EXACT then [(0, f_zero)]
  (* be_multipole.h 353-365 *)
  else if t =? T_MULTIPOLE then [(1, f_zero); (2, f_zero); (3, f_zero); (0, 0); (4, 0)]
  (* be_rfmultipole.h 447-464 *)
  else if t =? T_RF_MULTIPOLE then [(0, 0); (1, f_zero); (2, f_zero); (3, f_zero); (4, 0); (5, 0)]
  (* be_xyshift.h 191-197; be_srotation.h 244-251; be_cavity.h 218-227 *)
  else if t =? T_XYSHIFT then [(0, f_zero); (1, f_zero)]
  else if t =? T_SROTATION then [(0, f_one); (1, f_zero)]
  else if t =? T_CAVITY then [(0, f_zero); (1, f_zero); (2, f_zero)]
  (* be_beamfields.h 1653-1664, 1900-1911: the address, then the size *)
  else if t =? T_BB4D then [(1, 0); (0, 0)]
  else if t =? T_BB6D then [(1, 0); (0, 0)]
  (* be_beamfields.h 2398-2417, 2717-2745: q = 1 is below 3; min_sigma_diff (7) of the second
     is not set *)
  else if t =? T_SC_COASTING then
    [(0, f_zero); (1, f_one); (2, f_one); (3, f_one); (4, f_zero); (5, f_zero); (6, f_zero); (7, f_tiny);
     (8, flag true)]
  else if t =? T_SC_QGAUSS then
    [(0, f_zero); (1, f_one); (2, f_one); (3, f_one); (4, f_zero); (5, f_zero); (6, f_zero); (8, f_one);
     (9, f_cq F f_one); (10, flag true)]
  (* be_monitor.h 481-500 *)
  else if t =? T_MONITOR then
    [(0, 0); (1, 0); (2, 1); (6, flag false); (7, flag true); (3, 0); (5, minus_one); (4, minus_one)]
  (* be_limit_rect.h 220-236; be_limit_ellipse.h 214-220, 290-318; be_limit_rect_ellipse.h
     247-268; be_limit/definitions.h 20-42 *)
  else if t =? T_LIMIT_RECT then [(0, f_neg X); (1, X); (2, f_neg Y); (3, Y)]
  else if t =? T_LIMIT_ELLIPSE then
    if ge0 a && ge0 b then [(0, a); (1, b); (2, f_mul F a b)] else []
  else if t =? T_LIMIT_RECT_ELLIPSE then [(0, X); (1, Y); (2, a); (3, b); (4, f_mul F a b)]
  (* be_dipedge.h 203-211 *)
  else if t =? T_DIPEDGE then [(0, f_zero); (1, f_one)]
  (* be_tricub.h 1151-1181: the address of the field map (7) is not set *)
  else if t =? T_TRICUB then
    [(0, f_zero); (1, f_zero); (2, f_zero); (3, f_zero); (4, f_zero); (5, f_zero); (6, f_zero)]
  (* be_tricub.h 616-637: the numbers of points (2, 5, 8) and the address (12) are not set *)
  else if t =? T_TRICUB_DATA then
    [(0, f_zero); (1, f_zero); (3, f_zero); (4, f_zero); (6, f_zero); (7, f_zero); (9, 0); (10, 0); (11, 0)]
  (* no case for interpolated space charge, its data, and other objects *)
  else [].

(* set_field of EndOfTurn.v for each of them, in the element at address a *)
Fixpoint set_fields (b : buffer) (a : Z) (l : list (Z * Z)) : option buffer :=
  match l with
  | [] => Some b
  | (k, v) :: r => b' <- set_field b a k v ;; set_fields b' a r
  end.

(* definitions.h: SIXTRACKLIB_SET_VALUES( real_t, p, n, 0.0 ) *)
Fixpoint zero_words (b : buffer) (p : Z) (n : nat) : option buffer :=
  match n with
  | O => Some b
  | S k => b' <- set_field b p 0 f_zero ;; zero_words b' (p + 8) k
  end.

(* be_tricub.h 639-656: the table of a field map; 750-756: its size *)
Definition clear_table (b : buffer) (a : Z) : option buffer :=
  let m := b_mem b in
  nx <- rd m (a + 16) ;; ny <- rd m (a + 40) ;; nz <- rd m (a + 64) ;;
  n <- table_size nx ny nz ;;
  p <- rd m (a + 96) ;;
  if (0 <? n) && negb (p =? 0) then zero_words b p (Z.to_nat n) else Some b.

(* beam_elements.h 788-966: BeamElements_clear_object; obj: address of the object index entry *)
Definition clear_object (F : floats) (b : buffer) (obj : Z) : option buffer :=
  if obj =? 0 then Some b else
  t <- rd (b_mem b) (obj + 8) ;;
  a <- rd (b_mem b) obj ;;
  if a =? 0 then Some b else
  b1 <- set_fields b a (clear_fields F t) ;;
  if t =? T_TRICUB_DATA then clear_table b1 a else Some b1.

Fixpoint clear_objects (F : floats) (b : buffer) (it : Z) (n : nat) : option buffer :=
  match n with
  | O => Some b
  | S k => b' <- clear_object F b it ;; clear_objects F b' (it + 24) k
  end.

(* beam_elements.h 1540-1559: BeamElements_clear_buffer; the loop ends when it is end, which
   is not changed by it *)
Definition clear_line (F : floats) (b : buffer) : option buffer :=
  let it := object_addr (b_h b) in
  n <- range_length it (objects_end b) ;;
  clear_objects F b it n.
