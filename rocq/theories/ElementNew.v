(* Creating new (default) elements of the kinds of the elements of a line:
   sixtracklib/common/beam_elements.h.

   As in Lines.v the line lies in the block m, which is not the block of the buffer.  st k i
   is the content of the uninitialised struct on the stack during the k-th call, hps k the
   heap during the k-th call.  Beam-beam elements are compiled in. *)
From Coq Require Import ZArith List Bool.
From Verif Require Import MBuf MemPool Buffer Lines ElementAdd.
Import ListNotations.
Local Open Scope Z_scope.

(* the new struct: as many words of the stack as it has *)
Definition on_stack (stack : nat -> Z) (c : call) : list Z := map stack (seq 0 (struct_words c)).

(* X_new( buffer, ... ): the pointers of the new element are NULL, so that no memory of the
   caller is read *)
Definition new_element (F : floats) (hp : heap) (b : buffer) (stack : nat -> Z) (c : call)
  : option (Z * buffer) :=
  add_element F hp b (fun _ => None) (on_stack stack c) c.

(* beam_elements.h 1033-1228: BeamElements_add_single_new_to_buffer *)
Definition add_single_new (F : floats) (hp : heap) (b : buffer) (stack : nat -> Z) (m : mem) (obj : Z)
  : option (Z * buffer) :=
  if obj =? 0 then Some (-1, b) else
  a <- rd m obj ;;
  t <- rd m (obj + 8) ;;
  let sign c := with_status st_sign (new_element F hp b stack c) in
  let bool c := with_status st_bool (new_element F hp b stack c) in
  if t =? T_DRIFT then sign NewDrift
  else if t =? T_DRIFT_EXACT then sign NewDriftExact
  else if t =? T_MULTIPOLE then (order <- rd m a ;; sign (NewMultipole order))
  else if t =? T_RF_MULTIPOLE then (order <- rd m a ;; sign (NewRFMultipole order))
  else if t =? T_XYSHIFT then sign NewXYShift
  else if t =? T_SROTATION then sign NewSRotation
  else if t =? T_CAVITY then sign NewCavity
  else if t =? T_BB4D then (size <- rd m a ;; bool (NewBeamBeam4D size))
  else if t =? T_BB6D then (size <- rd m a ;; bool (NewBeamBeam6D size))
  else if t =? T_SC_COASTING then bool NewSCCoasting
  else if t =? T_SC_QGAUSS then bool NewSCQGauss
  else if t =? T_SC_INTERPOLATED then bool NewSCInterpolated
  else if t =? T_MONITOR then bool NewMonitor
  else if t =? T_LIMIT_RECT then bool NewLimitRect
  else if t =? T_LIMIT_ELLIPSE then bool NewLimitEllipse
  else if t =? T_LIMIT_RECT_ELLIPSE then bool NewLimitRectEllipse
  else if t =? T_DIPEDGE then bool NewDipoleEdge
  else if t =? T_TRICUB then sign NewTriCub
  else if t =? T_TRICUB_DATA then
    (* be_tricub.h 33-53: nx, ny and nz are the fields number 2, 5 and 8 *)
    (nx <- rd m (a + 16) ;; ny <- rd m (a + 40) ;; nz <- rd m (a + 64) ;; sign (NewTriCubData nx ny nz))
  else Some (-1, b).

(* beam_elements.h 1499-1508: the loop of add_new_to_buffer *)
Fixpoint new_loop (F : floats) (hps : nat -> heap) (st : nat -> nat -> Z) (b : buffer) (m : mem)
  (it : Z) (n : nat) : option (Z * buffer) :=
  match n with
  | O => Some (0, b)
  | S k =>
    '(ret, b') <- add_single_new F (hps O) b (st O) m it ;;
    if ret =? 0 then new_loop F (fun i => hps (S i)) (fun i => st (S i)) b' m (it + 24) k
    else Some (ret, b')
  end.

(* beam_elements.h 1488-1512: BeamElements_add_new_to_buffer *)
Definition add_new_to_buffer (F : floats) (hps : nat -> heap) (st : nat -> nat -> Z) (b : buffer)
  (m : mem) (it fin : Z) : option (Z * buffer) :=
  if (it =? 0) || (fin =? 0) then Some (-1, b) else
  n <- range_length it fin ;;
  let success := if 0 <? fin - it then 0 else -1 in
  '(ret, b') <- new_loop F hps st b m it n ;;
  Some (Z.lor success ret, b').
