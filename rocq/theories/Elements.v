(* Beam elements and their tracking maps (single particle), for an arbitrary
   number type.  Each map is the corresponding Track_particle_* function with
   the operations in the order in which the C code performs them.
   SIXTRL_ASSERTs (definitions.h 329: assert() on the host, nothing on GPUs) are
   not modelled, i.e. the model is that of a build with NDEBUG. *)
From Coq Require Import ZArith List Bool.
From Verif Require Import Num Particle Energy Interp TriCub BeamFields.
Import ListNotations.

Set Implicit Arguments.

(* Output particle sets: the Particles objects of the output buffer that beam
   monitors / the element-by-element store write to.  Simplification: an
   out_address is the index of such a set instead of a raw pointer, and a set is
   a list of particles (array-of-structs view of the 21 attribute arrays). *)
Definition outsets (T : Type) := list (list (particle T)).

(* replace position [i] of a list *)
Fixpoint upd {A : Type} (l : list A) (i : nat) (v : A) : list A :=
  match l, i with
  | [], _ => []
  | _ :: t, O => v :: t
  | h :: t, S i' => h :: upd t i' v
  end.

(* be_monitor/be_monitor.h: struct BeamMonitor *)
Record monitor := mkMonitor {
  m_num_stores : Z; m_start : Z; m_skip : Z;
  m_out : option nat;          (* out_address, None = 0 *)
  m_max_id : Z; m_min_id : Z;
  m_rolling : bool; m_turn_ordered : bool }.

Inductive element (T : Type) :=
| BDrift (length : T)                                   (* be_drift.h *)
| BDriftExact (length : T)
| BMultipole (order : nat) (length hxl hyl : T) (bal : list T)  (* be_multipole.h *)
| BRFMultipole (order : nat) (voltage frequency lag : T) (bal phase : list T)
| BCavity (voltage frequency lag : T)                   (* be_cavity.h *)
| BXYShift (dx dy : T)                                  (* be_xyshift.h *)
| BSRotation (cos_z sin_z : T)                          (* be_srotation.h *)
| BMonitor (m : monitor)                                (* be_monitor.h *)
| BLimitRect (min_x max_x min_y max_y : T)              (* be_limit_rect.h *)
| BLimitEllipse (a_squ b_squ a_b_squ : T)               (* be_limit_ellipse.h *)
| BLimitRectEllipse (max_x max_y a_squ b_squ a_squ_b_squ : T)
| BDipoleEdge (r21 r43 : T)                             (* be_dipedge.h *)
| BTriCub (t : tricub T)                                (* be_tricub.h *)
| BTriCubData (d : tricub_data T)
| BBeamBeam4D (b : bb4d T)                              (* be_beamfields.h *)
| BBeamBeam6D (b : bb6d T)
| BSCCoasting (s : sc_coasting T)
| BSCQGauss (s : sc_qgauss T)
| BSCInterpolated (s : sc_interpolated T)
| BUnknown.                   (* any other type id: dispatcher default case *)

Arguments BDrift {T}. Arguments BDriftExact {T}.
Arguments BMultipole {T}. Arguments BRFMultipole {T}. Arguments BCavity {T}.
Arguments BXYShift {T}. Arguments BSRotation {T}. Arguments BMonitor {T}.
Arguments BLimitRect {T}. Arguments BLimitEllipse {T}.
Arguments BLimitRectEllipse {T}. Arguments BDipoleEdge {T}.
Arguments BTriCub {T}. Arguments BTriCubData {T}. Arguments BBeamBeam4D {T}.
Arguments BBeamBeam6D {T}. Arguments BSCCoasting {T}. Arguments BSCQGauss {T}.
Arguments BSCInterpolated {T}. Arguments BUnknown {T}.

(* Build-time switches of the maps (generated/config.h.template 13-50, used in
   track/track.h 424-575): macro not defined / ENABLED / SKIP / DISABLED *)
Inductive map_mode := MUndef | MEnabled | MSkip | MDisabled.

(* Build-time switch SIXTRL_APERTURE_CHECK_AT_DRIFT (cmake/SetupFeatures.cmake
   104-122): not defined / always = 2 / conditional = 1 / never = 0 *)
Inductive aperture_mode := AUndef | AAlways | AConditional | ANever.

(* Build-time configuration.  [c_min_drift] = value of
   SIXTRL_APERTURE_CHECK_MIN_DRIFT_LENGTH, None = not defined. *)
Record config (T : Type) := mkConfig {
  c_aperture : aperture_mode;
  c_min_drift : option T;
  c_x_limit : T; c_y_limit : T;
  c_tricub : map_mode; c_bb4d : map_mode; c_bb6d : map_mode; c_sc : map_mode }.

Section Maps.
Variable T : Type.
Variable N : NumOps T.

Notation "a +. b" := (nadd N a b) (at level 50, left associativity).
Notation "a -. b" := (nsub N a b) (at level 50, left associativity).
Notation "a *. b" := (nmul N a b) (at level 40, left associativity).
Notation "a /. b" := (ndiv N a b) (at level 40, left associativity).
Notation "-. a" := (nopp N a) (at level 35, right associativity).
Notation "'#' z" := (nofZ N z) (at level 5).

(* (real_t)(boolean expression) *)
Definition b2t (b : bool) : T := if b then #1 else #0.

(* (index_t)(boolean expression) *)
Definition b2z (b : bool) : Z := if b then 1%Z else 0%Z.

(* be_drift/track.h 45-70 *)
Definition track_drift (length : T) (p : particle T) : particle T :=
  let rpp := p_rpp p in
  let xp := p_px p *. rpp in
  let yp := p_py p *. rpp in
  let dzeta := p_rvv p -. (#1 +. (xp *. xp +. yp *. yp) /. #2) in
  let p := set_x (p_x p +. xp *. length) p in
  let p := set_y (p_y p +. yp *. length) p in
  let p := set_s (p_s p +. length) p in
  set_zeta (p_zeta p +. length *. dzeta) p.

(* be_drift/track.h 74-98 *)
Definition track_drift_exact (length : T) (p : particle T) : particle T :=
  let px := p_px p in
  let py := p_py p in
  let opd := p_delta p +. #1 in
  let lpzi := length /. nsqrt N (opd *. opd -. (px *. px +. py *. py)) in
  let dzeta := p_rvv p *. length -. opd *. lpzi in
  let p := set_x (p_x p +. px *. lpzi) p in
  let p := set_y (p_y p +. py *. lpzi) p in
  let p := set_s (p_s p +. length) p in
  set_zeta (p_zeta p +. dzeta) p.

(* Multipole_bal: be_multipole.h, bal[index].  Reads beyond the array are
   undefined behaviour in C; the model returns 0.0, theorems only use arrays of
   length >= 2*order+2. *)
Definition bal_at (bal : list T) (i : nat) : T := nth i bal (nzero N).

(* be_multipole/track.h 66-79: Horner loop; [k] = index_x / 2 *)
Fixpoint multipole_loop (bal : list T) (x y : T) (k : nat) (dpx dpy : T) : T * T :=
  match k with
  | O => (dpx, dpy)
  | S k' =>
    let zre := dpx *. x -. dpy *. y in
    let zim := dpx *. y +. dpy *. x in
    multipole_loop bal x y k' (bal_at bal (2 * k') +. zre)
                              (bal_at bal (2 * k' + 1) +. zim)
  end.

(* be_multipole/track.h 38-112 *)
Definition track_multipole (order : nat) (length hxl hyl : T) (bal : list T)
    (p : particle T) : particle T :=
  let x := p_x p in
  let y := p_y p in
  let chi := p_chi p in
  let d := multipole_loop bal x y order (bal_at bal (2 * order))
                                        (bal_at bal (2 * order + 1)) in
  let dpx := (-. chi) *. fst d in
  let dpy := chi *. snd d in
  if nltb N (#0) hxl || nltb N (#0) hyl || nltb N hxl (#0) || nltb N hyl (#0) then
    let delta := p_delta p in
    let hxlx := x *. hxl in
    let hyly := y *. hyl in
    let p := set_zeta (p_zeta p +. chi *. (hyly -. hxlx)) p in
    let dpx := dpx +. (hxl +. hxl *. delta) in
    let dpy := dpy -. (hyl +. hyl *. delta) in
    let dd := if nltb N (#0) length then
                let b1l := chi *. bal_at bal 0 in
                let a1l := chi *. bal_at bal 1 in
                (dpx -. b1l *. hxlx /. length, dpy +. a1l *. hyly /. length)
              else (dpx, dpy) in
    let p := set_px (p_px p +. fst dd) p in
    set_py (p_py p +. snd dd) p
  else
    let p := set_px (p_px p +. dpx) p in
    set_py (p_py p +. dpy) p.

(* be_cavity/track.h 39-67 *)
Definition track_cavity (voltage frequency lag : T) (p : particle T) : particle T :=
  let deg2rad := npi N /. #180 in
  let k_factor := (#2 *. npi N) /. nclight N in
  let q := p_q0 p *. p_charge_ratio p in
  let tau := p_zeta p /. (p_beta0 p *. p_rvv p) in
  let phase := deg2rad *. lag -. k_factor *. frequency *. tau in
  let energy := q *. voltage *. nsin N phase in
  add_to_energy N energy p.

(* be_rfmultipole/track.h 79-100: loop body, kk counts up from 0 to order *)
Definition rfm_step (bal phase : list T) (x y ktau : T) (kk : nat)
    (st : T * T * T * T * T) : T * T * T * T * T :=
  match st with
  | (dpx, dpy, dptr, zre, zim) =>
    let pn := ndeg2rad N *. bal_at phase (2 * kk) -. ktau in
    let ps := (npi N /. #180) *. bal_at phase (2 * kk + 1) -. ktau in
    let bn := bal_at bal (2 * kk) in
    let bs := bal_at bal (2 * kk + 1) in
    let cn := ncos N pn in let cs := ncos N ps in
    let sn := nsin N pn in let ss := nsin N ps in
    let dpx := dpx +. (cn *. (bn *. zre) -. cs *. (bs *. zim)) in
    let dpy := dpy +. (cs *. (bs *. zre) +. cn *. (bn *. zim)) in
    let zret := zre *. x -. zim *. y in
    let zim := zim *. x +. zre *. y in
    let zre := zret in
    let dptr := dptr +. (sn *. (bn *. zre) -. ss *. (bs *. zim)) in
    (dpx, dpy, dptr, zre, zim)
  end.

(* be_rfmultipole/track.h 39-118 *)
Definition track_rfmultipole (order : nat) (voltage frequency lag : T)
    (bal phase : list T) (p : particle T) : particle T :=
  let k := frequency *. (#2 *. npi N) /. nclight N in
  let x := p_x p in
  let y := p_y p in
  let q := p_q0 p *. p_charge_ratio p *. ncharge0 N in
  let ktau := k *. p_zeta p /. (p_beta0 p *. p_rvv p) in
  match fold_left (fun st kk => rfm_step bal phase x y ktau kk st)
          (seq 0 (order + 1)) (#0, #0, #0, #1, #0) with
  | (dpx, dpy, dptr, _, _) =>
    let cav_energy := q *. (voltage *. nsin N (lag *. ndeg2rad N -. ktau)) in
    let rf_energy := (-. q) *. ((k *. p_p0c p) *. dptr) in
    let chi := p_chi p in
    let px_kick := (-. chi) *. dpx in
    let py_kick := chi *. dpy in
    let energy_kick := cav_energy +. rf_energy in
    let p := set_px (p_px p +. px_kick) p in
    let p := set_py (p_py p +. py_kick) p in
    add_to_energy N energy_kick p
  end.

(* be_xyshift/track.h 38-55 *)
Definition track_xyshift (dx dy : T) (p : particle T) : particle T :=
  let p := set_x (p_x p +. -. dx) p in
  set_y (p_y p +. -. dy) p.

(* be_srotation/track.h 38-69 *)
Definition track_srotation (cos_z sin_z : T) (p : particle T) : particle T :=
  let x := p_x p in let y := p_y p in
  let px := p_px p in let py := p_py p in
  let x_hat := cos_z *. x +. sin_z *. y in
  let y_hat := (-. sin_z) *. x +. cos_z *. y in
  let px_hat := cos_z *. px +. sin_z *. py in
  let py_hat := (-. sin_z) *. px +. cos_z *. py in
  set_py py_hat (set_px px_hat (set_y y_hat (set_x x_hat p))).

(* be_dipedge/track.h 37-51 *)
Definition track_dipedge (r21 r43 : T) (p : particle T) : particle T :=
  let p := set_px (p_px p +. r21 *. p_x p) p in
  set_py (p_py p +. r43 *. p_y p) p.

(* be_limit/track.h 54-88 *)
Definition track_limit_global (c : config T) (p : particle T) : particle T :=
  let x := p_x p in
  let y := p_y p in
  let sign_x := b2t (nltb N (#0) x) -. b2t (nltb N x (#0)) in
  let sign_y := b2t (nltb N (#0) y) -. b2t (nltb N y (#0)) in
  set_state (Z.land (p_state p)
     (Z.land (b2z (nltb N (sign_x *. x) (c_x_limit c)))
             (b2z (nltb N (sign_y *. y) (c_y_limit c))))) p.

(* be_limit/track.h 90-111 *)
Definition track_limit_rect (min_x max_x min_y max_y : T) (p : particle T)
  : particle T :=
  let x := p_x p in
  let y := p_y p in
  let new_state := b2z (nleb N min_x x && nleb N x max_x &&
                        nleb N min_y y && nleb N y max_y) in
  update_state_if_not_lost new_state p.

(* be_limit/track.h 113-137 *)
Definition track_limit_ellipse (a_squ b_squ a_b_squ : T) (p : particle T)
  : particle T :=
  let temp := p_x p *. p_x p *. b_squ in
  let y_squ := p_y p *. p_y p *. a_squ in
  let temp := temp +. y_squ in
  update_state_if_not_lost (b2z (nleb N temp a_b_squ)) p.

(* be_limit/track.h 139-162 *)
Definition track_limit_rect_ellipse (max_x max_y a_squ b_squ a_squ_b_squ : T)
    (p : particle T) : particle T :=
  let x := p_x p in
  let y := p_y p in
  let temp := x *. x *. b_squ in
  let temp := temp +. y *. y *. a_squ in
  let new_state := b2z (nleb N x max_x && nleb N (-. max_x) x &&
                        nleb N y max_y && nleb N (-. max_y) y &&
                        nleb N temp a_squ_b_squ) in
  update_state_if_not_lost new_state p.

(* be_monitor/track.h 47-112: BeamMonitor_get_store_particle_index.
   C's integer / and % truncate (Z.quot / Z.rem); skip = 0 or num_stores = 0
   would be a division by zero in C, theorems assume skip >= 1.  Particle
   ordering (line 106) multiplies by the number of particles, as in the code. *)
Definition monitor_store_index (m : monitor) (at_turn particle_id : Z) : Z :=
  let turns := (at_turn - m_start m)%Z in
  if (0 <=? turns)%Z && (Z.rem turns (m_skip m) =? 0)%Z then
    let store_idx := Z.quot turns (m_skip m) in
    let store_idx := if (m_num_stores m <=? store_idx)%Z && m_rolling m
                     then Z.rem store_idx (m_num_stores m) else store_idx in
    if (store_idx <? m_num_stores m)%Z then
      let off := (particle_id - m_min_id m)%Z in
      let np := (m_max_id m - m_min_id m + 1)%Z in
      if m_turn_ordered m then (np * store_idx + off)%Z
      else (off * np + store_idx)%Z
    else (-1)%Z
  else (-1)%Z.

(* particles.h 1695-1803: Particles_copy_to_generic_addr_data; the check is
   dest->num_particles > dest_idx only.  A negative destination index passes the
   check in C and writes out of bounds: modelled as [None] = undefined
   behaviour.  [Some (outs, status)] otherwise. *)
Definition store_out (outs : outsets T) (k : nat) (idx : Z) (p : particle T)
  : option (outsets T * Z) :=
  match nth_error outs k with
  | None => None
  | Some l =>
    if (idx <? Z.of_nat (List.length l))%Z then
      if (0 <=? idx)%Z then Some (upd outs k (upd l (Z.to_nat idx) p), 0%Z)
      else None
    else Some (outs, (-1)%Z)
  end.

(* be_monitor/track.h 114-170: Track_particle_beam_monitor *)
Definition track_monitor (m : monitor) (p : particle T) (outs : outsets T)
  : option (particle T * outsets T * Z) :=
  match m_out m with
  | None => Some (p, outs, 0%Z)
  | Some k =>
    let idx := monitor_store_index m (p_at_turn p) (p_particle_id p) in
    if (0 <=? idx)%Z then
      match store_out outs k idx p with
      | None => None
      | Some (outs', st) =>
        if (st =? 0)%Z then Some (p, outs', st)
        else Some (set_state 0 p, outs', st)
      end
    else Some (p, outs, 0%Z)
  end.

(* track/track.h 182-206 and 227-313: is the global aperture check performed
   after a (exact) drift of this length?  In the conditional mode the length is
   compared with the value of the macro SIXTRL_APERTURE_CHECK_AT_DRIFT itself (1
   in that mode), as in the code, not with the configured minimal length. *)
Definition drift_check (c : config T) (length : T) : bool :=
  match c_aperture c with
  | AUndef | AAlways => true
  | AConditional =>
    match c_min_drift c with
    | Some _ => nleb N (#1) length
    | None => true
    end
  | ANever => false
  end.

(* the #if / #elif / #else around the maps in track/track.h 424-575 *)
Definition run_map (m : map_mode) (f : particle T -> option (particle T))
    (p : particle T) (outs : outsets T) : option (particle T * outsets T * Z) :=
  match m with
  | MUndef | MEnabled =>
    match f p with Some p => Some (p, outs, 0%Z) | None => None end
  | MSkip => Some (p, outs, 0%Z)
  | MDisabled => Some (p, outs, (-1)%Z)
  end.

(* track/track.h 182-584:
   Track_particle_beam_element_obj_dispatcher(_aperture_check).
   None = undefined behaviour (monitor output index / address invalid, table or
   profile read out of bounds).  The case label of SCInterpolatedProfile is inside
   the #if of the previous case, so that with space charge skipped or disabled
   these elements are handled by the default case. *)
Definition dispatch (c : config T) (be : element T) (p : particle T)
    (outs : outsets T) : option (particle T * outsets T * Z) :=
  match be with
  | BDrift l =>
      let p := track_drift l p in
      Some (if drift_check c l then track_limit_global c p else p, outs, 0%Z)
  | BDriftExact l =>
      let p := track_drift_exact l p in
      Some (if drift_check c l then track_limit_global c p else p, outs, 0%Z)
  | BMultipole order l hxl hyl bal =>
      Some (track_multipole order l hxl hyl bal p, outs, 0%Z)
  | BRFMultipole order v f lag bal ph =>
      Some (track_rfmultipole order v f lag bal ph p, outs, 0%Z)
  | BCavity v f lag => Some (track_cavity v f lag p, outs, 0%Z)
  | BXYShift dx dy => Some (track_xyshift dx dy p, outs, 0%Z)
  | BSRotation cz sz => Some (track_srotation cz sz p, outs, 0%Z)
  | BMonitor m => track_monitor m p outs
  | BLimitRect a b c' d => Some (track_limit_rect a b c' d p, outs, 0%Z)
  | BLimitEllipse a b ab => Some (track_limit_ellipse a b ab p, outs, 0%Z)
  | BLimitRectEllipse mx my a b ab =>
      Some (track_limit_rect_ellipse mx my a b ab p, outs, 0%Z)
  | BDipoleEdge r21 r43 => Some (track_dipedge r21 r43 p, outs, 0%Z)
  | BTriCub t => run_map (c_tricub c) (track_tricub N t) p outs
  | BTriCubData _ =>
      match c_tricub c with
      | MEnabled | MSkip => Some (p, outs, 0%Z)
      | MUndef | MDisabled => Some (p, outs, (-1)%Z)
      end
  | BBeamBeam4D b => run_map (c_bb4d c) (track_bb4d N b) p outs
  | BBeamBeam6D b => run_map (c_bb6d c) (track_bb6d N b) p outs
  | BSCCoasting s => run_map (c_sc c) (track_sc_coasting N s) p outs
  | BSCQGauss s => run_map (c_sc c) (track_sc_qgauss N s) p outs
  | BSCInterpolated s =>
      match c_sc c with
      | MUndef | MEnabled => run_map (c_sc c) (track_sc_interpolated N s) p outs
      | MSkip | MDisabled => Some (mark_as_lost p, outs, (-1)%Z)
      end
  | BUnknown => Some (mark_as_lost p, outs, (-1)%Z)
  end.

End Maps.
