(* Beam-beam and space-charge elements for an arbitrary number type:
   be_beamfields/{track.h, gauss_fields.h, faddeeva_cern.h, be_beamfields.h} and
   internal/math_qgauss.h.  [None] = undefined behaviour (array read out of
   bounds or conversion of a non-representable value to an integer). *)
From Coq Require Import ZArith List Bool.
From Verif Require Import Num Particle Energy Interp.
Import ListNotations.

Set Implicit Arguments.

(* be_beamfields.h 43-56: struct BB4D_data (the data address of BeamBeam4D is
   replaced by the data itself) *)
Record bb4d (T : Type) := mkBB4D {
  b4_q_part : T; b4_N_part : T; b4_sigma_x : T; b4_sigma_y : T; b4_beta_s : T;
  b4_min_sigma_diff : T; b4_Delta_x : T; b4_Delta_y : T;
  b4_Dpx_sub : T; b4_Dpy_sub : T; b4_enabled : T }.

(* be_beamfields.h 201-207: BB6D_boost_data *)
Record boost_data (T : Type) := mkBoost {
  bo_sphi : T; bo_cphi : T; bo_tphi : T; bo_salpha : T; bo_calpha : T }.

(* be_beamfields.h 209-220: BB6D_Sigmas *)
Record sigmas (T : Type) := mkSigmas {
  sg_11 : T; sg_12 : T; sg_13 : T; sg_14 : T; sg_22 : T;
  sg_23 : T; sg_24 : T; sg_33 : T; sg_34 : T; sg_44 : T }.

(* one entry of the four slice arrays *)
Record slice (T : Type) := mkSlice {
  sl_N_part : T; sl_x : T; sl_y : T; sl_sigma : T }.

(* be_beamfields.h 222-250: BB6D_data; the four arrays of N_slices entries are one
   list of slices *)
Record bb6d (T : Type) := mkBB6D {
  b6_q_part : T; b6_parboost : boost_data T; b6_Sigmas : sigmas T;
  b6_min_sigma_diff : T; b6_threshold_singular : T;
  b6_delta_x : T; b6_delta_y : T;
  b6_x_CO : T; b6_px_CO : T; b6_y_CO : T; b6_py_CO : T; b6_sigma_CO : T; b6_delta_CO : T;
  b6_Dx_sub : T; b6_Dpx_sub : T; b6_Dy_sub : T; b6_Dpy_sub : T;
  b6_Dsigma_sub : T; b6_Ddelta_sub : T; b6_enabled : T;
  b6_slices : list (slice T) }.

(* be_beamfields.h 418-430: struct SCCoasting *)
Record sc_coasting (T : Type) := mkSCCoasting {
  sc_number_of_particles : T; sc_circumference : T; sc_sigma_x : T; sc_sigma_y : T;
  sc_length : T; sc_x_co : T; sc_y_co : T; sc_min_sigma_diff : T; sc_enabled : Z }.

(* be_beamfields.h 638-652: struct SCQGaussProfile *)
Record sc_qgauss (T : Type) := mkSCQGauss {
  sq_number_of_particles : T; sq_bunchlength_rms : T; sq_sigma_x : T; sq_sigma_y : T;
  sq_length : T; sq_x_co : T; sq_y_co : T; sq_min_sigma_diff : T;
  sq_q_param : T; sq_cq : T; sq_enabled : Z }.

(* be_beamfields.h 1281-1294: struct SCInterpolatedProfile; the address of the
   profile data is replaced by the data (None = null pointer) *)
Record sc_interpolated (T : Type) := mkSCInterpolated {
  si_number_of_particles : T; si_sigma_x : T; si_sigma_y : T; si_length : T;
  si_x_co : T; si_y_co : T; si_data : option (line_density T);
  si_fallback : T; si_min_sigma_diff : T; si_enabled : Z }.

Section Fields.
Variable T : Type.
Variable N : NumOps T.

Local Notation "a +. b" := (nadd N a b) (at level 50, left associativity).
Local Notation "a -. b" := (nsub N a b) (at level 50, left associativity).
Local Notation "a *. b" := (nmul N a b) (at level 40, left associativity).
Local Notation "a /. b" := (ndiv N a b) (at level 40, left associativity).
Local Notation "-. a" := (nopp N a) (at level 35, right associativity).
Local Notation "'#' z" := (nofZ N z) (at level 5).
Local Notation "a <. b" := (nltb N a b) (at level 70, no associativity).

Definition half : T := ndec N 5 (-1).

(* faddeeva_cern.h 73-79: loop computing Rx[n-1], Ry[n-1] from Rx[n], Ry[n], for
   n = k .. 1; [acc] = the entries n .. nu computed so far, head = entry n *)
Fixpoint cerrf_rxy (xh yh : T) (k : nat) (acc : list (T * T)) : list (T * T) :=
  match k with
  | O => acc
  | S k' =>
    let r := hd (nzero N, nzero N) acc in
    let Tx := xh +. nofZ N (Z.of_nat k) *. fst r in
    let Ty := yh -. nofZ N (Z.of_nat k) *. snd r in
    let Tn := Tx *. Tx +. Ty *. Ty in
    cerrf_rxy xh yh k' ((half *. Tx /. Tn, half *. Ty /. Tn) :: acc)
  end.

(* faddeeva_cern.h 83-88: second loop, n = k .. 1 *)
Fixpoint cerrf_sum (h : T) (R : list (T * T)) (k : nat) (xl Sx Sy : T) : option (T * T) :=
  match k with
  | O => Some (Sx, Sy)
  | S k' =>
    match nth_error R k' with
    | None => None
    | Some r =>
      let Saux := Sx +. xl in
      cerrf_sum h R k' (h *. xl) (fst r *. Saux -. snd r *. Sy) (fst r *. Sy +. snd r *. Saux)
    end
  end.

(* faddeeva_cern.h 98-104: loop on Rx[0], Ry[0] for n = k .. 1 *)
Fixpoint cerrf_r0 (xh yh : T) (k : nat) (r : T * T) : T * T :=
  match k with
  | O => r
  | S k' =>
    let Tx := xh +. nofZ N (Z.of_nat k) *. fst r in
    let Ty := yh -. nofZ N (Z.of_nat k) *. snd r in
    let Tn := Tx *. Tx +. Ty *. Ty in
    cerrf_r0 xh yh k' (half *. Tx /. Tn, half *. Ty /. Tn)
  end.

(* faddeeva_cern.h 45-120: cerrf.  The local arrays have 33 entries. *)
Definition cerrf (in_real in_imag : T) : option (T * T) :=
  let a_constant := ndec N 112837916709551 (-14) in
  let xLim := ndec N 533 (-2) in
  let yLim := ndec N 429 (-2) in
  let x := nabs N in_real in
  let y := nabs N in_imag in
  obind
    (if (y <. yLim) && (x <. xLim) then
       let q := (#1 -. y /. yLim) *. nsqrt N (#1 -. (x /. xLim) *. (x /. xLim)) in
       let h := #1 /. (ndec N 32 (-1) *. q) in
       obind (ntruncZ N (#23 *. q)) (fun i23 =>
       obind (ntruncZ N (#21 *. q)) (fun i21 =>
       let nc := (7 + i23)%Z in
       let nu := (10 + i21)%Z in
       let xl := npow N h (nofZ N (1 - nc)) in
       let xh := y +. half /. h in
       if (0 <=? nu)%Z && (nu <? 33)%Z then
         let R := cerrf_rxy xh x (Z.to_nat nu) [(nzero N, nzero N)] in
         obind (cerrf_sum h R (Z.to_nat nc) xl (nzero N) (nzero N)) (fun s =>
           Some (a_constant *. fst s, a_constant *. snd s))
       else None))
     else
       let r := cerrf_r0 y x 9 (nzero N, nzero N) in
       Some (a_constant *. fst r, a_constant *. snd r))
    (fun w =>
     let Wx := if neqb N y (#0) then nexp N ((-. x) *. x) else fst w in
     let Wy := snd w in
     if in_imag <. #0 then
       let Wx := #2 *. nexp N (y *. y -. x *. x) *. ncos N (#2 *. x *. y) -. Wx in
       let Wy := (-. #2) *. nexp N (y *. y -. x *. x) *. nsin N (#2 *. x *. y) -. Wy in
       Some (Wx, if #0 <. in_real then -. Wy else Wy)
     else Some (Wx, if in_real <. #0 then -. Wy else Wy)).

(* gauss_fields.h 56-70: get_transv_field_gauss_round *)
Definition field_round (sigma Delta_x Delta_y x y : T) : T * T :=
  let r2 := (x -. Delta_x) *. (x -. Delta_x) +. (y -. Delta_y) *. (y -. Delta_y) in
  let temp :=
    if r2 <. ndec N 1 (-20)
    then nsqrt N r2 /. (#2 *. npi N *. nepsilon0 N *. sigma)
    else (#1 -. nexp N ((-. half) *. r2 /. (sigma *. sigma)))
           /. (#2 *. npi N *. nepsilon0 N *. r2) in
  (temp *. (x -. Delta_x), temp *. (y -. Delta_y)).

(* gauss_fields.h 72-146: get_transv_field_gauss_ellip *)
Definition field_ellip (sigmax sigmay Delta_x Delta_y x y : T) : option (T * T) :=
  let abx := nabs N (x -. Delta_x) in
  let aby := nabs N (y -. Delta_y) in
  obind
    (if sigmay <. sigmax then
       let S := nsqrt N (#2 *. (sigmax *. sigmax -. sigmay *. sigmay)) in
       let factBE := #1 /. (#2 *. nepsilon0 N *. nsqrtpi N *. S) in
       let eta_re := sigmay /. sigmax *. abx in
       let eta_im := sigmax /. sigmay *. aby in
       obind (cerrf (abx /. S) (aby /. S)) (fun w_zeta =>
       obind (cerrf (eta_re /. S) (eta_im /. S)) (fun w_eta =>
       let expBE := nexp N ((-. abx) *. abx /. (#2 *. sigmax *. sigmax)
                            -. aby *. aby /. (#2 *. sigmay *. sigmay)) in
       Some (factBE *. (snd w_zeta -. snd w_eta *. expBE),
             factBE *. (fst w_zeta -. fst w_eta *. expBE))))
     else if sigmax <. sigmay then
       let S := nsqrt N (#2 *. (sigmay *. sigmay -. sigmax *. sigmax)) in
       let factBE := #1 /. (#2 *. nepsilon0 N *. nsqrtpi N *. S) in
       let eta_re := sigmax /. sigmay *. aby in
       let eta_im := sigmay /. sigmax *. abx in
       obind (cerrf (aby /. S) (abx /. S)) (fun w_zeta =>
       obind (cerrf (eta_re /. S) (eta_im /. S)) (fun w_eta =>
       let expBE := nexp N ((-. aby) *. aby /. (#2 *. sigmay *. sigmay)
                            -. abx *. abx /. (#2 *. sigmax *. sigmax)) in
       Some (factBE *. (fst w_zeta -. fst w_eta *. expBE),
             factBE *. (snd w_zeta -. snd w_eta *. expBE))))
     else Some (#1 /. #0, #1 /. #0))
    (fun e =>
     Some (if (x -. Delta_x) <. #0 then -. fst e else fst e,
           if (y -. Delta_y) <. #0 then -. snd e else snd e)).

(* gauss_fields.h 150-208: get_Ex_Ey_Gx_Gy_gauss; (Ex, Ey, Gx, Gy), the G's are 0
   when skipped *)
Definition gauss_fields (x y sigma_x sigma_y min_sigma_diff : T) (skip_Gs : bool)
  : option (T * T * T * T) :=
  if nabs N (sigma_x -. sigma_y) <. min_sigma_diff then
    let sigma := half *. (sigma_x +. sigma_y) in
    let E := field_round sigma (nzero N) (nzero N) x y in
    let Ex := fst E in
    let Ey := snd E in
    if skip_Gs then Some (Ex, Ey, nzero N, nzero N)
    else
      let e := nexp N ((-. (x *. x +. y *. y)) /. (#2 *. sigma *. sigma)) in
      let k := #1 /. (#2 *. npi N *. nepsilon0 N *. sigma *. sigma) in
      Some (Ex, Ey,
            #1 /. (#2 *. (x *. x +. y *. y)) *. (y *. Ey -. x *. Ex +. k *. x *. x *. e),
            #1 /. (#2 *. (x *. x +. y *. y)) *. (x *. Ex -. y *. Ey +. k *. y *. y *. e))
  else
    obind (field_ellip sigma_x sigma_y (nzero N) (nzero N) x y) (fun E =>
    let Ex := fst E in
    let Ey := snd E in
    let Sig_11 := sigma_x *. sigma_x in
    let Sig_33 := sigma_y *. sigma_y in
    if skip_Gs then Some (Ex, Ey, nzero N, nzero N)
    else
      let e := nexp N ((-. x) *. x /. (#2 *. Sig_11) -. y *. y /. (#2 *. Sig_33)) in
      let k := #1 /. (#2 *. npi N *. nepsilon0 N) in
      Some (Ex, Ey,
            (-. #1) /. (#2 *. (Sig_11 -. Sig_33)) *.
              (x *. Ex +. y *. Ey +. k *. (sigma_y /. sigma_x *. e -. #1)),
            #1 /. (#2 *. (Sig_11 -. Sig_33)) *.
              (x *. Ex +. y *. Ey +. k *. (sigma_x /. sigma_y *. e -. #1)))).

(* be_beamfields/track.h 89-149: Track_particle_beam_beam_4d *)
Definition track_bb4d (b : bb4d T) (p : particle T) : option (particle T) :=
  if #0 <. b4_enabled b then
    let charge := #1 *. p_q0 p *. nqelem N in
    let x := p_x p -. b4_Delta_x b in
    let y := p_y p -. b4_Delta_y b in
    let chi := p_chi p in
    let beta := p_beta0 p /. p_rvv p in
    let p0c := p_p0c p *. nqelem N in
    obind (gauss_fields x y (b4_sigma_x b) (b4_sigma_y b) (b4_min_sigma_diff b) true)
      (fun E => let '(Ex, Ey, _, _) := E in
       let fact_kick := chi *. b4_N_part b *. b4_q_part b *. charge *.
                        (#1 +. beta *. b4_beta_s b) /. (p0c *. (beta +. b4_beta_s b)) in
       let px := p_px p +. (fact_kick *. Ex -. b4_Dpx_sub b) in
       let py := p_py p +. (fact_kick *. Ey -. b4_Dpy_sub b) in
       Some (set_py py (set_px px p)))
  else Some p.

(* add_to_px / add_to_py with the kicks fact * E *)
Definition add_kick (fact Ex Ey : T) (p : particle T) : particle T :=
  let p := set_px (p_px p +. fact *. Ex) p in
  set_py (p_py p +. fact *. Ey) p.

(* be_beamfields/track.h 154-198: Track_particle_space_charge_coasting; the
   [enabled] flag of the element is not read *)
Definition track_sc_coasting (s : sc_coasting T) (p : particle T) : option (particle T) :=
  let charge := ncharge0_si N *. p_q0 p in
  let beta0 := p_beta0 p in
  let pc0 := p_p0c p *. ncharge0_si N in
  let fact := sc_number_of_particles s *. sc_length s *. p_chi p *. p_charge_ratio p *.
              charge *. charge *. (#1 -. beta0 *. beta0) in
  let fact := fact /. (sc_circumference s *. pc0 *. beta0 *. p_rvv p) in
  obind (gauss_fields (p_x p -. sc_x_co s) (p_y p -. sc_y_co s) (sc_sigma_x s) (sc_sigma_y s)
           (sc_min_sigma_diff s) true)
    (fun E => let '(Ex, Ey, _, _) := E in Some (add_kick fact Ex Ey p)).

(* math_qgauss.h 114-134: Math_q_gauss_exp_q *)
Definition q_gauss_exp_q (x q : T) : T :=
  let one_minus_q := #1 -. q in
  let abs_one_minus_q := if nleb N (#0) one_minus_q then one_minus_q else -. one_minus_q in
  if nleb N (ndec N 1 (-6)) abs_one_minus_q then
    let u_plus := #1 +. one_minus_q *. x in
    let u_plus := if u_plus <. #0 then #0 else u_plus in
    npow N u_plus (#1 /. one_minus_q)
  else nexp N x.

(* math_qgauss.h 163-168: Math_q_gauss_sqrt_beta_from_gauss_sigma *)
Definition q_gauss_sqrt_beta (sigma : T) : T := #1 /. (nsqrt N (#2) *. sigma).

(* math_qgauss.h 170-180: Math_q_gauss *)
Definition q_gauss (x q sqrt_beta cq : T) : T :=
  (sqrt_beta /. cq) *. q_gauss_exp_q (-. (sqrt_beta *. sqrt_beta *. x *. x)) q.

(* be_beamfields/track.h 203-268: Track_particle_space_charge_qgaussian_profile *)
Definition track_sc_qgauss (s : sc_qgauss T) (p : particle T) : option (particle T) :=
  let charge := ncharge0_si N *. p_q0 p in
  let beta0 := p_beta0 p in
  let beta := beta0 *. p_rvv p in
  let pc0 := p_p0c p *. ncharge0_si N in
  let z := p_zeta p /. p_rvv p in
  let fact := p_chi p *. p_charge_ratio p *. sq_length s *. charge *. charge *.
              (#1 -. beta0 *. beta) in
  let fact := fact *. sq_number_of_particles s in
  let fact := fact *. q_gauss z (sq_q_param s) (q_gauss_sqrt_beta (sq_bunchlength_rms s)) (sq_cq s) in
  let fact := fact /. (pc0 *. beta) in
  obind (gauss_fields (p_x p -. sq_x_co s) (p_y p -. sq_y_co s) (sq_sigma_x s) (sq_sigma_y s)
           (sq_min_sigma_diff s) true)
    (fun E => let '(Ex, Ey, _, _) := E in Some (add_kick fact Ex Ey p)).

(* be_beamfields/track.h 273-337:
   Track_particle_space_charge_interpolated_profile *)
Definition track_sc_interpolated (s : sc_interpolated T) (p : particle T)
  : option (particle T) :=
  let charge := ncharge0_si N *. p_q0 p in
  let beta0 := p_beta0 p in
  let beta := beta0 *. p_rvv p in
  let pc0 := p_p0c p *. ncharge0_si N in
  let fact := p_chi p *. p_charge_ratio p *. si_length s *. si_number_of_particles s *.
              charge *. charge *. (#1 -. beta0 *. beta) in
  obind
    (match si_data s with
     | Some d =>
       if negb (ld_method d =? INTERPOL_NONE)%Z && (0 <? ld_num_values d)%Z
       then ld_interpolate N d (p_zeta p) else Some (si_fallback s)
     | None => Some (si_fallback s)
     end)
    (fun dens =>
     let fact := fact *. dens in
     let fact := fact /. (pc0 *. beta) in
     obind (gauss_fields (p_x p -. si_x_co s) (p_y p -. si_y_co s) (si_sigma_x s) (si_sigma_y s)
              (si_min_sigma_diff s) true)
       (fun E => let '(Ex, Ey, _, _) := E in Some (add_kick fact Ex Ey p))).

(* coordinates in the boosted frame: x, px, y, py, sigma, delta *)
Record star := mkStar {
  st_x : T; st_px : T; st_y : T; st_py : T; st_sigma : T; st_delta : T }.

(* be_beamfields.h 2101-2161: BeamBeam6D_boost *)
Definition bb6d_boost (b : boost_data T) (v : star) : star :=
  let sphi := bo_sphi b in let cphi := bo_cphi b in let tphi := bo_tphi b in
  let salpha := bo_salpha b in let calpha := bo_calpha b in
  let x := st_x v in let px := st_px v in let y := st_y v in let py := st_py v in
  let sigma := st_sigma v in let delta := st_delta v in
  let h := delta +. #1 -.
           nsqrt N ((#1 +. delta) *. (#1 +. delta) -. px *. px -. py *. py) in
  let px_st := px /. cphi -. h *. calpha *. tphi /. cphi in
  let py_st := py /. cphi -. h *. salpha *. tphi /. cphi in
  let delta_st := delta -. px *. calpha *. tphi -. py *. salpha *. tphi +. h *. tphi *. tphi in
  let pz_st := nsqrt N ((#1 +. delta_st) *. (#1 +. delta_st) -. px_st *. px_st -. py_st *. py_st) in
  let hx_st := px_st /. pz_st in
  let hy_st := py_st /. pz_st in
  let hsigma_st := #1 -. (delta_st +. #1) /. pz_st in
  let L11 := #1 +. hx_st *. calpha *. sphi in
  let L12 := hx_st *. salpha *. sphi in
  let L13 := calpha *. tphi in
  let L21 := hy_st *. calpha *. sphi in
  let L22 := #1 +. hy_st *. salpha *. sphi in
  let L23 := salpha *. tphi in
  let L31 := hsigma_st *. calpha *. sphi in
  let L32 := hsigma_st *. salpha *. sphi in
  let L33 := #1 /. cphi in
  let x_st := L11 *. x +. L12 *. y +. L13 *. sigma in
  let y_st := L21 *. x +. L22 *. y +. L23 *. sigma in
  let sigma_st := L31 *. x +. L32 *. y +. L33 *. sigma in
  mkStar x_st px_st y_st py_st sigma_st delta_st.

(* be_beamfields.h 2163-2235: BeamBeam6D_inv_boost *)
Definition bb6d_inv_boost (b : boost_data T) (v : star) : star :=
  let sphi := bo_sphi b in let cphi := bo_cphi b in let tphi := bo_tphi b in
  let salpha := bo_salpha b in let calpha := bo_calpha b in
  let x_st := st_x v in let px_st := st_px v in let y_st := st_y v in
  let py_st := st_py v in let sigma_st := st_sigma v in let delta_st := st_delta v in
  let pz_st := nsqrt N ((#1 +. delta_st) *. (#1 +. delta_st) -. px_st *. px_st -. py_st *. py_st) in
  let hx_st := px_st /. pz_st in
  let hy_st := py_st /. pz_st in
  let hsigma_st := #1 -. (delta_st +. #1) /. pz_st in
  let Det_L := #1 /. cphi +. (hx_st *. calpha +. hy_st *. salpha -. hsigma_st *. sphi) *. tphi in
  let Linv_11 := (#1 /. cphi +. salpha *. tphi *. (hy_st -. hsigma_st *. salpha *. sphi)) /. Det_L in
  let Linv_12 := (salpha *. tphi *. (hsigma_st *. calpha *. sphi -. hx_st)) /. Det_L in
  let Linv_13 := (-. tphi) *. (calpha -. hx_st *. salpha *. salpha *. sphi
                               +. hy_st *. calpha *. salpha *. sphi) /. Det_L in
  let Linv_21 := (calpha *. tphi *. ((-. hy_st) +. hsigma_st *. salpha *. sphi)) /. Det_L in
  let Linv_22 := (#1 /. cphi +. calpha *. tphi *. (hx_st -. hsigma_st *. calpha *. sphi)) /. Det_L in
  let Linv_23 := (-. tphi) *. (salpha -. hy_st *. calpha *. calpha *. sphi
                               +. hx_st *. calpha *. salpha *. sphi) /. Det_L in
  let Linv_31 := (-. hsigma_st) *. calpha *. sphi /. Det_L in
  let Linv_32 := (-. hsigma_st) *. salpha *. sphi /. Det_L in
  let Linv_33 := (#1 +. hx_st *. calpha *. sphi +. hy_st *. salpha *. sphi) /. Det_L in
  let x_i := Linv_11 *. x_st +. Linv_12 *. y_st +. Linv_13 *. sigma_st in
  let y_i := Linv_21 *. x_st +. Linv_22 *. y_st +. Linv_23 *. sigma_st in
  let sigma_i := Linv_31 *. x_st +. Linv_32 *. y_st +. Linv_33 *. sigma_st in
  let h := (delta_st +. #1 -. pz_st) *. cphi *. cphi in
  let px_i := px_st *. cphi +. h *. calpha *. tphi in
  let py_i := py_st *. cphi +. h *. salpha *. tphi in
  let delta_i := delta_st +. px_i *. calpha *. tphi +. py_i *. salpha *. tphi -. h *. tphi *. tphi in
  mkStar x_i px_i y_i py_i sigma_i delta_i.

(* be_beamfields.h 2096-2098: macro mysign *)
Definition mysign (a : T) : T :=
  nofZ N ((if nleb N (#0) a then 1 else 0) - (if a <. #0 then 1 else 0))%Z.

(* result of the propagation of the sigma matrix *)
Record sig_hat := mkSigHat {
  sh_11 : T; sh_33 : T; sh_cos : T; sh_sin : T;
  sh_d11 : T; sh_d33 : T; sh_dcos : T; sh_dsin : T }.

(* be_beamfields.h 2237-2385: BeamBeam6D_propagate_Sigma_matrix *)
Definition propagate_sigma (d : sigmas T) (S threshold : T) (handle_sing : bool) : sig_hat :=
  let Sig_11 := sg_11 d +. #2 *. sg_12 d *. S +. sg_22 d *. S *. S in
  let Sig_33 := sg_33 d +. #2 *. sg_34 d *. S +. sg_44 d *. S *. S in
  let Sig_13 := sg_13 d +. (sg_14 d +. sg_23 d) *. S +. sg_24 d *. S *. S in
  let Sig_12 := sg_12 d +. sg_22 d *. S in
  let Sig_14 := sg_14 d +. sg_24 d *. S in
  let Sig_22 := sg_22 d +. #0 *. S in
  let Sig_23 := sg_23 d +. sg_24 d *. S in
  let Sig_24 := sg_24 d +. #0 *. S in
  let Sig_34 := sg_34 d +. sg_44 d *. S in
  let Sig_44 := sg_44 d +. #0 *. S in
  let R := Sig_11 -. Sig_33 in
  let W := Sig_11 +. Sig_33 in
  let TT := R *. R +. #4 *. Sig_13 *. Sig_13 in
  let dS_R := #2 *. (sg_12 d -. sg_34 d) +. #2 *. S *. (sg_22 d -. sg_44 d) in
  let dS_W := #2 *. (sg_12 d +. sg_34 d) +. #2 *. S *. (sg_22 d +. sg_44 d) in
  let dS_Sig_13 := sg_14 d +. sg_23 d +. #2 *. sg_24 d *. S in
  let dS_T := #2 *. R *. dS_R +. #8 *. Sig_13 *. dS_Sig_13 in
  let signR := mysign R in
  if (TT <. threshold) && handle_sing then
    let a := Sig_12 -. Sig_34 in
    let b := Sig_22 -. Sig_44 in
    let c := Sig_14 +. Sig_23 in
    let dd := Sig_24 in
    let s := nsqrt N (a *. a +. c *. c) in
    if s *. s *. s <. threshold then
      let cos2theta := if threshold <. nabs N dd
                       then nabs N b /. nsqrt N (b *. b +. #4 *. dd *. dd) else #1 in
      let costheta := nsqrt N (half *. (#1 +. cos2theta)) in
      let sintheta := mysign b *. mysign dd *. nsqrt N (half *. (#1 -. cos2theta)) in
      mkSigHat (half *. W) (half *. W) costheta sintheta (half *. dS_W) (half *. dS_W)
               (nzero N) (nzero N)
    else
      let cos2theta := nabs N (#2 *. a) /. (#2 *. s) in
      let costheta := nsqrt N (half *. (#1 +. cos2theta)) in
      let sintheta := mysign a *. mysign c *. nsqrt N (half *. (#1 -. cos2theta)) in
      let dS_cos2theta := mysign a *. (half *. b /. s -.
                            a *. (a *. b +. #2 *. c *. dd) /. (#2 *. s *. s *. s)) in
      let dS_costheta := #1 /. (#4 *. costheta) *. dS_cos2theta in
      let dS_sintheta := if threshold <. nabs N sintheta
                         then (-. #1) /. (#4 *. sintheta) *. dS_cos2theta
                         else dd /. (#2 *. a) in
      mkSigHat (half *. W) (half *. W) costheta sintheta
               (half *. dS_W +. mysign a *. s) (half *. dS_W -. mysign a *. s)
               dS_costheta dS_sintheta
  else
    let sqrtT := nsqrt N TT in
    let cos2theta := signR *. R /. sqrtT in
    let costheta := nsqrt N (half *. (#1 +. cos2theta)) in
    let sintheta := signR *. mysign Sig_13 *. nsqrt N (half *. (#1 -. cos2theta)) in
    let Sig_11_hat := half *. (W +. signR *. sqrtT) in
    let Sig_33_hat := half *. (W -. signR *. sqrtT) in
    let dS_cos2theta := signR *. (dS_R /. sqrtT -. R /. (#2 *. sqrtT *. sqrtT *. sqrtT) *. dS_T) in
    let dS_costheta := #1 /. (#4 *. costheta) *. dS_cos2theta in
    let dS_sintheta := if (nabs N sintheta <. threshold) && handle_sing
                       then (Sig_14 +. Sig_23) /. R
                       else (-. #1) /. (#4 *. sintheta) *. dS_cos2theta in
    let dS_11 := half *. (dS_W +. signR *. half /. sqrtT *. dS_T) in
    let dS_33 := half *. (dS_W -. signR *. half /. sqrtT *. dS_T) in
    mkSigHat Sig_11_hat Sig_33_hat costheta sintheta dS_11 dS_33 dS_costheta dS_sintheta.

(* be_beamfields/track.h 407-478: one slice of the synchro-beam loop *)
Definition bb6d_slice (b : bb6d T) (q0 P0 : T) (sl : slice T) (v : star) : option star :=
  let Ksl := sl_N_part sl *. b6_q_part b *. q0 /. (P0 *. nclight N) in
  let S := half *. (st_sigma v -. sl_sigma sl) in
  let sh := propagate_sigma (b6_Sigmas b) S (b6_threshold_singular b) true in
  let x_bar := st_x v +. st_px v *. S -. sl_x sl in
  let y_bar := st_y v +. st_py v *. S -. sl_y sl in
  let x_hat := x_bar *. sh_cos sh +. y_bar *. sh_sin sh in
  let y_hat := (-. x_bar) *. sh_sin sh +. y_bar *. sh_cos sh in
  let dS_x := x_bar *. sh_dcos sh +. y_bar *. sh_dsin sh in
  let dS_y := (-. x_bar) *. sh_dsin sh +. y_bar *. sh_dcos sh in
  obind (gauss_fields x_hat y_hat (nsqrt N (sh_11 sh)) (nsqrt N (sh_33 sh))
           (b6_min_sigma_diff b) false)
    (fun E => let '(Ex, Ey, Gx, Gy) := E in
     let Fx_hat := Ksl *. Ex in
     let Fy_hat := Ksl *. Ey in
     let Gx_hat := Ksl *. Gx in
     let Gy_hat := Ksl *. Gy in
     let Fx := Fx_hat *. sh_cos sh -. Fy_hat *. sh_sin sh in
     let Fy := Fx_hat *. sh_sin sh +. Fy_hat *. sh_cos sh in
     let Fz := half *. (Fx_hat *. dS_x +. Fy_hat *. dS_y +.
                        Gx_hat *. sh_d11 sh +. Gy_hat *. sh_d33 sh) in
     Some (mkStar (st_x v -. S *. Fx) (st_px v +. Fx) (st_y v -. S *. Fy) (st_py v +. Fy)
             (st_sigma v)
             (st_delta v +. Fz +. half *. (Fx *. (st_px v +. half *. Fx) +.
                                           Fy *. (st_py v +. half *. Fy))))).

Fixpoint bb6d_slices (b : bb6d T) (q0 P0 : T) (l : list (slice T)) (v : star) : option star :=
  match l with
  | [] => Some v
  | sl :: rest => obind (bb6d_slice b q0 P0 sl v) (fun v => bb6d_slices b q0 P0 rest v)
  end.

(* be_beamfields/track.h 342-507: Track_particle_beam_beam_6d *)
Definition track_bb6d (b : bb6d T) (p : particle T) : option (particle T) :=
  if #0 <. b6_enabled b then
    let q0 := nqelem N *. p_q0 p in
    let P0 := p_p0c p /. nclight N *. nqelem N in
    let v := mkStar (p_x p -. b6_x_CO b -. b6_delta_x b) (p_px p -. b6_px_CO b)
                    (p_y p -. b6_y_CO b -. b6_delta_y b) (p_py p -. b6_py_CO b)
                    (p_zeta p -. b6_sigma_CO b) (p_delta p -. b6_delta_CO b) in
    obind (bb6d_slices b q0 P0 (b6_slices b) (bb6d_boost (b6_parboost b) v)) (fun v =>
    let v := bb6d_inv_boost (b6_parboost b) v in
    let x := st_x v +. b6_x_CO b +. b6_delta_x b -. b6_Dx_sub b in
    let px := st_px v +. b6_px_CO b -. b6_Dpx_sub b in
    let y := st_y v +. b6_y_CO b +. b6_delta_y b -. b6_Dy_sub b in
    let py := st_py v +. b6_py_CO b -. b6_Dpy_sub b in
    let zeta := st_sigma v +. b6_sigma_CO b -. b6_Dsigma_sub b in
    let delta := st_delta v +. b6_delta_CO b -. b6_Ddelta_sub b in
    let p := set_zeta zeta (set_py py (set_y y (set_px px (set_x x p)))) in
    Some (update_delta N delta p))
  else Some p.

End Fields.
