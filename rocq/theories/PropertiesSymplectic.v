(* Theorems for C34: optical elements and lattices are symplectic. *)
From Coq Require Import ZArith Reals Lra Lia Bool List.
From Coquelicot Require Import Coquelicot.
From Verif Require Import Num Particle Energy Elements Track TrackSpec TrackProofs DispatchProofs MapsR OpticsSpec
  SymplecticSpec SymplecticProofs SymplecticRun PropertiesOptics.
Import List. Import ListNotations.
Local Open Scope R_scope.

(* One element, at every phase-space point: the transverse map is differentiable and its
   derivative preserves the symplectic form, provided the particle survives the aperture
   check behind a drift. *)
Theorem C34_element : forall c be p outs v q outs' st, optical be -> p_state p = 1%Z ->
  dispatch ROps c be (with_phase v p) outs = Some (q, outs', st) -> p_state q = 1%Z ->
  moves_forward be (with_phase v p) ->
  symplectic_at (through c be p outs) v.
Proof.
  intros c be p outs v q outs' st Ho Hs H Hq Hf.
  assert (Hall : Forall optical [be]) by auto.
  assert (Hw : forall w, p_state (with_phase w p) = 1%Z) by (intros; exact Hs).
  destruct (dispatch_optical c be (with_phase v p) outs Ho (Hw v)) as (q1 & D1 & D2 & D3 & D4).
  assert (q1 = q) by congruence. subst q1.
  assert (Hfw : forwards (consts p) [be] v).
  { split; [|exact Logic.I]. destruct be; try exact Logic.I. cbn [moves_forward forward] in *.
    unfold consts. cbn [fst snd]. replace (p_delta p + 1) with (1 + p_delta p) by ring. exact Hf. }
  assert (Hv : survives c (consts p) [be] v).
  { split; [|exact Logic.I]. rewrite with_phase_consts, with_phase_of in D2. rewrite <- D2. apply D4. exact Hq. }
  destruct (run_symplectic c (consts p) [be] v Hall Hfw Hv) as (A & _).
  apply (symplectic_ext_loc (run (consts p) [be])); [|exact A].
  apply filter_forall. intros w. unfold through.
  destruct (dispatch_optical c be (with_phase w p) outs Ho (Hw w)) as (q1 & E1 & E2 & _).
  rewrite E1, E2, with_phase_of, with_phase_consts. reflexivity.
Qed.
Print Assumptions C34_element.

Example C34_element_case : p_state sample = 1%Z /\
  dispatch ROps wide (BDriftExact 2) (with_phase ((1/3, 1/10), (1/4, 1/5)) sample) [] <> None /\
  moves_forward (BDriftExact 2) (with_phase ((1/3, 1/10), (1/4, 1/5)) sample).
Proof.
  split; [reflexivity|]. split; [cbn [dispatch]; discriminate|].
  cbn [moves_forward]. unfold with_phase. pfields. cbn [fst snd p_delta sample]. lra.
Qed.

(* Any lattice of such elements, any number of turns, any build configuration of the
   aperture check: at every phase-space point from which the particle survives, the map from
   the initial to the final transverse phase-space point is symplectic. *)
Theorem C34_lattice : forall c lattice n p outs v q outs' st,
  Forall optical lattice -> p_state p = 1%Z ->
  until_turn ROps c lattice n (with_phase v p) outs = Ok (q, outs', st) -> p_state q = 1%Z ->
  (forall t j q o be, (t < n)%Z -> arrives 0 (dispatch ROps c) lattice (with_phase v p) outs t j q o ->
     nth_error lattice j = Some be -> moves_forward be q) ->
  symplectic_at (tracked c lattice n p outs) v.
Proof. apply tracked_symplectic. Qed.
Print Assumptions C34_lattice.

Definition cell : list (element R) :=
  [BDriftExact 5; BMultipole 2 0 0 0 [0; 0; 1/10; 0; 3; 1/7]; BDrift 5; BSRotation (3/5) (4/5)].
Definition open_config : config R := mkConfig ANever None 1 1 MEnabled MEnabled MEnabled MEnabled.

Example C34_lattice_case : Forall optical cell /\ p_state sample = 1%Z /\
  (let v := ((1/100, 1/1000), (1/50, 1/2000)) in
   (exists q, until_turn ROps open_config cell 1 (with_phase v sample) [] = Ok (q, [], 0%Z) /\ p_state q = 1%Z) /\
   forall t j q o be, (t < 1)%Z -> arrives 0 (dispatch ROps open_config) cell (with_phase v sample) [] t j q o ->
     nth_error cell j = Some be -> moves_forward be q).
Proof.
  assert (Hopt : Forall optical cell).
  { unfold cell. repeat constructor. cbn. lra. }
  split; [exact Hopt|]. split; [reflexivity|]. intros v. split.
  - set (p := with_phase v sample). assert (Hs : p_state p = 1%Z) by reflexivity.
    assert (Hids : keeps_ids (dispatch ROps open_config)) by apply dispatch_keeps_ids.
    destruct (turns_run open_config cell 0 1 p [] Hopt Hs) as (q & E1 & _ & E3).
    { cbn [turns app cell survives]. cbn [pass]. unfold drift_check. cbn [c_aperture open_config].
      repeat split; discriminate. }
    exists q. split; [|exact E3]. unfold until_turn.
    rewrite (track_run _ _ _ _ _ Hids cell 1 p [] ltac:(discriminate)). exact E1.
  - intros t j q o be Ht Ha Hn.
    destruct j as [|j]; [|unfold cell in Hn; destruct j as [|[|[|[|j]]]]; cbn in Hn;
      (injection Hn as <- || discriminate Hn); exact Logic.I].
    injection Hn as <-.
    remember 0%nat as j0 eqn:Ej in Ha. destruct Ha as [|? ? ? ? ? ? ? ? ? ? ?|t' q' o' Ha'].
    + cbn [moves_forward]. unfold v, with_phase. pfields. cbn [fst snd p_delta sample]. lra.
    + discriminate Ej.
    + exfalso. assert (Hids : keeps_ids (dispatch ROps open_config)) by apply dispatch_keeps_ids.
      destruct (arrives_ids _ _ _ _ _ Hids _ _ _ _ _ _ _ (eq_refl : is_not_lost (with_phase v sample) = true) Ha')
        as (_ & _ & _ & _ & Hge & _). cbn in Hge. lia.
Qed.
