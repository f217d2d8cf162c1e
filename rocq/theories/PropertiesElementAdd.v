(* C66: creating beam elements in a buffer with X_new and X_add. *)
From Coq Require Import ZArith List Bool Lia.
From Verif Require Import MBuf MBufSpec MBufMem MBufAbs MemPool Buffer BufferSpec BufferUser BufferProofs
  BufferAddMem BufferReach BufferProps BufferExample StringsProofs Lines ElementAdd ElementAddSpec ElementAddProofs.
Import ListNotations.
Local Open Scope Z_scope.

(* The call creates the element: no undefined behaviour whatever malloc does and whatever was
   on the stack.  If a pointer is returned, then the wanted element is the new last object,
   with copies of its arrays, all other objects are unchanged, and the pointer is the address
   of that object. *)
Theorem C66_add_partial : forall F hp b e g c x, reachable any b -> good_heap hp -> limits_squared F ->
  length g = struct_words c -> faithful c -> plane_fits c ->
  wanted F c = Some x -> request_ok b (request_of e x) ->
  exists a b', add_element F hp b e g c = Some (a, b') /\
    (a <> 0 -> exists o, stored_as (request_of e x) o /\ objects b' = objects b ++ [o] /\
       a = obj_begin (b_mem b') (Z.of_nat (length (objects b))) /\ layout_ok (b_mem b')) /\
    (a = 0 -> no_end_pointer (b_mem b) -> objects b' = objects b).
Proof.
  intros F hp b e g c ((t & ws) & attrs) R Hh LS L FC PF W RQ.
  pose proof (request_small b _ R RQ (sized F c t ws attrs W)) as SM.
  pose proof (prepare_proper F g c t ws attrs LS L FC W SM PF (call_range _ _ _ _ (proj1 RQ))) as P.
  destruct (call_done F hp b e g c t ws attrs R Hh RQ P) as (a & b' & E & X & Y).
  exists a, b'. split; [exact E|]. split.
  - intros Ha. destruct (X Ha) as (r & Hr & EA & EB).
    destruct (add_one hp b _ r b' R Hh RQ EA Hr) as (o & S & Eo). exists o.
    split; [exact S|]. split; [exact Eo|]. split; [exact EB|].
    assert (R' : reachable any b') by (eapply r_add; eauto; exact Logic.I). apply (in_order b' R').
  - intros Ha NE. apply (add_failed hp b _ b' R Hh RQ NE (Y Ha)).
Qed.
Print Assumptions C66_add_partial.

Lemma map_wnth l : map (fun k => Raw (wnth l k)) (zseq (wcount l)) = map Raw l.
Proof.
  unfold zseq, wcount. rewrite Nat2Z.id, map_map.
  transitivity (map Raw (map (fun i => nth i l 0) (seq 0 (length l)))).
  - rewrite map_map. apply map_ext. intros i. unfold wnth. now rewrite Nat2Z.id.
  - f_equal. apply (nth_ext _ _ 0 0); rewrite map_length, seq_length; [reflexivity|].
    intros n Hn. rewrite (nth_indep _ 0 (nth 0 l 0)) by (now rewrite map_length, seq_length).
    rewrite (map_nth (fun i => nth i l 0) (seq 0 (length l)) 0%nat n), seq_nth by assumption. reflexivity.
Qed.

(* An element without arrays has exactly the wanted words. *)
Theorem C66_fields_partial : forall F hp b e g c t ws a b', reachable any b -> good_heap hp -> limits_squared F ->
  length g = struct_words c -> faithful c -> plane_fits c ->
  wanted F c = Some (t, ws, []) -> request_ok b (request_of e (t, ws, [])) ->
  add_element F hp b e g c = Some (a, b') -> a <> 0 -> objects b' = objects b ++ [(t, map Raw ws)].
Proof.
  intros F hp b e g c t ws a b' R Hh LS L FC PF W RQ E Ha.
  destruct (C66_add_partial F hp b e g c _ R Hh LS L FC PF W RQ) as (a2 & b2 & E2 & X & _).
  assert (a2 = a) as -> by congruence. assert (b2 = b') as -> by congruence.
  destruct (X Ha) as (o & (ow & arrs & ((SB1 & _ & SB3) & F2) & Eo) & -> & _).
  unfold request_of in *. cbn [rq_attrs rq_obj rq_size rq_type rq_mem fst snd] in *. inversion F2; subst arrs.
  f_equal. f_equal. rewrite Eo. unfold expected_object. cbv zeta. cbn [map combine starts concat find app].
  rewrite app_nil_r. f_equal.
  assert (LW : wcount ow = wcount ws).
  { rewrite SB1. unfold words_of. rewrite Z.add_comm, (Z.mul_comm 8), Z.div_add by lia. reflexivity. }
  assert (ow = ws) as ->; [|apply map_wnth].
  apply (nth_ext _ _ 0 0); [unfold wcount in LW; lia|]. intros n Hn.
  unfold wcount in LW. specialize (SB3 (Z.of_nat n) ltac:(lia) ltac:(lia)).
  unfold wnth in SB3. rewrite Nat2Z.id in SB3. exact SB3.
Qed.
Print Assumptions C66_fields_partial.

(* With room within the limits of the buffer the call succeeds and no address changes. *)
Theorem C66_room_partial : forall F hp b e g c x, reachable any b -> good_heap hp -> limits_squared F ->
  length g = struct_words c -> faithful c -> plane_fits c ->
  wanted F c = Some x -> request_ok b (request_of e x) -> has_room b (request_of e x) ->
  exists a b', add_element F hp b e g c = Some (a, b') /\ a <> 0 /\ data_addr (b_h b') = data_addr (b_h b).
Proof.
  intros F hp b e g c ((t & ws) & attrs) R Hh LS L FC PF W RQ HR.
  pose proof (request_small b _ R RQ (sized F c t ws attrs W)) as SM.
  pose proof (prepare_proper F g c t ws attrs LS L FC W SM PF (call_range _ _ _ _ (proj1 RQ))) as P.
  destruct (call_done F hp b e g c t ws attrs R Hh RQ P) as (a & b' & E & X & Y).
  destruct (add_with_room hp b _ R Hh RQ HR) as (r & b2 & E2 & N2 & D).
  assert (Ha : a <> 0) by (intros H; specialize (Y H); congruence).
  exists a, b'. split; [exact E|]. split; [exact Ha|].
  destruct (X Ha) as (r3 & _ & E3 & _). congruence.
Qed.
Print Assumptions C66_room_partial.

(* Adding elements to a buffer that was only ever added to succeeds unless memory is short. *)
Theorem C66_memory_partial : forall F hp b e g c x, added_only b -> good_heap hp -> limits_squared F ->
  length g = struct_words c -> faithful c -> plane_fits c ->
  wanted F c = Some x -> request_ok b (request_of e x) ->
  memory_up_to hp (data_size (b_h b) +
    8 * (object_words (rq_size (request_of e x)) (snd x) + 3 + Z.of_nat (length (snd x))) + 16) ->
  exists a b', add_element F hp b e g c = Some (a, b') /\ a <> 0.
Proof.
  intros F hp b e g c ((t & ws) & attrs) AO Hh LS L FC PF W RQ M. pose proof (added_any _ AO) as R.
  pose proof (request_small b _ R RQ (sized F c t ws attrs W)) as SM.
  pose proof (prepare_proper F g c t ws attrs LS L FC W SM PF (call_range _ _ _ _ (proj1 RQ))) as P.
  destruct (call_done F hp b e g c t ws attrs R Hh RQ P) as (a & b' & E & X & Y).
  destruct (add_fresh hp b _ AO Hh M RQ) as (r & b2 & E2 & N2).
  exists a, b'. split; [exact E|]. intros H. specialize (Y H). congruence.
Qed.
Print Assumptions C66_memory_partial.

(* A call with parameters out of range (negative orders and numbers, too little data, ...)
   returns NULL and leaves the buffer alone. *)
Theorem C66_refused : forall F hp b e g c, limits_squared F -> length g = struct_words c ->
  match c with AddLineDensity _ nv _ _ _ _ cap => 0 <= nv < 2 ^ 64 /\ 0 <= cap < 2 ^ 64 | _ => True end ->
  wanted F c = None -> add_element F hp b e g c = Some (0, b).
Proof.
  intros F hp b e g c LS L A W. unfold add_element. now rewrite (prepare_refused F g c LS L A W).
Qed.
Print Assumptions C66_refused.

(* ------------------------------------------------------------------ *)
(* The other calls. *)

Lemma done_stored F hp b e g c x : reachable any b -> good_heap hp ->
  request_ok b (request_of e x) -> prepare F g c = Proper (fst (fst x)) (snd (fst x)) (snd x) ->
  exists a b', add_element F hp b e g c = Some (a, b') /\
    (a <> 0 -> exists o, stored_as (request_of e x) o /\ objects b' = objects b ++ [o]).
Proof.
  intros R Hh RQ P. destruct x as ((t & ws) & attrs). cbn [fst snd] in P.
  destruct (call_done F hp b e g c t ws attrs R Hh RQ P) as (a & b' & E & X & _).
  exists a, b'. split; [exact E|]. intros Ha. destruct (X Ha) as (r & Hr & EA & _).
  exact (add_one hp b _ r b' R Hh RQ EA Hr).
Qed.

(* A 6D beam-beam element is stored with the type id of the 4D element. *)
Theorem C66_beam_beam_6d : forall F hp b e g n addr, reachable any b -> good_heap hp -> length g = 2%nat ->
  n = 0 \/ 38 <= n -> request_ok b (request_of e (8, [n; addr], [Attr 8 8 n])) ->
  exists a b', add_element F hp b e g (AddBeamBeam6D n addr) = Some (a, b') /\
    (a <> 0 -> exists o, stored_as (request_of e (8, [n; addr], [Attr 8 8 n])) o /\
       objects b' = objects b ++ [o]).
Proof.
  intros F hp b e g n addr R Hh L HN RQ.
  assert (C : (n =? 0) || (38 <=? n) = true)
    by (apply orb_true_iff; rewrite Z.eqb_eq, Z.leb_le; exact HN).
  apply done_stored; [exact R|exact Hh|exact RQ|]. apply (prepare_bb6d F g n addr L C).
Qed.
Print Assumptions C66_beam_beam_6d.

(* A line density profile has the step width in place of the start z0, and the step 1. *)
Theorem C66_line_density : forall F hp b e g method nv values derivatives z0 dz cap,
  reachable any b -> good_heap hp -> length g = 7%nat -> 0 <= nv < 2 ^ 64 -> 0 <= cap < 2 ^ 64 ->
  let n := Z.max 0 (signed nv) in let k := Z.max (signed cap) n in
  let x := (258, [method; k; values; derivatives; dz; one; n], [Attr 16 8 k; Attr 24 8 k]) in
  0 < k -> request_ok b (request_of e x) ->
  exists a b', add_element F hp b e g (AddLineDensity method nv values derivatives z0 dz cap) = Some (a, b') /\
    (a <> 0 -> exists o, stored_as (request_of e x) o /\ objects b' = objects b ++ [o]).
Proof.
  intros F hp b e g method nv values derivatives z0 dz cap R Hh L H1 H2 n k x K RQ.
  apply done_stored; [exact R|exact Hh|exact RQ|].
  pose proof (prepare_density F g method nv values derivatives z0 dz cap L H1 H2) as P. cbv zeta in P.
  fold n in P. fold k in P. rewrite (proj2 (Z.ltb_lt 0 k) K) in P. exact P.
Qed.
Print Assumptions C66_line_density.

(* A new q-Gaussian space charge element has whatever was in memory as min_sigma_diff. *)
Theorem C66_q_gauss_new : forall F hp b e g, reachable any b -> good_heap hp -> length g = 11%nat ->
  let x := (14, [zero; one; one; one; zero; zero; zero; nth 7 g 0; one; f_cq F one; 1], []) in
  request_ok b (request_of e x) ->
  exists a b', add_element F hp b e g NewSCQGauss = Some (a, b') /\
    (a <> 0 -> exists o, stored_as (request_of e x) o /\ objects b' = objects b ++ [o]).
Proof.
  intros F hp b e g R Hh L x RQ. apply done_stored; [exact R|exact Hh|exact RQ|]. apply (prepare_qgauss F g L).
Qed.
Print Assumptions C66_q_gauss_new.

(* ------------------------------------------------------------------ *)
(* Concrete calls.  Products of bit patterns are not computed here: some value stands for
   all of them. *)
Definition fx : floats := Floats (fun _ _ => one) (fun _ => one) one one.
Definition stack (n : nat) : list Z := repeat 77 n.
Definition done (b : buffer) (c : call) : Z * buffer :=
  get (0, no_buffer) (add_element fx (heap_at 524288) b ext (stack (struct_words c)) c).

Lemma fx_limits : limits_squared fx. Proof. split; reflexivity. Qed.

(* an element without arrays can be added to x2 *)
Lemma plain_request t ws : (0 < length ws)%nat -> (length ws <= 20)%nat -> Forall (fun w => 0 <= w < 2 ^ 64) ws ->
  request_ok x2 (request_of ext (t, ws, [])).
Proof.
  intros P L H. split.
  - unfold request_of. cbn [rq_mem rq_obj rq_size rq_attrs fst snd]. split; try (intros x []); try lia.
    + unfold words_of, wcount. rewrite Z.add_comm, (Z.mul_comm 8), Z.div_add by lia. change (7 / 8) with 0. lia.
    + exact H.
    + constructor.
  - unfold request_of. cbn [rq_size rq_attrs fst snd length]. unfold object_words. cbn [fold_right].
    unfold words_of. rewrite Z.add_comm, (Z.mul_comm 8 (Z.of_nat (length ws))), Z.add_comm, (Z.add_comm _ 7), Z.div_add by lia.
    change (7 / 8) with 0. change (data_size (b_h x2)) with 256. assert (2 ^ 64 > 10000) by reflexivity. lia.
Qed.

Definition wrong (c : call) : Prop := exists F hp b e g x a b', added_only b /\ good_heap hp /\
  limits_squared F /\ length g = struct_words c /\ Forall (fun w => 0 <= w < 2 ^ 64) g /\
  wanted F c = Some x /\ request_ok b (request_of e x) /\
  add_element F hp b e g c = Some (a, b') /\ a <> 0 /\
  ~ exists o, stored_as (request_of e x) o /\ objects b' = objects b ++ [o].

Lemma stored_word q o k : stored_as q o -> 0 <= k -> 8 * k + 8 <= rq_size q ->
  ~ In (8 * k) (map at_offset (rq_attrs q)) -> nth_error (snd o) (Z.to_nat k) = Some (Raw (wnth (rq_obj q) k)).
Proof.
  intros (ow & arrs & ((SB1 & _ & SB3) & _) & ->) K0 K1 NI. cbn [snd]. unfold expected_object. cbv zeta.
  assert (KL : k < wcount ow).
  { rewrite SB1. unfold words_of.
    assert ((rq_size q) / 8 <= (rq_size q + 7) / 8) by (apply Z.div_le_mono; lia).
    assert (k + 1 <= rq_size q / 8) by (apply Z.div_le_lower_bound; lia). lia. }
  rewrite nth_error_app1 by (rewrite map_length, zseq_length; lia).
  rewrite nth_error_map, zseq_nth by lia. cbn [option_map]. rewrite Z2Nat.id by lia.
  destruct (find _ _) as [p|] eqn:Ef; [|rewrite (SB3 k K0 K1); reflexivity].
  exfalso. apply find_some in Ef. destruct Ef as (I1 & E1). apply Z.eqb_eq in E1. apply NI. rewrite <- E1.
  destruct p as (p1 & p2). apply in_combine_l in I1. exact I1.
Qed.

Ltac attrs_of := intros x Hx; cbn [In rq_attrs request_of snd] in Hx;
  repeat (destruct Hx as [<- | Hx]); try destruct Hx; cbn [at_offset at_size at_count].

(* empty pointers: the arrays are zeros *)
Definition x_bb6 : element := (9, [38; 0], [Attr 8 8 38]).
Lemma x_bb6_request : request_ok x2 (request_of ext x_bb6).
Proof.
  split; [|vm_compute; reflexivity]. unfold request_of, x_bb6. cbn [rq_mem rq_obj rq_size rq_attrs fst snd]. split.
  - reflexivity.
  - vm_compute. discriminate.
  - repeat (constructor; [split; [vm_compute; discriminate|reflexivity]|]). constructor.
  - attrs_of. repeat split; try reflexivity; vm_compute; discriminate.
  - cbn [map at_offset]. constructor; [intros []|constructor].
  - attrs_of. lia.
  - intros x [<- | []] j _ H. exfalso. apply H. reflexivity.
Qed.

Theorem C66_beam_beam_6d_refuted : wrong (NewBeamBeam6D 38).
Proof.
  exists fx, (heap_at 524288), x2, ext, (stack 2), x_bb6, (fst (done x2 (NewBeamBeam6D 38))),
    (snd (done x2 (NewBeamBeam6D 38))).
  split; [exact x2_added|]. split; [good|]. split; [exact fx_limits|]. split; [reflexivity|].
  split; [repeat (constructor; [split; [vm_compute; discriminate|reflexivity]|]); constructor|].
  split; [reflexivity|]. split; [exact x_bb6_request|]. split; [vm_compute; reflexivity|].
  split; [vm_compute; discriminate|]. intros (o & S & E).
  assert (T : nth_error (map fst (objects (snd (done x2 (NewBeamBeam6D 38))))) 2 = Some 8) by (vm_compute; reflexivity).
  rewrite E, map_app in T. assert (L : length (map fst (objects x2)) = 2%nat) by (vm_compute; reflexivity).
  rewrite nth_error_app2, L in T by (rewrite L; lia). cbn [map nth_error Nat.sub] in T.
  destruct S as (ow & arrs & _ & ->). cbn [fst request_of rq_type x_bb6] in T. discriminate T.
Qed.
Print Assumptions C66_beam_beam_6d_refuted.

(* the word k of the object number 2 after the call *)
Definition word2 (c : call) (k : nat) : option cell :=
  match nth_error (objects (snd (done x2 c))) 2 with Some o => nth_error (snd o) k | None => None end.

Lemma wrong_word c x k v : added_only x2 -> wanted fx c = Some x -> request_ok x2 (request_of ext x) ->
  add_element fx (heap_at 524288) x2 ext (stack (struct_words c)) c = Some (done x2 c) ->
  fst (done x2 c) <> 0 -> word2 c k = Some (Raw v) -> 8 * Z.of_nat k + 8 <= rq_size (request_of ext x) ->
  ~ In (8 * Z.of_nat k) (map at_offset (snd x)) -> wnth (snd (fst x)) (Z.of_nat k) <> v -> wrong c.
Proof.
  intros AO W RQ E Ha H2 K NI NE.
  exists fx, (heap_at 524288), x2, ext, (stack (struct_words c)), x, (fst (done x2 c)), (snd (done x2 c)).
  split; [exact AO|]. split; [good|]. split; [exact fx_limits|]. split; [apply repeat_length|].
  split. { unfold stack. apply Forall_forall. intros w Hw. apply repeat_spec in Hw. subst w. split; [lia|reflexivity]. }
  split; [exact W|]. split; [exact RQ|]. split; [rewrite E; destruct (done x2 c); reflexivity|]. split; [exact Ha|].
  intros (o & S & Eo). unfold word2 in H2. rewrite Eo in H2.
  assert (L : length (objects x2) = 2%nat) by (vm_compute; reflexivity).
  rewrite nth_error_app2, L in H2 by (rewrite L; lia). cbn [nth_error Nat.sub] in H2.
  pose proof (stored_word _ o (Z.of_nat k) S ltac:(lia) K NI) as Hw. rewrite Nat2Z.id in Hw.
  apply NE. change (snd (fst x)) with (rq_obj (request_of ext x)). congruence.
Qed.

Definition c_density := AddLineDensity 0 2 0 0 7 9 2.
Definition x_density : element := (258, [0; 2; 0; 0; 7; 9; 2], [Attr 16 8 2; Attr 24 8 2]).
Theorem C66_line_density_refuted : wrong c_density.
Proof.
  apply (wrong_word c_density x_density 4 9); [exact x2_added|reflexivity| |vm_compute; reflexivity
    |vm_compute; discriminate|vm_compute; reflexivity|vm_compute; discriminate| |discriminate].
  - split; [|vm_compute; reflexivity]. unfold request_of, x_density. cbn [rq_mem rq_obj rq_size rq_attrs fst snd]. split.
    + reflexivity.
    + vm_compute. discriminate.
    + repeat (constructor; [split; [vm_compute; discriminate|reflexivity]|]). constructor.
    + attrs_of; repeat split; try reflexivity; vm_compute; discriminate.
    + cbn [map at_offset]. constructor; [intros [H|[]]; discriminate H|]. constructor; [intros []|constructor].
    + attrs_of; lia.
    + intros x [<- | [<- | []]] j _ H; exfalso; apply H; reflexivity.
  - cbn. intros [H|[H|[]]]; discriminate H.
Qed.
Print Assumptions C66_line_density_refuted.

Theorem C66_q_gauss_new_refuted : wrong NewSCQGauss.
Proof.
  eapply (wrong_word NewSCQGauss _ 7 77); [exact x2_added|reflexivity| |vm_compute; reflexivity
    |vm_compute; discriminate|vm_compute; reflexivity|vm_compute; discriminate|intros []|vm_compute; discriminate].
  apply plain_request; [cbn; lia|cbn; lia|].
  repeat (constructor; [split; [vm_compute; discriminate|reflexivity]|]). constructor.
Qed.
Print Assumptions C66_q_gauss_new_refuted.

(* The number of points of a field map is computed with signed integers: for three numbers
   that are in range, but whose product is not, the behaviour is undefined, even if the table
   is empty. *)
Theorem C66_plane_refuted : exists F hp b e g nx ny, added_only b /\ good_heap hp /\ limits_squared F /\
  length g = 13%nat /\ wanted F (NewTriCubData nx ny 0) <> None /\
  add_element F hp b e g (NewTriCubData nx ny 0) = None.
Proof.
  exists fx, (heap_at 524288), x2, ext, (stack 13), (2 ^ 40), (2 ^ 40).
  split; [exact x2_added|]. split; [good|]. split; [exact fx_limits|]. split; [reflexivity|].
  split; [vm_compute; discriminate|vm_compute; reflexivity].
Qed.
Print Assumptions C66_plane_refuted.

(* a drift, a monitor and a multipole of order 1 with its four coefficients at 1000 *)
Definition c_drift := AddDrift 42.
Definition c_monitor := AddMonitor 5 1 2 0 3 9 true false.
Definition c_multipole := AddMultipole 1 10 11 12 1000.
Definition x_multipole : element := (4, [1; 10; 11; 12; 1000], [Attr 32 8 4]).
Example C66_example : added_only x2 /\ good_heap (heap_at 524288) /\ limits_squared fx /\
  (wanted fx c_monitor = Some (10, [5; 1; 2; 0; 9; 3; 1; 0], []) /\ faithful c_monitor /\ plane_fits c_monitor /\
   request_ok x2 (request_of ext (10, [5; 1; 2; 0; 9; 3; 1; 0], [])) /\
   fst (done x2 c_monitor) <> 0 /\
   nth_error (objects (snd (done x2 c_monitor))) 2 = Some (10, map Raw [5; 1; 2; 0; 9; 3; 1; 0])) /\
  (wanted fx c_multipole = Some x_multipole /\ request_ok x2 (request_of ext x_multipole) /\
   fst (done x2 c_multipole) <> 0 /\
   option_map (fun o => (fst o, firstn 5 (snd o), length (snd o))) (nth_error (objects (snd (done x2 c_multipole))) 2) =
     Some (4, [Raw 1; Raw 10; Raw 11; Raw 12; Ptr 40], 9%nat)) /\
  memory_up_to (heap_at 524288) 1000 /\
  wanted fx (NewMultipole (2 ^ 64 - 1)) = None /\ wanted fx (AddBeamBeam4D 5 0) = None.
Proof.
  split; [exact x2_added|]. split; [good|]. split; [exact fx_limits|]. split.
  { split; [reflexivity|]. split; [exact Logic.I|]. split; [exact Logic.I|]. split.
    - apply plain_request; [cbn; lia|cbn; lia|].
      repeat (constructor; [split; [vm_compute; discriminate|reflexivity]|]). constructor.
    - split; [vm_compute; discriminate|vm_compute; reflexivity]. }
  split.
  { split; [reflexivity|]. split.
    - split; [|vm_compute; reflexivity]. unfold request_of, x_multipole. cbn [rq_mem rq_obj rq_size rq_attrs fst snd]. split.
      + reflexivity.
      + vm_compute. discriminate.
      + repeat (constructor; [split; [vm_compute; discriminate|reflexivity]|]). constructor.
      + attrs_of. repeat split; try reflexivity; vm_compute; discriminate.
      + cbn [map at_offset]. constructor; [intros []|constructor].
      + attrs_of. lia.
      + intros x [<- | []] j Hj _. change (attr_bytes (Attr 32 8 4)) with 32 in Hj.
        change (wnth [1; 10; 11; 12; 1000] (at_offset (Attr 32 8 4) / 8)) with 1000. apply ext_some. lia.
    - split; [vm_compute; discriminate|vm_compute; reflexivity]. }
  split; [apply heap_at_memory; reflexivity|]. split; reflexivity.
Qed.
