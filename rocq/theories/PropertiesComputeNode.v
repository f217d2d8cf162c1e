(* C72: ids and descriptions of OpenCL compute nodes *)
From Coq Require Import Ascii String ZArith Bool List Lia.
From Verif Require Import Tac NodeId NodeIdSpec NodeIdProofs ComputeNode ComputeNodeSpec ComputeNodeProofs ComputeInfoProofs.
Import ListNotations.
Local Open Scope Z_scope.

(* Comparing two ids that name nodes gives their order: 0 exactly for equal ids, -1 when the first
   comes before the second (platform first, then device), +1 when it comes after. *)
Theorem C72_order : forall a b, set_id a -> set_id b ->
  (cn_compare (Some a) (Some b) = 0 <-> a = b) /\
  (cn_compare (Some a) (Some b) = -1 <-> before a b) /\
  (cn_compare (Some a) (Some b) = 1 <-> before b a) /\
  (cn_are_equal (Some a) (Some b) = true <-> a = b) /\
  (cn_lt a b = true <-> before a b).
Proof.
  intros a b Ha Hb. assert (AE : cn_are_equal (Some a) (Some b) = true <-> cn_compare (Some a) (Some b) = 0).
  { unfold cn_are_equal. apply Z.eqb_eq. }
  rewrite AE. pose proof (cn_lt_before a b) as L.
  destruct (compare_spec a b Ha Hb) as [[E ->]|[[E B]|[E B]]]; rewrite E.
  - pose proof (before_irrefl b). repeat split; try tauto; try discriminate.
  - pose proof (before_asym _ _ B). assert (a <> b) by (intros ->; exact (before_irrefl _ B)).
    repeat split; try tauto; try discriminate.
  - pose proof (before_asym _ _ B). assert (a <> b) by (intros ->; exact (before_irrefl _ B)).
    repeat split; try tauto; try discriminate.
Qed.
Print Assumptions C72_order.

Example C72_order_example : set_id (mkCN 0 1) /\ set_id (mkCN 1 0) /\ cn_compare (Some (mkCN 0 1)) (Some (mkCN 1 0)) = -1.
Proof. repeat split; discriminate. Qed.

(* An id that names no node is not equal to itself, and of two such ids each comes before the other. *)
Theorem C72_order_refuted : exists a b,
  cn_are_equal (Some a) (Some a) = false /\ cn_compare (Some a) (Some b) = -1 /\ cn_compare (Some b) (Some a) = -1.
Proof. exists cn_preset, (mkCN 0 (-1)). repeat split. Qed.
Print Assumptions C72_order_refuted.

(* Printing an id: the array keeps its size, the call succeeds exactly when the text of the id in the
   requested format, with its terminating NUL, fits, and then the array holds that text. *)
Theorem C72_to_string : forall n buf cap arch fmt out st,
  0 <= cn_platform n < 2 ^ 32 -> 0 <= cn_device n < 2 ^ 32 -> 0 <= arch < 2 ^ 64 ->
  (fmt = FmtArchStr -> arch <= 3 \/ arch = 1023) ->
  Z.of_nat (length buf) = cap ->
  cn_to_string (Some n) (Some buf) cap arch fmt = (out, st) ->
  (exists b, out = Some b /\ Z.of_nat (length b) = cap) /\
  (st = 0 \/ st = -1) /\
  (st = 0 <-> exists t, id_text fmt arch n t /\ Z.of_nat (length t) < cap) /\
  (st = 0 -> exists b t, out = Some b /\ id_text fmt arch n t /\ array_holds b t).
Proof.
  intros n buf cap arch fmt out st Hp Hd Ha K L H.
  assert (K' : known_arch fmt arch) by (destruct fmt; cbn; auto).
  destruct (to_string_spec n buf cap arch fmt out st (conj Hp Hd) Ha K' L H) as (A & B & C & D).
  split; auto. split; [destruct (Z.eq_dec st 0); auto|]. auto.
Qed.
Print Assumptions C72_to_string.

Example C72_to_string_example :
  cn_to_string (Some (mkCN 1 23)) (Some (zeros 16)) 16 2 FmtArchStr = (Some (lit "opencl:1.23" ++ zeros 5), 0) /\
  snd (cn_to_string (Some (mkCN 1 23)) (Some (zeros 11)) 11 2 FmtArchStr) = -1.
Proof. split; reflexivity. Qed.

(* An unset id, or no id, is not printed: the array is left alone. *)
Theorem C72_to_string_unset : forall n buf cap arch fmt, (forall m, n = Some m -> ~ set_id m) ->
  cn_to_string n buf cap arch fmt = (buf, -1).
Proof.
  intros n buf cap arch fmt H. destruct n as [m|]; [|reflexivity]. destruct buf as [b|]; [|reflexivity].
  unfold cn_to_string. destruct (cn_valid (Some m)) eqn:E; [|reflexivity]. exfalso. apply (H m eq_refl). apply cn_valid_set. exact E.
Qed.
Print Assumptions C72_to_string_unset.

(* Reading the text of an id gives back the id and the architecture, in every format. *)
Theorem C72_round_trip : forall fmt arch n t id0 arch0,
  0 <= cn_platform n < 2 ^ 31 -> 0 <= cn_device n < 2 ^ 31 -> 0 <= arch < 2 ^ 64 ->
  id_text fmt arch n t ->
  cn_from_string (Some id0) (Some t) fmt (Some arch0) =
    Some (Some n, Some (match fmt with FmtNoArch => 1023 | _ => arch end), 0) /\
  cn_from_string (Some id0) (Some t) fmt None = Some (Some n, None, 0).
Proof.
  intros fmt arch n t id0 arch0 Hp Hd Ha H.
  split; rewrite (from_string_text fmt arch n t id0 _ H (conj Hp Hd) Ha); reflexivity.
Qed.
Print Assumptions C72_round_trip.

Example C72_round_trip_example : id_text FmtArchStr 2 (mkCN 1 23) (lit "opencl:1.23").
Proof.
  exists (lit "opencl"), (lit "1.23"). split; [reflexivity|]. split; [constructor|].
  exists (lit "1"), (lit "23"). split; [reflexivity|].
  split; [exact (print_nat_canonical 1 ltac:(lia))|exact (print_nat_canonical 23 ltac:(lia))].
Qed.

(* Reading any text: on success the id names a node and both numbers are at least 0 and below 2^31;
   on failure neither the id nor the architecture changes. *)
Theorem C72_from_string : forall id s fmt parch id' parch' st,
  cn_from_string id s fmt parch = Some (id', parch', st) ->
  (st = 0 /\ exists n, id' = Some n /\ 0 <= cn_platform n < 2 ^ 31 /\ 0 <= cn_device n < 2 ^ 31 /\ (parch = None <-> parch' = None))
  \/ (st = -1 /\ id' = id /\ parch' = parch).
Proof.
  intros id s fmt parch id' parch' st H. unfold cn_from_string in H.
  assert (F : Some (id, parch, -1) = Some (id', parch', st) -> st = -1 /\ id' = id /\ parch' = parch).
  { intros E. injection E as <- <- <-. auto. }
  destruct s as [[|a s]|]; auto. destruct id as [i|]; auto.
  destruct (scan_id fmt (a :: s)) as [[[[ar p] d]|]|] eqn:E; auto; [|discriminate].
  destruct ((0 <=? p) && (0 <=? d)) eqn:G; auto. apply andb_true_iff in G as [G1 G2]. apply Z.leb_le in G1, G2.
  injection H as <- <- <-. left. split; auto. exists (mkCN p d). split; auto. cbn [cn_platform cn_device].
  destruct (scan_id_range _ _ _ _ _ E). split; [lia|]. split; [lia|]. destruct parch; split; congruence.
Qed.
Print Assumptions C72_from_string.

(* Larger numbers: 2^31 is printed but reading the text is undefined; 2^32 is printed as 0, the text
   of another node; a negative number other than -1 counts as a set id and is printed as a large one. *)
Theorem C72_large_refuted :
  (exists t b, cn_to_string (Some (mkCN (2 ^ 31) 0)) (Some (zeros 32)) 32 0 FmtNoArch = (Some b, 0) /\ array_holds b t /\
     cn_from_string (Some cn_preset) (Some t) FmtNoArch None = None) /\
  cn_to_string (Some (mkCN (2 ^ 32) 0)) (Some (zeros 32)) 32 0 FmtNoArch = cn_to_string (Some (mkCN 0 0)) (Some (zeros 32)) 32 0 FmtNoArch /\
  (exists b, cn_to_string (Some (mkCN (-2) 0)) (Some (zeros 32)) 32 0 FmtNoArch = (Some b, 0) /\ array_holds b (lit "4294967294.0")).
Proof.
  split; [|split; [vm_compute; reflexivity|]].
  - exists (lit "2147483648.0"), (lit "2147483648.0" ++ zeros 20). split; [vm_compute; reflexivity|]. split; [|vm_compute; reflexivity].
    split; [exists (zeros 19); vm_compute; reflexivity|]. cbn. intuition discriminate.
  - exists (lit "4294967294.0" ++ zeros 20). split; [vm_compute; reflexivity|].
    split; [exists (zeros 19); vm_compute; reflexivity|]. cbn. intuition discriminate.
Qed.
Print Assumptions C72_large_refuted.

(* An architecture without a name is printed with an empty one, successfully; the text is rejected
   when it is read. *)
Theorem C72_unknown_arch_refuted : exists b,
  cn_to_string (Some (mkCN 0 1)) (Some (zeros 16)) 16 7 FmtArchStr = (Some b, 0) /\ array_holds b (lit ":0.1") /\
  cn_from_string (Some cn_preset) (Some (lit ":0.1")) FmtArchStr (Some 5) = Some (Some cn_preset, Some 5, -1).
Proof.
  exists (lit ":0.1" ++ zeros 12). split; [vm_compute; reflexivity|]. split; [|reflexivity].
  split; [exists (zeros 11); reflexivity|]. cbn. intuition discriminate.
Qed.
Print Assumptions C72_unknown_arch_refuted.

(* A text with a negative architecture number is accepted, as the number modulo 2^64. *)
Theorem C72_negative_arch_refuted :
  cn_from_string (Some cn_preset) (Some (lit "-2:0.1")) FmtArchId (Some 5) = Some (Some (mkCN 0 1), Some (2 ^ 64 - 2), 0).
Proof. vm_compute. reflexivity. Qed.
Print Assumptions C72_negative_arch_refuted.

(* Reserving the texts of a description, whatever the allocator does: the call succeeds exactly when
   architecture and name are wanted and the allocations succeed. On success the old texts are
   released and each new one is a separate block of the requested length plus one, all NUL; on
   failure the description is as before. In both cases nothing else on the heap changes and
   nothing is lost. *)
Theorem C72_reserve : forall o i al pl nl dl h,
  owns i h -> 0 <= al < 2 ^ 64 - 1 -> 0 <= pl < 2 ^ 64 - 1 -> 0 <= nl < 2 ^ 64 - 1 -> 0 <= dl < 2 ^ 64 - 1 ->
  exists ok i' h', ci_reserve o i al pl nl dl h = Some (ok, i', h') /\
    (ok = true <-> 0 < al /\ 0 < nl /\ o_arch o = true /\ o_name o = true /\
                   (0 < pl -> o_platform o = true) /\ (0 < dl -> o_description o = true)) /\
    owns i' h' /\
    (ok = true -> nothing_else h h' (owned i) (owned i') /\
       cleared h' (ci_arch i') al /\ cleared h' (ci_name i') nl /\
       cleared_or_null h' (ci_platform i') pl /\ cleared_or_null h' (ci_description i') dl) /\
    (ok = false -> i' = i /\ nothing_else h h' [] (owned i)).
Proof.
  intros o i al pl nl dl h Ow Ha Hp Hn Hd.
  destruct (ci_free_all i h Ow) as (h0 & Ef & L0 & N0).
  destruct (Z.lt_ge_cases 0 al) as [Pa|Pa]; [destruct (Z.lt_ge_cases 0 nl) as [Pn|Pn]; [destruct (enough_dec o pl dl) as [En|En]|]|].
  1:{ rewrite (reserve_ok o i al pl nl dl h h0 Ow Ha Hp Hn Hd Pa Pn En Ef L0).
      eexists. eexists. eexists. split; [reflexivity|]. split; [split; auto|].
      destruct (new_info_result i cn_preset pl dl h h0 ([Some (nuls al); Some (nuls nl)] ++ opt_block pl ++ opt_block dl) Ow L0 N0) as [R1 R2].
      { rewrite !app_length. cbn [length]. lia. }
      { intros x Hx. rewrite !in_app_iff in Hx. cbn [In] in Hx. destruct Hx as [[<-|[<-|[]]]|[Hx|Hx]]; eauto; apply opt_block_nuls in Hx; eauto. }
      split; [exact R1|]. split; [|discriminate]. intros _. split; [exact R2|].
      exact (reserve_cleared cn_preset al pl nl dl h h0 Hp Hd L0). }
  all: destruct (reserve_fail o i al pl nl dl h Ha Hp Hn Hd) as (k & Ek); [unfold enough in *; intros (Q1 & Q2 & Q3); try lia; tauto|];
    rewrite Ek; eexists; eexists; eexists; (split; [reflexivity|]); (split; [split; [discriminate|unfold enough in *; intros (Q1 & Q2 & Q3); try lia; tauto]|]);
    destruct (failed_result i h k Ow) as [R1 R2]; (split; [exact R1|]); (split; [discriminate|]); intros _; split; auto.
Qed.
Print Assumptions C72_reserve.

Example C72_reserve_example : owns (mkCI (mkCN 0 0) (Some 1%nat) None (Some 0%nat) None) [Some [Some nul]; Some [Some nul]; None].
Proof. split; [repeat constructor; cbn; intuition discriminate|]. constructor; [eexists; reflexivity|]. constructor; [eexists; reflexivity|constructor]. Qed.

(* Releasing a description: its texts are freed, once each, nothing else changes, and it is unset. *)
Theorem C72_free : forall i h, owns i h ->
  exists h', ci_free i h = Some (ci_preset, h') /\ owned ci_preset = [] /\
    (forall a, live h' a <-> live h a /\ ~ In a (owned i)) /\
    (forall a, ~ In a (owned i) -> nth_error h' a = nth_error h a).
Proof.
  intros i h Ow. destruct (ci_free_all i h Ow) as (h0 & Ef & L0 & N0). exists h0.
  specialize (Ef []). rewrite !app_nil_r in Ef. split; auto. split; [reflexivity|]. split.
  - intros a. unfold live. rewrite N0. destruct (in_dec Nat.eq_dec a (owned i)) as [Ia|Na].
    + split; [intros (b & E); discriminate|intros [_ H]; contradiction].
    + split; [auto|intros [H _]; exact H].
  - intros a Na. rewrite N0. destruct (in_dec Nat.eq_dec a (owned i)); [contradiction|reflexivity].
Qed.
Print Assumptions C72_free.

(* Making a description from four texts, all allocations succeeding: it then holds the id and the four
   texts, exactly when the texts of the platform and of the name have the same length. *)
Theorem C72_make_partial : forall o i id arch platform name description h,
  owns i h -> arch <> [] -> platform <> [] -> name <> [] -> description <> Some [] ->
  len_of (Some arch) < 2 ^ 64 - 1 -> len_of (Some platform) < 2 ^ 64 - 1 -> len_of (Some name) < 2 ^ 64 - 1 ->
  len_of description < 2 ^ 64 - 1 ->
  o_arch o = true -> o_name o = true -> o_platform o = true -> o_description o = true ->
  ((exists i' h', ci_make o i id (Some arch) (Some platform) (Some name) description h = Some (0, i', h') /\
      ci_id i' = id /\ points_to h' (ci_arch i') arch /\ points_to h' (ci_platform i') platform /\
      points_to h' (ci_name i') name /\ points_to_opt h' (ci_description i') description)
   <-> length platform = length name) /\
  (length platform = length name -> exists i' h',
      ci_make o i id (Some arch) (Some platform) (Some name) description h = Some (0, i', h') /\
      owns i' h' /\ nothing_else h h' (owned i) (owned i')).
Proof.
  intros o i id arch platform name description h Ow Na Np Nn Nd La Lp Ln Ld Oa On Op Od.
  destruct (ci_free_all i h Ow) as (h0 & Ef & L0 & N0).
  pose proof (len_of_pos arch Na) as Pa. pose proof (len_of_pos platform Np) as Pp. pose proof (len_of_pos name Nn) as Pn.
  assert (Pd : 0 <= len_of description) by (destruct description; cbn [len_of]; lia).
  assert (En : enough o (len_of (Some name)) (len_of description)) by (unfold enough; auto).
  pose proof (make_reserved o i id arch platform name description h h0 Ow Na Np Nn Nd
     (conj (Z.lt_le_incl _ _ Pa) La) (conj (Z.lt_le_incl _ _ Pp) Lp) (conj (Z.lt_le_incl _ _ Pn) Ln) (conj Pd Ld) En Ef L0) as M.
  assert (Eq : length platform = length name -> exists g,
    ci_make o i id (Some arch) (Some platform) (Some name) description h =
      Some (0, new_info id (len_of (Some name)) (len_of description) (length h), h0 ++ g) /\
    g = [Some (written arch (len_of (Some arch))); Some (written name (len_of (Some platform)))]
        ++ opt_written (Some platform) (len_of (Some name)) ++ opt_written description (len_of description)).
  { intros E. rewrite M. rewrite copy_ok; [|exact L0|lia|lia|lia|lia|lia|cbn [len_of] in *; lia|cbn [len_of] in *; lia|lia].
    cbn [obind text_of]. eexists. split; reflexivity. }
  split.
  - split.
    + intros (i' & h' & E & _ & _ & Tp & Tn & _). rewrite M in E.
      destruct (ci_copy _ _ _ _ _ _) as [g|] eqn:C; [|discriminate]. cbn [obind] in E. injection E as <- <-.
      apply copy_shape in C. cbn [new_info ci_platform ci_name] in Tp, Tn. unfold new_info in Tp, Tn. cbn [ci_platform ci_name] in Tp, Tn.
      rewrite (opt_ptr_eq _ _ Pn) in Tp. destruct (points_shape _ _ _ Tp) as (k & K1 & K2). destruct (points_shape _ _ _ Tn) as (k' & K1' & K2').
      rewrite C in K1, K1'. apply nth_shape in K1 as (b & B1 & B2). apply nth_shape in K1' as (b' & B1' & B2').
      rewrite nth_error_app2 in B1, B1' by lia. rewrite L0 in B1, B1'.
      replace (length h + 2 - length h)%nat with 2%nat in B1 by lia. replace (length h + 1 - length h)%nat with 1%nat in B1' by lia.
      rewrite (opt_block_eq _ Pn) in B1. cbn [app nth_error] in B1, B1'. injection B1 as <-. injection B1' as <-.
      pose proof (nuls_length (len_of (Some name)) ltac:(lia)). pose proof (nuls_length (len_of (Some platform)) ltac:(lia)).
      cbn [len_of] in *. lia.
    + intros E. destruct (Eq E) as (g & Eg & ->). eexists. eexists. split; [exact Eg|]. split; [reflexivity|].
      destruct (copied_points id (Some arch) (Some platform) (Some name) description (len_of (Some arch)) (len_of (Some name))
                  (len_of (Some platform)) (len_of description) (length h) h0 L0) as (A & B & C & D).
      * lia.
      * cbn [len_of]. lia.
      * cbn [len_of]. lia.
      * lia.
      * discriminate.
      * intros _ ->. reflexivity.
      * intros t Et. injection Et as <-. exact Pp.
      * intros t ->. apply len_of_pos. congruence.
      * auto.
  - intros E. destruct (Eq E) as (g & Eg & ->). eexists. eexists. split; [exact Eg|].
    apply new_info_result; auto.
    + rewrite !app_length, !opt_written_length. cbn [length]. lia.
    + intros x Hx. rewrite !in_app_iff in Hx. cbn [In] in Hx. destruct Hx as [[<-|[<-|[]]]|[Hx|Hx]]; eauto using opt_written_some.
Qed.
Print Assumptions C72_make_partial.

(* The lengths of platform and name are exchanged: a name two characters longer than the platform is
   written behind the end of its block, one that is one character longer is not terminated, a longer
   platform likewise, and a description without a platform, which the call allows, is refused. *)
Theorem C72_make_refuted :
  let o := mkO true true true true in
  ci_make o ci_preset (mkCN 0 0) (Some (lit "opencl")) (Some (lit "pocl")) (Some (lit "device")) None [] = None /\
  ci_make o ci_preset (mkCN 0 0) (Some (lit "opencl")) (Some (lit "platform")) (Some (lit "device")) None [] = None /\
  (exists i h, ci_make o ci_preset (mkCN 0 0) (Some (lit "opencl")) (Some (lit "intel")) (Some (lit "device")) None [] = Some (0, i, h) /\
     ~ points_to h (ci_name i) (lit "device") /\ read_string (ci_name i) h = None) /\
  (exists i h, ci_make o ci_preset (mkCN 0 0) (Some (lit "opencl")) (Some (lit "devices")) (Some (lit "device")) None [] = Some (0, i, h) /\
     ~ points_to h (ci_platform i) (lit "devices") /\ read_string (ci_platform i) h = None) /\
  ci_make o ci_preset (mkCN 0 0) (Some (lit "opencl")) None (Some (lit "device")) None [] = Some (-1, ci_preset, []).
Proof.
  cbv zeta. split; [vm_compute; reflexivity|]. split; [vm_compute; reflexivity|].
  split; [|split; [|vm_compute; reflexivity]].
  - eexists. eexists. split; [vm_compute; reflexivity|]. split; [|vm_compute; reflexivity].
    intros H. apply points_read in H; [vm_compute in H; discriminate|]. cbn. intuition discriminate.
  - eexists. eexists. split; [vm_compute; reflexivity|]. split; [|vm_compute; reflexivity].
    intros H. apply points_read in H; [vm_compute in H; discriminate|]. cbn. intuition discriminate.
Qed.
Print Assumptions C72_make_refuted.

Example C72_make_example : exists i h,
  ci_make (mkO true true true true) ci_preset (mkCN 0 1) (Some (lit "cpu")) (Some (lit "pocl")) (Some (lit "node")) (Some (lit "x")) [] = Some (0, i, h)
  /\ read_string (ci_name i) h = Some (lit "node") /\ ci_valid i h = Some true.
Proof. eexists. eexists. split; [vm_compute; reflexivity|]. split; vm_compute; reflexivity. Qed.

(* The descriptions an OpenCL context makes for its devices, whatever the allocator does: the
   description holds the id and the texts of the device, or, when the device has no name or an
   allocation fails, it stays as it was. The heap keeps everything else and loses nothing. *)
Theorem C72_device : forall o i id arch platform name description h,
  owns i h -> arch <> [] -> c_text arch -> c_text platform -> c_text name -> c_text description -> set_id id ->
  Z.of_nat (length arch) < 2 ^ 64 - 1 -> Z.of_nat (length platform) < 2 ^ 64 - 1 ->
  Z.of_nat (length name) < 2 ^ 64 - 1 -> Z.of_nat (length description) < 2 ^ 64 - 1 ->
  exists i' h', ci_fill o i id arch platform name description h = Some (i', h') /\ owns i' h' /\
    ((name <> [] /\ ci_id i' = id /\ read_string (ci_arch i') h' = Some arch /\ read_string (ci_name i') h' = Some name /\
      (if list_eq_dec ascii_dec platform [] then ci_platform i' = None else read_string (ci_platform i') h' = Some platform) /\
      (if list_eq_dec ascii_dec description [] then ci_description i' = None else read_string (ci_description i') h' = Some description) /\
      ci_valid i' h' = Some true /\ nothing_else h h' (owned i) (owned i'))
     \/ (i' = i /\ nothing_else h h' [] (owned i) /\
         (name = [] \/ o_arch o = false \/ o_name o = false \/ o_platform o = false \/ o_description o = false))).
Proof.
  intros o i id arch platform name description h Ow Na Ca Cp Cn Cd Si La Lp Ln Ld.
  destruct (ci_free_all i h Ow) as (h0 & Ef & L0 & N0). pose proof (len_of_pos arch Na) as Pa.
  assert (Oa : len_ok (len_of (Some arch))) by (unfold len_ok; cbn [len_of] in *; lia).
  assert (Op : len_ok (len_of (Some platform))) by (unfold len_ok; cbn [len_of] in *; lia).
  assert (On : len_ok (len_of (Some name))) by (unfold len_ok; cbn [len_of] in *; lia).
  assert (Od : len_ok (len_of (Some description))) by (unfold len_ok; cbn [len_of] in *; lia).
  assert (Fail : ~ (0 < len_of (Some arch) /\ 0 < len_of (Some name) /\ enough o (len_of (Some platform)) (len_of (Some description))) ->
    exists i' h', ci_fill o i id arch platform name description h = Some (i', h') /\ owns i' h' /\ i' = i /\ nothing_else h h' [] (owned i)).
  { intros Hf. unfold ci_fill. destruct (reserve_fail o i _ _ _ _ h Oa Op On Od Hf) as (k & Ek). rewrite Ek. cbn [obind].
    destruct (failed_result i h k Ow). eexists. eexists. split; [reflexivity|]. auto. }
  destruct (list_eq_dec ascii_dec name []) as [En|Nn].
  { destruct Fail as (i' & h' & E & W & E' & O').
    - subst name. cbn [len_of length]. lia.
    - exists i', h'. split; auto. split; auto. }
  destruct (enough_dec o (len_of (Some platform)) (len_of (Some description))) as [En|En].
  2:{ destruct Fail as (i' & h' & E & W & E' & O').
      - tauto.
      - exists i', h'. split; auto. split; auto. right. split; auto. split; auto. unfold enough in En.
        destruct (o_arch o), (o_name o), (o_platform o), (o_description o); auto. exfalso. tauto. }
  pose proof (len_of_pos name Nn) as Pn. unfold ci_fill.
  rewrite (reserve_ok o i _ _ _ _ h h0 Ow Oa Op On Od Pa Pn En Ef L0). cbn [obind ci_arch ci_platform ci_name ci_description].
  change (mkCI id (Some (length h)) (opt_ptr (len_of (Some platform)) (length h + 2)) (Some (length h + 1)%nat)
           (opt_ptr (len_of (Some description)) (length h + 2 + length (opt_block (len_of (Some platform))))))
    with (new_info id (len_of (Some platform)) (len_of (Some description)) (length h)).
  rewrite copy_ok; [|exact L0|lia|cbn [len_of]; lia|lia|cbn [len_of]; lia|lia|lia|lia|lia]. cbn [obind].
  eexists. eexists. split; [reflexivity|].
  assert (Res : owns (new_info id (len_of (Some platform)) (len_of (Some description)) (length h))
      (h0 ++ [Some (written (text_of (Some arch)) (len_of (Some arch))); Some (written (text_of (Some name)) (len_of (Some name)))]
          ++ opt_written (Some platform) (len_of (Some platform)) ++ opt_written (Some description) (len_of (Some description))) /\
      nothing_else h (h0 ++ [Some (written (text_of (Some arch)) (len_of (Some arch))); Some (written (text_of (Some name)) (len_of (Some name)))]
          ++ opt_written (Some platform) (len_of (Some platform)) ++ opt_written (Some description) (len_of (Some description)))
        (owned i) (owned (new_info id (len_of (Some platform)) (len_of (Some description)) (length h)))).
  { apply new_info_result; auto.
    - rewrite !app_length, !opt_written_length. cbn [length]. lia.
    - intros x Hx. rewrite !in_app_iff in Hx. cbn [In] in Hx. destruct Hx as [[<-|[<-|[]]]|[Hx|Hx]]; eauto using opt_written_some. }
  destruct Res as [R1 R2]. split; [exact R1|]. left. split; auto. split; [reflexivity|].
  set (i' := new_info id (len_of (Some platform)) (len_of (Some description)) (length h)) in *.
  set (g := h0 ++ _) in *.
  (* an empty text is a missing one *)
  set (op := if list_eq_dec ascii_dec platform [] then None else Some platform).
  set (od := if list_eq_dec ascii_dec description [] then None else Some description).
  assert (Gp : opt_written (Some platform) (len_of (Some platform)) = opt_written op (len_of (Some platform))).
  { unfold op. destruct (list_eq_dec ascii_dec platform []) as [->|]; reflexivity. }
  assert (Gd : opt_written (Some description) (len_of (Some description)) = opt_written od (len_of (Some description))).
  { unfold od. destruct (list_eq_dec ascii_dec description []) as [->|]; reflexivity. }
  destruct (copied_points id (Some arch) op (Some name) od (len_of (Some arch)) (len_of (Some platform))
              (len_of (Some name)) (len_of (Some description)) (length h) h0 L0) as (A & B & C & D).
  { lia. } { lia. }
  { unfold op. destruct (list_eq_dec ascii_dec platform []); cbn [len_of]; lia. }
  { unfold od. destruct (list_eq_dec ascii_dec description []); cbn [len_of]; lia. }
  { unfold op. destruct (list_eq_dec ascii_dec platform []) as [->|]; [reflexivity|discriminate]. }
  { unfold od. destruct (list_eq_dec ascii_dec description []) as [->|]; [reflexivity|discriminate]. }
  { unfold op. destruct (list_eq_dec ascii_dec platform []); intros t Et; [discriminate|]. injection Et as <-. apply len_of_pos. auto. }
  { unfold od. destruct (list_eq_dec ascii_dec description []); intros t Et; [discriminate|]. injection Et as <-. apply len_of_pos. auto. }
  rewrite <- Gp, <- Gd in A, B, C, D. fold g i' in A, B, C, D.
  pose proof (points_read _ _ _ Ca A) as A'. pose proof (points_read _ _ _ Cn B) as B'. cbn [text_of] in A', B'.
  assert (C' : if list_eq_dec ascii_dec platform [] then ci_platform i' = None else read_string (ci_platform i') g = Some platform).
  { unfold op in C. destruct (list_eq_dec ascii_dec platform []); [exact C|]. apply points_read; auto. }
  assert (D' : if list_eq_dec ascii_dec description [] then ci_description i' = None else read_string (ci_description i') g = Some description).
  { unfold od in D. destruct (list_eq_dec ascii_dec description []); [exact D|]. apply points_read; auto. }
  split; [exact A'|]. split; [exact B'|]. split; [exact C'|]. split; [exact D'|]. split; [|exact R2].
  (* valid *)
  assert (NE : forall t : chars, t <> [] -> (0 <? Z.of_nat (length t)) = true).
  { intros t Ht. apply Z.ltb_lt. exact (len_of_pos t Ht). }
  unfold ci_valid. change (ci_id i') with id. rewrite (proj2 (cn_valid_set id) Si). cbn [oand].
  change (is_null (ci_arch i')) with false. change (is_null (ci_name i')) with false. cbn [negb oand].
  unfold nonempty. rewrite A', B'. cbn [option_map]. rewrite (NE arch Na), (NE name Nn). cbn [oand].
  assert (VP : (if is_null (ci_platform i') then Some true else option_map (fun s => 0 <? Z.of_nat (length s)) (read_string (ci_platform i') g)) = Some true).
  { destruct (list_eq_dec ascii_dec platform []) as [|Hn]; [rewrite C'; reflexivity|]. rewrite C'.
    destruct (is_null (ci_platform i')); [reflexivity|]. cbn [option_map]. rewrite (NE platform Hn). reflexivity. }
  rewrite VP. cbn [oand].
  destruct (list_eq_dec ascii_dec description []) as [|Hn]; [rewrite D'; reflexivity|]. rewrite D'.
  destruct (is_null (ci_description i')); [reflexivity|]. cbn [option_map]. rewrite (NE description Hn). reflexivity.
Qed.
Print Assumptions C72_device.

Example C72_device_example : owns ci_preset [] /\ exists i h,
  ci_fill (mkO true true true true) ci_preset (mkCN 0 0) (lit "opencl") (lit "pocl") (lit "device") [] [] = Some (i, h) /\
  read_string (ci_name i) h = Some (lit "device").
Proof. split; [split; constructor|]. eexists. eexists. split; [vm_compute; reflexivity|]. vm_compute. reflexivity. Qed.

(* The text of a description: the id, marked when it is the default one, then architecture, platform
   and name, each on a line of its own and filled up to ten characters, or "n/a". *)
Definition filled (t s : list ascii) : Prop :=
  exists k, s = t ++ repeat " "%char k /\ length s = Nat.max 10 (length t).
Definition field (t : option (list ascii)) (s : list ascii) : Prop :=
  match t with Some t => filled t s | None => s = lit "n/a" end.
Definition eol : list ascii := [ascii_of_nat 13; ascii_of_nat 10].

Lemma pad10_filled : forall t, filled t (pad10 t).
Proof. intros t. exists (10 - length t)%nat. split; [reflexivity|]. unfold pad10. rewrite app_length, repeat_length. lia. Qed.

Lemma field_print : forall h p t, (forall x, t = Some x -> ~ In nul x) -> points_to_opt h p t ->
  exists s, print_field p h = Some s /\ field t s.
Proof.
  intros h p [t|] N P; cbn [points_to_opt] in P.
  - pose proof (points_read h p t (N t eq_refl) P) as R. destruct P as (a & r & -> & _). unfold print_field. rewrite R.
    exists (pad10 t). split; [reflexivity|]. apply pad10_filled.
  - subst p. exists (lit "n/a"). split; reflexivity.
Qed.

Theorem C72_text : forall i d h t ar pl na,
  0 <= cn_platform (ci_id i) < 2 ^ 32 -> 0 <= cn_device (ci_id i) < 2 ^ 32 ->
  plain_text (ci_id i) t -> (length t < 16)%nat -> (forall e, d = Some e -> set_id e) ->
  (forall x, In x [ar; pl; na] -> forall y, x = Some y -> ~ In nul y) ->
  points_to_opt h (ci_arch i) ar -> points_to_opt h (ci_platform i) pl -> points_to_opt h (ci_name i) na ->
  exists s0 mark s1 s2 s3,
    ci_text i d h = Some (lit "Device ID Str  : " ++ s0 ++ mark ++ eol ++ lit "Architecture   : " ++ s1 ++ eol ++
      lit "Platform       : " ++ s2 ++ eol ++ lit "Name           : " ++ s3 ++ eol) /\
    filled t s0 /\ field ar s1 /\ field pl s2 /\ field na s3 /\
    (d = Some (ci_id i) -> mark = lit " [DEFAULT]") /\ (d <> Some (ci_id i) -> mark = []).
Proof.
  intros i d h t ar pl na Hp Hd Ht Lt Sd Nn P1 P2 P3.
  destruct (field_print h _ ar (Nn ar (or_introl eq_refl)) P1) as (s1 & E1 & F1).
  destruct (field_print h _ pl (Nn pl (or_intror (or_introl eq_refl))) P2) as (s2 & E2 & F2).
  destruct (field_print h _ na (Nn na (or_intror (or_intror (or_introl eq_refl)))) P3) as (s3 & E3 & F3).
  assert (Ei : id_str (ci_id i) = t).
  { unfold id_str, cn_to_text. destruct (cn_to_string (Some (ci_id i)) (Some (zeros 16)) 16 0 FmtNoArch) as [out st] eqn:E.
    assert (R0 : 0 <= 0 < 2 ^ 64) by lia. assert (N0 : FmtNoArch = FmtArchStr -> 0 <= 3 \/ 0 = 1023) by discriminate.
    destruct (C72_to_string _ (zeros 16) 16 0 FmtNoArch _ _ Hp Hd R0 N0 eq_refl E) as (_ & _ & I0 & H0).
    assert (st = 0) as ->. { apply I0. exists t. split; [exact Ht|lia]. }
    destruct (H0 eq_refl) as (b & t' & -> & Ht' & Hb). cbn [fst]. rewrite (holds_c_string b t' Hb).
    destruct Ht as (a1 & a2 & -> & A1 & A2). destruct Ht' as (b1 & b2 & -> & B1 & B2).
    rewrite (canonical_unique _ _ _ A1 B1), (canonical_unique _ _ _ A2 B2). reflexivity. }
  assert (Si : set_id (ci_id i)) by (split; lia).
  unfold ci_text. rewrite E1, E2, E3. cbn [obind]. rewrite Ei.
  exists (pad10 t), (match d with Some d => if cn_are_equal (Some (ci_id i)) (Some d) then lit " [DEFAULT]" else [] | None => [] end), s1, s2, s3.
  split; [reflexivity|]. split; [apply pad10_filled|]. split; [exact F1|]. split; [exact F2|]. split; [exact F3|].
  destruct d as [e|]; [|split; [discriminate|reflexivity]].
  destruct (C72_order (ci_id i) e Si (Sd e eq_refl)) as (_ & _ & _ & A & _).
  destruct (cn_are_equal (Some (ci_id i)) (Some e)).
  - split; [reflexivity|]. intros X. exfalso. apply X. f_equal. symmetry. now apply A.
  - split; [|reflexivity]. intros X. exfalso. assert (false = true) by (apply A; congruence). discriminate.
Qed.
Print Assumptions C72_text.

Example C72_text_case : exists i h,
  plain_text (ci_id i) (lit "1.23") /\ points_to_opt h (ci_arch i) (Some (lit "opencl")) /\
  points_to_opt h (ci_platform i) None /\ points_to_opt h (ci_name i) (Some (lit "gpu")) /\ set_id (ci_id i).
Proof.
  exists (mkCI (mkCN 1 23) (Some 0%nat) None (Some 1%nat) None),
    [Some (map Some (lit "opencl") ++ [Some nul]); Some (map Some (lit "gpu") ++ [Some nul])].
  split.
  { exists (lit "1"), (lit "23"). split; [reflexivity|].
    split; [exact (print_nat_canonical 1 ltac:(lia))|exact (print_nat_canonical 23 ltac:(lia))]. }
  split; [exists 0%nat, []; split; reflexivity|]. split; [reflexivity|]. split; [exists 1%nat, []; split; reflexivity|].
  split; discriminate.
Qed.

(* The description as text: when the call succeeds and the text is shorter than the array, the array
   holds it; the array keeps its size; after a failure it is as before or cleared. *)
Theorem C72_print_partial : forall io buf cap i default h out st t,
  Z.of_nat (length buf) = cap -> ci_text i default h = Some t ->
  ci_print_to_str io buf cap i default h = Some (out, st) ->
  Z.of_nat (length out) = cap /\ (st = 0 \/ st = -1) /\
  (st = 0 <-> io = true /\ 0 < cap /\ Z.of_nat (length t) <= cap) /\
  (st = 0 -> Z.of_nat (length t) < cap -> exists r, out = t ++ nul :: r) /\
  (st = -1 -> 0 < cap -> out = repeat nul (length buf)) /\ (cap <= 0 -> out = buf).
Proof.
  intros io buf cap i default h out st t L T H. unfold ci_print_to_str in H.
  assert (Z0 : zeros cap = repeat nul (length buf)) by (unfold zeros; f_equal; lia).
  destruct (0 <? cap) eqn:Ec.
  2:{ apply Z.ltb_ge in Ec. injection H as <- <-. split; auto. split; auto. split; [split; [discriminate|lia]|].
      split; [discriminate|]. split; [lia|reflexivity]. }
  apply Z.ltb_lt in Ec. pose proof (zeros_length cap ltac:(lia)) as ZL. destruct io.
  2:{ injection H as <- <-. split; auto. split; auto. split; [split; [discriminate|intros [E _]; discriminate]|].
      split; [discriminate|]. split; [intros _ _; exact Z0|lia]. }
  rewrite T in H. cbn [obind] in H.
  assert (Pt : 0 < Z.of_nat (length t)).
  { unfold ci_text in T. destruct (print_field (ci_arch i) h); [|discriminate]. destruct (print_field (ci_platform i) h); [|discriminate].
    destruct (print_field (ci_name i) h); [|discriminate]. cbn [obind] in T. injection T as <-. cbn [length]. lia. }
  rewrite (proj2 (Z.ltb_lt _ _) Pt) in H. cbn [andb] in H. destruct (Z.of_nat (length t) <=? cap) eqn:El.
  - apply Z.leb_le in El. injection H as <- <-. split; [rewrite app_length, skipn_length; lia|]. split; auto. split; [tauto|].
    split; [|split; [discriminate|lia]].
    intros _ Lt. unfold zeros. rewrite skipn_zeros by lia. eexists. reflexivity.
  - apply Z.leb_gt in El. injection H as <- <-. split; auto. split; auto. split; [split; [discriminate|lia]|].
    split; [discriminate|]. split; [intros _ _; exact Z0|lia].
Qed.
Print Assumptions C72_print_partial.

(* When the text fills the array exactly the call succeeds although there is no room for the NUL. *)
Theorem C72_print_refuted : exists cap out,
  ci_print_to_str true (zeros cap) cap ci_preset None [] = Some (out, 0) /\ ~ In nul out.
Proof.
  exists 95. eexists. split; [vm_compute; reflexivity|]. cbn. intuition discriminate.
Qed.
Print Assumptions C72_print_refuted.
