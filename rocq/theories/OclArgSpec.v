(* What a user of OpenCL arguments expects: buffers are lists of objects, and so is what the argument
   holds on the device. *)
From Coq Require Import ZArith List Bool.
From Verif Require Import MBuf MBufSpec MemPool Buffer BufferSpec BufferUser DeviceArg DeviceArgSpec OclArg.
Import ListNotations.
Local Open Scope Z_scope.

(* the objects of the buffers *)
Definition hosts (w : oworld) : list (list object) := map objects (v_bufs w).

(* the memory for n bytes is inside the address space, aligned to words, and not at the address of a
   buffer *)
Definition memory_ok (hp : heap) (bs : list buffer) (n : Z) : Prop :=
  good_heap hp /\
  (h_malloc hp n <> 0 -> h_malloc hp n mod 8 = 0 /\ forall b, In b bs -> h_malloc hp n <> data_addr (b_h b)).

(* an argument for n bytes and buffers as they arise by use of the library *)
Definition start (n : Z) (w : oworld) : Prop :=
  (exists x hp, memory_ok hp (v_bufs w) n /\ v_arg w = cl_new_size x hp n) /\ n mod 8 = 0 /\
  forall b, In b (v_bufs w) -> reachable full_arrays b.

(* buffer i was written to the argument, with this result; the argument was read into buffer j; word k
   of object i was set on the device by a kernel, or by updating a region of the argument; the user set
   a word of an object of buffer j *)
Inductive event :=
| Wrote (i : nat) (ok : bool) | Read (j : nat) (ok : bool)
| DeviceSet (i k : nat) (v : Z) | Updated (i k : nat) (v : Z) (ok : bool) | HostSet (j i k : nat) (v : Z).

(* the last buffer written was written with success *)
Fixpoint usable (g : bool) (es : list event) : bool :=
  match es with
  | [] => g
  | Wrote _ ok :: es => usable ok es
  | _ :: es => usable g es
  end.

(* word k of object i on the device, with value old; a word that is a pointer is not one *)
Definition device_word (w : oworld) (i k : nat) (off old : Z) : Prop :=
  exists m t cells, ca_dev (v_arg w) = Some m /\ nth_error (content m) i = Some (t, cells) /\
    nth_error cells k = Some (Raw old) /\ off = obj_begin m (Z.of_nat i) + 8 * Z.of_nat k - mbase m.

Definition kernel_writes (w : oworld) (off v : Z) (w' : oworld) : Prop :=
  exists m m', ca_dev (v_arg w) = Some m /\ wr m (mbase m + off) v = Some m' /\
    w' = OW (v_bufs w) (CA (Some m') (ca_size (v_arg w)) (ca_buf (v_arg w))).

(* the rule for the user: the argument is only read, updated and used by kernels after a buffer was
   written with success; g tells whether it was *)
Inductive step : bool -> oworld -> event -> oworld -> Prop :=
| s_write g x i w r w' : cl_write x i w = Some (r, w') -> step g w (Wrote i r) w'
| s_read x j w r w' : cl_read x j w = Some (r, w') -> step true w (Read j r) w'
| s_kernel w i k v off old w' : device_word w i k off old -> 0 <= v < 2 ^ 64 -> kernel_writes w off v w' ->
    step true w (DeviceSet i k v) w'
| s_update x w i k v off old r w' : device_word w i k off old -> 0 <= v < 2 ^ 64 ->
    cl_update x [(off, Some [v])] w = (r, w') -> step true w (Updated i k v r) w'
| s_host g w j i k v b b' : nth_error (v_bufs w) j = Some b -> writes b i k v b' ->
    step g w (HostSet j i k v) (OW (replace (v_bufs w) j b') (v_arg w)).

Inductive steps : oworld -> list event -> oworld -> Prop :=
| ss_nil w : steps w [] w
| ss_snoc w es w1 e w2 : steps w es w1 -> step (usable false es) w1 e w2 -> steps w (es ++ [e]) w2.

(* the objects on the device, when the last buffer written was written with success *)
Definition held (es : list event) (w : oworld) : option (list object) :=
  if usable false es then option_map content (ca_dev (v_arg w)) else None.

(* what the events should do with the objects of the buffers and those on the device *)
Inductive effect1 : list (list object) * option (list object) -> event -> list (list object) * option (list object) -> Prop :=
| e_wrote hs d i os : nth_error hs i = Some os -> effect1 (hs, d) (Wrote i true) (hs, Some os)
| e_not_written hs d i : effect1 (hs, d) (Wrote i false) (hs, None)
| e_read hs os j : (j < length hs)%nat -> effect1 (hs, Some os) (Read j true) (replace hs j os, Some os)
| e_not_read hs d j : effect1 (hs, d) (Read j false) (hs, d)
| e_kernel hs os i k v t cells : nth_error os i = Some (t, cells) ->
    effect1 (hs, Some os) (DeviceSet i k v) (hs, Some (replace os i (t, replace cells k (Raw v))))
| e_update hs os i k v t cells : nth_error os i = Some (t, cells) ->
    effect1 (hs, Some os) (Updated i k v true) (hs, Some (replace os i (t, replace cells k (Raw v))))
| e_not_updated hs d i k v : effect1 (hs, d) (Updated i k v false) (hs, d)
| e_host hs d j os i k v t cells : nth_error hs j = Some os -> nth_error os i = Some (t, cells) ->
    effect1 (hs, d) (HostSet j i k v) (replace hs j (replace os i (t, replace cells k (Raw v))), d).

Inductive effects1 : list (list object) * option (list object) -> list event -> list (list object) * option (list object) -> Prop :=
| ee_nil s : effects1 s [] s
| ee_snoc s es s1 e s2 : effects1 s es s1 -> effect1 s1 e s2 -> effects1 s (es ++ [e]) s2.

(* the context has a selected node; its remapping kernel can be run with success *)
Definition ready (x : ocl) : Prop := x_ctx x = true /\ x_node x = true.
Definition remaps (x : ocl) : Prop :=
  x_run x = true /\ (x_kernel x = Plain \/ (x_kernel x = Debug true /\ x_get_flag x = true)).

(* the buffer the argument should say it is connected to: the last one transferred with success *)
Fixpoint connected (p : option nat) (es : list event) : option nat :=
  match es with
  | [] => p
  | Wrote i true :: es => connected (Some i) es
  | Read j true :: es => connected (Some j) es
  | _ :: es => connected p es
  end.

(* the words vs from number k on *)
Definition overlay (ws : list Z) (k : nat) (vs : list Z) : list Z :=
  firstn k ws ++ vs ++ skipn (k + length vs) ws.

(* a region of whole words, with a pointer that is not null, inside of n bytes *)
Definition fits (n : Z) (p : Z * option (list Z)) : Prop :=
  exists vs, snd p = Some vs /\ vs <> [] /\ fst p + 8 * Z.of_nat (length vs) <= n.
Definition region (p : Z * option (list Z)) : Prop :=
  0 <= fst p < 2 ^ 64 /\ fst p mod 8 = 0 /\ forall vs, snd p = Some vs -> 8 * Z.of_nat (length vs) < 2 ^ 64.

(* the words of the device after regions were written one after the other *)
Definition written (ws : list Z) (l : list (Z * option (list Z))) : list Z :=
  fold_left (fun ws p => match snd p with Some vs => overlay ws (Z.to_nat (fst p / 8)) vs | None => ws end) l ws.
