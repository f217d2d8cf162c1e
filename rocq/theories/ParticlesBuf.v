(* Particle sets in buffers and the tables of the addresses of their attributes:
   sixtracklib/common/particles.h, sixtracklib/common/particles/particles_addr.h and
   sixtracklib/common/particles/particles_addr.c.

   A particle set is the struct Particles (particles.h 36-63): num_particles followed by 21
   pointers to the arrays of the attributes.  A row of the table is the struct ParticlesAddr
   (particles_addr.h 27-53), which has the same fields with addresses in place of
   pointers.  An attribute is given by its number a:
     0 q0, 1 mass0, 2 beta0, 3 gamma0, 4 p0c, 5 s, 6 x, 7 y, 8 px, 9 py, 10 zeta, 11 psigma,
     12 delta, 13 rpp, 14 rvv, 15 chi, 16 charge_ratio, 17 particle_id, 18 at_element_id,
     19 at_turn, 20 state.
   Values are words (the bits of a double or of an int64).  SIXTRL_ASSERT is disabled
   (release build).  The two buffers of a call are different ones (SIXTRL_RESTRICT).  The
   slot size is 8. *)
From Coq Require Import ZArith List Bool.
From Verif Require Import MBuf MemPool Buffer Lines Strings.
Import ListNotations.
Local Open Scope Z_scope.

(* internal/objects_type_id.h 20, 42 *)
Definition T_PARTICLE := 1.
Definition T_PARTICLES_ADDR := 512.

(* sizeof( Particles ), sizeof( ParticlesAddr ) *)
Definition P_SIZE := 176.

(* offsetof of the 21 pointers *)
Definition p_offsets : list Z :=
  [8; 16; 24; 32; 40; 48; 56; 64; 72; 80; 88; 96; 104; 112; 120; 128; 136; 144; 152; 160; 168].

(* the arrays offsets, sizes and counts in Particles_new (1954-2004) and Particles_add *)
Definition p_attrs (n : Z) : list attr := map (fun o => Attr o 8 n) p_offsets.

(* Object_get_begin_addr of the result of Buffer_add_object; 0 for a null pointer *)
Definition new_begin (r : Z * buffer) : option (Z * buffer) :=
  let '(r, b') := r in
  a <- (if r =? 0 then Some 0 else rd (b_mem b') r) ;; Some (a, b').

(* particles.h 1944-2016: Particles_new; the pointers are preset to null *)
Definition particles_new (hp : heap) (b : buffer) (n : Z) : option (Z * buffer) :=
  r <- buf_add_object hp b (fun _ => None) (n :: repeat 0 21) P_SIZE T_PARTICLE (p_attrs n) ;;
  new_begin r.

(* particles.h 2018-2135: Particles_add; ptrs: the 21 pointers into the caller's memory e *)
Definition particles_add (hp : heap) (b : buffer) (e : ext_mem) (n : Z) (ptrs : list Z)
    : option (Z * buffer) :=
  r <- buf_add_object hp b e (n :: ptrs) P_SIZE T_PARTICLE (p_attrs n) ;;
  new_begin r.

(* the pointers of the particle set at p *)
Fixpoint p_pointers (m : mem) (p : Z) (offs : list Z) : option (list Z) :=
  match offs with
  | [] => Some []
  | o :: r => w <- rd m (p + o) ;; l <- p_pointers m p r ;; Some (w :: l)
  end.

(* particles.h 2137-2165: Particles_add_copy of the particle set at p of the block ms;
   2627-2634: Particles_get_num_of_particles *)
Definition particles_add_copy (hp : heap) (b : buffer) (ms : mem) (p : Z) : option (Z * buffer) :=
  n <- (if p =? 0 then Some 0 else rd ms p) ;;
  ptrs <- p_pointers ms p p_offsets ;;
  particles_add hp b (mem_byte ms) n ptrs.

(* particles.h 4488-4498: Particles_get_x_value and the same for the other attributes *)
Definition p_get (m : mem) (p : Z) (a : nat) (i : Z) : option Z :=
  q <- rd m (p + nth a p_offsets 0) ;; rd m (q + 8 * i).

(* particles.h 4532-4543: Particles_set_x_value and the same for the other attributes *)
Definition p_set (m : mem) (p : Z) (a : nat) (i v : Z) : option mem :=
  q <- rd m (p + nth a p_offsets 0) ;; wr m (q + 8 * i) v.

(* particles.h 2652-2668: BufferIndex_get_const_particles *)
Definition get_particles (m : mem) (entry : Z) : option Z :=
  if entry =? 0 then Some 0 else
  t <- rd m (entry + 8) ;;
  s <- rd m (entry + 16) ;;
  if (t =? T_PARTICLE) && (P_SIZE <? s) then rd m entry else Some 0.

(* particles.h 3655-3674: Particles_managed_buffer_get_const_particles; 3808-3826:
   Particles_buffer_get_const_particles does the same.  The index is not checked *)
Definition particles_at (m : mem) (base i : Z) : option Z :=
  o <- objects_index_begin m base ;; get_particles m (o + 24 * i).

(* particles.h 3608-3653: Particles_managed_buffer_get_num_of_particle_blocks and 3745-3796:
   Particles_buffer_get_num_of_particle_blocks, the loop over n objects *)
Fixpoint blocks_loop (m : mem) (it : Z) (n : nat) (acc : Z) : option Z :=
  match n with
  | O => Some acc
  | S k =>
    t <- rd m (it + 8) ;;
    acc' <- (if t =? T_PARTICLE then
               p <- rd m it ;;
               if p =? 0 then Some acc else
               c <- rd m p ;; Some (if 0 <? int64 c then u64 (acc + 1) else acc)
             else Some acc) ;;
    blocks_loop m (it + 24) k acc'
  end.
Definition num_blocks (b : buffer) : option Z :=
  n <- buf_num_objects b ;;
  if 0 <? n then blocks_loop (b_mem b) (object_addr (b_h b)) (Z.to_nat n) 0 else Some 0.

(* particles.h 3689-3701: Buffer_is_particles_buffer *)
Definition is_particles_buffer (b : buffer) : option bool :=
  n <- buf_num_objects b ;; k <- num_blocks b ;; Some ((0 <? n) && (n =? k)).

(* signed addition of int64; an overflow is undefined *)
Definition add_int64 (x y : Z) : option Z :=
  let s := x + y in if (- 2 ^ 63 <=? s) && (s <? 2 ^ 63) then Some s else None.

(* particles.h 3703-3743: Particles_buffer_get_total_num_of_particles *)
Fixpoint total_loop (m : mem) (it : Z) (n : nat) (acc : Z) : option Z :=
  match n with
  | O => Some acc
  | S k =>
    t <- rd m (it + 8) ;;
    acc' <- (if t =? T_PARTICLE then
               p <- rd m it ;;
               c <- (if p =? 0 then Some 0 else rd m p) ;; add_int64 acc (int64 c)
             else Some acc) ;;
    total_loop m (it + 24) k acc'
  end.
Definition total_particles (b : buffer) : option Z :=
  n <- buf_num_objects b ;;
  if 0 <? n then total_loop (b_mem b) (object_addr (b_h b)) (Z.to_nat n) 0 else Some 0.

(* ------------------------------------------------------------------ *)
(* the table of addresses *)

(* particles_addr.h 382-415: ParticlesAddr_clear *)
Fixpoint pa_clear_fields (m : mem) (p : Z) (offs : list Z) : option mem :=
  match offs with
  | [] => Some m
  | o :: r => m' <- wr m (p + o) 0 ;; pa_clear_fields m' p r
  end.
Definition pa_clear (m : mem) (p : Z) : option mem :=
  if p =? 0 then Some m else pa_clear_fields m p p_offsets.

(* particles_addr.h 369-380: ParticlesAddr_preset *)
Definition pa_preset (m : mem) (p : Z) : option mem :=
  if p =? 0 then Some m else m' <- wr m p 0 ;; pa_clear m' p.

(* particles_addr.h 588-625: ParticlesAddr_assign_from_particles *)
Fixpoint pa_assign_fields (m : mem) (pa : Z) (mp : mem) (p : Z) (offs : list Z) : option mem :=
  match offs with
  | [] => Some m
  | o :: r => w <- rd mp (p + o) ;; m' <- wr m (pa + o) w ;; pa_assign_fields m' pa mp p r
  end.
Definition pa_assign_from (m : mem) (pa : Z) (mp : mem) (p : Z) : option mem :=
  if (pa =? 0) || (p =? 0) then Some m else pa_assign_fields m pa mp p (0 :: p_offsets).

(* particles_addr.h 627-690: ParticlesAddr_assign_to_particles: the row at pa of the block m to
   the struct Particles at p of the block mp; 417-449: ParticlesAddr_copy *)
Definition pa_assign_to (mp : mem) (p : Z) (m : mem) (pa : Z) : option mem :=
  if (pa =? 0) || (p =? 0) then Some mp else pa_assign_fields mp p m pa (0 :: p_offsets).
Definition pa_copy (m : mem) (dest : Z) (ms : mem) (src : Z) : option mem :=
  if (dest =? 0) || (src =? 0) then Some m else pa_assign_fields m dest ms src (0 :: p_offsets).

(* particles_addr.h 729-752: value += addr_offset; 754-794: the offset is negative *)
Definition shifted (offset w : Z) : Z :=
  if 0 <? offset then u64 (w + offset) else if (- offset) <=? w then w - (- offset) else 0.
Fixpoint pa_shift_fields (m : mem) (p offset : Z) (offs : list Z) : option mem :=
  match offs with
  | [] => Some m
  | o :: r => w <- rd m (p + o) ;; m' <- wr m (p + o) (shifted offset w) ;; pa_shift_fields m' p offset r
  end.

(* particles_addr.h 693-797: ParticlesAddr_remap_addresses; the negation of the smallest
   offset is undefined *)
Definition pa_remap (m : mem) (p offset : Z) : option mem :=
  if p =? 0 then Some m else
  addrs <- p_pointers m p p_offsets ;;
  if (offset =? 0) || existsb (Z.eqb 0) addrs then Some m
  else if offset =? - 2 ^ 63 then None
  else pa_shift_fields m p offset p_offsets.

(* particles_addr.h 452-583: ParticlesAddr_compare_values; the number of particles is
   compared as int64, the addresses as unsigned numbers *)
Definition compare_as (f : Z -> Z) (x y : Z) : Z :=
  if f x =? f y then 0 else if f y <? f x then 1 else -1.
Fixpoint compare_fields (m : mem) (l : Z) (m' : mem) (r : Z) (offs : list Z) : option Z :=
  match offs with
  | [] => Some 0
  | o :: rest =>
    x <- rd m (l + o) ;; y <- rd m' (r + o) ;;
    let c := compare_as (fun w => w) x y in
    if c =? 0 then compare_fields m l m' r rest else Some c
  end.
Definition pa_compare (m : mem) (l : Z) (m' : mem) (r : Z) : option Z :=
  if negb (l =? 0) && negb (r =? 0) then
    x <- rd m l ;; y <- rd m' r ;;
    let c := compare_as int64 x y in
    if c =? 0 then compare_fields m l m' r p_offsets else Some c
  else Some (if negb (l =? 0) then 1 else -1).

(* particles_addr.h 894-912: BufferIndex_get_const_particles_addr *)
Definition get_paddr (m : mem) (entry : Z) : option Z :=
  if entry =? 0 then Some 0 else
  t <- rd m (entry + 8) ;;
  s <- rd m (entry + 16) ;;
  if (t =? T_PARTICLES_ADDR) && (P_SIZE <=? s) then rd m entry else Some 0.

(* particles_addr.h 923-940: ParticlesAddr_managed_buffer_get_const_particle_addr; 1146-1163:
   the same for a buffer.  The index is not checked *)
Definition paddr_at (m : mem) (base i : Z) : option Z :=
  o <- objects_index_begin m base ;; get_paddr m (o + 24 * i).

(* particles_addr.h 954-985: Particles_managed_buffer_store_addresses and
   particles_addr.c 129-142: ParticlesAddr_buffer_store_addresses.  bt: the buffer of the
   table, bp: the buffer of the particles *)
Definition store_one (bt bp : buffer) (i : Z) : option (Z * buffer) :=
  pa <- paddr_at (b_mem bt) (data_addr (b_h bt)) i ;;
  if pa =? 0 then Some (-1, bt) else
  p <- particles_at (b_mem bp) (data_addr (b_h bp)) i ;;
  m <- (if p =? 0 then pa_preset (b_mem bt) pa else pa_assign_from (b_mem bt) pa (b_mem bp) p) ;;
  Some (0, with_mem bt m).

(* particles_addr.h 1065-1093: Particles_managed_buffer_store_all_addresses and
   particles_addr.c 144-156; the loop over n objects from number i *)
Fixpoint store_loop (bt bp : buffer) (i : Z) (n : nat) (status : Z) : option (Z * buffer) :=
  match n with
  | O => Some (status, bt)
  | S k =>
    '(st, bt') <- store_one bt bp i ;;
    if st =? 0 then store_loop bt' bp (i + 1) k st else Some (st, bt')
  end.
Definition store_all (bt bp : buffer) : option (Z * buffer) :=
  n <- buf_num_objects bp ;;
  n' <- buf_num_objects bt ;;
  if (0 <? n) && (n =? n') then store_loop bt bp 0 (Z.to_nat n) (-1) else Some (-1, bt).

(* particles_addr.h 801-831 and particles_addr.c 158-178: the addresses of all rows *)
Fixpoint remap_loop (b : buffer) (offset i : Z) (n : nat) : option buffer :=
  match n with
  | O => Some b
  | S k =>
    pa <- paddr_at (b_mem b) (data_addr (b_h b)) i ;;
    m <- pa_remap (b_mem b) pa offset ;;
    remap_loop (with_mem b m) offset (i + 1) k
  end.
Definition remap_all (b : buffer) (offset : Z) : option buffer :=
  n <- buf_num_objects b ;; remap_loop b offset 0 (Z.to_nat n).

(* particles_addr.h 851-890: ParticlesAddr_managed_buffer_all_compare *)
Fixpoint compare_loop (l r : buffer) (i : Z) (n : nat) : option Z :=
  match n with
  | O => Some 0
  | S k =>
    pl <- paddr_at (b_mem l) (data_addr (b_h l)) i ;;
    pr <- paddr_at (b_mem r) (data_addr (b_h r)) i ;;
    c <- pa_compare (b_mem l) pl (b_mem r) pr ;;
    if c =? 0 then compare_loop l r (i + 1) k else Some c
  end.
Definition compare_all (l r : buffer) : option Z :=
  n <- buf_num_objects l ;;
  n' <- buf_num_objects r ;;
  if n =? n' then compare_loop l r 0 (Z.to_nat n) else Some (if n' <? n then 1 else -1).

(* particles_addr.h 1167-1183: ParticlesAddr_buffer_clear_single *)
Definition clear_one (b : buffer) (i : Z) : option (Z * buffer) :=
  pa <- paddr_at (b_mem b) (data_addr (b_h b)) i ;;
  if pa =? 0 then Some (-1, b) else
  m <- pa_clear (b_mem b) pa ;; Some (0, with_mem b m).

(* particles_addr.h 1185-1217: ParticlesAddr_buffer_clear_all *)
Fixpoint clear_loop (b : buffer) (i : Z) (n : nat) (cleared : Z) : option (Z * buffer) :=
  match n with
  | O => Some (cleared, b)
  | S k =>
    pa <- paddr_at (b_mem b) (data_addr (b_h b)) i ;;
    if pa =? 0 then clear_loop b (i + 1) k cleared
    else m <- pa_clear (b_mem b) pa ;; clear_loop (with_mem b m) (i + 1) k (cleared + 1)
  end.
Definition clear_all (b : buffer) : option (Z * buffer) :=
  n <- buf_num_objects b ;;
  if 0 <? n then
    '(c, b') <- clear_loop b 0 (Z.to_nat n) 0 ;; Some (if 0 <? c then 0 else -1, b')
  else Some (-1, b).

(* particles_addr.h 1258-1313: ParticlesAddr_add; 1238-1256: ParticlesAddr_new *)
Definition paddr_add (hp : heap) (b : buffer) (n : Z) (addrs : list Z) : option (Z * buffer) :=
  r <- buf_add_object hp b (fun _ => None) (n :: addrs) P_SIZE T_PARTICLES_ADDR [] ;;
  new_begin r.
Definition paddr_new (hp : heap) (b : buffer) (n : Z) : option (Z * buffer) :=
  paddr_add hp b n (repeat 0 21).

(* particles_addr.h 1315-1337: ParticlesAddr_add_copy of the row at p of the block m *)
Definition paddr_add_copy (hp : heap) (b : buffer) (m : mem) (p : Z) : option (Z * buffer) :=
  if p =? 0 then Some (0, b) else
  n <- rd m p ;; addrs <- p_pointers m p p_offsets ;; paddr_add hp b n addrs.

(* particles_addr.c 63-126: ParticlesAddr_prepare_buffer_based_on_particles_buffer; the loop
   over n objects.  hps k: the heap at the k-th addition *)
Fixpoint prepare_loop (hps : nat -> heap) (bt : buffer) (mp : mem) (it : Z) (n : nat) (found : Z)
    : option (Z * buffer) :=
  match n with
  | O => Some (found, bt)
  | S k =>
    p <- get_particles mp it ;;
    c <- (if p =? 0 then Some 0 else rd mp p) ;;
    '(pa, bt') <- paddr_new (hps O) bt c ;;
    let found' := if negb (p =? 0) && negb (pa =? 0) then u64 (found + 1) else found in
    prepare_loop (fun j => hps (S j)) bt' mp (it + 24) k found'
  end.
Definition prepare (hps : nat -> heap) (bt bp : buffer) : option (Z * buffer) :=
  sets <- num_blocks bp ;;
  n <- buf_num_objects bp ;;
  n' <- buf_num_objects bt ;;
  bt <- (if 0 <? n' then
           '(_, b1) <- buf_clear bt true ;; '(_, b2) <- buf_reset b1 ;; Some b2
         else Some bt) ;;
  '(found, bt') <- prepare_loop hps bt (b_mem bp) (object_addr (b_h bp)) (Z.to_nat n) 0 ;;
  k <- buf_num_objects bt' ;;
  Some (if (found =? sets) && (n =? k) then 0 else -1, bt').
