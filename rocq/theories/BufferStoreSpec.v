(** Specification for buffer stores (C40) and stored buffers (C47): who may use
    which buffer, and what a caller may rely on. *)
From Coq Require Import ZArith Bool List.
From Verif Require Import BufferStore.
Import ListNotations.
Local Open Scope Z_scope.

(** A buffer is alive. *)
Definition live (h : bheap) (a : Z) : Prop := h a <> None.

(** What the caller keeps track of: the buffers that belong to the caller, and
    the stores whose content was moved elsewhere and which were not set again. *)
Record ledger := mkLedger { l_mine : list Z; l_moved : list nat }.

Definition mine (g : ledger) (a : Z) : Prop := In a (l_mine g).
Definition moved (g : ledger) (i : nat) : Prop := In i (l_moved g).

(** Some store in use exposes the buffer at [a]. *)
Definition exposed (g : ledger) (p : pool) (a : Z) : Prop :=
  exists i s, pget p i = Some s /\ ~ moved g i /\ bs_ptr s = a.

(** The address the allocator returns is not null and not in use. *)
Definition fresh (p : pool) (a : Z) : Prop := a <> 0 /\ p_heap p a = None.

(** How a caller has to use [reset] on a store.  A buffer that is lent or given
    to a store belongs to the caller; a buffer that is given away is not
    exposed by any store. *)
Definition reset_ok (g : ledger) (p : pool) (r : reset_op) : Prop :=
  match r with
  | RCap a _ => fresh p a
  | RCxx b take => b = 0 \/ mine g b /\ (take = true -> ~ exposed g p b)
  | RC b take del a =>
      b = 0 \/ mine g b /\ (take = true -> fresh p a /\ (del = true -> ~ exposed g p b))
  | RUniq b => b = 0 \/ mine g b /\ ~ exposed g p b
  | RMove b a => mine g b /\ fresh p a
  end.

(** A moved-from store may only be set by the overloads that do not look at the
    old pointers. *)
Definition reset_blind (r : reset_op) : Prop :=
  match r with RCap _ _ | RUniq _ => True | _ => False end.

(** The rules for a caller. *)
Definition allowed (g : ledger) (p : pool) (op : store_op) : Prop :=
  match op with
  | CNew a _ => fresh p a
  | CFree a => mine g a /\ ~ exposed g p a
  | CWrite a _ => live (p_heap p) a
  | SNew r => reset_ok g p r
  | SReset i r =>
      (exists s, pget p i = Some s) /\ reset_ok g p r /\ (moved g i -> reset_blind r)
  | SClear i => exists s, pget p i = Some s
  | SDestroy i => exists s, pget p i = Some s
  | SCopyNew j a => (exists s, pget p j = Some s) /\ ~ moved g j /\ fresh p a
  | SMoveNew j => (exists s, pget p j = Some s) /\ ~ moved g j
  | SCopy i j a =>
      exists s rhs, pget p i = Some s /\ pget p j = Some rhs /\ ~ moved g j /\ fresh p a
        /\ (bs_owns s = true -> bs_owns rhs = true)
  | SMove i j =>
      (exists s, pget p i = Some s) /\ (exists s, pget p j = Some s) /\ ~ moved g j
  end.

Definition take_away (a : Z) (g : ledger) : ledger :=
  mkLedger (remove Z.eq_dec a (l_mine g)) (l_moved g).
Definition mark_moved (j : nat) (g : ledger) : ledger := mkLedger (l_mine g) (j :: l_moved g).
Definition mark_set (i : nat) (g : ledger) : ledger :=
  mkLedger (l_mine g) (remove Nat.eq_dec i (l_moved g)).

(** Which of the caller's buffers a [reset] takes away for good. *)
Definition after_reset (g : ledger) (r : reset_op) : ledger :=
  match r with
  | RCxx b true => take_away b g
  | RC b true true _ => take_away b g
  | RUniq b => take_away b g
  | _ => g
  end.

Definition ledger_step (g : ledger) (op : store_op) : ledger :=
  match op with
  | CNew a _ => mkLedger (a :: l_mine g) (l_moved g)
  | CFree a => take_away a g
  | CWrite _ _ => g
  | SNew r => after_reset g r
  | SReset i r => mark_set i (after_reset g r)
  | SClear i => mark_set i g
  | SDestroy i => mark_set i g
  | SCopyNew _ _ => g
  | SMoveNew j => mark_moved j g
  | SCopy i _ _ => mark_set i g
  | SMove i j => if Nat.eqb i j then g else mark_moved j (mark_set i g)
  end.

(** A history of a program that keeps the rules. *)
Fixpoint keeps_rules (g : ledger) (p : pool) (ops : list store_op) : Prop :=
  match ops with
  | [] => True
  | op :: r =>
      allowed g p op /\
      (forall p', pool_step p op = Some p' -> keeps_rules (ledger_step g op) p' r)
  end.

Definition ledger_run (g : ledger) (ops : list store_op) : ledger := fold_left ledger_step ops g.
Definition ledger_start : ledger := mkLedger [] [].

(** The assertion in [active()] (track_job_buffer_store.cpp 167-177): all
    pointers are null, or they fit together. *)
Definition coherent (s : bstore) : Prop :=
  (s_c99 s = 0 /\ s_cxx s = 0 /\ s_own s = 0) \/
  (s_c99 s <> 0 /\ (s_cxx s = 0 \/ s_cxx s = s_c99 s) /\ (s_own s = 0 \/ s_own s = s_cxx s)).

(** What the property says about one store: it exposes nothing or a live
    buffer; if it owns a buffer this is the exposed one and the caller has no
    claim to it; if it owns none, the exposed one belongs to the caller. *)
Definition store_sound (g : ledger) (p : pool) (s : bstore) : Prop :=
  coherent s
  /\ (bs_ptr s <> 0 -> live (p_heap p) (bs_ptr s))
  /\ (bs_owns s = true -> bs_ptr s = s_own s /\ bs_ptr_cxx s = s_own s /\ ~ mine g (s_own s))
  /\ (bs_owns s = false -> bs_ptr s <> 0 -> mine g (bs_ptr s)).

(** Every live buffer is accounted for: it is the caller's, or exactly one store
    owns it. *)
Definition accounted (g : ledger) (p : pool) : Prop :=
  forall a, live (p_heap p) a ->
    (mine g a /\ forall i s, pget p i = Some s -> s_own s <> a) \/
    (~ mine g a /\ exists i, (exists s, pget p i = Some s /\ s_own s = a) /\
        forall j t, pget p j = Some t -> s_own t = a -> j = i).

(** The stores an operation is applied to, and the buffers it writes to. *)
Definition touches (op : store_op) (k : nat) : Prop :=
  match op with
  | SReset i _ | SClear i | SDestroy i | SCopy i _ _ => k = i
  | SMoveNew j => k = j
  | SMove i j => k = i \/ k = j
  | _ => False
  end.
Definition writes (op : store_op) (a : Z) : Prop :=
  match op with CWrite b _ => b = a | _ => False end.

(** ** Stored buffers of a job (C47). *)

(** What a user does: own buffers, adding and removing stored buffers, writing
    to a stored buffer. *)
Inductive job_op :=
| JCNew (a : Z) (v : list Z)
| JCFree (a : Z)
| JAdd (r : reset_op)
| JRemove (id : Z)
| JWrite (id : Z) (v : list Z).

Record jworld := mkJW { jw_heap : bheap; jw_job : sjob }.

(** One step; the number is what the call returns: the id (add), 1/0 for
    success/failure (remove). *)
Definition jstep (w : jworld) (op : job_op) : option (Z * jworld) :=
  match op with
  | JCNew a v => obnd (h_new a v (jw_heap w)) (fun h => Some (0, mkJW h (jw_job w)))
  | JCFree a => obnd (h_free a (jw_heap w)) (fun h => Some (0, mkJW h (jw_job w)))
  | JAdd r => obnd (sj_add r (jw_job w) (jw_heap w)) (fun '(id, j, h) => Some (id, mkJW h j))
  | JRemove id =>
      obnd (sj_remove id (jw_job w) (jw_heap w)) (fun '(ok, j, h) =>
      Some (if ok then 1 else 0, mkJW h j))
  | JWrite id v =>
      let a := sj_ptr (jw_job w) id in
      obnd (jw_heap w a) (fun _ => Some (0, mkJW (hset (jw_heap w) a (Some v)) (jw_job w)))
  end.

Fixpoint jrun (w : jworld) (ops : list job_op) : option (list Z * jworld) :=
  match ops with
  | [] => Some ([], w)
  | op :: r => obnd (jstep w op) (fun '(x, w) => obnd (jrun w r) (fun '(l, w) => Some (x :: l, w)))
  end.

Definition jstart : jworld := mkJW (fun _ => None) (mkSJob [] 0).

(** The rules for the user of a job; [m] are the user's buffers. *)
Definition jexposed (w : jworld) (b : Z) : Prop := exists id, sj_ptr (jw_job w) id = b.
Definition jfresh (w : jworld) (a : Z) : Prop := a <> 0 /\ jw_heap w a = None.

Definition jallowed (m : list Z) (w : jworld) (op : job_op) : Prop :=
  match op with
  | JCNew a _ => jfresh w a
  | JCFree a => In a m /\ ~ jexposed w a
  | JAdd (RCap a _) => jfresh w a
  | JAdd (RCxx b take) => b = 0 \/ In b m /\ (take = true -> ~ jexposed w b)
  | JAdd (RC b take del a) =>
      b = 0 \/ In b m /\ (take = true -> jfresh w a /\ (del = true -> ~ jexposed w b))
  | JAdd (RUniq b) => b = 0 \/ In b m /\ ~ jexposed w b
  | JAdd (RMove b a) => In b m /\ jfresh w a
  | JRemove _ => True
  | JWrite id _ => sj_ptr (jw_job w) id <> 0
  end.

Definition jmine (m : list Z) (op : job_op) : list Z :=
  match op with
  | JCNew a _ => a :: m
  | JCFree a => remove Z.eq_dec a m
  | JAdd (RCxx b true) => remove Z.eq_dec b m
  | JAdd (RC b true true _) => remove Z.eq_dec b m
  | JAdd (RUniq b) => remove Z.eq_dec b m
  | _ => m
  end.

Fixpoint jkeeps (m : list Z) (w : jworld) (ops : list job_op) : Prop :=
  match ops with
  | [] => True
  | op :: r => jallowed m w op /\ (forall x w', jstep w op = Some (x, w') -> jkeeps (jmine m op) w' r)
  end.

(** The abstract table of stored buffers: entry [k] belongs to the id [1024 + k].
    A lent buffer is known by its address, an owned one by its content; an entry
    without a buffer was removed (or never had one). *)
Inductive sentry := SLent (b : Z) | SOwned (v : list Z) | SNone.

Definition content (h : bheap) (b : Z) : list Z :=
  match h b with Some v => v | None => [] end.

(** The entry [add_stored_buffer] has to make. *)
Definition new_entry (h : bheap) (r : reset_op) : sentry :=
  match r with
  | RCap _ v => SOwned v
  | RCxx b take =>
      if b =? 0 then SNone else if take then SOwned (content h b) else SLent b
  | RC b take _ _ =>
      if b =? 0 then SNone else if take then SOwned (content h b) else SLent b
  | RUniq b => if b =? 0 then SNone else SOwned (content h b)
  | RMove b _ => SOwned (content h b)
  end.

Definition table := list sentry.

Definition tstep (t : table) (h : bheap) (op : job_op) : table :=
  match op with
  | JCNew _ _ | JCFree _ => t
  | JAdd r => t ++ [new_entry h r]
  | JRemove id => if id <? 1024 then t else upd_nth (Z.to_nat (id - 1024)) SNone t
  | JWrite id v =>
      if id <? 1024 then t
      else match nth_error t (Z.to_nat (id - 1024)) with
           | Some (SOwned _) => upd_nth (Z.to_nat (id - 1024)) (SOwned v) t
           | _ => t
           end
  end.

Definition is_stored (e : sentry) : bool := match e with SNone => false | _ => true end.
Definition num_stored (t : table) : Z := Z.of_nat (length (filter is_stored t)).

(** What each call returns. *)
Definition treturn (t : table) (op : job_op) : Z :=
  match op with
  | JAdd _ => 1024 + Z.of_nat (length t)
  | JRemove id =>
      if (0 <? num_stored t) && (1024 <=? id) && (id <? 1024 + Z.of_nat (length t)) then 1 else 0
  | _ => 0
  end.

(** The table after a history and everything the calls returned. *)
Fixpoint trun (t : table) (w : jworld) (ops : list job_op) : list Z * table :=
  match ops with
  | [] => ([], t)
  | op :: r =>
      let t' := tstep t (jw_heap w) op in
      match jstep w op with
      | Some (_, w') => let '(l, t2) := trun t' w' r in (treturn t op :: l, t2)
      | None => ([], t')
      end
  end.

Definition lookup (t : table) (id : Z) : sentry :=
  if id <? 1024 then SNone
  else match nth_error t (Z.to_nat (id - 1024)) with Some e => e | None => SNone end.

(** The job shows exactly what the table says. *)
Definition shows (m : list Z) (w : jworld) (id : Z) (e : sentry) : Prop :=
  let j := jw_job w in
  match e with
  | SNone => sj_ptr j id = 0 /\ sj_ptr_cxx j id = 0 /\ sj_owns j id = false
  | SLent b => sj_ptr j id = b /\ sj_owns j id = false /\ In b m /\ jw_heap w b <> None
  | SOwned v => sj_ptr j id <> 0 /\ sj_ptr_cxx j id = sj_ptr j id /\ sj_owns j id = true
                /\ jw_heap w (sj_ptr j id) = Some v /\ ~ In (sj_ptr j id) m
                /\ forall id', sj_ptr j id' = sj_ptr j id -> id' = id
  end.
