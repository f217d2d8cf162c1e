(* C70, C71: planning the size of a buffer. *)
From Coq Require Import ZArith List Bool.
From Verif Require Import MBuf MBufSpec MemPool Buffer BufferSpec BufferUser.
Import ListNotations.
Local Open Scope Z_scope.

(* Buffer_can_add_object for the object of a request *)
Definition can_add (b : buffer) (q : request) : option (bool * option (Z * Z * Z)) :=
  can_add_object b (rq_size q) (map (fun x => (at_size x, at_count x)) (rq_attrs q)).

(* what the objects of the requests take *)
Definition slots_for (l : list request) : Z :=
  fold_right (fun q n => object_words (rq_size q) (rq_attrs q) + n) 0 l.
Definition pointers_for (l : list request) : Z :=
  fold_right (fun q n => Z.of_nat (length (rq_attrs q)) + n) 0 l.

(* the objects of the requests are added in turn; None: one of the calls fails *)
Fixpoint adds (hps : nat -> heap) (b : buffer) (l : list request) : option buffer :=
  match l with
  | [] => Some b
  | q :: r =>
    match add (hps O) b q with
    | Some (p, b') => if p =? 0 then None else adds (fun n => hps (S n)) b' r
    | None => None
    end
  end.

(* by how much x exceeds the limit *)
Definition excess (x limit : Z) : Z := Z.max 0 (x - limit).
