(* C69: what clearing does to an element. *)
From Coq Require Import ZArith List Bool.
From Verif Require Import MBuf MBufSpec MemPool Buffer BufferSpec BufferUser LinesSpec ElementAdd ElementAddSpec
  ElementNewSpec.
Import ListNotations.
Local Open Scope Z_scope.

(* elements that get the values of a new element *)
Definition plain_types : list Z := [2; 3; 5; 6; 7; 10; 11; 12; 13; 16; 24].
(* elements with arrays inside the object of which they lose the address *)
Definition lost_types : list Z := [4; 8; 9; 256].

(* q-Gaussian space charge keeps the difference of sizes below which a beam is round (7), an
   element with a field map keeps the address of the map (7), a field map keeps its sizes
   (2, 5, 8) and has a table of zeros; interpolated space charge and objects that are no beam
   elements are not changed *)
Definition cleared_object (F : floats) (o : Z * list cell) : Z * list cell :=
  let t := fst o in
  if existsb (Z.eqb t) plain_types then (t, map Raw (default_words F o))
  else if t =? 14 then
    (t, map Raw [zero; one; one; one; zero; zero; zero; number o 7; one; f_cq F one; 1])
  else if t =? 261 then (t, map Raw [zero; zero; zero; zero; zero; zero; zero; number o 7])
  else if t =? 260 then
    (t, map Raw [zero; zero; number o 2; zero; zero; number o 5; zero; zero; number o 8; 0; 0; 0] ++
        [Ptr 104] ++ map (fun _ => Raw zero) (skipn 13 (snd o)))
  else o.

(* a line: every object that has the type of a beam element is one *)
Definition is_line (l : list (Z * list cell)) : Prop :=
  Forall (fun o => element_size (fst o) <> None -> is_element o) l.
