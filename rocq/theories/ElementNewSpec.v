(* C67: the new element that corresponds to an element: of the same kind and size, with the
   default values. *)
From Coq Require Import ZArith List Bool.
From Verif Require Import MBuf MBufSpec MemPool Buffer BufferSpec BufferUser LinesSpec ElementAdd ElementAddSpec.
Import ListNotations.
Local Open Scope Z_scope.

(* word number k of an object *)
Definition number (o : Z * list cell) (k : nat) : Z :=
  match nth_error (snd o) k with Some (Raw w) => w | _ => 0 end.

(* the words of the new element: kept are the order of a multipole, the size of the data of a
   beam-beam element and the three sizes of a field map *)
Definition default_words (F : floats) (o : Z * list cell) : list Z :=
  let X := f_xlim F in let Y := f_ylim F in let mul := f_mul F in
  let t := fst o in
  if t =? 2 then [zero]
  else if t =? 3 then [zero]
  else if t =? 4 then [number o 0; zero; zero; zero; 0]
  else if t =? 5 then [zero; zero; zero]
  else if t =? 6 then [zero; zero]
  else if t =? 7 then [one; zero]
  else if t =? 8 then [number o 0; 0]
  else if t =? 9 then [number o 0; 0]
  else if t =? 10 then [0; 0; 1; 0; 2 ^ 64 - 1; 2 ^ 64 - 1; 0; 1]
  else if t =? 11 then [minus X; X; minus Y; Y]
  else if t =? 12 then [mul X X; mul Y Y; mul (mul X X) (mul Y Y)]
  else if t =? 13 then [zero; one; one; one; zero; zero; zero; tiny; 1]
  else if t =? 14 then [zero; one; one; one; zero; zero; zero; tiny; one; f_cq F one; 1]
  else if t =? 16 then [X; Y; mul X X; mul Y Y; mul (mul X X) (mul Y Y)]
  else if t =? 24 then [zero; one]
  else if t =? 256 then [number o 0; zero; zero; zero; 0; 0]
  else if t =? 257 then [zero; one; one; zero; zero; zero; 0; one; tiny; 1]
  else if t =? 260 then
    [zero; zero; number o 2; zero; zero; number o 5; zero; zero; number o 8; 0; 0; 0; 0]
  else [zero; zero; zero; zero; zero; zero; zero; 0].

(* the new element, its arrays filled with zeros *)
Definition blank (F : floats) (o : Z * list cell) : Z * list cell :=
  let ow := default_words F o in
  let arrays := element_arrays (fst o) ow in
  (fst o, expected_object ow arrays (map (fun x => repeat 0 (Z.to_nat (at_count x))) arrays)).

(* elements for which success is reported as 0 and failure as -1, and the other ones *)
Definition reported_types : list Z := [2; 3; 4; 5; 6; 7; 256; 260; 261].
Definition inverted_types : list Z := [8; 10; 11; 12; 13; 16; 24; 257].

(* the results of the floating point operations are doubles *)
Definition doubles (F : floats) : Prop :=
  0 <= f_xlim F < 2 ^ 64 /\ 0 <= f_ylim F < 2 ^ 64 /\ forall x y, 0 <= f_mul F x y < 2 ^ 64.
