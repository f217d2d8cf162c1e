(* GENERATED by tools/gen_tricub.py from
   sixtracklib/common/be_tricub/coefficients.h 35-1044: tricub_construct_coefs.
   Each coefficient is the expression the assignments to coefs[i] build up, in
   program order. *)
From Coq Require Import ZArith List.
From Verif Require Import Num.
Import ListNotations.

Set Implicit Arguments.

Section Coefs.
Variable T : Type.
Variable N : NumOps T.

Local Notation "a +. b" := (nadd N a b) (at level 50, left associativity).
Local Notation "a -. b" := (nsub N a b) (at level 50, left associativity).
Local Notation "a *. b" := (nmul N a b) (at level 40, left associativity).
Local Notation "-. a" := (nopp N a) (at level 35, right associativity).
Local Notation "'#' z" := (nofZ N z) (at level 5).

Definition coef_0 (b : nat -> T) : T :=
  b 0.

Definition coef_1 (b : nat -> T) : T :=
  b 8.

Definition coef_2 (b : nat -> T) : T :=
  (-. (#3 *. b 0)) +. #3 *. b 1 -. #2 *. b 8 -. b 9.

Definition coef_3 (b : nat -> T) : T :=
  #2 *. b 0 -. #2 *. b 1 +. b 8 +. b 9.

Definition coef_4 (b : nat -> T) : T :=
  b 16.

Definition coef_5 (b : nat -> T) : T :=
  b 32.

Definition coef_6 (b : nat -> T) : T :=
  (-. (#3 *. b 16)) +. #3 *. b 17 -. #2 *. b 32 -. b 33.

Definition coef_7 (b : nat -> T) : T :=
  #2 *. b 16 -. #2 *. b 17 +. b 32 +. b 33.

Definition coef_8 (b : nat -> T) : T :=
  (-. (#3 *. b 0)) +. #3 *. b 2 -. #2 *. b 16 -. b 18.

Definition coef_9 (b : nat -> T) : T :=
  (-. (#3 *. b 8)) +. #3 *. b 10 -. #2 *. b 32 -. b 34.

Definition coef_10 (b : nat -> T) : T :=
  #9 *. b 0 -. #9 *. b 1 -. #9 *. b 2 +. #9 *. b 3 +. #6 *. b 8 +. #3 *. b 9 -. #6 *. b
    10 -. #3 *. b 11 +. #6 *. b 16 -. #6 *. b 17 +. #3 *. b 18 -. #3 *. b 19 +. #4 *. b
    32 +. #2 *. b 33 +. #2 *. b 34 +. b 35.

Definition coef_11 (b : nat -> T) : T :=
  (-. (#6 *. b 0)) +. #6 *. b 1 +. #6 *. b 2 -. #6 *. b 3 -. #3 *. b 8 -. #3 *. b 9 +.
    #3 *. b 10 +. #3 *. b 11 -. #4 *. b 16 +. #4 *. b 17 -. #2 *. b 18 +. #2 *. b 19 -.
    #2 *. b 32 -. #2 *. b 33 -. b 34 -. b 35.

Definition coef_12 (b : nat -> T) : T :=
  #2 *. b 0 -. #2 *. b 2 +. b 16 +. b 18.

Definition coef_13 (b : nat -> T) : T :=
  #2 *. b 8 -. #2 *. b 10 +. b 32 +. b 34.

Definition coef_14 (b : nat -> T) : T :=
  (-. (#6 *. b 0)) +. #6 *. b 1 +. #6 *. b 2 -. #6 *. b 3 -. #4 *. b 8 -. #2 *. b 9 +.
    #4 *. b 10 +. #2 *. b 11 -. #3 *. b 16 +. #3 *. b 17 -. #3 *. b 18 +. #3 *. b 19 -.
    #2 *. b 32 -. b 33 -. #2 *. b 34 -. b 35.

Definition coef_15 (b : nat -> T) : T :=
  #4 *. b 0 -. #4 *. b 1 -. #4 *. b 2 +. #4 *. b 3 +. #2 *. b 8 +. #2 *. b 9 -. #2 *. b
    10 -. #2 *. b 11 +. #2 *. b 16 -. #2 *. b 17 +. #2 *. b 18 -. #2 *. b 19 +. b 32 +.
    b 33 +. b 34 +. b 35.

Definition coef_16 (b : nat -> T) : T :=
  b 24.

Definition coef_17 (b : nat -> T) : T :=
  b 40.

Definition coef_18 (b : nat -> T) : T :=
  (-. (#3 *. b 24)) +. #3 *. b 25 -. #2 *. b 40 -. b 41.

Definition coef_19 (b : nat -> T) : T :=
  #2 *. b 24 -. #2 *. b 25 +. b 40 +. b 41.

Definition coef_20 (b : nat -> T) : T :=
  b 48.

Definition coef_21 (b : nat -> T) : T :=
  b 56.

Definition coef_22 (b : nat -> T) : T :=
  (-. (#3 *. b 48)) +. #3 *. b 49 -. #2 *. b 56 -. b 57.

Definition coef_23 (b : nat -> T) : T :=
  #2 *. b 48 -. #2 *. b 49 +. b 56 +. b 57.

Definition coef_24 (b : nat -> T) : T :=
  (-. (#3 *. b 24)) +. #3 *. b 26 -. #2 *. b 48 -. b 50.

Definition coef_25 (b : nat -> T) : T :=
  (-. (#3 *. b 40)) +. #3 *. b 42 -. #2 *. b 56 -. b 58.

Definition coef_26 (b : nat -> T) : T :=
  #9 *. b 24 -. #9 *. b 25 -. #9 *. b 26 +. #9 *. b 27 +. #6 *. b 40 +. #3 *. b 41 -.
    #6 *. b 42 -. #3 *. b 43 +. #6 *. b 48 -. #6 *. b 49 +. #3 *. b 50 -. #3 *. b 51 +.
    #4 *. b 56 +. #2 *. b 57 +. #2 *. b 58 +. b 59.

Definition coef_27 (b : nat -> T) : T :=
  (-. (#6 *. b 24)) +. #6 *. b 25 +. #6 *. b 26 -. #6 *. b 27 -. #3 *. b 40 -. #3 *. b
    41 +. #3 *. b 42 +. #3 *. b 43 -. #4 *. b 48 +. #4 *. b 49 -. #2 *. b 50 +. #2 *. b
    51 -. #2 *. b 56 -. #2 *. b 57 -. b 58 -. b 59.

Definition coef_28 (b : nat -> T) : T :=
  #2 *. b 24 -. #2 *. b 26 +. b 48 +. b 50.

Definition coef_29 (b : nat -> T) : T :=
  #2 *. b 40 -. #2 *. b 42 +. b 56 +. b 58.

Definition coef_30 (b : nat -> T) : T :=
  (-. (#6 *. b 24)) +. #6 *. b 25 +. #6 *. b 26 -. #6 *. b 27 -. #4 *. b 40 -. #2 *. b
    41 +. #4 *. b 42 +. #2 *. b 43 -. #3 *. b 48 +. #3 *. b 49 -. #3 *. b 50 +. #3 *. b
    51 -. #2 *. b 56 -. b 57 -. #2 *. b 58 -. b 59.

Definition coef_31 (b : nat -> T) : T :=
  #4 *. b 24 -. #4 *. b 25 -. #4 *. b 26 +. #4 *. b 27 +. #2 *. b 40 +. #2 *. b 41 -.
    #2 *. b 42 -. #2 *. b 43 +. #2 *. b 48 -. #2 *. b 49 +. #2 *. b 50 -. #2 *. b 51 +.
    b 56 +. b 57 +. b 58 +. b 59.

Definition coef_32 (b : nat -> T) : T :=
  (-. (#3 *. b 0)) +. #3 *. b 4 -. #2 *. b 24 -. b 28.

Definition coef_33 (b : nat -> T) : T :=
  (-. (#3 *. b 8)) +. #3 *. b 12 -. #2 *. b 40 -. b 44.

Definition coef_34 (b : nat -> T) : T :=
  #9 *. b 0 -. #9 *. b 1 -. #9 *. b 4 +. #9 *. b 5 +. #6 *. b 8 +. #3 *. b 9 -. #6 *. b
    12 -. #3 *. b 13 +. #6 *. b 24 -. #6 *. b 25 +. #3 *. b 28 -. #3 *. b 29 +. #4 *. b
    40 +. #2 *. b 41 +. #2 *. b 44 +. b 45.

Definition coef_35 (b : nat -> T) : T :=
  (-. (#6 *. b 0)) +. #6 *. b 1 +. #6 *. b 4 -. #6 *. b 5 -. #3 *. b 8 -. #3 *. b 9 +.
    #3 *. b 12 +. #3 *. b 13 -. #4 *. b 24 +. #4 *. b 25 -. #2 *. b 28 +. #2 *. b 29 -.
    #2 *. b 40 -. #2 *. b 41 -. b 44 -. b 45.

Definition coef_36 (b : nat -> T) : T :=
  (-. (#3 *. b 16)) +. #3 *. b 20 -. #2 *. b 48 -. b 52.

Definition coef_37 (b : nat -> T) : T :=
  (-. (#3 *. b 32)) +. #3 *. b 36 -. #2 *. b 56 -. b 60.

Definition coef_38 (b : nat -> T) : T :=
  #9 *. b 16 -. #9 *. b 17 -. #9 *. b 20 +. #9 *. b 21 +. #6 *. b 32 +. #3 *. b 33 -.
    #6 *. b 36 -. #3 *. b 37 +. #6 *. b 48 -. #6 *. b 49 +. #3 *. b 52 -. #3 *. b 53 +.
    #4 *. b 56 +. #2 *. b 57 +. #2 *. b 60 +. b 61.

Definition coef_39 (b : nat -> T) : T :=
  (-. (#6 *. b 16)) +. #6 *. b 17 +. #6 *. b 20 -. #6 *. b 21 -. #3 *. b 32 -. #3 *. b
    33 +. #3 *. b 36 +. #3 *. b 37 -. #4 *. b 48 +. #4 *. b 49 -. #2 *. b 52 +. #2 *. b
    53 -. #2 *. b 56 -. #2 *. b 57 -. b 60 -. b 61.

Definition coef_40 (b : nat -> T) : T :=
  #9 *. b 0 -. #9 *. b 2 -. #9 *. b 4 +. #9 *. b 6 +. #6 *. b 16 +. #3 *. b 18 -. #6 *.
    b 20 -. #3 *. b 22 +. #6 *. b 24 -. #6 *. b 26 +. #3 *. b 28 -. #3 *. b 30 +. #4 *.
    b 48 +. #2 *. b 50 +. #2 *. b 52 +. b 54.

Definition coef_41 (b : nat -> T) : T :=
  #9 *. b 8 -. #9 *. b 10 -. #9 *. b 12 +. #9 *. b 14 +. #6 *. b 32 +. #3 *. b 34 -. #6
    *. b 36 -. #3 *. b 38 +. #6 *. b 40 -. #6 *. b 42 +. #3 *. b 44 -. #3 *. b 46 +. #4
    *. b 56 +. #2 *. b 58 +. #2 *. b 60 +. b 62.

Definition coef_42 (b : nat -> T) : T :=
  (-. (#27 *. b 0)) +. #27 *. b 1 +. #27 *. b 2 -. #27 *. b 3 +. #27 *. b 4 -. #27 *. b
    5 -. #27 *. b 6 +. #27 *. b 7 -. #18 *. b 8 -. #9 *. b 9 +. #18 *. b 10 +. #9 *. b
    11 +. #18 *. b 12 +. #9 *. b 13 -. #18 *. b 14 -. #9 *. b 15 -. #18 *. b 16 +. #18
    *. b 17 -. #9 *. b 18 +. #9 *. b 19 +. #18 *. b 20 -. #18 *. b 21 +. #9 *. b 22 -.
    #9 *. b 23 -. #18 *. b 24 +. #18 *. b 25 +. #18 *. b 26 -. #18 *. b 27 -. #9 *. b
    28 +. #9 *. b 29 +. #9 *. b 30 -. #9 *. b 31 -. #12 *. b 32 -. #6 *. b 33 -. #6 *.
    b 34 -. #3 *. b 35 +. #12 *. b 36 +. #6 *. b 37 +. #6 *. b 38 +. #3 *. b 39 -. #12
    *. b 40 -. #6 *. b 41 +. #12 *. b 42 +. #6 *. b 43 -. #6 *. b 44 -. #3 *. b 45 +.
    #6 *. b 46 +. #3 *. b 47 -. #12 *. b 48 +. #12 *. b 49 -. #6 *. b 50 +. #6 *. b 51
    -. #6 *. b 52 +. #6 *. b 53 -. #3 *. b 54 +. #3 *. b 55 -. #8 *. b 56 -. #4 *. b 57
    -. #4 *. b 58 -. #2 *. b 59 -. #4 *. b 60 -. #2 *. b 61 -. #2 *. b 62 -. b 63.

Definition coef_43 (b : nat -> T) : T :=
  #18 *. b 0 -. #18 *. b 1 -. #18 *. b 2 +. #18 *. b 3 -. #18 *. b 4 +. #18 *. b 5 +.
    #18 *. b 6 -. #18 *. b 7 +. #9 *. b 8 +. #9 *. b 9 -. #9 *. b 10 -. #9 *. b 11 -.
    #9 *. b 12 -. #9 *. b 13 +. #9 *. b 14 +. #9 *. b 15 +. #12 *. b 16 -. #12 *. b 17
    +. #6 *. b 18 -. #6 *. b 19 -. #12 *. b 20 +. #12 *. b 21 -. #6 *. b 22 +. #6 *. b
    23 +. #12 *. b 24 -. #12 *. b 25 -. #12 *. b 26 +. #12 *. b 27 +. #6 *. b 28 -. #6
    *. b 29 -. #6 *. b 30 +. #6 *. b 31 +. #6 *. b 32 +. #6 *. b 33 +. #3 *. b 34 +. #3
    *. b 35 -. #6 *. b 36 -. #6 *. b 37 -. #3 *. b 38 -. #3 *. b 39 +. #6 *. b 40 +. #6
    *. b 41 -. #6 *. b 42 -. #6 *. b 43 +. #3 *. b 44 +. #3 *. b 45 -. #3 *. b 46 -. #3
    *. b 47 +. #8 *. b 48 -. #8 *. b 49 +. #4 *. b 50 -. #4 *. b 51 +. #4 *. b 52 -. #4
    *. b 53 +. #2 *. b 54 -. #2 *. b 55 +. #4 *. b 56 +. #4 *. b 57 +. #2 *. b 58 +. #2
    *. b 59 +. #2 *. b 60 +. #2 *. b 61 +. b 62 +. b 63.

Definition coef_44 (b : nat -> T) : T :=
  (-. (#6 *. b 0)) +. #6 *. b 2 +. #6 *. b 4 -. #6 *. b 6 -. #3 *. b 16 -. #3 *. b 18
    +. #3 *. b 20 +. #3 *. b 22 -. #4 *. b 24 +. #4 *. b 26 -. #2 *. b 28 +. #2 *. b 30
    -. #2 *. b 48 -. #2 *. b 50 -. b 52 -. b 54.

Definition coef_45 (b : nat -> T) : T :=
  (-. (#6 *. b 8)) +. #6 *. b 10 +. #6 *. b 12 -. #6 *. b 14 -. #3 *. b 32 -. #3 *. b
    34 +. #3 *. b 36 +. #3 *. b 38 -. #4 *. b 40 +. #4 *. b 42 -. #2 *. b 44 +. #2 *. b
    46 -. #2 *. b 56 -. #2 *. b 58 -. b 60 -. b 62.

Definition coef_46 (b : nat -> T) : T :=
  #18 *. b 0 -. #18 *. b 1 -. #18 *. b 2 +. #18 *. b 3 -. #18 *. b 4 +. #18 *. b 5 +.
    #18 *. b 6 -. #18 *. b 7 +. #12 *. b 8 +. #6 *. b 9 -. #12 *. b 10 -. #6 *. b 11 -.
    #12 *. b 12 -. #6 *. b 13 +. #12 *. b 14 +. #6 *. b 15 +. #9 *. b 16 -. #9 *. b 17
    +. #9 *. b 18 -. #9 *. b 19 -. #9 *. b 20 +. #9 *. b 21 -. #9 *. b 22 +. #9 *. b 23
    +. #12 *. b 24 -. #12 *. b 25 -. #12 *. b 26 +. #12 *. b 27 +. #6 *. b 28 -. #6 *.
    b 29 -. #6 *. b 30 +. #6 *. b 31 +. #6 *. b 32 +. #3 *. b 33 +. #6 *. b 34 +. #3 *.
    b 35 -. #6 *. b 36 -. #3 *. b 37 -. #6 *. b 38 -. #3 *. b 39 +. #8 *. b 40 +. #4 *.
    b 41 -. #8 *. b 42 -. #4 *. b 43 +. #4 *. b 44 +. #2 *. b 45 -. #4 *. b 46 -. #2 *.
    b 47 +. #6 *. b 48 -. #6 *. b 49 +. #6 *. b 50 -. #6 *. b 51 +. #3 *. b 52 -. #3 *.
    b 53 +. #3 *. b 54 -. #3 *. b 55 +. #4 *. b 56 +. #2 *. b 57 +. #4 *. b 58 +. #2 *.
    b 59 +. #2 *. b 60 +. b 61 +. #2 *. b 62 +. b 63.

Definition coef_47 (b : nat -> T) : T :=
  (-. (#12 *. b 0)) +. #12 *. b 1 +. #12 *. b 2 -. #12 *. b 3 +. #12 *. b 4 -. #12 *. b
    5 -. #12 *. b 6 +. #12 *. b 7 -. #6 *. b 8 -. #6 *. b 9 +. #6 *. b 10 +. #6 *. b 11
    +. #6 *. b 12 +. #6 *. b 13 -. #6 *. b 14 -. #6 *. b 15 -. #6 *. b 16 +. #6 *. b 17
    -. #6 *. b 18 +. #6 *. b 19 +. #6 *. b 20 -. #6 *. b 21 +. #6 *. b 22 -. #6 *. b 23
    -. #8 *. b 24 +. #8 *. b 25 +. #8 *. b 26 -. #8 *. b 27 -. #4 *. b 28 +. #4 *. b 29
    +. #4 *. b 30 -. #4 *. b 31 -. #3 *. b 32 -. #3 *. b 33 -. #3 *. b 34 -. #3 *. b 35
    +. #3 *. b 36 +. #3 *. b 37 +. #3 *. b 38 +. #3 *. b 39 -. #4 *. b 40 -. #4 *. b 41
    +. #4 *. b 42 +. #4 *. b 43 -. #2 *. b 44 -. #2 *. b 45 +. #2 *. b 46 +. #2 *. b 47
    -. #4 *. b 48 +. #4 *. b 49 -. #4 *. b 50 +. #4 *. b 51 -. #2 *. b 52 +. #2 *. b 53
    -. #2 *. b 54 +. #2 *. b 55 -. #2 *. b 56 -. #2 *. b 57 -. #2 *. b 58 -. #2 *. b 59
    -. b 60 -. b 61 -. b 62 -. b 63.

Definition coef_48 (b : nat -> T) : T :=
  #2 *. b 0 -. #2 *. b 4 +. b 24 +. b 28.

Definition coef_49 (b : nat -> T) : T :=
  #2 *. b 8 -. #2 *. b 12 +. b 40 +. b 44.

Definition coef_50 (b : nat -> T) : T :=
  (-. (#6 *. b 0)) +. #6 *. b 1 +. #6 *. b 4 -. #6 *. b 5 -. #4 *. b 8 -. #2 *. b 9 +.
    #4 *. b 12 +. #2 *. b 13 -. #3 *. b 24 +. #3 *. b 25 -. #3 *. b 28 +. #3 *. b 29 -.
    #2 *. b 40 -. b 41 -. #2 *. b 44 -. b 45.

Definition coef_51 (b : nat -> T) : T :=
  #4 *. b 0 -. #4 *. b 1 -. #4 *. b 4 +. #4 *. b 5 +. #2 *. b 8 +. #2 *. b 9 -. #2 *. b
    12 -. #2 *. b 13 +. #2 *. b 24 -. #2 *. b 25 +. #2 *. b 28 -. #2 *. b 29 +. b 40 +.
    b 41 +. b 44 +. b 45.

Definition coef_52 (b : nat -> T) : T :=
  #2 *. b 16 -. #2 *. b 20 +. b 48 +. b 52.

Definition coef_53 (b : nat -> T) : T :=
  #2 *. b 32 -. #2 *. b 36 +. b 56 +. b 60.

Definition coef_54 (b : nat -> T) : T :=
  (-. (#6 *. b 16)) +. #6 *. b 17 +. #6 *. b 20 -. #6 *. b 21 -. #4 *. b 32 -. #2 *. b
    33 +. #4 *. b 36 +. #2 *. b 37 -. #3 *. b 48 +. #3 *. b 49 -. #3 *. b 52 +. #3 *. b
    53 -. #2 *. b 56 -. b 57 -. #2 *. b 60 -. b 61.

Definition coef_55 (b : nat -> T) : T :=
  #4 *. b 16 -. #4 *. b 17 -. #4 *. b 20 +. #4 *. b 21 +. #2 *. b 32 +. #2 *. b 33 -.
    #2 *. b 36 -. #2 *. b 37 +. #2 *. b 48 -. #2 *. b 49 +. #2 *. b 52 -. #2 *. b 53 +.
    b 56 +. b 57 +. b 60 +. b 61.

Definition coef_56 (b : nat -> T) : T :=
  (-. (#6 *. b 0)) +. #6 *. b 2 +. #6 *. b 4 -. #6 *. b 6 -. #4 *. b 16 -. #2 *. b 18
    +. #4 *. b 20 +. #2 *. b 22 -. #3 *. b 24 +. #3 *. b 26 -. #3 *. b 28 +. #3 *. b 30
    -. #2 *. b 48 -. b 50 -. #2 *. b 52 -. b 54.

Definition coef_57 (b : nat -> T) : T :=
  (-. (#6 *. b 8)) +. #6 *. b 10 +. #6 *. b 12 -. #6 *. b 14 -. #4 *. b 32 -. #2 *. b
    34 +. #4 *. b 36 +. #2 *. b 38 -. #3 *. b 40 +. #3 *. b 42 -. #3 *. b 44 +. #3 *. b
    46 -. #2 *. b 56 -. b 58 -. #2 *. b 60 -. b 62.

Definition coef_58 (b : nat -> T) : T :=
  #18 *. b 0 -. #18 *. b 1 -. #18 *. b 2 +. #18 *. b 3 -. #18 *. b 4 +. #18 *. b 5 +.
    #18 *. b 6 -. #18 *. b 7 +. #12 *. b 8 +. #6 *. b 9 -. #12 *. b 10 -. #6 *. b 11 -.
    #12 *. b 12 -. #6 *. b 13 +. #12 *. b 14 +. #6 *. b 15 +. #12 *. b 16 -. #12 *. b
    17 +. #6 *. b 18 -. #6 *. b 19 -. #12 *. b 20 +. #12 *. b 21 -. #6 *. b 22 +. #6 *.
    b 23 +. #9 *. b 24 -. #9 *. b 25 -. #9 *. b 26 +. #9 *. b 27 +. #9 *. b 28 -. #9 *.
    b 29 -. #9 *. b 30 +. #9 *. b 31 +. #8 *. b 32 +. #4 *. b 33 +. #4 *. b 34 +. #2 *.
    b 35 -. #8 *. b 36 -. #4 *. b 37 -. #4 *. b 38 -. #2 *. b 39 +. #6 *. b 40 +. #3 *.
    b 41 -. #6 *. b 42 -. #3 *. b 43 +. #6 *. b 44 +. #3 *. b 45 -. #6 *. b 46 -. #3 *.
    b 47 +. #6 *. b 48 -. #6 *. b 49 +. #3 *. b 50 -. #3 *. b 51 +. #6 *. b 52 -. #6 *.
    b 53 +. #3 *. b 54 -. #3 *. b 55 +. #4 *. b 56 +. #2 *. b 57 +. #2 *. b 58 +. b 59
    +. #4 *. b 60 +. #2 *. b 61 +. #2 *. b 62 +. b 63.

Definition coef_59 (b : nat -> T) : T :=
  (-. (#12 *. b 0)) +. #12 *. b 1 +. #12 *. b 2 -. #12 *. b 3 +. #12 *. b 4 -. #12 *. b
    5 -. #12 *. b 6 +. #12 *. b 7 -. #6 *. b 8 -. #6 *. b 9 +. #6 *. b 10 +. #6 *. b 11
    +. #6 *. b 12 +. #6 *. b 13 -. #6 *. b 14 -. #6 *. b 15 -. #8 *. b 16 +. #8 *. b 17
    -. #4 *. b 18 +. #4 *. b 19 +. #8 *. b 20 -. #8 *. b 21 +. #4 *. b 22 -. #4 *. b 23
    -. #6 *. b 24 +. #6 *. b 25 +. #6 *. b 26 -. #6 *. b 27 -. #6 *. b 28 +. #6 *. b 29
    +. #6 *. b 30 -. #6 *. b 31 -. #4 *. b 32 -. #4 *. b 33 -. #2 *. b 34 -. #2 *. b 35
    +. #4 *. b 36 +. #4 *. b 37 +. #2 *. b 38 +. #2 *. b 39 -. #3 *. b 40 -. #3 *. b 41
    +. #3 *. b 42 +. #3 *. b 43 -. #3 *. b 44 -. #3 *. b 45 +. #3 *. b 46 +. #3 *. b 47
    -. #4 *. b 48 +. #4 *. b 49 -. #2 *. b 50 +. #2 *. b 51 -. #4 *. b 52 +. #4 *. b 53
    -. #2 *. b 54 +. #2 *. b 55 -. #2 *. b 56 -. #2 *. b 57 -. b 58 -. b 59 -. #2 *. b
    60 -. #2 *. b 61 -. b 62 -. b 63.

Definition coef_60 (b : nat -> T) : T :=
  #4 *. b 0 -. #4 *. b 2 -. #4 *. b 4 +. #4 *. b 6 +. #2 *. b 16 +. #2 *. b 18 -. #2 *.
    b 20 -. #2 *. b 22 +. #2 *. b 24 -. #2 *. b 26 +. #2 *. b 28 -. #2 *. b 30 +. b 48
    +. b 50 +. b 52 +. b 54.

Definition coef_61 (b : nat -> T) : T :=
  #4 *. b 8 -. #4 *. b 10 -. #4 *. b 12 +. #4 *. b 14 +. #2 *. b 32 +. #2 *. b 34 -. #2
    *. b 36 -. #2 *. b 38 +. #2 *. b 40 -. #2 *. b 42 +. #2 *. b 44 -. #2 *. b 46 +. b
    56 +. b 58 +. b 60 +. b 62.

Definition coef_62 (b : nat -> T) : T :=
  (-. (#12 *. b 0)) +. #12 *. b 1 +. #12 *. b 2 -. #12 *. b 3 +. #12 *. b 4 -. #12 *. b
    5 -. #12 *. b 6 +. #12 *. b 7 -. #8 *. b 8 -. #4 *. b 9 +. #8 *. b 10 +. #4 *. b 11
    +. #8 *. b 12 +. #4 *. b 13 -. #8 *. b 14 -. #4 *. b 15 -. #6 *. b 16 +. #6 *. b 17
    -. #6 *. b 18 +. #6 *. b 19 +. #6 *. b 20 -. #6 *. b 21 +. #6 *. b 22 -. #6 *. b 23
    -. #6 *. b 24 +. #6 *. b 25 +. #6 *. b 26 -. #6 *. b 27 -. #6 *. b 28 +. #6 *. b 29
    +. #6 *. b 30 -. #6 *. b 31 -. #4 *. b 32 -. #2 *. b 33 -. #4 *. b 34 -. #2 *. b 35
    +. #4 *. b 36 +. #2 *. b 37 +. #4 *. b 38 +. #2 *. b 39 -. #4 *. b 40 -. #2 *. b 41
    +. #4 *. b 42 +. #2 *. b 43 -. #4 *. b 44 -. #2 *. b 45 +. #4 *. b 46 +. #2 *. b 47
    -. #3 *. b 48 +. #3 *. b 49 -. #3 *. b 50 +. #3 *. b 51 -. #3 *. b 52 +. #3 *. b 53
    -. #3 *. b 54 +. #3 *. b 55 -. #2 *. b 56 -. b 57 -. #2 *. b 58 -. b 59 -. #2 *. b
    60 -. b 61 -. #2 *. b 62 -. b 63.

Definition coef_63 (b : nat -> T) : T :=
  #8 *. b 0 -. #8 *. b 1 -. #8 *. b 2 +. #8 *. b 3 -. #8 *. b 4 +. #8 *. b 5 +. #8 *. b
    6 -. #8 *. b 7 +. #4 *. b 8 +. #4 *. b 9 -. #4 *. b 10 -. #4 *. b 11 -. #4 *. b 12
    -. #4 *. b 13 +. #4 *. b 14 +. #4 *. b 15 +. #4 *. b 16 -. #4 *. b 17 +. #4 *. b 18
    -. #4 *. b 19 -. #4 *. b 20 +. #4 *. b 21 -. #4 *. b 22 +. #4 *. b 23 +. #4 *. b 24
    -. #4 *. b 25 -. #4 *. b 26 +. #4 *. b 27 +. #4 *. b 28 -. #4 *. b 29 -. #4 *. b 30
    +. #4 *. b 31 +. #2 *. b 32 +. #2 *. b 33 +. #2 *. b 34 +. #2 *. b 35 -. #2 *. b 36
    -. #2 *. b 37 -. #2 *. b 38 -. #2 *. b 39 +. #2 *. b 40 +. #2 *. b 41 -. #2 *. b 42
    -. #2 *. b 43 +. #2 *. b 44 +. #2 *. b 45 -. #2 *. b 46 -. #2 *. b 47 +. #2 *. b 48
    -. #2 *. b 49 +. #2 *. b 50 -. #2 *. b 51 +. #2 *. b 52 -. #2 *. b 53 +. #2 *. b 54
    -. #2 *. b 55 +. b 56 +. b 57 +. b 58 +. b 59 +. b 60 +. b 61 +. b 62 +. b 63.

Definition construct_coefs (b : nat -> T) : list T :=
  [coef_0 b; coef_1 b; coef_2 b; coef_3 b; coef_4 b; coef_5 b; coef_6 b; coef_7 b;
   coef_8 b; coef_9 b; coef_10 b; coef_11 b; coef_12 b; coef_13 b; coef_14 b; coef_15 b;
   coef_16 b; coef_17 b; coef_18 b; coef_19 b; coef_20 b; coef_21 b; coef_22 b; coef_23 b;
   coef_24 b; coef_25 b; coef_26 b; coef_27 b; coef_28 b; coef_29 b; coef_30 b; coef_31 b;
   coef_32 b; coef_33 b; coef_34 b; coef_35 b; coef_36 b; coef_37 b; coef_38 b; coef_39 b;
   coef_40 b; coef_41 b; coef_42 b; coef_43 b; coef_44 b; coef_45 b; coef_46 b; coef_47 b;
   coef_48 b; coef_49 b; coef_50 b; coef_51 b; coef_52 b; coef_53 b; coef_54 b; coef_55 b;
   coef_56 b; coef_57 b; coef_58 b; coef_59 b; coef_60 b; coef_61 b; coef_62 b; coef_63 b].

End Coefs.
