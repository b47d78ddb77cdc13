(** * Specification: sprite sheets

    A sheet is a list of pixel rows; bit x of a row is set when the pixel in column
    x is black.  None of the generator's functions is used here. *)
From Coq Require Import ZArith.
From Verif Require Import Prim.

Definition black (rows : list N) (x y : nat) : bool := N.testbit (nth y rows 0) (N.of_nat x).

(** The square of [size] pixels with the given top left corner, as a matrix of
    zeros and ones *)
Definition cut_out (rows : list N) (size left top : nat) : list (list Z) :=
  map (fun r => map (fun c => if black rows (left + c) (top + r) then 1%Z else 0%Z) (seq 0 size)) (seq 0 size).
