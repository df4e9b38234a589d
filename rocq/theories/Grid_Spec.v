(** What the grid properties say. *)
From Coq Require Import Reals.
From Verif Require Import Base Grid_Model.
Open Scope R_scope.

(** A grid of equal parallelograms: columns are ax apart, rows bx (the same for y). *)
Definition even (x0 ax bx : R) (i j : nat) : R := x0 + INR j * ax + INR i * bx.
(** The step (dx, dy) from a point to the next, after turning it clockwise over a (degrees). *)
Definition turned (a dx dy : R) : R * R := (dx * cos (a / 180 * PI) + dy * sin (a / 180 * PI), dy * cos (a / 180 * PI) - dx * sin (a / 180 * PI)).
(** The step from row i, column j to row i', column j' of a grid turned over a. *)
Definition step (a : R) (x y : grid) (i j i' j' : nat) : R * R := turned a (x i' j' - x i j) (y i' j' - y i j).
(** Turned over a, columns ascend along the first axis and rows along the second. *)
Definition ascending (a : R) (x y : grid) : Prop := 0 < fst (step a x y 0 0 0 1) /\ 0 < snd (step a x y 0 0 1 0).
(** The distance between two points. *)
Definition distance (dx dy : R) : R := sqrt (dx * dx + dy * dy).
(** The sum of the first n values. *)
Fixpoint total (f : nat -> R) (n : nat) : R := match n with O => 0 | S m => total f m + f m end.
