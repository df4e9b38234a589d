(** Specification of properties C120-C121, sand fences in two dimensions. *)
From Coq Require Import Reals.
From Verif Require Import Base Shear_Model Shear_Spec.
Open Scope R_scope.

(** A grid along the axes with square cells of size [h]. *)
Definition square_cells (g : grid) (x y h : R) : Prop := equal_cells g (x, y) (h, 0) (0, h).
(** The size of a vector is at most [U]. *)
Definition at_most (U : R) (v : R * R) : Prop := fst v ^ 2 + snd v ^ 2 <= U ^ 2.
(** The share of the shear velocity that Okin's model leaves at a distance [s] behind a fence of height [h]. *)
Definition okin_share (intercept c1 h s : R) : R := intercept + (1 - intercept) * (1 - exp (- (s * c1 / h))).
(** The only fence on row [r] is that in column [i]. *)
Definition only_fence (n : nat) (z : field) (r i : nat) : Prop := (i < n)%nat /\ 0 < z r i /\ forall k, (k < n)%nat -> k <> i -> z r k <= 0.
(** A grid with cells of 1 m. *)
Definition unit_grid (m n : nat) : grid := {| rows := m; cols := n; gx := fun r c => INR c; gy := fun r c => INR r |}.
