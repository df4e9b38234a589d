(** What the wind properties say. *)
From Verif Require Import Base Wind_Model.
From Coq Require Import Reals.
Open Scope R_scope.

(** The samples of a file follow each other in time. *)
Fixpoint in_order (a : sample) (rest : list sample) : Prop :=
  match rest with [] => True | b :: rest' => at_t a < at_t b /\ in_order b rest' end.
(** Two samples in this order, one directly after the other. *)
Fixpoint adjacent (u v a : sample) (rest : list sample) : Prop :=
  match rest with [] => False | b :: rest' => (u = a /\ v = b) \/ adjacent u v b rest' end.
(** Angles in degrees that differ by whole turns. *)
Definition same_direction (d e : R) : Prop := sin (radians d) = sin (radians e) /\ cos (radians d) = cos (radians e).
(** x lies between a and b, whichever is the larger. *)
Definition on_arc (a b x : R) : Prop := (a <= x <= b) \/ (b <= x <= a).
(** All rows of a converted file have the times and speeds of the original, and directions related by D. *)
Definition converted (D : R -> R -> Prop) (ws ws' : list sample) : Prop :=
  Forall2 (fun w w' => at_t w' = at_t w /\ speed w' = speed w /\ D (dir w) (dir w')) ws ws'.
(** Shear velocity and stress agree: magnitudes of the components, the quadratic law, and one direction. *)
Definition coherent (rho : R) (s : flow) : Prop :=
  0 <= ustar s /\ 0 <= tau s /\ hypot (ustars s) (ustarn s) = ustar s /\ hypot (taus s) (taun s) = tau s /\ tau s = rho * (ustar s * ustar s) /\
  taus s * ustar s = tau s * ustars s /\ taun s * ustar s = tau s * ustarn s.
(** Parameters for which a logarithmic profile makes sense. *)
Definition proper (p : params) : Prop := 0 < k p /\ 0 < z p /\ 0 < kappa p /\ 0 < rhoa p < rhog p /\ 0 < g p.
Definition proper_grains (gr : grains) : Prop := 0 < mean gr /\ 0 < d50 gr /\ 0 < d90 gr.
(** The bed does not fall more steeply than the angle mu_b (degrees) between neighbours at distance dx, with the wind. *)
Definition gentle (n : nat) (dx mu_b : R) (zb : row) : Prop :=
  forall i, (S i < n)%nat -> - degrees (atan ((zb (S i) - zb i) / dx)) <= mu_b.
(** The same stretch of bed seen from the other side. *)
Definition mirror (n : nat) (r : row) : row := fun i => r (n - 1 - i)%nat.
(** Stress and direction of a flow without wind component values. *)
Definition stress (s : flow) : R * R * R := (tau s, taus s, taun s).
(** Towards cell i the bed nowhere falls, from either side, and the two neighbours of i are equally high. *)
Definition hill (n : nat) (zb : row) (i : nat) : Prop :=
  (forall j, (j < i)%nat -> zb j <= zb (S j)) /\ (forall j, (i <= j)%nat -> (S j < n)%nat -> zb (S j) <= zb j) /\ zb (i - 1)%nat = zb (S i).
