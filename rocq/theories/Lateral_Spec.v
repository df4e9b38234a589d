(** The solvers 'pieter' and 'steadystatepieter' between lateral borders that are not connected. *)
From Verif Require Import Base Num Solver_Model Solver_Spec Pieter_Model Pieter_Spec.
Open Scope Q_scope.

(** Boundary conditions that the solvers know, also along the lateral borders; 'gradient' there needs a next row. *)
Definition known_borders (k : pcfg) : Prop := known_end (offshore k) /\ known_end (onshore k) /\ known_end (lateral k) /\ (lateral k = Gradient -> ny k <> 0%nat).
(** Air that comes in through a lateral border carries [C]. *)
Definition carried_in (k : pcfg) (d : input) (C : Q) : Prop :=
  lateral k = Flux -> forall c, (c <= nx k)%nat -> lateral_flux k * at_cell k (Cu0 d) 0 c == C /\ lateral_flux k * at_cell k (Cu0 d) (ny k) c == C.
(** The linear system has one solution, which the linear solver finds. *)
Definition solvable (sp : (nat -> nat -> Q) -> (nat -> Q) -> nat -> Q) (n : nat) (A : nat -> nat -> Q) : Prop :=
  forall y, is_solution n A y (sp A y) /\ forall x, is_solution n A y x -> forall i, (i < n)%nat -> x i == sp A y i.
(** The rows along the lateral borders. *)
Definition border (k : pcfg) (r : nat) : Prop := r = 0%nat \/ r = ny k.
(** The same input in all rows. *)
Definition same_rows (k : pcfg) (d : input) (w x : nat -> Q) : Prop := forall r c, (r <= ny k)%nat -> (c <= nx k)%nat ->
  let same (g : nat -> Q) := at_cell k g r c == at_cell k g 0 c in same (lCt d) /\ same (Cu d) /\ same (Cu0 d) /\ same (lCu d) /\ same (lw d) /\ same (mass d) /\ same w /\ same x.
