(** Boundary conditions at the seaward and the landward end (documentation, implementation.rst, equation apx-boundaryconditions; constants.py:302-303). Nothing here uses the matrix or the right hand side. *)
From Verif Require Import Base Num Solver_Model Solver_Spec.
From Coq Require Import QArith.
Open Scope Q_scope.

(** The condition [b] in a row, for the concentrations [x0], [x1], [x2] in the outermost columns at that end. [dx1], [dx2]: lengths of the cells of the second and third column. [cu0], [speed]: saturated
    concentration without shelter and speed in the outermost column. *)
Definition met (b : boundary) (factor amount cu0 speed dx1 dx2 x0 x1 x2 : Q) : Prop :=
  match b with
  | Flux => x0 == factor * cu0
  | Constant => x0 * speed == amount
  | Uniform => x0 == x1
  | Gradient => (x0 - x1) / dx1 == (x1 - x2) / dx2
  | Noflux => x0 == 0
  | Circular | Unknown => False
  end.
Definition offshore_met (k : cfg) (f : flow) (d : input) (x : nat -> Q) (r : nat) : Prop :=
  met (offshore k) (offshore_flux k) (constant_offshore_flux k) (at_cell k (Cu0 d) r 0) (uu f r 0%nat) (ds f r 1%nat) (ds f r 2%nat) (at_cell k x r 0) (at_cell k x r 1) (at_cell k x r 2).
Definition onshore_met (k : cfg) (f : flow) (d : input) (x : nat -> Q) (r : nat) : Prop :=
  met (onshore k) (onshore_flux k) (constant_onshore_flux k) (at_cell k (Cu0 d) r (nx k)) (uu f r (nx k)) (ds f r (nx k - 1)%nat) (ds f r (nx k - 2)%nat)
    (at_cell k x r (nx k)) (at_cell k x r (nx k - 1)) (at_cell k x r (nx k - 2)).
(** A grid on which the ends make sense. *)
Definition with_ends (k : cfg) (f : flow) : Prop :=
  (ny k <> 1)%nat /\ (2 <= nx k)%nat /\ forall r c, (r <= ny k)%nat -> (c <= nx k)%nat -> 0 < ds f r c /\ 0 < uu f r c.
(** The linear solver solves every system with this matrix. *)
Definition solving (k : cfg) (f : flow) (sp : (nat -> nat -> Q) -> (nat -> Q) -> nat -> Q) : Prop := forall y, is_solution (number_of_cells k) (matrix k f) y (sp (matrix k f) y).
(** A row that is not held by the lateral boundaries. *)
Definition free_row (k : cfg) (r : nat) : Prop := (r <= ny k)%nat /\ (lateral k = Constant -> (0 < r < ny k)%nat).
(** There is sand in the air everywhere but where none is let in. *)
Definition sandy (k : cfg) (o : outcome) : Prop :=
  forall r c, (r <= ny k)%nat -> (c <= nx k)%nat -> 0 < at_cell k (ct o) r c \/ c = 0%nat /\ (offshore k = Flux \/ offshore k = Constant \/ offshore k = Noflux) \/ c = nx k /\ (onshore k = Flux \/ onshore k = Constant).
