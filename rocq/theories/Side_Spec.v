(** What happens in the rows beside the lateral boundaries. Nothing here uses the matrix or the right hand side. *)
From Coq Require Import QArith List Arith.
From Verif Require Import Base Num Solver_Model Solver_Spec.
Import ListNotations.
Open Scope Q_scope.

(** A cell between the two ends in the first or the last row, with 'constant' lateral boundaries. In the first row the wind of the second row must not blow towards it. *)
Definition beside (k : cfg) (f : flow) (r c : nat) : Prop :=
  lateral k = Constant /\ (1 <= c)%nat /\ (c < nx k)%nat /\ (r = ny k \/ (r = 0%nat /\ 0 <= un f 1%nat c)).
(** The same time step with another concentration to start with. *)
Definition with_air (d : input) (x : nat -> Q) : input :=
  {| Cu := Cu d; Cuf := Cuf d; Cu0 := Cu0 d; mass := mass d; lCt := x; lCu := lCu d; lCuf := lCuf d; lw := lw d; sat := sat d |}.
(** One step after the other in the same wind, with enough sand: each solves the system that starts with the result of the one before. *)
Definition steps_of (k : cfg) (f : flow) (d : input) (w : nat -> Q) (x : nat -> nat -> Q) : Prop :=
  forall m, is_solution (number_of_cells k) (matrix k f) (rhs k f (with_air d (x m)) w) (x (S m)).
(** The air nowhere holds more than it can carry. *)
Definition within_capacity (k : cfg) (d : input) (w x : nat -> Q) : Prop := forall i, (i < number_of_cells k)%nat -> x i <= w i * capacity d i.
