(** What the wind generator properties say. *)
From Verif Require Import Base Num Solver_Model Linear Gen_Model.
Open Scope Q_scope.

(** Random numbers as numpy.random.uniform(0, 1) returns them. *)
Definition uniform (rs : nat -> Q * Q) : Prop := forall i, 0 <= fst (rs i) < 1 /\ 0 <= snd (rs i) < 1.
Definition positive_below (n : nat) (p : nat -> Q) : Prop := forall i, (i < n)%nat -> 0 < p i.
(** The distribution q is kept by the chain with transition chances c. *)
Definition stationary (n : nat) (c : nat -> nat -> Q) (q : nat -> Q) : Prop := forall y, (y < n)%nat -> sumn n (fun x => q x * c x y) == q y.
Definition is_distribution (n : nat) (q : nat -> Q) : Prop := (forall i, (i < n)%nat -> 0 <= q i) /\ sumn n q == 1.
