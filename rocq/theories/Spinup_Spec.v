(** Transport that grows with the fetch, comes to rest and forgets how it began. Nothing here uses the matrix, the right hand side or the iteration. *)
From Coq Require Import QArith List Arith.
From Verif Require Import Base Num Solver_Model Solver_Spec.
Import ListNotations.
Open Scope Q_scope.

(** ** Fetch *)
(** All cells have the same length. *)
Definition equal_cells (k : cfg) (f : flow) (h : Q) : Prop := forall r c, (r <= ny k)%nat -> (c <= nx k)%nat -> ds f r c == h.
(** The wind blows to the land, everywhere with the same speed. *)
Definition even_wind (k : cfg) (f : flow) (u : Q) : Prop := 0 < u /\ forall r c, (r <= ny k)%nat -> (c <= nx k)%nat -> us f r c == u.
(** From [B] at the first column on, a field does not decrease downwind (the last column is a boundary and left out). *)
Definition rising (k : cfg) (B : Q) (x : nat -> Q) : Prop :=
  (forall r, (r <= ny k)%nat -> B <= at_cell k x r 1) /\ forall r c, (r <= ny k)%nat -> (1 <= c)%nat -> (S c < nx k)%nat -> at_cell k x r c <= at_cell k x r (S c).
(** What the air can carry with these weights. *)
Definition carries (d : input) (w : nat -> Q) (i : nat) : Q := w i * capacity d i.
(** The air that comes in over the first column, the same in all rows. *)
Definition enters (k : cfg) (f : flow) (d : input) (B : Q) : Prop :=
  forall r, (r <= ny k)%nat -> prescribed (offshore k) (offshore_flux k) (constant_offshore_flux k) (at_cell k (Cu0 d) r 0) (uu f r 0%nat) == B.
(** More sand in every cell than the wind could take if no sand was in the air. *)
Definition ample (k : cfg) (d : input) (w : nat -> Q) : Prop := forall i, (i < number_of_cells k)%nat -> w i * Cu d i / T k * dt k <= mass d i.

(** ** The two solvers *)
(** The same set-up for the solver of the steady state. *)
Definition steady (k : cfg) : cfg :=
  {| trunk := false; ny := ny k; nx := nx k; dt := dt k; T := T k; alpha := alpha k; max_error := max_error k; max_iter := max_iter k;
     offshore := offshore k; onshore := onshore k; lateral := lateral k; offshore_flux := offshore_flux k; onshore_flux := onshore_flux k;
     constant_offshore_flux := constant_offshore_flux k; constant_onshore_flux := constant_onshore_flux k |}.
(** [d'] is the input of a time step in which the air and the bed are as [o] has left them and the wind is still the same. *)
Definition resting (k : cfg) (d : input) (o : outcome) (d' : input) : Prop :=
  forall i, (i < number_of_cells k)%nat -> lCt d' i == ct o i /\ Cu d' i == Cu d i /\ Cu0 d' i == Cu0 d i /\ mass d' i == mass d i /\ capacity d' i == capacity d i /\
    lw d' i * (lCuf d' i * (1 - sat d' i) + lCu d' i * sat d' i) == weight o i * capacity d i.
(** Cell by cell the same numbers. *)
Definition same_result (n : nat) (o o' : outcome) : Prop :=
  converged o' = converged o /\ forall i, (i < n)%nat -> ct o' i == ct o i /\ pickup o' i == pickup o i /\ weight o' i == weight o i.

(** ** Many time steps *)
(** A time step that was taken: wind, input, weights to start with and result. *)
Record taken := { wind_of : flow; input_of : input; weights_of : nat -> Q; result_of : outcome }.
(** It was taken by the solver and ended well. *)
Definition solved (sp : (nat -> nat -> Q) -> (nat -> Q) -> nat -> Q) (k : cfg) (t : taken) : Prop :=
  well_posed sp k (wind_of t) (input_of t) (weights_of t) /\ solve_fraction sp k (wind_of t) (input_of t) (weights_of t) = Ok (Some (result_of t)) /\ converged (result_of t) = true.
(** Steps 0 to [n] that follow each other: each starts with the air of the one before. *)
Definition follow (k : cfg) (n : nat) (ts : nat -> taken) : Prop := forall m i, (m < n)%nat -> (i < number_of_cells k)%nat -> lCt (input_of (ts (S m))) i == ct (result_of (ts m)) i.
(** Two steps with the same wind, in which the air can carry the same. *)
Definition same_weather (k : cfg) (t t' : taken) : Prop :=
  wind_of t' = wind_of t /\ forall i, (i < number_of_cells k)%nat -> Cu0 (input_of t') i == Cu0 (input_of t) i /\
    carries (input_of t') (weight (result_of t')) i == carries (input_of t) (weight (result_of t)) i.
(** Sand in the air that one has and the other has not, or the reverse. *)
Definition difference (k : cfg) (f : flow) (x y : nat -> Q) : Q := over_inside k (fun r c => area f r c * qabs (at_cell k x r c - at_cell k y r c)).
(** The same grid in all steps. *)
Definition same_grid (k : cfg) (f f' : flow) : Prop := forall r c, (r <= ny k)%nat -> (c <= nx k)%nat -> area f' r c == area f r c.
