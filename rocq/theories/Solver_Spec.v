(** What the solver properties say. Nothing here uses the matrix, the right hand side or the iteration of the model. *)
From Verif Require Import Base Num Solver_Model.
Open Scope Q_scope.

(** Cells of the grid, as positions in a flattened field. *)
Definition inside (k : cfg) (r c : nat) : Prop := (r <= ny k)%nat /\ (1 <= c)%nat /\ (c < nx k)%nat.
Definition at_cell (k : cfg) (v : nat -> Q) (r c : nat) : Q := v (r * S (nx k) + c)%nat.
Definition number_of_cells (k : cfg) : nat := ((ny k + 1) * (nx k + 1))%nat.

(** Sensible numbers. *)
Definition sensible (k : cfg) : Prop := (ny k <> 1)%nat /\ (2 <= nx k)%nat /\ 0 < dt k /\ 0 < T k /\ 0 <= alpha k.
(** All cells of a column are equally long and all cells equally wide. *)
Definition rectangular (k : cfg) (f : flow) : Prop :=
  forall r c, (r <= ny k)%nat -> (c <= nx k)%nat -> 0 < ds f r c /\ ds f r c == ds f 0%nat c /\ 0 < dn f r c /\ dn f r c == dn f 0%nat 0%nat.
(** The lateral speed is the same in all rows. *)
Definition lateral_uniform (k : cfg) (f : flow) : Prop := forall r c, (r <= ny k)%nat -> (c <= nx k)%nat -> un f r c == un f 0%nat c.
(** Nowhere does the speed change from negative to positive: the sand is blown towards each other, never apart. *)
Definition gathering (k : cfg) (f : flow) : Prop :=
  (forall r c, (r <= ny k)%nat -> (S c < nx k)%nat -> 0 <= us f r (S c) -> 0 <= us f r c) /\
  (forall r c, inside k r c -> us f r c < 0 -> us f r (S c) <= 0).
(** The concentrations in the first and the last column are prescribed; the other two borders are connected. *)
Definition prescribed_ends (k : cfg) : Prop :=
  (offshore k = Flux \/ offshore k = Constant \/ trunk k = true /\ offshore k = Noflux) /\ (onshore k = Flux \/ onshore k = Constant \/ trunk k = true /\ offshore k = Noflux) /\ lateral k = Circular.
(** Offshore prescribed, onshore any of the four known conditions. *)
Definition prescribed_offshore (k : cfg) : Prop :=
  (offshore k = Flux \/ offshore k = Constant) /\ (onshore k = Flux \/ onshore k = Constant \/ onshore k = Uniform \/ onshore k = Gradient) /\ lateral k = Circular.
(** The ends do not disturb: both prescribed, or the last column copies the one before it and the wind blows there. *)
Definition quiet_ends (k : cfg) (f : flow) : Prop :=
  prescribed_ends k \/ (prescribed_offshore k /\ onshore k = Uniform /\ forall r, (r <= ny k)%nat -> 0 <= us f r (nx k - 1)%nat).
Definition onshore_wind (k : cfg) (f : flow) : Prop := forall r c, (r <= ny k)%nat -> (c <= nx k)%nat -> 0 <= us f r c.

(** Equilibrium concentration towards which the concentration of the fraction goes, for a weight of one. *)
Definition capacity (d : input) (i : nat) : Q := Cuf d i * (1 - sat d i) + Cu d i * sat d i.
(** Nothing negative goes in. *)
Definition nonnegative_input (k : cfg) (d : input) : Prop :=
  forall i, (i < number_of_cells k)%nat -> 0 <= lCt d i /\ 0 <= Cu0 d i /\ 0 <= capacity d i /\ 0 <= Cu d i /\ 0 <= mass d i.
Definition nonnegative_ends (k : cfg) (f : flow) : Prop :=
  0 <= offshore_flux k /\ 0 <= onshore_flux k /\ 0 <= constant_offshore_flux k /\ 0 <= constant_onshore_flux k /\
  forall r c, (r <= ny k)%nat -> (c <= nx k)%nat -> 0 < uu f r c.
(** The concentration prescribed at an end. *)
Definition prescribed (b : boundary) (factor amount cu0 speed : Q) : Q := match b with Flux => factor * cu0 | Constant => amount / speed | _ => 0 end.
Definition fully_implicit (k : cfg) : Prop := trunk k = true -> alpha k == 1.
Definition uniform_wind (k : cfg) (f : flow) (u v : Q) : Prop := forall r c, (r <= ny k)%nat -> (c <= nx k)%nat -> us f r c == u /\ un f r c == v.

(** A linear solver that returns a solution of the system with this matrix whenever there is one. *)
Definition row_times (n : nat) (A : nat -> nat -> Q) (x : nat -> Q) (i : nat) : Q := qsum (map (fun j => A i j * x j) (seq 0 n)).
Definition is_solution (n : nat) (A : nat -> nat -> Q) (y x : nat -> Q) : Prop := forall i, (i < n)%nat -> row_times n A x i == y i.
Definition exact_solver (n : nat) (A : nat -> nat -> Q) (sp : (nat -> nat -> Q) -> (nat -> Q) -> nat -> Q) : Prop :=
  forall y, (exists x, is_solution n A y x) -> is_solution n A y (sp A y).

Definition all_within (n : nat) (x bound : nat -> Q) : Prop := forall i, (i < n)%nat -> x i <= bound i.
Definition all_nonneg (n : nat) (x : nat -> Q) : Prop := forall i, (i < n)%nat -> 0 <= x i.

(** ** Balance of mass *)
Definition row_up (k : cfg) (r : nat) : nat := match r with O => ny k | S r' => r' end.
Definition row_down (k : cfg) (r : nat) : nat := if Nat.eqb r (ny k) then O else S r.
Definition area (f : flow) (r c : nat) : Q := ds f r c * dn f r c.
(** Sand entering the cell through its sides during a time step, for a non-negative cross-shore speed: upwind fluxes. *)
Definition inflow (k : cfg) (f : flow) (x : nat -> Q) (r c : nat) : Q :=
  dt k * dn f r c * (us f r (c - 1)%nat * at_cell k x r (c - 1) - us f r c * at_cell k x r c)
  + dt k * ds f r c * (qmax (un f r c) 0 * (at_cell k x (row_up k r) c - at_cell k x r c) + qmin (un f r c) 0 * (at_cell k x r c - at_cell k x (row_down k r) c)).
(** Exchange with the bed that relaxation towards the equilibrium concentration asks for. *)
Definition exchange (k : cfg) (d : input) (w x : nat -> Q) (r c : nat) : Q :=
  let i := (r * S (nx k) + c)%nat in (w i * capacity d i - x i) * dt k / T k.
Definition over_inside (k : cfg) (g : nat -> nat -> Q) : Q := qsum (map (fun r => qsum (map (g r) (seq 1 (nx k - 1)))) (seq 0 (S (ny k)))).
Definition over_rows (k : cfg) (g : nat -> Q) : Q := qsum (map g (seq 0 (S (ny k)))).
(** With one row there is nothing beside it. *)
Definition no_side_wind_in_1d (k : cfg) (f : flow) : Prop := ny k = 0%nat -> forall c, (c <= nx k)%nat -> un f 0%nat c == 0.

(** ** Uniform fields *)
Definition bounded_by (k : cfg) (f : flow) (d : input) (w : nat -> Q) (M : Q) : Prop :=
  0 <= M /\ (forall i, (i < number_of_cells k)%nat -> lCt d i <= M /\ w i * capacity d i <= M) /\
  forall r, (r <= ny k)%nat ->
    prescribed (offshore k) (offshore_flux k) (constant_offshore_flux k) (at_cell k (Cu0 d) r 0) (uu f r 0%nat) <= M /\
    prescribed (onshore k) (onshore_flux k) (constant_onshore_flux k) (at_cell k (Cu0 d) r (nx k)) (uu f r (nx k)) <= M.
(** The air carries everywhere exactly what it can, also before the time step and where it enters. *)
Definition saturated (k : cfg) (f : flow) (d : input) (w : nat -> Q) (C : Q) : Prop :=
  (forall i, (i < number_of_cells k)%nat -> lCt d i == C /\ w i * Cu d i == C /\ w i * capacity d i == C /\ lw d i * (lCuf d i * (1 - sat d i) + lCu d i * sat d i) == C /\ 0 <= mass d i) /\
  forall r, (r <= ny k)%nat ->
    prescribed (offshore k) (offshore_flux k) (constant_offshore_flux k) (at_cell k (Cu0 d) r 0) (uu f r 0%nat) == C /\
    (onshore k = Flux \/ onshore k = Constant -> prescribed (onshore k) (onshore_flux k) (constant_onshore_flux k) (at_cell k (Cu0 d) r (nx k)) (uu f r (nx k)) == C).

(** Sand blown through the first and out of the last face of a row in a time step (upwind). *)
Definition through_ends (k : cfg) (f : flow) (x : nat -> Q) : Q :=
  over_rows k (fun r => dt k * dn f r 0%nat *
    (qmax (us f r 0%nat) 0 * at_cell k x r 0 + qmin (us f r 1%nat) 0 * at_cell k x r 1
     - qmax (us f r (nx k - 1)%nat) 0 * at_cell k x r (nx k - 1) - qmin (us f r (nx k)) 0 * at_cell k x r (nx k))).
(** Sand that is in the air after the step and comes neither from before, nor from the ends, nor from the bed. *)
Definition unexplained (k : cfg) (f : flow) (d : input) (o : outcome) : Q :=
  over_inside k (fun r c => area f r c * (at_cell k (ct o) r c - at_cell k (lCt d) r c)) - through_ends k f (ct o)
  - over_inside k (fun r c => area f r c * at_cell k (pickup o) r c).
(** Boundary conditions that both solvers know at both ends. *)
Definition known (b : boundary) : Prop := b = Flux \/ b = Constant \/ b = Uniform \/ b = Gradient.
(** A time step of solve on a regular grid, with both ends prescribed and nothing negative. *)
Definition ordinary (k : cfg) (f : flow) (d : input) (w : nat -> Q) : Prop :=
  trunk k = true /\ sensible k /\ rectangular k f /\ prescribed_ends k /\ nonnegative_input k d /\ nonnegative_ends k f /\ 0 < max_error k /\ all_nonneg (number_of_cells k) w.
(** The iteration converges but sand appears or disappears, more than the tolerance explains. *)
Definition sand_lost_or_gained (sp : (nat -> nat -> Q) -> (nat -> Q) -> nat -> Q) (k : cfg) (f : flow) (d : input) (w : nat -> Q) : Prop :=
  exists o, solve_fraction sp k f d w = Ok (Some o) /\ converged o = true /\ is_solution (number_of_cells k) (matrix k f) (rhs k f d w) (ct o) /\
    max_error k * over_inside k (area f) < qabs (unexplained k f d o).
(** The capacity of the air over moving and over resting sand is the same. *)
Definition same_capacity (k : cfg) (d : input) : Prop := forall i, (i < number_of_cells k)%nat -> Cuf d i == Cu d i.
(** The same run with another limit to the number of iterations. *)
Definition with_iterations (k : cfg) (n : nat) : cfg := {| trunk := trunk k; ny := ny k; nx := nx k; dt := dt k; T := T k; alpha := alpha k; max_error := max_error k; max_iter := n;
  offshore := offshore k; onshore := onshore k; lateral := lateral k; offshore_flux := offshore_flux k; onshore_flux := onshore_flux k;
  constant_offshore_flux := constant_offshore_flux k; constant_onshore_flux := constant_onshore_flux k |}.
(** All the hypotheses under which the iteration converges. *)
Definition well_posed (sp : (nat -> nat -> Q) -> (nat -> Q) -> nat -> Q) (k : cfg) (f : flow) (d : input) (w : nat -> Q) : Prop :=
  sensible k /\ rectangular k f /\ lateral_uniform k f /\ gathering k f /\ quiet_ends k f /\ fully_implicit k /\ nonnegative_input k d /\ nonnegative_ends k f /\
  0 < max_error k /\ exact_solver (number_of_cells k) (matrix k f) sp /\ all_nonneg (number_of_cells k) w.
