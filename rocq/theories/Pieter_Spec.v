(** What the properties of the solvers 'pieter' and 'steadystatepieter' say. Nothing here uses the matrix, the right hand side or the iteration
    of the model; the vocabulary for grids and vectors is that of [Solver_Spec]. *)
From Verif Require Import Base Num Solver_Model Solver_Spec Pieter_Model.
Open Scope Q_scope.

(** Sensible numbers. *)
Definition workable (k : pcfg) : Prop := (ny k <> 1)%nat /\ (1 <= nx k)%nat /\ 0 < dt k /\ 0 < T k /\ 0 <= alpha k <= 1.
(** Boundary conditions that the solvers know; the lateral borders are connected. *)
Definition known_end (b : boundary) : Prop := b = Flux \/ b = Constant \/ b = Gradient.
Definition known_ends (k : pcfg) : Prop := known_end (offshore k) /\ known_end (onshore k) /\ lateral k = Circular.
Definition within (k : pcfg) (r c : nat) : Prop := (r <= ny k)%nat /\ (c <= nx k)%nat.
(** The lateral wind is the same in all rows, or blows towards the higher rows everywhere. *)
Definition sideways_fine (k : pcfg) (f : flow) : Prop := lateral_uniform k f \/ forall r c, within k r c -> 0 <= un f r c.

(** Sand that a wind [u] carries, per width, from where the concentration is [a] to where it is [b], or the other way if negative. *)
Definition blown (u a b : Q) : Q := qmax u 0 * a + qmin u 0 * b.
(** From a cell to the next in its row, and to the cell in the next row (after the last row comes the first); [g]: concentrations. *)
Definition onwards (k : pcfg) (f : flow) (g : grid) (r c : nat) : Q := dn f r c * blown ((us f r c + us f r (S c)) / 2) (g r c) (g r (S c)).
Definition sideways (k : pcfg) (f : flow) (g : grid) (r c : nat) : Q :=
  ds f r c * blown ((un f r c + un f (row_down k r) c) / 2) (g r c) (g (row_down k r) c).
(** What enters a cell on its offshore side and leaves it on its onshore side. At a 'flux' end the configured part of the saturated flux comes in.
    With 'gradient' nothing is exchanged between the end column and its neighbour as far as the end column is concerned. *)
Definition enters (k : pcfg) (f : flow) (d : input) (g : grid) (r c : nat) : Q :=
  if Nat.eqb c 0 then match offshore k with Flux => dn f r c * us f r c * (offshore_flux k * at_cell k (Cu0 d) r c) | _ => 0 end
  else if Nat.eqb c (nx k) && beq (onshore k) Gradient then 0 else onwards k f g r (c - 1)%nat.
Definition leaves (k : pcfg) (f : flow) (d : input) (g : grid) (r c : nat) : Q :=
  if Nat.eqb c (nx k) then match onshore k with Flux => - (dn f r c * us f r c * (onshore_flux k * at_cell k (Cu0 d) r c)) | _ => 0 end
  else if Nat.eqb c 0 && beq (offshore k) Gradient then 0 else onwards k f g r c.
(** Everything that the wind brings into a cell, per time. *)
Definition brought (k : pcfg) (f : flow) (d : input) (g : grid) (r c : nat) : Q :=
  enters k f d g r c - leaves k f d g r c + sideways k f g (row_up k r) c - sideways k f g r c.
(** The concentration is not prescribed there. *)
Definition free_column (k : pcfg) (c : nat) : Prop := ~ (c = 0%nat /\ offshore k = Constant) /\ ~ (c = nx k /\ onshore k = Constant).
(** The concentration that counts in a time step from [l] to [x]. *)
Definition weighted (a : Q) (x l : grid) (r c : nat) : Q := a * x r c + (1 - a) * l r c.
Definition as_grid (k : pcfg) (v : nat -> Q) (r c : nat) : Q := at_cell k v r c.
(** What the bed gives, per area and time: towards the equilibrium concentration, but not more than the sand at the surface ([x]: the
    concentration when the solver was called). *)
Definition given (k : pcfg) (a : Q) (d : input) (w : nat -> Q) (x : grid) (r c : nat) : Q :=
  qmin (a * (at_cell k w r c * at_cell k (Cu d) r c) + (1 - a) * (at_cell k (lw d) r c * at_cell k (lCu d) r c))
    (at_cell k (mass d) r c + weighted a x (as_grid k (lCt d)) r c) / T k.

(** Through 'flux' ends sand comes in. *)
Definition flux_enters (k : pcfg) (f : flow) : Prop :=
  (offshore k = Flux -> forall r, (r <= ny k)%nat -> 0 <= us f r 0%nat * offshore_flux k) /\ (onshore k = Flux -> forall r, (r <= ny k)%nat -> 0 <= us f r (nx k) * onshore_flux k).
(** No wind along the coast. *)
Definition no_side_wind (k : pcfg) (f : flow) : Prop := forall r c, within k r c -> un f r c == 0.
(** A fully implicit time step with sensible numbers and nothing negative; [w]: weights, [x]: concentrations when the solver is called. *)
Definition orderly (k : pcfg) (f : flow) (d : input) (w x : nat -> Q) : Prop :=
  workable k /\ rectangular k f /\ known_ends k /\ sideways_fine k f /\ flux_enters k f /\ fully_implicit k /\ (trunk k = true \/ no_side_wind k f) /\
  (0 <= constant_offshore_flux k /\ 0 <= constant_onshore_flux k) /\ 0 <= max_error k /\ max_iter k <> 0%nat /\
  nonnegative_input k d /\ all_nonneg (number_of_cells k) w /\ all_nonneg (number_of_cells k) x.
(** What the air over a cell gains in the time step; in the steady state nothing. *)
Definition gained (k : pcfg) (f : flow) (d : input) (x : nat -> Q) (r c : nat) : Q := if trunk k then area f r c * (at_cell k x r c - at_cell k (lCt d) r c) else 0.
(** The bed holds what the air can carry. *)
Definition ample (k : pcfg) (d : input) (w : nat -> Q) : Prop := forall i, (i < number_of_cells k)%nat -> w i * Cu d i <= mass d i.
(** Sand that the bed gave up and the wind brought, but that is not in the air: of a cell, and of the columns between the ends. *)
Definition astray (k : pcfg) (f : flow) (d : input) (o : outcome) (r c : nat) : Q :=
  area f r c * at_cell k (pickup o) r c + dt k * brought k f d (as_grid k (ct o)) r c - gained k f d (ct o) r c.
Definition all_astray (k : pcfg) (f : flow) (d : input) (o : outcome) : Q :=
  over_inside k (fun r c => area f r c * at_cell k (pickup o) r c)
  + dt k * over_rows k (fun r => onwards k f (as_grid k (ct o)) r 0%nat - onwards k f (as_grid k (ct o)) r (nx k - 1)%nat) - over_inside k (gained k f d (ct o)).
(** Nothing piles up at the ends. *)
Definition open_ends (k : pcfg) (u v : Q) : Prop := onshore k <> Flux /\ (offshore k = Flux -> 0 <= u) /\ (offshore k = Constant \/ onshore k = Constant -> v == 0).
(** The air carries everywhere [C], which is what it can carry, also before the time step and where it enters. *)
Definition psaturated (k : pcfg) (d : input) (w x : nat -> Q) (C : Q) : Prop :=
  (forall i, (i < number_of_cells k)%nat -> lCt d i == C /\ x i == C /\ w i * Cu d i == C /\ lw d i * lCu d i == C /\ 0 <= mass d i) /\
  (offshore k = Flux -> forall r, (r <= ny k)%nat -> offshore_flux k * at_cell k (Cu0 d) r 0 == C) /\
  (trunk k = false -> (offshore k = Constant -> constant_offshore_flux k == 0) /\ (onshore k = Constant -> constant_onshore_flux k == 0)).
(** Nothing exceeds [M]. *)
Definition pbounded (k : pcfg) (d : input) (w x : nat -> Q) (M : Q) : Prop :=
  (forall i, (i < number_of_cells k)%nat -> lCt d i <= M /\ x i <= M /\ w i * Cu d i <= M) /\
  (offshore k = Flux -> forall r, (r <= ny k)%nat -> offshore_flux k * at_cell k (Cu0 d) r 0 <= M) /\
  (trunk k = false -> (offshore k = Constant -> constant_offshore_flux k == 0) /\ (onshore k = Constant -> constant_onshore_flux k == 0)).
(** One row of equal cells, steady, with 'gradient' ends, under a wind with a component [v > 0] along the coast that blows a grain past a cell
    within the adaptation time; the bed has sand for the equilibrium concentration [C] everywhere and the air carries [c] everywhere. *)
Definition oblique (k : pcfg) (f : flow) (d : input) (w x : nat -> Q) (u v n C c : Q) : Prop :=
  workable k /\ rectangular k f /\ known_ends k /\ trunk k = false /\ ny k = 0%nat /\ offshore k = Gradient /\ onshore k = Gradient /\ max_iter k <> 0%nat /\ 0 <= max_error k /\
  uniform_wind k f u v /\ (forall j, (j <= nx k)%nat -> dn f 0%nat j == n) /\ n <= v * T k /\ 0 <= C <= c /\
  forall i, (i < number_of_cells k)%nat -> w i * Cu d i == C /\ x i == c /\ 0 <= mass d i.
(** As [orderly], with any implicitness, any wind along the coast and both solvers. *)
Definition plain (k : pcfg) (f : flow) (d : input) (w x : nat -> Q) : Prop :=
  workable k /\ rectangular k f /\ known_ends k /\ flux_enters k f /\
  (0 <= constant_offshore_flux k /\ 0 <= constant_onshore_flux k) /\ 0 <= max_error k /\ max_iter k <> 0%nat /\
  nonnegative_input k d /\ all_nonneg (number_of_cells k) w /\ all_nonneg (number_of_cells k) x.
(** Somewhere more sand appears or disappears than the tolerance. *)
Definition unbalanced (sp : (nat -> nat -> Q) -> (nat -> Q) -> nat -> Q) (k : pcfg) (f : flow) (d : input) (w x : nat -> Q) : Prop :=
  exact_solver (number_of_cells k) (pmatrix k f) sp /\
  exists o r c, pieter_fraction sp k f d w x = Ok (Some o) /\ converged o = true /\ within k r c /\ free_column k c /\ max_error k * area f r c < qabs (astray k f d o r c).
(** The lateral boundaries that the solvers know. *)
Definition known_side (b : boundary) : Prop := b = Flux \/ b = Constant \/ b = Gradient \/ b = Circular.
(** One row or more than two; two columns or more; a gradient between rows needs rows. *)
Definition enough_cells (k : pcfg) : Prop := ny k <> 1%nat /\ nx k <> 0%nat /\ (ny k = 0%nat -> lateral k <> Gradient).
