(** What the property of steps that average both ends of the step says. Nothing here uses the system of equations. *)
From Verif Require Import Base Num Utils_Model Solver_Model Solver_Spec Run_Model.
Open Scope Q_scope.

(** Where the wind blows in the concentration is given; where it leaves the concentration is given or that of the column before. *)
Definition open_ends (k : cfg) : Prop :=
  (offshore k = Flux \/ offshore k = Constant) /\ (onshore k = Flux \/ onshore k = Constant \/ onshore k = Uniform) /\ lateral k = Circular.
(** Onshore wind over a rectangular grid and a linear solver that solves. *)
Definition steady_wind (sp : (nat -> nat -> Q) -> (nat -> Q) -> nat -> Q) (k : cfg) (w : wind) : Prop :=
  rectangular k (speed w) /\ lateral_uniform k (speed w) /\ onshore_wind k (speed w) /\ no_side_wind_in_1d k (speed w) /\ nonnegative_ends k (speed w) /\
  exact_solver (number_of_cells k) (matrix k (speed w)) sp /\ forall i, (i < number_of_cells k)%nat -> 0 <= wCu0 w i.
(** How full the air is: the fraction of its capacity that every fraction uses, added up. *)
Definition fullness (os : list outcome) (ws : list wind) (j : nat) : Q :=
  qsum (map2 (fun o w => if Qltb 0 (wCu w j) then ct o j / wCu w j else 0) os ws).
(** What the wind can carry of a fraction when the air is that full. *)
Definition potential (w : wind) (full : Q) (j : nat) : Q := (1 - full) * wCuf w j + full * wCu w j.
(** Sand that passes from the bed to the air of a cell during a step when nothing changes during it. *)
Definition relaxation (k : cfg) (weight potential concentration : Q) : Q := (weight * potential - concentration) * dt k / T k.
(** What a cell gains during a step in which the air has the concentrations [x] and the weight in the cell is [v]. *)
Definition gain (k : cfg) (f : flow) (w : wind) (full v : Q) (x : nat -> Q) (r c : nat) : Q :=
  inflow k f x r c + area f r c * relaxation k v (potential w full (r * S (nx k) + c)) (at_cell k x r c).
(** Sand in the air over every inner cell. *)
Definition airborne (k : cfg) (o : outcome) : Prop := forall r c, inside k r c -> 0 < at_cell k (ct o) r c.
(** Two windy steps with calm in between: the first changes [s] into [s1] with the outcomes [os1], the second [s1] into [s2] with [os2]. *)
Definition two_steps (sp : (nat -> nat -> Q) -> (nat -> Q) -> nat -> Q) (k : cfg) (e : setup) (t0 : bool) (s s1 s2 : state) (ws1 ws2 : list wind) (n : nat) (os1 os2 : list outcome) : Prop :=
  run sp k e t0 s [Some ws1] = Ok (Some (s1, [os1])) /\
  run sp k e t0 s (Some ws1 :: repeat None n ++ [Some ws2]) = Ok (Some (s2, os1 :: repeat [] n ++ [os2])).
(** The sand over a cell changes by the gain at the end of the step, with the share alpha, and that at its start; the wind at the start has the speed [f]. *)
Definition averaged (k : cfg) (f : flow) (w1 w2 : wind) (full : nat -> Q) (v1 v2 : nat -> Q) (o1 o2 : outcome) (r c : nat) : Prop :=
  let j := (r * S (nx k) + c)%nat in
  area (speed w2) r c * (at_cell k (ct o2) r c - at_cell k (ct o1) r c) ==
  alpha k * gain k (speed w2) w2 (full j) (v2 j) (ct o2) r c + (1 - alpha k) * gain k f w1 (full j) (v1 j) (ct o1) r c.
