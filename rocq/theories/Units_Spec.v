(** What it means to use other units. Nothing here uses the matrix, the iteration of the solver, the weights or the update of the bed. *)
From Coq Require Import QArith List Arith.
From Verif Require Import Base Num Utils_Model Bed_Model Solver_Model Solver_Spec Run_Model.
Import ListNotations.
Open Scope Q_scope.

(** How many of the new units make an old one. *)
Record units := { metre : Q; second : Q; kilogram : Q }.
Definition proper (u : units) : Prop := 0 < metre u /\ 0 < second u /\ 0 < kilogram u.
(** Mass per area; length per time; mass per length and time; mass per volume. *)
Definition per_area (u : units) : Q := kilogram u / (metre u * metre u).
Definition velocity (u : units) : Q := metre u / second u.
Definition flux (u : units) : Q := kilogram u / (metre u * second u).
Definition density (u : units) : Q := kilogram u / (metre u * metre u * metre u).

(** The configuration in the new units: times, the tolerance (which is compared with masses per area), and the prescribed fluxes. *)
Definition cfg_in (u : units) (k : cfg) : cfg :=
  {| trunk := trunk k; ny := ny k; nx := nx k; dt := second u * dt k; T := second u * T k; alpha := alpha k; max_error := per_area u * Solver_Model.max_error k; max_iter := max_iter k;
     offshore := offshore k; onshore := onshore k; lateral := lateral k; offshore_flux := offshore_flux k; onshore_flux := onshore_flux k;
     constant_offshore_flux := flux u * constant_offshore_flux k; constant_onshore_flux := flux u * constant_onshore_flux k |}.
Definition flow_in (u : units) (f : flow) : flow :=
  {| us := fun r c => velocity u * us f r c; un := fun r c => velocity u * un f r c; uu := fun r c => velocity u * uu f r c;
     ds := fun r c => metre u * ds f r c; dn := fun r c => metre u * dn f r c |}.
Definition input_in (u : units) (d : input) : input :=
  {| Cu := fun i => per_area u * Cu d i; Cuf := fun i => per_area u * Cuf d i; Cu0 := fun i => per_area u * Cu0 d i; mass := fun i => per_area u * Solver_Model.mass d i;
     lCt := fun i => per_area u * lCt d i; lCu := fun i => per_area u * lCu d i; lCuf := fun i => per_area u * lCuf d i; lw := lw d; sat := sat d |}.
Definition class_in (u : units) (g : flow * input) : flow * input := (flow_in u (fst g), input_in u (snd g)).

(** The same quantity in the new units; [c] is the factor of its dimension. *)
Definition in_unit (c : Q) (x x' : Q) : Prop := x' == c * x.
(** The same result of a fraction. *)
Definition outcome_in (u : units) (n : nat) (o o' : outcome) : Prop :=
  converged o' = converged o /\ forall i, (i < n)%nat -> in_unit (per_area u) (ct o i) (ct o' i) /\ in_unit (per_area u) (Solver_Model.pickup o i) (Solver_Model.pickup o' i) /\ in_unit 1 (weight o i) (weight o' i).
(** The same answer: the same exception, NaN in both, or the same results and weights. *)
Definition answer_in (u : units) (n : nat) (r r' : result (option (list outcome * (nat -> list Q)))) : Prop :=
  match r, r' with
  | Raise e, Raise e' => e' = e
  | Ok None, Ok None => True
  | Ok (Some (os, w)), Ok (Some (os', w')) => Forall2 (outcome_in u n) os os' /\ forall i, (i < n)%nat -> Forall2 (in_unit 1) (w i) (w' i)
  | _, _ => False
  end.
(** A linear system with exactly one solution for every right hand side. *)
Definition one_solution (n : nat) (A : nat -> nat -> Q) : Prop :=
  forall y, exists x, is_solution n A y x /\ forall x', is_solution n A y x' -> forall i, (i < n)%nat -> x' i == x i.
(** The solver of linear systems is exact in both units. *)
Definition exact_in (u : units) (sp sp' : (nat -> nat -> Q) -> (nat -> Q) -> nat -> Q) (k : cfg) (f : flow) : Prop :=
  one_solution (number_of_cells k) (matrix k f) /\ exact_solver (number_of_cells k) (matrix k f) sp /\ exact_solver (number_of_cells k) (matrix (cfg_in u k) (flow_in u f)) sp'.

(** Wind, bed and state of a whole run in the new units. *)
Definition wind_in (u : units) (w : wind) : wind :=
  {| speed := flow_in u (speed w); wCu := fun i => per_area u * wCu w i; wCuf := fun i => per_area u * wCuf w i; wCu0 := fun i => per_area u * wCu0 w i |}.
Definition weather_in (u : units) (weather : list (option (list wind))) : list (option (list wind)) := map (option_map (map (wind_in u))) weather.
Definition setup_in (u : units) (e : setup) : setup :=
  {| bi := bi e; bedcomp := bedcomp e; grains := grains e; base := base e;
     bedp := {| Bed_Model.max_error := per_area u * Bed_Model.max_error (bedp e); rhog := density u * rhog (bedp e); porosity := porosity (bedp e);
                process_bedupdate := process_bedupdate (bedp e); process_tide := process_tide (bedp e) |} |}.
Definition cell_in (u : units) (c c' : bedcell) : Prop :=
  Forall2 (Forall2 (in_unit (per_area u))) (Bed_Model.mass c) (Bed_Model.mass c') /\ Forall2 (in_unit (per_area u)) (Bed_Model.pickup c) (Bed_Model.pickup c') /\
  in_unit (metre u) (zb c) (zb c') /\ in_unit (metre u) (zs c) (zs c').
Definition field_in (c : Q) (n : nat) (x x' : nat -> Q) : Prop := forall i, (i < n)%nat -> in_unit c (x i) (x' i).
Definition state_in (u : units) (n : nat) (s s' : state) : Prop :=
  Forall2 (field_in (per_area u) n) (air s) (air s') /\ Forall2 (cell_in u) (sand s) (sand s') /\
  Forall2 (field_in (per_area u) n) (oldCu s) (oldCu s') /\ Forall2 (field_in (per_area u) n) (oldCuf s) (oldCuf s') /\
  forall i, (i < n)%nat -> Forall2 (in_unit 1) (oldw s i) (oldw s' i).
(** The same run: the same exception, NaN in both, or the same state at the end and the same results on the way. *)
Definition run_in (u : units) (n : nat) (r r' : result (option (state * list (list outcome)))) : Prop :=
  match r, r' with
  | Raise e, Raise e' => e' = e
  | Ok None, Ok None => True
  | Ok (Some (s, t)), Ok (Some (s', t')) => state_in u n s s' /\ Forall2 (Forall2 (outcome_in u n)) t t'
  | _, _ => False
  end.
