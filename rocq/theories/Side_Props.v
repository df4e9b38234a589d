(** Rows beside the lateral boundaries: property C141. *)
From Verif Require Import Base Num Solver_Model Solver_Spec Linear Solver_Cases Units_Cases Side_Spec Side_Proofs Side_Cases.
From Coq Require Import QArith List.
Import ListNotations.
Open Scope Q_scope.

(** C141. Nothing is blown into or out of the rows beside 'constant' lateral boundaries: what the wind takes up in a step is added to what was in the air. *)
Theorem C141_step : forall k f d w x r c, beside k f r c -> trunk k = true -> alpha k == 1 -> is_solution (number_of_cells k) (matrix k f) (rhs k f d w) x ->
  at_cell k x r c == at_cell k (lCt d) r c + at_cell k w r c * at_cell k (capacity d) r c * (dt k / T k).
Proof. exact side_step. Qed.
Print Assumptions C141_step.
Example C141_step_case : beside (kside true) fside 0 2 /\ beside (kside true) fside 2 1 /\ trunk (kside true) = true /\ alpha (kside true) == 1 /\
  is_solution (number_of_cells (kside true)) (matrix (kside true) fside) (rhs (kside true) fside (dside (after 1)) ones) (after 2) /\
  steps_of (kside true) fside (dside zeros) ones after /\
  show (kside true) (after 1) = [0; 5; 5; 0; 0; 20 # 7; 180 # 49; 0; 0; 5; 5; 0] /\ show (kside true) (after 3) = [0; 15; 15; 0; 0; 2460 # 343; 23300 # 2401; 0; 0; 15; 15; 0].
Proof. exact c141_case. Qed.

(** So the air gets fuller with every step. *)
Theorem C141_grows : forall k f d w x r c, beside k f r c -> trunk k = true -> alpha k == 1 -> steps_of k f d w x ->
  forall m, at_cell k (x m) r c == at_cell k (x 0%nat) r c + inject_Z (Z.of_nat m) * (at_cell k w r c * at_cell k (capacity d) r c * (dt k / T k)).
Proof. exact side_grows. Qed.
Print Assumptions C141_grows.
Example C141_grows_case : beside (kside true) fside 0 2 /\ beside (kside true) fside 2 1 /\ trunk (kside true) = true /\ alpha (kside true) == 1 /\
  is_solution (number_of_cells (kside true)) (matrix (kside true) fside) (rhs (kside true) fside (dside (after 1)) ones) (after 2) /\
  steps_of (kside true) fside (dside zeros) ones after /\
  show (kside true) (after 1) = [0; 5; 5; 0; 0; 20 # 7; 180 # 49; 0; 0; 5; 5; 0] /\ show (kside true) (after 3) = [0; 15; 15; 0; 0; 2460 # 343; 23300 # 2401; 0; 0; 15; 15; 0].
Proof. exact c141_case. Qed.

(** In the steady state the concentration is the capacity divided by the adaptation time. *)
Theorem C141_steady : forall k f d w x r c, beside k f r c -> trunk k = false -> is_solution (number_of_cells k) (matrix k f) (rhs k f d w) x ->
  at_cell k x r c == at_cell k w r c * at_cell k (capacity d) r c / T k.
Proof. exact side_steady. Qed.
Print Assumptions C141_steady.
Example C141_steady_case : beside (kside false) fside 0 2 /\ trunk (kside false) = false /\ exists x, is_solution (number_of_cells (kside false)) (matrix (kside false) fside) (rhs (kside false) fside (dside zeros) ones) x /\
  show (kside false) x = [0; 5; 5; 0; 0; 4; 28 # 5; 0; 0; 5; 5; 0].
Proof. exact c141_steady_case. Qed.

(** After one step the air holds more than it can carry and more than it ever held. *)
Theorem C141_more_refuted : exists sp k f d w M o i, trunk k = true /\ lateral k = Constant /\ sensible k /\ rectangular k f /\ (exists u v, 0 < u /\ uniform_wind k f u v) /\ alpha k == 1 /\ nonnegative_input k d /\ nonnegative_ends k f /\
  exact_solver (number_of_cells k) (matrix k f) sp /\ bounded_by k f d w M /\ solve_fraction sp k f d w = Ok (Some o) /\ converged o = true /\ (i < number_of_cells k)%nat /\ M < ct o i.
Proof. exact c141_more. Qed.
Print Assumptions C141_more_refuted.
