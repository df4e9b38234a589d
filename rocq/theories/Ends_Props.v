(** The conditions at the seaward and the landward end: property C170. *)
From Verif Require Import Base Num Solver_Model Solver_Spec Linear Solver_Cases Units_Cases Side_Cases Ends_Spec Ends_Proofs Ends_Cases.
From Coq Require Import QArith List.
Import ListNotations.
Open Scope Q_scope.

(** C170. The result of a converged step meets the conditions at both ends, in every row, whatever sand there is. *)
Theorem C170_always : forall sp k f d w o r, sensible k -> rectangular k f -> lateral_uniform k f -> gathering k f -> quiet_ends k f -> fully_implicit k -> nonnegative_input k d -> nonnegative_ends k f -> 0 < max_error k ->
  exact_solver (number_of_cells k) (matrix k f) sp -> all_nonneg (number_of_cells k) w -> solve_fraction sp k f d w = Ok (Some o) -> converged o = true -> (r <= ny k)%nat ->
  offshore_met k f d (ct o) r /\ (offshore k <> Noflux -> onshore_met k f d (ct o) r).
Proof. exact ends_always. Qed.
Print Assumptions C170_always.
Example C170_always_case : sensible k170b /\ rectangular k170b f31 /\ lateral_uniform k170b f31 /\ gathering k170b f31 /\ quiet_ends k170b f31 /\ fully_implicit k170b /\ nonnegative_input k170b d170b /\ nonnegative_ends k170b f31 /\ 0 < max_error k170b /\
  exact_solver (number_of_cells k170b) (matrix k170b f31) (gauss 4) /\ all_nonneg (number_of_cells k170b) ones /\
  match solve_fraction (gauss 4) k170b f31 d170b ones with Ok (Some o) => (converged o, show k170b (ct o)) | _ => (false, []) end = (true, [2; 4; 14 # 3; 0]).
Proof. exact c170_always. Qed.

(** C170. For every pair of conditions, wind and side boundary, in every row that is not held: the result meets the conditions at both ends. The full statement has no [sandy]: missing are results from which negative concentrations were cut off. *)
Theorem C170_ends_partial : forall sp k f d w o r, with_ends k f -> nonnegative_ends k f -> (forall i, (i < number_of_cells k)%nat -> 0 <= Cu0 d i) -> solving k f sp -> solve_fraction sp k f d w = Ok (Some o) -> sandy k o ->
  free_row k r -> offshore_met k f d (ct o) r /\ (offshore k <> Noflux -> onshore_met k f d (ct o) r).
Proof. exact ends_met. Qed.
Print Assumptions C170_ends_partial.
Example C170_ends_partial_case : with_ends k170 f170 /\ nonnegative_ends k170 f170 /\ (forall i, (i < number_of_cells k170)%nat -> 0 <= Cu0 d170 i) /\ solving k170 f170 sp170 /\ free_row k170 0 /\
  exists o, solve_fraction sp170 k170 f170 d170 ones = Ok (Some o) /\ sandy k170 o /\ show k170 (ct o) = [5; 5; 25 # 3; 10].
Proof. exact c170_case. Qed.

(** C170. With 'noflux' at sea the landward condition 'uniform' is not met: nothing reaches the last column. *)
Theorem C170_noflux_refuted : exists sp k f d w o r, offshore k = Noflux /\ onshore k = Uniform /\ sensible k /\ rectangular k f /\ lateral_uniform k f /\ gathering k f /\ quiet_ends k f /\ fully_implicit k /\ nonnegative_input k d /\ nonnegative_ends k f /\ 0 < max_error k /\
  exact_solver (number_of_cells k) (matrix k f) sp /\ all_nonneg (number_of_cells k) w /\ solve_fraction sp k f d w = Ok (Some o) /\ converged o = true /\ (r <= ny k)%nat /\
  at_cell k (ct o) r (nx k) == 0 /\ at_cell k (ct o) r (nx k - 1) == 40 # 9.
Proof. exact c170_noflux. Qed.
Print Assumptions C170_noflux_refuted.

(** C170. With 'constant' at the sides the landward condition 'uniform' is not met in the first row. *)
Theorem C170_side_refuted : exists sp k f d w o r, lateral k = Constant /\ onshore k = Uniform /\ with_ends k f /\ nonnegative_ends k f /\ (forall i, (i < number_of_cells k)%nat -> 0 <= Cu0 d i) /\ solving k f sp /\
  solve_fraction sp k f d w = Ok (Some o) /\ converged o = true /\ (r <= ny k)%nat /\ at_cell k (ct o) r (nx k) == 0 /\ at_cell k (ct o) r (nx k - 1) == 5.
Proof. exact c170_side. Qed.
Print Assumptions C170_side_refuted.
