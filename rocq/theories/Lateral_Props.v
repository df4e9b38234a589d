(** The solvers pieter and steadystatepieter between lateral borders that are not connected: properties C198-C200. *)
From Verif Require Import Base Num Solver_Model Solver_Spec Linear Solver_Cases Pieter_Model Pieter_Spec Pieter_Cases Lateral_Spec Lateral_Cases Lateral_Proofs Lateral_Rows Lateral_Kept.
From Coq Require Import QArith List.
Import ListNotations.
Open Scope Q_scope.

(** C198. Saturated air stays as it is, for each of the other lateral boundary conditions and in the steady state too. *)
Theorem C198_stays : forall sp (k : pcfg) f d w x u v C, workable k -> rectangular k f -> known_borders k -> uniform_wind k f u v -> solvable sp (number_of_cells k) (pmatrix k f) ->
  psaturated k d w x C -> open_ends k u v -> carried_in k d C -> 0 <= C -> 0 <= max_error k -> max_iter k <> 0%nat ->
  exists o, pieter_fraction sp k f d w x = Ok (Some o) /\ converged o = true /\ forall i, (i < number_of_cells k)%nat -> ct o i == C /\ pickup o i == 0 /\ weight o i = w i.
Proof. exact lateral_settled. Qed.
Print Assumptions C198_stays.
Example C198_stays_case : forall tr b, b = Flux \/ b = Constant \/ b = Gradient -> workable (kL tr b) /\ rectangular (kL tr b) fE /\ known_borders (kL tr b) /\ uniform_wind (kL tr b) fE 1 (-(1)) /\ solvable (gauss 9) (number_of_cells (kL tr b)) (pmatrix (kL tr b) fE) /\
  psaturated (kL tr b) full_air ones (fun _ => 2) 2 /\ open_ends (kL tr b) 1 (-(1)) /\ carried_in (kL tr b) full_air 2 /\
  shown (kL tr b) (run_p (kL tr b) fE full_air ones (fun _ => 2)) = Some (repeat 2 9, repeat 0 9, true).
Proof. exact case_borders. Qed.

(** C199 with wind towards the higher rows or straight onshore: the concentrations along the borders are kept, up to the common factor with which the solver makes up for negative concentrations elsewhere.  Full statement: for every wind, without the factor; false, see C199_border_refuted. *)
Theorem C199_border_partial : forall sp (k : pcfg) f d w x o, workable k -> lateral k = Constant -> (forall r c, within k r c -> 0 <= un f r c) -> solvable sp (number_of_cells k) (pmatrix k f) -> all_nonneg (number_of_cells k) x ->
  pieter_fraction sp k f d w x = Ok (Some o) -> exists s, forall r c, border k r -> (c <= nx k)%nat -> at_cell k (ct o) r c == s * at_cell k x r c.
Proof. exact border_kept. Qed.
Print Assumptions C199_border_partial.
Example C199_border_partial_case : workable (kL true Constant) /\ lateral (kL true Constant) = Constant /\ (forall r c, within (kL true Constant) r c -> 0 <= un fH r c) /\ solvable (gauss 9) 9 (pmatrix (kL true Constant) fH) /\ all_nonneg 9 ones /\
  shown (kL true Constant) (run_p (kL true Constant) fH half_air ones ones) = Some ([1; 1; 1; 3 # 2; 11 # 8; 4 # 3; 1; 1; 1], [1; 1; 1; 1 # 2; 5 # 8; 2 # 3; 1; 1; 1], true).
Proof. exact case_border. Qed.

(** C199 is false: with wind towards the lower rows the concentration along the first border rises from 1 to 3/2. *)
Theorem C199_border_refuted : exists sp k f d w x o, workable k /\ rectangular k f /\ known_borders k /\ uniform_wind k f 1 (-(1)) /\ solvable sp (number_of_cells k) (pmatrix k f) /\ nonnegative_input k d /\
  lateral k = Constant /\ (forall i, (i < number_of_cells k)%nat -> x i == lCt d i /\ 0 <= w i) /\ pieter_fraction sp k f d w x = Ok (Some o) /\ converged o = true /\
  at_cell k (lCt d) 0 0 == 1 /\ at_cell k (ct o) 0 0 == 3 # 2.
Proof. exact border_changes. Qed.
Print Assumptions C199_border_refuted.

(** C200 with wind towards the higher rows or straight onshore: rows that are alike stay alike.  Full statement: for every wind; false, see C200_rows_refuted. *)
Theorem C200_rows_partial : forall sp (k : pcfg) f d w x u v o, workable k -> rectangular k f -> known_borders k -> uniform_wind k f u v -> solvable sp (number_of_cells k) (pmatrix k f) -> lateral k = Gradient ->
  same_rows k d w x -> 0 <= v -> (offshore k = Constant \/ onshore k = Constant -> v == 0) -> pieter_fraction sp k f d w x = Ok (Some o) ->
  forall r c, (r <= ny k)%nat -> (c <= nx k)%nat -> at_cell k (ct o) r c == at_cell k (ct o) 0 c /\ at_cell k (pickup o) r c == at_cell k (pickup o) 0 c /\ at_cell k (weight o) r c == at_cell k (weight o) 0 c.
Proof. exact rows_alike. Qed.
Print Assumptions C200_rows_partial.
Example C200_rows_partial_case : workable (kL true Gradient) /\ rectangular (kL true Gradient) fH /\ known_borders (kL true Gradient) /\ uniform_wind (kL true Gradient) fH 1 1 /\ solvable (gauss 9) 9 (pmatrix (kL true Gradient) fH) /\ same_rows (kL true Gradient) half_air ones ones /\
  offshore (kL true Gradient) = Flux /\ onshore (kL true Gradient) = Gradient /\
  shown (kL true Gradient) (run_p (kL true Gradient) fH half_air ones ones) = Some ([5 # 3; 14 # 9; 3 # 2; 5 # 3; 14 # 9; 3 # 2; 5 # 3; 14 # 9; 3 # 2], [1 # 3; 4 # 9; 1 # 2; 1 # 3; 4 # 9; 1 # 2; 1 # 3; 4 # 9; 1 # 2], true).
Proof. exact case_alike. Qed.

(** C200 is false: with wind towards the lower rows three equal rows end with three different concentrations. *)
Theorem C200_rows_refuted : exists sp k f d w x o, workable k /\ rectangular k f /\ known_borders k /\ uniform_wind k f 1 (-(1)) /\ solvable sp (number_of_cells k) (pmatrix k f) /\ nonnegative_input k d /\ lateral k = Gradient /\
  same_rows k d w x /\ pieter_fraction sp k f d w x = Ok (Some o) /\ converged o = true /\ at_cell k (ct o) 0 0 == 11 # 6 /\ at_cell k (ct o) 1 0 == 3 # 2 /\ at_cell k (ct o) 2 0 == 5 # 3.
Proof. exact rows_differ. Qed.
Print Assumptions C200_rows_refuted.

(** C200, in the steady state: where nothing exceeds 2, neither what enters nor what the wind can carry, the air ends with 5/2. *)
Theorem C200_excess_refuted : exists sp k f d w x o, workable k /\ rectangular k f /\ known_borders k /\ uniform_wind k f 1 (-(1)) /\ solvable sp (number_of_cells k) (pmatrix k f) /\ nonnegative_input k d /\ lateral k = Gradient /\ trunk k = false /\
  same_rows k d w x /\ pbounded k d w x 2 /\ pieter_fraction sp k f d w x = Ok (Some o) /\ converged o = true /\ at_cell k (ct o) 0 2 == 5 # 2.
Proof. exact too_much. Qed.
Print Assumptions C200_excess_refuted.
