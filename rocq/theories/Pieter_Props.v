(** Properties C106-C111 and C122: the solvers 'pieter' and 'steadystatepieter'. *)
From Verif Require Import Base Num Solver_Model Solver_Spec Linear Solver_Cases Pieter_Model Pieter_Spec Pieter_Cases Pieter_Raise Pieter_Fractions.
From Coq Require Import QArith List.
Import ListNotations.
Open Scope Q_scope.

(** C106. The linear system has exactly one solution. *)
Theorem C106_one : forall (k : pcfg) f, workable k -> rectangular k f -> known_ends k -> sideways_fine k f -> forall y,
  exists x, is_solution (number_of_cells k) (pmatrix k f) y x /\ forall z, is_solution (number_of_cells k) (pmatrix k f) y z -> forall i, (i < number_of_cells k)%nat -> z i == x i.
Proof. exact p_one. Qed.
Print Assumptions C106_one.

(** The result exists, nothing in it is negative and no weight is larger than at the start. *)
Theorem C106_nonnegative : forall sp (k : pcfg) f d w x, orderly k f d w x -> exact_solver (number_of_cells k) (pmatrix k f) sp ->
  exists o, pieter_fraction sp k f d w x = Ok (Some o) /\ forall i, (i < number_of_cells k)%nat -> 0 <= ct o i /\ 0 <= weight o i <= w i.
Proof. exact p_nonneg. Qed.
Print Assumptions C106_nonnegative.
Example C106_nonnegative_case : orderly kA fA dA ones ones /\ exact_solver (number_of_cells kA) (pmatrix kA fA) (gauss (number_of_cells kA)) /\ match run_p kA fA dA ones ones with
  | Ok (Some o) => converged o = true /\ map (fun q => Qred (ct o q)) [0; 3; 7]%nat = [35250372 # 23512801; 237 # 169; 204 # 169] /\ map (fun q => Qred (pickup o q)) [3; 4; 7]%nat = [101 # 169; -1681980 # 23512801; -9 # 169]
  | _ => False end.
Proof. exact caseA. Qed.

(** In a uniform wind the result is bounded by the previous, incoming and equilibrium concentrations. *)
Theorem C106_bounded : forall sp (k : pcfg) f d w x u v M, orderly k f d w x -> exact_solver (number_of_cells k) (pmatrix k f) sp -> uniform_wind k f u v -> open_ends k u v -> pbounded k d w x M ->
  exists o, pieter_fraction sp k f d w x = Ok (Some o) /\ forall i, (i < number_of_cells k)%nat -> 0 <= ct o i <= M.
Proof. exact p_bounded. Qed.
Print Assumptions C106_bounded.
Example C106_bounded_case : orderly kA fE dB ones ones /\ exact_solver (number_of_cells kA) (pmatrix kA fE) (gauss (number_of_cells kA)) /\ uniform_wind kA fE 1 (-(1)) /\ open_ends kA 1 (-(1)) /\ pbounded kA dB ones ones 2 /\
  match run_p kA fE dB ones ones with Ok (Some o) => map (fun q => Qred (ct o q)) [0; 1; 2; 3]%nat = [5 # 3; 14 # 9; 41 # 27; 3 # 2] | _ => False end.
Proof. exact case_bounded. Qed.

(** With any number of fractions and any non-negative weights, which need not sum to one: a result exists, nothing in it is negative and the weights of a cell are together at most 1. *)
Theorem C106_fractions : forall sp (k : pcfg) dist init fs, fs <> [] -> (forall j, (j < number_of_cells k)%nat -> length (init j) = length fs /\ Utils_Spec.all_nonneg (init j)) ->
  (forall f d x, In (f, d, x) fs -> orderly k f d (fun _ => 0) x /\ exact_solver (number_of_cells k) (pmatrix k f) sp) ->
  exists os w, solve_pieter sp k false dist init fs = Ok (All os w) /\ length os = length fs /\
    (forall o j, In o os -> (j < number_of_cells k)%nat -> 0 <= ct o j /\ 0 <= weight o j <= 1) /\
    forall j, (j < number_of_cells k)%nat -> length (w j) = length fs /\ Utils_Spec.all_nonneg (w j) /\ qsum (w j) <= 1.
Proof. exact p_fractions. Qed.
Print Assumptions C106_fractions.
Example C106_fractions_case : let fs := [(fE, dB, ones); (fE, dB, ones)] in let init := fun _ : nat => [3; 1] in
  fs <> [] /\ (forall j, (j < number_of_cells kA)%nat -> length (init j) = length fs /\ Utils_Spec.all_nonneg (init j)) /\
  (forall f d x, In (f, d, x) fs -> orderly kA f d (fun _ => 0) x /\ exact_solver (number_of_cells kA) (pmatrix kA f) (gauss (number_of_cells kA))) /\
  match solve_pieter (gauss (number_of_cells kA)) kA false [] init fs with Ok (All os w) => map Qred (w 0%nat) = [3 # 4; 1 # 4] | _ => False end.
Proof. exact case_fractions. Qed.

(** C107. One round of the iteration, with any implicitness: what a cell gains is what the bed gives, less what settles, and what the wind brings. *)
Theorem C107_cell : forall sp (k : pcfg) f d w x r c, workable k -> rectangular k f -> known_ends k -> sideways_fine k f -> exact_solver (number_of_cells k) (pmatrix k f) sp -> trunk k = true -> no_side_wind_in_1d k f ->
  within k r c -> free_column k c -> let z := improve sp k f d w x in
  area f r c * (at_cell k z r c - at_cell k (lCt d) r c) / dt k ==
  area f r c * (given k (alpha k) d w (as_grid k x) r c - weighted (alpha k) (as_grid k z) (as_grid k (lCt d)) r c / T k) + brought k f d (weighted (alpha k) (as_grid k z) (as_grid k (lCt d))) r c.
Proof. exact p_cell. Qed.
Print Assumptions C107_cell.
Example C107_cell_case : let k := kp true 2 3 (1 # 2) 1 Flux Gradient 0 in workable k /\ rectangular k fA /\ known_ends k /\ sideways_fine k fA /\ exact_solver (number_of_cells k) (pmatrix k fA) (gauss (number_of_cells k)) /\
  trunk k = true /\ no_side_wind_in_1d k fA /\ within k 1 0 /\ free_column k 0 /\ Qred (at_cell k (improve (gauss (number_of_cells k)) k fA dB ones zeros) 1 0) = 31 # 17.
Proof. exact case_cell. Qed.

(** With one row and oblique wind a part of the change of the guess is withheld. *)
Theorem C107_oblique : forall sp (k : pcfg) f d w x r c, workable k -> rectangular k f -> known_ends k -> sideways_fine k f -> exact_solver (number_of_cells k) (pmatrix k f) sp -> trunk k = true -> ny k = 0%nat ->
  within k r c -> free_column k c -> let z := improve sp k f d w x in
  area f r c * (at_cell k z r c - at_cell k (lCt d) r c) / dt k + ds f r c * (qabs (un f r c) * (alpha k * (at_cell k z r c - at_cell k x r c))) ==
  area f r c * (given k (alpha k) d w (as_grid k x) r c - weighted (alpha k) (as_grid k z) (as_grid k (lCt d)) r c / T k) + brought k f d (weighted (alpha k) (as_grid k z) (as_grid k (lCt d))) r c.
Proof. exact p_oblique. Qed.
Print Assumptions C107_oblique.
Example C107_oblique_case : workable kF /\ rectangular kF oblique_air /\ known_ends kF /\ sideways_fine kF oblique_air /\ exact_solver (number_of_cells kF) (pmatrix kF oblique_air) (gauss (number_of_cells kF)) /\ trunk kF = true /\ ny kF = 0%nat /\
  within kF 0 1 /\ free_column kF 1 /\ Qred (at_cell kF (improve (gauss (number_of_cells kF)) kF oblique_air dC ones zeros) 0 1) = 1 # 3.
Proof. exact case_oblique. Qed.

(** When the bed holds what the air can carry, the reported pickup explains the result in every cell, up to the tolerance. *)
Theorem C107_balance : forall sp (k : pcfg) f d w x o r c, orderly k f d w x -> exact_solver (number_of_cells k) (pmatrix k f) sp -> ample k d w -> no_side_wind_in_1d k f ->
  pieter_fraction sp k f d w x = Ok (Some o) -> within k r c -> free_column k c -> 0 <= astray k f d o r c <= max_error k * area f r c.
Proof. exact p_balance. Qed.
Print Assumptions C107_balance.
Example C107_balance_case : orderly kA fA dB ones ones /\ exact_solver (number_of_cells kA) (pmatrix kA fA) (gauss (number_of_cells kA)) /\ ample kA dB ones /\ no_side_wind_in_1d kA fA /\ match run_p kA fA dB ones ones with
  | Ok (Some o) => map (fun q => Qred (pickup o q)) [0; 1; 2; 3]%nat = [6 # 13; 134 # 195; 527 # 780; 1 # 2] /\ all_astray kA fA dB o == 0 /\
    over_rows kA (fun r => onwards kA fA (as_grid kA (ct o)) r 2%nat - onwards kA fA (as_grid kA (ct o)) r 0%nat) == 283 # 130
  | _ => False end.
Proof. exact caseB. Qed.

(** And between the ends of the grid. *)
Theorem C107_total : forall sp (k : pcfg) f d w x o, orderly k f d w x -> exact_solver (number_of_cells k) (pmatrix k f) sp -> ample k d w -> no_side_wind_in_1d k f ->
  pieter_fraction sp k f d w x = Ok (Some o) -> 0 <= all_astray k f d o <= max_error k * over_inside k (area f).
Proof. exact p_total. Qed.
Print Assumptions C107_total.

(** With less sand in the bed, more is taken from the bed than gets into the air. *)
Theorem C107_short_supply_refuted : exists sp k f d w x, orderly k f d w x /\ no_side_wind k f /\ unbalanced sp k f d w x.
Proof. exact p_short. Qed.
Print Assumptions C107_short_supply_refuted.

(** With the Crank-Nicolson scheme. *)
Theorem C107_crank_nicolson_refuted : exists sp k f d w x, plain k f d w x /\ trunk k = true /\ alpha k == 1 # 2 /\ ample k d w /\ no_side_wind k f /\ unbalanced sp k f d w x.
Proof. exact p_half. Qed.
Print Assumptions C107_crank_nicolson_refuted.

(** With one row and oblique wind. *)
Theorem C107_oblique_refuted : exists sp k f d w x u v, orderly k f d w x /\ trunk k = true /\ ny k = 0%nat /\ ample k d w /\ uniform_wind k f u v /\ unbalanced sp k f d w x.
Proof. exact p_one_row. Qed.
Print Assumptions C107_oblique_refuted.

(** In the steady state with connected borders and wind along the coast. *)
Theorem C107_steady_side_wind_refuted : exists sp k f d w x u v, plain k f d w x /\ trunk k = false /\ ny k = 2%nat /\ ample k d w /\ uniform_wind k f u v /\ unbalanced sp k f d w x.
Proof. exact p_steady_side. Qed.
Print Assumptions C107_steady_side_wind_refuted.

(** With wind along the coast towards lower rows that differs between the rows. *)
Theorem C107_uneven_side_wind_refuted : exists sp k f d w x, plain k f d w x /\ trunk k = true /\ fully_implicit k /\ ny k = 2%nat /\ ample k d w /\ unbalanced sp k f d w x.
Proof. exact p_uneven. Qed.
Print Assumptions C107_uneven_side_wind_refuted.

(** C108. Saturated air stays as it is. *)
Theorem C108_stays : forall sp (k : pcfg) f d w x u v C, workable k -> rectangular k f -> known_ends k -> uniform_wind k f u v -> exact_solver (number_of_cells k) (pmatrix k f) sp ->
  psaturated k d w x C -> open_ends k u v -> trunk k = true \/ v == 0 -> 0 <= C -> 0 <= max_error k -> max_iter k <> 0%nat ->
  exists o, pieter_fraction sp k f d w x = Ok (Some o) /\ converged o = true /\ forall i, (i < number_of_cells k)%nat -> ct o i == C /\ pickup o i == 0 /\ weight o i = w i.
Proof. exact p_settled. Qed.
Print Assumptions C108_stays.
Example C108_stays_case : workable kA /\ rectangular kA fE /\ known_ends kA /\ uniform_wind kA fE 1 (-(1)) /\ exact_solver (number_of_cells kA) (pmatrix kA fE) (gauss (number_of_cells kA)) /\
  psaturated kA (case_d (fun _ => 2) (fun _ => 2) ones (fun _ => 2)) ones (fun _ => 2) 2 /\ open_ends kA 1 (-(1)) /\
  shown kA (run_p kA fE (case_d (fun _ => 2) (fun _ => 2) ones (fun _ => 2)) ones (fun _ => 2)) = Some (repeat 2 12, repeat 0 12, true).
Proof. exact case_settled. Qed.

(** At an onshore 'flux' boundary sand comes in whichever way the wind blows, and none leaves. *)
Theorem C108_onshore_flux_refuted : exists sp k f d w x u C, orderly k f d w x /\ exact_solver (number_of_cells k) (pmatrix k f) sp /\ uniform_wind k f u 0 /\ 0 < u /\ psaturated k d w x C /\ onshore k = Flux /\
  (forall r, (r <= ny k)%nat -> onshore_flux k * at_cell k (Cu0 d) r (nx k) == C) /\ exists o, pieter_fraction sp k f d w x = Ok (Some o) /\ at_cell k (ct o) 0 (nx k) == 2 * C /\ 0 < C.
Proof. exact p_closed. Qed.
Print Assumptions C108_onshore_flux_refuted.

(** Steady state, connected borders, wind along the coast. *)
Theorem C108_steady_side_wind_refuted : exists sp k f d w x u v C, plain k f d w x /\ trunk k = false /\ ny k = 2%nat /\ exact_solver (number_of_cells k) (pmatrix k f) sp /\ uniform_wind k f u v /\ psaturated k d w x C /\ open_ends k u v /\
  exists o i, pieter_fraction sp k f d w x = Ok (Some o) /\ (i < number_of_cells k)%nat /\ ~ ct o i == C.
Proof. exact p_steady_unsaturated. Qed.
Print Assumptions C108_steady_side_wind_refuted.

(** Steady state, one row: the concentration grows in every time step by at least a fixed part of the capacity. *)
Theorem C108_oblique_steady_grows : forall sp (k : pcfg) f d w x u v n C c, oblique k f d w x u v n C c -> exact_solver (number_of_cells k) (pmatrix k f) sp ->
  exists o, pieter_fraction sp k f d w x = Ok (Some o) /\ converged o = true /\ forall i, (i < number_of_cells k)%nat -> c + n * C / (n + v * T k) <= ct o i /\ weight o i = w i.
Proof. exact p_grows. Qed.
Print Assumptions C108_oblique_steady_grows.
Example C108_oblique_steady_grows_case : oblique kS oblique_air (case_d ones ones tens zeros) ones (fun _ => 3) 1 1 1 1 3 /\ exact_solver (number_of_cells kS) (pmatrix kS oblique_air) (gauss (number_of_cells kS)) /\
  shown kS (run_p kS oblique_air (case_d ones ones tens zeros) ones (fun _ => 3)) = Some ([7 # 2; 7 # 2; 7 # 2], [-5 # 2; -5 # 2; -5 # 2], true).
Proof. exact case_grows. Qed.

(** C109. Without wind along the coast a 'constant' end keeps the concentration that it has, whatever flux is configured. *)
Theorem C109_kept : forall sp (k : pcfg) f d w x, orderly k f d w x -> exact_solver (number_of_cells k) (pmatrix k f) sp -> no_side_wind k f -> trunk k = true ->
  exists o, pieter_fraction sp k f d w x = Ok (Some o) /\ forall r c, within k r c -> c = 0%nat /\ offshore k = Constant \/ c = nx k /\ onshore k = Constant -> at_cell k (ct o) r c == at_cell k x r c.
Proof. exact p_kept. Qed.
Print Assumptions C109_kept.
Example C109_kept_case : orderly (kC true) onshore_air dC ones ones /\ exact_solver (number_of_cells (kC true)) (pmatrix (kC true) onshore_air) (gauss (number_of_cells (kC true))) /\ no_side_wind (kC true) onshore_air /\
  offshore (kC true) = Constant /\ constant_offshore_flux (kC true) = 5 /\ shown (kC true) (run_p (kC true) onshore_air dC ones ones) = Some ([1; 2 # 3; 1 # 2], [0; 1 # 3; 1 # 2], true).
Proof. exact case_kept. Qed.

(** In the steady state the configured number is added to the concentration in every round. *)
Theorem C109_added : forall sp (k : pcfg) f d w x, orderly k f d w x -> exact_solver (number_of_cells k) (pmatrix k f) sp -> no_side_wind k f -> trunk k = false ->
  exists o n, pieter_fraction sp k f d w x = Ok (Some o) /\ (1 <= n)%nat /\ forall r, (r <= ny k)%nat ->
    (offshore k = Constant -> at_cell k (ct o) r 0 == at_cell k x r 0 + inject_Z (Z.of_nat n) * constant_offshore_flux k) /\
    (onshore k = Constant -> at_cell k (ct o) r (nx k) == at_cell k x r (nx k) + inject_Z (Z.of_nat n) * constant_onshore_flux k).
Proof. exact p_added. Qed.
Print Assumptions C109_added.
Example C109_added_case : orderly (kC false) onshore_air dC ones ones /\ exact_solver (number_of_cells (kC false)) (pmatrix (kC false) onshore_air) (gauss (number_of_cells (kC false))) /\ no_side_wind (kC false) onshore_air /\
  offshore (kC false) = Constant /\ constant_offshore_flux (kC false) = 5 /\ shown (kC false) (run_p (kC false) onshore_air dC ones ones) = Some ([6; 7 # 2; 1], [-5; -5 # 2; 0], true).
Proof. exact case_added. Qed.

(** A configured flux of 5 does not enter. *)
Theorem C109_flux_refuted : exists sp k f d w x, orderly k f d w x /\ exact_solver (number_of_cells k) (pmatrix k f) sp /\ no_side_wind k f /\ trunk k = true /\ offshore k = Constant /\ us f 0%nat 0%nat == 1 /\ constant_offshore_flux k == 5 /\
  exists o, pieter_fraction sp k f d w x = Ok (Some o) /\ at_cell k (ct o) 0 0 == 0.
Proof. exact p_nothing_enters. Qed.
Print Assumptions C109_flux_refuted.

(** With wind along the coast the 'constant' concentration changes. *)
Theorem C109_drifts_refuted : exists sp k f d w x u v, orderly k f d w x /\ exact_solver (number_of_cells k) (pmatrix k f) sp /\ uniform_wind k f u v /\ trunk k = true /\ offshore k = Constant /\
  exists o, pieter_fraction sp k f d w x = Ok (Some o) /\ at_cell k x 0 0 == 1 /\ at_cell k (ct o) 0 0 == 5 # 2.
Proof. exact p_drifts. Qed.
Print Assumptions C109_drifts_refuted.

(** C110. When the iteration converges the pickup exceeds the sand in the bed by at most the tolerance. *)
Theorem C110_supply : forall sp (k : pcfg) f d w x o, orderly k f d w x -> exact_solver (number_of_cells k) (pmatrix k f) sp -> pieter_fraction sp k f d w x = Ok (Some o) -> converged o = true ->
  forall i, (i < number_of_cells k)%nat -> pickup o i <= mass d i + max_error k.
Proof. exact p_supply. Qed.
Print Assumptions C110_supply.
Example C110_supply_case : orderly kF onshore_air dS ones zeros /\ exact_solver (number_of_cells kF) (pmatrix kF onshore_air) (gauss (number_of_cells kF)) /\ shown kF (run_p kF onshore_air dS ones zeros) = Some ([3 # 8; 29 # 120; 3 # 8], [3 # 8; 13 # 120; 3 # 8], true).
Proof. exact case_supply. Qed.

(** By less than the tolerance it does. *)
Theorem C110_overdrawn_refuted : exists sp k f d w x, orderly k f d w x /\ exact_solver (number_of_cells k) (pmatrix k f) sp /\ no_side_wind k f /\
  exists o i, pieter_fraction sp k f d w x = Ok (Some o) /\ converged o = true /\ (i < number_of_cells k)%nat /\ mass d i < pickup o i.
Proof. exact p_overdrawn. Qed.
Print Assumptions C110_overdrawn_refuted.

(** C111. Where there is sand and the wind can carry it, there is sand in the air after the time step. *)
Theorem C111_moving : forall sp (k : pcfg) f d w x r c, orderly k f d w x -> exact_solver (number_of_cells k) (pmatrix k f) sp -> within k r c -> free_column k c ->
  0 < at_cell k w r c * at_cell k (Cu d) r c -> 0 < at_cell k (mass d) r c -> exists o, pieter_fraction sp k f d w x = Ok (Some o) /\ 0 < at_cell k (ct o) r c.
Proof. exact p_moving. Qed.
Print Assumptions C111_moving.
Example C111_moving_case : within kA 1 1 /\ free_column kA 1 /\ 0 < at_cell kA ones 1 1 * at_cell kA (Cu dB) 1 1 /\ 0 < at_cell kA (mass dB) 1 1.
Proof. exact case_moving. Qed.

(** Except in the first time step. *)
Theorem C111_first_step_refuted : exists sp k f d w x, orderly k f d w x /\ exact_solver (number_of_cells k) (pmatrix k f) sp /\ (forall i, (i < number_of_cells k)%nat -> 0 < w i * Cu d i /\ 0 < mass d i) /\
  solve_pieter sp k true [1] (fun _ => [0]) [(f, d, x)] = Ok (Weights (fun _ => [1])) /\
  exists o w', solve_pieter sp k false [1] (fun _ => [1]) [(f, d, x)] = Ok (All [o] w') /\ forall i, (i < number_of_cells k)%nat -> 0 < ct o i /\ 0 < pickup o i.
Proof. exact p_first. Qed.
Print Assumptions C111_first_step_refuted.

(** C122. Which set-ups run. *)
Theorem C122_runs : forall sp (k : pcfg) t0 dist init fs, known_end (offshore k) -> known_end (onshore k) -> known_side (lateral k) -> enough_cells k -> max_iter k <> 0%nat ->
  exists c, solve_pieter sp k t0 dist init fs = Ok c.
Proof. exact p_runs. Qed.
Print Assumptions C122_runs.
Example C122_runs_case : let k := kp true 2 3 1 10 Constant Gradient 0 in known_end (offshore k) /\ known_end (onshore k) /\ known_side (lateral k) /\ enough_cells k /\ max_iter k <> 0%nat.
Proof. exact case_runs. Qed.

(** A grid of two rows is refused, whatever the fractions and the rest of the configuration. *)
Theorem C122_two_rows_raises : forall sp (k : pcfg) dist init f d x fs, known_end (offshore k) -> known_end (onshore k) -> known_side (lateral k) -> ny k = 1%nat ->
  solve_pieter sp k false dist init ((f, d, x) :: fs) = Raise ValueError.
Proof. exact p_two_rows. Qed.
Print Assumptions C122_two_rows_raises.
Example C122_two_rows_raises_case : let k := kp true 1 3 1 10 Constant Gradient 0 in known_end (offshore k) /\ known_end (onshore k) /\ known_side (lateral k) /\ ny k = 1%nat.
Proof. exact case_two_rows. Qed.

(** So is the documented boundary 'uniform'. *)
Theorem C122_uniform_raises : forall sp (k : pcfg) dist init f d x fs, offshore k = Uniform \/ known_end (offshore k) /\ onshore k = Uniform ->
  solve_pieter sp k false dist init ((f, d, x) :: fs) = Raise ValueError.
Proof. exact p_uniform_end. Qed.
Print Assumptions C122_uniform_raises.
Example C122_uniform_raises_case : let k := kp true 2 3 1 10 Constant Uniform 0 in known_end (offshore k) /\ onshore k = Uniform.
Proof. exact case_uniform_end. Qed.

(** Circular ends are not implemented. *)
Theorem C122_circular_raises : forall sp (k : pcfg) dist init f d x fs, offshore k = Circular \/ known_end (offshore k) /\ onshore k = Circular ->
  solve_pieter sp k false dist init ((f, d, x) :: fs) = Raise NotImplementedError.
Proof. exact p_circular_end. Qed.
Print Assumptions C122_circular_raises.
Example C122_circular_raises_case : let k := kp false 0 3 1 10 Circular Gradient 0 in offshore k = Circular.
Proof. exact case_circular_end. Qed.

(** Without a round of iteration the variables that are used afterwards do not exist. *)
Theorem C122_no_rounds_raises : forall sp (k : pcfg) dist init f d x fs, known_end (offshore k) -> known_end (onshore k) -> known_side (lateral k) -> enough_cells k -> max_iter k = 0%nat ->
  solve_pieter sp k false dist init ((f, d, x) :: fs) = Raise NameError.
Proof. exact p_no_rounds. Qed.
Print Assumptions C122_no_rounds_raises.
Example C122_no_rounds_raises_case : let k := kp true 2 3 1 0 Constant Gradient 0 in known_end (offshore k) /\ known_end (onshore k) /\ known_side (lateral k) /\ enough_cells k /\ max_iter k = 0%nat.
Proof. exact case_no_rounds. Qed.
