(** Fetch, rest and memory of the transport: properties C159 to C162. *)
From Verif Require Import Base Num Solver_Model Solver_Spec Linear Solver_Cases Spinup_Spec Spinup_Proofs Spinup_Runs Spinup_Fetch Spinup_Cases.
From Coq Require Import QArith List.
Import ListNotations.
Open Scope Q_scope.

(** C159. In a uniform wind to the land over cells of one size the concentration does not decrease downwind of the boundary, when the air was like that before and the capacity is. *)
Theorem C159_grows : forall sp k f d w o h u v B, well_posed sp k f d w -> no_side_wind_in_1d k f -> uniform_wind k f u v -> 0 < u -> equal_cells k f h -> solve_fraction sp k f d w = Ok (Some o) -> converged o = true ->
  enters k f d B -> (trunk k = true -> rising k B (lCt d)) -> rising k B (carries d (weight o)) -> rising k B (ct o).
Proof. exact fetch_grows. Qed.
Print Assumptions C159_grows.
Example C159_grows_case : well_posed (gauss 4) (k159 true 1) f31 (d159 some_air) ones /\ no_side_wind_in_1d (k159 true 1) f31 /\ uniform_wind (k159 true 1) f31 1 0 /\ equal_cells (k159 true 1) f31 1 /\ enters (k159 true 1) f31 (d159 some_air) 1 /\
  rising (k159 true 1) 1 some_air /\ exists o, by_gauss (k159 true 1) f31 (d159 some_air) ones = Ok (Some o) /\ converged o = true /\ rising (k159 true 1) 1 (carries (d159 some_air) (weight o)) /\ is_list 4 (ct o) [1; 13 # 3; 52 # 9; 0].
Proof. exact c159_case. Qed.

(** C159. In the steady state, what is missing to the capacity shrinks from cell to cell by the factor 1 + ds / (u T), for cells of any size and any wind along the coast. *)
Theorem C159_law : forall sp k f d w o u B C, trunk k = false -> well_posed sp k f d w -> no_side_wind_in_1d k f -> even_wind k f u -> solve_fraction sp k f d w = Ok (Some o) -> converged o = true ->
  enters k f d B -> (forall r c, inside k r c -> at_cell k (carries d (weight o)) r c == C) ->
  forall r c, (r <= ny k)%nat -> (S c < nx k)%nat -> at_cell k (ct o) r 0 == B /\ (C - at_cell k (ct o) r (S c)) * (1 + ds f r (S c) / (u * T k)) == C - at_cell k (ct o) r c.
Proof. exact fetch_steady. Qed.
Print Assumptions C159_law.
Example C159_law_case : well_posed (gauss 4) (k159 false 1) f31 (d159 zeros) ones /\ no_side_wind_in_1d (k159 false 1) f31 /\ even_wind (k159 false 1) f31 1 /\ equal_cells (k159 false 1) f31 1 /\ enters (k159 false 1) f31 (d159 zeros) 1 /\
  exists o, by_gauss (k159 false 1) f31 (d159 zeros) ones = Ok (Some o) /\ converged o = true /\ (forall r c, inside (k159 false 1) r c -> at_cell (k159 false 1) (carries (d159 zeros) (weight o)) r c == 10) /\ is_list 4 (ct o) [1; 11 # 2; 31 # 4; 0].
Proof. exact c159_steady_case. Qed.

(** C159. So after c cells of one size it is what was missing at the boundary over (1 + h / (u T)) to the power c. *)
Theorem C159_length : forall sp k f d w o u h B C, trunk k = false -> well_posed sp k f d w -> no_side_wind_in_1d k f -> even_wind k f u -> equal_cells k f h -> solve_fraction sp k f d w = Ok (Some o) -> converged o = true ->
  enters k f d B -> (forall r c, inside k r c -> at_cell k (carries d (weight o)) r c == C) ->
  forall r c, (r <= ny k)%nat -> (c < nx k)%nat -> (C - at_cell k (ct o) r c) * (1 + h / (u * T k)) ^ Z.of_nat c == C - B.
Proof. exact fetch_length. Qed.
Print Assumptions C159_length.
Example C159_length_case : well_posed (gauss 4) (k159 false 1) f31 (d159 zeros) ones /\ no_side_wind_in_1d (k159 false 1) f31 /\ even_wind (k159 false 1) f31 1 /\ equal_cells (k159 false 1) f31 1 /\ enters (k159 false 1) f31 (d159 zeros) 1 /\
  exists o, by_gauss (k159 false 1) f31 (d159 zeros) ones = Ok (Some o) /\ converged o = true /\ (forall r c, inside (k159 false 1) r c -> at_cell (k159 false 1) (carries (d159 zeros) (weight o)) r c == 10) /\ is_list 4 (ct o) [1; 11 # 2; 31 # 4; 0].
Proof. exact c159_steady_case. Qed.

(** C159. With more sand in every cell than the wind could take the weights are kept, so the hypotheses on capacity above are about the input. *)
Theorem C159_ample : forall sp k f d w, well_posed sp k f d w -> max_iter k <> 0%nat -> ample k d w ->
  exists o, solve_fraction sp k f d w = Ok (Some o) /\ converged o = true /\ forall i, (i < number_of_cells k)%nat -> weight o i == w i.
Proof. exact ample_kept. Qed.
Print Assumptions C159_ample.
Example C159_ample_case : well_posed (gauss 4) (k159 true 1) f31 (d159 some_air) ones /\ max_iter (k159 true 1) <> 0%nat /\ ample (k159 true 1) (d159 some_air) ones.
Proof. exact c159_ample_case. Qed.

(** C160. A time step from the steady state, implicit or not, gives the steady state: concentration, pickup and weights. *)
Theorem C160_rest : forall sp k f d d' w o, trunk k = true -> well_posed sp (steady k) f d w -> exact_solver (number_of_cells k) (matrix k f) sp -> max_iter k <> 0%nat -> no_side_wind_in_1d k f ->
  solve_fraction sp (steady k) f d w = Ok (Some o) -> converged o = true -> resting k d o d' -> exists o', solve_fraction sp k f d' (weight o) = Ok (Some o') /\ same_result (number_of_cells k) o o'.
Proof. exact rest_step. Qed.
Print Assumptions C160_rest.
Example C160_rest_case : trunk (k159 true (1 # 2)) = true /\ well_posed (gauss 4) (steady (k159 true (1 # 2))) f31 (d159 zeros) ones /\ exact_solver 4 (matrix (k159 true (1 # 2)) f31) (gauss 4) /\ max_iter (k159 true (1 # 2)) <> 0%nat /\ no_side_wind_in_1d (k159 true (1 # 2)) f31 /\
  exists o, by_gauss (steady (k159 true (1 # 2))) f31 (d159 zeros) ones = Ok (Some o) /\ converged o = true /\ resting (k159 true (1 # 2)) (d159 zeros) o d160 /\
  all_shown (k159 true (1 # 2)) (by_gauss (k159 true (1 # 2)) f31 d160 ones) = Some ([1; 11 # 2; 31 # 4; 0], [9; 9 # 2; 9 # 4; 10], [1; 1; 1; 1], true).
Proof. exact c160_case. Qed.

(** C160. An implicit time step that leaves the air as it was has reached the steady state. *)
Theorem C160_only : forall sp k f d w o, trunk k = true -> well_posed sp k f d w -> exact_solver (number_of_cells k) (matrix (steady k) f) sp -> offshore k <> Noflux ->
  solve_fraction sp k f d w = Ok (Some o) -> converged o = true -> (forall i, (i < number_of_cells k)%nat -> ct o i == lCt d i) ->
  exists o', solve_fraction sp (steady k) f d (weight o) = Ok (Some o') /\ same_result (number_of_cells k) o o'.
Proof. exact only_rest. Qed.
Print Assumptions C160_only.
Example C160_only_case : trunk (k159 true 1) = true /\ well_posed (gauss 4) (k159 true 1) f31 d160 ones /\ exact_solver 4 (matrix (steady (k159 true 1)) f31) (gauss 4) /\ offshore (k159 true 1) <> Noflux /\
  exists o, by_gauss (k159 true 1) f31 d160 ones = Ok (Some o) /\ converged o = true /\ forall i, (i < 4)%nat -> ct o i == lCt d160 i.
Proof. exact c160_only_case. Qed.

(** C161. In one implicit step the sand that two airs do not have in common shrinks by the factor 1 + dt / T or more. *)
Theorem C161_step : forall sp sp' k f d d' w w' o o', trunk k = true -> well_posed sp k f d w -> well_posed sp' k f d' w' -> solve_fraction sp k f d w = Ok (Some o) -> solve_fraction sp' k f d' w' = Ok (Some o') ->
  converged o = true -> converged o' = true -> (forall i, (i < number_of_cells k)%nat -> Cu0 d' i == Cu0 d i /\ carries d' (weight o') i == carries d (weight o) i) ->
  difference k f (ct o) (ct o') * (1 + dt k / T k) <= difference k f (lCt d) (lCt d').
Proof. exact forgets_step. Qed.
Print Assumptions C161_step.
Example C161_step_case : well_posed (gauss 4) (k159 true 1) f31 (d159 some_air) ones /\ well_posed (gauss 4) (k159 true 1) f31 (d159 dusty) ones /\ all_within 4 (lCt (d159 some_air)) (lCt (d159 dusty)) /\ all_within 4 (Cu0 (d159 some_air)) (Cu0 (d159 dusty)) /\
  exists o o', by_gauss (k159 true 1) f31 (d159 some_air) ones = Ok (Some o) /\ by_gauss (k159 true 1) f31 (d159 dusty) ones = Ok (Some o') /\ converged o = true /\ converged o' = true /\
    all_within 4 (carries (d159 some_air) (weight o)) (carries (d159 dusty) (weight o')) /\ (forall i, (i < 4)%nat -> Cu0 (d159 dusty) i == Cu0 (d159 some_air) i /\ carries (d159 dusty) (weight o') i == carries (d159 some_air) (weight o) i) /\ is_list 4 (ct o) [1; 13 # 3; 52 # 9; 0] /\ is_list 4 (ct o') [1; 31 # 3; 76 # 9; 0].
Proof. exact c162_case. Qed.

(** C161. Two runs through the same weather, however it changes, from any air: after n steps the difference is at most what it was over (1 + dt / T) to the power n. *)
Theorem C161_runs : forall sp sp' k f ts ts' n, trunk k = true -> (forall m, (m <= n)%nat -> solved sp k (ts m)) -> (forall m, (m <= n)%nat -> solved sp' k (ts' m)) -> follow k n ts -> follow k n ts' ->
  (forall m, (m <= n)%nat -> same_weather k (ts m) (ts' m)) -> (forall m, (m <= n)%nat -> same_grid k f (wind_of (ts m))) ->
  difference k f (ct (result_of (ts n))) (ct (result_of (ts' n))) * (1 + dt k / T k) ^ Z.of_nat (S n) <= difference k f (lCt (input_of (ts 0%nat))) (lCt (input_of (ts' 0%nat))).
Proof. exact forgets_runs. Qed.
Print Assumptions C161_runs.
Example C161_runs_case : trunk (k159 true 1) = true /\ (forall m, (m <= 3)%nat -> solved (gauss 4) (k159 true 1) (steps_from zeros m)) /\ (forall m, (m <= 3)%nat -> solved (gauss 4) (k159 true 1) (steps_from dusty m)) /\ follow (k159 true 1) 3 (steps_from zeros) /\ follow (k159 true 1) 3 (steps_from dusty) /\
  (forall m, (m <= 3)%nat -> same_weather (k159 true 1) (steps_from zeros m) (steps_from dusty m)) /\ (forall m, (m <= 3)%nat -> same_grid (k159 true 1) f31 (wind_of (steps_from zeros m))) /\
  difference (k159 true 1) f31 zeros dusty == 25 /\ difference (k159 true 1) f31 (ct (result_of (steps_from zeros 3))) (ct (result_of (steps_from dusty 3))) == 155 # 243.
Proof. exact c161_case. Qed.

(** C161. In a wind that does not change the air comes to the steady state, at this rate. *)
Theorem C161_steady : forall sp sp' k f d w o ts n, trunk k = true -> well_posed sp (steady k) f d w -> solve_fraction sp (steady k) f d w = Ok (Some o) -> converged o = true ->
  (forall m, (m <= n)%nat -> solved sp' k (ts m)) -> follow k n ts -> (forall m, (m <= n)%nat -> wind_of (ts m) = f) ->
  (forall m i, (m <= n)%nat -> (i < number_of_cells k)%nat -> Cu0 (input_of (ts m)) i == Cu0 d i /\ carries (input_of (ts m)) (weight (result_of (ts m))) i == carries d (weight o) i) ->
  difference k f (ct (result_of (ts n))) (ct o) * (1 + dt k / T k) ^ Z.of_nat (S n) <= difference k f (lCt (input_of (ts 0%nat))) (ct o).
Proof. exact to_steady. Qed.
Print Assumptions C161_steady.
Example C161_steady_case : well_posed (gauss 4) (steady (k159 true 1)) f31 (d159 zeros) ones /\ (forall m, (m <= 3)%nat -> solved (gauss 4) (k159 true 1) (steps_from zeros m)) /\ follow (k159 true 1) 3 (steps_from zeros) /\
  (forall m, (m <= 3)%nat -> wind_of (steps_from zeros m) = f31) /\ (forall i, (i < 4)%nat -> lCt (input_of (steps_from zeros 0)) i == 0) /\
  exists o, by_gauss (steady (k159 true 1)) f31 (d159 zeros) ones = Ok (Some o) /\ converged o = true /\ is_list 4 (ct o) [1; 11 # 2; 31 # 4; 0] /\
    (forall m i, (m <= 3)%nat -> (i < 4)%nat -> Cu0 (input_of (steps_from zeros m)) i == Cu0 (d159 zeros) i /\ carries (input_of (steps_from zeros m)) (weight (result_of (steps_from zeros m))) i == carries (d159 zeros) (weight o) i) /\
    show (k159 true 1) (ct (result_of (steps_from zeros 0))) = [1; 11 # 3; 41 # 9; 0] /\ show (k159 true 1) (ct (result_of (steps_from zeros 3))) = [1; 440 # 81; 1838 # 243; 0].
Proof. exact c161_steady_case. Qed.

(** C162. More sand in the air before a step, a larger capacity and more sand coming in over the boundary give more sand in the air, in every cell. *)
Theorem C162_order : forall sp sp' k f d d' w w' o o', well_posed sp k f d w -> well_posed sp' k f d' w' -> solve_fraction sp k f d w = Ok (Some o) -> solve_fraction sp' k f d' w' = Ok (Some o') ->
  converged o = true -> converged o' = true -> all_within (number_of_cells k) (lCt d) (lCt d') -> all_within (number_of_cells k) (Cu0 d) (Cu0 d') ->
  all_within (number_of_cells k) (carries d (weight o)) (carries d' (weight o')) -> all_within (number_of_cells k) (ct o) (ct o').
Proof. exact order_step. Qed.
Print Assumptions C162_order.
Example C162_order_case : well_posed (gauss 4) (k159 true 1) f31 (d159 some_air) ones /\ well_posed (gauss 4) (k159 true 1) f31 (d159 dusty) ones /\ all_within 4 (lCt (d159 some_air)) (lCt (d159 dusty)) /\ all_within 4 (Cu0 (d159 some_air)) (Cu0 (d159 dusty)) /\
  exists o o', by_gauss (k159 true 1) f31 (d159 some_air) ones = Ok (Some o) /\ by_gauss (k159 true 1) f31 (d159 dusty) ones = Ok (Some o') /\ converged o = true /\ converged o' = true /\
    all_within 4 (carries (d159 some_air) (weight o)) (carries (d159 dusty) (weight o')) /\ (forall i, (i < 4)%nat -> Cu0 (d159 dusty) i == Cu0 (d159 some_air) i /\ carries (d159 dusty) (weight o') i == carries (d159 some_air) (weight o) i) /\ is_list 4 (ct o) [1; 13 # 3; 52 # 9; 0] /\ is_list 4 (ct o') [1; 31 # 3; 76 # 9; 0].
Proof. exact c162_case. Qed.

(** C162. From air without sand the concentration in every cell grows from step to step and does not overshoot the steady state. *)
Theorem C162_builds_up : forall sp sp' k f d w o ts n, trunk k = true -> well_posed sp (steady k) f d w -> solve_fraction sp (steady k) f d w = Ok (Some o) -> converged o = true ->
  (forall m, (m <= n)%nat -> solved sp' k (ts m)) -> follow k n ts -> (forall m, (m <= n)%nat -> wind_of (ts m) = f) ->
  (forall m i, (m <= n)%nat -> (i < number_of_cells k)%nat -> Cu0 (input_of (ts m)) i == Cu0 d i /\ carries (input_of (ts m)) (weight (result_of (ts m))) i == carries d (weight o) i) ->
  (forall i, (i < number_of_cells k)%nat -> lCt (input_of (ts 0%nat)) i == 0) ->
  (forall m i, (m < n)%nat -> (i < number_of_cells k)%nat -> ct (result_of (ts m)) i <= ct (result_of (ts (S m))) i) /\ (forall m i, (m <= n)%nat -> (i < number_of_cells k)%nat -> ct (result_of (ts m)) i <= ct o i).
Proof. exact builds_up. Qed.
Print Assumptions C162_builds_up.
Example C162_builds_up_case : well_posed (gauss 4) (steady (k159 true 1)) f31 (d159 zeros) ones /\ (forall m, (m <= 3)%nat -> solved (gauss 4) (k159 true 1) (steps_from zeros m)) /\ follow (k159 true 1) 3 (steps_from zeros) /\
  (forall m, (m <= 3)%nat -> wind_of (steps_from zeros m) = f31) /\ (forall i, (i < 4)%nat -> lCt (input_of (steps_from zeros 0)) i == 0) /\
  exists o, by_gauss (steady (k159 true 1)) f31 (d159 zeros) ones = Ok (Some o) /\ converged o = true /\ is_list 4 (ct o) [1; 11 # 2; 31 # 4; 0] /\
    (forall m i, (m <= 3)%nat -> (i < 4)%nat -> Cu0 (input_of (steps_from zeros m)) i == Cu0 (d159 zeros) i /\ carries (input_of (steps_from zeros m)) (weight (result_of (steps_from zeros m))) i == carries (d159 zeros) (weight o) i) /\
    show (k159 true 1) (ct (result_of (steps_from zeros 0))) = [1; 11 # 3; 41 # 9; 0] /\ show (k159 true 1) (ct (result_of (steps_from zeros 3))) = [1; 440 # 81; 1838 # 243; 0].
Proof. exact c161_steady_case. Qed.
