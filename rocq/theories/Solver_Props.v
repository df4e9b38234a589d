(** Property theorems about the solvers: C31-C33, C63-C65, C100. *)
From Coq Require Import QArith List.
From Verif Require Import Base Num Utils_Model Solver_Model Solver_Spec Linear Solver_Proofs Solver_Iter Solver_Balance Solver_Cases.
Import ListNotations.
Open Scope Q_scope.

(** C31. Whatever the linear solver returns: for every fraction whose iteration converged the pickup is at most the mass in the top layer. Where sand
    is carried it is also what the relaxation asks for, less at most the tolerance. *)
Theorem C31_within_supply : forall sp k t0 bedcomp dist init fs os w', solve sp k t0 bedcomp dist init fs = Ok (Some (os, w')) ->
  Forall2 (fun o fd => converged o = true -> all_within (number_of_cells k) (pickup o) (mass (snd fd)) /\
    forall i, (i < number_of_cells k)%nat -> let asked := (weight o i * Cu (snd fd) i - ct o i) / T k * dt k in
      pickup o i <= asked /\ (0 < weight o i * Cu (snd fd) i -> 0 <= max_error k -> asked - max_error k <= pickup o i)) os fs.
Proof. exact supply_all. Qed.
Print Assumptions C31_within_supply.
Example C31_within_supply_ex : shown_all (k31 12) (solve (gauss 5) (k31 12) true false [1 # 2; 1 # 2] (fun _ => []) [(f31, d31); (f31, case_d ones ones ones ones)]) =
  Some [([1; 1; 0; 1; 1], true); ([9 # 10; 4592 # 19683; 2429 # 21870; -111601 # 1771470; 9 # 10], true)].
Proof. exact c31_all_case. Qed.
(** The iteration converges when it is allowed enough rounds. *)
Theorem C31_converges : forall sp k f d w, sensible k -> rectangular k f -> lateral_uniform k f -> gathering k f -> quiet_ends k f -> fully_implicit k ->
  nonnegative_input k d -> nonnegative_ends k f -> 0 < max_error k -> exact_solver (number_of_cells k) (matrix k f) sp -> all_nonneg (number_of_cells k) w ->
  exists n0, forall n, (n0 <= n)%nat -> exists o, solve_fraction sp (with_iterations k n) f d w = Ok (Some o) /\ converged o = true /\ all_within (number_of_cells k) (pickup o) (mass d).
Proof. exact converges. Qed.
Print Assumptions C31_converges.
Example C31_converges_ex : forall n, well_posed (gauss (number_of_cells (k31 n))) (k31 n) f31 d31 ones.
Proof. exact c31_holds. Qed.
Example C31_converges_case : shown (k31 12) (by_gauss (k31 12) f31 d31 ones) = Some ([0; 9850 # 19683; 44356 # 177147; 332504 # 531441; 0], [1; 1; 0; 1; 1], true).
Proof. exact c31_case. Qed.
(** Without convergence the pickup exceeds the supply. *)
Theorem C31_unconverged_refuted : exists sp k f d w o i, well_posed sp k f d w /\ solve_fraction sp k f d w = Ok (Some o) /\ (i < number_of_cells k)%nat /\ mass d i < pickup o i.
Proof. exact c31_refuted. Qed.
Print Assumptions C31_unconverged_refuted.

(** C32. One solution, non-negative. *)
Theorem C32_one_nonnegative : forall k f, sensible k -> rectangular k f -> lateral_uniform k f -> gathering k f -> quiet_ends k f -> forall y,
  exists x, is_solution (number_of_cells k) (matrix k f) y x /\ (forall z, is_solution (number_of_cells k) (matrix k f) y z -> forall i, (i < number_of_cells k)%nat -> z i == x i) /\
    (all_nonneg (number_of_cells k) y -> all_nonneg (number_of_cells k) x).
Proof. exact one_nonneg. Qed.
Print Assumptions C32_one_nonnegative.
(** With any onshore condition, non-negative up to the last column. *)
Theorem C32_one_any_onshore : forall k f, sensible k -> rectangular k f -> lateral_uniform k f -> gathering k f -> prescribed_offshore k -> (forall r, (r <= ny k)%nat -> 0 <= us f r (nx k - 1)%nat) -> forall y,
  exists x, is_solution (number_of_cells k) (matrix k f) y x /\ (forall z, is_solution (number_of_cells k) (matrix k f) y z -> forall i, (i < number_of_cells k)%nat -> z i == x i) /\
    ((forall r c, (r <= ny k)%nat -> (c < nx k)%nat -> 0 <= at_cell k y r c) -> forall r c, (r <= ny k)%nat -> (c < nx k)%nat -> 0 <= at_cell k x r c).
Proof. exact one_inner_nonneg. Qed.
Print Assumptions C32_one_any_onshore.
(** What the solver returns is that solution, for weights that the limited supply reduced. *)
Theorem C32_result_is_solution : forall sp k f d w, sensible k -> rectangular k f -> lateral_uniform k f -> gathering k f -> quiet_ends k f -> fully_implicit k ->
  nonnegative_input k d -> nonnegative_ends k f -> 0 < max_error k -> exact_solver (number_of_cells k) (matrix k f) sp -> all_nonneg (number_of_cells k) w ->
  forall o, solve_fraction sp k f d w = Ok (Some o) -> converged o = true ->
  all_nonneg (number_of_cells k) (ct o) /\ (forall i, (i < number_of_cells k)%nat -> 0 <= weight o i <= w i) /\
  is_solution (number_of_cells k) (matrix k f) (rhs k f d (weight o)) (ct o).
Proof. exact solution_exact. Qed.
Print Assumptions C32_result_is_solution.
(** In a uniform wind the result is bounded by the previous, prescribed and equilibrium concentrations. *)
Theorem C32_bounded : forall sp k f d w M u v, sensible k -> rectangular k f -> uniform_wind k f u v -> prescribed_ends k -> fully_implicit k ->
  nonnegative_input k d -> nonnegative_ends k f -> 0 < max_error k -> exact_solver (number_of_cells k) (matrix k f) sp -> all_nonneg (number_of_cells k) w -> bounded_by k f d w M ->
  forall o, solve_fraction sp k f d w = Ok (Some o) -> converged o = true -> forall i, (i < number_of_cells k)%nat -> 0 <= ct o i <= M.
Proof. exact solver_bounded. Qed.
Print Assumptions C32_bounded.
Example C32_ex : well_posed (gauss (number_of_cells k32)) k32 f32 d32b ones /\ uniform_wind k32 f32 1 (-(1)) /\ prescribed_ends k32 /\ bounded_by k32 f32 d32b ones 10 /\
  shown k32 (by_gauss k32 f32 d32b ones) =
    Some ([10; 13123 # 2187; 2902520037370 # 794280046581; 0; 10; 13123 # 2187; 3146913857830 # 794280046581; 0; 10; 13123 # 2187; 3085815657460 # 794280046581; 0],
          [0; 1; 0; 1; 0; 1; 1; 1; 0; 1; 1; 1], true).
Proof. exact c32_case. Qed.
(** Where the wind blows apart the concentration becomes negative. *)
Theorem C32_diverging_wind_refuted : exists k f d w x i, sensible k /\ rectangular k f /\ lateral_uniform k f /\ prescribed_ends k /\ fully_implicit k /\ nonnegative_input k d /\ nonnegative_ends k f /\
  all_nonneg (number_of_cells k) w /\ is_solution (number_of_cells k) (matrix k f) (rhs k f d w) x /\ (i < number_of_cells k)%nat /\ x i < 0.
Proof. exact c32_apart. Qed.
Print Assumptions C32_diverging_wind_refuted.
(** The default onshore condition 'gradient' makes the last concentration negative. *)
Theorem C32_gradient_end_refuted : exists k f d w x i, sensible k /\ rectangular k f /\ lateral_uniform k f /\ gathering k f /\ prescribed_offshore k /\ onshore k = Gradient /\ onshore_wind k f /\ fully_implicit k /\
  nonnegative_input k d /\ nonnegative_ends k f /\ all_nonneg (number_of_cells k) w /\ is_solution (number_of_cells k) (matrix k f) (rhs k f d w) x /\ (i < number_of_cells k)%nat /\ x i < 0.
Proof. exact c32_gradient. Qed.
Print Assumptions C32_gradient_end_refuted.
(** Where the wind dies out the concentration exceeds the bound. *)
Theorem C32_dying_wind_refuted : exists k f d w M x i, sensible k /\ rectangular k f /\ lateral_uniform k f /\ gathering k f /\ onshore_wind k f /\ prescribed_ends k /\ fully_implicit k /\
  nonnegative_input k d /\ nonnegative_ends k f /\ all_nonneg (number_of_cells k) w /\ bounded_by k f d w M /\ is_solution (number_of_cells k) (matrix k f) (rhs k f d w) x /\ (i < number_of_cells k)%nat /\ M < x i.
Proof. exact c32_unbounded. Qed.
Print Assumptions C32_dying_wind_refuted.

(** C33. With some positive concentration the total changes by at most the tolerance per cell, and nothing negative remains unless the total is negative. *)
Theorem C33_total : forall k x, 0 <= max_error k -> (exists i, (i < number_of_cells k)%nat /\ 0 < x i) -> exists z, tidy k x = Some z /\
  (let total v := qsum (map v (seq 0 (number_of_cells k))) in
   total x <= total z <= total x + inject_Z (Z.of_nat (number_of_cells k)) * max_error k /\ (0 <= total x -> all_nonneg (number_of_cells k) z)).
Proof. exact removal. Qed.
Print Assumptions C33_total.
Example C33_total_ex : (0 < vec [3; -(1); 1; 0] 0)%Q /\ tidied (k33 true) (vec [3; -(1); 1; 0]) = Some [9 # 4; 0; 3 # 4; 0] /\
  tidied (k33 false) (vec [3; -(1); 1; -(1 # 2000)]) = Some [9 # 4; 0; 3 # 4; 0].
Proof. exact c33_case. Qed.
Theorem C33_no_positive_refuted : exists k x z, 0 < max_error k /\ tidy k x = Some z /\ qsum (map z (seq 0 (number_of_cells k))) == 0 /\ qsum (map x (seq 0 (number_of_cells k))) == -(1).
Proof. exact c33_created. Qed.
Print Assumptions C33_no_positive_refuted.
Theorem C33_negative_remains_refuted : exists k x z i, 0 < max_error k /\ (exists j, (j < number_of_cells k)%nat /\ 0 < x j) /\ tidy k x = Some z /\ (i < number_of_cells k)%nat /\ z i < 0.
Proof. exact c33_negative. Qed.
Print Assumptions C33_negative_remains_refuted.
Theorem C33_steadystate_nan_refuted : exists k x, trunk k = false /\ 0 < max_error k /\ tidy k x = None.
Proof. exact c33_nan. Qed.
Print Assumptions C33_steadystate_nan_refuted.
(** On a grid with cells of different sizes mass is lost. *)
Theorem C33_uneven_grid_refuted : exists k x z size, 0 < max_error k /\ (forall i, (i < number_of_cells k)%nat -> 0 < size i) /\ all_nonneg (number_of_cells k) z /\ tidy k x = Some z /\
  qsum (map (fun i => size i * x i) (seq 0 (number_of_cells k))) == 19 /\ qsum (map (fun i => size i * z i) (seq 0 (number_of_cells k))) == 10.
Proof. exact c33_uneven. Qed.
Print Assumptions C33_uneven_grid_refuted.

(** C63. Every cell gains in the air what the wind brings and what the bed gives. *)
Theorem C63_cell : forall k f d w x r c, sensible k -> rectangular k f -> lateral_uniform k f -> lateral k = Circular -> onshore_wind k f -> no_side_wind_in_1d k f -> trunk k = true -> fully_implicit k ->
  is_solution (number_of_cells k) (matrix k f) (rhs k f d w) x -> inside k r c ->
  area f r c * (at_cell k x r c - at_cell k (lCt d) r c) == inflow k f x r c + area f r c * exchange k d w x r c.
Proof. exact cell_mass. Qed.
Print Assumptions C63_cell.
(** Summed over the grid: the air holds, apart from the tolerance, what it held, what came through the ends and what the bed lost. *)
Theorem C63_total : forall sp k f d w, sensible k -> rectangular k f -> lateral_uniform k f -> onshore_wind k f -> no_side_wind_in_1d k f -> quiet_ends k f -> trunk k = true -> fully_implicit k ->
  nonnegative_input k d -> (forall i, (i < number_of_cells k)%nat -> Cuf d i == Cu d i) -> nonnegative_ends k f -> 0 < max_error k ->
  exact_solver (number_of_cells k) (matrix k f) sp -> all_nonneg (number_of_cells k) w ->
  forall o, solve_fraction sp k f d w = Ok (Some o) -> converged o = true -> 0 <= unexplained k f d o <= max_error k * over_inside k (area f).
Proof. exact mass_explained. Qed.
Print Assumptions C63_total.
Example C63_ex : well_posed (gauss (number_of_cells k32)) k32 f32 d32b ones /\ onshore_wind k32 f32 /\ no_side_wind_in_1d k32 f32 /\ trunk k32 = true /\
  (forall i, (i < number_of_cells k32)%nat -> Cuf d32b i == Cu d32b i) /\
  match by_gauss k32 f32 d32b ones with
  | Ok (Some o) => converged o = true /\ Qred (through_ends k32 f32 (ct o)) = 121370 # 6561 /\ Qred (unexplained k32 f32 d32b o) = 26 # 6561
  | _ => False
  end.
Proof. exact c63_case. Qed.
(** With one row and oblique wind sand leaves sideways. *)
Theorem C63_oblique_1d_refuted : exists sp k f d w u v, ordinary k f d w /\ same_capacity k d /\ fully_implicit k /\ ny k = 0%nat /\ uniform_wind k f u v /\ 0 <= u /\ sand_lost_or_gained sp k f d w.
Proof. exact c63_oblique. Qed.
Print Assumptions C63_oblique_1d_refuted.
(** Where the two capacities differ, as on a non-erodible layer. *)
Theorem C63_fluid_capacity_refuted : exists sp k f d w u, ordinary k f d w /\ fully_implicit k /\ uniform_wind k f u 0 /\ 0 <= u /\ sand_lost_or_gained sp k f d w.
Proof. exact c63_rock. Qed.
Print Assumptions C63_fluid_capacity_refuted.
(** With the Crank-Nicolson scheme. *)
Theorem C63_crank_nicolson_refuted : exists sp k f d w u, ordinary k f d w /\ same_capacity k d /\ alpha k == 1 # 2 /\ uniform_wind k f u 0 /\ 0 <= u /\ sand_lost_or_gained sp k f d w.
Proof. exact c63_half. Qed.
Print Assumptions C63_crank_nicolson_refuted.
(** Where the wind changes direction. *)
Theorem C63_converging_wind_refuted : exists sp k f d w, ordinary k f d w /\ same_capacity k d /\ fully_implicit k /\ gathering k f /\ lateral_uniform k f /\ no_side_wind_in_1d k f /\ sand_lost_or_gained sp k f d w.
Proof. exact c63_meeting. Qed.
Print Assumptions C63_converging_wind_refuted.
Theorem C63_diverging_wind_refuted : exists sp k f d w, ordinary k f d w /\ same_capacity k d /\ fully_implicit k /\ lateral_uniform k f /\ no_side_wind_in_1d k f /\ sand_lost_or_gained sp k f d w.
Proof. exact c63_parting. Qed.
Print Assumptions C63_diverging_wind_refuted.
(** Where the lateral speed differs between the rows. *)
Theorem C63_lateral_wind_refuted : exists sp k f d w, ordinary k f d w /\ same_capacity k d /\ fully_implicit k /\ onshore_wind k f /\ (forall r c, 0 <= un f r c) /\ (2 <= ny k)%nat /\ sand_lost_or_gained sp k f d w.
Proof. exact c63_sideways. Qed.
Print Assumptions C63_lateral_wind_refuted.
(** Mirroring the beach alongshore changes the system: for a lateral speed below zero the coefficients are taken from the wrong row. *)
Theorem C63_mirrored_refuted : exists k f g x, (ny k = 3)%nat /\ sensible k /\ (forall r c, 0 <= un f r c) /\ (forall r c, (r <= ny k)%nat -> un g r c = - un f (ny k - r)%nat c) /\
  (forall r c, us f r c = us g r c /\ ds f r c = ds g r c /\ dn f r c = dn g r c) /\ rectangular k f /\
  ~ row_times (number_of_cells k) (matrix k f) x (2 * 4 + 1) == row_times (number_of_cells k) (matrix k g) (fun i => x ((3 - i / 4) * 4 + i mod 4)%nat) (1 * 4 + 1).
Proof. exact c63_mirror. Qed.
Print Assumptions C63_mirrored_refuted.

(** C64. Uniform saturated transport stays as it is and leaves the bed alone. *)
Theorem C64_saturated : forall sp k f d w C u v, sensible k -> rectangular k f -> uniform_wind k f u v -> 0 <= u -> (ny k <> 0%nat \/ v == 0) -> prescribed_offshore k ->
  0 <= C -> 0 <= max_error k -> max_iter k <> 0%nat -> saturated k f d w C -> exact_solver (number_of_cells k) (matrix k f) sp ->
  exists o, solve_fraction sp k f d w = Ok (Some o) /\ converged o = true /\ forall i, (i < number_of_cells k)%nat -> ct o i == C /\ pickup o i == 0 /\ weight o i = w i.
Proof. exact saturated_unchanged. Qed.
Print Assumptions C64_saturated.
Example C64_saturated_ex : sensible (k64 2) /\ rectangular (k64 2) f32 /\ uniform_wind (k64 2) f32 1 (-(1)) /\ prescribed_offshore (k64 2) /\ saturated (k64 2) f32 d64 ones 10 /\
  shown (k64 2) (by_gauss (k64 2) f32 d64 ones) = Some (repeat 10 12, repeat 0 12, true).
Proof. exact c64_case. Qed.
(** With one row and oblique wind it erodes the bed. *)
Theorem C64_oblique_1d_refuted : exists sp k f d w C u v o i, sensible k /\ rectangular k f /\ uniform_wind k f u v /\ 0 <= u /\ ny k = 0%nat /\ prescribed_offshore k /\ 0 <= C /\ 0 < max_error k /\ saturated k f d w C /\
  solve_fraction sp k f d w = Ok (Some o) /\ converged o = true /\ is_solution (number_of_cells k) (matrix k f) (rhs k f d w) (ct o) /\ inside k 0 i /\ ct o i < C /\ 0 < pickup o i.
Proof. exact c64_refuted. Qed.
Print Assumptions C64_oblique_1d_refuted.

(** C65. No exceptions. *)
Theorem C65_runs : forall sp k t0 bedcomp dist init fs, known (offshore k) -> known (onshore k) -> lateral k = Circular \/ lateral k = Constant -> (ny k <> 1)%nat -> (2 <= nx k)%nat -> max_iter k <> 0%nat ->
  (trunk k = true \/ t0 = false \/ length dist = 1%nat) -> exists r, solve sp k t0 bedcomp dist init fs = Ok r.
Proof. exact runs. Qed.
Print Assumptions C65_runs.
Example C65_runs_ex : known (offshore (k64 2)) /\ known (onshore (k64 2)) /\
  match solve (gauss 12) (k64 2) true false [1 # 2; 1 # 2] (fun _ => []) [(f32, d64); (f32, d64)] with Ok (Some (os, _)) => length os = 2%nat | _ => False end.
Proof. exact c65_case. Qed.
(** The steady state solver cannot take its first step with more than one fraction. *)
Theorem C65_steadystate_raises : forall sp k bedcomp d1 d2 dist init fs, trunk k = false -> solve sp k true bedcomp (d1 :: d2 :: dist) init fs = Raise ValueError.
Proof. exact c65_first_step. Qed.
Print Assumptions C65_steadystate_raises.
Theorem C65_steadystate_refuted : exists sp k bedcomp dist init fs, known (offshore k) /\ known (onshore k) /\ lateral k = Circular /\ sensible k /\ max_iter k <> 0%nat /\
  solve sp k true bedcomp dist init fs = Raise ValueError /\ length dist = length fs.
Proof. exact c65_refuted. Qed.
Print Assumptions C65_steadystate_refuted.
(** Two rows (ny = 1) are refused by the sparse matrix constructor. *)
Theorem C65_two_rows_raises : forall sp k t0 bedcomp dist init f d fs, trunk k = true -> known (offshore k) -> known (onshore k) -> lateral k = Circular \/ lateral k = Constant -> ny k = 1%nat ->
  solve sp k t0 bedcomp dist init ((f, d) :: fs) = Raise ValueError.
Proof. exact c65_two_rows. Qed.
Print Assumptions C65_two_rows_raises.
(** 'noflux' is accepted offshore but not onshore. *)
Theorem C65_onshore_noflux_raises : forall sp k t0 bedcomp dist init f d fs, trunk k = true -> known (offshore k) -> onshore k = Noflux -> solve sp k t0 bedcomp dist init ((f, d) :: fs) = Raise ValueError.
Proof. exact c65_noflux. Qed.
Print Assumptions C65_onshore_noflux_raises.
(** The steady state solver does not accept it at all. *)
Theorem C65_steadystate_noflux_raises : forall sp k bedcomp dist init f d fs t0, trunk k = false -> t0 = false \/ length dist = 1%nat -> offshore k = Noflux \/ (known (offshore k) /\ onshore k = Noflux) ->
  solve sp k t0 bedcomp dist init ((f, d) :: fs) = Raise ValueError.
Proof. exact c65_steady_noflux. Qed.
Print Assumptions C65_steadystate_noflux_raises.
Example C65_steadystate_noflux_ex : trunk (case_k false 2 3 1 9 Noflux Gradient 0) = false /\ offshore (case_k false 2 3 1 9 Noflux Gradient 0) = Noflux /\ offshore (case_k true 2 3 1 9 Noflux Gradient 0) = Noflux /\
  match solve (gauss 12) (case_k true 2 3 1 9 Noflux Gradient 0) false false [1] (fun _ => [1]) [(f32, d64)] with Ok (Some (os, _)) => length os = 1%nat | _ => False end.
Proof. exact c65_steady_noflux_case. Qed.
Theorem C65_lateral_raises : forall sp k t0 bedcomp dist init f d fs, trunk k = true -> known (offshore k) -> known (onshore k) -> lateral k = Uniform \/ lateral k = Gradient ->
  solve sp k t0 bedcomp dist init ((f, d) :: fs) = Raise NotImplementedError.
Proof. exact c65_lateral. Qed.
Print Assumptions C65_lateral_raises.

(** C100. With a bed composition file the first step takes its weights from the bed, like all later ones. *)
Theorem C100_file : forall sp k t0 b dist dist' init fs, trunk k = true -> solve sp k true true dist init fs = solve sp k false b dist' init fs /\ solve sp k t0 true dist init fs = solve sp k t0 true dist' init fs.
Proof. exact c100_file. Qed.
Print Assumptions C100_file.
(** Without, it is the step of a bed with the configured distribution. *)
Theorem C100_distribution : forall sp k b dist dist' init fs, trunk k = true -> solve sp k true false dist init fs = solve sp k false b dist' (fun _ => dist) fs.
Proof. exact c100_dist. Qed.
Print Assumptions C100_distribution.
Example C100_distribution_ex : trunk one_d = true /\
  first_cells 4 (solve (gauss 4) one_d true false halves (fun _ => []) [(case_f (even 1) (even 0), d64); (case_f (even 1) (even 0), d64)]) = [[0; 5; 20 # 3; 25 # 3]; [0; 5; 20 # 3; 25 # 3]] /\
  first_cells 4 (solve (gauss 4) one_d true true halves (fun _ => [1; 0]) [(case_f (even 1) (even 0), d64); (case_f (even 1) (even 0), d64)]) <> [[0; 5; 20 # 3; 25 # 3]; [0; 5; 20 # 3; 25 # 3]].
Proof. exact c100_case. Qed.
(** A distribution per layer is flattened: the weights of the fractions of all layers together are one, and less sand is picked up. *)
Theorem C100_layers_refuted : exists sp k fs layers, trunk k = true /\ (forall l, In l layers -> l = [1 # 2; 1 # 2]) /\ length layers = 2%nat /\ length fs = 2%nat /\
  exists os w os' w' o o', solve sp k true false (concat layers) (fun _ => [1 # 2; 1 # 2]) fs = Ok (Some (os, w)) /\ solve sp k false false (concat layers) (fun _ => [1 # 2; 1 # 2]) fs = Ok (Some (os', w')) /\
    nth_error os 0 = Some o /\ nth_error os' 0 = Some o' /\ ct o 1%nat < ct o' 1%nat.
Proof. exact c100_layers. Qed.
Print Assumptions C100_layers_refuted.
