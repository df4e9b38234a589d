{
 "claims": [
  {
   "property": "C01",
   "status": "proved",
   "theorems": [
    "C01_last_assignment_wins",
    "C01_default_when_never_assigned",
    "C01_assigned_or_not",
    "C01_irrelevant_lines",
    "C01_inline_comment",
    "C01_output_file"
   ],
   "note": "Parameters that the reader post-processes (grain_dist, grain_size, output_file, h, process_fences, nsavetimes) are covered only for output_file (C01_output_file). Double rounding of parsed decimals is not modelled."
  },
  {
   "property": "C02",
   "status": "partial",
   "theorems": [
    "C02_int_roundtrip",
    "C02_bool_roundtrip",
    "C02_list_roundtrip",
    "C02_none_roundtrip_partial",
    "C02_none_default_fill_refuted",
    "C02_singleton_list_refuted"
   ],
   "note": "REFUTED as stated for None: printed with the formatter's default fill it comes back as the text <novalue>. Booleans and integers of any size, and lists of two or more of them, are proved; None is proved for the empty fill the configuration writer uses."
  },
  {
   "property": "C03",
   "status": "partial",
   "theorems": [
    "C03_text_verbatim_refuted",
    "C03_text_verbatim_partial",
    "C03_equal_sign_refuted"
   ],
   "note": "REFUTED as stated: a word that merely begins with None (e.g. Nonerodible.txt) is read as None, and a value containing '=' is cut at it. Proved for every other single word."
  },
  {
   "property": "C04",
   "status": "partial",
   "theorems": [
    "C04_never_raises_refuted",
    "C04_raises_only_on_malformed_number_partial",
    "C04_malformed_number_raises"
   ],
   "note": "REFUTED as stated: 1.2.3 or a dot raises ValueError and aborts the run. Proved: an exception is always a ValueError and only occurs if the text contains a malformed number; every malformed number raises."
  },
  {
   "property": "C05",
   "status": "proved",
   "theorems": [
    "C05_backup_first_free",
    "C05_backup_exhausted",
    "C05_backup_preserves"
   ],
   "note": "The directory is modelled as a dictionary of names to contents; races with other processes between the existence test and the copy are not modelled."
  },
  {
   "property": "C06",
   "status": "partial",
   "theorems": [
    "C06_bulk_update_refuted",
    "C06_in_place_refuted",
    "C06_bulk_new_variable_refuted",
    "C06_assignments_partial",
    "C06_fixed_partial"
   ],
   "note": "REFUTED as stated: ModelState.update (used to store every solver result) and in-place array operations bypass the protection. Proved for item assignment (refinement to a per-variable automaton, any history) and for histories whose bulk and in-place changes do not name the variable."
  },
  {
   "property": "C07",
   "status": "partial",
   "theorems": [
    "C07_concentration_refuted",
    "C07_set_get_partial",
    "C07_concentration_divided",
    "C07_others_unchanged",
    "C07_last_set_wins",
    "C07_unknown_ignored",
    "C07_unknown_none",
    "C07_immutable_ignored"
   ],
   "note": "REFUTED as stated for Ct and Cu when accfac differs from 1: get_var divides by accfac, set_var does not multiply. Proved for all other names, any sequence of sets; setting accfac changes the reported Ct and Cu. Aliasing of array values (numpy arrays are stored by reference) is not modelled."
  },
  {
   "property": "C08",
   "status": "proved",
   "theorems": [
    "C08_enumeration",
    "C08_beyond",
    "C08_negative",
    "C08_set_by_index"
   ],
   "note": "Proved; a negative index counts from the end, and below -count raises IndexError."
  },
  {
   "property": "C09",
   "status": "proved",
   "theorems": [
    "C09_shapes",
    "C09_named",
    "C09_rank_is_length_of_shape"
   ],
   "note": "Proved for all sizes; arrays are represented by their shapes."
  },
  {
   "property": "C10",
   "status": "partial",
   "theorems": [
    "C10_explicit_scheme_refuted",
    "C10_skip_runs_processes_refuted",
    "C10_requested_step_partial",
    "C10_configured_step_partial",
    "C10_explicit_step",
    "C10_skip_partial",
    "C10_unknown_scheme"
   ],
   "note": "REFUTED as stated: with the explicit scheme the step can be shorter than requested, and skipping in time still runs the wind, fence and vegetation shear steps. Proved for implicit schemes without bed level limit, for the explicit scheme (largest step within the CFL bound), and for skips (time jumps exactly, no morphology)."
  },
  {
   "property": "C11",
   "status": "partial",
   "theorems": [
    "C11_explicit_calm_refuted",
    "C11_bedlevel_limit_calm_refuted",
    "C11_zero_length_refuted",
    "C11_explicit_calm_stuck",
    "C11_explicit_calm_start",
    "C11_bedlevel_limit_stall",
    "C11_number_of_updates_partial",
    "C11_explicit_ends_partial",
    "C11_no_step"
   ],
   "note": "REFUTED as stated: the explicit scheme never ends in calm weather, a maximum bed level change with calm periods can stall before tstop, and tstart=tstop divides by zero. Proved: number of updates for implicit schemes, termination of the explicit scheme when the wind keeps blowing, and general characterisations of the stalls. The ZeroDivisionError holds for plain Python numbers (numpy numbers would give inf)."
  },
  {
   "property": "C12",
   "status": "partial",
   "theorems": [
    "C12_erosion_backwards_refuted",
    "C12_erosion_unbounded_refuted",
    "C12_accretion_partial",
    "C12_first_step"
   ],
   "note": "REFUTED as stated: with erosion the adapted time step becomes negative or unbounded because the sign of the change is not dropped. Proved for accretion and for the first step."
  },
  {
   "property": "C13",
   "status": "partial",
   "theorems": [
    "C13_late_start_refuted",
    "C13_schedule_partial",
    "C13_gap"
   ],
   "note": "REFUTED as stated: a run starting at 0 < tstart < output_times writes nothing at its first time point. Proved for all step sequences when tstart is 0 or at least output_times, with the bound on the gap."
  },
  {
   "property": "C14",
   "status": "partial",
   "theorems": [
    "C14_unrequested_refuted",
    "C14_query_discards_refuted",
    "C14_statistics_partial"
   ],
   "note": "REFUTED as stated: a statistic that was not requested is answered with infinity, and a query with the default clear=True discards the values gathered so far. Proved for every requested statistic and every interleaving of updates, queries and outputs, against the list of values since the last reset. Grids are represented by one cell. The q update in output_update is not modelled."
  },
  {
   "property": "C15",
   "status": "partial",
   "theorems": [
    "C15_update_first_refuted",
    "C15_statistics_only_refuted",
    "C15_names_refuted",
    "C15_first_update_always_fails",
    "C15_any_order_partial",
    "C15_plain_names_partial",
    "C15_one_underscore",
    "C15_two_underscores",
    "C15_underscore_statistic",
    "C15_dotted"
   ],
   "note": "REFUTED as stated: an update before any query always raises AttributeError (also in a normal run when only statistics are requested), and variables with underscores are unreachable. Proved: after one query any sequence of sane calls succeeds, and plain names are retrieved."
  },
  {
   "property": "C16",
   "status": "partial",
   "theorems": [
    "C16_skip_refuted",
    "C16_saltation_velocity_refuted",
    "C16_aborted_update",
    "C16_completed_partial",
    "C16_identity_partial",
    "C16_distances",
    "C16_inner_product",
    "C16_vectors_follow_grid",
    "C16_direction"
   ],
   "note": "REFUTED as stated: an update that skips in time (or stops in calm weather with the explicit scheme) returns with the grid rotated over alpha, and the saltation velocity us/un is never rotated back. Proved for completed updates: coordinates and all rotated vector fields are restored exactly in real arithmetic; distances, lengths and angles are kept. Uses the axioms of the Coq real numbers."
  },
  {
   "property": "C17",
   "status": "partial",
   "theorems": [
    "C17_run_with_restart_fails",
    "C17_dump_refuted",
    "C17_load_refuted",
    "C17_load_nothing"
   ],
   "note": "REFUTED as stated: restart files are opened in text mode (TypeError on dump), and even with a binary file unpickling a ModelState stores items through __setitem__ before the attribute ismutable exists (AttributeError). The pickle protocol is modelled from its documentation."
  },
  {
   "property": "C18",
   "status": "proved",
   "theorems": [
    "C18_bounds_and_history",
    "C18_slice"
   ],
   "note": "Holds of the model: one slice per output, earlier slices unchanged, contiguous bounds, values as reported by the interface at the time of writing. netCDF encoding and the fixed metadata are not modelled."
  },
  {
   "property": "C19",
   "status": "proved",
   "theorems": [
    "C19_rows",
    "C19_rows_fill",
    "C19_columns",
    "C19_columns_fill"
   ],
   "note": "Holds of the model along both axes of a matrix, also for zero sums (negative entries cancelling included). Exact rational arithmetic."
  },
  {
   "property": "C20",
   "status": "partial",
   "theorems": [
    "C20_weights_refuted",
    "C20_weights_partial",
    "C20_air_partial",
    "C20_renormalize",
    "C20_earlier_refuted",
    "C20_earlier_partial"
   ],
   "note": "REFUTED as stated: with an empty top layer and no sediment in the air (or bi=1) all weights are zero; renormalising changes earlier weights when the later ones are all zero. Proved for a non-empty layer or sediment in the air with bi<1; earlier weights kept when the later ones have non-zero sum."
  },
  {
   "property": "C21",
   "status": "proved",
   "theorems": [
    "C21_linear",
    "C21_sample",
    "C21_range",
    "C21_periodic",
    "C21_hold"
   ],
   "note": "Holds of the model; the period is the length of the series plus one time unit, during which the last value is held."
  },
  {
   "property": "C22",
   "status": "proved",
   "theorems": [
    "C22_cell",
    "C22_identity",
    "C22_absent",
    "C22_compose"
   ],
   "note": "Holds of the model, with additional dimensions and scalar masks."
  },
  {
   "property": "C23",
   "status": "proved",
   "theorems": [
    "C23_mixing"
   ],
   "note": "Holds of the model for every cell of every grid."
  },
  {
   "property": "C24",
   "status": "partial",
   "theorems": [
    "C24_file_ignored_refuted",
    "C24_file",
    "C24_longer_refuted",
    "C24_shorter",
    "C24_uniform_partial",
    "C24_layered_partial",
    "C24_integers_refuted",
    "C24_matrix",
    "C24_matrix_raises"
   ],
   "note": "REFUTED as stated: a bed composition file is ignored when grain_dist consists of integers; a distribution with more entries than grain sizes loses mass; a matrix of integers is read as one row per fraction, not per layer (C24_integers_refuted, C24_matrix) and mostly raises (C24_matrix_raises). Proved for distributions of matching length, per cell or per layer; a shorter one raises IndexError."
  },
  {
   "property": "C25",
   "status": "partial",
   "theorems": [
    "C25_equal_refuted",
    "C25_thin_refuted",
    "C25_update_partial"
   ],
   "note": "REFUTED as stated: a deposit equal to the top layer doubles the layer; erosion larger than a thinner layer below yields negative mass. Proved for exchanges not exceeding any layer and deposits less than the top layer."
  },
  {
   "property": "C26",
   "status": "partial",
   "theorems": [
    "C26_deposit_refuted",
    "C26_discarded",
    "C26_preserved_partial"
   ],
   "note": "REFUTED as stated: a deposit larger than the top layer vanishes without raising the bed (proved for every such cell). Otherwise preserved."
  },
  {
   "property": "C27",
   "status": "partial",
   "theorems": [
    "C27_overshoot_refuted",
    "C27_dry",
    "C27_towards_partial",
    "C27_converges_partial"
   ],
   "note": "REFUTED as stated: overshoots when dt > Tbedreset. Proved for dt <= Tbedreset over all step sequences, with a convergence rate."
  },
  {
   "property": "C28",
   "status": "partial",
   "theorems": [
    "C28_below_threshold_partial",
    "C28_dk_refuted",
    "C28_threshold_file_refuted",
    "C28_calm_flat_refuted",
    "C28_calm",
    "C28_flat_partial",
    "C28_flat_refuted",
    "C28_bagnold_gs_rows"
   ],
   "note": "REFUTED as stated: formulation dk transports between 0.8 and 1 times the threshold; with a threshold file the fluid concentration is positive below the threshold; the flat-bed concentration survives (and is multiplied by accfac) when the wind drops; bagnold_gs raises IndexError on more than one row. with kawamura and lettau the flat-bed concentration is never computed (C28_flat_refuted), so the boundary condition 'flux' brings no sand in. Proved for all other formulations: finite, non-negative, zero iff not above the threshold. Reals axioms."
  },
  {
   "property": "C29",
   "status": "partial",
   "theorems": [
    "C29_raises_partial",
    "C29_grows_partial",
    "C29_very_wet",
    "C29_saleh_fryear_refuted",
    "C29_cornelis_refuted",
    "C29_dong_2007_refuted",
    "C29_gregory_refuted"
   ],
   "note": "REFUTED as stated: saleh_fryear, cornelis and dong_2007 replace the threshold and can lower that of coarse grains; gregory_darwish decreases with moisture for a low wilting point. Proved for the seven other formulations (gregory_darwish: growth for w1_5 >= 0.0061); very wet cells immobile for all ten. Reals axioms."
  },
  {
   "property": "C30",
   "status": "partial",
   "theorems": [
    "C30_non_erodible_partial",
    "C30_no_transport",
    "C30_fluid_threshold_refuted",
    "C30_history_refuted"
   ],
   "note": "REFUTED as stated: the fluid threshold uthf is copied before the layer is considered, so Cuf > 0 on rock; with a threshold file the infinite threshold stays after burial; cells up to 1 cm above the layer count as exposed. Proved: infinite threshold and zero Cu at the layer, other cells unchanged within a step. Reals axioms."
  },
  {
   "property": "C31",
   "status": "partial",
   "theorems": [
    "C31_within_supply",
    "C31_converges",
    "C31_unconverged_refuted"
   ],
   "note": "REFUTED as stated: when the iteration stops unconverged the unlimited pickup is used (solve only logs a warning). Proved for solve and solve_steadystate: converged pickup is within the supply of every fraction whatever the linear solver returns, and the iteration converges for enough rounds when the wind nowhere blows apart. The pieter solvers are not modelled."
  },
  {
   "property": "C32",
   "status": "partial",
   "theorems": [
    "C32_one_nonnegative",
    "C32_one_any_onshore",
    "C32_result_is_solution",
    "C32_bounded",
    "C32_diverging_wind_refuted",
    "C32_gradient_end_refuted",
    "C32_dying_wind_refuted"
   ],
   "note": "REFUTED as stated: diverging wind gives negative concentrations, the default onshore condition 'gradient' a negative last column, converging wind exceeds the bound. Proved for wind that nowhere blows apart (existence, uniqueness, non-negativity, any grid size) and for uniform wind (bound)."
  },
  {
   "property": "C33",
   "status": "partial",
   "theorems": [
    "C33_total",
    "C33_no_positive_refuted",
    "C33_negative_remains_refuted",
    "C33_steadystate_nan_refuted",
    "C33_uneven_grid_refuted"
   ],
   "note": "REFUTED as stated: without any positive concentration mass is created (NaN in solve_steadystate), a negative total leaves negative concentrations, and on uneven grids the sum of concentrations is conserved but not the mass. Proved for the sum of concentrations when some concentration is positive and the total is not negative."
  },
  {
   "property": "C34",
   "status": "partial",
   "theorems": [
    "C34_lost_refuted",
    "C34_created_refuted",
    "C34_stable",
    "C34_border",
    "C34_stops",
    "C34_total_partial",
    "C34_conserved_partial"
   ],
   "note": "REFUTED as stated: sand sliding onto border cells is lost, and on grids with cells of different size volume is created. Stability, border, stopping criterion proved; sum of bed levels never grows and is conserved while the cells next to the border stay gentle. Reals axioms."
  },
  {
   "property": "C35",
   "status": "partial",
   "theorems": [
    "C35_water_level_not_below_bed",
    "C35_waves_limited_by_depth",
    "C35_wave_mask_refuted"
   ],
   "note": "REFUTED as stated: the wave mask is applied after the depth limit, so masked waves can exceed it. Proved for every bed, tide and wave series where the wave mask is neutral; water level and bed statements hold without that condition."
  },
  {
   "property": "C36",
   "status": "proved",
   "theorems": [
    "C36_infiltration_range",
    "C36_surface_range"
   ],
   "note": "Proved for every cell state before the update, all weather, water levels, soil parameters with the obvious order, and every time step that completes. Real arithmetic; NaN not modelled."
  },
  {
   "property": "C37",
   "status": "partial",
   "theorems": [
    "C37_groundwater_bounded",
    "C37_substeps_cover",
    "C37_time_lost_refuted",
    "C37_no_substep_refuted",
    "C37_short_step_raises"
   ],
   "note": "REFUTED as stated: integer sub-steps leave up to one sub-step of the time step uncovered, a factor below one may give no sub-step at all, and a time step below the factor raises ZeroDivisionError. Proved: the bound after every update with at least one sub-step, and coverage up to less than one sub-step. Exact rationals."
  },
  {
   "property": "C38",
   "status": "proved",
   "theorems": [
    "C38_between_main_curves",
    "C38_one_scanning_curve",
    "C38_waterlogged"
   ],
   "note": "Proved for every stored history (any values of the scanning variables), all soil parameters and both with and without scanning. Which of the two main curves is the upper one is C78. Real arithmetic."
  },
  {
   "property": "C39",
   "status": "partial",
   "theorems": [
    "C39_scalar_nonneg",
    "C39_array_nonneg",
    "C39_no_waves",
    "C39_scalar_array",
    "C39_regime_limit_refuted",
    "C39_flat_beach_refuted"
   ],
   "note": "REFUTED as stated: on the limit between the regimes (Iribarren number exactly 0.3) the array path returns zero, and on a flat beach only the array path gives runup. Proved: non-negativity in both paths, zero without waves, and agreement everywhere else on sloping beaches. Real arithmetic."
  },
  {
   "property": "C40",
   "status": "partial",
   "theorems": [
    "C40_consistent",
    "C40_round_trip",
    "C40_separation_refuted",
    "C40_flat_bed_refuted"
   ],
   "note": "REFUTED as stated: after flow separation the shear velocity magnitude is larger than that of its components, and the flat-bed components ustars0, ustarn0 are both the magnitude. Proved for the wind of every speed and direction before separation: components, stress and velocity consistent, conversion invertible. Real arithmetic."
  },
  {
   "property": "C41",
   "status": "partial",
   "theorems": [
    "C41_perturbation",
    "C41_separation",
    "C41_magnitude_refuted"
   ],
   "note": "REFUTED as stated: separation reduces the stress components but not the magnitudes tau and ustar, which the transport and threshold use. Proved: one factor of at least 0.1 for stress and components, 1 over a level bed; separation multiplies the components by a factor in [0,1]. One-dimensional shear only."
  },
  {
   "property": "C42",
   "status": "partial",
   "theorems": [
    "C42_physical",
    "C42_dead",
    "C42_bare",
    "C42_no_growth",
    "C42_regrows_refuted",
    "C42_grows_off_refuted",
    "C42_cover_refuted",
    "C42_start"
   ],
   "note": "REFUTED as stated: (1) the growth rate dhveg of a drowned cell is not reset, so plants grow again without germination when the water is gone; (2) with veggrowth_type duranmoore14 and V_ver = 0 the cover grows by the number of better covered neighbours; (3) with that type and a time step (times accfac) longer than t_veg the cover exceeds its maximum, even one. Proved for all events and states: physical cover and height otherwise, none where drowned or too low, bare ground stays bare without seeds, no growth with V_ver = 0 in the original formulation. Real arithmetic."
  },
  {
   "property": "C43",
   "status": "partial",
   "theorems": [
    "C43_plants",
    "C43_fences",
    "C43_upwind",
    "C43_calm_refuted",
    "C43_orientation_refuted",
    "C43_raupach",
    "C43_raupach_upwind_refuted"
   ],
   "note": "REFUTED as stated: (1) calm air gets a shear velocity of 0.01 (components zero) even without plants; (2) the Okin model ignores the orientation alfa of the grid, so the shelter can lie upwind; (3) the Raupach model smooths its factor with a Gaussian filter, so bare cells upwind of plants are sheltered. Proved for shear velocities from 0.01 (Okin, fences) or any (Raupach): one factor in (0,1], direction and consistency of stress kept, nothing without plants, upwind cells unaffected for alfa = 0, at a plant only the initial share remains. Two-dimensional fences not modelled. Real arithmetic."
  },
  {
   "property": "C44",
   "status": "proved",
   "theorems": [
    "C44_range",
    "C44_none",
    "C44_gone",
    "C44_stands"
   ],
   "note": "Proved for every initial fence and history of bed levels, with the exact condition under which a fence stands."
  },
  {
   "property": "C45",
   "status": "partial",
   "theorems": [
    "C45_lowers",
    "C45_above_toe",
    "C45_calm",
    "C45_calm_row",
    "C45_behind_refuted"
   ],
   "note": "REFUTED as stated in one respect: the toe is the cell nearest in elevation anywhere in the row, so a valley behind the dune protects the dune and the land behind the valley is eroded. Proved: the bed is only lowered, only above the toe elevation, between toe cell and scarp, not below the toe, and not at all when water does not reach it. The cumulative normal distribution is a parameter; peak period positive."
  },
  {
   "property": "C46",
   "status": "partial",
   "theorems": [
    "C46_valid",
    "C46_maximum_refuted",
    "C46_extra_bin_endless",
    "C46_hangs_refuted"
   ],
   "note": "REFUTED as stated: with bins wider than 1 m/s (max_speed > n_states) the maximum is exceeded, and for some maxima (22 m/s with the default 30 states) rounding in numpy.arange gives one bin too many and the constructor never returns. Proved for every random sequence, time step and duration: number and times of samples, no StopIteration, non-negative, and the maximum for bins up to 1 m/s. Weibull weights and random numbers are inputs; cumulative sums in exact arithmetic."
  },
  {
   "property": "C47",
   "status": "partial",
   "theorems": [
    "C47_mean",
    "C47_percentile_refuted",
    "C47_percentile_partial",
    "C47_single",
    "C47_monotone"
   ],
   "note": "REFUTED as stated: percentiles are interpolated from diameter zero, so D50 of a single fraction is half its grain size. Proved: mean within range; percentiles between 0 and the largest size and non-decreasing."
  },
  {
   "property": "C48",
   "status": "proved",
   "theorems": [
    "C48_nautical",
    "C48_cartesian",
    "C48_cartesian_components",
    "C48_unknown"
   ],
   "note": "Proved for every wind file; the model of the components shows that a cartesian wind then blows in its own direction."
  },
  {
   "property": "C49",
   "status": "partial",
   "theorems": [
    "C49_write_read_refuted",
    "C49_write_read_plain_partial",
    "C49_float_refuted",
    "C49_float_accuracy",
    "C49_float_exact",
    "C49_table",
    "C49_list"
   ],
   "note": "REFUTED as stated: the writer calls dict.iterkeys, absent in Python 3, for every configuration. With a Python 2 dictionary: proved for None, booleans, integers and plain words; floats are within half a unit of the last printed decimal, exact iff that many decimals suffice; tiny values become 0."
  },
  {
   "property": "C50",
   "status": "partial",
   "theorems": [
    "C50_default_outputs_refuted",
    "C50_other_outputs_partial",
    "C50_one_shape"
   ],
   "note": "REFUTED as stated: 'mass' 'pickup' lack a comma and name the non-existent variable masspickup. All others exist; shapes are consistent."
  },
  {
   "property": "C51",
   "status": "partial",
   "theorems": [
    "C51_word_False_refuted",
    "C51_letters_partial"
   ],
   "note": "REFUTED as stated: False is read as non-empty text, which Python treats as true, so a process 'switched off' this way stays on. The letters T and F work."
  },
  {
   "property": "C52",
   "status": "partial",
   "theorems": [
    "C52_scientific_refuted",
    "C52_decimal_partial"
   ],
   "note": "REFUTED as stated: 1e-3 stays text. Proved for plain decimal notation."
  },
  {
   "property": "C53",
   "status": "partial",
   "theorems": [
    "C53_objects_refuted",
    "C53_arrays_partial"
   ],
   "note": "REFUTED as stated: s['shear'] (a WindShear object) and s['meteo'] (a dictionary) are enumerated but have no shape. Proved when all stored values are arrays."
  },
  {
   "property": "C54",
   "status": "partial",
   "theorems": [
    "C54_shadowed_parameters_refuted",
    "C54_which_parameters",
    "C54_other_parameters_partial"
   ],
   "note": "REFUTED as stated: theta_dyn, theta_stat, germinate and lateral are also names of grids, which shadow the parameters; proved that these four are all, and that the others can be set."
  },
  {
   "property": "C55",
   "status": "partial",
   "theorems": [
    "C55_repeat_refuted"
   ],
   "note": "REFUTED: the period is one time unit longer than the series."
  },
  {
   "property": "C56",
   "status": "partial",
   "theorems": [
    "C56_average_refuted",
    "C56_average_partial",
    "C56_yearly"
   ],
   "note": "REFUTED as stated: outside the range when dt*accfac exceeds the averaging time. Proved otherwise."
  },
  {
   "property": "C57",
   "status": "partial",
   "theorems": [
    "C57_uncovered_refuted",
    "C57_limited_partial",
    "C57_depth_partial"
   ],
   "note": "REFUTED as stated: a thin cover is eroded past the layer when the slope just exceeds the dynamic angle. Proved where the remaining sand limits the flux; at most 0.3 m per pass. Reals axioms."
  },
  {
   "property": "C58",
   "status": "partial",
   "theorems": [
    "C58_shear_velocity",
    "C58_threshold_partial",
    "C58_kawamura_refuted",
    "C58_dk_refuted"
   ],
   "note": "REFUTED as stated: kawamura and dk grow with the threshold over part of the range. Proved: growth with shear velocity for all seven formulations, fall with the threshold for the other five. Reals axioms."
  },
  {
   "property": "C59",
   "status": "partial",
   "theorems": [
    "C59_options_partial",
    "C59_switch_refuted",
    "C59_drylayer_raises",
    "C59_humidity_raises",
    "C59_sheltering_raises",
    "C59_unknown_method_raises"
   ],
   "note": "REFUTED as stated: th_drylayer and th_humidity raise NameError, th_sheltering raises KeyError with the defaults (setting m is commented out), an unknown moisture method raises KeyError. Proved: all other combinations yield thresholds. Reals axioms."
  },
  {
   "property": "C60",
   "status": "partial",
   "theorems": [
    "C60_only_raised_partial",
    "C60_sheltering_refuted"
   ],
   "note": "REFUTED as stated: sheltering with m > 1 - sigma/beta lowers the threshold (to 0 for m = 1), and the replacing moisture formulations (C29). Proved for the raising formulations and m <= 1 - sigma/beta. Reals axioms."
  },
  {
   "property": "C61",
   "status": "partial",
   "theorems": [
    "C61_fresh_partial",
    "C61_compound_refuted"
   ],
   "note": "REFUTED as stated: without th_grainsize the salt (and any other) factor is applied anew in every step. Proved whenever th_grainsize is on and no threshold file is given (exceptions included). Reals axioms."
  },
  {
   "property": "C62",
   "status": "partial",
   "theorems": [
    "C62_constant_speed_partial",
    "C62_bubble",
    "C62_duran_refuted"
   ],
   "note": "REFUTED as stated: duran moves sand against the wind below the dry threshold. Proved for the constant method. Reals axioms."
  },
  {
   "property": "C63",
   "status": "partial",
   "theorems": [
    "C63_cell",
    "C63_total",
    "C63_oblique_1d_refuted",
    "C63_fluid_capacity_refuted",
    "C63_crank_nicolson_refuted",
    "C63_converging_wind_refuted",
    "C63_diverging_wind_refuted",
    "C63_lateral_wind_refuted",
    "C63_mirrored_refuted"
   ],
   "note": "REFUTED as stated: sand is lost or created for oblique wind on one row, where Cuf and Cu differ (non-erodible layer), with Crank-Nicolson, where the wind changes direction, and where the lateral speed differs between rows (for negative lateral speed coefficients come from the wrong row). Proved cell by cell and in total for the implicit scheme with onshore wind, laterally uniform, exact linear solver."
  },
  {
   "property": "C64",
   "status": "partial",
   "theorems": [
    "C64_saturated",
    "C64_oblique_1d_refuted"
   ],
   "note": "REFUTED as stated: on one row with oblique wind saturated transport erodes the bed. Proved for any implicitness on two-dimensional grids and for cross-shore wind on one row."
  },
  {
   "property": "C65",
   "status": "partial",
   "theorems": [
    "C65_runs",
    "C65_steadystate_raises",
    "C65_steadystate_refuted",
    "C65_two_rows_raises",
    "C65_onshore_noflux_raises",
    "C65_steadystate_noflux_raises",
    "C65_lateral_raises"
   ],
   "note": "REFUTED as stated: solve_steadystate raises ValueError in its first step with more than one fraction; ny = 1 raises ValueError; 'noflux' onshore raises ValueError; lateral 'uniform' and 'gradient' raise NotImplementedError. Proved for all other set-ups."
  },
  {
   "property": "C66",
   "status": "partial",
   "theorems": [
    "C66_equal_shorelines_independent",
    "C66_transects_refuted"
   ],
   "note": "REFUTED as stated: the boundary condition is written at the shoreline index of the previous row (shl_ix[i-1] instead of shl_ix[i]-1). Proved for grids in which all rows have the same shoreline index in each sub-step."
  },
  {
   "property": "C67",
   "status": "partial",
   "theorems": [
    "C67_equilibrium_kept",
    "C67_uneven_grid_refuted",
    "C67_maximum_refuted"
   ],
   "note": "REFUTED as stated: the nonlinear term adds the neighbours where it should subtract them, so in the witness groundwater rises by more than half above every level that drives it, and on uneven grids level groundwater starts to move. Proved: level groundwater stays level on even grids, for any number of rows and sub-steps."
  },
  {
   "property": "C68",
   "status": "partial",
   "theorems": [
    "C68_wetting_flag",
    "C68_wetting_refuted"
   ],
   "note": "REFUTED as stated: the stored previous levels are the same array in which the solver writes boundary values, so a rise at the shoreline is not reported. Proved for all cells that are not boundary cells, without seepage face."
  },
  {
   "property": "C69",
   "status": "partial",
   "theorems": [
    "C69_update_runs",
    "C69_flooded_or_dry_raises"
   ],
   "note": "REFUTED as stated: a submerged transect, or a dry first or second cell, raises ValueError (universal theorem C69_flooded_or_dry_raises). Proved to complete when every transect has a shoreline from the second cell on."
  },
  {
   "property": "C70",
   "status": "partial",
   "theorems": [
    "C70_distribution_in_range",
    "C70_overtopping_refuted",
    "C70_every_substep_refuted"
   ],
   "note": "REFUTED as stated: when the runup overtops the profile the index -1 gives weights above one, and the overheight is added in every sub-step. Proved for even grids with the runup limit on the grid, per sub-step."
  },
  {
   "property": "C71",
   "status": "partial",
   "theorems": [
    "C71_tide_floods",
    "C71_fixed_without_runup",
    "C71_tide_without_runup_refuted",
    "C71_ebb_without_runup_refuted"
   ],
   "note": "REFUTED as stated: the total and dynamic water levels are only computed when process_runup is on; by default they keep their initial value, so the tide floods nothing and low-lying cells stay flooded at low tide. Proved with runup on, neutral runup mask and non-negative runup (C39)."
  },
  {
   "property": "C72",
   "status": "proved",
   "theorems": [
    "C72_drying_composes",
    "C72_drainage_composes"
   ],
   "note": "Proved for both methods: for infiltration through the whole update, for the surface method for its drainage step. Real arithmetic."
  },
  {
   "property": "C73",
   "status": "partial",
   "theorems": [
    "C73_continuous",
    "C73_reversal_height_zero",
    "C73_jump_refuted",
    "C73_search_sound",
    "C73_search_ends",
    "C73_endless_search_refuted",
    "C73_kept",
    "C73_first"
   ],
   "note": "REFUTED as stated: the height at reversal is always zero for negative alfaw, which is the default, and the moisture jumps by more than 0.1 in the witness; with a higher residual content for drying than for wetting the search never ends. Proved: exact continuity for positive alfaw, the search finds the first height within 0.01, and it ends for every consistent cell if resd <= resw (and keeps cells consistent). Real arithmetic."
  },
  {
   "property": "C74",
   "status": "partial",
   "theorems": [
    "C74_higher_waves",
    "C74_height_refuted",
    "C74_period_refuted"
   ],
   "note": "REFUTED as stated: at the limit between the dissipative and the reflective formula runup drops by more than a third for higher waves on a steep beach, and by a quarter for longer waves on a flat one. Proved: monotone in the height within each regime. Real arithmetic."
  },
  {
   "property": "C75",
   "status": "proved",
   "theorems": [
    "C75_salt",
    "C75_rain"
   ],
   "note": "Proved through the whole update, for all weather with non-negative rain. Real arithmetic."
  },
  {
   "property": "C76",
   "status": "partial",
   "theorems": [
    "C76_evaporation",
    "C76_low_gauge_refuted",
    "C76_dries"
   ],
   "note": "REFUTED as stated: for a wind gauge below two metres the wind profile factor is negative, and evaporation becomes negative (at exactly two metres it divides by zero). Proved for gauges above two metres. Real arithmetic."
  },
  {
   "property": "C77",
   "status": "partial",
   "theorems": [
    "C77_porosity_refuted",
    "C77_infiltration_runs",
    "C77_surface_runs",
    "C77_unknown_method",
    "C77_salt_raises",
    "C77_no_groundwater_refuted",
    "C77_no_parameter"
   ],
   "note": "REFUTED as stated: the check that surface moisture needs groundwater tests for None and accepts False; a satiated content above the porosity is accepted and is the default; salt without the surface moisture method fails with KeyError (universal theorem C77_salt_raises). Proved: the other combinations run, unknown methods are rejected."
  },
  {
   "property": "C78",
   "status": "partial",
   "theorems": [
    "C78_curves_ordered",
    "C78_curves_cross_refuted"
   ],
   "note": "REFUTED as stated: the default curves cross (witness at a suction of 457 cm). Proved for equal shape parameters n and m. Real arithmetic."
  },
  {
   "property": "C79",
   "status": "proved",
   "theorems": [
    "C79_between",
    "C79_range",
    "C79_steady",
    "C79_samples",
    "C79_repeats",
    "C79_pause"
   ],
   "note": "Proved for every file with increasing times and every time, for neighbouring directions less than half a turn apart. Real arithmetic; opposite directions are excluded because there the arc is not unique."
  },
  {
   "property": "C80",
   "status": "partial",
   "theorems": [
    "C80_roughness",
    "C80_follows",
    "C80_reversed_refuted",
    "C80_methods",
    "C80_flat_bed",
    "C80_unknown_raises",
    "C80_threshold_refuted"
   ],
   "note": "REFUTED as stated: if the roughness length exceeds the height z of the wind, which is not checked, the shear is against the wind; vanrijn is undefined for a wind exactly at the threshold; an unknown method raises NameError. Proved: positive roughness for all six methods, and the law for z0 < z."
  },
  {
   "property": "C81",
   "status": "partial",
   "theorems": [
    "C81_onshore",
    "C81_kept",
    "C81_offshore_refuted",
    "C81_generated_refuted"
   ],
   "note": "REFUTED as stated: the docstring of wind.interpolate promises it but offshore winds give a negative component, and the files of WindGenerator, with direction 0, blow along the shore. Proved for a wind normal to the shore."
  },
  {
   "property": "C82",
   "status": "partial",
   "theorems": [
    "C82_mirror",
    "C82_level",
    "C82_stretch",
    "C82_separation_level_refuted"
   ],
   "note": "REFUTED as stated: the separation bubble depends on the datum (the second polynomial starts from the bed level itself), so the same step 10 m lower is sheltered where at level 0 it is not. Proved for the perturbation: mirror, level and scale invariance."
  },
  {
   "property": "C83",
   "status": "partial",
   "theorems": [
    "C83_above_bed",
    "C83_gentle",
    "C83_alongshore_refuted"
   ],
   "note": "REFUTED as stated: for a wind exactly along the shore the grid size along the wind is set to 0.0001, so every falling slope separates. Proved: never below the bed; no separation on gentle beds for all other winds."
  },
  {
   "property": "C84",
   "status": "partial",
   "theorems": [
    "C84_normalised",
    "C84_percent_refuted"
   ],
   "note": "REFUTED as stated: the method mean_grainsize_initial uses the distribution without normalising it (the bed normalises), so percent give a hundredfold roughness. Proved: in the range of the grain sizes for normalised distributions."
  },
  {
   "property": "C85",
   "status": "proved",
   "theorems": [
    "C85_rows",
    "C85_stationary",
    "C85_requested"
   ],
   "note": "Proved in exact arithmetic for positive weights: the distribution r computed in each iteration is stationary for the chain built from p (detailed balance), so at the fixed point the requested one is. Convergence itself is not proved, and positivity of p is a hypothesis."
  },
  {
   "property": "C86",
   "status": "partial",
   "theorems": [
    "C86_in_bin",
    "C86_other_bin_refuted"
   ],
   "note": "REFUTED as stated: the lower end of the bin is computed as centre - 0.5 instead of centre - bin_size/2, so with bins wider or narrower than 1 m/s speeds fall in other bins. Proved for bins of 1 m/s."
  },
  {
   "property": "C87",
   "status": "proved",
   "theorems": [
    "C87_germination",
    "C87_all_steps",
    "C87_spreading"
   ],
   "note": "Proved: the chances per step and per cell are in [0,1] and compound to the configured ones. Independence of the random numbers is not modelled (the code uses one random number for germination and spreading)."
  },
  {
   "property": "C88",
   "status": "partial",
   "theorems": [
    "C88_grows",
    "C88_never_refuted"
   ],
   "note": "REFUTED as stated: with veggrowth_type duranmoore14 cells without cover are reset to zero, so germination and spreading never have an effect. Proved for the original formulation."
  },
  {
   "property": "C89",
   "status": "proved",
   "theorems": [
    "C89_burial"
   ],
   "note": "Proved for both formulations and every physical state."
  },
  {
   "property": "C90",
   "status": "proved",
   "theorems": [
    "C90_okin",
    "C90_raupach"
   ],
   "note": "Proved for the Okin model (plants and fences) and the Raupach model including its Gaussian filter. Real arithmetic."
  },
  {
   "property": "C91",
   "status": "proved",
   "theorems": [
    "C91_recovers",
    "C91_ends",
    "C91_raupach"
   ],
   "note": "Proved for the Okin model (plants and fences). Real arithmetic."
  },
  {
   "property": "C92",
   "status": "partial",
   "theorems": [
    "C92_bound",
    "C92_nearest",
    "C92_excess_refuted",
    "C92_lost_refuted"
   ],
   "note": "REFUTED as stated: (1) the volume above the toe in the first cell is not counted, so more is removed; (2) the eroded sand is not put anywhere (the code for it is commented out). Proved: removal is at most the demand plus the excess of the first cell, and the scarp is where the cumulative volume is nearest to the demand. The cell size is taken from the first two columns."
  },
  {
   "property": "C93",
   "status": "proved",
   "theorems": [
    "C93_stronger"
   ],
   "note": "Proved for every profile; setup and swash kept the same."
  },
  {
   "property": "C94",
   "status": "partial",
   "theorems": [
    "C94_datum",
    "C94_datum_refuted",
    "C94_tall_refuted"
   ],
   "note": "REFUTED as stated: (1) fences with a top below 0.1 m above datum are never there; (2) fences of more than 1.5 m count as eroded out at the first step and never come back. Proved for fence tops of at least 0.1 m above both datums."
  },
  {
   "property": "C95",
   "status": "partial",
   "theorems": [
    "C95_completes",
    "C95_no_coefficient_raises",
    "C95_no_swash_raises",
    "C95_default_refuted"
   ],
   "note": "REFUTED as stated: (1) the coefficient Cs has no default, so a KeyError is raised when the total water level exceeds the toe (also in the example case3_erosion_avalanching, whose configuration lacks it); (2) without runup (off by default) the swash is zero, the collision probability nan and nanargmin raises ValueError. Proved: with Cs and positive swash every step completes."
  },
  {
   "property": "C96",
   "status": "partial",
   "theorems": [
    "C96_aligned",
    "C96_row",
    "C96_upper_left_refuted"
   ],
   "note": "REFUTED as stated: for grids whose rows run to the upper left (orientation between 90 and 180 degrees) the arctangent without quadrant gives an angle 180 degrees off. Proved for all other orientations, including vertical ones. Real arithmetic."
  },
  {
   "property": "C97",
   "status": "partial",
   "theorems": [
    "C97_unrotated",
    "C97_spurious_refuted",
    "C97_missed_refuted"
   ],
   "note": "REFUTED as stated: the unrotated coordinates are tested, so a proper grid turned by 90 degrees is warned about and one with descending rows is not. Proved for grids along the axes. Real arithmetic."
  },
  {
   "property": "C98",
   "status": "partial",
   "theorems": [
    "C98_even",
    "C98_square",
    "C98_swapped_refuted",
    "C98_all_equal",
    "C98_uneven_refuted",
    "C98_one_dimension"
   ],
   "note": "REFUTED as stated: in two dimensions ds is computed from the distance of the rows and dn from that of the columns, so they are swapped unless cells are squares, while the solver divides the speed along x by ds; and all cells get the size of the first, whatever the grid. Proved: squares, areas of equal rectangles, and all one-dimensional grids. Real arithmetic."
  },
  {
   "property": "C99",
   "status": "partial",
   "theorems": [
    "C99_face_partial",
    "C99_outside",
    "C99_last_cell_refuted",
    "C99_all_wet_refuted",
    "C99_raised_refuted",
    "C99_shoreline_refuted"
   ],
   "note": "REFUTED as stated: the slice ends one cell early, so the last cell before the exit point keeps groundwater above the bed; a profile saturated up to the landward boundary is not limited at all (argmin of all True is 0); groundwater up to 5 cm below the bed is raised; and the shoreline cell is lowered from the sea level to its bed. Proved: all other cells of the face, and no change elsewhere. Rational arithmetic."
  },
  {
   "property": "C100",
   "status": "partial",
   "theorems": [
    "C100_file",
    "C100_distribution",
    "C100_layers_refuted"
   ],
   "note": "REFUTED as stated: a distribution per layer is flattened over the layers, so that the weights of the fractions do not add up to one and the first step picks up too little. Proved for one distribution and for bed composition files, whatever the linear solver. Rational arithmetic."
  },
  {
   "property": "C101",
   "status": "proved",
   "theorems": [
    "C101_shape",
    "C101_nothing_else"
   ],
   "note": "File dimensions are resolved through the dimension table of the file itself and compared with the shapes that model.initialize allocates (C09). The netCDF4 library is represented by named dimensions and variables."
  },
  {
   "property": "C102",
   "status": "proved",
   "theorems": [
    "C102_back",
    "C102_size"
   ],
   "note": "Values of any type; the text format of savetxt (18 decimals) is taken to be lossless."
  },
  {
   "property": "C103",
   "status": "partial",
   "theorems": [
    "C103_units_partial",
    "C103_unknown",
    "C103_table",
    "C103_lost_refuted",
    "C103_variance_refuted",
    "C103_coordinates"
   ],
   "note": "REFUTED as stated: fourteen variables (moist, gw, wetting, ...) have a comment between name and unit (#NEWCH), so their unit is not found; variances are given the unit of the variable itself. Proved: completeness of the pattern for every line of the plain form, no other units, and the complete table of constants.py, of which the text of lines 29-149 is part of the model. C103_coordinates: the coordinates have their units, the time counts seconds from the reference date."
  },
  {
   "property": "C104",
   "status": "partial",
   "theorems": [
    "C104_runs",
    "C104_each",
    "C104_clash_raises",
    "C104_coordinate_refuted"
   ],
   "note": "REFUTED as stated: x and y are grids of the model, but also coordinates of the file; requesting them raises RuntimeError (name in use). Proved: all other requests without repeated names succeed, and clashes always raise. The RuntimeError is that of the netCDF4 library for a name in use."
  },
  {
   "property": "C105",
   "status": "partial",
   "theorems": [
    "C105_intervals_partial",
    "C105_near",
    "C105_outside_refuted",
    "C105_transposed",
    "C105_transposed_refuted"
   ],
   "note": "REFUTED as stated: time_bounds is stored in single precision, so that from 2^28 seconds (8.5 years) on hourly times lie outside their bounds; x_bounds, y_bounds, lat_bounds and lon_bounds are (s, n, nv) while their coordinates are (n, s). Proved: exact up to 2^24 seconds, within one part in 2^24 in general (whole seconds)."
  },
  {
   "property": "C106",
   "status": "proved",
   "theorems": [
    "C106_one",
    "C106_nonnegative",
    "C106_bounded",
    "C106_fractions"
   ],
   "note": "Rectangular grids, connected lateral borders, known conditions at the ends, fully implicit for the later statements. Wind along the coast is uniform per column or blows towards higher rows; the steady state without it. The linear solver is a parameter."
  },
  {
   "property": "C107",
   "status": "partial",
   "theorems": [
    "C107_cell",
    "C107_oblique",
    "C107_balance",
    "C107_total",
    "C107_short_supply_refuted",
    "C107_crank_nicolson_refuted",
    "C107_oblique_refuted",
    "C107_steady_side_wind_refuted",
    "C107_uneven_side_wind_refuted"
   ],
   "note": "REFUTED as stated: when the bed holds less than the air can carry the pickup taken from the bed can be twice what gets into the air (first round limits by the mass per adaptation time, the pickup does not); with the Crank-Nicolson scheme; with one row and oblique wind; in the steady state with connected borders and wind along the coast (the flux through the last border is forgotten); with wind along the coast that differs between rows (coefficient of the wrong row). Proved: the balance of every round for any implicitness, the exact amount withheld with one row, and the balance per cell and in total within the tolerance when the bed holds what the air can carry."
  },
  {
   "property": "C108",
   "status": "partial",
   "theorems": [
    "C108_stays",
    "C108_onshore_flux_refuted",
    "C108_steady_side_wind_refuted",
    "C108_oblique_steady_grows"
   ],
   "note": "REFUTED as stated: at an onshore 'flux' boundary sand enters whatever the direction and none can leave; steadystatepieter with wind along the coast changes saturated air, and with one row of cells lets the concentration grow in every step by at least n C / (n + v T) when v T >= n. Proved for pieter in any uniform wind and steadystatepieter without wind along the coast, with 'gradient' or 'constant' onshore."
  },
  {
   "property": "C109",
   "status": "partial",
   "theorems": [
    "C109_kept",
    "C109_added",
    "C109_flux_refuted",
    "C109_drifts_refuted"
   ],
   "note": "REFUTED as stated: pieter ignores the configured number; without wind along the coast the concentration of the column never changes, with it the rows of the column are mixed. steadystatepieter adds the number to the concentration in every round of every time step."
  },
  {
   "property": "C110",
   "status": "partial",
   "theorems": [
    "C110_supply",
    "C110_overdrawn_refuted"
   ],
   "note": "REFUTED as stated: the pickup is limited to the mass only after it was stored (model.py:2198-2201), so it may exceed it by the tolerance. Proved: by no more than that."
  },
  {
   "property": "C111",
   "status": "partial",
   "theorems": [
    "C111_moving",
    "C111_first_step_refuted"
   ],
   "note": "REFUTED as stated: the first time step returns the weights before anything is computed. Proved for all other steps."
  },
  {
   "property": "C112",
   "status": "proved",
   "theorems": [
    "C112_hill",
    "C112_hollow",
    "C112_slope"
   ],
   "note": "One-dimensional grids; hill: the bed nowhere falls towards the top and its two neighbours are equally high."
  },
  {
   "property": "C113",
   "status": "partial",
   "theorems": [
    "C113_covers",
    "C113_straight",
    "C113_computed",
    "C113_size",
    "C113_tight_refuted",
    "C113_graded_refuted"
   ],
   "note": "REFUTED as stated: proved for grids with equal cells (any wind direction, oblique to the grid or not; along the axes the padding must exceed a cell by 1/800 of the grid). On a graded grid the computational grid is centred on the mean of the points and misses a part of the grid (C113_graded_refuted). maxDiff adds the difference of the list indices to the distance, so the grid is up to 3 m larger than intended, independent of the units of the grid (C113_tight_refuted, bounds in C113_size)."
  },
  {
   "property": "C114",
   "status": "partial",
   "theorems": [
    "C114_range",
    "C114_nodes",
    "C114_plane",
    "C114_beyond",
    "C114_cliff_refuted"
   ],
   "note": "REFUTED as stated: the extension beyond the edges is as wide as the larger number of rows or columns, counted in cells; beyond it the bed is put at 0 m (C114_cliff_refuted: a long narrow grid at 10 m has a cliff of 10 m next to it; distances in C114_beyond). The range, the grid points and planes are as stated."
  },
  {
   "property": "C115",
   "status": "proved",
   "theorems": [
    "C115_forward",
    "C115_calm",
    "C115_scale",
    "C115_perturbed",
    "C115_sheltered"
   ],
   "note": "For every Bessel function in place of scipy's kv; uniform roughness, no transects."
  },
  {
   "property": "C116",
   "status": "partial",
   "theorems": [
    "C116_above",
    "C116_gentle",
    "C116_streamline",
    "C116_cliff",
    "C116_ramp",
    "C116_longer",
    "C116_datum",
    "C116_no_wind",
    "C116_beach_refuted"
   ],
   "note": "REFUTED as stated: the surface starts as zeros, so every cell below the datum is in a bubble: from 10 cm below it the stress is zero (C116_datum), and on a grid below the datum there is no stress at all (C116_no_wind, C116_beach_refuted). Without filter iterations (sep_filter_iterations = 0, the default)."
  },
  {
   "property": "C117",
   "status": "partial",
   "theorems": [
    "C117_superposition",
    "C117_moved",
    "C117_level",
    "C117_flat_refuted",
    "C117_sideways_refuted"
   ],
   "note": "REFUTED as stated: the wave numbers are those of a grid with one more point without the first, so the mean bed level is treated as a wave of about the length of the grid. The perturbation changes in proportion to the level (C117_level) and, whatever the Bessel function, on some grid a level bed at 1 m perturbs the wind and one at 0 m does not (C117_flat_refuted). With a function like the Bessel function it also deflects the wind sideways (C117_sideways_refuted). The padded grid is taken as periodic."
  },
  {
   "property": "C118",
   "status": "partial",
   "theorems": [
    "C118_passes",
    "C118_half",
    "C118_taper_refuted",
    "C118_directions"
   ],
   "note": "REFUTED as stated: at the wave length of one cell a half is left (C118_half, C118_taper_refuted), and the filter is narrower along the wind than across it (C118_directions). All waves that the grid can represent pass: at least 99% along and 90% across the wind (C118_passes)."
  },
  {
   "property": "C119",
   "status": "partial",
   "theorems": [
    "C119_pattern",
    "C119_unit_refuted"
   ],
   "note": "REFUTED as stated: the iteration for the height of the middle layer starts at 1.0 instead of a multiple of a length, and five rounds do not forget it (C119_unit_refuted, for every function like the Bessel function). All perturbations change by the same factor (C119_pattern)."
  },
  {
   "property": "C120",
   "status": "partial",
   "theorems": [
    "C120_bounded",
    "C120_perpendicular",
    "C120_uniform",
    "C120_lost",
    "C120_unfenced_refuted",
    "C120_plane"
   ],
   "note": "REFUTED as stated: the components are swapped when they are turned back (fences.py:205), so the shear velocity that results is perpendicular to the wind for every grid, fence and direction (C120_perpendicular), also without fences (C120_uniform, C120_unfenced_refuted). The component along y is not used at all (C120_lost). It is never larger than the largest component along x (C120_bounded)."
  },
  {
   "property": "C121",
   "status": "partial",
   "theorems": [
    "C121_upwind",
    "C121_lee",
    "C121_far_refuted"
   ],
   "note": "REFUTED as stated: distances are measured along the x-axis of the model and not along the wind, so they are multiplied by the sine of the direction (C121_lee) and a fence of 1 m can shelter cells at any distance (C121_far_refuted). Cells upwind are not sheltered (C121_upwind)."
  },
  {
   "property": "C122",
   "status": "partial",
   "theorems": [
    "C122_runs",
    "C122_two_rows_raises",
    "C122_uniform_raises",
    "C122_circular_raises",
    "C122_no_rounds_raises"
   ],
   "note": "REFUTED as stated: two rows make the diagonals of the matrix coincide and scipy raises ValueError (C122_two_rows_raises), the documented boundary 'uniform' is unknown (C122_uniform_raises), circular ends raise NotImplementedError (C122_circular_raises), and with max_iter = 0 variables are missing (C122_no_rounds_raises). All other set-ups run (C122_runs)."
  },
  {
   "property": "C123",
   "status": "partial",
   "theorems": [
    "C123_border_refuted",
    "C123_balance_partial",
    "C123_whole_partial"
   ],
   "note": "REFUTED as stated: in the first and the last column the concentration is prescribed, but pickup is computed and taken from the bed all the same, so sand disappears there (C123_border_refuted). For the cells in between it holds over any number of steps for the solver trunk, fully implicit, onshore wind on a rectangular grid and the same capacity over moving and resting sand, as long as iterations converge and no step moves more than a layer (C123_balance_partial). For uniform winds of limited strength and thick enough equal layers these two conditions are consequences: such a run exists for every weather (C123_whole_partial). Mixing, avalanching and the other processes are switched off."
  },
  {
   "property": "C124",
   "status": "partial",
   "theorems": [
    "C124_file",
    "C124_direct_refuted",
    "C124_set_values",
    "C124_set_nothing",
    "C124_set_raises",
    "C124_set_backup"
   ],
   "note": "REFUTED: a run that succeeds uses exactly the parameters of the configuration file (C124_file), so a value put into the parameters is lost (C124_direct_refuted); after set_params every run fails (C124_set_raises), having made a copy of the configuration file (C124_set_backup)."
  },
  {
   "property": "C125",
   "status": "partial",
   "theorems": [
    "C125_function",
    "C125_in_file",
    "C125_configured",
    "C125_command",
    "C125_missing_file_raises",
    "C125_drive_raises",
    "C125_unnamed_raises",
    "C125_misspelt_refuted",
    "C125_word_ignored",
    "C125_blank_refuted"
   ],
   "note": "REFUTED: functions that are passed or found in a file are called (C125_function, C125_in_file, C125_configured) and missing files are reported (C125_missing_file_raises), but a misspelt function (C125_misspelt_refuted), a text without a colon (C125_word_ignored) and a path with a blank (C125_blank_refuted) are silently ignored; two colons (C125_drive_raises) and objects without a name (C125_unnamed_raises) are refused."
  },
  {
   "property": "C126",
   "status": "partial",
   "theorems": [
    "C126_absolute",
    "C126_rooted",
    "C126_path",
    "C126_here",
    "C126_callback_refuted",
    "C126_restart_refuted"
   ],
   "note": "REFUTED: callbacks and restart files are looked for in the directory of the configuration file (C126_callback_refuted, C126_restart_refuted). It holds there (C126_here), and with an absolute configuration file the result does not depend on the working directory (C126_absolute)."
  },
  {
   "property": "C127",
   "status": "partial",
   "theorems": [
    "C127_restored",
    "C127_exception_refuted",
    "C127_left",
    "C127_again_refuted",
    "C127_files"
   ],
   "note": "REFUTED for runs that fail: the working directory is then that of the configuration file (C127_exception_refuted, C127_left), and the same command a second time does not find its file (C127_again_refuted). It holds for runs that succeed (C127_restored). No file changes unless a parameter was set (C127_files)."
  },
  {
   "property": "C128",
   "status": "partial",
   "theorems": [
    "C128_found",
    "C128_default_raises",
    "C128_missing_raises"
   ],
   "note": "REFUTED: the default profile is built with a fractional number of points, which numpy refuses (C128_default_raises). Existing files are read (C128_found), missing ones are reported (C128_missing_raises)."
  },
  {
   "property": "C129",
   "status": "partial",
   "theorems": [
    "C129_accepted",
    "C129_rejected",
    "C129_no_y_refuted",
    "C129_no_y_nan",
    "C129_wind_name_refuted",
    "C129_wave_refuted"
   ],
   "note": "REFUTED: exactly the inputs that fulfil the listed conditions are accepted and all others rejected (C129_accepted, C129_rejected), but the conditions let through a two-dimensional grid without y coordinates (C129_no_y_refuted), which are then NaN (C129_no_y_nan), the name of a wind file that does not exist (C129_wind_name_refuted), and a wave file without periods (C129_wave_refuted)."
  },
  {
   "property": "C130",
   "status": "partial",
   "theorems": [
    "C130_cells",
    "C130_grid",
    "C130_mismatch_raises",
    "C130_line",
    "C130_too_few_refuted"
   ],
   "note": "REFUTED: a single line of numbers, written as a row or as a column, is used for every row (C130_line, C130_too_few_refuted). A file of the size of the grid is taken cell by cell (C130_cells), other tables are refused (C130_mismatch_raises)."
  },
  {
   "property": "C131",
   "status": "partial",
   "theorems": [
    "C131_average",
    "C131_late_refuted",
    "C131_no_step_raises"
   ],
   "note": "REFUTED: with equal time steps from time zero the average number of solves is right and the average time step always too small (C131_average); with a later start it can be more than twice too large (C131_late_refuted), and a run without steps fails (C131_no_step_raises)."
  },
  {
   "property": "C132",
   "status": "proved",
   "theorems": [
    "C132_loaded",
    "C132_others",
    "C132_size_raises"
   ],
   "note": "C132_loaded, C132_others, C132_size_raises. That the variable keeps these values during a run is C06."
  },
  {
   "property": "C133",
   "status": "partial",
   "theorems": [
    "C133_alone",
    "C133_order",
    "C133_limited_refuted"
   ],
   "note": "REFUTED if the bed cannot supply a class: the weight that it leaves only goes to the classes listed after it, so the total pickup depends on the order (C133_limited_refuted, by more than half). While every class is supplied, each gets exactly the result that it has alone (C133_alone) and the order does not matter (C133_order)."
  },
  {
   "property": "C134",
   "status": "partial",
   "theorems": [
    "C134_split",
    "C134_weights",
    "C134_influx_refuted"
   ],
   "note": "REFUTED with a boundary where sand enters: every class brings in its full capacity whatever its share of the bed, so twice as much enters after splitting (C134_influx_refuted). Without sand from outside and with enough sand in the bed it holds (C134_split), and the weights are split exactly (C134_weights)."
  },
  {
   "property": "C135",
   "status": "partial",
   "theorems": [
    "C135_shift",
    "C135_mirror",
    "C135_gust_refuted"
   ],
   "note": "REFUTED when the wind along the coast differs between the rows: the first and the last row use their own speed where the others use their neighbour's (C135_gust_refuted). Proved for every wind that does not vary along the coast, for all beds, capacities and weights that do (C135_shift, C135_mirror)."
  },
  {
   "property": "C136",
   "status": "partial",
   "theorems": [
    "C136_turned",
    "C136_lull_refuted"
   ],
   "note": "REFUTED when the wind is calm somewhere: sand that is blown into a calm cell arrives there if it comes from the sea and is lost if it comes from the land (C136_lull_refuted). Proved for every wind without calm cells (C136_turned)."
  },
  {
   "property": "C137",
   "status": "partial",
   "theorems": [
    "C137_rows",
    "C137_oblique_refuted"
   ],
   "note": "REFUTED if the single row has wind along the coast: it loses sand sideways, as if its neighbours were empty (C137_oblique_refuted). Proved if the wind of the single row is across the coast, with any wind along the coast in the equal rows (C137_rows)."
  },
  {
   "property": "C138",
   "status": "proved",
   "theorems": [
    "C138_units"
   ],
   "note": "Proved for all boundary conditions, also when the iteration is limited by sand or does not converge; the exceptions are the same too."
  },
  {
   "property": "C139",
   "status": "partial",
   "theorems": [
    "C139_units",
    "C139_constant_refuted"
   ],
   "note": "REFUTED with 'constant' lateral boundaries: there the concentration is the capacity divided by the adaptation time as a number, so it depends on the unit of time (C139_constant_refuted). Proved with circular ones (C139_units)."
  },
  {
   "property": "C140",
   "status": "proved",
   "theorems": [
    "C140_units"
   ],
   "note": "Proved for solve (all boundary conditions) and for the steady state with circular lateral boundaries."
  },
  {
   "property": "C141",
   "status": "partial",
   "theorems": [
    "C141_step",
    "C141_grows",
    "C141_steady",
    "C141_more_refuted"
   ],
   "note": "REFUTED: in these rows nothing is blown in or out; every step adds capacity times dt / T, without limit (C141_step, C141_grows, C141_more_refuted), and in the steady state the concentration is the capacity divided by T (C141_steady)."
  },
  {
   "property": "C142",
   "status": "proved",
   "theorems": [
    "C142_downwind"
   ],
   "note": "Proved (C142_downwind), also when the two iterations take different numbers of rounds."
  },
  {
   "property": "C143",
   "status": "proved",
   "theorems": [
    "C143_downwind"
   ],
   "note": "Proved (C143_downwind)."
  },
  {
   "property": "C144",
   "status": "partial",
   "theorems": [
    "C144_half_refuted"
   ],
   "note": "REFUTED (C144_half_refuted): the explicit half makes negative concentrations, whose removal rescales the concentrations of the whole grid (model.py:1364-1379), so that sand in the air of a cell downwind lowers what is in the air upwind of it."
  },
  {
   "property": "C145",
   "status": "partial",
   "theorems": [
    "C145_sum_refuted",
    "C145_most_refuted",
    "C145_sum_partial",
    "C145_average_partial",
    "C145_most_partial",
    "C145_least_partial",
    "C145_variance_partial",
    "C145_now"
   ],
   "note": "REFUTED (C145_sum_refuted, C145_most_refuted): q is computed after the statistics have been gathered (model.py:2772), so they are one step behind: the flux before the interval counts and that of the last step does not. Proved exactly (C145_sum_partial, C145_average_partial, C145_most_partial, C145_least_partial, C145_variance_partial); q itself is right (C145_now)."
  },
  {
   "property": "C146",
   "status": "partial",
   "theorems": [
    "C146_calm_refuted",
    "C146_calm_partial"
   ],
   "note": "REFUTED (C146_calm_refuted): when the wind speed is zero the transport is not computed (model.py:300) and qs, qn, Ct and pickup keep the values of the last windy step, in every calm step that follows (C146_calm_partial)."
  },
  {
   "property": "C147",
   "status": "partial",
   "theorems": [
    "C147_twice_refuted",
    "C147_windy_partial",
    "C147_calm_partial"
   ],
   "note": "REFUTED when some steps have no wind (C147_twice_refuted): the pickup of the last windy step counts again in every calm step (C147_calm_partial). Proved when there is wind in all steps, steps that converge and move less than a layer (C147_windy_partial)."
  },
  {
   "property": "C148",
   "status": "proved",
   "theorems": [
    "C148_above",
    "C148_gentle",
    "C148_off"
   ],
   "note": "Whole grid with sep_filter_iterations and zsep_y_filter."
  },
  {
   "property": "C149",
   "status": "partial",
   "theorems": [
    "C149_low_pass_refuted",
    "C149_never_partial",
    "C149_scaled_partial",
    "C149_higher_partial",
    "C149_cliff_partial"
   ],
   "note": "REFUTED (C149_low_pass_refuted, C149_never_partial): the array of wave numbers k (shear.py:397) is overwritten by the loop variable of the bubbles (435), so all wave lengths of the row are reduced by one factor that depends on the number of the bubble, and by none for the first one (C149_scaled_partial). The iterations never lower the surface (C149_higher_partial) and have no effect behind cliffs (C149_cliff_partial)."
  },
  {
   "property": "C150",
   "status": "proved",
   "theorems": [
    "C150_range",
    "C150_volume",
    "C150_level",
    "C150_tiny",
    "C150_surface"
   ],
   "note": "Proved. Because of the width of 0.2 cells it hardly smooths: no value changes by more than a 50000th of the height (C150_tiny, C150_surface)."
  },
  {
   "property": "C151",
   "status": "partial",
   "theorems": [
    "C151_rows_refuted",
    "C151_ok_partial",
    "C151_raises_partial"
   ],
   "note": "REFUTED (C151_rows_refuted): the number of rows is taken from the length of a row (shear.py:384), so with more rows than columns a bubble in a row beyond raises IndexError (C151_raises_partial). Proved otherwise (C151_ok_partial)."
  },
  {
   "property": "C152",
   "status": "proved",
   "theorems": [
    "C152_kept",
    "C152_output",
    "C152_h",
    "C152_fences",
    "C152_nsavetimes",
    "C152_grain",
    "C152_ambiguous"
   ],
   "note": "Proved, for all ways in which a parameter can be given (C152_kept, C152_output, C152_h, C152_fences, C152_nsavetimes, C152_grain); lists and files are not accepted there (C152_ambiguous)."
  },
  {
   "property": "C153",
   "status": "proved",
   "theorems": [
    "C153_file",
    "C153_unreadable",
    "C153_missing"
   ],
   "note": "Proved."
  },
  {
   "property": "C154",
   "status": "partial",
   "theorems": [
    "C154_off_refuted",
    "C154_single_partial"
   ],
   "note": "REFUTED (C154_off_refuted): in a list of words the names are parsed with the default parse_files=True (inout.py:277). Proved for single values (C154_single_partial)."
  },
  {
   "property": "C155",
   "status": "partial",
   "theorems": [
    "C155_blanks_refuted",
    "C155_gaps_partial"
   ],
   "note": "REFUTED (C155_blanks_refuted): each blank too many adds an item None (C155_gaps_partial, which also gives the items for single blanks)."
  },
  {
   "property": "C156",
   "status": "partial",
   "theorems": [
    "C156_defaults_refuted",
    "C156_these_partial",
    "C156_others_partial"
   ],
   "note": "REFUTED (C156_defaults_refuted): Cs (dune erosion), m (sheltering) and method_moist (in the message about an unknown formulation) have no default, so these raise KeyError (C156_these_partial); all others have one (C156_others_partial)."
  },
  {
   "property": "C157",
   "status": "proved",
   "theorems": [
    "C157_grids",
    "C157_masks"
   ],
   "note": "Proved from the tables of all reads in the source text."
  },
  {
   "property": "C158",
   "status": "partial",
   "theorems": [
    "C158_used_refuted",
    "C158_idle_partial",
    "C158_others_partial"
   ],
   "note": "REFUTED (C158_used_refuted): dzdry, taus_u, taun_u, dtaus and dtaun keep the value zero (C158_idle_partial); all others are used (C158_others_partial)."
  },
  {
   "property": "C159",
   "status": "proved",
   "theorems": [
    "C159_grows",
    "C159_law",
    "C159_length",
    "C159_ample"
   ],
   "note": "Proved, for both solvers with implicit steps (C159_grows) and for the steady state as an exact law (C159_law, C159_length). C159_ample shows when the weights, in which the capacity is expressed, are the given ones."
  },
  {
   "property": "C160",
   "status": "proved",
   "theorems": [
    "C160_rest",
    "C160_only"
   ],
   "note": "Proved in both directions (C160_rest, C160_only; the latter not for the boundary noflux offshore, which the steady-state solver does not accept)."
  },
  {
   "property": "C161",
   "status": "proved",
   "theorems": [
    "C161_step",
    "C161_runs",
    "C161_steady"
   ],
   "note": "Proved for one step (C161_step), for runs (C161_runs) and towards the steady state (C161_steady)."
  },
  {
   "property": "C162",
   "status": "proved",
   "theorems": [
    "C162_order",
    "C162_builds_up"
   ],
   "note": "Proved, for implicit steps (C162_order, C162_builds_up)."
  },
  {
   "property": "C163",
   "status": "proved",
   "theorems": [
    "C163_balance",
    "C163_whole"
   ],
   "note": "Proved: C163_balance for every run whose iterations converge and in which no step moves a whole layer, C163_whole that there is such a run whenever concentrations are limited and layers thick enough. The border columns, from which sand disappears, are the subject of C123."
  },
  {
   "property": "C164",
   "status": "proved",
   "theorems": [
    "C164_waves"
   ],
   "note": "Proved (C164_waves)."
  },
  {
   "property": "C165",
   "status": "partial",
   "theorems": [
    "C165_higher_waves_refuted",
    "C165_law_partial"
   ],
   "note": "REFUTED: C165_higher_waves_refuted, two layers of 5 cm are mixed completely by waves that disturb 10 cm and only by half by waves that disturb 20 cm. The factor f (bed.py:158-161) was meant for sand from below the lowest layer, the term for which is commented out (bed.py:184-185). C165_law_partial gives the exact factor for all cells."
  },
  {
   "property": "C166",
   "status": "partial",
   "theorems": [
    "C166_layers_refuted",
    "C166_masses_partial"
   ],
   "note": "REFUTED: C166_layers_refuted, a layer of 1 cm on one of 3 cm: both get the same mass, since the mean over layers (bed.py:183) is not weighted with thickness. C166_masses_partial gives the exact change: only layers of equal mass keep it (as in C23 and C163)."
  },
  {
   "property": "C167",
   "status": "partial",
   "theorems": [
    "C167_wind_refuted",
    "C167_step_partial",
    "C167_weights_partial"
   ],
   "note": "REFUTED: C167_wind_refuted, the explicit part uses the new wind speed with the old concentrations (model.py:1333-1345). C167_step_partial: with the new speed at both ends the law holds in every inner cell, as long as no concentration was cut off at zero; C167_weights_partial: the weights that the next step reads."
  },
  {
   "property": "C168",
   "status": "proved",
   "theorems": [
    "C168_bounds",
    "C168_bare"
   ],
   "note": "C168_bounds, C168_bare: whole runs (days of Day_Model) in which no step brings a cell more than a layer of sand; capacity over resting and over moving sand equal or the first zero, as on a non-erodible layer."
  },
  {
   "property": "C169",
   "status": "partial",
   "theorems": [
    "C169_stopped",
    "C169_rock_partial",
    "C169_thick_refuted"
   ],
   "note": "REFUTED: C169_thick_refuted, the threshold looks at the level at the start of the step and stops the wind 1 cm above the layer, so a step that takes more than that digs into it (layers thicker than 1 cm). C169_rock_partial: it digs no deeper than nel + 1 cm - h where h is the most that one step can take; with the default layer_thickness of 1 cm never below nel. C169_stopped: no capacity within 1 cm of the layer."
  },
  {
   "property": "C170",
   "status": "partial",
   "theorems": [
    "C170_always",
    "C170_ends_partial",
    "C170_noflux_refuted",
    "C170_side_refuted"
   ],
   "note": "REFUTED: C170_noflux_refuted, with boundary_offshore 'noflux' the landward condition is ignored (model.py:1242 tests boundary_offshore in the onshore branch) and nothing reaches the last column; C170_side_refuted, lateral 'constant' fixes the whole first and last row at zero, ends included. C170_always: holds for all fully implicit converged steps otherwise with prescribed ends. C170_ends_partial: for every pair of conditions, wind and scheme, if there is sand in the air everywhere; missing are results from which negative concentrations were cut off."
  },
  {
   "property": "C171",
   "status": "proved",
   "theorems": [
    "C171_files",
    "C171_uncoupled"
   ],
   "note": "C171_files with the independent reading rule `reads` (the series is repeated one second after its last point, see C55); C171_uncoupled ties the model with coupled variables to it."
  },
  {
   "property": "C172",
   "status": "partial",
   "theorems": [
    "C172_level",
    "C172_held_partial",
    "C172_waves",
    "C172_runup",
    "C172_mask_refuted",
    "C172_dry_refuted",
    "C172_period_refuted"
   ],
   "note": "REFUTED: C172_mask_refuted, apply_mask changes the stored arrays in place, so a mask acts again in every step; C172_dry_refuted, the level filled into a low dry cell makes it wet and it then feeds its neighbours in the next step; C172_period_refuted, with only 'Tp' coupled the wave file is not read (hydro.py:110). C172_level, C172_waves, C172_runup, C172_held_partial: one step, and any number of steps where there is no mask, for wet cells."
  },
  {
   "property": "C173",
   "status": "proved",
   "theorems": [
    "C173_lag",
    "C173_flat"
   ],
   "note": "C173_lag with the independent balances `settles` and `lags` (Grain_Spec); C173_flat. The cell must lie outside separation bubbles and the wind must not be zero. Reals axioms."
  },
  {
   "property": "C174",
   "status": "partial",
   "theorems": [
    "C174_plane",
    "C174_transect",
    "C174_ends_refuted",
    "C174_two_rows_refuted",
    "C174_turned_refuted"
   ],
   "note": "REFUTED: C174_ends_refuted, on a transect (ny = 0) the first and last cell are taken as level; C174_two_rows_refuted, with two rows the alongshore slope is zero; C174_turned_refuted, on a turned grid the rise is divided by the difference of the x coordinate, not by the distance along the row. C174_plane: exact everywhere on grids along the axes with at least three rows and columns; C174_transect: exact in the inner cells of a transect. Reals axioms."
  },
  {
   "property": "C175",
   "status": "proved",
   "theorems": [
    "C175_datum"
   ],
   "note": "C175_datum, by induction over the passes. Exact reals: rounding of doubles is not modelled. Reals axioms."
  },
  {
   "property": "C176",
   "status": "partial",
   "theorems": [
    "C176_mirror_s",
    "C176_mirror_n",
    "C176_exchange_partial",
    "C176_column_refuted",
    "C176_oblong_refuted"
   ],
   "note": "REFUTED for the exchange of rows and columns: C176_oblong_refuted, the depth of the sand above the non-erodible layer is divided by ds in both directions (avalanching.py:140); C176_column_refuted, a single row slides and a single column does not. C176_mirror_s, C176_mirror_n: proved for both mirror images on every grid; C176_exchange_partial: proved for square cells and at least two rows and columns. Reals axioms."
  },
  {
   "property": "C177",
   "status": "partial",
   "theorems": [
    "C177_pass_partial",
    "C177_unit_refuted"
   ],
   "note": "REFUTED: C177_unit_refuted, the flux is a function of the slope only and is added to the bed level as a length (avalanching.py:187), so each pass moves up to 0.2 of the unit, whatever the unit and the size of the cells. C177_pass_partial: the change of the bed in a pass is exactly the same number in every unit. Reals axioms."
  },
  {
   "property": "C178",
   "status": "proved",
   "theorems": [
    "C178_weather",
    "C178_columns"
   ],
   "note": "C178_weather with the independent reading rule of C171; C178_columns for interp_array without repetition."
  },
  {
   "property": "C179",
   "status": "partial",
   "theorems": [
    "C179_binary_partial",
    "C179_one_off_partial",
    "C179_decimal_refuted"
   ],
   "note": "REFUTED: C179_decimal_refuted, dt = 0.1 and tstop = 0.3 give three updates in place of four (the fourth time point is 0.30000000000000004). C179_binary_partial: exact for all settings that are whole numbers of some power of two of a second; C179_one_off_partial: for all settings never more than one update off, up to some tens of millions of updates. Round_Model.dbl is rounding to nearest even with 53 bits; overflow and underflow are left out."
  },
  {
   "property": "C180",
   "status": "partial",
   "theorems": [
    "C180_binary_partial",
    "C180_one_off_partial",
    "C180_decimal_refuted"
   ],
   "note": "REFUTED: C180_decimal_refuted, dt = 0.1 and output_times = 1 write after updates 0, 11, 21, 31, 41 (ten tenths add up to 0.9999999999999999, and t - tout >= output_times asks for no tolerance, model.py:2787). C180_binary_partial: exact for all settings that are whole numbers of some power of two of a second; C180_one_off_partial: for all settings output comes after m or m+1 updates each time."
  },
  {
   "property": "C181",
   "status": "partial",
   "theorems": [
    "C181_present_partial",
    "C181_absent_refuted"
   ],
   "note": "REFUTED: C181_absent_refuted, in a cell with little sand of the first fraction and none of the second the concentration is computed with weight 0.19 and the weight kept is 1, because renormalize_weights scales fractions that were handled before when the rest has no share (transport.py:433). C181_present_partial: true for all fractions in all cells with a share of the last fraction, for the solver trunk, fully implicit, when the iterations converge."
  },
  {
   "property": "C182",
   "status": "proved",
   "theorems": [
    "C182_water"
   ],
   "note": "C182_water for the whole update of a cell, with scanning curves or without, with salt or without."
  },
  {
   "property": "C183",
   "status": "partial",
   "theorems": [
    "C183_slope",
    "C183_windless_partial",
    "C183_excess",
    "C183_wind_refuted"
   ],
   "note": "REFUTED: C183_wind_refuted, the code has 1 + 0.86 u2; at night with 20 m/s of wind a third more evaporates than documented. C183_excess: more than documented in every wind unless the air is saturated. C183_windless_partial: as documented in still air. C183_slope: the slope is the derivative of the saturation pressure up to 0.005 %."
  },
  {
   "property": "C184",
   "status": "partial",
   "theorems": [
    "C184_dissipative",
    "C184_reflective_low",
    "C184_runup_refuted",
    "C184_setup_refuted"
   ],
   "note": "REFUTED: C184_runup_refuted, the code has 0.0004 where the documentation (and Stockdon et al.) has 0.004; on a slope of 1:20 the runup is less than three quarters of the documented one. C184_reflective_low: always too low unless the beach is dissipative. C184_setup_refuted: the documented set-up 0.35 times the Iribarren number is not what is computed (nor a length); C184_reflective_low: it is that of Stockdon et al. C184_dissipative: as documented on dissipative beaches."
  },
  {
   "property": "C185",
   "status": "partial",
   "theorems": [
    "C185_unsaturated_partial",
    "C185_between",
    "C185_above",
    "C185_bed_only",
    "C185_saturated_refuted"
   ],
   "note": "REFUTED: C185_saturated_refuted, once (1 - z) times the saturation reaches one the bed has no influence at all, where 20 % is documented for z = 0.2. C185_unsaturated_partial: as documented up to saturation. C185_between, C185_above: what is computed otherwise. C185_bed_only: the bed alone for z = 1."
  },
  {
   "property": "C186",
   "status": "partial",
   "theorems": [
    "C186_factors_partial",
    "C186_ignored",
    "C186_moist_refuted"
   ],
   "note": "REFUTED: C186_moist_refuted, the residual moisture is added to the boundary of 0.005; with the defaults a mass content of 1 % has no effect where a factor 1.8 is documented. C186_factors_partial: as documented for every content outside that gap. C186_ignored: inside it, the threshold of the dry bed."
  },
  {
   "property": "C187",
   "status": "partial",
   "theorems": [
    "C187_drying_partial",
    "C187_evaporation_refuted"
   ],
   "note": "REFUTED: C187_evaporation_refuted, evaporation is ignored by this method. C187_drying_partial: the documented value for no evaporation (and water above the bed by more than eps)."
  },
  {
   "property": "C188",
   "status": "proved",
   "theorems": [
    "C188_rate"
   ],
   "note": "C188_rate for finite thresholds; infinite ones give no transport (C28)."
  },
  {
   "property": "C189",
   "status": "partial",
   "theorems": [
    "C189_computed",
    "C189_crest_partial",
    "C189_grid",
    "C189_boussinesq_refuted"
   ],
   "note": "REFUTED: C189_boussinesq_refuted, levels of neighbouring cells are added where they should be subtracted; with a slope of 1:100 and cells of 1 m the rise is more than 800 times the documented one. C189_computed: what is computed. C189_crest_partial: as documented at a crest or trough at the datum. C189_grid: on a straight sloping table the rate doubles when the spacing is halved."
  },
  {
   "property": "C190",
   "status": "partial",
   "theorems": [
    "C190_shift",
    "C190_datum_refuted"
   ],
   "note": "REFUTED: C190_datum_refuted, with a datum lower by 1 m the rate is almost doubled. C190_shift: by how much the rate changes, where the documented one does not."
  },
  {
   "property": "C191",
   "status": "proved",
   "theorems": [
    "C191_curves"
   ],
   "note": "C191_curves, through the whole update; away from satiation (divisors of at least 0.0001, below which the code limits them). The stored reversal is C73."
  },
  {
   "property": "C192",
   "status": "partial",
   "theorems": [
    "C192_drains_partial",
    "C192_default_refuted"
   ],
   "note": "REFUTED: C192_default_refuted, the default fc of 0.11 is above the documented value for the default soil (below 0.09), and a bed with 0.10 never drains. C192_drains_partial: as documented where fc has been set to the documented value and no limit is reached."
  },
  {
   "property": "C193",
   "status": "partial",
   "theorems": [
    "C193_added",
    "C193_rate_refuted"
   ],
   "note": "REFUTED: C193_rate_refuted, Cl_gw f(x) is added in every sub-step as a height, so that the rise does not depend on the length of the step, the conductivity and the porosity. C193_added: what is computed; the distribution is the documented one, except in the column of the peak."
  },
  {
   "property": "C194",
   "status": "partial",
   "theorems": [
    "C194_temperature_partial",
    "C194_columns_refuted",
    "C194_saturated_refuted"
   ],
   "note": "REFUTED: C194_columns_refuted, the four quantities other than the temperature (C194_temperature_partial) are taken from other columns; C194_saturated_refuted, on a documented dry day the humidity of 80 % becomes a rain of 80 mm/h and the bed is saturated within the hour."
  },
  {
   "property": "C195",
   "status": "partial",
   "theorems": [
    "C195_height",
    "C195_cover_partial",
    "C195_cover_refuted"
   ],
   "note": "REFUTED for the growth in cover: C195_cover_refuted, veggrowth_type other than orig uses the configured step p['dt'] instead of the step that is taken, so that plants grow in a second as much as in an hour. C195_height: the growth in height is right. C195_cover_partial: right in steps of the configured length."
  },
  {
   "property": "C196",
   "status": "partial",
   "theorems": [
    "C196_steady_partial",
    "C196_average_refuted"
   ],
   "note": "REFUTED: C196_average_refuted, plants respond to the change of the last time step alone (the average is computed and not used, bed.py:465-466), so that plants shrink on a bed that goes up and down. C196_steady_partial: with a steady change the two agree."
  },
  {
   "property": "C197",
   "status": "partial",
   "theorems": [
    "C197_lowers",
    "C197_fresh_refuted"
   ],
   "note": "REFUTED: C197_fresh_refuted, the factor is computed with 1 - salt, so that a bed with salt content zero (the initial state) has more than twenty times the documented threshold. C197_lowers: any increase of salt lowers the threshold."
  },
  {
   "property": "C198",
   "status": "proved",
   "theorems": [
    "C198_stays"
   ],
   "note": "The linear system is assumed to have one solution, which the linear solver finds (proved for connected borders, C106). An onshore flux boundary is excluded (C108_onshore_flux_refuted), and with a constant offshore or onshore boundary wind along the coast."
  },
  {
   "property": "C199",
   "status": "partial",
   "theorems": [
    "C199_border_partial",
    "C199_border_refuted"
   ],
   "note": "REFUTED: C199_border_refuted, the coefficients of the next row are taken one row too far when the sparse matrix is built, so that the equation of the first row contains the coefficient of the second row; with wind towards the lower rows its concentration changes. C199_border_partial: without wind towards the lower rows the border concentrations are kept, up to the common factor with which negative concentrations elsewhere are made up for."
  },
  {
   "property": "C200",
   "status": "partial",
   "theorems": [
    "C200_rows_partial",
    "C200_rows_refuted",
    "C200_excess_refuted"
   ],
   "note": "REFUTED: C200_rows_refuted and C200_excess_refuted, for the same reason as C199, with wind towards the lower rows. C200_rows_partial: true of every wind straight onshore or towards the higher rows."
  },
  {
   "property": "C201",
   "status": "partial",
   "theorems": [
    "C201_capitals_partial",
    "C201_capitals_refuted",
    "C201_capitals_matter"
   ],
   "note": "REFUTED: C201_capitals_refuted, vegshear_type = Okin selects the method of Raupach without a message, and veggrowth_type = Orig another law of growth. C201_capitals_matter: scheme, method_roughness, method_grainspeed, wind_convention, vegshear_type and veggrowth_type all mind capitals. C201_capitals_partial: solver, boundary_gw, method_moist_threshold, method_moist_process and method_transport do not."
  },
  {
   "property": "C202",
   "status": "partial",
   "theorems": [
    "C202_unknown_partial",
    "C202_unknown_refuted",
    "C202_unknown_others"
   ],
   "note": "REFUTED: C202_unknown_refuted, an unknown veggrowth_type (and vegshear_type) is accepted. C202_unknown_others: an unknown solver, method_roughness or method_grainspeed ends in UnboundLocalError, method_moist_threshold in KeyError (the message reads p['method_moist']), boundary_gw in TypeError (the message has no place for the name). C202_unknown_partial: scheme, method_moist_process, method_transport and wind_convention are refused as they should, once the code that compares them is reached."
  },
  {
   "property": "C203",
   "status": "partial",
   "theorems": [
    "C203_names_partial",
    "C203_names_refuted",
    "C203_misnamed"
   ],
   "note": "REFUTED: C203_names_refuted and C203_misnamed, constants.py:306 calls the surface moisture method surface_moisture (code: surf_moisture; ValueError) and the docstring of calculate_z0 the method of Van Rijn and Strypsteen strypsteen_vanrijn (code: vanrijn_strypsteen; UnboundLocalError). C203_names_partial: all others lead to their method."
  }
 ]
}