# A machine-checked model of AeoLiS

Source: `/repo` (openearth/aeolis-python), read as text only; nothing of it was run.

## 1. Approach

* The model is a *shallow* embedding: each Python function becomes one Gallina function
  (`rocq/theories/*_Model.v`), branch by branch. Exceptions are values (`result`).
  A function that changes an array or a dictionary returns the new value.
* Arithmetic. AeoLiS computes in IEEE doubles. The model computes exactly: rationals (`Q`, executable)
  wherever the code uses only `+ - * /`, comparisons, `floor`, minimum and maximum; classical reals (`R`)
  where it uses `sqrt`, `exp`, `sin`, `tanh`, `log`, powers. **Rounding and overflow are not modelled** (except for the clock, C179 and C180),
  except in the number of wind classes (`Gen_Model.bin_count`, binary64). Infinity and NaN are modelled
  (`Ext.v`) where the code stores or compares them on purpose: thresholds, statistics, normalisation, dune erosion.
* Arrays. A cell-wise numpy statement is modelled as a function on one cell; a statement that
  couples cells (sums, neighbours, matrices) is modelled on lists or index functions of arbitrary length.
* Files: `X_Model.v` definitions only, each citing `/repo` file and lines; `X_Spec.v` small
  independent specifications; `X_Proofs.v` and others lemmas; `X_Cases.v` assembled statements and concrete cases;
  `X_Props.v` only theorems, each closed by `exact`, with `Print Assumptions` beneath and an `Example` with a
  non-trivial case that meets its hypotheses.
* A statement false of the faithful model is refuted by a witness (`..._refuted`); what remains
  true is proved. Such properties have the status `partial` in `MANIFEST.json`; the note says which part fails.

## 2. Per property: what is modelled, how it is proved

| id | status | model | theorems |
|----|--------|-------|----------|
| C01 Configuration file: last assignment wins, defaults fill the rest | proved | `Config_Model.v` | `C01_last_assignment_wins`, `C01_default_when_never_assigned`, `C01_assigned_or_not`, `C01_irrelevant_lines`, `C01_inline_comment`, `C01_output_file` |
| C02 Booleans, integers and None survive printing and re-reading | partial | `Config_Model.v` | `C02_int_roundtrip`, `C02_bool_roundtrip`, `C02_list_roundtrip`, `C02_none_roundtrip_partial`, `C02_none_default_fill_refuted`, `C02_singleton_list_refuted` |
| C03 Textual parameters are read back verbatim | partial | `Config_Model.v` | `C03_text_verbatim_refuted`, `C03_text_verbatim_partial`, `C03_equal_sign_refuted` |
| C04 Every configuration value parses to a value or text, never an exception | partial | `Config_Model.v` | `C04_never_raises_refuted`, `C04_raises_only_on_malformed_number_partial`, `C04_malformed_number_raises` |
| C05 Backing up a file never destroys an existing file | proved | `Config_Model.v` | `C05_backup_first_free`, `C05_backup_exhausted`, `C05_backup_preserves` |
| C06 Variables fixed by hotstart are never changed by the model | partial | `State_Model.v` | `C06_bulk_update_refuted`, `C06_in_place_refuted`, `C06_bulk_new_variable_refuted`, `C06_assignments_partial`, `C06_fixed_partial` |
| C07 Setting a variable through the BMI and reading it back | partial | `State_Model.v` | `C07_concentration_refuted`, `C07_set_get_partial`, `C07_concentration_divided`, `C07_others_unchanged`, `C07_last_set_wins`, `C07_unknown_ignored`, `C07_unknown_none`, `C07_immutable_ignored` |
| C08 BMI variable enumeration is complete and without repetition | proved | `State_Model.v` | `C08_enumeration`, `C08_beyond`, `C08_negative`, `C08_set_by_index` |
| C09 Declared dimensions agree with grid sizes | proved | `State_Model.v` | `C09_shapes`, `C09_named`, `C09_rank_is_length_of_shape` |
| C10 Requested time step semantics | partial | `Time_Model.v` | `C10_explicit_scheme_refuted`, `C10_skip_runs_processes_refuted`, `C10_requested_step_partial`, `C10_configured_step_partial`, `C10_explicit_step`, `C10_skip_partial`, `C10_unknown_scheme` |
| C11 A run always reaches its stop time | partial | `Time_Model.v` | `C11_explicit_calm_refuted`, `C11_bedlevel_limit_calm_refuted`, `C11_zero_length_refuted`, `C11_explicit_calm_stuck`, `C11_explicit_calm_start`, `C11_bedlevel_limit_stall`, `C11_number_of_updates_partial`, `C11_explicit_ends_partial`, `C11_no_step` |
| C12 Adaptive time step keeps the bed level change bounded and time moving forward | partial | `Time_Model.v` | `C12_erosion_backwards_refuted`, `C12_erosion_unbounded_refuted`, `C12_accretion_partial`, `C12_first_step` |
| C13 Output is written at the requested interval | partial | `Runner_Model.v` | `C13_late_start_refuted`, `C13_schedule_partial`, `C13_gap` |
| C14 Output statistics equal the statistics of the values since the previous output | partial | `Runner_Model.v` | `C14_unrequested_refuted`, `C14_query_discards_refuted`, `C14_statistics_partial` |
| C15 The runner can be updated and queried in any order | partial | `Runner_Model.v` | `C15_update_first_refuted`, `C15_statistics_only_refuted`, `C15_names_refuted`, `C15_first_update_always_fails`, `C15_any_order_partial`, `C15_plain_names_partial`, `C15_one_underscore`, `C15_two_underscores`, `C15_underscore_statistic`, `C15_dotted` |
| C16 The grid has its original orientation after every update | partial | `Rotate_Model.v` | `C16_skip_refuted`, `C16_saltation_velocity_refuted`, `C16_aborted_update`, `C16_completed_partial`, `C16_identity_partial`, `C16_distances`, `C16_inner_product`, `C16_vectors_follow_grid`, `C16_direction` |
| C17 A run interrupted and restarted from a restart file continues identically | partial | `Runner_Model.v`, `State_Model.v` | `C17_run_with_restart_fails`, `C17_dump_refuted`, `C17_load_refuted`, `C17_load_nothing` |
| C18 Output file time axis | proved | `Runner_Model.v` | `C18_bounds_and_history`, `C18_slice` |
| C19 Normalisation produces a distribution | proved | `Utils_Model.v` | `C19_rows`, `C19_rows_fill`, `C19_columns`, `C19_columns_fill` |
| C20 Fraction weights always form a distribution | partial | `Utils_Model.v` | `C20_weights_refuted`, `C20_weights_partial`, `C20_air_partial`, `C20_renormalize`, `C20_earlier_refuted`, `C20_earlier_partial` |
| C21 Boundary-condition time series repeat circularly | proved | `Utils_Model.v` | `C21_linear`, `C21_sample`, `C21_range`, `C21_periodic`, `C21_hold` |
| C22 Mask files apply multiplication then addition | proved | `Utils_Model.v` | `C22_cell`, `C22_identity`, `C22_absent`, `C22_compose` |
| C23 Wave mixing of bed layers conserves sediment | proved | `Bed_Model.v` | `C23_mixing` |
| C24 Initial bed composition | partial | `Bed_Model.v` | `C24_file_ignored_refuted`, `C24_file`, `C24_longer_refuted`, `C24_shorter`, `C24_uniform_partial`, `C24_layered_partial`, `C24_integers_refuted`, `C24_matrix`, `C24_matrix_raises` |
| C25 Bed update conserves sediment and layer mass | partial | `Bed_Model.v` | `C25_equal_refuted`, `C25_thin_refuted`, `C25_update_partial` |
| C26 Prevention of negative layer masses preserves the exchanged mass | partial | `Bed_Model.v` | `C26_deposit_refuted`, `C26_discarded`, `C26_preserved_partial` |
| C27 Tidal bed reset moves the bed towards its initial level without overshoot | partial | `Bed_Model.v` | `C27_overshoot_refuted`, `C27_dry`, `C27_towards_partial`, `C27_converges_partial` |
| C28 No transport capacity below threshold | partial | `Threshold_Model.v` | `C28_below_threshold_partial`, `C28_dk_refuted`, `C28_threshold_file_refuted`, `C28_calm_flat_refuted`, `C28_calm`, `C28_flat_partial`, `C28_flat_refuted`, `C28_bagnold_gs_rows` |
| C29 Moisture never makes sand easier to move | partial | `Threshold_Model.v` | `C29_raises_partial`, `C29_grows_partial`, `C29_very_wet`, `C29_saleh_fryear_refuted`, `C29_cornelis_refuted`, `C29_dong_2007_refuted`, `C29_gregory_refuted` |
| C30 Cells at the non-erodible layer are not eroded | partial | `Threshold_Model.v` | `C30_non_erodible_partial`, `C30_no_transport`, `C30_fluid_threshold_refuted`, `C30_history_refuted` |
| C31 Erosion never exceeds the sediment available in the top layer | partial | `Solver_Model.v` | `C31_within_supply`, `C31_converges`, `C31_unconverged_refuted` |
| C32 The implicit transport system has one non-negative, bounded solution | partial | `Solver_Model.v` | `C32_one_nonnegative`, `C32_one_any_onshore`, `C32_result_is_solution`, `C32_bounded`, `C32_diverging_wind_refuted`, `C32_gradient_end_refuted`, `C32_dying_wind_refuted` |
| C33 Removing negative concentrations conserves the total | partial | `Solver_Model.v` | `C33_total`, `C33_no_positive_refuted`, `C33_negative_remains_refuted`, `C33_steadystate_nan_refuted`, `C33_uneven_grid_refuted` |
| C34 Avalanching redistributes sand without creating it | partial | `Avalanche_Model.v` | `C34_lost_refuted`, `C34_created_refuted`, `C34_stable`, `C34_border`, `C34_stops`, `C34_total_partial`, `C34_conserved_partial` |
| C35 Water level is never below the bed and waves are depth limited | partial | `Hydro_Model.v` | `C35_water_level_not_below_bed`, `C35_waves_limited_by_depth`, `C35_wave_mask_refuted` |
| C36 Soil moisture stays physical | proved | `Moist_Model.v` | `C36_infiltration_range`, `C36_surface_range` |
| C37 Groundwater stays below the surface | partial | `Hydro_Model.v` | `C37_groundwater_bounded`, `C37_substeps_cover`, `C37_time_lost_refuted`, `C37_no_substep_refuted`, `C37_short_step_raises` |
| C38 Soil water retention with hysteresis stays between the main curves | proved | `Moist_Model.v` | `C38_between_main_curves`, `C38_one_scanning_curve`, `C38_waterlogged` |
| C39 Wave runup is non-negative and consistent between scalar and array input | partial | `Moist_Model.v` | `C39_scalar_nonneg`, `C39_array_nonneg`, `C39_no_waves`, `C39_scalar_array`, `C39_regime_limit_refuted`, `C39_flat_beach_refuted` |
| C40 Wind components and shear stresses are consistent | partial | `Wind_Model.v` | `C40_consistent`, `C40_round_trip`, `C40_separation_refuted`, `C40_flat_bed_refuted` |
| C41 Topographic shear perturbation never reverses the wind | partial | `Wind_Model.v` | `C41_perturbation`, `C41_separation`, `C41_magnitude_refuted` |
| C42 Vegetation cover stays physical and does not appear without germination | partial | `Veg_Model.v` | `C42_physical`, `C42_dead`, `C42_bare`, `C42_no_growth`, `C42_regrows_refuted`, `C42_grows_off_refuted`, `C42_cover_refuted`, `C42_start` |
| C43 Sheltering by plants and fences only reduces shear | partial | `Shelter_Model.v` | `C43_plants`, `C43_fences`, `C43_upwind`, `C43_calm_refuted`, `C43_orientation_refuted`, `C43_raupach`, `C43_raupach_upwind_refuted` |
| C44 Fences are buried and eroded out consistently | proved | `Fence_Model.v` | `C44_range`, `C44_none`, `C44_gone`, `C44_stands` |
| C45 Dune erosion only lowers the bed landward of the dune toe | partial | `Erosion_Model.v` | `C45_lowers`, `C45_above_toe`, `C45_calm`, `C45_calm_row`, `C45_behind_refuted` |
| C46 Generated wind time series are valid | partial | `Gen_Model.v` | `C46_valid`, `C46_maximum_refuted`, `C46_extra_bin_endless`, `C46_hangs_refuted` |
| C47 Characteristic grain sizes lie between the smallest and largest fraction | partial | `Utils_Model.v` | `C47_mean`, `C47_percentile_refuted`, `C47_percentile_partial`, `C47_single`, `C47_monotone` |
| C48 Wind convention and calm/longshore fixes | proved | `Wind_Model.v` | `C48_nautical`, `C48_cartesian`, `C48_cartesian_components`, `C48_unknown` |
| C49 Written configuration files read back to the same configuration | partial | `Config_Model.v` | `C49_write_read_refuted`, `C49_write_read_plain_partial`, `C49_float_refuted`, `C49_float_accuracy`, `C49_float_exact`, `C49_table`, `C49_list` |
| C50 Default output configuration names existing variables | partial | `State_Model.v` | `C50_default_outputs_refuted`, `C50_other_outputs_partial`, `C50_one_shape` |
| C51 Boolean words switch options on and off | partial | `Config_Model.v` | `C51_word_False_refuted`, `C51_letters_partial` |
| C52 Numbers in decimal and scientific notation are read as numbers | partial | `Config_Model.v` | `C52_scientific_refuted`, `C52_decimal_partial` |
| C53 Every enumerated variable can be described | partial | `State_Model.v` | `C53_objects_refuted`, `C53_arrays_partial` |
| C54 Every configured parameter can be read and set through the interface | partial | `State_Model.v` | `C54_shadowed_parameters_refuted`, `C54_which_parameters`, `C54_other_parameters_partial` |
| C55 A time series seamlessly repeats after its own length | partial | `Utils_Model.v` | `C55_repeat_refuted` |
| C56 The running average of the bed level change stays within the observed range | partial | `Bed_Model.v` | `C56_average_refuted`, `C56_average_partial`, `C56_yearly` |
| C57 Avalanching does not erode the non-erodible layer | partial | `Avalanche_Model.v` | `C57_uncovered_refuted`, `C57_limited_partial`, `C57_depth_partial` |
| C58 More wind carries more sand, a higher threshold carries less | partial | `Threshold_Model.v` | `C58_shear_velocity`, `C58_threshold_partial`, `C58_kawamura_refuted`, `C58_dk_refuted` |
| C59 Every threshold option can be switched on | partial | `Threshold_Model.v` | `C59_options_partial`, `C59_switch_refuted`, `C59_drylayer_raises`, `C59_humidity_raises`, `C59_sheltering_raises`, `C59_unknown_method_raises` |
| C60 Bed surface properties only raise the threshold | partial | `Threshold_Model.v` | `C60_only_raised_partial`, `C60_sheltering_refuted` |
| C61 The threshold depends on the present bed surface only | partial | `Threshold_Model.v` | `C61_fresh_partial`, `C61_compound_refuted` |
| C62 Sand moves with the wind | partial | `Threshold_Model.v` | `C62_constant_speed_partial`, `C62_bubble`, `C62_duran_refuted` |
| C63 Sediment is conserved between bed and air | partial | `Solver_Model.v` | `C63_cell`, `C63_total`, `C63_oblique_1d_refuted`, `C63_fluid_capacity_refuted`, `C63_crank_nicolson_refuted`, `C63_converging_wind_refuted`, `C63_diverging_wind_refuted`, `C63_lateral_wind_refuted`, `C63_mirrored_refuted` |
| C64 Saturated uniform transport leaves the bed alone | partial | `Solver_Model.v` | `C64_saturated`, `C64_oblique_1d_refuted` |
| C65 Every documented solver set-up runs | partial | `Solver_Model.v` | `C65_runs`, `C65_steadystate_raises`, `C65_steadystate_refuted`, `C65_two_rows_raises`, `C65_onshore_noflux_raises`, `C65_steadystate_noflux_raises`, `C65_lateral_raises` |
| C66 Groundwater transects are independent | partial | `Hydro_Model.v` | `C66_equal_shorelines_independent`, `C66_transects_refuted` |
| C67 Groundwater relaxes towards what drives it | partial | `Hydro_Model.v` | `C67_equilibrium_kept`, `C67_uneven_grid_refuted`, `C67_maximum_refuted` |
| C68 The wetting flag reports a rising groundwater table | partial | `Hydro_Model.v` | `C68_wetting_flag`, `C68_wetting_refuted` |
| C69 The groundwater update works for every tide | partial | `Hydro_Model.v` | `C69_update_runs`, `C69_flooded_or_dry_raises` |
| C70 Runup raises the groundwater by at most the overheight | partial | `Hydro_Model.v` | `C70_distribution_in_range`, `C70_overtopping_refuted`, `C70_every_substep_refuted` |
| C71 The tide floods the cells below it | partial | `Hydro_Model.v` | `C71_tide_floods`, `C71_fixed_without_runup`, `C71_tide_without_runup_refuted`, `C71_ebb_without_runup_refuted` |
| C72 Drying does not depend on the time step | proved | `Moist_Model.v` | `C72_drying_composes`, `C72_drainage_composes` |
| C73 Hysteresis switches curves without a jump | partial | `Moist_Model.v` | `C73_continuous`, `C73_reversal_height_zero`, `C73_jump_refuted`, `C73_search_sound`, `C73_search_ends`, `C73_endless_search_refuted`, `C73_kept`, `C73_first` |
| C74 Higher and longer waves run up higher | partial | `Moist_Model.v` | `C74_higher_waves`, `C74_height_refuted`, `C74_period_refuted` |
| C75 The salt factor stays a fraction | proved | `Moist_Model.v` | `C75_salt`, `C75_rain` |
| C76 Evaporation dries | partial | `Moist_Model.v` | `C76_evaporation`, `C76_low_gauge_refuted`, `C76_dries` |
| C77 Every moisture set-up runs or is rejected with a clear error | partial | `Moist_Model.v` | `C77_porosity_refuted`, `C77_infiltration_runs`, `C77_surface_runs`, `C77_unknown_method`, `C77_salt_raises`, `C77_no_groundwater_refuted`, `C77_no_parameter` |
| C78 The drying curve lies above the wetting curve | partial | `Moist_Model.v` | `C78_curves_ordered`, `C78_curves_cross_refuted` |
| C79 The wind between two samples lies between them | proved | `Wind_Model.v` | `C79_between`, `C79_range`, `C79_steady`, `C79_samples`, `C79_repeats`, `C79_pause` |
| C80 The shear velocity blows with the wind | partial | `Wind_Model.v` | `C80_roughness`, `C80_follows`, `C80_reversed_refuted`, `C80_methods`, `C80_flat_bed`, `C80_unknown_raises`, `C80_threshold_refuted` |
| C81 A one-dimensional model uses a single positive wind component | partial | `Wind_Model.v` | `C81_onshore`, `C81_kept`, `C81_offshore_refuted`, `C81_generated_refuted` |
| C82 The topographic shear depends on the shape of the bed only | partial | `Wind_Model.v` | `C82_mirror`, `C82_level`, `C82_stretch`, `C82_separation_level_refuted` |
| C83 Flow separates only behind steep slopes | partial | `Wind_Model.v` | `C83_above_bed`, `C83_gentle`, `C83_alongshore_refuted` |
| C84 The roughness does not depend on the unit of the grain distribution | partial | `Wind_Model.v` | `C84_normalised`, `C84_percent_refuted` |
| C85 The wind generator has the requested distribution | proved | `Gen_Model.v` | `C85_rows`, `C85_stationary`, `C85_requested` |
| C86 A generated wind speed lies in the bin of its state | partial | `Gen_Model.v` | `C86_in_bin`, `C86_other_bin_refuted` |
| C87 Chances of germination and spreading do not depend on the time step | proved | `Veg_Model.v` | `C87_germination`, `C87_all_steps`, `C87_spreading` |
| C88 Germination leads to vegetation | partial | `Veg_Model.v` | `C88_grows`, `C88_never_refuted` |
| C89 Burial away from the optimum never helps plants | proved | `Veg_Model.v` | `C89_burial` |
| C90 More vegetation or higher fences never let more shear through | proved | `Shelter_Model.v` | `C90_okin`, `C90_raupach` |
| C91 Shelter decays with distance and ends | proved | `Shelter_Model.v` | `C91_recovers`, `C91_ends`, `C91_raupach` |
| C92 Dune erosion removes the volume that waves erode, and conserves sand | partial | `Erosion_Model.v` | `C92_bound`, `C92_nearest`, `C92_excess_refuted`, `C92_lost_refuted` |
| C93 Stronger attack never erodes less | proved | `Erosion_Model.v` | `C93_stronger` |
| C94 Fences do not depend on the vertical datum | partial | `Fence_Model.v` | `C94_datum`, `C94_datum_refuted`, `C94_tall_refuted` |
| C95 Dune erosion works with default settings | partial | `Erosion_Model.v` | `C95_completes`, `C95_no_coefficient_raises`, `C95_no_swash_raises`, `C95_default_refuted` |
| C96 The computed orientation aligns the grid | partial | `Grid_Model.v` | `C96_aligned`, `C96_row`, `C96_upper_left_refuted` |
| C97 Grids with descending coordinates are warned about | partial | `Grid_Model.v` | `C97_unrotated`, `C97_spurious_refuted`, `C97_missed_refuted` |
| C98 Cell sizes are those of the grid | partial | `Grid_Model.v` | `C98_even`, `C98_square`, `C98_swapped_refuted`, `C98_all_equal`, `C98_uneven_refuted`, `C98_one_dimension` |
| C99 The seepage face holds the groundwater at the bed | partial | `Hydro_Model.v` | `C99_face_partial`, `C99_outside`, `C99_last_cell_refuted`, `C99_all_wet_refuted`, `C99_raised_refuted`, `C99_shoreline_refuted` |
| C100 The first step picks up the fractions that are in the bed | partial | `Solver_Model.v` | `C100_file`, `C100_distribution`, `C100_layers_refuted` |
| C101 Output variables have the shape of their grids | proved | `Netcdf_Model.v` | `C101_shape`, `C101_nothing_else` |
| C102 A dumped time slice restores the bed composition | proved | `Netcdf_Model.v` | `C102_back`, `C102_size` |
| C103 Output variables carry their documented unit | partial | `Netcdf_Model.v` | `C103_units_partial`, `C103_unknown`, `C103_table`, `C103_lost_refuted`, `C103_variance_refuted`, `C103_coordinates` |
| C104 Every state variable can be written to the output file | partial | `Netcdf_Model.v` | `C104_runs`, `C104_each`, `C104_clash_raises`, `C104_coordinate_refuted` |
| C105 Bounds in the output file | partial | `Netcdf_Model.v` | `C105_intervals_partial`, `C105_near`, `C105_outside_refuted`, `C105_transposed`, `C105_transposed_refuted` |
| C106 The pieter solvers have one, non-negative, bounded result | proved | `Pieter_Model.v` | `C106_one`, `C106_nonnegative`, `C106_bounded`, `C106_fractions` |
| C107 The pieter solvers conserve sediment | partial | `Pieter_Model.v` | `C107_cell`, `C107_oblique`, `C107_balance`, `C107_total`, `C107_short_supply_refuted`, `C107_crank_nicolson_refuted`, `C107_oblique_refuted`, `C107_steady_side_wind_refuted`, `C107_uneven_side_wind_refuted` |
| C108 Saturated air in a uniform wind stays saturated (pieter) | partial | `Pieter_Model.v` | `C108_stays`, `C108_onshore_flux_refuted`, `C108_steady_side_wind_refuted`, `C108_oblique_steady_grows` |
| C109 A constant flux boundary gives that flux (pieter) | partial | `Pieter_Model.v` | `C109_kept`, `C109_added`, `C109_flux_refuted`, `C109_drifts_refuted` |
| C110 No more sediment is taken than there is (pieter) | partial | `Pieter_Model.v` | `C110_supply`, `C110_overdrawn_refuted` |
| C111 Wind over sand moves it in every time step (pieter) | partial | `Pieter_Model.v` | `C111_moving`, `C111_first_step_refuted` |
| C112 Hills speed up the wind, hollows slow it down | proved | `Wind_Model.v` | `C112_hill`, `C112_hollow`, `C112_slope` |
| C113 The computational grid of the shear covers the model grid | partial | `Shear_Model.v` | `C113_covers`, `C113_straight`, `C113_computed`, `C113_size`, `C113_tight_refuted`, `C113_graded_refuted` |
| C114 Interpolation between the grids of the shear | partial | `Shear_Model.v` | `C114_range`, `C114_nodes`, `C114_plane`, `C114_beyond`, `C114_cliff_refuted` |
| C115 Two-dimensional wind shear keeps the direction of the wind | proved | `Shear_Model.v` | `C115_forward`, `C115_calm`, `C115_scale`, `C115_perturbed`, `C115_sheltered` |
| C116 No separation bubble where nothing is steep | partial | `Shear_Model.v` | `C116_above`, `C116_gentle`, `C116_streamline`, `C116_cliff`, `C116_ramp`, `C116_longer`, `C116_datum`, `C116_no_wind`, `C116_beach_refuted` |
| C117 The perturbation of the wind depends on the shape of the bed only | partial | `Shear_Model.v` | `C117_superposition`, `C117_moved`, `C117_level`, `C117_flat_refuted`, `C117_sideways_refuted` |
| C118 The high-frequency filter of the shear | partial | `Shear_Model.v` | `C118_passes`, `C118_half`, `C118_taper_refuted`, `C118_directions` |
| C119 The unit of length does not matter for the perturbation | partial | `Shear_Model.v` | `C119_pattern`, `C119_unit_refuted` |
| C120 Fences in two dimensions slow the wind and do not turn it | partial | `Fence2_Model.v` | `C120_bounded`, `C120_perpendicular`, `C120_uniform`, `C120_lost`, `C120_unfenced_refuted`, `C120_plane` |
| C121 The lee of a fence does not depend on the wind direction | partial | `Fence2_Model.v` | `C121_upwind`, `C121_lee`, `C121_far_refuted` |
| C122 Every documented set-up runs with the pieter solvers | partial | `Pieter_Model.v` | `C122_runs`, `C122_two_rows_raises`, `C122_uniform_raises`, `C122_circular_raises`, `C122_no_rounds_raises` |
| C123 Over a whole run sand is neither made nor lost | partial | `Run_Model.v` | `C123_border_refuted`, `C123_balance_partial`, `C123_whole_partial` |
| C124 Parameters set before a run take effect | partial | `Start_Model.v` | `C124_file`, `C124_direct_refuted`, `C124_set_values`, `C124_set_nothing`, `C124_set_raises`, `C124_set_backup` |
| C125 A callback is called in every time step or rejected | partial | `Start_Model.v` | `C125_function`, `C125_in_file`, `C125_configured`, `C125_command`, `C125_missing_file_raises`, `C125_drive_raises`, `C125_unnamed_raises`, `C125_misspelt_refuted`, `C125_word_ignored`, `C125_blank_refuted` |
| C126 Paths on the command line are relative to the working directory | partial | `Start_Model.v` | `C126_absolute`, `C126_rooted`, `C126_path`, `C126_here`, `C126_callback_refuted`, `C126_restart_refuted` |
| C127 A run leaves the working directory as it was | partial | `Start_Model.v` | `C127_restored`, `C127_exception_refuted`, `C127_left`, `C127_again_refuted`, `C127_files` |
| C128 Without a configuration file the default settings are used | partial | `Start_Model.v` | `C128_found`, `C128_default_raises`, `C128_missing_raises` |
| C129 Missing or malformed input files are rejected at the start | partial | `Start_Model.v` | `C129_accepted`, `C129_rejected`, `C129_no_y_refuted`, `C129_no_y_nan`, `C129_wind_name_refuted`, `C129_wave_refuted` |
| C130 Every cell gets its bed level from the bed file | partial | `Start_Model.v` | `C130_cells`, `C130_grid`, `C130_mismatch_raises`, `C130_line`, `C130_too_few_refuted` |
| C131 The statistics printed after a run are those of the run | partial | `Start_Model.v` | `C131_average`, `C131_late_refuted`, `C131_no_step_raises` |
| C132 Hotstart files set the initial state | proved | `Start_Model.v` | `C132_loaded`, `C132_others`, `C132_size_raises` |
| C133 The order of the grain size classes does not matter | partial | `Solver_Model.v` | `C133_alone`, `C133_order`, `C133_limited_refuted` |
| C134 Splitting a grain size class in two changes nothing | partial | `Solver_Model.v` | `C134_split`, `C134_weights`, `C134_influx_refuted` |
| C135 The place along the coast does not matter | partial | `Solver_Model.v` | `C135_shift`, `C135_mirror`, `C135_gust_refuted` |
| C136 Land and sea can be exchanged | partial | `Solver_Model.v` | `C136_turned`, `C136_lull_refuted` |
| C137 One row and many equal rows give the same result | partial | `Solver_Model.v` | `C137_rows`, `C137_oblique_refuted` |
| C138 The units do not matter in a time step | proved | `Bed_Model.v`, `Run_Model.v`, `Solver_Model.v` | `C138_units` |
| C139 The units do not matter in the steady state | partial | `Bed_Model.v`, `Run_Model.v`, `Solver_Model.v` | `C139_units`, `C139_constant_refuted` |
| C140 The units do not matter in a whole run | proved | `Bed_Model.v`, `Run_Model.v`, `Solver_Model.v` | `C140_units` |
| C141 The air beside the lateral boundaries holds no more than it can carry | partial | `Solver_Model.v` | `C141_step`, `C141_grows`, `C141_steady`, `C141_more_refuted` |
| C142 What lies downwind of a place does not matter to it | proved | `Run_Model.v`, `Solver_Model.v` | `C142_downwind` |
| C143 What lies downwind of a place does not matter during a whole run | proved | `Run_Model.v`, `Solver_Model.v` | `C143_downwind` |
| C144 What lies downwind does not matter with Crank-Nicolson | partial | `Run_Model.v`, `Solver_Model.v` | `C144_half_refuted` |
| C145 Statistics of the flux are those of the flux | partial | `Report_Model.v` | `C145_sum_refuted`, `C145_most_refuted`, `C145_sum_partial`, `C145_average_partial`, `C145_most_partial`, `C145_least_partial`, `C145_variance_partial`, `C145_now` |
| C146 Without wind no flux is reported | partial | `Report_Model.v` | `C146_calm_refuted`, `C146_calm_partial` |
| C147 The sum of the pickup is what has left the bed | partial | `Report_Model.v` | `C147_twice_refuted`, `C147_windy_partial`, `C147_calm_partial` |
| C148 The separation surface lies on the bed | proved | `Filter_Model.v` | `C148_above`, `C148_gentle`, `C148_off` |
| C149 The iterations filter the separation surface | partial | `Filter_Model.v` | `C149_low_pass_refuted`, `C149_never_partial`, `C149_scaled_partial`, `C149_higher_partial`, `C149_cliff_partial` |
| C150 Smoothing of the separation surface across the wind | proved | `Filter_Model.v` | `C150_range`, `C150_volume`, `C150_level`, `C150_tiny`, `C150_surface` |
| C151 Filtering of the separation surface works on every grid | partial | `Filter_Model.v` | `C151_rows_refuted`, `C151_ok_partial`, `C151_raises_partial` |
| C152 Parameters that are left out are filled in from others | proved | `Config_Model.v` | `C152_kept`, `C152_output`, `C152_h`, `C152_fences`, `C152_nsavetimes`, `C152_grain`, `C152_ambiguous` |
| C153 The name of a data file stands for its contents | proved | `Config_Model.v` | `C153_file`, `C153_unreadable`, `C153_missing` |
| C154 parse_files=False leaves files alone | partial | `Config_Model.v` | `C154_off_refuted`, `C154_single_partial` |
| C155 The number of blanks between the items of a list does not matter | partial | `Config_Model.v` | `C155_blanks_refuted`, `C155_gaps_partial` |
| C156 Every parameter that the code reads has a value | partial | `Names_Model.v` | `C156_defaults_refuted`, `C156_these_partial`, `C156_others_partial` |
| C157 Every grid that the code reads exists | proved | `Names_Model.v` | `C157_grids`, `C157_masks` |
| C158 Every declared grid is used | partial | `Names_Model.v` | `C158_used_refuted`, `C158_idle_partial`, `C158_others_partial` |
| C159 Transport grows with the fetch | proved | `Solver_Model.v` | `C159_grows`, `C159_law`, `C159_length`, `C159_ample` |
| C160 The steady state is where the time steps come to rest | proved | `Solver_Model.v` | `C160_rest`, `C160_only` |
| C161 The air at the start is forgotten | proved | `Solver_Model.v` | `C161_step`, `C161_runs`, `C161_steady` |
| C162 Transport builds up steadily | proved | `Solver_Model.v` | `C162_order`, `C162_builds_up` |
| C163 Sand is accounted for in whole runs with waves and feedback | proved | `Day_Model.v` | `C163_balance`, `C163_whole` |
| C164 Waves move no sand | proved | `Day_Model.v` | `C164_waves` |
| C165 Higher waves mix the bed at least as well | partial | `Day_Model.v` | `C165_higher_waves_refuted`, `C165_law_partial` |
| C166 Mixing keeps the mass of every layer | partial | `Day_Model.v` | `C166_layers_refuted`, `C166_masses_partial` |
| C167 A Crank-Nicolson step averages both ends of the step | partial | `Run_Model.v`, `Solver_Model.v` | `C167_wind_refuted`, `C167_step_partial`, `C167_weights_partial` |
| C168 A place is eroded no faster than the wind can carry, and raised by no more than the wind brings | proved | `Day_Model.v`, `Run_Model.v`, `Solver_Model.v`, `Threshold_Model.v` | `C168_bounds`, `C168_bare` |
| C169 The wind does not dig into the non-erodible layer | partial | `Day_Model.v`, `Run_Model.v`, `Solver_Model.v`, `Threshold_Model.v` | `C169_stopped`, `C169_rock_partial`, `C169_thick_refuted` |
| C170 The computed concentrations meet the boundary conditions at sea and at land | partial | `Solver_Model.v` | `C170_always`, `C170_ends_partial`, `C170_noflux_refuted`, `C170_side_refuted` |
| C171 Water level and waves follow their files | proved | `Sea_Model.v` | `C171_files`, `C171_uncoupled` |
| C172 Water level and waves of a coupled model are used as given until the next exchange | partial | `Sea_Model.v` | `C172_level`, `C172_held_partial`, `C172_waves`, `C172_runup`, `C172_mask_refuted`, `C172_dry_refuted`, `C172_period_refuted` |
| C173 Sand grains lag behind the air by their fall velocity | proved | `Grain_Model.v` | `C173_lag`, `C173_flat` |
| C174 The slope of the bed used for the grain speed is that of the bed | partial | `Grain_Model.v` | `C174_plane`, `C174_transect`, `C174_ends_refuted`, `C174_two_rows_refuted`, `C174_turned_refuted` |
| C175 Avalanching does not depend on the vertical datum | proved | `Avalanche_Model.v` | `C175_datum` |
| C176 Avalanching treats all directions alike | partial | `Avalanche_Model.v` | `C176_mirror_s`, `C176_mirror_n`, `C176_exchange_partial`, `C176_column_refuted`, `C176_oblong_refuted` |
| C177 The unit of length does not matter for avalanching | partial | `Avalanche_Model.v` | `C177_pass_partial`, `C177_unit_refuted` |
| C178 The weather follows its file | proved | `Weather_Model.v` | `C178_weather`, `C178_columns` |
| C179 The number of updates does not suffer from rounding | partial | `Round_Model.v` | `C179_binary_partial`, `C179_one_off_partial`, `C179_decimal_refuted` |
| C180 Output at regular times does not suffer from rounding | partial | `Round_Model.v` | `C180_binary_partial`, `C180_one_off_partial`, `C180_decimal_refuted` |
| C181 The weights kept after a step are those the step was computed with | partial | `Run_Model.v`, `Solver_Model.v`, `Utils_Model.v` | `C181_present_partial`, `C181_absent_refuted` |
| C182 Rain and evaporation change the water in the surface layer by their millimetres | proved | `Moist_Model.v` | `C182_water` |
| C183 Evaporation follows the documented equation | partial | `Moist_Model.v` | `C183_slope`, `C183_windless_partial`, `C183_excess`, `C183_wind_refuted` |
| C184 Runup and set-up follow the documented formulas | partial | `Moist_Model.v` | `C184_dissipative`, `C184_reflective_low`, `C184_runup_refuted`, `C184_setup_refuted` |
| C185 Bed and air share in the weights of the fractions as documented | partial | `Utils_Model.v` | `C185_unsaturated_partial`, `C185_between`, `C185_above`, `C185_bed_only`, `C185_saturated_refuted` |
| C186 The threshold is the documented product of factors | partial | `Threshold_Model.v` | `C186_factors_partial`, `C186_ignored`, `C186_moist_refuted` |
| C187 A bed without groundwater dries as documented | partial | `Moist_Model.v` | `C187_drying_partial`, `C187_evaporation_refuted` |
| C188 The saturated transport rate is the documented one | proved | `Threshold_Model.v` | `C188_rate` |
| C189 Groundwater flows by the documented Boussinesq equation | partial | `Hydro_Model.v` | `C189_computed`, `C189_crest_partial`, `C189_grid`, `C189_boussinesq_refuted` |
| C190 Groundwater does not depend on the vertical datum | partial | `Hydro_Model.v` | `C190_shift`, `C190_datum_refuted` |
| C191 Capillary moisture follows the documented retention curves | proved | `Moist_Model.v` | `C191_curves` |
| C192 Water above the documented field capacity infiltrates | partial | `Moist_Model.v` | `C192_drains_partial`, `C192_default_refuted` |
| C193 Runup feeds the groundwater at the documented rate | partial | `Hydro_Model.v` | `C193_added`, `C193_rate_refuted` |
| C194 A weather file in the documented format is read as documented | partial | `Moist_Model.v`, `Weather_Model.v` | `C194_temperature_partial`, `C194_columns_refuted`, `C194_saturated_refuted` |
| C195 Plants grow at the pace of the simulated time | partial | `Veg_Model.v` | `C195_height`, `C195_cover_partial`, `C195_cover_refuted` |
| C196 Plants respond to the average bed level change over avg_time | partial | `Burial_Model.v` | `C196_steady_partial`, `C196_average_refuted` |
| C197 More salt in the bed means a higher threshold | partial | `Threshold_Model.v` | `C197_lowers`, `C197_fresh_refuted` |
| C198 Saturated air stays as it is between lateral borders that are not connected | proved | `Pieter_Model.v` | `C198_stays` |
| C199 A constant lateral border keeps its concentration | partial | `Pieter_Model.v` | `C199_border_partial`, `C199_border_refuted` |
| C200 Between gradient borders rows that are alike stay alike | partial | `Pieter_Model.v` | `C200_rows_partial`, `C200_rows_refuted`, `C200_excess_refuted` |
| C201 Capitals in the name of a method do not matter | partial | `Choice_Model.v` | `C201_capitals_partial`, `C201_capitals_refuted`, `C201_capitals_matter` |
| C202 An unknown name of a method is refused by name | partial | `Choice_Model.v` | `C202_unknown_partial`, `C202_unknown_refuted`, `C202_unknown_others` |
| C203 Every documented name leads to the method it stands for | partial | `Choice_Model.v` | `C203_names_partial`, `C203_names_refuted`, `C203_misnamed` |

How they are proved, by file:

* `Avalanche_*`: index functions over R; induction over iterations, summation by parts.
* `Bed_*`: algebra and induction over layers, fractions and steps, over Q.
* `Burial_*`: induction over the levels for the steady change; one step of a plant for the counterexample.
* `Capil_*`: the documented curves are written down separately; case analysis over the situations of the update.
* `Causal_*`: induction over the columns: the matrix without the entries behind a column is diagonally dominant across the rows; the iterations of both steps are compared round by round, the shorter one standing still; for runs induction over the fractions and the steps, with the bed cell by cell.
* `Choice_*`: comparison of the lists of names; a name and its small letters; concrete names for the counterexamples.
* `Config_*`: strings and character lists; induction over lines, digits and counters; refutations by computed witnesses.
* `Day_*`: mixing cell by cell from the lemmas of Bed, the step from those of Run, reshaping as an arbitrary change of the levels whose sand is counted; induction over the steps with the history of states as an argument of the climate.
* `Derived_*`: one description per stage of the post-processing, composed; splitting of a text at blanks by induction over the items.
* `Docs_*`: the documented factors and rate are written down separately and compared factor by factor.
* `Ends_*`: rows of the matrix and the right hand side at both ends; a result with sand in every cell was not cut off and so solves the system.
* `Erosion_*`: index functions over Q; first-argmin and cumulative sums.
* `Fence_*`: rational arithmetic; induction over histories of bed levels.
* `Fence2_*`: rotations, interpolation and the loops over the rows of the turned grid, over R.
* `Filter_*`: orthogonality of the roots of unity for the transform and back; a walk over the bubbles row by row with the invariant that the latest streamline lies below the surface; sums over columns for the smoothing.
* `Flow_*`: the computed and the documented rate on a parabola through five cells, compared as polynomials.
* `Gen_*`: streams of random numbers; induction over samples; binary64 (SpecFloat) for the bin count.
* `Grain_*`: the fall velocity solves its balance and is the only positive solution; the lag is that velocity over the length of the corrected direction, whose length cancels; the slopes of a plane by case of inner and edge cells.
* `Grid_*`: index functions over R; finite differences.
* `Hydro_*`: rational arithmetic per cell; matrices of the groundwater solver over index functions, invariants over sub-steps.
* `Kept_*`: the share of the last fraction stays positive or the fractions before it use up everything, by induction over the fractions; renormalisation then keeps the earlier weights.
* `Lateral_*`: the right hand side of every cell is zero, hence the increment; a solution that is alike in all rows, by uniqueness; a system of nine cells for the counterexample.
* `Limit_*`: pickup in a cell bounded by the demand of the solver and that by the capacity; one step, then induction over the days; the thresholds (over R) give zero capacity within 1 cm of the non-erodible layer.
* `Meteo_*`: the values read, computed for a file of two lines; signs of the terms of the evaporation.
* `Moist_*`: real analysis per cell; invariants over histories; termination of the search.
* `Names_*`: membership in finite tables transcribed from the source, decided by computation and reflected.
* `Netcdf_*`: strings and association lists.
* `Pace_*`: the step of a living cell, simplified under the limits that are not reached.
* `Pieter_*`: increments of the concentration over Q, linear solver as parameter; discrete maximum principle, invariants of the iteration, sums over the grid.
* `Rain_*`: the water balance is the moisture before its limits; the documented formulas are written down separately and compared term by term, the slope by differentiation.
* `Report_*`: induction over the events between two outputs for the one-step lag of the statistics of q; for pickup, the change of the bed level in a step of the run in one cell (`update_cell_net`) summed over the run.
* `Rotate_*`: trigonometric identities over R; control paths of update.
* `Round_*`: doubles are the rationals rounded to 53 binary digits; exact sums stay exact, other sums are off by a relative 2^-53, and the errors of a run are added up by induction over its updates.
* `Run_*`: composition of weights, solver and bed update; induction over the fractions and over the steps.
* `Runner_*`: state machine of outputs and accumulators; induction over histories against the list of values since the last reset.
* `Sea_*`: the reading rule is met by interp_circular (C21); the nearest wet cell of a wet cell is itself, by induction over the steps it stays wet with the same level.
* `Seep_*`: rational arithmetic; array slices characterised cell by cell.
* `Share_*`: weighted means of the two mixtures compared fraction by fraction.
* `Shear_*`: rotations, interpolation and discrete Fourier sums over R; the Bessel function as parameter.
* `Shelter_*`: sums over roughness elements over R; the Gaussian filter as a positive mean.
* `Side_*`: the rows of the assembled system beside the lateral boundaries are those of the identity matrix; induction over the steps.
* `Slide_*`: corresponding cells of two grids keep corresponding slopes and fluxes, then induction over the passes.
* `Solver_*`: assembled matrices over Q, linear solver as parameter; discrete maximum principle, sums over the grid.
* `Spinup_*`: order and memory from the inverse of the matrix, which has no negative entries, and from the column sums of the matrix, which bound the sum over the area of a difference; rest by comparing the rows of the two solvers; fetch by induction over the columns, in each of which the rows are compared by diagonal dominance; runs by induction over the steps.
* `Start_*`: files and directories as functions; case analysis over the start-up code, induction over the hotstart files.
* `State_*`: association lists and a set of immutable names; refinement to a per-variable automaton by induction over operation sequences; finite tables by computation.
* `Sym_*`: the assembled system of the transformed inputs is the permuted system, and the solution of an M-matrix system is unique; induction over the fractions.
* `Theta_*`: row of the matrix and explicit part of the right hand side of an inner cell rewritten as inflow and exchange; a positive outcome was not cut off and so solves the system; the run between the two steps read off the definition of Run.
* `Threshold_*`: real analysis per cell and fraction, extended numbers for infinite thresholds.
* `Time_*`: rational arithmetic; the physics enters as observations; induction over steps.
* `Units_*`: the assembled system in the new units is the old one with rows multiplied by positive factors and the unknowns scaled; the iteration, weights and bed update are homogeneous; induction over fractions, layers and steps.
* `Utils_*`: algebra over Q, induction over lists.
* `Veg_*`: real arithmetic per cell; random events as inputs; invariants over event histories.
* `Weather_*`: one column at a time, by the reading rule of C171.
* `Wind_*`: trigonometry and algebra over R; sums over the row.

## 3. Trusted base

* The Coq 8.16.1 kernel (checked again by `coqchk`). No plugin, no axiom of our own, no admitted proof.
* Axioms, as listed by `Print Assumptions` in the `*_Props.v` files. Developments over `Q`, lists and strings
  (Config, Choice, Lateral, State, Time, Runner, Start, Utils, Bed, Solver, Hydro, Gen, Fence, Erosion, Seep, Netcdf, Pieter, Run, Sym, Units, Side, Causal, Spinup, Day, Theta, Ends, Sea, Weather, Round, Kept, Share, Flow, Limit for C168, Derived, Names) are closed under the global context.
  Developments over `R` (Rotate, Avalanche, Threshold, Moist, Wind, Veg, Shelter, Grid, Shear, Filter, Fence2, Grain, Slide, Rain, Docs, Capil, Pace, Burial for C196_average_refuted, Meteo for C194_saturated_refuted; Limit for C169; Report for C145 and C146) use the axioms of the standard library's reals:
  `ClassicalDedekindReals.sig_forall_dec`, `ClassicalDedekindReals.sig_not_dec`,
  `FunctionalExtensionality.functional_extensionality_dep`, and in some theorems `Classical_Prop.classic`.
* The reading of the Python source (no code was executed), and the semantics of Python, numpy, scipy, pickle and netCDF4
  as stated in the comments of the model.
* Parameters of theorems instead of code: the sparse linear solver (`Solver`, `Pieter`; assumed to solve or, where stated, arbitrary),
  the cumulative normal distribution (`Erosion`), the Bessel function of `scipy.special.kv` (`Shear`), Weibull weights and random numbers (`Gen`, `Veg`), the physics
  as seen by the clock and the output (`Time`, `Runner`).

Modelled (all under `/repo/aeolis`):

| file | modelled | not modelled |
|------|----------|--------------|
| `inout.py` | `read_configfile`, `write_configfile`, `check_configuration`, `parse_value`, `backup`, `get_backupfilename` | `visualize_*` and plots |
| `utils.py` | `interp_circular`, `interp_array`, `normalize`, `apply_mask`, `rotate`, `print_value`, `calc_grain_size`, `calc_mean_grain_size`, `makeiterable` | `format_log` and other small helpers |
| `constants.py` | `INITIAL_STATE`, `MODEL_STATE`, the names of all parameters in `DEFAULT_CONFIG`, the defaults that properties mention | texts |
| all files | the names of the parameters and grids used, with the line of their first use (`Names_Model.v`) | under which switches a line is reached |
| `model.py` | `ModelState`, BMI accessors, `set_timestep`, control flow of `update`, `grid_rotate`, `solve` (alone and coupled to `bed.update` over whole runs, also with mixing by waves and feedback), `solve_steadystate`, `solve_pieter`, `solve_steadystatepieter`, `AeoLiSRunner` (constructor, parameters, callbacks, hotstart, outputs, statistics, restart, `run`), `WindGenerator` | progress and log texts |
| `bed.py` | `initialize`, `mixtoplayer`, `wet_bed_reset`, `update`, `prevent_negative_mass`, `average_change`, `arrange_layers` | |
| `transport.py` | all functions | |
| `threshold.py` | all functions | |
| `avalanching.py` | all functions | |
| `hydro.py` | `interpolate`, `update`, `Boussinesq`, `runup_overheight_distr`, `hdelta`, `SWR_curve`, `evaporation`, `calc_runup_stockdon` | a water level of an external model without any wet cell |
| `wind.py` | all functions | external wind fields |
| `shear.py` | `__call__`, `set_computational_grid`, `separation`, `compute_shear`, `separation_shear`, `maxDiff`, `filter_highfrequenies`, `add_shear`, `get_exact_grid`, `rotate`, `interpolate` | plots, transects, roughness per cell |
| `vegetation.py` | all functions | |
| `fences.py` | `initialize`, `update_fence_height`, `fence_shear1d`, `fence_shear2d` and the functions it uses | the buffer zone in `populate_computational_grid`, whose result is not used |
| `erosion.py` | `run_ph12` | missing time series |
| `netcdf.py` | `initialize` (dimensions, variables, units, bounds), `append`, `set_bounds`, `dump`, `parse_metadata` with the text of constants.py:29-149 | netCDF encoding, other attributes, values of the static coordinates |
| `gridparams.py` | `initialize` | |
| `console.py` | `run` | `wind`, `examples`, texts |

## 4. Findings

Statements that are false of the model, each with a proved witness (`..._refuted`) or a universal theorem about the failure (`..._raises`).
Every one is believed to be true of the code, by reading.

* **C02 Booleans, integers and None survive printing and re-reading.** printed with the formatter's default fill it comes back as the text <novalue>. Booleans and integers of any size, and lists of two or more of them, are proved; None is proved for the empty fill the configuration writer uses.
* **C03 Textual parameters are read back verbatim.** a word that merely begins with None (e.g. Nonerodible.txt) is read as None, and a value containing '=' is cut at it. Proved for every other single word.
* **C04 Every configuration value parses to a value or text, never an exception.** 1.2.3 or a dot raises ValueError and aborts the run. Proved: an exception is always a ValueError and only occurs if the text contains a malformed number; every malformed number raises.
* **C06 Variables fixed by hotstart are never changed by the model.** ModelState.update (used to store every solver result) and in-place array operations bypass the protection. Proved for item assignment (refinement to a per-variable automaton, any history) and for histories whose bulk and in-place changes do not name the variable.
* **C07 Setting a variable through the BMI and reading it back.** for Ct and Cu when accfac differs from 1: get_var divides by accfac, set_var does not multiply. Proved for all other names, any sequence of sets; setting accfac changes the reported Ct and Cu. Aliasing of array values (numpy arrays are stored by reference) is not modelled.
* **C10 Requested time step semantics.** with the explicit scheme the step can be shorter than requested, and skipping in time still runs the wind, fence and vegetation shear steps. Proved for implicit schemes without bed level limit, for the explicit scheme (largest step within the CFL bound), and for skips (time jumps exactly, no morphology).
* **C11 A run always reaches its stop time.** the explicit scheme never ends in calm weather, a maximum bed level change with calm periods can stall before tstop, and tstart=tstop divides by zero. Proved: number of updates for implicit schemes, termination of the explicit scheme when the wind keeps blowing, and general characterisations of the stalls. The ZeroDivisionError holds for plain Python numbers (numpy numbers would give inf).
* **C12 Adaptive time step keeps the bed level change bounded and time moving forward.** with erosion the adapted time step becomes negative or unbounded because the sign of the change is not dropped. Proved for accretion and for the first step.
* **C13 Output is written at the requested interval.** a run starting at 0 < tstart < output_times writes nothing at its first time point. Proved for all step sequences when tstart is 0 or at least output_times, with the bound on the gap.
* **C14 Output statistics equal the statistics of the values since the previous output.** a statistic that was not requested is answered with infinity, and a query with the default clear=True discards the values gathered so far. Proved for every requested statistic and every interleaving of updates, queries and outputs, against the list of values since the last reset. Grids are represented by one cell. The q update in output_update is not modelled.
* **C15 The runner can be updated and queried in any order.** an update before any query always raises AttributeError (also in a normal run when only statistics are requested), and variables with underscores are unreachable. Proved: after one query any sequence of sane calls succeeds, and plain names are retrieved.
* **C16 The grid has its original orientation after every update.** an update that skips in time (or stops in calm weather with the explicit scheme) returns with the grid rotated over alpha, and the saltation velocity us/un is never rotated back. Proved for completed updates: coordinates and all rotated vector fields are restored exactly in real arithmetic; distances, lengths and angles are kept. Uses the axioms of the Coq real numbers.
* **C17 A run interrupted and restarted from a restart file continues identically.** restart files are opened in text mode (TypeError on dump), and even with a binary file unpickling a ModelState stores items through __setitem__ before the attribute ismutable exists (AttributeError). The pickle protocol is modelled from its documentation.
* **C20 Fraction weights always form a distribution.** with an empty top layer and no sediment in the air (or bi=1) all weights are zero; renormalising changes earlier weights when the later ones are all zero. Proved for a non-empty layer or sediment in the air with bi<1; earlier weights kept when the later ones have non-zero sum.
* **C24 Initial bed composition.** a bed composition file is ignored when grain_dist consists of integers; a distribution with more entries than grain sizes loses mass; a matrix of integers is read as one row per fraction, not per layer (C24_integers_refuted, C24_matrix) and mostly raises (C24_matrix_raises). Proved for distributions of matching length, per cell or per layer; a shorter one raises IndexError.
* **C25 Bed update conserves sediment and layer mass.** a deposit equal to the top layer doubles the layer; erosion larger than a thinner layer below yields negative mass. Proved for exchanges not exceeding any layer and deposits less than the top layer.
* **C26 Prevention of negative layer masses preserves the exchanged mass.** a deposit larger than the top layer vanishes without raising the bed (proved for every such cell). Otherwise preserved.
* **C27 Tidal bed reset moves the bed towards its initial level without overshoot.** overshoots when dt > Tbedreset. Proved for dt <= Tbedreset over all step sequences, with a convergence rate.
* **C28 No transport capacity below threshold.** formulation dk transports between 0.8 and 1 times the threshold; with a threshold file the fluid concentration is positive below the threshold; the flat-bed concentration survives (and is multiplied by accfac) when the wind drops; bagnold_gs raises IndexError on more than one row. with kawamura and lettau the flat-bed concentration is never computed (C28_flat_refuted), so the boundary condition 'flux' brings no sand in. Proved for all other formulations: finite, non-negative, zero iff not above the threshold. Reals axioms.
* **C29 Moisture never makes sand easier to move.** saleh_fryear, cornelis and dong_2007 replace the threshold and can lower that of coarse grains; gregory_darwish decreases with moisture for a low wilting point. Proved for the seven other formulations (gregory_darwish: growth for w1_5 >= 0.0061); very wet cells immobile for all ten. Reals axioms.
* **C30 Cells at the non-erodible layer are not eroded.** the fluid threshold uthf is copied before the layer is considered, so Cuf > 0 on rock; with a threshold file the infinite threshold stays after burial; cells up to 1 cm above the layer count as exposed. Proved: infinite threshold and zero Cu at the layer, other cells unchanged within a step. Reals axioms.
* **C31 Erosion never exceeds the sediment available in the top layer.** when the iteration stops unconverged the unlimited pickup is used (solve only logs a warning). Proved for solve and solve_steadystate: converged pickup is within the supply of every fraction whatever the linear solver returns, and the iteration converges for enough rounds when the wind nowhere blows apart. The pieter solvers are not modelled.
* **C32 The implicit transport system has one non-negative, bounded solution.** diverging wind gives negative concentrations, the default onshore condition 'gradient' a negative last column, converging wind exceeds the bound. Proved for wind that nowhere blows apart (existence, uniqueness, non-negativity, any grid size) and for uniform wind (bound).
* **C33 Removing negative concentrations conserves the total.** without any positive concentration mass is created (NaN in solve_steadystate), a negative total leaves negative concentrations, and on uneven grids the sum of concentrations is conserved but not the mass. Proved for the sum of concentrations when some concentration is positive and the total is not negative.
* **C34 Avalanching redistributes sand without creating it.** sand sliding onto border cells is lost, and on grids with cells of different size volume is created. Stability, border, stopping criterion proved; sum of bed levels never grows and is conserved while the cells next to the border stay gentle. Reals axioms.
* **C35 Water level is never below the bed and waves are depth limited.** the wave mask is applied after the depth limit, so masked waves can exceed it. Proved for every bed, tide and wave series where the wave mask is neutral; water level and bed statements hold without that condition.
* **C37 Groundwater stays below the surface.** integer sub-steps leave up to one sub-step of the time step uncovered, a factor below one may give no sub-step at all, and a time step below the factor raises ZeroDivisionError. Proved: the bound after every update with at least one sub-step, and coverage up to less than one sub-step. Exact rationals.
* **C39 Wave runup is non-negative and consistent between scalar and array input.** on the limit between the regimes (Iribarren number exactly 0.3) the array path returns zero, and on a flat beach only the array path gives runup. Proved: non-negativity in both paths, zero without waves, and agreement everywhere else on sloping beaches. Real arithmetic.
* **C40 Wind components and shear stresses are consistent.** after flow separation the shear velocity magnitude is larger than that of its components, and the flat-bed components ustars0, ustarn0 are both the magnitude. Proved for the wind of every speed and direction before separation: components, stress and velocity consistent, conversion invertible. Real arithmetic.
* **C41 Topographic shear perturbation never reverses the wind.** separation reduces the stress components but not the magnitudes tau and ustar, which the transport and threshold use. Proved: one factor of at least 0.1 for stress and components, 1 over a level bed; separation multiplies the components by a factor in [0,1]. One-dimensional shear only.
* **C42 Vegetation cover stays physical and does not appear without germination.** (1) the growth rate dhveg of a drowned cell is not reset, so plants grow again without germination when the water is gone; (2) with veggrowth_type duranmoore14 and V_ver = 0 the cover grows by the number of better covered neighbours; (3) with that type and a time step (times accfac) longer than t_veg the cover exceeds its maximum, even one. Proved for all events and states: physical cover and height otherwise, none where drowned or too low, bare ground stays bare without seeds, no growth with V_ver = 0 in the original formulation. Real arithmetic.
* **C43 Sheltering by plants and fences only reduces shear.** (1) calm air gets a shear velocity of 0.01 (components zero) even without plants; (2) the Okin model ignores the orientation alfa of the grid, so the shelter can lie upwind; (3) the Raupach model smooths its factor with a Gaussian filter, so bare cells upwind of plants are sheltered. Proved for shear velocities from 0.01 (Okin, fences) or any (Raupach): one factor in (0,1], direction and consistency of stress kept, nothing without plants, upwind cells unaffected for alfa = 0, at a plant only the initial share remains. Two-dimensional fences not modelled. Real arithmetic.
* **C45 Dune erosion only lowers the bed landward of the dune toe.** the toe is the cell nearest in elevation anywhere in the row, so a valley behind the dune protects the dune and the land behind the valley is eroded. Proved: the bed is only lowered, only above the toe elevation, between toe cell and scarp, not below the toe, and not at all when water does not reach it. The cumulative normal distribution is a parameter; peak period positive.
* **C46 Generated wind time series are valid.** with bins wider than 1 m/s (max_speed > n_states) the maximum is exceeded, and for some maxima (22 m/s with the default 30 states) rounding in numpy.arange gives one bin too many and the constructor never returns. Proved for every random sequence, time step and duration: number and times of samples, no StopIteration, non-negative, and the maximum for bins up to 1 m/s. Weibull weights and random numbers are inputs; cumulative sums in exact arithmetic.
* **C47 Characteristic grain sizes lie between the smallest and largest fraction.** percentiles are interpolated from diameter zero, so D50 of a single fraction is half its grain size. Proved: mean within range; percentiles between 0 and the largest size and non-decreasing.
* **C49 Written configuration files read back to the same configuration.** the writer calls dict.iterkeys, absent in Python 3, for every configuration. With a Python 2 dictionary: proved for None, booleans, integers and plain words; floats are within half a unit of the last printed decimal, exact iff that many decimals suffice; tiny values become 0.
* **C50 Default output configuration names existing variables.** 'mass' 'pickup' lack a comma and name the non-existent variable masspickup. All others exist; shapes are consistent.
* **C51 Boolean words switch options on and off.** False is read as non-empty text, which Python treats as true, so a process 'switched off' this way stays on. The letters T and F work.
* **C52 Numbers in decimal and scientific notation are read as numbers.** 1e-3 stays text. Proved for plain decimal notation.
* **C53 Every enumerated variable can be described.** s['shear'] (a WindShear object) and s['meteo'] (a dictionary) are enumerated but have no shape. Proved when all stored values are arrays.
* **C54 Every configured parameter can be read and set through the interface.** theta_dyn, theta_stat, germinate and lateral are also names of grids, which shadow the parameters; proved that these four are all, and that the others can be set.
* **C55 A time series seamlessly repeats after its own length.** the period is one time unit longer than the series.
* **C56 The running average of the bed level change stays within the observed range.** outside the range when dt*accfac exceeds the averaging time. Proved otherwise.
* **C57 Avalanching does not erode the non-erodible layer.** a thin cover is eroded past the layer when the slope just exceeds the dynamic angle. Proved where the remaining sand limits the flux; at most 0.3 m per pass. Reals axioms.
* **C58 More wind carries more sand, a higher threshold carries less.** kawamura and dk grow with the threshold over part of the range. Proved: growth with shear velocity for all seven formulations, fall with the threshold for the other five. Reals axioms.
* **C59 Every threshold option can be switched on.** th_drylayer and th_humidity raise NameError, th_sheltering raises KeyError with the defaults (setting m is commented out), an unknown moisture method raises KeyError. Proved: all other combinations yield thresholds. Reals axioms.
* **C60 Bed surface properties only raise the threshold.** sheltering with m > 1 - sigma/beta lowers the threshold (to 0 for m = 1), and the replacing moisture formulations (C29). Proved for the raising formulations and m <= 1 - sigma/beta. Reals axioms.
* **C61 The threshold depends on the present bed surface only.** without th_grainsize the salt (and any other) factor is applied anew in every step. Proved whenever th_grainsize is on and no threshold file is given (exceptions included). Reals axioms.
* **C62 Sand moves with the wind.** duran moves sand against the wind below the dry threshold. Proved for the constant method. Reals axioms.
* **C63 Sediment is conserved between bed and air.** sand is lost or created for oblique wind on one row, where Cuf and Cu differ (non-erodible layer), with Crank-Nicolson, where the wind changes direction, and where the lateral speed differs between rows (for negative lateral speed coefficients come from the wrong row). Proved cell by cell and in total for the implicit scheme with onshore wind, laterally uniform, exact linear solver.
* **C64 Saturated uniform transport leaves the bed alone.** on one row with oblique wind saturated transport erodes the bed. Proved for any implicitness on two-dimensional grids and for cross-shore wind on one row.
* **C65 Every documented solver set-up runs.** solve_steadystate raises ValueError in its first step with more than one fraction; ny = 1 raises ValueError; 'noflux' onshore raises ValueError; lateral 'uniform' and 'gradient' raise NotImplementedError. Proved for all other set-ups.
* **C66 Groundwater transects are independent.** the boundary condition is written at the shoreline index of the previous row (shl_ix[i-1] instead of shl_ix[i]-1). Proved for grids in which all rows have the same shoreline index in each sub-step.
* **C67 Groundwater relaxes towards what drives it.** the nonlinear term adds the neighbours where it should subtract them, so in the witness groundwater rises by more than half above every level that drives it, and on uneven grids level groundwater starts to move. Proved: level groundwater stays level on even grids, for any number of rows and sub-steps.
* **C68 The wetting flag reports a rising groundwater table.** the stored previous levels are the same array in which the solver writes boundary values, so a rise at the shoreline is not reported. Proved for all cells that are not boundary cells, without seepage face.
* **C69 The groundwater update works for every tide.** a submerged transect, or a dry first or second cell, raises ValueError (universal theorem C69_flooded_or_dry_raises). Proved to complete when every transect has a shoreline from the second cell on.
* **C70 Runup raises the groundwater by at most the overheight.** when the runup overtops the profile the index -1 gives weights above one, and the overheight is added in every sub-step. Proved for even grids with the runup limit on the grid, per sub-step.
* **C71 The tide floods the cells below it.** the total and dynamic water levels are only computed when process_runup is on; by default they keep their initial value, so the tide floods nothing and low-lying cells stay flooded at low tide. Proved with runup on, neutral runup mask and non-negative runup (C39).
* **C73 Hysteresis switches curves without a jump.** the height at reversal is always zero for negative alfaw, which is the default, and the moisture jumps by more than 0.1 in the witness; with a higher residual content for drying than for wetting the search never ends. Proved: exact continuity for positive alfaw, the search finds the first height within 0.01, and it ends for every consistent cell if resd <= resw (and keeps cells consistent). Real arithmetic.
* **C74 Higher and longer waves run up higher.** at the limit between the dissipative and the reflective formula runup drops by more than a third for higher waves on a steep beach, and by a quarter for longer waves on a flat one. Proved: monotone in the height within each regime. Real arithmetic.
* **C76 Evaporation dries.** for a wind gauge below two metres the wind profile factor is negative, and evaporation becomes negative (at exactly two metres it divides by zero). Proved for gauges above two metres. Real arithmetic.
* **C77 Every moisture set-up runs or is rejected with a clear error.** the check that surface moisture needs groundwater tests for None and accepts False; a satiated content above the porosity is accepted and is the default; salt without the surface moisture method fails with KeyError (universal theorem C77_salt_raises). Proved: the other combinations run, unknown methods are rejected.
* **C78 The drying curve lies above the wetting curve.** the default curves cross (witness at a suction of 457 cm). Proved for equal shape parameters n and m. Real arithmetic.
* **C80 The shear velocity blows with the wind.** if the roughness length exceeds the height z of the wind, which is not checked, the shear is against the wind; vanrijn is undefined for a wind exactly at the threshold; an unknown method raises NameError. Proved: positive roughness for all six methods, and the law for z0 < z.
* **C81 A one-dimensional model uses a single positive wind component.** the docstring of wind.interpolate promises it but offshore winds give a negative component, and the files of WindGenerator, with direction 0, blow along the shore. Proved for a wind normal to the shore.
* **C82 The topographic shear depends on the shape of the bed only.** the separation bubble depends on the datum (the second polynomial starts from the bed level itself), so the same step 10 m lower is sheltered where at level 0 it is not. Proved for the perturbation: mirror, level and scale invariance.
* **C83 Flow separates only behind steep slopes.** for a wind exactly along the shore the grid size along the wind is set to 0.0001, so every falling slope separates. Proved: never below the bed; no separation on gentle beds for all other winds.
* **C84 The roughness does not depend on the unit of the grain distribution.** the method mean_grainsize_initial uses the distribution without normalising it (the bed normalises), so percent give a hundredfold roughness. Proved: in the range of the grain sizes for normalised distributions.
* **C86 A generated wind speed lies in the bin of its state.** the lower end of the bin is computed as centre - 0.5 instead of centre - bin_size/2, so with bins wider or narrower than 1 m/s speeds fall in other bins. Proved for bins of 1 m/s.
* **C88 Germination leads to vegetation.** with veggrowth_type duranmoore14 cells without cover are reset to zero, so germination and spreading never have an effect. Proved for the original formulation.
* **C92 Dune erosion removes the volume that waves erode, and conserves sand.** (1) the volume above the toe in the first cell is not counted, so more is removed; (2) the eroded sand is not put anywhere (the code for it is commented out). Proved: removal is at most the demand plus the excess of the first cell, and the scarp is where the cumulative volume is nearest to the demand. The cell size is taken from the first two columns.
* **C94 Fences do not depend on the vertical datum.** (1) fences with a top below 0.1 m above datum are never there; (2) fences of more than 1.5 m count as eroded out at the first step and never come back. Proved for fence tops of at least 0.1 m above both datums.
* **C95 Dune erosion works with default settings.** (1) the coefficient Cs has no default, so a KeyError is raised when the total water level exceeds the toe (also in the example case3_erosion_avalanching, whose configuration lacks it); (2) without runup (off by default) the swash is zero, the collision probability nan and nanargmin raises ValueError. Proved: with Cs and positive swash every step completes.
* **C96 The computed orientation aligns the grid.** for grids whose rows run to the upper left (orientation between 90 and 180 degrees) the arctangent without quadrant gives an angle 180 degrees off. Proved for all other orientations, including vertical ones. Real arithmetic.
* **C97 Grids with descending coordinates are warned about.** the unrotated coordinates are tested, so a proper grid turned by 90 degrees is warned about and one with descending rows is not. Proved for grids along the axes. Real arithmetic.
* **C98 Cell sizes are those of the grid.** in two dimensions ds is computed from the distance of the rows and dn from that of the columns, so they are swapped unless cells are squares, while the solver divides the speed along x by ds; and all cells get the size of the first, whatever the grid. Proved: squares, areas of equal rectangles, and all one-dimensional grids. Real arithmetic.
* **C99 The seepage face holds the groundwater at the bed.** the slice ends one cell early, so the last cell before the exit point keeps groundwater above the bed; a profile saturated up to the landward boundary is not limited at all (argmin of all True is 0); groundwater up to 5 cm below the bed is raised; and the shoreline cell is lowered from the sea level to its bed. Proved: all other cells of the face, and no change elsewhere. Rational arithmetic.
* **C100 The first step picks up the fractions that are in the bed.** a distribution per layer is flattened over the layers, so that the weights of the fractions do not add up to one and the first step picks up too little. Proved for one distribution and for bed composition files, whatever the linear solver. Rational arithmetic.
* **C103 Output variables carry their documented unit.** fourteen variables (moist, gw, wetting, ...) have a comment between name and unit (#NEWCH), so their unit is not found; variances are given the unit of the variable itself. Proved: completeness of the pattern for every line of the plain form, no other units, and the complete table of constants.py, of which the text of lines 29-149 is part of the model. C103_coordinates: the coordinates have their units, the time counts seconds from the reference date.
* **C104 Every state variable can be written to the output file.** x and y are grids of the model, but also coordinates of the file; requesting them raises RuntimeError (name in use). Proved: all other requests without repeated names succeed, and clashes always raise. The RuntimeError is that of the netCDF4 library for a name in use.
* **C105 Bounds in the output file.** time_bounds is stored in single precision, so that from 2^28 seconds (8.5 years) on hourly times lie outside their bounds; x_bounds, y_bounds, lat_bounds and lon_bounds are (s, n, nv) while their coordinates are (n, s). Proved: exact up to 2^24 seconds, within one part in 2^24 in general (whole seconds).
* **C107 The pieter solvers conserve sediment.** when the bed holds less than the air can carry the pickup taken from the bed can be twice what gets into the air (first round limits by the mass per adaptation time, the pickup does not); with the Crank-Nicolson scheme; with one row and oblique wind; in the steady state with connected borders and wind along the coast (the flux through the last border is forgotten); with wind along the coast that differs between rows (coefficient of the wrong row). Proved: the balance of every round for any implicitness, the exact amount withheld with one row, and the balance per cell and in total within the tolerance when the bed holds what the air can carry.
* **C108 Saturated air in a uniform wind stays saturated (pieter).** at an onshore 'flux' boundary sand enters whatever the direction and none can leave; steadystatepieter with wind along the coast changes saturated air, and with one row of cells lets the concentration grow in every step by at least n C / (n + v T) when v T >= n. Proved for pieter in any uniform wind and steadystatepieter without wind along the coast, with 'gradient' or 'constant' onshore.
* **C109 A constant flux boundary gives that flux (pieter).** pieter ignores the configured number; without wind along the coast the concentration of the column never changes, with it the rows of the column are mixed. steadystatepieter adds the number to the concentration in every round of every time step.
* **C110 No more sediment is taken than there is (pieter).** the pickup is limited to the mass only after it was stored (model.py:2198-2201), so it may exceed it by the tolerance. Proved: by no more than that.
* **C111 Wind over sand moves it in every time step (pieter).** the first time step returns the weights before anything is computed. Proved for all other steps.
* **C113 The computational grid of the shear covers the model grid.** proved for grids with equal cells (any wind direction, oblique to the grid or not; along the axes the padding must exceed a cell by 1/800 of the grid). On a graded grid the computational grid is centred on the mean of the points and misses a part of the grid (C113_graded_refuted). maxDiff adds the difference of the list indices to the distance, so the grid is up to 3 m larger than intended, independent of the units of the grid (C113_tight_refuted, bounds in C113_size).
* **C114 Interpolation between the grids of the shear.** the extension beyond the edges is as wide as the larger number of rows or columns, counted in cells; beyond it the bed is put at 0 m (C114_cliff_refuted: a long narrow grid at 10 m has a cliff of 10 m next to it; distances in C114_beyond). The range, the grid points and planes are as stated.
* **C116 No separation bubble where nothing is steep.** the surface starts as zeros, so every cell below the datum is in a bubble: from 10 cm below it the stress is zero (C116_datum), and on a grid below the datum there is no stress at all (C116_no_wind, C116_beach_refuted). Without filter iterations (sep_filter_iterations = 0, the default).
* **C117 The perturbation of the wind depends on the shape of the bed only.** the wave numbers are those of a grid with one more point without the first, so the mean bed level is treated as a wave of about the length of the grid. The perturbation changes in proportion to the level (C117_level) and, whatever the Bessel function, on some grid a level bed at 1 m perturbs the wind and one at 0 m does not (C117_flat_refuted). With a function like the Bessel function it also deflects the wind sideways (C117_sideways_refuted). The padded grid is taken as periodic.
* **C118 The high-frequency filter of the shear.** at the wave length of one cell a half is left (C118_half, C118_taper_refuted), and the filter is narrower along the wind than across it (C118_directions). All waves that the grid can represent pass: at least 99% along and 90% across the wind (C118_passes).
* **C119 The unit of length does not matter for the perturbation.** the iteration for the height of the middle layer starts at 1.0 instead of a multiple of a length, and five rounds do not forget it (C119_unit_refuted, for every function like the Bessel function). All perturbations change by the same factor (C119_pattern).
* **C120 Fences in two dimensions slow the wind and do not turn it.** the components are swapped when they are turned back (fences.py:205), so the shear velocity that results is perpendicular to the wind for every grid, fence and direction (C120_perpendicular), also without fences (C120_uniform, C120_unfenced_refuted). The component along y is not used at all (C120_lost). It is never larger than the largest component along x (C120_bounded).
* **C121 The lee of a fence does not depend on the wind direction.** distances are measured along the x-axis of the model and not along the wind, so they are multiplied by the sine of the direction (C121_lee) and a fence of 1 m can shelter cells at any distance (C121_far_refuted). Cells upwind are not sheltered (C121_upwind).
* **C122 Every documented set-up runs with the pieter solvers.** two rows make the diagonals of the matrix coincide and scipy raises ValueError (C122_two_rows_raises), the documented boundary 'uniform' is unknown (C122_uniform_raises), circular ends raise NotImplementedError (C122_circular_raises), and with max_iter = 0 variables are missing (C122_no_rounds_raises). All other set-ups run (C122_runs).
* **C123 Over a whole run sand is neither made nor lost.** in the first and the last column the concentration is prescribed, but pickup is computed and taken from the bed all the same, so sand disappears there (C123_border_refuted). For the cells in between it holds over any number of steps for the solver trunk, fully implicit, onshore wind on a rectangular grid and the same capacity over moving and resting sand, as long as iterations converge and no step moves more than a layer (C123_balance_partial). For uniform winds of limited strength and thick enough equal layers these two conditions are consequences: such a run exists for every weather (C123_whole_partial). Mixing, avalanching and the other processes are switched off.
* **C124 Parameters set before a run take effect.** a run that succeeds uses exactly the parameters of the configuration file (C124_file), so a value put into the parameters is lost (C124_direct_refuted); after set_params every run fails (C124_set_raises), having made a copy of the configuration file (C124_set_backup).
* **C125 A callback is called in every time step or rejected.** functions that are passed or found in a file are called (C125_function, C125_in_file, C125_configured) and missing files are reported (C125_missing_file_raises), but a misspelt function (C125_misspelt_refuted), a text without a colon (C125_word_ignored) and a path with a blank (C125_blank_refuted) are silently ignored; two colons (C125_drive_raises) and objects without a name (C125_unnamed_raises) are refused.
* **C126 Paths on the command line are relative to the working directory.** callbacks and restart files are looked for in the directory of the configuration file (C126_callback_refuted, C126_restart_refuted). It holds there (C126_here), and with an absolute configuration file the result does not depend on the working directory (C126_absolute).
* **C127 A run leaves the working directory as it was.** for runs that fail: the working directory is then that of the configuration file (C127_exception_refuted, C127_left), and the same command a second time does not find its file (C127_again_refuted). It holds for runs that succeed (C127_restored). No file changes unless a parameter was set (C127_files).
* **C128 Without a configuration file the default settings are used.** the default profile is built with a fractional number of points, which numpy refuses (C128_default_raises). Existing files are read (C128_found), missing ones are reported (C128_missing_raises).
* **C129 Missing or malformed input files are rejected at the start.** exactly the inputs that fulfil the listed conditions are accepted and all others rejected (C129_accepted, C129_rejected), but the conditions let through a two-dimensional grid without y coordinates (C129_no_y_refuted), which are then NaN (C129_no_y_nan), the name of a wind file that does not exist (C129_wind_name_refuted), and a wave file without periods (C129_wave_refuted).
* **C130 Every cell gets its bed level from the bed file.** a single line of numbers, written as a row or as a column, is used for every row (C130_line, C130_too_few_refuted). A file of the size of the grid is taken cell by cell (C130_cells), other tables are refused (C130_mismatch_raises).
* **C131 The statistics printed after a run are those of the run.** with equal time steps from time zero the average number of solves is right and the average time step always too small (C131_average); with a later start it can be more than twice too large (C131_late_refuted), and a run without steps fails (C131_no_step_raises).
* **C133 The order of the grain size classes does not matter.** if the bed cannot supply a class: the weight that it leaves only goes to the classes listed after it, so the total pickup depends on the order (C133_limited_refuted, by more than half). While every class is supplied, each gets exactly the result that it has alone (C133_alone) and the order does not matter (C133_order).
* **C134 Splitting a grain size class in two changes nothing.** with a boundary where sand enters: every class brings in its full capacity whatever its share of the bed, so twice as much enters after splitting (C134_influx_refuted). Without sand from outside and with enough sand in the bed it holds (C134_split), and the weights are split exactly (C134_weights).
* **C135 The place along the coast does not matter.** when the wind along the coast differs between the rows: the first and the last row use their own speed where the others use their neighbour's (C135_gust_refuted). Proved for every wind that does not vary along the coast, for all beds, capacities and weights that do (C135_shift, C135_mirror).
* **C136 Land and sea can be exchanged.** when the wind is calm somewhere: sand that is blown into a calm cell arrives there if it comes from the sea and is lost if it comes from the land (C136_lull_refuted). Proved for every wind without calm cells (C136_turned).
* **C137 One row and many equal rows give the same result.** if the single row has wind along the coast: it loses sand sideways, as if its neighbours were empty (C137_oblique_refuted). Proved if the wind of the single row is across the coast, with any wind along the coast in the equal rows (C137_rows).
* **C139 The units do not matter in the steady state.** with 'constant' lateral boundaries: there the concentration is the capacity divided by the adaptation time as a number, so it depends on the unit of time (C139_constant_refuted). Proved with circular ones (C139_units).
* **C141 The air beside the lateral boundaries holds no more than it can carry.** in these rows nothing is blown in or out; every step adds capacity times dt / T, without limit (C141_step, C141_grows, C141_more_refuted), and in the steady state the concentration is the capacity divided by T (C141_steady).
* **C144 What lies downwind does not matter with Crank-Nicolson.** (C144_half_refuted): the explicit half makes negative concentrations, whose removal rescales the concentrations of the whole grid (model.py:1364-1379), so that sand in the air of a cell downwind lowers what is in the air upwind of it.
* **C145 Statistics of the flux are those of the flux.** (C145_sum_refuted, C145_most_refuted): q is computed after the statistics have been gathered (model.py:2772), so they are one step behind: the flux before the interval counts and that of the last step does not. Proved exactly (C145_sum_partial, C145_average_partial, C145_most_partial, C145_least_partial, C145_variance_partial); q itself is right (C145_now).
* **C146 Without wind no flux is reported.** (C146_calm_refuted): when the wind speed is zero the transport is not computed (model.py:300) and qs, qn, Ct and pickup keep the values of the last windy step, in every calm step that follows (C146_calm_partial).
* **C147 The sum of the pickup is what has left the bed.** when some steps have no wind (C147_twice_refuted): the pickup of the last windy step counts again in every calm step (C147_calm_partial). Proved when there is wind in all steps, steps that converge and move less than a layer (C147_windy_partial).
* **C149 The iterations filter the separation surface.** (C149_low_pass_refuted, C149_never_partial): the array of wave numbers k (shear.py:397) is overwritten by the loop variable of the bubbles (435), so all wave lengths of the row are reduced by one factor that depends on the number of the bubble, and by none for the first one (C149_scaled_partial). The iterations never lower the surface (C149_higher_partial) and have no effect behind cliffs (C149_cliff_partial).
* **C151 Filtering of the separation surface works on every grid.** (C151_rows_refuted): the number of rows is taken from the length of a row (shear.py:384), so with more rows than columns a bubble in a row beyond raises IndexError (C151_raises_partial). Proved otherwise (C151_ok_partial).
* **C154 parse_files=False leaves files alone.** (C154_off_refuted): in a list of words the names are parsed with the default parse_files=True (inout.py:277). Proved for single values (C154_single_partial).
* **C155 The number of blanks between the items of a list does not matter.** (C155_blanks_refuted): each blank too many adds an item None (C155_gaps_partial, which also gives the items for single blanks).
* **C156 Every parameter that the code reads has a value.** (C156_defaults_refuted): Cs (dune erosion), m (sheltering) and method_moist (in the message about an unknown formulation) have no default, so these raise KeyError (C156_these_partial); all others have one (C156_others_partial).
* **C158 Every declared grid is used.** (C158_used_refuted): dzdry, taus_u, taun_u, dtaus and dtaun keep the value zero (C158_idle_partial); all others are used (C158_others_partial).
* **C165 Higher waves mix the bed at least as well.** C165_higher_waves_refuted, two layers of 5 cm are mixed completely by waves that disturb 10 cm and only by half by waves that disturb 20 cm. The factor f (bed.py:158-161) was meant for sand from below the lowest layer, the term for which is commented out (bed.py:184-185). C165_law_partial gives the exact factor for all cells.
* **C166 Mixing keeps the mass of every layer.** C166_layers_refuted, a layer of 1 cm on one of 3 cm: both get the same mass, since the mean over layers (bed.py:183) is not weighted with thickness. C166_masses_partial gives the exact change: only layers of equal mass keep it (as in C23 and C163).
* **C167 A Crank-Nicolson step averages both ends of the step.** C167_wind_refuted, the explicit part uses the new wind speed with the old concentrations (model.py:1333-1345). C167_step_partial: with the new speed at both ends the law holds in every inner cell, as long as no concentration was cut off at zero; C167_weights_partial: the weights that the next step reads.
* **C169 The wind does not dig into the non-erodible layer.** C169_thick_refuted, the threshold looks at the level at the start of the step and stops the wind 1 cm above the layer, so a step that takes more than that digs into it (layers thicker than 1 cm). C169_rock_partial: it digs no deeper than nel + 1 cm - h where h is the most that one step can take; with the default layer_thickness of 1 cm never below nel. C169_stopped: no capacity within 1 cm of the layer.
* **C170 The computed concentrations meet the boundary conditions at sea and at land.** C170_noflux_refuted, with boundary_offshore 'noflux' the landward condition is ignored (model.py:1242 tests boundary_offshore in the onshore branch) and nothing reaches the last column; C170_side_refuted, lateral 'constant' fixes the whole first and last row at zero, ends included. C170_always: holds for all fully implicit converged steps otherwise with prescribed ends. C170_ends_partial: for every pair of conditions, wind and scheme, if there is sand in the air everywhere; missing are results from which negative concentrations were cut off.
* **C172 Water level and waves of a coupled model are used as given until the next exchange.** C172_mask_refuted, apply_mask changes the stored arrays in place, so a mask acts again in every step; C172_dry_refuted, the level filled into a low dry cell makes it wet and it then feeds its neighbours in the next step; C172_period_refuted, with only 'Tp' coupled the wave file is not read (hydro.py:110). C172_level, C172_waves, C172_runup, C172_held_partial: one step, and any number of steps where there is no mask, for wet cells.
* **C174 The slope of the bed used for the grain speed is that of the bed.** C174_ends_refuted, on a transect (ny = 0) the first and last cell are taken as level; C174_two_rows_refuted, with two rows the alongshore slope is zero; C174_turned_refuted, on a turned grid the rise is divided by the difference of the x coordinate, not by the distance along the row. C174_plane: exact everywhere on grids along the axes with at least three rows and columns; C174_transect: exact in the inner cells of a transect. Reals axioms.
* **C176 Avalanching treats all directions alike.** for the exchange of rows and columns: C176_oblong_refuted, the depth of the sand above the non-erodible layer is divided by ds in both directions (avalanching.py:140); C176_column_refuted, a single row slides and a single column does not. C176_mirror_s, C176_mirror_n: proved for both mirror images on every grid; C176_exchange_partial: proved for square cells and at least two rows and columns. Reals axioms.
* **C177 The unit of length does not matter for avalanching.** C177_unit_refuted, the flux is a function of the slope only and is added to the bed level as a length (avalanching.py:187), so each pass moves up to 0.2 of the unit, whatever the unit and the size of the cells. C177_pass_partial: the change of the bed in a pass is exactly the same number in every unit. Reals axioms.
* **C179 The number of updates does not suffer from rounding.** C179_decimal_refuted, dt = 0.1 and tstop = 0.3 give three updates in place of four (the fourth time point is 0.30000000000000004). C179_binary_partial: exact for all settings that are whole numbers of some power of two of a second; C179_one_off_partial: for all settings never more than one update off, up to some tens of millions of updates. Round_Model.dbl is rounding to nearest even with 53 bits; overflow and underflow are left out.
* **C180 Output at regular times does not suffer from rounding.** C180_decimal_refuted, dt = 0.1 and output_times = 1 write after updates 0, 11, 21, 31, 41 (ten tenths add up to 0.9999999999999999, and t - tout >= output_times asks for no tolerance, model.py:2787). C180_binary_partial: exact for all settings that are whole numbers of some power of two of a second; C180_one_off_partial: for all settings output comes after m or m+1 updates each time.
* **C181 The weights kept after a step are those the step was computed with.** C181_absent_refuted, in a cell with little sand of the first fraction and none of the second the concentration is computed with weight 0.19 and the weight kept is 1, because renormalize_weights scales fractions that were handled before when the rest has no share (transport.py:433). C181_present_partial: true for all fractions in all cells with a share of the last fraction, for the solver trunk, fully implicit, when the iterations converge.
* **C183 Evaporation follows the documented equation.** C183_wind_refuted, the code has 1 + 0.86 u2; at night with 20 m/s of wind a third more evaporates than documented. C183_excess: more than documented in every wind unless the air is saturated. C183_windless_partial: as documented in still air. C183_slope: the slope is the derivative of the saturation pressure up to 0.005 %.
* **C184 Runup and set-up follow the documented formulas.** C184_runup_refuted, the code has 0.0004 where the documentation (and Stockdon et al.) has 0.004; on a slope of 1:20 the runup is less than three quarters of the documented one. C184_reflective_low: always too low unless the beach is dissipative. C184_setup_refuted: the documented set-up 0.35 times the Iribarren number is not what is computed (nor a length); C184_reflective_low: it is that of Stockdon et al. C184_dissipative: as documented on dissipative beaches.
* **C185 Bed and air share in the weights of the fractions as documented.** C185_saturated_refuted, once (1 - z) times the saturation reaches one the bed has no influence at all, where 20 % is documented for z = 0.2. C185_unsaturated_partial: as documented up to saturation. C185_between, C185_above: what is computed otherwise. C185_bed_only: the bed alone for z = 1.
* **C186 The threshold is the documented product of factors.** C186_moist_refuted, the residual moisture is added to the boundary of 0.005; with the defaults a mass content of 1 % has no effect where a factor 1.8 is documented. C186_factors_partial: as documented for every content outside that gap. C186_ignored: inside it, the threshold of the dry bed.
* **C187 A bed without groundwater dries as documented.** C187_evaporation_refuted, evaporation is ignored by this method. C187_drying_partial: the documented value for no evaporation (and water above the bed by more than eps).
* **C189 Groundwater flows by the documented Boussinesq equation.** C189_boussinesq_refuted, levels of neighbouring cells are added where they should be subtracted; with a slope of 1:100 and cells of 1 m the rise is more than 800 times the documented one. C189_computed: what is computed. C189_crest_partial: as documented at a crest or trough at the datum. C189_grid: on a straight sloping table the rate doubles when the spacing is halved.
* **C190 Groundwater does not depend on the vertical datum.** C190_datum_refuted, with a datum lower by 1 m the rate is almost doubled. C190_shift: by how much the rate changes, where the documented one does not.
* **C192 Water above the documented field capacity infiltrates.** C192_default_refuted, the default fc of 0.11 is above the documented value for the default soil (below 0.09), and a bed with 0.10 never drains. C192_drains_partial: as documented where fc has been set to the documented value and no limit is reached.
* **C193 Runup feeds the groundwater at the documented rate.** C193_rate_refuted, Cl_gw f(x) is added in every sub-step as a height, so that the rise does not depend on the length of the step, the conductivity and the porosity. C193_added: what is computed; the distribution is the documented one, except in the column of the peak.
* **C194 A weather file in the documented format is read as documented.** C194_columns_refuted, the four quantities other than the temperature (C194_temperature_partial) are taken from other columns; C194_saturated_refuted, on a documented dry day the humidity of 80 % becomes a rain of 80 mm/h and the bed is saturated within the hour.
* **C195 Plants grow at the pace of the simulated time.** for the growth in cover: C195_cover_refuted, veggrowth_type other than orig uses the configured step p['dt'] instead of the step that is taken, so that plants grow in a second as much as in an hour. C195_height: the growth in height is right. C195_cover_partial: right in steps of the configured length.
* **C196 Plants respond to the average bed level change over avg_time.** C196_average_refuted, plants respond to the change of the last time step alone (the average is computed and not used, bed.py:465-466), so that plants shrink on a bed that goes up and down. C196_steady_partial: with a steady change the two agree.
* **C197 More salt in the bed means a higher threshold.** C197_fresh_refuted, the factor is computed with 1 - salt, so that a bed with salt content zero (the initial state) has more than twenty times the documented threshold. C197_lowers: any increase of salt lowers the threshold.
* **C199 A constant lateral border keeps its concentration.** C199_border_refuted, the coefficients of the next row are taken one row too far when the sparse matrix is built, so that the equation of the first row contains the coefficient of the second row; with wind towards the lower rows its concentration changes. C199_border_partial: without wind towards the lower rows the border concentrations are kept, up to the common factor with which negative concentrations elsewhere are made up for.
* **C200 Between gradient borders rows that are alike stay alike.** C200_rows_refuted and C200_excess_refuted, for the same reason as C199, with wind towards the lower rows. C200_rows_partial: true of every wind straight onshore or towards the higher rows.
* **C201 Capitals in the name of a method do not matter.** C201_capitals_refuted, vegshear_type = Okin selects the method of Raupach without a message, and veggrowth_type = Orig another law of growth. C201_capitals_matter: scheme, method_roughness, method_grainspeed, wind_convention, vegshear_type and veggrowth_type all mind capitals. C201_capitals_partial: solver, boundary_gw, method_moist_threshold, method_moist_process and method_transport do not.
* **C202 An unknown name of a method is refused by name.** C202_unknown_refuted, an unknown veggrowth_type (and vegshear_type) is accepted. C202_unknown_others: an unknown solver, method_roughness or method_grainspeed ends in UnboundLocalError, method_moist_threshold in KeyError (the message reads p['method_moist']), boundary_gw in TypeError (the message has no place for the name). C202_unknown_partial: scheme, method_moist_process, method_transport and wind_convention are refused as they should, once the code that compares them is reached.
* **C203 Every documented name leads to the method it stands for.** C203_names_refuted and C203_misnamed, constants.py:306 calls the surface moisture method surface_moisture (code: surf_moisture; ValueError) and the docstring of calculate_z0 the method of Van Rijn and Strypsteen strypsteen_vanrijn (code: vanrijn_strypsteen; UnboundLocalError). C203_names_partial: all others lead to their method.

Further observations, read in the code but not stated as theorems:

* `wind.separation1d` uses `p['dx']` instead of the grid spacing, does not flip `x` for offshore winds, stores `zsep` as a one-dimensional
  array, and filters with a scalar because the loop variable shadows `k`; in `shear.py` a third argument of `np.logical_and` is its output.
* `shear.separation`: the height of the bubble is the absolute bed level when there is no rising slope downwind. A roughness per cell is multiplied with
  fields in wave-number space. `get_borders` repeats one corner and omits a point.
* `hydro.update` initialises scanning only at `t == 0` and contains a comparison `==` where an assignment was meant.
* `dzb` and `dzbveg` are only updated in the wind branch of `update`, so germination sees stale values in calm weather.
* Configuration: lists of values lose `parse_files=False` in the recursion; double spaces yield `None` entries;
  `grain_dist` without `grain_size` is a `KeyError`; `write_configfile` overwrites without backup.
* The pieter solvers: two rows give duplicate offsets (ValueError), a lateral 'gradient' with one row an IndexError; steadystatepieter returns no `q`;
  the sizes `dn[:,1]`, `dn[:,-2]` are those of neighbouring columns; `sedimentinput` is used nowhere.

## 5. Seeded errors

`seeded/LOG.jsonl` lists wrong versions of the model that were built in a scratch copy. `theorems_failed` are the property theorems whose proofs, or the
lemmas below them, no longer go through as written: a failing proof script does not by itself show that the statement became false. An edit that survived led to a
sharper theorem, named in `theorems_tightened`, or is explained in the note; a note that begins with `open` marks one that no
theorem catches yet. Results that begin with `inconclusive` show nothing either way: the rebuild
was stopped by a time limit before anything failed, or the edit broke a definition or statement before the theorems were reached. Where lemmas failed and
the rebuild was stopped, the theorems were not determined.
