-Q theories Verif
theories/Base.v
theories/Config_Model.v
theories/Config_Spec.v
theories/Config_Proofs.v
theories/Config_Cases.v
theories/Config_Lines.v
theories/Config_Props.v
theories/State_Model.v
theories/State_Spec.v
theories/State_Proofs.v
theories/State_Cases.v
theories/State_Props.v
theories/Num.v
theories/Time_Model.v
theories/Time_Spec.v
theories/Time_Proofs.v
theories/Time_Cases.v
theories/Time_Props.v
theories/Runner_Model.v
theories/Runner_Spec.v
theories/Runner_Proofs.v
theories/Runner_File.v
theories/Runner_Cases.v
theories/Runner_Props.v
theories/Rotate_Model.v
theories/Rotate_Spec.v
theories/Rotate_Proofs.v
theories/Rotate_Cases.v
theories/Rotate_Props.v
theories/Utils_Model.v
theories/Utils_Spec.v
theories/Utils_Proofs.v
theories/Utils_Cases.v
theories/Utils_Props.v
theories/Bed_Model.v
theories/Bed_Spec.v
theories/Bed_Proofs.v
theories/Bed_Cases.v
theories/Bed_Init.v
theories/Bed_Props.v
theories/Avalanche_Model.v
theories/Avalanche_Spec.v
theories/Avalanche_Proofs.v
theories/Avalanche_Cases.v
theories/Avalanche_Props.v
theories/Ext.v
theories/Threshold_Model.v
theories/Threshold_Spec.v
theories/Threshold_Proofs.v
theories/Threshold_Cases.v
theories/Threshold_Props.v
theories/Solver_Model.v
theories/Solver_Spec.v
theories/Linear.v
theories/Solver_Proofs.v
theories/Solver_Iter.v
theories/Solver_Balance.v
theories/Solver_Cases.v
theories/Solver_Props.v
theories/Hydro_Model.v
theories/Hydro_Spec.v
theories/Hydro_Proofs.v
theories/Hydro_Shore.v
theories/Hydro_Cases.v
theories/Hydro_Props.v
theories/Moist_Model.v
theories/Moist_Spec.v
theories/Moist_Proofs.v
theories/Moist_Runup.v
theories/Moist_Cases.v
theories/Moist_More.v
theories/Moist_Props.v
theories/Wind_Model.v
theories/Wind_Spec.v
theories/Wind_Proofs.v
theories/Wind_Shear.v
theories/Wind_Cases.v
theories/Wind_More.v
theories/Wind_Props.v
theories/Gen_Model.v
theories/Gen_Spec.v
theories/Gen_Proofs.v
theories/Gen_Cases.v
theories/Gen_Props.v
theories/Veg_Model.v
theories/Veg_Spec.v
theories/Veg_Proofs.v
theories/Veg_Cases.v
theories/Veg_Props.v
theories/Shelter_Model.v
theories/Shelter_Spec.v
theories/Shelter_Proofs.v
theories/Shelter_Cases.v
theories/Shelter_Props.v
theories/Fence_Model.v
theories/Fence_Spec.v
theories/Fence_Proofs.v
theories/Fence_Cases.v
theories/Fence_Props.v
theories/Erosion_Model.v
theories/Erosion_Spec.v
theories/Erosion_Proofs.v
theories/Erosion_Cases.v
theories/Erosion_Props.v
theories/Grid_Model.v
theories/Grid_Spec.v
theories/Grid_Proofs.v
theories/Grid_Cases.v
theories/Grid_Props.v
theories/Seep_Spec.v
theories/Seep_Proofs.v
theories/Seep_Cases.v
theories/Seep_Props.v
theories/Netcdf_Text.v
theories/Netcdf_Model.v
theories/Netcdf_Spec.v
theories/Netcdf_Proofs.v
theories/Netcdf_Cases.v
theories/Netcdf_Props.v
theories/Pieter_Model.v
theories/Pieter_Spec.v
theories/Pieter_Proofs.v
theories/Pieter_Coefs.v
theories/Pieter_Balance.v
theories/Pieter_Unique.v
theories/Pieter_Whole.v
theories/Pieter_Outcome.v
theories/Pieter_Uniform.v
theories/Pieter_Cases.v
theories/Pieter_Raise.v
theories/Pieter_Props.v
theories/Shear_Model.v
theories/Shear_Spec.v
theories/Shear_Proofs.v
theories/Shear_Grid.v
theories/Shear_Interp.v
theories/Shear_Stress.v
theories/Shear_Bubble.v
theories/Shear_Ramp.v
theories/Shear_Fourier.v
theories/Shear_Units.v
theories/Shear_Cases.v
theories/Shear_Props.v
theories/Fence2_Model.v
theories/Fence2_Spec.v
theories/Fence2_Proofs.v
theories/Fence2_Uniform.v
theories/Fence2_Cases.v
theories/Fence2_Props.v
theories/Run_Model.v
theories/Run_Spec.v
theories/Run_Proofs.v
theories/Run_Whole.v
theories/Run_Cases.v
theories/Run_Props.v
theories/Pieter_Fractions.v
theories/Start_Model.v
theories/Start_Spec.v
theories/Start_Proofs.v
theories/Start_Cases.v
theories/Start_Paths.v
theories/Start_Props.v
theories/Sym_Spec.v
theories/Sym_Proofs.v
theories/Sym_Fractions.v
theories/Sym_Cases.v
theories/Sym_Props.v
theories/Units_Spec.v
theories/Units_Proofs.v
theories/Units_Run.v
theories/Units_Cases.v
theories/Units_Props.v
theories/Side_Spec.v
theories/Side_Proofs.v
theories/Side_Cases.v
theories/Side_Props.v
theories/Causal_Spec.v
theories/Causal_Proofs.v
theories/Causal_Run.v
theories/Causal_Cases.v
theories/Causal_Props.v
theories/Report_Model.v
theories/Report_Spec.v
theories/Report_Proofs.v
theories/Report_Pickup.v
theories/Report_Cases.v
theories/Report_Props.v
theories/Filter_Model.v
theories/Filter_Spec.v
theories/Filter_Proofs.v
theories/Filter_Smooth.v
theories/Filter_Cases.v
theories/Filter_Props.v
theories/Derived_Spec.v
theories/Derived_Proofs.v
theories/Derived_Words.v
theories/Derived_Cases.v
theories/Derived_Props.v
theories/Names_Model.v
theories/Names_Spec.v
theories/Names_Proofs.v
theories/Names_Cases.v
theories/Names_Props.v
theories/Spinup_Spec.v
theories/Spinup_Proofs.v
theories/Spinup_Runs.v
theories/Spinup_Fetch.v
theories/Spinup_Cases.v
theories/Spinup_Props.v
theories/Day_Model.v
theories/Day_Spec.v
theories/Day_Proofs.v
theories/Day_Cases.v
theories/Day_Props.v
theories/Theta_Spec.v
theories/Theta_Proofs.v
theories/Theta_Cases.v
theories/Theta_Props.v
theories/Limit_Spec.v
theories/Limit_Proofs.v
theories/Limit_Rock.v
theories/Limit_Cases.v
theories/Limit_Props.v
theories/Ends_Spec.v
theories/Ends_Proofs.v
theories/Ends_Cases.v
theories/Ends_Props.v
theories/Sea_Model.v
theories/Sea_Spec.v
theories/Sea_Proofs.v
theories/Sea_Cases.v
theories/Sea_Props.v
theories/Grain_Model.v
theories/Grain_Spec.v
theories/Grain_Proofs.v
theories/Grain_Cases.v
theories/Grain_Props.v
theories/Slide_Spec.v
theories/Slide_Proofs.v
theories/Slide_Cases.v
theories/Slide_Props.v
theories/Weather_Model.v
theories/Weather_Spec.v
theories/Weather_Proofs.v
theories/Weather_Props.v
theories/Round_Model.v
theories/Round_Spec.v
theories/Round_Dbl.v
theories/Round_Proofs.v
theories/Round_Error.v
theories/Round_Cases.v
theories/Round_Props.v
theories/Kept_Spec.v
theories/Kept_Proofs.v
theories/Kept_Cases.v
theories/Kept_Props.v
theories/Rain_Spec.v
theories/Rain_Proofs.v
theories/Rain_Cases.v
theories/Rain_Props.v
theories/Share_Spec.v
theories/Share_Proofs.v
theories/Share_Cases.v
theories/Share_Props.v
theories/Docs_Spec.v
theories/Docs_Proofs.v
theories/Docs_Cases.v
theories/Docs_Salt.v
theories/Docs_Props.v
theories/Flow_Spec.v
theories/Flow_Proofs.v
theories/Flow_Cases.v
theories/Flow_Swash.v
theories/Flow_Swash_Cases.v
theories/Flow_Props.v
theories/Capil_Spec.v
theories/Capil_Proofs.v
theories/Capil_Cases.v
theories/Capil_Props.v
theories/Meteo_Spec.v
theories/Meteo_Proofs.v
theories/Meteo_Cases.v
theories/Meteo_Props.v
theories/Pace_Spec.v
theories/Pace_Proofs.v
theories/Pace_Props.v
theories/Burial_Model.v
theories/Burial_Spec.v
theories/Burial_Proofs.v
theories/Burial_Props.v
theories/Lateral_Spec.v
theories/Lateral_Proofs.v
theories/Lateral_Rows.v
theories/Lateral_Kept.v
theories/Lateral_Cases.v
theories/Lateral_Props.v
theories/Choice_Model.v
theories/Choice_Spec.v
theories/Choice_Proofs.v
theories/Choice_Props.v
