{"id": "C01", "title": "Configuration file: last assignment wins, defaults fill the rest", "statement": "Reading a configuration file returns, for every parameter, the value of the last non-comment assignment of that parameter in the file; if the file never assigns it, the built-in default is returned (when defaults are requested) or the parameter is absent (when they are not). Comment text, lines without '=' and whitespace around keys do not affect the result.", "quantifier": "every sequence of lines in a configuration file, every parameter name, every table of defaults", "why_tests_cant": "the number, order and interleaving of assignments, comments and malformed lines is unbounded", "anchors": ["aeolis/inout.py:read_configfile", "aeolis/inout.py:parse_value", "aeolis/constants.py:DEFAULT_CONFIG"]}
{"id": "C02", "title": "Booleans, integers and None survive printing and re-reading", "statement": "A boolean, integer or None value printed by the package's value formatter and parsed again by the configuration value parser yields the same value.", "quantifier": "every boolean and every integer of any size and sign, and None", "why_tests_cant": "the integers are infinite; decimal printing and regular-expression classification must agree for every digit string", "anchors": ["aeolis/utils.py:print_value", "aeolis/inout.py:parse_value"]}
{"id": "C03", "title": "Textual parameters are read back verbatim", "statement": "A configuration value that is a single word of text (for instance a file name or an option name) and is not exactly T, F, True, False or None and is not a number is returned as that same text.", "quantifier": "every single-word string", "why_tests_cant": "strings are infinite and the parser classifies them by regular-expression prefix tests", "anchors": ["aeolis/inout.py:parse_value"]}
{"id": "C04", "title": "Every configuration value parses to a value or text, never an exception", "statement": "Parsing the right-hand side of any configuration line returns a value; malformed numbers fall back to text rather than aborting the run.", "quantifier": "every string", "why_tests_cant": "strings are infinite; the classification regex and the numeric constructor must agree on every one", "anchors": ["aeolis/inout.py:parse_value"]}
{"id": "C05", "title": "Backing up a file never destroys an existing file", "statement": "The backup name chosen for a file does not exist beforehand, the chosen name is the first free one of name~001 .. name~999, and if all are taken the operation fails without choosing a name; so saving a matrix parameter to its own text file preserves the previous content of that file under some name.", "quantifier": "every set of existing file names and every file name", "why_tests_cant": "the directory contents are arbitrary; tests sample a few", "anchors": ["aeolis/inout.py:backup", "aeolis/inout.py:get_backupfilename", "aeolis/inout.py:write_configfile"]}
{"id": "C06", "title": "Variables fixed by hotstart are never changed by the model", "statement": "Once a state variable has been marked immutable, no sequence of later state assignments or state updates by the model changes the value stored for it, until it is marked mutable again; variables never marked immutable always hold the last value assigned.", "quantifier": "every sequence of assignment, bulk update, in-place, set_mutable and set_immutable operations on the model state", "why_tests_cant": "histories are unbounded and mix several write paths", "anchors": ["aeolis/model.py:ModelState", "aeolis/model.py:AeoLiS.update", "aeolis/model.py:AeoLiSRunner.load_hotstartfiles"]}
{"id": "C07", "title": "Setting a variable through the BMI and reading it back", "statement": "After set_var(name, value) with a known name, get_var(name) returns that value and every other variable and parameter is unchanged; set_var of an unknown name changes nothing and get_var of an unknown name returns nothing.", "quantifier": "every model state, configuration, variable name, value and sequence of sets", "why_tests_cant": "names, values and histories are unbounded; two name spaces (state and parameters) are searched in turn and two names are rescaled on read", "anchors": ["aeolis/model.py:AeoLiS.get_var", "aeolis/model.py:AeoLiS.set_var"]}
{"id": "C08", "title": "BMI variable enumeration is complete and without repetition", "statement": "For i from 0 to get_var_count()-1, get_var_name(i) enumerates every spatial grid of the model exactly once in alphabetical order; for i >= get_var_count() it returns -1; setting a variable by index affects exactly the variable of that index, and an out-of-range index changes nothing.", "quantifier": "every set of grid names, every index", "why_tests_cant": "the sets of names and the indices are arbitrary", "anchors": ["aeolis/model.py:AeoLiS.get_var_count", "aeolis/model.py:AeoLiS.get_var_name", "aeolis/model.py:AeoLiS.set_var_index"]}
{"id": "C09", "title": "Declared dimensions agree with grid sizes", "statement": "Every state variable is allocated with shape (ny+1, nx+1) extended with the number of fractions and/or layers given in the configuration, and reported rank and shape agree with it for every configuration.", "quantifier": "every nx, ny, number of layers and fractions, and every declared variable", "why_tests_cant": "the sizes are unbounded", "anchors": ["aeolis/model.py:AeoLiS.initialize", "aeolis/model.py:AeoLiS._dims2shape", "aeolis/model.py:AeoLiS.dimensions", "aeolis/constants.py:MODEL_STATE"]}
{"id": "C10", "title": "Requested time step semantics", "statement": "update(dt) with dt > 0 advances the clock by dt (times the acceleration factor); with -1 <= dt <= 0 it advances by the configured (or CFL-limited) time step; with dt < -1 it only moves the clock by |dt| without executing any process.", "quantifier": "every requested time step, configuration, state and history of calls", "why_tests_cant": "real-valued inputs and unbounded call histories", "anchors": ["aeolis/model.py:AeoLiS.update", "aeolis/model.py:AeoLiS.set_timestep"]}
{"id": "C11", "title": "A run always reaches its stop time", "statement": "Starting from tstart, repeated updates with a positive configured time step reach tstop after finitely many updates; with constant time step dt and acceleration factor a, the run makes exactly floor((tstop-tstart)/(dt*a)) + 1 updates and ends at the first time point beyond tstop.", "quantifier": "every start time, stop time, time step, acceleration factor and wind history", "why_tests_cant": "run lengths are unbounded; a stuck clock is an infinite loop that no finite test observes", "anchors": ["aeolis/model.py:AeoLiSRunner.run", "aeolis/model.py:AeoLiS.update", "aeolis/model.py:AeoLiS.set_timestep"]}
{"id": "C12", "title": "Adaptive time step keeps the bed level change bounded and time moving forward", "statement": "When a maximum bed level change per step is configured, the next time step is positive, is not larger than the configured one, and scales the last bed level change to at most the configured maximum.", "quantifier": "every bed level change field, every previous time step and configured maximum", "why_tests_cant": "arbitrary fields of real numbers of both signs", "anchors": ["aeolis/model.py:AeoLiS.set_timestep"]}
{"id": "C13", "title": "Output is written at the requested interval", "statement": "During a run, output is written at the first time point and then exactly at each first time point at least output_times later than the previous output; consecutive outputs are thus at least output_times apart and no more than output_times plus one time step apart.", "quantifier": "every sequence of time steps and every output interval", "why_tests_cant": "schedules of time steps are unbounded", "anchors": ["aeolis/model.py:AeoLiSRunner.run", "aeolis/model.py:AeoLiSRunner.output_write"]}
{"id": "C14", "title": "Output statistics equal the statistics of the values since the previous output", "statement": "The minimum, maximum, sum, average and variance reported for a variable equal those of the list of its values at the model updates since the statistics were last reset; resetting occurs exactly at the first update after an output.", "quantifier": "every sequence of variable values, every interleaving of updates and outputs", "why_tests_cant": "incremental accumulators must agree with the batch definition for every history length", "anchors": ["aeolis/model.py:AeoLiSRunner.output_init", "aeolis/model.py:AeoLiSRunner.output_clear", "aeolis/model.py:AeoLiSRunner.output_update", "aeolis/model.py:AeoLiSRunner.get_statistic"]}
{"id": "C15", "title": "The runner can be updated and queried in any order", "statement": "A runner that has been initialised can be updated and queried for variables in any order: no sequence of update and get_var calls fails because of missing internal bookkeeping, and every state variable can be retrieved by its own name.", "quantifier": "every sequence of update and get_var calls and every variable name", "why_tests_cant": "call orders are unbounded; tests exercise the usual one", "anchors": ["aeolis/model.py:AeoLiSRunner.update", "aeolis/model.py:AeoLiSRunner.get_var", "aeolis/model.py:AeoLiSRunner.__init__"]}
{"id": "C16", "title": "The grid has its original orientation after every update", "statement": "After update() returns, the coordinates of the grid and all vector quantities are expressed in the original orientation, for every path through update(): rotating over an angle and back is the identity and preserves distances.", "quantifier": "every grid, angle and every control path through an update", "why_tests_cant": "angles and grids are continuous; early exits are rarely exercised", "anchors": ["aeolis/model.py:AeoLiS.update", "aeolis/model.py:AeoLiS.grid_rotate", "aeolis/utils.py:rotate"]}
{"id": "C17", "title": "A run interrupted and restarted from a restart file continues identically", "statement": "If a run is interrupted after any update and a restart file written at that point is loaded in a new run, the remaining updates and outputs are those of the uninterrupted run.", "quantifier": "every crash point in every run", "why_tests_cant": "crash points and run lengths are unbounded", "anchors": ["aeolis/model.py:AeoLiSRunner.dump_restartfile", "aeolis/model.py:AeoLiSRunner.load_restartfile", "aeolis/model.py:AeoLiSRunner.output_write"]}
{"id": "C18", "title": "Output file time axis", "statement": "After any number of appends, the output file holds exactly one slice per append, in order, earlier slices are unchanged, and the time bounds form a contiguous partition starting at zero and ending at the last time.", "quantifier": "every sequence of appended outputs", "why_tests_cant": "histories are unbounded", "anchors": ["aeolis/netcdf.py:append", "aeolis/netcdf.py:set_bounds"]}
{"id": "C19", "title": "Normalisation produces a distribution", "statement": "Normalising an array along an axis yields non-negative values summing to one along that axis wherever the input is non-negative with positive sum, preserves ratios, and yields the fill value everywhere where the sum is zero.", "quantifier": "every array and axis", "why_tests_cant": "real-valued arrays of any length", "anchors": ["aeolis/utils.py:normalize"]}
{"id": "C20", "title": "Fraction weights always form a distribution", "statement": "The weights of sediment fractions used for transport are non-negative and sum to one for every bed composition, saturation level and bed interaction parameter; renormalising from a given fraction on leaves the weights of earlier fractions unchanged.", "quantifier": "every number of fractions, every air and bed distribution, every bed interaction parameter in [0,1] and every index", "why_tests_cant": "continuous and unbounded inputs", "anchors": ["aeolis/transport.py:compute_weights", "aeolis/transport.py:renormalize_weights"]}
{"id": "C21", "title": "Boundary-condition time series repeat circularly", "statement": "Interpolating a time series at a time within its range gives the linear interpolation of the neighbouring points (exactly the series value at a sample point); outside the range the series is repeated periodically; the result never leaves the range of the series values.", "quantifier": "every time and every time series with increasing times", "why_tests_cant": "times and series are unbounded", "anchors": ["aeolis/utils.py:interp_circular"]}
{"id": "C22", "title": "Mask files apply multiplication then addition", "statement": "A mask cell a + bi turns a value v into a*v + b, a mask 1+0i leaves every grid unchanged, an absent mask leaves it unchanged, and applying two masks in turn equals applying the composed mask.", "quantifier": "every grid, every mask and every sequence of masks", "why_tests_cant": "continuous inputs, unbounded sequences", "anchors": ["aeolis/utils.py:apply_mask"]}
{"id": "C23", "title": "Wave mixing of bed layers conserves sediment", "statement": "Mixing the top layers by waves redistributes each sediment fraction over the layers down to the depth of disturbance and conserves the total mass of every fraction in every cell, keeps masses non-negative, and leaves layers below the mixing depth and cells without waves unchanged.", "quantifier": "every bed composition, layer thickness, wave height and depth", "why_tests_cant": "continuous inputs; number of layers and fractions arbitrary", "anchors": ["aeolis/bed.py:mixtoplayer"]}
{"id": "C24", "title": "Initial bed composition", "statement": "After initialisation every layer of every cell contains exactly the mass rho_g * (1 - porosity) * thickness, distributed over the fractions according to the given distribution or bed composition file.", "quantifier": "every grain size distribution, number of layers and grid", "why_tests_cant": "continuous inputs, arbitrary dimensions", "anchors": ["aeolis/bed.py:initialize"]}
{"id": "C25", "title": "Bed update conserves sediment and layer mass", "statement": "A bed update changes the total mass in the bed of a cell by minus the mass picked up plus what is supplied from (or lost to) the base below the lowest layer; the mass in each layer remains the layer's original mass; no layer obtains a negative mass; and the bed level changes by the net eroded mass divided by rho_g*(1-porosity).", "quantifier": "every bed composition and every pickup field not exceeding the available mass", "why_tests_cant": "continuous inputs; any number of layers and fractions", "anchors": ["aeolis/bed.py:update", "aeolis/bed.py:arrange_layers"]}
{"id": "C26", "title": "Prevention of negative layer masses preserves the exchanged mass", "statement": "Before the bed is updated, pickup that would exhaust a fraction is redistributed or limited; the net mass exchanged between bed and air in a cell is preserved, the sign of the exchange of each fraction is preserved and deposited mass still raises the bed.", "quantifier": "every bed composition and pickup field", "why_tests_cant": "continuous inputs; the code distinguishes cases by mass comparisons hit only by extreme fields", "anchors": ["aeolis/bed.py:prevent_negative_mass", "aeolis/bed.py:update"]}
{"id": "C27", "title": "Tidal bed reset moves the bed towards its initial level without overshoot", "statement": "Resetting wet cells moves the bed level monotonically towards the initial bed level and never past it; dry cells are unchanged; repeated resets converge.", "quantifier": "every bed level, water level and sequence of time steps", "why_tests_cant": "continuous inputs, unbounded histories", "anchors": ["aeolis/bed.py:wet_bed_reset"]}
{"id": "C28", "title": "No transport capacity below threshold", "statement": "The equilibrium sediment concentration is non-negative in every cell and fraction, and zero wherever the shear velocity does not exceed the threshold.", "quantifier": "every transport formulation, shear velocity, threshold and grain size", "why_tests_cant": "continuous inputs and unbounded time step histories (fields persist across steps)", "anchors": ["aeolis/transport.py:equilibrium"]}
{"id": "C29", "title": "Moisture never makes sand easier to move", "statement": "For every supported moisture method the threshold shear velocity after accounting for moisture is at least the threshold before, grows with the moisture content, and very wet cells cannot be eroded at all.", "quantifier": "every moisture content, grain size and method", "why_tests_cant": "continuous inputs", "anchors": ["aeolis/threshold.py:compute_moisture"]}
{"id": "C30", "title": "Cells at the non-erodible layer are not eroded", "statement": "A cell whose bed level is at or below the non-erodible layer gets an infinite threshold and hence zero equilibrium concentration, whatever the wind; other cells' thresholds are unaffected.", "quantifier": "every bed, non-erodible layer, wind and time step history", "why_tests_cant": "continuous inputs", "anchors": ["aeolis/threshold.py:non_erodible", "aeolis/transport.py:equilibrium"]}
{"id": "C31", "title": "Erosion never exceeds the sediment available in the top layer", "statement": "For every solver, once the iteration has converged the pickup of each fraction in each cell does not exceed the mass of that fraction in the top bed layer.", "quantifier": "every concentration field, weight distribution, bed composition and time step", "why_tests_cant": "continuous inputs and data-dependent iteration counts", "anchors": ["aeolis/model.py:AeoLiS.solve", "aeolis/model.py:AeoLiS.solve_steadystate", "aeolis/model.py:AeoLiS.solve_pieter", "aeolis/model.py:AeoLiS.solve_steadystatepieter"]}
{"id": "C32", "title": "The implicit transport system has one non-negative, bounded solution", "statement": "For every wind and grid the implicit transport system solved in a time step has a unique solution, which is non-negative and bounded by the largest of the previous, boundary and equilibrium concentrations.", "quantifier": "every grid size, wind field, time step and concentration field", "why_tests_cant": "grids and fields are unbounded; a discrete maximum principle needs induction over cells", "anchors": ["aeolis/model.py:AeoLiS.solve"]}
{"id": "C33", "title": "Removing negative concentrations conserves the total", "statement": "When small negative concentrations are removed, the total suspended mass of the fraction is conserved and no negative concentration remains.", "quantifier": "every concentration field with negative entries", "why_tests_cant": "continuous inputs of any size", "anchors": ["aeolis/model.py:AeoLiS.solve", "aeolis/utils.py:prevent_tiny_negatives"]}
{"id": "C34", "title": "Avalanching redistributes sand without creating it", "statement": "Avalanching leaves a bed without slopes over the static angle of repose unchanged, terminates, never changes the cells on the boundary of the grid, conserves the total volume of sand, and when it stops before the iteration limit no slope reaches the dynamic angle of repose.", "quantifier": "every bed, angles of repose, grid and iteration limit", "why_tests_cant": "continuous inputs, data-dependent iteration counts, unbounded grids", "anchors": ["aeolis/avalanching.py:avalanche", "aeolis/avalanching.py:calc_gradients"]}
{"id": "C35", "title": "Water level is never below the bed and waves are depth limited", "statement": "After interpolation of tide and waves, the water level is at least the bed level in every cell, dry cells have zero wave height, and the wave height nowhere exceeds gamma times the water depth.", "quantifier": "every bed, tide and wave time series and time", "why_tests_cant": "continuous inputs", "anchors": ["aeolis/hydro.py:interpolate"]}
{"id": "C36", "title": "Soil moisture stays physical", "statement": "For every weather, tide and time step history the volumetric moisture content of every cell stays between zero and the porosity (infiltration method) or the satiated moisture content (surface moisture method).", "quantifier": "every history of time steps and weather", "why_tests_cant": "unbounded histories; invariant", "anchors": ["aeolis/hydro.py:update"]}
{"id": "C37", "title": "Groundwater stays below the surface", "statement": "After every hydrology update the groundwater level is nowhere above the maximum of bed level and still water level with set-up, equals the latter in wet cells, and the sub-steps together cover exactly the model time step.", "quantifier": "every groundwater field, bed, tide, time step and sub-step factor", "why_tests_cant": "continuous inputs; number of sub-steps unbounded", "anchors": ["aeolis/hydro.py:update", "aeolis/hydro.py:Boussinesq"]}
{"id": "C38", "title": "Soil water retention with hysteresis stays between the main curves", "statement": "The moisture content computed with hysteresis lies between the main wetting and the main drying curve, for every history of wetting and drying.", "quantifier": "every history of suction heads and flags", "why_tests_cant": "unbounded histories over six scanning-curve cases", "anchors": ["aeolis/hydro.py:SWR_curve", "aeolis/hydro.py:hdelta"]}
{"id": "C39", "title": "Wave runup is non-negative and consistent between scalar and array input", "statement": "Runup, setup and swash are non-negative for non-negative wave height and positive wave length, zero when there are no waves, and computing them for an array gives the same as computing them element by element.", "quantifier": "every wave height, peak period and beach slope", "why_tests_cant": "continuous inputs; two separate code paths", "anchors": ["aeolis/hydro.py:calc_runup_stockdon"]}
{"id": "C40", "title": "Wind components and shear stresses are consistent", "statement": "Wind components recombine to the wind speed for every direction, shear stress and shear velocity computed from one another agree in magnitude and direction, and converting velocity to stress and back is the identity; shear velocity is zero iff stress is zero.", "quantifier": "every wind speed and direction", "why_tests_cant": "continuous inputs", "anchors": ["aeolis/wind.py:interpolate", "aeolis/wind.py:velocity_stress", "aeolis/wind.py:stress_velocity"]}
{"id": "C41", "title": "Topographic shear perturbation never reverses the wind", "statement": "In one dimension the perturbed shear stress is at least one tenth of the unperturbed stress with the same direction, a flat bed leaves it unchanged, and flow separation can only reduce it, never below zero.", "quantifier": "every bed profile and wind", "why_tests_cant": "profiles are unbounded", "anchors": ["aeolis/wind.py:compute_shear1d", "aeolis/wind.py:shear"]}
{"id": "C42", "title": "Vegetation cover stays physical and does not appear without germination", "statement": "For every history of growth steps the vegetation cover stays between zero and its maximum, cover and height are consistent, submerged cells and cells below the minimum elevation have none, no growth takes place when vertical growth is switched off, and a cell whose vegetation died only regrows after germination or lateral spreading.", "quantifier": "every history of burial, tide and germination", "why_tests_cant": "unbounded histories with persisting state", "anchors": ["aeolis/vegetation.py:grow", "aeolis/vegetation.py:germinate", "aeolis/vegetation.py:initialize"]}
{"id": "C43", "title": "Sheltering by plants and fences only reduces shear", "statement": "Behind vegetation or fences the shear velocity is reduced to a non-negative multiple at most one of the unobstructed value and its direction is unchanged; without roughness elements nothing changes; upwind cells are unaffected.", "quantifier": "every arrangement of roughness elements, grid and wind direction", "why_tests_cant": "unbounded arrangements", "anchors": ["aeolis/vegetation.py:vegshear_okin", "aeolis/vegetation.py:vegshear_raupach", "aeolis/fences.py:fence_shear1d"]}
{"id": "C44", "title": "Fences are buried and eroded out consistently", "statement": "The active fence height is always either zero or between 0.1 and 1.5 m and equals fence top minus bed level; cells without an initial fence never get one; a fence that eroded out never comes back.", "quantifier": "every history of bed levels", "why_tests_cant": "unbounded histories", "anchors": ["aeolis/fences.py:initialize", "aeolis/fences.py:update_fence_height"]}
{"id": "C45", "title": "Dune erosion only lowers the bed landward of the dune toe", "statement": "Wave-driven dune erosion never raises the bed, leaves all cells seaward of the dune toe and landward of the new scarp unchanged, and does nothing when the total water level does not exceed the dune toe.", "quantifier": "every bed profile and wave climate", "why_tests_cant": "unbounded profiles", "anchors": ["aeolis/erosion.py:run_ph12"]}
{"id": "C46", "title": "Generated wind time series are valid", "statement": "A generated wind series has one sample per time step from zero to the duration, all wind speeds are non-negative and do not exceed the requested maximum, for every sequence of random numbers.", "quantifier": "every parameter combination and every random sequence", "why_tests_cant": "random sequences are unbounded", "anchors": ["aeolis/model.py:WindGenerator"]}
{"id": "C47", "title": "Characteristic grain sizes lie between the smallest and largest fraction", "statement": "The mean grain size and every percentile of the top layer lie between the smallest and the largest grain size of the fractions, percentiles are non-decreasing in the percentage.", "quantifier": "every bed composition and percentage", "why_tests_cant": "continuous inputs", "anchors": ["aeolis/utils.py:calc_mean_grain_size", "aeolis/utils.py:calc_grain_size"]}
{"id": "C48", "title": "Wind convention and calm/longshore fixes", "statement": "Initialising with the cartesian convention converts each direction d to the nautical direction 270-d, except exactly shore-parallel directions which are shifted by at most 0.01 degree; speeds and times are never changed and unknown conventions are rejected.", "quantifier": "every wind file", "why_tests_cant": "unbounded series", "anchors": ["aeolis/wind.py:initialize"]}
{"id": "C49", "title": "Written configuration files read back to the same configuration", "statement": "Writing a configuration and reading the written file returns the same parameters.", "quantifier": "every configuration", "why_tests_cant": "configurations are unbounded", "anchors": ["aeolis/inout.py:write_configfile", "aeolis/inout.py:read_configfile"]}
{"id": "C50", "title": "Default output configuration names existing variables", "statement": "Every variable named in the default configuration exists in the model state, and all declared state variables are declared with one consistent shape.", "quantifier": "every declared name", "why_tests_cant": "finite but cross-file consistency that no test checks", "anchors": ["aeolis/constants.py:DEFAULT_CONFIG", "aeolis/constants.py:MODEL_STATE", "aeolis/constants.py:INITIAL_STATE"]}
{"id": "C51", "title": "Boolean words switch options on and off", "statement": "A boolean option written in the configuration file as T or True is treated as on, and one written as F or False is treated as off.", "quantifier": "every boolean option and every spelling", "why_tests_cant": "tests check the spellings the authors had in mind; an option that stays on produces plausible output rather than a failure", "anchors": ["aeolis/inout.py:parse_value", "aeolis/inout.py:read_configfile"]}
{"id": "C52", "title": "Numbers in decimal and scientific notation are read as numbers", "statement": "A configuration value written as a number in plain decimal or in scientific notation is read as that number.", "quantifier": "every decimal numeral of any length, every exponent", "why_tests_cant": "numerals are infinite; classification and conversion must agree on every one", "anchors": ["aeolis/inout.py:parse_value"]}
{"id": "C53", "title": "Every enumerated variable can be described", "statement": "For every variable name enumerated by the interface, get_var_rank and get_var_shape return its rank and shape.", "quantifier": "every configuration, every enumerated variable", "why_tests_cant": "which variables exist depends on the configured processes and on the history", "anchors": ["aeolis/model.py:AeoLiS.get_var_rank", "aeolis/model.py:AeoLiS.get_var_shape", "aeolis/wind.py:initialize", "aeolis/hydro.py:interpolate"]}
{"id": "C54", "title": "Every configured parameter can be read and set through the interface", "statement": "For every parameter of the configuration, get_var returns its value and set_var replaces it.", "quantifier": "every parameter name", "why_tests_cant": "requires comparing all parameter names with all variable names", "anchors": ["aeolis/model.py:AeoLiS.get_var", "aeolis/model.py:AeoLiS.set_var", "aeolis/constants.py:DEFAULT_CONFIG", "aeolis/constants.py:MODEL_STATE"]}
{"id": "C55", "title": "A time series seamlessly repeats after its own length", "statement": "As documented for the circular interpolation, a time beyond the last point of a series evaluates to the value one series length earlier.", "quantifier": "every series and every later time", "why_tests_cant": "times and series are unbounded; the difference only shows after the series has been repeated", "anchors": ["aeolis/utils.py:interp_circular"]}
{"id": "C56", "title": "The running average of the bed level change stays within the observed range", "statement": "The running average of the yearly bed level change lies between the previous average and the current yearly rate of change.", "quantifier": "every bed level change, time step, acceleration factor and averaging time", "why_tests_cant": "continuous inputs; the averaging time is user input and the defect only shows for long steps", "anchors": ["aeolis/bed.py:average_change"]}
{"id": "C57", "title": "Avalanching does not erode the non-erodible layer", "statement": "Avalanching moves only the sand on top of the non-erodible layer: a cell at or above that layer is not lowered below it.", "quantifier": "every bed, non-erodible layer, grid, angles of repose and iteration limit", "why_tests_cant": "continuous inputs and data-dependent branches; a bed slightly below the layer looks plausible", "anchors": ["aeolis/avalanching.py:avalanche"]}
{"id": "C58", "title": "More wind carries more sand, a higher threshold carries less", "statement": "The equilibrium concentration does not decrease when the shear velocity increases and does not increase when the threshold increases.", "quantifier": "every transport formulation, pair of shear velocities, pair of thresholds", "why_tests_cant": "monotonicity over continuous inputs cannot be sampled; formulas look right at single points", "anchors": ["aeolis/transport.py:equilibrium"]}
{"id": "C59", "title": "Every threshold option can be switched on", "statement": "Each documented threshold process can be switched on with otherwise default settings and then yields a threshold for every cell; an unknown moisture method is reported as a ValueError.", "quantifier": "every combination of options, bed and wind", "why_tests_cant": "the options combine exponentially and several branches are never run with the defaults", "anchors": ["aeolis/threshold.py:compute", "aeolis/threshold.py:compute_sheltering", "aeolis/constants.py"]}
{"id": "C60", "title": "Bed surface properties only raise the threshold", "statement": "The threshold after all bed surface properties (moisture, salt, sheltering, masks, non-erodible layer) is at least the threshold of clean dry sand of the same grain size.", "quantifier": "every grain size distribution, moisture, salt content, shear velocity, bed composition and option", "why_tests_cant": "the product of several factors over continuous inputs; a factor below 1 is only visible for unusual parameters", "anchors": ["aeolis/threshold.py:compute", "aeolis/threshold.py:compute_salt", "aeolis/threshold.py:compute_sheltering"]}
{"id": "C61", "title": "The threshold depends on the present bed surface only", "statement": "Computing the threshold gives the same result whatever thresholds were computed in earlier time steps.", "quantifier": "every option, bed surface and earlier threshold", "why_tests_cant": "history dependence needs sequences of steps with options away from their defaults", "anchors": ["aeolis/threshold.py:compute"]}
{"id": "C62", "title": "Sand moves with the wind", "statement": "The grain velocity points along the shear (or along the wind where there is no shear) on a flat bed; the constant method gives a speed of 1 m/s.", "quantifier": "every wind and shear velocity", "why_tests_cant": "continuous inputs; the direction below the threshold is rarely looked at", "anchors": ["aeolis/transport.py:constant_grainspeed", "aeolis/transport.py:duran_grainspeed"]}
{"id": "C63", "title": "Sediment is conserved between bed and air", "statement": "In every time step the sediment gained by the air equals what the wind carried in through the domain ends plus what was picked up from the bed, apart from the configured tolerance.", "quantifier": "every grid, wind field, bed composition and scheme", "why_tests_cant": "a conservation law over grids of any size, continuous fields and a data-dependent iteration", "anchors": ["aeolis/model.py:AeoLiS.solve"]}
{"id": "C64", "title": "Saturated uniform transport leaves the bed alone", "statement": "When the air carries everywhere exactly its equilibrium concentration, also at the inflow boundary, a time step changes neither concentrations nor bed.", "quantifier": "every grid size, uniform wind, implicitness and concentration", "why_tests_cant": "steadiness for all grids and parameters; a test samples one", "anchors": ["aeolis/model.py:AeoLiS.solve", "aeolis/model.py:AeoLiS.solve_steadystate"]}
{"id": "C65", "title": "Every documented solver set-up runs", "statement": "The solvers accept any number of fractions and rows and every documented boundary condition without raising an exception.", "quantifier": "every configuration of solver, boundaries, fractions and grid size", "why_tests_cant": "many combinations; failures depend on the combination", "anchors": ["aeolis/model.py:AeoLiS.solve", "aeolis/model.py:AeoLiS.solve_steadystate"]}
{"id": "C66", "title": "Groundwater transects are independent", "statement": "The groundwater level in a transect does not depend on which other transects are in the grid: each row evolves exactly as it would in a model with that row alone.", "quantifier": "every number of transects, bed profiles, tides and groundwater fields", "why_tests_cant": "a relation between two runs over all grids; example tests use one transect", "anchors": ["aeolis/hydro.py:Boussinesq", "aeolis/hydro.py:update"]}
{"id": "C67", "title": "Groundwater relaxes towards what drives it", "statement": "Groundwater that is level with the sea and the landward boundary stays level, and without wave infiltration the groundwater never rises above the highest of its initial levels, the sea and the landward boundary.", "quantifier": "every profile, grid spacing, conductivity, number of sub-steps", "why_tests_cant": "an equilibrium and a maximum principle over continuous fields and unbounded sub-steps", "anchors": ["aeolis/hydro.py:Boussinesq"]}
{"id": "C68", "title": "The wetting flag reports a rising groundwater table", "statement": "The flag that selects the wetting or the drying curve is true in a cell exactly when the groundwater rose there during the previous time step.", "quantifier": "every cell, groundwater field, tide and sequence of two time steps", "why_tests_cant": "aliasing of stored arrays over two time steps", "anchors": ["aeolis/hydro.py:update", "aeolis/hydro.py:Boussinesq"]}
{"id": "C69", "title": "The groundwater update works for every tide", "statement": "The groundwater update completes for every water level, including tides that flood the whole transect or fall dry at the seaward end.", "quantifier": "every bed profile with at least four cells, tide and groundwater field", "why_tests_cant": "failure depends on where the water line crosses the profile", "anchors": ["aeolis/hydro.py:update", "aeolis/hydro.py:Boussinesq"]}
{"id": "C70", "title": "Runup raises the groundwater by at most the overheight", "statement": "Infiltration from wave runup is distributed over the swash zone with a peak of one, so that it raises the groundwater by at most Cl_gw per time step and nowhere outside the swash zone.", "quantifier": "every profile, water level, runup and number of sub-steps", "why_tests_cant": "index arithmetic over all shoreline and runup positions", "anchors": ["aeolis/hydro.py:runup_overheight_distr", "aeolis/hydro.py:update"]}
{"id": "C71", "title": "The tide floods the cells below it", "statement": "Whenever the tide stands above the bed of a cell, that cell counts as flooded: the water levels used for moisture, mixing and groundwater are not below the still water level.", "quantifier": "every tide series, profile, mask and combination of processes", "why_tests_cant": "an order between derived levels for all configurations; tests run with all processes on", "anchors": ["aeolis/hydro.py:interpolate", "aeolis/hydro.py:update"]}
{"id": "C72", "title": "Drying does not depend on the time step", "statement": "Drying a cell in one time step or in several of the same total length gives the same moisture, and the moisture (or its excess over field capacity) halves in one drying time.", "quantifier": "every moisture, drying time and split of a period into time steps", "why_tests_cant": "a relation between runs with different time steps over continuous values", "anchors": ["aeolis/hydro.py:update"]}
{"id": "C73", "title": "Hysteresis switches curves without a jump", "statement": "When the groundwater turns from rising to falling or back, the moisture starts on the other scanning curve at the value it had reached, and finding that curve always terminates.", "quantifier": "every soil, moisture state and history of the groundwater", "why_tests_cant": "continuity and termination over continuous parameters; a hanging loop cannot be sampled", "anchors": ["aeolis/hydro.py:hdelta", "aeolis/hydro.py:SWR_curve"]}
{"id": "C74", "title": "Higher and longer waves run up higher", "statement": "Runup does not decrease when the wave height or the wave period increases.", "quantifier": "every wave height, period and beach slope", "why_tests_cant": "monotonicity across a regime switch in continuous inputs", "anchors": ["aeolis/hydro.py:calc_runup_stockdon"]}
{"id": "C75", "title": "The salt factor stays a fraction", "statement": "The salt factor of a cell stays between zero and one, is one while the cell is under water, halves every Tsalt in dry weather, and does not decrease when there is more rain.", "quantifier": "every weather, time step and state", "why_tests_cant": "an invariant over unbounded histories with exponential decay", "anchors": ["aeolis/hydro.py:update"]}
{"id": "C76", "title": "Evaporation dries", "statement": "Evaporation is never negative and does not decrease with the wind speed, for all weather with air that is not supersaturated.", "quantifier": "every temperature, radiation, pressure, humidity, wind speed and gauge height", "why_tests_cant": "sign and monotonicity of a formula with logarithms and exponentials over continuous inputs", "anchors": ["aeolis/hydro.py:evaporation"]}
{"id": "C77", "title": "Every moisture set-up runs or is rejected with a clear error", "statement": "Each combination of moisture method, salt, groundwater and meteo file either updates every cell or is rejected as invalid when it makes no sense.", "quantifier": "every combination of switches, parameters and cells", "why_tests_cant": "all combinations of switches with all states", "anchors": ["aeolis/hydro.py:update", "aeolis/hydro.py:interpolate"]}
{"id": "C78", "title": "The drying curve lies above the wetting curve", "statement": "At the same suction, soil that is drying holds at least as much water as soil that is wetting.", "quantifier": "every suction head and soil parameters", "why_tests_cant": "an order between two power laws over continuous inputs", "anchors": ["aeolis/hydro.py:update", "aeolis/constants.py:DEFAULT_CONFIG"]}
{"id": "C79", "title": "The wind between two samples lies between them", "statement": "At every time the wind speed lies between the speeds of two neighbouring samples of the wind file, the direction on the shorter arc between their directions, also across north; a steady wind is kept.", "quantifier": "every wind file in order of time and every time", "why_tests_cant": "continuous time and direction, wrap-around", "anchors": ["aeolis/wind.py:interpolate", "aeolis/utils.py:interp_circular"]}
{"id": "C80", "title": "The shear velocity blows with the wind", "statement": "For every roughness method the roughness length is positive and the shear velocity is a positive multiple of the wind.", "quantifier": "every method, grain size distribution, wind and wind height", "why_tests_cant": "continuous parameters with singular points", "anchors": ["aeolis/wind.py:calculate_z0", "aeolis/wind.py:interpolate"]}
{"id": "C81", "title": "A one-dimensional model uses a single positive wind component", "statement": "In a one-dimensional model the wind has a single positive component, whatever the direction in the file.", "quantifier": "every wind file", "why_tests_cant": "documented for all files; tests use one", "anchors": ["aeolis/wind.py:interpolate"]}
{"id": "C82", "title": "The topographic shear depends on the shape of the bed only", "statement": "Mirroring the bed and the wind mirrors the stress; raising the whole bed or scaling bed and grid together does not change it; the same for the separation bubble.", "quantifier": "every profile and wind", "why_tests_cant": "relates two runs", "anchors": ["aeolis/wind.py:compute_shear1d", "aeolis/wind.py:separation1d"]}
{"id": "C83", "title": "Flow separates only behind steep slopes", "statement": "The separation surface is nowhere below the bed, and equal to it on beds with no slope steeper than mu_b.", "quantifier": "every profile, grid size and wind direction", "why_tests_cant": "profiles are unbounded", "anchors": ["aeolis/wind.py:separation1d"]}
{"id": "C84", "title": "The roughness does not depend on the unit of the grain distribution", "statement": "Giving the grain size distribution in fractions or in percent gives the same roughness, as it gives the same bed.", "quantifier": "every distribution", "why_tests_cant": "relates two configurations", "anchors": ["aeolis/wind.py:calculate_z0", "aeolis/bed.py:initialize"]}
{"id": "C85", "title": "The wind generator has the requested distribution", "statement": "The Markov chain of the generator has transition rows that are probability distributions, and the requested (Weibull) distribution of wind speeds is its stationary distribution.", "quantifier": "every requested distribution and number of states", "why_tests_cant": "a statement about the long run of a random process", "anchors": ["aeolis/model.py:WindGenerator"]}
{"id": "C86", "title": "A generated wind speed lies in the bin of its state", "statement": "The wind speed drawn for a state of the chain lies in the speed bin of that state.", "quantifier": "every maximum, number of states and random numbers", "why_tests_cant": "tests look at one parameter set", "anchors": ["aeolis/model.py:WindGenerator"]}
{"id": "C87", "title": "Chances of germination and spreading do not depend on the time step", "statement": "The chance that a cell germinates within a year is the configured one whatever the time step and acceleration factor, and the chance of spreading over a metre whatever the grid size.", "quantifier": "every chance, time step and grid size", "why_tests_cant": "random events and a relation between different time steps", "anchors": ["aeolis/vegetation.py:germinate"]}
{"id": "C88", "title": "Germination leads to vegetation", "statement": "A cell that germinates, is above water and the minimum elevation and is not buried faster than plants grow, carries vegetation after the step.", "quantifier": "every formulation, cell and event", "why_tests_cant": "relates two routines and formulations", "anchors": ["aeolis/vegetation.py:germinate", "aeolis/vegetation.py:grow"]}
{"id": "C89", "title": "Burial away from the optimum never helps plants", "statement": "All else equal, the further the bed level change is from its optimum, the smaller the cover after a growth step.", "quantifier": "every cell state and pair of bed level changes", "why_tests_cant": "relates two runs", "anchors": ["aeolis/vegetation.py:grow"]}
{"id": "C90", "title": "More vegetation or higher fences never let more shear through", "statement": "All else equal, higher or additional plants or fences, or a denser cover, give at most the same shear velocity in every cell.", "quantifier": "every pair of arrangements, one covering the other, every grid and wind", "why_tests_cant": "relates two runs with unbounded arrangements", "anchors": ["aeolis/vegetation.py:vegshear_okin", "aeolis/vegetation.py:vegshear_raupach", "aeolis/fences.py:fence_shear1d"]}
{"id": "C91", "title": "Shelter decays with distance and ends", "statement": "Behind a single plant or fence the shear velocity does not decrease with the distance, and cells at least twenty heights away from every plant or fence are unaffected.", "quantifier": "every position and height, every pair of cells", "why_tests_cant": "unbounded arrangements", "anchors": ["aeolis/vegetation.py:vegshear_okin", "aeolis/fences.py:fence_shear1d"]}
{"id": "C92", "title": "Dune erosion removes the volume that waves erode, and conserves sand", "statement": "The volume removed from a dune in a step is at most the volume given by the erosion formula, and sand removed from the dune is deposited elsewhere in the profile.", "quantifier": "every profile, wave climate and grid", "why_tests_cant": "unbounded profiles", "anchors": ["aeolis/erosion.py:run_ph12"]}
{"id": "C93", "title": "Stronger attack never erodes less", "statement": "All else equal, higher runup, a longer time step, a larger erosion coefficient or a shorter wave period leaves every cell at most as high.", "quantifier": "every profile and pair of storms", "why_tests_cant": "relates two runs", "anchors": ["aeolis/erosion.py:run_ph12"]}
{"id": "C94", "title": "Fences do not depend on the vertical datum", "statement": "Shifting bed levels and datum by the same amount does not change fence heights, and a fence given in the fence file is there as long as it is neither buried nor eroded out.", "quantifier": "every fence, history of bed levels and shift", "why_tests_cant": "relates two runs over unbounded histories", "anchors": ["aeolis/fences.py:initialize", "aeolis/fences.py:update_fence_height"]}
{"id": "C95", "title": "Dune erosion works with default settings", "statement": "With dune erosion switched on, a step completes whatever the water level and whichever other processes are on.", "quantifier": "every profile, water level and configuration", "why_tests_cant": "depends on combinations of settings and water level", "anchors": ["aeolis/erosion.py:run_ph12", "aeolis/constants.py:DEFAULT_CONFIG"]}
{"id": "C96", "title": "The computed orientation aligns the grid", "statement": "Rotating the grid over the computed angle alpha makes its rows run along the positive x-axis.", "quantifier": "every grid, in every orientation", "why_tests_cant": "a continuum of orientations", "anchors": ["aeolis/gridparams.py:initialize", "aeolis/utils.py:rotate"]}
{"id": "C97", "title": "Grids with descending coordinates are warned about", "statement": "A warning is logged if and only if columns or rows descend after rotation to the horizontal, as its text says.", "quantifier": "every grid", "why_tests_cant": "a continuum of grids", "anchors": ["aeolis/gridparams.py:initialize"]}
{"id": "C98", "title": "Cell sizes are those of the grid", "statement": "ds is the size of a cell along a row (x), dn its size across, and dsdn its area.", "quantifier": "every grid of any size", "why_tests_cant": "a continuum of grids", "anchors": ["aeolis/gridparams.py:initialize"]}
{"id": "C99", "title": "The seepage face holds the groundwater at the bed", "statement": "With process_seepage_face, the groundwater that drives the flow is nowhere above the bed landward of the shoreline: it is at the bed between the shoreline and the exit point and as without the process elsewhere.", "quantifier": "every bed, groundwater table, sea level and shoreline", "why_tests_cant": "a continuum of profiles; an off-by-one in a slice only shows in one cell", "anchors": ["aeolis/hydro.py:Boussinesq"]}
{"id": "C100", "title": "The first step picks up the fractions that are in the bed", "statement": "In the first time step the fractions are weighted as in the bed: by the configured distribution or the bed composition file, as in later steps.", "quantifier": "every distribution, composition file, grid and wind", "why_tests_cant": "a continuum of inputs; only the first step is affected", "anchors": ["aeolis/model.py:AeoLiS.solve", "aeolis/transport.py:compute_weights"]}
{"id": "C101", "title": "Output variables have the shape of their grids", "statement": "Every requested grid or statistic that the model has is present in the output file under its name, with dimensions whose sizes are those of its array, repeated along time; the file contains nothing else but its coordinates.", "quantifier": "every grid size, number of layers and fractions, list of requested variables and statistics", "why_tests_cant": "a table of more than ninety variables times all sizes; a swapped dimension only shows for non-square grids", "anchors": ["aeolis/netcdf.py:initialize", "aeolis/model.py:AeoLiS.dimensions", "aeolis/constants.py:MODEL_STATE"]}
{"id": "C102", "title": "A dumped time slice restores the bed composition", "statement": "A time slice written by netcdf.dump and given as bedcomp_file initialises the bed with exactly the values of that slice, for positive and negative time indices; for a grid of another size it is rejected.", "quantifier": "every variable of at least two dimensions, shape, time index", "why_tests_cant": "all shapes and indices; reordering errors are invisible for symmetric test data", "anchors": ["aeolis/netcdf.py:dump", "aeolis/bed.py:initialize"]}
{"id": "C103", "title": "Output variables carry their documented unit", "statement": "Every output variable has the unit that constants.py documents for it (1 for a dimensionless one); a variance has the square of it.", "quantifier": "every table of comments in the documented form, every requested variable and statistic", "why_tests_cant": "the pattern must be right for all lines; a missing unit raises no error", "anchors": ["aeolis/netcdf.py:parse_metadata", "aeolis/netcdf.py:initialize", "aeolis/constants.py:MODEL_STATE"]}
{"id": "C104", "title": "Every state variable can be written to the output file", "statement": "Output can be requested for any set of grids and statistics of the model.", "quantifier": "every set of requested grids and statistics", "why_tests_cant": "names may clash with any of the names that the file uses itself", "anchors": ["aeolis/netcdf.py:initialize", "aeolis/model.py:AeoLiSRunner.output_init"]}
{"id": "C105", "title": "Bounds in the output file", "statement": "The time bounds of each output step are the previous and the present time, and bounds variables have the dimensions of their coordinate followed by one more (CF conventions).", "quantifier": "every sequence of output times, every file", "why_tests_cant": "single precision only fails for long runs; dimensions are transposed only visibly for non-square grids", "anchors": ["aeolis/netcdf.py:set_bounds", "aeolis/netcdf.py:initialize"]}
{"id": "C106", "title": "The pieter solvers have one, non-negative, bounded result", "statement": "The linear system of the solvers pieter and steadystatepieter has exactly one solution; the resulting concentrations are not negative, weights only decrease, and in a uniform wind no concentration exceeds the largest of the previous, incoming and equilibrium concentrations.", "quantifier": "every grid, wind field, bed, iteration count and exact linear solver", "why_tests_cant": "all matrices of all sizes; the iteration with reduced weights multiplies the cases", "anchors": ["aeolis/model.py:AeoLiS.solve_pieter", "aeolis/model.py:AeoLiS.solve_steadystatepieter"]}
{"id": "C107", "title": "The pieter solvers conserve sediment", "statement": "In every cell, and between the ends of the grid, the sediment gained by the air equals what the wind brings plus the reported pickup, apart from the configured tolerance.", "quantifier": "every grid, wind field, bed, iteration count and exact linear solver", "why_tests_cant": "a balance over all cells, rounds and boundary conditions; small violations are invisible in a test", "anchors": ["aeolis/model.py:AeoLiS.solve_pieter", "aeolis/model.py:AeoLiS.solve_steadystatepieter"]}
{"id": "C108", "title": "Saturated air in a uniform wind stays saturated (pieter)", "statement": "When the air carries everywhere what it can carry, and the same comes in, a time step of the solvers pieter and steadystatepieter in a uniform wind changes nothing.", "quantifier": "every grid, wind speed and direction, concentration, implicitness", "why_tests_cant": "every combination of boundary conditions and direction", "anchors": ["aeolis/model.py:AeoLiS.solve_pieter", "aeolis/model.py:AeoLiS.solve_steadystatepieter"]}
{"id": "C109", "title": "A constant flux boundary gives that flux (pieter)", "statement": "With the boundary condition 'constant' the configured flux enters at that end.", "quantifier": "every grid, wind, configured flux", "why_tests_cant": "an ignored setting raises no error", "anchors": ["aeolis/model.py:AeoLiS.solve_pieter", "aeolis/model.py:AeoLiS.solve_steadystatepieter"]}
{"id": "C110", "title": "No more sediment is taken than there is (pieter)", "statement": "When the iteration of the solvers pieter and steadystatepieter converges the pickup of each fraction is at most its mass in the top layer.", "quantifier": "every grid, wind field, bed, iteration count and exact linear solver", "why_tests_cant": "all beds and rounds; the excess is small", "anchors": ["aeolis/model.py:AeoLiS.solve_pieter", "aeolis/model.py:AeoLiS.solve_steadystatepieter"]}
{"id": "C111", "title": "Wind over sand moves it in every time step (pieter)", "statement": "In a cell with sand where the wind can carry it there is sand in the air after a time step.", "quantifier": "every grid, wind field, bed and time step", "why_tests_cant": "all inputs; a skipped step looks like calm weather", "anchors": ["aeolis/model.py:AeoLiS.solve_pieter", "aeolis/model.py:AeoLiS.solve_steadystatepieter"]}
{"id": "C112", "title": "Hills speed up the wind, hollows slow it down", "statement": "On the top of a hill the shear stress is not below that of a flat bed, and above it unless the hill is trivial; in a hollow not above; in the middle of a long uniform slope it changes by three times the slope, with the sign of the slope seen by the wind, and not below a tenth.", "quantifier": "every profile, grid and direction of the wind in one dimension", "why_tests_cant": "all profiles; a wrong sign of the kernel still gives plausible numbers", "anchors": ["aeolis/wind.py:compute_shear1d"]}
{"id": "C113", "title": "The computational grid of the shear covers the model grid", "statement": "For every wind direction the rotated computational grid, turned back, covers every point of the model grid with at least the configured padding, so that every cell gets a computed shear stress; its size is the extent of the model grid along and across the wind and twice the padding.", "quantifier": "every grid, wind direction, cell size and padding", "why_tests_cant": "all wind directions and grids; the tests use none of them", "anchors": ["aeolis/shear.py:WindShear.set_computational_grid", "aeolis/shear.py:WindShear.get_exact_grid"]}
{"id": "C114", "title": "Interpolation between the grids of the shear", "statement": "Interpolating a field to another grid yields values within the range of the field, reproduces it at grid points and where it is a plane, extends it beyond the edges by the value at the edge, and does not create cliffs around the model grid.", "quantifier": "every rectangular grid at every angle, every field and point", "why_tests_cant": "all grids, angles and points", "anchors": ["aeolis/shear.py:WindShear.interpolate"]}
{"id": "C115", "title": "Two-dimensional wind shear keeps the direction of the wind", "statement": "The shear stress in a two-dimensional model never has a component against the wind; without wind speed it is not changed; it is proportional to the undisturbed stress; the separation bubble reduces it by one factor between 0 and 1.", "quantifier": "every grid, bed, wind direction, stress and parameter set", "why_tests_cant": "all beds and directions; the limiting happens in the rotated frame", "anchors": ["aeolis/shear.py:WindShear.__call__", "aeolis/shear.py:WindShear.add_shear", "aeolis/shear.py:WindShear.separation_shear"]}
{"id": "C116", "title": "No separation bubble where nothing is steep", "statement": "The separation surface is nowhere below the bed and equals it where no slope exceeds the limit; its streamline leaves the brink smoothly and reattaches horizontally. The level of the bed above the datum does not matter.", "quantifier": "every row of the computational grid, slope limit and coefficient", "why_tests_cant": "all profiles; tests do not run with separation", "anchors": ["aeolis/shear.py:WindShear.separation"]}
{"id": "C117", "title": "The perturbation of the wind depends on the shape of the bed only", "statement": "The perturbation of the shear stress is linear in the bed, moves with it, and does not depend on the level of the bed: a level bed gives no perturbation.", "quantifier": "every bed, grid, level, roughness and reference length", "why_tests_cant": "all beds; the error is a constant", "anchors": ["aeolis/shear.py:WindShear.compute_shear"]}
{"id": "C118", "title": "The high-frequency filter of the shear", "statement": "The filter leaves at most 1% of waves of the length of one cell and 99% of waves of two cells, in both directions alike.", "quantifier": "every cell size and wave number", "why_tests_cant": "all wave numbers", "anchors": ["aeolis/shear.py:WindShear.filter_highfrequenies"]}
{"id": "C119", "title": "The unit of length does not matter for the perturbation", "statement": "Expressing the bed, the cells, the reference length, the roughness and the inner layer in another unit of length, or building the same landscape at another scale, does not change the perturbation of the shear stress.", "quantifier": "every bed, grid, parameter set and factor", "why_tests_cant": "a relation between two computations at all scales", "anchors": ["aeolis/shear.py:WindShear.compute_shear"]}
{"id": "C120", "title": "Fences in two dimensions slow the wind and do not turn it", "statement": "Where there are no sand fences the two-dimensional fence model leaves the shear velocity as it is; elsewhere it reduces the shear velocity and keeps its direction.", "quantifier": "every grid, fence, wind direction and shear velocity", "why_tests_cant": "a statement about all directions and fences; a test with the default settings only shows that transport changes near a fence", "anchors": ["aeolis/fences.py:fence_shear2d", "aeolis/fences.py:calc_fence_shear"]}
{"id": "C121", "title": "The lee of a fence does not depend on the wind direction", "statement": "Behind a fence the shear velocity recovers with the distance along the wind as in the model of Okin, up to 20 times the height of the fence, and upwind of the fence nothing changes, whatever the direction of the wind.", "quantifier": "every wind direction, fence, and cell of the turned grid", "why_tests_cant": "all directions and distances", "anchors": ["aeolis/fences.py:compute_fenceshear"]}
{"id": "C122", "title": "Every documented set-up runs with the pieter solvers", "statement": "The solvers pieter and steadystatepieter accept every documented boundary condition, any number of rows and any limit on the iterations without raising an exception.", "quantifier": "every configuration, grid size, wind, bed, list of fractions and linear solver", "why_tests_cant": "many combinations; failures depend on the combination", "anchors": ["aeolis/model.py:AeoLiS.solve_pieter", "aeolis/model.py:AeoLiS.solve_steadystatepieter"]}
{"id": "C123", "title": "Over a whole run sand is neither made nor lost", "statement": "However many time steps a run has, windy or calm, no mass and no concentration becomes negative, the bed layers keep their masses, and the sand in the bed and in the air together changes only by what the wind carries in and out at the ends of the grid, up to the tolerance of the solver per step and fraction.", "quantifier": "every number of steps, weather, grid, list of fractions, bed composition, initial state and exact linear solver", "why_tests_cant": "a test follows one run for a few steps; the statement couples transport weights, solver and bed update and is about the accumulation over arbitrarily many steps", "anchors": ["aeolis/model.py:AeoLiS.update", "aeolis/model.py:AeoLiS.solve", "aeolis/bed.py:update", "aeolis/transport.py:compute_weights"]}
{"id": "C124", "title": "Parameters set before a run take effect", "statement": "A parameter that is set on a runner before run() is called, with set_params or directly, has that value during the run.", "quantifier": "every set of parameters, configuration file, callback, restart file and directory", "why_tests_cant": "it is about all ways from setting a parameter to the time loop, through writing and re-reading the configuration file; no test calls set_params before run", "anchors": ["aeolis/model.py:AeoLiSRunner.set_params", "aeolis/model.py:AeoLiSRunner.write_params", "aeolis/model.py:AeoLiSRunner.run"]}
{"id": "C125", "title": "A callback is called in every time step or rejected", "statement": "A callback that is passed to run(), given on the command line or named in the configuration file is the function that the time loop calls, or the run is rejected with an exception.", "quantifier": "every callback, file, configuration and directory", "why_tests_cant": "the ways to name a callback are many and a test tries one of them; that a wrong one is noticed is a statement about all others", "anchors": ["aeolis/model.py:AeoLiSRunner.parse_callback", "aeolis/model.py:AeoLiSRunner.run"]}
{"id": "C126", "title": "Paths on the command line are relative to the working directory", "statement": "Files named on the command line are looked for in the directory in which the command is given; with an absolute configuration file it does not matter where that is.", "quantifier": "every directory, configuration file, callback and restart file", "why_tests_cant": "a statement about all combinations of directories; tests run in the directory of the configuration file", "anchors": ["aeolis/console.py:run", "aeolis/model.py:AeoLiSRunner.run"]}
{"id": "C127", "title": "A run leaves the working directory as it was", "statement": "After a run, whether it succeeds or fails, the working directory is the one from before, and starting a run changes no file.", "quantifier": "every run, callback, restart file and directory", "why_tests_cant": "the statement includes all ways in which a run can fail", "anchors": ["aeolis/model.py:AeoLiSRunner.run"]}
{"id": "C128", "title": "Without a configuration file the default settings are used", "statement": "A runner without configuration file, or with the name DEFAULT, uses the default settings; an existing file is read and any other missing file is reported.", "quantifier": "every name and directory", "why_tests_cant": "the documented default is never constructed in a test; a statement about all names", "anchors": ["aeolis/model.py:AeoLiSRunner.__init__"]}
{"id": "C129", "title": "Missing or malformed input files are rejected at the start", "statement": "Initialization is refused with ValueError if the grid, the bed or a time series that is needed is missing or has too few columns, and accepted otherwise.", "quantifier": "every combination of input files and their shapes", "why_tests_cant": "all combinations of missing, unreadable and malformed files", "anchors": ["aeolis/inout.py:check_configuration", "aeolis/gridparams.py:initialize"]}
{"id": "C130", "title": "Every cell gets its bed level from the bed file", "statement": "The bed level of each cell is the number that the bed file holds for that cell; a bed file of another size than the grid is refused.", "quantifier": "every grid and bed file", "why_tests_cant": "all shapes of grid and bed, including those that numpy broadcasts", "anchors": ["aeolis/bed.py:initialize", "aeolis/model.py:AeoLiS.initialize"]}
{"id": "C131", "title": "The statistics printed after a run are those of the run", "statement": "The printed average time step is the simulated time divided by the number of steps, and the printed average number of matrix solves is their number divided by that of the steps.", "quantifier": "every start and stop time, time step and number of steps", "why_tests_cant": "a statement about the relation of printed numbers to whole runs of any length", "anchors": ["aeolis/model.py:AeoLiSRunner.print_stats", "aeolis/model.py:AeoLiS.get_count"]}
{"id": "C132", "title": "Hotstart files set the initial state", "statement": "A hotstart file replaces the values of the variable that it is named after, which keeps its shape and is not assigned any more; other variables stay as they are and files of another size are refused.", "quantifier": "every state and every list of hotstart files with distinct names", "why_tests_cant": "any number and combination of files and variables", "anchors": ["aeolis/model.py:AeoLiSRunner.load_hotstartfiles", "aeolis/model.py:ModelState"]}
{"id": "C133", "title": "The order of the grain size classes does not matter", "statement": "The transport, the pickup and the concentration of each grain size class are the same in whatever order the classes are listed.", "quantifier": "every grid, wind, boundary, number and order of fractions", "why_tests_cant": "all permutations of any number of classes; no test has more than one order", "anchors": ["aeolis/model.py:AeoLiS.solve", "aeolis/model.py:AeoLiS.euler_backward", "aeolis/model.py:AeoLiS.crank_nicolson"]}
{"id": "C134", "title": "Splitting a grain size class in two changes nothing", "statement": "If a class is replaced by two classes of the same grains that share its mass, the weights, the concentration and the pickup of the two together are those of the class and the other classes are not affected.", "quantifier": "every grid, wind, number of fractions, class and ratio in which it is split", "why_tests_cant": "all ways of splitting any class; a test would have to compare runs with different numbers of fractions", "anchors": ["aeolis/model.py:AeoLiS.solve", "aeolis/model.py:AeoLiS.euler_backward", "aeolis/model.py:AeoLiS.crank_nicolson", "aeolis/transport.py:compute_weights"]}
{"id": "C135", "title": "The place along the coast does not matter", "statement": "With circular lateral boundaries, shifting or mirroring everything along the coast shifts or mirrors the result.", "quantifier": "every grid, wind along and across the coast, bed, shift and fraction", "why_tests_cant": "a relation between two runs for all shifts and all fields", "anchors": ["aeolis/model.py:AeoLiS.solve", "aeolis/model.py:AeoLiS.euler_backward", "aeolis/model.py:AeoLiS.crank_nicolson"]}
{"id": "C136", "title": "Land and sea can be exchanged", "statement": "Mirroring everything across the coast, with the wind reversed and the boundaries exchanged, mirrors the result.", "quantifier": "every grid, wind, bed and fraction, with constant or flux boundaries", "why_tests_cant": "a relation between two runs; the two directions are separate code that no single test compares", "anchors": ["aeolis/model.py:AeoLiS.solve", "aeolis/model.py:AeoLiS.euler_backward", "aeolis/model.py:AeoLiS.crank_nicolson"]}
{"id": "C137", "title": "One row and many equal rows give the same result", "statement": "A two-dimensional run in which all rows are equal gives in every row the result of the one-dimensional run, whatever the wind along the coast.", "quantifier": "every profile, wind, number of rows and fraction", "why_tests_cant": "all profiles and numbers of rows; one-dimensional grids take another path through the assembly of the matrix", "anchors": ["aeolis/model.py:AeoLiS.solve", "aeolis/model.py:AeoLiS.euler_backward", "aeolis/model.py:AeoLiS.crank_nicolson"]}
{"id": "C138", "title": "The units do not matter in a time step", "statement": "If all lengths, times and masses that go into a time step of the solver, including the tolerance, are given in other units, the concentrations, the pickup and the weights that come out are the same quantities in those units.", "quantifier": "every choice of units, grid, wind, boundary condition, scheme (implicit to explicit) and number of fractions, with or without enough sand", "why_tests_cant": "a relation between two runs for all scalings; any forgotten factor of dt, T or ds breaks it", "anchors": ["aeolis/model.py:AeoLiS.solve"]}
{"id": "C139", "title": "The units do not matter in the steady state", "statement": "The steady state in other units is the same steady state.", "quantifier": "every choice of units, grid, wind, boundary condition and number of fractions", "why_tests_cant": "a relation between two runs for all scalings", "anchors": ["aeolis/model.py:AeoLiS.solve_steadystate"]}
{"id": "C140", "title": "The units do not matter in a whole run", "statement": "If wind, bed, air and configuration are given in other units, the whole run of air and bed, over any number of windy and calm steps, gives the same bed, air, weights and levels in those units.", "quantifier": "every choice of units, grid, sequence of wind fields, bed with any number of layers and fractions", "why_tests_cant": "relates two whole runs for all scalings; covers the coupling of air and bed, which no unit test covers", "anchors": ["aeolis/model.py:AeoLiS.solve", "aeolis/model.py:AeoLiS.solve_steadystate", "aeolis/bed.py:update", "aeolis/transport.py:compute_weights"]}
{"id": "C141", "title": "The air beside the lateral boundaries holds no more than it can carry", "statement": "With 'constant' lateral boundaries (documented as no flux) the concentration in the rows beside them stays below the capacity and what was there before, like everywhere else.", "quantifier": "every grid, wind, bed and number of steps", "why_tests_cant": "an invariant over all runs", "anchors": ["aeolis/model.py:AeoLiS.solve", "aeolis/model.py:AeoLiS.solve_steadystate"]}
{"id": "C142", "title": "What lies downwind of a place does not matter to it", "statement": "When the wind does not blow from the land, concentration, pickup and weights up to some column after a time step depend only on wind, capacity, bed, air and weights up to that column. What lies behind it can be anything.", "quantifier": "every grid, column, wind that is onshore up to it, bed (with or without enough sand), pair of situations behind the column; implicit scheme or steady state, prescribed or noflux sea side, circular lateral boundaries, iterations that converge", "why_tests_cant": "a relation between two steps for all changes of all cells behind a column; the implicit scheme couples all cells in one matrix and the iteration stops for all cells at once", "anchors": ["aeolis/model.py:AeoLiS.solve", "aeolis/model.py:AeoLiS.solve_steadystate"]}
{"id": "C143", "title": "What lies downwind of a place does not matter during a whole run", "statement": "Over any number of windy and calm steps, air, layers and levels of the bed up to some column depend only on the initial air and bed and the wind up to that column.", "quantifier": "every grid, column, sequence of onshore wind fields, number of layers and fractions, pair of beds; implicit scheme, steps that converge and move less than a layer", "why_tests_cant": "relates two whole runs of air and bed together; weights of several fractions and layers are coupled in every step", "anchors": ["aeolis/model.py:AeoLiS.solve", "aeolis/bed.py:update", "aeolis/transport.py:compute_weights"]}
{"id": "C144", "title": "What lies downwind does not matter with Crank-Nicolson", "statement": "As C142 for the scheme 'crank_nicolson'.", "quantifier": "every grid, wind, bed and air", "why_tests_cant": "a relation between two steps for all changes behind a column", "anchors": ["aeolis/model.py:AeoLiS.solve"]}
{"id": "C145", "title": "Statistics of the flux are those of the flux", "statement": "Sum, average, minimum, maximum and variance of q in the output are those of the magnitude of the sediment flux (qs, qn) in the steps since the previous output.", "quantifier": "every sequence of windy steps, outputs and fluxes", "why_tests_cant": "an accumulated quantity over all sequences of steps; a test of a single value of q passes", "anchors": ["aeolis/model.py:AeoLiSRunner.output_update", "aeolis/model.py:AeoLiSRunner.get_statistic"]}
{"id": "C146", "title": "Without wind no flux is reported", "statement": "In a step without wind the reported sediment flux is zero.", "quantifier": "every sequence of windy and calm steps", "why_tests_cant": "a property of what is left of earlier steps", "anchors": ["aeolis/model.py:AeoLiSRunner.output_update", "aeolis/model.py:AeoLiS.update"]}
{"id": "C147", "title": "The sum of the pickup is what has left the bed", "statement": "Over a run, the sum of pickup over steps and fractions in a cell is the sand by which its bed has gone down.", "quantifier": "every run of air and bed together, weather, cell, number of fractions and layers", "why_tests_cant": "an invariant of whole runs that relates an output statistic to the bed level", "anchors": ["aeolis/model.py:AeoLiSRunner.output_update", "aeolis/model.py:AeoLiS.update", "aeolis/bed.py:update"]}
{"id": "C148", "title": "The separation surface lies on the bed", "statement": "With any number of filter iterations and with or without smoothing across the wind, the separation surface is nowhere below the bed; where no slope is too steep for the wind it is the bed; without filters every row has its own surface.", "quantifier": "every bed, grid, slope and setting of the filters", "why_tests_cant": "all beds and settings of two filters; a test looks at one dune", "anchors": ["aeolis/shear.py:WindShear.separation"]}
{"id": "C149", "title": "The iterations filter the separation surface", "statement": "sep_filter_iterations removes high frequencies from the separation surface: a level surface stays as it is and the shortest waves get lower.", "quantifier": "every bed and number of iterations", "why_tests_cant": "a smooth result for one dune does not show which wave lengths are reduced", "anchors": ["aeolis/shear.py:WindShear.separation"]}
{"id": "C150", "title": "Smoothing of the separation surface across the wind", "statement": "Smoothing across the wind keeps the volume under the surface in each column, stays within the range of the column and leaves level columns.", "quantifier": "every surface and grid", "why_tests_cant": "invariants over all surfaces", "anchors": ["aeolis/shear.py:WindShear.separation"]}
{"id": "C151", "title": "Filtering of the separation surface works on every grid", "statement": "With sep_filter_iterations > 0 the separation surface is computed for every computational grid.", "quantifier": "every grid and bed", "why_tests_cant": "an exception that depends on the shape of the grid and the place of the bubbles", "anchors": ["aeolis/shear.py:WindShear.separation"]}
{"id": "C152", "title": "Parameters that are left out are filled in from others", "statement": "After reading a configuration file, an output file, h, process_fences or nsavetimes that was given has that value; when it is empty, zero, False or None it becomes the name of the configuration file with .nc, the value of z, False, or the integer part of dzb_interval/dt; grain_size and grain_dist are arrays.", "quantifier": "every configuration file, set of defaults and value", "why_tests_cant": "combinations of defaults, file contents and kinds of values", "anchors": ["aeolis/inout.py:read_configfile", "aeolis/utils.py:makeiterable"]}
{"id": "C153", "title": "The name of a data file stands for its contents", "statement": "A value that is the name of a file with numbers is replaced by these numbers; the name of a file without numbers, or of no file at all, stays text.", "quantifier": "every name that is not itself a number, T, F or None, and every set of files", "why_tests_cant": "all names and files", "anchors": ["aeolis/inout.py:parse_value"]}
{"id": "C154", "title": "parse_files=False leaves files alone", "statement": "When files are not to be parsed, the values read do not depend on which files exist or what is in them.", "quantifier": "every text and every two sets of files", "why_tests_cant": "two worlds have to be compared for all texts", "anchors": ["aeolis/inout.py:parse_value"]}
{"id": "C155", "title": "The number of blanks between the items of a list does not matter", "statement": "A list in the configuration file gives the same items with one blank or with more blanks between them, and each item has the value it has on its own.", "quantifier": "every list of words and every spacing", "why_tests_cant": "all lists and spacings", "anchors": ["aeolis/inout.py:parse_value"]}
{"id": "C156", "title": "Every parameter that the code reads has a value", "statement": "Each parameter that some line of the code reads has a default or is set by the program, so that a process can be switched on by its switch alone.", "quantifier": "every parameter read in any of the source files", "why_tests_cant": "the line is only reached with rare settings; all lines are meant", "anchors": ["aeolis/constants.py:DEFAULT_CONFIG", "aeolis/threshold.py:compute_sheltering", "aeolis/erosion.py:run_ph12", "aeolis/threshold.py:compute_moisture"]}
{"id": "C157", "title": "Every grid that the code reads exists", "statement": "Each grid that some line of the code reads is declared or is a mask, and so exists after initialization, or is one of those that fences, wind and weather create.", "quantifier": "every grid read in any of the source files", "why_tests_cant": "the line is only reached with rare settings; all lines are meant", "anchors": ["aeolis/constants.py:MODEL_STATE", "aeolis/model.py:AeoLiS.initialize", "aeolis/bed.py:initialize"]}
{"id": "C158", "title": "Every declared grid is used", "statement": "Each grid that is declared, and so can be asked for as output, is set or changed by some line of the code.", "quantifier": "every declared grid", "why_tests_cant": "a value of zero in the output looks like a result", "anchors": ["aeolis/constants.py:MODEL_STATE", "aeolis/model.py:AeoLiS.initialize", "aeolis/bed.py:initialize"]}
{"id": "C159", "title": "Transport grows with the fetch", "statement": "Downwind of the boundary over a bed with ample sand the concentration grows with the distance towards the capacity; in the steady state what is missing to the capacity shrinks by the factor 1 + ds/(u T) in every cell of length ds.", "quantifier": "every grid, cell size, wind speed to the land, wind along the coast, adaptation time, boundary value, capacity and linear solver that solves; non-decreasing previous air", "why_tests_cant": "all grids, winds and distances", "anchors": ["aeolis/model.py:AeoLiS.solve_steadystate", "aeolis/model.py:AeoLiS.solve"]}
{"id": "C160", "title": "The steady state is where the time steps come to rest", "statement": "A time step that starts from the result of the steady-state solver in the same wind gives the same concentration, pickup and weights again, implicit or not; and an implicit step that leaves the air as it was gives what the steady-state solver gives.", "quantifier": "every grid, wind, capacity, implicitness and linear solver that solves", "why_tests_cant": "two different solvers have to agree for all inputs", "anchors": ["aeolis/model.py:AeoLiS.solve_steadystate", "aeolis/model.py:AeoLiS.solve"]}
{"id": "C161", "title": "The air at the start is forgotten", "statement": "Two runs through the same weather that start with different air differ, after n implicit steps, by at most the initial difference over (1 + dt/T)^n, in the sum over the area; in a wind that does not change both come to the steady state at this rate.", "quantifier": "every two runs of any length, weather that changes in any way, grids and linear solvers that solve, as long as the capacity is the same in both runs", "why_tests_cant": "all runs, all initial airs and any number of steps", "anchors": ["aeolis/model.py:AeoLiS.solve"]}
{"id": "C162", "title": "Transport builds up steadily", "statement": "More sand in the air before a step, a larger capacity or more sand coming in give more sand in the air in every cell; from air without sand the concentration grows from step to step in every cell and stays below the steady state.", "quantifier": "every pair of inputs; every number of steps", "why_tests_cant": "an inequality between all pairs of inputs and in every cell", "anchors": ["aeolis/model.py:AeoLiS.solve"]}
{"id": "C163", "title": "Sand is accounted for in whole runs with waves and feedback", "statement": "In a run with mixing by waves, transport, bed update and any further process that changes the bed level (avalanching, wet bed reset, dune erosion), in which wind and waves respond in any way to everything that happened before, nothing becomes negative, layers of equal mass stay so, and the sand in air and bed between the first and the last column changes by exactly what the wind carries through the ends plus what these processes add to the levels, but for the solver tolerance per step with wind and fraction.", "quantifier": "every number of steps, every dependence of wind, waves and reshaping on the history, every grid and number of fractions; implicit time steps of one length", "why_tests_cant": "runs of any length with any feedback between the processes", "anchors": ["aeolis/model.py:AeoLiS.update", "aeolis/bed.py:mixtoplayer", "aeolis/bed.py:update", "aeolis/model.py:AeoLiS.solve"]}
{"id": "C164", "title": "Waves move no sand", "statement": "A time step without wind, and without a process that changes the bed level, succeeds and leaves the air, and in every cell the bed level and the mass of every grain size, as they were, whatever the waves.", "quantifier": "every state, wave height and layer thickness", "why_tests_cant": "all states and all wave heights", "anchors": ["aeolis/model.py:AeoLiS.update", "aeolis/bed.py:mixtoplayer"]}
{"id": "C165", "title": "Higher waves mix the bed at least as well", "statement": "When the waves are higher, the layers above the depth of disturbance do not come out less alike.", "quantifier": "every cell and pair of wave heights", "why_tests_cant": "all pairs of wave heights and all beds", "anchors": ["aeolis/bed.py:mixtoplayer"]}
{"id": "C166", "title": "Mixing keeps the mass of every layer", "statement": "Mixing by waves exchanges grains between layers but every layer keeps the mass that goes with its thickness.", "quantifier": "every cell and layer thickness", "why_tests_cant": "all thicknesses and compositions", "anchors": ["aeolis/bed.py:mixtoplayer"]}
{"id": "C167", "title": "A Crank-Nicolson step averages both ends of the step", "statement": "With alpha between zero (euler_forward) and one (euler_backward) the sand in the air over a cell changes in a step by alpha times inflow and exchange with the bed at the end of the step plus 1 - alpha times those at its start, that is with the concentrations, weights, capacities and wind speeds of the step before.", "quantifier": "every grid, wind, scheme, number of fractions, and any number of calm steps in between", "why_tests_cant": "all winds, schemes and histories", "anchors": ["aeolis/model.py:AeoLiS.solve", "aeolis/model.py:AeoLiS.crank_nicolson", "aeolis/model.py:AeoLiS.update"]}
{"id": "C168", "title": "A place is eroded no faster than the wind can carry, and raised by no more than the wind brings", "statement": "Over a run, the sediment that the wind takes from a grid cell is at most the sum over the steps of what the wind can carry there, and what it adds is at most the sum of what it carried there. A cell over which nothing can be carried is never lowered by the wind.", "quantifier": "every number of steps, fractions and layers, winds from any direction, waves, feedback of the bed on the wind, avalanches", "why_tests_cant": "all runs, with every history of wind, waves and feedback", "anchors": ["aeolis/model.py:AeoLiS.solve", "aeolis/model.py:AeoLiS.update", "aeolis/bed.py:update", "aeolis/transport.py:equilibrium"]}
{"id": "C169", "title": "The wind does not dig into the non-erodible layer", "statement": "With th_nelayer no cell is lowered by the wind below the non-erodible layer (ne_file), or below its initial level where it starts below that layer.", "quantifier": "every number of steps, fractions and layers, transport formulation, winds from any direction, waves, feedback", "why_tests_cant": "all runs, with every history of wind, waves and feedback", "anchors": ["aeolis/threshold.py:compute", "aeolis/threshold.py:non_erodible", "aeolis/transport.py:equilibrium", "aeolis/bed.py:update"]}
{"id": "C170", "title": "The computed concentrations meet the boundary conditions at sea and at land", "statement": "After each implicit step the concentrations in the outermost columns meet the configured conditions (documentation, apx-boundaryconditions): 'flux' gives the stated share of the saturated concentration, 'constant' the stated flux, 'uniform' the concentration of the neighbour, 'gradient' the gradient between the neighbours, 'noflux' nothing.", "quantifier": "every grid, wind, pair of conditions at the ends and at the sides, state of the bed and number of iterations", "why_tests_cant": "all winds, supplies and grids with cells of any size, for each pair of conditions", "anchors": ["aeolis/model.py:AeoLiS.solve", "aeolis/model.py:AeoLiS.solve_steadystate"]}
{"id": "C171", "title": "Water level and waves follow their files", "statement": "At any time the still water level, the wave height and the wave period in each cell are the values of tide_file and wave_file at that time (linear between the points, repeated after the end), the wave height limited by gamma times the depth, then multiplied by and increased with the mask.", "quantifier": "every file sorted in time, time, mask, bed, with and without runup", "why_tests_cant": "all times, far beyond the end of the files, and all masks", "anchors": ["aeolis/hydro.py:interpolate", "aeolis/utils.py:interp_circular", "aeolis/utils.py:apply_mask"]}
{"id": "C172", "title": "Water level and waves of a coupled model are used as given until the next exchange", "statement": "With 'zs', 'Hs' or 'Tp' in external_vars the values set by the coupled model are used in every step until they are set again: the water level in wet cells, that of the nearest wet cell in dry cells, wave height and period after the mask; variables that are not coupled are read from their files.", "quantifier": "every grid, masks, number of steps between exchanges, choice among equally near cells", "why_tests_cant": "all numbers of steps between two exchanges and all patterns of wet and dry cells", "anchors": ["aeolis/hydro.py:interpolate", "aeolis/utils.py:apply_mask", "aeolis/model.py:AeoLiS.set_var"]}
{"id": "C173", "title": "Sand grains lag behind the air by their fall velocity", "statement": "With method_grainspeed 'duran', outside separation bubbles, the grains move so much slower than the air at their height that the drag balances the bed friction: the lag is the fall velocity over the root of 2 alpha, in the direction of the air corrected for the slope of the bed; the fall velocity is the one at which drag and submerged weight balance. On a flat bed the grains move along the air.", "quantifier": "every grain size, wind, bed, grid, threshold", "why_tests_cant": "the formula has four nested empirical parts in real arithmetic; tests compare a handful of values", "anchors": ["aeolis/transport.py:duran_grainspeed"]}
{"id": "C174", "title": "The slope of the bed used for the grain speed is that of the bed", "statement": "The slope along and across the rows that duran_grainspeed uses is the rise of the bed per metre: for a plane bed it is the exact slope in every cell of every grid.", "quantifier": "every grid size, spacing, orientation, plane bed, cell", "why_tests_cant": "all grid sizes and orientations, edges included", "anchors": ["aeolis/transport.py:duran_grainspeed"]}
{"id": "C175", "title": "Avalanching does not depend on the vertical datum", "statement": "Adding the same height to the bed level and to the non-erodible layer adds exactly that height to the bed level after avalanching.", "quantifier": "every grid, bed, non-erodible layer, angles of repose, number of passes, height", "why_tests_cant": "all beds and all heights, over any number of passes", "anchors": ["aeolis/avalanching.py:avalanche", "aeolis/avalanching.py:calc_gradients"]}
{"id": "C176", "title": "Avalanching treats all directions alike", "statement": "Turning the grid round (columns in the other order, rows in the other order, rows and columns exchanged) turns the bed after avalanching round and changes nothing else.", "quantifier": "every grid, cell sizes, bed, non-erodible layer, angles of repose, number of passes", "why_tests_cant": "all beds and sizes, over any number of passes", "anchors": ["aeolis/avalanching.py:avalanche", "aeolis/avalanching.py:calc_gradients"]}
{"id": "C177", "title": "The unit of length does not matter for avalanching", "statement": "If all lengths (cell sizes, bed level, non-erodible layer) are given in another unit, the bed after avalanching is the same in that unit.", "quantifier": "every grid, bed, unit", "why_tests_cant": "a law about all pairs of runs in two units", "anchors": ["aeolis/avalanching.py:avalanche"]}
{"id": "C178", "title": "The weather follows its file", "statement": "With the moisture method surf_moisture temperature, radiation, precipitation, pressure and humidity are at any time the values of their own columns of meteo_file at that time (linear between the lines, repeated after the end); further columns have no effect.", "quantifier": "every file sorted in time with at least six columns, time", "why_tests_cant": "all times, far beyond the end of the file, and all numbers of columns", "anchors": ["aeolis/hydro.py:interpolate", "aeolis/utils.py:interp_array"]}
{"id": "C179", "title": "The number of updates does not suffer from rounding", "statement": "A run on the machine, where every sum and product is rounded to a double, makes as many updates as there are time points tstart + n*dt*accfac up to and including tstop, with the numbers as written in the configuration file.", "quantifier": "every start time, stop time, time step and acceleration factor", "why_tests_cant": "rounding depends on every bit of every setting; tests use time steps of whole seconds", "anchors": ["aeolis/model.py:AeoLiS.update", "aeolis/model.py:AeoLiSRunner.run"]}
{"id": "C180", "title": "Output at regular times does not suffer from rounding", "statement": "If the output interval is m time steps, output is written on the machine after updates 0, m, 2m, ... and after no other.", "quantifier": "every time step, output interval and stop time", "why_tests_cant": "rounding errors build up over arbitrarily many updates", "anchors": ["aeolis/model.py:AeoLiSRunner.output_write", "aeolis/model.py:AeoLiS.update"]}
{"id": "C181", "title": "The weights kept after a step are those the step was computed with", "statement": "After a time step the weight of each fraction in each cell (output variable w, used again in the next step) is the weight with which the concentration of that fraction was computed.", "quantifier": "every grid, number of fractions, bed, wind, with fractions limited by supply in any cell", "why_tests_cant": "the weights of a fraction are changed again while later fractions are handled; all numbers of fractions and all beds", "anchors": ["aeolis/model.py:AeoLiS.solve", "aeolis/transport.py:renormalize_weights"]}
{"id": "C182", "title": "Rain and evaporation change the water in the surface layer by their millimetres", "statement": "With the surface moisture method, while the bed is dry, the moisture is below field capacity and away from its limits and the groundwater does not feed the layer, the water in the surface layer (moisture times layer thickness) changes in a time step by the rain (mm/h times hours) minus the evaporation (mm/day times days).", "quantifier": "every soil, weather, wind, time step and moisture", "why_tests_cant": "units of three quantities combined in one line; all weathers and time steps", "anchors": ["aeolis/hydro.py:update", "aeolis/hydro.py:evaporation"]}
{"id": "C183", "title": "Evaporation follows the documented equation", "statement": "The evaporation is that of the documented form of the Penman equation (Shuttleworth 1993): with wind factor 1 + 0.536 u2 and the slope of the saturation pressure curve.", "quantifier": "every temperature, radiation, pressure, humidity and wind", "why_tests_cant": "an equality of functions of five weather quantities", "anchors": ["aeolis/hydro.py:evaporation", "aeolis/hydro.py:vaporation_pressure_slope", "aeolis/hydro.py:saturation_pressure", "docs/user/model.rst"]}
{"id": "C184", "title": "Runup and set-up follow the documented formulas", "statement": "Runup and set-up of waves of height H and period T on a beach of slope b are those of the documented formulas of Stockdon et al. (2006), with the length of waves in deep water.", "quantifier": "every wave height, period and slope, on dissipative beaches (Iribarren number below 0.3) and others, numbers and arrays", "why_tests_cant": "an equality of functions of three real quantities in two regimes", "anchors": ["aeolis/hydro.py:calc_runup_stockdon", "docs/user/model.rst"]}
{"id": "C185", "title": "Bed and air share in the weights of the fractions as documented", "statement": "The weight of a fraction in the transport is the documented mix of its share in the air and its share in the bed: with bed interaction z, the bed contributes at least the part z, in saturated and over-saturated air as well.", "quantifier": "every mixture in the air and in the bed, every saturation and bed interaction", "why_tests_cant": "all mixtures and saturations, below, at and above saturation", "anchors": ["aeolis/transport.py:compute_weights", "docs/user/model.rst"]}
{"id": "C186", "title": "The threshold is the documented product of factors", "statement": "With moisture (belly_johnson), salt and sheltering switched on, the threshold shear velocity of every fraction is that of Bagnold times the documented factors for moisture (no effect below a mass content of 0.005, infinite above 0.064), salt and roughness.", "quantifier": "every grain size distribution, moisture, salt content, bed composition and shear velocity", "why_tests_cant": "an equality of functions of many real quantities, with two boundaries", "anchors": ["aeolis/threshold.py:compute", "aeolis/threshold.py:compute_moisture", "aeolis/threshold.py:compute_salt", "aeolis/threshold.py:compute_sheltering", "docs/user/model.rst"]}
{"id": "C187", "title": "A bed without groundwater dries as documented", "statement": "With the infiltration method the moisture of a bed above water decays with the drying time and loses the evaporation, as documented in the equation of the manual and in the docstring.", "quantifier": "every moisture, drying time, time step and weather", "why_tests_cant": "an equality of functions, and an effect that is missing altogether", "anchors": ["aeolis/hydro.py:update", "docs/user/model.rst"]}
{"id": "C188", "title": "The saturated transport rate is the documented one", "statement": "With the methods bagnold and bagnold_gs, a logarithmic wind profile and no acceleration, the saturated concentration times the speed of the grains is the documented rate alpha C rho/g sqrt(d/D) (u_z - u_th)^3 in terms of wind and threshold speeds at height z, and zero below the threshold.", "quantifier": "every wind, threshold, height, roughness, grain size and speed of the grains", "why_tests_cant": "an equality of functions of real quantities; the speed of the grains must cancel", "anchors": ["aeolis/transport.py:equilibrium", "docs/user/model.rst"]}
{"id": "C189", "title": "Groundwater flows by the documented Boussinesq equation", "statement": "Inside the aquifer, where the groundwater table has a given level, slope and curvature, its rate of change is the documented K/ne d/dx((D + eta) d eta/dx), for every grid spacing.", "quantifier": "every aquifer, table, grid spacing and cell landward of the shoreline and away from the landward boundary", "why_tests_cant": "an equality for all tables and grids, and its behaviour as the grid is refined", "anchors": ["aeolis/hydro.py:Boussinesq", "docs/user/model.rst"]}
{"id": "C190", "title": "Groundwater does not depend on the vertical datum", "statement": "When all levels are measured from another datum, with the depth of the aquifer adapted, the groundwater rises and falls at the same rate.", "quantifier": "every aquifer, datum, table and cell inside the aquifer", "why_tests_cant": "a relation between two runs for all datums", "anchors": ["aeolis/hydro.py:Boussinesq", "docs/user/model.rst"]}
{"id": "C191", "title": "Capillary moisture follows the documented retention curves", "statement": "With scanning, the capillary moisture of a bed above the groundwater is the documented van Genuchten value on the main curves, and the documented Mualem value, limited to the main curves, on the scanning curves, for rising and falling groundwater.", "quantifier": "every soil, groundwater history, height and stored reversal", "why_tests_cant": "an equality of functions of many real quantities in four situations", "anchors": ["aeolis/hydro.py:update", "aeolis/hydro.py:SWR_curve", "docs/user/model.rst"]}
{"id": "C192", "title": "Water above the documented field capacity infiltrates", "statement": "A bed that is not flooded and wetter than the documented field capacity, the moisture of the main drying curve 100 cm above the groundwater, loses water to infiltration with the documented drying time.", "quantifier": "every soil including the default one, moisture, weather and time step", "why_tests_cant": "a claim for all time steps and soils, and a relation between parameters that are set separately", "anchors": ["aeolis/hydro.py:update", "aeolis/constants.py", "docs/user/model.rst"]}
{"id": "C193", "title": "Runup feeds the groundwater at the documented rate", "statement": "Water that infiltrates from wave runup raises the groundwater in the swash zone at the documented rate Cl K f(x) / ne, so that the rise in a step is proportional to the length of the step.", "quantifier": "every aquifer, swash zone on an evenly spaced row, length of the sub-step and cell", "why_tests_cant": "a relation between runs with different time steps, for all grids", "anchors": ["aeolis/hydro.py:update", "aeolis/hydro.py:runup_overheight_distr", "docs/user/model.rst"]}
{"id": "C194", "title": "A weather file in the documented format is read as documented", "statement": "From a meteo_file in the documented format (time, temperature, precipitation, relative humidity, global radiation, air pressure) each quantity is read from its documented column and used as such in the moisture of the bed.", "quantifier": "every file sorted in time with six columns, time", "why_tests_cant": "every file is accepted, whatever the meaning of its columns; only the meaning of the results is wrong", "anchors": ["aeolis/hydro.py:interpolate", "aeolis/hydro.py:evaporation", "docs/user/inputfiles.rst"]}
{"id": "C195", "title": "Plants grow at the pace of the simulated time", "statement": "Plants grow in a time step by their growth rate per year times the simulated time of the step, whatever the length of the step: also when the model takes shorter steps than configured for stability or for max_bedlevel_change.", "quantifier": "every set of parameters, length of the step, state of a cell with plants and weather", "why_tests_cant": "a relation between runs with different time steps; tests compare one run with itself", "anchors": ["aeolis/vegetation.py:grow", "aeolis/model.py:set_timestep"]}
{"id": "C196", "title": "Plants respond to the average bed level change over avg_time", "statement": "Growth and germination of plants respond to the bed level change averaged over the period avg_time, as its description says, and not to the fluctuations within it.", "quantifier": "every series of bed levels, time step and period", "why_tests_cant": "all series of bed levels; a test with a steadily rising bed sees no difference", "anchors": ["aeolis/bed.py:average_change", "aeolis/vegetation.py:grow", "aeolis/constants.py:DEFAULT_CONFIG"]}
{"id": "C197", "title": "More salt in the bed means a higher threshold", "statement": "With th_salt the shear velocity threshold follows the documented factor 1.03 exp(0.1027 p_s) of the salt content that is specified through the state variable salt: it rises with the salt content, and without salt the factor is 1.03.", "quantifier": "every salt content of a dry bed", "why_tests_cant": "a relation between two beds that differ in the salt content, for all pairs", "anchors": ["aeolis/threshold.py:compute_salt", "docs/user/model.rst", "aeolis/constants.py:MODEL_STATE"]}
{"id": "C198", "title": "Saturated air stays as it is between lateral borders that are not connected", "statement": "With the solvers pieter and steadystatepieter, uniform wind and a lateral boundary condition flux (of saturated air), constant or gradient, air that carries everywhere what it can carry stays as it is: one iteration, no pickup, no change of the concentrations.", "quantifier": "every grid with rectangular cells, every uniform wind, every implicitness, every time step, both solvers", "why_tests_cant": "an equilibrium of a linear system of any size, in every cell including the corners", "anchors": ["aeolis/model.py:solve_pieter", "aeolis/model.py:solve_steadystatepieter"]}
{"id": "C199", "title": "A constant lateral border keeps its concentration", "statement": "With boundary_lateral = constant in the solver pieter the concentration along the two lateral borders is that of the time step before.", "quantifier": "every grid and wind", "why_tests_cant": "depends on the wind direction and on the coupling of rows in a sparse matrix", "anchors": ["aeolis/model.py:solve_pieter"]}
{"id": "C200", "title": "Between gradient borders rows that are alike stay alike", "statement": "With boundary_lateral = gradient in the solvers pieter and steadystatepieter, uniform wind and the same bed, air and supply in all rows, all rows end with the same concentrations, pickup and weights, and no concentration exceeds what enters and what the wind can carry.", "quantifier": "every grid of three or more rows, every uniform wind, both solvers", "why_tests_cant": "a symmetry of a linear system of any size and of the iterations around it", "anchors": ["aeolis/model.py:solve_pieter", "aeolis/model.py:solve_steadystatepieter"]}
{"id": "C201", "title": "Capitals in the name of a method do not matter", "statement": "Two names of a method that differ in capitals only lead to the same method, for every parameter that holds such a name.", "quantifier": "every parameter that names a method, every name, every way to capitalise it", "why_tests_cant": "the names that users write are without end, and a wrong method that is silently chosen gives plausible results", "anchors": ["aeolis/model.py:update", "aeolis/model.py:euler_backward", "aeolis/wind.py:calculate_z0", "aeolis/transport.py:equilibrium", "aeolis/threshold.py:compute_moisture", "aeolis/hydro.py:update", "aeolis/vegetation.py:vegshear"]}
{"id": "C202", "title": "An unknown name of a method is refused by name", "statement": "A name that is none of the known ones, whatever its capitals, ends the run with a ValueError whose message quotes the name.", "quantifier": "every parameter that names a method, every name", "why_tests_cant": "there are infinitely many unknown names, and whether one falls through all comparisons depends on each of them", "anchors": ["aeolis/model.py:update", "aeolis/model.py:euler_backward", "aeolis/wind.py:calculate_z0", "aeolis/transport.py:equilibrium", "aeolis/threshold.py:compute_moisture", "aeolis/hydro.py:update", "aeolis/vegetation.py:vegshear"]}
{"id": "C203", "title": "Every documented name leads to the method it stands for", "statement": "Every name of a method in the comments of the defaults, the docstrings and the user guide leads to the method it describes, and different names to different methods.", "quantifier": "every documented name of every parameter", "why_tests_cant": "the documentation and the comparisons are in different files and are only compared by reading both", "anchors": ["aeolis/model.py:update", "aeolis/model.py:euler_backward", "aeolis/wind.py:calculate_z0", "aeolis/transport.py:equilibrium", "aeolis/threshold.py:compute_moisture", "aeolis/hydro.py:update", "aeolis/vegetation.py:vegshear", "aeolis/constants.py:DEFAULT_CONFIG", "docs/user/inputfiles.rst"]}
