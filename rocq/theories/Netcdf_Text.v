(** The text of aeolis/constants.py, lines 29-149, verbatim: the tables of the state variables, of
    which netcdf.py:438-447 reads the comments. The remaining lines of that file declare parameters; the
    only one among them that has the form looked for is line 318 (refdate), of which the part taken for a
    name contains quotes, spaces and a colon, so it names no variable. *)
From Verif Require Import Base.

(** constants.py:29-149 *)
Definition constants_py : list text := map txt [
  "INITIAL_STATE = {";
  "    ('ny', 'nx') : (";
  "        'uw',                               # [m/s] Wind velocity";
  "        'uws',                              # [m/s] Component of wind velocity in x-direction";
  "        'uwn',                              # [m/s] Component of wind velocity in y-direction";
  "        ";
  "        'tau',                              # [N/m^2] Wind shear stress";
  "        'taus',                             # [N/m^2] Component of wind shear stress in x-direction";
  "        'taun',                             # [N/m^2] Component of wind shear stress in y-direction";
  "        'tau0',                             # [N/m^2] Wind shear stress over a flat bed";
  "        'taus0',                            # [N/m^2] Component of wind shear stress in x-direction over a flat bed";
  "        'taun0',                            # [N/m^2] Component of wind shear stress in y-direction over a flat bed";
  "        'taus_u',                           # [N/m^2] Saved direction of wind shear stress in x-direction";
  "        'taun_u',                           # [N/m^2] Saved direction of wind shear stress in y-direction";
  "        'dtaus',                            # [-] Component of the wind shear perturbation in x-direction";
  "        'dtaun',                            # [-] Component of the wind shear perturbation in y-direction";
  "";
  "        'ustar',                            # [m/s] Wind shear velocity";
  "        'ustars',                           # [m/s] Component of wind shear velocity in x-direction";
  "        'ustarn',                           # [m/s] Component of wind shear velocity in y-direction";
  "        'ustar0',                           # [m/s] Wind shear velocity over a flat bed";
  "        'ustars0',                          # [m/s] Component of wind shear velocity in x-direction over a flat bed";
  "        'ustarn0',                          # [m/s] Component of wind shear velocity in y-direction over a flat bed";
  "";
  "        'udir',                             # [rad] Wind direction";
  "        'zs',                               # [m] Water level above reference (or equal to zb if zb > zs)";
  "        'SWL',                              # [m] Still water level above reference";
  "        'Hs',                               # [m] Wave height";
  "        'Hsmix',                            # [m] Wave height for mixing (including setup, TWL)";
  "        'Tp',                               # [s] Wave period for wave runup calculations";
  "        'zne',                              # [m] Non-erodible layer";
  "    ),";
  "}";
  "";
  "MODEL_STATE = {";
  "    ('ny', 'nx') : (";
  "        'x',                                # [m] Real-world x-coordinate of grid cell center";
  "        'y',                                # [m] Real-world y-coordinate of grid cell center";
  "        'ds',                               # [m] Real-world grid cell size in x-direction";
  "        'dn',                               # [m] Real-world grid cell size in y-direction";
  "        'dsdn',                             # [m^2] Real-world grid cell surface area";
  "        'dsdni',                            # [m^-2] Inverse of real-world grid cell surface area";
  "#        'alfa',                             # [rad] Real-world grid cell orientation #Sierd_comm in later releases this needs a revision ";
  "        'zb',                               # [m] Bed level above reference";
  "        'zs',                               # [m] Water level above reference";
  "        'zne',                              # [m] Height above reference of the non-erodible layer";
  "        'zb0',                              # [m] Initial bed level above reference";
  "        'zdry',                             # [m]";
  "        'dzdry',                            # [m]";
  "        'dzb',                              # [m/dt] Bed level change per time step (computed after avalanching!)";
  "        'dzbyear',                          # [m/yr] Bed level change translated to m/y";
  "        'dzbavg',                           # [m/year] Bed level change averaged over collected time steps";
  "        'S',                                # [-] Level of saturation";
  "        'moist',                      #NEWCH      # [-] Moisture content (volumetric)";
  "        'moist_swr',                  #NEWCH      # [-] Moisture content soil water retention relationship (volumetric)";
  "        'h_delta',                    #NEWCH      # [-] Suction at reversal between wetting/drying conditions";
  "        'gw',                         #NEWCH      # [m] Groundwater level above reference";
  "        'gw_prev',                    #NEWCH      # [m] Groundwater level above reference in previous timestep";
  "        'wetting',                    #NEWCH      # [bool] Flag indicating wetting or drying of soil profile";
  "        'scan_w',                     #NEWCH      # [bool] Flag indicating that the moisture is calculated on the wetting scanning curve";
  "        'scan_d',                     #NEWCH      # [bool] Flag indicating that the moisture is calculated on the drying scanning curve";
  "        'scan_w_moist',               #NEWCH      # [-] Moisture content (volumetric) computed on the wetting scanning curve";
  "        'scan_d_moist',               #NEWCH      # [-] Moisture content (volumetric) computed on the drying scanning curve";
  "        'w_h',                        #NEWCH      # [-] Moisture content (volumetric) computed on the main wetting curve";
  "        'd_h',                        #NEWCH      # [-] Moisture content (volumetric) computed on the main drying curve";
  "        'w_hdelta',                   #NEWCH      # [-] Moisture content (volumetric) computed on the main wetting curve for hdelta";
  "        'd_hdelta',                    #NEWCH      # [-] Moisture content (volumetric) computed on the main drying curve for hdelta";
  "        'ustar',                            # [m/s] Shear velocity by wind";
  "        'ustars',                           # [m/s] Component of shear velocity in x-direction by wind";
  "        'ustarn',                           # [m/s] Component of shear velocity in y-direction by wind";
  "        'ustar0',                           # [m/s] Initial shear velocity (without perturbation)";
  "        'zsep',                             # [m] Z level of polynomial that defines the separation bubble";
  "        'hsep',                             # [m] Height of separation bubbel = difference between z-level of zsep and of the bed level zb";
  "        'theta_stat',                       # [degrees] Updated, spatially varying static angle of repose";
  "        'theta_dyn',                        # [degrees] Updated, spatially varying dynamic angle of repose";
  "        'rhoveg',                           # [-] Vegetation cover";
  "        'drhoveg',                          # Change in vegetation cover";
  "        'hveg',                             # [m] height of vegetation";
  "        'dhveg',                            # [m] Difference in vegetation height per time step";
  "        'dzbveg',                           # [m] Bed level change used for calculation of vegetation growth";
  "        'germinate',                        # vegetation germination";
  "        'lateral',                          # vegetation lateral expansion";
  "        'vegfac',                           # Vegetation factor to modify shear stress by according to Raupach 1993";
  "        'fence_height',                     # Fence height";
  "        'R',                                # [m] wave runup";
  "        'eta',                              # [m] wave setup";
  "        'sigma_s',                          # [m] swash";
  "        'TWL',                              # [m] Total Water Level above reference (SWL + Run-up)";
  "        'SWL',                              # [m] Still Water Level above reference";
  "        'DSWL',                             # [m] Dynamic Still water level above reference (SWL + Set-up)";
  "        'Rti',                              # [-] Factor taking into account sheltering by roughness elements";
  "    ),";
  "    ('ny','nx','nfractions') : (";
  "        'Cu',                               # [kg/m^2] Equilibrium sediment concentration integrated over saltation height";
  "        'Cuf',                              # [kg/m^2] Equilibrium sediment concentration integrated over saltation height, assuming the fluid shear velocity threshold";
  "        'Cu0',                              # [kg/m^2] Flat bad equilibrium sediment concentration integrated over saltation height";
  "        'Ct',                               # [kg/m^2] Instantaneous sediment concentration integrated over saltation height";
  "        'q',                                # [kg/m/s] Instantaneous sediment flux";
  "        'qs',                               # [kg/m/s] Instantaneous sediment flux in x-direction";
  "        'qn',                               # [kg/m/s] Instantaneous sediment flux in y-direction";
  "        'pickup',                           # [kg/m^2] Sediment entrainment";
  "        'w',                                # [-] Weights of sediment fractions";
  "        'w_init',                           # [-] Initial guess for ``w''";
  "        'w_air',                            # [-] Weights of sediment fractions based on grain size distribution in the air";
  "        'w_bed',                            # [-] Weights of sediment fractions based on grain size distribution in the bed";
  "        'uth',                              # [m/s] Shear velocity threshold";
  "        'uthf',                             # [m/s] Fluid shear velocity threshold";
  "        'uth0',                             # [m/s] Shear velocity threshold based on grainsize only (aerodynamic entrainment)";
  "        'u',                                # [m/s] Mean horizontal saltation velocity in saturated state";
  "        'us',                               # [m/s] Component of the saltation velocity in x-direction";
  "        'un',                               # [m/s] Component of the saltation velocity in y-direction";
  "        'u0',";
  "    ),";
  "    ('ny','nx','nlayers') : (";
  "        'thlyr',                            # [m] Bed composition layer thickness";
  "        'salt',                             # [-] Salt content";
  "    ),";
  "    ('ny','nx','nlayers','nfractions') : (";
  "        'mass',                             # [kg/m^2] Sediment mass in bed";
  "    ),";
  "}"]%string.
