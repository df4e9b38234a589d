(** Which parameters and grids the code uses, by name.

    The tables list the subscripts p['...'] and s['...'] (also as attributes self.p, self.s) in the source
    files of /repo/aeolis: for each file the name and the line of its first use of that kind. Names that
    are computed at run time are not in the tables; the one such case that creates grids, the masks of
    bed.py:106-112, is modelled by [masks]. That a file is only reached with some process switched on is
    not modelled. *)
From Coq Require Import String List.
From Verif Require Import Base State_Model.
Import ListNotations.
Open Scope string_scope.

(** A table: for every file the lines and names. *)
Definition table := list (string * list (nat * string)).
Definition names_in (t : table) : list string := flat_map (fun e => map snd (snd e)) t.

(** Parameters that are read. *)
Definition param_reads : table := [
  ("avalanching.py",
    [(63, "theta_stat"); (64, "theta_dyn"); (94, "process_avalanche"); (96, "nx"); (97, "ny");
     (113, "max_iter_ava")]);
  ("bed.py",
    [(66, "ny"); (67, "nx"); (68, "nlayers"); (69, "nfractions"); (72, "bed_file"); (74, "ne_file");
     (80, "layer_thickness"); (83, "grain_dist"); (86, "bedcomp_file"); (92, "porosity");
     (92, "rhog"); (115, "threshold_file"); (147, "process_mixtoplayer"); (156, "facDOD");
     (212, "process_wet_bed_reset"); (214, "Tbedreset"); (214, "dt_opt"); (297, "max_error");
     (305, "_time"); (311, "process_bedupdate"); (319, "process_tide"); (460, "accfac");
     (461, "avg_time")]);
  ("erosion.py",
    [(67, "wave_file"); (69, "tide_file"); (71, "dune_toe_elevation"); (72, "beach_slope");
     (73, "dt_opt"); (77, "ny"); (94, "Cs")]);
  ("fences.py",
    [(50, "process_fences"); (51, "fence_file"); (60, "ny"); (95, "dx"); (350, "okin_c1_fence");
     (351, "okin_initialred_fence")]);
  ("gridparams.py",
    [(61, "xgrid_file"); (109, "ny"); (123, "ygrid_file"); (195, "alpha")]);
  ("hydro.py",
    [(67, "process_tide"); (70, "external_vars"); (71, "tide_file"); (89, "eps");
     (112, "process_wave"); (112, "wave_file"); (127, "gamma"); (143, "process_runup"); (144, "ny");
     (154, "beach_slope"); (193, "meteo_file"); (193, "method_moist_process");
     (193, "process_moist"); (243, "process_groundwater"); (246, "tstart"); (247, "in_gw");
     (257, "tfac_gw"); (270, "boundary_gw"); (283, "D_gw"); (283, "GW_stat"); (283, "K_gw");
     (283, "ne_gw"); (283, "process_seepage_face"); (299, "Cl_gw"); (320, "Tdry"); (322, "porosity");
     (334, "fc"); (338, "satd_moist"); (346, "resw_moist"); (346, "thick_moist");
     (354, "process_scanning"); (357, "satw_moist"); (358, "alfaw_moist"); (358, "mw_moist");
     (358, "nw_moist"); (364, "alfad_moist"); (364, "md_moist"); (364, "nd_moist");
     (364, "resd_moist"); (404, "process_salt"); (406, "Tsalt"); (410, "layer_thickness");
     (575, "cpair"); (576, "z")]);
  ("inout.py",
    [(102, "grain_dist"); (103, "grain_size"); (106, "output_file"); (110, "h"); (111, "z");
     (113, "process_fences"); (117, "nsavetimes"); (118, "dt"); (118, "dzb_interval");
     (194, "xgrid_file"); (195, "bed_file"); (195, "ny"); (195, "ygrid_file"); (198, "wind_file");
     (202, "tide_file"); (206, "meteo_file"); (210, "th_humidity"); (214, "th_salt");
     (218, "method_roughness"); (333, "alpha"); (368, "boundary_offshore");
     (369, "boundary_onshore"); (370, "boundary_lateral"); (416, "tstart"); (417, "tstop");
     (429, "wave_file")]);
  ("model.py",
    [(191, "xgrid_file"); (204, "grain_size"); (207, "tstart"); (210, "nx"); (211, "ny");
     (212, "nlayers"); (213, "nfractions"); (236, "visualization"); (278, "alpha");
     (284, "process_fences"); (288, "process_vegetation"); (311, "scheme");
     (334, "process_dune_erosion"); (346, "accfac"); (379, "tstop"); (619, "dt"); (622, "CFL");
     (631, "max_bedlevel_change"); (671, "solver"); (741, "grain_dist"); (808, "T");
     (854, "boundary_offshore"); (871, "boundary_onshore"); (888, "boundary_lateral");
     (942, "max_iter"); (961, "offshore_flux"); (963, "onshore_flux");
     (966, "constant_offshore_flux"); (968, "constant_onshore_flux"); (972, "max_error");
     (1112, "bedcomp_file"); (1722, "lateral_flux"); (2505, "callback"); (2700, "output_vars");
     (2701, "output_types"); (2715, "_output_vars"); (2723, "output_file"); (2787, "output_times");
     (2803, "restart")]);
  ("netcdf.py",
    [(87, "nx"); (88, "ny"); (92, "nlayers"); (93, "nfractions"); (212, "refdate");
     (294, "grain_size")]);
  ("threshold.py",
    [(77, "process_threshold"); (77, "threshold_file"); (79, "th_grainsize"); (81, "th_bedslope");
     (83, "th_moisture"); (87, "process_tide"); (88, "eps"); (91, "th_drylayer");
     (93, "th_humidity"); (95, "th_salt"); (97, "th_sheltering"); (105, "th_nelayer"); (129, "Aa");
     (129, "g"); (129, "grain_size"); (129, "rhoa"); (129, "rhog"); (175, "nfractions");
     (179, "porosity"); (179, "rhow"); (181, "resw_moist"); (184, "method_moist_threshold");
     (189, "w1_5"); (197, "grain_dist"); (232, "method_moist"); (290, "nx"); (291, "ny");
     (295, "csalt"); (389, "beta"); (389, "m"); (389, "sigma"); (416, "ne_file")]);
  ("transport.py",
    [(59, "nfractions"); (60, "grain_size"); (65, "ny"); (79, "rhog"); (80, "rhoa"); (86, "g");
     (87, "v"); (89, "kappa"); (98, "Aa"); (273, "process_transport"); (276, "nx");
     (280, "method_grainspeed"); (319, "method_transport"); (320, "Cb"); (334, "Ck"); (338, "Cl");
     (342, "Cdk"); (364, "accfac"); (398, "bi")]);
  ("utils.py",
    [(369, "grain_size")]);
  ("vegetation.py",
    [(59, "veg_file"); (67, "hveg_max"); (76, "ny"); (76, "vegshear_type"); (90, "accfac");
     (90, "dt_opt"); (96, "germinate"); (109, "dx"); (111, "lateral"); (115, "nx"); (136, "V_ver");
     (139, "dzb_opt"); (139, "veg_gamma"); (142, "veggrowth_type"); (147, "t_veg"); (148, "v_gam");
     (149, "rhoveg_max"); (157, "dt"); (169, "process_tide"); (175, "veg_min_elevation");
     (205, "okin_c1_veg"); (206, "okin_initialred_veg"); (277, "gamma_vegshear"); (283, "veg_sigma")]);
  ("wind.py",
    [(52, "wind_file"); (53, "wind_convention"); (74, "process_shear"); (75, "ny"); (77, "dx");
     (77, "dy"); (78, "L"); (78, "l"); (79, "buffer_width"); (111, "process_wind"); (121, "alfa");
     (128, "kappa"); (129, "z"); (177, "method_roughness"); (178, "k"); (182, "grain_dist");
     (182, "grain_size"); (198, "g"); (198, "rhoa"); (198, "rhog"); (219, "process_separation");
     (220, "c_b"); (221, "mu_b"); (223, "sep_filter_iterations"); (224, "zsep_y_filter")])].

(** Parameters that the program itself sets. *)
Definition param_stores : table := [
  ("gridparams.py",
    [(187, "alpha")]);
  ("inout.py",
    [(102, "grain_dist"); (103, "grain_size"); (107, "output_file"); (111, "h");
     (114, "process_fences"); (118, "nsavetimes")]);
  ("model.py",
    [(192, "nx"); (192, "ny"); (204, "nfractions"); (267, "_time"); (636, "dt_opt");
     (2700, "output_vars"); (2701, "output_types"); (2704, "_output_vars")])].

(** Grids that are read. *)
Definition grid_reads : table := [
  ("avalanching.py",
    [(101, "theta_stat"); (102, "theta_dyn"); (115, "dn"); (115, "ds"); (115, "zb"); (115, "zne")]);
  ("bed.py",
    [(72, "zb"); (73, "zb0"); (74, "zne"); (77, "zdry"); (80, "thlyr"); (92, "mass"); (156, "Hsmix");
     (216, "zs"); (258, "pickup"); (304, "uw"); (460, "dzb"); (462, "dzbyear")]);
  ("erosion.py",
    [(82, "R"); (85, "x"); (86, "zb"); (87, "eta"); (89, "sigma_s")]);
  ("fences.py",
    [(51, "fence_height"); (52, "zb"); (53, "fence_base"); (69, "fence_top");
     (70, "fence_height_init"); (86, "x"); (87, "y"); (89, "ustars"); (90, "ustarn"); (99, "udir");
     (461, "ustar")]);
  ("gridparams.py",
    [(61, "x"); (112, "y"); (199, "dn"); (200, "ds"); (207, "dsdn"); (208, "dsdni")]);
  ("hydro.py",
    [(72, "SWL"); (79, "tide_mask"); (85, "zs"); (89, "zb"); (119, "Hs"); (123, "Tp");
     (130, "wave_mask"); (155, "R"); (156, "eta"); (157, "sigma_s"); (159, "runup_mask");
     (163, "TWL"); (164, "DSWL"); (183, "Hsmix"); (247, "gw"); (249, "gw_prev"); (283, "ds");
     (296, "x"); (302, "gw_mask"); (322, "moist"); (342, "meteo"); (359, "h_delta"); (360, "scan_w");
     (361, "scan_d"); (364, "d_h"); (364, "scan_d_moist"); (364, "scan_w_moist"); (364, "w_h");
     (364, "wetting"); (378, "w_hdelta"); (379, "d_hdelta"); (385, "moist_swr"); (407, "salt");
     (576, "uw")]);
  ("inout.py",
    [(328, "x"); (329, "y"); (330, "zb"); (481, "threshold_mask"); (482, "tide_mask");
     (483, "wave_mask"); (500, "zne"); (501, "rhoveg"); (502, "uw"); (503, "ustar"); (504, "tau");
     (505, "moist"); (506, "gw"); (507, "uth"); (533, "uwn"); (533, "uws"); (534, "ustarn");
     (534, "ustars"); (535, "taun"); (535, "taus")]);
  ("model.py",
    [(271, "zb"); (272, "dzbavg"); (280, "uw"); (623, "ds"); (623, "uws"); (624, "dn"); (624, "uwn");
     (631, "dzb"); (645, "x"); (645, "y"); (647, "taun"); (647, "taus"); (648, "taun0");
     (648, "taus0"); (650, "ustarn"); (650, "ustars"); (651, "ustarn0"); (651, "ustars0");
     (656, "qn"); (656, "qs"); (733, "Ct"); (734, "pickup"); (777, "us"); (778, "un");
     (798, "dsdni"); (946, "Cu"); (955, "Cuf"); (955, "S"); (961, "Cu0"); (966, "u"); (991, "mass");
     (1532, "dsdn")]);
  ("netcdf.py",
    [(291, "x"); (292, "y")]);
  ("threshold.py",
    [(88, "zb"); (88, "zs"); (89, "uth"); (101, "threshold_mask"); (179, "moist"); (295, "salt");
     (381, "mass"); (384, "ustar"); (416, "zne")]);
  ("transport.py",
    [(62, "zb"); (63, "x"); (64, "y"); (67, "uw"); (68, "uws"); (69, "uwn"); (71, "uth0");
     (74, "ustar"); (75, "ustars"); (76, "ustarn"); (77, "ustar0"); (193, "zsep"); (293, "u");
     (298, "us"); (299, "un"); (306, "uth"); (307, "uthf"); (320, "Cu"); (321, "Cuf"); (323, "Cu0");
     (395, "Ct"); (396, "mass")]);
  ("utils.py",
    [(365, "mass")]);
  ("vegetation.py",
    [(60, "rhoveg"); (67, "hveg"); (69, "germinate"); (70, "lateral"); (101, "dzbveg"); (107, "ds");
     (119, "dn"); (126, "drhoveg"); (139, "dhveg"); (170, "zb"); (170, "zs"); (190, "ustar");
     (191, "ustars"); (192, "ustarn"); (198, "udir"); (200, "x"); (287, "vegfac")]);
  ("wind.py",
    [(76, "x"); (76, "y"); (76, "zb"); (117, "uw"); (118, "udir"); (132, "uws"); (133, "uwn");
     (134, "ustarn"); (134, "ustars"); (138, "ustar"); (142, "tau"); (143, "taus"); (144, "taun");
     (216, "shear"); (222, "taun0"); (222, "taus0"); (234, "hsep"); (244, "zsep")])].

(** Grids that are set (assignments of the whole array). *)
Definition grid_stores : table := [
  ("avalanching.py",
    [(66, "theta_stat"); (67, "theta_dyn"); (117, "gradh"); (185, "zb")]);
  ("bed.py",
    [(116, "uth"); (308, "mass"); (315, "dzb"); (318, "zb"); (320, "zs"); (460, "dzbyear");
     (462, "dzbavg"); (466, "dzbveg")]);
  ("fences.py",
    [(52, "fence_base"); (53, "fence_top"); (54, "fence_height_init"); (55, "zf");
     (69, "fence_height"); (110, "ustars"); (111, "ustarn"); (112, "ustar")]);
  ("hydro.py",
    [(79, "SWL"); (127, "Hs"); (131, "Tp"); (172, "eta"); (173, "R"); (187, "Hsmix"); (205, "meteo");
     (209, "zs"); (248, "gw_prev"); (249, "wetting"); (289, "gw"); (334, "moist");
     (357, "moist_swr"); (364, "h_delta"); (366, "w_h"); (369, "w_hdelta"); (372, "d_h");
     (375, "d_hdelta"); (378, "scan_w_moist"); (381, "scan_d_moist"); (385, "scan_d");
     (385, "scan_w")]);
  ("model.py",
    [(645, "x"); (645, "y"); (647, "taun"); (647, "taus"); (648, "taun0"); (648, "taus0");
     (650, "ustarn"); (650, "ustars"); (651, "ustarn0"); (651, "ustars0"); (653, "uwn");
     (653, "uws"); (658, "udir"); (949, "S"); (2772, "q")]);
  ("threshold.py",
    [(101, "uth"); (102, "uthf"); (132, "uth0"); (390, "Rti")]);
  ("transport.py",
    [(249, "us"); (250, "un"); (251, "u"); (283, "u0"); (313, "Cu"); (314, "Cuf"); (366, "Cu0")]);
  ("vegetation.py",
    [(102, "germinate"); (124, "drhoveg"); (128, "lateral"); (143, "hveg"); (145, "rhoveg");
     (283, "vegfac"); (287, "ustar"); (288, "ustars"); (289, "ustarn")]);
  ("wind.py",
    [(76, "shear"); (121, "uws"); (122, "uwn"); (125, "uw"); (132, "ustars"); (133, "ustarn");
     (134, "ustar"); (138, "ustar0"); (139, "ustars0"); (140, "ustarn0"); (142, "tau0");
     (143, "taus0"); (144, "taun0"); (226, "taun"); (226, "taus"); (227, "tau"); (233, "hsep");
     (234, "zsep")])].

(** bed.py:106-112: every parameter whose name ends in "_mask" becomes a grid. *)
Fixpoint ends_with (suffix s : string) : bool :=
  (s =? suffix) || match s with EmptyString => false | String _ s' => ends_with suffix s' end.
Definition masks (parameters : list string) : list string := filter (ends_with "_mask") parameters.

(** model.py:213-235, the grids after [initialize]: the declared ones and the masks. Those that are set by
    the initialisation of wind and fences are in [grid_stores]. *)
Definition grids_at_start (parameters : list string) : list string :=
  flat_map (fun e => snd e) MODEL_STATE ++ masks parameters.

(** model.py:1055-1063, 1447-1455, 1480, 1827-1835, 1890, 2249-2257: the grids set by the results of the solvers. *)
Definition solver_results : list string := ["Ct"; "qs"; "qn"; "pickup"; "w"; "w_init"; "w_air"; "w_bed"; "q"].
