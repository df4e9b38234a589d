(** What is expected of the names of methods. *)
From Verif Require Import Base Choice_Model.

(** The same letter, perhaps one of them a capital. *)
Definition same_letter (c d : ascii) : Prop :=
  c = d \/ exists i, i < 26 /\
    ((c = ascii_of_nat (65 + i) /\ d = ascii_of_nat (97 + i)) \/ (c = ascii_of_nat (97 + i) /\ d = ascii_of_nat (65 + i))).
(** The same name but for capitals. *)
Definition same_name : text -> text -> Prop := Forall2 same_letter.

(** The names of constants.py:299-330 (comments and defaults), with what they stand for. *)
Definition documented (o : choice) : list (text * branch) :=
  match o with
  | Scheme => [(txt "euler_forward", Explicit); (txt "euler_backward", Implicit); (txt "crank_nicolson", CrankNicolson)]
  | Solver => [(txt "trunk", Trunk); (txt "pieter", Pieter); (txt "steadystate", SteadyState); (txt "steadystatepieter", SteadyStatePieter)]
  | BoundaryGw => [(txt "no_flow", NoFlow); (txt "static", Static)]
  | MoistThreshold => [(txt "belly_johnson", BellyJohnson)]
  | MoistProcess => [(txt "infiltration", Infiltration)]
  | Transport => [(txt "bagnold", Bagnold)]
  | Roughness => [(txt "constant", RoughConstant)]
  | Grainspeed => [(txt "windspeed", SpeedWind); (txt "duran", SpeedDuran); (txt "constant", SpeedConstant)]
  | Convention => [(txt "cartesian", Cartesian); (txt "nautical", Nautical)]
  | Vegshear => [(txt "raupach", Raupach); (txt "okin", Okin)]
  | Veggrowth => [(txt "orig", GrowthOrig); (txt "duranmoore14", GrowthDuranMoore)]
  end.
(** The names of the docstring of calculate_z0, wind.py:150-162, and of docs/user/inputfiles.rst:208. *)
Definition documented_elsewhere (o : choice) : list (text * branch) :=
  match o with
  | MoistProcess => [(txt "surf_moisture", SurfMoisture)]
  | Roughness => [(txt "constant_nikuradse", RoughNikuradse); (txt "mean_grainsize_initial", RoughMeanInitial); (txt "median_grainsize_adaptive", RoughMedianAdaptive)]
  | _ => []
  end.
(** Names of comments and docstrings that the code knows by another name: constants.py:306 and wind.py:162. *)
Definition documented_otherwise (o : choice) : list (text * branch) :=
  match o with
  | MoistProcess => [(txt "surface_moisture", SurfMoisture)]
  | Roughness => [(txt "strypsteen_vanrijn", RoughVanRijn)]
  | _ => []
  end.
(** Names that are not documented: of the code only, threshold.py:184-228, transport.py:319-354 and wind.py:182, 187. *)
Definition undocumented (o : choice) : list (text * branch) :=
  match o with
  | MoistThreshold => [(txt "hotta", Hotta); (txt "chepil", Chepil); (txt "saleh_fryear", SalehFryrear); (txt "saleh_fryear_mod", SalehFryrearMod); (txt "shao", Shao);
      (txt "dong_2002", Dong2002); (txt "gregory_darwish", GregoryDarwish); (txt "cornelis", Cornelis); (txt "dong_2007", Dong2007)]
  | Transport => [(txt "bagnold_gs", BagnoldGs); (txt "kawamura", Kawamura); (txt "lettau", Lettau); (txt "dk", Dk); (txt "sauermann", Sauermann); (txt "vanrijn_strypsteen", VanRijnStrypsteen)]
  | Roughness => [(txt "mean_grainsize_adaptive", RoughMeanAdaptive); (txt "vanrijn_strypsteen", RoughVanRijn)]
  | _ => []
  end.
(** All names that mean something. *)
Definition known (o : choice) : list (text * branch) := documented o ++ documented_elsewhere o ++ undocumented o.

(** The choices that do not mind capitals. *)
Definition tolerant : list choice := [Solver; BoundaryGw; MoistThreshold; MoistProcess; Transport].
(** The choices that refuse an unknown name and say which. *)
Definition refusing : list choice := [Scheme; MoistProcess; Transport; Convention].
(** What the other choices do with an unknown name. *)
Definition unrefused (o : choice) : outcome :=
  match o with
  | MoistThreshold => Fails KeyError
  | BoundaryGw => Fails TypeError
  | Vegshear => Picks Raupach
  | Veggrowth => Picks GrowthDuranMoore
  | _ => Fails NameError
  end.
