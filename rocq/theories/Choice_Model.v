(** Model of how the names in the configuration choose a formula: the chains of comparisons of /repo/aeolis/model.py:311-318, 671-678, 692-699,
    711-718, wind.py:53-68, 176-209, transport.py:279-361, threshold.py:184-232, hydro.py:270-279, 319-400 and vegetation.py:76-79, 142-149.
    Names are ASCII text. Simplification: the code with the comparison is reached, that is, the process that a name belongs to is switched on, the
    wind blows somewhere (model.py:304; without wind an unknown scheme goes unnoticed) and there is a wind file (wind.py:52). The formulas are those
    of the other files. *)
From Verif Require Import Base.

(** The parameters of the configuration that hold the name of a method. *)
Inductive choice := Scheme | Solver | BoundaryGw | MoistThreshold | MoistProcess | Transport | Roughness | Grainspeed | Convention | Vegshear | Veggrowth.
(** The pieces of code a name can lead to. *)
Inductive branch :=
  | Explicit | Implicit | CrankNicolson
  | Trunk | Pieter | SteadyState | SteadyStatePieter
  | NoFlow | Static
  | BellyJohnson | Hotta | Chepil | SalehFryrear | SalehFryrearMod | Shao | Dong2002 | GregoryDarwish | Cornelis | Dong2007
  | Infiltration | SurfMoisture
  | Bagnold | BagnoldGs | Kawamura | Lettau | Dk | Sauermann | VanRijnStrypsteen
  | RoughConstant | RoughNikuradse | RoughMeanInitial | RoughMeanAdaptive | RoughMedianAdaptive | RoughVanRijn
  | SpeedDuran | SpeedWind | SpeedConstant
  | Nautical | Cartesian
  | Okin | Raupach
  | GrowthOrig | GrowthDuranMoore.
(** What comes of a name: a branch, a ValueError with a message, or another exception. *)
Inductive outcome := Picks (b : branch) | Refuses (message : text) | Fails (e : exn).

(** str.lower of one character. *)
Definition lower (c : ascii) : ascii :=
  let n := nat_of_ascii c in if (65 <=? n) && (n <=? 90) then ascii_of_nat (n + 32) else c.
(** A chain if v == name: ... elif ... else. *)
Fixpoint chain (v : text) (l : list (text * branch)) (otherwise : outcome) : outcome :=
  match l with
  | [] => otherwise
  | (name, b) :: l' => if text_eqb v name then Picks b else chain v l' otherwise
  end.
(** A sequence if v == name: z0 = ... without else: the last that holds counts; z0 is not bound where none holds (UnboundLocalError, a
    NameError). *)
Definition sequence (v : text) (l : list (text * branch)) : outcome :=
  fold_left (fun o nb => if text_eqb v (fst nb) then Picks (snd nb) else o) l (Fails NameError).

(** model.py:311-318 *)
Definition pick_scheme (v : text) : outcome :=
  chain v [(txt "euler_forward", Explicit); (txt "euler_backward", Implicit); (txt "crank_nicolson", CrankNicolson)]
    (Refuses (txt "Unknown scheme [" ++ v ++ txt "]")).
(** model.py:671-678, the same in 692-699 and 711-718; without an else, so that [solve] is not bound (UnboundLocalError). *)
Definition pick_solver (v : text) : outcome :=
  chain (map lower v) [(txt "trunk", Trunk); (txt "pieter", Pieter); (txt "steadystate", SteadyState); (txt "steadystatepieter", SteadyStatePieter)]
    (Fails NameError).
(** hydro.py:270-279; the message has no place for the name, so that the operator % raises TypeError. *)
Definition pick_gw (v : text) : outcome :=
  chain (map lower v) [(txt "no_flow", NoFlow); (txt "static", Static)] (Fails TypeError).
(** threshold.py:184-232; the message is made with p['method_moist'], which does not exist. *)
Definition pick_threshold (v : text) : outcome :=
  chain (map lower v) [(txt "belly_johnson", BellyJohnson); (txt "hotta", Hotta); (txt "chepil", Chepil); (txt "saleh_fryear", SalehFryrear);
    (txt "saleh_fryear_mod", SalehFryrearMod); (txt "shao", Shao); (txt "dong_2002", Dong2002); (txt "gregory_darwish", GregoryDarwish);
    (txt "cornelis", Cornelis); (txt "dong_2007", Dong2007)] (Fails KeyError).
(** hydro.py:319-400 *)
Definition pick_moist (v : text) : outcome :=
  chain (map lower v) [(txt "infiltration", Infiltration); (txt "surf_moisture", SurfMoisture)]
    (Refuses (txt "Unknown moisture process formulation [" ++ v ++ txt "]")).
(** transport.py:319-361 *)
Definition pick_transport (v : text) : outcome :=
  chain (map lower v) [(txt "bagnold", Bagnold); (txt "bagnold_gs", BagnoldGs); (txt "kawamura", Kawamura); (txt "lettau", Lettau); (txt "dk", Dk);
    (txt "sauermann", Sauermann); (txt "vanrijn_strypsteen", VanRijnStrypsteen)]
    (Refuses (txt "Unknown transport formulation [" ++ v ++ txt "]")).
(** wind.py:176-209 *)
Definition pick_roughness (v : text) : outcome :=
  sequence v [(txt "constant", RoughConstant); (txt "constant_nikuradse", RoughNikuradse); (txt "mean_grainsize_initial", RoughMeanInitial);
    (txt "mean_grainsize_adaptive", RoughMeanAdaptive); (txt "median_grainsize_adaptive", RoughMedianAdaptive);
    (txt "vanrijn_strypsteen", RoughVanRijn)].
(** transport.py:279-302; without an else, so that [u] is not bound where it is used first, in 316 (UnboundLocalError). *)
Definition pick_grainspeed (v : text) : outcome :=
  chain v [(txt "duran", SpeedDuran); (txt "windspeed", SpeedWind); (txt "constant", SpeedConstant)] (Fails NameError).
(** wind.py:53-68 *)
Definition pick_convention (v : text) : outcome :=
  chain v [(txt "nautical", Nautical); (txt "cartesian", Cartesian)] (Refuses (txt "Unknown convention: " ++ v)).
(** vegetation.py:76-79, of one row (ny = 0). *)
Definition pick_vegshear (v : text) : outcome := chain v [(txt "okin", Okin)] (Picks Raupach).
(** vegetation.py:142-149 *)
Definition pick_veggrowth (v : text) : outcome := chain v [(txt "orig", GrowthOrig)] (Picks GrowthDuranMoore).

(** The code a name leads to. *)
Definition pick (o : choice) (v : text) : outcome :=
  match o with
  | Scheme => pick_scheme v
  | Solver => pick_solver v
  | BoundaryGw => pick_gw v
  | MoistThreshold => pick_threshold v
  | MoistProcess => pick_moist v
  | Transport => pick_transport v
  | Roughness => pick_roughness v
  | Grainspeed => pick_grainspeed v
  | Convention => pick_convention v
  | Vegshear => pick_vegshear v
  | Veggrowth => pick_veggrowth v
  end.
