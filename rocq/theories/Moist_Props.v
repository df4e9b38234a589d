(** Properties C36, C38, C39, C72-C78: moisture, salt, evaporation and runup. *)
From Verif Require Import Base Moist_Model Moist_Spec Moist_Proofs Moist_Runup Moist_Cases Moist_More.
From Coq Require Import Reals.
Open Scope R_scope.

(** With the infiltration method the moisture is between zero and the porosity after every update, whatever it was before, and equal to the porosity where the bed is under water. *)
Theorem C36_infiltration_range : forall sw p t0 fuel file dt c c', process_moist sw = true -> moist_method sw = Infiltration -> 0 <= porosity p ->
  update sw p t0 fuel file dt c = Ok (Some c') -> 0 <= moist c' <= porosity p /\ (eps p < TWL c - zb c -> moist c' = porosity p).
Proof. exact c36_infiltration. Qed.
Print Assumptions C36_infiltration_range.
Example C36_infiltration_range_case : exists c', update infiltration_on default_soil false 0 None 5400 (some_cell (2 / 10) 0 1) = Ok (Some c') /\ moist c' = 1 / 10.
Proof. exact case_infiltration. Qed.

(** With the surface moisture method it is between the residual and the satiated content, and satiated where the bed is under water. *)
Theorem C36_surface_range : forall sw p t0 fuel file dt c c', process_moist sw = true -> moist_method sw = SurfMoisture -> resw p <= satd p ->
  update sw p t0 fuel file dt c = Ok (Some c') -> resw p <= moist c' <= satd p /\ (zb c < TWL c -> moist c' = satd p).
Proof. exact c36_surface. Qed.
Print Assumptions C36_surface_range.
Example C36_surface_range_case : exists c', update (surface_on false true) default_soil false 0 (Some fair) 3600 (some_cell (1 / 10) 2 1) = Ok (Some c') /\ moist c' = 5 / 10 /\ salt c' = 1.
Proof. exact case_surface. Qed.

(** The default satiated content is above the default porosity: the pores hold more water than fits. *)
Theorem C77_porosity_refuted : exists sw file dt c c', update sw default_soil false 0 file dt c = Ok (Some c') /\ porosity default_soil < moist c'.
Proof. exact c36_porosity. Qed.
Print Assumptions C77_porosity_refuted.

(** The moisture from the retention curves lies between the main wetting and the main drying curve, for every stored history. *)
Theorem C38_between_main_curves : forall sw p t0 fuel file dt c c', process_moist sw = true -> moist_method sw = SurfMoisture ->
  update sw p t0 fuel file dt c = Ok (Some c') -> lies_between (wet_curve p (head c)) (dry_curve p (head c)) (moist_swr c').
Proof. exact c38_between. Qed.
Print Assumptions C38_between_main_curves.
Example C38_between_main_curves_case : exists c', update (surface_on false true) default_soil false 0 (Some fair) 3600 (some_cell (1 / 10) 2 1) = Ok (Some c') /\ moist c' = 5 / 10 /\ salt c' = 1.
Proof. exact case_surface. Qed.

(** A cell is never on both scanning curves. *)
Theorem C38_one_scanning_curve : forall sw p fuel file dt c c', process_moist sw = true -> moist_method sw = SurfMoisture -> process_scanning sw = true ->
  update sw p false fuel file dt c = Ok (Some c') -> ~ (scan_w c' = true /\ scan_d c' = true).
Proof. exact c38_flags. Qed.
Print Assumptions C38_one_scanning_curve.
Example C38_one_scanning_curve_case : sound_curves default_soil /\ resd default_soil <= resw default_soil /\ consistent default_soil rising_cell /\ resuming rising_cell.
Proof. exact case_ends. Qed.

(** The wetting curve is not above the drying curve for equal shape parameters. *)
Theorem C78_curves_ordered : forall p h, sound_curves p -> nw p = nd p -> mw p = md p -> resw p <= resd p -> satw p <= satd p -> Rabs (alfad p) <= Rabs (alfaw p) ->
  wet_curve p h <= dry_curve p h.
Proof. exact c38_order. Qed.
Print Assumptions C78_curves_ordered.
Example C78_curves_ordered_case : sound_curves matched_soil /\ nw matched_soil = nd matched_soil /\ mw matched_soil = md matched_soil /\ Rabs (alfad matched_soil) <= Rabs (alfaw matched_soil)
  /\ wet_curve matched_soil 100 < dry_curve matched_soil 100.
Proof. exact case_order. Qed.

(** With the default parameters the main curves cross. *)
Theorem C78_curves_cross_refuted : exists h, 0 < h /\ dry_curve default_soil h < wet_curve default_soil h.
Proof. exact c38_crossing. Qed.
Print Assumptions C78_curves_cross_refuted.

(** Set-up, swash and runup of a scalar wave are not negative. *)
Theorem C39_scalar_nonneg : forall H T b, 0 <= setup_of (runup_scalar H T b) /\ 0 <= swash_of (runup_scalar H T b) /\ 0 <= runup_of (runup_scalar H T b).
Proof. exact scalar_nonneg. Qed.
Print Assumptions C39_scalar_nonneg.
Example C39_scalar_nonneg_case : iribarren (wavelength 1 / (4 * 4)) (wavelength 1) (1 / 10) = 4 / 10 /\ runup_array (wavelength 1 / (4 * 4)) 1 (1 / 10) = runup_scalar (wavelength 1 / (4 * 4)) 1 (1 / 10)
  /\ 0 < runup_of (runup_scalar (wavelength 1 / (4 * 4)) 1 (1 / 10)).
Proof. exact case_runup. Qed.

(** Nor are those of an array of waves, for a beach that does not slope down. *)
Theorem C39_array_nonneg : forall H T b, 0 <= b -> 0 <= setup_of (runup_array H T b) /\ 0 <= swash_of (runup_array H T b) /\ 0 <= runup_of (runup_array H T b).
Proof. exact array_nonneg. Qed.
Print Assumptions C39_array_nonneg.
Example C39_array_nonneg_case : iribarren (wavelength 1 / (4 * 4)) (wavelength 1) (1 / 10) = 4 / 10 /\ runup_array (wavelength 1 / (4 * 4)) 1 (1 / 10) = runup_scalar (wavelength 1 / (4 * 4)) 1 (1 / 10)
  /\ 0 < runup_of (runup_scalar (wavelength 1 / (4 * 4)) 1 (1 / 10)).
Proof. exact case_runup. Qed.

(** Without waves there is none. *)
Theorem C39_no_waves : forall T b H, H <= 0 -> runup_scalar H T b = (0, 0, 0) /\ runup_array H T b = (0, 0, 0).
Proof. exact no_waves. Qed.
Print Assumptions C39_no_waves.

(** Scalar and array computation agree on sloping beaches, except on the limit between the two regimes. *)
Theorem C39_scalar_array : forall H T b, 0 <= T -> 0 < b -> iribarren H (wavelength T) b <> 3 / 10 -> runup_array H T b = runup_scalar H T b.
Proof. exact scalar_array. Qed.
Print Assumptions C39_scalar_array.
Example C39_scalar_array_case : iribarren (wavelength 1 / (4 * 4)) (wavelength 1) (1 / 10) = 4 / 10 /\ runup_array (wavelength 1 / (4 * 4)) 1 (1 / 10) = runup_scalar (wavelength 1 / (4 * 4)) 1 (1 / 10)
  /\ 0 < runup_of (runup_scalar (wavelength 1 / (4 * 4)) 1 (1 / 10)).
Proof. exact case_runup. Qed.

(** On the limit the array computation gives zero. *)
Theorem C39_regime_limit_refuted : exists H T b, 0 < H /\ 0 < T /\ 0 < b /\ runup_of (runup_array H T b) = 0 /\ 0 < runup_of (runup_scalar H T b).
Proof. exact c39_limit. Qed.
Print Assumptions C39_regime_limit_refuted.

(** On a flat beach only the array computation gives runup. *)
Theorem C39_flat_beach_refuted : exists H T, 0 < H /\ 0 < T /\ runup_of (runup_scalar H T 0) = 0 /\ 0 < runup_of (runup_array H T 0).
Proof. exact c39_flat. Qed.
Print Assumptions C39_flat_beach_refuted.

(** With infiltration, two time steps dry a cell exactly as much as one of their joint length, and a drying time halves the moisture. *)
Theorem C72_drying_composes : forall sw p t0 t1 fuel f1 f2 a b c c1 c2, process_moist sw = true -> moist_method sw = Infiltration -> 0 < Tdry p -> 0 <= a -> 0 <= b -> dry p c -> 0 <= moist c <= porosity p ->
  update sw p t0 fuel f1 a c = Ok (Some c1) -> update sw p t1 fuel f2 b c1 = Ok (Some c2) ->
  update sw p t0 fuel f1 (a + b) c = Ok (Some c2) /\ (a + b = Tdry p -> moist c2 = moist c / 2).
Proof. exact c72_split. Qed.
Print Assumptions C72_drying_composes.
Example C72_drying_composes_case : exists c', update infiltration_on default_soil false 0 None 5400 (some_cell (2 / 10) 0 1) = Ok (Some c') /\ moist c' = 1 / 10.
Proof. exact case_infiltration. Qed.

(** Drainage in the surface moisture method composes too, halves the excess over field capacity in a drying time, and stops there. *)
Theorem C72_drainage_composes : forall p a b m, 0 < Tdry p -> 0 <= a -> 0 <= b ->
  drain p b (drain p a m) = drain p (a + b) m /\ (fc p <= m -> drain p (Tdry p) m - fc p = (m - fc p) / 2) /\ (m <= fc p -> drain p a m = m).
Proof. exact c72_drain. Qed.
Print Assumptions C72_drainage_composes.
Example C72_drainage_composes_case : drain default_soil 5400 (31 / 100) = 21 / 100.
Proof. exact case_drain. Qed.

(** Where wetting turns into drying the drying scanning curve starts at the moisture reached, for positive alfaw. *)
Theorem C73_continuous : forall p fuel c, 0 < alfaw p -> 0 < nw p -> 0 < mw p -> w_h c < d_h c -> 1 / 10000 <= satd p - w_h c -> reversing c ->
  resw p + 1 / 100000 <= (scan_w_moist c - w_h c) * (satd p - w_h c) / (d_h c - w_h c) + w_h c <= satw p ->
  exists h, hdelta p fuel c = Some h /\ scan_d_raw p (w_h c) (d_h c) (wet_curve p h) = scan_w_moist c.
Proof. exact c73_continuous. Qed.
Print Assumptions C73_continuous.
Example C73_continuous_case : 0 < alfaw matched_soil /\ reversing turning_cell /\
  resw matched_soil + 1 / 100000 <= (scan_w_moist turning_cell - w_h turning_cell) * (satd matched_soil - w_h turning_cell) / (d_h turning_cell - w_h turning_cell) + w_h turning_cell <= satw matched_soil.
Proof. exact case_continuous. Qed.

(** For negative alfaw, as in the default parameters, the height at reversal is always zero. *)
Theorem C73_reversal_height_zero : forall p fuel c, alfaw p < 0 -> reversing c -> hdelta p fuel c = Some 0.
Proof. exact c73_negative. Qed.
Print Assumptions C73_reversal_height_zero.
Example C73_reversal_height_zero_case : alfaw default_soil < 0 /\ reversing turning_cell.
Proof. exact case_negative. Qed.

(** With the default parameters the moisture jumps by more than 0.1 where wetting turns into drying. *)
Theorem C73_jump_refuted : exists c h, reversing c /\ w_h c < d_h c /\ hdelta default_soil 0 c = Some h /\ scan_w_moist c + 1 / 10 < limited (w_h c) (d_h c) (scan_d_raw default_soil (w_h c) (d_h c) (wet_curve default_soil h)).
Proof. exact c73_jump. Qed.
Print Assumptions C73_jump_refuted.

(** Where drying turns into wetting, the height found is the first multiple of 0.01 at which the wetting scanning curve is within 0.01 of the moisture reached. *)
Theorem C73_search_sound : forall p fuel c h, resuming c -> hdelta p fuel c = Some h ->
  exists k, (1 <= k)%nat /\ h = tried k /\ scan_w_raw p (w_h c) (d_h c) (wet_curve p h) (dry_curve p h) <= scan_d_moist c + 1 / 100 /\
    forall i, (1 <= i < k)%nat -> scan_d_moist c + 1 / 100 < scan_w_raw p (w_h c) (d_h c) (wet_curve p (tried i)) (dry_curve p (tried i)).
Proof. exact c73_search. Qed.
Print Assumptions C73_search_sound.
Example C73_search_sound_case : sound_curves default_soil /\ resd default_soil <= resw default_soil /\ consistent default_soil rising_cell /\ resuming rising_cell.
Proof. exact case_ends. Qed.

(** The search ends, and leaves a consistent cell, if the residual content of drying is not above that of wetting. *)
Theorem C73_search_ends : forall p c, sound_curves p -> resd p <= resw p -> consistent p c -> exists fuel c', capillary p true false fuel c = Some c' /\ consistent p c'.
Proof. exact c73_ends. Qed.
Print Assumptions C73_search_ends.
Example C73_search_ends_case : sound_curves default_soil /\ resd default_soil <= resw default_soil /\ consistent default_soil rising_cell /\ resuming rising_cell.
Proof. exact case_ends. Qed.

(** Otherwise it may never end. *)
Theorem C73_endless_search_refuted : exists p c, sound_curves p /\ consistent p c /\ forall fuel, capillary p true false fuel c = None.
Proof. exact c73_endless. Qed.
Print Assumptions C73_endless_search_refuted.

(** Higher waves run up higher within each regime. *)
Theorem C74_higher_waves : forall H1 H2 T b, 0 < H1 -> H1 <= H2 -> 0 < T -> 0 < b ->
  iribarren H1 (wavelength T) b < 3 / 10 \/ 3 / 10 <= iribarren H2 (wavelength T) b ->
  runup_of (runup_scalar H1 T b) <= runup_of (runup_scalar H2 T b).
Proof. exact runup_mono. Qed.
Print Assumptions C74_higher_waves.
Example C74_higher_waves_case : runup_of (runup_scalar (wavelength 1 / (5 * 5)) 1 (1 / 10)) < runup_of (runup_scalar (wavelength 1 / (4 * 4)) 1 (1 / 10))
  /\ 3 / 10 <= iribarren (wavelength 1 / (4 * 4)) (wavelength 1) (1 / 10).
Proof. exact case_mono. Qed.

(** Across the limit runup drops by a third. *)
Theorem C74_height_refuted : exists H1 H2 T b, 0 < H1 < H2 /\ 0 < T /\ b = 1 / 10 /\ runup_of (runup_scalar H2 T b) < 2 / 3 * runup_of (runup_scalar H1 T b).
Proof. exact c74_height. Qed.
Print Assumptions C74_height_refuted.

(** Longer waves of the same height run up a quarter less. *)
Theorem C74_period_refuted : exists H T1 T2 b, 0 < H /\ 0 < T1 < T2 /\ b = 2 / 100 /\ runup_of (runup_scalar H T2 b) < 3 / 4 * runup_of (runup_scalar H T1 b).
Proof. exact c74_period. Qed.
Print Assumptions C74_period_refuted.

(** The salt factor stays between zero and one, is one under water, and decays in dry weather. *)
Theorem C75_salt : forall sw p t0 fuel w dt c c', process_moist sw = true -> moist_method sw = SurfMoisture -> process_salt sw = true ->
  0 <= rain w -> 0 <= dt -> 0 < salt_thick p -> 0 < Tsalt p -> 0 <= salt c <= 1 ->
  update sw p t0 fuel (Some w) dt c = Ok (Some c') ->
  0 <= salt c' <= 1 /\ (zb c < TWL c -> salt c' = 1) /\ (TWL c <= zb c -> rain w = 0 -> salt c' = salt c * decay (Tsalt p) dt).
Proof. exact c75_salt. Qed.
Print Assumptions C75_salt.
Example C75_salt_case : exists c', update (surface_on false true) default_soil false 0 (Some fair) 2592000 (some_cell (1 / 10) 0 1) = Ok (Some c') /\ salt c' = 1 / 4.
Proof. exact case_salt. Qed.

(** More rain never gives a smaller factor. *)
Theorem C75_rain : forall p w w' dt ix s, rain w <= rain w' -> 0 <= dt -> 0 < salt_thick p -> salt_update p w dt ix s <= salt_update p w' dt ix s.
Proof. exact salt_rain. Qed.
Print Assumptions C75_rain.
Example C75_rain_case : rain fair < 1 /\ 0 < salt_thick default_soil.
Proof. exact case_rain. Qed.

(** Evaporation is not negative and grows with the wind. *)
Theorem C76_evaporation : forall p w u v, ordinary w -> 0 < cpair p -> 2 < z p -> 0 <= u -> u <= v -> 0 <= evaporation p w u <= evaporation p w v.
Proof. exact c76_evaporation. Qed.
Print Assumptions C76_evaporation.
Example C76_evaporation_case : ordinary fair /\ 0 < cpair default_soil /\ 2 < z default_soil.
Proof. exact case_evaporation. Qed.

(** With a wind gauge below two metres it is negative. *)
Theorem C76_low_gauge_refuted : exists p w u, ordinary w /\ 0 < cpair p /\ 0 < z p /\ 0 <= u /\ evaporation p w u < 0.
Proof. exact c76_low. Qed.
Print Assumptions C76_low_gauge_refuted.

(** Without salt, every cell can be updated with infiltration or without moisture. *)
Theorem C77_infiltration_runs : forall sw p t0 fuel file dt c, process_salt sw = false -> process_moist sw = false \/ moist_method sw = Infiltration ->
  exists c', update sw p t0 fuel file dt c = Ok (Some c').
Proof. exact c77_runs. Qed.
Print Assumptions C77_infiltration_runs.
Example C77_infiltration_runs_case : exists c', update infiltration_on default_soil false 0 None 5400 (some_cell (2 / 10) 0 1) = Ok (Some c') /\ moist c' = 1 / 10.
Proof. exact case_infiltration. Qed.

(** With a meteo file and consistent curves the surface moisture method runs, with or without salt. *)
Theorem C77_surface_runs : forall sw p t0 w dt c, process_moist sw = true -> moist_method sw = SurfMoisture -> groundwater_param sw <> None ->
  sound_curves p -> resd p <= resw p -> consistent p c -> exists fuel c', update sw p t0 fuel (Some w) dt c = Ok (Some c').
Proof. exact c77_surface_runs. Qed.
Print Assumptions C77_surface_runs.
Example C77_surface_runs_case : process_moist (surface_on true true) = true /\ moist_method (surface_on true true) = SurfMoisture /\ groundwater_param (surface_on true true) <> None /\
  sound_curves default_soil /\ resd default_soil <= resw default_soil /\ consistent default_soil rising_cell.
Proof. exact case_surface_runs. Qed.

(** Unknown methods are rejected. *)
Theorem C77_unknown_method : forall sw p t0 fuel file dt c, process_moist sw = true -> moist_method sw = OtherMethod -> update sw p t0 fuel file dt c = Raise ValueError.
Proof. exact c77_unknown. Qed.
Print Assumptions C77_unknown_method.
Example C77_unknown_method_case : exists sw, process_moist sw = true /\ moist_method sw = OtherMethod.
Proof. exact case_unknown. Qed.

(** Salt without the surface moisture method always fails. *)
Theorem C77_salt_raises : forall sw p t0 fuel file dt c, process_salt sw = true -> process_moist sw = false \/ moist_method sw = Infiltration -> update sw p t0 fuel file dt c = Raise KeyError.
Proof. exact c77_salt. Qed.
Print Assumptions C77_salt_raises.
Example C77_salt_raises_case : exists sw, process_salt sw = true /\ process_moist sw = true /\ moist_method sw = Infiltration.
Proof. exact case_salt_raises. Qed.

(** The check that the method needs groundwater does not work: it is accepted without. *)
Theorem C77_no_groundwater_refuted : exists sw p file c c', groundwater_param sw = Some false /\ moist_method sw = SurfMoisture /\ update sw p false 0 file 3600 c = Ok (Some c').
Proof. exact c77_groundwater. Qed.
Print Assumptions C77_no_groundwater_refuted.

(** C38. With the groundwater at or above the bed the moisture lies between the two satiated contents. *)
Theorem C38_waterlogged : forall sw p t0 fuel file dt c c', process_moist sw = true -> moist_method sw = SurfMoisture -> zb c <= gw c ->
  update sw p t0 fuel file dt c = Ok (Some c') -> lies_between (satw p) (satd p) (moist_swr c').
Proof. exact c38_waterlogged. Qed.
Print Assumptions C38_waterlogged.
Example C38_waterlogged_case : zb wet_cell <= gw wet_cell /\ satw default_soil < satd default_soil /\ exists c', update (surface_on false true) default_soil false 0 (Some fair) 3600 wet_cell = Ok (Some c').
Proof. exact c38_waterlogged_case. Qed.

(** C73. As long as the groundwater goes on in the direction it had, the stored reversal height stays. *)
Theorem C73_kept : forall p fuel c, (wetting c = true -> gw_prev c <= gw c) -> (wetting c = false -> gw c <= gw_prev c) -> hdelta p fuel c = Some (h_delta c).
Proof. exact c73_kept. Qed.
Print Assumptions C73_kept.
Example C73_kept_case : wetting (some_cell (1 / 10) 0 1) = false /\ gw (some_cell (1 / 10) 0 1) <= gw_prev (some_cell (1 / 10) 0 1) /\ wetting wet_cell = false /\ scan_d wet_cell = false /\ gw_prev wet_cell < gw wet_cell.
Proof. exact c73_kept_case. Qed.

(** Where it turns for the first time, this is the height of the bed over the groundwater in cm. *)
Theorem C73_first : forall p fuel c, (wetting c = true /\ scan_w c = false /\ gw c < gw_prev c) \/ (wetting c = false /\ scan_d c = false /\ gw_prev c < gw c) -> gw c <= zb c ->
  hdelta p fuel c = Some (100 * (zb c - gw c)).
Proof. exact c73_first. Qed.
Print Assumptions C73_first.
Example C73_first_case : wetting deep_cell = false /\ scan_d deep_cell = false /\ gw_prev deep_cell < gw deep_cell /\ gw deep_cell <= zb deep_cell.
Proof. exact c73_first_case. Qed.

(** C76. Without rain a cell that is not under water gets no wetter than it was, unless by capillary rise. *)
Theorem C76_dries : forall sw p t0 fuel w dt c c', process_moist sw = true -> moist_method sw = SurfMoisture -> ordinary w -> rain w = 0 -> 0 < cpair p -> 2 < z p -> 0 <= uw c -> 0 < thick p -> 0 <= dt ->
  TWL c <= zb c -> resw p <= moist c -> update sw p t0 fuel (Some w) dt c = Ok (Some c') -> moist c' <= Rmax (moist c) (moist_swr c').
Proof. exact c76_dries. Qed.
Print Assumptions C76_dries.
Example C76_dries_case : ordinary fair /\ rain fair = 0 /\ 0 < cpair default_soil /\ 2 < z default_soil /\ 0 < thick default_soil /\ TWL (some_cell (1 / 10) 0 1) <= zb (some_cell (1 / 10) 0 1) /\
  resw default_soil <= moist (some_cell (1 / 10) 0 1) /\ exists c', update (surface_on false true) default_soil false 0 (Some fair) 3600 (some_cell (1 / 10) 0 1) = Ok (Some c').
Proof. exact c76_dries_case. Qed.

(** C77. The surface moisture method without the groundwater parameter is rejected. *)
Theorem C77_no_parameter : forall sw p t0 fuel file dt c, process_moist sw = true -> moist_method sw = SurfMoisture -> groundwater_param sw = None -> update sw p t0 fuel file dt c = Raise ValueError.
Proof. exact c77_no_parameter. Qed.
Print Assumptions C77_no_parameter.
Example C77_no_parameter_case : exists sw, process_moist sw = true /\ moist_method sw = SurfMoisture /\ groundwater_param sw = None.
Proof. exact c77_no_parameter_case. Qed.
