(** Properties C35, C37, C66-C70: water levels, waves and groundwater. *)
From Coq Require Import QArith ZArith.
From Verif Require Import Base Num Utils_Spec Hydro_Model Hydro_Spec Hydro_Proofs Hydro_Shore Hydro_Cases.
Open Scope Q_scope.

(** The water level is the higher of the still water level and the bed, the bed is unchanged, and the still water level stays within the range of the tide. *)
Theorem C35_water_level_not_below_bed : forall h t row, map zb (interpolate h t row) = map zb row /\ forall c, In c (interpolate h t row) ->
  zb c <= zs c /\ SWL c <= zs c /\ (zs c == zb c \/ zs c == SWL c) /\
  forall s lo hi, process_tide h = true -> tide_file h = Some s -> Utils_Spec.series (fst s :: snd s) -> values_within lo hi s -> unmasked (tide_mask c) -> lo <= SWL c <= hi.
Proof. exact water_level. Qed.
Print Assumptions C35_water_level_not_below_bed.
Example C35_water_level_not_below_bed_case : Forall2 (fun c x => SWL c == 1 /\ zs c == fst x /\ Hs c == snd x) (interpolate tidal 3600 [plain (-2) (1, 0); plain (-1) (1, 0); plain 2 (1, 0)]) [(1, 3 # 2); (1, 1); (2, 0)].
Proof. exact water_level_case. Qed.

(** Waves are limited by the depth, are not negative, and vanish on dry cells; the mixing height is limited by the depth at the total water level. *)
Theorem C35_waves_limited_by_depth : forall h t row c, 0 <= gamma h -> In c (interpolate h t row) -> unmasked (wave_mask c) ->
  Hs c <= gamma h * depth c /\ (proper_waves h -> 0 <= Hs c /\ (zs c <= zb c -> Hs c == 0)) /\
  (process_wave h = true -> wave_file h <> None -> Hsmix c <= gamma h * qmax 0 (TWL c - zb c)).
Proof. exact waves_limited. Qed.
Print Assumptions C35_waves_limited_by_depth.
Example C35_waves_limited_by_depth_case : proper_waves tidal /\ 0 <= gamma tidal /\ exists c, In c (interpolate tidal 3600 [plain (-2) (1, 0); plain (-1) (1, 0); plain 2 (1, 0)]) /\ unmasked (wave_mask c) /\ 0 < Hs c /\ Hs c == gamma tidal * depth c /\ TWL c == 29 # 20.
Proof. exact waves_limited_case. Qed.

(** With a wave mask the limit is exceeded: the mask is applied after it. *)
Theorem C35_wave_mask_refuted : exists h t row c, proper_waves h /\ 0 <= gamma h /\ In c (interpolate h t row) /\ gamma h * depth c < Hs c.
Proof. exact wave_mask_refuted. Qed.
Print Assumptions C35_wave_mask_refuted.

(** After an update with at least one sub-step the groundwater is not above the bed or the water, and equals the water level in wet cells. *)
Theorem C37_groundwater_bounded : forall g dt tfac rows lv gw prev n k m wet gw' prev', rows_shaped n rows -> length rows = k -> all_levels_shaped n k lv -> field_shaped n k gw -> gw_steps dt tfac = Ok (S m) ->
  groundwater g dt tfac rows lv gw prev = Ok (wet, gw', prev') -> field_shaped n k gw' /\
  forall i j r l w z s, nth_error rows i = Some r -> nth_error (lv m) i = Some l -> at_cell i j gw' w -> nth_error (gzb r) j = Some z -> nth_error (dswl l) j = Some s -> w <= qmax z s /\ (z < s -> w == s).
Proof. exact groundwater_bounded. Qed.
Print Assumptions C37_groundwater_bounded.
Example C37_groundwater_bounded_case : rows_shaped 9 [mk_row ones steep] /\ all_levels_shaped 9 1 (fun _ => [sea 1]) /\ field_shaped 9 1 [repeat 0 9] /\ gw_steps 1 1 = Ok 1%nat /\
  agree (groundwater (sand false 0) 1 1 [mk_row ones steep] (fun _ => [sea 1]) [repeat 0 9] [repeat 0 9]) [[1; 1; 6911 # 80000; 0; 0; 0; 0; 0; 0]].
Proof. exact groundwater_bounded_case. Qed.

(** The sub-steps cover the time step except for less than one sub-step. *)
Theorem C37_substeps_cover : forall dt tfac n, 0 < tfac -> tfac <= dt -> gw_steps dt tfac = Ok n ->
  let d := inject_Z (gw_timestep dt tfac) in 0 < d /\ inject_Z (Z.of_nat n) * d <= dt /\ dt < (inject_Z (Z.of_nat n) + 1) * d.
Proof. exact steps_cover. Qed.
Print Assumptions C37_substeps_cover.
Example C37_substeps_cover_case : 0 < 10 /\ 10 <= 60 /\ gw_steps 60 10 = Ok 10%nat.
Proof. exact steps_cover_case. Qed.
(** They need not cover it exactly ... *)
Theorem C37_time_lost_refuted : exists dt tfac n, 0 < tfac /\ tfac <= dt /\ gw_steps dt tfac = Ok n /\ ~ inject_Z (Z.of_nat n) * inject_Z (gw_timestep dt tfac) == dt.
Proof. exact time_lost_refuted. Qed.
Print Assumptions C37_time_lost_refuted.
(** ... and for a factor below one there may be no sub-step at all. *)
Theorem C37_no_substep_refuted : exists dt tfac, 0 < tfac /\ tfac <= dt /\ gw_steps dt tfac = Ok O.
Proof. exact no_step_refuted. Qed.
Print Assumptions C37_no_substep_refuted.
(** A time step shorter than the factor raises ZeroDivisionError. *)
Theorem C37_short_step_raises : forall g dt tfac rows lv gw prev, 0 <= dt -> dt < tfac -> groundwater g dt tfac rows lv gw prev = Raise ZeroDivisionError.
Proof. exact short_step. Qed.
Print Assumptions C37_short_step_raises.
Example C37_short_step_raises_case : 0 <= 5 /\ 5 < 10.
Proof. exact short_step_case. Qed.

(** When all transects have the same shoreline index, each evolves as it would alone. *)
Theorem C66_equal_shorelines_independent : forall g dt tfac rows lv gw prev n k m s wet gw' prev' q row w p, rows_shaped n rows -> length rows = k -> all_levels_shaped n k lv -> gw_steps dt tfac = Ok m ->
  (forall i r l c, nth_error rows c = Some r -> nth_error (lv i) c = Some l -> shoreline_at (s i) r l) ->
  groundwater g dt tfac rows lv gw prev = Ok (wet, gw', prev') -> nth_error rows q = Some row -> nth_error gw q = Some w -> exists wet1 x prev1, nth_error gw' q = Some x /\
    groundwater g dt tfac [row] (only_transect q lv) [w] p = Ok (wet1, [x], prev1).
Proof. exact transects_alone. Qed.
Print Assumptions C66_equal_shorelines_independent.
Example C66_equal_shorelines_independent_case : rows_shaped 9 [mk_row ones steep; mk_row ones steep] /\ (forall i r l c, nth_error [mk_row ones steep; mk_row ones steep] c = Some r -> nth_error (twins i) c = Some l -> shoreline_at 1 r l) /\
  agree (groundwater (sand false 0) 1 1 [mk_row ones steep; mk_row ones steep] twins [repeat 0 9; repeat 0 9] [repeat 0 9; repeat 0 9]) [[1; 1; 6911 # 80000; 0; 0; 0; 0; 0; 0]; [2; 2; 41130157 # 250000000; -25626629 # 3125000000; -58657 # 250000000; -289501 # 37500000000; 0; 0; 0]].
Proof. exact transects_alone_case. Qed.
(** In general a neighbouring transect changes the result: its shoreline index is used as a second boundary cell. *)
Theorem C66_transects_refuted : exists g dt tfac row other l l' w w' p wet gw' prev' wet1 x prev1, groundwater g dt tfac [row; other] (fun _ => [l; l']) [w; w'] [p; p] = Ok (wet, gw', prev') /\
  groundwater g dt tfac [row] (fun _ => [l]) [w] [p] = Ok (wet1, [x], prev1) /\ exists u v, at_cell 0 3 gw' u /\ nth_error x 3 = Some v /\ v == 0 /\ 3 # 4 < u.
Proof. exact transects_refuted. Qed.
Print Assumptions C66_transects_refuted.

(** Level groundwater in equilibrium with the sea and the landward boundary stays level on an even grid. *)
Theorem C67_equilibrium_kept : forall g h e dt tfac rows lv gw prev n k m, (4 <= n)%nat -> rows_shaped n rows -> length rows = k -> all_levels_shaped n k lv -> field_shaped n k gw -> gw_steps dt tfac = Ok m -> shorelines_inside rows lv m ->
  at_rest g h e rows lv -> Forall (level h) gw -> exists wet gw' prev', groundwater g dt tfac rows lv gw prev = Ok (wet, gw', prev') /\ Forall (level h) gw'.
Proof. exact rests. Qed.
Print Assumptions C67_equilibrium_kept.
Example C67_equilibrium_kept_case : at_rest (sand true 1) 1 1 [mk_row ones steep] (fun _ => [sea 1]) /\ shorelines_inside [mk_row ones steep] (fun _ => [sea 1]) 2 /\ Forall (level 1) [ones] /\ gw_steps 4 2 = Ok 2%nat.
Proof. exact rests_case. Qed.
(** Not where the cell size changes. *)
Theorem C67_uneven_grid_refuted : exists g h dt tfac row lv gw prev wet gw' prev', seepage g = false /\ waves g = false /\ static g = false /\ Forall unmasked (gmask row) /\ level h (dswl lv) /\ level h gw /\
  groundwater g dt tfac [row] (fun _ => [lv]) [gw] [prev] = Ok (wet, gw', prev') /\ exists v, at_cell 0 3 gw' v /\ v < (19 # 20) * h.
Proof. exact uneven_refuted. Qed.
Print Assumptions C67_uneven_grid_refuted.
(** And groundwater rises above everything that drives it. *)
Theorem C67_maximum_refuted : exists g dt tfac row lv gw prev wet gw' prev' top, seepage g = false /\ waves g = false /\ Forall unmasked (gmask row) /\ level 1 (gds row) /\
  (forall x, In x (dswl lv) -> x <= top) /\ (forall x, In x gw -> x <= top) /\ GW_stat g <= top /\
  groundwater g dt tfac [row] (fun _ => [lv]) [gw] [prev] = Ok (wet, gw', prev') /\ exists v, at_cell 0 2 gw' v /\ (3 # 2) * top < v.
Proof. exact mound_refuted. Qed.
Print Assumptions C67_maximum_refuted.

(** Away from the boundary cells the wetting flag of the next step says whether the groundwater rose in this one. *)
Theorem C68_wetting_flag : forall g dt tfac rows lv gw prev n k m wet gw' prev' g2 dt2 tfac2 rows2 lv2 wet2 gw2 prev2 i j w w' p b,
  rows_shaped n rows -> length rows = k -> all_levels_shaped n k lv -> field_shaped n k gw -> gw_steps dt tfac = Ok (S m) -> seepage g = false -> shorelines_inside rows lv (S m) ->
  groundwater g dt tfac rows lv gw prev = Ok (wet, gw', prev') -> groundwater g2 dt2 tfac2 rows2 lv2 gw' prev' = Ok (wet2, gw2, prev2) ->
  ~ boundary_cell n i j rows (lv O) -> at_cell i j gw w -> at_cell i j gw' w' -> at_cell i j prev' p -> at_cell i j wet2 b -> (b = true <-> w < w').
Proof. exact wetting_flag. Qed.
Print Assumptions C68_wetting_flag.
Example C68_wetting_flag_case : exists wet gw' prev' wet2 gw2 prev2, groundwater (sand false 0) 1 1 [mk_row ones steep] (fun _ => [sea 1]) [repeat 0 9] [repeat 0 9] = Ok (wet, gw', prev') /\
  groundwater (sand false 0) 1 1 [mk_row ones steep] (fun _ => [sea 1]) gw' prev' = Ok (wet2, gw2, prev2) /\ ~ boundary_cell 9 0 2 [mk_row ones steep] [sea 1] /\ at_cell 0 2 wet2 true /\
  exists v, at_cell 0 2 gw' v /\ 0 < v.
Proof. exact wetting_flag_case. Qed.
(** At the shoreline it does not: the stored levels are the array that the solver changes. *)
Theorem C68_wetting_refuted : exists g dt tfac rows lv gw prev wet gw' prev' wet2 gw2 prev2 j v, groundwater g dt tfac rows lv [gw] [prev] = Ok (wet, gw', prev') /\ groundwater g dt tfac rows lv gw' prev' = Ok (wet2, gw2, prev2) /\
  at_cell 0 j [gw] 0 /\ at_cell 0 j gw' v /\ 0 < v /\ at_cell 0 j wet2 false.
Proof. exact wetting_refuted. Qed.
Print Assumptions C68_wetting_refuted.

(** The update runs when every transect has a shoreline from its second cell on ... *)
Theorem C69_update_runs : forall g dt tfac rows lv gw prev n k m, rows_shaped n rows -> length rows = k -> all_levels_shaped n k lv -> field_shaped n k gw -> gw_steps dt tfac = Ok m -> shorelines_inside rows lv m ->
  exists wet gw' prev', groundwater g dt tfac rows lv gw prev = Ok (wet, gw', prev').
Proof. exact runs. Qed.
Print Assumptions C69_update_runs.
Example C69_update_runs_case : shorelines_inside [mk_row ones steep; mk_row ones flat] (fun _ => [sea 1; sea 1]) 3 /\ rows_shaped 9 [mk_row ones steep; mk_row ones flat].
Proof. exact runs_case. Qed.
(** ... and raises ValueError when a transect is submerged, or its first or second cell is dry. *)
Theorem C69_flooded_or_dry_raises : forall g dt tfac rows lv gw prev n k m i row l, (4 <= n)%nat -> rows_shaped n rows -> length rows = k -> all_levels_shaped n k lv -> field_shaped n k gw -> gw_steps dt tfac = Ok (S m) ->
  nth_error rows i = Some row -> nth_error (lv O) i = Some l -> submerged row l \/ dry_at 0 row l \/ dry_at 1 row l -> groundwater g dt tfac rows lv gw prev = Raise ValueError.
Proof. exact tide_raises. Qed.
Print Assumptions C69_flooded_or_dry_raises.
Example C69_flooded_or_dry_raises_case : dry_at 1 (mk_row ones steep) (sea (-(3 # 2))) /\ submerged (mk_row ones steep) (sea 11).
Proof. exact tide_raises_case. Qed.

(** On an even grid the infiltration distribution is between 0 and 1, and zero outside the swash zone, when the runup ends on the grid. *)
Theorem C70_distribution_in_range : forall d x s r f, 0 < d -> even_spacing d x -> (0 <= s <= r)%Z -> (r < Z.of_nat (length x))%Z -> overheight s r x = Ok f ->
  forall j v, nth_error f j = Some v -> 0 <= v <= 1 /\ ((Z.of_nat j < s)%Z \/ (r < Z.of_nat j)%Z -> v == 0).
Proof. exact overheight_range. Qed.
Print Assumptions C70_distribution_in_range.
Example C70_distribution_in_range_case : even_spacing 1 (gx (mk_row ones steep)) /\ exists f, overheight 1 7 (gx (mk_row ones steep)) = Ok f /\ same_list f [0; 0; 1 # 4; 1 # 2; 3 # 4; 1; 1 # 2; 0; 0].
Proof. exact overheight_case. Qed.
(** When the runup overtops the profile a single sub-step raises the groundwater by more than Cl_gw. *)
Theorem C70_overtopping_refuted : exists g dt tfac row lv gw prev wet gw' prev', even_spacing 1 (gx row) /\ waves g = true /\ K_gw g == 0 /\ Forall unmasked (gmask row) /\ gw_steps dt tfac = Ok 1%nat /\
  groundwater g dt tfac [row] (fun _ => [lv]) [gw] [prev] = Ok (wet, gw', prev') /\ exists j w w', at_cell 0 j [gw] w /\ at_cell 0 j gw' w' /\ w + Cl_gw g < w'.
Proof. exact overtopping_refuted. Qed.
Print Assumptions C70_overtopping_refuted.
(** And the overheight is added again in every sub-step. *)
Theorem C70_every_substep_refuted : exists g dt tfac row lv gw prev wet gw' prev', even_spacing 1 (gx row) /\ waves g = true /\ K_gw g == 0 /\ Forall unmasked (gmask row) /\
  (exists j, shoreline_at j row lv) /\ (exists j z s, nth_error (gzb row) j = Some z /\ nth_error (twl lv) j = Some s /\ s < z) /\
  groundwater g dt tfac [row] (fun _ => [lv]) [gw] [prev] = Ok (wet, gw', prev') /\ exists j w w', at_cell 0 j [gw] w /\ at_cell 0 j gw' w' /\ w + 2 * Cl_gw g < w'.
Proof. exact every_substep_refuted. Qed.
Print Assumptions C70_every_substep_refuted.

(** With runup switched on the water levels that decide about flooding are not below the tide. *)
Theorem C71_tide_floods : forall h t row c, process_runup h = true -> runup_nonneg h -> In c (interpolate h t row) -> unmasked (runup_mask c) -> SWL c <= DSWL c /\ SWL c <= TWL c.
Proof. exact tide_floods. Qed.
Print Assumptions C71_tide_floods.
Example C71_tide_floods_case : process_runup tidal = true /\ runup_nonneg tidal /\ exists c, In c (interpolate tidal 3600 [plain (-2) (1, 0); plain (1 # 2) (1, 0)]) /\ unmasked (runup_mask c) /\ zb c == 1 # 2 /\ SWL c == 1 /\ 1 < TWL c.
Proof. exact tide_floods_case. Qed.

(** Without runup (the default) they never change, whatever the tide. *)
Theorem C71_fixed_without_runup : forall h t row, process_runup h = false -> map TWL (interpolate h t row) = map TWL row /\ map DSWL (interpolate h t row) = map DSWL row.
Proof. exact without_runup. Qed.
Print Assumptions C71_fixed_without_runup.
Example C71_fixed_without_runup_case : process_runup tide_only = false /\ process_tide tide_only = true.
Proof. exact (conj eq_refl eq_refl). Qed.

(** A cell half a metre under the tide counts as dry, and one half a metre above a low tide as flooded. *)
Theorem C71_tide_without_runup_refuted : exists h t row c, process_tide h = true /\ In c (interpolate h t row) /\ SWL c == zb c + (1 # 2) /\ TWL c < zb c /\ DSWL c < zb c.
Proof. exact tide_refuted. Qed.
Print Assumptions C71_tide_without_runup_refuted.
Theorem C71_ebb_without_runup_refuted : exists h t row c, process_tide h = true /\ In c (interpolate h t row) /\ SWL c == zb c - (1 # 2) /\ zb c < TWL c.
Proof. exact ebb_refuted. Qed.
Print Assumptions C71_ebb_without_runup_refuted.
