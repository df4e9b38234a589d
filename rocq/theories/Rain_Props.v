(** Rain, evaporation and runup against their documentation: properties C182-C184 and C187. *)
From Verif Require Import Base Moist_Model Moist_Spec Moist_Cases Rain_Spec Rain_Proofs Rain_Cases.
From Coq Require Import Reals.
Open Scope R_scope.

(** C182: as long as no limit is reached and the groundwater does not feed the layer, the water in the surface layer grows by the millimetres of rain minus the millimetres evaporated. *)
Theorem C182_water : forall sw p t0 fuel w dt c c', process_moist sw = true -> moist_method sw = SurfMoisture -> 0 < Tdry p -> 0 < thick p -> 0 <= dt ->
  TWL c <= zb c -> moist c <= fc p -> update sw p t0 fuel (Some w) dt c = Ok (Some c') ->
  resw p < moist c' < satd p -> moist_swr c' < moist c' ->
  water_mm p c' = water_mm p c + rained_mm (rain w) dt - evaporated_mm (evaporation p w (uw c)) dt.
Proof. exact water_balance. Qed.
Print Assumptions C182_water.
Example C182_water_case : exists c', let c := some_cell (1 / 10) 0 1 in
  update (surface_on false false) plain_soil false 0 (Some drizzle) 3600 c = Ok (Some c') /\ TWL c <= zb c /\ moist c <= fc plain_soil /\
  resw plain_soil < moist c' < satd plain_soil /\ moist_swr c' < moist c' /\ water_mm plain_soil c' = water_mm plain_soil c + 1.
Proof. exact c182_case. Qed.

(** C183, the slope of the saturation pressure used for the evaporation is the derivative of the saturation pressure, up to 1/20000 of it. *)
Theorem C183_slope : forall T, - (2373 / 10) < T -> exists d, derivable_pt_lim saturation_pressure T d /\ 0 < d /\ Rabs (vaporation_pressure_slope T - d) <= d / 20000.
Proof. exact slope_is_slope. Qed.
Print Assumptions C183_slope.
Example C183_slope_case : - (2373 / 10) < 20 /\ saturation_pressure 0 = 6108 / 10000.
Proof. exact c183_slope_case. Qed.

(** C183 in still air: the evaporation is the documented one.  Full statement: at every wind speed; false, see C183_wind_refuted. *)
Theorem C183_windless_partial : forall p w, evaporation p w 0 = documented_evaporation p w 0.
Proof. exact windless. Qed.
Print Assumptions C183_windless_partial.
Example C183_windless_partial_case : 0 < evaporation default_soil fair 0.
Proof. exact c183_windless_case. Qed.

(** C183 in any wind and unsaturated air: more evaporates than documented. *)
Theorem C183_excess : forall p w u, ordinary w -> hum w < 100 -> 0 < cpair p -> 2 < z p -> 0 < u -> documented_evaporation p w u < evaporation p w u.
Proof. exact excess. Qed.
Print Assumptions C183_excess.
Example C183_excess_case : ordinary fair /\ hum fair < 100 /\ 0 < cpair default_soil /\ 2 < z default_soil.
Proof. exact c183_excess_case. Qed.

(** C183 is false: at night with a wind of 20 m/s a third more evaporates than documented (the wind counts 0.86 times in place of 0.536 times). *)
Theorem C183_wind_refuted : exists p w u, p = default_soil /\ ordinary w /\ 0 < cpair p /\ 2 < z p /\ u = 20 /\ 4 / 3 * documented_evaporation p w u < evaporation p w u.
Proof. exact c183_refuted. Qed.
Print Assumptions C183_wind_refuted.

(** C184 on dissipative beaches: runup and set-up are the documented ones, with the wave length of deep water, for numbers and for arrays. *)
Theorem C184_dissipative : forall H T b L, 0 < H -> 0 < T -> 0 < b -> deep_water L T -> surf_similarity H L b < 3 / 10 ->
  runup_of (runup_scalar H T b) = doc_runup_dissipative H L /\ setup_of (runup_scalar H T b) = doc_setup_dissipative H L /\ runup_array H T b = runup_scalar H T b.
Proof. exact doc_dissipative. Qed.
Print Assumptions C184_dissipative.
Example C184_dissipative_case : exists H L, 0 < H /\ deep_water L 1 /\ surf_similarity H L (1 / 20) < 3 / 10.
Proof. exact c184_dissipative_case. Qed.

(** C184 on all other beaches: the runup is lower than documented; the set-up is that of Stockdon et al. (2006). *)
Theorem C184_reflective_low : forall H T b L, 0 < H -> 0 < T -> 0 < b -> deep_water L T -> 3 / 10 < surf_similarity H L b ->
  runup_of (runup_scalar H T b) < doc_runup H L b /\ setup_of (runup_scalar H T b) = 35 / 100 * b * sqrt (H * L) /\ runup_array H T b = runup_scalar H T b.
Proof. exact doc_reflective. Qed.
Print Assumptions C184_reflective_low.
Example C184_reflective_low_case : exists H L, 0 < H /\ deep_water L 1 /\ 3 / 10 < surf_similarity H L (1 / 20).
Proof. exact c184_reflective_case. Qed.

(** C184 is false: on a beach of slope 1:20 the runup is less than three quarters of the documented one (0.0004 in place of 0.004). *)
Theorem C184_runup_refuted : exists H T b L, 0 < H /\ 0 < T /\ b = 1 / 20 /\ deep_water L T /\ 3 / 10 < surf_similarity H L b /\
  runup_of (runup_scalar H T b) < 3 / 4 * doc_runup H L b.
Proof. exact c184_refuted. Qed.
Print Assumptions C184_runup_refuted.

(** C184 is false of the set-up as documented (0.35 times the Iribarren number, not a length): here less than a tenth of it. *)
Theorem C184_setup_refuted : exists H T b L, 0 < H /\ 0 < T /\ b = 1 / 20 /\ deep_water L T /\ 3 / 10 < surf_similarity H L b /\
  setup_of (runup_scalar H T b) < 1 / 10 * doc_setup H L b.
Proof. exact c184_setup_refuted. Qed.
Print Assumptions C184_setup_refuted.

(** C187 without evaporation: the moisture of a bed without groundwater is the documented one.  Full statement: with any evaporation, and with water of any depth above the bed; false, see C187_evaporation_refuted. *)
Theorem C187_drying_partial : forall sw p t0 fuel file dt c c', process_moist sw = true -> moist_method sw = Infiltration -> process_salt sw = false -> 0 < Tdry p -> 0 <= eps p -> 0 <= dt -> 0 <= moist c <= porosity p ->
  TWL c <= zb c \/ eps p < TWL c - zb c -> update sw p t0 fuel file dt c = Ok (Some c') -> moist c' = documented_drying p 0 dt c.
Proof. exact drying_documented. Qed.
Print Assumptions C187_drying_partial.
Example C187_drying_partial_case : exists c', let c := some_cell (2 / 10) 0 1 in update infiltration_on default_soil false 0 None 5400 c = Ok (Some c') /\ TWL c <= zb c /\ 0 <= moist c <= porosity default_soil /\ moist c' = 1 / 10.
Proof. exact c187_case. Qed.

(** C187 is false: with weather in which water evaporates, the bed stays wetter than documented. *)
Theorem C187_evaporation_refuted : exists w c c', ordinary w /\ 0 < evaporation default_soil w (uw c) /\ TWL c <= zb c /\ 0 <= moist c <= porosity default_soil /\
  update infiltration_on default_soil false 0 (Some w) 5400 c = Ok (Some c') /\ documented_drying default_soil (metres_per_second (evaporation default_soil w (uw c))) 5400 c < moist c'.
Proof. exact c187_refuted. Qed.
Print Assumptions C187_evaporation_refuted.
