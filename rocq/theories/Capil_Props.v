(** Capillary moisture and infiltration against their documentation: properties C191 and C192. *)
From Verif Require Import Base Moist_Model Moist_Spec Moist_Cases Rain_Spec Rain_Cases Capil_Spec Capil_Proofs Capil_Cases.
From Coq Require Import Reals.
Open Scope R_scope.

(** C191: above the groundwater the capillary moisture is that of the documented main curve, or of the documented scanning curve limited to the main curves, in each of the four situations.  The height at which the table turned is the stored one (see C73), and the divisors are at least 0.0001. *)
Theorem C191_curves : forall sw p fuel file dt c c', process_moist sw = true -> moist_method sw = SurfMoisture -> process_scanning sw = true -> alfaw p <> 0 -> alfad p <> 0 -> gw c < zb c ->
  update sw p false fuel file dt c = Ok (Some c') -> 0 < h_delta c' -> let h := height_cm c in let hd := h_delta c' in
  (gw_prev c <= gw c -> wetting c = true -> scan_w c = false -> moist_swr c' = theta_w p h) /\
  (gw_prev c <= gw c -> wetting c = false \/ scan_w c = true -> 1 / 10000 <= satw p - theta_w p hd -> moist_swr c' = clip (theta_w p h) (theta_d p h) (mualem_wetting p hd h)) /\
  (gw c < gw_prev c -> wetting c = false -> scan_d c = false -> moist_swr c' = theta_d p h) /\
  (gw c < gw_prev c -> wetting c = true \/ scan_d c = true -> 1 / 10000 <= satd p - theta_w p h -> moist_swr c' = clip (theta_w p h) (theta_d p h) (mualem_drying p hd h)).
Proof. exact capillary_documented. Qed.
Print Assumptions C191_curves.
Example C191_curves_case : exists c', update (surface_on true false) plain_soil false 0 (Some drizzle) 3600 falling_cell = Ok (Some c') /\ h_delta c' = 50 /\ gw falling_cell < gw_prev falling_cell /\
  1 / 10000 <= satd plain_soil - theta_w plain_soil (height_cm falling_cell) /\ theta_w plain_soil 100 < moist_swr c' < theta_d plain_soil 100 /\ moist_swr c' = mualem_drying plain_soil 50 100.
Proof. exact c191_case. Qed.

(** C192 for soils whose field capacity has been set to the documented value: the moisture above it decays with the drying time.  Full statement: for the documented field capacity of every soil, the default one included; false, see C192_default_refuted. *)
Theorem C192_drains_partial : forall sw p t0 fuel w dt c c', process_moist sw = true -> moist_method sw = SurfMoisture -> 0 < Tdry p -> 0 < thick p -> 0 <= dt -> fc p = theta_d p 100 ->
  TWL c <= zb c -> theta_d p 100 <= moist c -> update sw p t0 fuel (Some w) dt c = Ok (Some c') -> resw p < moist c' < satd p -> moist_swr c' < moist c' ->
  moist c' = theta_d p 100 + (moist c - theta_d p 100) * exp (- ln 2 * (dt / Tdry p)) + (rained_mm (rain w) dt - evaporated_mm (evaporation p w (uw c)) dt) / 1000 / thick p.
Proof. exact drains_documented. Qed.
Print Assumptions C192_drains_partial.
Example C192_drains_partial_case : exists c', let c := some_cell (2 / 10) 0 1 in update (surface_on false false) documented_soil false 0 (Some damp) 5400 c = Ok (Some c') /\
  fc documented_soil = theta_d documented_soil 100 /\ fc documented_soil <= moist c /\ resw documented_soil < moist c' < satd documented_soil /\ moist_swr c' < moist c'.
Proof. exact c192_case. Qed.

(** C192 is false: with the default parameters, a bed more than 0.01 wetter than the documented field capacity never drains. *)
Theorem C192_default_refuted : exists c, TWL c <= zb c /\ height_cm c = 100 /\ theta_d default_soil 100 + 1 / 100 < moist c /\
  forall dt, 0 <= dt -> exists c', update (surface_on false false) default_soil false 0 (Some damp) dt c = Ok (Some c') /\ moist c' = moist c.
Proof. exact c192_refuted. Qed.
Print Assumptions C192_default_refuted.
