(** Notions in which the properties of rain, evaporation and runup against the documented formulas are stated (docs/user/model.rst:434-472, 617-645). *)
From Verif Require Import Base Moist_Model.
From Coq Require Import Reals.
Open Scope R_scope.

(** Water in the surface layer of a cell, in mm. *)
Definition water_mm (p : soil) (c : cell) : R := 1000 * (thick p * moist c).
(** Rain [mm/h] and evaporation [mm/day] during [dt] seconds, in mm. *)
Definition rained_mm (mm_per_hour dt : R) : R := mm_per_hour * (dt / 3600).
Definition evaporated_mm (mm_per_day dt : R) : R := mm_per_day * (dt / 86400).

(** The documented equation of evaporation (model.rst, apx-penman) in mm/day: slope of the saturation pressure, net radiation, psychrometric
    constant, wind at 2 m, vapour pressure deficit, latent heat. *)
Definition penman (m Rn gamma u2 de lambda : R) : R := (m * Rn + 643 / 100 * gamma * (1 + 536 / 1000 * u2) * de) / (lambda * (m + gamma)).
(** Its terms for a weather: latent heat of water in MJ/kg, psychrometric constant, deficit, and the wind at 2 m for a wind [u] at height [z]. *)
Definition latent : R := 226 / 100.
Definition psychrometric (p : soil) (w : weather) : R := cpair p * pres w / (622 / 1000 * latent).
Definition deficit (w : weather) : R := saturation_pressure (temp w) - saturation_pressure (temp w) * (hum w / 100).
Definition wind_2m (p : soil) (u : R) : R := 174 / 1000 * u / (ln (z p / 2) / ln 10).
Definition documented_evaporation (p : soil) (w : weather) (u : R) : R :=
  penman (vaporation_pressure_slope (temp w)) (rad w) (psychrometric p w) (wind_2m p u) (deficit w) latent.

(** [L] is the length of a wave with period [T] in deep water: the dispersion relation (2 pi / T)^2 = g (2 pi / L). *)
Definition deep_water (L T : R) : Prop := 0 < L /\ 2 * PI / T * (2 * PI / T) = 981 / 100 * (2 * PI / L).
(** The Iribarren number. *)
Definition surf_similarity (H L b : R) : R := b / sqrt (H / L).
(** The documented runup and set-up: on dissipative beaches, and on others. *)
Definition doc_runup_dissipative (H L : R) : R := 43 / 1000 * sqrt (H * L).
Definition doc_setup_dissipative (H L : R) : R := 2 / 100 * sqrt (H * L).
Definition doc_runup (H L b : R) : R := 11 / 10 * (35 / 100 * b * sqrt (H * L) + sqrt (H * L * (563 / 1000 * (b * b) + 4 / 1000)) / 2).
Definition doc_setup (H L b : R) : R := 35 / 100 * surf_similarity H L b.

(** The documented drying of the bed without groundwater (model.rst, apx-drying): evaporation [E] in m/s, from the layer of the bed composition. *)
Definition documented_drying (p : soil) (E dt : R) (c : cell) : R :=
  if Rlt_dec (zb c) (TWL c) then porosity p else moist c * exp (ln (1 / 2) / Tdry p * dt) - E * (dt / salt_thick p).
(** An evaporation in mm/day as metres per second. *)
Definition metres_per_second (mm_per_day : R) : R := mm_per_day / 1000 / 86400.
