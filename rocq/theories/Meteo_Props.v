(** The format of the weather file against its documentation: property C194. *)
From Verif Require Import Base Sea_Spec Weather_Model Weather_Spec Moist_Model Moist_Spec Moist_Cases Meteo_Spec Meteo_Proofs Meteo_Cases.
From Coq Require Import Reals QArith String.
Open Scope R_scope.

(** C194 for the temperature.  Full statement: the same for each of the documented columns, [forall name c, In (name, c) documented_columns -> ...]; false for the other four, see C194_columns_refuted. *)
Theorem C194_temperature_partial : forall t first rest, weather_file first rest -> forall v, reads (in_column 1 first rest) t v ->
  value_of "T" (Weather_Model.meteo t (as_line first) (map as_line rest)) v.
Proof. exact temperature_read. Qed.
Print Assumptions C194_temperature_partial.
Example C194_temperature_partial_case : weather_file dry_line1 [dry_line2] /\ reads (in_column 1 dry_line1 [dry_line2]) 1800 20.
Proof. exact c194_case. Qed.

(** C194 is false: precipitation, humidity, radiation and pressure are all read from another column than the documented one. *)
Theorem C194_columns_refuted : exists first rest t, weather_file first rest /\
  forall name c, In (name, c) documented_columns -> name <> "T"%string ->
    exists v, reads (in_column c first rest) t v /\ ~ value_of name (Weather_Model.meteo t (as_line first) (map as_line rest)) v.
Proof. exact c194_columns_refuted. Qed.
Print Assumptions C194_columns_refuted.

(** C194 is false, with consequences: the file describes a day without rain on which the bed dries, and the bed is saturated within the hour, because the humidity is taken for the precipitation. *)
Theorem C194_saturated_refuted : exists first rest t w real c c' c'', weather_file first rest /\
  understood (Weather_Model.meteo t (as_line first) (map as_line rest)) w /\ documented_weather first rest t real /\ rain real = 0 /\
  update (surface_on false false) default_soil false 0 (Some w) 3600 c = Ok (Some c') /\
  update (surface_on false false) default_soil false 0 (Some real) 3600 c = Ok (Some c'') /\
  moist c' = satd default_soil /\ moist c'' <= moist c /\ moist c < satd default_soil.
Proof. exact c194_wet_refuted. Qed.
Print Assumptions C194_saturated_refuted.
