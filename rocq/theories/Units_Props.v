(** Other units: properties C138-C140. *)
From Verif Require Import Base Num Utils_Model Bed_Model Solver_Model Solver_Spec Linear Solver_Cases Run_Model Run_Spec Run_Cases Units_Spec Units_Proofs Units_Run Units_Cases.
From Coq Require Import QArith List.
Import ListNotations.
Open Scope Q_scope.

(** C138. A time step of the solver gives the same in all units. *)
Theorem C138_units : forall u sp sp' k t0 b dist init fs, proper u -> trunk k = true -> (forall g, In g fs -> exact_in u sp sp' k (fst g)) ->
  answer_in u (number_of_cells k) (solve sp k t0 b dist init fs) (solve sp' (cfg_in u k) t0 b dist init (map (class_in u) fs)).
Proof. exact units_transient. Qed.
Print Assumptions C138_units.
Example C138_units_case : proper small_units /\ trunk k138 = true /\ (forall g, In g [(f138, d138); (f138, d138b)] -> exact_in small_units (gauss 9) (gauss 9) k138 (fst g)) /\
  numbers k138 (solve (gauss 9) k138 true false [1 # 2; 1 # 2] (fun _ => []) [(f138, d138); (f138, d138b)]) =
    Some [([3; 7 # 2; 0; 3; 20 # 7; 20 # 7; 3; 7 # 2; 0], [1; 3 # 4; 5 # 2; 1; 15 # 14; 15 # 14; 1; 3 # 4; 5 # 2]);
          ([3; 11 # 4; 0; 3; 229 # 98; 229 # 98; 3; 11 # 4; 0], [0; 0; 0; 0; 0; 0; 0; 0; 0])] /\
  numbers k138 (solve (gauss 9) (cfg_in small_units k138) true false [1 # 2; 1 # 2] (fun _ => []) (map (class_in small_units) [(f138, d138); (f138, d138b)])) =
    Some [([3 # 10; 7 # 20; 0; 3 # 10; 2 # 7; 2 # 7; 3 # 10; 7 # 20; 0], [1 # 10; 3 # 40; 1 # 4; 1 # 10; 3 # 28; 3 # 28; 1 # 10; 3 # 40; 1 # 4]);
          ([3 # 10; 11 # 40; 0; 3 # 10; 229 # 980; 229 # 980; 3 # 10; 11 # 40; 0], [0; 0; 0; 0; 0; 0; 0; 0; 0])].
Proof. exact c138_case. Qed.

(** C139. So does the steady state with circular lateral boundaries. *)
Theorem C139_units : forall u sp sp' k t0 b dist init fs, proper u -> trunk k = false -> lateral k = Circular -> (forall g, In g fs -> exact_in u sp sp' k (fst g)) ->
  answer_in u (number_of_cells k) (solve sp k t0 b dist init fs) (solve sp' (cfg_in u k) t0 b dist init (map (class_in u) fs)).
Proof. exact units_steady. Qed.
Print Assumptions C139_units.
Example C139_units_case : proper small_units /\ trunk (k139 Circular) = false /\ lateral (k139 Circular) = Circular /\ exact_in small_units (gauss 9) (gauss 9) (k139 Circular) f139 /\
  numbers (k139 Circular) (solve (gauss 9) (k139 Circular) true false [1] (fun _ => []) [(f139, d138)]) = Some [([3; 16 # 3; 0; 3; 16 # 3; 0; 3; 16 # 3; 0], [7 # 2; 7 # 3; 5; 7 # 2; 7 # 3; 5; 7 # 2; 7 # 3; 5])].
Proof. exact c139_case. Qed.

(** Not with constant ones. *)
Theorem C139_constant_refuted : exists u sp sp' k t0 b dist init fs, proper u /\ trunk k = false /\ lateral k = Constant /\ (forall g, In g fs -> exact_in u sp sp' k (fst g)) /\
  ~ answer_in u (number_of_cells k) (solve sp k t0 b dist init fs) (solve sp' (cfg_in u k) t0 b dist init (map (class_in u) fs)).
Proof. exact c139_constant. Qed.
Print Assumptions C139_constant_refuted.

(** C140. A whole run of air and bed gives the same in all units. *)
Theorem C140_units : forall u sp sp' k e weather t0 s s', proper u -> trunk k = true \/ lateral k = Circular -> state_in u (number_of_cells k) s s' -> length (sand s) = number_of_cells k ->
  (forall ws w, In (Some ws) weather -> In w ws -> exact_in u sp sp' k (speed w)) ->
  run_in u (number_of_cells k) (run sp k e t0 s weather) (run sp' (cfg_in u k) (setup_in u e) t0 s' (weather_in u weather)).
Proof. exact units_run. Qed.
Print Assumptions C140_units.
Example C140_units_case : proper small_units /\ trunk k123 = true /\ state_in small_units 4 s123 (scaled_state small_units s123) /\ length (sand s123) = number_of_cells k123 /\
  (forall ws w, In (Some ws) weather123 -> In w ws -> exact_in small_units (gauss 4) (gauss 4) k123 (speed w)) /\
  levels (run (gauss 4) k123 e123 true s123 weather123) = Some [497 # 500; 249 # 250; 299 # 300; 497 # 500] /\
  levels (run (gauss 4) (cfg_in small_units k123) (setup_in small_units e123) true (scaled_state small_units s123) (weather_in small_units weather123)) = Some [497 # 5; 498 # 5; 299 # 3; 497 # 5].
Proof. exact c140_case. Qed.
