(** Property C123: whole runs, air and bed together. *)
From Verif Require Import Base Base Num Utils_Model Utils_Spec Bed_Model Bed_Spec Solver_Model Solver_Spec Linear Solver_Cases Run_Model Run_Spec Run_Whole Run_Cases.
From Coq Require Import QArith.
Open Scope Q_scope.

(** C123. Sand in the first column disappears: its bed is eroded by a wind that takes up nothing there. *)
Theorem C123_border_refuted : exists sp nf k e g M L weather s s' trace, sound_setup nf k e /\ prescribed_ends k /\ 0 <= M /\ inject_Z (Z.of_nat nf) * (M * dt k / T k) < L /\
  sound_state nf k s /\ equal_layers L s /\ limited_air k M s /\ fair_weather sp nf k g weather /\ limited_weather k M weather /\
  run sp k e true s weather = Ok (Some (s', trace)) /\ (forall os, In os trace -> smooth (sand s) os) /\
  (forall a, In a (air s) -> a 0%nat == 0) /\ (forall os o, In os trace -> In o os -> ct o 0%nat == 0) /\ level s' 0 < level s 0.
Proof. exact c123_border. Qed.
Print Assumptions C123_border_refuted.

(** For the cells between the first and the last column, over any number of steps, if the iterations converge and no step moves more than a layer: nothing becomes negative, the layers keep their masses, and sand in bed and air together changes by what the wind carries through the ends, but for the tolerance of the solver in every step and fraction. *)
Theorem C123_balance_partial : forall sp nf k e g, sound_setup nf k e -> forall weather t0 s s' trace, sound_state nf k s -> fair_weather sp nf k g weather ->
  run sp k e t0 s weather = Ok (Some (s', trace)) -> (forall os, In os trace -> smooth (sand s) os) ->
  sound_state nf k s' /\ same_layers (sand s) (sand s') /\ length trace = length weather /\
  0 <= content k e g s' - content k e g s - blown k weather trace <= inject_Z (Z.of_nat (windy weather)) * (inject_Z (Z.of_nat nf) * (max_error k * over_inside k g)).
Proof. exact whole_balance. Qed.
Print Assumptions C123_balance_partial.
Example C123_balance_partial_case : sound_setup 1 k123 e123b /\ sound_state 1 k123 s123b /\ fair_weather (gauss 4) 1 k123 one_area weather123b /\
  (exists s' trace, run123b = Ok (Some (s', trace)) /\ forall os, In os trace -> smooth (sand s123b) os) /\
  shown_run k123 e123b one_area s123b weather123b run123b =
    Some ([483 # 500; 86122979 # 88573500; 31151309 # 31886460; 483 # 500], [[0; 1121956 # 177147; 17449432 # 1594323; 0]], [[true]; []; [true]], -53319892 # 1594323, -53322832 # 1594323).
Proof. exact c123_storm. Qed.

(** For a uniform wind with limited concentrations and layers of equal mass, thick enough, there is such a run, whatever the weather, with any sufficient limit to the number of iterations. *)
Theorem C123_whole_partial : forall sp nf k e g M L weather t0 s, sound_setup nf k e -> prescribed_ends k -> 0 <= M -> inject_Z (Z.of_nat nf) * (M * dt k / T k) < L ->
  sound_state nf k s -> equal_layers L s -> limited_air k M s -> fair_weather sp nf k g weather -> limited_weather k M weather ->
  exists n0 s' trace, (forall n, (n0 <= n)%nat -> run sp (with_iterations k n) e t0 s weather = Ok (Some (s', trace))) /\
    sound_state nf k s' /\ equal_layers L s' /\ limited_air k M s' /\
    0 <= content k e g s' - content k e g s - blown k weather trace <= inject_Z (Z.of_nat (windy weather)) * (inject_Z (Z.of_nat nf) * (max_error k * over_inside k g)).
Proof. exact whole_run. Qed.
Print Assumptions C123_whole_partial.
Example C123_whole_partial_case : sound_setup 2 k123 e123 /\ prescribed_ends k123 /\ inject_Z (Z.of_nat 2) * (10 * dt k123 / T k123) < 30 /\ sound_state 2 k123 s123 /\ equal_layers 30 s123 /\ limited_air k123 10 s123 /\
  fair_weather (gauss 4) 2 k123 one_area weather123 /\ limited_weather k123 10 weather123 /\
  shown_run k123 e123 one_area s123 weather123 (run (gauss 4) k123 e123 true s123 weather123) =
    Some ([497 # 500; 249 # 250; 299 # 300; 497 # 500], [[0; 4 # 3; 16 # 9; 0]; [0; 2 # 3; 8 # 9; 0]], [[true; true]; []], -8 # 3, -8 # 3).
Proof. exact c123_two. Qed.
