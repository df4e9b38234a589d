(** Fluxes and pickup in the output: properties C145 to C147. *)
From Verif Require Import Base Num Utils_Model Utils_Spec Bed_Model Bed_Spec Solver_Model Solver_Spec Linear Solver_Cases Run_Model Run_Spec Run_Cases Report_Model Report_Spec Report_Proofs Report_Pickup Report_Cases.
From Coq Require Import QArith Reals List.
Import ListNotations.
Open Scope R_scope.

(** C145. The statement is: the sum of q is the sum of the magnitudes of the fluxes since the statistics were cleared. It is false, also with wind in all steps. *)
Theorem C145_sum_refuted : exists xs, no_calm xs /\ total (course xs) <> sum_of (map magnitude (fluxes xs [])).
Proof. exact c145_sum. Qed.
Print Assumptions C145_sum_refuted.

(** The largest flux in the first step of a run is said to be zero. *)
Theorem C145_most_refuted : exists a b, most (course [Wind a b]) = Some 0 /\ 0 < magnitude (a, b).
Proof. exact c145_most. Qed.
Print Assumptions C145_most_refuted.

(** Between two outputs q is one step behind: the flux before the interval counts, that of the last step does not. *)
Theorem C145_sum_partial : forall before steps, total (course (interval before steps)) = magnitude (last_flux before (0, 0)) + sum_of (map magnitude steps) - magnitude (last steps (last_flux before (0, 0))).
Proof. exact flux_sum. Qed.
Print Assumptions C145_sum_partial.
Example C145_sum_partial_case : total (course (interval before145 steps145)) = 15 /\ sum_of (map magnitude steps145) = 25 /\ average (course (interval before145 steps145)) = 15 / 2 /\ fq (course (interval before145 steps145)) = 15.
Proof. exact c145_case. Qed.

(** So does the average. *)
Theorem C145_average_partial : forall before steps, steps <> [] -> average (course (interval before steps)) = (magnitude (last_flux before (0, 0)) + sum_of (map magnitude steps) - magnitude (last steps (0, 0))) / INR (length steps).
Proof. exact flux_average. Qed.
Print Assumptions C145_average_partial.
Example C145_average_partial_case : total (course (interval before145 steps145)) = 15 /\ sum_of (map magnitude steps145) = 25 /\ average (course (interval before145 steps145)) = 15 / 2 /\ fq (course (interval before145 steps145)) = 15.
Proof. exact c145_case. Qed.

(** And the largest value. *)
Theorem C145_most_partial : forall before steps, steps <> [] -> exists m, most (course (interval before steps)) = Some m /\ In m (removelast (map magnitude (last_flux before (0, 0) :: steps))) /\
  forall x, In x (removelast (map magnitude (last_flux before (0, 0) :: steps))) -> x <= m.
Proof. exact flux_most. Qed.
Print Assumptions C145_most_partial.
Example C145_most_partial_case : total (course (interval before145 steps145)) = 15 /\ sum_of (map magnitude steps145) = 25 /\ average (course (interval before145 steps145)) = 15 / 2 /\ fq (course (interval before145 steps145)) = 15.
Proof. exact c145_case. Qed.

(** The smallest one. *)
Theorem C145_least_partial : forall before steps, steps <> [] -> exists m, least (course (interval before steps)) = Some m /\ In m (removelast (map magnitude (last_flux before (0, 0) :: steps))) /\
  forall x, In x (removelast (map magnitude (last_flux before (0, 0) :: steps))) -> m <= x.
Proof. exact flux_least. Qed.
Print Assumptions C145_least_partial.
Example C145_least_partial_case : (2 <= length steps145)%nat /\ variance (course (interval before145 steps145)) = 25 / 2 /\ spread (map magnitude steps145) = 25 / 2 /\ spread [5; 10] = 25 / 2 /\
  least (course (interval before145 steps145)) = Some 5.
Proof. exact c145_var_case. Qed.

(** And the variance. *)
Theorem C145_variance_partial : forall before steps, (2 <= length steps)%nat -> variance (course (interval before steps)) = spread (removelast (map magnitude (last_flux before (0, 0) :: steps))).
Proof. exact flux_spread. Qed.
Print Assumptions C145_variance_partial.
Example C145_variance_partial_case : (2 <= length steps145)%nat /\ variance (course (interval before145 steps145)) = 25 / 2 /\ spread (map magnitude steps145) = 25 / 2 /\ spread [5; 10] = 25 / 2 /\
  least (course (interval before145 steps145)) = Some 5.
Proof. exact c145_var_case. Qed.

(** Without a statistic, q is the magnitude of the flux of the step. *)
Theorem C145_now : forall before a b, fq (course (before ++ [Wind a b])) = magnitude (a, b).
Proof. exact flux_now. Qed.
Print Assumptions C145_now.
Example C145_now_case : total (course (interval before145 steps145)) = 15 /\ sum_of (map magnitude steps145) = 25 /\ average (course (interval before145 steps145)) = 15 / 2 /\ fq (course (interval before145 steps145)) = 15.
Proof. exact c145_case. Qed.

(** C146. Without wind there is no flux: false. *)
Theorem C146_calm_refuted : exists xs, 0 < fq (course (xs ++ [Calm])).
Proof. exact c146_still. Qed.
Print Assumptions C146_calm_refuted.

(** Without wind the flux of the last windy step stays in the output. *)
Theorem C146_calm_partial : forall before n, fq (course (before ++ repeat Calm n)) = magnitude (last_flux before (0, 0)).
Proof. exact flux_calm. Qed.
Print Assumptions C146_calm_partial.
Example C146_calm_partial_case : fq (course (before145 ++ repeat Calm 7)) = 5.
Proof. exact c146_case. Qed.

Open Scope Q_scope.
(** C147. The sum of the pickup is the sand that has left the bed: false when some step has no wind. *)
Theorem C147_twice_refuted : exists sp nf k e g weather s s' trace h j, sound_setup nf k e /\ sound_state nf k s /\ fair_weather sp nf k g weather /\ run sp k e true s weather = Ok (Some (s', trace)) /\
  history sp k e true s weather = Ok (Some h) /\ (forall os, In os trace -> smooth (sand s) os) /\ (j < number_of_cells k)%nat /\ eroded e s s' j < pickup_sum h j.
Proof. exact c147_twice. Qed.
Print Assumptions C147_twice_refuted.

(** With wind in all steps it is, in every cell. *)
Theorem C147_windy_partial : forall sp nf k e g weather t0 s s' trace h j, sound_setup nf k e -> sound_state nf k s -> fair_weather sp nf k g weather -> run sp k e t0 s weather = Ok (Some (s', trace)) -> history sp k e t0 s weather = Ok (Some h) ->
  (forall os, In os trace -> smooth (sand s) os) -> always_windy weather -> (j < number_of_cells k)%nat -> pickup_sum h j == eroded e s s' j.
Proof. exact pickup_windy. Qed.
Print Assumptions C147_windy_partial.
Example C147_windy_partial_case : sound_setup 1 k123 e123b /\ sound_state 1 k123 s123b /\ fair_weather (gauss 4) 1 k123 one_area weather147 /\ always_windy weather147 /\
  match run (gauss 4) k123 e123b true s123b weather147 with Ok (Some (_, t)) => forallb (smoothb (sand s123b)) t | _ => false end = true /\
  pickups (history (gauss 4) k123 e123b true s123b weather147) = Some [34; 4901042 # 177147; 36757550 # 1594323; 34] /\ losses s123b (run (gauss 4) k123 e123b true s123b weather147) = Some [34; 4901042 # 177147; 36757550 # 1594323; 34].
Proof. exact c147_case. Qed.

(** In calm steps that follow, the pickup of the last windy step counts again every time. *)
Theorem C147_calm_partial : forall sp nf k e g weather t0 s s' trace n h j, sound_setup nf k e -> sound_state nf k s -> fair_weather sp nf k g weather -> run sp k e t0 s weather = Ok (Some (s', trace)) -> (forall os, In os trace -> smooth (sand s) os) -> always_windy weather ->
  history sp k e t0 s (weather ++ repeat None n) = Ok (Some h) -> (j < number_of_cells k)%nat -> pickup_sum h j == eroded e s s' j + inject_Z (Z.of_nat n) * pickup_of s' j.
Proof. exact pickup_calm. Qed.
Print Assumptions C147_calm_partial.
Example C147_calm_partial_case : sound_setup 1 k123 e123b /\ sound_state 1 k123 s123b /\ fair_weather (gauss 4) 1 k123 one_area [Some [breeze 70]] /\ always_windy [Some [breeze 70]] /\
  match run (gauss 4) k123 e123b true s123b [Some [breeze 70]] with Ok (Some (_, t)) => forallb (smoothb (sand s123b)) t | _ => false end = true /\
  pickups (history (gauss 4) k123 e123b true s123b ([Some [breeze 70]] ++ repeat None 2)) = Some [90; 90; 90; 90] /\ losses s123b (run (gauss 4) k123 e123b true s123b [Some [breeze 70]]) = Some [30; 30; 30; 30].
Proof. exact c147_calm_case. Qed.
