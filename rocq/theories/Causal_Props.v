(** What lies downwind does not matter: properties C142 to C144. *)
From Verif Require Import Base Num Utils_Model Utils_Spec Bed_Model Bed_Spec Solver_Model Solver_Spec Linear Solver_Cases Run_Model Run_Spec Run_Cases Causal_Spec Causal_Proofs Causal_Run Causal_Cases.
From Coq Require Import QArith List.
Import ListNotations.
Open Scope Q_scope.

(** C142. Two steps that are the same up to column c, with any other wind, bed, air, weights and linear solver behind it, have the same concentration, pickup and weights up to column c, also when the sand does not suffice and the iterations differ. *)
Theorem C142_downwind : forall sp sp' k f f' d d' w w' c o o', well_posed sp k f d w -> well_posed sp' k f' d' w' -> differ_downwind k c f f' d d' w w' ->
  solve_fraction sp k f d w = Ok (Some o) -> solve_fraction sp' k f' d' w' = Ok (Some o') -> converged o = true -> converged o' = true -> same_outcome_upto k c o o'.
Proof. exact downwind. Qed.
Print Assumptions C142_downwind.
Example C142_downwind_case : well_posed (gauss 5) (k31 12) f31 d31 ones /\ well_posed (gauss 5) (k31 12) f142 d142 ones /\ differ_downwind (k31 12) 2 f31 f142 d31 d142 ones ones /\
  shown (k31 12) (by_gauss (k31 12) f31 d31 ones) = Some ([0; 9850 # 19683; 44356 # 177147; 332504 # 531441; 0], [1; 1; 0; 1; 1], true) /\
  shown (k31 12) (by_gauss (k31 12) f142 d142 ones) = Some ([0; 9850 # 19683; 44356 # 177147; 448982214313 # 185752092672; 0], [1; 1; 0; 0; 0], true).
Proof. exact c142_case. Qed.

(** C143. Two runs over any weather, whose air, bed and wind are the same up to column c, end with the same air, layers and levels there, and every step has the same outcomes there. *)
Theorem C143_downwind : forall sp sp' nf k e g g' c, sound_setup nf k e -> (c < nx k)%nat -> forall weather weather' t0 s s' s1 s1' trace trace',
  sound_state nf k s -> sound_state nf k s' -> fair_weather sp nf k g weather -> fair_weather sp' nf k g' weather' ->
  same_state_upto k c s s' -> Forall2 (hour_upto k c) weather weather' ->
  run sp k e t0 s weather = Ok (Some (s1, trace)) -> run sp' k e t0 s' weather' = Ok (Some (s1', trace')) ->
  (forall os, In os trace -> smooth (sand s) os) -> (forall os, In os trace' -> smooth (sand s') os) ->
  same_state_upto k c s1 s1' /\ Forall2 (Forall2 (same_outcome_upto k c)) trace trace'.
Proof. exact downwind_run. Qed.
Print Assumptions C143_downwind.
Example C143_downwind_case : sound_setup 1 k123 e123b /\ (1 < nx k123)%nat /\ sound_state 1 k123 s123b /\ sound_state 1 k123 s143 /\ fair_weather (gauss 4) 1 k123 one_area weather123b /\ fair_weather (gauss 4) 1 k123 one_area weather143 /\
  same_state_upto k123 1 s123b s143 /\ Forall2 (hour_upto k123 1) weather123b weather143 /\
  (exists s' trace, run123b = Ok (Some (s', trace)) /\ forall os, In os trace -> smooth (sand s123b) os) /\ (exists s' trace, run143 = Ok (Some (s', trace)) /\ forall os, In os trace -> smooth (sand s143) os) /\
  shown_run k123 e123b one_area s143 weather143 run143 =
    Some ([483 # 500; 86122979 # 88573500; 4391444893 # 2214337500; 1971 # 1000], [[0; 1121956 # 177147; 20313056 # 4428675; 0]], [[true]; []; [true]], -1998893 # 54675, -53971361 # 1476225).
Proof. exact c143_case. Qed.

(** C144. With Crank-Nicolson sand in the air downwind lowers the concentration upwind. *)
Theorem C144_half_refuted : exists sp k f d d' w u c o o', ordinary k f d w /\ ordinary k f d' w /\ same_capacity k d /\ alpha k == 1 # 2 /\ uniform_wind k f u 0 /\ 0 < u /\ exact_solver (number_of_cells k) (matrix k f) sp /\
  differ_downwind k c f f d d' w w /\ solve_fraction sp k f d w = Ok (Some o) /\ solve_fraction sp k f d' w = Ok (Some o') /\ converged o = true /\ converged o' = true /\ at_cell k (ct o') 0 c < at_cell k (ct o) 0 c.
Proof. exact c144_half. Qed.
Print Assumptions C144_half_refuted.
