(** Steps that average both of their ends: property C167. *)
From Verif Require Import Base Num Utils_Model Utils_Spec Bed_Model Solver_Model Solver_Spec Run_Model Run_Spec Theta_Spec Theta_Proofs Theta_Cases.
From Coq Require Import QArith List.
Import ListNotations.
Open Scope Q_scope.

(** C167. The speed of the wind at the start of a step is not used: when it differs from that at the end, the sand over a cell does not change by the mean of what both ends of the step say. *)
Theorem C167_wind_refuted : exists sp k e s s1 s2 w1 w2 n os1 os2 o1 o2, sensible k /\ trunk k = true /\ alpha k == 1 # 2 /\ open_ends k /\ sound_state 1 k s /\ two_steps sp k e false s s1 s2 [w1] [w2] n os1 os2 /\ os1 = [o1] /\ os2 = [o2] /\
  steady_wind sp k w1 /\ steady_wind sp k w2 /\ converged o2 = true /\ airborne k o2 /\ inside k 0 1 /\
  ~ averaged k (speed w1) w1 w2 (fullness os1 [w2]) (fun j => nth 0 (oldw s1 j) 0) (weight o2) o1 o2 0 1.
Proof. exact c167_refuted. Qed.
Print Assumptions C167_wind_refuted.

(** C167. With the speed of the new wind at both ends it does, for every scheme between explicit and implicit, two windy steps with any number of calm ones in between, any number of fractions; at the start count the concentrations, the capacities and the weights after the step before. Where there is sand over every inner cell afterwards (nothing was cut off below zero). The full statement has [speed w1] in place of the first [speed w2] in the conclusion. *)
Theorem C167_step_partial : forall sp k e t0 s s1 s2 ws1 ws2 n os1 os2, sensible k -> trunk k = true -> open_ends k -> two_steps sp k e t0 s s1 s2 ws1 ws2 n os1 os2 ->
  forall i w1 w2 o1 o2, nth_error ws1 i = Some w1 -> nth_error ws2 i = Some w2 -> nth_error os1 i = Some o1 -> nth_error os2 i = Some o2 ->
  steady_wind sp k w2 -> converged o2 = true -> airborne k o2 ->
  forall r c, inside k r c -> averaged k (speed w2) w1 w2 (fullness os1 ws2) (fun j => nth i (oldw s1 j) 0) (weight o2) o1 o2 r c.
Proof. exact two_averaged. Qed.
Print Assumptions C167_step_partial.
Example C167_step_partial_case : exists s1 s2 os1 os2 o1 o2,
  sensible k167 /\ trunk k167 = true /\ alpha k167 == 1 # 2 /\ open_ends k167 /\ two_steps sweep k167 e167 false s167 s1 s2 [gust 1 4 2] [gust 2 4 4] 3 os1 os2 /\ nth_error os1 0 = Some o1 /\ nth_error os2 0 = Some o2 /\
  steady_wind sweep k167 (gust 2 4 4) /\ converged o2 = true /\ airborne k167 o2 /\ inside k167 0 1 /\
  averaged k167 (speed (gust 2 4 4)) (gust 1 4 2) (gust 2 4 4) (fullness os1 [gust 2 4 4]) (fun j => nth 0 (oldw s1 j) 0) (weight o2) o1 o2 0 1.
Proof. exact c167_case. Qed.

(** C167. The weights after a step are, for the last fraction (so for a single one), those with which the solver found its solution. Missing: the weights of other fractions, for which see C181. *)
Theorem C167_weights_partial : forall sp nf k e t0 s s1 ws os, trunk k = true -> length (grains e) = nf -> length ws = nf -> (1 <= nf)%nat -> sound_state nf k s -> run sp k e t0 s [Some ws] = Ok (Some (s1, [os])) ->
  forall o, nth_error os (nf - 1) = Some o -> forall j, (j < number_of_cells k)%nat -> nth (nf - 1) (oldw s1 j) 0 = weight o j.
Proof. exact stored_weight. Qed.
Print Assumptions C167_weights_partial.
Example C167_weights_partial_case : exists s1 os o, trunk k167 = true /\ length (grains e167b) = 2%nat /\ sound_state 2 k167 s167b /\ run sweep k167 e167b false s167b [Some [gust 1 4 3; gust 1 2 2]] = Ok (Some (s1, [os])) /\ nth_error os (2 - 1) = Some o /\
  nth (2 - 1) (oldw s1 1) 0 = weight o 1%nat.
Proof. exact c167_stored_case. Qed.
