(** What limits the change of the bed at one place: properties C168 and C169. *)
From Verif Require Import Base Num Utils_Model Utils_Spec Solver_Model Solver_Spec Linear Solver_Cases Bed_Model Run_Model Run_Spec Run_Cases Day_Model Day_Spec Day_Cases Limit_Spec Limit_Proofs Limit_Rock Limit_Cases.
From Coq Require Import QArith List.
Import ListNotations.
Open Scope Q_scope.

(** C168. Over a whole run with waves, feedback, avalanches and other reshaping: the wind takes from a place no more than it could carry there, and gives it no more than it carried there. Only for steps in which no cell gains a whole layer ([gentle]). *)
Theorem C168_bounds : forall sp nf k e m L climate n t0 past s s' t j, sound_setup nf k e -> plain_climate sp nf k climate -> sound_state nf k s -> equal_layers L s -> fits m s ->
  days sp k e m climate n t0 past s = Ok (Some (s', t)) -> (forall y, In y t -> gentle k L y) -> (j < number_of_cells k)%nat ->
  - (can_carry_in t j * (dt k / T k)) <= sediment e (level s' j - level s j - lifted_in t j) <= does_carry_in t j * (dt k / T k).
Proof. exact limits_all. Qed.
Print Assumptions C168_bounds.
Example C168_bounds_case : sound_setup 1 k123 e123b /\ plain_climate (gauss 4) 1 k123 (rock_climate 8 (987 # 1000)) /\ sound_state 1 k123 s168 /\ equal_layers 30 s168 /\ fits m163 s168 /\
  (exists s' t, run168 = Ok (Some (s', t)) /\ forall y, In y t -> gentle k123 30 y) /\
  shown168 run168 = Some ([123 # 125; 1123 # 1125; 13427 # 13500; 123 # 125], [[0; 32 # 9; 136 # 27; 0]], -16 # 9, 8, 56 # 9).
Proof. exact c168_run. Qed.

(** C168. A place over which nothing can be carried is never lowered. *)
Theorem C168_bare : forall sp nf k e m L climate n t0 past s s' t j, sound_setup nf k e -> plain_climate sp nf k climate -> (j < number_of_cells k)%nat -> (forall past ws, blow (climate past) = Some ws -> can_carry ws j == 0) -> never_lowered j climate ->
  sound_state nf k s -> equal_layers L s -> fits m s -> days sp k e m climate n t0 past s = Ok (Some (s', t)) -> (forall y, In y t -> gentle k L y) -> level s j <= level s' j.
Proof. exact bare_all. Qed.
Print Assumptions C168_bare.
Example C168_bare_case : sound_setup 1 k123 e123b /\ plain_climate (gauss 4) 1 k123 (bare_climate 8) /\ (forall past ws, blow (bare_climate 8 past) = Some ws -> can_carry ws 1 == 0) /\ never_lowered 1 (bare_climate 8) /\
  sound_state 1 k123 s168 /\ equal_layers 30 s168 /\ fits m163 s168 /\
  (exists s' t, run168b = Ok (Some (s', t)) /\ forall y, In y t -> gentle k123 30 y) /\
  shown168 run168b = Some ([123 # 125; 1132 # 1125; 13427 # 13500; 123 # 125], [[0; 32 # 9; 136 # 27; 0]], 56 # 9, 0, 56 # 9).
Proof. exact c168_bare. Qed.

(** C169. The transport capacity is zero within 1 cm of the non-erodible layer, for every fraction and formulation. *)
Theorem C169_stopped : forall nel z j ws, with_threshold nel z j ws -> z <= nel + (1 # 100) -> forall w, In w ws -> wCu w j == 0.
Proof. exact threshold_stops. Qed.
Print Assumptions C169_stopped.
Example C169_stopped_case : with_threshold (987 # 1000) (995 # 1000) 1 [rock_wind 8 true] /\ (995 # 1000) <= (987 # 1000) + (1 # 100) /\ wCuf (rock_wind 8 true) 1 == 8.
Proof. exact c169_stopped. Qed.

(** C169. No place is lowered further than 1 cm above the non-erodible layer less the most that one step can take: what the wind can carry, or one layer of the bed. So with layers of 1 cm or less nothing is dug out of the non-erodible layer. The full statement has neither bound, [nel] in place of [nel + 1/100 - h]. *)
Theorem C169_rock_partial : forall sp nf k e m L climate nel h j n t0 past s s' t, sound_setup nf k e -> plain_climate sp nf k climate -> (j < number_of_cells k)%nat -> rocky nel j climate -> never_lowered j climate ->
  erodes_at_most k e j h climate \/ 0 <= L <= sediment e h -> 0 <= h -> sound_state nf k s -> equal_layers L s -> fits m s ->
  days sp k e m climate n t0 past s = Ok (Some (s', t)) -> (forall y, In y t -> gentle k L y) -> qmin (level s j) (nel + (1 # 100) - h) <= level s' j.
Proof. exact days_rock. Qed.
Print Assumptions C169_rock_partial.
Example C169_rock_partial_case : sound_setup 1 k123 e123b /\ plain_climate (gauss 4) 1 k123 (rock_climate 8 (987 # 1000)) /\ rocky (987 # 1000) 1 (rock_climate 8 (987 # 1000)) /\ never_lowered 1 (rock_climate 8 (987 # 1000)) /\
  erodes_at_most k123 e123b 1 (8 # 1000) (rock_climate 8 (987 # 1000)) /\ sound_state 1 k123 s168 /\ equal_layers 30 s168 /\ fits m163 s168 /\
  (exists s' t, run168 = Ok (Some (s', t)) /\ forall y, In y t -> gentle k123 30 y) /\
  shown168 run168 = Some ([123 # 125; 1123 # 1125; 13427 # 13500; 123 # 125], [[0; 32 # 9; 136 # 27; 0]], -16 # 9, 8, 56 # 9).
Proof. exact c169_rock. Qed.

(** C169. With thicker layers a single step digs into it. *)
Theorem C169_thick_refuted : exists sp nf k e m L climate nel j s s' t, sound_setup nf k e /\ plain_climate sp nf k climate /\ (j < number_of_cells k)%nat /\ rocky nel j climate /\ never_lowered j climate /\
  sound_state nf k s /\ equal_layers L s /\ fits m s /\ days sp k e m climate 1 true [] s = Ok (Some (s', t)) /\ (forall y, In y t -> gentle k L y) /\ nel + (1 # 100) < level s j /\ level s' j < nel.
Proof. exact c169_thick. Qed.
Print Assumptions C169_thick_refuted.
