(** Property C99: the seepage face. *)
From Verif Require Import Base Num Hydro_Model Seep_Spec Seep_Proofs Seep_Cases.
From Coq Require Import QArith ZArith.
Open Scope Q_scope.

(** Between the shoreline and the cell before the exit point the groundwater is at the bed. Missing part: the last cell before the exit point (C99_last_cell_refuted). *)
Theorem C99_face_partial : forall g s o d ds z w w' r b j, seepage g = true -> length z = length w -> boussinesq g (Z.of_nat s) o d ds z w = Ok (w', r) -> exit_point b w' z ->
  (s <= j)%nat -> (S j < b)%nat -> nth j w' 0 = nth j z 0.
Proof. exact face. Qed.
Print Assumptions C99_face_partial.
Example C99_face_partial_case : seepage wet_beach = true /\ length profile = length mound /\ levels_after (boussinesq wet_beach 1 1 sea0 (repeat 1 9) profile mound) = [0; -1; 1; 2; 4; 4; 4; 4; 4] /\
  exit_point 5 [0; -1; 1; 2; 4; 4; 4; 4; 4] profile.
Proof. exact face_case. Qed.

(** All other cells are as without the process. *)
Theorem C99_outside : forall g s o d ds z w w' r w0 r0 b j, seepage g = true -> length z = length w -> boussinesq g (Z.of_nat s) o d ds z w = Ok (w', r) ->
  boussinesq (no_seepage g) (Z.of_nat s) o d ds z w = Ok (w0, r0) -> exit_point b w' z -> (j < s)%nat \/ (b <= S j)%nat -> nth j w' 0 = nth j w0 0.
Proof. exact outside. Qed.
Print Assumptions C99_outside.
Example C99_outside_case : levels_after (boussinesq (no_seepage wet_beach) 1 1 sea0 (repeat 1 9) profile mound) = [0; 0; 2; 3; 4; 4; 4; 4; 4].
Proof. exact outside_case. Qed.

(** In the last cell before the exit point the groundwater stays above the bed. *)
Theorem C99_last_cell_refuted : exists g s o d ds z w w' r b, seepage g = true /\ length z = length w /\ boussinesq g (Z.of_nat s) o d ds z w = Ok (w', r) /\ exit_point b w' z /\ (s < b - 1)%nat /\ nth (b - 1) z 0 < nth (b - 1) w' 0.
Proof. exact last_cell. Qed.
Print Assumptions C99_last_cell_refuted.

(** When the groundwater is above the bed up to the landward boundary nothing is limited. *)
Theorem C99_all_wet_refuted : exists g s o d ds z w w' r, seepage g = true /\ length z = length w /\ boussinesq g (Z.of_nat s) o d ds z w = Ok (w', r) /\ (forall j, (s < j < length z)%nat -> nth j z 0 < nth j w' 0).
Proof. exact all_wet. Qed.
Print Assumptions C99_all_wet_refuted.

(** Groundwater within 5 cm below the bed is raised. *)
Theorem C99_raised_refuted : exists g s o d ds z w w' r j, seepage g = true /\ length z = length w /\ boussinesq g (Z.of_nat s) o d ds z w = Ok (w', r) /\ nth j w 0 < nth j z 0 /\ nth j w 0 < nth j w' 0 /\ (s < j)%nat /\ nth j d 0 < nth j w 0.
Proof. exact raised. Qed.
Print Assumptions C99_raised_refuted.

(** The shoreline cell, under water, is lowered to its bed, below the level of the sea. *)
Theorem C99_shoreline_refuted : exists g s o d ds z w w' r, seepage g = true /\ length z = length w /\ boussinesq g (Z.of_nat s) o d ds z w = Ok (w', r) /\ shore z d = Z.of_nat s /\ o = Z.of_nat s /\ nth s w' 0 < nth s d 0.
Proof. exact shore_cell. Qed.
Print Assumptions C99_shoreline_refuted.
