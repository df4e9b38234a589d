(** Property theorems about the orientation of the grid: C16. *)
From Coq Require Import Reals.
From Verif Require Import Base Num Time_Model Time_Cases Rotate_Model Rotate_Spec Rotate_Proofs Rotate_Cases.
Open Scope R_scope.

(** C16. An update that skips in time leaves the grid rotated, and the saltation velocity is not
    rotated back, so that the reported flux is not the concentration times the reported velocity. *)
Theorem C16_skip_refuted : exists p ob req c c' ev alpha f st, (req < -1)%Q /\ update p ob req c = Ok (c', ev) /\ idle f /\
  xy (apply_events alpha f ev st) <> xy st.
Proof. exact skip_leaves_rotated. Qed.
Print Assumptions C16_skip_refuted.
Theorem C16_saltation_velocity_refuted : exists p ob c c' ev alpha st, update p ob (-1)%Q c = Ok (c', ev) /\ count c' = S (count c) /\
  let st' := apply_events alpha (solver 1) ev st in q st' <> us st'.
Proof. exact flux_not_parallel. Qed.
Print Assumptions C16_saltation_velocity_refuted.
(** An update that is not completed leaves the grid rotated over alpha. *)
Theorem C16_aborted_update : forall p ob req c c' ev alpha f st,
  update p ob req c = Ok (c', ev) -> count c' = count c -> keeps_grid f ->
  xy (apply_events alpha f ev st) = xy (grid_rotate alpha st).
Proof. exact aborted_rotated. Qed.
Print Assumptions C16_aborted_update.
(** A completed update restores the coordinates, and everything that the processes leave alone. *)
Theorem C16_completed_partial : forall p ob req c c' ev alpha f st,
  update p ob req c = Ok (c', ev) -> count c' = S (count c) -> keeps_grid f ->
  xy (apply_events alpha f ev st) = xy st.
Proof. exact completed_restores. Qed.
Print Assumptions C16_completed_partial.
Theorem C16_identity_partial : forall p ob req c c' ev alpha f st,
  update p ob req c = Ok (c', ev) -> count c' = S (count c) -> idle f -> apply_events alpha f ev st = st.
Proof. exact completed_identity. Qed.
Print Assumptions C16_identity_partial.
Example C16_partial_ex : (exists c', update base windy (-1)%Q (initial_clock base) = Ok (c',
  [WindInterpolate; RotateForward; WindShear; FenceShear; HydroInterpolate; HydroUpdate; MixTopLayer;
   Threshold; Equilibrium; Solve; BedUpdate; AngleOfRepose; Avalanche; WetBedReset; AverageChange; RotateBack]) /\ count c' = 1%nat)
  /\ idle (fun _ x => x) /\ keeps_grid (solver 1).
Proof. exact (conj ex_update ex_idle). Qed.
(** Rotation keeps distances, and lengths of and angles between vectors. *)
Theorem C16_distances : forall a origin v w, dist2 (rotate1 a origin v) (rotate1 a origin w) = dist2 v w.
Proof. exact rotate1_dist. Qed.
Print Assumptions C16_distances.
Theorem C16_inner_product : forall a v w, inner (rotate1 a (0, 0) v) (rotate1 a (0, 0) w) = inner v w.
Proof. exact rotate1_inner. Qed.
Print Assumptions C16_inner_product.
(** Every vector field keeps its orientation with respect to the grid and its length; the wind
    direction turns over the same angle. *)
Theorem C16_vectors_follow_grid : forall a st k i j1 j2 l v p1 p2,
  nth_error (vector_fields st) k = Some l -> nth_error l i = Some v ->
  nth_error (xy st) j1 = Some p1 -> nth_error (xy st) j2 = Some p2 ->
  exists l' v' p1' p2', nth_error (vector_fields (grid_rotate a st)) k = Some l' /\ nth_error l' i = Some v' /\
    nth_error (xy (grid_rotate a st)) j1 = Some p1' /\ nth_error (xy (grid_rotate a st)) j2 = Some p2' /\
    inner v' (sub p1' p2') = inner v (sub p1 p2) /\ inner v' v' = inner v v.
Proof. exact vectors_follow. Qed.
Print Assumptions C16_vectors_follow_grid.
Example C16_vectors_follow_grid_ex : nth_error (vector_fields st0) 4 = Some [(5, 1)] /\ nth_error [(5, 1)] 0 = Some (5, 1) /\ nth_error (xy st0) 0 = Some (0, 0) /\ nth_error (xy st0) 1 = Some (2, 0).
Proof. exact ex_vectors. Qed.
Theorem C16_direction : forall a st i d, nth_error (udir st) i = Some d ->
  exists d', nth_error (udir (grid_rotate a st)) i = Some d' /\ from_direction d' = rotate1 a (0, 0) (from_direction d).
Proof. exact direction_turns. Qed.
Print Assumptions C16_direction.
