(** Specification for C16. *)
From Coq Require Import Reals.
From Verif Require Import Base Num Time_Model Rotate_Model.
Open Scope R_scope.

(** Square of the distance between two points. *)
Definition dist2 (a b : R * R) : R := (fst a - fst b) * (fst a - fst b) + (snd a - snd b) * (snd a - snd b).
(** Inner product, which fixes lengths and angles between vectors. *)
Definition inner (a b : R * R) : R := fst a * fst b + snd a * snd b.
(** Processes never move the grid. *)
Definition keeps_grid (f : event -> vstate -> vstate) : Prop := forall e st, xy (f e st) = xy st.
Definition idle (f : event -> vstate -> vstate) : Prop := forall e st, f e st = st.
(** All vector fields that are reported in the orientation of the grid. *)
Definition vector_fields (st : vstate) : list cells := [tau st; tau0 st; ustar st; ustar0 st; uw st] ++ q st.
Definition sub (a b : R * R) : R * R := (fst a - fst b, snd a - snd b).
(** Unit vector of a wind from direction [d] (degrees clockwise from the second axis). *)
Definition from_direction (d : R) : R * R := (- sin (radians d), - cos (radians d)).
