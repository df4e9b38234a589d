(** What the vegetation properties say. *)
From Coq Require Import Reals.
From Verif Require Import Base Veg_Model.
Open Scope R_scope.

(** Parameters with their usual signs. *)
Definition usual (p : params) : Prop := 0 < hveg_max p /\ 0 < rhoveg_max p <= 1 /\ 0 < t_veg p /\ 0 <= v_gam p /\ 0 <= veg_gamma p /\ 0 < dt_opt p /\ 0 < dt p /\ 0 < accfac p.
(** Cover and height between zero and their maxima, and belonging together. *)
Definition physical (p : params) (c : cell) : Prop := 0 <= rhoveg c <= 1 /\ 0 <= hveg c <= hveg_max p /\ rhoveg c * (hveg_max p * hveg_max p) = hveg c * hveg c.
(** The bed is under water, or below the lowest level for vegetation. *)
Definition drowned (p : params) (e : event) : Prop := process_tide p = true /\ zb e + 1 / 100 < zs e.
Definition too_low (p : params) (e : event) : Prop := zb e < veg_min_elevation p.
(** No germination and no spreading in this event. *)
Definition no_seed (p : params) (e : event) : Prop :=
  per_step p (germination p) < random e /\ forall k, (k <= length (neighbours e))%nat -> per_cell p (size e) * INR k < random e.
(** No vegetation. *)
Definition empty (c : cell) : Prop := rhoveg c = 0 /\ hveg c = 0.
(** The time step is not longer than the time scale of growth of the Duran and Moore formulation (t_veg days). *)
Definition short_step (p : params) : Prop := dt p * accfac p / year <= t_veg p / 365.
(** The cell germinates in this event, and can keep plants. *)
Definition seeded (p : params) (e : event) : Prop := 0 <= dzbveg e /\ random e <= per_step p (germination p).
Definition habitable (p : params) (e : event) : Prop := ~ drowned p e /\ ~ too_low p e.
(** Burial (or erosion) differs less from the optimum than growth can make up for. *)
Definition outgrows (p : params) (e : event) : Prop := Rabs (dzbveg e - dzb_opt p) * veg_gamma p < V_ver p.
(** The same event with another bed level change. *)
Definition buried (e : event) (d : R) : event := {| dzbveg := d; zb := zb e; zs := zs e; random := random e; neighbours := neighbours e; size := size e |}.
