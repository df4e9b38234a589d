(** The pace at which vegetation should grow. *)
From Coq Require Import Reals.
From Verif Require Import Base Veg_Model.
Open Scope R_scope.

(** The same parameters in a time step of [d] seconds: model.py:604-636 takes shorter steps than p['dt'] for the stability of the solver and for
    max_bedlevel_change, or a length given by the caller of [update]. *)
Definition with_length (p : params) (d : R) : params :=
  {| veggrowth_type := veggrowth_type p; V_ver := V_ver p; hveg_max := hveg_max p; dzb_opt := dzb_opt p; veg_gamma := veg_gamma p; t_veg := t_veg p; v_gam := v_gam p;
     rhoveg_max := rhoveg_max p; germination := germination p; lateral_spread := lateral_spread p; dt_opt := d; dt := dt p; accfac := accfac p;
     process_tide := process_tide p; veg_min_elevation := veg_min_elevation p |}.
(** The years in [seconds] seconds of simulation, and the morphological years for which they stand. *)
Definition years (p : params) (seconds : R) : R := accfac p * (seconds / (36525 / 100 * 86400)).
(** The rates of growth in height and in cover, per year: towards the maximum, and less by burial or erosion other than the best. *)
Definition taller_per_year (p : params) (e : event) (h : R) : R := V_ver p * (hveg_max p - h) / hveg_max p - veg_gamma p * Rabs (dzbveg e - dzb_opt p).
Definition denser_per_year (p : params) (e : event) (rho : R) : R := 365 / t_veg p * (rhoveg_max p - rho) - v_gam p * veg_gamma p / hveg_max p * Rabs (dzbveg e - dzb_opt p).
