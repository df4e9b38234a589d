(** Notions in which capillary moisture is compared with the documentation (docs/user/model.rst, "Capillary rise" and "Infiltration"). *)
From Verif Require Import Base Moist_Model.
From Coq Require Import Reals.
Open Scope R_scope.

(** The documented retention curve (vangenuchten) at a height [h] above the groundwater. *)
Definition van_genuchten (res sat alfa n m h : R) : R := res + (sat - res) / Rpower (1 + Rpower (Rabs (alfa * h)) n) m.
Definition theta_w (p : soil) (h : R) : R := van_genuchten (resw p) (satw p) (alfaw p) (nw p) (mw p) h.
Definition theta_d (p : soil) (h : R) : R := van_genuchten (resd p) (satd p) (alfad p) (nd p) (md p) h.
(** The documented scanning curves (mualem-drying, mualem-wetting) at height [h] after a reversal at height [hd]; the satiated content is that of
    the curve in question. *)
Definition mualem_drying (p : soil) (hd h : R) : R := theta_w p h + (theta_w p hd - theta_w p h) / (satd p - theta_w p h) * (theta_d p h - theta_w p h).
Definition mualem_wetting (p : soil) (hd h : R) : R := theta_w p h + (satw p - theta_w p h) / (satw p - theta_w p hd) * (theta_d p hd - theta_w p hd).
(** A value limited to an interval. *)
Definition clip (lo hi x : R) : R := Rmax lo (Rmin hi x).
(** Height of the bed above the groundwater in cm, as documented for the parameter alfa in 1/cm. *)
Definition height_cm (c : cell) : R := 100 * (zb c - gw c).
