(** Notions in which the properties of moisture, salt, evaporation and runup are stated. *)
From Verif Require Import Base Moist_Model.
From Coq Require Import Reals.
Open Scope R_scope.

(** [x] lies between [a] and [b], in whatever order they are. *)
Definition lies_between (a b x : R) : Prop := Rmin a b <= x <= Rmax a b.
(** Cells in the same place under the same groundwater and water level, except for the moisture. *)
Definition dry (p : soil) (c : cell) : Prop := TWL c - zb c <= eps p.
(** The default parameters (constants.py:227-278). *)
Definition default_soil : soil :=
  {| porosity := 4 / 10; eps := 1 / 1000; Tdry := 5400; Tsalt := 2592000; fc := 11 / 100; thick := 2 / 1000; salt_thick := 1 / 100;
     cpair := 10035 / 10000000; z := 10;
     resw := 1 / 100; satw := 35 / 100; alfaw := - (70 / 1000); nw := 23 / 10; mw := 57 / 100;
     resd := 1 / 100; satd := 5 / 10; alfad := - (35 / 1000); nd := 45 / 10; md := 42 / 100 |}.
(** Retention curves that make sense: residual below satiated moisture, positive exponents. *)
Definition sound_curves (p : soil) : Prop :=
  resw p < satw p /\ resd p < satd p /\ 0 < nw p /\ 0 < nd p /\ 0 < mw p /\ 0 < md p /\ alfaw p <> 0 /\ alfad p <> 0.
(** The heights that the search of [hdelta] tries: 0.01, 0.02, ... *)
Definition tried (k : nat) : R := INR k / 100.
(** The values stored by the previous time step fit together: the wetting curve is not above the drying scanning curve, nor above satiation. *)
Definition consistent (p : soil) (c : cell) : Prop := w_h c <= scan_d_moist c /\ w_h c <= satw p.
(** Components of the runup: set-up, swash, runup. *)
Definition setup_of (r : R * R * R) : R := fst (fst r).
Definition swash_of (r : R * R * R) : R := snd (fst r).
Definition runup_of (r : R * R * R) : R := snd r.
(** Weather in which water evaporates: temperature above absolute zero of the Tetens formula, air not supersaturated. *)
Definition ordinary (w : weather) : Prop := - (2373 / 10) < temp w /\ 0 <= rad w /\ 0 < pres w /\ 0 <= hum w <= 100 /\ 0 <= rain w.
(** The groundwater starts to fall in a cell on its wetting scanning curve. *)
Definition reversing (c : cell) : Prop := scan_w c = true /\ wetting c = true /\ gw c < gw_prev c.
(** The groundwater starts to rise in a cell on its drying scanning curve. *)
Definition resuming (c : cell) : Prop := scan_d c = true /\ wetting c = false /\ gw_prev c < gw c.
