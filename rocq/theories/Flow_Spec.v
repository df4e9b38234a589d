(** Notions in which the flow of groundwater is compared with the documented equation (docs/user/model.rst, boussinesq). *)
From Coq Require Import ZArith.
From Verif Require Import Base Num Hydro_Model Hydro_Spec.
Open Scope Q_scope.

(** The documented rate of change K/ne d/dx ((D + eta) d eta/dx) where the groundwater table has level [eta], slope [s] and curvature [c]
    (first and second derivative), without infiltration. *)
Definition documented_rise (g : gwcfg) (eta s c : Q) : Q := K_gw g / ne_gw g * (s * s + (D_gw g + eta) * c).
(** Around cell [j] of a grid with spacing [e] the groundwater table is a parabola with that level, slope and curvature at [j]. *)
Definition offset (e : Q) (i j : nat) : Q := inject_Z (Z.of_nat i - Z.of_nat j) * e.
Definition curved (e eta s c : Q) (gw : list Q) (j : nat) : Prop :=
  forall i, (j <= i + 2)%nat -> (i <= j + 2)%nat -> nth i gw 0 == eta + s * offset e i j + c / 2 * (offset e i j * offset e i j).
(** A cell landward of the shoreline [shl] and not at the landward boundary of a row of [n] cells, with cells of size [e] around it. *)
Definition inner_cell (n shl j : nat) (e : Q) (ds : list Q) : Prop :=
  (1 <= shl)%nat /\ (shl + 1 <= j)%nat /\ (j + 3 < n)%nat /\ length ds = n /\ (forall i, (j <= i + 1)%nat -> (i <= j + 1)%nat -> nth i ds 0 == e) /\ ~ e == 0.
(** The same aquifer with levels measured from a datum that is lower by [d]: the depth below the datum is smaller by [d]. *)
Definition lower_datum (d : Q) (g : gwcfg) : gwcfg :=
  {| static := static g; GW_stat := GW_stat g + d; K_gw := K_gw g; ne_gw := ne_gw g; D_gw := D_gw g - d; Cl_gw := Cl_gw g; seepage := seepage g; waves := waves g |}.

(** The documented distribution of the water that infiltrates from runup (gw-runup-distribution), between the shoreline at [xs] and the limit of the
    runup at [xr]. *)
Definition swash_share (xs xr x : Q) : Q :=
  if Qle_bool x xs then 0 else if Qle_bool x (xs + (2 # 3) * (xr - xs)) then (x - xs) / ((2 # 3) * (xr - xs))
  else if Qle_bool xr x then 0 else 3 - (x - xs) / ((1 # 3) * (xr - xs)).
(** The documented rise of the groundwater by it in [dt] seconds (gw-runup, boussinesq): U_l / ne with U_l = Cl K f. *)
Definition documented_swash (g : gwcfg) (dt f : Q) : Q := dt * (Cl_gw g * K_gw g * f / ne_gw g).
(** The same aquifer with or without infiltration from runup. *)
Definition with_waves (b : bool) (g : gwcfg) : gwcfg :=
  {| static := static g; GW_stat := GW_stat g; K_gw := K_gw g; ne_gw := ne_gw g; D_gw := D_gw g; Cl_gw := Cl_gw g; seepage := seepage g; waves := b |}.
(** Cell [j] is not masked and lies above the sea, and its groundwater is below the bed at the end of the step, at level [w]. *)
Definition free_cell (row : gwrow) (lv : levels) (gw : list Q) (j : nat) (w : Q) : Prop :=
  nth_error gw j = Some w /\ exists m z s, nth_error (gmask row) j = Some m /\ unmasked m /\ nth_error (gzb row) j = Some z /\ nth_error (dswl lv) j = Some s /\ s <= z /\ w < z.
(** The swash zone runs from column [s] to column [r] of an evenly spaced row, both inside the row. *)
Definition swash_zone (row : gwrow) (lv : levels) (d : Q) (s r : nat) : Prop :=
  0 < d /\ even_spacing d (gx row) /\ shore (gzb row) (dswl lv) = Z.of_nat s /\ shore (gzb row) (twl lv) = Z.of_nat r /\ (s < r)%nat /\ (r < length (gx row))%nat.
(** The last column that is not beyond two thirds of the swash zone. *)
Definition peak_cell (s r j : nat) : Prop := (3 * j <= 3 * s + 2 * (r - s) < 3 * (j + 1))%nat.
