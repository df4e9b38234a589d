(** Model of the bed level change to which plants respond: /repo/aeolis/bed.py:454-469 ([average_change]), with the rest of that function in Bed_Model.v; one cell. Exact rationals instead of doubles. *)
From Coq Require Import QArith Qreals Reals.
From Verif Require Import Base Bed_Model Veg_Model.
Open Scope Q_scope.

(** bed.py:454-468: the yearly rate, the average and the rate for the plants, given the level before and after the step and the average before. *)
Definition average_change (zb' zb dt accfac avg_time avg0 : Q) : Q * Q * Q :=
  let year := dzbyear zb' zb dt accfac in
  let avg := dzbavg zb' zb dt accfac avg_time avg0 in
  (year, avg, year).
Definition for_plants (r : Q * Q * Q) : Q := snd r.
(** The event of a cell with this rate (bed.py:466 is read in vegetation.py:101, 139, 154). *)
Definition seen (e : event) (rate : Q) : event := {| dzbveg := Q2R rate; zb := Veg_Model.zb e; zs := zs e; random := random e; neighbours := neighbours e; size := Veg_Model.size e |}.
