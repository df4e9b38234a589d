(** Model of the slopes and the grain speeds on the grid: /repo/aeolis/transport.py:129-147 and 158-198 ([duran_grainspeed]). Reals instead of doubles; the formulas of one cell are in Threshold_Model.v.
    A single column (nx = 0) is not covered: reading its second column raises IndexError where there is more than one row. *)
From Coq Require Import Reals Bool Arith.
From Verif Require Import Base Threshold_Model.
Open Scope R_scope.

(** Rows 0..ny and columns 0..nx. *)
Definition plane := nat -> nat -> R.
(** transport.py:130-134: central differences in the inner columns, zero in the outer ones; the division is by the difference of the x coordinates. *)
Definition inner_s (nx : nat) (z x : plane) : plane := fun i j => if Nat.leb 1 j && Nat.ltb j nx then (z i (j + 1)%nat - z i (j - 1)%nat) / (x i (j + 1)%nat - x i (j - 1)%nat) else 0.
(** transport.py:131-135 *)
Definition inner_n (ny : nat) (z y : plane) : plane := fun i j => if Nat.leb 1 i && Nat.ltb i ny then (z (i - 1)%nat j - z (i + 1)%nat j) / (y (i - 1)%nat j - y (i + 1)%nat j) else 0.
(** transport.py:138-142: the outer cells get the slope of their neighbours if there is more than one row; line 142 after line 140. *)
Definition slope_s (ny nx : nat) (z x : plane) : plane := fun i j =>
  if Nat.ltb 0 ny then if Nat.eqb j nx then (if Nat.eqb nx 1 then inner_s nx z x i 1%nat else inner_s nx z x i (nx - 1)%nat) else if Nat.eqb j 0 then inner_s nx z x i 1%nat else inner_s nx z x i j else inner_s nx z x i j.
Definition slope_n (ny : nat) (z y : plane) : plane := fun i j =>
  if Nat.ltb 0 ny then if Nat.eqb i ny then (if Nat.eqb ny 1 then inner_n ny z y 1%nat j else inner_n ny z y (ny - 1)%nat j) else if Nat.eqb i 0 then inner_n ny z y 1%nat j else inner_n ny z y i j else inner_n ny z y i j.
(** The wind and the shear velocity of a cell: magnitude and components; whether it is in a separation bubble. *)
Record air := { uw : R; uws : R; uwn : R; ustar : R; ustars : R; ustarn : R; bubble : bool }.
(** transport.py:144-198, one fraction. *)
Definition grain_speeds (q : dparams) (ny nx : nat) (x y z : plane) (uth0 : plane) (a : nat -> nat -> air) (i j : nat) : R * R * R :=
  let c := a i j in duran_grainspeed q (uth0 i j) (uw c) (uws c) (uwn c) (ustar c) (ustars c) (ustarn c) (slope_s ny nx z x i j) (slope_n ny z y i j) (bubble c).
