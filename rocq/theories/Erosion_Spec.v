(** What the dune erosion properties say. *)
From Verif Require Import Base Num Solver_Model Erosion_Model.
Open Scope Q_scope.

(** A row with columns in increasing order, and sensible parameters and distribution. *)
Definition increasing (nx : nat) (x : nat -> Q) : Prop := forall i j, (i < j)%nat -> (j <= nx)%nat -> x i < x j.
Definition sensible (p : params) : Prop := 0 <= slope p /\ 0 <= dt p /\ match Cs p with Some c => 0 <= c | None => True end.
Definition distribution (cdf : Q -> Q) : Prop := forall q, 0 <= cdf q <= 1.
(** The volume of sand in a row with spacing d, above a level. *)
Definition sand (nx : nat) (d : Q) (z : nat -> Q) : Q := sumn (S nx) (fun j => d * z j).
(** The volume that waves erode from a dune in this step: Palmsten and Holman (2012). *)
Definition demand (cdf : Q -> Q) (p : params) (wl Tp : Q) (r : transect) : Q :=
  match Cs p with
  | Some c => let w := runup r * (126 # 100) + wl - toe p in 4 * c * (w * w) * ((1 - cdf ((toe p - (setup r + wl)) / sigma_s r)) * dt p / Tp)
  | None => 0
  end.
(** The cell at which the dune is attacked: its level is nearest to that of the toe, and it is the first such. *)
Definition nearest (nx : nat) (toe : Q) (z : nat -> Q) (j : nat) : Prop :=
  (j <= nx)%nat /\ (forall i, (i <= nx)%nat -> qabs (z j - toe) <= qabs (z i - toe)) /\ (forall i, (i < j)%nat -> qabs (z j - toe) < qabs (z i - toe)).
(** The level to which cell j is lowered when the toe is in cell s: a line rising from the toe, or the bed if that is lower. *)
Definition trajectory (p : params) (r : transect) (s j : nat) : Q := qmin (zb r j) (toe p + slope p * (54 # 100) * (x r j - x r s)).
(** Row r becomes r': from the toe s to a scarp e the bed is lowered to the trajectory, elsewhere it stays. *)
Definition scarped (nx : nat) (p : params) (r r' : transect) (s e : nat) : Prop :=
  x r' = x r /\ (s <= e <= nx)%nat /\ (forall j, (j < s \/ e <= j)%nat -> zb r' j = zb r j) /\ (forall j, (s <= j < e)%nat -> zb r' j == trajectory p r s j).
(** The volume between bed and trajectory from the cell after s up to k. *)
Definition above (p : params) (r : transect) (s k : nat) : Q := sumn (k - s) (fun m => qabs (x r 1%nat - x r 0%nat) * (zb r (s + 1 + m)%nat - trajectory p r s (s + 1 + m)%nat)).
(** The same row under a stronger attack. *)
Definition with_runup (r : transect) (R : Q) : transect := {| x := x r; zb := zb r; runup := R; setup := setup r; sigma_s := sigma_s r |}.
Definition with_storm (p : params) (c d : Q) : params := {| toe := toe p; slope := slope p; Cs := Some c; dt := d |}.
(** Waves reach the toe half of the time. *)
Definition half (q : Q) : Q := 1 # 2.
