(** What the grain speed and the slopes should be (Duran 2007, 1.53-1.60; documentation of method_grainspeed). *)
From Coq Require Import Reals.
From Verif Require Import Base Threshold_Model Grain_Model.
Open Scope R_scope.

(** [w] is the velocity at which a grain falls steadily: its weight in air equals the drag. *)
Definition settles (q : dparams) (w : R) : Prop :=
  0 < w /\ (drhog q - drhoa q) * dg q * (PI / 6 * (dsize q * dsize q * dsize q)) = 1 / 2 * drhoa q * d_Cd q * (PI / 4 * (dsize q * dsize q)) * (w * w).
(** Direction of the air: of the shear, of the wind below 0.05 m/s. *)
Definition along (c : air) (es en : R) : Prop :=
  (5 / 100 <= ustar c -> es * ustar c = ustars c /\ en * ustar c = ustarn c) /\ (ustar c < 5 / 100 -> es * uw c = uws c /\ en * uw c = uwn c).
(** The speed of the air that the grains feel: none below the threshold; a logarithmic profile at the threshold, from there on linear in the shear velocity. *)
Definition felt (q : dparams) (uth0 us v : R) : Prop :=
  (us < uth0 -> v = 0) /\ (uth0 <= us -> dkappa q * v = uth0 * ln (d_z1 q / d_z0 q) + d_z1 q / d_zm q uth0 * (us - uth0)).
(** Grains lag behind the air: by the fall velocity divided by the root of 2 alpha, in the direction [(fs, fn)]. *)
Definition lags (q : dparams) (w fs fn ls ln_ : R) : Prop :=
  2 * d_alpha q * (ls * ls + ln_ * ln_) = w * w /\ ls * fn = ln_ * fs /\ 0 < ls * fs + ln_ * fn.
(** Rectangular grid with increasing coordinates; a plane bed. *)
Definition straight (ny nx : nat) (x y : plane) (px py : nat -> R) : Prop :=
  (forall i j, (i <= ny)%nat -> (j <= nx)%nat -> x i j = px j /\ y i j = py i) /\ (forall j, (j < nx)%nat -> px j < px (S j)) /\ (forall i, (i < ny)%nat -> py i < py (S i)).
Definition sloping (ny nx : nat) (x y z : plane) (a b c : R) : Prop := forall i j, (i <= ny)%nat -> (j <= nx)%nat -> z i j = a + b * x i j + c * y i j.
