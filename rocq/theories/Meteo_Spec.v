(** Notions in which the format of the weather file is stated (docs/user/inputfiles.rst:202-212). *)
From Coq Require Import String QArith Qreals Reals.
From Verif Require Import Base Sea_Spec Weather_Spec Moist_Model.
Open Scope Q_scope.

(** The documented columns, the first being the time: temperature in the second, precipitation in the third, relative humidity in the fourth, global radiation in the fifth, air pressure in the sixth; under the names that stand for these quantities in the computation of evaporation and rain (hydro.py:199-204). *)
Definition documented_columns : list (string * nat) := [("T", 1%nat); ("RH", 2%nat); ("U", 3%nat); ("Q", 4%nat); ("P", 5%nat)]%string.
(** The weather with which the moisture is computed, given the values that have been read: hydro.py:342-345, 573-577. *)
Definition understood (d : list (string * Q)) (w : weather) : Prop :=
  let is name x := exists q, In (name, q) d /\ Q2R q = x in
  is "T"%string (temp w) /\ is "Q"%string (rad w) /\ is "RH"%string (rain w) /\ is "P"%string (pres w) /\ is "U"%string (hum w).
(** The weather that a file in the documented format describes at time [t]. *)
Definition documented_weather (first : list Q) (rest : list (list Q)) (t : Q) (w : weather) : Prop :=
  let is c x := exists v, reads (in_column c first rest) t v /\ Q2R v = x in
  is 1%nat (temp w) /\ is 2%nat (rain w) /\ is 3%nat (hum w) /\ is 4%nat (rad w) /\ is 5%nat (pres w).
