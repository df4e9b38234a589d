(* What the clock and the output schedule should be, in exact arithmetic on the numbers of the configuration file. *)
From Coq Require Import QArith Qpower Qround ZArith List Arith.
From Verif Require Import Base Num Time_Spec Round_Model.
Import ListNotations.
Open Scope Q_scope.

(* The time between two updates. *)
Definition interval (g : timing) : Q := g_dt g * g_accfac g.
(* The number of time points from the start up to and including the stop time. *)
Definition updates (g : timing) : nat := points (g_tstart g) (g_tstop g) (interval g).
(* The settings make sense: time runs forward from zero or later. *)
Definition forward (g : timing) : Prop := 0 <= g_tstart g /\ g_tstart g <= g_tstop g /\ 0 < g_dt g /\ 0 < g_accfac g /\ 0 < g_out g.
(* [x] is a whole number of units of 2^k. *)
Definition units (k : Z) (x : Q) : Prop := exists z : Z, x == inject_Z z * 2 ^ k.
(* All times are whole numbers of some binary unit (seconds, half seconds, ...), at most 2^53 of them, and the acceleration is whole. *)
Definition binary (k : Z) (g : timing) : Prop :=
  units k (g_tstart g) /\ units k (g_tstop g) /\ units k (g_dt g) /\ units k (g_out g) /\ units 0 (g_accfac g) /\
  g_accfac g <= 2 ^ 53 /\ g_out g <= 2 ^ 53 * 2 ^ k /\ g_tstop g + interval g <= 2 ^ 53 * 2 ^ k.
(* The run is not so long that rounding errors add up to a time step (some tens of millions of updates). *)
Definition short (g : timing) : Prop :=
  (g_tstop g + 2 * interval g) * (4 * inject_Z (Z.of_nat (updates g)) + 25) < interval g * 2 ^ 53.
(* The updates, counted from the start, after which output is due every [m] updates. *)
Definition every (m n : nat) : list nat := filter (fun j => (j mod m =? 0)%nat) (seq 0 (S n)).
(* Output starts with update 0, and then comes after [m] or [m+1] updates each time, to the end. *)
Definition about_every (m n : nat) (l : list nat) : Prop :=
  nth_error l 0 = Some 0%nat /\
  (forall i a b, nth_error l i = Some a -> nth_error l (S i) = Some b -> b = (a + m)%nat \/ b = (a + m + 1)%nat) /\
  (forall i a, nth_error l i = Some a -> nth_error l (S i) = None -> (a <= n <= a + m)%nat).
