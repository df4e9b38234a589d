(** The bed level change to which plants should respond. *)
From Coq Require Import QArith.
From Verif Require Import Base.
Open Scope Q_scope.

(** The average rate [m/year] over a period of [seconds] of simulation that stand for [accfac] times as much, from the level at its start and at its end:
    constants.py:288, avg_time is "the time period over which the bed level change is averaged for vegetation growth". *)
Definition average_rate (start final seconds accfac : Q) : Q := (final - start) / (seconds * accfac / ((36525 # 100) * 86400)).
(** Levels after successive steps; each step changes the level by [d]. *)
Definition steady (d : Q) (levels : list Q) : Prop := forall k z z', nth_error levels k = Some z -> nth_error levels (S k) = Some z' -> z' - z == d.
