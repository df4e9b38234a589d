(** The weights of the fractions that are kept after a step: what they should be. *)
From Verif Require Import Base Num Utils_Model Bed_Model Solver_Model Run_Model.
Open Scope Q_scope.

(** The weights of the fractions in cell [j] before any of them is limited by supply: those of air and bed, at the start of a run the configured distribution. *)
Definition at_first (e : setup) (t0 : bool) (s : state) (ws : list wind) (j : nat) : list Q :=
  if (t0 && negb (bedcomp e))%bool then grains e else weights_now (bi e) s ws j.
(** The weights kept in the state for cell [j] are those with which the concentrations of all fractions were computed. *)
Definition kept (s : state) (os : list outcome) (j : nat) : Prop :=
  forall i o, nth_error os i = Some o -> nth i (oldw s j) 0 == weight o j.
