(** What limits the change of the bed at one place during a run. Nothing here uses the solver, the update or the mixing of the bed. *)
From Coq Require Import QArith Reals Qreals List.
From Verif Require Import Base Num Ext Bed_Model Solver_Model Solver_Spec Run_Model Run_Spec Day_Model Threshold_Model Threshold_Spec.
Import ListNotations.
Open Scope Q_scope.

(** Wind over a rectangular grid, nowhere blowing apart; nothing negative; the linear solver is exact. *)
Definition plain_wind (sp : (nat -> nat -> Q) -> (nat -> Q) -> nat -> Q) (k : cfg) (w : wind) : Prop :=
  rectangular k (speed w) /\ lateral_uniform k (speed w) /\ gathering k (speed w) /\ quiet_ends k (speed w) /\ nonnegative_ends k (speed w) /\
  exact_solver (number_of_cells k) (matrix k (speed w)) sp /\ forall i, (i < number_of_cells k)%nat -> 0 <= wCu w i /\ 0 <= wCu0 w i /\ 0 <= wCuf w i.
(** In every cell the capacity over resting and over moving sand is the same, or nothing moves (as on a non-erodible layer, where only the first is zero). *)
Definition plain_winds (sp : (nat -> nat -> Q) -> (nat -> Q) -> nat -> Q) (nf : nat) (k : cfg) (ws : list wind) : Prop :=
  length ws = nf /\ (forall w, In w ws -> plain_wind sp k w) /\
  forall j, (j < number_of_cells k)%nat -> (forall w, In w ws -> wCuf w j == wCu w j) \/ (forall w, In w ws -> wCu w j == 0).
(** Whatever happened before. *)
Definition plain_climate (sp : (nat -> nat -> Q) -> (nat -> Q) -> nat -> Q) (nf : nat) (k : cfg) (climate : list state -> day) : Prop :=
  forall past ws, blow (climate past) = Some ws -> plain_winds sp nf k ws.

(** What the wind can carry over cell [j], all fractions together, and what it does carry there. *)
Definition can_carry (ws : list wind) (j : nat) : Q := qsum (map (fun w => wCu w j) ws).
Definition does_carry (os : list outcome) (j : nat) : Q := qsum (map (fun o => ct o j) os).
(** The same over all steps, and the change of level by avalanches and other reshaping. *)
Definition can_carry_in (t : list diary) (j : nat) : Q := qsum (map (fun d => can_carry (winds d) j) t).
Definition does_carry_in (t : list diary) (j : nat) : Q := qsum (map (fun d => does_carry (results d) j) t).
Definition lifted_in (t : list diary) (j : nat) : Q := qsum (map (fun d => lifted d j) t).
(** The mass of sediment in a change of level. *)
Definition sediment (e : setup) (dz : Q) : Q := Bed_Model.rhog (bedp e) * (1 - Bed_Model.porosity (bedp e)) * dz.
(** The wind can carry nothing over cell [j] as long as it lies at or below the level [z]. *)
Definition spared_below (j : nat) (z : Q) (climate : list state -> day) : Prop :=
  forall s past ws, level s j <= z -> blow (climate (s :: past)) = Some ws -> can_carry ws j == 0.
(** Nothing but the wind lowers cell [j]. *)
Definition never_lowered (j : nat) (climate : list state -> day) : Prop := forall past z, z j <= reshape (climate past) z j.
(** In one step the wind can take no more than a layer of thickness [h] from cell [j]. *)
Definition erodes_at_most (k : cfg) (e : setup) (j : nat) (h : Q) (climate : list state -> day) : Prop :=
  forall past ws, blow (climate past) = Some ws -> can_carry ws j * (dt k / T k) <= sediment e h.

(** The capacities of the winds over cell [j] at level [z] follow from the thresholds there (threshold.py:60-120, transport.py:256-368) with the non-erodible layer at level [nel] taken into account. *)
Definition with_threshold (nel z : Q) (j : nat) (ws : list wind) : Prop :=
  exists p c t t', th_nelayer p = true /\ Threshold_Model.zb c = Q2R z /\ Threshold_Model.ne c = Q2R nel /\ compute p c t = Ok t' /\
    Forall2 (fun u w => exists q tr rows g a b, good_t q /\ (0 < accfac q)%R /\ process_transport q = true /\ (0 <= gu g)%R /\ (0 <= gustar g)%R /\ (0 < gd g)%R /\
      guth g = u /\ equilibrium q tr rows g a = Ok b /\ Threshold_Model.Cu b = Fin (Q2R (wCu w j))) (uth t') ws.
(** In every step. *)
Definition rocky (nel : Q) (j : nat) (climate : list state -> day) : Prop :=
  forall s past ws, blow (climate (s :: past)) = Some ws -> with_threshold nel (level s j) j ws.
