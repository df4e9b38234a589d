(** What the output should say about fluxes and pickup. Nothing here uses the accumulators of the model. *)
From Coq Require Import QArith Reals List.
From Verif Require Import Base Num Utils_Model Bed_Model Solver_Model Run_Model Run_Spec Report_Model.
Import ListNotations.
Local Open Scope R_scope.

(** The magnitude of a flux. *)
Definition magnitude (x : R * R) : R := sqrt (Rsqr (fst x) + Rsqr (snd x)).
(** The fluxes of the steps since the last time the statistics were cleared: those the wind gives, zero without wind. *)
Fixpoint fluxes (xs : list event) (since : list (R * R)) : list (R * R) :=
  match xs with
  | [] => since
  | Wind a b :: r => fluxes r (since ++ [(a, b)])
  | Calm :: r => fluxes r (since ++ [(0, 0)])
  | Clear :: r => fluxes r []
  end.
Definition sum_of (l : list R) : R := fold_right Rplus 0 l.
(** The variance of a sample. *)
Definition mean_of (l : list R) : R := sum_of l / INR (length l).
Definition spread (l : list R) : R := sum_of (map (fun x => Rsqr (x - mean_of l)) l) / (INR (length l) - 1).
(** There is wind in all steps. *)
Definition no_calm (xs : list event) : Prop := ~ In Calm xs.
(** The fluxes of the steps in an interval between two outputs, and the flux before it. *)
Definition interval (before : list event) (steps : list (R * R)) : list event := before ++ Clear :: map (fun x => Wind (fst x) (snd x)) steps.
(** The last flux of the wind before the interval; nothing before the first. *)
Fixpoint last_flux (xs : list event) (x : R * R) : R * R :=
  match xs with
  | [] => x
  | Wind a b :: r => last_flux r (a, b)
  | _ :: r => last_flux r x
  end.

Local Open Scope Q_scope.
(** Sand that has left the bed of a cell. *)
Definition eroded (e : setup) (s s' : state) (j : nat) : Q := rhog (bedp e) * (1 - porosity (bedp e)) * (level s j - level s' j).
Definition always_windy (weather : list (option (list wind))) : Prop := ~ In None weather.
