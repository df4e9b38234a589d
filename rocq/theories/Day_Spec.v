(** What the properties of whole runs with waves and feedback say. Nothing here uses the solver, the update or the mixing of the bed. *)
From Verif Require Import Base Num Utils_Model Utils_Spec Bed_Spec Bed_Model Solver_Model Solver_Spec Run_Model Run_Spec Day_Model.
Open Scope Q_scope.

(** Whatever happened before, the wind is as in a fair run (Run_Spec), or calm. *)
Definition fair_climate (sp : (nat -> nat -> Q) -> (nat -> Q) -> nat -> Q) (nf : nat) (k : cfg) (g : nat -> nat -> Q) (climate : list state -> day) : Prop :=
  forall past ws, blow (climate past) = Some ws -> length ws = nf /\ forall w, In w ws -> fair_wind sp k g w.
Definition limited_climate (k : cfg) (M : Q) (climate : list state -> day) : Prop := forall past ws, blow (climate past) = Some ws -> forall w, In w ws -> limited_wind k M w.
(** The layers have a thickness each, none of it negative. *)
Definition fits (m : mixing) (s : state) : Prop := forall j c, nth_error (sand s) j = Some c -> length (thick m j) = length (Bed_Model.mass c) /\ Utils_Spec.all_nonneg (thick m j).
(** A step without wind, or one whose iterations have converged and that exchanges less than a layer of mass [L] in every cell. *)
Definition gentle (k : cfg) (L : Q) (d : diary) : Prop :=
  results d = [] \/ (forall o, In o (results d) -> converged o = true) /\
    forall j, (j < number_of_cells k)%nat -> qabs (net_deposit (picked (results d) j)) <= L /\ net_deposit (picked (results d) j) < L.
(** Sand that the wind has carried into the inner cells, less what it has carried out. *)
Definition sand_blown (k : cfg) (t : list diary) : Q := qsum (map (fun d => blown_step k (winds d) (results d)) t).
(** Sand that reshaping the bed has added to the inner cells. *)
Definition sand_lifted_day (k : cfg) (e : setup) (g : nat -> nat -> Q) (d : diary) : Q :=
  over_inside k (fun r c => g r c * (rhog (bedp e) * (1 - porosity (bedp e)) * lifted d (r * S (nx k) + c)%nat)).
Definition sand_lifted (k : cfg) (e : setup) (g : nat -> nat -> Q) (t : list diary) : Q := qsum (map (sand_lifted_day k e g) t).
(** Steps with wind. *)
Definition windy_days (t : list diary) : nat := length (filter (fun d => match results d with [] => false | _ => true end) t).
(** Two beds of which every cell holds the same grains, over all layers, and the same level. *)
Definition same_grains (cs cs' : list bedcell) : Prop :=
  Forall2 (fun c c' => (forall i, fraction_mass i (Bed_Model.mass c') == fraction_mass i (Bed_Model.mass c)) /\ zb c' == zb c) cs cs'.
(** A cell with layers of given thickness, grains in them, and waves over it, as mixing reads it. *)
Definition mixable (nf : nat) (c : mixcell) : Prop := length (thlyr c) = length (mixmass c) /\ shaped nf (mixmass c) /\ nonneg_bed (mixmass c) /\ Utils_Spec.all_nonneg (thlyr c).
(** The two beds differ in fraction [i] between layers [a] and [b] by this. *)
Definition contrast (m : list (list Q)) (i a b : nat) : Q := nth i (nth a m []) 0 - nth i (nth b m []) 0.
