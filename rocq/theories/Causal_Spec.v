(** What it means that something lies downwind. Nothing here uses the matrix, the right hand side or the iteration. *)
From Coq Require Import QArith List Arith.
From Verif Require Import Base Num Utils_Spec Bed_Spec Bed_Model Solver_Model Solver_Spec Run_Model.
Import ListNotations.
Open Scope Q_scope.

(** Two fields agree in the columns up to [c]. *)
Definition agree_upto (k : cfg) (c : nat) (x x' : nat -> Q) : Prop := forall r j, (r <= ny k)%nat -> (j <= c)%nat -> at_cell k x r j == at_cell k x' r j.
Definition agree_upto2 (k : cfg) (c : nat) (g g' : nat -> nat -> Q) : Prop := forall r j, (r <= ny k)%nat -> (j <= c)%nat -> g r j == g' r j.
(** The same wind and grid up to column [c]. *)
Definition same_wind_upto (k : cfg) (c : nat) (f f' : flow) : Prop :=
  agree_upto2 k c (us f) (us f') /\ agree_upto2 k c (un f) (un f') /\ agree_upto2 k c (uu f) (uu f') /\ agree_upto2 k c (ds f) (ds f') /\ agree_upto2 k c (dn f) (dn f').
(** The same bed and air up to column [c]. *)
Definition same_input_upto (k : cfg) (c : nat) (d d' : input) : Prop :=
  agree_upto k c (Cu d) (Cu d') /\ agree_upto k c (Cuf d) (Cuf d') /\ agree_upto k c (Cu0 d) (Cu0 d') /\ agree_upto k c (mass d) (mass d') /\
  agree_upto k c (lCt d) (lCt d') /\ agree_upto k c (sat d) (sat d').
(** Up to column [c] the wind does not blow from the land. *)
Definition onshore_upto (k : cfg) (c : nat) (f : flow) : Prop := forall r j, (r <= ny k)%nat -> (j <= c)%nat -> 0 <= us f r j.
(** The same results up to column [c]. *)
Definition same_outcome_upto (k : cfg) (c : nat) (o o' : outcome) : Prop :=
  agree_upto k c (ct o) (ct o') /\ agree_upto k c (pickup o) (pickup o') /\ agree_upto k c (weight o) (weight o').
(** Up to column [c] both steps are the same. *)
Definition differ_downwind (k : cfg) (c : nat) (f f' : flow) (d d' : input) (w w' : nat -> Q) : Prop :=
  (c < nx k)%nat /\ onshore_upto k c f /\ same_wind_upto k c f f' /\ same_input_upto k c d d' /\ agree_upto k c w w'.

(** ** Whole runs *)
Definition class_upto (k : cfg) (c : nat) (x x' : flow * input) : Prop := same_wind_upto k c (fst x) (fst x') /\ same_input_upto k c (snd x) (snd x').
Definition wind_upto (k : cfg) (c : nat) (w w' : wind) : Prop :=
  same_wind_upto k c (speed w) (speed w') /\ agree_upto k c (wCu w) (wCu w') /\ agree_upto k c (wCuf w) (wCuf w') /\ agree_upto k c (wCu0 w) (wCu0 w').
Definition hour_upto (k : cfg) (c : nat) (x x' : option (list wind)) : Prop :=
  match x, x' with None, None => True | Some ws, Some ws' => Forall2 (wind_upto k c) ws ws' | _, _ => False end.
(** The same layers and levels. *)
Definition same_ground (a a' : bedcell) : Prop := Forall2 same (Bed_Model.mass a) (Bed_Model.mass a') /\ zb a == zb a' /\ zs a == zs a'.
(** The same bed and air up to column [c]. *)
Definition same_state_upto (k : cfg) (c : nat) (s s' : state) : Prop :=
  Forall2 (agree_upto k c) (air s) (air s') /\
  forall r j a a', (r <= ny k)%nat -> (j <= c)%nat -> nth_error (sand s) (r * S (nx k) + j) = Some a -> nth_error (sand s') (r * S (nx k) + j) = Some a' -> same_ground a a'.
