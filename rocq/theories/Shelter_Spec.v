(** What the sheltering properties say. *)
From Coq Require Import Reals.
From Verif Require Import Base Wind_Model Wind_Spec Shelter_Model.
Open Scope R_scope.

(** The shear velocity of s' is f times that of s, in the same direction. *)
Definition multiplied (f : R) (s s' : flow) : Prop := ustar s' = f * ustar s /\ ustars s' = f * ustars s /\ ustarn s' = f * ustarn s.
(** Cell j lies upwind of every plant or fence, for a wind with component u along x. *)
Definition upwind (n : nat) (u : R) (x h : row) (j : nat) : Prop := forall i, (i < n)%nat -> 0 < h i -> (x j - x i) * u < 0.
(** There is no plant or fence. *)
Definition open_ground (n : nat) (h : row) : Prop := forall i, (i < n)%nat -> h i <= 0.
(** The remaining share of the shear velocity in the parametrisation of Okin is sensible. *)
Definition okin_ok (intercept c1 : R) : Prop := 0 <= intercept <= 1 /\ 0 <= c1.
(** A uniform wind of unit shear velocity. *)
Definition breeze (d us un : R) : nat -> flow := fun _ => {| uw := 10; udir := d; uws := 10 * us; uwn := 10 * un; ustar := 1; ustars := us; ustarn := un; tau := 1; taus := us; taun := un |}.
