(** Specification of properties C148-C150, the filters of the separation surface, in terms of rows and columns of numbers. *)
From Verif Require Import Base Shear_Model.
From Coq Require Import Reals.
Open Scope R_scope.

(** What a filter for high frequencies does with [n] values: a level surface stays as it is, and the shortest wave, up and down from column to column, gets lower. *)
Definition zigzag (l : nat) : R := if Nat.even l then 1 else - 1.
Definition low_pass (n : nat) (f : (nat -> R) -> nat -> R) : Prop :=
  (forall h l, (l < n)%nat -> f (fun _ => h) l = h) /\ (forall l, (l < n)%nat -> Rabs (f zigzag l) < 1).
(** The sum of a column over the first [m] rows. *)
Fixpoint volume (m : nat) (v : field) (l : nat) : R := match m with O => 0 | S k => volume k v l + v k l end.
(** The values in a column lie between two bounds. *)
Definition column_between (m : nat) (v : field) (l : nat) (lo hi : R) : Prop := forall r, (r < m)%nat -> lo <= v r l <= hi.
