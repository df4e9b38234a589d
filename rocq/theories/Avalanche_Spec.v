(** Specifications for C34, C57. *)
From Verif Require Import Base.
From Coq Require Import Reals.
Open Scope R_scope.

(** Sum over i < n, and over the grid. *)
Fixpoint rsum (n : nat) (f : nat -> R) : R := match n with O => 0 | S n' => rsum n' f + f n' end.
Definition total (ny nx : nat) (z : nat -> nat -> R) : R := rsum ny (fun j => rsum nx (fun i => z j i)).

(** Drop from a height to the lower one of two neighbours; zero in a pit. *)
Definition drop (c a b : R) : R := Rmax 0 (c - Rmin a b).

(** Border of the grid; a grid of one row has no border rows. *)
Definition on_border (ny nx j i : nat) : Prop := i = 0%nat \/ S i = nx \/ (ny <> 1%nat /\ (j = 0%nat \/ S j = ny)).

(** The downward slope: steepest in x and in y. *)
Definition slope (ny : nat) (zb ds dn : nat -> nat -> R) (j i : nat) : R :=
  let dx := drop (zb j i) (zb j (S i)) (zb j (pred i)) / ds j i in
  let dy := if Nat.eqb ny 1 then 0 else drop (zb j i) (zb (S j) i) (zb (pred j) i) / dn j i in
  sqrt (dx * dx + dy * dy).
Definition stable (ny nx : nat) (zb ds dn : nat -> nat -> R) (P : R -> Prop) : Prop :=
  forall j i, (j < ny)%nat -> (i < nx)%nat -> ~ on_border ny nx j i -> P (slope ny zb ds dn j i).
