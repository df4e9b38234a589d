(** What must not matter to avalanching: the level from which heights are counted, which way the grid is looked at, the unit of length. *)
From Coq Require Import Reals.
Open Scope R_scope.

(** The grid [g] is the grid [f] ([ny] rows, [nx] columns) with its columns, its rows, or both in the other order; with rows and columns exchanged. *)
Definition flipped_s (ny nx : nat) (f g : nat -> nat -> R) : Prop := forall j i, (j < ny)%nat -> (i < nx)%nat -> g j (nx - 1 - i)%nat = f j i.
Definition flipped_n (ny nx : nat) (f g : nat -> nat -> R) : Prop := forall j i, (j < ny)%nat -> (i < nx)%nat -> g (ny - 1 - j)%nat i = f j i.
Definition exchanged (ny nx : nat) (f g : nat -> nat -> R) : Prop := forall j i, (j < ny)%nat -> (i < nx)%nat -> g i j = f j i.
(** All heights counted from a level that is [h] lower; all lengths in another unit, of which there are [k] in the old one. *)
Definition lifted (ny nx : nat) (h : R) (f g : nat -> nat -> R) : Prop := forall j i, (j < ny)%nat -> (i < nx)%nat -> g j i = f j i + h.
Definition in_unit (ny nx : nat) (k : R) (f g : nat -> nat -> R) : Prop := forall j i, (j < ny)%nat -> (i < nx)%nat -> g j i = k * f j i.
