(** Specifications for C19-C22, C47, C55. *)
From Verif Require Import Base Num.
From Coq Require Import Sorting.Sorted.
Open Scope Q_scope.

(** A distribution: non-negative numbers with sum one. *)
Definition distribution (l : list Q) : Prop := (forall x, In x l -> 0 <= x) /\ qsum l == 1.
Definition all_nonneg (l : list Q) : Prop := forall x, In x l -> 0 <= x.
(** Equality of lists of rationals as numbers. *)
Definition same (a b : list Q) : Prop := Forall2 Qeq a b.
(** Column [j] of a matrix given by rows. *)
Definition column (j : nat) (m : list (list Q)) : list Q := map (fun row => nth j row 0) m.
(** Points of a series, with strictly increasing times. *)
Definition series (pts : list (Q * Q)) : Prop := StronglySorted Qlt (map fst pts).
Definition within (lo hi : Q) (l : list Q) : Prop := forall x, In x l -> lo <= x /\ x <= hi.
(** [v] lies on the straight line between two points. *)
Definition on_line (a b : Q * Q) (x v : Q) : Prop := (v - snd a) * (fst b - fst a) == (snd b - snd a) * (x - fst a).
(** Composition of two masks, the first [m1], as complex numbers (a, b) acting as v -> a v + b. *)
Definition compose (m1 m2 : Q * Q) : Q * Q := (fst m1 * fst m2, snd m1 * fst m2 + snd m2).
