(** Specification of properties C113-C118, the two-dimensional wind shear, in terms of points, vectors and fields. *)
From Verif Require Import Base Shear_Model.
From Coq Require Import Reals.
Open Scope R_scope.

(** The unit vector in the direction to which the wind blows, nautical convention, and the component of a vector along it. *)
Definition blows_to (udir : R) : R * R := (- sin (radians udir), - cos (radians udir)).
Definition along (udir : R) (v : R * R) : R := fst v * fst (blows_to udir) + snd v * snd (blows_to udir).
Definition across (udir : R) (v : R * R) : R := along (udir - 90) v.
(** The point [s] columns and [t] rows from [o] on a grid with equal cells of sides [e] and [f]. *)
Definition spot (o e f : R * R) (s t : R) : R * R := (fst o + s * fst e + t * fst f, snd o + s * snd e + t * snd f).
Definition equal_cells (g : grid) (o e f : R * R) : Prop := forall r c, place g r c = spot o e f (INR c) (INR r).
Definition perpendicular (e f : R * R) : Prop := fst e * fst f + snd e * snd f = 0.
Definition nonzero (e : R * R) : Prop := e <> (0, 0).
(** The direction is not within a thousandth of a degree of a multiple of 90 degrees. *)
Definition oblique (udir : R) : Prop := forall k : Z, 1 / 1000 < Rabs (udir - 90 * IZR k).
(** The direction is such a multiple, or close to it. *)
Definition straight (udir : R) : Prop := exists k : Z, (-12 <= k < 12)%Z /\ Rabs (udir - 90 * IZR k) <= 1 / 1000.
(** The point lies in one of the cells of the grid. *)
Definition within (g : grid) (p : R * R) : Prop := exists r c s t, (S r < rows g)%nat /\ (S c < cols g)%nat /\ 0 <= s <= 1 /\ 0 <= t <= 1 /\
  p = spot (place g r c) (fst (place g r (S c)) - fst (place g r c), snd (place g r (S c)) - snd (place g r c))
        (fst (place g (S r) c) - fst (place g r c), snd (place g (S r) c) - snd (place g r c)) s t.
(** All values of a field between two bounds. *)
Definition between (m n : nat) (z : field) (lo hi : R) : Prop := forall r c, (r < m)%nat -> (c < n)%nat -> lo <= z r c <= hi.
(** No slope over two columns steeper than [mu] degrees downwards. *)
Definition gentle (n : nat) (dx mu : R) (z : nat -> R) : Prop :=
  forall i, (i + 2 < n)%nat -> - mu <= degrees (atan ((z (i + 2)%nat - z i) / (2 * dx))).
(** The bed moved over [a] rows and [b] columns, around the edges of the grid. *)
Definition moved (m n a b : nat) (z : field) : field := fun r c => z ((r + a) mod m)%nat ((c + b) mod n)%nat.
(** A cliff: the bed is at [h] up to column [b] and at zero after it. *)
Definition cliff (b : nat) (h : R) (m : nat) : R := if Nat.leb m b then h else 0.
(** The distance over which the wind is separated from the bed behind a cliff of height [h], at least 10 cm and at most 200 m. *)
Definition reach (c h : R) : R := Rmin (Rmax (3 * h / (2 * c)) (1 / 10)) 200.
(** A slope with a cliff: the bed rises by [s] m per m up to column [b], is at [h] one column before it, and at zero after it. *)
Definition ramp (b : nat) (dx s h : R) (m : nat) : R := if Nat.leb m b then h + s * (INR m + 1 - INR b) * dx else 0.
(** The distance over which the wind is separated when the bed rises by [s] towards the cliff. *)
Definition reach_rising (c h s : R) : R := Rmin (Rmax (3 * h / (2 * c) * (1 + s / c / 4 + (s / c) ^ 2 / 8)) (1 / 10)) 200.
(** The smooth step from 1 at 0 to 0 at 1. *)
Definition fall (s : R) : R := 1 - 3 * s ^ 2 + 2 * s ^ 3.
(** As for the modified Bessel function of the second kind and order one: at arguments with an angle of 45 degrees the imaginary part is below the
    real part. *)
Definition like_bessel (kv : R -> complex -> complex) : Prop := forall s, 0 < s -> snd (kv 1 (s, s)) < fst (kv 1 (s, s)).
