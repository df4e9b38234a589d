(** Model of sand fences in two dimensions, aeolis/fences.py:85-113 [fence_shear2d] and the functions it uses: 117-139
    [initialize_computational_grid], 142-169 [set_computational_grid], 172-245 [calc_fence_shear], 250-323 [populate_computational_grid],
    326-407 [compute_fenceshear], 410-419 [get_exact_grid], 422-437 [rotate], 440-455 [interpolate]. Reals instead of doubles. The grid has
    equal, ascending steps in both directions (scipy raises for descending ones). The buffer zone of [populate_computational_grid] is computed
    and not used there, and left out here. *)
From Coq Require Import Reals.
From Verif Require Import Base Shear_Model.
From Verif Require Shelter_Model.
Open Scope R_scope.

(** fences.py:98-104: the direction in degrees; multiples of 180 are moved a little. *)
Definition direction (udir : R) : R :=
  let u := if Rlt_dec udir 0 then udir + 360 else udir in
  let u := u - rfloor (u / 360) * 360 in
  if Req_EM_T u 0 then u + 1 / 100000 else if Req_EM_T u 180 then u + 1 / 100000 else u.
(** numpy's max and min of an array. *)
Definition greatest (g : grid) (f : field) : R := fold_left (fun m r => fold_left (fun m c => Rmax m (f r c)) (seq 0 (cols g)) m) (seq 0 (rows g)) (f 0%nat 0%nat).
Definition least (g : grid) (f : field) : R := - greatest g (fun r c => - f r c).
(** fences.py:155-164: a square with the diagonal of the grid and twice the buffer of 100 m as its side. *)
Definition square_side (g : grid) : R :=
  sqrt ((greatest g (gx g) - least g (gx g)) ^ 2 + (greatest g (gy g) - least g (gy g)) ^ 2) + 2 * 100.
Definition fence_grid (g : grid) (dx dy : R) : grid :=
  let x0 := fst (centre g) in
  let y0 := snd (centre g) in
  let D := square_side g in
  exact_grid (x0 - D / 2) (x0 + D / 2) (y0 - D / 2) (y0 + D / 2) dx dy.
(** fences.py:440-455: linear interpolation on a grid along the axes, zero outside the grid. *)
Definition sample (g : grid) (z : field) (p : R * R) : R :=
  match locate (gy g 0%nat 0%nat) (gy g 1%nat 0%nat - gy g 0%nat 0%nat) (rows g) 0 (snd p), locate (gx g 0%nat 0%nat) (gx g 0%nat 1%nat - gx g 0%nat 0%nat) (cols g) 0 (fst p) with
  | Some (i, s), Some (j, t) => bilinear (rows g) (cols g) z i s j t
  | _, _ => 0
  end.
(** fences.py:359-362: in which direction of x the fences shelter. *)
Definition to_left (d : R) : bool := if Rle_dec 180 d then (if Rle_dec d 360 then false else true) else true.
(** fences.py:326-407 [compute_fenceshear]: what is left of the shear velocity in a cell of the computational grid; everything at its edges. The
    loops over a row are those of the one-dimensional model. *)
Definition left_over (intercept c1 d : R) (gc : grid) (zc : field) (r c : nat) : R :=
  if (Nat.eqb r 0 || Nat.eqb c 0 || Nat.eqb r (rows gc - 1) || Nat.eqb c (cols gc - 1))%bool then 1
  else 1 - Shelter_Model.total_reduction intercept c1 (to_left d) (cols gc) (gx gc r) (zc r) c.
(** fences.py:229-237: the edges of an array get the values next to them. *)
Definition trim (m n : nat) (f : field) : field :=
  let f1 := fun r c => if Nat.eqb r 0 then f 1%nat c else f r c in
  let f2 := fun r c => if Nat.eqb c 0 then f1 r 1%nat else f1 r c in
  let f3 := fun r c => if Nat.eqb r (m - 1) then f2 (m - 2)%nat c else f2 r c in
  fun r c => if Nat.eqb c (n - 1) then f3 r (n - 2)%nat else f3 r c.
(** fences.py:172-245 [calc_fence_shear]: the shear velocity on the grid before its edges are set. The computational grid is turned to the wind;
    the component [ustars] is multiplied, turned, turned back with its components swapped, interpolated and turned again. *)
Definition sheltered (intercept c1 d dx dy : R) (g : grid) (zf ustars : field) (r c : nat) : R * R :=
  let a := d + 90 in
  let o := centre g in
  let gc := turn_grid a o (fence_grid g dx dy) in
  let zc := fun r c => sample g zf (place gc r c) in
  let uc := fun r c => sample g ustars (place gc r c) in
  let turned := fun r c => turn a (0, 0) (uc r c * left_over intercept c1 d gc zc r c, 0) in
  let back := fun r c => turn (- a) (0, 0) (turned r c) in
  let ustary := fun r c => fst (back r c) in
  let ustarx := fun r c => snd (back r c) in
  let gc' := turn_grid (- a) o gc in
  let q := turn (- a) o (place g r c) in
  turn a (0, 0) (sample gc' ustarx q, sample gc' ustary q).
(** fences.py:85-113 [fence_shear2d]: the components of the shear velocity; [dx] is the cell size of the configuration, [udir] the direction in
    the first cell. The other component of the shear velocity is not used. *)
Definition fence_shear2d (intercept c1 dx udir : R) (g : grid) (zf ustars ustarn : field) (r c : nat) : R * R :=
  let d := direction udir in
  let h := Rmax (dx / 2) (1 / 4) in
  let u := sheltered intercept c1 d h h g zf ustars in
  (trim (rows g) (cols g) (fun r c => fst (u r c)) r c, trim (rows g) (cols g) (fun r c => snd (u r c)) r c).
