(** Properties C120-C121: sand fences in two dimensions. *)
From Coq Require Import Reals ZArith.
From Verif Require Import Base Shear_Model Shear_Spec Fence2_Model Fence2_Spec Fence2_Proofs Fence2_Uniform Fence2_Cases.
From Verif Require Shelter_Model Shelter_Spec.
Open Scope R_scope.

(** C120. Fences do not make the shear velocity larger than the largest component along x on the grid. *)
Theorem C120_bounded : forall a c1 dx udir g zf us un U r c, (0 < rows g)%nat -> (0 < cols g)%nat -> between (rows g) (cols g) us (- U) U ->
  at_most U (fence_shear2d a c1 dx udir g zf us un r c).
Proof. exact c120_bounded. Qed.
Print Assumptions C120_bounded.
Example C120_bounded_case : (0 < rows beach)%nat /\ (0 < cols beach)%nat /\ between (rows beach) (cols beach) (fun r c => 1 / 4 + INR r / 20) (- (1 / 2)) (1 / 2) /\
  at_most (1 / 2) (fence_shear2d (32 / 100) (48 / 100) 1 225 beach fences (fun r c => 1 / 4 + INR r / 20) (fun _ _ => 0) 3 8).
Proof. exact bounded_case. Qed.

(** But whatever the grid, the fences and the wind, what results is perpendicular to the wind, up to the hundred thousandth of a degree that the code adds to multiples of 180 degrees. *)
Theorem C120_perpendicular : forall a c1 dx udir g zf us un r c, exists e, 0 <= e <= 1 / 100000 /\
  along (udir + e) (fence_shear2d a c1 dx udir g zf us un r c) = 0.
Proof. exact c120_perpendicular. Qed.
Print Assumptions C120_perpendicular.
Example C120_perpendicular_case : along 270 (fence_shear2d (32 / 100) (48 / 100) 1 270 (unit_grid 3 3) (fun _ _ => 0) (fun _ _ => 1 / 2) (fun _ _ => 0) 1 1) = 0 /\
  snd (fence_shear2d (32 / 100) (48 / 100) 1 270 (unit_grid 3 3) (fun _ _ => 0) (fun _ _ => 1 / 2) (fun _ _ => 0) 1 1) = 1 / 2.
Proof. exact perpendicular_case. Qed.

(** Without any fences, a uniform shear velocity along x is turned to the direction across the wind. *)
Theorem C120_uniform : forall a c1 g x y h udir zf us un v r c, square_cells g x y h -> 1 / 2 <= h <= 200 -> (3 <= rows g)%nat -> (3 <= cols g)%nat ->
  0 < udir < 360 -> udir <> 180 ->
  (forall i j, (i < rows g)%nat -> (j < cols g)%nat -> zf i j = 0) -> (forall i j, (i < rows g)%nat -> (j < cols g)%nat -> us i j = v) ->
  (r < rows g)%nat -> (c < cols g)%nat ->
  fence_shear2d a c1 h udir g zf us un r c = (v * cos (radians udir), - (v * sin (radians udir))).
Proof. exact c120_uniform. Qed.
Print Assumptions C120_uniform.
Example C120_uniform_case : square_cells beach 0 0 1 /\ fence_shear2d (32 / 100) (48 / 100) 1 90 beach (fun _ _ => 0) (fun _ _ => - (1 / 2)) (fun _ _ => 0) 0 29 = (0, 1 / 2).
Proof. exact uniform_case. Qed.

(** Where the component along x is zero, nothing remains of the shear velocity, with or without fences. *)
Theorem C120_lost : forall a c1 dx udir g zf us un r c, (0 < rows g)%nat -> (0 < cols g)%nat -> (forall i j, (i < rows g)%nat -> (j < cols g)%nat -> us i j = 0) ->
  fence_shear2d a c1 dx udir g zf us un r c = (0, 0).
Proof. exact c120_lost. Qed.
Print Assumptions C120_lost.
Example C120_lost_case : fence_shear2d (32 / 100) (48 / 100) 1 0 beach fences (fun _ _ => 0) (fun _ _ => - (1 / 2)) 2 10 = (0, 0).
Proof. exact lost_case. Qed.

(** A wind from the west without fences becomes a shear velocity to the north. *)
Theorem C120_unfenced_refuted : exists g a c1 udir zf, (forall r c, zf r c = 0) /\ forall v r c, (r < rows g)%nat -> (c < cols g)%nat ->
  along udir (v, 0) = v /\ fence_shear2d a c1 1 udir g zf (fun _ _ => v) (fun _ _ => 0) r c = (0, v).
Proof. exact c120_refuted. Qed.
Print Assumptions C120_unfenced_refuted.

(** Interpolation between the two grids keeps a plane. *)
Theorem C120_plane : forall g x y h z a b k s t, square_cells g x y h -> 0 < h -> (0 < rows g)%nat -> (0 < cols g)%nat ->
  (forall r c, (r < rows g)%nat -> (c < cols g)%nat -> z r c = a + b * gx g r c + k * gy g r c) ->
  0 <= s <= INR (cols g) - 1 -> 0 <= t <= INR (rows g) - 1 ->
  sample g z (x + s * h, y + t * h) = a + b * (x + s * h) + k * (y + t * h).
Proof. exact c120_plane. Qed.
Print Assumptions C120_plane.
Example C120_plane_case : square_cells beach 0 0 1 /\ sample beach (fun r c => 1 + 2 * gx beach r c - gy beach r c) (0 + (7 / 2) * 1, 0 + (5 / 4) * 1) = 27 / 4.
Proof. exact plane_case. Qed.

(** C121. On the computational grid, which is turned to the wind, cells upwind of the fences are not sheltered. *)
Theorem C121_upwind : forall a c1 d o g x y h z r c, square_cells g x y h -> 0 < h -> 0 < d < 360 -> d <> 180 ->
  (forall k, (k < cols g)%nat -> 0 < z r k -> (c < k)%nat) -> left_over a c1 d (turn_grid (d + 90) o g) z r c = 1.
Proof. exact c121_upwind. Qed.
Print Assumptions C121_upwind.
Example C121_upwind_case : square_cells beach 0 0 1 /\ (forall k, (k < cols beach)%nat -> 0 < fences 2%nat k -> (1 < k)%nat) /\
  left_over (32 / 100) (48 / 100) 225 (turn_grid (225 + 90) (centre beach) beach) fences 2 1 = 1.
Proof. exact upwind_case. Qed.

(** Behind a single fence the model of Okin holds, and nothing is left of the shelter after 20 heights, for a distance multiplied by the sine of the wind direction. *)
Theorem C121_lee : forall a c1 d o g x y h z r i c, Shelter_Spec.okin_ok a c1 -> square_cells g x y h -> 0 < h -> 0 < d < 360 -> d <> 180 ->
  (0 < r < rows g - 1)%nat -> (0 < c < cols g - 1)%nat -> (i <= c)%nat -> only_fence (cols g) z r i ->
  let s := (INR c - INR i) * h * Rabs (sin (radians d)) in let u := left_over a c1 d (turn_grid (d + 90) o g) z r c in
  (s < 20 * z r i -> Rabs (u - okin_share a c1 (z r i) s) <= 1 / 100000) /\ (20 * z r i <= s -> u = 1).
Proof. exact c121_lee. Qed.
Print Assumptions C121_lee.
Example C121_lee_case : Shelter_Spec.okin_ok (32 / 100) (48 / 100) /\ only_fence (cols beach) fences 2 2 /\
  left_over (32 / 100) (48 / 100) 270 (turn_grid (270 + 90) (centre beach) beach) fences 2 27 = 1 /\
  Rabs (left_over (32 / 100) (48 / 100) 270 (turn_grid (270 + 90) (centre beach) beach) fences 2 2 - 32 / 100) <= 1 / 100000.
Proof. exact lee_case. Qed.

(** So a fence of 1 m can shelter cells at any distance. *)
Theorem C121_far_refuted : forall L, exists d g z i c, 0 < d < 180 /\ square_cells g 0 0 1 /\ only_fence (cols g) z 1 i /\ z 1%nat i = 1 /\ L <= (INR c - INR i) * 1 /\
  left_over (32 / 100) (48 / 100) d (turn_grid (d + 90) (centre g) g) z 1 c <= 7 / 10.
Proof. exact c121_refuted. Qed.
Print Assumptions C121_far_refuted.
