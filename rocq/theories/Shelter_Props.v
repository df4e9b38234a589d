(** Properties C43, C90, C91: sheltering by plants and fences. *)
From Coq Require Import Reals.
From Verif Require Import Base Wind_Model Wind_Spec Shelter_Model Shelter_Spec Shelter_Proofs Shelter_Cases.
Open Scope R_scope.

(** Plants multiply the shear velocity by one factor of at most one, keeping direction and consistency; without plants nothing changes; at a plant only the initial share remains. For shear velocities from 0.01. *)
Theorem C43_plants : forall rho a c n x h s j, 0 <= rho -> coherent rho (s j) -> 1 / 100 <= ustar (s j) ->
  let s' := vegshear_okin rho a c n x h s j in
  coherent rho s' /\ 1 / 100 <= ustar s' /\ (exists f, 0 < f <= 1 /\ multiplied f (s j) s') /\
  (open_ground n h -> multiplied 1 (s j) s') /\ (okin_ok a c -> (j < n)%nat -> 0 < h j -> ustar s' <= Rmax (1 / 100) ((a + 1 / 100000) * ustar (s j))).
Proof. exact c43_plants. Qed.
Print Assumptions C43_plants.
Example C43_plants_case : coherent 1 (breeze (- (90)) 1 0 1) /\ 1 / 100 <= ustar (breeze (- (90)) 1 0 1) /\ okin_ok (32 / 100) (48 / 100) /\ 0 < plant 1%nat.
Proof. exact c43_case. Qed.

(** The same for fences. *)
Theorem C43_fences : forall rho a c n x h s j, 0 <= rho -> coherent rho (s j) -> 1 / 100 <= ustar (s j) ->
  let s' := fence_shear1d rho a c n x h s j in
  coherent rho s' /\ 1 / 100 <= ustar s' /\ (exists f, 0 < f <= 1 /\ multiplied f (s j) s') /\
  (open_ground n h -> multiplied 1 (s j) s') /\ (okin_ok a c -> (j < n)%nat -> 0 < h j -> ustar s' <= Rmax (1 / 100) ((a + 1 / 100000) * ustar (s j))).
Proof. exact c43_fences. Qed.
Print Assumptions C43_fences.
Example C43_fences_case : coherent 1 (breeze (- (90)) 1 0 1) /\ 1 / 100 <= ustar (breeze (- (90)) 1 0 1) /\ okin_ok (32 / 100) (48 / 100) /\ 0 < plant 1%nat.
Proof. exact c43_case. Qed.

(** On a grid with orientation zero, cells upwind of all plants or fences are unaffected. *)
Theorem C43_upwind : forall rho a c n x h s j, 0 <= rho -> coherent rho (s j) -> 1 / 100 <= ustar (s j) ->
  -180 < udir (s 0%nat) <= 180 -> 0 < uw (s 0%nat) -> upwind n (- uw (s 0%nat) * sin (radians (udir (s 0%nat)))) x h j ->
  multiplied 1 (s j) (vegshear_okin rho a c n x h s j) /\ multiplied 1 (s j) (fence_shear1d rho a c n x h s j).
Proof. exact c43_upwind. Qed.
Print Assumptions C43_upwind.
Example C43_upwind_case : upwind 3 (- (10) * sin (radians (- (90)))) metres plant 0 /\ coherent 1 (breeze (- (90)) 1 0 0) /\ ustar (fence_shear1d 1 (32 / 100) (48 / 100) 3 metres plant (breeze (- (90)) 1 0) 0) = 1 /\
  ustar (fence_shear1d 1 (32 / 100) (48 / 100) 3 metres plant (breeze (- (90)) 1 0) 1) = 32 / 100.
Proof. exact c43_upwind_case. Qed.

(** In calm air there is shear: the shear velocity becomes 0.01, with components zero, without any plant. *)
Theorem C43_calm_refuted : exists s n x h rho, coherent rho (s 0%nat) /\ ustar (s 0%nat) = 0 /\ open_ground n h /\
  ustar (vegshear_okin rho (32 / 100) (48 / 100) n x h s 0) = 1 / 100 /\ ustars (vegshear_okin rho (32 / 100) (48 / 100) n x h s 0) = 0 /\ ustarn (vegshear_okin rho (32 / 100) (48 / 100) n x h s 0) = 0.
Proof. exact c43_calm. Qed.
Print Assumptions C43_calm_refuted.

(** On a grid of another orientation the shelter can lie upwind. *)
Theorem C43_orientation_refuted : exists alfa d n x h s j, -180 < d <= 180 /\ (forall i, s i = breeze d (- sin (radians (- alfa + d))) (- cos (radians (- alfa + d))) i) /\ upwind n (uws (s 0%nat)) x h j /\
  ustar (vegshear_okin 1 (32 / 100) (48 / 100) n x h s j) < ustar (s j).
Proof. exact c43_orientation. Qed.
Print Assumptions C43_orientation_refuted.

(** Plants after Raupach multiply the shear velocity by one factor of at most one; without plants nothing changes. *)
Theorem C43_raupach : forall rho roughness sigma ny nx cover s i j, 0 <= rho -> 0 <= roughness -> (forall i j, (i < ny)%nat -> (j < nx)%nat -> 0 <= cover i j) -> (i < ny)%nat -> (j < nx)%nat -> coherent rho (s i j) ->
  let s' := vegshear_raupach rho roughness sigma ny nx cover s i j in
  coherent rho s' /\ (exists f, 0 < f <= 1 /\ multiplied f (s i j) s') /\ ((forall i j, (i < ny)%nat -> (j < nx)%nat -> cover i j = 0) -> multiplied 1 (s i j) s').
Proof. exact c43_raupach. Qed.
Print Assumptions C43_raupach.
Example C43_raupach_case : (forall i j, (i < 1)%nat -> (j < 2)%nat -> 0 <= planted i j) /\ planted 0%nat 1%nat = 1 /\ coherent 1 (breeze (- (90)) 1 0 1).
Proof. exact c43_raupach_case. Qed.

(** But bare cells upwind of them are sheltered too. *)
Theorem C43_raupach_upwind_refuted : exists ny nx cover s, (forall i j, (i < ny)%nat -> (j < nx)%nat -> 0 <= cover i j <= 1) /\ coherent 1 (s 0%nat 0%nat) /\ 0 < uws (s 0%nat 0%nat) /\ uwn (s 0%nat 0%nat) = 0 /\
  cover 0%nat 0%nat = 0 /\ ustar (vegshear_raupach 1 16 (8 / 10) ny nx cover s 0 0) < ustar (s 0%nat 0%nat).
Proof. exact c43_raupach_upwind. Qed.
Print Assumptions C43_raupach_upwind_refuted.

(** Higher or more plants or fences never let more shear through. *)
Theorem C90_okin : forall rho a c n x h1 h2 s j, okin_ok a c -> (forall i, (i < n)%nat -> h1 i <= h2 i) -> 0 <= ustar (s j) ->
  ustar (vegshear_okin rho a c n x h2 s j) <= ustar (vegshear_okin rho a c n x h1 s j) /\ ustar (fence_shear1d rho a c n x h2 s j) <= ustar (fence_shear1d rho a c n x h1 s j).
Proof. exact c90_okin. Qed.
Print Assumptions C90_okin.
Example C90_okin_case : okin_ok (32 / 100) (48 / 100) /\ (forall i, (i < 3)%nat -> (fun _ => 0) i <= plant i) /\ 0 <= ustar (breeze (- (90)) 1 0 1) /\ ustar (fence_shear1d 1 (32 / 100) (48 / 100) 3 metres plant (breeze (- (90)) 1 0) 1) < ustar (breeze (- (90)) 1 0 1).
Proof. exact c90_case. Qed.

(** Nor does denser cover. *)
Theorem C90_raupach : forall rho roughness sigma ny nx c1 c2 s i j, 0 <= roughness -> (forall i j, (i < ny)%nat -> (j < nx)%nat -> 0 <= c1 i j <= c2 i j) -> (i < ny)%nat -> (j < nx)%nat -> 0 <= ustar (s i j) ->
  ustar (vegshear_raupach rho roughness sigma ny nx c2 s i j) <= ustar (vegshear_raupach rho roughness sigma ny nx c1 s i j).
Proof. exact c90_raupach. Qed.
Print Assumptions C90_raupach.
Example C90_raupach_case : (forall i j, (i < 1)%nat -> (j < 2)%nat -> 0 <= (fun _ _ => 0) i j <= planted i j) /\ 0 <= ustar (breeze (- (90)) 1 0 1).
Proof. exact c90_raupach_case. Qed.

(** Behind a single plant or fence, the shear does not decrease with distance. *)
Theorem C91_recovers : forall rho a c n x h s i j k, okin_ok a c -> (i < n)%nat -> 0 < h i -> (forall m, (m < n)%nat -> m <> i -> h m <= 0) -> -180 < udir (s 0%nat) <= 180 -> ustar (s j) = ustar (s k) -> 0 <= ustar (s j) ->
  (if Rle_dec 0 (udir (s 0%nat)) then x k <= x j <= x i else x i <= x j <= x k) ->
  ustar (vegshear_okin rho a c n x h s j) <= ustar (vegshear_okin rho a c n x h s k) /\ ustar (fence_shear1d rho a c n x h s j) <= ustar (fence_shear1d rho a c n x h s k).
Proof. exact c91_decays. Qed.
Print Assumptions C91_recovers.
Example C91_recovers_case : 0 < plant 1%nat /\ (forall m, (m < 3)%nat -> m <> 1%nat -> plant m <= 0) /\ (if Rle_dec 0 (- (90)) then metres 2%nat <= metres 1%nat <= metres 1%nat else metres 1%nat <= metres 1%nat <= metres 2%nat).
Proof. exact c91_case. Qed.

(** Twenty heights away there is no shelter. *)
Theorem C91_ends : forall rho a c n x h s j, 0 <= rho -> coherent rho (s j) -> 1 / 100 <= ustar (s j) -> (forall i, (i < n)%nat -> 0 < h i -> 20 * h i <= Rabs (x j - x i)) ->
  multiplied 1 (s j) (vegshear_okin rho a c n x h s j) /\ multiplied 1 (s j) (fence_shear1d rho a c n x h s j).
Proof. exact c91_ends. Qed.
Print Assumptions C91_ends.
Example C91_ends_case : coherent 1 (breeze (- (90)) 1 0 0) /\ (forall i, (i < 3)%nat -> 0 < plant i -> 20 * plant i <= Rabs (30 * metres 0%nat - 30 * metres i)).
Proof. exact c91_ends_case. Qed.

(** Behind or before a single plant in a row, the shelter of the Raupach model decreases with the distance, and ends at the reach of the filter. *)
Theorem C91_raupach : forall rho roughness sigma nx cover s i j k, 0 < roughness -> 0 < sigma -> 0 < cover 0%nat i -> (forall m, (m < nx)%nat -> m <> i -> cover 0%nat m = 0) ->
  (radius sigma <= j)%nat -> (j + radius sigma < nx)%nat -> (radius sigma <= k)%nat -> (k + radius sigma < nx)%nat -> 0 < ustar (s 0%nat j) -> ustar (s 0%nat j) = ustar (s 0%nat k) ->
  (Z.abs (Z.of_nat i - Z.of_nat j) < Z.abs (Z.of_nat i - Z.of_nat k))%Z ->
  ustar (vegshear_raupach rho roughness sigma 1 nx cover s 0%nat j) <= ustar (vegshear_raupach rho roughness sigma 1 nx cover s 0%nat k) /\
  ((Z.abs (Z.of_nat i - Z.of_nat j) <= Z.of_nat (radius sigma))%Z -> ustar (vegshear_raupach rho roughness sigma 1 nx cover s 0%nat j) < ustar (vegshear_raupach rho roughness sigma 1 nx cover s 0%nat k)) /\
  ((Z.of_nat (radius sigma) < Z.abs (Z.of_nat i - Z.of_nat j))%Z -> ustar (vegshear_raupach rho roughness sigma 1 nx cover s 0%nat j) = ustar (s 0%nat j)).
Proof. exact c91_raupach. Qed.
Print Assumptions C91_raupach.
Example C91_raupach_case : 0 < 8 / 10 /\ radius (8 / 10) = 3%nat /\ 0 < (if Nat.eqb 5 5 then 1 / 2 else 0) /\ (3 <= 5)%nat /\ (7 + 3 < 12)%nat /\
  (Z.abs (Z.of_nat 5 - Z.of_nat 5) < Z.abs (Z.of_nat 5 - Z.of_nat 7))%Z.
Proof. exact c91_raupach_case. Qed.
