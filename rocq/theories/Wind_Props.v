(** Properties C40, C41, C48, C79-C84, C112: wind, roughness and shear. *)
From Verif Require Import Base Wind_Model Wind_Spec Wind_Proofs Wind_Shear Wind_Cases Wind_More.
From Coq Require Import Reals.
Open Scope R_scope.

(** The wind speed is the length of the components, and shear velocity and stress agree. *)
Theorem C40_consistent : forall p gr u d s s', 0 <= rhoa p -> blow p gr u d s = Ok s' -> uw s' = Rabs u /\ hypot (uws s') (uwn s') = uw s' /\ coherent (rhoa p) s'.
Proof. exact c40_wind. Qed.
Print Assumptions C40_consistent.
Example C40_consistent_case : exists s', blow beach sand 10 (- 90) still = Ok s' /\ uws s' = 10 /\ uwn s' = 0 /\ 0 < ustars s' /\ ustarn s' = 0.
Proof. exact c40_case. Qed.

(** Computing the velocity back from the stress changes nothing, and one vanishes where the other does. *)
Theorem C40_round_trip : forall p gr u d s s', 0 < rhoa p -> blow p gr u d s = Ok s' -> stress_velocity (rhoa p) s' = s' /\ (ustar s' = 0 <-> tau s' = 0).
Proof. exact c40_back. Qed.
Print Assumptions C40_round_trip.
Example C40_round_trip_case : exists s', blow beach sand 10 (- 90) still = Ok s' /\ uws s' = 10 /\ uwn s' = 0 /\ 0 < ustars s' /\ ustarn s' = 0.
Proof. exact c40_case. Qed.

(** After separation the shear velocity is not the length of its components. *)
Theorem C40_separation_refuted : exists n x zb s i rho, (i < n)%nat /\ 0 < rho /\ coherent rho (s i) /\ let s' := shear1d n rho 1 (2 / 10) 30 true x zb s i in hypot (ustars s') (ustarn s') < ustar s'.
Proof. exact c40_separation. Qed.
Print Assumptions C40_separation_refuted.

(** The flat-bed components ustars0 and ustarn0 are both set to the magnitude, although there is no wind along the shore. *)
Theorem C40_flat_bed_refuted : exists p gr u d s s', blow p gr u d s = Ok s' /\ 0 < ustar s' /\ fst (fst (fst (flat_bed s'))) = ustar s' /\ uwn s' = 0 /\ snd (fst (flat_bed s')) = ustar s'.
Proof. exact c40_flat. Qed.
Print Assumptions C40_flat_bed_refuted.

(** Without separation the bed multiplies the stress and its components by one factor of at least a tenth, so that the direction stays; a level bed changes nothing. *)
Theorem C41_perturbation : forall n x zb s i rho dx c mu, 0 < rho -> coherent rho (s i) -> exists r, 1 / 10 <= r /\
  tau (shear1d n rho dx c mu false x zb s i) = r * tau (s i) /\ taus (shear1d n rho dx c mu false x zb s i) = r * taus (s i) /\ taun (shear1d n rho dx c mu false x zb s i) = r * taun (s i) /\
  (forall h, (i < n)%nat -> (forall j, (j < n)%nat -> zb j = h) -> r = 1).
Proof. exact c41_shear. Qed.
Print Assumptions C41_perturbation.
Example C41_perturbation_case : coherent 1 (onshore 3) /\ taus (onshore 3) = 1.
Proof. exact onshore_coherent. Qed.

(** Separation multiplies the stress components by a factor between zero and one: one where there is no bubble, zero where it is at least 0.1 m high. *)
Theorem C41_separation : forall n x zb s i rho dx c mu, (i < n)%nat -> exists f, 0 <= f <= 1 /\
  taus (shear1d n rho dx c mu true x zb s i) = f * taus (shear1d n rho dx c mu false x zb s i) /\ taun (shear1d n rho dx c mu true x zb s i) = f * taun (shear1d n rho dx c mu false x zb s i) /\
  (separation1d n dx c mu (udir (s 0%nat)) x zb i = zb i -> f = 1) /\ (zb i + 1 / 10 <= separation1d n dx c mu (udir (s 0%nat)) x zb i -> f = 0).
Proof. exact c41_separation. Qed.
Print Assumptions C41_separation.
Example C41_separation_case : (3 < 10)%nat /\ step (- 10) 3%nat + 1 / 10 <= separation1d 10 1 (2 / 10) 30 (udir (onshore 0)) places (step (- 10)) 3%nat.
Proof. exact c41_separation_case. Qed.

(** Separation does not reduce the magnitudes: stress and shear velocity remain where the components are gone. *)
Theorem C41_magnitude_refuted : exists n x zb s i rho, (i < n)%nat /\ 0 < rho /\ coherent rho (s i) /\ let s' := shear1d n rho 1 (2 / 10) 30 true x zb s i in
  taus s' = 0 /\ taun s' = 0 /\ 1 / 10 <= tau s' /\ 0 < ustar s' /\ hypot (ustars s') (ustarn s') < ustar s'.
Proof. exact c41_speed. Qed.
Print Assumptions C41_magnitude_refuted.

(** Nautical directions are used as they are, except that 0 becomes 0.01. *)
Theorem C48_nautical : forall ws ws', initialize Nautical (Some ws) = Ok (Some ws') ->
  converted (fun d d' => (d <> 0 -> d' = d) /\ (d = 0 -> d' = 1 / 100)) ws ws'.
Proof. exact nautical. Qed.
Print Assumptions C48_nautical.
Example C48_nautical_case : exists ws', initialize Nautical (Some [{| at_t := 0; speed := 10; dir := 60 |}; {| at_t := 3600; speed := 8; dir := 0 |}]) = Ok (Some ws') /\ map dir ws' = [60; 1 / 100] /\ map speed ws' = [10; 8].
Proof. exact c48_nautical_case. Qed.

(** Cartesian directions d become 270 - d, except that 270 becomes -0.01. *)
Theorem C48_cartesian : forall ws ws', initialize Cartesian (Some ws) = Ok (Some ws') ->
  converted (fun d d' => (d <> 270 -> d' = 270 - d) /\ (d = 270 -> d' = - (1 / 100))) ws ws'.
Proof. exact cartesian. Qed.
Print Assumptions C48_cartesian.
Example C48_cartesian_case : exists ws', initialize Cartesian (Some [{| at_t := 0; speed := 10; dir := 60 |}; {| at_t := 3600; speed := 8; dir := 270 |}]) = Ok (Some ws') /\ map dir ws' = [210; - (1 / 100)] /\ map speed ws' = [10; 8].
Proof. exact c48_case. Qed.

(** A cartesian wind blows in its own direction. *)
Theorem C48_cartesian_components : forall p gr d u s s' ws', d <> 270 -> initialize Cartesian (Some [{| at_t := 0; speed := u; dir := d |}]) = Ok (Some ws') ->
  interpolate p true (match ws' with [] => None | a :: r => Some (a, r) end) 0 gr s = Ok s' ->
  uws s' = u * cos (radians (alfa p + d)) /\ uwn s' = u * sin (radians (alfa p + d)).
Proof. exact c48_components. Qed.
Print Assumptions C48_cartesian_components.
Example C48_cartesian_components_case : 60 <> 270 /\ initialize Cartesian (Some [{| at_t := 0; speed := 8; dir := 60 |}]) = Ok (Some [{| at_t := 0; speed := 8; dir := 270 - 60 |}]) /\
  exists s', interpolate beach true (Some ({| at_t := 0; speed := 8; dir := 270 - 60 |}, [])) 0 sand still = Ok s'.
Proof. exact c48_components_case. Qed.

(** An unknown convention is rejected. *)
Theorem C48_unknown : forall ws, initialize OtherConvention (Some ws) = Raise ValueError.
Proof. exact c48_unknown. Qed.
Print Assumptions C48_unknown.

(** At any time speed and direction lie between those of two neighbouring samples, the direction on the shorter arc. *)
Theorem C79_between : forall t a rest, in_order a rest -> exists u v, In u (a :: rest) /\ (u = v \/ adjacent u v a rest) /\
  on_arc (speed u) (speed v) (fst (wind_at t a rest)) /\
  forall e, same_direction e (dir u) -> Rabs (e - dir v) < 180 -> exists th, on_arc e (dir v) th /\ same_direction (snd (wind_at t a rest)) th.
Proof. exact direction_between. Qed.
Print Assumptions C79_between.
Example C79_between_case : exists a rest, in_order a rest /\ same_direction (-10) (dir a) /\ exists b, adjacent a b a rest /\ Rabs (-10 - dir b) < 180 /\ dir a = 350 /\ dir b = 10.
Proof. exact c79_case. Qed.

(** The direction is above -180 and at most 180 degrees. *)
Theorem C79_range : forall t a rest, - 180 < snd (wind_at t a rest) <= 180.
Proof. exact direction_range. Qed.
Print Assumptions C79_range.
Example C79_range_case : exists a rest, in_order a rest /\ same_direction (-10) (dir a) /\ exists b, adjacent a b a rest /\ Rabs (-10 - dir b) < 180 /\ dir a = 350 /\ dir b = 10.
Proof. exact c79_case. Qed.

(** A steady wind is kept, also if the file gives its direction in different turns. *)
Theorem C79_steady : forall t a rest, (forall w, In w rest -> speed w = speed a /\ same_direction (dir w) (dir a)) -> in_order a rest ->
  fst (wind_at t a rest) = speed a /\ same_direction (snd (wind_at t a rest)) (dir a).
Proof. exact c79_constant. Qed.
Print Assumptions C79_steady.
Example C79_steady_case : let a := {| at_t := 0; speed := 5; dir := 350 |} in in_order a two_winds /\ forall w, In w two_winds -> speed w = speed a /\ same_direction (dir w) (dir a).
Proof. exact c79_constant_case. Qed.

(** At the time of a sample the wind is that of the sample. *)
Theorem C79_samples : forall a rest w, in_order a rest -> In w (a :: rest) -> fst (wind_at (at_t w) a rest) = speed w /\ same_direction (snd (wind_at (at_t w) a rest)) (dir w).
Proof. exact c79_samples. Qed.
Print Assumptions C79_samples.
Example C79_samples_case : in_order rising_a [rising_b] /\ In rising_b (rising_a :: [rising_b]) /\ at_t (last [rising_b] rising_a) = 2 /\ fst (wind_at 1 rising_a [rising_b]) = 6 /\ fst (wind_at 3 rising_a [rising_b]) = 5.
Proof. exact c79_samples_case. Qed.

(** The roughness length is positive. *)
Theorem C80_roughness : forall p gr u z0, proper p -> proper_grains gr -> 0 < rsum (products (grain_size p) (grain_dist p)) -> calculate_z0 p gr u = Ok z0 -> 0 < z0.
Proof. exact roughness_positive. Qed.
Print Assumptions C80_roughness.
Example C80_roughness_case : proper (with_roughness VanRijn 1 [1; 0]) /\ proper_grains sand /\ 0 < rsum (products (grain_size (with_roughness VanRijn 1 [1; 0])) (grain_dist (with_roughness VanRijn 1 [1; 0]))).
Proof. exact c80_positive_case. Qed.

(** With a roughness length below the height of the wind the shear velocity is a positive multiple of the wind. *)
Theorem C80_follows : forall p gr u d s s' z0, proper p -> calculate_z0 p gr (Rabs u) = Ok z0 -> 0 < z0 < z p -> blow p gr u d s = Ok s' ->
  exists c, 0 < c /\ c = kappa p / ln (z p / z0) /\ ustars s' = c * uws s' /\ ustarn s' = c * uwn s' /\ ustar s' = c * uw s'.
Proof. exact shear_follows. Qed.
Print Assumptions C80_follows.
Example C80_follows_case : calculate_z0 beach sand (Rabs 10) = Ok (1 / 1000) /\ 0 < 1 / 1000 < z beach.
Proof. exact c80_case. Qed.

(** With a larger one the shear is against the wind. *)
Theorem C80_reversed_refuted : exists p gr u d s s', proper p /\ blow p gr u d s = Ok s' /\ 0 < uws s' /\ ustars s' < 0.
Proof. exact c80_reversed. Qed.
Print Assumptions C80_reversed_refuted.

(** For a single grain size the methods agree, with a thirtieth of the grain size, except that the median counts twice. *)
Theorem C80_methods : forall p1 p2 p3 p4 p5 gr u z1 z2 z3 z4 z5 d, method_roughness p1 = ConstantNikuradse -> method_roughness p2 = Constant -> method_roughness p3 = MeanInitial ->
  method_roughness p4 = MeanAdaptive -> method_roughness p5 = MedianAdaptive -> k p1 = d -> k p2 = d / 30 -> grain_size p3 = [d] -> grain_dist p3 = [1] -> mean gr = d -> d50 gr = d ->
  calculate_z0 p1 gr u = Ok z1 -> calculate_z0 p2 gr u = Ok z2 -> calculate_z0 p3 gr u = Ok z3 -> calculate_z0 p4 gr u = Ok z4 -> calculate_z0 p5 gr u = Ok z5 ->
  z2 = z1 /\ z3 = z1 /\ z4 = z1 /\ z5 = 2 * z1 /\ 30 * z1 = d.
Proof. exact c80_methods. Qed.
Print Assumptions C80_methods.
Example C80_methods_case : exists z0, calculate_z0 (single_size MeanInitial 1 (3 / 10000)) sand 5 = Ok z0 /\ z0 = 1 / 100000 /\ mean sand = 3 / 10000 /\ d50 sand = 3 / 10000.
Proof. exact c80_methods_case. Qed.

(** The stress kept for a flat bed has the direction of the wind. *)
Theorem C80_flat_bed : forall p gr u d s s' z0, proper p -> calculate_z0 p gr (Rabs u) = Ok z0 -> 0 < z0 < z p -> blow p gr u d s = Ok s' ->
  let '(_, (t0, ts0, tn0)) := flat_bed s' in hypot ts0 tn0 = t0 /\ ts0 * uw s' = t0 * uws s' /\ tn0 * uw s' = t0 * uwn s'.
Proof. exact c80_flat. Qed.
Print Assumptions C80_flat_bed.
Example C80_flat_bed_case : calculate_z0 beach sand (Rabs 10) = Ok (1 / 1000) /\ 0 < 1 / 1000 < z beach.
Proof. exact c80_case. Qed.

(** An unknown method fails. *)
Theorem C80_unknown_raises : forall p gr u d s, method_roughness p = OtherRoughness -> blow p gr u d s = Raise NameError.
Proof. exact c80_unknown. Qed.
Print Assumptions C80_unknown_raises.
Example C80_unknown_raises_case : method_roughness (with_roughness OtherRoughness 1 [1; 0]) = OtherRoughness /\ proper (with_roughness OtherRoughness 1 [1; 0]).
Proof. exact c80_raises_case. Qed.

(** The Van Rijn roughness is undefined at the threshold. *)
Theorem C80_threshold_refuted : exists p gr u, proper p /\ proper_grains gr /\ 0 < u /\ calculate_z0 p gr u = Raise ZeroDivisionError.
Proof. exact c80_vanrijn. Qed.
Print Assumptions C80_threshold_refuted.

(** Only for a wind straight onshore is there one positive component. *)
Theorem C81_onshore : forall p gr u d s s' z0, proper p -> calculate_z0 p gr (Rabs u) = Ok z0 -> 0 < z0 < z p -> 0 < u -> radians (d - alfa p) = - (PI / 2) -> blow p gr u d s = Ok s' ->
  uws s' = u /\ uwn s' = 0 /\ 0 < ustars s' /\ ustarn s' = 0 /\ 0 < taus s'.
Proof. exact c81_onshore. Qed.
Print Assumptions C81_onshore.
Example C81_onshore_case : proper beach /\ calculate_z0 beach sand (Rabs 10) = Ok (1 / 1000) /\ radians (- 90 - alfa beach) = - (PI / 2) /\ exists s', blow beach sand 10 (- 90) still = Ok s' /\ uws s' = 10.
Proof. exact c81_case. Qed.

(** Without a wind file or with the process off the wind stays as it was. *)
Theorem C81_kept : forall p pw file t gr s s', pw = false \/ file = None -> interpolate p pw file t gr s = Ok s' -> 0 <= uw s ->
  uw s' = uw s /\ udir s' = udir s /\ uws s' = - uw s * sin (radians (udir s - alfa p)) /\ uwn s' = - uw s * cos (radians (udir s - alfa p)).
Proof. exact c81_kept. Qed.
Print Assumptions C81_kept.
Example C81_kept_case : exists s', interpolate beach false None 0 sand (onshore 0) = Ok s' /\ 0 <= uw (onshore 0) /\ uw s' = 10 /\ udir s' = - 90.
Proof. exact c81_kept_case. Qed.

(** An offshore wind has a negative one. *)
Theorem C81_offshore_refuted : exists p gr u d s s', 0 < u /\ blow p gr u d s = Ok s' /\ uws s' = - u /\ ustars s' < 0.
Proof. exact c81_oblique. Qed.
Print Assumptions C81_offshore_refuted.

(** The wind of a generated file, with direction 0, blows along the shore. *)
Theorem C81_generated_refuted : exists ws' a r s', initialize Nautical (Some [{| at_t := 0; speed := 10; dir := 0 |}]) = Ok (Some ws') /\ ws' = a :: r /\
  interpolate beach true (Some (a, r)) 0 sand still = Ok s' /\ uw s' = 10 /\ Rabs (uws s') < 1 / 100 /\ uws s' < 0.
Proof. exact c81_generated. Qed.
Print Assumptions C81_generated_refuted.

(** The perturbation is the same for the mirrored bed and wind. *)
Theorem C82_mirror : forall n x zb s s' i, (i < n)%nat -> (2 <= n)%nat -> total n (fun j => taus (s j)) <> 0 ->
  (forall j, (j < n)%nat -> stress (s' j) = (tau (s (n - 1 - j)%nat), - taus (s (n - 1 - j)%nat), taun (s (n - 1 - j)%nat))) ->
  let a := compute_shear1d n (mirror n x) (mirror n zb) s' i in let b := compute_shear1d n x zb s (n - 1 - i)%nat in
  tau a = tau b /\ taus a = - taus b /\ taun a = taun b.
Proof. exact mirror_stress. Qed.
Print Assumptions C82_mirror.
Example C82_mirror_case : (3 < 10)%nat /\ (2 <= 10)%nat /\ total 10 (fun j => taus (onshore j)) <> 0 /\ exists s', forall j, (j < 10)%nat ->
  stress (s' j) = (tau (onshore (10 - 1 - j)%nat), - taus (onshore (10 - 1 - j)%nat), taun (onshore (10 - 1 - j)%nat)).
Proof. exact c82_mirror_case. Qed.

(** It does not depend on the level of the bed. *)
Theorem C82_level : forall n x zb s i h, (i < n)%nat -> stress (compute_shear1d n x (fun j => zb j + h) s i) = stress (compute_shear1d n x zb s i).
Proof. exact c82_shift. Qed.
Print Assumptions C82_level.
Example C82_level_case : (3 < 10)%nat /\ places 1%nat <> places 0%nat /\ places (10 - 2)%nat <> places (10 - 1)%nat /\ total 10 (fun j => taus (onshore j)) <> 0.
Proof. exact c82_case. Qed.

(** Nor on the size of bed and grid together. *)
Theorem C82_stretch : forall n x zb s i c, (i < n)%nat -> 0 < c -> x 1%nat <> x 0%nat -> x (n - 2)%nat <> x (n - 1)%nat -> 
  stress (compute_shear1d n (fun j => c * x j) (fun j => c * zb j) s i) = stress (compute_shear1d n x zb s i).
Proof. exact c82_stretch. Qed.
Print Assumptions C82_stretch.
Example C82_stretch_case : (3 < 10)%nat /\ places 1%nat <> places 0%nat /\ places (10 - 2)%nat <> places (10 - 1)%nat /\ total 10 (fun j => taus (onshore j)) <> 0.
Proof. exact c82_case. Qed.

(** The separation bubble does depend on the level. *)
Theorem C82_separation_level_refuted : exists n dx c mu ud x zb h i, (i < n)%nat /\ separation1d n dx c mu ud x zb i - zb i = 10 /\ separation1d n dx c mu ud x (fun j => zb j + h) i - (zb i + h) = 0.
Proof. exact c82_datum. Qed.
Print Assumptions C82_separation_level_refuted.

(** The separation surface is never below the bed. *)
Theorem C83_above_bed : forall n dx c mu ud x zb i, (i < n)%nat -> zb i <= separation1d n dx c mu ud x zb i.
Proof. exact separation_above. Qed.
Print Assumptions C83_above_bed.
Example C83_above_bed_case : (3 < 10)%nat /\ step (- 10) 3%nat < separation1d 10 1 (2 / 10) 30 (- 90) places (step (- 10)) 3%nat.
Proof. exact c83_above_case. Qed.

(** No separation on a bed without slopes steeper than mu_b, for a wind not exactly along the shore. *)
Theorem C83_gentle : forall n dx c mu ud x zb, 0 < dx -> -180 < ud < 180 -> ud <> 0 ->
  (forall i, (S i < n)%nat -> degrees (atan (Rabs (zb (S i) - zb i) / dx)) <= mu) -> forall i, (i < n)%nat -> separation1d n dx c mu ud x zb i = zb i.
Proof. exact no_separation. Qed.
Print Assumptions C83_gentle.
Example C83_gentle_case : 0 < 1 /\ (-180 < -90 < 180) /\ -90 <> 0 /\ forall i, (S i < 10)%nat -> degrees (atan (Rabs (ramp (S i) - ramp i) / 1)) <= 30.
Proof. exact c83_case. Qed.

(** For a wind along the shore there is. *)
Theorem C83_alongshore_refuted : exists n dx c mu ud x zb i, 0 < dx /\ (forall j, (S j < n)%nat -> degrees (atan (Rabs (zb (S j) - zb j) / dx)) <= mu) /\ (i < n)%nat /\ zb i + 2 / 10 < separation1d n dx c mu ud x zb i.
Proof. exact c83_alongshore. Qed.
Print Assumptions C83_alongshore_refuted.

(** With fractions that sum to one the initial mean grain size is in the range of the grain sizes. *)
Theorem C84_normalised : forall p gr u z0 lo hi, method_roughness p = MeanInitial -> rsum (grain_dist p) = 1 -> length (grain_size p) = length (grain_dist p) ->
  (forall x, In x (grain_size p) -> lo <= x <= hi) -> (forall y, In y (grain_dist p) -> 0 <= y) -> calculate_z0 p gr u = Ok z0 -> lo <= 30 * z0 <= hi.
Proof. exact c84_normalised. Qed.
Print Assumptions C84_normalised.
Example C84_normalised_case : rsum (grain_dist (with_roughness MeanInitial 1 [3 / 10; 7 / 10])) = 1 /\ exists z0, calculate_z0 (with_roughness MeanInitial 1 [3 / 10; 7 / 10]) sand 5 = Ok z0 /\ 30 * z0 = 34 / 100000.
Proof. exact c84_normalised_case. Qed.

(** In percent, the roughness is a hundred times larger. *)
Theorem C84_percent_refuted : exists a b za zb, grain_size a = grain_size b /\ grain_dist b = map (Rmult 100) (grain_dist a) /\ calculate_z0 a sand 5 = Ok za /\ calculate_z0 b sand 5 = Ok zb /\ zb = 100 * za /\ 0 < za.
Proof. exact c84_percent. Qed.
Print Assumptions C84_percent_refuted.

(** After the last sample the file starts again, one second later. *)
Theorem C79_repeats : forall t a rest, in_order a rest -> wind_at (t + (at_t (last rest a) - at_t a + 1)) a rest = wind_at t a rest.
Proof. exact c79_repeats. Qed.
Print Assumptions C79_repeats.
Example C79_repeats_case : in_order rising_a [rising_b] /\ In rising_b (rising_a :: [rising_b]) /\ at_t (last [rising_b] rising_a) = 2 /\ fst (wind_at 1 rising_a [rising_b]) = 6 /\ fst (wind_at 3 rising_a [rising_b]) = 5.
Proof. exact c79_samples_case. Qed.

(** In this second the wind is that of the last sample. *)
Theorem C79_pause : forall t a rest, in_order a rest -> at_t (last rest a) <= t < at_t (last rest a) + 1 ->
  fst (wind_at t a rest) = speed (last rest a) /\ same_direction (snd (wind_at t a rest)) (dir (last rest a)).
Proof. exact c79_pause. Qed.
Print Assumptions C79_pause.
Example C79_pause_case : in_order rising_a [rising_b] /\ In rising_b (rising_a :: [rising_b]) /\ at_t (last [rising_b] rising_a) = 2 /\ fst (wind_at 1 rising_a [rising_b]) = 6 /\ fst (wind_at 3 rising_a [rising_b]) = 5.
Proof. exact c79_samples_case. Qed.

(** The stress on the top of a hill is not smaller than on a flat bed, and larger unless the bed is level in every second cell, from whichever side the wind blows. *)
Theorem C112_hill : forall n x zb s i, (0 < i)%nat -> (S i < n)%nat -> x 1%nat <> x 0%nat -> x (n - 2)%nat <> x (n - 1)%nat -> hill n zb i -> 0 < tau (s i) ->
  tau (s i) <= tau (compute_shear1d n x zb s i) /\
  ((exists m, (0 < m)%nat /\ (S m < n)%nat /\ m <> i /\ zb (m - 1)%nat <> zb (S m)) -> tau (s i) < tau (compute_shear1d n x zb s i)).
Proof. exact c112_hill. Qed.
Print Assumptions C112_hill.
Example C112_hill_case : (0 < 4)%nat /\ (5 < 9)%nat /\ places 1%nat <> places 0%nat /\ places (9 - 2)%nat <> places (9 - 1)%nat /\ hill 9 dune 4 /\ 0 < tau (onshore 4) /\
  exists m, (0 < m)%nat /\ (S m < 9)%nat /\ m <> 4%nat /\ dune (m - 1)%nat <> dune (S m).
Proof. exact c112_case. Qed.

(** In a hollow it is not larger. *)
Theorem C112_hollow : forall n x zb s i, (0 < i)%nat -> (S i < n)%nat -> x 1%nat <> x 0%nat -> x (n - 2)%nat <> x (n - 1)%nat -> hill n (fun j => - zb j) i -> 0 < tau (s i) ->
  tau (compute_shear1d n x zb s i) <= tau (s i) /\
  ((exists m, (0 < m)%nat /\ (S m < n)%nat /\ m <> i /\ zb (m - 1)%nat <> zb (S m)) -> tau (compute_shear1d n x zb s i) < tau (s i)).
Proof. exact c112_hollow. Qed.
Print Assumptions C112_hollow.
Example C112_hollow_case : (0 < 4)%nat /\ (5 < 9)%nat /\ places 1%nat <> places 0%nat /\ places (9 - 2)%nat <> places (9 - 1)%nat /\ hill 9 (fun j => - - dune j) 4 /\ 0 < tau (onshore 4).
Proof. exact c112_hollow_case. Qed.

(** In the middle of a uniform slope it changes by three times the slope, down to a tenth. *)
Theorem C112_slope : forall i x zb s b dx, (0 < i)%nat -> 0 < dx -> (forall j, (j < 2 * i)%nat -> x (S j) - x j = dx /\ zb (S j) - zb j = b * dx) ->
  tau (compute_shear1d (2 * i + 1) x zb s i) = tau (s i) * Rmax (1 + 3 * (if Rlt_dec (total (2 * i + 1) (fun j => taus (s j))) 0 then - b else b)) (1 / 10).
Proof. exact c112_slope. Qed.
Print Assumptions C112_slope.
Example C112_slope_case : (0 < 4)%nat /\ 0 < 1 /\ (forall j, (j < 2 * 4)%nat -> places (S j) - places j = 1 /\ 1 / 10 * places (S j) - 1 / 10 * places j = 1 / 10 * 1) /\
  total (2 * 4 + 1) (fun j => taus (onshore j)) = 9.
Proof. exact c112_slope_case. Qed.
