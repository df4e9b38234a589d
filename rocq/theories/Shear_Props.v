(** Properties C113-C119: the two-dimensional wind shear. *)
From Coq Require Import Reals ZArith.
From Verif Require Import Base Shear_Model Shear_Spec Shear_Proofs Shear_Grid Shear_Interp Shear_Stress Shear_Bubble Shear_Ramp Shear_Fourier Shear_Units Shear_Cases.
Open Scope R_scope.

(** C113. Turned back, the computational grid covers every point of a grid with equal cells, for every oblique wind direction. *)
Theorem C113_covers : forall g o e f b dx dy udir r c, (0 < rows g)%nat -> (0 < cols g)%nat -> equal_cells g o e f -> oblique udir ->
  0 < dx <= b -> 0 < dy <= b -> (r < rows g)%nat -> (c < cols g)%nat ->
  within (turn_grid (- (270 - udir)) (centre g) (computational b dx dy g udir)) (place g r c).
Proof. exact c113_covers. Qed.
Print Assumptions C113_covers.
Example C113_covers_case : equal_cells square (0, 0) (1, 0) (0, 1) /\ oblique 45 /\ within (turn_grid (- (270 - 45)) (centre square) (computational 10 1 1 square 45)) (place square 0 40).
Proof. exact covers_case. Qed.

(** And for the directions along the axes, when the padding exceeds one cell by an eight hundredth of the size of the grid. *)
Theorem C113_straight : forall g o e f b dx dy udir size r c, (0 < rows g)%nat -> (0 < cols g)%nat -> equal_cells g o e f -> straight udir ->
  (INR (cols g) - 1) * (Rabs (fst e) + Rabs (snd e)) + (INR (rows g) - 1) * (Rabs (fst f) + Rabs (snd f)) <= size ->
  0 < dx -> 0 < dy -> dx + size / 800 <= b -> dy + size / 800 <= b -> (r < rows g)%nat -> (c < cols g)%nat ->
  within (turn_grid (- (270 - udir)) (centre g) (computational b dx dy g udir)) (place g r c).
Proof. exact c113_straight. Qed.
Print Assumptions C113_straight.
Example C113_straight_case : straight 270 /\ within (turn_grid (- (270 - 270)) (centre strip) (computational 10 1 1 strip 270)) (place strip 1 1).
Proof. exact straight_case. Qed.

(** So no cell of the model gets the fill value. *)
Theorem C113_computed : forall g p0 e f b dx dy udir z f1 f2 r c, equal_cells g p0 e f -> oblique udir -> 0 < dx <= b -> 0 < dy <= b -> (r < rows g)%nat -> (c < cols g)%nat ->
  let h := turn_grid (- (270 - udir)) (centre g) (computational b dx dy g udir) in
  interpolate (centre g) h z f1 (place g r c) = interpolate (centre g) h z f2 (place g r c).
Proof. exact c113_computed. Qed.
Print Assumptions C113_computed.
Example C113_computed_case : let h := turn_grid (- (270 - 45)) (centre square) (computational 10 1 1 square 45) in
  interpolate (centre square) h (fun _ _ => 7) 0 (place square 40 3) = 7.
Proof. exact computed_case. Qed.

(** The size of the computational grid: the largest distance between two corners along and across the wind and twice the padding, up to 3 m. *)
Theorem C113_size : forall g b udir, oblique udir ->
  (forall i j, (i < 4)%nat -> (j < 4)%nat -> Rabs (across udir (corner g i) - across udir (corner g j)) + 2 * b <= width b g udir /\
     Rabs (along udir (corner g i) - along udir (corner g j)) + 2 * b <= span b g udir) /\
  (exists i j, (i < 4)%nat /\ (j < 4)%nat /\ width b g udir <= Rabs (across udir (corner g i) - across udir (corner g j)) + 2 * b + 3) /\
  (exists i j, (i < 4)%nat /\ (j < 4)%nat /\ span b g udir <= Rabs (along udir (corner g i) - along udir (corner g j)) + 2 * b + 3).
Proof. exact c113_size. Qed.
Print Assumptions C113_size.
Example C113_size_case : oblique 45 /\ 20 <= width 10 square 45 <= 80 /\ 20 <= span 10 square 45 <= 80.
Proof. exact size_case. Qed.

(** It is larger than that. *)
Theorem C113_tight_refuted : exists g b udir, oblique udir /\ forall i j, (i < 4)%nat -> (j < 4)%nat ->
  Rabs (across udir (corner g i) - across udir (corner g j)) + 2 * b + 1 / 2 < width b g udir.
Proof. exact c113_tight. Qed.
Print Assumptions C113_tight_refuted.

(** With columns of unequal width a part of the grid lies outside the computational grid. *)
Theorem C113_graded_refuted : exists g b dx dy udir r c, oblique udir /\ 0 < dx < b /\ 0 < dy < b /\ (r < rows g)%nat /\ (c < cols g)%nat /\
  (forall r c, gx g r c < gx g r (S c) \/ (cols g <= S c)%nat) /\ (forall r c, gy g r c < gy g (S r) c) /\
  ~ within (turn_grid (- (270 - udir)) (centre g) (computational b dx dy g udir)) (place g r c).
Proof. exact c113_graded. Qed.
Print Assumptions C113_graded_refuted.

(** C114. An interpolated value lies between the smallest and the largest value, or is the fill value. *)
Theorem C114_range : forall o g z fill p lo hi, (0 < rows g)%nat -> (0 < cols g)%nat -> between (rows g) (cols g) z lo hi ->
  lo <= interpolate o g z fill p <= hi \/ interpolate o g z fill p = fill.
Proof. exact c114_range. Qed.
Print Assumptions C114_range.
Example C114_range_case : (0 < rows strip)%nat /\ (0 < cols strip)%nat /\ between (rows strip) (cols strip) tilted 0 3.
Proof. exact range_case. Qed.

(** At the points of the grid the values are kept. *)
Theorem C114_nodes : forall o g z fill p0 e f r c, equal_cells g p0 e f -> perpendicular e f -> nonzero e -> nonzero f ->
  (r < rows g)%nat -> (c < cols g)%nat -> interpolate o g z fill (place g r c) = z r c.
Proof. exact c114_nodes. Qed.
Print Assumptions C114_nodes.
Example C114_nodes_case : equal_cells strip (0, 0) (1000, 0) (0, 1) /\ perpendicular (1000, 0) (0, 1) /\ nonzero (1000, 0) /\ nonzero (0, 1) /\ interpolate (0, 0) strip tilted 0 (1000, 1) = 3.
Proof. exact nodes_case. Qed.

(** A plane is kept within the grid. *)
Theorem C114_plane : forall o g z fill p0 e f s t a b c, (0 < rows g)%nat -> (0 < cols g)%nat -> equal_cells g p0 e f -> perpendicular e f -> nonzero e -> nonzero f ->
  (forall r j, (r < rows g)%nat -> (j < cols g)%nat -> z r j = a + b * gx g r j + c * gy g r j) ->
  0 <= s <= INR (cols g) - 1 -> 0 <= t <= INR (rows g) - 1 ->
  interpolate o g z fill (spot p0 e f s t) = a + b * fst (spot p0 e f s t) + c * snd (spot p0 e f s t).
Proof. exact c114_plane. Qed.
Print Assumptions C114_plane.
Example C114_plane_case : interpolate (0, 0) strip tilted 0 (spot (0, 0) (1000, 0) (0, 1) (1 / 2) (1 / 4)) = 1.
Proof. exact plane_case. Qed.

(** Beyond the edges, up to as far as the grid has rows or columns, the value at the nearest edge; further away the fill value. *)
Theorem C114_beyond : forall o g z fill p0 e f s t, (0 < rows g)%nat -> (0 < cols g)%nat -> equal_cells g p0 e f -> perpendicular e f -> nonzero e -> nonzero f ->
  let w := INR (Nat.max (rows g) (cols g)) in
  (- w <= s <= INR (cols g) - 1 + w -> - w <= t <= INR (rows g) - 1 + w ->
     interpolate o g z fill (spot p0 e f s t) = interpolate o g z fill (spot p0 e f (Rmax 0 (Rmin s (INR (cols g) - 1))) (Rmax 0 (Rmin t (INR (rows g) - 1))))) /\
  (s < - w \/ INR (cols g) - 1 + w < s \/ t < - w \/ INR (rows g) - 1 + w < t -> interpolate o g z fill (spot p0 e f s t) = fill).
Proof. exact c114_beyond. Qed.
Print Assumptions C114_beyond.
Example C114_beyond_case : interpolate (0, 0) strip tilted 0 (1000, 3) = 3 /\ interpolate (0, 0) strip tilted 0 (1000, 4) = 0.
Proof. exact beyond_case. Qed.

(** A bed at a level of 10 m next to which the computation puts a bed at 0 m. *)
Theorem C114_cliff_refuted : exists p g z udir r c, equal_cells g (0, 0) (1000, 0) (0, 1) /\ between (rows g) (cols g) z 10 10 /\
  (let gc := computational (buffer p) (cdx p) (cdy p) g udir in (r < rows gc)%nat /\ (c < cols gc)%nat) /\ bed p g z udir r c = 0.
Proof. exact c114_cliff. Qed.
Print Assumptions C114_cliff_refuted.

(** C115. The stress never points against the wind. *)
Theorem C115_forward : forall kv p g z u0 udir t0 r c, 0 <= along udir t0 ->
  0 <= along udir (fst (call kv p g z u0 udir t0 r c)).
Proof. exact c115_forward. Qed.
Print Assumptions C115_forward.
Example C115_forward_case : 0 <= along 45 (- 1, - 1) /\ ~ 0 <= along 45 (1, 1).
Proof. exact forward_case. Qed.

(** Without wind speed the stress is not changed. *)
Theorem C115_calm : forall kv p g z udir t0 r c, process_separation p = false -> 0 <= along udir t0 ->
  fst (call kv p g z 0 udir t0 r c) = t0.
Proof. exact c115_calm. Qed.
Print Assumptions C115_calm.
Example C115_calm_case : process_separation open_air = false /\ 0 <= along 45 (- 1, - 1).
Proof. exact calm_case. Qed.

(** The result is proportional to the stress that is given. *)
Theorem C115_scale : forall kv p g z u0 udir t0 k r c, 0 < k ->
  let before := fst (call kv p g z u0 udir t0 r c) in
  fst (call kv p g z u0 udir (k * fst t0, k * snd t0) r c) = (k * fst before, k * snd before).
Proof. exact c115_scale. Qed.
Print Assumptions C115_scale.
Example C115_scale_case : forall kv, fst (call kv open_air square (fun _ _ => 0) 0 45 (2 * - 1, 2 * - 1) 3 4) = (- 2, - 2).
Proof. exact scale_case. Qed.

(** Of a stress in the direction of the wind the perturbation adds its first component along and its second component across the wind, relative to the stress. *)
Theorem C115_perturbed : forall p udir m dt h, 0 < m -> process_separation p = false ->
  let t0 := (m * fst (blows_to udir), m * snd (blows_to udir)) in
  along udir (cell_stress p udir t0 dt h) = m * Rmax (1 + fst dt) 0 /\ across udir (cell_stress p udir t0 dt h) = m * snd dt.
Proof. exact c115_perturbed. Qed.
Print Assumptions C115_perturbed.
Example C115_perturbed_case : 0 < 2 /\ process_separation open_air = false /\ along 90 (2 * fst (blows_to 90), 2 * snd (blows_to 90)) = 2.
Proof. exact perturbed_case. Qed.

(** In the separation bubble the stress is multiplied by one factor between 0 and 1: 1 outside the bubble, 0 where it is deeper than 10 cm. *)
Theorem C115_sheltered : forall p q udir t0 dt h, process_separation p = true -> process_separation q = false ->
  exists f, 0 <= f <= 1 /\ cell_stress p udir t0 dt h = (f * fst (cell_stress q udir t0 dt h), f * snd (cell_stress q udir t0 dt h)) /\
  (h <= 0 -> f = 1) /\ (1 / 10 <= h -> f = 0).
Proof. exact c115_sheltered. Qed.
Print Assumptions C115_sheltered.
Example C115_sheltered_case : cell_stress usual 45 (- 1, - 1) (0, 0) (1 / 20) = (- (1 / 2), - (1 / 2)).
Proof. exact sheltered_case. Qed.

(** C116. The separation surface does not lie below the bed. *)
Theorem C116_above : forall p n z r c, z r c <= surface p n z r c /\ (process_separation p = false -> surface p n z r c = z r c).
Proof. exact c116_above. Qed.
Print Assumptions C116_above.
Example C116_above_case : surface usual 10 (fun _ _ => 2) 3%nat 4%nat = 2.
Proof. exact above_case. Qed.

(** Where no slope is steeper than the limit and the bed is not below zero, the separation surface is the bed. *)
Theorem C116_gentle : forall n dx c mu z m, (3 <= n)%nat -> gentle n dx mu z -> 0 <= z m -> separation n dx c mu z m = z m.
Proof. exact c116_gentle. Qed.
Print Assumptions C116_gentle.
Example C116_gentle_case : gentle 10 1 30 (fun _ => 2) /\ separation 10 1 (2 / 10) 30 (fun _ => 2) 4%nat = 2.
Proof. exact gentle_case. Qed.

(** The streamline starts at the brink with the slope at the brink and ends, horizontally, at the foot. *)
Theorem C116_streamline : forall h d ls base, 0 < ls ->
  cubic h d ls base 0 = base /\ cubic h d ls base ls = base - h /\
  derivable_pt_lim (cubic h d ls base) 0 d /\ derivable_pt_lim (cubic h d ls base) ls 0.
Proof. exact c116_streamline. Qed.
Print Assumptions C116_streamline.
Example C116_streamline_case : cubic 6 (1 / 10) 20 5 10 = 5 - 3 + 1 / 4.
Proof. exact streamline_case. Qed.

(** Behind a cliff steeper than the limit the surface falls smoothly from the height of the cliff to the foot, over a distance of 3/(2c) times the height. *)
Theorem C116_cliff : forall n b dx c mu h m, (4 <= b)%nat -> (b + 4 < n)%nat -> 0 < dx -> 0 < c -> 0 < h -> mu < degrees (atan (h / (2 * dx))) -> (m + 1 < n)%nat ->
  ((m <= b)%nat -> separation n dx c mu (cliff b h) m = h) /\
  ((b < m)%nat -> (INR m + 1 - INR b) * dx <= reach c h -> separation n dx c mu (cliff b h) m = h * fall ((INR m + 1 - INR b) * dx / reach c h)) /\
  ((b < m)%nat -> reach c h < (INR m + 1 - INR b) * dx -> separation n dx c mu (cliff b h) m = 0).
Proof. exact c116_cliff. Qed.
Print Assumptions C116_cliff.
Example C116_cliff_case : (4 <= 10)%nat /\ (10 + 4 < 60)%nat /\ 30 < degrees (atan (4 / (2 * 1))) /\ reach (2 / 10) 4 = 30 /\ separation 60 1 (2 / 10) 30 (cliff 10 4) 24%nat = 2.
Proof. exact cliff_case. Qed.

(** The same behind a slope that rises towards a cliff: the surface starts with the slope of the bed. *)
Theorem C116_ramp : forall n b dx c mu h s m, (4 <= b)%nat -> (b + 4 < n)%nat -> 0 < dx -> 0 < c -> 0 < h -> 0 <= s -> mu < degrees (atan (h / (2 * dx))) -> (m + 1 < n)%nat ->
  let x := (INR m + 1 - INR b) * dx in
  let l := reach_rising c h s in
  ((m <= b)%nat -> separation n dx c mu (ramp b dx s h) m = Rmax (ramp b dx s h m) 0) /\
  ((b < m)%nat -> x <= l -> separation n dx c mu (ramp b dx s h) m = h * fall (x / l) + s * x * (1 - x / l) ^ 2) /\
  ((b < m)%nat -> l < x -> separation n dx c mu (ramp b dx s h) m = 0).
Proof. exact c116_ramp. Qed.
Print Assumptions C116_ramp.
Example C116_ramp_case : 30 < degrees (atan (4 / (2 * 1))) /\ reach_rising (2 / 10) 4 (1 / 5) = 165 / 4 /\ separation 60 1 (2 / 10) 30 (ramp 10 1 (1 / 5) 4) 24%nat = 4 * fall (4 / 11) + 147 / 121.
Proof. exact ramp_case. Qed.

(** The steeper the bed rises towards the brink, the farther the wind is separated. *)
Theorem C116_longer : forall c h s t, 0 < c -> 0 < h -> - c <= s <= t -> reattach c h s <= reattach c h t /\
  (1 / 10 < reattach c h s -> s < t -> reattach c h t < 200 -> reattach c h s < reattach c h t).
Proof. exact c116_longer. Qed.
Print Assumptions C116_longer.
Example C116_longer_case : 0 < 2 / 10 /\ 0 < 4 /\ - (2 / 10) <= 0 <= 1 / 5 /\ reattach (2 / 10) 4 0 = 30 /\ reattach (2 / 10) 4 (1 / 5) = 165 / 4.
Proof. exact longer_case. Qed.

(** Where the bed is 10 cm or more below zero the stress is zero, whatever its shape. *)
Theorem C116_datum : forall p n z udir t0 dt r c, process_separation p = true -> z r c <= - (1 / 10) ->
  cell_stress p udir t0 dt (surface p n z r c - z r c) = (0, 0).
Proof. exact c116_datum. Qed.
Print Assumptions C116_datum.
Example C116_datum_case : cell_stress usual 45 (- 1, - 1) (1 / 2, 0) (surface usual 10 (fun _ _ => - 1) 0%nat 3%nat - - 1) = (0, 0).
Proof. exact datum_case. Qed.

(** So there is no stress anywhere on a grid that lies below zero. *)
Theorem C116_no_wind : forall kv p g z u0 udir t0 r c p0 e f, process_separation p = true -> equal_cells g p0 e f -> oblique udir ->
  0 < cdx p <= buffer p -> 0 < cdy p <= buffer p -> (r < rows g)%nat -> (c < cols g)%nat ->
  (let gc := computational (buffer p) (cdx p) (cdy p) g udir in forall i j, (i < rows gc)%nat -> (j < cols gc)%nat -> bed p g z udir i j <= - (1 / 10)) ->
  fst (call kv p g z u0 udir t0 r c) = (0, 0).
Proof. exact c116_no_wind. Qed.
Print Assumptions C116_no_wind.
Example C116_no_wind_case : process_separation usual = true /\ 0 < cdx usual <= buffer usual /\ forall i j, (i < rows (computational 10 1 1 square 45))%nat -> (j < cols (computational 10 1 1 square 45))%nat -> bed usual square (fun _ _ => - 1) 45 i j = - 1.
Proof. exact no_wind_case. Qed.

(** A level beach at -1 m. *)
Theorem C116_beach_refuted : exists p g z udir t0, process_separation p = true /\ 0 < along udir t0 /\ between (rows g) (cols g) z (- 1) (- 1) /\ forall kv u0 r c, (r < rows g)%nat -> (c < cols g)%nat ->
  fst (call kv p g z u0 udir t0 r c) = (0, 0).
Proof. exact c116_beach. Qed.
Print Assumptions C116_beach_refuted.

(** C117. The perturbation is linear in the bed. *)
Theorem C117_superposition : forall kv dx dy L l0 z0 u0 m n z1 z2 k r c,
  fst (compute_shear kv dx dy L l0 z0 u0 m n (fun i j => z1 i j + k * z2 i j)) r c =
    fst (compute_shear kv dx dy L l0 z0 u0 m n z1) r c + k * fst (compute_shear kv dx dy L l0 z0 u0 m n z2) r c /\
  snd (compute_shear kv dx dy L l0 z0 u0 m n (fun i j => z1 i j + k * z2 i j)) r c =
    snd (compute_shear kv dx dy L l0 z0 u0 m n z1) r c + k * snd (compute_shear kv dx dy L l0 z0 u0 m n z2) r c.
Proof. exact c117_superposition. Qed.
Print Assumptions C117_superposition.
Example C117_superposition_case : forall kv r c, fst (compute_shear kv 1 1 100 10 (1 / 1000) 0 4 4 (fun i j => INR i + 2 * INR j)) r c = 0.
Proof. exact superposition_case. Qed.

(** It moves with the bed. *)
Theorem C117_moved : forall kv dx dy L l0 z0 u0 m n i j z r c, (0 < m)%nat -> (0 < n)%nat ->
  fst (compute_shear kv dx dy L l0 z0 u0 m n (moved m n i j z)) r c = moved m n i j (fst (compute_shear kv dx dy L l0 z0 u0 m n z)) r c /\
  snd (compute_shear kv dx dy L l0 z0 u0 m n (moved m n i j z)) r c = moved m n i j (snd (compute_shear kv dx dy L l0 z0 u0 m n z)) r c.
Proof. exact c117_moved. Qed.
Print Assumptions C117_moved.
Example C117_moved_case : moved 3 4 1 2 (fun r c => INR r + 10 * INR c) 2%nat 1%nat = 30.
Proof. exact moved_case. Qed.

(** Raising the bed changes the perturbation by the height times a constant, the response to a wave about as long as the grid. *)
Theorem C117_level : forall kv dx dy L l0 z0 u0 m n z h r c, (2 <= m)%nat -> (2 <= n)%nat -> 0 < dx -> 0 < dy -> u0 <> 0 ->
  let kx := 2 * PI / (INR (n + 1) * dx) in let ky := 2 * PI / (INR (m + 1) * dy) in
  fst (compute_shear kv dx dy L l0 z0 u0 m n (fun i j => z i j + h)) r c = fst (compute_shear kv dx dy L l0 z0 u0 m n z) r c + h * fst (transfer_x kv dx dy L l0 z0 kx ky) /\
  snd (compute_shear kv dx dy L l0 z0 u0 m n (fun i j => z i j + h)) r c = snd (compute_shear kv dx dy L l0 z0 u0 m n z) r c + h * fst (transfer_y kv dx dy L l0 z0 kx ky).
Proof. exact c117_level. Qed.
Print Assumptions C117_level.
Example C117_level_case : (2 <= 2)%nat /\ (2 <= 5)%nat /\ 0 < (1 : R) /\ (1 : R) <> 0.
Proof. exact level_case. Qed.

(** Whatever the Bessel function, there is a grid on which a level bed perturbs the wind. *)
Theorem C117_flat_refuted : forall kv, exists dx dy L l0 z0 m n, 0 < dx /\ 0 < dy /\ 0 < z0 < l0 /\ 0 < L /\
  forall r c, fst (compute_shear kv dx dy L l0 z0 1 m n (fun _ _ => 0)) r c = 0 /\ fst (compute_shear kv dx dy L l0 z0 1 m n (fun _ _ => 1)) r c <> 0.
Proof. exact c117_flat. Qed.
Print Assumptions C117_flat_refuted.

(** With a function like the Bessel function a level bed deflects the wind. *)
Theorem C117_sideways_refuted : forall kv, like_bessel kv -> exists dx dy L l0 z0 m n, 0 < dx /\ 0 < dy /\ 0 < z0 < l0 /\ 0 < L /\
  forall r c, 0 < snd (compute_shear kv dx dy L l0 z0 1 m n (fun _ _ => 1)) r c.
Proof. exact c117_sideways. Qed.
Print Assumptions C117_sideways_refuted.
Example C117_sideways_refuted_case : like_bessel (fun _ _ => (1, 0)).
Proof. exact bessel_case. Qed.

(** C118. The filter lets pass all waves that the grid can represent. *)
Theorem C118_passes : forall m n dx dy a b, 0 < dx -> 0 < dy -> (a < m)%nat -> (b < n)%nat ->
  99 / 100 <= filter_x dx (wave n dx b) < 1 /\ 9 / 10 <= filter_y dy (wave m dy a) < 1.
Proof. exact c118_passes. Qed.
Print Assumptions C118_passes.
Example C118_passes_case : 0 < 1 /\ (3 < 8)%nat /\ Rabs (wave 7 1 3) = PI.
Proof. exact passes_case. Qed.

(** At the wave length where the filter should leave 1% it leaves a half. *)
Theorem C118_half : forall d, 0 < d -> filter_x d (2 * PI / d) = 1 / 2 /\ filter_y d (2 * PI / d) = 1 / 2.
Proof. exact c118_half. Qed.
Print Assumptions C118_half.

(** So it does not taper between the documented bounds. *)
Theorem C118_taper_refuted : exists d k, 0 < d /\ 2 * PI / d / k = 1 /\ filter_x d k = 1 / 2 /\ filter_y d k = 1 / 2.
Proof. exact c118_taper. Qed.
Print Assumptions C118_taper_refuted.

(** It treats waves along and across the wind differently. *)
Theorem C118_directions : forall d k, 0 < d -> 0 < k < 2 * PI / d -> filter_y d k < filter_x d k.
Proof. exact c118_directions. Qed.
Print Assumptions C118_directions.
Example C118_directions_case : 0 < PI < 2 * PI / 1.
Proof. exact directions_case. Qed.

(** C119. In another unit of length the perturbations of all beds in all cells and in both directions keep their proportions. *)
Theorem C119_pattern : forall kv dx dy L l0 z0 u0 m n s z1 z2 r1 c1 r2 c2, 0 < s -> 0 < z0 ->
  let before z := compute_shear kv dx dy L l0 z0 u0 m n z in
  let after z := compute_shear kv (s * dx) (s * dy) (s * L) (s * l0) (s * z0) u0 m n (fun i j => s * z i j) in
  fst (after z1) r1 c1 * fst (before z2) r2 c2 = fst (before z1) r1 c1 * fst (after z2) r2 c2 /\
  snd (after z1) r1 c1 * snd (before z2) r2 c2 = snd (before z1) r1 c1 * snd (after z2) r2 c2 /\
  fst (after z1) r1 c1 * snd (before z2) r2 c2 = fst (before z1) r1 c1 * snd (after z2) r2 c2.
Proof. exact c119_pattern. Qed.
Print Assumptions C119_pattern.
Example C119_pattern_case : (0 < 1000 /\ 0 < 1 / 1000) /\ forall kv, snd (compute_shear kv 1 1 100 10 (1 / 1000) 0 4 4 tilted) 1%nat 2%nat = 0.
Proof. exact pattern_case. Qed.

(** But they are multiplied by a factor, because the search for the middle layer starts at a height of 1, whatever the unit. *)
Theorem C119_unit_refuted : forall kv, like_bessel kv -> exists dx dy L l0 z0 m n s, 0 < dx /\ 0 < dy /\ 0 < z0 < l0 /\ 0 < L /\ 0 < s /\
  forall r c, snd (compute_shear kv (s * dx) (s * dy) (s * L) (s * l0) (s * z0) 1 m n (fun _ _ => s * 1)) r c <> snd (compute_shear kv dx dy L l0 z0 1 m n (fun _ _ => 1)) r c.
Proof. exact c119_unit. Qed.
Print Assumptions C119_unit_refuted.
