(** Property theorems about the bed: C23-C27, C56. *)
From Verif Require Import Base Num Utils_Model Utils_Spec Utils_Proofs Bed_Model Bed_Spec Bed_Proofs Bed_Cases Bed_Init.
Open Scope Q_scope.

(** C23. Wave mixing, for every cell of every grid: each fraction is conserved, masses stay non-negative, equal layer masses stay
    equal, layers below the depth of disturbance (and cells without waves) keep their sediment, and the mixed layers obtain the
    same composition. *)
Theorem C23_mixing : forall process nf fac cells i c, nth_error cells i = Some c -> length (thlyr c) = length (mixmass c) -> shaped nf (mixmass c) ->
  nonneg_bed (mixmass c) -> all_nonneg (thlyr c) ->
  exists m', nth_error (mixtoplayer process nf fac cells) i = Some m' /\
    (forall k, fraction_mass k m' == fraction_mass k (mixmass c)) /\ nonneg_bed m' /\
    (forall M, (forall l, In l (mixmass c) -> qsum l == M) -> forall l, In l m' -> qsum l == M) /\
    (forall j l, nth_error (mixmass c) j = Some l -> fac * hsmix c < bottom j (thlyr c) \/ fac * hsmix c <= 0 \/ process = false ->
       exists l', nth_error m' j = Some l' /\ same l' l) /\
    (process = true -> 0 < fac * hsmix c -> fac * hsmix c <= qsum (thlyr c) ->
       forall a b la lb, bottom a (thlyr c) <= fac * hsmix c -> bottom b (thlyr c) <= fac * hsmix c ->
       nth_error (mixmass c) a = Some la -> nth_error (mixmass c) b = Some lb ->
       exists ma mb, nth_error m' a = Some ma /\ nth_error m' b = Some mb /\ same ma mb).
Proof. exact mix_grid. Qed.
Print Assumptions C23_mixing.
Example C23_mixing_ex : length (thlyr c23_cell) = length (mixmass c23_cell) /\ shaped 2 (mixmass c23_cell) /\ nonneg_bed (mixmass c23_cell) /\
  all_nonneg (thlyr c23_cell) /\ any_disturbed (1 # 2) [c23_cell] = true /\
  map (map Qred) (mix_cell true 2 (1 # 2) c23_cell) = [[2; 2]; [2; 2]; [2; 2]] /\
  (0 < dod (1 # 2) c23_cell /\ dod (1 # 2) c23_cell <= qsum (thlyr c23_cell) /\ bottom 1 (thlyr c23_cell) <= dod (1 # 2) c23_cell /\
  dod (1 # 2) c23_cell < bottom 2 (thlyr c23_cell)).
Proof. exact c23_case. Qed.

(** C24. A bed composition file is ignored when the grain size distribution consists of integers. *)
Theorem C24_file_ignored_refuted : exists rhog por th d b b', length d = 1%nat /\ shaped 1 b /\ length b = length th /\
  initialize rhog por 1 9 0 th (Dist1 true d) (Some b) = Ok b' /\ ~ same (layer_masses b') (layer_masses b).
Proof. exact c24_file_ignored. Qed.
Print Assumptions C24_file_ignored_refuted.
(** Otherwise the masses are those of the file. *)
Theorem C24_file : forall rhog por nf nx x th g b, is_int g = false -> initialize rhog por nf nx x th g (Some b) = Ok b.
Proof. exact init_file. Qed.
Print Assumptions C24_file.
Example C24_file_ex : is_int (Dist1 false [1 # 4; 3 # 4]) = false /\ initialize 2650 (2 # 5) 2 9 0 [1 # 100] (Dist1 false [1 # 4; 3 # 4]) (Some [[3; 5]]) = Ok [[3; 5]].
Proof. exact c24_file_case. Qed.
(** A distribution with more entries than there are fractions loses mass. *)
Theorem C24_longer_refuted : exists rhog por th d b, qsum d == 1 /\ initialize rhog por 1 9 0 [th] (Dist1 false d) None = Ok b /\
  ~ qsum (layer_masses b) == rhog * (1 - por) * th.
Proof. exact c24_longer. Qed.
Print Assumptions C24_longer_refuted.
Theorem C24_shorter : forall rhog por nf nx x t th isint d bedcomp, (length d < nf)%nat -> isint = true \/ bedcomp = None ->
  initialize rhog por nf nx x (t :: th) (Dist1 isint d) bedcomp = Raise IndexError.
Proof. exact c24_shorter. Qed.
Print Assumptions C24_shorter.
Theorem C24_uniform_partial : forall rhog por nf nx x th isint d bedcomp, length d = nf -> ~ qsum d == 0 -> isint = true \/ bedcomp = None ->
  exists b, initialize rhog por nf nx x th (Dist1 isint d) bedcomp = Ok b /\ length b = length th /\
    forall i t, nth_error th i = Some t -> exists l, nth_error b i = Some l /\ length l = nf /\ qsum l == rhog * (1 - por) * t /\
      forall k, nth k l 0 == rhog * (1 - por) * t * (nth k d 0 / qsum d).
Proof. exact init_uniform. Qed.
Print Assumptions C24_uniform_partial.
Example C24_uniform_ex : length [1 # 4; 3 # 4] = 2%nat /\ ~ qsum [1 # 4; 3 # 4] == 0 /\
  (exists b, initialize 2650 (2 # 5) 2 9 0 [1 # 100; 1 # 50] (Dist1 false [1 # 4; 3 # 4]) None = Ok b /\
    map (map Qred) b = [[159 # 40; 477 # 40]; [159 # 20; 477 # 20]]).
Proof. exact c24_case. Qed.
Theorem C24_layered_partial : forall rhog por nf nx x th rows, length rows = length th -> (forall r, In r rows -> length r = nf /\ ~ qsum r == 0) ->
  exists b, initialize rhog por nf nx x th (Dist2 false rows) None = Ok b /\ length b = length th /\
    forall i t r, nth_error th i = Some t -> nth_error rows i = Some r -> exists l, nth_error b i = Some l /\ length l = nf /\
      qsum l == rhog * (1 - por) * t /\ forall k, nth k l 0 == rhog * (1 - por) * t * (nth k r 0 / qsum r).
Proof. exact init_layered. Qed.
Print Assumptions C24_layered_partial.
Example C24_layered_ex : length [[1; 3]; [2; 2]] = length [1 # 100; 1 # 50] /\
  (forall r, In r [[1; 3]; [2; 2]] -> length r = 2%nat /\ ~ qsum r == 0) /\
  (exists b, initialize 2650 (2 # 5) 2 9 0 [1 # 100; 1 # 50] (Dist2 false [[1; 3]; [2; 2]]) None = Ok b /\
    map (map Qred) b = [[159 # 40; 477 # 40]; [159 # 10; 159 # 10]]).
Proof. exact c24_layered_case. Qed.
(** A matrix of integers is not read as a distribution per layer, but as a row per fraction with an entry per column of the grid, all divided by the sum of the whole matrix. So the layers do not get their mass ... *)
Theorem C24_integers_refuted : exists rhog por nf nx x th rows b b' l, length rows = length th /\ (forall r, In r rows -> length r = nf /\ qsum r == 4) /\ initialize rhog por nf nx x th (Dist2 false rows) None = Ok b /\
  initialize rhog por nf nx x th (Dist2 true rows) None = Ok b' /\ nth_error b' 0 = Some l /\ ~ qsum l == rhog * (1 - por) * nth 0 th 0.
Proof. exact c24_integers. Qed.
Print Assumptions C24_integers_refuted.
(** ... exactly so if the matrix has a column for each column of the grid ... *)
Theorem C24_matrix : forall rhog por nf nx x th rows bedcomp, length rows = nf -> (forall r, In r rows -> length r = S nx) -> (x <= nx)%nat ->
  exists b, initialize rhog por nf nx x th (Dist2 true rows) bedcomp = Ok b /\ length b = length th /\
    forall i t, nth_error th i = Some t -> exists l, nth_error b i = Some l /\ length l = nf /\ forall k r, nth_error rows k = Some r -> nth k l 0 == rhog * (1 - por) * t * (nth x r 0 / qsum (map qsum rows)).
Proof. exact init_matrix. Qed.
Print Assumptions C24_matrix.
Example C24_matrix_ex : length [[1; 2; 3]; [4; 5; 6]] = 2%nat /\ (forall r, In r [[1; 2; 3]; [4; 5; 6]] -> length r = 3%nat) /\
  (exists b, initialize 2650 (2 # 5) 2 2 1 [1 # 100] (Dist2 true [[1; 2; 3]; [4; 5; 6]]) None = Ok b /\ map (map Qred) b = [[53 # 35; 53 # 14]]).
Proof. exact c24_matrix_case. Qed.
(** ... or the model stops. *)
Theorem C24_matrix_raises : forall rhog por nf nx x t th rows bedcomp, length rows = nf -> (exists r, In r rows /\ length r <> 1%nat /\ length r <> S nx) ->
  initialize rhog por nf nx x (t :: th) (Dist2 true rows) bedcomp = Raise ValueError.
Proof. exact init_matrix_raises. Qed.
Print Assumptions C24_matrix_raises.
Example C24_matrix_raises_ex : length [[1; 3]; [2; 2]] = 2%nat /\ exists r, In r [[1; 3]; [2; 2]] /\ length r <> 1%nat /\ length r <> S 9.
Proof. exact c24_raises_case. Qed.

(** C25. A net deposit exactly as large as the top layer doubles that layer. *)
Theorem C25_equal_refuted : exists p nf cells i c base c', nth_error cells i = Some (c, base) /\ sound_cell nf c /\ length base = nf /\ distribution base /\
  (forall l, In l (mass c) -> 0 < qsum l /\ qabs (net_deposit (pickup c)) <= qsum l) /\ nth_error (update p cells) i = Some c' /\
  ~ same (layer_masses (mass c')) (layer_masses (mass c)).
Proof. exact c25_refuted. Qed.
Print Assumptions C25_equal_refuted.
(** Erosion of more than the mass of a thinner layer below makes a mass negative. *)
Theorem C25_thin_refuted : exists p nf cells i c base c', nth_error cells i = Some (c, base) /\ sound_cell nf c /\ length base = nf /\ distribution base /\
  (forall l, In l (mass c) -> 0 < qsum l) /\ net_deposit (pickup c) < top_mass (mass c) /\ nth_error (update p cells) i = Some c' /\ ~ nonneg_bed (mass c').
Proof. exact c25_thin_refuted. Qed.
Print Assumptions C25_thin_refuted.
(** For exchanges that do not exceed the mass of any layer (and, for deposits, are less than the top layer): masses stay
    non-negative, layers keep their mass, each fraction changes by the pickup and by what enters from (or leaves to) the base, whose
    composition is that of the base when eroding and that of the lowest layer when depositing; the bed level follows the net mass,
    and the water level moves with the bed when there is tide. *)
Theorem C25_update_partial : forall p nf cells i c base, nth_error cells i = Some (c, base) -> sound_cell nf c -> length base = nf -> distribution base ->
  (forall l, In l (mass c) -> 0 < qsum l /\ qabs (net_deposit (pickup c)) <= qsum l) -> net_deposit (pickup c) < top_mass (mass c) ->
  exists c' out, nth_error (update p cells) i = Some c' /\
    shaped nf (mass c') /\ nonneg_bed (mass c') /\ same (layer_masses (mass c')) (layer_masses (mass c)) /\
    distribution out /\ length out = nf /\
    (forall k, fraction_mass k (mass c') == fraction_mass k (mass c) - nth k (pickup c) 0 - net_deposit (pickup c) * nth k out 0) /\
    (net_deposit (pickup c) < 0 -> out = base) /\
    ((2 <= length (mass c))%nat -> 0 < net_deposit (pickup c) -> out = normalize 0 (last (mass c) [])) /\
    (process_bedupdate p = true -> zb c' == zb c + net_deposit (pickup c) / (rhog p * (1 - porosity p)) /\
       (process_tide p = true -> zs c' - zb c' == zs c - zb c)).
Proof. exact update_moderate. Qed.
Print Assumptions C25_update_partial.
Example C25_update_ex : nth_error [(c25_cell, [1 # 2; 1 # 2])] 0 = Some (c25_cell, [1 # 2; 1 # 2]) /\ sound_cell 2 c25_cell /\ distribution [1 # 2; 1 # 2] /\
  (forall l, In l (mass c25_cell) -> 0 < qsum l /\ qabs (net_deposit (pickup c25_cell)) <= qsum l) /\
  net_deposit (pickup c25_cell) < top_mass (mass c25_cell) /\
  map (fun c => map (map Qred) (mass c)) (update c25_params [(c25_cell, [1 # 2; 1 # 2])]) = [[[3 # 2; 5 # 2]; [7 # 4; 9 # 4]; [5 # 4; 11 # 4]]] /\
  map (fun c => Qred (zb c)) (update c25_params [(c25_cell, [1 # 2; 1 # 2])]) = [7949 # 1590].
Proof. exact c25_case. Qed.

(** C26. A deposit larger than the top layer disappears: the bed does not rise. *)
Theorem C26_deposit_refuted : exists p nf cells i c base c', nth_error cells i = Some (c, base) /\ sound_cell nf c /\ length base = nf /\ distribution base /\
  process_bedupdate p = true /\ nth_error (update p cells) i = Some c' /\ 0 < net_deposit (pickup c) /\ zb c' == zb c /\
  ~ net_deposit (pickup c') == net_deposit (pickup c).
Proof. exact c26_refuted. Qed.
Print Assumptions C26_deposit_refuted.
(** This happens to every such cell. *)
Theorem C26_discarded : forall p nf cells i c base, nth_error cells i = Some (c, base) -> sound_cell nf c -> length base = nf ->
  top_mass (mass c) < net_deposit (pickup c) ->
  exists c', nth_error (update p cells) i = Some c' /\ zb c' == zb c /\ (forall k, nth k (pickup c') 0 == 0) /\
    ((forall l, In l (mass c) -> qsum l == top_mass (mass c)) -> length (mass c') = length (mass c) /\
       forall l, In l (mass c') -> qsum l == top_mass (mass c) /\ all_nonneg l).
Proof. exact update_discard. Qed.
Print Assumptions C26_discarded.
Example C26_discarded_ex : nth_error [(c26_cell, [1; 0])] 0 = Some (c26_cell, [1; 0]) /\ sound_cell 2 c26_cell /\
  top_mass (mass c26_cell) < net_deposit (pickup c26_cell) /\ (forall l, In l (mass c26_cell) -> qsum l == top_mass (mass c26_cell)).
Proof. exact c26_discard_case. Qed.
(** Otherwise the net exchange and the result per fraction are preserved, and under net deposition no fraction is eroded any more. *)
Theorem C26_preserved_partial : forall m dm pickup top rest, m = top :: rest -> length top = length pickup -> dm == net_deposit pickup -> all_nonneg top ->
  (forall k, nth k pickup 0 <= nth k top 0) -> 0 < qsum top -> dm < qsum top -> forall any,
  exists top1 dm' p', prevent2 any (fst (fst (prevent1 m dm pickup))) (snd (fst (prevent1 m dm pickup))) (snd (prevent1 m dm pickup)) = (top1 :: rest, dm', p') /\
    dm' == net_deposit pickup /\ net_deposit p' == net_deposit pickup /\ qsum top1 == qsum top /\ all_nonneg top1 /\
    (forall k, nth k top1 0 - nth k p' 0 == nth k top 0 - nth k pickup 0) /\ (0 < dm -> forall k, nth k p' 0 <= 0).
Proof. exact c26_preserved. Qed.
Print Assumptions C26_preserved_partial.
Example C26_preserved_ex : length [3; 1] = length [2; -3 # 1] /\ all_nonneg [3; 1] /\ (forall k, nth k [2; -3 # 1] 0 <= nth k [3; 1] 0) /\
  net_deposit [2; -3 # 1] < qsum [3; 1] /\ map Qred (snd (prevent1 [[3; 1]] 1 [2; -3 # 1])) = [0; -1 # 1] /\
  map (map Qred) (fst (fst (prevent1 [[3; 1]] 1 [2; -3 # 1]))) = [[1; 3]].
Proof. exact c26_preserved_case. Qed.

(** C27. A time step longer than the reset time overshoots. *)
Theorem C27_overshoot_refuted : exists dt T zs zb zb0 z, 0 < T /\ 0 < dt /\ wet_bed_reset true dt T zs zb zb0 = Ok z /\ ~ towards zb zb0 z.
Proof. exact c27_refuted. Qed.
Print Assumptions C27_overshoot_refuted.
Theorem C27_dry : forall dt T zs zb zb0 z, wet_bed_reset true dt T zs zb zb0 = Ok z -> zs <= zb + (1 # 100) -> z = zb.
Proof. exact reset_dry. Qed.
Print Assumptions C27_dry.
(** Over any sequence of steps not longer than the reset time, and any water levels. *)
Theorem C27_towards_partial : forall T zb0, 0 < T -> forall steps zb z, (forall s, In s steps -> 0 <= fst s /\ fst s <= T) ->
  resets T zb0 steps zb = Ok z -> towards zb zb0 z.
Proof. exact resets_towards. Qed.
Print Assumptions C27_towards_partial.
Example C27_towards_ex : resets 10 2 [(5, 9); (5, 9); (2, 0)] 0 = Ok (0 + (2 - 0) * (5 / 10) + (2 - (0 + (2 - 0) * (5 / 10))) * (5 / 10)) /\
  (forall s, In s [(5, 9); (5, 9); (2, 0)] -> 0 <= fst s /\ fst s <= 10).
Proof. exact c27_case. Qed.
(** A cell that stays under water converges: after n steps the distance is divided by at least 1 + n dt/T. *)
Theorem C27_converges_partial : forall T zb0 dt steps zb z, 0 < T -> 0 <= dt -> dt <= T -> (forall s, In s steps -> fst s = dt) -> resets T zb0 steps zb = Ok z ->
  (forall n zb', resets T zb0 (firstn n steps) zb = Ok zb' -> forall s, nth_error steps n = Some s -> zb' + (1 # 100) < snd s) ->
  qabs (z - zb0) * (1 + inject_Z (Z.of_nat (length steps)) * (dt / T)) <= qabs (zb - zb0).
Proof. exact c27_converges. Qed.
Print Assumptions C27_converges_partial.
Example C27_converges_ex : resets 10 2 [(5, 9); (5, 9)] 0 = Ok (0 + (2 - 0) * (5 / 10) + (2 - (0 + (2 - 0) * (5 / 10))) * (5 / 10)) /\
  (forall n zb', resets 10 2 (firstn n [(5, 9); (5, 9)]) 0 = Ok zb' -> forall s, nth_error [(5, 9); (5, 9)] n = Some s -> zb' + (1 # 100) < snd s).
Proof. exact c27_converges_case. Qed.

(** C56. The running average of the bed level change: outside its range when a step is longer than the averaging time. *)
Theorem C56_average_refuted : exists zb' zb dt accfac T avg0, 0 < T /\ 0 < dt /\ 0 < accfac /\ ~ towards avg0 (dzbyear zb' zb dt accfac) (dzbavg zb' zb dt accfac T avg0).
Proof. exact c56_refuted. Qed.
Print Assumptions C56_average_refuted.
Theorem C56_average_partial : forall zb' zb dt accfac T avg0, 0 < T -> 0 <= dt * accfac -> dt * accfac <= T ->
  towards avg0 (dzbyear zb' zb dt accfac) (dzbavg zb' zb dt accfac T avg0).
Proof. exact average_between. Qed.
Print Assumptions C56_average_partial.
Example C56_average_ex : 0 <= 3600 * 1 /\ 3600 * 1 <= 86400 /\ Qred (dzbavg (11 # 10) 1 3600 1 86400 0) = (1461 # 40).
Proof. exact c56_case. Qed.
(** The yearly change is the change after as many such steps as there are in a year of model time. *)
Theorem C56_yearly : forall zb' zb dt accfac n, 0 < dt -> 0 < accfac -> n * (dt * accfac) == 31557600 -> dzbyear zb' zb dt accfac == n * (zb' - zb).
Proof. exact year_of_steps. Qed.
Print Assumptions C56_yearly.
Example C56_yearly_ex : 8766 * (1200 * 3) == 31557600 /\ Qred (dzbyear (10001 # 10000) 1 1200 3) = (4383 # 5000).
Proof. exact c56_year_case. Qed.
