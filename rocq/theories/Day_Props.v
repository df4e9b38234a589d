(** Whole runs with waves and feedback, and mixing by waves: properties C163 to C166. *)
From Verif Require Import Base Num Utils_Model Utils_Spec Bed_Model Bed_Spec Solver_Model Solver_Spec Linear Solver_Cases Run_Model Run_Spec Run_Cases Day_Model Day_Spec Day_Proofs Day_Cases.
From Coq Require Import QArith List.
Import ListNotations.
Open Scope Q_scope.

(** C163. Over any number of steps with mixing by waves, wind and reshaping of the bed that depend in any way on all states before: nothing becomes negative, layers of equal mass stay so, and sand in bed and air together changes by what the wind carries through the ends and what the reshaping adds, but for the tolerance of the solver in every step with wind and fraction. *)
Theorem C163_balance : forall sp nf k e m g L climate, sound_setup nf k e -> fair_climate sp nf k g climate -> forall n t0 past s s' t, sound_state nf k s -> equal_layers L s -> fits m s ->
  days sp k e m climate n t0 past s = Ok (Some (s', t)) -> (forall y, In y t -> gentle k L y) ->
  length t = n /\ sound_state nf k s' /\ equal_layers L s' /\
  0 <= content k e g s' - content k e g s - sand_blown k t - sand_lifted k e g t <= inject_Z (Z.of_nat (windy_days t)) * (inject_Z (Z.of_nat nf) * (max_error k * over_inside k g)).
Proof. exact days_balance. Qed.
Print Assumptions C163_balance.
Example C163_balance_case : sound_setup 2 k123 e123 /\ fair_climate (gauss 4) 2 k123 one_area climate163 /\ sound_state 2 k123 s163 /\ equal_layers 30 s163 /\ fits m163 s163 /\
  (exists s' t, run163 = Ok (Some (s', t)) /\ forall y, In y t -> gentle k123 30 y) /\
  shown_days run163 = Some ([497 # 500; 374 # 375; 1499 # 1500; 497 # 500], [50 # 3; 40 # 3], [true; false], 4 # 3, -8 # 3, 4).
Proof. exact c163_balance. Qed.

(** C163. For limited concentrations and layers thick enough there is such a run, whatever the feedback, with any sufficient limit to the number of iterations. *)
Theorem C163_whole : forall sp nf k e m g M L climate n t0 past s, sound_setup nf k e -> prescribed_ends k -> 0 <= M -> inject_Z (Z.of_nat nf) * (M * dt k / T k) < L -> fair_climate sp nf k g climate -> limited_climate k M climate ->
  sound_state nf k s -> equal_layers L s -> limited_air k M s -> fits m s ->
  exists n0 s' t, (forall i, (n0 <= i)%nat -> days sp (with_iterations k i) e m climate n t0 past s = Ok (Some (s', t))) /\ length t = n /\ sound_state nf k s' /\ equal_layers L s' /\ limited_air k M s' /\
    0 <= content k e g s' - content k e g s - sand_blown k t - sand_lifted k e g t <= inject_Z (Z.of_nat (windy_days t)) * (inject_Z (Z.of_nat nf) * (max_error k * over_inside k g)).
Proof. exact days_whole. Qed.
Print Assumptions C163_whole.
Example C163_whole_case : sound_setup 2 k123 e123 /\ prescribed_ends k123 /\ inject_Z (Z.of_nat 2) * (10 * dt k123 / T k123) < 30 /\ fair_climate (gauss 4) 2 k123 one_area climate163 /\ limited_climate k123 10 climate163 /\
  sound_state 2 k123 s163 /\ equal_layers 30 s163 /\ limited_air k123 10 s163 /\ fits m163 s163 /\
  shown_days run163 = Some ([497 # 500; 374 # 375; 1499 # 1500; 497 # 500], [50 # 3; 40 # 3], [true; false], 4 # 3, -8 # 3, 4).
Proof. exact c163_whole. Qed.

(** C164. A step without wind, over a bed that nothing reshapes, succeeds and leaves the air, and in every cell the level and the mass of every grain size, as they were. *)
Theorem C164_waves : forall sp nf k e m L t0 s d, length (grains e) = nf -> sound_state nf k s -> equal_layers L s -> fits m s -> blow d = None -> (forall z j, reshape d z j = z j) ->
  exists s' y, whole_step sp k e m t0 s d = Ok (Some (s', y)) /\ air s' = air s /\ same_grains (sand s) (sand s') /\ sound_state nf k s' /\ equal_layers L s'.
Proof. exact calm_grains. Qed.
Print Assumptions C164_waves.
Example C164_waves_case : length (grains e123) = 2%nat /\ sound_state 2 k123 s163 /\ equal_layers 30 s163 /\ fits m163 s163 /\ blow day164 = None /\ (forall z j, reshape day164 z j = z j) /\
  shown_bed (whole_step (gauss 4) k123 e123 m163 true s163 day164) = Some [[[55 # 4; 65 # 4]; [85 # 4; 35 # 4]]; [[35 # 2; 25 # 2]; [35 # 2; 25 # 2]]; [[10; 20]; [25; 5]]; [[10; 20]; [25; 5]]].
Proof. exact c164_waves. Qed.

(** C165. Higher waves can mix less: two layers that come out alike under lower waves keep a difference under higher ones. *)
Theorem C165_higher_waves_refuted : exists nf fac c c' m m' i a b, mixable nf c /\ mixable nf c' /\ thlyr c' = thlyr c /\ mixmass c' = mixmass c /\ 0 < fac * hsmix c < fac * hsmix c' /\
  bottom a (thlyr c) <= fac * hsmix c /\ bottom b (thlyr c) <= fac * hsmix c /\ mixtoplayer true nf fac [c] = [m] /\ mixtoplayer true nf fac [c'] = [m'] /\ contrast m i a b == 0 /\ contrast m' i a b < 0.
Proof. exact higher_waves. Qed.
Print Assumptions C165_higher_waves_refuted.

(** C165. The difference between any two layers above the depth of disturbance shrinks by the factor 1 - min(1, thickness of all layers / depth of disturbance): full mixing as long as the disturbance does not reach below the lowest layer, less and less of it beyond. *)
Theorem C165_law_partial : forall nf fac cells j c i a b, nth_error cells j = Some c -> mixable nf c -> 0 < fac * hsmix c -> (a < length (thlyr c))%nat -> (b < length (thlyr c))%nat -> bottom a (thlyr c) <= fac * hsmix c -> bottom b (thlyr c) <= fac * hsmix c ->
  exists m', nth_error (mixtoplayer true nf fac cells) j = Some m' /\ contrast m' i a b == (1 - qmin 1 (qsum (thlyr c) / (fac * hsmix c))) * contrast (mixmass c) i a b.
Proof. exact mixing_law. Qed.
Print Assumptions C165_law_partial.
Example C165_law_partial_case : nth_error [waves165 0; waves165 2] 1 = Some (waves165 2) /\ mixable 2 (waves165 2) /\ 0 < (1 # 10) * hsmix (waves165 2) /\ bottom 0 (thlyr (waves165 2)) <= (1 # 10) * hsmix (waves165 2) /\ bottom 1 (thlyr (waves165 2)) <= (1 # 10) * hsmix (waves165 2) /\
  map (map (map Qred)) (mixtoplayer true 2 (1 # 10) [waves165 0; waves165 2]) = [[[10; 20]; [25; 5]]; [[55 # 4; 65 # 4]; [85 # 4; 35 # 4]]].
Proof. exact c165_case. Qed.

(** C166. Mixing layers of different thickness makes a thin layer heavier and a thick one lighter than what fits in. *)
Theorem C166_layers_refuted : exists nf fac c m d, mixable nf c /\ 0 < d /\ (forall a, (a < length (thlyr c))%nat -> qsum (nth a (mixmass c) []) == d * nth a (thlyr c) 0) /\ mixtoplayer true nf fac [c] = [m] /\
  (exists a b, (a < length (thlyr c))%nat /\ (b < length (thlyr c))%nat /\ d * nth a (thlyr c) 0 < qsum (nth a m []) /\ qsum (nth b m []) < d * nth b (thlyr c) 0).
Proof. exact layers_even. Qed.
Print Assumptions C166_layers_refuted.

(** C166. The masses of two layers above the depth of disturbance come together by the same factor as their compositions; so only if they were equal before are they kept. *)
Theorem C166_masses_partial : forall nf fac cells j c a b, nth_error cells j = Some c -> mixable nf c -> 0 < fac * hsmix c -> (a < length (thlyr c))%nat -> (b < length (thlyr c))%nat -> bottom a (thlyr c) <= fac * hsmix c -> bottom b (thlyr c) <= fac * hsmix c ->
  exists m', nth_error (mixtoplayer true nf fac cells) j = Some m' /\ qsum (nth a m' []) - qsum (nth b m' []) == (1 - qmin 1 (qsum (thlyr c) / (fac * hsmix c))) * (qsum (nth a (mixmass c) []) - qsum (nth b (mixmass c) [])).
Proof. exact mixing_masses. Qed.
Print Assumptions C166_masses_partial.
Example C166_masses_partial_case : nth_error [layers166] 0 = Some layers166 /\ mixable 2 layers166 /\ 0 < (1 # 20) * hsmix layers166 /\ bottom 0 (thlyr layers166) <= (1 # 20) * hsmix layers166 /\ bottom 1 (thlyr layers166) <= (1 # 20) * hsmix layers166 /\
  map (map (map Qred)) (mixtoplayer true 2 (1 # 20) [layers166]) = [[[9; 9]; [11; 11]]].
Proof. exact c166_case. Qed.
