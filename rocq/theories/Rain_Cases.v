(** Cases and counterexamples for rain, evaporation and runup. *)
From Verif Require Import Base Moist_Model Moist_Spec Moist_Proofs Moist_Runup Moist_Cases Moist_More Rain_Spec Rain_Proofs.
From Coq Require Import Reals Lra.
Open Scope R_scope.

(** A soil with a layer of 20 mm and simple retention curves. *)
Definition plain_soil : soil :=
  {| porosity := 4 / 10; eps := 1 / 1000; Tdry := 5400; Tsalt := 2592000; fc := 11 / 100; thick := 2 / 100; salt_thick := 1 / 100; cpair := 10035 / 10000000; z := 10;
     resw := 1 / 100; satw := 35 / 100; alfaw := 1 / 10; nw := 1; mw := 1; resd := 1 / 100; satd := 5 / 10; alfad := 1 / 10; nd := 1; md := 1 |}.
(** A rain of 1 mm/h in air saturated with water. *)
Definition drizzle : weather := {| temp := 20; rad := 0; pres := 101; hum := 100; rain := 1 |}.
Lemma no_evaporation u : evaporation plain_soil drizzle u = 0.
Proof.
  rewrite evaporation_penman. assert (D : deficit drizzle = 0) by (unfold deficit; cbn; field). rewrite D. cbn [rad drizzle]. unfold Rdiv. ring.
Qed.
Lemma pw_id x : 0 < x -> pw x 1 = x.
Proof. intros H. unfold pw. destruct (Rlt_dec 0 x); [|lra]. apply Rpower_1; auto. Qed.
Lemma plain_dry c : head c = 100 -> dry_curve plain_soil (head c) < 6 / 100.
Proof.
  intros ->. unfold dry_curve, curve. cbn [alfad nd md resd satd plain_soil]. rewrite (Rabs_right (1 / 10 * 100)) by lra. rewrite (pw_id (1 / 10 * 100)) by lra. rewrite pw_id by lra. lra.
Qed.
(** An hour of drizzle on a bed one metre above the groundwater: one millimetre of water. *)
Lemma c182_case : exists c', let c := some_cell (1 / 10) 0 1 in
  update (surface_on false false) plain_soil false 0 (Some drizzle) 3600 c = Ok (Some c') /\ TWL c <= zb c /\ moist c <= fc plain_soil /\
  resw plain_soil < moist c' < satd plain_soil /\ moist_swr c' < moist c' /\ water_mm plain_soil c' = water_mm plain_soil c + 1.
Proof.
  eexists. cbv zeta. split; [reflexivity|]. split; [cbn; lra|]. split; [cbn; lra|].
  assert (Q : dry_curve plain_soil (head (some_cell (1 / 10) 0 1)) < 6 / 100).
  { apply plain_dry. unfold head. cbn [zb gw some_cell]. rewrite Rmax_right; lra. }
  assert (B : surface_balance plain_soil drizzle 3600 (some_cell (1 / 10) 0 1) = 15 / 100).
  { unfold surface_balance. assert (SO : soaked (some_cell (1 / 10) 0 1) = false) by (unfold soaked; apply gtb_false; cbn; lra). rewrite SO.
    rewrite drain_below by (cbn; lra). unfold pcp, evo. rewrite no_evaporation. cbn [rain drizzle moist some_cell thick resw satd plain_soil].
    rewrite Rmax_left by lra. rewrite Rmin_left by lra. lra. }
  cbn [moist moist_swr with_moist with_capillary wetting some_cell]. rewrite B. change (satd plain_soil) with (5 / 10). change (resw plain_soil) with (1 / 100).
  rewrite Rmax_left by lra. rewrite Rmin_left by lra. split; [lra|]. split; [lra|].
  unfold water_mm. cbn [moist with_moist some_cell thick plain_soil]. lra.
Qed.

(** Night wind of 20 m/s in dry air. *)
Definition night : weather := {| temp := 20; rad := 0; pres := 101; hum := 60; rain := 0 |}.
Lemma c183_refuted : exists p w u, p = default_soil /\ ordinary w /\ 0 < cpair p /\ 2 < z p /\ u = 20 /\ 4 / 3 * documented_evaporation p w u < evaporation p w u.
Proof.
  exists default_soil, night, 20. split; [auto|]. assert (O : ordinary night) by (unfold ordinary; cbn; lra). split; [auto|]. split; [cbn; lra|]. split; [cbn; lra|]. split; [auto|].
  apply excess_third; auto; try (cbn; lra). unfold wind_2m. cbn [z default_soil].
  assert (A : 0 < ln (10 / 2)). { rewrite <- ln_1. apply ln_increasing; lra. }
  assert (B : ln (10 / 2) < ln 10) by (apply ln_increasing; lra).
  assert (C : 1 <= / (ln (10 / 2) / ln 10)).
  { replace 1 with (/ 1) by field. apply Rinv_le_contravar; [apply quot_pos; lra|]. apply Rmult_le_reg_r with (ln 10); [lra|]. unfold Rdiv. rewrite Rmult_assoc, Rinv_l by lra. lra. }
  unfold Rdiv at 2. apply Rle_trans with (174 / 1000 * 20 * 1); [lra|]. apply Rmult_le_compat_l; lra.
Qed.
Lemma c183_excess_case : ordinary fair /\ hum fair < 100 /\ 0 < cpair default_soil /\ 2 < z default_soil.
Proof. split; [apply case_evaporation|]. cbn. lra. Qed.
Lemma c183_slope_case : - (2373 / 10) < 20 /\ saturation_pressure 0 = 6108 / 10000.
Proof. split; [lra|apply saturation_zero]. Qed.
Lemma c183_windless_case : 0 < evaporation default_soil fair 0.
Proof.
  rewrite evaporation_penman. pose proof (proj1 case_evaporation) as O. pose proof (den_pos default_soil fair O ltac:(cbn; lra)) as D.
  apply quot_pos; auto. pose proof (gamma_pos default_soil fair O ltac:(cbn; lra)) as G. pose proof (deficit_pos fair ltac:(cbn; lra)) as P. pose proof (slope_pos (temp fair) ltac:(cbn; lra)) as S.
  assert (E : wind_2m default_soil 0 = 0) by (unfold wind_2m; rewrite Rmult_0_r; unfold Rdiv; ring). rewrite E.
  apply Rplus_lt_0_compat; [apply Rmult_lt_0_compat; [auto|cbn; lra]|]. apply Rmult_lt_0_compat; auto. apply Rmult_lt_0_compat; lra.
Qed.

(** ** Runup *)
Lemma similarity_scaled T k b : 0 < T -> 0 < k -> surf_similarity (wavelength T / (k * k)) (wavelength T) b = b * k.
Proof. intros. rewrite <- similarity by auto. apply iribarren_scaled; auto. apply wavelength_pos; auto. Qed.
Lemma c184_dissipative_case : exists H L, 0 < H /\ deep_water L 1 /\ surf_similarity H L (1 / 20) < 3 / 10.
Proof.
  exists (wavelength 1 / (4 * 4)), (wavelength 1). pose proof wavelength_1. split; [lra|]. split; [apply length_deep; lra|]. rewrite similarity_scaled by lra. lra.
Qed.
Lemma c184_reflective_case : exists H L, 0 < H /\ deep_water L 1 /\ 3 / 10 < surf_similarity H L (1 / 20).
Proof.
  exists (wavelength 1 / (8 * 8)), (wavelength 1). pose proof wavelength_1. split; [lra|]. split; [apply length_deep; lra|]. rewrite similarity_scaled by lra. lra.
Qed.
Lemma c184_refuted : exists H T b L, 0 < H /\ 0 < T /\ b = 1 / 20 /\ deep_water L T /\ 3 / 10 < surf_similarity H L b /\
  runup_of (runup_scalar H T b) < 3 / 4 * doc_runup H L b.
Proof.
  exists (wavelength 1 / (8 * 8)), 1, (1 / 20), (wavelength 1). pose proof wavelength_1 as W. split; [lra|]. split; [lra|]. split; [auto|]. split; [apply length_deep; lra|].
  split; [rewrite similarity_scaled by lra; lra|]. set (a := 563 / 1000 * (1 / 20 * (1 / 20))).
  rewrite (scalar_reflective (wavelength 1) 1 8 (1 / 20) (sqrt (a + 4 / 10000))); try lra; [|apply sqrt_pos|apply sqrt_sqrt; unfold a; lra].
  unfold doc_runup. fold a. rewrite root_scaled by lra.
  assert (E : sqrt (wavelength 1 / (8 * 8) * wavelength 1 * (a + 4 / 1000)) = wavelength 1 / 8 * sqrt (a + 4 / 1000)).
  { rewrite sqrt_mult; [rewrite root_scaled by lra; auto| |unfold a; lra]. apply Rmult_le_pos; lra. }
  rewrite E. assert (C : sqrt (a + 4 / 10000) < 426 / 10000).
  { rewrite <- (sqrt_square (426 / 10000)) by lra. apply sqrt_lt_1; unfold a; lra. }
  assert (D : 735 / 10000 < sqrt (a + 4 / 1000)).
  { rewrite <- (sqrt_square (735 / 10000)) by lra. apply sqrt_lt_1; unfold a; lra. }
  replace (3 / 4 * (11 / 10 * (35 / 100 * (1 / 20) * (wavelength 1 / 8) + wavelength 1 / 8 * sqrt (a + 4 / 1000) / 2)))
    with (3 / 4 * (11 / 10 * (35 / 100 * (1 / 20) + sqrt (a + 4 / 1000) / 2)) * (wavelength 1 / 8)) by field.
  apply Rmult_lt_compat_r; lra.
Qed.
Lemma c184_setup_refuted : exists H T b L, 0 < H /\ 0 < T /\ b = 1 / 20 /\ deep_water L T /\ 3 / 10 < surf_similarity H L b /\
  setup_of (runup_scalar H T b) < 1 / 10 * doc_setup H L b.
Proof.
  exists (wavelength 1 / (8 * 8)), 1, (1 / 20), (wavelength 1). pose proof wavelength_1 as W. assert (P : 0 < wavelength 1 / (8 * 8)) by lra. assert (D : deep_water (wavelength 1) 1) by (apply length_deep; lra).
  assert (S : 3 / 10 < surf_similarity (wavelength 1 / (8 * 8)) (wavelength 1) (1 / 20)) by (rewrite similarity_scaled by lra; lra).
  repeat (split; [auto; lra|]). destruct (doc_reflective _ 1 (1 / 20) _ P Rlt_0_1 ltac:(lra) D S) as [_ [E _]]. rewrite E.
  unfold doc_setup. rewrite similarity_scaled, root_scaled by lra.
  assert (X : wavelength 1 < 5 / 2).
  { unfold wavelength. pose proof PI2_1 as Q. assert (4 < 2 * PI) by lra. apply Rmult_lt_reg_r with (2 * PI); [lra|]. unfold Rdiv at 1. rewrite Rmult_assoc, Rinv_l by lra. lra. }
  lra.
Qed.

(** ** Drying without groundwater *)
Lemma c187_case : exists c', let c := some_cell (2 / 10) 0 1 in update infiltration_on default_soil false 0 None 5400 c = Ok (Some c') /\ TWL c <= zb c /\ 0 <= moist c <= porosity default_soil /\ moist c' = 1 / 10.
Proof. destruct case_infiltration as [c' [U M]]. exists c'. cbv zeta. split; [auto|]. split; [cbn; lra|]. split; [cbn; lra|auto]. Qed.
Lemma c187_refuted : exists w c c', ordinary w /\ 0 < evaporation default_soil w (uw c) /\ TWL c <= zb c /\ 0 <= moist c <= porosity default_soil /\
  update infiltration_on default_soil false 0 (Some w) 5400 c = Ok (Some c') /\ documented_drying default_soil (metres_per_second (evaporation default_soil w (uw c))) 5400 c < moist c'.
Proof.
  destruct case_evaporation as [O [P Z]].
  assert (V : 0 < evaporation default_soil fair 8).
  { pose proof c183_windless_case. destruct (c76_evaporation default_soil fair 0 8 O P Z ltac:(lra) ltac:(lra)). lra. }
  exists fair, (some_cell (2 / 10) 0 1). eexists. split; [auto|]. split; [exact V|]. split; [cbn; lra|]. split; [cbn; lra|]. split; [reflexivity|].
  rewrite (drying_documented infiltration_on default_soil false 0 (Some fair) 5400 (some_cell (2 / 10) 0 1) _ eq_refl eq_refl eq_refl) by (try reflexivity; cbn; lra).
  unfold documented_drying. destruct (Rlt_dec (zb (some_cell (2 / 10) 0 1)) (TWL (some_cell (2 / 10) 0 1))) as [L|L]; [cbn in L; lra|]. cbn [uw some_cell] in *. unfold metres_per_second.
  change (salt_thick default_soil) with (1 / 100). lra.
Qed.
