(** The moisture that follows from a weather file in the documented format. *)
From Coq Require Import String QArith Qreals Reals.
From Verif Require Import Base Sea_Spec Weather_Model Weather_Spec.
From Verif Require Import Moist_Model Moist_Spec Moist_Proofs Moist_Runup Moist_Cases Moist_More Rain_Spec Rain_Proofs Rain_Cases Capil_Spec Capil_Proofs Capil_Cases Meteo_Spec Meteo_Proofs.
From Coq Require Import Lra.
Open Scope R_scope.

Lemma downpour_evaporation : evaporation default_soil downpour 8 <= 0.
Proof.
  rewrite evaporation_penman. cbn [rad temp downpour].
  assert (G : 0 < psychrometric default_soil downpour) by (unfold psychrometric, latent; cbn; lra).
  assert (S : 0 < vaporation_pressure_slope 20) by (apply slope_pos; lra).
  assert (W : 0 < wind_2m default_soil 8) by (apply wind_pos; cbn; lra).
  assert (D : deficit downpour < 0) by (unfold deficit; cbn [temp hum downpour]; pose proof (saturation_pos 20); lra).
  set (g := psychrometric _ _) in *. set (s := vaporation_pressure_slope 20) in *. set (v := wind_2m _ _) in *. set (de := deficit downpour) in *.
  assert (N : 0 <= (643 / 100 * g * (1 + 86 / 100 * v)) * - de) by (apply Rmult_le_pos; [apply Rmult_le_pos; lra|lra]).
  assert (I : 0 < / (latent * (s + g))) by (apply Rinv_0_lt_compat; unfold latent; apply Rmult_lt_0_compat; lra).
  assert (P : 0 <= (643 / 100 * g * (1 + 86 / 100 * v)) * - de * / (latent * (s + g))) by (apply Rmult_le_pos; lra).
  unfold Rdiv. replace ((s * 0 + 643 * / 100 * g * (1 + 86 * / 100 * v) * de) * / (latent * (s + g))) with (- ((643 / 100 * g * (1 + 86 / 100 * v)) * - de * / (latent * (s + g)))) by (unfold Rdiv; ring). lra.
Qed.
Lemma field_soaked : soaked (some_cell (1 / 10) 0 1) = false.
Proof. unfold soaked. apply gtb_false. cbn. lra. Qed.
(** The bed of the example, one metre above the groundwater, with its moisture 0.1: after an hour. *)
Lemma wet_after : exists c', update (surface_on false false) default_soil false 0 (Some downpour) 3600 (some_cell (1 / 10) 0 1) = Ok (Some c') /\ moist c' = satd default_soil.
Proof.
  eexists. split; [reflexivity|]. cbn [moist moist_swr with_moist with_capillary wetting some_cell].
  assert (B : surface_balance default_soil downpour 3600 (some_cell (1 / 10) 0 1) = 5 / 10).
  { unfold surface_balance. rewrite field_soaked. rewrite drain_below by (cbn; lra). unfold pcp, evo. cbn [uw some_cell]. pose proof downpour_evaporation as E.
    cbn [rain downpour moist some_cell thick resw satd default_soil]. set (e := evaporation default_soil downpour 8) in *. rewrite Rmax_left by lra. apply Rmin_right. lra. }
  rewrite B. change (satd default_soil) with (5 / 10). apply Rmin_right. apply Rmax_l.
Qed.
Lemma dry_after : exists c', update (surface_on false false) default_soil false 0 (Some dry_day) 3600 (some_cell (1 / 10) 0 1) = Ok (Some c') /\ moist c' <= 1 / 10.
Proof.
  eexists. split; [reflexivity|]. cbn [moist moist_swr with_moist with_capillary wetting some_cell].
  assert (B : surface_balance default_soil dry_day 3600 (some_cell (1 / 10) 0 1) <= 1 / 10).
  { unfold surface_balance. rewrite field_soaked. rewrite drain_below by (cbn; lra). unfold pcp, evo. cbn [uw some_cell].
    assert (E : 0 <= evaporation default_soil dry_day 8) by (apply evaporation_nonneg; [unfold ordinary; cbn; lra|cbn; lra|cbn; lra|lra]).
    cbn [rain dry_day moist some_cell thick resw satd default_soil]. set (e := evaporation default_soil dry_day 8) in *.
    eapply Rle_trans; [apply Rmin_l|]. apply Rmax_lub; lra. }
  pose proof field_capacity_low as F.
  assert (E : dry_curve default_soil (head (some_cell (1 / 10) 0 1)) = theta_d default_soil 100).
  { rewrite head_height by (cbn; lra). rewrite (proj2 field_cell). apply curve_vg; cbn; lra. }
  rewrite E. eapply Rle_trans; [apply Rmin_l|]. apply Rmax_lub; lra.
Qed.
Lemma d_documented : documented_weather dry_line1 [dry_line2] 1800 dry_day.
Proof.
  assert (X : forall c x, (1 <= c <= 5)%nat -> Q2R (nth c dry_line1 0%Q) = x -> exists v, reads (in_column c dry_line1 [dry_line2]) 1800 v /\ Q2R v = x).
  { intros c x C E. exists (nth c dry_line1 0%Q). split; [apply d_reads, C|exact E]. }
  unfold documented_weather. cbv zeta. cbn [temp rain hum rad pres dry_day]. repeat split; apply X; try lia; unfold Q2R; cbn; lra.
Qed.
Lemma c194_wet_refuted : exists first rest t w real c c' c'', weather_file first rest /\
  understood (Weather_Model.meteo t (as_line first) (map as_line rest)) w /\ documented_weather first rest t real /\ rain real = 0 /\
  update (surface_on false false) default_soil false 0 (Some w) 3600 c = Ok (Some c') /\
  update (surface_on false false) default_soil false 0 (Some real) 3600 c = Ok (Some c'') /\
  moist c' = satd default_soil /\ moist c'' <= moist c /\ moist c < satd default_soil.
Proof.
  destruct wet_after as (c' & U & M). destruct dry_after as (c'' & U' & M').
  exists dry_line1, [dry_line2], 1800%Q, downpour, dry_day, (some_cell (1 / 10) 0 1), c', c''.
  split; [exact d_file|]. split; [exact d_understood|]. split; [exact d_documented|]. split; [reflexivity|]. split; [exact U|]. split; [exact U'|]. split; [exact M|].
  split; [exact M'|]. cbn. lra.
Qed.
Lemma c194_case : weather_file dry_line1 [dry_line2] /\ reads (in_column 1 dry_line1 [dry_line2]) 1800 20.
Proof. split; [exact d_file|]. apply (d_reads 1%nat). lia. Qed.
