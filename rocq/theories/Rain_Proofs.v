(** Proofs about rain, evaporation and runup. *)
From Verif Require Import Base Moist_Model Moist_Spec Moist_Proofs Moist_Runup Moist_Cases Moist_More Rain_Spec.
From Coq Require Import Reals Lra.
Open Scope R_scope.

(** ** Water balance *)
Lemma unlimited b r s q m : m = Rmin (Rmax (Rmin (Rmax b r) s) q) s -> r < m < s -> q < m -> m = b.
Proof. unfold Rmin, Rmax. intros -> . repeat destruct (Rle_dec _ _); lra. Qed.
Lemma water_balance sw p t0 fuel w dt c c' : process_moist sw = true -> moist_method sw = SurfMoisture -> 0 < Tdry p -> 0 < thick p -> 0 <= dt ->
  TWL c <= zb c -> moist c <= fc p -> update sw p t0 fuel (Some w) dt c = Ok (Some c') ->
  resw p < moist c' < satd p -> moist_swr c' < moist c' ->
  water_mm p c' = water_mm p c + rained_mm (rain w) dt - evaporated_mm (evaporation p w (uw c)) dt.
Proof.
  intros PM M TD TH D B FC U L Q. destruct (surface_of_update _ _ _ _ _ _ _ _ PM M U) as [w' [c1 [EW [E EC]]]]. injection EW as <-.
  unfold surface in E. destruct (capillary p (process_scanning sw) t0 fuel c) as [c2|] eqn:F; [|discriminate]. injection E as <-.
  assert (EM : moist c' = Rmin (Rmax (surface_balance p w dt c) (moist_swr c')) (satd p)) by (subst c'; destruct (process_salt sw); reflexivity).
  unfold surface_balance in EM. assert (SO : soaked c = false) by (unfold soaked; apply gtb_false; lra). rewrite SO in EM.
  apply unlimited in EM; auto. rewrite drain_below in EM by auto. unfold water_mm, rained_mm, evaporated_mm. rewrite EM. unfold pcp, evo. field. lra.
Qed.

(** ** Evaporation *)
Lemma evaporation_penman p w u : evaporation p w u = (vaporation_pressure_slope (temp w) * rad w + 643 / 100 * psychrometric p w * (1 + 86 / 100 * wind_2m p u) * deficit w) / (latent * (vaporation_pressure_slope (temp w) + psychrometric p w)).
Proof.
  unfold evaporation, psychrometric, deficit, wind_2m, latent, log10.
  replace (174 / 1000 / (ln (z p / 2) / ln 10) * u) with (174 / 1000 * u / (ln (z p / 2) / ln 10)) by (unfold Rdiv; ring). f_equal. ring.
Qed.
Lemma windless p w : evaporation p w 0 = documented_evaporation p w 0.
Proof.
  rewrite evaporation_penman. unfold documented_evaporation, penman.
  assert (E : wind_2m p 0 = 0) by (unfold wind_2m; rewrite Rmult_0_r; unfold Rdiv; ring). rewrite E. f_equal. ring.
Qed.
Lemma gamma_pos p w : ordinary w -> 0 < cpair p -> 0 < psychrometric p w.
Proof. intros [_ [_ [P _]]] C. unfold psychrometric, latent. apply quot_pos; [|lra]. apply Rmult_lt_0_compat; auto. Qed.
Lemma wind_pos p u : 2 < z p -> 0 < u -> 0 < wind_2m p u.
Proof. intros Z U. unfold wind_2m. apply quot_pos; [lra|]. apply (log10_pos (z p / 2)). lra. Qed.
Lemma deficit_pos w : hum w < 100 -> 0 < deficit w.
Proof.
  intros H. unfold deficit. pose proof (saturation_pos (temp w)) as P.
  replace (saturation_pressure (temp w) - saturation_pressure (temp w) * (hum w / 100)) with (saturation_pressure (temp w) * (1 - hum w / 100)) by ring.
  apply Rmult_lt_0_compat; lra.
Qed.
Lemma den_pos p w : ordinary w -> 0 < cpair p -> 0 < latent * (vaporation_pressure_slope (temp w) + psychrometric p w).
Proof. intros O C. pose proof (gamma_pos p w O C). destruct O as [T _]. pose proof (slope_pos _ T). unfold latent. apply Rmult_lt_0_compat; lra. Qed.
Lemma excess p w u : ordinary w -> hum w < 100 -> 0 < cpair p -> 2 < z p -> 0 < u -> documented_evaporation p w u < evaporation p w u.
Proof.
  intros O H C Z U. rewrite evaporation_penman. unfold documented_evaporation, penman. apply Rmult_lt_compat_r; [apply Rinv_0_lt_compat, den_pos; auto|].
  apply Rplus_lt_compat_l. apply Rmult_lt_compat_r; [apply deficit_pos; auto|]. pose proof (gamma_pos p w O C). pose proof (wind_pos p u Z U).
  apply Rmult_lt_compat_l; lra.
Qed.
Lemma excess_third p w u : ordinary w -> rad w = 0 -> hum w < 100 -> 0 < cpair p -> 2 < z p -> 23 / 10 <= wind_2m p u ->
  4 / 3 * documented_evaporation p w u < evaporation p w u.
Proof.
  intros O R H C Z U. rewrite evaporation_penman. unfold documented_evaporation, penman. rewrite R.
  set (g := psychrometric p w). set (de := deficit w). set (den := latent * _). set (v := wind_2m p u) in *.
  replace (4 / 3 * ((vaporation_pressure_slope (temp w) * 0 + 643 / 100 * g * (1 + 536 / 1000 * v) * de) / den))
    with ((643 / 100 * g * (4 / 3 * (1 + 536 / 1000 * v)) * de) * / den) by (unfold Rdiv; ring).
  replace ((vaporation_pressure_slope (temp w) * 0 + 643 / 100 * g * (1 + 86 / 100 * v) * de) / den) with ((643 / 100 * g * (1 + 86 / 100 * v) * de) * / den) by (unfold Rdiv; ring).
  apply Rmult_lt_compat_r; [apply Rinv_0_lt_compat, den_pos; auto|]. apply Rmult_lt_compat_r; [apply deficit_pos; auto|].
  pose proof (gamma_pos p w O C : 0 < g). apply Rmult_lt_compat_l; lra.
Qed.
(** The slope of the saturation pressure. *)
Lemma saturation_derivative T : - (2373 / 10) < T ->
  derivable_pt_lim saturation_pressure T (6108 / 10000 * (exp (1727 / 100 * T / (T + 2373 / 10)) * (4098171 / 1000 / ((T + 2373 / 10) * (T + 2373 / 10))))).
Proof.
  intros P. apply (derivable_pt_lim_scal (fun t => exp (1727 / 100 * t / (t + 2373 / 10))) (6108 / 10000)).
  apply (derivable_pt_lim_comp (fun t => 1727 / 100 * t / (t + 2373 / 10)) exp); [|apply derivable_pt_lim_exp].
  replace (4098171 / 1000 / ((T + 2373 / 10) * (T + 2373 / 10))) with ((1727 / 100 * 1 * (T + 2373 / 10) - (1 + 0) * (1727 / 100 * T)) / Rsqr (T + 2373 / 10))
    by (unfold Rsqr; field; lra).
  apply (derivable_pt_lim_div (fun t => 1727 / 100 * t) (fun t => t + 2373 / 10)); [| |lra].
  - apply (derivable_pt_lim_scal (fun t => t)). apply derivable_pt_lim_id.
  - apply (derivable_pt_lim_plus (fun t => t) (fun _ => 2373 / 10)); [apply derivable_pt_lim_id|apply derivable_pt_lim_const].
Qed.
Lemma slope_is_slope T : - (2373 / 10) < T -> exists d, derivable_pt_lim saturation_pressure T d /\ 0 < d /\ Rabs (vaporation_pressure_slope T - d) <= d / 20000.
Proof.
  intros P. eexists. split; [apply saturation_derivative; auto|]. pose proof (exp_pos (1727 / 100 * T / (T + 2373 / 10))) as E.
  assert (S : 0 < (T + 2373 / 10) * (T + 2373 / 10)) by (apply Rmult_lt_0_compat; lra). pose proof (Rinv_0_lt_compat _ S) as I.
  unfold vaporation_pressure_slope, saturation_pressure, Rdiv in *. set (e := exp _) in *. set (i := / ((T + _) * _)) in *.
  pose proof (Rmult_lt_0_compat _ _ E I) as EI.
  replace (6108 * / 10000 * (e * (4098171 * / 1000 * i))) with (6108 * / 10000 * (4098171 * / 1000) * (e * i)) by ring.
  replace (4098 * (6108 * / 10000 * e) * i) with (4098 * (6108 * / 10000) * (e * i)) by ring. split; [lra|].
  apply Rabs_le. lra.
Qed.
Lemma saturation_zero : saturation_pressure 0 = 6108 / 10000.
Proof. unfold saturation_pressure. replace (1727 / 100 * 0 / (0 + 2373 / 10)) with 0 by field. rewrite exp_0. ring. Qed.

(** ** Runup *)
Lemma deep_length L T : 0 < T -> deep_water L T -> L = wavelength T.
Proof.
  intros PT [PL E]. unfold wavelength. pose proof PI_RGT_0 as P.
  assert (X : 2 * PI / T * (2 * PI / T) * (T * T * L) = 981 / 100 * (2 * PI / L) * (T * T * L)) by (rewrite E; auto).
  assert (Y : 2 * PI * (2 * PI * L) = 2 * PI * (981 / 100 * T * T)).
  { transitivity (2 * PI / T * (2 * PI / T) * (T * T * L)); [field; lra|]. rewrite X. field. lra. }
  apply Rmult_eq_reg_l in Y; [|lra]. rewrite <- Y. field. lra.
Qed.
Lemma length_deep T : 0 < T -> deep_water (wavelength T) T.
Proof. intros PT. split; [apply wavelength_pos; auto|]. unfold wavelength. pose proof PI_RGT_0. field. lra. Qed.
Lemma similarity H T b : 0 < T -> iribarren H (wavelength T) b = surf_similarity H (wavelength T) b.
Proof. intros PT. unfold iribarren, surf_similarity. pose proof (wavelength_pos T PT). destruct (Req_EM_T _ 0); [lra|auto]. Qed.
Lemma doc_dissipative H T b L : 0 < H -> 0 < T -> 0 < b -> deep_water L T -> surf_similarity H L b < 3 / 10 ->
  runup_of (runup_scalar H T b) = doc_runup_dissipative H L /\ setup_of (runup_scalar H T b) = doc_setup_dissipative H L /\ runup_array H T b = runup_scalar H T b.
Proof.
  intros PH PT Pb D S. apply deep_length in D; auto. subst L. rewrite <- similarity in S by auto.
  assert (A : runup_array H T b = runup_scalar H T b) by (apply scalar_array; lra).
  apply gtb_spec in PH, PT, Pb, S. unfold runup_scalar in *. rewrite PH, PT, Pb, S in *. cbn [andb] in *.
  repeat split; auto; unfold dissipative, runup_of, setup_of, doc_runup_dissipative, doc_setup_dissipative; cbn [fst snd]; field.
Qed.
Lemma doc_reflective H T b L : 0 < H -> 0 < T -> 0 < b -> deep_water L T -> 3 / 10 < surf_similarity H L b ->
  runup_of (runup_scalar H T b) < doc_runup H L b /\ setup_of (runup_scalar H T b) = 35 / 100 * b * sqrt (H * L) /\ runup_array H T b = runup_scalar H T b.
Proof.
  intros PH PT Pb D S. apply deep_length in D; auto. subst L. rewrite <- similarity in S by auto.
  assert (A : runup_array H T b = runup_scalar H T b) by (apply scalar_array; lra).
  assert (X : runup_scalar H T b = reflective H (wavelength T) b).
  { assert (Z : gtb (3 / 10) (iribarren H (wavelength T) b) = false) by (apply gtb_false; lra).
    apply gtb_spec in PH as E1, PT as E2, Pb as E3. unfold runup_scalar. rewrite E1, E2, E3, Z. auto. }
  rewrite X. split; [|split; [|congruence]]; unfold reflective, runup_of, setup_of, doc_runup; cbn [fst snd]; [|auto].
  assert (W : 0 < H * wavelength T) by (apply Rmult_lt_0_compat; auto; apply wavelength_pos; auto).
  assert (B : 0 < b * b) by (apply Rmult_lt_0_compat; auto).
  assert (sqrt (H * wavelength T * (563 / 1000 * (b * b) + 4 / 10000)) < sqrt (H * wavelength T * (563 / 1000 * (b * b) + 4 / 1000))).
  { apply sqrt_lt_1; try (apply Rmult_le_pos; lra). apply Rmult_lt_compat_l; lra. }
  lra.
Qed.

(** ** Drying without groundwater *)
Lemma drying_documented sw p t0 fuel file dt c c' : process_moist sw = true -> moist_method sw = Infiltration -> process_salt sw = false -> 0 < Tdry p -> 0 <= eps p -> 0 <= dt -> 0 <= moist c <= porosity p ->
  TWL c <= zb c \/ eps p < TWL c - zb c -> update sw p t0 fuel file dt c = Ok (Some c') -> moist c' = documented_drying p 0 dt c.
Proof.
  intros A B S T E0 D M W U. unfold update in U. rewrite A, B, S in U. cbn [bind] in U. inversion U; subst c'; clear U. cbn [moist with_moist]. unfold documented_drying.
  destruct (Rlt_dec (zb c) (TWL c)).
  - apply infiltrate_flooded; lra.
  - rewrite infiltrate_dry by (auto; unfold dry; lra). rewrite Rmult_0_l, Rminus_0_r. unfold decay. f_equal. f_equal. unfold Rdiv. ring.
Qed.
