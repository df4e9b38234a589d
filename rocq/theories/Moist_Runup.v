(** Proofs about salt, evaporation and runup. *)
From Verif Require Import Base Moist_Model Moist_Spec Moist_Proofs.
From Coq Require Import Reals Lra Lia.
Open Scope R_scope.

(** ** Salt *)
Lemma quot_nonneg a b : 0 <= a -> 0 < b -> 0 <= a / b.
Proof. intros. apply Rmult_le_pos; auto. left. apply Rinv_0_lt_compat; auto. Qed.
Lemma quot_pos a b : 0 < a -> 0 < b -> 0 < a / b.
Proof. intros. apply Rmult_lt_0_compat; auto. apply Rinv_0_lt_compat; auto. Qed.
Lemma rain_in p w dt : 0 <= rain w -> 0 <= dt -> 0 < salt_thick p -> 0 <= pcp w * dt / salt_thick p.
Proof. intros. apply quot_nonneg; auto. apply Rmult_le_pos; auto. unfold pcp. lra. Qed.
Lemma salt_range p w dt ix s : 0 <= rain w -> 0 <= dt -> 0 < salt_thick p -> 0 <= s -> 0 <= salt_update p w dt ix s <= 1.
Proof.
  intros. unfold salt_update. split; [|apply Rmin_l]. apply Rmin_glb; [lra|]. pose proof (rain_in p w dt H H0 H1).
  destruct ix; [lra|]. assert (0 <= s * decay (Tsalt p) dt) by (apply Rmult_le_pos; [auto|left; apply decay_pos]). lra.
Qed.
Lemma salt_flooded p w dt s : 0 <= rain w -> 0 <= dt -> 0 < salt_thick p -> salt_update p w dt true s = 1.
Proof. intros. unfold salt_update. pose proof (rain_in p w dt H H0 H1). apply Rmin_left. lra. Qed.
Lemma salt_dry p w dt s : rain w = 0 -> 0 < Tsalt p -> 0 <= dt -> 0 <= s <= 1 -> salt_update p w dt false s = s * decay (Tsalt p) dt.
Proof.
  intros. unfold salt_update, pcp. rewrite H. replace (s * decay (Tsalt p) dt + 0 / 3600 / 1000 * dt / salt_thick p) with (s * decay (Tsalt p) dt) by (unfold Rdiv; ring).
  apply Rmin_right. pose proof (decay_le_1 (Tsalt p) dt H0 H1). pose proof (decay_pos (Tsalt p) dt).
  assert (s * decay (Tsalt p) dt <= 1 * 1) by (apply Rmult_le_compat; lra). lra.
Qed.
Lemma salt_rain p w w' dt ix s : rain w <= rain w' -> 0 <= dt -> 0 < salt_thick p -> salt_update p w dt ix s <= salt_update p w' dt ix s.
Proof.
  intros. unfold salt_update. apply Rle_min_compat_l. apply Rplus_le_compat_l. unfold Rdiv. apply Rmult_le_compat_r; [left; apply Rinv_0_lt_compat; auto|].
  apply Rmult_le_compat_r; auto. unfold pcp. lra.
Qed.

(** ** Evaporation *)
Lemma saturation_pos T : 0 < saturation_pressure T.
Proof. unfold saturation_pressure. apply Rmult_lt_0_compat; [lra|apply exp_pos]. Qed.
Lemma slope_pos T : - (2373 / 10) < T -> 0 < vaporation_pressure_slope T.
Proof.
  intros. unfold vaporation_pressure_slope. apply quot_pos.
  - pose proof (saturation_pos T). lra.
  - apply Rmult_lt_0_compat; lra.
Qed.
Lemma log10_pos x : 1 < x -> 0 < log10 x.
Proof.
  intros. unfold log10. assert (ln 1 < ln x) by (apply ln_increasing; lra). assert (ln 1 < ln 10) by (apply ln_increasing; lra).
  rewrite ln_1 in *. apply quot_pos; auto.
Qed.
(** Evaporation as a sum of radiation and drying power. *)
Lemma evaporation_split p w u : evaporation p w u =
  (vaporation_pressure_slope (temp w) * rad w + 643 / 100 * (cpair p * pres w / (622 / 1000 * (226 / 100))) * (saturation_pressure (temp w) * (1 - hum w / 100))
     * (1 + 86 / 100 * (174 / 1000 / log10 (z p / 2) * u)))
  / (226 / 100 * (vaporation_pressure_slope (temp w) + cpair p * pres w / (622 / 1000 * (226 / 100)))).
Proof. reflexivity. Qed.
Lemma evaporation_mono p w u v : ordinary w -> 0 < cpair p -> 2 < z p -> u <= v -> evaporation p w u <= evaporation p w v.
Proof.
  intros [Ht [Hq [Hp [Hu Hr]]]] Hc Hz Huv. rewrite !evaporation_split.
  pose proof (slope_pos _ Ht). pose proof (saturation_pos (temp w)).
  set (m := vaporation_pressure_slope (temp w)) in *. set (e := saturation_pressure (temp w)) in *.
  assert (G : 0 < cpair p * pres w / (622 / 1000 * (226 / 100))) by (apply quot_pos; [apply Rmult_lt_0_compat; auto|lra]).
  set (g := cpair p * pres w / (622 / 1000 * (226 / 100))) in *.
  assert (L : 0 < log10 (z p / 2)) by (apply log10_pos; lra).
  assert (D : 0 <= e * (1 - hum w / 100)) by (apply Rmult_le_pos; lra).
  apply Rmult_le_compat_r; [left; apply Rinv_0_lt_compat; apply Rmult_lt_0_compat; lra|].
  apply Rplus_le_compat_l. apply Rmult_le_compat_l; [apply Rmult_le_pos; [lra|auto]|].
  apply Rplus_le_compat_l. apply Rmult_le_compat_l; [lra|]. apply Rmult_le_compat_l; [|auto].
  left. apply quot_pos; lra.
Qed.
Lemma evaporation_nonneg p w u : ordinary w -> 0 < cpair p -> 2 < z p -> 0 <= u -> 0 <= evaporation p w u.
Proof.
  intros O Hc Hz Hu. apply Rle_trans with (evaporation p w 0); [|apply evaporation_mono; auto].
  destruct O as [Ht [Hq [Hp [Hh Hr]]]]. rewrite evaporation_split.
  pose proof (slope_pos _ Ht). pose proof (saturation_pos (temp w)).
  set (m := vaporation_pressure_slope (temp w)) in *. set (e := saturation_pressure (temp w)) in *.
  assert (G : 0 < cpair p * pres w / (622 / 1000 * (226 / 100))) by (apply quot_pos; [apply Rmult_lt_0_compat; auto|lra]).
  set (g := cpair p * pres w / (622 / 1000 * (226 / 100))) in *.
  apply quot_nonneg; [|apply Rmult_lt_0_compat; lra].
  rewrite Rmult_0_r, Rmult_0_r, Rplus_0_r, Rmult_1_r.
  apply Rplus_le_le_0_compat; [apply Rmult_le_pos; lra|]. apply Rmult_le_pos; [lra|]. apply Rmult_le_pos; lra.
Qed.
(** A wind gauge below two metres: strong wind gives negative evaporation. *)
Lemma evaporation_negative p w u : ordinary w -> rad w = 0 -> hum w < 100 -> 0 < cpair p -> z p = 1 -> 10 <= u -> evaporation p w u < 0.
Proof.
  intros [Ht [Hq [Hp [Hh Hr]]]] Er Hl Hc Hz Hu. rewrite evaporation_split, Er, Rmult_0_r, Rplus_0_l, Hz.
  pose proof (slope_pos _ Ht). pose proof (saturation_pos (temp w)).
  set (m := vaporation_pressure_slope (temp w)) in *. set (e := saturation_pressure (temp w)) in *.
  assert (G : 0 < cpair p * pres w / (622 / 1000 * (226 / 100))) by (apply quot_pos; [apply Rmult_lt_0_compat; auto|lra]).
  set (g := cpair p * pres w / (622 / 1000 * (226 / 100))) in *.
  assert (L : 0 < - log10 (1 / 2) <= 1).
  { unfold log10. assert (ln 1 < ln 10) by (apply ln_increasing; lra). assert (ln 2 < ln 10) by (apply ln_increasing; lra). assert (ln 1 < ln 2) by (apply ln_increasing; lra).
    rewrite ln_1 in *. replace (1 / 2) with (/ 2) by field. rewrite ln_Rinv by lra.
    replace (- (- ln 2 / ln 10)) with (ln 2 / ln 10) by (field; lra). split; [apply quot_pos; lra|].
    apply Rmult_le_reg_r with (ln 10); [lra|]. unfold Rdiv. rewrite Rmult_assoc, Rinv_l by lra. lra. }
  set (l := log10 (1 / 2)) in *.
  assert (I : 1 <= / - l). { apply Rle_trans with (/ 1); [rewrite Rinv_1; lra|]. apply Rinv_le_contravar; lra. }
  assert (F : 1 + 86 / 100 * (174 / 1000 / l * u) < 0).
  { replace (174 / 1000 / l * u) with (- (174 / 1000 * (/ - l * u))) by (field; lra).
    assert (1 * 10 <= / - l * u) by (apply Rmult_le_compat; lra). lra. }
  set (f := 1 + 86 / 100 * (174 / 1000 / l * u)) in *.
  assert (0 < e * (1 - hum w / 100)) by (apply Rmult_lt_0_compat; lra).
  assert (0 < 643 / 100 * g * (e * (1 - hum w / 100)) * - f) by (apply Rmult_lt_0_compat; [apply Rmult_lt_0_compat; lra|lra]).
  assert (Y : 0 < 643 / 100 * g * (e * (1 - hum w / 100)) * - f / (226 / 100 * (m + g))) by (apply quot_pos; [auto|apply Rmult_lt_0_compat; lra]).
  assert (643 / 100 * g * (e * (1 - hum w / 100)) * f / (226 / 100 * (m + g)) = - (643 / 100 * g * (e * (1 - hum w / 100)) * - f / (226 / 100 * (m + g)))) by (field; lra).
  lra.
Qed.

(** ** Runup *)
Lemma wavelength_pos T : 0 < T -> 0 < wavelength T.
Proof. intros. unfold wavelength. pose proof PI_RGT_0. apply quot_pos; [|lra]. apply Rmult_lt_0_compat; [|auto]. apply Rmult_lt_0_compat; lra. Qed.
Lemma wavelength_0 : wavelength 0 = 0.
Proof. unfold wavelength, Rdiv. ring. Qed.
Lemma dissipative_nonneg H L : 0 <= setup_of (dissipative H L) /\ 0 <= swash_of (dissipative H L) /\ 0 <= runup_of (dissipative H L).
Proof. unfold dissipative, setup_of, swash_of, runup_of; cbn [fst snd]. pose proof (sqrt_pos (H * L)). lra. Qed.
Lemma reflective_nonneg H L b : 0 <= b -> 0 <= setup_of (reflective H L b) /\ 0 <= swash_of (reflective H L b) /\ 0 <= runup_of (reflective H L b).
Proof.
  intros. unfold reflective, setup_of, swash_of, runup_of; cbn [fst snd]. pose proof (sqrt_pos (H * L)).
  pose proof (sqrt_pos (H * L * (563 / 1000 * (b * b) + 4 / 10000))).
  assert (0 <= 35 / 100 * b * sqrt (H * L)) by (apply Rmult_le_pos; lra). lra.
Qed.
Lemma scalar_nonneg H T b : 0 <= setup_of (runup_scalar H T b) /\ 0 <= swash_of (runup_scalar H T b) /\ 0 <= runup_of (runup_scalar H T b).
Proof.
  unfold runup_scalar. destruct (gtb H 0 && gtb T 0 && gtb b 0)%bool eqn:E.
  - apply andb_prop in E. destruct E as [E1 E3]. apply gtb_spec in E3.
    destruct (gtb (3 / 10) (iribarren H (wavelength T) b)); [apply dissipative_nonneg|apply reflective_nonneg; lra].
  - unfold setup_of, swash_of, runup_of; cbn [fst snd]. lra.
Qed.
Lemma array_nonneg H T b : 0 <= b -> 0 <= setup_of (runup_array H T b) /\ 0 <= swash_of (runup_array H T b) /\ 0 <= runup_of (runup_array H T b).
Proof.
  intros. unfold runup_array. destruct (gtb H 0 && gtb (iribarren H (wavelength T) b) (3 / 10))%bool; [apply reflective_nonneg; auto|].
  destruct (gtb H 0 && gtb (3 / 10) (iribarren H (wavelength T) b))%bool; [apply dissipative_nonneg|].
  unfold setup_of, swash_of, runup_of; cbn [fst snd]. lra.
Qed.
Lemma no_waves T b H : H <= 0 -> runup_scalar H T b = (0, 0, 0) /\ runup_array H T b = (0, 0, 0).
Proof. intros. apply gtb_false in H0. unfold runup_scalar, runup_array. rewrite H0. auto. Qed.
Lemma scalar_array H T b : 0 <= T -> 0 < b -> iribarren H (wavelength T) b <> 3 / 10 -> runup_array H T b = runup_scalar H T b.
Proof.
  intros. unfold runup_array, runup_scalar. apply gtb_spec in H1. rewrite H1.
  destruct (gtb H 0) eqn:E; cbn [andb]; auto. destruct (gtb T 0) eqn:F; cbn [andb].
  - destruct (gtb (3 / 10) (iribarren H (wavelength T) b)) eqn:G.
    + apply gtb_spec in G. assert (K : gtb (iribarren H (wavelength T) b) (3 / 10) = false) by (apply gtb_false; lra). rewrite K. auto.
    + apply gtb_false in G. assert (K : gtb (iribarren H (wavelength T) b) (3 / 10) = true) by (apply gtb_spec; lra). rewrite K. auto.
  - apply gtb_false in F. assert (T = 0) by lra. subst T. rewrite wavelength_0. unfold iribarren. destruct (Req_EM_T 0 0); [|lra].
    assert (K : gtb 0 (3 / 10) = false) by (apply gtb_false; lra). assert (K2 : gtb (3 / 10) 0 = true) by (apply gtb_spec; lra). rewrite K, K2.
    unfold dissipative. rewrite Rmult_0_r, sqrt_0. f_equal; [f_equal|]; field.
Qed.

(** Runup as a multiple of the root of height times length. *)
Lemma iribarren_mono L b H1 H2 : 0 < L -> 0 < b -> 0 < H1 -> H1 <= H2 -> iribarren H2 L b <= iribarren H1 L b.
Proof.
  intros. unfold iribarren. destruct (Req_EM_T L 0); [lra|]. apply Rmult_le_compat_l; [lra|].
  assert (0 < H1 / L) by (apply quot_pos; auto).
  apply Rinv_le_contravar; [apply sqrt_lt_R0; auto|]. apply sqrt_le_1_alt. apply Rmult_le_compat_r; auto. left. apply Rinv_0_lt_compat; auto.
Qed.
Lemma dissipative_mono L H1 H2 : 0 < L -> 0 < H1 -> H1 <= H2 -> runup_of (dissipative H1 L) <= runup_of (dissipative H2 L).
Proof. intros. unfold dissipative, runup_of; cbn [snd]. apply Rmult_le_compat_l; [lra|]. apply sqrt_le_1_alt. apply Rmult_le_compat_r; lra. Qed.
Lemma reflective_mono L b H1 H2 : 0 < L -> 0 < b -> 0 < H1 -> H1 <= H2 -> runup_of (reflective H1 L b) <= runup_of (reflective H2 L b).
Proof.
  intros. unfold reflective, runup_of; cbn [snd]. apply Rmult_le_compat_l; [lra|].
  assert (sqrt (H1 * L) <= sqrt (H2 * L)) by (apply sqrt_le_1_alt; apply Rmult_le_compat_r; lra).
  assert (0 <= b * b) by (apply Rle_0_sqr).
  assert (sqrt (H1 * L * (563 / 1000 * (b * b) + 4 / 10000)) <= sqrt (H2 * L * (563 / 1000 * (b * b) + 4 / 10000))).
  { apply sqrt_le_1_alt. apply Rmult_le_compat_r; [lra|]. apply Rmult_le_compat_r; lra. }
  assert (35 / 100 * b * sqrt (H1 * L) <= 35 / 100 * b * sqrt (H2 * L)) by (apply Rmult_le_compat_l; lra). lra.
Qed.
Lemma runup_mono H1 H2 T b : 0 < H1 -> H1 <= H2 -> 0 < T -> 0 < b ->
  iribarren H1 (wavelength T) b < 3 / 10 \/ 3 / 10 <= iribarren H2 (wavelength T) b ->
  runup_of (runup_scalar H1 T b) <= runup_of (runup_scalar H2 T b).
Proof.
  intros P1 P2 PT Pb R. pose proof (wavelength_pos T PT) as PL. pose proof (iribarren_mono _ b H1 H2 PL Pb P1 P2) as I.
  unfold runup_scalar. assert (E1 : gtb H1 0 = true) by (apply gtb_spec; lra). assert (E2 : gtb H2 0 = true) by (apply gtb_spec; lra).
  apply gtb_spec in PT. apply gtb_spec in Pb as Pb'. rewrite E1, E2, PT, Pb'. cbn [andb].
  destruct R as [R|R].
  - assert (K1 : gtb (3 / 10) (iribarren H1 (wavelength T) b) = true) by (apply gtb_spec; lra).
    assert (K2 : gtb (3 / 10) (iribarren H2 (wavelength T) b) = true) by (apply gtb_spec; lra). rewrite K1, K2. apply dissipative_mono; auto.
  - assert (K1 : gtb (3 / 10) (iribarren H1 (wavelength T) b) = false) by (apply gtb_false; lra).
    assert (K2 : gtb (3 / 10) (iribarren H2 (wavelength T) b) = false) by (apply gtb_false; lra). rewrite K1, K2. apply reflective_mono; auto.
Qed.
