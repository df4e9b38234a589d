(** Cases and counterexamples for capillary moisture and field capacity. *)
From Verif Require Import Base Moist_Model Moist_Spec Moist_Proofs Moist_Cases Rain_Spec Rain_Proofs Rain_Cases Capil_Spec Capil_Proofs.
From Coq Require Import Reals Lra.
Open Scope R_scope.

(** A bed one metre above a groundwater table that keeps falling, on a drying scanning curve since the table turned 50 cm below the bed. *)
Definition falling_cell : cell :=
  {| moist := 1 / 10; TWL := 0; zb := 1; gw := 0; gw_prev := 1 / 10; uw := 8; wetting := false; scan_w := false; scan_d := true; h_delta := 50;
     w_h := 5 / 100; d_h := 3 / 10; scan_w_moist := 1 / 10; scan_d_moist := 5 / 100; moist_swr := 1 / 10; salt := 1 / 2 |}.
Lemma plain_w h : 0 < h -> theta_w plain_soil h = 1 / 100 + (34 / 100) / (1 + h / 10).
Proof.
  intros H. unfold theta_w, van_genuchten. cbn [resw satw alfaw nw mw plain_soil]. rewrite (Rabs_right (1 / 10 * h)) by lra. rewrite (Rpower_1 (1 / 10 * h)) by lra. rewrite Rpower_1 by lra.
  replace (1 / 10 * h) with (h / 10) by lra. replace (35 / 100 - 1 / 100) with (34 / 100) by lra. reflexivity.
Qed.
Lemma plain_d h : 0 < h -> theta_d plain_soil h = 1 / 100 + (49 / 100) / (1 + h / 10).
Proof.
  intros H. unfold theta_d, van_genuchten. cbn [resd satd alfad nd md plain_soil]. rewrite (Rabs_right (1 / 10 * h)) by lra. rewrite (Rpower_1 (1 / 10 * h)) by lra. rewrite Rpower_1 by lra.
  replace (1 / 10 * h) with (h / 10) by lra. replace (5 / 10 - 1 / 100) with (49 / 100) by lra. reflexivity.
Qed.
Lemma c191_case : exists c', update (surface_on true false) plain_soil false 0 (Some drizzle) 3600 falling_cell = Ok (Some c') /\ h_delta c' = 50 /\ gw falling_cell < gw_prev falling_cell /\
  1 / 10000 <= satd plain_soil - theta_w plain_soil (height_cm falling_cell) /\ theta_w plain_soil 100 < moist_swr c' < theta_d plain_soil 100 /\ moist_swr c' = mualem_drying plain_soil 50 100.
Proof.
  assert (T : height_cm falling_cell = 100) by (unfold height_cm, falling_cell; cbn [zb gw]; lra).
  destruct (update (surface_on true false) plain_soil false 0 (Some drizzle) 3600 falling_cell) as [[c'|]|] eqn:U.
  2,3: exfalso; revert U; unfold update; cbn [process_moist moist_method groundwater_param process_scanning process_salt surface_on bind meteo]; unfold surface, capillary, hdelta; cbn [scan_d scan_w wetting falling_cell negb andb orb];
    assert (B : gtb (gw falling_cell) (gw_prev falling_cell) = false) by (apply gtb_false; cbn; lra); cbn [gw gw_prev falling_cell] in B; cbn [gw gw_prev falling_cell]; rewrite B; cbn [andb]; 
    match goal with |- context [swr_curve ?a ?b ?c ?d ?e ?f] => destruct (swr_curve a b c d e f) as [[? ?] ?] end; discriminate.
  exists c'. split; [reflexivity|].
  assert (HD : h_delta c' = 50).
  { destruct (surface_of_update (surface_on true false) _ _ _ _ _ _ _ eq_refl eq_refl U) as [w [c1 [_ [E ->]]]]. cbn [process_salt process_scanning surface_on] in *. unfold surface, capillary, hdelta in E. cbn [scan_d scan_w wetting falling_cell negb andb orb] in E.
    assert (B : gtb (gw falling_cell) (gw_prev falling_cell) = false) by (apply gtb_false; cbn; lra). cbn [gw gw_prev falling_cell] in B, E. rewrite B in E. cbn [andb] in E.
    match type of E with context [swr_curve ?a ?b ?c ?d ?e ?f] => destruct (swr_curve a b c d e f) as [[? ?] ?] end. inversion E. reflexivity. }
  split; [auto|]. split; [cbn; lra|]. rewrite T. rewrite (plain_w 100) by lra. split; [cbn [satd plain_soil]; lra|].
  destruct (capillary_documented (surface_on true false) plain_soil 0 (Some drizzle) 3600 falling_cell c' eq_refl eq_refl eq_refl ltac:(cbn; lra) ltac:(cbn; lra) ltac:(cbn; lra) U ltac:(lra)) as [_ [_ [_ D]]].
  rewrite HD, T in D. rewrite D; [|cbn; lra|right; reflexivity|rewrite plain_w by lra; cbn [satd plain_soil]; lra].
  unfold mualem_drying, clip. rewrite !plain_w, !plain_d by lra. cbn [satd plain_soil].
  rewrite Rmin_right by lra. rewrite Rmax_right by lra. lra.
Qed.

(** Air saturated with water, no rain. *)
Definition damp : weather := {| temp := 20; rad := 0; pres := 101; hum := 100; rain := 0 |}.
Lemma damp_evaporation p u : evaporation p damp u = 0.
Proof.
  rewrite evaporation_penman. assert (D : deficit damp = 0) by (unfold deficit; cbn; field). rewrite D. cbn [rad damp]. unfold Rdiv. ring.
Qed.
Lemma field_capacity_low : theta_d default_soil 100 < 9 / 100.
Proof.
  unfold theta_d, van_genuchten. cbn [resd satd alfad nd md default_soil]. replace (Rabs (- (35 / 1000) * 100)) with (7 / 2) by (rewrite Rabs_left; lra).
  assert (A : 63 / 10 < Rpower (1 + Rpower (7 / 2) (45 / 10)) (42 / 100)).
  { apply Rlt_le_trans with (Rpower (7 / 2) (1 + / 2)).
    - rewrite Rpower_plus, Rpower_1, Rpower_sqrt by lra. assert (S : 18 / 10 < sqrt (7 / 2)) by (rewrite <- (sqrt_square (18 / 10)) by lra; apply sqrt_lt_1_alt; lra). lra.
    - apply Rle_trans with (Rpower (Rpower (7 / 2) (45 / 10)) (42 / 100)).
      + rewrite Rpower_mult. apply Rle_Rpower; lra.
      + assert (0 < Rpower (7 / 2) (45 / 10)) by apply exp_pos. apply Rle_Rpower_l; [lra|]. split; lra. }
  assert (B : / Rpower (1 + Rpower (7 / 2) (45 / 10)) (42 / 100) < / (63 / 10)) by (apply Rinv_lt_contravar; [apply Rmult_lt_0_compat; lra|auto]). unfold Rdiv at 3. lra.
Qed.
Lemma field_cell : TWL (some_cell (1 / 10) 0 1) <= zb (some_cell (1 / 10) 0 1) /\ height_cm (some_cell (1 / 10) 0 1) = 100.
Proof. split; [cbn; lra|]. unfold height_cm. cbn [zb gw some_cell]. lra. Qed.
Lemma c192_refuted : exists c, TWL c <= zb c /\ height_cm c = 100 /\ theta_d default_soil 100 + 1 / 100 < moist c /\
  forall dt, 0 <= dt -> exists c', update (surface_on false false) default_soil false 0 (Some damp) dt c = Ok (Some c') /\ moist c' = moist c.
Proof.
  exists (some_cell (1 / 10) 0 1). split; [apply field_cell|]. split; [apply field_cell|]. pose proof field_capacity_low as F. split; [cbn [moist some_cell]; lra|].
  intros dt H. eexists. split; [reflexivity|]. cbn [moist moist_swr with_moist with_capillary wetting some_cell].
  assert (B : surface_balance default_soil damp dt (some_cell (1 / 10) 0 1) = 1 / 10).
  { unfold surface_balance. assert (SO : soaked (some_cell (1 / 10) 0 1) = false) by (unfold soaked; apply gtb_false; cbn; lra). rewrite SO.
    rewrite drain_below by (cbn; lra). unfold pcp, evo. rewrite damp_evaporation. cbn [rain damp moist some_cell thick resw satd default_soil].
    replace (1 / 10 + (0 / 3600 / 1000 - 0 / 24 / 3600 / 1000) * dt / (2 / 1000)) with (1 / 10) by field. rewrite Rmax_left by lra. apply Rmin_left. lra. }
  rewrite B. change (satd default_soil) with (5 / 10).
  assert (E : dry_curve default_soil (head (some_cell (1 / 10) 0 1)) = theta_d default_soil 100).
  { rewrite head_height by (cbn; lra). rewrite (proj2 field_cell). apply curve_vg; cbn; lra. }
  rewrite E. rewrite Rmax_left by lra. apply Rmin_left. lra.
Qed.
(** The same soil with the documented field capacity. *)
Definition documented_soil : soil :=
  {| porosity := 4 / 10; eps := 1 / 1000; Tdry := 5400; Tsalt := 2592000; fc := theta_d plain_soil 100; thick := 2 / 100; salt_thick := 1 / 100; cpair := 10035 / 10000000; z := 10;
     resw := 1 / 100; satw := 35 / 100; alfaw := 1 / 10; nw := 1; mw := 1; resd := 1 / 100; satd := 5 / 10; alfad := 1 / 10; nd := 1; md := 1 |}.
Lemma c192_case : exists c', let c := some_cell (2 / 10) 0 1 in update (surface_on false false) documented_soil false 0 (Some damp) 5400 c = Ok (Some c') /\
  fc documented_soil = theta_d documented_soil 100 /\ fc documented_soil <= moist c /\ resw documented_soil < moist c' < satd documented_soil /\ moist_swr c' < moist c'.
Proof.
  eexists. cbv zeta. split; [reflexivity|]. split; [reflexivity|]. assert (F : fc documented_soil = 1 / 100 + 49 / 100 / 11) by (cbn [fc documented_soil]; rewrite plain_d by lra; lra).
  rewrite F. split; [cbn; lra|]. cbn [moist moist_swr with_moist with_capillary wetting some_cell].
  assert (Q : dry_curve documented_soil (head (some_cell (2 / 10) 0 1)) < 6 / 100).
  { change (dry_curve plain_soil (head (some_cell (2 / 10) 0 1)) < 6 / 100). apply plain_dry. unfold head. cbn [zb gw some_cell]. rewrite Rmax_right; lra. }
  assert (B : surface_balance documented_soil damp 5400 (some_cell (2 / 10) 0 1) = (1 / 100 + 49 / 100 / 11 + 2 / 10) / 2).
  { unfold surface_balance. assert (SO : soaked (some_cell (2 / 10) 0 1) = false) by (unfold soaked; apply gtb_false; cbn; lra). rewrite SO.
    rewrite drain_above by (try rewrite F; cbn; lra). rewrite F. cbn [Tdry documented_soil]. rewrite decay_half by lra. unfold pcp, evo. rewrite damp_evaporation. cbn [rain damp moist some_cell thick resw satd documented_soil].
    rewrite Rmax_left by lra. rewrite Rmin_left by lra. lra. }
  rewrite B. change (satd documented_soil) with (5 / 10). change (resw documented_soil) with (1 / 100). rewrite Rmax_left by lra. rewrite Rmin_left by lra. lra.
Qed.
