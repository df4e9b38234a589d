(** Statements about moisture, salt, evaporation and runup in terms of the whole update, and concrete cases. *)
From Verif Require Import Base Moist_Model Moist_Spec Moist_Proofs Moist_Runup.
From Coq Require Import Reals Lra Lia.
Open Scope R_scope.

Definition infiltration_on : switches := {| process_moist := true; moist_method := Infiltration; groundwater_param := Some false; process_scanning := true; process_salt := false |}.
Definition surface_on (scanning salt : bool) : switches :=
  {| process_moist := true; moist_method := SurfMoisture; groundwater_param := Some true; process_scanning := scanning; process_salt := salt |}.
Definition fair : weather := {| temp := 20; rad := 15; pres := 101; hum := 60; rain := 0 |}.
Definition some_cell (m twl bed : R) : cell :=
  {| moist := m; TWL := twl; zb := bed; gw := 0; gw_prev := 1 / 10; uw := 8; wetting := false; scan_w := false; scan_d := false; h_delta := 0;
     w_h := 5 / 100; d_h := 3 / 10; scan_w_moist := 1 / 10; scan_d_moist := 5 / 100; moist_swr := 1 / 10; salt := 1 / 2 |}.

(** ** C36 *)
Lemma c36_infiltration sw p t0 fuel file dt c c' : process_moist sw = true -> moist_method sw = Infiltration -> 0 <= porosity p ->
  update sw p t0 fuel file dt c = Ok (Some c') -> 0 <= moist c' <= porosity p /\ (eps p < TWL c - zb c -> moist c' = porosity p).
Proof.
  intros S M P U. unfold update in U. rewrite S, M in U. cbn [bind] in U.
  assert (E : moist c' = infiltrate p dt c).
  { destruct (process_salt sw); [|inversion U; reflexivity]. unfold meteo in U. rewrite S, M in U. cbn [bind] in U. discriminate. }
  rewrite E. split; [apply infiltrate_range; auto|apply infiltrate_flooded; auto].
Qed.
Lemma surface_of_update sw p t0 fuel file dt c c' : process_moist sw = true -> moist_method sw = SurfMoisture ->
  update sw p t0 fuel file dt c = Ok (Some c') ->
  exists w c1, file = Some w /\ surface p (process_scanning sw) t0 fuel w dt c = Some c1 /\
    c' = (if process_salt sw then with_salt c1 (salt_update p w dt (soaked c) (salt c1)) else c1).
Proof.
  intros S M U. unfold update in U. rewrite S, M in U. destruct (groundwater_param sw); [|discriminate].
  unfold meteo in U. rewrite S, M in U. destruct file as [w|]; [|discriminate]. cbn [bind] in U.
  destruct (surface p (process_scanning sw) t0 fuel w dt c) as [c1|] eqn:E; [|discriminate].
  exists w, c1. repeat split; auto. destruct (process_salt sw); inversion U; auto.
Qed.
Lemma c36_surface sw p t0 fuel file dt c c' : process_moist sw = true -> moist_method sw = SurfMoisture -> resw p <= satd p ->
  update sw p t0 fuel file dt c = Ok (Some c') -> resw p <= moist c' <= satd p /\ (zb c < TWL c -> moist c' = satd p).
Proof.
  intros S M R U. destruct (surface_of_update _ _ _ _ _ _ _ _ S M U) as [w [c1 [-> [E ->]]]].
  assert (Q : moist (if process_salt sw then with_salt c1 (salt_update p w dt (soaked c) (salt c1)) else c1) = moist c1) by (destruct (process_salt sw); auto).
  rewrite Q. split; [eapply surface_range; eauto|intros; eapply surface_soaked; eauto].
Qed.
Lemma case_infiltration : exists c', update infiltration_on default_soil false 0 None 5400 (some_cell (2 / 10) 0 1) = Ok (Some c') /\ moist c' = 1 / 10.
Proof.
  eexists. split; [reflexivity|]. cbn [moist with_moist]. rewrite infiltrate_dry; unfold dry; cbn; try lra. rewrite decay_half by lra. lra.
Qed.
Lemma case_flooded : exists c', update infiltration_on default_soil false 0 None 5400 (some_cell (1 / 10) 2 1) = Ok (Some c') /\ moist c' = 4 / 10.
Proof.
  eexists. split; [reflexivity|]. cbn [moist with_moist]. rewrite infiltrate_flooded; cbn; lra.
Qed.
Lemma case_surface : exists c', update (surface_on false true) default_soil false 0 (Some fair) 3600 (some_cell (1 / 10) 2 1) = Ok (Some c') /\ moist c' = 5 / 10 /\ salt c' = 1.
Proof.
  eexists. split; [reflexivity|]. cbn [moist salt with_moist with_salt].
  assert (E : soaked (some_cell (1 / 10) 2 1) = true) by (unfold soaked; cbn; apply gtb_spec; lra).
  split.
  - unfold surface_balance. rewrite E. cbn [satd default_soil]. apply Rmin_right. apply Rmax_l.
  - rewrite E. rewrite salt_flooded; cbn; lra.
Qed.
Lemma c36_porosity : exists sw file dt c c', update sw default_soil false 0 file dt c = Ok (Some c') /\ porosity default_soil < moist c'.
Proof.
  exists (surface_on false true), (Some fair), 3600, (some_cell (1 / 10) 2 1). destruct case_surface as [c' [E [M _]]]. exists c'. split; auto. rewrite M. cbn. lra.
Qed.

(** ** C38 *)
Lemma c38_between sw p t0 fuel file dt c c' : process_moist sw = true -> moist_method sw = SurfMoisture ->
  update sw p t0 fuel file dt c = Ok (Some c') -> lies_between (wet_curve p (head c)) (dry_curve p (head c)) (moist_swr c').
Proof.
  intros S M U. destruct (surface_of_update _ _ _ _ _ _ _ _ S M U) as [w [c1 [-> [E ->]]]].
  unfold surface in E. destruct (capillary p (process_scanning sw) t0 fuel c) as [c2|] eqn:F; [|discriminate]. inversion E; subst.
  apply capillary_between in F. destruct (process_salt sw); exact F.
Qed.
Lemma c38_flags sw p fuel file dt c c' : process_moist sw = true -> moist_method sw = SurfMoisture -> process_scanning sw = true ->
  update sw p false fuel file dt c = Ok (Some c') -> ~ (scan_w c' = true /\ scan_d c' = true).
Proof.
  intros S M P U. destruct (surface_of_update _ _ _ _ _ _ _ _ S M U) as [w [c1 [-> [E ->]]]]. rewrite P in E.
  unfold surface in E. destruct (capillary p true false fuel c) as [c2|] eqn:F; [|discriminate]. inversion E; subst.
  apply capillary_flags in F. destruct (process_salt sw); exact F.
Qed.
Lemma c38_order p h : sound_curves p -> nw p = nd p -> mw p = md p -> resw p <= resd p -> satw p <= satd p -> Rabs (alfad p) <= Rabs (alfaw p) ->
  wet_curve p h <= dry_curve p h.
Proof.
  intros [A [B [C [D [E [F [G H]]]]]]] n m r s a. unfold wet_curve, dry_curve. rewrite n, m. apply curve_order; lra.
Qed.
Definition matched_soil : soil :=
  {| porosity := 4 / 10; eps := 1 / 1000; Tdry := 5400; Tsalt := 2592000; fc := 11 / 100; thick := 2 / 1000; salt_thick := 1 / 100; cpair := 10035 / 10000000; z := 10;
     resw := 1 / 100; satw := 35 / 100; alfaw := 70 / 1000; nw := 2; mw := 1; resd := 1 / 100; satd := 5 / 10; alfad := 35 / 1000; nd := 2; md := 1 |}.
Lemma sound_matched : sound_curves matched_soil.
Proof. unfold sound_curves; cbn. lra. Qed.
Lemma sound_default : sound_curves default_soil.
Proof. unfold sound_curves; cbn. lra. Qed.
Lemma case_order : sound_curves matched_soil /\ nw matched_soil = nd matched_soil /\ mw matched_soil = md matched_soil /\ Rabs (alfad matched_soil) <= Rabs (alfaw matched_soil)
  /\ wet_curve matched_soil 100 < dry_curve matched_soil 100.
Proof.
  split; [apply sound_matched|]. split; [reflexivity|]. split; [reflexivity|]. cbn [alfad alfaw matched_soil]. rewrite !Rabs_right by lra. split; [lra|].
  unfold wet_curve, dry_curve, curve. cbn [resw satw alfaw nw mw resd satd alfad nd md matched_soil].
  rewrite (Rabs_right (70 / 1000 * 100)) by lra. rewrite (Rabs_right (35 / 1000 * 100)) by lra.
  assert (P : forall x, 0 < x -> pw (1 + pw x 2) 1 = 1 + x * x).
  { intros. unfold pw at 2. destruct (Rlt_dec 0 x); [|lra]. replace 2 with (INR 2) by (cbn; lra). rewrite Rpower_pow by auto.
    unfold pw. assert (0 < 1 + x ^ 2) by (cbn; assert (0 < x * (x * 1)) by (apply Rmult_lt_0_compat; lra); lra).
    destruct (Rlt_dec 0 (1 + x ^ 2)); [|lra]. rewrite Rpower_1 by auto. ring. }
  rewrite !P by lra. lra.
Qed.
(** Powers of two. *)
Lemma power_of_two k y : Rpower (2 ^ k) y = Rpower 2 (INR k * y).
Proof. rewrite <- Rpower_pow by lra. apply Rpower_mult. Qed.
Lemma c38_crossing : exists h, 0 < h /\ dry_curve default_soil h < wet_curve default_soil h.
Proof.
  exists (3200 / 7). split; [lra|]. unfold wet_curve, dry_curve, curve. cbn [resw satw alfaw nw mw resd satd alfad nd md default_soil].
  replace (Rabs (- (70 / 1000) * (3200 / 7))) with 32 by (rewrite Rabs_left; lra).
  replace (Rabs (- (35 / 1000) * (3200 / 7))) with 16 by (rewrite Rabs_left; lra).
  assert (A : pw (1 + pw 32 (23 / 10)) (57 / 100) <= Rpower 2 (684 / 100)).
  { unfold pw at 2. destruct (Rlt_dec 0 32); [|lra]. replace 32 with (2 ^ 5) by ring. rewrite power_of_two.
    replace (INR 5 * (23 / 10)) with (INR 11 + 1 / 2) by (cbn; lra). rewrite Rpower_plus, Rpower_pow by lra.
    replace (1 / 2) with (/ 2) by field. rewrite Rpower_sqrt by lra.
    assert (S : sqrt 2 <= 3 / 2). { replace (3 / 2) with (sqrt ((3 / 2) * (3 / 2))) by (apply sqrt_square; lra). apply sqrt_le_1_alt. lra. }
    pose proof (sqrt_pos 2).
    assert (E : Rpower 2 (684 / 100) = pw (2 ^ 12) (57 / 100)).
    { unfold pw. destruct (Rlt_dec 0 (2 ^ 12)) as [|N]; [|exfalso; apply N; cbn; lra]. rewrite power_of_two. f_equal. cbn. lra. }
    rewrite E. apply pw_mono; [|cbn; lra|lra]. cbn. lra. }
  assert (D : Rpower 2 (756 / 100) <= pw (1 + pw 16 (45 / 10)) (42 / 100)).
  { unfold pw at 2. destruct (Rlt_dec 0 16); [|lra]. replace 16 with (2 ^ 4) by ring. rewrite power_of_two.
    replace (INR 4 * (45 / 10)) with (INR 18) by (cbn; lra). rewrite Rpower_pow by lra.
    assert (E : Rpower 2 (756 / 100) = pw (2 ^ 18) (42 / 100)).
    { unfold pw. destruct (Rlt_dec 0 (2 ^ 18)) as [|N]; [|exfalso; apply N; cbn; lra]. rewrite power_of_two. f_equal. cbn. lra. }
    rewrite E. apply pw_mono; [cbn; lra|lra|lra]. }
  assert (Q : 3 / 2 * Rpower 2 (684 / 100) < Rpower 2 (756 / 100)).
  { assert (T : 3 / 2 < Rpower 2 (2 / 3)).
    { replace (3 / 2) with (Rpower ((3 / 2) ^ 3) (1 / 3)).
      - replace (Rpower 2 (2 / 3)) with (Rpower (2 ^ 2) (1 / 3)) by (rewrite power_of_two; f_equal; cbn; lra).
        unfold Rpower. apply exp_increasing. apply Rmult_lt_compat_l; [lra|]. apply ln_increasing; cbn; lra.
      - rewrite <- Rpower_pow by lra. rewrite Rpower_mult. replace (INR 3 * (1 / 3)) with 1 by (cbn; lra). apply Rpower_1. lra. }
    assert (T2 : Rpower 2 (2 / 3) <= Rpower 2 (72 / 100)) by (apply Rle_Rpower; lra).
    replace (756 / 100) with (72 / 100 + 684 / 100) by lra. rewrite Rpower_plus. apply Rmult_lt_compat_r; [apply exp_pos|lra]. }
  assert (AP : 0 < pw (1 + pw 32 (23 / 10)) (57 / 100)) by (apply pw_pos; pose proof (pw_nonneg 32 (23 / 10)); lra).
  set (a := pw (1 + pw 32 (23 / 10)) (57 / 100)) in *. set (d := pw (1 + pw 16 (45 / 10)) (42 / 100)) in *.
  assert (M : 3 / 2 * a < d) by lra.
  apply Rplus_lt_compat_l. apply Rmult_lt_reg_r with (a * d); [apply Rmult_lt_0_compat; lra|].
  replace ((5 / 10 - 1 / 100) / d * (a * d)) with (49 / 100 * a) by (field; lra).
  replace ((35 / 100 - 1 / 100) / a * (a * d)) with (34 / 100 * d) by (field; lra). lra.
Qed.

(** ** C39 and C74 *)
Lemma c39_scalar H T b : 0 <= setup_of (runup_scalar H T b) /\ 0 <= swash_of (runup_scalar H T b) /\ 0 <= runup_of (runup_scalar H T b).
Proof. apply scalar_nonneg. Qed.
Lemma wavelength_1 : 0 < wavelength 1.
Proof. apply wavelength_pos; lra. Qed.
Lemma iribarren_scaled L k b : 0 < L -> 0 < k -> iribarren (L / (k * k)) L b = b * k.
Proof.
  intros. unfold iribarren. destruct (Req_EM_T L 0); [lra|]. replace (L / (k * k) / L) with (/ k * / k) by (field; lra).
  rewrite sqrt_square; [field; lra|left; apply Rinv_0_lt_compat; auto].
Qed.
Lemma c39_limit : exists H T b, 0 < H /\ 0 < T /\ 0 < b /\ runup_of (runup_array H T b) = 0 /\ 0 < runup_of (runup_scalar H T b).
Proof.
  pose proof wavelength_1 as L. exists (wavelength 1 / (3 * 3)), 1, (1 / 10).
  assert (P : 0 < wavelength 1 / (3 * 3)) by (apply quot_pos; lra).
  assert (I : iribarren (wavelength 1 / (3 * 3)) (wavelength 1) (1 / 10) = 3 / 10) by (rewrite iribarren_scaled; lra).
  split; [auto|]. split; [lra|]. split; [lra|]. split.
  - unfold runup_array. rewrite I. assert (K : gtb (3 / 10) (3 / 10) = false) by (apply gtb_false; lra). rewrite K, Bool.andb_false_r. reflexivity.
  - unfold runup_scalar. rewrite I. assert (K : gtb (3 / 10) (3 / 10) = false) by (apply gtb_false; lra). rewrite K.
    apply gtb_spec in P as P'. rewrite P'. assert (K1 : gtb 1 0 = true) by (apply gtb_spec; lra). assert (K2 : gtb (1 / 10) 0 = true) by (apply gtb_spec; lra). rewrite K1, K2. cbn [andb].
    unfold reflective, runup_of. cbn [snd].
    pose proof (sqrt_pos (wavelength 1 / (3 * 3) * wavelength 1 * (563 / 1000 * (1 / 10 * (1 / 10)) + 4 / 10000))).
    assert (0 < sqrt (wavelength 1 / (3 * 3) * wavelength 1)) by (apply sqrt_lt_R0; apply Rmult_lt_0_compat; auto). lra.
Qed.
Lemma c39_flat : exists H T, 0 < H /\ 0 < T /\ runup_of (runup_scalar H T 0) = 0 /\ 0 < runup_of (runup_array H T 0).
Proof.
  pose proof wavelength_1 as L. exists 1, 1. split; [lra|]. split; [lra|]. split.
  - unfold runup_scalar. assert (K : gtb 0 0 = false) by (apply gtb_false; lra). rewrite K, Bool.andb_false_r. reflexivity.
  - unfold runup_array. assert (I : iribarren 1 (wavelength 1) 0 = 0) by (unfold iribarren; destruct (Req_EM_T (wavelength 1) 0); [auto|unfold Rdiv; ring]). rewrite I.
    assert (K1 : gtb 1 0 = true) by (apply gtb_spec; lra). assert (K2 : gtb (3 / 10) 0 = true) by (apply gtb_spec; lra). assert (K3 : gtb 0 (3 / 10) = false) by (apply gtb_false; lra).
    rewrite K1, K2, K3. cbn [andb]. unfold dissipative, runup_of. cbn [snd]. apply Rmult_lt_0_compat; [lra|]. apply sqrt_lt_R0. lra.
Qed.
Lemma case_runup : iribarren (wavelength 1 / (4 * 4)) (wavelength 1) (1 / 10) = 4 / 10 /\ runup_array (wavelength 1 / (4 * 4)) 1 (1 / 10) = runup_scalar (wavelength 1 / (4 * 4)) 1 (1 / 10)
  /\ 0 < runup_of (runup_scalar (wavelength 1 / (4 * 4)) 1 (1 / 10)).
Proof.
  pose proof wavelength_1 as L. assert (I : iribarren (wavelength 1 / (4 * 4)) (wavelength 1) (1 / 10) = 4 / 10) by (rewrite iribarren_scaled; lra).
  split; [auto|]. split; [apply scalar_array; try lra; rewrite I; lra|].
  assert (P : 0 < wavelength 1 / (4 * 4)) by (apply quot_pos; lra).
  unfold runup_scalar. rewrite I. assert (K : gtb (3 / 10) (4 / 10) = false) by (apply gtb_false; lra). rewrite K.
  apply gtb_spec in P as P'. rewrite P'. assert (K1 : gtb 1 0 = true) by (apply gtb_spec; lra). assert (K2 : gtb (1 / 10) 0 = true) by (apply gtb_spec; lra). rewrite K1, K2. cbn [andb].
  unfold reflective, runup_of. cbn [snd].
  pose proof (sqrt_pos (wavelength 1 / (4 * 4) * wavelength 1 * (563 / 1000 * (1 / 10 * (1 / 10)) + 4 / 10000))).
  assert (0 < sqrt (wavelength 1 / (4 * 4) * wavelength 1)) by (apply sqrt_lt_R0; apply Rmult_lt_0_compat; auto). lra.
Qed.
(** The values in the two regimes, for a height L / k^2. *)
Lemma root_scaled L k : 0 < L -> 0 < k -> sqrt (L / (k * k) * L) = L / k.
Proof. intros. replace (L / (k * k) * L) with (L / k * (L / k)) by (field; lra). apply sqrt_square. left. apply quot_pos; auto. Qed.
Lemma scalar_dissipative L T k b : L = wavelength T -> 0 < T -> 0 < k -> 0 < b -> b * k < 3 / 10 -> runup_of (runup_scalar (L / (k * k)) T b) = 43 / 1000 * (L / k).
Proof.
  intros EL PT Pk Pb I. assert (L0 : 0 < L) by (subst; apply wavelength_pos; auto). unfold runup_scalar. rewrite <- EL, iribarren_scaled by auto.
  assert (P : 0 < L / (k * k)) by (apply quot_pos; auto; apply Rmult_lt_0_compat; auto).
  apply gtb_spec in P. apply gtb_spec in PT. apply gtb_spec in Pb as Pb'. apply gtb_spec in I. rewrite P, PT, Pb', I. cbn [andb].
  unfold dissipative, runup_of. cbn [snd]. rewrite root_scaled by auto. auto.
Qed.
Lemma scalar_reflective L T k b s : L = wavelength T -> 0 < T -> 0 < k -> 0 < b -> 3 / 10 <= b * k -> 0 <= s -> s * s = 563 / 1000 * (b * b) + 4 / 10000 ->
  runup_of (runup_scalar (L / (k * k)) T b) = 11 / 10 * (35 / 100 * b + s / 2) * (L / k).
Proof.
  intros EL PT Pk Pb I Ps Es. assert (L0 : 0 < L) by (subst; apply wavelength_pos; auto). unfold runup_scalar. rewrite <- EL, iribarren_scaled by auto.
  assert (P : 0 < L / (k * k)) by (apply quot_pos; auto; apply Rmult_lt_0_compat; auto).
  apply gtb_spec in P. apply gtb_spec in PT. apply gtb_spec in Pb as Pb'. apply gtb_false in I. rewrite P, PT, Pb', I. cbn [andb].
  unfold reflective, runup_of. cbn [snd]. rewrite root_scaled, <- Es by auto.
  replace (L / (k * k) * L * (s * s)) with ((L / k * s) * (L / k * s)) by (field; lra).
  rewrite sqrt_square; [field; lra|]. apply Rmult_le_pos; auto. left. apply quot_pos; auto.
Qed.
Lemma c74_height : exists H1 H2 T b, 0 < H1 < H2 /\ 0 < T /\ b = 1 / 10 /\ runup_of (runup_scalar H2 T b) < 2 / 3 * runup_of (runup_scalar H1 T b).
Proof.
  pose proof wavelength_1 as L. exists (wavelength 1 / (32 / 10 * (32 / 10))), (wavelength 1 / (28 / 10 * (28 / 10))), 1, (1 / 10).
  split; [split; [apply quot_pos; lra|apply Rmult_lt_compat_l; [lra|apply Rinv_lt_contravar; lra]]|]. split; [lra|]. split; [reflexivity|].
  rewrite (scalar_dissipative _ _ (28 / 10)) by (auto; lra).
  assert (S1 : 0 <= sqrt (563 / 1000 * (1 / 10 * (1 / 10)) + 4 / 10000)) by apply sqrt_pos.
  assert (S2 : sqrt (563 / 1000 * (1 / 10 * (1 / 10)) + 4 / 10000) * sqrt (563 / 1000 * (1 / 10 * (1 / 10)) + 4 / 10000) = 563 / 1000 * (1 / 10 * (1 / 10)) + 4 / 10000) by (apply sqrt_sqrt; lra).
  rewrite (scalar_reflective _ _ (32 / 10) _ (sqrt (563 / 1000 * (1 / 10 * (1 / 10)) + 4 / 10000))) by (auto; lra).
  assert (S3 : 7 / 100 <= sqrt (563 / 1000 * (1 / 10 * (1 / 10)) + 4 / 10000)).
  { replace (7 / 100) with (sqrt (7 / 100 * (7 / 100))) by (apply sqrt_square; lra). apply sqrt_le_1_alt. lra. }
  set (s := sqrt (563 / 1000 * (1 / 10 * (1 / 10)) + 4 / 10000)) in *. set (w := wavelength 1) in *.
  apply Rlt_le_trans with (2 / 3 * (11 / 10 * (35 / 100 * (1 / 10) + 7 / 100 / 2) * (w / (32 / 10)))); [lra|].
  apply Rmult_le_compat_l; [lra|]. apply Rmult_le_compat_r; lra.
Qed.
Lemma wavelength_scale T k : wavelength (k * T) = k * k * wavelength T.
Proof. unfold wavelength. field. apply PI_neq0. Qed.
Lemma c74_period : exists H T1 T2 b, 0 < H /\ 0 < T1 < T2 /\ b = 2 / 100 /\ runup_of (runup_scalar H T2 b) < 3 / 4 * runup_of (runup_scalar H T1 b).
Proof.
  pose proof wavelength_1 as L. exists (wavelength 1 / (14 * 14)), 1, (8 / 7), (2 / 100).
  split; [apply quot_pos; lra|]. split; [lra|]. split; [reflexivity|].
  rewrite (scalar_dissipative (wavelength 1) 1 14) by (auto; lra).
  assert (W : wavelength (8 / 7) = 8 / 7 * (8 / 7) * wavelength 1) by (rewrite <- wavelength_scale; f_equal; lra).
  replace (wavelength 1 / (14 * 14)) with (wavelength (8 / 7) / (16 * 16)) by (rewrite W; field).
  assert (P8 : 0 < wavelength (8 / 7)) by (apply wavelength_pos; lra).
  set (s := sqrt (563 / 1000 * (2 / 100 * (2 / 100)) + 4 / 10000)).
  assert (S1 : 0 <= s) by apply sqrt_pos.
  assert (S2 : s * s = 563 / 1000 * (2 / 100 * (2 / 100)) + 4 / 10000) by (apply sqrt_sqrt; lra).
  rewrite (scalar_reflective _ _ 16 _ s) by (auto; lra). rewrite W.
  assert (S3 : s <= 252 / 10000).
  { unfold s. replace (252 / 10000) with (sqrt (252 / 10000 * (252 / 10000))) by (apply sqrt_square; lra). apply sqrt_le_1_alt. lra. }
  set (w := wavelength 1) in *.
  apply Rle_lt_trans with (11 / 10 * (35 / 100 * (2 / 100) + 252 / 10000 / 2) * (8 / 7 * (8 / 7) * w / 16)); [|lra].
  apply Rmult_le_compat_r; lra.
Qed.
Lemma case_mono : runup_of (runup_scalar (wavelength 1 / (5 * 5)) 1 (1 / 10)) < runup_of (runup_scalar (wavelength 1 / (4 * 4)) 1 (1 / 10))
  /\ 3 / 10 <= iribarren (wavelength 1 / (4 * 4)) (wavelength 1) (1 / 10).
Proof.
  pose proof wavelength_1 as L. split; [|rewrite iribarren_scaled; lra].
  set (s := sqrt (563 / 1000 * (1 / 10 * (1 / 10)) + 4 / 10000)). assert (S1 : 0 <= s) by apply sqrt_pos.
  assert (S2 : s * s = 563 / 1000 * (1 / 10 * (1 / 10)) + 4 / 10000) by (apply sqrt_sqrt; lra).
  rewrite (scalar_reflective _ _ 4 _ s), (scalar_reflective _ _ 5 _ s) by (auto; lra). apply Rmult_lt_compat_l; lra.
Qed.

(** ** C72 *)
Lemma c72_split sw p t0 t1 fuel f1 f2 a b c c1 c2 : process_moist sw = true -> moist_method sw = Infiltration -> 0 < Tdry p -> 0 <= a -> 0 <= b -> dry p c -> 0 <= moist c <= porosity p ->
  update sw p t0 fuel f1 a c = Ok (Some c1) -> update sw p t1 fuel f2 b c1 = Ok (Some c2) ->
  update sw p t0 fuel f1 (a + b) c = Ok (Some c2) /\ (a + b = Tdry p -> moist c2 = moist c / 2).
Proof.
  intros S M HT Ha Hb D R U1 U2. unfold update in *. rewrite S, M in *. cbn [bind] in *.
  assert (N : process_salt sw = false). { destruct (process_salt sw); auto. unfold meteo in U1. rewrite S, M in U1. cbn [bind] in U1. discriminate. }
  rewrite N in *. inversion U1; subst c1; clear U1. inversion U2; subst c2; clear U2.
  pose proof (decay_pos (Tdry p) a). pose proof (decay_le_1 (Tdry p) a HT Ha).
  assert (R1 : infiltrate p a c = moist c * decay (Tdry p) a) by (apply infiltrate_dry; auto).
  assert (R2 : infiltrate p b (with_moist c (infiltrate p a c)) = moist c * decay (Tdry p) a * decay (Tdry p) b).
  { rewrite infiltrate_dry; auto; cbn [moist with_moist]; [rewrite R1; auto|]. rewrite R1.
    assert (0 <= moist c * decay (Tdry p) a) by (apply Rmult_le_pos; lra). assert (moist c * decay (Tdry p) a <= moist c * 1) by (apply Rmult_le_compat_l; lra). lra. }
  assert (R3 : infiltrate p (a + b) c = moist c * decay (Tdry p) a * decay (Tdry p) b) by (rewrite infiltrate_dry; auto; [rewrite decay_add; ring|lra]).
  split.
  - rewrite R3, R2. reflexivity.
  - intros E. cbn [moist with_moist]. rewrite R2, Rmult_assoc, <- decay_add, E, decay_half by auto. lra.
Qed.
Lemma c72_drain p a b m : 0 < Tdry p -> 0 <= a -> 0 <= b ->
  drain p b (drain p a m) = drain p (a + b) m /\ (fc p <= m -> drain p (Tdry p) m - fc p = (m - fc p) / 2) /\ (m <= fc p -> drain p a m = m).
Proof.
  intros. split; [apply drain_split; auto|]. split; intros.
  - rewrite drain_above, decay_half by lra. lra.
  - apply drain_below; auto.
Qed.
Lemma case_drain : drain default_soil 5400 (31 / 100) = 21 / 100.
Proof. rewrite drain_above; cbn [Tdry fc default_soil]; try lra. rewrite decay_half; lra. Qed.

(** ** C73 *)
Lemma hdelta_reversing p fuel c : reversing c -> hdelta p fuel c = Some (reversal_to_dry p (scan_w_moist c) (w_h c) (d_h c)).
Proof.
  intros [A [B C]]. unfold hdelta. apply gtb_spec in C. rewrite A, B, C. cbn [andb negb]. rewrite Bool.andb_false_r. reflexivity.
Qed.
Lemma c73_continuous p fuel c : 0 < alfaw p -> 0 < nw p -> 0 < mw p -> w_h c < d_h c -> 1 / 10000 <= satd p - w_h c -> reversing c ->
  resw p + 1 / 100000 <= (scan_w_moist c - w_h c) * (satd p - w_h c) / (d_h c - w_h c) + w_h c <= satw p ->
  exists h, hdelta p fuel c = Some h /\ scan_d_raw p (w_h c) (d_h c) (wet_curve p h) = scan_w_moist c.
Proof.
  intros. exists (reversal_to_dry p (scan_w_moist c) (w_h c) (d_h c)). split; [apply hdelta_reversing; auto|]. apply reversal_continuous; auto.
Qed.
Definition turning_cell : cell :=
  {| moist := 2 / 10; TWL := 0; zb := 1; gw := 0; gw_prev := 1 / 10; uw := 8; wetting := true; scan_w := true; scan_d := false; h_delta := 40;
     w_h := 1 / 10; d_h := 3 / 10; scan_w_moist := 12 / 100; scan_d_moist := 1 / 10; moist_swr := 12 / 100; salt := 0 |}.
Lemma case_continuous : 0 < alfaw matched_soil /\ reversing turning_cell /\
  resw matched_soil + 1 / 100000 <= (scan_w_moist turning_cell - w_h turning_cell) * (satd matched_soil - w_h turning_cell) / (d_h turning_cell - w_h turning_cell) + w_h turning_cell <= satw matched_soil.
Proof. unfold reversing; cbn. repeat split; lra. Qed.
Lemma c73_negative p fuel c : alfaw p < 0 -> reversing c -> hdelta p fuel c = Some 0.
Proof. intros. rewrite hdelta_reversing by auto. rewrite reversal_negative; auto. Qed.
Lemma case_negative : alfaw default_soil < 0 /\ reversing turning_cell.
Proof. unfold reversing; cbn. repeat split; lra. Qed.
Lemma wet_curve_0 p : wet_curve p 0 = satw p.
Proof.
  unfold wet_curve, curve. rewrite Rmult_0_r, Rabs_R0. assert (E : pw 0 (nw p) = 0) by (unfold pw; destruct (Rlt_dec 0 0); lra).
  rewrite E, Rplus_0_r, pw_1. field.
Qed.
Lemma c73_jump : exists c h, reversing c /\ w_h c < d_h c /\ hdelta default_soil 0 c = Some h /\ scan_w_moist c + 1 / 10 < limited (w_h c) (d_h c) (scan_d_raw default_soil (w_h c) (d_h c) (wet_curve default_soil h)).
Proof.
  exists turning_cell, 0. split; [unfold reversing; cbn; repeat split; lra|]. split; [cbn; lra|].
  split; [apply c73_negative; [cbn; lra|unfold reversing; cbn; repeat split; lra]|]. rewrite wet_curve_0.
  unfold limited, scan_d_raw. cbn [w_h d_h scan_w_moist turning_cell satd satw default_soil].
  rewrite (Rmax_left (5 / 10 - 1 / 10)) by lra. rewrite Rmin_left by lra. rewrite Rmax_left; lra.
Qed.
Lemma hdelta_resuming p fuel c : resuming c -> hdelta p fuel c = search p (w_h c) (scan_d_moist c) fuel 1 0.
Proof. intros [A [B C]]. unfold hdelta. apply gtb_spec in C. rewrite A, B, C. reflexivity. Qed.
Lemma gap_of_scan p c h : scan_gap p (w_h c) (scan_d_moist c) h = scan_w_raw p (w_h c) (d_h c) (wet_curve p h) (dry_curve p h) - scan_d_moist c.
Proof. reflexivity. Qed.
Lemma c73_search p fuel c h : resuming c -> hdelta p fuel c = Some h ->
  exists k, (1 <= k)%nat /\ h = tried k /\ scan_w_raw p (w_h c) (d_h c) (wet_curve p h) (dry_curve p h) <= scan_d_moist c + 1 / 100 /\
    forall i, (1 <= i < k)%nat -> scan_d_moist c + 1 / 100 < scan_w_raw p (w_h c) (d_h c) (wet_curve p (tried i)) (dry_curve p (tried i)).
Proof.
  intros R E. rewrite hdelta_resuming in E by auto. replace 0 with (tried 0) in E by (unfold tried; cbn; field).
  apply search_sound in E. destruct E as [[N _]|[_ [j [K [-> [G O]]]]]]; [lra|].
  exists j. split; [lia|]. split; [auto|]. rewrite gap_of_scan in G. split; [lra|].
  intros i I. specialize (O i ltac:(lia)). rewrite gap_of_scan in O. lra.
Qed.
Lemma c73_ends p c : sound_curves p -> resd p <= resw p -> consistent p c -> exists fuel c', capillary p true false fuel c = Some c' /\ consistent p c'.
Proof.
  intros S R C. destruct (hdelta_ends p c S R C) as [fuel [h E]]. exists fuel.
  destruct (capillary p true false fuel c) as [c'|] eqn:F.
  - exists c'. split; auto. eapply capillary_consistent; eauto.
  - unfold capillary in F. rewrite E in F. destruct (swr_curve p c _ _ _ _) as [[m d] w]. discriminate.
Qed.
Definition rising_cell : cell :=
  {| moist := 2 / 10; TWL := 0; zb := 1; gw := 0; gw_prev := - (1 / 10); uw := 8; wetting := false; scan_w := false; scan_d := true; h_delta := 40;
     w_h := 5 / 100; d_h := 3 / 10; scan_w_moist := 12 / 100; scan_d_moist := 5 / 100; moist_swr := 12 / 100; salt := 0 |}.
Lemma case_ends : sound_curves default_soil /\ resd default_soil <= resw default_soil /\ consistent default_soil rising_cell /\ resuming rising_cell.
Proof. split; [apply sound_default|]. unfold consistent, resuming; cbn. repeat split; lra. Qed.
Definition parallel_soil : soil :=
  {| porosity := 4 / 10; eps := 1 / 1000; Tdry := 5400; Tsalt := 2592000; fc := 11 / 100; thick := 2 / 1000; salt_thick := 1 / 100; cpair := 10035 / 10000000; z := 10;
     resw := 0; satw := 4 / 10; alfaw := 1 / 10; nw := 2; mw := 1; resd := 1 / 10; satd := 5 / 10; alfad := 1 / 10; nd := 2; md := 1 |}.
Lemma parallel_gap h : 1 / 100 < scan_gap parallel_soil (5 / 100) (5 / 100) h.
Proof.
  unfold scan_gap. assert (W := curve_range 0 (4 / 10) (1 / 10) 2 1 h ltac:(lra) ltac:(lra)).
  assert (E : dry_curve parallel_soil h - wet_curve parallel_soil h = 1 / 10).
  { unfold dry_curve, wet_curve, curve. cbn [resw satw alfaw nw mw resd satd alfad nd md parallel_soil]. pose proof (curve_factor 2 1 (Rabs (1 / 10 * h)) ltac:(lra)) as F.
    unfold Rdiv in *. set (k := / pw (1 + pw (Rabs (1 * / 10 * h)) 2) 1) in *. lra. }
  rewrite E. cbn [satw parallel_soil]. fold (wet_curve parallel_soil h) in W. unfold wet_curve in *. cbn [resw satw alfaw nw mw parallel_soil] in *.
  set (w := curve 0 (4 / 10) (1 / 10) 2 1 h) in *.
  assert (M : 0 < Rmax (4 / 10 - w) (1 / 10000) <= 4 / 10) by (split; [eapply Rlt_le_trans; [|apply Rmax_r]; lra|apply Rmax_lub; lra]).
  set (mx := Rmax (4 / 10 - w) (1 / 10000)) in *.
  assert (/ (4 / 10) <= / mx) by (apply Rinv_le_contravar; lra).
  assert ((4 / 10 - 5 / 100) * / (4 / 10) <= (4 / 10 - 5 / 100) * / mx) by (apply Rmult_le_compat_l; lra). unfold Rdiv in *. lra.
Qed.
Lemma parallel_search fuel F h : 1 / 100 < F -> search parallel_soil (5 / 100) (5 / 100) fuel F h = None.
Proof.
  revert F h. induction fuel as [|fuel IH]; intros F h G; apply gtb_spec in G; cbn [search]; rewrite G; auto. apply IH. apply parallel_gap.
Qed.
Lemma c73_endless : exists p c, sound_curves p /\ consistent p c /\ forall fuel, capillary p true false fuel c = None.
Proof.
  exists parallel_soil, rising_cell. split; [unfold sound_curves; cbn; lra|]. split; [unfold consistent; cbn; lra|]. intros fuel.
  unfold capillary. rewrite hdelta_resuming by (unfold resuming; cbn; repeat split; lra). cbn [w_h scan_d_moist rising_cell]. rewrite parallel_search; auto. lra.
Qed.

(** ** C75 *)
Lemma capillary_salt p sc t0 fuel c c' : capillary p sc t0 fuel c = Some c' -> salt c' = salt c.
Proof.
  unfold capillary. destruct sc; [destruct t0|]; intros E; [inversion E; auto| |inversion E; auto].
  destruct (hdelta p fuel c); [|discriminate]. destruct (swr_curve p c _ _ _ _) as [[m d] w]. inversion E; auto.
Qed.
Lemma c75_salt sw p t0 fuel w dt c c' : process_moist sw = true -> moist_method sw = SurfMoisture -> process_salt sw = true ->
  0 <= rain w -> 0 <= dt -> 0 < salt_thick p -> 0 < Tsalt p -> 0 <= salt c <= 1 ->
  update sw p t0 fuel (Some w) dt c = Ok (Some c') ->
  0 <= salt c' <= 1 /\ (zb c < TWL c -> salt c' = 1) /\ (TWL c <= zb c -> rain w = 0 -> salt c' = salt c * decay (Tsalt p) dt).
Proof.
  intros S M Z HR HD HL HT HS U. destruct (surface_of_update _ _ _ _ _ _ _ _ S M U) as [w' [c1 [W [E ->]]]]. inversion W; subst w'. rewrite Z. cbn [salt with_salt].
  assert (Q : salt c1 = salt c).
  { unfold surface in E. destruct (capillary p (process_scanning sw) t0 fuel c) as [c2|] eqn:F; [|discriminate]. inversion E; subst. cbn [salt with_moist]. eapply capillary_salt; eauto. }
  rewrite Q. split; [apply salt_range; auto; lra|]. unfold soaked. split; intros G.
  - apply gtb_spec in G. rewrite G. apply salt_flooded; auto.
  - intros R0. apply gtb_false in G. rewrite G. apply salt_dry; auto.
Qed.
Lemma case_salt : exists c', update (surface_on false true) default_soil false 0 (Some fair) 2592000 (some_cell (1 / 10) 0 1) = Ok (Some c') /\ salt c' = 1 / 4.
Proof.
  eexists. split; [reflexivity|]. cbn [salt with_moist with_salt].
  assert (E : soaked (some_cell (1 / 10) 0 1) = false) by (unfold soaked; cbn; apply gtb_false; lra). rewrite E.
  rewrite salt_dry; cbn; try lra. rewrite decay_half; lra.
Qed.

Lemma case_rain : rain fair < 1 /\ 0 < salt_thick default_soil.
Proof. cbn. lra. Qed.

(** ** C76 *)
Lemma c76_evaporation p w u v : ordinary w -> 0 < cpair p -> 2 < z p -> 0 <= u -> u <= v -> 0 <= evaporation p w u <= evaporation p w v.
Proof. intros. split; [apply evaporation_nonneg|apply evaporation_mono]; auto. Qed.
Lemma case_evaporation : ordinary fair /\ 0 < cpair default_soil /\ 2 < z default_soil.
Proof. unfold ordinary; cbn. lra. Qed.
Lemma c76_low : exists p w u, ordinary w /\ 0 < cpair p /\ 0 < z p /\ 0 <= u /\ evaporation p w u < 0.
Proof.
  exists {| porosity := 4 / 10; eps := 1 / 1000; Tdry := 5400; Tsalt := 2592000; fc := 11 / 100; thick := 2 / 1000; salt_thick := 1 / 100; cpair := 10035 / 10000000; z := 1;
     resw := 1 / 100; satw := 35 / 100; alfaw := - (70 / 1000); nw := 23 / 10; mw := 57 / 100;
     resd := 1 / 100; satd := 5 / 10; alfad := - (35 / 1000); nd := 45 / 10; md := 42 / 100 |}, {| temp := 20; rad := 0; pres := 101; hum := 60; rain := 0 |}, 10.
  split; [unfold ordinary; cbn; lra|]. cbn [cpair z]. split; [lra|]. split; [lra|]. split; [lra|].
  apply evaporation_negative; cbn; try lra. unfold ordinary; cbn; lra.
Qed.

(** ** C77 *)
Lemma c77_runs sw p t0 fuel file dt c : process_salt sw = false -> process_moist sw = false \/ moist_method sw = Infiltration ->
  exists c', update sw p t0 fuel file dt c = Ok (Some c').
Proof.
  intros Z D. unfold update. destruct (process_moist sw); [destruct D as [D|D]; [discriminate|]; rewrite D|]; cbn [bind]; rewrite Z; eauto.
Qed.
Lemma c77_surface_runs sw p t0 w dt c : process_moist sw = true -> moist_method sw = SurfMoisture -> groundwater_param sw <> None ->
  sound_curves p -> resd p <= resw p -> consistent p c -> exists fuel c', update sw p t0 fuel (Some w) dt c = Ok (Some c').
Proof.
  intros S M G SC R C. assert (K : exists fuel c1, capillary p (process_scanning sw) t0 fuel c = Some c1).
  { unfold capillary. destruct (process_scanning sw); [destruct t0|]; [exists 0%nat; eauto| |exists 0%nat; eauto].
    destruct (hdelta_ends p c SC R C) as [fuel [h E]]. exists fuel. rewrite E. destruct (swr_curve p c _ _ _ _) as [[m d] x]. eauto. }
  destruct K as [fuel [c1 K]]. exists fuel. unfold update, meteo, surface. rewrite S, M. destruct (groundwater_param sw); [|congruence]. cbn [bind]. rewrite K.
  destruct (process_salt sw); cbn [bind]; eauto.
Qed.
Lemma c77_unknown sw p t0 fuel file dt c : process_moist sw = true -> moist_method sw = OtherMethod -> update sw p t0 fuel file dt c = Raise ValueError.
Proof. intros S M. unfold update. rewrite S, M. reflexivity. Qed.
Lemma c77_salt sw p t0 fuel file dt c : process_salt sw = true -> process_moist sw = false \/ moist_method sw = Infiltration -> update sw p t0 fuel file dt c = Raise KeyError.
Proof.
  intros Z D. unfold update, meteo. destruct (process_moist sw); [destruct D as [D|D]; [discriminate|]; rewrite D|]; cbn [bind]; rewrite Z; reflexivity.
Qed.
Lemma c77_groundwater : exists sw p file c c', groundwater_param sw = Some false /\ moist_method sw = SurfMoisture /\ update sw p false 0 file 3600 c = Ok (Some c').
Proof.
  exists {| process_moist := true; moist_method := SurfMoisture; groundwater_param := Some false; process_scanning := false; process_salt := false |}, default_soil, (Some fair), (some_cell (1 / 10) 2 1).
  eexists. split; [reflexivity|]. split; reflexivity.
Qed.
Lemma case_surface_runs : process_moist (surface_on true true) = true /\ moist_method (surface_on true true) = SurfMoisture /\ groundwater_param (surface_on true true) <> None /\
  sound_curves default_soil /\ resd default_soil <= resw default_soil /\ consistent default_soil rising_cell.
Proof. split; [reflexivity|]. split; [reflexivity|]. split; [discriminate|]. split; [apply sound_default|]. split; [cbn; lra|]. unfold consistent; cbn; lra. Qed.
Lemma case_unknown : exists sw, process_moist sw = true /\ moist_method sw = OtherMethod.
Proof. exists {| process_moist := true; moist_method := OtherMethod; groundwater_param := None; process_scanning := false; process_salt := false |}. split; reflexivity. Qed.
Lemma case_salt_raises : exists sw, process_salt sw = true /\ process_moist sw = true /\ moist_method sw = Infiltration.
Proof. exists {| process_moist := true; moist_method := Infiltration; groundwater_param := None; process_scanning := false; process_salt := true |}. repeat split; reflexivity. Qed.
