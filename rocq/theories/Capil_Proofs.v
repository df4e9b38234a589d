(** Proofs about capillary moisture. *)
From Verif Require Import Base Moist_Model Moist_Spec Moist_Proofs Moist_Cases Rain_Spec Rain_Proofs Capil_Spec.
From Coq Require Import Reals Lra.
Open Scope R_scope.

Lemma curve_vg res sat alfa n m h : 0 < h -> alfa <> 0 -> curve res sat alfa n m h = van_genuchten res sat alfa n m h.
Proof.
  intros H A. unfold curve, van_genuchten, pw. assert (B : 0 < Rabs (alfa * h)) by (apply Rabs_pos_lt; apply Rmult_integral_contrapositive; split; [auto|lra]).
  destruct (Rlt_dec 0 (Rabs (alfa * h))); [|contradiction]. assert (P : 0 < Rpower (Rabs (alfa * h)) n) by apply exp_pos. destruct (Rlt_dec 0 (1 + Rpower (Rabs (alfa * h)) n)); [auto|lra].
Qed.
Lemma head_height c : gw c < zb c -> head c = height_cm c.
Proof. intros H. unfold head, height_cm. rewrite Rmax_right; lra. Qed.
Lemma limited_clip a b x : limited a b x = clip a b x.
Proof. unfold limited, clip. rewrite (Rmin_comm x), (Rmax_comm _ a). reflexivity. Qed.
Lemma capillary_documented sw p fuel file dt c c' : process_moist sw = true -> moist_method sw = SurfMoisture -> process_scanning sw = true -> alfaw p <> 0 -> alfad p <> 0 -> gw c < zb c ->
  update sw p false fuel file dt c = Ok (Some c') -> 0 < h_delta c' -> let h := height_cm c in let hd := h_delta c' in
  (gw_prev c <= gw c -> wetting c = true -> scan_w c = false -> moist_swr c' = theta_w p h) /\
  (gw_prev c <= gw c -> wetting c = false \/ scan_w c = true -> 1 / 10000 <= satw p - theta_w p hd -> moist_swr c' = clip (theta_w p h) (theta_d p h) (mualem_wetting p hd h)) /\
  (gw c < gw_prev c -> wetting c = false -> scan_d c = false -> moist_swr c' = theta_d p h) /\
  (gw c < gw_prev c -> wetting c = true \/ scan_d c = true -> 1 / 10000 <= satd p - theta_w p h -> moist_swr c' = clip (theta_w p h) (theta_d p h) (mualem_drying p hd h)).
Proof.
  intros S M P AW AD G U HD. destruct (surface_of_update _ _ _ _ _ _ _ _ S M U) as [w [c1 [-> [E ->]]]]. rewrite P in E. clear U.
  unfold surface in E. destruct (capillary p true false fuel c) as [c2|] eqn:F; [|discriminate]. inversion E; subst c1; clear E.
  unfold capillary in F. destruct (hdelta p fuel c) as [hd|] eqn:D; [|discriminate].
  destruct (swr_curve p c (wet_curve p (head c)) (dry_curve p (head c)) (limited (wet_curve p (head c)) (dry_curve p (head c)) (scan_w_raw p (wet_curve p (head c)) (dry_curve p (head c)) (wet_curve p hd) (dry_curve p hd)))
    (limited (wet_curve p (head c)) (dry_curve p (head c)) (scan_d_raw p (wet_curve p (head c)) (dry_curve p (head c)) (wet_curve p hd)))) as [[swr scd] scw] eqn:W.
  inversion F; subst c2; clear F. assert (HD' : 0 < hd) by (destruct (process_salt sw); exact HD).
  match goal with |- context [moist_swr ?x] => assert (X1 : moist_swr x = swr) by (destruct (process_salt sw); reflexivity); assert (X2 : h_delta x = hd) by (destruct (process_salt sw); reflexivity); rewrite X1, X2 end.
  cbv zeta. clear X1 X2 HD. assert (HH : 0 < head c) by (rewrite head_height by auto; unfold height_cm; lra).
  unfold wet_curve, dry_curve in W. rewrite !(curve_vg _ _ _ _ _ (head c)) in W by auto. rewrite !(curve_vg _ _ _ _ _ hd) in W by auto. rewrite head_height in W by auto.
  fold (theta_w p (height_cm c)) (theta_d p (height_cm c)) (theta_w p hd) (theta_d p hd) in W. rewrite !limited_clip in W. unfold scan_w_raw, scan_d_raw in W.
  unfold swr_curve in W. repeat split; intros H1 H2.
  - intros H3. assert (A : geb (gw c) (gw_prev c) = true) by (apply geb_spec; lra). rewrite A, H2, H3 in W. cbn [andb negb] in W. inversion W; auto.
  - intros H3. assert (A : geb (gw c) (gw_prev c) = true) by (apply geb_spec; lra). rewrite A in W. cbn [andb] in W. rewrite (Rmax_left (satw p - theta_w p hd)) in W by lra. unfold mualem_wetting.
    destruct (wetting c), (scan_w c); cbn [andb negb] in W; try (inversion W; auto; fail). destruct H2; discriminate.
  - intros H3. assert (A : geb (gw c) (gw_prev c) = false) by (apply geb_false; lra). assert (B : gtb (gw_prev c) (gw c) = true) by (apply gtb_spec; lra). rewrite A, B, H2, H3 in W. cbn [andb negb] in W. inversion W; auto.
  - intros H3. assert (A : geb (gw c) (gw_prev c) = false) by (apply geb_false; lra). assert (B : gtb (gw_prev c) (gw c) = true) by (apply gtb_spec; lra). rewrite A, B in W. cbn [andb] in W.
    rewrite (Rmax_left (satd p - theta_w p (height_cm c))) in W by lra. unfold mualem_drying.
    destruct (wetting c), (scan_d c); cbn [andb negb] in W; try (inversion W; auto; fail). destruct H2; discriminate.
Qed.

Lemma drains_documented sw p t0 fuel w dt c c' : process_moist sw = true -> moist_method sw = SurfMoisture -> 0 < Tdry p -> 0 < thick p -> 0 <= dt -> fc p = theta_d p 100 ->
  TWL c <= zb c -> theta_d p 100 <= moist c -> update sw p t0 fuel (Some w) dt c = Ok (Some c') -> resw p < moist c' < satd p -> moist_swr c' < moist c' ->
  moist c' = theta_d p 100 + (moist c - theta_d p 100) * exp (- ln 2 * (dt / Tdry p)) + (rained_mm (rain w) dt - evaporated_mm (evaporation p w (uw c)) dt) / 1000 / thick p.
Proof.
  intros PM M TD TH D FC B MC U L Q. destruct (surface_of_update _ _ _ _ _ _ _ _ PM M U) as [w' [c1 [EW [E EC]]]]. injection EW as <-.
  unfold surface in E. destruct (capillary p (process_scanning sw) t0 fuel c) as [c2|] eqn:F; [|discriminate]. injection E as <-.
  assert (EM : moist c' = Rmin (Rmax (surface_balance p w dt c) (moist_swr c')) (satd p)) by (subst c'; destruct (process_salt sw); reflexivity).
  unfold surface_balance in EM. assert (SO : soaked c = false) by (unfold soaked; apply gtb_false; lra). rewrite SO in EM.
  apply unlimited in EM; auto. rewrite drain_above in EM by (auto; lra). rewrite EM, FC. unfold rained_mm, evaporated_mm, pcp, evo, decay.
  replace (ln (1 / 2)) with (- ln 2) by (unfold Rdiv; rewrite Rmult_1_l, ln_Rinv by lra; ring). replace (- (- - ln 2 / Tdry p) * dt) with (- ln 2 * (dt / Tdry p)) by (field; lra). field. lra.
Qed.
