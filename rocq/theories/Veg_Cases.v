(** Statements about vegetation as used in the property files, and concrete cases. *)
From Coq Require Import Reals Lra Lia.
From Verif Require Import Base Veg_Model Veg_Spec Veg_Proofs.
Open Scope R_scope.

Definition dune (m : growth) (v acc : R) : params := {| veggrowth_type := m; V_ver := v; hveg_max := 1; dzb_opt := 0; veg_gamma := 1; t_veg := 3; v_gam := 1; rhoveg_max := 5 / 10;
  germination := 0; lateral_spread := 0; dt_opt := 3600; dt := 3600; accfac := acc; process_tide := true; veg_min_elevation := 3 |}.
Definition sown : params := {| veggrowth_type := Orig; V_ver := 1; hveg_max := 1; dzb_opt := 0; veg_gamma := 1; t_veg := 3; v_gam := 1; rhoveg_max := 5 / 10;
  germination := 1; lateral_spread := 1 / 10; dt_opt := 3600; dt := 3600; accfac := 1; process_tide := true; veg_min_elevation := 3 |}.
Definition sown_duran : params := {| veggrowth_type := DuranMoore; V_ver := 1; hveg_max := 1; dzb_opt := 0; veg_gamma := 1; t_veg := 3; v_gam := 1; rhoveg_max := 5 / 10;
  germination := 1; lateral_spread := 1 / 10; dt_opt := 3600; dt := 3600; accfac := 1; process_tide := true; veg_min_elevation := 3 |}.
Definition dry : event := {| dzbveg := 0; zb := 5; zs := 0; random := 1 / 2; neighbours := [1 / 2; 1 / 2; 0; 0]; size := 1 |}.
Definition storm : event := {| dzbveg := 0; zb := 5; zs := 6; random := 1 / 2; neighbours := [1 / 2; 1 / 2; 0; 0]; size := 1 |}.
Definition grass : cell := {| rhoveg := 1 / 4; hveg := 1 / 2; dhveg := 0; drhoveg := 0; germ := 1; lat := 0 |}.
Lemma usual_dune m v acc : 0 < acc -> usual (dune m v acc).
Proof. intros. unfold usual; cbn; lra. Qed.
Lemma physical_grass m v acc : physical (dune m v acc) grass.
Proof. unfold physical; cbn; lra. Qed.
Lemma no_seed_dune m v acc e : 0 < acc -> random e = 1 / 2 -> no_seed (dune m v acc) e.
Proof.
  intros A R. assert (Z : per_step (dune m v acc) 0 = 0) by (apply no_chance; cbn; lra). unfold no_seed. cbn [germination dune]. rewrite Z, R. split; [lra|].
  intros k _. unfold per_cell. cbn [lateral_spread dune]. rewrite Z. assert (P : power (1 - 0) (1 / size e) = 1).
  { unfold power. replace (1 - 0) with 1 by ring. destruct (Req_EM_T 1 0); [lra|]. unfold Rpower. rewrite ln_1, Rmult_0_r, exp_0. auto. }
  rewrite P. lra.
Qed.

(** ** C42 *)
Lemma c42_physical_case : usual (dune DuranMoore 1 1) /\ 0 < V_ver (dune DuranMoore 1 1) /\ short_step (dune DuranMoore 1 1) /\ usual (dune Orig 1 1) /\ 0 < rhoveg grass.
Proof. split; [apply usual_dune; lra|]. split; [cbn; lra|]. split; [unfold short_step, year; cbn; lra|]. split; [apply usual_dune; lra|cbn; lra]. Qed.
Lemma c42_dead_case : drowned (dune Orig 1 1) storm /\ 0 < rhoveg grass.
Proof. split; [split; cbn; auto; lra|cbn; lra]. Qed.
Lemma c42_bare p es : usual p -> Forall (no_seed p) es -> empty (history p es bare).
Proof. intros U F. apply bare_history; auto; [split; reflexivity|cbn; lra]. Qed.
Lemma c42_bare_case : usual (dune Orig 1 1) /\ Forall (no_seed (dune Orig 1 1)) [dry; storm; dry] /\ 0 < higher (rhoveg bare) (neighbours dry).
Proof.
  split; [apply usual_dune; lra|]. split; [repeat constructor; apply no_seed_dune; auto; lra|]. unfold higher. cbn [rhoveg bare neighbours dry filter].
  destruct (Rlt_dec 0 (1 / 2)); [|lra]. destruct (Rlt_dec 0 0); [lra|]. cbn. lra.
Qed.
Lemma c42_off_case : 0 < hveg_max (dune Orig 0 1) /\ V_ver (dune Orig 0 1) <= 0 /\ dhveg grass = 0 /\ 0 <= hveg grass.
Proof. cbn. lra. Qed.
Lemma high m v acc : forall e, zb e = 5 -> (if Rlt_dec (zb e) (veg_min_elevation (dune m v acc)) then true else false) = false.
Proof. intros e E. rewrite E. cbn. destruct (Rlt_dec 5 3); [lra|auto]. Qed.
Lemma dying_high m v acc c e : zb e = 5 -> zs e = 0 -> rhoveg (dying (dune m v acc) e c) = rhoveg c /\ hveg (dying (dune m v acc) e c) = hveg c.
Proof.
  intros Z W. unfold dying. cbn [rhoveg hveg]. rewrite high by auto. cbn [process_tide dune]. assert (L : leb (zs e) (zb e + 1 / 100) = true) by (apply leb_spec; rewrite Z, W; lra). rewrite L. cbn. split; ring.
Qed.
Lemma c42_regrows : exists p c e1 e2, usual p /\ physical p c /\ drowned p e1 /\ empty (step p e1 c) /\ no_seed p e2 /\ 0 < rhoveg (step p e2 (step p e1 c)).
Proof.
  exists (dune Orig 1 1), grass, storm, dry. split; [apply usual_dune; lra|]. split; [apply physical_grass|]. split; [apply c42_dead_case|].
  destruct (dead (dune Orig 1 1) storm grass) as [[R H] [G L]]; [left; apply c42_dead_case|]. split; [split; auto|]. split; [apply no_seed_dune; auto; lra|].
  set (c := step (dune Orig 1 1) storm grass) in *. assert (D : dhveg c = 1 / 2).
  { unfold c, step, grow, dying. cbn [dhveg]. unfold growing. cbn [veggrowth_type dune]. cbv zeta. cbn [dhveg]. rewrite active_germinated by (cbn; lra).
    cbn [hveg germinate grass V_ver dune hveg_max dzbveg storm dzb_opt veg_gamma]. replace (0 - 0) with 0 by ring. rewrite Rabs_R0. lra. }
  unfold step, grow. destruct (dying_high Orig 1 1 (growing (dune Orig 1 1) dry (germinate (dune Orig 1 1) dry c)) dry eq_refl eq_refl) as [E _]. rewrite E.
  destruct (no_seed_germ (dune Orig 1 1) dry c (no_seed_dune Orig 1 1 dry Rlt_0_1 eq_refl) (Req_le _ _ R) L) as [G1 L1].
  assert (I : active (dune Orig 1 1) (germinate (dune Orig 1 1) dry c) = false) by (unfold active; rewrite G1, L1, nonzero_0; auto).
  unfold growing. rewrite I. cbn [veggrowth_type dune]. cbv zeta. cbn [rhoveg]. cbn [germinate dhveg hveg]. rewrite D, H. cbn [dt_opt accfac hveg_max dune].
  apply pow_lt. apply div_pos; [|lra]. eapply Rlt_le_trans; [|apply Rmax_l]. apply Rmin_glb_lt; [|lra]. unfold year. lra.
Qed.
Lemma c42_grows_off : exists p c e, usual p /\ V_ver p = 0 /\ physical p c /\ rhoveg c < rhoveg (step p e c).
Proof.
  exists (dune DuranMoore 0 1), grass, dry. split; [apply usual_dune; lra|]. split; [reflexivity|]. split; [apply physical_grass|].
  unfold step, grow. destruct (dying_high DuranMoore 0 1 (growing (dune DuranMoore 0 1) dry (germinate (dune DuranMoore 0 1) dry grass)) dry eq_refl eq_refl) as [E _]. rewrite E.
  unfold growing. rewrite inactive_off by (cbn; lra). cbn [veggrowth_type dune]. cbv zeta. cbn [rhoveg germinate drhoveg grass rhoveg_max dune neighbours dry]. unfold higher. cbn [filter].
  destruct (Rlt_dec (5 / 10) (1 / 4)); [lra|]. destruct (Rlt_dec (1 / 4) (1 / 2)); [|lra]. destruct (Rlt_dec (1 / 4) 0); [lra|]. cbn [length INR dt accfac dune]. destruct (Rle_dec (1 / 4) 0); [lra|].
  match goal with |- _ < (if Rlt_dec ?a 0 then _ else _) => assert (Q : 1 / 4 < a) by (unfold year; lra); destruct (Rlt_dec a 0); lra end.
Qed.
Lemma c42_overshoots : exists p c e, usual p /\ 0 < V_ver p /\ physical p c /\ 1 < rhoveg (step p e c).
Proof.
  exists (dune DuranMoore 1 400), grass, dry. split; [apply usual_dune; lra|]. split; [cbn; lra|]. split; [apply physical_grass|].
  unfold step, grow. destruct (dying_high DuranMoore 1 400 (growing (dune DuranMoore 1 400) dry (germinate (dune DuranMoore 1 400) dry grass)) dry eq_refl eq_refl) as [E _]. rewrite E.
  unfold growing. rewrite active_germinated by (cbn; lra). cbn [veggrowth_type dune]. cbv zeta. cbn [rhoveg germinate grass rhoveg_max dune dzbveg dry dzb_opt].
  destruct (Rlt_dec (5 / 10) (1 / 4)); [lra|]. destruct (Rle_dec (1 / 4) 0); [lra|]. replace (0 - 0) with 0 by ring. rewrite Rabs_R0. cbn [t_veg v_gam hveg_max veg_gamma dt accfac dune].
  match goal with |- _ < (if Rlt_dec ?a 0 then _ else _) => assert (Q : 1 < a) by (unfold year; lra); destruct (Rlt_dec a 0); lra end.
Qed.

(** ** C87 *)
Lemma c87_year p : 0 < dt_opt p -> 0 < accfac p -> 0 <= germination p <= 1 -> 0 <= per_step p (germination p) <= 1 /\ power (1 - per_step p (germination p)) (steps_per_year p) = 1 - germination p.
Proof. intros D A Y. apply yearly; auto. Qed.
Lemma c87_case : 0 <= germination sown <= 1 /\ 0 <= lateral_spread sown <= 1 /\ 0 < dt_opt sown.
Proof. cbn. lra. Qed.

(** ** C88 *)
Lemma sure : per_step sown 1 = 1.
Proof.
  unfold per_step, power. replace (1 - 1) with 0 by ring. destruct (Req_EM_T 0 0); [|contradiction].
  assert (0 < 1 / steps_per_year sown) by (apply div_pos; [lra|apply steps_pos; cbn; lra]). destruct (Req_EM_T (1 / steps_per_year sown) 0); lra.
Qed.
(** With [n] time steps in the 31557600 seconds of a year, germination fails in all of them with the chance that is left. *)
Lemma c87_all_steps p n : 0 < dt_opt p -> 0 < accfac p -> 0 <= germination p <= 1 -> INR n * (dt_opt p * accfac p) = 31557600 -> (1 - per_step p (germination p)) ^ n = 1 - germination p.
Proof.
  intros D A Y H. destruct (yearly p (germination p) D A Y) as [R E]. set (q := per_step p (germination p)) in *. assert (DA : 0 < dt_opt p * accfac p) by (apply Rmult_lt_0_compat; auto).
  assert (N : steps_per_year p = INR n) by (unfold steps_per_year; replace year with 31557600 by (unfold year; lra); rewrite <- H; field; split; lra).
  assert (P : 0 < INR n) by (rewrite <- N; apply steps_pos; auto). rewrite <- E, N. unfold power. destruct (Req_EM_T (1 - q) 0) as [Z|Z].
  - destruct (Req_EM_T (INR n) 0); [lra|]. rewrite Z. destruct n; [cbn in P; lra|]. cbn [pow]. ring.
  - symmetry. apply Rpower_pow. lra.
Qed.
(** One in five germinates in a year, with 8766 steps of an hour. *)
Definition meadow : params := {| veggrowth_type := Orig; V_ver := 1; hveg_max := 1; dzb_opt := 0; veg_gamma := 1; t_veg := 3; v_gam := 1; rhoveg_max := 5 / 10;
  germination := 1 / 5; lateral_spread := 1 / 10; dt_opt := 3600; dt := 3600; accfac := 1; process_tide := true; veg_min_elevation := 3 |}.
Lemma c87_all_case : 0 <= germination meadow <= 1 /\ 0 < dt_opt meadow /\ 0 < accfac meadow /\ INR (Z.to_nat 8766) * (dt_opt meadow * accfac meadow) = 31557600.
Proof. split; [cbn; lra|]. split; [cbn; lra|]. split; [cbn; lra|]. rewrite INR_IZR_INZ, Z2Nat.id by lia. cbn [dt_opt accfac meadow]. lra. Qed.
Lemma c88_case : usual sown /\ veggrowth_type sown = Orig /\ seeded sown dry /\ habitable sown dry /\ outgrows sown dry /\ empty bare.
Proof.
  split; [unfold usual; cbn; lra|]. split; [reflexivity|]. split; [split; [cbn; lra|cbn [germination sown]; rewrite sure; cbn; lra]|].
  split; [split; [intros [_ W]; cbn in W; lra|unfold too_low; cbn; lra]|]. split; [unfold outgrows; cbn; replace (0 - 0) with 0 by ring; rewrite Rabs_R0; lra|split; reflexivity].
Qed.
Lemma c88_never : exists p e c, usual p /\ seeded p e /\ habitable p e /\ outgrows p e /\ empty c /\ forall es, empty (history p es (step p e c)).
Proof.
  exists sown_duran, dry, bare. destruct c88_case as [A [_ [B [C [D E]]]]]. split; [exact A|]. split; [exact B|]. split; [exact C|]. split; [exact D|]. split; [exact E|].
  assert (G : forall es c, empty c -> empty (history sown_duran es c)).
  { unfold history. induction es as [|x es IH]; intros c H; cbn [fold_left]; auto. apply IH, duran_never; auto. cbn. lra. }
  intros es. apply G, duran_never; auto. cbn. lra.
Qed.

(** ** C89 *)
Lemma c89_case : usual (dune Orig 1 1) /\ physical (dune Orig 1 1) grass /\ Rabs (1 - dzb_opt (dune Orig 1 1)) <= Rabs (- 2 - dzb_opt (dune Orig 1 1)) /\ active (dune Orig 1 1) grass = true.
Proof.
  split; [apply usual_dune; lra|]. split; [apply physical_grass|]. cbn [dzb_opt dune]. split; [rewrite Rabs_right, Rabs_left; lra|].
  unfold active. cbn [germ grass V_ver dune]. rewrite nonzero_spec by lra. assert (A : above0 1 = true) by (apply pos_spec; lra). rewrite A. auto.
Qed.
Lemma start_case : 0 < hveg_max (dune Orig 1 1) /\ 1 / 4 <= 1 /\ 0 < 1 / 4.
Proof. unfold dune; cbn [hveg_max]; lra. Qed.
