(** Lemmas about vegetation. *)
From Coq Require Import Reals Lra Lia.
From Verif Require Import Base Veg_Model Veg_Spec.
Open Scope R_scope.

Lemma pos_spec x : above0 x = true <-> 0 < x.
Proof. unfold above0. destruct (Rlt_dec 0 x); split; intros; auto; discriminate. Qed.
Lemma pos_false x : above0 x = false <-> x <= 0.
Proof. unfold above0. destruct (Rlt_dec 0 x); split; intros; auto; try discriminate; lra. Qed.
Lemma nonzero_0 : nonzero 0 = false.
Proof. unfold nonzero. destruct (Req_EM_T 0 0); auto; contradiction. Qed.
Lemma nonzero_spec x : x <> 0 -> nonzero x = true.
Proof. unfold nonzero. destruct (Req_EM_T x 0); auto; contradiction. Qed.
Lemma leb_spec x y : leb x y = true <-> x <= y.
Proof. unfold leb. destruct (Rle_dec x y); split; intros; auto; try discriminate; contradiction. Qed.
Lemma leb_false x y : leb x y = false <-> y < x.
Proof. unfold leb. destruct (Rle_dec x y); split; intros; auto; try discriminate; lra. Qed.
Lemma num_cases b : num b = 0 \/ num b = 1.
Proof. destruct b; cbn; auto. Qed.
Lemma year_pos : 0 < year.
Proof. unfold year. lra. Qed.
Lemma div_nonneg a b : 0 <= a -> 0 < b -> 0 <= a / b.
Proof. intros. unfold Rdiv. apply Rmult_le_pos; auto. left. apply Rinv_0_lt_compat; auto. Qed.
Lemma div_pos a b : 0 < a -> 0 < b -> 0 < a / b.
Proof. intros. unfold Rdiv. apply Rmult_lt_0_compat; auto. apply Rinv_0_lt_compat; auto. Qed.
Lemma div_le a b c : a <= b -> 0 < c -> a / c <= b / c.
Proof. intros. unfold Rdiv. apply Rmult_le_compat_r; auto. left. apply Rinv_0_lt_compat; auto. Qed.
Lemma sq_le a b : 0 <= a <= b -> a * a <= b * b.
Proof. intros. apply Rmult_le_compat; lra. Qed.

(** ** Physical *)
Lemma physical_scale p c d : 0 <= rhoveg c <= 1 -> 0 <= hveg c <= hveg_max p -> rhoveg c * (hveg_max p * hveg_max p) = hveg c * hveg c -> d = 0 \/ d = 1 ->
  0 <= rhoveg c * d <= 1 /\ 0 <= hveg c * d <= hveg_max p /\ rhoveg c * d * (hveg_max p * hveg_max p) = hveg c * d * (hveg c * d).
Proof. intros R H E [->| ->]; repeat split; try lra. Qed.
Lemma physical_dying p e c : physical p c -> physical p (dying p e c).
Proof.
  intros [R [H E]]. unfold dying, physical. cbn [rhoveg hveg]. destruct (Rlt_dec (zb e) (veg_min_elevation p)); [repeat split; lra|].
  set (d := if process_tide p then _ else _). assert (D : d = 0 \/ d = 1) by (unfold d; destruct (process_tide p); [apply num_cases|auto]).
  apply physical_scale; auto.
Qed.
Lemma physical_orig p e c : 0 < hveg_max p -> veggrowth_type p = Orig -> physical p (growing p e c).
Proof.
  intros P V. unfold growing. rewrite V. cbv zeta. unfold physical. cbn [rhoveg hveg]. set (q := hveg c + _). set (h := Rmax (Rmin q (hveg_max p)) 0).
  assert (B : 0 <= h <= hveg_max p). { unfold h. split; [apply Rmax_r|]. apply Rmax_lub; [apply Rmin_r|lra]. }
  assert (A : 0 <= h / hveg_max p <= 1).
  { split; [apply div_nonneg; lra|]. apply Rle_trans with (hveg_max p / hveg_max p); [apply div_le; lra|]. unfold Rdiv. rewrite Rinv_r; lra. }
  split; [|split; auto; field; lra]. replace ((h / hveg_max p) ^ 2) with (h / hveg_max p * (h / hveg_max p)) by ring. split; [apply Rmult_le_pos; lra|].
  apply Rle_trans with (1 * 1); [apply sq_le; auto|lra].
Qed.
Lemma germ_range c p e : 0 < rhoveg c -> germ (germinate p e c) = 1.
Proof.
  intros R. unfold germinate. cbn [germ]. apply pos_spec in R. rewrite R. apply Rmin_right. destruct (num_cases (leb 0 (dzbveg e) && leb (random e) (per_step p (germination p)))) as [->| ->]; cbn; lra.
Qed.
Lemma active_germinated p e c : 0 < V_ver p -> 0 < rhoveg c -> active p (germinate p e c) = true.
Proof. intros V R. unfold active. rewrite (germ_range c p e R), nonzero_spec by lra. apply pos_spec in V. rewrite V. auto. Qed.
Lemma duran_value p e c : usual p -> veggrowth_type p = DuranMoore -> 0 < V_ver p -> short_step p -> 0 <= rhoveg (growing p e (germinate p e c)) <= rhoveg_max p.
Proof.
  intros [H [[RM _] [T [VG [G [_ [D A]]]]]]] V P K. unfold growing. rewrite V. cbv zeta. cbn [rhoveg]. set (c1 := germinate p e c). change (rhoveg c1) with (rhoveg c).
  set (rho := if Rlt_dec (rhoveg_max p) (rhoveg c) then rhoveg_max p else rhoveg c). assert (R : rho <= rhoveg_max p) by (unfold rho; destruct (Rlt_dec (rhoveg_max p) (rhoveg c)); lra).
  destruct (Rle_dec rho 0) as [Z|Z]; [lra|]. assert (RC : 0 < rhoveg c) by (unfold rho in Z; destruct (Rlt_dec (rhoveg_max p) (rhoveg c)); lra).
  unfold c1. rewrite active_germinated by auto. set (b := v_gam p / hveg_max p * _ * veg_gamma p). set (t := t_veg p / 365).
  assert (TT : 0 < t) by (unfold t; lra).
  assert (B : 0 <= b). { unfold b. repeat apply Rmult_le_pos; auto; [left; apply Rinv_0_lt_compat; auto|apply Rabs_pos]. }
  set (k := dt p * accfac p / year). assert (K0 : 0 <= k) by (unfold k; apply div_nonneg; [apply Rmult_le_pos; lra|apply year_pos]).
  assert (KT : k / t <= 1). { apply Rle_trans with (t / t); [apply div_le; auto; apply K|]. unfold Rdiv. rewrite Rinv_r; lra. }
  replace (((rhoveg_max p - rho) / t - b) * (dt p * accfac p) / year) with ((rhoveg_max p - rho) * (k / t) - b * k) by (pose proof year_pos; unfold k; field; lra).
  assert (X : (rhoveg_max p - rho) * (k / t) <= (rhoveg_max p - rho) * 1) by (apply Rmult_le_compat_l; lra). assert (Y : 0 <= b * k) by (apply Rmult_le_pos; auto).
  destruct (Rlt_dec (rho + ((rhoveg_max p - rho) * (k / t) - b * k)) 0); lra.
Qed.
Lemma duran_height p e c : veggrowth_type p = DuranMoore -> hveg (growing p e c) = hveg_max p * sqrt (rhoveg (growing p e c)).
Proof. intros V. unfold growing. rewrite V. reflexivity. Qed.
Lemma physical_root p c : 0 < hveg_max p -> 0 <= rhoveg c <= 1 -> hveg c = hveg_max p * sqrt (rhoveg c) -> physical p c.
Proof.
  intros P R E. pose proof (sqrt_pos (rhoveg c)). pose proof (sqrt_sqrt (rhoveg c) ltac:(lra)) as Q.
  assert (sqrt (rhoveg c) <= 1) by (rewrite <- sqrt_1; apply sqrt_le_1_alt; lra).
  split; auto. rewrite E. split; [split; [apply Rmult_le_pos; lra|]|].
  - apply Rle_trans with (hveg_max p * 1); [apply Rmult_le_compat_l; lra|lra].
  - rewrite <- Q at 1. ring.
Qed.
Lemma always_physical p e c : usual p -> veggrowth_type p = Orig \/ (0 < V_ver p /\ short_step p) -> physical p (step p e c) /\ (veggrowth_type p = DuranMoore -> rhoveg (step p e c) <= rhoveg_max p).
Proof.
  intros U H. pose proof U as [P [[RM1 RM2] _]]. unfold step, grow. destruct (veggrowth_type p) eqn:V.
  - split; [|discriminate]. apply physical_dying, physical_orig; auto.
  - destruct H as [H|[A B]]; [discriminate|]. pose proof (duran_value p e c U V A B) as R. split.
    + apply physical_dying, physical_root; auto; [lra|]. apply duran_height; auto.
    + intros _. unfold dying. cbn [rhoveg]. destruct (Rlt_dec (zb e) (veg_min_elevation p)); [lra|]. destruct (process_tide p); [|lra].
      destruct (num_cases (leb (zs e) (zb e + 1 / 100))) as [->| ->]; lra.
Qed.
Lemma physical_initial p v : 0 < hveg_max p -> v <= 1 -> physical p (initialize p (Some v) bare).
Proof.
  intros P V. apply physical_root; auto; unfold initialize; cbn [rhoveg hveg]; destruct (Rlt_dec v 0); lra || auto.
Qed.

(** ** Death *)
Lemma dead p e c : drowned p e \/ too_low p e -> empty (step p e c) /\ germ (step p e c) = 0 /\ lat (step p e c) = 0.
Proof.
  intros H. unfold step, grow, dying, empty. cbn [rhoveg hveg germ lat]. destruct (Rlt_dec (zb e) (veg_min_elevation p)); [auto|].
  destruct H as [[T W]|L]; [|unfold too_low in L; contradiction]. rewrite T. assert (F : leb (zs e) (zb e + 1 / 100) = false) by (apply leb_false; auto). rewrite F. cbn [num].
  repeat split; ring.
Qed.
Lemma dying_le p e c : 0 <= rhoveg c -> 0 <= hveg c -> 0 <= rhoveg (dying p e c) <= rhoveg c /\ 0 <= hveg (dying p e c) <= hveg c.
Proof.
  intros R H. unfold dying. cbn [rhoveg hveg]. destruct (Rlt_dec (zb e) (veg_min_elevation p)); [lra|]. destruct (process_tide p); [|lra].
  destruct (num_cases (leb (zs e) (zb e + 1 / 100))) as [->| ->]; lra.
Qed.

(** ** No growth without vertical growth, and none from nothing *)
Lemma inactive_off p c : V_ver p <= 0 -> active p c = false.
Proof. intros V. unfold active. apply pos_false in V. rewrite V. apply Bool.andb_false_r. Qed.
Lemma no_growth_step p e c : 0 < hveg_max p -> veggrowth_type p = Orig -> V_ver p <= 0 -> dhveg c = 0 -> 0 <= hveg c -> 0 <= hveg (step p e c) <= hveg c /\ dhveg (step p e c) = 0.
Proof.
  intros P T V D H. unfold step, grow. set (c1 := germinate p e c). set (c2 := growing p e c1).
  assert (DD : dhveg c2 = 0) by (unfold c2, growing; rewrite T; cbv zeta; cbn [dhveg]; rewrite inactive_off by auto; auto).
  assert (HH : 0 <= hveg c2 <= hveg c).
  { unfold c2, growing. rewrite T. cbv zeta. cbn [hveg]. rewrite inactive_off by auto. change (dhveg c1) with (dhveg c). change (hveg c1) with (hveg c). rewrite D.
    replace (hveg c + 0 * (dt_opt p * accfac p) / year) with (hveg c) by (unfold Rdiv; ring). split; [apply Rmax_r|]. apply Rmax_lub; [apply Rmin_l|auto]. }
  split; [|exact DD]. assert (R : 0 <= rhoveg c2) by (unfold c2, growing; rewrite T; cbv zeta; cbn [rhoveg]; apply pow2_ge_0).
  destruct (dying_le p e c2 R ltac:(lra)) as [_ Q]. lra.
Qed.
Lemma no_growth p es : 0 < hveg_max p -> veggrowth_type p = Orig -> V_ver p <= 0 -> forall c, dhveg c = 0 -> 0 <= hveg c -> 0 <= hveg (history p es c) <= hveg c.
Proof.
  intros P T V. unfold history. induction es as [|e es IH]; intros c D H; cbn [fold_left]; [lra|].
  destruct (no_growth_step p e c P T V D H) as [A B]. pose proof (IH (step p e c) B (proj1 A)). lra.
Qed.
Lemma higher_le rho ns : exists k, (k <= length ns)%nat /\ higher rho ns = INR k.
Proof. eexists. split; [|reflexivity]. induction ns as [|a ns IH]; cbn; [lia|]. destruct (Rlt_dec rho a); cbn; lia. Qed.
Lemma no_seed_germ p e c : no_seed p e -> rhoveg c <= 0 -> lat c = 0 -> germ (germinate p e c) = 0 /\ lat (germinate p e c) = 0.
Proof.
  intros [A B] R L. unfold germinate. cbn [germ lat]. apply pos_false in R. rewrite R. apply leb_false in A. rewrite A, Bool.andb_false_r. cbn [num].
  destruct (higher_le (rhoveg c) (neighbours e)) as [k [K E]]. rewrite E. pose proof (B k K) as Q. apply leb_false in Q. rewrite Q, L. cbn [num].
  split; apply Rmin_left || (rewrite Rmin_left; lra); lra.
Qed.
Lemma empty_orig p e c : 0 < hveg_max p -> 0 < dt_opt p -> 0 < accfac p -> veggrowth_type p = Orig -> empty c -> dhveg c <= 0 -> germ c = 0 -> lat c = 0 -> empty (growing p e c) /\ dhveg (growing p e c) = dhveg c.
Proof.
  intros P D A T [R H] DH G L. assert (I : active p c = false) by (unfold active; rewrite G, L, nonzero_0; auto). unfold growing, empty. rewrite T, I. cbv zeta. cbn [rhoveg hveg dhveg].
  rewrite H. set (q := dhveg c * _ / year). assert (Q : q <= 0).
  { unfold q, Rdiv. pose proof year_pos. assert (0 < / year) by (apply Rinv_0_lt_compat; auto). assert (0 <= - dhveg c * (dt_opt p * accfac p) * / year) by (repeat apply Rmult_le_pos; lra). lra. }
  assert (E : Rmax (Rmin (0 + q) (hveg_max p)) 0 = 0) by (apply Rmax_right; eapply Rle_trans; [apply Rmin_l|lra]). rewrite E. repeat split; auto. field. lra.
Qed.
Lemma empty_duran p e c : veggrowth_type p = DuranMoore -> empty c -> 0 < rhoveg_max p -> empty (growing p e c).
Proof.
  intros T [R H] P. unfold growing, empty. rewrite T. cbv zeta. cbn [rhoveg hveg]. rewrite R. destruct (Rlt_dec (rhoveg_max p) 0); [lra|]. destruct (Rle_dec 0 0); [|lra].
  rewrite sqrt_0. split; lra.
Qed.
Lemma empty_dying p e c : empty c -> empty (dying p e c).
Proof. intros [R H]. unfold dying, empty. cbn [rhoveg hveg]. rewrite R, H. destruct (Rlt_dec _ _); split; auto; ring. Qed.
Lemma germ_dying p e c : rhoveg c = 0 -> germ (dying p e c) = 0 /\ lat (dying p e c) = 0.
Proof. intros R. unfold dying. cbn [germ lat]. rewrite R, nonzero_0. cbn [num]. destruct (Rlt_dec _ _); split; auto; ring. Qed.
Lemma stays_empty p e c : usual p -> no_seed p e -> empty c -> dhveg c <= 0 -> lat c = 0 -> empty (step p e c) /\ (veggrowth_type p = Orig -> dhveg (step p e c) <= 0) /\ lat (step p e c) = 0.
Proof.
  intros [P [[R _] [_ [_ [_ [D [_ A]]]]]]] S E DH L. destruct E as [ER EH]. destruct (no_seed_germ p e c S ltac:(lra) L) as [G1 L1].
  unfold step, grow. set (c1 := germinate p e c) in *. assert (E1 : empty c1) by (split; auto). destruct (veggrowth_type p) eqn:T.
  - destruct (empty_orig p e c1 P D A T E1 DH G1 L1) as [E2 DD]. split; [apply empty_dying; auto|]. split; [intros _; change (dhveg (dying p e (growing p e c1))) with (dhveg (growing p e c1)); rewrite DD; exact DH|apply germ_dying, E2].
  - pose proof (empty_duran p e c1 T E1 R) as E2. split; [apply empty_dying; auto|]. split; [discriminate|apply germ_dying, E2].
Qed.
Lemma duran_never p e c : veggrowth_type p = DuranMoore -> 0 < rhoveg_max p -> empty c -> empty (step p e c).
Proof. intros T R E. apply empty_dying, empty_duran; auto. Qed.
Lemma bare_history p es : usual p -> Forall (no_seed p) es -> forall c, empty c -> dhveg c <= 0 -> lat c = 0 -> empty (history p es c).
Proof.
  intros U F. unfold history. induction F as [|e es S F IH]; intros c E D L; cbn [fold_left]; auto. destruct (veggrowth_type p) eqn:T.
  - destruct (stays_empty p e c U S E D L) as [A [B C]]. apply IH; auto.
  - clear IH F D L. pose proof U as [_ [[R _] _]]. assert (G : forall l c, empty c -> empty (fold_left (fun c e => step p e c) l c)).
    { induction l as [|x l IH]; intros c0 E0; cbn [fold_left]; auto. apply IH, duran_never; auto. }
    apply G, duran_never; auto.
Qed.

(** ** Seeds *)
Lemma seeded_grows p e c : usual p -> veggrowth_type p = Orig -> seeded p e -> habitable p e -> outgrows p e -> empty c -> 0 < hveg (step p e c) /\ 0 < rhoveg (step p e c).
Proof.
  intros [P [_ [_ [_ [G [D [_ A]]]]]]] T [S1 S2] [HD HL] O [ER EH]. unfold step, grow. set (c1 := germinate p e c).
  assert (G1 : germ c1 = 1).
  { unfold c1, germinate. cbn [germ]. rewrite ER. apply leb_spec in S1. apply leb_spec in S2. rewrite S1, S2. assert (F : above0 0 = false) by (apply pos_false; lra). rewrite F. cbn. apply Rmin_right. lra. }
  unfold outgrows in O. pose proof (Rabs_pos (dzbveg e - dzb_opt p)) as AP. assert (V : 0 < V_ver p) by (assert (0 <= Rabs (dzbveg e - dzb_opt p) * veg_gamma p) by (apply Rmult_le_pos; auto); lra).
  assert (I : active p c1 = true) by (unfold active; rewrite G1, nonzero_spec by lra; apply pos_spec in V; rewrite V; auto).
  assert (H2 : 0 < hveg (growing p e c1) /\ 0 < rhoveg (growing p e c1)).
  { unfold growing. rewrite T, I. cbv zeta. cbn [hveg rhoveg]. change (hveg c1) with (hveg c). rewrite EH. replace (1 - 0 / hveg_max p) with 1 by (field; lra).
    set (q := 0 + _). assert (Q : 0 < q) by (unfold q; rewrite Rplus_0_l; apply div_pos; [repeat apply Rmult_lt_0_compat; lra|apply year_pos]).
    assert (M : 0 < Rmax (Rmin q (hveg_max p)) 0) by (eapply Rlt_le_trans; [|apply Rmax_l]; apply Rmin_glb_lt; auto). split; auto. apply pow_lt. apply div_pos; auto. }
  assert (X : forall v, 0 < v -> 0 < v * (if process_tide p then num (leb (zs e) (zb e + 1 / 100)) else 1)).
  { intros v Vv. destruct (process_tide p) eqn:PT; [|lra]. assert (W : leb (zs e) (zb e + 1 / 100) = true).
    { apply leb_spec. destruct (Rle_dec (zs e) (zb e + 1 / 100)); auto. exfalso. apply HD. split; auto. lra. } rewrite W. cbn. lra. }
  unfold dying. cbn [hveg rhoveg]. destruct (Rlt_dec (zb e) (veg_min_elevation p)); [contradiction|]. split; apply X; apply H2.
Qed.

(** ** Chances *)
Lemma power_inverse x n : 0 <= x -> 0 < n -> power (power x (1 / n)) n = x.
Proof.
  intros X N. unfold power at 2. destruct (Req_EM_T x 0) as [->|NX].
  - assert (0 < 1 / n) by (apply div_pos; lra). destruct (Req_EM_T (1 / n) 0); [lra|]. unfold power. destruct (Req_EM_T 0 0); [|contradiction]. destruct (Req_EM_T n 0); lra.
  - assert (E : 0 < Rpower x (1 / n)) by (unfold Rpower; apply exp_pos). unfold power. destruct (Req_EM_T (Rpower x (1 / n)) 0); [lra|]. rewrite Rpower_mult.
    replace (1 / n * n) with 1 by (field; lra). apply Rpower_1. lra.
Qed.
Lemma power_range x y : 0 <= x <= 1 -> 0 < y -> 0 <= power x y <= 1.
Proof.
  intros X Y. unfold power. destruct (Req_EM_T x 0); [destruct (Req_EM_T y 0); lra|]. split; [left; unfold Rpower; apply exp_pos|].
  unfold Rpower. rewrite <- exp_0. assert (L : ln x <= 0). { rewrite <- ln_1. destruct (Req_dec x 1) as [->|]; [lra|]. left. apply ln_increasing; lra. }
  assert (Q : y * ln x <= 0). { replace 0 with (y * 0) by ring. apply Rmult_le_compat_l; lra. }
  destruct Q as [Q|Q]; [left; apply exp_increasing; auto|rewrite Q; lra].
Qed.
Lemma steps_pos p : 0 < dt_opt p -> 0 < accfac p -> 0 < steps_per_year p.
Proof. intros. unfold steps_per_year. apply div_pos; [apply year_pos|apply Rmult_lt_0_compat; auto]. Qed.
Lemma yearly p y : 0 < dt_opt p -> 0 < accfac p -> 0 <= y <= 1 -> 0 <= per_step p y <= 1 /\ power (1 - per_step p y) (steps_per_year p) = 1 - y.
Proof.
  intros D A Y. pose proof (steps_pos p D A). unfold per_step. assert (R : 0 <= power (1 - y) (1 / steps_per_year p) <= 1) by (apply power_range; [lra|apply div_pos; lra]).
  split; [lra|]. replace (1 - (1 - power (1 - y) (1 / steps_per_year p))) with (power (1 - y) (1 / steps_per_year p)) by ring. apply power_inverse; lra.
Qed.
Lemma per_metre p dx : 0 < dt_opt p -> 0 < accfac p -> 0 <= lateral_spread p <= 1 -> 0 < dx -> 0 <= per_cell p dx <= 1 /\ power (1 - per_cell p dx) dx = 1 - per_step p (lateral_spread p).
Proof.
  intros D A Y X. destruct (yearly p (lateral_spread p) D A Y) as [R _]. unfold per_cell. set (q := per_step p (lateral_spread p)) in *.
  assert (Q : 0 <= power (1 - q) (1 / dx) <= 1) by (apply power_range; [lra|apply div_pos; lra]). split; [lra|].
  replace (1 - (1 - power (1 - q) (1 / dx))) with (power (1 - q) (1 / dx)) by ring. apply power_inverse; lra.
Qed.
Lemma no_chance p : 0 < dt_opt p -> 0 < accfac p -> per_step p 0 = 0.
Proof.
  intros D A. pose proof (steps_pos p D A). unfold per_step, power. replace (1 - 0) with 1 by ring. destruct (Req_EM_T 1 0); [lra|]. unfold Rpower. rewrite ln_1, Rmult_0_r, exp_0. ring.
Qed.

(** ** Burial *)
Lemma burial_harms p e c d1 d2 : usual p -> physical p c -> Rabs (d1 - dzb_opt p) <= Rabs (d2 - dzb_opt p) ->
  rhoveg (grow p (buried e d2) c) <= rhoveg (grow p (buried e d1) c).
Proof.
  intros U PH B. pose proof U as [P [[R _] [TV [VG [G [D [DT A]]]]]]]. pose proof year_pos as Y. set (b1 := Rabs (d1 - dzb_opt p)) in *. set (b2 := Rabs (d2 - dzb_opt p)) in *.
  assert (X : 0 <= rhoveg (growing p (buried e d2) c) <= rhoveg (growing p (buried e d1) c)).
  { unfold growing. destruct (veggrowth_type p); cbv zeta; cbn [rhoveg dzbveg buried]; fold b1 b2.
    - split; [apply pow2_ge_0|]. destruct (active p c); [|lra]. set (h1 := hveg c + _). set (h2 := hveg c + _).
      assert (L : h1 <= h2).
      { unfold h1, h2. apply Rplus_le_compat_l, div_le; auto. apply Rmult_le_compat_r; [apply Rmult_le_pos; lra|]. assert (b1 * veg_gamma p <= b2 * veg_gamma p) by (apply Rmult_le_compat_r; auto). lra. }
      assert (M : Rmax (Rmin h1 (hveg_max p)) 0 <= Rmax (Rmin h2 (hveg_max p)) 0).
      { apply Rmax_lub; [|apply Rmax_r]. eapply Rle_trans; [|apply Rmax_l]. apply Rmin_glb; [eapply Rle_trans; [apply Rmin_l|auto]|apply Rmin_r]. }
      apply pow_incr. split; [apply div_nonneg; auto; apply Rmax_r|apply div_le; auto].
    - set (rho := if Rlt_dec (rhoveg_max p) (rhoveg c) then rhoveg_max p else rhoveg c). destruct (Rle_dec rho 0); [lra|]. destruct (active p c).
      + set (r1 := rho + ((rhoveg_max p - rho) / (t_veg p / 365) - v_gam p / hveg_max p * b2 * veg_gamma p) * (dt p * accfac p) / year).
        set (r2 := rho + ((rhoveg_max p - rho) / (t_veg p / 365) - v_gam p / hveg_max p * b1 * veg_gamma p) * (dt p * accfac p) / year).
        assert (L : r1 <= r2).
        { unfold r1, r2. apply Rplus_le_compat_l, div_le; auto. apply Rmult_le_compat_r; [apply Rmult_le_pos; lra|].
          assert (v_gam p / hveg_max p * b1 * veg_gamma p <= v_gam p / hveg_max p * b2 * veg_gamma p) by (apply Rmult_le_compat_r; auto; apply Rmult_le_compat_l; auto; apply div_nonneg; auto). lra. }
        destruct (Rlt_dec r1 0), (Rlt_dec r2 0); lra.
      + match goal with |- context [Rlt_dec ?a 0] => destruct (Rlt_dec a 0) end; lra. }
  unfold grow, dying. cbn [rhoveg zb zs buried]. destruct (Rlt_dec (zb e) (veg_min_elevation p)); [lra|].
  apply Rmult_le_compat_r; [|apply X]. destruct (process_tide p); [|lra]. destruct (num_cases (leb (zs e) (zb e + 1 / 100))) as [->| ->]; lra.
Qed.

(** The state after initialisation from a file of covers. *)
Lemma start_file : forall p v c, 0 < hveg_max p -> v <= 1 ->
  physical p (initialize p (Some v) c) /\ lat (initialize p (Some v) c) = 0 /\
  (v <= 0 -> empty (initialize p (Some v) c) /\ germ (initialize p (Some v) c) = 0) /\
  (0 < v -> rhoveg (initialize p (Some v) c) = v /\ germ (initialize p (Some v) c) = 1).
Proof.
  intros p v c P V. split; [|split; [reflexivity|]].
  - apply physical_root; auto; unfold initialize; cbn [rhoveg hveg]; destruct (Rlt_dec v 0); lra || auto.
  - unfold initialize, empty, above0. cbn [rhoveg hveg germ]. split; intros H.
    + assert (E : (if Rlt_dec v 0 then 0 else v) = 0) by (destruct (Rlt_dec v 0); lra). rewrite E, sqrt_0, Rmult_0_r.
      repeat split. destruct (Rlt_dec 0 0); [lra|reflexivity].
    + destruct (Rlt_dec v 0); [lra|]. split; [reflexivity|]. destruct (Rlt_dec 0 v); [reflexivity|contradiction].
Qed.
