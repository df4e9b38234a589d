(** Proofs about Moist_Model. *)
From Verif Require Import Base Moist_Model Moist_Spec.
From Coq Require Import Reals Lra Lia.
Open Scope R_scope.

Lemma gtb_spec x y : gtb x y = true <-> y < x.
Proof. unfold gtb. destruct (Rlt_dec y x); split; intros; try discriminate; auto; contradiction. Qed.
Lemma gtb_false x y : gtb x y = false <-> x <= y.
Proof. unfold gtb. destruct (Rlt_dec y x); split; intros; try discriminate; auto; lra. Qed.
Lemma geb_spec x y : geb x y = true <-> y <= x.
Proof. unfold geb. destruct (Rle_dec y x); split; intros; try discriminate; auto; contradiction. Qed.
Lemma geb_false x y : geb x y = false <-> x < y.
Proof. unfold geb. destruct (Rle_dec y x); split; intros; try discriminate; auto; lra. Qed.

(** ** Powers *)
Lemma pw_nonneg x n : 0 <= pw x n.
Proof. unfold pw. destruct (Rlt_dec 0 x); [left; apply exp_pos|lra]. Qed.
Lemma pw_pos x n : 0 < x -> 0 < pw x n.
Proof. unfold pw. destruct (Rlt_dec 0 x); [intros; apply exp_pos|lra]. Qed.
Lemma Rpower_mono x y n : 0 < x -> x <= y -> 0 <= n -> Rpower x n <= Rpower y n.
Proof.
  intros. unfold Rpower. destruct (Req_dec x y); [subst; lra|].
  assert (ln x <= ln y) by (left; apply ln_increasing; lra).
  destruct (Req_dec (n * ln x) (n * ln y)) as [e|e]; [rewrite e; lra|].
  left. apply exp_increasing. assert (n * ln x <= n * ln y) by (apply Rmult_le_compat_l; lra). lra.
Qed.
Lemma pw_mono x y n : 0 <= x -> x <= y -> 0 <= n -> pw x n <= pw y n.
Proof.
  intros. unfold pw. destruct (Rlt_dec 0 x), (Rlt_dec 0 y); try lra.
  - apply Rpower_mono; lra.
  - left; apply exp_pos.
Qed.
Lemma pw_1 n : pw 1 n = 1.
Proof. unfold pw. destruct (Rlt_dec 0 1); [|lra]. unfold Rpower. rewrite ln_1, Rmult_0_r. apply exp_0. Qed.
Lemma pw_ge_1 x n : 1 <= x -> 0 <= n -> 1 <= pw x n.
Proof. intros. rewrite <- (pw_1 n). apply pw_mono; lra. Qed.
(** A power and its root. *)
Lemma pw_root x n : 0 <= x -> 0 < n -> pw (pw x (1 / n)) n = x.
Proof.
  intros. unfold pw at 2. destruct (Rlt_dec 0 x).
  - unfold pw. destruct (Rlt_dec 0 (Rpower x (1 / n))) as [|e]; [|exfalso; apply e; apply exp_pos].
    rewrite Rpower_mult. replace (1 / n * n) with 1 by (field; lra). apply Rpower_1; auto.
  - unfold pw. destruct (Rlt_dec 0 0); lra.
Qed.

(** ** Drying *)
Lemma decay_pos T dt : 0 < decay T dt.
Proof. apply exp_pos. Qed.
Lemma decay_add T a b : decay T (a + b) = decay T a * decay T b.
Proof. unfold decay. rewrite <- exp_plus. f_equal. ring. Qed.
Lemma ln_half : ln (1 / 2) < 0.
Proof. rewrite <- ln_1. apply ln_increasing; lra. Qed.
Lemma decay_le_1 T dt : 0 < T -> 0 <= dt -> decay T dt <= 1.
Proof.
  intros. unfold decay. pose proof ln_half.
  assert (- (- ln (1 / 2) / T) * dt <= 0).
  { replace (- (- ln (1 / 2) / T) * dt) with (ln (1 / 2) * (dt / T)) by (field; lra).
    assert (0 <= dt / T). { apply Rmult_le_pos; [lra|]. left. apply Rinv_0_lt_compat; lra. }
    assert (ln (1/2) * (dt / T) <= 0 * (dt / T)) by (apply Rmult_le_compat_r; lra). lra. }
  set (a := - (- ln (1 / 2) / T) * dt) in *. clearbody a. rewrite <- exp_0.
  destruct (Req_dec a 0) as [e|e]; [rewrite e; lra|].
  left. apply exp_increasing. lra.
Qed.
Lemma decay_half T : 0 < T -> decay T T = 1 / 2.
Proof.
  intros. unfold decay. replace (- (- ln (1 / 2) / T) * T) with (ln (1 / 2)) by (field; lra). apply exp_ln. lra.
Qed.

Lemma infiltrate_range p dt c : 0 <= porosity p -> 0 <= infiltrate p dt c <= porosity p.
Proof.
  intros. unfold infiltrate. split; [apply Rmax_l|]. apply Rmax_lub; auto. apply Rmin_l.
Qed.
Lemma infiltrate_flooded p dt c : 0 <= porosity p -> eps p < TWL c - zb c -> infiltrate p dt c = porosity p.
Proof.
  intros. unfold infiltrate, flooded. apply gtb_spec in H0. rewrite H0.
  rewrite Rmin_left by lra. apply Rmax_right; lra.
Qed.
Lemma infiltrate_dry p dt c : 0 < Tdry p -> 0 <= dt -> dry p c -> 0 <= moist c <= porosity p -> infiltrate p dt c = moist c * decay (Tdry p) dt.
Proof.
  intros. unfold infiltrate, flooded. unfold dry in H1. apply gtb_false in H1. rewrite H1.
  pose proof (decay_pos (Tdry p) dt). pose proof (decay_le_1 (Tdry p) dt H H0).
  assert (0 <= moist c * decay (Tdry p) dt) by (apply Rmult_le_pos; lra).
  assert (moist c * decay (Tdry p) dt <= moist c * 1) by (apply Rmult_le_compat_l; lra).
  rewrite Rmin_right by lra. apply Rmax_right. lra.
Qed.
Lemma drain_above p dt m : 0 < Tdry p -> 0 <= dt -> fc p <= m -> drain p dt m = fc p + (m - fc p) * decay (Tdry p) dt.
Proof.
  intros. unfold drain. pose proof (decay_le_1 (Tdry p) dt H H0).
  assert (0 <= (m - fc p) * (1 - decay (Tdry p) dt)) by (apply Rmult_le_pos; lra).
  rewrite Rmin_right by lra. ring.
Qed.
Lemma drain_below p dt m : 0 < Tdry p -> 0 <= dt -> m <= fc p -> drain p dt m = m.
Proof.
  intros. unfold drain. pose proof (decay_le_1 (Tdry p) dt H H0).
  assert (0 <= (fc p - m) * (1 - decay (Tdry p) dt)) by (apply Rmult_le_pos; lra).
  rewrite Rmin_left by lra. ring.
Qed.
Lemma drain_split p a b m : 0 < Tdry p -> 0 <= a -> 0 <= b -> drain p b (drain p a m) = drain p (a + b) m.
Proof.
  intros. destruct (Rle_dec m (fc p)).
  - rewrite !drain_below by (auto; try lra; rewrite drain_below; auto). auto.
  - rewrite (drain_above p a m), (drain_above p (a + b) m) by lra.
    pose proof (decay_pos (Tdry p) a).
    assert (0 <= (m - fc p) * decay (Tdry p) a) by (apply Rmult_le_pos; lra).
    rewrite drain_above by lra. rewrite decay_add. ring.
Qed.

(** ** Surface moisture *)
Lemma surface_range p sc t0 fuel w dt c c' : resw p <= satd p -> surface p sc t0 fuel w dt c = Some c' -> resw p <= moist c' <= satd p.
Proof.
  intros. unfold surface in H0. destruct (capillary p sc t0 fuel c) eqn:E; [|discriminate]. inversion H0; subst; clear H0. cbn [moist with_moist].
  split; [|apply Rmin_r]. apply Rmin_glb; auto. eapply Rle_trans; [|apply Rmax_l].
  unfold surface_balance. destruct (soaked c); auto. apply Rmin_glb; auto. apply Rmax_r.
Qed.
Lemma surface_soaked p sc t0 fuel w dt c c' : zb c < TWL c -> surface p sc t0 fuel w dt c = Some c' -> moist c' = satd p.
Proof.
  intros. unfold surface in H0. destruct (capillary p sc t0 fuel c) eqn:E; [|discriminate]. inversion H0; subst; clear H0. cbn [moist with_moist].
  unfold surface_balance, soaked. apply gtb_spec in H. rewrite H. apply Rmin_right. apply Rmax_l.
Qed.

(** ** Retention curves *)
Lemma curve_factor n m x : 0 <= m -> 0 < / pw (1 + pw x n) m <= 1.
Proof.
  intros. pose proof (pw_nonneg x n). assert (1 <= pw (1 + pw x n) m) by (apply pw_ge_1; lra).
  split; [apply Rinv_0_lt_compat; lra|]. apply Rle_trans with (/ 1); [apply Rinv_le_contravar; lra|rewrite Rinv_1; lra].
Qed.
Lemma curve_range res sat alfa n m h : 0 <= m -> res <= sat -> res <= curve res sat alfa n m h <= sat.
Proof.
  intros. unfold curve, Rdiv. pose proof (curve_factor n m (Rabs (alfa * h)) H).
  set (k := / pw (1 + pw (Rabs (alfa * h)) n) m) in *.
  assert (0 <= (sat - res) * k) by (apply Rmult_le_pos; lra).
  assert ((sat - res) * k <= (sat - res) * 1) by (apply Rmult_le_compat_l; lra). lra.
Qed.
Lemma curve_order rw sw aw rd sd ad n m h : 0 <= n -> 0 <= m -> rw <= sw -> rw <= rd -> sw <= sd -> Rabs ad <= Rabs aw ->
  curve rw sw aw n m h <= curve rd sd ad n m h.
Proof.
  intros. unfold curve, Rdiv. pose proof (curve_factor n m (Rabs (aw * h)) H0). pose proof (curve_factor n m (Rabs (ad * h)) H0).
  assert (/ pw (1 + pw (Rabs (aw * h)) n) m <= / pw (1 + pw (Rabs (ad * h)) n) m).
  { apply Rinv_le_contravar; [apply pw_pos; pose proof (pw_nonneg (Rabs (ad * h)) n); lra|].
    apply pw_mono; auto; [pose proof (pw_nonneg (Rabs (ad * h)) n); lra|]. apply Rplus_le_compat_l. apply pw_mono; auto; [apply Rabs_pos|].
    rewrite !Rabs_mult. apply Rmult_le_compat_r; [apply Rabs_pos|auto]. }
  set (kw := / pw (1 + pw (Rabs (aw * h)) n) m) in *. set (kd := / pw (1 + pw (Rabs (ad * h)) n) m) in *.
  assert ((sw - rw) * kw <= (sw - rw) * kd) by (apply Rmult_le_compat_l; lra).
  assert (0 <= (rd - rw) * (1 - kd)) by (apply Rmult_le_pos; lra).
  assert (0 <= (sd - sw) * kd) by (apply Rmult_le_pos; lra). lra.
Qed.
Lemma limited_between wh dh x : lies_between wh dh (limited wh dh x).
Proof.
  unfold lies_between, limited. split.
  - eapply Rle_trans; [apply Rmin_l|apply Rmax_r].
  - apply Rmax_lub; [|apply Rmax_l]. eapply Rle_trans; [apply Rmin_r|apply Rmax_r].
Qed.
Lemma between_l a b : lies_between a b a.
Proof. split; [apply Rmin_l|apply Rmax_l]. Qed.
Lemma between_r a b : lies_between a b b.
Proof. split; [apply Rmin_r|apply Rmax_r]. Qed.

(** The six cases of [swr_curve]. *)
Lemma swr_cases p c wh dh sw sd m scd scw : swr_curve p c wh dh sw sd = (m, scd, scw) ->
  (gw_prev c <= gw c /\ scd = false /\ ((m = wh /\ scw = false) \/ (m = sw /\ scw = gtb sw wh)))
  \/ (gw c < gw_prev c /\ scw = false /\ ((m = dh /\ scd = false) \/ (m = sd /\ scd = gtb dh sd))).
Proof.
  unfold swr_curve. intros E. destruct (Rle_dec (gw_prev c) (gw c)) as [g|g].
  - left. pose proof (proj2 (geb_spec (gw c) (gw_prev c)) g) as e1. rewrite e1 in E.
    destruct (wetting c), (scan_w c); cbn [andb negb] in E; inversion E; subst; auto 10.
  - right. assert (g2 : gw c < gw_prev c) by lra. pose proof (proj2 (geb_false (gw c) (gw_prev c)) g2) as e1.
    pose proof (proj2 (gtb_spec (gw_prev c) (gw c)) g2) as e2. rewrite e1, e2 in E.
    destruct (wetting c), (scan_d c); cbn [andb negb] in E; inversion E; subst; auto 10.
Qed.
Lemma capillary_between p sc t0 fuel c c' : capillary p sc t0 fuel c = Some c' ->
  lies_between (wet_curve p (head c)) (dry_curve p (head c)) (moist_swr c').
Proof.
  unfold capillary. intros E. destruct sc; [destruct t0|].
  - inversion E; subst. apply between_l.
  - destruct (hdelta p fuel c) as [hd|]; [|discriminate].
    destruct (swr_curve p c _ _ _ _) as [[m scd] scw] eqn:S. inversion E; subst. cbn [moist_swr with_capillary].
    apply swr_cases in S. destruct S as [[_ [_ [[e _]|[e _]]]]|[_ [_ [[e _]|[e _]]]]]; subst m.
    + apply between_l.
    + apply limited_between.
    + apply between_r.
    + apply limited_between.
  - inversion E; subst. cbn [moist_swr with_capillary]. destruct (wetting c); [apply between_l|apply between_r].
Qed.
Lemma capillary_flags p fuel c c' : capillary p true false fuel c = Some c' ->
  ~ (scan_w c' = true /\ scan_d c' = true).
Proof.
  unfold capillary. intros E. destruct (hdelta p fuel c) as [hd|]; [|discriminate].
  destruct (swr_curve p c _ _ _ _) as [[m scd] scw] eqn:S. inversion E; subst. cbn [scan_w scan_d with_capillary].
  apply swr_cases in S. destruct S as [[_ [e _]]|[_ [e _]]]; subst; intros [? ?]; discriminate.
Qed.

(** ** Reversal *)
Lemma reversal_negative p a b d : alfaw p < 0 -> reversal_to_dry p a b d = 0.
Proof.
  intros. unfold reversal_to_dry. apply Rmax_right.
  set (y := pw _ (1 / nw p)). assert (0 <= y) by apply pw_nonneg.
  assert (1 / alfaw p < 0). { unfold Rdiv. rewrite Rmult_1_l. apply Rinv_lt_0_compat; auto. }
  assert (0 <= - (1 / alfaw p) * y) by (apply Rmult_le_pos; lra). lra.
Qed.
(** With a positive coefficient the curve at the computed height has the wanted value. *)
Lemma reversal_positive p sw wh dh (x := (sw - wh) * (satd p - wh) / (dh - wh) + wh) :
  0 < alfaw p -> 0 < nw p -> 0 < mw p -> resw p + 1 / 100000 <= x <= satw p ->
  wet_curve p (reversal_to_dry p sw wh dh) = x.
Proof.
  intros Ha Hn Hm Hx. unfold reversal_to_dry. fold x. rewrite (Rmin_left x) by lra. rewrite (Rmax_left (x - resw p)) by lra.
  set (g := (satw p - resw p) / (x - resw p)).
  assert (G : 1 <= g). { unfold g. apply Rmult_le_reg_r with (x - resw p); [lra|]. unfold Rdiv. rewrite Rmult_assoc, Rinv_l by lra. lra. }
  assert (1 <= pw g (1 / mw p)). { apply pw_ge_1; auto. left. unfold Rdiv. rewrite Rmult_1_l. apply Rinv_0_lt_compat; auto. }
  set (y := pw (pw g (1 / mw p) - 1) (1 / nw p)). assert (Y : 0 <= y) by apply pw_nonneg.
  assert (A : 0 < 1 / alfaw p). { unfold Rdiv. rewrite Rmult_1_l. apply Rinv_0_lt_compat; auto. }
  assert (0 <= 1 / alfaw p * y) by (apply Rmult_le_pos; lra). rewrite Rmax_left by lra.
  unfold wet_curve, curve. replace (alfaw p * (1 / alfaw p * y)) with y by (field; lra). rewrite Rabs_right by lra.
  unfold y. rewrite pw_root by lra. replace (1 + (pw g (1 / mw p) - 1)) with (pw g (1 / mw p)) by ring. rewrite pw_root by lra.
  unfold g. field. split; [|lra]. lra.
Qed.
Lemma reversal_continuous p sw wh dh (x := (sw - wh) * (satd p - wh) / (dh - wh) + wh) :
  0 < alfaw p -> 0 < nw p -> 0 < mw p -> resw p + 1 / 100000 <= x <= satw p -> wh < dh -> 1 / 10000 <= satd p - wh ->
  scan_d_raw p wh dh (wet_curve p (reversal_to_dry p sw wh dh)) = sw.
Proof.
  intros. unfold x in *. rewrite reversal_positive by auto. unfold scan_d_raw. rewrite Rmax_left by lra. field. lra.
Qed.

(** ** The search *)
Lemma tried_S k : tried k + 1 / 100 = tried (S k).
Proof. unfold tried. rewrite S_INR. field. Qed.
Lemma search_sound p wh sd fuel F k h : search p wh sd fuel F (tried k) = Some h ->
  (F <= 1 / 100 /\ h = tried k) \/
  (1 / 100 < F /\ exists j, (k < j)%nat /\ h = tried j /\ scan_gap p wh sd h <= 1 / 100 /\ forall i, (k < i < j)%nat -> 1 / 100 < scan_gap p wh sd (tried i)).
Proof.
  revert F k. induction fuel as [|fuel IH]; intros F k E; cbn [search] in E.
  - destruct (gtb F (1 / 100)) eqn:G; [discriminate|]. left. apply gtb_false in G. inversion E; auto.
  - destruct (gtb F (1 / 100)) eqn:G.
    + right. apply gtb_spec in G. split; [auto|]. rewrite tried_S in E. apply IH in E.
      destruct E as [[G1 e]|[G1 [j [K [e [G2 O]]]]]].
      * exists (S k). subst h. repeat split; auto; intros; lia.
      * exists j. repeat split; auto; [lia|]. intros i I. destruct (Nat.eq_dec i (S k)); [subst; auto|apply O; lia].
    + left. apply gtb_false in G. inversion E; auto.
Qed.
Lemma search_reaches p wh sd n F k : scan_gap p wh sd (tried (k + S n)) <= 1 / 100 -> exists fuel h, search p wh sd fuel F (tried k) = Some h.
Proof.
  revert F k. induction n as [|n IH]; intros F k G.
  - exists 1%nat. cbn [search]. destruct (gtb F (1 / 100)); [|eauto]. rewrite tried_S. replace (k + 1)%nat with (S k) in G by lia.
    apply gtb_false in G. rewrite G. eauto.
  - destruct (IH (scan_gap p wh sd (tried (S k))) (S k)) as [fuel [h E]].
    { replace (S k + S n)%nat with (k + S (S n))%nat by lia. auto. }
    exists (S fuel). cbn [search]. destruct (gtb F (1 / 100)); [|eauto]. rewrite tried_S. eauto.
Qed.

(** The drying curve comes down to the residual moisture. *)
Lemma curve_tail res sat alfa n m e : res <= sat -> 0 < n -> 0 < m -> alfa <> 0 -> 0 < e ->
  exists k, (1 <= k)%nat /\ curve res sat alfa n m (tried k) - res <= e.
Proof.
  intros H Hn Hm Ha He.
  set (M := Rmax 1 ((sat - res) / e)). assert (1 <= M) by apply Rmax_l. assert (M2 : (sat - res) / e <= M) by apply Rmax_r.
  set (y := Rpower M (1 / (n * m))). assert (0 < y) by apply exp_pos. assert (0 < Rabs alfa) by (apply Rabs_pos_lt; auto).
  destruct (archimed (y / Rabs alfa * 100)) as [A _]. set (K := up (y / Rabs alfa * 100)) in *.
  assert (0 < y / Rabs alfa * 100). { apply Rmult_lt_0_compat; [|lra]. apply Rmult_lt_0_compat; auto. apply Rinv_0_lt_compat; auto. }
  assert (Kp : (0 < K)%Z). { apply lt_IZR. lra. }
  exists (Z.to_nat K). split; [lia|].
  assert (T : tried (Z.to_nat K) = IZR K / 100). { unfold tried. rewrite INR_IZR_INZ. rewrite Z2Nat.id by lia. auto. }
  unfold curve. rewrite T.
  assert (Y : y <= Rabs (alfa * (IZR K / 100))).
  { rewrite Rabs_mult. rewrite (Rabs_right (IZR K / 100)) by lra.
    apply Rmult_le_reg_r with (100 / Rabs alfa). { apply Rmult_lt_0_compat; [lra|]. apply Rinv_0_lt_compat; auto. }
    replace (Rabs alfa * (IZR K / 100) * (100 / Rabs alfa)) with (IZR K) by (field; lra).
    replace (y * (100 / Rabs alfa)) with (y / Rabs alfa * 100) by (field; lra). lra. }
  assert (P : M <= pw (1 + pw (Rabs (alfa * (IZR K / 100))) n) m).
  { assert (E : M = pw (pw y n) m).
    { unfold pw at 2. destruct (Rlt_dec 0 y); [|lra]. unfold pw. destruct (Rlt_dec 0 (Rpower y n)) as [|N]; [|exfalso; apply N; apply exp_pos].
      rewrite Rpower_mult. unfold y. rewrite Rpower_mult. replace (1 / (n * m) * (n * m)) with 1 by (field; lra). rewrite Rpower_1; lra. }
    rewrite E. apply pw_mono; [apply pw_nonneg| |lra]. assert (pw y n <= pw (Rabs (alfa * (IZR K / 100))) n) by (apply pw_mono; lra). lra. }
  replace (res + (sat - res) / pw (1 + pw (Rabs (alfa * (IZR K / 100))) n) m - res) with ((sat - res) / pw (1 + pw (Rabs (alfa * (IZR K / 100))) n) m) by ring.
  set (D := pw (1 + pw (Rabs (alfa * (IZR K / 100))) n) m) in *.
  apply Rmult_le_reg_r with D; [lra|]. unfold Rdiv. rewrite Rmult_assoc, Rinv_l, Rmult_1_r by lra.
  apply Rle_trans with (e * M).
  - apply Rmult_le_compat_l with (r := e) in M2; [|lra]. replace (e * ((sat - res) / e)) with (sat - res) in M2 by (field; lra). lra.
  - apply Rmult_le_compat_l; lra.
Qed.
Lemma gap_small p wh sd : sound_curves p -> resd p <= resw p -> wh <= sd -> wh <= satw p ->
  exists k, (1 <= k)%nat /\ scan_gap p wh sd (tried k) <= 1 / 100.
Proof.
  intros [Hw [Hd [Hnw [Hnd [Hmw [Hmd [Haw Had]]]]]]] R1 S1 S2.
  set (L := 1 + (satw p - wh) * 10000 * 100). assert (1 <= L) by (unfold L; lra).
  destruct (curve_tail (resd p) (satd p) (alfad p) (nd p) (md p) (/ L)) as [k [K1 K2]]; auto; try lra. { apply Rinv_0_lt_compat; lra. }
  exists k. split; auto. unfold scan_gap.
  assert (W := curve_range (resw p) (satw p) (alfaw p) (nw p) (mw p) (tried k) ltac:(lra) ltac:(lra)). fold (wet_curve p (tried k)) in W.
  fold (dry_curve p (tried k)) in K2.
  set (w := wet_curve p (tried k)) in *. set (d := dry_curve p (tried k)) in *.
  assert (M1 : 1 / 10000 <= Rmax (satw p - w) (1 / 10000)) by apply Rmax_r. set (mx := Rmax (satw p - w) (1 / 10000)) in *.
  assert (Q1 : 0 <= (satw p - wh) / mx). { apply Rmult_le_pos; [lra|]. left; apply Rinv_0_lt_compat; lra. }
  assert (Q2 : (satw p - wh) / mx <= (satw p - wh) * 10000).
  { apply Rmult_le_compat_l; [lra|]. replace 10000 with (/ (1 / 10000)) by field. apply Rinv_le_contravar; lra. }
  destruct (Rle_dec (d - w) 0).
  - assert (0 <= (satw p - wh) / mx * (w - d)) by (apply Rmult_le_pos; lra). lra.
  - assert (d - w <= / L) by lra.
    assert ((satw p - wh) / mx * (d - w) <= (satw p - wh) * 10000 * / L) by (apply Rmult_le_compat; lra).
    assert ((satw p - wh) * 10000 * / L <= 1 / 100).
    { apply Rmult_le_reg_r with L; [lra|]. rewrite Rmult_assoc, Rinv_l, Rmult_1_r by lra. unfold L. lra. }
    lra.
Qed.
Lemma hdelta_ends p c : sound_curves p -> resd p <= resw p -> consistent p c -> exists fuel h, hdelta p fuel c = Some h.
Proof.
  intros S R [C1 C2]. unfold hdelta. destruct (scan_d c && negb (wetting c) && gtb (gw c) (gw_prev c))%bool eqn:E.
  - destruct (gap_small p (w_h c) (scan_d_moist c) S R C1 C2) as [k [K G]].
    destruct k as [|k]; [lia|]. replace 0 with (tried 0) by (unfold tried; cbn; field). apply search_reaches with (n := k) (k := 0%nat). exact G.
  - exists 0%nat. eauto.
Qed.
Lemma capillary_consistent p fuel c c' : sound_curves p -> capillary p true false fuel c = Some c' -> consistent p c'.
Proof.
  intros [Hw [_ [_ [_ [Hmw _]]]]] E. unfold capillary in E. destruct (hdelta p fuel c) as [hd|]; [|discriminate].
  destruct (swr_curve p c _ _ _ _) as [[m scd] scw] eqn:S. inversion E; subst. unfold consistent. cbn [w_h scan_d_moist with_capillary]. split.
  - unfold limited. apply Rmax_r.
  - apply curve_range; lra.
Qed.
