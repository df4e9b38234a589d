(** Proofs about the wind: conversion, direction, components, roughness. *)
From Verif Require Import Base Wind_Model Wind_Spec.
From Coq Require Import Reals Lra Lia.
Open Scope R_scope.

Lemma gtb_spec x y : gtb x y = true <-> y < x.
Proof. unfold gtb. destruct (Rlt_dec y x); split; intros; try discriminate; auto; contradiction. Qed.
Lemma gtb_false x y : gtb x y = false <-> x <= y.
Proof. unfold gtb. destruct (Rlt_dec y x); split; intros; try discriminate; auto; lra. Qed.
Lemma eqb_spec x y : eqb x y = true <-> x = y.
Proof. unfold eqb. destruct (Req_EM_T x y); split; intros; try discriminate; auto; contradiction. Qed.
Lemma eqb_false x y : eqb x y = false <-> x <> y.
Proof. unfold eqb. destruct (Req_EM_T x y); split; intros; try discriminate; auto; contradiction. Qed.
Lemma sq_nonneg x : 0 <= x * x.
Proof. apply Rle_0_sqr. Qed.
Lemma hypot_nonneg x y : 0 <= hypot x y.
Proof. apply sqrt_pos. Qed.
Lemma hypot_sq x y : hypot x y * hypot x y = x * x + y * y.
Proof. apply sqrt_sqrt. pose proof (sq_nonneg x); pose proof (sq_nonneg y); lra. Qed.
Lemma hypot_scale c x y : hypot (c * x) (c * y) = Rabs c * hypot x y.
Proof.
  unfold hypot. replace (c * x * (c * x) + c * y * (c * y)) with (Rabs c * Rabs c * (x * x + y * y)).
  - rewrite sqrt_mult; [|apply sq_nonneg|pose proof (sq_nonneg x); pose proof (sq_nonneg y); lra]. rewrite sqrt_square by apply Rabs_pos. auto.
  - assert (E : Rabs c * Rabs c = c * c) by (rewrite <- Rabs_mult, Rabs_right; auto; apply Rle_ge, sq_nonneg). rewrite E. ring.
Qed.
Lemma hypot_polar u a : hypot (- u * sin a) (- u * cos a) = Rabs u.
Proof.
  rewrite hypot_scale, Rabs_Ropp. unfold hypot. replace (sin a * sin a + cos a * cos a) with 1 by (symmetry; apply sin2_cos2). rewrite sqrt_1. ring.
Qed.
Lemma hypot_zero x y : hypot x y = 0 -> x = 0 /\ y = 0.
Proof.
  intros E. pose proof (hypot_sq x y) as Q. rewrite E in Q. pose proof (sq_nonneg x); pose proof (sq_nonneg y).
  split; apply Rsqr_0_uniq; unfold Rsqr; lra.
Qed.

(** ** Conversion *)
Lemma nautical ws ws' : initialize Nautical (Some ws) = Ok (Some ws') ->
  converted (fun d d' => (d <> 0 -> d' = d) /\ (d = 0 -> d' = 1 / 100)) ws ws'.
Proof.
  intros E. cbn [initialize] in E. inversion E; subst; clear E. unfold converted. induction ws as [|w ws IH]; cbn [map]; constructor; auto.
  destruct (eqb (dir w) 0) eqn:F; cbn [at_t speed dir with_dir].
  - apply eqb_spec in F. repeat split; auto; lra.
  - apply eqb_false in F. repeat split; auto; contradiction.
Qed.
Lemma cartesian ws ws' : initialize Cartesian (Some ws) = Ok (Some ws') ->
  converted (fun d d' => (d <> 270 -> d' = 270 - d) /\ (d = 270 -> d' = - (1 / 100))) ws ws'.
Proof.
  intros E. cbn [initialize] in E. inversion E; subst; clear E. unfold converted. induction ws as [|w ws IH]; cbn [map]; constructor; auto.
  cbn [at_t speed dir with_dir]. destruct (eqb (dir w) 270) eqn:F.
  - apply eqb_spec in F. repeat split; intros; auto; lra.
  - apply eqb_false in F. repeat split; auto; contradiction.
Qed.
Lemma radians_270 x : sin (radians (270 - x)) = - cos (radians x) /\ cos (radians (270 - x)) = - sin (radians x).
Proof.
  replace (radians (270 - x)) with (3 * (PI / 2) - radians x) by (unfold radians; field). rewrite sin_minus, cos_minus.
  rewrite sin_3PI2, cos_3PI2. split; ring.
Qed.

(** ** Interpolation *)
Lemma interp_mix x : forall a rest, in_order a rest -> exists u v lam, (u = v \/ adjacent u v a rest) /\ In u (a :: rest) /\ 0 <= lam <= 1 /\
  forall f, interp_from f x a rest = (1 - lam) * f u + lam * f v.
Proof.
  intros a rest. revert a. induction rest as [|b rest IH]; intros a O.
  - exists a, a, 0. repeat split; try lra; auto. left; auto. intros. cbn. lra.
  - cbn [interp_from]. destruct O as [O1 O2]. destruct (Rlt_dec x (at_t b)).
    + destruct (Rle_dec x (at_t a)).
      * exists a, a, 0. repeat split; try lra; auto. left; auto. intros. lra.
      * exists a, b, ((x - at_t a) / (at_t b - at_t a)). assert (P : 0 < at_t b - at_t a) by lra. split; [right; left; auto|]. split; [left; auto|]. split.
        -- split; [unfold Rdiv; apply Rmult_le_pos; [lra|left; apply Rinv_0_lt_compat; auto]|]. apply Rmult_le_reg_r with (at_t b - at_t a); auto.
           unfold Rdiv. rewrite Rmult_assoc, Rinv_l by lra. lra.
        -- intros. field. lra.
    + destruct (IH b O2) as [u [v [lam [A [I [L F]]]]]]. exists u, v, lam. split; [destruct A; [left; auto|right; right; auto]|]. split; [right; auto|]. split; auto.
Qed.
Lemma circular_mix t a rest : in_order a rest -> exists u v lam, (u = v \/ adjacent u v a rest) /\ In u (a :: rest) /\ 0 <= lam <= 1 /\
  forall f, interp_circular f t a rest = (1 - lam) * f u + lam * f v.
Proof. intros. apply interp_mix; auto. Qed.

(** ** Direction *)
Lemma root_of_sum y x : 0 < x -> sqrt (1 + Rsqr (y / x)) = hypot x y / x.
Proof.
  intros P. unfold hypot. replace (1 + Rsqr (y / x)) with ((x * x + y * y) * (/ x * / x)) by (unfold Rsqr; field; lra).
  rewrite sqrt_mult; [|pose proof (sq_nonneg x); pose proof (sq_nonneg y); lra|apply sq_nonneg].
  rewrite sqrt_square; [auto|left; apply Rinv_0_lt_compat; auto].
Qed.
Lemma hypot_opp x y : hypot (- x) (- y) = hypot x y.
Proof. unfold hypot. f_equal. ring. Qed.
Lemma hypot_pos x y : x <> 0 \/ y <> 0 -> 0 < hypot x y.
Proof. intros H. destruct (hypot_nonneg x y) as [|E]; auto. symmetry in E. apply hypot_zero in E. destruct H; lra. Qed.
Lemma polar_pos y x : 0 < x -> hypot x y * sin (atan (y / x)) = y /\ hypot x y * cos (atan (y / x)) = x.
Proof.
  intros P. rewrite sin_atan, cos_atan, root_of_sum by auto. assert (0 < hypot x y) by (apply hypot_pos; left; lra). split; field; lra.
Qed.
Lemma polar y x : hypot x y * sin (atan2 y x) = y /\ hypot x y * cos (atan2 y x) = x.
Proof.
  unfold atan2. destruct (Rlt_dec 0 x); [apply polar_pos; auto|]. destruct (Rlt_dec x 0).
  - destruct (polar_pos (- y) (- x)) as [S C]; [lra|]. rewrite hypot_opp in *. replace (- y / - x) with (y / x) in * by (field; lra).
    destruct (Rle_dec 0 y).
    + rewrite neg_sin, neg_cos. split; lra.
    + replace (atan (y / x) - PI) with (- (PI - atan (y / x))) by ring. rewrite sin_neg, cos_neg.
      rewrite sin_minus, cos_minus, sin_PI, cos_PI. split; lra.
  - assert (x = 0) by lra. subst x. assert (E : hypot 0 y = Rabs y).
    { unfold hypot. rewrite Rmult_0_l, Rplus_0_l. apply sqrt_Rsqr_abs. }
    rewrite E. destruct (Rlt_dec 0 y); [rewrite sin_PI2, cos_PI2, Rabs_right by lra; lra|].
    destruct (Rlt_dec y 0); [rewrite sin_neg, cos_neg, sin_PI2, cos_PI2, Rabs_left by lra; lra|].
    assert (y = 0) by lra. subst. rewrite Rabs_R0. lra.
Qed.
Lemma atan_sign w : (0 <= w -> 0 <= atan w) /\ (0 < w -> 0 < atan w) /\ (w <= 0 -> atan w <= 0).
Proof.
  split; [|split]; intros H.
  - destruct H; [left; rewrite <- atan_0; apply atan_increasing; auto|subst; rewrite atan_0; lra].
  - rewrite <- atan_0. apply atan_increasing; auto.
  - destruct H; [left; rewrite <- atan_0; apply atan_increasing; auto|subst; rewrite atan_0; lra].
Qed.
Lemma atan2_range y x : - PI < atan2 y x <= PI.
Proof.
  pose proof PI_RGT_0. unfold atan2. pose proof (atan_bound (y / x)). destruct (Rlt_dec 0 x); [lra|]. destruct (Rlt_dec x 0).
  - destruct (Rle_dec 0 y).
    + assert (y / x <= 0) by (unfold Rdiv; assert (/ x < 0) by (apply Rinv_lt_0_compat; auto); replace (y * / x) with (- (y * - / x)) by ring; assert (0 <= y * - / x) by (apply Rmult_le_pos; lra); lra).
      destruct (atan_sign (y / x)) as [_ [_ A]]. specialize (A H1). lra.
    + assert (0 < y / x) by (unfold Rdiv; assert (/ x < 0) by (apply Rinv_lt_0_compat; auto); replace (y * / x) with (- y * - / x) by ring; apply Rmult_lt_0_compat; lra).
      destruct (atan_sign (y / x)) as [_ [A _]]. specialize (A H1). lra.
  - destruct (Rlt_dec 0 y); [lra|]. destruct (Rlt_dec y 0); lra.
Qed.
(** A mix of two unit vectors at less than half a turn points in between. *)
Lemma mix_between d lam : 0 <= d < PI -> 0 <= lam <= 1 ->
  let C := (1 - lam) + lam * cos d in let S := lam * sin d in
  0 < hypot C S /\ exists phi, 0 <= phi <= d /\ C = hypot C S * cos phi /\ S = hypot C S * sin phi.
Proof.
  intros D L C S. pose proof PI_RGT_0 as PP. assert (sd : 0 <= sin d) by (apply sin_ge_0; lra).
  assert (PS : 0 <= S) by (apply Rmult_le_pos; lra).
  assert (cd : -1 < cos d). { rewrite <- cos_PI. apply cos_decreasing_1; lra. }
  assert (P : 0 < hypot C S).
  { apply hypot_pos. destruct (Req_dec lam 0); [left; unfold C; subst; lra|]. destruct D as [[D|D] D'].
    - right. unfold S. assert (0 < sin d) by (apply sin_gt_0; lra). assert (0 < lam * sin d) by (apply Rmult_lt_0_compat; lra). lra.
    - left. unfold C. subst. rewrite cos_0. lra. }
  split; auto. exists (atan2 S C). destruct (polar S C) as [E1 E2].
  pose proof (atan2_range S C) as [R1 R2].
  assert (N : 0 <= atan2 S C).
  { destruct (Rle_dec 0 (atan2 S C)); auto. exfalso. assert (N : sin (atan2 S C) < 0) by (apply sin_lt_0_var; lra).
    assert (0 < hypot C S * - sin (atan2 S C)) by (apply Rmult_lt_0_compat; lra). lra. }
  repeat split; auto.
  assert (X : 0 <= sin (d - atan2 S C)).
  { apply Rmult_le_reg_l with (hypot C S); auto. rewrite Rmult_0_r, sin_minus.
    replace (hypot C S * (sin d * cos (atan2 S C) - cos d * sin (atan2 S C))) with (sin d * (hypot C S * cos (atan2 S C)) - cos d * (hypot C S * sin (atan2 S C))) by ring.
    rewrite E1, E2. unfold C, S. replace (sin d * (1 - lam + lam * cos d) - cos d * (lam * sin d)) with ((1 - lam) * sin d) by ring. apply Rmult_le_pos; lra. }
  destruct (Rle_dec (atan2 S C) d); auto. exfalso.
  assert (- PI < d - atan2 S C).
  { destruct (Req_dec d 0) as [Z|]; [|lra]. destruct R2 as [|R2]; [lra|]. exfalso. rewrite R2, cos_PI in E2. assert (C = 1) by (unfold C; rewrite Z, cos_0; ring). lra. }
  assert (sin (d - atan2 S C) < 0) by (apply sin_lt_0_var; lra). lra.
Qed.
Lemma hypot_comm x y : hypot x y = hypot y x.
Proof. unfold hypot. f_equal. ring. Qed.
Lemma polar_same r a y x : 0 < r -> y = r * sin a -> x = r * cos a -> sin (atan2 y x) = sin a /\ cos (atan2 y x) = cos a.
Proof.
  intros P EY EX. destruct (polar y x) as [A B].
  assert (H : hypot x y = r). { rewrite EX, EY, hypot_scale, Rabs_right by lra. unfold hypot. replace (cos a * cos a + sin a * sin a) with 1 by (symmetry; rewrite Rplus_comm; apply sin2_cos2). rewrite sqrt_1. ring. }
  rewrite H in *. split; apply Rmult_eq_reg_l with r; lra.
Qed.
Lemma arc_up a b lam : a <= b < a + PI -> 0 <= lam <= 1 ->
  exists th, a <= th <= b /\ sin (atan2 ((1 - lam) * sin a + lam * sin b) ((1 - lam) * cos a + lam * cos b)) = sin th /\
    cos (atan2 ((1 - lam) * sin a + lam * sin b) ((1 - lam) * cos a + lam * cos b)) = cos th.
Proof.
  intros D L. destruct (mix_between (b - a) lam) as [P [phi [F [EC ES]]]]; [lra|auto|].
  set (C := 1 - lam + lam * cos (b - a)) in *. set (S := lam * sin (b - a)) in *. set (r := hypot C S) in *.
  exists (a + phi). split; [lra|]. apply polar_same with r; auto.
  - rewrite sin_plus. replace (r * (sin a * cos phi + cos a * sin phi)) with (sin a * (r * cos phi) + cos a * (r * sin phi)) by ring. rewrite <- EC, <- ES. unfold C, S.
    replace b with (a + (b - a)) at 1 by ring. rewrite sin_plus. ring.
  - rewrite cos_plus. replace (r * (cos a * cos phi - sin a * sin phi)) with (cos a * (r * cos phi) - sin a * (r * sin phi)) by ring. rewrite <- EC, <- ES. unfold C, S.
    replace b with (a + (b - a)) at 1 by ring. rewrite cos_plus. ring.
Qed.
Lemma arc a b lam : Rabs (a - b) < PI -> 0 <= lam <= 1 ->
  exists th, on_arc a b th /\ sin (atan2 ((1 - lam) * sin a + lam * sin b) ((1 - lam) * cos a + lam * cos b)) = sin th /\
    cos (atan2 ((1 - lam) * sin a + lam * sin b) ((1 - lam) * cos a + lam * cos b)) = cos th.
Proof.
  intros D L. apply Rabs_def2 in D. destruct (Rle_dec a b).
  - destruct (arc_up a b lam) as [th [T E]]; [lra|auto|]. exists th. split; [left|]; auto.
  - destruct (arc_up b a (1 - lam)) as [th [T E]]; [lra|lra|]. exists th. split; [right; auto|].
    replace ((1 - lam) * sin a + lam * sin b) with ((1 - (1 - lam)) * sin b + (1 - lam) * sin a) by ring.
    replace ((1 - lam) * cos a + lam * cos b) with ((1 - (1 - lam)) * cos b + (1 - lam) * cos a) by ring. auto.
Qed.
Lemma radians_degrees a : radians (degrees a) = a.
Proof. unfold radians, degrees. field. apply PI_neq0. Qed.
Lemma degrees_radians a : degrees (radians a) = a.
Proof. unfold radians, degrees. field. apply PI_neq0. Qed.
Lemma radians_lt a b : a < b -> radians a < radians b.
Proof. intros. unfold radians. pose proof PI_RGT_0. apply Rmult_lt_compat_r; auto. lra. Qed.
Lemma radians_le a b : a <= b <-> radians a <= radians b.
Proof.
  split; intros H.
  - destruct H; [left; apply radians_lt; auto|subst; lra].
  - destruct (Rle_dec a b); auto. exfalso. assert (radians b < radians a) by (apply radians_lt; lra). lra.
Qed.
Lemma radians_180 : radians 180 = PI.
Proof. unfold radians. field. Qed.
Lemma radians_sub a b : radians (a - b) = radians a - radians b.
Proof. unfold radians. field. Qed.
Lemma direction_range t a rest : - 180 < snd (wind_at t a rest) <= 180.
Proof.
  unfold wind_at; cbn [snd].
  set (w := atan2 (interp_circular (fun w => sin (radians (dir w))) t a rest) (interp_circular (fun w => cos (radians (dir w))) t a rest)).
  assert (R : - PI < w <= PI) by apply atan2_range. pose proof PI_RGT_0.
  replace (-180) with (degrees (- PI)) by (unfold degrees; field; lra). replace 180 with (degrees PI) by (unfold degrees; field; lra).
  unfold degrees, Rdiv. assert (0 < / PI) by (apply Rinv_0_lt_compat; auto). split.
  - apply Rmult_lt_compat_r; lra.
  - apply Rmult_le_compat_r; lra.
Qed.
Lemma direction_between t a rest : in_order a rest -> exists u v, In u (a :: rest) /\ (u = v \/ adjacent u v a rest) /\
  on_arc (speed u) (speed v) (fst (wind_at t a rest)) /\
  forall e, same_direction e (dir u) -> Rabs (e - dir v) < 180 -> exists th, on_arc e (dir v) th /\ same_direction (snd (wind_at t a rest)) th.
Proof.
  intros O. destruct (circular_mix t a rest O) as [u [v [lam [A [I [L F]]]]]]. exists u, v. split; auto. split; auto. unfold wind_at; cbn [fst snd]. split.
  - rewrite F. unfold on_arc. destruct (Rle_dec (speed u) (speed v)); [left|right].
    + assert (0 <= lam * (speed v - speed u)) by (apply Rmult_le_pos; lra). assert (0 <= (1 - lam) * (speed v - speed u)) by (apply Rmult_le_pos; lra). lra.
    + assert (0 <= lam * (speed u - speed v)) by (apply Rmult_le_pos; lra). assert (0 <= (1 - lam) * (speed u - speed v)) by (apply Rmult_le_pos; lra). lra.
  - intros e [SE CE] D. rewrite !F, <- SE, <- CE.
    destruct (arc (radians e) (radians (dir v)) lam) as [th [T [S C]]]; auto.
    { rewrite <- radians_sub. apply Rabs_def2 in D. apply Rabs_def1; [rewrite <- radians_180; apply radians_lt; lra|].
      replace (- PI) with (radians (-180)) by (unfold radians; field). apply radians_lt; lra. }
    exists (degrees th). split.
    + unfold on_arc in *. rewrite <- (radians_degrees th) in T. rewrite <- !radians_le in T. auto.
    + unfold same_direction. rewrite !radians_degrees. auto.
Qed.

(** ** Components and stress *)
Lemma blow_ok p gr u d s s' : blow p gr u d s = Ok s' ->
  exists z0, calculate_z0 p gr (Rabs u) = Ok z0 /\ uw s' = Rabs u /\ udir s' = d /\ uws s' = - u * sin (radians (- alfa p + d)) /\ uwn s' = - u * cos (radians (- alfa p + d)) /\
  ustars s' = uws s' * kappa p / ln (z p / z0) /\ ustarn s' = uwn s' * kappa p / ln (z p / z0) /\ ustar s' = hypot (ustars s') (ustarn s').
Proof.
  unfold blow. destruct (calculate_z0 p gr (Rabs u)) as [z0|e]; cbn [bind]; [|discriminate]. intros E. inversion E; subst; clear E.
  exists z0. cbn. repeat split; auto.
Qed.
Lemma velocity_stress_coherent rho s : 0 <= rho -> ustar s = hypot (ustars s) (ustarn s) -> coherent rho (velocity_stress rho s).
Proof.
  intros P E. unfold coherent. cbn [ustar tau ustars ustarn taus taun velocity_stress].
  assert (N : 0 <= ustar s) by (rewrite E; apply hypot_nonneg).
  destruct (eqb (ustar s) 0) eqn:Z.
  - apply eqb_spec in Z. rewrite Z. repeat split; try lra; try (rewrite <- E, Z; auto).
    unfold hypot. rewrite Rmult_0_l, Rplus_0_l. apply sqrt_0.
  - apply eqb_false in Z. assert (0 < ustar s) by lra. pose proof H as G. apply gtb_spec in G. rewrite G.
    assert (T : hypot (rho * (ustar s * ustar s) * ustars s / ustar s) (rho * (ustar s * ustar s) * ustarn s / ustar s) = rho * (ustar s * ustar s)).
    { replace (rho * (ustar s * ustar s) * ustars s / ustar s) with (rho * ustar s * ustars s) by (field; lra).
      replace (rho * (ustar s * ustar s) * ustarn s / ustar s) with (rho * ustar s * ustarn s) by (field; lra).
      rewrite hypot_scale, <- E, Rabs_right; [ring|]. apply Rle_ge. apply Rmult_le_pos; lra. }
    rewrite T. repeat split; auto; try (field; lra). apply Rmult_le_pos; auto. apply sq_nonneg.
Qed.
Lemma stress_velocity_inverse rho s : 0 < rho -> coherent rho s -> stress_velocity rho s = s.
Proof.
  intros P [U [T [HU [HT [Q [S N]]]]]]. destruct s as [a b c d u us un t ts tn]. cbn [ustar tau ustars ustarn taus taun] in *.
  unfold stress_velocity. cbn [uw udir uws uwn ustar ustars ustarn tau taus taun].
  assert (R : sqrt (t / rho) = u). { rewrite Q. replace (rho * (u * u) / rho) with (u * u) by (field; lra). apply sqrt_square; auto. }
  rewrite R. destruct (eqb t 0) eqn:Z.
  - apply eqb_spec in Z. assert (U0 : u = 0) by (apply Rsqr_0_uniq; unfold Rsqr; apply Rmult_eq_reg_l with rho; lra).
    rewrite U0 in HU. apply hypot_zero in HU. destruct HU as [-> ->]. rewrite U0. reflexivity.
  - apply eqb_false in Z. assert (0 < t) by lra. pose proof H as G. apply gtb_spec in G. rewrite G. f_equal; [rewrite (Rmult_comm u), S|rewrite (Rmult_comm u), N]; field; lra.
Qed.
Lemma blow_coherent p gr u d s s' : 0 <= rhoa p -> blow p gr u d s = Ok s' -> coherent (rhoa p) s'.
Proof.
  unfold blow. destruct (calculate_z0 p gr (Rabs u)) as [z0|e]; cbn [bind]; [|discriminate]. intros P E. inversion E; subst; clear E.
  apply velocity_stress_coherent; auto.
Qed.
Lemma coherent_zero rho s : 0 < rho -> coherent rho s -> (ustar s = 0 <-> tau s = 0).
Proof.
  intros P [U [T [_ [_ [Q _]]]]]. split; intros E; rewrite Q in *.
  - rewrite E. ring.
  - apply Rsqr_0_uniq. unfold Rsqr. apply Rmult_eq_reg_l with rho; lra.
Qed.

(** ** Roughness *)
Lemma vanrijn_value p gr u z0 : method_roughness p = VanRijn -> calculate_z0 p gr u = Ok z0 -> proper p -> proper_grains gr -> d90 gr / 30 <= z0.
Proof.
  intros M E P G. unfold calculate_z0 in E. rewrite M in E.
  set (a := kappa p * (u / ln (30 * z p / d90 gr))) in *. set (b := 1 / 10 * sqrt ((rhog p - rhoa p) / rhoa p * g p * d50 gr)) in *.
  destruct (Req_EM_T ((a * a - b * b) / (b * b)) 0) as [|N]; [discriminate|]. inversion E; subst; clear E.
  destruct P as [_ [_ [_ [R G0]]]]. destruct G as [_ [G1 G2]].
  assert (B : 0 < b).
  { unfold b. apply Rmult_lt_0_compat; [lra|]. apply sqrt_lt_R0. apply Rmult_lt_0_compat; auto. apply Rmult_lt_0_compat; auto. unfold Rdiv. apply Rmult_lt_0_compat; [lra|apply Rinv_0_lt_compat; lra]. }
  assert (B2 : 0 < b * b) by (apply Rmult_lt_0_compat; auto).
  assert (N2 : a * a - b * b <> 0). { intros X. apply N. rewrite X. unfold Rdiv. ring. }
  replace (15 * (1 + 1 / ((a * a - b * b) / (b * b))) * d50 gr * ((a * a - b * b) / (b * b))) with (15 * d50 gr * (a * a * / (b * b))) by (field; lra).
  assert (0 <= 15 * d50 gr * (a * a * / (b * b))) by (apply Rmult_le_pos; [lra|apply Rmult_le_pos; [apply sq_nonneg|left; apply Rinv_0_lt_compat; auto]]). lra.
Qed.
Lemma roughness_positive p gr u z0 : proper p -> proper_grains gr -> 0 < rsum (products (grain_size p) (grain_dist p)) -> calculate_z0 p gr u = Ok z0 -> 0 < z0.
Proof.
  intros P G S E. destruct (method_roughness p) eqn:M; try (unfold calculate_z0 in E; rewrite M in E; inversion E; subst; destruct P as [K _]; destruct G as [G1 [G2 G3]]; lra).
  - pose proof (vanrijn_value _ _ _ _ M E P G). destruct G as [G1 [G2 G3]]. lra.
Qed.
Lemma ln_ratio z0 zz : 0 < z0 < zz -> 0 < ln (zz / z0).
Proof.
  intros. rewrite <- ln_1. apply ln_increasing; [lra|]. apply Rmult_lt_reg_r with z0; [lra|]. unfold Rdiv. rewrite Rmult_assoc, Rinv_l; lra.
Qed.
Lemma ln_ratio_neg z0 zz : 0 < zz < z0 -> ln (zz / z0) < 0.
Proof.
  intros. assert (0 < zz / z0) by (unfold Rdiv; apply Rmult_lt_0_compat; [lra|apply Rinv_0_lt_compat; lra]). rewrite <- ln_1. apply ln_increasing; auto. apply Rmult_lt_reg_r with z0; [lra|].
  unfold Rdiv. rewrite Rmult_assoc, Rinv_l; lra.
Qed.
Lemma shear_follows p gr u d s s' z0 : proper p -> calculate_z0 p gr (Rabs u) = Ok z0 -> 0 < z0 < z p -> blow p gr u d s = Ok s' ->
  exists c, 0 < c /\ c = kappa p / ln (z p / z0) /\ ustars s' = c * uws s' /\ ustarn s' = c * uwn s' /\ ustar s' = c * uw s'.
Proof.
  intros P Z B E. destruct (blow_ok _ _ _ _ _ _ E) as [z1 [Z1 [U [_ [US [UN [SS [SN S]]]]]]]]. rewrite Z in Z1. inversion Z1; subst z1.
  pose proof (ln_ratio _ _ B). exists (kappa p / ln (z p / z0)). destruct P as [_ [_ [K _]]].
  assert (C : 0 < kappa p / ln (z p / z0)) by (unfold Rdiv; apply Rmult_lt_0_compat; auto; apply Rinv_0_lt_compat; auto).
  split; auto. split; auto.
  assert (E1 : ustars s' = kappa p / ln (z p / z0) * uws s') by (rewrite SS; field; lra).
  assert (E2 : ustarn s' = kappa p / ln (z p / z0) * uwn s') by (rewrite SN; field; lra).
  split; auto. split; auto. rewrite S, E1, E2, hypot_scale, US, UN, hypot_polar, U, Rabs_right by lra. auto.
Qed.
