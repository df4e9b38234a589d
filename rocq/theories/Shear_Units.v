(** Proofs about the unit of length and about the deflection of the wind. *)
From Coq Require Import Reals Lra Lia Psatz ZArith.
From Verif Require Import Base Shear_Model Shear_Spec Shear_Proofs Shear_Fourier.
Open Scope R_scope.

Lemma inner_scale s z0 len : 0 < s -> 0 < z0 -> forall k h, inner_layer k (s * z0) (s * len) (s * h) = s * inner_layer k z0 len h.
Proof.
  intros Hs Hz. induction k; intros h; [reflexivity|]. simpl. rewrite <- IHk. f_equal. replace (s * h / (s * z0)) with (h / z0) by (field; lra). unfold Rdiv. ring.
Qed.
Lemma middle_scale s z0 len : 0 < s -> 0 < z0 -> forall k h, middle_layer k (s * z0) (s * len) (s * h) = s * middle_layer k z0 len h.
Proof.
  intros Hs Hz. induction k; intros h; [reflexivity|]. simpl. rewrite <- IHk. f_equal. replace (s * h / (s * z0)) with (h / z0) by (field; lra). unfold Rdiv. ring.
Qed.
Lemma l_scale s L l0 z0 : 0 < s -> 0 < z0 -> l (s * L) (s * l0) (s * z0) = s * l L l0 z0.
Proof. intros Hs Hz. unfold l. replace (s * L / 4) with (s * (L / 4)) by field. apply inner_scale; assumption. Qed.
Lemma log_scale s L l0 z0 : 0 < s -> 0 < z0 -> ln (l (s * L) (s * l0) (s * z0) / (s * z0)) = ln (l L l0 z0 / z0).
Proof. intros Hs Hz. rewrite l_scale by assumption. f_equal. field. lra. Qed.
Lemma sigma_scale s L l0 z0 kx : 0 < s -> 0 < z0 -> sigma (s * L) (s * l0) (s * z0) (kx / s) = sigma L l0 z0 kx.
Proof.
  intros Hs Hz. unfold sigma. rewrite l_scale by assumption. f_equal. unfold Rdiv. rewrite Rinv_mult.
  transitivity ((s * / s) * (s * / s) * (L * / 4 * kx * z0 * / l L l0 z0)); [ring|]. rewrite Rinv_r by lra. ring.
Qed.
Lemma filter_x_scale s d k : 0 < s -> filter_x (s * d) (k / s) = filter_x d k.
Proof.
  intros Hs. unfold filter_x. assert (E : 2 * PI / (s * d) / Rabs (k / s) = 2 * PI / d / Rabs k).
  { unfold Rdiv. rewrite Rabs_mult, (Rabs_pos_eq (/ s)) by (left; apply Rinv_0_lt_compat; lra). rewrite !Rinv_mult, Rinv_inv.
    transitivity ((s * / s) * (2 * PI * / d * / Rabs k)); [ring|]. rewrite Rinv_r by lra. ring. }
  rewrite E. reflexivity.
Qed.
Lemma filter_y_scale s d k : 0 < s -> filter_y (s * d) (k / s) = filter_y d k.
Proof.
  intros Hs. unfold filter_y. assert (E : 2 * PI / (s * d) / Rabs (k / s) = 2 * PI / d / Rabs k).
  { unfold Rdiv. rewrite Rabs_mult, (Rabs_pos_eq (/ s)) by (left; apply Rinv_0_lt_compat; lra). rewrite !Rinv_mult, Rinv_inv.
    transitivity ((s * / s) * (2 * PI * / d * / Rabs k)); [ring|]. rewrite Rinv_r by lra. ring. }
  rewrite E. reflexivity.
Qed.
Lemma size_scale s kx ky : 0 < s -> wave_size (kx / s) (ky / s) = wave_size kx ky / s.
Proof.
  intros Hs. unfold wave_size. replace ((kx / s) ^ 2 + (ky / s) ^ 2) with ((kx ^ 2 + ky ^ 2) * (/ s) ^ 2) by (field; lra).
  rewrite sqrt_mult_alt by nra. rewrite sqrt_pow2 by (left; apply Rinv_0_lt_compat; lra). reflexivity.
Qed.
Lemma wave_scale s n d i : 0 < s -> wave n (s * d) i = wave n d i / s.
Proof. intros Hs. unfold wave, fftfreq, Rdiv. rewrite !Rinv_mult. ring. Qed.
(** The transfer functions without the factor for the velocity at the inner layer. *)
Definition base_x kv dx dy L l0 z0 (kx ky : R) : complex :=
  cmul (real (filter_x dx kx * filter_y dy ky * (kx ^ 2 / wave_size kx ky * 2)))
    (cadd (real (- 1)) (cmul (real (2 * ln (l L l0 z0 / z0) + wave_size kx ky ^ 2 / kx ^ 2))
       (cdiv (cmul (sigma L l0 z0 kx) (kv 1 (cmul (real 2) (sigma L l0 z0 kx)))) (kv 0 (cmul (real 2) (sigma L l0 z0 kx)))))).
Definition base_y kv dx dy L l0 z0 (kx ky : R) : complex :=
  cmul (real (filter_x dx kx * filter_y dy ky * (kx * ky / wave_size kx ky * 2 * 2 * sqrt 2)))
    (cmul (sigma L l0 z0 kx) (kv 1 (cmul (real (2 * sqrt 2)) (sigma L l0 z0 kx)))).
Lemma real_mul a b c : cmul (real (a * b)) c = cmul (real a) (cmul (real b) c).
Proof. unfold cmul, real. cbn [fst snd]. f_equal; ring. Qed.
Lemma transfer_x_base kv dx dy L l0 z0 kx ky : transfer_x kv dx dy L l0 z0 kx ky = cmul (real (/ ul L l0 z0 ^ 2)) (base_x kv dx dy L l0 z0 kx ky).
Proof. unfold transfer_x, base_x. rewrite <- real_mul. f_equal. f_equal. unfold Rdiv. ring. Qed.
Lemma transfer_y_base kv dx dy L l0 z0 kx ky : transfer_y kv dx dy L l0 z0 kx ky = cmul (real (/ ul L l0 z0 ^ 2)) (base_y kv dx dy L l0 z0 kx ky).
Proof. unfold transfer_y, base_y. rewrite <- real_mul. f_equal. f_equal. unfold Rdiv. ring. Qed.
Lemma base_x_scale s kv dx dy L l0 z0 kx ky : 0 < s -> 0 < z0 ->
  base_x kv (s * dx) (s * dy) (s * L) (s * l0) (s * z0) (kx / s) (ky / s) = cmul (real (/ s)) (base_x kv dx dy L l0 z0 kx ky).
Proof.
  intros Hs Hz. unfold base_x. rewrite filter_x_scale, filter_y_scale, size_scale, log_scale, !sigma_scale by assumption. rewrite <- real_mul.
  assert (I : / s <> 0) by (apply Rinv_neq_0_compat; lra).
  assert (E : (wave_size kx ky / s) ^ 2 / (kx / s) ^ 2 = wave_size kx ky ^ 2 / kx ^ 2).
  { unfold Rdiv. rewrite !Rpow_mult_distr, !Rinv_mult. simpl pow. rewrite !Rinv_mult, !Rmult_1_r, Rinv_inv, ?Rinv_1.
    transitivity ((s * / s) * (s * / s) * (wave_size kx ky * wave_size kx ky * (/ kx * / kx))); [ring|]. rewrite Rinv_r by lra. ring. }
  rewrite E. f_equal. f_equal. unfold Rdiv. rewrite Rinv_mult, Rinv_inv.
  transitivity ((s * / s) * (/ s * (filter_x dx kx * filter_y dy ky * (kx ^ 2 * / wave_size kx ky * 2)))); [ring|]. rewrite Rinv_r by lra. ring.
Qed.
Lemma base_y_scale s kv dx dy L l0 z0 kx ky : 0 < s -> 0 < z0 ->
  base_y kv (s * dx) (s * dy) (s * L) (s * l0) (s * z0) (kx / s) (ky / s) = cmul (real (/ s)) (base_y kv dx dy L l0 z0 kx ky).
Proof.
  intros Hs Hz. unfold base_y. rewrite filter_x_scale, filter_y_scale, size_scale, !sigma_scale by assumption. rewrite <- real_mul.
  f_equal. f_equal. unfold Rdiv. rewrite Rinv_mult, Rinv_inv.
  transitivity ((s * / s) * (/ s * (filter_x dx kx * filter_y dy ky * (kx * ky * / wave_size kx ky * 2 * 2 * sqrt 2)))); [ring|]. rewrite Rinv_r by lra. ring.
Qed.
Lemma perturb_factor dx dy dx' dy' t t' q m n z r c : (forall a b, t' (wave n dx' b) (wave m dy' a) = cmul (real q) (t (wave n dx b) (wave m dy a))) ->
  perturb dx' dy' t' m n z r c = q * perturb dx dy t m n z r c.
Proof.
  intros H. unfold perturb, ifft2_real.
  transitivity (fst (cmul (real q) (ctotal m (fun a => ctotal n (fun b => cmul (cmul (fft2 m n z a b) (t (wave n dx b) (wave m dy a))) (cis (phase m n r c a b)))))) / (INR m * INR n)).
  - do 2 f_equal. rewrite <- ctotal_mul. apply ctotal_ext. intros a _. rewrite <- ctotal_mul. apply ctotal_ext. intros b _. rewrite H. unfold cmul, real. cbn [fst snd]. f_equal; ring.
  - unfold cmul at 1, real. cbn [fst snd]. unfold Rdiv. ring.
Qed.
Lemma perturb_times dx dy t m n z k r c : perturb dx dy t m n (fun i j => k * z i j) r c = k * perturb dx dy t m n z r c.
Proof.
  pose proof (perturb_linear dx dy t m n (fun _ _ => 0) z k r c) as E. pose proof (perturb_linear dx dy t m n (fun _ _ => 0) (fun _ _ => 0) 1 r c) as E0.
  assert (X : forall z1 z2, (forall i j, z1 i j = z2 i j) -> perturb dx dy t m n z1 r c = perturb dx dy t m n z2 r c).
  { intros z1 z2 H. unfold perturb, ifft2_real. do 2 f_equal. apply ctotal_ext. intros a _. apply ctotal_ext. intros b _. do 2 f_equal. unfold fft2. apply ctotal_ext. intros i _. apply ctotal_ext. intros j _. rewrite H. reflexivity. }
  cbv beta in E, E0. rewrite (X (fun i j => 0 + 1 * 0) (fun _ _ => 0)) in E0 by (intros; ring). rewrite (X (fun i j => 0 + k * z i j) (fun i j => k * z i j)) in E by (intros; ring). lra.
Qed.
(** With [s] as the factor: the perturbation in the new unit, up to the velocities at the inner layer. *)
Lemma compute_scale kv dx dy L l0 z0 u0 m n z s r c : 0 < s -> 0 < z0 -> u0 <> 0 ->
  fst (compute_shear kv dx dy L l0 z0 u0 m n z) r c = / ul L l0 z0 ^ 2 * perturb dx dy (base_x kv dx dy L l0 z0) m n z r c /\
  snd (compute_shear kv dx dy L l0 z0 u0 m n z) r c = / ul L l0 z0 ^ 2 * perturb dx dy (base_y kv dx dy L l0 z0) m n z r c /\
  fst (compute_shear kv (s * dx) (s * dy) (s * L) (s * l0) (s * z0) u0 m n (fun i j => s * z i j)) r c = / ul (s * L) (s * l0) (s * z0) ^ 2 * perturb dx dy (base_x kv dx dy L l0 z0) m n z r c /\
  snd (compute_shear kv (s * dx) (s * dy) (s * L) (s * l0) (s * z0) u0 m n (fun i j => s * z i j)) r c = / ul (s * L) (s * l0) (s * z0) ^ 2 * perturb dx dy (base_y kv dx dy L l0 z0) m n z r c.
Proof.
  intros Hs Hz Hu. unfold compute_shear. destruct (Req_EM_T u0 0); [contradiction|]. cbn [fst snd]. rewrite !perturb_times.
  split; [|split; [|split]].
  - apply perturb_factor. intros. apply transfer_x_base.
  - apply perturb_factor. intros. apply transfer_y_base.
  - rewrite (perturb_factor dx dy (s * dx) (s * dy) (base_x kv dx dy L l0 z0) _ (/ ul (s * L) (s * l0) (s * z0) ^ 2 * / s)).
    + match goal with |- s * (?v * / s * ?w) = _ => transitivity ((s * / s) * (v * w)); [ring|] end. rewrite Rinv_r by lra. ring.
    + intros a b. rewrite !wave_scale by exact Hs. rewrite transfer_x_base, base_x_scale by assumption. symmetry. apply real_mul.
  - rewrite (perturb_factor dx dy (s * dx) (s * dy) (base_y kv dx dy L l0 z0) _ (/ ul (s * L) (s * l0) (s * z0) ^ 2 * / s)).
    + match goal with |- s * (?v * / s * ?w) = _ => transitivity ((s * / s) * (v * w)); [ring|] end. rewrite Rinv_r by lra. ring.
    + intros a b. rewrite !wave_scale by exact Hs. rewrite transfer_y_base, base_y_scale by assumption. symmetry. apply real_mul.
Qed.
Lemma c119_pattern : forall kv dx dy L l0 z0 u0 m n s z1 z2 r1 c1 r2 c2, 0 < s -> 0 < z0 ->
  let before z := compute_shear kv dx dy L l0 z0 u0 m n z in
  let after z := compute_shear kv (s * dx) (s * dy) (s * L) (s * l0) (s * z0) u0 m n (fun i j => s * z i j) in
  fst (after z1) r1 c1 * fst (before z2) r2 c2 = fst (before z1) r1 c1 * fst (after z2) r2 c2 /\
  snd (after z1) r1 c1 * snd (before z2) r2 c2 = snd (before z1) r1 c1 * snd (after z2) r2 c2 /\
  fst (after z1) r1 c1 * snd (before z2) r2 c2 = fst (before z1) r1 c1 * snd (after z2) r2 c2.
Proof.
  intros kv dx dy L l0 z0 u0 m n s z1 z2 r1 c1 r2 c2 Hs Hz before after. unfold before, after.
  destruct (Req_dec u0 0) as [E|N]. { unfold compute_shear. destruct (Req_EM_T u0 0); [|contradiction]. cbn [fst snd]. repeat split; ring. }
  destruct (compute_scale kv dx dy L l0 z0 u0 m n z1 s r1 c1 Hs Hz N) as [A [B [C D]]]. destruct (compute_scale kv dx dy L l0 z0 u0 m n z2 s r2 c2 Hs Hz N) as [A' [B' [C' D']]].
  rewrite A, B, C, D, A', B', C', D'. repeat split; ring.
Qed.

(** ** The middle layer *)
Lemma middle_step h : exp (- 8) <= h <= 1 -> exp (- 8) <= 1 / sqrt (ln (h / exp (- 10))) <= 1.
Proof. intros H. exact (middle_range 1 h H). Qed.
Lemma middle_strict h h' : exp (- 8) <= h <= 1 -> exp (- 8) <= h' <= 1 -> h < h' -> 1 / sqrt (ln (h' / exp (- 10))) < 1 / sqrt (ln (h / exp (- 10))).
Proof.
  intros H H' I. pose proof (log_range h H). pose proof (log_range h' H'). pose proof (exp_pos (- 10)) as P. pose proof (exp_pos (- 8)).
  assert (ln (h / exp (- 10)) < ln (h' / exp (- 10))).
  { apply ln_increasing; [apply Rdiv_lt_0_compat; lra|]. apply Rmult_lt_compat_r; [apply Rinv_0_lt_compat, P | exact I]. }
  assert (0 < sqrt (ln (h / exp (- 10)))) by (apply sqrt_lt_R0; lra). assert (sqrt (ln (h / exp (- 10))) < sqrt (ln (h' / exp (- 10)))) by (apply sqrt_lt_1; lra).
  unfold Rdiv. rewrite !Rmult_1_l. apply Rinv_lt_contravar; [|assumption]. apply Rmult_lt_0_compat; lra.
Qed.
Lemma middle_five h h' : exp (- 8) <= h <= 1 -> exp (- 8) <= h' <= 1 -> h < h' -> middle_layer 5 (exp (- 10)) 1 h' < middle_layer 5 (exp (- 10)) 1 h.
Proof.
  intros H H' I. cbn [middle_layer]. set (f := fun x => 1 / sqrt (ln (x / exp (- 10)))). change (f (f (f (f (f h')))) < f (f (f (f (f h))))).
  assert (F : forall x, exp (- 8) <= x <= 1 -> exp (- 8) <= f x <= 1) by (intros; apply middle_step; assumption).
  assert (S : forall x y, exp (- 8) <= x <= 1 -> exp (- 8) <= y <= 1 -> x < y -> f y < f x) by (intros; apply middle_strict; assumption).
  apply S; auto 10.
Qed.
Lemma two_range : exp (- 8) <= exp (- 2) < 1.
Proof. split; [left; apply exp_increasing; lra | rewrite <- exp_0; apply exp_increasing; lra]. Qed.
Lemma ul_differs : 0 < ul (exp 2 * 4) (exp 2 * 1) (exp 2 * exp (- 10)) < ul 4 1 (exp (- 10)).
Proof.
  pose proof (exp_pos 2) as E2. pose proof (exp_pos (- 10)) as E10. unfold ul. rewrite log_scale by assumption. unfold l, hm. replace (exp 2 * 4 / 4) with (exp 2 * 1) by field. replace (4 / 4) with 1 by field.
  replace (middle_layer 5 (exp 2 * exp (- 10)) (exp 2 * 1) 1) with (exp 2 * middle_layer 5 (exp (- 10)) 1 (exp (- 2))).
  2:{ rewrite <- middle_scale by assumption. f_equal. rewrite <- exp_plus. replace (2 + - 2) with 0 by ring. exact exp_0. }
  pose proof two_range as T. pose proof one_range as O. pose proof (log_range _ (inner_range 5 1 O)) as I.
  pose proof (log_range _ (middle_range 5 1 O)) as M. assert (T' : exp (- 8) <= exp (- 2) <= 1) by lra. pose proof (log_range _ (middle_range 5 _ T')) as M'.
  pose proof (middle_five _ _ T' O (proj2 T)) as D. pose proof (middle_range 5 1 O) as R1. pose proof (exp_pos (- 8)).
  replace (exp 2 * middle_layer 5 (exp (- 10)) 1 (exp (- 2)) / (exp 2 * exp (- 10))) with (middle_layer 5 (exp (- 10)) 1 (exp (- 2)) / exp (- 10)) by (field; lra).
  set (a := ln (inner_layer 5 (exp (- 10)) 1 1 / exp (- 10))) in *. set (x := ln (middle_layer 5 (exp (- 10)) 1 1 / exp (- 10))) in *. set (y := ln (middle_layer 5 (exp (- 10)) 1 (exp (- 2)) / exp (- 10))) in *.
  assert (x < y). { unfold x, y. apply ln_increasing; [apply Rdiv_lt_0_compat; lra|]. apply Rmult_lt_compat_r; [apply Rinv_0_lt_compat; lra | exact D]. }
  split; [apply Rdiv_lt_0_compat; lra|]. apply Rmult_lt_compat_l; [lra|]. apply Rinv_lt_contravar; [apply Rmult_lt_0_compat; lra | lra].
Qed.
(** A level bed of 1 m on a grid of two by two cells. *)
Lemma sideways kv : like_bessel kv -> 0 < fst (base_y kv 1 1 4 1 (exp (- 10)) (2 * PI / (INR (2 + 1) * 1)) (2 * PI / (INR (2 + 1) * 1))).
Proof.
  intros B. set (k := 2 * PI / (INR (2 + 1) * 1)). pose proof PI_RGT_0. assert (K : 0 < k) by (unfold k; simpl INR; lra).
  assert (L0 : 0 < l 4 1 (exp (- 10))). { unfold l. replace (4 / 4) with 1 by field. pose proof (inner_range 5 1 one_range). pose proof (exp_pos (- 8)). lra. }
  assert (S : exists s, 0 < s /\ sigma 4 1 (exp (- 10)) k = (s, s)).
  { unfold sigma, sqrt_imaginary. set (a := 4 / 4 * k * exp (- 10) / l 4 1 (exp (- 10))). assert (A : 0 < a) by (unfold a; apply Rdiv_lt_0_compat; [|exact L0]; pose proof (exp_pos (- 10)); nra).
    destruct (Rle_dec 0 a); [|lra]. exists (sqrt (a / 2)). split; [apply sqrt_lt_R0; lra | reflexivity]. }
  destruct S as [s [Ps E]]. unfold base_y. rewrite E. set (q := filter_x 1 k * filter_y 1 k * (k * k / wave_size k k * 2 * 2 * sqrt 2)).
  assert (S2 : 0 < sqrt 2) by (apply sqrt_lt_R0; lra).
  assert (W : 0 < wave_size k k) by (unfold wave_size; apply sqrt_lt_R0; nra).
  assert (Q : 0 < q). { unfold q. pose proof (filter_x_pos 1 k) as F1. pose proof (filter_y_pos 1 k) as F2. assert (0 < k * k / wave_size k k) by (apply Rdiv_lt_0_compat; nra).
    apply Rmult_lt_0_compat; [apply Rmult_lt_0_compat; assumption|]. apply Rmult_lt_0_compat; lra. }
  replace (cmul (real (2 * sqrt 2)) (s, s)) with (2 * sqrt 2 * s, 2 * sqrt 2 * s) by (unfold cmul, real; cbn [fst snd]; f_equal; ring).
  pose proof (B (2 * sqrt 2 * s) ltac:(nra)) as G. destruct (kv 1 (2 * sqrt 2 * s, 2 * sqrt 2 * s)) as [x y]. cbn [fst snd] in G. unfold cmul, real. cbn [fst snd].
  replace (q * (s * x - s * y) - 0 * (s * y + s * x)) with (q * (s * (x - y))) by ring. apply Rmult_lt_0_compat; [exact Q | apply Rmult_lt_0_compat; lra].
Qed.
Lemma c117_sideways : forall kv, like_bessel kv -> exists dx dy L l0 z0 m n, 0 < dx /\ 0 < dy /\ 0 < z0 < l0 /\ 0 < L /\
  forall r c, 0 < snd (compute_shear kv dx dy L l0 z0 1 m n (fun _ _ => 1)) r c.
Proof.
  intros kv B. exists 1, 1, 4, 1, (exp (- 10)), 2%nat, 2%nat. pose proof (exp_pos (- 10)) as P. assert (exp (- 10) < 1) by (rewrite <- exp_0; apply exp_increasing; lra).
  split; [lra | split; [lra | split; [lra | split; [lra|]]]]. intros r c.
  destruct (compute_scale kv 1 1 4 1 (exp (- 10)) 1 2 2 (fun _ _ => 1) 1 r c ltac:(lra) P ltac:(lra)) as [_ [E _]]. rewrite E, perturb_flat by lia. rewrite !wave_first by (lia || lra).
  pose proof ul_positive as U. pose proof (sideways kv B). apply Rmult_lt_0_compat; [apply Rinv_0_lt_compat; nra | lra].
Qed.
Lemma c119_unit : forall kv, like_bessel kv -> exists dx dy L l0 z0 m n s, 0 < dx /\ 0 < dy /\ 0 < z0 < l0 /\ 0 < L /\ 0 < s /\
  forall r c, snd (compute_shear kv (s * dx) (s * dy) (s * L) (s * l0) (s * z0) 1 m n (fun _ _ => s * 1)) r c <> snd (compute_shear kv dx dy L l0 z0 1 m n (fun _ _ => 1)) r c.
Proof.
  intros kv B. exists 1, 1, 4, 1, (exp (- 10)), 2%nat, 2%nat, (exp 2). pose proof (exp_pos (- 10)) as P. pose proof (exp_pos 2) as P2. assert (exp (- 10) < 1) by (rewrite <- exp_0; apply exp_increasing; lra).
  split; [lra | split; [lra | split; [lra | split; [lra | split; [lra|]]]]]. intros r c.
  destruct (compute_scale kv 1 1 4 1 (exp (- 10)) 1 2 2 (fun _ _ => 1) (exp 2) r c P2 P ltac:(lra)) as [_ [E [_ E']]]. rewrite E, E', perturb_flat by lia. rewrite !wave_first by (lia || lra).
  pose proof ul_differs as U. pose proof (sideways kv B) as S. intros Q.
  set (a := ul (exp 2 * 4) (exp 2 * 1) (exp 2 * exp (- 10))) in *. set (b := ul 4 1 (exp (- 10))) in *. rewrite Rmult_1_l in Q. apply Rmult_eq_reg_r in Q; [|lra].
  assert (a ^ 2 = b ^ 2) by (rewrite <- (Rinv_inv (a ^ 2)), Q, Rinv_inv; reflexivity). nra.
Qed.
