(** Proofs about the perturbation of the shear stress, computed with Fourier transforms, and about the filter on the spectrum. *)
From Coq Require Import Reals Lra Lia Psatz ZArith.
From Verif Require Import Base Shear_Model Shear_Spec Shear_Proofs.
Open Scope R_scope.

(** ** Complex numbers and sums *)
Lemma cpair (a b : complex) : fst a = fst b -> snd a = snd b -> a = b.
Proof. intros. rewrite (surjective_pairing a), (surjective_pairing b). congruence. Qed.
Ltac cring := apply cpair; unfold cadd, cmul, real; cbn [fst snd]; ring.
Lemma ctotal_ext n f g : (forall i, (i < n)%nat -> f i = g i) -> ctotal n f = ctotal n g.
Proof. induction n; intros H; simpl; [reflexivity | rewrite IHn, (H n); auto]. Qed.
Lemma ctotal_add n f g : ctotal n (fun i => cadd (f i) (g i)) = cadd (ctotal n f) (ctotal n g).
Proof. induction n; simpl; [cring | rewrite IHn; cring]. Qed.
Lemma ctotal_mul n k f : ctotal n (fun i => cmul k (f i)) = cmul k (ctotal n f).
Proof. induction n; simpl; [cring | rewrite IHn; cring]. Qed.
Lemma ctotal_zero n f : (forall i, (i < n)%nat -> f i = (0, 0)) -> ctotal n f = (0, 0).
Proof. induction n; intros H; simpl; [reflexivity | rewrite IHn, (H n) by auto; cring]. Qed.
Lemma ctotal_one n : ctotal n (fun _ => real 1) = real (INR n).
Proof. induction n; simpl ctotal; [reflexivity | rewrite IHn, S_INR; cring]. Qed.
Lemma ctotal_first n f : (0 < n)%nat -> (forall i, (0 < i < n)%nat -> f i = (0, 0)) -> ctotal n f = f 0%nat.
Proof.
  intros Hn H. induction n as [|n IH]; [lia|]. simpl. destruct n as [|n]; [simpl; cring|].
  rewrite IH by (try lia; intros; apply H; lia). rewrite (H (S n)) by lia. cring.
Qed.
Lemma cis_plus a b : cis (a + b) = cmul (cis a) (cis b).
Proof. apply cpair; unfold cis, cmul; cbn [fst snd]; [apply cos_plus | rewrite sin_plus; ring]. Qed.
Lemma cis_0 : cis 0 = real 1.
Proof. unfold cis, real. rewrite cos_0, sin_0. reflexivity. Qed.
Lemma cis_turns k t : cis (t + 2 * PI * IZR k) = cis t.
Proof.
  unfold cis. assert (N : forall n t, cos (t + 2 * INR n * PI) = cos t /\ sin (t + 2 * INR n * PI) = sin t) by (intros; split; [apply cos_period | apply sin_period]).
  destruct (Z_le_gt_dec 0 k) as [H|H].
  - destruct (N (Z.to_nat k) t) as [A B]. rewrite INR_IZR_INZ, Z2Nat.id in A, B by lia. replace (t + 2 * PI * IZR k) with (t + 2 * IZR k * PI) by ring. rewrite A, B. reflexivity.
  - destruct (N (Z.to_nat (- k)) (t + 2 * PI * IZR k)) as [A B]. rewrite INR_IZR_INZ, Z2Nat.id, opp_IZR in A, B by lia.
    replace (t + 2 * PI * IZR k + 2 * - IZR k * PI) with t in A, B by ring. rewrite A, B. reflexivity.
Qed.
(** A sum over the powers of a number on the unit circle other than one. *)
Lemma geometric t n : cmul (cadd (cis t) (real (- 1))) (ctotal n (fun r => cis (INR r * t))) = cadd (cis (INR n * t)) (real (- 1)).
Proof.
  induction n as [|n IH]; simpl ctotal.
  - simpl INR. rewrite Rmult_0_l, cis_0. cring.
  - rewrite S_INR. replace ((INR n + 1) * t) with (INR n * t + t) by ring. rewrite cis_plus.
    transitivity (cadd (cmul (cadd (cis t) (real (- 1))) (ctotal n (fun r => cis (INR r * t)))) (cmul (cadd (cis t) (real (- 1))) (cis (INR n * t)))); [cring|].
    rewrite IH. cring.
Qed.
Lemma cmul_zero a b : cmul a b = (0, 0) -> a <> (0, 0) -> b = (0, 0).
Proof.
  destruct a as [x y], b as [u v]. unfold cmul. cbn [fst snd]. intros E N. injection E as E1 E2.
  assert (P : 0 < x * x + y * y).
  { destruct (Req_dec x 0) as [Hx|Hx]; [|nra]. destruct (Req_dec y 0) as [Hy|Hy]; [|nra]. exfalso. apply N. congruence. }
  assert (U : (x * x + y * y) * u = 0) by (transitivity (x * (x * u - y * v) + y * (x * v + y * u)); [ring | rewrite E1, E2; ring]).
  assert (V : (x * x + y * y) * v = 0) by (transitivity (x * (x * v + y * u) - y * (x * u - y * v)); [ring | rewrite E1, E2; ring]).
  apply Rmult_integral in U as [U|U]; [lra|]. apply Rmult_integral in V as [V|V]; [lra|]. congruence.
Qed.
Lemma cis_not_one t : 0 < t < 2 * PI -> cis t <> real 1.
Proof.
  intros H E. unfold cis, real in E. injection E as E _. replace t with (2 * (t / 2)) in E by field. rewrite cos_2a_sin in E.
  assert (0 < sin (t / 2)) by (apply sin_gt_0; lra). nra.
Qed.
Lemma roots n a : (0 < a < n)%nat -> ctotal n (fun r => cis (2 * PI * (INR a * INR r / INR n))) = (0, 0) /\ ctotal n (fun r => cis (- (2 * PI * (INR a * INR r / INR n)))) = (0, 0).
Proof.
  intros H. assert (Hn : 0 < INR n) by (apply lt_0_INR; lia). assert (Ha : 0 < INR a) by (apply lt_0_INR; lia). assert (Hl : INR a < INR n) by (apply lt_INR; lia).
  pose proof PI_RGT_0 as Hp. set (t := 2 * PI * (INR a / INR n)).
  assert (Q0 : 0 < INR a / INR n) by (apply Rdiv_lt_0_compat; assumption).
  assert (Q1 : INR a / INR n < 1). { apply (Rmult_lt_reg_r (INR n)); [exact Hn|]. unfold Rdiv. rewrite Rmult_assoc, Rinv_l by lra. lra. }
  assert (T : 0 < t < 2 * PI) by (unfold t; nra).
  split.
  - apply (cmul_zero (cadd (cis t) (real (- 1)))).
    + rewrite (ctotal_ext n _ (fun r => cis (INR r * t))) by (intros; f_equal; unfold t; field; lra). rewrite geometric.
      replace (INR n * t) with (0 + 2 * PI * IZR (Z.of_nat a)) by (rewrite <- INR_IZR_INZ; unfold t; field; lra). rewrite cis_turns, cis_0. cring.
    + intros E. apply (cis_not_one t T). transitivity (cadd (cadd (cis t) (real (- 1))) (real 1)); [cring | rewrite E; cring].
  - apply (cmul_zero (cadd (cis (- t)) (real (- 1)))).
    + rewrite (ctotal_ext n _ (fun r => cis (INR r * - t))) by (intros; f_equal; unfold t; field; lra). rewrite geometric.
      replace (INR n * - t) with (0 + 2 * PI * IZR (- Z.of_nat a)) by (rewrite opp_IZR, <- INR_IZR_INZ; unfold t; field; lra). rewrite cis_turns, cis_0. cring.
    + intros E. apply (cis_not_one (- t + 2 * PI)); [lra|]. transitivity (cis (- t)); [rewrite <- (cis_turns 1 (- t)); f_equal; ring|].
      transitivity (cadd (cadd (cis (- t)) (real (- 1))) (real 1)); [cring | rewrite E; cring].
Qed.

(** ** Spectrum of a flat bed *)
Lemma phase_split m n r c a b : (0 < m)%nat -> (0 < n)%nat -> - phase m n r c a b = - (2 * PI * (INR a * INR r / INR m)) + - (2 * PI * (INR b * INR c / INR n)).
Proof. intros. unfold phase. ring. Qed.
Lemma fft2_flat m n h a b : (0 < m)%nat -> (0 < n)%nat -> fft2 m n (fun _ _ => h) a b =
  cmul (real h) (cmul (ctotal m (fun r => cis (- (2 * PI * (INR a * INR r / INR m))))) (ctotal n (fun c => cis (- (2 * PI * (INR b * INR c / INR n)))))).
Proof.
  intros Hm Hn. unfold fft2. set (S := ctotal n (fun c => cis (- (2 * PI * (INR b * INR c / INR n))))).
  rewrite (ctotal_ext m _ (fun r => cmul (cmul (real h) S) (cis (- (2 * PI * (INR a * INR r / INR m)))))).
  - rewrite ctotal_mul. cring.
  - intros r _. rewrite (ctotal_ext n _ (fun c => cmul (cmul (real h) (cis (- (2 * PI * (INR a * INR r / INR m))))) (cis (- (2 * PI * (INR b * INR c / INR n)))))).
    + rewrite ctotal_mul. fold S. cring.
    + intros c _. rewrite phase_split, cis_plus by assumption. cring.
Qed.
Lemma zero_total n : (0 < n)%nat -> ctotal n (fun c => cis (- (2 * PI * (INR 0 * INR c / INR n)))) = real (INR n).
Proof.
  intros Hn. rewrite <- ctotal_one. apply ctotal_ext. intros i _. rewrite <- cis_0. f_equal. simpl (INR 0). unfold Rdiv. ring.
Qed.
Lemma perturb_flat dx dy t m n h r c : (0 < m)%nat -> (0 < n)%nat -> perturb dx dy t m n (fun _ _ => h) r c = h * fst (t (wave n dx 0) (wave m dy 0)).
Proof.
  intros Hm Hn. unfold perturb, ifft2_real. pose proof (lt_0_INR m Hm) as Hm'. pose proof (lt_0_INR n Hn) as Hn'.
  rewrite (ctotal_first m); [|exact Hm|].
  - rewrite (ctotal_first n); [|exact Hn|].
    + rewrite fft2_flat by assumption. rewrite (zero_total m Hm), (zero_total n Hn).
      replace (phase m n r c 0 0) with 0 by (unfold phase; simpl (INR 0); unfold Rdiv; ring). rewrite cis_0. unfold cmul, real. cbn [fst snd]. field. lra.
    + intros b Hb. rewrite fft2_flat by assumption. rewrite (proj2 (roots n b Hb)). cring.
  - intros a Ha. apply ctotal_zero. intros b Hb. rewrite fft2_flat by assumption. rewrite (proj2 (roots m a Ha)). cring.
Qed.
Lemma perturb_linear dx dy t m n z1 z2 k r c : perturb dx dy t m n (fun i j => z1 i j + k * z2 i j) r c = perturb dx dy t m n z1 r c + k * perturb dx dy t m n z2 r c.
Proof.
  assert (F : forall a b, fft2 m n (fun i j => z1 i j + k * z2 i j) a b = cadd (fft2 m n z1 a b) (cmul (real k) (fft2 m n z2 a b))).
  { intros a b. unfold fft2. rewrite <- ctotal_mul, <- ctotal_add. apply ctotal_ext. intros i _. rewrite <- ctotal_mul, <- ctotal_add. apply ctotal_ext. intros j _. cring. }
  unfold perturb, ifft2_real.
  rewrite (ctotal_ext m _ (fun a => cadd (ctotal n (fun b => cmul (cmul (fft2 m n z1 a b) (t (wave n dx b) (wave m dy a))) (cis (phase m n r c a b))))
    (cmul (real k) (ctotal n (fun b => cmul (cmul (fft2 m n z2 a b) (t (wave n dx b) (wave m dy a))) (cis (phase m n r c a b))))))).
  - rewrite ctotal_add, ctotal_mul. unfold cadd, cmul at 3, real. cbn [fst snd]. unfold Rdiv. ring.
  - intros a _. rewrite <- ctotal_mul, <- ctotal_add. apply ctotal_ext. intros b _. rewrite F. cring.
Qed.
Lemma wave_first n d : (2 <= n)%nat -> 0 < d -> wave n d 0 = 2 * PI / (INR (n + 1) * d).
Proof.
  intros Hn Hd. unfold wave, fftfreq. replace (Nat.leb (0 + 1) ((n + 1 - 1) / 2)) with true.
  - simpl (INR (0 + 1)). assert (0 < INR (n + 1)) by (apply lt_0_INR; lia). field. lra.
  - symmetry. apply Nat.leb_le. replace (n + 1 - 1)%nat with n by lia. apply (Nat.div_le_mono 2 n 2) in Hn; [|lia]. exact Hn.
Qed.
Lemma c117_level : forall kv dx dy L l0 z0 u0 m n z h r c, (2 <= m)%nat -> (2 <= n)%nat -> 0 < dx -> 0 < dy -> u0 <> 0 ->
  let kx := 2 * PI / (INR (n + 1) * dx) in let ky := 2 * PI / (INR (m + 1) * dy) in
  fst (compute_shear kv dx dy L l0 z0 u0 m n (fun i j => z i j + h)) r c = fst (compute_shear kv dx dy L l0 z0 u0 m n z) r c + h * fst (transfer_x kv dx dy L l0 z0 kx ky) /\
  snd (compute_shear kv dx dy L l0 z0 u0 m n (fun i j => z i j + h)) r c = snd (compute_shear kv dx dy L l0 z0 u0 m n z) r c + h * fst (transfer_y kv dx dy L l0 z0 kx ky).
Proof.
  intros kv dx dy L l0 z0 u0 m n z h r c Hm Hn Hx Hy Hu kx ky. unfold compute_shear. destruct (Req_EM_T u0 0) as [|_]; [contradiction|]. cbn [fst snd].
  assert (G : forall t, perturb dx dy t m n (fun i j => z i j + h) r c = perturb dx dy t m n z r c + h * fst (t kx ky)).
  { intros t. unfold kx, ky. rewrite <- (wave_first n dx Hn Hx), <- (wave_first m dy Hm Hy).
    rewrite <- (perturb_flat dx dy t m n h r c) by lia. rewrite <- (Rmult_1_l (perturb dx dy t m n (fun _ _ => h) r c)), <- perturb_linear.
    unfold perturb, ifft2_real. do 2 f_equal. apply ctotal_ext. intros a _. apply ctotal_ext. intros b _. do 2 f_equal.
    unfold fft2. apply ctotal_ext. intros i _. apply ctotal_ext. intros j _. do 2 f_equal. ring. }
  split; apply G.
Qed.
Lemma c117_superposition : forall kv dx dy L l0 z0 u0 m n z1 z2 k r c,
  fst (compute_shear kv dx dy L l0 z0 u0 m n (fun i j => z1 i j + k * z2 i j)) r c =
    fst (compute_shear kv dx dy L l0 z0 u0 m n z1) r c + k * fst (compute_shear kv dx dy L l0 z0 u0 m n z2) r c /\
  snd (compute_shear kv dx dy L l0 z0 u0 m n (fun i j => z1 i j + k * z2 i j)) r c =
    snd (compute_shear kv dx dy L l0 z0 u0 m n z1) r c + k * snd (compute_shear kv dx dy L l0 z0 u0 m n z2) r c.
Proof.
  intros. unfold compute_shear. destruct (Req_EM_T u0 0) as [|_]; cbn [fst snd]; [split; ring | split; apply perturb_linear].
Qed.

(** ** Moving the bed *)
Lemma ctotal_shift1 n (f : nat -> complex) : f n = f 0%nat -> ctotal n (fun i => f (i + 1)%nat) = ctotal n f.
Proof.
  assert (G : forall k, cadd (ctotal k (fun i => f (i + 1)%nat)) (f 0%nat) = cadd (ctotal k f) (f k)).
  { induction k; simpl; [reflexivity|].
    transitivity (cadd (cadd (ctotal k (fun i => f (i + 1)%nat)) (f 0%nat)) (f (k + 1)%nat)); [cring|]. rewrite IHk. replace (k + 1)%nat with (S k) by lia. reflexivity. }
  intros H. pose proof (G n) as E. rewrite H in E. unfold cadd in E. injection E as E1 E2. apply cpair; lra.
Qed.
Lemma ctotal_shift n (f : nat -> complex) a : (forall i, f (i + n)%nat = f i) -> ctotal n (fun i => f (i + a)%nat) = ctotal n f.
Proof.
  intros H. induction a as [|a IH].
  - apply ctotal_ext. intros i _. f_equal. lia.
  - rewrite <- IH. rewrite <- (ctotal_shift1 n (fun i => f (i + a)%nat)).
    + apply ctotal_ext. intros i _. f_equal. lia.
    + rewrite <- (H (0 + a)%nat). f_equal. lia.
Qed.
Lemma cis_phase_r m n r c a b k : (0 < m)%nat -> (0 < n)%nat -> cis (phase m n (r + k * m) c a b) = cis (phase m n r c a b).
Proof.
  intros Hm Hn. apply lt_0_INR in Hm, Hn. rewrite <- (cis_turns (Z.of_nat (a * k)) (phase m n r c a b)). f_equal. rewrite <- INR_IZR_INZ. unfold phase. rewrite plus_INR, !mult_INR. unfold Rdiv. field. lra.
Qed.
Lemma cis_phase_c m n r c a b k : (0 < m)%nat -> (0 < n)%nat -> cis (phase m n r (c + k * n) a b) = cis (phase m n r c a b).
Proof.
  intros Hm Hn. apply lt_0_INR in Hm, Hn. rewrite <- (cis_turns (Z.of_nat (b * k)) (phase m n r c a b)). f_equal. rewrite <- INR_IZR_INZ. unfold phase. rewrite plus_INR, !mult_INR. unfold Rdiv. field. lra.
Qed.
Definition conj (z : complex) : complex := (fst z, - snd z).
Lemma cis_conj t : cis (- t) = conj (cis t).
Proof. unfold cis, conj. rewrite cos_neg, sin_neg. reflexivity. Qed.
Lemma cis_mod m n r c a b : (0 < m)%nat -> (0 < n)%nat -> cis (phase m n (r mod m) (c mod n) a b) = cis (phase m n r c a b).
Proof.
  intros Hm Hn. pose proof (Nat.div_mod r m ltac:(lia)) as Er. pose proof (Nat.div_mod c n ltac:(lia)) as Ec.
  replace (phase m n r c a b) with (phase m n (r mod m + r / m * m) (c mod n + c / n * n) a b) by (f_equal; lia).
  rewrite cis_phase_r, cis_phase_c by assumption. reflexivity.
Qed.
Lemma phase_plus m n r c i j a b : phase m n (r + i) (c + j) a b = phase m n r c a b + phase m n i j a b.
Proof. unfold phase. rewrite !plus_INR. unfold Rdiv. ring. Qed.
Lemma fft2_moved m n i j z a b : (0 < m)%nat -> (0 < n)%nat -> fft2 m n (moved m n i j z) a b = cmul (cis (phase m n i j a b)) (fft2 m n z a b).
Proof.
  intros Hm Hn. set (f := fun r c => cmul (real (z (r mod m) (c mod n))) (cis (- phase m n r c a b))).
  assert (Pr : forall r c, f (r + m)%nat c = f r c).
  { intros r c. unfold f. rewrite !cis_conj. rewrite <- (cis_phase_r m n r c a b 1 Hm Hn), Nat.mul_1_l. do 3 f_equal. replace (r + m)%nat with (r + 1 * m)%nat by lia. rewrite Nat.mod_add by lia. reflexivity. }
  assert (Pc : forall r c, f r (c + n)%nat = f r c).
  { intros r c. unfold f. rewrite !cis_conj. rewrite <- (cis_phase_c m n r c a b 1 Hm Hn), Nat.mul_1_l. do 2 f_equal. replace (c + n)%nat with (c + 1 * n)%nat by lia. rewrite Nat.mod_add by lia. reflexivity. }
  unfold fft2.
  rewrite (ctotal_ext m (fun r => ctotal n (fun c => cmul (real (moved m n i j z r c)) (cis (- phase m n r c a b))))
    (fun r => cmul (cis (phase m n i j a b)) (ctotal n (fun c => f (r + i)%nat (c + j)%nat)))).
  - rewrite ctotal_mul. f_equal. rewrite (ctotal_shift m (fun r => ctotal n (fun c => f r (c + j)%nat)) i) by (intros; apply ctotal_ext; intros; apply Pr).
    apply ctotal_ext. intros r Hr. rewrite (ctotal_shift n (f r) j) by (apply Pc). apply ctotal_ext. intros c Hc. unfold f. rewrite !Nat.mod_small by assumption. reflexivity.
  - intros r _. rewrite <- ctotal_mul. apply ctotal_ext. intros c _. unfold f, moved.
    replace (- phase m n r c a b) with (phase m n i j a b + - phase m n (r + i) (c + j) a b) by (rewrite phase_plus; ring). rewrite cis_plus. cring.
Qed.
Lemma c117_moved : forall kv dx dy L l0 z0 u0 m n i j z r c, (0 < m)%nat -> (0 < n)%nat ->
  fst (compute_shear kv dx dy L l0 z0 u0 m n (moved m n i j z)) r c = moved m n i j (fst (compute_shear kv dx dy L l0 z0 u0 m n z)) r c /\
  snd (compute_shear kv dx dy L l0 z0 u0 m n (moved m n i j z)) r c = moved m n i j (snd (compute_shear kv dx dy L l0 z0 u0 m n z)) r c.
Proof.
  intros kv dx dy L l0 z0 u0 m n i j z r c Hm Hn. unfold compute_shear. destruct (Req_EM_T u0 0) as [|_]; cbn [fst snd]; [split; reflexivity|].
  assert (G : forall t, perturb dx dy t m n (moved m n i j z) r c = moved m n i j (perturb dx dy t m n z) r c); [|split; apply G].
  intros t. unfold moved at 2. unfold perturb, ifft2_real. do 2 f_equal. apply ctotal_ext. intros a _. apply ctotal_ext. intros b _.
  rewrite fft2_moved, cis_mod, phase_plus, cis_plus by assumption. cring.
Qed.

(** ** A flat bed above zero changes the stress, whatever the Bessel functions *)
Lemma layer_range k h : 1 / 50 <= k <= 1 -> exp (- 8) <= h <= 1 -> exp (- 8) <= k / ln (h / exp (- 10)) <= 1.
Proof.
  intros Hk [H1 H2]. pose proof (exp_pos (- 8)) as P8. pose proof (exp_pos (- 10)) as P10.
  assert (E8 : exp (- 8) <= 1 / 500).
  { assert (Q : 500 <= exp 8).
    { replace 8 with (2 + 2 + 2 + 2) by ring. rewrite !exp_plus. assert (5 <= exp 2).
      { replace 2 with (1 / 4 + 1 / 4 + (1 / 4 + 1 / 4) + (1 / 4 + 1 / 4 + (1 / 4 + 1 / 4))) by field. rewrite !exp_plus. pose proof (exp_ineq1 (1 / 4) ltac:(lra)) as Q.
        set (y := exp (1 / 4)) in *. assert (25 / 16 <= y * y) by nra. assert (24 / 10 <= y * y * (y * y)) by nra. nra. }
      set (y := exp 2) in *. assert (25 <= y * y) by nra. assert (125 <= y * y * y) by nra. nra. }
    replace (-8) with (Ropp 8) by ring. rewrite exp_Ropp. apply (Rmult_le_reg_r (exp 8)); [apply exp_pos|]. rewrite Rinv_l by (pose proof (exp_pos 8); lra). lra. }
  assert (D : ln (h / exp (- 10)) = ln h + 10). { unfold Rdiv. rewrite ln_mult; [|lra | apply Rinv_0_lt_compat, P10]. rewrite ln_Rinv by exact P10. rewrite ln_exp. ring. }
  assert (L1 : - 8 <= ln h). { rewrite <- (ln_exp (- 8)). destruct H1 as [H1|H1]; [left; apply ln_increasing; assumption | rewrite H1; lra]. }
  assert (L2 : ln h <= 0). { rewrite <- ln_1. destruct H2 as [H2|H2]; [left; apply ln_increasing; lra | rewrite H2; lra]. }
  rewrite D. set (x := ln h + 10). assert (X : 2 <= x <= 10) by (unfold x; lra).
  split.
  - apply (Rle_trans _ (1 / 500)); [exact E8|]. apply (Rmult_le_reg_r x); [lra|]. unfold Rdiv at 2. rewrite Rmult_assoc, Rinv_l by lra. lra.
  - apply (Rmult_le_reg_r x); [lra|]. unfold Rdiv. rewrite Rmult_assoc, Rinv_l by lra. lra.
Qed.

(** With L = 4, z0 = exp(-10) and any thickness of the inner layer between exp(-8) and 1. *)
Lemma inner_range : forall s h, exp (- 8) <= h <= 1 -> exp (- 8) <= inner_layer s (exp (- 10)) 1 h <= 1.
Proof.
  induction s; intros h H; [exact H|]. simpl. apply IHs. replace (2 * (41 / 100 * (41 / 100 * 1)) * 1) with (3362 / 10000) by field. apply layer_range; [lra | exact H].
Qed.
Lemma middle_range : forall s h, exp (- 8) <= h <= 1 -> exp (- 8) <= middle_layer s (exp (- 10)) 1 h <= 1.
Proof.
  induction s; intros h H; [exact H|]. simpl. apply IHs. set (x := ln (h / exp (- 10))).
  assert (X : exp (- 8) <= 1 / x <= 1) by (apply layer_range; [lra | exact H]). pose proof (exp_pos (- 8)).
  assert (Px : 1 <= x).
  { destruct (Rle_lt_dec x 0) as [N|N].
    - exfalso. destruct (Req_dec x 0) as [Z|Z]; [rewrite Z in X; unfold Rdiv in X; rewrite Rinv_0 in X; lra|]. assert (/ x < 0) by (apply Rinv_lt_0_compat; lra). unfold Rdiv in X. lra.
    - destruct X as [_ X]. apply (Rmult_le_compat_r x) in X; [|lra]. unfold Rdiv in X. rewrite Rmult_assoc, Rinv_l in X by lra. lra. }
  assert (S1 : 1 <= sqrt x) by (rewrite <- sqrt_1; apply sqrt_le_1; lra). assert (S2 : sqrt x <= x) by (rewrite <- (sqrt_square x) at 2 by lra; apply sqrt_le_1; nra).
  split.
  - apply (Rle_trans _ (1 / x)); [lra|]. unfold Rdiv. rewrite !Rmult_1_l. apply Rinv_le_contravar; lra.
  - unfold Rdiv. rewrite Rmult_1_l, <- Rinv_1. apply Rinv_le_contravar; lra.
Qed.
Lemma log_range h : exp (- 8) <= h <= 1 -> 2 <= ln (h / exp (- 10)) <= 10.
Proof.
  intros [H1 H2]. pose proof (exp_pos (- 8)) as P8. pose proof (exp_pos (- 10)) as P10.
  assert (D : ln (h / exp (- 10)) = ln h + 10). { unfold Rdiv. rewrite ln_mult; [|lra | apply Rinv_0_lt_compat, P10]. rewrite ln_Rinv by exact P10. rewrite ln_exp. ring. }
  assert (L1 : - 8 <= ln h). { rewrite <- (ln_exp (- 8)). destruct H1 as [H1|H1]; [left; apply ln_increasing; assumption | rewrite H1; lra]. }
  assert (L2 : ln h <= 0). { rewrite <- ln_1. destruct H2 as [H2|H2]; [left; apply ln_increasing; lra | rewrite H2; lra]. }
  lra.
Qed.
Lemma one_range : exp (- 8) <= 1 <= 1.
Proof. split; [|lra]. rewrite <- exp_0. left. apply exp_increasing. lra. Qed.
Lemma ul_positive : 0 < ul 4 1 (exp (- 10)).
Proof.
  unfold ul, l, hm. replace (4 / 4) with 1 by field. pose proof (log_range _ (inner_range 5 1 one_range)). pose proof (log_range _ (middle_range 5 1 one_range)).
  apply Rdiv_lt_0_compat; lra.
Qed.
Lemma filter_x_pos d k : 0 < filter_x d k.
Proof. unfold filter_x. apply Rdiv_lt_0_compat; [lra|]. pose proof (exp_pos (- (2 * PI / d / Rabs k + 1 - 2) / (1 / ln (1 / (1 / 100) - 1)))). lra. Qed.
Lemma filter_y_pos d k : 0 < filter_y d k.
Proof. unfold filter_y. apply Rdiv_lt_0_compat; [lra|]. pose proof (exp_pos (- (2 * PI / d / Rabs k + 1 - 2) / (- 2 / ln (1 / (99 / 100) - 1)))). lra. Qed.
Lemma c117_flat : forall kv, exists dx dy L l0 z0 m n, 0 < dx /\ 0 < dy /\ 0 < z0 < l0 /\ 0 < L /\
  forall r c, fst (compute_shear kv dx dy L l0 z0 1 m n (fun _ _ => 0)) r c = 0 /\ fst (compute_shear kv dx dy L l0 z0 1 m n (fun _ _ => 1)) r c <> 0.
Proof.
  intros kv. set (z0 := exp (- 10)). set (kx := 2 * PI / (INR (2 + 1) * 1)). set (k1 := 2 * PI / (INR (2 + 1) * 1)). set (k3 := 2 * PI / (INR (5 + 1) * 1)).
  assert (Z : 0 < z0 < 1). { unfold z0. split; [apply exp_pos|]. apply (Rlt_le_trans _ (exp 0)); [apply exp_increasing; lra | rewrite exp_0; lra]. }
  pose proof PI_RGT_0 as Pp. assert (Kx : 0 < kx) by (unfold kx; simpl INR; lra). assert (K1 : k1 = kx) by reflexivity. assert (K3 : k3 = kx / 2) by (unfold k3, kx; simpl INR; field).
  assert (V : forall m h r c, (2 <= m)%nat -> fst (compute_shear kv 1 1 4 1 z0 1 m 2 (fun _ _ => h)) r c = h * fst (transfer_x kv 1 1 4 1 z0 kx (2 * PI / (INR (m + 1) * 1)))).
  { intros m h r c Hm. unfold compute_shear. destruct (Req_EM_T 1 0); [lra|]. cbn [fst]. rewrite perturb_flat by lia. rewrite !wave_first by (lia || lra). reflexivity. }
  assert (D : fst (transfer_x kv 1 1 4 1 z0 kx k1) <> 0 \/ fst (transfer_x kv 1 1 4 1 z0 kx k3) <> 0).
  { destruct (Req_dec (fst (transfer_x kv 1 1 4 1 z0 kx k1)) 0) as [E1|]; [|now left]. destruct (Req_dec (fst (transfer_x kv 1 1 4 1 z0 kx k3)) 0) as [E3|]; [|now right]. exfalso.
    unfold transfer_x in E1, E3. set (s := cdiv _ _) in *. unfold cmul, cadd, real in E1, E3. cbn [fst snd] in E1, E3. rewrite !Rmult_0_l, !Rminus_0_r in E1, E3.
    pose proof ul_positive as U. fold z0 in U.
    assert (W : forall ky, 0 < ky -> 0 < filter_x 1 kx * filter_y 1 ky * (kx ^ 2 / wave_size kx ky * 2 / ul 4 1 z0 ^ 2)).
    { intros ky Hk. assert (0 < wave_size kx ky) by (unfold wave_size; apply sqrt_lt_R0; nra). assert (0 < kx ^ 2) by nra. assert (0 < ul 4 1 z0 ^ 2) by nra.
      apply Rmult_lt_0_compat; [apply Rmult_lt_0_compat; [apply filter_x_pos | apply filter_y_pos]|]. apply Rdiv_lt_0_compat; [|assumption].
      apply Rmult_lt_0_compat; [|lra]. apply Rdiv_lt_0_compat; assumption. }
    assert (Z1 : wave_size kx k1 ^ 2 / kx ^ 2 = 2). { unfold wave_size. rewrite <- Rsqr_pow2, Rsqr_sqrt by nra. rewrite K1. field. lra. }
    assert (Z3 : wave_size kx k3 ^ 2 / kx ^ 2 = 5 / 4). { unfold wave_size. rewrite <- Rsqr_pow2, Rsqr_sqrt by nra. rewrite K3. field. lra. }
    apply Rmult_integral in E1 as [E1|E1]; [pose proof (W k1 ltac:(lra)); lra|]. apply Rmult_integral in E3 as [E3|E3]; [pose proof (W k3 ltac:(lra)); lra|].
    rewrite Z1 in E1. rewrite Z3 in E3. assert (S0 : fst s = 0) by lra. rewrite S0 in E1. lra. }
  destruct D as [D|D].
  - exists 1, 1, 4, 1, z0, 2%nat, 2%nat. split; [lra | split; [lra | split; [lra | split; [lra|]]]]. intros r c. rewrite !V by lia. split; [ring|]. rewrite Rmult_1_l. exact D.
  - exists 1, 1, 4, 1, z0, 5%nat, 2%nat. split; [lra | split; [lra | split; [lra | split; [lra|]]]]. intros r c. rewrite !V by lia. split; [ring|]. rewrite Rmult_1_l. exact D.
Qed.

(** ** The filter *)
Lemma wave_short n d i : 0 < d -> (i < n)%nat -> wave n d i <> 0 /\ 2 <= 2 * PI / d / Rabs (wave n d i).
Proof.
  intros Hd Hi. unfold wave, fftfreq. replace (n + 1 - 1)%nat with n by lia. assert (Hn : 0 < INR (n + 1)) by (apply lt_0_INR; lia). pose proof PI_RGT_0 as Pp.
  set (x := if Nat.leb (i + 1) (n / 2) then INR (i + 1) else INR (i + 1) - INR (n + 1)).
  assert (X : x <> 0 /\ 2 * Rabs x <= INR (n + 1)).
  { unfold x. destruct (Nat.leb_spec (i + 1) (n / 2)) as [L|L].
    - assert (0 < INR (i + 1)) by (apply lt_0_INR; lia). split; [lra|]. rewrite Rabs_pos_eq by lra. replace 2 with (INR 2) by reflexivity. rewrite <- mult_INR. apply le_INR. pose proof (Nat.mul_div_le n 2). lia.
    - assert (INR (i + 1) < INR (n + 1)) by (apply lt_INR; lia). split; [lra|]. rewrite Rabs_left by lra.
      assert (n < 2 * (i + 1))%nat. { pose proof (Nat.mul_succ_div_gt n 2). lia. }
      assert (Q : INR (n + 1) <= INR (2 * (i + 1))) by (apply le_INR; lia). rewrite mult_INR in Q. simpl (INR 2) in Q. lra. }
  destruct X as [X0 X1]. pose proof (Rabs_pos_lt x X0) as Ax. split.
  - intros E. apply Rmult_integral in E as [E|E]; [lra|]. unfold Rdiv in E. apply Rmult_integral in E as [E|E]; [exact (X0 E)|].
    revert E. apply Rinv_neq_0_compat. nra.
  - replace (2 * PI / d / Rabs (2 * PI * (x / (INR (n + 1) * d)))) with (INR (n + 1) / Rabs x).
    + apply (Rmult_le_reg_r (Rabs x)); [exact Ax|]. unfold Rdiv. rewrite Rmult_assoc, Rinv_l by lra. lra.
    + unfold Rdiv at 4. rewrite !Rabs_mult, (Rabs_pos_eq 2), (Rabs_pos_eq PI), Rabs_inv, (Rabs_pos_eq (INR (n + 1) * d)) by nra. field. lra.
Qed.
Lemma ln99 : ln (1 / (1 / 100) - 1) = ln 99 /\ ln (1 / (99 / 100) - 1) = - ln 99 /\ 0 < ln 99.
Proof.
  split; [f_equal; field | split].
  - rewrite <- ln_Rinv by lra. f_equal. field.
  - rewrite <- ln_1. apply ln_increasing; lra.
Qed.
Lemma c118_passes : forall m n dx dy a b, 0 < dx -> 0 < dy -> (a < m)%nat -> (b < n)%nat ->
  99 / 100 <= filter_x dx (wave n dx b) < 1 /\ 9 / 10 <= filter_y dy (wave m dy a) < 1.
Proof.
  intros m n dx dy a b Hx Hy Ha Hb. destruct ln99 as [E1 [E2 P]]. destruct (wave_short n dx b Hx Hb) as [_ W1]. destruct (wave_short m dy a Hy Ha) as [_ W2].
  unfold filter_x, filter_y. rewrite E1, E2.
  assert (G : forall e q, 0 < e <= q -> 1 / (1 + q) <= 1 / (1 + e) < 1).
  { intros e q H. unfold Rdiv. rewrite !Rmult_1_l. split; [apply Rinv_le_contravar; lra|]. rewrite <- Rinv_1. apply Rinv_lt_contravar; lra. }
  split.
  - set (px := 2 * PI / dx / Rabs (wave n dx b)) in *. replace (- (px + 1 - 2) / (1 / ln 99)) with (- ((px - 1) * ln 99)) by (field; lra).
    replace (99 / 100) with (1 / (1 + 1 / 99)) by field. apply G. split; [apply exp_pos|]. replace (1 / 99) with (exp (- ln 99)).
    + assert (M : - ((px - 1) * ln 99) <= - ln 99) by nra. destruct M as [M|M]; [left; apply exp_increasing; exact M | rewrite M; lra].
    + rewrite exp_Ropp, exp_ln by lra. field.
  - set (py := 2 * PI / dy / Rabs (wave m dy a)) in *. replace (- (py + 1 - 2) / (- 2 / - ln 99)) with (- ((py - 1) * ln 99 / 2)) by (field; lra).
    replace (9 / 10) with (1 / (1 + 1 / 9)) by field. apply G. split; [apply exp_pos|]. replace (1 / 9) with (exp (- (ln 81 / 2))).
    + assert (M : - ((py - 1) * ln 99 / 2) <= - (ln 81 / 2)). { assert (ln 81 < ln 99) by (apply ln_increasing; lra). nra. }
      destruct M as [M|M]; [left; apply exp_increasing; exact M | rewrite M; lra].
    + replace (ln 81) with (ln 9 + ln 9) by (rewrite <- ln_mult by lra; f_equal; ring). replace (- ((ln 9 + ln 9) / 2)) with (- ln 9) by field. rewrite exp_Ropp, exp_ln by lra. field.
Qed.
Lemma c118_half : forall d, 0 < d -> filter_x d (2 * PI / d) = 1 / 2 /\ filter_y d (2 * PI / d) = 1 / 2.
Proof.
  intros d Hd. pose proof PI_RGT_0 as Pp. assert (0 < 2 * PI / d) by (apply Rdiv_lt_0_compat; lra).
  unfold filter_x, filter_y. rewrite (Rabs_pos_eq (2 * PI / d)) by lra. replace (2 * PI / d / (2 * PI / d)) with 1 by (field; lra).
  replace (1 + 1 - 2) with 0 by ring. unfold Rdiv. rewrite !Ropp_0, !Rmult_0_l, exp_0. split; field.
Qed.
Lemma c118_directions : forall d k, 0 < d -> 0 < k < 2 * PI / d -> filter_y d k < filter_x d k.
Proof.
  intros d k Hd Hk. destruct ln99 as [E1 [E2 P]]. unfold filter_x, filter_y. rewrite E1, E2, (Rabs_pos_eq k) by lra.
  assert (Q : 1 < 2 * PI / d / k). { apply (Rmult_lt_reg_r k); [lra|]. unfold Rdiv at 1. rewrite Rmult_assoc, Rinv_l by lra. lra. }
  set (px := 2 * PI / d / k) in *. replace (- (px + 1 - 2) / (1 / ln 99)) with (- ((px - 1) * ln 99)) by (field; lra). replace (- (px + 1 - 2) / (- 2 / - ln 99)) with (- ((px - 1) * ln 99 / 2)) by (field; lra).
  pose proof (exp_pos (- ((px - 1) * ln 99))). pose proof (exp_pos (- ((px - 1) * ln 99 / 2))). set (u := - ((px - 1) * ln 99)) in *. set (v := - ((px - 1) * ln 99 / 2)) in *.
  assert (u < v) by (unfold u, v; nra). unfold Rdiv. rewrite !Rmult_1_l. apply Rinv_lt_contravar; [nra|]. apply Rplus_lt_compat_l, exp_increasing. assumption.
Qed.
