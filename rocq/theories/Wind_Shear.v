(** Proofs about the shear over a one-dimensional bed. *)
From Verif Require Import Base Wind_Model Wind_Spec Wind_Proofs.
From Coq Require Import Reals Lra Lia.
Open Scope R_scope.

(** ** Perturbation *)
Lemma rsum_zero l : (forall x, In x l -> x = 0) -> rsum l = 0.
Proof. induction l as [|a l IH]; intros H; auto. change (a + rsum l = 0). rewrite IH, (H a); [lra|left; auto|intros; apply H; right; auto]. Qed.
Lemma speedup_min n dx zb i : 1 / 10 <= speedup n dx zb i.
Proof. apply Rmax_r. Qed.
Lemma slope_ext n dx a b i : (i < n)%nat -> (forall j, (j < n)%nat -> a j = b j) -> slope n dx a i = slope n dx b i.
Proof.
  intros I E. unfold slope. destruct (Nat.eqb_spec i 0); auto. destruct (Nat.eqb_spec (S i) n); auto. cbn [orb]. rewrite !E by lia. auto.
Qed.
Lemma integral_map n dx a b i : (forall j, (j < n)%nat -> slope n dx a j = slope n dx b j) -> integral n dx a i = integral n dx b i.
Proof.
  intros E. unfold integral. f_equal. apply map_ext_in. intros m M. apply in_seq in M. destruct (Nat.eqb m i); auto. rewrite E by lia. auto.
Qed.
Lemma speedup_slopes n dx dx' a b i : (i < n)%nat -> (forall j, (j < n)%nat -> slope n dx a j = slope n dx' b j) -> speedup n dx a i = speedup n dx' b i.
Proof.
  intros I E. unfold speedup. assert (Q : integral n dx a i = integral n dx' b i).
  { unfold integral. f_equal. apply map_ext_in. intros m M. apply in_seq in M. destruct (Nat.eqb m i); auto. rewrite E by lia. auto. }
  rewrite Q, E by auto. auto.
Qed.
Lemma slope_flat n dx zb i h : (i < n)%nat -> (forall j, (j < n)%nat -> zb j = h) -> slope n dx zb i = 0.
Proof.
  intros I E. unfold slope. destruct (Nat.eqb_spec i 0); auto. destruct (Nat.eqb_spec (S i) n); auto. cbn [orb]. rewrite !E by lia. unfold Rdiv. ring.
Qed.
Lemma speedup_flat n dx zb i h : (i < n)%nat -> (forall j, (j < n)%nat -> zb j = h) -> speedup n dx zb i = 1.
Proof.
  intros I E. unfold speedup. rewrite (slope_flat n dx zb i h I E). assert (Q : integral n dx zb i = 0).
  { unfold integral. apply rsum_zero. intros x X. apply in_map_iff in X. destruct X as [m [<- M]]. apply in_seq in M. destruct (Nat.eqb m i); auto.
    rewrite (slope_flat n dx zb m h) by (auto; lia). unfold Rdiv. ring. }
  rewrite Q. rewrite Rmax_left; lra.
Qed.
Lemma slope_shift n dx zb h i : slope n dx (fun j => zb j + h) i = slope n dx zb i.
Proof. unfold slope. destruct (_ || _)%bool; auto. unfold Rdiv. ring. Qed.
Lemma slope_stretch n dx zb c i : 0 < c -> dx <> 0 -> slope n (c * dx) (fun j => c * zb j) i = slope n dx zb i.
Proof. intros. unfold slope. destruct (_ || _)%bool; auto. field. lra. Qed.

(** ** The perturbed stress *)
Lemma perturbed_min n x zb t i : 1 / 10 <= perturbed n x zb t i.
Proof. unfold perturbed. destruct (Rlt_dec (total n t) 0); [unfold flip|]; apply speedup_min. Qed.
Lemma perturbed_flat n x zb t i h : (i < n)%nat -> (forall j, (j < n)%nat -> zb j = h) -> perturbed n x zb t i = 1.
Proof.
  intros I E. unfold perturbed. destruct (Rlt_dec (total n t) 0).
  - unfold flip at 1. apply speedup_flat with h; [lia|]. intros. apply E. lia.
  - apply speedup_flat with h; auto.
Qed.
Lemma perturbed_shift n x zb t h i : (i < n)%nat -> perturbed n x (fun j => zb j + h) t i = perturbed n x zb t i.
Proof.
  intros I. unfold perturbed. destruct (Rlt_dec (total n t) 0).
  - unfold flip at 1 5. apply speedup_slopes; [lia|]. intros. apply (slope_shift n _ (flip n zb)).
  - apply speedup_slopes; auto. intros. apply slope_shift.
Qed.
Lemma perturbed_stretch n x zb t c i : (i < n)%nat -> 0 < c -> x 1%nat <> x 0%nat -> flip n x 1%nat <> flip n x 0%nat ->
  perturbed n (fun j => c * x j) (fun j => c * zb j) t i = perturbed n x zb t i.
Proof.
  intros I C X1 X2. unfold perturbed. assert (A : forall a b, Rabs (c * a - c * b) = c * Rabs (a - b)).
  { intros. rewrite <- Rmult_minus_distr_l, Rabs_mult, (Rabs_right c) by lra. auto. }
  destruct (Rlt_dec (total n t) 0).
  - change (flip n (fun j => c * x j) 1%nat) with (c * flip n x 1%nat). change (flip n (fun j => c * x j) 0%nat) with (c * flip n x 0%nat). rewrite A.
    unfold flip at 1 6. apply speedup_slopes; [lia|]. intros. apply (slope_stretch n _ (flip n zb)); auto. apply Rabs_no_R0. lra.
  - rewrite A. apply speedup_slopes; auto. intros. apply slope_stretch; auto. apply Rabs_no_R0. lra.
Qed.
Lemma shear1d_scaled n x zb s i : (tau (s i) = 0 -> taus (s i) = 0 /\ taun (s i) = 0) -> exists r, r = perturbed n x zb (fun j => taus (s j)) i /\ 1 / 10 <= r /\
  tau (compute_shear1d n x zb s i) = r * tau (s i) /\ taus (compute_shear1d n x zb s i) = r * taus (s i) /\ taun (compute_shear1d n x zb s i) = r * taun (s i).
Proof.
  intros Z. exists (perturbed n x zb (fun j => taus (s j)) i). split; auto. split; [apply perturbed_min|]. unfold compute_shear1d. cbn [tau taus taun with_stress].
  split; [ring|]. destruct (eqb (tau (s i)) 0) eqn:E.
  - apply eqb_spec in E. destruct (Z E) as [-> ->]. split; ring.
  - apply eqb_false in E. split; field; auto.
Qed.
(** Mirror image *)
Lemma rsum_app l m : rsum (l ++ m) = rsum l + rsum m.
Proof. induction l as [|a l IH]; [cbn; unfold rsum; lra|]. unfold rsum in *. cbn. rewrite IH. ring. Qed.
Lemma rsum_rev l : rsum (rev l) = rsum l.
Proof. induction l as [|a l IH]; auto. cbn [rev]. rewrite rsum_app, IH. cbn. unfold rsum. ring. Qed.
Lemma seq_rev n : rev (seq 0 n) = map (fun i => (n - 1 - i)%nat) (seq 0 n).
Proof.
  induction n as [|n IH]; auto. rewrite seq_S at 1. rewrite rev_app_distr, IH. cbn [rev app seq]. rewrite <- seq_shift, map_cons, map_map. f_equal; [lia|].
  apply map_ext_in. intros a A. apply in_seq in A. lia.
Qed.
Lemma rsum_opp l : rsum (map Ropp l) = - rsum l.
Proof. induction l as [|a l IH]; [cbn; lra|]. unfold rsum in *. cbn. rewrite IH. ring. Qed.
Lemma total_mirror n r : total n (fun i => - r (n - 1 - i)%nat) = - total n r.
Proof.
  unfold total. rewrite <- (rsum_rev (map r (seq 0 n))), <- map_rev, seq_rev, map_map, <- rsum_opp, map_map. auto.
Qed.
Lemma perturbed_mirror n x zb t i : (i < n)%nat -> (2 <= n)%nat -> total n t <> 0 ->
  perturbed n (mirror n x) (mirror n zb) (fun j => - t (n - 1 - j)%nat) i = perturbed n x zb t (n - 1 - i)%nat.
Proof.
  intros I N T. unfold perturbed. rewrite total_mirror. destruct (Rlt_dec (total n t) 0); destruct (Rlt_dec (- total n t) 0); try lra.
  - unfold flip at 1. replace (n - 1 - (n - 1 - i))%nat with i by lia. auto.
  - unfold flip at 1. assert (M : forall r j, (j < n)%nat -> flip n (mirror n r) j = r j) by (intros; unfold flip, mirror; f_equal; lia).
    rewrite !M by lia. apply speedup_slopes; [lia|]. intros. apply slope_ext; auto.
Qed.
Lemma mirror_stress n x zb s s' i : (i < n)%nat -> (2 <= n)%nat -> total n (fun j => taus (s j)) <> 0 ->
  (forall j, (j < n)%nat -> stress (s' j) = (tau (s (n - 1 - j)%nat), - taus (s (n - 1 - j)%nat), taun (s (n - 1 - j)%nat))) ->
  let a := compute_shear1d n (mirror n x) (mirror n zb) s' i in let b := compute_shear1d n x zb s (n - 1 - i)%nat in
  tau a = tau b /\ taus a = - taus b /\ taun a = taun b.
Proof.
  intros I N T S a b. pose proof (S i I) as Si. unfold stress in Si. injection Si as S1 S2 S3.
  assert (P : perturbed n (mirror n x) (mirror n zb) (fun j => taus (s' j)) i = perturbed n x zb (fun j => taus (s j)) (n - 1 - i)%nat).
  { rewrite <- perturbed_mirror; auto. unfold perturbed.
    assert (Q : total n (fun j => taus (s' j)) = total n (fun j => - taus (s (n - 1 - j)%nat))).
    { unfold total. f_equal. apply map_ext_in. intros j J. apply in_seq in J. pose proof (S j ltac:(lia)) as Sj. unfold stress in Sj. injection Sj as _ E _. auto. }
    rewrite Q. auto. }
  unfold a, b, compute_shear1d. cbn [tau taus taun with_stress]. rewrite P, S1, S2, S3.
  split; auto. destruct (eqb (tau (s (n - 1 - i)%nat)) 0); split; try ring; unfold Rdiv; ring.
Qed.

(** ** Separation *)
Lemma sheltered_range h : 0 <= sheltered h <= 1.
Proof.
  unfold sheltered. split; [|apply Rmin_r]. apply Rmin_glb; [apply Rmax_r|lra].
Qed.
Lemma sheltered_none h : h <= 0 -> sheltered h = 1.
Proof. intros. unfold sheltered. rewrite Rmin_right; auto. eapply Rle_trans; [|apply Rmax_l]. lra. Qed.
Lemma sheltered_full h : 1 / 10 <= h -> sheltered h = 0.
Proof. intros. unfold sheltered. rewrite Rmax_right by lra. apply Rmin_left. lra. Qed.
Lemma separate_stress rho h s : taus (separate rho h s) = sheltered h * taus s /\ taun (separate rho h s) = sheltered h * taun s /\ tau (separate rho h s) = tau s.
Proof. unfold separate. cbn [taus taun tau stress_velocity with_stress]. split; [ring|]. split; [ring|auto]. Qed.
Lemma separate_ustar rho h s : ustar (separate rho h s) = ustar (stress_velocity rho s).
Proof. reflexivity. Qed.
Lemma not_below_z n dx c mu x z m : z m <= not_below n dx c mu x z m.
Proof. unfold not_below. destruct (Rlt_dec _ _); lra. Qed.
Lemma separation_above n dx c mu ud x zb i : (i < n)%nat -> zb i <= separation1d n dx c mu ud x zb i.
Proof.
  intros I. unfold separation1d. destruct (along dx ud) as [dxs [|]].
  - unfold flip at 1. eapply Rle_trans; [|apply not_below_z]. unfold flip. replace (n - 1 - (n - 1 - i))%nat with i by lia. lra.
  - apply not_below_z.
Qed.
Lemma no_bubbles n dx c mu x z : bubbles n dx mu z = [] -> forall m, not_below n dx c mu x z m = z m.
Proof.
  intros B m. assert (E : smoothed n dx c mu x z m = z m).
  { unfold smoothed, surface. rewrite B. cbn [add_bubbles zsep start]. ring. }
  unfold not_below. rewrite E. destruct (Rlt_dec _ _); auto.
Qed.
Lemma gentle_bubbles n dx mu z : gentle n dx mu z -> bubbles n dx mu z = [].
Proof.
  intros G. assert (A : forall i, stall0 n dx mu z i = false).
  { intros i. assert (Q : dzx n dx z i = 0 \/ - dzx n dx z i <= mu).
    { assert (F : forall j, angle0 n dx z j = 0 \/ - angle0 n dx z j <= mu).
      { intros j. unfold angle0. destruct (Nat.ltb_spec (S j) n); [right; apply G; auto|left; auto]. }
      unfold dzx. destruct (Nat.eqb (S i) n); [destruct (Nat.eqb (n - 2) 0)|destruct (Nat.eqb i 0)]; apply F. }
    unfold stall0. destruct Q as [Q|Q].
    - rewrite Q. assert (E : gtb 0 0 = false) by (apply gtb_false; lra). rewrite E, Bool.andb_false_r. auto.
    - destruct (gtb 0 (dzx n dx z i)) eqn:E; [|apply Bool.andb_false_r]. apply gtb_spec in E. rewrite Rabs_left by auto.
      assert (E2 : gtb (- dzx n dx z i) mu = false) by (apply gtb_false; auto). rewrite E2. auto. }
  assert (S : forall i, stall n dx mu z i = false) by (intros; unfold stall; rewrite !A, Bool.andb_false_r; auto).
  assert (B : forall i, bubble n dx mu z i = false).
  { assert (B0 : forall i, bubble0 n dx mu z i = false) by (intros; unfold bubble0; rewrite !S, Bool.andb_false_r; auto).
    intros i. unfold bubble. rewrite !B0. destruct (Nat.ltb i 2); auto. destruct (Nat.ltb _ _); auto. }
  unfold bubbles. induction (seq 0 n) as [|a l IH]; auto. cbn [filter]. rewrite B. auto.
Qed.
Lemma along_wide dx ud : 0 < dx -> -180 < ud < 180 -> ud <> 0 -> dx <= fst (along dx ud).
Proof.
  intros D U Z. assert (C : forall a, Rabs a < 90 -> dx <= dx / cos (radians (Rabs a))).
  { intros a A. pose proof (Rabs_pos a). assert (0 <= radians (Rabs a)) by (pose proof (proj1 (radians_le 0 (Rabs a)) (Rabs_pos a)) as Q; unfold radians in Q at 1; lra).
    assert (radians (Rabs a) < PI / 2) by (replace (PI / 2) with (radians 90) by (unfold radians; field); apply radians_lt; auto).
    assert (0 < cos (radians (Rabs a))) by (apply cos_gt_0; lra). pose proof (COS_bound (radians (Rabs a))).
    unfold Rdiv. rewrite <- (Rmult_1_r dx) at 1. apply Rmult_le_compat_l; [lra|]. apply Rmult_le_reg_r with (cos (radians (Rabs a))); auto. rewrite Rinv_l; lra. }
  unfold along, normal_dir. destruct (Rlt_dec ud 360); [|lra]. destruct (Rlt_dec 360 (ud + 360)).
  - replace (ud + 360 - 360) with ud by ring. destruct (Rlt_dec 180 ud); [lra|]. destruct (Req_EM_T ud 180); [lra|]. cbn [fst]. apply C. apply Rabs_def1; lra.
  - destruct (Rlt_dec 180 (ud + 360)); [|lra]. destruct (Rlt_dec (ud + 360) 360); [|lra]. cbn [fst]. apply C. apply Rabs_def1; lra.
Qed.
Lemma atan_le a b : a <= b -> atan a <= atan b.
Proof. intros [H| ->]; [left; apply atan_increasing; auto|lra]. Qed.
Lemma degrees_le a b : a <= b -> degrees a <= degrees b.
Proof. intros. unfold degrees. pose proof PI_RGT_0. apply Rmult_le_compat_r; [left; apply Rinv_0_lt_compat; auto|]. lra. Qed.
Lemma gentle_any n dx d mu z : 0 < dx <= d -> (forall i, (S i < n)%nat -> degrees (atan (Rabs (z (S i) - z i) / dx)) <= mu) -> gentle n d mu z.
Proof.
  intros D G i I. eapply Rle_trans; [|apply (G i I)].
  replace (- degrees (atan ((z (S i) - z i) / d))) with (degrees (atan (- ((z (S i) - z i) / d)))) by (rewrite atan_opp; unfold degrees; field; apply PI_neq0).
  apply degrees_le, atan_le. pose proof (Rle_abs (- (z (S i) - z i))) as A. rewrite Rabs_Ropp in A. pose proof (Rabs_pos (z (S i) - z i)).
  assert (V : / d <= / dx) by (apply Rinv_le_contravar; lra). assert (0 < / d) by (apply Rinv_0_lt_compat; lra).
  unfold Rdiv. apply Rle_trans with (Rabs (z (S i) - z i) * / d).
  - replace (- ((z (S i) - z i) * / d)) with (- (z (S i) - z i) * / d) by ring. apply Rmult_le_compat_r; lra.
  - apply Rmult_le_compat_l; lra.
Qed.
Lemma no_separation n dx c mu ud x zb : 0 < dx -> -180 < ud < 180 -> ud <> 0 ->
  (forall i, (S i < n)%nat -> degrees (atan (Rabs (zb (S i) - zb i) / dx)) <= mu) -> forall i, (i < n)%nat -> separation1d n dx c mu ud x zb i = zb i.
Proof.
  intros D U Z G i I. pose proof (along_wide dx ud D U Z) as W. unfold separation1d. destruct (along dx ud) as [d [|]]; cbn [fst] in W.
  - unfold flip at 1. rewrite no_bubbles; [unfold flip; f_equal; lia|]. apply gentle_bubbles. apply gentle_any with dx; [lra|].
    intros j J. unfold flip. rewrite Rabs_minus_sym. replace (n - 1 - j)%nat with (S (n - 1 - S j)) by lia. apply G. lia.
  - apply no_bubbles. apply gentle_bubbles. apply gentle_any with dx; [lra|]. auto.
Qed.
(** ** A single bubble *)
Lemma one_bubble n dx c mu x z i : bubbles n dx mu z = [i] -> (2 <= i)%nat -> z (i - 1)%nat = z (i - 2)%nat -> forall m,
  let e0 := until n dx i (reattach c (brink n dx z i) 0) in let e1 := until n dx i (reattach c (z i) 0) in
  not_below n dx c mu x z m =
    if inside i e0 m then Rmax (if inside i e1 m then cubic (z i) 0 (reattach c (z i) 0) (z i) (x m - x i) else 0) (z m) else z m.
Proof.
  intros B I F m e0 e1.
  assert (S : forall j, surface n dx c mu x z j m = if inside i e0 m then Rmax (if inside i e1 m then cubic (z i) 0 (reattach c (z i) 0) (z i) (x m - x i) else 0) (z m) else z m).
  { intros j. unfold surface. rewrite B. cbn [add_bubbles]. unfold add_bubble. cbn [zsep zsep0 zsep1 start].
    assert (D0 : (z (i - 1)%nat - z (i - 2)%nat) / dx = 0) by (rewrite F; unfold Rdiv; ring). rewrite D0. fold e0.
    assert (O : forall e k, (k < i)%nat -> inside i e k = false) by (intros e k K; unfold inside; destruct (Nat.leb_spec i k); [lia|auto]).
    rewrite (O e0 (i - 1)%nat), (O e0 (i - 2)%nat) by lia.
    assert (D1 : (damp n dx x (j * length [i]) * 0 - damp n dx x (j * length [i]) * 0) / dx = 0) by (unfold Rdiv; ring). rewrite D1. fold e1. auto. }
  unfold not_below, smoothed. rewrite !S. set (v := if inside i e0 m then _ else _).
  replace ((1 - 2 * side_weight) * v + side_weight * (v + v)) with v by ring.
  assert (z m <= v) by (unfold v; destruct (inside i e0 m); [apply Rmax_r|lra]). destruct (Rlt_dec v (z m)); lra.
Qed.
Lemma whole_ge k r : INR k <= r -> (k <= whole r)%nat.
Proof.
  intros H. unfold whole. destruct (base_Int_part r) as [A B]. rewrite <- (Nat2Z.id k). apply Z2Nat.inj_le; [lia| |].
  - destruct (Z_le_gt_dec 0 (Int_part r)); [auto|]. exfalso.
    assert (IZR (Int_part r) <= IZR (-1)) by (apply IZR_le; lia). rewrite INR_IZR_INZ in H. assert (IZR 0 <= IZR (Z.of_nat k)) by (apply IZR_le; lia). lra.
  - assert (IZR (Z.of_nat k) < IZR (Int_part r + 1)) by (rewrite plus_IZR, <- INR_IZR_INZ; lra). apply lt_IZR in H0. lia.
Qed.
Lemma whole_0 r : 0 <= r < 1 -> whole r = 0%nat.
Proof.
  intros H. unfold whole. destruct (base_Int_part r) as [A B]. assert (IZR (Int_part r) < IZR 1) by lra. apply lt_IZR in H0. lia.
Qed.
