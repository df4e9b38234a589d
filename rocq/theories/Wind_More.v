(** Further statements about the wind: sample times and repetition, roughness methods, wind without a file, hills and slopes. *)
From Verif Require Import Base Wind_Model Wind_Spec Wind_Proofs Wind_Shear Wind_Cases.
From Coq Require Import Reals Lra Lia.
Open Scope R_scope.

(** ** C79 *)
Lemma order_first a rest : in_order a rest -> forall w, In w rest -> at_t a < at_t w.
Proof.
  revert a. induction rest as [|b rest IH]; intros a O w W; [destruct W|]. destruct O as [O1 O2]. destruct W as [<-|W]; auto. specialize (IH b O2 w W). lra.
Qed.
Lemma fold_min_first a l : (forall x, In x l -> a <= x) -> fold_left Rmin l a = a.
Proof.
  induction l as [|b l IH]; intros H; auto. cbn. rewrite Rmin_left by (apply H; left; auto). apply IH. intros; apply H; right; auto.
Qed.
Lemma first_time_order a rest : in_order a rest -> first_time a rest = at_t a.
Proof.
  intros O. apply fold_min_first. intros x X. apply in_map_iff in X. destruct X as [w [<- W]]. left. apply order_first with rest; auto.
Qed.
Lemma last_default (l : list sample) : forall x y z, last (x :: l) y = last (x :: l) z.
Proof. induction l as [|q l IH]; intros; auto. change (last (q :: l) y = last (q :: l) z). apply IH. Qed.
Lemma last_time_order rest : forall a, in_order a rest -> last_time a rest = at_t (last rest a).
Proof.
  unfold last_time. induction rest as [|b rest IH]; intros a O; auto. destruct O as [O1 O2]. cbn [map fold_left]. rewrite Rmax_right by lra. rewrite IH by auto.
  destruct rest as [|c rest]; auto. change (at_t (last (c :: rest) b) = at_t (last (c :: rest) a)). f_equal. apply last_default.
Qed.
Lemma last_time_ge rest : forall a, in_order a rest -> forall w, In w (a :: rest) -> at_t w <= last_time a rest.
Proof.
  unfold last_time. induction rest as [|b rest IH]; intros a O w W.
  - destruct W as [<-|[]]. cbn. lra.
  - destruct O as [O1 O2]. cbn [map fold_left]. rewrite Rmax_right by lra. destruct W as [<-|W]; [|apply IH; auto].
    specialize (IH b O2 b (or_introl eq_refl)). lra.
Qed.
Lemma int_part_unique r k : IZR k <= r < IZR k + 1 -> Int_part r = k.
Proof.
  intros H. unfold Int_part. rewrite <- (tech_up r (k + 1)); [lia| |]; rewrite plus_IZR; lra.
Qed.
Lemma rmod_shift a b : 0 < b -> forall k, rmod (a + IZR k * b) b = rmod a b.
Proof.
  intros B k. unfold rmod. replace ((a + IZR k * b) / b) with (a / b + IZR k) by (field; lra).
  assert (E : Int_part (a / b + IZR k) = (Int_part (a / b) + k)%Z).
  { apply int_part_unique. rewrite plus_IZR. destruct (base_Int_part (a / b)). lra. }
  rewrite E, plus_IZR. ring.
Qed.
Lemma rmod_small a b : 0 <= a < b -> rmod a b = a.
Proof.
  intros H. unfold rmod. assert (E : Int_part (a / b) = 0%Z).
  { apply int_part_unique. assert (0 <= a / b < 1).
    { split; [unfold Rdiv; apply Rmult_le_pos; [lra|left; apply Rinv_0_lt_compat; lra]|]. apply Rmult_lt_reg_r with b; [lra|]. unfold Rdiv. rewrite Rmult_assoc, Rinv_l; lra. }
    change (IZR 0) with 0. lra. }
  rewrite E. ring.
Qed.
Lemma circular_inside f t a rest : in_order a rest -> at_t a <= t < last_time a rest + 1 -> interp_circular f t a rest = interp_from f t a rest.
Proof.
  intros O T. unfold interp_circular. rewrite first_time_order by auto. f_equal.
  replace (t - last_time a rest - 1) with ((t - at_t a) + IZR (-1) * (last_time a rest - at_t a + 1)) by (change (IZR (-1)) with (- (1)); ring).
  pose proof (last_time_ge rest a O a (or_introl eq_refl)). rewrite rmod_shift, rmod_small by lra. ring.
Qed.
Lemma interp_at_sample f rest : forall a w, in_order a rest -> In w (a :: rest) -> interp_from f (at_t w) a rest = f w.
Proof.
  induction rest as [|b rest IH]; intros a w O W.
  - destruct W as [<-|[]]. auto.
  - cbn [interp_from]. destruct O as [O1 O2]. destruct W as [<-|W].
    + destruct (Rlt_dec (at_t a) (at_t b)); [|lra]. destruct (Rle_dec (at_t a) (at_t a)); [auto|lra].
    + destruct (Rlt_dec (at_t w) (at_t b)); [|apply IH; auto]. exfalso. destruct W as [<-|W]; [lra|]. pose proof (order_first b rest O2 w W). lra.
Qed.
Lemma interp_after f rest : forall a t, in_order a rest -> last_time a rest <= t -> interp_from f t a rest = f (last rest a).
Proof.
  induction rest as [|b rest IH]; intros a t O T; auto. cbn [interp_from]. destruct O as [O1 O2]. unfold last_time in T. cbn [map fold_left] in T. rewrite Rmax_right in T by lra. fold (last_time b rest) in T.
  pose proof (last_time_ge rest b O2 b (or_introl eq_refl)). destruct (Rlt_dec t (at_t b)); [lra|]. rewrite IH by auto. destruct rest as [|c rest]; auto.
  change (f (last (c :: rest) b) = f (last (c :: rest) a)). f_equal. apply last_default.
Qed.
Lemma single_direction t a rest w : interp_circular (fun w => sin (radians (dir w))) t a rest = sin (radians (dir w)) ->
  interp_circular (fun w => cos (radians (dir w))) t a rest = cos (radians (dir w)) -> same_direction (snd (wind_at t a rest)) (dir w).
Proof. intros S C. unfold wind_at, same_direction. cbn [snd]. rewrite radians_degrees, S, C. apply polar_same with 1; lra. Qed.
Lemma c79_samples a rest w : in_order a rest -> In w (a :: rest) -> fst (wind_at (at_t w) a rest) = speed w /\ same_direction (snd (wind_at (at_t w) a rest)) (dir w).
Proof.
  intros O W. assert (T : at_t a <= at_t w < last_time a rest + 1).
  { pose proof (last_time_ge rest a O w W). split; [|lra]. destruct W as [<-|W]; [lra|left; apply order_first with rest; auto]. }
  assert (F : forall f, interp_circular f (at_t w) a rest = f w) by (intros; rewrite circular_inside, interp_at_sample; auto).
  split; [apply F|]. apply single_direction; apply F.
Qed.
Lemma c79_repeats t a rest : in_order a rest -> wind_at (t + (at_t (last rest a) - at_t a + 1)) a rest = wind_at t a rest.
Proof.
  intros O. assert (L : last_time a rest = at_t (last rest a)) by (apply last_time_order; auto).
  assert (F : forall f, interp_circular f (t + (at_t (last rest a) - at_t a + 1)) a rest = interp_circular f t a rest).
  { intros f. unfold interp_circular. rewrite first_time_order, <- L by auto. f_equal. f_equal.
    replace (t + (last_time a rest - at_t a + 1) - last_time a rest - 1) with ((t - last_time a rest - 1) + IZR 1 * (last_time a rest - at_t a + 1)) by ring.
    apply rmod_shift. pose proof (last_time_ge rest a O a (or_introl eq_refl)). lra. }
  unfold wind_at. rewrite !F. auto.
Qed.
Lemma c79_pause t a rest : in_order a rest -> at_t (last rest a) <= t < at_t (last rest a) + 1 ->
  fst (wind_at t a rest) = speed (last rest a) /\ same_direction (snd (wind_at t a rest)) (dir (last rest a)).
Proof.
  intros O. rewrite <- last_time_order by auto. intros T. pose proof (last_time_ge rest a O a (or_introl eq_refl)).
  assert (F : forall f, interp_circular f t a rest = f (last rest a)) by (intros; rewrite circular_inside, interp_after; auto; lra).
  split; [apply F|]. apply single_direction; apply F.
Qed.
(** Two samples, two seconds apart. *)
Definition rising_a : sample := {| at_t := 0; speed := 5; dir := 350 |}.
Definition rising_b : sample := {| at_t := 2; speed := 7; dir := 10 |}.
Lemma rising_order : in_order rising_a [rising_b].
Proof. cbn; lra. Qed.
Lemma rising_first : fst (wind_at 1 rising_a [rising_b]) = 6.
Proof.
  cbn [fst wind_at]. rewrite circular_inside; [|apply rising_order|unfold last_time; cbn; rewrite Rmax_right; lra].
  cbn. destruct (Rlt_dec 1 2); [|lra]. destruct (Rle_dec 1 0); lra.
Qed.
Lemma rising_again : fst (wind_at 3 rising_a [rising_b]) = 5.
Proof.
  pose proof (c79_repeats 0 rising_a [rising_b] rising_order) as E. cbn [last at_t rising_a rising_b] in E. replace (0 + (2 - 0 + 1)) with 3 in E by ring. rewrite E.
  apply (proj1 (c79_samples rising_a [rising_b] rising_a rising_order (or_introl eq_refl))).
Qed.
Lemma c79_samples_case : in_order rising_a [rising_b] /\ In rising_b (rising_a :: [rising_b]) /\ at_t (last [rising_b] rising_a) = 2 /\ fst (wind_at 1 rising_a [rising_b]) = 6 /\ fst (wind_at 3 rising_a [rising_b]) = 5.
Proof. split; [apply rising_order|]. split; [right; left; auto|]. split; [auto|]. split; [apply rising_first|apply rising_again]. Qed.

(** ** C80: roughness *)
Lemma c80_methods p1 p2 p3 p4 p5 gr u z1 z2 z3 z4 z5 d : method_roughness p1 = ConstantNikuradse -> method_roughness p2 = Constant -> method_roughness p3 = MeanInitial ->
  method_roughness p4 = MeanAdaptive -> method_roughness p5 = MedianAdaptive -> k p1 = d -> k p2 = d / 30 -> grain_size p3 = [d] -> grain_dist p3 = [1] -> mean gr = d -> d50 gr = d ->
  calculate_z0 p1 gr u = Ok z1 -> calculate_z0 p2 gr u = Ok z2 -> calculate_z0 p3 gr u = Ok z3 -> calculate_z0 p4 gr u = Ok z4 -> calculate_z0 p5 gr u = Ok z5 ->
  z2 = z1 /\ z3 = z1 /\ z4 = z1 /\ z5 = 2 * z1 /\ 30 * z1 = d.
Proof.
  intros M1 M2 M3 M4 M5 K1 K2 S3 D3 G1 G2. unfold calculate_z0. rewrite M1, M2, M3, M4, M5, K1, K2, S3, D3, G1, G2. intros E1 E2 E3 E4 E5.
  inversion E1; inversion E2; inversion E3; inversion E4; inversion E5. subst. cbn. unfold rsum. cbn. repeat split; field.
Qed.
Definition single_size (m : roughness) (kk d : R) : params := {| method_roughness := m; k := kk; z := 10; kappa := 41 / 100; rhoa := 1225 / 1000; rhog := 2650; g := 981 / 100; alfa := 0;
  grain_size := [d]; grain_dist := [1] |}.
Lemma c80_methods_case : exists z0, calculate_z0 (single_size MeanInitial 1 (3 / 10000)) sand 5 = Ok z0 /\ z0 = 1 / 100000 /\ mean sand = 3 / 10000 /\ d50 sand = 3 / 10000.
Proof. eexists. split; [reflexivity|]. cbn. unfold rsum; cbn. split; [field|]. split; auto. Qed.
(** The stress kept for a flat bed. *)
Lemma c80_flat p gr u d s s' z0 : proper p -> calculate_z0 p gr (Rabs u) = Ok z0 -> 0 < z0 < z p -> blow p gr u d s = Ok s' ->
  let '(_, (t0, ts0, tn0)) := flat_bed s' in hypot ts0 tn0 = t0 /\ ts0 * uw s' = t0 * uws s' /\ tn0 * uw s' = t0 * uwn s'.
Proof.
  intros P Z B E. destruct (shear_follows _ _ _ _ _ _ _ P Z B E) as [c [C [_ [S [N U]]]]].
  assert (R : 0 <= rhoa p) by (destruct P as [_ [_ [_ [R _]]]]; lra).
  destruct (blow_coherent _ _ _ _ _ _ R E) as [_ [_ [_ [HT [Q [CS CN]]]]]]. cbn [flat_bed]. split; [auto|].
  rewrite S, U in CS. rewrite N, U in CN. split; apply Rmult_eq_reg_l with c; lra.
Qed.

(** ** C81: no wind file *)
Lemma c81_kept p pw file t gr s s' : pw = false \/ file = None -> interpolate p pw file t gr s = Ok s' -> 0 <= uw s ->
  uw s' = uw s /\ udir s' = udir s /\ uws s' = - uw s * sin (radians (udir s - alfa p)) /\ uwn s' = - uw s * cos (radians (udir s - alfa p)).
Proof.
  intros H E U. assert (E' : blow p gr (uw s) (udir s) s = Ok s') by (destruct H as [->| ->]; [exact E|destruct pw; exact E]).
  destruct (blow_ok _ _ _ _ _ _ E') as [z1 [_ [W [D [US [UN _]]]]]]. rewrite Rabs_right in W by lra. replace (udir s - alfa p) with (- alfa p + udir s) by ring. auto.
Qed.
Lemma c81_kept_case : exists s', interpolate beach false None 0 sand (onshore 0) = Ok s' /\ 0 <= uw (onshore 0) /\ uw s' = 10 /\ udir s' = - 90.
Proof. eexists. split; [reflexivity|]. cbn. split; [lra|]. split; [apply Rabs_right; lra|auto]. Qed.

(** ** C112: hills, hollows and slopes *)
Definition term (n : nat) (dx : R) (zb : row) (i m : nat) : R := if Nat.eqb m i then 0 else slope n dx zb m / ((INR i - INR m) * PI).
Lemma integral_terms n dx zb i : (0 < n)%nat -> integral n dx zb i = rsum (map (term n dx zb i) (seq 0 n)).
Proof.
  intros N. unfold integral. destruct n as [|n]; [lia|]. replace (S n - 1)%nat with n by lia. change (seq 0 (S n)) with (0%nat :: seq 1 n). cbn [map]. unfold rsum at 2. cbn [fold_right].
  fold (rsum (map (term (S n) dx zb i) (seq 1 n))). assert (Z : term (S n) dx zb i 0%nat = 0). { unfold term. destruct (Nat.eqb 0 i); auto. unfold slope. cbn [Nat.eqb orb]. unfold Rdiv. ring. }
  rewrite Z, Rplus_0_l. auto.
Qed.
Lemma rsum_nonneg l : (forall x, In x l -> 0 <= x) -> 0 <= rsum l.
Proof. induction l as [|a l IH]; intros H; [cbn; unfold rsum; cbn; lra|]. unfold rsum. cbn [fold_right]. fold (rsum l). assert (0 <= a) by (apply H; left; auto). assert (0 <= rsum l) by (apply IH; intros; apply H; right; auto). lra. Qed.
Lemma rsum_pos l x : (forall y, In y l -> 0 <= y) -> In x l -> 0 < x -> 0 < rsum l.
Proof.
  induction l as [|a l IH]; intros H I P; [destruct I|]. unfold rsum. cbn [fold_right]. fold (rsum l). assert (0 <= a) by (apply H; left; auto).
  assert (0 <= rsum l) by (apply rsum_nonneg; intros; apply H; right; auto). destruct I as [->|I]; [lra|].
  assert (0 < rsum l) by (apply IH; auto; intros; apply H; right; auto). lra.
Qed.
(** The bed rises towards cell i from both sides. *)
Lemma climb n zb i : (forall j, (j < i)%nat -> zb j <= zb (S j)) -> (i < n)%nat -> forall a b, (a <= b)%nat -> (b <= i)%nat -> zb a <= zb b.
Proof. intros U I a b L. induction L; intros; [lra|]. specialize (IHL ltac:(lia)). pose proof (U m ltac:(lia)). lra. Qed.
Lemma descend n zb i : (forall j, (i <= j)%nat -> (S j < n)%nat -> zb (S j) <= zb j) -> forall a b, (i <= a)%nat -> (a <= b)%nat -> (b < n)%nat -> zb b <= zb a.
Proof. intros D a b A L. induction L; intros; [lra|]. specialize (IHL ltac:(lia)). pose proof (D m ltac:(lia) ltac:(lia)). lra. Qed.
Lemma inv_pos_r a b : 0 <= a -> 0 < b -> 0 <= a / b.
Proof. intros. unfold Rdiv. apply Rmult_le_pos; auto. left. apply Rinv_0_lt_compat; auto. Qed.
Lemma term_hill n dx zb i : 0 < dx -> (0 < i)%nat -> (S i < n)%nat -> hill n zb i -> forall m, (m < n)%nat -> 0 <= term n dx zb i m /\
  ((0 < m)%nat -> (S m < n)%nat -> m <> i -> zb (m - 1)%nat <> zb (S m) -> 0 < term n dx zb i m).
Proof.
  intros X I0 I1 [U [D E]] m M. pose proof PI_RGT_0 as P. unfold term. destruct (Nat.eqb_spec m i); [split; [lra|contradiction]|].
  unfold slope. destruct (Nat.eqb_spec m 0); [cbn [orb]; split; [unfold Rdiv; rewrite Rmult_0_l; lra|lia]|]. destruct (Nat.eqb_spec (S m) n); [cbn [orb]; split; [unfold Rdiv; rewrite Rmult_0_l; lra|lia]|]. cbn [orb].
  assert (C : (m < i)%nat \/ (i < m)%nat) by lia. destruct C as [C|C].
  - pose proof (climb n zb i U ltac:(lia) (m - 1)%nat (S m) ltac:(lia) ltac:(lia)) as L. assert (Q : 0 < (INR i - INR m) * PI) by (apply Rmult_lt_0_compat; auto; apply lt_INR in C; lra).
    split; [apply inv_pos_r; auto; apply inv_pos_r; lra|]. intros _ _ _ Z. apply Rdiv_lt_0_compat; auto. apply Rdiv_lt_0_compat; auto. lra.
  - pose proof (descend n zb i D (m - 1)%nat (S m) ltac:(lia) ltac:(lia) ltac:(lia)) as L.
    assert (Q : 0 < (INR m - INR i) * PI) by (apply Rmult_lt_0_compat; auto; apply lt_INR in C; lra).
    replace ((zb (S m) - zb (m - 1)%nat) / 2 / dx / ((INR i - INR m) * PI)) with ((zb (m - 1)%nat - zb (S m)) / 2 / dx / ((INR m - INR i) * PI)).
    2:{ field. apply lt_INR in C. repeat split; lra. }
    split; [apply inv_pos_r; auto; apply inv_pos_r; lra|]. intros _ _ _ Z. apply Rdiv_lt_0_compat; auto. apply Rdiv_lt_0_compat; auto. lra.
Qed.
Lemma slope_top n dx zb i : hill n zb i -> slope n dx zb i = 0.
Proof. intros [_ [_ E]]. unfold slope. destruct (_ || _)%bool; auto. rewrite E. unfold Rdiv. ring. Qed.
Lemma speedup_hill n dx zb i : 0 < dx -> (0 < i)%nat -> (S i < n)%nat -> hill n zb i -> 1 <= speedup n dx zb i /\
  ((exists m, (0 < m)%nat /\ (S m < n)%nat /\ m <> i /\ zb (m - 1)%nat <> zb (S m)) -> 1 < speedup n dx zb i).
Proof.
  intros X I0 I1 H. unfold speedup. rewrite (slope_top n dx zb i H), integral_terms by lia. set (l := map (term n dx zb i) (seq 0 n)).
  assert (A : forall y, In y l -> 0 <= y). { intros y Y. apply in_map_iff in Y. destruct Y as [m [<- M]]. apply in_seq in M. apply term_hill; auto. lia. }
  split.
  - pose proof (rsum_nonneg l A). eapply Rle_trans; [|apply Rmax_l]. lra.
  - intros [m [M0 [M1 [M2 M3]]]]. assert (0 < rsum l).
    { apply rsum_pos with (term n dx zb i m); auto; [apply in_map; apply in_seq; lia|]. apply term_hill; auto. lia. }
    eapply Rlt_le_trans; [|apply Rmax_l]. lra.
Qed.
Lemma slope_opp n dx zb i : slope n dx (fun j => - zb j) i = - slope n dx zb i.
Proof. unfold slope. destruct (_ || _)%bool; [ring|]. unfold Rdiv. ring. Qed.
Lemma speedup_hollow n dx zb i : 0 < dx -> (0 < i)%nat -> (S i < n)%nat -> hill n (fun j => - zb j) i -> speedup n dx zb i <= 1 /\
  ((exists m, (0 < m)%nat /\ (S m < n)%nat /\ m <> i /\ zb (m - 1)%nat <> zb (S m)) -> speedup n dx zb i < 1).
Proof.
  intros X I0 I1 H. unfold speedup. pose proof (slope_top n dx _ i H) as T. rewrite slope_opp in T. replace (slope n dx zb i) with 0 by lra. rewrite integral_terms by lia.
  assert (F : rsum (map (term n dx zb i) (seq 0 n)) = - rsum (map (term n dx (fun j => - zb j) i) (seq 0 n))).
  { rewrite <- rsum_opp, map_map. f_equal. apply map_ext. intros m. unfold term. destruct (Nat.eqb m i); [ring|]. rewrite slope_opp. unfold Rdiv. ring. }
  rewrite F. set (l := map (term n dx (fun j => - zb j) i) (seq 0 n)).
  assert (A : forall y, In y l -> 0 <= y). { intros y Y. apply in_map_iff in Y. destruct Y as [m [<- M]]. apply in_seq in M. apply term_hill; auto. lia. }
  split.
  - pose proof (rsum_nonneg l A). apply Rmax_lub; lra.
  - intros [m [M0 [M1 [M2 M3]]]]. assert (0 < rsum l).
    { apply rsum_pos with (term n dx (fun j => - zb j) i m); auto; [apply in_map; apply in_seq; lia|]. apply term_hill; auto; [lia|lra]. }
    apply Rmax_lub_lt; lra.
Qed.
Lemma hill_flip n zb i : (i < n)%nat -> (0 < i)%nat -> (S i < n)%nat -> hill n zb i -> hill n (flip n zb) (n - 1 - i).
Proof.
  intros I I0 I1 [U [D E]]. unfold hill, flip. split; [|split].
  - intros j J. replace (n - 1 - S j)%nat with (n - 1 - j - 1)%nat by lia. pose proof (D (n - 1 - j - 1)%nat ltac:(lia) ltac:(lia)) as L. replace (S (n - 1 - j - 1))%nat with (n - 1 - j)%nat in L by lia. auto.
  - intros j J1 J2. pose proof (U (n - 1 - S j)%nat ltac:(lia)) as L. replace (S (n - 1 - S j)) with (n - 1 - j)%nat in L by lia. auto.
  - replace (n - 1 - (n - 1 - i - 1))%nat with (S i) by lia. replace (n - 1 - S (n - 1 - i))%nat with (i - 1)%nat by lia. auto.
Qed.
Lemma flip_uneven n zb i : (exists m, (0 < m)%nat /\ (S m < n)%nat /\ m <> i /\ zb (m - 1)%nat <> zb (S m)) -> (i < n)%nat ->
  exists m, (0 < m)%nat /\ (S m < n)%nat /\ m <> (n - 1 - i)%nat /\ flip n zb (m - 1)%nat <> flip n zb (S m).
Proof.
  intros [m [M0 [M1 [M2 M3]]]] I. exists (n - 1 - m)%nat. split; [lia|]. split; [lia|]. split; [lia|]. unfold flip.
  replace (n - 1 - (n - 1 - m - 1))%nat with (S m) by lia. replace (n - 1 - S (n - 1 - m))%nat with (m - 1)%nat by lia. auto.
Qed.
Lemma flip_opp n zb i : flip n (fun j => - zb j) i = - flip n zb i.
Proof. reflexivity. Qed.
Lemma distance n (x : row) : x 1%nat <> x 0%nat -> x (n - 2)%nat <> x (n - 1)%nat -> 0 < Rabs (x 1%nat - x 0%nat) /\ 0 < Rabs (flip n x 1%nat - flip n x 0%nat).
Proof.
  intros A B. split; apply Rabs_pos_lt; [lra|]. unfold flip. replace (n - 1 - 1)%nat with (n - 2)%nat by lia. replace (n - 1 - 0)%nat with (n - 1)%nat by lia. lra.
Qed.
Lemma stress_factor n x zb s i : tau (compute_shear1d n x zb s i) = tau (s i) * perturbed n x zb (fun j => taus (s j)) i.
Proof. reflexivity. Qed.
Lemma c112_hill n x zb s i : (0 < i)%nat -> (S i < n)%nat -> x 1%nat <> x 0%nat -> x (n - 2)%nat <> x (n - 1)%nat -> hill n zb i -> 0 < tau (s i) ->
  tau (s i) <= tau (compute_shear1d n x zb s i) /\
  ((exists m, (0 < m)%nat /\ (S m < n)%nat /\ m <> i /\ zb (m - 1)%nat <> zb (S m)) -> tau (s i) < tau (compute_shear1d n x zb s i)).
Proof.
  intros I0 I1 X1 X2 H T. destruct (distance n x X1 X2) as [D1 D2]. rewrite stress_factor.
  assert (K : 1 <= perturbed n x zb (fun j => taus (s j)) i /\ ((exists m, (0 < m)%nat /\ (S m < n)%nat /\ m <> i /\ zb (m - 1)%nat <> zb (S m)) -> 1 < perturbed n x zb (fun j => taus (s j)) i)).
  { unfold perturbed. destruct (Rlt_dec _ 0).
    - unfold flip at 1 8. destruct (speedup_hill n _ (flip n zb) (n - 1 - i)%nat D2 ltac:(lia) ltac:(lia) (hill_flip n zb i ltac:(lia) I0 I1 H)) as [A B].
      split; auto. intros M. apply B. apply flip_uneven; auto. lia.
    - apply speedup_hill; auto. }
  destruct K as [K1 K2]. split.
  - rewrite <- (Rmult_1_r (tau (s i))) at 1. apply Rmult_le_compat_l; lra.
  - intros M. rewrite <- (Rmult_1_r (tau (s i))) at 1. apply Rmult_lt_compat_l; auto.
Qed.
Lemma c112_hollow n x zb s i : (0 < i)%nat -> (S i < n)%nat -> x 1%nat <> x 0%nat -> x (n - 2)%nat <> x (n - 1)%nat -> hill n (fun j => - zb j) i -> 0 < tau (s i) ->
  tau (compute_shear1d n x zb s i) <= tau (s i) /\
  ((exists m, (0 < m)%nat /\ (S m < n)%nat /\ m <> i /\ zb (m - 1)%nat <> zb (S m)) -> tau (compute_shear1d n x zb s i) < tau (s i)).
Proof.
  intros I0 I1 X1 X2 H T. destruct (distance n x X1 X2) as [D1 D2]. rewrite stress_factor.
  assert (K : perturbed n x zb (fun j => taus (s j)) i <= 1 /\ ((exists m, (0 < m)%nat /\ (S m < n)%nat /\ m <> i /\ zb (m - 1)%nat <> zb (S m)) -> perturbed n x zb (fun j => taus (s j)) i < 1)).
  { unfold perturbed. destruct (Rlt_dec _ 0).
    - unfold flip at 1 8. destruct (speedup_hollow n _ (flip n zb) (n - 1 - i)%nat D2 ltac:(lia) ltac:(lia) (hill_flip n (fun j => - zb j) i ltac:(lia) I0 I1 H)) as [A B].
      split; auto. intros M. apply B. apply flip_uneven; auto. lia.
    - apply speedup_hollow; auto. }
  destruct K as [K1 K2]. split.
  - rewrite <- (Rmult_1_r (tau (s i))) at 2. apply Rmult_le_compat_l; lra.
  - intros M. rewrite <- (Rmult_1_r (tau (s i))) at 2. apply Rmult_lt_compat_l; auto.
Qed.
(** A uniform slope, in the middle of the grid. *)
Lemma integral_uniform i dx zb b : 0 < dx -> (0 < i)%nat -> (forall j, (j < 2 * i + 1)%nat -> zb (S j) - zb j = b * dx) -> integral (2 * i + 1) dx zb i = 0.
Proof.
  intros X I E. set (n := (2 * i + 1)%nat) in *. rewrite integral_terms by lia.
  assert (S1 : forall m, (m < n)%nat -> slope n dx zb m = slope n dx zb (n - 1 - m)%nat).
  { intros m M. unfold slope. destruct (Nat.eqb_spec m 0); [subst m; replace (S (n - 1 - 0)) with n by lia; rewrite Nat.eqb_refl, Bool.orb_true_r; auto|].
    destruct (Nat.eqb_spec (S m) n); [replace (n - 1 - m)%nat with 0%nat by lia; auto|]. destruct (Nat.eqb_spec (n - 1 - m) 0); [lia|]. destruct (Nat.eqb_spec (S (n - 1 - m)) n); [lia|]. cbn [orb].
    assert (Q : forall j, (0 < j)%nat -> (S j < n)%nat -> zb (S j) - zb (j - 1)%nat = 2 * (b * dx)).
    { intros j J1 J2. pose proof (E j ltac:(lia)) as A. pose proof (E (j - 1)%nat ltac:(lia)) as B. replace (S (j - 1)) with j in B by lia. lra. }
    rewrite !Q by lia. auto. }
  assert (A : rsum (map (term n dx zb i) (seq 0 n)) = - rsum (map (term n dx zb i) (seq 0 n))).
  { rewrite <- (rsum_rev (map (term n dx zb i) (seq 0 n))) at 1. rewrite <- map_rev, seq_rev, map_map, <- rsum_opp, map_map. f_equal. apply map_ext_in. intros m M. apply in_seq in M.
    unfold term. destruct (Nat.eqb_spec (n - 1 - m) i); destruct (Nat.eqb_spec m i); try lia; [ring|]. rewrite <- S1 by lia.
    assert (R : INR (n - 1 - m) = 2 * INR i - INR m). { rewrite minus_INR by lia. replace (n - 1)%nat with (2 * i)%nat by lia. rewrite mult_INR. cbn. ring. }
    rewrite R. pose proof PI_RGT_0. assert (INR i - INR m <> 0). { intros Z. apply n1. apply INR_eq. lra. } field. repeat split; lra. }
  lra.
Qed.
Lemma speedup_uniform i dx zb b : 0 < dx -> (0 < i)%nat -> (forall j, (j < 2 * i)%nat -> zb (S j) - zb j = b * dx) -> speedup (2 * i + 1) dx zb i = Rmax (1 + 3 * b) (1 / 10).
Proof.
  intros X I E. unfold speedup.
  assert (Q : integral (2 * i + 1) dx zb i = 0).
  { rewrite <- (integral_uniform i dx (fun j => zb 0%nat + b * dx * INR j) b) by (auto; intros; rewrite S_INR; ring). apply integral_map. intros j J. apply slope_ext; auto.
    clear J j. intros j. induction j; intros J; [cbn; ring|]. specialize (IHj ltac:(lia)). pose proof (E j ltac:(lia)). rewrite S_INR. lra. }
  rewrite Q. f_equal. unfold slope. destruct (Nat.eqb_spec i 0); [lia|]. destruct (Nat.eqb_spec (S i) (2 * i + 1)); [lia|]. cbn [orb].
  pose proof (E i ltac:(lia)) as A. pose proof (E (i - 1)%nat ltac:(lia)) as B. replace (S (i - 1)) with i in B by lia. replace (zb (S i) - zb (i - 1)%nat) with (2 * (b * dx)) by lra. field. lra.
Qed.
Lemma c112_slope i x zb s b dx : (0 < i)%nat -> 0 < dx -> (forall j, (j < 2 * i)%nat -> x (S j) - x j = dx /\ zb (S j) - zb j = b * dx) ->
  tau (compute_shear1d (2 * i + 1) x zb s i) = tau (s i) * Rmax (1 + 3 * (if Rlt_dec (total (2 * i + 1) (fun j => taus (s j))) 0 then - b else b)) (1 / 10).
Proof.
  intros I X E. rewrite stress_factor. f_equal. unfold perturbed. destruct (Rlt_dec _ 0).
  - unfold flip at 1. replace (2 * i + 1 - 1 - i)%nat with i by lia. assert (A : Rabs (flip (2 * i + 1) x 1%nat - flip (2 * i + 1) x 0%nat) = dx).
    { unfold flip. replace (2 * i + 1 - 1 - 1)%nat with (2 * i - 1)%nat by lia. replace (2 * i + 1 - 1 - 0)%nat with (S (2 * i - 1)) by lia. destruct (E (2 * i - 1)%nat ltac:(lia)).
      rewrite Rabs_minus_sym. rewrite Rabs_right; lra. }
    rewrite A. apply speedup_uniform; auto. intros j J. unfold flip. replace (2 * i + 1 - 1 - S j)%nat with (2 * i - S j)%nat by lia. replace (2 * i + 1 - 1 - j)%nat with (S (2 * i - S j)) by lia.
    destruct (E (2 * i - S j)%nat ltac:(lia)). lra.
  - destruct (E 0%nat ltac:(lia)) as [E0 _]. assert (A : Rabs (x 1%nat - x 0%nat) = dx) by (rewrite E0; apply Rabs_right; lra). rewrite A. apply speedup_uniform; auto. intros j J. apply E. auto.
Qed.
(** A dune of one metre on nine cells. *)
Definition dune (i : nat) : R := match i with 3%nat => 1 / 2 | 4%nat => 1 | 5%nat => 1 / 2 | _ => 0 end.
Lemma c112_case : (0 < 4)%nat /\ (5 < 9)%nat /\ places 1%nat <> places 0%nat /\ places (9 - 2)%nat <> places (9 - 1)%nat /\ hill 9 dune 4 /\ 0 < tau (onshore 4) /\
  exists m, (0 < m)%nat /\ (S m < 9)%nat /\ m <> 4%nat /\ dune (m - 1)%nat <> dune (S m).
Proof.
  split; [lia|]. split; [lia|]. split; [unfold places; cbn; lra|]. split; [unfold places; cbn; lra|]. split.
  - unfold hill. split; [|split].
    + intros j J. do 4 (destruct j as [|j]; [cbn; lra|]). lia.
    + intros j J1 J2. do 8 (destruct j as [|j]; [try lia; cbn; lra|]). lia.
    + reflexivity.
  - split; [cbn; lra|]. exists 3%nat. repeat split; try lia. cbn. lra.
Qed.
Lemma c112_hollow_case : (0 < 4)%nat /\ (5 < 9)%nat /\ places 1%nat <> places 0%nat /\ places (9 - 2)%nat <> places (9 - 1)%nat /\ hill 9 (fun j => - - dune j) 4 /\ 0 < tau (onshore 4).
Proof.
  destruct c112_case as [A [B [C [D [E [F _]]]]]]. repeat (split; auto); destruct E as [U [V W]]; intros; rewrite ?Ropp_involutive; auto.
Qed.
Lemma c112_slope_case : (0 < 4)%nat /\ 0 < 1 /\ (forall j, (j < 2 * 4)%nat -> places (S j) - places j = 1 /\ 1 / 10 * places (S j) - 1 / 10 * places j = 1 / 10 * 1) /\
  total (2 * 4 + 1) (fun j => taus (onshore j)) = 9.
Proof.
  split; [lia|]. split; [lra|]. split; [intros; unfold places; rewrite S_INR; lra|]. unfold total, rsum. cbn. lra.
Qed.
