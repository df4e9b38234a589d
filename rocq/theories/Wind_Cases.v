(** Statements about the wind as used in the property files, and concrete cases. *)
From Verif Require Import Base Wind_Model Wind_Spec Wind_Proofs Wind_Shear.
From Coq Require Import Reals Lra Lia.
Open Scope R_scope.

Definition beach : params := {| method_roughness := Constant; k := 1 / 1000; z := 10; kappa := 41 / 100; rhoa := 1225 / 1000; rhog := 2650; g := 981 / 100; alfa := 0;
  grain_size := [225 / 1000000]; grain_dist := [1] |}.
Definition with_roughness (m : roughness) (kk : R) (dist : list R) : params := {| method_roughness := m; k := kk; z := 10; kappa := 41 / 100; rhoa := 1225 / 1000; rhog := 2650; g := 981 / 100; alfa := 0;
  grain_size := [2 / 10000; 4 / 10000]; grain_dist := dist |}.
Definition sand : grains := {| mean := 3 / 10000; d50 := 3 / 10000; d90 := 5 / 10000 |}.
Definition still : flow := {| uw := 0; udir := 0; uws := 0; uwn := 0; ustar := 0; ustars := 0; ustarn := 0; tau := 0; taus := 0; taun := 0 |}.
Lemma proper_beach : proper beach.
Proof. unfold proper; cbn; lra. Qed.

(** ** C48 *)
Lemma c48_components p gr d u s s' ws' : d <> 270 -> initialize Cartesian (Some [{| at_t := 0; speed := u; dir := d |}]) = Ok (Some ws') ->
  interpolate p true (match ws' with [] => None | a :: r => Some (a, r) end) 0 gr s = Ok s' ->
  uws s' = u * cos (radians (alfa p + d)) /\ uwn s' = u * sin (radians (alfa p + d)).
Proof.
  intros D E H. cbn [initialize map dir with_dir at_t speed] in E. inversion E; subst ws'; clear E. apply eqb_false in D. rewrite D in H.
  cbn [interpolate wind_at interp_circular interp_from first_time last_time map fold_left at_t speed dir with_dir] in H.
  set (w := degrees (atan2 _ _)) in H. apply blow_ok in H. destruct H as [z0 [_ [_ [_ [US [UN _]]]]]].
  assert (P : sin (radians w) = sin (radians (270 - d)) /\ cos (radians w) = cos (radians (270 - d))).
  { unfold w. rewrite radians_degrees. apply polar_same with 1; try lra; ring. }
  destruct P as [P1 P2]. destruct (radians_270 d) as [Q1 Q2]. rewrite Q1 in P1. rewrite Q2 in P2.
  assert (S : radians (- alfa p + w) = radians w - radians (alfa p)) by (unfold radians; field).
  assert (T : radians (alfa p + d) = radians (alfa p) + radians d) by (unfold radians; field).
  rewrite US, UN, S, T, sin_minus, cos_minus, sin_plus, cos_plus, P1, P2. split; ring.
Qed.
Lemma c48_case : exists ws', initialize Cartesian (Some [{| at_t := 0; speed := 10; dir := 60 |}; {| at_t := 3600; speed := 8; dir := 270 |}]) = Ok (Some ws') /\ map dir ws' = [210; - (1 / 100)] /\ map speed ws' = [10; 8].
Proof.
  eexists. split; [reflexivity|]. cbn [map dir with_dir speed]. assert (A : eqb 60 270 = false) by (apply eqb_false; lra). assert (B : eqb 270 270 = true) by (apply eqb_spec; lra).
  rewrite A, B. split; [|reflexivity]. f_equal; [lra|]. f_equal. lra.
Qed.
Lemma c48_nautical_case : exists ws', initialize Nautical (Some [{| at_t := 0; speed := 10; dir := 60 |}; {| at_t := 3600; speed := 8; dir := 0 |}]) = Ok (Some ws') /\ map dir ws' = [60; 1 / 100] /\ map speed ws' = [10; 8].
Proof.
  eexists. split; [reflexivity|]. cbn [map dir with_dir speed]. assert (A : eqb 60 0 = false) by (apply eqb_false; lra). assert (B : eqb 0 0 = true) by (apply eqb_spec; lra).
  rewrite A, B. split; reflexivity.
Qed.
Lemma c48_unknown ws : initialize OtherConvention (Some ws) = Raise ValueError.
Proof. reflexivity. Qed.
(** ** C79 *)
Lemma wind_single t u d : wind_at t {| at_t := 0; speed := u; dir := d |} [] = (u, degrees (atan2 (sin (radians d)) (cos (radians d)))).
Proof. reflexivity. Qed.
Lemma c79_case : exists a rest, in_order a rest /\ same_direction (-10) (dir a) /\ exists b, adjacent a b a rest /\ Rabs (-10 - dir b) < 180 /\ dir a = 350 /\ dir b = 10.
Proof.
  exists {| at_t := 0; speed := 5; dir := 350 |}, [{| at_t := 3600; speed := 7; dir := 10 |}]. split; [cbn; lra|]. split.
  - unfold same_direction. cbn [dir]. replace (radians 350) with (radians (-10) + 2 * PI) by (unfold radians; field). rewrite sin_2PI, cos_2PI || (rewrite sin_plus, cos_plus, sin_2PI, cos_2PI; split; ring).
  - eexists. split; [left; split; reflexivity|]. cbn [dir]. split; [apply Rabs_def1; lra|]. split; reflexivity.
Qed.
Lemma c79_constant t a rest : (forall w, In w rest -> speed w = speed a /\ same_direction (dir w) (dir a)) -> in_order a rest ->
  fst (wind_at t a rest) = speed a /\ same_direction (snd (wind_at t a rest)) (dir a).
Proof.
  intros A O. assert (AA : forall w, In w (a :: rest) -> speed w = speed a /\ same_direction (dir w) (dir a)).
  { intros w [<-|W]; [split; [auto|split; auto]|auto]. }
  destruct (circular_mix t a rest O) as [x [y [lam [J [I [L F]]]]]].
  assert (IY : In y (a :: rest)).
  { destruct J as [<-|J]; auto. clear - J. revert J. generalize a. clear a. induction rest as [|b rest IH]; intros c J; [destruct J|]. destruct J as [[-> ->]|J]; [right; left; auto|right; apply IH; auto]. }
  destruct (AA x I) as [X1 [X2 X3]]. destruct (AA y IY) as [Y1 [Y2 Y3]]. unfold wind_at; cbn [fst snd]. rewrite !F. split; [rewrite X1, Y1; ring|].
  unfold same_direction. rewrite radians_degrees, X2, X3, Y2, Y3. apply polar_same with 1; try lra; ring.
Qed.

(** ** C40 *)
Lemma c40_wind p gr u d s s' : 0 <= rhoa p -> blow p gr u d s = Ok s' -> uw s' = Rabs u /\ hypot (uws s') (uwn s') = uw s' /\ coherent (rhoa p) s'.
Proof.
  intros P E. pose proof (blow_coherent _ _ _ _ _ _ P E) as C. destruct (blow_ok _ _ _ _ _ _ E) as [z0 [_ [U [_ [US [UN _]]]]]].
  split; auto. split; auto. rewrite US, UN, U. apply hypot_polar.
Qed.
Lemma c40_back p gr u d s s' : 0 < rhoa p -> blow p gr u d s = Ok s' -> stress_velocity (rhoa p) s' = s' /\ (ustar s' = 0 <-> tau s' = 0).
Proof.
  intros P E. assert (C : coherent (rhoa p) s') by (eapply blow_coherent; [|eauto]; lra). split; [apply stress_velocity_inverse; auto|apply coherent_zero with (rhoa p); auto].
Qed.
Lemma ln_beach : 0 < ln (10 / (1 / 1000)).
Proof. apply (ln_ratio (1 / 1000) 10). lra. Qed.
Lemma c40_case : exists s', blow beach sand 10 (- 90) still = Ok s' /\ uws s' = 10 /\ uwn s' = 0 /\ 0 < ustars s' /\ ustarn s' = 0.
Proof.
  eexists. split; [reflexivity|]. cbn [uws uwn ustars ustarn velocity_stress]. cbn [alfa beach kappa z k].
  replace (radians (- 0 + - 90)) with (- (PI / 2)) by (unfold radians; field). rewrite sin_neg, cos_neg, sin_PI2, cos_PI2. pose proof ln_beach.
  split; [ring|]. split; [ring|]. split; [|unfold Rdiv; ring]. unfold Rdiv. apply Rmult_lt_0_compat; [lra|apply Rinv_0_lt_compat; auto].
Qed.
Lemma c40_flat : exists p gr u d s s', blow p gr u d s = Ok s' /\ 0 < ustar s' /\ fst (fst (fst (flat_bed s'))) = ustar s' /\ uwn s' = 0 /\ snd (fst (flat_bed s')) = ustar s'.
Proof.
  exists beach, sand, 10, (- 90), still. destruct c40_case as [s' [E [A [B [C D]]]]]. exists s'. split; auto. split; [|split; [reflexivity|split; [auto|reflexivity]]].
  destruct (blow_ok _ _ _ _ _ _ E) as [_ [_ [_ [_ [_ [_ [_ [_ S]]]]]]]]. rewrite S. apply hypot_pos. left. lra.
Qed.

(** ** C80 *)
Lemma c80_case : calculate_z0 beach sand (Rabs 10) = Ok (1 / 1000) /\ 0 < 1 / 1000 < z beach.
Proof. split; [reflexivity|]. cbn. lra. Qed.
Lemma c80_reversed : exists p gr u d s s', proper p /\ blow p gr u d s = Ok s' /\ 0 < uws s' /\ ustars s' < 0.
Proof.
  exists (with_roughness Constant 20 [1; 0]), sand, 10, (- 90), still. eexists. split; [unfold proper; cbn; lra|]. split; [reflexivity|]. cbn [uws ustars velocity_stress alfa with_roughness kappa z k].
  replace (radians (- 0 + - 90)) with (- (PI / 2)) by (unfold radians; field). rewrite sin_neg, sin_PI2.
  assert (N : ln (10 / 20) < 0) by (apply ln_ratio_neg; lra). split; [lra|].
  assert (/ ln (10 / 20) < 0) by (apply Rinv_lt_0_compat; auto). unfold Rdiv in *. lra.
Qed.
Lemma c80_unknown p gr u d s : method_roughness p = OtherRoughness -> blow p gr u d s = Raise NameError.
Proof. intros M. unfold blow, calculate_z0. rewrite M. reflexivity. Qed.
Lemma c80_vanrijn : exists p gr u, proper p /\ proper_grains gr /\ 0 < u /\ calculate_z0 p gr u = Raise ZeroDivisionError.
Proof.
  set (p := with_roughness VanRijn 1 [1; 0]). exists p, sand.
  set (b := 1 / 10 * sqrt ((rhog p - rhoa p) / rhoa p * g p * d50 sand)). set (l := ln (30 * z p / d90 sand)).
  assert (B : 0 < b). { unfold b. apply Rmult_lt_0_compat; [lra|]. apply sqrt_lt_R0. cbn. lra. }
  assert (L : 0 < l). { unfold l. apply (ln_ratio (5 / 10000) (30 * 10)). lra. }
  exists (b / kappa p * l). split; [unfold proper; cbn; lra|]. split; [unfold proper_grains; cbn; lra|].
  assert (K : 0 < kappa p) by (cbn; lra). split; [apply Rmult_lt_0_compat; auto; unfold Rdiv; apply Rmult_lt_0_compat; auto; apply Rinv_0_lt_compat; auto|].
  unfold calculate_z0. change (method_roughness p) with VanRijn. cbv beta iota zeta. fold b l.
  replace (kappa p * (b / kappa p * l / l)) with b by (field; lra). replace ((b * b - b * b) / (b * b)) with 0 by (field; lra).
  destruct (Req_EM_T 0 0); [auto|contradiction].
Qed.

(** ** C84 *)
Lemma rsum_scale c l : rsum (map (Rmult c) l) = c * rsum l.
Proof. induction l as [|a l IH]; [cbn; unfold rsum; lra|]. unfold rsum in *. cbn. rewrite IH. ring. Qed.
Lemma products_range lo hi l : forall m, length l = length m -> (forall x, In x l -> lo <= x <= hi) -> (forall y, In y m -> 0 <= y) -> lo * rsum m <= rsum (products l m) <= hi * rsum m.
Proof.
  induction l as [|a l IH]; intros [|b m] E L M; try discriminate; [cbn; unfold rsum; cbn; lra|]. cbn [products]. unfold rsum. cbn [fold_right]. fold (rsum m). fold (rsum (products l m)).
  destruct (IH m) as [A B]; [cbn in E; lia|intros; apply L; right; auto|intros; apply M; right; auto|].
  assert (0 <= b) by (apply M; left; auto). assert (lo <= a <= hi) by (apply L; left; auto).
  assert (lo * b <= a * b) by (apply Rmult_le_compat_r; lra). assert (a * b <= hi * b) by (apply Rmult_le_compat_r; lra). lra.
Qed.
Lemma c84_normalised p gr u z0 lo hi : method_roughness p = MeanInitial -> rsum (grain_dist p) = 1 -> length (grain_size p) = length (grain_dist p) ->
  (forall x, In x (grain_size p) -> lo <= x <= hi) -> (forall y, In y (grain_dist p) -> 0 <= y) -> calculate_z0 p gr u = Ok z0 -> lo <= 30 * z0 <= hi.
Proof.
  intros M S E L P H. unfold calculate_z0 in H. rewrite M in H. inversion H; subst. pose proof (products_range lo hi _ _ E L P). rewrite S in H0. lra.
Qed.
Lemma c84_normalised_case : rsum (grain_dist (with_roughness MeanInitial 1 [3 / 10; 7 / 10])) = 1 /\ exists z0, calculate_z0 (with_roughness MeanInitial 1 [3 / 10; 7 / 10]) sand 5 = Ok z0 /\ 30 * z0 = 34 / 100000.
Proof. split; [cbn; unfold rsum; cbn; lra|]. eexists. split; [reflexivity|]. cbn. unfold rsum; cbn. lra. Qed.
Lemma c84_percent : exists a b za zb, grain_size a = grain_size b /\ grain_dist b = map (Rmult 100) (grain_dist a) /\ calculate_z0 a sand 5 = Ok za /\ calculate_z0 b sand 5 = Ok zb /\ zb = 100 * za /\ 0 < za.
Proof.
  exists (with_roughness MeanInitial 1 [3 / 10; 7 / 10]), (with_roughness MeanInitial 1 (map (Rmult 100) [3 / 10; 7 / 10])). eexists. eexists.
  split; [reflexivity|]. split; [reflexivity|]. split; [reflexivity|]. split; [reflexivity|]. cbn. unfold rsum; cbn. split; lra.
Qed.

(** ** C41 *)
Definition dead (s : flow) : Prop := tau s = 0 -> taus s = 0 /\ taun s = 0.
Lemma c41_shear n x zb s i rho dx c mu : 0 < rho -> coherent rho (s i) -> exists r, 1 / 10 <= r /\
  tau (shear1d n rho dx c mu false x zb s i) = r * tau (s i) /\ taus (shear1d n rho dx c mu false x zb s i) = r * taus (s i) /\ taun (shear1d n rho dx c mu false x zb s i) = r * taun (s i) /\
  (forall h, (i < n)%nat -> (forall j, (j < n)%nat -> zb j = h) -> r = 1).
Proof.
  intros P C. destruct (shear1d_scaled n x zb s i) as [r [E [M [T [TS TN]]]]].
  { intros Z. destruct C as [_ [_ [_ [H _]]]]. rewrite Z in H. apply hypot_zero in H. auto. }
  exists r. split; auto. split; [exact T|]. split; [exact TS|]. split; [exact TN|]. intros h I F. rewrite E. apply perturbed_flat with h; auto.
Qed.
Lemma c41_separation n x zb s i rho dx c mu : (i < n)%nat -> exists f, 0 <= f <= 1 /\
  taus (shear1d n rho dx c mu true x zb s i) = f * taus (shear1d n rho dx c mu false x zb s i) /\ taun (shear1d n rho dx c mu true x zb s i) = f * taun (shear1d n rho dx c mu false x zb s i) /\
  (separation1d n dx c mu (udir (s 0%nat)) x zb i = zb i -> f = 1) /\ (zb i + 1 / 10 <= separation1d n dx c mu (udir (s 0%nat)) x zb i -> f = 0).
Proof.
  intros I. unfold shear1d. set (h := separation1d n dx c mu (udir (s 0%nat)) x zb i - zb i). exists (sheltered h). split; [apply sheltered_range|].
  destruct (separate_stress rho h (stress_velocity rho (compute_shear1d n x zb s i))) as [A [B _]]. split; auto. split; auto.
  split; intros; [apply sheltered_none|apply sheltered_full]; unfold h; lra.
Qed.
(** A step down by two metres after the sixth of ten cells, from height h. *)
Definition step (h : R) : row := fun i => if Nat.ltb i 6 then h else h - 2.
Definition places : row := fun i => INR i.
Definition onshore : nat -> flow := fun _ => {| uw := 10; udir := - 90; uws := 10; uwn := 0; ustar := 1; ustars := 1; ustarn := 0; tau := 1; taus := 1; taun := 0 |}.
Lemma along_onshore : along 1 (- 90) = (1, false).
Proof.
  unfold along, normal_dir. destruct (Rlt_dec (-90) 360); [|lra]. destruct (Rlt_dec 360 (-90 + 360)); [lra|]. destruct (Rlt_dec 180 (-90 + 360)); [|lra]. destruct (Rlt_dec (-90 + 360) 360); [|lra].
  replace (Rabs (-90 + 360 - 270)) with 0 by (rewrite <- Rabs_R0; f_equal; ring). replace (radians 0) with 0 by (unfold radians; field). rewrite cos_0. f_equal. field.
Qed.
Lemma step_angle h i : (S i < 10)%nat -> i <> 5%nat -> angle0 10 1 (step h) i = 0.
Proof.
  intros I N. unfold angle0. destruct (Nat.ltb_spec (S i) 10); [|lia]. replace (step h (S i)) with (step h i).
  - unfold Rminus, Rdiv. rewrite Rplus_opp_r, Rmult_0_l, atan_0. unfold degrees, Rdiv. ring.
  - unfold step. destruct (Nat.ltb_spec i 6), (Nat.ltb_spec (S i) 6); try lia; auto.
Qed.
Lemma degrees_45 : degrees (atan 1) = 45.
Proof. rewrite atan_1. unfold degrees. field. apply PI_neq0. Qed.
Lemma steep w : 1 < w -> 45 < degrees (atan w).
Proof.
  intros. rewrite <- degrees_45. unfold degrees. pose proof PI_RGT_0. apply Rmult_lt_compat_r; [apply Rinv_0_lt_compat; auto|]. apply atan_increasing in H. lra.
Qed.
Lemma stall_flat n dx z i : dzx n dx z i = 0 -> stall0 n dx 30 z i = false.
Proof. intros E. unfold stall0. rewrite E. assert (Q : gtb 0 0 = false) by (apply gtb_false; lra). rewrite Q. apply Bool.andb_false_r. Qed.
Lemma stall_steep n dx z i : dzx n dx z i < - 45 -> stall0 n dx 30 z i = true.
Proof. intros E. unfold stall0. rewrite Rabs_left by lra. assert (Q : gtb 0 (dzx n dx z i) = true) by (apply gtb_spec; lra). rewrite Q. assert (Q2 : gtb (- dzx n dx z i) 30 = true) by (apply gtb_spec; lra). rewrite Q2. auto. Qed.
Lemma step_dzx h i : (i < 10)%nat -> i <> 5%nat -> dzx 10 1 (step h) i = 0.
Proof.
  intros I N. unfold dzx. destruct (Nat.eqb_spec (S i) 10); [cbn [Nat.eqb]; apply step_angle; cbn; lia|]. destruct (Nat.eqb_spec i 0); apply step_angle; lia.
Qed.
Lemma step_dzx5 h : dzx 10 1 (step h) 5 < - 45.
Proof.
  unfold dzx. cbn [Nat.eqb]. unfold angle0. cbn [Nat.ltb Nat.leb]. unfold step. cbn [Nat.ltb Nat.leb]. replace ((h - 2 - h) / 1) with (- (2)) by field.
  rewrite atan_opp. pose proof (steep 2 ltac:(lra)). unfold degrees in *. unfold Rdiv in *. lra.
Qed.
Lemma step_bubbles h : bubbles 10 1 30 (step h) = [2%nat].
Proof.
  assert (A : forall i, (i < 10)%nat -> stall0 10 1 30 (step h) i = Nat.eqb i 5).
  { intros i I. destruct (Nat.eqb_spec i 5); [subst; apply stall_steep, step_dzx5|apply stall_flat, step_dzx; auto]. }
  unfold bubbles, bubble, bubble0, stall. cbn [seq filter Nat.ltb Nat.leb Nat.add Nat.sub]. rewrite !A by lia. reflexivity.
Qed.
Lemma step_brink h : brink 10 1 (step h) 2 = 2.
Proof.
  unfold brink. cbn [Nat.add Nat.sub seq filter]. rewrite step_dzx by lia. destruct (Rle_dec 0 0); [|lra]. unfold step. cbn [Nat.ltb Nat.leb]. ring.
Qed.
Lemma step_separation h : h <= 0 -> separation1d 10 1 (2 / 10) 30 (- 90) places (step h) 3%nat = 0.
Proof.
  intros H. unfold separation1d. rewrite along_onshore. rewrite (one_bubble 10 1 (2 / 10) 30 places (step h) 2); [|apply step_bubbles|lia|reflexivity].
  rewrite step_brink. cbv zeta. replace (step h 2%nat) with h by reflexivity. replace (step h 3%nat) with h by reflexivity.
  assert (L0 : reattach (2 / 10) 2 0 = 15). { unfold reattach. rewrite Rmax_left by lra. rewrite Rmin_left by lra. field. }
  assert (L1 : reattach (2 / 10) h 0 = 1 / 10). { unfold reattach. rewrite Rmax_right by lra. rewrite Rmin_left; lra. }
  rewrite L0, L1. unfold until. assert (W : (15 <= whole (15 / 1))%nat) by (apply whole_ge; cbn; lra). rewrite (whole_0 (1 / 10 / 1)) by lra.
  replace (Nat.min (2 + whole (15 / 1)) (10 - 1)) with 9%nat by lia. cbn [inside Nat.leb Nat.ltb Nat.add Nat.min Nat.sub andb]. apply Rmax_left. lra.
Qed.
Lemma c41_speed : exists n x zb s i rho, (i < n)%nat /\ 0 < rho /\ coherent rho (s i) /\ let s' := shear1d n rho 1 (2 / 10) 30 true x zb s i in
  taus s' = 0 /\ taun s' = 0 /\ 1 / 10 <= tau s' /\ 0 < ustar s' /\ hypot (ustars s') (ustarn s') < ustar s'.
Proof.
  exists 10%nat, places, (step (- 10)), onshore, 3%nat, 1. split; [lia|]. split; [lra|].
  assert (C : coherent 1 (onshore 3)). { unfold coherent. cbn [ustar tau ustars ustarn taus taun onshore]. unfold hypot. replace (1 * 1 + 0 * 0) with 1 by ring. rewrite sqrt_1. repeat split; lra. }
  split; auto. cbv zeta. unfold shear1d. cbn [udir onshore]. rewrite step_separation by lra. replace (step (-10) 3%nat) with (-10) by reflexivity.
  destruct (shear1d_scaled 10 places (step (-10)) onshore 3) as [r [E [M [T [TS TN]]]]]. { cbn. lra. }
  set (s1 := stress_velocity 1 (compute_shear1d 10 places (step (-10)) onshore 3)) in *.
  destruct (separate_stress 1 (0 - -10) s1) as [A [B D]]. rewrite (sheltered_full (0 - -10)) in * by lra.
  assert (T1 : tau s1 = r) by (change (tau s1) with (tau (compute_shear1d 10 places (step (-10)) onshore 3)); rewrite T; cbn; ring).
  assert (G : gtb (tau s1) 0 = true) by (apply gtb_spec; lra). assert (G0 : eqb (tau s1) 0 = false) by (apply eqb_false; lra).
  assert (U : ustar (separate 1 (0 - -10) s1) = sqrt (tau s1 / 1)).
  { unfold separate, stress_velocity at 1. cbn [ustar tau with_stress]. rewrite G0. auto. }
  assert (U1 : ustars (separate 1 (0 - -10) s1) = 0). { unfold separate, stress_velocity at 1. cbn [ustars tau taus with_stress]. rewrite G, G0, sheltered_full by lra. unfold Rdiv. ring. }
  assert (U2 : ustarn (separate 1 (0 - -10) s1) = 0). { unfold separate, stress_velocity at 1. cbn [ustarn tau taun with_stress]. rewrite G, G0, sheltered_full by lra. unfold Rdiv. ring. }
  assert (S : 0 < sqrt (tau s1 / 1)) by (apply sqrt_lt_R0; lra).
  split; [rewrite A; ring|]. split; [rewrite B; ring|]. split; [rewrite D; lra|]. split; [lra|].
  rewrite U1, U2, U. unfold hypot. rewrite Rmult_0_l, Rplus_0_l, sqrt_0. auto.
Qed.
Lemma c40_separation : exists n x zb s i rho, (i < n)%nat /\ 0 < rho /\ coherent rho (s i) /\ let s' := shear1d n rho 1 (2 / 10) 30 true x zb s i in hypot (ustars s') (ustarn s') < ustar s'.
Proof. destruct c41_speed as [n [x [zb [s [i [rho [A [B [C [_ [_ [_ [_ D]]]]]]]]]]]]]. exists n, x, zb, s, i, rho. auto. Qed.
Lemma onshore_coherent : coherent 1 (onshore 3) /\ taus (onshore 3) = 1.
Proof. split; auto. unfold coherent. cbn [ustar tau ustars ustarn taus taun onshore]. unfold hypot. replace (1 * 1 + 0 * 0) with 1 by ring. rewrite sqrt_1. repeat split; lra. Qed.

(** ** C82, C83 *)
Lemma c82_shift n x zb s i h : (i < n)%nat -> stress (compute_shear1d n x (fun j => zb j + h) s i) = stress (compute_shear1d n x zb s i).
Proof. intros I. unfold stress, compute_shear1d. cbn [tau taus taun with_stress]. rewrite perturbed_shift by auto. auto. Qed.
Lemma c82_stretch n x zb s i c : (i < n)%nat -> 0 < c -> x 1%nat <> x 0%nat -> x (n - 2)%nat <> x (n - 1)%nat -> 
  stress (compute_shear1d n (fun j => c * x j) (fun j => c * zb j) s i) = stress (compute_shear1d n x zb s i).
Proof.
  intros I C X Y. unfold stress, compute_shear1d. cbn [tau taus taun with_stress]. rewrite perturbed_stretch; auto.
  unfold flip. replace (n - 1 - 1)%nat with (n - 2)%nat by lia. replace (n - 1 - 0)%nat with (n - 1)%nat by lia. auto.
Qed.
Lemma c82_datum : exists n dx c mu ud x zb h i, (i < n)%nat /\ separation1d n dx c mu ud x zb i - zb i = 10 /\ separation1d n dx c mu ud x (fun j => zb j + h) i - (zb i + h) = 0.
Proof.
  exists 10%nat, 1, (2 / 10), 30, (- 90), places, (step (- 10)), 10, 3%nat. split; [lia|]. split; [rewrite step_separation by lra; cbn; ring|].
  assert (E : forall i, step (-10) i + 10 = step 0 i) by (intros; unfold step; destruct (Nat.ltb i 6); lra).
  assert (F : forall z1 z2 : row, (forall i, z1 i = z2 i) -> separation1d 10 1 (2 / 10) 30 (-90) places z1 3%nat = separation1d 10 1 (2 / 10) 30 (-90) places z2 3%nat).
  { intros z1 z2 Q. assert (z1 = z2) by (apply FunctionalExtensionality.functional_extensionality; auto). subst; auto. }
  rewrite (F _ (step 0) E), step_separation by lra. cbn. ring.
Qed.
Lemma c82_case : (3 < 10)%nat /\ places 1%nat <> places 0%nat /\ places (10 - 2)%nat <> places (10 - 1)%nat /\ total 10 (fun j => taus (onshore j)) <> 0.
Proof. split; [lia|]. unfold places. cbn [Nat.sub]. split; [cbn; lra|]. split; [cbn; lra|]. unfold total, rsum. cbn. lra. Qed.
(** A bed that falls by one in five from the sixth cell on, under a wind exactly along the shore. *)
Definition ramp : row := fun i => 5 - INR (i - 5) / 5.
Lemma ramp_step i : ramp (S i) - ramp i = (if Nat.ltb i 5 then 0 else - (1 / 5)).
Proof.
  unfold ramp. destruct (Nat.ltb_spec i 5).
  - replace (S i - 5)%nat with 0%nat by lia. replace (i - 5)%nat with 0%nat by lia. lra.
  - replace (S i - 5)%nat with (S (i - 5)) by lia. rewrite S_INR. field.
Qed.
Lemma ramp_angle i : (S i < 10)%nat -> (angle0 10 (1 / 10000) ramp i = 0 /\ (i < 5)%nat) \/ (angle0 10 (1 / 10000) ramp i < - 45 /\ (5 <= i)%nat).
Proof.
  intros I. unfold angle0. destruct (Nat.ltb_spec (S i) 10); [|lia]. rewrite ramp_step. destruct (Nat.ltb_spec i 5); [left|right]; split; auto.
  - replace (0 / (1 / 10000)) with 0 by field. rewrite atan_0. unfold degrees, Rdiv. ring.
  - replace (- (1 / 5) / (1 / 10000)) with (- (2000)) by field. rewrite atan_opp. pose proof (steep 2000 ltac:(lra)). unfold degrees, Rdiv in *. lra.
Qed.
Lemma ramp_dzx i : (i < 10)%nat -> (dzx 10 (1 / 10000) ramp i = 0 /\ (i < 5)%nat) \/ (dzx 10 (1 / 10000) ramp i < - 45 /\ (5 <= i)%nat).
Proof.
  intros I. unfold dzx. destruct (Nat.eqb_spec (S i) 10).
  - destruct (ramp_angle 8 ltac:(lia)) as [[_ A]|[A _]]; [lia|]. right. split; [exact A|lia].
  - destruct (Nat.eqb_spec i 0).
    + destruct (ramp_angle 1 ltac:(lia)) as [[A _]|[_ A]]; [|lia]. left. split; [exact A|lia].
    + apply ramp_angle. lia.
Qed.
Lemma ramp_bubbles : bubbles 10 (1 / 10000) 30 ramp = [2%nat].
Proof.
  assert (A : forall i, (i < 10)%nat -> stall0 10 (1 / 10000) 30 ramp i = Nat.leb 5 i).
  { intros i I. destruct (ramp_dzx i I) as [[E J]|[E J]].
    - rewrite stall_flat by auto. destruct (Nat.leb_spec 5 i); [lia|auto].
    - rewrite stall_steep by auto. destruct (Nat.leb_spec 5 i); [auto|lia]. }
  unfold bubbles, bubble, bubble0, stall. cbn [seq filter Nat.ltb Nat.leb Nat.add Nat.sub]. rewrite !A by lia. reflexivity.
Qed.
Lemma ramp_brink : brink 10 (1 / 10000) ramp 2 = 5.
Proof.
  unfold brink. cbn [Nat.add Nat.sub seq filter].
  assert (A : forall i, (5 <= i < 10)%nat -> (if Rle_dec 0 (dzx 10 (1 / 10000) ramp i) then true else false) = false).
  { intros i I. destruct (ramp_dzx i ltac:(lia)) as [[_ J]|[E J]]; [lia|]. destruct (Rle_dec 0 _); auto. lra. }
  rewrite !A by lia. unfold ramp. cbn. field.
Qed.
Lemma along_shore : along 1 180 = (1 / 10000, false).
Proof.
  unfold along, normal_dir. destruct (Rlt_dec 180 360); [|lra]. destruct (Rlt_dec 360 (180 + 360)); [|lra]. replace (180 + 360 - 360) with 180 by ring.
  destruct (Rlt_dec 180 180); [lra|]. destruct (Req_EM_T 180 180); [auto|lra].
Qed.
Lemma ramp_8 : ramp 8%nat = 44 / 10.
Proof. unfold ramp. cbn. field. Qed.
Lemma ramp_separation : 46 / 10 < separation1d 10 1 (2 / 10) 30 180 places ramp 8%nat.
Proof.
  unfold separation1d. rewrite along_shore. rewrite (one_bubble 10 (1 / 10000) (2 / 10) 30 places ramp 2); [|apply ramp_bubbles|lia|unfold ramp; cbn; auto].
  rewrite ramp_brink. cbv zeta. replace (ramp 2%nat) with 5 by (unfold ramp; cbn; field).
  assert (L0 : reattach (2 / 10) 5 0 = 375 / 10). { unfold reattach. rewrite Rmax_left by lra. rewrite Rmin_left by lra. field. }
  rewrite L0. unfold until. assert (W : (10 <= whole (375 / 10 / (1 / 10000)))%nat) by (apply whole_ge; cbn; lra).
  replace (Nat.min (2 + whole (375 / 10 / (1 / 10000))) (10 - 1)) with 9%nat by lia. cbn [inside Nat.leb Nat.ltb andb].
  eapply Rlt_le_trans; [|apply Rmax_l]. unfold cubic, places. replace (INR 8 - INR 2) with 6 by (cbn; lra). lra.
Qed.
Lemma atan_below_45 w : w < 1 -> degrees (atan w) < 45.
Proof.
  intros. rewrite <- degrees_45. unfold degrees. pose proof PI_RGT_0. apply Rmult_lt_compat_r; [apply Rinv_0_lt_compat; auto|]. apply atan_increasing in H. lra.
Qed.
Lemma tan_30 : degrees (atan (/ sqrt 3)) = 30.
Proof.
  rewrite <- tan_PI6 || idtac. replace (/ sqrt 3) with (tan (PI / 6)).
  - rewrite atan_tan; [unfold degrees; field; apply PI_neq0|]. pose proof PI_RGT_0. lra.
  - rewrite tan_PI6. field. apply Rgt_not_eq. apply sqrt_lt_R0. lra.
Qed.
Lemma below_30 w : 0 <= w <= 1 / 2 -> degrees (atan w) <= 30.
Proof.
  intros. rewrite <- tan_30. apply degrees_le, atan_le. assert (S : sqrt 3 <= 2) by (replace 2 with (sqrt (2 * 2)) by (apply sqrt_square; lra); apply sqrt_le_1_alt; lra).
  assert (0 < sqrt 3) by (apply sqrt_lt_R0; lra). apply Rle_trans with (/ 2); [lra|]. apply Rinv_le_contravar; auto.
Qed.
Lemma ramp_gentle i : degrees (atan (Rabs (ramp (S i) - ramp i) / 1)) <= 30.
Proof.
  apply below_30. rewrite ramp_step. destruct (Nat.ltb i 5); [rewrite Rabs_R0; lra|]. rewrite Rabs_left by lra. lra.
Qed.
Lemma c83_alongshore : exists n dx c mu ud x zb i, 0 < dx /\ (forall j, (S j < n)%nat -> degrees (atan (Rabs (zb (S j) - zb j) / dx)) <= mu) /\ (i < n)%nat /\ zb i + 2 / 10 < separation1d n dx c mu ud x zb i.
Proof.
  exists 10%nat, 1, (2 / 10), 30, 180, places, ramp, 8%nat. split; [lra|]. split; [intros; apply ramp_gentle|]. split; [lia|]. pose proof ramp_separation. rewrite ramp_8. lra.
Qed.
Lemma c83_case : 0 < 1 /\ (-180 < -90 < 180) /\ -90 <> 0 /\ forall i, (S i < 10)%nat -> degrees (atan (Rabs (ramp (S i) - ramp i) / 1)) <= 30.
Proof. split; [lra|]. split; [lra|]. split; [lra|]. intros. apply ramp_gentle. Qed.
Lemma c83_above_case : (3 < 10)%nat /\ step (- 10) 3%nat < separation1d 10 1 (2 / 10) 30 (- 90) places (step (- 10)) 3%nat.
Proof. split; [lia|]. rewrite step_separation by lra. cbn. lra. Qed.

(** ** C81 *)
Lemma c81_oblique : exists p gr u d s s', 0 < u /\ blow p gr u d s = Ok s' /\ uws s' = - u /\ ustars s' < 0.
Proof.
  exists beach, sand, 10, 90, still. eexists. split; [lra|]. split; [reflexivity|]. cbn [uws ustars velocity_stress alfa beach kappa z k].
  replace (radians (- 0 + 90)) with (PI / 2) by (unfold radians; field). rewrite sin_PI2. pose proof ln_beach as L. split; [ring|].
  assert (0 < / ln (10 / (1 / 1000))) by (apply Rinv_0_lt_compat; auto).
  unfold Rdiv in *. lra.
Qed.
(** A wind file as written by WindGenerator has direction zero: the wind blows along the shore. *)
Lemma c81_generated : exists ws' a r s', initialize Nautical (Some [{| at_t := 0; speed := 10; dir := 0 |}]) = Ok (Some ws') /\ ws' = a :: r /\
  interpolate beach true (Some (a, r)) 0 sand still = Ok s' /\ uw s' = 10 /\ Rabs (uws s') < 1 / 100 /\ uws s' < 0.
Proof.
  cbn [initialize map dir with_dir at_t speed]. assert (Z : eqb 0 0 = true) by (apply eqb_spec; lra). rewrite Z.
  eexists. eexists. eexists. eexists. split; [reflexivity|]. split; [reflexivity|]. split; [reflexivity|].
  cbn [uws uw velocity_stress alfa beach wind_at interp_circular interp_from first_time last_time map fold_left at_t speed dir with_dir].
  set (w := degrees (atan2 (sin (radians (1 / 100))) (cos (radians (1 / 100))))).
  assert (P : sin (radians (- 0 + w)) = sin (radians (1 / 100))).
  { replace (- 0 + w) with w by ring. unfold w. rewrite radians_degrees. apply (polar_same 1); try lra; ring. }
  rewrite P. split; [apply Rabs_right; lra|]. pose proof PI_RGT_0. pose proof PI_4.
  assert (R : 0 < radians (1 / 100) < 1 / 1000) by (unfold radians; lra).
  assert (S1 : sin (radians (1 / 100)) < radians (1 / 100)) by (apply sin_lt_x; lra). assert (S2 : 0 < sin (radians (1 / 100))) by (apply sin_gt_0; [lra|]; unfold radians; lra).
  split; [apply Rabs_def1; lra|lra].
Qed.

Lemma c81_onshore p gr u d s s' z0 : proper p -> calculate_z0 p gr (Rabs u) = Ok z0 -> 0 < z0 < z p -> 0 < u -> radians (d - alfa p) = - (PI / 2) -> blow p gr u d s = Ok s' ->
  uws s' = u /\ uwn s' = 0 /\ 0 < ustars s' /\ ustarn s' = 0 /\ 0 < taus s'.
Proof.
  intros P Z B U D E. destruct (shear_follows _ _ _ _ _ _ _ P Z B E) as [c [C [_ [SS [SN S]]]]]. destruct (blow_ok _ _ _ _ _ _ E) as [_ [_ [UU [_ [US [UN _]]]]]].
  replace (- alfa p + d) with (d - alfa p) in * by ring. rewrite D, sin_neg, sin_PI2 in US. rewrite D, cos_neg, cos_PI2 in UN.
  assert (A : uws s' = u) by lra. assert (A2 : uwn s' = 0) by lra. split; auto. split; auto. rewrite A in SS. rewrite A2 in SN.
  assert (0 < ustars s') by (rewrite SS; apply Rmult_lt_0_compat; auto). split; auto. split; [lra|].
  destruct P as [_ [_ [_ [R _]]]]. destruct (blow_coherent p gr u d s s' ltac:(lra) E) as [U0 [T0 [_ [_ [T [TS _]]]]]].
  assert (X : ustar s' = ustars s'). { rewrite S, SS, UU, Rabs_right by lra. auto. }
  rewrite X in *. assert (0 < tau s') by (rewrite T; repeat apply Rmult_lt_0_compat; lra).
  assert (taus s' = tau s') by (apply Rmult_eq_reg_r with (ustars s'); lra). lra.
Qed.

(** ** Further cases *)
Definition two_winds : list sample := [{| at_t := 3600; speed := 5; dir := -10 |}].
Lemma c79_constant_case : let a := {| at_t := 0; speed := 5; dir := 350 |} in in_order a two_winds /\ forall w, In w two_winds -> speed w = speed a /\ same_direction (dir w) (dir a).
Proof.
  cbv zeta. split; [cbn; lra|]. intros w [<-|[]]. split; [reflexivity|]. unfold same_direction. cbn [dir].
  replace (radians 350) with (radians (-10) + 2 * PI) by (unfold radians; field). rewrite sin_plus, cos_plus, sin_2PI, cos_2PI. split; ring.
Qed.
Lemma c80_positive_case : proper (with_roughness VanRijn 1 [1; 0]) /\ proper_grains sand /\ 0 < rsum (products (grain_size (with_roughness VanRijn 1 [1; 0])) (grain_dist (with_roughness VanRijn 1 [1; 0]))).
Proof. split; [unfold proper; cbn; lra|]. split; [unfold proper_grains; cbn; lra|]. cbn. unfold rsum; cbn. lra. Qed.
Lemma c80_raises_case : method_roughness (with_roughness OtherRoughness 1 [1; 0]) = OtherRoughness /\ proper (with_roughness OtherRoughness 1 [1; 0]).
Proof. split; [reflexivity|unfold proper; cbn; lra]. Qed.
Lemma c81_case : proper beach /\ calculate_z0 beach sand (Rabs 10) = Ok (1 / 1000) /\ radians (- 90 - alfa beach) = - (PI / 2) /\ exists s', blow beach sand 10 (- 90) still = Ok s' /\ uws s' = 10.
Proof.
  split; [apply proper_beach|]. split; [reflexivity|]. split; [unfold radians; cbn; field|]. destruct c40_case as [s' [E [A _]]]. exists s'; auto.
Qed.
Lemma c82_mirror_case : (3 < 10)%nat /\ (2 <= 10)%nat /\ total 10 (fun j => taus (onshore j)) <> 0 /\ exists s', forall j, (j < 10)%nat ->
  stress (s' j) = (tau (onshore (10 - 1 - j)%nat), - taus (onshore (10 - 1 - j)%nat), taun (onshore (10 - 1 - j)%nat)).
Proof.
  split; [lia|]. split; [lia|]. split; [apply c82_case|]. exists (fun _ => with_stress still 1 (- (1)) 0). intros. reflexivity.
Qed.
Lemma c48_components_case : 60 <> 270 /\ initialize Cartesian (Some [{| at_t := 0; speed := 8; dir := 60 |}]) = Ok (Some [{| at_t := 0; speed := 8; dir := 270 - 60 |}]) /\
  exists s', interpolate beach true (Some ({| at_t := 0; speed := 8; dir := 270 - 60 |}, [])) 0 sand still = Ok s'.
Proof.
  split; [lra|]. split; [cbn [initialize map dir with_dir]; assert (A : eqb 60 270 = false) by (apply eqb_false; lra); rewrite A; reflexivity|].
  eexists. reflexivity.
Qed.
Lemma c41_separation_case : (3 < 10)%nat /\ step (- 10) 3%nat + 1 / 10 <= separation1d 10 1 (2 / 10) 30 (udir (onshore 0)) places (step (- 10)) 3%nat.
Proof. split; [lia|]. cbn [udir onshore]. rewrite step_separation by lra. cbn. lra. Qed.
