(** Sheltering: assembled statements and concrete cases. *)
From Coq Require Import Reals Lra Lia.
From Verif Require Import Base Wind_Model Wind_Spec Wind_Proofs Wind_Shear Shelter_Model Shelter_Spec Shelter_Proofs.
Open Scope R_scope.

Lemma c43_plants rho a c n x h s j : 0 <= rho -> coherent rho (s j) -> 1 / 100 <= ustar (s j) ->
  let s' := vegshear_okin rho a c n x h s j in
  coherent rho s' /\ 1 / 100 <= ustar s' /\ (exists f, 0 < f <= 1 /\ multiplied f (s j) s') /\
  (open_ground n h -> multiplied 1 (s j) s') /\ (okin_ok a c -> (j < n)%nat -> 0 < h j -> ustar s' <= Rmax (1 / 100) ((a + 1 / 100000) * ustar (s j))).
Proof.
  intros P C U. cbv zeta. unfold vegshear_okin. set (left := to_left _). destruct (okin_shear rho a c left n x h s j P C U) as [f [F [M [CO [L O]]]]].
  split; auto. split; auto. split; [exists f; auto|]. split.
  - intros G. rewrite O in M; auto. intros i I H. pose proof (G i I). lra.
  - intros OK J H. pose proof (total_here a c left n x h j OK J H) as T. cbn [ustar velocity_stress okin redirect with_velocity].
    assert (ustar (s j) * (1 - total_reduction a c left n x h j) <= ustar (s j) * (a + 1 / 100000)) by (apply Rmult_le_compat_l; lra).
    rewrite (Rmult_comm (a + 1 / 100000)). destruct (Rlt_dec _ _); [apply Rmax_l|]. eapply Rle_trans; [eassumption|apply Rmax_r].
Qed.
Lemma c43_fences rho a c n x h s j : 0 <= rho -> coherent rho (s j) -> 1 / 100 <= ustar (s j) ->
  let s' := fence_shear1d rho a c n x h s j in
  coherent rho s' /\ 1 / 100 <= ustar s' /\ (exists f, 0 < f <= 1 /\ multiplied f (s j) s') /\
  (open_ground n h -> multiplied 1 (s j) s') /\ (okin_ok a c -> (j < n)%nat -> 0 < h j -> ustar s' <= Rmax (1 / 100) ((a + 1 / 100000) * ustar (s j))).
Proof.
  intros P C U. cbv zeta. unfold fence_shear1d. set (left := to_left _). destruct (okin_shear rho a c left n x h s j P C U) as [f [F [M [CO [L O]]]]].
  split; auto. split; auto. split; [exists f; auto|]. split.
  - intros G. rewrite O in M; auto. intros i I H. pose proof (G i I). lra.
  - intros OK J H. pose proof (total_here a c left n x h j OK J H) as T. cbn [ustar velocity_stress okin redirect with_velocity].
    assert (ustar (s j) * (1 - total_reduction a c left n x h j) <= ustar (s j) * (a + 1 / 100000)) by (apply Rmult_le_compat_l; lra).
    rewrite (Rmult_comm (a + 1 / 100000)). destruct (Rlt_dec _ _); [apply Rmax_l|]. eapply Rle_trans; [eassumption|apply Rmax_r].
Qed.
Lemma c43_upwind rho a c n x h s j : 0 <= rho -> coherent rho (s j) -> 1 / 100 <= ustar (s j) ->
  -180 < udir (s 0%nat) <= 180 -> 0 < uw (s 0%nat) -> upwind n (- uw (s 0%nat) * sin (radians (udir (s 0%nat)))) x h j ->
  multiplied 1 (s j) (vegshear_okin rho a c n x h s j) /\ multiplied 1 (s j) (fence_shear1d rho a c n x h s j).
Proof.
  intros P C U D W UP. pose proof (upwind_behind _ _ x h n j W D UP) as B. split.
  - unfold vegshear_okin. set (left := to_left _) in *. destruct (okin_shear rho a c left n x h s j P C U) as [f [F [M [CO [L O]]]]]. rewrite O in M; auto.
  - unfold fence_shear1d. rewrite <- (turned_same _ D). set (left := to_left _) in *. destruct (okin_shear rho a c left n x h s j P C U) as [f [F [M [CO [L O]]]]]. rewrite O in M; auto.
Qed.
Lemma breeze_coherent d us un j : us * us + un * un = 1 -> coherent 1 (breeze d us un j).
Proof. intros H. unfold coherent. cbn [ustar ustars ustarn tau taus taun breeze]. unfold hypot. rewrite H, sqrt_1. repeat split; lra. Qed.
(** One plant, 1 m high, in the second of three cells. *)
Definition metres : row := fun j => INR j.
Definition plant : row := fun j => if Nat.eqb j 1 then 1 else 0.
Lemma plant_zero i : i <> 1%nat -> plant i = 0.
Proof. intros. unfold plant. destruct (Nat.eqb_spec i 1); congruence. Qed.
Lemma onshore_right : to_left (turned_plants (- (90))) = false /\ to_left (turned_fences (- (90))) = false.
Proof.
  rewrite <- (turned_same (- (90))) by lra. assert (to_left (turned_plants (- (90))) = false); [|auto].
  destruct (to_left (turned_plants (- (90)))) eqn:E; auto. apply left_side in E; lra.
Qed.
Lemma sin_onshore : sin (radians (- (90))) = -1.
Proof. unfold radians. replace (- (90) / 180 * PI) with (- (PI / 2)) by field. rewrite sin_neg, sin_PI2. ring. Qed.
Lemma c43_upwind_case : upwind 3 (- (10) * sin (radians (- (90)))) metres plant 0 /\ coherent 1 (breeze (- (90)) 1 0 0) /\ ustar (fence_shear1d 1 (32 / 100) (48 / 100) 3 metres plant (breeze (- (90)) 1 0) 0) = 1 /\
  ustar (fence_shear1d 1 (32 / 100) (48 / 100) 3 metres plant (breeze (- (90)) 1 0) 1) = 32 / 100.
Proof.
  rewrite sin_onshore. assert (U : upwind 3 (- (10) * -1) metres plant 0).
  { intros i I H. destruct (Nat.eq_dec i 1) as [->|N]; [cbn; lra|]. rewrite plant_zero in H by auto. lra. }
  split; auto. split; [apply breeze_coherent; ring|]. split.
  - destruct (c43_upwind 1 (32 / 100) (48 / 100) 3 metres plant (breeze (- (90)) 1 0) 0) as [_ [M _]]; try (cbn; lra); [apply breeze_coherent; ring|cbn [uw udir breeze]; rewrite sin_onshore; exact U|]. rewrite M. cbn. ring.
  - unfold fence_shear1d. cbn [udir breeze]. rewrite (proj2 onshore_right). cbn [velocity_stress ustar okin redirect with_velocity].
    rewrite (total_single _ _ false 3 metres plant 1 1) by (try lia; try (cbn; lra); intros k K N; rewrite plant_zero by auto; lra).
    assert (R : reduction (32 / 100) (48 / 100) (plant 1%nat) (behind false metres 1 1) = 68 / 100).
    { unfold reduction, multiple, behind. replace (metres 1%nat - metres 1%nat) with 0 by ring. replace (plant 1%nat) with 1 by reflexivity. destruct (Rle_dec 0 0); [|lra]. destruct (Rlt_dec (0 / 1) 20); [|lra].
      replace (- 0 * (48 / 100) / 1) with 0 by field. rewrite exp_0. destruct (Rlt_dec 0 0); [lra|]. repeat (destruct (Rlt_dec _ _)); lra. }
    rewrite R. cbn [ustar breeze]. destruct (Rlt_dec _ _); lra.
Qed.
Lemma c43_case : coherent 1 (breeze (- (90)) 1 0 1) /\ 1 / 100 <= ustar (breeze (- (90)) 1 0 1) /\ okin_ok (32 / 100) (48 / 100) /\ 0 < plant 1%nat.
Proof. split; [apply breeze_coherent; ring|]. split; [cbn; lra|]. split; [unfold okin_ok; lra|cbn; lra]. Qed.

(** In calm air the shear velocity becomes 0.01, without any plant. *)
Lemma c43_calm : exists s n x h rho, coherent rho (s 0%nat) /\ ustar (s 0%nat) = 0 /\ open_ground n h /\
  ustar (vegshear_okin rho (32 / 100) (48 / 100) n x h s 0) = 1 / 100 /\ ustars (vegshear_okin rho (32 / 100) (48 / 100) n x h s 0) = 0 /\ ustarn (vegshear_okin rho (32 / 100) (48 / 100) n x h s 0) = 0.
Proof.
  exists (fun _ => {| uw := 0; udir := 0; uws := 0; uwn := 0; ustar := 0; ustars := 0; ustarn := 0; tau := 0; taus := 0; taun := 0 |}), 3%nat, metres, (fun _ => 0), 1.
  split. { unfold coherent. cbn [ustar ustars ustarn tau taus taun]. unfold hypot. replace (0 * 0 + 0 * 0) with 0 by ring. rewrite sqrt_0. repeat split; lra. }
  split; auto. split; [intros i _; lra|]. unfold vegshear_okin, okin, redirect, unit. cbn [ustar ustars ustarn velocity_stress with_velocity]. destruct (Req_EM_T 0 0); [|contradiction].
  rewrite Rmult_0_l, Rmult_0_r. destruct (Rlt_dec 0 (1 / 100)); [|lra]. auto.
Qed.
(** The orientation of the grid is not taken into account: with the grid turned by 180 degrees, the shelter lies upwind. *)
Lemma c43_orientation : exists alfa d n x h s j, -180 < d <= 180 /\ (forall i, s i = breeze d (- sin (radians (- alfa + d))) (- cos (radians (- alfa + d))) i) /\ upwind n (uws (s 0%nat)) x h j /\
  ustar (vegshear_okin 1 (32 / 100) (48 / 100) n x h s j) < ustar (s j).
Proof.
  exists 180, (- (90)), 3%nat, metres, plant, (breeze (- (90)) (- sin (radians (- (180) + - (90)))) (- cos (radians (- (180) + - (90))))), 2%nat. split; [lra|]. split; auto.
  assert (S : sin (radians (- (180) + - (90))) = 1). { unfold radians. replace ((- (180) + - (90)) / 180 * PI) with (- (3 * (PI / 2))) by field. rewrite sin_neg. rewrite sin_3PI2. ring. }
  split. { intros i I H. destruct (Nat.eq_dec i 1) as [->|N]; [cbn [uws breeze]; rewrite S; unfold metres; cbn; lra|]. rewrite plant_zero in H by auto. lra. }
  unfold vegshear_okin. cbn [udir breeze]. rewrite (proj1 onshore_right). cbn [velocity_stress ustar okin redirect with_velocity].
  rewrite (total_single _ _ false 3 metres plant 1 2) by (try lia; try (cbn; lra); intros k K N; rewrite plant_zero by auto; lra).
  assert (B : behind false metres 1 2 = 1) by (unfold behind, metres; cbn; lra). rewrite B. replace (plant 1%nat) with 1 by reflexivity. cbn [ustar breeze].
  assert (R : 1 / 100 < reduction (32 / 100) (48 / 100) 1 1).
  { unfold reduction, multiple. destruct (Rle_dec 0 1); [|lra]. destruct (Rlt_dec (1 / 1) 20); [|lra]. pose proof (exp_ineq1_le (- (1) * (48 / 100) / 1)) as E. set (e := exp _) in *.
    destruct (Rlt_dec 1 0); [lra|]. repeat (destruct (Rlt_dec _ _)); lra. }
  destruct (Rlt_dec _ _); lra.
Qed.

Lemma c43_raupach rho roughness sigma ny nx cover s i j : 0 <= rho -> 0 <= roughness -> (forall i j, (i < ny)%nat -> (j < nx)%nat -> 0 <= cover i j) -> (i < ny)%nat -> (j < nx)%nat -> coherent rho (s i j) ->
  let s' := vegshear_raupach rho roughness sigma ny nx cover s i j in
  coherent rho s' /\ (exists f, 0 < f <= 1 /\ multiplied f (s i j) s') /\ ((forall i j, (i < ny)%nat -> (j < nx)%nat -> cover i j = 0) -> multiplied 1 (s i j) s').
Proof.
  intros P R C I J CO. cbv zeta. destruct (raupach_shear rho roughness sigma ny nx cover s i j P R C I J CO) as [f [F [M [CO' O]]]]. split; auto. split; [exists f; auto|]. intros B. rewrite O in M; auto.
Qed.
(** A planted second column. *)
Definition planted : grid := fun _ j => if Nat.eqb j 1 then 1 else 0.
Lemma c43_raupach_upwind : exists ny nx cover s, (forall i j, (i < ny)%nat -> (j < nx)%nat -> 0 <= cover i j <= 1) /\ coherent 1 (s 0%nat 0%nat) /\ 0 < uws (s 0%nat 0%nat) /\ uwn (s 0%nat 0%nat) = 0 /\
  cover 0%nat 0%nat = 0 /\ ustar (vegshear_raupach 1 16 (8 / 10) ny nx cover s 0 0) < ustar (s 0%nat 0%nat).
Proof.
  exists 1%nat, 2%nat, planted, (fun _ => breeze (- (90)) 1 0). split; [intros i j _ _; unfold planted; destruct (Nat.eqb j 1); lra|]. split; [apply breeze_coherent; ring|]. split; [cbn; lra|]. split; [cbn; ring|]. split; [reflexivity|].
  unfold vegshear_raupach. cbn [velocity_stress ustar redirect with_velocity breeze]. rewrite Rmult_1_l. unfold vegfac, gaussian_filter.
  assert (ONE : forall j, (j < 2)%nat -> smooth (8 / 10) 1 (fun i' => bare_fraction 16 planted i' j) 0 <= 1).
  { intros j J. apply (smooth_bounds (8 / 10) 1 _ 0 1); [lia|]. intros i _. assert (0 <= planted i j) by (unfold planted; destruct (Nat.eqb j 1); lra). pose proof (bare_range 16 planted i j ltac:(lra) H). lra. }
  apply (smooth_below (8 / 10) 2 _ 0 1%Z); [lia|auto|unfold offsets; rewrite radius_08; cbn; tauto|].
  replace (reflected 2 (Z.of_nat 0 + 1)) with 1%nat by reflexivity. rewrite (smooth_const (8 / 10) 1 _ (bare_fraction 16 planted 0%nat 1%nat)) by (try lia; intros i' I'; reflexivity).
  unfold bare_fraction, planted. cbn. assert (1 < sqrt (1 + 16 * 1)) by (rewrite <- sqrt_1 at 1; apply sqrt_lt_1_alt; lra).
  assert (/ sqrt (1 + 16 * 1) < / 1) by (apply Rinv_lt_contravar; lra). rewrite Rinv_1 in H0. unfold Rdiv. lra.
Qed.
Lemma c43_raupach_case : (forall i j, (i < 1)%nat -> (j < 2)%nat -> 0 <= planted i j) /\ planted 0%nat 1%nat = 1 /\ coherent 1 (breeze (- (90)) 1 0 1).
Proof. split; [intros i j _ _; unfold planted; destruct (Nat.eqb j 1); lra|]. split; [reflexivity|apply breeze_coherent; ring]. Qed.

(** ** C90 *)
Lemma c90_okin rho a c n x h1 h2 s j : okin_ok a c -> (forall i, (i < n)%nat -> h1 i <= h2 i) -> 0 <= ustar (s j) ->
  ustar (vegshear_okin rho a c n x h2 s j) <= ustar (vegshear_okin rho a c n x h1 s j) /\ ustar (fence_shear1d rho a c n x h2 s j) <= ustar (fence_shear1d rho a c n x h1 s j).
Proof. intros O H U. unfold vegshear_okin, fence_shear1d. cbn [velocity_stress ustar]. split; apply okin_mono; auto. Qed.
Lemma c90_raupach rho roughness sigma ny nx c1 c2 s i j : 0 <= roughness -> (forall i j, (i < ny)%nat -> (j < nx)%nat -> 0 <= c1 i j <= c2 i j) -> (i < ny)%nat -> (j < nx)%nat -> 0 <= ustar (s i j) ->
  ustar (vegshear_raupach rho roughness sigma ny nx c2 s i j) <= ustar (vegshear_raupach rho roughness sigma ny nx c1 s i j).
Proof.
  intros R C I J U. unfold vegshear_raupach. cbn [velocity_stress ustar redirect with_velocity]. apply Rmult_le_compat_l; auto. apply vegfac_mono; auto; lia.
Qed.
Lemma c90_case : okin_ok (32 / 100) (48 / 100) /\ (forall i, (i < 3)%nat -> (fun _ => 0) i <= plant i) /\ 0 <= ustar (breeze (- (90)) 1 0 1) /\ ustar (fence_shear1d 1 (32 / 100) (48 / 100) 3 metres plant (breeze (- (90)) 1 0) 1) < ustar (breeze (- (90)) 1 0 1).
Proof.
  split; [unfold okin_ok; lra|]. split; [intros i _; unfold plant; destruct (Nat.eqb i 1); lra|]. split; [cbn; lra|]. destruct c43_upwind_case as [_ [_ [_ ->]]]. cbn. lra.
Qed.
Lemma c90_raupach_case : (forall i j, (i < 1)%nat -> (j < 2)%nat -> 0 <= (fun _ _ => 0) i j <= planted i j) /\ 0 <= ustar (breeze (- (90)) 1 0 1).
Proof. split; [intros i j _ _; unfold planted; destruct (Nat.eqb j 1); lra|cbn; lra]. Qed.

(** ** C91 *)
Lemma c91_decays rho a c n x h s i j k : okin_ok a c -> (i < n)%nat -> 0 < h i -> (forall m, (m < n)%nat -> m <> i -> h m <= 0) -> -180 < udir (s 0%nat) <= 180 -> ustar (s j) = ustar (s k) -> 0 <= ustar (s j) ->
  (if Rle_dec 0 (udir (s 0%nat)) then x k <= x j <= x i else x i <= x j <= x k) ->
  ustar (vegshear_okin rho a c n x h s j) <= ustar (vegshear_okin rho a c n x h s k) /\ ustar (fence_shear1d rho a c n x h s j) <= ustar (fence_shear1d rho a c n x h s k).
Proof.
  intros O I H ONE D E U X. unfold fence_shear1d. rewrite <- (turned_same _ D). fold (vegshear_okin rho a c n x h s j). fold (vegshear_okin rho a c n x h s k).
  assert (L : ustar (vegshear_okin rho a c n x h s j) <= ustar (vegshear_okin rho a c n x h s k)); [|auto].
  unfold vegshear_okin. set (left := to_left _). cbn [velocity_stress ustar okin redirect with_velocity]. rewrite !(total_single a c left n x h i) by auto.
  assert (R : reduction a c (h i) (behind left x i k) <= reduction a c (h i) (behind left x i j)).
  { apply reduction_decays; auto. unfold behind, left. destruct (to_left (turned_plants (udir (s 0%nat)))) eqn:L.
    - apply left_side in L; auto. destruct (Rle_dec 0 (udir (s 0%nat))); [lra|contradiction].
    - destruct (Rle_dec 0 (udir (s 0%nat))) as [Z|Z]; [|lra]. apply (left_side _ D) in Z. congruence. }
  rewrite <- E. assert (ustar (s j) * (1 - reduction a c (h i) (behind left x i j)) <= ustar (s j) * (1 - reduction a c (h i) (behind left x i k))) by (apply Rmult_le_compat_l; lra).
  destruct (Rlt_dec _ _); destruct (Rlt_dec _ _); lra.
Qed.
Lemma c91_ends rho a c n x h s j : 0 <= rho -> coherent rho (s j) -> 1 / 100 <= ustar (s j) -> (forall i, (i < n)%nat -> 0 < h i -> 20 * h i <= Rabs (x j - x i)) ->
  multiplied 1 (s j) (vegshear_okin rho a c n x h s j) /\ multiplied 1 (s j) (fence_shear1d rho a c n x h s j).
Proof.
  intros P C U F. assert (T : forall left, total_reduction a c left n x h j = 0).
  { intros left. unfold total_reduction. assert (Z : rsum (map (fun i => if Rlt_dec 0 (h i) then reduction a c (h i) (behind left x i j) else 0) (seq 0 n)) = 0).
    { apply rsum_zero. intros v V. apply in_map_iff in V. destruct V as [i [<- I]]. apply in_seq in I. destruct (Rlt_dec 0 (h i)) as [H|]; auto.
      specialize (F i ltac:(lia) H). destruct (Rlt_dec (behind left x i j) 0); [apply reduction_upwind; auto|]. apply reduction_ends; auto.
      unfold behind in *. destruct left; [rewrite <- Rabs_Ropp in F|]; rewrite Rabs_right in F; lra. }
    rewrite Z. destruct (Rlt_dec 1 0); lra. }
  assert (M : forall left, multiplied 1 (s j) (velocity_stress rho (okin a c left n x h s j))).
  { intros left. apply velocity_stress_velocity. unfold okin. rewrite T. replace (ustar (s j) * (1 - 0)) with (1 * ustar (s j)) by ring. destruct (Rlt_dec _ _); [lra|]. apply redirect_multiplied, (coherent_still rho); auto. }
  split; apply M.
Qed.
Lemma c91_case : 0 < plant 1%nat /\ (forall m, (m < 3)%nat -> m <> 1%nat -> plant m <= 0) /\ (if Rle_dec 0 (- (90)) then metres 2%nat <= metres 1%nat <= metres 1%nat else metres 1%nat <= metres 1%nat <= metres 2%nat).
Proof. split; [cbn; lra|]. split; [intros m _ N; rewrite plant_zero by auto; lra|]. destruct (Rle_dec 0 (- (90))); unfold metres; cbn; lra. Qed.
Lemma c91_ends_case : coherent 1 (breeze (- (90)) 1 0 0) /\ (forall i, (i < 3)%nat -> 0 < plant i -> 20 * plant i <= Rabs (30 * metres 0%nat - 30 * metres i)).
Proof.
  split; [apply breeze_coherent; ring|]. intros i _ H. destruct (Nat.eq_dec i 1) as [->|N]; [|rewrite plant_zero in H by auto; lra]. unfold metres. cbn. rewrite Rabs_left; lra.
Qed.
Lemma c91_raupach_case : 0 < 8 / 10 /\ radius (8 / 10) = 3%nat /\ 0 < (if Nat.eqb 5 5 then 1 / 2 else 0) /\ (3 <= 5)%nat /\ (7 + 3 < 12)%nat /\
  (Z.abs (Z.of_nat 5 - Z.of_nat 5) < Z.abs (Z.of_nat 5 - Z.of_nat 7))%Z.
Proof. split; [lra|]. split; [apply radius_08|]. split; [cbn; lra|]. repeat split; lia. Qed.
