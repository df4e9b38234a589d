(** Cases of the theorems about the two-dimensional wind shear. *)
From Coq Require Import Reals Lra Lia Psatz ZArith.
From Verif Require Import Base Shear_Model Shear_Spec Shear_Proofs Shear_Grid Shear_Interp Shear_Stress Shear_Bubble Shear_Ramp Shear_Fourier Shear_Units.
Open Scope R_scope.

Lemma in_square (r c : nat) : (r <= 40)%nat -> (c <= 40)%nat -> (r < rows square)%nat /\ (c < cols square)%nat.
Proof. cbn [rows cols square]. lia. Qed.
Lemma covers_case : equal_cells square (0, 0) (1, 0) (0, 1) /\ oblique 45 /\ within (turn_grid (- (270 - 45)) (centre square) (computational 10 1 1 square 45)) (place square 0 40).
Proof.
  split; [exact square_cells | split; [exact oblique_45|]]. destruct (in_square 0 40 ltac:(lia) ltac:(lia)) as [A B].
  apply (c113_covers square (0, 0) (1, 0) (0, 1)); [lia | lia | exact square_cells | exact oblique_45 | lra | lra | exact A | exact B].
Qed.
Lemma straight_case : straight 270 /\ within (turn_grid (- (270 - 270)) (centre strip) (computational 10 1 1 strip 270)) (place strip 1 1).
Proof.
  assert (S : straight 270). { exists 3%Z. split; [lia|]. replace (270 - 90 * 3) with 0 by ring. rewrite Rabs_R0. lra. }
  split; [exact S|]. apply (c113_straight strip (0, 0) (1000, 0) (0, 1) 10 1 1 270 1001); [cbn; lia | cbn; lia | exact strip_cells | exact S | | lra | lra | lra | lra | cbn; lia | cbn; lia].
  simpl. unfold Rabs. repeat destruct (Rcase_abs _); lra.
Qed.
Lemma size_case : oblique 45 /\ 20 <= width 10 square 45 <= 80 /\ 20 <= span 10 square 45 <= 80.
Proof. split; [exact oblique_45|]. pose proof square_size. lra. Qed.
Lemma computed_case : let h := turn_grid (- (270 - 45)) (centre square) (computational 10 1 1 square 45) in
  interpolate (centre square) h (fun _ _ => 7) 0 (place square 40 3) = 7.
Proof.
  cbv zeta. destruct (in_square 40 3 ltac:(lia) ltac:(lia)) as [A B].
  rewrite (c113_computed square (0, 0) (1, 0) (0, 1) 10 1 1 45 (fun _ _ => 7) 0 7 40 3 square_cells oblique_45 ltac:(lra) ltac:(lra) A B). apply interpolate_const.
Qed.
(** Levels 0 to 3 at the corners of the strip. *)
Definition tilted : field := fun r c => INR c + 2 * INR r.
Lemma tilted_between : between 2 2 tilted 0 3.
Proof. intros [|[|r]] [|[|c]] Hr Hc; try lia; unfold tilted; simpl; lra. Qed.
Lemma range_case : (0 < rows strip)%nat /\ (0 < cols strip)%nat /\ between (rows strip) (cols strip) tilted 0 3.
Proof. split; [cbn; lia | split; [cbn; lia | exact tilted_between]]. Qed.
Lemma nodes_case : equal_cells strip (0, 0) (1000, 0) (0, 1) /\ perpendicular (1000, 0) (0, 1) /\ nonzero (1000, 0) /\ nonzero (0, 1) /\ interpolate (0, 0) strip tilted 0 (1000, 1) = 3.
Proof.
  destruct strip_nonzero as [A [B C]]. split; [exact strip_cells | split; [exact A | split; [exact B | split; [exact C|]]]].
  replace (1000, 1) with (place strip 1 1) by (unfold place, strip; cbn [gx gy]; simpl INR; f_equal; ring).
  rewrite (c114_nodes (0, 0) strip tilted 0 (0, 0) (1000, 0) (0, 1) 1 1 strip_cells A B C ltac:(cbn; lia) ltac:(cbn; lia)). unfold tilted. simpl. ring.
Qed.
Lemma plane_case : interpolate (0, 0) strip tilted 0 (spot (0, 0) (1000, 0) (0, 1) (1 / 2) (1 / 4)) = 1.
Proof.
  destruct strip_nonzero as [A [B C]].
  rewrite (c114_plane (0, 0) strip tilted 0 (0, 0) (1000, 0) (0, 1) (1 / 2) (1 / 4) 0 (1 / 1000) 2); try (cbn [rows cols strip]; simpl INR; lra); auto; try (cbn; lia).
  - unfold spot. simpl. field.
  - exact strip_cells.
  - intros r j _ _. unfold tilted, strip. cbn [gx gy]. field.
Qed.
Lemma beyond_case : interpolate (0, 0) strip tilted 0 (1000, 3) = 3 /\ interpolate (0, 0) strip tilted 0 (1000, 4) = 0.
Proof.
  destruct strip_nonzero as [A [B C]].
  destruct (c114_beyond (0, 0) strip tilted 0 (0, 0) (1000, 0) (0, 1) 1 3 ltac:(cbn; lia) ltac:(cbn; lia) strip_cells A B C) as [H _].
  destruct (c114_beyond (0, 0) strip tilted 0 (0, 0) (1000, 0) (0, 1) 1 4 ltac:(cbn; lia) ltac:(cbn; lia) strip_cells A B C) as [_ H4].
  cbn [rows cols strip] in H, H4. change (Nat.max 2 2) with 2%nat in H, H4. simpl INR in H, H4. specialize (H ltac:(lra) ltac:(lra)). split.
  - replace (1000, 3) with (spot (0, 0) (1000, 0) (0, 1) 1 3) by (unfold spot; cbn [fst snd]; f_equal; ring). rewrite H.
    replace (Rmax 0 (Rmin 1 (1 + 1 - 1))) with 1 by (unfold Rmax, Rmin; repeat destruct (Rle_dec _ _); lra).
    replace (Rmax 0 (Rmin 3 (1 + 1 - 1))) with 1 by (unfold Rmax, Rmin; repeat destruct (Rle_dec _ _); lra).
    replace (spot (0, 0) (1000, 0) (0, 1) 1 1) with (1000, 1) by (unfold spot; cbn [fst snd]; f_equal; ring). apply nodes_case.
  - replace (1000, 4) with (spot (0, 0) (1000, 0) (0, 1) 1 4) by (unfold spot; cbn [fst snd]; f_equal; ring). apply H4. lra.
Qed.
(** A wind from the northeast and its stress. *)
Lemma northeast : 0 < along 45 (- 1, - 1).
Proof. unfold along, blows_to. cbn [fst snd]. rewrite rad45, sin_PI4, cos_PI4. fold k2. pose proof k2_bounds. lra. Qed.
Lemma forward_case : 0 <= along 45 (- 1, - 1) /\ ~ 0 <= along 45 (1, 1).
Proof.
  pose proof northeast as H. split; [lra|]. intros N. assert (E : along 45 (1, 1) = - along 45 (- 1, - 1)) by (unfold along; cbn [fst snd]; ring). lra.
Qed.
Definition open_air : params := {| buffer := 10; cdx := 1; cdy := 1; len := 100; inner := 10; rough := 1 / 1000; process_separation := false; c_b := 2 / 10; mub := 30 |}.
Lemma calm_case : process_separation open_air = false /\ 0 <= along 45 (- 1, - 1).
Proof. split; [reflexivity | apply forward_case]. Qed.
Lemma scale_case : forall kv, fst (call kv open_air square (fun _ _ => 0) 0 45 (2 * - 1, 2 * - 1) 3 4) = (- 2, - 2).
Proof. intros kv. pose proof northeast as N. rewrite c115_calm; [f_equal; ring | reflexivity|]. unfold along in *. cbn [fst snd] in *. lra. Qed.
Lemma sheltered_case : cell_stress usual 45 (- 1, - 1) (0, 0) (1 / 20) = (- (1 / 2), - (1 / 2)).
Proof.
  unfold cell_stress. cbn [process_separation usual]. rewrite add_shear_none. unfold not_backward. rewrite turn_along, Rmax_left by (pose proof northeast; lra). rewrite <- turn_along, <- surjective_pairing.
  unfold separation_shear. replace (sheltered (1 / 20)) with (1 / 2) by (unfold sheltered, Rmin, Rmax; repeat destruct (Rle_dec _ _); lra).
  transitivity (scaled (1 / 2) (turn (- (270 - 45)) (0, 0) (turn (270 - 45) (0, 0) (- 1, - 1)))).
  - rewrite <- turn_scaled. f_equal. unfold scaled. f_equal; ring.
  - rewrite turn_back. unfold scaled. cbn [fst snd]. f_equal; field.
Qed.
(** A level row. *)
Lemma level_gentle h : gentle 10 1 30 (fun _ => h).
Proof. intros i _. replace ((h - h) / (2 * 1)) with 0 by field. rewrite atan_0. unfold degrees, Rdiv. rewrite !Rmult_0_l. lra. Qed.
Lemma gentle_case : gentle 10 1 30 (fun _ => 2) /\ separation 10 1 (2 / 10) 30 (fun _ => 2) 4%nat = 2.
Proof. split; [apply level_gentle|]. apply c116_gentle; [lia | apply level_gentle | lra]. Qed.
Lemma above_case : surface usual 10 (fun _ _ => 2) 3%nat 4%nat = 2.
Proof.
  unfold surface. cbn [process_separation usual cdx c_b mub].
  rewrite (proj2 gentle_case). apply Rmax_left. lra.
Qed.
Lemma datum_case : cell_stress usual 45 (- 1, - 1) (1 / 2, 0) (surface usual 10 (fun _ _ => - 1) 0%nat 3%nat - - 1) = (0, 0).
Proof. apply (c116_datum usual 10 (fun _ _ => - 1)); [reflexivity | lra]. Qed.
Lemma no_wind_case : process_separation usual = true /\ 0 < cdx usual <= buffer usual /\ forall i j, (i < rows (computational 10 1 1 square 45))%nat -> (j < cols (computational 10 1 1 square 45))%nat -> bed usual square (fun _ _ => - 1) 45 i j = - 1.
Proof. split; [reflexivity | split; [cbn; lra|]]. intros. apply square_bed; assumption. Qed.
(** The streamline. *)
Lemma c116_streamline : forall h d ls base, 0 < ls ->
  cubic h d ls base 0 = base /\ cubic h d ls base ls = base - h /\
  derivable_pt_lim (cubic h d ls base) 0 d /\ derivable_pt_lim (cubic h d ls base) ls 0.
Proof.
  intros h d ls base H. unfold cubic. split; [ring | split; [field; lra|]].
  assert (G : forall a b e k x, derivable_pt_lim (fun xs => a * xs ^ 3 + b * xs ^ 2 + e * xs + k) x (3 * a * x ^ 2 + 2 * b * x + e)).
  { intros a b e k x. replace (3 * a * x ^ 2 + 2 * b * x + e) with (a * (INR 3 * x ^ 2) + b * (INR 2 * x ^ 1) + e * 1 + 0) by (simpl; ring).
    apply (derivable_pt_lim_plus (fun xs => a * xs ^ 3 + b * xs ^ 2 + e * xs) (fun _ => k)); [|apply derivable_pt_lim_const].
    apply (derivable_pt_lim_plus (fun xs => a * xs ^ 3 + b * xs ^ 2) (fun xs => e * xs)).
    - apply (derivable_pt_lim_plus (fun xs => a * xs ^ 3) (fun xs => b * xs ^ 2)).
      + apply (derivable_pt_lim_scal (fun xs => xs ^ 3)). apply (derivable_pt_lim_pow x 3).
      + apply (derivable_pt_lim_scal (fun xs => xs ^ 2)). apply (derivable_pt_lim_pow x 2).
    - apply (derivable_pt_lim_scal (fun xs => xs)). apply derivable_pt_lim_id. }
  split.
  - pose proof (G (2 * h / ls ^ 3 + d / ls ^ 2) (- 3 * h / ls ^ 2 - 2 * d / ls) d base 0) as Q. match type of Q with derivable_pt_lim _ _ ?v => replace v with d in Q by ring end. exact Q.
  - pose proof (G (2 * h / ls ^ 3 + d / ls ^ 2) (- 3 * h / ls ^ 2 - 2 * d / ls) d base ls) as Q. match type of Q with derivable_pt_lim _ _ ?v => replace v with 0 in Q by (field; lra) end. exact Q.
Qed.
Lemma streamline_case : cubic 6 (1 / 10) 20 5 10 = 5 - 3 + 1 / 4.
Proof. unfold cubic. field. Qed.
Lemma level_case : (2 <= 2)%nat /\ (2 <= 5)%nat /\ 0 < (1 : R) /\ (1 : R) <> 0.
Proof. split; [lia | split; [lia | lra]]. Qed.
Lemma superposition_case : forall kv r c, fst (compute_shear kv 1 1 100 10 (1 / 1000) 0 4 4 (fun i j => INR i + 2 * INR j)) r c = 0.
Proof. intros kv r c. unfold compute_shear. destruct (Req_EM_T 0 0); [reflexivity | lra]. Qed.
Lemma moved_case : moved 3 4 1 2 (fun r c => INR r + 10 * INR c) 2%nat 1%nat = 30.
Proof. unfold moved. simpl. ring. Qed.
Lemma passes_case : 0 < 1 /\ (3 < 8)%nat /\ Rabs (wave 7 1 3) = PI.
Proof.
  split; [lra | split; [lia|]]. unfold wave, fftfreq. simpl Nat.leb. cbv iota. simpl INR. pose proof PI_RGT_0.
  replace (2 * PI * ((1 + 1 + 1 + 1 - (1 + 1 + 1 + 1 + 1 + 1 + 1 + 1)) / ((1 + 1 + 1 + 1 + 1 + 1 + 1 + 1) * 1))) with (- PI) by field. rewrite Rabs_Ropp. apply Rabs_pos_eq. lra.
Qed.
Lemma c118_taper : exists d k, 0 < d /\ 2 * PI / d / k = 1 /\ filter_x d k = 1 / 2 /\ filter_y d k = 1 / 2.
Proof. exists 1, (2 * PI / 1). pose proof PI_RGT_0. split; [lra | split; [field; lra | apply c118_half; lra]]. Qed.
Lemma directions_case : 0 < PI < 2 * PI / 1.
Proof. pose proof PI_RGT_0. lra. Qed.
Lemma perturbed_case : 0 < 2 /\ process_separation open_air = false /\ along 90 (2 * fst (blows_to 90), 2 * snd (blows_to 90)) = 2.
Proof.
  split; [lra | split; [reflexivity|]]. unfold along, blows_to. cbn [fst snd]. pose proof (cs (radians 90)).
  replace (2 * - sin (radians 90) * - sin (radians 90) + 2 * - cos (radians 90) * - cos (radians 90)) with (2 * (cos (radians 90) * cos (radians 90) + sin (radians 90) * sin (radians 90))) by ring. lra.
Qed.
(** A cliff of 4 m and cells of 1 m: steeper than 45 degrees; separated over 30 m. *)
Lemma cliff_case : (4 <= 10)%nat /\ (10 + 4 < 60)%nat /\ 30 < degrees (atan (4 / (2 * 1))) /\ reach (2 / 10) 4 = 30 /\ separation 60 1 (2 / 10) 30 (cliff 10 4) 24%nat = 2.
Proof.
  assert (G : 30 < degrees (atan (4 / (2 * 1)))).
  { apply (Rlt_trans _ 45); [lra|]. replace 45 with (degrees (atan 1)) by (rewrite atan_1; unfold degrees; field; apply PI_neq0).
    unfold degrees. pose proof PI_RGT_0. apply Rmult_lt_compat_r; [apply Rinv_0_lt_compat; lra|]. apply Rmult_lt_compat_r; [lra|]. apply atan_increasing. lra. }
  assert (E : reach (2 / 10) 4 = 30) by (unfold reach, Rmin, Rmax; repeat destruct (Rle_dec _ _); lra).
  split; [lia | split; [lia | split; [exact G | split; [exact E|]]]].
  destruct (c116_cliff 60 10 1 (2 / 10) 30 4 24 ltac:(lia) ltac:(lia) ltac:(lra) ltac:(lra) ltac:(lra) G ltac:(lia)) as [_ [H _]].
  assert (D : (INR 24 + 1 - INR 10) * 1 = 15) by (rewrite !INR_IZR_INZ; simpl; lra). rewrite H; rewrite ?D, ?E; [|lia | lra]. unfold fall. field.
Qed.
(** A slope of 1:5 that ends at such a cliff: the wind is separated over more than 40 m. *)
Lemma ramp_case : 30 < degrees (atan (4 / (2 * 1))) /\ reach_rising (2 / 10) 4 (1 / 5) = 165 / 4 /\ separation 60 1 (2 / 10) 30 (ramp 10 1 (1 / 5) 4) 24%nat = 4 * fall (4 / 11) + 147 / 121.
Proof.
  destruct cliff_case as (_ & _ & G & _).
  assert (E : reach_rising (2 / 10) 4 (1 / 5) = 165 / 4) by (unfold reach_rising, Rmin, Rmax; repeat destruct (Rle_dec _ _); lra).
  split; [exact G | split; [exact E|]].
  destruct (c116_ramp 60 10 1 (2 / 10) 30 4 (1 / 5) 24 ltac:(lia) ltac:(lia) ltac:(lra) ltac:(lra) ltac:(lra) ltac:(lra) G ltac:(lia)) as [_ [H _]].
  assert (D : (INR 24 + 1 - INR 10) * 1 = 15) by (rewrite !INR_IZR_INZ; simpl; lra). rewrite H; rewrite ?D, ?E; [|lia | lra]. unfold fall. field.
Qed.
Lemma longer_case : 0 < 2 / 10 /\ 0 < 4 /\ - (2 / 10) <= 0 <= 1 / 5 /\ reattach (2 / 10) 4 0 = 30 /\ reattach (2 / 10) 4 (1 / 5) = 165 / 4.
Proof. repeat split; try lra; unfold reattach, Rmin, Rmax; repeat destruct (Rle_dec _ _); lra. Qed.
Lemma bessel_case : like_bessel (fun _ _ => (1, 0)).
Proof. intros s _. cbn. lra. Qed.
Lemma pattern_case : (0 < 1000 /\ 0 < 1 / 1000) /\ forall kv, snd (compute_shear kv 1 1 100 10 (1 / 1000) 0 4 4 tilted) 1%nat 2%nat = 0.
Proof. split; [lra|]. intros kv. unfold compute_shear. destruct (Req_EM_T 0 0); [reflexivity | lra]. Qed.
