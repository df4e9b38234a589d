(** Size of the computational grid, and an input grid that it does not cover. *)
From Coq Require Import Reals Lra Lia Psatz ZArith.
From Verif Require Import Base Shear_Model Shear_Spec Shear_Proofs.
Open Scope R_scope.

Lemma across_offset u v : across u v = - offset u v.
Proof. unfold across, along, blows_to, offset. simpl. rewrite sin_left, cos_left. ring. Qed.
Lemma along_offset u v : along u v = offset (u - 90) v.
Proof. unfold along, blows_to, offset. simpl. rewrite sin_left, cos_left. ring. Qed.
Lemma index_gap i j : (i < 4)%nat -> (j < 4)%nat -> Rabs (INR i - INR j) <= 3.
Proof.
  intros Hi Hj. assert (INR i <= 3) by (change 3 with (IZR (Z.of_nat 3)); rewrite <- INR_IZR_INZ; apply le_INR; lia).
  assert (INR j <= 3) by (change 3 with (IZR (Z.of_nat 3)); rewrite <- INR_IZR_INZ; apply le_INR; lia).
  pose proof (pos_INR i). pose proof (pos_INR j). apply Rabs_le. lra.
Qed.
Lemma extent_size g u : sin (radians u) <> 0 -> exists i j, (i < 4)%nat /\ (j < 4)%nat /\ extent g u <= Rabs (offset u (corner g i) - offset u (corner g j)) + 3.
Proof.
  intros H. destruct (extent_hit g u H) as [i [j [Hi [Hj E]]]]. exists i, j. split; [exact Hi | split; [exact Hj|]]. rewrite E.
  apply Rplus_le_compat_l. pose proof (index_gap i j Hi Hj). assert (Rabs (sin (radians u)) <= 1) by (pose proof (SIN_bound (radians u)); apply Rabs_le; lra).
  pose proof (Rabs_pos (sin (radians u))). pose proof (Rabs_pos (INR i - INR j)). nra.
Qed.
Lemma c113_size : forall g b udir, oblique udir ->
  (forall i j, (i < 4)%nat -> (j < 4)%nat -> Rabs (across udir (corner g i) - across udir (corner g j)) + 2 * b <= width b g udir /\
     Rabs (along udir (corner g i) - along udir (corner g j)) + 2 * b <= span b g udir) /\
  (exists i j, (i < 4)%nat /\ (j < 4)%nat /\ width b g udir <= Rabs (across udir (corner g i) - across udir (corner g j)) + 2 * b + 3) /\
  (exists i j, (i < 4)%nat /\ (j < 4)%nat /\ span b g udir <= Rabs (along udir (corner g i) - along udir (corner g j)) + 2 * b + 3).
Proof.
  intros g b u Ho. pose proof (off_axis u (oblique_off u Ho)) as [S1 S2].
  unfold width, span, line_dir. rewrite (oblique_not_vertical u Ho).
  assert (A : forall p q, Rabs (across u p - across u q) = Rabs (offset u p - offset u q)).
  { intros p q. rewrite !across_offset. rewrite Rabs_minus_sym. f_equal. ring. }
  split; [|split].
  - intros i j Hi Hj. rewrite A, !along_offset. pose proof (extent_ge g u i j S1 Hi Hj). pose proof (extent_ge g (u - 90) i j S2 Hi Hj). lra.
  - destruct (extent_size g u S1) as [i [j [Hi [Hj E]]]]. exists i, j. rewrite A. repeat split; auto. lra.
  - destruct (extent_size g (u - 90) S2) as [i [j [Hi [Hj E]]]]. exists i, j. rewrite !along_offset. repeat split; auto. lra.
Qed.
Lemma oblique_45 : oblique 45.
Proof.
  intros k. destruct (Z_le_gt_dec k 0) as [H|H].
  - apply IZR_le in H. rewrite Rabs_pos_eq; lra.
  - assert (1 <= IZR k) by (apply IZR_le; lia). rewrite Rabs_left; lra.
Qed.
Lemma rad45 : radians 45 = PI / 4.
Proof. unfold radians. field. Qed.
Lemma rad_45 : radians (45 - 90) = - (PI / 4).
Proof. unfold radians. field. Qed.
Lemma root2 : 1414 / 1000 < sqrt 2 < 1415 / 1000.
Proof.
  split.
  - apply (Rle_lt_trans _ (sqrt (1414 / 1000 * (1414 / 1000)))); [rewrite sqrt_square; lra | apply sqrt_lt_1; lra].
  - apply (Rlt_le_trans _ (sqrt (1415 / 1000 * (1415 / 1000)))); [apply sqrt_lt_1; lra | rewrite sqrt_square; lra].
Qed.
Definition k2 : R := 1 / sqrt 2.
Lemma k2_bounds : 706 / 1000 < k2 < 708 / 1000.
Proof.
  pose proof root2 as [A B]. unfold k2. assert (sqrt 2 * sqrt 2 = 2) by (apply sqrt_sqrt; lra).
  assert (E : 1 / sqrt 2 = sqrt 2 / 2) by (field_simplify_eq; [nra | lra]). rewrite E. lra.
Qed.
Lemma offset45 v : offset 45 v = (snd v - fst v) * k2.
Proof. unfold offset. rewrite rad45, sin_PI4, cos_PI4. fold k2. ring. Qed.
Lemma offset_45 v : offset (45 - 90) v = - (snd v + fst v) * k2.
Proof. unfold offset. rewrite rad_45, sin_neg, cos_neg, sin_PI4, cos_PI4. fold k2. ring. Qed.
(** A square of one by one metre. *)
Definition unit_square : grid := {| rows := 2; cols := 2; gx := fun r c => INR c; gy := fun r c => INR r |}.
Lemma c113_tight : exists g b udir, oblique udir /\ forall i j, (i < 4)%nat -> (j < 4)%nat ->
  Rabs (across udir (corner g i) - across udir (corner g j)) + 2 * b + 1 / 2 < width b g udir.
Proof.
  exists unit_square, 10, 45. split; [exact oblique_45|]. intros i j Hi Hj.
  pose proof (off_axis 45 (oblique_off 45 oblique_45)) as [S1 _]. pose proof k2_bounds as K.
  unfold width, line_dir. rewrite (oblique_not_vertical 45 oblique_45).
  assert (E : 3 * k2 <= extent unit_square 45).
  { unfold extent. rewrite (line_size 45 _ S1). rewrite Rabs_pos_eq by apply maxDiff_nonneg. unfold Rdiv. rewrite Rinv_inv, rad45, sin_PI4. fold k2.
    rewrite (Rabs_pos_eq k2) by lra. apply Rmult_le_compat_r; [lra|].
    pose proof (maxDiff_ge 4 (fun i => snd (line 45 (corner unit_square i))) 3 0 ltac:(lia) ltac:(lia)) as M. cbv beta in M.
    replace (Rabs (INR 3 - INR 0)) with 3 in M by (simpl; rewrite Rabs_pos_eq; lra).
    pose proof (Rabs_pos (snd (line 45 (corner unit_square 3)) - snd (line 45 (corner unit_square 0)))). lra. }
  rewrite !across_offset, !offset45.
  assert (F : forall i, (i < 4)%nat -> - k2 <= - ((snd (corner unit_square i) - fst (corner unit_square i)) * k2) <= k2).
  { clear i Hi j Hj. intros i Hi. destruct i as [|[|[|[|i]]]]; [| | | |lia]; unfold corner, place; simpl; lra. }
  pose proof (F i Hi) as Fi. pose proof (F j Hj) as Fj.
  assert (Rabs (- ((snd (corner unit_square i) - fst (corner unit_square i)) * k2) - - ((snd (corner unit_square j) - fst (corner unit_square j)) * k2)) <= 2 * k2) by (apply Rabs_le; lra).
  lra.
Qed.
(** Points of a grid with the wind along its rows. *)
Lemma within_inv a o x1 y1 dx dy g p : (forall r c, place g r c = (x1 + INR c * dx, y1 + INR r * dy)) -> 0 < dx ->
  within (turn_grid (- a) o g) p -> x1 <= fst (turn a o p) <= x1 + (INR (cols g) - 1) * dx.
Proof.
  intros H Hdx [r [c [s [t [Hr [Hc [Hs [Ht E]]]]]]]]. simpl in Hc.
  rewrite !(turn_spot_grid (- a) o g x1 y1 dx dy H) in E.
  assert (E' : p = turn (- a) o (x1 + (INR c + s) * dx, y1 + (INR r + t) * dy)).
  { rewrite E, !S_INR. unfold turn, spot. simpl. f_equal; ring. }
  rewrite E', turn_forth. simpl. apply le_INR in Hc. rewrite !S_INR in Hc. pose proof (pos_INR c). nra.
Qed.
(** A grid with small cells at one side: x at 0, 1, 2 and 100 metres. *)
Definition graded : grid := {| rows := 2; cols := 4; gx := fun r c => match c with 0%nat => 0 | 1%nat => 1 | 2%nat => 2 | _ => 100 end; gy := fun r c => INR r |}.
Lemma graded_centre : centre graded = (103 / 4, 1 / 2).
Proof. unfold centre, mean, graded. simpl. f_equal; field. Qed.
Lemma c113_graded : exists g b dx dy udir r c, oblique udir /\ 0 < dx < b /\ 0 < dy < b /\ (r < rows g)%nat /\ (c < cols g)%nat /\
  (forall r c, gx g r c < gx g r (S c) \/ (cols g <= S c)%nat) /\ (forall r c, gy g r c < gy g (S r) c) /\
  ~ within (turn_grid (- (270 - udir)) (centre g) (computational b dx dy g udir)) (place g r c).
Proof.
  exists graded, 10, 1, 1, 45, 1%nat, 3%nat. split; [exact oblique_45|]. split; [lra | split; [lra|]]. split; [simpl; lia | split; [simpl; lia|]].
  split. { intros r c. destruct c as [|[|[|c]]]; simpl; [left; lra | left; lra | left; lra | right; lia]. }
  split. { intros r c. change (INR r < INR (S r)). rewrite S_INR. lra. }
  intros W. pose proof (off_axis 45 (oblique_off 45 oblique_45)) as [_ S2]. pose proof k2_bounds as K.
  destruct (extent_size graded (45 - 90) S2) as [i [j [Hi [Hj E]]]].
  assert (F : forall i, (i < 4)%nat -> - 101 * k2 <= offset (45 - 90) (corner graded i) <= 0).
  { clear. intros i Hi. rewrite offset_45. pose proof k2_bounds. destruct i as [|[|[|[|i]]]]; [| | | |lia]; unfold corner, place; simpl; lra. }
  pose proof (F i Hi). pose proof (F j Hj).
  assert (Rabs (offset (45 - 90) (corner graded i) - offset (45 - 90) (corner graded j)) <= 101 * k2) by (apply Rabs_le; lra).
  unfold computational, exact_grid in W. rewrite graded_centre in W. cbn [fst snd] in W.
  assert (Sp : span 10 graded 45 = extent graded (45 - 90) + 20) by (unfold span, line_dir; rewrite (oblique_not_vertical 45 oblique_45); ring).
  pose proof (axis_first (103 / 4 - span 10 graded 45 / 2) (103 / 4 + span 10 graded 45 / 2) 1 Rlt_0_1) as A.
  destruct (axis (103 / 4 - span 10 graded 45 / 2) (103 / 4 + span 10 graded 45 / 2) 1) as [x1 nx].
  destruct (axis (1 / 2 - width 10 graded 45 / 2) (1 / 2 + width 10 graded 45 / 2) 1) as [y1 ny].
  apply (within_inv _ _ x1 y1 1 1) in W; [|reflexivity | lra]. rewrite wind_frame, !offset_45 in W. simpl in A, W. lra.
Qed.
