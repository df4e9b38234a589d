(** Proofs about sand fences in two dimensions: no fences, and the lee of one fence. *)
From Coq Require Import Reals Lra Lia Psatz ZArith.
From Verif Require Import Base Shear_Model Shear_Spec Shear_Proofs Shear_Interp Shear_Fourier Fence2_Model Fence2_Spec Fence2_Proofs.
From Verif Require Shelter_Model Shelter_Spec Shelter_Proofs.
Open Scope R_scope.

Lemma square_half t w : - w <= t <= w -> t ^ 2 <= w ^ 2.
Proof. intros H. assert (0 <= (w - t) * (w + t)) by (apply Rmult_le_pos; lra). replace (t ^ 2) with (t * t) by ring. replace (w ^ 2) with (w * w) by ring. lra. Qed.
Lemma abs_both t e : Rabs t <= e -> - e <= t <= e.
Proof. unfold Rabs. destruct (Rcase_abs t); lra. Qed.
Lemma amount_uniform a c1 d g x y h zf us v r c : square_cells g x y h -> 1 / 2 <= h <= 200 -> (3 <= rows g)%nat -> (3 <= cols g)%nat ->
  (forall i j, (i < rows g)%nat -> (j < cols g)%nat -> zf i j = 0) -> (forall i j, (i < rows g)%nat -> (j < cols g)%nat -> us i j = v) ->
  (1 <= r <= rows g - 2)%nat -> (1 <= c <= cols g - 2)%nat -> amount a c1 d (h / 2) (h / 2) g zf us r c = v.
Proof.
  intros S Hh Hm Hn Zf Us Hr Hc. unfold amount. cbv zeta. set (o := centre g). set (b := d + 90).
  assert (P : forall r c, place g r c = (x + INR c * h, y + INR r * h)). { intros i j. rewrite (S i j). unfold spot. cbn [fst snd]. f_equal; ring. }
  assert (GX : forall r c, gx g r c = x + INR c * h) by (intros i j; pose proof (P i j) as E; unfold place in E; injection E; auto).
  assert (GY : forall r c, gy g r c = y + INR r * h) by (intros i j; pose proof (P i j) as E; unfold place in E; injection E; auto).
  destruct (fence_grid_place g (h / 2) (h / 2)) as [x1 [y1 [F [X1 [CX [Y1 CY]]]]]].
  set (G := fence_grid g (h / 2) (h / 2)) in *. fold o in X1, CX, Y1, CY.
  assert (Mm : 3 <= INR (rows g)) by (replace 3 with (INR 3) by (simpl; ring); apply le_INR; lia).
  assert (Nn : 3 <= INR (cols g)) by (replace 3 with (INR 3) by (simpl; ring); apply le_INR; lia).
  set (W := (INR (cols g) - 1) * h). set (H := (INR (rows g) - 1) * h).
  assert (W0 : 0 < W) by (unfold W; nra). assert (H0 : 0 < H) by (unfold H; nra).
  assert (O : o = (x + W / 2, y + H / 2)). { unfold o. rewrite (centre_equal g (x, y) (h, 0) (0, h)) by (try lia; exact S). unfold spot, W, H. cbn [fst snd]. f_equal; field. }
  set (D := square_side g) in *.
  assert (DD : sqrt (W ^ 2 + H ^ 2) + 200 <= D).
  { unfold D, square_side. apply Rplus_le_compat; [|lra]. apply sqrt_le_1_alt.
    assert (A1 : W <= greatest g (gx g) - least g (gx g)).
    { pose proof (greatest_ge g (gx g) 0 (cols g - 1) ltac:(lia) ltac:(lia)) as A. pose proof (least_le g (gx g) 0 0 ltac:(lia) ltac:(lia)) as B.
      rewrite GX in A, B. rewrite minus_INR in A by lia. simpl (INR 1) in A. simpl (INR 0) in B. unfold W. lra. }
    assert (A2 : H <= greatest g (gy g) - least g (gy g)).
    { pose proof (greatest_ge g (gy g) (rows g - 1) 0 ltac:(lia) ltac:(lia)) as A. pose proof (least_le g (gy g) 0 0 ltac:(lia) ltac:(lia)) as B.
      rewrite GY in A, B. rewrite minus_INR in A by lia. simpl (INR 1) in A. simpl (INR 0) in B. unfold H. lra. }
    apply Rplus_le_compat; apply pow_incr; lra. }
  set (s := sqrt (W ^ 2 + H ^ 2)) in *. assert (Hs : 0 <= s) by apply sqrt_pos.
  assert (Ss : s ^ 2 = W ^ 2 + H ^ 2) by (unfold s; apply pow2_sqrt; nra).
  assert (Rr : 1 <= INR r <= INR (rows g) - 2).
  { split; [replace 1 with (INR 1) by reflexivity; apply le_INR; lia|]. replace 2 with (INR 2) by (simpl; ring). rewrite <- minus_INR by lia. apply le_INR. lia. }
  assert (Cc : 1 <= INR c <= INR (cols g) - 2).
  { split; [replace 1 with (INR 1) by reflexivity; apply le_INR; lia|]. replace 2 with (INR 2) by (simpl; ring). rewrite <- minus_INR by lia. apply le_INR. lia. }
  set (p := place g r c). assert (Ep : p = (x + INR c * h, y + INR r * h)) by apply P.
  set (q := turn (- b) o p).
  assert (Q : - (s / 2) <= fst q - fst o <= s / 2 /\ - (s / 2) <= snd q - snd o <= s / 2).
  { apply two_sides; [lra|]. unfold q. rewrite turn_norm, Ep, O. cbn [fst snd].
    assert (K1 : (x + INR c * h - (x + W / 2)) ^ 2 <= (W / 2) ^ 2) by (apply square_half; unfold W; split; nra).
    assert (K2 : (y + INR r * h - (y + H / 2)) ^ 2 <= (H / 2) ^ 2) by (apply square_half; unfold H; split; nra).
    replace ((s / 2) ^ 2) with (s ^ 2 / 4) by field. rewrite Ss. replace ((W ^ 2 + H ^ 2) / 4) with ((W / 2) ^ 2 + (H / 2) ^ 2) by field. apply Rplus_le_compat; assumption. }
  destruct Q as [Q1 Q2].
  set (gc := turn_grid b o G). set (gc' := turn_grid (- b) o gc).
  assert (P' : forall r c, place gc' r c = (x1 + INR c * (h / 2), y1 + INR r * (h / 2))).
  { intros i j. rewrite <- F. rewrite <- (turn_back b o (place G i j)). assert (E : turn b o (place G i j) = place gc i j) by (unfold gc; cbn; apply surjective_pairing).
    rewrite E. unfold gc'. cbn. symmetry. apply surjective_pairing. }
  pose proof (axis_first (fst o - D / 2) (fst o + D / 2) (h / 2) ltac:(lra)) as A1. pose proof (axis_last (fst o - D / 2) (fst o + D / 2) (h / 2) ltac:(lra) ltac:(lra)) as [N1 L1].
  pose proof (axis_first (snd o - D / 2) (snd o + D / 2) (h / 2) ltac:(lra)) as A2. pose proof (axis_last (snd o - D / 2) (snd o + D / 2) (h / 2) ltac:(lra) ltac:(lra)) as [N2 L2].
  rewrite <- X1 in A1, L1. rewrite <- CX in N1, L1. rewrite <- Y1 in A2, L2. rewrite <- CY in N2, L2.
  apply (sample_node gc' x1 y1 (h / 2)); [exact P' | lra | exact N2 | exact N1 | | | ].
  - change (cols gc') with (cols G). split; lra.
  - change (rows gc') with (rows G). split; lra.
  - intros i j Hi Hj Dx Dy.
    assert (L : left_over a c1 d gc (fun r c => sample g zf (place gc r c)) i j = 1).
    { unfold left_over. destruct (_ || _)%bool; [reflexivity|]. rewrite Shelter_Proofs.total_none; [ring|]. intros k _ Hk. exfalso.
      assert (sample g zf (place gc i k) = 0); [|lra]. pose proof (sample_between g zf (place gc i k) 0 0 ltac:(lia) ltac:(lia)) as B.
      assert (0 <= sample g zf (place gc i k) <= 0); [apply B; [intros r' c' Hr' Hc'; rewrite Zf by assumption; lra | lra] | lra]. }
    rewrite L, Rmult_1_r.
    assert (E : place gc i j = turn b o (place gc' i j)). { rewrite P', <- F. unfold gc, place. cbn [turn_grid gx gy]. rewrite <- surjective_pairing. reflexivity. }
    destruct (turn_near b o (place gc' i j) q (h / 2) Dx Dy) as [T1 T2]. rewrite <- E in T1, T2. unfold q in T1, T2. rewrite turn_forth, Ep in T1, T2. cbn [fst snd] in T1, T2.
    apply abs_both in T1. apply abs_both in T2.
    apply (sample_node g x y h); [exact P | lra | lia | lia | | | ].
    + split; nra.
    + split; nra.
    + intros r' c' Hr' Hc' _ _. apply Us; assumption.
Qed.
Lemma c120_uniform : forall a c1 g x y h udir zf us un v r c, square_cells g x y h -> 1 / 2 <= h <= 200 -> (3 <= rows g)%nat -> (3 <= cols g)%nat ->
  0 < udir < 360 -> udir <> 180 ->
  (forall i j, (i < rows g)%nat -> (j < cols g)%nat -> zf i j = 0) -> (forall i j, (i < rows g)%nat -> (j < cols g)%nat -> us i j = v) ->
  (r < rows g)%nat -> (c < cols g)%nat ->
  fence_shear2d a c1 h udir g zf us un r c = (v * cos (radians udir), - (v * sin (radians udir))).
Proof.
  intros a c1 g x y h u zf us un v r c S Hh Hm Hn Hu Nu Zf Us Hr Hc. unfold fence_shear2d. cbv zeta. rewrite (direction_same u Hu Nu).
  rewrite Rmax_left by lra. destruct (trim_pick (rows g) (cols g) r c) as [r' [c' [T B]]]. destruct (B Hm Hn Hr Hc) as [B1 B2]. rewrite !T, sheltered_amount. cbn [fst snd].
  rewrite (amount_uniform a c1 u g x y h zf us v r' c') by assumption. reflexivity.
Qed.

(** ** The lee of a fence *)
Lemma row_step a o g x y dx dy r i j : (forall r c, place g r c = (x + INR c * dx, y + INR r * dy)) ->
  gx (turn_grid a o g) r j - gx (turn_grid a o g) r i = (INR j - INR i) * dx * cos (radians a).
Proof.
  intros P. cbn. unfold place in P. pose proof (P r i) as Ei. pose proof (P r j) as Ej. injection Ei as Xi Yi. injection Ej as Xj Yj.
  unfold turn, place. cbn [fst snd]. rewrite Xi, Xj, Yi, Yj. ring.
Qed.
Lemma sin_degrees d : (0 < d < 180 -> 0 < sin (radians d)) /\ (180 < d < 360 -> sin (radians d) < 0).
Proof.
  pose proof PI_RGT_0. assert (E : radians d = d / 180 * PI) by (unfold radians; field). rewrite E. split; intros D.
  - apply sin_gt_0; [apply Rmult_lt_0_compat; lra|]. apply Rlt_le_trans with (1 * PI); [apply Rmult_lt_compat_r; lra | lra].
  - apply sin_lt_0; [apply Rle_lt_trans with (1 * PI); [lra | apply Rmult_lt_compat_r; lra]|]. apply Rlt_le_trans with (2 * PI); [apply Rmult_lt_compat_r; lra | lra].
Qed.
Lemma behind_row d o g x y dx dy r i j : (forall r c, place g r c = (x + INR c * dx, y + INR r * dy)) -> 0 < d < 360 -> d <> 180 ->
  Shelter_Model.behind (to_left d) (gx (turn_grid (d + 90) o g) r) i j = (INR j - INR i) * dx * Rabs (sin (radians d)).
Proof.
  intros P D N. unfold Shelter_Model.behind. rewrite (row_step (d + 90) o g x y dx dy r i j P), cos_quarter. destruct (sin_degrees d) as [S1 S2]. unfold to_left.
  destruct (Rle_dec 180 d); [destruct (Rle_dec d 360); [|lra]|].
  - rewrite Rabs_left by (apply S2; lra). ring.
  - rewrite Rabs_right by (apply Rle_ge, Rlt_le, S1; lra). ring.
Qed.
Lemma sin_size d : 0 < d < 360 -> d <> 180 -> 0 < Rabs (sin (radians d)).
Proof. intros D N. apply Rabs_pos_lt. destruct (sin_degrees d) as [S1 S2]. destruct (Rlt_dec d 180); [pose proof (S1 ltac:(lra)) | pose proof (S2 ltac:(lra))]; lra. Qed.
Lemma square_place g x y h : square_cells g x y h -> forall r c, place g r c = (x + INR c * h, y + INR r * h).
Proof. intros S i j. rewrite (S i j). unfold spot. cbn [fst snd]. f_equal; ring. Qed.
Lemma c121_upwind : forall a c1 d o g x y h z r c, square_cells g x y h -> 0 < h -> 0 < d < 360 -> d <> 180 ->
  (forall k, (k < cols g)%nat -> 0 < z r k -> (c < k)%nat) -> left_over a c1 d (turn_grid (d + 90) o g) z r c = 1.
Proof.
  intros a c1 d o g x y h z r c S Hh D N F. unfold left_over. destruct (_ || _)%bool; [reflexivity|]. rewrite Shelter_Proofs.total_none; [ring|].
  intros k Hk Hz. rewrite (behind_row d o g x y h h r k c (square_place g x y h S) D N). pose proof (sin_size d D N) as P. pose proof (F k Hk Hz) as L. apply lt_INR in L.
  assert (0 < (INR k - INR c) * h * Rabs (sin (radians d))) by (repeat apply Rmult_lt_0_compat; lra). lra.
Qed.
Lemma reduction_share a c h d : Shelter_Spec.okin_ok a c -> 0 < h -> 0 <= d < 20 * h -> Rabs (1 - Shelter_Model.reduction a c h d - okin_share a c h d) <= 1 / 100000.
Proof.
  intros O H D. pose proof (Shelter_Proofs.multiple_range a c h d O H) as M. destruct O as [A C]. unfold Shelter_Model.reduction in *.
  assert (E : Shelter_Model.multiple a c h d = okin_share a c h d).
  { unfold Shelter_Model.multiple, okin_share. destruct (Rle_dec 0 d); [|lra].
    assert (d / h < 20) by (apply Rmult_lt_reg_r with h; auto; unfold Rdiv; rewrite Rmult_assoc, Rinv_l; lra). destruct (Rlt_dec (d / h) 20); [|lra].
    replace (- d * c / h) with (- (d * c / h)) by (field; lra). reflexivity. }
  rewrite E in *. destruct (Rlt_dec d 0); [lra|]. destruct (Rlt_dec (1 - okin_share a c h d) (1 / 100000)); destruct (Rlt_dec 1 _); apply Rabs_le; lra.
Qed.
Lemma c121_lee : forall a c1 d o g x y h z r i c, Shelter_Spec.okin_ok a c1 -> square_cells g x y h -> 0 < h -> 0 < d < 360 -> d <> 180 ->
  (0 < r < rows g - 1)%nat -> (0 < c < cols g - 1)%nat -> (i <= c)%nat -> only_fence (cols g) z r i ->
  let s := (INR c - INR i) * h * Rabs (sin (radians d)) in let u := left_over a c1 d (turn_grid (d + 90) o g) z r c in
  (s < 20 * z r i -> Rabs (u - okin_share a c1 (z r i) s) <= 1 / 100000) /\ (20 * z r i <= s -> u = 1).
Proof.
  intros a c1 d o g x y h z r i c O S Hh D N Hr Hc Hi [Hn [Hz F]] s u.
  assert (U : u = 1 - Shelter_Model.reduction a c1 (z r i) s).
  { unfold u, left_over. change (rows (turn_grid _ _ g)) with (rows g). change (cols (turn_grid _ _ g)) with (cols g).
    destruct (Nat.eqb_spec r 0); [lia|]. destruct (Nat.eqb_spec c 0); [lia|]. destruct (Nat.eqb_spec r (rows g - 1)); [lia|]. destruct (Nat.eqb_spec c (cols g - 1)); [lia|]. cbn [orb].
    rewrite (Shelter_Proofs.total_single a c1 (to_left d) (cols g) (gx (turn_grid (d + 90) o g) r) (z r) i c Hn Hz F).
    rewrite (behind_row d o g x y h h r i c (square_place g x y h S) D N). reflexivity. }
  assert (S0 : 0 <= s). { unfold s. apply le_INR in Hi. apply Rmult_le_pos; [apply Rmult_le_pos; lra | apply Rabs_pos]. }
  rewrite U. split; intros Hs.
  - apply reduction_share; auto.
  - rewrite Shelter_Proofs.reduction_ends by auto. ring.
Qed.

(** ** What does not hold *)
Lemma c120_lost : forall a c1 dx udir g zf us un r c, (0 < rows g)%nat -> (0 < cols g)%nat -> (forall i j, (i < rows g)%nat -> (j < cols g)%nat -> us i j = 0) ->
  fence_shear2d a c1 dx udir g zf us un r c = (0, 0).
Proof.
  intros a c1 dx u g zf us un r c Hm Hn H. pose proof (c120_bounded a c1 dx u g zf us un 0 r c Hm Hn) as B. destruct (fence_shear2d a c1 dx u g zf us un r c) as [p q].
  assert (A : at_most 0 (p, q)) by (apply B; intros i j Hi Hj; rewrite H by assumption; lra). unfold at_most in A. cbn [fst snd] in A. f_equal; nra.
Qed.
Lemma unit_cells m n : square_cells (unit_grid m n) 0 0 1.
Proof. intros r c. unfold place, spot, unit_grid. cbn. f_equal; ring. Qed.
Lemma west : cos (radians 270) = 0 /\ sin (radians 270) = -1.
Proof. unfold radians. replace (270 / 180 * PI) with (3 * (PI / 2)) by field. split; [apply cos_3PI2 | apply sin_3PI2]. Qed.
Lemma c120_refuted : exists g a c1 udir zf, (forall r c, zf r c = 0) /\ forall v r c, (r < rows g)%nat -> (c < cols g)%nat ->
  along udir (v, 0) = v /\ fence_shear2d a c1 1 udir g zf (fun _ _ => v) (fun _ _ => 0) r c = (0, v).
Proof.
  exists (unit_grid 3 3), (32 / 100), (48 / 100), 270, (fun _ _ => 0). split; [reflexivity|]. intros v r c Hr Hc. destruct west as [C S]. split.
  - unfold along, blows_to. cbn [fst snd]. rewrite C, S. ring.
  - rewrite (c120_uniform _ _ _ 0 0 1 270 _ _ _ v r c) by (auto using unit_cells; cbn; lra || lia). rewrite C, S. f_equal; ring.
Qed.
Lemma exp_above t : 1 - t <= exp (- t).
Proof. destruct (Req_dec t 0) as [E|E]; [rewrite E, Ropp_0, exp_0; lra|]. pose proof (exp_ineq1 (- t) ltac:(lra)). lra. Qed.
Lemma c121_refuted : forall L, exists d g z i c, 0 < d < 180 /\ square_cells g 0 0 1 /\ only_fence (cols g) z 1 i /\ z 1%nat i = 1 /\ L <= (INR c - INR i) * 1 /\
  left_over (32 / 100) (48 / 100) d (turn_grid (d + 90) (centre g) g) z 1 c <= 7 / 10.
Proof.
  intros L. set (N := S (Z.to_nat (up L))).
  assert (HN : L <= INR N). { unfold N. rewrite S_INR, INR_IZR_INZ. destruct (archimed L) as [U _]. destruct (Z_lt_le_dec 0 (up L)) as [P|P]; [rewrite Z2Nat.id by lia; lra|].
    apply IZR_le in P. pose proof (IZR_le 0 _ (Zle_0_nat (Z.to_nat (up L)))). lra. }
  assert (N1 : 1 <= INR N). { unfold N. rewrite S_INR. pose proof (pos_INR (Z.to_nat (up L))). lra. }
  pose proof PI_RGT_0 as P0. pose proof PI2_1 as P1.
  set (d := 180 / (PI * INR N)).
  assert (D0 : 0 < d) by (unfold d; apply Rdiv_lt_0_compat; [lra | apply Rmult_lt_0_compat; lra]).
  assert (Rd : radians d = / INR N) by (unfold radians, d; field; lra).
  assert (D1 : d < 180). { assert (PN : 1 < PI * INR N) by (apply Rlt_le_trans with (2 * INR N); [lra | apply Rmult_le_compat_r; lra]). assert (180 = d * (PI * INR N)) by (unfold d; field; lra). nra. }
  set (z := fun (_ c : nat) => if Nat.eqb c 1 then 1 else 0).
  exists d, (unit_grid 3 (N + 3)), z, 1%nat, (N + 1)%nat. split; [lra|]. split; [apply unit_cells|].
  assert (F : only_fence (cols (unit_grid 3 (N + 3))) z 1 1). { split; [cbn; lia|]. split; [cbn; lra|]. intros k _ K. unfold z. destruct (Nat.eqb_spec k 1); [contradiction | lra]. }
  split; [exact F|]. split; [reflexivity|]. rewrite plus_INR. simpl (INR 1). split; [lra|].
  assert (C : Shelter_Spec.okin_ok (32 / 100) (48 / 100)) by (split; lra).
  destruct (c121_lee (32 / 100) (48 / 100) d (centre (unit_grid 3 (N + 3))) (unit_grid 3 (N + 3)) 0 0 1 z 1 1 (N + 1) C (unit_cells _ _) ltac:(lra) ltac:(lra) ltac:(lra) ltac:(cbn; lia) ltac:(cbn; lia) ltac:(lia) F) as [A _].
  revert A. rewrite plus_INR. simpl (INR 1). set (s := (INR N + 1 - 1) * 1 * Rabs (sin (radians d))). set (u := left_over _ _ _ _ _ _ _). change (z 1%nat 1%nat) with 1. intros A.
  assert (S1 : 0 <= s <= 1).
  { assert (I0 : 0 < / INR N) by (apply Rinv_0_lt_compat; lra). assert (E : INR N * / INR N = 1) by (apply Rinv_r; lra). destruct (sin_degrees d) as [P _]. specialize (P ltac:(lra)). unfold s. rewrite Rabs_right by lra.
    pose proof (sin_lt_x (radians d) ltac:(rewrite Rd; exact I0)) as X. rewrite Rd in X at 2. split; nra. }
  specialize (A ltac:(lra)). apply abs_both in A. unfold okin_share in A. pose proof (exp_above (s * (48 / 100) / 1)) as X. replace (s * (48 / 100) / 1) with (s * (48 / 100)) in * by field. lra.
Qed.
(** Interpolation within the grid keeps a plane. *)
Lemma c120_plane : forall g x y h z a b k s t, square_cells g x y h -> 0 < h -> (0 < rows g)%nat -> (0 < cols g)%nat ->
  (forall r c, (r < rows g)%nat -> (c < cols g)%nat -> z r c = a + b * gx g r c + k * gy g r c) ->
  0 <= s <= INR (cols g) - 1 -> 0 <= t <= INR (rows g) - 1 ->
  sample g z (x + s * h, y + t * h) = a + b * (x + s * h) + k * (y + t * h).
Proof.
  intros g x y h z a b k s t S Hh Hm Hn Hz Hs Ht.
  assert (P : forall r c, gx g r c = x + INR c * h /\ gy g r c = y + INR r * h).
  { intros r c. pose proof (S r c) as E. unfold place, spot in E. simpl in E. injection E as E1 E2. rewrite E1, E2. split; ring. }
  assert (E : sample g z (x + s * h, y + t * h) = read (rows g) (cols g) 0 z 0 s t).
  { unfold sample, read, locate. cbn [fst snd]. destruct (P 0%nat 0%nat) as [P1 P2]. destruct (P 1%nat 0%nat) as [_ P3]. destruct (P 0%nat 1%nat) as [P4 _].
    rewrite P1, P2, P3, P4. simpl INR.
    replace ((y + t * h - (y + 0 * h)) / (y + 1 * h - (y + 0 * h))) with t by (field; lra).
    replace ((x + s * h - (x + 0 * h)) / (x + 1 * h - (x + 0 * h))) with s by (field; lra).
    destruct (Rlt_dec t _); [reflexivity|]. destruct (Rlt_dec _ t); [reflexivity|]. destruct (Rlt_dec s _); [reflexivity|]. destruct (Rlt_dec _ s); reflexivity. }
  rewrite E, (read_affine _ _ _ z 0 s t (a + b * x + k * y) (b * h) (k * h)); auto; [ring|].
  intros i j Hi Hj. rewrite Hz by assumption. destruct (P i j) as [-> ->]. ring.
Qed.
