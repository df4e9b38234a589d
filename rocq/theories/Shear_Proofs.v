(** Proofs about the computational grid and the interpolation of the two-dimensional wind shear. *)
From Coq Require Import Reals Lra Lia Psatz ZArith.
From Verif Require Import Base Shear_Model Shear_Spec.
Open Scope R_scope.

(** ** Rotation *)
Lemma cs (a : R) : cos a * cos a + sin a * sin a = 1.
Proof. pose proof (sin2_cos2 a) as H. unfold Rsqr in H. lra. Qed.
Lemma radians_neg (a : R) : radians (- a) = - radians a.
Proof. unfold radians. field. Qed.
Lemma turn_back : forall a o v, turn (- a) o (turn a o v) = v.
Proof.
  intros a [ox oy] [x y]. unfold turn. simpl. rewrite radians_neg, cos_neg, sin_neg. pose proof (cs (radians a)) as H.
  set (c := cos (radians a)) in *. set (s := sin (radians a)) in *. f_equal.
  - transitivity ((x - ox) * (c * c + s * s) + ox); [ring | rewrite H; ring].
  - transitivity ((y - oy) * (c * c + s * s) + oy); [ring | rewrite H; ring].
Qed.
Lemma turn_forth : forall a o v, turn a o (turn (- a) o v) = v.
Proof. intros a o v. pose proof (turn_back (- a) o v) as H. rewrite Ropp_involutive in H. exact H. Qed.
Lemma cos_wind (u : R) : cos (radians (270 - u)) = - sin (radians u).
Proof.
  replace (radians (270 - u)) with (PI + (PI / 2 - radians u)) by (unfold radians; field).
  rewrite Rplus_comm, neg_cos, cos_shift. ring.
Qed.
Lemma sin_wind (u : R) : sin (radians (270 - u)) = - cos (radians u).
Proof.
  replace (radians (270 - u)) with (PI + (PI / 2 - radians u)) by (unfold radians; field).
  rewrite Rplus_comm, neg_sin, sin_shift. ring.
Qed.
Lemma turn_along : forall u t, fst (turn (270 - u) (0, 0) t) = along u t.
Proof. intros u [x y]. unfold turn, along, blows_to. simpl. rewrite cos_wind, sin_wind. ring. Qed.
Lemma turn_spots : forall a o p e f s t, turn a o (spot p e f s t) = spot (turn a o p) (turn a (0, 0) e) (turn a (0, 0) f) s t.
Proof. intros a [ox oy] [px py] [ex ey] [fx fy] s t. unfold turn, spot. simpl. f_equal; ring. Qed.

(** ** The mean of a grid with equal cells *)
Lemma total_plus n f g : total n (fun i => f i + g i) = total n f + total n g.
Proof. induction n; simpl; [ring | rewrite IHn; ring]. Qed.
Lemma total_scale n k f : total n (fun i => k * f i) = k * total n f.
Proof. induction n; simpl; [ring | rewrite IHn; ring]. Qed.
Lemma total_const n k : total n (fun _ => k) = INR n * k.
Proof. induction n; simpl total; [simpl; ring | rewrite IHn, S_INR; ring]. Qed.
Lemma total_ext n f g : (forall i, (i < n)%nat -> f i = g i) -> total n f = total n g.
Proof. induction n; intros H; simpl; [reflexivity | rewrite IHn, (H n); auto]. Qed.
Lemma total_index n : total n INR = INR n * (INR n - 1) / 2.
Proof. induction n; simpl total; [simpl; field | rewrite IHn, S_INR; field]. Qed.
Lemma mean_affine g f a k m : (0 < rows g)%nat -> (0 < cols g)%nat -> (forall r c, f r c = a + INR c * k + INR r * m) ->
  mean g f = a + (INR (cols g) - 1) / 2 * k + (INR (rows g) - 1) / 2 * m.
Proof.
  intros Hr Hc H. unfold mean. apply lt_0_INR in Hr, Hc.
  rewrite (total_ext (rows g) _ (fun r => (INR (cols g) * a + INR (cols g) * (INR (cols g) - 1) / 2 * k) + (INR (cols g) * m) * INR r)).
  - rewrite total_plus, total_const, total_scale, total_index. field. lra.
  - intros r _. rewrite (total_ext _ _ (fun c => (a + INR r * m) + k * INR c)) by (intros; rewrite H; ring).
    rewrite total_plus, total_const, total_scale, total_index. field.
Qed.
Lemma centre_equal g o e f : (0 < rows g)%nat -> (0 < cols g)%nat -> equal_cells g o e f ->
  centre g = spot o e f ((INR (cols g) - 1) / 2) ((INR (rows g) - 1) / 2).
Proof.
  intros Hr Hc H. unfold centre, spot. f_equal; apply mean_affine; auto; intros r c; pose proof (H r c) as E; unfold place, spot in E; injection E as E1 E2; lra.
Qed.

(** ** maxDiff *)
Lemma wider_ge a i r j : r <= wider a i r j /\ Rabs (a i - a j) + Rabs (INR i - INR j) <= wider a i r j.
Proof. unfold wider. destruct (Rlt_dec r (Rabs (a i - a j) + Rabs (INR i - INR j))); lra. Qed.
Lemma row_ge a i l : forall r, r <= fold_left (wider a i) l r.
Proof. induction l; intros r; simpl; [lra | eapply Rle_trans; [apply (wider_ge a i r a0) | apply IHl]]. Qed.
Lemma row_in a i l : forall r j, In j l -> Rabs (a i - a j) + Rabs (INR i - INR j) <= fold_left (wider a i) l r.
Proof.
  induction l; intros r j H; [destruct H|]. destruct H as [->|H]; simpl.
  - eapply Rle_trans; [apply (wider_ge a i r j) | apply row_ge].
  - apply IHl; exact H.
Qed.
Lemma all_ge n a l : forall r, r <= fold_left (fun r i => fold_left (wider a i) (seq i (n - i)) r) l r.
Proof. induction l; intros r; simpl; [lra | eapply Rle_trans; [apply row_ge | apply IHl]]. Qed.
Lemma all_in n a l : forall r i j, In i l -> (i <= j < n)%nat ->
  Rabs (a i - a j) + Rabs (INR i - INR j) <= fold_left (fun r i => fold_left (wider a i) (seq i (n - i)) r) l r.
Proof.
  induction l; intros r i j H Hj; [destruct H|]. destruct H as [->|H]; simpl.
  - eapply Rle_trans; [|apply all_ge]. apply row_in. apply in_seq. lia.
  - apply IHl; auto.
Qed.
Lemma maxDiff_ge n a i j : (i < n)%nat -> (j < n)%nat -> Rabs (a i - a j) + Rabs (INR i - INR j) <= maxDiff n a.
Proof.
  intros Hi Hj. unfold maxDiff. destruct (Nat.le_ge_cases i j).
  - apply all_in; [apply in_seq|]; lia.
  - rewrite (Rabs_minus_sym (a i)), (Rabs_minus_sym (INR i)). apply all_in; [apply in_seq|]; lia.
Qed.
Lemma maxDiff_nonneg n a : 0 <= maxDiff n a.
Proof. apply all_ge. Qed.
Lemma row_hit a i l : forall r, fold_left (wider a i) l r = r \/ exists j, In j l /\ fold_left (wider a i) l r = Rabs (a i - a j) + Rabs (INR i - INR j).
Proof.
  induction l as [|k l IH]; intros r; simpl; [now left|]. destruct (IH (wider a i r k)) as [H|[j [H1 H2]]].
  - rewrite H. unfold wider. destruct (Rlt_dec r (Rabs (a i - a k) + Rabs (INR i - INR k))); [right; exists k; auto | now left].
  - right. exists j. auto.
Qed.
Lemma all_hit n a l : (forall i, In i l -> (i < n)%nat) -> forall r, fold_left (fun r i => fold_left (wider a i) (seq i (n - i)) r) l r = r \/
  exists i j, (i < n)%nat /\ (j < n)%nat /\ fold_left (fun r i => fold_left (wider a i) (seq i (n - i)) r) l r = Rabs (a i - a j) + Rabs (INR i - INR j).
Proof.
  induction l as [|k l IH]; intros Hl r; simpl; [now left|].
  destruct (IH (fun i H => Hl i (or_intror H)) (fold_left (wider a k) (seq k (n - k)) r)) as [H|H]; [|now right].
  rewrite H. destruct (row_hit a k (seq k (n - k)) r) as [E|[j [H1 H2]]]; [now left|].
  right. exists k, j. apply in_seq in H1. split; [apply Hl; now left | split; [lia | exact H2]].
Qed.
Lemma maxDiff_hit n a : (0 < n)%nat -> exists i j, (i < n)%nat /\ (j < n)%nat /\ maxDiff n a = Rabs (a i - a j) + Rabs (INR i - INR j).
Proof.
  intros Hn. unfold maxDiff. destruct (all_hit n a (seq 0 n) (fun i H => proj2 (proj1 (in_seq _ _ _) H)) 0) as [H|H]; [|exact H].
  exists 0%nat, 0%nat. repeat split; auto. rewrite H, !Rminus_diag_eq, !Rabs_R0 by reflexivity. ring.
Qed.

(** ** The extent of a grid *)
(** The component of a vector across lines in direction [u]. *)
Definition offset (u : R) (v : R * R) : R := snd v * sin (radians u) - fst v * cos (radians u).
Lemma line_slope u p : sin (radians u) <> 0 -> fst (line u p) = cos (radians u) / sin (radians u).
Proof. intros H. unfold line, fit. simpl. field. split; [exact H | lra]. Qed.
Lemma line_cut u p : sin (radians u) <> 0 -> snd (line u p) = offset u p / sin (radians u).
Proof.
  intros H. unfold line, fit, offset. cbv zeta. cbn [fst snd]. field. split; [exact H | lra].
Qed.
Lemma line_size u p : sin (radians u) <> 0 -> sqrt (fst (line u p) ^ 2 + 1) = / Rabs (sin (radians u)).
Proof.
  intros H. rewrite (line_slope u p H). pose proof (cs (radians u)) as E. pose proof (Rabs_pos_lt _ H) as Hp.
  replace ((cos (radians u) / sin (radians u)) ^ 2 + 1) with (/ Rabs (sin (radians u)) * / Rabs (sin (radians u))).
  - apply sqrt_square. left. apply Rinv_0_lt_compat, Hp.
  - transitivity (1 / (sin (radians u) * sin (radians u))).
    + rewrite <- Rinv_mult. rewrite <- Rabs_mult, (Rabs_pos_eq (_ * _)) by nra. field. exact H.
    + rewrite <- E at 1. field. exact H.
Qed.
Lemma extent_ge g u i j : sin (radians u) <> 0 -> (i < 4)%nat -> (j < 4)%nat ->
  Rabs (offset u (corner g i) - offset u (corner g j)) <= extent g u.
Proof.
  intros H Hi Hj. unfold extent. rewrite (line_size u _ H). pose proof (Rabs_pos_lt _ H) as Hp.
  rewrite (Rabs_pos_eq (maxDiff _ _)) by apply maxDiff_nonneg. unfold Rdiv. rewrite Rinv_inv.
  pose proof (maxDiff_ge 4 (fun i => snd (line u (corner g i))) i j Hi Hj) as M. cbv beta in M. rewrite !line_cut in M by exact H.
  set (s := sin (radians u)) in *. set (d := offset u (corner g i)) in *. set (d' := offset u (corner g j)) in *.
  replace (d - d') with ((d / s - d' / s) * s) by (field; exact H). rewrite Rabs_mult. apply Rmult_le_compat_r; [lra|].
  pose proof (Rabs_pos (INR i - INR j)). lra.
Qed.
Lemma extent_hit g u : sin (radians u) <> 0 -> exists i j, (i < 4)%nat /\ (j < 4)%nat /\
  extent g u = Rabs (offset u (corner g i) - offset u (corner g j)) + Rabs (INR i - INR j) * Rabs (sin (radians u)).
Proof.
  intros H. destruct (maxDiff_hit 4 (fun i => snd (line u (corner g i)))) as [i [j [Hi [Hj M]]]]; [lia|].
  exists i, j. split; [exact Hi | split; [exact Hj|]]. unfold extent. rewrite (line_size u _ H). pose proof (Rabs_pos_lt _ H) as Hp.
  rewrite (Rabs_pos_eq (maxDiff _ _)) by apply maxDiff_nonneg. unfold Rdiv. rewrite Rinv_inv.
  rewrite M. rewrite !line_cut by exact H.
  set (s := sin (radians u)) in *. set (d := offset u (corner g i)) in *. set (d' := offset u (corner g j)) in *.
  replace (d - d') with ((d / s - d' / s) * s) by (field; exact H). rewrite Rabs_mult. ring.
Qed.

(** ** An axis of the computational grid *)
Lemma int_part_unique (r : R) (k : Z) : IZR k <= r < IZR k + 1 -> Int_part r = k.
Proof. intros [H1 H2]. unfold Int_part. rewrite <- (tech_up r (k + 1)); [lia | rewrite plus_IZR; lra | rewrite plus_IZR; lra]. Qed.
Lemma int_part_bounds (r : R) : IZR (Int_part r) <= r < IZR (Int_part r) + 1.
Proof. pose proof (base_Int_part r). lra. Qed.
Lemma int_part_Z (k : Z) : Int_part (IZR k) = k.
Proof. apply int_part_unique. lra. Qed.
Lemma ceil_bounds r : r <= rceil r < r + 1.
Proof. unfold rceil, rfloor. pose proof (int_part_bounds (- r)). lra. Qed.
Lemma floor_bounds r : r - 1 < rfloor r <= r.
Proof. unfold rfloor. pose proof (int_part_bounds r). lra. Qed.
Lemma axis_count lo hi d : 0 < d -> snd (axis lo hi d) = Z.to_nat (- Int_part (- (hi / d)) - Int_part (lo / d)).
Proof.
  intros H. unfold axis, arange_count, rceil, rfloor. simpl. f_equal.
  replace (- ((- IZR (Int_part (- (hi / d))) * d - IZR (Int_part (lo / d)) * d) / d)) with (IZR (Int_part (- (hi / d)) + Int_part (lo / d))).
  - rewrite int_part_Z. lia.
  - rewrite plus_IZR. field. lra.
Qed.
Lemma axis_first lo hi d : 0 < d -> lo - d < fst (axis lo hi d) <= lo.
Proof.
  intros H. unfold axis. simpl. pose proof (floor_bounds (lo / d)) as [H1 H2].
  assert (E : lo = lo / d * d) by (field; lra). split; [rewrite E at 1; nra | rewrite E at 2; nra].
Qed.
Lemma axis_last lo hi d : 0 < d -> lo < hi -> (0 < snd (axis lo hi d))%nat /\
  hi - d <= fst (axis lo hi d) + (INR (snd (axis lo hi d)) - 1) * d < hi.
Proof.
  intros H Hlh. rewrite axis_count by exact H. pose proof (ceil_bounds (hi / d)) as [H1 H2]. pose proof (floor_bounds (lo / d)) as [H3 H4].
  assert (E : hi = hi / d * d) by (field; lra). assert (E' : lo = lo / d * d) by (field; lra).
  unfold axis. simpl fst. unfold rceil, rfloor in *.
  set (k := Int_part (- (hi / d))) in *. set (m := Int_part (lo / d)) in *. assert (Hlt : lo / d < hi / d) by nra.
  assert (Hp : (0 < - k - m)%Z). { apply lt_IZR. rewrite minus_IZR, opp_IZR. lra. }
  split; [lia|]. rewrite INR_IZR_INZ, Z2Nat.id by lia. rewrite minus_IZR, opp_IZR. set (q := hi / d) in *. nra.
Qed.
Lemma axis_covers lo hi d v : 0 < d -> 2 * d < hi - lo -> lo <= v <= hi - d -> exists c t, (S c < snd (axis lo hi d))%nat /\ 0 <= t <= 1 /\ v = fst (axis lo hi d) + (INR c + t) * d.
Proof.
  intros H Hw Hv. pose proof (axis_first lo hi d H) as F. pose proof (axis_last lo hi d H ltac:(lra)) as [N L].
  set (a := fst (axis lo hi d)) in *. set (n := snd (axis lo hi d)) in *.
  assert (Hn : (2 <= n)%nat). { apply INR_le. simpl. nra. }
  set (q := (v - a) / d). assert (Eq : v = a + q * d) by (unfold q; field; lra).
  assert (Q0 : 0 <= q). { apply (Rmult_le_reg_r d); [exact H|]. unfold q. rewrite Rmult_0_l. replace ((v - a) / d * d) with (v - a) by (field; lra). lra. }
  assert (Q1 : q <= INR n - 1) by nra.
  pose proof (int_part_bounds q) as [I1 I2]. set (k := Int_part q) in *.
  assert (K0 : (0 <= k)%Z). { apply Z.lt_succ_r. apply lt_IZR. rewrite succ_IZR. lra. }
  assert (Kk : INR (Z.to_nat k) = IZR k) by (rewrite INR_IZR_INZ, Z2Nat.id by lia; reflexivity).
  destruct (Nat.lt_ge_cases (S (Z.to_nat k)) n) as [C|C].
  - exists (Z.to_nat k), (q - IZR k). split; [exact C | split; [lra|]]. rewrite Kk. rewrite Eq at 1. ring.
  - exists (n - 2)%nat, 1. split; [lia | split; [lra|]]. rewrite minus_INR by lia. simpl.
    apply le_INR in C. rewrite S_INR, Kk in C. rewrite Eq. replace q with (INR n - 1) by lra. ring.
Qed.

(** ** The computational grid covers the input grid *)
Lemma offset_linear u o e f s t s' t' : offset u (spot o e f s t) - offset u (spot o e f s' t') = (s - s') * offset u e + (t - t') * offset u f.
Proof. unfold offset, spot. simpl. ring. Qed.
Definition diag (g : grid) (e f : R * R) (sign : R) : R * R :=
  ((INR (cols g) - 1) * fst e + sign * (INR (rows g) - 1) * fst f, (INR (cols g) - 1) * snd e + sign * (INR (rows g) - 1) * snd f).
Lemma corners g o e f u : (0 < rows g)%nat -> (0 < cols g)%nat -> equal_cells g o e f ->
  offset u (corner g 3) - offset u (corner g 0) = offset u (diag g e f 1) /\ offset u (corner g 2) - offset u (corner g 1) = offset u (diag g e f (- 1)).
Proof.
  intros Hr Hc H. unfold corner. rewrite !H, !offset_linear. rewrite !minus_INR by lia. simpl INR. unfold offset, diag. simpl. split; ring.
Qed.
Lemma offset_inside g o e f u w d r c : (0 < rows g)%nat -> (0 < cols g)%nat -> equal_cells g o e f -> sin (radians w) <> 0 ->
  (forall s, s = 1 \/ s = - 1 -> Rabs (offset u (diag g e f s)) <= Rabs (offset w (diag g e f s)) + d) ->
  (r < rows g)%nat -> (c < cols g)%nat -> Rabs (offset u (place g r c) - offset u (centre g)) <= (extent g w + d) / 2.
Proof.
  intros Hr Hc H Hs Hd Lr Lc. rewrite (centre_equal g o e f Hr Hc H), H, offset_linear.
  pose proof (corners g o e f w Hr Hc H) as [C1 C2].
  pose proof (extent_ge g w 3 0 Hs ltac:(lia) ltac:(lia)) as E1. rewrite C1 in E1.
  pose proof (extent_ge g w 2 1 Hs ltac:(lia) ltac:(lia)) as E2. rewrite C2 in E2.
  pose proof (Hd 1 (or_introl eq_refl)) as D1. pose proof (Hd (- 1) (or_intror eq_refl)) as D2.
  assert (F1 : offset u (diag g e f 1) = (INR (cols g) - 1) * offset u e + (INR (rows g) - 1) * offset u f) by (unfold offset, diag; simpl; ring).
  assert (F2 : offset u (diag g e f (- 1)) = (INR (cols g) - 1) * offset u e - (INR (rows g) - 1) * offset u f) by (unfold offset, diag; simpl; ring).
  rewrite F1 in D1. rewrite F2 in D2.
  apply le_INR in Lr, Lc. rewrite S_INR in Lr, Lc. pose proof (pos_INR r). pose proof (pos_INR c).
  set (x := offset u e) in *. set (y := offset u f) in *.
  assert (A1 : Rabs ((INR (cols g) - 1) * x + (INR (rows g) - 1) * y) <= extent g w + d) by lra.
  assert (A2 : Rabs ((INR (cols g) - 1) * x - (INR (rows g) - 1) * y) <= extent g w + d) by lra.
  clear - A1 A2 Lr Lc H0 H1. apply Rabs_le.
  assert (B1 := A1). assert (B2 := A2). 
  assert (P : forall a b, Rabs a <= b -> - b <= a <= b) by (intros a b Q; unfold Rabs in Q; destruct (Rcase_abs a); lra).
  apply P in A1, A2.
  assert (X : forall a b n, 0 <= a -> a <= n -> b = a - n / 2 -> - (n * Rabs x) / 2 <= b * x <= n * Rabs x / 2).
  { intros a b n Q1 Q2 ->. unfold Rabs. destruct (Rcase_abs x); nra. }
  assert (Y : forall a b n, 0 <= a -> a <= n -> b = a - n / 2 -> - (n * Rabs y) / 2 <= b * y <= n * Rabs y / 2).
  { intros a b n Q1 Q2 ->. unfold Rabs. destruct (Rcase_abs y); nra. }
  specialize (X (INR c) (INR c - (INR (cols g) - 1) / 2) (INR (cols g) - 1) H1 ltac:(lra) ltac:(lra)).
  specialize (Y (INR r) (INR r - (INR (rows g) - 1) / 2) (INR (rows g) - 1) H0 ltac:(lra) ltac:(lra)).
  unfold Rabs in X, Y. destruct (Rcase_abs x), (Rcase_abs y); lra.
Qed.
Lemma cos_left (u : R) : cos (radians (u - 90)) = sin (radians u).
Proof. replace (radians (u - 90)) with (radians u - PI / 2) by (unfold radians; field). rewrite <- cos_neg. replace (- (radians u - PI / 2)) with (PI / 2 - radians u) by ring. apply cos_shift. Qed.
Lemma sin_left (u : R) : sin (radians (u - 90)) = - cos (radians u).
Proof. replace (radians (u - 90)) with (- (PI / 2 - radians u)) by (unfold radians; field). rewrite sin_neg, sin_shift. ring. Qed.
Lemma wind_frame u o p : turn (270 - u) o p = (fst o + (offset (u - 90) p - offset (u - 90) o), snd o - (offset u p - offset u o)).
Proof. unfold turn, offset. rewrite cos_wind, sin_wind, cos_left, sin_left. f_equal; simpl; ring. Qed.
Lemma turn_spot_grid a o g x1 y1 dx dy : (forall r c, place g r c = (x1 + INR c * dx, y1 + INR r * dy)) ->
  forall r c, place (turn_grid a o g) r c = turn a o (x1 + INR c * dx, y1 + INR r * dy).
Proof. intros H r c. rewrite <- H. unfold place at 1. simpl. symmetry. apply surjective_pairing. Qed.
Lemma within_box a o x1 y1 dx dy g p : (forall r c, place g r c = (x1 + INR c * dx, y1 + INR r * dy)) ->
  (exists c s, (S c < cols g)%nat /\ 0 <= s <= 1 /\ fst (turn a o p) = x1 + (INR c + s) * dx) ->
  (exists r t, (S r < rows g)%nat /\ 0 <= t <= 1 /\ snd (turn a o p) = y1 + (INR r + t) * dy) ->
  within (turn_grid (- a) o g) p.
Proof.
  intros H [c [s [Hc [Hs Ex]]]] [r [t [Hr [Ht Ey]]]]. exists r, c, s, t. split; [exact Hr | split; [exact Hc | split; [exact Hs | split; [exact Ht|]]]].
  rewrite !(turn_spot_grid (- a) o g x1 y1 dx dy H). rewrite <- (turn_back a o p) at 1.
  rewrite (surjective_pairing (turn a o p)), Ex, Ey. rewrite !S_INR. unfold turn, spot. simpl. f_equal; ring.
Qed.
Lemma covers_general g o e f u w w' d d' b dx dy r c : (0 < rows g)%nat -> (0 < cols g)%nat -> equal_cells g o e f ->
  w = line_dir u -> w' = w - 90 -> sin (radians w) <> 0 -> sin (radians w') <> 0 ->
  (forall s, s = 1 \/ s = - 1 -> Rabs (offset u (diag g e f s)) <= Rabs (offset w (diag g e f s)) + d) ->
  (forall s, s = 1 \/ s = - 1 -> Rabs (offset (u - 90) (diag g e f s)) <= Rabs (offset w' (diag g e f s)) + d') ->
  0 < dx -> 0 < dy -> 0 <= d -> 0 <= d' -> dx + d' / 2 <= b -> dy + d / 2 <= b -> 0 < extent g w -> 0 < extent g w' ->
  (r < rows g)%nat -> (c < cols g)%nat ->
  within (turn_grid (- (270 - u)) (centre g) (computational b dx dy g u)) (place g r c).
Proof.
  intros Hr Hc H Ew Ew' Sw Sw' Dw Dw' Hx Hy Hd Hd' Hb Hb' He He' Lr Lc.
  pose proof (offset_inside g o e f u w d r c Hr Hc H Sw Dw Lr Lc) as IY.
  pose proof (offset_inside g o e f (u - 90) w' d' r c Hr Hc H Sw' Dw' Lr Lc) as IX.
  assert (P : forall a b, Rabs a <= b -> - b <= a <= b) by (intros a q Q; unfold Rabs in Q; destruct (Rcase_abs a); lra).
  apply P in IX, IY. unfold computational. unfold span, width. rewrite <- Ew, <- Ew'.
  set (x0 := fst (centre g)) in *. set (y0 := snd (centre g)) in *. unfold exact_grid.
  destruct (axis (x0 - (extent g w' + b * 2) / 2) (x0 + (extent g w' + b * 2) / 2) dx) as [x1 nx] eqn:Ax.
  destruct (axis (y0 - (extent g w + b * 2) / 2) (y0 + (extent g w + b * 2) / 2) dy) as [y1 ny] eqn:Ay.
  apply (within_box _ _ x1 y1 dx dy); [reflexivity| |].
  - cbn [cols]. rewrite wind_frame. cbn [fst]. fold x0.
    pose proof (axis_covers (x0 - (extent g w' + b * 2) / 2) (x0 + (extent g w' + b * 2) / 2) dx (x0 + (offset (u - 90) (place g r c) - offset (u - 90) (centre g)))) as C.
    rewrite Ax in C. apply C; lra.
  - cbn [rows]. rewrite wind_frame. cbn [snd]. fold y0.
    pose proof (axis_covers (y0 - (extent g w + b * 2) / 2) (y0 + (extent g w + b * 2) / 2) dy (y0 - (offset u (place g r c) - offset u (centre g)))) as C.
    rewrite Ay in C. apply C; lra.
Qed.

Lemma extent_pos g u : sin (radians u) <> 0 -> 0 < extent g u.
Proof.
  intros H. unfold extent. rewrite (line_size u _ H). pose proof (Rabs_pos_lt _ H) as Hp. unfold Rdiv. rewrite Rinv_inv.
  apply Rmult_lt_0_compat; [|exact Hp]. rewrite Rabs_pos_eq by apply maxDiff_nonneg.
  pose proof (maxDiff_ge 4 (fun i => snd (line u (corner g i))) 3 0 ltac:(lia) ltac:(lia)) as M.
  pose proof (Rabs_pos ((fun i => snd (line u (corner g i))) 3%nat - (fun i => snd (line u (corner g i))) 0%nat)).
  replace (Rabs (INR 3 - INR 0)) with 3 in M by (simpl; rewrite Rabs_pos_eq; lra). cbv beta in *. lra.
Qed.
Lemma sin_zero u : sin (radians u) = 0 -> exists k, u = 90 * IZR k.
Proof.
  intros H. apply sin_eq_0_0 in H as [k H]. exists (2 * k)%Z. rewrite mult_IZR. pose proof PI_RGT_0. unfold radians in H.
  apply (Rmult_eq_reg_r (PI / 180)); [|lra]. transitivity (u / 180 * PI); [field | rewrite H; field].
Qed.
Lemma cos_zero u : cos (radians u) = 0 -> exists k, u = 90 * IZR k.
Proof.
  intros H. apply cos_eq_0_0 in H as [k H]. exists (2 * k + 1)%Z. rewrite plus_IZR, mult_IZR. pose proof PI_RGT_0. unfold radians in H.
  apply (Rmult_eq_reg_r (PI / 180)); [|lra]. transitivity (u / 180 * PI); [field | rewrite H; field].
Qed.
Lemma off_axis u : (forall k, u <> 90 * IZR k) -> sin (radians u) <> 0 /\ sin (radians (u - 90)) <> 0.
Proof.
  intros H. split; [intros E; apply sin_zero in E as [k E]; exact (H k E)|].
  rewrite sin_left. intros E. apply Ropp_eq_0_compat in E. rewrite Ropp_involutive in E. apply cos_zero in E as [k E]. exact (H k E).
Qed.
Lemma oblique_not_vertical u : oblique u -> vertical u = false.
Proof.
  intros H. unfold vertical. apply not_true_is_false. intros E. apply existsb_exists in E as [v [Hv E]].
  unfold verticals in Hv. apply in_map_iff in Hv as [i [Hi _]]. unfold leb in E. destruct (Rle_dec (Rabs (u - IZR v)) (1 / 1000)) as [L|]; [|discriminate].
  pose proof (H (-12 + Z.of_nat i)%Z) as O. replace (90 * IZR (-12 + Z.of_nat i)) with (IZR v) in O; [lra|].
  rewrite <- Hi, <- mult_IZR. f_equal. lia.
Qed.
Lemma oblique_off u : oblique u -> forall k, u <> 90 * IZR k.
Proof. intros H k E. pose proof (H k) as O. rewrite E, Rminus_diag_eq, Rabs_R0 in O by reflexivity. lra. Qed.
Lemma c113_covers : forall g o e f b dx dy udir r c, (0 < rows g)%nat -> (0 < cols g)%nat -> equal_cells g o e f -> oblique udir ->
  0 < dx <= b -> 0 < dy <= b -> (r < rows g)%nat -> (c < cols g)%nat ->
  within (turn_grid (- (270 - udir)) (centre g) (computational b dx dy g udir)) (place g r c).
Proof.
  intros g o e f b dx dy u r c Hr Hc H Ho Hx Hy Lr Lc.
  pose proof (off_axis u (oblique_off u Ho)) as [S1 S2].
  assert (E : line_dir u = u) by (unfold line_dir; rewrite (oblique_not_vertical u Ho); reflexivity).
  eapply (covers_general g o e f u u (u - 90) 0 0); eauto; try lra; try (apply extent_pos; assumption); intros; lra.
Qed.

(** Directions along an axis: the lines are turned by a tenth of a degree. *)
Lemma sin_close a b : Rabs (sin a - sin b) <= Rabs (a - b).
Proof.
  replace (sin a - sin b) with (2 * cos ((a + b) / 2) * sin ((a - b) / 2)).
  - rewrite !Rabs_mult. rewrite (Rabs_pos_eq 2) by lra. pose proof (COS_bound ((a + b) / 2)).
    assert (Rabs (cos ((a + b) / 2)) <= 1) by (apply Rabs_le; lra).
    assert (Q : Rabs (sin ((a - b) / 2)) <= Rabs (a - b) / 2).
    { assert (G : forall t, 0 <= t -> Rabs (sin t) <= t).
      { intros t Ht. destruct (Rle_lt_dec t 1) as [L|L].
        - rewrite Rabs_pos_eq; [|apply sin_ge_0; [lra | pose proof PI2_1; lra]]. destruct (Req_dec t 0) as [->|N]; [rewrite sin_0; lra|].
          left. apply sin_lt_x. lra.
        - pose proof (SIN_bound t). apply Rabs_le. lra. }
      unfold Rabs at 2. destruct (Rcase_abs (a - b)).
      - replace ((a - b) / 2) with (- ((b - a) / 2)) by lra. rewrite sin_neg, Rabs_Ropp. specialize (G ((b - a) / 2)). lra.
      - apply (Rle_trans _ ((a - b) / 2)); [apply G|]; lra. }
    pose proof (Rabs_pos (cos ((a + b) / 2))). pose proof (Rabs_pos (sin ((a - b) / 2))). nra.
  - assert (E1 : sin a = sin ((a + b) / 2 + (a - b) / 2)) by (f_equal; field).
    assert (E2 : sin b = sin ((a + b) / 2 - (a - b) / 2)) by (f_equal; field).
    rewrite E1, E2, sin_plus, sin_minus. ring.
Qed.
Lemma cos_close a b : Rabs (cos a - cos b) <= Rabs (a - b).
Proof. rewrite <- !sin_shift. eapply Rle_trans; [apply sin_close|]. right. rewrite Rabs_minus_sym. f_equal. ring. Qed.
Lemma offset_close u w v : Rabs (radians u - radians w) <= 1 / 400 -> Rabs (offset u v) <= Rabs (offset w v) + (Rabs (fst v) + Rabs (snd v)) / 400.
Proof.
  intros H. pose proof (sin_close (radians u) (radians w)) as S. pose proof (cos_close (radians u) (radians w)) as C.
  replace (offset u v) with (offset w v + (snd v * (sin (radians u) - sin (radians w)) - fst v * (cos (radians u) - cos (radians w)))) by (unfold offset; ring).
  eapply Rle_trans; [apply Rabs_triang|]. apply Rplus_le_compat_l. unfold Rminus at 1. eapply Rle_trans; [apply Rabs_triang|].
  rewrite Rabs_Ropp, !Rabs_mult. pose proof (Rabs_pos (fst v)). pose proof (Rabs_pos (snd v)). nra.
Qed.
Lemma straight_vertical u : straight u -> vertical u = true.
Proof.
  intros [k [Hk H]]. unfold vertical. apply existsb_exists. exists (90 * k)%Z. split.
  - unfold verticals. apply in_map_iff. exists (Z.to_nat (k + 12)). split; [lia | apply in_seq; lia].
  - unfold leb. rewrite mult_IZR. destruct (Rle_dec (Rabs (u - 90 * IZR k)) (1 / 1000)); [reflexivity | contradiction].
Qed.
Lemma straight_off u : straight u -> forall k, u - 1 / 10 <> 90 * IZR k.
Proof.
  intros [j [_ H]] k E. assert (B : - (1 / 1000) <= u - 90 * IZR j <= 1 / 1000) by (unfold Rabs in H; destruct (Rcase_abs (u - 90 * IZR j)); lra).
  assert (G : 0 < 90 * (IZR j - IZR k) < 90 \/ False) by (left; lra). destruct G as [G|[]].
  assert (0 < j - k)%Z by (apply lt_IZR; rewrite minus_IZR; lra). assert (j - k < 1)%Z by (apply lt_IZR; rewrite minus_IZR; lra). lia.
Qed.
Lemma pi_small : PI <= 4.
Proof. exact PI_4. Qed.
Lemma c113_straight : forall g o e f b dx dy udir size r c, (0 < rows g)%nat -> (0 < cols g)%nat -> equal_cells g o e f -> straight udir ->
  (INR (cols g) - 1) * (Rabs (fst e) + Rabs (snd e)) + (INR (rows g) - 1) * (Rabs (fst f) + Rabs (snd f)) <= size ->
  0 < dx -> 0 < dy -> dx + size / 800 <= b -> dy + size / 800 <= b -> (r < rows g)%nat -> (c < cols g)%nat ->
  within (turn_grid (- (270 - udir)) (centre g) (computational b dx dy g udir)) (place g r c).
Proof.
  intros g o e f b dx dy u size r c Hr Hc H Ho Hz Hx Hy Bx By Lr Lc.
  pose proof (off_axis (u - 1 / 10) (straight_off u Ho)) as [S1 S2].
  assert (E : line_dir u = u - 1 / 10) by (unfold line_dir; rewrite (straight_vertical u Ho); reflexivity).
  assert (Hd : forall s, s = 1 \/ s = - 1 -> Rabs (fst (diag g e f s)) + Rabs (snd (diag g e f s)) <= size).
  { intros s Hs. assert (As : Rabs s = 1) by (unfold Rabs; destruct Hs as [-> | ->], (Rcase_abs _); lra).
    apply le_INR in Hr, Hc. simpl in Hr, Hc. unfold diag. simpl.
    assert (T : forall p q, Rabs ((INR (cols g) - 1) * p + s * (INR (rows g) - 1) * q) <= (INR (cols g) - 1) * Rabs p + (INR (rows g) - 1) * Rabs q).
    { intros p q. eapply Rle_trans; [apply Rabs_triang|]. rewrite !Rabs_mult, As, (Rabs_pos_eq (INR (cols g) - 1)), (Rabs_pos_eq (INR (rows g) - 1)) by lra. lra. }
    pose proof (T (fst e) (fst f)). pose proof (T (snd e) (snd f)). lra. }
  assert (Z : 0 <= size). { specialize (Hd 1 (or_introl eq_refl)). pose proof (Rabs_pos (fst (diag g e f 1))). pose proof (Rabs_pos (snd (diag g e f 1))). lra. }
  assert (N : forall v, Rabs (radians v - radians (v - 1 / 10)) <= 1 / 400).
  { intros v. replace (radians v - radians (v - 1 / 10)) with (PI / 1800) by (unfold radians; field). pose proof PI_RGT_0. pose proof pi_small. rewrite Rabs_pos_eq; lra. }
  eapply (covers_general g o e f u (u - 1 / 10) (u - 1 / 10 - 90) (size / 400) (size / 400)); eauto; try lra; try (apply extent_pos; assumption).
  - intros s Hs. eapply Rle_trans; [apply (offset_close u (u - 1 / 10)), N|]. specialize (Hd s Hs). lra.
  - intros s Hs. eapply Rle_trans; [apply (offset_close (u - 90) (u - 1 / 10 - 90))|].
    + replace (u - 1 / 10 - 90) with (u - 90 - 1 / 10) by ring. apply N.
    + specialize (Hd s Hs). lra.
Qed.
