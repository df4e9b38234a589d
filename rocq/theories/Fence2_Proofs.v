(** Proofs about sand fences in two dimensions. *)
From Coq Require Import Reals Lra Lia Psatz ZArith.
From Verif Require Import Base Shear_Model Shear_Spec Shear_Proofs Shear_Interp Shear_Fourier Fence2_Model Fence2_Spec.
From Verif Require Shelter_Model Shelter_Spec Shelter_Proofs.
Open Scope R_scope.

(** ** Direction *)
Lemma turns a k : radians (a - IZR k * 360) = radians a + 2 * PI * IZR (- k).
Proof. unfold radians. rewrite opp_IZR. field. Qed.
Lemma along_turns u k v : along (u - IZR k * 360) v = along u v.
Proof.
  unfold along, blows_to. rewrite turns. pose proof (cis_turns (- k) (radians u)) as E. unfold cis in E. injection E as E1 E2. rewrite E1, E2. reflexivity.
Qed.
Lemma direction_range u : 0 < direction u < 360 /\ direction u <> 180.
Proof.
  unfold direction. set (v := if Rlt_dec u 0 then u + 360 else u). cbv zeta. pose proof (floor_bounds (v / 360)) as F. set (k := rfloor (v / 360)) in *.
  assert (E : v = v / 360 * 360) by field. set (q := v / 360) in *. destruct (Req_EM_T (v - k * 360) 0); [lra|]. destruct (Req_EM_T (v - k * 360) 180); lra.
Qed.
Lemma direction_along u : exists e, 0 <= e <= 1 / 100000 /\ forall v, along (direction u) v = along (u + e) v.
Proof.
  unfold direction. set (v := if Rlt_dec u 0 then u + 360 else u). cbv zeta. unfold rfloor. set (k := Int_part (v / 360)).
  assert (V : exists j, v = u - IZR j * 360). { unfold v. destruct (Rlt_dec u 0); [exists (- 1)%Z | exists 0%Z]; simpl; ring. }
  destruct V as [j V].
  destruct (Req_EM_T (v - IZR k * 360) 0) as [_|_]; [|destruct (Req_EM_T (v - IZR k * 360) 180) as [_|_]].
  - exists (1 / 100000). split; [lra|]. intros t. rewrite <- (along_turns (u + 1 / 100000) (j + k)). f_equal. rewrite V, plus_IZR. ring.
  - exists (1 / 100000). split; [lra|]. intros t. rewrite <- (along_turns (u + 1 / 100000) (j + k)). f_equal. rewrite V, plus_IZR. ring.
  - exists 0. split; [lra|]. intros t. rewrite <- (along_turns (u + 0) (j + k)). f_equal. rewrite V, plus_IZR. ring.
Qed.
Lemma sin_quarter d : sin (radians (d + 90)) = cos (radians d).
Proof. replace (radians (d + 90)) with (PI / 2 + radians d) by (unfold radians; field). symmetry. rewrite cos_sin. reflexivity. Qed.
Lemma cos_quarter d : cos (radians (d + 90)) = - sin (radians d).
Proof. replace (radians (d + 90)) with (PI / 2 + radians d) by (unfold radians; field). rewrite sin_cos. ring. Qed.

(** ** Interpolation *)
Lemma sample_between g z p lo hi : (0 < rows g)%nat -> (0 < cols g)%nat -> between (rows g) (cols g) z lo hi -> lo <= 0 <= hi -> lo <= sample g z p <= hi.
Proof.
  intros Hm Hn B Z. unfold sample. destruct (locate _ _ (rows g) _ _) as [[i s]|] eqn:E1; [|exact Z]. destruct (locate _ _ (cols g) _ _) as [[j t]|] eqn:E2; [|exact Z].
  apply bilinear_between; auto; eapply locate_part; eassumption.
Qed.
Lemma sample_zero g z p : (forall r c, z r c = 0) -> sample g z p = 0.
Proof.
  intros H. unfold sample. destruct (locate _ _ (rows g) _ _) as [[i s]|]; [|reflexivity]. destruct (locate _ _ (cols g) _ _) as [[j t]|]; [|reflexivity].
  unfold bilinear. rewrite !H. ring.
Qed.
Lemma sample_bounded g z p lo hi : (forall r c, lo <= z r c <= hi) -> lo <= 0 <= hi -> lo <= sample g z p <= hi.
Proof.
  intros B Z. unfold sample. destruct (locate _ _ (rows g) _ _) as [[i s]|] eqn:E1; [|exact Z]. destruct (locate _ _ (cols g) _ _) as [[j t]|] eqn:E2; [|exact Z].
  apply locate_part in E1, E2. unfold bilinear.
  pose proof (B (edge (rows g) i) (edge (cols g) j)). pose proof (B (edge (rows g) i) (edge (cols g) (j + 1))).
  pose proof (B (edge (rows g) (i + 1)) (edge (cols g) j)). pose proof (B (edge (rows g) (i + 1)) (edge (cols g) (j + 1))).
  assert (M : forall a b x, lo <= a <= hi -> lo <= b <= hi -> 0 <= x <= 1 -> lo <= (1 - x) * a + x * b <= hi) by (intros; nra).
  apply M; auto.
Qed.
Lemma left_over_range a c1 d gc zc r c : 0 <= left_over a c1 d gc zc r c <= 1.
Proof. unfold left_over. destruct (_ || _)%bool; [lra|]. pose proof (Shelter_Proofs.total_range a c1 (to_left d) (cols gc) (gx gc r) (zc r) c). lra. Qed.
(** Turned and turned back, the components are swapped. *)
Lemma back_swapped a v : turn (- a) (0, 0) (turn a (0, 0) (v, 0)) = (v, 0).
Proof. apply turn_back. Qed.
Lemma sample_ext g z1 z2 p : (forall r c, z1 r c = z2 r c) -> sample g z1 p = sample g z2 p.
Proof.
  intros H. unfold sample. destruct (locate _ _ (rows g) _ _) as [[i s]|]; [|reflexivity]. destruct (locate _ _ (cols g) _ _) as [[j t]|]; [|reflexivity].
  unfold bilinear. rewrite !H. reflexivity.
Qed.
(** The result has the direction of the y-axis of the turned grid. *)
Definition amount a c1 d dx dy g zf us r c : R :=
  let o := centre g in
  let gc := turn_grid (d + 90) o (fence_grid g dx dy) in
  sample (turn_grid (- (d + 90)) o gc) (fun r c => sample g us (place gc r c) * left_over a c1 d gc (fun r c => sample g zf (place gc r c)) r c) (turn (- (d + 90)) o (place g r c)).
Lemma sheltered_amount a c1 d dx dy g zf us r c : let w := amount a c1 d dx dy g zf us r c in
  sheltered a c1 d dx dy g zf us r c = (w * cos (radians d), - (w * sin (radians d))).
Proof.
  unfold sheltered, amount. cbv zeta. set (o := centre g). set (gc := turn_grid (d + 90) o (fence_grid g dx dy)). set (gc' := turn_grid (- (d + 90)) o gc). set (q := turn (- (d + 90)) o (place g r c)).
  rewrite (sample_zero gc' (fun r c => snd _)) by (intros i j; rewrite back_swapped; reflexivity).
  rewrite (sample_ext gc' (fun r c => fst _) (fun r c => sample g us (place gc r c) * left_over a c1 d gc (fun r c => sample g zf (place gc r c)) r c)) by (intros i j; rewrite back_swapped; reflexivity).
  set (w := sample gc' _ q). unfold turn. cbn [fst snd]. rewrite sin_quarter, cos_quarter. f_equal; ring.
Qed.
Lemma amount_range a c1 d dx dy g zf us r c U : (0 < rows g)%nat -> (0 < cols g)%nat -> between (rows g) (cols g) us (- U) U -> 0 <= U -> - U <= amount a c1 d dx dy g zf us r c <= U.
Proof.
  intros Hm Hn B HU. unfold amount. cbv zeta. apply sample_bounded; [|lra]. intros i j. set (gc := turn_grid _ _ _).
  pose proof (sample_between g us (place gc i j) (- U) U Hm Hn B ltac:(lra)). pose proof (left_over_range a c1 d gc (fun r c => sample g zf (place gc r c)) i j). nra.
Qed.
Lemma trim_pick m n r c : exists r' c', (forall f, trim m n f r c = f r' c') /\ ((3 <= m)%nat -> (3 <= n)%nat -> (r < m)%nat -> (c < n)%nat -> (1 <= r' <= m - 2)%nat /\ (1 <= c' <= n - 2)%nat).
Proof.
  unfold trim. cbv zeta. destruct (Nat.eqb_spec c (n - 1)) as [E|E].
  - destruct (Nat.eqb_spec r (m - 1)) as [F|F].
    + destruct (Nat.eqb_spec (n - 2) 0) as [G|G]; destruct (Nat.eqb_spec (m - 2) 0) as [H|H]; eexists; eexists; (split; [intros f; reflexivity | lia]).
    + destruct (Nat.eqb_spec (n - 2) 0) as [G|G]; destruct (Nat.eqb_spec r 0) as [H|H]; eexists; eexists; (split; [intros f; reflexivity | lia]).
  - destruct (Nat.eqb_spec r (m - 1)) as [F|F].
    + destruct (Nat.eqb_spec c 0) as [G|G]; destruct (Nat.eqb_spec (m - 2) 0) as [H|H]; eexists; eexists; (split; [intros f; reflexivity | lia]).
    + destruct (Nat.eqb_spec c 0) as [G|G]; destruct (Nat.eqb_spec r 0) as [H|H]; eexists; eexists; (split; [intros f; reflexivity | lia]).
Qed.
Lemma c120_bounded : forall a c1 dx udir g zf us un U r c, (0 < rows g)%nat -> (0 < cols g)%nat -> between (rows g) (cols g) us (- U) U ->
  at_most U (fence_shear2d a c1 dx udir g zf us un r c).
Proof.
  intros a c1 dx u g zf us un U r c Hm Hn B. assert (HU : 0 <= U) by (pose proof (B 0%nat 0%nat Hm Hn); lra). unfold fence_shear2d. cbv zeta.
  destruct (trim_pick (rows g) (cols g) r c) as [r' [c' [T _]]]. rewrite !T. set (h := Rmax (dx / 2) (1 / 4)). rewrite sheltered_amount. cbn [fst snd].
  pose proof (amount_range a c1 (direction u) h h g zf us r' c' U Hm Hn B HU) as W. set (w := amount _ _ _ _ _ _ _ _ _ _) in *. unfold at_most. cbn [fst snd]. pose proof (cs (radians (direction u))) as C.
  replace ((w * cos (radians (direction u))) ^ 2 + (- (w * sin (radians (direction u)))) ^ 2) with (w ^ 2 * (cos (radians (direction u)) * cos (radians (direction u)) + sin (radians (direction u)) * sin (radians (direction u)))) by ring.
  rewrite C. nra.
Qed.
Lemma c120_perpendicular : forall a c1 dx udir g zf us un r c, exists e, 0 <= e <= 1 / 100000 /\
  along (udir + e) (fence_shear2d a c1 dx udir g zf us un r c) = 0.
Proof.
  intros a c1 dx u g zf us un r c. destruct (direction_along u) as [e [He E]]. exists e. split; [exact He|]. rewrite <- E. unfold fence_shear2d. cbv zeta.
  destruct (trim_pick (rows g) (cols g) r c) as [r' [c' [T _]]]. rewrite !T, sheltered_amount. unfold along, blows_to. cbn [fst snd]. ring.
Qed.
Lemma direction_same u : 0 < u < 360 -> u <> 180 -> direction u = u.
Proof.
  intros H N. unfold direction. destruct (Rlt_dec u 0); [lra|]. cbv zeta. unfold rfloor. rewrite (int_part_unique (u / 360) 0) by lra.
  destruct (Req_EM_T (u - 0 * 360) 0); [lra|]. destruct (Req_EM_T (u - 0 * 360) 180); lra.
Qed.

(** ** Without fences *)
Lemma edge_near n u k : (0 < n)%nat -> 0 <= u <= INR n - 1 -> k = Int_part u \/ k = (Int_part u + 1)%Z -> Rabs (INR (edge n k) - u) <= 1.
Proof.
  intros Hn Hu Hk. pose proof (int_part_bounds u) as [I1 I2]. set (i := Int_part u) in *.
  assert (I0 : (0 <= i)%Z) by (apply Z.lt_succ_r; apply lt_IZR; rewrite succ_IZR; lra).
  assert (I3 : (i <= Z.of_nat n - 1)%Z). { apply le_IZR. rewrite minus_IZR, <- INR_IZR_INZ. lra. }
  unfold edge. rewrite INR_IZR_INZ, Z2Nat.id by lia. destruct Hk as [E|E]; rewrite E.
  - replace (Z.max 0 (Z.min i (Z.of_nat n - 1))) with i by lia. apply Rabs_le. lra.
  - destruct (Z.eq_dec i (Z.of_nat n - 1)) as [F|F].
    + replace (Z.max 0 (Z.min (i + 1) (Z.of_nat n - 1))) with i by lia. apply Rabs_le. lra.
    + replace (Z.max 0 (Z.min (i + 1) (Z.of_nat n - 1))) with (i + 1)%Z by lia. rewrite plus_IZR. apply Rabs_le. lra.
Qed.
Lemma locate_in a h n v : 0 < h -> (0 < n)%nat -> a <= v <= a + (INR n - 1) * h -> let u := (v - a) / h in
  locate a h n 0 v = Some (Int_part u, u - IZR (Int_part u)) /\ 0 <= u <= INR n - 1 /\ v = a + u * h.
Proof.
  intros Hh Hn Hv u. assert (E : v = a + u * h) by (unfold u; field; lra).
  assert (U : 0 <= u <= INR n - 1) by nra. split; [|split; assumption]. unfold locate. fold u. cbv zeta. rewrite minus_INR by lia. simpl (INR 0). simpl (INR 1).
  destruct (Rlt_dec u (- 0)); [lra|]. destruct (Rlt_dec (INR n - 1 + 0) u); [lra|]. reflexivity.
Qed.
Lemma sample_node g x y h z q v : (forall r c, place g r c = (x + INR c * h, y + INR r * h)) -> 0 < h -> (0 < rows g)%nat -> (0 < cols g)%nat ->
  x <= fst q <= x + (INR (cols g) - 1) * h -> y <= snd q <= y + (INR (rows g) - 1) * h ->
  (forall r c, (r < rows g)%nat -> (c < cols g)%nat -> Rabs (fst (place g r c) - fst q) <= h -> Rabs (snd (place g r c) - snd q) <= h -> z r c = v) -> sample g z q = v.
Proof.
  intros P Hh Hm Hn Hx Hy Hz. unfold sample.
  assert (GX : forall r c, gx g r c = x + INR c * h) by (intros r c; pose proof (P r c) as E; unfold place in E; injection E; auto).
  assert (GY : forall r c, gy g r c = y + INR r * h) by (intros r c; pose proof (P r c) as E; unfold place in E; injection E; auto).
  rewrite !GX, !GY. simpl (INR 0). simpl (INR 1).
  replace (y + 0 * h) with y by ring. replace (x + 0 * h) with x by ring. replace (y + 1 * h - y) with h by ring. replace (x + 1 * h - x) with h by ring.
  destruct (locate_in y h (rows g) (snd q) Hh Hm Hy) as [E1 [U1 V1]]. destruct (locate_in x h (cols g) (fst q) Hh Hn Hx) as [E2 [U2 V2]]. rewrite E1, E2.
  set (u := (snd q - y) / h) in *. set (t := (fst q - x) / h) in *.
  assert (Z : forall i j, (i = Int_part u \/ i = (Int_part u + 1)%Z) -> (j = Int_part t \/ j = (Int_part t + 1)%Z) -> z (edge (rows g) i) (edge (cols g) j) = v).
  { intros i j Hi Hj. apply Hz; [apply edge_lt; exact Hm | apply edge_lt; exact Hn | |]; rewrite P; cbn [fst snd].
    - pose proof (edge_near (cols g) t j Hn U2 Hj) as N. rewrite V2. replace (x + INR (edge (cols g) j) * h - (x + t * h)) with ((INR (edge (cols g) j) - t) * h) by ring. rewrite Rabs_mult, (Rabs_pos_eq h) by lra. nra.
    - pose proof (edge_near (rows g) u i Hm U1 Hi) as N. rewrite V1. replace (y + INR (edge (rows g) i) * h - (y + u * h)) with ((INR (edge (rows g) i) - u) * h) by ring. rewrite Rabs_mult, (Rabs_pos_eq h) by lra. nra. }
  unfold bilinear. rewrite !Z by auto. ring.
Qed.
Lemma greatest_ge g f r c : (r < rows g)%nat -> (c < cols g)%nat -> f r c <= greatest g f.
Proof.
  intros Hr Hc. unfold greatest.
  assert (I : forall l m r, m <= fold_left (fun m c => Rmax m (f r c)) l m). { induction l as [|k l IH]; intros m r'; cbn; [lra|]. eapply Rle_trans; [apply Rmax_l | apply IH]. }
  assert (J : forall l m r c, In c l -> f r c <= fold_left (fun m c => Rmax m (f r c)) l m).
  { induction l as [|k l IH]; intros m r' c' Hi; [destruct Hi|]. cbn. destruct Hi as [E|Hi]; [rewrite E; eapply Rle_trans; [apply Rmax_r | apply I] | apply IH; exact Hi]. }
  set (G := fun m r => fold_left (fun m c => Rmax m (f r c)) (seq 0 (cols g)) m).
  assert (K : forall l m, m <= fold_left G l m). { induction l as [|k l IH]; intros m; cbn; [lra|]. eapply Rle_trans; [apply (I (seq 0 (cols g)) m k) | apply IH]. }
  assert (L : forall l m, In r l -> f r c <= fold_left G l m).
  { induction l as [|k l IH]; intros m Hi; [destruct Hi|]. cbn. destruct Hi as [E|Hi]; [|apply IH; exact Hi]. rewrite E. eapply Rle_trans; [|apply K]. apply J. apply in_seq. lia. }
  apply L. apply in_seq. lia.
Qed.
Lemma least_le g f r c : (r < rows g)%nat -> (c < cols g)%nat -> least g f <= f r c.
Proof. intros Hr Hc. unfold least. pose proof (greatest_ge g (fun r c => - f r c) r c Hr Hc). lra. Qed.
Lemma fence_grid_place g dx dy : exists x1 y1, (forall r c, place (fence_grid g dx dy) r c = (x1 + INR c * dx, y1 + INR r * dy)) /\
  x1 = fst (axis (fst (centre g) - square_side g / 2) (fst (centre g) + square_side g / 2) dx) /\ cols (fence_grid g dx dy) = snd (axis (fst (centre g) - square_side g / 2) (fst (centre g) + square_side g / 2) dx) /\
  y1 = fst (axis (snd (centre g) - square_side g / 2) (snd (centre g) + square_side g / 2) dy) /\ rows (fence_grid g dx dy) = snd (axis (snd (centre g) - square_side g / 2) (snd (centre g) + square_side g / 2) dy).
Proof.
  unfold fence_grid, exact_grid. cbv zeta. destruct (axis (fst (centre g) - square_side g / 2) _ dx) as [x1 nx]. destruct (axis (snd (centre g) - square_side g / 2) _ dy) as [y1 ny].
  exists x1, y1. cbn. repeat split.
Qed.
Lemma turn_norm a o v : (fst (turn a o v) - fst o) ^ 2 + (snd (turn a o v) - snd o) ^ 2 = (fst v - fst o) ^ 2 + (snd v - snd o) ^ 2.
Proof.
  unfold turn. cbn [fst snd]. pose proof (cs (radians a)) as C.
  match goal with |- ?l = _ => replace l with (((fst v - fst o) ^ 2 + (snd v - snd o) ^ 2) * (cos (radians a) * cos (radians a) + sin (radians a) * sin (radians a))) by ring end. rewrite C. ring.
Qed.
Lemma two_sides x y s : 0 <= s -> x ^ 2 + y ^ 2 <= s ^ 2 -> - s <= x <= s /\ - s <= y <= s.
Proof. intros Hs H. split; split; nra. Qed.
Lemma cs_sum a : Rabs (cos a) + Rabs (sin a) <= 3 / 2.
Proof.
  pose proof (cs a) as C. pose proof (Rabs_pos (cos a)) as P. pose proof (Rabs_pos (sin a)) as Q.
  assert (E : Rabs (cos a) * Rabs (cos a) + Rabs (sin a) * Rabs (sin a) = 1) by (rewrite <- !Rabs_mult, !Rabs_pos_eq by (apply Rle_0_sqr); lra).
  revert P Q E. generalize (Rabs (cos a)) (Rabs (sin a)). intros x y P Q E. pose proof (Rle_0_sqr (x - y)) as D. unfold Rsqr in D. destruct (Rle_dec (x + y) (3 / 2)); [assumption|]. nra.
Qed.
Lemma turn_near a o p q e : Rabs (fst p - fst q) <= e -> Rabs (snd p - snd q) <= e -> Rabs (fst (turn a o p) - fst (turn a o q)) <= 3 / 2 * e /\ Rabs (snd (turn a o p) - snd (turn a o q)) <= 3 / 2 * e.
Proof.
  intros Hx Hy. pose proof (cs_sum (radians a)) as C. pose proof (Rabs_pos (cos (radians a))). pose proof (Rabs_pos (sin (radians a))). pose proof (Rabs_pos (fst p - fst q)). pose proof (Rabs_pos (snd p - snd q)). unfold turn. cbn [fst snd]. split.
  - replace ((fst p - fst o) * cos (radians a) + (snd p - snd o) * sin (radians a) + fst o - ((fst q - fst o) * cos (radians a) + (snd q - snd o) * sin (radians a) + fst o)) with ((fst p - fst q) * cos (radians a) + (snd p - snd q) * sin (radians a)) by ring.
    eapply Rle_trans; [apply Rabs_triang|]. rewrite !Rabs_mult. nra.
  - replace (- (fst p - fst o) * sin (radians a) + (snd p - snd o) * cos (radians a) + snd o - (- (fst q - fst o) * sin (radians a) + (snd q - snd o) * cos (radians a) + snd o)) with ((snd p - snd q) * cos (radians a) + - ((fst p - fst q) * sin (radians a))) by ring.
    eapply Rle_trans; [apply Rabs_triang|]. rewrite Rabs_Ropp, !Rabs_mult. nra.
Qed.
