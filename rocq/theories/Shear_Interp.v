(** Proofs about the interpolation between the grids. *)
From Coq Require Import Reals Lra Lia Psatz ZArith.
From Verif Require Import Base Shear_Model Shear_Spec Shear_Proofs Shear_Grid.
Open Scope R_scope.

(** ** Values between those of the field *)
Lemma edge_lt n i : (0 < n)%nat -> (edge n i < n)%nat.
Proof. unfold edge. lia. Qed.
Lemma locate_part a h n w v i s : locate a h n w v = Some (i, s) -> 0 <= s <= 1.
Proof.
  unfold locate. cbv zeta. destruct (Rlt_dec _ _); [discriminate|]. destruct (Rlt_dec _ _); [discriminate|]. intros E. injection E as _ E.
  pose proof (int_part_bounds ((v - a) / h)). lra.
Qed.
Lemma mix_between lo hi a b s : lo <= a <= hi -> lo <= b <= hi -> 0 <= s <= 1 -> lo <= (1 - s) * a + s * b <= hi.
Proof. intros. nra. Qed.
Lemma bilinear_between m n z lo hi i s j t : (0 < m)%nat -> (0 < n)%nat -> between m n z lo hi -> 0 <= s <= 1 -> 0 <= t <= 1 -> lo <= bilinear m n z i s j t <= hi.
Proof.
  intros Hm Hn B Hs Ht. unfold bilinear. repeat (apply mix_between; auto); apply B; apply edge_lt; assumption.
Qed.
Lemma c114_range : forall o g z fill p lo hi, (0 < rows g)%nat -> (0 < cols g)%nat -> between (rows g) (cols g) z lo hi ->
  lo <= interpolate o g z fill p <= hi \/ interpolate o g z fill p = fill.
Proof.
  intros o g z fill p lo hi Hm Hn B. unfold interpolate. destruct (align o g p) as [h q].
  destruct (locate _ _ _ _ (snd q)) as [[i s]|] eqn:E1; [|now right]. destruct (locate _ _ _ _ (fst q)) as [[j t]|] eqn:E2; [|now right].
  left. apply bilinear_between; auto; eapply locate_part; eassumption.
Qed.

(** ** Alignment *)
Lemma turn_turn a b o v : turn b o (turn a o v) = turn (a + b) o v.
Proof.
  unfold turn. simpl. replace (radians (a + b)) with (radians a + radians b) by (unfold radians; field). rewrite cos_plus, sin_plus. f_equal; ring.
Qed.
Lemma turn_inner a e f : fst (turn a (0, 0) e) * fst (turn a (0, 0) f) + snd (turn a (0, 0) e) * snd (turn a (0, 0) f) = fst e * fst f + snd e * snd f.
Proof.
  unfold turn. simpl. pose proof (cs (radians a)) as H. set (c := cos (radians a)) in *. set (s := sin (radians a)) in *.
  transitivity ((fst e * fst f + snd e * snd f) * (c * c + s * s)); [ring | rewrite H; ring].
Qed.
Lemma radians_degrees a : radians (degrees a) = a.
Proof. unfold radians, degrees. field. apply PI_neq0. Qed.
Lemma row_level g o e f : equal_cells g o e f -> snd (turn (row_angle g) (0, 0) e) = 0.
Proof.
  intros H. unfold row_angle.
  assert (E1 : gx g 0%nat 1%nat - gx g 0%nat 0%nat = fst e).
  { pose proof (H 0%nat 0%nat) as A. pose proof (H 0%nat 1%nat) as B. unfold place, spot in A, B. injection A as A _. injection B as B _. rewrite A, B. simpl. ring. }
  assert (E2 : gy g 0%nat 1%nat - gy g 0%nat 0%nat = snd e).
  { pose proof (H 0%nat 0%nat) as A. pose proof (H 0%nat 1%nat) as B. unfold place, spot in A, B. injection A as _ A. injection B as _ B. rewrite A, B. simpl. ring. }
  rewrite E1, E2.
  assert (G : forall b, snd (turn b (0, 0) e) = 0 -> snd (turn (b + 180) (0, 0) e) = 0).
  { intros b Hb. rewrite <- turn_turn. unfold turn at 1. unfold radians. replace (180 / 180 * PI) with PI by field. rewrite cos_PI, sin_PI. cbn [snd fst]. rewrite Hb. ring. }
  assert (K : snd (turn (if Req_EM_T (fst e) 0 then if Rlt_dec 0 (snd e) then 90 else - 90 else degrees (atan (snd e / fst e))) (0, 0) e) = 0).
  { destruct (Req_EM_T (fst e) 0) as [Z|Z].
    - assert (C : forall q, q = 90 \/ q = - 90 -> cos (radians q) = 0).
      { intros q [-> | ->]; unfold radians; [replace (90 / 180 * PI) with (PI / 2) by field; apply cos_PI2|].
        replace (-90 / 180 * PI) with (- (PI / 2)) by field. rewrite cos_neg. apply cos_PI2. }
      unfold turn. cbn [snd fst]. rewrite Z, C; [ring | destruct (Rlt_dec 0 (snd e)); auto].
    - unfold turn. cbn [snd fst]. rewrite radians_degrees. pose proof (cos_atan (snd e / fst e)). rewrite cos_atan, sin_atan. unfold Rsqr.
      assert (0 < sqrt (1 + snd e / fst e * (snd e / fst e))) by (apply sqrt_lt_R0; nra). field. split; [lra | exact Z]. }
  destruct ((leb (fst e) 0 && leb (snd e) 0)%bool); [apply G|]; exact K.
Qed.
Lemma place_turn a o g r c : place (turn_grid a o g) r c = turn a o (place g r c).
Proof. unfold place at 1. simpl. symmetry. apply surjective_pairing. Qed.
Lemma align_turn o g p p0 e f : equal_cells g p0 e f ->
  exists a, snd (turn a (0, 0) e) = 0 /\ snd (align o g p) = turn a o p /\ (forall r c, place (fst (align o g p)) r c = turn a o (place g r c)).
Proof.
  intros H. unfold align. pose proof (row_level g p0 e f H) as L. destruct (upside_down (turn_grid (row_angle g) o g)).
  - exists (row_angle g + 180). split; [|split].
    + rewrite <- turn_turn. unfold turn at 1. unfold radians. replace (180 / 180 * PI) with PI by field. rewrite cos_PI, sin_PI. cbn [snd fst]. rewrite L. ring.
    + cbn [snd]. apply turn_turn.
    + intros r c. cbn [fst]. rewrite !place_turn. apply turn_turn.
  - exists (row_angle g). split; [exact L | split; [reflexivity|]]. intros r c. cbn [fst]. apply place_turn.
Qed.
(** The value at a point of the plane in terms of columns and rows. *)
Definition read (m n w : nat) (z : field) (fill : R) (s t : R) : R :=
  if Rlt_dec t (- INR w) then fill else if Rlt_dec (INR (m - 1) + INR w) t then fill
  else if Rlt_dec s (- INR w) then fill else if Rlt_dec (INR (n - 1) + INR w) s then fill
  else bilinear m n z (Int_part t) (t - IZR (Int_part t)) (Int_part s) (s - IZR (Int_part s)).
Lemma interpolate_spot o g z fill p0 e f s t : equal_cells g p0 e f -> perpendicular e f -> nonzero e -> nonzero f ->
  interpolate o g z fill (spot p0 e f s t) = read (rows g) (cols g) (Nat.max (rows g) (cols g)) z fill s t.
Proof.
  intros H Hp He Hf. unfold interpolate. destruct (align_turn o g (spot p0 e f s t) p0 e f H) as [a [L [Q P]]].
  destruct (align o g (spot p0 e f s t)) as [h q]. cbn [fst snd] in Q, P. subst q.
  pose proof (turn_inner a e f) as I. pose proof (turn_inner a e e) as Ie. pose proof (turn_inner a f f) as If. rewrite L in I, Ie. unfold perpendicular in Hp. rewrite Hp in I.
  set (e' := turn a (0, 0) e) in *. set (f' := turn a (0, 0) f) in *.
  assert (Ne : fst e' <> 0). { intros Z. rewrite Z in Ie. apply He. rewrite (surjective_pairing e). f_equal; nra. }
  assert (Zf : fst f' = 0) by nra. rewrite Zf in If.
  assert (Nf : snd f' <> 0). { intros Z. rewrite Z in If. apply Hf. rewrite (surjective_pairing f). f_equal; nra. }
  assert (Pl : forall r c, place h r c = spot (turn a o p0) e' f' (INR c) (INR r)) by (intros r c; rewrite P, H; apply turn_spots).
  assert (Y0 : gy h 0%nat 0%nat = snd (turn a o p0)) by (transitivity (snd (place h 0 0)); [reflexivity | rewrite Pl; unfold spot; simpl; ring]).
  assert (X0 : gx h 0%nat 0%nat = fst (turn a o p0)) by (transitivity (fst (place h 0 0)); [reflexivity | rewrite Pl; unfold spot; simpl; ring]).
  assert (Y1 : gy h 1%nat 0%nat - gy h 0%nat 0%nat = snd f') by (rewrite Y0; transitivity (snd (place h 1 0) - snd (turn a o p0)); [reflexivity | rewrite Pl; unfold spot; cbn [fst snd]; simpl INR; ring]).
  assert (X1 : gx h 0%nat 1%nat - gx h 0%nat 0%nat = fst e') by (rewrite X0; transitivity (fst (place h 0 1) - fst (turn a o p0)); [reflexivity | rewrite Pl; unfold spot; cbn [fst snd]; simpl INR; ring]).
  rewrite Y1, X1, Y0, X0, turn_spots. fold e' f'. unfold spot. cbn [fst snd]. rewrite L, Zf. unfold locate.
  replace ((snd (turn a o p0) + s * 0 + t * snd f' - snd (turn a o p0)) / snd f') with t by (field; exact Nf).
  replace ((fst (turn a o p0) + s * fst e' + t * 0 - fst (turn a o p0)) / fst e') with s by (field; exact Ne).
  unfold read. cbv zeta. destruct (Rlt_dec t _); [reflexivity|]. destruct (Rlt_dec _ t); [reflexivity|]. destruct (Rlt_dec s _); [reflexivity|]. destruct (Rlt_dec _ s); reflexivity.
Qed.
Lemma int_part_nat k : Int_part (INR k) = Z.of_nat k.
Proof. rewrite INR_IZR_INZ. apply int_part_Z. Qed.
Lemma edge_in n k : (k < n)%nat -> edge n (Z.of_nat k) = k.
Proof. unfold edge. lia. Qed.
Lemma c114_nodes : forall o g z fill p0 e f r c, equal_cells g p0 e f -> perpendicular e f -> nonzero e -> nonzero f ->
  (r < rows g)%nat -> (c < cols g)%nat -> interpolate o g z fill (place g r c) = z r c.
Proof.
  intros o g z fill p0 e f r c H Hp He Hf Hr Hc. rewrite (H r c), interpolate_spot by assumption. unfold read.
  pose proof (pos_INR r). pose proof (pos_INR c). pose proof (pos_INR (Nat.max (rows g) (cols g))).
  assert (INR r <= INR (rows g - 1)) by (apply le_INR; lia). assert (INR c <= INR (cols g - 1)) by (apply le_INR; lia).
  destruct (Rlt_dec (INR r) _); [lra|]. destruct (Rlt_dec _ (INR r)); [lra|]. destruct (Rlt_dec (INR c) _); [lra|]. destruct (Rlt_dec _ (INR c)); [lra|].
  rewrite !int_part_nat, <- !INR_IZR_INZ. unfold bilinear. rewrite !edge_in by assumption. ring.
Qed.
(** Inside the grid: either the next node exists, or the position is the last one. *)
Lemma spot_split n s : (0 < n)%nat -> 0 <= s <= INR n - 1 -> exists k x, (k < n)%nat /\ Int_part s = Z.of_nat k /\ s - IZR (Int_part s) = x /\ s = INR k + x /\
  (x = 0 \/ (S k < n)%nat).
Proof.
  intros Hn Hs. pose proof (int_part_bounds s) as [A B]. assert (K : (0 <= Int_part s)%Z). { apply Z.lt_succ_r. apply lt_IZR. rewrite succ_IZR. lra. }
  assert (Ek : INR (Z.to_nat (Int_part s)) = IZR (Int_part s)) by (rewrite INR_IZR_INZ, Z2Nat.id by lia; reflexivity).
  exists (Z.to_nat (Int_part s)), (s - IZR (Int_part s)).
  assert (Kn : (Z.to_nat (Int_part s) < n)%nat). { apply INR_lt. lra. }
  split; [exact Kn | split; [lia | split; [reflexivity | split; [lra|]]]].
  destruct (Nat.lt_ge_cases (S (Z.to_nat (Int_part s))) n) as [C|C]; [now right | left]. apply le_INR in C. rewrite S_INR in C. lra.
Qed.
Lemma edge_next n k x : (k < n)%nat -> (x = 0 \/ (S k < n)%nat) -> x * INR (edge n (Z.of_nat k + 1)) = x * (INR k + 1).
Proof. intros Hk [-> | H]; [ring|]. replace (edge n (Z.of_nat k + 1)) with (S k) by (unfold edge; lia). rewrite S_INR. reflexivity. Qed.
Lemma read_affine m n w z fill s t a b c : (0 < m)%nat -> (0 < n)%nat -> 0 <= s <= INR n - 1 -> 0 <= t <= INR m - 1 ->
  (forall i j, (i < m)%nat -> (j < n)%nat -> z i j = a + b * INR j + c * INR i) -> read m n w z fill s t = a + b * s + c * t.
Proof.
  intros Hm Hn Hs Ht Hz. unfold read. pose proof (pos_INR w). rewrite !minus_INR by lia. simpl INR.
  destruct (Rlt_dec t _); [lra|]. destruct (Rlt_dec _ t); [lra|]. destruct (Rlt_dec s _); [lra|]. destruct (Rlt_dec _ s); [lra|].
  destruct (spot_split n s Hn Hs) as [k [x [K1 [K2 [K3 [K4 K5]]]]]]. destruct (spot_split m t Hm Ht) as [r [y [R1 [R2 [R3 [R4 R5]]]]]].
  rewrite K3, R3, K2, R2. unfold bilinear. rewrite !Hz by (apply edge_lt; assumption). rewrite !edge_in by assumption.
  pose proof (edge_next n k x K1 K5) as X. pose proof (edge_next m r y R1 R5) as Y. set (p := INR (edge n (Z.of_nat k + 1))) in *. set (q := INR (edge m (Z.of_nat r + 1))) in *.
  transitivity (a + b * (INR k * (1 - x) + x * p) + c * (INR r * (1 - y) + y * q)); [ring|]. rewrite X, Y, K4, R4. ring.
Qed.
Lemma c114_plane : forall o g z fill p0 e f s t a b c, (0 < rows g)%nat -> (0 < cols g)%nat -> equal_cells g p0 e f -> perpendicular e f -> nonzero e -> nonzero f ->
  (forall r j, (r < rows g)%nat -> (j < cols g)%nat -> z r j = a + b * gx g r j + c * gy g r j) ->
  0 <= s <= INR (cols g) - 1 -> 0 <= t <= INR (rows g) - 1 ->
  interpolate o g z fill (spot p0 e f s t) = a + b * fst (spot p0 e f s t) + c * snd (spot p0 e f s t).
Proof.
  intros o g z fill p0 e f s t a b c Hm Hn H Hp He Hf Hz Hs Ht. rewrite interpolate_spot by assumption.
  rewrite (read_affine _ _ _ z fill s t (a + b * fst p0 + c * snd p0) (b * fst e + c * snd e) (b * fst f + c * snd f)); auto; [unfold spot; simpl; ring|].
  intros i j Hi Hj. rewrite Hz by assumption. pose proof (H i j) as E. unfold place, spot in E. injection E as E1 E2. rewrite E1, E2. ring.
Qed.
(** Beyond the edge. *)
Definition clamp (n : nat) (s : R) : R := Rmax 0 (Rmin s (INR n - 1)).
Lemma clamp_in n s : (0 < n)%nat -> 0 <= clamp n s <= INR n - 1.
Proof. intros H. apply le_INR in H. simpl in H. unfold clamp, Rmax, Rmin. destruct (Rle_dec s (INR n - 1)), (Rle_dec 0 _); lra. Qed.
Lemma mix_clamp n (v : nat -> R) s : (0 < n)%nat ->
  (1 - (s - IZR (Int_part s))) * v (edge n (Int_part s)) + (s - IZR (Int_part s)) * v (edge n (Int_part s + 1)) =
  (1 - (clamp n s - IZR (Int_part (clamp n s)))) * v (edge n (Int_part (clamp n s))) + (clamp n s - IZR (Int_part (clamp n s))) * v (edge n (Int_part (clamp n s) + 1)).
Proof.
  intros Hn. pose proof (le_INR 1 n Hn) as Hn'. simpl in Hn'. pose proof (int_part_bounds s) as [A B].
  destruct (Rlt_le_dec s 0) as [C|C]; [|destruct (Rle_lt_dec s (INR n - 1)) as [D|D]].
  - replace (clamp n s) with (INR 0) by (unfold clamp, Rmax, Rmin; simpl; destruct (Rle_dec s (INR n - 1)), (Rle_dec 0 _); lra).
    rewrite int_part_nat. assert (Int_part s < 0)%Z by (apply lt_IZR; lra).
    replace (edge n (Int_part s)) with 0%nat by (unfold edge; lia). replace (edge n (Int_part s + 1)) with 0%nat by (unfold edge; lia).
    replace (edge n (Z.of_nat 0)) with 0%nat by (unfold edge; lia). simpl. ring.
  - replace (clamp n s) with s; [reflexivity|]. unfold clamp, Rmax, Rmin. destruct (Rle_dec s (INR n - 1)), (Rle_dec 0 _); lra.
  - replace (clamp n s) with (INR (n - 1)) by (rewrite minus_INR by lia; simpl; unfold clamp, Rmax, Rmin; destruct (Rle_dec s (INR n - 1)), (Rle_dec 0 _); lra).
    rewrite int_part_nat. assert (Z.of_nat n - 1 <= Int_part s)%Z. { apply Z.lt_succ_r. apply lt_IZR. rewrite succ_IZR, minus_IZR, <- INR_IZR_INZ. lra. }
    replace (edge n (Int_part s)) with (n - 1)%nat by (unfold edge; lia). replace (edge n (Int_part s + 1)) with (n - 1)%nat by (unfold edge; lia).
    replace (edge n (Z.of_nat (n - 1))) with (n - 1)%nat by (unfold edge; lia). rewrite <- INR_IZR_INZ. ring.
Qed.
Lemma bilinear_clamp m n z s t : (0 < m)%nat -> (0 < n)%nat ->
  bilinear m n z (Int_part t) (t - IZR (Int_part t)) (Int_part s) (s - IZR (Int_part s)) =
  bilinear m n z (Int_part (clamp m t)) (clamp m t - IZR (Int_part (clamp m t))) (Int_part (clamp n s)) (clamp n s - IZR (Int_part (clamp n s))).
Proof.
  intros Hm Hn. unfold bilinear. rewrite (mix_clamp n (z (edge m (Int_part t))) s Hn), (mix_clamp n (z (edge m (Int_part t + 1))) s Hn).
  apply (mix_clamp m (fun r => (1 - (clamp n s - IZR (Int_part (clamp n s)))) * z r (edge n (Int_part (clamp n s))) + (clamp n s - IZR (Int_part (clamp n s))) * z r (edge n (Int_part (clamp n s) + 1))) t Hm).
Qed.
Lemma c114_beyond : forall o g z fill p0 e f s t, (0 < rows g)%nat -> (0 < cols g)%nat -> equal_cells g p0 e f -> perpendicular e f -> nonzero e -> nonzero f ->
  let w := INR (Nat.max (rows g) (cols g)) in
  (- w <= s <= INR (cols g) - 1 + w -> - w <= t <= INR (rows g) - 1 + w ->
     interpolate o g z fill (spot p0 e f s t) = interpolate o g z fill (spot p0 e f (Rmax 0 (Rmin s (INR (cols g) - 1))) (Rmax 0 (Rmin t (INR (rows g) - 1))))) /\
  (s < - w \/ INR (cols g) - 1 + w < s \/ t < - w \/ INR (rows g) - 1 + w < t -> interpolate o g z fill (spot p0 e f s t) = fill).
Proof.
  intros o g z fill p0 e f s t Hm Hn H Hp He Hf w. rewrite !interpolate_spot by assumption. unfold read.
  fold (clamp (cols g) s) (clamp (rows g) t). fold w. rewrite !minus_INR by lia. simpl (INR 1).
  pose proof (clamp_in (cols g) s Hn). pose proof (clamp_in (rows g) t Hm). assert (0 <= w) by apply pos_INR. split.
  - intros Hs Ht. destruct (Rlt_dec t _); [lra|]. destruct (Rlt_dec _ t); [lra|]. destruct (Rlt_dec s _); [lra|]. destruct (Rlt_dec _ s); [lra|].
    destruct (Rlt_dec _ (- w)); [lra|]. destruct (Rlt_dec _ (clamp (rows g) t)); [lra|]. destruct (Rlt_dec (clamp (cols g) s) _); [lra|]. destruct (Rlt_dec _ (clamp (cols g) s)); [lra|].
    apply bilinear_clamp; assumption.
  - intros Q. destruct (Rlt_dec t _); [reflexivity|]. destruct (Rlt_dec _ t); [reflexivity|]. destruct (Rlt_dec s _); [reflexivity|]. destruct (Rlt_dec _ s); [reflexivity|]. lra.
Qed.

(** A strip of one kilometre by one metre. *)
Definition strip : grid := {| rows := 2; cols := 2; gx := fun r c => 1000 * INR c; gy := fun r c => INR r |}.
Lemma strip_cells : equal_cells strip (0, 0) (1000, 0) (0, 1).
Proof. intros r c. unfold place, spot, strip. simpl. f_equal; ring. Qed.
Lemma strip_centre : centre strip = (500, 1 / 2).
Proof. rewrite (centre_equal strip (0, 0) (1000, 0) (0, 1)); [|simpl; lia | simpl; lia | exact strip_cells]. unfold spot. simpl. f_equal; field. Qed.
Definition usual : params := {| buffer := 10; cdx := 1; cdy := 1; len := 100; inner := 10; rough := 1 / 1000; process_separation := true; c_b := 2 / 10; mub := 30 |}.
Lemma strip_nonzero : perpendicular (1000, 0) (0, 1) /\ nonzero (1000, 0) /\ nonzero (0, 1).
Proof. split; [unfold perpendicular; simpl; ring | split; intros E; injection E; lra]. Qed.
Lemma c114_cliff : exists p g z udir r c, equal_cells g (0, 0) (1000, 0) (0, 1) /\ between (rows g) (cols g) z 10 10 /\
  (let gc := computational (buffer p) (cdx p) (cdy p) g udir in (r < rows gc)%nat /\ (c < cols gc)%nat) /\ bed p g z udir r c = 0.
Proof.
  exists usual, strip, (fun _ _ => 10), 45, 0%nat, 0%nat. split; [exact strip_cells | split; [intros r c _ _; lra|]].
  pose proof (off_axis 45 (oblique_off 45 oblique_45)) as [S1 S2]. pose proof k2_bounds as K.
  destruct (c113_size strip 10 45 oblique_45) as [B _]. pose proof (B 3%nat 0%nat ltac:(lia) ltac:(lia)) as [_ B2]. pose proof (B 0%nat 0%nat ltac:(lia) ltac:(lia)) as [B1 _].
  rewrite !along_offset, !offset_45 in B2. pose proof (Rabs_pos (across 45 (corner strip 0) - across 45 (corner strip 0))) as B3.
  assert (Sp : 700 < span 10 strip 45). { unfold corner, place in B2. simpl in B2. pose proof (Rle_abs (- (0 - (1 + 1000 * 1) * k2))) as Q. unfold Rabs in B2. destruct (Rcase_abs _) in B2; lra. }
  assert (Wd : 20 <= width 10 strip 45) by lra. clear B B1 B2 B3.
  unfold bed, computational, exact_grid. rewrite strip_centre. cbn [fst snd buffer cdx cdy usual].
  pose proof (axis_first (500 - span 10 strip 45 / 2) (500 + span 10 strip 45 / 2) 1 Rlt_0_1) as Ax. pose proof (axis_last (500 - span 10 strip 45 / 2) (500 + span 10 strip 45 / 2) 1 Rlt_0_1 ltac:(lra)) as [Nx _].
  destruct (axis (500 - span 10 strip 45 / 2) (500 + span 10 strip 45 / 2) 1) as [x1 nx]. cbn [fst snd] in Ax, Nx.
  pose proof (axis_first (1 / 2 - width 10 strip 45 / 2) (1 / 2 + width 10 strip 45 / 2) 1 Rlt_0_1) as Ay. pose proof (axis_last (1 / 2 - width 10 strip 45 / 2) (1 / 2 + width 10 strip 45 / 2) 1 Rlt_0_1 ltac:(lra)) as [Ny _].
  destruct (axis (1 / 2 - width 10 strip 45 / 2) (1 / 2 + width 10 strip 45 / 2) 1) as [y1 ny]. cbn [fst snd] in Ay, Ny.
  split; [split; assumption|]. rewrite place_turn. unfold place. cbn [gx gy]. set (q := turn (- (270 - 45)) (500, 1 / 2) (x1 + INR 0 * 1, y1 + INR 0 * 1)).
  assert (Q : 3 < snd q).
  { unfold q, turn. cbn [fst snd]. rewrite radians_neg, cos_neg, sin_neg, cos_wind, sin_wind, rad45, sin_PI4, cos_PI4. fold k2. simpl INR. nra. }
  replace q with (spot (0, 0) (1000, 0) (0, 1) (fst q / 1000) (snd q)) by (rewrite (surjective_pairing q) at 3; unfold spot; simpl; f_equal; field).
  destruct strip_nonzero as [P1 [P2 P3]].
  apply (c114_beyond (500, 1 / 2) strip (fun _ _ => 10) 0 (0, 0) (1000, 0) (0, 1)); [simpl; lia | simpl; lia | exact strip_cells | exact P1 | exact P2 | exact P3|].
  right. right. right. clearbody q. change (INR 2 - 1 + INR 2 < snd q). simpl INR. lra.
Qed.
