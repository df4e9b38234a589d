(** Proofs about the stress on the input grid and about flow separation. *)
From Coq Require Import Reals Lra Lia Psatz ZArith.
From Verif Require Import Base Shear_Model Shear_Spec Shear_Proofs Shear_Grid Shear_Interp.
Open Scope R_scope.

(** ** The stress *)
Lemma interpolate_linear o g z1 z2 f1 f2 a b p :
  interpolate o g (fun r c => a * z1 r c + b * z2 r c) (a * f1 + b * f2) p = a * interpolate o g z1 f1 p + b * interpolate o g z2 f2 p.
Proof.
  unfold interpolate. destruct (align o g p) as [h q]. destruct (locate _ _ _ _ (snd q)) as [[i s]|]; [|reflexivity].
  destruct (locate _ _ _ _ (fst q)) as [[j t]|]; [|reflexivity]. unfold bilinear. ring.
Qed.
Lemma interpolate_ext o g z1 z2 f p : (forall r c, z1 r c = z2 r c) -> interpolate o g z1 f p = interpolate o g z2 f p.
Proof.
  intros H. unfold interpolate. destruct (align o g p) as [h q]. destruct (locate _ _ _ _ (snd q)) as [[i s]|]; [|reflexivity].
  destruct (locate _ _ _ _ (fst q)) as [[j t]|]; [|reflexivity]. unfold bilinear. rewrite !H. reflexivity.
Qed.
Lemma interpolate_const o g k p : interpolate o g (fun _ _ => k) k p = k.
Proof.
  unfold interpolate. destruct (align o g p) as [h q]. destruct (locate _ _ _ _ (snd q)) as [[i s]|]; [|reflexivity].
  destruct (locate _ _ _ _ (fst q)) as [[j t]|]; [|reflexivity]. unfold bilinear. ring.
Qed.
Lemma interpolate_nonneg o g z f p : (forall r c, 0 <= z r c) -> 0 <= f -> 0 <= interpolate o g z f p.
Proof.
  intros H Hf. unfold interpolate. destruct (align o g p) as [h q]. destruct (locate _ _ _ _ (snd q)) as [[i s]|] eqn:E1; [|exact Hf].
  destruct (locate _ _ _ _ (fst q)) as [[j t]|] eqn:E2; [|exact Hf]. apply locate_part in E1, E2. unfold bilinear.
  pose proof (H (edge (rows g) i) (edge (cols g) j)). pose proof (H (edge (rows g) i) (edge (cols g) (j + 1))).
  pose proof (H (edge (rows g) (i + 1)) (edge (cols g) j)). pose proof (H (edge (rows g) (i + 1)) (edge (cols g) (j + 1))).
  assert (forall a b x, 0 <= a -> 0 <= b -> 0 <= x <= 1 -> 0 <= (1 - x) * a + x * b) as M by (intros; nra).
  apply M; auto.
Qed.
Lemma sheltered_range h : 0 <= sheltered h <= 1.
Proof. unfold sheltered. pose proof (Rmax_r (1 - 1 / (2 / 10 * (5 / 10)) * h) 0). split; [apply Rmin_glb; lra | apply Rmin_r]. Qed.
Lemma cell_along p u t0 dt h : 0 <= along u (cell_stress p u t0 dt h).
Proof.
  unfold cell_stress. rewrite <- turn_along, turn_forth. pose proof (sheltered_range h) as [S _].
  pose proof (Rmax_r (fst (add_shear (turn (270 - u) (0, 0) t0) dt)) 0).
  destruct (process_separation p); unfold not_backward, separation_shear; cbn [fst]; [apply Rmult_le_pos|]; auto.
Qed.
Lemma along_pair u x y : along u (x, y) = fst (blows_to u) * x + snd (blows_to u) * y.
Proof. unfold along. cbn [fst snd]. ring. Qed.
Lemma c115_forward : forall kv p g z u0 udir t0 r c, 0 <= along udir t0 ->
  0 <= along udir (fst (call kv p g z u0 udir t0 r c)).
Proof.
  intros kv p g z u0 u t0 r c H. unfold call. cbv zeta. destruct (compute_shear _ _ _ _ _ _ _ _ _) as [dtx dty]. cbn [fst]. rewrite along_pair.
  rewrite <- interpolate_linear. apply interpolate_nonneg.
  - intros i j. rewrite <- along_pair, <- surjective_pairing. apply cell_along.
  - rewrite <- along_pair, <- surjective_pairing. exact H.
Qed.
Lemma add_shear_none t : add_shear t (0, 0) = t.
Proof.
  destruct t as [x y]. unfold add_shear. cbv zeta. cbn [fst snd]. destruct (Req_EM_T _ 0) as [|N]; [reflexivity|]. f_equal; field; exact N.
Qed.
Lemma c115_calm : forall kv p g z udir t0 r c, process_separation p = false -> 0 <= along udir t0 ->
  fst (call kv p g z 0 udir t0 r c) = t0.
Proof.
  intros kv p g z u t0 r c Hp H. unfold call. cbv zeta. unfold compute_shear. destruct (Req_EM_T 0 0) as [_|N]; [|lra]. cbn [fst].
  assert (C : forall h, cell_stress p u t0 (0, 0) h = t0).
  { intros h. unfold cell_stress. rewrite Hp, add_shear_none. unfold not_backward. rewrite turn_along, Rmax_left by exact H.
    rewrite <- turn_along, <- surjective_pairing. apply turn_back. }
  rewrite (interpolate_ext _ _ _ (fun _ _ => fst t0)) by (intros; rewrite C; reflexivity).
  rewrite (interpolate_ext _ _ (fun r c => snd _) (fun _ _ => snd t0)) by (intros; rewrite C; reflexivity).
  rewrite !interpolate_const. symmetry. apply surjective_pairing.
Qed.
Definition scaled (k : R) (t : R * R) : R * R := (k * fst t, k * snd t).
Lemma turn_scaled a k t : turn a (0, 0) (scaled k t) = scaled k (turn a (0, 0) t).
Proof. unfold turn, scaled. cbn [fst snd]. f_equal; ring. Qed.
Lemma add_shear_scaled k t d : 0 < k -> add_shear (scaled k t) d = scaled k (add_shear t d).
Proof.
  intros H. unfold add_shear, scaled. cbn [fst snd]. cbv zeta.
  replace (sqrt ((k * fst t) ^ 2 + (k * snd t) ^ 2)) with (k * sqrt (fst t ^ 2 + snd t ^ 2)).
  - set (m := sqrt (fst t ^ 2 + snd t ^ 2)). destruct (Req_EM_T m 0) as [Z|Z], (Req_EM_T (k * m) 0) as [Z'|Z'].
    + reflexivity.
    + exfalso. apply Z'. rewrite Z. ring.
    + exfalso. apply Rmult_integral in Z'. lra.
    + cbn [fst snd]. f_equal; field; lra.
  - replace ((k * fst t) ^ 2 + (k * snd t) ^ 2) with (k * k * (fst t ^ 2 + snd t ^ 2)) by ring. rewrite sqrt_mult by nra. rewrite sqrt_square by lra. reflexivity.
Qed.
Lemma cell_scaled p u k t0 dt h : 0 < k -> cell_stress p u (scaled k t0) dt h = scaled k (cell_stress p u t0 dt h).
Proof.
  intros H. unfold cell_stress. rewrite turn_scaled, add_shear_scaled by exact H. rewrite <- turn_scaled. f_equal. set (t := add_shear _ dt).
  assert (E : not_backward (scaled k t) = scaled k (not_backward t)).
  { unfold not_backward, scaled. cbn [fst snd]. f_equal. rewrite <- (Rmult_0_r k) at 1. apply RmaxRmult. lra. }
  rewrite E. destruct (process_separation p); [|reflexivity]. unfold separation_shear, scaled. cbn [fst snd]. f_equal; ring.
Qed.
Lemma c115_scale : forall kv p g z u0 udir t0 k r c, 0 < k ->
  let before := fst (call kv p g z u0 udir t0 r c) in
  fst (call kv p g z u0 udir (k * fst t0, k * snd t0) r c) = (k * fst before, k * snd before).
Proof.
  intros kv p g z u0 u t0 k r c H. unfold call. cbv zeta. destruct (compute_shear _ _ _ _ _ _ _ _ _) as [dtx dty]. cbn [fst snd].
  assert (L : forall o h z1 f q, interpolate o h (fun r c => k * z1 r c) (k * f) q = k * interpolate o h z1 f q).
  { intros. transitivity (k * interpolate o h z1 f q + 0 * interpolate o h z1 f q); [|ring]. rewrite <- interpolate_linear. replace (k * f + 0 * f) with (k * f) by ring. apply interpolate_ext. intros; ring. }
  rewrite <- !L. f_equal; apply interpolate_ext; intros i j; fold (scaled k t0); rewrite cell_scaled by exact H; reflexivity.
Qed.
(** Separation only reduces, by one factor for both components. *)
Lemma c115_sheltered : forall p q udir t0 dt h, process_separation p = true -> process_separation q = false ->
  exists f, 0 <= f <= 1 /\ cell_stress p udir t0 dt h = (f * fst (cell_stress q udir t0 dt h), f * snd (cell_stress q udir t0 dt h)) /\
  (h <= 0 -> f = 1) /\ (1 / 10 <= h -> f = 0).
Proof.
  intros p q u t0 dt h Hp Hq. exists (sheltered h). split; [apply sheltered_range|]. split.
  - unfold cell_stress. rewrite Hp, Hq. change (turn (- (270 - u)) (0, 0) (separation_shear h (not_backward (add_shear (turn (270 - u) (0, 0) t0) dt))) = scaled (sheltered h) (turn (- (270 - u)) (0, 0) (not_backward (add_shear (turn (270 - u) (0, 0) t0) dt)))).
    rewrite <- turn_scaled. f_equal. unfold separation_shear, scaled. f_equal; ring.
  - unfold sheltered. split; intros Hh.
    + rewrite (Rmax_left _ 0) by lra. apply Rmin_right. lra.
    + rewrite (Rmax_right _ 0) by lra. apply Rmin_left. lra.
Qed.

(** ** Separation *)
Lemma separation_above n dx c mu z m : z m <= separation n dx c mu z m.
Proof. unfold separation. cbv zeta. destruct (Rlt_dec _ (z m)); lra. Qed.
Lemma fold_floor n dx c z l : forall s m, 0 <= snd s m -> 0 <= snd (fold_left (add_bubble n dx c z) l s) m.
Proof.
  induction l; intros s m H; [exact H|]. simpl. apply IHl. unfold add_bubble. cbn [snd].
  eapply Rle_trans; [exact H|]. eapply Rle_trans; [|apply Rmax_l]. apply Rmax_r.
Qed.
Lemma separation_floor n dx c mu z m : 0 <= separation n dx c mu z m.
Proof.
  unfold separation. cbv zeta. pose proof (fold_floor n dx c z (bubbles n dx mu z) (fun _ => 0, fun _ => 0) m (Rle_refl 0)).
  destruct (Rlt_dec _ (z m)); lra.
Qed.
Lemma gentle_no_stall n dx mu z i : (3 <= n)%nat -> gentle n dx mu z -> stall0 n dx mu z i = false.
Proof.
  intros Hn G. unfold stall0, gtb. destruct (Rlt_dec mu (Rabs (dzx n dx z i))) as [A|A]; [|reflexivity]. destruct (Rlt_dec (dzx n dx z i) 0) as [B|B]; [|reflexivity].
  exfalso. rewrite (Rabs_left _ B) in A. unfold dzx in A. pose proof (G (Nat.min i (n - 3)) ltac:(lia)). cbv zeta in A. lra.
Qed.
Lemma gentle_no_bubbles n dx mu z : (3 <= n)%nat -> gentle n dx mu z -> bubbles n dx mu z = [].
Proof.
  intros Hn G. unfold bubbles. assert (H : forall l, filter (bubble n dx mu z) l = []).
  { induction l as [|i l IH]; [reflexivity|]. simpl. unfold bubble, bubble0, stall. rewrite !(gentle_no_stall n dx mu z _ Hn G).
    repeat (rewrite Bool.andb_false_r || rewrite Bool.orb_false_l). exact IH. }
  apply H.
Qed.
Lemma c116_gentle : forall n dx c mu z m, (3 <= n)%nat -> gentle n dx mu z -> 0 <= z m -> separation n dx c mu z m = z m.
Proof.
  intros n dx c mu z m Hn G Hz. unfold separation. rewrite (gentle_no_bubbles n dx mu z Hn G). cbn. destruct (Rlt_dec 0 (z m)); lra.
Qed.
Lemma c116_above : forall p n z r c, z r c <= surface p n z r c /\ (process_separation p = false -> surface p n z r c = z r c).
Proof.
  intros p n z r c. unfold surface. destruct (process_separation p); split; try discriminate; try reflexivity; [apply Rmax_l | lra].
Qed.
Lemma c116_datum : forall p n z udir t0 dt r c, process_separation p = true -> z r c <= - (1 / 10) ->
  cell_stress p udir t0 dt (surface p n z r c - z r c) = (0, 0).
Proof.
  intros p n z u t0 dt r c Hp Hz. set (h := surface p n z r c - z r c).
  assert (Hh : 1 / 10 <= h). { unfold h, surface. rewrite Hp. pose proof (separation_floor n (cdx p) (c_b p) (mub p) (z r) c). pose proof (Rmax_r (z r c) (separation n (cdx p) (c_b p) (mub p) (z r) c)). lra. }
  unfold cell_stress. rewrite Hp. unfold separation_shear. replace (sheltered h) with 0; [rewrite !Rmult_0_r; unfold turn; cbn [fst snd]; f_equal; ring|].
  symmetry. unfold sheltered. rewrite (Rmax_right _ 0) by lra. apply Rmin_left. lra.
Qed.

(** ** On the whole grid *)
Lemma turned_cells a o g x1 y1 dx dy : (forall r c, place g r c = (x1 + INR c * dx, y1 + INR r * dy)) -> 0 < dx -> 0 < dy ->
  exists p0 e f, equal_cells (turn_grid a o g) p0 e f /\ perpendicular e f /\ nonzero e /\ nonzero f.
Proof.
  intros H Hx Hy. exists (turn a o (x1, y1)), (turn a (0, 0) (dx, 0)), (turn a (0, 0) (0, dy)). split.
  - intros r c. rewrite place_turn, H, <- turn_spots. f_equal. unfold spot. simpl. f_equal; ring.
  - split; [unfold perpendicular; rewrite turn_inner; simpl; ring|].
    split; intros E; [pose proof (turn_inner a (dx, 0) (dx, 0)) as I | pose proof (turn_inner a (0, dy) (0, dy)) as I]; rewrite E in I; simpl in I; nra.
Qed.
Lemma within_spot g p p0 e f : equal_cells g p0 e f -> within g p -> exists s t, 0 <= s <= INR (cols g) - 1 /\ 0 <= t <= INR (rows g) - 1 /\ p = spot p0 e f s t.
Proof.
  intros H [r [c [s [t [Hr [Hc [Hs [Ht E]]]]]]]]. rewrite !H in E. apply le_INR in Hr, Hc. rewrite !S_INR in Hr, Hc. pose proof (pos_INR r). pose proof (pos_INR c).
  exists (INR c + s), (INR r + t). split; [lra | split; [lra|]]. rewrite E, !S_INR. unfold spot. cbn [fst snd]. f_equal; ring.
Qed.
Lemma computational_places b dx dy g u : exists x1 y1, forall r c, place (computational b dx dy g u) r c = (x1 + INR c * dx, y1 + INR r * dy).
Proof.
  unfold computational, exact_grid. destruct (axis _ _ dx) as [x1 nx]. destruct (axis _ _ dy) as [y1 ny]. exists x1, y1. reflexivity.
Qed.
Lemma within_positive g p : within g p -> (0 < rows g)%nat /\ (0 < cols g)%nat.
Proof. intros [r [c [s [t [Hr [Hc _]]]]]]. lia. Qed.
Lemma interpolate_within a o b dx dy g u z1 z2 f1 f2 p : 0 < dx -> 0 < dy -> let h := turn_grid a o (computational b dx dy g u) in within h p ->
  (forall r c, (r < rows h)%nat -> (c < cols h)%nat -> z1 r c = z2 r c) -> interpolate o h z1 f1 p = interpolate o h z2 f2 p.
Proof.
  intros Hx Hy h W Hz. destruct (computational_places b dx dy g u) as [x1 [y1 P]].
  destruct (turned_cells a o _ x1 y1 dx dy P Hx Hy) as [p0 [e [f [E [Q [Ne Nf]]]]]]. fold h in E.
  destruct (within_positive h p W) as [Hr Hc]. destruct (within_spot h p p0 e f E W) as [s [t [Hs [Ht ->]]]].
  rewrite !interpolate_spot by assumption. unfold read. rewrite !minus_INR by lia. simpl (INR 1).
  pose proof (pos_INR (Nat.max (rows h) (cols h))).
  destruct (Rlt_dec t _); [lra|]. destruct (Rlt_dec _ t); [lra|]. destruct (Rlt_dec s _); [lra|]. destruct (Rlt_dec _ s); [lra|].
  unfold bilinear. rewrite !Hz by (apply edge_lt; assumption). reflexivity.
Qed.
Lemma c113_computed : forall g p0 e f b dx dy udir z f1 f2 r c, equal_cells g p0 e f -> oblique udir -> 0 < dx <= b -> 0 < dy <= b -> (r < rows g)%nat -> (c < cols g)%nat ->
  let h := turn_grid (- (270 - udir)) (centre g) (computational b dx dy g udir) in
  interpolate (centre g) h z f1 (place g r c) = interpolate (centre g) h z f2 (place g r c).
Proof.
  intros. apply interpolate_within; try lra; [|reflexivity]. eapply c113_covers; eauto; lia.
Qed.
Lemma c116_no_wind : forall kv p g z u0 udir t0 r c p0 e f, process_separation p = true -> equal_cells g p0 e f -> oblique udir ->
  0 < cdx p <= buffer p -> 0 < cdy p <= buffer p -> (r < rows g)%nat -> (c < cols g)%nat ->
  (let gc := computational (buffer p) (cdx p) (cdy p) g udir in forall i j, (i < rows gc)%nat -> (j < cols gc)%nat -> bed p g z udir i j <= - (1 / 10)) ->
  fst (call kv p g z u0 udir t0 r c) = (0, 0).
Proof.
  intros kv p g z u0 u t0 r c p0 e f Hp H Ho Hx Hy Hr Hc Hb. cbv zeta in Hb.
  assert (W : within (turn_grid (- (270 - u)) (centre g) (computational (buffer p) (cdx p) (cdy p) g u)) (place g r c)) by (eapply c113_covers; eauto; lia).
  unfold call. cbv zeta. destruct (compute_shear _ _ _ _ _ _ _ _ _) as [dtx dty]. cbn [fst].
  f_equal; (rewrite (interpolate_within (- (270 - u)) (centre g) (buffer p) (cdx p) (cdy p) g u _ (fun _ _ => 0) _ 0 (place g r c) ltac:(lra) ltac:(lra) W);
    [apply interpolate_const | intros i j Hi Hj; rewrite (c116_datum p _ _ u t0 _ i j Hp (Hb i j Hi Hj)); reflexivity]).
Qed.

(** A square beach of 40 metres, flat, one metre below zero. *)
Definition square : grid := {| rows := 41; cols := 41; gx := fun r c => INR c; gy := fun r c => INR r |}.
Lemma square_cells : equal_cells square (0, 0) (1, 0) (0, 1).
Proof. intros r c. unfold place, spot, square. simpl. f_equal; ring. Qed.
Lemma inr41 : INR 41 = 41.
Proof. rewrite INR_IZR_INZ. reflexivity. Qed.
Lemma square_centre : centre square = (20, 20).
Proof. rewrite (centre_equal square (0, 0) (1, 0) (0, 1)); [|simpl; lia | simpl; lia | exact square_cells]. change (cols square) with 41%nat. change (rows square) with 41%nat. rewrite inr41. unfold spot. cbn [fst snd]. f_equal; field. Qed.
Lemma square_corner i : 0 <= fst (corner square i) <= 40 /\ 0 <= snd (corner square i) <= 40.
Proof.
  assert (E : INR 40 = 40) by (rewrite INR_IZR_INZ; reflexivity). unfold corner, place.
  destruct i as [|[|[|i]]]; cbn [fst snd square gx gy rows cols]; change (41 - 1)%nat with 40%nat; rewrite ?E; simpl (INR 0); lra.
Qed.
Lemma square_size : span 10 square 45 <= 80 /\ width 10 square 45 <= 80 /\ 20 <= span 10 square 45 /\ 20 <= width 10 square 45.
Proof.
  destruct (c113_size square 10 45 oblique_45) as [B [[i [j [_ [_ Bw]]]] [k [m [_ [_ Bs]]]]]]. pose proof k2_bounds as K.
  destruct (B 0%nat 0%nat ltac:(lia) ltac:(lia)) as [L1 L2].
  pose proof (Rabs_pos (across 45 (corner square 0) - across 45 (corner square 0))). pose proof (Rabs_pos (along 45 (corner square 0) - along 45 (corner square 0))).
  rewrite !across_offset, !offset45 in Bw. rewrite !along_offset, !offset_45 in Bs.
  pose proof (square_corner i). pose proof (square_corner j). pose proof (square_corner k). pose proof (square_corner m).
  assert (Rabs (- ((snd (corner square i) - fst (corner square i)) * k2) - - ((snd (corner square j) - fst (corner square j)) * k2)) <= 80 * k2) by (apply Rabs_le; nra).
  assert (Rabs (- (snd (corner square k) + fst (corner square k)) * k2 - - (snd (corner square m) + fst (corner square m)) * k2) <= 80 * k2) by (apply Rabs_le; nra).
  repeat split; lra.
Qed.
Lemma square_bed h i j : (i < rows (computational 10 1 1 square 45))%nat -> (j < cols (computational 10 1 1 square 45))%nat -> bed usual square (fun _ _ => h) 45 i j = h.
Proof.
  destruct square_size as [S1 [S2 [S3 S4]]]. unfold bed, computational, exact_grid. rewrite square_centre. cbn [fst snd buffer cdx cdy usual].
  pose proof (axis_first (20 - span 10 square 45 / 2) (20 + span 10 square 45 / 2) 1 Rlt_0_1) as Ax. pose proof (axis_last (20 - span 10 square 45 / 2) (20 + span 10 square 45 / 2) 1 Rlt_0_1 ltac:(lra)) as [_ Bx].
  destruct (axis (20 - span 10 square 45 / 2) (20 + span 10 square 45 / 2) 1) as [x1 nx]. cbn [fst snd] in Ax, Bx.
  pose proof (axis_first (20 - width 10 square 45 / 2) (20 + width 10 square 45 / 2) 1 Rlt_0_1) as Ay. pose proof (axis_last (20 - width 10 square 45 / 2) (20 + width 10 square 45 / 2) 1 Rlt_0_1 ltac:(lra)) as [_ By].
  destruct (axis (20 - width 10 square 45 / 2) (20 + width 10 square 45 / 2) 1) as [y1 ny]. cbn [fst snd] in Ay, By. cbn [rows cols]. intros Hi Hj.
  rewrite place_turn. unfold place. cbn [gx gy]. apply le_INR in Hi, Hj. rewrite S_INR in Hi, Hj. pose proof (pos_INR i). pose proof (pos_INR j).
  set (q := turn (- (270 - 45)) (20, 20) (x1 + INR j * 1, y1 + INR i * 1)). pose proof k2_bounds as K.
  assert (Q : - 40 <= fst q <= 80 /\ - 40 <= snd q <= 80).
  { unfold q, turn. cbn [fst snd]. rewrite radians_neg, cos_neg, sin_neg, cos_wind, sin_wind, rad45, sin_PI4, cos_PI4. fold k2.
    assert (X : - 41 <= x1 + INR j * 1 - 20 <= 41) by lra. assert (Y : - 41 <= y1 + INR i * 1 - 20 <= 41) by lra.
    set (X' := x1 + INR j * 1 - 20) in *. set (Y' := y1 + INR i * 1 - 20) in *. split; nra. }
  replace q with (spot (0, 0) (1, 0) (0, 1) (fst q) (snd q)) by (rewrite (surjective_pairing q) at 3; unfold spot; simpl; f_equal; ring). clearbody q.
  rewrite (interpolate_spot (20, 20) square _ 0 (0, 0) (1, 0) (0, 1)); [|exact square_cells | unfold perpendicular; simpl; ring | intros E; injection E; lra | intros E; injection E; lra].
  unfold read. change (rows square) with 41%nat. change (cols square) with 41%nat. change (Nat.max 41 41) with 41%nat. change (41 - 1)%nat with 40%nat. rewrite inr41.
  replace (INR 40) with 40 by (rewrite INR_IZR_INZ; reflexivity).
  destruct (Rlt_dec (snd q) _); [lra|]. destruct (Rlt_dec _ (snd q)); [lra|]. destruct (Rlt_dec (fst q) _); [lra|]. destruct (Rlt_dec _ (fst q)); [lra|].
  unfold bilinear. ring.
Qed.
Lemma c116_beach : exists p g z udir t0, process_separation p = true /\ 0 < along udir t0 /\ between (rows g) (cols g) z (- 1) (- 1) /\ forall kv u0 r c, (r < rows g)%nat -> (c < cols g)%nat ->
  fst (call kv p g z u0 udir t0 r c) = (0, 0).
Proof.
  exists usual, square, (fun _ _ => - 1), 45, (- 1, - 1). split; [reflexivity|]. split.
  { unfold along, blows_to. cbn [fst snd]. rewrite rad45, sin_PI4, cos_PI4. fold k2. pose proof k2_bounds. lra. }
  split; [intros r c _ _; lra|]. intros kv u0 r c Hr Hc.
  apply (c116_no_wind kv usual square _ u0 45 (-1, -1) r c (0, 0) (1, 0) (0, 1)); auto; [exact square_cells | exact oblique_45 | cbn; lra | cbn; lra|].
  cbv zeta. intros i j Hi Hj. cbn [buffer cdx cdy usual] in Hi, Hj. rewrite (square_bed (-1) i j Hi Hj). lra.
Qed.
