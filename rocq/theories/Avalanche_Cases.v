(** Outflow bounds, concrete cases and refutations for avalanching. *)
From Verif Require Import Base Avalanche_Model Avalanche_Spec Avalanche_Proofs.
From Coq Require Import Reals Lra Lia Psatz.
Open Scope R_scope.

(** ** How much leaves a cell in a pass *)
Lemma slope_diff_bound td gh ne : 0 <= td -> Rabs (slope_diff td gh ne) <= 1.
Proof.
  intros H. unfold slope_diff. assert (B : forall x, -1 < tanh x < 1).
  { intros x. split; [|apply tanh_lt_1]. rewrite tanh_exp. pose proof (exp_pos (2 * x)).
    assert (/ (exp (2 * x) + 1) < 1) by (rewrite <- Rinv_1; apply Rinv_lt_contravar; lra). unfold Rdiv. lra. }
  destruct (Rltb_spec ne (gh - td)); [apply Rabs_le; destruct (B ne); lra|]. destruct (Rgtb_spec gh td); cbn [andb]; [|rewrite Rabs_R0; lra].
  destruct (Rgtb ne 0); [|rewrite Rabs_R0; lra]. destruct (B gh). pose proof (tanh_nonneg (9 / 10 * td) ltac:(lra)).
  assert (tanh (9 / 10 * td) <= tanh gh) by (apply tanh_le; lra). apply Rabs_le. lra.
Qed.
Lemma flux_abs sd gh g : 0 <= gh -> Rabs (flux sd gh g) * gh <= Rabs sd * Rabs g.
Proof.
  intros H. unfold flux. destruct (Req_EM_T gh 0) as [E|E].
  - rewrite Rabs_R0, Rmult_0_l. apply Rmult_le_pos; apply Rabs_pos.
  - unfold Rdiv. rewrite !Rabs_mult. rewrite (Rabs_pos_eq (/ gh)) by (left; apply Rinv_0_lt_compat; lra). right. field. exact E.
Qed.
Section Out.
Variables (ny nx : nat) (ds dn zne : grid) (td : R) (zb : grid) (j i : nat).
Let sd := slope_diff td (grad_h (grad_down ny nx zb ds dn) j i) ((zb j i - zne j i) / ds j i).
Lemma q_out_bound : q_out (fluxes ny nx ds dn zne td zb) j i <= 3 / 2 * Rabs sd.
Proof.
  set (g := grad_down ny nx zb ds dn). set (gh := grad_h g j i). fold g gh in sd. assert (H0 : 0 <= gh) by apply sqrt_pos.
  assert (S : gh * gh = 1 / 2 * (g 0%nat j i * g 0%nat j i) + 1 / 2 * (g 1%nat j i * g 1%nat j i) + 1 / 2 * (g 2%nat j i * g 2%nat j i) + 1 / 2 * (g 3%nat j i * g 3%nat j i)).
  { unfold gh, grad_h. apply sqrt_sqrt. nra. }
  assert (A02 : Rabs (g 0%nat j i) = Rabs (g 2%nat j i) /\ Rabs (g 1%nat j i) = Rabs (g 3%nat j i)).
  { unfold g, grad_down. destruct (inner nx i && _)%bool; [|split; reflexivity]. unfold Rdiv.
    split; [rewrite !Rabs_mult, grad_pos_abs, grad_neg_abs; reflexivity|]. destruct (Nat.eqb ny 1); [reflexivity|]. rewrite !Rabs_mult, grad_pos_abs, grad_neg_abs. reflexivity. }
  destruct A02 as [A0 A1]. set (dx := Rabs (g 0%nat j i)) in *. set (dy := Rabs (g 1%nat j i)) in *.
  assert (Sq : forall x, x * x = Rabs x * Rabs x) by (intros x; rewrite <- Rabs_mult; rewrite Rabs_pos_eq; [reflexivity|apply Rle_0_sqr]).
  rewrite (Sq (g 0%nat j i)), (Sq (g 1%nat j i)), (Sq (g 2%nat j i)), (Sq (g 3%nat j i)) in S. fold dx dy in S. rewrite <- A0, <- A1 in S.
  assert (P : 0 <= dx /\ 0 <= dy) by (split; apply Rabs_pos). destruct P as [P1 P2].
  assert (B : dx + dy <= 3 / 2 * gh).
  { apply Rsqr_incr_0_var; [|lra]. unfold Rsqr. replace (3 / 2 * gh * (3 / 2 * gh)) with (9 / 4 * (gh * gh)) by lra. rewrite S.
    pose proof (Rle_0_sqr (dx - dy)). pose proof (Rle_0_sqr dx). pose proof (Rle_0_sqr dy). unfold Rsqr in *. lra. }
  assert (Fl : forall d, Rabs (fluxes ny nx ds dn zne td zb d j i) * gh <= Rabs sd * Rabs (g d j i)) by (intros d; now apply flux_abs).
  pose proof (Rabs_pos sd) as Psd. destruct (Req_EM_T gh 0) as [E|E].
  - assert (Z : forall d, Rabs (fluxes ny nx ds dn zne td zb d j i) = 0).
    { intros d. unfold fluxes. fold g. fold gh. unfold flux. destruct (Req_EM_T gh 0); [apply Rabs_R0|contradiction]. }
    unfold q_out. rewrite !Z. lra.
  - apply Rmult_le_reg_r with gh; [lra|]. unfold q_out. pose proof (Fl 0%nat). pose proof (Fl 1%nat). pose proof (Fl 2%nat). pose proof (Fl 3%nat).
    rewrite <- A0 in *. rewrite <- A1 in *. fold dx dy in H, H1, H2, H3.
    assert (Rabs sd * (dx + dy) <= Rabs sd * (3 / 2 * gh)) by (apply Rmult_le_compat_l; lra). lra.
Qed.
Lemma q_in_nonneg f : 0 <= q_in ny nx f j i.
Proof.
  assert (P : forall x y, 0 <= Rmax x 0 - Rmin y 0) by (intros x y; destruct (maxmin x), (maxmin y); lra).
  unfold q_in. destruct (Nat.eqb ny 1).
  - destruct (inner nx i); [|lra]. pose proof (P (f 0%nat j (pred i)) (f 0%nat j (S i))). pose proof (P (f 2%nat j (S i)) (f 2%nat j (pred i))). lra.
  - destruct (inner ny j && inner nx i)%bool; [|lra].
    pose proof (P (f 0%nat j (pred i)) (f 0%nat j (S i))). pose proof (P (f 2%nat j (S i)) (f 2%nat j (pred i))).
    pose proof (P (f 1%nat (pred j) i) (f 1%nat (S j) i)). pose proof (P (f 3%nat (S j) i) (f 3%nat (pred j) i)). lra.
Qed.
Lemma relax_lower : 0 <= td -> zb j i - 3 / 10 <= relax ny nx ds dn zne td zb j i.
Proof.
  intros Htd. unfold relax. pose proof (q_in_nonneg (fluxes ny nx ds dn zne td zb)). pose proof q_out_bound.
  pose proof (slope_diff_bound td (grad_h (grad_down ny nx zb ds dn) j i) ((zb j i - zne j i) / ds j i) Htd). fold sd in H1. lra.
Qed.
(** Where the sand above the non-erodible layer limits the flux, the layer is not uncovered. *)
Lemma relax_limited : (j < ny)%nat -> (i < nx)%nat -> 0 <= td -> 3 / 10 <= ds j i -> zne j i <= zb j i ->
  (zb j i - zne j i) / ds j i < slope ny zb ds dn j i - td \/ slope ny zb ds dn j i <= td ->
  zne j i <= relax ny nx ds dn zne td zb j i.
Proof.
  intros Hj Hi Htd Hds Hz H. destruct (border_dec ny nx j i) as [B|B]; [now rewrite relax_border|].
  unfold relax. pose proof (q_in_nonneg (fluxes ny nx ds dn zne td zb)) as QI. pose proof q_out_bound as QO.
  assert (N : 0 <= (zb j i - zne j i) / ds j i) by (unfold Rdiv; apply Rmult_le_pos; [lra|left; apply Rinv_0_lt_compat; lra]).
  assert (Bs : Rabs sd <= (zb j i - zne j i) / ds j i).
  { unfold sd. rewrite grad_h_slope by assumption. unfold slope_diff. destruct (Rltb_spec ((zb j i - zne j i) / ds j i) (slope ny zb ds dn j i - td)) as [L|L].
    - rewrite Rabs_pos_eq by (now apply tanh_nonneg). now apply tanh_le_id.
    - destruct H as [H|H]; [contradiction|]. destruct (Rgtb_spec (slope ny zb ds dn j i) td); [lra|]. cbn [andb]. rewrite Rabs_R0. exact N. }
  assert (D : 3 / 10 * ((zb j i - zne j i) / ds j i) <= zb j i - zne j i).
  { apply Rmult_le_reg_r with (ds j i); [lra|]. replace (3 / 10 * ((zb j i - zne j i) / ds j i) * ds j i) with (3 / 10 * (zb j i - zne j i)) by (field; lra).
    assert (0 <= (zb j i - zne j i) * (ds j i - 3 / 10)) by (apply Rmult_le_pos; lra). lra. }
  lra.
Qed.
End Out.
Lemma ava_lower process ny nx ds dn zne ts tdy n zb j i : 0 <= tan (deg2rad tdy) ->
  zb j i - 3 / 10 * INR n <= avalanche process ny nx ds dn zne ts tdy n zb j i.
Proof.
  intros Ht. pose proof (pos_INR n) as Pn. unfold avalanche. destruct process; [|lra]. destruct (Rgtb _ _); [|lra].
  destruct (loop_iter ny nx ds dn zne (tan (deg2rad tdy)) n zb) as [k [K1 [K2 _]]]. rewrite K2. clear K2. apply le_INR in K1.
  apply Rle_trans with (zb j i - 3 / 10 * INR k); [lra|]. clear K1. induction k as [|k IH]; [cbn; lra|].
  rewrite S_INR. set (g := relax ny nx ds dn zne (tan (deg2rad tdy))) in *. change (Nat.iter (S k) g zb) with (g (Nat.iter k g zb)).
  pose proof (relax_lower ny nx ds dn zne (tan (deg2rad tdy)) (Nat.iter k g zb) j i Ht) as R. fold g in R. lra.
Qed.

(** ** Angles *)
Lemma tan_45 : tan (deg2rad 45) = 1.
Proof. unfold deg2rad. replace (45 * (PI / 180)) with (PI / 4) by lra. apply tan_PI4. Qed.
Definition theta (t : R) : R := atan t * 180 / PI.
Lemma tan_theta t : tan (deg2rad (theta t)) = t.
Proof. unfold deg2rad, theta. replace (atan t * 180 / PI * (PI / 180)) with (atan t) by (pose proof PI_RGT_0; field; lra). apply tan_atan. Qed.
Lemma theta_half : theta (1 / 2) < 45.
Proof.
  unfold theta. assert (atan (1 / 2) < PI / 4) by (rewrite <- atan_1; apply atan_increasing; lra). pose proof PI_RGT_0.
  apply Rmult_lt_reg_r with PI; [lra|]. unfold Rdiv. rewrite Rmult_assoc, Rinv_l by lra. lra.
Qed.

(** ** A pile in the middle of a row of [2*k+1] cells *)
Definition row (l : list R) : grid := fun j i => nth i l 0.
Definition ones : grid := fun _ _ => 1.
Definition zeros : grid := fun _ _ => 0.
Lemma slope_row l i : slope 1 (row l) ones ones 0 i = drop (nth i l 0) (nth (S i) l 0) (nth (pred i) l 0).
Proof.
  unfold slope, row, ones. cbn [Nat.eqb]. set (d := drop _ _ _). assert (0 <= d) by apply drop_nonneg.
  replace (d / 1 * (d / 1) + 0 * 0) with (d * d) by lra. now apply sqrt_square.
Qed.
Ltac drops := unfold drop, Rmin, Rmax; repeat match goal with |- context [Rle_dec ?a ?b] => destruct (Rle_dec a b) | _ : context [Rle_dec ?a ?b] |- _ => destruct (Rle_dec a b) end; try lra.

(** Sand that slides onto the border of the grid is lost. *)
Lemma c34_lost : exists ny nx ds dn zne ts tdy n zb, (forall j i, 0 < ds j i /\ 0 < dn j i /\ zne j i <= zb j i) /\ tdy <= ts /\
  total ny nx (avalanche true ny nx ds dn zne ts tdy n zb) < total ny nx zb.
Proof.
  exists 1%nat, 3%nat, ones, ones, zeros, 45, 45, 1%nat, (row [0; 10; 0]).
  split; [intros j i; unfold ones, zeros, row; split; [lra|split; [lra|]]; do 3 (destruct i as [|i]; [cbn; lra|]); destruct i; cbn; lra|]. split; [lra|].
  assert (NB : ~ on_border 1 3 0 1) by (unfold on_border; lia).
  assert (SL : slope 1 (row [0; 10; 0]) ones ones 0 1 = 10) by (rewrite slope_row; cbn [nth pred]; drops).
  unfold avalanche. rewrite tan_45.
  assert (M : 10 <= grid_max 1 3 (grad_h (grad_down 1 3 (row [0; 10; 0]) ones ones))).
  { assert (G := grid_max_ge 1 3 (grad_h (grad_down 1 3 (row [0; 10; 0]) ones ones)) 0 1 ltac:(lia) ltac:(lia)).
    rewrite (grad_h_slope 1 3) in G by (try lia; exact NB). now rewrite SL in G. }
  destruct (Rgtb_spec (grid_max 1 3 (grad_h (grad_down 1 3 (row [0; 10; 0]) ones ones))) 1); [|lra]. cbn [avalanche_loop].
  destruct (Rltb_spec (grid_max 1 3 (grad_h (grad_down 1 3 (row [0; 10; 0]) ones ones))) 1); [lra|].
  assert (B0 : on_border 1 3 0 0) by (now left). assert (B2 : on_border 1 3 0 2) by (right; now left).
  unfold total. cbn [rsum]. rewrite (relax_border _ _ _ _ _ _ _ 0 0 B0), (relax_border _ _ _ _ _ _ _ 0 2 B2). set (z := relax _ _ _ _ _ _ _ _ 1).
  assert (Hz : z < 10); [|unfold row; cbn [nth]; lra].
  unfold z, relax. set (f := fluxes _ _ _ _ _ _ _).
  assert (QI : q_in 1 3 f 0 1 = 0).
  { unfold q_in. cbn [Nat.eqb inner Nat.leb Nat.ltb andb pred]. unfold f. rewrite !fluxes_border by assumption. drops. }
  rewrite QI. assert (QO : 0 < q_out f 0 1); [|unfold row; cbn [nth]; lra].
  assert (SD : 0 < slope_diff 1 10 10).
  { unfold slope_diff. destruct (Rltb_spec 10 (10 - 1)); [lra|]. destruct (Rgtb_spec 10 1); [|lra]. destruct (Rgtb_spec 10 0); [|lra]. cbn [andb].
    assert (tanh (9 / 10 * 1) < tanh 10) by (apply tanh_lt; lra). lra. }
  assert (F0 : f 0%nat 0%nat 1%nat = slope_diff 1 10 10).
  { unfold f, fluxes. rewrite (grad_h_slope 1 3) by (try lia; exact NB). rewrite SL.
    replace ((row [0; 10; 0] 0%nat 1%nat - zeros 0%nat 1%nat) / ones 0%nat 1%nat) with 10 by (unfold row, zeros, ones; cbn [nth]; lra).
    replace (grad_down 1 3 (row [0; 10; 0]) ones ones 0 0 1) with 10; [unfold flux; destruct (Req_EM_T 10 0); [lra|field]|].
    unfold grad_down. cbn [Nat.eqb inner Nat.leb Nat.ltb andb orb pred]. unfold row, ones. cbn [nth]. unfold grad_pos. destruct (Rgtb_spec 0 10); [lra|]. destruct (Rgtb_spec 0 0); [lra|]. cbn [andb]. lra. }
  unfold q_out. rewrite F0. rewrite (Rabs_pos_eq _ (Rlt_le _ _ SD)).
  pose proof (Rabs_pos (f 1%nat 0%nat 1%nat)). pose proof (Rabs_pos (f 2%nat 0%nat 1%nat)). pose proof (Rabs_pos (f 3%nat 0%nat 1%nat)). lra.
Qed.

(** A bed below the static angle of repose. *)
Lemma c34_stable_case : (0 < 1)%nat /\ (0 < 3)%nat /\ 0 <= tan (deg2rad 45) /\ stable 1 3 (row [0; 1; 1 / 2]) ones ones (fun s => s <= tan (deg2rad 45)).
Proof.
  rewrite tan_45. split; [lia|]. split; [lia|]. split; [lra|]. intros j i Hj Hi B. assert (j = 0%nat) by lia. assert (i = 1%nat) by (unfold on_border in B; lia). subst.
  rewrite slope_row. cbn [nth pred]. drops.
Qed.
(** A steep bed. *)
Lemma c34_stops_case : exists j i, (j < 1)%nat /\ (i < 3)%nat /\ ~ on_border 1 3 j i /\ tan (deg2rad 45) < slope 1 (row [0; 10; 0]) ones ones j i.
Proof. exists 0%nat, 1%nat. split; [lia|]. split; [lia|]. split; [unfold on_border; lia|]. rewrite tan_45, slope_row. cbn [nth pred]. drops. Qed.
(** A pile away from the border. *)
Lemma c34_conserved_case : 0 <= tan (deg2rad 45) /\
  (forall k, (k < 1)%nat -> forall j i j' i', (j < 1)%nat -> (i < 7)%nat -> ~ on_border 1 7 j i -> on_border 1 7 j' i' -> adjacent j i j' i' ->
     0 < ones j i /\ zeros j i <= Nat.iter k (relax 1 7 ones ones zeros (tan (deg2rad 45))) (row [0; 0; 0; 10; 0; 0; 0]) j i /\
     slope 1 (Nat.iter k (relax 1 7 ones ones zeros (tan (deg2rad 45))) (row [0; 0; 0; 10; 0; 0; 0])) ones ones j i <= tan (deg2rad 45)).
Proof.
  rewrite tan_45. split; [lra|]. intros k Hk j i j' i' Hj Hi B B' A. assert (k = 0%nat) by lia. subst k. change (Nat.iter 0 ?f ?z) with z.
  assert (j = 0%nat) by lia. assert (E : i = 1%nat \/ i = 5%nat) by (unfold on_border, adjacent in *; lia). subst j.
  split; [unfold ones; lra|]. destruct E as [-> | ->]; (split; [unfold zeros, row; cbn [nth]; lra|rewrite slope_row; cbn [nth pred]; drops]).
Qed.

(** *** C57 *)
Definition c57_delta : R := tanh (1 / 2) - tanh (9 / 10 * (1 / 2)).
Definition c57_bed : grid := row [0; 3; 0; 1 / 2 + c57_delta / 10; 0].
Definition c57_zne : grid := row [0; 0; 0; 1 / 2; 0].
Lemma c57_delta_pos : 0 < c57_delta /\ c57_delta < 1.
Proof.
  unfold c57_delta. assert (tanh (9 / 10 * (1 / 2)) < tanh (1 / 2)) by (apply tanh_lt; lra). pose proof (tanh_lt_1 (1 / 2)).
  pose proof (tanh_nonneg (9 / 10 * (1 / 2)) ltac:(lra)). lra.
Qed.
Lemma c57_uncovered : exists ny nx ds dn zne ts tdy n zb j i, (forall j i, 1 <= ds j i /\ 1 <= dn j i /\ zne j i <= zb j i) /\ tdy < ts /\
  zne j i < zb j i /\ avalanche true ny nx ds dn zne ts tdy n zb j i < zne j i.
Proof.
  destruct c57_delta_pos as [P1 P2]. exists 1%nat, 5%nat, ones, ones, c57_zne, 45, (theta (1 / 2)), 1%nat, c57_bed, 0%nat, 3%nat.
  split; [intros j i; unfold ones, c57_zne, c57_bed, row; split; [lra|split; [lra|]]; do 5 (destruct i as [|i]; [cbn; lra|]); destruct i; cbn; lra|].
  split; [exact theta_half|]. split; [unfold c57_zne, c57_bed, row; cbn [nth]; lra|].
  assert (NB1 : ~ on_border 1 5 0 1) by (unfold on_border; lia). assert (NB2 : ~ on_border 1 5 0 2) by (unfold on_border; lia).
  assert (NB3 : ~ on_border 1 5 0 3) by (unfold on_border; lia). assert (B4 : on_border 1 5 0 4) by (right; now left).
  assert (S1 : slope 1 c57_bed ones ones 0 1 = 3) by (unfold c57_bed; rewrite slope_row; cbn [nth pred]; drops).
  assert (S2 : slope 1 c57_bed ones ones 0 2 = 0) by (unfold c57_bed; rewrite slope_row; cbn [nth pred]; drops).
  assert (S3 : slope 1 c57_bed ones ones 0 3 = 1 / 2 + c57_delta / 10) by (unfold c57_bed; rewrite slope_row; cbn [nth pred]; drops).
  unfold avalanche. rewrite tan_45, tan_theta.
  assert (M : 3 <= grid_max 1 5 (grad_h (grad_down 1 5 c57_bed ones ones))).
  { assert (G := grid_max_ge 1 5 (grad_h (grad_down 1 5 c57_bed ones ones)) 0 1 ltac:(lia) ltac:(lia)).
    rewrite (grad_h_slope 1 5) in G by (try lia; exact NB1). now rewrite S1 in G. }
  destruct (Rgtb_spec (grid_max 1 5 (grad_h (grad_down 1 5 c57_bed ones ones))) 1); [|lra]. cbn [avalanche_loop].
  destruct (Rltb_spec (grid_max 1 5 (grad_h (grad_down 1 5 c57_bed ones ones))) (1 / 2)); [lra|].
  unfold relax. set (f := fluxes _ _ _ _ _ _ _).
  assert (Z2 : forall d, f d 0%nat 2%nat = 0).
  { intros d. apply gentle_flux; [unfold ones; lra|unfold c57_zne, c57_bed, row; cbn [nth]; lra|]. rewrite (grad_h_slope 1 5) by (try lia; exact NB2). rewrite S2. lra. }
  assert (QI : q_in 1 5 f 0 3 = 0).
  { unfold q_in. cbn [Nat.eqb inner Nat.leb Nat.ltb andb pred]. rewrite !Z2. unfold f. rewrite !fluxes_border by assumption. drops. }
  rewrite QI. set (gh := 1 / 2 + c57_delta / 10) in *.
  assert (SD : slope_diff (1 / 2) gh (c57_delta / 10) = tanh gh - tanh (9 / 10 * (1 / 2))).
  { unfold slope_diff. destruct (Rltb_spec (c57_delta / 10) (gh - 1 / 2)); [unfold gh in *; lra|]. destruct (Rgtb_spec gh (1 / 2)); [|unfold gh in *; lra].
    destruct (Rgtb_spec (c57_delta / 10) 0); [|lra]. reflexivity. }
  assert (LB : c57_delta <= slope_diff (1 / 2) gh (c57_delta / 10)).
  { rewrite SD. unfold c57_delta at 1. assert (tanh (1 / 2) <= tanh gh) by (apply tanh_le; unfold gh; lra). lra. }
  assert (Gd : grad_down 1 5 c57_bed ones ones 0 0 3 = gh /\ grad_down 1 5 c57_bed ones ones 2 0 3 = gh).
  { unfold grad_down. cbn [Nat.eqb inner Nat.leb Nat.ltb andb orb pred]. unfold c57_bed, row, ones. cbn [nth]. fold gh.
    unfold grad_pos, grad_neg. destruct (Rgtb_spec 0 gh); [unfold gh in *; lra|]. destruct (Rgtb_spec 0 0); [lra|]. cbn [andb]. split; lra. }
  destruct Gd as [G0 G2].
  assert (F : f 0%nat 0%nat 3%nat = slope_diff (1 / 2) gh (c57_delta / 10) /\ f 2%nat 0%nat 3%nat = slope_diff (1 / 2) gh (c57_delta / 10)).
  { unfold f, fluxes. rewrite (grad_h_slope 1 5) by (try lia; exact NB3). rewrite S3, G0, G2.
    replace ((c57_bed 0%nat 3%nat - c57_zne 0%nat 3%nat) / ones 0%nat 3%nat) with (c57_delta / 10) by (unfold c57_bed, c57_zne, row, ones; cbn [nth]; lra).
    unfold flux. destruct (Req_EM_T gh 0); [unfold gh in *; lra|]. split; field; assumption. }
  destruct F as [F0 F2]. unfold q_out. rewrite F0, F2. rewrite (Rabs_pos_eq (slope_diff _ _ _)) by lra.
  pose proof (Rabs_pos (f 1%nat 0%nat 3%nat)). pose proof (Rabs_pos (f 3%nat 0%nat 3%nat)).
  replace (c57_bed 0%nat 3%nat) with gh by reflexivity. replace (c57_zne 0%nat 3%nat) with (1 / 2) by reflexivity. unfold gh at 1. lra.
Qed.
(** The partial statement applies: little sand on a steep cell. *)
Lemma c57_limited_case : (0 < 1)%nat /\ (1 < 3)%nat /\ 0 <= 1 / 2 /\ 3 / 10 <= ones 0%nat 1%nat /\ row [0; 5; 0] 0%nat 1%nat <= row [0; 6; 0] 0%nat 1%nat /\
  (row [0; 6; 0] 0%nat 1%nat - row [0; 5; 0] 0%nat 1%nat) / ones 0%nat 1%nat < slope 1 (row [0; 6; 0]) ones ones 0 1 - 1 / 2.
Proof.
  split; [lia|]. split; [lia|]. split; [lra|]. split; [unfold ones; lra|]. rewrite slope_row. unfold row, ones. cbn [nth pred]. split; [lra|]. drops.
Qed.
(** On a grid with cells of different size, sand is created even away from the border. *)
Definition c34_ds : grid := row [1; 1; 1; 2; 1].
Definition c34_pile : grid := row [0; 0; 10; 0; 0].
Lemma c34_created : exists ny nx ds dn zne ts tdy n zb, (forall j i, (j < ny)%nat -> (i < nx)%nat -> 0 < ds j i /\ 0 < dn j i /\ zne j i <= zb j i) /\ tdy <= ts /\
  total ny nx (fun j i => zb j i * (ds j i * dn j i)) <
  total ny nx (fun j i => avalanche true ny nx ds dn zne ts tdy n zb j i * (ds j i * dn j i)).
Proof.
  exists 1%nat, 5%nat, c34_ds, ones, zeros, 45, 45, 1%nat, c34_pile.
  split; [intros j i _ Hi; unfold c34_ds, c34_pile, ones, zeros, row; do 5 (destruct i as [|i]; [cbn; lra|]); lia|]. split; [lra|].
  assert (NB1 : ~ on_border 1 5 0 1) by (unfold on_border; lia). assert (NB2 : ~ on_border 1 5 0 2) by (unfold on_border; lia).
  assert (NB3 : ~ on_border 1 5 0 3) by (unfold on_border; lia). assert (B4 : on_border 1 5 0 4) by (right; now left). assert (B0 : on_border 1 5 0 0) by (now left).
  assert (SL : forall i, slope 1 c34_pile c34_ds ones 0 i = sqrt (drop (nth i [0; 0; 10; 0; 0] 0) (nth (S i) [0; 0; 10; 0; 0] 0) (nth (pred i) [0; 0; 10; 0; 0] 0) / nth i [1; 1; 1; 2; 1] 0 *
     (drop (nth i [0; 0; 10; 0; 0] 0) (nth (S i) [0; 0; 10; 0; 0] 0) (nth (pred i) [0; 0; 10; 0; 0] 0) / nth i [1; 1; 1; 2; 1] 0))).
  { intros i. unfold slope. cbn [Nat.eqb]. unfold c34_pile, c34_ds, row. f_equal. lra. }
  assert (D2 : drop 10 0 0 = 10) by drops. assert (D1 : drop 0 10 0 = 0) by drops. assert (D3 : drop 0 0 10 = 0) by drops.
  assert (S2 : slope 1 c34_pile c34_ds ones 0 2 = 10) by (rewrite SL; cbn [nth pred]; rewrite D2; replace (10 / 1 * (10 / 1)) with (10 * 10) by lra; apply sqrt_square; lra).
  assert (S1 : slope 1 c34_pile c34_ds ones 0 1 = 0) by (rewrite SL; cbn [nth pred]; rewrite D1; replace (0 / 1 * (0 / 1)) with 0 by lra; apply sqrt_0).
  assert (S3 : slope 1 c34_pile c34_ds ones 0 3 = 0) by (rewrite SL; cbn [nth pred]; rewrite D3; replace (0 / 2 * (0 / 2)) with 0 by lra; apply sqrt_0).
  unfold avalanche. rewrite tan_45.
  assert (M : 10 <= grid_max 1 5 (grad_h (grad_down 1 5 c34_pile c34_ds ones))).
  { assert (G := grid_max_ge 1 5 (grad_h (grad_down 1 5 c34_pile c34_ds ones)) 0 2 ltac:(lia) ltac:(lia)).
    rewrite (grad_h_slope 1 5) in G by (try lia; exact NB2). now rewrite S2 in G. }
  destruct (Rgtb_spec (grid_max 1 5 (grad_h (grad_down 1 5 c34_pile c34_ds ones))) 1); [|lra]. cbn [avalanche_loop].
  destruct (Rltb_spec (grid_max 1 5 (grad_h (grad_down 1 5 c34_pile c34_ds ones))) 1); [lra|].
  unfold total. cbn [rsum]. rewrite (relax_border _ _ _ _ _ _ _ 0 0 B0), (relax_border _ _ _ _ _ _ _ 0 4 B4).
  unfold relax. set (f := fluxes _ _ _ _ _ _ _).
  assert (Z1 : forall d, f d 0%nat 1%nat = 0).
  { intros d. apply gentle_flux; [unfold c34_ds, row; cbn [nth]; lra|unfold zeros, c34_pile, row; cbn [nth]; lra|]. rewrite (grad_h_slope 1 5) by (try lia; exact NB1). rewrite S1. lra. }
  assert (Z3 : forall d, f d 0%nat 3%nat = 0).
  { intros d. apply gentle_flux; [unfold c34_ds, row; cbn [nth]; lra|unfold zeros, c34_pile, row; cbn [nth]; lra|]. rewrite (grad_h_slope 1 5) by (try lia; exact NB3). rewrite S3. lra. }
  assert (Z0 : forall d, f d 0%nat 0%nat = 0) by (intros d; now apply fluxes_border). assert (Z4 : forall d, f d 0%nat 4%nat = 0) by (intros d; now apply fluxes_border).
  assert (Zr : f 1%nat 0%nat 2%nat = 0 /\ f 3%nat 0%nat 2%nat = 0) by (split; apply fluxes_row; tauto). destruct Zr as [Zr1 Zr3].
  set (sd := slope_diff 1 10 10). assert (SD : 0 < sd).
  { unfold sd, slope_diff. destruct (Rltb_spec 10 (10 - 1)); [lra|]. destruct (Rgtb_spec 10 1); [|lra]. destruct (Rgtb_spec 10 0); [|lra]. cbn [andb].
    assert (tanh (9 / 10 * 1) < tanh 10) by (apply tanh_lt; lra). lra. }
  assert (F : f 0%nat 0%nat 2%nat = sd /\ f 2%nat 0%nat 2%nat = sd).
  { unfold f, fluxes. rewrite (grad_h_slope 1 5) by (try lia; exact NB2). rewrite S2.
    replace ((c34_pile 0%nat 2%nat - zeros 0%nat 2%nat) / c34_ds 0%nat 2%nat) with 10 by (unfold c34_pile, zeros, c34_ds, row; cbn [nth]; lra). fold sd.
    assert (Gd : grad_down 1 5 c34_pile c34_ds ones 0 0 2 = 10 /\ grad_down 1 5 c34_pile c34_ds ones 2 0 2 = 10).
    { unfold grad_down. cbn [Nat.eqb inner Nat.leb Nat.ltb andb orb pred]. unfold c34_pile, c34_ds, row. cbn [nth].
      unfold grad_pos, grad_neg. destruct (Rgtb_spec 0 10); [lra|]. destruct (Rgtb_spec 0 0); [lra|]. cbn [andb]. split; lra. }
    destruct Gd as [-> ->]. unfold flux. destruct (Req_EM_T 10 0); [lra|]. split; field. }
  destruct F as [F0 F2].
  assert (Q1 : q_in 1 5 f 0 1 = sd / 2) by (unfold q_in; cbn [Nat.eqb inner Nat.leb Nat.ltb andb pred]; rewrite !Z0, F0, F2; drops).
  assert (Q3 : q_in 1 5 f 0 3 = sd / 2) by (unfold q_in; cbn [Nat.eqb inner Nat.leb Nat.ltb andb pred]; rewrite !Z4, F0, F2; drops).
  assert (Q2 : q_in 1 5 f 0 2 = 0) by (unfold q_in; cbn [Nat.eqb inner Nat.leb Nat.ltb andb pred]; rewrite !Z1, !Z3; drops).
  assert (O1 : q_out f 0 1 = 0) by (unfold q_out; rewrite !Z1, Rabs_R0; lra). assert (O3 : q_out f 0 3 = 0) by (unfold q_out; rewrite !Z3, Rabs_R0; lra).
  assert (O2 : q_out f 0 2 = sd) by (unfold q_out; rewrite F0, F2, Zr1, Zr3, Rabs_R0, (Rabs_pos_eq sd) by lra; lra).
  rewrite Q1, Q2, Q3, O1, O2, O3. unfold c34_pile, c34_ds, ones, row. cbn [nth]. lra.
Qed.
