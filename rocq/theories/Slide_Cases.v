(** Concrete cases for what does and does not matter to avalanching. *)
From Verif Require Import Base Avalanche_Model Avalanche_Spec Avalanche_Proofs Avalanche_Cases Slide_Spec Slide_Proofs.
From Coq Require Import Reals Lra Lia Bool.
Open Scope R_scope.

(** The same value in all cells. *)
Definition all (w : R) : grid := fun _ _ => w.
(** A pile on one cell: row [a], column [b]. *)
Definition pile (a b : nat) (h : R) : grid := fun j i => if (Nat.eqb j a && Nat.eqb i b)%bool then h else 0.
Lemma pos_all a b h w j i : 0 < w -> 0 <= h -> 0 < all w j i /\ zeros j i <= pile a b h j i.
Proof. intros W H. unfold all, zeros, pile. destruct (_ && _)%bool; lra. Qed.

(** What leaves a cell, by the size of its slopes. *)
Lemma leaves ny nx ds dn zne td z j i : let g := fun d => grad_down ny nx z ds dn d j i in let gh := grad_h (grad_down ny nx z ds dn) j i in 0 < gh ->
  q_out (fluxes ny nx ds dn zne td z) j i = Rabs (slope_diff td gh ((z j i - zne j i) / ds j i)) * ((Rabs (g 0%nat) + Rabs (g 1%nat) + Rabs (g 2%nat) + Rabs (g 3%nat)) / (2 * gh)).
Proof.
  intros g gh P. unfold q_out, fluxes, flux. fold gh. destruct (Req_EM_T gh 0) as [E|_]; [lra|]. unfold Rdiv. rewrite !Rabs_mult. rewrite (Rabs_pos_eq (/ gh)) by (apply Rlt_le, Rinv_0_lt_compat, P).
  unfold g. field. lra.
Qed.

(** ** One row of three cells, a pile in the middle *)
Lemma row_border i : i <> 1%nat -> (i < 3)%nat -> on_border 1 3 0 i.
Proof. unfold on_border. lia. Qed.
Lemma pile_slope w h : 0 < w -> 0 < h -> grad_down 1 3 (pile 0 1 h) (all w) (all w) 0 0 1 = h / w /\ grad_down 1 3 (pile 0 1 h) (all w) (all w) 2 0 1 = h / w /\
  grad_h (grad_down 1 3 (pile 0 1 h) (all w) (all w)) 0 1 = h / w.
Proof.
  intros W H. assert (G0 : grad_down 1 3 (pile 0 1 h) (all w) (all w) 0 0 1 = h / w).
  { unfold grad_down, pile, all. cbn. unfold grad_pos. destruct (Rgtb_spec 0 h); [lra|]. destruct (Rgtb_spec 0 0); [lra|]. cbn. f_equal. ring. }
  assert (G2 : grad_down 1 3 (pile 0 1 h) (all w) (all w) 2 0 1 = h / w).
  { unfold grad_down, pile, all. cbn. unfold grad_neg. destruct (Rgtb_spec 0 h); [lra|]. destruct (Rgtb_spec 0 0); [lra|]. cbn. f_equal. ring. }
  split; [exact G0|]. split; [exact G2|]. unfold grad_h. rewrite G0, G2. change (grad_down 1 3 (pile 0 1 h) (all w) (all w) 1 0 1) with 0. change (grad_down 1 3 (pile 0 1 h) (all w) (all w) 3 0 1) with 0.
  replace (1 / 2 * (h / w * (h / w)) + 1 / 2 * (0 * 0) + 1 / 2 * (h / w * (h / w)) + 1 / 2 * (0 * 0)) with (h / w * (h / w)) by (field; lra). apply sqrt_square. apply Rlt_le, Rdiv_lt_0_compat; assumption.
Qed.
Lemma pile_pass w h td : 0 < w -> 0 < h -> relax 1 3 (all w) (all w) zeros td (pile 0 1 h) 0 1 = h - 1 / 5 * Rabs (slope_diff td (h / w) (h / w)).
Proof.
  intros W H. destruct (pile_slope w h W H) as (G0 & G2 & GH). assert (P : 0 < h / w) by (apply Rdiv_lt_0_compat; assumption). unfold relax.
  assert (Q : q_in 1 3 (fluxes 1 3 (all w) (all w) zeros td (pile 0 1 h)) 0 1 = 0).
  { unfold q_in. cbn [Nat.eqb inner Nat.leb Nat.ltb andb pred]. rewrite !fluxes_border by (unfold on_border; lia). drops. }
  rewrite Q, leaves by (rewrite GH; exact P). rewrite GH, G0, G2. change (grad_down 1 3 (pile 0 1 h) (all w) (all w) 1 0 1) with 0. change (grad_down 1 3 (pile 0 1 h) (all w) (all w) 3 0 1) with 0.
  rewrite Rabs_R0, (Rabs_pos_eq (h / w)) by lra. replace (pile 0 1 h 0%nat 1%nat - zeros 0%nat 1%nat) with h by (unfold pile, zeros; cbn; ring). change (all w 0%nat 1%nat) with w.
  change (pile 0 1 h 0%nat 1%nat) with h. replace ((h / w + 0 + h / w + 0) / (2 * (h / w))) with 1 by (field; lra). ring.
Qed.
Lemma pile_once w h ts td : 0 < w -> 0 < h -> tan (deg2rad ts) < h / w -> tan (deg2rad td) <= h / w ->
  avalanche true 1 3 (all w) (all w) zeros ts td 1 (pile 0 1 h) 0 1 = h - 1 / 5 * Rabs (slope_diff (tan (deg2rad td)) (h / w) (h / w)).
Proof.
  intros W H S D. destruct (pile_slope w h W H) as (_ & _ & GH). assert (M : h / w <= grid_max 1 3 (grad_h (grad_down 1 3 (pile 0 1 h) (all w) (all w)))).
  { rewrite <- GH at 1. apply grid_max_ge; lia. }
  unfold avalanche. destruct (Rgtb_spec (grid_max 1 3 (grad_h (grad_down 1 3 (pile 0 1 h) (all w) (all w)))) (tan (deg2rad ts))); [|lra]. cbn [avalanche_loop].
  destruct (Rltb_spec (grid_max 1 3 (grad_h (grad_down 1 3 (pile 0 1 h) (all w) (all w)))) (tan (deg2rad td))); [lra|]. apply pile_pass; assumption.
Qed.
Lemma sd_steep td s : 0 <= td -> td < s -> 0 < slope_diff td s s.
Proof.
  intros T S. unfold slope_diff. destruct (Rltb_spec s (s - td)); [lra|]. destruct (Rgtb_spec s td); [|lra]. destruct (Rgtb_spec s 0); [|lra]. cbn [andb].
  assert (tanh (9 / 10 * td) < tanh s) by (apply tanh_lt; lra). lra.
Qed.
(** ** C175 *)
Lemma c175_case : lifted 1 3 5 zeros (all 5) /\ lifted 1 3 5 (pile 0 1 10) (fun j i => pile 0 1 10 j i + 5) /\ avalanche true 1 3 (all 1) (all 1) zeros 45 45 1 (pile 0 1 10) 0 1 < 10.
Proof.
  split; [intros j i _ _; unfold zeros, all; ring|]. split; [intros j i _ _; reflexivity|]. rewrite pile_once by (try rewrite tan_45; lra). rewrite tan_45.
  pose proof (sd_steep 1 (10 / 1) ltac:(lra) ltac:(lra)). rewrite Rabs_pos_eq by lra. lra.
Qed.
(** ** C176 *)
Lemma c176_s_case : flipped_s 1 3 (row [0; 10; 1]) (row [1; 10; 0]) /\ flipped_s 1 3 (row [1; 1; 2]) (row [2; 1; 1]) /\ flipped_s 1 3 ones ones /\ flipped_s 1 3 zeros zeros /\
  tan (deg2rad 45) < slope 1 (row [0; 10; 1]) ones ones 0 1.
Proof.
  split; [|split; [|split; [|split]]].
  - intros j i _ Hi. do 3 (destruct i as [|i]; [reflexivity|]). lia.
  - intros j i _ Hi. do 3 (destruct i as [|i]; [reflexivity|]). lia.
  - intros j i _ _. reflexivity.
  - intros j i _ _. reflexivity.
  - rewrite tan_45, slope_row. cbn [nth pred]. drops.
Qed.
Lemma c176_n_case : flipped_n 4 3 (pile 1 1 10) (pile 2 1 10) /\ flipped_n 4 3 ones ones /\ flipped_n 4 3 zeros zeros.
Proof.
  split; [|split; intros j i _ _; reflexivity]. intros j i Hj Hi. do 4 (destruct j as [|j]; [reflexivity|]). lia.
Qed.
Lemma c176_turn_case : exchanged 4 3 (pile 2 1 10) (pile 1 2 10) /\ exchanged 4 3 ones ones /\ exchanged 4 3 zeros zeros /\ (2 <= 4)%nat /\ (2 <= 3)%nat.
Proof.
  split; [|split; [intros j i _ _; reflexivity|split; [intros j i _ _; reflexivity|lia]]]. intros j i Hj Hi. unfold pile. rewrite andb_comm. reflexivity.
Qed.
(** One row slides, one column does not. *)
Lemma c176_column : exists ds dn zne z z' ts tdy n, (forall j i, 0 < ds j i /\ 0 < dn j i /\ zne j i <= z j i) /\ exchanged 1 3 ds dn /\ exchanged 1 3 dn ds /\ exchanged 1 3 zne zne /\ exchanged 1 3 z z' /\
  ~ exchanged 1 3 (avalanche true 1 3 ds dn zne ts tdy n z) (avalanche true 3 1 ds dn zne ts tdy n z').
Proof.
  exists (all 1), (all 1), zeros, (pile 0 1 10), (pile 1 0 10), 45, 45, 1%nat. split; [intros j i; destruct (pos_all 0 1 10 1 j i); [lra|lra|auto]|].
  split; [intros j i _ _; reflexivity|]. split; [intros j i _ _; reflexivity|]. split; [intros j i _ _; reflexivity|].
  split; [intros j i _ _; unfold pile; rewrite andb_comm; reflexivity|].
  intros X. specialize (X 0%nat 1%nat ltac:(lia) ltac:(lia)). rewrite ava_border in X by (left; reflexivity). rewrite pile_once in X by (try rewrite tan_45; lra). rewrite tan_45 in X.
  pose proof (sd_steep 1 (10 / 1) ltac:(lra) ltac:(lra)). rewrite Rabs_pos_eq in X by lra. change (pile 1 0 10 1%nat 0%nat) with 10 in X. lra.
Qed.
(** Cells that are longer than wide: the depth of the sand is divided by the length along the row. *)
Definition thin : grid := fun j i => if (Nat.eqb j 1 && Nat.eqb i 1)%bool then 19 / 2 else 0.
Lemma peak ds dn h : 0 < ds -> 0 < dn -> 0 < h -> let g := grad_down 3 3 (pile 1 1 h) (all ds) (all dn) in
  g 0%nat 1%nat 1%nat = h / ds /\ g 2%nat 1%nat 1%nat = h / ds /\ g 1%nat 1%nat 1%nat = h / dn /\ g 3%nat 1%nat 1%nat = h / dn.
Proof.
  intros A B H g. unfold g, grad_down, pile, all. cbn. unfold grad_pos, grad_neg. destruct (Rgtb_spec 0 h); [lra|]. destruct (Rgtb_spec 0 0); [lra|]. cbn. repeat split; f_equal; ring.
Qed.
Lemma peak_pass ds dn h td : 0 < ds -> 0 < dn -> 0 < h -> forall s, s = sqrt (h / ds * (h / ds) + h / dn * (h / dn)) -> 0 < s ->
  relax 3 3 (all ds) (all dn) thin td (pile 1 1 h) 1 1 = h - 1 / 5 * (Rabs (slope_diff td s ((h - 19 / 2) / ds)) * ((h / ds + h / dn) / s)) /\ grad_h (grad_down 3 3 (pile 1 1 h) (all ds) (all dn)) 1 1 = s.
Proof.
  intros A B H s E P. destruct (peak ds dn h A B H) as (G0 & G2 & G1 & G3). assert (0 < h / ds) by (apply Rdiv_lt_0_compat; assumption). assert (0 < h / dn) by (apply Rdiv_lt_0_compat; assumption).
  assert (GH : grad_h (grad_down 3 3 (pile 1 1 h) (all ds) (all dn)) 1 1 = s).
  { unfold grad_h. rewrite G0, G1, G2, G3, E. f_equal. field. lra. }
  split; [|exact GH]. unfold relax.
  assert (Q : q_in 3 3 (fluxes 3 3 (all ds) (all dn) thin td (pile 1 1 h)) 1 1 = 0).
  { unfold q_in. cbn [Nat.eqb inner Nat.leb Nat.ltb andb pred]. rewrite !fluxes_border by (unfold on_border; lia). drops. }
  rewrite Q, leaves by (rewrite GH; exact P). rewrite GH, G0, G1, G2, G3. rewrite (Rabs_pos_eq (h / ds)), (Rabs_pos_eq (h / dn)) by lra.
  change (pile 1 1 h 1%nat 1%nat) with h. change (thin 1%nat 1%nat) with (19 / 2). change (all ds 1%nat 1%nat) with ds.
  replace ((h / ds + h / dn + h / ds + h / dn) / (2 * s)) with ((h / ds + h / dn) / s) by (field; lra). ring.
Qed.
Lemma sd_thin td s ne : ne < s - td -> slope_diff td s ne = tanh ne.
Proof. intros H. unfold slope_diff. destruct (Rltb_spec ne (s - td)); [reflexivity|lra]. Qed.
Lemma peak_once ds dn : 0 < ds -> 0 < dn -> 3 <= 10 / ds -> 1 / 2 / ds <= 1 -> let s := sqrt (10 / ds * (10 / ds) + 10 / dn * (10 / dn)) in
  avalanche true 3 3 (all ds) (all dn) thin 45 45 1 (pile 1 1 10) 1 1 = 10 - 1 / 5 * (tanh (1 / 2 / ds) * ((10 / ds + 10 / dn) / s)) /\ 0 < s.
Proof.
  intros A B L N s. assert (P1 : 0 < 10 / dn) by (apply Rdiv_lt_0_compat; lra). assert (S3 : 3 <= s).
  { unfold s. rewrite <- (sqrt_square 3) by lra. apply sqrt_le_1_alt. nra. }
  destruct (peak_pass ds dn 10 1 A B ltac:(lra) s eq_refl ltac:(lra)) as [Q G]. split; [|lra].
  assert (M : s <= grid_max 3 3 (grad_h (grad_down 3 3 (pile 1 1 10) (all ds) (all dn)))) by (rewrite <- G at 1; apply grid_max_ge; lia).
  unfold avalanche. rewrite tan_45. destruct (Rgtb_spec (grid_max 3 3 (grad_h (grad_down 3 3 (pile 1 1 10) (all ds) (all dn)))) 1); [|lra]. cbn [avalanche_loop].
  destruct (Rltb_spec (grid_max 3 3 (grad_h (grad_down 3 3 (pile 1 1 10) (all ds) (all dn)))) 1); [lra|]. rewrite Q.
  replace (10 - 19 / 2) with (1 / 2) by lra. rewrite sd_thin by lra. rewrite (Rabs_pos_eq (tanh _)); [reflexivity|]. apply tanh_nonneg. apply Rlt_le, Rdiv_lt_0_compat; lra.
Qed.
Lemma c176_oblong : exists ds dn zne z z' zne' ts tdy n, (forall j i, 0 < ds j i /\ 0 < dn j i /\ zne j i <= z j i) /\ exchanged 3 3 ds ds /\ exchanged 3 3 dn dn /\ exchanged 3 3 zne zne' /\ exchanged 3 3 z z' /\
  ~ exchanged 3 3 (avalanche true 3 3 ds dn zne ts tdy n z) (avalanche true 3 3 dn ds zne' ts tdy n z').
Proof.
  exists (all 1), (all 2), thin, (pile 1 1 10), (pile 1 1 10), thin, 45, 45, 1%nat.
  split; [intros j i; unfold all, thin, pile; destruct (_ && _)%bool; lra|]. split; [intros j i _ _; reflexivity|]. split; [intros j i _ _; reflexivity|].
  split; [intros j i _ _; unfold thin; rewrite andb_comm; reflexivity|]. split; [intros j i _ _; unfold pile; rewrite andb_comm; reflexivity|].
  intros X. specialize (X 1%nat 1%nat ltac:(lia) ltac:(lia)). destruct (peak_once 1 2 ltac:(lra) ltac:(lra) ltac:(lra) ltac:(lra)) as [Q1 P1]. destruct (peak_once 2 1 ltac:(lra) ltac:(lra) ltac:(lra) ltac:(lra)) as [Q2 _].
  rewrite Q1, Q2 in X. replace (10 / 2 * (10 / 2) + 10 / 1 * (10 / 1)) with (10 / 1 * (10 / 1) + 10 / 2 * (10 / 2)) in X by ring. set (s := sqrt _) in *.
  replace (10 / 2 + 10 / 1) with (10 / 1 + 10 / 2) in X by ring. assert (T : tanh (1 / 2 / 2) < tanh (1 / 2 / 1)) by (apply tanh_lt; lra).
  assert (0 < (10 / 1 + 10 / 2) / s) by (apply Rdiv_lt_0_compat; lra). nra.
Qed.
(** ** C177 *)
Lemma c177_case : 0 < 100 /\ in_unit 1 3 100 (all 1) (all 100) /\ in_unit 1 3 100 zeros zeros /\ in_unit 1 3 100 (pile 0 1 10) (pile 0 1 1000) /\ relax 1 3 (all 1) (all 1) zeros 1 (pile 0 1 10) 0 1 < 10.
Proof.
  split; [lra|]. split; [intros j i _ _; unfold all; ring|]. split; [intros j i _ _; unfold zeros; ring|]. split; [intros j i _ _; unfold pile; destruct (_ && _)%bool; ring|].
  rewrite pile_pass by lra. pose proof (sd_steep 1 (10 / 1) ltac:(lra) ltac:(lra)). rewrite Rabs_pos_eq by lra. lra.
Qed.
Lemma c177_unit : exists k ds dn zne z ds' dn' zne' z' ts tdy n, 0 < k /\ (forall j i, 0 < ds j i /\ 0 < dn j i /\ zne j i <= z j i) /\ in_unit 1 3 k ds ds' /\ in_unit 1 3 k dn dn' /\ in_unit 1 3 k zne zne' /\ in_unit 1 3 k z z' /\
  ~ in_unit 1 3 k (avalanche true 1 3 ds dn zne ts tdy n z) (avalanche true 1 3 ds' dn' zne' ts tdy n z').
Proof.
  exists 100, (all 1), (all 1), zeros, (pile 0 1 10), (all 100), (all 100), zeros, (pile 0 1 1000), 45, 45, 1%nat. destruct c177_case as (K & A & Z & P & _).
  split; [exact K|]. split; [intros j i; destruct (pos_all 0 1 10 1 j i); [lra|lra|auto]|]. split; [exact A|]. split; [exact A|]. split; [exact Z|]. split; [exact P|].
  intros X. specialize (X 0%nat 1%nat ltac:(lia) ltac:(lia)). rewrite !pile_once in X by (try rewrite tan_45; lra). rewrite tan_45 in X.
  replace (1000 / 100) with (10 / 1) in X by field. pose proof (sd_steep 1 (10 / 1) ltac:(lra) ltac:(lra)). rewrite Rabs_pos_eq in X by lra. lra.
Qed.
