(** Proofs about the pace of growth. *)
From Coq Require Import Reals Lra.
From Verif Require Import Base Veg_Model Veg_Spec Veg_Proofs Veg_Cases Pace_Spec.
Open Scope R_scope.

(** A cell with plants grows. *)
Lemma plants_active p e c : 0 < V_ver p -> 0 < rhoveg c -> active p (germinate p e c) = true.
Proof.
  intros V R. unfold active. assert (A : above0 (V_ver p) = true) by (unfold above0; destruct (Rlt_dec 0 (V_ver p)); [reflexivity|lra]). rewrite A, Bool.andb_true_r.
  assert (G : germ (germinate p e c) = 1).
  { unfold germinate. cbn [germ]. assert (X : above0 (rhoveg c) = true) by (unfold above0; destruct (Rlt_dec 0 (rhoveg c)); [reflexivity|lra]). rewrite X.
    apply Rmin_right. unfold num. destruct (_ && _)%bool; cbv iota; lra. }
  rewrite G. unfold nonzero. destruct (Req_EM_T 1 0); [lra|reflexivity].
Qed.
(** Where plants can live nothing dies in [dying]. *)
Lemma alive p e c : habitable p e -> rhoveg (dying p e c) = rhoveg c /\ hveg (dying p e c) = hveg c.
Proof.
  intros [D L]. unfold dying. cbn [rhoveg hveg]. destruct (Rlt_dec (zb e) (veg_min_elevation p)) as [X|X]; [exfalso; apply L, X|].
  assert (E : (if process_tide p then num (leb (zs e) (zb e + 1 / 100)) else 1) = 1).
  { destruct (process_tide p) eqn:T; [|reflexivity]. unfold leb. destruct (Rle_dec (zs e) (zb e + 1 / 100)) as [Y|Y]; [reflexivity|]. exfalso. apply D. split; [exact T|lra]. }
  rewrite E. split; ring.
Qed.
Lemma year_seconds : year = 36525 / 100 * 86400.
Proof. unfold year. lra. Qed.
Lemma height_pace : forall p d e c, usual p -> veggrowth_type p = Orig -> 0 < V_ver p -> 0 < d -> habitable p e -> 0 < rhoveg c ->
  let h := hveg (step (with_length p d) e c) in 0 < h < hveg_max p -> h = hveg c + taller_per_year p e (hveg c) * years p d.
Proof.
  intros p d e c U O V D H R. cbv zeta. unfold step, grow. rewrite (proj2 (alive (with_length p d) e _ H)).
  unfold growing. cbn [veggrowth_type with_length]. rewrite O. cbn [hveg].
  rewrite (plants_active (with_length p d) e c V R). cbn [hveg germinate V_ver hveg_max dzb_opt veg_gamma dt_opt accfac with_length].
  set (x := hveg c + _). intros B. assert (X : Rmax (Rmin x (hveg_max p)) 0 = x) by (revert B; unfold Rmax, Rmin; repeat destruct (Rle_dec _ _); lra).
  rewrite X. unfold x, taller_per_year, years. rewrite year_seconds. field. destruct U; lra.
Qed.
Lemma cover_pace : forall p e c, usual p -> veggrowth_type p = DuranMoore -> 0 < V_ver p -> dt_opt p = dt p -> habitable p e -> 0 < rhoveg c <= rhoveg_max p ->
  let rho := rhoveg (step p e c) in 0 < rho -> rho = rhoveg c + denser_per_year p e (rhoveg c) * years p (dt_opt p).
Proof.
  intros p e c U O V D H R. cbv zeta. unfold step, grow. rewrite (proj1 (alive p e _ H)).
  unfold growing. rewrite O. cbn [rhoveg]. rewrite (plants_active p e c V (proj1 R)).
  change (rhoveg (germinate p e c)) with (rhoveg c). destruct (Rlt_dec (rhoveg_max p) (rhoveg c)); [lra|]. destruct (Rle_dec (rhoveg c) 0); [lra|].
  destruct (Rlt_dec _ 0) as [N|N]; [lra|]. intros _. unfold denser_per_year, years. rewrite D, year_seconds. destruct U as (U1 & U2 & U3 & _). field. lra.
Qed.
Lemma cover_ignores_length p d e c : veggrowth_type p = DuranMoore -> 0 < V_ver p -> 0 < rhoveg c -> rhoveg (step (with_length p d) e c) = rhoveg (step p e c).
Proof.
  intros O V R. unfold step, grow, dying. cbn [rhoveg process_tide veg_min_elevation with_length]. 
  assert (E : rhoveg (growing (with_length p d) e (germinate (with_length p d) e c)) = rhoveg (growing p e (germinate p e c))).
  { unfold growing. cbn [veggrowth_type with_length]. rewrite O. cbn [rhoveg]. rewrite (plants_active (with_length p d) e c V R), (plants_active p e c V R). reflexivity. }
  rewrite E. reflexivity.
Qed.
Lemma dry_habitable m v acc : habitable (dune m v acc) dry.
Proof. split; [intros [_ H]|intros H]; unfold too_low in *; cbn in H; lra. Qed.
(** Grass in a dune in a quiet hour. *)
Lemma c195_height_case : let p := dune Orig 1 1 in usual p /\ habitable p dry /\ 0 < rhoveg grass /\ 0 < hveg (step (with_length p 1800) dry grass) < hveg_max p.
Proof.
  cbv zeta. split; [apply usual_dune; lra|]. split; [apply dry_habitable|]. split; [cbn; lra|]. unfold step, grow. rewrite (proj2 (alive (with_length (dune Orig 1 1) 1800) dry _ (dry_habitable Orig 1 1))).
  unfold growing. rewrite (plants_active (with_length (dune Orig 1 1) 1800) dry grass) by (cbn; lra). cbn. rewrite Rminus_0_r, Rabs_R0. unfold year. unfold Rmax, Rmin. repeat destruct (Rle_dec _ _); lra.
Qed.
Lemma grass_denser : rhoveg (step (dune DuranMoore 1 1) dry grass) = 1 / 4 + 365 / 12 * (3600 / 31557600).
Proof.
  unfold step, grow. rewrite (proj1 (alive _ dry _ (dry_habitable DuranMoore 1 1))).
  unfold growing. rewrite (plants_active (dune DuranMoore 1 1) dry grass) by (cbn; lra). cbn. rewrite Rminus_0_r, Rabs_R0. unfold year.
  destruct (Rlt_dec (5 / 10) (1 / 4)); [lra|]. destruct (Rle_dec (1 / 4) 0); [lra|]. destruct (Rlt_dec _ 0); lra.
Qed.
Lemma c195_cover_case : let p := dune DuranMoore 1 1 in usual p /\ habitable p dry /\ dt_opt p = dt p /\ 0 < rhoveg grass <= rhoveg_max p /\ 0 < rhoveg (step p dry grass).
Proof. cbv zeta. split; [apply usual_dune; lra|]. split; [apply dry_habitable|]. split; [reflexivity|]. split; [cbn; lra|]. rewrite grass_denser. lra. Qed.
(** In a second as much as in an hour. *)
Lemma c195_refuted : exists p e c, usual p /\ 0 < V_ver p /\ physical p c /\ habitable p e /\ dt_opt p = 3600 /\ dt p = 3600 /\
  let rho d := rhoveg (step (with_length p d) e c) in rhoveg c < rho 3600 /\ rho 3600 = rhoveg c + denser_per_year p e (rhoveg c) * years p 3600 /\ rho 1 = rho 3600.
Proof.
  exists (dune DuranMoore 1 1), dry, grass. split; [apply usual_dune; lra|]. split; [cbn; lra|]. split; [apply physical_grass|]. split; [apply dry_habitable|]. split; [reflexivity|]. split; [reflexivity|].
  cbv beta zeta. rewrite !cover_ignores_length by (try reflexivity; cbn; lra). rewrite grass_denser. split; [cbn; lra|]. split; [|reflexivity].
  unfold denser_per_year, years. cbn. rewrite Rminus_0_r, Rabs_R0. lra.
Qed.
