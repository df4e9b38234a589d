(** Proofs and counterexamples about burial. *)
From Coq Require Import QArith Qreals Reals Lra.
From Verif Require Import Base Num Bed_Model Veg_Model Veg_Spec Veg_Proofs Veg_Cases Pace_Spec Pace_Proofs Burial_Model Burial_Spec.
Open Scope Q_scope.

Lemma steady_total d levels n : steady d levels -> forall z0 zn, nth_error levels 0 = Some z0 -> nth_error levels n = Some zn -> zn - z0 == inject_Z (Z.of_nat n) * d.
Proof.
  intros S z0. induction n as [|n IH]; intros zn H0 Hn.
  - rewrite H0 in Hn. injection Hn as <-. change (inject_Z (Z.of_nat 0)) with 0. ring.
  - destruct (nth_error levels n) as [z|] eqn:E.
    + pose proof (IH z H0 eq_refl) as A. pose proof (S n z zn E Hn) as B. rewrite Nat2Z.inj_succ. unfold Z.succ. rewrite inject_Z_plus. change (inject_Z 1) with 1.
      setoid_replace (zn - z0) with ((zn - z) + (z - z0)) by ring. rewrite A, B. ring.
    + apply nth_error_None in E. assert (L : (Datatypes.S n < length levels)%nat) by (apply nth_error_Some; rewrite Hn; discriminate). lia.
Qed.
Lemma steady_rate : forall d levels n z0 z z' dt accfac T avg0, (0 < dt)%Q -> (0 < accfac)%Q -> steady d levels -> nth_error levels 0 = Some z0 -> nth_error levels n = Some z -> nth_error levels (S n) = Some z' ->
  (T == inject_Z (Z.of_nat (S n)) * dt)%Q -> (for_plants (average_change z' z dt accfac T avg0) == average_rate z0 z' T accfac)%Q.
Proof.
  intros d levels n z0 z z' dt accfac T avg0 D A S H0 Hn Hn' HT. pose proof (S n z z' Hn Hn') as E1. pose proof (steady_total d levels (Datatypes.S n) S z0 z' H0 Hn') as E2.
  unfold for_plants, average_change, average_rate, dzbyear. cbn [snd]. rewrite HT, E1, E2. set (k := inject_Z (Z.of_nat (Datatypes.S n))).
  assert (K : 0 < k) by (unfold k; change 0 with (inject_Z 0); rewrite <- Zlt_Qlt; lia). field. repeat split; intros X; try lra; rewrite X in *; lra.
Qed.
Definition c196_levels : list Q := [5; 5 + (1 # 1000); 5 + (2 # 1000)].
Lemma c196_case : steady (1 # 1000) c196_levels /\ nth_error c196_levels 2 = Some (5 + (2 # 1000))%Q /\ (7200 == inject_Z (Z.of_nat 2) * 3600)%Q.
Proof.
  split; [|split; reflexivity]. intros [|[|k]] z z' H H'; cbn in *.
  - injection H as <-. injection H' as <-. reflexivity.
  - injection H as <-. injection H' as <-. reflexivity.
  - destruct k; discriminate.
Qed.
Open Scope R_scope.
Lemma hour_height rate : let h := hveg (step (dune Orig 1 1) (seen dry rate) grass) in
  0 <= Rabs (Q2R rate) <= 4000 -> h = 1 / 2 + (1 / 2 - Rabs (Q2R rate)) * (3600 / 31557600).
Proof.
  cbv zeta. intros B. unfold step, grow. assert (H : habitable (dune Orig 1 1) (seen dry rate)) by exact (dry_habitable Orig 1 1). rewrite (proj2 (alive _ _ _ H)).
  unfold growing. rewrite (plants_active (dune Orig 1 1) (seen dry rate) grass) by (cbn; Lra.lra). cbn. rewrite Rminus_0_r. unfold year. set (a := Rabs (Q2R rate)) in *.
  unfold Rmax, Rmin. repeat destruct (Rle_dec _ _); Lra.lra.
Qed.
(** The level goes up and down by a centimetre; over two hours it does not change. *)
Lemma c196_refuted : exists p e c (z0 z1 z2 dt accfac T avg0 : Q), usual p /\ physical p c /\ habitable p e /\ Q2R dt = dt_opt p /\ Q2R accfac = Veg_Model.accfac p /\ (T == 2 * dt)%Q /\
  (average_rate z0 z2 T accfac == 0)%Q /\
  hveg (step p (seen e (for_plants (average_change z2 z1 dt accfac T avg0))) c) < hveg c < hveg (step p (seen e (average_rate z0 z2 T accfac)) c).
Proof.
  exists (dune Orig 1 1), dry, grass, 5%Q, (501 # 100)%Q, 5%Q, 3600%Q, 1%Q, 7200%Q, 0%Q.
  split; [apply usual_dune; Lra.lra|]. split; [apply physical_grass|]. split; [apply dry_habitable|]. split; [unfold Q2R; cbn; Lra.lra|]. split; [unfold Q2R; cbn; Lra.lra|]. split; [reflexivity|]. split; [reflexivity|].
  assert (E1 : Q2R (for_plants (average_change 5 (501 # 100) 3600 1 7200 0)) = - (8766 / 100)).
  { transitivity (Q2R (- (8766 # 100))); [apply Qeq_eqR; reflexivity|]. unfold Q2R. cbn. Lra.lra. }
  assert (E2 : Q2R (average_rate 5 5 7200 1) = 0) by (transitivity (Q2R 0); [apply Qeq_eqR; reflexivity|unfold Q2R; cbn; Lra.lra]).
  rewrite !hour_height; rewrite ?E1, ?E2; rewrite ?Rabs_Ropp, ?Rabs_R0, ?(Rabs_right (8766 / 100)) by Lra.lra; cbn; Lra.lra.
Qed.
