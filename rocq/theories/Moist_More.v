(** Further statements about moisture: drying without rain, ground water at the surface, unchanged direction. *)
From Verif Require Import Base Moist_Model Moist_Spec Moist_Proofs Moist_Runup Moist_Cases.
From Coq Require Import Reals Lra.
Open Scope R_scope.

Lemma balance_dries p w dt c : ordinary w -> rain w = 0 -> 0 < cpair p -> 2 < z p -> 0 <= uw c -> 0 < thick p -> 0 <= dt -> zb c >= TWL c -> resw p <= moist c ->
  surface_balance p w dt c <= moist c.
Proof.
  intros O R C Z U T D S M. unfold surface_balance. assert (F : soaked c = false) by (unfold soaked; apply gtb_false; lra). rewrite F.
  destruct (c76_evaporation p w (uw c) (uw c) O C Z U (Rle_refl _)) as [E _].
  assert (P : (pcp w - evo p w c) * dt / thick p <= 0).
  { unfold pcp. rewrite R. replace ((0 / 3600 / 1000 - evo p w c) * dt / thick p) with (- (evo p w c * dt / thick p)) by (field; lra).
    assert (0 <= evo p w c) by (unfold evo; lra). assert (0 <= evo p w c * dt / thick p) by (apply Rmult_le_pos; [apply Rmult_le_pos; auto|left; apply Rinv_0_lt_compat; auto]). lra. }
  assert (DR : drain p dt (moist c) <= moist c). { unfold drain. pose proof (Rmin_l 0 ((moist c - fc p) * (decay (Tdry p) dt - 1))). lra. }
  eapply Rle_trans; [apply Rmin_l|]. apply Rmax_lub; auto. lra.
Qed.
Lemma c76_dries sw p t0 fuel w dt c c' : process_moist sw = true -> moist_method sw = SurfMoisture -> ordinary w -> rain w = 0 -> 0 < cpair p -> 2 < z p -> 0 <= uw c -> 0 < thick p -> 0 <= dt ->
  TWL c <= zb c -> resw p <= moist c -> update sw p t0 fuel (Some w) dt c = Ok (Some c') -> moist c' <= Rmax (moist c) (moist_swr c').
Proof.
  intros S M O R C Z U T D B L H. destruct (surface_of_update _ _ _ _ _ _ _ _ S M H) as [w' [c1 [EW [E EC]]]]. inversion EW; subst w'.
  pose proof (balance_dries p w dt c O R C Z U T D ltac:(lra) L) as X.
  unfold surface in E. destruct (capillary p (process_scanning sw) t0 fuel c) as [c2|] eqn:F; [|discriminate]. inversion E; subst.
  assert (Q : Rmin (Rmax (surface_balance p w dt c) (moist_swr c2)) (satd p) <= Rmax (moist c) (moist_swr c2)).
  { eapply Rle_trans; [apply Rmin_l|]. apply Rmax_lub; [eapply Rle_trans; [exact X|apply Rmax_l]|apply Rmax_r]. }
  destruct (process_salt sw); exact Q.
Qed.
Lemma c76_dries_case : ordinary fair /\ rain fair = 0 /\ 0 < cpair default_soil /\ 2 < z default_soil /\ 0 < thick default_soil /\ TWL (some_cell (1 / 10) 0 1) <= zb (some_cell (1 / 10) 0 1) /\
  resw default_soil <= moist (some_cell (1 / 10) 0 1) /\ exists c', update (surface_on false true) default_soil false 0 (Some fair) 3600 (some_cell (1 / 10) 0 1) = Ok (Some c').
Proof. destruct case_evaporation as [A [B C]]. split; auto. split; [auto|]. split; auto. split; auto. split; [cbn; lra|]. split; [cbn; lra|]. split; [cbn; lra|]. eexists. reflexivity. Qed.

Lemma pw_0 n : pw 0 n = 0.
Proof. unfold pw. destruct (Rlt_dec 0 0); lra. Qed.
Lemma curve_0 res sat alfa n m : curve res sat alfa n m 0 = sat.
Proof. unfold curve. rewrite Rmult_0_r, Rabs_R0, pw_0, Rplus_0_r, pw_1. field. Qed.
Lemma c38_waterlogged sw p t0 fuel file dt c c' : process_moist sw = true -> moist_method sw = SurfMoisture -> zb c <= gw c ->
  update sw p t0 fuel file dt c = Ok (Some c') -> lies_between (satw p) (satd p) (moist_swr c').
Proof.
  intros S M G U. pose proof (c38_between _ _ _ _ _ _ _ _ S M U) as H. assert (Z : head c = 0) by (unfold head; apply Rmax_left; lra).
  rewrite Z in H. unfold wet_curve, dry_curve in H. rewrite !curve_0 in H. auto.
Qed.
Definition wet_cell : cell := {| moist := 1 / 10; TWL := 0; zb := 1; gw := 2; gw_prev := 1 / 10; uw := 8; wetting := false; scan_w := false; scan_d := false; h_delta := 0;
     w_h := 5 / 100; d_h := 3 / 10; scan_w_moist := 1 / 10; scan_d_moist := 5 / 100; moist_swr := 1 / 10; salt := 1 / 2 |}.
Lemma c38_waterlogged_case : zb wet_cell <= gw wet_cell /\ satw default_soil < satd default_soil /\ exists c', update (surface_on false true) default_soil false 0 (Some fair) 3600 wet_cell = Ok (Some c').
Proof. split; [cbn; lra|]. split; [cbn; lra|]. eexists. reflexivity. Qed.

Lemma c73_kept p fuel c : (wetting c = true -> gw_prev c <= gw c) -> (wetting c = false -> gw c <= gw_prev c) -> hdelta p fuel c = Some (h_delta c).
Proof.
  intros A B. unfold hdelta. destruct (wetting c).
  - assert (F : gtb (gw_prev c) (gw c) = false) by (apply gtb_false; auto). rewrite F. cbn [negb]. rewrite !Bool.andb_false_r. reflexivity.
  - assert (F : gtb (gw c) (gw_prev c) = false) by (apply gtb_false; auto). rewrite F. cbn [negb]. rewrite !Bool.andb_false_r. reflexivity.
Qed.
Lemma c73_first p fuel c : (wetting c = true /\ scan_w c = false /\ gw c < gw_prev c) \/ (wetting c = false /\ scan_d c = false /\ gw_prev c < gw c) -> gw c <= zb c ->
  hdelta p fuel c = Some (100 * (zb c - gw c)).
Proof.
  intros H G. assert (Z : head c = 100 * (zb c - gw c)) by (unfold head; rewrite Rmax_right; lra). unfold hdelta. rewrite Z. destruct H as [[A [B C]]|[A [B C]]]; rewrite A, B.
  - pose proof C as F. apply gtb_spec in F. rewrite F. cbn. rewrite Bool.andb_false_r. reflexivity.
  - pose proof C as F. apply gtb_spec in F. rewrite F. cbn. rewrite !Bool.andb_false_r. reflexivity.
Qed.
Lemma c73_kept_case : wetting (some_cell (1 / 10) 0 1) = false /\ gw (some_cell (1 / 10) 0 1) <= gw_prev (some_cell (1 / 10) 0 1) /\ wetting wet_cell = false /\ scan_d wet_cell = false /\ gw_prev wet_cell < gw wet_cell.
Proof. repeat split; cbn; lra. Qed.
Definition deep_cell : cell := {| moist := 1 / 10; TWL := 0; zb := 1; gw := 1 / 2; gw_prev := 1 / 10; uw := 8; wetting := false; scan_w := false; scan_d := false; h_delta := 0;
     w_h := 5 / 100; d_h := 3 / 10; scan_w_moist := 1 / 10; scan_d_moist := 5 / 100; moist_swr := 1 / 10; salt := 1 / 2 |}.
Lemma c73_first_case : wetting deep_cell = false /\ scan_d deep_cell = false /\ gw_prev deep_cell < gw deep_cell /\ gw deep_cell <= zb deep_cell.
Proof. repeat split; cbn; lra. Qed.
Lemma c77_no_parameter sw p t0 fuel file dt c : process_moist sw = true -> moist_method sw = SurfMoisture -> groundwater_param sw = None -> update sw p t0 fuel file dt c = Raise ValueError.
Proof. intros A B C. unfold update. rewrite A, B, C. reflexivity. Qed.
Lemma c77_no_parameter_case : exists sw, process_moist sw = true /\ moist_method sw = SurfMoisture /\ groundwater_param sw = None.
Proof. exists {| process_moist := true; moist_method := SurfMoisture; groundwater_param := None; process_scanning := false; process_salt := false |}. repeat split; reflexivity. Qed.
