(** Cases and counterexamples for the documented threshold and transport rate. *)
From Coq Require Import Reals String List.
From Verif Require Import Base Ext Threshold_Model Threshold_Spec Threshold_Proofs Threshold_Cases Docs_Spec Docs_Proofs.
From Coq Require Import Lra.
Import ListNotations.
Open Scope R_scope.

(** Sand and gravel with all factors, the defaults otherwise. *)
Definition beach (mm : R) : params := pdef [225 / 1000000; 4 / 1000] [1 / 2; 1 / 2] (2 / 100) (Some mm) false true true true true false "belly_johnson".
Lemma beach_physical mm : physical (beach mm).
Proof. apply pdef_physical; [lra|repeat constructor; lra|cbn; lra]. Qed.
Lemma beach_all mm : all_factors (beach mm).
Proof. repeat split. Qed.
(** A bed of both with a mass content [x] of water, without salt. *)
Definition patch (x : R) : cell := {| moist := x * 159 / 1025 * 10; zb := 1; zs := 0; salt := 1; ustar := 4 / 10; mass := [10; 5]; mask := (1, 0); ne := 0 |}.
Lemma patch_content mm x : doc_content (beach mm) (moist (patch x)) = x.
Proof. unfold doc_content. cbn. field. Qed.
Lemma patch_sheltered mm x : 0 <= mm < 1 -> sheltered (beach mm) mm (patch x).
Proof. intros H. repeat split; cbn; try lra; repeat constructor; lra. Qed.
Definition none_yet : thresholds := {| uth := []; uth0 := []; uthf := [] |}.
(** A mass content of 2 %: it counts, and roughness elements shelter the sand. *)
Lemma c186_case : physical (beach (1 / 2)) /\ all_factors (beach (1 / 2)) /\ m (beach (1 / 2)) = Some (1 / 2) /\ sheltered (beach (1 / 2)) (1 / 2) (patch (2 / 100)) /\ mask (patch (2 / 100)) = (1, 0) /\
  doc_content (beach (1 / 2)) (resw_moist (beach (1 / 2))) + 5 / 1000 < doc_content (beach (1 / 2)) (moist (patch (2 / 100))) /\
  doc_threshold (beach (1 / 2)) (1 / 2) (patch (2 / 100)) (225 / 1000000) <> PInf.
Proof.
  split; [apply beach_physical|]. split; [apply beach_all|]. split; [reflexivity|]. split; [apply patch_sheltered; lra|]. split; [reflexivity|]. rewrite patch_content. split; [unfold doc_content; cbn; lra|].
  unfold doc_threshold. rewrite patch_content. destruct (Rlt_dec (64 / 1000) (2 / 100)); [lra|discriminate].
Qed.
(** A mass content of 1 %: not counted. *)
Lemma c186_ignored_case : physical (beach (1 / 2)) /\ all_factors (beach (1 / 2)) /\ sheltered (beach (1 / 2)) (1 / 2) (patch (1 / 100)) /\
  5 / 1000 < doc_content (beach (1 / 2)) (moist (patch (1 / 100))) <= doc_content (beach (1 / 2)) (resw_moist (beach (1 / 2))) + 5 / 1000.
Proof.
  split; [apply beach_physical|]. split; [apply beach_all|]. split; [apply patch_sheltered; lra|]. rewrite patch_content. split; [lra|]. unfold doc_content. cbn. lra.
Qed.
Lemma grain_pos mm d : 0 < d -> 0 < doc_grain (beach mm) d.
Proof.
  intros D. unfold doc_grain. cbn. apply Rmult_lt_0_compat; [lra|]. apply sqrt_lt_R0. apply Rmult_lt_0_compat; lra.
Qed.
Lemma salt_none mm c : salt c = 1 -> doc_salt (1000 * (csalt (beach mm) * (1 - salt c))) = 103 / 100.
Proof. intros ->. cbn. unfold doc_salt. replace (1027 / 10000 * (1000 * (35 / 1000 * (1 - 1)))) with 0 by ring. rewrite exp_0. ring. Qed.
Lemma rough_none w : doc_rough (beach 0) 0 w = 1.
Proof. unfold doc_rough. cbn. replace ((1 - 0 * w) * (1 + 0 * 130 / (42 / 10) * w)) with 1 by field. apply sqrt_1. Qed.
Lemma c186_refuted : exists p mm c t t' x y, p = beach mm /\ physical p /\ all_factors p /\ m p = Some mm /\ sheltered p mm c /\ mask c = (1, 0) /\ doc_content p (moist c) = 1 / 100 /\
  compute p c t = Ok t' /\ nth 0 (uth t') NaN = Fin x /\ doc_threshold p mm c (225 / 1000000) = Fin y /\ 0 < x /\ y = 9 / 5 * x.
Proof.
  exists (beach 0), 0, (patch (1 / 100)), none_yet.
  destruct (threshold_ignored (beach 0) (patch (1 / 100)) none_yet 0 (beach_physical 0) (beach_all 0) eq_refl ltac:(apply patch_sheltered; lra) eq_refl) as [t' [C U]];
    [rewrite patch_content; unfold doc_content; cbn; lra|rewrite patch_content; lra|].
  exists t', (103 / 100 * doc_grain (beach 0) (225 / 1000000)), (9 / 5 * (103 / 100 * doc_grain (beach 0) (225 / 1000000))).
  split; [reflexivity|]. split; [apply beach_physical|]. split; [apply beach_all|]. split; [reflexivity|]. split; [apply patch_sheltered; lra|]. split; [reflexivity|]. split; [apply patch_content|]. split; [exact C|].
  assert (Z : doc_content (beach 0) (moist (dried (patch (1 / 100)))) = 0) by (unfold doc_content; cbn; unfold Rdiv; ring).
  pose proof (grain_pos 0 (225 / 1000000) ltac:(lra)) as G. split; [|split; [|split; [lra|reflexivity]]].
  - rewrite U. cbn [grain_size beach pdef map nth]. unfold doc_threshold. rewrite Z. destruct (Rlt_dec (64 / 1000) 0); [lra|]. f_equal. rewrite rough_none. unfold doc_bare. rewrite Z, salt_none by reflexivity.
    unfold doc_moist. destruct (Rlt_dec 0 (5 / 1000)); lra.
  - unfold doc_threshold. rewrite patch_content. destruct (Rlt_dec (64 / 1000) (1 / 100)); [lra|]. f_equal. rewrite rough_none. unfold doc_bare. rewrite patch_content, salt_none by reflexivity.
    unfold doc_moist. destruct (Rlt_dec (1 / 100) (5 / 1000)); [lra|]. replace (100 * (1 / 100)) with 1 by field. rewrite ln_1. unfold Rdiv at 3. rewrite Rmult_0_l, Rmult_0_r, Rplus_0_r. rewrite Rmax_right by lra. lra.
Qed.

(** A wind of 10 m/s at 10 m, the law of the wall with a roughness of 1 mm and a threshold of 6 m/s; the grains at 2 m/s. *)
Definition windy : grain := {| gu := 2; gustar := law_of_the_wall (41 / 100) 10 (1 / 1000) 10; gustar0 := 0; guth := Fin (law_of_the_wall (41 / 100) 10 (1 / 1000) 6); guthf := Fin 0; guth0 := Fin 0; gd := 300 / 1000000 |}.
Lemma c188_case : good_t qdef /\ process_transport qdef = true /\ accfac qdef = 1 /\ 0 < gu windy /\ 1 < 10 / (1 / 1000) /\ (exists c', equilibrium qdef BagnoldGs 1 windy calm = Ok c') /\
  0 < doc_rate (41 / 100) 10 (1 / 1000) (15 / 10) (1225 / 1000) (981 / 100) (300 / 1000000) (25 / 100000) 10 6.
Proof.
  split; [exact qdef_good|]. split; [reflexivity|]. split; [reflexivity|]. split; [cbn; lra|]. split; [lra|]. split; [eexists; reflexivity|].
  unfold doc_rate. apply rmax_pos. assert (L : 0 < ln (10 / (1 / 1000))) by (rewrite <- ln_1; apply ln_increasing; lra).
  assert (A : 0 < doc_alpha (41 / 100) 10 (1 / 1000)).
  { unfold doc_alpha. assert (0 < 41 / 100 / ln (10 / (1 / 1000))) by (apply Rmult_lt_0_compat; [lra|apply Rinv_0_lt_compat; auto]). apply Rmult_lt_0_compat; [apply Rmult_lt_0_compat; auto|auto]. }
  assert (S : 0 < sqrt (300 / 1000000 / (25 / 100000))) by (apply sqrt_lt_R0; lra). apply Rmult_lt_0_compat; [|lra]. apply Rmult_lt_0_compat; [|auto]. apply Rmult_lt_0_compat; [|lra]. apply Rmult_lt_0_compat; [auto|lra].
Qed.
