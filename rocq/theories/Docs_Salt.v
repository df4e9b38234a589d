(** The threshold of a bed with salt. *)
From Coq Require Import Reals String List.
From Verif Require Import Base Ext Threshold_Model Threshold_Spec Threshold_Proofs Threshold_Cases Docs_Spec Docs_Proofs Docs_Cases.
From Coq Require Import Lra.
Import ListNotations.
Open Scope R_scope.

Lemma salted_sheltered s : sheltered (beach 0) 0 (with_salt (patch 0) s).
Proof. repeat split; cbn; try lra; repeat constructor; lra. Qed.
Lemma salted_threshold s : exists t', compute (beach 0) (with_salt (patch 0) s) none_yet = Ok t' /\
  nth 0 (uth t') NaN = Fin (103 / 100 * exp (35945 / 10000 * (1 - s)) * doc_grain (beach 0) (225 / 1000000)).
Proof.
  assert (Z : doc_content (beach 0) (moist (with_salt (patch 0) s)) = 0) by (unfold doc_content; cbn; unfold Rdiv; ring).
  destruct (threshold_documented (beach 0) (with_salt (patch 0) s) none_yet 0 (beach_physical 0) (beach_all 0) eq_refl (salted_sheltered s) eq_refl) as [t' [C U]]; [left; rewrite Z; lra|].
  exists t'. split; [exact C|]. rewrite U. cbn [grain_size beach pdef map nth]. unfold doc_threshold. rewrite Z. destruct (Rlt_dec (64 / 1000) 0); [lra|]. f_equal. rewrite rough_none. unfold doc_bare. rewrite Z.
  unfold doc_moist. destruct (Rlt_dec 0 (5 / 1000)); [|lra]. unfold doc_salt. cbn [csalt beach pdef salt with_salt].
  replace (1027 / 10000 * (1000 * (35 / 1000 * (1 - s)))) with (35945 / 10000 * (1 - s)) by field. ring.
Qed.
Lemma exp_20 : 20 < exp (35945 / 10000).
Proof.
  assert (A : 1 + 35945 / 160000 < exp (35945 / 160000)) by (apply exp_ineq1; lra). set (x := exp (35945 / 160000)) in *.
  replace (35945 / 10000) with (INR 16 * (35945 / 160000)) by (cbn; lra).
  assert (P : forall n, exp (INR n * (35945 / 160000)) = x ^ n).
  { induction n as [|n IH]; [cbn; rewrite Rmult_0_l; apply exp_0|]. rewrite S_INR, Rmult_plus_distr_r, Rmult_1_l, exp_plus, IH. cbn [pow]. unfold x. ring. }
  rewrite P. apply Rlt_le_trans with ((12 / 10) ^ 17); [cbn [pow]; lra|]. 
  apply Rle_trans with ((122 / 100) ^ 16); [cbn [pow]; lra|]. apply pow_incr. lra.
Qed.
(** More salt, a lower threshold, whatever the two contents. *)
Lemma salt_lowers : forall s s', s < s' -> exists t t' x y, compute (beach 0) (with_salt (patch 0) s) none_yet = Ok t /\ compute (beach 0) (with_salt (patch 0) s') none_yet = Ok t' /\
  nth 0 (uth t) NaN = Fin x /\ nth 0 (uth t') NaN = Fin y /\ 0 < y < x.
Proof.
  intros s s' H. destruct (salted_threshold s) as (t & C & U). destruct (salted_threshold s') as (t' & C' & U'). eexists t, t', _, _. split; [exact C|]. split; [exact C'|]. split; [exact U|]. split; [exact U'|].
  pose proof (grain_pos 0 (225 / 1000000) ltac:(lra)) as G. pose proof (exp_pos (35945 / 10000 * (1 - s'))) as E. split; [apply Rmult_lt_0_compat; [apply Rmult_lt_0_compat; [lra|exact E]|exact G]|].
  apply Rmult_lt_compat_r; [exact G|]. apply Rmult_lt_compat_l; [lra|]. apply exp_increasing. lra.
Qed.
Lemma c197_refuted : exists p c t t' t'' x y, p = beach 0 /\ physical p /\ all_factors p /\
  compute p (with_salt c 0) t = Ok t' /\ compute p (with_salt c 1) t = Ok t'' /\ nth 0 (uth t') NaN = Fin x /\ nth 0 (uth t'') NaN = Fin y /\
  y = doc_salt 0 * doc_grain p (225 / 1000000) /\ 0 < y /\ 20 * y < x.
Proof.
  destruct (salted_threshold 0) as (t' & C & U). destruct (salted_threshold 1) as (t'' & C' & U'). eexists (beach 0), (patch 0), none_yet, t', t'', _, _.
  split; [reflexivity|]. split; [apply beach_physical|]. split; [apply beach_all|]. split; [exact C|]. split; [exact C'|]. split; [exact U|]. split; [exact U'|].
  pose proof (grain_pos 0 (225 / 1000000) ltac:(lra)) as G. replace (35945 / 10000 * (1 - 1)) with 0 by ring. replace (35945 / 10000 * (1 - 0)) with (35945 / 10000) by ring. rewrite exp_0.
  set (g := doc_grain (beach 0) (225 / 1000000)) in *. split; [unfold doc_salt; rewrite Rmult_0_r, exp_0; ring|]. split; [lra|]. pose proof exp_20 as X.
  pose proof (Rmult_lt_compat_r g _ _ G X). lra.
Qed.
Lemma salt_lowers_case : 0 < 1 / 2 /\ salt (with_salt (patch 0) (1 / 2)) = 1 / 2 /\ physical (beach 0) /\ th_salt (beach 0) = true.
Proof. split; [lra|]. split; [reflexivity|]. split; [apply beach_physical|reflexivity]. Qed.
