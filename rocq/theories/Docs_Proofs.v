(** Proofs about the documented threshold and transport rate. *)
From Coq Require Import Reals String List.
From Verif Require Import Base Ext Threshold_Model Threshold_Spec Threshold_Proofs Docs_Spec.
From Coq Require Import Lra.
Import ListNotations.
Open Scope R_scope.

(** The content above which the code lets moisture count. *)
Definition counted (p : params) (c : cell) : Prop := doc_content p (resw_moist p) + 5 / 1000 < doc_content p (moist c).
Lemma content_eq p x : mass_content p x = doc_content p x.
Proof. reflexivity. Qed.
Lemma salt_eq p x : salt_factor p x = doc_salt (1000 * (csalt p * (1 - x))).
Proof. unfold salt_factor, doc_salt. f_equal. f_equal. ring. Qed.
Lemma unmoved_immobile us ths mass : immobile us (map Fin ths) mass = unmoved us ths mass.
Proof.
  revert mass. induction ths as [|t ths IH]; intros [|x mass]; cbn; auto. rewrite IH. destruct (Rle_dec us t), (Rlt_dec t us); lra.
Qed.
Lemma unmoved_range us mass : Forall (fun x => 0 <= x) mass -> forall ths, 0 <= unmoved us ths mass <= fold_right Rplus 0 mass.
Proof.
  induction 1 as [|x mass X F IH]; intros [|t ths]; cbn; try lra.
  - specialize (IH []). replace (unmoved us [] mass) with 0 in IH by (destruct mass; auto). lra.
  - specialize (IH ths). destruct (Rlt_dec t us); lra.
Qed.
Lemma immobile_inf us ths mass : Forall (fun u => u = PInf) ths -> (List.length ths = List.length mass)%nat -> immobile us ths mass = fold_right Rplus 0 mass.
Proof.
  intros H. revert mass. induction H as [|u ths -> F IH]; intros [|x mass] L; cbn in *; try discriminate; auto. rewrite IH; lia || auto.
Qed.
Lemma immobile_range us mass : Forall (fun x => 0 <= x) mass -> forall ths, 0 <= immobile us ths mass <= fold_right Rplus 0 mass.
Proof.
  induction 1 as [|x mass X F IH]; intros [|t ths]; cbn [immobile fold_right]; try lra.
  - specialize (IH []). replace (immobile us [] mass) with 0 in IH by (destruct mass; auto). lra.
  - specialize (IH ths). destruct (eleb (Fin us) t); lra.
Qed.
Lemma rough_pos p mm w : 0 <= mm < 1 -> 0 < sigma p -> 0 <= beta p -> 0 <= w <= 1 -> 0 < (1 - mm * w) * (1 + mm * beta p / sigma p * w).
Proof.
  intros M S B W. assert (0 <= mm * beta p / sigma p * w).
  { apply Rmult_le_pos; [|lra]. apply Rmult_le_pos; [apply Rmult_le_pos; lra|left; apply Rinv_0_lt_compat; auto]. }
  assert (mm * w <= mm * 1) by (apply Rmult_le_compat_l; lra). apply Rmult_lt_0_compat; lra.
Qed.
Lemma share_range x s : 0 <= x <= s -> 0 < s -> 0 <= x / s <= 1.
Proof.
  intros H S. split; [apply Rmult_le_pos; [lra|left; apply Rinv_0_lt_compat; auto]|]. apply Rmult_le_reg_r with s; auto. unfold Rdiv. rewrite Rmult_assoc, Rinv_l by lra. lra.
Qed.
Lemma bare_eq p c d : physical p -> doc_content p (moist c) < 5 / 1000 \/ counted p c -> ~ 64 / 1000 < doc_content p (moist c) ->
  emul (moisture1 p Belly (moist c) (Fin (doc_grain p d))) (Fin (salt_factor p (salt c))) = Fin (doc_bare p c d).
Proof.
  intros P H W. unfold moisture1. rewrite content_eq. destruct (gtb_spec (doc_content p (moist c)) (64 / 1000)); [contradiction|].
  rewrite salt_eq. unfold doc_bare, doc_moist. assert (R0 : 0 <= doc_content p (resw_moist p)).
  { destruct P as [P1 [P2 [P3 [P4 [P5 [P6 [P7 [P8 _]]]]]]]]. unfold doc_content. apply Rmult_le_pos; [apply Rmult_le_pos; lra|]. left. apply Rinv_0_lt_compat. apply Rmult_lt_0_compat; lra. }
  unfold is_moist. change (resw_moist p * rhow p / (rhog p * (1 - porosity p))) with (doc_content p (resw_moist p)).
  destruct (gtb_spec (doc_content p (moist c)) (doc_content p (resw_moist p) + 5 / 1000)) as [G|G]; destruct (Rlt_dec (doc_content p (moist c)) (5 / 1000)) as [L|L].
  - lra.
  - cbn [moist_threshold emul]. unfold log10. rewrite (Rmult_comm (doc_content p (moist c)) 100). f_equal. ring.
  - cbn [emul]. f_equal. ring.
  - unfold counted in H. lra.
Qed.
Lemma wet_eq p c u : 64 / 1000 < doc_content p (moist c) -> moisture1 p Belly (moist c) u = PInf.
Proof. intros H. unfold moisture1. rewrite content_eq. destruct (gtb_spec (doc_content p (moist c)) (64 / 1000)); [auto|contradiction]. Qed.

Lemma threshold_documented p c t mm : physical p -> all_factors p -> m p = Some mm -> sheltered p mm c -> mask c = (1, 0) ->
  doc_content p (moist c) < 5 / 1000 \/ doc_content p (resw_moist p) + 5 / 1000 < doc_content p (moist c) ->
  exists t', compute p c t = Ok t' /\ uth t' = map (doc_threshold p mm c) (grain_size p).
Proof.
  intros P [F1 [F2 [F3 [F4 [F5 [F6 [F7 [F8 [F9 F10]]]]]]]]] M [S1 [S2 [S3 [S4 S5]]]] K H.
  unfold compute. rewrite F1, F2, F3, F4, F6, F7, F8, F9, F10. cbn [andb negb uth uth0 uthf]. unfold compute_moisture. rewrite F5.
  change (method_of "belly_johnson") with (Some Belly). cbn [bind]. unfold compute_sheltering. rewrite M. cbn [bind]. eexists. split; [reflexivity|]. cbn [uth].
  rewrite K. cbn [fst snd]. rewrite grainsize_eq by exact P. unfold compute_salt. rewrite !map_map.
  set (T := map (fun d => emul (moisture1 p Belly (moist c) (Fin (doc_grain p d))) (Fin (salt_factor p (salt c)))) (grain_size p)).
  match goal with |- context [immobile (ustar c) ?L (mass c)] => change L with T end. change (rsuml (mass c)) with (fold_right Rplus 0 (mass c)).
  pose proof (share_range _ _ (immobile_range (ustar c) (mass c) S4 T) S5) as W. set (w := immobile (ustar c) T (mass c) / fold_right Rplus 0 (mass c)) in *.
  pose proof (rough_pos p mm w S1 S2 S3 W) as R0. assert (SF : shelter_factor p mm w = Fin (doc_rough p mm w)).
  { unfold shelter_factor, doc_rough, esqrt. destruct (Rlt_dec ((1 - mm * w) * (1 + mm * beta p / sigma p * w)) 0); [lra|auto]. }
  rewrite SF. unfold doc_threshold. destruct (Rlt_dec (64 / 1000) (doc_content p (moist c))) as [L|L].
  - apply map_ext. intros d. fold (doc_grain p d). rewrite wet_eq by exact L. rewrite salt_eq.
    assert (X1 : 0 < doc_salt (1000 * (csalt p * (1 - salt c)))) by (unfold doc_salt; pose proof (exp_pos (1027 / 10000 * (1000 * (csalt p * (1 - salt c))))); lra).
    assert (X2 : 0 < doc_rough p mm w) by (apply sqrt_lt_R0; exact R0).
    cbn [emul]. unfold sgn_inf. destruct (Rlt_dec 0 (doc_salt _)); [|contradiction]. cbn [emul]. unfold sgn_inf. destruct (Rlt_dec 0 (doc_rough p mm w)); [|contradiction].
    cbn [emul]. unfold sgn_inf. destruct (Rlt_dec 0 1); [reflexivity|lra].
  - assert (ET : T = map Fin (map (doc_bare p c) (grain_size p))).
    { unfold T. rewrite map_map. apply map_ext. intros d. apply bare_eq; auto. }
    assert (EW : w = doc_share p c) by (unfold w, doc_share; rewrite ET, unmoved_immobile; reflexivity).
    apply map_ext. intros d. fold (doc_grain p d). rewrite bare_eq by auto. cbn [emul eadd]. rewrite EW. f_equal. ring.
Qed.

(** Between the documented boundary and that of the code. *)
Lemma threshold_ignored p c t mm : physical p -> all_factors p -> m p = Some mm -> sheltered p mm c -> mask c = (1, 0) ->
  doc_content p (moist c) <= doc_content p (resw_moist p) + 5 / 1000 -> doc_content p (moist c) <= 64 / 1000 ->
  exists t', compute p c t = Ok t' /\ uth t' = map (doc_threshold p mm (dried c)) (grain_size p).
Proof.
  intros P F M S K B W. assert (Z : doc_content p (moist (dried c)) = 0) by (unfold doc_content; cbn; unfold Rdiv; ring).
  assert (R0 : 0 <= doc_content p (resw_moist p)).
  { destruct P as [P1 [P2 [P3 [P4 [P5 [P6 [P7 [P8 _]]]]]]]]. unfold doc_content. apply Rmult_le_pos; [apply Rmult_le_pos; lra|]. left. apply Rinv_0_lt_compat. apply Rmult_lt_0_compat; lra. }
  assert (E : compute_moisture p (moist c) (grainsize p) = compute_moisture p (moist (dried c)) (grainsize p)).
  { unfold compute_moisture. destruct (method_of (method_moist_threshold p)) as [me|]; [|auto]. f_equal. apply map_ext. intros u. unfold moisture1, is_moist. cbv zeta.
    change (resw_moist p * rhow p / (rhog p * (1 - porosity p))) with (doc_content p (resw_moist p)). rewrite (content_eq p (moist c)), (content_eq p (moist (dried c))), Z.
    destruct (gtb_spec (doc_content p (moist c)) (doc_content p (resw_moist p) + 5 / 1000)); [lra|]. destruct (gtb_spec (doc_content p (moist c)) (64 / 1000)); [lra|].
    destruct (gtb_spec 0 (doc_content p (resw_moist p) + 5 / 1000)); [lra|]. destruct (gtb_spec 0 (64 / 1000)); [lra|auto]. }
  destruct (threshold_documented p (dried c) t mm P F M S K) as [t' [C U]]; [left; lra|]. exists t'. split; [|auto]. rewrite <- C.
  destruct F as [F1 [F2 [F3 [F4 [F5 [F6 [F7 [F8 [F9 F10]]]]]]]]]. unfold compute. rewrite F1, F2, F3, F4, F6, F7, F8, F9, F10. cbn [andb negb uth uth0 uthf]. rewrite E. reflexivity.
Qed.

(** ** The transport rate *)
Lemma cube_law k z z0 uz ut : 0 < k -> 0 < ln (z / z0) ->
  (law_of_the_wall k z z0 uz - law_of_the_wall k z z0 ut) * (law_of_the_wall k z z0 uz - law_of_the_wall k z z0 ut) * (law_of_the_wall k z z0 uz - law_of_the_wall k z z0 ut)
  = doc_alpha k z z0 * ((uz - ut) * (uz - ut) * (uz - ut)).
Proof. intros K L. unfold law_of_the_wall, doc_alpha. field. lra. Qed.
Lemma Rmax_scale a x : 0 <= a -> Rmax 0 x * a = Rmax 0 (x * a).
Proof. intros A. unfold Rmax. destruct (Rle_dec 0 x), (Rle_dec 0 (x * a)); nra. Qed.
Lemma rate_documented q tr D g c c' k z z0 uz ut : good_t q -> process_transport q = true -> accfac q = 1 -> 0 < gu g -> 0 < k -> 1 < z / z0 -> 0 < uz -> 0 < gd g ->
  gustar g = law_of_the_wall k z z0 uz -> guth g = Fin (law_of_the_wall k z z0 ut) -> (tr = Bagnold /\ D = gd g) \/ (tr = BagnoldGs /\ D = 25 / 100000) ->
  equilibrium q tr 1 g c = Ok c' -> emul (Cu c') (Fin (gu g)) = Fin (doc_rate k z z0 (Cb q) (trhoa q) (tg q) (gd g) D uz ut).
Proof.
  intros Q P A U K Z UZ GD ES ET T E. assert (L : 0 < ln (z / z0)) by (rewrite <- ln_1; apply ln_increasing; lra).
  assert (S0 : gustar g <> 0). { rewrite ES. unfold law_of_the_wall. apply Rgt_not_eq. apply Rmult_lt_0_compat; [apply Rmult_lt_0_compat; auto|apply Rinv_0_lt_compat; auto]. }
  unfold equilibrium in E. rewrite P in E. replace (match tr with BagnoldGs => negb (Nat.eqb 1 1) | _ => false end) with false in E by (destruct T as [[-> _]|[-> _]]; reflexivity).
  cbn [bind] in E. destruct (neqb_spec (gustar g) 0) as [_|]; [|contradiction]. destruct (neqb_spec (gu g) 0) as [_|]; [|lra]. cbn [andb bind] in E.
  apply Ok_inj in E. subst c'. cbn [Cu]. rewrite ET, capacity_fin, A. cbn [emul]. f_equal. rewrite Rmult_1_r, Rmax_scale by lra. unfold doc_rate. f_equal.
  destruct Q as [_ [_ [_ [_ [_ G]]]]].
  destruct T as [[-> ->]|[-> ->]]; cbn [kval shape speed]; rewrite ES; replace (law_of_the_wall k z z0 uz - law_of_the_wall k z z0 ut) with (law_of_the_wall k z z0 (uz - ut)) by (unfold law_of_the_wall; field; lra).
  - replace (gd g / gd g) with 1 by (field; lra). rewrite sqrt_1. unfold law_of_the_wall, doc_alpha. field. lra.
  - unfold law_of_the_wall, doc_alpha. field. lra.
Qed.
