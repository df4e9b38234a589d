(** Proofs about the shares of bed and air in the weights of the fractions. *)
From Verif Require Import Base Num Utils_Model Utils_Spec Utils_Proofs Share_Spec.
Open Scope Q_scope.

Lemma qsum_map2_lin x y l : forall m, length l = length m -> qsum (map2 (fun a b => x * a + y * b) l m) == x * qsum l + y * qsum m.
Proof.
  unfold qsum. induction l as [|a l IH]; intros [|b m] H; cbn [map2 fold_right length] in *; try discriminate; [ring|]. rewrite IH by lia. ring.
Qed.
Lemma w_air_nth ct : forall cu i, length ct = length cu -> (forall x, In x cu -> 0 < x) -> (i < length ct)%nat -> nth i (w_air ct cu) 0 == ratio ct cu i.
Proof.
  unfold w_air, normalize_ref, ratio. induction ct as [|a ct IH]; intros [|b cu] i L P H; cbn [length map2] in *; try lia.
  assert (B : 0 < b) by (apply P; now left). destruct i as [|i]; cbn [nth].
  - unfold quotient. destruct (Qeq_bool b 0) eqn:E; [|reflexivity]. apply Qeq_bool_iff in E. lra.
  - apply IH; [lia| |lia]. intros x Hx. apply P. now right.
Qed.
Lemma w_air_sum ct cu : length ct = length cu -> (forall x, In x cu -> 0 < x) -> qsum (w_air ct cu) == saturation ct cu.
Proof.
  intros L P. unfold saturation. transitivity (qsum (map (fun i => nth i (w_air ct cu) 0) (seq 0 (length ct)))).
  - assert (N : length (w_air ct cu) = length ct) by (unfold w_air, normalize_ref; now apply map2_length). rewrite <- N. clear.
    induction (w_air ct cu) as [|a l IH]; [reflexivity|]. cbn [length seq map]. rewrite <- seq_shift, map_map. cbn [nth].
    unfold qsum in *. cbn [fold_right]. now rewrite IH.
  - apply qsum_map_ext. intros i Hi. apply in_seq in Hi. apply w_air_nth; auto. lia.
Qed.
Lemma nth_div c l : forall i, (i < length l)%nat -> nth i (map (fun a => a / c) l) 0 = nth i l 0 / c.
Proof. induction l as [|a l IH]; intros [|i] H; cbn [map nth length] in *; try lia; auto. apply IH. lia. Qed.
Section Cell.
  Variables (bi : Q) (ct cu mass : list Q).
  Hypotheses (B0 : 0 <= bi) (B1 : bi <= 1) (C : carried ct cu mass).
  Let S := saturation ct cu.
  Let free := 1 - qmin 1 ((1 - bi) * qsum (w_air ct cu)).
  Let raw := map2 (fun a b => (1 - bi) * a + free * b) (w_air ct cu) (w_bed mass).
  Lemma lengths : length (w_air ct cu) = length ct /\ length (w_bed mass) = length ct /\ length raw = length ct.
  Proof.
    destruct C as [L1 [L2 _]]. assert (A : length (w_air ct cu) = length ct) by (unfold w_air, normalize_ref; now apply map2_length).
    assert (B : length (w_bed mass) = length ct) by (unfold w_bed; rewrite normalize_length; auto).
    repeat split; auto. unfold raw. rewrite map2_length; auto. congruence.
  Qed.
  Lemma bed_sum : qsum (w_bed mass) == 1.
  Proof. destruct C as [_ [_ [_ [_ [_ M]]]]]. apply normalize_sum. lra. Qed.
  Lemma raw_sum : qsum raw == (1 - bi) * S + free.
  Proof.
    destruct lengths as [A [B _]]. unfold raw. rewrite qsum_map2_lin by congruence. rewrite bed_sum. destruct C as [L [_ [P _]]].
    rewrite w_air_sum by auto. fold S. ring.
  Qed.
  Lemma raw_nth i : (i < length ct)%nat -> nth i raw 0 == (1 - bi) * ratio ct cu i + free * of_bed mass i.
  Proof.
    intros H. destruct lengths as [A [B _]]. unfold raw. rewrite (nth_map2 _ _ _ i 0 0 0) by lia. destruct C as [L [L2 [P [_ [_ M]]]]].
    rewrite w_air_nth by auto. unfold of_bed, w_bed. rewrite normalize_nonzero by lra.
    rewrite nth_div by lia. reflexivity.
  Qed.
  Lemma weights_nth i : (i < length ct)%nat -> ~ qsum raw == 0 -> nth i (compute_weights bi ct cu mass) 0 == nth i raw 0 / qsum raw.
  Proof.
    intros H N. unfold compute_weights. fold free. fold raw. rewrite normalize_nonzero by exact N. destruct lengths as [_ [_ R]].
    rewrite nth_div by lia. reflexivity.
  Qed.
  Lemma free_below : (1 - bi) * S <= 1 -> free == 1 - (1 - bi) * S.
  Proof.
    intros H. destruct C as [L [_ [P _]]]. pose proof (w_air_sum ct cu L P) as E. fold S in E. unfold free.
    destruct (qmin_cases 1 ((1 - bi) * qsum (w_air ct cu))) as [[-> X]|[-> X]]; rewrite E in *; lra.
  Qed.
  Lemma free_above : 1 <= (1 - bi) * S -> free == 0.
  Proof.
    intros H. destruct C as [L [_ [P _]]]. pose proof (w_air_sum ct cu L P) as E. fold S in E. unfold free.
    destruct (qmin_cases 1 ((1 - bi) * qsum (w_air ct cu))) as [[-> X]|[-> X]]; rewrite E in *; lra.
  Qed.
  Lemma ratio_nonneg i : 0 <= ratio ct cu i.
  Proof.
    destruct C as [L [_ [P [Q _]]]]. unfold ratio. destruct (Nat.lt_ge_cases i (length ct)) as [H|H].
    - apply Qle_shift_div_l; [apply P, nth_In; lia|]. rewrite Qmult_0_l. apply Q, nth_In; auto.
    - rewrite (nth_overflow ct) by auto. unfold Qdiv. rewrite Qmult_0_l. lra.
  Qed.
  Lemma sat_nonneg : 0 <= S.
  Proof. apply qsum_nonneg. intros x Hx. apply in_map_iff in Hx as [i [<- _]]. apply ratio_nonneg. Qed.
  Lemma ratio_zero i : (i < length ct)%nat -> S == 0 -> ratio ct cu i == 0.
  Proof.
    intros H Z. assert (X : ratio ct cu i <= S).
    { apply qsum_member; [|apply in_map, in_seq; lia]. intros y Hy. apply in_map_iff in Hy as [j [<- _]]. apply ratio_nonneg. }
    pose proof (ratio_nonneg i). lra.
  Qed.
  Lemma shares_below i : (i < length ct)%nat -> (1 - bi) * S <= 1 ->
    nth i (compute_weights bi ct cu mass) 0 == mixture ((1 - bi) * S) (of_air ct cu i) (of_bed mass i).
  Proof.
    intros H X. pose proof (free_below X) as F. pose proof raw_sum as R. assert (E : qsum raw == 1) by (rewrite R, F; ring).
    rewrite weights_nth by (auto; rewrite E; lra). rewrite E, raw_nth, F by auto. unfold mixture, of_air. fold S.
    destruct (Qeq_dec S 0) as [Z|Z]; [|field; exact Z]. rewrite (ratio_zero i H Z), Z. setoid_replace ((1 - bi) * 0 * (0 / 0)) with 0 by (unfold Qdiv; ring). field.
  Qed.
  Lemma shares_above i : (i < length ct)%nat -> 1 <= (1 - bi) * S -> nth i (compute_weights bi ct cu mass) 0 == of_air ct cu i.
  Proof.
    intros H X. pose proof (free_above X) as F. pose proof raw_sum as R. rewrite F in R. assert (N : ~ qsum raw == 0) by (rewrite R; lra).
    rewrite weights_nth by auto. rewrite R, raw_nth, F by auto. unfold of_air. fold S.
    assert (S0 : ~ S == 0) by (intros Z; rewrite Z in X; lra). assert (D : ~ 1 - bi == 0) by (intros Z; rewrite Z in X; lra). field. split; auto.
  Qed.
End Cell.

(** ** C185 *)
Lemma c185_partial bi ct cu mass i : 0 <= bi -> bi <= 1 -> carried ct cu mass -> (i < length ct)%nat -> saturation ct cu <= 1 ->
  nth i (compute_weights bi ct cu mass) 0 == mixture (1 - doc_bed_share bi (saturation ct cu)) (of_air ct cu i) (of_bed mass i).
Proof.
  intros B0 B1 C H X. assert (L : Qle_bool (saturation ct cu) 1 = true) by (now apply Qle_bool_iff). unfold doc_bed_share. rewrite L.
  pose proof (sat_nonneg ct cu mass C) as N.
  rewrite (shares_below bi ct cu mass C i H) by nra. unfold mixture. ring.
Qed.
Lemma c185_between bi ct cu mass i : 0 <= bi -> bi <= 1 -> carried ct cu mass -> (i < length ct)%nat -> (1 - bi) * saturation ct cu <= 1 ->
  nth i (compute_weights bi ct cu mass) 0 == mixture ((1 - bi) * saturation ct cu) (of_air ct cu i) (of_bed mass i).
Proof. intros B0 B1 C H X. now apply shares_below. Qed.
Lemma c185_above bi ct cu mass i : 0 <= bi -> bi <= 1 -> carried ct cu mass -> (i < length ct)%nat -> 1 <= (1 - bi) * saturation ct cu ->
  nth i (compute_weights bi ct cu mass) 0 == of_air ct cu i.
Proof. intros B0 B1 C H X. now apply shares_above. Qed.
Lemma c185_bed_only ct cu mass i : carried ct cu mass -> (i < length ct)%nat -> nth i (compute_weights 1 ct cu mass) 0 == of_bed mass i.
Proof.
  intros C H. rewrite (c185_between 1 ct cu mass i) by (auto; try lra; setoid_replace ((1 - 1) * saturation ct cu) with 0 by ring; lra).
  unfold mixture. ring.
Qed.
