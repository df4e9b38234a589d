(** Statements assembled from Utils_Proofs, and concrete cases. *)
From Coq Require Import Sorting.Sorted.
From Verif Require Import Base Num Utils_Model Utils_Spec Utils_Proofs.
Open Scope Q_scope.

Lemma same_nonneg a b : same a b -> all_nonneg b -> all_nonneg a.
Proof.
  unfold same. induction 1 as [|x y a b Hxy H IH]; intros Hb z Hz; [destruct Hz|]. destruct Hz as [<-|Hz].
  - rewrite Hxy. apply Hb. now left.
  - apply IH; [intros w Hw; apply Hb; now right|exact Hz].
Qed.
Lemma same_distribution a b : same a b -> distribution b -> distribution a.
Proof. intros H [H1 H2]. split; [exact (same_nonneg _ _ H H1)|]. now rewrite (same_sum _ _ H). Qed.
Lemma same_const a b c : same a b -> (forall x, In x b -> x == c) -> forall x, In x a -> x == c.
Proof.
  unfold same. induction 1 as [|x y a b Hxy H IH]; intros Hb z Hz; [destruct Hz|]. destruct Hz as [<-|Hz].
  - rewrite Hxy. apply Hb. now left.
  - apply IH; [intros w Hw; apply Hb; now right|exact Hz].
Qed.
Lemma same_nth a b i : same a b -> nth i a 0 == nth i b 0.
Proof. unfold same. intros H. revert i. induction H as [|x y a b Hxy H IH]; intros [|i]; cbn [nth]; try reflexivity; [exact Hxy|apply IH]. Qed.

(** *** C19 *)
Lemma normalize_rows_distribution fill m i r : nth_error m i = Some r -> all_nonneg r -> 0 < qsum r ->
  exists r', nth_error (normalize_rows fill m) i = Some r' /\ length r' = length r /\ distribution r' /\
    forall a b, (a < length r)%nat -> (b < length r)%nat -> nth a r' 0 * nth b r 0 == nth b r' 0 * nth a r 0.
Proof.
  intros Hr Hn Hs. exists (normalize fill r). split; [unfold normalize_rows; now apply map_nth_error|].
  split; [apply normalize_length|]. split; [now apply normalize_distribution|]. intros a b Ha Hb. apply normalize_ratio; [exact Ha|exact Hb|lra].
Qed.
Lemma normalize_rows_fill fill m i r : nth_error m i = Some r -> qsum r == 0 ->
  exists r', nth_error (normalize_rows fill m) i = Some r' /\ length r' = length r /\ forall x, In x r' -> x = fill.
Proof.
  intros Hr Hs. exists (normalize fill r). split; [unfold normalize_rows; now apply map_nth_error|].
  split; [apply normalize_length|]. intros x Hx. rewrite normalize_zero in Hx by exact Hs. apply in_map_iff in Hx. destruct Hx as [? [<- _]]. reflexivity.
Qed.
Lemma column_length j m : length (column j m) = length m.
Proof. apply map_length. Qed.
Lemma normalize_columns_distribution fill w m j : (forall r, In r m -> length r = w) -> (j < w)%nat ->
  all_nonneg (column j m) -> 0 < qsum (column j m) ->
  distribution (column j (normalize_columns fill w m)) /\
  forall a b, (a < length m)%nat -> (b < length m)%nat ->
    nth a (column j (normalize_columns fill w m)) 0 * nth b (column j m) 0 == nth b (column j (normalize_columns fill w m)) 0 * nth a (column j m) 0.
Proof.
  intros Hw Hj Hn Hs. pose proof (normalize_column fill w m j Hw Hj) as S. split.
  - apply (same_distribution _ _ S). now apply normalize_distribution.
  - intros a b Ha Hb. rewrite (same_nth _ _ a S), (same_nth _ _ b S). apply normalize_ratio; rewrite ?column_length; [exact Ha|exact Hb|lra].
Qed.
Lemma normalize_columns_fill fill w m j : (forall r, In r m -> length r = w) -> (j < w)%nat -> qsum (column j m) == 0 ->
  forall x, In x (column j (normalize_columns fill w m)) -> x == fill.
Proof.
  intros Hw Hj Hs. apply (same_const _ _ _ (normalize_column fill w m j Hw Hj)). intros x Hx.
  rewrite normalize_zero in Hx by exact Hs. apply in_map_iff in Hx. destruct Hx as [? [<- _]]. reflexivity.
Qed.
Definition c19_matrix : list (list Q) := [[1; 3]; [0; 1]].
Ltac nonneg := let x := fresh "x" in let H := fresh "H" in
  intros x H; cbn in H; repeat (destruct H as [<- | H]; [first [lra | vm_compute; congruence]|]); destruct H.
Lemma c19_rows_case : nth_error c19_matrix 0 = Some [1; 3] /\ all_nonneg [1; 3] /\ 0 < qsum [1; 3] /\
  normalize 0 [1; 3] = [1 / (1 + (3 + 0)); 3 / (1 + (3 + 0))].
Proof. split; [reflexivity|]. split; [nonneg|]. split; [reflexivity|]. vm_compute. reflexivity. Qed.
Lemma c19_columns_case : (forall r, In r c19_matrix -> length r = 2%nat) /\ all_nonneg (column 1 c19_matrix) /\ 0 < qsum (column 1 c19_matrix) /\
  map Qred (column 1 (normalize_columns 0 2 c19_matrix)) = [3 # 4; 1 # 4].
Proof. split; [intros r [<-|[<-|[]]]; reflexivity|]. split; [nonneg|]. split; [reflexivity|]. vm_compute. reflexivity. Qed.
Lemma c19_fill_case : nth_error [[1; -1 # 1]; [2; 0]] 0 = Some [1; -1 # 1] /\ qsum [1; -1 # 1] == 0 /\ normalize (7 # 1) [1; -1 # 1] = [7 # 1; 7 # 1].
Proof. split; [reflexivity|]. split; [reflexivity|]. vm_compute. reflexivity. Qed.
Lemma c19_fill_columns_case : (forall r, In r [[0; 1]; [0; 2]] -> length r = 2%nat) /\ qsum (column 0 [[0; 1]; [0; 2]]) == 0 /\
  column 0 (normalize_columns (1 # 2) 2 [[0; 1]; [0; 2]]) = [1 # 2; 1 # 2].
Proof. split; [intros r [<-|[<-|[]]]; reflexivity|]. split; [reflexivity|]. vm_compute. reflexivity. Qed.

(** *** C20 *)
Lemma c20_weights_case : distribution (compute_weights (1 # 2) [1; 0] [2; 3] [4; 12]) /\
  map Qred (compute_weights (1 # 2) [1; 0] [2; 3] [4; 12]) = [7 # 16; 9 # 16].
Proof.
  split; [|vm_compute; reflexivity].
  apply weights_distribution; [reflexivity|reflexivity|lra|lra|nonneg|nonneg|nonneg|reflexivity].
Qed.
Lemma c20_empty_layer : exists bi ct cu mass, 0 <= bi /\ bi <= 1 /\ all_nonneg ct /\ all_nonneg cu /\ all_nonneg mass /\ length ct = length cu /\
  length ct = length mass /\ ~ distribution (compute_weights bi ct cu mass).
Proof.
  exists 1, [0; 0], [0; 0], [0; 0]. split; [lra|]. split; [lra|]. split; [nonneg|]. split; [nonneg|]. split; [nonneg|].
  split; [reflexivity|]. split; [reflexivity|]. intros [_ H]. vm_compute in H. discriminate.
Qed.
(** With supply in the air, an empty layer does no harm. *)
Lemma c20_air_supply bi ct cu mass : length ct = length cu -> length ct = length mass -> 0 <= bi -> bi < 1 ->
  all_nonneg ct -> all_nonneg cu -> all_nonneg mass -> 0 < qsum (w_air ct cu) ->
  distribution (compute_weights bi ct cu mass).
Proof.
  intros L1 L2 B0 B1 Hct Hcu Hm Hs. pose proof (qsum_nonneg mass Hm) as Hp.
  destruct (Qlt_le_dec 0 (qsum mass)) as [Hq|Hq]; [apply weights_distribution; try assumption; lra|].
  assert (Hz : qsum mass == 0) by lra. unfold compute_weights, w_bed. rewrite (normalize_zero 0 mass) by exact Hz.
  set (wa := w_air ct cu) in *. assert (Hwa : all_nonneg wa) by (now apply w_air_nonneg).
  assert (Lwa : length wa = length (map (fun _ : Q => 0) mass)).
  { unfold wa, w_air, normalize_ref. rewrite map_length, map2_length by exact L1. exact L2. }
  set (free := 1 - qmin 1 ((1 - bi) * qsum wa)).
  assert (Hf : 0 <= free) by (unfold free; pose proof (qmin_l 1 ((1 - bi) * qsum wa)); lra).
  apply normalize_distribution.
  - apply all_nonneg_map2; [|exact Hwa|].
    + intros a b Ha Hb. assert (0 <= (1 - bi) * a) by (apply Qmult_le_0_compat; lra). assert (0 <= free * b) by (apply Qmult_le_0_compat; lra). lra.
    + intros x Hx. apply in_map_iff in Hx. destruct Hx as [? [<- _]]. lra.
  - rewrite qsum_map2_lin by exact Lwa. rewrite qsum_map_const.
    assert (0 < (1 - bi) * qsum wa) by (apply Qmult_lt_0_compat; lra). lra.
Qed.
Lemma c20_air_case : 0 < qsum (w_air [1; 0] [2; 3]) /\ map Qred (compute_weights (1 # 2) [1; 0] [2; 3] [0; 0]) = [1; 0].
Proof. split; vm_compute; reflexivity. Qed.
Lemma c20_renormalize w ix : w <> [] -> all_nonneg w -> qsum (firstn ix w) <= 1 ->
  distribution (renormalize_weights w ix) /\ length (renormalize_weights w ix) = length w.
Proof. intros H1 H2 H3. split; [now apply renorm_distribution|apply renorm_length]. Qed.
Lemma c20_renormalize_case : [1 # 4; 1; 3] <> [] /\ all_nonneg [1 # 4; 1; 3] /\ qsum (firstn 1 [1 # 4; 1; 3]) <= 1 /\
  map Qred (renormalize_weights [1 # 4; 1; 3] 1) = [1 # 4; 3 # 16; 9 # 16].
Proof. split; [discriminate|]. split; [nonneg|]. split; [vm_compute; congruence|]. vm_compute. reflexivity. Qed.
Lemma c20_earlier_refuted : exists w ix, all_nonneg w /\ qsum (firstn ix w) <= 1 /\
  ~ same (firstn ix (renormalize_weights w ix)) (firstn ix w).
Proof.
  exists [1 # 2; 0], 1%nat. split; [nonneg|]. split; [vm_compute; congruence|]. intros H. vm_compute in H.
  inversion H as [|? ? ? ? E _]; subst. vm_compute in E. discriminate.
Qed.
Lemma c20_earlier w ix : (ix <= length w)%nat -> ~ qsum (skipn ix w) == 0 \/ qsum (firstn ix w) == 1 ->
  same (firstn ix (renormalize_weights w ix)) (firstn ix w).
Proof. intros Hl H. pose proof (renorm_keeps_earlier w ix H) as G. rewrite firstn_length_le in G by exact Hl. exact G. Qed.
Lemma c20_earlier_case : (1 <= length [1 # 4; 1; 3]%Q)%nat /\ ~ qsum (skipn 1 [1 # 4; 1; 3]) == 0.
Proof. split; [cbn; lia|]. intros H. vm_compute in H. discriminate. Qed.

(** *** C21 *)
Definition c21_first : Q * Q := (0, 10).
Definition c21_rest : list (Q * Q) := [(2, 20); (3, 14)].
Lemma c21_series : series (c21_first :: c21_rest).
Proof.
  unfold series, c21_first, c21_rest. cbn [map fst].
  apply SSorted_cons; [apply SSorted_cons; [apply SSorted_cons; [apply SSorted_nil|constructor]|]|]; repeat (constructor; try lra).
Qed.
Lemma c21_case : series (c21_first :: c21_rest) /\ Qred (interp_circular (1 # 2) c21_first c21_rest) = 25 # 2 /\
  Qred (interp_circular (9 # 2) c21_first c21_rest) = 25 # 2 /\ Qred (interp_circular (7 # 2) c21_first c21_rest) = 14.
Proof. split; [exact c21_series|]. vm_compute. repeat split; reflexivity. Qed.
Lemma c21_sample first rest : series (first :: rest) -> forall a, In a (first :: rest) -> interp_circular (fst a) first rest == snd a.
Proof.
  intros Hs a Ha. apply in_split in Ha. destruct Ha as [pre [post E]]. destruct post as [|b post].
  - assert (La : last rest first = a).
    { rewrite <- (last_cons first rest first), E. destruct pre as [|p pre]; [reflexivity|]. rewrite last_last. reflexivity. }
    assert (Hi : In a (first :: rest)) by (rewrite E; apply in_or_app; right; now left).
    assert (Hm : xmax first rest == fst a).
    { pose proof (xmax_all first rest Hs a Hi) as H1. unfold xmax in *. destruct (qmaxl_in (fst first) (map fst rest)) as [H|H].
      - rewrite <- H in *. destruct pre as [|p pre]; [injection E as -> _; reflexivity|]. injection E as -> E.
        pose proof (sorted_first p rest Hs (fst a)) as G.
        assert (In (fst a) (map fst rest)) as Gi by (rewrite E, map_app; apply in_or_app; right; now left). specialize (G Gi). lra.
      - apply in_map_iff in H. destruct H as [q [Hq Hr]]. rewrite <- Hq in *.
        assert (Hqa : In q (pre ++ [a])) by (rewrite <- E; now right). apply in_app_or in Hqa. destruct Hqa as [Hqp|[->|[]]]; [|reflexivity].
        unfold series in Hs. rewrite E in Hs. apply in_split in Hqp. destruct Hqp as [u [v ->]].
        rewrite <- app_assoc in Hs. cbn [app] in Hs. rewrite map_app in Hs. clear -Hs H1. exfalso.
        induction (map fst u) as [|z l IH]; cbn [app map] in Hs; apply StronglySorted_inv in Hs; destruct Hs as [Hs F]; [|now apply IH].
        rewrite Forall_forall in F. specialize (F (fst a)). assert (G : fst q < fst a) by (apply F; rewrite map_app; apply in_or_app; right; now left). lra. }
    rewrite (circular_hold first rest Hs) by lra. now rewrite La.
  - pose proof (circular_inside first rest Hs (fst a) pre a b post E) as H.
    assert (Hab : fst a < fst b).
    { unfold series in Hs. rewrite E, map_app in Hs. clear -Hs. induction (map fst pre) as [|z l IH]; cbn [app map] in Hs; apply StronglySorted_inv in Hs; destruct Hs as [Hs F]; [|now apply IH].
      rewrite Forall_forall in F. apply F. now left. }
    assert (H1 : fst a <= fst a) by lra. assert (H2 : fst a <= fst b) by lra. specialize (H H1 H2). unfold on_line in H.
    assert (E2 : (interp_circular (fst a) first rest - snd a) * (fst b - fst a) == 0) by (rewrite H; ring).
    apply Qmult_integral in E2. destruct E2 as [E2|E2]; lra.
Qed.

(** *** C55 *)
Lemma c55_refuted : exists first rest x, series (first :: rest) /\ xmax first rest < x /\
  ~ interp_circular x first rest == interp_circular (x - (xmax first rest - xmin first rest)) first rest.
Proof.
  exists c21_first, c21_rest, (7 # 2). split; [exact c21_series|]. split; [vm_compute; reflexivity|]. intros H. vm_compute in H. discriminate.
Qed.

(** *** C22 *)
Lemma c22_cell_case : nth_error [(2, 1); (3, 0)] 1 = Some (3, 0) /\ nth_error [[5]; [7; 8]] 1 = Some [7; 8] /\ nth_error [7; 8] 1 = Some 8 /\
  apply_mask [[5]; [7; 8]] (Cells [(2, 1); (3, 0)]) = [[5 * 2 + 1]; [7 * 3 + 0; 8 * 3 + 0]].
Proof. repeat split; reflexivity. Qed.

(** *** C47 *)
Lemma c47_lower_refuted : exists sizes mass percent, length sizes = length mass /\ all_nonneg mass /\ 0 < qsum mass /\ 0 < percent /\ percent <= 100 /\
  (forall d, In d sizes -> calc_grain_size sizes mass percent < d).
Proof.
  exists [225 # 1000000], [3], 50. split; [reflexivity|]. split; [nonneg|]. split; [reflexivity|]. split; [lra|]. split; [lra|].
  intros d [<-|[]]. vm_compute. reflexivity.
Qed.
Lemma c47_percentile_case : length [1; 4] = length [5; 15] /\ all_nonneg [5; 15] /\ 0 < qsum [5; 15] /\ StronglySorted Qle (0 :: [1; 4]) /\
  Qred (calc_grain_size [1; 4] [5; 15] 50) = 2 /\ Qred (calc_grain_size [1; 4] [5; 15] 90) = 18 # 5 /\
  Qred (calc_mean_grain_size [1; 4] [5; 15]) = 13 # 4.
Proof.
  split; [reflexivity|]. split; [nonneg|]. split; [reflexivity|].
  split; [repeat (apply SSorted_cons || apply SSorted_nil || constructor || lra)|]. vm_compute. repeat split; reflexivity.
Qed.
