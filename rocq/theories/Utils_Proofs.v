From Coq Require Import Sorting.Sorted.
From Verif Require Import Base Num Utils_Model Utils_Spec.
Open Scope Q_scope.

(** ** Lists *)
Lemma map2_length {A B C} (f : A -> B -> C) l : forall m, length l = length m -> length (map2 f l m) = length l.
Proof. induction l as [|a l IH]; intros [|b m] H; cbn in *; try discriminate; [reflexivity|]. now rewrite IH by lia. Qed.
Lemma map2_const {A B C D} (f : A -> B -> C) (g : D -> B) l : forall m : list D, length l = length m ->
  forall b, (forall d, In d m -> g d = b) -> map2 f l (map g m) = map (fun a => f a b) l.
Proof.
  induction l as [|a l IH]; intros [|d m] H b Hb; cbn in *; try discriminate; [reflexivity|].
  rewrite (Hb d) by now left. f_equal. apply IH; [lia|]. intros d' Hd'. apply Hb. now right.
Qed.
Lemma same_refl l : same l l.
Proof. unfold same. induction l; constructor; [reflexivity|assumption]. Qed.
Lemma same_sym a b : same a b -> same b a.
Proof. unfold same. induction 1; constructor; [now symmetry|assumption]. Qed.
Lemma same_trans a b c : same a b -> same b c -> same a c.
Proof.
  unfold same. intros H. revert c. induction H as [|x y a b Hxy H IH]; intros c Hc; inversion Hc; subst; constructor; [|now apply IH].
  now rewrite Hxy.
Qed.
Lemma same_sum a b : same a b -> qsum a == qsum b.
Proof. unfold same, qsum. induction 1 as [|x y a b Hxy H IH]; cbn [fold_right]; [reflexivity|]. now rewrite Hxy, IH. Qed.
Lemma same_map (f g : Q -> Q) l : (forall x, In x l -> f x == g x) -> same (map f l) (map g l).
Proof.
  unfold same. induction l as [|x l IH]; intros H; cbn [map]; constructor; [apply H; now left|]. apply IH. intros y Hy. apply H. now right.
Qed.
Lemma qsum_map_div {A} (f : A -> Q) c l : qsum (map (fun x => f x / c) l) == qsum (map f l) / c.
Proof. unfold qsum. induction l as [|x l IH]; cbn [map fold_right]; [unfold Qdiv; ring|]. rewrite IH. unfold Qdiv. ring. Qed.

(** ** normalize *)
Lemma normalize_zero fill x : qsum x == 0 -> normalize fill x = map (fun _ => fill) x.
Proof.
  intros H. unfold normalize, normalize_ref. rewrite (map2_const _ _ x x eq_refl (qsum x)) by reflexivity.
  apply map_ext. intros a. unfold quotient. destruct (Qeq_bool_spec (qsum x) 0); [reflexivity|contradiction].
Qed.
Lemma normalize_nonzero fill x : ~ qsum x == 0 -> normalize fill x = map (fun a => a / qsum x) x.
Proof.
  intros H. unfold normalize, normalize_ref. rewrite (map2_const _ _ x x eq_refl (qsum x)) by reflexivity.
  apply map_ext. intros a. unfold quotient. destruct (Qeq_bool_spec (qsum x) 0); [contradiction|reflexivity].
Qed.
Lemma normalize_length fill x : length (normalize fill x) = length x.
Proof. unfold normalize, normalize_ref. rewrite map2_length by (now rewrite map_length). reflexivity. Qed.
Lemma normalize_sum fill x : ~ qsum x == 0 -> qsum (normalize fill x) == 1.
Proof.
  intros H. rewrite normalize_nonzero by exact H. rewrite qsum_map_div, map_id. field. exact H.
Qed.
Lemma qdiv_nonneg a b : 0 <= a -> 0 < b -> 0 <= a / b.
Proof. intros Ha Hb. apply Qle_shift_div_l; [exact Hb|lra]. Qed.
Lemma normalize_distribution fill x : all_nonneg x -> 0 < qsum x -> distribution (normalize fill x).
Proof.
  intros Hx Hs. assert (Hz : ~ qsum x == 0) by (intros E; lra). split; [|now apply normalize_sum].
  rewrite normalize_nonzero by exact Hz. intros y Hy. apply in_map_iff in Hy. destruct Hy as [a [<- Ha]].
  apply qdiv_nonneg; [now apply Hx|exact Hs].
Qed.
Lemma nth_map {A B} (f : A -> B) l i d e : (i < length l)%nat -> nth i (map f l) e = f (nth i l d).
Proof. intros H. rewrite (nth_indep _ e (f d)) by (now rewrite map_length). apply map_nth. Qed.
Lemma normalize_ratio fill x i j : (i < length x)%nat -> (j < length x)%nat -> ~ qsum x == 0 ->
  nth i (normalize fill x) 0 * nth j x 0 == nth j (normalize fill x) 0 * nth i x 0.
Proof.
  intros Hi Hj Hz. rewrite normalize_nonzero by exact Hz.
  rewrite !(nth_map (fun a => a / qsum x)) with (d := 0) by assumption.
  unfold Qdiv. ring.
Qed.
(** normalize respects equality of numbers. *)
Lemma normalize_same fill a b : same a b -> same (normalize fill a) (normalize fill b).
Proof.
  intros H. pose proof (same_sum _ _ H) as Hs. destruct (Qeq_dec (qsum a) 0) as [Hz|Hz].
  - rewrite normalize_zero by exact Hz. rewrite normalize_zero by (now rewrite <- Hs).
    clear Hs Hz. induction H; cbn [map]; constructor; [reflexivity|assumption].
  - rewrite normalize_nonzero by exact Hz. rewrite normalize_nonzero by (now rewrite <- Hs).
    clear Hz. revert Hs. generalize (qsum a) (qsum b). induction H as [|x y a b Hxy H IH]; intros s t Hst; cbn [map]; constructor.
    + now rewrite Hxy, Hst.
    + now apply IH.
Qed.

(** Columns. *)
Lemma nth_map2_plus a : forall b j, length a = length b -> nth j (add_rows a b) 0 == nth j a 0 + nth j b 0.
Proof.
  unfold add_rows. induction a as [|x a IH]; intros [|y b] j H; cbn in *; try discriminate.
  - destruct j; cbn; lra.
  - destruct j as [|j]; [reflexivity|]. apply IH. lia.
Qed.
Lemma column_sums_length w m : (forall r, In r m -> length r = w) -> length (column_sums w m) = w.
Proof.
  unfold column_sums. induction m as [|r m IH]; intros H; cbn [fold_right]; [apply repeat_length|].
  unfold add_rows at 1. rewrite map2_length; [apply H; now left|]. rewrite IH; [apply H; now left|]. intros r' Hr'. apply H. now right.
Qed.
Lemma column_sum w m j : (forall r, In r m -> length r = w) -> nth j (column_sums w m) 0 == qsum (column j m).
Proof.
  unfold column. induction m as [|r m IH]; intros H.
  - unfold column_sums. cbn [fold_right map]. unfold qsum. cbn [fold_right].
    destruct (Nat.lt_ge_cases j w) as [Hj|Hj]; [|rewrite nth_overflow by (rewrite repeat_length; exact Hj); reflexivity].
    pose proof (nth_In (repeat 0 w) 0 (n := j)) as Hi. rewrite repeat_length in Hi. specialize (Hi Hj). apply repeat_spec in Hi. now rewrite Hi.
  - unfold column_sums. cbn [fold_right map]. fold (column_sums w m).
    assert (Hl : forall r', In r' m -> length r' = w) by (intros r' Hr'; apply H; now right).
    rewrite nth_map2_plus; [|rewrite column_sums_length by exact Hl; apply H; now left].
    rewrite IH by exact Hl. reflexivity.
Qed.
Lemma nth_map2 {A B C} (f : A -> B -> C) l : forall m j a b c, length l = length m -> (j < length l)%nat ->
  nth j (map2 f l m) c = f (nth j l a) (nth j m b).
Proof.
  induction l as [|x l IH]; intros [|y m] j a b c H Hj; cbn in *; try discriminate; [lia|].
  destruct j as [|j]; [reflexivity|]. apply IH; lia.
Qed.
Lemma normalize_column fill w m j : (forall r, In r m -> length r = w) -> (j < w)%nat ->
  same (column j (normalize_columns fill w m)) (normalize fill (column j m)).
Proof.
  intros Hw Hj. pose proof (column_sum w m j Hw) as Hs.
  set (cs := column_sums w m) in *. assert (Hl : length cs = w) by (now apply column_sums_length).
  unfold column at 1, normalize_columns. fold cs. rewrite map_map.
  assert (E : forall l, (forall r, In r l -> length r = w) ->
     map (fun row => nth j (normalize_ref fill row cs) 0) l = map (fun row => quotient fill (nth j row 0) (nth j cs 0)) l).
  { intros l Hr. apply map_ext_in. intros r Hi. unfold normalize_ref. apply nth_map2; rewrite ?Hl; rewrite (Hr r Hi); [reflexivity|exact Hj]. }
  rewrite E by exact Hw. unfold quotient.
  destruct (Qeq_dec (qsum (column j m)) 0) as [Hz|Hz].
  - rewrite normalize_zero by exact Hz. destruct (Qeq_bool_spec (nth j cs 0) 0) as [_|Hn]; [|exfalso; apply Hn; now rewrite Hs].
    unfold column. rewrite map_map. apply same_refl.
  - rewrite normalize_nonzero by exact Hz. destruct (Qeq_bool_spec (nth j cs 0) 0) as [Hn|_]; [exfalso; apply Hz; now rewrite <- Hs|].
    set (t := qsum (column j m)) in *. unfold column. rewrite map_map.
    clearbody t cs. clear E Hw Hz. induction m as [|r m IH]; cbn [map]; constructor; [now rewrite Hs|exact IH].
Qed.

(** ** Weights *)
Lemma all_nonneg_map2 (f : Q -> Q -> Q) : (forall a b, 0 <= a -> 0 <= b -> 0 <= f a b) ->
  forall l m, all_nonneg l -> all_nonneg m -> all_nonneg (map2 f l m).
Proof.
  intros Hf. induction l as [|x l IH]; intros [|y m] Hl Hm z Hz; cbn in Hz; try destruct Hz as [<-|Hz]; try contradiction.
  - apply Hf; [apply Hl|apply Hm]; now left.
  - apply (IH m); [intros a Ha; apply Hl; now right|intros a Ha; apply Hm; now right|exact Hz].
Qed.
Lemma w_air_nonneg ct cu : all_nonneg ct -> all_nonneg cu -> all_nonneg (w_air ct cu).
Proof.
  intros H1 H2. apply all_nonneg_map2; [|exact H1|exact H2]. intros a b Ha Hb. unfold quotient.
  destruct (Qeq_bool_spec b 0) as [_|Hz]; [lra|]. apply qdiv_nonneg; [exact Ha|].
  destruct (Qlt_le_dec 0 b) as [H|H]; [exact H|]. exfalso. apply Hz. lra.
Qed.
Lemma qsum_map2_lin c d l : forall m, length l = length m ->
  qsum (map2 (fun a b => c * a + d * b) l m) == c * qsum l + d * qsum m.
Proof.
  unfold qsum. induction l as [|x l IH]; intros [|y m] H; cbn in *; try discriminate; [ring|]. rewrite IH by lia. ring.
Qed.
Lemma map2_len_min {A B C} (f : A -> B -> C) l m : length l = length m -> length (map2 f l m) = length m.
Proof. intros H. rewrite map2_length by exact H. exact H. Qed.

Lemma weights_distribution bi ct cu mass : length ct = length cu -> length ct = length mass ->
  0 <= bi -> bi <= 1 -> all_nonneg ct -> all_nonneg cu -> all_nonneg mass -> 0 < qsum mass ->
  distribution (compute_weights bi ct cu mass).
Proof.
  intros L1 L2 B0 B1 Hct Hcu Hm Hs. unfold compute_weights. set (wa := w_air ct cu).
  assert (Hwa : all_nonneg wa) by (now apply w_air_nonneg).
  assert (Hwb : distribution (w_bed mass)) by (now apply normalize_distribution).
  set (free := 1 - qmin 1 ((1 - bi) * qsum wa)).
  assert (Hf : 0 <= free) by (unfold free; pose proof (qmin_l 1 ((1 - bi) * qsum wa)); lra).
  assert (Lwa : length wa = length (w_bed mass)).
  { unfold wa, w_air, normalize_ref, w_bed. rewrite normalize_length, map2_length by exact L1. exact L2. }
  apply normalize_distribution.
  - apply all_nonneg_map2; [|exact Hwa|exact (proj1 Hwb)]. intros a b Ha Hb.
    assert (0 <= (1 - bi) * a) by (apply Qmult_le_0_compat; lra). assert (0 <= free * b) by (apply Qmult_le_0_compat; lra). lra.
  - rewrite qsum_map2_lin by exact Lwa. destruct Hwb as [_ ->]. unfold free.
    pose proof (qsum_nonneg wa Hwa) as Hw0. assert (0 <= (1 - bi) * qsum wa) by (apply Qmult_le_0_compat; lra).
    destruct (qmin_cases 1 ((1 - bi) * qsum wa)) as [[-> Hc]|[-> Hc]]; lra.
Qed.

(** Air and bed both saturated: formula before normalisation is already normalised. *)
Lemma normalize_one fill x : qsum x == 1 -> same (normalize fill x) x.
Proof.
  intros H. rewrite normalize_nonzero by (rewrite H; discriminate).
  assert (G : same (map (fun a => a / qsum x) x) (map (fun a => a) x)) by (apply same_map; intros a _; rewrite H; field).
  rewrite map_id in G. exact G.
Qed.

(** ** renormalize_weights *)
Lemma firstn_skipn_sum ix (w : list Q) : qsum (firstn ix w) + qsum (skipn ix w) == qsum w.
Proof. rewrite <- qsum_app. now rewrite firstn_skipn. Qed.
Lemma qsum_scale {A} (f : A -> Q) c l : qsum (map (fun x => f x * c) l) == qsum (map f l) * c.
Proof. unfold qsum. induction l as [|x l IH]; cbn [map fold_right]; [ring|rewrite IH; ring]. Qed.
Lemma same_app a b c d : same a b -> same c d -> same (a ++ c) (b ++ d).
Proof. unfold same. apply Forall2_app. Qed.

Lemma renorm_length w ix : length (renormalize_weights w ix) = length w.
Proof.
  unfold renormalize_weights. rewrite normalize_length, app_length, map_length, normalize_length.
  rewrite <- app_length. now rewrite firstn_skipn.
Qed.
Lemma firstn_in {A} n (l : list A) x : In x (firstn n l) -> In x l.
Proof. intros H. rewrite <- (firstn_skipn n l). apply in_or_app. now left. Qed.
Lemma skipn_in {A} n (l : list A) x : In x (skipn n l) -> In x l.
Proof. intros H. rewrite <- (firstn_skipn n l). apply in_or_app. now right. Qed.

Lemma renorm_supplied w ix : ~ qsum (skipn ix w) == 0 ->
  same (renormalize_weights w ix) (firstn ix w ++ map (fun x => x / qsum (skipn ix w) * (1 - qsum (firstn ix w))) (skipn ix w)).
Proof.
  intros Hz. unfold renormalize_weights. rewrite (normalize_nonzero 0) by exact Hz. rewrite map_map. apply normalize_one.
  rewrite qsum_app, (qsum_scale (fun x => x / qsum (skipn ix w))), (qsum_map_div (fun x => x)), map_id. field. exact Hz.
Qed.
Lemma same_firstn k a b : same a b -> same (firstn k a) (firstn k b).
Proof.
  unfold same. intros H. revert k. induction H as [|x y a b Hxy H IH]; intros [|k]; cbn [firstn]; constructor; [exact Hxy|apply IH].
Qed.
Lemma firstn_exact {A} (a b : list A) : firstn (length a) (a ++ b) = a.
Proof. rewrite firstn_app, Nat.sub_diag, firstn_all. cbn [firstn]. apply app_nil_r. Qed.
Lemma renorm_keeps_earlier w ix : ~ qsum (skipn ix w) == 0 \/ qsum (firstn ix w) == 1 ->
  same (firstn (length (firstn ix w)) (renormalize_weights w ix)) (firstn ix w).
Proof.
  intros H. destruct (Qeq_dec (qsum (skipn ix w)) 0) as [Hz|Hz].
  - destruct H as [H|Hf]; [contradiction|]. unfold renormalize_weights. rewrite (normalize_zero 0) by exact Hz. rewrite map_map.
    set (z := map (fun _ : Q => 0 * (1 - qsum (firstn ix w))) (skipn ix w)).
    pose proof (normalize_one (1 / inject_Z (Z.of_nat (length w))) (firstn ix w ++ z)) as G.
    assert (E : qsum (firstn ix w ++ z) == 1) by (rewrite qsum_app, Hf; unfold z; rewrite qsum_map_const; ring).
    apply G in E. apply (same_firstn (length (firstn ix w))) in E. rewrite firstn_exact in E. exact E.
  - pose proof (renorm_supplied w ix Hz) as G. apply (same_firstn (length (firstn ix w))) in G. rewrite firstn_exact in G. exact G.
Qed.

Lemma renorm_distribution w ix : w <> [] -> all_nonneg w -> qsum (firstn ix w) <= 1 -> distribution (renormalize_weights w ix).
Proof.
  intros Hne Hw Hf. unfold renormalize_weights. set (f := qsum (firstn ix w)) in *.
  set (w' := firstn ix w ++ map (fun x => x * (1 - f)) (normalize 0 (skipn ix w))).
  assert (Hs : all_nonneg (skipn ix w)) by (intros x Hx; apply Hw; exact (skipn_in _ _ _ Hx)).
  assert (Hn : all_nonneg w').
  { intros x Hx. apply in_app_or in Hx. destruct Hx as [Hx|Hx]; [apply Hw; exact (firstn_in _ _ _ Hx)|].
    apply in_map_iff in Hx. destruct Hx as [y [<- Hy]]. apply Qmult_le_0_compat; [|lra].
    destruct (Qeq_dec (qsum (skipn ix w)) 0) as [Hz|Hz].
    - rewrite normalize_zero in Hy by exact Hz. apply in_map_iff in Hy. destruct Hy as [z [<- _]]. lra.
    - assert (0 < qsum (skipn ix w)) as Hp.
      { pose proof (qsum_nonneg _ Hs). destruct (Qlt_le_dec 0 (qsum (skipn ix w))) as [H1|H1]; [exact H1|]. exfalso. apply Hz. lra. }
      exact (proj1 (normalize_distribution 0 _ Hs Hp) y Hy). }
  pose proof (qsum_nonneg _ Hn) as Hp. destruct (Qlt_le_dec 0 (qsum w')) as [H1|H1]; [now apply normalize_distribution|].
  assert (Hz : qsum w' == 0) by lra. rewrite normalize_zero by exact Hz.
  assert (Lw : length w' = length w).
  { unfold w'. rewrite app_length, map_length, normalize_length, <- app_length. now rewrite firstn_skipn. }
  assert (Hl : 0 < inject_Z (Z.of_nat (length w))).
  { rewrite <- (Zlt_Qlt 0). destruct w; [contradiction|cbn [length]; lia]. }
  split.
  - intros x Hx. apply in_map_iff in Hx. destruct Hx as [y [<- _]]. apply qdiv_nonneg; [lra|exact Hl].
  - rewrite qsum_map_const, Lw. field. lra.
Qed.

(** ** Interpolation *)
Lemma interp_proper x y : x == y -> forall rest x0 f0, interp_from x x0 f0 rest == interp_from y x0 f0 rest.
Proof.
  intros H. induction rest as [|[x1 f1] rest IH]; intros x0 f0; cbn [interp_from]; [reflexivity|].
  destruct (Qltb_spec x x1) as [H1|H1], (Qltb_spec y x1) as [H2|H2]; try (exfalso; lra); [|apply IH].
  destruct (Qle_bool_spec x x0) as [H3|H3], (Qle_bool_spec y x0) as [H4|H4]; try (exfalso; lra); [reflexivity|]. now rewrite H.
Qed.
Lemma line_between f0 f1 d e lo hi : 0 < d -> 0 <= e -> e <= d -> lo <= f0 -> f0 <= hi -> lo <= f1 -> f1 <= hi ->
  lo <= f0 + (f1 - f0) / d * e /\ f0 + (f1 - f0) / d * e <= hi.
Proof.
  intros Hd He1 He2 L0 U0 L1 U1.
  assert (E : f0 + (f1 - f0) / d * e == (f0 * (d - e) + f1 * e) / d) by (field; lra).
  rewrite E. split.
  - apply Qle_shift_div_l; [exact Hd|].
    assert (lo * (d - e) <= f0 * (d - e)) by (apply Qmult_le_compat_r; lra).
    assert (lo * e <= f1 * e) by (apply Qmult_le_compat_r; lra). lra.
  - apply Qle_shift_div_r; [exact Hd|].
    assert (f0 * (d - e) <= hi * (d - e)) by (apply Qmult_le_compat_r; lra).
    assert (f1 * e <= hi * e) by (apply Qmult_le_compat_r; lra). lra.
Qed.
Lemma interp_range x lo hi : forall rest x0 f0, StronglySorted Qlt (x0 :: map fst rest) ->
  within lo hi (f0 :: map snd rest) -> lo <= interp_from x x0 f0 rest /\ interp_from x x0 f0 rest <= hi.
Proof.
  induction rest as [|[x1 f1] rest IH]; intros x0 f0 Hs Hw; cbn [interp_from map fst snd] in *; [apply Hw; now left|].
  apply StronglySorted_inv in Hs. destruct Hs as [Hs Hf]. rewrite Forall_forall in Hf. assert (H01 : x0 < x1) by (apply Hf; now left).
  destruct (Hw f0 (or_introl eq_refl)) as [A1 A2]. destruct (Hw f1 (or_intror (or_introl eq_refl))) as [B1 B2].
  destruct (Qltb_spec x x1) as [H1|H1].
  - destruct (Qle_bool_spec x x0) as [H2|H2]; [lra|]. apply line_between; lra.
  - apply IH; [exact Hs|]. intros y Hy. apply Hw. now right.
Qed.
Lemma last_cons {A} (a : A) l : forall d, last (a :: l) d = last l a.
Proof.
  revert a. induction l as [|b l IH]; intros a d; [reflexivity|]. transitivity (last (b :: l) d); [reflexivity|].
  rewrite (IH b d). symmetry. apply IH.
Qed.
Lemma interp_last x : forall rest x0 f0, (forall p, In p ((x0, f0) :: rest) -> fst p <= x) ->
  interp_from x x0 f0 rest = snd (last rest (x0, f0)).
Proof.
  induction rest as [|[x1 f1] rest IH]; intros x0 f0 H; cbn [interp_from]; [reflexivity|].
  destruct (Qltb_spec x x1) as [H1|H1]; [exfalso; specialize (H (x1, f1) (or_intror (or_introl eq_refl))); cbn in H; lra|].
  rewrite IH by (intros p Hp; apply H; now right). f_equal. symmetry. apply last_cons.
Qed.
Lemma interp_segment x : forall rest x0 f0, StronglySorted Qlt (x0 :: map fst rest) ->
  forall pre a b post, (x0, f0) :: rest = pre ++ a :: b :: post -> fst a <= x -> x <= fst b ->
  on_line a b x (interp_from x x0 f0 rest).
Proof.
  induction rest as [|[x1 f1] rest IH]; intros x0 f0 Hs pre a b post E Ha Hb.
  - destruct pre as [|p [|q pre]]; discriminate E.
  - cbn [map fst] in Hs. apply StronglySorted_inv in Hs. destruct Hs as [Hs Hf]. rewrite Forall_forall in Hf.
    assert (H01 : x0 < x1) by (apply Hf; now left). cbn [interp_from].
    destruct pre as [|p pre].
    + injection E as <- <- <-. cbn [fst] in *. unfold on_line. cbn [fst snd].
      destruct (Qltb_spec x x1) as [H1|H1].
      * destruct (Qle_bool_spec x x0) as [H2|H2].
        { assert (x == x0) by lra. rewrite H. ring. }
        { field. lra. }
      * assert (Hx : x == x1) by lra. rewrite (interp_proper x x1 Hx).
        assert (G : interp_from x1 x1 f1 rest = f1).
        { destruct rest as [|[x2 f2] rest]; cbn [interp_from]; [reflexivity|].
          destruct (Qltb_spec x1 x2) as [_|H2]; [|exfalso; apply H2; apply StronglySorted_inv in Hs; destruct Hs as [_ Hf2];
            rewrite Forall_forall in Hf2; apply Hf2; now left].
          destruct (Qle_bool_spec x1 x1) as [_|H3]; [reflexivity|lra]. }
        rewrite G, Hx. ring.
    + injection E as _ E. assert (Hax : x1 <= fst a).
      { destruct pre as [|p' pre]; [injection E as <- _; cbn; lra|]. injection E as _ E. apply Qlt_le_weak.
        apply StronglySorted_inv in Hs. destruct Hs as [_ Hf2]. rewrite Forall_forall in Hf2. apply Hf2.
        rewrite E. rewrite map_app. apply in_or_app. right. now left. }
      destruct (Qltb_spec x x1) as [H1|_]; [lra|]. exact (IH x1 f1 Hs pre a b post E Ha Hb).
Qed.

(** Modulus. *)
Lemma qmod_range a b : 0 < b -> 0 <= qmod a b /\ qmod a b < b.
Proof.
  intros Hb. unfold qmod. pose proof (Qfloor_le (a / b)) as H1. pose proof (Qlt_floor (a / b)) as H2.
  set (k := Qfloor (a / b)) in *. rewrite inject_Z_plus in H2. change (inject_Z 1) with 1 in H2.
  assert (E : a == a / b * b) by (field; lra).
  assert (inject_Z k * b <= a / b * b) by (apply Qmult_le_compat_r; lra).
  assert (a / b * b < (inject_Z k + 1) * b) by (apply Qmult_lt_compat_r; lra). split; lra.
Qed.
Lemma qmod_unique a b k r : 0 < b -> 0 <= r -> r < b -> a == b * inject_Z k + r -> qmod a b == r.
Proof.
  intros Hb H0 H1 E. pose proof (qmod_range a b Hb) as [M0 M1]. unfold qmod in *. set (q := Qfloor (a / b)) in *.
  assert (Hk : inject_Z k == inject_Z q).
  { destruct (Z.lt_trichotomy k q) as [H|[->|H]]; [|reflexivity|].
    - exfalso. assert (inject_Z k + 1 <= inject_Z q) by (change 1 with (inject_Z 1); rewrite <- inject_Z_plus, <- Zle_Qle; lia).
      assert (b * (inject_Z k + 1) <= b * inject_Z q) by (rewrite !(Qmult_comm b); apply Qmult_le_compat_r; lra). lra.
    - exfalso. assert (inject_Z q + 1 <= inject_Z k) by (change 1 with (inject_Z 1); rewrite <- inject_Z_plus, <- Zle_Qle; lia).
      assert (b * (inject_Z q + 1) <= b * inject_Z k) by (rewrite !(Qmult_comm b); apply Qmult_le_compat_r; lra). lra. }
  rewrite E, Hk. ring.
Qed.
Lemma qmod_shift a b k : 0 < b -> qmod (a + inject_Z k * b) b == qmod a b.
Proof.
  intros Hb. pose proof (qmod_range a b Hb) as [M0 M1]. apply (qmod_unique _ b (k + Qfloor (a / b))); [exact Hb|exact M0|exact M1|].
  unfold qmod. rewrite inject_Z_plus. ring.
Qed.

Section Circular.
  Context (first : Q * Q) (rest : list (Q * Q)) (Hs : series (first :: rest)).
  Lemma sorted_first : forall x, In x (map fst rest) -> fst first < x.
  Proof.
    unfold series in Hs. cbn [map] in Hs. apply StronglySorted_inv in Hs. destruct Hs as [_ Hf]. rewrite Forall_forall in Hf. exact Hf.
  Qed.
  Lemma xmin_first : xmin first rest == fst first.
  Proof.
    unfold xmin. destruct (qminl_le (fst first) (map fst rest)) as [H1 _].
    destruct (qminl_in (fst first) (map fst rest)) as [<-|H]; [reflexivity|]. pose proof (sorted_first _ H). lra.
  Qed.
  Lemma xmax_all p : In p (first :: rest) -> fst p <= xmax first rest.
  Proof.
    intros Hp. unfold xmax. destruct (qmaxl_ge (fst first) (map fst rest)) as [H1 H2].
    destruct Hp as [->|Hp]; [exact H1|]. apply H2. now apply in_map.
  Qed.
  Lemma rng_pos : 0 < xmax first rest - xmin first rest + 1.
  Proof. rewrite xmin_first. pose proof (xmax_all first (or_introl eq_refl)). lra. Qed.

  (** The argument handed to numpy.interp. *)
  Lemma circular_arg x : xmin first rest <= x -> x < xmax first rest + 1 ->
    xmin first rest + qmod (x - xmax first rest - 1) (xmax first rest - xmin first rest + 1) == x.
  Proof.
    intros H1 H2. pose proof rng_pos as Hp.
    rewrite (qmod_unique _ _ (-1) (x - xmin first rest)); [ring|exact Hp|lra|lra|]. change (inject_Z (-1)) with (-1 # 1). ring.
  Qed.
  Lemma circular_inside x pre a b post : first :: rest = pre ++ a :: b :: post -> fst a <= x -> x <= fst b ->
    on_line a b x (interp_circular x first rest).
  Proof.
    intros E Ha Hb. unfold interp_circular, interp.
    assert (Hlo : xmin first rest <= x).
    { rewrite xmin_first. destruct pre as [|p pre]; [injection E as E1 _; rewrite E1; exact Ha|]. injection E as _ E.
      assert (fst first < fst a) by (apply sorted_first; rewrite E, map_app; apply in_or_app; right; now left). lra. }
    assert (Hhi : x <= xmax first rest).
    { assert (fst b <= xmax first rest) by (apply xmax_all; rewrite E; apply in_or_app; right; right; now left). lra. }
    pose proof (circular_arg x Hlo) as C. assert (Hx : x < xmax first rest + 1) by lra. specialize (C Hx).
    unfold on_line. rewrite (interp_proper _ x C).
    apply (interp_segment x rest (fst first) (snd first) Hs pre a b post); [|exact Ha|exact Hb].
    rewrite <- surjective_pairing. exact E.
  Qed.
  Lemma circular_range x lo hi : within lo hi (map snd (first :: rest)) ->
    lo <= interp_circular x first rest /\ interp_circular x first rest <= hi.
  Proof. intros H. unfold interp_circular, interp. apply interp_range; [exact Hs|exact H]. Qed.
  Lemma circular_periodic x k :
    interp_circular (x + inject_Z k * (xmax first rest - xmin first rest + 1)) first rest == interp_circular x first rest.
  Proof.
    unfold interp_circular, interp. apply interp_proper. set (b := xmax first rest - xmin first rest + 1).
    assert (E : forall y, qmod (x + inject_Z k * b - y - 1) b == qmod (x - y - 1) b).
    { intros y. rewrite <- (qmod_shift (x - y - 1) b k) by (exact rng_pos).
      apply (qmod_unique _ b (k + Qfloor ((x - y - 1) / b))); try exact rng_pos.
      - destruct (qmod_range (x - y - 1 + inject_Z k * b) b rng_pos) as [M _]. exact M.
      - destruct (qmod_range (x - y - 1 + inject_Z k * b) b rng_pos) as [_ M]. exact M.
      - rewrite (qmod_shift (x - y - 1) b k) by (exact rng_pos). unfold qmod. rewrite inject_Z_plus. ring. }
    rewrite E. reflexivity.
  Qed.
  Lemma circular_hold x : xmax first rest <= x -> x < xmax first rest + 1 ->
    interp_circular x first rest == snd (last rest first).
  Proof.
    intros H1 H2. unfold interp_circular, interp.
    assert (Hlo : xmin first rest <= x) by (pose proof rng_pos; pose proof (xmax_all first (or_introl eq_refl)); rewrite xmin_first; lra).
    rewrite (interp_proper _ x (circular_arg x Hlo H2)). rewrite interp_last.
    - now rewrite <- surjective_pairing.
    - intros p Hp. rewrite <- surjective_pairing in Hp. pose proof (xmax_all p Hp). lra.
  Qed.
End Circular.

(** ** Masks *)
Lemma map2_nth_error {A B C} (f : A -> B -> C) l : forall m i a b, nth_error l i = Some a -> nth_error m i = Some b ->
  nth_error (map2 f l m) i = Some (f a b).
Proof.
  induction l as [|x l IH]; intros m i a b Ha Hb; [destruct i; discriminate|]. destruct m as [|y m]; [destruct i; discriminate|].
  destruct i as [|i]; cbn in *; [congruence|]. now apply IH.
Qed.
Lemma mask_cell arr cs i j c vs v : nth_error cs i = Some c -> nth_error arr i = Some vs -> nth_error vs j = Some v ->
  exists vs' v', nth_error (apply_mask arr (Cells cs)) i = Some vs' /\ nth_error vs' j = Some v' /\ v' == fst c * v + snd c.
Proof.
  intros Hc Ha Hv. exists (map (mask_value c) vs), (mask_value c v). split; [|split].
  - apply (map2_nth_error (fun c vs => map (mask_value c) vs)); assumption.
  - now apply map_nth_error.
  - unfold mask_value. ring.
Qed.
Definition same2 (a b : list (list Q)) : Prop := Forall2 same a b.
Lemma same2_refl a : same2 a a.
Proof. unfold same2. induction a; constructor; [apply same_refl|assumption]. Qed.
Lemma mask_lane_id c l : fst c == 1 -> snd c == 0 -> same (map (mask_value c) l) l.
Proof.
  intros H1 H2. assert (G : same (map (mask_value c) l) (map (fun a => a) l)).
  { apply same_map. intros x _. unfold mask_value. rewrite H1, H2. ring. }
  rewrite map_id in G. exact G.
Qed.
Lemma mask_absent arr : same2 (apply_mask arr (mask_of None)) arr.
Proof.
  unfold mask_of, apply_mask, same2. induction arr as [|l arr IH]; cbn [map]; constructor; [now apply mask_lane_id|exact IH].
Qed.
Lemma mask_identity arr : forall cs, length cs = length arr -> Forall (fun c => fst c == 1 /\ snd c == 0) cs ->
  same2 (apply_mask arr (Cells cs)) arr.
Proof.
  unfold same2, apply_mask. induction arr as [|l arr IH]; intros [|c cs] Hl Hc; cbn in *; try discriminate; constructor.
  - inversion Hc as [|? ? [H1 H2] _]; subst. now apply mask_lane_id.
  - apply IH; [lia|]. now inversion Hc.
Qed.
Lemma mask_compose_lane c d l : same (map (mask_value d) (map (mask_value c) l)) (map (mask_value (compose c d)) l).
Proof. rewrite map_map. apply same_map. intros x _. unfold mask_value, compose. cbn [fst snd]. ring. Qed.
Lemma mask_compose arr : forall cs ds, length cs = length arr -> length ds = length arr ->
  same2 (apply_mask (apply_mask arr (Cells cs)) (Cells ds)) (apply_mask arr (Cells (map2 compose cs ds))).
Proof.
  unfold same2, apply_mask. induction arr as [|l arr IH]; intros [|c cs] [|d ds] H1 H2; cbn in *; try discriminate; constructor.
  - apply mask_compose_lane.
  - apply IH; lia.
Qed.
Lemma mask_scalar arr : forall c, apply_mask arr (Scalar c) = apply_mask arr (Cells (map (fun _ => c) arr)).
Proof. intros c. unfold apply_mask. induction arr as [|l arr IH]; cbn; [reflexivity|]. now rewrite IH. Qed.

(** ** Grain sizes *)
Lemma mean_within lo hi : forall sizes mass, length sizes = length mass -> within lo hi sizes -> all_nonneg mass ->
  lo * qsum mass <= qsum (map2 Qmult sizes mass) /\ qsum (map2 Qmult sizes mass) <= hi * qsum mass.
Proof.
  induction sizes as [|d sizes IH]; intros [|m mass] Hl Hw Hm; cbn in Hl; try discriminate; cbn [map2].
  - unfold qsum. cbn [fold_right]. lra.
  - assert (Hl' : length sizes = length mass) by lia.
    destruct (IH mass Hl') as [A B]; [intros x Hx; apply Hw; now right|intros x Hx; apply Hm; now right|].
    destruct (Hw d (or_introl eq_refl)) as [C D]. assert (E : 0 <= m) by (apply Hm; now left).
    assert (lo * m <= d * m) by (apply Qmult_le_compat_r; lra). assert (d * m <= hi * m) by (apply Qmult_le_compat_r; lra).
    unfold qsum in *. cbn [fold_right]. split; lra.
Qed.
Lemma qsum_map2_div c : forall sizes mass, qsum (map2 Qmult sizes (map (fun m => m / c) mass)) == qsum (map2 Qmult sizes mass) / c.
Proof.
  induction sizes as [|d sizes IH]; intros [|m mass]; cbn [map2 map]; unfold qsum in *; cbn [fold_right]; try (unfold Qdiv; ring).
  rewrite IH. unfold Qdiv. ring.
Qed.
Lemma mean_grain_within lo hi sizes mass : length sizes = length mass -> within lo hi sizes -> all_nonneg mass -> 0 < qsum mass ->
  lo <= calc_mean_grain_size sizes mass /\ calc_mean_grain_size sizes mass <= hi.
Proof.
  intros Hl Hw Hm Hs. unfold calc_mean_grain_size. rewrite qsum_map2_div. destruct (mean_within lo hi sizes mass Hl Hw Hm) as [A B]. split.
  - apply Qle_shift_div_l; [exact Hs|exact A].
  - apply Qle_shift_div_r; [exact Hs|exact B].
Qed.

(** Points ordered in their first coordinate. *)
Definition rising (x0 : Q) (pts : list (Q * Q)) : Prop := StronglySorted Qle (x0 :: map fst pts).
Lemma rising_inv x0 x1 y1 pts : rising x0 ((x1, y1) :: pts) -> x0 <= x1 /\ rising x1 pts.
Proof.
  unfold rising. cbn [map fst]. intros H. apply StronglySorted_inv in H. destruct H as [H1 H2]. split; [|exact H1].
  rewrite Forall_forall in H2. apply H2. now left.
Qed.
Lemma line_form y0 y1 d e : (y1 - y0) / d * e + y0 == y0 + (y1 - y0) / d * e.
Proof. ring. Qed.
Lemma interp1d_range lo hi x : forall rest x0 y0, rising x0 rest -> rest <> [] ->
  lo <= y0 -> y0 <= hi -> within lo hi (map snd rest) -> x0 < x -> x <= fst (last rest (0, 0)) ->
  lo <= interp1d x x0 y0 rest /\ interp1d x x0 y0 rest <= hi.
Proof.
  induction rest as [|[x1 y1] rest IH]; intros x0 y0 Hr Hne L U Hw Hx0 Hx; [contradiction|].
  destruct (rising_inv _ _ _ _ Hr) as [H01 Hr']. destruct (Hw y1 (or_introl eq_refl)) as [L1 U1].
  assert (Hseg : x <= x1 -> lo <= (y1 - y0) / (x1 - x0) * (x - x0) + y0 /\ (y1 - y0) / (x1 - x0) * (x - x0) + y0 <= hi).
  { intros H. rewrite line_form. apply line_between; lra. }
  cbn [interp1d]. destruct rest as [|p rest]; [apply Hseg; exact Hx|].
  destruct (Qle_bool_spec x x1) as [H|H]; [now apply Hseg|].
  apply IH; [exact Hr'|discriminate|exact L1|exact U1|intros z Hz; apply Hw; now right|lra|exact Hx].
Qed.
Definition climbing (y0 : Q) (pts : list (Q * Q)) : Prop := StronglySorted Qle (y0 :: map snd pts).
Lemma climbing_inv y0 x1 y1 pts : climbing y0 ((x1, y1) :: pts) -> y0 <= y1 /\ climbing y1 pts.
Proof.
  unfold climbing. cbn [map snd]. intros H. apply StronglySorted_inv in H. destruct H as [H1 H2]. split; [|exact H1].
  rewrite Forall_forall in H2. apply H2. now left.
Qed.
Lemma sorted_le_max l : forall y0, StronglySorted Qle (y0 :: l) -> within y0 (qmaxl y0 l) l.
Proof.
  intros y0 H x Hx. apply StronglySorted_inv in H. destruct H as [_ H]. rewrite Forall_forall in H. split; [now apply H|].
  destruct (qmaxl_ge y0 l) as [_ G]. now apply G.
Qed.
Lemma interp1d_monotone p q : p <= q -> forall rest x0 y0, rising x0 rest -> climbing y0 rest -> rest <> [] -> x0 < p ->
  q <= fst (last rest (0, 0)) -> interp1d p x0 y0 rest <= interp1d q x0 y0 rest.
Proof.
  intros Hpq. induction rest as [|[x1 y1] rest IH]; intros x0 y0 Hr Hc Hne Hp Hq; [contradiction|].
  destruct (rising_inv _ _ _ _ Hr) as [H01 Hr']. destruct (climbing_inv _ _ _ _ Hc) as [H01' Hc'].
  assert (Hlin : x0 < x1 -> (y1 - y0) / (x1 - x0) * (p - x0) + y0 <= (y1 - y0) / (x1 - x0) * (q - x0) + y0).
  { intros H. assert (0 <= (y1 - y0) / (x1 - x0)) by (apply qdiv_nonneg; lra).
    assert (0 <= (y1 - y0) / (x1 - x0) * (q - p)) by (apply Qmult_le_0_compat; lra). lra. }
  cbn [interp1d]. destruct rest as [|r rest]; [cbn [last fst] in Hq; apply Hlin; lra|].
  destruct (Qle_bool_spec p x1) as [H1|H1], (Qle_bool_spec q x1) as [H2|H2].
  - apply Hlin. lra.
  - assert (A : y1 <= interp1d q x1 y1 (r :: rest)).
    { refine (proj1 (interp1d_range y1 (qmaxl y1 (map snd (r :: rest))) q (r :: rest) x1 y1 Hr' ltac:(discriminate) _ _ (sorted_le_max _ _ Hc') _ Hq)); [lra| |lra].
      exact (proj1 (qmaxl_ge _ _)). }
    assert (B : y0 <= (y1 - y0) / (x1 - x0) * (p - x0) + y0 /\ (y1 - y0) / (x1 - x0) * (p - x0) + y0 <= y1).
    { rewrite line_form. apply line_between; lra. }
    lra.
  - exfalso. lra.
  - apply IH; [exact Hr'|exact Hc'|discriminate|lra|exact Hq].
Qed.

(** The cumulative percentages of a cell. *)
Lemma cumsum_length l : forall acc, length (cumsum acc l) = length l.
Proof. induction l as [|x l IH]; intros acc; cbn; [reflexivity|]. now rewrite IH. Qed.
Lemma cumsum_sorted l : all_nonneg l -> forall acc, StronglySorted Qle (acc :: cumsum acc l).
Proof.
  induction l as [|x l IH]; intros H acc; cbn [cumsum]; [repeat constructor|].
  assert (Hx : 0 <= x) by (apply H; now left). assert (Hl : all_nonneg l) by (intros y Hy; apply H; now right).
  pose proof (IH Hl (acc + x)) as S. constructor; [exact S|].
  apply StronglySorted_inv in S. destruct S as [_ F]. constructor; [lra|].
  rewrite Forall_forall in F |- *. intros y Hy. specialize (F y Hy). lra.
Qed.
Lemma cumsum_last l : forall acc, last (cumsum acc l) acc == acc + qsum l.
Proof.
  induction l as [|x l IH]; intros acc; cbn [cumsum]; [unfold qsum; cbn; lra|]. rewrite last_cons.
  rewrite IH. unfold qsum. cbn [fold_right]. ring.
Qed.
Lemma sorted_last_max l : forall a, StronglySorted Qle (a :: l) -> qmaxl a l == last l a.
Proof.
  induction l as [|x l IH]; intros a H; [reflexivity|]. rewrite last_cons. unfold qmaxl. cbn [fold_left]. fold (qmaxl (qmax a x) l).
  pose proof H as H'. apply StronglySorted_inv in H. destruct H as [H1 H2]. rewrite Forall_forall in H2.
  assert (a <= x) by (apply H2; now left). unfold qmax. destruct (Qle_bool_spec a x) as [_|N]; [|contradiction]. now apply IH.
Qed.
Lemma percentages_shape mass : all_nonneg mass -> 0 < qsum mass ->
  exists p0 ps, percentages mass = p0 :: ps /\ p0 == 0 /\ length ps = length mass /\ StronglySorted Qle (p0 :: ps) /\ (mass <> [] -> last ps 0 == 100).
Proof.
  intros Hm Hs. unfold percentages. cbn [cumsum]. set (a := 0 + 0). set (c := cumsum a mass).
  assert (Sc : StronglySorted Qle (a :: c)) by (apply cumsum_sorted; exact Hm).
  assert (Hmax : qmaxl 0 (a :: c) == qsum mass).
  { unfold qmaxl. cbn [fold_left]. fold (qmaxl (qmax 0 a) c). change (qmax 0 a) with a. rewrite sorted_last_max by exact Sc.
    unfold c. rewrite cumsum_last. unfold a. ring. }
  set (M := qmaxl 0 (a :: c)) in *. cbn [map]. exists (100 * a / M), (map (fun x => 100 * x / M) c).
  assert (HM : 0 < M) by (rewrite Hmax; exact Hs).
  split; [reflexivity|]. split; [unfold a; field; lra|]. split; [unfold c; now rewrite map_length, cumsum_length|]. split.
  - change (100 * a / M :: map (fun x => 100 * x / M) c) with (map (fun x => 100 * x / M) (a :: c)).
    clear Hmax. clearbody M. revert Sc. generalize (a :: c). induction l as [|x l IH]; intros S; cbn [map]; [constructor|].
    apply StronglySorted_inv in S. destruct S as [S F]. constructor; [now apply IH|]. rewrite Forall_forall in F |- *.
    intros y Hy. apply in_map_iff in Hy. destruct Hy as [z [<- Hz]]. specialize (F z Hz).
    apply Qle_shift_div_l; [exact HM|]. assert (E : 100 * x / M * M == 100 * x) by (field; lra). rewrite E. lra.
  - intros Hne. assert (L : last c a == qsum mass) by (unfold c; rewrite cumsum_last; unfold a; ring).
    assert (Hc : c <> []) by (destruct mass; [contradiction|discriminate]).
    destruct c as [|c0 c]; [contradiction|]. cbn [map]. rewrite last_cons in L |- *.
    assert (G : forall l z, last (map (fun x => 100 * x / M) l) (100 * z / M) = 100 * last l z / M).
    { clear. induction l as [|y l IH]; intros z; [reflexivity|]. cbn [map]. rewrite !last_cons. apply IH. }
    rewrite G, L, <- Hmax. field. lra.
Qed.
Lemma combine_fst {A B} (l : list A) : forall m : list B, length l = length m -> map fst (combine l m) = l.
Proof. induction l as [|a l IH]; intros [|b m] H; cbn in *; try discriminate; [reflexivity|]. now rewrite IH by lia. Qed.
Lemma combine_snd {A B} (l : list A) : forall m : list B, length l = length m -> map snd (combine l m) = m.
Proof. induction l as [|a l IH]; intros [|b m] H; cbn in *; try discriminate; [reflexivity|]. now rewrite IH by lia. Qed.
Lemma last_map {A B} (f : A -> B) l : forall d, last (map f l) (f d) = f (last l d).
Proof. induction l as [|y l IH]; intros z; [reflexivity|]. cbn [map]. rewrite !last_cons. apply IH. Qed.

Lemma grain_points sizes mass : length sizes = length mass -> sizes <> [] -> all_nonneg mass -> 0 < qsum mass ->
  exists x0 pts, (forall percent, calc_grain_size sizes mass percent = interp1d percent x0 0 pts) /\ x0 == 0 /\ pts <> [] /\
    rising x0 pts /\ map snd pts = sizes /\ fst (last pts (0, 0)) == 100.
Proof.
  intros Hl Hne Hm Hs. destruct (percentages_shape mass Hm Hs) as [p0 [ps [E [E0 [L [S La]]]]]].
  unfold calc_grain_size. rewrite E. cbn [combine].
  exists p0, (combine ps sizes). split; [reflexivity|]. split; [exact E0|].
  assert (L' : length ps = length sizes) by lia.
  split; [destruct ps, sizes; cbn in *; try discriminate; contradiction|].
  split; [unfold rising; rewrite combine_fst by exact L'; exact S|]. split; [now apply combine_snd|].
  rewrite <- (last_map fst), combine_fst by exact L'. apply La. destruct mass; [|discriminate]. destruct sizes; [contradiction|discriminate].
Qed.
Lemma grain_size_bounds sizes mass hi percent : length sizes = length mass -> sizes <> [] -> all_nonneg mass -> 0 < qsum mass ->
  within 0 hi sizes -> 0 < percent -> percent <= 100 ->
  0 <= calc_grain_size sizes mass percent /\ calc_grain_size sizes mass percent <= hi.
Proof.
  intros Hl Hne Hm Hs Hw H0 H1. destruct (grain_points sizes mass Hl Hne Hm Hs) as [x0 [pts [E [E0 [Hp [R [Sn La]]]]]]].
  rewrite E. apply interp1d_range; [exact R|exact Hp|lra| |rewrite Sn; exact Hw|lra|lra].
  destruct sizes as [|d sizes]; [contradiction|]. destruct (Hw d (or_introl eq_refl)). lra.
Qed.
Lemma grain_size_monotone sizes mass p q : length sizes = length mass -> sizes <> [] -> all_nonneg mass -> 0 < qsum mass ->
  StronglySorted Qle (0 :: sizes) -> 0 < p -> p <= q -> q <= 100 ->
  calc_grain_size sizes mass p <= calc_grain_size sizes mass q.
Proof.
  intros Hl Hne Hm Hs Hw H0 Hpq H1. destruct (grain_points sizes mass Hl Hne Hm Hs) as [x0 [pts [E [E0 [Hp [R [Sn La]]]]]]].
  rewrite !E. apply interp1d_monotone; [exact Hpq|exact R|unfold climbing; rewrite Sn; exact Hw|exact Hp|lra|lra].
Qed.
(** One fraction in the layer: the percentile is that percentage of its diameter. *)
Lemma grain_size_single d m percent : 0 < m -> calc_grain_size [d] [m] percent == percent / 100 * d.
Proof.
  intros Hm. destruct (grain_points [d] [m]) as [x0 [pts [E [E0 [Hp [R [Sn La]]]]]]]; [reflexivity|discriminate| | |].
  - intros x [<-|[]]. lra.
  - unfold qsum. cbn. lra.
  - destruct pts as [|[x1 y1] [|]]; cbn in Sn; try discriminate. injection Sn as ->. cbn [last fst] in La. rewrite E.
    cbn [interp1d]. rewrite La, E0. field.
Qed.

(** ** prevent_tiny_negatives *)
Lemma tiny_negative_small e r x : 0 <= r -> r <= e -> 0 <= e -> qabs (no_tiny_negative e r x - x) <= 2 * e.
Proof.
  intros H1 H2 H3. unfold no_tiny_negative, qabs.
  destruct (Qltb_spec x 0) as [A|A]; cbn [andb]; [destruct (Qltb_spec (- e) x) as [B|B]|]; qsplit; lra.
Qed.
